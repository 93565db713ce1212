(** Generated by tools/translate_codegen.py from ebcc/codegen/RCCSDT.py; one statement per source line
    (the number in the comment before it). *)
From Coq Require Import ZArith List.
From Verif Require Import CgModel CgNames.
Import ListNotations.

(** ebcc/codegen/RCCSDT.py:7-20 [energy] *)
Definition RCCSDT_energy : prog := mkprog
 [(n_f'ov,[0;1]); (n_t1,[0;1]); (n_v'ovov,[0;1;0;1]); (n_t2,[0;0;1;1])]
 [(*9*) Assign n_e_cc (Plain (Zeros []));
  (*10*) AddTo n_e_cc (Times (Einsum [(n_f'ov,[0;1]); (n_t1,[0;1])] []) (2) 1);
  (*11*) Assign (T 1) (Plain (Zeros [0;0;1;1]));
  (*12*) AddTo (T 1) (Times (Einsum [(n_v'ovov,[0;1;2;3])] [0;2;3;1]) (-1) 2);
  (*13*) AddTo (T 1) (Plain (Einsum [(n_v'ovov,[0;1;2;3])] [0;2;1;3]));
  (*14*) Assign (T 2) (Plain (Zeros [0;0;1;1]));
  (*15*) AddTo (T 2) (Plain (Einsum [(n_t2,[0;1;2;3])] [0;1;2;3]));
  (*16*) AddTo (T 2) (Plain (Einsum [(n_t1,[0;1]); (n_t1,[2;3])] [0;2;1;3]));
  (*17*) AddTo n_e_cc (Times (Einsum [(T 1,[0;1;2;3]); (T 2,[0;1;2;3])] []) (2) 1);
  (*18*) Del (T 1);
  (*18*) Del (T 2)]
 [(n_e_cc,[])].

(** ebcc/codegen/RCCSDT.py:22-1227 [update_amps] *)
Definition RCCSDT_update_amps : prog := mkprog
 [(n_f'ov,[0;1]); (n_f'vv,[1;1]); (n_t1,[0;1]); (n_t2,[0;0;1;1]); (n_v'vvvv,[1;1;1;1]); (n_v'ovov,[0;1;0;1]); (n_v'oovv,[0;0;1;1]); (n_t3,[0;0;0;1;1;1]); (n_v'ovvv,[0;1;1;1]); (n_v'ooov,[0;0;0;1]); (n_f'oo,[0;0]); (n_v'oooo,[0;0;0;0])]
 [(*24*) Assign n_t1new (Plain (Zeros [0;1]));
  (*25*) AddTo n_t1new (Plain (Einsum [(n_f'ov,[0;1])] [0;1]));
  (*26*) AddTo n_t1new (Plain (Einsum [(n_f'vv,[0;1]); (n_t1,[2;1])] [2;0]));
  (*27*) Assign n_t2new (Plain (Zeros [0;0;1;1]));
  (*28*) AddTo n_t2new (Plain (Einsum [(n_t2,[0;1;2;3]); (n_v'vvvv,[4;2;5;3])] [0;1;4;5]));
  (*29*) AddTo n_t2new (Plain (Einsum [(n_v'ovov,[0;1;2;3])] [0;2;1;3]));
  (*30*) AddTo n_t2new (Times (Einsum [(n_t2,[0;1;2;3]); (n_v'ovov,[4;5;1;3])] [4;0;5;2]) (2) 1);
  (*31*) AddTo n_t2new (Times (Einsum [(n_t2,[0;1;2;3]); (n_v'oovv,[4;1;5;2])] [4;0;3;5]) (-1) 1);
  (*32*) AddTo n_t2new (Times (Einsum [(n_t2,[0;1;2;3]); (n_v'oovv,[4;1;5;3])] [4;0;5;2]) (-1) 1);
  (*33*) Assign (T 1) (Plain (Zeros [0;0;1;1]));
  (*34*) AddTo (T 1) (Plain (Einsum [(n_v'ovov,[0;1;2;3])] [0;2;3;1]));
  (*35*) AddTo (T 1) (Times (Einsum [(n_v'ovov,[0;1;2;3])] [0;2;1;3]) (-1) 1);
  (*36*) Assign (T 2) (Plain (Zeros [0;0;0;1;1;1]));
  (*37*) AddTo (T 2) (Plain (Einsum [(n_t3,[0;1;2;3;4;5])] [0;2;1;3;5;4]));
  (*38*) AddTo (T 2) (Plain (Einsum [(n_t3,[0;1;2;3;4;5])] [0;1;2;5;3;4]));
  (*39*) AddTo n_t1new (Times (Einsum [(T 1,[0;1;2;3]); (T 2,[1;4;0;2;3;5])] [4;5]) (-1) 4);
  (*40*) Del (T 2);
  (*41*) Assign (T 3) (Plain (Zeros [0;0;1;1]));
  (*42*) AddTo (T 3) (Times (Einsum [(n_v'ovov,[0;1;2;3])] [0;2;3;1]) (-3333333333333333) 10000000000000000);
  (*43*) AddTo (T 3) (Plain (Einsum [(n_v'ovov,[0;1;2;3])] [0;2;1;3]));
  (*44*) AddTo n_t1new (Times (Einsum [(T 3,[0;1;2;3]); (n_t3,[4;0;1;5;2;3])] [4;5]) (3) 2);
  (*45*) Assign (T 4) (Plain (Zeros [0;0;1;1]));
  (*46*) AddTo (T 4) (Plain (Einsum [(n_t2,[0;1;2;3])] [0;1;2;3]));
  (*47*) AddTo (T 4) (Plain (Einsum [(n_t1,[0;1]); (n_t1,[2;3])] [0;2;1;3]));
  (*48*) Assign (T 5) (Plain (Zeros [0;1;1;1]));
  (*49*) AddTo (T 5) (Plain (Einsum [(n_v'ovvv,[0;1;2;3])] [0;1;2;3]));
  (*50*) AddTo (T 5) (Times (Einsum [(n_v'ovvv,[0;1;2;3])] [0;2;1;3]) (-1) 2);
  (*51*) AddTo n_t1new (Times (Einsum [(T 4,[0;1;2;3]); (T 5,[0;2;3;4])] [1;4]) (2) 1);
  (*52*) Assign (T 6) (Plain (Zeros [0;0;0;1]));
  (*53*) AddTo (T 6) (Plain (Einsum [(n_t1,[0;1]); (n_v'ovov,[2;3;4;1])] [0;2;4;3]));
  (*54*) Assign (T 7) (Plain (Zeros [0;0;0;1]));
  (*55*) AddTo (T 7) (Times (Einsum [(n_v'ooov,[0;1;2;3])] [0;1;2;3]) (2) 1);
  (*56*) AddTo (T 7) (Times (Einsum [(n_v'ooov,[0;1;2;3])] [0;2;1;3]) (-1) 1);
  (*57*) AddTo (T 7) (Times (Einsum [(T 6,[0;1;2;3])] [0;1;2;3]) (-1) 1);
  (*58*) AddTo (T 7) (Times (Einsum [(T 6,[0;1;2;3])] [0;2;1;3]) (2) 1);
  (*59*) AddTo n_t1new (Times (Einsum [(n_t2,[0;1;2;3]); (T 7,[4;0;1;3])] [4;2]) (-1) 1);
  (*60*) Del (T 7);
  (*61*) Assign (T 8) (Plain (Zeros [0;0;1;1]));
  (*62*) AddTo (T 8) (Times (Einsum [(n_v'ovov,[0;1;2;3])] [0;2;3;1]) (-1) 2);
  (*63*) AddTo (T 8) (Plain (Einsum [(n_v'ovov,[0;1;2;3])] [0;2;1;3]));
  (*64*) Assign (T 9) (Plain (Zeros [0;1]));
  (*65*) AddTo (T 9) (Plain (Einsum [(n_t1,[0;1]); (T 8,[0;2;1;3])] [2;3]));
  (*66*) Assign (T 10) (Plain (Zeros [0;1]));
  (*67*) AddTo (T 10) (Times (Einsum [(n_f'ov,[0;1])] [0;1]) (1) 2);
  (*68*) AddTo (T 10) (Plain (Einsum [(T 9,[0;1])] [0;1]));
  (*69*) Assign (T 11) (Plain (Zeros [0;0;1;1]));
  (*70*) AddTo (T 11) (Times (Einsum [(n_t2,[0;1;2;3])] [0;1;3;2]) (2) 1);
  (*71*) AddTo (T 11) (Times (Einsum [(n_t2,[0;1;2;3])] [0;1;2;3]) (-1) 1);
  (*72*) AddTo n_t1new (Times (Einsum [(T 10,[0;1]); (T 11,[0;2;3;1])] [2;3]) (2) 1);
  (*73*) Del (T 11);
  (*74*) Assign (T 12) (Plain (Zeros [0;0;1;1]));
  (*75*) AddTo (T 12) (Plain (Einsum [(n_v'ovov,[0;1;2;3])] [0;2;1;3]));
  (*76*) AddTo (T 12) (Times (Einsum [(n_v'oovv,[0;1;2;3])] [0;1;2;3]) (-1) 2);
  (*77*) AddTo n_t1new (Times (Einsum [(n_t1,[0;1]); (T 12,[0;2;1;3])] [2;3]) (2) 1);
  (*78*) Del (T 12);
  (*79*) Assign (T 13) (Plain (Zeros [0;0]));
  (*80*) AddTo (T 13) (Plain (Einsum [(n_f'ov,[0;1]); (n_t1,[2;1])] [0;2]));
  (*81*) Assign (T 14) (Plain (Zeros [0;0;1;1]));
  (*82*) AddTo (T 14) (Plain (Einsum [(n_v'ovov,[0;1;2;3])] [0;2;3;1]));
  (*83*) AddTo (T 14) (Times (Einsum [(n_v'ovov,[0;1;2;3])] [0;2;1;3]) (-1) 2);
  (*84*) Assign (T 15) (Plain (Zeros [0;0]));
  (*85*) AddTo (T 15) (Times (Einsum [(T 14,[0;1;2;3]); (T 4,[0;4;3;2])] [4;1]) (2) 1);
  (*86*) Assign (T 16) (Plain (Zeros [0;0;0;1]));
  (*87*) AddTo (T 16) (Plain (Einsum [(n_v'ooov,[0;1;2;3])] [0;1;2;3]));
  (*88*) AddTo (T 16) (Times (Einsum [(n_v'ooov,[0;1;2;3])] [0;2;1;3]) (-1) 2);
  (*89*) Assign (T 17) (Plain (Zeros [0;0]));
  (*90*) AddTo (T 17) (Times (Einsum [(n_t1,[0;1]); (T 16,[2;3;0;1])] [2;3]) (2) 1);
  (*91*) Assign (T 18) (Plain (Zeros [0;0]));
  (*92*) AddTo (T 18) (Plain (Einsum [(n_f'oo,[0;1])] [0;1]));
  (*93*) AddTo (T 18) (Plain (Einsum [(T 13,[0;1])] [0;1]));
  (*94*) AddTo (T 18) (Plain (Einsum [(T 15,[0;1])] [1;0]));
  (*95*) AddTo (T 18) (Plain (Einsum [(T 17,[0;1])] [1;0]));
  (*96*) Del (T 17);
  (*97*) AddTo n_t1new (Times (Einsum [(n_t1,[0;1]); (T 18,[0;2])] [2;1]) (-1) 1);
  (*98*) Assign n_t3new (Plain (Zeros [0;0;0;1;1;1]));
  (*99*) AddTo n_t3new (Times (Einsum [(T 18,[0;1]); (n_t3,[2;0;3;4;5;6])] [2;1;3;4;5;6]) (-1) 1);
  (*100*) Del (T 18);
  (*101*) Assign (T 19) (Plain (Zeros [0;0;1;1]));
  (*102*) AddTo (T 19) (Plain (Einsum [(n_t1,[0;1]); (n_v'ooov,[2;0;3;4])] [2;3;1;4]));
  (*103*) AddTo n_t2new (Times (Einsum [(T 19,[0;1;2;3])] [1;0;3;2]) (-1) 1);
  (*104*) Assign (T 20) (Plain (Zeros [0;0;0;0]));
  (*105*) AddTo (T 20) (Plain (Einsum [(n_t2,[0;1;2;3]); (n_v'ovov,[4;2;5;3])] [0;1;4;5]));
  (*106*) AddTo n_t2new (Plain (Einsum [(n_t2,[0;1;2;3]); (T 20,[4;5;0;1])] [5;4;3;2]));
  (*107*) Assign (T 21) (Plain (Zeros [0;1;1;1]));
  (*108*) AddTo (T 21) (Plain (Einsum [(n_t1,[0;1]); (n_v'vvvv,[2;3;4;1])] [0;2;3;4]));
  (*109*) AddTo n_t2new (Plain (Einsum [(n_t1,[0;1]); (T 21,[2;3;1;4])] [0;2;3;4]));
  (*110*) Assign (T 22) (Plain (Zeros [0;0;1;1]));
  (*111*) AddTo (T 22) (Plain (Einsum [(n_t2,[0;1;2;3]); (n_v'ovov,[4;5;1;2])] [0;4;3;5]));
  (*112*) AddTo n_t2new (Times (Einsum [(T 22,[0;1;2;3])] [0;1;2;3]) (-1) 1);
  (*113*) Assign (T 23) (Plain (Zeros [0;0;1;1]));
  (*114*) AddTo (T 23) (Plain (Einsum [(n_f'vv,[0;1]); (n_t2,[2;3;4;1])] [2;3;0;4]));
  (*115*) Assign (T 24) (Plain (Zeros [0;0;1;1]));
  (*116*) AddTo (T 24) (Plain (Einsum [(n_t1,[0;1]); (n_v'ovvv,[2;3;4;1])] [0;2;3;4]));
  (*117*) Assign (T 25) (Plain (Zeros [0;0;0;0]));
  (*118*) AddTo (T 25) (Plain (Einsum [(n_t1,[0;1]); (n_v'ooov,[2;3;4;1])] [0;2;3;4]));
  (*119*) Assign (T 26) (Plain (Zeros [0;0;1;1]));
  (*120*) AddTo (T 26) (Plain (Einsum [(n_t2,[0;1;2;3]); (T 25,[4;5;0;1])] [4;5;2;3]));
  (*121*) Assign (T 27) (Plain (Zeros [0;0;1;1]));
  (*122*) AddTo (T 27) (Plain (Einsum [(n_t2,[0;1;2;3]); (T 24,[4;1;2;5])] [4;0;3;5]));
  (*123*) Assign (T 28) (Plain (Zeros [0;0;1;1]));
  (*124*) AddTo (T 28) (Plain (Einsum [(T 6,[0;1;2;3]); (n_t3,[4;2;1;5;6;3])] [0;4;5;6]));
  (*125*) Assign (T 29) (Plain (Zeros [0;1;1;1]));
  (*126*) AddTo (T 29) (Times (Einsum [(n_v'ovvv,[0;1;2;3])] [0;1;2;3]) (-1) 1);
  (*127*) AddTo (T 29) (Plain (Einsum [(n_v'ovvv,[0;1;2;3])] [0;2;1;3]));
  (*128*) Assign (T 30) (Plain (Zeros [0;0;1;1]));
  (*129*) AddTo (T 30) (Times (Einsum [(T 29,[0;1;2;3]); (n_t3,[4;5;0;1;6;2])] [4;5;6;3]) (1) 2);
  (*130*) Del (T 29);
  (*131*) Assign (T 31) (Plain (Zeros [0;0;0;1]));
  (*132*) AddTo (T 31) (Times (Einsum [(n_v'ooov,[0;1;2;3])] [0;1;2;3]) (-1) 1);
  (*133*) AddTo (T 31) (Plain (Einsum [(n_v'ooov,[0;1;2;3])] [2;0;1;3]));
  (*134*) Assign (T 32) (Plain (Zeros [0;0;1;1]));
  (*135*) AddTo (T 32) (Times (Einsum [(T 31,[0;1;2;3]); (n_t3,[0;4;2;5;6;3])] [4;1;5;6]) (1) 2);
  (*136*) Del (T 31);
  (*137*) Assign (T 33) (Plain (Zeros [0;0;1;1]));
  (*138*) AddTo (T 33) (Times (Einsum [(n_t1,[0;1]); (T 5,[2;3;1;4])] [0;2;3;4]) (2) 1);
  (*139*) Del (T 5);
  (*140*) Assign (T 34) (Plain (Zeros [0;0;1;1]));
  (*141*) AddTo (T 34) (Plain (Einsum [(n_t2,[0;1;2;3]); (T 33,[4;1;3;5])] [0;4;2;5]));
  (*142*) Del (T 33);
  (*143*) Assign (T 35) (Plain (Zeros [0;0;0;1]));
  (*144*) AddTo (T 35) (Plain (Einsum [(n_t1,[0;1]); (n_v'oovv,[2;3;4;1])] [0;2;3;4]));
  (*145*) Assign (T 36) (Plain (Zeros [0;0;0;1]));
  (*146*) AddTo (T 36) (Plain (Einsum [(n_t2,[0;1;2;3]); (n_v'ooov,[4;1;5;3])] [0;4;5;2]));
  (*147*) Assign (T 37) (Plain (Zeros [0;0;0;1]));
  (*148*) AddTo (T 37) (Plain (Einsum [(n_v'ovov,[0;1;2;3]); (n_t3,[4;5;2;6;1;3])] [4;5;0;6]));
  (*149*) Assign (T 38) (Plain (Zeros [0;0;0;1]));
  (*150*) AddTo (T 38) (Plain (Einsum [(n_t2,[0;1;2;3]); (T 6,[4;5;1;2])] [4;0;5;3]));
  (*151*) Assign (T 39) (Plain (Zeros [0;0;1;1]));
  (*152*) AddTo (T 39) (Times (Einsum [(n_t1,[0;1]); (n_t1,[2;3])] [0;2;1;3]) (1) 2);
  (*153*) AddTo (T 39) (Times (Einsum [(n_t2,[0;1;2;3])] [0;1;3;2]) (-1) 1);
  (*154*) AddTo (T 39) (Times (Einsum [(n_t2,[0;1;2;3])] [0;1;2;3]) (1) 2);
  (*155*) Assign (T 40) (Plain (Zeros [0;0;0;1]));
  (*156*) AddTo (T 40) (Times (Einsum [(n_v'ooov,[0;1;2;3]); (T 39,[2;4;5;3])] [0;1;4;5]) (2) 1);
  (*157*) Assign (T 41) (Plain (Zeros [0;1]));
  (*158*) AddTo (T 41) (Times (Einsum [(n_t1,[0;1]); (T 8,[0;2;1;3])] [2;3]) (2) 1);
  (*159*) Assign (T 42) (Plain (Zeros [0;1]));
  (*160*) AddTo (T 42) (Plain (Einsum [(n_f'ov,[0;1])] [0;1]));
  (*161*) AddTo (T 42) (Plain (Einsum [(T 41,[0;1])] [0;1]));
  (*162*) Del (T 41);
  (*163*) Assign (T 43) (Plain (Zeros [0;0;0;1]));
  (*164*) AddTo (T 43) (Plain (Einsum [(T 42,[0;1]); (n_t2,[2;3;1;4])] [2;3;0;4]));
  (*165*) Assign (T 44) (Plain (Zeros [0;0;0;1]));
  (*166*) AddTo (T 44) (Plain (Einsum [(T 35,[0;1;2;3])] [2;0;1;3]));
  (*167*) AddTo (T 44) (Times (Einsum [(T 36,[0;1;2;3])] [2;0;1;3]) (-1) 1);
  (*168*) Del (T 36);
  (*169*) AddTo (T 44) (Plain (Einsum [(T 37,[0;1;2;3])] [2;0;1;3]));
  (*170*) AddTo (T 44) (Times (Einsum [(T 38,[0;1;2;3])] [2;0;1;3]) (-1) 1);
  (*171*) AddTo (T 44) (Times (Einsum [(T 40,[0;1;2;3])] [1;2;0;3]) (-1) 1);
  (*172*) Del (T 40);
  (*173*) AddTo (T 44) (Plain (Einsum [(T 43,[0;1;2;3])] [2;1;0;3]));
  (*174*) Del (T 43);
  (*175*) Assign (T 45) (Plain (Zeros [0;0;1;1]));
  (*176*) AddTo (T 45) (Plain (Einsum [(n_t1,[0;1]); (T 44,[0;2;3;4])] [2;3;1;4]));
  (*177*) Del (T 44);
  (*178*) Assign (T 46) (Plain (Zeros [0;0]));
  (*179*) AddTo (T 46) (Times (Einsum [(n_t1,[0;1]); (T 42,[2;1])] [0;2]) (1) 2);
  (*180*) Del (T 42);
  (*181*) Assign (T 47) (Plain (Zeros [0;0]));
  (*182*) AddTo (T 47) (Times (Einsum [(n_f'oo,[0;1])] [0;1]) (1) 2);
  (*183*) AddTo (T 47) (Plain (Einsum [(T 46,[0;1])] [0;1]));
  (*184*) Del (T 46);
  (*185*) Assign (T 48) (Plain (Zeros [0;0;1;1]));
  (*186*) AddTo (T 48) (Times (Einsum [(T 47,[0;1]); (n_t2,[2;1;3;4])] [2;0;4;3]) (2) 1);
  (*187*) Del (T 47);
  (*188*) Assign (T 49) (Plain (Zeros [0;0;1;1]));
  (*189*) AddTo (T 49) (Times (Einsum [(T 23,[0;1;2;3])] [0;1;2;3]) (-1) 1);
  (*190*) Del (T 23);
  (*191*) AddTo (T 49) (Times (Einsum [(T 24,[0;1;2;3])] [0;1;2;3]) (-1) 1);
  (*192*) AddTo (T 49) (Times (Einsum [(T 26,[0;1;2;3])] [0;1;2;3]) (-1) 1);
  (*193*) Del (T 26);
  (*194*) AddTo (T 49) (Plain (Einsum [(T 27,[0;1;2;3])] [0;1;2;3]));
  (*195*) Del (T 27);
  (*196*) AddTo (T 49) (Plain (Einsum [(T 28,[0;1;2;3])] [0;1;2;3]));
  (*197*) Del (T 28);
  (*198*) AddTo (T 49) (Times (Einsum [(T 30,[0;1;2;3])] [0;1;2;3]) (-1) 1);
  (*199*) Del (T 30);
  (*200*) AddTo (T 49) (Times (Einsum [(T 32,[0;1;2;3])] [0;1;2;3]) (-1) 1);
  (*201*) Del (T 32);
  (*202*) AddTo (T 49) (Times (Einsum [(T 34,[0;1;2;3])] [1;0;2;3]) (-1) 1);
  (*203*) Del (T 34);
  (*204*) AddTo (T 49) (Plain (Einsum [(T 45,[0;1;2;3])] [0;1;2;3]));
  (*205*) Del (T 45);
  (*206*) AddTo (T 49) (Plain (Einsum [(T 48,[0;1;2;3])] [1;0;3;2]));
  (*207*) Del (T 48);
  (*208*) AddTo n_t2new (Times (Einsum [(T 49,[0;1;2;3])] [0;1;3;2]) (-1) 1);
  (*209*) AddTo n_t2new (Times (Einsum [(T 49,[0;1;2;3])] [1;0;2;3]) (-1) 1);
  (*210*) Del (T 49);
  (*211*) Assign (T 50) (Plain (Zeros [0;0;1;1]));
  (*212*) AddTo (T 50) (Plain (Einsum [(n_v'ooov,[0;1;2;3]); (n_t3,[4;1;2;5;6;3])] [4;0;5;6]));
  (*213*) Assign (T 51) (Plain (Zeros [0;0;0;1]));
  (*214*) AddTo (T 51) (Times (Einsum [(T 6,[0;1;2;3])] [0;1;2;3]) (-1) 1);
  (*215*) AddTo (T 51) (Plain (Einsum [(T 6,[0;1;2;3])] [0;2;1;3]));
  (*216*) Assign (T 52) (Plain (Zeros [0;0;1;1]));
  (*217*) AddTo (T 52) (Times (Einsum [(T 51,[0;1;2;3]); (n_t3,[2;4;1;5;6;3])] [4;0;5;6]) (1) 2);
  (*218*) Del (T 51);
  (*219*) Assign (T 53) (Plain (Zeros [0;0;1;1]));
  (*220*) AddTo (T 53) (Times (Einsum [(T 10,[0;1]); (n_t3,[2;3;0;4;5;1])] [2;3;4;5]) (2) 1);
  (*221*) Assign (T 54) (Plain (Zeros [0;0;1;1]));
  (*222*) AddTo (T 54) (Plain (Einsum [(n_t1,[0;1]); (T 6,[2;3;0;4])] [2;3;1;4]));
  (*223*) Assign (T 55) (Plain (Zeros [0;0;1;1]));
  (*224*) AddTo (T 55) (Times (Einsum [(n_v'ovov,[0;1;2;3])] [0;2;3;1]) (-1) 1);
  (*225*) AddTo (T 55) (Times (Einsum [(n_v'ovov,[0;1;2;3])] [0;2;1;3]) (2) 1);
  (*226*) Assign (T 56) (Plain (Zeros [0;0;1;1]));
  (*227*) AddTo (T 56) (Times (Einsum [(n_t2,[0;1;2;3]); (T 55,[1;4;3;5])] [0;4;2;5]) (1) 2);
  (*228*) Assign (T 57) (Plain (Zeros [0;0;1;1]));
  (*229*) AddTo (T 57) (Times (Einsum [(T 54,[0;1;2;3])] [0;1;2;3]) (1) 2);
  (*230*) AddTo (T 57) (Times (Einsum [(T 56,[0;1;2;3])] [0;1;2;3]) (-1) 1);
  (*231*) Del (T 56);
  (*232*) Assign (T 58) (Plain (Zeros [0;0;1;1]));
  (*233*) AddTo (T 58) (Times (Einsum [(n_t2,[0;1;2;3]); (T 57,[4;1;5;2])] [0;4;3;5]) (2) 1);
  (*234*) Del (T 57);
  (*235*) Assign (T 59) (Plain (Zeros [1;1]));
  (*236*) AddTo (T 59) (Times (Einsum [(n_t2,[0;1;2;3]); (T 8,[0;1;2;4])] [3;4]) (2) 1);
  (*237*) Assign (T 60) (Plain (Zeros [0;1;1;1]));
  (*238*) AddTo (T 60) (Times (Einsum [(n_v'ovvv,[0;1;2;3])] [0;1;2;3]) (2) 1);
  (*239*) AddTo (T 60) (Times (Einsum [(n_v'ovvv,[0;1;2;3])] [0;2;3;1]) (-1) 1);
  (*240*) Assign (T 61) (Plain (Zeros [1;1]));
  (*241*) AddTo (T 61) (Plain (Einsum [(n_t1,[0;1]); (T 60,[0;1;2;3])] [2;3]));
  (*242*) Del (T 60);
  (*243*) Assign (T 62) (Plain (Zeros [1;1]));
  (*244*) AddTo (T 62) (Plain (Einsum [(T 59,[0;1])] [1;0]));
  (*245*) Del (T 59);
  (*246*) AddTo (T 62) (Times (Einsum [(T 61,[0;1])] [1;0]) (-1) 1);
  (*247*) Assign (T 63) (Plain (Zeros [0;0;1;1]));
  (*248*) AddTo (T 63) (Plain (Einsum [(T 62,[0;1]); (n_t2,[2;3;0;4])] [2;3;4;1]));
  (*249*) Del (T 62);
  (*250*) Assign (T 64) (Plain (Zeros [0;0;0;1]));
  (*251*) AddTo (T 64) (Plain (Einsum [(n_t2,[0;1;2;3]); (n_v'ooov,[4;1;5;2])] [0;4;5;3]));
  (*252*) Assign (T 65) (Plain (Zeros [0;0;0;1]));
  (*253*) AddTo (T 65) (Times (Einsum [(T 1,[0;1;2;3]); (n_t3,[4;5;0;3;6;2])] [4;5;1;6]) (1) 2);
  (*254*) Assign (T 66) (Plain (Zeros [0;0;0;1]));
  (*255*) AddTo (T 66) (Times (Einsum [(T 6,[0;1;2;3])] [0;1;2;3]) (-1) 2);
  (*256*) AddTo (T 66) (Plain (Einsum [(T 6,[0;1;2;3])] [0;2;1;3]));
  (*257*) Assign (T 67) (Plain (Zeros [0;0;0;1]));
  (*258*) AddTo (T 67) (Times (Einsum [(n_t2,[0;1;2;3]); (T 66,[4;5;1;3])] [0;4;5;2]) (2) 1);
  (*259*) Del (T 66);
  (*260*) Assign (T 68) (Plain (Zeros [0;0;0;1]));
  (*261*) AddTo (T 68) (Plain (Einsum [(n_v'ovvv,[0;1;2;3]); (T 4,[4;5;3;1])] [0;4;5;2]));
  (*262*) Assign (T 69) (Plain (Zeros [0;0;0;1]));
  (*263*) AddTo (T 69) (Plain (Einsum [(T 6,[0;1;2;3])] [0;1;2;3]));
  (*264*) AddTo (T 69) (Times (Einsum [(T 64,[0;1;2;3])] [0;1;2;3]) (-1) 1);
  (*265*) AddTo (T 69) (Times (Einsum [(T 65,[0;1;2;3])] [0;1;2;3]) (-1) 1);
  (*266*) Del (T 65);
  (*267*) AddTo (T 69) (Plain (Einsum [(T 67,[0;1;2;3])] [1;0;2;3]));
  (*268*) AddTo (T 69) (Plain (Einsum [(T 68,[0;1;2;3])] [2;1;0;3]));
  (*269*) Del (T 68);
  (*270*) Assign (T 70) (Plain (Zeros [0;0;1;1]));
  (*271*) AddTo (T 70) (Plain (Einsum [(n_t1,[0;1]); (T 69,[2;3;0;4])] [2;3;1;4]));
  (*272*) Del (T 69);
  (*273*) Assign (T 71) (Plain (Zeros [0;0;0;1;1;1]));
  (*274*) AddTo (T 71) (Plain (Einsum [(n_t3,[0;1;2;3;4;5])] [0;2;1;3;5;4]));
  (*275*) AddTo (T 71) (Times (Einsum [(n_t1,[0;1]); (n_t2,[2;3;4;5])] [2;0;3;1;4;5]) (-1) 1);
  (*276*) Assign (T 72) (Plain (Zeros [0;0;1;1]));
  (*277*) AddTo (T 72) (Plain (Einsum [(n_v'ovvv,[0;1;2;3]); (T 71,[0;4;5;1;6;3])] [4;5;2;6]));
  (*278*) Del (T 71);
  (*279*) Assign (T 73) (Plain (Zeros [0;0]));
  (*280*) AddTo (T 73) (Plain (Einsum [(n_t2,[0;1;2;3]); (T 14,[1;4;2;3])] [0;4]));
  (*281*) Assign (T 74) (Plain (Zeros [0;0]));
  (*282*) AddTo (T 74) (Plain (Einsum [(n_t1,[0;1]); (T 16,[2;3;0;1])] [2;3]));
  (*283*) Del (T 16);
  (*284*) Assign (T 75) (Plain (Zeros [0;0]));
  (*285*) AddTo (T 75) (Plain (Einsum [(T 73,[0;1])] [1;0]));
  (*286*) Del (T 73);
  (*287*) AddTo (T 75) (Plain (Einsum [(T 74,[0;1])] [1;0]));
  (*288*) Assign (T 76) (Plain (Zeros [0;0;1;1]));
  (*289*) AddTo (T 76) (Times (Einsum [(T 75,[0;1]); (n_t2,[2;0;3;4])] [2;1;4;3]) (2) 1);
  (*290*) Del (T 75);
  (*291*) Assign (T 77) (Plain (Zeros [0;0;1;1]));
  (*292*) AddTo (T 77) (Plain (Einsum [(T 50,[0;1;2;3])] [0;1;2;3]));
  (*293*) Del (T 50);
  (*294*) AddTo (T 77) (Times (Einsum [(T 52,[0;1;2;3])] [1;0;2;3]) (-1) 1);
  (*295*) Del (T 52);
  (*296*) AddTo (T 77) (Times (Einsum [(T 53,[0;1;2;3])] [0;1;2;3]) (-1) 1);
  (*297*) Del (T 53);
  (*298*) AddTo (T 77) (Times (Einsum [(T 58,[0;1;2;3])] [1;0;3;2]) (-1) 1);
  (*299*) Del (T 58);
  (*300*) AddTo (T 77) (Plain (Einsum [(T 63,[0;1;2;3])] [1;0;2;3]));
  (*301*) Del (T 63);
  (*302*) AddTo (T 77) (Plain (Einsum [(T 70,[0;1;2;3])] [0;1;2;3]));
  (*303*) Del (T 70);
  (*304*) AddTo (T 77) (Times (Einsum [(T 72,[0;1;2;3])] [0;1;3;2]) (-1) 1);
  (*305*) Del (T 72);
  (*306*) AddTo (T 77) (Plain (Einsum [(T 76,[0;1;2;3])] [0;1;3;2]));
  (*307*) Del (T 76);
  (*308*) AddTo n_t2new (Times (Einsum [(T 77,[0;1;2;3])] [0;1;2;3]) (-1) 1);
  (*309*) AddTo n_t2new (Times (Einsum [(T 77,[0;1;2;3])] [1;0;3;2]) (-1) 1);
  (*310*) Del (T 77);
  (*311*) Assign (T 78) (Plain (Zeros [0;0;1;1]));
  (*312*) AddTo (T 78) (Plain (Einsum [(n_v'ovov,[0;1;2;3])] [0;2;1;3]));
  (*313*) AddTo (T 78) (Times (Einsum [(n_v'oovv,[0;1;2;3])] [0;1;2;3]) (-1) 2);
  (*314*) AddTo (T 78) (Times (Einsum [(n_t2,[0;1;2;3]); (T 8,[1;4;3;5])] [0;4;2;5]) (2) 1);
  (*315*) AddTo n_t2new (Times (Einsum [(n_t2,[0;1;2;3]); (T 78,[4;1;5;3])] [0;4;2;5]) (2) 1);
  (*316*) Del (T 78);
  (*317*) Assign (T 79) (Plain (Zeros [0;0;0;0]));
  (*318*) AddTo (T 79) (Plain (Einsum [(n_t1,[0;1]); (T 6,[2;3;4;1])] [2;0;4;3]));
  (*319*) Assign (T 80) (Plain (Zeros [0;0;0;0]));
  (*320*) AddTo (T 80) (Plain (Einsum [(n_v'oooo,[0;1;2;3])] [0;1;2;3]));
  (*321*) AddTo (T 80) (Plain (Einsum [(T 79,[0;1;2;3])] [3;1;2;0]));
  (*322*) AddTo n_t2new (Plain (Einsum [(n_t2,[0;1;2;3]); (T 80,[1;4;0;5])] [4;5;3;2]));
  (*323*) Del (T 80);
  (*324*) Assign (T 81) (Plain (Zeros [0;0;0;0]));
  (*325*) AddTo (T 81) (Plain (Einsum [(n_v'oooo,[0;1;2;3])] [0;1;2;3]));
  (*326*) AddTo (T 81) (Plain (Einsum [(T 20,[0;1;2;3])] [3;1;0;2]));
  (*327*) AddTo (T 81) (Plain (Einsum [(T 79,[0;1;2;3])] [3;1;0;2]));
  (*328*) Assign (T 82) (Plain (Zeros [0;0;0;1]));
  (*329*) AddTo (T 82) (Times (Einsum [(n_v'ooov,[0;1;2;3])] [0;2;1;3]) (-1) 1);
  (*330*) AddTo (T 82) (Plain (Einsum [(n_t1,[0;1]); (T 81,[0;2;3;4])] [3;2;4;1]));
  (*331*) Del (T 81);
  (*332*) AddTo n_t2new (Plain (Einsum [(n_t1,[0;1]); (T 82,[2;3;0;4])] [2;3;1;4]));
  (*333*) Del (T 82);
  (*334*) Assign (T 83) (Plain (Zeros [0;0;1;1]));
  (*335*) AddTo (T 83) (Times (Einsum [(n_v'ovov,[0;1;2;3])] [0;2;1;3]) (-1) 1);
  (*336*) AddTo (T 83) (Plain (Einsum [(T 22,[0;1;2;3])] [0;1;2;3]));
  (*337*) Del (T 22);
  (*338*) AddTo n_t2new (Plain (Einsum [(n_t2,[0;1;2;3]); (T 83,[4;1;5;2])] [4;0;5;3]));
  (*339*) Del (T 83);
  (*340*) Assign (T 84) (Plain (Zeros [0;0;1;1]));
  (*341*) AddTo (T 84) (Plain (Einsum [(n_t2,[0;1;2;3]); (n_v'ovov,[4;2;1;5])] [0;4;3;5]));
  (*342*) Assign (T 85) (Plain (Zeros [0;0;1;1]));
  (*343*) AddTo (T 85) (Times (Einsum [(n_v'oovv,[0;1;2;3])] [0;1;2;3]) (-1) 1);
  (*344*) AddTo (T 85) (Plain (Einsum [(T 84,[0;1;2;3])] [0;1;2;3]));
  (*345*) Del (T 84);
  (*346*) AddTo n_t2new (Plain (Einsum [(n_t2,[0;1;2;3]); (T 85,[4;1;5;2])] [0;4;5;3]));
  (*347*) Assign (T 86) (Plain (Zeros [0;0;0;1;1;1]));
  (*348*) AddTo (T 86) (Plain (Einsum [(n_v'oooo,[0;1;2;3]); (n_t3,[3;4;1;5;6;7])] [4;0;2;7;5;6]));
  (*349*) Assign (T 87) (Plain (Zeros [0;0;1;1]));
  (*350*) AddTo (T 87) (Plain (Einsum [(n_t2,[0;1;2;3])] [0;1;2;3]));
  (*351*) AddTo (T 87) (Times (Einsum [(n_t1,[0;1]); (n_t1,[2;3])] [0;2;1;3]) (99999999999999) 100000000000000);
  (*352*) Assign (T 88) (Plain (Zeros [0;0;1;1]));
  (*353*) AddTo (T 88) (Plain (Einsum [(n_v'ovov,[0;1;2;3]); (T 87,[2;4;5;1])] [4;0;5;3]));
  (*354*) Assign (T 89) (Plain (Zeros [0;0;0;1;1;1]));
  (*355*) AddTo (T 89) (Times (Einsum [(T 88,[0;1;2;3]); (n_t3,[4;1;5;6;7;3])] [4;5;0;6;7;2]) (100000000000001) 100000000000000);
  (*356*) Assign (T 90) (Plain (Zeros [0;0;0;1;1;1]));
  (*357*) AddTo (T 90) (Times (Einsum [(T 86,[0;1;2;3;4;5])] [0;2;1;4;3;5]) (-1) 2);
  (*358*) Del (T 86);
  (*359*) AddTo (T 90) (Plain (Einsum [(T 89,[0;1;2;3;4;5])] [2;1;0;3;5;4]));
  (*360*) Del (T 89);
  (*361*) AddTo n_t3new (Times (Einsum [(T 90,[0;1;2;3;4;5])] [2;0;1;4;5;3]) (-1) 1);
  (*362*) AddTo n_t3new (Plain (Einsum [(T 90,[0;1;2;3;4;5])] [2;0;1;3;5;4]));
  (*363*) Del (T 90);
  (*364*) Assign (T 91) (Plain (Zeros [0;0;0;1;1;1]));
  (*365*) AddTo (T 91) (Plain (Einsum [(n_v'oooo,[0;1;2;3]); (n_t3,[4;3;1;5;6;7])] [4;0;2;5;7;6]));
  (*366*) Assign (T 92) (Plain (Zeros [0;0;0;1;1;1]));
  (*367*) AddTo (T 92) (Plain (Einsum [(T 25,[0;1;2;3]); (n_t3,[4;2;3;5;6;7])] [0;4;1;5;7;6]));
  (*368*) Assign (T 93) (Plain (Zeros [0;0;1;1]));
  (*369*) AddTo (T 93) (Plain (Einsum [(n_t1,[0;1]); (n_v'ovvv,[2;1;3;4])] [0;2;3;4]));
  (*370*) Assign (T 94) (Plain (Zeros [0;0;0;1;1;1]));
  (*371*) AddTo (T 94) (Plain (Einsum [(T 93,[0;1;2;3]); (n_t3,[4;5;1;6;3;7])] [0;4;5;6;7;2]));
  (*372*) Assign (T 95) (Plain (Zeros [0;0]));
  (*373*) AddTo (T 95) (Plain (Einsum [(n_f'oo,[0;1])] [0;1]));
  (*374*) AddTo (T 95) (Plain (Einsum [(T 13,[0;1])] [0;1]));
  (*375*) Del (T 13);
  (*376*) AddTo (T 95) (Plain (Einsum [(T 15,[0;1])] [1;0]));
  (*377*) Del (T 15);
  (*378*) Assign (T 96) (Plain (Zeros [0;0;0;1;1;1]));
  (*379*) AddTo (T 96) (Plain (Einsum [(T 95,[0;1]); (n_t3,[2;3;0;4;5;6])] [2;3;1;6;4;5]));
  (*380*) Del (T 95);
  (*381*) Assign (T 97) (Plain (Zeros [0;0;0;1;1;1]));
  (*382*) AddTo (T 97) (Plain (Einsum [(T 91,[0;1;2;3;4;5])] [0;1;2;3;4;5]));
  (*383*) Del (T 91);
  (*384*) AddTo (T 97) (Times (Einsum [(T 92,[0;1;2;3;4;5])] [0;1;2;3;4;5]) (-1) 1);
  (*385*) Del (T 92);
  (*386*) AddTo (T 97) (Plain (Einsum [(T 94,[0;1;2;3;4;5])] [0;1;2;3;4;5]));
  (*387*) Del (T 94);
  (*388*) AddTo (T 97) (Plain (Einsum [(T 96,[0;1;2;3;4;5])] [2;0;1;4;3;5]));
  (*389*) Del (T 96);
  (*390*) AddTo n_t3new (Plain (Einsum [(T 97,[0;1;2;3;4;5])] [0;2;1;3;5;4]));
  (*391*) AddTo n_t3new (Times (Einsum [(T 97,[0;1;2;3;4;5])] [1;2;0;3;5;4]) (-1) 1);
  (*392*) Del (T 97);
  (*393*) Assign (T 98) (Plain (Zeros [0;0;1;1]));
  (*394*) AddTo (T 98) (Times (Einsum [(n_v'ovov,[0;1;2;3]); (T 87,[2;4;5;1])] [4;0;5;3]) (100000000000001) 100000000000000);
  (*395*) Assign (T 99) (Plain (Zeros [0;0;0;1;1;1]));
  (*396*) AddTo (T 99) (Plain (Einsum [(T 98,[0;1;2;3]); (n_t3,[4;5;1;6;7;3])] [4;5;0;6;7;2]));
  (*397*) Assign (T 100) (Plain (Zeros [0;0;0;0;1;1]));
  (*398*) AddTo (T 100) (Plain (Einsum [(n_t2,[0;1;2;3]); (n_v'oooo,[4;5;6;1])] [0;4;5;6;2;3]));
  (*399*) Assign (T 101) (Plain (Zeros [0;0;0;0;1;1]));
  (*400*) AddTo (T 101) (Plain (Einsum [(n_t2,[0;1;2;3]); (T 25,[4;5;1;6])] [4;0;5;6;2;3]));
  (*401*) Assign (T 102) (Plain (Zeros [0;0;0;0;1;1]));
  (*402*) AddTo (T 102) (Times (Einsum [(T 100,[0;1;2;3;4;5])] [0;2;3;1;4;5]) (-1) 1);
  (*403*) Del (T 100);
  (*404*) AddTo (T 102) (Plain (Einsum [(T 101,[0;1;2;3;4;5])] [0;1;2;3;4;5]));
  (*405*) Del (T 101);
  (*406*) Assign (T 103) (Plain (Zeros [0;0;0;1;1;1]));
  (*407*) AddTo (T 103) (Plain (Einsum [(n_t1,[0;1]); (T 102,[2;3;4;0;5;6])] [2;3;4;1;5;6]));
  (*408*) Del (T 102);
  (*409*) Assign (T 104) (Plain (Zeros [0;0;0;1;1;1]));
  (*410*) AddTo (T 104) (Plain (Einsum [(T 99,[0;1;2;3;4;5])] [2;0;1;5;3;4]));
  (*411*) Del (T 99);
  (*412*) AddTo (T 104) (Plain (Einsum [(T 103,[0;1;2;3;4;5])] [0;1;2;3;4;5]));
  (*413*) Del (T 103);
  (*414*) AddTo n_t3new (Plain (Einsum [(T 104,[0;1;2;3;4;5])] [0;2;1;3;5;4]));
  (*415*) AddTo n_t3new (Times (Einsum [(T 104,[0;1;2;3;4;5])] [0;2;1;4;5;3]) (-1) 1);
  (*416*) AddTo n_t3new (Times (Einsum [(T 104,[0;1;2;3;4;5])] [1;2;0;3;5;4]) (-1) 1);
  (*417*) AddTo n_t3new (Plain (Einsum [(T 104,[0;1;2;3;4;5])] [1;2;0;4;5;3]));
  (*418*) Del (T 104);
  (*419*) Assign (T 105) (Plain (Zeros [0;0;0;1;1;1]));
  (*420*) AddTo (T 105) (Plain (Einsum [(n_v'oovv,[0;1;2;3]); (n_t3,[4;5;1;6;7;3])] [4;5;0;6;7;2]));
  (*421*) Assign (T 106) (Plain (Zeros [0;0;0;1]));
  (*422*) AddTo (T 106) (Times (Einsum [(n_v'ooov,[0;1;2;3])] [0;2;1;3]) (-1) 1);
  (*423*) AddTo (T 106) (Plain (Einsum [(T 64,[0;1;2;3])] [0;1;2;3]));
  (*424*) Del (T 64);
  (*425*) Assign (T 107) (Plain (Zeros [0;0;0;1;1;1]));
  (*426*) AddTo (T 107) (Plain (Einsum [(n_t2,[0;1;2;3]); (T 106,[4;5;1;6])] [0;4;5;3;2;6]));
  (*427*) Del (T 106);
  (*428*) Assign (T 108) (Plain (Zeros [0;0;0;1;1;1]));
  (*429*) AddTo (T 108) (Plain (Einsum [(T 105,[0;1;2;3;4;5])] [0;1;2;3;4;5]));
  (*430*) Del (T 105);
  (*431*) AddTo (T 108) (Times (Einsum [(T 107,[0;1;2;3;4;5])] [0;1;2;4;3;5]) (-1) 1);
  (*432*) Del (T 107);
  (*433*) AddTo n_t3new (Times (Einsum [(T 108,[0;1;2;3;4;5])] [0;1;2;3;4;5]) (-1) 1);
  (*434*) AddTo n_t3new (Plain (Einsum [(T 108,[0;1;2;3;4;5])] [0;1;2;5;4;3]));
  (*435*) AddTo n_t3new (Plain (Einsum [(T 108,[0;1;2;3;4;5])] [2;1;0;3;4;5]));
  (*436*) AddTo n_t3new (Times (Einsum [(T 108,[0;1;2;3;4;5])] [2;1;0;5;4;3]) (-1) 1);
  (*437*) Del (T 108);
  (*438*) Assign (T 109) (Plain (Zeros [0;0;0;1;1;1]));
  (*439*) AddTo (T 109) (Plain (Einsum [(n_v'vvvv,[0;1;2;3]); (n_t3,[4;5;6;7;3;1])] [4;6;5;7;0;2]));
  (*440*) Assign (T 110) (Plain (Zeros [0;0;0;1;1;1]));
  (*441*) AddTo (T 110) (Plain (Einsum [(T 20,[0;1;2;3]); (n_t3,[3;4;2;5;6;7])] [1;0;4;5;7;6]));
  (*442*) Assign (T 111) (Plain (Zeros [0;0;0;0;0;1]));
  (*443*) AddTo (T 111) (Plain (Einsum [(n_v'ovov,[0;1;2;3]); (n_t3,[4;5;6;1;7;3])] [4;6;5;0;2;7]));
  (*444*) Assign (T 112) (Plain (Zeros [0;0;0;1;1;1]));
  (*445*) AddTo (T 112) (Plain (Einsum [(n_t2,[0;1;2;3]); (T 111,[4;5;6;0;1;7])] [4;5;6;2;3;7]));
  (*446*) Assign (T 113) (Plain (Zeros [0;0;0;1;1;1]));
  (*447*) AddTo (T 113) (Plain (Einsum [(T 79,[0;1;2;3]); (n_t3,[2;4;3;5;6;7])] [1;0;4;7;5;6]));
  (*448*) Del (T 79);
  (*449*) Assign (T 114) (Plain (Zeros [1;1]));
  (*450*) AddTo (T 114) (Plain (Einsum [(n_f'ov,[0;1]); (n_t1,[0;2])] [1;2]));
  (*451*) Assign (T 115) (Plain (Zeros [1;1]));
  (*452*) AddTo (T 115) (Times (Einsum [(T 4,[0;1;2;3]); (T 8,[0;1;2;4])] [3;4]) (2) 1);
  (*453*) Del (T 8);
  (*454*) Assign (T 116) (Plain (Zeros [1;1]));
  (*455*) AddTo (T 116) (Times (Einsum [(n_f'vv,[0;1])] [0;1]) (-1) 1);
  (*456*) AddTo (T 116) (Plain (Einsum [(T 114,[0;1])] [0;1]));
  (*457*) AddTo (T 116) (Plain (Einsum [(T 115,[0;1])] [1;0]));
  (*458*) Assign (T 117) (Plain (Zeros [0;0;0;1;1;1]));
  (*459*) AddTo (T 117) (Plain (Einsum [(T 116,[0;1]); (n_t3,[2;3;4;0;5;6])] [2;4;3;6;5;1]));
  (*460*) Del (T 116);
  (*461*) Assign (T 118) (Plain (Zeros [0;0;0;0;1;1]));
  (*462*) AddTo (T 118) (Plain (Einsum [(n_v'ooov,[0;1;2;3]); (n_t3,[4;1;5;6;7;3])] [4;5;0;2;6;7]));
  (*463*) Assign (T 119) (Plain (Zeros [0;0;0;0;1;1]));
  (*464*) AddTo (T 119) (Plain (Einsum [(n_v'ovvv,[0;1;2;3]); (n_t3,[4;5;6;7;3;1])] [4;6;5;0;7;2]));
  (*465*) Assign (T 120) (Plain (Zeros [0;0;0;0;1;1]));
  (*466*) AddTo (T 120) (Plain (Einsum [(n_t1,[0;1]); (T 111,[2;3;4;0;5;6])] [3;2;4;5;1;6]));
  (*467*) Del (T 111);
  (*468*) Assign (T 121) (Plain (Zeros [0;0;0;0;1;1]));
  (*469*) AddTo (T 121) (Times (Einsum [(T 118,[0;1;2;3;4;5])] [0;1;2;3;4;5]) (-1) 1);
  (*470*) Del (T 118);
  (*471*) AddTo (T 121) (Plain (Einsum [(T 119,[0;1;2;3;4;5])] [0;1;2;3;4;5]));
  (*472*) Del (T 119);
  (*473*) AddTo (T 121) (Times (Einsum [(T 120,[0;1;2;3;4;5])] [0;1;2;3;4;5]) (1) 2);
  (*474*) Del (T 120);
  (*475*) Assign (T 122) (Plain (Zeros [0;0;0;1;1;1]));
  (*476*) AddTo (T 122) (Plain (Einsum [(n_t1,[0;1]); (T 121,[2;3;4;0;5;6])] [2;3;4;1;5;6]));
  (*477*) Del (T 121);
  (*478*) Assign (T 123) (Plain (Zeros [0;0;0;1;1;1]));
  (*479*) AddTo (T 123) (Plain (Einsum [(T 109,[0;1;2;3;4;5])] [0;1;2;3;4;5]));
  (*480*) Del (T 109);
  (*481*) AddTo (T 123) (Times (Einsum [(T 110,[0;1;2;3;4;5])] [0;1;2;3;4;5]) (1) 2);
  (*482*) Del (T 110);
  (*483*) AddTo (T 123) (Times (Einsum [(T 112,[0;1;2;3;4;5])] [0;1;2;3;4;5]) (1) 2);
  (*484*) Del (T 112);
  (*485*) AddTo (T 123) (Times (Einsum [(T 113,[0;1;2;3;4;5])] [0;1;2;3;4;5]) (1) 2);
  (*486*) Del (T 113);
  (*487*) AddTo (T 123) (Plain (Einsum [(T 117,[0;1;2;3;4;5])] [1;0;2;5;3;4]));
  (*488*) Del (T 117);
  (*489*) AddTo (T 123) (Plain (Einsum [(T 122,[0;1;2;3;4;5])] [0;1;2;3;4;5]));
  (*490*) Del (T 122);
  (*491*) AddTo n_t3new (Plain (Einsum [(T 123,[0;1;2;3;4;5])] [0;2;1;3;5;4]));
  (*492*) AddTo n_t3new (Times (Einsum [(T 123,[0;1;2;3;4;5])] [0;2;1;4;5;3]) (-1) 1);
  (*493*) Del (T 123);
  (*494*) Assign (T 124) (Plain (Zeros [0;1;1;1]));
  (*495*) AddTo (T 124) (Plain (Einsum [(n_t2,[0;1;2;3]); (n_v'ovvv,[1;4;5;3])] [0;2;4;5]));
  (*496*) Assign (T 125) (Plain (Zeros [0;0;1;1]));
  (*497*) AddTo (T 125) (Times (Einsum [(n_t2,[0;1;2;3])] [0;1;3;2]) (-1) 1);
  (*498*) AddTo (T 125) (Times (Einsum [(n_t2,[0;1;2;3])] [0;1;2;3]) (2) 1);
  (*499*) Assign (T 126) (Plain (Zeros [0;1;1;1]));
  (*500*) AddTo (T 126) (Plain (Einsum [(n_v'ovvv,[0;1;2;3]); (T 125,[0;4;1;5])] [4;2;3;5]));
  (*501*) Assign (T 127) (Plain (Zeros [0;1;1;1]));
  (*502*) AddTo (T 127) (Plain (Einsum [(n_v'ovvv,[0;1;2;3])] [0;1;2;3]));
  (*503*) AddTo (T 127) (Times (Einsum [(T 124,[0;1;2;3])] [0;1;2;3]) (-1) 1);
  (*504*) Del (T 124);
  (*505*) AddTo (T 127) (Plain (Einsum [(T 126,[0;1;2;3])] [0;3;2;1]));
  (*506*) Del (T 126);
  (*507*) Assign (T 128) (Plain (Zeros [0;0;0;1;1;1]));
  (*508*) AddTo (T 128) (Plain (Einsum [(n_t2,[0;1;2;3]); (T 127,[4;5;2;6])] [0;1;4;3;5;6]));
  (*509*) Del (T 127);
  (*510*) Assign (T 129) (Plain (Zeros [0;1;1;1]));
  (*511*) AddTo (T 129) (Plain (Einsum [(n_t2,[0;1;2;3]); (T 6,[4;0;1;5])] [4;2;3;5]));
  (*512*) Assign (T 130) (Plain (Zeros [0;1;1;1]));
  (*513*) AddTo (T 130) (Plain (Einsum [(n_t1,[0;1]); (T 54,[2;0;3;4])] [2;1;3;4]));
  (*514*) Del (T 54);
  (*515*) Assign (T 131) (Plain (Zeros [0;1;1;1]));
  (*516*) AddTo (T 131) (Plain (Einsum [(T 129,[0;1;2;3])] [0;1;2;3]));
  (*517*) Del (T 129);
  (*518*) AddTo (T 131) (Plain (Einsum [(T 130,[0;1;2;3])] [0;1;2;3]));
  (*519*) Del (T 130);
  (*520*) Assign (T 132) (Plain (Zeros [0;0;0;1;1;1]));
  (*521*) AddTo (T 132) (Plain (Einsum [(n_t2,[0;1;2;3]); (T 131,[4;5;6;2])] [0;1;4;3;5;6]));
  (*522*) Del (T 131);
  (*523*) Assign (T 133) (Plain (Zeros [0;0;0;1;1;1]));
  (*524*) AddTo (T 133) (Plain (Einsum [(T 128,[0;1;2;3;4;5])] [1;0;2;3;4;5]));
  (*525*) Del (T 128);
  (*526*) AddTo (T 133) (Plain (Einsum [(T 132,[0;1;2;3;4;5])] [2;1;0;5;4;3]));
  (*527*) Del (T 132);
  (*528*) AddTo n_t3new (Plain (Einsum [(T 133,[0;1;2;3;4;5])] [0;1;2;3;5;4]));
  (*529*) AddTo n_t3new (Times (Einsum [(T 133,[0;1;2;3;4;5])] [0;1;2;4;5;3]) (-1) 1);
  (*530*) AddTo n_t3new (Plain (Einsum [(T 133,[0;1;2;3;4;5])] [0;2;1;3;4;5]));
  (*531*) AddTo n_t3new (Times (Einsum [(T 133,[0;1;2;3;4;5])] [0;2;1;5;4;3]) (-1) 1);
  (*532*) AddTo n_t3new (Times (Einsum [(T 133,[0;1;2;3;4;5])] [1;0;2;4;3;5]) (-1) 1);
  (*533*) AddTo n_t3new (Plain (Einsum [(T 133,[0;1;2;3;4;5])] [1;0;2;5;3;4]));
  (*534*) AddTo n_t3new (Plain (Einsum [(T 133,[0;1;2;3;4;5])] [2;0;1;4;3;5]));
  (*535*) AddTo n_t3new (Times (Einsum [(T 133,[0;1;2;3;4;5])] [2;0;1;5;3;4]) (-1) 1);
  (*536*) AddTo n_t3new (Times (Einsum [(T 133,[0;1;2;3;4;5])] [1;2;0;3;4;5]) (-1) 1);
  (*537*) AddTo n_t3new (Plain (Einsum [(T 133,[0;1;2;3;4;5])] [1;2;0;5;4;3]));
  (*538*) AddTo n_t3new (Times (Einsum [(T 133,[0;1;2;3;4;5])] [2;1;0;3;5;4]) (-1) 1);
  (*539*) AddTo n_t3new (Plain (Einsum [(T 133,[0;1;2;3;4;5])] [2;1;0;4;5;3]));
  (*540*) Del (T 133);
  (*541*) Assign (T 134) (Plain (Zeros [0;0;1;1]));
  (*542*) AddTo (T 134) (Plain (Einsum [(n_t2,[0;1;2;3]); (T 55,[1;4;3;5])] [0;4;2;5]));
  (*543*) Del (T 55);
  (*544*) Assign (T 135) (Plain (Zeros [0;0;1;1]));
  (*545*) AddTo (T 135) (Plain (Einsum [(n_v'ovov,[0;1;2;3]); (T 87,[2;4;5;3])] [4;0;5;1]));
  (*546*) Del (T 87);
  (*547*) Assign (T 136) (Plain (Zeros [0;0;1;1]));
  (*548*) AddTo (T 136) (Times (Einsum [(T 134,[0;1;2;3])] [0;1;2;3]) (-1) 1);
  (*549*) Del (T 134);
  (*550*) AddTo (T 136) (Plain (Einsum [(T 135,[0;1;2;3])] [0;1;2;3]));
  (*551*) Del (T 135);
  (*552*) Assign (T 137) (Plain (Zeros [0;0;0;1;1;1]));
  (*553*) AddTo (T 137) (Times (Einsum [(T 136,[0;1;2;3]); (n_t3,[4;5;1;6;7;3])] [4;5;0;6;7;2]) (100000000000001) 100000000000000);
  (*554*) Del (T 136);
  (*555*) Assign (T 138) (Plain (Zeros [0;0;1;1]));
  (*556*) AddTo (T 138) (Times (Einsum [(n_v'ovov,[0;1;2;3])] [0;2;3;1]) (-1) 1);
  (*557*) AddTo (T 138) (Plain (Einsum [(n_v'ovov,[0;1;2;3])] [0;2;1;3]));
  (*558*) Assign (T 139) (Plain (Zeros [0;1;1;1]));
  (*559*) AddTo (T 139) (Plain (Einsum [(T 138,[0;1;2;3]); (n_t3,[0;4;1;5;6;2])] [4;5;6;3]));
  (*560*) Del (T 138);
  (*561*) Assign (T 140) (Plain (Zeros [0;0;0;1;1;1]));
  (*562*) AddTo (T 140) (Times (Einsum [(n_t2,[0;1;2;3]); (T 139,[4;5;6;2])] [0;1;4;3;5;6]) (-1) 2);
  (*563*) Del (T 139);
  (*564*) Assign (T 141) (Plain (Zeros [0;0;0;1]));
  (*565*) AddTo (T 141) (Plain (Einsum [(T 1,[0;1;2;3]); (n_t3,[4;5;0;3;6;2])] [4;5;1;6]));
  (*566*) Del (T 1);
  (*567*) Assign (T 142) (Plain (Zeros [0;0;0;1;1;1]));
  (*568*) AddTo (T 142) (Times (Einsum [(n_t2,[0;1;2;3]); (T 141,[4;5;1;6])] [0;4;5;3;2;6]) (-1) 2);
  (*569*) Del (T 141);
  (*570*) Assign (T 143) (Plain (Zeros [0;0;0;1;1;1]));
  (*571*) AddTo (T 143) (Plain (Einsum [(T 137,[0;1;2;3;4;5])] [2;0;1;5;3;4]));
  (*572*) Del (T 137);
  (*573*) AddTo (T 143) (Plain (Einsum [(T 140,[0;1;2;3;4;5])] [1;0;2;3;4;5]));
  (*574*) Del (T 140);
  (*575*) AddTo (T 143) (Plain (Einsum [(T 142,[0;1;2;3;4;5])] [0;1;2;4;3;5]));
  (*576*) Del (T 142);
  (*577*) AddTo n_t3new (Times (Einsum [(T 143,[0;1;2;3;4;5])] [0;1;2;3;4;5]) (-1) 1);
  (*578*) AddTo n_t3new (Plain (Einsum [(T 143,[0;1;2;3;4;5])] [0;1;2;5;4;3]));
  (*579*) AddTo n_t3new (Times (Einsum [(T 143,[0;1;2;3;4;5])] [0;2;1;3;5;4]) (-1) 1);
  (*580*) AddTo n_t3new (Plain (Einsum [(T 143,[0;1;2;3;4;5])] [0;2;1;4;5;3]));
  (*581*) AddTo n_t3new (Plain (Einsum [(T 143,[0;1;2;3;4;5])] [1;2;0;3;5;4]));
  (*582*) AddTo n_t3new (Times (Einsum [(T 143,[0;1;2;3;4;5])] [1;2;0;4;5;3]) (-1) 1);
  (*583*) AddTo n_t3new (Plain (Einsum [(T 143,[0;1;2;3;4;5])] [2;1;0;3;4;5]));
  (*584*) AddTo n_t3new (Times (Einsum [(T 143,[0;1;2;3;4;5])] [2;1;0;5;4;3]) (-1) 1);
  (*585*) Del (T 143);
  (*586*) Assign (T 144) (Plain (Zeros [0;1;1;1]));
  (*587*) AddTo (T 144) (Plain (Einsum [(n_v'ovov,[0;1;2;3]); (n_t3,[4;0;2;5;6;1])] [4;5;6;3]));
  (*588*) Assign (T 145) (Plain (Zeros [0;0;0;1;1;1]));
  (*589*) AddTo (T 145) (Plain (Einsum [(n_t2,[0;1;2;3]); (T 144,[4;5;6;3])] [0;1;4;2;5;6]));
  (*590*) Del (T 144);
  (*591*) Assign (T 146) (Plain (Zeros [0;0;0;1]));
  (*592*) AddTo (T 146) (Plain (Einsum [(n_v'ovov,[0;1;2;3]); (n_t3,[4;2;5;1;6;3])] [4;5;0;6]));
  (*593*) Assign (T 147) (Plain (Zeros [0;0;0;1;1;1]));
  (*594*) AddTo (T 147) (Plain (Einsum [(n_t2,[0;1;2;3]); (T 146,[4;5;1;6])] [0;4;5;2;3;6]));
  (*595*) Del (T 146);
  (*596*) Assign (T 148) (Plain (Zeros [0;0;0;1;1;1]));
  (*597*) AddTo (T 148) (Times (Einsum [(T 145,[0;1;2;3;4;5])] [0;1;2;3;4;5]) (1) 2);
  (*598*) Del (T 145);
  (*599*) AddTo (T 148) (Times (Einsum [(T 147,[0;1;2;3;4;5])] [0;1;2;3;4;5]) (-1) 2);
  (*600*) Del (T 147);
  (*601*) AddTo n_t3new (Times (Einsum [(T 148,[0;1;2;3;4;5])] [1;0;2;4;3;5]) (-1) 1);
  (*602*) AddTo n_t3new (Plain (Einsum [(T 148,[0;1;2;3;4;5])] [1;0;2;5;3;4]));
  (*603*) AddTo n_t3new (Plain (Einsum [(T 148,[0;1;2;3;4;5])] [2;0;1;4;3;5]));
  (*604*) AddTo n_t3new (Times (Einsum [(T 148,[0;1;2;3;4;5])] [2;0;1;5;3;4]) (-1) 1);
  (*605*) Del (T 148);
  (*606*) Assign (T 149) (Plain (Zeros [0;1;1;1]));
  (*607*) AddTo (T 149) (Plain (Einsum [(n_v'ovov,[0;1;2;3]); (n_t3,[4;0;2;5;6;3])] [4;5;6;1]));
  (*608*) Assign (T 150) (Plain (Zeros [0;0;0;1;1;1]));
  (*609*) AddTo (T 150) (Plain (Einsum [(n_t2,[0;1;2;3]); (T 149,[4;5;6;3])] [0;1;4;2;5;6]));
  (*610*) Del (T 149);
  (*611*) AddTo n_t3new (Times (Einsum [(T 150,[0;1;2;3;4;5])] [0;1;2;3;5;4]) (-1) 1);
  (*612*) AddTo n_t3new (Plain (Einsum [(T 150,[0;1;2;3;4;5])] [0;1;2;4;5;3]));
  (*613*) AddTo n_t3new (Times (Einsum [(T 150,[0;1;2;3;4;5])] [0;2;1;3;4;5]) (-1) 1);
  (*614*) AddTo n_t3new (Plain (Einsum [(T 150,[0;1;2;3;4;5])] [0;2;1;5;4;3]));
  (*615*) AddTo n_t3new (Times (Einsum [(T 150,[0;1;2;3;4;5])] [1;0;2;4;3;5]) (1) 2);
  (*616*) AddTo n_t3new (Times (Einsum [(T 150,[0;1;2;3;4;5])] [1;0;2;5;3;4]) (-1) 2);
  (*617*) AddTo n_t3new (Times (Einsum [(T 150,[0;1;2;3;4;5])] [2;0;1;4;3;5]) (-1) 2);
  (*618*) AddTo n_t3new (Times (Einsum [(T 150,[0;1;2;3;4;5])] [2;0;1;5;3;4]) (1) 2);
  (*619*) AddTo n_t3new (Plain (Einsum [(T 150,[0;1;2;3;4;5])] [1;2;0;3;4;5]));
  (*620*) AddTo n_t3new (Times (Einsum [(T 150,[0;1;2;3;4;5])] [1;2;0;5;4;3]) (-1) 1);
  (*621*) AddTo n_t3new (Plain (Einsum [(T 150,[0;1;2;3;4;5])] [2;1;0;3;5;4]));
  (*622*) AddTo n_t3new (Times (Einsum [(T 150,[0;1;2;3;4;5])] [2;1;0;4;5;3]) (-1) 1);
  (*623*) Del (T 150);
  (*624*) Assign (T 151) (Plain (Zeros [0;1;1;1]));
  (*625*) AddTo (T 151) (Plain (Einsum [(T 3,[0;1;2;3]); (n_t3,[4;0;1;5;2;6])] [4;6;5;3]));
  (*626*) Del (T 3);
  (*627*) Assign (T 152) (Plain (Zeros [0;0;0;1;1;1]));
  (*628*) AddTo (T 152) (Times (Einsum [(n_t2,[0;1;2;3]); (T 151,[4;5;6;2])] [0;1;4;3;6;5]) (3) 2);
  (*629*) Del (T 151);
  (*630*) AddTo n_t3new (Plain (Einsum [(T 152,[0;1;2;3;4;5])] [0;1;2;4;3;5]));
  (*631*) AddTo n_t3new (Times (Einsum [(T 152,[0;1;2;3;4;5])] [2;1;0;4;3;5]) (-1) 1);
  (*632*) Del (T 152);
  (*633*) Assign (T 153) (Plain (Zeros [0;0;0;1;1;1]));
  (*634*) AddTo (T 153) (Plain (Einsum [(n_v'oovv,[0;1;2;3]); (n_t3,[4;5;1;6;3;7])] [4;5;0;6;7;2]));
  (*635*) Assign (T 154) (Plain (Zeros [0;0;0;0]));
  (*636*) AddTo (T 154) (Plain (Einsum [(n_v'ovov,[0;1;2;3]); (T 4,[4;5;1;3])] [4;5;0;2]));
  (*637*) Assign (T 155) (Plain (Zeros [0;0;0;1;1;1]));
  (*638*) AddTo (T 155) (Plain (Einsum [(T 154,[0;1;2;3]); (n_t3,[4;3;2;5;6;7])] [4;1;0;7;5;6]));
  (*639*) Assign (T 156) (Plain (Zeros [0;0;0;1;1;1]));
  (*640*) AddTo (T 156) (Times (Einsum [(T 74,[0;1]); (n_t3,[2;3;1;4;5;6])] [2;3;0;6;4;5]) (2) 1);
  (*641*) Del (T 74);
  (*642*) Assign (T 157) (Plain (Zeros [0;0;0;1;1;1]));
  (*643*) AddTo (T 157) (Plain (Einsum [(T 153,[0;1;2;3;4;5])] [0;1;2;3;4;5]));
  (*644*) Del (T 153);
  (*645*) AddTo (T 157) (Plain (Einsum [(T 155,[0;1;2;3;4;5])] [2;1;0;4;3;5]));
  (*646*) Del (T 155);
  (*647*) AddTo (T 157) (Plain (Einsum [(T 156,[0;1;2;3;4;5])] [0;1;2;4;3;5]));
  (*648*) Del (T 156);
  (*649*) AddTo n_t3new (Times (Einsum [(T 157,[0;1;2;3;4;5])] [0;1;2;3;5;4]) (-1) 1);
  (*650*) AddTo n_t3new (Plain (Einsum [(T 157,[0;1;2;3;4;5])] [2;1;0;3;5;4]));
  (*651*) Del (T 157);
  (*652*) Assign (T 158) (Plain (Zeros [0;0;0;1;1;1]));
  (*653*) AddTo (T 158) (Plain (Einsum [(n_t2,[0;1;2;3]); (T 37,[4;5;1;6])] [0;4;5;2;3;6]));
  (*654*) Del (T 37);
  (*655*) AddTo n_t3new (Times (Einsum [(T 158,[0;1;2;3;4;5])] [0;1;2;3;5;4]) (-1) 1);
  (*656*) AddTo n_t3new (Plain (Einsum [(T 158,[0;1;2;3;4;5])] [0;1;2;4;5;3]));
  (*657*) AddTo n_t3new (Times (Einsum [(T 158,[0;1;2;3;4;5])] [0;2;1;3;4;5]) (-1) 1);
  (*658*) AddTo n_t3new (Plain (Einsum [(T 158,[0;1;2;3;4;5])] [0;2;1;5;4;3]));
  (*659*) AddTo n_t3new (Plain (Einsum [(T 158,[0;1;2;3;4;5])] [1;2;0;3;4;5]));
  (*660*) AddTo n_t3new (Times (Einsum [(T 158,[0;1;2;3;4;5])] [1;2;0;5;4;3]) (-1) 1);
  (*661*) AddTo n_t3new (Plain (Einsum [(T 158,[0;1;2;3;4;5])] [2;1;0;3;5;4]));
  (*662*) AddTo n_t3new (Times (Einsum [(T 158,[0;1;2;3;4;5])] [2;1;0;4;5;3]) (-1) 1);
  (*663*) Del (T 158);
  (*664*) Assign (T 159) (Plain (Zeros [0;0;0;1]));
  (*665*) AddTo (T 159) (Plain (Einsum [(T 14,[0;1;2;3]); (n_t3,[4;0;5;2;3;6])] [4;5;1;6]));
  (*666*) Del (T 14);
  (*667*) Assign (T 160) (Plain (Zeros [0;0;0;1;1;1]));
  (*668*) AddTo (T 160) (Times (Einsum [(n_t2,[0;1;2;3]); (T 159,[4;5;1;6])] [0;5;4;3;2;6]) (2) 1);
  (*669*) Del (T 159);
  (*670*) AddTo n_t3new (Plain (Einsum [(T 160,[0;1;2;3;4;5])] [1;0;2;3;4;5]));
  (*671*) AddTo n_t3new (Times (Einsum [(T 160,[0;1;2;3;4;5])] [1;0;2;5;4;3]) (-1) 1);
  (*672*) Del (T 160);
  (*673*) Assign (T 161) (Plain (Zeros [0;0;0;1;1;1]));
  (*674*) AddTo (T 161) (Plain (Einsum [(n_v'oovv,[0;1;2;3]); (n_t3,[4;1;5;6;7;3])] [4;5;0;6;7;2]));
  (*675*) Assign (T 162) (Plain (Zeros [0;1;1;1]));
  (*676*) AddTo (T 162) (Plain (Einsum [(n_v'ovvv,[0;1;2;3])] [0;1;2;3]));
  (*677*) AddTo (T 162) (Times (Einsum [(n_v'ovvv,[0;1;2;3])] [0;2;3;1]) (-1) 2);
  (*678*) Assign (T 163) (Plain (Zeros [1;1]));
  (*679*) AddTo (T 163) (Times (Einsum [(n_t1,[0;1]); (T 162,[0;1;2;3])] [2;3]) (2) 1);
  (*680*) Del (T 162);
  (*681*) Assign (T 164) (Plain (Zeros [0;0;0;1;1;1]));
  (*682*) AddTo (T 164) (Plain (Einsum [(T 163,[0;1]); (n_t3,[2;3;4;1;5;6])] [2;4;3;6;5;0]));
  (*683*) Del (T 163);
  (*684*) Assign (T 165) (Plain (Zeros [0;0;0;0;0;1]));
  (*685*) AddTo (T 165) (Plain (Einsum [(n_v'ovov,[0;1;2;3]); (n_t3,[4;5;6;7;3;1])] [4;6;5;0;2;7]));
  (*686*) Assign (T 166) (Plain (Zeros [0;0;0;1;1;1]));
  (*687*) AddTo (T 166) (Plain (Einsum [(T 4,[0;1;2;3]); (T 165,[4;5;6;1;0;7])] [4;5;6;2;3;7]));
  (*688*) Del (T 4);
  (*688*) Del (T 165);
  (*689*) Assign (T 167) (Plain (Zeros [0;0;0;1;1;1]));
  (*690*) AddTo (T 167) (Plain (Einsum [(T 161,[0;1;2;3;4;5])] [0;1;2;3;4;5]));
  (*691*) Del (T 161);
  (*692*) AddTo (T 167) (Times (Einsum [(T 164,[0;1;2;3;4;5])] [1;0;2;3;4;5]) (-1) 1);
  (*693*) Del (T 164);
  (*694*) AddTo (T 167) (Plain (Einsum [(T 166,[0;1;2;3;4;5])] [0;1;2;4;3;5]));
  (*695*) Del (T 166);
  (*696*) AddTo n_t3new (Times (Einsum [(T 167,[0;1;2;3;4;5])] [0;2;1;3;4;5]) (-1) 1);
  (*697*) AddTo n_t3new (Plain (Einsum [(T 167,[0;1;2;3;4;5])] [0;2;1;5;4;3]));
  (*698*) Del (T 167);
  (*699*) Assign (T 168) (Plain (Zeros [0;0;0;1;1;1]));
  (*700*) AddTo (T 168) (Times (Einsum [(T 88,[0;1;2;3]); (n_t3,[4;5;1;6;3;7])] [4;5;0;7;6;2]) (100000000000001) 100000000000000);
  (*701*) Del (T 88);
  (*702*) AddTo n_t3new (Times (Einsum [(T 168,[0;1;2;3;4;5])] [2;1;0;4;5;3]) (-1) 1);
  (*703*) AddTo n_t3new (Plain (Einsum [(T 168,[0;1;2;3;4;5])] [0;1;2;4;5;3]));
  (*704*) Del (T 168);
  (*705*) Assign (T 169) (Plain (Zeros [0;0;0;1;1;1]));
  (*706*) AddTo (T 169) (Plain (Einsum [(T 93,[0;1;2;3]); (n_t3,[4;5;1;6;7;3])] [0;4;5;6;7;2]));
  (*707*) Assign (T 170) (Plain (Zeros [0;0;0;0;1;1]));
  (*708*) AddTo (T 170) (Plain (Einsum [(n_v'ovvv,[0;1;2;3]); (n_t3,[4;5;6;1;7;3])] [4;6;5;0;7;2]));
  (*709*) Assign (T 171) (Plain (Zeros [0;0;0;1;1;1]));
  (*710*) AddTo (T 171) (Plain (Einsum [(n_t1,[0;1]); (T 170,[2;3;4;0;5;6])] [2;3;4;1;5;6]));
  (*711*) Del (T 170);
  (*712*) Assign (T 172) (Plain (Zeros [0;0;0;1]));
  (*713*) AddTo (T 172) (Plain (Einsum [(n_t2,[0;1;2;3]); (n_v'ooov,[4;5;1;2])] [0;4;5;3]));
  (*714*) Assign (T 173) (Plain (Zeros [0;0;0;1]));
  (*715*) AddTo (T 173) (Times (Einsum [(n_v'ooov,[0;1;2;3])] [0;1;2;3]) (2) 1);
  (*716*) AddTo (T 173) (Times (Einsum [(n_v'ooov,[0;1;2;3])] [0;2;1;3]) (-1) 1);
  (*717*) Assign (T 174) (Plain (Zeros [0;0;0;1]));
  (*718*) AddTo (T 174) (Plain (Einsum [(n_t2,[0;1;2;3]); (T 173,[4;5;1;3])] [0;4;5;2]));
  (*719*) Del (T 173);
  (*720*) Assign (T 175) (Plain (Zeros [0;0;0;1]));
  (*721*) AddTo (T 175) (Plain (Einsum [(T 172,[0;1;2;3])] [0;2;1;3]));
  (*722*) Del (T 172);
  (*723*) AddTo (T 175) (Times (Einsum [(T 174,[0;1;2;3])] [0;2;1;3]) (-1) 1);
  (*724*) Del (T 174);
  (*725*) Assign (T 176) (Plain (Zeros [0;0;0;1;1;1]));
  (*726*) AddTo (T 176) (Plain (Einsum [(n_t2,[0;1;2;3]); (T 175,[4;1;5;6])] [0;4;5;3;2;6]));
  (*727*) Del (T 175);
  (*728*) Assign (T 177) (Plain (Zeros [0;0;0;1]));
  (*729*) AddTo (T 177) (Times (Einsum [(T 35,[0;1;2;3])] [0;2;1;3]) (-1) 1);
  (*730*) AddTo (T 177) (Plain (Einsum [(T 38,[0;1;2;3])] [0;1;2;3]));
  (*731*) Del (T 38);
  (*732*) Assign (T 178) (Plain (Zeros [0;0;0;1;1;1]));
  (*733*) AddTo (T 178) (Plain (Einsum [(n_t2,[0;1;2;3]); (T 177,[4;5;1;6])] [0;4;5;3;2;6]));
  (*734*) Del (T 177);
  (*735*) Assign (T 179) (Plain (Zeros [0;0;0;1;1;1]));
  (*736*) AddTo (T 179) (Plain (Einsum [(T 169,[0;1;2;3;4;5])] [0;1;2;3;4;5]));
  (*737*) Del (T 169);
  (*738*) AddTo (T 179) (Times (Einsum [(T 171,[0;1;2;3;4;5])] [0;1;2;3;4;5]) (-1) 2);
  (*739*) Del (T 171);
  (*740*) AddTo (T 179) (Plain (Einsum [(T 176,[0;1;2;3;4;5])] [0;1;2;4;3;5]));
  (*741*) Del (T 176);
  (*742*) AddTo (T 179) (Times (Einsum [(T 178,[0;1;2;3;4;5])] [1;0;2;4;3;5]) (-1) 1);
  (*743*) Del (T 178);
  (*744*) AddTo n_t3new (Plain (Einsum [(T 179,[0;1;2;3;4;5])] [0;2;1;3;4;5]));
  (*745*) AddTo n_t3new (Times (Einsum [(T 179,[0;1;2;3;4;5])] [0;2;1;5;4;3]) (-1) 1);
  (*746*) AddTo n_t3new (Times (Einsum [(T 179,[0;1;2;3;4;5])] [1;2;0;3;4;5]) (-1) 1);
  (*747*) AddTo n_t3new (Plain (Einsum [(T 179,[0;1;2;3;4;5])] [1;2;0;5;4;3]));
  (*748*) Del (T 179);
  (*749*) Assign (T 180) (Plain (Zeros [0;0;0;1]));
  (*750*) AddTo (T 180) (Plain (Einsum [(n_t1,[0;1]); (T 24,[2;3;1;4])] [0;2;3;4]));
  (*751*) Assign (T 181) (Plain (Zeros [0;0;0;1;1;1]));
  (*752*) AddTo (T 181) (Plain (Einsum [(n_t2,[0;1;2;3]); (T 180,[4;5;1;6])] [4;5;0;2;3;6]));
  (*753*) Del (T 180);
  (*754*) Assign (T 182) (Plain (Zeros [0;0;0;1]));
  (*755*) AddTo (T 182) (Plain (Einsum [(n_t2,[0;1;2;3]); (T 6,[4;1;5;2])] [4;0;5;3]));
  (*756*) Assign (T 183) (Plain (Zeros [0;0;0;1]));
  (*757*) AddTo (T 183) (Plain (Einsum [(T 6,[0;1;2;3])] [0;1;2;3]));
  (*758*) AddTo (T 183) (Times (Einsum [(T 182,[0;1;2;3])] [0;1;2;3]) (-1) 1);
  (*759*) Del (T 182);
  (*760*) AddTo (T 183) (Plain (Einsum [(T 67,[0;1;2;3])] [1;0;2;3]));
  (*761*) Del (T 67);
  (*762*) Assign (T 184) (Plain (Zeros [0;0;0;1;1;1]));
  (*763*) AddTo (T 184) (Plain (Einsum [(n_t2,[0;1;2;3]); (T 183,[4;5;1;6])] [0;4;5;3;2;6]));
  (*764*) Del (T 183);
  (*765*) Assign (T 185) (Plain (Zeros [0;0;0;1;1;1]));
  (*766*) AddTo (T 185) (Plain (Einsum [(T 181,[0;1;2;3;4;5])] [0;1;2;3;4;5]));
  (*767*) Del (T 181);
  (*768*) AddTo (T 185) (Times (Einsum [(T 184,[0;1;2;3;4;5])] [1;0;2;4;3;5]) (-1) 1);
  (*769*) Del (T 184);
  (*770*) AddTo n_t3new (Plain (Einsum [(T 185,[0;1;2;3;4;5])] [1;0;2;3;4;5]));
  (*771*) AddTo n_t3new (Times (Einsum [(T 185,[0;1;2;3;4;5])] [1;0;2;5;4;3]) (-1) 1);
  (*772*) AddTo n_t3new (Times (Einsum [(T 185,[0;1;2;3;4;5])] [2;0;1;3;4;5]) (-1) 1);
  (*773*) AddTo n_t3new (Plain (Einsum [(T 185,[0;1;2;3;4;5])] [2;0;1;5;4;3]));
  (*774*) Del (T 185);
  (*775*) Assign (T 186) (Plain (Zeros [0;0;0;1;1;1]));
  (*776*) AddTo (T 186) (Plain (Einsum [(T 25,[0;1;2;3]); (n_t3,[3;4;2;5;6;7])] [0;4;1;7;5;6]));
  (*777*) Assign (T 187) (Plain (Zeros [0;0;0;0;1;1]));
  (*778*) AddTo (T 187) (Plain (Einsum [(n_v'ooov,[0;1;2;3]); (n_t3,[4;5;1;6;7;3])] [4;5;0;2;6;7]));
  (*779*) Assign (T 188) (Plain (Zeros [0;0;0;1;1;1]));
  (*780*) AddTo (T 188) (Plain (Einsum [(n_t1,[0;1]); (T 187,[2;3;4;0;5;6])] [2;3;4;1;5;6]));
  (*781*) Del (T 187);
  (*782*) Assign (T 189) (Plain (Zeros [0;0;0;1]));
  (*783*) AddTo (T 189) (Times (Einsum [(T 10,[0;1]); (n_t2,[2;3;4;1])] [2;3;0;4]) (2) 1);
  (*784*) Assign (T 190) (Plain (Zeros [0;0;0;1]));
  (*785*) AddTo (T 190) (Plain (Einsum [(n_t1,[0;1]); (T 154,[2;3;4;0])] [3;2;4;1]));
  (*786*) Del (T 154);
  (*787*) Assign (T 191) (Plain (Zeros [0;0;0;1]));
  (*788*) AddTo (T 191) (Times (Einsum [(T 189,[0;1;2;3])] [1;0;2;3]) (-1) 1);
  (*789*) Del (T 189);
  (*790*) AddTo (T 191) (Plain (Einsum [(T 190,[0;1;2;3])] [1;0;2;3]));
  (*791*) Del (T 190);
  (*792*) Assign (T 192) (Plain (Zeros [0;0;0;1;1;1]));
  (*793*) AddTo (T 192) (Plain (Einsum [(n_t2,[0;1;2;3]); (T 191,[4;5;1;6])] [0;4;5;3;2;6]));
  (*794*) Del (T 191);
  (*795*) Assign (T 193) (Plain (Zeros [0;0;0;1;1;1]));
  (*796*) AddTo (T 193) (Times (Einsum [(T 186,[0;1;2;3;4;5])] [0;1;2;3;4;5]) (1) 2);
  (*797*) Del (T 186);
  (*798*) AddTo (T 193) (Plain (Einsum [(T 188,[0;1;2;3;4;5])] [0;1;2;3;4;5]));
  (*799*) Del (T 188);
  (*800*) AddTo (T 193) (Times (Einsum [(T 192,[0;1;2;3;4;5])] [2;1;0;5;4;3]) (-1) 1);
  (*801*) Del (T 192);
  (*802*) AddTo n_t3new (Times (Einsum [(T 193,[0;1;2;3;4;5])] [0;1;2;3;5;4]) (-1) 1);
  (*803*) AddTo n_t3new (Plain (Einsum [(T 193,[0;1;2;3;4;5])] [0;1;2;4;5;3]));
  (*804*) AddTo n_t3new (Plain (Einsum [(T 193,[0;1;2;3;4;5])] [2;1;0;3;5;4]));
  (*805*) AddTo n_t3new (Times (Einsum [(T 193,[0;1;2;3;4;5])] [2;1;0;4;5;3]) (-1) 1);
  (*806*) Del (T 193);
  (*807*) Assign (T 194) (Plain (Zeros [0;0;0;1;1;1]));
  (*808*) AddTo (T 194) (Plain (Einsum [(n_t2,[0;1;2;3]); (T 21,[4;5;3;6])] [4;0;1;2;6;5]));
  (*809*) Del (T 21);
  (*810*) Assign (T 195) (Plain (Zeros [0;0;1;1]));
  (*811*) AddTo (T 195) (Plain (Einsum [(n_t2,[0;1;2;3]); (n_v'ovov,[4;3;1;5])] [0;4;2;5]));
  (*812*) Assign (T 196) (Plain (Zeros [0;0;1;1]));
  (*813*) AddTo (T 196) (Plain (Einsum [(n_v'ovov,[0;1;2;3]); (T 125,[2;4;3;5])] [4;0;5;1]));
  (*814*) Del (T 125);
  (*815*) Assign (T 197) (Plain (Zeros [0;0;1;1]));
  (*816*) AddTo (T 197) (Plain (Einsum [(n_v'ovov,[0;1;2;3])] [0;2;1;3]));
  (*817*) AddTo (T 197) (Times (Einsum [(T 195,[0;1;2;3])] [0;1;2;3]) (-1) 1);
  (*818*) AddTo (T 197) (Plain (Einsum [(T 196,[0;1;2;3])] [0;1;2;3]));
  (*819*) Del (T 196);
  (*820*) Assign (T 198) (Plain (Zeros [0;0;0;0;1;1]));
  (*821*) AddTo (T 198) (Plain (Einsum [(n_t2,[0;1;2;3]); (T 197,[4;5;6;2])] [0;1;4;5;3;6]));
  (*822*) Del (T 197);
  (*823*) Assign (T 199) (Plain (Zeros [0;0;0;1;1;1]));
  (*824*) AddTo (T 199) (Plain (Einsum [(n_t1,[0;1]); (T 198,[2;3;4;0;5;6])] [3;2;4;1;5;6]));
  (*825*) Del (T 198);
  (*826*) Assign (T 200) (Plain (Zeros [0;0;0;1;1;1]));
  (*827*) AddTo (T 200) (Plain (Einsum [(T 194,[0;1;2;3;4;5])] [0;1;2;3;4;5]));
  (*828*) Del (T 194);
  (*829*) AddTo (T 200) (Times (Einsum [(T 199,[0;1;2;3;4;5])] [0;1;2;3;4;5]) (-1) 1);
  (*830*) Del (T 199);
  (*831*) AddTo n_t3new (Plain (Einsum [(T 200,[0;1;2;3;4;5])] [0;1;2;4;3;5]));
  (*832*) AddTo n_t3new (Times (Einsum [(T 200,[0;1;2;3;4;5])] [0;1;2;5;3;4]) (-1) 1);
  (*833*) AddTo n_t3new (Times (Einsum [(T 200,[0;1;2;3;4;5])] [0;2;1;3;5;4]) (-1) 1);
  (*834*) AddTo n_t3new (Plain (Einsum [(T 200,[0;1;2;3;4;5])] [0;2;1;4;5;3]));
  (*835*) AddTo n_t3new (Plain (Einsum [(T 200,[0;1;2;3;4;5])] [1;0;2;3;4;5]));
  (*836*) AddTo n_t3new (Times (Einsum [(T 200,[0;1;2;3;4;5])] [1;0;2;5;4;3]) (-1) 1);
  (*837*) AddTo n_t3new (Times (Einsum [(T 200,[0;1;2;3;4;5])] [2;0;1;3;4;5]) (-1) 1);
  (*838*) AddTo n_t3new (Plain (Einsum [(T 200,[0;1;2;3;4;5])] [2;0;1;5;4;3]));
  (*839*) AddTo n_t3new (Plain (Einsum [(T 200,[0;1;2;3;4;5])] [1;2;0;3;5;4]));
  (*840*) AddTo n_t3new (Times (Einsum [(T 200,[0;1;2;3;4;5])] [1;2;0;4;5;3]) (-1) 1);
  (*841*) AddTo n_t3new (Times (Einsum [(T 200,[0;1;2;3;4;5])] [2;1;0;4;3;5]) (-1) 1);
  (*842*) AddTo n_t3new (Plain (Einsum [(T 200,[0;1;2;3;4;5])] [2;1;0;5;3;4]));
  (*843*) Del (T 200);
  (*844*) Assign (T 201) (Plain (Zeros [0;0;0;1]));
  (*845*) AddTo (T 201) (Plain (Einsum [(n_t2,[0;1;2;3]); (n_v'ovvv,[4;2;5;3])] [0;1;4;5]));
  (*846*) Assign (T 202) (Plain (Zeros [0;0;0;1;1;1]));
  (*847*) AddTo (T 202) (Plain (Einsum [(n_t2,[0;1;2;3]); (T 201,[4;5;1;6])] [4;5;0;2;3;6]));
  (*848*) Del (T 201);
  (*849*) Assign (T 203) (Plain (Zeros [0;0;0;0;1;1]));
  (*850*) AddTo (T 203) (Plain (Einsum [(n_t2,[0;1;2;3]); (T 85,[4;5;6;2])] [0;1;4;5;3;6]));
  (*851*) Del (T 85);
  (*852*) Assign (T 204) (Plain (Zeros [0;0;0;1;1;1]));
  (*853*) AddTo (T 204) (Times (Einsum [(n_t1,[0;1]); (T 203,[2;3;4;0;5;6])] [3;2;4;1;5;6]) (-1) 1);
  (*854*) Del (T 203);
  (*855*) Assign (T 205) (Plain (Zeros [0;0;0;1;1;1]));
  (*856*) AddTo (T 205) (Plain (Einsum [(T 202,[0;1;2;3;4;5])] [0;1;2;3;4;5]));
  (*857*) Del (T 202);
  (*858*) AddTo (T 205) (Plain (Einsum [(T 204,[0;1;2;3;4;5])] [0;1;2;3;4;5]));
  (*859*) Del (T 204);
  (*860*) AddTo n_t3new (Plain (Einsum [(T 205,[0;1;2;3;4;5])] [0;1;2;3;5;4]));
  (*861*) AddTo n_t3new (Times (Einsum [(T 205,[0;1;2;3;4;5])] [0;1;2;4;5;3]) (-1) 1);
  (*862*) AddTo n_t3new (Times (Einsum [(T 205,[0;1;2;3;4;5])] [0;2;1;4;3;5]) (-1) 1);
  (*863*) AddTo n_t3new (Plain (Einsum [(T 205,[0;1;2;3;4;5])] [0;2;1;5;3;4]));
  (*864*) AddTo n_t3new (Plain (Einsum [(T 205,[0;1;2;3;4;5])] [1;0;2;3;4;5]));
  (*865*) AddTo n_t3new (Times (Einsum [(T 205,[0;1;2;3;4;5])] [1;0;2;5;4;3]) (-1) 1);
  (*866*) AddTo n_t3new (Times (Einsum [(T 205,[0;1;2;3;4;5])] [2;0;1;3;4;5]) (-1) 1);
  (*867*) AddTo n_t3new (Plain (Einsum [(T 205,[0;1;2;3;4;5])] [2;0;1;5;4;3]));
  (*868*) AddTo n_t3new (Plain (Einsum [(T 205,[0;1;2;3;4;5])] [1;2;0;4;3;5]));
  (*869*) AddTo n_t3new (Times (Einsum [(T 205,[0;1;2;3;4;5])] [1;2;0;5;3;4]) (-1) 1);
  (*870*) AddTo n_t3new (Times (Einsum [(T 205,[0;1;2;3;4;5])] [2;1;0;3;5;4]) (-1) 1);
  (*871*) AddTo n_t3new (Plain (Einsum [(T 205,[0;1;2;3;4;5])] [2;1;0;4;5;3]));
  (*872*) Del (T 205);
  (*873*) Assign (T 206) (Plain (Zeros [0;0;0;1;1;1]));
  (*874*) AddTo (T 206) (Plain (Einsum [(T 24,[0;1;2;3]); (n_t3,[4;5;1;6;7;2])] [0;4;5;6;7;3]));
  (*875*) AddTo n_t3new (Times (Einsum [(T 206,[0;1;2;3;4;5])] [0;1;2;4;3;5]) (-1) 1);
  (*876*) AddTo n_t3new (Plain (Einsum [(T 206,[0;1;2;3;4;5])] [0;1;2;5;3;4]));
  (*877*) AddTo n_t3new (Times (Einsum [(T 206,[0;1;2;3;4;5])] [0;2;1;3;4;5]) (-1) 1);
  (*878*) AddTo n_t3new (Plain (Einsum [(T 206,[0;1;2;3;4;5])] [0;2;1;5;4;3]));
  (*879*) AddTo n_t3new (Plain (Einsum [(T 206,[0;1;2;3;4;5])] [1;2;0;3;4;5]));
  (*880*) AddTo n_t3new (Times (Einsum [(T 206,[0;1;2;3;4;5])] [1;2;0;5;4;3]) (-1) 1);
  (*881*) AddTo n_t3new (Plain (Einsum [(T 206,[0;1;2;3;4;5])] [2;1;0;4;3;5]));
  (*882*) AddTo n_t3new (Times (Einsum [(T 206,[0;1;2;3;4;5])] [2;1;0;5;3;4]) (-1) 1);
  (*883*) Del (T 206);
  (*884*) Assign (T 207) (Plain (Zeros [0;0;0;1;1;1]));
  (*885*) AddTo (T 207) (Plain (Einsum [(T 93,[0;1;2;3]); (n_t3,[4;1;5;6;7;3])] [0;4;5;6;7;2]));
  (*886*) AddTo n_t3new (Times (Einsum [(T 207,[0;1;2;3;4;5])] [1;0;2;3;4;5]) (-1) 1);
  (*887*) AddTo n_t3new (Plain (Einsum [(T 207,[0;1;2;3;4;5])] [1;0;2;5;4;3]));
  (*888*) Del (T 207);
  (*889*) Assign (T 208) (Plain (Zeros [0;0;0;1;1;1]));
  (*890*) AddTo (T 208) (Plain (Einsum [(n_v'vvvv,[0;1;2;3]); (n_t3,[4;5;6;1;7;3])] [4;6;5;7;0;2]));
  (*891*) Assign (T 209) (Plain (Zeros [0;0;0;0;1;1]));
  (*892*) AddTo (T 209) (Plain (Einsum [(n_v'ovvv,[0;1;2;3]); (n_t3,[4;5;6;7;1;3])] [4;6;5;0;7;2]));
  (*893*) Assign (T 210) (Plain (Zeros [0;0;0;1;1;1]));
  (*894*) AddTo (T 210) (Plain (Einsum [(n_t1,[0;1]); (T 209,[2;3;4;0;5;6])] [2;3;4;1;5;6]));
  (*895*) Del (T 209);
  (*896*) Assign (T 211) (Plain (Zeros [0;0;0;1;1;1]));
  (*897*) AddTo (T 211) (Times (Einsum [(T 208,[0;1;2;3;4;5])] [0;1;2;3;4;5]) (-1) 2);
  (*898*) Del (T 208);
  (*899*) AddTo (T 211) (Plain (Einsum [(T 210,[0;1;2;3;4;5])] [0;1;2;3;4;5]));
  (*900*) Del (T 210);
  (*901*) AddTo n_t3new (Times (Einsum [(T 211,[0;1;2;3;4;5])] [0;2;1;4;3;5]) (-1) 1);
  (*902*) AddTo n_t3new (Plain (Einsum [(T 211,[0;1;2;3;4;5])] [0;2;1;5;3;4]));
  (*903*) Del (T 211);
  (*904*) Assign (T 212) (Plain (Zeros [0;1;1;1]));
  (*905*) AddTo (T 212) (Plain (Einsum [(n_t2,[0;1;2;3]); (n_v'ovvv,[1;4;5;2])] [0;3;4;5]));
  (*906*) Assign (T 213) (Plain (Zeros [0;0;0;1;1;1]));
  (*907*) AddTo (T 213) (Plain (Einsum [(n_t2,[0;1;2;3]); (T 212,[4;5;3;6])] [0;1;4;2;5;6]));
  (*908*) Del (T 212);
  (*909*) Assign (T 214) (Plain (Zeros [0;0;0;0;1;1]));
  (*910*) AddTo (T 214) (Plain (Einsum [(n_t2,[0;1;2;3]); (T 93,[4;5;6;3])] [4;0;1;5;2;6]));
  (*911*) Assign (T 215) (Plain (Zeros [0;0;0;1;1;1]));
  (*912*) AddTo (T 215) (Plain (Einsum [(n_t1,[0;1]); (T 214,[2;3;4;0;5;6])] [2;3;4;1;5;6]));
  (*913*) Del (T 214);
  (*914*) Assign (T 216) (Plain (Zeros [0;0;0;1;1;1]));
  (*915*) AddTo (T 216) (Plain (Einsum [(T 213,[0;1;2;3;4;5])] [0;1;2;3;4;5]));
  (*916*) Del (T 213);
  (*917*) AddTo (T 216) (Plain (Einsum [(T 215,[0;1;2;3;4;5])] [0;1;2;3;4;5]));
  (*918*) Del (T 215);
  (*919*) AddTo n_t3new (Times (Einsum [(T 216,[0;1;2;3;4;5])] [0;1;2;3;4;5]) (-1) 1);
  (*920*) AddTo n_t3new (Plain (Einsum [(T 216,[0;1;2;3;4;5])] [0;1;2;5;4;3]));
  (*921*) AddTo n_t3new (Times (Einsum [(T 216,[0;1;2;3;4;5])] [0;2;1;3;5;4]) (-1) 1);
  (*922*) AddTo n_t3new (Plain (Einsum [(T 216,[0;1;2;3;4;5])] [0;2;1;4;5;3]));
  (*923*) AddTo n_t3new (Times (Einsum [(T 216,[0;1;2;3;4;5])] [1;0;2;4;3;5]) (-1) 1);
  (*924*) AddTo n_t3new (Plain (Einsum [(T 216,[0;1;2;3;4;5])] [1;0;2;5;3;4]));
  (*925*) AddTo n_t3new (Plain (Einsum [(T 216,[0;1;2;3;4;5])] [2;0;1;4;3;5]));
  (*926*) AddTo n_t3new (Times (Einsum [(T 216,[0;1;2;3;4;5])] [2;0;1;5;3;4]) (-1) 1);
  (*927*) AddTo n_t3new (Plain (Einsum [(T 216,[0;1;2;3;4;5])] [1;2;0;3;5;4]));
  (*928*) AddTo n_t3new (Times (Einsum [(T 216,[0;1;2;3;4;5])] [1;2;0;4;5;3]) (-1) 1);
  (*929*) AddTo n_t3new (Plain (Einsum [(T 216,[0;1;2;3;4;5])] [2;1;0;3;4;5]));
  (*930*) AddTo n_t3new (Times (Einsum [(T 216,[0;1;2;3;4;5])] [2;1;0;5;4;3]) (-1) 1);
  (*931*) Del (T 216);
  (*932*) Assign (T 217) (Plain (Zeros [0;0;0;0;1;1]));
  (*933*) AddTo (T 217) (Plain (Einsum [(n_t2,[0;1;2;3]); (T 24,[4;5;3;6])] [4;0;1;5;2;6]));
  (*934*) Assign (T 218) (Plain (Zeros [0;0;0;1;1;1]));
  (*935*) AddTo (T 218) (Plain (Einsum [(n_t1,[0;1]); (T 217,[2;3;4;0;5;6])] [2;3;4;1;5;6]));
  (*936*) Del (T 217);
  (*937*) Assign (T 219) (Plain (Zeros [0;1;1;1]));
  (*938*) AddTo (T 219) (Plain (Einsum [(n_t2,[0;1;2;3]); (n_v'ooov,[4;0;1;5])] [4;2;3;5]));
  (*939*) Assign (T 220) (Plain (Zeros [0;0;1;1]));
  (*940*) AddTo (T 220) (Plain (Einsum [(n_t1,[0;1]); (n_v'ooov,[2;3;0;4])] [2;3;1;4]));
  (*941*) Assign (T 221) (Plain (Zeros [0;1;1;1]));
  (*942*) AddTo (T 221) (Plain (Einsum [(n_t1,[0;1]); (T 220,[2;0;3;4])] [2;1;3;4]));
  (*943*) Assign (T 222) (Plain (Zeros [0;1;1;1]));
  (*944*) AddTo (T 222) (Plain (Einsum [(T 219,[0;1;2;3])] [0;1;2;3]));
  (*945*) Del (T 219);
  (*946*) AddTo (T 222) (Plain (Einsum [(T 221,[0;1;2;3])] [0;1;2;3]));
  (*947*) Del (T 221);
  (*948*) Assign (T 223) (Plain (Zeros [0;0;0;1;1;1]));
  (*949*) AddTo (T 223) (Plain (Einsum [(n_t2,[0;1;2;3]); (T 222,[4;5;6;2])] [0;1;4;3;5;6]));
  (*950*) Del (T 222);
  (*951*) Assign (T 224) (Plain (Zeros [0;0;0;1;1;1]));
  (*952*) AddTo (T 224) (Times (Einsum [(T 218,[0;1;2;3;4;5])] [0;1;2;3;4;5]) (-1) 1);
  (*953*) Del (T 218);
  (*954*) AddTo (T 224) (Plain (Einsum [(T 223,[0;1;2;3;4;5])] [1;0;2;4;5;3]));
  (*955*) Del (T 223);
  (*956*) AddTo n_t3new (Times (Einsum [(T 224,[0;1;2;3;4;5])] [0;1;2;3;4;5]) (-1) 1);
  (*957*) AddTo n_t3new (Plain (Einsum [(T 224,[0;1;2;3;4;5])] [0;1;2;5;4;3]));
  (*958*) AddTo n_t3new (Times (Einsum [(T 224,[0;1;2;3;4;5])] [0;2;1;4;3;5]) (-1) 1);
  (*959*) AddTo n_t3new (Plain (Einsum [(T 224,[0;1;2;3;4;5])] [0;2;1;5;3;4]));
  (*960*) AddTo n_t3new (Times (Einsum [(T 224,[0;1;2;3;4;5])] [1;0;2;3;5;4]) (-1) 1);
  (*961*) AddTo n_t3new (Plain (Einsum [(T 224,[0;1;2;3;4;5])] [1;0;2;4;5;3]));
  (*962*) AddTo n_t3new (Plain (Einsum [(T 224,[0;1;2;3;4;5])] [2;0;1;3;5;4]));
  (*963*) AddTo n_t3new (Times (Einsum [(T 224,[0;1;2;3;4;5])] [2;0;1;4;5;3]) (-1) 1);
  (*964*) AddTo n_t3new (Plain (Einsum [(T 224,[0;1;2;3;4;5])] [1;2;0;4;3;5]));
  (*965*) AddTo n_t3new (Times (Einsum [(T 224,[0;1;2;3;4;5])] [1;2;0;5;3;4]) (-1) 1);
  (*966*) AddTo n_t3new (Plain (Einsum [(T 224,[0;1;2;3;4;5])] [2;1;0;3;4;5]));
  (*967*) AddTo n_t3new (Times (Einsum [(T 224,[0;1;2;3;4;5])] [2;1;0;5;4;3]) (-1) 1);
  (*968*) Del (T 224);
  (*969*) Assign (T 225) (Plain (Zeros [0;0;0;1;1;1]));
  (*970*) AddTo (T 225) (Plain (Einsum [(T 25,[0;1;2;3]); (n_t3,[4;3;2;5;6;7])] [0;4;1;5;7;6]));
  (*971*) AddTo n_t3new (Plain (Einsum [(T 225,[0;1;2;3;4;5])] [1;0;2;3;5;4]));
  (*972*) AddTo n_t3new (Times (Einsum [(T 225,[0;1;2;3;4;5])] [2;0;1;3;5;4]) (-1) 1);
  (*973*) Del (T 225);
  (*974*) Assign (T 226) (Plain (Zeros [0;0;0;0;1;1]));
  (*975*) AddTo (T 226) (Plain (Einsum [(n_v'ooov,[0;1;2;3]); (n_t3,[4;5;2;6;7;3])] [4;5;0;1;6;7]));
  (*976*) Assign (T 227) (Plain (Zeros [0;0;0;1;1;1]));
  (*977*) AddTo (T 227) (Plain (Einsum [(n_t1,[0;1]); (T 226,[2;3;0;4;5;6])] [2;3;4;1;5;6]));
  (*978*) Del (T 226);
  (*979*) AddTo n_t3new (Plain (Einsum [(T 227,[0;1;2;3;4;5])] [0;1;2;3;5;4]));
  (*980*) AddTo n_t3new (Times (Einsum [(T 227,[0;1;2;3;4;5])] [0;1;2;4;5;3]) (-1) 1);
  (*981*) AddTo n_t3new (Plain (Einsum [(T 227,[0;1;2;3;4;5])] [1;0;2;3;4;5]));
  (*982*) AddTo n_t3new (Times (Einsum [(T 227,[0;1;2;3;4;5])] [1;0;2;5;4;3]) (-1) 1);
  (*983*) AddTo n_t3new (Times (Einsum [(T 227,[0;1;2;3;4;5])] [2;0;1;3;4;5]) (-1) 1);
  (*984*) AddTo n_t3new (Plain (Einsum [(T 227,[0;1;2;3;4;5])] [2;0;1;5;4;3]));
  (*985*) AddTo n_t3new (Times (Einsum [(T 227,[0;1;2;3;4;5])] [2;1;0;3;5;4]) (-1) 1);
  (*986*) AddTo n_t3new (Plain (Einsum [(T 227,[0;1;2;3;4;5])] [2;1;0;4;5;3]));
  (*987*) Del (T 227);
  (*988*) Assign (T 228) (Plain (Zeros [0;0;0;0;1;1]));
  (*989*) AddTo (T 228) (Plain (Einsum [(n_v'ooov,[0;1;2;3]); (n_t3,[4;5;1;6;3;7])] [4;5;0;2;6;7]));
  (*990*) Assign (T 229) (Plain (Zeros [0;0;0;1;1;1]));
  (*991*) AddTo (T 229) (Plain (Einsum [(n_t1,[0;1]); (T 228,[2;3;4;0;5;6])] [2;3;4;1;5;6]));
  (*992*) Del (T 228);
  (*993*) AddTo n_t3new (Plain (Einsum [(T 229,[0;1;2;3;4;5])] [0;1;2;4;3;5]));
  (*994*) AddTo n_t3new (Times (Einsum [(T 229,[0;1;2;3;4;5])] [2;1;0;4;3;5]) (-1) 1);
  (*995*) Del (T 229);
  (*996*) Assign (T 230) (Plain (Zeros [0;0;0;1]));
  (*997*) AddTo (T 230) (Plain (Einsum [(n_t1,[0;1]); (T 25,[2;3;0;4])] [2;3;4;1]));
  (*998*) Assign (T 231) (Plain (Zeros [0;0;0;1;1;1]));
  (*999*) AddTo (T 231) (Plain (Einsum [(n_t2,[0;1;2;3]); (T 230,[4;5;1;6])] [4;0;5;6;2;3]));
  (*1000*) Del (T 230);
  (*1001*) AddTo n_t3new (Times (Einsum [(T 231,[0;1;2;3;4;5])] [1;0;2;3;5;4]) (-1) 1);
  (*1002*) AddTo n_t3new (Plain (Einsum [(T 231,[0;1;2;3;4;5])] [1;0;2;4;5;3]));
  (*1003*) AddTo n_t3new (Plain (Einsum [(T 231,[0;1;2;3;4;5])] [2;0;1;3;5;4]));
  (*1004*) AddTo n_t3new (Times (Einsum [(T 231,[0;1;2;3;4;5])] [2;0;1;4;5;3]) (-1) 1);
  (*1005*) Del (T 231);
  (*1006*) Assign (T 232) (Plain (Zeros [0;0;0;1;1;1]));
  (*1007*) AddTo (T 232) (Plain (Einsum [(n_v'ovov,[0;1;2;3]); (n_t3,[4;5;2;6;7;3])] [4;5;0;6;7;1]));
  (*1008*) AddTo n_t3new (Plain (Einsum [(T 232,[0;1;2;3;4;5])] [0;1;2;3;4;5]));
  (*1009*) AddTo n_t3new (Times (Einsum [(T 232,[0;1;2;3;4;5])] [0;1;2;5;4;3]) (-1) 1);
  (*1010*) AddTo n_t3new (Plain (Einsum [(T 232,[0;1;2;3;4;5])] [1;0;2;4;3;5]));
  (*1011*) AddTo n_t3new (Times (Einsum [(T 232,[0;1;2;3;4;5])] [1;0;2;5;3;4]) (-1) 1);
  (*1012*) AddTo n_t3new (Times (Einsum [(T 232,[0;1;2;3;4;5])] [2;0;1;4;3;5]) (-1) 1);
  (*1013*) AddTo n_t3new (Plain (Einsum [(T 232,[0;1;2;3;4;5])] [2;0;1;5;3;4]));
  (*1014*) AddTo n_t3new (Times (Einsum [(T 232,[0;1;2;3;4;5])] [2;1;0;3;4;5]) (-1) 1);
  (*1015*) AddTo n_t3new (Plain (Einsum [(T 232,[0;1;2;3;4;5])] [2;1;0;5;4;3]));
  (*1016*) Del (T 232);
  (*1017*) Assign (T 233) (Plain (Zeros [0;0;1;1]));
  (*1018*) AddTo (T 233) (Times (Einsum [(n_t1,[0;1]); (n_t1,[2;3])] [0;2;1;3]) (99999999999999) 200000000000000);
  (*1019*) AddTo (T 233) (Times (Einsum [(n_t2,[0;1;2;3])] [0;1;3;2]) (-1) 1);
  (*1020*) AddTo (T 233) (Times (Einsum [(n_t2,[0;1;2;3])] [0;1;2;3]) (1) 2);
  (*1021*) Assign (T 234) (Plain (Zeros [0;0;1;1]));
  (*1022*) AddTo (T 234) (Times (Einsum [(n_v'ovov,[0;1;2;3])] [0;2;1;3]) (-1) 1);
  (*1023*) AddTo (T 234) (Plain (Einsum [(T 19,[0;1;2;3])] [1;0;3;2]));
  (*1024*) Del (T 19);
  (*1025*) AddTo (T 234) (Times (Einsum [(T 24,[0;1;2;3])] [1;0;2;3]) (-1) 1);
  (*1026*) AddTo (T 234) (Times (Einsum [(T 195,[0;1;2;3])] [1;0;3;2]) (100000000000001) 100000000000000);
  (*1027*) Del (T 195);
  (*1028*) AddTo (T 234) (Times (Einsum [(n_v'ovov,[0;1;2;3]); (T 233,[2;4;5;3])] [0;4;1;5]) (100000000000001) 50000000000000);
  (*1029*) Del (T 233);
  (*1030*) Assign (T 235) (Plain (Zeros [0;0;0;1;1;1]));
  (*1031*) AddTo (T 235) (Plain (Einsum [(n_t3,[0;1;2;3;4;5])] [0;2;1;3;5;4]));
  (*1032*) AddTo (T 235) (Times (Einsum [(n_t3,[0;1;2;3;4;5])] [0;2;1;3;4;5]) (-1) 1);
  (*1033*) AddTo (T 235) (Plain (Einsum [(n_t3,[0;1;2;3;4;5])] [0;2;1;4;3;5]));
  (*1034*) AddTo (T 235) (Times (Einsum [(n_t3,[0;1;2;3;4;5])] [1;0;2;4;5;3]) (-1) 1);
  (*1035*) AddTo n_t3new (Plain (Einsum [(T 234,[0;1;2;3]); (T 235,[0;4;5;2;6;7])] [4;1;5;7;3;6]));
  (*1036*) Del (T 234);
  (*1036*) Del (T 235);
  (*1037*) Assign (T 236) (Plain (Zeros [0;0;1;1]));
  (*1038*) AddTo (T 236) (Times (Einsum [(n_v'oovv,[0;1;2;3])] [0;1;2;3]) (-1) 1);
  (*1039*) AddTo (T 236) (Plain (Einsum [(T 220,[0;1;2;3])] [1;0;3;2]));
  (*1040*) Del (T 220);
  (*1041*) AddTo (T 236) (Times (Einsum [(T 93,[0;1;2;3])] [1;0;3;2]) (-1) 1);
  (*1042*) AddTo (T 236) (Plain (Einsum [(T 98,[0;1;2;3])] [1;0;3;2]));
  (*1043*) Del (T 98);
  (*1044*) AddTo n_t3new (Plain (Einsum [(T 236,[0;1;2;3]); (n_t3,[4;0;5;6;2;7])] [4;1;5;6;3;7]));
  (*1045*) Del (T 236);
  (*1046*) Assign (T 237) (Plain (Zeros [1;1]));
  (*1047*) AddTo (T 237) (Times (Einsum [(n_f'vv,[0;1])] [0;1]) (-1) 1);
  (*1048*) AddTo (T 237) (Plain (Einsum [(T 114,[0;1])] [0;1]));
  (*1049*) Del (T 114);
  (*1050*) AddTo (T 237) (Plain (Einsum [(T 115,[0;1])] [1;0]));
  (*1051*) Del (T 115);
  (*1052*) AddTo (T 237) (Times (Einsum [(T 61,[0;1])] [1;0]) (-1) 1);
  (*1053*) Del (T 61);
  (*1054*) AddTo n_t3new (Times (Einsum [(T 237,[0;1]); (n_t3,[2;3;4;5;0;6])] [2;3;4;5;1;6]) (-1) 1);
  (*1055*) Del (T 237);
  (*1056*) Assign (T 238) (Plain (Zeros [0;0;0;1]));
  (*1057*) AddTo (T 238) (Plain (Einsum [(n_v'ooov,[0;1;2;3])] [0;2;1;3]));
  (*1058*) AddTo (T 238) (Plain (Einsum [(T 6,[0;1;2;3])] [0;1;2;3]));
  (*1059*) Assign (T 239) (Plain (Zeros [0;0;0;1]));
  (*1060*) AddTo (T 239) (Plain (Einsum [(T 238,[0;1;2;3]); (T 39,[1;4;5;3])] [4;0;2;5]));
  (*1061*) Assign (T 240) (Plain (Zeros [0;0;0;1]));
  (*1062*) AddTo (T 240) (Times (Einsum [(n_t2,[0;1;2;3]); (T 238,[4;5;1;3])] [0;4;5;2]) (1) 2);
  (*1063*) Assign (T 241) (Plain (Zeros [0;0;0;1]));
  (*1064*) AddTo (T 241) (Times (Einsum [(n_t2,[0;1;2;3]); (T 238,[4;5;1;2])] [0;4;5;3]) (1) 2);
  (*1065*) Del (T 238);
  (*1066*) Assign (T 242) (Plain (Zeros [0;0;0;1]));
  (*1067*) AddTo (T 242) (Plain (Einsum [(T 10,[0;1]); (n_t2,[2;3;1;4])] [2;3;0;4]));
  (*1068*) Del (T 10);
  (*1069*) Assign (T 243) (Plain (Zeros [0;0;1;1]));
  (*1070*) AddTo (T 243) (Plain (Einsum [(n_v'oovv,[0;1;2;3])] [0;1;2;3]));
  (*1071*) AddTo (T 243) (Plain (Einsum [(T 93,[0;1;2;3])] [0;1;3;2]));
  (*1072*) Del (T 93);
  (*1073*) Assign (T 244) (Plain (Zeros [0;0;0;1]));
  (*1074*) AddTo (T 244) (Times (Einsum [(n_t1,[0;1]); (T 243,[2;3;1;4])] [0;2;3;4]) (1) 2);
  (*1075*) Del (T 243);
  (*1076*) Assign (T 245) (Plain (Zeros [0;0;0;0]));
  (*1077*) AddTo (T 245) (Plain (Einsum [(n_v'oooo,[0;1;2;3])] [0;1;2;3]));
  (*1078*) AddTo (T 245) (Plain (Einsum [(T 25,[0;1;2;3])] [2;1;0;3]));
  (*1079*) AddTo (T 245) (Plain (Einsum [(T 20,[0;1;2;3])] [3;1;0;2]));
  (*1080*) Assign (T 246) (Plain (Zeros [0;0;0;1]));
  (*1081*) AddTo (T 246) (Times (Einsum [(n_t1,[0;1]); (T 245,[0;2;3;4])] [2;3;4;1]) (1) 2);
  (*1082*) Del (T 245);
  (*1083*) Assign (T 247) (Plain (Zeros [0;0;0;1]));
  (*1084*) AddTo (T 247) (Times (Einsum [(n_v'ooov,[0;1;2;3])] [2;0;1;3]) (-1) 2);
  (*1085*) AddTo (T 247) (Times (Einsum [(T 6,[0;1;2;3])] [1;2;0;3]) (-1) 2);
  (*1086*) AddTo (T 247) (Plain (Einsum [(T 239,[0;1;2;3])] [0;2;1;3]));
  (*1087*) Del (T 239);
  (*1088*) AddTo (T 247) (Plain (Einsum [(T 240,[0;1;2;3])] [0;2;1;3]));
  (*1089*) Del (T 240);
  (*1090*) AddTo (T 247) (Plain (Einsum [(T 241,[0;1;2;3])] [1;2;0;3]));
  (*1091*) Del (T 241);
  (*1092*) AddTo (T 247) (Times (Einsum [(T 242,[0;1;2;3])] [1;2;0;3]) (-1) 1);
  (*1093*) Del (T 242);
  (*1094*) AddTo (T 247) (Times (Einsum [(T 244,[0;1;2;3])] [0;2;1;3]) (-1) 1);
  (*1095*) Del (T 244);
  (*1096*) AddTo (T 247) (Plain (Einsum [(T 246,[0;1;2;3])] [0;2;1;3]));
  (*1097*) Del (T 246);
  (*1098*) Assign (T 248) (Plain (Zeros [0;0;1;1]));
  (*1099*) AddTo (T 248) (Times (Einsum [(n_t2,[0;1;2;3])] [0;1;3;2]) (-1) 1);
  (*1100*) AddTo (T 248) (Plain (Einsum [(n_t2,[0;1;2;3])] [0;1;2;3]));
  (*1101*) AddTo n_t3new (Times (Einsum [(T 247,[0;1;2;3]); (T 248,[1;4;5;6])] [4;0;2;5;3;6]) (-2) 1);
  (*1102*) Assign (T 249) (Plain (Zeros [0;0;1;1]));
  (*1103*) AddTo (T 249) (Plain (Einsum [(n_t2,[0;1;2;3])] [0;1;3;2]));
  (*1104*) AddTo (T 249) (Times (Einsum [(n_t2,[0;1;2;3])] [0;1;2;3]) (-1) 1);
  (*1105*) AddTo n_t3new (Times (Einsum [(T 247,[0;1;2;3]); (T 249,[1;4;5;6])] [2;0;4;5;3;6]) (-2) 1);
  (*1106*) Del (T 247);
  (*1107*) Assign (T 250) (Plain (Zeros [0;0;0;0]));
  (*1108*) AddTo (T 250) (Plain (Einsum [(n_v'oooo,[0;1;2;3])] [0;1;2;3]));
  (*1109*) AddTo (T 250) (Times (Einsum [(T 25,[0;1;2;3])] [3;2;1;0]) (-1) 1);
  (*1110*) Assign (T 251) (Plain (Zeros [0;0;0;1]));
  (*1111*) AddTo (T 251) (Plain (Einsum [(n_t1,[0;1]); (T 250,[0;2;3;4])] [2;3;4;1]));
  (*1112*) Del (T 250);
  (*1113*) Assign (T 252) (Plain (Zeros [0;0;0;1]));
  (*1114*) AddTo (T 252) (Plain (Einsum [(n_v'ooov,[0;1;2;3])] [0;1;2;3]));
  (*1115*) AddTo (T 252) (Times (Einsum [(T 251,[0;1;2;3])] [1;2;0;3]) (-1) 1);
  (*1116*) Del (T 251);
  (*1117*) Assign (T 253) (Plain (Zeros [0;0;0;1]));
  (*1118*) AddTo (T 253) (Plain (Einsum [(n_f'ov,[0;1]); (n_t2,[2;3;4;1])] [0;2;3;4]));
  (*1119*) Assign (T 254) (Plain (Zeros [0;0;0;1]));
  (*1120*) AddTo (T 254) (Plain (Einsum [(n_t1,[0;1]); (T 20,[2;3;4;0])] [2;3;4;1]));
  (*1121*) Del (T 20);
  (*1122*) Assign (T 255) (Plain (Zeros [0;0;1;1]));
  (*1123*) AddTo (T 255) (Plain (Einsum [(n_t1,[0;1]); (n_t1,[2;3])] [0;2;1;3]));
  (*1124*) AddTo (T 255) (Times (Einsum [(n_t2,[0;1;2;3])] [0;1;3;2]) (-1) 1);
  (*1125*) AddTo (T 255) (Plain (Einsum [(n_t2,[0;1;2;3])] [0;1;2;3]));
  (*1126*) Assign (T 256) (Plain (Zeros [0;0;0;1]));
  (*1127*) AddTo (T 256) (Plain (Einsum [(n_v'ooov,[0;1;2;3]); (T 255,[1;4;5;3])] [0;2;4;5]));
  (*1128*) Del (T 255);
  (*1129*) Assign (T 257) (Plain (Zeros [0;0;0;1]));
  (*1130*) AddTo (T 257) (Times (Einsum [(T 39,[0;1;2;3]); (T 6,[4;0;5;3])] [4;5;1;2]) (2) 1);
  (*1131*) Del (T 39);
  (*1132*) Assign (T 258) (Plain (Zeros [0;0;1;1]));
  (*1133*) AddTo (T 258) (Plain (Einsum [(n_t2,[0;1;2;3])] [0;1;3;2]));
  (*1134*) AddTo (T 258) (Times (Einsum [(n_t2,[0;1;2;3])] [0;1;2;3]) (-1) 2);
  (*1135*) Assign (T 259) (Plain (Zeros [0;0;0;1]));
  (*1136*) AddTo (T 259) (Times (Einsum [(n_v'ooov,[0;1;2;3]); (T 258,[2;4;5;3])] [0;1;4;5]) (2) 1);
  (*1137*) Del (T 258);
  (*1138*) Assign (T 260) (Plain (Zeros [0;0;0;1]));
  (*1139*) AddTo (T 260) (Plain (Einsum [(T 248,[0;1;2;3]); (T 6,[4;5;0;3])] [4;5;1;2]));
  (*1140*) Del (T 248);
  (*1141*) Assign (T 261) (Plain (Zeros [0;0;1;1]));
  (*1142*) AddTo (T 261) (Plain (Einsum [(n_v'ovov,[0;1;2;3])] [0;2;3;1]));
  (*1143*) AddTo (T 261) (Times (Einsum [(n_v'oovv,[0;1;2;3])] [0;1;2;3]) (-1) 1);
  (*1144*) AddTo (T 261) (Plain (Einsum [(T 24,[0;1;2;3])] [0;1;2;3]));
  (*1145*) Assign (T 262) (Plain (Zeros [0;0;0;1]));
  (*1146*) AddTo (T 262) (Plain (Einsum [(n_t1,[0;1]); (T 261,[2;3;1;4])] [0;2;3;4]));
  (*1147*) Del (T 261);
  (*1148*) Assign (T 263) (Plain (Zeros [0;0;0;1]));
  (*1149*) AddTo (T 263) (Times (Einsum [(T 9,[0;1]); (n_t2,[2;3;1;4])] [2;3;0;4]) (2) 1);
  (*1150*) Del (T 9);
  (*1151*) Assign (T 264) (Plain (Zeros [0;0;0;1]));
  (*1152*) AddTo (T 264) (Plain (Einsum [(T 254,[0;1;2;3])] [0;2;1;3]));
  (*1153*) AddTo (T 264) (Plain (Einsum [(T 256,[0;1;2;3])] [2;1;0;3]));
  (*1154*) AddTo (T 264) (Plain (Einsum [(T 257,[0;1;2;3])] [0;1;2;3]));
  (*1155*) AddTo (T 264) (Plain (Einsum [(T 259,[0;1;2;3])] [2;1;0;3]));
  (*1156*) AddTo (T 264) (Times (Einsum [(T 260,[0;1;2;3])] [0;1;2;3]) (-1) 1);
  (*1157*) Del (T 260);
  (*1158*) AddTo (T 264) (Times (Einsum [(T 262,[0;1;2;3])] [0;2;1;3]) (-1) 1);
  (*1159*) Del (T 262);
  (*1160*) AddTo (T 264) (Plain (Einsum [(T 263,[0;1;2;3])] [1;2;0;3]));
  (*1161*) Assign (T 265) (Plain (Zeros [0;0;0;1]));
  (*1162*) AddTo (T 265) (Times (Einsum [(T 252,[0;1;2;3])] [0;1;2;3]) (-1) 1);
  (*1163*) AddTo (T 265) (Plain (Einsum [(T 252,[0;1;2;3])] [0;2;1;3]));
  (*1164*) Del (T 252);
  (*1165*) AddTo (T 265) (Plain (Einsum [(T 253,[0;1;2;3])] [0;1;2;3]));
  (*1166*) AddTo (T 265) (Times (Einsum [(T 253,[0;1;2;3])] [0;2;1;3]) (-1) 1);
  (*1167*) AddTo (T 265) (Plain (Einsum [(T 264,[0;1;2;3])] [1;0;2;3]));
  (*1168*) AddTo (T 265) (Times (Einsum [(T 264,[0;1;2;3])] [1;2;0;3]) (-1) 1);
  (*1169*) Del (T 264);
  (*1170*) AddTo n_t3new (Times (Einsum [(n_t2,[0;1;2;3]); (T 265,[1;4;5;6])] [4;0;5;6;2;3]) (-1) 1);
  (*1171*) Del (T 265);
  (*1172*) Assign (T 266) (Plain (Zeros [0;0;0;1]));
  (*1173*) AddTo (T 266) (Plain (Einsum [(n_t1,[0;1]); (n_v'oooo,[2;3;4;0])] [2;3;4;1]));
  (*1174*) Assign (T 267) (Plain (Zeros [0;0;0;1]));
  (*1175*) AddTo (T 267) (Times (Einsum [(n_v'ooov,[0;1;2;3])] [0;1;2;3]) (-1) 1);
  (*1176*) AddTo (T 267) (Plain (Einsum [(T 266,[0;1;2;3])] [1;0;2;3]));
  (*1177*) Del (T 266);
  (*1178*) AddTo (T 267) (Plain (Einsum [(T 253,[0;1;2;3])] [1;0;2;3]));
  (*1179*) Del (T 253);
  (*1180*) Assign (T 268) (Plain (Zeros [0;0;0;1]));
  (*1181*) AddTo (T 268) (Plain (Einsum [(T 35,[0;1;2;3])] [0;2;1;3]));
  (*1182*) Del (T 35);
  (*1183*) AddTo (T 268) (Plain (Einsum [(T 259,[0;1;2;3])] [2;1;0;3]));
  (*1184*) Del (T 259);
  (*1185*) Assign (T 269) (Plain (Zeros [0;0;0;1]));
  (*1186*) AddTo (T 269) (Plain (Einsum [(T 249,[0;1;2;3]); (T 6,[4;5;0;2])] [4;5;1;3]));
  (*1187*) Del (T 6);
  (*1187*) Del (T 249);
  (*1188*) Assign (T 270) (Plain (Zeros [0;0;1;1]));
  (*1189*) AddTo (T 270) (Plain (Einsum [(n_v'ovov,[0;1;2;3])] [0;2;1;3]));
  (*1190*) AddTo (T 270) (Plain (Einsum [(T 24,[0;1;2;3])] [1;0;2;3]));
  (*1191*) Del (T 24);
  (*1192*) Assign (T 271) (Plain (Zeros [0;0;0;1]));
  (*1193*) AddTo (T 271) (Plain (Einsum [(n_t1,[0;1]); (T 270,[2;3;1;4])] [0;2;3;4]));
  (*1194*) Del (T 270);
  (*1195*) Assign (T 272) (Plain (Zeros [0;0;0;1]));
  (*1196*) AddTo (T 272) (Plain (Einsum [(T 254,[0;1;2;3])] [0;1;2;3]));
  (*1197*) Del (T 254);
  (*1198*) AddTo (T 272) (Plain (Einsum [(T 256,[0;1;2;3])] [2;0;1;3]));
  (*1199*) Del (T 256);
  (*1200*) AddTo (T 272) (Plain (Einsum [(T 257,[0;1;2;3])] [0;2;1;3]));
  (*1201*) Del (T 257);
  (*1202*) AddTo (T 272) (Times (Einsum [(T 269,[0;1;2;3])] [0;2;1;3]) (-1) 1);
  (*1203*) Del (T 269);
  (*1204*) AddTo (T 272) (Plain (Einsum [(T 263,[0;1;2;3])] [1;0;2;3]));
  (*1205*) Del (T 263);
  (*1206*) AddTo (T 272) (Times (Einsum [(T 271,[0;1;2;3])] [0;2;1;3]) (-1) 1);
  (*1207*) Del (T 271);
  (*1208*) Assign (T 273) (Plain (Zeros [0;0;0;1]));
  (*1209*) AddTo (T 273) (Plain (Einsum [(n_t1,[0;1]); (T 25,[2;3;4;0])] [2;4;3;1]));
  (*1210*) Del (T 25);
  (*1211*) Assign (T 274) (Plain (Zeros [0;0;0;1]));
  (*1212*) AddTo (T 274) (Plain (Einsum [(T 267,[0;1;2;3])] [0;2;1;3]));
  (*1213*) AddTo (T 274) (Times (Einsum [(T 267,[0;1;2;3])] [2;0;1;3]) (-1) 1);
  (*1214*) Del (T 267);
  (*1215*) AddTo (T 274) (Plain (Einsum [(T 268,[0;1;2;3])] [0;1;2;3]));
  (*1216*) AddTo (T 274) (Times (Einsum [(T 268,[0;1;2;3])] [1;0;2;3]) (-1) 1);
  (*1217*) Del (T 268);
  (*1218*) AddTo (T 274) (Plain (Einsum [(T 272,[0;1;2;3])] [0;1;2;3]));
  (*1219*) AddTo (T 274) (Times (Einsum [(T 272,[0;1;2;3])] [1;0;2;3]) (-1) 1);
  (*1220*) Del (T 272);
  (*1221*) AddTo (T 274) (Times (Einsum [(T 273,[0;1;2;3])] [0;2;1;3]) (-1) 1);
  (*1222*) AddTo (T 274) (Plain (Einsum [(T 273,[0;1;2;3])] [1;0;2;3]));
  (*1223*) Del (T 273);
  (*1224*) AddTo n_t3new (Times (Einsum [(n_t2,[0;1;2;3]); (T 274,[4;5;1;6])] [5;0;4;3;2;6]) (-1) 1);
  (*1225*) Del (T 274)]
 [(n_t1new,[0;1]); (n_t2new,[0;0;1;1]); (n_t3new,[0;0;0;1;1;1])].

(** ebcc/codegen/RCCSDT.py:1229-3810 [update_lams] *)
Definition RCCSDT_update_lams : prog := mkprog
 [(n_f'ov,[0;1]); (n_l2,[1;1;0;0]); (n_v'vvvv,[1;1;1;1]); (n_v'ovov,[0;1;0;1]); (n_v'oooo,[0;0;0;0]); (n_l1,[1;0]); (n_v'ooov,[0;0;0;1]); (n_t3,[0;0;0;1;1;1]); (n_t1,[0;1]); (n_t2,[0;0;1;1]); (n_v'ovvv,[0;1;1;1]); (n_l3,[1;1;1;0;0;0]); (n_v'oovv,[0;0;1;1]); (n_f'vv,[1;1]); (n_f'oo,[0;0])]
 [(*1231*) Assign n_l1new (Plain (Zeros [1;0]));
  (*1232*) AddTo n_l1new (Plain (Einsum [(n_f'ov,[0;1])] [1;0]));
  (*1233*) Assign n_l2new (Plain (Zeros [1;1;0;0]));
  (*1234*) AddTo n_l2new (Plain (Einsum [(n_l2,[0;1;2;3]); (n_v'vvvv,[4;1;5;0])] [4;5;3;2]));
  (*1235*) AddTo n_l2new (Plain (Einsum [(n_v'ovov,[0;1;2;3])] [1;3;0;2]));
  (*1236*) AddTo n_l2new (Plain (Einsum [(n_l2,[0;1;2;3]); (n_v'oooo,[4;2;5;3])] [0;1;4;5]));
  (*1237*) Assign n_l3new (Plain (Zeros [1;1;1;0;0;0]));
  (*1238*) AddTo n_l3new (Plain (Einsum [(n_l1,[0;1]); (n_v'ovov,[2;3;4;5])] [0;3;5;1;2;4]));
  (*1239*) AddTo n_l3new (Times (Einsum [(n_l1,[0;1]); (n_v'ovov,[2;3;4;5])] [5;3;0;1;2;4]) (-1) 1);
  (*1240*) AddTo n_l3new (Times (Einsum [(n_l1,[0;1]); (n_v'ovov,[2;3;4;5])] [5;0;3;2;1;4]) (-1) 1);
  (*1241*) AddTo n_l3new (Plain (Einsum [(n_l1,[0;1]); (n_v'ovov,[2;3;4;5])] [3;0;5;2;1;4]));
  (*1242*) AddTo n_l3new (Times (Einsum [(n_l1,[0;1]); (n_v'ovov,[2;3;4;5])] [0;5;3;2;4;1]) (-1) 1);
  (*1243*) AddTo n_l3new (Plain (Einsum [(n_l1,[0;1]); (n_v'ovov,[2;3;4;5])] [3;5;0;2;4;1]));
  (*1244*) Assign (T 1) (Plain (Zeros [0;0;0;0;1;1]));
  (*1245*) AddTo (T 1) (Plain (Einsum [(n_v'ooov,[0;1;2;3]); (n_t3,[4;5;2;6;7;3])] [4;5;0;1;6;7]));
  (*1246*) Assign (T 2) (Plain (Zeros [0;0;0;1]));
  (*1247*) AddTo (T 2) (Plain (Einsum [(n_v'ooov,[0;1;2;3])] [0;1;2;3]));
  (*1248*) AddTo (T 2) (Times (Einsum [(n_v'ooov,[0;1;2;3])] [2;0;1;3]) (-1) 1);
  (*1249*) Assign (T 3) (Plain (Zeros [0;0;0;0;1;1]));
  (*1250*) AddTo (T 3) (Times (Einsum [(T 2,[0;1;2;3]); (n_t3,[4;5;0;6;3;7])] [4;5;1;2;7;6]) (1) 4);
  (*1251*) Assign (T 4) (Plain (Zeros [0;0;0;0;1;1]));
  (*1252*) AddTo (T 4) (Plain (Einsum [(n_v'ooov,[0;1;2;3]); (n_t3,[4;5;1;6;7;3])] [4;5;0;2;6;7]));
  (*1253*) Assign (T 5) (Plain (Zeros [0;0;0;0;1;1]));
  (*1254*) AddTo (T 5) (Plain (Einsum [(n_v'ooov,[0;1;2;3]); (n_t3,[4;2;5;6;3;7])] [4;5;0;1;6;7]));
  (*1255*) Assign (T 6) (Plain (Zeros [0;0;0;0]));
  (*1256*) AddTo (T 6) (Plain (Einsum [(n_t1,[0;1]); (n_v'ooov,[2;3;4;1])] [0;2;3;4]));
  (*1257*) Assign (T 7) (Plain (Zeros [0;0;0;0;1;1]));
  (*1258*) AddTo (T 7) (Plain (Einsum [(n_t2,[0;1;2;3]); (T 6,[4;5;1;6])] [4;0;5;6;2;3]));
  (*1259*) Assign (T 8) (Plain (Zeros [0;0;0;0;1;1]));
  (*1260*) AddTo (T 8) (Plain (Einsum [(n_t2,[0;1;2;3]); (T 6,[4;5;6;1])] [4;0;5;6;2;3]));
  (*1261*) Assign (T 9) (Plain (Zeros [0;0;0;1]));
  (*1262*) AddTo (T 9) (Plain (Einsum [(n_t1,[0;1]); (n_v'ovov,[2;3;4;1])] [0;2;4;3]));
  (*1263*) Assign (T 10) (Plain (Zeros [0;0;0;0;1;1]));
  (*1264*) AddTo (T 10) (Plain (Einsum [(T 9,[0;1;2;3]); (n_t3,[4;5;1;6;7;3])] [0;4;5;2;6;7]));
  (*1265*) Assign (T 11) (Plain (Zeros [0;0;0;1]));
  (*1266*) AddTo (T 11) (Times (Einsum [(T 9,[0;1;2;3])] [0;1;2;3]) (-1) 1);
  (*1267*) AddTo (T 11) (Plain (Einsum [(T 9,[0;1;2;3])] [0;2;1;3]));
  (*1268*) Assign (T 12) (Plain (Zeros [0;0;0;0;1;1]));
  (*1269*) AddTo (T 12) (Times (Einsum [(T 11,[0;1;2;3]); (n_t3,[4;5;1;6;3;7])] [4;5;0;2;7;6]) (1) 4);
  (*1270*) Assign (T 13) (Plain (Zeros [0;0;0;0;1;1]));
  (*1271*) AddTo (T 13) (Plain (Einsum [(T 9,[0;1;2;3]); (n_t3,[4;5;2;6;7;3])] [0;4;5;1;6;7]));
  (*1272*) Assign (T 14) (Plain (Zeros [0;0;0;0;1;1]));
  (*1273*) AddTo (T 14) (Plain (Einsum [(T 9,[0;1;2;3]); (n_t3,[4;1;5;6;3;7])] [0;4;5;2;6;7]));
  (*1274*) Assign (T 15) (Plain (Zeros [0;0;1;1]));
  (*1275*) AddTo (T 15) (Times (Einsum [(n_v'ovov,[0;1;2;3])] [0;2;3;1]) (-1) 2);
  (*1276*) AddTo (T 15) (Plain (Einsum [(n_v'ovov,[0;1;2;3])] [0;2;1;3]));
  (*1277*) Assign (T 16) (Plain (Zeros [0;0;1;1]));
  (*1278*) AddTo (T 16) (Plain (Einsum [(n_t2,[0;1;2;3]); (T 15,[1;4;3;5])] [0;4;2;5]));
  (*1279*) Assign (T 17) (Plain (Zeros [0;0;1;1]));
  (*1280*) AddTo (T 17) (Plain (Einsum [(n_v'ovov,[0;1;2;3])] [0;2;3;1]));
  (*1281*) AddTo (T 17) (Times (Einsum [(n_v'ovov,[0;1;2;3])] [0;2;1;3]) (-1) 1);
  (*1282*) Assign (T 18) (Plain (Zeros [0;0;1;1]));
  (*1283*) AddTo (T 18) (Times (Einsum [(n_t2,[0;1;2;3]); (T 17,[1;4;2;5])] [0;4;3;5]) (1) 2);
  (*1284*) Assign (T 19) (Plain (Zeros [0;0;1;1]));
  (*1285*) AddTo (T 19) (Plain (Einsum [(T 16,[0;1;2;3])] [0;1;2;3]));
  (*1286*) AddTo (T 19) (Plain (Einsum [(T 18,[0;1;2;3])] [0;1;2;3]));
  (*1287*) Assign (T 20) (Plain (Zeros [0;0;0;0;1;1]));
  (*1288*) AddTo (T 20) (Times (Einsum [(n_t2,[0;1;2;3]); (T 19,[4;5;6;2])] [0;1;4;5;3;6]) (2) 1);
  (*1289*) Assign (T 21) (Plain (Zeros [0;0;0;0]));
  (*1290*) AddTo (T 21) (Plain (Einsum [(n_t1,[0;1]); (T 9,[2;3;4;1])] [0;2;3;4]));
  (*1291*) Assign (T 22) (Plain (Zeros [0;0;0;0;1;1]));
  (*1292*) AddTo (T 22) (Plain (Einsum [(n_t2,[0;1;2;3]); (T 21,[4;5;1;6])] [5;4;0;6;2;3]));
  (*1293*) Assign (T 23) (Plain (Zeros [0;1;1;1]));
  (*1294*) AddTo (T 23) (Times (Einsum [(n_v'ovvv,[0;1;2;3])] [0;1;2;3]) (-1) 1);
  (*1295*) AddTo (T 23) (Plain (Einsum [(n_v'ovvv,[0;1;2;3])] [0;2;1;3]));
  (*1296*) Assign (T 24) (Plain (Zeros [0;0;1;1]));
  (*1297*) AddTo (T 24) (Times (Einsum [(n_t1,[0;1]); (T 23,[2;3;1;4])] [0;2;3;4]) (-1) 1);
  (*1298*) Assign (T 25) (Plain (Zeros [0;0;0;0;0;1]));
  (*1299*) AddTo (T 25) (Plain (Einsum [(n_t2,[0;1;2;3]); (T 9,[4;5;6;3])] [4;0;1;6;5;2]));
  (*1300*) Assign (T 26) (Plain (Zeros [0;0;0;0;0;1]));
  (*1301*) AddTo (T 26) (Times (Einsum [(T 25,[0;1;2;3;4;5])] [0;1;2;3;4;5]) (-1) 1);
  (*1302*) AddTo (T 26) (Plain (Einsum [(T 25,[0;1;2;3;4;5])] [0;1;2;4;3;5]));
  (*1303*) Assign (T 27) (Plain (Zeros [0;0;0;0;1;1]));
  (*1304*) AddTo (T 27) (Times (Einsum [(T 1,[0;1;2;3;4;5])] [2;0;1;3;4;5]) (5) 4);
  (*1305*) AddTo (T 27) (Times (Einsum [(T 1,[0;1;2;3;4;5])] [2;0;1;3;5;4]) (-1) 4);
  (*1306*) AddTo (T 27) (Times (Einsum [(T 1,[0;1;2;3;4;5])] [2;1;0;3;4;5]) (-1) 4);
  (*1307*) AddTo (T 27) (Times (Einsum [(T 1,[0;1;2;3;4;5])] [2;1;0;3;5;4]) (5) 4);
  (*1308*) Del (T 1);
  (*1309*) AddTo (T 27) (Plain (Einsum [(T 3,[0;1;2;3;4;5])] [2;0;1;3;5;4]));
  (*1310*) AddTo (T 27) (Times (Einsum [(T 3,[0;1;2;3;4;5])] [2;1;0;3;5;4]) (-1) 1);
  (*1311*) Del (T 3);
  (*1312*) AddTo (T 27) (Times (Einsum [(T 4,[0;1;2;3;4;5])] [2;0;1;3;4;5]) (-1) 4);
  (*1313*) AddTo (T 27) (Times (Einsum [(T 4,[0;1;2;3;4;5])] [2;0;1;3;5;4]) (1) 4);
  (*1314*) AddTo (T 27) (Times (Einsum [(T 4,[0;1;2;3;4;5])] [2;1;0;3;4;5]) (1) 4);
  (*1315*) AddTo (T 27) (Times (Einsum [(T 4,[0;1;2;3;4;5])] [2;1;0;3;5;4]) (-5) 4);
  (*1316*) Del (T 4);
  (*1317*) AddTo (T 27) (Times (Einsum [(T 5,[0;1;2;3;4;5])] [2;1;0;3;4;5]) (-1) 4);
  (*1318*) AddTo (T 27) (Times (Einsum [(T 5,[0;1;2;3;4;5])] [2;1;0;3;5;4]) (1) 4);
  (*1319*) Del (T 5);
  (*1320*) AddTo (T 27) (Times (Einsum [(T 7,[0;1;2;3;4;5])] [0;2;1;3;4;5]) (1) 2);
  (*1321*) AddTo (T 27) (Times (Einsum [(T 7,[0;1;2;3;4;5])] [0;2;1;3;5;4]) (-3) 2);
  (*1322*) AddTo (T 27) (Times (Einsum [(T 8,[0;1;2;3;4;5])] [0;3;1;2;4;5]) (-1) 2);
  (*1323*) AddTo (T 27) (Times (Einsum [(T 8,[0;1;2;3;4;5])] [0;3;1;2;5;4]) (1) 2);
  (*1324*) AddTo (T 27) (Times (Einsum [(T 10,[0;1;2;3;4;5])] [0;1;2;3;4;5]) (5) 4);
  (*1325*) AddTo (T 27) (Times (Einsum [(T 10,[0;1;2;3;4;5])] [0;1;2;3;5;4]) (-1) 4);
  (*1326*) AddTo (T 27) (Times (Einsum [(T 10,[0;1;2;3;4;5])] [0;2;1;3;4;5]) (-1) 4);
  (*1327*) AddTo (T 27) (Times (Einsum [(T 10,[0;1;2;3;4;5])] [0;2;1;3;5;4]) (5) 4);
  (*1328*) Del (T 10);
  (*1329*) AddTo (T 27) (Plain (Einsum [(T 12,[0;1;2;3;4;5])] [2;0;1;3;5;4]));
  (*1330*) AddTo (T 27) (Times (Einsum [(T 12,[0;1;2;3;4;5])] [2;1;0;3;5;4]) (-1) 1);
  (*1331*) Del (T 12);
  (*1332*) AddTo (T 27) (Times (Einsum [(T 13,[0;1;2;3;4;5])] [0;1;2;3;4;5]) (-1) 4);
  (*1333*) AddTo (T 27) (Times (Einsum [(T 13,[0;1;2;3;4;5])] [0;1;2;3;5;4]) (1) 4);
  (*1334*) AddTo (T 27) (Times (Einsum [(T 13,[0;1;2;3;4;5])] [0;2;1;3;4;5]) (1) 4);
  (*1335*) AddTo (T 27) (Times (Einsum [(T 13,[0;1;2;3;4;5])] [0;2;1;3;5;4]) (-5) 4);
  (*1336*) Del (T 13);
  (*1337*) AddTo (T 27) (Times (Einsum [(T 14,[0;1;2;3;4;5])] [0;2;1;3;4;5]) (-1) 4);
  (*1338*) AddTo (T 27) (Times (Einsum [(T 14,[0;1;2;3;4;5])] [0;2;1;3;5;4]) (1) 4);
  (*1339*) Del (T 14);
  (*1340*) AddTo (T 27) (Times (Einsum [(T 20,[0;1;2;3;4;5])] [2;1;0;3;4;5]) (-1) 1);
  (*1341*) AddTo (T 27) (Times (Einsum [(T 20,[0;1;2;3;4;5])] [2;0;1;3;4;5]) (1) 2);
  (*1342*) Del (T 20);
  (*1343*) AddTo (T 27) (Times (Einsum [(T 22,[0;1;2;3;4;5])] [0;1;2;3;4;5]) (1) 2);
  (*1344*) AddTo (T 27) (Times (Einsum [(T 22,[0;1;2;3;4;5])] [0;1;2;3;5;4]) (-3) 2);
  (*1345*) AddTo (T 27) (Times (Einsum [(T 22,[0;1;2;3;4;5])] [1;0;2;3;4;5]) (-1) 2);
  (*1346*) AddTo (T 27) (Times (Einsum [(T 22,[0;1;2;3;4;5])] [1;0;2;3;5;4]) (1) 2);
  (*1347*) AddTo (T 27) (Times (Einsum [(n_t2,[0;1;2;3]); (T 24,[4;5;3;6])] [4;0;1;5;2;6]) (-1) 1);
  (*1348*) Del (T 24);
  (*1349*) AddTo (T 27) (Times (Einsum [(n_t1,[0;1]); (T 26,[2;3;4;0;5;6])] [2;3;4;5;6;1]) (-1) 1);
  (*1350*) Del (T 26);
  (*1351*) AddTo n_l1new (Times (Einsum [(n_l3,[0;1;2;3;4;5]); (T 27,[3;4;5;6;1;2])] [0;6]) (-1) 1);
  (*1352*) Del (T 27);
  (*1353*) Assign (T 28) (Plain (Zeros [0;0;0;0;1;1]));
  (*1354*) AddTo (T 28) (Plain (Einsum [(n_f'ov,[0;1]); (n_t3,[2;3;4;5;6;1])] [0;2;4;3;5;6]));
  (*1355*) Assign (T 29) (Plain (Zeros [0;0;0;0;1;1]));
  (*1356*) AddTo (T 29) (Plain (Einsum [(n_f'ov,[0;1]); (n_t3,[2;3;4;5;1;6])] [0;2;4;3;5;6]));
  (*1357*) Assign (T 30) (Plain (Zeros [0;0;0;0;1;1]));
  (*1358*) AddTo (T 30) (Times (Einsum [(T 2,[0;1;2;3]); (n_t3,[4;5;0;6;7;3])] [4;5;1;2;6;7]) (25000000000001) 25000000000000);
  (*1359*) Assign (T 31) (Plain (Zeros [0;0;0;0;1;1]));
  (*1360*) AddTo (T 31) (Plain (Einsum [(n_v'ovvv,[0;1;2;3]); (n_t3,[4;5;6;1;7;3])] [4;6;5;0;7;2]));
  (*1361*) Assign (T 32) (Plain (Zeros [0;0;0;0;1;1]));
  (*1362*) AddTo (T 32) (Times (Einsum [(n_t2,[0;1;2;3]); (T 19,[4;5;6;2])] [0;1;4;5;3;6]) (25000000000001) 12500000000000);
  (*1363*) Del (T 19);
  (*1364*) Assign (T 33) (Plain (Zeros [0;0;0;0;1;1]));
  (*1365*) AddTo (T 33) (Plain (Einsum [(T 31,[0;1;2;3;4;5])] [0;1;2;3;4;5]));
  (*1366*) AddTo (T 33) (Plain (Einsum [(T 32,[0;1;2;3;4;5])] [1;0;2;3;4;5]));
  (*1367*) Del (T 32);
  (*1368*) Assign (T 34) (Plain (Zeros [0;0;0;0;1;1]));
  (*1369*) AddTo (T 34) (Times (Einsum [(T 11,[0;1;2;3]); (n_t3,[4;5;1;6;7;3])] [4;5;0;2;6;7]) (25000000000001) 25000000000000);
  (*1370*) Assign (T 35) (Plain (Zeros [0;0;0;0;0;1]));
  (*1371*) AddTo (T 35) (Plain (Einsum [(n_v'ovov,[0;1;2;3]); (n_t3,[4;5;6;1;7;3])] [4;6;5;0;2;7]));
  (*1372*) Assign (T 36) (Plain (Zeros [0;0;0;0;1;1]));
  (*1373*) AddTo (T 36) (Plain (Einsum [(n_t1,[0;1]); (T 35,[2;3;4;0;5;6])] [3;2;4;5;1;6]));
  (*1374*) Del (T 35);
  (*1375*) Assign (T 37) (Plain (Zeros [0;1]));
  (*1376*) AddTo (T 37) (Plain (Einsum [(n_t1,[0;1]); (T 15,[0;2;1;3])] [2;3]));
  (*1377*) Assign (T 38) (Plain (Zeros [0;0;0;0;1;1]));
  (*1378*) AddTo (T 38) (Times (Einsum [(T 37,[0;1]); (n_t3,[2;3;4;5;1;6])] [2;4;3;0;5;6]) (3333333333333333) 5000000000000000);
  (*1379*) Assign (T 39) (Plain (Zeros [0;0;0;0;1;1]));
  (*1380*) AddTo (T 39) (Times (Einsum [(T 37,[0;1]); (n_t3,[2;3;4;1;5;6])] [2;4;3;0;6;5]) (3333333333333333) 5000000000000000);
  (*1381*) Assign (T 40) (Plain (Zeros [0;0;0;1]));
  (*1382*) AddTo (T 40) (Plain (Einsum [(n_v'ooov,[0;1;2;3])] [0;1;2;3]));
  (*1383*) AddTo (T 40) (Times (Einsum [(n_v'ooov,[0;1;2;3])] [2;0;1;3]) (-1) 1);
  (*1384*) AddTo (T 40) (Times (Einsum [(T 9,[0;1;2;3])] [1;0;2;3]) (-1) 1);
  (*1385*) AddTo (T 40) (Plain (Einsum [(T 9,[0;1;2;3])] [2;0;1;3]));
  (*1386*) Assign (T 41) (Plain (Zeros [0;0;0;1]));
  (*1387*) AddTo (T 41) (Plain (Einsum [(n_v'ooov,[0;1;2;3])] [0;1;2;3]));
  (*1388*) AddTo (T 41) (Plain (Einsum [(T 9,[0;1;2;3])] [0;2;1;3]));
  (*1389*) Assign (T 42) (Plain (Zeros [0;0;0;1]));
  (*1390*) AddTo (T 42) (Plain (Einsum [(n_v'ooov,[0;1;2;3])] [0;1;2;3]));
  (*1391*) AddTo (T 42) (Plain (Einsum [(T 9,[0;1;2;3])] [2;0;1;3]));
  (*1392*) Assign (T 43) (Plain (Zeros [0;0;0;0;1;1]));
  (*1393*) AddTo (T 43) (Times (Einsum [(T 28,[0;1;2;3;4;5])] [2;1;0;3;4;5]) (-3333333333333333) 10000000000000000);
  (*1394*) AddTo (T 43) (Times (Einsum [(T 28,[0;1;2;3;4;5])] [2;1;0;3;5;4]) (2333333333333333) 1000000000000000);
  (*1395*) AddTo (T 43) (Times (Einsum [(T 28,[0;1;2;3;4;5])] [2;3;0;1;4;5]) (3333333333333333) 10000000000000000);
  (*1396*) AddTo (T 43) (Times (Einsum [(T 28,[0;1;2;3;4;5])] [2;3;0;1;5;4]) (-3333333333333333) 10000000000000000);
  (*1397*) AddTo (T 43) (Times (Einsum [(T 29,[0;1;2;3;4;5])] [1;2;0;3;5;4]) (3333333333333333) 10000000000000000);
  (*1398*) AddTo (T 43) (Times (Einsum [(T 29,[0;1;2;3;4;5])] [1;3;0;2;5;4]) (-3333333333333333) 10000000000000000);
  (*1399*) Del (T 29);
  (*1400*) AddTo (T 43) (Plain (Einsum [(T 30,[0;1;2;3;4;5])] [0;1;3;2;4;5]));
  (*1401*) AddTo (T 43) (Times (Einsum [(T 30,[0;1;2;3;4;5])] [0;1;3;2;5;4]) (-1) 1);
  (*1402*) Del (T 30);
  (*1403*) AddTo (T 43) (Plain (Einsum [(T 33,[0;1;2;3;4;5])] [0;1;3;2;4;5]));
  (*1404*) AddTo (T 43) (Times (Einsum [(T 33,[0;1;2;3;4;5])] [1;0;3;2;4;5]) (-1) 1);
  (*1405*) Del (T 33);
  (*1406*) AddTo (T 43) (Plain (Einsum [(T 34,[0;1;2;3;4;5])] [0;1;3;2;4;5]));
  (*1407*) AddTo (T 43) (Times (Einsum [(T 34,[0;1;2;3;4;5])] [0;1;3;2;5;4]) (-1) 1);
  (*1408*) Del (T 34);
  (*1409*) AddTo (T 43) (Times (Einsum [(T 36,[0;1;2;3;4;5])] [0;1;3;2;5;4]) (-1) 1);
  (*1410*) AddTo (T 43) (Plain (Einsum [(T 36,[0;1;2;3;4;5])] [1;0;3;2;5;4]));
  (*1411*) AddTo (T 43) (Plain (Einsum [(T 38,[0;1;2;3;4;5])] [1;0;3;2;4;5]));
  (*1412*) AddTo (T 43) (Times (Einsum [(T 38,[0;1;2;3;4;5])] [1;2;3;0;4;5]) (-1) 1);
  (*1413*) Del (T 38);
  (*1414*) AddTo (T 43) (Times (Einsum [(T 39,[0;1;2;3;4;5])] [0;1;3;2;4;5]) (-1) 1);
  (*1415*) AddTo (T 43) (Times (Einsum [(T 39,[0;1;2;3;4;5])] [0;1;3;2;5;4]) (6999999999999999) 1000000000000000);
  (*1416*) AddTo (T 43) (Plain (Einsum [(T 39,[0;1;2;3;4;5])] [0;2;3;1;4;5]));
  (*1417*) AddTo (T 43) (Times (Einsum [(T 39,[0;1;2;3;4;5])] [0;2;3;1;5;4]) (-1) 1);
  (*1418*) Del (T 39);
  (*1419*) AddTo (T 43) (Times (Einsum [(T 40,[0;1;2;3]); (n_t3,[4;5;0;6;3;7])] [4;5;2;1;6;7]) (-25000000000001) 25000000000000);
  (*1420*) Del (T 40);
  (*1421*) AddTo (T 43) (Times (Einsum [(T 41,[0;1;2;3]); (n_t3,[4;2;5;6;3;7])] [4;5;1;0;7;6]) (25000000000001) 25000000000000);
  (*1422*) AddTo (T 43) (Times (Einsum [(T 42,[0;1;2;3]); (n_t3,[4;0;5;3;6;7])] [4;5;2;1;6;7]) (-25000000000001) 12500000000000);
  (*1423*) AddTo n_l1new (Times (Einsum [(n_l3,[0;1;2;3;4;5]); (T 43,[3;5;6;4;1;2])] [0;6]) (-24999999999999) 100000000000000);
  (*1424*) Del (T 43);
  (*1425*) Assign (T 44) (Plain (Zeros [0;0;1;1]));
  (*1426*) AddTo (T 44) (Times (Einsum [(n_v'ovov,[0;1;2;3])] [0;2;3;1]) (-1) 1);
  (*1427*) AddTo (T 44) (Times (Einsum [(n_v'ovov,[0;1;2;3])] [0;2;1;3]) (2) 1);
  (*1428*) Assign (T 45) (Plain (Zeros [0;0;1;1]));
  (*1429*) AddTo (T 45) (Times (Einsum [(n_t2,[0;1;2;3]); (T 44,[1;4;3;5])] [0;4;2;5]) (7500000000000001) 5000000000000000);
  (*1430*) Assign (T 46) (Plain (Zeros [0;0;1;1]));
  (*1431*) AddTo (T 46) (Times (Einsum [(n_v'ovov,[0;1;2;3])] [0;2;3;1]) (-1) 1);
  (*1432*) AddTo (T 46) (Times (Einsum [(n_v'ovov,[0;1;2;3])] [0;2;1;3]) (7500000000000001) 2500000000000000);
  (*1433*) Assign (T 47) (Plain (Zeros [0;0;1;1]));
  (*1434*) AddTo (T 47) (Times (Einsum [(n_t2,[0;1;2;3]); (T 46,[1;4;2;5])] [0;4;3;5]) (1) 2);
  (*1435*) Del (T 46);
  (*1436*) Assign (T 48) (Plain (Zeros [0;0;1;1]));
  (*1437*) AddTo (T 48) (Plain (Einsum [(n_v'oovv,[0;1;2;3])] [0;1;2;3]));
  (*1438*) AddTo (T 48) (Times (Einsum [(n_v'ovov,[0;1;2;3])] [0;2;1;3]) (-2) 1);
  (*1439*) AddTo (T 48) (Times (Einsum [(T 45,[0;1;2;3])] [0;1;2;3]) (-1) 1);
  (*1440*) Del (T 45);
  (*1441*) AddTo (T 48) (Plain (Einsum [(T 47,[0;1;2;3])] [0;1;2;3]));
  (*1442*) Del (T 47);
  (*1443*) Assign (T 49) (Plain (Zeros [0;0;0;0;1;1]));
  (*1444*) AddTo (T 49) (Times (Einsum [(n_t2,[0;1;2;3]); (T 48,[4;5;6;2])] [0;1;4;5;3;6]) (75000000000003) 12500000000000);
  (*1445*) Del (T 48);
  (*1446*) Assign (T 50) (Plain (Zeros [0;0;0;0;0;1]));
  (*1447*) AddTo (T 50) (Plain (Einsum [(n_t2,[0;1;2;3]); (n_v'ooov,[4;5;6;3])] [0;1;4;5;6;2]));
  (*1448*) Assign (T 51) (Plain (Zeros [0;0;0;0;0;1]));
  (*1449*) AddTo (T 51) (Times (Einsum [(T 50,[0;1;2;3;4;5])] [0;1;3;2;4;5]) (-1) 2);
  (*1450*) AddTo (T 51) (Plain (Einsum [(T 50,[0;1;2;3;4;5])] [0;1;3;4;2;5]));
  (*1451*) Assign (T 52) (Plain (Zeros [0;0;0;0;1;1]));
  (*1452*) AddTo (T 52) (Times (Einsum [(n_t1,[0;1]); (T 51,[2;3;4;5;0;6])] [2;3;4;5;1;6]) (75000000000003) 6250000000000);
  (*1453*) Del (T 51);
  (*1454*) Assign (T 53) (Plain (Zeros [0;0;0;0;1;1]));
  (*1455*) AddTo (T 53) (Plain (Einsum [(n_v'ovvv,[0;1;2;3]); (n_t3,[4;5;6;7;1;3])] [4;6;5;0;7;2]));
  (*1456*) Assign (T 54) (Plain (Zeros [0;0;0;0;1;1]));
  (*1457*) AddTo (T 54) (Plain (Einsum [(n_v'ovvv,[0;1;2;3]); (n_t3,[4;5;6;7;3;1])] [4;6;5;0;7;2]));
  (*1458*) Assign (T 55) (Plain (Zeros [0;1;1;1]));
  (*1459*) AddTo (T 55) (Plain (Einsum [(n_v'ovvv,[0;1;2;3])] [0;1;2;3]));
  (*1460*) AddTo (T 55) (Times (Einsum [(n_v'ovvv,[0;1;2;3])] [0;2;1;3]) (-1) 2);
  (*1461*) Assign (T 56) (Plain (Zeros [0;0;1;1]));
  (*1462*) AddTo (T 56) (Plain (Einsum [(n_t1,[0;1]); (T 55,[2;3;1;4])] [0;2;3;4]));
  (*1463*) Assign (T 57) (Plain (Zeros [0;0;0;0;1;1]));
  (*1464*) AddTo (T 57) (Times (Einsum [(n_t2,[0;1;2;3]); (T 56,[4;5;2;6])] [0;1;4;5;3;6]) (75000000000003) 6250000000000);
  (*1465*) Del (T 56);
  (*1466*) Assign (T 58) (Plain (Zeros [0;0;0;0;0;1]));
  (*1467*) AddTo (T 58) (Plain (Einsum [(n_v'ovov,[0;1;2;3]); (n_t3,[4;5;6;7;3;1])] [4;6;5;0;2;7]));
  (*1468*) Assign (T 59) (Plain (Zeros [0;0;0;0;1;1]));
  (*1469*) AddTo (T 59) (Plain (Einsum [(n_t1,[0;1]); (T 58,[2;3;4;5;0;6])] [2;3;4;5;1;6]));
  (*1470*) Assign (T 60) (Plain (Zeros [0;0;0;0;1;1]));
  (*1471*) AddTo (T 60) (Plain (Einsum [(n_t1,[0;1]); (T 58,[2;3;4;0;5;6])] [2;3;4;5;1;6]));
  (*1472*) Assign (T 61) (Plain (Zeros [0;0;0;0;0;1]));
  (*1473*) AddTo (T 61) (Plain (Einsum [(T 25,[0;1;2;3;4;5])] [0;1;2;3;4;5]));
  (*1474*) AddTo (T 61) (Times (Einsum [(T 25,[0;1;2;3;4;5])] [0;1;2;4;3;5]) (-1) 2);
  (*1475*) Assign (T 62) (Plain (Zeros [0;0;0;0;1;1]));
  (*1476*) AddTo (T 62) (Times (Einsum [(n_t1,[0;1]); (T 61,[2;3;4;0;5;6])] [2;3;4;5;1;6]) (75000000000003) 6250000000000);
  (*1477*) Del (T 61);
  (*1478*) Assign (T 63) (Plain (Zeros [0;0;0;0;1;1]));
  (*1479*) AddTo (T 63) (Plain (Einsum [(T 49,[0;1;2;3;4;5])] [1;0;3;2;4;5]));
  (*1480*) AddTo (T 63) (Times (Einsum [(T 49,[0;1;2;3;4;5])] [0;1;3;2;4;5]) (-1) 1);
  (*1481*) Del (T 49);
  (*1482*) AddTo (T 63) (Plain (Einsum [(T 52,[0;1;2;3;4;5])] [0;1;3;2;5;4]));
  (*1483*) AddTo (T 63) (Times (Einsum [(T 52,[0;1;2;3;4;5])] [1;0;3;2;5;4]) (-1) 1);
  (*1484*) Del (T 52);
  (*1485*) AddTo (T 63) (Times (Einsum [(T 53,[0;1;2;3;4;5])] [0;1;3;2;4;5]) (2) 1);
  (*1486*) AddTo (T 63) (Times (Einsum [(T 53,[0;1;2;3;4;5])] [2;1;3;0;4;5]) (-2) 1);
  (*1487*) AddTo (T 63) (Times (Einsum [(T 31,[0;1;2;3;4;5])] [0;1;3;2;4;5]) (-1) 1);
  (*1488*) AddTo (T 63) (Plain (Einsum [(T 31,[0;1;2;3;4;5])] [1;0;3;2;4;5]));
  (*1489*) AddTo (T 63) (Times (Einsum [(T 31,[0;1;2;3;4;5])] [2;0;3;1;4;5]) (-1) 1);
  (*1490*) AddTo (T 63) (Plain (Einsum [(T 31,[0;1;2;3;4;5])] [2;1;3;0;4;5]));
  (*1491*) AddTo (T 63) (Times (Einsum [(T 54,[0;1;2;3;4;5])] [0;1;3;2;4;5]) (-8) 1);
  (*1492*) AddTo (T 63) (Times (Einsum [(T 54,[0;1;2;3;4;5])] [2;1;3;0;4;5]) (2) 1);
  (*1493*) Del (T 54);
  (*1494*) AddTo (T 63) (Times (Einsum [(T 57,[0;1;2;3;4;5])] [1;0;3;2;4;5]) (-1) 1);
  (*1495*) AddTo (T 63) (Plain (Einsum [(T 57,[0;1;2;3;4;5])] [0;1;3;2;4;5]));
  (*1496*) Del (T 57);
  (*1497*) AddTo (T 63) (Times (Einsum [(T 59,[0;1;2;3;4;5])] [0;1;3;2;5;4]) (8) 1);
  (*1498*) AddTo (T 63) (Times (Einsum [(T 59,[0;1;2;3;4;5])] [2;1;3;0;5;4]) (-2) 1);
  (*1499*) Del (T 59);
  (*1500*) AddTo (T 63) (Plain (Einsum [(T 36,[0;1;2;3;4;5])] [0;1;3;2;5;4]));
  (*1501*) AddTo (T 63) (Times (Einsum [(T 36,[0;1;2;3;4;5])] [1;0;3;2;5;4]) (-1) 1);
  (*1502*) AddTo (T 63) (Plain (Einsum [(T 36,[0;1;2;3;4;5])] [2;0;3;1;5;4]));
  (*1503*) AddTo (T 63) (Times (Einsum [(T 36,[0;1;2;3;4;5])] [2;1;3;0;5;4]) (-1) 1);
  (*1504*) AddTo (T 63) (Times (Einsum [(T 60,[0;1;2;3;4;5])] [0;1;3;2;5;4]) (-2) 1);
  (*1505*) AddTo (T 63) (Times (Einsum [(T 60,[0;1;2;3;4;5])] [2;1;3;0;5;4]) (2) 1);
  (*1506*) AddTo (T 63) (Plain (Einsum [(T 62,[0;1;2;3;4;5])] [1;2;3;0;5;4]));
  (*1507*) AddTo (T 63) (Times (Einsum [(T 62,[0;1;2;3;4;5])] [2;1;3;0;5;4]) (-1) 1);
  (*1508*) Del (T 62);
  (*1509*) AddTo n_l1new (Times (Einsum [(n_l3,[0;1;2;3;4;5]); (T 63,[5;3;6;4;2;1])] [0;6]) (8333333333333) 100000000000000);
  (*1510*) Del (T 63);
  (*1511*) Assign (T 64) (Plain (Zeros [0;0;0;0;1;1]));
  (*1512*) AddTo (T 64) (Plain (Einsum [(n_t2,[0;1;2;3]); (n_v'oooo,[4;5;6;1])] [0;4;5;6;2;3]));
  (*1513*) Assign (T 65) (Plain (Zeros [0;0;0;0;1;1]));
  (*1514*) AddTo (T 65) (Times (Einsum [(T 37,[0;1]); (n_t3,[2;3;4;1;5;6])] [2;4;3;0;6;5]) (5555555555555333) 50000000000000000);
  (*1515*) Assign (T 66) (Plain (Zeros [0;0;0;0]));
  (*1516*) AddTo (T 66) (Plain (Einsum [(n_t2,[0;1;2;3]); (n_v'ovov,[4;2;5;3])] [0;1;4;5]));
  (*1517*) Assign (T 67) (Plain (Zeros [0;0;0;0;1;1]));
  (*1518*) AddTo (T 67) (Plain (Einsum [(n_t2,[0;1;2;3]); (T 66,[4;5;6;1])] [4;5;0;6;2;3]));
  (*1519*) Assign (T 68) (Plain (Zeros [0;1]));
  (*1520*) AddTo (T 68) (Times (Einsum [(n_t1,[0;1]); (T 15,[0;2;1;3])] [2;3]) (2) 1);
  (*1521*) Assign (T 69) (Plain (Zeros [0;1]));
  (*1522*) AddTo (T 69) (Plain (Einsum [(n_f'ov,[0;1])] [0;1]));
  (*1523*) AddTo (T 69) (Plain (Einsum [(T 68,[0;1])] [0;1]));
  (*1524*) AddTo n_l3new (Plain (Einsum [(T 69,[0;1]); (n_l2,[2;3;4;5])] [1;2;3;0;4;5]));
  (*1525*) AddTo n_l3new (Plain (Einsum [(T 69,[0;1]); (n_l2,[2;3;4;5])] [2;3;1;4;5;0]));
  (*1526*) AddTo n_l3new (Times (Einsum [(T 69,[0;1]); (n_l2,[2;3;4;5])] [2;3;1;0;5;4]) (-1) 1);
  (*1527*) AddTo n_l3new (Times (Einsum [(T 69,[0;1]); (n_l2,[2;3;4;5])] [1;2;3;5;4;0]) (-1) 1);
  (*1528*) Assign (T 70) (Plain (Zeros [0;0;0;0;1;1]));
  (*1529*) AddTo (T 70) (Times (Einsum [(T 64,[0;1;2;3;4;5])] [1;2;3;0;4;5]) (3333333333333333) 10000000000000000);
  (*1530*) AddTo (T 70) (Times (Einsum [(T 64,[0;1;2;3;4;5])] [1;2;3;0;5;4]) (-1) 1);
  (*1531*) AddTo (T 70) (Times (Einsum [(T 64,[0;1;2;3;4;5])] [1;3;2;0;4;5]) (-3333333333333333) 10000000000000000);
  (*1532*) AddTo (T 70) (Times (Einsum [(T 64,[0;1;2;3;4;5])] [1;3;2;0;5;4]) (3333333333333333) 10000000000000000);
  (*1533*) AddTo (T 70) (Times (Einsum [(T 28,[0;1;2;3;4;5])] [0;1;2;3;4;5]) (-5555555555555333) 100000000000000000);
  (*1534*) AddTo (T 70) (Times (Einsum [(T 28,[0;1;2;3;4;5])] [0;1;2;3;5;4]) (5555555555555333) 100000000000000000);
  (*1535*) Del (T 28);
  (*1536*) AddTo (T 70) (Times (Einsum [(T 8,[0;1;2;3;4;5])] [2;3;0;1;4;5]) (3333333333333333) 10000000000000000);
  (*1537*) AddTo (T 70) (Times (Einsum [(T 8,[0;1;2;3;4;5])] [2;3;0;1;5;4]) (-1) 1);
  (*1538*) AddTo (T 70) (Times (Einsum [(T 7,[0;1;2;3;4;5])] [3;2;0;1;4;5]) (-3333333333333333) 10000000000000000);
  (*1539*) AddTo (T 70) (Times (Einsum [(T 7,[0;1;2;3;4;5])] [3;2;0;1;5;4]) (3333333333333333) 10000000000000000);
  (*1540*) AddTo (T 70) (Times (Einsum [(T 65,[0;1;2;3;4;5])] [3;1;0;2;4;5]) (-1) 1);
  (*1541*) AddTo (T 70) (Plain (Einsum [(T 65,[0;1;2;3;4;5])] [3;1;0;2;5;4]));
  (*1542*) Del (T 65);
  (*1543*) AddTo (T 70) (Times (Einsum [(T 67,[0;1;2;3;4;5])] [3;0;1;2;4;5]) (3333333333333333) 10000000000000000);
  (*1544*) AddTo (T 70) (Times (Einsum [(T 67,[0;1;2;3;4;5])] [3;0;1;2;5;4]) (-1) 1);
  (*1545*) AddTo (T 70) (Times (Einsum [(T 67,[0;1;2;3;4;5])] [3;1;0;2;4;5]) (-3333333333333333) 10000000000000000);
  (*1546*) AddTo (T 70) (Times (Einsum [(T 67,[0;1;2;3;4;5])] [3;1;0;2;5;4]) (3333333333333333) 10000000000000000);
  (*1547*) AddTo (T 70) (Times (Einsum [(T 69,[0;1]); (n_t3,[2;3;4;5;1;6])] [0;2;4;3;5;6]) (5555555555555333) 100000000000000000);
  (*1548*) AddTo n_l1new (Times (Einsum [(n_l3,[0;1;2;3;4;5]); (T 70,[6;5;4;3;1;2])] [0;6]) (3) 2);
  (*1549*) Del (T 70);
  (*1550*) Assign (T 71) (Plain (Zeros [0;0;1;1]));
  (*1551*) AddTo (T 71) (Plain (Einsum [(n_t2,[0;1;2;3]); (n_v'ovov,[4;2;1;5])] [0;4;3;5]));
  (*1552*) Assign (T 72) (Plain (Zeros [0;0;0;0;1;1]));
  (*1553*) AddTo (T 72) (Plain (Einsum [(n_t2,[0;1;2;3]); (T 71,[4;5;6;3])] [0;1;4;5;2;6]));
  (*1554*) Assign (T 73) (Plain (Zeros [0;0;0;0;1;1]));
  (*1555*) AddTo (T 73) (Plain (Einsum [(n_t1,[0;1]); (T 50,[2;3;4;5;0;6])] [2;3;5;4;1;6]));
  (*1556*) Assign (T 74) (Plain (Zeros [0;0;0;0;1;1]));
  (*1557*) AddTo (T 74) (Plain (Einsum [(n_t1,[0;1]); (T 25,[2;3;4;5;0;6])] [2;3;4;5;1;6]));
  (*1558*) Assign (T 75) (Plain (Zeros [0;0;0;1;1;1]));
  (*1559*) AddTo (T 75) (Plain (Einsum [(n_t3,[0;1;2;3;4;5])] [0;2;1;3;5;4]));
  (*1560*) AddTo (T 75) (Plain (Einsum [(n_t3,[0;1;2;3;4;5])] [0;2;1;4;3;5]));
  (*1561*) AddTo (T 75) (Plain (Einsum [(n_t3,[0;1;2;3;4;5])] [1;0;2;4;3;5]));
  (*1562*) Assign (T 76) (Plain (Zeros [0;0;0;0;1;1]));
  (*1563*) AddTo (T 76) (Times (Einsum [(T 72,[0;1;2;3;4;5])] [3;1;0;2;4;5]) (2) 1);
  (*1564*) AddTo (T 76) (Times (Einsum [(T 67,[0;1;2;3;4;5])] [3;2;1;0;5;4]) (2) 1);
  (*1565*) Del (T 67);
  (*1566*) AddTo (T 76) (Times (Einsum [(T 60,[0;1;2;3;4;5])] [3;0;1;2;5;4]) (-9999999999999599) 5000000000000000);
  (*1567*) Del (T 60);
  (*1568*) AddTo (T 76) (Times (Einsum [(T 73,[0;1;2;3;4;5])] [2;0;1;3;5;4]) (-2) 1);
  (*1569*) AddTo (T 76) (Times (Einsum [(T 73,[0;1;2;3;4;5])] [2;1;0;3;5;4]) (2) 1);
  (*1570*) AddTo (T 76) (Times (Einsum [(T 74,[0;1;2;3;4;5])] [3;1;2;0;5;4]) (-2) 1);
  (*1571*) AddTo (T 76) (Times (Einsum [(T 74,[0;1;2;3;4;5])] [3;2;1;0;5;4]) (2) 1);
  (*1572*) AddTo (T 76) (Plain (Einsum [(T 41,[0;1;2;3]); (T 75,[2;4;5;3;6;7])] [1;5;4;0;7;6]));
  (*1573*) Del (T 75);
  (*1574*) AddTo (T 76) (Times (Einsum [(T 42,[0;1;2;3]); (n_t3,[4;0;5;6;3;7])] [2;4;5;1;6;7]) (-1) 1);
  (*1575*) Del (T 42);
  (*1576*) AddTo (T 76) (Times (Einsum [(T 69,[0;1]); (n_t3,[2;3;4;5;1;6])] [0;2;4;3;5;6]) (24999999999999) 25000000000000);
  (*1577*) AddTo n_l1new (Times (Einsum [(n_l3,[0;1;2;3;4;5]); (T 76,[6;3;5;4;0;2])] [1;6]) (-1) 4);
  (*1578*) Del (T 76);
  (*1579*) Assign (T 77) (Plain (Zeros [0;0;1;1]));
  (*1580*) AddTo (T 77) (Plain (Einsum [(n_t2,[0;1;2;3]); (n_v'ovov,[4;3;1;5])] [0;4;2;5]));
  (*1581*) Assign (T 78) (Plain (Zeros [0;0;1;1]));
  (*1582*) AddTo (T 78) (Times (Einsum [(n_t2,[0;1;2;3])] [0;1;3;2]) (-1) 1);
  (*1583*) AddTo (T 78) (Times (Einsum [(n_t2,[0;1;2;3])] [0;1;2;3]) (2) 1);
  (*1584*) Assign (T 79) (Plain (Zeros [0;0;1;1]));
  (*1585*) AddTo (T 79) (Times (Einsum [(n_v'ovov,[0;1;2;3]); (T 78,[2;4;3;5])] [0;4;1;5]) (1) 2);
  (*1586*) Assign (T 80) (Plain (Zeros [0;0;1;1]));
  (*1587*) AddTo (T 80) (Plain (Einsum [(n_v'ovov,[0;1;2;3])] [0;2;1;3]));
  (*1588*) AddTo (T 80) (Times (Einsum [(T 77,[0;1;2;3])] [0;1;2;3]) (-1) 2);
  (*1589*) AddTo (T 80) (Plain (Einsum [(T 79,[0;1;2;3])] [1;0;3;2]));
  (*1590*) Del (T 79);
  (*1591*) Assign (T 81) (Plain (Zeros [0;0;0;0;1;1]));
  (*1592*) AddTo (T 81) (Plain (Einsum [(n_t2,[0;1;2;3]); (T 80,[4;5;6;2])] [0;1;4;5;3;6]));
  (*1593*) Del (T 80);
  (*1594*) Assign (T 82) (Plain (Zeros [0;0;1;1]));
  (*1595*) AddTo (T 82) (Plain (Einsum [(n_v'oovv,[0;1;2;3])] [0;1;2;3]));
  (*1596*) AddTo (T 82) (Times (Einsum [(T 71,[0;1;2;3])] [0;1;2;3]) (-1) 2);
  (*1597*) Assign (T 83) (Plain (Zeros [0;0;0;0;1;1]));
  (*1598*) AddTo (T 83) (Times (Einsum [(n_t2,[0;1;2;3]); (T 82,[4;5;6;2])] [0;1;4;5;3;6]) (2) 1);
  (*1599*) Del (T 82);
  (*1600*) Assign (T 84) (Plain (Zeros [0;0;0;0;1;1]));
  (*1601*) AddTo (T 84) (Plain (Einsum [(n_t1,[0;1]); (T 50,[2;3;0;4;5;6])] [2;3;4;5;1;6]));
  (*1602*) Assign (T 85) (Plain (Zeros [0;0;0;0;1;1]));
  (*1603*) AddTo (T 85) (Plain (Einsum [(T 81,[0;1;2;3;4;5])] [1;0;3;2;4;5]));
  (*1604*) AddTo (T 85) (Times (Einsum [(T 81,[0;1;2;3;4;5])] [0;1;3;2;4;5]) (-1) 1);
  (*1605*) Del (T 81);
  (*1606*) AddTo (T 85) (Times (Einsum [(T 83,[0;1;2;3;4;5])] [1;0;3;2;4;5]) (-1) 1);
  (*1607*) AddTo (T 85) (Times (Einsum [(T 83,[0;1;2;3;4;5])] [0;1;3;2;4;5]) (1) 2);
  (*1608*) Del (T 83);
  (*1609*) AddTo (T 85) (Times (Einsum [(T 73,[0;1;2;3;4;5])] [0;1;3;2;5;4]) (2) 1);
  (*1610*) AddTo (T 85) (Times (Einsum [(T 73,[0;1;2;3;4;5])] [1;0;3;2;5;4]) (-1) 1);
  (*1611*) Del (T 73);
  (*1612*) AddTo (T 85) (Times (Einsum [(T 84,[0;1;2;3;4;5])] [0;1;3;2;5;4]) (-1) 1);
  (*1613*) AddTo (T 85) (Plain (Einsum [(T 84,[0;1;2;3;4;5])] [1;0;3;2;5;4]));
  (*1614*) AddTo n_l1new (Times (Einsum [(n_l3,[0;1;2;3;4;5]); (T 85,[3;4;6;5;2;1])] [0;6]) (-1) 1);
  (*1615*) Del (T 85);
  (*1616*) Assign (T 86) (Plain (Zeros [0;0;0;0]));
  (*1617*) AddTo (T 86) (Plain (Einsum [(T 6,[0;1;2;3])] [0;2;1;3]));
  (*1618*) AddTo (T 86) (Times (Einsum [(T 6,[0;1;2;3])] [0;3;2;1]) (-1) 1);
  (*1619*) Assign (T 87) (Plain (Zeros [0;0;0;0;1;1]));
  (*1620*) AddTo (T 87) (Times (Einsum [(n_t2,[0;1;2;3]); (T 86,[4;1;5;6])] [0;4;5;6;3;2]) (6) 1);
  (*1621*) Del (T 86);
  (*1622*) Assign (T 88) (Plain (Zeros [0;0;0;0]));
  (*1623*) AddTo (T 88) (Plain (Einsum [(T 66,[0;1;2;3])] [1;0;3;2]));
  (*1624*) AddTo (T 88) (Plain (Einsum [(T 21,[0;1;2;3])] [0;1;2;3]));
  (*1625*) AddTo n_l2new (Plain (Einsum [(n_l2,[0;1;2;3]); (T 88,[3;2;4;5])] [0;1;5;4]));
  (*1626*) Assign (T 89) (Plain (Zeros [0;0;0;0;1;1]));
  (*1627*) AddTo (T 89) (Times (Einsum [(n_t2,[0;1;2;3]); (T 88,[4;5;1;6])] [0;4;5;6;3;2]) (3) 1);
  (*1628*) Assign (T 90) (Plain (Zeros [0;0;0;0;1;1]));
  (*1629*) AddTo (T 90) (Times (Einsum [(T 64,[0;1;2;3;4;5])] [1;0;2;3;4;5]) (-3) 1);
  (*1630*) AddTo (T 90) (Plain (Einsum [(T 64,[0;1;2;3;4;5])] [1;0;2;3;5;4]));
  (*1631*) AddTo (T 90) (Times (Einsum [(T 64,[0;1;2;3;4;5])] [3;0;2;1;4;5]) (3) 1);
  (*1632*) AddTo (T 90) (Times (Einsum [(T 64,[0;1;2;3;4;5])] [3;0;2;1;5;4]) (-1) 1);
  (*1633*) AddTo (T 90) (Times (Einsum [(T 87,[0;1;2;3;4;5])] [1;0;3;2;5;4]) (-1) 1);
  (*1634*) AddTo (T 90) (Times (Einsum [(T 87,[0;1;2;3;4;5])] [1;0;3;2;4;5]) (3333333333333333) 10000000000000000);
  (*1635*) Del (T 87);
  (*1636*) AddTo (T 90) (Times (Einsum [(T 89,[0;1;2;3;4;5])] [2;0;3;1;5;4]) (-1) 1);
  (*1637*) AddTo (T 90) (Times (Einsum [(T 89,[0;1;2;3;4;5])] [2;0;3;1;4;5]) (3333333333333333) 10000000000000000);
  (*1638*) AddTo (T 90) (Plain (Einsum [(T 89,[0;1;2;3;4;5])] [1;0;3;2;5;4]));
  (*1639*) AddTo (T 90) (Times (Einsum [(T 89,[0;1;2;3;4;5])] [1;0;3;2;4;5]) (-3333333333333333) 10000000000000000);
  (*1640*) Del (T 89);
  (*1641*) AddTo n_l1new (Times (Einsum [(n_l3,[0;1;2;3;4;5]); (T 90,[3;4;6;5;1;2])] [0;6]) (-1) 4);
  (*1642*) Del (T 90);
  (*1643*) Assign (T 91) (Plain (Zeros [0;0;1;1]));
  (*1644*) AddTo (T 91) (Plain (Einsum [(n_t1,[0;1]); (n_v'ovvv,[2;1;3;4])] [0;2;3;4]));
  (*1645*) Assign (T 92) (Plain (Zeros [0;0;0;0;1;1]));
  (*1646*) AddTo (T 92) (Plain (Einsum [(n_t2,[0;1;2;3]); (T 91,[4;5;6;3])] [4;0;1;5;2;6]));
  (*1647*) Assign (T 93) (Plain (Zeros [0;0;0;0]));
  (*1648*) AddTo (T 93) (Plain (Einsum [(n_v'oooo,[0;1;2;3])] [0;1;2;3]));
  (*1649*) AddTo (T 93) (Plain (Einsum [(T 6,[0;1;2;3])] [2;1;0;3]));
  (*1650*) AddTo (T 93) (Plain (Einsum [(T 66,[0;1;2;3])] [3;1;0;2]));
  (*1651*) Assign (T 94) (Plain (Zeros [0;0;1;1]));
  (*1652*) AddTo (T 94) (Plain (Einsum [(n_v'oovv,[0;1;2;3])] [0;1;2;3]));
  (*1653*) AddTo (T 94) (Plain (Einsum [(T 91,[0;1;2;3])] [0;1;3;2]));
  (*1654*) AddTo (T 94) (Times (Einsum [(T 71,[0;1;2;3])] [0;1;2;3]) (-1) 1);
  (*1655*) Assign (T 95) (Plain (Zeros [0;0;0;0;1;1]));
  (*1656*) AddTo (T 95) (Times (Einsum [(T 64,[0;1;2;3;4;5])] [3;0;2;1;5;4]) (-5000000000000201) 5000000000000000);
  (*1657*) Del (T 64);
  (*1658*) AddTo (T 95) (Times (Einsum [(n_t2,[0;1;2;3]); (n_v'oovv,[4;5;6;2])] [0;1;4;5;6;3]) (5000000000000201) 5000000000000000);
  (*1659*) AddTo (T 95) (Times (Einsum [(T 7,[0;1;2;3;4;5])] [2;1;3;0;5;4]) (-5000000000000201) 5000000000000000);
  (*1660*) Del (T 7);
  (*1661*) AddTo (T 95) (Times (Einsum [(T 53,[0;1;2;3;4;5])] [0;1;3;2;5;4]) (-1) 1);
  (*1662*) Del (T 53);
  (*1663*) AddTo (T 95) (Times (Einsum [(T 92,[0;1;2;3;4;5])] [2;1;3;0;5;4]) (5000000000000201) 5000000000000000);
  (*1664*) AddTo (T 95) (Times (Einsum [(T 41,[0;1;2;3]); (n_t3,[4;5;2;6;7;3])] [4;5;1;0;6;7]) (5000000000000201) 10000000000000000);
  (*1665*) AddTo (T 95) (Times (Einsum [(n_t2,[0;1;2;3]); (T 93,[1;4;5;6])] [4;0;6;5;2;3]) (5000000000000201) 5000000000000000);
  (*1666*) Del (T 93);
  (*1667*) AddTo (T 95) (Times (Einsum [(n_t2,[0;1;2;3]); (T 94,[4;5;6;3])] [0;1;5;4;6;2]) (-5000000000000201) 5000000000000000);
  (*1668*) Del (T 94);
  (*1669*) AddTo n_l1new (Times (Einsum [(n_l3,[0;1;2;3;4;5]); (T 95,[5;3;6;4;0;2])] [1;6]) (12499999999999499) 25000000000000000);
  (*1670*) Del (T 95);
  (*1671*) Assign (T 96) (Plain (Zeros [0;0;0;0;1;1]));
  (*1672*) AddTo (T 96) (Plain (Einsum [(n_t1,[0;1]); (T 25,[2;3;4;0;5;6])] [2;3;4;5;1;6]));
  (*1673*) Del (T 25);
  (*1674*) Assign (T 97) (Plain (Zeros [0;0;1;1]));
  (*1675*) AddTo (T 97) (Plain (Einsum [(n_v'ovov,[0;1;2;3]); (T 78,[2;4;3;5])] [0;4;1;5]));
  (*1676*) Assign (T 98) (Plain (Zeros [0;0;1;1]));
  (*1677*) AddTo (T 98) (Plain (Einsum [(n_v'ovov,[0;1;2;3])] [0;2;1;3]));
  (*1678*) AddTo (T 98) (Times (Einsum [(T 77,[0;1;2;3])] [0;1;2;3]) (-1) 1);
  (*1679*) AddTo (T 98) (Plain (Einsum [(T 97,[0;1;2;3])] [1;0;3;2]));
  (*1680*) Assign (T 99) (Plain (Zeros [0;0;0;0;1;1]));
  (*1681*) AddTo (T 99) (Plain (Einsum [(T 9,[0;1;2;3]); (n_t3,[4;5;2;6;3;7])] [4;5;0;1;6;7]));
  (*1682*) AddTo (T 99) (Times (Einsum [(T 96,[0;1;2;3;4;5])] [1;2;0;3;5;4]) (2) 1);
  (*1683*) AddTo (T 99) (Plain (Einsum [(T 8,[0;1;2;3;4;5])] [1;3;0;2;4;5]));
  (*1684*) AddTo (T 99) (Times (Einsum [(T 8,[0;1;2;3;4;5])] [1;3;0;2;5;4]) (-1) 1);
  (*1685*) Del (T 8);
  (*1686*) AddTo (T 99) (Plain (Einsum [(T 22,[0;1;2;3;4;5])] [2;0;1;3;4;5]));
  (*1687*) AddTo (T 99) (Times (Einsum [(T 22,[0;1;2;3;4;5])] [2;0;1;3;5;4]) (-1) 1);
  (*1688*) Del (T 22);
  (*1689*) AddTo (T 99) (Times (Einsum [(n_t2,[0;1;2;3]); (T 98,[4;5;6;3])] [0;1;4;5;2;6]) (-2) 1);
  (*1690*) Del (T 98);
  (*1691*) AddTo n_l1new (Times (Einsum [(n_l3,[0;1;2;3;4;5]); (T 99,[3;4;5;6;0;2])] [1;6]) (1) 2);
  (*1692*) Del (T 99);
  (*1693*) Assign (T 100) (Plain (Zeros [0;0;1;1]));
  (*1694*) AddTo (T 100) (Plain (Einsum [(n_t1,[0;1]); (n_v'ovvv,[2;3;4;1])] [0;2;3;4]));
  (*1695*) Assign (T 101) (Plain (Zeros [0;0;0;0;1;1]));
  (*1696*) AddTo (T 101) (Plain (Einsum [(n_t2,[0;1;2;3]); (T 100,[4;5;3;6])] [4;0;1;5;2;6]));
  (*1697*) Assign (T 102) (Plain (Zeros [0;0;0;0;1;1]));
  (*1698*) AddTo (T 102) (Times (Einsum [(T 72,[0;1;2;3;4;5])] [0;1;2;3;4;5]) (1) 4);
  (*1699*) Del (T 72);
  (*1700*) AddTo (T 102) (Times (Einsum [(T 101,[0;1;2;3;4;5])] [1;2;0;3;4;5]) (1) 2);
  (*1701*) AddTo (T 102) (Times (Einsum [(T 101,[0;1;2;3;4;5])] [2;1;0;3;4;5]) (-1) 2);
  (*1702*) AddTo (T 102) (Times (Einsum [(T 92,[0;1;2;3;4;5])] [1;2;0;3;4;5]) (-1) 1);
  (*1703*) AddTo (T 102) (Times (Einsum [(T 92,[0;1;2;3;4;5])] [2;1;0;3;4;5]) (1) 2);
  (*1704*) Del (T 92);
  (*1705*) AddTo (T 102) (Plain (Einsum [(T 74,[0;1;2;3;4;5])] [1;2;0;3;5;4]));
  (*1706*) AddTo (T 102) (Times (Einsum [(T 74,[0;1;2;3;4;5])] [2;1;0;3;5;4]) (-1) 2);
  (*1707*) Del (T 74);
  (*1708*) AddTo (T 102) (Times (Einsum [(T 96,[0;1;2;3;4;5])] [1;2;0;3;5;4]) (-1) 2);
  (*1709*) AddTo (T 102) (Times (Einsum [(T 96,[0;1;2;3;4;5])] [2;1;0;3;5;4]) (1) 2);
  (*1710*) Del (T 96);
  (*1711*) AddTo n_l1new (Times (Einsum [(n_l3,[0;1;2;3;4;5]); (T 102,[5;4;3;6;2;1])] [0;6]) (2) 1);
  (*1712*) Del (T 102);
  (*1713*) Assign (T 103) (Plain (Zeros [0;1;1;1]));
  (*1714*) AddTo (T 103) (Plain (Einsum [(n_v'ovvv,[0;1;2;3])] [0;1;2;3]));
  (*1715*) AddTo (T 103) (Times (Einsum [(n_v'ovvv,[0;1;2;3])] [0;2;1;3]) (-1) 1);
  (*1716*) Assign (T 104) (Plain (Zeros [0;0;0;0;0;1]));
  (*1717*) AddTo (T 104) (Times (Einsum [(T 58,[0;1;2;3;4;5])] [0;1;2;3;4;5]) (-1) 1);
  (*1718*) AddTo (T 104) (Plain (Einsum [(T 58,[0;1;2;3;4;5])] [0;1;2;4;3;5]));
  (*1719*) Assign (T 105) (Plain (Zeros [0;0;0;0;1;1]));
  (*1720*) AddTo (T 105) (Plain (Einsum [(T 31,[0;1;2;3;4;5])] [0;1;2;3;4;5]));
  (*1721*) AddTo (T 105) (Times (Einsum [(T 31,[0;1;2;3;4;5])] [1;0;2;3;4;5]) (-1) 1);
  (*1722*) Del (T 31);
  (*1723*) AddTo (T 105) (Times (Einsum [(T 36,[0;1;2;3;4;5])] [0;1;2;3;5;4]) (-1) 1);
  (*1724*) AddTo (T 105) (Plain (Einsum [(T 36,[0;1;2;3;4;5])] [1;0;2;3;5;4]));
  (*1725*) Del (T 36);
  (*1726*) AddTo (T 105) (Times (Einsum [(T 103,[0;1;2;3]); (n_t3,[4;5;6;7;1;2])] [4;6;5;0;7;3]) (-2) 1);
  (*1727*) Del (T 103);
  (*1728*) AddTo (T 105) (Times (Einsum [(n_t1,[0;1]); (T 104,[2;3;4;0;5;6])] [2;3;4;5;6;1]) (-2) 1);
  (*1729*) Del (T 104);
  (*1730*) AddTo n_l1new (Times (Einsum [(n_l3,[0;1;2;3;4;5]); (T 105,[5;4;3;6;2;1])] [0;6]) (8333333333333) 100000000000000);
  (*1731*) Del (T 105);
  (*1732*) Assign (T 106) (Plain (Zeros [0;0;1;1]));
  (*1733*) AddTo (T 106) (Plain (Einsum [(n_v'ovov,[0;1;2;3])] [0;2;1;3]));
  (*1734*) AddTo (T 106) (Times (Einsum [(n_v'oovv,[0;1;2;3])] [0;1;2;3]) (-1) 1);
  (*1735*) AddTo (T 106) (Plain (Einsum [(T 16,[0;1;2;3])] [0;1;2;3]));
  (*1736*) Del (T 16);
  (*1737*) AddTo (T 106) (Plain (Einsum [(T 18,[0;1;2;3])] [0;1;2;3]));
  (*1738*) Del (T 18);
  (*1739*) Assign (T 107) (Plain (Zeros [0;0;0;0;0;1]));
  (*1740*) AddTo (T 107) (Times (Einsum [(T 50,[0;1;2;3;4;5])] [0;1;3;2;4;5]) (-1) 1);
  (*1741*) AddTo (T 107) (Plain (Einsum [(T 50,[0;1;2;3;4;5])] [0;1;3;4;2;5]));
  (*1742*) Del (T 50);
  (*1743*) Assign (T 108) (Plain (Zeros [0;0;0;0;1;1]));
  (*1744*) AddTo (T 108) (Times (Einsum [(n_t2,[0;1;2;3]); (T 106,[4;5;6;3])] [0;1;5;4;2;6]) (2) 1);
  (*1745*) Del (T 106);
  (*1746*) AddTo (T 108) (Times (Einsum [(n_t1,[0;1]); (T 107,[2;3;4;5;0;6])] [2;3;5;4;6;1]) (-2) 1);
  (*1747*) Del (T 107);
  (*1748*) AddTo n_l1new (Times (Einsum [(n_l3,[0;1;2;3;4;5]); (T 108,[4;3;6;5;1;2])] [0;6]) (-1) 2);
  (*1749*) Del (T 108);
  (*1750*) Assign (T 109) (Plain (Zeros [0;0;0;0;1;1]));
  (*1751*) AddTo (T 109) (Times (Einsum [(n_v'ooov,[0;1;2;3]); (n_t3,[4;5;1;6;3;7])] [4;5;0;2;6;7]) (1) 2);
  (*1752*) AddTo (T 109) (Times (Einsum [(T 84,[0;1;2;3;4;5])] [0;1;2;3;4;5]) (-1) 1);
  (*1753*) Del (T 84);
  (*1754*) AddTo (T 109) (Plain (Einsum [(T 101,[0;1;2;3;4;5])] [1;2;0;3;5;4]));
  (*1755*) Del (T 101);
  (*1756*) AddTo n_l1new (Plain (Einsum [(n_l3,[0;1;2;3;4;5]); (T 109,[3;4;5;6;0;2])] [1;6]));
  (*1757*) Del (T 109);
  (*1758*) Assign (T 110) (Plain (Zeros [0;0;1;1]));
  (*1759*) AddTo (T 110) (Plain (Einsum [(n_l3,[0;1;2;3;4;5]); (n_t3,[3;6;5;7;1;2])] [4;6;0;7]));
  (*1760*) Assign (T 111) (Plain (Zeros [0;0;1;1]));
  (*1761*) AddTo (T 111) (Plain (Einsum [(n_l3,[0;1;2;3;4;5]); (n_t3,[6;4;3;2;7;0])] [5;6;1;7]));
  (*1762*) Assign (T 112) (Plain (Zeros [0;0;1;1]));
  (*1763*) AddTo (T 112) (Plain (Einsum [(n_l3,[0;1;2;3;4;5]); (n_t3,[3;6;5;0;7;2])] [4;6;1;7]));
  (*1764*) Assign (T 113) (Plain (Zeros [0;0;0;0;1;1]));
  (*1765*) AddTo (T 113) (Plain (Einsum [(n_t1,[0;1]); (n_l3,[2;3;1;4;5;6])] [4;6;5;0;2;3]));
  (*1766*) AddTo n_l3new (Plain (Einsum [(n_v'ooov,[0;1;2;3]); (T 113,[4;5;1;0;6;7])] [6;3;7;4;2;5]));
  (*1767*) Assign (T 114) (Plain (Zeros [0;0;1;1]));
  (*1768*) AddTo (T 114) (Plain (Einsum [(n_t2,[0;1;2;3]); (T 113,[0;4;1;5;6;3])] [4;5;6;2]));
  (*1769*) Assign (T 115) (Plain (Zeros [0;0;1;1]));
  (*1770*) AddTo (T 115) (Plain (Einsum [(n_t2,[0;1;2;3]); (T 113,[0;4;1;5;2;6])] [4;5;6;3]));
  (*1771*) Assign (T 116) (Plain (Zeros [0;0;0;1;1;1]));
  (*1772*) AddTo (T 116) (Plain (Einsum [(n_t3,[0;1;2;3;4;5])] [0;2;1;5;4;3]));
  (*1773*) AddTo (T 116) (Times (Einsum [(n_t3,[0;1;2;3;4;5])] [0;2;1;3;5;4]) (5) 1);
  (*1774*) AddTo (T 116) (Times (Einsum [(n_t3,[0;1;2;3;4;5])] [0;2;1;4;5;3]) (-1) 1);
  (*1775*) AddTo (T 116) (Times (Einsum [(n_t3,[0;1;2;3;4;5])] [1;0;2;5;3;4]) (-1) 1);
  (*1776*) AddTo (T 116) (Times (Einsum [(n_t3,[0;1;2;3;4;5])] [1;0;2;3;4;5]) (-1) 1);
  (*1777*) AddTo (T 116) (Plain (Einsum [(n_t3,[0;1;2;3;4;5])] [1;0;2;4;3;5]));
  (*1778*) Assign (T 117) (Plain (Zeros [0;0;0;1;1;1]));
  (*1779*) AddTo (T 117) (Times (Einsum [(n_t3,[0;1;2;3;4;5])] [0;2;1;3;5;4]) (-1) 1);
  (*1780*) AddTo (T 117) (Plain (Einsum [(n_t3,[0;1;2;3;4;5])] [0;2;1;4;5;3]));
  (*1781*) AddTo (T 117) (Plain (Einsum [(n_t3,[0;1;2;3;4;5])] [0;2;1;3;4;5]));
  (*1782*) Assign (T 118) (Plain (Zeros [0;0;1;1]));
  (*1783*) AddTo (T 118) (Plain (Einsum [(n_t2,[0;1;2;3])] [0;1;3;2]));
  (*1784*) AddTo (T 118) (Times (Einsum [(n_t2,[0;1;2;3])] [0;1;2;3]) (-1) 1);
  (*1785*) Assign (T 119) (Plain (Zeros [0;0;0;0;1;1]));
  (*1786*) AddTo (T 119) (Plain (Einsum [(n_t1,[0;1]); (n_l3,[2;1;3;4;5;6])] [4;6;5;0;2;3]));
  (*1787*) AddTo n_l3new (Plain (Einsum [(T 9,[0;1;2;3]); (T 119,[4;5;0;1;6;7])] [7;3;6;5;2;4]));
  (*1788*) AddTo n_l3new (Times (Einsum [(T 69,[0;1]); (T 119,[2;3;4;0;5;6])] [6;1;5;3;4;2]) (-1) 1);
  (*1789*) Assign (T 120) (Plain (Zeros [0;0;0;0;1;1]));
  (*1790*) AddTo (T 120) (Plain (Einsum [(T 119,[0;1;2;3;4;5])] [0;1;2;3;4;5]));
  (*1791*) AddTo (T 120) (Plain (Einsum [(T 119,[0;1;2;3;4;5])] [2;1;0;3;5;4]));
  (*1792*) Assign (T 121) (Plain (Zeros [0;0;1;1]));
  (*1793*) AddTo (T 121) (Times (Einsum [(n_t2,[0;1;2;3])] [0;1;3;2]) (-1) 2);
  (*1794*) AddTo (T 121) (Plain (Einsum [(n_t2,[0;1;2;3])] [0;1;2;3]));
  (*1795*) Assign (T 122) (Plain (Zeros [0;0;1;1]));
  (*1796*) AddTo (T 122) (Times (Einsum [(n_t2,[0;1;2;3])] [0;1;3;2]) (2) 1);
  (*1797*) AddTo (T 122) (Times (Einsum [(n_t2,[0;1;2;3])] [0;1;2;3]) (-1) 1);
  (*1798*) Assign (T 123) (Plain (Zeros [0;0;0;1]));
  (*1799*) AddTo (T 123) (Plain (Einsum [(n_t1,[0;1]); (n_l2,[2;1;3;4])] [3;4;0;2]));
  (*1800*) Assign (T 124) (Plain (Zeros [0;0;0;1]));
  (*1801*) AddTo (T 124) (Plain (Einsum [(n_t2,[0;1;2;3]); (n_l3,[4;2;3;1;5;6])] [6;5;0;4]));
  (*1802*) Assign (T 125) (Plain (Zeros [0;0;0;1]));
  (*1803*) AddTo (T 125) (Plain (Einsum [(n_t2,[0;1;2;3]); (n_l3,[4;3;2;1;5;6])] [6;5;0;4]));
  (*1804*) Assign (T 126) (Plain (Zeros [0;0;1;1]));
  (*1805*) AddTo (T 126) (Times (Einsum [(n_t2,[0;1;2;3])] [0;1;3;2]) (-3333333333333333) 10000000000000000);
  (*1806*) AddTo (T 126) (Plain (Einsum [(n_t2,[0;1;2;3])] [0;1;2;3]));
  (*1807*) Assign (T 127) (Plain (Zeros [0;0;0;1]));
  (*1808*) AddTo (T 127) (Times (Einsum [(T 126,[0;1;2;3]); (n_l3,[4;2;3;5;0;6])] [6;5;1;4]) (3) 4);
  (*1809*) Assign (T 128) (Plain (Zeros [0;0;0;1]));
  (*1810*) AddTo (T 128) (Plain (Einsum [(T 123,[0;1;2;3])] [0;1;2;3]));
  (*1811*) AddTo (T 128) (Times (Einsum [(T 123,[0;1;2;3])] [1;0;2;3]) (-1) 2);
  (*1812*) AddTo (T 128) (Times (Einsum [(T 124,[0;1;2;3])] [0;1;2;3]) (-3) 4);
  (*1813*) AddTo (T 128) (Times (Einsum [(T 124,[0;1;2;3])] [1;0;2;3]) (1) 4);
  (*1814*) AddTo (T 128) (Times (Einsum [(T 125,[0;1;2;3])] [0;1;2;3]) (1) 4);
  (*1815*) AddTo (T 128) (Times (Einsum [(T 125,[0;1;2;3])] [1;0;2;3]) (-1) 4);
  (*1816*) AddTo (T 128) (Plain (Einsum [(T 127,[0;1;2;3])] [1;0;2;3]));
  (*1817*) AddTo (T 128) (Times (Einsum [(T 118,[0;1;2;3]); (n_l3,[2;4;3;0;5;6])] [5;6;1;4]) (-1) 4);
  (*1818*) Assign (T 129) (Plain (Zeros [0;0;1;1]));
  (*1819*) AddTo (T 129) (Times (Einsum [(T 110,[0;1;2;3])] [0;1;2;3]) (2) 1);
  (*1820*) AddTo (T 129) (Times (Einsum [(T 111,[0;1;2;3])] [0;1;2;3]) (2) 1);
  (*1821*) AddTo (T 129) (Plain (Einsum [(T 112,[0;1;2;3])] [0;1;2;3]));
  (*1822*) AddTo (T 129) (Times (Einsum [(T 114,[0;1;2;3])] [0;1;3;2]) (4) 1);
  (*1823*) AddTo (T 129) (Times (Einsum [(T 115,[0;1;2;3])] [0;1;3;2]) (4) 1);
  (*1824*) AddTo (T 129) (Plain (Einsum [(n_l3,[0;1;2;3;4;5]); (T 116,[5;6;4;2;7;1])] [3;6;0;7]));
  (*1825*) AddTo (T 129) (Plain (Einsum [(n_l3,[0;1;2;3;4;5]); (T 117,[3;6;5;1;7;2])] [4;6;0;7]));
  (*1826*) AddTo (T 129) (Times (Einsum [(T 118,[0;1;2;3]); (T 120,[0;1;4;5;6;3])] [4;5;2;6]) (-4) 1);
  (*1827*) Del (T 120);
  (*1828*) AddTo (T 129) (Times (Einsum [(n_l2,[0;1;2;3]); (T 121,[3;4;1;5])] [2;4;0;5]) (8) 1);
  (*1829*) AddTo (T 129) (Times (Einsum [(n_l2,[0;1;2;3]); (T 122,[2;4;1;5])] [3;4;0;5]) (4) 1);
  (*1830*) AddTo (T 129) (Times (Einsum [(n_t1,[0;1]); (T 128,[0;2;3;4])] [2;3;1;4]) (8) 1);
  (*1831*) Del (T 128);
  (*1832*) AddTo n_l1new (Times (Einsum [(n_v'ovvv,[0;1;2;3]); (T 129,[4;0;3;2])] [1;4]) (-1) 4);
  (*1833*) Del (T 129);
  (*1834*) Assign (T 130) (Plain (Zeros [0;1;1;1]));
  (*1835*) AddTo (T 130) (Plain (Einsum [(n_t1,[0;1]); (n_l2,[2;3;4;0])] [4;2;3;1]));
  (*1836*) Assign (T 131) (Plain (Zeros [0;0;1;1]));
  (*1837*) AddTo (T 131) (Times (Einsum [(n_t2,[0;1;2;3])] [0;1;3;2]) (-1) 1);
  (*1838*) AddTo (T 131) (Plain (Einsum [(n_t2,[0;1;2;3])] [0;1;2;3]));
  (*1839*) Assign (T 132) (Plain (Zeros [0;0;0;1;1;1]));
  (*1840*) AddTo (T 132) (Times (Einsum [(n_l3,[0;1;2;3;4;5])] [3;5;4;0;2;1]) (-1) 1);
  (*1841*) AddTo (T 132) (Times (Einsum [(n_l3,[0;1;2;3;4;5])] [4;5;3;0;2;1]) (3333333333333333) 10000000000000000);
  (*1842*) AddTo (T 132) (Times (Einsum [(n_l3,[0;1;2;3;4;5])] [4;3;5;0;1;2]) (3333333333333333) 10000000000000000);
  (*1843*) Assign (T 133) (Plain (Zeros [0;1;1;1]));
  (*1844*) AddTo (T 133) (Plain (Einsum [(T 130,[0;1;2;3])] [0;1;2;3]));
  (*1845*) AddTo (T 133) (Times (Einsum [(T 131,[0;1;2;3]); (n_l3,[4;5;2;1;6;0])] [6;4;5;3]) (-1) 8);
  (*1846*) AddTo (T 133) (Times (Einsum [(n_t2,[0;1;2;3]); (T 132,[0;4;1;5;2;6])] [4;5;6;3]) (3) 4);
  (*1847*) Del (T 132);
  (*1848*) AddTo n_l1new (Times (Einsum [(n_v'vvvv,[0;1;2;3]); (T 133,[4;1;2;3])] [0;4]) (2) 1);
  (*1849*) Del (T 133);
  (*1850*) Assign (T 134) (Plain (Zeros [0;0;0;1;1;1]));
  (*1851*) AddTo (T 134) (Times (Einsum [(n_l3,[0;1;2;3;4;5])] [3;5;4;0;2;1]) (-1) 1);
  (*1852*) AddTo (T 134) (Plain (Einsum [(n_l3,[0;1;2;3;4;5])] [4;5;3;0;2;1]));
  (*1853*) AddTo (T 134) (Plain (Einsum [(n_l3,[0;1;2;3;4;5])] [4;3;5;0;1;2]));
  (*1854*) Assign (T 135) (Plain (Zeros [0;1;1;1]));
  (*1855*) AddTo (T 135) (Plain (Einsum [(T 130,[0;1;2;3])] [0;1;2;3]));
  (*1856*) Del (T 130);
  (*1857*) AddTo (T 135) (Times (Einsum [(T 131,[0;1;2;3]); (n_l3,[4;5;2;1;6;0])] [6;4;5;3]) (-3) 4);
  (*1858*) AddTo (T 135) (Times (Einsum [(n_t2,[0;1;2;3]); (T 134,[0;4;1;5;2;6])] [4;5;6;3]) (1) 2);
  (*1859*) Del (T 134);
  (*1860*) AddTo n_l1new (Times (Einsum [(n_v'vvvv,[0;1;2;3]); (T 135,[4;2;1;3])] [0;4]) (-1) 1);
  (*1861*) Del (T 135);
  (*1862*) Assign (T 136) (Plain (Zeros [0;0;0;1]));
  (*1863*) AddTo (T 136) (Plain (Einsum [(n_l2,[0;1;2;3]); (n_t3,[4;5;3;6;0;1])] [2;4;5;6]));
  (*1864*) Assign (T 137) (Plain (Zeros [0;0;0;1]));
  (*1865*) AddTo (T 137) (Plain (Einsum [(n_l1,[0;1]); (n_t2,[2;3;4;0])] [1;2;3;4]));
  (*1866*) Assign (T 138) (Plain (Zeros [0;0;0;0]));
  (*1867*) AddTo (T 138) (Plain (Einsum [(n_t1,[0;1]); (T 123,[2;3;4;1])] [3;2;4;0]));
  (*1868*) AddTo n_l2new (Plain (Einsum [(n_v'ovov,[0;1;2;3]); (T 138,[4;5;0;2])] [3;1;5;4]));
  (*1869*) Assign (T 139) (Plain (Zeros [0;0;0;1]));
  (*1870*) AddTo (T 139) (Plain (Einsum [(n_t1,[0;1]); (T 138,[0;2;3;4])] [2;4;3;1]));
  (*1871*) Assign (T 140) (Plain (Zeros [0;0;0;0]));
  (*1872*) AddTo (T 140) (Plain (Einsum [(n_l3,[0;1;2;3;4;5]); (n_t3,[6;4;7;0;1;2])] [3;5;6;7]));
  (*1873*) Assign (T 141) (Plain (Zeros [0;0;0;1]));
  (*1874*) AddTo (T 141) (Plain (Einsum [(n_t1,[0;1]); (T 140,[0;2;3;4])] [2;4;3;1]));
  (*1875*) Assign (T 142) (Plain (Zeros [0;0;0;1;1;1]));
  (*1876*) AddTo (T 142) (Times (Einsum [(n_l3,[0;1;2;3;4;5])] [3;5;4;0;2;1]) (-1) 1);
  (*1877*) AddTo (T 142) (Plain (Einsum [(n_l3,[0;1;2;3;4;5])] [5;3;4;1;0;2]));
  (*1878*) Assign (T 143) (Plain (Zeros [0;0;0;0;1;1]));
  (*1879*) AddTo (T 143) (Plain (Einsum [(n_t1,[0;1]); (T 142,[2;3;4;1;5;6])] [0;2;3;4;5;6]));
  (*1880*) AddTo n_l3new (Times (Einsum [(T 9,[0;1;2;3]); (T 143,[2;4;5;0;6;7])] [6;3;7;5;1;4]) (-1) 1);
  (*1881*) Assign (T 144) (Plain (Zeros [0;0;0;0;0;1]));
  (*1882*) AddTo (T 144) (Times (Einsum [(n_t1,[0;1]); (T 143,[2;3;4;5;1;6])] [0;4;3;5;2;6]) (-1) 1);
  (*1883*) Del (T 143);
  (*1884*) Assign (T 145) (Plain (Zeros [0;0;0;1]));
  (*1885*) AddTo (T 145) (Times (Einsum [(n_t2,[0;1;2;3]); (T 144,[4;5;0;1;6;3])] [5;4;6;2]) (-1) 4);
  (*1886*) Del (T 144);
  (*1887*) Assign (T 146) (Plain (Zeros [0;0;0;1;1;1]));
  (*1888*) AddTo (T 146) (Plain (Einsum [(n_l3,[0;1;2;3;4;5])] [5;3;4;0;1;2]));
  (*1889*) AddTo (T 146) (Plain (Einsum [(n_l3,[0;1;2;3;4;5])] [3;5;4;0;2;1]));
  (*1890*) Assign (T 147) (Plain (Zeros [0;1;1;1]));
  (*1891*) AddTo (T 147) (Plain (Einsum [(n_t2,[0;1;2;3]); (T 146,[1;4;0;5;2;6])] [4;3;5;6]));
  (*1892*) Del (T 146);
  (*1893*) Assign (T 148) (Plain (Zeros [0;0;0;1]));
  (*1894*) AddTo (T 148) (Times (Einsum [(n_t2,[0;1;2;3]); (T 147,[4;5;3;2])] [0;1;4;5]) (1) 4);
  (*1895*) Del (T 147);
  (*1896*) Assign (T 149) (Plain (Zeros [0;0;0;1]));
  (*1897*) AddTo (T 149) (Times (Einsum [(T 141,[0;1;2;3])] [0;1;2;3]) (24999999999999) 200000000000000);
  (*1898*) Del (T 141);
  (*1899*) AddTo (T 149) (Times (Einsum [(T 145,[0;1;2;3])] [0;1;2;3]) (-1) 1);
  (*1900*) Del (T 145);
  (*1901*) AddTo (T 149) (Plain (Einsum [(T 148,[0;1;2;3])] [2;1;0;3]));
  (*1902*) Del (T 148);
  (*1903*) Assign (T 150) (Plain (Zeros [0;1;1;1]));
  (*1904*) AddTo (T 150) (Plain (Einsum [(n_t2,[0;1;2;3]); (n_l3,[4;5;2;0;1;6])] [6;4;5;3]));
  (*1905*) Assign (T 151) (Plain (Zeros [0;0;0;1]));
  (*1906*) AddTo (T 151) (Plain (Einsum [(n_t2,[0;1;2;3]); (T 150,[4;2;3;5])] [4;0;1;5]));
  (*1907*) Assign (T 152) (Plain (Zeros [0;0;0;0;0;1]));
  (*1908*) AddTo (T 152) (Plain (Einsum [(n_t1,[0;1]); (T 119,[2;3;4;5;6;1])] [2;3;4;0;5;6]));
  (*1909*) Assign (T 153) (Plain (Zeros [0;0;0;1]));
  (*1910*) AddTo (T 153) (Plain (Einsum [(n_t2,[0;1;2;3]); (T 152,[1;4;0;5;6;3])] [4;5;6;2]));
  (*1911*) Assign (T 154) (Plain (Zeros [0;0;0;1]));
  (*1912*) AddTo (T 154) (Times (Einsum [(T 151,[0;1;2;3])] [0;1;2;3]) (1) 4);
  (*1913*) Del (T 151);
  (*1914*) AddTo (T 154) (Times (Einsum [(T 153,[0;1;2;3])] [0;1;2;3]) (-1) 4);
  (*1915*) Del (T 153);
  (*1916*) Assign (T 155) (Plain (Zeros [0;0;0;1]));
  (*1917*) AddTo (T 155) (Times (Einsum [(T 131,[0;1;2;3]); (T 152,[0;1;4;5;6;2])] [4;5;6;3]) (3) 8);
  (*1918*) Assign (T 156) (Plain (Zeros [0;1;1;1]));
  (*1919*) AddTo (T 156) (Plain (Einsum [(T 118,[0;1;2;3]); (n_l3,[4;5;2;1;6;0])] [6;4;5;3]));
  (*1920*) Assign (T 157) (Plain (Zeros [0;0;0;1]));
  (*1921*) AddTo (T 157) (Times (Einsum [(n_t2,[0;1;2;3]); (T 156,[4;3;2;5])] [0;1;4;5]) (-3) 8);
  (*1922*) Assign (T 158) (Plain (Zeros [0;0;0;1]));
  (*1923*) AddTo (T 158) (Plain (Einsum [(T 155,[0;1;2;3])] [0;1;2;3]));
  (*1924*) Del (T 155);
  (*1925*) AddTo (T 158) (Plain (Einsum [(T 157,[0;1;2;3])] [2;1;0;3]));
  (*1926*) Del (T 157);
  (*1927*) Assign (T 159) (Plain (Zeros [0;0;0;1;1;1]));
  (*1928*) AddTo (T 159) (Times (Einsum [(n_t3,[0;1;2;3;4;5])] [0;2;1;5;4;3]) (1) 5);
  (*1929*) AddTo (T 159) (Plain (Einsum [(n_t3,[0;1;2;3;4;5])] [0;2;1;3;5;4]));
  (*1930*) AddTo (T 159) (Times (Einsum [(n_t3,[0;1;2;3;4;5])] [0;2;1;4;5;3]) (-1) 5);
  (*1931*) AddTo (T 159) (Times (Einsum [(n_t3,[0;1;2;3;4;5])] [0;1;2;5;4;3]) (-1) 5);
  (*1932*) AddTo (T 159) (Times (Einsum [(n_t3,[0;1;2;3;4;5])] [0;1;2;3;4;5]) (1) 5);
  (*1933*) AddTo (T 159) (Times (Einsum [(n_t3,[0;1;2;3;4;5])] [1;0;2;5;3;4]) (-1) 5);
  (*1934*) AddTo (T 159) (Times (Einsum [(n_t3,[0;1;2;3;4;5])] [1;0;2;3;4;5]) (-1) 5);
  (*1935*) AddTo (T 159) (Plain (Einsum [(n_t3,[0;1;2;3;4;5])] [1;0;2;4;3;5]));
  (*1936*) Assign (T 160) (Plain (Zeros [0;0;0;1;1;1]));
  (*1937*) AddTo (T 160) (Plain (Einsum [(n_l3,[0;1;2;3;4;5])] [3;5;4;0;2;1]));
  (*1938*) AddTo (T 160) (Plain (Einsum [(n_l3,[0;1;2;3;4;5])] [3;5;4;1;0;2]));
  (*1939*) Assign (T 161) (Plain (Zeros [0;0;0;0;1;1]));
  (*1940*) AddTo (T 161) (Plain (Einsum [(n_t1,[0;1]); (T 160,[2;3;4;1;5;6])] [0;2;3;4;5;6]));
  (*1941*) Assign (T 162) (Plain (Zeros [0;0;0;1;1;1]));
  (*1942*) AddTo (T 162) (Plain (Einsum [(n_t3,[0;1;2;3;4;5])] [0;2;1;3;5;4]));
  (*1943*) AddTo (T 162) (Plain (Einsum [(n_t3,[0;1;2;3;4;5])] [0;2;1;4;3;5]));
  (*1944*) AddTo (T 162) (Plain (Einsum [(n_t3,[0;1;2;3;4;5])] [0;1;2;5;3;4]));
  (*1945*) Assign (T 163) (Plain (Zeros [0;0;0;1;1;1]));
  (*1946*) AddTo (T 163) (Times (Einsum [(n_l3,[0;1;2;3;4;5])] [3;5;4;0;2;1]) (-3333333333333333) 10000000000000000);
  (*1947*) AddTo (T 163) (Times (Einsum [(n_l3,[0;1;2;3;4;5])] [5;3;4;1;0;2]) (3333333333333333) 10000000000000000);
  (*1948*) AddTo (T 163) (Plain (Einsum [(n_l3,[0;1;2;3;4;5])] [3;4;5;1;0;2]));
  (*1949*) AddTo (T 163) (Times (Einsum [(n_l3,[0;1;2;3;4;5])] [4;3;5;1;0;2]) (-3333333333333333) 10000000000000000);
  (*1950*) Assign (T 164) (Plain (Zeros [0;0;0;1;1;1]));
  (*1951*) AddTo (T 164) (Plain (Einsum [(n_l3,[0;1;2;3;4;5])] [3;5;4;0;2;1]));
  (*1952*) AddTo (T 164) (Times (Einsum [(n_l3,[0;1;2;3;4;5])] [5;3;4;1;0;2]) (-1) 1);
  (*1953*) AddTo (T 164) (Times (Einsum [(n_l3,[0;1;2;3;4;5])] [3;4;5;1;0;2]) (-1) 1);
  (*1954*) AddTo (T 164) (Times (Einsum [(n_l3,[0;1;2;3;4;5])] [4;3;5;1;0;2]) (3) 1);
  (*1955*) Assign (T 165) (Plain (Zeros [0;0;0;1;1;1]));
  (*1956*) AddTo (T 165) (Plain (Einsum [(n_t3,[0;1;2;3;4;5])] [0;2;1;5;4;3]));
  (*1957*) AddTo (T 165) (Times (Einsum [(n_t3,[0;1;2;3;4;5])] [0;2;1;3;5;4]) (2) 1);
  (*1958*) AddTo (T 165) (Times (Einsum [(n_t3,[0;1;2;3;4;5])] [0;2;1;3;4;5]) (-1) 1);
  (*1959*) Assign (T 166) (Plain (Zeros [0;0;0;1]));
  (*1960*) AddTo (T 166) (Plain (Einsum [(n_t2,[0;1;2;3]); (n_l3,[4;2;3;5;6;1])] [5;6;0;4]));
  (*1961*) Assign (T 167) (Plain (Zeros [0;0;0;1]));
  (*1962*) AddTo (T 167) (Times (Einsum [(T 126,[0;1;2;3]); (n_l3,[4;2;3;5;0;6])] [6;5;1;4]) (3) 16);
  (*1963*) Assign (T 168) (Plain (Zeros [0;0;0;1]));
  (*1964*) AddTo (T 168) (Plain (Einsum [(n_t2,[0;1;2;3]); (n_l3,[4;3;2;5;6;1])] [5;6;0;4]));
  (*1965*) Assign (T 169) (Plain (Zeros [0;0;0;1;1;1]));
  (*1966*) AddTo (T 169) (Times (Einsum [(n_l3,[0;1;2;3;4;5])] [3;5;4;0;2;1]) (13333333333333333) 10000000000000000);
  (*1967*) AddTo (T 169) (Times (Einsum [(n_l3,[0;1;2;3;4;5])] [5;3;4;1;0;2]) (-1) 1);
  (*1968*) Assign (T 170) (Plain (Zeros [0;0;0;1]));
  (*1969*) AddTo (T 170) (Times (Einsum [(T 123,[0;1;2;3])] [0;1;2;3]) (1) 2);
  (*1970*) AddTo (T 170) (Times (Einsum [(T 123,[0;1;2;3])] [1;0;2;3]) (-1) 1);
  (*1971*) AddTo (T 170) (Times (Einsum [(T 166,[0;1;2;3])] [0;1;2;3]) (1) 16);
  (*1972*) AddTo (T 170) (Times (Einsum [(T 166,[0;1;2;3])] [1;0;2;3]) (-3) 4);
  (*1973*) AddTo (T 170) (Plain (Einsum [(T 167,[0;1;2;3])] [1;0;2;3]));
  (*1974*) AddTo (T 170) (Times (Einsum [(T 167,[0;1;2;3])] [0;1;2;3]) (-3) 1);
  (*1975*) Del (T 167);
  (*1976*) AddTo (T 170) (Times (Einsum [(T 168,[0;1;2;3])] [0;1;2;3]) (-1) 16);
  (*1977*) AddTo (T 170) (Times (Einsum [(T 168,[0;1;2;3])] [1;0;2;3]) (1) 4);
  (*1978*) AddTo (T 170) (Times (Einsum [(T 118,[0;1;2;3]); (T 169,[0;4;5;2;3;6])] [4;5;1;6]) (3) 16);
  (*1979*) Assign (T 171) (Plain (Zeros [0;0;0;0]));
  (*1980*) AddTo (T 171) (Plain (Einsum [(n_l3,[0;1;2;3;4;5]); (n_t3,[6;7;4;1;0;2])] [5;3;6;7]));
  (*1981*) Assign (T 172) (Plain (Zeros [0;0;0;0]));
  (*1982*) AddTo (T 172) (Plain (Einsum [(n_l3,[0;1;2;3;4;5]); (n_t3,[6;7;3;2;1;0])] [5;4;6;7]));
  (*1983*) Assign (T 173) (Plain (Zeros [0;0;0;0]));
  (*1984*) AddTo (T 173) (Plain (Einsum [(n_l3,[0;1;2;3;4;5]); (n_t3,[6;7;3;2;0;1])] [5;4;6;7]));
  (*1985*) Assign (T 174) (Plain (Zeros [0;0;0;0]));
  (*1986*) AddTo (T 174) (Plain (Einsum [(n_l3,[0;1;2;3;4;5]); (n_t3,[6;7;3;1;2;0])] [5;4;6;7]));
  (*1987*) Assign (T 175) (Plain (Zeros [0;0;0;0]));
  (*1988*) AddTo (T 175) (Plain (Einsum [(n_t1,[0;1]); (T 168,[2;3;4;1])] [2;3;0;4]));
  (*1989*) Assign (T 176) (Plain (Zeros [0;0;0;0]));
  (*1990*) AddTo (T 176) (Times (Einsum [(T 173,[0;1;2;3])] [0;1;2;3]) (8333333333333) 50000000000000);
  (*1991*) AddTo (T 176) (Times (Einsum [(T 174,[0;1;2;3])] [0;1;2;3]) (8333333333333) 50000000000000);
  (*1992*) AddTo (T 176) (Plain (Einsum [(T 175,[0;1;2;3])] [0;1;2;3]));
  (*1993*) Del (T 175);
  (*1994*) Assign (T 177) (Plain (Zeros [0;0;0;0]));
  (*1995*) AddTo (T 177) (Plain (Einsum [(n_t1,[0;1]); (T 166,[2;3;4;1])] [2;3;0;4]));
  (*1996*) Assign (T 178) (Plain (Zeros [0;0;0;1;1;1]));
  (*1997*) AddTo (T 178) (Times (Einsum [(n_t3,[0;1;2;3;4;5])] [0;2;1;3;5;4]) (-1) 1);
  (*1998*) AddTo (T 178) (Plain (Einsum [(n_t3,[0;1;2;3;4;5])] [0;2;1;4;5;3]));
  (*1999*) Assign (T 179) (Plain (Zeros [0;0;0;0]));
  (*2000*) AddTo (T 179) (Times (Einsum [(n_l3,[0;1;2;3;4;5]); (T 178,[4;6;7;0;2;1])] [3;5;6;7]) (8333333333333) 50000000000000);
  (*2001*) Assign (T 180) (Plain (Zeros [0;0;1;1]));
  (*2002*) AddTo (T 180) (Times (Einsum [(n_t2,[0;1;2;3])] [0;1;3;2]) (-1) 1);
  (*2003*) AddTo (T 180) (Times (Einsum [(n_t2,[0;1;2;3])] [0;1;2;3]) (3) 1);
  (*2004*) Assign (T 181) (Plain (Zeros [0;0;0;1]));
  (*2005*) AddTo (T 181) (Times (Einsum [(T 180,[0;1;2;3]); (n_l3,[4;2;3;5;0;6])] [5;6;1;4]) (3333333333333333) 10000000000000000);
  (*2006*) AddTo (T 181) (Times (Einsum [(T 131,[0;1;2;3]); (n_l3,[3;4;2;5;6;0])] [6;5;1;4]) (3333333333333333) 10000000000000000);
  (*2007*) Assign (T 182) (Plain (Zeros [0;0;0;0]));
  (*2008*) AddTo (T 182) (Times (Einsum [(T 171,[0;1;2;3])] [1;0;2;3]) (8333333333333) 50000000000000);
  (*2009*) AddTo (T 182) (Times (Einsum [(T 172,[0;1;2;3])] [0;1;2;3]) (58333333333331) 50000000000000);
  (*2010*) AddTo (T 182) (Times (Einsum [(T 172,[0;1;2;3])] [1;0;2;3]) (-8333333333333) 50000000000000);
  (*2011*) AddTo (T 182) (Times (Einsum [(T 176,[0;1;2;3])] [0;1;2;3]) (-1) 1);
  (*2012*) AddTo (T 182) (Plain (Einsum [(T 176,[0;1;2;3])] [1;0;2;3]));
  (*2013*) AddTo (T 182) (Times (Einsum [(T 177,[0;1;2;3])] [0;1;2;3]) (3) 1);
  (*2014*) AddTo (T 182) (Times (Einsum [(T 177,[0;1;2;3])] [1;0;2;3]) (-1) 1);
  (*2015*) AddTo (T 182) (Plain (Einsum [(T 179,[0;1;2;3])] [1;0;2;3]));
  (*2016*) AddTo (T 182) (Times (Einsum [(n_t1,[0;1]); (T 181,[2;3;4;1])] [2;3;0;4]) (3) 1);
  (*2017*) Del (T 181);
  (*2018*) Assign (T 183) (Plain (Zeros [0;0]));
  (*2019*) AddTo (T 183) (Plain (Einsum [(n_l3,[0;1;2;3;4;5]); (n_t3,[3;6;5;0;1;2])] [4;6]));
  (*2020*) Assign (T 184) (Plain (Zeros [0;0]));
  (*2021*) AddTo (T 184) (Plain (Einsum [(n_l3,[0;1;2;3;4;5]); (n_t3,[6;4;3;1;2;0])] [5;6]));
  (*2022*) Assign (T 185) (Plain (Zeros [0;0;0;1;1;1]));
  (*2023*) AddTo (T 185) (Times (Einsum [(n_l3,[0;1;2;3;4;5])] [3;5;4;0;2;1]) (-1) 1);
  (*2024*) AddTo (T 185) (Plain (Einsum [(n_l3,[0;1;2;3;4;5])] [3;4;5;0;2;1]));
  (*2025*) Assign (T 186) (Plain (Zeros [0;0;0;1;1;1]));
  (*2026*) AddTo (T 186) (Plain (Einsum [(n_t3,[0;1;2;3;4;5])] [0;2;1;3;5;4]));
  (*2027*) AddTo (T 186) (Times (Einsum [(n_t3,[0;1;2;3;4;5])] [0;2;1;4;5;3]) (-1) 1);
  (*2028*) Assign (T 187) (Plain (Zeros [0;0]));
  (*2029*) AddTo (T 187) (Times (Einsum [(T 185,[0;1;2;3;4;5]); (T 186,[1;6;0;3;4;5])] [2;6]) (8333333333333) 200000000000000);
  (*2030*) Assign (T 188) (Plain (Zeros [0;0]));
  (*2031*) AddTo (T 188) (Times (Einsum [(n_t3,[0;1;2;3;4;5]); (T 185,[1;2;6;5;4;3])] [0;6]) (8333333333333) 200000000000000);
  (*2032*) Assign (T 189) (Plain (Zeros [0;0;0;1;1;1]));
  (*2033*) AddTo (T 189) (Plain (Einsum [(n_t3,[0;1;2;3;4;5])] [0;2;1;3;5;4]));
  (*2034*) AddTo (T 189) (Times (Einsum [(n_t3,[0;1;2;3;4;5])] [0;2;1;4;5;3]) (-892857142857143) 6250000000000000);
  (*2035*) Assign (T 190) (Plain (Zeros [0;0]));
  (*2036*) AddTo (T 190) (Times (Einsum [(n_l3,[0;1;2;3;4;5]); (T 189,[3;6;4;0;2;1])] [5;6]) (58333333333331) 200000000000000);
  (*2037*) Assign (T 191) (Plain (Zeros [0;0;1;1]));
  (*2038*) AddTo (T 191) (Plain (Einsum [(n_t2,[0;1;2;3])] [0;1;3;2]));
  (*2039*) AddTo (T 191) (Times (Einsum [(n_t2,[0;1;2;3])] [0;1;2;3]) (-1) 2);
  (*2040*) Assign (T 192) (Plain (Zeros [0;0]));
  (*2041*) AddTo (T 192) (Plain (Einsum [(n_l2,[0;1;2;3]); (T 191,[3;4;0;1])] [2;4]));
  (*2042*) Assign (T 193) (Plain (Zeros [0;0]));
  (*2043*) AddTo (T 193) (Times (Einsum [(T 183,[0;1])] [0;1]) (24999999999999) 200000000000000);
  (*2044*) AddTo (T 193) (Times (Einsum [(T 184,[0;1])] [0;1]) (-8333333333333) 200000000000000);
  (*2045*) AddTo (T 193) (Times (Einsum [(T 187,[0;1])] [0;1]) (-1) 1);
  (*2046*) Del (T 187);
  (*2047*) AddTo (T 193) (Plain (Einsum [(T 188,[0;1])] [1;0]));
  (*2048*) Del (T 188);
  (*2049*) AddTo (T 193) (Plain (Einsum [(T 190,[0;1])] [0;1]));
  (*2050*) Del (T 190);
  (*2051*) AddTo (T 193) (Plain (Einsum [(T 192,[0;1])] [0;1]));
  (*2052*) Assign (T 194) (Plain (Zeros [0;0;0;1]));
  (*2053*) AddTo (T 194) (Times (Einsum [(T 136,[0;1;2;3])] [0;1;2;3]) (3) 4);
  (*2054*) AddTo (T 194) (Times (Einsum [(n_t3,[0;1;2;3;4;5]); (T 113,[1;2;6;7;4;5])] [6;0;7;3]) (-1) 8);
  (*2055*) AddTo (T 194) (Times (Einsum [(n_t3,[0;1;2;3;4;5]); (T 119,[1;2;6;7;5;4])] [6;0;7;3]) (-1) 8);
  (*2056*) AddTo (T 194) (Plain (Einsum [(T 137,[0;1;2;3])] [0;1;2;3]));
  (*2057*) AddTo (T 194) (Times (Einsum [(T 137,[0;1;2;3])] [0;2;1;3]) (-1) 2);
  (*2058*) Del (T 137);
  (*2059*) AddTo (T 194) (Times (Einsum [(T 123,[0;1;2;3])] [0;1;2;3]) (-1) 2);
  (*2060*) AddTo (T 194) (Plain (Einsum [(T 123,[0;1;2;3])] [1;0;2;3]));
  (*2061*) AddTo (T 194) (Times (Einsum [(T 139,[0;1;2;3])] [0;1;2;3]) (1) 2);
  (*2062*) AddTo (T 194) (Times (Einsum [(T 139,[0;1;2;3])] [0;2;1;3]) (-1) 1);
  (*2063*) Del (T 139);
  (*2064*) AddTo (T 194) (Plain (Einsum [(T 149,[0;1;2;3])] [0;1;2;3]));
  (*2065*) AddTo (T 194) (Times (Einsum [(T 149,[0;1;2;3])] [0;2;1;3]) (-1) 1);
  (*2066*) Del (T 149);
  (*2067*) AddTo (T 194) (Times (Einsum [(T 154,[0;1;2;3])] [0;1;2;3]) (-1) 1);
  (*2068*) AddTo (T 194) (Times (Einsum [(T 154,[0;1;2;3])] [0;2;1;3]) (3) 1);
  (*2069*) Del (T 154);
  (*2070*) AddTo (T 194) (Times (Einsum [(T 158,[0;1;2;3])] [0;1;2;3]) (-1) 1);
  (*2071*) AddTo (T 194) (Times (Einsum [(T 158,[0;1;2;3])] [0;2;1;3]) (3333333333333333) 10000000000000000);
  (*2072*) Del (T 158);
  (*2073*) AddTo (T 194) (Times (Einsum [(T 113,[0;1;2;3;4;5]); (T 159,[0;6;2;4;7;5])] [1;6;3;7]) (5) 8);
  (*2074*) AddTo (T 194) (Times (Einsum [(T 161,[0;1;2;3;4;5]); (T 162,[1;6;2;5;4;7])] [3;6;0;7]) (1) 8);
  (*2075*) AddTo (T 194) (Times (Einsum [(n_t2,[0;1;2;3]); (T 163,[1;4;5;2;3;6])] [4;5;0;6]) (3) 4);
  (*2076*) Del (T 163);
  (*2077*) AddTo (T 194) (Times (Einsum [(n_t2,[0;1;2;3]); (T 164,[1;4;5;3;2;6])] [4;5;0;6]) (1) 4);
  (*2078*) Del (T 164);
  (*2079*) AddTo (T 194) (Times (Einsum [(n_l2,[0;1;2;3]); (T 165,[2;4;5;1;6;0])] [3;4;5;6]) (-1) 8);
  (*2080*) Del (T 165);
  (*2081*) AddTo (T 194) (Times (Einsum [(T 121,[0;1;2;3]); (T 170,[4;0;5;2])] [4;1;5;3]) (-2) 1);
  (*2082*) Del (T 170);
  (*2083*) AddTo (T 194) (Times (Einsum [(n_t1,[0;1]); (T 182,[2;0;3;4])] [2;4;3;1]) (-1) 4);
  (*2084*) Del (T 182);
  (*2085*) AddTo (T 194) (Times (Einsum [(n_t1,[0;1]); (T 193,[2;3])] [2;0;3;1]) (2) 1);
  (*2086*) AddTo n_l1new (Times (Einsum [(n_v'ovov,[0;1;2;3]); (T 194,[4;0;2;1])] [3;4]) (-2) 1);
  (*2087*) Del (T 194);
  (*2088*) Assign (T 195) (Plain (Zeros [0;0;1;1]));
  (*2089*) AddTo (T 195) (Plain (Einsum [(n_l3,[0;1;2;3;4;5]); (n_t3,[6;5;3;7;2;1])] [4;6;0;7]));
  (*2090*) Assign (T 196) (Plain (Zeros [0;0;1;1]));
  (*2091*) AddTo (T 196) (Plain (Einsum [(n_l3,[0;1;2;3;4;5]); (n_t3,[6;3;5;7;2;0])] [4;6;1;7]));
  (*2092*) Assign (T 197) (Plain (Zeros [0;0;0;1;1;1]));
  (*2093*) AddTo (T 197) (Plain (Einsum [(n_t3,[0;1;2;3;4;5])] [0;2;1;3;5;4]));
  (*2094*) AddTo (T 197) (Plain (Einsum [(n_t3,[0;1;2;3;4;5])] [0;2;1;4;3;5]));
  (*2095*) Assign (T 198) (Plain (Zeros [0;0;1;1]));
  (*2096*) AddTo (T 198) (Times (Einsum [(n_l2,[0;1;2;3])] [3;2;0;1]) (-1) 2);
  (*2097*) AddTo (T 198) (Plain (Einsum [(n_l2,[0;1;2;3])] [2;3;0;1]));
  (*2098*) Assign (T 199) (Plain (Zeros [0;0;1;1]));
  (*2099*) AddTo (T 199) (Times (Einsum [(n_l2,[0;1;2;3])] [2;3;0;1]) (8) 1);
  (*2100*) AddTo (T 199) (Plain (Einsum [(n_l3,[0;1;2;3;4;5]); (n_t3,[3;6;5;2;7;1])] [4;6;0;7]));
  (*2101*) AddTo (T 199) (Plain (Einsum [(T 112,[0;1;2;3])] [0;1;2;3]));
  (*2102*) Del (T 112);
  (*2103*) AddTo (T 199) (Times (Einsum [(T 195,[0;1;2;3])] [0;1;2;3]) (-1) 1);
  (*2104*) AddTo (T 199) (Times (Einsum [(T 196,[0;1;2;3])] [0;1;2;3]) (-1) 1);
  (*2105*) AddTo (T 199) (Times (Einsum [(n_l3,[0;1;2;3;4;5]); (T 159,[5;6;4;2;7;1])] [3;6;0;7]) (5) 1);
  (*2106*) Del (T 159);
  (*2107*) AddTo (T 199) (Plain (Einsum [(T 160,[0;1;2;3;4;5]); (T 197,[1;6;0;3;4;7])] [2;6;5;7]));
  (*2108*) AddTo (T 199) (Times (Einsum [(T 121,[0;1;2;3]); (T 198,[0;4;2;5])] [4;1;5;3]) (16) 1);
  (*2109*) AddTo n_l1new (Times (Einsum [(n_v'ovvv,[0;1;2;3]); (T 199,[4;0;3;1])] [2;4]) (1) 4);
  (*2110*) Del (T 199);
  (*2111*) Assign (T 200) (Plain (Zeros [0;0;0;1]));
  (*2112*) AddTo (T 200) (Times (Einsum [(T 118,[0;1;2;3]); (n_l3,[2;4;3;0;5;6])] [6;5;1;4]) (1) 2);
  (*2113*) Assign (T 201) (Plain (Zeros [0;0;0;1]));
  (*2114*) AddTo (T 201) (Plain (Einsum [(T 123,[0;1;2;3])] [0;1;2;3]));
  (*2115*) AddTo (T 201) (Times (Einsum [(T 123,[0;1;2;3])] [1;0;2;3]) (-2) 1);
  (*2116*) AddTo (T 201) (Times (Einsum [(T 124,[0;1;2;3])] [0;1;2;3]) (-1) 2);
  (*2117*) AddTo (T 201) (Times (Einsum [(T 124,[0;1;2;3])] [1;0;2;3]) (3) 2);
  (*2118*) AddTo (T 201) (Times (Einsum [(T 125,[0;1;2;3])] [0;1;2;3]) (1) 2);
  (*2119*) AddTo (T 201) (Times (Einsum [(T 125,[0;1;2;3])] [1;0;2;3]) (-1) 2);
  (*2120*) AddTo (T 201) (Times (Einsum [(T 126,[0;1;2;3]); (n_l3,[4;2;3;5;0;6])] [5;6;1;4]) (3) 2);
  (*2121*) AddTo (T 201) (Plain (Einsum [(T 200,[0;1;2;3])] [0;1;2;3]));
  (*2122*) Assign (T 202) (Plain (Zeros [0;0;1;1]));
  (*2123*) AddTo (T 202) (Times (Einsum [(n_l2,[0;1;2;3])] [3;2;0;1]) (-2) 1);
  (*2124*) AddTo (T 202) (Times (Einsum [(T 114,[0;1;2;3])] [0;1;2;3]) (2) 1);
  (*2125*) Del (T 114);
  (*2126*) AddTo (T 202) (Times (Einsum [(T 131,[0;1;2;3]); (T 161,[4;1;0;5;2;6])] [5;4;6;3]) (-1) 1);
  (*2127*) Del (T 161);
  (*2128*) AddTo (T 202) (Times (Einsum [(T 191,[0;1;2;3]); (T 119,[4;1;0;5;2;6])] [4;5;6;3]) (4) 1);
  (*2129*) AddTo (T 202) (Times (Einsum [(n_t1,[0;1]); (T 201,[0;2;3;4])] [2;3;4;1]) (2) 1);
  (*2130*) Del (T 201);
  (*2131*) AddTo n_l1new (Times (Einsum [(n_v'ovvv,[0;1;2;3]); (T 202,[4;0;3;1])] [2;4]) (1) 2);
  (*2132*) Del (T 202);
  (*2133*) Assign (T 203) (Plain (Zeros [0;0;0;1]));
  (*2134*) AddTo (T 203) (Plain (Einsum [(n_l2,[0;1;2;3]); (n_t3,[4;3;5;6;1;0])] [2;4;5;6]));
  (*2135*) Assign (T 204) (Plain (Zeros [0;0;0;0]));
  (*2136*) AddTo (T 204) (Plain (Einsum [(n_l2,[0;1;2;3]); (n_t2,[4;5;0;1])] [2;3;4;5]));
  (*2137*) AddTo n_l2new (Plain (Einsum [(n_v'ovov,[0;1;2;3]); (T 204,[4;5;0;2])] [1;3;4;5]));
  (*2138*) Assign (T 205) (Plain (Zeros [0;0;0;1]));
  (*2139*) AddTo (T 205) (Plain (Einsum [(n_t1,[0;1]); (T 204,[2;0;3;4])] [2;3;4;1]));
  (*2140*) Assign (T 206) (Plain (Zeros [0;0;0;1;1;1]));
  (*2141*) AddTo (T 206) (Times (Einsum [(n_t3,[0;1;2;3;4;5])] [0;2;1;3;5;4]) (-1) 1);
  (*2142*) AddTo (T 206) (Plain (Einsum [(n_t3,[0;1;2;3;4;5])] [0;2;1;4;5;3]));
  (*2143*) AddTo (T 206) (Plain (Einsum [(n_t3,[0;1;2;3;4;5])] [0;2;1;3;4;5]));
  (*2144*) AddTo (T 206) (Times (Einsum [(n_t3,[0;1;2;3;4;5])] [0;1;2;4;3;5]) (2) 1);
  (*2145*) Assign (T 207) (Plain (Zeros [0;0;0;1;1;1]));
  (*2146*) AddTo (T 207) (Plain (Einsum [(n_t3,[0;1;2;3;4;5])] [0;2;1;5;4;3]));
  (*2147*) AddTo (T 207) (Times (Einsum [(n_t3,[0;1;2;3;4;5])] [0;2;1;3;5;4]) (3333333333333333) 5000000000000000);
  (*2148*) AddTo (T 207) (Times (Einsum [(n_t3,[0;1;2;3;4;5])] [0;2;1;3;4;5]) (-1) 1);
  (*2149*) Assign (T 208) (Plain (Zeros [0;0;0;1]));
  (*2150*) AddTo (T 208) (Times (Einsum [(T 125,[0;1;2;3])] [0;1;2;3]) (3) 4);
  (*2151*) Del (T 125);
  (*2152*) AddTo (T 208) (Plain (Einsum [(T 127,[0;1;2;3])] [1;0;2;3]));
  (*2153*) AddTo (T 208) (Times (Einsum [(T 127,[0;1;2;3])] [0;1;2;3]) (-3) 1);
  (*2154*) AddTo (T 208) (Times (Einsum [(T 168,[0;1;2;3])] [0;1;2;3]) (-1) 4);
  (*2155*) AddTo (T 208) (Plain (Einsum [(T 168,[0;1;2;3])] [1;0;2;3]));
  (*2156*) Assign (T 209) (Plain (Zeros [0;0;0;1]));
  (*2157*) AddTo (T 209) (Plain (Einsum [(n_t2,[0;1;2;3]); (n_l3,[3;4;2;1;5;6])] [6;5;0;4]));
  (*2158*) Assign (T 210) (Plain (Zeros [0;0;0;1]));
  (*2159*) AddTo (T 210) (Times (Einsum [(T 209,[0;1;2;3])] [0;1;2;3]) (1) 4);
  (*2160*) AddTo (T 210) (Times (Einsum [(T 123,[0;1;2;3])] [0;1;2;3]) (-1) 2);
  (*2161*) AddTo (T 210) (Plain (Einsum [(T 123,[0;1;2;3])] [1;0;2;3]));
  (*2162*) AddTo (T 210) (Times (Einsum [(T 166,[0;1;2;3])] [0;1;2;3]) (-1) 16);
  (*2163*) AddTo (T 210) (Times (Einsum [(T 166,[0;1;2;3])] [1;0;2;3]) (3) 4);
  (*2164*) AddTo (T 210) (Times (Einsum [(n_t2,[0;1;2;3]); (T 169,[1;4;5;2;3;6])] [4;5;0;6]) (-3) 16);
  (*2165*) Del (T 169);
  (*2166*) Assign (T 211) (Plain (Zeros [0;0;0;1;1;1]));
  (*2167*) AddTo (T 211) (Times (Einsum [(n_l3,[0;1;2;3;4;5])] [3;5;4;0;2;1]) (1111111111111111) 2500000000000000);
  (*2168*) AddTo (T 211) (Plain (Einsum [(n_l3,[0;1;2;3;4;5])] [5;4;3;1;0;2]));
  (*2169*) Assign (T 212) (Plain (Zeros [0;0;0;1]));
  (*2170*) AddTo (T 212) (Times (Einsum [(T 209,[0;1;2;3])] [1;0;2;3]) (-1) 2);
  (*2171*) AddTo (T 212) (Times (Einsum [(T 123,[0;1;2;3])] [0;1;2;3]) (-2) 1);
  (*2172*) AddTo (T 212) (Plain (Einsum [(T 123,[0;1;2;3])] [1;0;2;3]));
  (*2173*) AddTo (T 212) (Times (Einsum [(T 166,[0;1;2;3])] [0;1;2;3]) (-3) 8);
  (*2174*) AddTo (T 212) (Times (Einsum [(T 166,[0;1;2;3])] [1;0;2;3]) (1) 2);
  (*2175*) AddTo (T 212) (Times (Einsum [(n_t2,[0;1;2;3]); (T 211,[1;4;5;2;3;6])] [5;4;0;6]) (9) 8);
  (*2176*) Del (T 211);
  (*2177*) Assign (T 213) (Plain (Zeros [0;0;0;1]));
  (*2178*) AddTo (T 213) (Plain (Einsum [(T 118,[0;1;2;3]); (n_l3,[2;4;3;0;5;6])] [6;5;1;4]));
  (*2179*) Assign (T 214) (Plain (Zeros [0;0;0;1]));
  (*2180*) AddTo (T 214) (Times (Einsum [(T 126,[0;1;2;3]); (n_l3,[4;2;3;5;0;6])] [5;6;1;4]) (3) 1);
  (*2181*) AddTo (T 214) (Plain (Einsum [(T 213,[0;1;2;3])] [0;1;2;3]));
  (*2182*) Assign (T 215) (Plain (Zeros [0;0;0;0]));
  (*2183*) AddTo (T 215) (Times (Einsum [(T 171,[0;1;2;3])] [1;0;2;3]) (8333333333333) 50000000000000);
  (*2184*) AddTo (T 215) (Times (Einsum [(T 172,[0;1;2;3])] [0;1;2;3]) (8333333333333) 50000000000000);
  (*2185*) AddTo (T 215) (Times (Einsum [(T 172,[0;1;2;3])] [1;0;2;3]) (-58333333333331) 50000000000000);
  (*2186*) AddTo (T 215) (Times (Einsum [(T 176,[0;1;2;3])] [0;1;2;3]) (-1) 1);
  (*2187*) AddTo (T 215) (Plain (Einsum [(T 176,[0;1;2;3])] [1;0;2;3]));
  (*2188*) Del (T 176);
  (*2189*) AddTo (T 215) (Plain (Einsum [(T 177,[0;1;2;3])] [0;1;2;3]));
  (*2190*) AddTo (T 215) (Times (Einsum [(T 177,[0;1;2;3])] [1;0;2;3]) (-3) 1);
  (*2191*) AddTo (T 215) (Plain (Einsum [(T 179,[0;1;2;3])] [1;0;2;3]));
  (*2192*) Del (T 179);
  (*2193*) AddTo (T 215) (Plain (Einsum [(n_t1,[0;1]); (T 214,[2;3;4;1])] [2;3;0;4]));
  (*2194*) Del (T 214);
  (*2195*) Assign (T 216) (Plain (Zeros [0;0;0;1]));
  (*2196*) AddTo (T 216) (Times (Einsum [(T 136,[0;1;2;3])] [0;1;2;3]) (4) 1);
  (*2197*) Del (T 136);
  (*2198*) AddTo (T 216) (Times (Einsum [(n_t3,[0;1;2;3;4;5]); (T 119,[6;2;1;7;3;5])] [6;0;7;4]) (4) 1);
  (*2199*) AddTo (T 216) (Times (Einsum [(n_t3,[0;1;2;3;4;5]); (T 119,[2;0;6;7;5;3])] [6;1;7;4]) (2) 1);
  (*2200*) AddTo (T 216) (Times (Einsum [(T 203,[0;1;2;3])] [0;1;2;3]) (4) 1);
  (*2201*) AddTo (T 216) (Times (Einsum [(T 203,[0;1;2;3])] [0;2;1;3]) (-4) 1);
  (*2202*) Del (T 203);
  (*2203*) AddTo (T 216) (Times (Einsum [(T 205,[0;1;2;3])] [0;1;2;3]) (16) 1);
  (*2204*) AddTo (T 216) (Times (Einsum [(T 205,[0;1;2;3])] [0;2;1;3]) (-8) 1);
  (*2205*) Del (T 205);
  (*2206*) AddTo (T 216) (Times (Einsum [(T 113,[0;1;2;3;4;5]); (T 116,[0;6;2;4;7;5])] [1;6;3;7]) (2) 1);
  (*2207*) Del (T 116);
  (*2208*) AddTo (T 216) (Times (Einsum [(T 113,[0;1;2;3;4;5]); (T 206,[1;6;0;5;7;4])] [2;6;3;7]) (2) 1);
  (*2209*) Del (T 206);
  (*2210*) AddTo (T 216) (Times (Einsum [(n_l2,[0;1;2;3]); (T 207,[2;4;5;1;6;0])] [3;4;5;6]) (-6) 1);
  (*2211*) Del (T 207);
  (*2212*) AddTo (T 216) (Times (Einsum [(T 118,[0;1;2;3]); (T 208,[4;0;5;2])] [4;1;5;3]) (4) 1);
  (*2213*) Del (T 208);
  (*2214*) AddTo (T 216) (Times (Einsum [(n_t2,[0;1;2;3]); (T 210,[4;1;5;3])] [4;0;5;2]) (16) 1);
  (*2215*) Del (T 210);
  (*2216*) AddTo (T 216) (Times (Einsum [(n_t2,[0;1;2;3]); (T 212,[4;1;5;2])] [4;0;5;3]) (-8) 1);
  (*2217*) Del (T 212);
  (*2218*) AddTo (T 216) (Times (Einsum [(n_t1,[0;1]); (T 215,[2;0;3;4])] [2;4;3;1]) (-4) 1);
  (*2219*) Del (T 215);
  (*2220*) AddTo (T 216) (Times (Einsum [(n_t1,[0;1]); (T 193,[2;3])] [2;0;3;1]) (16) 1);
  (*2221*) Del (T 193);
  (*2222*) AddTo n_l1new (Times (Einsum [(n_v'ovov,[0;1;2;3]); (T 216,[4;0;2;3])] [1;4]) (1) 8);
  (*2223*) Del (T 216);
  (*2224*) Assign (T 217) (Plain (Zeros [0;0;0;1]));
  (*2225*) AddTo (T 217) (Plain (Einsum [(n_v'ovov,[0;1;2;3]); (n_t3,[4;5;2;6;1;3])] [4;5;0;6]));
  (*2226*) Assign (T 218) (Plain (Zeros [0;0;0;1]));
  (*2227*) AddTo (T 218) (Plain (Einsum [(n_f'ov,[0;1]); (n_t2,[2;3;4;1])] [0;2;3;4]));
  (*2228*) Assign (T 219) (Plain (Zeros [0;0;0;1]));
  (*2229*) AddTo (T 219) (Plain (Einsum [(n_t2,[0;1;2;3]); (n_v'ovvv,[4;2;5;3])] [0;1;4;5]));
  (*2230*) Assign (T 220) (Plain (Zeros [0;0;0;1]));
  (*2231*) AddTo (T 220) (Plain (Einsum [(n_t1,[0;1]); (T 91,[2;3;4;1])] [2;0;3;4]));
  (*2232*) Assign (T 221) (Plain (Zeros [0;0;0;1]));
  (*2233*) AddTo (T 221) (Plain (Einsum [(n_t1,[0;1]); (T 88,[2;3;0;4])] [2;3;4;1]));
  (*2234*) Del (T 88);
  (*2235*) Assign (T 222) (Plain (Zeros [0;0;0;1]));
  (*2236*) AddTo (T 222) (Plain (Einsum [(T 219,[0;1;2;3])] [0;1;2;3]));
  (*2237*) AddTo (T 222) (Plain (Einsum [(T 220,[0;1;2;3])] [0;1;2;3]));
  (*2238*) AddTo (T 222) (Times (Einsum [(T 221,[0;1;2;3])] [1;0;2;3]) (-1) 1);
  (*2239*) Del (T 221);
  (*2240*) Assign (T 223) (Plain (Zeros [0;0;0;1]));
  (*2241*) AddTo (T 223) (Plain (Einsum [(n_v'ovov,[0;1;2;3]); (n_t3,[4;2;5;6;3;1])] [4;5;0;6]));
  (*2242*) Assign (T 224) (Plain (Zeros [0;0;0;1]));
  (*2243*) AddTo (T 224) (Plain (Einsum [(T 37,[0;1]); (n_t2,[2;3;1;4])] [2;3;0;4]));
  (*2244*) Assign (T 225) (Plain (Zeros [0;0;0;1;1;1]));
  (*2245*) AddTo (T 225) (Times (Einsum [(n_t3,[0;1;2;3;4;5])] [0;2;1;5;3;4]) (-3) 2);
  (*2246*) AddTo (T 225) (Times (Einsum [(n_t3,[0;1;2;3;4;5])] [0;2;1;3;5;4]) (3) 2);
  (*2247*) AddTo (T 225) (Plain (Einsum [(n_t3,[0;1;2;3;4;5])] [0;2;1;4;3;5]));
  (*2248*) Assign (T 226) (Plain (Zeros [0;0;0;1]));
  (*2249*) AddTo (T 226) (Times (Einsum [(n_v'ooov,[0;1;2;3])] [0;1;2;3]) (2) 1);
  (*2250*) AddTo (T 226) (Times (Einsum [(n_v'ooov,[0;1;2;3])] [0;2;1;3]) (-1) 1);
  (*2251*) AddTo (T 226) (Times (Einsum [(T 9,[0;1;2;3])] [0;1;2;3]) (-1) 1);
  (*2252*) AddTo (T 226) (Times (Einsum [(T 9,[0;1;2;3])] [0;2;1;3]) (2) 1);
  (*2253*) Assign (T 227) (Plain (Zeros [0;0;1;1]));
  (*2254*) AddTo (T 227) (Times (Einsum [(n_v'ovov,[0;1;2;3])] [0;2;1;3]) (2) 1);
  (*2255*) AddTo (T 227) (Times (Einsum [(n_v'oovv,[0;1;2;3])] [0;1;2;3]) (-1) 1);
  (*2256*) Assign (T 228) (Plain (Zeros [0;0;0;0]));
  (*2257*) AddTo (T 228) (Plain (Einsum [(n_v'oooo,[0;1;2;3])] [0;2;3;1]));
  (*2258*) AddTo (T 228) (Times (Einsum [(n_v'oooo,[0;1;2;3])] [0;1;2;3]) (-1) 2);
  (*2259*) AddTo (T 228) (Plain (Einsum [(T 6,[0;1;2;3])] [2;0;3;1]));
  (*2260*) AddTo (T 228) (Times (Einsum [(T 6,[0;1;2;3])] [3;0;2;1]) (-1) 2);
  (*2261*) Assign (T 229) (Plain (Zeros [0;0;0;1]));
  (*2262*) AddTo (T 229) (Times (Einsum [(T 217,[0;1;2;3])] [0;1;2;3]) (1) 4);
  (*2263*) AddTo (T 229) (Times (Einsum [(n_v'ooov,[0;1;2;3])] [0;2;1;3]) (-1) 1);
  (*2264*) AddTo (T 229) (Times (Einsum [(n_v'ooov,[0;1;2;3])] [2;0;1;3]) (1) 2);
  (*2265*) AddTo (T 229) (Times (Einsum [(T 218,[0;1;2;3])] [1;2;0;3]) (1) 2);
  (*2266*) AddTo (T 229) (Times (Einsum [(T 218,[0;1;2;3])] [2;1;0;3]) (-1) 1);
  (*2267*) AddTo (T 229) (Times (Einsum [(T 222,[0;1;2;3])] [0;1;2;3]) (-1) 1);
  (*2268*) AddTo (T 229) (Times (Einsum [(T 222,[0;1;2;3])] [1;0;2;3]) (1) 2);
  (*2269*) Del (T 222);
  (*2270*) AddTo (T 229) (Times (Einsum [(T 223,[0;1;2;3])] [0;1;2;3]) (1) 4);
  (*2271*) AddTo (T 229) (Times (Einsum [(T 223,[0;1;2;3])] [1;0;2;3]) (-1) 4);
  (*2272*) Del (T 223);
  (*2273*) AddTo (T 229) (Plain (Einsum [(T 224,[0;1;2;3])] [1;0;2;3]));
  (*2274*) AddTo (T 229) (Times (Einsum [(T 224,[0;1;2;3])] [0;1;2;3]) (-2) 1);
  (*2275*) AddTo (T 229) (Times (Einsum [(n_v'ovov,[0;1;2;3]); (T 225,[2;4;5;3;1;6])] [4;5;0;6]) (-1) 4);
  (*2276*) Del (T 225);
  (*2277*) AddTo (T 229) (Times (Einsum [(T 121,[0;1;2;3]); (T 226,[4;5;0;2])] [4;1;5;3]) (-1) 1);
  (*2278*) AddTo (T 229) (Times (Einsum [(n_t1,[0;1]); (T 227,[2;3;1;4])] [0;3;2;4]) (-1) 2);
  (*2279*) Del (T 227);
  (*2280*) AddTo (T 229) (Plain (Einsum [(n_t1,[0;1]); (T 228,[0;2;3;4])] [2;4;3;1]));
  (*2281*) Del (T 228);
  (*2282*) AddTo n_l1new (Times (Einsum [(n_l2,[0;1;2;3]); (T 229,[2;3;4;1])] [0;4]) (2) 1);
  (*2283*) Del (T 229);
  (*2284*) Assign (T 230) (Plain (Zeros [0;0;0;1;1;1]));
  (*2285*) AddTo (T 230) (Times (Einsum [(n_t3,[0;1;2;3;4;5])] [0;2;1;5;3;4]) (-1) 2);
  (*2286*) AddTo (T 230) (Times (Einsum [(n_t3,[0;1;2;3;4;5])] [0;2;1;3;5;4]) (1) 2);
  (*2287*) AddTo (T 230) (Plain (Einsum [(n_t3,[0;1;2;3;4;5])] [0;2;1;4;3;5]));
  (*2288*) Assign (T 231) (Plain (Zeros [0;0;0;1]));
  (*2289*) AddTo (T 231) (Times (Einsum [(n_v'ooov,[0;1;2;3])] [0;1;2;3]) (-1) 2);
  (*2290*) AddTo (T 231) (Plain (Einsum [(n_v'ooov,[0;1;2;3])] [0;2;1;3]));
  (*2291*) AddTo (T 231) (Plain (Einsum [(T 9,[0;1;2;3])] [0;1;2;3]));
  (*2292*) AddTo (T 231) (Times (Einsum [(T 9,[0;1;2;3])] [0;2;1;3]) (-1) 2);
  (*2293*) Assign (T 232) (Plain (Zeros [0;0;1;1]));
  (*2294*) AddTo (T 232) (Plain (Einsum [(n_v'oovv,[0;1;2;3])] [0;1;2;3]));
  (*2295*) AddTo (T 232) (Times (Einsum [(n_v'ovov,[0;1;2;3])] [0;2;1;3]) (-1) 2);
  (*2296*) Assign (T 233) (Plain (Zeros [0;0;0;0]));
  (*2297*) AddTo (T 233) (Times (Einsum [(T 6,[0;1;2;3])] [0;2;1;3]) (-1) 1);
  (*2298*) AddTo (T 233) (Times (Einsum [(T 6,[0;1;2;3])] [0;3;2;1]) (2) 1);
  (*2299*) Assign (T 234) (Plain (Zeros [0;0;0;1]));
  (*2300*) AddTo (T 234) (Times (Einsum [(T 217,[0;1;2;3])] [0;1;2;3]) (3) 2);
  (*2301*) AddTo (T 234) (Times (Einsum [(n_v'ovov,[0;1;2;3]); (T 230,[2;4;5;3;1;6])] [4;5;0;6]) (-1) 2);
  (*2302*) Del (T 230);
  (*2303*) AddTo (T 234) (Times (Einsum [(n_t2,[0;1;2;3]); (T 226,[4;5;1;3])] [4;0;5;2]) (-1) 1);
  (*2304*) Del (T 226);
  (*2305*) AddTo (T 234) (Times (Einsum [(n_t2,[0;1;2;3]); (T 231,[4;5;1;2])] [4;0;5;3]) (-2) 1);
  (*2306*) Del (T 231);
  (*2307*) AddTo (T 234) (Times (Einsum [(n_t1,[0;1]); (T 232,[2;3;1;4])] [0;3;2;4]) (2) 1);
  (*2308*) Del (T 232);
  (*2309*) AddTo (T 234) (Times (Einsum [(n_t1,[0;1]); (T 233,[2;0;3;4])] [2;3;4;1]) (-1) 1);
  (*2310*) Del (T 233);
  (*2311*) AddTo n_l1new (Times (Einsum [(n_l2,[0;1;2;3]); (T 234,[3;2;4;1])] [0;4]) (-1) 1);
  (*2312*) Del (T 234);
  (*2313*) Assign (T 235) (Plain (Zeros [1;1]));
  (*2314*) AddTo (T 235) (Plain (Einsum [(n_l3,[0;1;2;3;4;5]); (n_t3,[3;4;5;0;6;2])] [1;6]));
  (*2315*) Assign (T 236) (Plain (Zeros [0;0;0;1;1;1]));
  (*2316*) AddTo (T 236) (Times (Einsum [(n_t3,[0;1;2;3;4;5])] [0;2;1;3;5;4]) (-892857142857143) 6250000000000000);
  (*2317*) AddTo (T 236) (Times (Einsum [(n_t3,[0;1;2;3;4;5])] [0;2;1;4;5;3]) (892857142857143) 6250000000000000);
  (*2318*) AddTo (T 236) (Plain (Einsum [(n_t3,[0;1;2;3;4;5])] [0;2;1;3;4;5]));
  (*2319*) AddTo (T 236) (Times (Einsum [(n_t3,[0;1;2;3;4;5])] [1;0;2;5;3;4]) (892857142857143) 6250000000000000);
  (*2320*) AddTo (T 236) (Times (Einsum [(n_t3,[0;1;2;3;4;5])] [1;0;2;5;4;3]) (-892857142857143) 6250000000000000);
  (*2321*) AddTo (T 236) (Times (Einsum [(n_t3,[0;1;2;3;4;5])] [1;0;2;4;3;5]) (-892857142857143) 6250000000000000);
  (*2322*) Assign (T 237) (Plain (Zeros [1;1]));
  (*2323*) AddTo (T 237) (Times (Einsum [(T 235,[0;1])] [0;1]) (3) 1);
  (*2324*) AddTo (T 237) (Times (Einsum [(n_l3,[0;1;2;3;4;5]); (T 236,[3;5;4;6;1;2])] [0;6]) (6999999999999999) 1000000000000000);
  (*2325*) AddTo (T 237) (Times (Einsum [(n_l3,[0;1;2;3;4;5]); (T 117,[3;4;5;6;1;2])] [0;6]) (-1) 1);
  (*2326*) Assign (T 238) (Plain (Zeros [0;1;1;1]));
  (*2327*) AddTo (T 238) (Plain (Einsum [(n_v'ovvv,[0;1;2;3])] [0;1;2;3]));
  (*2328*) AddTo (T 238) (Times (Einsum [(n_v'ovvv,[0;1;2;3])] [0;2;3;1]) (-1) 2);
  (*2329*) AddTo n_l1new (Times (Einsum [(T 237,[0;1]); (T 238,[2;3;0;1])] [3;2]) (8333333333333) 50000000000000);
  (*2330*) Del (T 237);
  (*2330*) Del (T 238);
  (*2331*) Assign (T 239) (Plain (Zeros [0;0;0;1]));
  (*2332*) AddTo (T 239) (Times (Einsum [(T 131,[0;1;2;3]); (T 160,[0;4;5;2;3;6])] [1;4;5;6]) (1) 2);
  (*2333*) Assign (T 240) (Plain (Zeros [0;0;1;1]));
  (*2334*) AddTo (T 240) (Plain (Einsum [(n_t2,[0;1;2;3])] [0;1;3;2]));
  (*2335*) AddTo (T 240) (Times (Einsum [(n_t2,[0;1;2;3])] [0;1;2;3]) (-3333333333333333) 10000000000000000);
  (*2336*) Assign (T 241) (Plain (Zeros [0;0;0;1]));
  (*2337*) AddTo (T 241) (Plain (Einsum [(T 123,[0;1;2;3])] [0;1;2;3]));
  (*2338*) AddTo (T 241) (Times (Einsum [(T 123,[0;1;2;3])] [1;0;2;3]) (-2) 1);
  (*2339*) AddTo (T 241) (Times (Einsum [(T 239,[0;1;2;3])] [1;2;0;3]) (-1) 1);
  (*2340*) AddTo (T 241) (Times (Einsum [(T 180,[0;1;2;3]); (n_l3,[4;2;3;5;0;6])] [5;6;1;4]) (1) 2);
  (*2341*) AddTo (T 241) (Times (Einsum [(T 240,[0;1;2;3]); (n_l3,[4;2;3;0;5;6])] [5;6;1;4]) (3) 2);
  (*2342*) AddTo n_l1new (Plain (Einsum [(n_v'oovv,[0;1;2;3]); (T 241,[0;4;1;3])] [2;4]));
  (*2343*) Del (T 241);
  (*2344*) Assign (T 242) (Plain (Zeros [0;0;0;1;1;1]));
  (*2345*) AddTo (T 242) (Times (Einsum [(n_t3,[0;1;2;3;4;5])] [0;2;1;3;5;4]) (-1) 1);
  (*2346*) AddTo (T 242) (Times (Einsum [(n_t3,[0;1;2;3;4;5])] [0;2;1;4;5;3]) (6999999999999999) 1000000000000000);
  (*2347*) AddTo (T 242) (Plain (Einsum [(n_t3,[0;1;2;3;4;5])] [0;2;1;3;4;5]));
  (*2348*) AddTo (T 242) (Plain (Einsum [(n_t3,[0;1;2;3;4;5])] [1;0;2;5;3;4]));
  (*2349*) AddTo (T 242) (Times (Einsum [(n_t3,[0;1;2;3;4;5])] [1;0;2;5;4;3]) (-1) 1);
  (*2350*) AddTo (T 242) (Times (Einsum [(n_t3,[0;1;2;3;4;5])] [1;0;2;4;3;5]) (-1) 1);
  (*2351*) Assign (T 243) (Plain (Zeros [0;0;0;1;1;1]));
  (*2352*) AddTo (T 243) (Plain (Einsum [(n_t3,[0;1;2;3;4;5])] [0;2;1;5;4;3]));
  (*2353*) AddTo (T 243) (Plain (Einsum [(n_t3,[0;1;2;3;4;5])] [0;2;1;3;5;4]));
  (*2354*) AddTo (T 243) (Times (Einsum [(n_t3,[0;1;2;3;4;5])] [0;2;1;4;5;3]) (-1) 1);
  (*2355*) Assign (T 244) (Plain (Zeros [0;0;0;1;1;1]));
  (*2356*) AddTo (T 244) (Plain (Einsum [(n_t3,[0;1;2;3;4;5])] [0;2;1;5;4;3]));
  (*2357*) AddTo (T 244) (Times (Einsum [(n_t3,[0;1;2;3;4;5])] [0;2;1;3;5;4]) (6) 1);
  (*2358*) AddTo (T 244) (Times (Einsum [(n_t3,[0;1;2;3;4;5])] [0;2;1;3;4;5]) (-1) 1);
  (*2359*) AddTo (T 244) (Times (Einsum [(n_t3,[0;1;2;3;4;5])] [0;1;2;5;4;3]) (-1) 1);
  (*2360*) AddTo (T 244) (Plain (Einsum [(n_t3,[0;1;2;3;4;5])] [0;1;2;3;4;5]));
  (*2361*) Assign (T 245) (Plain (Zeros [0;0;0;1]));
  (*2362*) AddTo (T 245) (Plain (Einsum [(T 123,[0;1;2;3])] [0;1;2;3]));
  (*2363*) AddTo (T 245) (Times (Einsum [(T 240,[0;1;2;3]); (n_l3,[4;2;3;5;6;0])] [5;6;1;4]) (3) 4);
  (*2364*) Assign (T 246) (Plain (Zeros [0;0;0;1]));
  (*2365*) AddTo (T 246) (Plain (Einsum [(T 123,[0;1;2;3])] [0;1;2;3]));
  (*2366*) AddTo (T 246) (Plain (Einsum [(T 127,[0;1;2;3])] [1;0;2;3]));
  (*2367*) AddTo (T 246) (Times (Einsum [(T 127,[0;1;2;3])] [0;1;2;3]) (-1) 1);
  (*2368*) Del (T 127);
  (*2369*) AddTo (T 246) (Times (Einsum [(T 239,[0;1;2;3])] [1;2;0;3]) (-1) 1);
  (*2370*) Del (T 239);
  (*2371*) Assign (T 247) (Plain (Zeros [0;0]));
  (*2372*) AddTo (T 247) (Plain (Einsum [(n_l1,[0;1]); (n_t1,[2;0])] [1;2]));
  (*2373*) AddTo n_l1new (Times (Einsum [(T 247,[0;1]); (T 37,[1;2])] [2;0]) (-2) 1);
  (*2374*) Assign (T 248) (Plain (Zeros [0;0]));
  (*2375*) AddTo (T 248) (Plain (Einsum [(T 247,[0;1])] [0;1]));
  (*2376*) AddTo (T 248) (Times (Einsum [(T 183,[0;1])] [0;1]) (24999999999999) 100000000000000);
  (*2377*) AddTo (T 248) (Times (Einsum [(T 184,[0;1])] [0;1]) (-8333333333333) 100000000000000);
  (*2378*) AddTo (T 248) (Times (Einsum [(T 185,[0;1;2;3;4;5]); (T 186,[1;6;0;3;4;5])] [2;6]) (-8333333333333) 100000000000000);
  (*2379*) AddTo (T 248) (Times (Einsum [(n_t3,[0;1;2;3;4;5]); (T 185,[1;2;6;5;4;3])] [6;0]) (8333333333333) 100000000000000);
  (*2380*) AddTo (T 248) (Times (Einsum [(n_l3,[0;1;2;3;4;5]); (T 189,[3;6;4;0;2;1])] [5;6]) (58333333333331) 100000000000000);
  (*2381*) AddTo (T 248) (Times (Einsum [(n_l2,[0;1;2;3]); (T 191,[2;4;1;0])] [3;4]) (2) 1);
  (*2382*) Assign (T 249) (Plain (Zeros [0;1]));
  (*2383*) AddTo (T 249) (Times (Einsum [(n_t1,[0;1])] [0;1]) (-4) 1);
  (*2384*) AddTo (T 249) (Times (Einsum [(n_l2,[0;1;2;3]); (n_t3,[4;2;3;5;1;0])] [4;5]) (2) 1);
  (*2385*) AddTo (T 249) (Times (Einsum [(n_t3,[0;1;2;3;4;5]); (T 119,[2;0;1;6;5;3])] [6;4]) (24999999999999) 25000000000000);
  (*2386*) AddTo (T 249) (Times (Einsum [(T 113,[0;1;2;3;4;5]); (T 242,[0;1;2;5;6;4])] [3;6]) (8333333333333) 25000000000000);
  (*2387*) Del (T 242);
  (*2388*) AddTo (T 249) (Times (Einsum [(T 113,[0;1;2;3;4;5]); (T 243,[0;2;1;4;6;5])] [3;6]) (-8333333333333) 25000000000000);
  (*2389*) Del (T 243);
  (*2390*) AddTo (T 249) (Times (Einsum [(n_l2,[0;1;2;3]); (T 244,[3;4;2;1;5;0])] [4;5]) (-1) 1);
  (*2391*) Del (T 244);
  (*2392*) AddTo (T 249) (Times (Einsum [(n_t2,[0;1;2;3]); (T 245,[0;1;4;2])] [4;3]) (8) 1);
  (*2393*) Del (T 245);
  (*2394*) AddTo (T 249) (Times (Einsum [(n_t2,[0;1;2;3]); (T 246,[0;1;4;3])] [4;2]) (-4) 1);
  (*2395*) Del (T 246);
  (*2396*) AddTo (T 249) (Times (Einsum [(n_l1,[0;1]); (T 122,[1;2;3;0])] [2;3]) (-4) 1);
  (*2397*) Del (T 122);
  (*2398*) AddTo (T 249) (Times (Einsum [(n_t1,[0;1]); (T 248,[0;2])] [2;1]) (4) 1);
  (*2399*) Del (T 248);
  (*2400*) Assign (T 250) (Plain (Zeros [0;0;1;1]));
  (*2401*) AddTo (T 250) (Times (Einsum [(n_v'ovov,[0;1;2;3])] [0;2;3;1]) (2) 1);
  (*2402*) AddTo (T 250) (Times (Einsum [(n_v'ovov,[0;1;2;3])] [0;2;1;3]) (-1) 1);
  (*2403*) AddTo n_l1new (Times (Einsum [(T 249,[0;1]); (T 250,[0;2;3;1])] [3;2]) (-1) 4);
  (*2404*) Del (T 249);
  (*2404*) Del (T 250);
  (*2405*) Assign (T 251) (Plain (Zeros [0;0;0;0]));
  (*2406*) AddTo (T 251) (Times (Einsum [(T 173,[0;1;2;3])] [0;1;2;3]) (8333333333333) 200000000000000);
  (*2407*) AddTo (T 251) (Times (Einsum [(T 174,[0;1;2;3])] [0;1;2;3]) (8333333333333) 200000000000000);
  (*2408*) Assign (T 252) (Plain (Zeros [0;0;0;1]));
  (*2409*) AddTo (T 252) (Times (Einsum [(T 131,[0;1;2;3]); (T 160,[0;4;5;2;3;6])] [4;5;1;6]) (-1) 1);
  (*2410*) Del (T 160);
  (*2411*) AddTo (T 252) (Plain (Einsum [(T 180,[0;1;2;3]); (n_l3,[4;2;3;5;0;6])] [5;6;1;4]));
  (*2412*) Del (T 180);
  (*2413*) AddTo (T 252) (Times (Einsum [(T 240,[0;1;2;3]); (n_l3,[4;2;3;0;5;6])] [5;6;1;4]) (3) 1);
  (*2414*) Del (T 240);
  (*2415*) Assign (T 253) (Plain (Zeros [0;0;0;0]));
  (*2416*) AddTo (T 253) (Times (Einsum [(T 171,[0;1;2;3])] [1;0;2;3]) (8333333333333) 200000000000000);
  (*2417*) AddTo (T 253) (Times (Einsum [(T 204,[0;1;2;3])] [1;0;2;3]) (-1) 2);
  (*2418*) AddTo (T 253) (Plain (Einsum [(T 204,[0;1;2;3])] [1;0;3;2]));
  (*2419*) Del (T 204);
  (*2420*) AddTo (T 253) (Times (Einsum [(T 138,[0;1;2;3])] [0;2;3;1]) (-1) 2);
  (*2421*) AddTo (T 253) (Plain (Einsum [(T 138,[0;1;2;3])] [0;3;2;1]));
  (*2422*) Del (T 138);
  (*2423*) AddTo (T 253) (Times (Einsum [(T 172,[0;1;2;3])] [0;1;2;3]) (58333333333331) 200000000000000);
  (*2424*) AddTo (T 253) (Times (Einsum [(T 172,[0;1;2;3])] [1;0;2;3]) (-8333333333333) 200000000000000);
  (*2425*) AddTo (T 253) (Times (Einsum [(T 251,[0;1;2;3])] [0;1;2;3]) (-1) 1);
  (*2426*) AddTo (T 253) (Plain (Einsum [(T 251,[0;1;2;3])] [1;0;2;3]));
  (*2427*) Del (T 251);
  (*2428*) AddTo (T 253) (Times (Einsum [(n_l3,[0;1;2;3;4;5]); (T 178,[4;6;7;0;2;1])] [5;3;6;7]) (8333333333333) 200000000000000);
  (*2429*) AddTo (T 253) (Times (Einsum [(n_t1,[0;1]); (T 252,[2;3;4;1])] [2;0;4;3]) (-1) 4);
  (*2430*) Del (T 252);
  (*2431*) AddTo n_l1new (Times (Einsum [(n_v'ooov,[0;1;2;3]); (T 253,[4;1;2;0])] [3;4]) (2) 1);
  (*2432*) Del (T 253);
  (*2433*) Assign (T 254) (Plain (Zeros [1;1]));
  (*2434*) AddTo (T 254) (Times (Einsum [(n_l1,[0;1]); (n_t1,[1;2])] [0;2]) (1) 2);
  (*2435*) AddTo (T 254) (Plain (Einsum [(n_l2,[0;1;2;3]); (T 121,[2;3;4;1])] [0;4]));
  (*2436*) Assign (T 255) (Plain (Zeros [0;1;1;1]));
  (*2437*) AddTo (T 255) (Times (Einsum [(n_v'ovvv,[0;1;2;3])] [0;1;2;3]) (-1) 2);
  (*2438*) AddTo (T 255) (Plain (Einsum [(n_v'ovvv,[0;1;2;3])] [0;2;3;1]));
  (*2439*) AddTo n_l1new (Times (Einsum [(T 254,[0;1]); (T 255,[2;1;0;3])] [3;2]) (4) 1);
  (*2440*) Del (T 254);
  (*2440*) Del (T 255);
  (*2441*) Assign (T 256) (Plain (Zeros [0;0;0;0]));
  (*2442*) AddTo (T 256) (Times (Einsum [(T 173,[0;1;2;3])] [0;1;2;3]) (892857142857143) 6250000000000000);
  (*2443*) Del (T 173);
  (*2444*) AddTo (T 256) (Times (Einsum [(T 174,[0;1;2;3])] [0;1;2;3]) (892857142857143) 6250000000000000);
  (*2445*) Del (T 174);
  (*2446*) Assign (T 257) (Plain (Zeros [0;0;0;0]));
  (*2447*) AddTo (T 257) (Times (Einsum [(T 171,[0;1;2;3])] [1;0;2;3]) (892857142857143) 6250000000000000);
  (*2448*) Del (T 171);
  (*2449*) AddTo (T 257) (Times (Einsum [(T 172,[0;1;2;3])] [0;1;2;3]) (892857142857143) 6250000000000000);
  (*2450*) AddTo (T 257) (Times (Einsum [(T 172,[0;1;2;3])] [1;0;2;3]) (-1) 1);
  (*2451*) AddTo (T 257) (Times (Einsum [(T 140,[0;1;2;3])] [0;1;2;3]) (2142857142857143) 5000000000000000);
  (*2452*) AddTo (T 257) (Times (Einsum [(T 140,[0;1;2;3])] [0;1;3;2]) (-2142857142857143) 5000000000000000);
  (*2453*) Del (T 140);
  (*2454*) AddTo (T 257) (Times (Einsum [(T 256,[0;1;2;3])] [0;1;2;3]) (-1) 1);
  (*2455*) AddTo (T 257) (Plain (Einsum [(T 256,[0;1;2;3])] [1;0;2;3]));
  (*2456*) Del (T 256);
  (*2457*) AddTo (T 257) (Times (Einsum [(n_l3,[0;1;2;3;4;5]); (T 178,[4;6;7;0;2;1])] [5;3;6;7]) (892857142857143) 6250000000000000);
  (*2458*) Del (T 178);
  (*2459*) AddTo n_l1new (Times (Einsum [(n_v'ooov,[0;1;2;3]); (T 257,[4;1;0;2])] [3;4]) (-58333333333331) 100000000000000);
  (*2460*) Del (T 257);
  (*2461*) Assign (T 258) (Plain (Zeros [0;0;0;1;1;1]));
  (*2462*) AddTo (T 258) (Times (Einsum [(n_l3,[0;1;2;3;4;5])] [3;5;4;0;2;1]) (3333333333333333) 10000000000000000);
  (*2463*) AddTo (T 258) (Times (Einsum [(n_l3,[0;1;2;3;4;5])] [5;3;4;1;0;2]) (-3333333333333333) 10000000000000000);
  (*2464*) AddTo (T 258) (Plain (Einsum [(n_l3,[0;1;2;3;4;5])] [5;4;3;0;2;1]));
  (*2465*) AddTo (T 258) (Times (Einsum [(n_l3,[0;1;2;3;4;5])] [4;5;3;0;2;1]) (-3333333333333333) 10000000000000000);
  (*2466*) Assign (T 259) (Plain (Zeros [0;0;0;1;1;1]));
  (*2467*) AddTo (T 259) (Times (Einsum [(n_l3,[0;1;2;3;4;5])] [3;5;4;0;2;1]) (-1) 1);
  (*2468*) AddTo (T 259) (Plain (Einsum [(n_l3,[0;1;2;3;4;5])] [5;3;4;1;0;2]));
  (*2469*) AddTo (T 259) (Times (Einsum [(n_l3,[0;1;2;3;4;5])] [5;4;3;0;2;1]) (-1) 1);
  (*2470*) AddTo (T 259) (Times (Einsum [(n_l3,[0;1;2;3;4;5])] [4;5;3;0;2;1]) (3) 1);
  (*2471*) Assign (T 260) (Plain (Zeros [0;0;0;1]));
  (*2472*) AddTo (T 260) (Plain (Einsum [(n_t2,[0;1;2;3]); (T 258,[1;4;5;6;3;2])] [5;4;0;6]));
  (*2473*) Del (T 258);
  (*2474*) AddTo (T 260) (Times (Einsum [(n_t2,[0;1;2;3]); (T 259,[1;4;5;6;2;3])] [5;4;0;6]) (3333333333333333) 10000000000000000);
  (*2475*) Del (T 259);
  (*2476*) Assign (T 261) (Plain (Zeros [0;0;0;0]));
  (*2477*) AddTo (T 261) (Times (Einsum [(n_t1,[0;1]); (T 260,[2;3;4;1])] [2;3;0;4]) (3) 1);
  (*2478*) Del (T 260);
  (*2479*) AddTo n_l1new (Times (Einsum [(n_v'ooov,[0;1;2;3]); (T 261,[4;0;2;1])] [3;4]) (1) 2);
  (*2480*) Del (T 261);
  (*2481*) Assign (T 262) (Plain (Zeros [0;0;0;1;1;1]));
  (*2482*) AddTo (T 262) (Times (Einsum [(n_t3,[0;1;2;3;4;5])] [0;2;1;3;5;4]) (3) 1);
  (*2483*) AddTo (T 262) (Plain (Einsum [(n_t3,[0;1;2;3;4;5])] [1;0;2;3;5;4]));
  (*2484*) AddTo (T 262) (Times (Einsum [(n_t3,[0;1;2;3;4;5])] [1;0;2;4;5;3]) (-1) 1);
  (*2485*) Assign (T 263) (Plain (Zeros [0;0]));
  (*2486*) AddTo (T 263) (Times (Einsum [(T 247,[0;1])] [0;1]) (1) 2);
  (*2487*) AddTo (T 263) (Times (Einsum [(n_l3,[0;1;2;3;4;5]); (n_t3,[6;3;5;1;2;0])] [4;6]) (-8333333333333) 200000000000000);
  (*2488*) AddTo (T 263) (Times (Einsum [(n_l3,[0;1;2;3;4;5]); (T 262,[3;5;6;0;2;1])] [4;6]) (8333333333333) 200000000000000);
  (*2489*) Del (T 262);
  (*2490*) AddTo (T 263) (Plain (Einsum [(T 192,[0;1])] [0;1]));
  (*2491*) Del (T 192);
  (*2492*) Assign (T 264) (Plain (Zeros [0;0;0;1]));
  (*2493*) AddTo (T 264) (Times (Einsum [(n_v'ooov,[0;1;2;3])] [0;1;2;3]) (-1) 1);
  (*2494*) AddTo (T 264) (Times (Einsum [(n_v'ooov,[0;1;2;3])] [0;2;1;3]) (2) 1);
  (*2495*) AddTo n_l1new (Times (Einsum [(T 263,[0;1]); (T 264,[0;2;1;3])] [3;2]) (-2) 1);
  (*2496*) Del (T 263);
  (*2497*) Assign (T 265) (Plain (Zeros [0;0;0;1;1;1]));
  (*2498*) AddTo (T 265) (Times (Einsum [(n_t3,[0;1;2;3;4;5])] [0;2;1;3;5;4]) (-1) 1);
  (*2499*) AddTo (T 265) (Plain (Einsum [(n_t3,[0;1;2;3;4;5])] [0;2;1;4;5;3]));
  (*2500*) AddTo (T 265) (Times (Einsum [(n_t3,[0;1;2;3;4;5])] [1;0;2;5;3;4]) (6999999999999999) 1000000000000000);
  (*2501*) AddTo (T 265) (Times (Einsum [(n_t3,[0;1;2;3;4;5])] [1;0;2;4;3;5]) (-1) 1);
  (*2502*) Assign (T 266) (Plain (Zeros [0;0;0;1;1;1]));
  (*2503*) AddTo (T 266) (Times (Einsum [(n_t3,[0;1;2;3;4;5])] [0;2;1;3;5;4]) (-1) 1);
  (*2504*) AddTo (T 266) (Plain (Einsum [(n_t3,[0;1;2;3;4;5])] [1;0;2;5;3;4]));
  (*2505*) Assign (T 267) (Plain (Zeros [0;0]));
  (*2506*) AddTo (T 267) (Plain (Einsum [(n_l3,[0;1;2;3;4;5]); (T 265,[4;6;3;0;2;1])] [5;6]));
  (*2507*) Del (T 265);
  (*2508*) AddTo (T 267) (Times (Einsum [(n_l3,[0;1;2;3;4;5]); (T 266,[4;6;3;0;1;2])] [5;6]) (-1) 1);
  (*2509*) Assign (T 268) (Plain (Zeros [0;0;0;1]));
  (*2510*) AddTo (T 268) (Times (Einsum [(n_v'ooov,[0;1;2;3])] [0;1;2;3]) (-1) 2);
  (*2511*) AddTo (T 268) (Plain (Einsum [(n_v'ooov,[0;1;2;3])] [0;2;1;3]));
  (*2512*) AddTo n_l1new (Times (Einsum [(T 267,[0;1]); (T 268,[0;2;1;3])] [3;2]) (-8333333333333) 50000000000000);
  (*2513*) Del (T 267);
  (*2513*) Del (T 268);
  (*2514*) Assign (T 269) (Plain (Zeros [0;0;1;1]));
  (*2515*) AddTo (T 269) (Plain (Einsum [(n_v'ovov,[0;1;2;3])] [0;2;1;3]));
  (*2516*) AddTo (T 269) (Times (Einsum [(n_v'oovv,[0;1;2;3])] [0;1;2;3]) (-1) 2);
  (*2517*) AddTo n_l1new (Times (Einsum [(n_l1,[0;1]); (T 269,[1;2;0;3])] [3;2]) (2) 1);
  (*2518*) Del (T 269);
  (*2519*) Assign (T 270) (Plain (Zeros [0;0]));
  (*2520*) AddTo (T 270) (Times (Einsum [(T 247,[0;1])] [0;1]) (1714285714285783) 1000000000000000);
  (*2521*) AddTo (T 270) (Times (Einsum [(T 183,[0;1])] [0;1]) (2142857142857143) 5000000000000000);
  (*2522*) AddTo (T 270) (Times (Einsum [(T 184,[0;1])] [0;1]) (-892857142857143) 6250000000000000);
  (*2523*) AddTo (T 270) (Times (Einsum [(T 185,[0;1;2;3;4;5]); (T 186,[1;6;0;3;4;5])] [2;6]) (-892857142857143) 6250000000000000);
  (*2524*) AddTo (T 270) (Times (Einsum [(n_t3,[0;1;2;3;4;5]); (T 185,[1;2;6;5;4;3])] [6;0]) (892857142857143) 6250000000000000);
  (*2525*) AddTo (T 270) (Plain (Einsum [(n_l3,[0;1;2;3;4;5]); (T 189,[3;6;4;0;2;1])] [5;6]));
  (*2526*) AddTo (T 270) (Times (Einsum [(n_l2,[0;1;2;3]); (T 191,[2;4;1;0])] [3;4]) (1714285714285783) 500000000000000);
  (*2527*) AddTo n_l1new (Times (Einsum [(n_f'ov,[0;1]); (T 270,[2;0])] [1;2]) (-58333333333331) 100000000000000);
  (*2528*) Del (T 270);
  (*2529*) Assign (T 271) (Plain (Zeros [1;1]));
  (*2530*) AddTo (T 271) (Times (Einsum [(n_f'vv,[0;1])] [0;1]) (1) 2);
  (*2531*) AddTo (T 271) (Plain (Einsum [(n_t1,[0;1]); (T 55,[0;1;2;3])] [3;2]));
  (*2532*) AddTo n_l1new (Times (Einsum [(n_l1,[0;1]); (T 271,[0;2])] [2;1]) (2) 1);
  (*2533*) Del (T 271);
  (*2534*) Assign (T 272) (Plain (Zeros [0;0]));
  (*2535*) AddTo (T 272) (Times (Einsum [(n_v'ovov,[0;1;2;3]); (T 191,[2;4;1;3])] [0;4]) (2) 1);
  (*2536*) Assign (T 273) (Plain (Zeros [0;0;0;1]));
  (*2537*) AddTo (T 273) (Plain (Einsum [(n_v'ooov,[0;1;2;3])] [0;1;2;3]));
  (*2538*) AddTo (T 273) (Times (Einsum [(n_v'ooov,[0;1;2;3])] [2;0;1;3]) (-1) 2);
  (*2539*) Assign (T 274) (Plain (Zeros [0;0]));
  (*2540*) AddTo (T 274) (Times (Einsum [(n_t1,[0;1]); (T 273,[2;3;0;1])] [2;3]) (2) 1);
  (*2541*) Del (T 273);
  (*2542*) Assign (T 275) (Plain (Zeros [0;0]));
  (*2543*) AddTo (T 275) (Plain (Einsum [(n_t1,[0;1]); (T 69,[2;1])] [0;2]));
  (*2544*) Assign (T 276) (Plain (Zeros [0;0]));
  (*2545*) AddTo (T 276) (Plain (Einsum [(n_f'oo,[0;1])] [0;1]));
  (*2546*) AddTo (T 276) (Plain (Einsum [(T 272,[0;1])] [1;0]));
  (*2547*) AddTo (T 276) (Plain (Einsum [(T 274,[0;1])] [1;0]));
  (*2548*) AddTo (T 276) (Plain (Einsum [(T 275,[0;1])] [0;1]));
  (*2549*) Del (T 275);
  (*2550*) AddTo n_l1new (Times (Einsum [(n_l1,[0;1]); (T 276,[1;2])] [0;2]) (-1) 1);
  (*2551*) AddTo n_l3new (Times (Einsum [(T 276,[0;1]); (n_l3,[2;3;4;5;0;6])] [2;3;4;5;1;6]) (-1) 1);
  (*2552*) Del (T 276);
  (*2553*) Assign (T 277) (Plain (Zeros [0;0;1;1]));
  (*2554*) AddTo (T 277) (Plain (Einsum [(n_f'vv,[0;1]); (n_l2,[2;1;3;4])] [3;4;0;2]));
  (*2555*) Assign (T 278) (Plain (Zeros [0;0;1;1]));
  (*2556*) AddTo (T 278) (Plain (Einsum [(n_l1,[0;1]); (n_v'ovvv,[2;3;4;0])] [1;2;3;4]));
  (*2557*) Assign (T 279) (Plain (Zeros [0;0;1;1]));
  (*2558*) AddTo (T 279) (Plain (Einsum [(n_l1,[0;1]); (T 9,[1;2;3;4])] [2;3;0;4]));
  (*2559*) Assign (T 280) (Plain (Zeros [0;0;1;1]));
  (*2560*) AddTo (T 280) (Plain (Einsum [(n_l2,[0;1;2;3]); (T 6,[2;4;3;5])] [4;5;0;1]));
  (*2561*) Assign (T 281) (Plain (Zeros [0;0;1;1]));
  (*2562*) AddTo (T 281) (Plain (Einsum [(T 218,[0;1;2;3]); (n_l3,[4;5;3;6;2;1])] [0;6;4;5]));
  (*2563*) Assign (T 282) (Plain (Zeros [0;0;1;1]));
  (*2564*) AddTo (T 282) (Plain (Einsum [(T 123,[0;1;2;3]); (T 9,[0;2;4;5])] [1;4;3;5]));
  (*2565*) Assign (T 283) (Plain (Zeros [0;0;1;1]));
  (*2566*) AddTo (T 283) (Plain (Einsum [(n_v'ovvv,[0;1;2;3]); (T 124,[4;5;0;3])] [4;5;1;2]));
  (*2567*) Assign (T 284) (Plain (Zeros [0;1;1;1]));
  (*2568*) AddTo (T 284) (Plain (Einsum [(n_t1,[0;1]); (n_v'vvvv,[2;3;4;1])] [0;2;3;4]));
  (*2569*) Assign (T 285) (Plain (Zeros [0;0;0;1]));
  (*2570*) AddTo (T 285) (Plain (Einsum [(n_v'ooov,[0;1;2;3])] [0;1;2;3]));
  (*2571*) AddTo (T 285) (Times (Einsum [(T 9,[0;1;2;3])] [1;0;2;3]) (-1) 1);
  (*2572*) Assign (T 286) (Plain (Zeros [0;1;1;1]));
  (*2573*) AddTo (T 286) (Plain (Einsum [(n_t2,[0;1;2;3]); (T 285,[0;4;1;5])] [4;2;3;5]));
  (*2574*) Del (T 285);
  (*2575*) Assign (T 287) (Plain (Zeros [0;0;1;1]));
  (*2576*) AddTo (T 287) (Times (Einsum [(n_v'ovov,[0;1;2;3])] [0;2;3;1]) (-1) 1);
  (*2577*) AddTo (T 287) (Plain (Einsum [(n_v'ovov,[0;1;2;3])] [0;2;1;3]));
  (*2578*) Assign (T 288) (Plain (Zeros [0;1;1;1]));
  (*2579*) AddTo (T 288) (Times (Einsum [(T 287,[0;1;2;3]); (n_t3,[4;1;0;5;6;2])] [4;5;6;3]) (24999999999999) 50000000000000);
  (*2580*) Del (T 287);
  (*2581*) Assign (T 289) (Plain (Zeros [0;0;1;1]));
  (*2582*) AddTo (T 289) (Plain (Einsum [(n_v'ovov,[0;1;2;3])] [0;2;3;1]));
  (*2583*) AddTo (T 289) (Times (Einsum [(n_v'ovov,[0;1;2;3])] [0;2;1;3]) (-3333333333333333) 10000000000000000);
  (*2584*) Assign (T 290) (Plain (Zeros [0;1;1;1]));
  (*2585*) AddTo (T 290) (Times (Einsum [(T 289,[0;1;2;3]); (n_t3,[4;1;0;5;2;6])] [4;6;5;3]) (74999999999997) 50000000000000);
  (*2586*) Del (T 289);
  (*2587*) Assign (T 291) (Plain (Zeros [0;1;1;1]));
  (*2588*) AddTo (T 291) (Plain (Einsum [(n_v'ovvv,[0;1;2;3])] [0;1;2;3]));
  (*2589*) AddTo (T 291) (Times (Einsum [(n_v'ovvv,[0;1;2;3])] [0;2;1;3]) (-1) 1);
  (*2590*) AddTo (T 291) (Times (Einsum [(T 284,[0;1;2;3])] [0;2;3;1]) (-1) 1);
  (*2591*) AddTo (T 291) (Plain (Einsum [(T 284,[0;1;2;3])] [0;3;2;1]));
  (*2592*) AddTo (T 291) (Plain (Einsum [(T 286,[0;1;2;3])] [0;1;2;3]));
  (*2593*) AddTo (T 291) (Times (Einsum [(T 286,[0;1;2;3])] [0;2;1;3]) (-1) 1);
  (*2594*) Del (T 286);
  (*2595*) AddTo (T 291) (Times (Einsum [(T 288,[0;1;2;3])] [0;1;2;3]) (-1) 1);
  (*2596*) Del (T 288);
  (*2597*) AddTo (T 291) (Plain (Einsum [(T 290,[0;1;2;3])] [0;1;2;3]));
  (*2598*) Del (T 290);
  (*2599*) Assign (T 292) (Plain (Zeros [0;0;1;1]));
  (*2600*) AddTo (T 292) (Times (Einsum [(T 291,[0;1;2;3]); (n_l3,[2;4;1;0;5;6])] [6;5;4;3]) (1) 2);
  (*2601*) Del (T 291);
  (*2602*) Assign (T 293) (Plain (Zeros [0;1;1;1]));
  (*2603*) AddTo (T 293) (Times (Einsum [(T 17,[0;1;2;3]); (n_t3,[4;1;0;5;6;2])] [4;5;6;3]) (24999999999999) 100000000000000);
  (*2604*) Assign (T 294) (Plain (Zeros [0;1;1;1]));
  (*2605*) AddTo (T 294) (Times (Einsum [(n_v'ovvv,[0;1;2;3]); (T 121,[0;4;1;5])] [4;2;3;5]) (2) 1);
  (*2606*) Assign (T 295) (Plain (Zeros [0;1;1;1]));
  (*2607*) AddTo (T 295) (Plain (Einsum [(n_v'ovvv,[0;1;2;3]); (T 118,[0;4;3;5])] [4;1;2;5]));
  (*2608*) Assign (T 296) (Plain (Zeros [0;1;1;1]));
  (*2609*) AddTo (T 296) (Times (Einsum [(T 293,[0;1;2;3])] [0;1;2;3]) (-1) 1);
  (*2610*) Del (T 293);
  (*2611*) AddTo (T 296) (Plain (Einsum [(T 294,[0;1;2;3])] [0;2;3;1]));
  (*2612*) Del (T 294);
  (*2613*) AddTo (T 296) (Plain (Einsum [(T 295,[0;1;2;3])] [0;2;3;1]));
  (*2614*) Del (T 295);
  (*2615*) Assign (T 297) (Plain (Zeros [0;0;1;1]));
  (*2616*) AddTo (T 297) (Plain (Einsum [(T 296,[0;1;2;3]); (n_l3,[1;4;2;0;5;6])] [6;5;4;3]));
  (*2617*) Del (T 296);
  (*2618*) Assign (T 298) (Plain (Zeros [0;0;0;1]));
  (*2619*) AddTo (T 298) (Plain (Einsum [(n_t1,[0;1]); (n_v'oooo,[2;3;4;0])] [2;3;4;1]));
  (*2620*) Assign (T 299) (Plain (Zeros [0;0;0;1]));
  (*2621*) AddTo (T 299) (Times (Einsum [(n_v'ooov,[0;1;2;3])] [0;1;2;3]) (1) 2);
  (*2622*) AddTo (T 299) (Times (Einsum [(T 298,[0;1;2;3])] [1;0;2;3]) (-1) 2);
  (*2623*) Del (T 298);
  (*2624*) Assign (T 300) (Plain (Zeros [0;0;0;1]));
  (*2625*) AddTo (T 300) (Plain (Einsum [(n_t1,[0;1]); (T 66,[2;3;0;4])] [3;2;4;1]));
  (*2626*) Assign (T 301) (Plain (Zeros [0;0;0;1]));
  (*2627*) AddTo (T 301) (Times (Einsum [(T 219,[0;1;2;3])] [0;1;2;3]) (-1) 2);
  (*2628*) AddTo (T 301) (Times (Einsum [(T 300,[0;1;2;3])] [0;1;2;3]) (1) 2);
  (*2629*) Del (T 300);
  (*2630*) AddTo (T 301) (Plain (Einsum [(T 224,[0;1;2;3])] [1;0;2;3]));
  (*2631*) Del (T 224);
  (*2632*) Assign (T 302) (Plain (Zeros [0;0;0;1;1;1]));
  (*2633*) AddTo (T 302) (Times (Einsum [(n_t3,[0;1;2;3;4;5])] [0;2;1;5;3;4]) (-1) 2);
  (*2634*) AddTo (T 302) (Times (Einsum [(n_t3,[0;1;2;3;4;5])] [0;2;1;3;5;4]) (1) 2);
  (*2635*) AddTo (T 302) (Plain (Einsum [(n_t3,[0;1;2;3;4;5])] [0;2;1;4;3;5]));
  (*2636*) AddTo (T 302) (Plain (Einsum [(n_t3,[0;1;2;3;4;5])] [1;0;2;4;3;5]));
  (*2637*) Assign (T 303) (Plain (Zeros [0;0;0;1]));
  (*2638*) AddTo (T 303) (Times (Einsum [(n_v'ovov,[0;1;2;3]); (T 302,[2;4;5;3;1;6])] [0;4;5;6]) (24999999999999) 50000000000000);
  (*2639*) Del (T 302);
  (*2640*) Assign (T 304) (Plain (Zeros [0;0;0;1]));
  (*2641*) AddTo (T 304) (Times (Einsum [(n_v'ooov,[0;1;2;3])] [0;1;2;3]) (2) 1);
  (*2642*) AddTo (T 304) (Times (Einsum [(n_v'ooov,[0;1;2;3])] [2;0;1;3]) (-1) 1);
  (*2643*) Assign (T 305) (Plain (Zeros [0;0;0;1]));
  (*2644*) AddTo (T 305) (Plain (Einsum [(n_t2,[0;1;2;3]); (T 304,[4;5;1;3])] [0;4;5;2]));
  (*2645*) Del (T 304);
  (*2646*) Assign (T 306) (Plain (Zeros [0;0;0;1]));
  (*2647*) AddTo (T 306) (Plain (Einsum [(n_t2,[0;1;2;3]); (T 2,[4;5;1;2])] [0;4;5;3]));
  (*2648*) Assign (T 307) (Plain (Zeros [0;0;0;1]));
  (*2649*) AddTo (T 307) (Times (Einsum [(T 217,[0;1;2;3])] [0;1;2;3]) (-24999999999999) 50000000000000);
  (*2650*) AddTo (T 307) (Plain (Einsum [(T 299,[0;1;2;3])] [0;2;1;3]));
  (*2651*) AddTo (T 307) (Times (Einsum [(T 299,[0;1;2;3])] [2;0;1;3]) (-1) 1);
  (*2652*) Del (T 299);
  (*2653*) AddTo (T 307) (Times (Einsum [(T 301,[0;1;2;3])] [0;1;2;3]) (-1) 1);
  (*2654*) AddTo (T 307) (Plain (Einsum [(T 301,[0;1;2;3])] [1;0;2;3]));
  (*2655*) Del (T 301);
  (*2656*) AddTo (T 307) (Plain (Einsum [(T 303,[0;1;2;3])] [1;2;0;3]));
  (*2657*) Del (T 303);
  (*2658*) AddTo (T 307) (Times (Einsum [(T 305,[0;1;2;3])] [0;2;1;3]) (-1) 1);
  (*2659*) Del (T 305);
  (*2660*) AddTo (T 307) (Plain (Einsum [(T 306,[0;1;2;3])] [0;2;1;3]));
  (*2661*) Del (T 306);
  (*2662*) Assign (T 308) (Plain (Zeros [0;0;1;1]));
  (*2663*) AddTo (T 308) (Plain (Einsum [(T 307,[0;1;2;3]); (n_l3,[4;5;3;0;6;1])] [6;2;4;5]));
  (*2664*) Del (T 307);
  (*2665*) Assign (T 309) (Plain (Zeros [0;0;0;1]));
  (*2666*) AddTo (T 309) (Plain (Einsum [(n_t1,[0;1]); (T 21,[2;3;4;0])] [2;3;4;1]));
  (*2667*) Assign (T 310) (Plain (Zeros [0;0;0;1]));
  (*2668*) AddTo (T 310) (Times (Einsum [(T 220,[0;1;2;3])] [0;1;2;3]) (1) 2);
  (*2669*) Del (T 220);
  (*2670*) AddTo (T 310) (Times (Einsum [(T 309,[0;1;2;3])] [0;1;2;3]) (-1) 2);
  (*2671*) Del (T 309);
  (*2672*) Assign (T 311) (Plain (Zeros [0;0;0;1]));
  (*2673*) AddTo (T 311) (Times (Einsum [(T 9,[0;1;2;3])] [0;1;2;3]) (-1) 2);
  (*2674*) AddTo (T 311) (Plain (Einsum [(T 9,[0;1;2;3])] [0;2;1;3]));
  (*2675*) Assign (T 312) (Plain (Zeros [0;0;0;1]));
  (*2676*) AddTo (T 312) (Times (Einsum [(n_t2,[0;1;2;3]); (T 311,[4;5;1;3])] [0;4;5;2]) (2) 1);
  (*2677*) Del (T 311);
  (*2678*) Assign (T 313) (Plain (Zeros [0;0;0;1]));
  (*2679*) AddTo (T 313) (Plain (Einsum [(T 9,[0;1;2;3])] [0;1;2;3]));
  (*2680*) AddTo (T 313) (Times (Einsum [(T 9,[0;1;2;3])] [0;2;1;3]) (-1) 1);
  (*2681*) Assign (T 314) (Plain (Zeros [0;0;0;1]));
  (*2682*) AddTo (T 314) (Plain (Einsum [(n_t2,[0;1;2;3]); (T 313,[4;5;1;2])] [0;4;5;3]));
  (*2683*) Del (T 313);
  (*2684*) Assign (T 315) (Plain (Zeros [0;0;1;1]));
  (*2685*) AddTo (T 315) (Plain (Einsum [(n_v'oovv,[0;1;2;3])] [0;1;2;3]));
  (*2686*) AddTo (T 315) (Times (Einsum [(n_v'ovov,[0;1;2;3])] [0;2;1;3]) (-1) 1);
  (*2687*) Assign (T 316) (Plain (Zeros [0;0;0;1]));
  (*2688*) AddTo (T 316) (Plain (Einsum [(n_t1,[0;1]); (T 315,[2;3;1;4])] [0;2;3;4]));
  (*2689*) Del (T 315);
  (*2690*) Assign (T 317) (Plain (Zeros [0;0;0;0]));
  (*2691*) AddTo (T 317) (Times (Einsum [(T 6,[0;1;2;3])] [0;2;1;3]) (-1) 1);
  (*2692*) AddTo (T 317) (Plain (Einsum [(T 6,[0;1;2;3])] [0;3;2;1]));
  (*2693*) Assign (T 318) (Plain (Zeros [0;0;0;1]));
  (*2694*) AddTo (T 318) (Plain (Einsum [(n_t1,[0;1]); (T 317,[2;3;4;0])] [2;3;4;1]));
  (*2695*) Del (T 317);
  (*2696*) Assign (T 319) (Plain (Zeros [0;0;0;1]));
  (*2697*) AddTo (T 319) (Plain (Einsum [(T 310,[0;1;2;3])] [0;1;2;3]));
  (*2698*) AddTo (T 319) (Times (Einsum [(T 310,[0;1;2;3])] [1;0;2;3]) (-1) 1);
  (*2699*) Del (T 310);
  (*2700*) AddTo (T 319) (Plain (Einsum [(T 312,[0;1;2;3])] [1;0;2;3]));
  (*2701*) Del (T 312);
  (*2702*) AddTo (T 319) (Plain (Einsum [(T 314,[0;1;2;3])] [1;0;2;3]));
  (*2703*) Del (T 314);
  (*2704*) AddTo (T 319) (Times (Einsum [(T 316,[0;1;2;3])] [0;2;1;3]) (-1) 1);
  (*2705*) Del (T 316);
  (*2706*) AddTo (T 319) (Times (Einsum [(T 318,[0;1;2;3])] [0;2;1;3]) (-1) 1);
  (*2707*) Del (T 318);
  (*2708*) Assign (T 320) (Plain (Zeros [0;0;1;1]));
  (*2709*) AddTo (T 320) (Plain (Einsum [(T 319,[0;1;2;3]); (n_l3,[4;5;3;0;6;1])] [6;2;4;5]));
  (*2710*) Del (T 319);
  (*2711*) Assign (T 321) (Plain (Zeros [0;0;1;1]));
  (*2712*) AddTo (T 321) (Times (Einsum [(n_t2,[0;1;2;3]); (T 15,[1;4;3;5])] [0;4;2;5]) (2) 1);
  (*2713*) Del (T 15);
  (*2714*) Assign (T 322) (Plain (Zeros [0;0;1;1]));
  (*2715*) AddTo (T 322) (Plain (Einsum [(n_t2,[0;1;2;3]); (T 17,[1;4;2;5])] [0;4;3;5]));
  (*2716*) Del (T 17);
  (*2717*) Assign (T 323) (Plain (Zeros [0;0;1;1]));
  (*2718*) AddTo (T 323) (Times (Einsum [(n_t1,[0;1]); (T 2,[0;2;3;4])] [2;3;1;4]) (1) 2);
  (*2719*) Del (T 2);
  (*2720*) Assign (T 324) (Plain (Zeros [0;0;1;1]));
  (*2721*) AddTo (T 324) (Plain (Einsum [(n_v'ovov,[0;1;2;3])] [0;2;1;3]));
  (*2722*) AddTo (T 324) (Times (Einsum [(n_v'oovv,[0;1;2;3])] [0;1;2;3]) (-1) 1);
  (*2723*) AddTo (T 324) (Plain (Einsum [(T 321,[0;1;2;3])] [0;1;2;3]));
  (*2724*) Del (T 321);
  (*2725*) AddTo (T 324) (Plain (Einsum [(T 322,[0;1;2;3])] [0;1;2;3]));
  (*2726*) Del (T 322);
  (*2727*) AddTo (T 324) (Times (Einsum [(T 323,[0;1;2;3])] [0;1;2;3]) (-1) 1);
  (*2728*) Del (T 323);
  (*2729*) Assign (T 325) (Plain (Zeros [0;0;1;1]));
  (*2730*) AddTo (T 325) (Plain (Einsum [(T 324,[0;1;2;3]); (T 113,[0;4;5;1;2;6])] [4;5;6;3]));
  (*2731*) Del (T 324);
  (*2732*) Assign (T 326) (Plain (Zeros [0;0;1;1]));
  (*2733*) AddTo (T 326) (Plain (Einsum [(n_t1,[0;1]); (T 23,[2;1;3;4])] [0;2;3;4]));
  (*2734*) Del (T 23);
  (*2735*) Assign (T 327) (Plain (Zeros [0;0;1;1]));
  (*2736*) AddTo (T 327) (Times (Einsum [(n_t1,[0;1]); (T 11,[2;3;0;4])] [2;3;1;4]) (1) 2);
  (*2737*) Del (T 11);
  (*2738*) Assign (T 328) (Plain (Zeros [0;0;1;1]));
  (*2739*) AddTo (T 328) (Times (Einsum [(T 326,[0;1;2;3])] [0;1;3;2]) (-1) 1);
  (*2740*) Del (T 326);
  (*2741*) AddTo (T 328) (Times (Einsum [(T 327,[0;1;2;3])] [0;1;2;3]) (-1) 1);
  (*2742*) Del (T 327);
  (*2743*) Assign (T 329) (Plain (Zeros [0;0;1;1]));
  (*2744*) AddTo (T 329) (Plain (Einsum [(T 328,[0;1;2;3]); (T 113,[0;4;5;1;2;6])] [4;5;6;3]));
  (*2745*) Del (T 328);
  (*2746*) Assign (T 330) (Plain (Zeros [0;1;1;1]));
  (*2747*) AddTo (T 330) (Plain (Einsum [(T 131,[0;1;2;3]); (n_l3,[4;5;2;1;6;0])] [6;4;5;3]));
  (*2748*) Assign (T 331) (Plain (Zeros [0;1;1;1]));
  (*2749*) AddTo (T 331) (Times (Einsum [(T 150,[0;1;2;3])] [0;2;1;3]) (2) 1);
  (*2750*) AddTo (T 331) (Times (Einsum [(T 330,[0;1;2;3])] [0;1;2;3]) (-1) 1);
  (*2751*) Del (T 330);
  (*2752*) Assign (T 332) (Plain (Zeros [0;0;1;1]));
  (*2753*) AddTo (T 332) (Times (Einsum [(n_v'ovvv,[0;1;2;3]); (T 331,[4;5;3;1])] [0;4;2;5]) (1) 2);
  (*2754*) Del (T 331);
  (*2755*) Assign (T 333) (Plain (Zeros [0;0;1;1]));
  (*2756*) AddTo (T 333) (Plain (Einsum [(n_l2,[0;1;2;3]); (n_t2,[4;2;1;5])] [3;4;0;5]));
  (*2757*) Assign (T 334) (Plain (Zeros [0;0;1;1]));
  (*2758*) AddTo (T 334) (Plain (Einsum [(T 131,[0;1;2;3]); (T 119,[0;1;4;5;6;2])] [4;5;6;3]));
  (*2759*) Del (T 131);
  (*2760*) Assign (T 335) (Plain (Zeros [0;0;0;1;1;1]));
  (*2761*) AddTo (T 335) (Times (Einsum [(n_l3,[0;1;2;3;4;5])] [3;5;4;0;2;1]) (-1) 2);
  (*2762*) AddTo (T 335) (Plain (Einsum [(n_l3,[0;1;2;3;4;5])] [3;4;5;1;0;2]));
  (*2763*) Assign (T 336) (Plain (Zeros [0;0;0;1]));
  (*2764*) AddTo (T 336) (Times (Einsum [(n_t2,[0;1;2;3]); (T 335,[1;4;5;2;3;6])] [0;4;5;6]) (2) 1);
  (*2765*) Del (T 335);
  (*2766*) Assign (T 337) (Plain (Zeros [0;0;0;1]));
  (*2767*) AddTo (T 337) (Plain (Einsum [(T 209,[0;1;2;3])] [1;0;2;3]));
  (*2768*) Del (T 209);
  (*2769*) AddTo (T 337) (Plain (Einsum [(T 336,[0;1;2;3])] [2;1;0;3]));
  (*2770*) Del (T 336);
  (*2771*) Assign (T 338) (Plain (Zeros [0;0;1;1]));
  (*2772*) AddTo (T 338) (Plain (Einsum [(n_t1,[0;1]); (T 337,[0;2;3;4])] [2;3;1;4]));
  (*2773*) Assign (T 339) (Plain (Zeros [0;0;1;1]));
  (*2774*) AddTo (T 339) (Times (Einsum [(T 333,[0;1;2;3])] [0;1;2;3]) (2) 1);
  (*2775*) Del (T 333);
  (*2776*) AddTo (T 339) (Times (Einsum [(T 110,[0;1;2;3])] [0;1;2;3]) (24999999999999) 25000000000000);
  (*2777*) Del (T 110);
  (*2778*) AddTo (T 339) (Times (Einsum [(T 111,[0;1;2;3])] [0;1;2;3]) (24999999999999) 25000000000000);
  (*2779*) Del (T 111);
  (*2780*) AddTo (T 339) (Times (Einsum [(T 115,[0;1;2;3])] [0;1;2;3]) (2) 1);
  (*2781*) Del (T 115);
  (*2782*) AddTo (T 339) (Times (Einsum [(T 334,[0;1;2;3])] [0;1;2;3]) (-1) 1);
  (*2783*) Del (T 334);
  (*2784*) AddTo (T 339) (Plain (Einsum [(T 338,[0;1;2;3])] [0;1;3;2]));
  (*2785*) Del (T 338);
  (*2786*) Assign (T 340) (Plain (Zeros [0;0;1;1]));
  (*2787*) AddTo (T 340) (Times (Einsum [(n_v'ovov,[0;1;2;3]); (T 339,[4;2;5;1])] [0;4;3;5]) (1) 2);
  (*2788*) Del (T 339);
  (*2789*) Assign (T 341) (Plain (Zeros [0;0;1;1]));
  (*2790*) AddTo (T 341) (Times (Einsum [(T 156,[0;1;2;3]); (T 41,[0;4;5;3])] [4;5;1;2]) (-1) 2);
  (*2791*) Assign (T 342) (Plain (Zeros [1;1]));
  (*2792*) AddTo (T 342) (Times (Einsum [(n_l3,[0;1;2;3;4;5]); (T 236,[3;5;4;6;1;2])] [0;6]) (2333333333333333) 1000000000000000);
  (*2793*) Del (T 236);
  (*2794*) Assign (T 343) (Plain (Zeros [1;1]));
  (*2795*) AddTo (T 343) (Times (Einsum [(n_l3,[0;1;2;3;4;5]); (T 117,[3;4;5;6;1;2])] [0;6]) (3333333333333333) 10000000000000000);
  (*2796*) Del (T 117);
  (*2797*) Assign (T 344) (Plain (Zeros [1;1]));
  (*2798*) AddTo (T 344) (Times (Einsum [(n_l2,[0;1;2;3]); (T 121,[2;3;4;1])] [0;4]) (25000000000001) 3125000000000);
  (*2799*) Del (T 121);
  (*2800*) Assign (T 345) (Plain (Zeros [1;1]));
  (*2801*) AddTo (T 345) (Plain (Einsum [(T 235,[0;1])] [0;1]));
  (*2802*) Del (T 235);
  (*2803*) AddTo (T 345) (Plain (Einsum [(T 342,[0;1])] [0;1]));
  (*2804*) Del (T 342);
  (*2805*) AddTo (T 345) (Times (Einsum [(T 343,[0;1])] [0;1]) (-1) 1);
  (*2806*) Del (T 343);
  (*2807*) AddTo (T 345) (Plain (Einsum [(T 344,[0;1])] [0;1]));
  (*2808*) Del (T 344);
  (*2809*) Assign (T 346) (Plain (Zeros [0;0;1;1]));
  (*2810*) AddTo (T 346) (Times (Einsum [(T 345,[0;1]); (n_v'ovov,[2;1;3;4])] [2;3;4;0]) (24999999999999) 100000000000000);
  (*2811*) Del (T 345);
  (*2812*) Assign (T 347) (Plain (Zeros [0;0;1;1]));
  (*2813*) AddTo (T 347) (Plain (Einsum [(n_v'oovv,[0;1;2;3])] [0;1;2;3]));
  (*2814*) AddTo (T 347) (Plain (Einsum [(T 91,[0;1;2;3])] [0;1;3;2]));
  (*2815*) Assign (T 348) (Plain (Zeros [0;0;1;1]));
  (*2816*) AddTo (T 348) (Plain (Einsum [(n_l2,[0;1;2;3]); (T 347,[2;4;1;5])] [3;4;0;5]));
  (*2817*) Del (T 347);
  (*2818*) Assign (T 349) (Plain (Zeros [0;0;0;1]));
  (*2819*) AddTo (T 349) (Times (Einsum [(T 123,[0;1;2;3])] [0;1;2;3]) (-1) 1);
  (*2820*) AddTo (T 349) (Plain (Einsum [(T 124,[0;1;2;3])] [0;1;2;3]));
  (*2821*) Del (T 124);
  (*2822*) AddTo (T 349) (Plain (Einsum [(T 200,[0;1;2;3])] [1;0;2;3]));
  (*2823*) Assign (T 350) (Plain (Zeros [0;0;1;1]));
  (*2824*) AddTo (T 350) (Plain (Einsum [(n_v'ooov,[0;1;2;3]); (T 349,[1;4;2;5])] [0;4;3;5]));
  (*2825*) Del (T 349);
  (*2826*) Assign (T 351) (Plain (Zeros [0;0]));
  (*2827*) AddTo (T 351) (Times (Einsum [(T 185,[0;1;2;3;4;5]); (T 186,[1;6;0;3;4;5])] [2;6]) (3333333333333333) 10000000000000000);
  (*2828*) Del (T 186);
  (*2829*) Assign (T 352) (Plain (Zeros [0;0]));
  (*2830*) AddTo (T 352) (Times (Einsum [(n_t3,[0;1;2;3;4;5]); (T 185,[1;2;6;5;4;3])] [0;6]) (3333333333333333) 10000000000000000);
  (*2831*) Del (T 185);
  (*2832*) Assign (T 353) (Plain (Zeros [0;0]));
  (*2833*) AddTo (T 353) (Times (Einsum [(n_l3,[0;1;2;3;4;5]); (T 189,[3;6;4;0;2;1])] [5;6]) (2333333333333333) 1000000000000000);
  (*2834*) Del (T 189);
  (*2835*) Assign (T 354) (Plain (Zeros [0;0]));
  (*2836*) AddTo (T 354) (Times (Einsum [(n_l2,[0;1;2;3]); (T 191,[3;4;0;1])] [2;4]) (25000000000001) 3125000000000);
  (*2837*) Assign (T 355) (Plain (Zeros [0;0]));
  (*2838*) AddTo (T 355) (Times (Einsum [(T 247,[0;1])] [0;1]) (25000000000001) 6250000000000);
  (*2839*) Del (T 247);
  (*2840*) AddTo (T 355) (Plain (Einsum [(T 183,[0;1])] [0;1]));
  (*2841*) Del (T 183);
  (*2842*) AddTo (T 355) (Times (Einsum [(T 184,[0;1])] [0;1]) (-3333333333333333) 10000000000000000);
  (*2843*) Del (T 184);
  (*2844*) AddTo (T 355) (Times (Einsum [(T 351,[0;1])] [0;1]) (-1) 1);
  (*2845*) Del (T 351);
  (*2846*) AddTo (T 355) (Plain (Einsum [(T 352,[0;1])] [1;0]));
  (*2847*) Del (T 352);
  (*2848*) AddTo (T 355) (Plain (Einsum [(T 353,[0;1])] [0;1]));
  (*2849*) Del (T 353);
  (*2850*) AddTo (T 355) (Plain (Einsum [(T 354,[0;1])] [0;1]));
  (*2851*) Del (T 354);
  (*2852*) Assign (T 356) (Plain (Zeros [0;0;1;1]));
  (*2853*) AddTo (T 356) (Times (Einsum [(T 355,[0;1]); (n_v'ovov,[2;3;1;4])] [2;0;4;3]) (24999999999999) 100000000000000);
  (*2854*) Del (T 355);
  (*2855*) Assign (T 357) (Plain (Zeros [0;0;0;0]));
  (*2856*) AddTo (T 357) (Times (Einsum [(n_t1,[0;1]); (T 213,[2;3;4;1])] [0;2;3;4]) (-1) 1);
  (*2857*) Assign (T 358) (Plain (Zeros [0;0;1;1]));
  (*2858*) AddTo (T 358) (Times (Einsum [(n_v'ovov,[0;1;2;3]); (T 357,[0;4;5;2])] [4;5;3;1]) (1) 2);
  (*2859*) Del (T 357);
  (*2860*) Assign (T 359) (Plain (Zeros [0;0;1;1]));
  (*2861*) AddTo (T 359) (Times (Einsum [(T 37,[0;1]); (T 213,[2;3;0;4])] [2;3;1;4]) (-1) 1);
  (*2862*) Assign (T 360) (Plain (Zeros [0;0]));
  (*2863*) AddTo (T 360) (Plain (Einsum [(n_f'ov,[0;1]); (n_t1,[2;1])] [0;2]));
  (*2864*) Assign (T 361) (Plain (Zeros [0;0]));
  (*2865*) AddTo (T 361) (Plain (Einsum [(n_f'oo,[0;1])] [0;1]));
  (*2866*) AddTo (T 361) (Plain (Einsum [(T 360,[0;1])] [1;0]));
  (*2867*) Del (T 360);
  (*2868*) Assign (T 362) (Plain (Zeros [0;0;1;1]));
  (*2869*) AddTo (T 362) (Plain (Einsum [(T 361,[0;1]); (n_l2,[2;3;0;4])] [4;1;2;3]));
  (*2870*) Assign (T 363) (Plain (Zeros [0;0;0;1]));
  (*2871*) AddTo (T 363) (Plain (Einsum [(T 123,[0;1;2;3])] [0;1;2;3]));
  (*2872*) AddTo (T 363) (Plain (Einsum [(T 166,[0;1;2;3])] [0;1;2;3]));
  (*2873*) Assign (T 364) (Plain (Zeros [0;0;1;1]));
  (*2874*) AddTo (T 364) (Plain (Einsum [(n_f'ov,[0;1]); (T 363,[2;3;0;4])] [2;3;4;1]));
  (*2875*) Assign (T 365) (Plain (Zeros [0;0;1;1]));
  (*2876*) AddTo (T 365) (Plain (Einsum [(T 277,[0;1;2;3])] [0;1;2;3]));
  (*2877*) Del (T 277);
  (*2878*) AddTo (T 365) (Plain (Einsum [(T 278,[0;1;2;3])] [0;1;2;3]));
  (*2879*) Del (T 278);
  (*2880*) AddTo (T 365) (Times (Einsum [(T 279,[0;1;2;3])] [0;1;2;3]) (-1) 1);
  (*2881*) Del (T 279);
  (*2882*) AddTo (T 365) (Plain (Einsum [(T 280,[0;1;2;3])] [0;1;2;3]));
  (*2883*) Del (T 280);
  (*2884*) AddTo (T 365) (Times (Einsum [(T 281,[0;1;2;3])] [0;1;2;3]) (-1) 1);
  (*2885*) Del (T 281);
  (*2886*) AddTo (T 365) (Plain (Einsum [(T 282,[0;1;2;3])] [0;1;2;3]));
  (*2887*) Del (T 282);
  (*2888*) AddTo (T 365) (Plain (Einsum [(T 283,[0;1;2;3])] [0;1;2;3]));
  (*2889*) Del (T 283);
  (*2890*) AddTo (T 365) (Times (Einsum [(T 292,[0;1;2;3])] [0;1;2;3]) (-1) 1);
  (*2891*) Del (T 292);
  (*2892*) AddTo (T 365) (Times (Einsum [(T 297,[0;1;2;3])] [0;1;2;3]) (-1) 1);
  (*2893*) Del (T 297);
  (*2894*) AddTo (T 365) (Times (Einsum [(T 308,[0;1;2;3])] [0;1;2;3]) (-1) 1);
  (*2895*) Del (T 308);
  (*2896*) AddTo (T 365) (Times (Einsum [(T 320,[0;1;2;3])] [0;1;2;3]) (-1) 1);
  (*2897*) Del (T 320);
  (*2898*) AddTo (T 365) (Times (Einsum [(T 325,[0;1;2;3])] [0;1;2;3]) (-1) 1);
  (*2899*) Del (T 325);
  (*2900*) AddTo (T 365) (Plain (Einsum [(T 329,[0;1;2;3])] [0;1;2;3]));
  (*2901*) Del (T 329);
  (*2902*) AddTo (T 365) (Plain (Einsum [(T 332,[0;1;2;3])] [1;0;3;2]));
  (*2903*) Del (T 332);
  (*2904*) AddTo (T 365) (Plain (Einsum [(T 340,[0;1;2;3])] [1;0;3;2]));
  (*2905*) Del (T 340);
  (*2906*) AddTo (T 365) (Plain (Einsum [(T 341,[0;1;2;3])] [0;1;2;3]));
  (*2907*) Del (T 341);
  (*2908*) AddTo (T 365) (Times (Einsum [(T 346,[0;1;2;3])] [1;0;3;2]) (-1) 1);
  (*2909*) Del (T 346);
  (*2910*) AddTo (T 365) (Times (Einsum [(T 348,[0;1;2;3])] [0;1;2;3]) (-1) 1);
  (*2911*) Del (T 348);
  (*2912*) AddTo (T 365) (Times (Einsum [(T 350,[0;1;2;3])] [1;0;3;2]) (-1) 1);
  (*2913*) Del (T 350);
  (*2914*) AddTo (T 365) (Times (Einsum [(T 356,[0;1;2;3])] [1;0;3;2]) (-1) 1);
  (*2915*) Del (T 356);
  (*2916*) AddTo (T 365) (Plain (Einsum [(T 358,[0;1;2;3])] [0;1;3;2]));
  (*2917*) Del (T 358);
  (*2918*) AddTo (T 365) (Times (Einsum [(T 359,[0;1;2;3])] [0;1;3;2]) (-1) 1);
  (*2919*) Del (T 359);
  (*2920*) AddTo (T 365) (Times (Einsum [(T 362,[0;1;2;3])] [1;0;3;2]) (-1) 1);
  (*2921*) Del (T 362);
  (*2922*) AddTo (T 365) (Times (Einsum [(T 364,[0;1;2;3])] [0;1;3;2]) (-1) 1);
  (*2923*) Del (T 364);
  (*2924*) AddTo n_l2new (Plain (Einsum [(T 365,[0;1;2;3])] [3;2;0;1]));
  (*2925*) AddTo n_l2new (Plain (Einsum [(T 365,[0;1;2;3])] [2;3;1;0]));
  (*2926*) Del (T 365);
  (*2927*) Assign (T 366) (Plain (Zeros [0;0;1;1]));
  (*2928*) AddTo (T 366) (Plain (Einsum [(n_l1,[0;1]); (n_v'ooov,[2;1;3;4])] [2;3;0;4]));
  (*2929*) Assign (T 367) (Plain (Zeros [0;0;1;1]));
  (*2930*) AddTo (T 367) (Plain (Einsum [(n_l2,[0;1;2;3]); (T 100,[2;4;5;1])] [3;4;0;5]));
  (*2931*) Assign (T 368) (Plain (Zeros [0;0;1;1]));
  (*2932*) AddTo (T 368) (Plain (Einsum [(T 123,[0;1;2;3]); (T 9,[1;2;4;5])] [0;4;3;5]));
  (*2933*) Assign (T 369) (Plain (Zeros [0;0;1;1]));
  (*2934*) AddTo (T 369) (Plain (Einsum [(n_v'ooov,[0;1;2;3]); (T 166,[4;1;2;5])] [4;0;5;3]));
  (*2935*) Assign (T 370) (Plain (Zeros [0;0;1;1]));
  (*2936*) AddTo (T 370) (Plain (Einsum [(n_v'ooov,[0;1;2;3]); (T 150,[1;4;5;3])] [0;2;4;5]));
  (*2937*) Del (T 150);
  (*2938*) Assign (T 371) (Plain (Zeros [0;0;1;1]));
  (*2939*) AddTo (T 371) (Plain (Einsum [(T 100,[0;1;2;3]); (T 119,[0;4;5;1;3;6])] [4;5;6;2]));
  (*2940*) Assign (T 372) (Plain (Zeros [0;0;1;1]));
  (*2941*) AddTo (T 372) (Plain (Einsum [(n_l3,[0;1;2;3;4;5]); (T 58,[5;3;4;6;7;2])] [6;7;0;1]));
  (*2942*) Del (T 58);
  (*2943*) Assign (T 373) (Plain (Zeros [0;1;1;1]));
  (*2944*) AddTo (T 373) (Plain (Einsum [(n_t2,[0;1;2;3]); (n_l3,[4;5;2;6;1;0])] [6;4;5;3]));
  (*2945*) Assign (T 374) (Plain (Zeros [0;0;1;1]));
  (*2946*) AddTo (T 374) (Plain (Einsum [(T 373,[0;1;2;3]); (T 9,[0;4;5;3])] [5;4;1;2]));
  (*2947*) Assign (T 375) (Plain (Zeros [0;1;1;1]));
  (*2948*) AddTo (T 375) (Plain (Einsum [(n_t2,[0;1;2;3]); (n_v'ooov,[4;0;1;5])] [4;2;3;5]));
  (*2949*) Assign (T 376) (Plain (Zeros [0;1;1;1]));
  (*2950*) AddTo (T 376) (Plain (Einsum [(n_t2,[0;1;2;3]); (n_v'ovvv,[1;4;5;2])] [0;3;4;5]));
  (*2951*) Assign (T 377) (Plain (Zeros [0;1;1;1]));
  (*2952*) AddTo (T 377) (Plain (Einsum [(n_v'ovov,[0;1;2;3]); (n_t3,[4;0;2;5;6;3])] [4;5;6;1]));
  (*2953*) Assign (T 378) (Plain (Zeros [0;1;1;1]));
  (*2954*) AddTo (T 378) (Plain (Einsum [(n_t2,[0;1;2;3]); (T 9,[4;0;1;5])] [4;2;3;5]));
  (*2955*) Assign (T 379) (Plain (Zeros [0;0;0;1;1;1]));
  (*2956*) AddTo (T 379) (Times (Einsum [(n_t3,[0;1;2;3;4;5])] [0;2;1;5;3;4]) (-1) 1);
  (*2957*) AddTo (T 379) (Plain (Einsum [(n_t3,[0;1;2;3;4;5])] [0;2;1;3;5;4]));
  (*2958*) Assign (T 380) (Plain (Zeros [0;1;1;1]));
  (*2959*) AddTo (T 380) (Times (Einsum [(n_v'ovov,[0;1;2;3]); (T 379,[0;2;4;5;3;6])] [4;1;5;6]) (24999999999999) 50000000000000);
  (*2960*) Assign (T 381) (Plain (Zeros [0;1;1;1]));
  (*2961*) AddTo (T 381) (Plain (Einsum [(n_v'ovvv,[0;1;2;3])] [0;1;2;3]));
  (*2962*) AddTo (T 381) (Plain (Einsum [(T 284,[0;1;2;3])] [0;3;2;1]));
  (*2963*) Del (T 284);
  (*2964*) AddTo (T 381) (Plain (Einsum [(T 375,[0;1;2;3])] [0;1;2;3]));
  (*2965*) Del (T 375);
  (*2966*) AddTo (T 381) (Times (Einsum [(T 376,[0;1;2;3])] [0;3;1;2]) (-1) 1);
  (*2967*) Del (T 376);
  (*2968*) AddTo (T 381) (Times (Einsum [(T 377,[0;1;2;3])] [0;1;2;3]) (-24999999999999) 25000000000000);
  (*2969*) Del (T 377);
  (*2970*) AddTo (T 381) (Plain (Einsum [(T 378,[0;1;2;3])] [0;2;1;3]));
  (*2971*) Del (T 378);
  (*2972*) AddTo (T 381) (Times (Einsum [(T 380,[0;1;2;3])] [0;3;2;1]) (-1) 1);
  (*2973*) Del (T 380);
  (*2974*) Assign (T 382) (Plain (Zeros [0;0;1;1]));
  (*2975*) AddTo (T 382) (Plain (Einsum [(T 381,[0;1;2;3]); (n_l3,[4;2;1;5;6;0])] [5;6;4;3]));
  (*2976*) Del (T 381);
  (*2977*) Assign (T 383) (Plain (Zeros [0;0;0;1]));
  (*2978*) AddTo (T 383) (Times (Einsum [(n_v'ovov,[0;1;2;3]); (T 379,[2;4;5;3;1;6])] [0;4;5;6]) (24999999999999) 50000000000000);
  (*2979*) Del (T 379);
  (*2980*) Assign (T 384) (Plain (Zeros [0;0;0;1]));
  (*2981*) AddTo (T 384) (Times (Einsum [(n_v'ooov,[0;1;2;3])] [0;1;2;3]) (-1) 1);
  (*2982*) AddTo (T 384) (Times (Einsum [(n_v'ooov,[0;1;2;3])] [0;2;1;3]) (2) 1);
  (*2983*) AddTo (T 384) (Times (Einsum [(T 9,[0;1;2;3])] [0;1;2;3]) (2) 1);
  (*2984*) AddTo (T 384) (Times (Einsum [(T 9,[0;1;2;3])] [0;2;1;3]) (-1) 1);
  (*2985*) Assign (T 385) (Plain (Zeros [0;0;0;1]));
  (*2986*) AddTo (T 385) (Plain (Einsum [(n_t2,[0;1;2;3]); (T 384,[4;1;5;3])] [0;4;5;2]));
  (*2987*) Del (T 384);
  (*2988*) Assign (T 386) (Plain (Zeros [0;0;0;1]));
  (*2989*) AddTo (T 386) (Plain (Einsum [(n_v'ooov,[0;1;2;3])] [0;2;1;3]));
  (*2990*) AddTo (T 386) (Plain (Einsum [(T 9,[0;1;2;3])] [0;1;2;3]));
  (*2991*) Assign (T 387) (Plain (Zeros [0;0;0;1]));
  (*2992*) AddTo (T 387) (Plain (Einsum [(n_t2,[0;1;2;3]); (T 386,[4;1;5;2])] [0;4;5;3]));
  (*2993*) Assign (T 388) (Plain (Zeros [0;0;0;1]));
  (*2994*) AddTo (T 388) (Plain (Einsum [(T 68,[0;1]); (n_t2,[2;3;1;4])] [2;3;0;4]));
  (*2995*) Assign (T 389) (Plain (Zeros [0;0;0;0]));
  (*2996*) AddTo (T 389) (Plain (Einsum [(n_v'oooo,[0;1;2;3])] [0;1;2;3]));
  (*2997*) AddTo (T 389) (Plain (Einsum [(T 6,[0;1;2;3])] [2;1;3;0]));
  (*2998*) AddTo (T 389) (Plain (Einsum [(T 66,[0;1;2;3])] [3;1;2;0]));
  (*2999*) Assign (T 390) (Plain (Zeros [0;0;0;1]));
  (*3000*) AddTo (T 390) (Plain (Einsum [(n_t1,[0;1]); (T 389,[0;2;3;4])] [2;3;4;1]));
  (*3001*) Del (T 389);
  (*3002*) Assign (T 391) (Plain (Zeros [0;0;0;1]));
  (*3003*) AddTo (T 391) (Times (Einsum [(n_v'ooov,[0;1;2;3])] [2;0;1;3]) (-1) 1);
  (*3004*) AddTo (T 391) (Times (Einsum [(T 9,[0;1;2;3])] [1;0;2;3]) (-1) 1);
  (*3005*) AddTo (T 391) (Times (Einsum [(T 219,[0;1;2;3])] [1;0;2;3]) (-1) 1);
  (*3006*) Del (T 219);
  (*3007*) AddTo (T 391) (Times (Einsum [(T 217,[0;1;2;3])] [0;1;2;3]) (-24999999999999) 25000000000000);
  (*3008*) Del (T 217);
  (*3009*) AddTo (T 391) (Times (Einsum [(T 383,[0;1;2;3])] [2;1;0;3]) (-1) 1);
  (*3010*) Del (T 383);
  (*3011*) AddTo (T 391) (Times (Einsum [(T 385,[0;1;2;3])] [0;1;2;3]) (-1) 1);
  (*3012*) Del (T 385);
  (*3013*) AddTo (T 391) (Plain (Einsum [(T 387,[0;1;2;3])] [0;1;2;3]));
  (*3014*) Del (T 387);
  (*3015*) AddTo (T 391) (Times (Einsum [(T 388,[0;1;2;3])] [1;0;2;3]) (-1) 1);
  (*3016*) Del (T 388);
  (*3017*) AddTo (T 391) (Plain (Einsum [(T 390,[0;1;2;3])] [0;2;1;3]));
  (*3018*) Del (T 390);
  (*3019*) Assign (T 392) (Plain (Zeros [0;0;1;1]));
  (*3020*) AddTo (T 392) (Plain (Einsum [(T 391,[0;1;2;3]); (n_l3,[4;5;3;6;1;0])] [6;2;4;5]));
  (*3021*) Del (T 391);
  (*3022*) Assign (T 393) (Plain (Zeros [0;1;1;1]));
  (*3023*) AddTo (T 393) (Plain (Einsum [(n_t2,[0;1;2;3]); (n_v'ovvv,[1;2;4;5])] [0;3;4;5]));
  (*3024*) Assign (T 394) (Plain (Zeros [0;1;1;1]));
  (*3025*) AddTo (T 394) (Times (Einsum [(n_v'ovvv,[0;1;2;3])] [0;1;2;3]) (2) 1);
  (*3026*) AddTo (T 394) (Times (Einsum [(n_v'ovvv,[0;1;2;3])] [0;2;3;1]) (-1) 1);
  (*3027*) Assign (T 395) (Plain (Zeros [0;1;1;1]));
  (*3028*) AddTo (T 395) (Times (Einsum [(n_t2,[0;1;2;3]); (T 394,[1;3;4;5])] [0;2;4;5]) (1) 2);
  (*3029*) Assign (T 396) (Plain (Zeros [0;1;1;1]));
  (*3030*) AddTo (T 396) (Times (Einsum [(T 393,[0;1;2;3])] [0;1;3;2]) (1) 2);
  (*3031*) Del (T 393);
  (*3032*) AddTo (T 396) (Times (Einsum [(T 395,[0;1;2;3])] [0;1;3;2]) (-1) 1);
  (*3033*) Del (T 395);
  (*3034*) Assign (T 397) (Plain (Zeros [0;0;1;1]));
  (*3035*) AddTo (T 397) (Times (Einsum [(T 396,[0;1;2;3]); (n_l3,[4;3;1;5;6;0])] [5;6;4;2]) (2) 1);
  (*3036*) Del (T 396);
  (*3037*) Assign (T 398) (Plain (Zeros [0;0;0;1]));
  (*3038*) AddTo (T 398) (Plain (Einsum [(n_t2,[0;1;2;3]); (T 386,[4;5;1;2])] [0;4;5;3]));
  (*3039*) Del (T 386);
  (*3040*) Assign (T 399) (Plain (Zeros [0;0;1;1]));
  (*3041*) AddTo (T 399) (Plain (Einsum [(n_v'oovv,[0;1;2;3])] [0;1;2;3]));
  (*3042*) AddTo (T 399) (Plain (Einsum [(T 91,[0;1;2;3])] [1;0;3;2]));
  (*3043*) Assign (T 400) (Plain (Zeros [0;0;0;1]));
  (*3044*) AddTo (T 400) (Plain (Einsum [(n_t1,[0;1]); (T 399,[2;3;1;4])] [0;2;3;4]));
  (*3045*) Del (T 399);
  (*3046*) Assign (T 401) (Plain (Zeros [0;0;0;0]));
  (*3047*) AddTo (T 401) (Plain (Einsum [(n_t1,[0;1]); (T 41,[2;3;4;1])] [0;2;3;4]));
  (*3048*) Del (T 41);
  (*3049*) Assign (T 402) (Plain (Zeros [0;0;0;1]));
  (*3050*) AddTo (T 402) (Plain (Einsum [(n_t1,[0;1]); (T 401,[2;3;4;0])] [2;4;3;1]));
  (*3051*) Del (T 401);
  (*3052*) Assign (T 403) (Plain (Zeros [0;0;0;1]));
  (*3053*) AddTo (T 403) (Plain (Einsum [(T 398,[0;1;2;3])] [1;0;2;3]));
  (*3054*) Del (T 398);
  (*3055*) AddTo (T 403) (Times (Einsum [(T 400,[0;1;2;3])] [0;2;1;3]) (-1) 1);
  (*3056*) Del (T 400);
  (*3057*) AddTo (T 403) (Plain (Einsum [(T 402,[0;1;2;3])] [0;2;1;3]));
  (*3058*) Del (T 402);
  (*3059*) Assign (T 404) (Plain (Zeros [0;0;1;1]));
  (*3060*) AddTo (T 404) (Plain (Einsum [(T 403,[0;1;2;3]); (n_l3,[4;5;3;6;1;0])] [6;2;4;5]));
  (*3061*) Del (T 403);
  (*3062*) Assign (T 405) (Plain (Zeros [0;0;1;1]));
  (*3063*) AddTo (T 405) (Plain (Einsum [(n_t1,[0;1]); (n_v'ooov,[2;0;3;4])] [2;3;1;4]));
  (*3064*) Assign (T 406) (Plain (Zeros [0;0;1;1]));
  (*3065*) AddTo (T 406) (Plain (Einsum [(n_t2,[0;1;2;3]); (n_v'ovov,[4;5;1;2])] [0;4;3;5]));
  (*3066*) Assign (T 407) (Plain (Zeros [0;0;1;1]));
  (*3067*) AddTo (T 407) (Plain (Einsum [(n_t2,[0;1;2;3]); (T 44,[1;4;3;5])] [0;4;2;5]));
  (*3068*) Del (T 44);
  (*3069*) Assign (T 408) (Plain (Zeros [0;0;1;1]));
  (*3070*) AddTo (T 408) (Times (Einsum [(n_v'ovov,[0;1;2;3])] [0;2;1;3]) (-1) 1);
  (*3071*) AddTo (T 408) (Plain (Einsum [(T 405,[0;1;2;3])] [0;1;2;3]));
  (*3072*) Del (T 405);
  (*3073*) AddTo (T 408) (Plain (Einsum [(T 406,[0;1;2;3])] [0;1;2;3]));
  (*3074*) Del (T 406);
  (*3075*) AddTo (T 408) (Times (Einsum [(T 407,[0;1;2;3])] [0;1;2;3]) (-1) 1);
  (*3076*) Del (T 407);
  (*3077*) Assign (T 409) (Plain (Zeros [0;0;1;1]));
  (*3078*) AddTo (T 409) (Plain (Einsum [(T 408,[0;1;2;3]); (T 119,[4;0;5;1;6;2])] [4;5;6;3]));
  (*3079*) Del (T 408);
  (*3080*) Assign (T 410) (Plain (Zeros [0;1;1;1]));
  (*3081*) AddTo (T 410) (Plain (Einsum [(n_t2,[0;1;2;3]); (n_l3,[4;5;3;1;6;0])] [6;4;5;2]));
  (*3082*) Assign (T 411) (Plain (Zeros [0;1;1;1]));
  (*3083*) AddTo (T 411) (Plain (Einsum [(n_t2,[0;1;2;3]); (n_l3,[4;2;5;1;6;0])] [6;4;5;3]));
  (*3084*) Assign (T 412) (Plain (Zeros [0;0;0;1;1;1]));
  (*3085*) AddTo (T 412) (Plain (Einsum [(n_l3,[0;1;2;3;4;5])] [3;5;4;0;2;1]));
  (*3086*) AddTo (T 412) (Times (Einsum [(n_l3,[0;1;2;3;4;5])] [5;3;4;1;0;2]) (-1) 1);
  (*3087*) AddTo (T 412) (Times (Einsum [(n_l3,[0;1;2;3;4;5])] [3;4;5;0;1;2]) (1) 2);
  (*3088*) AddTo (T 412) (Times (Einsum [(n_l3,[0;1;2;3;4;5])] [4;3;5;1;0;2]) (2) 1);
  (*3089*) Assign (T 413) (Plain (Zeros [0;1;1;1]));
  (*3090*) AddTo (T 413) (Plain (Einsum [(n_t2,[0;1;2;3]); (T 412,[0;4;1;2;5;6])] [4;3;5;6]));
  (*3091*) Del (T 412);
  (*3092*) Assign (T 414) (Plain (Zeros [0;1;1;1]));
  (*3093*) AddTo (T 414) (Times (Einsum [(T 410,[0;1;2;3])] [0;2;1;3]) (-1) 2);
  (*3094*) Del (T 410);
  (*3095*) AddTo (T 414) (Times (Einsum [(T 411,[0;1;2;3])] [0;1;2;3]) (1) 2);
  (*3096*) AddTo (T 414) (Times (Einsum [(T 411,[0;1;2;3])] [0;2;1;3]) (-1) 2);
  (*3097*) AddTo (T 414) (Plain (Einsum [(T 413,[0;1;2;3])] [0;2;3;1]));
  (*3098*) Del (T 413);
  (*3099*) Assign (T 415) (Plain (Zeros [0;0;1;1]));
  (*3100*) AddTo (T 415) (Plain (Einsum [(n_v'ovvv,[0;1;2;3]); (T 414,[4;5;2;3])] [0;4;1;5]));
  (*3101*) Del (T 414);
  (*3102*) Assign (T 416) (Plain (Zeros [0;0;0;1;1;1]));
  (*3103*) AddTo (T 416) (Times (Einsum [(n_t3,[0;1;2;3;4;5])] [0;2;1;3;5;4]) (5) 1);
  (*3104*) AddTo (T 416) (Times (Einsum [(n_t3,[0;1;2;3;4;5])] [0;2;1;4;5;3]) (-1) 1);
  (*3105*) AddTo (T 416) (Times (Einsum [(n_t3,[0;1;2;3;4;5])] [0;1;2;5;4;3]) (-1) 1);
  (*3106*) AddTo (T 416) (Plain (Einsum [(n_t3,[0;1;2;3;4;5])] [0;1;2;3;4;5]));
  (*3107*) AddTo (T 416) (Times (Einsum [(n_t3,[0;1;2;3;4;5])] [1;0;2;5;3;4]) (-1) 1);
  (*3108*) AddTo (T 416) (Times (Einsum [(n_t3,[0;1;2;3;4;5])] [1;0;2;4;3;5]) (5) 1);
  (*3109*) Assign (T 417) (Plain (Zeros [0;0;1;1]));
  (*3110*) AddTo (T 417) (Plain (Einsum [(n_l3,[0;1;2;3;4;5]); (T 416,[5;6;4;2;7;1])] [3;6;0;7]));
  (*3111*) Del (T 416);
  (*3112*) Assign (T 418) (Plain (Zeros [0;0;1;1]));
  (*3113*) AddTo (T 418) (Plain (Einsum [(n_l3,[0;1;2;3;4;5]); (T 162,[5;6;3;0;2;7])] [4;6;1;7]));
  (*3114*) Del (T 162);
  (*3115*) Assign (T 419) (Plain (Zeros [0;0;0;1;1;1]));
  (*3116*) AddTo (T 419) (Plain (Einsum [(n_l3,[0;1;2;3;4;5])] [3;5;4;0;2;1]));
  (*3117*) AddTo (T 419) (Times (Einsum [(n_l3,[0;1;2;3;4;5])] [3;5;4;0;1;2]) (-1) 1);
  (*3118*) Assign (T 420) (Plain (Zeros [0;0;1;1]));
  (*3119*) AddTo (T 420) (Plain (Einsum [(n_t3,[0;1;2;3;4;5]); (T 419,[1;2;6;5;7;4])] [0;6;3;7]));
  (*3120*) Del (T 419);
  (*3121*) Assign (T 421) (Plain (Zeros [0;0;1;1]));
  (*3122*) AddTo (T 421) (Plain (Einsum [(n_l3,[0;1;2;3;4;5]); (T 266,[5;6;4;2;1;7])] [3;6;0;7]));
  (*3123*) Del (T 266);
  (*3124*) Assign (T 422) (Plain (Zeros [0;0;0;1;1;1]));
  (*3125*) AddTo (T 422) (Plain (Einsum [(n_t3,[0;1;2;3;4;5])] [0;2;1;3;5;4]));
  (*3126*) AddTo (T 422) (Plain (Einsum [(n_t3,[0;1;2;3;4;5])] [0;1;2;5;3;4]));
  (*3127*) Assign (T 423) (Plain (Zeros [0;0;1;1]));
  (*3128*) AddTo (T 423) (Plain (Einsum [(n_l3,[0;1;2;3;4;5]); (T 422,[3;6;5;2;1;7])] [4;6;0;7]));
  (*3129*) Del (T 422);
  (*3130*) Assign (T 424) (Plain (Zeros [0;0;0;0;1;1]));
  (*3131*) AddTo (T 424) (Times (Einsum [(T 119,[0;1;2;3;4;5])] [0;1;2;3;4;5]) (1) 2);
  (*3132*) AddTo (T 424) (Times (Einsum [(T 113,[0;1;2;3;4;5])] [0;1;2;3;4;5]) (-1) 2);
  (*3133*) AddTo (T 424) (Plain (Einsum [(T 113,[0;1;2;3;4;5])] [0;2;1;3;4;5]));
  (*3134*) AddTo (T 424) (Times (Einsum [(T 113,[0;1;2;3;4;5])] [2;0;1;3;4;5]) (-1) 4);
  (*3135*) AddTo (T 424) (Times (Einsum [(T 113,[0;1;2;3;4;5])] [2;0;1;3;5;4]) (1) 4);
  (*3136*) Assign (T 425) (Plain (Zeros [0;0;1;1]));
  (*3137*) AddTo (T 425) (Times (Einsum [(n_t2,[0;1;2;3]); (T 424,[4;0;1;5;6;2])] [4;5;3;6]) (25000000000001) 3125000000000);
  (*3138*) Del (T 424);
  (*3139*) Assign (T 426) (Plain (Zeros [0;0;0;0;1;1]));
  (*3140*) AddTo (T 426) (Times (Einsum [(T 113,[0;1;2;3;4;5])] [0;1;2;3;4;5]) (-1) 1);
  (*3141*) AddTo (T 426) (Plain (Einsum [(T 113,[0;1;2;3;4;5])] [0;1;2;3;5;4]));
  (*3142*) Assign (T 427) (Plain (Zeros [0;0;1;1]));
  (*3143*) AddTo (T 427) (Times (Einsum [(n_t2,[0;1;2;3]); (T 426,[0;1;4;5;6;3])] [4;5;2;6]) (25000000000001) 12500000000000);
  (*3144*) Del (T 426);
  (*3145*) Assign (T 428) (Plain (Zeros [0;0;1;1]));
  (*3146*) AddTo (T 428) (Times (Einsum [(T 198,[0;1;2;3]); (T 78,[0;4;2;5])] [4;1;5;3]) (25000000000001) 3125000000000);
  (*3147*) Del (T 198);
  (*3148*) Assign (T 429) (Plain (Zeros [0;0;0;1]));
  (*3149*) AddTo (T 429) (Plain (Einsum [(T 126,[0;1;2;3]); (n_l3,[4;2;3;5;0;6])] [6;5;1;4]));
  (*3150*) Del (T 126);
  (*3151*) Assign (T 430) (Plain (Zeros [0;0;0;1]));
  (*3152*) AddTo (T 430) (Times (Einsum [(T 118,[0;1;2;3]); (n_l3,[2;4;3;0;5;6])] [6;5;1;4]) (3333333333333333) 10000000000000000);
  (*3153*) Assign (T 431) (Plain (Zeros [0;0;0;1]));
  (*3154*) AddTo (T 431) (Plain (Einsum [(T 166,[0;1;2;3])] [0;1;2;3]));
  (*3155*) AddTo (T 431) (Times (Einsum [(T 166,[0;1;2;3])] [1;0;2;3]) (-3333333333333333) 10000000000000000);
  (*3156*) AddTo (T 431) (Times (Einsum [(T 168,[0;1;2;3])] [0;1;2;3]) (-3333333333333333) 10000000000000000);
  (*3157*) AddTo (T 431) (Times (Einsum [(T 168,[0;1;2;3])] [1;0;2;3]) (3333333333333333) 10000000000000000);
  (*3158*) AddTo (T 431) (Plain (Einsum [(T 429,[0;1;2;3])] [1;0;2;3]));
  (*3159*) AddTo (T 431) (Times (Einsum [(T 430,[0;1;2;3])] [1;0;2;3]) (-1) 1);
  (*3160*) Del (T 430);
  (*3161*) Assign (T 432) (Plain (Zeros [0;0;1;1]));
  (*3162*) AddTo (T 432) (Times (Einsum [(n_t1,[0;1]); (T 431,[2;0;3;4])] [2;3;1;4]) (75000000000003) 12500000000000);
  (*3163*) Del (T 431);
  (*3164*) Assign (T 433) (Plain (Zeros [0;0;1;1]));
  (*3165*) AddTo (T 433) (Plain (Einsum [(T 195,[0;1;2;3])] [0;1;2;3]));
  (*3166*) Del (T 195);
  (*3167*) AddTo (T 433) (Times (Einsum [(n_l2,[0;1;2;3])] [3;2;0;1]) (25000000000001) 6250000000000);
  (*3168*) AddTo (T 433) (Times (Einsum [(n_l2,[0;1;2;3])] [2;3;0;1]) (-25000000000001) 3125000000000);
  (*3169*) AddTo (T 433) (Times (Einsum [(T 417,[0;1;2;3])] [0;1;2;3]) (-1) 1);
  (*3170*) Del (T 417);
  (*3171*) AddTo (T 433) (Times (Einsum [(T 418,[0;1;2;3])] [0;1;2;3]) (-1) 1);
  (*3172*) Del (T 418);
  (*3173*) AddTo (T 433) (Times (Einsum [(T 420,[0;1;2;3])] [1;0;3;2]) (-1) 1);
  (*3174*) Del (T 420);
  (*3175*) AddTo (T 433) (Times (Einsum [(T 421,[0;1;2;3])] [0;1;2;3]) (-1) 1);
  (*3176*) Del (T 421);
  (*3177*) AddTo (T 433) (Plain (Einsum [(T 423,[0;1;2;3])] [0;1;2;3]));
  (*3178*) Del (T 423);
  (*3179*) AddTo (T 433) (Plain (Einsum [(T 425,[0;1;2;3])] [0;1;3;2]));
  (*3180*) Del (T 425);
  (*3181*) AddTo (T 433) (Times (Einsum [(T 427,[0;1;2;3])] [0;1;3;2]) (-1) 1);
  (*3182*) Del (T 427);
  (*3183*) AddTo (T 433) (Times (Einsum [(T 428,[0;1;2;3])] [1;0;3;2]) (-1) 1);
  (*3184*) Del (T 428);
  (*3185*) AddTo (T 433) (Plain (Einsum [(T 432,[0;1;2;3])] [0;1;3;2]));
  (*3186*) Del (T 432);
  (*3187*) Assign (T 434) (Plain (Zeros [0;0;1;1]));
  (*3188*) AddTo (T 434) (Times (Einsum [(n_v'ovov,[0;1;2;3]); (T 433,[4;2;5;3])] [0;4;1;5]) (24999999999999) 100000000000000);
  (*3189*) Del (T 433);
  (*3190*) Assign (T 435) (Plain (Zeros [0;0;1;1]));
  (*3191*) AddTo (T 435) (Plain (Einsum [(n_l2,[0;1;2;3]); (n_t2,[4;2;5;1])] [3;4;0;5]));
  (*3192*) Assign (T 436) (Plain (Zeros [0;0;1;1]));
  (*3193*) AddTo (T 436) (Plain (Einsum [(n_l3,[0;1;2;3;4;5]); (n_t3,[3;6;5;1;7;2])] [4;6;0;7]));
  (*3194*) Assign (T 437) (Plain (Zeros [0;0;1;1]));
  (*3195*) AddTo (T 437) (Plain (Einsum [(n_t2,[0;1;2;3]); (T 119,[4;0;1;5;6;2])] [4;5;6;3]));
  (*3196*) Assign (T 438) (Plain (Zeros [0;0;0;1;1;1]));
  (*3197*) AddTo (T 438) (Times (Einsum [(n_t3,[0;1;2;3;4;5])] [0;2;1;3;5;4]) (4) 1);
  (*3198*) AddTo (T 438) (Times (Einsum [(n_t3,[0;1;2;3;4;5])] [0;1;2;5;4;3]) (-1) 1);
  (*3199*) AddTo (T 438) (Plain (Einsum [(n_t3,[0;1;2;3;4;5])] [0;1;2;3;4;5]));
  (*3200*) Assign (T 439) (Plain (Zeros [0;0;1;1]));
  (*3201*) AddTo (T 439) (Plain (Einsum [(n_l3,[0;1;2;3;4;5]); (T 438,[4;6;5;1;7;2])] [3;6;0;7]));
  (*3202*) Del (T 438);
  (*3203*) Assign (T 440) (Plain (Zeros [0;0;1;1]));
  (*3204*) AddTo (T 440) (Plain (Einsum [(n_l3,[0;1;2;3;4;5]); (T 197,[5;6;3;0;2;7])] [4;6;1;7]));
  (*3205*) Del (T 197);
  (*3206*) Assign (T 441) (Plain (Zeros [0;0;1;1]));
  (*3207*) AddTo (T 441) (Times (Einsum [(T 118,[0;1;2;3]); (T 113,[0;1;4;5;2;6])] [4;5;6;3]) (25000000000001) 12500000000000);
  (*3208*) Assign (T 442) (Plain (Zeros [0;0;1;1]));
  (*3209*) AddTo (T 442) (Times (Einsum [(n_l2,[0;1;2;3]); (T 78,[3;4;1;5])] [2;4;0;5]) (25000000000001) 6250000000000);
  (*3210*) Assign (T 443) (Plain (Zeros [0;0;1;1]));
  (*3211*) AddTo (T 443) (Times (Einsum [(n_t1,[0;1]); (T 337,[2;0;3;4])] [2;3;1;4]) (25000000000001) 12500000000000);
  (*3212*) Del (T 337);
  (*3213*) Assign (T 444) (Plain (Zeros [0;0;1;1]));
  (*3214*) AddTo (T 444) (Times (Einsum [(T 435,[0;1;2;3])] [0;1;2;3]) (25000000000001) 6250000000000);
  (*3215*) Del (T 435);
  (*3216*) AddTo (T 444) (Plain (Einsum [(T 436,[0;1;2;3])] [0;1;2;3]));
  (*3217*) Del (T 436);
  (*3218*) AddTo (T 444) (Plain (Einsum [(T 196,[0;1;2;3])] [0;1;2;3]));
  (*3219*) Del (T 196);
  (*3220*) AddTo (T 444) (Times (Einsum [(T 437,[0;1;2;3])] [0;1;2;3]) (25000000000001) 6250000000000);
  (*3221*) Del (T 437);
  (*3222*) AddTo (T 444) (Times (Einsum [(T 439,[0;1;2;3])] [0;1;2;3]) (-1) 1);
  (*3223*) Del (T 439);
  (*3224*) AddTo (T 444) (Times (Einsum [(T 440,[0;1;2;3])] [0;1;2;3]) (-1) 1);
  (*3225*) Del (T 440);
  (*3226*) AddTo (T 444) (Times (Einsum [(T 441,[0;1;2;3])] [0;1;2;3]) (-1) 1);
  (*3227*) Del (T 441);
  (*3228*) AddTo (T 444) (Times (Einsum [(T 442,[0;1;2;3])] [0;1;2;3]) (-1) 1);
  (*3229*) Del (T 442);
  (*3230*) AddTo (T 444) (Plain (Einsum [(T 443,[0;1;2;3])] [0;1;3;2]));
  (*3231*) Del (T 443);
  (*3232*) Assign (T 445) (Plain (Zeros [0;0;1;1]));
  (*3233*) AddTo (T 445) (Times (Einsum [(n_v'ovov,[0;1;2;3]); (T 444,[4;2;5;1])] [0;4;3;5]) (24999999999999) 100000000000000);
  (*3234*) Del (T 444);
  (*3235*) Assign (T 446) (Plain (Zeros [0;0;0;1]));
  (*3236*) AddTo (T 446) (Times (Einsum [(T 218,[0;1;2;3])] [0;1;2;3]) (-1) 1);
  (*3237*) AddTo (T 446) (Plain (Einsum [(T 218,[0;1;2;3])] [0;2;1;3]));
  (*3238*) Del (T 218);
  (*3239*) Assign (T 447) (Plain (Zeros [0;0;1;1]));
  (*3240*) AddTo (T 447) (Times (Einsum [(T 446,[0;1;2;3]); (n_l3,[4;5;3;1;6;2])] [6;0;4;5]) (1) 2);
  (*3241*) Del (T 446);
  (*3242*) Assign (T 448) (Plain (Zeros [0;0;1;1]));
  (*3243*) AddTo (T 448) (Times (Einsum [(n_v'oovv,[0;1;2;3])] [0;1;2;3]) (-1) 1);
  (*3244*) AddTo (T 448) (Plain (Einsum [(T 71,[0;1;2;3])] [0;1;2;3]));
  (*3245*) Assign (T 449) (Plain (Zeros [0;0;1;1]));
  (*3246*) AddTo (T 449) (Plain (Einsum [(T 448,[0;1;2;3]); (T 113,[4;0;5;1;6;2])] [4;5;6;3]));
  (*3247*) Del (T 448);
  (*3248*) Assign (T 450) (Plain (Zeros [0;1;1;1]));
  (*3249*) AddTo (T 450) (Times (Einsum [(T 118,[0;1;2;3]); (n_l3,[4;5;2;1;6;0])] [6;4;5;3]) (1) 2);
  (*3250*) Del (T 118);
  (*3251*) Assign (T 451) (Plain (Zeros [0;1;1;1]));
  (*3252*) AddTo (T 451) (Plain (Einsum [(T 373,[0;1;2;3])] [0;1;2;3]));
  (*3253*) AddTo (T 451) (Times (Einsum [(T 450,[0;1;2;3])] [0;2;1;3]) (-1) 1);
  (*3254*) Del (T 450);
  (*3255*) Assign (T 452) (Plain (Zeros [0;0;1;1]));
  (*3256*) AddTo (T 452) (Plain (Einsum [(n_v'ovvv,[0;1;2;3]); (T 451,[4;5;3;1])] [0;4;2;5]));
  (*3257*) Del (T 451);
  (*3258*) Assign (T 453) (Plain (Zeros [0;0;1;1]));
  (*3259*) AddTo (T 453) (Plain (Einsum [(n_t1,[0;1]); (T 9,[2;0;3;4])] [2;3;1;4]));
  (*3260*) Assign (T 454) (Plain (Zeros [0;0;1;1]));
  (*3261*) AddTo (T 454) (Times (Einsum [(T 91,[0;1;2;3])] [0;1;3;2]) (-1) 1);
  (*3262*) AddTo (T 454) (Plain (Einsum [(T 453,[0;1;2;3])] [0;1;2;3]));
  (*3263*) Del (T 453);
  (*3264*) Assign (T 455) (Plain (Zeros [0;0;1;1]));
  (*3265*) AddTo (T 455) (Plain (Einsum [(T 454,[0;1;2;3]); (T 113,[4;0;5;1;6;2])] [4;5;6;3]));
  (*3266*) Del (T 454);
  (*3267*) Assign (T 456) (Plain (Zeros [0;0;0;1]));
  (*3268*) AddTo (T 456) (Plain (Einsum [(T 123,[0;1;2;3])] [1;0;2;3]));
  (*3269*) AddTo (T 456) (Times (Einsum [(T 200,[0;1;2;3])] [0;1;2;3]) (-1) 1);
  (*3270*) Del (T 200);
  (*3271*) Assign (T 457) (Plain (Zeros [0;0;1;1]));
  (*3272*) AddTo (T 457) (Plain (Einsum [(n_v'ovvv,[0;1;2;3]); (T 456,[4;5;0;3])] [4;5;1;2]));
  (*3273*) Del (T 456);
  (*3274*) Assign (T 458) (Plain (Zeros [0;1;1;1]));
  (*3275*) AddTo (T 458) (Times (Einsum [(n_v'ovvv,[0;1;2;3])] [0;1;2;3]) (-1) 1);
  (*3276*) AddTo (T 458) (Times (Einsum [(n_v'ovvv,[0;1;2;3])] [0;2;3;1]) (2) 1);
  (*3277*) Assign (T 459) (Plain (Zeros [0;0;1;1]));
  (*3278*) AddTo (T 459) (Plain (Einsum [(n_t1,[0;1]); (T 458,[2;1;3;4])] [0;2;3;4]));
  (*3279*) Del (T 458);
  (*3280*) Assign (T 460) (Plain (Zeros [0;0;1;1]));
  (*3281*) AddTo (T 460) (Plain (Einsum [(n_v'oovv,[0;1;2;3])] [0;1;2;3]));
  (*3282*) AddTo (T 460) (Times (Einsum [(T 459,[0;1;2;3])] [0;1;3;2]) (-1) 1);
  (*3283*) Del (T 459);
  (*3284*) Assign (T 461) (Plain (Zeros [0;0;1;1]));
  (*3285*) AddTo (T 461) (Plain (Einsum [(n_l2,[0;1;2;3]); (T 460,[3;4;5;1])] [2;4;0;5]));
  (*3286*) Del (T 460);
  (*3287*) Assign (T 462) (Plain (Zeros [0;0;0;1]));
  (*3288*) AddTo (T 462) (Times (Einsum [(n_v'ooov,[0;1;2;3])] [0;1;2;3]) (-1) 1);
  (*3289*) AddTo (T 462) (Plain (Einsum [(n_v'ooov,[0;1;2;3])] [0;2;1;3]));
  (*3290*) Assign (T 463) (Plain (Zeros [0;0;1;1]));
  (*3291*) AddTo (T 463) (Times (Einsum [(T 213,[0;1;2;3]); (T 462,[0;4;2;5])] [1;4;3;5]) (-1) 2);
  (*3292*) Del (T 462);
  (*3293*) Assign (T 464) (Plain (Zeros [1;1]));
  (*3294*) AddTo (T 464) (Plain (Einsum [(n_v'ovov,[0;1;2;3]); (T 191,[0;2;4;1])] [3;4]));
  (*3295*) Assign (T 465) (Plain (Zeros [1;1]));
  (*3296*) AddTo (T 465) (Times (Einsum [(n_t1,[0;1]); (T 394,[0;1;2;3])] [2;3]) (1) 2);
  (*3297*) Assign (T 466) (Plain (Zeros [1;1]));
  (*3298*) AddTo (T 466) (Plain (Einsum [(T 464,[0;1])] [0;1]));
  (*3299*) Del (T 464);
  (*3300*) AddTo (T 466) (Times (Einsum [(T 465,[0;1])] [1;0]) (-1) 1);
  (*3301*) Del (T 465);
  (*3302*) Assign (T 467) (Plain (Zeros [0;0;1;1]));
  (*3303*) AddTo (T 467) (Times (Einsum [(T 466,[0;1]); (n_l2,[2;1;3;4])] [4;3;2;0]) (2) 1);
  (*3304*) Del (T 466);
  (*3305*) Assign (T 468) (Plain (Zeros [0;0;0;0]));
  (*3306*) AddTo (T 468) (Plain (Einsum [(T 172,[0;1;2;3])] [0;1;2;3]));
  (*3307*) Del (T 172);
  (*3308*) AddTo (T 468) (Times (Einsum [(T 177,[0;1;2;3])] [0;1;2;3]) (5000000000000201) 2500000000000000);
  (*3309*) Del (T 177);
  (*3310*) Assign (T 469) (Plain (Zeros [0;0;1;1]));
  (*3311*) AddTo (T 469) (Times (Einsum [(n_v'ovov,[0;1;2;3]); (T 468,[4;5;0;2])] [4;5;3;1]) (12499999999999499) 25000000000000000);
  (*3312*) Del (T 468);
  (*3313*) Assign (T 470) (Plain (Zeros [0;0;1;1]));
  (*3314*) AddTo (T 470) (Plain (Einsum [(T 123,[0;1;2;3]); (T 264,[1;4;2;5])] [0;4;3;5]));
  (*3315*) Del (T 264);
  (*3316*) Assign (T 471) (Plain (Zeros [0;0;0;1;1;1]));
  (*3317*) AddTo (T 471) (Plain (Einsum [(n_l3,[0;1;2;3;4;5])] [3;5;4;0;2;1]));
  (*3318*) AddTo (T 471) (Plain (Einsum [(n_l3,[0;1;2;3;4;5])] [5;4;3;0;2;1]));
  (*3319*) AddTo (T 471) (Times (Einsum [(n_l3,[0;1;2;3;4;5])] [4;5;3;0;2;1]) (-3) 1);
  (*3320*) Assign (T 472) (Plain (Zeros [0;0;0;1]));
  (*3321*) AddTo (T 472) (Plain (Einsum [(n_t2,[0;1;2;3]); (T 471,[1;4;5;6;2;3])] [0;4;5;6]));
  (*3322*) Del (T 471);
  (*3323*) Assign (T 473) (Plain (Zeros [0;0;0;1;1;1]));
  (*3324*) AddTo (T 473) (Times (Einsum [(n_l3,[0;1;2;3;4;5])] [3;5;4;0;2;1]) (3333333333333333) 10000000000000000);
  (*3325*) AddTo (T 473) (Plain (Einsum [(n_l3,[0;1;2;3;4;5])] [5;4;3;0;2;1]));
  (*3326*) AddTo (T 473) (Times (Einsum [(n_l3,[0;1;2;3;4;5])] [4;5;3;0;2;1]) (-3333333333333333) 10000000000000000);
  (*3327*) Assign (T 474) (Plain (Zeros [0;0;0;1]));
  (*3328*) AddTo (T 474) (Times (Einsum [(n_t2,[0;1;2;3]); (T 473,[1;4;5;6;3;2])] [0;4;5;6]) (3) 1);
  (*3329*) Del (T 473);
  (*3330*) Assign (T 475) (Plain (Zeros [0;0;0;1]));
  (*3331*) AddTo (T 475) (Times (Einsum [(T 123,[0;1;2;3])] [1;0;2;3]) (2) 1);
  (*3332*) AddTo (T 475) (Plain (Einsum [(T 472,[0;1;2;3])] [2;1;0;3]));
  (*3333*) Del (T 472);
  (*3334*) AddTo (T 475) (Times (Einsum [(T 474,[0;1;2;3])] [2;1;0;3]) (-1) 1);
  (*3335*) Del (T 474);
  (*3336*) Assign (T 476) (Plain (Zeros [0;0;1;1]));
  (*3337*) AddTo (T 476) (Times (Einsum [(n_v'ooov,[0;1;2;3]); (T 475,[4;0;1;5])] [2;4;3;5]) (1) 2);
  (*3338*) Del (T 475);
  (*3339*) Assign (T 477) (Plain (Zeros [0;0;0;1]));
  (*3340*) AddTo (T 477) (Times (Einsum [(T 123,[0;1;2;3])] [0;1;2;3]) (-1) 1);
  (*3341*) AddTo (T 477) (Times (Einsum [(T 123,[0;1;2;3])] [1;0;2;3]) (2) 1);
  (*3342*) Assign (T 478) (Plain (Zeros [0;0;1;1]));
  (*3343*) AddTo (T 478) (Plain (Einsum [(T 477,[0;1;2;3]); (T 9,[0;4;2;5])] [4;1;5;3]));
  (*3344*) Del (T 477);
  (*3345*) Assign (T 479) (Plain (Zeros [0;0]));
  (*3346*) AddTo (T 479) (Times (Einsum [(n_t1,[0;1]); (T 37,[2;1])] [0;2]) (2) 1);
  (*3347*) Assign (T 480) (Plain (Zeros [0;0]));
  (*3348*) AddTo (T 480) (Plain (Einsum [(T 272,[0;1])] [1;0]));
  (*3349*) Del (T 272);
  (*3350*) AddTo (T 480) (Plain (Einsum [(T 274,[0;1])] [1;0]));
  (*3351*) Del (T 274);
  (*3352*) AddTo (T 480) (Plain (Einsum [(T 479,[0;1])] [0;1]));
  (*3353*) Del (T 479);
  (*3354*) Assign (T 481) (Plain (Zeros [0;0;1;1]));
  (*3355*) AddTo (T 481) (Plain (Einsum [(T 480,[0;1]); (n_l2,[2;3;0;4])] [4;1;2;3]));
  (*3356*) Assign (T 482) (Plain (Zeros [0;0;1;1]));
  (*3357*) AddTo (T 482) (Plain (Einsum [(T 68,[0;1]); (T 363,[2;3;0;4])] [2;3;4;1]));
  (*3358*) Del (T 68);
  (*3358*) Del (T 363);
  (*3359*) Assign (T 483) (Plain (Zeros [0;0;1;1]));
  (*3360*) AddTo (T 483) (Times (Einsum [(n_f'ov,[0;1]); (T 213,[2;3;0;4])] [2;3;4;1]) (-1) 2);
  (*3361*) Assign (T 484) (Plain (Zeros [0;0;1;1]));
  (*3362*) AddTo (T 484) (Plain (Einsum [(n_f'ov,[0;1]); (n_l1,[2;3])] [0;3;1;2]));
  (*3363*) AddTo (T 484) (Times (Einsum [(T 366,[0;1;2;3])] [0;1;2;3]) (-1) 1);
  (*3364*) Del (T 366);
  (*3365*) AddTo (T 484) (Times (Einsum [(T 367,[0;1;2;3])] [0;1;2;3]) (-1) 1);
  (*3366*) Del (T 367);
  (*3367*) AddTo (T 484) (Plain (Einsum [(T 368,[0;1;2;3])] [0;1;2;3]));
  (*3368*) Del (T 368);
  (*3369*) AddTo (T 484) (Plain (Einsum [(T 369,[0;1;2;3])] [0;1;2;3]));
  (*3370*) Del (T 369);
  (*3371*) AddTo (T 484) (Times (Einsum [(T 370,[0;1;2;3])] [0;1;2;3]) (-1) 1);
  (*3372*) Del (T 370);
  (*3373*) AddTo (T 484) (Times (Einsum [(T 371,[0;1;2;3])] [0;1;2;3]) (-1) 1);
  (*3374*) Del (T 371);
  (*3375*) AddTo (T 484) (Times (Einsum [(T 372,[0;1;2;3])] [0;1;2;3]) (12499999999999499) 25000000000000000);
  (*3376*) Del (T 372);
  (*3377*) AddTo (T 484) (Plain (Einsum [(T 374,[0;1;2;3])] [0;1;2;3]));
  (*3378*) Del (T 374);
  (*3379*) AddTo (T 484) (Plain (Einsum [(T 382,[0;1;2;3])] [0;1;2;3]));
  (*3380*) Del (T 382);
  (*3381*) AddTo (T 484) (Plain (Einsum [(T 392,[0;1;2;3])] [0;1;2;3]));
  (*3382*) Del (T 392);
  (*3383*) AddTo (T 484) (Times (Einsum [(T 397,[0;1;2;3])] [0;1;2;3]) (-1) 1);
  (*3384*) Del (T 397);
  (*3385*) AddTo (T 484) (Plain (Einsum [(T 404,[0;1;2;3])] [0;1;2;3]));
  (*3386*) Del (T 404);
  (*3387*) AddTo (T 484) (Plain (Einsum [(T 409,[0;1;2;3])] [0;1;2;3]));
  (*3388*) Del (T 409);
  (*3389*) AddTo (T 484) (Plain (Einsum [(T 415,[0;1;2;3])] [1;0;3;2]));
  (*3390*) Del (T 415);
  (*3391*) AddTo (T 484) (Times (Einsum [(T 434,[0;1;2;3])] [1;0;3;2]) (-1) 1);
  (*3392*) Del (T 434);
  (*3393*) AddTo (T 484) (Plain (Einsum [(T 445,[0;1;2;3])] [1;0;3;2]));
  (*3394*) Del (T 445);
  (*3395*) AddTo (T 484) (Times (Einsum [(T 447,[0;1;2;3])] [1;0;2;3]) (-1) 1);
  (*3396*) Del (T 447);
  (*3397*) AddTo (T 484) (Plain (Einsum [(T 449,[0;1;2;3])] [0;1;2;3]));
  (*3398*) Del (T 449);
  (*3399*) AddTo (T 484) (Times (Einsum [(T 452,[0;1;2;3])] [1;0;3;2]) (-1) 1);
  (*3400*) Del (T 452);
  (*3401*) AddTo (T 484) (Plain (Einsum [(T 455,[0;1;2;3])] [0;1;2;3]));
  (*3402*) Del (T 455);
  (*3403*) AddTo (T 484) (Times (Einsum [(T 457,[0;1;2;3])] [0;1;2;3]) (-1) 1);
  (*3404*) Del (T 457);
  (*3405*) AddTo (T 484) (Times (Einsum [(T 461,[0;1;2;3])] [0;1;2;3]) (-1) 1);
  (*3406*) Del (T 461);
  (*3407*) AddTo (T 484) (Times (Einsum [(T 463,[0;1;2;3])] [0;1;2;3]) (-1) 1);
  (*3408*) Del (T 463);
  (*3409*) AddTo (T 484) (Times (Einsum [(T 467,[0;1;2;3])] [1;0;2;3]) (-1) 1);
  (*3410*) Del (T 467);
  (*3411*) AddTo (T 484) (Plain (Einsum [(T 469,[0;1;2;3])] [0;1;3;2]));
  (*3412*) Del (T 469);
  (*3413*) AddTo (T 484) (Times (Einsum [(T 470,[0;1;2;3])] [0;1;2;3]) (-1) 1);
  (*3414*) Del (T 470);
  (*3415*) AddTo (T 484) (Plain (Einsum [(T 476,[0;1;2;3])] [1;0;3;2]));
  (*3416*) Del (T 476);
  (*3417*) AddTo (T 484) (Times (Einsum [(T 478,[0;1;2;3])] [1;0;3;2]) (-1) 1);
  (*3418*) Del (T 478);
  (*3419*) AddTo (T 484) (Times (Einsum [(T 481,[0;1;2;3])] [0;1;3;2]) (-1) 1);
  (*3420*) Del (T 481);
  (*3421*) AddTo (T 484) (Times (Einsum [(T 482,[0;1;2;3])] [0;1;2;3]) (-1) 1);
  (*3422*) Del (T 482);
  (*3423*) AddTo (T 484) (Times (Einsum [(T 483,[0;1;2;3])] [0;1;3;2]) (-1) 1);
  (*3424*) Del (T 483);
  (*3425*) AddTo (T 484) (Times (Einsum [(n_l1,[0;1]); (T 37,[2;3])] [1;2;0;3]) (2) 1);
  (*3426*) AddTo n_l2new (Plain (Einsum [(T 484,[0;1;2;3])] [2;3;0;1]));
  (*3427*) AddTo n_l2new (Plain (Einsum [(T 484,[0;1;2;3])] [3;2;1;0]));
  (*3428*) Del (T 484);
  (*3429*) Assign (T 485) (Plain (Zeros [0;0;0;0]));
  (*3430*) AddTo (T 485) (Plain (Einsum [(n_v'oooo,[0;1;2;3])] [0;1;2;3]));
  (*3431*) AddTo (T 485) (Plain (Einsum [(T 66,[0;1;2;3])] [1;3;0;2]));
  (*3432*) AddTo (T 485) (Plain (Einsum [(T 21,[0;1;2;3])] [0;2;1;3]));
  (*3433*) Assign (T 486) (Plain (Zeros [0;0;0;1;1;1]));
  (*3434*) AddTo (T 486) (Times (Einsum [(T 485,[0;1;2;3]); (n_l3,[4;5;6;0;7;2])] [7;1;3;4;6;5]) (1) 2);
  (*3435*) Del (T 485);
  (*3436*) AddTo n_l3new (Times (Einsum [(T 486,[0;1;2;3;4;5])] [4;5;3;1;0;2]) (-1) 1);
  (*3437*) AddTo n_l3new (Plain (Einsum [(T 486,[0;1;2;3;4;5])] [3;5;4;1;0;2]));
  (*3438*) Del (T 486);
  (*3439*) Assign (T 487) (Plain (Zeros [0;0;0;1;1;1]));
  (*3440*) AddTo (T 487) (Plain (Einsum [(T 21,[0;1;2;3]); (n_l3,[4;5;6;7;1;0])] [7;2;3;4;6;5]));
  (*3441*) Del (T 21);
  (*3442*) Assign (T 488) (Plain (Zeros [0;0;0;0]));
  (*3443*) AddTo (T 488) (Plain (Einsum [(n_v'oooo,[0;1;2;3])] [0;1;2;3]));
  (*3444*) AddTo (T 488) (Plain (Einsum [(T 6,[0;1;2;3])] [2;1;0;3]));
  (*3445*) AddTo (T 488) (Plain (Einsum [(T 66,[0;1;2;3])] [1;3;0;2]));
  (*3446*) Del (T 66);
  (*3447*) Assign (T 489) (Plain (Zeros [0;0;0;1;1;1]));
  (*3448*) AddTo (T 489) (Plain (Einsum [(T 488,[0;1;2;3]); (n_l3,[4;5;6;0;2;7])] [7;1;3;4;6;5]));
  (*3449*) Del (T 488);
  (*3450*) Assign (T 490) (Plain (Zeros [0;0;0;1;1;1]));
  (*3451*) AddTo (T 490) (Plain (Einsum [(T 361,[0;1]); (n_l3,[2;3;4;0;5;6])] [6;5;1;2;4;3]));
  (*3452*) Del (T 361);
  (*3453*) Assign (T 491) (Plain (Zeros [0;0;0;1;1;1]));
  (*3454*) AddTo (T 491) (Plain (Einsum [(T 487,[0;1;2;3;4;5])] [0;1;2;3;4;5]));
  (*3455*) Del (T 487);
  (*3456*) AddTo (T 491) (Plain (Einsum [(T 489,[0;1;2;3;4;5])] [0;1;2;4;3;5]));
  (*3457*) Del (T 489);
  (*3458*) AddTo (T 491) (Plain (Einsum [(T 490,[0;1;2;3;4;5])] [2;0;1;4;3;5]));
  (*3459*) Del (T 490);
  (*3460*) AddTo n_l3new (Plain (Einsum [(T 491,[0;1;2;3;4;5])] [3;5;4;0;2;1]));
  (*3461*) AddTo n_l3new (Times (Einsum [(T 491,[0;1;2;3;4;5])] [3;5;4;1;2;0]) (-1) 1);
  (*3462*) Del (T 491);
  (*3463*) Assign (T 492) (Plain (Zeros [0;0;0;1;1;1]));
  (*3464*) AddTo (T 492) (Plain (Einsum [(n_l2,[0;1;2;3]); (n_v'ooov,[4;3;5;6])] [2;4;5;0;1;6]));
  (*3465*) AddTo n_l3new (Times (Einsum [(T 492,[0;1;2;3;4;5])] [3;4;5;0;1;2]) (-1) 1);
  (*3466*) AddTo n_l3new (Plain (Einsum [(T 492,[0;1;2;3;4;5])] [5;4;3;0;1;2]));
  (*3467*) AddTo n_l3new (Times (Einsum [(T 492,[0;1;2;3;4;5])] [3;5;4;0;2;1]) (-1) 1);
  (*3468*) AddTo n_l3new (Plain (Einsum [(T 492,[0;1;2;3;4;5])] [4;5;3;0;2;1]));
  (*3469*) AddTo n_l3new (Times (Einsum [(T 492,[0;1;2;3;4;5])] [4;3;5;1;0;2]) (-1) 1);
  (*3470*) AddTo n_l3new (Plain (Einsum [(T 492,[0;1;2;3;4;5])] [5;3;4;1;0;2]));
  (*3471*) AddTo n_l3new (Plain (Einsum [(T 492,[0;1;2;3;4;5])] [4;3;5;2;0;1]));
  (*3472*) AddTo n_l3new (Times (Einsum [(T 492,[0;1;2;3;4;5])] [5;3;4;2;0;1]) (-1) 1);
  (*3473*) AddTo n_l3new (Plain (Einsum [(T 492,[0;1;2;3;4;5])] [3;5;4;1;2;0]));
  (*3474*) AddTo n_l3new (Times (Einsum [(T 492,[0;1;2;3;4;5])] [4;5;3;1;2;0]) (-1) 1);
  (*3475*) AddTo n_l3new (Plain (Einsum [(T 492,[0;1;2;3;4;5])] [3;4;5;2;1;0]));
  (*3476*) AddTo n_l3new (Times (Einsum [(T 492,[0;1;2;3;4;5])] [5;4;3;2;1;0]) (-1) 1);
  (*3477*) Del (T 492);
  (*3478*) Assign (T 493) (Plain (Zeros [0;0;0;1;1;1]));
  (*3479*) AddTo (T 493) (Plain (Einsum [(n_f'vv,[0;1]); (n_l3,[2;3;1;4;5;6])] [4;6;5;0;2;3]));
  (*3480*) Assign (T 494) (Plain (Zeros [0;0;0;1;1;1]));
  (*3481*) AddTo (T 494) (Plain (Einsum [(n_f'ov,[0;1]); (T 113,[2;3;4;0;5;6])] [2;3;4;1;5;6]));
  (*3482*) Assign (T 495) (Plain (Zeros [0;0;0;1;1;1]));
  (*3483*) AddTo (T 495) (Plain (Einsum [(n_v'vvvv,[0;1;2;3]); (n_l3,[4;3;1;5;6;7])] [5;7;6;4;0;2]));
  (*3484*) Assign (T 496) (Plain (Zeros [0;0;0;1;1;1]));
  (*3485*) AddTo (T 496) (Plain (Einsum [(n_v'ovvv,[0;1;2;3]); (T 113,[4;5;6;0;7;3])] [4;5;6;7;1;2]));
  (*3486*) Assign (T 497) (Plain (Zeros [0;0;0;0;0;1]));
  (*3487*) AddTo (T 497) (Plain (Einsum [(n_t2,[0;1;2;3]); (n_l3,[4;3;2;5;6;7])] [5;7;6;0;1;4]));
  (*3488*) Assign (T 498) (Plain (Zeros [0;0;0;0;0;1]));
  (*3489*) AddTo (T 498) (Plain (Einsum [(T 497,[0;1;2;3;4;5])] [0;1;2;3;4;5]));
  (*3490*) Del (T 497);
  (*3491*) AddTo (T 498) (Plain (Einsum [(T 152,[0;1;2;3;4;5])] [0;1;2;3;4;5]));
  (*3492*) Del (T 152);
  (*3493*) Assign (T 499) (Plain (Zeros [0;0;0;1;1;1]));
  (*3494*) AddTo (T 499) (Plain (Einsum [(n_v'ovov,[0;1;2;3]); (T 498,[4;5;6;2;0;7])] [4;5;6;1;3;7]));
  (*3495*) Del (T 498);
  (*3496*) Assign (T 500) (Plain (Zeros [0;0;0;1;1;1]));
  (*3497*) AddTo (T 500) (Times (Einsum [(T 493,[0;1;2;3;4;5])] [0;1;2;3;4;5]) (-1) 1);
  (*3498*) Del (T 493);
  (*3499*) AddTo (T 500) (Plain (Einsum [(T 494,[0;1;2;3;4;5])] [0;1;2;3;4;5]));
  (*3500*) Del (T 494);
  (*3501*) AddTo (T 500) (Plain (Einsum [(T 495,[0;1;2;3;4;5])] [0;1;2;3;4;5]));
  (*3502*) Del (T 495);
  (*3503*) AddTo (T 500) (Times (Einsum [(T 496,[0;1;2;3;4;5])] [0;1;2;3;4;5]) (-1) 1);
  (*3504*) Del (T 496);
  (*3505*) AddTo (T 500) (Plain (Einsum [(T 499,[0;1;2;3;4;5])] [0;1;2;5;4;3]));
  (*3506*) Del (T 499);
  (*3507*) AddTo n_l3new (Plain (Einsum [(T 500,[0;1;2;3;4;5])] [3;5;4;0;2;1]));
  (*3508*) AddTo n_l3new (Times (Einsum [(T 500,[0;1;2;3;4;5])] [4;5;3;0;2;1]) (-1) 1);
  (*3509*) Del (T 500);
  (*3510*) Assign (T 501) (Plain (Zeros [0;0;0;1;1;1]));
  (*3511*) AddTo (T 501) (Plain (Einsum [(n_l2,[0;1;2;3]); (n_v'ovvv,[4;5;6;1])] [2;3;4;0;5;6]));
  (*3512*) Assign (T 502) (Plain (Zeros [0;0;0;1;1;1]));
  (*3513*) AddTo (T 502) (Plain (Einsum [(n_l2,[0;1;2;3]); (T 9,[3;4;5;6])] [2;4;5;0;1;6]));
  (*3514*) Assign (T 503) (Plain (Zeros [0;0;0;1;1;1]));
  (*3515*) AddTo (T 503) (Plain (Einsum [(n_v'ovov,[0;1;2;3]); (T 123,[4;5;2;6])] [4;5;0;6;1;3]));
  (*3516*) Del (T 123);
  (*3517*) Assign (T 504) (Plain (Zeros [0;0;0;1;1;1]));
  (*3518*) AddTo (T 504) (Times (Einsum [(T 501,[0;1;2;3;4;5])] [0;1;2;3;4;5]) (-1) 1);
  (*3519*) Del (T 501);
  (*3520*) AddTo (T 504) (Plain (Einsum [(T 502,[0;1;2;3;4;5])] [0;1;2;3;4;5]));
  (*3521*) Del (T 502);
  (*3522*) AddTo (T 504) (Plain (Einsum [(T 503,[0;1;2;3;4;5])] [0;1;2;3;4;5]));
  (*3523*) Del (T 503);
  (*3524*) AddTo n_l3new (Times (Einsum [(T 504,[0;1;2;3;4;5])] [3;5;4;0;1;2]) (-1) 1);
  (*3525*) AddTo n_l3new (Plain (Einsum [(T 504,[0;1;2;3;4;5])] [4;5;3;0;1;2]));
  (*3526*) AddTo n_l3new (Times (Einsum [(T 504,[0;1;2;3;4;5])] [3;4;5;0;2;1]) (-1) 1);
  (*3527*) AddTo n_l3new (Plain (Einsum [(T 504,[0;1;2;3;4;5])] [5;4;3;0;2;1]));
  (*3528*) AddTo n_l3new (Plain (Einsum [(T 504,[0;1;2;3;4;5])] [4;3;5;1;0;2]));
  (*3529*) AddTo n_l3new (Times (Einsum [(T 504,[0;1;2;3;4;5])] [5;3;4;1;0;2]) (-1) 1);
  (*3530*) AddTo n_l3new (Times (Einsum [(T 504,[0;1;2;3;4;5])] [4;3;5;2;0;1]) (-1) 1);
  (*3531*) AddTo n_l3new (Plain (Einsum [(T 504,[0;1;2;3;4;5])] [5;3;4;2;0;1]));
  (*3532*) AddTo n_l3new (Plain (Einsum [(T 504,[0;1;2;3;4;5])] [3;4;5;1;2;0]));
  (*3533*) AddTo n_l3new (Times (Einsum [(T 504,[0;1;2;3;4;5])] [5;4;3;1;2;0]) (-1) 1);
  (*3534*) AddTo n_l3new (Plain (Einsum [(T 504,[0;1;2;3;4;5])] [3;5;4;2;1;0]));
  (*3535*) AddTo n_l3new (Times (Einsum [(T 504,[0;1;2;3;4;5])] [4;5;3;2;1;0]) (-1) 1);
  (*3536*) Del (T 504);
  (*3537*) Assign (T 505) (Plain (Zeros [0;0;0;1;1;1]));
  (*3538*) AddTo (T 505) (Plain (Einsum [(n_v'vvvv,[0;1;2;3]); (n_l3,[1;4;3;5;6;7])] [5;7;6;4;0;2]));
  (*3539*) Assign (T 506) (Plain (Zeros [0;0;0;0;0;1]));
  (*3540*) AddTo (T 506) (Plain (Einsum [(n_t2,[0;1;2;3]); (n_l3,[2;4;3;5;6;7])] [5;7;6;0;1;4]));
  (*3541*) Assign (T 507) (Plain (Zeros [0;0;0;0;0;1]));
  (*3542*) AddTo (T 507) (Plain (Einsum [(n_t1,[0;1]); (T 113,[2;3;4;5;1;6])] [2;3;4;0;5;6]));
  (*3543*) Assign (T 508) (Plain (Zeros [0;0;0;0;0;1]));
  (*3544*) AddTo (T 508) (Plain (Einsum [(T 506,[0;1;2;3;4;5])] [0;1;2;3;4;5]));
  (*3545*) Del (T 506);
  (*3546*) AddTo (T 508) (Plain (Einsum [(T 507,[0;1;2;3;4;5])] [0;1;2;3;4;5]));
  (*3547*) Del (T 507);
  (*3548*) Assign (T 509) (Plain (Zeros [0;0;0;1;1;1]));
  (*3549*) AddTo (T 509) (Times (Einsum [(n_v'ovov,[0;1;2;3]); (T 508,[4;5;6;2;0;7])] [4;5;6;1;3;7]) (1) 2);
  (*3550*) Del (T 508);
  (*3551*) Assign (T 510) (Plain (Zeros [0;0;0;1;1;1]));
  (*3552*) AddTo (T 510) (Times (Einsum [(T 505,[0;1;2;3;4;5])] [0;1;2;3;4;5]) (1) 2);
  (*3553*) Del (T 505);
  (*3554*) AddTo (T 510) (Plain (Einsum [(T 509,[0;1;2;3;4;5])] [0;1;2;5;4;3]));
  (*3555*) Del (T 509);
  (*3556*) AddTo n_l3new (Times (Einsum [(T 510,[0;1;2;3;4;5])] [4;3;5;1;2;0]) (-1) 1);
  (*3557*) AddTo n_l3new (Plain (Einsum [(T 510,[0;1;2;3;4;5])] [5;3;4;1;2;0]));
  (*3558*) Del (T 510);
  (*3559*) Assign (T 511) (Plain (Zeros [0;0;0;1;1;1]));
  (*3560*) AddTo (T 511) (Times (Einsum [(n_v'ovov,[0;1;2;3]); (T 213,[4;5;2;6])] [0;4;5;3;1;6]) (-1) 2);
  (*3561*) Del (T 213);
  (*3562*) AddTo n_l3new (Plain (Einsum [(T 511,[0;1;2;3;4;5])] [4;5;3;1;2;0]));
  (*3563*) AddTo n_l3new (Times (Einsum [(T 511,[0;1;2;3;4;5])] [3;5;4;1;2;0]) (-1) 1);
  (*3564*) AddTo n_l3new (Times (Einsum [(T 511,[0;1;2;3;4;5])] [5;3;4;2;1;0]) (-1) 1);
  (*3565*) AddTo n_l3new (Plain (Einsum [(T 511,[0;1;2;3;4;5])] [4;3;5;2;1;0]));
  (*3566*) AddTo n_l3new (Plain (Einsum [(T 511,[0;1;2;3;4;5])] [5;3;4;0;1;2]));
  (*3567*) AddTo n_l3new (Times (Einsum [(T 511,[0;1;2;3;4;5])] [4;3;5;0;1;2]) (-1) 1);
  (*3568*) AddTo n_l3new (Times (Einsum [(T 511,[0;1;2;3;4;5])] [4;5;3;0;2;1]) (-1) 1);
  (*3569*) AddTo n_l3new (Plain (Einsum [(T 511,[0;1;2;3;4;5])] [3;5;4;0;2;1]));
  (*3570*) Del (T 511);
  (*3571*) Assign (T 512) (Plain (Zeros [0;0;0;1;1;1]));
  (*3572*) AddTo (T 512) (Plain (Einsum [(n_v'ovov,[0;1;2;3]); (T 166,[4;5;2;6])] [4;5;0;6;1;3]));
  (*3573*) Del (T 166);
  (*3574*) AddTo n_l3new (Times (Einsum [(T 512,[0;1;2;3;4;5])] [3;5;4;0;1;2]) (-1) 1);
  (*3575*) AddTo n_l3new (Plain (Einsum [(T 512,[0;1;2;3;4;5])] [4;5;3;0;1;2]));
  (*3576*) AddTo n_l3new (Times (Einsum [(T 512,[0;1;2;3;4;5])] [3;4;5;0;2;1]) (-1) 2);
  (*3577*) AddTo n_l3new (Times (Einsum [(T 512,[0;1;2;3;4;5])] [5;4;3;0;2;1]) (1) 2);
  (*3578*) AddTo n_l3new (Plain (Einsum [(T 512,[0;1;2;3;4;5])] [4;3;5;1;0;2]));
  (*3579*) AddTo n_l3new (Times (Einsum [(T 512,[0;1;2;3;4;5])] [5;3;4;1;0;2]) (-1) 1);
  (*3580*) AddTo n_l3new (Times (Einsum [(T 512,[0;1;2;3;4;5])] [4;3;5;2;0;1]) (-1) 1);
  (*3581*) AddTo n_l3new (Plain (Einsum [(T 512,[0;1;2;3;4;5])] [5;3;4;2;0;1]));
  (*3582*) AddTo n_l3new (Times (Einsum [(T 512,[0;1;2;3;4;5])] [3;4;5;1;2;0]) (1) 2);
  (*3583*) AddTo n_l3new (Times (Einsum [(T 512,[0;1;2;3;4;5])] [5;4;3;1;2;0]) (-1) 2);
  (*3584*) AddTo n_l3new (Plain (Einsum [(T 512,[0;1;2;3;4;5])] [3;5;4;2;1;0]));
  (*3585*) AddTo n_l3new (Times (Einsum [(T 512,[0;1;2;3;4;5])] [4;5;3;2;1;0]) (-1) 1);
  (*3586*) Del (T 512);
  (*3587*) Assign (T 513) (Plain (Zeros [0;0;0;1;1;1]));
  (*3588*) AddTo (T 513) (Plain (Einsum [(n_v'ooov,[0;1;2;3]); (T 113,[4;5;1;2;6;7])] [4;5;0;6;7;3]));
  (*3589*) Assign (T 514) (Plain (Zeros [0;0;0;1;1;1]));
  (*3590*) AddTo (T 514) (Plain (Einsum [(n_v'ovvv,[0;1;2;3]); (T 119,[4;5;6;0;3;7])] [5;4;6;7;1;2]));
  (*3591*) Assign (T 515) (Plain (Zeros [0;0;0;1;1;1]));
  (*3592*) AddTo (T 515) (Plain (Einsum [(T 9,[0;1;2;3]); (T 113,[4;5;0;1;6;7])] [4;5;2;6;7;3]));
  (*3593*) Assign (T 516) (Plain (Zeros [0;0;1;1]));
  (*3594*) AddTo (T 516) (Plain (Einsum [(n_v'oovv,[0;1;2;3])] [0;1;2;3]));
  (*3595*) AddTo (T 516) (Plain (Einsum [(T 91,[0;1;2;3])] [0;1;3;2]));
  (*3596*) Del (T 91);
  (*3597*) AddTo (T 516) (Times (Einsum [(T 71,[0;1;2;3])] [0;1;2;3]) (-100000000000001) 100000000000000);
  (*3598*) Del (T 71);
  (*3599*) AddTo n_l3new (Times (Einsum [(T 516,[0;1;2;3]); (n_l3,[4;2;5;6;0;7])] [4;3;5;6;1;7]) (-1) 1);
  (*3600*) Assign (T 517) (Plain (Zeros [0;0;0;1;1;1]));
  (*3601*) AddTo (T 517) (Plain (Einsum [(T 516,[0;1;2;3]); (n_l3,[4;5;2;6;0;7])] [7;6;1;4;5;3]));
  (*3602*) Assign (T 518) (Plain (Zeros [1;1]));
  (*3603*) AddTo (T 518) (Times (Einsum [(n_v'ovov,[0;1;2;3]); (T 191,[0;2;4;1])] [3;4]) (2) 1);
  (*3604*) Del (T 191);
  (*3605*) Assign (T 519) (Plain (Zeros [1;1]));
  (*3606*) AddTo (T 519) (Plain (Einsum [(n_t1,[0;1]); (T 394,[0;1;2;3])] [2;3]));
  (*3607*) Del (T 394);
  (*3608*) Assign (T 520) (Plain (Zeros [1;1]));
  (*3609*) AddTo (T 520) (Plain (Einsum [(T 518,[0;1])] [0;1]));
  (*3610*) Del (T 518);
  (*3611*) AddTo (T 520) (Times (Einsum [(T 519,[0;1])] [1;0]) (-1) 1);
  (*3612*) Del (T 519);
  (*3613*) Assign (T 521) (Plain (Zeros [0;0;0;1;1;1]));
  (*3614*) AddTo (T 521) (Plain (Einsum [(T 520,[0;1]); (n_l3,[2;3;1;4;5;6])] [6;4;5;2;3;0]));
  (*3615*) Del (T 520);
  (*3616*) Assign (T 522) (Plain (Zeros [0;0;0;1;1;1]));
  (*3617*) AddTo (T 522) (Times (Einsum [(T 37,[0;1]); (T 113,[2;3;4;0;5;6])] [2;3;4;5;6;1]) (2) 1);
  (*3618*) Del (T 37);
  (*3619*) Assign (T 523) (Plain (Zeros [0;0;0;1;1;1]));
  (*3620*) AddTo (T 523) (Times (Einsum [(n_v'ovov,[0;1;2;3]); (T 429,[4;5;2;6])] [0;5;4;3;1;6]) (3) 2);
  (*3621*) Del (T 429);
  (*3622*) Assign (T 524) (Plain (Zeros [0;0;0;1;1;1]));
  (*3623*) AddTo (T 524) (Times (Einsum [(T 513,[0;1;2;3;4;5])] [0;1;2;3;4;5]) (-1) 1);
  (*3624*) Del (T 513);
  (*3625*) AddTo (T 524) (Plain (Einsum [(T 514,[0;1;2;3;4;5])] [0;1;2;3;4;5]));
  (*3626*) Del (T 514);
  (*3627*) AddTo (T 524) (Times (Einsum [(T 515,[0;1;2;3;4;5])] [0;1;2;3;4;5]) (-1) 1);
  (*3628*) Del (T 515);
  (*3629*) AddTo (T 524) (Plain (Einsum [(T 517,[0;1;2;3;4;5])] [1;0;2;3;4;5]));
  (*3630*) Del (T 517);
  (*3631*) AddTo (T 524) (Plain (Einsum [(T 521,[0;1;2;3;4;5])] [1;0;2;3;4;5]));
  (*3632*) Del (T 521);
  (*3633*) AddTo (T 524) (Plain (Einsum [(T 522,[0;1;2;3;4;5])] [0;1;2;3;4;5]));
  (*3634*) Del (T 522);
  (*3635*) AddTo (T 524) (Plain (Einsum [(T 523,[0;1;2;3;4;5])] [1;2;0;5;4;3]));
  (*3636*) Del (T 523);
  (*3637*) AddTo n_l3new (Times (Einsum [(T 524,[0;1;2;3;4;5])] [3;4;5;0;2;1]) (-1) 1);
  (*3638*) AddTo n_l3new (Plain (Einsum [(T 524,[0;1;2;3;4;5])] [5;4;3;0;2;1]));
  (*3639*) Del (T 524);
  (*3640*) Assign (T 525) (Plain (Zeros [0;0;0;1;1;1]));
  (*3641*) AddTo (T 525) (Times (Einsum [(n_v'ovov,[0;1;2;3]); (T 156,[4;5;6;1])] [0;2;4;3;5;6]) (-1) 2);
  (*3642*) Del (T 156);
  (*3643*) AddTo n_l3new (Times (Einsum [(T 525,[0;1;2;3;4;5])] [5;4;3;2;0;1]) (-1) 1);
  (*3644*) AddTo n_l3new (Plain (Einsum [(T 525,[0;1;2;3;4;5])] [3;4;5;2;0;1]));
  (*3645*) AddTo n_l3new (Plain (Einsum [(T 525,[0;1;2;3;4;5])] [4;5;3;1;2;0]));
  (*3646*) AddTo n_l3new (Times (Einsum [(T 525,[0;1;2;3;4;5])] [3;5;4;1;2;0]) (-1) 1);
  (*3647*) AddTo n_l3new (Times (Einsum [(T 525,[0;1;2;3;4;5])] [4;5;3;0;2;1]) (-1) 1);
  (*3648*) AddTo n_l3new (Plain (Einsum [(T 525,[0;1;2;3;4;5])] [3;5;4;0;2;1]));
  (*3649*) AddTo n_l3new (Plain (Einsum [(T 525,[0;1;2;3;4;5])] [5;4;3;1;0;2]));
  (*3650*) AddTo n_l3new (Times (Einsum [(T 525,[0;1;2;3;4;5])] [3;4;5;1;0;2]) (-1) 1);
  (*3651*) Del (T 525);
  (*3652*) Assign (T 526) (Plain (Zeros [0;0;0;1;1;1]));
  (*3653*) AddTo (T 526) (Plain (Einsum [(n_v'ovov,[0;1;2;3]); (T 411,[4;5;6;3])] [4;0;2;6;5;1]));
  (*3654*) Del (T 411);
  (*3655*) AddTo n_l3new (Times (Einsum [(T 526,[0;1;2;3;4;5])] [3;5;4;0;1;2]) (1) 2);
  (*3656*) AddTo n_l3new (Times (Einsum [(T 526,[0;1;2;3;4;5])] [4;5;3;0;1;2]) (-1) 2);
  (*3657*) AddTo n_l3new (Times (Einsum [(T 526,[0;1;2;3;4;5])] [3;5;4;2;1;0]) (-1) 2);
  (*3658*) AddTo n_l3new (Times (Einsum [(T 526,[0;1;2;3;4;5])] [4;5;3;2;1;0]) (1) 2);
  (*3659*) Del (T 526);
  (*3660*) Assign (T 527) (Plain (Zeros [0;0;0;1;1;1]));
  (*3661*) AddTo (T 527) (Plain (Einsum [(n_v'ovov,[0;1;2;3]); (T 168,[4;5;2;6])] [4;5;0;6;1;3]));
  (*3662*) Del (T 168);
  (*3663*) AddTo n_l3new (Times (Einsum [(T 527,[0;1;2;3;4;5])] [3;4;5;0;2;1]) (1) 2);
  (*3664*) AddTo n_l3new (Times (Einsum [(T 527,[0;1;2;3;4;5])] [5;4;3;0;2;1]) (-1) 2);
  (*3665*) AddTo n_l3new (Times (Einsum [(T 527,[0;1;2;3;4;5])] [3;4;5;1;2;0]) (-1) 2);
  (*3666*) AddTo n_l3new (Times (Einsum [(T 527,[0;1;2;3;4;5])] [5;4;3;1;2;0]) (1) 2);
  (*3667*) Del (T 527);
  (*3668*) Assign (T 528) (Plain (Zeros [0;0;0;1;1;1]));
  (*3669*) AddTo (T 528) (Plain (Einsum [(T 6,[0;1;2;3]); (n_l3,[4;5;6;7;2;0])] [7;1;3;4;6;5]));
  (*3670*) Assign (T 529) (Plain (Zeros [0;0;0;1;1;1]));
  (*3671*) AddTo (T 529) (Plain (Einsum [(n_v'ooov,[0;1;2;3]); (T 119,[4;1;5;2;6;7])] [4;5;0;6;7;3]));
  (*3672*) Assign (T 530) (Plain (Zeros [0;0;0;1;1;1]));
  (*3673*) AddTo (T 530) (Plain (Einsum [(T 9,[0;1;2;3]); (T 119,[0;4;5;1;6;7])] [4;5;2;7;6;3]));
  (*3674*) Assign (T 531) (Plain (Zeros [0;0;0;1;1;1]));
  (*3675*) AddTo (T 531) (Plain (Einsum [(T 516,[0;1;2;3]); (n_l3,[4;2;5;0;6;7])] [7;6;1;4;5;3]));
  (*3676*) Assign (T 532) (Plain (Zeros [0;0;0;1;1;1]));
  (*3677*) AddTo (T 532) (Plain (Einsum [(T 480,[0;1]); (n_l3,[2;3;4;0;5;6])] [6;5;1;2;4;3]));
  (*3678*) Del (T 480);
  (*3679*) Assign (T 533) (Plain (Zeros [0;0;0;1;1;1]));
  (*3680*) AddTo (T 533) (Times (Einsum [(n_l3,[0;1;2;3;4;5])] [3;5;4;0;2;1]) (-1) 2);
  (*3681*) AddTo (T 533) (Plain (Einsum [(n_l3,[0;1;2;3;4;5])] [4;5;3;0;2;1]));
  (*3682*) Assign (T 534) (Plain (Zeros [0;1;1;1]));
  (*3683*) AddTo (T 534) (Times (Einsum [(n_t2,[0;1;2;3]); (T 533,[0;4;1;5;6;2])] [4;3;5;6]) (2) 1);
  (*3684*) Del (T 533);
  (*3685*) Assign (T 535) (Plain (Zeros [0;0;0;1;1;1]));
  (*3686*) AddTo (T 535) (Plain (Einsum [(n_v'ovov,[0;1;2;3]); (T 534,[4;1;5;6])] [0;2;4;3;6;5]));
  (*3687*) Del (T 534);
  (*3688*) Assign (T 536) (Plain (Zeros [0;0;0;1;1;1]));
  (*3689*) AddTo (T 536) (Plain (Einsum [(T 528,[0;1;2;3;4;5])] [0;1;2;3;4;5]));
  (*3690*) Del (T 528);
  (*3691*) AddTo (T 536) (Plain (Einsum [(T 529,[0;1;2;3;4;5])] [0;1;2;3;4;5]));
  (*3692*) Del (T 529);
  (*3693*) AddTo (T 536) (Plain (Einsum [(T 530,[0;1;2;3;4;5])] [0;1;2;3;4;5]));
  (*3694*) Del (T 530);
  (*3695*) AddTo (T 536) (Times (Einsum [(T 531,[0;1;2;3;4;5])] [0;1;2;4;3;5]) (-1) 1);
  (*3696*) Del (T 531);
  (*3697*) AddTo (T 536) (Times (Einsum [(T 532,[0;1;2;3;4;5])] [0;1;2;4;3;5]) (-1) 1);
  (*3698*) Del (T 532);
  (*3699*) AddTo (T 536) (Times (Einsum [(T 535,[0;1;2;3;4;5])] [2;1;0;4;5;3]) (-1) 1);
  (*3700*) Del (T 535);
  (*3701*) AddTo n_l3new (Plain (Einsum [(T 536,[0;1;2;3;4;5])] [3;5;4;0;1;2]));
  (*3702*) AddTo n_l3new (Times (Einsum [(T 536,[0;1;2;3;4;5])] [3;5;4;2;1;0]) (-1) 1);
  (*3703*) Del (T 536);
  (*3704*) Assign (T 537) (Plain (Zeros [0;0;0;1;1;1]));
  (*3705*) AddTo (T 537) (Plain (Einsum [(n_v'ovov,[0;1;2;3]); (T 373,[4;5;6;3])] [4;0;2;5;6;1]));
  (*3706*) Del (T 373);
  (*3707*) AddTo n_l3new (Times (Einsum [(T 537,[0;1;2;3;4;5])] [3;4;5;0;2;1]) (-1) 1);
  (*3708*) AddTo n_l3new (Plain (Einsum [(T 537,[0;1;2;3;4;5])] [5;4;3;0;2;1]));
  (*3709*) AddTo n_l3new (Plain (Einsum [(T 537,[0;1;2;3;4;5])] [4;3;5;1;0;2]));
  (*3710*) AddTo n_l3new (Times (Einsum [(T 537,[0;1;2;3;4;5])] [5;3;4;1;0;2]) (-1) 1);
  (*3711*) AddTo n_l3new (Times (Einsum [(T 537,[0;1;2;3;4;5])] [4;3;5;2;0;1]) (-1) 1);
  (*3712*) AddTo n_l3new (Plain (Einsum [(T 537,[0;1;2;3;4;5])] [5;3;4;2;0;1]));
  (*3713*) AddTo n_l3new (Plain (Einsum [(T 537,[0;1;2;3;4;5])] [3;4;5;1;2;0]));
  (*3714*) AddTo n_l3new (Times (Einsum [(T 537,[0;1;2;3;4;5])] [5;4;3;1;2;0]) (-1) 1);
  (*3715*) Del (T 537);
  (*3716*) Assign (T 538) (Plain (Zeros [0;0;0;1;1;1]));
  (*3717*) AddTo (T 538) (Plain (Einsum [(n_v'ooov,[0;1;2;3]); (T 113,[4;0;5;1;6;7])] [4;5;2;6;7;3]));
  (*3718*) Assign (T 539) (Plain (Zeros [0;0;0;1;1;1]));
  (*3719*) AddTo (T 539) (Plain (Einsum [(T 9,[0;1;2;3]); (T 113,[4;0;5;2;6;7])] [4;5;1;6;7;3]));
  (*3720*) Assign (T 540) (Plain (Zeros [0;0;1;1]));
  (*3721*) AddTo (T 540) (Times (Einsum [(n_v'ovov,[0;1;2;3]); (T 78,[2;4;3;5])] [0;4;1;5]) (100000000000001) 100000000000000);
  (*3722*) Assign (T 541) (Plain (Zeros [0;0;1;1]));
  (*3723*) AddTo (T 541) (Plain (Einsum [(n_v'ovov,[0;1;2;3])] [0;2;1;3]));
  (*3724*) AddTo (T 541) (Plain (Einsum [(T 100,[0;1;2;3])] [0;1;3;2]));
  (*3725*) AddTo (T 541) (Times (Einsum [(T 77,[0;1;2;3])] [0;1;2;3]) (-100000000000001) 100000000000000);
  (*3726*) AddTo (T 541) (Plain (Einsum [(T 540,[0;1;2;3])] [1;0;3;2]));
  (*3727*) Del (T 540);
  (*3728*) Assign (T 542) (Plain (Zeros [0;0;0;1;1;1]));
  (*3729*) AddTo (T 542) (Plain (Einsum [(T 541,[0;1;2;3]); (n_l3,[4;5;2;6;7;0])] [6;7;1;4;5;3]));
  (*3730*) Del (T 541);
  (*3731*) Assign (T 543) (Plain (Zeros [0;0;0;1;1;1]));
  (*3732*) AddTo (T 543) (Plain (Einsum [(T 538,[0;1;2;3;4;5])] [0;1;2;3;4;5]));
  (*3733*) Del (T 538);
  (*3734*) AddTo (T 543) (Plain (Einsum [(T 539,[0;1;2;3;4;5])] [0;1;2;3;4;5]));
  (*3735*) Del (T 539);
  (*3736*) AddTo (T 543) (Times (Einsum [(T 542,[0;1;2;3;4;5])] [0;1;2;3;4;5]) (-1) 1);
  (*3737*) Del (T 542);
  (*3738*) AddTo n_l3new (Times (Einsum [(T 543,[0;1;2;3;4;5])] [3;4;5;0;1;2]) (-1) 1);
  (*3739*) AddTo n_l3new (Plain (Einsum [(T 543,[0;1;2;3;4;5])] [5;4;3;0;1;2]));
  (*3740*) AddTo n_l3new (Times (Einsum [(T 543,[0;1;2;3;4;5])] [3;5;4;0;2;1]) (-1) 1);
  (*3741*) AddTo n_l3new (Times (Einsum [(T 543,[0;1;2;3;4;5])] [4;3;5;1;0;2]) (-1) 1);
  (*3742*) AddTo n_l3new (Plain (Einsum [(T 543,[0;1;2;3;4;5])] [5;3;4;1;0;2]));
  (*3743*) AddTo n_l3new (Plain (Einsum [(T 543,[0;1;2;3;4;5])] [4;3;5;2;0;1]));
  (*3744*) AddTo n_l3new (Times (Einsum [(T 543,[0;1;2;3;4;5])] [5;3;4;2;0;1]) (-1) 1);
  (*3745*) AddTo n_l3new (Plain (Einsum [(T 543,[0;1;2;3;4;5])] [3;5;4;1;2;0]));
  (*3746*) AddTo n_l3new (Plain (Einsum [(T 543,[0;1;2;3;4;5])] [3;4;5;2;1;0]));
  (*3747*) AddTo n_l3new (Times (Einsum [(T 543,[0;1;2;3;4;5])] [5;4;3;2;1;0]) (-1) 1);
  (*3748*) Del (T 543);
  (*3749*) Assign (T 544) (Plain (Zeros [0;0;0;1;1;1]));
  (*3750*) AddTo (T 544) (Plain (Einsum [(n_v'ooov,[0;1;2;3]); (T 113,[4;1;5;2;6;7])] [4;5;0;6;7;3]));
  (*3751*) Assign (T 545) (Plain (Zeros [0;0;0;1;1;1]));
  (*3752*) AddTo (T 545) (Plain (Einsum [(T 9,[0;1;2;3]); (T 113,[4;0;5;1;6;7])] [4;5;2;6;7;3]));
  (*3753*) Del (T 9);
  (*3754*) Assign (T 546) (Plain (Zeros [0;0;0;1;1;1]));
  (*3755*) AddTo (T 546) (Plain (Einsum [(T 516,[0;1;2;3]); (n_l3,[4;5;2;6;7;0])] [6;7;1;4;5;3]));
  (*3756*) Del (T 516);
  (*3757*) Assign (T 547) (Plain (Zeros [0;0;0;1;1;1]));
  (*3758*) AddTo (T 547) (Plain (Einsum [(T 544,[0;1;2;3;4;5])] [0;1;2;3;4;5]));
  (*3759*) Del (T 544);
  (*3760*) AddTo (T 547) (Plain (Einsum [(T 545,[0;1;2;3;4;5])] [0;1;2;3;4;5]));
  (*3761*) Del (T 545);
  (*3762*) AddTo (T 547) (Times (Einsum [(T 546,[0;1;2;3;4;5])] [0;1;2;3;4;5]) (-1) 1);
  (*3763*) Del (T 546);
  (*3764*) AddTo n_l3new (Plain (Einsum [(T 547,[0;1;2;3;4;5])] [3;4;5;0;1;2]));
  (*3765*) AddTo n_l3new (Times (Einsum [(T 547,[0;1;2;3;4;5])] [5;4;3;0;1;2]) (-1) 1);
  (*3766*) AddTo n_l3new (Times (Einsum [(T 547,[0;1;2;3;4;5])] [3;4;5;2;1;0]) (-1) 1);
  (*3767*) AddTo n_l3new (Plain (Einsum [(T 547,[0;1;2;3;4;5])] [5;4;3;2;1;0]));
  (*3768*) Del (T 547);
  (*3769*) Assign (T 548) (Plain (Zeros [0;0;0;1;1;1]));
  (*3770*) AddTo (T 548) (Plain (Einsum [(n_v'ovvv,[0;1;2;3]); (T 113,[4;5;6;0;3;7])] [5;4;6;7;1;2]));
  (*3771*) Del (T 113);
  (*3772*) AddTo n_l3new (Times (Einsum [(T 548,[0;1;2;3;4;5])] [4;3;5;0;2;1]) (-1) 1);
  (*3773*) AddTo n_l3new (Plain (Einsum [(T 548,[0;1;2;3;4;5])] [5;3;4;0;2;1]));
  (*3774*) Del (T 548);
  (*3775*) Assign (T 549) (Plain (Zeros [0;0;0;1;1;1]));
  (*3776*) AddTo (T 549) (Plain (Einsum [(T 6,[0;1;2;3]); (n_l3,[4;5;6;0;7;2])] [7;1;3;4;6;5]));
  (*3777*) Del (T 6);
  (*3778*) AddTo n_l3new (Times (Einsum [(T 549,[0;1;2;3;4;5])] [3;5;4;1;0;2]) (-1) 1);
  (*3779*) AddTo n_l3new (Plain (Einsum [(T 549,[0;1;2;3;4;5])] [3;5;4;2;0;1]));
  (*3780*) Del (T 549);
  (*3781*) Assign (T 550) (Plain (Zeros [0;0;1;1]));
  (*3782*) AddTo (T 550) (Times (Einsum [(n_v'ovov,[0;1;2;3])] [0;2;1;3]) (99999999999999) 100000000000000);
  (*3783*) AddTo (T 550) (Times (Einsum [(T 100,[0;1;2;3])] [0;1;3;2]) (99999999999999) 100000000000000);
  (*3784*) Del (T 100);
  (*3785*) AddTo (T 550) (Times (Einsum [(T 77,[0;1;2;3])] [0;1;2;3]) (-1) 1);
  (*3786*) Del (T 77);
  (*3787*) AddTo (T 550) (Plain (Einsum [(T 97,[0;1;2;3])] [1;0;3;2]));
  (*3788*) Del (T 97);
  (*3789*) AddTo n_l3new (Times (Einsum [(T 550,[0;1;2;3]); (T 142,[4;5;0;2;6;7])] [6;3;7;5;1;4]) (100000000000001) 100000000000000);
  (*3790*) Del (T 142);
  (*3790*) Del (T 550);
  (*3791*) Assign (T 551) (Plain (Zeros [1;1]));
  (*3792*) AddTo (T 551) (Plain (Einsum [(n_f'vv,[0;1])] [0;1]));
  (*3793*) AddTo (T 551) (Times (Einsum [(n_v'ovov,[0;1;2;3]); (T 78,[0;2;1;4])] [4;3]) (-1) 1);
  (*3794*) Del (T 78);
  (*3795*) AddTo (T 551) (Times (Einsum [(n_t1,[0;1]); (T 55,[0;1;2;3])] [3;2]) (2) 1);
  (*3796*) Del (T 55);
  (*3797*) AddTo n_l3new (Plain (Einsum [(T 551,[0;1]); (n_l3,[2;0;3;4;5;6])] [2;1;3;4;5;6]));
  (*3798*) Del (T 551);
  (*3799*) Assign (T 552) (Plain (Zeros [0;0;0;1]));
  (*3800*) AddTo (T 552) (Plain (Einsum [(n_v'ooov,[0;1;2;3])] [0;1;2;3]));
  (*3801*) AddTo (T 552) (Times (Einsum [(n_v'ooov,[0;1;2;3])] [0;2;1;3]) (-1) 1);
  (*3802*) AddTo n_l3new (Times (Einsum [(T 552,[0;1;2;3]); (T 119,[4;5;0;1;6;7])] [7;3;6;5;2;4]) (-1) 1);
  (*3803*) Del (T 119);
  (*3803*) Del (T 552);
  (*3804*) Assign (T 553) (Plain (Zeros [0;0;1;1]));
  (*3805*) AddTo (T 553) (Plain (Einsum [(n_l2,[0;1;2;3])] [3;2;0;1]));
  (*3806*) AddTo (T 553) (Times (Einsum [(n_l2,[0;1;2;3])] [2;3;0;1]) (-1) 1);
  (*3807*) AddTo n_l3new (Times (Einsum [(T 69,[0;1]); (T 553,[2;3;4;5])] [5;1;4;3;0;2]) (-1) 1);
  (*3808*) Del (T 69);
  (*3808*) Del (T 553)]
 [(n_l1new,[1;0]); (n_l2new,[1;1;0;0]); (n_l3new,[1;1;1;0;0;0])].

(** ebcc/codegen/RCCSDT.py:3812-3974 [make_rdm1_f]; assembly (line 3972) not translated *)
Definition RCCSDT_make_rdm1_f : prog := mkprog
 [(n_l3,[1;1;1;0;0;0]); (n_t3,[0;0;0;1;1;1]); (n_t1,[0;1]); (n_l1,[1;0]); (n_t2,[0;0;1;1]); (n_l2,[1;1;0;0])]
 [(*3813*) Assign n_delta'oo (Plain (Eye 0));
  (*3813*) Assign n_delta'vv (Plain (Eye 1));
  (*3816*) Assign n_rdm1_f_oo (Plain (Zeros [0;0]));
  (*3817*) AddTo n_rdm1_f_oo (Times (Einsum [(n_delta'oo,[0;1])] [0;1]) (2) 1);
  (*3818*) AddTo n_rdm1_f_oo (Times (Einsum [(n_l3,[0;1;2;3;4;5]); (n_t3,[6;5;3;1;0;2])] [6;4]) (8333333333333) 50000000000000);
  (*3819*) Assign n_rdm1_f_ov (Plain (Zeros [0;1]));
  (*3820*) AddTo n_rdm1_f_ov (Times (Einsum [(n_t1,[0;1])] [0;1]) (2) 1);
  (*3821*) Assign n_rdm1_f_vo (Plain (Zeros [1;0]));
  (*3822*) AddTo n_rdm1_f_vo (Times (Einsum [(n_l1,[0;1])] [0;1]) (2) 1);
  (*3823*) Assign n_rdm1_f_vv (Plain (Zeros [1;1]));
  (*3824*) AddTo n_rdm1_f_vv (Times (Einsum [(n_l3,[0;1;2;3;4;5]); (n_t3,[3;4;5;0;6;2])] [1;6]) (24999999999999) 50000000000000);
  (*3825*) AddTo n_rdm1_f_vv (Times (Einsum [(n_l1,[0;1]); (n_t1,[1;2])] [0;2]) (2) 1);
  (*3826*) Assign (T 1) (Plain (Zeros [0;0]));
  (*3827*) AddTo (T 1) (Plain (Einsum [(n_l1,[0;1]); (n_t1,[2;0])] [1;2]));
  (*3828*) AddTo n_rdm1_f_oo (Times (Einsum [(T 1,[0;1])] [1;0]) (-2) 1);
  (*3829*) Assign (T 2) (Plain (Zeros [0;0;0;1;1;1]));
  (*3830*) AddTo (T 2) (Times (Einsum [(n_t3,[0;1;2;3;4;5])] [0;2;1;3;5;4]) (-892857142857143) 6250000000000000);
  (*3831*) AddTo (T 2) (Times (Einsum [(n_t3,[0;1;2;3;4;5])] [0;2;1;4;5;3]) (892857142857143) 6250000000000000);
  (*3832*) AddTo (T 2) (Plain (Einsum [(n_t3,[0;1;2;3;4;5])] [1;0;2;5;3;4]));
  (*3833*) AddTo (T 2) (Times (Einsum [(n_t3,[0;1;2;3;4;5])] [1;0;2;4;3;5]) (-892857142857143) 6250000000000000);
  (*3834*) AddTo n_rdm1_f_oo (Times (Einsum [(n_l3,[0;1;2;3;4;5]); (T 2,[4;6;3;0;2;1])] [6;5]) (-58333333333331) 50000000000000);
  (*3835*) Del (T 2);
  (*3836*) Assign (T 3) (Plain (Zeros [0;0;0;1;1;1]));
  (*3837*) AddTo (T 3) (Times (Einsum [(n_t3,[0;1;2;3;4;5])] [0;2;1;3;5;4]) (3) 1);
  (*3838*) AddTo (T 3) (Plain (Einsum [(n_t3,[0;1;2;3;4;5])] [0;1;2;5;3;4]));
  (*3839*) AddTo (T 3) (Times (Einsum [(n_t3,[0;1;2;3;4;5])] [0;1;2;5;4;3]) (-1) 1);
  (*3840*) AddTo n_rdm1_f_oo (Times (Einsum [(n_l3,[0;1;2;3;4;5]); (T 3,[3;5;6;0;2;1])] [6;4]) (-8333333333333) 50000000000000);
  (*3841*) Del (T 3);
  (*3842*) Assign (T 4) (Plain (Zeros [0;0;0;1;1;1]));
  (*3843*) AddTo (T 4) (Plain (Einsum [(n_t3,[0;1;2;3;4;5])] [0;2;1;3;5;4]));
  (*3844*) AddTo (T 4) (Times (Einsum [(n_t3,[0;1;2;3;4;5])] [1;0;2;5;3;4]) (-1) 1);
  (*3845*) AddTo n_rdm1_f_oo (Times (Einsum [(n_l3,[0;1;2;3;4;5]); (T 4,[3;6;4;0;1;2])] [6;5]) (8333333333333) 50000000000000);
  (*3846*) Del (T 4);
  (*3847*) Assign (T 5) (Plain (Zeros [0;0;1;1]));
  (*3848*) AddTo (T 5) (Times (Einsum [(n_t2,[0;1;2;3])] [0;1;3;2]) (-1) 1);
  (*3849*) AddTo (T 5) (Times (Einsum [(n_t2,[0;1;2;3])] [0;1;2;3]) (2) 1);
  (*3850*) AddTo n_rdm1_f_oo (Times (Einsum [(n_l2,[0;1;2;3]); (T 5,[2;4;0;1])] [4;3]) (-2) 1);
  (*3851*) Del (T 5);
  (*3852*) Assign (T 6) (Plain (Zeros [0;0;0;0;1;1]));
  (*3853*) AddTo (T 6) (Plain (Einsum [(n_t1,[0;1]); (n_l3,[2;1;3;4;5;6])] [4;6;5;0;2;3]));
  (*3854*) AddTo n_rdm1_f_ov (Times (Einsum [(n_t3,[0;1;2;3;4;5]); (T 6,[0;2;1;6;3;5])] [6;4]) (-24999999999999) 50000000000000);
  (*3855*) Del (T 6);
  (*3856*) Assign (T 7) (Plain (Zeros [0;0;0;0;1;1]));
  (*3857*) AddTo (T 7) (Plain (Einsum [(n_t1,[0;1]); (n_l3,[2;3;1;4;5;6])] [4;6;5;0;2;3]));
  (*3858*) Assign (T 8) (Plain (Zeros [0;0;0;1;1;1]));
  (*3859*) AddTo (T 8) (Times (Einsum [(n_t3,[0;1;2;3;4;5])] [0;2;1;3;5;4]) (-1) 1);
  (*3860*) AddTo (T 8) (Times (Einsum [(n_t3,[0;1;2;3;4;5])] [0;2;1;4;5;3]) (6999999999999999) 1000000000000000);
  (*3861*) AddTo (T 8) (Plain (Einsum [(n_t3,[0;1;2;3;4;5])] [0;2;1;3;4;5]));
  (*3862*) AddTo (T 8) (Plain (Einsum [(n_t3,[0;1;2;3;4;5])] [1;0;2;5;3;4]));
  (*3863*) AddTo (T 8) (Times (Einsum [(n_t3,[0;1;2;3;4;5])] [1;0;2;5;4;3]) (-1) 1);
  (*3864*) AddTo (T 8) (Times (Einsum [(n_t3,[0;1;2;3;4;5])] [1;0;2;4;3;5]) (-1) 1);
  (*3865*) AddTo n_rdm1_f_ov (Times (Einsum [(T 7,[0;1;2;3;4;5]); (T 8,[0;1;2;5;6;4])] [3;6]) (-8333333333333) 50000000000000);
  (*3866*) Del (T 8);
  (*3867*) Assign (T 9) (Plain (Zeros [0;0;0;1;1;1]));
  (*3868*) AddTo (T 9) (Plain (Einsum [(n_t3,[0;1;2;3;4;5])] [0;2;1;3;5;4]));
  (*3869*) AddTo (T 9) (Times (Einsum [(n_t3,[0;1;2;3;4;5])] [0;2;1;3;4;5]) (-1) 1);
  (*3870*) AddTo (T 9) (Plain (Einsum [(n_t3,[0;1;2;3;4;5])] [0;2;1;4;3;5]));
  (*3871*) AddTo n_rdm1_f_ov (Times (Einsum [(T 7,[0;1;2;3;4;5]); (T 9,[0;2;1;5;4;6])] [3;6]) (8333333333333) 50000000000000);
  (*3872*) Del (T 7);
  (*3872*) Del (T 9);
  (*3873*) Assign (T 10) (Plain (Zeros [0;0;0;1;1;1]));
  (*3874*) AddTo (T 10) (Plain (Einsum [(n_t3,[0;1;2;3;4;5])] [0;2;1;3;5;4]));
  (*3875*) AddTo (T 10) (Times (Einsum [(n_t3,[0;1;2;3;4;5])] [0;2;1;4;3;5]) (6) 1);
  (*3876*) AddTo (T 10) (Plain (Einsum [(n_t3,[0;1;2;3;4;5])] [0;1;2;5;3;4]));
  (*3877*) AddTo (T 10) (Times (Einsum [(n_t3,[0;1;2;3;4;5])] [0;1;2;3;5;4]) (-1) 1);
  (*3878*) AddTo n_rdm1_f_ov (Times (Einsum [(n_l2,[0;1;2;3]); (T 10,[2;4;3;1;0;5])] [4;5]) (1) 2);
  (*3879*) Del (T 10);
  (*3880*) Assign (T 11) (Plain (Zeros [0;0;0;1;1;1]));
  (*3881*) AddTo (T 11) (Plain (Einsum [(n_t3,[0;1;2;3;4;5])] [0;2;1;3;5;4]));
  (*3882*) AddTo (T 11) (Times (Einsum [(n_t3,[0;1;2;3;4;5])] [0;2;1;4;3;5]) (2) 1);
  (*3883*) AddTo n_rdm1_f_ov (Times (Einsum [(n_l2,[0;1;2;3]); (T 11,[3;4;2;1;0;5])] [4;5]) (-1) 2);
  (*3884*) Del (T 11);
  (*3885*) Assign (T 12) (Plain (Zeros [0;0;0;1]));
  (*3886*) AddTo (T 12) (Plain (Einsum [(n_t1,[0;1]); (n_l2,[2;1;3;4])] [3;4;0;2]));
  (*3887*) Assign (T 13) (Plain (Zeros [0;0;1;1]));
  (*3888*) AddTo (T 13) (Times (Einsum [(n_t2,[0;1;2;3])] [0;1;3;2]) (-3333333333333333) 10000000000000000);
  (*3889*) AddTo (T 13) (Plain (Einsum [(n_t2,[0;1;2;3])] [0;1;2;3]));
  (*3890*) Assign (T 14) (Plain (Zeros [0;0;0;1]));
  (*3891*) AddTo (T 14) (Times (Einsum [(T 13,[0;1;2;3]); (n_l3,[4;2;3;5;0;6])] [1;6;5;4]) (3) 4);
  (*3892*) Del (T 13);
  (*3893*) Assign (T 15) (Plain (Zeros [0;0;1;1]));
  (*3894*) AddTo (T 15) (Plain (Einsum [(n_t2,[0;1;2;3])] [0;1;3;2]));
  (*3895*) AddTo (T 15) (Times (Einsum [(n_t2,[0;1;2;3])] [0;1;2;3]) (-3333333333333333) 10000000000000000);
  (*3896*) Assign (T 16) (Plain (Zeros [0;0;0;1]));
  (*3897*) AddTo (T 16) (Times (Einsum [(T 12,[0;1;2;3])] [0;1;2;3]) (2) 1);
  (*3898*) AddTo (T 16) (Times (Einsum [(T 12,[0;1;2;3])] [1;0;2;3]) (-1) 1);
  (*3899*) Del (T 12);
  (*3900*) AddTo (T 16) (Plain (Einsum [(T 14,[0;1;2;3])] [2;1;0;3]));
  (*3901*) AddTo (T 16) (Times (Einsum [(T 14,[0;1;2;3])] [1;2;0;3]) (-1) 1);
  (*3902*) Del (T 14);
  (*3903*) AddTo (T 16) (Times (Einsum [(T 15,[0;1;2;3]); (n_l3,[4;2;3;5;6;0])] [5;6;1;4]) (3) 2);
  (*3904*) Del (T 15);
  (*3905*) AddTo n_rdm1_f_ov (Times (Einsum [(n_t2,[0;1;2;3]); (T 16,[0;1;4;2])] [4;3]) (-2) 1);
  (*3906*) Del (T 16);
  (*3907*) Assign (T 17) (Plain (Zeros [0;0;0;1;1;1]));
  (*3908*) AddTo (T 17) (Times (Einsum [(n_l3,[0;1;2;3;4;5])] [5;3;4;0;2;1]) (-1) 1);
  (*3909*) AddTo (T 17) (Plain (Einsum [(n_l3,[0;1;2;3;4;5])] [3;5;4;0;2;1]));
  (*3910*) AddTo (T 17) (Plain (Einsum [(n_l3,[0;1;2;3;4;5])] [3;5;4;1;0;2]));
  (*3911*) Assign (T 18) (Plain (Zeros [0;0;0;1]));
  (*3912*) AddTo (T 18) (Times (Einsum [(n_t2,[0;1;2;3]); (n_l3,[4;2;3;5;6;1])] [5;6;0;4]) (-1) 1);
  (*3913*) AddTo (T 18) (Plain (Einsum [(n_t2,[0;1;2;3]); (T 17,[1;4;5;3;2;6])] [4;5;0;6]));
  (*3914*) Del (T 17);
  (*3915*) AddTo n_rdm1_f_ov (Times (Einsum [(n_t2,[0;1;2;3]); (T 18,[0;1;4;3])] [4;2]) (-1) 1);
  (*3916*) Del (T 18);
  (*3917*) Assign (T 19) (Plain (Zeros [0;0;1;1]));
  (*3918*) AddTo (T 19) (Times (Einsum [(n_t2,[0;1;2;3])] [0;1;3;2]) (-1) 2);
  (*3919*) AddTo (T 19) (Plain (Einsum [(n_t2,[0;1;2;3])] [0;1;2;3]));
  (*3920*) AddTo n_rdm1_f_ov (Times (Einsum [(n_l1,[0;1]); (T 19,[1;2;0;3])] [2;3]) (4) 1);
  (*3921*) Del (T 19);
  (*3922*) Assign (T 20) (Plain (Zeros [0;0;0;1;1;1]));
  (*3923*) AddTo (T 20) (Times (Einsum [(n_t3,[0;1;2;3;4;5])] [0;2;1;3;5;4]) (-1) 1);
  (*3924*) AddTo (T 20) (Plain (Einsum [(n_t3,[0;1;2;3;4;5])] [0;2;1;4;5;3]));
  (*3925*) AddTo (T 20) (Times (Einsum [(n_t3,[0;1;2;3;4;5])] [1;0;2;5;3;4]) (6999999999999999) 1000000000000000);
  (*3926*) AddTo (T 20) (Times (Einsum [(n_t3,[0;1;2;3;4;5])] [1;0;2;4;3;5]) (-1) 1);
  (*3927*) Assign (T 21) (Plain (Zeros [0;0;0;1;1;1]));
  (*3928*) AddTo (T 21) (Times (Einsum [(n_t3,[0;1;2;3;4;5])] [0;2;1;3;5;4]) (-1) 1);
  (*3929*) AddTo (T 21) (Plain (Einsum [(n_t3,[0;1;2;3;4;5])] [0;2;1;4;5;3]));
  (*3930*) AddTo (T 21) (Times (Einsum [(n_t3,[0;1;2;3;4;5])] [0;1;2;4;3;5]) (3) 1);
  (*3931*) Assign (T 22) (Plain (Zeros [0;0;0;1;1;1]));
  (*3932*) AddTo (T 22) (Plain (Einsum [(n_l3,[0;1;2;3;4;5])] [3;5;4;0;2;1]));
  (*3933*) AddTo (T 22) (Plain (Einsum [(n_l3,[0;1;2;3;4;5])] [5;4;3;0;2;1]));
  (*3934*) Assign (T 23) (Plain (Zeros [0;0;1;1]));
  (*3935*) AddTo (T 23) (Plain (Einsum [(n_t2,[0;1;2;3])] [0;1;3;2]));
  (*3936*) AddTo (T 23) (Times (Einsum [(n_t2,[0;1;2;3])] [0;1;2;3]) (-1) 2);
  (*3937*) Assign (T 24) (Plain (Zeros [0;0]));
  (*3938*) AddTo (T 24) (Plain (Einsum [(T 1,[0;1])] [0;1]));
  (*3939*) Del (T 1);
  (*3940*) AddTo (T 24) (Times (Einsum [(n_l3,[0;1;2;3;4;5]); (n_t3,[6;5;4;1;0;2])] [3;6]) (8333333333333) 100000000000000);
  (*3941*) AddTo (T 24) (Times (Einsum [(n_l3,[0;1;2;3;4;5]); (T 20,[4;6;5;2;0;1])] [3;6]) (8333333333333) 100000000000000);
  (*3942*) Del (T 20);
  (*3943*) AddTo (T 24) (Times (Einsum [(n_l3,[0;1;2;3;4;5]); (T 21,[3;6;5;1;0;2])] [4;6]) (8333333333333) 100000000000000);
  (*3944*) Del (T 21);
  (*3945*) AddTo (T 24) (Times (Einsum [(n_t3,[0;1;2;3;4;5]); (T 22,[2;6;1;5;4;3])] [6;0]) (-8333333333333) 100000000000000);
  (*3946*) Del (T 22);
  (*3947*) AddTo (T 24) (Times (Einsum [(n_l2,[0;1;2;3]); (T 23,[2;4;1;0])] [3;4]) (2) 1);
  (*3948*) Del (T 23);
  (*3949*) AddTo n_rdm1_f_ov (Times (Einsum [(n_t1,[0;1]); (T 24,[0;2])] [2;1]) (-2) 1);
  (*3950*) Del (T 24);
  (*3951*) Assign (T 25) (Plain (Zeros [0;0;0;1;1;1]));
  (*3952*) AddTo (T 25) (Times (Einsum [(n_t3,[0;1;2;3;4;5])] [0;2;1;3;5;4]) (892857142857143) 6250000000000000);
  (*3953*) AddTo (T 25) (Times (Einsum [(n_t3,[0;1;2;3;4;5])] [0;2;1;3;4;5]) (-892857142857143) 6250000000000000);
  (*3954*) AddTo (T 25) (Plain (Einsum [(n_t3,[0;1;2;3;4;5])] [0;2;1;4;3;5]));
  (*3955*) AddTo (T 25) (Times (Einsum [(n_t3,[0;1;2;3;4;5])] [1;0;2;5;3;4]) (-892857142857143) 6250000000000000);
  (*3956*) AddTo (T 25) (Times (Einsum [(n_t3,[0;1;2;3;4;5])] [1;0;2;5;4;3]) (892857142857143) 6250000000000000);
  (*3957*) AddTo (T 25) (Times (Einsum [(n_t3,[0;1;2;3;4;5])] [1;0;2;4;5;3]) (-892857142857143) 6250000000000000);
  (*3958*) AddTo n_rdm1_f_vv (Times (Einsum [(n_l3,[0;1;2;3;4;5]); (T 25,[5;3;4;1;2;6])] [0;6]) (58333333333331) 50000000000000);
  (*3959*) Del (T 25);
  (*3960*) Assign (T 26) (Plain (Zeros [0;0;0;1;1;1]));
  (*3961*) AddTo (T 26) (Times (Einsum [(n_t3,[0;1;2;3;4;5])] [0;2;1;3;5;4]) (-1) 1);
  (*3962*) AddTo (T 26) (Plain (Einsum [(n_t3,[0;1;2;3;4;5])] [0;2;1;4;5;3]));
  (*3963*) AddTo (T 26) (Plain (Einsum [(n_t3,[0;1;2;3;4;5])] [0;2;1;3;4;5]));
  (*3964*) AddTo n_rdm1_f_vv (Times (Einsum [(n_l3,[0;1;2;3;4;5]); (T 26,[5;4;3;1;6;2])] [0;6]) (-8333333333333) 50000000000000);
  (*3965*) Del (T 26);
  (*3966*) Assign (T 27) (Plain (Zeros [0;0;1;1]));
  (*3967*) AddTo (T 27) (Times (Einsum [(n_l2,[0;1;2;3])] [3;2;0;1]) (-1) 2);
  (*3968*) AddTo (T 27) (Plain (Einsum [(n_l2,[0;1;2;3])] [2;3;0;1]));
  (*3969*) AddTo n_rdm1_f_vv (Times (Einsum [(n_t2,[0;1;2;3]); (T 27,[0;1;2;4])] [4;3]) (4) 1);
  (*3970*) Del (T 27)]
 [(n_rdm1_f_oo,[0;0]); (n_rdm1_f_ov,[0;1]); (n_rdm1_f_vo,[1;0]); (n_rdm1_f_vv,[1;1])].

(** ebcc/codegen/RCCSDT.py:3976-6762 [make_rdm2_f]; assembly (line 6758) not translated *)
Definition RCCSDT_make_rdm2_f : prog := mkprog
 [(n_l1,[1;0]); (n_t2,[0;0;1;1]); (n_t1,[0;1]); (n_l2,[1;1;0;0]); (n_l3,[1;1;1;0;0;0]); (n_t3,[0;0;0;1;1;1])]
 [(*3977*) Assign n_delta'oo (Plain (Eye 0));
  (*3977*) Assign n_delta'vv (Plain (Eye 1));
  (*3980*) Assign n_rdm2_f_oooo (Plain (Zeros [0;0;0;0]));
  (*3981*) AddTo n_rdm2_f_oooo (Plain (Einsum [(n_delta'oo,[0;1]); (n_delta'oo,[2;3])] [0;2;1;3]));
  (*3982*) AddTo n_rdm2_f_oooo (Times (Einsum [(n_delta'oo,[0;1]); (n_delta'oo,[2;3])] [0;2;3;1]) (-1) 1);
  (*3983*) AddTo n_rdm2_f_oooo (Plain (Einsum [(n_delta'oo,[0;1]); (n_delta'oo,[2;3])] [0;2;1;3]));
  (*3984*) AddTo n_rdm2_f_oooo (Plain (Einsum [(n_delta'oo,[0;1]); (n_delta'oo,[2;3])] [0;2;1;3]));
  (*3985*) AddTo n_rdm2_f_oooo (Plain (Einsum [(n_delta'oo,[0;1]); (n_delta'oo,[2;3])] [0;2;1;3]));
  (*3986*) AddTo n_rdm2_f_oooo (Times (Einsum [(n_delta'oo,[0;1]); (n_delta'oo,[2;3])] [0;2;3;1]) (-1) 1);
  (*3987*) Assign n_rdm2_f_ovoo (Plain (Zeros [0;1;0;0]));
  (*3988*) AddTo n_rdm2_f_ovoo (Plain (Einsum [(n_delta'oo,[0;1]); (n_l1,[2;3])] [0;2;1;3]));
  (*3989*) AddTo n_rdm2_f_ovoo (Times (Einsum [(n_delta'oo,[0;1]); (n_l1,[2;3])] [0;2;3;1]) (-1) 1);
  (*3990*) AddTo n_rdm2_f_ovoo (Plain (Einsum [(n_delta'oo,[0;1]); (n_l1,[2;3])] [0;2;1;3]));
  (*3991*) AddTo n_rdm2_f_ovoo (Plain (Einsum [(n_delta'oo,[0;1]); (n_l1,[2;3])] [0;2;1;3]));
  (*3992*) AddTo n_rdm2_f_ovoo (Plain (Einsum [(n_delta'oo,[0;1]); (n_l1,[2;3])] [0;2;1;3]));
  (*3993*) AddTo n_rdm2_f_ovoo (Times (Einsum [(n_delta'oo,[0;1]); (n_l1,[2;3])] [0;2;3;1]) (-1) 1);
  (*3994*) Assign n_rdm2_f_vooo (Plain (Zeros [1;0;0;0]));
  (*3995*) AddTo n_rdm2_f_vooo (Times (Einsum [(n_delta'oo,[0;1]); (n_l1,[2;3])] [2;0;1;3]) (-1) 1);
  (*3996*) AddTo n_rdm2_f_vooo (Plain (Einsum [(n_delta'oo,[0;1]); (n_l1,[2;3])] [2;0;3;1]));
  (*3997*) AddTo n_rdm2_f_vooo (Plain (Einsum [(n_delta'oo,[0;1]); (n_l1,[2;3])] [2;0;3;1]));
  (*3998*) AddTo n_rdm2_f_vooo (Plain (Einsum [(n_delta'oo,[0;1]); (n_l1,[2;3])] [2;0;3;1]));
  (*3999*) AddTo n_rdm2_f_vooo (Times (Einsum [(n_delta'oo,[0;1]); (n_l1,[2;3])] [2;0;1;3]) (-1) 1);
  (*4000*) AddTo n_rdm2_f_vooo (Plain (Einsum [(n_delta'oo,[0;1]); (n_l1,[2;3])] [2;0;3;1]));
  (*4001*) Assign n_rdm2_f_oovv (Plain (Zeros [0;0;1;1]));
  (*4002*) AddTo n_rdm2_f_oovv (Plain (Einsum [(n_t2,[0;1;2;3])] [0;1;2;3]));
  (*4003*) AddTo n_rdm2_f_oovv (Plain (Einsum [(n_t2,[0;1;2;3])] [0;1;2;3]));
  (*4004*) Assign n_rdm2_f_ovov (Plain (Zeros [0;1;0;1]));
  (*4005*) AddTo n_rdm2_f_ovov (Times (Einsum [(n_l1,[0;1]); (n_t1,[2;3])] [2;0;1;3]) (-1) 1);
  (*4006*) AddTo n_rdm2_f_ovov (Times (Einsum [(n_l1,[0;1]); (n_t1,[2;3])] [2;0;1;3]) (-1) 1);
  (*4007*) Assign n_rdm2_f_ovvo (Plain (Zeros [0;1;1;0]));
  (*4008*) AddTo n_rdm2_f_ovvo (Plain (Einsum [(n_l1,[0;1]); (n_t1,[2;3])] [2;0;3;1]));
  (*4009*) AddTo n_rdm2_f_ovvo (Plain (Einsum [(n_l1,[0;1]); (n_t1,[2;3])] [2;0;3;1]));
  (*4010*) AddTo n_rdm2_f_ovvo (Plain (Einsum [(n_l1,[0;1]); (n_t1,[2;3])] [2;0;3;1]));
  (*4011*) AddTo n_rdm2_f_ovvo (Plain (Einsum [(n_l1,[0;1]); (n_t1,[2;3])] [2;0;3;1]));
  (*4012*) Assign n_rdm2_f_voov (Plain (Zeros [1;0;0;1]));
  (*4013*) AddTo n_rdm2_f_voov (Plain (Einsum [(n_l1,[0;1]); (n_t1,[2;3])] [0;2;1;3]));
  (*4014*) AddTo n_rdm2_f_voov (Plain (Einsum [(n_l1,[0;1]); (n_t1,[2;3])] [0;2;1;3]));
  (*4015*) AddTo n_rdm2_f_voov (Plain (Einsum [(n_l1,[0;1]); (n_t1,[2;3])] [0;2;1;3]));
  (*4016*) AddTo n_rdm2_f_voov (Plain (Einsum [(n_l1,[0;1]); (n_t1,[2;3])] [0;2;1;3]));
  (*4017*) Assign n_rdm2_f_vovo (Plain (Zeros [1;0;1;0]));
  (*4018*) AddTo n_rdm2_f_vovo (Times (Einsum [(n_l1,[0;1]); (n_t1,[2;3])] [0;2;3;1]) (-1) 1);
  (*4019*) AddTo n_rdm2_f_vovo (Times (Einsum [(n_l1,[0;1]); (n_t1,[2;3])] [0;2;3;1]) (-1) 1);
  (*4020*) Assign n_rdm2_f_vvoo (Plain (Zeros [1;1;0;0]));
  (*4021*) AddTo n_rdm2_f_vvoo (Times (Einsum [(n_l2,[0;1;2;3])] [0;1;3;2]) (-1) 1);
  (*4022*) AddTo n_rdm2_f_vvoo (Plain (Einsum [(n_l2,[0;1;2;3])] [0;1;2;3]));
  (*4023*) AddTo n_rdm2_f_vvoo (Plain (Einsum [(n_l2,[0;1;2;3])] [0;1;2;3]));
  (*4024*) AddTo n_rdm2_f_vvoo (Plain (Einsum [(n_l2,[0;1;2;3])] [0;1;2;3]));
  (*4025*) AddTo n_rdm2_f_vvoo (Times (Einsum [(n_l2,[0;1;2;3])] [0;1;3;2]) (-1) 1);
  (*4026*) AddTo n_rdm2_f_vvoo (Plain (Einsum [(n_l2,[0;1;2;3])] [0;1;2;3]));
  (*4027*) Assign (T 1) (Plain (Zeros [0;0;0;0]));
  (*4028*) AddTo (T 1) (Plain (Einsum [(n_l3,[0;1;2;3;4;5]); (n_t3,[6;7;4;1;2;0])] [3;5;6;7]));
  (*4029*) AddTo n_rdm2_f_oooo (Times (Einsum [(T 1,[0;1;2;3])] [3;2;1;0]) (-16666666666667) 100000000000000);
  (*4030*) AddTo n_rdm2_f_oooo (Times (Einsum [(T 1,[0;1;2;3])] [3;2;1;0]) (-16666666666667) 100000000000000);
  (*4031*) Del (T 1);
  (*4032*) Assign (T 2) (Plain (Zeros [0;0]));
  (*4033*) AddTo (T 2) (Plain (Einsum [(n_l1,[0;1]); (n_t1,[2;0])] [1;2]));
  (*4034*) AddTo n_rdm2_f_oooo (Times (Einsum [(n_delta'oo,[0;1]); (T 2,[2;3])] [0;3;1;2]) (-1) 1);
  (*4035*) AddTo n_rdm2_f_oooo (Plain (Einsum [(n_delta'oo,[0;1]); (T 2,[2;3])] [3;0;1;2]));
  (*4036*) AddTo n_rdm2_f_oooo (Plain (Einsum [(n_delta'oo,[0;1]); (T 2,[2;3])] [0;3;2;1]));
  (*4037*) AddTo n_rdm2_f_oooo (Times (Einsum [(n_delta'oo,[0;1]); (T 2,[2;3])] [3;0;2;1]) (-1) 1);
  (*4038*) AddTo n_rdm2_f_oooo (Times (Einsum [(n_delta'oo,[0;1]); (T 2,[2;3])] [0;3;1;2]) (-1) 1);
  (*4039*) AddTo n_rdm2_f_oooo (Times (Einsum [(n_delta'oo,[0;1]); (T 2,[2;3])] [3;0;2;1]) (-1) 1);
  (*4040*) AddTo n_rdm2_f_oooo (Times (Einsum [(n_delta'oo,[0;1]); (T 2,[2;3])] [0;3;1;2]) (-1) 1);
  (*4041*) AddTo n_rdm2_f_oooo (Times (Einsum [(n_delta'oo,[0;1]); (T 2,[2;3])] [3;0;2;1]) (-1) 1);
  (*4042*) AddTo n_rdm2_f_oooo (Times (Einsum [(n_delta'oo,[0;1]); (T 2,[2;3])] [0;3;1;2]) (-1) 1);
  (*4043*) AddTo n_rdm2_f_oooo (Plain (Einsum [(n_delta'oo,[0;1]); (T 2,[2;3])] [3;0;1;2]));
  (*4044*) AddTo n_rdm2_f_oooo (Plain (Einsum [(n_delta'oo,[0;1]); (T 2,[2;3])] [0;3;2;1]));
  (*4045*) AddTo n_rdm2_f_oooo (Times (Einsum [(n_delta'oo,[0;1]); (T 2,[2;3])] [3;0;2;1]) (-1) 1);
  (*4046*) Assign (T 3) (Plain (Zeros [0;0;0;0]));
  (*4047*) AddTo (T 3) (Plain (Einsum [(n_l3,[0;1;2;3;4;5]); (n_t3,[6;7;5;1;0;2])] [3;4;6;7]));
  (*4048*) Assign (T 4) (Plain (Zeros [0;0;0;1;1;1]));
  (*4049*) AddTo (T 4) (Times (Einsum [(n_t3,[0;1;2;3;4;5])] [0;2;1;3;5;4]) (-1) 1);
  (*4050*) AddTo (T 4) (Plain (Einsum [(n_t3,[0;1;2;3;4;5])] [0;2;1;4;5;3]));
  (*4051*) Assign (T 5) (Plain (Zeros [0;0;0;0]));
  (*4052*) AddTo (T 5) (Times (Einsum [(n_l3,[0;1;2;3;4;5]); (T 4,[5;6;7;1;0;2])] [3;4;6;7]) (16666666666667) 100000000000000);
  (*4053*) Assign (T 6) (Plain (Zeros [0;0;0;0]));
  (*4054*) AddTo (T 6) (Times (Einsum [(T 3,[0;1;2;3])] [0;1;2;3]) (16666666666667) 100000000000000);
  (*4055*) AddTo (T 6) (Times (Einsum [(T 5,[0;1;2;3])] [0;1;2;3]) (-1) 1);
  (*4056*) Del (T 5);
  (*4057*) AddTo n_rdm2_f_oooo (Plain (Einsum [(T 6,[0;1;2;3])] [3;2;0;1]));
  (*4058*) AddTo n_rdm2_f_oooo (Times (Einsum [(T 6,[0;1;2;3])] [3;2;1;0]) (-1) 1);
  (*4059*) AddTo n_rdm2_f_oooo (Plain (Einsum [(T 6,[0;1;2;3])] [3;2;0;1]));
  (*4060*) AddTo n_rdm2_f_oooo (Times (Einsum [(T 6,[0;1;2;3])] [3;2;1;0]) (-1) 1);
  (*4061*) Del (T 6);
  (*4062*) Assign (T 7) (Plain (Zeros [0;0;1;1]));
  (*4063*) AddTo (T 7) (Plain (Einsum [(n_t2,[0;1;2;3])] [0;1;3;2]));
  (*4064*) AddTo (T 7) (Times (Einsum [(n_t2,[0;1;2;3])] [0;1;2;3]) (-1) 1);
  (*4065*) Assign (T 8) (Plain (Zeros [0;0;0;1]));
  (*4066*) AddTo (T 8) (Plain (Einsum [(T 7,[0;1;2;3]); (n_l3,[4;2;3;5;6;0])] [5;6;1;4]));
  (*4067*) Assign (T 9) (Plain (Zeros [0;0;0;0]));
  (*4068*) AddTo (T 9) (Times (Einsum [(n_t1,[0;1]); (T 8,[2;3;4;1])] [0;2;3;4]) (-1) 2);
  (*4069*) AddTo n_rdm2_f_oooo (Times (Einsum [(T 9,[0;1;2;3])] [0;3;1;2]) (-1) 1);
  (*4070*) AddTo n_rdm2_f_oooo (Plain (Einsum [(T 9,[0;1;2;3])] [3;0;1;2]));
  (*4071*) AddTo n_rdm2_f_oooo (Plain (Einsum [(T 9,[0;1;2;3])] [0;3;2;1]));
  (*4072*) AddTo n_rdm2_f_oooo (Times (Einsum [(T 9,[0;1;2;3])] [3;0;2;1]) (-1) 1);
  (*4073*) AddTo n_rdm2_f_oooo (Times (Einsum [(T 9,[0;1;2;3])] [0;3;1;2]) (-1) 1);
  (*4074*) AddTo n_rdm2_f_oooo (Plain (Einsum [(T 9,[0;1;2;3])] [3;0;1;2]));
  (*4075*) AddTo n_rdm2_f_oooo (Plain (Einsum [(T 9,[0;1;2;3])] [0;3;2;1]));
  (*4076*) AddTo n_rdm2_f_oooo (Times (Einsum [(T 9,[0;1;2;3])] [3;0;2;1]) (-1) 1);
  (*4077*) Del (T 9);
  (*4078*) Assign (T 10) (Plain (Zeros [0;0;1;1]));
  (*4079*) AddTo (T 10) (Times (Einsum [(n_t2,[0;1;2;3])] [0;1;3;2]) (-3333333333333333) 10000000000000000);
  (*4080*) AddTo (T 10) (Plain (Einsum [(n_t2,[0;1;2;3])] [0;1;2;3]));
  (*4081*) Assign (T 11) (Plain (Zeros [0;0;0;1]));
  (*4082*) AddTo (T 11) (Plain (Einsum [(T 10,[0;1;2;3]); (n_l3,[4;2;3;5;0;6])] [6;5;1;4]));
  (*4083*) Assign (T 12) (Plain (Zeros [0;0;0;0]));
  (*4084*) AddTo (T 12) (Times (Einsum [(n_t1,[0;1]); (T 11,[2;3;4;1])] [0;3;2;4]) (3) 2);
  (*4085*) AddTo n_rdm2_f_oooo (Plain (Einsum [(T 12,[0;1;2;3])] [0;3;1;2]));
  (*4086*) AddTo n_rdm2_f_oooo (Times (Einsum [(T 12,[0;1;2;3])] [3;0;1;2]) (-1) 1);
  (*4087*) AddTo n_rdm2_f_oooo (Plain (Einsum [(T 12,[0;1;2;3])] [0;3;1;2]));
  (*4088*) AddTo n_rdm2_f_oooo (Times (Einsum [(T 12,[0;1;2;3])] [3;0;1;2]) (-1) 1);
  (*4089*) Del (T 12);
  (*4090*) Assign (T 13) (Plain (Zeros [0;0]));
  (*4091*) AddTo (T 13) (Plain (Einsum [(n_l3,[0;1;2;3;4;5]); (n_t3,[6;5;4;1;0;2])] [3;6]));
  (*4092*) Assign (T 14) (Plain (Zeros [0;0;0;1;1;1]));
  (*4093*) AddTo (T 14) (Times (Einsum [(n_t3,[0;1;2;3;4;5])] [0;2;1;3;5;4]) (-1) 1);
  (*4094*) AddTo (T 14) (Times (Einsum [(n_t3,[0;1;2;3;4;5])] [0;2;1;4;5;3]) (6999999999999999) 1000000000000000);
  (*4095*) AddTo (T 14) (Plain (Einsum [(n_t3,[0;1;2;3;4;5])] [1;0;2;5;3;4]));
  (*4096*) AddTo (T 14) (Times (Einsum [(n_t3,[0;1;2;3;4;5])] [1;0;2;4;3;5]) (-1) 1);
  (*4097*) Assign (T 15) (Plain (Zeros [0;0]));
  (*4098*) AddTo (T 15) (Times (Einsum [(n_l3,[0;1;2;3;4;5]); (T 14,[3;6;4;1;2;0])] [5;6]) (8333333333333) 200000000000000);
  (*4099*) Assign (T 16) (Plain (Zeros [0;0;0;1;1;1]));
  (*4100*) AddTo (T 16) (Plain (Einsum [(n_t3,[0;1;2;3;4;5])] [0;2;1;3;5;4]));
  (*4101*) AddTo (T 16) (Times (Einsum [(n_t3,[0;1;2;3;4;5])] [0;2;1;4;5;3]) (-1) 1);
  (*4102*) AddTo (T 16) (Times (Einsum [(n_t3,[0;1;2;3;4;5])] [0;1;2;5;3;4]) (3) 1);
  (*4103*) Assign (T 17) (Plain (Zeros [0;0]));
  (*4104*) AddTo (T 17) (Times (Einsum [(n_l3,[0;1;2;3;4;5]); (T 16,[5;6;3;0;2;1])] [4;6]) (8333333333333) 200000000000000);
  (*4105*) Assign (T 18) (Plain (Zeros [0;0;0;1;1;1]));
  (*4106*) AddTo (T 18) (Plain (Einsum [(n_l3,[0;1;2;3;4;5])] [3;5;4;0;2;1]));
  (*4107*) AddTo (T 18) (Plain (Einsum [(n_l3,[0;1;2;3;4;5])] [4;3;5;0;2;1]));
  (*4108*) Assign (T 19) (Plain (Zeros [0;0]));
  (*4109*) AddTo (T 19) (Times (Einsum [(n_t3,[0;1;2;3;4;5]); (T 18,[1;2;6;5;4;3])] [0;6]) (8333333333333) 200000000000000);
  (*4110*) Assign (T 20) (Plain (Zeros [0;0;1;1]));
  (*4111*) AddTo (T 20) (Plain (Einsum [(n_t2,[0;1;2;3])] [0;1;3;2]));
  (*4112*) AddTo (T 20) (Times (Einsum [(n_t2,[0;1;2;3])] [0;1;2;3]) (-1) 2);
  (*4113*) Assign (T 21) (Plain (Zeros [0;0]));
  (*4114*) AddTo (T 21) (Plain (Einsum [(n_l2,[0;1;2;3]); (T 20,[3;4;0;1])] [2;4]));
  (*4115*) Assign (T 22) (Plain (Zeros [0;0]));
  (*4116*) AddTo (T 22) (Times (Einsum [(T 13,[0;1])] [0;1]) (8333333333333) 200000000000000);
  (*4117*) AddTo (T 22) (Plain (Einsum [(T 15,[0;1])] [0;1]));
  (*4118*) Del (T 15);
  (*4119*) AddTo (T 22) (Plain (Einsum [(T 17,[0;1])] [0;1]));
  (*4120*) Del (T 17);
  (*4121*) AddTo (T 22) (Times (Einsum [(T 19,[0;1])] [1;0]) (-1) 1);
  (*4122*) Del (T 19);
  (*4123*) AddTo (T 22) (Plain (Einsum [(T 21,[0;1])] [0;1]));
  (*4124*) Del (T 21);
  (*4125*) AddTo n_rdm2_f_oooo (Times (Einsum [(n_delta'oo,[0;1]); (T 22,[2;3])] [0;3;1;2]) (-2) 1);
  (*4126*) AddTo n_rdm2_f_oooo (Times (Einsum [(n_delta'oo,[0;1]); (T 22,[2;3])] [0;3;2;1]) (2) 1);
  (*4127*) AddTo n_rdm2_f_oooo (Times (Einsum [(n_delta'oo,[0;1]); (T 22,[2;3])] [3;0;1;2]) (2) 1);
  (*4128*) AddTo n_rdm2_f_oooo (Times (Einsum [(n_delta'oo,[0;1]); (T 22,[2;3])] [3;0;2;1]) (-2) 1);
  (*4129*) AddTo n_rdm2_f_oooo (Times (Einsum [(n_delta'oo,[0;1]); (T 22,[2;3])] [0;3;1;2]) (-2) 1);
  (*4130*) AddTo n_rdm2_f_oooo (Times (Einsum [(n_delta'oo,[0;1]); (T 22,[2;3])] [3;0;2;1]) (-2) 1);
  (*4131*) AddTo n_rdm2_f_oooo (Times (Einsum [(n_delta'oo,[0;1]); (T 22,[2;3])] [0;3;1;2]) (-2) 1);
  (*4132*) AddTo n_rdm2_f_oooo (Times (Einsum [(n_delta'oo,[0;1]); (T 22,[2;3])] [3;0;2;1]) (-2) 1);
  (*4133*) AddTo n_rdm2_f_oooo (Times (Einsum [(n_delta'oo,[0;1]); (T 22,[2;3])] [0;3;1;2]) (-2) 1);
  (*4134*) AddTo n_rdm2_f_oooo (Times (Einsum [(n_delta'oo,[0;1]); (T 22,[2;3])] [0;3;2;1]) (2) 1);
  (*4135*) AddTo n_rdm2_f_oooo (Times (Einsum [(n_delta'oo,[0;1]); (T 22,[2;3])] [3;0;1;2]) (2) 1);
  (*4136*) AddTo n_rdm2_f_oooo (Times (Einsum [(n_delta'oo,[0;1]); (T 22,[2;3])] [3;0;2;1]) (-2) 1);
  (*4137*) Assign (T 23) (Plain (Zeros [0;0;0;0]));
  (*4138*) AddTo (T 23) (Plain (Einsum [(n_l2,[0;1;2;3]); (n_t2,[4;5;0;1])] [2;3;4;5]));
  (*4139*) AddTo n_rdm2_f_oooo (Plain (Einsum [(T 23,[0;1;2;3])] [3;2;1;0]));
  (*4140*) AddTo n_rdm2_f_oooo (Plain (Einsum [(T 23,[0;1;2;3])] [3;2;1;0]));
  (*4141*) Assign (T 24) (Plain (Zeros [0;0;0;1]));
  (*4142*) AddTo (T 24) (Plain (Einsum [(n_t1,[0;1]); (n_l2,[2;1;3;4])] [3;4;0;2]));
  (*4143*) AddTo n_rdm2_f_ovoo (Times (Einsum [(T 24,[0;1;2;3])] [2;3;1;0]) (-1) 1);
  (*4144*) AddTo n_rdm2_f_ovoo (Times (Einsum [(T 24,[0;1;2;3])] [2;3;1;0]) (-1) 1);
  (*4145*) AddTo n_rdm2_f_vooo (Times (Einsum [(T 24,[0;1;2;3])] [3;2;0;1]) (-1) 1);
  (*4146*) AddTo n_rdm2_f_vooo (Times (Einsum [(T 24,[0;1;2;3])] [3;2;0;1]) (-1) 1);
  (*4147*) Assign (T 25) (Plain (Zeros [0;0;0;0]));
  (*4148*) AddTo (T 25) (Plain (Einsum [(n_t1,[0;1]); (T 24,[2;3;4;1])] [2;3;0;4]));
  (*4149*) AddTo n_rdm2_f_oooo (Plain (Einsum [(T 25,[0;1;2;3])] [3;2;1;0]));
  (*4150*) AddTo n_rdm2_f_oooo (Plain (Einsum [(T 25,[0;1;2;3])] [3;2;1;0]));
  (*4151*) Assign (T 26) (Plain (Zeros [0;0;0;0]));
  (*4152*) AddTo (T 26) (Plain (Einsum [(T 23,[0;1;2;3])] [1;0;3;2]));
  (*4153*) AddTo (T 26) (Plain (Einsum [(T 25,[0;1;2;3])] [0;1;2;3]));
  (*4154*) AddTo n_rdm2_f_oooo (Times (Einsum [(T 26,[0;1;2;3])] [3;2;0;1]) (-1) 1);
  (*4155*) AddTo n_rdm2_f_oooo (Plain (Einsum [(T 26,[0;1;2;3])] [2;3;0;1]));
  (*4156*) AddTo n_rdm2_f_oooo (Times (Einsum [(T 26,[0;1;2;3])] [3;2;0;1]) (-1) 1);
  (*4157*) AddTo n_rdm2_f_oooo (Plain (Einsum [(T 26,[0;1;2;3])] [2;3;0;1]));
  (*4158*) Assign (T 27) (Plain (Zeros [0;0;0;1;1;1]));
  (*4159*) AddTo (T 27) (Times (Einsum [(n_t3,[0;1;2;3;4;5])] [0;2;1;3;5;4]) (-3333333333333333) 10000000000000000);
  (*4160*) AddTo (T 27) (Times (Einsum [(n_t3,[0;1;2;3;4;5])] [0;2;1;4;5;3]) (3333333333333333) 10000000000000000);
  (*4161*) AddTo (T 27) (Plain (Einsum [(n_t3,[0;1;2;3;4;5])] [1;0;2;4;5;3]));
  (*4162*) Assign (T 28) (Plain (Zeros [0;0;0;0]));
  (*4163*) AddTo (T 28) (Times (Einsum [(n_l3,[0;1;2;3;4;5]); (T 27,[4;6;7;1;0;2])] [5;3;6;7]) (50000000000001) 100000000000000);
  (*4164*) Del (T 27);
  (*4165*) AddTo n_rdm2_f_oooo (Plain (Einsum [(T 28,[0;1;2;3])] [3;2;1;0]));
  (*4166*) AddTo n_rdm2_f_oooo (Plain (Einsum [(T 28,[0;1;2;3])] [3;2;1;0]));
  (*4167*) Del (T 28);
  (*4168*) Assign (T 29) (Plain (Zeros [0;0;0;0]));
  (*4169*) AddTo (T 29) (Plain (Einsum [(n_l3,[0;1;2;3;4;5]); (n_t3,[6;7;5;0;1;2])] [3;4;6;7]));
  (*4170*) Assign (T 30) (Plain (Zeros [0;0;0;1]));
  (*4171*) AddTo (T 30) (Plain (Einsum [(n_t2,[0;1;2;3]); (n_l3,[4;2;3;5;6;1])] [5;6;0;4]));
  (*4172*) AddTo n_rdm2_f_ovoo (Times (Einsum [(T 30,[0;1;2;3])] [2;3;1;0]) (-1) 1);
  (*4173*) AddTo n_rdm2_f_ovoo (Times (Einsum [(T 30,[0;1;2;3])] [2;3;1;0]) (-1) 1);
  (*4174*) AddTo n_rdm2_f_vooo (Times (Einsum [(T 30,[0;1;2;3])] [3;2;0;1]) (-1) 1);
  (*4175*) AddTo n_rdm2_f_vooo (Times (Einsum [(T 30,[0;1;2;3])] [3;2;0;1]) (-1) 1);
  (*4176*) Assign (T 31) (Plain (Zeros [0;0;0;0]));
  (*4177*) AddTo (T 31) (Plain (Einsum [(n_t1,[0;1]); (T 30,[2;3;4;1])] [2;3;0;4]));
  (*4178*) Assign (T 32) (Plain (Zeros [0;0;0;0]));
  (*4179*) AddTo (T 32) (Times (Einsum [(T 29,[0;1;2;3])] [0;1;2;3]) (50000000000001) 100000000000000);
  (*4180*) AddTo (T 32) (Plain (Einsum [(T 31,[0;1;2;3])] [0;1;2;3]));
  (*4181*) AddTo n_rdm2_f_oooo (Plain (Einsum [(T 32,[0;1;2;3])] [2;3;0;1]));
  (*4182*) AddTo n_rdm2_f_oooo (Plain (Einsum [(T 32,[0;1;2;3])] [3;2;1;0]));
  (*4183*) AddTo n_rdm2_f_oooo (Plain (Einsum [(T 32,[0;1;2;3])] [2;3;0;1]));
  (*4184*) AddTo n_rdm2_f_oooo (Plain (Einsum [(T 32,[0;1;2;3])] [3;2;1;0]));
  (*4185*) Assign (T 33) (Plain (Zeros [0;0;1;1]));
  (*4186*) AddTo (T 33) (Times (Einsum [(n_t2,[0;1;2;3])] [0;1;3;2]) (-1) 1);
  (*4187*) AddTo (T 33) (Plain (Einsum [(n_t2,[0;1;2;3])] [0;1;2;3]));
  (*4188*) Assign (T 34) (Plain (Zeros [0;0;0;1]));
  (*4189*) AddTo (T 34) (Plain (Einsum [(T 33,[0;1;2;3]); (n_l3,[2;4;3;5;6;0])] [5;6;1;4]));
  (*4190*) Assign (T 35) (Plain (Zeros [0;0;0;0]));
  (*4191*) AddTo (T 35) (Times (Einsum [(n_t1,[0;1]); (T 34,[2;3;4;1])] [0;2;3;4]) (-1) 2);
  (*4192*) AddTo n_rdm2_f_oooo (Plain (Einsum [(T 35,[0;1;2;3])] [3;0;1;2]));
  (*4193*) AddTo n_rdm2_f_oooo (Plain (Einsum [(T 35,[0;1;2;3])] [0;3;2;1]));
  (*4194*) AddTo n_rdm2_f_oooo (Plain (Einsum [(T 35,[0;1;2;3])] [3;0;1;2]));
  (*4195*) AddTo n_rdm2_f_oooo (Plain (Einsum [(T 35,[0;1;2;3])] [0;3;2;1]));
  (*4196*) Assign (T 36) (Plain (Zeros [0;0;0;0;1;1]));
  (*4197*) AddTo (T 36) (Plain (Einsum [(n_t1,[0;1]); (n_l3,[2;1;3;4;5;6])] [4;6;5;0;2;3]));
  (*4198*) Assign (T 37) (Plain (Zeros [0;0;0;0;0;1]));
  (*4199*) AddTo (T 37) (Plain (Einsum [(n_t1,[0;1]); (T 36,[2;3;4;5;6;1])] [2;3;4;0;5;6]));
  (*4200*) Assign (T 38) (Plain (Zeros [0;0;0;1]));
  (*4201*) AddTo (T 38) (Plain (Einsum [(n_t2,[0;1;2;3]); (T 37,[0;4;1;5;6;2])] [4;5;6;3]));
  (*4202*) Assign n_rdm2_f_ooov (Plain (Zeros [0;0;0;1]));
  (*4203*) AddTo n_rdm2_f_ooov (Times (Einsum [(T 38,[0;1;2;3])] [2;1;0;3]) (-1) 1);
  (*4204*) AddTo n_rdm2_f_ooov (Plain (Einsum [(T 38,[0;1;2;3])] [1;2;0;3]));
  (*4205*) AddTo n_rdm2_f_ooov (Plain (Einsum [(T 38,[0;1;2;3])] [1;2;0;3]));
  (*4206*) AddTo n_rdm2_f_ooov (Times (Einsum [(T 38,[0;1;2;3])] [2;1;0;3]) (-1) 1);
  (*4207*) Assign n_rdm2_f_oovo (Plain (Zeros [0;0;1;0]));
  (*4208*) AddTo n_rdm2_f_oovo (Plain (Einsum [(T 38,[0;1;2;3])] [2;1;3;0]));
  (*4209*) AddTo n_rdm2_f_oovo (Plain (Einsum [(T 38,[0;1;2;3])] [2;1;3;0]));
  (*4210*) AddTo n_rdm2_f_oovo (Plain (Einsum [(T 38,[0;1;2;3])] [2;1;3;0]));
  (*4211*) AddTo n_rdm2_f_oovo (Plain (Einsum [(T 38,[0;1;2;3])] [2;1;3;0]));
  (*4212*) Assign (T 39) (Plain (Zeros [0;0;0;1]));
  (*4213*) AddTo (T 39) (Plain (Einsum [(n_l1,[0;1]); (n_t2,[2;3;4;0])] [1;2;3;4]));
  (*4214*) AddTo n_rdm2_f_ooov (Times (Einsum [(T 39,[0;1;2;3])] [2;1;0;3]) (-1) 1);
  (*4215*) AddTo n_rdm2_f_ooov (Times (Einsum [(T 39,[0;1;2;3])] [2;1;0;3]) (-1) 1);
  (*4216*) AddTo n_rdm2_f_oovo (Times (Einsum [(T 39,[0;1;2;3])] [1;2;3;0]) (-1) 1);
  (*4217*) AddTo n_rdm2_f_oovo (Times (Einsum [(T 39,[0;1;2;3])] [1;2;3;0]) (-1) 1);
  (*4218*) Assign (T 40) (Plain (Zeros [0;0;0;1]));
  (*4219*) AddTo (T 40) (Plain (Einsum [(n_l2,[0;1;2;3]); (n_t3,[4;3;5;0;6;1])] [2;4;5;6]));
  (*4220*) Assign (T 41) (Plain (Zeros [0;0;0;1]));
  (*4221*) AddTo (T 41) (Plain (Einsum [(n_t3,[0;1;2;3;4;5]); (T 36,[0;2;6;7;3;5])] [6;7;1;4]));
  (*4222*) Assign (T 42) (Plain (Zeros [0;0;0;1]));
  (*4223*) AddTo (T 42) (Plain (Einsum [(n_t2,[0;1;2;3]); (T 30,[1;4;5;2])] [4;0;5;3]));
  (*4224*) Assign (T 43) (Plain (Zeros [0;0;0;0;1;1]));
  (*4225*) AddTo (T 43) (Plain (Einsum [(n_t1,[0;1]); (n_l3,[2;3;1;4;5;6])] [4;6;5;0;2;3]));
  (*4226*) Assign (T 44) (Plain (Zeros [0;0;0;1;1;1]));
  (*4227*) AddTo (T 44) (Times (Einsum [(n_t3,[0;1;2;3;4;5])] [0;2;1;5;4;3]) (-1) 1);
  (*4228*) AddTo (T 44) (Times (Einsum [(n_t3,[0;1;2;3;4;5])] [0;2;1;3;5;4]) (-1) 1);
  (*4229*) AddTo (T 44) (Plain (Einsum [(n_t3,[0;1;2;3;4;5])] [0;2;1;4;5;3]));
  (*4230*) AddTo (T 44) (Times (Einsum [(n_t3,[0;1;2;3;4;5])] [1;0;2;5;3;4]) (5) 1);
  (*4231*) AddTo (T 44) (Plain (Einsum [(n_t3,[0;1;2;3;4;5])] [1;0;2;3;4;5]));
  (*4232*) AddTo (T 44) (Times (Einsum [(n_t3,[0;1;2;3;4;5])] [1;0;2;4;3;5]) (-1) 1);
  (*4233*) Assign (T 45) (Plain (Zeros [0;0;0;1]));
  (*4234*) AddTo (T 45) (Times (Einsum [(T 43,[0;1;2;3;4;5]); (T 44,[2;6;0;4;7;5])] [1;3;6;7]) (1) 4);
  (*4235*) Del (T 44);
  (*4236*) Assign (T 46) (Plain (Zeros [0;0;0;1;1;1]));
  (*4237*) AddTo (T 46) (Times (Einsum [(n_t3,[0;1;2;3;4;5])] [0;2;1;3;5;4]) (-1) 1);
  (*4238*) AddTo (T 46) (Plain (Einsum [(n_t3,[0;1;2;3;4;5])] [0;2;1;4;5;3]));
  (*4239*) AddTo (T 46) (Plain (Einsum [(n_t3,[0;1;2;3;4;5])] [0;2;1;3;4;5]));
  (*4240*) Assign (T 47) (Plain (Zeros [0;0;0;1]));
  (*4241*) AddTo (T 47) (Times (Einsum [(T 43,[0;1;2;3;4;5]); (T 46,[0;6;1;5;7;4])] [2;3;6;7]) (1) 4);
  (*4242*) Assign (T 48) (Plain (Zeros [0;1;1;1]));
  (*4243*) AddTo (T 48) (Plain (Einsum [(n_t2,[0;1;2;3]); (n_l3,[4;5;3;1;0;6])] [6;4;5;2]));
  (*4244*) Assign (T 49) (Plain (Zeros [0;0;0;1;1;1]));
  (*4245*) AddTo (T 49) (Plain (Einsum [(n_l3,[0;1;2;3;4;5])] [3;5;4;0;2;1]));
  (*4246*) AddTo (T 49) (Plain (Einsum [(n_l3,[0;1;2;3;4;5])] [3;5;4;1;0;2]));
  (*4247*) AddTo (T 49) (Times (Einsum [(n_l3,[0;1;2;3;4;5])] [5;4;3;1;0;2]) (1) 2);
  (*4248*) AddTo (T 49) (Times (Einsum [(n_l3,[0;1;2;3;4;5])] [3;4;5;1;0;2]) (-1) 2);
  (*4249*) Assign (T 50) (Plain (Zeros [0;1;1;1]));
  (*4250*) AddTo (T 50) (Plain (Einsum [(n_t2,[0;1;2;3]); (T 49,[1;4;0;5;6;2])] [4;3;5;6]));
  (*4251*) Del (T 49);
  (*4252*) Assign (T 51) (Plain (Zeros [0;1;1;1]));
  (*4253*) AddTo (T 51) (Times (Einsum [(T 48,[0;1;2;3])] [0;1;2;3]) (-1) 1);
  (*4254*) AddTo (T 51) (Plain (Einsum [(T 50,[0;1;2;3])] [0;3;2;1]));
  (*4255*) Del (T 50);
  (*4256*) Assign (T 52) (Plain (Zeros [0;0;0;1]));
  (*4257*) AddTo (T 52) (Times (Einsum [(n_t2,[0;1;2;3]); (T 51,[4;3;2;5])] [0;1;4;5]) (1) 2);
  (*4258*) Del (T 51);
  (*4259*) Assign (T 53) (Plain (Zeros [0;0;0;1]));
  (*4260*) AddTo (T 53) (Plain (Einsum [(n_t2,[0;1;2;3]); (n_l3,[4;3;2;5;1;6])] [5;6;0;4]));
  (*4261*) Assign (T 54) (Plain (Zeros [0;0;0;1]));
  (*4262*) AddTo (T 54) (Plain (Einsum [(n_t2,[0;1;2;3]); (n_l3,[4;3;2;5;6;1])] [5;6;0;4]));
  (*4263*) Assign (T 55) (Plain (Zeros [0;0;0;1;1;1]));
  (*4264*) AddTo (T 55) (Times (Einsum [(n_l3,[0;1;2;3;4;5])] [3;5;4;0;2;1]) (-1) 1);
  (*4265*) AddTo (T 55) (Plain (Einsum [(n_l3,[0;1;2;3;4;5])] [4;5;3;0;2;1]));
  (*4266*) Assign (T 56) (Plain (Zeros [0;0;0;1]));
  (*4267*) AddTo (T 56) (Plain (Einsum [(n_t2,[0;1;2;3]); (T 55,[1;4;5;3;6;2])] [0;4;5;6]));
  (*4268*) Del (T 55);
  (*4269*) Assign (T 57) (Plain (Zeros [0;0;0;1]));
  (*4270*) AddTo (T 57) (Times (Einsum [(T 53,[0;1;2;3])] [0;1;2;3]) (3) 1);
  (*4271*) Del (T 53);
  (*4272*) AddTo (T 57) (Times (Einsum [(T 54,[0;1;2;3])] [0;1;2;3]) (-1) 1);
  (*4273*) AddTo (T 57) (Plain (Einsum [(T 54,[0;1;2;3])] [1;0;2;3]));
  (*4274*) AddTo (T 57) (Times (Einsum [(T 56,[0;1;2;3])] [1;2;0;3]) (-1) 1);
  (*4275*) Del (T 56);
  (*4276*) Assign (T 58) (Plain (Zeros [0;0;1;1]));
  (*4277*) AddTo (T 58) (Plain (Einsum [(n_t1,[0;1]); (n_t1,[2;3])] [0;2;1;3]));
  (*4278*) AddTo (T 58) (Times (Einsum [(n_t2,[0;1;2;3])] [0;1;3;2]) (-1) 1);
  (*4279*) AddTo (T 58) (Plain (Einsum [(n_t2,[0;1;2;3])] [0;1;2;3]));
  (*4280*) Assign (T 59) (Plain (Zeros [0;0;0;1]));
  (*4281*) AddTo (T 59) (Times (Einsum [(T 57,[0;1;2;3]); (T 58,[1;4;5;3])] [0;2;4;5]) (1) 2);
  (*4282*) Del (T 58);
  (*4283*) Assign (T 60) (Plain (Zeros [0;0;0;1]));
  (*4284*) AddTo (T 60) (Plain (Einsum [(T 7,[0;1;2;3]); (n_l3,[2;4;3;5;6;0])] [5;6;1;4]));
  (*4285*) Assign (T 61) (Plain (Zeros [0;0;0;1]));
  (*4286*) AddTo (T 61) (Times (Einsum [(T 30,[0;1;2;3])] [0;1;2;3]) (3) 1);
  (*4287*) AddTo (T 61) (Plain (Einsum [(T 60,[0;1;2;3])] [1;0;2;3]));
  (*4288*) Assign (T 62) (Plain (Zeros [0;0;0;1]));
  (*4289*) AddTo (T 62) (Times (Einsum [(n_t2,[0;1;2;3]); (T 61,[1;4;5;3])] [0;4;5;2]) (1) 2);
  (*4290*) Del (T 61);
  (*4291*) Assign (T 63) (Plain (Zeros [0;0;0;1]));
  (*4292*) AddTo (T 63) (Times (Einsum [(T 24,[0;1;2;3])] [0;1;2;3]) (-1) 1);
  (*4293*) AddTo (T 63) (Plain (Einsum [(T 24,[0;1;2;3])] [1;0;2;3]));
  (*4294*) Assign (T 64) (Plain (Zeros [0;0;0;1]));
  (*4295*) AddTo (T 64) (Plain (Einsum [(n_t2,[0;1;2;3]); (T 63,[1;4;5;2])] [0;4;5;3]));
  (*4296*) Del (T 63);
  (*4297*) Assign (T 65) (Plain (Zeros [0;0;0;1]));
  (*4298*) AddTo (T 65) (Plain (Einsum [(T 24,[0;1;2;3])] [0;1;2;3]));
  (*4299*) AddTo (T 65) (Times (Einsum [(T 24,[0;1;2;3])] [1;0;2;3]) (-1) 2);
  (*4300*) Assign (T 66) (Plain (Zeros [0;0;0;1]));
  (*4301*) AddTo (T 66) (Times (Einsum [(n_t2,[0;1;2;3]); (T 65,[1;4;5;3])] [0;4;5;2]) (2) 1);
  (*4302*) Del (T 65);
  (*4303*) Assign (T 67) (Plain (Zeros [0;0;0;1]));
  (*4304*) AddTo (T 67) (Plain (Einsum [(T 24,[0;1;2;3])] [0;1;2;3]));
  (*4305*) AddTo (T 67) (Times (Einsum [(T 30,[0;1;2;3])] [1;0;2;3]) (-1) 2);
  (*4306*) Assign (T 68) (Plain (Zeros [0;0;0;0]));
  (*4307*) AddTo (T 68) (Plain (Einsum [(n_t1,[0;1]); (T 67,[2;3;4;1])] [0;2;3;4]));
  (*4308*) Del (T 67);
  (*4309*) Assign (T 69) (Plain (Zeros [0;0;0;0]));
  (*4310*) AddTo (T 69) (Plain (Einsum [(T 23,[0;1;2;3])] [1;0;3;2]));
  (*4311*) AddTo (T 69) (Plain (Einsum [(T 68,[0;1;2;3])] [2;1;3;0]));
  (*4312*) Del (T 68);
  (*4313*) Assign (T 70) (Plain (Zeros [0;0;0;1]));
  (*4314*) AddTo (T 70) (Plain (Einsum [(n_t1,[0;1]); (T 69,[0;2;3;4])] [2;3;4;1]));
  (*4315*) Del (T 69);
  (*4316*) Assign (T 71) (Plain (Zeros [0;0]));
  (*4317*) AddTo (T 71) (Times (Einsum [(n_l3,[0;1;2;3;4;5]); (T 14,[3;6;4;1;2;0])] [5;6]) (8333333333333) 100000000000000);
  (*4318*) Del (T 14);
  (*4319*) Assign (T 72) (Plain (Zeros [0;0]));
  (*4320*) AddTo (T 72) (Times (Einsum [(n_l3,[0;1;2;3;4;5]); (T 16,[5;6;3;0;2;1])] [4;6]) (8333333333333) 100000000000000);
  (*4321*) Del (T 16);
  (*4322*) Assign (T 73) (Plain (Zeros [0;0]));
  (*4323*) AddTo (T 73) (Times (Einsum [(n_t3,[0;1;2;3;4;5]); (T 18,[1;2;6;5;4;3])] [0;6]) (8333333333333) 100000000000000);
  (*4324*) Del (T 18);
  (*4325*) Assign (T 74) (Plain (Zeros [0;0]));
  (*4326*) AddTo (T 74) (Times (Einsum [(n_l2,[0;1;2;3]); (T 20,[3;4;0;1])] [2;4]) (2) 1);
  (*4327*) Assign (T 75) (Plain (Zeros [0;0]));
  (*4328*) AddTo (T 75) (Plain (Einsum [(T 2,[0;1])] [0;1]));
  (*4329*) AddTo (T 75) (Times (Einsum [(T 13,[0;1])] [0;1]) (8333333333333) 100000000000000);
  (*4330*) AddTo (T 75) (Plain (Einsum [(T 71,[0;1])] [0;1]));
  (*4331*) AddTo (T 75) (Plain (Einsum [(T 72,[0;1])] [0;1]));
  (*4332*) AddTo (T 75) (Times (Einsum [(T 73,[0;1])] [1;0]) (-1) 1);
  (*4333*) AddTo (T 75) (Plain (Einsum [(T 74,[0;1])] [0;1]));
  (*4334*) AddTo n_rdm2_f_ooov (Times (Einsum [(n_t1,[0;1]); (T 75,[2;3])] [3;0;2;1]) (-1) 1);
  (*4335*) AddTo n_rdm2_f_ooov (Times (Einsum [(n_t1,[0;1]); (T 75,[2;3])] [3;0;2;1]) (-1) 1);
  (*4336*) AddTo n_rdm2_f_oovo (Times (Einsum [(n_t1,[0;1]); (T 75,[2;3])] [0;3;1;2]) (-1) 1);
  (*4337*) AddTo n_rdm2_f_oovo (Times (Einsum [(n_t1,[0;1]); (T 75,[2;3])] [0;3;1;2]) (-1) 1);
  (*4338*) Assign (T 76) (Plain (Zeros [0;0;0;1]));
  (*4339*) AddTo (T 76) (Plain (Einsum [(n_delta'oo,[0;1]); (n_t1,[2;3])] [0;1;2;3]));
  (*4340*) AddTo (T 76) (Plain (Einsum [(T 39,[0;1;2;3])] [1;0;2;3]));
  (*4341*) AddTo (T 76) (Times (Einsum [(T 40,[0;1;2;3])] [1;0;2;3]) (1) 2);
  (*4342*) AddTo (T 76) (Times (Einsum [(T 41,[0;1;2;3])] [1;0;2;3]) (-1) 4);
  (*4343*) AddTo (T 76) (Times (Einsum [(T 42,[0;1;2;3])] [1;0;2;3]) (-1) 2);
  (*4344*) AddTo (T 76) (Times (Einsum [(T 45,[0;1;2;3])] [1;0;2;3]) (-1) 1);
  (*4345*) AddTo (T 76) (Plain (Einsum [(T 47,[0;1;2;3])] [1;0;2;3]));
  (*4346*) AddTo (T 76) (Plain (Einsum [(T 52,[0;1;2;3])] [1;2;0;3]));
  (*4347*) AddTo (T 76) (Plain (Einsum [(T 59,[0;1;2;3])] [2;0;1;3]));
  (*4348*) Del (T 59);
  (*4349*) AddTo (T 76) (Plain (Einsum [(T 62,[0;1;2;3])] [0;1;2;3]));
  (*4350*) AddTo (T 76) (Times (Einsum [(T 64,[0;1;2;3])] [2;1;0;3]) (-1) 1);
  (*4351*) Del (T 64);
  (*4352*) AddTo (T 76) (Times (Einsum [(T 66,[0;1;2;3])] [2;1;0;3]) (-1) 1);
  (*4353*) Del (T 66);
  (*4354*) AddTo (T 76) (Plain (Einsum [(T 70,[0;1;2;3])] [2;0;1;3]));
  (*4355*) Del (T 70);
  (*4356*) AddTo (T 76) (Plain (Einsum [(n_t1,[0;1]); (T 75,[2;3])] [0;2;3;1]));
  (*4357*) AddTo n_rdm2_f_ooov (Plain (Einsum [(T 76,[0;1;2;3])] [0;2;1;3]));
  (*4358*) AddTo n_rdm2_f_ooov (Times (Einsum [(T 76,[0;1;2;3])] [2;0;1;3]) (-1) 1);
  (*4359*) AddTo n_rdm2_f_ooov (Plain (Einsum [(T 76,[0;1;2;3])] [0;2;1;3]));
  (*4360*) AddTo n_rdm2_f_ooov (Times (Einsum [(T 76,[0;1;2;3])] [2;0;1;3]) (-1) 1);
  (*4361*) AddTo n_rdm2_f_oovo (Times (Einsum [(T 76,[0;1;2;3])] [0;2;3;1]) (-1) 1);
  (*4362*) AddTo n_rdm2_f_oovo (Plain (Einsum [(T 76,[0;1;2;3])] [2;0;3;1]));
  (*4363*) AddTo n_rdm2_f_oovo (Times (Einsum [(T 76,[0;1;2;3])] [0;2;3;1]) (-1) 1);
  (*4364*) AddTo n_rdm2_f_oovo (Plain (Einsum [(T 76,[0;1;2;3])] [2;0;3;1]));
  (*4365*) Del (T 76);
  (*4366*) Assign (T 77) (Plain (Zeros [0;1]));
  (*4367*) AddTo (T 77) (Plain (Einsum [(n_t3,[0;1;2;3;4;5]); (T 36,[2;0;1;6;5;3])] [6;4]));
  (*4368*) Assign (T 78) (Plain (Zeros [0;0;0;1;1;1]));
  (*4369*) AddTo (T 78) (Plain (Einsum [(n_t3,[0;1;2;3;4;5])] [0;2;1;3;5;4]));
  (*4370*) AddTo (T 78) (Times (Einsum [(n_t3,[0;1;2;3;4;5])] [0;2;1;3;4;5]) (-1) 1);
  (*4371*) AddTo (T 78) (Times (Einsum [(n_t3,[0;1;2;3;4;5])] [0;2;1;4;3;5]) (6999999999999999) 1000000000000000);
  (*4372*) AddTo (T 78) (Times (Einsum [(n_t3,[0;1;2;3;4;5])] [1;0;2;5;3;4]) (-1) 1);
  (*4373*) AddTo (T 78) (Plain (Einsum [(n_t3,[0;1;2;3;4;5])] [1;0;2;5;4;3]));
  (*4374*) AddTo (T 78) (Times (Einsum [(n_t3,[0;1;2;3;4;5])] [1;0;2;4;5;3]) (-1) 1);
  (*4375*) Assign (T 79) (Plain (Zeros [0;1]));
  (*4376*) AddTo (T 79) (Times (Einsum [(T 43,[0;1;2;3;4;5]); (T 78,[0;1;2;5;4;6])] [3;6]) (8333333333333) 100000000000000);
  (*4377*) Assign (T 80) (Plain (Zeros [0;1]));
  (*4378*) AddTo (T 80) (Times (Einsum [(T 43,[0;1;2;3;4;5]); (T 46,[2;0;1;6;5;4])] [3;6]) (8333333333333) 100000000000000);
  (*4379*) Assign (T 81) (Plain (Zeros [0;0;0;1;1;1]));
  (*4380*) AddTo (T 81) (Plain (Einsum [(n_t3,[0;1;2;3;4;5])] [0;2;1;5;3;4]));
  (*4381*) AddTo (T 81) (Times (Einsum [(n_t3,[0;1;2;3;4;5])] [0;2;1;3;5;4]) (-1) 1);
  (*4382*) AddTo (T 81) (Plain (Einsum [(n_t3,[0;1;2;3;4;5])] [1;0;2;5;3;4]));
  (*4383*) AddTo (T 81) (Times (Einsum [(n_t3,[0;1;2;3;4;5])] [1;0;2;3;4;5]) (6) 1);
  (*4384*) Assign (T 82) (Plain (Zeros [0;1]));
  (*4385*) AddTo (T 82) (Times (Einsum [(n_l2,[0;1;2;3]); (T 81,[2;3;4;1;0;5])] [4;5]) (1) 4);
  (*4386*) Assign (T 83) (Plain (Zeros [0;0;0;1;1;1]));
  (*4387*) AddTo (T 83) (Times (Einsum [(n_t3,[0;1;2;3;4;5])] [0;2;1;5;4;3]) (1) 2);
  (*4388*) AddTo (T 83) (Plain (Einsum [(n_t3,[0;1;2;3;4;5])] [0;2;1;3;5;4]));
  (*4389*) Assign (T 84) (Plain (Zeros [0;1]));
  (*4390*) AddTo (T 84) (Times (Einsum [(n_l2,[0;1;2;3]); (T 83,[3;4;2;0;5;1])] [4;5]) (1) 2);
  (*4391*) Assign (T 85) (Plain (Zeros [0;0;0;1]));
  (*4392*) AddTo (T 85) (Times (Einsum [(T 10,[0;1;2;3]); (n_l3,[4;2;3;5;0;6])] [6;5;1;4]) (3) 8);
  (*4393*) Assign (T 86) (Plain (Zeros [0;0;0;1;1;1]));
  (*4394*) AddTo (T 86) (Plain (Einsum [(n_l3,[0;1;2;3;4;5])] [3;5;4;0;2;1]));
  (*4395*) AddTo (T 86) (Times (Einsum [(n_l3,[0;1;2;3;4;5])] [3;5;4;0;1;2]) (-1) 1);
  (*4396*) Assign (T 87) (Plain (Zeros [0;0;0;1]));
  (*4397*) AddTo (T 87) (Times (Einsum [(T 7,[0;1;2;3]); (T 86,[0;4;5;3;2;6])] [1;4;5;6]) (1) 4);
  (*4398*) Del (T 86);
  (*4399*) Assign (T 88) (Plain (Zeros [0;0;0;1]));
  (*4400*) AddTo (T 88) (Times (Einsum [(T 24,[0;1;2;3])] [0;1;2;3]) (-1) 2);
  (*4401*) AddTo (T 88) (Plain (Einsum [(T 24,[0;1;2;3])] [1;0;2;3]));
  (*4402*) AddTo (T 88) (Times (Einsum [(T 85,[0;1;2;3])] [1;0;2;3]) (-1) 1);
  (*4403*) AddTo (T 88) (Plain (Einsum [(T 85,[0;1;2;3])] [0;1;2;3]));
  (*4404*) Del (T 85);
  (*4405*) AddTo (T 88) (Plain (Einsum [(T 87,[0;1;2;3])] [1;2;0;3]));
  (*4406*) Assign (T 89) (Plain (Zeros [0;1]));
  (*4407*) AddTo (T 89) (Times (Einsum [(n_t2,[0;1;2;3]); (T 88,[0;1;4;3])] [4;2]) (2) 1);
  (*4408*) Assign (T 90) (Plain (Zeros [0;0;1;1]));
  (*4409*) AddTo (T 90) (Plain (Einsum [(n_t2,[0;1;2;3])] [0;1;3;2]));
  (*4410*) AddTo (T 90) (Times (Einsum [(n_t2,[0;1;2;3])] [0;1;2;3]) (-3333333333333333) 10000000000000000);
  (*4411*) Assign (T 91) (Plain (Zeros [0;0;0;1]));
  (*4412*) AddTo (T 91) (Times (Einsum [(T 90,[0;1;2;3]); (n_l3,[4;2;3;5;6;0])] [5;6;1;4]) (3) 1);
  (*4413*) Assign (T 92) (Plain (Zeros [0;1]));
  (*4414*) AddTo (T 92) (Times (Einsum [(n_t2,[0;1;2;3]); (T 91,[0;1;4;2])] [4;3]) (1) 2);
  (*4415*) Assign (T 93) (Plain (Zeros [0;0;1;1]));
  (*4416*) AddTo (T 93) (Times (Einsum [(n_t2,[0;1;2;3])] [0;1;3;2]) (2) 1);
  (*4417*) AddTo (T 93) (Times (Einsum [(n_t2,[0;1;2;3])] [0;1;2;3]) (-1) 1);
  (*4418*) Assign (T 94) (Plain (Zeros [0;1]));
  (*4419*) AddTo (T 94) (Plain (Einsum [(n_l1,[0;1]); (T 93,[1;2;3;0])] [2;3]));
  (*4420*) Assign (T 95) (Plain (Zeros [0;1]));
  (*4421*) AddTo (T 95) (Plain (Einsum [(n_t1,[0;1]); (T 75,[0;2])] [2;1]));
  (*4422*) Assign (T 96) (Plain (Zeros [0;1]));
  (*4423*) AddTo (T 96) (Times (Einsum [(T 77,[0;1])] [0;1]) (24999999999999) 100000000000000);
  (*4424*) AddTo (T 96) (Plain (Einsum [(T 79,[0;1])] [0;1]));
  (*4425*) AddTo (T 96) (Times (Einsum [(T 80,[0;1])] [0;1]) (-1) 1);
  (*4426*) AddTo (T 96) (Times (Einsum [(T 82,[0;1])] [0;1]) (-1) 1);
  (*4427*) AddTo (T 96) (Plain (Einsum [(T 84,[0;1])] [0;1]));
  (*4428*) AddTo (T 96) (Plain (Einsum [(T 89,[0;1])] [0;1]));
  (*4429*) AddTo (T 96) (Plain (Einsum [(T 92,[0;1])] [0;1]));
  (*4430*) AddTo (T 96) (Times (Einsum [(T 94,[0;1])] [0;1]) (-1) 1);
  (*4431*) AddTo (T 96) (Plain (Einsum [(T 95,[0;1])] [0;1]));
  (*4432*) AddTo n_rdm2_f_ooov (Times (Einsum [(n_delta'oo,[0;1]); (T 96,[2;3])] [0;2;1;3]) (-1) 1);
  (*4433*) AddTo n_rdm2_f_ooov (Plain (Einsum [(n_delta'oo,[0;1]); (T 96,[2;3])] [2;0;1;3]));
  (*4434*) AddTo n_rdm2_f_ooov (Times (Einsum [(n_delta'oo,[0;1]); (T 96,[2;3])] [0;2;1;3]) (-1) 1);
  (*4435*) AddTo n_rdm2_f_ooov (Plain (Einsum [(n_delta'oo,[0;1]); (T 96,[2;3])] [2;0;1;3]));
  (*4436*) AddTo n_rdm2_f_oovo (Plain (Einsum [(n_delta'oo,[0;1]); (T 96,[2;3])] [0;2;3;1]));
  (*4437*) AddTo n_rdm2_f_oovo (Times (Einsum [(n_delta'oo,[0;1]); (T 96,[2;3])] [2;0;3;1]) (-1) 1);
  (*4438*) AddTo n_rdm2_f_oovo (Plain (Einsum [(n_delta'oo,[0;1]); (T 96,[2;3])] [0;2;3;1]));
  (*4439*) AddTo n_rdm2_f_oovo (Times (Einsum [(n_delta'oo,[0;1]); (T 96,[2;3])] [2;0;3;1]) (-1) 1);
  (*4440*) Del (T 96);
  (*4441*) Assign (T 97) (Plain (Zeros [0;0;1;1]));
  (*4442*) AddTo (T 97) (Times (Einsum [(n_l2,[0;1;2;3])] [3;2;0;1]) (-1) 2);
  (*4443*) AddTo (T 97) (Plain (Einsum [(n_l2,[0;1;2;3])] [2;3;0;1]));
  (*4444*) Assign (T 98) (Plain (Zeros [0;0;0;1]));
  (*4445*) AddTo (T 98) (Times (Einsum [(T 97,[0;1;2;3]); (n_t3,[4;0;5;3;2;6])] [4;5;1;6]) (2) 1);
  (*4446*) AddTo n_rdm2_f_ooov (Plain (Einsum [(T 98,[0;1;2;3])] [1;0;2;3]));
  (*4447*) AddTo n_rdm2_f_ooov (Plain (Einsum [(T 98,[0;1;2;3])] [1;0;2;3]));
  (*4448*) AddTo n_rdm2_f_oovo (Times (Einsum [(T 98,[0;1;2;3])] [1;0;3;2]) (-1) 1);
  (*4449*) AddTo n_rdm2_f_oovo (Times (Einsum [(T 98,[0;1;2;3])] [1;0;3;2]) (-1) 1);
  (*4450*) Del (T 98);
  (*4451*) Assign (T 99) (Plain (Zeros [0;0;0;0;0;1]));
  (*4452*) AddTo (T 99) (Plain (Einsum [(n_t1,[0;1]); (T 43,[2;3;4;5;1;6])] [3;2;4;5;0;6]));
  (*4453*) Assign (T 100) (Plain (Zeros [0;0;0;0;0;1]));
  (*4454*) AddTo (T 100) (Times (Einsum [(T 99,[0;1;2;3;4;5])] [0;1;2;3;4;5]) (2) 1);
  (*4455*) AddTo (T 100) (Times (Einsum [(T 37,[0;1;2;3;4;5])] [0;1;2;3;4;5]) (2) 1);
  (*4456*) AddTo (T 100) (Times (Einsum [(T 37,[0;1;2;3;4;5])] [0;2;1;3;4;5]) (-1) 1);
  (*4457*) AddTo (T 100) (Plain (Einsum [(T 37,[0;1;2;3;4;5])] [1;2;0;3;4;5]));
  (*4458*) Assign (T 101) (Plain (Zeros [0;0;0;1]));
  (*4459*) AddTo (T 101) (Times (Einsum [(n_t2,[0;1;2;3]); (T 100,[1;4;0;5;6;2])] [4;5;6;3]) (1) 2);
  (*4460*) Del (T 100);
  (*4461*) AddTo n_rdm2_f_ooov (Plain (Einsum [(T 101,[0;1;2;3])] [2;1;0;3]));
  (*4462*) AddTo n_rdm2_f_ooov (Plain (Einsum [(T 101,[0;1;2;3])] [2;1;0;3]));
  (*4463*) AddTo n_rdm2_f_oovo (Times (Einsum [(T 101,[0;1;2;3])] [2;1;3;0]) (-1) 1);
  (*4464*) AddTo n_rdm2_f_oovo (Times (Einsum [(T 101,[0;1;2;3])] [2;1;3;0]) (-1) 1);
  (*4465*) Del (T 101);
  (*4466*) Assign (T 102) (Plain (Zeros [0;0;0;0]));
  (*4467*) AddTo (T 102) (Plain (Einsum [(n_l3,[0;1;2;3;4;5]); (T 4,[5;6;7;1;0;2])] [3;4;6;7]));
  (*4468*) Assign (T 103) (Plain (Zeros [0;0;0;0]));
  (*4469*) AddTo (T 103) (Plain (Einsum [(T 3,[0;1;2;3])] [0;1;2;3]));
  (*4470*) Del (T 3);
  (*4471*) AddTo (T 103) (Times (Einsum [(T 102,[0;1;2;3])] [0;1;2;3]) (-1) 1);
  (*4472*) Del (T 102);
  (*4473*) Assign (T 104) (Plain (Zeros [0;0;0;1;1;1]));
  (*4474*) AddTo (T 104) (Times (Einsum [(n_t3,[0;1;2;3;4;5])] [0;2;1;3;5;4]) (-3333333333333333) 10000000000000000);
  (*4475*) AddTo (T 104) (Plain (Einsum [(n_t3,[0;1;2;3;4;5])] [1;0;2;3;4;5]));
  (*4476*) Assign (T 105) (Plain (Zeros [0;0;0;0]));
  (*4477*) AddTo (T 105) (Times (Einsum [(n_l3,[0;1;2;3;4;5]); (T 104,[4;6;7;0;1;2])] [3;5;6;7]) (3) 1);
  (*4478*) Del (T 104);
  (*4479*) Assign (T 106) (Plain (Zeros [0;0;0;0]));
  (*4480*) AddTo (T 106) (Plain (Einsum [(n_l3,[0;1;2;3;4;5]); (T 4,[4;6;7;1;0;2])] [5;3;6;7]));
  (*4481*) Assign (T 107) (Plain (Zeros [0;0;0;0]));
  (*4482*) AddTo (T 107) (Plain (Einsum [(T 103,[0;1;2;3])] [0;1;2;3]));
  (*4483*) AddTo (T 107) (Times (Einsum [(T 103,[0;1;2;3])] [1;0;2;3]) (-1) 1);
  (*4484*) AddTo (T 107) (Plain (Einsum [(T 105,[0;1;2;3])] [1;0;2;3]));
  (*4485*) AddTo (T 107) (Plain (Einsum [(T 106,[0;1;2;3])] [1;0;2;3]));
  (*4486*) Del (T 106);
  (*4487*) Assign (T 108) (Plain (Zeros [0;0;0;1]));
  (*4488*) AddTo (T 108) (Times (Einsum [(n_t1,[0;1]); (T 107,[2;0;3;4])] [2;3;4;1]) (16666666666667) 100000000000000);
  (*4489*) Del (T 107);
  (*4490*) AddTo n_rdm2_f_ooov (Plain (Einsum [(T 108,[0;1;2;3])] [2;1;0;3]));
  (*4491*) AddTo n_rdm2_f_ooov (Plain (Einsum [(T 108,[0;1;2;3])] [2;1;0;3]));
  (*4492*) AddTo n_rdm2_f_oovo (Times (Einsum [(T 108,[0;1;2;3])] [2;1;3;0]) (-1) 1);
  (*4493*) AddTo n_rdm2_f_oovo (Times (Einsum [(T 108,[0;1;2;3])] [2;1;3;0]) (-1) 1);
  (*4494*) Del (T 108);
  (*4495*) Assign (T 109) (Plain (Zeros [0;0;0;1]));
  (*4496*) AddTo (T 109) (Plain (Einsum [(n_l2,[0;1;2;3]); (n_t3,[4;5;3;6;0;1])] [2;4;5;6]));
  (*4497*) AddTo n_rdm2_f_ooov (Times (Einsum [(T 109,[0;1;2;3])] [2;1;0;3]) (-1) 1);
  (*4498*) AddTo n_rdm2_f_ooov (Times (Einsum [(T 109,[0;1;2;3])] [2;1;0;3]) (-1) 1);
  (*4499*) AddTo n_rdm2_f_oovo (Times (Einsum [(T 109,[0;1;2;3])] [1;2;3;0]) (-1) 1);
  (*4500*) AddTo n_rdm2_f_oovo (Times (Einsum [(T 109,[0;1;2;3])] [1;2;3;0]) (-1) 1);
  (*4501*) Assign (T 110) (Plain (Zeros [0;0;0;1]));
  (*4502*) AddTo (T 110) (Plain (Einsum [(n_t3,[0;1;2;3;4;5]); (T 43,[0;2;6;7;3;4])] [6;7;1;5]));
  (*4503*) AddTo n_rdm2_f_ooov (Times (Einsum [(T 110,[0;1;2;3])] [2;1;0;3]) (1) 2);
  (*4504*) AddTo n_rdm2_f_ooov (Times (Einsum [(T 110,[0;1;2;3])] [2;1;0;3]) (1) 2);
  (*4505*) AddTo n_rdm2_f_oovo (Times (Einsum [(T 110,[0;1;2;3])] [1;2;3;0]) (1) 2);
  (*4506*) AddTo n_rdm2_f_oovo (Times (Einsum [(T 110,[0;1;2;3])] [1;2;3;0]) (1) 2);
  (*4507*) Assign (T 111) (Plain (Zeros [0;0;0;1]));
  (*4508*) AddTo (T 111) (Plain (Einsum [(n_t3,[0;1;2;3;4;5]); (T 36,[2;6;1;7;5;3])] [6;7;0;4]));
  (*4509*) AddTo n_rdm2_f_ooov (Times (Einsum [(T 111,[0;1;2;3])] [2;1;0;3]) (1) 2);
  (*4510*) AddTo n_rdm2_f_ooov (Times (Einsum [(T 111,[0;1;2;3])] [2;1;0;3]) (1) 2);
  (*4511*) AddTo n_rdm2_f_oovo (Times (Einsum [(T 111,[0;1;2;3])] [1;2;3;0]) (1) 2);
  (*4512*) AddTo n_rdm2_f_oovo (Times (Einsum [(T 111,[0;1;2;3])] [1;2;3;0]) (1) 2);
  (*4513*) Assign (T 112) (Plain (Zeros [0;0;0;1]));
  (*4514*) AddTo (T 112) (Plain (Einsum [(n_t3,[0;1;2;3;4;5]); (T 43,[0;2;6;7;5;3])] [6;7;1;4]));
  (*4515*) AddTo n_rdm2_f_ooov (Times (Einsum [(T 112,[0;1;2;3])] [1;2;0;3]) (-1) 4);
  (*4516*) AddTo n_rdm2_f_ooov (Times (Einsum [(T 112,[0;1;2;3])] [1;2;0;3]) (-1) 4);
  (*4517*) AddTo n_rdm2_f_oovo (Times (Einsum [(T 112,[0;1;2;3])] [2;1;3;0]) (-1) 4);
  (*4518*) AddTo n_rdm2_f_oovo (Times (Einsum [(T 112,[0;1;2;3])] [2;1;3;0]) (-1) 4);
  (*4519*) Assign (T 113) (Plain (Zeros [0;0;0;1]));
  (*4520*) AddTo (T 113) (Plain (Einsum [(n_t3,[0;1;2;3;4;5]); (T 36,[2;1;6;7;5;4])] [6;7;0;3]));
  (*4521*) AddTo n_rdm2_f_ooov (Times (Einsum [(T 113,[0;1;2;3])] [1;2;0;3]) (-1) 4);
  (*4522*) AddTo n_rdm2_f_ooov (Times (Einsum [(T 113,[0;1;2;3])] [1;2;0;3]) (-1) 4);
  (*4523*) Del (T 113);
  (*4524*) Assign (T 114) (Plain (Zeros [0;0;0;1]));
  (*4525*) AddTo (T 114) (Plain (Einsum [(n_t2,[0;1;2;3]); (T 48,[4;2;3;5])] [4;0;1;5]));
  (*4526*) AddTo n_rdm2_f_ooov (Times (Einsum [(T 114,[0;1;2;3])] [1;2;0;3]) (-1) 1);
  (*4527*) AddTo n_rdm2_f_ooov (Times (Einsum [(T 114,[0;1;2;3])] [1;2;0;3]) (-1) 1);
  (*4528*) AddTo n_rdm2_f_oovo (Times (Einsum [(T 114,[0;1;2;3])] [2;1;3;0]) (-1) 1);
  (*4529*) AddTo n_rdm2_f_oovo (Times (Einsum [(T 114,[0;1;2;3])] [2;1;3;0]) (-1) 1);
  (*4530*) Assign (T 115) (Plain (Zeros [0;0;0;1;1;1]));
  (*4531*) AddTo (T 115) (Plain (Einsum [(n_t3,[0;1;2;3;4;5])] [0;2;1;5;3;4]));
  (*4532*) AddTo (T 115) (Times (Einsum [(n_t3,[0;1;2;3;4;5])] [0;2;1;3;5;4]) (-1) 1);
  (*4533*) AddTo (T 115) (Times (Einsum [(n_t3,[0;1;2;3;4;5])] [0;1;2;4;3;5]) (4) 1);
  (*4534*) Assign (T 116) (Plain (Zeros [0;0;0;1]));
  (*4535*) AddTo (T 116) (Times (Einsum [(T 115,[0;1;2;3;4;5]); (T 43,[1;6;0;7;3;4])] [6;7;2;5]) (1) 4);
  (*4536*) Del (T 115);
  (*4537*) AddTo n_rdm2_f_ooov (Times (Einsum [(T 116,[0;1;2;3])] [1;2;0;3]) (-1) 1);
  (*4538*) AddTo n_rdm2_f_ooov (Times (Einsum [(T 116,[0;1;2;3])] [1;2;0;3]) (-1) 1);
  (*4539*) Del (T 116);
  (*4540*) Assign (T 117) (Plain (Zeros [0;0;0;1;1;1]));
  (*4541*) AddTo (T 117) (Plain (Einsum [(n_t3,[0;1;2;3;4;5])] [0;2;1;5;4;3]));
  (*4542*) AddTo (T 117) (Plain (Einsum [(n_t3,[0;1;2;3;4;5])] [0;2;1;3;5;4]));
  (*4543*) Assign (T 118) (Plain (Zeros [0;0;0;1]));
  (*4544*) AddTo (T 118) (Times (Einsum [(T 117,[0;1;2;3;4;5]); (T 36,[2;0;6;7;3;5])] [6;7;1;4]) (1) 4);
  (*4545*) Del (T 117);
  (*4546*) AddTo n_rdm2_f_ooov (Plain (Einsum [(T 118,[0;1;2;3])] [1;2;0;3]));
  (*4547*) AddTo n_rdm2_f_ooov (Plain (Einsum [(T 118,[0;1;2;3])] [1;2;0;3]));
  (*4548*) Del (T 118);
  (*4549*) Assign (T 119) (Plain (Zeros [0;0;0;1;1;1]));
  (*4550*) AddTo (T 119) (Plain (Einsum [(n_t3,[0;1;2;3;4;5])] [0;2;1;5;3;4]));
  (*4551*) AddTo (T 119) (Times (Einsum [(n_t3,[0;1;2;3;4;5])] [0;2;1;3;5;4]) (-1) 1);
  (*4552*) Assign (T 120) (Plain (Zeros [0;0;0;1]));
  (*4553*) AddTo (T 120) (Times (Einsum [(n_l2,[0;1;2;3]); (T 119,[3;4;5;0;1;6])] [2;4;5;6]) (1) 2);
  (*4554*) Del (T 119);
  (*4555*) AddTo n_rdm2_f_ooov (Times (Einsum [(T 120,[0;1;2;3])] [1;2;0;3]) (-1) 1);
  (*4556*) AddTo n_rdm2_f_ooov (Times (Einsum [(T 120,[0;1;2;3])] [1;2;0;3]) (-1) 1);
  (*4557*) Del (T 120);
  (*4558*) Assign (T 121) (Plain (Zeros [0;0;0;0;0;1]));
  (*4559*) AddTo (T 121) (Times (Einsum [(T 37,[0;1;2;3;4;5])] [0;1;2;3;4;5]) (-1) 1);
  (*4560*) AddTo (T 121) (Plain (Einsum [(T 37,[0;1;2;3;4;5])] [1;0;2;3;4;5]));
  (*4561*) Assign (T 122) (Plain (Zeros [0;0;0;1]));
  (*4562*) AddTo (T 122) (Times (Einsum [(n_t2,[0;1;2;3]); (T 121,[1;0;4;5;6;2])] [4;5;6;3]) (1) 2);
  (*4563*) AddTo n_rdm2_f_ooov (Plain (Einsum [(T 122,[0;1;2;3])] [2;1;0;3]));
  (*4564*) AddTo n_rdm2_f_ooov (Plain (Einsum [(T 122,[0;1;2;3])] [2;1;0;3]));
  (*4565*) Del (T 122);
  (*4566*) Assign (T 123) (Plain (Zeros [0;0;1;1]));
  (*4567*) AddTo (T 123) (Times (Einsum [(n_t2,[0;1;2;3])] [0;1;3;2]) (-1) 1);
  (*4568*) AddTo (T 123) (Times (Einsum [(n_t2,[0;1;2;3])] [0;1;2;3]) (3) 1);
  (*4569*) Assign (T 124) (Plain (Zeros [0;0;0;1]));
  (*4570*) AddTo (T 124) (Times (Einsum [(T 123,[0;1;2;3]); (n_l3,[4;2;3;5;0;6])] [6;5;1;4]) (1) 2);
  (*4571*) AddTo n_rdm2_f_vooo (Times (Einsum [(T 124,[0;1;2;3])] [3;2;1;0]) (-1) 1);
  (*4572*) AddTo n_rdm2_f_vooo (Times (Einsum [(T 124,[0;1;2;3])] [3;2;1;0]) (-1) 1);
  (*4573*) Assign (T 125) (Plain (Zeros [0;0;0;1]));
  (*4574*) AddTo (T 125) (Times (Einsum [(T 33,[0;1;2;3]); (n_l3,[2;4;3;5;6;0])] [5;6;1;4]) (1) 2);
  (*4575*) Assign (T 126) (Plain (Zeros [0;0;0;1]));
  (*4576*) AddTo (T 126) (Times (Einsum [(T 24,[0;1;2;3])] [0;1;2;3]) (-1) 1);
  (*4577*) AddTo (T 126) (Times (Einsum [(T 24,[0;1;2;3])] [1;0;2;3]) (2) 1);
  (*4578*) AddTo (T 126) (Times (Einsum [(T 54,[0;1;2;3])] [0;1;2;3]) (1) 2);
  (*4579*) AddTo (T 126) (Times (Einsum [(T 54,[0;1;2;3])] [1;0;2;3]) (-1) 2);
  (*4580*) AddTo (T 126) (Times (Einsum [(T 30,[0;1;2;3])] [0;1;2;3]) (-1) 2);
  (*4581*) AddTo (T 126) (Times (Einsum [(T 30,[0;1;2;3])] [1;0;2;3]) (3) 2);
  (*4582*) AddTo (T 126) (Times (Einsum [(T 124,[0;1;2;3])] [1;0;2;3]) (-1) 1);
  (*4583*) AddTo (T 126) (Times (Einsum [(T 125,[0;1;2;3])] [0;1;2;3]) (-1) 1);
  (*4584*) Assign (T 127) (Plain (Zeros [0;0;0;1]));
  (*4585*) AddTo (T 127) (Plain (Einsum [(n_t2,[0;1;2;3]); (T 126,[4;1;5;3])] [0;4;5;2]));
  (*4586*) Del (T 126);
  (*4587*) AddTo n_rdm2_f_ooov (Times (Einsum [(T 127,[0;1;2;3])] [2;0;1;3]) (-1) 1);
  (*4588*) AddTo n_rdm2_f_ooov (Times (Einsum [(T 127,[0;1;2;3])] [2;0;1;3]) (-1) 1);
  (*4589*) AddTo n_rdm2_f_oovo (Times (Einsum [(T 127,[0;1;2;3])] [0;2;3;1]) (-1) 1);
  (*4590*) AddTo n_rdm2_f_oovo (Times (Einsum [(T 127,[0;1;2;3])] [0;2;3;1]) (-1) 1);
  (*4591*) Del (T 127);
  (*4592*) Assign (T 128) (Plain (Zeros [0;0;0;1;1;1]));
  (*4593*) AddTo (T 128) (Times (Einsum [(n_l3,[0;1;2;3;4;5])] [5;3;4;0;2;1]) (-1) 1);
  (*4594*) AddTo (T 128) (Plain (Einsum [(n_l3,[0;1;2;3;4;5])] [3;5;4;0;2;1]));
  (*4595*) Assign (T 129) (Plain (Zeros [0;1;1;1]));
  (*4596*) AddTo (T 129) (Plain (Einsum [(n_t2,[0;1;2;3]); (T 128,[0;1;4;5;2;6])] [4;3;5;6]));
  (*4597*) Assign (T 130) (Plain (Zeros [0;0;0;1]));
  (*4598*) AddTo (T 130) (Times (Einsum [(n_t2,[0;1;2;3]); (T 129,[4;5;2;3])] [0;1;4;5]) (-1) 2);
  (*4599*) AddTo n_rdm2_f_ooov (Plain (Einsum [(T 130,[0;1;2;3])] [1;0;2;3]));
  (*4600*) AddTo n_rdm2_f_ooov (Plain (Einsum [(T 130,[0;1;2;3])] [1;0;2;3]));
  (*4601*) Del (T 130);
  (*4602*) Assign (T 131) (Plain (Zeros [0;0;0;1]));
  (*4603*) AddTo (T 131) (Times (Einsum [(T 24,[0;1;2;3])] [0;1;2;3]) (2) 1);
  (*4604*) AddTo (T 131) (Times (Einsum [(T 30,[0;1;2;3])] [0;1;2;3]) (2) 1);
  (*4605*) AddTo (T 131) (Plain (Einsum [(T 60,[0;1;2;3])] [1;0;2;3]));
  (*4606*) Assign (T 132) (Plain (Zeros [0;0;0;1]));
  (*4607*) AddTo (T 132) (Times (Einsum [(n_t2,[0;1;2;3]); (T 131,[1;4;5;2])] [0;4;5;3]) (1) 2);
  (*4608*) AddTo n_rdm2_f_ooov (Plain (Einsum [(T 132,[0;1;2;3])] [2;0;1;3]));
  (*4609*) AddTo n_rdm2_f_ooov (Plain (Einsum [(T 132,[0;1;2;3])] [2;0;1;3]));
  (*4610*) Del (T 132);
  (*4611*) Assign (T 133) (Plain (Zeros [0;0;0;1]));
  (*4612*) AddTo (T 133) (Plain (Einsum [(n_t2,[0;1;2;3]); (n_l3,[2;4;3;1;5;6])] [6;5;0;4]));
  (*4613*) Assign (T 134) (Plain (Zeros [0;0;0;1;1;1]));
  (*4614*) AddTo (T 134) (Plain (Einsum [(n_l3,[0;1;2;3;4;5])] [3;5;4;0;2;1]));
  (*4615*) AddTo (T 134) (Times (Einsum [(n_l3,[0;1;2;3;4;5])] [3;4;5;1;0;2]) (-1) 2);
  (*4616*) Assign (T 135) (Plain (Zeros [0;0;0;1]));
  (*4617*) AddTo (T 135) (Plain (Einsum [(n_t2,[0;1;2;3]); (T 134,[1;4;5;6;3;2])] [0;4;5;6]));
  (*4618*) Assign (T 136) (Plain (Zeros [0;0;0;1]));
  (*4619*) AddTo (T 136) (Times (Einsum [(T 24,[0;1;2;3])] [0;1;2;3]) (-1) 1);
  (*4620*) AddTo (T 136) (Times (Einsum [(T 133,[0;1;2;3])] [1;0;2;3]) (1) 2);
  (*4621*) AddTo (T 136) (Plain (Einsum [(T 135,[0;1;2;3])] [1;2;0;3]));
  (*4622*) Del (T 135);
  (*4623*) Assign (T 137) (Plain (Zeros [0;0;0;1]));
  (*4624*) AddTo (T 137) (Plain (Einsum [(n_t2,[0;1;2;3]); (T 136,[4;1;5;2])] [0;4;5;3]));
  (*4625*) Del (T 136);
  (*4626*) AddTo n_rdm2_f_ooov (Times (Einsum [(T 137,[0;1;2;3])] [0;2;1;3]) (-1) 1);
  (*4627*) AddTo n_rdm2_f_ooov (Times (Einsum [(T 137,[0;1;2;3])] [0;2;1;3]) (-1) 1);
  (*4628*) AddTo n_rdm2_f_oovo (Times (Einsum [(T 137,[0;1;2;3])] [2;0;3;1]) (-1) 1);
  (*4629*) AddTo n_rdm2_f_oovo (Times (Einsum [(T 137,[0;1;2;3])] [2;0;3;1]) (-1) 1);
  (*4630*) Del (T 137);
  (*4631*) Assign (T 138) (Plain (Zeros [0;0;0;0]));
  (*4632*) AddTo (T 138) (Plain (Einsum [(T 23,[0;1;2;3])] [1;0;3;2]));
  (*4633*) AddTo (T 138) (Plain (Einsum [(T 25,[0;1;2;3])] [0;1;2;3]));
  (*4634*) AddTo (T 138) (Plain (Einsum [(T 32,[0;1;2;3])] [0;1;2;3]));
  (*4635*) AddTo (T 138) (Plain (Einsum [(T 32,[0;1;2;3])] [1;0;3;2]));
  (*4636*) Del (T 32);
  (*4637*) AddTo (T 138) (Plain (Einsum [(T 35,[0;1;2;3])] [1;2;3;0]));
  (*4638*) AddTo (T 138) (Plain (Einsum [(T 35,[0;1;2;3])] [2;1;0;3]));
  (*4639*) Del (T 35);
  (*4640*) Assign (T 139) (Plain (Zeros [0;0;0;1]));
  (*4641*) AddTo (T 139) (Plain (Einsum [(n_t1,[0;1]); (T 138,[0;2;3;4])] [2;3;4;1]));
  (*4642*) Del (T 138);
  (*4643*) AddTo n_rdm2_f_ooov (Plain (Einsum [(T 139,[0;1;2;3])] [2;1;0;3]));
  (*4644*) AddTo n_rdm2_f_ooov (Plain (Einsum [(T 139,[0;1;2;3])] [2;1;0;3]));
  (*4645*) AddTo n_rdm2_f_oovo (Plain (Einsum [(T 139,[0;1;2;3])] [1;2;3;0]));
  (*4646*) AddTo n_rdm2_f_oovo (Plain (Einsum [(T 139,[0;1;2;3])] [1;2;3;0]));
  (*4647*) Del (T 139);
  (*4648*) Assign (T 140) (Plain (Zeros [0;1]));
  (*4649*) AddTo (T 140) (Times (Einsum [(n_t1,[0;1])] [0;1]) (-1) 1);
  (*4650*) AddTo (T 140) (Times (Einsum [(T 77,[0;1])] [0;1]) (24999999999999) 100000000000000);
  (*4651*) AddTo (T 140) (Plain (Einsum [(T 79,[0;1])] [0;1]));
  (*4652*) Del (T 79);
  (*4653*) AddTo (T 140) (Times (Einsum [(T 80,[0;1])] [0;1]) (-1) 1);
  (*4654*) Del (T 80);
  (*4655*) AddTo (T 140) (Times (Einsum [(T 82,[0;1])] [0;1]) (-1) 1);
  (*4656*) Del (T 82);
  (*4657*) AddTo (T 140) (Plain (Einsum [(T 84,[0;1])] [0;1]));
  (*4658*) Del (T 84);
  (*4659*) AddTo (T 140) (Plain (Einsum [(T 89,[0;1])] [0;1]));
  (*4660*) Del (T 89);
  (*4661*) AddTo (T 140) (Plain (Einsum [(T 92,[0;1])] [0;1]));
  (*4662*) Del (T 92);
  (*4663*) AddTo (T 140) (Times (Einsum [(T 94,[0;1])] [0;1]) (-1) 1);
  (*4664*) Del (T 94);
  (*4665*) AddTo (T 140) (Plain (Einsum [(T 95,[0;1])] [0;1]));
  (*4666*) Del (T 95);
  (*4667*) AddTo n_rdm2_f_ooov (Times (Einsum [(n_delta'oo,[0;1]); (T 140,[2;3])] [0;2;1;3]) (-1) 1);
  (*4668*) AddTo n_rdm2_f_ooov (Times (Einsum [(n_delta'oo,[0;1]); (T 140,[2;3])] [0;2;1;3]) (-1) 1);
  (*4669*) Del (T 140);
  (*4670*) Assign (T 141) (Plain (Zeros [0;0;0;1]));
  (*4671*) AddTo (T 141) (Plain (Einsum [(n_t3,[0;1;2;3;4;5]); (T 36,[2;1;6;7;5;3])] [6;7;0;4]));
  (*4672*) AddTo n_rdm2_f_oovo (Times (Einsum [(T 141,[0;1;2;3])] [2;1;3;0]) (1) 4);
  (*4673*) AddTo n_rdm2_f_oovo (Times (Einsum [(T 141,[0;1;2;3])] [2;1;3;0]) (1) 4);
  (*4674*) Assign (T 142) (Plain (Zeros [0;0;0;1;1;1]));
  (*4675*) AddTo (T 142) (Times (Einsum [(n_t3,[0;1;2;3;4;5])] [0;2;1;5;3;4]) (-1) 1);
  (*4676*) AddTo (T 142) (Plain (Einsum [(n_t3,[0;1;2;3;4;5])] [0;2;1;3;5;4]));
  (*4677*) AddTo (T 142) (Times (Einsum [(n_t3,[0;1;2;3;4;5])] [0;1;2;3;4;5]) (4) 1);
  (*4678*) Assign (T 143) (Plain (Zeros [0;0;0;1]));
  (*4679*) AddTo (T 143) (Times (Einsum [(T 142,[0;1;2;3;4;5]); (T 43,[1;6;0;7;4;3])] [6;7;2;5]) (1) 4);
  (*4680*) Del (T 142);
  (*4681*) AddTo n_rdm2_f_oovo (Times (Einsum [(T 143,[0;1;2;3])] [2;1;3;0]) (-1) 1);
  (*4682*) AddTo n_rdm2_f_oovo (Times (Einsum [(T 143,[0;1;2;3])] [2;1;3;0]) (-1) 1);
  (*4683*) Del (T 143);
  (*4684*) Assign (T 144) (Plain (Zeros [0;0;0;0;1;1]));
  (*4685*) AddTo (T 144) (Plain (Einsum [(T 36,[0;1;2;3;4;5])] [0;1;2;3;4;5]));
  (*4686*) AddTo (T 144) (Times (Einsum [(T 36,[0;1;2;3;4;5])] [0;1;2;3;5;4]) (-1) 1);
  (*4687*) Assign (T 145) (Plain (Zeros [0;0;0;1]));
  (*4688*) AddTo (T 145) (Times (Einsum [(n_t3,[0;1;2;3;4;5]); (T 144,[1;2;6;7;4;5])] [0;6;7;3]) (1) 4);
  (*4689*) AddTo n_rdm2_f_oovo (Times (Einsum [(T 145,[0;1;2;3])] [0;2;3;1]) (-1) 1);
  (*4690*) AddTo n_rdm2_f_oovo (Times (Einsum [(T 145,[0;1;2;3])] [0;2;3;1]) (-1) 1);
  (*4691*) Del (T 145);
  (*4692*) Assign (T 146) (Plain (Zeros [0;0;0;1;1;1]));
  (*4693*) AddTo (T 146) (Times (Einsum [(n_t3,[0;1;2;3;4;5])] [0;2;1;5;3;4]) (-1) 1);
  (*4694*) AddTo (T 146) (Plain (Einsum [(n_t3,[0;1;2;3;4;5])] [0;2;1;3;5;4]));
  (*4695*) Assign (T 147) (Plain (Zeros [0;0;0;1]));
  (*4696*) AddTo (T 147) (Times (Einsum [(n_l2,[0;1;2;3]); (T 146,[2;4;5;0;1;6])] [3;4;5;6]) (1) 2);
  (*4697*) AddTo n_rdm2_f_oovo (Times (Einsum [(T 147,[0;1;2;3])] [2;1;3;0]) (-1) 1);
  (*4698*) AddTo n_rdm2_f_oovo (Times (Einsum [(T 147,[0;1;2;3])] [2;1;3;0]) (-1) 1);
  (*4699*) Del (T 147);
  (*4700*) Assign (T 148) (Plain (Zeros [0;0;0;0;0;1]));
  (*4701*) AddTo (T 148) (Plain (Einsum [(T 37,[0;1;2;3;4;5])] [0;1;2;3;4;5]));
  (*4702*) AddTo (T 148) (Times (Einsum [(T 37,[0;1;2;3;4;5])] [1;0;2;3;4;5]) (-1) 1);
  (*4703*) Assign (T 149) (Plain (Zeros [0;0;0;1]));
  (*4704*) AddTo (T 149) (Times (Einsum [(n_t2,[0;1;2;3]); (T 148,[1;0;4;5;6;2])] [4;5;6;3]) (1) 2);
  (*4705*) Del (T 148);
  (*4706*) AddTo n_rdm2_f_oovo (Times (Einsum [(T 149,[0;1;2;3])] [1;2;3;0]) (-1) 1);
  (*4707*) AddTo n_rdm2_f_oovo (Times (Einsum [(T 149,[0;1;2;3])] [1;2;3;0]) (-1) 1);
  (*4708*) Del (T 149);
  (*4709*) Assign (T 150) (Plain (Zeros [0;0;0;1]));
  (*4710*) AddTo (T 150) (Times (Einsum [(n_t2,[0;1;2;3]); (T 129,[4;5;3;2])] [0;1;4;5]) (-1) 2);
  (*4711*) AddTo n_rdm2_f_oovo (Plain (Einsum [(T 150,[0;1;2;3])] [1;0;3;2]));
  (*4712*) AddTo n_rdm2_f_oovo (Plain (Einsum [(T 150,[0;1;2;3])] [1;0;3;2]));
  (*4713*) Assign (T 151) (Plain (Zeros [0;0;0;1]));
  (*4714*) AddTo (T 151) (Times (Einsum [(T 7,[0;1;2;3]); (n_l3,[2;4;3;5;6;0])] [5;6;1;4]) (1) 2);
  (*4715*) AddTo n_rdm2_f_ovoo (Times (Einsum [(T 151,[0;1;2;3])] [2;3;0;1]) (-1) 1);
  (*4716*) AddTo n_rdm2_f_ovoo (Times (Einsum [(T 151,[0;1;2;3])] [2;3;0;1]) (-1) 1);
  (*4717*) AddTo n_rdm2_f_vooo (Times (Einsum [(T 151,[0;1;2;3])] [3;2;1;0]) (-1) 1);
  (*4718*) AddTo n_rdm2_f_vooo (Times (Einsum [(T 151,[0;1;2;3])] [3;2;1;0]) (-1) 1);
  (*4719*) Assign (T 152) (Plain (Zeros [0;0;0;1]));
  (*4720*) AddTo (T 152) (Plain (Einsum [(T 24,[0;1;2;3])] [0;1;2;3]));
  (*4721*) AddTo (T 152) (Plain (Einsum [(T 30,[0;1;2;3])] [0;1;2;3]));
  (*4722*) AddTo (T 152) (Plain (Einsum [(T 151,[0;1;2;3])] [1;0;2;3]));
  (*4723*) Del (T 151);
  (*4724*) Assign (T 153) (Plain (Zeros [0;0;0;1]));
  (*4725*) AddTo (T 153) (Plain (Einsum [(n_t2,[0;1;2;3]); (T 152,[1;4;5;2])] [0;4;5;3]));
  (*4726*) AddTo n_rdm2_f_oovo (Plain (Einsum [(T 153,[0;1;2;3])] [0;2;3;1]));
  (*4727*) AddTo n_rdm2_f_oovo (Plain (Einsum [(T 153,[0;1;2;3])] [0;2;3;1]));
  (*4728*) Del (T 153);
  (*4729*) Assign (T 154) (Plain (Zeros [0;1]));
  (*4730*) AddTo (T 154) (Plain (Einsum [(T 43,[0;1;2;3;4;5]); (T 78,[0;1;2;5;4;6])] [3;6]));
  (*4731*) Assign (T 155) (Plain (Zeros [0;1]));
  (*4732*) AddTo (T 155) (Plain (Einsum [(T 43,[0;1;2;3;4;5]); (T 46,[2;0;1;6;5;4])] [3;6]));
  (*4733*) Assign (T 156) (Plain (Zeros [0;0;0;1;1;1]));
  (*4734*) AddTo (T 156) (Plain (Einsum [(n_t3,[0;1;2;3;4;5])] [0;2;1;5;3;4]));
  (*4735*) AddTo (T 156) (Times (Einsum [(n_t3,[0;1;2;3;4;5])] [0;2;1;3;5;4]) (-1) 1);
  (*4736*) AddTo (T 156) (Plain (Einsum [(n_t3,[0;1;2;3;4;5])] [1;0;2;5;3;4]));
  (*4737*) AddTo (T 156) (Times (Einsum [(n_t3,[0;1;2;3;4;5])] [1;0;2;3;4;5]) (6000000000000001) 1000000000000000);
  (*4738*) Assign (T 157) (Plain (Zeros [0;1]));
  (*4739*) AddTo (T 157) (Times (Einsum [(n_l2,[0;1;2;3]); (T 156,[2;3;4;1;0;5])] [4;5]) (75000000000003) 25000000000000);
  (*4740*) Del (T 156);
  (*4741*) Assign (T 158) (Plain (Zeros [0;1]));
  (*4742*) AddTo (T 158) (Times (Einsum [(n_l2,[0;1;2;3]); (T 83,[3;4;2;0;5;1])] [4;5]) (75000000000003) 12500000000000);
  (*4743*) Assign (T 159) (Plain (Zeros [0;0;1;1]));
  (*4744*) AddTo (T 159) (Times (Einsum [(n_t2,[0;1;2;3])] [0;1;3;2]) (-16666666666666663) 50000000000000000);
  (*4745*) AddTo (T 159) (Plain (Einsum [(n_t2,[0;1;2;3])] [0;1;2;3]));
  (*4746*) Assign (T 160) (Plain (Zeros [0;0;0;1]));
  (*4747*) AddTo (T 160) (Times (Einsum [(T 159,[0;1;2;3]); (n_l3,[4;2;3;5;0;6])] [6;5;1;4]) (18750000000000003) 50000000000000000);
  (*4748*) Del (T 159);
  (*4749*) Assign (T 161) (Plain (Zeros [0;0;0;1]));
  (*4750*) AddTo (T 161) (Times (Einsum [(T 24,[0;1;2;3])] [0;1;2;3]) (-1) 2);
  (*4751*) AddTo (T 161) (Plain (Einsum [(T 24,[0;1;2;3])] [1;0;2;3]));
  (*4752*) AddTo (T 161) (Times (Einsum [(T 160,[0;1;2;3])] [1;0;2;3]) (-1) 1);
  (*4753*) AddTo (T 161) (Plain (Einsum [(T 160,[0;1;2;3])] [0;1;2;3]));
  (*4754*) Del (T 160);
  (*4755*) AddTo (T 161) (Plain (Einsum [(T 87,[0;1;2;3])] [1;2;0;3]));
  (*4756*) Del (T 87);
  (*4757*) Assign (T 162) (Plain (Zeros [0;1]));
  (*4758*) AddTo (T 162) (Times (Einsum [(n_t2,[0;1;2;3]); (T 161,[1;0;4;2])] [4;3]) (75000000000003) 3125000000000);
  (*4759*) Del (T 161);
  (*4760*) Assign (T 163) (Plain (Zeros [0;0;1;1]));
  (*4761*) AddTo (T 163) (Plain (Einsum [(n_t2,[0;1;2;3])] [0;1;3;2]));
  (*4762*) AddTo (T 163) (Times (Einsum [(n_t2,[0;1;2;3])] [0;1;2;3]) (-16666666666666663) 50000000000000000);
  (*4763*) Assign (T 164) (Plain (Zeros [0;0;0;1]));
  (*4764*) AddTo (T 164) (Times (Einsum [(T 163,[0;1;2;3]); (n_l3,[4;2;3;5;6;0])] [5;6;1;4]) (7500000000000001) 2500000000000000);
  (*4765*) Del (T 163);
  (*4766*) Assign (T 165) (Plain (Zeros [0;1]));
  (*4767*) AddTo (T 165) (Times (Einsum [(n_t2,[0;1;2;3]); (T 164,[0;1;4;2])] [4;3]) (75000000000003) 12500000000000);
  (*4768*) Del (T 164);
  (*4769*) Assign (T 166) (Plain (Zeros [0;1]));
  (*4770*) AddTo (T 166) (Times (Einsum [(n_l1,[0;1]); (T 93,[1;2;3;0])] [2;3]) (75000000000003) 6250000000000);
  (*4771*) Assign (T 167) (Plain (Zeros [0;1]));
  (*4772*) AddTo (T 167) (Times (Einsum [(n_t1,[0;1]); (T 75,[0;2])] [2;1]) (75000000000003) 6250000000000);
  (*4773*) Assign (T 168) (Plain (Zeros [0;1]));
  (*4774*) AddTo (T 168) (Times (Einsum [(n_t1,[0;1])] [0;1]) (-75000000000003) 6250000000000);
  (*4775*) AddTo (T 168) (Times (Einsum [(T 77,[0;1])] [0;1]) (3) 1);
  (*4776*) AddTo (T 168) (Plain (Einsum [(T 154,[0;1])] [0;1]));
  (*4777*) Del (T 154);
  (*4778*) AddTo (T 168) (Times (Einsum [(T 155,[0;1])] [0;1]) (-1) 1);
  (*4779*) Del (T 155);
  (*4780*) AddTo (T 168) (Times (Einsum [(T 157,[0;1])] [0;1]) (-1) 1);
  (*4781*) Del (T 157);
  (*4782*) AddTo (T 168) (Plain (Einsum [(T 158,[0;1])] [0;1]));
  (*4783*) Del (T 158);
  (*4784*) AddTo (T 168) (Plain (Einsum [(T 162,[0;1])] [0;1]));
  (*4785*) Del (T 162);
  (*4786*) AddTo (T 168) (Plain (Einsum [(T 165,[0;1])] [0;1]));
  (*4787*) Del (T 165);
  (*4788*) AddTo (T 168) (Times (Einsum [(T 166,[0;1])] [0;1]) (-1) 1);
  (*4789*) Del (T 166);
  (*4790*) AddTo (T 168) (Plain (Einsum [(T 167,[0;1])] [0;1]));
  (*4791*) Del (T 167);
  (*4792*) AddTo n_rdm2_f_oovo (Times (Einsum [(n_delta'oo,[0;1]); (T 168,[2;3])] [2;0;3;1]) (-8333333333333) 100000000000000);
  (*4793*) AddTo n_rdm2_f_oovo (Times (Einsum [(n_delta'oo,[0;1]); (T 168,[2;3])] [2;0;3;1]) (-8333333333333) 100000000000000);
  (*4794*) Del (T 168);
  (*4795*) Assign (T 169) (Plain (Zeros [0;0;0;1]));
  (*4796*) AddTo (T 169) (Times (Einsum [(T 33,[0;1;2;3]); (n_l3,[4;2;3;5;6;0])] [5;6;1;4]) (1) 2);
  (*4797*) Assign (T 170) (Plain (Zeros [0;0;0;1]));
  (*4798*) AddTo (T 170) (Plain (Einsum [(T 24,[0;1;2;3])] [0;1;2;3]));
  (*4799*) AddTo (T 170) (Times (Einsum [(T 169,[0;1;2;3])] [0;1;2;3]) (-1) 1);
  (*4800*) AddTo n_rdm2_f_ovoo (Plain (Einsum [(T 170,[0;1;2;3])] [2;3;0;1]));
  (*4801*) AddTo n_rdm2_f_ovoo (Times (Einsum [(T 170,[0;1;2;3])] [2;3;1;0]) (-1) 1);
  (*4802*) AddTo n_rdm2_f_ovoo (Plain (Einsum [(T 170,[0;1;2;3])] [2;3;0;1]));
  (*4803*) AddTo n_rdm2_f_ovoo (Times (Einsum [(T 170,[0;1;2;3])] [2;3;1;0]) (-1) 1);
  (*4804*) AddTo n_rdm2_f_vooo (Times (Einsum [(T 170,[0;1;2;3])] [3;2;0;1]) (-1) 1);
  (*4805*) AddTo n_rdm2_f_vooo (Plain (Einsum [(T 170,[0;1;2;3])] [3;2;1;0]));
  (*4806*) AddTo n_rdm2_f_vooo (Times (Einsum [(T 170,[0;1;2;3])] [3;2;0;1]) (-1) 1);
  (*4807*) AddTo n_rdm2_f_vooo (Plain (Einsum [(T 170,[0;1;2;3])] [3;2;1;0]));
  (*4808*) Del (T 170);
  (*4809*) Assign (T 171) (Plain (Zeros [0;0;0;1]));
  (*4810*) AddTo (T 171) (Times (Einsum [(T 10,[0;1;2;3]); (n_l3,[4;2;3;5;0;6])] [6;5;1;4]) (3) 2);
  (*4811*) AddTo n_rdm2_f_ovoo (Plain (Einsum [(T 171,[0;1;2;3])] [2;3;1;0]));
  (*4812*) AddTo n_rdm2_f_ovoo (Plain (Einsum [(T 171,[0;1;2;3])] [2;3;1;0]));
  (*4813*) Del (T 171);
  (*4814*) Assign (T 172) (Plain (Zeros [0;0;1;1]));
  (*4815*) AddTo (T 172) (Plain (Einsum [(n_t3,[0;1;2;3;4;5]); (T 37,[1;0;2;6;7;4])] [6;7;3;5]));
  (*4816*) AddTo n_rdm2_f_oovv (Times (Einsum [(T 172,[0;1;2;3])] [1;0;2;3]) (-16666666666667) 100000000000000);
  (*4817*) AddTo n_rdm2_f_oovv (Times (Einsum [(T 172,[0;1;2;3])] [1;0;2;3]) (-16666666666667) 100000000000000);
  (*4818*) Del (T 172);
  (*4819*) Assign (T 173) (Plain (Zeros [0;0;1;1]));
  (*4820*) AddTo (T 173) (Plain (Einsum [(n_t3,[0;1;2;3;4;5]); (T 37,[0;1;2;6;7;4])] [6;7;3;5]));
  (*4821*) AddTo n_rdm2_f_oovv (Times (Einsum [(T 173,[0;1;2;3])] [1;0;3;2]) (-16666666666667) 100000000000000);
  (*4822*) AddTo n_rdm2_f_oovv (Times (Einsum [(T 173,[0;1;2;3])] [1;0;3;2]) (-16666666666667) 100000000000000);
  (*4823*) Del (T 173);
  (*4824*) Assign (T 174) (Plain (Zeros [0;0;1;1]));
  (*4825*) AddTo (T 174) (Plain (Einsum [(T 2,[0;1]); (n_t2,[2;0;3;4])] [1;2;3;4]));
  (*4826*) Assign (T 175) (Plain (Zeros [0;0;0;0;0;1]));
  (*4827*) AddTo (T 175) (Plain (Einsum [(n_t2,[0;1;2;3]); (n_l3,[4;3;2;5;6;7])] [5;7;6;0;1;4]));
  (*4828*) Assign (T 176) (Plain (Zeros [0;0;1;1]));
  (*4829*) AddTo (T 176) (Plain (Einsum [(n_t3,[0;1;2;3;4;5]); (T 175,[0;1;2;6;7;3])] [6;7;5;4]));
  (*4830*) Assign (T 177) (Plain (Zeros [0;0;1;1]));
  (*4831*) AddTo (T 177) (Plain (Einsum [(n_t2,[0;1;2;3]); (T 36,[4;1;0;5;6;3])] [4;5;6;2]));
  (*4832*) AddTo n_rdm2_f_ovvo (Times (Einsum [(T 177,[0;1;2;3])] [1;2;3;0]) (-1) 1);
  (*4833*) AddTo n_rdm2_f_ovvo (Times (Einsum [(T 177,[0;1;2;3])] [1;2;3;0]) (-1) 1);
  (*4834*) AddTo n_rdm2_f_voov (Times (Einsum [(T 177,[0;1;2;3])] [2;1;0;3]) (-1) 1);
  (*4835*) AddTo n_rdm2_f_voov (Times (Einsum [(T 177,[0;1;2;3])] [2;1;0;3]) (-1) 1);
  (*4836*) Assign (T 178) (Plain (Zeros [0;0;1;1]));
  (*4837*) AddTo (T 178) (Plain (Einsum [(n_t2,[0;1;2;3]); (T 177,[1;4;3;5])] [4;0;2;5]));
  (*4838*) Assign (T 179) (Plain (Zeros [0;0;0;1;1;1]));
  (*4839*) AddTo (T 179) (Plain (Einsum [(n_t3,[0;1;2;3;4;5])] [0;2;1;3;5;4]));
  (*4840*) AddTo (T 179) (Times (Einsum [(n_t3,[0;1;2;3;4;5])] [0;1;2;3;5;4]) (-1) 1);
  (*4841*) Assign (T 180) (Plain (Zeros [0;0;1;1]));
  (*4842*) AddTo (T 180) (Times (Einsum [(T 175,[0;1;2;3;4;5]); (T 179,[1;2;0;6;5;7])] [3;4;6;7]) (8333333333333) 100000000000000);
  (*4843*) Assign (T 181) (Plain (Zeros [0;0;0;1]));
  (*4844*) AddTo (T 181) (Times (Einsum [(T 123,[0;1;2;3]); (n_l3,[4;2;3;5;0;6])] [5;6;1;4]) (1) 2);
  (*4845*) Del (T 123);
  (*4846*) Assign (T 182) (Plain (Zeros [0;0;0;1]));
  (*4847*) AddTo (T 182) (Times (Einsum [(T 24,[0;1;2;3])] [0;1;2;3]) (-1) 1);
  (*4848*) AddTo (T 182) (Plain (Einsum [(T 24,[0;1;2;3])] [1;0;2;3]));
  (*4849*) AddTo (T 182) (Plain (Einsum [(T 169,[0;1;2;3])] [0;1;2;3]));
  (*4850*) AddTo (T 182) (Plain (Einsum [(T 181,[0;1;2;3])] [1;0;2;3]));
  (*4851*) Del (T 181);
  (*4852*) Assign (T 183) (Plain (Zeros [0;0;1;1]));
  (*4853*) AddTo (T 183) (Times (Einsum [(T 182,[0;1;2;3]); (n_t3,[4;0;1;5;6;3])] [4;2;5;6]) (1) 2);
  (*4854*) Del (T 182);
  (*4855*) Assign (T 184) (Plain (Zeros [0;0;1;1]));
  (*4856*) AddTo (T 184) (Plain (Einsum [(n_l3,[0;1;2;3;4;5]); (n_t3,[5;6;3;1;7;2])] [4;6;0;7]));
  (*4857*) Assign (T 185) (Plain (Zeros [0;0;1;1]));
  (*4858*) AddTo (T 185) (Plain (Einsum [(n_l3,[0;1;2;3;4;5]); (n_t3,[6;3;5;7;2;1])] [4;6;0;7]));
  (*4859*) AddTo n_rdm2_f_vovo (Times (Einsum [(T 185,[0;1;2;3])] [2;1;3;0]) (-1) 4);
  (*4860*) AddTo n_rdm2_f_vovo (Times (Einsum [(T 185,[0;1;2;3])] [2;1;3;0]) (-1) 4);
  (*4861*) Assign (T 186) (Plain (Zeros [0;0;0;1;1;1]));
  (*4862*) AddTo (T 186) (Times (Einsum [(n_t3,[0;1;2;3;4;5])] [0;2;1;5;4;3]) (1) 5);
  (*4863*) AddTo (T 186) (Plain (Einsum [(n_t3,[0;1;2;3;4;5])] [0;2;1;3;5;4]));
  (*4864*) AddTo (T 186) (Times (Einsum [(n_t3,[0;1;2;3;4;5])] [0;2;1;4;5;3]) (-1) 5);
  (*4865*) AddTo (T 186) (Times (Einsum [(n_t3,[0;1;2;3;4;5])] [0;1;2;5;4;3]) (-1) 5);
  (*4866*) AddTo (T 186) (Times (Einsum [(n_t3,[0;1;2;3;4;5])] [0;1;2;3;4;5]) (1) 5);
  (*4867*) AddTo (T 186) (Times (Einsum [(n_t3,[0;1;2;3;4;5])] [1;0;2;5;3;4]) (-1) 5);
  (*4868*) AddTo (T 186) (Times (Einsum [(n_t3,[0;1;2;3;4;5])] [1;0;2;3;4;5]) (-1) 5);
  (*4869*) AddTo (T 186) (Plain (Einsum [(n_t3,[0;1;2;3;4;5])] [1;0;2;4;3;5]));
  (*4870*) Assign (T 187) (Plain (Zeros [0;0;1;1]));
  (*4871*) AddTo (T 187) (Times (Einsum [(n_l3,[0;1;2;3;4;5]); (T 186,[5;6;4;2;7;1])] [3;6;0;7]) (5) 4);
  (*4872*) Del (T 186);
  (*4873*) Assign (T 188) (Plain (Zeros [0;0;0;1;1;1]));
  (*4874*) AddTo (T 188) (Plain (Einsum [(n_l3,[0;1;2;3;4;5])] [3;5;4;0;2;1]));
  (*4875*) AddTo (T 188) (Plain (Einsum [(n_l3,[0;1;2;3;4;5])] [3;5;4;1;0;2]));
  (*4876*) Assign (T 189) (Plain (Zeros [0;0;0;1;1;1]));
  (*4877*) AddTo (T 189) (Plain (Einsum [(n_t3,[0;1;2;3;4;5])] [0;2;1;3;5;4]));
  (*4878*) AddTo (T 189) (Plain (Einsum [(n_t3,[0;1;2;3;4;5])] [0;2;1;4;3;5]));
  (*4879*) Assign (T 190) (Plain (Zeros [0;0;1;1]));
  (*4880*) AddTo (T 190) (Times (Einsum [(T 188,[0;1;2;3;4;5]); (T 189,[1;6;0;5;4;7])] [2;6;3;7]) (1) 4);
  (*4881*) Del (T 188);
  (*4882*) Assign (T 191) (Plain (Zeros [0;0;0;1;1;1]));
  (*4883*) AddTo (T 191) (Plain (Einsum [(n_t3,[0;1;2;3;4;5])] [0;2;1;3;5;4]));
  (*4884*) AddTo (T 191) (Plain (Einsum [(n_t3,[0;1;2;3;4;5])] [1;0;2;4;3;5]));
  (*4885*) Assign (T 192) (Plain (Zeros [0;0;1;1]));
  (*4886*) AddTo (T 192) (Times (Einsum [(n_l3,[0;1;2;3;4;5]); (T 191,[3;5;6;0;2;7])] [4;6;1;7]) (1) 4);
  (*4887*) Del (T 191);
  (*4888*) Assign (T 193) (Plain (Zeros [0;0;1;1]));
  (*4889*) AddTo (T 193) (Times (Einsum [(n_l2,[0;1;2;3])] [3;2;0;1]) (-1) 1);
  (*4890*) AddTo (T 193) (Times (Einsum [(n_l2,[0;1;2;3])] [2;3;0;1]) (2) 1);
  (*4891*) Assign (T 194) (Plain (Zeros [0;0;1;1]));
  (*4892*) AddTo (T 194) (Plain (Einsum [(n_t2,[0;1;2;3]); (T 193,[1;4;2;5])] [0;4;3;5]));
  (*4893*) Assign (T 195) (Plain (Zeros [0;0;1;1]));
  (*4894*) AddTo (T 195) (Times (Einsum [(T 184,[0;1;2;3])] [0;1;2;3]) (1) 4);
  (*4895*) AddTo (T 195) (Times (Einsum [(T 185,[0;1;2;3])] [0;1;2;3]) (1) 4);
  (*4896*) Del (T 185);
  (*4897*) AddTo (T 195) (Plain (Einsum [(T 187,[0;1;2;3])] [0;1;2;3]));
  (*4898*) Del (T 187);
  (*4899*) AddTo (T 195) (Times (Einsum [(T 190,[0;1;2;3])] [0;1;2;3]) (-1) 1);
  (*4900*) Del (T 190);
  (*4901*) AddTo (T 195) (Plain (Einsum [(T 192,[0;1;2;3])] [0;1;2;3]));
  (*4902*) Del (T 192);
  (*4903*) AddTo (T 195) (Times (Einsum [(T 194,[0;1;2;3])] [1;0;3;2]) (-1) 1);
  (*4904*) Del (T 194);
  (*4905*) Assign (T 196) (Plain (Zeros [0;0;1;1]));
  (*4906*) AddTo (T 196) (Plain (Einsum [(n_t2,[0;1;2;3]); (T 195,[1;4;3;5])] [0;4;2;5]));
  (*4907*) Del (T 195);
  (*4908*) Assign (T 197) (Plain (Zeros [0;0;1;1]));
  (*4909*) AddTo (T 197) (Times (Einsum [(T 8,[0;1;2;3]); (n_t3,[4;1;0;5;6;3])] [4;2;5;6]) (-1) 4);
  (*4910*) Assign (T 198) (Plain (Zeros [0;0;1;1]));
  (*4911*) AddTo (T 198) (Plain (Einsum [(n_l3,[0;1;2;3;4;5]); (n_t3,[3;6;5;0;7;2])] [4;6;1;7]));
  (*4912*) AddTo n_rdm2_f_ovov (Times (Einsum [(T 198,[0;1;2;3])] [1;2;0;3]) (-1) 4);
  (*4913*) AddTo n_rdm2_f_ovov (Times (Einsum [(T 198,[0;1;2;3])] [1;2;0;3]) (-1) 4);
  (*4914*) AddTo n_rdm2_f_ovvo (Times (Einsum [(T 198,[0;1;2;3])] [1;2;3;0]) (1) 4);
  (*4915*) AddTo n_rdm2_f_ovvo (Times (Einsum [(T 198,[0;1;2;3])] [1;2;3;0]) (1) 4);
  (*4916*) AddTo n_rdm2_f_voov (Times (Einsum [(T 198,[0;1;2;3])] [2;1;0;3]) (1) 4);
  (*4917*) AddTo n_rdm2_f_voov (Times (Einsum [(T 198,[0;1;2;3])] [2;1;0;3]) (1) 4);
  (*4918*) AddTo n_rdm2_f_vovo (Times (Einsum [(T 198,[0;1;2;3])] [2;1;3;0]) (-1) 4);
  (*4919*) AddTo n_rdm2_f_vovo (Times (Einsum [(T 198,[0;1;2;3])] [2;1;3;0]) (-1) 4);
  (*4920*) Assign (T 199) (Plain (Zeros [0;0;0;1;1;1]));
  (*4921*) AddTo (T 199) (Plain (Einsum [(n_t3,[0;1;2;3;4;5])] [0;2;1;5;4;3]));
  (*4922*) AddTo (T 199) (Times (Einsum [(n_t3,[0;1;2;3;4;5])] [0;2;1;3;5;4]) (5) 1);
  (*4923*) AddTo (T 199) (Times (Einsum [(n_t3,[0;1;2;3;4;5])] [0;2;1;4;5;3]) (-1) 1);
  (*4924*) AddTo (T 199) (Times (Einsum [(n_t3,[0;1;2;3;4;5])] [1;0;2;5;3;4]) (-1) 1);
  (*4925*) AddTo (T 199) (Times (Einsum [(n_t3,[0;1;2;3;4;5])] [1;0;2;3;4;5]) (-1) 1);
  (*4926*) AddTo (T 199) (Plain (Einsum [(n_t3,[0;1;2;3;4;5])] [1;0;2;4;3;5]));
  (*4927*) Assign (T 200) (Plain (Zeros [0;0;1;1]));
  (*4928*) AddTo (T 200) (Plain (Einsum [(n_l3,[0;1;2;3;4;5]); (T 199,[5;6;4;2;7;1])] [3;6;0;7]));
  (*4929*) Assign (T 201) (Plain (Zeros [0;0;1;1]));
  (*4930*) AddTo (T 201) (Plain (Einsum [(n_l3,[0;1;2;3;4;5]); (T 46,[5;6;3;1;7;2])] [4;6;0;7]));
  (*4931*) Assign (T 202) (Plain (Zeros [0;0;1;1]));
  (*4932*) AddTo (T 202) (Plain (Einsum [(T 198,[0;1;2;3])] [0;1;2;3]));
  (*4933*) AddTo (T 202) (Plain (Einsum [(T 200,[0;1;2;3])] [0;1;2;3]));
  (*4934*) Del (T 200);
  (*4935*) AddTo (T 202) (Times (Einsum [(T 201,[0;1;2;3])] [0;1;2;3]) (-1) 1);
  (*4936*) Del (T 201);
  (*4937*) Assign (T 203) (Plain (Zeros [0;0;1;1]));
  (*4938*) AddTo (T 203) (Times (Einsum [(n_t2,[0;1;2;3]); (T 202,[1;4;2;5])] [0;4;3;5]) (1) 4);
  (*4939*) Del (T 202);
  (*4940*) Assign (T 204) (Plain (Zeros [1;1]));
  (*4941*) AddTo (T 204) (Plain (Einsum [(n_l3,[0;1;2;3;4;5]); (n_t3,[3;4;5;0;6;2])] [1;6]));
  (*4942*) Assign (T 205) (Plain (Zeros [0;0;0;1;1;1]));
  (*4943*) AddTo (T 205) (Plain (Einsum [(n_t3,[0;1;2;3;4;5])] [0;2;1;3;5;4]));
  (*4944*) AddTo (T 205) (Times (Einsum [(n_t3,[0;1;2;3;4;5])] [0;2;1;4;5;3]) (-1) 1);
  (*4945*) AddTo (T 205) (Times (Einsum [(n_t3,[0;1;2;3;4;5])] [0;2;1;3;4;5]) (-1) 1);
  (*4946*) AddTo (T 205) (Times (Einsum [(n_t3,[0;1;2;3;4;5])] [1;0;2;5;3;4]) (-1) 1);
  (*4947*) AddTo (T 205) (Plain (Einsum [(n_t3,[0;1;2;3;4;5])] [1;0;2;5;4;3]));
  (*4948*) AddTo (T 205) (Times (Einsum [(n_t3,[0;1;2;3;4;5])] [1;0;2;4;3;5]) (6999999999999999) 1000000000000000);
  (*4949*) Assign (T 206) (Plain (Zeros [1;1]));
  (*4950*) AddTo (T 206) (Times (Einsum [(n_l3,[0;1;2;3;4;5]); (T 205,[4;3;5;1;6;2])] [0;6]) (8333333333333) 100000000000000);
  (*4951*) Assign (T 207) (Plain (Zeros [1;1]));
  (*4952*) AddTo (T 207) (Times (Einsum [(n_l3,[0;1;2;3;4;5]); (T 46,[4;5;3;6;1;2])] [0;6]) (8333333333333) 100000000000000);
  (*4953*) Assign (T 208) (Plain (Zeros [1;1]));
  (*4954*) AddTo (T 208) (Times (Einsum [(n_t2,[0;1;2;3]); (T 97,[0;1;2;4])] [3;4]) (2) 1);
  (*4955*) Assign (T 209) (Plain (Zeros [1;1]));
  (*4956*) AddTo (T 209) (Times (Einsum [(T 204,[0;1])] [0;1]) (24999999999999) 100000000000000);
  (*4957*) AddTo (T 209) (Plain (Einsum [(T 206,[0;1])] [0;1]));
  (*4958*) AddTo (T 209) (Times (Einsum [(T 207,[0;1])] [0;1]) (-1) 1);
  (*4959*) AddTo (T 209) (Plain (Einsum [(T 208,[0;1])] [1;0]));
  (*4960*) Assign (T 210) (Plain (Zeros [0;0;1;1]));
  (*4961*) AddTo (T 210) (Plain (Einsum [(T 209,[0;1]); (n_t2,[2;3;0;4])] [2;3;4;1]));
  (*4962*) Del (T 209);
  (*4963*) Assign (T 211) (Plain (Zeros [0;0;1;1]));
  (*4964*) AddTo (T 211) (Plain (Einsum [(n_t1,[0;1]); (T 57,[0;2;3;4])] [2;3;1;4]));
  (*4965*) Del (T 57);
  (*4966*) Assign (T 212) (Plain (Zeros [0;0;1;1]));
  (*4967*) AddTo (T 212) (Times (Einsum [(T 211,[0;1;2;3]); (T 33,[0;4;5;3])] [4;1;5;2]) (1) 2);
  (*4968*) Del (T 211);
  (*4969*) Assign (T 213) (Plain (Zeros [0;0;0;1]));
  (*4970*) AddTo (T 213) (Plain (Einsum [(T 24,[0;1;2;3])] [0;1;2;3]));
  (*4971*) AddTo (T 213) (Times (Einsum [(T 24,[0;1;2;3])] [1;0;2;3]) (-1) 1);
  (*4972*) Assign (T 214) (Plain (Zeros [0;0;0;1]));
  (*4973*) AddTo (T 214) (Plain (Einsum [(n_t2,[0;1;2;3]); (T 213,[4;1;5;2])] [0;4;5;3]));
  (*4974*) Del (T 213);
  (*4975*) Assign (T 215) (Plain (Zeros [0;0;0;1]));
  (*4976*) AddTo (T 215) (Times (Einsum [(T 24,[0;1;2;3])] [0;1;2;3]) (-1) 2);
  (*4977*) AddTo (T 215) (Plain (Einsum [(T 24,[0;1;2;3])] [1;0;2;3]));
  (*4978*) Assign (T 216) (Plain (Zeros [0;0;0;1]));
  (*4979*) AddTo (T 216) (Times (Einsum [(n_t2,[0;1;2;3]); (T 215,[4;1;5;3])] [0;4;5;2]) (2) 1);
  (*4980*) Del (T 215);
  (*4981*) Assign (T 217) (Plain (Zeros [0;0;0;0]));
  (*4982*) AddTo (T 217) (Times (Einsum [(n_t1,[0;1]); (T 8,[2;3;4;1])] [0;2;3;4]) (-1) 1);
  (*4983*) Assign (T 218) (Plain (Zeros [0;0;0;1]));
  (*4984*) AddTo (T 218) (Times (Einsum [(n_t1,[0;1]); (T 217,[2;3;0;4])] [3;2;4;1]) (1) 2);
  (*4985*) Del (T 217);
  (*4986*) Assign (T 219) (Plain (Zeros [0;0;0;1]));
  (*4987*) AddTo (T 219) (Plain (Einsum [(T 39,[0;1;2;3])] [0;1;2;3]));
  (*4988*) AddTo (T 219) (Times (Einsum [(T 40,[0;1;2;3])] [0;1;2;3]) (1) 2);
  (*4989*) Del (T 40);
  (*4990*) AddTo (T 219) (Times (Einsum [(T 41,[0;1;2;3])] [0;1;2;3]) (-1) 4);
  (*4991*) Del (T 41);
  (*4992*) AddTo (T 219) (Times (Einsum [(T 42,[0;1;2;3])] [0;1;2;3]) (-1) 2);
  (*4993*) Del (T 42);
  (*4994*) AddTo (T 219) (Times (Einsum [(T 45,[0;1;2;3])] [0;1;2;3]) (-1) 1);
  (*4995*) Del (T 45);
  (*4996*) AddTo (T 219) (Plain (Einsum [(T 47,[0;1;2;3])] [0;1;2;3]));
  (*4997*) Del (T 47);
  (*4998*) AddTo (T 219) (Plain (Einsum [(T 52,[0;1;2;3])] [2;1;0;3]));
  (*4999*) Del (T 52);
  (*5000*) AddTo (T 219) (Plain (Einsum [(T 62,[0;1;2;3])] [1;0;2;3]));
  (*5001*) Del (T 62);
  (*5002*) AddTo (T 219) (Times (Einsum [(T 214,[0;1;2;3])] [1;2;0;3]) (-1) 1);
  (*5003*) Del (T 214);
  (*5004*) AddTo (T 219) (Times (Einsum [(T 216,[0;1;2;3])] [1;2;0;3]) (-1) 1);
  (*5005*) Del (T 216);
  (*5006*) AddTo (T 219) (Times (Einsum [(T 218,[0;1;2;3])] [0;1;2;3]) (-1) 1);
  (*5007*) Del (T 218);
  (*5008*) Assign (T 220) (Plain (Zeros [0;0;1;1]));
  (*5009*) AddTo (T 220) (Plain (Einsum [(n_t1,[0;1]); (T 219,[0;2;3;4])] [2;3;1;4]));
  (*5010*) Del (T 219);
  (*5011*) Assign (T 221) (Plain (Zeros [0;0]));
  (*5012*) AddTo (T 221) (Times (Einsum [(T 13,[0;1])] [0;1]) (8333333333333) 100000000000000);
  (*5013*) Del (T 13);
  (*5014*) AddTo (T 221) (Plain (Einsum [(T 71,[0;1])] [0;1]));
  (*5015*) Del (T 71);
  (*5016*) AddTo (T 221) (Plain (Einsum [(T 72,[0;1])] [0;1]));
  (*5017*) Del (T 72);
  (*5018*) AddTo (T 221) (Times (Einsum [(T 73,[0;1])] [1;0]) (-1) 1);
  (*5019*) Del (T 73);
  (*5020*) AddTo (T 221) (Plain (Einsum [(T 74,[0;1])] [0;1]));
  (*5021*) Del (T 74);
  (*5022*) Assign (T 222) (Plain (Zeros [0;0;1;1]));
  (*5023*) AddTo (T 222) (Plain (Einsum [(T 221,[0;1]); (n_t2,[2;0;3;4])] [2;1;4;3]));
  (*5024*) Del (T 221);
  (*5025*) Assign (T 223) (Plain (Zeros [0;0;0;1;1;1]));
  (*5026*) AddTo (T 223) (Times (Einsum [(n_l3,[0;1;2;3;4;5])] [3;5;4;0;2;1]) (-1) 1);
  (*5027*) AddTo (T 223) (Plain (Einsum [(n_l3,[0;1;2;3;4;5])] [3;5;4;0;1;2]));
  (*5028*) Assign (T 224) (Plain (Zeros [0;0;0;1]));
  (*5029*) AddTo (T 224) (Plain (Einsum [(n_t2,[0;1;2;3]); (T 223,[1;4;5;6;2;3])] [4;5;0;6]));
  (*5030*) Assign (T 225) (Plain (Zeros [0;0;0;0]));
  (*5031*) AddTo (T 225) (Times (Einsum [(n_t1,[0;1]); (T 224,[2;3;4;1])] [2;3;4;0]) (-1) 1);
  (*5032*) Del (T 224);
  (*5033*) Assign (T 226) (Plain (Zeros [0;0;1;1]));
  (*5034*) AddTo (T 226) (Times (Einsum [(n_t2,[0;1;2;3]); (T 225,[0;1;4;5])] [5;4;3;2]) (1) 2);
  (*5035*) Del (T 225);
  (*5036*) Assign (T 227) (Plain (Zeros [0;0;0;0]));
  (*5037*) AddTo (T 227) (Times (Einsum [(n_t1,[0;1]); (T 11,[2;3;4;1])] [0;3;2;4]) (3) 1);
  (*5038*) Assign (T 228) (Plain (Zeros [0;0;1;1]));
  (*5039*) AddTo (T 228) (Times (Einsum [(n_t2,[0;1;2;3]); (T 227,[4;0;1;5])] [4;5;2;3]) (1) 4);
  (*5040*) Del (T 227);
  (*5041*) Assign (T 229) (Plain (Zeros [0;1]));
  (*5042*) AddTo (T 229) (Times (Einsum [(T 43,[0;1;2;3;4;5]); (T 78,[0;1;2;5;4;6])] [3;6]) (8333333333333) 200000000000000);
  (*5043*) Del (T 78);
  (*5044*) Assign (T 230) (Plain (Zeros [0;1]));
  (*5045*) AddTo (T 230) (Times (Einsum [(T 43,[0;1;2;3;4;5]); (T 46,[2;0;1;6;5;4])] [3;6]) (8333333333333) 200000000000000);
  (*5046*) Assign (T 231) (Plain (Zeros [0;1]));
  (*5047*) AddTo (T 231) (Times (Einsum [(n_l2,[0;1;2;3]); (T 81,[2;3;4;1;0;5])] [4;5]) (1) 8);
  (*5048*) Del (T 81);
  (*5049*) Assign (T 232) (Plain (Zeros [0;1]));
  (*5050*) AddTo (T 232) (Times (Einsum [(n_l2,[0;1;2;3]); (T 83,[3;4;2;0;5;1])] [4;5]) (1) 4);
  (*5051*) Del (T 83);
  (*5052*) Assign (T 233) (Plain (Zeros [0;1]));
  (*5053*) AddTo (T 233) (Plain (Einsum [(n_t2,[0;1;2;3]); (T 88,[0;1;4;3])] [4;2]));
  (*5054*) Del (T 88);
  (*5055*) Assign (T 234) (Plain (Zeros [0;1]));
  (*5056*) AddTo (T 234) (Times (Einsum [(n_t2,[0;1;2;3]); (T 91,[0;1;4;2])] [4;3]) (1) 4);
  (*5057*) Del (T 91);
  (*5058*) Assign (T 235) (Plain (Zeros [0;1]));
  (*5059*) AddTo (T 235) (Times (Einsum [(n_l1,[0;1]); (T 93,[1;2;3;0])] [2;3]) (1) 2);
  (*5060*) Assign (T 236) (Plain (Zeros [0;1]));
  (*5061*) AddTo (T 236) (Times (Einsum [(n_t1,[0;1]); (T 75,[0;2])] [2;1]) (1) 2);
  (*5062*) Del (T 75);
  (*5063*) Assign (T 237) (Plain (Zeros [0;1]));
  (*5064*) AddTo (T 237) (Times (Einsum [(T 77,[0;1])] [0;1]) (24999999999999) 200000000000000);
  (*5065*) AddTo (T 237) (Plain (Einsum [(T 229,[0;1])] [0;1]));
  (*5066*) AddTo (T 237) (Times (Einsum [(T 230,[0;1])] [0;1]) (-1) 1);
  (*5067*) AddTo (T 237) (Times (Einsum [(T 231,[0;1])] [0;1]) (-1) 1);
  (*5068*) AddTo (T 237) (Plain (Einsum [(T 232,[0;1])] [0;1]));
  (*5069*) AddTo (T 237) (Plain (Einsum [(T 233,[0;1])] [0;1]));
  (*5070*) AddTo (T 237) (Plain (Einsum [(T 234,[0;1])] [0;1]));
  (*5071*) AddTo (T 237) (Times (Einsum [(T 235,[0;1])] [0;1]) (-1) 1);
  (*5072*) AddTo (T 237) (Plain (Einsum [(T 236,[0;1])] [0;1]));
  (*5073*) Del (T 236);
  (*5074*) Assign (T 238) (Plain (Zeros [0;0;1;1]));
  (*5075*) AddTo (T 238) (Plain (Einsum [(T 174,[0;1;2;3])] [0;1;2;3]));
  (*5076*) AddTo (T 238) (Times (Einsum [(T 176,[0;1;2;3])] [0;1;2;3]) (-8333333333333) 100000000000000);
  (*5077*) Del (T 176);
  (*5078*) AddTo (T 238) (Plain (Einsum [(T 178,[0;1;2;3])] [0;1;2;3]));
  (*5079*) AddTo (T 238) (Times (Einsum [(T 180,[0;1;2;3])] [0;1;2;3]) (-1) 1);
  (*5080*) Del (T 180);
  (*5081*) AddTo (T 238) (Plain (Einsum [(T 183,[0;1;2;3])] [1;0;2;3]));
  (*5082*) Del (T 183);
  (*5083*) AddTo (T 238) (Plain (Einsum [(T 196,[0;1;2;3])] [0;1;2;3]));
  (*5084*) AddTo (T 238) (Times (Einsum [(T 197,[0;1;2;3])] [1;0;2;3]) (-1) 1);
  (*5085*) Del (T 197);
  (*5086*) AddTo (T 238) (Times (Einsum [(T 203,[0;1;2;3])] [0;1;2;3]) (-1) 1);
  (*5087*) Del (T 203);
  (*5088*) AddTo (T 238) (Times (Einsum [(T 210,[0;1;2;3])] [1;0;2;3]) (-1) 1);
  (*5089*) AddTo (T 238) (Plain (Einsum [(T 212,[0;1;2;3])] [0;1;3;2]));
  (*5090*) Del (T 212);
  (*5091*) AddTo (T 238) (Plain (Einsum [(T 220,[0;1;2;3])] [0;1;2;3]));
  (*5092*) Del (T 220);
  (*5093*) AddTo (T 238) (Times (Einsum [(T 222,[0;1;2;3])] [0;1;3;2]) (-1) 1);
  (*5094*) AddTo (T 238) (Plain (Einsum [(T 226,[0;1;2;3])] [0;1;3;2]));
  (*5095*) Del (T 226);
  (*5096*) AddTo (T 238) (Plain (Einsum [(T 228,[0;1;2;3])] [0;1;2;3]));
  (*5097*) Del (T 228);
  (*5098*) AddTo (T 238) (Times (Einsum [(n_t1,[0;1]); (T 237,[2;3])] [0;2;1;3]) (-2) 1);
  (*5099*) Del (T 237);
  (*5100*) AddTo n_rdm2_f_oovv (Plain (Einsum [(T 238,[0;1;2;3])] [0;1;2;3]));
  (*5101*) AddTo n_rdm2_f_oovv (Times (Einsum [(T 238,[0;1;2;3])] [0;1;3;2]) (-1) 1);
  (*5102*) AddTo n_rdm2_f_oovv (Times (Einsum [(T 238,[0;1;2;3])] [1;0;2;3]) (-1) 1);
  (*5103*) AddTo n_rdm2_f_oovv (Plain (Einsum [(T 238,[0;1;2;3])] [1;0;3;2]));
  (*5104*) AddTo n_rdm2_f_oovv (Plain (Einsum [(T 238,[0;1;2;3])] [0;1;2;3]));
  (*5105*) AddTo n_rdm2_f_oovv (Times (Einsum [(T 238,[0;1;2;3])] [0;1;3;2]) (-1) 1);
  (*5106*) AddTo n_rdm2_f_oovv (Times (Einsum [(T 238,[0;1;2;3])] [1;0;2;3]) (-1) 1);
  (*5107*) AddTo n_rdm2_f_oovv (Plain (Einsum [(T 238,[0;1;2;3])] [1;0;3;2]));
  (*5108*) Del (T 238);
  (*5109*) Assign (T 239) (Plain (Zeros [0;0;0;1;1;1]));
  (*5110*) AddTo (T 239) (Times (Einsum [(n_t3,[0;1;2;3;4;5])] [0;2;1;3;5;4]) (-1) 1);
  (*5111*) AddTo (T 239) (Plain (Einsum [(n_t3,[0;1;2;3;4;5])] [0;1;2;3;5;4]));
  (*5112*) Assign (T 240) (Plain (Zeros [0;0;1;1]));
  (*5113*) AddTo (T 240) (Times (Einsum [(T 175,[0;1;2;3;4;5]); (T 239,[1;2;0;6;7;5])] [3;4;6;7]) (8333333333333) 100000000000000);
  (*5114*) Assign (T 241) (Plain (Zeros [0;0;1;1]));
  (*5115*) AddTo (T 241) (Times (Einsum [(n_t2,[0;1;2;3])] [0;1;3;2]) (5000000000000001) 1000000000000000);
  (*5116*) AddTo (T 241) (Times (Einsum [(n_t2,[0;1;2;3])] [0;1;2;3]) (-1) 1);
  (*5117*) Assign (T 242) (Plain (Zeros [0;0;0;1]));
  (*5118*) AddTo (T 242) (Times (Einsum [(T 241,[0;1;2;3]); (n_l3,[4;2;3;5;6;0])] [1;5;6;4]) (8333333333333333) 50000000000000000);
  (*5119*) Del (T 241);
  (*5120*) Assign (T 243) (Plain (Zeros [0;0;0;1]));
  (*5121*) AddTo (T 243) (Times (Einsum [(T 10,[0;1;2;3]); (n_l3,[4;2;3;5;0;6])] [5;6;1;4]) (1) 2);
  (*5122*) Assign (T 244) (Plain (Zeros [0;0;0;1]));
  (*5123*) AddTo (T 244) (Plain (Einsum [(T 24,[0;1;2;3])] [0;1;2;3]));
  (*5124*) AddTo (T 244) (Times (Einsum [(T 24,[0;1;2;3])] [1;0;2;3]) (-3333333333333333) 10000000000000000);
  (*5125*) AddTo (T 244) (Plain (Einsum [(T 242,[0;1;2;3])] [1;2;0;3]));
  (*5126*) Del (T 242);
  (*5127*) AddTo (T 244) (Times (Einsum [(T 243,[0;1;2;3])] [1;0;2;3]) (-1) 1);
  (*5128*) Del (T 243);
  (*5129*) Assign (T 245) (Plain (Zeros [0;0;1;1]));
  (*5130*) AddTo (T 245) (Times (Einsum [(T 244,[0;1;2;3]); (n_t3,[4;0;1;5;3;6])] [2;4;6;5]) (3) 2);
  (*5131*) Del (T 244);
  (*5132*) Assign (T 246) (Plain (Zeros [0;0;0;1;1;1]));
  (*5133*) AddTo (T 246) (Times (Einsum [(n_l3,[0;1;2;3;4;5])] [3;5;4;0;2;1]) (2) 1);
  (*5134*) AddTo (T 246) (Times (Einsum [(n_l3,[0;1;2;3;4;5])] [3;5;4;0;1;2]) (-1) 1);
  (*5135*) Assign (T 247) (Plain (Zeros [0;0;0;1]));
  (*5136*) AddTo (T 247) (Plain (Einsum [(T 7,[0;1;2;3]); (T 246,[0;4;5;3;2;6])] [4;5;1;6]));
  (*5137*) Del (T 246);
  (*5138*) Assign (T 248) (Plain (Zeros [0;0;1;1]));
  (*5139*) AddTo (T 248) (Times (Einsum [(T 247,[0;1;2;3]); (n_t3,[4;1;0;5;3;6])] [2;4;6;5]) (1) 4);
  (*5140*) Del (T 247);
  (*5141*) Assign (T 249) (Plain (Zeros [0;0;1;1]));
  (*5142*) AddTo (T 249) (Plain (Einsum [(T 7,[0;1;2;3]); (T 43,[1;4;0;5;2;6])] [4;5;6;3]));
  (*5143*) Assign (T 250) (Plain (Zeros [0;0;1;1]));
  (*5144*) AddTo (T 250) (Times (Einsum [(T 249,[0;1;2;3]); (T 33,[0;4;5;2])] [1;4;3;5]) (-1) 1);
  (*5145*) Assign (T 251) (Plain (Zeros [0;0;0;0;1;1]));
  (*5146*) AddTo (T 251) (Plain (Einsum [(T 43,[0;1;2;3;4;5])] [0;1;2;3;4;5]));
  (*5147*) AddTo (T 251) (Times (Einsum [(T 43,[0;1;2;3;4;5])] [1;0;2;3;4;5]) (-1) 1);
  (*5148*) Assign (T 252) (Plain (Zeros [0;0;1;1]));
  (*5149*) AddTo (T 252) (Plain (Einsum [(n_t2,[0;1;2;3]); (T 251,[0;1;4;5;3;6])] [4;5;6;2]));
  (*5150*) Assign (T 253) (Plain (Zeros [0;0;1;1]));
  (*5151*) AddTo (T 253) (Times (Einsum [(n_t2,[0;1;2;3]); (T 252,[1;4;2;5])] [4;0;5;3]) (-1) 2);
  (*5152*) Assign (T 254) (Plain (Zeros [0;0;1;1]));
  (*5153*) AddTo (T 254) (Times (Einsum [(T 240,[0;1;2;3])] [0;1;2;3]) (-1) 1);
  (*5154*) Del (T 240);
  (*5155*) AddTo (T 254) (Plain (Einsum [(T 245,[0;1;2;3])] [0;1;3;2]));
  (*5156*) Del (T 245);
  (*5157*) AddTo (T 254) (Plain (Einsum [(T 248,[0;1;2;3])] [0;1;3;2]));
  (*5158*) Del (T 248);
  (*5159*) AddTo (T 254) (Times (Einsum [(T 250,[0;1;2;3])] [0;1;3;2]) (-1) 1);
  (*5160*) Del (T 250);
  (*5161*) AddTo (T 254) (Times (Einsum [(T 253,[0;1;2;3])] [0;1;3;2]) (-1) 1);
  (*5162*) Del (T 253);
  (*5163*) AddTo n_rdm2_f_oovv (Plain (Einsum [(T 254,[0;1;2;3])] [0;1;2;3]));
  (*5164*) AddTo n_rdm2_f_oovv (Times (Einsum [(T 254,[0;1;2;3])] [1;0;2;3]) (-1) 1);
  (*5165*) AddTo n_rdm2_f_oovv (Plain (Einsum [(T 254,[0;1;2;3])] [0;1;2;3]));
  (*5166*) AddTo n_rdm2_f_oovv (Times (Einsum [(T 254,[0;1;2;3])] [1;0;2;3]) (-1) 1);
  (*5167*) Del (T 254);
  (*5168*) Assign (T 255) (Plain (Zeros [0;0;1;1]));
  (*5169*) AddTo (T 255) (Plain (Einsum [(n_l1,[0;1]); (n_t3,[2;3;1;4;5;0])] [2;3;4;5]));
  (*5170*) Assign (T 256) (Plain (Zeros [0;0;1;1]));
  (*5171*) AddTo (T 256) (Plain (Einsum [(n_t2,[0;1;2;3]); (T 25,[1;0;4;5])] [5;4;2;3]));
  (*5172*) AddTo n_rdm2_f_oovv (Plain (Einsum [(T 256,[0;1;2;3])] [0;1;2;3]));
  (*5173*) AddTo n_rdm2_f_oovv (Plain (Einsum [(T 256,[0;1;2;3])] [0;1;2;3]));
  (*5174*) Assign (T 257) (Plain (Zeros [0;0;0;0;0;1]));
  (*5175*) AddTo (T 257) (Plain (Einsum [(n_t2,[0;1;2;3]); (n_l3,[2;4;3;5;6;7])] [5;7;6;0;1;4]));
  (*5176*) Assign (T 258) (Plain (Zeros [0;0;1;1]));
  (*5177*) AddTo (T 258) (Plain (Einsum [(n_t3,[0;1;2;3;4;5]); (T 257,[2;0;1;6;7;4])] [6;7;5;3]));
  (*5178*) Del (T 257);
  (*5179*) Assign (T 259) (Plain (Zeros [0;1;1;1]));
  (*5180*) AddTo (T 259) (Plain (Einsum [(n_t2,[0;1;2;3]); (n_l3,[4;2;5;6;0;1])] [6;4;5;3]));
  (*5181*) Assign (T 260) (Plain (Zeros [0;0;1;1]));
  (*5182*) AddTo (T 260) (Plain (Einsum [(T 259,[0;1;2;3]); (n_t3,[4;0;5;2;6;1])] [4;5;3;6]));
  (*5183*) Assign (T 261) (Plain (Zeros [0;1;1;1]));
  (*5184*) AddTo (T 261) (Times (Einsum [(T 90,[0;1;2;3]); (n_l3,[4;5;2;6;0;1])] [6;4;5;3]) (6) 1);
  (*5185*) Del (T 90);
  (*5186*) Assign (T 262) (Plain (Zeros [0;1;1;1]));
  (*5187*) AddTo (T 262) (Times (Einsum [(T 259,[0;1;2;3])] [0;1;2;3]) (2) 1);
  (*5188*) AddTo (T 262) (Times (Einsum [(T 259,[0;1;2;3])] [0;2;1;3]) (-2) 1);
  (*5189*) AddTo (T 262) (Plain (Einsum [(T 261,[0;1;2;3])] [0;1;2;3]));
  (*5190*) Del (T 261);
  (*5191*) AddTo (T 262) (Plain (Einsum [(T 129,[0;1;2;3])] [0;2;3;1]));
  (*5192*) Assign (T 263) (Plain (Zeros [0;0;1;1]));
  (*5193*) AddTo (T 263) (Times (Einsum [(T 262,[0;1;2;3]); (n_t3,[4;0;5;2;1;6])] [4;5;3;6]) (1) 4);
  (*5194*) Del (T 262);
  (*5195*) Assign (T 264) (Plain (Zeros [0;1;1;1]));
  (*5196*) AddTo (T 264) (Plain (Einsum [(n_t2,[0;1;2;3]); (n_l3,[4;5;3;6;0;1])] [6;4;5;2]));
  (*5197*) Assign n_rdm2_f_vvov (Plain (Zeros [1;1;0;1]));
  (*5198*) AddTo n_rdm2_f_vvov (Plain (Einsum [(T 264,[0;1;2;3])] [1;2;0;3]));
  (*5199*) AddTo n_rdm2_f_vvov (Plain (Einsum [(T 264,[0;1;2;3])] [1;2;0;3]));
  (*5200*) Assign n_rdm2_f_vvvo (Plain (Zeros [1;1;1;0]));
  (*5201*) AddTo n_rdm2_f_vvvo (Plain (Einsum [(T 264,[0;1;2;3])] [2;1;3;0]));
  (*5202*) AddTo n_rdm2_f_vvvo (Plain (Einsum [(T 264,[0;1;2;3])] [2;1;3;0]));
  (*5203*) Assign (T 265) (Plain (Zeros [0;0;0;1;1;1]));
  (*5204*) AddTo (T 265) (Times (Einsum [(n_l3,[0;1;2;3;4;5])] [5;3;4;0;2;1]) (3) 2);
  (*5205*) AddTo (T 265) (Times (Einsum [(n_l3,[0;1;2;3;4;5])] [3;5;4;0;2;1]) (-3) 2);
  (*5206*) AddTo (T 265) (Plain (Einsum [(n_l3,[0;1;2;3;4;5])] [4;5;3;0;2;1]));
  (*5207*) Assign (T 266) (Plain (Zeros [0;1;1;1]));
  (*5208*) AddTo (T 266) (Times (Einsum [(n_t2,[0;1;2;3]); (T 265,[0;1;4;5;2;6])] [4;5;6;3]) (3333333333333333) 5000000000000000);
  (*5209*) Del (T 265);
  (*5210*) Assign (T 267) (Plain (Zeros [0;1;1;1]));
  (*5211*) AddTo (T 267) (Times (Einsum [(T 264,[0;1;2;3])] [0;1;2;3]) (-3333333333333333) 5000000000000000);
  (*5212*) AddTo (T 267) (Plain (Einsum [(T 266,[0;1;2;3])] [0;1;2;3]));
  (*5213*) Del (T 266);
  (*5214*) Assign (T 268) (Plain (Zeros [0;0;1;1]));
  (*5215*) AddTo (T 268) (Times (Einsum [(T 267,[0;1;2;3]); (n_t3,[4;0;5;1;2;6])] [4;5;3;6]) (3) 4);
  (*5216*) Del (T 267);
  (*5217*) Assign (T 269) (Plain (Zeros [0;0;0;1;1;1]));
  (*5218*) AddTo (T 269) (Times (Einsum [(n_l3,[0;1;2;3;4;5])] [5;3;4;0;2;1]) (1) 2);
  (*5219*) AddTo (T 269) (Times (Einsum [(n_l3,[0;1;2;3;4;5])] [3;5;4;0;2;1]) (-1) 2);
  (*5220*) AddTo (T 269) (Plain (Einsum [(n_l3,[0;1;2;3;4;5])] [4;5;3;0;2;1]));
  (*5221*) Assign (T 270) (Plain (Zeros [0;1;1;1]));
  (*5222*) AddTo (T 270) (Times (Einsum [(n_t2,[0;1;2;3]); (T 269,[0;1;4;5;2;6])] [4;5;6;3]) (2) 1);
  (*5223*) Del (T 269);
  (*5224*) Assign (T 271) (Plain (Zeros [0;1;1;1]));
  (*5225*) AddTo (T 271) (Times (Einsum [(T 264,[0;1;2;3])] [0;1;2;3]) (-2) 1);
  (*5226*) AddTo (T 271) (Plain (Einsum [(T 270,[0;1;2;3])] [0;1;2;3]));
  (*5227*) Del (T 270);
  (*5228*) Assign (T 272) (Plain (Zeros [0;0;1;1]));
  (*5229*) AddTo (T 272) (Times (Einsum [(T 271,[0;1;2;3]); (n_t3,[4;0;5;2;6;1])] [4;5;3;6]) (1) 4);
  (*5230*) Assign (T 273) (Plain (Zeros [0;0;1;1]));
  (*5231*) AddTo (T 273) (Plain (Einsum [(n_t2,[0;1;2;3]); (T 97,[1;4;3;5])] [0;4;2;5]));
  (*5232*) Assign (T 274) (Plain (Zeros [0;0;1;1]));
  (*5233*) AddTo (T 274) (Times (Einsum [(n_t2,[0;1;2;3]); (T 273,[4;1;5;3])] [4;0;5;2]) (4) 1);
  (*5234*) Del (T 273);
  (*5235*) Assign (T 275) (Plain (Zeros [0;0;1;1]));
  (*5236*) AddTo (T 275) (Plain (Einsum [(n_l2,[0;1;2;3])] [3;2;0;1]));
  (*5237*) AddTo (T 275) (Times (Einsum [(n_l2,[0;1;2;3])] [2;3;0;1]) (-1) 1);
  (*5238*) Assign (T 276) (Plain (Zeros [0;0;1;1]));
  (*5239*) AddTo (T 276) (Plain (Einsum [(n_t2,[0;1;2;3]); (T 275,[1;4;2;5])] [4;0;5;3]));
  (*5240*) Assign (T 277) (Plain (Zeros [0;0;1;1]));
  (*5241*) AddTo (T 277) (Times (Einsum [(n_t2,[0;1;2;3]); (T 276,[1;4;2;5])] [4;0;5;3]) (-1) 1);
  (*5242*) Del (T 276);
  (*5243*) Assign (T 278) (Plain (Zeros [0;0;0;0]));
  (*5244*) AddTo (T 278) (Plain (Einsum [(n_l3,[0;1;2;3;4;5]); (n_t3,[6;4;7;2;1;0])] [5;3;6;7]));
  (*5245*) Assign (T 279) (Plain (Zeros [0;0;0;0]));
  (*5246*) AddTo (T 279) (Plain (Einsum [(T 23,[0;1;2;3])] [1;0;3;2]));
  (*5247*) AddTo (T 279) (Times (Einsum [(T 278,[0;1;2;3])] [0;1;2;3]) (24999999999999) 100000000000000);
  (*5248*) Del (T 278);
  (*5249*) Assign (T 280) (Plain (Zeros [0;0;1;1]));
  (*5250*) AddTo (T 280) (Plain (Einsum [(n_t2,[0;1;2;3]); (T 279,[0;1;4;5])] [4;5;2;3]));
  (*5251*) Del (T 279);
  (*5252*) Assign (T 281) (Plain (Zeros [0;0;0;1]));
  (*5253*) AddTo (T 281) (Plain (Einsum [(n_t2,[0;1;2;3]); (T 99,[1;4;0;5;6;2])] [4;6;5;3]));
  (*5254*) Del (T 99);
  (*5255*) Assign (T 282) (Plain (Zeros [0;0;0;1]));
  (*5256*) AddTo (T 282) (Plain (Einsum [(T 97,[0;1;2;3]); (n_t3,[4;0;5;3;2;6])] [4;5;1;6]));
  (*5257*) Assign (T 283) (Plain (Zeros [0;0;0;1]));
  (*5258*) AddTo (T 283) (Times (Einsum [(n_t1,[0;1]); (T 26,[0;2;3;4])] [2;3;4;1]) (1) 2);
  (*5259*) Del (T 26);
  (*5260*) Assign (T 284) (Plain (Zeros [0;0;0;1]));
  (*5261*) AddTo (T 284) (Times (Einsum [(T 281,[0;1;2;3])] [0;1;2;3]) (1) 2);
  (*5262*) Del (T 281);
  (*5263*) AddTo (T 284) (Plain (Einsum [(T 282,[0;1;2;3])] [2;1;0;3]));
  (*5264*) Del (T 282);
  (*5265*) AddTo (T 284) (Plain (Einsum [(T 283,[0;1;2;3])] [0;2;1;3]));
  (*5266*) Del (T 283);
  (*5267*) Assign (T 285) (Plain (Zeros [0;0;1;1]));
  (*5268*) AddTo (T 285) (Times (Einsum [(n_t1,[0;1]); (T 284,[0;2;3;4])] [2;3;4;1]) (2) 1);
  (*5269*) Del (T 284);
  (*5270*) Assign (T 286) (Plain (Zeros [0;0;1;1]));
  (*5271*) AddTo (T 286) (Plain (Einsum [(T 255,[0;1;2;3])] [0;1;2;3]));
  (*5272*) AddTo (T 286) (Plain (Einsum [(T 256,[0;1;2;3])] [0;1;2;3]));
  (*5273*) Del (T 256);
  (*5274*) AddTo (T 286) (Times (Einsum [(T 258,[0;1;2;3])] [0;1;2;3]) (24999999999999) 100000000000000);
  (*5275*) Del (T 258);
  (*5276*) AddTo (T 286) (Times (Einsum [(T 260,[0;1;2;3])] [0;1;2;3]) (1) 2);
  (*5277*) Del (T 260);
  (*5278*) AddTo (T 286) (Plain (Einsum [(T 263,[0;1;2;3])] [1;0;2;3]));
  (*5279*) Del (T 263);
  (*5280*) AddTo (T 286) (Plain (Einsum [(T 268,[0;1;2;3])] [1;0;2;3]));
  (*5281*) Del (T 268);
  (*5282*) AddTo (T 286) (Plain (Einsum [(T 272,[0;1;2;3])] [1;0;2;3]));
  (*5283*) Del (T 272);
  (*5284*) AddTo (T 286) (Plain (Einsum [(T 274,[0;1;2;3])] [0;1;2;3]));
  (*5285*) Del (T 274);
  (*5286*) AddTo (T 286) (Plain (Einsum [(T 277,[0;1;2;3])] [1;0;3;2]));
  (*5287*) Del (T 277);
  (*5288*) AddTo (T 286) (Plain (Einsum [(T 280,[0;1;2;3])] [1;0;3;2]));
  (*5289*) Del (T 280);
  (*5290*) AddTo (T 286) (Plain (Einsum [(T 285,[0;1;2;3])] [0;1;3;2]));
  (*5291*) Del (T 285);
  (*5292*) AddTo n_rdm2_f_oovv (Plain (Einsum [(T 286,[0;1;2;3])] [0;1;2;3]));
  (*5293*) AddTo n_rdm2_f_oovv (Times (Einsum [(T 286,[0;1;2;3])] [0;1;3;2]) (-1) 1);
  (*5294*) AddTo n_rdm2_f_oovv (Plain (Einsum [(T 286,[0;1;2;3])] [0;1;2;3]));
  (*5295*) AddTo n_rdm2_f_oovv (Times (Einsum [(T 286,[0;1;2;3])] [0;1;3;2]) (-1) 1);
  (*5296*) Del (T 286);
  (*5297*) Assign (T 287) (Plain (Zeros [0;0;1;1]));
  (*5298*) AddTo (T 287) (Plain (Einsum [(n_t3,[0;1;2;3;4;5]); (T 175,[0;1;2;6;7;4])] [6;7;3;5]));
  (*5299*) Assign (T 288) (Plain (Zeros [0;0;0;0;1;1]));
  (*5300*) AddTo (T 288) (Plain (Einsum [(T 43,[0;1;2;3;4;5])] [0;1;2;3;4;5]));
  (*5301*) AddTo (T 288) (Times (Einsum [(T 43,[0;1;2;3;4;5])] [1;0;2;3;4;5]) (-1) 1);
  (*5302*) AddTo (T 288) (Times (Einsum [(T 43,[0;1;2;3;4;5])] [2;0;1;3;4;5]) (2) 1);
  (*5303*) Assign (T 289) (Plain (Zeros [0;0;1;1]));
  (*5304*) AddTo (T 289) (Times (Einsum [(n_t2,[0;1;2;3]); (T 288,[0;1;4;5;6;3])] [4;5;6;2]) (1) 2);
  (*5305*) Assign (T 290) (Plain (Zeros [0;0;1;1]));
  (*5306*) AddTo (T 290) (Plain (Einsum [(T 289,[0;1;2;3]); (T 7,[0;4;5;2])] [1;4;3;5]));
  (*5307*) Del (T 289);
  (*5308*) Assign (T 291) (Plain (Zeros [0;0;0;0]));
  (*5309*) AddTo (T 291) (Plain (Einsum [(n_t1,[0;1]); (T 11,[2;3;4;1])] [0;3;2;4]));
  (*5310*) Assign (T 292) (Plain (Zeros [0;0;0;1]));
  (*5311*) AddTo (T 292) (Times (Einsum [(n_t1,[0;1]); (T 291,[2;3;0;4])] [3;2;4;1]) (3) 1);
  (*5312*) Del (T 291);
  (*5313*) Assign (T 293) (Plain (Zeros [0;0;1;1]));
  (*5314*) AddTo (T 293) (Times (Einsum [(n_t1,[0;1]); (T 292,[0;2;3;4])] [2;3;4;1]) (1) 2);
  (*5315*) Del (T 292);
  (*5316*) Assign (T 294) (Plain (Zeros [0;0;1;1]));
  (*5317*) AddTo (T 294) (Times (Einsum [(T 287,[0;1;2;3])] [0;1;2;3]) (8333333333333) 100000000000000);
  (*5318*) Del (T 287);
  (*5319*) AddTo (T 294) (Times (Einsum [(T 290,[0;1;2;3])] [0;1;3;2]) (-1) 1);
  (*5320*) Del (T 290);
  (*5321*) AddTo (T 294) (Times (Einsum [(T 293,[0;1;2;3])] [0;1;3;2]) (-1) 1);
  (*5322*) Del (T 293);
  (*5323*) AddTo n_rdm2_f_oovv (Plain (Einsum [(T 294,[0;1;2;3])] [0;1;3;2]));
  (*5324*) AddTo n_rdm2_f_oovv (Times (Einsum [(T 294,[0;1;2;3])] [1;0;3;2]) (-1) 1);
  (*5325*) AddTo n_rdm2_f_oovv (Plain (Einsum [(T 294,[0;1;2;3])] [0;1;3;2]));
  (*5326*) AddTo n_rdm2_f_oovv (Times (Einsum [(T 294,[0;1;2;3])] [1;0;3;2]) (-1) 1);
  (*5327*) Del (T 294);
  (*5328*) Assign (T 295) (Plain (Zeros [0;0;1;1]));
  (*5329*) AddTo (T 295) (Plain (Einsum [(n_t3,[0;1;2;3;4;5]); (T 37,[0;1;2;6;7;3])] [6;7;5;4]));
  (*5330*) Assign (T 296) (Plain (Zeros [0;0;1;1]));
  (*5331*) AddTo (T 296) (Times (Einsum [(T 179,[0;1;2;3;4;5]); (T 37,[1;0;2;6;7;4])] [6;7;3;5]) (16666666666667) 100000000000000);
  (*5332*) Assign (T 297) (Plain (Zeros [0;0;0;1;1;1]));
  (*5333*) AddTo (T 297) (Plain (Einsum [(n_l3,[0;1;2;3;4;5])] [3;5;4;0;2;1]));
  (*5334*) AddTo (T 297) (Times (Einsum [(n_l3,[0;1;2;3;4;5])] [4;5;3;0;2;1]) (-1) 2);
  (*5335*) Assign (T 298) (Plain (Zeros [0;0;0;0]));
  (*5336*) AddTo (T 298) (Plain (Einsum [(T 297,[0;1;2;3;4;5]); (T 4,[0;6;7;5;4;3])] [1;2;6;7]));
  (*5337*) Del (T 4);
  (*5337*) Del (T 297);
  (*5338*) Assign (T 299) (Plain (Zeros [0;0;0;1;1;1]));
  (*5339*) AddTo (T 299) (Times (Einsum [(n_l3,[0;1;2;3;4;5])] [3;5;4;0;2;1]) (1) 2);
  (*5340*) AddTo (T 299) (Plain (Einsum [(n_l3,[0;1;2;3;4;5])] [4;3;5;0;2;1]));
  (*5341*) Assign (T 300) (Plain (Zeros [0;0;0;0]));
  (*5342*) AddTo (T 300) (Plain (Einsum [(n_t3,[0;1;2;3;4;5]); (T 299,[6;7;2;4;5;3])] [6;7;0;1]));
  (*5343*) Del (T 299);
  (*5344*) Assign (T 301) (Plain (Zeros [0;0;0;0]));
  (*5345*) AddTo (T 301) (Times (Einsum [(T 298,[0;1;2;3])] [0;1;2;3]) (-1) 1);
  (*5346*) Del (T 298);
  (*5347*) AddTo (T 301) (Plain (Einsum [(T 300,[0;1;2;3])] [1;0;2;3]));
  (*5348*) Del (T 300);
  (*5349*) Assign (T 302) (Plain (Zeros [0;0;1;1]));
  (*5350*) AddTo (T 302) (Times (Einsum [(n_t2,[0;1;2;3]); (T 301,[0;1;4;5])] [4;5;2;3]) (8333333333333) 50000000000000);
  (*5351*) Del (T 301);
  (*5352*) Assign (T 303) (Plain (Zeros [0;0;0;0;0;1]));
  (*5353*) AddTo (T 303) (Plain (Einsum [(T 37,[0;1;2;3;4;5])] [0;1;2;3;4;5]));
  (*5354*) AddTo (T 303) (Times (Einsum [(T 37,[0;1;2;3;4;5])] [0;2;1;3;4;5]) (-1) 2);
  (*5355*) AddTo (T 303) (Times (Einsum [(T 37,[0;1;2;3;4;5])] [1;2;0;3;4;5]) (1) 2);
  (*5356*) Assign (T 304) (Plain (Zeros [0;0;0;1]));
  (*5357*) AddTo (T 304) (Times (Einsum [(n_t2,[0;1;2;3]); (T 303,[0;4;1;5;6;3])] [4;5;6;2]) (149999999999997) 25000000000000);
  (*5358*) Del (T 303);
  (*5359*) Assign (T 305) (Plain (Zeros [0;0;0;1]));
  (*5360*) AddTo (T 305) (Plain (Einsum [(n_t1,[0;1]); (T 103,[2;0;3;4])] [2;3;4;1]));
  (*5361*) Del (T 103);
  (*5362*) Assign (T 306) (Plain (Zeros [0;0;0;1]));
  (*5363*) AddTo (T 306) (Times (Einsum [(T 38,[0;1;2;3])] [0;1;2;3]) (-149999999999997) 25000000000000);
  (*5364*) AddTo (T 306) (Plain (Einsum [(T 304,[0;1;2;3])] [0;1;2;3]));
  (*5365*) Del (T 304);
  (*5366*) AddTo (T 306) (Plain (Einsum [(T 305,[0;1;2;3])] [0;1;2;3]));
  (*5367*) Del (T 305);
  (*5368*) Assign (T 307) (Plain (Zeros [0;0;1;1]));
  (*5369*) AddTo (T 307) (Times (Einsum [(n_t1,[0;1]); (T 306,[0;2;3;4])] [2;3;4;1]) (16666666666667) 100000000000000);
  (*5370*) Del (T 306);
  (*5371*) Assign (T 308) (Plain (Zeros [0;0;1;1]));
  (*5372*) AddTo (T 308) (Times (Einsum [(n_t2,[0;1;2;3])] [0;1;2;3]) (-1) 1);
  (*5373*) AddTo (T 308) (Times (Einsum [(n_t1,[0;1]); (n_t1,[2;3])] [0;2;1;3]) (-1) 1);
  (*5374*) AddTo (T 308) (Times (Einsum [(T 295,[0;1;2;3])] [1;0;3;2]) (16666666666667) 100000000000000);
  (*5375*) Del (T 295);
  (*5376*) AddTo (T 308) (Times (Einsum [(T 296,[0;1;2;3])] [1;0;3;2]) (-1) 1);
  (*5377*) Del (T 296);
  (*5378*) AddTo (T 308) (Plain (Einsum [(T 302,[0;1;2;3])] [1;0;3;2]));
  (*5379*) Del (T 302);
  (*5380*) AddTo (T 308) (Plain (Einsum [(T 307,[0;1;2;3])] [1;0;2;3]));
  (*5381*) Del (T 307);
  (*5382*) AddTo n_rdm2_f_oovv (Plain (Einsum [(T 308,[0;1;2;3])] [0;1;3;2]));
  (*5383*) AddTo n_rdm2_f_oovv (Times (Einsum [(T 308,[0;1;2;3])] [0;1;2;3]) (-1) 1);
  (*5384*) AddTo n_rdm2_f_oovv (Plain (Einsum [(T 308,[0;1;2;3])] [0;1;3;2]));
  (*5385*) AddTo n_rdm2_f_oovv (Times (Einsum [(T 308,[0;1;2;3])] [0;1;2;3]) (-1) 1);
  (*5386*) Del (T 308);
  (*5387*) Assign (T 309) (Plain (Zeros [0;0;1;1]));
  (*5388*) AddTo (T 309) (Times (Einsum [(n_t2,[0;1;2;3]); (T 252,[1;4;3;5])] [4;0;5;2]) (-1) 1);
  (*5389*) AddTo n_rdm2_f_oovv (Plain (Einsum [(T 309,[0;1;2;3])] [0;1;3;2]));
  (*5390*) AddTo n_rdm2_f_oovv (Times (Einsum [(T 309,[0;1;2;3])] [0;1;2;3]) (-1) 2);
  (*5391*) AddTo n_rdm2_f_oovv (Times (Einsum [(T 309,[0;1;2;3])] [1;0;3;2]) (-1) 1);
  (*5392*) AddTo n_rdm2_f_oovv (Times (Einsum [(T 309,[0;1;2;3])] [1;0;2;3]) (1) 2);
  (*5393*) AddTo n_rdm2_f_oovv (Plain (Einsum [(T 309,[0;1;2;3])] [0;1;3;2]));
  (*5394*) AddTo n_rdm2_f_oovv (Times (Einsum [(T 309,[0;1;2;3])] [0;1;2;3]) (-1) 2);
  (*5395*) AddTo n_rdm2_f_oovv (Times (Einsum [(T 309,[0;1;2;3])] [1;0;3;2]) (-1) 1);
  (*5396*) AddTo n_rdm2_f_oovv (Times (Einsum [(T 309,[0;1;2;3])] [1;0;2;3]) (1) 2);
  (*5397*) Del (T 309);
  (*5398*) Assign (T 310) (Plain (Zeros [0;0;1;1]));
  (*5399*) AddTo (T 310) (Plain (Einsum [(n_t2,[0;1;2;3]); (T 43,[1;4;0;5;6;2])] [4;5;6;3]));
  (*5400*) Assign (T 311) (Plain (Zeros [0;0;1;1]));
  (*5401*) AddTo (T 311) (Plain (Einsum [(T 310,[0;1;2;3]); (T 33,[0;4;5;2])] [4;1;5;3]));
  (*5402*) AddTo n_rdm2_f_oovv (Plain (Einsum [(T 311,[0;1;2;3])] [1;0;2;3]));
  (*5403*) AddTo n_rdm2_f_oovv (Times (Einsum [(T 311,[0;1;2;3])] [1;0;3;2]) (-2) 1);
  (*5404*) AddTo n_rdm2_f_oovv (Times (Einsum [(T 311,[0;1;2;3])] [0;1;2;3]) (-1) 1);
  (*5405*) AddTo n_rdm2_f_oovv (Times (Einsum [(T 311,[0;1;2;3])] [0;1;3;2]) (2) 1);
  (*5406*) AddTo n_rdm2_f_oovv (Plain (Einsum [(T 311,[0;1;2;3])] [1;0;2;3]));
  (*5407*) AddTo n_rdm2_f_oovv (Times (Einsum [(T 311,[0;1;2;3])] [1;0;3;2]) (-2) 1);
  (*5408*) AddTo n_rdm2_f_oovv (Times (Einsum [(T 311,[0;1;2;3])] [0;1;2;3]) (-1) 1);
  (*5409*) AddTo n_rdm2_f_oovv (Times (Einsum [(T 311,[0;1;2;3])] [0;1;3;2]) (2) 1);
  (*5410*) Del (T 311);
  (*5411*) Assign (T 312) (Plain (Zeros [0;0;0;1;1;1]));
  (*5412*) AddTo (T 312) (Plain (Einsum [(n_l3,[0;1;2;3;4;5])] [3;5;4;0;2;1]));
  (*5413*) AddTo (T 312) (Times (Einsum [(n_l3,[0;1;2;3;4;5])] [3;5;4;1;0;2]) (3333333333333333) 10000000000000000);
  (*5414*) Assign (T 313) (Plain (Zeros [0;0;0;0;1;1]));
  (*5415*) AddTo (T 313) (Times (Einsum [(n_t1,[0;1]); (T 312,[2;3;4;1;5;6])] [0;2;3;4;5;6]) (3) 1);
  (*5416*) Del (T 312);
  (*5417*) Assign (T 314) (Plain (Zeros [0;0;0;0;0;1]));
  (*5418*) AddTo (T 314) (Times (Einsum [(n_t1,[0;1]); (T 313,[2;3;4;5;1;6])] [0;4;3;5;2;6]) (3333333333333333) 10000000000000000);
  (*5419*) Del (T 313);
  (*5420*) Assign (T 315) (Plain (Zeros [0;0;1;1]));
  (*5421*) AddTo (T 315) (Times (Einsum [(n_t3,[0;1;2;3;4;5]); (T 314,[6;0;2;1;7;4])] [6;7;5;3]) (50000000000001) 100000000000000);
  (*5422*) Del (T 314);
  (*5423*) AddTo n_rdm2_f_oovv (Plain (Einsum [(T 315,[0;1;2;3])] [1;0;2;3]));
  (*5424*) AddTo n_rdm2_f_oovv (Plain (Einsum [(T 315,[0;1;2;3])] [1;0;2;3]));
  (*5425*) Del (T 315);
  (*5426*) Assign (T 316) (Plain (Zeros [0;0;0;1;1;1]));
  (*5427*) AddTo (T 316) (Times (Einsum [(n_t3,[0;1;2;3;4;5])] [0;2;1;3;5;4]) (-1) 1);
  (*5428*) AddTo (T 316) (Plain (Einsum [(n_t3,[0;1;2;3;4;5])] [1;0;2;5;3;4]));
  (*5429*) Assign (T 317) (Plain (Zeros [0;0;1;1]));
  (*5430*) AddTo (T 317) (Plain (Einsum [(n_l1,[0;1]); (T 316,[2;3;1;4;5;0])] [2;3;4;5]));
  (*5431*) AddTo n_rdm2_f_oovv (Times (Einsum [(T 317,[0;1;2;3])] [1;0;3;2]) (-1) 1);
  (*5432*) AddTo n_rdm2_f_oovv (Times (Einsum [(T 317,[0;1;2;3])] [1;0;3;2]) (-1) 1);
  (*5433*) Del (T 317);
  (*5434*) Assign (T 318) (Plain (Zeros [0;0;0;1;1;1]));
  (*5435*) AddTo (T 318) (Plain (Einsum [(n_t3,[0;1;2;3;4;5])] [0;2;1;3;5;4]));
  (*5436*) AddTo (T 318) (Times (Einsum [(n_t3,[0;1;2;3;4;5])] [0;2;1;4;5;3]) (-1) 1);
  (*5437*) Assign (T 319) (Plain (Zeros [0;0;0;0]));
  (*5438*) AddTo (T 319) (Plain (Einsum [(n_l3,[0;1;2;3;4;5]); (T 318,[4;6;7;1;2;0])] [3;5;6;7]));
  (*5439*) Assign (T 320) (Plain (Zeros [0;0;0;0]));
  (*5440*) AddTo (T 320) (Times (Einsum [(T 319,[0;1;2;3])] [1;0;2;3]) (-1) 1);
  (*5441*) Del (T 319);
  (*5442*) AddTo (T 320) (Plain (Einsum [(T 105,[0;1;2;3])] [1;0;2;3]));
  (*5443*) Del (T 105);
  (*5444*) Assign (T 321) (Plain (Zeros [0;0;0;1]));
  (*5445*) AddTo (T 321) (Plain (Einsum [(n_t1,[0;1]); (T 320,[0;2;3;4])] [2;3;4;1]));
  (*5446*) Del (T 320);
  (*5447*) Assign (T 322) (Plain (Zeros [0;0;1;1]));
  (*5448*) AddTo (T 322) (Times (Einsum [(n_t1,[0;1]); (T 321,[0;2;3;4])] [2;3;1;4]) (16666666666667) 100000000000000);
  (*5449*) Del (T 321);
  (*5450*) AddTo n_rdm2_f_oovv (Times (Einsum [(T 322,[0;1;2;3])] [1;0;2;3]) (-1) 1);
  (*5451*) AddTo n_rdm2_f_oovv (Times (Einsum [(T 322,[0;1;2;3])] [1;0;2;3]) (-1) 1);
  (*5452*) Del (T 322);
  (*5453*) Assign (T 323) (Plain (Zeros [0;0;1;1]));
  (*5454*) AddTo (T 323) (Plain (Einsum [(n_t2,[0;1;2;3]); (T 43,[4;0;1;5;2;6])] [4;5;6;3]));
  (*5455*) Assign (T 324) (Plain (Zeros [0;0;1;1]));
  (*5456*) AddTo (T 324) (Plain (Einsum [(n_t2,[0;1;2;3]); (T 323,[1;4;2;5])] [4;0;3;5]));
  (*5457*) Del (T 323);
  (*5458*) AddTo n_rdm2_f_oovv (Times (Einsum [(T 324,[0;1;2;3])] [0;1;2;3]) (-1) 1);
  (*5459*) AddTo n_rdm2_f_oovv (Times (Einsum [(T 324,[0;1;2;3])] [0;1;2;3]) (-1) 1);
  (*5460*) Del (T 324);
  (*5461*) Assign (T 325) (Plain (Zeros [0;0;1;1]));
  (*5462*) AddTo (T 325) (Plain (Einsum [(n_l2,[0;1;2;3]); (n_t2,[4;3;1;5])] [2;4;0;5]));
  (*5463*) Assign (T 326) (Plain (Zeros [0;0;1;1]));
  (*5464*) AddTo (T 326) (Plain (Einsum [(n_t2,[0;1;2;3]); (T 325,[1;4;2;5])] [4;0;5;3]));
  (*5465*) Del (T 325);
  (*5466*) AddTo n_rdm2_f_oovv (Plain (Einsum [(T 326,[0;1;2;3])] [0;1;2;3]));
  (*5467*) AddTo n_rdm2_f_oovv (Plain (Einsum [(T 326,[0;1;2;3])] [0;1;2;3]));
  (*5468*) Del (T 326);
  (*5469*) Assign (T 327) (Plain (Zeros [0;0;0;1]));
  (*5470*) AddTo (T 327) (Plain (Einsum [(n_t1,[0;1]); (T 25,[0;2;3;4])] [2;4;3;1]));
  (*5471*) Del (T 25);
  (*5472*) Assign (T 328) (Plain (Zeros [0;0;1;1]));
  (*5473*) AddTo (T 328) (Plain (Einsum [(n_t1,[0;1]); (T 327,[0;2;3;4])] [2;3;1;4]));
  (*5474*) Del (T 327);
  (*5475*) AddTo n_rdm2_f_oovv (Plain (Einsum [(T 328,[0;1;2;3])] [0;1;2;3]));
  (*5476*) AddTo n_rdm2_f_oovv (Plain (Einsum [(T 328,[0;1;2;3])] [0;1;2;3]));
  (*5477*) Del (T 328);
  (*5478*) Assign (T 329) (Plain (Zeros [0;1]));
  (*5479*) AddTo (T 329) (Plain (Einsum [(n_t1,[0;1]); (T 2,[0;2])] [2;1]));
  (*5480*) Del (T 2);
  (*5481*) AddTo n_rdm2_f_oovv (Times (Einsum [(n_t1,[0;1]); (T 329,[2;3])] [0;2;1;3]) (-1) 1);
  (*5482*) AddTo n_rdm2_f_oovv (Times (Einsum [(n_t1,[0;1]); (T 329,[2;3])] [0;2;1;3]) (-1) 1);
  (*5483*) Assign (T 330) (Plain (Zeros [0;0;1;1]));
  (*5484*) AddTo (T 330) (Plain (Einsum [(n_t2,[0;1;2;3]); (T 29,[0;1;4;5])] [4;5;2;3]));
  (*5485*) Assign (T 331) (Plain (Zeros [0;0;1;1]));
  (*5486*) AddTo (T 331) (Plain (Einsum [(T 259,[0;1;2;3]); (n_t3,[4;5;0;2;6;1])] [4;5;3;6]));
  (*5487*) Assign (T 332) (Plain (Zeros [0;0;0;1]));
  (*5488*) AddTo (T 332) (Plain (Einsum [(n_t2,[0;1;2;3]); (n_l3,[4;2;3;1;5;6])] [6;5;0;4]));
  (*5489*) Assign (T 333) (Plain (Zeros [0;0;0;0]));
  (*5490*) AddTo (T 333) (Plain (Einsum [(n_t1,[0;1]); (T 332,[2;3;4;1])] [2;3;0;4]));
  (*5491*) Assign (T 334) (Plain (Zeros [0;0;1;1]));
  (*5492*) AddTo (T 334) (Plain (Einsum [(n_t2,[0;1;2;3]); (T 333,[1;0;4;5])] [4;5;3;2]));
  (*5493*) Del (T 333);
  (*5494*) Assign (T 335) (Plain (Zeros [0;0;1;1]));
  (*5495*) AddTo (T 335) (Times (Einsum [(T 271,[0;1;2;3]); (n_t3,[4;5;0;1;6;2])] [4;5;3;6]) (1) 4);
  (*5496*) Assign (T 336) (Plain (Zeros [0;0;0;0;0;1]));
  (*5497*) AddTo (T 336) (Plain (Einsum [(T 175,[0;1;2;3;4;5])] [0;1;2;3;4;5]));
  (*5498*) Del (T 175);
  (*5499*) AddTo (T 336) (Times (Einsum [(T 37,[0;1;2;3;4;5])] [0;1;2;3;4;5]) (5000000000000301) 5000000000000000);
  (*5500*) Del (T 37);
  (*5501*) Assign (T 337) (Plain (Zeros [0;0;1;1]));
  (*5502*) AddTo (T 337) (Times (Einsum [(n_t3,[0;1;2;3;4;5]); (T 336,[0;2;1;6;7;3])] [6;7;5;4]) (12499999999999499) 25000000000000000);
  (*5503*) Del (T 336);
  (*5504*) Assign (T 338) (Plain (Zeros [0;0;0;1]));
  (*5505*) AddTo (T 338) (Plain (Einsum [(T 24,[0;1;2;3])] [0;1;2;3]));
  (*5506*) AddTo (T 338) (Times (Einsum [(T 24,[0;1;2;3])] [1;0;2;3]) (-1) 1);
  (*5507*) AddTo (T 338) (Times (Einsum [(T 169,[0;1;2;3])] [0;1;2;3]) (-1) 1);
  (*5508*) Del (T 169);
  (*5509*) AddTo (T 338) (Plain (Einsum [(T 124,[0;1;2;3])] [1;0;2;3]));
  (*5510*) Del (T 124);
  (*5511*) Assign (T 339) (Plain (Zeros [0;0;1;1]));
  (*5512*) AddTo (T 339) (Times (Einsum [(T 338,[0;1;2;3]); (n_t3,[0;4;1;3;5;6])] [2;4;6;5]) (1) 2);
  (*5513*) Del (T 338);
  (*5514*) Assign (T 340) (Plain (Zeros [0;0;1;1]));
  (*5515*) AddTo (T 340) (Times (Einsum [(T 8,[0;1;2;3]); (n_t3,[0;4;1;5;6;3])] [4;2;5;6]) (-1) 4);
  (*5516*) Del (T 8);
  (*5517*) Assign (T 341) (Plain (Zeros [0;0;1;1]));
  (*5518*) AddTo (T 341) (Plain (Einsum [(n_l3,[0;1;2;3;4;5]); (n_t3,[6;3;5;7;0;2])] [4;6;1;7]));
  (*5519*) Assign (T 342) (Plain (Zeros [0;0;0;1;1;1]));
  (*5520*) AddTo (T 342) (Plain (Einsum [(n_t3,[0;1;2;3;4;5])] [0;2;1;3;5;4]));
  (*5521*) AddTo (T 342) (Times (Einsum [(n_t3,[0;1;2;3;4;5])] [0;1;2;5;4;3]) (-1) 4);
  (*5522*) AddTo (T 342) (Times (Einsum [(n_t3,[0;1;2;3;4;5])] [0;1;2;3;4;5]) (1) 4);
  (*5523*) Assign (T 343) (Plain (Zeros [0;0;1;1]));
  (*5524*) AddTo (T 343) (Plain (Einsum [(n_l3,[0;1;2;3;4;5]); (T 342,[4;6;5;1;7;2])] [6;3;7;0]));
  (*5525*) Del (T 342);
  (*5526*) AddTo n_rdm2_f_ovvo (Plain (Einsum [(T 343,[0;1;2;3])] [0;3;2;1]));
  (*5527*) AddTo n_rdm2_f_ovvo (Plain (Einsum [(T 343,[0;1;2;3])] [0;3;2;1]));
  (*5528*) Assign (T 344) (Plain (Zeros [0;0;1;1]));
  (*5529*) AddTo (T 344) (Times (Einsum [(n_l3,[0;1;2;3;4;5]); (T 189,[3;6;5;0;2;7])] [4;6;1;7]) (1) 4);
  (*5530*) Del (T 189);
  (*5531*) Assign (T 345) (Plain (Zeros [0;0;1;1]));
  (*5532*) AddTo (T 345) (Times (Einsum [(T 184,[0;1;2;3])] [0;1;2;3]) (1) 4);
  (*5533*) AddTo (T 345) (Times (Einsum [(T 341,[0;1;2;3])] [0;1;2;3]) (1) 4);
  (*5534*) Del (T 341);
  (*5535*) AddTo (T 345) (Plain (Einsum [(T 343,[0;1;2;3])] [1;0;3;2]));
  (*5536*) Del (T 343);
  (*5537*) AddTo (T 345) (Times (Einsum [(T 344,[0;1;2;3])] [0;1;2;3]) (-1) 1);
  (*5538*) Del (T 344);
  (*5539*) Assign (T 346) (Plain (Zeros [0;0;1;1]));
  (*5540*) AddTo (T 346) (Plain (Einsum [(n_t2,[0;1;2;3]); (T 345,[1;4;2;5])] [4;0;5;3]));
  (*5541*) Del (T 345);
  (*5542*) Assign (T 347) (Plain (Zeros [0;0;1;1]));
  (*5543*) AddTo (T 347) (Plain (Einsum [(n_t2,[0;1;2;3]); (T 144,[0;1;4;5;6;2])] [4;5;3;6]));
  (*5544*) Assign (T 348) (Plain (Zeros [0;0;1;1]));
  (*5545*) AddTo (T 348) (Times (Einsum [(n_t2,[0;1;2;3]); (T 347,[1;4;5;2])] [4;0;5;3]) (-1) 2);
  (*5546*) Del (T 347);
  (*5547*) Assign (T 349) (Plain (Zeros [0;0;0;1]));
  (*5548*) AddTo (T 349) (Plain (Einsum [(n_t2,[0;1;2;3]); (T 24,[4;1;5;3])] [4;5;0;2]));
  (*5549*) Assign (T 350) (Plain (Zeros [0;0;0;1;1;1]));
  (*5550*) AddTo (T 350) (Times (Einsum [(n_t3,[0;1;2;3;4;5])] [0;2;1;3;5;4]) (4) 1);
  (*5551*) AddTo (T 350) (Times (Einsum [(n_t3,[0;1;2;3;4;5])] [0;1;2;5;4;3]) (-1) 1);
  (*5552*) AddTo (T 350) (Plain (Einsum [(n_t3,[0;1;2;3;4;5])] [0;1;2;3;4;5]));
  (*5553*) Assign (T 351) (Plain (Zeros [0;0;0;1]));
  (*5554*) AddTo (T 351) (Times (Einsum [(T 350,[0;1;2;3;4;5]); (T 43,[2;6;0;7;5;3])] [1;6;7;4]) (1) 2);
  (*5555*) Assign (T 352) (Plain (Zeros [0;0;0;0;1;1]));
  (*5556*) AddTo (T 352) (Times (Einsum [(T 36,[0;1;2;3;4;5])] [0;1;2;3;4;5]) (-1) 1);
  (*5557*) AddTo (T 352) (Plain (Einsum [(T 36,[0;1;2;3;4;5])] [0;1;2;3;5;4]));
  (*5558*) Assign (T 353) (Plain (Zeros [0;0;0;1]));
  (*5559*) AddTo (T 353) (Times (Einsum [(n_t3,[0;1;2;3;4;5]); (T 352,[1;2;6;7;4;5])] [6;7;0;3]) (1) 2);
  (*5560*) Del (T 352);
  (*5561*) Assign (T 354) (Plain (Zeros [0;0;0;1]));
  (*5562*) AddTo (T 354) (Plain (Einsum [(n_l2,[0;1;2;3]); (T 146,[2;4;5;0;1;6])] [3;4;5;6]));
  (*5563*) Del (T 146);
  (*5564*) Assign (T 355) (Plain (Zeros [0;0;0;1]));
  (*5565*) AddTo (T 355) (Times (Einsum [(n_t2,[0;1;2;3]); (T 134,[1;4;5;6;3;2])] [0;4;5;6]) (2) 1);
  (*5566*) Del (T 134);
  (*5567*) Assign (T 356) (Plain (Zeros [0;0;0;1]));
  (*5568*) AddTo (T 356) (Plain (Einsum [(T 133,[0;1;2;3])] [1;0;2;3]));
  (*5569*) Del (T 133);
  (*5570*) AddTo (T 356) (Plain (Einsum [(T 355,[0;1;2;3])] [1;2;0;3]));
  (*5571*) Del (T 355);
  (*5572*) Assign (T 357) (Plain (Zeros [0;0;0;1]));
  (*5573*) AddTo (T 357) (Plain (Einsum [(n_t2,[0;1;2;3]); (T 356,[4;1;5;2])] [4;5;0;3]));
  (*5574*) Del (T 356);
  (*5575*) Assign (T 358) (Plain (Zeros [0;0;1;1]));
  (*5576*) AddTo (T 358) (Times (Einsum [(n_t2,[0;1;2;3])] [0;1;3;2]) (-1) 1);
  (*5577*) AddTo (T 358) (Times (Einsum [(n_t2,[0;1;2;3])] [0;1;2;3]) (2) 1);
  (*5578*) Assign (T 359) (Plain (Zeros [0;0;0;1]));
  (*5579*) AddTo (T 359) (Times (Einsum [(T 24,[0;1;2;3]); (T 358,[0;4;3;5])] [4;1;2;5]) (2) 1);
  (*5580*) Assign (T 360) (Plain (Zeros [0;0;0;0]));
  (*5581*) AddTo (T 360) (Plain (Einsum [(T 29,[0;1;2;3])] [0;1;2;3]));
  (*5582*) Del (T 29);
  (*5583*) AddTo (T 360) (Times (Einsum [(T 31,[0;1;2;3])] [0;1;2;3]) (49999999999999) 25000000000000);
  (*5584*) Del (T 31);
  (*5585*) Assign (T 361) (Plain (Zeros [0;0;0;1]));
  (*5586*) AddTo (T 361) (Times (Einsum [(n_t1,[0;1]); (T 360,[2;0;3;4])] [2;3;4;1]) (50000000000001) 50000000000000);
  (*5587*) Del (T 360);
  (*5588*) Assign (T 362) (Plain (Zeros [0;0;0;1]));
  (*5589*) AddTo (T 362) (Times (Einsum [(T 349,[0;1;2;3])] [0;1;2;3]) (2) 1);
  (*5590*) Del (T 349);
  (*5591*) AddTo (T 362) (Times (Einsum [(T 141,[0;1;2;3])] [0;1;2;3]) (1) 2);
  (*5592*) Del (T 141);
  (*5593*) AddTo (T 362) (Times (Einsum [(T 114,[0;1;2;3])] [0;1;2;3]) (-2) 1);
  (*5594*) Del (T 114);
  (*5595*) AddTo (T 362) (Times (Einsum [(T 112,[0;1;2;3])] [0;1;2;3]) (-1) 2);
  (*5596*) Del (T 112);
  (*5597*) AddTo (T 362) (Times (Einsum [(T 38,[0;1;2;3])] [0;1;2;3]) (2) 1);
  (*5598*) Del (T 38);
  (*5599*) AddTo (T 362) (Times (Einsum [(T 351,[0;1;2;3])] [1;2;0;3]) (-1) 1);
  (*5600*) Del (T 351);
  (*5601*) AddTo (T 362) (Plain (Einsum [(T 353,[0;1;2;3])] [0;1;2;3]));
  (*5602*) Del (T 353);
  (*5603*) AddTo (T 362) (Times (Einsum [(T 354,[0;1;2;3])] [0;1;2;3]) (-1) 1);
  (*5604*) Del (T 354);
  (*5605*) AddTo (T 362) (Times (Einsum [(T 357,[0;1;2;3])] [0;2;1;3]) (-1) 1);
  (*5606*) Del (T 357);
  (*5607*) AddTo (T 362) (Times (Einsum [(T 359,[0;1;2;3])] [1;2;0;3]) (-1) 1);
  (*5608*) Del (T 359);
  (*5609*) AddTo (T 362) (Plain (Einsum [(T 361,[0;1;2;3])] [0;1;2;3]));
  (*5610*) Del (T 361);
  (*5611*) Assign (T 363) (Plain (Zeros [0;0;1;1]));
  (*5612*) AddTo (T 363) (Times (Einsum [(n_t1,[0;1]); (T 362,[0;2;3;4])] [2;3;4;1]) (1) 2);
  (*5613*) Del (T 362);
  (*5614*) Assign (T 364) (Plain (Zeros [0;1]));
  (*5615*) AddTo (T 364) (Plain (Einsum [(n_t1,[0;1]); (T 22,[0;2])] [2;1]));
  (*5616*) Del (T 22);
  (*5617*) Assign (T 365) (Plain (Zeros [0;1]));
  (*5618*) AddTo (T 365) (Times (Einsum [(T 77,[0;1])] [0;1]) (24999999999999) 200000000000000);
  (*5619*) Del (T 77);
  (*5620*) AddTo (T 365) (Plain (Einsum [(T 229,[0;1])] [0;1]));
  (*5621*) Del (T 229);
  (*5622*) AddTo (T 365) (Times (Einsum [(T 230,[0;1])] [0;1]) (-1) 1);
  (*5623*) Del (T 230);
  (*5624*) AddTo (T 365) (Times (Einsum [(T 231,[0;1])] [0;1]) (-1) 1);
  (*5625*) Del (T 231);
  (*5626*) AddTo (T 365) (Plain (Einsum [(T 232,[0;1])] [0;1]));
  (*5627*) Del (T 232);
  (*5628*) AddTo (T 365) (Plain (Einsum [(T 233,[0;1])] [0;1]));
  (*5629*) Del (T 233);
  (*5630*) AddTo (T 365) (Plain (Einsum [(T 234,[0;1])] [0;1]));
  (*5631*) Del (T 234);
  (*5632*) AddTo (T 365) (Times (Einsum [(T 235,[0;1])] [0;1]) (-1) 1);
  (*5633*) Del (T 235);
  (*5634*) AddTo (T 365) (Plain (Einsum [(T 364,[0;1])] [0;1]));
  (*5635*) Del (T 364);
  (*5636*) Assign (T 366) (Plain (Zeros [0;0;1;1]));
  (*5637*) AddTo (T 366) (Plain (Einsum [(T 255,[0;1;2;3])] [0;1;2;3]));
  (*5638*) Del (T 255);
  (*5639*) AddTo (T 366) (Times (Einsum [(T 330,[0;1;2;3])] [0;1;2;3]) (12499999999999499) 25000000000000000);
  (*5640*) Del (T 330);
  (*5641*) AddTo (T 366) (Times (Einsum [(T 331,[0;1;2;3])] [0;1;2;3]) (-1) 2);
  (*5642*) Del (T 331);
  (*5643*) AddTo (T 366) (Times (Einsum [(T 334,[0;1;2;3])] [0;1;2;3]) (-1) 1);
  (*5644*) Del (T 334);
  (*5645*) AddTo (T 366) (Times (Einsum [(T 335,[0;1;2;3])] [0;1;2;3]) (-1) 1);
  (*5646*) Del (T 335);
  (*5647*) AddTo (T 366) (Plain (Einsum [(T 337,[0;1;2;3])] [0;1;2;3]));
  (*5648*) Del (T 337);
  (*5649*) AddTo (T 366) (Times (Einsum [(T 339,[0;1;2;3])] [0;1;2;3]) (-1) 1);
  (*5650*) Del (T 339);
  (*5651*) AddTo (T 366) (Plain (Einsum [(T 196,[0;1;2;3])] [0;1;2;3]));
  (*5652*) Del (T 196);
  (*5653*) AddTo (T 366) (Times (Einsum [(T 340,[0;1;2;3])] [1;0;2;3]) (-1) 1);
  (*5654*) Del (T 340);
  (*5655*) AddTo (T 366) (Times (Einsum [(T 346,[0;1;2;3])] [1;0;3;2]) (-1) 1);
  (*5656*) Del (T 346);
  (*5657*) AddTo (T 366) (Times (Einsum [(T 210,[0;1;2;3])] [1;0;2;3]) (-1) 1);
  (*5658*) Del (T 210);
  (*5659*) AddTo (T 366) (Plain (Einsum [(T 348,[0;1;2;3])] [0;1;3;2]));
  (*5660*) Del (T 348);
  (*5661*) AddTo (T 366) (Plain (Einsum [(T 363,[0;1;2;3])] [0;1;3;2]));
  (*5662*) Del (T 363);
  (*5663*) AddTo (T 366) (Times (Einsum [(T 222,[0;1;2;3])] [0;1;3;2]) (-1) 1);
  (*5664*) Del (T 222);
  (*5665*) AddTo (T 366) (Times (Einsum [(n_t1,[0;1]); (T 365,[2;3])] [0;2;1;3]) (-2) 1);
  (*5666*) Del (T 365);
  (*5667*) AddTo n_rdm2_f_oovv (Plain (Einsum [(T 366,[0;1;2;3])] [0;1;2;3]));
  (*5668*) AddTo n_rdm2_f_oovv (Plain (Einsum [(T 366,[0;1;2;3])] [1;0;3;2]));
  (*5669*) AddTo n_rdm2_f_oovv (Plain (Einsum [(T 366,[0;1;2;3])] [0;1;2;3]));
  (*5670*) AddTo n_rdm2_f_oovv (Plain (Einsum [(T 366,[0;1;2;3])] [1;0;3;2]));
  (*5671*) Del (T 366);
  (*5672*) Assign (T 367) (Plain (Zeros [0;0;1;1]));
  (*5673*) AddTo (T 367) (Plain (Einsum [(T 30,[0;1;2;3]); (n_t3,[4;1;0;5;6;3])] [2;4;5;6]));
  (*5674*) Assign (T 368) (Plain (Zeros [0;0;1;1]));
  (*5675*) AddTo (T 368) (Plain (Einsum [(T 264,[0;1;2;3]); (n_t3,[4;5;0;6;2;1])] [4;5;3;6]));
  (*5676*) Assign (T 369) (Plain (Zeros [0;0;1;1]));
  (*5677*) AddTo (T 369) (Times (Einsum [(T 129,[0;1;2;3]); (n_t3,[4;5;0;6;2;3])] [4;5;6;1]) (-1) 2);
  (*5678*) Assign (T 370) (Plain (Zeros [0;0;0;1]));
  (*5679*) AddTo (T 370) (Plain (Einsum [(T 24,[0;1;2;3])] [1;0;2;3]));
  (*5680*) AddTo (T 370) (Times (Einsum [(T 125,[0;1;2;3])] [0;1;2;3]) (-1) 1);
  (*5681*) Del (T 125);
  (*5682*) Assign (T 371) (Plain (Zeros [0;0;1;1]));
  (*5683*) AddTo (T 371) (Plain (Einsum [(T 370,[0;1;2;3]); (n_t3,[4;0;1;5;6;3])] [2;4;5;6]));
  (*5684*) Del (T 370);
  (*5685*) Assign (T 372) (Plain (Zeros [0;0;1;1]));
  (*5686*) AddTo (T 372) (Times (Einsum [(n_t2,[0;1;2;3]); (T 251,[0;1;4;5;3;6])] [4;5;6;2]) (1) 2);
  (*5687*) Assign (T 373) (Plain (Zeros [0;0;1;1]));
  (*5688*) AddTo (T 373) (Plain (Einsum [(T 177,[0;1;2;3])] [0;1;2;3]));
  (*5689*) AddTo (T 373) (Times (Einsum [(T 372,[0;1;2;3])] [0;1;2;3]) (-1) 1);
  (*5690*) Del (T 372);
  (*5691*) Assign (T 374) (Plain (Zeros [0;0;1;1]));
  (*5692*) AddTo (T 374) (Plain (Einsum [(n_t2,[0;1;2;3]); (T 373,[1;4;2;5])] [4;0;5;3]));
  (*5693*) Del (T 373);
  (*5694*) Assign (T 375) (Plain (Zeros [0;0;1;1]));
  (*5695*) AddTo (T 375) (Plain (Einsum [(n_l3,[0;1;2;3;4;5]); (n_t3,[5;6;3;2;1;7])] [4;6;0;7]));
  (*5696*) AddTo n_rdm2_f_ovov (Times (Einsum [(T 375,[0;1;2;3])] [1;2;0;3]) (-1) 2);
  (*5697*) AddTo n_rdm2_f_ovov (Times (Einsum [(T 375,[0;1;2;3])] [1;2;0;3]) (-1) 2);
  (*5698*) AddTo n_rdm2_f_vovo (Times (Einsum [(T 375,[0;1;2;3])] [2;1;3;0]) (-1) 2);
  (*5699*) AddTo n_rdm2_f_vovo (Times (Einsum [(T 375,[0;1;2;3])] [2;1;3;0]) (-1) 2);
  (*5700*) Assign (T 376) (Plain (Zeros [0;0;1;1]));
  (*5701*) AddTo (T 376) (Plain (Einsum [(n_l3,[0;1;2;3;4;5]); (n_t3,[6;4;5;0;7;2])] [3;6;1;7]));
  (*5702*) AddTo n_rdm2_f_ovov (Times (Einsum [(T 376,[0;1;2;3])] [1;2;0;3]) (-1) 2);
  (*5703*) AddTo n_rdm2_f_ovov (Times (Einsum [(T 376,[0;1;2;3])] [1;2;0;3]) (-1) 2);
  (*5704*) AddTo n_rdm2_f_vovo (Times (Einsum [(T 376,[0;1;2;3])] [2;1;3;0]) (-1) 2);
  (*5705*) AddTo n_rdm2_f_vovo (Times (Einsum [(T 376,[0;1;2;3])] [2;1;3;0]) (-1) 2);
  (*5706*) Assign (T 377) (Plain (Zeros [0;0;1;1]));
  (*5707*) AddTo (T 377) (Plain (Einsum [(T 375,[0;1;2;3])] [0;1;2;3]));
  (*5708*) AddTo (T 377) (Plain (Einsum [(T 376,[0;1;2;3])] [0;1;2;3]));
  (*5709*) Assign (T 378) (Plain (Zeros [0;0;1;1]));
  (*5710*) AddTo (T 378) (Times (Einsum [(n_t2,[0;1;2;3]); (T 377,[1;4;2;5])] [4;0;5;3]) (1) 2);
  (*5711*) Del (T 377);
  (*5712*) Assign (T 379) (Plain (Zeros [0;0;0;1]));
  (*5713*) AddTo (T 379) (Times (Einsum [(T 10,[0;1;2;3]); (n_l3,[4;2;3;5;0;6])] [6;5;1;4]) (3) 1);
  (*5714*) Del (T 10);
  (*5715*) Assign (T 380) (Plain (Zeros [0;0;0;1]));
  (*5716*) AddTo (T 380) (Plain (Einsum [(T 30,[0;1;2;3])] [0;1;2;3]));
  (*5717*) AddTo (T 380) (Times (Einsum [(T 30,[0;1;2;3])] [1;0;2;3]) (-3) 1);
  (*5718*) AddTo (T 380) (Times (Einsum [(T 54,[0;1;2;3])] [0;1;2;3]) (-1) 1);
  (*5719*) AddTo (T 380) (Plain (Einsum [(T 54,[0;1;2;3])] [1;0;2;3]));
  (*5720*) Del (T 54);
  (*5721*) AddTo (T 380) (Plain (Einsum [(T 379,[0;1;2;3])] [1;0;2;3]));
  (*5722*) AddTo (T 380) (Times (Einsum [(T 60,[0;1;2;3])] [0;1;2;3]) (-1) 1);
  (*5723*) Assign (T 381) (Plain (Zeros [0;0;1;1]));
  (*5724*) AddTo (T 381) (Plain (Einsum [(n_t1,[0;1]); (T 380,[0;2;3;4])] [2;3;4;1]));
  (*5725*) Del (T 380);
  (*5726*) Assign (T 382) (Plain (Zeros [0;0;1;1]));
  (*5727*) AddTo (T 382) (Times (Einsum [(n_t2,[0;1;2;3]); (T 381,[1;4;3;5])] [4;0;5;2]) (1) 2);
  (*5728*) Del (T 381);
  (*5729*) Assign (T 383) (Plain (Zeros [0;0;0;1]));
  (*5730*) AddTo (T 383) (Plain (Einsum [(n_t2,[0;1;2;3]); (T 24,[4;1;5;2])] [4;5;0;3]));
  (*5731*) Assign (T 384) (Plain (Zeros [0;0;0;1]));
  (*5732*) AddTo (T 384) (Times (Einsum [(n_t2,[0;1;2;3]); (T 121,[0;1;4;5;6;2])] [4;5;6;3]) (1) 2);
  (*5733*) Del (T 121);
  (*5734*) Assign (T 385) (Plain (Zeros [0;0;0;1]));
  (*5735*) AddTo (T 385) (Times (Einsum [(T 30,[0;1;2;3])] [0;1;2;3]) (2) 1);
  (*5736*) Del (T 30);
  (*5737*) AddTo (T 385) (Plain (Einsum [(T 60,[0;1;2;3])] [1;0;2;3]));
  (*5738*) Del (T 60);
  (*5739*) Assign (T 386) (Plain (Zeros [0;0;0;1]));
  (*5740*) AddTo (T 386) (Times (Einsum [(n_t2,[0;1;2;3]); (T 385,[1;4;5;2])] [4;5;0;3]) (1) 2);
  (*5741*) Del (T 385);
  (*5742*) Assign (T 387) (Plain (Zeros [0;0;0;0]));
  (*5743*) AddTo (T 387) (Times (Einsum [(n_t1,[0;1]); (T 34,[2;3;4;1])] [0;2;3;4]) (-1) 1);
  (*5744*) Assign (T 388) (Plain (Zeros [0;0;0;1]));
  (*5745*) AddTo (T 388) (Times (Einsum [(n_t1,[0;1]); (T 387,[2;3;0;4])] [3;2;4;1]) (1) 2);
  (*5746*) Assign (T 389) (Plain (Zeros [0;0;0;1]));
  (*5747*) AddTo (T 389) (Times (Einsum [(T 39,[0;1;2;3])] [0;1;2;3]) (-1) 1);
  (*5748*) Del (T 39);
  (*5749*) AddTo (T 389) (Times (Einsum [(T 109,[0;1;2;3])] [0;1;2;3]) (-1) 1);
  (*5750*) Del (T 109);
  (*5751*) AddTo (T 389) (Plain (Einsum [(T 383,[0;1;2;3])] [0;1;2;3]));
  (*5752*) Del (T 383);
  (*5753*) AddTo (T 389) (Times (Einsum [(T 111,[0;1;2;3])] [0;1;2;3]) (1) 2);
  (*5754*) Del (T 111);
  (*5755*) AddTo (T 389) (Times (Einsum [(T 110,[0;1;2;3])] [0;1;2;3]) (1) 2);
  (*5756*) Del (T 110);
  (*5757*) AddTo (T 389) (Times (Einsum [(T 384,[0;1;2;3])] [0;1;2;3]) (-1) 1);
  (*5758*) Del (T 384);
  (*5759*) AddTo (T 389) (Plain (Einsum [(T 150,[0;1;2;3])] [2;1;0;3]));
  (*5760*) Del (T 150);
  (*5761*) AddTo (T 389) (Plain (Einsum [(T 386,[0;1;2;3])] [0;2;1;3]));
  (*5762*) Del (T 386);
  (*5763*) AddTo (T 389) (Plain (Einsum [(T 388,[0;1;2;3])] [0;1;2;3]));
  (*5764*) Del (T 388);
  (*5765*) Assign (T 390) (Plain (Zeros [0;0;1;1]));
  (*5766*) AddTo (T 390) (Plain (Einsum [(n_t1,[0;1]); (T 389,[0;2;3;4])] [2;3;4;1]));
  (*5767*) Del (T 389);
  (*5768*) Assign (T 391) (Plain (Zeros [0;0;1;1]));
  (*5769*) AddTo (T 391) (Times (Einsum [(n_t2,[0;1;2;3]); (T 387,[4;0;1;5])] [4;5;3;2]) (1) 2);
  (*5770*) Del (T 387);
  (*5771*) Assign (T 392) (Plain (Zeros [0;0;1;1]));
  (*5772*) AddTo (T 392) (Plain (Einsum [(T 174,[0;1;2;3])] [0;1;2;3]));
  (*5773*) Del (T 174);
  (*5774*) AddTo (T 392) (Plain (Einsum [(T 367,[0;1;2;3])] [0;1;2;3]));
  (*5775*) Del (T 367);
  (*5776*) AddTo (T 392) (Plain (Einsum [(T 368,[0;1;2;3])] [0;1;2;3]));
  (*5777*) Del (T 368);
  (*5778*) AddTo (T 392) (Plain (Einsum [(T 178,[0;1;2;3])] [0;1;2;3]));
  (*5779*) Del (T 178);
  (*5780*) AddTo (T 392) (Plain (Einsum [(T 369,[0;1;2;3])] [0;1;3;2]));
  (*5781*) Del (T 369);
  (*5782*) AddTo (T 392) (Plain (Einsum [(T 371,[0;1;2;3])] [0;1;2;3]));
  (*5783*) Del (T 371);
  (*5784*) AddTo (T 392) (Times (Einsum [(T 374,[0;1;2;3])] [0;1;3;2]) (-1) 1);
  (*5785*) Del (T 374);
  (*5786*) AddTo (T 392) (Times (Einsum [(T 378,[0;1;2;3])] [1;0;3;2]) (-1) 1);
  (*5787*) Del (T 378);
  (*5788*) AddTo (T 392) (Times (Einsum [(T 382,[0;1;2;3])] [1;0;2;3]) (-1) 1);
  (*5789*) Del (T 382);
  (*5790*) AddTo (T 392) (Times (Einsum [(T 390,[0;1;2;3])] [0;1;3;2]) (-1) 1);
  (*5791*) Del (T 390);
  (*5792*) AddTo (T 392) (Times (Einsum [(T 391,[0;1;2;3])] [0;1;3;2]) (-1) 1);
  (*5793*) Del (T 391);
  (*5794*) AddTo n_rdm2_f_oovv (Times (Einsum [(T 392,[0;1;2;3])] [0;1;3;2]) (-1) 1);
  (*5795*) AddTo n_rdm2_f_oovv (Times (Einsum [(T 392,[0;1;2;3])] [1;0;2;3]) (-1) 1);
  (*5796*) AddTo n_rdm2_f_oovv (Times (Einsum [(T 392,[0;1;2;3])] [0;1;3;2]) (-1) 1);
  (*5797*) AddTo n_rdm2_f_oovv (Times (Einsum [(T 392,[0;1;2;3])] [1;0;2;3]) (-1) 1);
  (*5798*) Del (T 392);
  (*5799*) Assign (T 393) (Plain (Zeros [0;0;1;1]));
  (*5800*) AddTo (T 393) (Times (Einsum [(n_t2,[0;1;2;3]); (T 252,[1;4;3;5])] [4;0;5;2]) (-1) 2);
  (*5801*) Del (T 252);
  (*5802*) AddTo n_rdm2_f_oovv (Times (Einsum [(T 393,[0;1;2;3])] [0;1;2;3]) (-1) 1);
  (*5803*) AddTo n_rdm2_f_oovv (Times (Einsum [(T 393,[0;1;2;3])] [1;0;3;2]) (-2) 1);
  (*5804*) AddTo n_rdm2_f_oovv (Times (Einsum [(T 393,[0;1;2;3])] [0;1;2;3]) (-1) 1);
  (*5805*) AddTo n_rdm2_f_oovv (Times (Einsum [(T 393,[0;1;2;3])] [1;0;3;2]) (-2) 1);
  (*5806*) Del (T 393);
  (*5807*) Assign (T 394) (Plain (Zeros [0;0;1;1]));
  (*5808*) AddTo (T 394) (Plain (Einsum [(n_t2,[0;1;2;3]); (T 310,[1;4;3;5])] [4;0;2;5]));
  (*5809*) Del (T 310);
  (*5810*) AddTo n_rdm2_f_oovv (Times (Einsum [(T 394,[0;1;2;3])] [0;1;3;2]) (2) 1);
  (*5811*) AddTo n_rdm2_f_oovv (Plain (Einsum [(T 394,[0;1;2;3])] [1;0;2;3]));
  (*5812*) AddTo n_rdm2_f_oovv (Times (Einsum [(T 394,[0;1;2;3])] [0;1;3;2]) (2) 1);
  (*5813*) AddTo n_rdm2_f_oovv (Plain (Einsum [(T 394,[0;1;2;3])] [1;0;2;3]));
  (*5814*) Del (T 394);
  (*5815*) Assign (T 395) (Plain (Zeros [0;0;1;1]));
  (*5816*) AddTo (T 395) (Times (Einsum [(n_t2,[0;1;2;3]); (T 288,[0;1;4;5;6;3])] [4;5;6;2]) (1) 4);
  (*5817*) Del (T 288);
  (*5818*) Assign (T 396) (Plain (Zeros [0;0;1;1]));
  (*5819*) AddTo (T 396) (Plain (Einsum [(n_t2,[0;1;2;3]); (T 193,[1;4;3;5])] [0;4;2;5]));
  (*5820*) Del (T 193);
  (*5821*) Assign (T 397) (Plain (Zeros [0;0;1;1]));
  (*5822*) AddTo (T 397) (Plain (Einsum [(T 395,[0;1;2;3])] [0;1;2;3]));
  (*5823*) Del (T 395);
  (*5824*) AddTo (T 397) (Times (Einsum [(T 396,[0;1;2;3])] [1;0;3;2]) (-1) 1);
  (*5825*) Del (T 396);
  (*5826*) Assign (T 398) (Plain (Zeros [0;0;1;1]));
  (*5827*) AddTo (T 398) (Times (Einsum [(n_t2,[0;1;2;3]); (T 397,[1;4;3;5])] [4;0;5;2]) (2) 1);
  (*5828*) Del (T 397);
  (*5829*) AddTo n_rdm2_f_oovv (Times (Einsum [(T 398,[0;1;2;3])] [0;1;2;3]) (-1) 1);
  (*5830*) AddTo n_rdm2_f_oovv (Times (Einsum [(T 398,[0;1;2;3])] [0;1;2;3]) (-1) 1);
  (*5831*) Del (T 398);
  (*5832*) Assign (T 399) (Plain (Zeros [0;0;1;1]));
  (*5833*) AddTo (T 399) (Times (Einsum [(n_t2,[0;1;2;3]); (T 249,[1;4;3;5])] [4;0;5;2]) (-1) 1);
  (*5834*) Del (T 249);
  (*5835*) AddTo n_rdm2_f_oovv (Times (Einsum [(T 399,[0;1;2;3])] [1;0;3;2]) (-1) 1);
  (*5836*) AddTo n_rdm2_f_oovv (Times (Einsum [(T 399,[0;1;2;3])] [1;0;3;2]) (-1) 1);
  (*5837*) Del (T 399);
  (*5838*) Assign (T 400) (Plain (Zeros [0;0;1;1]));
  (*5839*) AddTo (T 400) (Plain (Einsum [(n_l2,[0;1;2;3]); (n_t2,[4;2;1;5])] [3;4;0;5]));
  (*5840*) AddTo n_rdm2_f_ovov (Times (Einsum [(T 400,[0;1;2;3])] [1;2;0;3]) (-1) 1);
  (*5841*) AddTo n_rdm2_f_ovov (Times (Einsum [(T 400,[0;1;2;3])] [1;2;0;3]) (-1) 1);
  (*5842*) AddTo n_rdm2_f_vovo (Times (Einsum [(T 400,[0;1;2;3])] [2;1;3;0]) (-1) 1);
  (*5843*) AddTo n_rdm2_f_vovo (Times (Einsum [(T 400,[0;1;2;3])] [2;1;3;0]) (-1) 1);
  (*5844*) Assign (T 401) (Plain (Zeros [0;0;1;1]));
  (*5845*) AddTo (T 401) (Plain (Einsum [(n_t2,[0;1;2;3]); (T 43,[0;4;1;5;2;6])] [4;5;6;3]));
  (*5846*) AddTo n_rdm2_f_ovov (Times (Einsum [(T 401,[0;1;2;3])] [1;2;0;3]) (-1) 1);
  (*5847*) AddTo n_rdm2_f_ovov (Times (Einsum [(T 401,[0;1;2;3])] [1;2;0;3]) (-1) 1);
  (*5848*) AddTo n_rdm2_f_vovo (Times (Einsum [(T 401,[0;1;2;3])] [2;1;3;0]) (-1) 1);
  (*5849*) AddTo n_rdm2_f_vovo (Times (Einsum [(T 401,[0;1;2;3])] [2;1;3;0]) (-1) 1);
  (*5850*) Assign (T 402) (Plain (Zeros [0;0;1;1]));
  (*5851*) AddTo (T 402) (Plain (Einsum [(T 400,[0;1;2;3])] [0;1;2;3]));
  (*5852*) AddTo (T 402) (Plain (Einsum [(T 401,[0;1;2;3])] [0;1;2;3]));
  (*5853*) Assign (T 403) (Plain (Zeros [0;0;1;1]));
  (*5854*) AddTo (T 403) (Plain (Einsum [(n_t2,[0;1;2;3]); (T 402,[1;4;2;5])] [4;0;5;3]));
  (*5855*) Del (T 402);
  (*5856*) AddTo n_rdm2_f_oovv (Plain (Einsum [(T 403,[0;1;2;3])] [1;0;2;3]));
  (*5857*) AddTo n_rdm2_f_oovv (Plain (Einsum [(T 403,[0;1;2;3])] [1;0;2;3]));
  (*5858*) Del (T 403);
  (*5859*) Assign (T 404) (Plain (Zeros [0;0;1;1]));
  (*5860*) AddTo (T 404) (Plain (Einsum [(n_t2,[0;1;2;3])] [0;1;2;3]));
  (*5861*) AddTo (T 404) (Plain (Einsum [(n_t1,[0;1]); (n_t1,[2;3])] [0;2;1;3]));
  (*5862*) Assign (T 405) (Plain (Zeros [0;0;1;1]));
  (*5863*) AddTo (T 405) (Plain (Einsum [(T 23,[0;1;2;3]); (T 404,[0;1;4;5])] [2;3;4;5]));
  (*5864*) Del (T 23);
  (*5864*) Del (T 404);
  (*5865*) AddTo n_rdm2_f_oovv (Plain (Einsum [(T 405,[0;1;2;3])] [1;0;3;2]));
  (*5866*) AddTo n_rdm2_f_oovv (Plain (Einsum [(T 405,[0;1;2;3])] [1;0;3;2]));
  (*5867*) Del (T 405);
  (*5868*) Assign (T 406) (Plain (Zeros [0;1]));
  (*5869*) AddTo (T 406) (Plain (Einsum [(n_t1,[0;1])] [0;1]));
  (*5870*) AddTo (T 406) (Times (Einsum [(T 329,[0;1])] [0;1]) (-1) 1);
  (*5871*) Del (T 329);
  (*5872*) AddTo n_rdm2_f_oovv (Plain (Einsum [(n_t1,[0;1]); (T 406,[2;3])] [2;0;3;1]));
  (*5873*) AddTo n_rdm2_f_oovv (Plain (Einsum [(n_t1,[0;1]); (T 406,[2;3])] [2;0;3;1]));
  (*5874*) Del (T 406);
  (*5875*) Assign (T 407) (Plain (Zeros [0;0;1;1]));
  (*5876*) AddTo (T 407) (Plain (Einsum [(n_l3,[0;1;2;3;4;5]); (n_t3,[6;5;4;1;7;2])] [3;6;0;7]));
  (*5877*) AddTo n_rdm2_f_ovov (Times (Einsum [(T 407,[0;1;2;3])] [1;2;0;3]) (-1) 4);
  (*5878*) AddTo n_rdm2_f_ovov (Times (Einsum [(T 407,[0;1;2;3])] [1;2;0;3]) (-1) 4);
  (*5879*) AddTo n_rdm2_f_voov (Times (Einsum [(T 407,[0;1;2;3])] [2;1;0;3]) (1) 4);
  (*5880*) AddTo n_rdm2_f_voov (Times (Einsum [(T 407,[0;1;2;3])] [2;1;0;3]) (1) 4);
  (*5881*) Del (T 407);
  (*5882*) Assign (T 408) (Plain (Zeros [0;0;0;1;1;1]));
  (*5883*) AddTo (T 408) (Times (Einsum [(n_t3,[0;1;2;3;4;5])] [0;2;1;3;5;4]) (1) 5);
  (*5884*) AddTo (T 408) (Times (Einsum [(n_t3,[0;1;2;3;4;5])] [0;2;1;4;5;3]) (-1) 5);
  (*5885*) AddTo (T 408) (Times (Einsum [(n_t3,[0;1;2;3;4;5])] [1;0;2;5;3;4]) (-1) 5);
  (*5886*) AddTo (T 408) (Plain (Einsum [(n_t3,[0;1;2;3;4;5])] [1;0;2;4;3;5]));
  (*5887*) Assign (T 409) (Plain (Zeros [0;0;1;1]));
  (*5888*) AddTo (T 409) (Times (Einsum [(n_l3,[0;1;2;3;4;5]); (T 408,[4;6;5;1;7;2])] [6;3;7;0]) (5) 4);
  (*5889*) Del (T 408);
  (*5890*) AddTo n_rdm2_f_ovov (Times (Einsum [(T 409,[0;1;2;3])] [0;3;1;2]) (-1) 1);
  (*5891*) AddTo n_rdm2_f_ovov (Times (Einsum [(T 409,[0;1;2;3])] [0;3;1;2]) (-1) 1);
  (*5892*) Del (T 409);
  (*5893*) Assign (T 410) (Plain (Zeros [0;0;0;1;1;1]));
  (*5894*) AddTo (T 410) (Times (Einsum [(n_l3,[0;1;2;3;4;5])] [3;5;4;0;2;1]) (-1) 1);
  (*5895*) AddTo (T 410) (Plain (Einsum [(n_l3,[0;1;2;3;4;5])] [3;4;5;0;2;1]));
  (*5896*) Assign (T 411) (Plain (Zeros [0;0;1;1]));
  (*5897*) AddTo (T 411) (Times (Einsum [(n_t3,[0;1;2;3;4;5]); (T 410,[2;1;6;5;7;3])] [6;0;7;4]) (1) 4);
  (*5898*) Del (T 410);
  (*5899*) AddTo n_rdm2_f_ovov (Plain (Einsum [(T 411,[0;1;2;3])] [1;2;0;3]));
  (*5900*) AddTo n_rdm2_f_ovov (Plain (Einsum [(T 411,[0;1;2;3])] [1;2;0;3]));
  (*5901*) Del (T 411);
  (*5902*) Assign (T 412) (Plain (Zeros [0;0;1;1]));
  (*5903*) AddTo (T 412) (Times (Einsum [(n_l3,[0;1;2;3;4;5]); (T 318,[5;6;3;1;7;2])] [4;6;0;7]) (1) 4);
  (*5904*) AddTo n_rdm2_f_ovov (Times (Einsum [(T 412,[0;1;2;3])] [1;2;0;3]) (-1) 1);
  (*5905*) AddTo n_rdm2_f_ovov (Times (Einsum [(T 412,[0;1;2;3])] [1;2;0;3]) (-1) 1);
  (*5906*) AddTo n_rdm2_f_ovvo (Plain (Einsum [(T 412,[0;1;2;3])] [1;2;3;0]));
  (*5907*) AddTo n_rdm2_f_ovvo (Plain (Einsum [(T 412,[0;1;2;3])] [1;2;3;0]));
  (*5908*) Del (T 412);
  (*5909*) Assign (T 413) (Plain (Zeros [0;0;1;1]));
  (*5910*) AddTo (T 413) (Times (Einsum [(n_t2,[0;1;2;3]); (T 251,[0;1;4;5;6;2])] [4;5;6;3]) (1) 2);
  (*5911*) AddTo n_rdm2_f_ovov (Times (Einsum [(T 413,[0;1;2;3])] [1;2;0;3]) (-1) 1);
  (*5912*) AddTo n_rdm2_f_ovov (Times (Einsum [(T 413,[0;1;2;3])] [1;2;0;3]) (-1) 1);
  (*5913*) AddTo n_rdm2_f_vovo (Times (Einsum [(T 413,[0;1;2;3])] [2;1;3;0]) (-1) 1);
  (*5914*) AddTo n_rdm2_f_vovo (Times (Einsum [(T 413,[0;1;2;3])] [2;1;3;0]) (-1) 1);
  (*5915*) Del (T 413);
  (*5916*) Assign (T 414) (Plain (Zeros [0;0;0;0;1;1]));
  (*5917*) AddTo (T 414) (Times (Einsum [(T 43,[0;1;2;3;4;5])] [0;1;2;3;4;5]) (2) 1);
  (*5918*) AddTo (T 414) (Times (Einsum [(T 43,[0;1;2;3;4;5])] [0;2;1;3;4;5]) (-1) 1);
  (*5919*) Assign (T 415) (Plain (Zeros [0;0;1;1]));
  (*5920*) AddTo (T 415) (Plain (Einsum [(n_t2,[0;1;2;3]); (T 414,[4;0;1;5;6;3])] [4;5;6;2]));
  (*5921*) Del (T 414);
  (*5922*) AddTo n_rdm2_f_ovov (Plain (Einsum [(T 415,[0;1;2;3])] [1;2;0;3]));
  (*5923*) AddTo n_rdm2_f_ovov (Plain (Einsum [(T 415,[0;1;2;3])] [1;2;0;3]));
  (*5924*) AddTo n_rdm2_f_ovvo (Times (Einsum [(T 415,[0;1;2;3])] [1;2;3;0]) (-1) 1);
  (*5925*) AddTo n_rdm2_f_ovvo (Times (Einsum [(T 415,[0;1;2;3])] [1;2;3;0]) (-1) 1);
  (*5926*) Del (T 415);
  (*5927*) Assign (T 416) (Plain (Zeros [0;0;1;1]));
  (*5928*) AddTo (T 416) (Plain (Einsum [(n_l2,[0;1;2;3]); (T 33,[2;4;5;1])] [3;4;0;5]));
  (*5929*) AddTo n_rdm2_f_ovov (Times (Einsum [(T 416,[0;1;2;3])] [1;2;0;3]) (-1) 1);
  (*5930*) AddTo n_rdm2_f_ovov (Times (Einsum [(T 416,[0;1;2;3])] [1;2;0;3]) (-1) 1);
  (*5931*) Del (T 416);
  (*5932*) Assign (T 417) (Plain (Zeros [0;0;1;1]));
  (*5933*) AddTo (T 417) (Times (Einsum [(n_l2,[0;1;2;3]); (T 20,[3;4;5;1])] [2;4;0;5]) (2) 1);
  (*5934*) Del (T 20);
  (*5935*) AddTo n_rdm2_f_ovov (Times (Einsum [(T 417,[0;1;2;3])] [1;2;0;3]) (-1) 1);
  (*5936*) AddTo n_rdm2_f_ovov (Times (Einsum [(T 417,[0;1;2;3])] [1;2;0;3]) (-1) 1);
  (*5937*) AddTo n_rdm2_f_voov (Plain (Einsum [(T 417,[0;1;2;3])] [2;1;0;3]));
  (*5938*) AddTo n_rdm2_f_voov (Plain (Einsum [(T 417,[0;1;2;3])] [2;1;0;3]));
  (*5939*) Del (T 417);
  (*5940*) Assign (T 418) (Plain (Zeros [0;0;0;1]));
  (*5941*) AddTo (T 418) (Plain (Einsum [(T 33,[0;1;2;3]); (n_l3,[4;2;3;5;6;0])] [5;6;1;4]));
  (*5942*) Assign (T 419) (Plain (Zeros [0;0;0;1]));
  (*5943*) AddTo (T 419) (Times (Einsum [(T 24,[0;1;2;3])] [0;1;2;3]) (2) 1);
  (*5944*) AddTo (T 419) (Times (Einsum [(T 418,[0;1;2;3])] [0;1;2;3]) (-1) 1);
  (*5945*) Del (T 418);
  (*5946*) Assign (T 420) (Plain (Zeros [0;0;0;1]));
  (*5947*) AddTo (T 420) (Plain (Einsum [(T 419,[0;1;2;3])] [0;1;2;3]));
  (*5948*) AddTo (T 420) (Times (Einsum [(T 419,[0;1;2;3])] [1;0;2;3]) (-1) 1);
  (*5949*) AddTo (T 420) (Plain (Einsum [(T 379,[0;1;2;3])] [1;0;2;3]));
  (*5950*) Assign (T 421) (Plain (Zeros [0;0;1;1]));
  (*5951*) AddTo (T 421) (Times (Einsum [(n_t1,[0;1]); (T 420,[2;0;3;4])] [2;3;4;1]) (1) 2);
  (*5952*) Del (T 420);
  (*5953*) AddTo n_rdm2_f_ovov (Plain (Einsum [(T 421,[0;1;2;3])] [1;2;0;3]));
  (*5954*) AddTo n_rdm2_f_ovov (Plain (Einsum [(T 421,[0;1;2;3])] [1;2;0;3]));
  (*5955*) AddTo n_rdm2_f_ovvo (Times (Einsum [(T 421,[0;1;2;3])] [1;2;3;0]) (-1) 1);
  (*5956*) AddTo n_rdm2_f_ovvo (Times (Einsum [(T 421,[0;1;2;3])] [1;2;3;0]) (-1) 1);
  (*5957*) AddTo n_rdm2_f_voov (Times (Einsum [(T 421,[0;1;2;3])] [2;1;0;3]) (-1) 1);
  (*5958*) AddTo n_rdm2_f_voov (Times (Einsum [(T 421,[0;1;2;3])] [2;1;0;3]) (-1) 1);
  (*5959*) AddTo n_rdm2_f_vovo (Plain (Einsum [(T 421,[0;1;2;3])] [2;1;3;0]));
  (*5960*) AddTo n_rdm2_f_vovo (Plain (Einsum [(T 421,[0;1;2;3])] [2;1;3;0]));
  (*5961*) Del (T 421);
  (*5962*) Assign (T 422) (Plain (Zeros [1;1]));
  (*5963*) AddTo (T 422) (Plain (Einsum [(n_l1,[0;1]); (n_t1,[1;2])] [0;2]));
  (*5964*) Assign (T 423) (Plain (Zeros [1;1]));
  (*5965*) AddTo (T 423) (Plain (Einsum [(T 422,[0;1])] [0;1]));
  (*5966*) AddTo (T 423) (Times (Einsum [(T 204,[0;1])] [0;1]) (24999999999999) 100000000000000);
  (*5967*) AddTo (T 423) (Plain (Einsum [(T 206,[0;1])] [0;1]));
  (*5968*) Del (T 206);
  (*5969*) AddTo (T 423) (Times (Einsum [(T 207,[0;1])] [0;1]) (-1) 1);
  (*5970*) Del (T 207);
  (*5971*) AddTo (T 423) (Plain (Einsum [(T 208,[0;1])] [1;0]));
  (*5972*) Del (T 208);
  (*5973*) AddTo n_rdm2_f_ovov (Plain (Einsum [(n_delta'oo,[0;1]); (T 423,[2;3])] [0;2;1;3]));
  (*5974*) AddTo n_rdm2_f_ovov (Plain (Einsum [(n_delta'oo,[0;1]); (T 423,[2;3])] [0;2;1;3]));
  (*5975*) AddTo n_rdm2_f_ovov (Plain (Einsum [(n_delta'oo,[0;1]); (T 423,[2;3])] [0;2;1;3]));
  (*5976*) AddTo n_rdm2_f_ovov (Plain (Einsum [(n_delta'oo,[0;1]); (T 423,[2;3])] [0;2;1;3]));
  (*5977*) AddTo n_rdm2_f_ovvo (Times (Einsum [(n_delta'oo,[0;1]); (T 423,[2;3])] [0;2;3;1]) (-1) 1);
  (*5978*) AddTo n_rdm2_f_ovvo (Times (Einsum [(n_delta'oo,[0;1]); (T 423,[2;3])] [0;2;3;1]) (-1) 1);
  (*5979*) AddTo n_rdm2_f_voov (Times (Einsum [(n_delta'oo,[0;1]); (T 423,[2;3])] [2;0;1;3]) (-1) 1);
  (*5980*) AddTo n_rdm2_f_voov (Times (Einsum [(n_delta'oo,[0;1]); (T 423,[2;3])] [2;0;1;3]) (-1) 1);
  (*5981*) AddTo n_rdm2_f_vovo (Plain (Einsum [(n_delta'oo,[0;1]); (T 423,[2;3])] [2;0;3;1]));
  (*5982*) AddTo n_rdm2_f_vovo (Plain (Einsum [(n_delta'oo,[0;1]); (T 423,[2;3])] [2;0;3;1]));
  (*5983*) AddTo n_rdm2_f_vovo (Plain (Einsum [(n_delta'oo,[0;1]); (T 423,[2;3])] [2;0;3;1]));
  (*5984*) AddTo n_rdm2_f_vovo (Plain (Einsum [(n_delta'oo,[0;1]); (T 423,[2;3])] [2;0;3;1]));
  (*5985*) Assign (T 424) (Plain (Zeros [0;0;1;1]));
  (*5986*) AddTo (T 424) (Times (Einsum [(n_t2,[0;1;2;3]); (T 144,[0;1;4;5;2;6])] [4;5;3;6]) (1) 2);
  (*5987*) AddTo n_rdm2_f_ovov (Times (Einsum [(T 424,[0;1;2;3])] [1;3;0;2]) (-1) 1);
  (*5988*) AddTo n_rdm2_f_ovov (Times (Einsum [(T 424,[0;1;2;3])] [1;3;0;2]) (-1) 1);
  (*5989*) AddTo n_rdm2_f_vovo (Times (Einsum [(T 424,[0;1;2;3])] [3;1;2;0]) (-1) 1);
  (*5990*) AddTo n_rdm2_f_vovo (Times (Einsum [(T 424,[0;1;2;3])] [3;1;2;0]) (-1) 1);
  (*5991*) Del (T 424);
  (*5992*) Assign (T 425) (Plain (Zeros [0;0;1;1]));
  (*5993*) AddTo (T 425) (Plain (Einsum [(n_t1,[0;1]); (T 152,[0;2;3;4])] [2;3;1;4]));
  (*5994*) AddTo n_rdm2_f_ovov (Times (Einsum [(T 425,[0;1;2;3])] [1;3;0;2]) (-1) 1);
  (*5995*) AddTo n_rdm2_f_ovov (Times (Einsum [(T 425,[0;1;2;3])] [1;3;0;2]) (-1) 1);
  (*5996*) Del (T 425);
  (*5997*) Assign (T 426) (Plain (Zeros [0;0;1;1]));
  (*5998*) AddTo (T 426) (Plain (Einsum [(n_l3,[0;1;2;3;4;5]); (n_t3,[6;3;5;1;7;2])] [4;6;0;7]));
  (*5999*) AddTo n_rdm2_f_ovvo (Times (Einsum [(T 426,[0;1;2;3])] [1;2;3;0]) (1) 4);
  (*6000*) AddTo n_rdm2_f_ovvo (Times (Einsum [(T 426,[0;1;2;3])] [1;2;3;0]) (1) 4);
  (*6001*) AddTo n_rdm2_f_vovo (Times (Einsum [(T 426,[0;1;2;3])] [2;1;3;0]) (-1) 4);
  (*6002*) AddTo n_rdm2_f_vovo (Times (Einsum [(T 426,[0;1;2;3])] [2;1;3;0]) (-1) 4);
  (*6003*) Del (T 426);
  (*6004*) Assign (T 427) (Plain (Zeros [0;0;0;1;1;1]));
  (*6005*) AddTo (T 427) (Plain (Einsum [(n_t3,[0;1;2;3;4;5])] [0;2;1;3;5;4]));
  (*6006*) AddTo (T 427) (Times (Einsum [(n_t3,[0;1;2;3;4;5])] [0;2;1;4;5;3]) (-1) 1);
  (*6007*) AddTo (T 427) (Times (Einsum [(n_t3,[0;1;2;3;4;5])] [1;0;2;5;3;4]) (-1) 1);
  (*6008*) AddTo (T 427) (Times (Einsum [(n_t3,[0;1;2;3;4;5])] [1;0;2;4;3;5]) (5) 1);
  (*6009*) Assign (T 428) (Plain (Zeros [0;0;1;1]));
  (*6010*) AddTo (T 428) (Times (Einsum [(n_l3,[0;1;2;3;4;5]); (T 427,[4;6;5;1;7;2])] [6;3;7;0]) (1) 4);
  (*6011*) Del (T 427);
  (*6012*) AddTo n_rdm2_f_ovvo (Plain (Einsum [(T 428,[0;1;2;3])] [0;3;2;1]));
  (*6013*) AddTo n_rdm2_f_ovvo (Plain (Einsum [(T 428,[0;1;2;3])] [0;3;2;1]));
  (*6014*) AddTo n_rdm2_f_voov (Plain (Einsum [(T 428,[0;1;2;3])] [3;0;1;2]));
  (*6015*) AddTo n_rdm2_f_voov (Plain (Einsum [(T 428,[0;1;2;3])] [3;0;1;2]));
  (*6016*) Del (T 428);
  (*6017*) Assign (T 429) (Plain (Zeros [0;0;0;1;1;1]));
  (*6018*) AddTo (T 429) (Plain (Einsum [(n_t3,[0;1;2;3;4;5])] [0;2;1;3;5;4]));
  (*6019*) AddTo (T 429) (Times (Einsum [(n_t3,[0;1;2;3;4;5])] [1;0;2;5;3;4]) (-1) 1);
  (*6020*) Assign (T 430) (Plain (Zeros [0;0;1;1]));
  (*6021*) AddTo (T 430) (Times (Einsum [(n_l3,[0;1;2;3;4;5]); (T 429,[5;6;4;2;1;7])] [6;3;7;0]) (1) 4);
  (*6022*) Del (T 429);
  (*6023*) AddTo n_rdm2_f_ovvo (Times (Einsum [(T 430,[0;1;2;3])] [0;3;2;1]) (-1) 1);
  (*6024*) AddTo n_rdm2_f_ovvo (Times (Einsum [(T 430,[0;1;2;3])] [0;3;2;1]) (-1) 1);
  (*6025*) Del (T 430);
  (*6026*) Assign (T 431) (Plain (Zeros [0;0;0;0;1;1]));
  (*6027*) AddTo (T 431) (Times (Einsum [(T 43,[0;1;2;3;4;5])] [0;1;2;3;4;5]) (-1) 1);
  (*6028*) AddTo (T 431) (Plain (Einsum [(T 43,[0;1;2;3;4;5])] [1;0;2;3;4;5]));
  (*6029*) Assign (T 432) (Plain (Zeros [0;0;1;1]));
  (*6030*) AddTo (T 432) (Times (Einsum [(n_t2,[0;1;2;3]); (T 431,[0;1;4;5;6;2])] [4;5;6;3]) (1) 2);
  (*6031*) Del (T 431);
  (*6032*) AddTo n_rdm2_f_ovvo (Times (Einsum [(T 432,[0;1;2;3])] [1;2;3;0]) (-1) 1);
  (*6033*) AddTo n_rdm2_f_ovvo (Times (Einsum [(T 432,[0;1;2;3])] [1;2;3;0]) (-1) 1);
  (*6034*) AddTo n_rdm2_f_voov (Times (Einsum [(T 432,[0;1;2;3])] [2;1;0;3]) (-1) 1);
  (*6035*) AddTo n_rdm2_f_voov (Times (Einsum [(T 432,[0;1;2;3])] [2;1;0;3]) (-1) 1);
  (*6036*) Del (T 432);
  (*6037*) Assign (T 433) (Plain (Zeros [0;0;1;1]));
  (*6038*) AddTo (T 433) (Plain (Einsum [(n_t2,[0;1;2;3]); (T 275,[1;4;5;2])] [4;0;5;3]));
  (*6039*) AddTo n_rdm2_f_ovvo (Times (Einsum [(T 433,[0;1;2;3])] [1;2;3;0]) (-1) 1);
  (*6040*) AddTo n_rdm2_f_ovvo (Times (Einsum [(T 433,[0;1;2;3])] [1;2;3;0]) (-1) 1);
  (*6041*) AddTo n_rdm2_f_vovo (Plain (Einsum [(T 433,[0;1;2;3])] [2;1;3;0]));
  (*6042*) AddTo n_rdm2_f_vovo (Plain (Einsum [(T 433,[0;1;2;3])] [2;1;3;0]));
  (*6043*) Del (T 433);
  (*6044*) Assign (T 434) (Plain (Zeros [0;0;1;1]));
  (*6045*) AddTo (T 434) (Times (Einsum [(n_l2,[0;1;2;3])] [3;2;0;1]) (2) 1);
  (*6046*) AddTo (T 434) (Times (Einsum [(n_l2,[0;1;2;3])] [2;3;0;1]) (-1) 1);
  (*6047*) Assign (T 435) (Plain (Zeros [0;0;1;1]));
  (*6048*) AddTo (T 435) (Plain (Einsum [(n_t2,[0;1;2;3]); (T 434,[1;4;5;3])] [4;0;5;2]));
  (*6049*) Del (T 434);
  (*6050*) AddTo n_rdm2_f_ovvo (Plain (Einsum [(T 435,[0;1;2;3])] [1;2;3;0]));
  (*6051*) AddTo n_rdm2_f_ovvo (Plain (Einsum [(T 435,[0;1;2;3])] [1;2;3;0]));
  (*6052*) AddTo n_rdm2_f_vovo (Times (Einsum [(T 435,[0;1;2;3])] [2;1;3;0]) (-1) 1);
  (*6053*) AddTo n_rdm2_f_vovo (Times (Einsum [(T 435,[0;1;2;3])] [2;1;3;0]) (-1) 1);
  (*6054*) Del (T 435);
  (*6055*) Assign (T 436) (Plain (Zeros [0;0;1;1]));
  (*6056*) AddTo (T 436) (Plain (Einsum [(n_l3,[0;1;2;3;4;5]); (n_t3,[6;3;5;0;7;2])] [4;6;1;7]));
  (*6057*) AddTo n_rdm2_f_ovvo (Times (Einsum [(T 436,[0;1;2;3])] [1;2;3;0]) (-1) 4);
  (*6058*) AddTo n_rdm2_f_ovvo (Times (Einsum [(T 436,[0;1;2;3])] [1;2;3;0]) (-1) 4);
  (*6059*) AddTo n_rdm2_f_voov (Times (Einsum [(T 436,[0;1;2;3])] [2;1;0;3]) (-1) 4);
  (*6060*) AddTo n_rdm2_f_voov (Times (Einsum [(T 436,[0;1;2;3])] [2;1;0;3]) (-1) 4);
  (*6061*) Assign (T 437) (Plain (Zeros [0;0;1;1]));
  (*6062*) AddTo (T 437) (Plain (Einsum [(n_l3,[0;1;2;3;4;5]); (n_t3,[3;6;5;1;7;2])] [4;6;0;7]));
  (*6063*) AddTo n_rdm2_f_ovvo (Times (Einsum [(T 437,[0;1;2;3])] [1;2;3;0]) (-1) 4);
  (*6064*) AddTo n_rdm2_f_ovvo (Times (Einsum [(T 437,[0;1;2;3])] [1;2;3;0]) (-1) 4);
  (*6065*) AddTo n_rdm2_f_voov (Times (Einsum [(T 437,[0;1;2;3])] [2;1;0;3]) (-1) 4);
  (*6066*) AddTo n_rdm2_f_voov (Times (Einsum [(T 437,[0;1;2;3])] [2;1;0;3]) (-1) 4);
  (*6067*) Del (T 437);
  (*6068*) Assign (T 438) (Plain (Zeros [0;0;1;1]));
  (*6069*) AddTo (T 438) (Plain (Einsum [(n_l2,[0;1;2;3]); (n_t2,[4;2;5;1])] [3;4;0;5]));
  (*6070*) AddTo n_rdm2_f_ovvo (Times (Einsum [(T 438,[0;1;2;3])] [1;2;3;0]) (-1) 1);
  (*6071*) AddTo n_rdm2_f_ovvo (Times (Einsum [(T 438,[0;1;2;3])] [1;2;3;0]) (-1) 1);
  (*6072*) AddTo n_rdm2_f_voov (Times (Einsum [(T 438,[0;1;2;3])] [2;1;0;3]) (-1) 1);
  (*6073*) AddTo n_rdm2_f_voov (Times (Einsum [(T 438,[0;1;2;3])] [2;1;0;3]) (-1) 1);
  (*6074*) Assign (T 439) (Plain (Zeros [0;0;1;1]));
  (*6075*) AddTo (T 439) (Times (Einsum [(n_t3,[0;1;2;3;4;5]); (T 128,[1;2;6;5;4;7])] [0;6;3;7]) (1) 4);
  (*6076*) AddTo n_rdm2_f_ovvo (Times (Einsum [(T 439,[0;1;2;3])] [0;3;2;1]) (-1) 1);
  (*6077*) AddTo n_rdm2_f_ovvo (Times (Einsum [(T 439,[0;1;2;3])] [0;3;2;1]) (-1) 1);
  (*6078*) AddTo n_rdm2_f_voov (Times (Einsum [(T 439,[0;1;2;3])] [3;0;1;2]) (-1) 1);
  (*6079*) AddTo n_rdm2_f_voov (Times (Einsum [(T 439,[0;1;2;3])] [3;0;1;2]) (-1) 1);
  (*6080*) Del (T 439);
  (*6081*) Assign (T 440) (Plain (Zeros [0;0;1;1]));
  (*6082*) AddTo (T 440) (Times (Einsum [(n_t2,[0;1;2;3]); (T 251,[0;1;4;5;2;6])] [4;5;6;3]) (1) 2);
  (*6083*) AddTo n_rdm2_f_ovvo (Times (Einsum [(T 440,[0;1;2;3])] [1;2;3;0]) (-1) 1);
  (*6084*) AddTo n_rdm2_f_ovvo (Times (Einsum [(T 440,[0;1;2;3])] [1;2;3;0]) (-1) 1);
  (*6085*) AddTo n_rdm2_f_voov (Times (Einsum [(T 440,[0;1;2;3])] [2;1;0;3]) (-1) 1);
  (*6086*) AddTo n_rdm2_f_voov (Times (Einsum [(T 440,[0;1;2;3])] [2;1;0;3]) (-1) 1);
  (*6087*) Del (T 440);
  (*6088*) Assign (T 441) (Plain (Zeros [0;0;1;1]));
  (*6089*) AddTo (T 441) (Plain (Einsum [(n_l2,[0;1;2;3]); (T 93,[3;4;5;1])] [2;4;0;5]));
  (*6090*) Del (T 93);
  (*6091*) AddTo n_rdm2_f_ovvo (Plain (Einsum [(T 441,[0;1;2;3])] [1;2;3;0]));
  (*6092*) AddTo n_rdm2_f_ovvo (Plain (Einsum [(T 441,[0;1;2;3])] [1;2;3;0]));
  (*6093*) AddTo n_rdm2_f_voov (Plain (Einsum [(T 441,[0;1;2;3])] [2;1;0;3]));
  (*6094*) AddTo n_rdm2_f_voov (Plain (Einsum [(T 441,[0;1;2;3])] [2;1;0;3]));
  (*6095*) Del (T 441);
  (*6096*) Assign (T 442) (Plain (Zeros [0;0;1;1]));
  (*6097*) AddTo (T 442) (Times (Einsum [(n_t1,[0;1]); (T 131,[2;0;3;4])] [2;3;1;4]) (1) 2);
  (*6098*) AddTo n_rdm2_f_ovvo (Times (Einsum [(T 442,[0;1;2;3])] [1;3;2;0]) (-1) 1);
  (*6099*) AddTo n_rdm2_f_ovvo (Times (Einsum [(T 442,[0;1;2;3])] [1;3;2;0]) (-1) 1);
  (*6100*) Del (T 442);
  (*6101*) Assign (T 443) (Plain (Zeros [0;0;0;1;1;1]));
  (*6102*) AddTo (T 443) (Plain (Einsum [(n_l3,[0;1;2;3;4;5])] [3;5;4;0;2;1]));
  (*6103*) AddTo (T 443) (Times (Einsum [(n_l3,[0;1;2;3;4;5])] [3;4;5;0;2;1]) (-1) 1);
  (*6104*) Assign (T 444) (Plain (Zeros [0;0;1;1]));
  (*6105*) AddTo (T 444) (Times (Einsum [(n_t3,[0;1;2;3;4;5]); (T 443,[2;1;6;5;7;3])] [6;0;7;4]) (1) 4);
  (*6106*) Del (T 443);
  (*6107*) AddTo n_rdm2_f_voov (Plain (Einsum [(T 444,[0;1;2;3])] [2;1;0;3]));
  (*6108*) AddTo n_rdm2_f_voov (Plain (Einsum [(T 444,[0;1;2;3])] [2;1;0;3]));
  (*6109*) Del (T 444);
  (*6110*) Assign (T 445) (Plain (Zeros [0;0;1;1]));
  (*6111*) AddTo (T 445) (Times (Einsum [(n_l3,[0;1;2;3;4;5]); (T 318,[5;6;3;2;7;1])] [4;6;0;7]) (1) 4);
  (*6112*) Del (T 318);
  (*6113*) AddTo n_rdm2_f_voov (Times (Einsum [(T 445,[0;1;2;3])] [2;1;0;3]) (-1) 1);
  (*6114*) AddTo n_rdm2_f_voov (Times (Einsum [(T 445,[0;1;2;3])] [2;1;0;3]) (-1) 1);
  (*6115*) Del (T 445);
  (*6116*) Assign (T 446) (Plain (Zeros [0;0;0;0;1;1]));
  (*6117*) AddTo (T 446) (Times (Einsum [(T 43,[0;1;2;3;4;5])] [0;1;2;3;4;5]) (-1) 2);
  (*6118*) AddTo (T 446) (Plain (Einsum [(T 43,[0;1;2;3;4;5])] [0;2;1;3;4;5]));
  (*6119*) Assign (T 447) (Plain (Zeros [0;0;1;1]));
  (*6120*) AddTo (T 447) (Times (Einsum [(n_t2,[0;1;2;3]); (T 446,[4;0;1;5;6;2])] [4;5;6;3]) (2) 1);
  (*6121*) Del (T 446);
  (*6122*) AddTo n_rdm2_f_voov (Times (Einsum [(T 447,[0;1;2;3])] [2;1;0;3]) (-1) 1);
  (*6123*) AddTo n_rdm2_f_voov (Times (Einsum [(T 447,[0;1;2;3])] [2;1;0;3]) (-1) 1);
  (*6124*) AddTo n_rdm2_f_vovo (Plain (Einsum [(T 447,[0;1;2;3])] [2;1;3;0]));
  (*6125*) AddTo n_rdm2_f_vovo (Plain (Einsum [(T 447,[0;1;2;3])] [2;1;3;0]));
  (*6126*) Del (T 447);
  (*6127*) Assign (T 448) (Plain (Zeros [0;0;1;1]));
  (*6128*) AddTo (T 448) (Plain (Einsum [(n_l2,[0;1;2;3]); (T 7,[2;4;5;1])] [3;4;0;5]));
  (*6129*) AddTo n_rdm2_f_voov (Times (Einsum [(T 448,[0;1;2;3])] [2;1;0;3]) (-1) 1);
  (*6130*) AddTo n_rdm2_f_voov (Times (Einsum [(T 448,[0;1;2;3])] [2;1;0;3]) (-1) 1);
  (*6131*) Del (T 448);
  (*6132*) Assign (T 449) (Plain (Zeros [0;0;1;1]));
  (*6133*) AddTo (T 449) (Times (Einsum [(n_l3,[0;1;2;3;4;5]); (T 350,[4;6;5;1;7;2])] [6;3;7;0]) (1) 4);
  (*6134*) AddTo n_rdm2_f_voov (Plain (Einsum [(T 449,[0;1;2;3])] [3;0;1;2]));
  (*6135*) AddTo n_rdm2_f_voov (Plain (Einsum [(T 449,[0;1;2;3])] [3;0;1;2]));
  (*6136*) Del (T 449);
  (*6137*) Assign (T 450) (Plain (Zeros [0;0;1;1]));
  (*6138*) AddTo (T 450) (Plain (Einsum [(n_t1,[0;1]); (T 152,[2;0;3;4])] [2;3;1;4]));
  (*6139*) Del (T 152);
  (*6140*) AddTo n_rdm2_f_voov (Times (Einsum [(T 450,[0;1;2;3])] [3;1;0;2]) (-1) 1);
  (*6141*) AddTo n_rdm2_f_voov (Times (Einsum [(T 450,[0;1;2;3])] [3;1;0;2]) (-1) 1);
  (*6142*) Del (T 450);
  (*6143*) Assign (T 451) (Plain (Zeros [0;0;0;1;1;1]));
  (*6144*) AddTo (T 451) (Times (Einsum [(n_l3,[0;1;2;3;4;5])] [3;5;4;0;2;1]) (5) 1);
  (*6145*) AddTo (T 451) (Times (Einsum [(n_l3,[0;1;2;3;4;5])] [3;4;5;0;2;1]) (-1) 1);
  (*6146*) Assign (T 452) (Plain (Zeros [0;0;1;1]));
  (*6147*) AddTo (T 452) (Times (Einsum [(n_t3,[0;1;2;3;4;5]); (T 451,[2;6;1;5;7;4])] [6;0;7;3]) (1) 4);
  (*6148*) Del (T 451);
  (*6149*) AddTo n_rdm2_f_vovo (Times (Einsum [(T 452,[0;1;2;3])] [2;1;3;0]) (-1) 1);
  (*6150*) AddTo n_rdm2_f_vovo (Times (Einsum [(T 452,[0;1;2;3])] [2;1;3;0]) (-1) 1);
  (*6151*) Del (T 452);
  (*6152*) Assign (T 453) (Plain (Zeros [0;0;0;1;1;1]));
  (*6153*) AddTo (T 453) (Times (Einsum [(n_t3,[0;1;2;3;4;5])] [0;2;1;3;5;4]) (-1) 1);
  (*6154*) AddTo (T 453) (Plain (Einsum [(n_t3,[0;1;2;3;4;5])] [0;2;1;4;5;3]));
  (*6155*) AddTo (T 453) (Plain (Einsum [(n_t3,[0;1;2;3;4;5])] [1;0;2;5;3;4]));
  (*6156*) Assign (T 454) (Plain (Zeros [0;0;1;1]));
  (*6157*) AddTo (T 454) (Times (Einsum [(n_l3,[0;1;2;3;4;5]); (T 453,[4;6;5;1;7;2])] [6;3;7;0]) (1) 4);
  (*6158*) Del (T 453);
  (*6159*) AddTo n_rdm2_f_vovo (Plain (Einsum [(T 454,[0;1;2;3])] [3;0;2;1]));
  (*6160*) AddTo n_rdm2_f_vovo (Plain (Einsum [(T 454,[0;1;2;3])] [3;0;2;1]));
  (*6161*) Del (T 454);
  (*6162*) Assign (T 455) (Plain (Zeros [0;0;1;1]));
  (*6163*) AddTo (T 455) (Times (Einsum [(n_l3,[0;1;2;3;4;5]); (T 316,[5;6;4;2;1;7])] [3;6;0;7]) (1) 4);
  (*6164*) Del (T 316);
  (*6165*) AddTo n_rdm2_f_vovo (Times (Einsum [(T 455,[0;1;2;3])] [2;1;3;0]) (-1) 1);
  (*6166*) AddTo n_rdm2_f_vovo (Times (Einsum [(T 455,[0;1;2;3])] [2;1;3;0]) (-1) 1);
  (*6167*) Del (T 455);
  (*6168*) Assign (T 456) (Plain (Zeros [0;0;1;1]));
  (*6169*) AddTo (T 456) (Times (Einsum [(n_t1,[0;1]); (T 131,[0;2;3;4])] [2;3;1;4]) (1) 2);
  (*6170*) AddTo n_rdm2_f_vovo (Times (Einsum [(T 456,[0;1;2;3])] [3;1;2;0]) (-1) 1);
  (*6171*) AddTo n_rdm2_f_vovo (Times (Einsum [(T 456,[0;1;2;3])] [3;1;2;0]) (-1) 1);
  (*6172*) Del (T 456);
  (*6173*) Assign (T 457) (Plain (Zeros [0;1;1;1]));
  (*6174*) AddTo (T 457) (Plain (Einsum [(n_t3,[0;1;2;3;4;5]); (T 43,[2;0;1;6;7;4])] [6;7;5;3]));
  (*6175*) Assign n_rdm2_f_ovvv (Plain (Zeros [0;1;1;1]));
  (*6176*) AddTo n_rdm2_f_ovvv (Times (Einsum [(T 457,[0;1;2;3])] [0;1;2;3]) (50000000000001) 100000000000000);
  (*6177*) AddTo n_rdm2_f_ovvv (Times (Einsum [(T 457,[0;1;2;3])] [0;1;2;3]) (50000000000001) 100000000000000);
  (*6178*) Assign n_rdm2_f_vovv (Plain (Zeros [1;0;1;1]));
  (*6179*) AddTo n_rdm2_f_vovv (Times (Einsum [(T 457,[0;1;2;3])] [1;0;2;3]) (-50000000000001) 100000000000000);
  (*6180*) AddTo n_rdm2_f_vovv (Times (Einsum [(T 457,[0;1;2;3])] [1;0;2;3]) (-50000000000001) 100000000000000);
  (*6181*) Del (T 457);
  (*6182*) Assign (T 458) (Plain (Zeros [0;1;1;1]));
  (*6183*) AddTo (T 458) (Plain (Einsum [(n_t3,[0;1;2;3;4;5]); (T 36,[0;1;2;6;4;7])] [6;7;3;5]));
  (*6184*) AddTo n_rdm2_f_ovvv (Times (Einsum [(T 458,[0;1;2;3])] [0;1;3;2]) (16666666666667) 100000000000000);
  (*6185*) AddTo n_rdm2_f_ovvv (Times (Einsum [(T 458,[0;1;2;3])] [0;1;3;2]) (16666666666667) 100000000000000);
  (*6186*) AddTo n_rdm2_f_vovv (Times (Einsum [(T 458,[0;1;2;3])] [1;0;3;2]) (-16666666666667) 100000000000000);
  (*6187*) AddTo n_rdm2_f_vovv (Times (Einsum [(T 458,[0;1;2;3])] [1;0;3;2]) (-16666666666667) 100000000000000);
  (*6188*) Del (T 458);
  (*6189*) Assign (T 459) (Plain (Zeros [0;1;1;1]));
  (*6190*) AddTo (T 459) (Plain (Einsum [(n_l1,[0;1]); (n_t2,[2;1;3;4])] [2;0;3;4]));
  (*6191*) AddTo n_rdm2_f_ovvv (Plain (Einsum [(T 459,[0;1;2;3])] [0;1;2;3]));
  (*6192*) AddTo n_rdm2_f_ovvv (Plain (Einsum [(T 459,[0;1;2;3])] [0;1;2;3]));
  (*6193*) AddTo n_rdm2_f_vovv (Plain (Einsum [(T 459,[0;1;2;3])] [1;0;3;2]));
  (*6194*) AddTo n_rdm2_f_vovv (Plain (Einsum [(T 459,[0;1;2;3])] [1;0;3;2]));
  (*6195*) Assign (T 460) (Plain (Zeros [0;1;1;1]));
  (*6196*) AddTo (T 460) (Plain (Einsum [(n_t2,[0;1;2;3]); (T 264,[1;3;4;5])] [0;4;2;5]));
  (*6197*) Assign (T 461) (Plain (Zeros [0;1;1;1]));
  (*6198*) AddTo (T 461) (Plain (Einsum [(n_t3,[0;1;2;3;4;5]); (T 36,[0;1;2;6;3;7])] [6;7;5;4]));
  (*6199*) Assign (T 462) (Plain (Zeros [0;1;1;1]));
  (*6200*) AddTo (T 462) (Times (Einsum [(T 239,[0;1;2;3;4;5]); (T 36,[0;1;2;6;7;4])] [6;3;5;7]) (16666666666667) 100000000000000);
  (*6201*) Assign (T 463) (Plain (Zeros [0;0;1;1]));
  (*6202*) AddTo (T 463) (Times (Einsum [(n_l2,[0;1;2;3])] [3;2;0;1]) (-1) 1);
  (*6203*) AddTo (T 463) (Plain (Einsum [(n_l2,[0;1;2;3])] [2;3;0;1]));
  (*6204*) Assign (T 464) (Plain (Zeros [0;1;1;1]));
  (*6205*) AddTo (T 464) (Times (Einsum [(T 463,[0;1;2;3]); (n_t3,[4;1;0;5;6;3])] [4;2;5;6]) (1) 2);
  (*6206*) Del (T 463);
  (*6207*) Assign (T 465) (Plain (Zeros [0;0;1;1]));
  (*6208*) AddTo (T 465) (Times (Einsum [(n_l3,[0;1;2;3;4;5]); (T 199,[5;6;4;2;7;1])] [3;6;0;7]) (1) 4);
  (*6209*) Del (T 199);
  (*6210*) Assign (T 466) (Plain (Zeros [0;0;0;1;1;1]));
  (*6211*) AddTo (T 466) (Plain (Einsum [(n_t3,[0;1;2;3;4;5])] [0;2;1;5;4;3]));
  (*6212*) AddTo (T 466) (Plain (Einsum [(n_t3,[0;1;2;3;4;5])] [0;2;1;3;5;4]));
  (*6213*) AddTo (T 466) (Times (Einsum [(n_t3,[0;1;2;3;4;5])] [0;2;1;4;5;3]) (-1) 1);
  (*6214*) Assign (T 467) (Plain (Zeros [0;0;1;1]));
  (*6215*) AddTo (T 467) (Times (Einsum [(n_l3,[0;1;2;3;4;5]); (T 466,[5;6;3;2;7;1])] [6;4;7;0]) (1) 4);
  (*6216*) Del (T 466);
  (*6217*) Assign (T 468) (Plain (Zeros [0;0;0;0;1;1]));
  (*6218*) AddTo (T 468) (Plain (Einsum [(T 43,[0;1;2;3;4;5])] [0;1;2;3;4;5]));
  (*6219*) AddTo (T 468) (Times (Einsum [(T 36,[0;1;2;3;4;5])] [0;1;2;3;4;5]) (-1) 1);
  (*6220*) AddTo (T 468) (Times (Einsum [(T 36,[0;1;2;3;4;5])] [2;1;0;3;4;5]) (1) 2);
  (*6221*) AddTo (T 468) (Times (Einsum [(T 36,[0;1;2;3;4;5])] [2;1;0;3;5;4]) (-1) 2);
  (*6222*) Assign (T 469) (Plain (Zeros [0;0;1;1]));
  (*6223*) AddTo (T 469) (Plain (Einsum [(n_t2,[0;1;2;3]); (T 468,[4;1;0;5;6;2])] [4;5;6;3]));
  (*6224*) Del (T 468);
  (*6225*) Assign (T 470) (Plain (Zeros [0;0;1;1]));
  (*6226*) AddTo (T 470) (Plain (Einsum [(n_l2,[0;1;2;3]); (T 358,[3;4;1;5])] [4;2;5;0]));
  (*6227*) Assign (T 471) (Plain (Zeros [0;0;1;1]));
  (*6228*) AddTo (T 471) (Plain (Einsum [(n_l2,[0;1;2;3]); (T 33,[2;4;1;5])] [3;4;0;5]));
  (*6229*) Assign (T 472) (Plain (Zeros [0;0;1;1]));
  (*6230*) AddTo (T 472) (Times (Einsum [(n_t1,[0;1]); (T 419,[2;0;3;4])] [2;3;4;1]) (1) 2);
  (*6231*) Del (T 419);
  (*6232*) Assign (T 473) (Plain (Zeros [0;0;1;1]));
  (*6233*) AddTo (T 473) (Times (Einsum [(T 198,[0;1;2;3])] [0;1;2;3]) (-1) 4);
  (*6234*) Del (T 198);
  (*6235*) AddTo (T 473) (Plain (Einsum [(T 177,[0;1;2;3])] [0;1;2;3]));
  (*6236*) AddTo (T 473) (Times (Einsum [(T 465,[0;1;2;3])] [0;1;2;3]) (-1) 1);
  (*6237*) Del (T 465);
  (*6238*) AddTo (T 473) (Plain (Einsum [(T 467,[0;1;2;3])] [1;0;3;2]));
  (*6239*) Del (T 467);
  (*6240*) AddTo (T 473) (Plain (Einsum [(T 469,[0;1;2;3])] [0;1;2;3]));
  (*6241*) Del (T 469);
  (*6242*) AddTo (T 473) (Times (Einsum [(T 470,[0;1;2;3])] [1;0;3;2]) (-1) 1);
  (*6243*) Del (T 470);
  (*6244*) AddTo (T 473) (Plain (Einsum [(T 471,[0;1;2;3])] [0;1;2;3]));
  (*6245*) Del (T 471);
  (*6246*) AddTo (T 473) (Plain (Einsum [(T 472,[0;1;2;3])] [0;1;2;3]));
  (*6247*) Del (T 472);
  (*6248*) Assign (T 474) (Plain (Zeros [0;1;1;1]));
  (*6249*) AddTo (T 474) (Plain (Einsum [(n_t1,[0;1]); (T 473,[0;2;3;4])] [2;3;4;1]));
  (*6250*) Del (T 473);
  (*6251*) Assign (T 475) (Plain (Zeros [0;0;0;1]));
  (*6252*) AddTo (T 475) (Times (Einsum [(n_t2,[0;1;2;3]); (T 223,[1;4;5;6;2;3])] [4;5;0;6]) (1) 2);
  (*6253*) Del (T 223);
  (*6254*) Assign (T 476) (Plain (Zeros [0;0;0;1]));
  (*6255*) AddTo (T 476) (Plain (Einsum [(T 24,[0;1;2;3])] [0;1;2;3]));
  (*6256*) AddTo (T 476) (Times (Einsum [(T 475,[0;1;2;3])] [0;1;2;3]) (-1) 1);
  (*6257*) Del (T 475);
  (*6258*) Assign (T 477) (Plain (Zeros [0;1;1;1]));
  (*6259*) AddTo (T 477) (Plain (Einsum [(n_t2,[0;1;2;3]); (T 476,[1;0;4;5])] [4;5;2;3]));
  (*6260*) Del (T 476);
  (*6261*) Assign (T 478) (Plain (Zeros [0;1;1;1]));
  (*6262*) AddTo (T 478) (Times (Einsum [(n_t2,[0;1;2;3]); (T 379,[1;0;4;5])] [4;5;2;3]) (1) 4);
  (*6263*) Del (T 379);
  (*6264*) Assign (T 479) (Plain (Zeros [0;1;1;1]));
  (*6265*) AddTo (T 479) (Plain (Einsum [(T 459,[0;1;2;3])] [0;1;2;3]));
  (*6266*) Del (T 459);
  (*6267*) AddTo (T 479) (Plain (Einsum [(T 460,[0;1;2;3])] [0;1;2;3]));
  (*6268*) Del (T 460);
  (*6269*) AddTo (T 479) (Times (Einsum [(T 461,[0;1;2;3])] [0;1;2;3]) (-16666666666667) 100000000000000);
  (*6270*) Del (T 461);
  (*6271*) AddTo (T 479) (Times (Einsum [(T 462,[0;1;2;3])] [0;3;1;2]) (-1) 1);
  (*6272*) Del (T 462);
  (*6273*) AddTo (T 479) (Times (Einsum [(T 464,[0;1;2;3])] [0;1;2;3]) (-1) 1);
  (*6274*) Del (T 464);
  (*6275*) AddTo (T 479) (Plain (Einsum [(T 474,[0;1;2;3])] [0;1;3;2]));
  (*6276*) Del (T 474);
  (*6277*) AddTo (T 479) (Plain (Einsum [(T 477,[0;1;2;3])] [0;1;3;2]));
  (*6278*) Del (T 477);
  (*6279*) AddTo (T 479) (Plain (Einsum [(T 478,[0;1;2;3])] [0;1;2;3]));
  (*6280*) Del (T 478);
  (*6281*) AddTo (T 479) (Plain (Einsum [(n_t1,[0;1]); (T 423,[2;3])] [0;2;1;3]));
  (*6282*) Del (T 423);
  (*6283*) AddTo n_rdm2_f_ovvv (Plain (Einsum [(T 479,[0;1;2;3])] [0;1;2;3]));
  (*6284*) AddTo n_rdm2_f_ovvv (Times (Einsum [(T 479,[0;1;2;3])] [0;1;3;2]) (-1) 1);
  (*6285*) AddTo n_rdm2_f_ovvv (Plain (Einsum [(T 479,[0;1;2;3])] [0;1;2;3]));
  (*6286*) AddTo n_rdm2_f_ovvv (Times (Einsum [(T 479,[0;1;2;3])] [0;1;3;2]) (-1) 1);
  (*6287*) AddTo n_rdm2_f_vovv (Times (Einsum [(T 479,[0;1;2;3])] [1;0;2;3]) (-1) 1);
  (*6288*) AddTo n_rdm2_f_vovv (Plain (Einsum [(T 479,[0;1;2;3])] [1;0;3;2]));
  (*6289*) AddTo n_rdm2_f_vovv (Times (Einsum [(T 479,[0;1;2;3])] [1;0;2;3]) (-1) 1);
  (*6290*) AddTo n_rdm2_f_vovv (Plain (Einsum [(T 479,[0;1;2;3])] [1;0;3;2]));
  (*6291*) Del (T 479);
  (*6292*) Assign (T 480) (Plain (Zeros [0;1;1;1]));
  (*6293*) AddTo (T 480) (Times (Einsum [(n_t2,[0;1;2;3]); (T 129,[1;4;5;3])] [0;2;5;4]) (-1) 1);
  (*6294*) AddTo n_rdm2_f_ovvv (Plain (Einsum [(T 480,[0;1;2;3])] [0;2;1;3]));
  (*6295*) AddTo n_rdm2_f_ovvv (Times (Einsum [(T 480,[0;1;2;3])] [0;2;3;1]) (-1) 2);
  (*6296*) AddTo n_rdm2_f_ovvv (Plain (Einsum [(T 480,[0;1;2;3])] [0;2;1;3]));
  (*6297*) AddTo n_rdm2_f_ovvv (Times (Einsum [(T 480,[0;1;2;3])] [0;2;3;1]) (-1) 2);
  (*6298*) AddTo n_rdm2_f_vovv (Times (Einsum [(T 480,[0;1;2;3])] [2;0;1;3]) (-1) 1);
  (*6299*) AddTo n_rdm2_f_vovv (Times (Einsum [(T 480,[0;1;2;3])] [2;0;3;1]) (1) 2);
  (*6300*) AddTo n_rdm2_f_vovv (Times (Einsum [(T 480,[0;1;2;3])] [2;0;1;3]) (-1) 1);
  (*6301*) AddTo n_rdm2_f_vovv (Times (Einsum [(T 480,[0;1;2;3])] [2;0;3;1]) (1) 2);
  (*6302*) Del (T 480);
  (*6303*) Assign (T 481) (Plain (Zeros [0;1;1;1]));
  (*6304*) AddTo (T 481) (Plain (Einsum [(T 259,[0;1;2;3]); (T 7,[0;4;2;5])] [4;1;3;5]));
  (*6305*) AddTo n_rdm2_f_ovvv (Plain (Einsum [(T 481,[0;1;2;3])] [0;1;3;2]));
  (*6306*) AddTo n_rdm2_f_ovvv (Times (Einsum [(T 481,[0;1;2;3])] [0;1;2;3]) (-2) 1);
  (*6307*) AddTo n_rdm2_f_ovvv (Plain (Einsum [(T 481,[0;1;2;3])] [0;1;3;2]));
  (*6308*) AddTo n_rdm2_f_ovvv (Times (Einsum [(T 481,[0;1;2;3])] [0;1;2;3]) (-2) 1);
  (*6309*) AddTo n_rdm2_f_vovv (Times (Einsum [(T 481,[0;1;2;3])] [1;0;3;2]) (-1) 1);
  (*6310*) AddTo n_rdm2_f_vovv (Times (Einsum [(T 481,[0;1;2;3])] [1;0;2;3]) (2) 1);
  (*6311*) AddTo n_rdm2_f_vovv (Times (Einsum [(T 481,[0;1;2;3])] [1;0;3;2]) (-1) 1);
  (*6312*) AddTo n_rdm2_f_vovv (Times (Einsum [(T 481,[0;1;2;3])] [1;0;2;3]) (2) 1);
  (*6313*) Del (T 481);
  (*6314*) Assign (T 482) (Plain (Zeros [0;1;1;1]));
  (*6315*) AddTo (T 482) (Times (Einsum [(T 239,[0;1;2;3;4;5]); (T 36,[0;2;1;6;7;5])] [6;3;4;7]) (16666666666667) 100000000000000);
  (*6316*) AddTo n_rdm2_f_ovvv (Times (Einsum [(T 482,[0;1;2;3])] [0;3;1;2]) (-1) 1);
  (*6317*) AddTo n_rdm2_f_ovvv (Times (Einsum [(T 482,[0;1;2;3])] [0;3;1;2]) (-1) 1);
  (*6318*) Del (T 482);
  (*6319*) Assign (T 483) (Plain (Zeros [0;0;1;1]));
  (*6320*) AddTo (T 483) (Times (Einsum [(n_l2,[0;1;2;3])] [3;2;0;1]) (-3333333333333333) 10000000000000000);
  (*6321*) AddTo (T 483) (Plain (Einsum [(n_l2,[0;1;2;3])] [2;3;0;1]));
  (*6322*) Assign (T 484) (Plain (Zeros [0;1;1;1]));
  (*6323*) AddTo (T 484) (Times (Einsum [(T 483,[0;1;2;3]); (n_t3,[4;1;0;5;3;6])] [4;2;6;5]) (3) 2);
  (*6324*) Del (T 483);
  (*6325*) AddTo n_rdm2_f_ovvv (Plain (Einsum [(T 484,[0;1;2;3])] [0;1;3;2]));
  (*6326*) AddTo n_rdm2_f_ovvv (Plain (Einsum [(T 484,[0;1;2;3])] [0;1;3;2]));
  (*6327*) Del (T 484);
  (*6328*) Assign (T 485) (Plain (Zeros [0;1;1;1]));
  (*6329*) AddTo (T 485) (Plain (Einsum [(n_t2,[0;1;2;3]); (n_l3,[4;3;5;6;0;1])] [6;4;5;2]));
  (*6330*) Assign (T 486) (Plain (Zeros [0;1;1;1]));
  (*6331*) AddTo (T 486) (Plain (Einsum [(n_t2,[0;1;2;3]); (n_l3,[4;3;5;0;6;1])] [6;4;5;2]));
  (*6332*) Assign (T 487) (Plain (Zeros [0;1;1;1]));
  (*6333*) AddTo (T 487) (Times (Einsum [(T 485,[0;1;2;3])] [0;1;2;3]) (2) 1);
  (*6334*) AddTo (T 487) (Times (Einsum [(T 486,[0;1;2;3])] [0;1;2;3]) (-1) 1);
  (*6335*) AddTo (T 487) (Plain (Einsum [(T 486,[0;1;2;3])] [0;2;1;3]));
  (*6336*) Assign (T 488) (Plain (Zeros [0;1;1;1]));
  (*6337*) AddTo (T 488) (Times (Einsum [(T 33,[0;1;2;3]); (T 487,[0;4;3;5])] [1;4;5;2]) (1) 2);
  (*6338*) Del (T 487);
  (*6339*) AddTo n_rdm2_f_ovvv (Plain (Einsum [(T 488,[0;1;2;3])] [0;1;2;3]));
  (*6340*) AddTo n_rdm2_f_ovvv (Plain (Einsum [(T 488,[0;1;2;3])] [0;1;2;3]));
  (*6341*) Del (T 488);
  (*6342*) Assign (T 489) (Plain (Zeros [0;1;1;1]));
  (*6343*) AddTo (T 489) (Times (Einsum [(n_t2,[0;1;2;3]); (T 271,[1;4;2;5])] [0;4;5;3]) (1) 2);
  (*6344*) Del (T 271);
  (*6345*) AddTo n_rdm2_f_ovvv (Times (Einsum [(T 489,[0;1;2;3])] [0;1;3;2]) (-1) 1);
  (*6346*) AddTo n_rdm2_f_ovvv (Times (Einsum [(T 489,[0;1;2;3])] [0;1;3;2]) (-1) 1);
  (*6347*) Del (T 489);
  (*6348*) Assign (T 490) (Plain (Zeros [0;1;1;1]));
  (*6349*) AddTo (T 490) (Plain (Einsum [(T 7,[0;1;2;3]); (n_l3,[4;5;2;6;0;1])] [6;4;5;3]));
  (*6350*) Assign (T 491) (Plain (Zeros [0;1;1;1]));
  (*6351*) AddTo (T 491) (Times (Einsum [(n_t2,[0;1;2;3]); (T 490,[1;4;3;5])] [0;4;5;2]) (-1) 1);
  (*6352*) AddTo n_rdm2_f_ovvv (Plain (Einsum [(T 491,[0;1;2;3])] [0;1;3;2]));
  (*6353*) AddTo n_rdm2_f_ovvv (Plain (Einsum [(T 491,[0;1;2;3])] [0;1;3;2]));
  (*6354*) Del (T 491);
  (*6355*) Assign (T 492) (Plain (Zeros [0;0;1;1]));
  (*6356*) AddTo (T 492) (Times (Einsum [(n_t1,[0;1]); (T 11,[2;0;3;4])] [2;3;1;4]) (3) 1);
  (*6357*) Assign (T 493) (Plain (Zeros [0;1;1;1]));
  (*6358*) AddTo (T 493) (Times (Einsum [(n_t1,[0;1]); (T 492,[0;2;3;4])] [2;4;3;1]) (1) 2);
  (*6359*) Del (T 492);
  (*6360*) AddTo n_rdm2_f_ovvv (Times (Einsum [(T 493,[0;1;2;3])] [0;1;3;2]) (-1) 1);
  (*6361*) AddTo n_rdm2_f_ovvv (Times (Einsum [(T 493,[0;1;2;3])] [0;1;3;2]) (-1) 1);
  (*6362*) Del (T 493);
  (*6363*) Assign (T 494) (Plain (Zeros [0;1;1;1]));
  (*6364*) AddTo (T 494) (Plain (Einsum [(n_l2,[0;1;2;3]); (n_t3,[4;2;3;5;6;1])] [4;0;5;6]));
  (*6365*) AddTo n_rdm2_f_ovvv (Plain (Einsum [(T 494,[0;1;2;3])] [0;1;2;3]));
  (*6366*) AddTo n_rdm2_f_ovvv (Plain (Einsum [(T 494,[0;1;2;3])] [0;1;2;3]));
  (*6367*) AddTo n_rdm2_f_vovv (Plain (Einsum [(T 494,[0;1;2;3])] [1;0;3;2]));
  (*6368*) AddTo n_rdm2_f_vovv (Plain (Einsum [(T 494,[0;1;2;3])] [1;0;3;2]));
  (*6369*) Del (T 494);
  (*6370*) Assign (T 495) (Plain (Zeros [0;1;1;1]));
  (*6371*) AddTo (T 495) (Plain (Einsum [(n_t3,[0;1;2;3;4;5]); (T 43,[2;0;1;6;5;7])] [6;7;3;4]));
  (*6372*) Del (T 43);
  (*6373*) AddTo n_rdm2_f_ovvv (Times (Einsum [(T 495,[0;1;2;3])] [0;1;2;3]) (-50000000000001) 100000000000000);
  (*6374*) AddTo n_rdm2_f_ovvv (Times (Einsum [(T 495,[0;1;2;3])] [0;1;2;3]) (-50000000000001) 100000000000000);
  (*6375*) AddTo n_rdm2_f_vovv (Times (Einsum [(T 495,[0;1;2;3])] [1;0;3;2]) (-50000000000001) 100000000000000);
  (*6376*) AddTo n_rdm2_f_vovv (Times (Einsum [(T 495,[0;1;2;3])] [1;0;3;2]) (-50000000000001) 100000000000000);
  (*6377*) Del (T 495);
  (*6378*) Assign (T 496) (Plain (Zeros [0;1;1;1]));
  (*6379*) AddTo (T 496) (Plain (Einsum [(n_t3,[0;1;2;3;4;5]); (T 36,[0;2;1;6;7;5])] [6;7;3;4]));
  (*6380*) AddTo n_rdm2_f_ovvv (Times (Einsum [(T 496,[0;1;2;3])] [0;1;3;2]) (-50000000000001) 100000000000000);
  (*6381*) AddTo n_rdm2_f_ovvv (Times (Einsum [(T 496,[0;1;2;3])] [0;1;3;2]) (-50000000000001) 100000000000000);
  (*6382*) AddTo n_rdm2_f_vovv (Times (Einsum [(T 496,[0;1;2;3])] [1;0;2;3]) (-50000000000001) 100000000000000);
  (*6383*) AddTo n_rdm2_f_vovv (Times (Einsum [(T 496,[0;1;2;3])] [1;0;2;3]) (-50000000000001) 100000000000000);
  (*6384*) Del (T 496);
  (*6385*) Assign (T 497) (Plain (Zeros [0;1;1;1]));
  (*6386*) AddTo (T 497) (Times (Einsum [(T 275,[0;1;2;3]); (n_t3,[0;4;1;5;6;3])] [4;2;5;6]) (1) 2);
  (*6387*) Del (T 275);
  (*6388*) AddTo n_rdm2_f_ovvv (Times (Einsum [(T 497,[0;1;2;3])] [0;1;3;2]) (-1) 1);
  (*6389*) AddTo n_rdm2_f_ovvv (Times (Einsum [(T 497,[0;1;2;3])] [0;1;3;2]) (-1) 1);
  (*6390*) AddTo n_rdm2_f_vovv (Times (Einsum [(T 497,[0;1;2;3])] [1;0;2;3]) (-1) 1);
  (*6391*) AddTo n_rdm2_f_vovv (Times (Einsum [(T 497,[0;1;2;3])] [1;0;2;3]) (-1) 1);
  (*6392*) Del (T 497);
  (*6393*) Assign (T 498) (Plain (Zeros [0;0;0;1;1;1]));
  (*6394*) AddTo (T 498) (Plain (Einsum [(n_l3,[0;1;2;3;4;5])] [5;3;4;0;2;1]));
  (*6395*) AddTo (T 498) (Times (Einsum [(n_l3,[0;1;2;3;4;5])] [3;5;4;0;2;1]) (-1) 1);
  (*6396*) AddTo (T 498) (Plain (Einsum [(n_l3,[0;1;2;3;4;5])] [4;5;3;0;2;1]));
  (*6397*) AddTo (T 498) (Times (Einsum [(n_l3,[0;1;2;3;4;5])] [4;5;3;0;1;2]) (-1) 1);
  (*6398*) Assign (T 499) (Plain (Zeros [0;1;1;1]));
  (*6399*) AddTo (T 499) (Plain (Einsum [(n_t2,[0;1;2;3]); (T 498,[0;1;4;5;2;6])] [4;5;6;3]));
  (*6400*) Del (T 498);
  (*6401*) Assign (T 500) (Plain (Zeros [0;1;1;1]));
  (*6402*) AddTo (T 500) (Times (Einsum [(T 264,[0;1;2;3])] [0;1;2;3]) (-1) 1);
  (*6403*) AddTo (T 500) (Plain (Einsum [(T 264,[0;1;2;3])] [0;2;1;3]));
  (*6404*) AddTo (T 500) (Plain (Einsum [(T 499,[0;1;2;3])] [0;1;2;3]));
  (*6405*) Del (T 499);
  (*6406*) Assign (T 501) (Plain (Zeros [0;1;1;1]));
  (*6407*) AddTo (T 501) (Plain (Einsum [(n_t2,[0;1;2;3]); (T 500,[1;4;3;5])] [0;4;5;2]));
  (*6408*) Del (T 500);
  (*6409*) AddTo n_rdm2_f_ovvv (Plain (Einsum [(T 501,[0;1;2;3])] [0;1;3;2]));
  (*6410*) AddTo n_rdm2_f_ovvv (Plain (Einsum [(T 501,[0;1;2;3])] [0;1;3;2]));
  (*6411*) Del (T 501);
  (*6412*) Assign (T 502) (Plain (Zeros [0;1;1;1]));
  (*6413*) AddTo (T 502) (Times (Einsum [(n_t2,[0;1;2;3]); (T 128,[0;1;4;5;2;6])] [4;3;5;6]) (1) 2);
  (*6414*) Del (T 128);
  (*6415*) AddTo n_rdm2_f_vvov (Times (Einsum [(T 502,[0;1;2;3])] [3;2;0;1]) (-1) 1);
  (*6416*) AddTo n_rdm2_f_vvov (Times (Einsum [(T 502,[0;1;2;3])] [3;2;0;1]) (-1) 1);
  (*6417*) AddTo n_rdm2_f_vvvo (Times (Einsum [(T 502,[0;1;2;3])] [2;3;1;0]) (-1) 1);
  (*6418*) AddTo n_rdm2_f_vvvo (Times (Einsum [(T 502,[0;1;2;3])] [2;3;1;0]) (-1) 1);
  (*6419*) Assign (T 503) (Plain (Zeros [0;1;1;1]));
  (*6420*) AddTo (T 503) (Plain (Einsum [(T 264,[0;1;2;3])] [0;1;2;3]));
  (*6421*) AddTo (T 503) (Times (Einsum [(T 502,[0;1;2;3])] [0;3;2;1]) (-1) 1);
  (*6422*) Del (T 502);
  (*6423*) Assign (T 504) (Plain (Zeros [0;1;1;1]));
  (*6424*) AddTo (T 504) (Plain (Einsum [(n_t2,[0;1;2;3]); (T 503,[1;4;2;5])] [0;4;5;3]));
  (*6425*) AddTo n_rdm2_f_ovvv (Times (Einsum [(T 504,[0;1;2;3])] [0;1;2;3]) (-1) 1);
  (*6426*) AddTo n_rdm2_f_ovvv (Times (Einsum [(T 504,[0;1;2;3])] [0;1;2;3]) (-1) 1);
  (*6427*) Del (T 504);
  (*6428*) Assign (T 505) (Plain (Zeros [0;1;1;1]));
  (*6429*) AddTo (T 505) (Times (Einsum [(T 264,[0;1;2;3])] [0;1;2;3]) (2) 1);
  (*6430*) AddTo (T 505) (Times (Einsum [(T 129,[0;1;2;3])] [0;3;2;1]) (-1) 1);
  (*6431*) Assign (T 506) (Plain (Zeros [0;1;1;1]));
  (*6432*) AddTo (T 506) (Times (Einsum [(n_t2,[0;1;2;3]); (T 505,[1;2;4;5])] [0;4;5;3]) (1) 2);
  (*6433*) Del (T 505);
  (*6434*) AddTo n_rdm2_f_ovvv (Times (Einsum [(T 506,[0;1;2;3])] [0;1;3;2]) (-1) 1);
  (*6435*) AddTo n_rdm2_f_ovvv (Times (Einsum [(T 506,[0;1;2;3])] [0;1;3;2]) (-1) 1);
  (*6436*) Del (T 506);
  (*6437*) Assign (T 507) (Plain (Zeros [0;0;1;1]));
  (*6438*) AddTo (T 507) (Times (Einsum [(n_l3,[0;1;2;3;4;5]); (T 350,[4;6;5;1;7;2])] [6;3;7;0]) (1) 8);
  (*6439*) Del (T 350);
  (*6440*) Assign (T 508) (Plain (Zeros [0;0;0;1;1;1]));
  (*6441*) AddTo (T 508) (Plain (Einsum [(n_l3,[0;1;2;3;4;5])] [5;3;4;0;2;1]));
  (*6442*) AddTo (T 508) (Times (Einsum [(n_l3,[0;1;2;3;4;5])] [3;5;4;0;2;1]) (-1) 1);
  (*6443*) Assign (T 509) (Plain (Zeros [0;0;1;1]));
  (*6444*) AddTo (T 509) (Times (Einsum [(n_t3,[0;1;2;3;4;5]); (T 508,[1;2;6;4;5;7])] [6;0;7;3]) (1) 8);
  (*6445*) Assign (T 510) (Plain (Zeros [0;0;1;1]));
  (*6446*) AddTo (T 510) (Times (Einsum [(n_t2,[0;1;2;3]); (T 251,[0;1;4;5;3;6])] [4;5;6;2]) (1) 4);
  (*6447*) Del (T 251);
  (*6448*) Assign (T 511) (Plain (Zeros [0;0;1;1]));
  (*6449*) AddTo (T 511) (Times (Einsum [(n_l2,[0;1;2;3]); (T 358,[3;4;1;5])] [4;2;5;0]) (1) 2);
  (*6450*) Assign (T 512) (Plain (Zeros [0;0;1;1]));
  (*6451*) AddTo (T 512) (Times (Einsum [(n_t1,[0;1]); (T 131,[2;0;3;4])] [2;3;1;4]) (1) 4);
  (*6452*) Del (T 131);
  (*6453*) Assign (T 513) (Plain (Zeros [0;0;1;1]));
  (*6454*) AddTo (T 513) (Times (Einsum [(T 438,[0;1;2;3])] [0;1;2;3]) (1) 2);
  (*6455*) Del (T 438);
  (*6456*) AddTo (T 513) (Times (Einsum [(T 436,[0;1;2;3])] [0;1;2;3]) (1) 8);
  (*6457*) Del (T 436);
  (*6458*) AddTo (T 513) (Times (Einsum [(T 184,[0;1;2;3])] [0;1;2;3]) (-1) 8);
  (*6459*) Del (T 184);
  (*6460*) AddTo (T 513) (Times (Einsum [(T 177,[0;1;2;3])] [0;1;2;3]) (1) 2);
  (*6461*) Del (T 177);
  (*6462*) AddTo (T 513) (Times (Einsum [(T 507,[0;1;2;3])] [1;0;3;2]) (-1) 1);
  (*6463*) Del (T 507);
  (*6464*) AddTo (T 513) (Plain (Einsum [(T 509,[0;1;2;3])] [0;1;2;3]));
  (*6465*) Del (T 509);
  (*6466*) AddTo (T 513) (Times (Einsum [(T 510,[0;1;2;3])] [0;1;2;3]) (-1) 1);
  (*6467*) Del (T 510);
  (*6468*) AddTo (T 513) (Times (Einsum [(T 511,[0;1;2;3])] [1;0;3;2]) (-1) 1);
  (*6469*) Del (T 511);
  (*6470*) AddTo (T 513) (Plain (Einsum [(T 512,[0;1;2;3])] [0;1;3;2]));
  (*6471*) Del (T 512);
  (*6472*) Assign (T 514) (Plain (Zeros [0;1;1;1]));
  (*6473*) AddTo (T 514) (Times (Einsum [(n_t1,[0;1]); (T 513,[0;2;3;4])] [2;3;4;1]) (2) 1);
  (*6474*) Del (T 513);
  (*6475*) AddTo n_rdm2_f_ovvv (Times (Einsum [(T 514,[0;1;2;3])] [0;1;2;3]) (-1) 1);
  (*6476*) AddTo n_rdm2_f_ovvv (Times (Einsum [(T 514,[0;1;2;3])] [0;1;2;3]) (-1) 1);
  (*6477*) AddTo n_rdm2_f_vovv (Times (Einsum [(T 514,[0;1;2;3])] [1;0;3;2]) (-1) 1);
  (*6478*) AddTo n_rdm2_f_vovv (Times (Einsum [(T 514,[0;1;2;3])] [1;0;3;2]) (-1) 1);
  (*6479*) Del (T 514);
  (*6480*) Assign (T 515) (Plain (Zeros [0;0;0;1]));
  (*6481*) AddTo (T 515) (Plain (Einsum [(T 24,[0;1;2;3])] [0;1;2;3]));
  (*6482*) Del (T 24);
  (*6483*) AddTo (T 515) (Times (Einsum [(T 332,[0;1;2;3])] [0;1;2;3]) (-1) 1);
  (*6484*) Del (T 332);
  (*6485*) Assign (T 516) (Plain (Zeros [0;1;1;1]));
  (*6486*) AddTo (T 516) (Plain (Einsum [(n_t2,[0;1;2;3]); (T 515,[0;1;4;5])] [4;5;3;2]));
  (*6487*) Del (T 515);
  (*6488*) AddTo n_rdm2_f_ovvv (Times (Einsum [(T 516,[0;1;2;3])] [0;1;2;3]) (-1) 1);
  (*6489*) AddTo n_rdm2_f_ovvv (Times (Einsum [(T 516,[0;1;2;3])] [0;1;2;3]) (-1) 1);
  (*6490*) AddTo n_rdm2_f_vovv (Times (Einsum [(T 516,[0;1;2;3])] [1;0;3;2]) (-1) 1);
  (*6491*) AddTo n_rdm2_f_vovv (Times (Einsum [(T 516,[0;1;2;3])] [1;0;3;2]) (-1) 1);
  (*6492*) Del (T 516);
  (*6493*) Assign (T 517) (Plain (Zeros [0;1;1;1]));
  (*6494*) AddTo (T 517) (Times (Einsum [(n_t2,[0;1;2;3]); (T 34,[0;1;4;5])] [4;3;2;5]) (-1) 2);
  (*6495*) Del (T 34);
  (*6496*) AddTo n_rdm2_f_ovvv (Times (Einsum [(T 517,[0;1;2;3])] [0;3;2;1]) (-1) 1);
  (*6497*) AddTo n_rdm2_f_ovvv (Times (Einsum [(T 517,[0;1;2;3])] [0;3;2;1]) (-1) 1);
  (*6498*) AddTo n_rdm2_f_vovv (Times (Einsum [(T 517,[0;1;2;3])] [3;0;1;2]) (-1) 1);
  (*6499*) AddTo n_rdm2_f_vovv (Times (Einsum [(T 517,[0;1;2;3])] [3;0;1;2]) (-1) 1);
  (*6500*) Del (T 517);
  (*6501*) Assign (T 518) (Plain (Zeros [0;0;1;1]));
  (*6502*) AddTo (T 518) (Times (Einsum [(n_t2,[0;1;2;3]); (T 144,[0;1;4;5;6;2])] [4;5;3;6]) (1) 2);
  (*6503*) Del (T 144);
  (*6504*) Assign (T 519) (Plain (Zeros [0;0;1;1]));
  (*6505*) AddTo (T 519) (Plain (Einsum [(T 400,[0;1;2;3])] [0;1;2;3]));
  (*6506*) Del (T 400);
  (*6507*) AddTo (T 519) (Times (Einsum [(T 375,[0;1;2;3])] [0;1;2;3]) (1) 2);
  (*6508*) Del (T 375);
  (*6509*) AddTo (T 519) (Times (Einsum [(T 376,[0;1;2;3])] [0;1;2;3]) (1) 2);
  (*6510*) Del (T 376);
  (*6511*) AddTo (T 519) (Plain (Einsum [(T 401,[0;1;2;3])] [0;1;2;3]));
  (*6512*) Del (T 401);
  (*6513*) AddTo (T 519) (Times (Einsum [(T 518,[0;1;2;3])] [0;1;3;2]) (-1) 1);
  (*6514*) Del (T 518);
  (*6515*) Assign (T 520) (Plain (Zeros [0;1;1;1]));
  (*6516*) AddTo (T 520) (Plain (Einsum [(n_t1,[0;1]); (T 519,[0;2;3;4])] [2;3;4;1]));
  (*6517*) Del (T 519);
  (*6518*) AddTo n_rdm2_f_ovvv (Times (Einsum [(T 520,[0;1;2;3])] [0;1;3;2]) (-1) 1);
  (*6519*) AddTo n_rdm2_f_ovvv (Times (Einsum [(T 520,[0;1;2;3])] [0;1;3;2]) (-1) 1);
  (*6520*) AddTo n_rdm2_f_vovv (Times (Einsum [(T 520,[0;1;2;3])] [1;0;2;3]) (-1) 1);
  (*6521*) AddTo n_rdm2_f_vovv (Times (Einsum [(T 520,[0;1;2;3])] [1;0;2;3]) (-1) 1);
  (*6522*) Del (T 520);
  (*6523*) Assign (T 521) (Plain (Zeros [1;1]));
  (*6524*) AddTo (T 521) (Times (Einsum [(n_l3,[0;1;2;3;4;5]); (T 205,[4;3;5;1;6;2])] [0;6]) (8333333333333) 200000000000000);
  (*6525*) Del (T 205);
  (*6526*) Assign (T 522) (Plain (Zeros [1;1]));
  (*6527*) AddTo (T 522) (Times (Einsum [(n_l3,[0;1;2;3;4;5]); (T 46,[4;5;3;6;1;2])] [0;6]) (8333333333333) 200000000000000);
  (*6528*) Del (T 46);
  (*6529*) Assign (T 523) (Plain (Zeros [1;1]));
  (*6530*) AddTo (T 523) (Plain (Einsum [(n_t2,[0;1;2;3]); (T 97,[0;1;2;4])] [3;4]));
  (*6531*) Del (T 97);
  (*6532*) Assign (T 524) (Plain (Zeros [1;1]));
  (*6533*) AddTo (T 524) (Times (Einsum [(T 422,[0;1])] [0;1]) (1) 2);
  (*6534*) Del (T 422);
  (*6535*) AddTo (T 524) (Times (Einsum [(T 204,[0;1])] [0;1]) (24999999999999) 200000000000000);
  (*6536*) Del (T 204);
  (*6537*) AddTo (T 524) (Plain (Einsum [(T 521,[0;1])] [0;1]));
  (*6538*) Del (T 521);
  (*6539*) AddTo (T 524) (Times (Einsum [(T 522,[0;1])] [0;1]) (-1) 1);
  (*6540*) Del (T 522);
  (*6541*) AddTo (T 524) (Plain (Einsum [(T 523,[0;1])] [1;0]));
  (*6542*) Del (T 523);
  (*6543*) AddTo n_rdm2_f_ovvv (Times (Einsum [(n_t1,[0;1]); (T 524,[2;3])] [0;2;1;3]) (2) 1);
  (*6544*) AddTo n_rdm2_f_ovvv (Times (Einsum [(n_t1,[0;1]); (T 524,[2;3])] [0;2;1;3]) (2) 1);
  (*6545*) AddTo n_rdm2_f_vovv (Times (Einsum [(n_t1,[0;1]); (T 524,[2;3])] [2;0;3;1]) (2) 1);
  (*6546*) AddTo n_rdm2_f_vovv (Times (Einsum [(n_t1,[0;1]); (T 524,[2;3])] [2;0;3;1]) (2) 1);
  (*6547*) Del (T 524);
  (*6548*) Assign (T 525) (Plain (Zeros [0;1;1;1]));
  (*6549*) AddTo (T 525) (Times (Einsum [(T 179,[0;1;2;3;4;5]); (T 36,[0;2;1;6;7;5])] [6;7;3;4]) (16666666666667) 100000000000000);
  (*6550*) Del (T 36);
  (*6550*) Del (T 179);
  (*6551*) AddTo n_rdm2_f_vovv (Times (Einsum [(T 525,[0;1;2;3])] [1;0;2;3]) (-1) 1);
  (*6552*) AddTo n_rdm2_f_vovv (Times (Einsum [(T 525,[0;1;2;3])] [1;0;2;3]) (-1) 1);
  (*6553*) Del (T 525);
  (*6554*) Assign (T 526) (Plain (Zeros [0;0;1;1]));
  (*6555*) AddTo (T 526) (Times (Einsum [(n_l2,[0;1;2;3])] [3;2;0;1]) (-1) 1);
  (*6556*) AddTo (T 526) (Times (Einsum [(n_l2,[0;1;2;3])] [2;3;0;1]) (3) 1);
  (*6557*) Assign (T 527) (Plain (Zeros [0;1;1;1]));
  (*6558*) AddTo (T 527) (Times (Einsum [(T 526,[0;1;2;3]); (n_t3,[4;1;0;5;3;6])] [4;2;6;5]) (1) 2);
  (*6559*) Del (T 526);
  (*6560*) AddTo n_rdm2_f_vovv (Times (Einsum [(T 527,[0;1;2;3])] [1;0;3;2]) (-1) 1);
  (*6561*) AddTo n_rdm2_f_vovv (Times (Einsum [(T 527,[0;1;2;3])] [1;0;3;2]) (-1) 1);
  (*6562*) Del (T 527);
  (*6563*) Assign (T 528) (Plain (Zeros [0;1;1;1]));
  (*6564*) AddTo (T 528) (Plain (Einsum [(T 485,[0;1;2;3])] [0;1;2;3]));
  (*6565*) Del (T 485);
  (*6566*) AddTo (T 528) (Times (Einsum [(T 486,[0;1;2;3])] [0;1;2;3]) (-1) 2);
  (*6567*) AddTo (T 528) (Times (Einsum [(T 486,[0;1;2;3])] [0;2;1;3]) (1) 2);
  (*6568*) Assign (T 529) (Plain (Zeros [0;1;1;1]));
  (*6569*) AddTo (T 529) (Plain (Einsum [(T 33,[0;1;2;3]); (T 528,[0;4;3;5])] [1;4;5;2]));
  (*6570*) Del (T 528);
  (*6571*) AddTo n_rdm2_f_vovv (Times (Einsum [(T 529,[0;1;2;3])] [1;0;2;3]) (-1) 1);
  (*6572*) AddTo n_rdm2_f_vovv (Times (Einsum [(T 529,[0;1;2;3])] [1;0;2;3]) (-1) 1);
  (*6573*) Del (T 529);
  (*6574*) Assign (T 530) (Plain (Zeros [0;1;1;1]));
  (*6575*) AddTo (T 530) (Times (Einsum [(T 490,[0;1;2;3]); (T 7,[0;4;2;5])] [4;1;3;5]) (-1) 1);
  (*6576*) Del (T 7);
  (*6576*) Del (T 490);
  (*6577*) AddTo n_rdm2_f_vovv (Plain (Einsum [(T 530,[0;1;2;3])] [1;0;3;2]));
  (*6578*) AddTo n_rdm2_f_vovv (Plain (Einsum [(T 530,[0;1;2;3])] [1;0;3;2]));
  (*6579*) Del (T 530);
  (*6580*) Assign (T 531) (Plain (Zeros [0;1;1;1]));
  (*6581*) AddTo (T 531) (Times (Einsum [(n_t2,[0;1;2;3]); (T 129,[1;4;5;2])] [0;3;5;4]) (-1) 2);
  (*6582*) AddTo n_rdm2_f_vovv (Plain (Einsum [(T 531,[0;1;2;3])] [2;0;1;3]));
  (*6583*) AddTo n_rdm2_f_vovv (Plain (Einsum [(T 531,[0;1;2;3])] [2;0;1;3]));
  (*6584*) Del (T 531);
  (*6585*) Assign (T 532) (Plain (Zeros [0;0;1;1]));
  (*6586*) AddTo (T 532) (Plain (Einsum [(n_t1,[0;1]); (T 11,[2;0;3;4])] [2;3;1;4]));
  (*6587*) Del (T 11);
  (*6588*) Assign (T 533) (Plain (Zeros [0;1;1;1]));
  (*6589*) AddTo (T 533) (Times (Einsum [(n_t1,[0;1]); (T 532,[0;2;3;4])] [2;4;3;1]) (3) 2);
  (*6590*) Del (T 532);
  (*6591*) AddTo n_rdm2_f_vovv (Plain (Einsum [(T 533,[0;1;2;3])] [1;0;3;2]));
  (*6592*) AddTo n_rdm2_f_vovv (Plain (Einsum [(T 533,[0;1;2;3])] [1;0;3;2]));
  (*6593*) Del (T 533);
  (*6594*) Assign (T 534) (Plain (Zeros [0;0;0;1;1;1]));
  (*6595*) AddTo (T 534) (Plain (Einsum [(n_l3,[0;1;2;3;4;5])] [5;3;4;0;2;1]));
  (*6596*) AddTo (T 534) (Times (Einsum [(n_l3,[0;1;2;3;4;5])] [3;5;4;0;2;1]) (-1) 1);
  (*6597*) AddTo (T 534) (Times (Einsum [(n_l3,[0;1;2;3;4;5])] [4;5;3;1;0;2]) (4) 1);
  (*6598*) Assign (T 535) (Plain (Zeros [0;1;1;1]));
  (*6599*) AddTo (T 535) (Plain (Einsum [(n_t2,[0;1;2;3]); (T 534,[0;1;4;2;5;6])] [4;5;6;3]));
  (*6600*) Del (T 534);
  (*6601*) Assign (T 536) (Plain (Zeros [0;0;0;1;1;1]));
  (*6602*) AddTo (T 536) (Plain (Einsum [(n_l3,[0;1;2;3;4;5])] [5;3;4;0;1;2]));
  (*6603*) AddTo (T 536) (Plain (Einsum [(n_l3,[0;1;2;3;4;5])] [3;5;4;0;2;1]));
  (*6604*) Assign (T 537) (Plain (Zeros [0;1;1;1]));
  (*6605*) AddTo (T 537) (Times (Einsum [(n_t2,[0;1;2;3]); (T 536,[1;4;0;5;6;3])] [4;5;6;2]) (2) 1);
  (*6606*) Del (T 536);
  (*6607*) Assign (T 538) (Plain (Zeros [0;1;1;1]));
  (*6608*) AddTo (T 538) (Plain (Einsum [(T 486,[0;1;2;3])] [0;1;2;3]));
  (*6609*) AddTo (T 538) (Times (Einsum [(T 486,[0;1;2;3])] [0;2;1;3]) (-1) 1);
  (*6610*) AddTo (T 538) (Times (Einsum [(T 535,[0;1;2;3])] [0;2;1;3]) (-1) 1);
  (*6611*) Del (T 535);
  (*6612*) AddTo (T 538) (Plain (Einsum [(T 537,[0;1;2;3])] [0;1;2;3]));
  (*6613*) Del (T 537);
  (*6614*) Assign (T 539) (Plain (Zeros [0;1;1;1]));
  (*6615*) AddTo (T 539) (Times (Einsum [(n_t2,[0;1;2;3]); (T 538,[1;3;4;5])] [0;4;5;2]) (1) 2);
  (*6616*) Del (T 538);
  (*6617*) AddTo n_rdm2_f_vovv (Plain (Einsum [(T 539,[0;1;2;3])] [1;0;2;3]));
  (*6618*) AddTo n_rdm2_f_vovv (Plain (Einsum [(T 539,[0;1;2;3])] [1;0;2;3]));
  (*6619*) Del (T 539);
  (*6620*) Assign (T 540) (Plain (Zeros [0;1;1;1]));
  (*6621*) AddTo (T 540) (Plain (Einsum [(n_t2,[0;1;2;3]); (T 508,[0;1;4;5;2;6])] [4;5;6;3]));
  (*6622*) Assign (T 541) (Plain (Zeros [0;1;1;1]));
  (*6623*) AddTo (T 541) (Times (Einsum [(T 48,[0;1;2;3])] [0;2;1;3]) (2) 1);
  (*6624*) Del (T 48);
  (*6625*) AddTo (T 541) (Times (Einsum [(T 540,[0;1;2;3])] [0;1;2;3]) (-1) 1);
  (*6626*) Del (T 540);
  (*6627*) Assign (T 542) (Plain (Zeros [0;1;1;1]));
  (*6628*) AddTo (T 542) (Times (Einsum [(n_t2,[0;1;2;3]); (T 541,[1;2;4;5])] [0;4;5;3]) (1) 2);
  (*6629*) Del (T 541);
  (*6630*) AddTo n_rdm2_f_vovv (Plain (Einsum [(T 542,[0;1;2;3])] [1;0;3;2]));
  (*6631*) AddTo n_rdm2_f_vovv (Plain (Einsum [(T 542,[0;1;2;3])] [1;0;3;2]));
  (*6632*) Del (T 542);
  (*6633*) Assign (T 543) (Plain (Zeros [0;1;1;1]));
  (*6634*) AddTo (T 543) (Plain (Einsum [(n_t2,[0;1;2;3]); (T 503,[1;2;4;5])] [0;4;5;3]));
  (*6635*) Del (T 503);
  (*6636*) AddTo n_rdm2_f_vovv (Times (Einsum [(T 543,[0;1;2;3])] [1;0;2;3]) (-1) 1);
  (*6637*) AddTo n_rdm2_f_vovv (Times (Einsum [(T 543,[0;1;2;3])] [1;0;2;3]) (-1) 1);
  (*6638*) Del (T 543);
  (*6639*) Assign (T 544) (Plain (Zeros [0;1;1;1]));
  (*6640*) AddTo (T 544) (Plain (Einsum [(n_t1,[0;1]); (n_l2,[2;3;4;0])] [4;2;3;1]));
  (*6641*) AddTo n_rdm2_f_vvov (Plain (Einsum [(T 544,[0;1;2;3])] [1;2;0;3]));
  (*6642*) AddTo n_rdm2_f_vvov (Plain (Einsum [(T 544,[0;1;2;3])] [1;2;0;3]));
  (*6643*) AddTo n_rdm2_f_vvvo (Plain (Einsum [(T 544,[0;1;2;3])] [2;1;3;0]));
  (*6644*) AddTo n_rdm2_f_vvvo (Plain (Einsum [(T 544,[0;1;2;3])] [2;1;3;0]));
  (*6645*) Assign (T 545) (Plain (Zeros [0;1;1;1]));
  (*6646*) AddTo (T 545) (Plain (Einsum [(T 544,[0;1;2;3])] [0;1;2;3]));
  (*6647*) AddTo (T 545) (Times (Einsum [(T 486,[0;1;2;3])] [0;1;2;3]) (1) 2);
  (*6648*) Del (T 486);
  (*6649*) AddTo n_rdm2_f_vvov (Plain (Einsum [(T 545,[0;1;2;3])] [1;2;0;3]));
  (*6650*) AddTo n_rdm2_f_vvov (Times (Einsum [(T 545,[0;1;2;3])] [2;1;0;3]) (-1) 1);
  (*6651*) AddTo n_rdm2_f_vvov (Plain (Einsum [(T 545,[0;1;2;3])] [1;2;0;3]));
  (*6652*) AddTo n_rdm2_f_vvov (Times (Einsum [(T 545,[0;1;2;3])] [2;1;0;3]) (-1) 1);
  (*6653*) AddTo n_rdm2_f_vvvo (Times (Einsum [(T 545,[0;1;2;3])] [1;2;3;0]) (-1) 1);
  (*6654*) AddTo n_rdm2_f_vvvo (Plain (Einsum [(T 545,[0;1;2;3])] [2;1;3;0]));
  (*6655*) AddTo n_rdm2_f_vvvo (Times (Einsum [(T 545,[0;1;2;3])] [1;2;3;0]) (-1) 1);
  (*6656*) AddTo n_rdm2_f_vvvo (Plain (Einsum [(T 545,[0;1;2;3])] [2;1;3;0]));
  (*6657*) Del (T 545);
  (*6658*) Assign (T 546) (Plain (Zeros [0;1;1;1]));
  (*6659*) AddTo (T 546) (Plain (Einsum [(T 358,[0;1;2;3]); (n_l3,[4;2;5;1;0;6])] [6;3;4;5]));
  (*6660*) Del (T 358);
  (*6661*) AddTo n_rdm2_f_vvov (Plain (Einsum [(T 546,[0;1;2;3])] [3;2;0;1]));
  (*6662*) AddTo n_rdm2_f_vvov (Plain (Einsum [(T 546,[0;1;2;3])] [3;2;0;1]));
  (*6663*) AddTo n_rdm2_f_vvvo (Times (Einsum [(T 546,[0;1;2;3])] [3;2;1;0]) (-1) 1);
  (*6664*) AddTo n_rdm2_f_vvvo (Times (Einsum [(T 546,[0;1;2;3])] [3;2;1;0]) (-1) 1);
  (*6665*) Del (T 546);
  (*6666*) Assign (T 547) (Plain (Zeros [1;1;1;1]));
  (*6667*) AddTo (T 547) (Plain (Einsum [(n_l3,[0;1;2;3;4;5]); (n_t3,[3;4;5;6;1;7])] [0;2;6;7]));
  (*6668*) Assign n_rdm2_f_vvvv (Plain (Zeros [1;1;1;1]));
  (*6669*) AddTo n_rdm2_f_vvvv (Times (Einsum [(T 547,[0;1;2;3])] [1;0;3;2]) (50000000000001) 100000000000000);
  (*6670*) AddTo n_rdm2_f_vvvv (Times (Einsum [(T 547,[0;1;2;3])] [1;0;3;2]) (50000000000001) 100000000000000);
  (*6671*) Del (T 547);
  (*6672*) Assign (T 548) (Plain (Zeros [1;1;1;1]));
  (*6673*) AddTo (T 548) (Plain (Einsum [(n_l3,[0;1;2;3;4;5]); (n_t3,[5;3;4;6;2;7])] [0;1;6;7]));
  (*6674*) AddTo n_rdm2_f_vvvv (Times (Einsum [(T 548,[0;1;2;3])] [1;0;3;2]) (-16666666666667) 100000000000000);
  (*6675*) AddTo n_rdm2_f_vvvv (Times (Einsum [(T 548,[0;1;2;3])] [1;0;3;2]) (-16666666666667) 100000000000000);
  (*6676*) Del (T 548);
  (*6677*) Assign (T 549) (Plain (Zeros [1;1;1;1]));
  (*6678*) AddTo (T 549) (Plain (Einsum [(n_l2,[0;1;2;3]); (n_t2,[2;3;4;5])] [0;1;4;5]));
  (*6679*) AddTo n_rdm2_f_vvvv (Plain (Einsum [(T 549,[0;1;2;3])] [1;0;3;2]));
  (*6680*) AddTo n_rdm2_f_vvvv (Plain (Einsum [(T 549,[0;1;2;3])] [1;0;3;2]));
  (*6681*) Assign (T 550) (Plain (Zeros [1;1;1;1]));
  (*6682*) AddTo (T 550) (Plain (Einsum [(n_l3,[0;1;2;3;4;5]); (n_t3,[5;3;4;2;6;7])] [0;1;7;6]));
  (*6683*) Assign (T 551) (Plain (Zeros [1;1;1;1]));
  (*6684*) AddTo (T 551) (Times (Einsum [(n_l3,[0;1;2;3;4;5]); (T 239,[3;5;4;6;2;7])] [6;7;0;1]) (16666666666667) 100000000000000);
  (*6685*) Assign (T 552) (Plain (Zeros [0;1;1;1]));
  (*6686*) AddTo (T 552) (Plain (Einsum [(T 33,[0;1;2;3]); (n_l3,[4;5;2;6;0;1])] [6;4;5;3]));
  (*6687*) Del (T 33);
  (*6688*) Assign (T 553) (Plain (Zeros [0;1;1;1]));
  (*6689*) AddTo (T 553) (Times (Einsum [(n_t2,[0;1;2;3]); (T 508,[0;1;4;5;2;6])] [4;5;6;3]) (1) 2);
  (*6690*) Del (T 508);
  (*6691*) Assign (T 554) (Plain (Zeros [0;1;1;1]));
  (*6692*) AddTo (T 554) (Plain (Einsum [(T 544,[0;1;2;3])] [0;1;2;3]));
  (*6693*) AddTo (T 554) (Times (Einsum [(T 552,[0;1;2;3])] [0;1;2;3]) (-1) 1);
  (*6694*) Del (T 552);
  (*6695*) AddTo (T 554) (Times (Einsum [(T 553,[0;1;2;3])] [0;1;2;3]) (-1) 1);
  (*6696*) Del (T 553);
  (*6697*) Assign (T 555) (Plain (Zeros [1;1;1;1]));
  (*6698*) AddTo (T 555) (Plain (Einsum [(n_t1,[0;1]); (T 554,[0;2;3;4])] [2;3;4;1]));
  (*6699*) Del (T 554);
  (*6700*) Assign (T 556) (Plain (Zeros [1;1;1;1]));
  (*6701*) AddTo (T 556) (Plain (Einsum [(T 549,[0;1;2;3])] [1;0;3;2]));
  (*6702*) Del (T 549);
  (*6703*) AddTo (T 556) (Times (Einsum [(T 550,[0;1;2;3])] [1;0;3;2]) (-16666666666667) 100000000000000);
  (*6704*) Del (T 550);
  (*6705*) AddTo (T 556) (Times (Einsum [(T 551,[0;1;2;3])] [3;2;1;0]) (-1) 1);
  (*6706*) Del (T 551);
  (*6707*) AddTo (T 556) (Plain (Einsum [(T 555,[0;1;2;3])] [1;0;2;3]));
  (*6708*) Del (T 555);
  (*6709*) AddTo n_rdm2_f_vvvv (Times (Einsum [(T 556,[0;1;2;3])] [0;1;3;2]) (-1) 1);
  (*6710*) AddTo n_rdm2_f_vvvv (Plain (Einsum [(T 556,[0;1;2;3])] [0;1;2;3]));
  (*6711*) AddTo n_rdm2_f_vvvv (Times (Einsum [(T 556,[0;1;2;3])] [0;1;3;2]) (-1) 1);
  (*6712*) AddTo n_rdm2_f_vvvv (Plain (Einsum [(T 556,[0;1;2;3])] [0;1;2;3]));
  (*6713*) Del (T 556);
  (*6714*) Assign (T 557) (Plain (Zeros [1;1;1;1]));
  (*6715*) AddTo (T 557) (Plain (Einsum [(n_t1,[0;1]); (T 259,[0;2;3;4])] [2;3;1;4]));
  (*6716*) Del (T 259);
  (*6717*) AddTo n_rdm2_f_vvvv (Plain (Einsum [(T 557,[0;1;2;3])] [0;1;2;3]));
  (*6718*) AddTo n_rdm2_f_vvvv (Times (Einsum [(T 557,[0;1;2;3])] [0;1;3;2]) (-1) 1);
  (*6719*) AddTo n_rdm2_f_vvvv (Plain (Einsum [(T 557,[0;1;2;3])] [0;1;2;3]));
  (*6720*) AddTo n_rdm2_f_vvvv (Times (Einsum [(T 557,[0;1;2;3])] [0;1;3;2]) (-1) 1);
  (*6721*) Del (T 557);
  (*6722*) Assign (T 558) (Plain (Zeros [1;1;1;1]));
  (*6723*) AddTo (T 558) (Times (Einsum [(n_l3,[0;1;2;3;4;5]); (T 239,[3;5;4;6;7;2])] [6;7;0;1]) (16666666666667) 100000000000000);
  (*6724*) Del (T 239);
  (*6725*) AddTo n_rdm2_f_vvvv (Times (Einsum [(T 558,[0;1;2;3])] [3;2;0;1]) (-1) 1);
  (*6726*) AddTo n_rdm2_f_vvvv (Times (Einsum [(T 558,[0;1;2;3])] [3;2;0;1]) (-1) 1);
  (*6727*) Del (T 558);
  (*6728*) Assign (T 559) (Plain (Zeros [1;1;1;1]));
  (*6729*) AddTo (T 559) (Plain (Einsum [(n_t1,[0;1]); (T 544,[0;2;3;4])] [3;2;4;1]));
  (*6730*) Del (T 544);
  (*6731*) AddTo n_rdm2_f_vvvv (Plain (Einsum [(T 559,[0;1;2;3])] [1;0;3;2]));
  (*6732*) AddTo n_rdm2_f_vvvv (Plain (Einsum [(T 559,[0;1;2;3])] [1;0;3;2]));
  (*6733*) Del (T 559);
  (*6734*) Assign (T 560) (Plain (Zeros [1;1;1;1]));
  (*6735*) AddTo (T 560) (Plain (Einsum [(n_l3,[0;1;2;3;4;5]); (n_t3,[3;4;5;6;7;2])] [0;1;6;7]));
  (*6736*) Assign (T 561) (Plain (Zeros [1;1;1;1]));
  (*6737*) AddTo (T 561) (Plain (Einsum [(n_t1,[0;1]); (T 264,[0;2;3;4])] [2;3;1;4]));
  (*6738*) Del (T 264);
  (*6739*) Assign (T 562) (Plain (Zeros [1;1;1;1]));
  (*6740*) AddTo (T 562) (Times (Einsum [(T 560,[0;1;2;3])] [0;1;2;3]) (50000000000001) 100000000000000);
  (*6741*) Del (T 560);
  (*6742*) AddTo (T 562) (Plain (Einsum [(T 561,[0;1;2;3])] [0;1;2;3]));
  (*6743*) Del (T 561);
  (*6744*) AddTo n_rdm2_f_vvvv (Plain (Einsum [(T 562,[0;1;2;3])] [0;1;2;3]));
  (*6745*) AddTo n_rdm2_f_vvvv (Plain (Einsum [(T 562,[0;1;2;3])] [1;0;3;2]));
  (*6746*) AddTo n_rdm2_f_vvvv (Plain (Einsum [(T 562,[0;1;2;3])] [0;1;2;3]));
  (*6747*) AddTo n_rdm2_f_vvvv (Plain (Einsum [(T 562,[0;1;2;3])] [1;0;3;2]));
  (*6748*) Del (T 562);
  (*6749*) Assign (T 563) (Plain (Zeros [1;1;1;1]));
  (*6750*) AddTo (T 563) (Times (Einsum [(n_t1,[0;1]); (T 129,[0;2;3;4])] [1;3;4;2]) (-1) 2);
  (*6751*) Del (T 129);
  (*6752*) AddTo n_rdm2_f_vvvv (Plain (Einsum [(T 563,[0;1;2;3])] [1;2;3;0]));
  (*6753*) AddTo n_rdm2_f_vvvv (Plain (Einsum [(T 563,[0;1;2;3])] [2;1;0;3]));
  (*6754*) AddTo n_rdm2_f_vvvv (Plain (Einsum [(T 563,[0;1;2;3])] [1;2;3;0]));
  (*6755*) AddTo n_rdm2_f_vvvv (Plain (Einsum [(T 563,[0;1;2;3])] [2;1;0;3]));
  (*6756*) Del (T 563)]
 [(n_rdm2_f_oooo,[0;0;0;0]); (n_rdm2_f_ooov,[0;0;0;1]); (n_rdm2_f_oovo,[0;0;1;0]); (n_rdm2_f_ovoo,[0;1;0;0]); (n_rdm2_f_vooo,[1;0;0;0]); (n_rdm2_f_oovv,[0;0;1;1]); (n_rdm2_f_ovov,[0;1;0;1]); (n_rdm2_f_ovvo,[0;1;1;0]); (n_rdm2_f_voov,[1;0;0;1]); (n_rdm2_f_vovo,[1;0;1;0]); (n_rdm2_f_vvoo,[1;1;0;0]); (n_rdm2_f_ovvv,[0;1;1;1]); (n_rdm2_f_vovv,[1;0;1;1]); (n_rdm2_f_vvov,[1;1;0;1]); (n_rdm2_f_vvvo,[1;1;1;0]); (n_rdm2_f_vvvv,[1;1;1;1])].

