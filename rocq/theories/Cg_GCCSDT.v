(** Generated by tools/translate_codegen.py from ebcc/codegen/GCCSDT.py; one statement per source line
    (the number in the comment before it). *)
From Coq Require Import ZArith List.
From Verif Require Import CgModel CgNames.
Import ListNotations.

(** ebcc/codegen/GCCSDT.py:7-17 [energy] *)
Definition GCCSDT_energy : prog := mkprog
 [(n_f'ov,[0;1]); (n_t1,[0;1]); (n_t2,[0;0;1;1]); (n_v'oovv,[0;0;1;1])]
 [(*9*) Assign n_e_cc (Plain (Zeros []));
  (*10*) AddTo n_e_cc (Plain (Einsum [(n_f'ov,[0;1]); (n_t1,[0;1])] []));
  (*11*) Assign (T 1) (Plain (Zeros [0;0;1;1]));
  (*12*) AddTo (T 1) (Plain (Einsum [(n_t2,[0;1;2;3])] [0;1;2;3]));
  (*13*) AddTo (T 1) (Times (Einsum [(n_t1,[0;1]); (n_t1,[2;3])] [0;2;1;3]) (2) 1);
  (*14*) AddTo n_e_cc (Times (Einsum [(n_v'oovv,[0;1;2;3]); (T 1,[0;1;2;3])] []) (1) 4);
  (*15*) Del (T 1)]
 [(n_e_cc,[])].

(** ebcc/codegen/GCCSDT.py:19-569 [update_amps] *)
Definition GCCSDT_update_amps : prog := mkprog
 [(n_f'vv,[1;1]); (n_t1,[0;1]); (n_v'oovv,[0;0;1;1]); (n_t3,[0;0;0;1;1;1]); (n_f'ov,[0;1]); (n_v'ovov,[0;1;0;1]); (n_v'ooov,[0;0;0;1]); (n_t2,[0;0;1;1]); (n_v'ovvv,[0;1;1;1]); (n_f'oo,[0;0]); (n_v'vvvv,[1;1;1;1]); (n_v'oooo,[0;0;0;0])]
 [(*21*) Assign n_t1new (Plain (Zeros [0;1]));
  (*22*) AddTo n_t1new (Plain (Einsum [(n_f'vv,[0;1]); (n_t1,[2;1])] [2;0]));
  (*23*) AddTo n_t1new (Times (Einsum [(n_v'oovv,[0;1;2;3]); (n_t3,[4;0;1;5;2;3])] [4;5]) (1) 4);
  (*24*) AddTo n_t1new (Plain (Einsum [(n_f'ov,[0;1])] [0;1]));
  (*25*) AddTo n_t1new (Times (Einsum [(n_t1,[0;1]); (n_v'ovov,[2;1;0;3])] [2;3]) (-1) 1);
  (*26*) Assign n_t2new (Plain (Zeros [0;0;1;1]));
  (*27*) AddTo n_t2new (Plain (Einsum [(n_v'oovv,[0;1;2;3])] [0;1;2;3]));
  (*28*) Assign (T 1) (Plain (Zeros [0;0;0;1]));
  (*29*) AddTo (T 1) (Plain (Einsum [(n_t1,[0;1]); (n_v'oovv,[2;3;4;1])] [0;2;3;4]));
  (*30*) Assign (T 2) (Plain (Zeros [0;0;0;1]));
  (*31*) AddTo (T 2) (Times (Einsum [(n_v'ooov,[0;1;2;3])] [2;0;1;3]) (-1) 1);
  (*32*) AddTo (T 2) (Times (Einsum [(T 1,[0;1;2;3])] [0;2;1;3]) (-1) 1);
  (*33*) AddTo n_t1new (Times (Einsum [(n_t2,[0;1;2;3]); (T 2,[4;1;0;3])] [4;2]) (-1) 2);
  (*34*) Del (T 2);
  (*35*) Assign (T 3) (Plain (Zeros [0;0;1;1]));
  (*36*) AddTo (T 3) (Plain (Einsum [(n_t2,[0;1;2;3])] [0;1;2;3]));
  (*37*) AddTo (T 3) (Times (Einsum [(n_t1,[0;1]); (n_t1,[2;3])] [0;2;1;3]) (2) 1);
  (*38*) AddTo n_t1new (Times (Einsum [(n_v'ovvv,[0;1;2;3]); (T 3,[0;4;2;3])] [4;1]) (1) 2);
  (*39*) Assign (T 4) (Plain (Zeros [0;1]));
  (*40*) AddTo (T 4) (Plain (Einsum [(n_t1,[0;1]); (n_v'oovv,[2;0;3;1])] [2;3]));
  (*41*) Assign (T 5) (Plain (Zeros [0;1]));
  (*42*) AddTo (T 5) (Plain (Einsum [(n_f'ov,[0;1])] [0;1]));
  (*43*) AddTo (T 5) (Plain (Einsum [(T 4,[0;1])] [0;1]));
  (*44*) Del (T 4);
  (*45*) AddTo n_t1new (Plain (Einsum [(T 5,[0;1]); (n_t2,[2;0;3;1])] [2;3]));
  (*46*) AddTo n_t2new (Plain (Einsum [(T 5,[0;1]); (n_t3,[2;3;0;4;5;1])] [2;3;4;5]));
  (*47*) Assign (T 6) (Plain (Zeros [0;0]));
  (*48*) AddTo (T 6) (Plain (Einsum [(n_f'ov,[0;1]); (n_t1,[2;1])] [0;2]));
  (*49*) Assign (T 7) (Plain (Zeros [0;0]));
  (*50*) AddTo (T 7) (Plain (Einsum [(n_t1,[0;1]); (n_v'ooov,[2;0;3;1])] [2;3]));
  (*51*) Assign (T 8) (Plain (Zeros [0;0]));
  (*52*) AddTo (T 8) (Times (Einsum [(n_v'oovv,[0;1;2;3]); (T 3,[1;4;2;3])] [4;0]) (-1) 1);
  (*53*) Assign (T 9) (Plain (Zeros [0;0]));
  (*54*) AddTo (T 9) (Times (Einsum [(n_f'oo,[0;1])] [0;1]) (2) 1);
  (*55*) AddTo (T 9) (Times (Einsum [(T 6,[0;1])] [0;1]) (2) 1);
  (*56*) AddTo (T 9) (Times (Einsum [(T 7,[0;1])] [0;1]) (2) 1);
  (*57*) AddTo (T 9) (Plain (Einsum [(T 8,[0;1])] [1;0]));
  (*58*) AddTo n_t1new (Times (Einsum [(n_t1,[0;1]); (T 9,[0;2])] [2;1]) (-1) 2);
  (*59*) Del (T 9);
  (*60*) Assign (T 10) (Plain (Zeros [0;0;1;1]));
  (*61*) AddTo (T 10) (Plain (Einsum [(n_t1,[0;1]); (n_v'ovvv,[2;1;3;4])] [0;2;3;4]));
  (*62*) Assign (T 11) (Plain (Zeros [0;0;1;1]));
  (*63*) AddTo (T 11) (Plain (Einsum [(n_v'ooov,[0;1;2;3]); (n_t3,[4;0;1;5;6;3])] [4;2;5;6]));
  (*64*) Assign (T 12) (Plain (Zeros [0;0;1;1]));
  (*65*) AddTo (T 12) (Plain (Einsum [(T 1,[0;1;2;3]); (n_t3,[4;2;1;5;6;3])] [0;4;5;6]));
  (*66*) Assign (T 13) (Plain (Zeros [0;0]));
  (*67*) AddTo (T 13) (Plain (Einsum [(n_t1,[0;1]); (T 5,[2;1])] [2;0]));
  (*68*) Assign (T 14) (Plain (Zeros [0;0]));
  (*69*) AddTo (T 14) (Plain (Einsum [(n_f'oo,[0;1])] [0;1]));
  (*70*) AddTo (T 14) (Plain (Einsum [(T 13,[0;1])] [1;0]));
  (*71*) Del (T 13);
  (*72*) Assign (T 15) (Plain (Zeros [0;0;1;1]));
  (*73*) AddTo (T 15) (Times (Einsum [(T 14,[0;1]); (n_t2,[2;1;3;4])] [2;0;3;4]) (-1) 1);
  (*74*) Del (T 14);
  (*75*) Assign (T 16) (Plain (Zeros [0;0;0;0]));
  (*76*) AddTo (T 16) (Plain (Einsum [(n_t1,[0;1]); (n_v'ooov,[2;3;4;1])] [0;2;3;4]));
  (*77*) Assign (T 17) (Plain (Zeros [0;0;1;1]));
  (*78*) AddTo (T 17) (Times (Einsum [(T 16,[0;1;2;3]); (T 3,[1;2;4;5])] [0;3;4;5]) (1) 2);
  (*79*) Assign (T 18) (Plain (Zeros [0;0]));
  (*80*) AddTo (T 18) (Plain (Einsum [(n_t2,[0;1;2;3]); (n_v'oovv,[4;1;2;3])] [0;4]));
  (*81*) Assign (T 19) (Plain (Zeros [0;0]));
  (*82*) AddTo (T 19) (Plain (Einsum [(T 7,[0;1])] [0;1]));
  (*83*) AddTo (T 19) (Times (Einsum [(T 18,[0;1])] [1;0]) (1) 2);
  (*84*) Del (T 18);
  (*85*) Assign (T 20) (Plain (Zeros [0;0;1;1]));
  (*86*) AddTo (T 20) (Times (Einsum [(T 19,[0;1]); (n_t2,[2;0;3;4])] [2;1;3;4]) (-1) 1);
  (*87*) Del (T 19);
  (*88*) Assign (T 21) (Plain (Zeros [0;0;1;1]));
  (*89*) AddTo (T 21) (Times (Einsum [(T 10,[0;1;2;3])] [0;1;3;2]) (-1) 1);
  (*90*) Del (T 10);
  (*91*) AddTo (T 21) (Times (Einsum [(T 11,[0;1;2;3])] [0;1;3;2]) (-1) 2);
  (*92*) Del (T 11);
  (*93*) AddTo (T 21) (Times (Einsum [(T 12,[0;1;2;3])] [0;1;3;2]) (1) 2);
  (*94*) Del (T 12);
  (*95*) AddTo (T 21) (Times (Einsum [(T 15,[0;1;2;3])] [1;0;3;2]) (-1) 1);
  (*96*) Del (T 15);
  (*97*) AddTo (T 21) (Times (Einsum [(T 17,[0;1;2;3])] [0;1;3;2]) (-1) 1);
  (*98*) Del (T 17);
  (*99*) AddTo (T 21) (Plain (Einsum [(T 20,[0;1;2;3])] [0;1;3;2]));
  (*100*) Del (T 20);
  (*101*) AddTo n_t2new (Times (Einsum [(T 21,[0;1;2;3])] [0;1;2;3]) (-1) 1);
  (*102*) AddTo n_t2new (Plain (Einsum [(T 21,[0;1;2;3])] [1;0;2;3]));
  (*103*) Del (T 21);
  (*104*) Assign (T 22) (Plain (Zeros [0;0;1;1]));
  (*105*) AddTo (T 22) (Plain (Einsum [(n_t1,[0;1]); (n_v'ooov,[2;3;0;4])] [2;3;1;4]));
  (*106*) Assign (T 23) (Plain (Zeros [0;0;1;1]));
  (*107*) AddTo (T 23) (Plain (Einsum [(n_f'vv,[0;1]); (n_t2,[2;3;4;1])] [2;3;0;4]));
  (*108*) Assign (T 24) (Plain (Zeros [0;0;1;1]));
  (*109*) AddTo (T 24) (Times (Einsum [(T 22,[0;1;2;3])] [1;0;2;3]) (-1) 1);
  (*110*) Del (T 22);
  (*111*) AddTo (T 24) (Times (Einsum [(T 23,[0;1;2;3])] [1;0;2;3]) (-1) 1);
  (*112*) Del (T 23);
  (*113*) AddTo n_t2new (Times (Einsum [(T 24,[0;1;2;3])] [0;1;2;3]) (-1) 1);
  (*114*) AddTo n_t2new (Plain (Einsum [(T 24,[0;1;2;3])] [0;1;3;2]));
  (*115*) Del (T 24);
  (*116*) Assign (T 25) (Plain (Zeros [0;0;1;1]));
  (*117*) AddTo (T 25) (Plain (Einsum [(n_v'ovvv,[0;1;2;3]); (n_t3,[4;5;0;6;2;3])] [4;5;6;1]));
  (*118*) Assign (T 26) (Plain (Zeros [0;0;1;1]));
  (*119*) AddTo (T 26) (Plain (Einsum [(n_t2,[0;1;2;3]); (n_v'oovv,[4;1;5;3])] [0;4;2;5]));
  (*120*) Assign (T 27) (Plain (Zeros [0;0;1;1]));
  (*121*) AddTo (T 27) (Plain (Einsum [(n_t2,[0;1;2;3]); (T 26,[4;1;5;3])] [0;4;2;5]));
  (*122*) Assign (T 28) (Plain (Zeros [1;1]));
  (*123*) AddTo (T 28) (Plain (Einsum [(n_t1,[0;1]); (n_v'ovvv,[0;2;3;1])] [2;3]));
  (*124*) Assign (T 29) (Plain (Zeros [1;1]));
  (*125*) AddTo (T 29) (Plain (Einsum [(n_t2,[0;1;2;3]); (n_v'oovv,[0;1;4;3])] [2;4]));
  (*126*) Assign (T 30) (Plain (Zeros [1;1]));
  (*127*) AddTo (T 30) (Plain (Einsum [(T 28,[0;1])] [0;1]));
  (*128*) AddTo (T 30) (Times (Einsum [(T 29,[0;1])] [0;1]) (1) 2);
  (*129*) Del (T 29);
  (*130*) Assign (T 31) (Plain (Zeros [0;0;1;1]));
  (*131*) AddTo (T 31) (Times (Einsum [(T 30,[0;1]); (n_t2,[2;3;4;1])] [2;3;4;0]) (-1) 1);
  (*132*) Del (T 30);
  (*133*) Assign (T 32) (Plain (Zeros [0;0;0;1]));
  (*134*) AddTo (T 32) (Plain (Einsum [(n_v'oovv,[0;1;2;3]); (n_t3,[4;5;1;6;2;3])] [4;5;0;6]));
  (*135*) Assign (T 33) (Plain (Zeros [0;0;0;1]));
  (*136*) AddTo (T 33) (Times (Einsum [(n_v'ovvv,[0;1;2;3]); (T 3,[4;5;2;3])] [0;4;5;1]) (1) 2);
  (*137*) Assign (T 34) (Plain (Zeros [0;0;0;1]));
  (*138*) AddTo (T 34) (Times (Einsum [(T 5,[0;1]); (n_t2,[2;3;4;1])] [2;3;0;4]) (-1) 1);
  (*139*) Assign (T 35) (Plain (Zeros [0;0;0;1]));
  (*140*) AddTo (T 35) (Times (Einsum [(T 32,[0;1;2;3])] [2;1;0;3]) (-1) 2);
  (*141*) AddTo (T 35) (Plain (Einsum [(T 33,[0;1;2;3])] [0;2;1;3]));
  (*142*) Del (T 33);
  (*143*) AddTo (T 35) (Plain (Einsum [(T 34,[0;1;2;3])] [2;1;0;3]));
  (*144*) Del (T 34);
  (*145*) Assign (T 36) (Plain (Zeros [0;0;1;1]));
  (*146*) AddTo (T 36) (Plain (Einsum [(n_t1,[0;1]); (T 35,[0;2;3;4])] [2;3;4;1]));
  (*147*) Del (T 35);
  (*148*) Assign (T 37) (Plain (Zeros [0;0;1;1]));
  (*149*) AddTo (T 37) (Times (Einsum [(T 25,[0;1;2;3])] [0;1;2;3]) (1) 2);
  (*150*) Del (T 25);
  (*151*) AddTo (T 37) (Times (Einsum [(T 27,[0;1;2;3])] [0;1;2;3]) (-1) 1);
  (*152*) Del (T 27);
  (*153*) AddTo (T 37) (Plain (Einsum [(T 31,[0;1;2;3])] [1;0;2;3]));
  (*154*) Del (T 31);
  (*155*) AddTo (T 37) (Plain (Einsum [(T 36,[0;1;2;3])] [1;0;3;2]));
  (*156*) Del (T 36);
  (*157*) AddTo n_t2new (Times (Einsum [(T 37,[0;1;2;3])] [0;1;2;3]) (-1) 1);
  (*158*) AddTo n_t2new (Plain (Einsum [(T 37,[0;1;2;3])] [0;1;3;2]));
  (*159*) Del (T 37);
  (*160*) Assign (T 38) (Plain (Zeros [0;0;1;1]));
  (*161*) AddTo (T 38) (Plain (Einsum [(n_t2,[0;1;2;3]); (n_v'ovov,[4;3;1;5])] [0;4;2;5]));
  (*162*) Assign (T 39) (Plain (Zeros [0;0;1;1]));
  (*163*) AddTo (T 39) (Plain (Einsum [(n_t1,[0;1]); (n_v'ovvv,[2;3;4;1])] [0;2;3;4]));
  (*164*) Assign (T 40) (Plain (Zeros [0;0;1;1]));
  (*165*) AddTo (T 40) (Times (Einsum [(n_t2,[0;1;2;3]); (T 39,[4;1;5;3])] [4;0;2;5]) (-1) 1);
  (*166*) Assign (T 41) (Plain (Zeros [0;0;0;1]));
  (*167*) AddTo (T 41) (Plain (Einsum [(n_t1,[0;1]); (n_v'ovov,[2;3;4;1])] [0;2;4;3]));
  (*168*) Assign (T 42) (Plain (Zeros [0;0;0;1]));
  (*169*) AddTo (T 42) (Plain (Einsum [(n_t2,[0;1;2;3]); (n_v'ooov,[4;1;5;3])] [0;4;5;2]));
  (*170*) Assign (T 43) (Plain (Zeros [0;0;0;1]));
  (*171*) AddTo (T 43) (Plain (Einsum [(n_t2,[0;1;2;3]); (T 1,[4;1;5;3])] [4;0;5;2]));
  (*172*) Assign (T 44) (Plain (Zeros [0;0;0;1]));
  (*173*) AddTo (T 44) (Plain (Einsum [(T 41,[0;1;2;3])] [0;1;2;3]));
  (*174*) AddTo (T 44) (Plain (Einsum [(T 42,[0;1;2;3])] [0;1;2;3]));
  (*175*) AddTo (T 44) (Times (Einsum [(T 43,[0;1;2;3])] [0;2;1;3]) (-1) 1);
  (*176*) Assign (T 45) (Plain (Zeros [0;0;1;1]));
  (*177*) AddTo (T 45) (Plain (Einsum [(n_t1,[0;1]); (T 44,[2;0;3;4])] [2;3;4;1]));
  (*178*) Del (T 44);
  (*179*) Assign (T 46) (Plain (Zeros [0;0;1;1]));
  (*180*) AddTo (T 46) (Times (Einsum [(T 38,[0;1;2;3])] [0;1;2;3]) (-1) 1);
  (*181*) Del (T 38);
  (*182*) AddTo (T 46) (Plain (Einsum [(T 40,[0;1;2;3])] [0;1;2;3]));
  (*183*) Del (T 40);
  (*184*) AddTo (T 46) (Plain (Einsum [(T 45,[0;1;2;3])] [0;1;3;2]));
  (*185*) Del (T 45);
  (*186*) AddTo n_t2new (Plain (Einsum [(T 46,[0;1;2;3])] [0;1;2;3]));
  (*187*) AddTo n_t2new (Times (Einsum [(T 46,[0;1;2;3])] [0;1;3;2]) (-1) 1);
  (*188*) AddTo n_t2new (Times (Einsum [(T 46,[0;1;2;3])] [1;0;2;3]) (-1) 1);
  (*189*) AddTo n_t2new (Plain (Einsum [(T 46,[0;1;2;3])] [1;0;3;2]));
  (*190*) Del (T 46);
  (*191*) Assign (T 47) (Plain (Zeros [0;0;1;1]));
  (*192*) AddTo (T 47) (Times (Einsum [(n_t2,[0;1;2;3])] [0;1;2;3]) (1) 2);
  (*193*) AddTo (T 47) (Plain (Einsum [(n_t1,[0;1]); (n_t1,[2;3])] [0;2;1;3]));
  (*194*) AddTo n_t2new (Times (Einsum [(n_v'vvvv,[0;1;2;3]); (T 47,[4;5;2;3])] [5;4;0;1]) (-1) 1);
  (*195*) Del (T 47);
  (*196*) Assign (T 48) (Plain (Zeros [0;0;0;0]));
  (*197*) AddTo (T 48) (Times (Einsum [(n_v'oooo,[0;1;2;3])] [0;1;2;3]) (2) 1);
  (*198*) AddTo (T 48) (Times (Einsum [(n_v'oovv,[0;1;2;3]); (T 3,[4;5;2;3])] [0;1;5;4]) (-1) 1);
  (*199*) AddTo n_t2new (Times (Einsum [(T 3,[0;1;2;3]); (T 48,[0;1;4;5])] [4;5;3;2]) (-1) 4);
  (*200*) Del (T 48);
  (*201*) Assign (T 49) (Plain (Zeros [0;0;0;1;1;1]));
  (*202*) AddTo (T 49) (Plain (Einsum [(T 16,[0;1;2;3]); (n_t3,[4;1;2;5;6;7])] [0;4;3;5;6;7]));
  (*203*) Assign n_t3new (Plain (Zeros [0;0;0;1;1;1]));
  (*204*) AddTo n_t3new (Times (Einsum [(T 49,[0;1;2;3;4;5])] [0;1;2;4;5;3]) (1) 2);
  (*205*) AddTo n_t3new (Times (Einsum [(T 49,[0;1;2;3;4;5])] [0;2;1;4;5;3]) (-1) 2);
  (*206*) AddTo n_t3new (Times (Einsum [(T 49,[0;1;2;3;4;5])] [1;0;2;4;5;3]) (-1) 2);
  (*207*) AddTo n_t3new (Times (Einsum [(T 49,[0;1;2;3;4;5])] [2;0;1;4;5;3]) (1) 2);
  (*208*) AddTo n_t3new (Times (Einsum [(T 49,[0;1;2;3;4;5])] [1;2;0;4;5;3]) (1) 2);
  (*209*) AddTo n_t3new (Times (Einsum [(T 49,[0;1;2;3;4;5])] [2;1;0;4;5;3]) (-1) 2);
  (*210*) Del (T 49);
  (*211*) Assign (T 50) (Plain (Zeros [0;0;0;1;1;1]));
  (*212*) AddTo (T 50) (Plain (Einsum [(n_v'ovov,[0;1;2;3]); (n_t3,[4;5;2;6;7;1])] [4;5;0;6;7;3]));
  (*213*) Assign (T 51) (Plain (Zeros [0;1;1;1]));
  (*214*) AddTo (T 51) (Plain (Einsum [(n_v'ooov,[0;1;2;3]); (T 3,[0;1;4;5])] [2;3;4;5]));
  (*215*) Assign (T 52) (Plain (Zeros [0;0;0;1;1;1]));
  (*216*) AddTo (T 52) (Times (Einsum [(n_t2,[0;1;2;3]); (T 51,[4;3;5;6])] [0;1;4;2;6;5]) (1) 2);
  (*217*) Del (T 51);
  (*218*) Assign (T 53) (Plain (Zeros [0;0;1;1]));
  (*219*) AddTo (T 53) (Times (Einsum [(n_t1,[0;1]); (n_t1,[2;3])] [0;2;3;1]) (2) 1);
  (*220*) AddTo (T 53) (Times (Einsum [(n_t2,[0;1;2;3])] [0;1;2;3]) (-1) 1);
  (*221*) Assign (T 54) (Plain (Zeros [0;0;0;1]));
  (*222*) AddTo (T 54) (Plain (Einsum [(n_v'ovvv,[0;1;2;3]); (T 53,[4;5;2;3])] [0;4;5;1]));
  (*223*) Assign (T 55) (Plain (Zeros [0;0;0;1;1;1]));
  (*224*) AddTo (T 55) (Times (Einsum [(n_t2,[0;1;2;3]); (T 54,[1;4;5;6])] [0;5;4;2;3;6]) (1) 2);
  (*225*) Del (T 54);
  (*226*) Assign (T 56) (Plain (Zeros [0;0;0;1;1;1]));
  (*227*) AddTo (T 56) (Times (Einsum [(T 50,[0;1;2;3;4;5])] [0;1;2;4;3;5]) (-1) 1);
  (*228*) Del (T 50);
  (*229*) AddTo (T 56) (Times (Einsum [(T 52,[0;1;2;3;4;5])] [1;0;2;5;4;3]) (-1) 1);
  (*230*) Del (T 52);
  (*231*) AddTo (T 56) (Plain (Einsum [(T 55,[0;1;2;3;4;5])] [2;1;0;4;3;5]));
  (*232*) Del (T 55);
  (*233*) AddTo n_t3new (Times (Einsum [(T 56,[0;1;2;3;4;5])] [0;1;2;3;4;5]) (-1) 1);
  (*234*) AddTo n_t3new (Plain (Einsum [(T 56,[0;1;2;3;4;5])] [0;1;2;3;5;4]));
  (*235*) AddTo n_t3new (Times (Einsum [(T 56,[0;1;2;3;4;5])] [0;1;2;5;3;4]) (-1) 1);
  (*236*) AddTo n_t3new (Plain (Einsum [(T 56,[0;1;2;3;4;5])] [0;2;1;3;4;5]));
  (*237*) AddTo n_t3new (Times (Einsum [(T 56,[0;1;2;3;4;5])] [0;2;1;3;5;4]) (-1) 1);
  (*238*) AddTo n_t3new (Plain (Einsum [(T 56,[0;1;2;3;4;5])] [0;2;1;5;3;4]));
  (*239*) AddTo n_t3new (Plain (Einsum [(T 56,[0;1;2;3;4;5])] [2;1;0;3;4;5]));
  (*240*) AddTo n_t3new (Times (Einsum [(T 56,[0;1;2;3;4;5])] [2;1;0;3;5;4]) (-1) 1);
  (*241*) AddTo n_t3new (Plain (Einsum [(T 56,[0;1;2;3;4;5])] [2;1;0;5;3;4]));
  (*242*) Del (T 56);
  (*243*) Assign (T 57) (Plain (Zeros [0;1;1;1]));
  (*244*) AddTo (T 57) (Plain (Einsum [(n_v'oovv,[0;1;2;3]); (n_t3,[4;0;1;5;6;3])] [4;5;6;2]));
  (*245*) Assign (T 58) (Plain (Zeros [0;1;1;1]));
  (*246*) AddTo (T 58) (Times (Einsum [(T 5,[0;1]); (n_t2,[2;0;3;4])] [2;3;4;1]) (-1) 1);
  (*247*) Del (T 5);
  (*248*) Assign (T 59) (Plain (Zeros [0;1;1;1]));
  (*249*) AddTo (T 59) (Plain (Einsum [(n_v'ovvv,[0;1;2;3])] [0;2;3;1]));
  (*250*) AddTo (T 59) (Times (Einsum [(T 57,[0;1;2;3])] [0;2;1;3]) (1) 2);
  (*251*) Del (T 57);
  (*252*) AddTo (T 59) (Times (Einsum [(T 58,[0;1;2;3])] [0;2;1;3]) (-1) 1);
  (*253*) Del (T 58);
  (*254*) Assign (T 60) (Plain (Zeros [0;0;0;1;1;1]));
  (*255*) AddTo (T 60) (Times (Einsum [(n_t2,[0;1;2;3]); (T 59,[4;5;6;3])] [0;1;4;2;5;6]) (-1) 1);
  (*256*) Del (T 59);
  (*257*) Assign (T 61) (Plain (Zeros [0;0;0;0;1;1]));
  (*258*) AddTo (T 61) (Plain (Einsum [(n_v'ooov,[0;1;2;3]); (n_t3,[4;5;1;6;7;3])] [4;5;0;2;6;7]));
  (*259*) Assign (T 62) (Plain (Zeros [0;0;0;0]));
  (*260*) AddTo (T 62) (Plain (Einsum [(n_v'oovv,[0;1;2;3]); (T 53,[4;5;2;3])] [0;1;4;5]));
  (*261*) Del (T 53);
  (*262*) Assign (T 63) (Plain (Zeros [0;0;0;0;1;1]));
  (*263*) AddTo (T 63) (Times (Einsum [(n_t2,[0;1;2;3]); (T 62,[4;1;5;6])] [0;6;5;4;2;3]) (-1) 2);
  (*264*) Assign (T 64) (Plain (Zeros [0;0;0;0;1;1]));
  (*265*) AddTo (T 64) (Times (Einsum [(T 61,[0;1;2;3;4;5])] [0;1;2;3;5;4]) (-1) 1);
  (*266*) Del (T 61);
  (*267*) AddTo (T 64) (Times (Einsum [(T 63,[0;1;2;3;4;5])] [2;1;3;0;5;4]) (-1) 1);
  (*268*) Del (T 63);
  (*269*) Assign (T 65) (Plain (Zeros [0;0;0;1;1;1]));
  (*270*) AddTo (T 65) (Plain (Einsum [(n_t1,[0;1]); (T 64,[2;3;0;4;5;6])] [2;3;4;5;6;1]));
  (*271*) Del (T 64);
  (*272*) Assign (T 66) (Plain (Zeros [0;0;0;1;1;1]));
  (*273*) AddTo (T 66) (Times (Einsum [(T 60,[0;1;2;3;4;5])] [1;0;2;3;5;4]) (-1) 1);
  (*274*) Del (T 60);
  (*275*) AddTo (T 66) (Times (Einsum [(T 65,[0;1;2;3;4;5])] [0;1;2;5;4;3]) (-1) 1);
  (*276*) Del (T 65);
  (*277*) AddTo n_t3new (Times (Einsum [(T 66,[0;1;2;3;4;5])] [0;1;2;3;4;5]) (-1) 1);
  (*278*) AddTo n_t3new (Plain (Einsum [(T 66,[0;1;2;3;4;5])] [0;1;2;4;3;5]));
  (*279*) AddTo n_t3new (Times (Einsum [(T 66,[0;1;2;3;4;5])] [0;1;2;4;5;3]) (-1) 1);
  (*280*) AddTo n_t3new (Plain (Einsum [(T 66,[0;1;2;3;4;5])] [0;2;1;3;4;5]));
  (*281*) AddTo n_t3new (Times (Einsum [(T 66,[0;1;2;3;4;5])] [0;2;1;4;3;5]) (-1) 1);
  (*282*) AddTo n_t3new (Plain (Einsum [(T 66,[0;1;2;3;4;5])] [0;2;1;4;5;3]));
  (*283*) AddTo n_t3new (Plain (Einsum [(T 66,[0;1;2;3;4;5])] [2;1;0;3;4;5]));
  (*284*) AddTo n_t3new (Times (Einsum [(T 66,[0;1;2;3;4;5])] [2;1;0;4;3;5]) (-1) 1);
  (*285*) AddTo n_t3new (Plain (Einsum [(T 66,[0;1;2;3;4;5])] [2;1;0;4;5;3]));
  (*286*) Del (T 66);
  (*287*) Assign (T 67) (Plain (Zeros [0;0;0;1;1;1]));
  (*288*) AddTo (T 67) (Times (Einsum [(T 7,[0;1]); (n_t3,[2;3;0;4;5;6])] [2;3;1;4;5;6]) (-1) 1);
  (*289*) Del (T 7);
  (*290*) Assign (T 68) (Plain (Zeros [0;0;0;1;1;1]));
  (*291*) AddTo (T 68) (Times (Einsum [(T 62,[0;1;2;3]); (n_t3,[4;1;0;5;6;7])] [4;3;2;5;6;7]) (-1) 4);
  (*292*) Del (T 62);
  (*293*) Assign (T 69) (Plain (Zeros [0;0;0;1;1;1]));
  (*294*) AddTo (T 69) (Plain (Einsum [(T 67,[0;1;2;3;4;5])] [0;1;2;4;5;3]));
  (*295*) Del (T 67);
  (*296*) AddTo (T 69) (Times (Einsum [(T 68,[0;1;2;3;4;5])] [2;1;0;4;5;3]) (-1) 1);
  (*297*) Del (T 68);
  (*298*) AddTo n_t3new (Plain (Einsum [(T 69,[0;1;2;3;4;5])] [0;1;2;5;3;4]));
  (*299*) AddTo n_t3new (Times (Einsum [(T 69,[0;1;2;3;4;5])] [0;2;1;5;3;4]) (-1) 1);
  (*300*) AddTo n_t3new (Times (Einsum [(T 69,[0;1;2;3;4;5])] [2;1;0;5;3;4]) (-1) 1);
  (*301*) Del (T 69);
  (*302*) Assign (T 70) (Plain (Zeros [0;0;0;1;1;1]));
  (*303*) AddTo (T 70) (Plain (Einsum [(n_t2,[0;1;2;3]); (T 42,[4;1;5;6])] [0;4;5;2;3;6]));
  (*304*) Del (T 42);
  (*305*) Assign (T 71) (Plain (Zeros [0;0;0;1]));
  (*306*) AddTo (T 71) (Times (Einsum [(T 41,[0;1;2;3])] [0;2;1;3]) (-1) 1);
  (*307*) Del (T 41);
  (*308*) AddTo (T 71) (Plain (Einsum [(T 43,[0;1;2;3])] [0;1;2;3]));
  (*309*) Del (T 43);
  (*310*) Assign (T 72) (Plain (Zeros [0;0;0;1;1;1]));
  (*311*) AddTo (T 72) (Times (Einsum [(n_t2,[0;1;2;3]); (T 71,[4;5;1;6])] [0;4;5;2;3;6]) (-1) 1);
  (*312*) Del (T 71);
  (*313*) Assign (T 73) (Plain (Zeros [0;0;0;1;1;1]));
  (*314*) AddTo (T 73) (Times (Einsum [(T 70,[0;1;2;3;4;5])] [0;1;2;4;3;5]) (-1) 1);
  (*315*) Del (T 70);
  (*316*) AddTo (T 73) (Plain (Einsum [(T 72,[0;1;2;3;4;5])] [1;0;2;4;3;5]));
  (*317*) Del (T 72);
  (*318*) AddTo n_t3new (Plain (Einsum [(T 73,[0;1;2;3;4;5])] [0;1;2;3;4;5]));
  (*319*) AddTo n_t3new (Times (Einsum [(T 73,[0;1;2;3;4;5])] [0;1;2;3;5;4]) (-1) 1);
  (*320*) AddTo n_t3new (Plain (Einsum [(T 73,[0;1;2;3;4;5])] [0;1;2;5;3;4]));
  (*321*) AddTo n_t3new (Times (Einsum [(T 73,[0;1;2;3;4;5])] [0;2;1;3;4;5]) (-1) 1);
  (*322*) AddTo n_t3new (Plain (Einsum [(T 73,[0;1;2;3;4;5])] [0;2;1;3;5;4]));
  (*323*) AddTo n_t3new (Times (Einsum [(T 73,[0;1;2;3;4;5])] [0;2;1;5;3;4]) (-1) 1);
  (*324*) AddTo n_t3new (Times (Einsum [(T 73,[0;1;2;3;4;5])] [1;0;2;3;4;5]) (-1) 1);
  (*325*) AddTo n_t3new (Plain (Einsum [(T 73,[0;1;2;3;4;5])] [1;0;2;3;5;4]));
  (*326*) AddTo n_t3new (Times (Einsum [(T 73,[0;1;2;3;4;5])] [1;0;2;5;3;4]) (-1) 1);
  (*327*) AddTo n_t3new (Plain (Einsum [(T 73,[0;1;2;3;4;5])] [2;0;1;3;4;5]));
  (*328*) AddTo n_t3new (Times (Einsum [(T 73,[0;1;2;3;4;5])] [2;0;1;3;5;4]) (-1) 1);
  (*329*) AddTo n_t3new (Plain (Einsum [(T 73,[0;1;2;3;4;5])] [2;0;1;5;3;4]));
  (*330*) AddTo n_t3new (Plain (Einsum [(T 73,[0;1;2;3;4;5])] [1;2;0;3;4;5]));
  (*331*) AddTo n_t3new (Times (Einsum [(T 73,[0;1;2;3;4;5])] [1;2;0;3;5;4]) (-1) 1);
  (*332*) AddTo n_t3new (Plain (Einsum [(T 73,[0;1;2;3;4;5])] [1;2;0;5;3;4]));
  (*333*) AddTo n_t3new (Times (Einsum [(T 73,[0;1;2;3;4;5])] [2;1;0;3;4;5]) (-1) 1);
  (*334*) AddTo n_t3new (Plain (Einsum [(T 73,[0;1;2;3;4;5])] [2;1;0;3;5;4]));
  (*335*) AddTo n_t3new (Times (Einsum [(T 73,[0;1;2;3;4;5])] [2;1;0;5;3;4]) (-1) 1);
  (*336*) Del (T 73);
  (*337*) Assign (T 74) (Plain (Zeros [0;0;0;1]));
  (*338*) AddTo (T 74) (Times (Einsum [(n_t1,[0;1]); (T 16,[2;0;3;4])] [2;3;4;1]) (-1) 1);
  (*339*) Del (T 16);
  (*340*) Assign (T 75) (Plain (Zeros [0;0;0;1;1;1]));
  (*341*) AddTo (T 75) (Times (Einsum [(n_t2,[0;1;2;3]); (T 74,[4;1;5;6])] [4;0;5;6;2;3]) (-1) 1);
  (*342*) Del (T 74);
  (*343*) AddTo n_t3new (Plain (Einsum [(T 75,[0;1;2;3;4;5])] [0;1;2;3;5;4]));
  (*344*) AddTo n_t3new (Times (Einsum [(T 75,[0;1;2;3;4;5])] [0;1;2;5;3;4]) (-1) 1);
  (*345*) AddTo n_t3new (Plain (Einsum [(T 75,[0;1;2;3;4;5])] [0;1;2;5;4;3]));
  (*346*) AddTo n_t3new (Times (Einsum [(T 75,[0;1;2;3;4;5])] [0;2;1;3;5;4]) (-1) 1);
  (*347*) AddTo n_t3new (Plain (Einsum [(T 75,[0;1;2;3;4;5])] [0;2;1;5;3;4]));
  (*348*) AddTo n_t3new (Times (Einsum [(T 75,[0;1;2;3;4;5])] [0;2;1;5;4;3]) (-1) 1);
  (*349*) AddTo n_t3new (Times (Einsum [(T 75,[0;1;2;3;4;5])] [1;0;2;3;5;4]) (-1) 1);
  (*350*) AddTo n_t3new (Plain (Einsum [(T 75,[0;1;2;3;4;5])] [1;0;2;5;3;4]));
  (*351*) AddTo n_t3new (Times (Einsum [(T 75,[0;1;2;3;4;5])] [1;0;2;5;4;3]) (-1) 1);
  (*352*) AddTo n_t3new (Plain (Einsum [(T 75,[0;1;2;3;4;5])] [2;0;1;3;5;4]));
  (*353*) AddTo n_t3new (Times (Einsum [(T 75,[0;1;2;3;4;5])] [2;0;1;5;3;4]) (-1) 1);
  (*354*) AddTo n_t3new (Plain (Einsum [(T 75,[0;1;2;3;4;5])] [2;0;1;5;4;3]));
  (*355*) AddTo n_t3new (Plain (Einsum [(T 75,[0;1;2;3;4;5])] [1;2;0;3;5;4]));
  (*356*) AddTo n_t3new (Times (Einsum [(T 75,[0;1;2;3;4;5])] [1;2;0;5;3;4]) (-1) 1);
  (*357*) AddTo n_t3new (Plain (Einsum [(T 75,[0;1;2;3;4;5])] [1;2;0;5;4;3]));
  (*358*) AddTo n_t3new (Times (Einsum [(T 75,[0;1;2;3;4;5])] [2;1;0;3;5;4]) (-1) 1);
  (*359*) AddTo n_t3new (Plain (Einsum [(T 75,[0;1;2;3;4;5])] [2;1;0;5;3;4]));
  (*360*) AddTo n_t3new (Times (Einsum [(T 75,[0;1;2;3;4;5])] [2;1;0;5;4;3]) (-1) 1);
  (*361*) Del (T 75);
  (*362*) Assign (T 76) (Plain (Zeros [0;0;0;0;1;1]));
  (*363*) AddTo (T 76) (Plain (Einsum [(n_v'ovvv,[0;1;2;3]); (n_t3,[4;5;6;7;2;3])] [4;5;6;0;7;1]));
  (*364*) Assign (T 77) (Plain (Zeros [0;0;0;1;1;1]));
  (*365*) AddTo (T 77) (Plain (Einsum [(n_t1,[0;1]); (T 76,[2;3;4;0;5;6])] [2;3;4;1;5;6]));
  (*366*) Del (T 76);
  (*367*) AddTo n_t3new (Times (Einsum [(T 77,[0;1;2;3;4;5])] [0;1;2;3;4;5]) (1) 2);
  (*368*) AddTo n_t3new (Times (Einsum [(T 77,[0;1;2;3;4;5])] [0;1;2;3;5;4]) (-1) 2);
  (*369*) AddTo n_t3new (Times (Einsum [(T 77,[0;1;2;3;4;5])] [0;1;2;4;3;5]) (-1) 2);
  (*370*) AddTo n_t3new (Times (Einsum [(T 77,[0;1;2;3;4;5])] [0;1;2;5;3;4]) (1) 2);
  (*371*) AddTo n_t3new (Times (Einsum [(T 77,[0;1;2;3;4;5])] [0;1;2;4;5;3]) (1) 2);
  (*372*) AddTo n_t3new (Times (Einsum [(T 77,[0;1;2;3;4;5])] [0;1;2;5;4;3]) (-1) 2);
  (*373*) Del (T 77);
  (*374*) Assign (T 78) (Plain (Zeros [0;0;0;1;1;1]));
  (*375*) AddTo (T 78) (Times (Einsum [(T 39,[0;1;2;3]); (n_t3,[4;5;1;6;7;3])] [0;4;5;6;7;2]) (-1) 1);
  (*376*) Assign (T 79) (Plain (Zeros [0;1;1;1]));
  (*377*) AddTo (T 79) (Plain (Einsum [(T 1,[0;1;2;3]); (T 3,[1;2;4;5])] [0;3;4;5]));
  (*378*) Del (T 1);
  (*379*) Assign (T 80) (Plain (Zeros [0;0;0;1;1;1]));
  (*380*) AddTo (T 80) (Times (Einsum [(n_t2,[0;1;2;3]); (T 79,[4;3;5;6])] [0;1;4;2;6;5]) (1) 2);
  (*381*) Del (T 79);
  (*382*) Assign (T 81) (Plain (Zeros [0;0;0;1]));
  (*383*) AddTo (T 81) (Times (Einsum [(n_v'ooov,[0;1;2;3])] [0;1;2;3]) (-1) 1);
  (*384*) AddTo (T 81) (Times (Einsum [(T 32,[0;1;2;3])] [0;1;2;3]) (1) 2);
  (*385*) Del (T 32);
  (*386*) Assign (T 82) (Plain (Zeros [0;0;0;1;1;1]));
  (*387*) AddTo (T 82) (Times (Einsum [(n_t2,[0;1;2;3]); (T 81,[4;5;1;6])] [0;4;5;2;3;6]) (-1) 1);
  (*388*) Del (T 81);
  (*389*) Assign (T 83) (Plain (Zeros [0;0;0;1;1;1]));
  (*390*) AddTo (T 83) (Plain (Einsum [(T 78,[0;1;2;3;4;5])] [0;2;1;4;3;5]));
  (*391*) Del (T 78);
  (*392*) AddTo (T 83) (Plain (Einsum [(T 80,[0;1;2;3;4;5])] [2;1;0;5;4;3]));
  (*393*) Del (T 80);
  (*394*) AddTo (T 83) (Times (Einsum [(T 82,[0;1;2;3;4;5])] [0;1;2;4;3;5]) (-1) 1);
  (*395*) Del (T 82);
  (*396*) AddTo n_t3new (Times (Einsum [(T 83,[0;1;2;3;4;5])] [0;1;2;3;4;5]) (-1) 1);
  (*397*) AddTo n_t3new (Plain (Einsum [(T 83,[0;1;2;3;4;5])] [0;1;2;3;5;4]));
  (*398*) AddTo n_t3new (Times (Einsum [(T 83,[0;1;2;3;4;5])] [0;1;2;5;3;4]) (-1) 1);
  (*399*) AddTo n_t3new (Times (Einsum [(T 83,[0;1;2;3;4;5])] [2;0;1;3;4;5]) (-1) 1);
  (*400*) AddTo n_t3new (Plain (Einsum [(T 83,[0;1;2;3;4;5])] [2;0;1;3;5;4]));
  (*401*) AddTo n_t3new (Times (Einsum [(T 83,[0;1;2;3;4;5])] [2;0;1;5;3;4]) (-1) 1);
  (*402*) AddTo n_t3new (Plain (Einsum [(T 83,[0;1;2;3;4;5])] [2;1;0;3;4;5]));
  (*403*) AddTo n_t3new (Times (Einsum [(T 83,[0;1;2;3;4;5])] [2;1;0;3;5;4]) (-1) 1);
  (*404*) AddTo n_t3new (Plain (Einsum [(T 83,[0;1;2;3;4;5])] [2;1;0;5;3;4]));
  (*405*) Del (T 83);
  (*406*) Assign (T 84) (Plain (Zeros [0;0;0;1;1;1]));
  (*407*) AddTo (T 84) (Times (Einsum [(T 28,[0;1]); (n_t3,[2;3;4;5;6;1])] [2;3;4;5;6;0]) (-1) 1);
  (*408*) Del (T 28);
  (*409*) Assign (T 85) (Plain (Zeros [0;0;0;0;0;1]));
  (*410*) AddTo (T 85) (Plain (Einsum [(n_v'oovv,[0;1;2;3]); (n_t3,[4;5;6;7;2;3])] [4;5;6;0;1;7]));
  (*411*) Assign (T 86) (Plain (Zeros [0;0;0;1;1;1]));
  (*412*) AddTo (T 86) (Times (Einsum [(T 3,[0;1;2;3]); (T 85,[4;5;6;0;1;7])] [4;5;6;2;3;7]) (1) 4);
  (*413*) Del (T 85);
  (*414*) Assign (T 87) (Plain (Zeros [0;0;0;1;1;1]));
  (*415*) AddTo (T 87) (Times (Einsum [(T 84,[0;1;2;3;4;5])] [0;1;2;4;3;5]) (-1) 1);
  (*416*) Del (T 84);
  (*417*) AddTo (T 87) (Times (Einsum [(T 86,[0;1;2;3;4;5])] [0;1;2;4;3;5]) (-1) 1);
  (*418*) Del (T 86);
  (*419*) AddTo n_t3new (Plain (Einsum [(T 87,[0;1;2;3;4;5])] [0;1;2;3;4;5]));
  (*420*) AddTo n_t3new (Times (Einsum [(T 87,[0;1;2;3;4;5])] [0;1;2;3;5;4]) (-1) 1);
  (*421*) AddTo n_t3new (Plain (Einsum [(T 87,[0;1;2;3;4;5])] [0;1;2;5;3;4]));
  (*422*) Del (T 87);
  (*423*) Assign (T 88) (Plain (Zeros [0;1;1;1]));
  (*424*) AddTo (T 88) (Plain (Einsum [(n_t2,[0;1;2;3]); (n_v'ovvv,[1;4;5;3])] [0;2;4;5]));
  (*425*) Assign (T 89) (Plain (Zeros [0;0;0;1;1;1]));
  (*426*) AddTo (T 89) (Plain (Einsum [(n_t2,[0;1;2;3]); (T 88,[4;5;6;3])] [0;1;4;2;5;6]));
  (*427*) Del (T 88);
  (*428*) Assign (T 90) (Plain (Zeros [0;0;1;1]));
  (*429*) AddTo (T 90) (Times (Einsum [(n_v'ovov,[0;1;2;3])] [0;2;3;1]) (-1) 1);
  (*430*) AddTo (T 90) (Plain (Einsum [(T 26,[0;1;2;3])] [0;1;2;3]));
  (*431*) Del (T 26);
  (*432*) Assign (T 91) (Plain (Zeros [0;0;0;0;1;1]));
  (*433*) AddTo (T 91) (Times (Einsum [(n_t2,[0;1;2;3]); (T 90,[4;5;6;3])] [0;1;4;5;2;6]) (-1) 1);
  (*434*) Del (T 90);
  (*435*) Assign (T 92) (Plain (Zeros [0;0;0;1;1;1]));
  (*436*) AddTo (T 92) (Times (Einsum [(n_t1,[0;1]); (T 91,[2;3;4;0;5;6])] [3;2;4;5;6;1]) (-1) 1);
  (*437*) Del (T 91);
  (*438*) Assign (T 93) (Plain (Zeros [0;0;0;1;1;1]));
  (*439*) AddTo (T 93) (Plain (Einsum [(T 89,[0;1;2;3;4;5])] [0;1;2;3;4;5]));
  (*440*) Del (T 89);
  (*441*) AddTo (T 93) (Times (Einsum [(T 92,[0;1;2;3;4;5])] [0;1;2;5;3;4]) (-1) 1);
  (*442*) Del (T 92);
  (*443*) AddTo n_t3new (Plain (Einsum [(T 93,[0;1;2;3;4;5])] [0;1;2;3;4;5]));
  (*444*) AddTo n_t3new (Times (Einsum [(T 93,[0;1;2;3;4;5])] [0;1;2;3;5;4]) (-1) 1);
  (*445*) AddTo n_t3new (Times (Einsum [(T 93,[0;1;2;3;4;5])] [0;1;2;4;3;5]) (-1) 1);
  (*446*) AddTo n_t3new (Plain (Einsum [(T 93,[0;1;2;3;4;5])] [0;1;2;5;3;4]));
  (*447*) AddTo n_t3new (Plain (Einsum [(T 93,[0;1;2;3;4;5])] [0;1;2;4;5;3]));
  (*448*) AddTo n_t3new (Times (Einsum [(T 93,[0;1;2;3;4;5])] [0;1;2;5;4;3]) (-1) 1);
  (*449*) AddTo n_t3new (Times (Einsum [(T 93,[0;1;2;3;4;5])] [0;2;1;3;4;5]) (-1) 1);
  (*450*) AddTo n_t3new (Plain (Einsum [(T 93,[0;1;2;3;4;5])] [0;2;1;3;5;4]));
  (*451*) AddTo n_t3new (Plain (Einsum [(T 93,[0;1;2;3;4;5])] [0;2;1;4;3;5]));
  (*452*) AddTo n_t3new (Times (Einsum [(T 93,[0;1;2;3;4;5])] [0;2;1;5;3;4]) (-1) 1);
  (*453*) AddTo n_t3new (Times (Einsum [(T 93,[0;1;2;3;4;5])] [0;2;1;4;5;3]) (-1) 1);
  (*454*) AddTo n_t3new (Plain (Einsum [(T 93,[0;1;2;3;4;5])] [0;2;1;5;4;3]));
  (*455*) AddTo n_t3new (Times (Einsum [(T 93,[0;1;2;3;4;5])] [2;1;0;3;4;5]) (-1) 1);
  (*456*) AddTo n_t3new (Plain (Einsum [(T 93,[0;1;2;3;4;5])] [2;1;0;3;5;4]));
  (*457*) AddTo n_t3new (Plain (Einsum [(T 93,[0;1;2;3;4;5])] [2;1;0;4;3;5]));
  (*458*) AddTo n_t3new (Times (Einsum [(T 93,[0;1;2;3;4;5])] [2;1;0;5;3;4]) (-1) 1);
  (*459*) AddTo n_t3new (Times (Einsum [(T 93,[0;1;2;3;4;5])] [2;1;0;4;5;3]) (-1) 1);
  (*460*) AddTo n_t3new (Plain (Einsum [(T 93,[0;1;2;3;4;5])] [2;1;0;5;4;3]));
  (*461*) Del (T 93);
  (*462*) Assign (T 94) (Plain (Zeros [0;0;0;0;1;1]));
  (*463*) AddTo (T 94) (Times (Einsum [(n_t2,[0;1;2;3]); (T 39,[4;5;6;3])] [4;0;1;5;2;6]) (-1) 1);
  (*464*) Del (T 39);
  (*465*) Assign (T 95) (Plain (Zeros [0;0;0;1;1;1]));
  (*466*) AddTo (T 95) (Plain (Einsum [(n_t1,[0;1]); (T 94,[2;3;4;0;5;6])] [2;3;4;1;5;6]));
  (*467*) Del (T 94);
  (*468*) AddTo n_t3new (Plain (Einsum [(T 95,[0;1;2;3;4;5])] [0;2;1;3;4;5]));
  (*469*) AddTo n_t3new (Times (Einsum [(T 95,[0;1;2;3;4;5])] [0;2;1;3;5;4]) (-1) 1);
  (*470*) AddTo n_t3new (Times (Einsum [(T 95,[0;1;2;3;4;5])] [0;2;1;4;3;5]) (-1) 1);
  (*471*) AddTo n_t3new (Plain (Einsum [(T 95,[0;1;2;3;4;5])] [0;2;1;5;3;4]));
  (*472*) AddTo n_t3new (Plain (Einsum [(T 95,[0;1;2;3;4;5])] [0;2;1;4;5;3]));
  (*473*) AddTo n_t3new (Times (Einsum [(T 95,[0;1;2;3;4;5])] [0;2;1;5;4;3]) (-1) 1);
  (*474*) AddTo n_t3new (Plain (Einsum [(T 95,[0;1;2;3;4;5])] [1;0;2;3;4;5]));
  (*475*) AddTo n_t3new (Times (Einsum [(T 95,[0;1;2;3;4;5])] [1;0;2;3;5;4]) (-1) 1);
  (*476*) AddTo n_t3new (Times (Einsum [(T 95,[0;1;2;3;4;5])] [1;0;2;4;3;5]) (-1) 1);
  (*477*) AddTo n_t3new (Plain (Einsum [(T 95,[0;1;2;3;4;5])] [1;0;2;5;3;4]));
  (*478*) AddTo n_t3new (Plain (Einsum [(T 95,[0;1;2;3;4;5])] [1;0;2;4;5;3]));
  (*479*) AddTo n_t3new (Times (Einsum [(T 95,[0;1;2;3;4;5])] [1;0;2;5;4;3]) (-1) 1);
  (*480*) AddTo n_t3new (Times (Einsum [(T 95,[0;1;2;3;4;5])] [1;2;0;3;4;5]) (-1) 1);
  (*481*) AddTo n_t3new (Plain (Einsum [(T 95,[0;1;2;3;4;5])] [1;2;0;3;5;4]));
  (*482*) AddTo n_t3new (Plain (Einsum [(T 95,[0;1;2;3;4;5])] [1;2;0;4;3;5]));
  (*483*) AddTo n_t3new (Times (Einsum [(T 95,[0;1;2;3;4;5])] [1;2;0;5;3;4]) (-1) 1);
  (*484*) AddTo n_t3new (Times (Einsum [(T 95,[0;1;2;3;4;5])] [1;2;0;4;5;3]) (-1) 1);
  (*485*) AddTo n_t3new (Plain (Einsum [(T 95,[0;1;2;3;4;5])] [1;2;0;5;4;3]));
  (*486*) Del (T 95);
  (*487*) Assign (T 96) (Plain (Zeros [0;0;0;1;1;1]));
  (*488*) AddTo (T 96) (Plain (Einsum [(n_v'vvvv,[0;1;2;3]); (n_t3,[4;5;6;7;2;3])] [4;5;6;7;0;1]));
  (*489*) Assign (T 97) (Plain (Zeros [1;1]));
  (*490*) AddTo (T 97) (Plain (Einsum [(n_f'ov,[0;1]); (n_t1,[0;2])] [1;2]));
  (*491*) Assign (T 98) (Plain (Zeros [1;1]));
  (*492*) AddTo (T 98) (Times (Einsum [(n_v'oovv,[0;1;2;3]); (T 3,[0;1;3;4])] [4;2]) (-1) 1);
  (*493*) Del (T 3);
  (*494*) Assign (T 99) (Plain (Zeros [1;1]));
  (*495*) AddTo (T 99) (Times (Einsum [(n_f'vv,[0;1])] [0;1]) (-2) 1);
  (*496*) AddTo (T 99) (Times (Einsum [(T 97,[0;1])] [0;1]) (2) 1);
  (*497*) Del (T 97);
  (*498*) AddTo (T 99) (Plain (Einsum [(T 98,[0;1])] [1;0]));
  (*499*) Del (T 98);
  (*500*) Assign (T 100) (Plain (Zeros [0;0;0;1;1;1]));
  (*501*) AddTo (T 100) (Times (Einsum [(T 99,[0;1]); (n_t3,[2;3;4;5;6;0])] [2;3;4;5;6;1]) (1) 2);
  (*502*) Del (T 99);
  (*503*) Assign (T 101) (Plain (Zeros [0;0;0;1;1;1]));
  (*504*) AddTo (T 101) (Times (Einsum [(T 96,[0;1;2;3;4;5])] [0;1;2;3;5;4]) (-1) 2);
  (*505*) Del (T 96);
  (*506*) AddTo (T 101) (Times (Einsum [(T 100,[0;1;2;3;4;5])] [1;2;0;5;3;4]) (-1) 1);
  (*507*) Del (T 100);
  (*508*) AddTo n_t3new (Plain (Einsum [(T 101,[0;1;2;3;4;5])] [0;1;2;3;4;5]));
  (*509*) AddTo n_t3new (Times (Einsum [(T 101,[0;1;2;3;4;5])] [0;1;2;4;3;5]) (-1) 1);
  (*510*) AddTo n_t3new (Plain (Einsum [(T 101,[0;1;2;3;4;5])] [0;1;2;4;5;3]));
  (*511*) Del (T 101);
  (*512*) Assign (T 102) (Plain (Zeros [0;0;0;1]));
  (*513*) AddTo (T 102) (Plain (Einsum [(n_t1,[0;1]); (n_v'oooo,[2;3;4;0])] [2;3;4;1]));
  (*514*) Assign (T 103) (Plain (Zeros [0;0;0;1;1;1]));
  (*515*) AddTo (T 103) (Times (Einsum [(n_t2,[0;1;2;3]); (T 102,[4;5;1;6])] [0;4;5;6;2;3]) (-1) 1);
  (*516*) Del (T 102);
  (*517*) Assign (T 104) (Plain (Zeros [0;1;1;1]));
  (*518*) AddTo (T 104) (Plain (Einsum [(n_t1,[0;1]); (n_v'vvvv,[2;3;4;1])] [0;2;3;4]));
  (*519*) Assign (T 105) (Plain (Zeros [0;0;0;1;1;1]));
  (*520*) AddTo (T 105) (Times (Einsum [(n_t2,[0;1;2;3]); (T 104,[4;5;6;3])] [4;0;1;2;5;6]) (-1) 1);
  (*521*) Del (T 104);
  (*522*) Assign (T 106) (Plain (Zeros [0;0;1;1]));
  (*523*) AddTo (T 106) (Plain (Einsum [(n_t2,[0;1;2;3])] [0;1;2;3]));
  (*524*) AddTo (T 106) (Times (Einsum [(n_t1,[0;1]); (n_t1,[2;3])] [0;2;3;1]) (-99999999999999) 100000000000000);
  (*525*) Assign (T 107) (Plain (Zeros [0;0;1;1]));
  (*526*) AddTo (T 107) (Plain (Einsum [(n_v'oovv,[0;1;2;3]); (T 106,[1;4;3;5])] [0;4;2;5]));
  (*527*) Del (T 106);
  (*528*) Assign (T 108) (Plain (Zeros [0;0;0;1;1;1]));
  (*529*) AddTo (T 108) (Times (Einsum [(T 107,[0;1;2;3]); (n_t3,[4;5;0;6;7;2])] [4;5;1;6;7;3]) (100000000000001) 100000000000000);
  (*530*) Del (T 107);
  (*531*) Assign (T 109) (Plain (Zeros [0;0;0;1;1;1]));
  (*532*) AddTo (T 109) (Plain (Einsum [(T 103,[0;1;2;3;4;5])] [0;2;1;3;5;4]));
  (*533*) Del (T 103);
  (*534*) AddTo (T 109) (Plain (Einsum [(T 105,[0;1;2;3;4;5])] [0;2;1;3;5;4]));
  (*535*) Del (T 105);
  (*536*) AddTo (T 109) (Times (Einsum [(T 108,[0;1;2;3;4;5])] [2;0;1;5;3;4]) (-1) 1);
  (*537*) Del (T 108);
  (*538*) AddTo n_t3new (Times (Einsum [(T 109,[0;1;2;3;4;5])] [0;1;2;3;4;5]) (-1) 1);
  (*539*) AddTo n_t3new (Plain (Einsum [(T 109,[0;1;2;3;4;5])] [0;1;2;4;3;5]));
  (*540*) AddTo n_t3new (Times (Einsum [(T 109,[0;1;2;3;4;5])] [0;1;2;4;5;3]) (-1) 1);
  (*541*) AddTo n_t3new (Times (Einsum [(T 109,[0;1;2;3;4;5])] [2;0;1;3;4;5]) (-1) 1);
  (*542*) AddTo n_t3new (Plain (Einsum [(T 109,[0;1;2;3;4;5])] [2;0;1;4;3;5]));
  (*543*) AddTo n_t3new (Times (Einsum [(T 109,[0;1;2;3;4;5])] [2;0;1;4;5;3]) (-1) 1);
  (*544*) AddTo n_t3new (Plain (Einsum [(T 109,[0;1;2;3;4;5])] [2;1;0;3;4;5]));
  (*545*) AddTo n_t3new (Times (Einsum [(T 109,[0;1;2;3;4;5])] [2;1;0;4;3;5]) (-1) 1);
  (*546*) AddTo n_t3new (Plain (Einsum [(T 109,[0;1;2;3;4;5])] [2;1;0;4;5;3]));
  (*547*) Del (T 109);
  (*548*) Assign (T 110) (Plain (Zeros [0;0;0;1;1;1]));
  (*549*) AddTo (T 110) (Plain (Einsum [(n_v'oooo,[0;1;2;3]); (n_t3,[4;2;3;5;6;7])] [4;0;1;5;6;7]));
  (*550*) Assign (T 111) (Plain (Zeros [0;0]));
  (*551*) AddTo (T 111) (Times (Einsum [(n_f'oo,[0;1])] [0;1]) (2) 1);
  (*552*) AddTo (T 111) (Times (Einsum [(T 6,[0;1])] [0;1]) (2) 1);
  (*553*) Del (T 6);
  (*554*) AddTo (T 111) (Plain (Einsum [(T 8,[0;1])] [1;0]));
  (*555*) Del (T 8);
  (*556*) Assign (T 112) (Plain (Zeros [0;0;0;1;1;1]));
  (*557*) AddTo (T 112) (Times (Einsum [(T 111,[0;1]); (n_t3,[2;3;0;4;5;6])] [2;3;1;4;5;6]) (1) 2);
  (*558*) Del (T 111);
  (*559*) Assign (T 113) (Plain (Zeros [0;0;0;1;1;1]));
  (*560*) AddTo (T 113) (Times (Einsum [(T 110,[0;1;2;3;4;5])] [0;2;1;4;5;3]) (-1) 2);
  (*561*) Del (T 110);
  (*562*) AddTo (T 113) (Times (Einsum [(T 112,[0;1;2;3;4;5])] [2;0;1;4;5;3]) (-1) 1);
  (*563*) Del (T 112);
  (*564*) AddTo n_t3new (Plain (Einsum [(T 113,[0;1;2;3;4;5])] [0;1;2;5;3;4]));
  (*565*) AddTo n_t3new (Plain (Einsum [(T 113,[0;1;2;3;4;5])] [2;0;1;5;3;4]));
  (*566*) AddTo n_t3new (Times (Einsum [(T 113,[0;1;2;3;4;5])] [2;1;0;5;3;4]) (-1) 1);
  (*567*) Del (T 113)]
 [(n_t1new,[0;1]); (n_t2new,[0;0;1;1]); (n_t3new,[0;0;0;1;1;1])].

(** ebcc/codegen/GCCSDT.py:571-1218 [update_lams] *)
Definition GCCSDT_update_lams : prog := mkprog
 [(n_l2,[1;1;0;0]); (n_v'ovvv,[0;1;1;1]); (n_f'ov,[0;1]); (n_l1,[1;0]); (n_v'ovov,[0;1;0;1]); (n_v'oovv,[0;0;1;1]); (n_v'vvvv,[1;1;1;1]); (n_t1,[0;1]); (n_l3,[1;1;1;0;0;0]); (n_t3,[0;0;0;1;1;1]); (n_v'ooov,[0;0;0;1]); (n_t2,[0;0;1;1]); (n_v'oooo,[0;0;0;0]); (n_f'vv,[1;1]); (n_f'oo,[0;0])]
 [(*573*) Assign n_l1new (Plain (Zeros [1;0]));
  (*574*) AddTo n_l1new (Times (Einsum [(n_l2,[0;1;2;3]); (n_v'ovvv,[3;4;0;1])] [4;2]) (-1) 2);
  (*575*) AddTo n_l1new (Plain (Einsum [(n_f'ov,[0;1])] [1;0]));
  (*576*) AddTo n_l1new (Times (Einsum [(n_l1,[0;1]); (n_v'ovov,[2;0;1;3])] [3;2]) (-1) 1);
  (*577*) Assign n_l2new (Plain (Zeros [1;1;0;0]));
  (*578*) AddTo n_l2new (Plain (Einsum [(n_v'oovv,[0;1;2;3])] [2;3;0;1]));
  (*579*) AddTo n_l2new (Times (Einsum [(n_l2,[0;1;2;3]); (n_v'vvvv,[4;5;0;1])] [4;5;2;3]) (1) 2);
  (*580*) Assign (T 1) (Plain (Zeros [0;0]));
  (*581*) AddTo (T 1) (Plain (Einsum [(n_l1,[0;1]); (n_t1,[2;0])] [1;2]));
  (*582*) Assign (T 2) (Plain (Zeros [0;1]));
  (*583*) AddTo (T 2) (Plain (Einsum [(n_t1,[0;1]); (n_v'oovv,[2;0;3;1])] [2;3]));
  (*584*) AddTo n_l1new (Times (Einsum [(T 1,[0;1]); (T 2,[1;2])] [2;0]) (-1) 1);
  (*585*) Assign n_l3new (Plain (Zeros [1;1;1;0;0;0]));
  (*586*) AddTo n_l3new (Plain (Einsum [(T 2,[0;1]); (n_l2,[2;3;4;5])] [2;3;1;4;5;0]));
  (*587*) AddTo n_l3new (Times (Einsum [(T 2,[0;1]); (n_l2,[2;3;4;5])] [2;1;3;4;5;0]) (-1) 1);
  (*588*) AddTo n_l3new (Plain (Einsum [(T 2,[0;1]); (n_l2,[2;3;4;5])] [1;2;3;4;5;0]));
  (*589*) AddTo n_l3new (Times (Einsum [(T 2,[0;1]); (n_l2,[2;3;4;5])] [2;3;1;4;0;5]) (-1) 1);
  (*590*) AddTo n_l3new (Plain (Einsum [(T 2,[0;1]); (n_l2,[2;3;4;5])] [2;1;3;4;0;5]));
  (*591*) AddTo n_l3new (Times (Einsum [(T 2,[0;1]); (n_l2,[2;3;4;5])] [1;2;3;4;0;5]) (-1) 1);
  (*592*) AddTo n_l3new (Plain (Einsum [(T 2,[0;1]); (n_l2,[2;3;4;5])] [2;3;1;0;4;5]));
  (*593*) AddTo n_l3new (Times (Einsum [(T 2,[0;1]); (n_l2,[2;3;4;5])] [2;1;3;0;4;5]) (-1) 1);
  (*594*) AddTo n_l3new (Plain (Einsum [(T 2,[0;1]); (n_l2,[2;3;4;5])] [1;2;3;0;4;5]));
  (*595*) Assign (T 3) (Plain (Zeros [1;1]));
  (*596*) AddTo (T 3) (Plain (Einsum [(n_l3,[0;1;2;3;4;5]); (n_t3,[3;4;5;6;1;2])] [0;6]));
  (*597*) AddTo n_l1new (Times (Einsum [(T 3,[0;1]); (n_v'ovvv,[2;0;3;1])] [3;2]) (8333333333333) 100000000000000);
  (*598*) Assign (T 4) (Plain (Zeros [0;0]));
  (*599*) AddTo (T 4) (Plain (Einsum [(n_l3,[0;1;2;3;4;5]); (n_t3,[6;4;5;0;1;2])] [3;6]));
  (*600*) AddTo n_l1new (Times (Einsum [(T 4,[0;1]); (n_v'ooov,[2;1;0;3])] [3;2]) (8333333333333) 100000000000000);
  (*601*) Assign (T 5) (Plain (Zeros [0;0;0;1]));
  (*602*) AddTo (T 5) (Plain (Einsum [(n_t1,[0;1]); (n_v'oovv,[2;3;4;1])] [0;2;3;4]));
  (*603*) Assign (T 6) (Plain (Zeros [0;0;0;1]));
  (*604*) AddTo (T 6) (Plain (Einsum [(n_v'ooov,[0;1;2;3])] [0;1;2;3]));
  (*605*) AddTo (T 6) (Plain (Einsum [(T 5,[0;1;2;3])] [2;1;0;3]));
  (*606*) Assign (T 7) (Plain (Zeros [0;0;1;1]));
  (*607*) AddTo (T 7) (Plain (Einsum [(n_t1,[0;1]); (n_v'ovvv,[2;3;4;1])] [0;2;3;4]));
  (*608*) Assign (T 8) (Plain (Zeros [0;0;1;1]));
  (*609*) AddTo (T 8) (Plain (Einsum [(n_t2,[0;1;2;3]); (n_v'oovv,[4;1;5;3])] [0;4;2;5]));
  (*610*) Assign (T 9) (Plain (Zeros [0;0;1;1]));
  (*611*) AddTo (T 9) (Times (Einsum [(n_v'ovov,[0;1;2;3])] [0;2;3;1]) (-1) 1);
  (*612*) AddTo (T 9) (Plain (Einsum [(T 7,[0;1;2;3])] [0;1;2;3]));
  (*613*) AddTo (T 9) (Plain (Einsum [(T 8,[0;1;2;3])] [0;1;2;3]));
  (*614*) Assign (T 10) (Plain (Zeros [0;1]));
  (*615*) AddTo (T 10) (Plain (Einsum [(n_f'ov,[0;1])] [0;1]));
  (*616*) AddTo (T 10) (Plain (Einsum [(T 2,[0;1])] [0;1]));
  (*617*) Assign (T 11) (Plain (Zeros [0;0;0;0]));
  (*618*) AddTo (T 11) (Plain (Einsum [(n_t2,[0;1;2;3]); (n_v'oovv,[4;5;2;3])] [0;1;4;5]));
  (*619*) Assign (T 12) (Plain (Zeros [0;0;0;1]));
  (*620*) AddTo (T 12) (Plain (Einsum [(n_v'ooov,[0;1;2;3])] [0;1;2;3]));
  (*621*) AddTo (T 12) (Times (Einsum [(T 5,[0;1;2;3])] [2;1;0;3]) (1) 2);
  (*622*) Assign (T 13) (Plain (Zeros [0;0;0;0]));
  (*623*) AddTo (T 13) (Times (Einsum [(n_t1,[0;1]); (T 12,[2;3;4;1])] [0;2;3;4]) (4) 1);
  (*624*) Del (T 12);
  (*625*) Assign (T 14) (Plain (Zeros [0;0;0;0]));
  (*626*) AddTo (T 14) (Times (Einsum [(n_v'oooo,[0;1;2;3])] [0;1;2;3]) (2) 1);
  (*627*) AddTo (T 14) (Plain (Einsum [(T 11,[0;1;2;3])] [3;2;1;0]));
  (*628*) AddTo (T 14) (Times (Einsum [(T 13,[0;1;2;3])] [2;1;3;0]) (-1) 1);
  (*629*) Assign (T 15) (Plain (Zeros [0;0;0;0;0;1]));
  (*630*) AddTo (T 15) (Plain (Einsum [(n_v'oovv,[0;1;2;3]); (n_t3,[4;5;6;7;2;3])] [4;5;6;0;1;7]));
  (*631*) AddTo n_l2new (Times (Einsum [(n_l3,[0;1;2;3;4;5]); (T 15,[3;4;5;6;7;2])] [0;1;6;7]) (8333333333333) 100000000000000);
  (*632*) Assign (T 16) (Plain (Zeros [0;0;0;1]));
  (*633*) AddTo (T 16) (Times (Einsum [(n_v'ooov,[0;1;2;3])] [2;0;1;3]) (-1) 1);
  (*634*) AddTo (T 16) (Times (Einsum [(T 5,[0;1;2;3])] [0;2;1;3]) (-1) 1);
  (*635*) Assign (T 17) (Plain (Zeros [0;0;0;0;0;1]));
  (*636*) AddTo (T 17) (Times (Einsum [(T 15,[0;1;2;3;4;5])] [0;1;4;3;2;5]) (8333333333333) 50000000000000);
  (*637*) Del (T 15);
  (*638*) AddTo (T 17) (Plain (Einsum [(n_t2,[0;1;2;3]); (T 16,[4;5;6;3])] [0;1;6;5;4;2]));
  (*639*) Assign (T 18) (Plain (Zeros [0;0;0;0;1;1]));
  (*640*) AddTo (T 18) (Times (Einsum [(n_v'ovvv,[0;1;2;3]); (n_t3,[4;5;6;7;2;3])] [0;4;5;6;7;1]) (8333333333333) 12500000000000);
  (*641*) AddTo (T 18) (Times (Einsum [(T 6,[0;1;2;3]); (n_t3,[4;5;0;6;7;3])] [1;4;2;5;6;7]) (-2) 1);
  (*642*) AddTo (T 18) (Times (Einsum [(n_t2,[0;1;2;3]); (T 9,[4;5;6;3])] [5;0;4;1;2;6]) (-4) 1);
  (*643*) Del (T 9);
  (*644*) AddTo (T 18) (Times (Einsum [(T 10,[0;1]); (n_t3,[2;3;4;5;6;1])] [0;2;3;4;5;6]) (-8333333333333) 12500000000000);
  (*645*) AddTo (T 18) (Times (Einsum [(n_t2,[0;1;2;3]); (T 14,[1;4;5;6])] [4;0;6;5;2;3]) (-1) 1);
  (*646*) AddTo (T 18) (Times (Einsum [(n_t1,[0;1]); (T 17,[2;3;4;0;5;6])] [4;3;5;2;6;1]) (4) 1);
  (*647*) Del (T 17);
  (*648*) AddTo n_l1new (Times (Einsum [(n_l3,[0;1;2;3;4;5]); (T 18,[6;3;4;5;2;1])] [0;6]) (-1) 8);
  (*649*) Del (T 18);
  (*650*) Assign (T 19) (Plain (Zeros [0;1;1;1]));
  (*651*) AddTo (T 19) (Plain (Einsum [(n_t2,[0;1;2;3]); (n_l3,[4;5;3;6;0;1])] [6;4;5;2]));
  (*652*) AddTo n_l2new (Times (Einsum [(T 19,[0;1;2;3]); (T 6,[4;5;0;3])] [1;2;5;4]) (-1) 2);
  (*653*) Assign (T 20) (Plain (Zeros [0;1;1;1]));
  (*654*) AddTo (T 20) (Times (Einsum [(n_t1,[0;1]); (n_l2,[2;3;4;0])] [4;2;3;1]) (2) 1);
  (*655*) AddTo (T 20) (Times (Einsum [(T 19,[0;1;2;3])] [0;2;1;3]) (-1) 1);
  (*656*) AddTo n_l1new (Times (Einsum [(n_v'vvvv,[0;1;2;3]); (T 20,[4;3;2;1])] [0;4]) (-1) 4);
  (*657*) Del (T 20);
  (*658*) Assign (T 21) (Plain (Zeros [0;0;0;1]));
  (*659*) AddTo (T 21) (Plain (Einsum [(n_t2,[0;1;2;3]); (n_v'ovvv,[4;5;2;3])] [0;1;4;5]));
  (*660*) Assign (T 22) (Plain (Zeros [0;0;0;1]));
  (*661*) AddTo (T 22) (Plain (Einsum [(n_v'oovv,[0;1;2;3]); (n_t3,[4;5;1;6;2;3])] [4;5;0;6]));
  (*662*) Assign (T 23) (Plain (Zeros [0;0;0;1]));
  (*663*) AddTo (T 23) (Times (Einsum [(n_t2,[0;1;2;3]); (T 16,[4;1;5;3])] [0;4;5;2]) (2) 1);
  (*664*) Assign (T 24) (Plain (Zeros [0;0;1;1]));
  (*665*) AddTo (T 24) (Plain (Einsum [(n_v'ovov,[0;1;2;3])] [0;2;1;3]));
  (*666*) AddTo (T 24) (Times (Einsum [(T 7,[0;1;2;3])] [0;1;3;2]) (-1) 2);
  (*667*) Assign (T 25) (Plain (Zeros [0;0;0;0]));
  (*668*) AddTo (T 25) (Times (Einsum [(n_v'oooo,[0;1;2;3])] [0;1;2;3]) (-2) 1);
  (*669*) AddTo (T 25) (Times (Einsum [(T 11,[0;1;2;3])] [3;2;1;0]) (-1) 1);
  (*670*) AddTo (T 25) (Times (Einsum [(T 13,[0;1;2;3])] [2;1;0;3]) (-1) 1);
  (*671*) Assign (T 26) (Plain (Zeros [0;0;0;1]));
  (*672*) AddTo (T 26) (Times (Einsum [(n_v'ooov,[0;1;2;3])] [2;0;1;3]) (-1) 1);
  (*673*) AddTo (T 26) (Times (Einsum [(T 21,[0;1;2;3])] [2;1;0;3]) (1) 2);
  (*674*) AddTo (T 26) (Times (Einsum [(T 22,[0;1;2;3])] [2;1;0;3]) (-1) 2);
  (*675*) AddTo (T 26) (Plain (Einsum [(T 23,[0;1;2;3])] [2;0;1;3]));
  (*676*) AddTo (T 26) (Plain (Einsum [(T 10,[0;1]); (n_t2,[2;3;4;1])] [0;2;3;4]));
  (*677*) AddTo (T 26) (Times (Einsum [(n_t1,[0;1]); (T 24,[2;3;1;4])] [3;2;0;4]) (-2) 1);
  (*678*) Del (T 24);
  (*679*) AddTo (T 26) (Times (Einsum [(n_t1,[0;1]); (T 25,[0;2;3;4])] [2;4;3;1]) (-1) 2);
  (*680*) Del (T 25);
  (*681*) AddTo n_l1new (Times (Einsum [(n_l2,[0;1;2;3]); (T 26,[4;2;3;1])] [0;4]) (1) 2);
  (*682*) Del (T 26);
  (*683*) Assign (T 27) (Plain (Zeros [0;0;0;0;1;1]));
  (*684*) AddTo (T 27) (Plain (Einsum [(n_t1,[0;1]); (n_l3,[2;3;1;4;5;6])] [4;5;6;0;2;3]));
  (*685*) Assign (T 28) (Plain (Zeros [0;0;0;0;0;1]));
  (*686*) AddTo (T 28) (Plain (Einsum [(n_t1,[0;1]); (T 27,[2;3;4;5;6;1])] [2;3;4;0;5;6]));
  (*687*) Assign (T 29) (Plain (Zeros [0;0;0;1]));
  (*688*) AddTo (T 29) (Plain (Einsum [(n_t1,[0;1]); (n_l2,[2;1;3;4])] [3;4;0;2]));
  (*689*) Assign (T 30) (Plain (Zeros [0;0;0;1]));
  (*690*) AddTo (T 30) (Plain (Einsum [(n_t2,[0;1;2;3]); (n_l3,[4;2;3;5;6;1])] [5;6;0;4]));
  (*691*) Assign (T 31) (Plain (Zeros [0;0;0;1]));
  (*692*) AddTo (T 31) (Plain (Einsum [(T 29,[0;1;2;3])] [1;0;2;3]));
  (*693*) AddTo (T 31) (Times (Einsum [(T 30,[0;1;2;3])] [0;1;2;3]) (-1) 2);
  (*694*) AddTo n_l2new (Times (Einsum [(n_v'ovvv,[0;1;2;3]); (T 31,[4;5;0;1])] [2;3;4;5]) (-1) 1);
  (*695*) Assign (T 32) (Plain (Zeros [0;0;0;0]));
  (*696*) AddTo (T 32) (Plain (Einsum [(n_l2,[0;1;2;3]); (n_t2,[4;5;0;1])] [2;3;4;5]));
  (*697*) Assign (T 33) (Plain (Zeros [0;0;0;0]));
  (*698*) AddTo (T 33) (Plain (Einsum [(n_l3,[0;1;2;3;4;5]); (n_t3,[6;7;5;0;1;2])] [3;4;6;7]));
  (*699*) Assign (T 34) (Plain (Zeros [0;0;0;1]));
  (*700*) AddTo (T 34) (Times (Einsum [(T 29,[0;1;2;3])] [1;0;2;3]) (-1) 1);
  (*701*) AddTo (T 34) (Plain (Einsum [(T 30,[0;1;2;3])] [0;1;2;3]));
  (*702*) Assign (T 35) (Plain (Zeros [0;0;0;0]));
  (*703*) AddTo (T 35) (Times (Einsum [(T 32,[0;1;2;3])] [1;0;3;2]) (-75000000000003) 25000000000000);
  (*704*) AddTo (T 35) (Plain (Einsum [(T 33,[0;1;2;3])] [0;1;3;2]));
  (*705*) AddTo (T 35) (Times (Einsum [(n_t1,[0;1]); (T 34,[2;3;4;1])] [2;3;0;4]) (-75000000000003) 12500000000000);
  (*706*) Assign (T 36) (Plain (Zeros [0;0]));
  (*707*) AddTo (T 36) (Plain (Einsum [(n_l2,[0;1;2;3]); (n_t2,[4;3;0;1])] [2;4]));
  (*708*) Assign (T 37) (Plain (Zeros [0;0]));
  (*709*) AddTo (T 37) (Plain (Einsum [(T 36,[0;1])] [0;1]));
  (*710*) AddTo (T 37) (Times (Einsum [(T 4,[0;1])] [0;1]) (8333333333333) 50000000000000);
  (*711*) Assign (T 38) (Plain (Zeros [0;0;0;1]));
  (*712*) AddTo (T 38) (Plain (Einsum [(n_l1,[0;1]); (n_t2,[2;3;4;0])] [1;2;3;4]));
  (*713*) AddTo (T 38) (Times (Einsum [(n_l2,[0;1;2;3]); (n_t3,[4;5;3;6;0;1])] [2;4;5;6]) (1) 2);
  (*714*) AddTo (T 38) (Times (Einsum [(n_t3,[0;1;2;3;4;5]); (T 27,[6;1;2;7;5;4])] [6;0;7;3]) (-1) 2);
  (*715*) AddTo (T 38) (Times (Einsum [(n_t2,[0;1;2;3]); (T 19,[4;3;2;5])] [4;0;1;5]) (-1) 4);
  (*716*) AddTo (T 38) (Times (Einsum [(n_t2,[0;1;2;3]); (T 28,[4;0;1;5;6;3])] [4;6;5;2]) (-1) 2);
  (*717*) AddTo (T 38) (Times (Einsum [(n_t2,[0;1;2;3]); (T 31,[4;1;5;3])] [4;0;5;2]) (2) 1);
  (*718*) AddTo (T 38) (Times (Einsum [(n_t1,[0;1]); (T 35,[0;2;3;4])] [2;4;3;1]) (-8333333333333) 50000000000000);
  (*719*) Del (T 35);
  (*720*) AddTo (T 38) (Plain (Einsum [(n_t1,[0;1]); (T 37,[2;3])] [2;0;3;1]));
  (*721*) Del (T 37);
  (*722*) AddTo n_l1new (Times (Einsum [(n_v'oovv,[0;1;2;3]); (T 38,[4;0;1;3])] [2;4]) (1) 2);
  (*723*) Del (T 38);
  (*724*) Assign (T 39) (Plain (Zeros [0;0;1;1]));
  (*725*) AddTo (T 39) (Plain (Einsum [(n_t2,[0;1;2;3]); (T 27,[4;0;1;5;3;6])] [4;5;6;2]));
  (*726*) Assign (T 40) (Plain (Zeros [0;0;0;1]));
  (*727*) AddTo (T 40) (Times (Einsum [(T 29,[0;1;2;3])] [1;0;2;3]) (-1) 1);
  (*728*) AddTo (T 40) (Times (Einsum [(T 30,[0;1;2;3])] [0;1;2;3]) (1) 2);
  (*729*) AddTo n_l1new (Plain (Einsum [(n_v'ovov,[0;1;2;3]); (T 40,[0;4;2;3])] [1;4]));
  (*730*) Assign (T 41) (Plain (Zeros [0;0;1;1]));
  (*731*) AddTo (T 41) (Times (Einsum [(T 39,[0;1;2;3])] [0;1;2;3]) (1) 2);
  (*732*) AddTo (T 41) (Times (Einsum [(n_t1,[0;1]); (T 40,[0;2;3;4])] [2;3;4;1]) (-1) 1);
  (*733*) AddTo n_l1new (Plain (Einsum [(n_v'ovvv,[0;1;2;3]); (T 41,[4;0;1;3])] [2;4]));
  (*734*) Del (T 41);
  (*735*) Assign (T 42) (Plain (Zeros [0;0;1;1]));
  (*736*) AddTo (T 42) (Plain (Einsum [(n_l2,[0;1;2;3]); (n_t2,[4;3;5;1])] [2;4;0;5]));
  (*737*) Assign (T 43) (Plain (Zeros [0;0;1;1]));
  (*738*) AddTo (T 43) (Plain (Einsum [(n_l3,[0;1;2;3;4;5]); (n_t3,[6;4;5;7;1;2])] [3;6;0;7]));
  (*739*) Assign (T 44) (Plain (Zeros [0;0;1;1]));
  (*740*) AddTo (T 44) (Plain (Einsum [(T 42,[0;1;2;3])] [0;1;2;3]));
  (*741*) AddTo (T 44) (Times (Einsum [(T 43,[0;1;2;3])] [0;1;2;3]) (1) 4);
  (*742*) AddTo n_l1new (Times (Einsum [(n_v'ovvv,[0;1;2;3]); (T 44,[4;0;1;3])] [2;4]) (-1) 1);
  (*743*) Del (T 44);
  (*744*) Assign (T 45) (Plain (Zeros [0;0]));
  (*745*) AddTo (T 45) (Times (Einsum [(T 1,[0;1])] [0;1]) (75000000000003) 6250000000000);
  (*746*) AddTo (T 45) (Times (Einsum [(T 36,[0;1])] [0;1]) (75000000000003) 12500000000000);
  (*747*) AddTo (T 45) (Plain (Einsum [(T 4,[0;1])] [0;1]));
  (*748*) Assign (T 46) (Plain (Zeros [0;1]));
  (*749*) AddTo (T 46) (Times (Einsum [(n_t1,[0;1])] [0;1]) (-1) 1);
  (*750*) AddTo (T 46) (Times (Einsum [(n_l1,[0;1]); (n_t2,[2;1;3;0])] [2;3]) (-1) 1);
  (*751*) AddTo (T 46) (Times (Einsum [(n_l2,[0;1;2;3]); (n_t3,[4;2;3;5;0;1])] [4;5]) (-1) 4);
  (*752*) AddTo (T 46) (Times (Einsum [(n_t3,[0;1;2;3;4;5]); (T 27,[2;0;1;6;5;4])] [6;3]) (-8333333333333) 100000000000000);
  (*753*) AddTo (T 46) (Times (Einsum [(n_t2,[0;1;2;3]); (T 40,[0;1;4;3])] [4;2]) (-1) 2);
  (*754*) AddTo (T 46) (Times (Einsum [(n_t1,[0;1]); (T 45,[0;2])] [2;1]) (8333333333333) 100000000000000);
  (*755*) AddTo n_l1new (Times (Einsum [(T 46,[0;1]); (n_v'oovv,[2;0;3;1])] [3;2]) (-1) 1);
  (*756*) Del (T 46);
  (*757*) Assign (T 47) (Plain (Zeros [1;1]));
  (*758*) AddTo (T 47) (Plain (Einsum [(n_l2,[0;1;2;3]); (n_t2,[2;3;4;1])] [0;4]));
  (*759*) Assign (T 48) (Plain (Zeros [1;1]));
  (*760*) AddTo (T 48) (Plain (Einsum [(n_l1,[0;1]); (n_t1,[1;2])] [0;2]));
  (*761*) AddTo (T 48) (Times (Einsum [(T 47,[0;1])] [0;1]) (1) 2);
  (*762*) AddTo n_l1new (Plain (Einsum [(T 48,[0;1]); (n_v'ovvv,[2;0;3;1])] [3;2]));
  (*763*) Del (T 48);
  (*764*) Assign (T 49) (Plain (Zeros [0;0;0;0]));
  (*765*) AddTo (T 49) (Times (Einsum [(T 32,[0;1;2;3])] [1;0;3;2]) (75000000000003) 25000000000000);
  (*766*) AddTo (T 49) (Times (Einsum [(T 33,[0;1;2;3])] [0;1;3;2]) (-1) 1);
  (*767*) AddTo n_l1new (Times (Einsum [(n_v'ooov,[0;1;2;3]); (T 49,[2;4;0;1])] [3;4]) (8333333333333) 100000000000000);
  (*768*) Del (T 49);
  (*769*) Assign (T 50) (Plain (Zeros [0;0;0;0]));
  (*770*) AddTo (T 50) (Plain (Einsum [(n_t1,[0;1]); (T 34,[2;3;4;1])] [3;2;4;0]));
  (*771*) AddTo n_l1new (Times (Einsum [(n_v'ooov,[0;1;2;3]); (T 50,[4;2;0;1])] [3;4]) (-1) 2);
  (*772*) Del (T 50);
  (*773*) Assign (T 51) (Plain (Zeros [0;0]));
  (*774*) AddTo (T 51) (Times (Einsum [(T 1,[0;1])] [0;1]) (2) 1);
  (*775*) AddTo (T 51) (Plain (Einsum [(T 36,[0;1])] [0;1]));
  (*776*) AddTo n_l1new (Times (Einsum [(T 51,[0;1]); (n_v'ooov,[2;1;0;3])] [3;2]) (1) 2);
  (*777*) Del (T 51);
  (*778*) Assign (T 52) (Plain (Zeros [1;1]));
  (*779*) AddTo (T 52) (Plain (Einsum [(n_t1,[0;1]); (n_v'ovvv,[0;2;3;1])] [2;3]));
  (*780*) Assign (T 53) (Plain (Zeros [1;1]));
  (*781*) AddTo (T 53) (Plain (Einsum [(n_f'vv,[0;1])] [0;1]));
  (*782*) AddTo (T 53) (Times (Einsum [(T 52,[0;1])] [0;1]) (-1) 1);
  (*783*) AddTo n_l1new (Plain (Einsum [(n_l1,[0;1]); (T 53,[0;2])] [2;1]));
  (*784*) Del (T 53);
  (*785*) Assign (T 54) (Plain (Zeros [0;0]));
  (*786*) AddTo (T 54) (Plain (Einsum [(n_t1,[0;1]); (n_v'ooov,[2;0;3;1])] [2;3]));
  (*787*) Assign (T 55) (Plain (Zeros [0;0]));
  (*788*) AddTo (T 55) (Plain (Einsum [(n_t2,[0;1;2;3]); (n_v'oovv,[4;1;2;3])] [0;4]));
  (*789*) Assign (T 56) (Plain (Zeros [0;0]));
  (*790*) AddTo (T 56) (Times (Einsum [(n_f'oo,[0;1])] [0;1]) (2) 1);
  (*791*) AddTo (T 56) (Times (Einsum [(T 54,[0;1])] [1;0]) (2) 1);
  (*792*) AddTo (T 56) (Plain (Einsum [(T 55,[0;1])] [0;1]));
  (*793*) AddTo (T 56) (Times (Einsum [(n_t1,[0;1]); (T 10,[2;1])] [0;2]) (2) 1);
  (*794*) Del (T 10);
  (*795*) AddTo n_l1new (Times (Einsum [(n_l1,[0;1]); (T 56,[1;2])] [0;2]) (-1) 2);
  (*796*) Del (T 56);
  (*797*) Assign (T 57) (Plain (Zeros [0;0]));
  (*798*) AddTo (T 57) (Times (Einsum [(T 1,[0;1])] [0;1]) (2) 1);
  (*799*) Del (T 1);
  (*800*) AddTo (T 57) (Plain (Einsum [(T 36,[0;1])] [0;1]));
  (*801*) Del (T 36);
  (*802*) AddTo (T 57) (Times (Einsum [(T 4,[0;1])] [0;1]) (8333333333333) 50000000000000);
  (*803*) Del (T 4);
  (*804*) AddTo n_l1new (Times (Einsum [(n_f'ov,[0;1]); (T 57,[2;0])] [1;2]) (-1) 2);
  (*805*) Del (T 57);
  (*806*) Assign (T 58) (Plain (Zeros [0;0;1;1]));
  (*807*) AddTo (T 58) (Plain (Einsum [(n_f'vv,[0;1]); (n_l2,[2;1;3;4])] [3;4;0;2]));
  (*808*) Assign (T 59) (Plain (Zeros [0;1;1;1]));
  (*809*) AddTo (T 59) (Plain (Einsum [(n_t1,[0;1]); (n_v'vvvv,[2;3;4;1])] [0;2;3;4]));
  (*810*) Assign (T 60) (Plain (Zeros [0;1;1;1]));
  (*811*) AddTo (T 60) (Plain (Einsum [(n_t2,[0;1;2;3]); (n_v'ovvv,[1;4;5;3])] [0;2;4;5]));
  (*812*) Assign (T 61) (Plain (Zeros [0;1;1;1]));
  (*813*) AddTo (T 61) (Plain (Einsum [(n_v'oovv,[0;1;2;3]); (n_t3,[4;0;1;5;6;3])] [4;5;6;2]));
  (*814*) Assign (T 62) (Plain (Zeros [0;1;1;1]));
  (*815*) AddTo (T 62) (Times (Einsum [(n_t2,[0;1;2;3]); (T 6,[0;1;4;5])] [4;2;3;5]) (1) 2);
  (*816*) Del (T 6);
  (*817*) Assign (T 63) (Plain (Zeros [0;1;1;1]));
  (*818*) AddTo (T 63) (Times (Einsum [(n_v'ovvv,[0;1;2;3])] [0;2;3;1]) (-1) 1);
  (*819*) AddTo (T 63) (Times (Einsum [(T 59,[0;1;2;3])] [0;2;1;3]) (-1) 1);
  (*820*) Del (T 59);
  (*821*) AddTo (T 63) (Times (Einsum [(T 60,[0;1;2;3])] [0;1;2;3]) (2) 1);
  (*822*) Del (T 60);
  (*823*) AddTo (T 63) (Times (Einsum [(T 61,[0;1;2;3])] [0;2;1;3]) (-24999999999999) 50000000000000);
  (*824*) Del (T 61);
  (*825*) AddTo (T 63) (Plain (Einsum [(T 62,[0;1;2;3])] [0;2;1;3]));
  (*826*) Del (T 62);
  (*827*) Assign (T 64) (Plain (Zeros [0;0;1;1]));
  (*828*) AddTo (T 64) (Times (Einsum [(T 63,[0;1;2;3]); (n_l3,[4;1;2;5;6;0])] [5;6;4;3]) (-1) 2);
  (*829*) Del (T 63);
  (*830*) Assign (T 65) (Plain (Zeros [0;0;1;1]));
  (*831*) AddTo (T 65) (Plain (Einsum [(n_t1,[0;1]); (n_v'ooov,[2;0;3;4])] [2;3;1;4]));
  (*832*) Assign (T 66) (Plain (Zeros [0;0;1;1]));
  (*833*) AddTo (T 66) (Times (Einsum [(n_v'ovov,[0;1;2;3])] [0;2;3;1]) (-1) 1);
  (*834*) AddTo (T 66) (Times (Einsum [(T 65,[0;1;2;3])] [1;0;2;3]) (1) 2);
  (*835*) Del (T 65);
  (*836*) AddTo (T 66) (Plain (Einsum [(T 8,[0;1;2;3])] [0;1;2;3]));
  (*837*) Assign (T 67) (Plain (Zeros [0;0;1;1]));
  (*838*) AddTo (T 67) (Plain (Einsum [(T 66,[0;1;2;3]); (T 27,[4;5;0;1;2;6])] [4;5;6;3]));
  (*839*) Del (T 66);
  (*840*) Assign (T 68) (Plain (Zeros [0;0;1;1]));
  (*841*) AddTo (T 68) (Plain (Einsum [(n_t1,[0;1]); (T 5,[2;3;0;4])] [2;3;1;4]));
  (*842*) Assign (T 69) (Plain (Zeros [0;0;1;1]));
  (*843*) AddTo (T 69) (Plain (Einsum [(T 7,[0;1;2;3])] [0;1;2;3]));
  (*844*) AddTo (T 69) (Times (Einsum [(T 68,[0;1;2;3])] [0;1;2;3]) (-1) 2);
  (*845*) Del (T 68);
  (*846*) Assign (T 70) (Plain (Zeros [0;0;1;1]));
  (*847*) AddTo (T 70) (Plain (Einsum [(T 69,[0;1;2;3]); (T 27,[4;5;0;1;2;6])] [4;5;6;3]));
  (*848*) Del (T 69);
  (*849*) Assign (T 71) (Plain (Zeros [1;1]));
  (*850*) AddTo (T 71) (Plain (Einsum [(T 47,[0;1])] [0;1]));
  (*851*) Del (T 47);
  (*852*) AddTo (T 71) (Times (Einsum [(T 3,[0;1])] [0;1]) (8333333333333) 50000000000000);
  (*853*) Del (T 3);
  (*854*) Assign (T 72) (Plain (Zeros [0;0;1;1]));
  (*855*) AddTo (T 72) (Times (Einsum [(T 71,[0;1]); (n_v'oovv,[2;3;4;1])] [2;3;0;4]) (-1) 2);
  (*856*) Del (T 71);
  (*857*) Assign (T 73) (Plain (Zeros [1;1]));
  (*858*) AddTo (T 73) (Plain (Einsum [(n_t2,[0;1;2;3]); (n_v'oovv,[0;1;4;3])] [2;4]));
  (*859*) Assign (T 74) (Plain (Zeros [1;1]));
  (*860*) AddTo (T 74) (Plain (Einsum [(T 52,[0;1])] [0;1]));
  (*861*) Del (T 52);
  (*862*) AddTo (T 74) (Times (Einsum [(T 73,[0;1])] [0;1]) (1) 2);
  (*863*) Del (T 73);
  (*864*) Assign (T 75) (Plain (Zeros [0;0;1;1]));
  (*865*) AddTo (T 75) (Times (Einsum [(T 74,[0;1]); (n_l2,[2;0;3;4])] [3;4;2;1]) (-1) 1);
  (*866*) Assign (T 76) (Plain (Zeros [0;0;1;1]));
  (*867*) AddTo (T 76) (Plain (Einsum [(n_l1,[0;1]); (T 16,[1;2;3;4])] [2;3;0;4]));
  (*868*) Del (T 16);
  (*869*) Assign (T 77) (Plain (Zeros [0;0;1;1]));
  (*870*) AddTo (T 77) (Plain (Einsum [(n_f'ov,[0;1]); (T 40,[2;3;0;4])] [2;3;4;1]));
  (*871*) Assign (T 78) (Plain (Zeros [0;0;1;1]));
  (*872*) AddTo (T 78) (Plain (Einsum [(T 2,[0;1]); (T 40,[2;3;0;4])] [2;3;4;1]));
  (*873*) Del (T 40);
  (*874*) Assign (T 79) (Plain (Zeros [0;0;1;1]));
  (*875*) AddTo (T 79) (Times (Einsum [(T 58,[0;1;2;3])] [1;0;2;3]) (-1) 1);
  (*876*) Del (T 58);
  (*877*) AddTo (T 79) (Plain (Einsum [(T 64,[0;1;2;3])] [0;1;2;3]));
  (*878*) Del (T 64);
  (*879*) AddTo (T 79) (Plain (Einsum [(T 67,[0;1;2;3])] [0;1;2;3]));
  (*880*) Del (T 67);
  (*881*) AddTo (T 79) (Plain (Einsum [(T 70,[0;1;2;3])] [0;1;2;3]));
  (*882*) Del (T 70);
  (*883*) AddTo (T 79) (Times (Einsum [(T 72,[0;1;2;3])] [1;0;2;3]) (-1) 1);
  (*884*) Del (T 72);
  (*885*) AddTo (T 79) (Plain (Einsum [(T 75,[0;1;2;3])] [1;0;2;3]));
  (*886*) Del (T 75);
  (*887*) AddTo (T 79) (Plain (Einsum [(T 76,[0;1;2;3])] [1;0;2;3]));
  (*888*) Del (T 76);
  (*889*) AddTo (T 79) (Plain (Einsum [(T 77,[0;1;2;3])] [1;0;3;2]));
  (*890*) Del (T 77);
  (*891*) AddTo (T 79) (Times (Einsum [(T 78,[0;1;2;3])] [1;0;2;3]) (-1) 1);
  (*892*) Del (T 78);
  (*893*) AddTo n_l2new (Times (Einsum [(T 79,[0;1;2;3])] [2;3;0;1]) (-1) 1);
  (*894*) AddTo n_l2new (Plain (Einsum [(T 79,[0;1;2;3])] [3;2;0;1]));
  (*895*) Del (T 79);
  (*896*) Assign (T 80) (Plain (Zeros [0;0;1;1]));
  (*897*) AddTo (T 80) (Times (Einsum [(T 29,[0;1;2;3]); (T 5,[0;4;2;5])] [1;4;3;5]) (-1) 1);
  (*898*) Assign (T 81) (Plain (Zeros [0;0;1;1]));
  (*899*) AddTo (T 81) (Plain (Einsum [(n_v'ovvv,[0;1;2;3]); (T 19,[4;5;1;3])] [4;0;5;2]));
  (*900*) Assign (T 82) (Plain (Zeros [0;0;1;1]));
  (*901*) AddTo (T 82) (Times (Einsum [(n_t1,[0;1]); (T 30,[0;2;3;4])] [2;3;4;1]) (-1) 1);
  (*902*) Assign (T 83) (Plain (Zeros [0;0;1;1]));
  (*903*) AddTo (T 83) (Times (Einsum [(T 42,[0;1;2;3])] [0;1;2;3]) (-2) 1);
  (*904*) Del (T 42);
  (*905*) AddTo (T 83) (Times (Einsum [(T 43,[0;1;2;3])] [0;1;2;3]) (-24999999999999) 50000000000000);
  (*906*) Del (T 43);
  (*907*) AddTo (T 83) (Plain (Einsum [(T 39,[0;1;2;3])] [0;1;2;3]));
  (*908*) Del (T 39);
  (*909*) AddTo (T 83) (Plain (Einsum [(T 82,[0;1;2;3])] [0;1;2;3]));
  (*910*) Del (T 82);
  (*911*) Assign (T 84) (Plain (Zeros [0;0;1;1]));
  (*912*) AddTo (T 84) (Times (Einsum [(n_v'oovv,[0;1;2;3]); (T 83,[4;1;5;3])] [4;0;5;2]) (1) 2);
  (*913*) Del (T 83);
  (*914*) Assign (T 85) (Plain (Zeros [0;0;1;1]));
  (*915*) AddTo (T 85) (Times (Einsum [(n_v'ovov,[0;1;2;3])] [0;2;3;1]) (-1) 1);
  (*916*) AddTo (T 85) (Plain (Einsum [(T 7,[0;1;2;3])] [0;1;2;3]));
  (*917*) Assign (T 86) (Plain (Zeros [0;0;1;1]));
  (*918*) AddTo (T 86) (Plain (Einsum [(n_l2,[0;1;2;3]); (T 85,[3;4;1;5])] [2;4;0;5]));
  (*919*) Del (T 85);
  (*920*) Assign (T 87) (Plain (Zeros [0;0;1;1]));
  (*921*) AddTo (T 87) (Times (Einsum [(n_v'ooov,[0;1;2;3]); (T 31,[4;2;1;5])] [0;4;3;5]) (-1) 1);
  (*922*) Del (T 31);
  (*923*) Assign (T 88) (Plain (Zeros [0;0;1;1]));
  (*924*) AddTo (T 88) (Plain (Einsum [(n_f'ov,[0;1]); (n_l1,[2;3])] [0;3;1;2]));
  (*925*) AddTo (T 88) (Plain (Einsum [(n_l1,[0;1]); (T 2,[2;3])] [1;2;0;3]));
  (*926*) AddTo (T 88) (Times (Einsum [(T 80,[0;1;2;3])] [0;1;2;3]) (-1) 1);
  (*927*) Del (T 80);
  (*928*) AddTo (T 88) (Times (Einsum [(T 81,[0;1;2;3])] [0;1;2;3]) (1) 2);
  (*929*) Del (T 81);
  (*930*) AddTo (T 88) (Times (Einsum [(T 84,[0;1;2;3])] [0;1;2;3]) (-1) 1);
  (*931*) Del (T 84);
  (*932*) AddTo (T 88) (Plain (Einsum [(T 86,[0;1;2;3])] [0;1;2;3]));
  (*933*) Del (T 86);
  (*934*) AddTo (T 88) (Plain (Einsum [(T 87,[0;1;2;3])] [1;0;3;2]));
  (*935*) Del (T 87);
  (*936*) AddTo n_l2new (Plain (Einsum [(T 88,[0;1;2;3])] [2;3;0;1]));
  (*937*) AddTo n_l2new (Times (Einsum [(T 88,[0;1;2;3])] [3;2;0;1]) (-1) 1);
  (*938*) AddTo n_l2new (Times (Einsum [(T 88,[0;1;2;3])] [2;3;1;0]) (-1) 1);
  (*939*) AddTo n_l2new (Plain (Einsum [(T 88,[0;1;2;3])] [3;2;1;0]));
  (*940*) Del (T 88);
  (*941*) Assign (T 89) (Plain (Zeros [0;0]));
  (*942*) AddTo (T 89) (Plain (Einsum [(n_f'ov,[0;1]); (n_t1,[2;1])] [0;2]));
  (*943*) Assign (T 90) (Plain (Zeros [0;0;1;1]));
  (*944*) AddTo (T 90) (Plain (Einsum [(T 89,[0;1]); (n_l2,[2;3;4;1])] [0;4;2;3]));
  (*945*) Assign (T 91) (Plain (Zeros [0;0;0;1]));
  (*946*) AddTo (T 91) (Plain (Einsum [(n_f'ov,[0;1]); (n_t2,[2;3;4;1])] [0;2;3;4]));
  (*947*) Assign (T 92) (Plain (Zeros [0;0;1;1]));
  (*948*) AddTo (T 92) (Plain (Einsum [(T 91,[0;1;2;3]); (n_l3,[4;5;3;6;2;1])] [0;6;4;5]));
  (*949*) Del (T 91);
  (*950*) Assign (T 93) (Plain (Zeros [0;0;0;1]));
  (*951*) AddTo (T 93) (Times (Einsum [(T 2,[0;1]); (n_t2,[2;3;4;1])] [2;3;0;4]) (-1) 1);
  (*952*) Assign (T 94) (Plain (Zeros [0;0;1;1]));
  (*953*) AddTo (T 94) (Plain (Einsum [(n_v'ovov,[0;1;2;3])] [0;2;1;3]));
  (*954*) AddTo (T 94) (Times (Einsum [(T 7,[0;1;2;3])] [1;0;2;3]) (-1) 2);
  (*955*) Assign (T 95) (Plain (Zeros [0;0;0;1]));
  (*956*) AddTo (T 95) (Times (Einsum [(n_t1,[0;1]); (T 94,[2;3;4;1])] [0;2;3;4]) (2) 1);
  (*957*) Del (T 94);
  (*958*) Assign (T 96) (Plain (Zeros [0;0;0;1]));
  (*959*) AddTo (T 96) (Times (Einsum [(n_t1,[0;1]); (T 14,[0;2;3;4])] [2;3;4;1]) (1) 2);
  (*960*) Del (T 14);
  (*961*) Assign (T 97) (Plain (Zeros [0;0;0;1]));
  (*962*) AddTo (T 97) (Times (Einsum [(n_v'ooov,[0;1;2;3])] [0;1;2;3]) (-1) 1);
  (*963*) AddTo (T 97) (Times (Einsum [(T 21,[0;1;2;3])] [1;0;2;3]) (1) 2);
  (*964*) Del (T 21);
  (*965*) AddTo (T 97) (Times (Einsum [(T 22,[0;1;2;3])] [0;1;2;3]) (24999999999999) 50000000000000);
  (*966*) Del (T 22);
  (*967*) AddTo (T 97) (Times (Einsum [(T 93,[0;1;2;3])] [0;1;2;3]) (-1) 1);
  (*968*) Del (T 93);
  (*969*) AddTo (T 97) (Plain (Einsum [(T 23,[0;1;2;3])] [0;1;2;3]));
  (*970*) Del (T 23);
  (*971*) AddTo (T 97) (Times (Einsum [(T 95,[0;1;2;3])] [2;0;1;3]) (-1) 1);
  (*972*) Del (T 95);
  (*973*) AddTo (T 97) (Times (Einsum [(T 96,[0;1;2;3])] [1;2;0;3]) (-1) 1);
  (*974*) Del (T 96);
  (*975*) Assign (T 98) (Plain (Zeros [0;0;1;1]));
  (*976*) AddTo (T 98) (Times (Einsum [(T 97,[0;1;2;3]); (n_l3,[4;5;3;6;0;1])] [6;2;4;5]) (-1) 2);
  (*977*) Del (T 97);
  (*978*) Assign (T 99) (Plain (Zeros [0;0;1;1]));
  (*979*) AddTo (T 99) (Times (Einsum [(T 45,[0;1]); (n_v'oovv,[2;1;3;4])] [0;2;3;4]) (-8333333333333) 100000000000000);
  (*980*) Del (T 45);
  (*981*) Assign (T 100) (Plain (Zeros [0;0]));
  (*982*) AddTo (T 100) (Plain (Einsum [(n_t1,[0;1]); (T 2,[2;1])] [0;2]));
  (*983*) Assign (T 101) (Plain (Zeros [0;0]));
  (*984*) AddTo (T 101) (Plain (Einsum [(T 54,[0;1])] [0;1]));
  (*985*) Del (T 54);
  (*986*) AddTo (T 101) (Times (Einsum [(T 55,[0;1])] [1;0]) (1) 2);
  (*987*) Del (T 55);
  (*988*) AddTo (T 101) (Plain (Einsum [(T 100,[0;1])] [1;0]));
  (*989*) Del (T 100);
  (*990*) Assign (T 102) (Plain (Zeros [0;0;1;1]));
  (*991*) AddTo (T 102) (Times (Einsum [(T 101,[0;1]); (n_l2,[2;3;4;1])] [4;0;2;3]) (-1) 1);
  (*992*) Assign (T 103) (Plain (Zeros [0;0;1;1]));
  (*993*) AddTo (T 103) (Plain (Einsum [(T 90,[0;1;2;3])] [0;1;3;2]));
  (*994*) Del (T 90);
  (*995*) AddTo (T 103) (Times (Einsum [(T 92,[0;1;2;3])] [0;1;3;2]) (1) 2);
  (*996*) Del (T 92);
  (*997*) AddTo (T 103) (Plain (Einsum [(T 98,[0;1;2;3])] [0;1;2;3]));
  (*998*) Del (T 98);
  (*999*) AddTo (T 103) (Times (Einsum [(T 99,[0;1;2;3])] [0;1;3;2]) (-1) 1);
  (*1000*) Del (T 99);
  (*1001*) AddTo (T 103) (Plain (Einsum [(T 102,[0;1;2;3])] [0;1;3;2]));
  (*1002*) Del (T 102);
  (*1003*) AddTo n_l2new (Plain (Einsum [(T 103,[0;1;2;3])] [3;2;0;1]));
  (*1004*) AddTo n_l2new (Times (Einsum [(T 103,[0;1;2;3])] [3;2;1;0]) (-1) 1);
  (*1005*) Del (T 103);
  (*1006*) Assign (T 104) (Plain (Zeros [0;0;1;1]));
  (*1007*) AddTo (T 104) (Plain (Einsum [(n_f'oo,[0;1]); (n_l2,[2;3;4;1])] [0;4;2;3]));
  (*1008*) Assign (T 105) (Plain (Zeros [0;0;1;1]));
  (*1009*) AddTo (T 105) (Plain (Einsum [(n_l1,[0;1]); (n_v'ovvv,[2;0;3;4])] [1;2;3;4]));
  (*1010*) Assign (T 106) (Plain (Zeros [0;0;1;1]));
  (*1011*) AddTo (T 106) (Times (Einsum [(T 104,[0;1;2;3])] [0;1;3;2]) (-1) 1);
  (*1012*) Del (T 104);
  (*1013*) AddTo (T 106) (Plain (Einsum [(T 105,[0;1;2;3])] [0;1;3;2]));
  (*1014*) Del (T 105);
  (*1015*) AddTo n_l2new (Plain (Einsum [(T 106,[0;1;2;3])] [2;3;0;1]));
  (*1016*) AddTo n_l2new (Times (Einsum [(T 106,[0;1;2;3])] [2;3;1;0]) (-1) 1);
  (*1017*) Del (T 106);
  (*1018*) Assign (T 107) (Plain (Zeros [0;0;0;0]));
  (*1019*) AddTo (T 107) (Times (Einsum [(n_v'oooo,[0;1;2;3])] [0;1;2;3]) (2) 1);
  (*1020*) AddTo (T 107) (Plain (Einsum [(T 11,[0;1;2;3])] [1;0;3;2]));
  (*1021*) Del (T 11);
  (*1022*) AddTo (T 107) (Times (Einsum [(T 13,[0;1;2;3])] [3;0;2;1]) (-1) 1);
  (*1023*) Del (T 13);
  (*1024*) AddTo n_l2new (Times (Einsum [(n_l2,[0;1;2;3]); (T 107,[2;3;4;5])] [0;1;4;5]) (1) 4);
  (*1025*) Assign (T 108) (Plain (Zeros [0;0;0;0]));
  (*1026*) AddTo (T 108) (Plain (Einsum [(T 32,[0;1;2;3])] [1;0;3;2]));
  (*1027*) Del (T 32);
  (*1028*) AddTo (T 108) (Times (Einsum [(T 33,[0;1;2;3])] [0;1;3;2]) (-8333333333333) 25000000000000);
  (*1029*) Del (T 33);
  (*1030*) AddTo (T 108) (Times (Einsum [(n_t1,[0;1]); (T 34,[2;3;4;1])] [3;2;4;0]) (2) 1);
  (*1031*) Del (T 34);
  (*1032*) AddTo n_l2new (Times (Einsum [(n_v'oovv,[0;1;2;3]); (T 108,[4;5;0;1])] [2;3;5;4]) (-1) 4);
  (*1033*) Del (T 108);
  (*1034*) Assign (T 109) (Plain (Zeros [0;0;0;1;1;1]));
  (*1035*) AddTo (T 109) (Times (Einsum [(T 107,[0;1;2;3]); (n_l3,[4;5;6;7;0;1])] [7;2;3;4;5;6]) (-1) 4);
  (*1036*) Del (T 107);
  (*1037*) Assign (T 110) (Plain (Zeros [0;0]));
  (*1038*) AddTo (T 110) (Plain (Einsum [(n_f'oo,[0;1])] [0;1]));
  (*1039*) AddTo (T 110) (Plain (Einsum [(T 89,[0;1])] [1;0]));
  (*1040*) Del (T 89);
  (*1041*) Assign (T 111) (Plain (Zeros [0;0;0;1;1;1]));
  (*1042*) AddTo (T 111) (Plain (Einsum [(T 110,[0;1]); (n_l3,[2;3;4;5;6;0])] [5;6;1;2;3;4]));
  (*1043*) Del (T 110);
  (*1044*) Assign (T 112) (Plain (Zeros [0;0;0;1;1;1]));
  (*1045*) AddTo (T 112) (Plain (Einsum [(T 109,[0;1;2;3;4;5])] [0;1;2;4;5;3]));
  (*1046*) Del (T 109);
  (*1047*) AddTo (T 112) (Plain (Einsum [(T 111,[0;1;2;3;4;5])] [2;0;1;4;5;3]));
  (*1048*) Del (T 111);
  (*1049*) AddTo n_l3new (Times (Einsum [(T 112,[0;1;2;3;4;5])] [4;5;3;0;1;2]) (-1) 1);
  (*1050*) AddTo n_l3new (Plain (Einsum [(T 112,[0;1;2;3;4;5])] [4;5;3;1;0;2]));
  (*1051*) AddTo n_l3new (Times (Einsum [(T 112,[0;1;2;3;4;5])] [4;5;3;1;2;0]) (-1) 1);
  (*1052*) Del (T 112);
  (*1053*) Assign (T 113) (Plain (Zeros [0;0;0;1;1;1]));
  (*1054*) AddTo (T 113) (Plain (Einsum [(T 101,[0;1]); (n_l3,[2;3;4;5;6;1])] [5;6;0;2;3;4]));
  (*1055*) Del (T 101);
  (*1056*) AddTo n_l3new (Plain (Einsum [(T 113,[0;1;2;3;4;5])] [5;3;4;1;0;2]));
  (*1057*) AddTo n_l3new (Times (Einsum [(T 113,[0;1;2;3;4;5])] [5;3;4;1;2;0]) (-1) 1);
  (*1058*) AddTo n_l3new (Plain (Einsum [(T 113,[0;1;2;3;4;5])] [5;3;4;2;1;0]));
  (*1059*) Del (T 113);
  (*1060*) Assign (T 114) (Plain (Zeros [0;0;0;1;1;1]));
  (*1061*) AddTo (T 114) (Times (Einsum [(n_v'ooov,[0;1;2;3]); (T 27,[4;2;5;1;6;7])] [4;5;0;6;7;3]) (-1) 1);
  (*1062*) Assign (T 115) (Plain (Zeros [0;0;0;1;1;1]));
  (*1063*) AddTo (T 115) (Times (Einsum [(T 5,[0;1;2;3]); (T 27,[0;4;5;2;6;7])] [5;4;1;6;7;3]) (-1) 1);
  (*1064*) Assign (T 116) (Plain (Zeros [0;0;1;1]));
  (*1065*) AddTo (T 116) (Times (Einsum [(n_v'ovov,[0;1;2;3])] [0;2;3;1]) (-1) 1);
  (*1066*) AddTo (T 116) (Plain (Einsum [(T 7,[0;1;2;3])] [0;1;2;3]));
  (*1067*) Del (T 7);
  (*1068*) AddTo (T 116) (Times (Einsum [(T 8,[0;1;2;3])] [0;1;2;3]) (100000000000001) 100000000000000);
  (*1069*) Del (T 8);
  (*1070*) Assign (T 117) (Plain (Zeros [0;0;0;1;1;1]));
  (*1071*) AddTo (T 117) (Plain (Einsum [(T 116,[0;1;2;3]); (n_l3,[4;5;2;6;7;0])] [6;7;1;4;5;3]));
  (*1072*) Del (T 116);
  (*1073*) Assign (T 118) (Plain (Zeros [0;0;0;1;1;1]));
  (*1074*) AddTo (T 118) (Times (Einsum [(T 114,[0;1;2;3;4;5])] [0;1;2;4;3;5]) (-1) 1);
  (*1075*) Del (T 114);
  (*1076*) AddTo (T 118) (Plain (Einsum [(T 115,[0;1;2;3;4;5])] [0;1;2;4;3;5]));
  (*1077*) Del (T 115);
  (*1078*) AddTo (T 118) (Plain (Einsum [(T 117,[0;1;2;3;4;5])] [0;1;2;3;4;5]));
  (*1079*) Del (T 117);
  (*1080*) AddTo n_l3new (Plain (Einsum [(T 118,[0;1;2;3;4;5])] [4;3;5;1;0;2]));
  (*1081*) AddTo n_l3new (Times (Einsum [(T 118,[0;1;2;3;4;5])] [4;5;3;1;0;2]) (-1) 1);
  (*1082*) AddTo n_l3new (Times (Einsum [(T 118,[0;1;2;3;4;5])] [5;3;4;1;0;2]) (-1) 1);
  (*1083*) AddTo n_l3new (Times (Einsum [(T 118,[0;1;2;3;4;5])] [4;3;5;1;2;0]) (-1) 1);
  (*1084*) AddTo n_l3new (Plain (Einsum [(T 118,[0;1;2;3;4;5])] [4;5;3;1;2;0]));
  (*1085*) AddTo n_l3new (Plain (Einsum [(T 118,[0;1;2;3;4;5])] [5;3;4;1;2;0]));
  (*1086*) AddTo n_l3new (Plain (Einsum [(T 118,[0;1;2;3;4;5])] [4;3;5;2;1;0]));
  (*1087*) AddTo n_l3new (Times (Einsum [(T 118,[0;1;2;3;4;5])] [4;5;3;2;1;0]) (-1) 1);
  (*1088*) AddTo n_l3new (Times (Einsum [(T 118,[0;1;2;3;4;5])] [5;3;4;2;1;0]) (-1) 1);
  (*1089*) Del (T 118);
  (*1090*) Assign (T 119) (Plain (Zeros [0;0;0;1;1;1]));
  (*1091*) AddTo (T 119) (Plain (Einsum [(n_f'vv,[0;1]); (n_l3,[2;3;1;4;5;6])] [4;5;6;0;2;3]));
  (*1092*) Assign (T 120) (Plain (Zeros [0;0;0;1;1;1]));
  (*1093*) AddTo (T 120) (Plain (Einsum [(n_f'ov,[0;1]); (T 27,[2;3;4;0;5;6])] [2;3;4;1;5;6]));
  (*1094*) Assign (T 121) (Plain (Zeros [0;0;0;1;1;1]));
  (*1095*) AddTo (T 121) (Plain (Einsum [(n_v'vvvv,[0;1;2;3]); (n_l3,[4;2;3;5;6;7])] [5;6;7;4;0;1]));
  (*1096*) Assign (T 122) (Plain (Zeros [0;0;0;1;1;1]));
  (*1097*) AddTo (T 122) (Times (Einsum [(n_v'ovvv,[0;1;2;3]); (T 27,[4;5;6;0;7;1])] [4;5;6;7;2;3]) (-1) 1);
  (*1098*) Assign (T 123) (Plain (Zeros [0;0;0;0;0;1]));
  (*1099*) AddTo (T 123) (Plain (Einsum [(n_t2,[0;1;2;3]); (n_l3,[4;2;3;5;6;7])] [5;6;7;0;1;4]));
  (*1100*) Assign (T 124) (Plain (Zeros [0;0;0;0;0;1]));
  (*1101*) AddTo (T 124) (Times (Einsum [(T 123,[0;1;2;3;4;5])] [0;1;2;4;3;5]) (-1) 1);
  (*1102*) Del (T 123);
  (*1103*) AddTo (T 124) (Times (Einsum [(T 28,[0;1;2;3;4;5])] [0;1;2;4;3;5]) (-2) 1);
  (*1104*) Del (T 28);
  (*1105*) Assign (T 125) (Plain (Zeros [0;0;0;1;1;1]));
  (*1106*) AddTo (T 125) (Times (Einsum [(n_v'oovv,[0;1;2;3]); (T 124,[4;5;6;0;1;7])] [4;5;6;7;2;3]) (1) 4);
  (*1107*) Del (T 124);
  (*1108*) Assign (T 126) (Plain (Zeros [0;0;0;1;1;1]));
  (*1109*) AddTo (T 126) (Times (Einsum [(T 119,[0;1;2;3;4;5])] [0;1;2;3;5;4]) (-1) 1);
  (*1110*) Del (T 119);
  (*1111*) AddTo (T 126) (Plain (Einsum [(T 120,[0;1;2;3;4;5])] [0;1;2;3;5;4]));
  (*1112*) Del (T 120);
  (*1113*) AddTo (T 126) (Times (Einsum [(T 121,[0;1;2;3;4;5])] [0;1;2;3;5;4]) (-1) 2);
  (*1114*) Del (T 121);
  (*1115*) AddTo (T 126) (Plain (Einsum [(T 122,[0;1;2;3;4;5])] [0;1;2;3;5;4]));
  (*1116*) Del (T 122);
  (*1117*) AddTo (T 126) (Times (Einsum [(T 125,[0;1;2;3;4;5])] [0;1;2;3;5;4]) (-1) 1);
  (*1118*) Del (T 125);
  (*1119*) AddTo n_l3new (Plain (Einsum [(T 126,[0;1;2;3;4;5])] [3;4;5;1;2;0]));
  (*1120*) AddTo n_l3new (Plain (Einsum [(T 126,[0;1;2;3;4;5])] [5;3;4;1;2;0]));
  (*1121*) AddTo n_l3new (Times (Einsum [(T 126,[0;1;2;3;4;5])] [5;4;3;1;2;0]) (-1) 1);
  (*1122*) Del (T 126);
  (*1123*) Assign (T 127) (Plain (Zeros [0;0;0;1;1;1]));
  (*1124*) AddTo (T 127) (Plain (Einsum [(T 2,[0;1]); (T 27,[2;3;4;0;5;6])] [2;3;4;5;6;1]));
  (*1125*) Del (T 2);
  (*1125*) Del (T 27);
  (*1126*) Assign (T 128) (Plain (Zeros [0;0;0;1;1;1]));
  (*1127*) AddTo (T 128) (Plain (Einsum [(T 74,[0;1]); (n_l3,[2;3;0;4;5;6])] [4;5;6;2;3;1]));
  (*1128*) Del (T 74);
  (*1129*) Assign (T 129) (Plain (Zeros [0;0;0;1;1;1]));
  (*1130*) AddTo (T 129) (Times (Einsum [(T 127,[0;1;2;3;4;5])] [0;1;2;4;3;5]) (-1) 1);
  (*1131*) Del (T 127);
  (*1132*) AddTo (T 129) (Plain (Einsum [(T 128,[0;1;2;3;4;5])] [1;2;0;3;4;5]));
  (*1133*) Del (T 128);
  (*1134*) AddTo n_l3new (Plain (Einsum [(T 129,[0;1;2;3;4;5])] [4;3;5;1;2;0]));
  (*1135*) AddTo n_l3new (Times (Einsum [(T 129,[0;1;2;3;4;5])] [4;5;3;1;2;0]) (-1) 1);
  (*1136*) AddTo n_l3new (Times (Einsum [(T 129,[0;1;2;3;4;5])] [5;3;4;1;2;0]) (-1) 1);
  (*1137*) Del (T 129);
  (*1138*) Assign (T 130) (Plain (Zeros [0;0;0;1;1;1]));
  (*1139*) AddTo (T 130) (Plain (Einsum [(n_l2,[0;1;2;3]); (n_v'ovvv,[4;1;5;6])] [2;3;4;0;5;6]));
  (*1140*) Assign (T 131) (Plain (Zeros [0;0;0;1;1;1]));
  (*1141*) AddTo (T 131) (Plain (Einsum [(n_v'oovv,[0;1;2;3]); (T 30,[4;5;1;6])] [5;4;0;6;2;3]));
  (*1142*) Del (T 30);
  (*1143*) Assign (T 132) (Plain (Zeros [0;0;0;1;1;1]));
  (*1144*) AddTo (T 132) (Times (Einsum [(T 130,[0;1;2;3;4;5])] [0;1;2;3;5;4]) (-1) 1);
  (*1145*) Del (T 130);
  (*1146*) AddTo (T 132) (Times (Einsum [(T 131,[0;1;2;3;4;5])] [0;1;2;3;5;4]) (-1) 2);
  (*1147*) Del (T 131);
  (*1148*) AddTo n_l3new (Plain (Einsum [(T 132,[0;1;2;3;4;5])] [3;4;5;1;0;2]));
  (*1149*) AddTo n_l3new (Plain (Einsum [(T 132,[0;1;2;3;4;5])] [5;3;4;1;0;2]));
  (*1150*) AddTo n_l3new (Times (Einsum [(T 132,[0;1;2;3;4;5])] [5;4;3;1;0;2]) (-1) 1);
  (*1151*) AddTo n_l3new (Times (Einsum [(T 132,[0;1;2;3;4;5])] [3;4;5;1;2;0]) (-1) 1);
  (*1152*) AddTo n_l3new (Times (Einsum [(T 132,[0;1;2;3;4;5])] [5;3;4;1;2;0]) (-1) 1);
  (*1153*) AddTo n_l3new (Plain (Einsum [(T 132,[0;1;2;3;4;5])] [5;4;3;1;2;0]));
  (*1154*) AddTo n_l3new (Plain (Einsum [(T 132,[0;1;2;3;4;5])] [3;4;5;2;1;0]));
  (*1155*) AddTo n_l3new (Plain (Einsum [(T 132,[0;1;2;3;4;5])] [5;3;4;2;1;0]));
  (*1156*) AddTo n_l3new (Times (Einsum [(T 132,[0;1;2;3;4;5])] [5;4;3;2;1;0]) (-1) 1);
  (*1157*) Del (T 132);
  (*1158*) Assign (T 133) (Plain (Zeros [0;0;0;1;1;1]));
  (*1159*) AddTo (T 133) (Plain (Einsum [(n_l2,[0;1;2;3]); (n_v'ooov,[4;5;3;6])] [2;4;5;0;1;6]));
  (*1160*) Assign (T 134) (Plain (Zeros [0;0;0;1;1;1]));
  (*1161*) AddTo (T 134) (Plain (Einsum [(n_v'oovv,[0;1;2;3]); (T 19,[4;5;6;3])] [4;0;1;6;5;2]));
  (*1162*) Del (T 19);
  (*1163*) Assign (T 135) (Plain (Zeros [0;0;0;1;1;1]));
  (*1164*) AddTo (T 135) (Plain (Einsum [(T 133,[0;1;2;3;4;5])] [0;2;1;4;3;5]));
  (*1165*) Del (T 133);
  (*1166*) AddTo (T 135) (Times (Einsum [(T 134,[0;1;2;3;4;5])] [0;2;1;4;3;5]) (1) 2);
  (*1167*) Del (T 134);
  (*1168*) AddTo n_l3new (Plain (Einsum [(T 135,[0;1;2;3;4;5])] [4;3;5;0;1;2]));
  (*1169*) AddTo n_l3new (Times (Einsum [(T 135,[0;1;2;3;4;5])] [4;5;3;0;1;2]) (-1) 1);
  (*1170*) AddTo n_l3new (Times (Einsum [(T 135,[0;1;2;3;4;5])] [5;3;4;0;1;2]) (-1) 1);
  (*1171*) AddTo n_l3new (Times (Einsum [(T 135,[0;1;2;3;4;5])] [4;3;5;1;0;2]) (-1) 1);
  (*1172*) AddTo n_l3new (Plain (Einsum [(T 135,[0;1;2;3;4;5])] [4;5;3;1;0;2]));
  (*1173*) AddTo n_l3new (Plain (Einsum [(T 135,[0;1;2;3;4;5])] [5;3;4;1;0;2]));
  (*1174*) AddTo n_l3new (Plain (Einsum [(T 135,[0;1;2;3;4;5])] [4;3;5;1;2;0]));
  (*1175*) AddTo n_l3new (Times (Einsum [(T 135,[0;1;2;3;4;5])] [4;5;3;1;2;0]) (-1) 1);
  (*1176*) AddTo n_l3new (Times (Einsum [(T 135,[0;1;2;3;4;5])] [5;3;4;1;2;0]) (-1) 1);
  (*1177*) Del (T 135);
  (*1178*) Assign (T 136) (Plain (Zeros [0;0;0;1;1;1]));
  (*1179*) AddTo (T 136) (Plain (Einsum [(n_f'ov,[0;1]); (n_l2,[2;3;4;5])] [0;4;5;1;2;3]));
  (*1180*) AddTo (T 136) (Plain (Einsum [(n_l1,[0;1]); (n_v'oovv,[2;3;4;5])] [1;2;3;0;4;5]));
  (*1181*) AddTo n_l3new (Plain (Einsum [(T 136,[0;1;2;3;4;5])] [3;4;5;0;1;2]));
  (*1182*) AddTo n_l3new (Times (Einsum [(T 136,[0;1;2;3;4;5])] [4;3;5;0;1;2]) (-1) 1);
  (*1183*) AddTo n_l3new (Plain (Einsum [(T 136,[0;1;2;3;4;5])] [4;5;3;0;1;2]));
  (*1184*) AddTo n_l3new (Times (Einsum [(T 136,[0;1;2;3;4;5])] [3;4;5;1;0;2]) (-1) 1);
  (*1185*) AddTo n_l3new (Plain (Einsum [(T 136,[0;1;2;3;4;5])] [4;3;5;1;0;2]));
  (*1186*) AddTo n_l3new (Times (Einsum [(T 136,[0;1;2;3;4;5])] [4;5;3;1;0;2]) (-1) 1);
  (*1187*) AddTo n_l3new (Plain (Einsum [(T 136,[0;1;2;3;4;5])] [3;4;5;1;2;0]));
  (*1188*) AddTo n_l3new (Times (Einsum [(T 136,[0;1;2;3;4;5])] [4;3;5;1;2;0]) (-1) 1);
  (*1189*) AddTo n_l3new (Plain (Einsum [(T 136,[0;1;2;3;4;5])] [4;5;3;1;2;0]));
  (*1190*) Del (T 136);
  (*1191*) Assign (T 137) (Plain (Zeros [0;0;0;1;1;1]));
  (*1192*) AddTo (T 137) (Times (Einsum [(n_l2,[0;1;2;3]); (T 5,[3;4;5;6])] [2;5;4;0;1;6]) (-1) 1);
  (*1193*) Del (T 5);
  (*1194*) AddTo n_l3new (Times (Einsum [(T 137,[0;1;2;3;4;5])] [3;4;5;0;2;1]) (-1) 1);
  (*1195*) AddTo n_l3new (Times (Einsum [(T 137,[0;1;2;3;4;5])] [4;5;3;0;2;1]) (-1) 1);
  (*1196*) AddTo n_l3new (Plain (Einsum [(T 137,[0;1;2;3;4;5])] [5;4;3;0;2;1]));
  (*1197*) AddTo n_l3new (Plain (Einsum [(T 137,[0;1;2;3;4;5])] [3;4;5;2;0;1]));
  (*1198*) AddTo n_l3new (Plain (Einsum [(T 137,[0;1;2;3;4;5])] [4;5;3;2;0;1]));
  (*1199*) AddTo n_l3new (Times (Einsum [(T 137,[0;1;2;3;4;5])] [5;4;3;2;0;1]) (-1) 1);
  (*1200*) AddTo n_l3new (Times (Einsum [(T 137,[0;1;2;3;4;5])] [3;4;5;2;1;0]) (-1) 1);
  (*1201*) AddTo n_l3new (Times (Einsum [(T 137,[0;1;2;3;4;5])] [4;5;3;2;1;0]) (-1) 1);
  (*1202*) AddTo n_l3new (Plain (Einsum [(T 137,[0;1;2;3;4;5])] [5;4;3;2;1;0]));
  (*1203*) Del (T 137);
  (*1204*) Assign (T 138) (Plain (Zeros [0;0;0;1;1;1]));
  (*1205*) AddTo (T 138) (Plain (Einsum [(n_v'oovv,[0;1;2;3]); (T 29,[4;5;1;6])] [4;5;0;6;2;3]));
  (*1206*) Del (T 29);
  (*1207*) AddTo n_l3new (Plain (Einsum [(T 138,[0;1;2;3;4;5])] [3;5;4;1;0;2]));
  (*1208*) AddTo n_l3new (Times (Einsum [(T 138,[0;1;2;3;4;5])] [5;3;4;1;0;2]) (-1) 1);
  (*1209*) AddTo n_l3new (Times (Einsum [(T 138,[0;1;2;3;4;5])] [4;5;3;1;0;2]) (-1) 1);
  (*1210*) AddTo n_l3new (Times (Einsum [(T 138,[0;1;2;3;4;5])] [3;5;4;1;2;0]) (-1) 1);
  (*1211*) AddTo n_l3new (Plain (Einsum [(T 138,[0;1;2;3;4;5])] [5;3;4;1;2;0]));
  (*1212*) AddTo n_l3new (Plain (Einsum [(T 138,[0;1;2;3;4;5])] [4;5;3;1;2;0]));
  (*1213*) AddTo n_l3new (Plain (Einsum [(T 138,[0;1;2;3;4;5])] [3;5;4;2;1;0]));
  (*1214*) AddTo n_l3new (Times (Einsum [(T 138,[0;1;2;3;4;5])] [5;3;4;2;1;0]) (-1) 1);
  (*1215*) AddTo n_l3new (Times (Einsum [(T 138,[0;1;2;3;4;5])] [4;5;3;2;1;0]) (-1) 1);
  (*1216*) Del (T 138)]
 [(n_l1new,[1;0]); (n_l2new,[1;1;0;0]); (n_l3new,[1;1;1;0;0;0])].

(** ebcc/codegen/GCCSDT.py:1220-1266 [make_rdm1_f]; assembly (line 1264) not translated *)
Definition GCCSDT_make_rdm1_f : prog := mkprog
 [(n_t1,[0;1]); (n_l2,[1;1;0;0]); (n_t3,[0;0;0;1;1;1]); (n_l1,[1;0]); (n_t2,[0;0;1;1]); (n_l3,[1;1;1;0;0;0])]
 [(*1221*) Assign n_delta'oo (Plain (Eye 0));
  (*1221*) Assign n_delta'vv (Plain (Eye 1));
  (*1224*) Assign n_rdm1_f_oo (Plain (Zeros [0;0]));
  (*1225*) AddTo n_rdm1_f_oo (Plain (Einsum [(n_delta'oo,[0;1])] [0;1]));
  (*1226*) Assign n_rdm1_f_ov (Plain (Zeros [0;1]));
  (*1227*) AddTo n_rdm1_f_ov (Plain (Einsum [(n_t1,[0;1])] [0;1]));
  (*1228*) AddTo n_rdm1_f_ov (Times (Einsum [(n_l2,[0;1;2;3]); (n_t3,[4;2;3;5;0;1])] [4;5]) (1) 4);
  (*1229*) AddTo n_rdm1_f_ov (Plain (Einsum [(n_l1,[0;1]); (n_t2,[2;1;3;0])] [2;3]));
  (*1230*) Assign n_rdm1_f_vo (Plain (Zeros [1;0]));
  (*1231*) AddTo n_rdm1_f_vo (Plain (Einsum [(n_l1,[0;1])] [0;1]));
  (*1232*) Assign n_rdm1_f_vv (Plain (Zeros [1;1]));
  (*1233*) AddTo n_rdm1_f_vv (Times (Einsum [(n_l3,[0;1;2;3;4;5]); (n_t3,[3;4;5;6;1;2])] [0;6]) (8333333333333) 100000000000000);
  (*1234*) AddTo n_rdm1_f_vv (Times (Einsum [(n_l2,[0;1;2;3]); (n_t2,[2;3;4;1])] [0;4]) (1) 2);
  (*1235*) AddTo n_rdm1_f_vv (Plain (Einsum [(n_l1,[0;1]); (n_t1,[1;2])] [0;2]));
  (*1236*) Assign (T 1) (Plain (Zeros [0;0]));
  (*1237*) AddTo (T 1) (Plain (Einsum [(n_l2,[0;1;2;3]); (n_t2,[4;3;0;1])] [2;4]));
  (*1238*) AddTo n_rdm1_f_oo (Times (Einsum [(T 1,[0;1])] [1;0]) (-1) 2);
  (*1239*) Assign (T 2) (Plain (Zeros [0;0]));
  (*1240*) AddTo (T 2) (Plain (Einsum [(n_l1,[0;1]); (n_t1,[2;0])] [1;2]));
  (*1241*) AddTo n_rdm1_f_oo (Times (Einsum [(T 2,[0;1])] [1;0]) (-1) 1);
  (*1242*) Assign (T 3) (Plain (Zeros [0;0]));
  (*1243*) AddTo (T 3) (Plain (Einsum [(n_l3,[0;1;2;3;4;5]); (n_t3,[6;4;5;0;1;2])] [3;6]));
  (*1244*) AddTo n_rdm1_f_oo (Times (Einsum [(T 3,[0;1])] [1;0]) (-8333333333333) 100000000000000);
  (*1245*) Assign (T 4) (Plain (Zeros [0;0;0;0;1;1]));
  (*1246*) AddTo (T 4) (Plain (Einsum [(n_t1,[0;1]); (n_l3,[2;3;1;4;5;6])] [4;5;6;0;2;3]));
  (*1247*) AddTo n_rdm1_f_ov (Times (Einsum [(n_t3,[0;1;2;3;4;5]); (T 4,[0;1;2;6;5;4])] [6;3]) (8333333333333) 100000000000000);
  (*1248*) Del (T 4);
  (*1249*) Assign (T 5) (Plain (Zeros [0;0;0;1]));
  (*1250*) AddTo (T 5) (Plain (Einsum [(n_t1,[0;1]); (n_l2,[2;1;3;4])] [3;4;0;2]));
  (*1251*) AddTo (T 5) (Times (Einsum [(n_t2,[0;1;2;3]); (n_l3,[4;2;3;5;6;1])] [5;6;0;4]) (1) 2);
  (*1252*) AddTo n_rdm1_f_ov (Times (Einsum [(n_t2,[0;1;2;3]); (T 5,[0;1;4;3])] [4;2]) (1) 2);
  (*1253*) Del (T 5);
  (*1254*) Assign (T 6) (Plain (Zeros [0;0]));
  (*1255*) AddTo (T 6) (Plain (Einsum [(T 2,[0;1])] [0;1]));
  (*1256*) Del (T 2);
  (*1257*) AddTo (T 6) (Times (Einsum [(T 1,[0;1])] [0;1]) (1) 2);
  (*1258*) Del (T 1);
  (*1259*) AddTo (T 6) (Times (Einsum [(T 3,[0;1])] [0;1]) (8333333333333) 100000000000000);
  (*1260*) Del (T 3);
  (*1261*) AddTo n_rdm1_f_ov (Times (Einsum [(n_t1,[0;1]); (T 6,[0;2])] [2;1]) (-1) 1);
  (*1262*) Del (T 6)]
 [(n_rdm1_f_oo,[0;0]); (n_rdm1_f_ov,[0;1]); (n_rdm1_f_vo,[1;0]); (n_rdm1_f_vv,[1;1])].

(** ebcc/codegen/GCCSDT.py:1268-1691 [make_rdm2_f]; assembly (line 1687) not translated *)
Definition GCCSDT_make_rdm2_f : prog := mkprog
 [(n_l1,[1;0]); (n_t2,[0;0;1;1]); (n_t3,[0;0;0;1;1;1]); (n_t1,[0;1]); (n_l2,[1;1;0;0]); (n_l3,[1;1;1;0;0;0])]
 [(*1269*) Assign n_delta'oo (Plain (Eye 0));
  (*1269*) Assign n_delta'vv (Plain (Eye 1));
  (*1272*) Assign n_rdm2_f_oooo (Plain (Zeros [0;0;0;0]));
  (*1273*) AddTo n_rdm2_f_oooo (Plain (Einsum [(n_delta'oo,[0;1]); (n_delta'oo,[2;3])] [0;2;1;3]));
  (*1274*) AddTo n_rdm2_f_oooo (Times (Einsum [(n_delta'oo,[0;1]); (n_delta'oo,[2;3])] [0;2;3;1]) (-1) 1);
  (*1275*) Assign n_rdm2_f_ovoo (Plain (Zeros [0;1;0;0]));
  (*1276*) AddTo n_rdm2_f_ovoo (Plain (Einsum [(n_delta'oo,[0;1]); (n_l1,[2;3])] [0;2;1;3]));
  (*1277*) AddTo n_rdm2_f_ovoo (Times (Einsum [(n_delta'oo,[0;1]); (n_l1,[2;3])] [0;2;3;1]) (-1) 1);
  (*1278*) Assign n_rdm2_f_vooo (Plain (Zeros [1;0;0;0]));
  (*1279*) AddTo n_rdm2_f_vooo (Times (Einsum [(n_delta'oo,[0;1]); (n_l1,[2;3])] [2;0;1;3]) (-1) 1);
  (*1280*) AddTo n_rdm2_f_vooo (Plain (Einsum [(n_delta'oo,[0;1]); (n_l1,[2;3])] [2;0;3;1]));
  (*1281*) Assign n_rdm2_f_oovv (Plain (Zeros [0;0;1;1]));
  (*1282*) AddTo n_rdm2_f_oovv (Plain (Einsum [(n_t2,[0;1;2;3])] [0;1;2;3]));
  (*1283*) AddTo n_rdm2_f_oovv (Plain (Einsum [(n_l1,[0;1]); (n_t3,[2;3;1;4;5;0])] [2;3;4;5]));
  (*1284*) AddTo n_rdm2_f_oovv (Times (Einsum [(n_t1,[0;1]); (n_t1,[2;3])] [0;2;3;1]) (-1) 1);
  (*1285*) AddTo n_rdm2_f_oovv (Plain (Einsum [(n_t1,[0;1]); (n_t1,[2;3])] [0;2;1;3]));
  (*1286*) Assign n_rdm2_f_ovov (Plain (Zeros [0;1;0;1]));
  (*1287*) AddTo n_rdm2_f_ovov (Times (Einsum [(n_l1,[0;1]); (n_t1,[2;3])] [2;0;1;3]) (-1) 1);
  (*1288*) Assign n_rdm2_f_ovvo (Plain (Zeros [0;1;1;0]));
  (*1289*) AddTo n_rdm2_f_ovvo (Plain (Einsum [(n_l1,[0;1]); (n_t1,[2;3])] [2;0;3;1]));
  (*1290*) Assign n_rdm2_f_voov (Plain (Zeros [1;0;0;1]));
  (*1291*) AddTo n_rdm2_f_voov (Plain (Einsum [(n_l1,[0;1]); (n_t1,[2;3])] [0;2;1;3]));
  (*1292*) Assign n_rdm2_f_vovo (Plain (Zeros [1;0;1;0]));
  (*1293*) AddTo n_rdm2_f_vovo (Times (Einsum [(n_l1,[0;1]); (n_t1,[2;3])] [0;2;3;1]) (-1) 1);
  (*1294*) Assign n_rdm2_f_vvoo (Plain (Zeros [1;1;0;0]));
  (*1295*) AddTo n_rdm2_f_vvoo (Plain (Einsum [(n_l2,[0;1;2;3])] [0;1;2;3]));
  (*1296*) Assign n_rdm2_f_vvvv (Plain (Zeros [1;1;1;1]));
  (*1297*) AddTo n_rdm2_f_vvvv (Times (Einsum [(n_l2,[0;1;2;3]); (n_t2,[2;3;4;5])] [0;1;4;5]) (1) 2);
  (*1298*) AddTo n_rdm2_f_vvvv (Times (Einsum [(n_l3,[0;1;2;3;4;5]); (n_t3,[3;4;5;6;7;2])] [0;1;6;7]) (16666666666667) 100000000000000);
  (*1299*) Assign (T 1) (Plain (Zeros [0;0;0;0]));
  (*1300*) AddTo (T 1) (Plain (Einsum [(n_l3,[0;1;2;3;4;5]); (n_t3,[6;7;5;0;1;2])] [3;4;6;7]));
  (*1301*) AddTo n_rdm2_f_oooo (Times (Einsum [(T 1,[0;1;2;3])] [2;3;1;0]) (-16666666666667) 100000000000000);
  (*1302*) Assign (T 2) (Plain (Zeros [0;0;0;0]));
  (*1303*) AddTo (T 2) (Plain (Einsum [(n_l2,[0;1;2;3]); (n_t2,[4;5;0;1])] [2;3;4;5]));
  (*1304*) AddTo n_rdm2_f_oooo (Times (Einsum [(T 2,[0;1;2;3])] [3;2;1;0]) (1) 2);
  (*1305*) Assign (T 3) (Plain (Zeros [0;0;0;1]));
  (*1306*) AddTo (T 3) (Plain (Einsum [(n_t1,[0;1]); (n_l2,[2;1;3;4])] [3;4;0;2]));
  (*1307*) AddTo n_rdm2_f_ovoo (Times (Einsum [(T 3,[0;1;2;3])] [2;3;1;0]) (-1) 1);
  (*1308*) AddTo n_rdm2_f_vooo (Plain (Einsum [(T 3,[0;1;2;3])] [3;2;1;0]));
  (*1309*) Assign (T 4) (Plain (Zeros [0;0;0;0]));
  (*1310*) AddTo (T 4) (Plain (Einsum [(n_t1,[0;1]); (T 3,[2;3;4;1])] [2;3;0;4]));
  (*1311*) AddTo n_rdm2_f_oooo (Times (Einsum [(T 4,[0;1;2;3])] [2;3;1;0]) (-1) 1);
  (*1312*) Assign (T 5) (Plain (Zeros [0;0;0;1]));
  (*1313*) AddTo (T 5) (Plain (Einsum [(n_t2,[0;1;2;3]); (n_l3,[4;2;3;5;6;1])] [5;6;0;4]));
  (*1314*) AddTo n_rdm2_f_ovoo (Times (Einsum [(T 5,[0;1;2;3])] [2;3;1;0]) (-1) 2);
  (*1315*) AddTo n_rdm2_f_vooo (Times (Einsum [(T 5,[0;1;2;3])] [3;2;1;0]) (1) 2);
  (*1316*) Assign (T 6) (Plain (Zeros [0;0;0;0]));
  (*1317*) AddTo (T 6) (Plain (Einsum [(n_t1,[0;1]); (T 5,[2;3;4;1])] [2;3;0;4]));
  (*1318*) AddTo n_rdm2_f_oooo (Times (Einsum [(T 6,[0;1;2;3])] [2;3;1;0]) (-1) 2);
  (*1319*) AddTo n_rdm2_f_oooo (Times (Einsum [(T 6,[0;1;2;3])] [3;2;1;0]) (1) 2);
  (*1320*) Assign (T 7) (Plain (Zeros [0;0]));
  (*1321*) AddTo (T 7) (Plain (Einsum [(n_l2,[0;1;2;3]); (n_t2,[4;3;0;1])] [2;4]));
  (*1322*) Assign (T 8) (Plain (Zeros [0;0]));
  (*1323*) AddTo (T 8) (Plain (Einsum [(n_l3,[0;1;2;3;4;5]); (n_t3,[6;4;5;0;1;2])] [3;6]));
  (*1324*) Assign (T 9) (Plain (Zeros [0;0]));
  (*1325*) AddTo (T 9) (Plain (Einsum [(T 7,[0;1])] [0;1]));
  (*1326*) AddTo (T 9) (Times (Einsum [(T 8,[0;1])] [0;1]) (8333333333333) 50000000000000);
  (*1327*) AddTo n_rdm2_f_oooo (Times (Einsum [(n_delta'oo,[0;1]); (T 9,[2;3])] [0;3;1;2]) (-1) 2);
  (*1328*) AddTo n_rdm2_f_oooo (Times (Einsum [(n_delta'oo,[0;1]); (T 9,[2;3])] [0;3;2;1]) (1) 2);
  (*1329*) AddTo n_rdm2_f_oooo (Times (Einsum [(n_delta'oo,[0;1]); (T 9,[2;3])] [3;0;1;2]) (1) 2);
  (*1330*) AddTo n_rdm2_f_oooo (Times (Einsum [(n_delta'oo,[0;1]); (T 9,[2;3])] [3;0;2;1]) (-1) 2);
  (*1331*) Del (T 9);
  (*1332*) Assign (T 10) (Plain (Zeros [0;0]));
  (*1333*) AddTo (T 10) (Plain (Einsum [(n_l1,[0;1]); (n_t1,[2;0])] [1;2]));
  (*1334*) AddTo n_rdm2_f_oooo (Times (Einsum [(n_delta'oo,[0;1]); (T 10,[2;3])] [0;3;1;2]) (-1) 1);
  (*1335*) AddTo n_rdm2_f_oooo (Plain (Einsum [(n_delta'oo,[0;1]); (T 10,[2;3])] [3;0;1;2]));
  (*1336*) AddTo n_rdm2_f_oooo (Plain (Einsum [(n_delta'oo,[0;1]); (T 10,[2;3])] [0;3;2;1]));
  (*1337*) AddTo n_rdm2_f_oooo (Times (Einsum [(n_delta'oo,[0;1]); (T 10,[2;3])] [3;0;2;1]) (-1) 1);
  (*1338*) Assign (T 11) (Plain (Zeros [0;0;0;1]));
  (*1339*) AddTo (T 11) (Plain (Einsum [(n_l1,[0;1]); (n_t2,[2;3;4;0])] [1;2;3;4]));
  (*1340*) Assign n_rdm2_f_ooov (Plain (Zeros [0;0;0;1]));
  (*1341*) AddTo n_rdm2_f_ooov (Times (Einsum [(T 11,[0;1;2;3])] [2;1;0;3]) (-1) 1);
  (*1342*) Assign n_rdm2_f_oovo (Plain (Zeros [0;0;1;0]));
  (*1343*) AddTo n_rdm2_f_oovo (Plain (Einsum [(T 11,[0;1;2;3])] [2;1;3;0]));
  (*1344*) Assign (T 12) (Plain (Zeros [0;0;0;1]));
  (*1345*) AddTo (T 12) (Plain (Einsum [(n_l2,[0;1;2;3]); (n_t3,[4;5;3;6;0;1])] [2;4;5;6]));
  (*1346*) AddTo n_rdm2_f_ooov (Times (Einsum [(T 12,[0;1;2;3])] [1;2;0;3]) (1) 2);
  (*1347*) AddTo n_rdm2_f_oovo (Times (Einsum [(T 12,[0;1;2;3])] [1;2;3;0]) (-1) 2);
  (*1348*) Assign (T 13) (Plain (Zeros [0;1;1;1]));
  (*1349*) AddTo (T 13) (Plain (Einsum [(n_t2,[0;1;2;3]); (n_l3,[4;5;3;6;0;1])] [6;4;5;2]));
  (*1350*) Assign n_rdm2_f_vvov (Plain (Zeros [1;1;0;1]));
  (*1351*) AddTo n_rdm2_f_vvov (Times (Einsum [(T 13,[0;1;2;3])] [1;2;0;3]) (1) 2);
  (*1352*) Assign n_rdm2_f_vvvo (Plain (Zeros [1;1;1;0]));
  (*1353*) AddTo n_rdm2_f_vvvo (Times (Einsum [(T 13,[0;1;2;3])] [1;2;3;0]) (-1) 2);
  (*1354*) Assign (T 14) (Plain (Zeros [0;0;0;1]));
  (*1355*) AddTo (T 14) (Times (Einsum [(n_t2,[0;1;2;3]); (T 13,[4;3;2;5])] [4;0;1;5]) (-1) 1);
  (*1356*) AddTo n_rdm2_f_ooov (Times (Einsum [(T 14,[0;1;2;3])] [1;2;0;3]) (1) 4);
  (*1357*) AddTo n_rdm2_f_oovo (Times (Einsum [(T 14,[0;1;2;3])] [1;2;3;0]) (-1) 4);
  (*1358*) Assign (T 15) (Plain (Zeros [0;0;0;0;1;1]));
  (*1359*) AddTo (T 15) (Plain (Einsum [(n_t1,[0;1]); (n_l3,[2;3;1;4;5;6])] [4;5;6;0;2;3]));
  (*1360*) Assign (T 16) (Plain (Zeros [0;0;0;0;0;1]));
  (*1361*) AddTo (T 16) (Plain (Einsum [(n_t1,[0;1]); (T 15,[2;3;4;5;1;6])] [2;3;4;5;0;6]));
  (*1362*) Assign (T 17) (Plain (Zeros [0;0;0;1]));
  (*1363*) AddTo (T 17) (Plain (Einsum [(n_t2,[0;1;2;3]); (T 16,[4;1;0;5;6;3])] [4;6;5;2]));
  (*1364*) AddTo n_rdm2_f_ooov (Times (Einsum [(T 17,[0;1;2;3])] [1;2;0;3]) (1) 2);
  (*1365*) AddTo n_rdm2_f_oovo (Times (Einsum [(T 17,[0;1;2;3])] [1;2;3;0]) (-1) 2);
  (*1366*) Assign (T 18) (Plain (Zeros [0;0;0;1]));
  (*1367*) AddTo (T 18) (Plain (Einsum [(n_t3,[0;1;2;3;4;5]); (T 15,[6;1;2;7;4;5])] [6;7;0;3]));
  (*1368*) Assign (T 19) (Plain (Zeros [0;0;0;1]));
  (*1369*) AddTo (T 19) (Times (Einsum [(n_t1,[0;1]); (T 6,[0;2;3;4])] [2;3;4;1]) (-1) 1);
  (*1370*) Assign (T 20) (Plain (Zeros [0;0;0;1]));
  (*1371*) AddTo (T 20) (Times (Einsum [(T 3,[0;1;2;3])] [1;0;2;3]) (-1) 1);
  (*1372*) AddTo (T 20) (Times (Einsum [(T 5,[0;1;2;3])] [0;1;2;3]) (1) 2);
  (*1373*) Assign (T 21) (Plain (Zeros [0;0;0;1]));
  (*1374*) AddTo (T 21) (Plain (Einsum [(n_t2,[0;1;2;3]); (T 20,[1;4;5;3])] [4;5;0;2]));
  (*1375*) Assign (T 22) (Plain (Zeros [0;0]));
  (*1376*) AddTo (T 22) (Times (Einsum [(T 10,[0;1])] [0;1]) (75000000000003) 6250000000000);
  (*1377*) AddTo (T 22) (Times (Einsum [(T 7,[0;1])] [0;1]) (75000000000003) 12500000000000);
  (*1378*) AddTo (T 22) (Plain (Einsum [(T 8,[0;1])] [0;1]));
  (*1379*) Assign (T 23) (Plain (Zeros [0;0;0;1]));
  (*1380*) AddTo (T 23) (Plain (Einsum [(n_delta'oo,[0;1]); (n_t1,[2;3])] [0;1;2;3]));
  (*1381*) AddTo (T 23) (Times (Einsum [(T 18,[0;1;2;3])] [1;0;2;3]) (-1) 4);
  (*1382*) AddTo (T 23) (Times (Einsum [(T 19,[0;1;2;3])] [1;0;2;3]) (1) 2);
  (*1383*) Del (T 19);
  (*1384*) AddTo (T 23) (Times (Einsum [(T 21,[0;1;2;3])] [1;0;2;3]) (-1) 1);
  (*1385*) Del (T 21);
  (*1386*) AddTo (T 23) (Times (Einsum [(n_t1,[0;1]); (T 22,[2;3])] [0;2;3;1]) (8333333333333) 100000000000000);
  (*1387*) AddTo n_rdm2_f_ooov (Plain (Einsum [(T 23,[0;1;2;3])] [0;2;1;3]));
  (*1388*) AddTo n_rdm2_f_ooov (Times (Einsum [(T 23,[0;1;2;3])] [2;0;1;3]) (-1) 1);
  (*1389*) AddTo n_rdm2_f_oovo (Times (Einsum [(T 23,[0;1;2;3])] [0;2;3;1]) (-1) 1);
  (*1390*) AddTo n_rdm2_f_oovo (Plain (Einsum [(T 23,[0;1;2;3])] [2;0;3;1]));
  (*1391*) Del (T 23);
  (*1392*) Assign (T 24) (Plain (Zeros [0;1]));
  (*1393*) AddTo (T 24) (Plain (Einsum [(n_l1,[0;1]); (n_t2,[2;1;3;0])] [2;3]));
  (*1394*) Assign (T 25) (Plain (Zeros [0;1]));
  (*1395*) AddTo (T 25) (Plain (Einsum [(n_l2,[0;1;2;3]); (n_t3,[4;2;3;5;0;1])] [4;5]));
  (*1396*) Assign (T 26) (Plain (Zeros [0;1]));
  (*1397*) AddTo (T 26) (Plain (Einsum [(n_t3,[0;1;2;3;4;5]); (T 15,[0;1;2;6;4;5])] [6;3]));
  (*1398*) Assign (T 27) (Plain (Zeros [0;1]));
  (*1399*) AddTo (T 27) (Times (Einsum [(n_t2,[0;1;2;3]); (T 20,[0;1;4;3])] [4;2]) (-1) 2);
  (*1400*) Assign (T 28) (Plain (Zeros [0;1]));
  (*1401*) AddTo (T 28) (Times (Einsum [(n_t1,[0;1]); (T 22,[0;2])] [2;1]) (8333333333333) 100000000000000);
  (*1402*) Del (T 22);
  (*1403*) Assign (T 29) (Plain (Zeros [0;1]));
  (*1404*) AddTo (T 29) (Times (Einsum [(T 24,[0;1])] [0;1]) (-1) 1);
  (*1405*) Del (T 24);
  (*1406*) AddTo (T 29) (Times (Einsum [(T 25,[0;1])] [0;1]) (-1) 4);
  (*1407*) Del (T 25);
  (*1408*) AddTo (T 29) (Times (Einsum [(T 26,[0;1])] [0;1]) (8333333333333) 100000000000000);
  (*1409*) Del (T 26);
  (*1410*) AddTo (T 29) (Plain (Einsum [(T 27,[0;1])] [0;1]));
  (*1411*) Del (T 27);
  (*1412*) AddTo (T 29) (Plain (Einsum [(T 28,[0;1])] [0;1]));
  (*1413*) Del (T 28);
  (*1414*) AddTo n_rdm2_f_ooov (Times (Einsum [(n_delta'oo,[0;1]); (T 29,[2;3])] [0;2;1;3]) (-1) 1);
  (*1415*) AddTo n_rdm2_f_ooov (Plain (Einsum [(n_delta'oo,[0;1]); (T 29,[2;3])] [2;0;1;3]));
  (*1416*) AddTo n_rdm2_f_oovo (Plain (Einsum [(n_delta'oo,[0;1]); (T 29,[2;3])] [0;2;3;1]));
  (*1417*) AddTo n_rdm2_f_oovo (Times (Einsum [(n_delta'oo,[0;1]); (T 29,[2;3])] [2;0;3;1]) (-1) 1);
  (*1418*) Assign (T 30) (Plain (Zeros [0;0;0;0]));
  (*1419*) AddTo (T 30) (Times (Einsum [(T 2,[0;1;2;3])] [1;0;3;2]) (-1) 1);
  (*1420*) AddTo (T 30) (Times (Einsum [(T 4,[0;1;2;3])] [0;1;3;2]) (2) 1);
  (*1421*) AddTo (T 30) (Times (Einsum [(T 1,[0;1;2;3])] [0;1;3;2]) (16666666666667) 50000000000000);
  (*1422*) Assign (T 31) (Plain (Zeros [0;0;0;1]));
  (*1423*) AddTo (T 31) (Times (Einsum [(n_t1,[0;1]); (T 30,[0;2;3;4])] [2;3;4;1]) (1) 2);
  (*1424*) Del (T 30);
  (*1425*) AddTo n_rdm2_f_ooov (Times (Einsum [(T 31,[0;1;2;3])] [2;1;0;3]) (-1) 1);
  (*1426*) AddTo n_rdm2_f_oovo (Plain (Einsum [(T 31,[0;1;2;3])] [2;1;3;0]));
  (*1427*) Del (T 31);
  (*1428*) Assign (T 32) (Plain (Zeros [0;0;1;1]));
  (*1429*) AddTo (T 32) (Plain (Einsum [(n_l3,[0;1;2;3;4;5]); (n_t3,[6;4;5;7;1;2])] [3;6;0;7]));
  (*1430*) AddTo n_rdm2_f_ovov (Times (Einsum [(T 32,[0;1;2;3])] [1;2;0;3]) (-1) 4);
  (*1431*) AddTo n_rdm2_f_ovvo (Times (Einsum [(T 32,[0;1;2;3])] [1;2;3;0]) (1) 4);
  (*1432*) AddTo n_rdm2_f_voov (Times (Einsum [(T 32,[0;1;2;3])] [2;1;0;3]) (1) 4);
  (*1433*) AddTo n_rdm2_f_vovo (Times (Einsum [(T 32,[0;1;2;3])] [2;1;3;0]) (-1) 4);
  (*1434*) Assign (T 33) (Plain (Zeros [0;0;1;1]));
  (*1435*) AddTo (T 33) (Plain (Einsum [(n_t2,[0;1;2;3]); (T 32,[1;4;3;5])] [0;4;2;5]));
  (*1436*) Assign (T 34) (Plain (Zeros [0;0;1;1]));
  (*1437*) AddTo (T 34) (Plain (Einsum [(n_t2,[0;1;2;3]); (T 15,[4;1;0;5;6;3])] [4;5;6;2]));
  (*1438*) AddTo n_rdm2_f_ovov (Times (Einsum [(T 34,[0;1;2;3])] [1;2;0;3]) (1) 2);
  (*1439*) AddTo n_rdm2_f_ovvo (Times (Einsum [(T 34,[0;1;2;3])] [1;2;3;0]) (-1) 2);
  (*1440*) AddTo n_rdm2_f_voov (Times (Einsum [(T 34,[0;1;2;3])] [2;1;0;3]) (-1) 2);
  (*1441*) AddTo n_rdm2_f_vovo (Times (Einsum [(T 34,[0;1;2;3])] [2;1;3;0]) (1) 2);
  (*1442*) Assign (T 35) (Plain (Zeros [0;0;1;1]));
  (*1443*) AddTo (T 35) (Times (Einsum [(n_t1,[0;1]); (T 5,[0;2;3;4])] [2;3;4;1]) (-1) 1);
  (*1444*) Assign (T 36) (Plain (Zeros [0;0;1;1]));
  (*1445*) AddTo (T 36) (Plain (Einsum [(T 34,[0;1;2;3])] [0;1;2;3]));
  (*1446*) AddTo (T 36) (Plain (Einsum [(T 35,[0;1;2;3])] [0;1;2;3]));
  (*1447*) Del (T 35);
  (*1448*) Assign (T 37) (Plain (Zeros [0;0;1;1]));
  (*1449*) AddTo (T 37) (Times (Einsum [(n_t2,[0;1;2;3]); (T 36,[1;4;3;5])] [4;0;5;2]) (1) 2);
  (*1450*) Del (T 36);
  (*1451*) Assign (T 38) (Plain (Zeros [0;0;0;1]));
  (*1452*) AddTo (T 38) (Times (Einsum [(n_t2,[0;1;2;3]); (T 3,[4;1;5;3])] [4;5;0;2]) (-1) 1);
  (*1453*) Assign (T 39) (Plain (Zeros [0;0;0;1]));
  (*1454*) AddTo (T 39) (Plain (Einsum [(T 38,[0;1;2;3])] [0;1;2;3]));
  (*1455*) Del (T 38);
  (*1456*) AddTo (T 39) (Times (Einsum [(T 18,[0;1;2;3])] [0;1;2;3]) (1) 4);
  (*1457*) Del (T 18);
  (*1458*) Assign (T 40) (Plain (Zeros [0;0;1;1]));
  (*1459*) AddTo (T 40) (Plain (Einsum [(n_t1,[0;1]); (T 39,[0;2;3;4])] [2;3;1;4]));
  (*1460*) Del (T 39);
  (*1461*) Assign (T 41) (Plain (Zeros [0;0;1;1]));
  (*1462*) AddTo (T 41) (Times (Einsum [(T 33,[0;1;2;3])] [0;1;2;3]) (-1) 4);
  (*1463*) Del (T 33);
  (*1464*) AddTo (T 41) (Plain (Einsum [(T 37,[0;1;2;3])] [0;1;2;3]));
  (*1465*) Del (T 37);
  (*1466*) AddTo (T 41) (Plain (Einsum [(T 40,[0;1;2;3])] [0;1;2;3]));
  (*1467*) Del (T 40);
  (*1468*) AddTo (T 41) (Plain (Einsum [(n_t1,[0;1]); (T 29,[2;3])] [0;2;1;3]));
  (*1469*) Del (T 29);
  (*1470*) AddTo n_rdm2_f_oovv (Times (Einsum [(T 41,[0;1;2;3])] [0;1;2;3]) (-1) 1);
  (*1471*) AddTo n_rdm2_f_oovv (Plain (Einsum [(T 41,[0;1;2;3])] [0;1;3;2]));
  (*1472*) AddTo n_rdm2_f_oovv (Plain (Einsum [(T 41,[0;1;2;3])] [1;0;2;3]));
  (*1473*) AddTo n_rdm2_f_oovv (Times (Einsum [(T 41,[0;1;2;3])] [1;0;3;2]) (-1) 1);
  (*1474*) Del (T 41);
  (*1475*) Assign (T 42) (Plain (Zeros [0;0;1;1]));
  (*1476*) AddTo (T 42) (Plain (Einsum [(T 8,[0;1]); (n_t2,[2;0;3;4])] [2;1;3;4]));
  (*1477*) Del (T 8);
  (*1478*) Assign (T 43) (Plain (Zeros [0;0;1;1]));
  (*1479*) AddTo (T 43) (Plain (Einsum [(T 5,[0;1;2;3]); (n_t3,[4;0;1;5;6;3])] [2;4;5;6]));
  (*1480*) Assign (T 44) (Plain (Zeros [0;0;1;1]));
  (*1481*) AddTo (T 44) (Times (Einsum [(T 42,[0;1;2;3])] [0;1;2;3]) (8333333333333) 100000000000000);
  (*1482*) Del (T 42);
  (*1483*) AddTo (T 44) (Times (Einsum [(T 43,[0;1;2;3])] [0;1;2;3]) (1) 4);
  (*1484*) Del (T 43);
  (*1485*) AddTo n_rdm2_f_oovv (Times (Einsum [(T 44,[0;1;2;3])] [0;1;2;3]) (-1) 1);
  (*1486*) AddTo n_rdm2_f_oovv (Plain (Einsum [(T 44,[0;1;2;3])] [1;0;2;3]));
  (*1487*) Del (T 44);
  (*1488*) Assign (T 45) (Plain (Zeros [0;0;1;1]));
  (*1489*) AddTo (T 45) (Plain (Einsum [(n_l2,[0;1;2;3]); (n_t2,[4;3;5;1])] [2;4;0;5]));
  (*1490*) AddTo n_rdm2_f_ovov (Times (Einsum [(T 45,[0;1;2;3])] [1;2;0;3]) (-1) 1);
  (*1491*) AddTo n_rdm2_f_ovvo (Plain (Einsum [(T 45,[0;1;2;3])] [1;2;3;0]));
  (*1492*) AddTo n_rdm2_f_voov (Plain (Einsum [(T 45,[0;1;2;3])] [2;1;0;3]));
  (*1493*) AddTo n_rdm2_f_vovo (Times (Einsum [(T 45,[0;1;2;3])] [2;1;3;0]) (-1) 1);
  (*1494*) Assign (T 46) (Plain (Zeros [0;0;1;1]));
  (*1495*) AddTo (T 46) (Plain (Einsum [(n_t2,[0;1;2;3]); (T 45,[1;4;3;5])] [4;0;5;2]));
  (*1496*) Assign (T 47) (Plain (Zeros [0;0;1;1]));
  (*1497*) AddTo (T 47) (Plain (Einsum [(T 13,[0;1;2;3]); (n_t3,[4;5;0;6;1;2])] [4;5;3;6]));
  (*1498*) Assign (T 48) (Plain (Zeros [1;1]));
  (*1499*) AddTo (T 48) (Plain (Einsum [(n_l2,[0;1;2;3]); (n_t2,[2;3;4;1])] [0;4]));
  (*1500*) Assign (T 49) (Plain (Zeros [1;1]));
  (*1501*) AddTo (T 49) (Plain (Einsum [(n_l3,[0;1;2;3;4;5]); (n_t3,[3;4;5;6;1;2])] [0;6]));
  (*1502*) Assign (T 50) (Plain (Zeros [1;1]));
  (*1503*) AddTo (T 50) (Plain (Einsum [(T 48,[0;1])] [0;1]));
  (*1504*) AddTo (T 50) (Times (Einsum [(T 49,[0;1])] [0;1]) (8333333333333) 50000000000000);
  (*1505*) Assign (T 51) (Plain (Zeros [0;0;1;1]));
  (*1506*) AddTo (T 51) (Times (Einsum [(T 50,[0;1]); (n_t2,[2;3;4;0])] [2;3;1;4]) (-1) 2);
  (*1507*) Del (T 50);
  (*1508*) Assign (T 52) (Plain (Zeros [0;0;0;1]));
  (*1509*) AddTo (T 52) (Plain (Einsum [(T 11,[0;1;2;3])] [0;2;1;3]));
  (*1510*) Del (T 11);
  (*1511*) AddTo (T 52) (Times (Einsum [(T 12,[0;1;2;3])] [0;2;1;3]) (1) 2);
  (*1512*) Del (T 12);
  (*1513*) AddTo (T 52) (Times (Einsum [(T 14,[0;1;2;3])] [0;2;1;3]) (1) 4);
  (*1514*) Del (T 14);
  (*1515*) AddTo (T 52) (Times (Einsum [(T 17,[0;1;2;3])] [0;2;1;3]) (1) 2);
  (*1516*) Del (T 17);
  (*1517*) Assign (T 53) (Plain (Zeros [0;0;1;1]));
  (*1518*) AddTo (T 53) (Plain (Einsum [(n_t1,[0;1]); (T 52,[0;2;3;4])] [2;3;1;4]));
  (*1519*) Del (T 52);
  (*1520*) Assign (T 54) (Plain (Zeros [0;0;1;1]));
  (*1521*) AddTo (T 54) (Plain (Einsum [(T 46,[0;1;2;3])] [0;1;2;3]));
  (*1522*) Del (T 46);
  (*1523*) AddTo (T 54) (Times (Einsum [(T 47,[0;1;2;3])] [0;1;2;3]) (-1) 4);
  (*1524*) Del (T 47);
  (*1525*) AddTo (T 54) (Times (Einsum [(T 51,[0;1;2;3])] [1;0;3;2]) (-1) 1);
  (*1526*) Del (T 51);
  (*1527*) AddTo (T 54) (Plain (Einsum [(T 53,[0;1;2;3])] [1;0;2;3]));
  (*1528*) Del (T 53);
  (*1529*) AddTo n_rdm2_f_oovv (Plain (Einsum [(T 54,[0;1;2;3])] [0;1;2;3]));
  (*1530*) AddTo n_rdm2_f_oovv (Times (Einsum [(T 54,[0;1;2;3])] [0;1;3;2]) (-1) 1);
  (*1531*) Del (T 54);
  (*1532*) Assign (T 55) (Plain (Zeros [0;0;1;1]));
  (*1533*) AddTo (T 55) (Plain (Einsum [(T 10,[0;1]); (n_t2,[2;0;3;4])] [1;2;3;4]));
  (*1534*) Del (T 10);
  (*1535*) Assign (T 56) (Plain (Zeros [0;0;1;1]));
  (*1536*) AddTo (T 56) (Plain (Einsum [(T 3,[0;1;2;3]); (n_t3,[4;1;0;5;6;3])] [2;4;5;6]));
  (*1537*) Assign (T 57) (Plain (Zeros [0;0;1;1]));
  (*1538*) AddTo (T 57) (Plain (Einsum [(T 7,[0;1]); (n_t2,[2;0;3;4])] [2;1;3;4]));
  (*1539*) Del (T 7);
  (*1540*) Assign (T 58) (Plain (Zeros [0;0;1;1]));
  (*1541*) AddTo (T 58) (Times (Einsum [(n_t1,[0;1]); (n_t1,[2;3])] [0;2;3;1]) (2) 1);
  (*1542*) AddTo (T 58) (Times (Einsum [(n_t2,[0;1;2;3])] [0;1;2;3]) (-1) 1);
  (*1543*) Assign (T 59) (Plain (Zeros [0;0;1;1]));
  (*1544*) AddTo (T 59) (Times (Einsum [(T 6,[0;1;2;3]); (T 58,[0;1;4;5])] [2;3;4;5]) (1) 4);
  (*1545*) Del (T 6);
  (*1545*) Del (T 58);
  (*1546*) Assign (T 60) (Plain (Zeros [0;0;1;1]));
  (*1547*) AddTo (T 60) (Times (Einsum [(T 55,[0;1;2;3])] [0;1;3;2]) (-1) 1);
  (*1548*) Del (T 55);
  (*1549*) AddTo (T 60) (Times (Einsum [(T 56,[0;1;2;3])] [0;1;3;2]) (-1) 2);
  (*1550*) Del (T 56);
  (*1551*) AddTo (T 60) (Times (Einsum [(T 57,[0;1;2;3])] [0;1;3;2]) (1) 2);
  (*1552*) Del (T 57);
  (*1553*) AddTo (T 60) (Plain (Einsum [(T 59,[0;1;2;3])] [0;1;3;2]));
  (*1554*) Del (T 59);
  (*1555*) AddTo n_rdm2_f_oovv (Plain (Einsum [(T 60,[0;1;2;3])] [0;1;2;3]));
  (*1556*) AddTo n_rdm2_f_oovv (Times (Einsum [(T 60,[0;1;2;3])] [1;0;2;3]) (-1) 1);
  (*1557*) Del (T 60);
  (*1558*) Assign (T 61) (Plain (Zeros [0;0;0;0;0;1]));
  (*1559*) AddTo (T 61) (Plain (Einsum [(n_t2,[0;1;2;3]); (n_l3,[4;2;3;5;6;7])] [5;6;7;0;1;4]));
  (*1560*) AddTo (T 61) (Times (Einsum [(T 16,[0;1;2;3;4;5])] [0;1;2;4;3;5]) (-50000000000003) 25000000000000);
  (*1561*) Del (T 16);
  (*1562*) AddTo n_rdm2_f_oovv (Times (Einsum [(n_t3,[0;1;2;3;4;5]); (T 61,[0;1;2;6;7;5])] [6;7;3;4]) (8333333333333) 100000000000000);
  (*1563*) Del (T 61);
  (*1564*) Assign (T 62) (Plain (Zeros [0;0;0;0]));
  (*1565*) AddTo (T 62) (Times (Einsum [(T 2,[0;1;2;3])] [1;0;3;2]) (-75000000000003) 25000000000000);
  (*1566*) AddTo (T 62) (Times (Einsum [(T 4,[0;1;2;3])] [0;1;3;2]) (75000000000003) 12500000000000);
  (*1567*) AddTo (T 62) (Plain (Einsum [(T 1,[0;1;2;3])] [0;1;3;2]));
  (*1568*) AddTo n_rdm2_f_oovv (Times (Einsum [(n_t2,[0;1;2;3]); (T 62,[0;1;4;5])] [5;4;2;3]) (8333333333333) 100000000000000);
  (*1569*) Del (T 62);
  (*1570*) Assign (T 63) (Plain (Zeros [0;0;0;0]));
  (*1571*) AddTo (T 63) (Times (Einsum [(T 2,[0;1;2;3])] [1;0;3;2]) (-149999999999997) 50000000000000);
  (*1572*) Del (T 2);
  (*1573*) AddTo (T 63) (Times (Einsum [(T 4,[0;1;2;3])] [0;1;3;2]) (149999999999997) 25000000000000);
  (*1574*) Del (T 4);
  (*1575*) AddTo (T 63) (Plain (Einsum [(T 1,[0;1;2;3])] [0;1;3;2]));
  (*1576*) Del (T 1);
  (*1577*) Assign (T 64) (Plain (Zeros [0;0;0;1]));
  (*1578*) AddTo (T 64) (Times (Einsum [(n_t1,[0;1]); (T 63,[0;2;3;4])] [2;4;3;1]) (-16666666666667) 100000000000000);
  (*1579*) Del (T 63);
  (*1580*) AddTo n_rdm2_f_oovv (Times (Einsum [(n_t1,[0;1]); (T 64,[0;2;3;4])] [2;3;4;1]) (-1) 1);
  (*1581*) Del (T 64);
  (*1582*) Assign (T 65) (Plain (Zeros [0;0;0;1]));
  (*1583*) AddTo (T 65) (Times (Einsum [(T 3,[0;1;2;3])] [1;0;2;3]) (-2) 1);
  (*1584*) Del (T 3);
  (*1585*) AddTo (T 65) (Plain (Einsum [(T 5,[0;1;2;3])] [0;1;2;3]));
  (*1586*) Del (T 5);
  (*1587*) Assign (T 66) (Plain (Zeros [0;0;1;1]));
  (*1588*) AddTo (T 66) (Times (Einsum [(n_t1,[0;1]); (T 65,[0;2;3;4])] [2;3;1;4]) (1) 2);
  (*1589*) Del (T 65);
  (*1590*) AddTo n_rdm2_f_ovov (Times (Einsum [(T 66,[0;1;2;3])] [1;3;0;2]) (-1) 1);
  (*1591*) AddTo n_rdm2_f_ovvo (Plain (Einsum [(T 66,[0;1;2;3])] [1;3;2;0]));
  (*1592*) AddTo n_rdm2_f_voov (Plain (Einsum [(T 66,[0;1;2;3])] [3;1;0;2]));
  (*1593*) AddTo n_rdm2_f_vovo (Times (Einsum [(T 66,[0;1;2;3])] [3;1;2;0]) (-1) 1);
  (*1594*) Del (T 66);
  (*1595*) Assign (T 67) (Plain (Zeros [1;1]));
  (*1596*) AddTo (T 67) (Plain (Einsum [(n_l1,[0;1]); (n_t1,[1;2])] [0;2]));
  (*1597*) Assign (T 68) (Plain (Zeros [1;1]));
  (*1598*) AddTo (T 68) (Times (Einsum [(T 67,[0;1])] [0;1]) (75000000000003) 6250000000000);
  (*1599*) AddTo (T 68) (Times (Einsum [(T 48,[0;1])] [0;1]) (75000000000003) 12500000000000);
  (*1600*) AddTo (T 68) (Plain (Einsum [(T 49,[0;1])] [0;1]));
  (*1601*) AddTo n_rdm2_f_ovov (Times (Einsum [(n_delta'oo,[0;1]); (T 68,[2;3])] [0;2;1;3]) (8333333333333) 100000000000000);
  (*1602*) AddTo n_rdm2_f_voov (Times (Einsum [(n_delta'oo,[0;1]); (T 68,[2;3])] [2;0;1;3]) (-8333333333333) 100000000000000);
  (*1603*) Del (T 68);
  (*1604*) Assign (T 69) (Plain (Zeros [1;1]));
  (*1605*) AddTo (T 69) (Times (Einsum [(T 67,[0;1])] [0;1]) (2) 1);
  (*1606*) AddTo (T 69) (Plain (Einsum [(T 48,[0;1])] [0;1]));
  (*1607*) AddTo (T 69) (Times (Einsum [(T 49,[0;1])] [0;1]) (8333333333333) 50000000000000);
  (*1608*) AddTo n_rdm2_f_ovvo (Times (Einsum [(n_delta'oo,[0;1]); (T 69,[2;3])] [0;2;3;1]) (-1) 2);
  (*1609*) AddTo n_rdm2_f_vovo (Times (Einsum [(n_delta'oo,[0;1]); (T 69,[2;3])] [2;0;3;1]) (1) 2);
  (*1610*) Del (T 69);
  (*1611*) Assign (T 70) (Plain (Zeros [0;1;1;1]));
  (*1612*) AddTo (T 70) (Plain (Einsum [(n_l2,[0;1;2;3]); (n_t3,[4;2;3;5;6;1])] [4;0;5;6]));
  (*1613*) Assign n_rdm2_f_ovvv (Plain (Zeros [0;1;1;1]));
  (*1614*) AddTo n_rdm2_f_ovvv (Times (Einsum [(T 70,[0;1;2;3])] [0;1;3;2]) (-1) 2);
  (*1615*) Assign n_rdm2_f_vovv (Plain (Zeros [1;0;1;1]));
  (*1616*) AddTo n_rdm2_f_vovv (Times (Einsum [(T 70,[0;1;2;3])] [1;0;3;2]) (1) 2);
  (*1617*) Del (T 70);
  (*1618*) Assign (T 71) (Plain (Zeros [0;1;1;1]));
  (*1619*) AddTo (T 71) (Times (Einsum [(n_t3,[0;1;2;3;4;5]); (T 15,[0;1;2;6;7;5])] [6;7;3;4]) (-1) 1);
  (*1620*) Del (T 15);
  (*1621*) AddTo n_rdm2_f_ovvv (Times (Einsum [(T 71,[0;1;2;3])] [0;1;3;2]) (-16666666666667) 100000000000000);
  (*1622*) AddTo n_rdm2_f_vovv (Times (Einsum [(T 71,[0;1;2;3])] [1;0;3;2]) (16666666666667) 100000000000000);
  (*1623*) Del (T 71);
  (*1624*) Assign (T 72) (Plain (Zeros [0;1;1;1]));
  (*1625*) AddTo (T 72) (Plain (Einsum [(n_l1,[0;1]); (n_t2,[2;1;3;4])] [2;0;3;4]));
  (*1626*) AddTo n_rdm2_f_ovvv (Times (Einsum [(T 72,[0;1;2;3])] [0;1;3;2]) (-1) 1);
  (*1627*) AddTo n_rdm2_f_vovv (Plain (Einsum [(T 72,[0;1;2;3])] [1;0;3;2]));
  (*1628*) Del (T 72);
  (*1629*) Assign (T 73) (Plain (Zeros [0;1;1;1]));
  (*1630*) AddTo (T 73) (Times (Einsum [(n_t2,[0;1;2;3]); (T 13,[1;4;3;5])] [0;4;5;2]) (-1) 1);
  (*1631*) Assign (T 74) (Plain (Zeros [0;0;1;1]));
  (*1632*) AddTo (T 74) (Plain (Einsum [(T 45,[0;1;2;3])] [0;1;2;3]));
  (*1633*) Del (T 45);
  (*1634*) AddTo (T 74) (Times (Einsum [(T 32,[0;1;2;3])] [0;1;2;3]) (1) 4);
  (*1635*) Del (T 32);
  (*1636*) AddTo (T 74) (Times (Einsum [(T 34,[0;1;2;3])] [0;1;2;3]) (-1) 2);
  (*1637*) Del (T 34);
  (*1638*) Assign (T 75) (Plain (Zeros [0;1;1;1]));
  (*1639*) AddTo (T 75) (Plain (Einsum [(n_t1,[0;1]); (T 74,[0;2;3;4])] [2;1;3;4]));
  (*1640*) Del (T 74);
  (*1641*) Assign (T 76) (Plain (Zeros [1;1]));
  (*1642*) AddTo (T 76) (Plain (Einsum [(T 67,[0;1])] [0;1]));
  (*1643*) Del (T 67);
  (*1644*) AddTo (T 76) (Times (Einsum [(T 48,[0;1])] [0;1]) (1) 2);
  (*1645*) Del (T 48);
  (*1646*) AddTo (T 76) (Times (Einsum [(T 49,[0;1])] [0;1]) (8333333333333) 100000000000000);
  (*1647*) Del (T 49);
  (*1648*) Assign (T 77) (Plain (Zeros [0;1;1;1]));
  (*1649*) AddTo (T 77) (Times (Einsum [(T 73,[0;1;2;3])] [0;1;2;3]) (-1) 2);
  (*1650*) Del (T 73);
  (*1651*) AddTo (T 77) (Times (Einsum [(T 75,[0;1;2;3])] [0;2;1;3]) (-1) 1);
  (*1652*) Del (T 75);
  (*1653*) AddTo (T 77) (Plain (Einsum [(n_t1,[0;1]); (T 76,[2;3])] [0;2;1;3]));
  (*1654*) Del (T 76);
  (*1655*) AddTo n_rdm2_f_ovvv (Plain (Einsum [(T 77,[0;1;2;3])] [0;1;2;3]));
  (*1656*) AddTo n_rdm2_f_ovvv (Times (Einsum [(T 77,[0;1;2;3])] [0;1;3;2]) (-1) 1);
  (*1657*) AddTo n_rdm2_f_vovv (Times (Einsum [(T 77,[0;1;2;3])] [1;0;2;3]) (-1) 1);
  (*1658*) AddTo n_rdm2_f_vovv (Plain (Einsum [(T 77,[0;1;2;3])] [1;0;3;2]));
  (*1659*) Del (T 77);
  (*1660*) Assign (T 78) (Plain (Zeros [0;1;1;1]));
  (*1661*) AddTo (T 78) (Times (Einsum [(n_t2,[0;1;2;3]); (T 20,[0;1;4;5])] [4;5;2;3]) (1) 2);
  (*1662*) AddTo n_rdm2_f_ovvv (Times (Einsum [(T 78,[0;1;2;3])] [0;1;3;2]) (-1) 1);
  (*1663*) AddTo n_rdm2_f_vovv (Plain (Einsum [(T 78,[0;1;2;3])] [1;0;3;2]));
  (*1664*) Del (T 78);
  (*1665*) Assign (T 79) (Plain (Zeros [0;0;1;1]));
  (*1666*) AddTo (T 79) (Times (Einsum [(n_t1,[0;1]); (T 20,[0;2;3;4])] [2;3;4;1]) (-1) 1);
  (*1667*) AddTo n_rdm2_f_ovvv (Plain (Einsum [(n_t1,[0;1]); (T 79,[0;2;3;4])] [2;3;1;4]));
  (*1668*) Del (T 79);
  (*1669*) Assign (T 80) (Plain (Zeros [0;0;1;1]));
  (*1670*) AddTo (T 80) (Times (Einsum [(n_t1,[0;1]); (T 20,[0;2;3;4])] [2;3;4;1]) (-2) 1);
  (*1671*) Del (T 20);
  (*1672*) AddTo n_rdm2_f_vovv (Times (Einsum [(n_t1,[0;1]); (T 80,[0;2;3;4])] [3;2;4;1]) (1) 2);
  (*1673*) Del (T 80);
  (*1674*) Assign (T 81) (Plain (Zeros [0;1;1;1]));
  (*1675*) AddTo (T 81) (Plain (Einsum [(n_t1,[0;1]); (n_l2,[2;3;4;0])] [4;2;3;1]));
  (*1676*) AddTo n_rdm2_f_vvov (Times (Einsum [(T 81,[0;1;2;3])] [2;1;0;3]) (-1) 1);
  (*1677*) AddTo n_rdm2_f_vvvo (Plain (Einsum [(T 81,[0;1;2;3])] [2;1;3;0]));
  (*1678*) AddTo n_rdm2_f_vvvv (Plain (Einsum [(n_t1,[0;1]); (T 81,[0;2;3;4])] [2;3;1;4]));
  (*1679*) Del (T 81);
  (*1680*) Assign (T 82) (Plain (Zeros [1;1;1;1]));
  (*1681*) AddTo (T 82) (Times (Einsum [(n_t1,[0;1]); (T 13,[0;2;3;4])] [3;2;1;4]) (-1) 1);
  (*1682*) Del (T 13);
  (*1683*) AddTo n_rdm2_f_vvvv (Times (Einsum [(T 82,[0;1;2;3])] [0;1;2;3]) (1) 2);
  (*1684*) AddTo n_rdm2_f_vvvv (Times (Einsum [(T 82,[0;1;2;3])] [0;1;3;2]) (-1) 2);
  (*1685*) Del (T 82)]
 [(n_rdm2_f_oooo,[0;0;0;0]); (n_rdm2_f_ooov,[0;0;0;1]); (n_rdm2_f_oovo,[0;0;1;0]); (n_rdm2_f_ovoo,[0;1;0;0]); (n_rdm2_f_vooo,[1;0;0;0]); (n_rdm2_f_oovv,[0;0;1;1]); (n_rdm2_f_ovov,[0;1;0;1]); (n_rdm2_f_ovvo,[0;1;1;0]); (n_rdm2_f_voov,[1;0;0;1]); (n_rdm2_f_vovo,[1;0;1;0]); (n_rdm2_f_vvoo,[1;1;0;0]); (n_rdm2_f_ovvv,[0;1;1;1]); (n_rdm2_f_vovv,[1;0;1;1]); (n_rdm2_f_vvov,[1;1;0;1]); (n_rdm2_f_vvvo,[1;1;1;0]); (n_rdm2_f_vvvv,[1;1;1;1])].

