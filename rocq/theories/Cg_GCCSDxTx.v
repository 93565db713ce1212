(** Generated by tools/translate_codegen.py from ebcc/codegen/GCCSDxTx.py; one statement per source line
    (the number in the comment before it). *)
From Coq Require Import ZArith List.
From Verif Require Import CgModel CgNames.
Import ListNotations.

(** ebcc/codegen/GCCSDxTx.py:7-17 [energy] *)
Definition GCCSDxTx_energy : prog := mkprog
 [(n_f'ov,[0;1]); (n_t1,[0;1]); (n_t2,[0;0;1;1]); (n_v'oovv,[0;0;1;1])]
 [(*9*) Assign n_e_cc (Plain (Zeros []));
  (*10*) AddTo n_e_cc (Plain (Einsum [(n_f'ov,[0;1]); (n_t1,[0;1])] []));
  (*11*) Assign (T 1) (Plain (Zeros [0;0;1;1]));
  (*12*) AddTo (T 1) (Plain (Einsum [(n_t2,[0;1;2;3])] [0;1;2;3]));
  (*13*) AddTo (T 1) (Times (Einsum [(n_t1,[0;1]); (n_t1,[2;3])] [0;2;1;3]) (2) 1);
  (*14*) AddTo n_e_cc (Times (Einsum [(n_v'oovv,[0;1;2;3]); (T 1,[0;1;2;3])] []) (1) 4);
  (*15*) Del (T 1)]
 [(n_e_cc,[])].

(** ebcc/codegen/GCCSDxTx.py:19-187 [update_amps] *)
Definition GCCSDxTx_update_amps : prog := mkprog
 [(n_f'vv,[1;1]); (n_t1,[0;1]); (n_f'ov,[0;1]); (n_v'ovov,[0;1;0;1]); (n_v'oovv,[0;0;1;1]); (n_v'ooov,[0;0;0;1]); (n_t2,[0;0;1;1]); (n_v'ovvv,[0;1;1;1]); (n_v'vvvv,[1;1;1;1]); (n_f'oo,[0;0]); (n_v'oooo,[0;0;0;0])]
 [(*21*) Assign n_t1new (Plain (Zeros [0;1]));
  (*22*) AddTo n_t1new (Plain (Einsum [(n_f'vv,[0;1]); (n_t1,[2;1])] [2;0]));
  (*23*) AddTo n_t1new (Plain (Einsum [(n_f'ov,[0;1])] [0;1]));
  (*24*) AddTo n_t1new (Times (Einsum [(n_t1,[0;1]); (n_v'ovov,[2;1;0;3])] [2;3]) (-1) 1);
  (*25*) Assign n_t2new (Plain (Zeros [0;0;1;1]));
  (*26*) AddTo n_t2new (Plain (Einsum [(n_v'oovv,[0;1;2;3])] [0;1;2;3]));
  (*27*) Assign (T 1) (Plain (Zeros [0;0;0;1]));
  (*28*) AddTo (T 1) (Plain (Einsum [(n_t1,[0;1]); (n_v'oovv,[2;3;4;1])] [0;2;3;4]));
  (*29*) Assign (T 2) (Plain (Zeros [0;0;0;1]));
  (*30*) AddTo (T 2) (Times (Einsum [(n_v'ooov,[0;1;2;3])] [2;0;1;3]) (-1) 1);
  (*31*) AddTo (T 2) (Times (Einsum [(T 1,[0;1;2;3])] [0;2;1;3]) (-1) 1);
  (*32*) AddTo n_t1new (Times (Einsum [(n_t2,[0;1;2;3]); (T 2,[4;0;1;3])] [4;2]) (1) 2);
  (*33*) Del (T 2);
  (*34*) Assign (T 3) (Plain (Zeros [0;0;1;1]));
  (*35*) AddTo (T 3) (Plain (Einsum [(n_t2,[0;1;2;3])] [0;1;2;3]));
  (*36*) AddTo (T 3) (Times (Einsum [(n_t1,[0;1]); (n_t1,[2;3])] [0;2;1;3]) (2) 1);
  (*37*) AddTo n_t1new (Times (Einsum [(n_v'ovvv,[0;1;2;3]); (T 3,[0;4;2;3])] [4;1]) (1) 2);
  (*38*) AddTo n_t2new (Times (Einsum [(n_v'vvvv,[0;1;2;3]); (T 3,[4;5;2;3])] [5;4;0;1]) (-1) 2);
  (*39*) Assign (T 4) (Plain (Zeros [0;1]));
  (*40*) AddTo (T 4) (Plain (Einsum [(n_t1,[0;1]); (n_v'oovv,[2;0;3;1])] [2;3]));
  (*41*) Assign (T 5) (Plain (Zeros [0;1]));
  (*42*) AddTo (T 5) (Plain (Einsum [(n_f'ov,[0;1])] [0;1]));
  (*43*) AddTo (T 5) (Plain (Einsum [(T 4,[0;1])] [0;1]));
  (*44*) Del (T 4);
  (*45*) AddTo n_t1new (Plain (Einsum [(T 5,[0;1]); (n_t2,[2;0;3;1])] [2;3]));
  (*46*) Assign (T 6) (Plain (Zeros [0;0]));
  (*47*) AddTo (T 6) (Plain (Einsum [(n_t1,[0;1]); (n_v'ooov,[2;0;3;1])] [2;3]));
  (*48*) Assign (T 7) (Plain (Zeros [0;0]));
  (*49*) AddTo (T 7) (Times (Einsum [(n_f'oo,[0;1])] [0;1]) (2) 1);
  (*50*) AddTo (T 7) (Times (Einsum [(n_f'ov,[0;1]); (n_t1,[2;1])] [0;2]) (2) 1);
  (*51*) AddTo (T 7) (Times (Einsum [(T 6,[0;1])] [0;1]) (2) 1);
  (*52*) AddTo (T 7) (Times (Einsum [(n_v'oovv,[0;1;2;3]); (T 3,[1;4;2;3])] [0;4]) (-1) 1);
  (*53*) AddTo n_t1new (Times (Einsum [(n_t1,[0;1]); (T 7,[0;2])] [2;1]) (-1) 2);
  (*54*) Del (T 7);
  (*55*) Assign (T 8) (Plain (Zeros [0;0;1;1]));
  (*56*) AddTo (T 8) (Plain (Einsum [(n_t2,[0;1;2;3]); (n_v'ovov,[4;3;1;5])] [0;4;2;5]));
  (*57*) Assign (T 9) (Plain (Zeros [0;0;1;1]));
  (*58*) AddTo (T 9) (Plain (Einsum [(n_t1,[0;1]); (n_v'ovvv,[2;3;4;1])] [0;2;3;4]));
  (*59*) Assign (T 10) (Plain (Zeros [0;0;1;1]));
  (*60*) AddTo (T 10) (Times (Einsum [(n_t2,[0;1;2;3]); (T 9,[4;1;5;3])] [4;0;2;5]) (-1) 1);
  (*61*) Del (T 9);
  (*62*) Assign (T 11) (Plain (Zeros [0;0;0;1]));
  (*63*) AddTo (T 11) (Plain (Einsum [(n_t1,[0;1]); (n_v'ovov,[2;3;4;1])] [0;2;4;3]));
  (*64*) Assign (T 12) (Plain (Zeros [0;0;0;1]));
  (*65*) AddTo (T 12) (Plain (Einsum [(n_t2,[0;1;2;3]); (n_v'ooov,[4;1;5;3])] [0;4;5;2]));
  (*66*) Assign (T 13) (Plain (Zeros [0;0;0;1]));
  (*67*) AddTo (T 13) (Plain (Einsum [(n_t2,[0;1;2;3]); (T 1,[4;1;5;3])] [4;0;5;2]));
  (*68*) Del (T 1);
  (*69*) Assign (T 14) (Plain (Zeros [0;0;0;1]));
  (*70*) AddTo (T 14) (Plain (Einsum [(T 11,[0;1;2;3])] [0;1;2;3]));
  (*71*) Del (T 11);
  (*72*) AddTo (T 14) (Plain (Einsum [(T 12,[0;1;2;3])] [0;1;2;3]));
  (*73*) Del (T 12);
  (*74*) AddTo (T 14) (Times (Einsum [(T 13,[0;1;2;3])] [0;2;1;3]) (-1) 1);
  (*75*) Del (T 13);
  (*76*) Assign (T 15) (Plain (Zeros [0;0;1;1]));
  (*77*) AddTo (T 15) (Plain (Einsum [(n_t1,[0;1]); (T 14,[2;0;3;4])] [2;3;4;1]));
  (*78*) Del (T 14);
  (*79*) Assign (T 16) (Plain (Zeros [0;0;1;1]));
  (*80*) AddTo (T 16) (Times (Einsum [(T 8,[0;1;2;3])] [0;1;2;3]) (-1) 1);
  (*81*) Del (T 8);
  (*82*) AddTo (T 16) (Plain (Einsum [(T 10,[0;1;2;3])] [0;1;2;3]));
  (*83*) Del (T 10);
  (*84*) AddTo (T 16) (Plain (Einsum [(T 15,[0;1;2;3])] [0;1;3;2]));
  (*85*) Del (T 15);
  (*86*) AddTo n_t2new (Plain (Einsum [(T 16,[0;1;2;3])] [0;1;2;3]));
  (*87*) AddTo n_t2new (Times (Einsum [(T 16,[0;1;2;3])] [0;1;3;2]) (-1) 1);
  (*88*) AddTo n_t2new (Times (Einsum [(T 16,[0;1;2;3])] [1;0;2;3]) (-1) 1);
  (*89*) AddTo n_t2new (Plain (Einsum [(T 16,[0;1;2;3])] [1;0;3;2]));
  (*90*) Del (T 16);
  (*91*) Assign (T 17) (Plain (Zeros [0;0;1;1]));
  (*92*) AddTo (T 17) (Plain (Einsum [(n_t1,[0;1]); (n_v'ovvv,[2;1;3;4])] [0;2;3;4]));
  (*93*) Assign (T 18) (Plain (Zeros [0;0]));
  (*94*) AddTo (T 18) (Plain (Einsum [(n_t1,[0;1]); (T 5,[2;1])] [0;2]));
  (*95*) Assign (T 19) (Plain (Zeros [0;0]));
  (*96*) AddTo (T 19) (Plain (Einsum [(n_f'oo,[0;1])] [0;1]));
  (*97*) AddTo (T 19) (Plain (Einsum [(T 18,[0;1])] [0;1]));
  (*98*) Del (T 18);
  (*99*) Assign (T 20) (Plain (Zeros [0;0;1;1]));
  (*100*) AddTo (T 20) (Times (Einsum [(T 19,[0;1]); (n_t2,[2;1;3;4])] [0;2;3;4]) (-1) 1);
  (*101*) Del (T 19);
  (*102*) Assign (T 21) (Plain (Zeros [0;0;0;0]));
  (*103*) AddTo (T 21) (Plain (Einsum [(n_t1,[0;1]); (n_v'ooov,[2;3;4;1])] [0;2;3;4]));
  (*104*) Assign (T 22) (Plain (Zeros [0;0;1;1]));
  (*105*) AddTo (T 22) (Times (Einsum [(T 3,[0;1;2;3]); (T 21,[4;0;1;5])] [4;5;2;3]) (1) 2);
  (*106*) Del (T 21);
  (*107*) Assign (T 23) (Plain (Zeros [0;0]));
  (*108*) AddTo (T 23) (Plain (Einsum [(n_t2,[0;1;2;3]); (n_v'oovv,[4;1;2;3])] [0;4]));
  (*109*) Assign (T 24) (Plain (Zeros [0;0]));
  (*110*) AddTo (T 24) (Plain (Einsum [(T 6,[0;1])] [0;1]));
  (*111*) Del (T 6);
  (*112*) AddTo (T 24) (Times (Einsum [(T 23,[0;1])] [1;0]) (1) 2);
  (*113*) Del (T 23);
  (*114*) Assign (T 25) (Plain (Zeros [0;0;1;1]));
  (*115*) AddTo (T 25) (Times (Einsum [(T 24,[0;1]); (n_t2,[2;0;3;4])] [1;2;3;4]) (-1) 1);
  (*116*) Del (T 24);
  (*117*) Assign (T 26) (Plain (Zeros [0;0;1;1]));
  (*118*) AddTo (T 26) (Times (Einsum [(T 17,[0;1;2;3])] [0;1;3;2]) (-1) 1);
  (*119*) Del (T 17);
  (*120*) AddTo (T 26) (Times (Einsum [(T 20,[0;1;2;3])] [0;1;3;2]) (-1) 1);
  (*121*) Del (T 20);
  (*122*) AddTo (T 26) (Times (Einsum [(T 22,[0;1;2;3])] [0;1;3;2]) (-1) 1);
  (*123*) Del (T 22);
  (*124*) AddTo (T 26) (Plain (Einsum [(T 25,[0;1;2;3])] [1;0;3;2]));
  (*125*) Del (T 25);
  (*126*) AddTo n_t2new (Times (Einsum [(T 26,[0;1;2;3])] [0;1;2;3]) (-1) 1);
  (*127*) AddTo n_t2new (Plain (Einsum [(T 26,[0;1;2;3])] [1;0;2;3]));
  (*128*) Del (T 26);
  (*129*) Assign (T 27) (Plain (Zeros [0;0;1;1]));
  (*130*) AddTo (T 27) (Plain (Einsum [(n_t2,[0;1;2;3]); (n_v'oovv,[4;1;5;3])] [0;4;2;5]));
  (*131*) Assign (T 28) (Plain (Zeros [0;0;1;1]));
  (*132*) AddTo (T 28) (Plain (Einsum [(n_t2,[0;1;2;3]); (T 27,[4;1;5;3])] [4;0;5;2]));
  (*133*) Del (T 27);
  (*134*) Assign (T 29) (Plain (Zeros [1;1]));
  (*135*) AddTo (T 29) (Plain (Einsum [(n_t1,[0;1]); (n_v'ovvv,[0;2;3;1])] [2;3]));
  (*136*) Assign (T 30) (Plain (Zeros [1;1]));
  (*137*) AddTo (T 30) (Plain (Einsum [(n_t2,[0;1;2;3]); (n_v'oovv,[0;1;4;3])] [2;4]));
  (*138*) Assign (T 31) (Plain (Zeros [1;1]));
  (*139*) AddTo (T 31) (Plain (Einsum [(T 29,[0;1])] [0;1]));
  (*140*) Del (T 29);
  (*141*) AddTo (T 31) (Times (Einsum [(T 30,[0;1])] [0;1]) (1) 2);
  (*142*) Del (T 30);
  (*143*) Assign (T 32) (Plain (Zeros [0;0;1;1]));
  (*144*) AddTo (T 32) (Times (Einsum [(T 31,[0;1]); (n_t2,[2;3;4;1])] [2;3;0;4]) (-1) 1);
  (*145*) Del (T 31);
  (*146*) Assign (T 33) (Plain (Zeros [0;0;0;1]));
  (*147*) AddTo (T 33) (Times (Einsum [(n_v'ovvv,[0;1;2;3]); (T 3,[4;5;2;3])] [0;4;5;1]) (1) 2);
  (*148*) Assign (T 34) (Plain (Zeros [0;0;0;1]));
  (*149*) AddTo (T 34) (Times (Einsum [(T 5,[0;1]); (n_t2,[2;3;4;1])] [2;3;0;4]) (-1) 1);
  (*150*) Del (T 5);
  (*151*) Assign (T 35) (Plain (Zeros [0;0;0;1]));
  (*152*) AddTo (T 35) (Plain (Einsum [(T 33,[0;1;2;3])] [0;2;1;3]));
  (*153*) Del (T 33);
  (*154*) AddTo (T 35) (Plain (Einsum [(T 34,[0;1;2;3])] [2;1;0;3]));
  (*155*) Del (T 34);
  (*156*) Assign (T 36) (Plain (Zeros [0;0;1;1]));
  (*157*) AddTo (T 36) (Plain (Einsum [(n_t1,[0;1]); (T 35,[0;2;3;4])] [2;3;4;1]));
  (*158*) Del (T 35);
  (*159*) Assign (T 37) (Plain (Zeros [0;0;1;1]));
  (*160*) AddTo (T 37) (Times (Einsum [(T 28,[0;1;2;3])] [0;1;2;3]) (-1) 1);
  (*161*) Del (T 28);
  (*162*) AddTo (T 37) (Plain (Einsum [(T 32,[0;1;2;3])] [1;0;3;2]));
  (*163*) Del (T 32);
  (*164*) AddTo (T 37) (Plain (Einsum [(T 36,[0;1;2;3])] [1;0;3;2]));
  (*165*) Del (T 36);
  (*166*) AddTo n_t2new (Times (Einsum [(T 37,[0;1;2;3])] [0;1;2;3]) (-1) 1);
  (*167*) AddTo n_t2new (Plain (Einsum [(T 37,[0;1;2;3])] [0;1;3;2]));
  (*168*) Del (T 37);
  (*169*) Assign (T 38) (Plain (Zeros [0;0;1;1]));
  (*170*) AddTo (T 38) (Plain (Einsum [(n_t1,[0;1]); (n_v'ooov,[2;3;0;4])] [2;3;1;4]));
  (*171*) Assign (T 39) (Plain (Zeros [0;0;1;1]));
  (*172*) AddTo (T 39) (Plain (Einsum [(n_f'vv,[0;1]); (n_t2,[2;3;4;1])] [2;3;0;4]));
  (*173*) Assign (T 40) (Plain (Zeros [0;0;1;1]));
  (*174*) AddTo (T 40) (Times (Einsum [(T 38,[0;1;2;3])] [1;0;2;3]) (-1) 1);
  (*175*) Del (T 38);
  (*176*) AddTo (T 40) (Times (Einsum [(T 39,[0;1;2;3])] [1;0;2;3]) (-1) 1);
  (*177*) Del (T 39);
  (*178*) AddTo n_t2new (Times (Einsum [(T 40,[0;1;2;3])] [0;1;2;3]) (-1) 1);
  (*179*) AddTo n_t2new (Plain (Einsum [(T 40,[0;1;2;3])] [0;1;3;2]));
  (*180*) Del (T 40);
  (*181*) Assign (T 41) (Plain (Zeros [0;0;0;0]));
  (*182*) AddTo (T 41) (Plain (Einsum [(n_v'oooo,[0;1;2;3])] [0;1;2;3]));
  (*183*) AddTo (T 41) (Times (Einsum [(n_v'oovv,[0;1;2;3]); (T 3,[4;5;2;3])] [0;1;5;4]) (-1) 2);
  (*184*) AddTo n_t2new (Times (Einsum [(T 3,[0;1;2;3]); (T 41,[0;1;4;5])] [4;5;3;2]) (-1) 2);
  (*185*) Del (T 3);
  (*185*) Del (T 41)]
 [(n_t1new,[0;1]); (n_t2new,[0;0;1;1])].

