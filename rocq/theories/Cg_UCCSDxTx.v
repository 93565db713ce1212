(** Generated by tools/translate_codegen.py from ebcc/codegen/UCCSDxTx.py; one statement per source line
    (the number in the comment before it). *)
From Coq Require Import ZArith List.
From Verif Require Import CgModel CgNames.
Import ListNotations.

(** ebcc/codegen/UCCSDxTx.py:7-33 [energy] *)
Definition UCCSDxTx_energy : prog := mkprog
 [(n_t2'abab,[4;6;5;7]); (n_v'aabb'ovov,[4;5;6;7]); (n_t2'bbbb,[6;6;7;7]); (n_v'bbbb'ovov,[6;7;6;7]); (n_t2'aaaa,[4;4;5;5]); (n_v'aaaa'ovov,[4;5;4;5]); (n_f'aa'ov,[4;5]); (n_t1'bb,[6;7]); (n_t1'aa,[4;5]); (n_f'bb'ov,[6;7])]
 [(*9*) Assign n_e_cc (Plain (Zeros []));
  (*10*) AddTo n_e_cc (Plain (Einsum [(n_t2'abab,[0;1;2;3]); (n_v'aabb'ovov,[0;2;1;3])] []));
  (*11*) AddTo n_e_cc (Plain (Einsum [(n_t2'bbbb,[0;1;2;3]); (n_v'bbbb'ovov,[0;2;1;3])] []));
  (*12*) AddTo n_e_cc (Plain (Einsum [(n_t2'aaaa,[0;1;2;3]); (n_v'aaaa'ovov,[0;2;1;3])] []));
  (*13*) Assign (T 1) (Plain (Zeros [4;4;5;5]));
  (*14*) AddTo (T 1) (Times (Einsum [(n_v'aaaa'ovov,[0;1;2;3])] [0;2;3;1]) (-1) 1);
  (*15*) AddTo (T 1) (Plain (Einsum [(n_v'aaaa'ovov,[0;1;2;3])] [0;2;1;3]));
  (*16*) Assign (T 2) (Plain (Zeros [4;5]));
  (*17*) AddTo (T 2) (Plain (Einsum [(n_f'aa'ov,[0;1])] [0;1]));
  (*18*) AddTo (T 2) (Plain (Einsum [(n_t1'bb,[0;1]); (n_v'aabb'ovov,[2;3;0;1])] [2;3]));
  (*19*) AddTo (T 2) (Times (Einsum [(n_t1'aa,[0;1]); (T 1,[0;2;3;1])] [2;3]) (-1) 2);
  (*20*) Del (T 1);
  (*21*) AddTo n_e_cc (Plain (Einsum [(n_t1'aa,[0;1]); (T 2,[0;1])] []));
  (*22*) Del (T 2);
  (*23*) Assign (T 3) (Plain (Zeros [6;6;7;7]));
  (*24*) AddTo (T 3) (Plain (Einsum [(n_v'bbbb'ovov,[0;1;2;3])] [0;2;3;1]));
  (*25*) AddTo (T 3) (Times (Einsum [(n_v'bbbb'ovov,[0;1;2;3])] [0;2;1;3]) (-1) 1);
  (*26*) Assign (T 4) (Plain (Zeros [6;7]));
  (*27*) AddTo (T 4) (Times (Einsum [(n_f'bb'ov,[0;1])] [0;1]) (2) 1);
  (*28*) AddTo (T 4) (Times (Einsum [(n_t1'bb,[0;1]); (T 3,[0;2;1;3])] [2;3]) (-1) 1);
  (*29*) Del (T 3);
  (*30*) AddTo n_e_cc (Times (Einsum [(n_t1'bb,[0;1]); (T 4,[0;1])] []) (1) 2);
  (*31*) Del (T 4)]
 [(n_e_cc,[])].

(** ebcc/codegen/UCCSDxTx.py:35-779 [update_amps] *)
Definition UCCSDxTx_update_amps : prog := mkprog
 [(n_f'bb'ov,[6;7]); (n_f'aa'ov,[4;5]); (n_t2'aaaa,[4;4;5;5]); (n_v'aaaa'vvvv,[5;5;5;5]); (n_v'aabb'ovov,[4;5;6;7]); (n_t2'bbbb,[6;6;7;7]); (n_v'bbbb'vvvv,[7;7;7;7]); (n_t1'aa,[4;5]); (n_t1'bb,[6;7]); (n_v'bbbb'ovov,[6;7;6;7]); (n_v'bbbb'ooov,[6;6;6;7]); (n_v'aabb'ovoo,[4;5;6;6]); (n_t2'abab,[4;6;5;7]); (n_v'bbbb'ovvv,[6;7;7;7]); (n_v'aabb'ovvv,[4;5;7;7]); (n_v'aabb'vvov,[5;5;6;7]); (n_v'aaaa'ovov,[4;5;4;5]); (n_v'bbbb'oovv,[6;6;7;7]); (n_f'bb'oo,[6;6]); (n_f'bb'vv,[7;7]); (n_v'aabb'ooov,[4;4;6;7]); (n_v'aaaa'ooov,[4;4;4;5]); (n_v'aaaa'ovvv,[4;5;5;5]); (n_v'aaaa'oovv,[4;4;5;5]); (n_f'aa'oo,[4;4]); (n_f'aa'vv,[5;5]); (n_v'aaaa'oooo,[4;4;4;4]); (n_v'aabb'oovv,[4;4;7;7]); (n_v'aabb'vvoo,[5;5;6;6]); (n_v'aabb'vvvv,[5;5;7;7]); (n_v'aabb'oooo,[4;4;6;6]); (n_v'bbbb'oooo,[6;6;6;6])]
 [(*40*) Assign n_t1new_bb (Plain (Zeros [6;7]));
  (*41*) AddTo n_t1new_bb (Plain (Einsum [(n_f'bb'ov,[0;1])] [0;1]));
  (*42*) Assign n_t1new_aa (Plain (Zeros [4;5]));
  (*43*) AddTo n_t1new_aa (Plain (Einsum [(n_f'aa'ov,[0;1])] [0;1]));
  (*44*) Assign n_t2new_aaaa (Plain (Zeros [4;4;5;5]));
  (*45*) AddTo n_t2new_aaaa (Times (Einsum [(n_t2'aaaa,[0;1;2;3]); (n_v'aaaa'vvvv,[4;3;5;2])] [0;1;4;5]) (-2) 1);
  (*46*) Assign n_t2new_abab (Plain (Zeros [4;6;5;7]));
  (*47*) AddTo n_t2new_abab (Plain (Einsum [(n_v'aabb'ovov,[0;1;2;3])] [0;2;1;3]));
  (*48*) Assign n_t2new_bbbb (Plain (Zeros [6;6;7;7]));
  (*49*) AddTo n_t2new_bbbb (Times (Einsum [(n_t2'bbbb,[0;1;2;3]); (n_v'bbbb'vvvv,[4;3;5;2])] [0;1;4;5]) (-2) 1);
  (*50*) Assign (T 1) (Plain (Zeros [6;7]));
  (*51*) AddTo (T 1) (Plain (Einsum [(n_t1'aa,[0;1]); (n_v'aabb'ovov,[0;1;2;3])] [2;3]));
  (*52*) AddTo n_t1new_bb (Plain (Einsum [(T 1,[0;1])] [0;1]));
  (*53*) Assign (T 2) (Plain (Zeros [6;6;6;7]));
  (*54*) AddTo (T 2) (Plain (Einsum [(n_t1'bb,[0;1]); (n_v'bbbb'ovov,[2;3;4;1])] [0;2;4;3]));
  (*55*) Assign (T 3) (Plain (Zeros [6;6;6;7]));
  (*56*) AddTo (T 3) (Plain (Einsum [(n_v'bbbb'ooov,[0;1;2;3])] [0;2;1;3]));
  (*57*) AddTo (T 3) (Plain (Einsum [(T 2,[0;1;2;3])] [0;1;2;3]));
  (*58*) AddTo n_t1new_bb (Times (Einsum [(n_t2'bbbb,[0;1;2;3]); (T 3,[4;0;1;3])] [4;2]) (2) 1);
  (*59*) Del (T 3);
  (*60*) Assign (T 4) (Plain (Zeros [4;6;6;5]));
  (*61*) AddTo (T 4) (Plain (Einsum [(n_t1'bb,[0;1]); (n_v'aabb'ovov,[2;3;4;1])] [2;0;4;3]));
  (*62*) Assign (T 5) (Plain (Zeros [4;6;6;5]));
  (*63*) AddTo (T 5) (Plain (Einsum [(n_v'aabb'ovoo,[0;1;2;3])] [0;2;3;1]));
  (*64*) AddTo (T 5) (Plain (Einsum [(T 4,[0;1;2;3])] [0;2;1;3]));
  (*65*) AddTo n_t1new_bb (Times (Einsum [(n_t2'abab,[0;1;2;3]); (T 5,[0;1;4;2])] [4;3]) (-1) 1);
  (*66*) Assign (T 6) (Plain (Zeros [6;6;7;7]));
  (*67*) AddTo (T 6) (Plain (Einsum [(n_t2'bbbb,[0;1;2;3])] [0;1;2;3]));
  (*68*) AddTo (T 6) (Times (Einsum [(n_t1'bb,[0;1]); (n_t1'bb,[2;3])] [0;2;1;3]) (1) 2);
  (*69*) AddTo n_t1new_bb (Times (Einsum [(n_v'bbbb'ovvv,[0;1;2;3]); (T 6,[0;4;3;1])] [4;2]) (-2) 1);
  (*70*) Del (T 6);
  (*71*) Assign (T 7) (Plain (Zeros [4;6;5;7]));
  (*72*) AddTo (T 7) (Plain (Einsum [(n_t2'abab,[0;1;2;3])] [0;1;2;3]));
  (*73*) AddTo (T 7) (Plain (Einsum [(n_t1'aa,[0;1]); (n_t1'bb,[2;3])] [0;2;1;3]));
  (*74*) AddTo n_t1new_bb (Plain (Einsum [(n_v'aabb'ovvv,[0;1;2;3]); (T 7,[0;4;1;3])] [4;2]));
  (*75*) AddTo n_t1new_aa (Plain (Einsum [(n_v'aabb'vvov,[0;1;2;3]); (T 7,[4;2;1;3])] [4;0]));
  (*76*) Assign (T 8) (Plain (Zeros [6;6;7;7]));
  (*77*) AddTo (T 8) (Plain (Einsum [(n_v'bbbb'ovov,[0;1;2;3])] [0;2;3;1]));
  (*78*) AddTo (T 8) (Times (Einsum [(n_v'bbbb'ovov,[0;1;2;3])] [0;2;1;3]) (-1) 1);
  (*79*) Assign (T 9) (Plain (Zeros [6;7]));
  (*80*) AddTo (T 9) (Plain (Einsum [(n_t1'bb,[0;1]); (T 8,[0;2;1;3])] [2;3]));
  (*81*) Assign (T 10) (Plain (Zeros [6;7]));
  (*82*) AddTo (T 10) (Plain (Einsum [(n_f'bb'ov,[0;1])] [0;1]));
  (*83*) AddTo (T 10) (Plain (Einsum [(T 1,[0;1])] [0;1]));
  (*84*) Del (T 1);
  (*85*) AddTo (T 10) (Times (Einsum [(T 9,[0;1])] [0;1]) (-1) 1);
  (*86*) Del (T 9);
  (*87*) AddTo n_t1new_bb (Times (Einsum [(T 10,[0;1]); (n_t2'bbbb,[2;0;3;1])] [2;3]) (2) 1);
  (*88*) AddTo n_t1new_aa (Plain (Einsum [(T 10,[0;1]); (n_t2'abab,[2;0;3;1])] [2;3]));
  (*89*) Assign (T 11) (Plain (Zeros [4;5]));
  (*90*) AddTo (T 11) (Plain (Einsum [(n_t1'bb,[0;1]); (n_v'aabb'ovov,[2;3;0;1])] [2;3]));
  (*91*) AddTo n_t1new_aa (Plain (Einsum [(T 11,[0;1])] [0;1]));
  (*92*) Assign (T 12) (Plain (Zeros [4;4;5;5]));
  (*93*) AddTo (T 12) (Times (Einsum [(n_v'aaaa'ovov,[0;1;2;3])] [0;2;3;1]) (-1) 1);
  (*94*) AddTo (T 12) (Plain (Einsum [(n_v'aaaa'ovov,[0;1;2;3])] [0;2;1;3]));
  (*95*) Assign (T 13) (Plain (Zeros [4;5]));
  (*96*) AddTo (T 13) (Plain (Einsum [(n_t1'aa,[0;1]); (T 12,[0;2;3;1])] [2;3]));
  (*97*) Assign (T 14) (Plain (Zeros [4;5]));
  (*98*) AddTo (T 14) (Plain (Einsum [(n_f'aa'ov,[0;1])] [0;1]));
  (*99*) AddTo (T 14) (Plain (Einsum [(T 11,[0;1])] [0;1]));
  (*100*) Del (T 11);
  (*101*) AddTo (T 14) (Times (Einsum [(T 13,[0;1])] [0;1]) (-1) 1);
  (*102*) Del (T 13);
  (*103*) AddTo n_t1new_bb (Plain (Einsum [(T 14,[0;1]); (n_t2'abab,[0;2;1;3])] [2;3]));
  (*104*) AddTo n_t1new_aa (Times (Einsum [(T 14,[0;1]); (n_t2'aaaa,[2;0;3;1])] [2;3]) (2) 1);
  (*105*) Assign (T 15) (Plain (Zeros [6;6;7;7]));
  (*106*) AddTo (T 15) (Plain (Einsum [(n_v'bbbb'oovv,[0;1;2;3])] [0;1;2;3]));
  (*107*) AddTo (T 15) (Times (Einsum [(n_v'bbbb'ovov,[0;1;2;3])] [0;2;1;3]) (-1) 1);
  (*108*) AddTo n_t1new_bb (Times (Einsum [(n_t1'bb,[0;1]); (T 15,[0;2;1;3])] [2;3]) (-1) 1);
  (*109*) Assign (T 16) (Plain (Zeros [6;6]));
  (*110*) AddTo (T 16) (Plain (Einsum [(n_t1'aa,[0;1]); (n_v'aabb'ovoo,[0;1;2;3])] [2;3]));
  (*111*) Assign (T 17) (Plain (Zeros [6;6]));
  (*112*) AddTo (T 17) (Plain (Einsum [(n_t2'abab,[0;1;2;3]); (n_v'aabb'ovov,[0;2;4;3])] [1;4]));
  (*113*) Assign (T 18) (Plain (Zeros [6;6]));
  (*114*) AddTo (T 18) (Times (Einsum [(n_t2'bbbb,[0;1;2;3]); (n_v'bbbb'ovov,[4;3;1;2])] [0;4]) (-1) 1);
  (*115*) Assign (T 19) (Plain (Zeros [6;6;6;7]));
  (*116*) AddTo (T 19) (Times (Einsum [(n_v'bbbb'ooov,[0;1;2;3])] [0;1;2;3]) (-1) 1);
  (*117*) AddTo (T 19) (Plain (Einsum [(n_v'bbbb'ooov,[0;1;2;3])] [0;2;1;3]));
  (*118*) Assign (T 20) (Plain (Zeros [6;6]));
  (*119*) AddTo (T 20) (Plain (Einsum [(n_t1'bb,[0;1]); (T 19,[2;3;0;1])] [2;3]));
  (*120*) Assign (T 21) (Plain (Zeros [6;6]));
  (*121*) AddTo (T 21) (Plain (Einsum [(n_t1'bb,[0;1]); (T 10,[2;1])] [0;2]));
  (*122*) Assign (T 22) (Plain (Zeros [6;6]));
  (*123*) AddTo (T 22) (Plain (Einsum [(n_f'bb'oo,[0;1])] [0;1]));
  (*124*) AddTo (T 22) (Plain (Einsum [(T 16,[0;1])] [1;0]));
  (*125*) AddTo (T 22) (Plain (Einsum [(T 17,[0;1])] [1;0]));
  (*126*) AddTo (T 22) (Times (Einsum [(T 18,[0;1])] [1;0]) (2) 1);
  (*127*) AddTo (T 22) (Times (Einsum [(T 20,[0;1])] [1;0]) (-1) 1);
  (*128*) AddTo (T 22) (Plain (Einsum [(T 21,[0;1])] [1;0]));
  (*129*) AddTo n_t1new_bb (Times (Einsum [(n_t1'bb,[0;1]); (T 22,[0;2])] [2;1]) (-1) 1);
  (*130*) AddTo n_t2new_abab (Times (Einsum [(T 22,[0;1]); (n_t2'abab,[2;0;3;4])] [2;1;3;4]) (-1) 1);
  (*131*) Del (T 22);
  (*132*) Assign (T 23) (Plain (Zeros [7;7]));
  (*133*) AddTo (T 23) (Plain (Einsum [(n_f'bb'vv,[0;1])] [0;1]));
  (*134*) AddTo (T 23) (Plain (Einsum [(n_t1'bb,[0;1]); (n_v'bbbb'ovvv,[0;1;2;3])] [2;3]));
  (*135*) AddTo n_t1new_bb (Plain (Einsum [(n_t1'bb,[0;1]); (T 23,[1;2])] [0;2]));
  (*136*) Del (T 23);
  (*137*) Assign (T 24) (Plain (Zeros [4;4;6;7]));
  (*138*) AddTo (T 24) (Plain (Einsum [(n_t1'aa,[0;1]); (n_v'aabb'ovov,[2;1;3;4])] [0;2;3;4]));
  (*139*) Assign (T 25) (Plain (Zeros [4;4;6;7]));
  (*140*) AddTo (T 25) (Plain (Einsum [(n_v'aabb'ooov,[0;1;2;3])] [0;1;2;3]));
  (*141*) AddTo (T 25) (Plain (Einsum [(T 24,[0;1;2;3])] [1;0;2;3]));
  (*142*) AddTo n_t1new_aa (Times (Einsum [(n_t2'abab,[0;1;2;3]); (T 25,[0;4;1;3])] [4;2]) (-1) 1);
  (*143*) Del (T 25);
  (*144*) Assign (T 26) (Plain (Zeros [4;4;4;5]));
  (*145*) AddTo (T 26) (Plain (Einsum [(n_t1'aa,[0;1]); (n_v'aaaa'ovov,[2;3;4;1])] [0;2;4;3]));
  (*146*) Assign (T 27) (Plain (Zeros [4;4;4;5]));
  (*147*) AddTo (T 27) (Plain (Einsum [(n_v'aaaa'ooov,[0;1;2;3])] [0;2;1;3]));
  (*148*) AddTo (T 27) (Plain (Einsum [(T 26,[0;1;2;3])] [0;1;2;3]));
  (*149*) AddTo n_t1new_aa (Times (Einsum [(n_t2'aaaa,[0;1;2;3]); (T 27,[4;1;0;3])] [4;2]) (-2) 1);
  (*150*) Del (T 27);
  (*151*) Assign (T 28) (Plain (Zeros [4;4;5;5]));
  (*152*) AddTo (T 28) (Plain (Einsum [(n_t2'aaaa,[0;1;2;3])] [0;1;2;3]));
  (*153*) AddTo (T 28) (Times (Einsum [(n_t1'aa,[0;1]); (n_t1'aa,[2;3])] [0;2;1;3]) (1) 2);
  (*154*) AddTo n_t1new_aa (Times (Einsum [(n_v'aaaa'ovvv,[0;1;2;3]); (T 28,[0;4;1;3])] [4;2]) (2) 1);
  (*155*) Del (T 28);
  (*156*) Assign (T 29) (Plain (Zeros [4;4;5;5]));
  (*157*) AddTo (T 29) (Plain (Einsum [(n_v'aaaa'oovv,[0;1;2;3])] [0;1;2;3]));
  (*158*) AddTo (T 29) (Times (Einsum [(n_v'aaaa'ovov,[0;1;2;3])] [0;2;1;3]) (-1) 1);
  (*159*) AddTo n_t1new_aa (Times (Einsum [(n_t1'aa,[0;1]); (T 29,[0;2;1;3])] [2;3]) (-1) 1);
  (*160*) Del (T 29);
  (*161*) Assign (T 30) (Plain (Zeros [4;4]));
  (*162*) AddTo (T 30) (Plain (Einsum [(n_t1'bb,[0;1]); (n_v'aabb'ooov,[2;3;0;1])] [2;3]));
  (*163*) Assign (T 31) (Plain (Zeros [4;4]));
  (*164*) AddTo (T 31) (Times (Einsum [(n_t2'aaaa,[0;1;2;3]); (n_v'aaaa'ovov,[4;3;1;2])] [0;4]) (-1) 1);
  (*165*) Assign (T 32) (Plain (Zeros [4;4]));
  (*166*) AddTo (T 32) (Plain (Einsum [(n_t2'abab,[0;1;2;3]); (n_v'aabb'ovov,[4;2;1;3])] [0;4]));
  (*167*) Assign (T 33) (Plain (Zeros [4;4;4;5]));
  (*168*) AddTo (T 33) (Times (Einsum [(n_v'aaaa'ooov,[0;1;2;3])] [0;1;2;3]) (-1) 1);
  (*169*) AddTo (T 33) (Plain (Einsum [(n_v'aaaa'ooov,[0;1;2;3])] [0;2;1;3]));
  (*170*) Assign (T 34) (Plain (Zeros [4;4]));
  (*171*) AddTo (T 34) (Plain (Einsum [(n_t1'aa,[0;1]); (T 33,[2;3;0;1])] [2;3]));
  (*172*) Del (T 33);
  (*173*) Assign (T 35) (Plain (Zeros [4;4]));
  (*174*) AddTo (T 35) (Plain (Einsum [(n_t1'aa,[0;1]); (T 14,[2;1])] [0;2]));
  (*175*) Assign (T 36) (Plain (Zeros [4;4]));
  (*176*) AddTo (T 36) (Plain (Einsum [(n_f'aa'oo,[0;1])] [0;1]));
  (*177*) AddTo (T 36) (Plain (Einsum [(T 30,[0;1])] [1;0]));
  (*178*) AddTo (T 36) (Times (Einsum [(T 31,[0;1])] [1;0]) (2) 1);
  (*179*) AddTo (T 36) (Plain (Einsum [(T 32,[0;1])] [1;0]));
  (*180*) AddTo (T 36) (Times (Einsum [(T 34,[0;1])] [1;0]) (-1) 1);
  (*181*) AddTo (T 36) (Plain (Einsum [(T 35,[0;1])] [1;0]));
  (*182*) AddTo n_t1new_aa (Times (Einsum [(n_t1'aa,[0;1]); (T 36,[0;2])] [2;1]) (-1) 1);
  (*183*) AddTo n_t2new_abab (Times (Einsum [(T 36,[0;1]); (n_t2'abab,[0;2;3;4])] [1;2;3;4]) (-1) 1);
  (*184*) Del (T 36);
  (*185*) Assign (T 37) (Plain (Zeros [5;5]));
  (*186*) AddTo (T 37) (Plain (Einsum [(n_f'aa'vv,[0;1])] [0;1]));
  (*187*) AddTo (T 37) (Times (Einsum [(n_t1'aa,[0;1]); (n_v'aaaa'ovvv,[0;2;3;1])] [2;3]) (-1) 1);
  (*188*) AddTo n_t1new_aa (Plain (Einsum [(n_t1'aa,[0;1]); (T 37,[1;2])] [0;2]));
  (*189*) Del (T 37);
  (*190*) Assign (T 38) (Plain (Zeros [4;4;5;5]));
  (*191*) AddTo (T 38) (Plain (Einsum [(n_t1'aa,[0;1]); (n_v'aaaa'ovvv,[2;3;4;1])] [0;2;3;4]));
  (*192*) Assign (T 39) (Plain (Zeros [4;4;5;5]));
  (*193*) AddTo (T 39) (Plain (Einsum [(n_t2'abab,[0;1;2;3]); (n_v'aabb'ovov,[4;5;1;3])] [0;4;2;5]));
  (*194*) Assign (T 40) (Plain (Zeros [4;6;5;7]));
  (*195*) AddTo (T 40) (Plain (Einsum [(n_t1'aa,[0;1]); (n_v'aabb'vvov,[2;1;3;4])] [0;3;2;4]));
  (*196*) AddTo n_t2new_abab (Plain (Einsum [(T 40,[0;1;2;3])] [0;1;2;3]));
  (*197*) Assign (T 41) (Plain (Zeros [4;4;5;5]));
  (*198*) AddTo (T 41) (Plain (Einsum [(n_t2'abab,[0;1;2;3]); (T 40,[4;1;5;3])] [4;0;2;5]));
  (*199*) Assign (T 42) (Plain (Zeros [4;4;5;5]));
  (*200*) AddTo (T 42) (Plain (Einsum [(n_v'aaaa'ovov,[0;1;2;3])] [0;2;1;3]));
  (*201*) AddTo (T 42) (Times (Einsum [(n_v'aaaa'oovv,[0;1;2;3])] [0;1;2;3]) (-1) 1);
  (*202*) AddTo (T 42) (Plain (Einsum [(T 39,[0;1;2;3])] [1;0;3;2]));
  (*203*) Assign (T 43) (Plain (Zeros [4;4;5;5]));
  (*204*) AddTo (T 43) (Times (Einsum [(n_t2'aaaa,[0;1;2;3]); (T 42,[1;4;3;5])] [0;4;2;5]) (2) 1);
  (*205*) Del (T 42);
  (*206*) Assign (T 44) (Plain (Zeros [4;5;5;5]));
  (*207*) AddTo (T 44) (Plain (Einsum [(n_v'aaaa'ovvv,[0;1;2;3])] [0;1;2;3]));
  (*208*) AddTo (T 44) (Times (Einsum [(n_v'aaaa'ovvv,[0;1;2;3])] [0;2;3;1]) (-1) 1);
  (*209*) Assign (T 45) (Plain (Zeros [4;4;5;5]));
  (*210*) AddTo (T 45) (Plain (Einsum [(n_t1'aa,[0;1]); (T 44,[2;1;3;4])] [0;2;3;4]));
  (*211*) Del (T 44);
  (*212*) Assign (T 46) (Plain (Zeros [4;4;5;5]));
  (*213*) AddTo (T 46) (Times (Einsum [(n_t2'aaaa,[0;1;2;3]); (T 45,[4;1;5;3])] [0;4;2;5]) (-2) 1);
  (*214*) Del (T 45);
  (*215*) Assign (T 47) (Plain (Zeros [4;4;4;4]));
  (*216*) AddTo (T 47) (Plain (Einsum [(n_t1'aa,[0;1]); (n_v'aaaa'ooov,[2;3;4;1])] [0;2;3;4]));
  (*217*) Assign (T 48) (Plain (Zeros [4;4;4;5]));
  (*218*) AddTo (T 48) (Plain (Einsum [(n_t1'aa,[0;1]); (T 47,[2;3;4;0])] [2;4;3;1]));
  (*219*) Assign (T 49) (Plain (Zeros [4;4;4;5]));
  (*220*) AddTo (T 49) (Plain (Einsum [(n_t2'abab,[0;1;2;3]); (n_v'aabb'ooov,[4;5;1;3])] [0;4;5;2]));
  (*221*) Assign (T 50) (Plain (Zeros [4;4;4;5]));
  (*222*) AddTo (T 50) (Plain (Einsum [(n_t2'abab,[0;1;2;3]); (T 24,[4;5;1;3])] [4;0;5;2]));
  (*223*) Del (T 24);
  (*224*) Assign (T 51) (Plain (Zeros [4;4;4;5]));
  (*225*) AddTo (T 51) (Times (Einsum [(n_v'aaaa'ooov,[0;1;2;3])] [0;1;2;3]) (-1) 1);
  (*226*) AddTo (T 51) (Plain (Einsum [(n_v'aaaa'ooov,[0;1;2;3])] [2;0;1;3]));
  (*227*) Assign (T 52) (Plain (Zeros [4;4;4;5]));
  (*228*) AddTo (T 52) (Times (Einsum [(n_t2'aaaa,[0;1;2;3]); (T 51,[1;4;5;3])] [0;4;5;2]) (2) 1);
  (*229*) Del (T 51);
  (*230*) Assign (T 53) (Plain (Zeros [4;4;4;5]));
  (*231*) AddTo (T 53) (Times (Einsum [(T 26,[0;1;2;3])] [0;1;2;3]) (-1) 1);
  (*232*) AddTo (T 53) (Plain (Einsum [(T 26,[0;1;2;3])] [0;2;1;3]));
  (*233*) Assign (T 54) (Plain (Zeros [4;4;4;5]));
  (*234*) AddTo (T 54) (Times (Einsum [(n_t2'aaaa,[0;1;2;3]); (T 53,[4;1;5;3])] [0;4;5;2]) (2) 1);
  (*235*) Del (T 53);
  (*236*) Assign (T 55) (Plain (Zeros [4;4;5;5]));
  (*237*) AddTo (T 55) (Plain (Einsum [(n_v'aaaa'ovov,[0;1;2;3])] [0;2;3;1]));
  (*238*) AddTo (T 55) (Times (Einsum [(n_v'aaaa'oovv,[0;1;2;3])] [0;1;2;3]) (-1) 1);
  (*239*) AddTo (T 55) (Plain (Einsum [(T 38,[0;1;2;3])] [0;1;2;3]));
  (*240*) Assign (T 56) (Plain (Zeros [4;4;4;5]));
  (*241*) AddTo (T 56) (Plain (Einsum [(n_t1'aa,[0;1]); (T 55,[2;3;1;4])] [0;2;3;4]));
  (*242*) Del (T 55);
  (*243*) Assign (T 57) (Plain (Zeros [4;4;4;5]));
  (*244*) AddTo (T 57) (Plain (Einsum [(T 48,[0;1;2;3])] [0;2;1;3]));
  (*245*) Del (T 48);
  (*246*) AddTo (T 57) (Times (Einsum [(T 49,[0;1;2;3])] [0;2;1;3]) (-1) 1);
  (*247*) Del (T 49);
  (*248*) AddTo (T 57) (Plain (Einsum [(T 50,[0;1;2;3])] [0;2;1;3]));
  (*249*) Del (T 50);
  (*250*) AddTo (T 57) (Times (Einsum [(T 52,[0;1;2;3])] [0;2;1;3]) (-1) 1);
  (*251*) Del (T 52);
  (*252*) AddTo (T 57) (Times (Einsum [(T 54,[0;1;2;3])] [1;2;0;3]) (-1) 1);
  (*253*) Del (T 54);
  (*254*) AddTo (T 57) (Plain (Einsum [(T 56,[0;1;2;3])] [0;2;1;3]));
  (*255*) Del (T 56);
  (*256*) Assign (T 58) (Plain (Zeros [4;4;5;5]));
  (*257*) AddTo (T 58) (Plain (Einsum [(n_t1'aa,[0;1]); (T 57,[2;0;3;4])] [2;3;1;4]));
  (*258*) Del (T 57);
  (*259*) Assign (T 59) (Plain (Zeros [4;4;5;5]));
  (*260*) AddTo (T 59) (Plain (Einsum [(T 38,[0;1;2;3])] [0;1;2;3]));
  (*261*) Del (T 38);
  (*262*) AddTo (T 59) (Times (Einsum [(T 39,[0;1;2;3])] [0;1;2;3]) (-1) 1);
  (*263*) Del (T 39);
  (*264*) AddTo (T 59) (Plain (Einsum [(T 41,[0;1;2;3])] [0;1;2;3]));
  (*265*) Del (T 41);
  (*266*) AddTo (T 59) (Times (Einsum [(T 43,[0;1;2;3])] [0;1;2;3]) (-1) 1);
  (*267*) Del (T 43);
  (*268*) AddTo (T 59) (Plain (Einsum [(T 46,[0;1;2;3])] [1;0;2;3]));
  (*269*) Del (T 46);
  (*270*) AddTo (T 59) (Plain (Einsum [(T 58,[0;1;2;3])] [0;1;2;3]));
  (*271*) Del (T 58);
  (*272*) AddTo n_t2new_aaaa (Times (Einsum [(T 59,[0;1;2;3])] [0;1;2;3]) (-1) 1);
  (*273*) AddTo n_t2new_aaaa (Plain (Einsum [(T 59,[0;1;2;3])] [0;1;3;2]));
  (*274*) AddTo n_t2new_aaaa (Plain (Einsum [(T 59,[0;1;2;3])] [1;0;2;3]));
  (*275*) AddTo n_t2new_aaaa (Times (Einsum [(T 59,[0;1;2;3])] [1;0;3;2]) (-1) 1);
  (*276*) Del (T 59);
  (*277*) Assign (T 60) (Plain (Zeros [4;5;5;5]));
  (*278*) AddTo (T 60) (Plain (Einsum [(n_t1'aa,[0;1]); (n_v'aaaa'vvvv,[2;3;4;1])] [0;2;3;4]));
  (*279*) Assign (T 61) (Plain (Zeros [4;4;5;5]));
  (*280*) AddTo (T 61) (Plain (Einsum [(n_t1'aa,[0;1]); (T 60,[2;3;1;4])] [0;2;3;4]));
  (*281*) Del (T 60);
  (*282*) Assign (T 62) (Plain (Zeros [4;4;5;5]));
  (*283*) AddTo (T 62) (Plain (Einsum [(n_t2'aaaa,[0;1;2;3]); (T 12,[1;4;5;3])] [4;0;5;2]));
  (*284*) Assign (T 63) (Plain (Zeros [4;4;5;5]));
  (*285*) AddTo (T 63) (Times (Einsum [(n_t2'aaaa,[0;1;2;3]); (T 62,[1;4;3;5])] [0;4;2;5]) (-4) 1);
  (*286*) Del (T 62);
  (*287*) Assign (T 64) (Plain (Zeros [4;6;5;7]));
  (*288*) AddTo (T 64) (Plain (Einsum [(n_t2'abab,[0;1;2;3]); (T 8,[1;4;3;5])] [0;4;2;5]));
  (*289*) Del (T 8);
  (*290*) Assign (T 65) (Plain (Zeros [4;4;5;5]));
  (*291*) AddTo (T 65) (Times (Einsum [(n_t2'abab,[0;1;2;3]); (T 64,[4;1;5;3])] [0;4;2;5]) (-1) 1);
  (*292*) Del (T 64);
  (*293*) Assign (T 66) (Plain (Zeros [5;5]));
  (*294*) AddTo (T 66) (Plain (Einsum [(n_t1'bb,[0;1]); (n_v'aabb'vvov,[2;3;0;1])] [2;3]));
  (*295*) Assign (T 67) (Plain (Zeros [5;5]));
  (*296*) AddTo (T 67) (Plain (Einsum [(n_t2'aaaa,[0;1;2;3]); (n_v'aaaa'ovov,[0;4;1;3])] [2;4]));
  (*297*) Assign (T 68) (Plain (Zeros [5;5]));
  (*298*) AddTo (T 68) (Plain (Einsum [(n_t2'abab,[0;1;2;3]); (n_v'aabb'ovov,[0;4;1;3])] [2;4]));
  (*299*) Assign (T 69) (Plain (Zeros [4;5;5;5]));
  (*300*) AddTo (T 69) (Times (Einsum [(n_v'aaaa'ovvv,[0;1;2;3])] [0;1;2;3]) (-1) 1);
  (*301*) AddTo (T 69) (Plain (Einsum [(n_v'aaaa'ovvv,[0;1;2;3])] [0;2;1;3]));
  (*302*) Assign (T 70) (Plain (Zeros [5;5]));
  (*303*) AddTo (T 70) (Plain (Einsum [(n_t1'aa,[0;1]); (T 69,[0;2;1;3])] [2;3]));
  (*304*) Del (T 69);
  (*305*) Assign (T 71) (Plain (Zeros [5;5]));
  (*306*) AddTo (T 71) (Times (Einsum [(T 66,[0;1])] [1;0]) (-1) 1);
  (*307*) AddTo (T 71) (Times (Einsum [(T 67,[0;1])] [1;0]) (2) 1);
  (*308*) AddTo (T 71) (Plain (Einsum [(T 68,[0;1])] [1;0]));
  (*309*) AddTo (T 71) (Times (Einsum [(T 70,[0;1])] [0;1]) (-1) 1);
  (*310*) Assign (T 72) (Plain (Zeros [4;4;5;5]));
  (*311*) AddTo (T 72) (Times (Einsum [(T 71,[0;1]); (n_t2'aaaa,[2;3;4;0])] [2;3;4;1]) (-2) 1);
  (*312*) Del (T 71);
  (*313*) Assign (T 73) (Plain (Zeros [4;4;4;5]));
  (*314*) AddTo (T 73) (Plain (Einsum [(n_t2'aaaa,[0;1;2;3]); (n_v'aaaa'ovvv,[4;2;5;3])] [0;1;4;5]));
  (*315*) Assign (T 74) (Plain (Zeros [4;4;4;5]));
  (*316*) AddTo (T 74) (Times (Einsum [(T 14,[0;1]); (n_t2'aaaa,[2;3;4;1])] [0;2;3;4]) (-2) 1);
  (*317*) Assign (T 75) (Plain (Zeros [4;4;4;4]));
  (*318*) AddTo (T 75) (Plain (Einsum [(n_t1'aa,[0;1]); (T 26,[2;3;4;1])] [2;0;4;3]));
  (*319*) Del (T 26);
  (*320*) Assign (T 76) (Plain (Zeros [4;4;4;4]));
  (*321*) AddTo (T 76) (Plain (Einsum [(n_v'aaaa'oooo,[0;1;2;3])] [0;1;2;3]));
  (*322*) AddTo (T 76) (Plain (Einsum [(T 75,[0;1;2;3])] [3;1;2;0]));
  (*323*) Assign (T 77) (Plain (Zeros [4;4;4;5]));
  (*324*) AddTo (T 77) (Plain (Einsum [(n_t1'aa,[0;1]); (T 76,[0;2;3;4])] [2;3;4;1]));
  (*325*) Del (T 76);
  (*326*) Assign (T 78) (Plain (Zeros [4;4;4;5]));
  (*327*) AddTo (T 78) (Times (Einsum [(T 73,[0;1;2;3])] [2;1;0;3]) (-2) 1);
  (*328*) Del (T 73);
  (*329*) AddTo (T 78) (Times (Einsum [(T 74,[0;1;2;3])] [0;2;1;3]) (-1) 1);
  (*330*) Del (T 74);
  (*331*) AddTo (T 78) (Plain (Einsum [(T 77,[0;1;2;3])] [1;0;2;3]));
  (*332*) Del (T 77);
  (*333*) Assign (T 79) (Plain (Zeros [4;4;5;5]));
  (*334*) AddTo (T 79) (Plain (Einsum [(n_t1'aa,[0;1]); (T 78,[0;2;3;4])] [2;3;1;4]));
  (*335*) Del (T 78);
  (*336*) Assign (T 80) (Plain (Zeros [4;4;5;5]));
  (*337*) AddTo (T 80) (Plain (Einsum [(T 61,[0;1;2;3])] [0;1;2;3]));
  (*338*) Del (T 61);
  (*339*) AddTo (T 80) (Plain (Einsum [(T 63,[0;1;2;3])] [1;0;3;2]));
  (*340*) Del (T 63);
  (*341*) AddTo (T 80) (Plain (Einsum [(T 65,[0;1;2;3])] [1;0;3;2]));
  (*342*) Del (T 65);
  (*343*) AddTo (T 80) (Times (Einsum [(T 72,[0;1;2;3])] [1;0;2;3]) (-1) 1);
  (*344*) Del (T 72);
  (*345*) AddTo (T 80) (Plain (Einsum [(T 79,[0;1;2;3])] [1;0;2;3]));
  (*346*) Del (T 79);
  (*347*) AddTo n_t2new_aaaa (Plain (Einsum [(T 80,[0;1;2;3])] [0;1;2;3]));
  (*348*) AddTo n_t2new_aaaa (Times (Einsum [(T 80,[0;1;2;3])] [0;1;3;2]) (-1) 1);
  (*349*) Del (T 80);
  (*350*) Assign (T 81) (Plain (Zeros [4;4;5;5]));
  (*351*) AddTo (T 81) (Plain (Einsum [(n_f'aa'vv,[0;1]); (n_t2'aaaa,[2;3;4;1])] [2;3;0;4]));
  (*352*) Assign (T 82) (Plain (Zeros [4;4;5;5]));
  (*353*) AddTo (T 82) (Plain (Einsum [(n_v'aaaa'ovov,[0;1;2;3])] [0;2;1;3]));
  (*354*) AddTo (T 82) (Times (Einsum [(T 81,[0;1;2;3])] [1;0;3;2]) (-2) 1);
  (*355*) Del (T 81);
  (*356*) AddTo n_t2new_aaaa (Times (Einsum [(T 82,[0;1;2;3])] [0;1;3;2]) (-1) 1);
  (*357*) AddTo n_t2new_aaaa (Plain (Einsum [(T 82,[0;1;2;3])] [0;1;2;3]));
  (*358*) Del (T 82);
  (*359*) Assign (T 83) (Plain (Zeros [4;4;5;5]));
  (*360*) AddTo (T 83) (Plain (Einsum [(n_t1'aa,[0;1]); (n_v'aaaa'ooov,[2;0;3;4])] [2;3;1;4]));
  (*361*) Assign (T 84) (Plain (Zeros [4;4;5;5]));
  (*362*) AddTo (T 84) (Plain (Einsum [(n_t2'aaaa,[0;1;2;3]); (T 47,[4;5;0;1])] [4;5;2;3]));
  (*363*) Del (T 47);
  (*364*) Assign (T 85) (Plain (Zeros [4;4]));
  (*365*) AddTo (T 85) (Plain (Einsum [(n_f'aa'oo,[0;1])] [0;1]));
  (*366*) AddTo (T 85) (Plain (Einsum [(T 35,[0;1])] [0;1]));
  (*367*) Del (T 35);
  (*368*) Assign (T 86) (Plain (Zeros [4;4;5;5]));
  (*369*) AddTo (T 86) (Times (Einsum [(T 85,[0;1]); (n_t2'aaaa,[2;1;3;4])] [2;0;3;4]) (-2) 1);
  (*370*) Del (T 85);
  (*371*) Assign (T 87) (Plain (Zeros [4;4]));
  (*372*) AddTo (T 87) (Plain (Einsum [(T 30,[0;1])] [1;0]));
  (*373*) Del (T 30);
  (*374*) AddTo (T 87) (Times (Einsum [(T 31,[0;1])] [1;0]) (2) 1);
  (*375*) Del (T 31);
  (*376*) AddTo (T 87) (Plain (Einsum [(T 32,[0;1])] [1;0]));
  (*377*) Del (T 32);
  (*378*) AddTo (T 87) (Times (Einsum [(T 34,[0;1])] [1;0]) (-1) 1);
  (*379*) Del (T 34);
  (*380*) Assign (T 88) (Plain (Zeros [4;4;5;5]));
  (*381*) AddTo (T 88) (Times (Einsum [(T 87,[0;1]); (n_t2'aaaa,[2;0;3;4])] [2;1;3;4]) (-2) 1);
  (*382*) Del (T 87);
  (*383*) Assign (T 89) (Plain (Zeros [4;4;5;5]));
  (*384*) AddTo (T 89) (Times (Einsum [(T 83,[0;1;2;3])] [0;1;3;2]) (-1) 1);
  (*385*) Del (T 83);
  (*386*) AddTo (T 89) (Times (Einsum [(T 84,[0;1;2;3])] [0;1;3;2]) (-2) 1);
  (*387*) Del (T 84);
  (*388*) AddTo (T 89) (Times (Einsum [(T 86,[0;1;2;3])] [1;0;3;2]) (-1) 1);
  (*389*) Del (T 86);
  (*390*) AddTo (T 89) (Plain (Einsum [(T 88,[0;1;2;3])] [0;1;3;2]));
  (*391*) Del (T 88);
  (*392*) AddTo n_t2new_aaaa (Times (Einsum [(T 89,[0;1;2;3])] [0;1;2;3]) (-1) 1);
  (*393*) AddTo n_t2new_aaaa (Plain (Einsum [(T 89,[0;1;2;3])] [1;0;2;3]));
  (*394*) Del (T 89);
  (*395*) Assign (T 90) (Plain (Zeros [4;4;4;4]));
  (*396*) AddTo (T 90) (Plain (Einsum [(n_t2'aaaa,[0;1;2;3]); (n_v'aaaa'ovov,[4;2;5;3])] [0;1;4;5]));
  (*397*) Assign (T 91) (Plain (Zeros [4;4;4;4]));
  (*398*) AddTo (T 91) (Plain (Einsum [(n_v'aaaa'oooo,[0;1;2;3])] [0;1;2;3]));
  (*399*) AddTo (T 91) (Plain (Einsum [(T 90,[0;1;2;3])] [3;1;2;0]));
  (*400*) AddTo (T 91) (Plain (Einsum [(T 75,[0;1;2;3])] [3;1;2;0]));
  (*401*) Del (T 75);
  (*402*) AddTo n_t2new_aaaa (Times (Einsum [(n_t2'aaaa,[0;1;2;3]); (T 91,[0;4;1;5])] [4;5;2;3]) (2) 1);
  (*403*) Del (T 91);
  (*404*) Assign (T 92) (Plain (Zeros [4;4;4;5]));
  (*405*) AddTo (T 92) (Times (Einsum [(n_t1'aa,[0;1]); (T 90,[2;3;0;4])] [2;3;4;1]) (-2) 1);
  (*406*) Del (T 90);
  (*407*) AddTo (T 92) (Times (Einsum [(n_v'aaaa'ooov,[0;1;2;3])] [0;2;1;3]) (-1) 1);
  (*408*) AddTo (T 92) (Plain (Einsum [(n_v'aaaa'ooov,[0;1;2;3])] [2;0;1;3]));
  (*409*) AddTo n_t2new_aaaa (Plain (Einsum [(n_t1'aa,[0;1]); (T 92,[2;3;0;4])] [2;3;1;4]));
  (*410*) Del (T 92);
  (*411*) Assign (T 93) (Plain (Zeros [6;6;7;7]));
  (*412*) AddTo (T 93) (Times (Einsum [(n_v'bbbb'ovov,[0;1;2;3])] [0;2;3;1]) (-1) 1);
  (*413*) AddTo (T 93) (Plain (Einsum [(n_v'bbbb'ovov,[0;1;2;3])] [0;2;1;3]));
  (*414*) Assign (T 94) (Plain (Zeros [6;6;7;7]));
  (*415*) AddTo (T 94) (Plain (Einsum [(n_t2'bbbb,[0;1;2;3])] [0;1;2;3]));
  (*416*) AddTo (T 94) (Times (Einsum [(n_t1'bb,[0;1]); (n_t1'bb,[2;3])] [0;2;3;1]) (-1) 2);
  (*417*) Assign (T 95) (Plain (Zeros [6;7;7;7]));
  (*418*) AddTo (T 95) (Plain (Einsum [(n_v'bbbb'ovvv,[0;1;2;3])] [0;1;2;3]));
  (*419*) AddTo (T 95) (Times (Einsum [(n_v'bbbb'ovvv,[0;1;2;3])] [0;2;3;1]) (-1) 1);
  (*420*) Assign (T 96) (Plain (Zeros [6;6;7;7]));
  (*421*) AddTo (T 96) (Plain (Einsum [(n_v'bbbb'ovov,[0;1;2;3])] [0;2;1;3]));
  (*422*) AddTo (T 96) (Times (Einsum [(n_v'bbbb'oovv,[0;1;2;3])] [0;1;2;3]) (-1) 1);
  (*423*) AddTo (T 96) (Plain (Einsum [(n_t2'abab,[0;1;2;3]); (n_v'aabb'ovov,[0;2;4;5])] [4;1;5;3]));
  (*424*) AddTo (T 96) (Times (Einsum [(T 93,[0;1;2;3]); (T 94,[0;4;3;5])] [1;4;2;5]) (-2) 1);
  (*425*) AddTo (T 96) (Times (Einsum [(n_t1'bb,[0;1]); (T 95,[2;1;3;4])] [2;0;4;3]) (-1) 1);
  (*426*) AddTo (T 96) (Times (Einsum [(n_t1'bb,[0;1]); (T 19,[2;3;0;4])] [3;2;4;1]) (-1) 1);
  (*427*) Del (T 19);
  (*428*) AddTo n_t2new_abab (Plain (Einsum [(n_t2'abab,[0;1;2;3]); (T 96,[1;4;3;5])] [0;4;2;5]));
  (*429*) Del (T 96);
  (*430*) Assign (T 97) (Plain (Zeros [4;4;5;5]));
  (*431*) AddTo (T 97) (Plain (Einsum [(n_t2'aaaa,[0;1;2;3])] [0;1;2;3]));
  (*432*) AddTo (T 97) (Times (Einsum [(n_t1'aa,[0;1]); (n_t1'aa,[2;3])] [0;2;3;1]) (-1) 2);
  (*433*) Assign (T 98) (Plain (Zeros [4;5;5;5]));
  (*434*) AddTo (T 98) (Plain (Einsum [(n_v'aaaa'ovvv,[0;1;2;3])] [0;1;2;3]));
  (*435*) AddTo (T 98) (Times (Einsum [(n_v'aaaa'ovvv,[0;1;2;3])] [0;2;1;3]) (-1) 1);
  (*436*) Assign (T 99) (Plain (Zeros [4;4;4;5]));
  (*437*) AddTo (T 99) (Plain (Einsum [(n_v'aaaa'ooov,[0;1;2;3])] [0;1;2;3]));
  (*438*) AddTo (T 99) (Times (Einsum [(n_v'aaaa'ooov,[0;1;2;3])] [0;2;1;3]) (-1) 1);
  (*439*) Assign (T 100) (Plain (Zeros [4;4;5;5]));
  (*440*) AddTo (T 100) (Plain (Einsum [(n_v'aaaa'oovv,[0;1;2;3])] [0;1;2;3]));
  (*441*) AddTo (T 100) (Times (Einsum [(n_v'aaaa'ovov,[0;1;2;3])] [0;2;1;3]) (-1) 1);
  (*442*) AddTo (T 100) (Times (Einsum [(T 12,[0;1;2;3]); (T 97,[0;4;2;5])] [1;4;3;5]) (-2) 1);
  (*443*) AddTo (T 100) (Times (Einsum [(n_t1'aa,[0;1]); (T 98,[2;3;1;4])] [2;0;3;4]) (-1) 1);
  (*444*) Del (T 98);
  (*445*) AddTo (T 100) (Times (Einsum [(n_t1'aa,[0;1]); (T 99,[2;3;0;4])] [3;2;4;1]) (-1) 1);
  (*446*) Del (T 99);
  (*447*) AddTo n_t2new_abab (Times (Einsum [(n_t2'abab,[0;1;2;3]); (T 100,[0;4;2;5])] [4;1;5;3]) (-1) 1);
  (*448*) Del (T 100);
  (*449*) Assign (T 101) (Plain (Zeros [4;6;5;7]));
  (*450*) AddTo (T 101) (Plain (Einsum [(n_v'aabb'ovov,[0;1;2;3])] [0;2;1;3]));
  (*451*) AddTo (T 101) (Times (Einsum [(n_t1'aa,[0;1]); (n_v'aabb'ooov,[2;0;3;4])] [2;3;1;4]) (-1) 1);
  (*452*) AddTo (T 101) (Plain (Einsum [(T 40,[0;1;2;3])] [0;1;2;3]));
  (*453*) Del (T 40);
  (*454*) AddTo (T 101) (Times (Einsum [(n_v'aabb'ovov,[0;1;2;3]); (T 97,[0;4;1;5])] [4;2;5;3]) (2) 1);
  (*455*) AddTo n_t2new_abab (Times (Einsum [(n_t2'bbbb,[0;1;2;3]); (T 101,[4;1;5;3])] [4;0;5;2]) (2) 1);
  (*456*) Del (T 101);
  (*457*) Assign (T 102) (Plain (Zeros [4;4;7;7]));
  (*458*) AddTo (T 102) (Times (Einsum [(n_v'aabb'oovv,[0;1;2;3])] [0;1;2;3]) (-1) 1);
  (*459*) AddTo (T 102) (Plain (Einsum [(n_t1'bb,[0;1]); (n_v'aabb'ooov,[2;3;0;4])] [2;3;4;1]));
  (*460*) AddTo (T 102) (Times (Einsum [(n_t1'aa,[0;1]); (n_v'aabb'ovvv,[2;1;3;4])] [2;0;3;4]) (-1) 1);
  (*461*) AddTo (T 102) (Plain (Einsum [(n_v'aabb'ovov,[0;1;2;3]); (T 7,[4;2;1;5])] [0;4;3;5]));
  (*462*) AddTo n_t2new_abab (Plain (Einsum [(n_t2'abab,[0;1;2;3]); (T 102,[0;4;3;5])] [4;1;2;5]));
  (*463*) Del (T 102);
  (*464*) Assign (T 103) (Plain (Zeros [4;6;5;7]));
  (*465*) AddTo (T 103) (Plain (Einsum [(n_t1'bb,[0;1]); (n_v'aabb'ovvv,[2;3;4;1])] [2;0;3;4]));
  (*466*) Assign (T 104) (Plain (Zeros [4;6;5;7]));
  (*467*) AddTo (T 104) (Plain (Einsum [(n_v'aabb'ovov,[0;1;2;3])] [0;2;1;3]));
  (*468*) AddTo (T 104) (Plain (Einsum [(T 103,[0;1;2;3])] [0;1;2;3]));
  (*469*) AddTo (T 104) (Times (Einsum [(n_t1'bb,[0;1]); (T 5,[2;0;3;4])] [2;3;4;1]) (-1) 1);
  (*470*) Del (T 5);
  (*471*) AddTo n_t2new_abab (Times (Einsum [(T 104,[0;1;2;3]); (T 97,[0;4;2;5])] [4;1;5;3]) (2) 1);
  (*472*) Del (T 97);
  (*472*) Del (T 104);
  (*473*) Assign (T 105) (Plain (Zeros [6;6;5;5]));
  (*474*) AddTo (T 105) (Plain (Einsum [(n_t1'bb,[0;1]); (n_v'aabb'vvov,[2;3;4;1])] [0;4;2;3]));
  (*475*) Assign (T 106) (Plain (Zeros [4;6;6;5]));
  (*476*) AddTo (T 106) (Plain (Einsum [(n_v'aabb'ovoo,[0;1;2;3])] [0;2;3;1]));
  (*477*) AddTo (T 106) (Plain (Einsum [(T 4,[0;1;2;3])] [0;1;2;3]));
  (*478*) Assign (T 107) (Plain (Zeros [6;6;5;5]));
  (*479*) AddTo (T 107) (Plain (Einsum [(n_v'aabb'vvoo,[0;1;2;3])] [2;3;0;1]));
  (*480*) AddTo (T 107) (Plain (Einsum [(T 105,[0;1;2;3])] [1;0;3;2]));
  (*481*) AddTo (T 107) (Times (Einsum [(n_t1'aa,[0;1]); (T 106,[0;2;3;4])] [3;2;4;1]) (-1) 1);
  (*482*) Del (T 106);
  (*483*) AddTo n_t2new_abab (Times (Einsum [(n_t2'abab,[0;1;2;3]); (T 107,[1;4;2;5])] [0;4;5;3]) (-1) 1);
  (*484*) Del (T 107);
  (*485*) Assign (T 108) (Plain (Zeros [5;5;7;7]));
  (*486*) AddTo (T 108) (Times (Einsum [(n_v'aabb'vvvv,[0;1;2;3])] [0;1;2;3]) (-1) 1);
  (*487*) AddTo (T 108) (Plain (Einsum [(n_t1'aa,[0;1]); (n_v'aabb'ovvv,[0;2;3;4])] [2;1;3;4]));
  (*488*) AddTo (T 108) (Plain (Einsum [(n_t1'bb,[0;1]); (n_v'aabb'vvov,[2;3;0;4])] [2;3;4;1]));
  (*489*) AddTo n_t2new_abab (Times (Einsum [(n_t2'abab,[0;1;2;3]); (T 108,[2;4;3;5])] [0;1;4;5]) (-1) 1);
  (*490*) Del (T 108);
  (*491*) Assign (T 109) (Plain (Zeros [4;4;6;6]));
  (*492*) AddTo (T 109) (Plain (Einsum [(n_t1'bb,[0;1]); (n_v'aabb'ooov,[2;3;4;1])] [2;3;0;4]));
  (*493*) Assign (T 110) (Plain (Zeros [4;4;6;6]));
  (*494*) AddTo (T 110) (Plain (Einsum [(n_v'aabb'oooo,[0;1;2;3])] [0;1;2;3]));
  (*495*) AddTo (T 110) (Plain (Einsum [(n_t1'aa,[0;1]); (n_v'aabb'ovoo,[2;1;3;4])] [2;0;3;4]));
  (*496*) AddTo (T 110) (Plain (Einsum [(T 109,[0;1;2;3])] [1;0;3;2]));
  (*497*) AddTo (T 110) (Plain (Einsum [(n_v'aabb'ovov,[0;1;2;3]); (T 7,[4;5;1;3])] [0;4;2;5]));
  (*498*) Del (T 7);
  (*499*) AddTo n_t2new_abab (Plain (Einsum [(n_t2'abab,[0;1;2;3]); (T 110,[0;4;1;5])] [4;5;2;3]));
  (*500*) Del (T 110);
  (*501*) Assign (T 111) (Plain (Zeros [7;7]));
  (*502*) AddTo (T 111) (Plain (Einsum [(n_t1'aa,[0;1]); (n_v'aabb'ovvv,[0;1;2;3])] [2;3]));
  (*503*) Assign (T 112) (Plain (Zeros [7;7]));
  (*504*) AddTo (T 112) (Plain (Einsum [(n_t2'abab,[0;1;2;3]); (n_v'aabb'ovov,[0;2;1;4])] [3;4]));
  (*505*) Assign (T 113) (Plain (Zeros [7;7]));
  (*506*) AddTo (T 113) (Times (Einsum [(n_t2'bbbb,[0;1;2;3]); (n_v'bbbb'ovov,[0;3;1;4])] [2;4]) (-1) 1);
  (*507*) Assign (T 114) (Plain (Zeros [7;7]));
  (*508*) AddTo (T 114) (Plain (Einsum [(n_t1'bb,[0;1]); (T 95,[0;1;2;3])] [2;3]));
  (*509*) Del (T 95);
  (*510*) Assign (T 115) (Plain (Zeros [7;7]));
  (*511*) AddTo (T 115) (Times (Einsum [(n_f'bb'vv,[0;1])] [0;1]) (-1) 1);
  (*512*) AddTo (T 115) (Times (Einsum [(T 111,[0;1])] [1;0]) (-1) 1);
  (*513*) AddTo (T 115) (Plain (Einsum [(T 112,[0;1])] [1;0]));
  (*514*) AddTo (T 115) (Times (Einsum [(T 113,[0;1])] [1;0]) (2) 1);
  (*515*) AddTo (T 115) (Times (Einsum [(T 114,[0;1])] [1;0]) (-1) 1);
  (*516*) AddTo (T 115) (Plain (Einsum [(n_t1'bb,[0;1]); (T 10,[0;2])] [2;1]));
  (*517*) AddTo n_t2new_abab (Times (Einsum [(T 115,[0;1]); (n_t2'abab,[2;3;4;0])] [2;3;4;1]) (-1) 1);
  (*518*) Del (T 115);
  (*519*) Assign (T 116) (Plain (Zeros [5;5]));
  (*520*) AddTo (T 116) (Times (Einsum [(n_f'aa'vv,[0;1])] [0;1]) (-1) 1);
  (*521*) AddTo (T 116) (Times (Einsum [(T 66,[0;1])] [1;0]) (-1) 1);
  (*522*) Del (T 66);
  (*523*) AddTo (T 116) (Times (Einsum [(T 67,[0;1])] [1;0]) (2) 1);
  (*524*) Del (T 67);
  (*525*) AddTo (T 116) (Plain (Einsum [(T 68,[0;1])] [1;0]));
  (*526*) Del (T 68);
  (*527*) AddTo (T 116) (Times (Einsum [(T 70,[0;1])] [0;1]) (-1) 1);
  (*528*) Del (T 70);
  (*529*) AddTo (T 116) (Plain (Einsum [(n_t1'aa,[0;1]); (T 14,[0;2])] [2;1]));
  (*530*) Del (T 14);
  (*531*) AddTo n_t2new_abab (Times (Einsum [(T 116,[0;1]); (n_t2'abab,[2;3;0;4])] [2;3;1;4]) (-1) 1);
  (*532*) Del (T 116);
  (*533*) Assign (T 117) (Plain (Zeros [6;6;5;5]));
  (*534*) AddTo (T 117) (Plain (Einsum [(n_v'aabb'vvoo,[0;1;2;3])] [2;3;0;1]));
  (*535*) AddTo (T 117) (Plain (Einsum [(T 105,[0;1;2;3])] [0;1;3;2]));
  (*536*) Del (T 105);
  (*537*) Assign (T 118) (Plain (Zeros [4;4;6;6]));
  (*538*) AddTo (T 118) (Plain (Einsum [(n_v'aabb'oooo,[0;1;2;3])] [0;1;2;3]));
  (*539*) AddTo (T 118) (Plain (Einsum [(T 109,[0;1;2;3])] [1;0;2;3]));
  (*540*) Del (T 109);
  (*541*) AddTo (T 118) (Plain (Einsum [(n_t2'abab,[0;1;2;3]); (n_v'aabb'ovov,[4;2;5;3])] [4;0;1;5]));
  (*542*) Assign (T 119) (Plain (Zeros [4;6;6;5]));
  (*543*) AddTo (T 119) (Plain (Einsum [(n_v'aabb'ovoo,[0;1;2;3])] [0;2;3;1]));
  (*544*) AddTo (T 119) (Plain (Einsum [(T 4,[0;1;2;3])] [0;2;1;3]));
  (*545*) AddTo (T 119) (Plain (Einsum [(n_t1'aa,[0;1]); (T 117,[2;3;1;4])] [0;3;2;4]));
  (*546*) Del (T 117);
  (*547*) AddTo (T 119) (Times (Einsum [(n_t1'aa,[0;1]); (T 118,[0;2;3;4])] [2;4;3;1]) (-1) 1);
  (*548*) Del (T 118);
  (*549*) AddTo n_t2new_abab (Times (Einsum [(n_t1'bb,[0;1]); (T 119,[2;0;3;4])] [2;3;4;1]) (-1) 1);
  (*550*) Del (T 119);
  (*551*) Assign (T 120) (Plain (Zeros [4;5;7;7]));
  (*552*) AddTo (T 120) (Plain (Einsum [(n_v'aabb'ovvv,[0;1;2;3])] [0;1;2;3]));
  (*553*) AddTo (T 120) (Plain (Einsum [(n_t1'aa,[0;1]); (n_v'aabb'vvvv,[2;1;3;4])] [0;2;3;4]));
  (*554*) AddTo n_t2new_abab (Plain (Einsum [(n_t1'bb,[0;1]); (T 120,[2;3;1;4])] [2;0;3;4]));
  (*555*) Del (T 120);
  (*556*) Assign (T 121) (Plain (Zeros [4;4;6;7]));
  (*557*) AddTo (T 121) (Plain (Einsum [(n_v'aabb'ooov,[0;1;2;3])] [0;1;2;3]));
  (*558*) AddTo (T 121) (Plain (Einsum [(n_t1'bb,[0;1]); (n_v'aabb'oovv,[2;3;4;1])] [2;3;0;4]));
  (*559*) AddTo n_t2new_abab (Times (Einsum [(n_t1'aa,[0;1]); (T 121,[0;2;3;4])] [2;3;1;4]) (-1) 1);
  (*560*) Del (T 121);
  (*561*) Assign (T 122) (Plain (Zeros [6;6;7;7]));
  (*562*) AddTo (T 122) (Plain (Einsum [(n_t1'bb,[0;1]); (n_v'bbbb'ovvv,[2;3;4;1])] [0;2;3;4]));
  (*563*) Assign (T 123) (Plain (Zeros [6;6;7;7]));
  (*564*) AddTo (T 123) (Plain (Einsum [(n_t2'abab,[0;1;2;3]); (T 103,[0;4;2;5])] [4;1;3;5]));
  (*565*) Del (T 103);
  (*566*) Assign (T 124) (Plain (Zeros [6;6;7;7]));
  (*567*) AddTo (T 124) (Times (Einsum [(T 15,[0;1;2;3]); (T 94,[0;4;2;5])] [1;4;3;5]) (2) 1);
  (*568*) Del (T 15);
  (*568*) Del (T 94);
  (*569*) Assign (T 125) (Plain (Zeros [4;6;5;7]));
  (*570*) AddTo (T 125) (Plain (Einsum [(n_t2'bbbb,[0;1;2;3]); (n_v'aabb'ovov,[4;5;1;3])] [4;0;5;2]));
  (*571*) Assign (T 126) (Plain (Zeros [4;6;5;7]));
  (*572*) AddTo (T 126) (Plain (Einsum [(n_v'aabb'ovov,[0;1;2;3])] [0;2;1;3]));
  (*573*) AddTo (T 126) (Times (Einsum [(T 125,[0;1;2;3])] [0;1;2;3]) (2) 1);
  (*574*) Del (T 125);
  (*575*) Assign (T 127) (Plain (Zeros [6;6;7;7]));
  (*576*) AddTo (T 127) (Plain (Einsum [(n_t2'abab,[0;1;2;3]); (T 126,[0;4;2;5])] [1;4;3;5]));
  (*577*) Del (T 126);
  (*578*) Assign (T 128) (Plain (Zeros [6;7;7;7]));
  (*579*) AddTo (T 128) (Times (Einsum [(n_v'bbbb'ovvv,[0;1;2;3])] [0;1;2;3]) (-1) 1);
  (*580*) AddTo (T 128) (Plain (Einsum [(n_v'bbbb'ovvv,[0;1;2;3])] [0;2;1;3]));
  (*581*) Assign (T 129) (Plain (Zeros [6;6;7;7]));
  (*582*) AddTo (T 129) (Plain (Einsum [(n_t1'bb,[0;1]); (T 128,[2;3;1;4])] [0;2;3;4]));
  (*583*) Del (T 128);
  (*584*) Assign (T 130) (Plain (Zeros [6;6;7;7]));
  (*585*) AddTo (T 130) (Times (Einsum [(n_t2'bbbb,[0;1;2;3]); (T 129,[4;1;3;5])] [0;4;2;5]) (-2) 1);
  (*586*) Del (T 129);
  (*587*) Assign (T 131) (Plain (Zeros [6;6;6;7]));
  (*588*) AddTo (T 131) (Plain (Einsum [(n_t2'abab,[0;1;2;3]); (n_v'aabb'ovoo,[0;2;4;5])] [1;4;5;3]));
  (*589*) Assign (T 132) (Plain (Zeros [6;6;6;6]));
  (*590*) AddTo (T 132) (Plain (Einsum [(n_t1'bb,[0;1]); (n_v'bbbb'ooov,[2;3;4;1])] [0;2;3;4]));
  (*591*) Assign (T 133) (Plain (Zeros [6;6;6;7]));
  (*592*) AddTo (T 133) (Plain (Einsum [(n_t1'bb,[0;1]); (T 132,[2;3;4;0])] [2;4;3;1]));
  (*593*) Assign (T 134) (Plain (Zeros [6;6;6;7]));
  (*594*) AddTo (T 134) (Plain (Einsum [(n_t1'bb,[0;1]); (T 122,[2;3;1;4])] [0;2;3;4]));
  (*595*) Assign (T 135) (Plain (Zeros [6;6;6;7]));
  (*596*) AddTo (T 135) (Plain (Einsum [(n_t2'abab,[0;1;2;3]); (T 4,[0;4;5;2])] [4;1;5;3]));
  (*597*) Del (T 4);
  (*598*) Assign (T 136) (Plain (Zeros [6;6;6;7]));
  (*599*) AddTo (T 136) (Times (Einsum [(n_v'bbbb'ooov,[0;1;2;3])] [0;1;2;3]) (-1) 1);
  (*600*) AddTo (T 136) (Plain (Einsum [(n_v'bbbb'ooov,[0;1;2;3])] [2;0;1;3]));
  (*601*) Assign (T 137) (Plain (Zeros [6;6;6;7]));
  (*602*) AddTo (T 137) (Times (Einsum [(n_t2'bbbb,[0;1;2;3]); (T 136,[1;4;5;3])] [0;4;5;2]) (2) 1);
  (*603*) Del (T 136);
  (*604*) Assign (T 138) (Plain (Zeros [6;6;6;7]));
  (*605*) AddTo (T 138) (Times (Einsum [(T 2,[0;1;2;3])] [0;1;2;3]) (-1) 1);
  (*606*) AddTo (T 138) (Plain (Einsum [(T 2,[0;1;2;3])] [0;2;1;3]));
  (*607*) Assign (T 139) (Plain (Zeros [6;6;6;7]));
  (*608*) AddTo (T 139) (Times (Einsum [(n_t2'bbbb,[0;1;2;3]); (T 138,[4;1;5;3])] [0;4;5;2]) (2) 1);
  (*609*) Del (T 138);
  (*610*) Assign (T 140) (Plain (Zeros [6;6;6;7]));
  (*611*) AddTo (T 140) (Times (Einsum [(T 131,[0;1;2;3])] [0;2;1;3]) (-1) 1);
  (*612*) Del (T 131);
  (*613*) AddTo (T 140) (Plain (Einsum [(T 133,[0;1;2;3])] [0;2;1;3]));
  (*614*) Del (T 133);
  (*615*) AddTo (T 140) (Plain (Einsum [(T 134,[0;1;2;3])] [0;2;1;3]));
  (*616*) Del (T 134);
  (*617*) AddTo (T 140) (Plain (Einsum [(T 135,[0;1;2;3])] [0;2;1;3]));
  (*618*) Del (T 135);
  (*619*) AddTo (T 140) (Times (Einsum [(T 137,[0;1;2;3])] [0;2;1;3]) (-1) 1);
  (*620*) Del (T 137);
  (*621*) AddTo (T 140) (Times (Einsum [(T 139,[0;1;2;3])] [1;2;0;3]) (-1) 1);
  (*622*) Del (T 139);
  (*623*) Assign (T 141) (Plain (Zeros [6;6;7;7]));
  (*624*) AddTo (T 141) (Plain (Einsum [(n_t1'bb,[0;1]); (T 140,[2;0;3;4])] [2;3;1;4]));
  (*625*) Del (T 140);
  (*626*) Assign (T 142) (Plain (Zeros [6;6;7;7]));
  (*627*) AddTo (T 142) (Plain (Einsum [(T 122,[0;1;2;3])] [0;1;2;3]));
  (*628*) Del (T 122);
  (*629*) AddTo (T 142) (Plain (Einsum [(T 123,[0;1;2;3])] [0;1;2;3]));
  (*630*) Del (T 123);
  (*631*) AddTo (T 142) (Plain (Einsum [(T 124,[0;1;2;3])] [1;0;3;2]));
  (*632*) Del (T 124);
  (*633*) AddTo (T 142) (Times (Einsum [(T 127,[0;1;2;3])] [0;1;2;3]) (-1) 1);
  (*634*) Del (T 127);
  (*635*) AddTo (T 142) (Plain (Einsum [(T 130,[0;1;2;3])] [1;0;2;3]));
  (*636*) Del (T 130);
  (*637*) AddTo (T 142) (Plain (Einsum [(T 141,[0;1;2;3])] [0;1;2;3]));
  (*638*) Del (T 141);
  (*639*) AddTo n_t2new_bbbb (Times (Einsum [(T 142,[0;1;2;3])] [0;1;2;3]) (-1) 1);
  (*640*) AddTo n_t2new_bbbb (Plain (Einsum [(T 142,[0;1;2;3])] [0;1;3;2]));
  (*641*) AddTo n_t2new_bbbb (Plain (Einsum [(T 142,[0;1;2;3])] [1;0;2;3]));
  (*642*) AddTo n_t2new_bbbb (Times (Einsum [(T 142,[0;1;2;3])] [1;0;3;2]) (-1) 1);
  (*643*) Del (T 142);
  (*644*) Assign (T 143) (Plain (Zeros [6;6;7;7]));
  (*645*) AddTo (T 143) (Plain (Einsum [(n_t1'bb,[0;1]); (n_v'bbbb'ooov,[2;0;3;4])] [2;3;1;4]));
  (*646*) Assign (T 144) (Plain (Zeros [6;6;7;7]));
  (*647*) AddTo (T 144) (Plain (Einsum [(n_t2'bbbb,[0;1;2;3]); (T 132,[4;5;0;1])] [4;5;2;3]));
  (*648*) Del (T 132);
  (*649*) Assign (T 145) (Plain (Zeros [6;6]));
  (*650*) AddTo (T 145) (Plain (Einsum [(n_f'bb'oo,[0;1])] [0;1]));
  (*651*) AddTo (T 145) (Plain (Einsum [(T 21,[0;1])] [0;1]));
  (*652*) Del (T 21);
  (*653*) Assign (T 146) (Plain (Zeros [6;6;7;7]));
  (*654*) AddTo (T 146) (Times (Einsum [(T 145,[0;1]); (n_t2'bbbb,[2;1;3;4])] [2;0;3;4]) (-2) 1);
  (*655*) Del (T 145);
  (*656*) Assign (T 147) (Plain (Zeros [6;6]));
  (*657*) AddTo (T 147) (Plain (Einsum [(T 16,[0;1])] [1;0]));
  (*658*) Del (T 16);
  (*659*) AddTo (T 147) (Plain (Einsum [(T 17,[0;1])] [1;0]));
  (*660*) Del (T 17);
  (*661*) AddTo (T 147) (Times (Einsum [(T 18,[0;1])] [1;0]) (2) 1);
  (*662*) Del (T 18);
  (*663*) AddTo (T 147) (Times (Einsum [(T 20,[0;1])] [1;0]) (-1) 1);
  (*664*) Del (T 20);
  (*665*) Assign (T 148) (Plain (Zeros [6;6;7;7]));
  (*666*) AddTo (T 148) (Times (Einsum [(T 147,[0;1]); (n_t2'bbbb,[2;0;3;4])] [2;1;3;4]) (-2) 1);
  (*667*) Del (T 147);
  (*668*) Assign (T 149) (Plain (Zeros [6;6;7;7]));
  (*669*) AddTo (T 149) (Times (Einsum [(T 143,[0;1;2;3])] [0;1;3;2]) (-1) 1);
  (*670*) Del (T 143);
  (*671*) AddTo (T 149) (Times (Einsum [(T 144,[0;1;2;3])] [0;1;3;2]) (-2) 1);
  (*672*) Del (T 144);
  (*673*) AddTo (T 149) (Times (Einsum [(T 146,[0;1;2;3])] [1;0;3;2]) (-1) 1);
  (*674*) Del (T 146);
  (*675*) AddTo (T 149) (Plain (Einsum [(T 148,[0;1;2;3])] [0;1;3;2]));
  (*676*) Del (T 148);
  (*677*) AddTo n_t2new_bbbb (Times (Einsum [(T 149,[0;1;2;3])] [0;1;2;3]) (-1) 1);
  (*678*) AddTo n_t2new_bbbb (Plain (Einsum [(T 149,[0;1;2;3])] [1;0;2;3]));
  (*679*) Del (T 149);
  (*680*) Assign (T 150) (Plain (Zeros [6;7;7;7]));
  (*681*) AddTo (T 150) (Plain (Einsum [(n_t1'bb,[0;1]); (n_v'bbbb'vvvv,[2;3;4;1])] [0;2;3;4]));
  (*682*) Assign (T 151) (Plain (Zeros [6;6;7;7]));
  (*683*) AddTo (T 151) (Plain (Einsum [(n_t1'bb,[0;1]); (T 150,[2;3;1;4])] [0;2;3;4]));
  (*684*) Del (T 150);
  (*685*) Assign (T 152) (Plain (Zeros [6;6;7;7]));
  (*686*) AddTo (T 152) (Plain (Einsum [(n_t2'bbbb,[0;1;2;3]); (T 93,[1;4;5;3])] [0;4;2;5]));
  (*687*) Del (T 93);
  (*688*) Assign (T 153) (Plain (Zeros [6;6;7;7]));
  (*689*) AddTo (T 153) (Times (Einsum [(n_t2'bbbb,[0;1;2;3]); (T 152,[4;1;5;3])] [0;4;2;5]) (-4) 1);
  (*690*) Del (T 152);
  (*691*) Assign (T 154) (Plain (Zeros [7;7]));
  (*692*) AddTo (T 154) (Times (Einsum [(T 111,[0;1])] [1;0]) (-1) 1);
  (*693*) Del (T 111);
  (*694*) AddTo (T 154) (Plain (Einsum [(T 112,[0;1])] [1;0]));
  (*695*) Del (T 112);
  (*696*) AddTo (T 154) (Times (Einsum [(T 113,[0;1])] [1;0]) (2) 1);
  (*697*) Del (T 113);
  (*698*) AddTo (T 154) (Times (Einsum [(T 114,[0;1])] [1;0]) (-1) 1);
  (*699*) Del (T 114);
  (*700*) Assign (T 155) (Plain (Zeros [6;6;7;7]));
  (*701*) AddTo (T 155) (Times (Einsum [(T 154,[0;1]); (n_t2'bbbb,[2;3;4;0])] [2;3;4;1]) (-2) 1);
  (*702*) Del (T 154);
  (*703*) Assign (T 156) (Plain (Zeros [6;6;6;7]));
  (*704*) AddTo (T 156) (Plain (Einsum [(n_t2'bbbb,[0;1;2;3]); (n_v'bbbb'ovvv,[4;2;5;3])] [0;1;4;5]));
  (*705*) Assign (T 157) (Plain (Zeros [6;6;6;7]));
  (*706*) AddTo (T 157) (Times (Einsum [(T 10,[0;1]); (n_t2'bbbb,[2;3;4;1])] [2;3;0;4]) (-2) 1);
  (*707*) Del (T 10);
  (*708*) Assign (T 158) (Plain (Zeros [6;6;6;6]));
  (*709*) AddTo (T 158) (Plain (Einsum [(n_t1'bb,[0;1]); (T 2,[2;3;4;1])] [2;0;4;3]));
  (*710*) Del (T 2);
  (*711*) Assign (T 159) (Plain (Zeros [6;6;6;6]));
  (*712*) AddTo (T 159) (Plain (Einsum [(n_v'bbbb'oooo,[0;1;2;3])] [0;1;2;3]));
  (*713*) AddTo (T 159) (Plain (Einsum [(T 158,[0;1;2;3])] [3;1;2;0]));
  (*714*) Assign (T 160) (Plain (Zeros [6;6;6;7]));
  (*715*) AddTo (T 160) (Plain (Einsum [(n_t1'bb,[0;1]); (T 159,[0;2;3;4])] [2;3;4;1]));
  (*716*) Del (T 159);
  (*717*) Assign (T 161) (Plain (Zeros [6;6;6;7]));
  (*718*) AddTo (T 161) (Times (Einsum [(T 156,[0;1;2;3])] [2;1;0;3]) (-2) 1);
  (*719*) Del (T 156);
  (*720*) AddTo (T 161) (Times (Einsum [(T 157,[0;1;2;3])] [2;1;0;3]) (-1) 1);
  (*721*) Del (T 157);
  (*722*) AddTo (T 161) (Plain (Einsum [(T 160,[0;1;2;3])] [1;0;2;3]));
  (*723*) Del (T 160);
  (*724*) Assign (T 162) (Plain (Zeros [6;6;7;7]));
  (*725*) AddTo (T 162) (Plain (Einsum [(n_t1'bb,[0;1]); (T 161,[0;2;3;4])] [2;3;1;4]));
  (*726*) Del (T 161);
  (*727*) Assign (T 163) (Plain (Zeros [6;6;7;7]));
  (*728*) AddTo (T 163) (Plain (Einsum [(T 151,[0;1;2;3])] [0;1;2;3]));
  (*729*) Del (T 151);
  (*730*) AddTo (T 163) (Plain (Einsum [(T 153,[0;1;2;3])] [1;0;3;2]));
  (*731*) Del (T 153);
  (*732*) AddTo (T 163) (Times (Einsum [(T 155,[0;1;2;3])] [1;0;2;3]) (-1) 1);
  (*733*) Del (T 155);
  (*734*) AddTo (T 163) (Plain (Einsum [(T 162,[0;1;2;3])] [1;0;2;3]));
  (*735*) Del (T 162);
  (*736*) AddTo n_t2new_bbbb (Plain (Einsum [(T 163,[0;1;2;3])] [0;1;2;3]));
  (*737*) AddTo n_t2new_bbbb (Times (Einsum [(T 163,[0;1;2;3])] [0;1;3;2]) (-1) 1);
  (*738*) Del (T 163);
  (*739*) Assign (T 164) (Plain (Zeros [6;6;7;7]));
  (*740*) AddTo (T 164) (Plain (Einsum [(n_f'bb'vv,[0;1]); (n_t2'bbbb,[2;3;4;1])] [2;3;0;4]));
  (*741*) Assign (T 165) (Plain (Zeros [4;6;5;7]));
  (*742*) AddTo (T 165) (Plain (Einsum [(n_t2'abab,[0;1;2;3]); (T 12,[0;4;5;2])] [4;1;5;3]));
  (*743*) Del (T 12);
  (*744*) Assign (T 166) (Plain (Zeros [6;6;7;7]));
  (*745*) AddTo (T 166) (Times (Einsum [(n_t2'abab,[0;1;2;3]); (T 165,[0;4;2;5])] [1;4;3;5]) (-1) 1);
  (*746*) Del (T 165);
  (*747*) Assign (T 167) (Plain (Zeros [6;6;7;7]));
  (*748*) AddTo (T 167) (Plain (Einsum [(n_v'bbbb'ovov,[0;1;2;3])] [0;2;1;3]));
  (*749*) AddTo (T 167) (Times (Einsum [(T 164,[0;1;2;3])] [1;0;3;2]) (-2) 1);
  (*750*) Del (T 164);
  (*751*) AddTo (T 167) (Plain (Einsum [(T 166,[0;1;2;3])] [0;1;2;3]));
  (*752*) Del (T 166);
  (*753*) AddTo n_t2new_bbbb (Times (Einsum [(T 167,[0;1;2;3])] [0;1;3;2]) (-1) 1);
  (*754*) AddTo n_t2new_bbbb (Plain (Einsum [(T 167,[0;1;2;3])] [0;1;2;3]));
  (*755*) Del (T 167);
  (*756*) Assign (T 168) (Plain (Zeros [6;6;6;6]));
  (*757*) AddTo (T 168) (Plain (Einsum [(n_t2'bbbb,[0;1;2;3]); (n_v'bbbb'ovov,[4;2;5;3])] [0;1;4;5]));
  (*758*) Assign (T 169) (Plain (Zeros [6;6;6;6]));
  (*759*) AddTo (T 169) (Plain (Einsum [(n_v'bbbb'oooo,[0;1;2;3])] [0;1;2;3]));
  (*760*) AddTo (T 169) (Plain (Einsum [(T 168,[0;1;2;3])] [3;1;0;2]));
  (*761*) AddTo (T 169) (Times (Einsum [(T 158,[0;1;2;3])] [2;1;0;3]) (-1) 1);
  (*762*) Del (T 158);
  (*763*) AddTo n_t2new_bbbb (Times (Einsum [(n_t2'bbbb,[0;1;2;3]); (T 169,[0;4;5;1])] [5;4;2;3]) (-2) 1);
  (*764*) Del (T 169);
  (*765*) Assign (T 170) (Plain (Zeros [6;6;6;7]));
  (*766*) AddTo (T 170) (Times (Einsum [(n_t1'bb,[0;1]); (T 168,[2;3;0;4])] [2;3;4;1]) (-2) 1);
  (*767*) Del (T 168);
  (*768*) AddTo (T 170) (Times (Einsum [(n_v'bbbb'ooov,[0;1;2;3])] [0;2;1;3]) (-1) 1);
  (*769*) AddTo (T 170) (Plain (Einsum [(n_v'bbbb'ooov,[0;1;2;3])] [2;0;1;3]));
  (*770*) AddTo n_t2new_bbbb (Plain (Einsum [(n_t1'bb,[0;1]); (T 170,[2;3;0;4])] [2;3;1;4]));
  (*771*) Del (T 170);
  (*773*) Assign n_t1new'aa (Plain (Copy n_t1new_aa));
  (*774*) Assign n_t1new'bb (Plain (Copy n_t1new_bb));
  (*775*) Assign n_t2new'aaaa (Plain (Copy n_t2new_aaaa));
  (*776*) Assign n_t2new'abab (Plain (Copy n_t2new_abab));
  (*777*) Assign n_t2new'bbbb (Plain (Copy n_t2new_bbbb))]
 [(n_t1new'aa,[4;5]); (n_t1new'bb,[6;7]); (n_t2new'aaaa,[4;4;5;5]); (n_t2new'abab,[4;6;5;7]); (n_t2new'bbbb,[6;6;7;7])].

