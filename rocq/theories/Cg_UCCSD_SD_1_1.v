(** Generated by tools/translate_codegen.py from ebcc/codegen/UCCSD_SD_1_1.py; one statement per source line
    (the number in the comment before it). *)
From Coq Require Import ZArith List.
From Verif Require Import CgModel CgNames.
Import ListNotations.

(** ebcc/codegen/UCCSD_SD_1_1.py:7-44 [energy] *)
Definition UCCSD_SD_1_1_energy : prog := mkprog
 [(n_v'bbbb'ovov,[6;7;6;7]); (n_t2'bbbb,[6;6;7;7]); (n_t1'bb,[6;7]); (n_v'aaaa'ovov,[4;5;4;5]); (n_t2'aaaa,[4;4;5;5]); (n_t1'aa,[4;5]); (n_t2'abab,[4;6;5;7]); (n_v'aabb'ovov,[4;5;6;7]); (n_G,[3]); (n_g'aa'bov,[3;4;5]); (n_g'bb'bov,[3;6;7]); (n_s1,[3]); (n_u11'aa,[3;4;5]); (n_u11'bb,[3;6;7]); (n_f'bb'ov,[6;7]); (n_f'aa'ov,[4;5])]
 [(*9*) Assign (T 1) (Plain (Zeros [6;6;7;7]));
  (*10*) AddTo (T 1) (Times (Einsum [(n_v'bbbb'ovov,[0;1;2;3])] [2;0;1;3]) (-1) 1);
  (*11*) AddTo (T 1) (Plain (Einsum [(n_v'bbbb'ovov,[0;1;2;3])] [2;0;3;1]));
  (*12*) Assign (T 2) (Plain (Zeros [6;6;7;7]));
  (*13*) AddTo (T 2) (Plain (Einsum [(n_t2'bbbb,[0;1;2;3])] [1;0;3;2]));
  (*14*) AddTo (T 2) (Plain (Einsum [(n_t1'bb,[0;1]); (n_t1'bb,[2;3])] [0;2;1;3]));
  (*15*) Assign n_e_cc (Plain (Zeros []));
  (*16*) AddTo n_e_cc (Times (Einsum [(T 1,[0;1;2;3]); (T 2,[0;1;3;2])] []) (-1) 2);
  (*17*) Del (T 1);
  (*18*) Del (T 2);
  (*19*) Assign (T 3) (Plain (Zeros [4;4;5;5]));
  (*20*) AddTo (T 3) (Plain (Einsum [(n_v'aaaa'ovov,[0;1;2;3])] [2;0;1;3]));
  (*21*) AddTo (T 3) (Times (Einsum [(n_v'aaaa'ovov,[0;1;2;3])] [2;0;3;1]) (-1) 1);
  (*22*) Assign (T 4) (Plain (Zeros [4;4;5;5]));
  (*23*) AddTo (T 4) (Plain (Einsum [(n_t2'aaaa,[0;1;2;3])] [1;0;3;2]));
  (*24*) AddTo (T 4) (Times (Einsum [(n_t1'aa,[0;1]); (n_t1'aa,[2;3])] [0;2;3;1]) (-1) 1);
  (*25*) AddTo n_e_cc (Times (Einsum [(T 3,[0;1;2;3]); (T 4,[0;1;2;3])] []) (-1) 2);
  (*26*) Del (T 3);
  (*27*) Del (T 4);
  (*28*) Assign (T 5) (Plain (Zeros [4;6;5;7]));
  (*29*) AddTo (T 5) (Plain (Einsum [(n_t2'abab,[0;1;2;3])] [0;1;2;3]));
  (*30*) AddTo (T 5) (Plain (Einsum [(n_t1'aa,[0;1]); (n_t1'bb,[2;3])] [0;2;1;3]));
  (*31*) AddTo n_e_cc (Plain (Einsum [(n_v'aabb'ovov,[0;1;2;3]); (T 5,[0;2;1;3])] []));
  (*32*) Del (T 5);
  (*33*) Assign (T 6) (Plain (Zeros [3]));
  (*34*) AddTo (T 6) (Plain (Einsum [(n_G,[0])] [0]));
  (*35*) AddTo (T 6) (Plain (Einsum [(n_t1'aa,[0;1]); (n_g'aa'bov,[2;0;1])] [2]));
  (*36*) AddTo (T 6) (Plain (Einsum [(n_t1'bb,[0;1]); (n_g'bb'bov,[2;0;1])] [2]));
  (*37*) AddTo n_e_cc (Plain (Einsum [(n_s1,[0]); (T 6,[0])] []));
  (*38*) Del (T 6);
  (*39*) AddTo n_e_cc (Plain (Einsum [(n_g'aa'bov,[0;1;2]); (n_u11'aa,[0;1;2])] []));
  (*40*) AddTo n_e_cc (Plain (Einsum [(n_g'bb'bov,[0;1;2]); (n_u11'bb,[0;1;2])] []));
  (*41*) AddTo n_e_cc (Plain (Einsum [(n_f'bb'ov,[0;1]); (n_t1'bb,[0;1])] []));
  (*42*) AddTo n_e_cc (Plain (Einsum [(n_f'aa'ov,[0;1]); (n_t1'aa,[0;1])] []))]
 [(n_e_cc,[])].

(** ebcc/codegen/UCCSD_SD_1_1.py:46-1489 [update_amps] *)
Definition UCCSD_SD_1_1_update_amps : prog := mkprog
 [(n_g'aa'boo,[3;4;4]); (n_g'aa'bvo,[3;5;4]); (n_g'aa'bov,[3;4;5]); (n_g'aa'bvv,[3;5;5]); (n_g'bb'boo,[3;6;6]); (n_g'bb'bvo,[3;7;6]); (n_g'bb'bov,[3;6;7]); (n_g'bb'bvv,[3;7;7]); (n_t1'aa,[4;5]); (n_v'aaaa'ovov,[4;5;4;5]); (n_t2'aaaa,[4;4;5;5]); (n_v'aaaa'ooov,[4;4;4;5]); (n_v'aaaa'ovvv,[4;5;5;5]); (n_v'aabb'ovov,[4;5;6;7]); (n_t2'abab,[4;6;5;7]); (n_v'aabb'ooov,[4;4;6;7]); (n_s1,[3]); (n_t1'bb,[6;7]); (n_u11'aa,[3;4;5]); (n_f'aa'ov,[4;5]); (n_t2'bbbb,[6;6;7;7]); (n_v'bbbb'ovov,[6;7;6;7]); (n_u11'bb,[3;6;7]); (n_f'bb'ov,[6;7]); (n_v'aaaa'ovvo,[4;5;5;4]); (n_v'aaaa'oovv,[4;4;5;5]); (n_f'aa'oo,[4;4]); (n_v'bbaa'ovvv,[6;7;5;5]); (n_f'aa'vv,[5;5]); (n_G,[3]); (n_s2,[3;3]); (n_v'bbbb'ooov,[6;6;6;7]); (n_v'bbbb'ovvv,[6;7;7;7]); (n_v'aabb'ovoo,[4;5;6;6]); (n_v'bbbb'ovvo,[6;7;7;6]); (n_v'bbbb'oovv,[6;6;7;7]); (n_f'bb'oo,[6;6]); (n_v'aabb'ovvv,[4;5;7;7]); (n_f'bb'vv,[7;7]); (n_v'aaaa'vovv,[5;4;5;5]); (n_v'bbaa'ovvo,[6;7;5;4]); (n_v'aaaa'oovo,[4;4;5;4]); (n_v'aaaa'oooo,[4;4;4;4]); (n_v'aaaa'vvvv,[5;5;5;5]); (n_v'bbbb'vovv,[7;6;7;7]); (n_v'aabb'ovvo,[4;5;7;6]); (n_v'bbbb'oovo,[6;6;7;6]); (n_v'bbbb'vvvv,[7;7;7;7]); (n_v'bbbb'oooo,[6;6;6;6]); (n_v'aabb'vvvo,[5;5;7;6]); (n_v'aabb'vvvv,[5;5;7;7]); (n_v'aabb'oovv,[4;4;7;7]); (n_v'aabb'oooo,[4;4;6;6]); (n_v'bbaa'oovv,[6;6;5;5]); (n_v'bbaa'oovo,[6;6;5;4]); (n_v'aabb'oovo,[4;4;7;6]); (n_v'aabb'vovv,[5;4;7;7]); (n_w,[3;3]); (n_f'aa'vo,[5;4]); (n_f'bb'vo,[7;6]); (n_v'aaaa'vovo,[5;4;5;4]); (n_v'bbbb'vovo,[7;6;7;6]); (n_v'aabb'vovo,[5;4;7;6])]
 [(*52*) Assign n_gc'aa'boo (Plain (Transpose n_g'aa'boo [0;2;1]));
  (*52*) Assign n_gc'aa'bov (Plain (Transpose n_g'aa'bvo [0;2;1]));
  (*52*) Assign n_gc'aa'bvo (Plain (Transpose n_g'aa'bov [0;2;1]));
  (*52*) Assign n_gc'aa'bvv (Plain (Transpose n_g'aa'bvv [0;2;1]));
  (*52*) Assign n_gc'bb'boo (Plain (Transpose n_g'bb'boo [0;2;1]));
  (*52*) Assign n_gc'bb'bov (Plain (Transpose n_g'bb'bvo [0;2;1]));
  (*52*) Assign n_gc'bb'bvo (Plain (Transpose n_g'bb'bov [0;2;1]));
  (*52*) Assign n_gc'bb'bvv (Plain (Transpose n_g'bb'bvv [0;2;1]));
  (*68*) Assign (T 1) (Plain (Zeros [4;4;4;5]));
  (*69*) AddTo (T 1) (Plain (Einsum [(n_t1'aa,[0;1]); (n_v'aaaa'ovov,[2;1;3;4])] [0;3;2;4]));
  (*70*) Assign (T 2) (Plain (Zeros [4;4;4;5]));
  (*71*) AddTo (T 2) (Times (Einsum [(T 1,[0;1;2;3])] [0;1;2;3]) (-1) 1);
  (*72*) AddTo (T 2) (Plain (Einsum [(T 1,[0;1;2;3])] [0;2;1;3]));
  (*73*) Assign (T 99) (Plain (Zeros [4;4;4;5]));
  (*74*) SubFrom (T 99) (Plain (Einsum [(T 1,[0;1;2;3])] [0;1;2;3]));
  (*75*) AddTo (T 99) (Plain (Einsum [(T 1,[0;1;2;3])] [0;2;1;3]));
  (*76*) Assign (T 125) (Plain (Zeros [4;4;4;4]));
  (*77*) AddTo (T 125) (Plain (Einsum [(n_t1'aa,[0;1]); (T 1,[2;3;4;1])] [2;0;4;3]));
  (*78*) Assign (T 126) (Plain (Zeros [4;4;4;5]));
  (*79*) AddTo (T 126) (Plain (Einsum [(n_t1'aa,[0;1]); (T 125,[2;3;4;0])] [2;3;4;1]));
  (*80*) Assign (T 127) (Plain (Zeros [4;4;5;5]));
  (*81*) AddTo (T 127) (Plain (Einsum [(n_t1'aa,[0;1]); (T 126,[2;3;0;4])] [2;3;1;4]));
  (*82*) Del (T 126);
  (*83*) Assign (T 134) (Plain (Zeros [4;4;5;5]));
  (*84*) AddTo (T 134) (Plain (Einsum [(T 127,[0;1;2;3])] [0;1;2;3]));
  (*85*) Del (T 127);
  (*86*) Assign (T 142) (Plain (Zeros [4;4;5;5]));
  (*87*) AddTo (T 142) (Plain (Einsum [(n_t2'aaaa,[0;1;2;3]); (T 125,[4;5;1;0])] [5;4;2;3]));
  (*88*) Del (T 125);
  (*89*) Assign (T 146) (Plain (Zeros [4;4;5;5]));
  (*90*) AddTo (T 146) (Plain (Einsum [(T 142,[0;1;2;3])] [0;1;2;3]));
  (*91*) Del (T 142);
  (*92*) Assign (T 285) (Plain (Zeros [4;4;4;5]));
  (*93*) AddTo (T 285) (Times (Einsum [(T 1,[0;1;2;3])] [1;2;0;3]) (-1) 1);
  (*94*) AddTo (T 285) (Plain (Einsum [(T 1,[0;1;2;3])] [2;1;0;3]));
  (*95*) Del (T 1);
  (*96*) AddTo (T 2) (Plain (Einsum [(n_v'aaaa'ooov,[0;1;2;3])] [1;0;2;3]));
  (*97*) AddTo (T 2) (Times (Einsum [(n_v'aaaa'ooov,[0;1;2;3])] [1;2;0;3]) (-1) 1);
  (*98*) Assign n_t1new_aa (Plain (Zeros [4;5]));
  (*99*) AddTo n_t1new_aa (Times (Einsum [(n_t2'aaaa,[0;1;2;3]); (T 2,[4;1;0;2])] [4;3]) (-1) 1);
  (*100*) Del (T 2);
  (*101*) Assign (T 3) (Plain (Zeros [4;5;5;5]));
  (*102*) AddTo (T 3) (Plain (Einsum [(n_v'aaaa'ovvv,[0;1;2;3])] [0;2;1;3]));
  (*103*) AddTo (T 3) (Times (Einsum [(n_v'aaaa'ovvv,[0;1;2;3])] [0;2;3;1]) (-1) 1);
  (*104*) Assign (T 32) (Plain (Zeros [5;5]));
  (*105*) AddTo (T 32) (Plain (Einsum [(n_t1'aa,[0;1]); (T 3,[0;2;3;1])] [2;3]));
  (*106*) Assign (T 33) (Plain (Zeros [5;5]));
  (*107*) AddTo (T 33) (Times (Einsum [(T 32,[0;1])] [0;1]) (-1) 1);
  (*108*) Assign (T 281) (Plain (Zeros [5;5]));
  (*109*) AddTo (T 281) (Times (Einsum [(T 32,[0;1])] [0;1]) (-1) 1);
  (*110*) Assign (T 322) (Plain (Zeros [5;5]));
  (*111*) AddTo (T 322) (Times (Einsum [(T 32,[0;1])] [0;1]) (-1) 1);
  (*112*) Del (T 32);
  (*113*) Assign (T 65) (Plain (Zeros [4;4;5;5]));
  (*114*) AddTo (T 65) (Plain (Einsum [(n_t1'aa,[0;1]); (T 3,[2;3;1;4])] [0;2;3;4]));
  (*115*) AddTo n_t1new_aa (Times (Einsum [(n_t2'aaaa,[0;1;2;3]); (T 3,[0;4;3;2])] [1;4]) (-1) 1);
  (*116*) Del (T 3);
  (*117*) Assign (T 4) (Plain (Zeros [4;4;6;7]));
  (*118*) AddTo (T 4) (Plain (Einsum [(n_t1'aa,[0;1]); (n_v'aabb'ovov,[2;1;3;4])] [0;2;3;4]));
  (*119*) Assign (T 5) (Plain (Zeros [4;4;6;7]));
  (*120*) AddTo (T 5) (Plain (Einsum [(T 4,[0;1;2;3])] [1;0;2;3]));
  (*121*) Assign (T 80) (Plain (Zeros [4;4;4;5]));
  (*122*) AddTo (T 80) (Plain (Einsum [(n_t2'abab,[0;1;2;3]); (T 4,[4;5;1;3])] [4;0;5;2]));
  (*123*) Del (T 4);
  (*124*) Assign (T 84) (Plain (Zeros [4;4;4;5]));
  (*125*) AddTo (T 84) (Plain (Einsum [(T 80,[0;1;2;3])] [0;2;1;3]));
  (*126*) Del (T 80);
  (*127*) AddTo (T 5) (Plain (Einsum [(n_v'aabb'ooov,[0;1;2;3])] [0;1;2;3]));
  (*128*) Assign (T 268) (Plain (Zeros [4;6;6;5]));
  (*129*) AddTo (T 268) (Plain (Einsum [(n_t2'abab,[0;1;2;3]); (T 5,[0;4;5;3])] [4;1;5;2]));
  (*130*) Assign (T 275) (Plain (Zeros [4;6;6;5]));
  (*131*) AddTo (T 275) (Times (Einsum [(T 268,[0;1;2;3])] [0;2;1;3]) (-1) 1);
  (*132*) Del (T 268);
  (*133*) AddTo n_t1new_aa (Times (Einsum [(n_t2'abab,[0;1;2;3]); (T 5,[0;4;1;3])] [4;2]) (-1) 1);
  (*134*) Assign (T 6) (Plain (Zeros [4;5]));
  (*135*) AddTo (T 6) (Plain (Einsum [(n_s1,[0]); (n_g'aa'bov,[0;1;2])] [1;2]));
  (*136*) Assign (T 10) (Plain (Zeros [4;5]));
  (*137*) AddTo (T 10) (Plain (Einsum [(T 6,[0;1])] [0;1]));
  (*138*) Assign (T 103) (Plain (Zeros [4;5]));
  (*139*) AddTo (T 103) (Plain (Einsum [(T 6,[0;1])] [0;1]));
  (*140*) Assign (T 301) (Plain (Zeros [4;5]));
  (*141*) AddTo (T 301) (Plain (Einsum [(T 6,[0;1])] [0;1]));
  (*142*) Assign (T 323) (Plain (Zeros [4;5]));
  (*143*) AddTo (T 323) (Plain (Einsum [(T 6,[0;1])] [0;1]));
  (*144*) Del (T 6);
  (*145*) Assign (T 7) (Plain (Zeros [4;5]));
  (*146*) AddTo (T 7) (Plain (Einsum [(n_t1'bb,[0;1]); (n_v'aabb'ovov,[2;3;0;1])] [2;3]));
  (*147*) AddTo (T 10) (Plain (Einsum [(T 7,[0;1])] [0;1]));
  (*148*) Assign (T 62) (Plain (Zeros [4;4]));
  (*149*) AddTo (T 62) (Plain (Einsum [(n_t1'aa,[0;1]); (T 7,[2;1])] [0;2]));
  (*150*) Assign (T 63) (Plain (Zeros [4;4;5;5]));
  (*151*) AddTo (T 63) (Plain (Einsum [(T 62,[0;1]); (n_t2'aaaa,[2;1;3;4])] [0;2;3;4]));
  (*152*) Del (T 62);
  (*153*) Assign (T 88) (Plain (Zeros [4;4;5;5]));
  (*154*) AddTo (T 88) (Times (Einsum [(T 63,[0;1;2;3])] [0;1;2;3]) (-1) 1);
  (*155*) Del (T 63);
  (*156*) Assign (T 81) (Plain (Zeros [4;4;4;5]));
  (*157*) AddTo (T 81) (Plain (Einsum [(T 7,[0;1]); (n_t2'aaaa,[2;3;4;1])] [2;3;0;4]));
  (*158*) AddTo (T 84) (Times (Einsum [(T 81,[0;1;2;3])] [0;2;1;3]) (-1) 1);
  (*159*) Del (T 81);
  (*160*) AddTo (T 301) (Plain (Einsum [(T 7,[0;1])] [0;1]));
  (*161*) Assign (T 321) (Plain (Zeros [4;5]));
  (*162*) AddTo (T 321) (Plain (Einsum [(T 7,[0;1])] [0;1]));
  (*163*) Del (T 7);
  (*164*) Assign (T 8) (Plain (Zeros [4;4;5;5]));
  (*165*) AddTo (T 8) (Plain (Einsum [(n_v'aaaa'ovov,[0;1;2;3])] [2;0;1;3]));
  (*166*) AddTo (T 8) (Times (Einsum [(n_v'aaaa'ovov,[0;1;2;3])] [2;0;3;1]) (-1) 1);
  (*167*) Assign (T 9) (Plain (Zeros [4;5]));
  (*168*) AddTo (T 9) (Plain (Einsum [(n_t1'aa,[0;1]); (T 8,[0;2;1;3])] [2;3]));
  (*169*) AddTo (T 10) (Times (Einsum [(T 9,[0;1])] [0;1]) (-1) 1);
  (*170*) AddTo (T 321) (Times (Einsum [(T 9,[0;1])] [0;1]) (-1) 1);
  (*171*) Del (T 9);
  (*172*) AddTo (T 322) (Times (Einsum [(n_t1'aa,[0;1]); (T 321,[0;2])] [1;2]) (-1) 1);
  (*173*) Del (T 321);
  (*174*) Assign (T 71) (Plain (Zeros [5;5]));
  (*175*) AddTo (T 71) (Plain (Einsum [(n_t2'aaaa,[0;1;2;3]); (T 8,[0;1;2;4])] [3;4]));
  (*176*) Assign (T 74) (Plain (Zeros [5;5]));
  (*177*) AddTo (T 74) (Times (Einsum [(T 71,[0;1])] [0;1]) (-1) 1);
  (*178*) Del (T 71);
  (*179*) Assign (T 280) (Plain (Zeros [5;5]));
  (*180*) AddTo (T 280) (Plain (Einsum [(n_t2'aaaa,[0;1;2;3]); (T 8,[0;1;4;2])] [3;4]));
  (*181*) AddTo (T 281) (Times (Einsum [(T 280,[0;1])] [0;1]) (-1) 1);
  (*182*) AddTo (T 322) (Times (Einsum [(T 280,[0;1])] [0;1]) (-1) 1);
  (*183*) Del (T 280);
  (*184*) Assign (T 316) (Plain (Zeros [3;4;5]));
  (*185*) AddTo (T 316) (Plain (Einsum [(n_u11'aa,[0;1;2]); (T 8,[1;3;2;4])] [0;3;4]));
  (*186*) Assign (T 317) (Plain (Zeros [3;4;5]));
  (*187*) AddTo (T 317) (Times (Einsum [(T 316,[0;1;2])] [0;1;2]) (-1) 1);
  (*188*) Del (T 316);
  (*189*) AddTo (T 10) (Plain (Einsum [(n_f'aa'ov,[0;1])] [0;1]));
  (*190*) Assign (T 28) (Plain (Zeros [4;4]));
  (*191*) AddTo (T 28) (Plain (Einsum [(n_t1'aa,[0;1]); (T 10,[2;1])] [0;2]));
  (*192*) Assign (T 29) (Plain (Zeros [4;4]));
  (*193*) AddTo (T 29) (Plain (Einsum [(T 28,[0;1])] [1;0]));
  (*194*) Del (T 28);
  (*195*) Assign (T 289) (Plain (Zeros [4;4;6;7]));
  (*196*) AddTo (T 289) (Plain (Einsum [(T 10,[0;1]); (n_t2'abab,[2;3;1;4])] [2;0;3;4]));
  (*197*) Assign (T 292) (Plain (Zeros [4;4;6;7]));
  (*198*) AddTo (T 292) (Plain (Einsum [(T 289,[0;1;2;3])] [1;0;2;3]));
  (*199*) Del (T 289);
  (*200*) Assign n_t1new_bb (Plain (Zeros [6;7]));
  (*201*) AddTo n_t1new_bb (Plain (Einsum [(T 10,[0;1]); (n_t2'abab,[0;2;1;3])] [2;3]));
  (*202*) Assign (T 11) (Plain (Zeros [4;4;5;5]));
  (*203*) AddTo (T 11) (Plain (Einsum [(n_t2'aaaa,[0;1;2;3])] [1;0;2;3]));
  (*204*) SubFrom (T 11) (Plain (Einsum [(n_t2'aaaa,[0;1;2;3])] [1;0;3;2]));
  (*205*) Assign (T 113) (Plain (Zeros [3;4;5]));
  (*206*) AddTo (T 113) (Plain (Einsum [(n_g'aa'bov,[0;1;2]); (T 11,[1;3;2;4])] [0;3;4]));
  (*207*) Assign (T 115) (Plain (Zeros [3;4;5]));
  (*208*) SubFrom (T 115) (Plain (Einsum [(T 113,[0;1;2])] [0;1;2]));
  (*209*) Del (T 113);
  (*210*) AddTo n_t1new_aa (Times (Einsum [(T 10,[0;1]); (T 11,[0;2;1;3])] [2;3]) (-1) 1);
  (*211*) Del (T 10);
  (*212*) Assign (T 12) (Plain (Zeros [6;7]));
  (*213*) AddTo (T 12) (Plain (Einsum [(n_s1,[0]); (n_g'bb'bov,[0;1;2])] [1;2]));
  (*214*) Assign (T 16) (Plain (Zeros [6;7]));
  (*215*) AddTo (T 16) (Plain (Einsum [(T 12,[0;1])] [0;1]));
  (*216*) Assign (T 160) (Plain (Zeros [6;7]));
  (*217*) AddTo (T 160) (Plain (Einsum [(T 12,[0;1])] [0;1]));
  (*218*) Assign (T 302) (Plain (Zeros [6;7]));
  (*219*) AddTo (T 302) (Plain (Einsum [(T 12,[0;1])] [0;1]));
  (*220*) Assign (T 329) (Plain (Zeros [6;7]));
  (*221*) AddTo (T 329) (Plain (Einsum [(T 12,[0;1])] [0;1]));
  (*222*) Del (T 12);
  (*223*) Assign (T 13) (Plain (Zeros [6;7]));
  (*224*) AddTo (T 13) (Plain (Einsum [(n_t1'aa,[0;1]); (n_v'aabb'ovov,[0;1;2;3])] [2;3]));
  (*225*) AddTo (T 16) (Plain (Einsum [(T 13,[0;1])] [0;1]));
  (*226*) Assign (T 202) (Plain (Zeros [6;6;6;7]));
  (*227*) AddTo (T 202) (Plain (Einsum [(T 13,[0;1]); (n_t2'bbbb,[2;3;1;4])] [3;2;0;4]));
  (*228*) Assign (T 206) (Plain (Zeros [6;6;6;7]));
  (*229*) AddTo (T 206) (Times (Einsum [(T 202,[0;1;2;3])] [0;2;1;3]) (-1) 1);
  (*230*) Del (T 202);
  (*231*) Assign (T 217) (Plain (Zeros [6;6]));
  (*232*) AddTo (T 217) (Plain (Einsum [(n_t1'bb,[0;1]); (T 13,[2;1])] [0;2]));
  (*233*) Assign (T 218) (Plain (Zeros [6;6]));
  (*234*) AddTo (T 218) (Plain (Einsum [(T 217,[0;1])] [0;1]));
  (*235*) Del (T 217);
  (*236*) AddTo (T 302) (Plain (Einsum [(T 13,[0;1])] [0;1]));
  (*237*) Assign (T 327) (Plain (Zeros [6;7]));
  (*238*) AddTo (T 327) (Plain (Einsum [(T 13,[0;1])] [0;1]));
  (*239*) Del (T 13);
  (*240*) Assign (T 14) (Plain (Zeros [6;6;7;7]));
  (*241*) AddTo (T 14) (Times (Einsum [(n_v'bbbb'ovov,[0;1;2;3])] [2;0;1;3]) (-1) 1);
  (*242*) AddTo (T 14) (Plain (Einsum [(n_v'bbbb'ovov,[0;1;2;3])] [2;0;3;1]));
  (*243*) Assign (T 15) (Plain (Zeros [6;7]));
  (*244*) AddTo (T 15) (Plain (Einsum [(n_t1'bb,[0;1]); (T 14,[0;2;3;1])] [2;3]));
  (*245*) AddTo (T 16) (Times (Einsum [(T 15,[0;1])] [0;1]) (-1) 1);
  (*246*) AddTo (T 327) (Times (Einsum [(T 15,[0;1])] [0;1]) (-1) 1);
  (*247*) Del (T 15);
  (*248*) Assign (T 328) (Plain (Zeros [7;7]));
  (*249*) AddTo (T 328) (Times (Einsum [(n_t1'bb,[0;1]); (T 327,[0;2])] [1;2]) (-1) 1);
  (*250*) Del (T 327);
  (*251*) Assign (T 50) (Plain (Zeros [6;6]));
  (*252*) AddTo (T 50) (Plain (Einsum [(n_t2'bbbb,[0;1;2;3]); (T 14,[0;4;3;2])] [4;1]));
  (*253*) Assign (T 54) (Plain (Zeros [6;6]));
  (*254*) AddTo (T 54) (Times (Einsum [(T 50,[0;1])] [0;1]) (-1) 1);
  (*255*) Del (T 50);
  (*256*) Assign (T 238) (Plain (Zeros [4;6;5;7]));
  (*257*) AddTo (T 238) (Plain (Einsum [(n_t2'abab,[0;1;2;3]); (T 14,[1;4;5;3])] [0;4;2;5]));
  (*258*) Assign (T 239) (Plain (Zeros [4;6;5;7]));
  (*259*) AddTo (T 239) (Times (Einsum [(T 238,[0;1;2;3])] [0;1;2;3]) (-1) 1);
  (*260*) Del (T 238);
  (*261*) Assign (T 319) (Plain (Zeros [3;6;7]));
  (*262*) AddTo (T 319) (Plain (Einsum [(n_u11'bb,[0;1;2]); (T 14,[1;3;4;2])] [0;3;4]));
  (*263*) Del (T 14);
  (*264*) Assign (T 320) (Plain (Zeros [3;6;7]));
  (*265*) AddTo (T 320) (Times (Einsum [(T 319,[0;1;2])] [0;1;2]) (-1) 1);
  (*266*) Del (T 319);
  (*267*) AddTo (T 16) (Plain (Einsum [(n_f'bb'ov,[0;1])] [0;1]));
  (*268*) Assign (T 53) (Plain (Zeros [6;6]));
  (*269*) AddTo (T 53) (Plain (Einsum [(n_t1'bb,[0;1]); (T 16,[2;1])] [0;2]));
  (*270*) AddTo (T 54) (Plain (Einsum [(T 53,[0;1])] [1;0]));
  (*271*) Del (T 53);
  (*272*) Assign (T 269) (Plain (Zeros [4;6;6;5]));
  (*273*) AddTo (T 269) (Plain (Einsum [(T 16,[0;1]); (n_t2'abab,[2;3;4;1])] [2;3;0;4]));
  (*274*) AddTo (T 275) (Plain (Einsum [(T 269,[0;1;2;3])] [0;2;1;3]));
  (*275*) Del (T 269);
  (*276*) AddTo n_t1new_aa (Plain (Einsum [(T 16,[0;1]); (n_t2'abab,[2;0;3;1])] [2;3]));
  (*277*) Assign (T 17) (Plain (Zeros [4;4;5;5]));
  (*278*) AddTo (T 17) (Plain (Einsum [(n_v'aaaa'ovvo,[0;1;2;3])] [0;3;2;1]));
  (*279*) SubFrom (T 17) (Plain (Einsum [(n_v'aaaa'oovv,[0;1;2;3])] [0;1;2;3]));
  (*280*) Assign (T 105) (Plain (Zeros [4;4;4;5]));
  (*281*) AddTo (T 105) (Plain (Einsum [(n_t1'aa,[0;1]); (T 17,[2;3;4;1])] [0;2;3;4]));
  (*282*) Assign (T 106) (Plain (Zeros [4;4;4;5]));
  (*283*) SubFrom (T 106) (Plain (Einsum [(T 105,[0;1;2;3])] [1;0;2;3]));
  (*284*) Del (T 105);
  (*285*) AddTo n_t1new_aa (Plain (Einsum [(n_t1'aa,[0;1]); (T 17,[0;2;3;1])] [2;3]));
  (*286*) Assign n_u11new_aa (Plain (Zeros [3;4;5]));
  (*287*) AddTo n_u11new_aa (Plain (Einsum [(n_u11'aa,[0;1;2]); (T 17,[1;3;4;2])] [0;3;4]));
  (*288*) Assign (T 18) (Plain (Zeros [3;4;4]));
  (*289*) AddTo (T 18) (Plain (Einsum [(n_t1'aa,[0;1]); (n_g'aa'bov,[2;3;1])] [2;3;0]));
  (*290*) Assign (T 19) (Plain (Zeros [3;4;4]));
  (*291*) AddTo (T 19) (Plain (Einsum [(T 18,[0;1;2])] [0;1;2]));
  (*292*) Del (T 18);
  (*293*) AddTo (T 19) (Plain (Einsum [(n_g'aa'boo,[0;1;2])] [0;1;2]));
  (*294*) Assign (T 114) (Plain (Zeros [3;4;5]));
  (*295*) AddTo (T 114) (Plain (Einsum [(n_t1'aa,[0;1]); (T 19,[2;0;3])] [2;3;1]));
  (*296*) SubFrom (T 115) (Plain (Einsum [(T 114,[0;1;2])] [0;1;2]));
  (*297*) Del (T 114);
  (*298*) SubFrom n_t1new_aa (Plain (Einsum [(n_u11'aa,[0;1;2]); (T 19,[0;1;3])] [3;2]));
  (*299*) Del (T 19);
  (*300*) Assign (T 20) (Plain (Zeros [4;4]));
  (*301*) AddTo (T 20) (Plain (Einsum [(n_s1,[0]); (n_g'aa'boo,[0;1;2])] [1;2]));
  (*302*) AddTo (T 29) (Plain (Einsum [(T 20,[0;1])] [0;1]));
  (*303*) Assign (T 109) (Plain (Zeros [4;4]));
  (*304*) AddTo (T 109) (Plain (Einsum [(T 20,[0;1])] [1;0]));
  (*305*) Del (T 20);
  (*306*) Assign (T 21) (Plain (Zeros [4;4]));
  (*307*) AddTo (T 21) (Plain (Einsum [(n_g'aa'bov,[0;1;2]); (n_u11'aa,[0;3;2])] [1;3]));
  (*308*) AddTo (T 29) (Plain (Einsum [(T 21,[0;1])] [0;1]));
  (*309*) Assign (T 122) (Plain (Zeros [4;4]));
  (*310*) AddTo (T 122) (Plain (Einsum [(T 21,[0;1])] [0;1]));
  (*311*) Del (T 21);
  (*312*) Assign (T 22) (Plain (Zeros [4;4]));
  (*313*) AddTo (T 22) (Plain (Einsum [(n_t1'bb,[0;1]); (n_v'aabb'ooov,[2;3;0;1])] [2;3]));
  (*314*) AddTo (T 29) (Plain (Einsum [(T 22,[0;1])] [0;1]));
  (*315*) AddTo (T 122) (Plain (Einsum [(T 22,[0;1])] [0;1]));
  (*316*) Del (T 22);
  (*317*) Assign (T 123) (Plain (Zeros [4;4;5;5]));
  (*318*) AddTo (T 123) (Plain (Einsum [(T 122,[0;1]); (n_t2'aaaa,[0;2;3;4])] [2;1;3;4]));
  (*319*) Del (T 122);
  (*320*) Assign (T 124) (Plain (Zeros [4;4;5;5]));
  (*321*) SubFrom (T 124) (Plain (Einsum [(T 123,[0;1;2;3])] [0;1;3;2]));
  (*322*) Del (T 123);
  (*323*) Assign (T 23) (Plain (Zeros [4;4]));
  (*324*) AddTo (T 23) (Plain (Einsum [(n_t2'abab,[0;1;2;3]); (n_v'aabb'ovov,[4;2;1;3])] [0;4]));
  (*325*) AddTo (T 29) (Plain (Einsum [(T 23,[0;1])] [1;0]));
  (*326*) Assign (T 86) (Plain (Zeros [4;4]));
  (*327*) AddTo (T 86) (Plain (Einsum [(T 23,[0;1])] [1;0]));
  (*328*) Del (T 23);
  (*329*) Assign (T 24) (Plain (Zeros [4;4;5;5]));
  (*330*) AddTo (T 24) (Times (Einsum [(n_v'aaaa'ovov,[0;1;2;3])] [2;0;1;3]) (-1) 1);
  (*331*) AddTo (T 24) (Plain (Einsum [(n_v'aaaa'ovov,[0;1;2;3])] [2;0;3;1]));
  (*332*) Assign (T 25) (Plain (Zeros [4;4]));
  (*333*) AddTo (T 25) (Plain (Einsum [(n_t2'aaaa,[0;1;2;3]); (T 24,[0;4;3;2])] [1;4]));
  (*334*) Del (T 24);
  (*335*) AddTo (T 29) (Times (Einsum [(T 25,[0;1])] [1;0]) (-1) 1);
  (*336*) AddTo (T 86) (Times (Einsum [(T 25,[0;1])] [1;0]) (-1) 1);
  (*337*) Del (T 25);
  (*338*) Assign (T 26) (Plain (Zeros [4;4;4;5]));
  (*339*) AddTo (T 26) (Plain (Einsum [(n_v'aaaa'ooov,[0;1;2;3])] [0;2;1;3]));
  (*340*) AddTo (T 26) (Times (Einsum [(n_v'aaaa'ooov,[0;1;2;3])] [2;0;1;3]) (-1) 1);
  (*341*) Assign (T 27) (Plain (Zeros [4;4]));
  (*342*) AddTo (T 27) (Plain (Einsum [(n_t1'aa,[0;1]); (T 26,[0;2;3;1])] [2;3]));
  (*343*) AddTo (T 29) (Times (Einsum [(T 27,[0;1])] [0;1]) (-1) 1);
  (*344*) AddTo (T 86) (Times (Einsum [(T 27,[0;1])] [0;1]) (-1) 1);
  (*345*) Del (T 27);
  (*346*) Assign (T 87) (Plain (Zeros [4;4;5;5]));
  (*347*) AddTo (T 87) (Plain (Einsum [(T 86,[0;1]); (n_t2'aaaa,[0;2;3;4])] [2;1;3;4]));
  (*348*) Del (T 86);
  (*349*) AddTo (T 88) (Plain (Einsum [(T 87,[0;1;2;3])] [0;1;3;2]));
  (*350*) Del (T 87);
  (*351*) Assign (T 324) (Plain (Zeros [3;4;4]));
  (*352*) AddTo (T 324) (Times (Einsum [(n_u11'aa,[0;1;2]); (T 26,[1;3;4;2])] [0;3;4]) (-1) 1);
  (*353*) Del (T 26);
  (*354*) AddTo (T 29) (Plain (Einsum [(n_f'aa'oo,[0;1])] [0;1]));
  (*355*) Assign (T 295) (Plain (Zeros [4;6;5;7]));
  (*356*) AddTo (T 295) (Plain (Einsum [(T 29,[0;1]); (n_t2'abab,[0;2;3;4])] [1;2;3;4]));
  (*357*) Assign n_t2new_baba (Plain (Zeros [6;4;7;5]));
  (*358*) AddTo n_t2new_baba (Times (Einsum [(T 295,[0;1;2;3])] [1;0;3;2]) (-1) 1);
  (*359*) Assign n_t2new_abab (Plain (Zeros [4;6;5;7]));
  (*360*) AddTo n_t2new_abab (Times (Einsum [(T 295,[0;1;2;3])] [0;1;2;3]) (-1) 1);
  (*361*) Del (T 295);
  (*362*) AddTo n_t1new_aa (Times (Einsum [(n_t1'aa,[0;1]); (T 29,[0;2])] [2;1]) (-1) 1);
  (*363*) AddTo n_u11new_aa (Times (Einsum [(T 29,[0;1]); (n_u11'aa,[2;0;3])] [2;1;3]) (-1) 1);
  (*364*) Del (T 29);
  (*365*) Assign (T 30) (Plain (Zeros [5;5]));
  (*366*) AddTo (T 30) (Plain (Einsum [(n_s1,[0]); (n_g'aa'bvv,[0;1;2])] [1;2]));
  (*367*) AddTo (T 33) (Plain (Einsum [(T 30,[0;1])] [0;1]));
  (*368*) Assign (T 117) (Plain (Zeros [5;5]));
  (*369*) AddTo (T 117) (Plain (Einsum [(T 30,[0;1])] [0;1]));
  (*370*) AddTo (T 281) (Plain (Einsum [(T 30,[0;1])] [0;1]));
  (*371*) AddTo (T 322) (Plain (Einsum [(T 30,[0;1])] [0;1]));
  (*372*) Del (T 30);
  (*373*) Assign (T 31) (Plain (Zeros [5;5]));
  (*374*) AddTo (T 31) (Plain (Einsum [(n_t1'bb,[0;1]); (n_v'bbaa'ovvv,[0;1;2;3])] [2;3]));
  (*375*) AddTo (T 33) (Plain (Einsum [(T 31,[0;1])] [0;1]));
  (*376*) Assign (T 120) (Plain (Zeros [5;5]));
  (*377*) SubFrom (T 120) (Plain (Einsum [(T 31,[0;1])] [1;0]));
  (*378*) AddTo (T 281) (Plain (Einsum [(T 31,[0;1])] [0;1]));
  (*379*) AddTo (T 322) (Plain (Einsum [(T 31,[0;1])] [0;1]));
  (*380*) Del (T 31);
  (*381*) AddTo (T 33) (Plain (Einsum [(n_f'aa'vv,[0;1])] [0;1]));
  (*382*) AddTo n_t1new_aa (Plain (Einsum [(n_t1'aa,[0;1]); (T 33,[2;1])] [0;2]));
  (*383*) Del (T 33);
  (*384*) Assign (T 34) (Plain (Zeros [3]));
  (*385*) AddTo (T 34) (Plain (Einsum [(n_t1'aa,[0;1]); (n_g'aa'bov,[2;0;1])] [2]));
  (*386*) Assign (T 36) (Plain (Zeros [3]));
  (*387*) AddTo (T 36) (Plain (Einsum [(T 34,[0])] [0]));
  (*388*) Del (T 34);
  (*389*) Assign (T 35) (Plain (Zeros [3]));
  (*390*) AddTo (T 35) (Plain (Einsum [(n_t1'bb,[0;1]); (n_g'bb'bov,[2;0;1])] [2]));
  (*391*) AddTo (T 36) (Plain (Einsum [(T 35,[0])] [0]));
  (*392*) Del (T 35);
  (*393*) AddTo (T 36) (Plain (Einsum [(n_G,[0])] [0]));
  (*394*) AddTo n_t1new_aa (Plain (Einsum [(T 36,[0]); (n_u11'aa,[0;1;2])] [1;2]));
  (*395*) AddTo n_t1new_bb (Plain (Einsum [(T 36,[0]); (n_u11'bb,[0;1;2])] [1;2]));
  (*396*) Assign n_s1new (Plain (Zeros [3]));
  (*397*) AddTo n_s1new (Plain (Einsum [(T 36,[0]); (n_s2,[0;1])] [1]));
  (*398*) Del (T 36);
  (*399*) Assign (T 37) (Plain (Zeros [6;6;6;7]));
  (*400*) AddTo (T 37) (Plain (Einsum [(n_t1'bb,[0;1]); (n_v'bbbb'ovov,[2;1;3;4])] [0;3;2;4]));
  (*401*) Assign (T 38) (Plain (Zeros [6;6;6;7]));
  (*402*) AddTo (T 38) (Times (Einsum [(T 37,[0;1;2;3])] [0;1;2;3]) (-1) 1);
  (*403*) AddTo (T 38) (Plain (Einsum [(T 37,[0;1;2;3])] [0;2;1;3]));
  (*404*) Assign (T 156) (Plain (Zeros [6;6;6;7]));
  (*405*) SubFrom (T 156) (Plain (Einsum [(T 37,[0;1;2;3])] [0;1;2;3]));
  (*406*) AddTo (T 156) (Plain (Einsum [(T 37,[0;1;2;3])] [0;2;1;3]));
  (*407*) Assign (T 182) (Plain (Zeros [6;6;6;6]));
  (*408*) AddTo (T 182) (Plain (Einsum [(n_t1'bb,[0;1]); (T 37,[2;3;4;1])] [2;0;4;3]));
  (*409*) Assign (T 183) (Plain (Zeros [6;6;6;7]));
  (*410*) AddTo (T 183) (Plain (Einsum [(n_t1'bb,[0;1]); (T 182,[2;3;4;0])] [2;3;4;1]));
  (*411*) Assign (T 184) (Plain (Zeros [6;6;7;7]));
  (*412*) AddTo (T 184) (Plain (Einsum [(n_t1'bb,[0;1]); (T 183,[2;3;0;4])] [2;3;1;4]));
  (*413*) Del (T 183);
  (*414*) Assign (T 188) (Plain (Zeros [6;6;7;7]));
  (*415*) AddTo (T 188) (Plain (Einsum [(T 184,[0;1;2;3])] [0;1;2;3]));
  (*416*) Del (T 184);
  (*417*) Assign (T 224) (Plain (Zeros [6;6;6;6]));
  (*418*) AddTo (T 224) (Plain (Einsum [(T 182,[0;1;2;3])] [0;1;2;3]));
  (*419*) Del (T 182);
  (*420*) Assign (T 265) (Plain (Zeros [6;6;6;7]));
  (*421*) AddTo (T 265) (Plain (Einsum [(T 37,[0;1;2;3])] [1;2;0;3]));
  (*422*) AddTo (T 265) (Times (Einsum [(T 37,[0;1;2;3])] [2;1;0;3]) (-1) 1);
  (*423*) Del (T 37);
  (*424*) AddTo (T 38) (Plain (Einsum [(n_v'bbbb'ooov,[0;1;2;3])] [1;0;2;3]));
  (*425*) AddTo (T 38) (Times (Einsum [(n_v'bbbb'ooov,[0;1;2;3])] [1;2;0;3]) (-1) 1);
  (*426*) AddTo n_t1new_bb (Times (Einsum [(n_t2'bbbb,[0;1;2;3]); (T 38,[4;1;0;2])] [4;3]) (-1) 1);
  (*427*) Del (T 38);
  (*428*) Assign (T 39) (Plain (Zeros [6;7;7;7]));
  (*429*) AddTo (T 39) (Plain (Einsum [(n_v'bbbb'ovvv,[0;1;2;3])] [0;2;1;3]));
  (*430*) AddTo (T 39) (Times (Einsum [(n_v'bbbb'ovvv,[0;1;2;3])] [0;2;3;1]) (-1) 1);
  (*431*) Assign (T 210) (Plain (Zeros [7;7]));
  (*432*) AddTo (T 210) (Plain (Einsum [(n_t1'bb,[0;1]); (T 39,[0;2;1;3])] [2;3]));
  (*433*) Assign (T 211) (Plain (Zeros [7;7]));
  (*434*) AddTo (T 211) (Times (Einsum [(T 210,[0;1])] [0;1]) (-1) 1);
  (*435*) Del (T 210);
  (*436*) AddTo n_t1new_bb (Times (Einsum [(n_t2'bbbb,[0;1;2;3]); (T 39,[0;4;3;2])] [1;4]) (-1) 1);
  (*437*) Del (T 39);
  (*438*) Assign (T 40) (Plain (Zeros [4;6;6;5]));
  (*439*) AddTo (T 40) (Plain (Einsum [(n_t1'bb,[0;1]); (n_v'aabb'ovov,[2;3;4;1])] [2;0;4;3]));
  (*440*) Assign (T 41) (Plain (Zeros [4;6;6;5]));
  (*441*) AddTo (T 41) (Plain (Einsum [(T 40,[0;1;2;3])] [0;2;1;3]));
  (*442*) Assign (T 201) (Plain (Zeros [6;6;6;7]));
  (*443*) AddTo (T 201) (Plain (Einsum [(n_t2'abab,[0;1;2;3]); (T 40,[0;4;5;2])] [4;1;5;3]));
  (*444*) AddTo (T 206) (Plain (Einsum [(T 201,[0;1;2;3])] [0;2;1;3]));
  (*445*) Del (T 201);
  (*446*) Assign (T 256) (Plain (Zeros [4;6;6;5]));
  (*447*) AddTo (T 256) (Plain (Einsum [(T 40,[0;1;2;3])] [0;2;1;3]));
  (*448*) Del (T 40);
  (*449*) AddTo (T 41) (Plain (Einsum [(n_v'aabb'ovoo,[0;1;2;3])] [0;2;3;1]));
  (*450*) Assign (T 270) (Plain (Zeros [4;4;6;6]));
  (*451*) AddTo (T 270) (Plain (Einsum [(n_t1'aa,[0;1]); (T 41,[2;3;4;1])] [0;2;3;4]));
  (*452*) Assign (T 271) (Plain (Zeros [4;4;6;6]));
  (*453*) AddTo (T 271) (Plain (Einsum [(T 270,[0;1;2;3])] [1;0;2;3]));
  (*454*) Del (T 270);
  (*455*) Assign (T 288) (Plain (Zeros [4;4;6;7]));
  (*456*) AddTo (T 288) (Plain (Einsum [(n_t2'abab,[0;1;2;3]); (T 41,[4;1;5;2])] [0;4;5;3]));
  (*457*) AddTo (T 292) (Times (Einsum [(T 288,[0;1;2;3])] [1;0;2;3]) (-1) 1);
  (*458*) Del (T 288);
  (*459*) AddTo n_t1new_bb (Times (Einsum [(n_t2'abab,[0;1;2;3]); (T 41,[0;1;4;2])] [4;3]) (-1) 1);
  (*460*) Assign (T 42) (Plain (Zeros [6;6;7;7]));
  (*461*) AddTo (T 42) (Times (Einsum [(n_t2'bbbb,[0;1;2;3])] [1;0;2;3]) (-1) 1);
  (*462*) AddTo (T 42) (Plain (Einsum [(n_t2'bbbb,[0;1;2;3])] [1;0;3;2]));
  (*463*) Assign (T 195) (Plain (Zeros [4;6;5;7]));
  (*464*) AddTo (T 195) (Plain (Einsum [(n_v'aabb'ovov,[0;1;2;3]); (T 42,[2;4;5;3])] [0;4;1;5]));
  (*465*) Assign (T 196) (Plain (Zeros [6;6;7;7]));
  (*466*) AddTo (T 196) (Times (Einsum [(n_t2'abab,[0;1;2;3]); (T 195,[0;4;2;5])] [1;4;3;5]) (-1) 1);
  (*467*) Del (T 195);
  (*468*) Assign (T 220) (Plain (Zeros [6;6;7;7]));
  (*469*) AddTo (T 220) (Times (Einsum [(T 196,[0;1;2;3])] [0;1;2;3]) (-1) 1);
  (*470*) Del (T 196);
  (*471*) Assign (T 287) (Plain (Zeros [4;4;6;7]));
  (*472*) AddTo (T 287) (Plain (Einsum [(T 5,[0;1;2;3]); (T 42,[2;4;5;3])] [0;1;4;5]));
  (*473*) Del (T 5);
  (*474*) AddTo (T 292) (Times (Einsum [(T 287,[0;1;2;3])] [0;1;2;3]) (-1) 1);
  (*475*) Del (T 287);
  (*476*) AddTo n_t1new_bb (Times (Einsum [(T 16,[0;1]); (T 42,[0;2;3;1])] [2;3]) (-1) 1);
  (*477*) Del (T 16);
  (*478*) Assign (T 43) (Plain (Zeros [6;6;7;7]));
  (*479*) AddTo (T 43) (Plain (Einsum [(n_v'bbbb'ovvo,[0;1;2;3])] [0;3;2;1]));
  (*480*) SubFrom (T 43) (Plain (Einsum [(n_v'bbbb'oovv,[0;1;2;3])] [0;1;2;3]));
  (*481*) Assign (T 162) (Plain (Zeros [6;6;6;7]));
  (*482*) AddTo (T 162) (Plain (Einsum [(n_t1'bb,[0;1]); (T 43,[2;3;4;1])] [0;2;3;4]));
  (*483*) Assign (T 163) (Plain (Zeros [6;6;6;7]));
  (*484*) SubFrom (T 163) (Plain (Einsum [(T 162,[0;1;2;3])] [1;0;2;3]));
  (*485*) Del (T 162);
  (*486*) AddTo n_t1new_bb (Plain (Einsum [(n_t1'bb,[0;1]); (T 43,[0;2;3;1])] [2;3]));
  (*487*) Assign n_u11new_bb (Plain (Zeros [3;6;7]));
  (*488*) AddTo n_u11new_bb (Plain (Einsum [(n_u11'bb,[0;1;2]); (T 43,[1;3;4;2])] [0;3;4]));
  (*489*) Assign (T 44) (Plain (Zeros [3;6;6]));
  (*490*) AddTo (T 44) (Plain (Einsum [(n_t1'bb,[0;1]); (n_g'bb'bov,[2;3;1])] [2;3;0]));
  (*491*) Assign (T 45) (Plain (Zeros [3;6;6]));
  (*492*) AddTo (T 45) (Plain (Einsum [(T 44,[0;1;2])] [0;1;2]));
  (*493*) Del (T 44);
  (*494*) AddTo (T 45) (Plain (Einsum [(n_g'bb'boo,[0;1;2])] [0;1;2]));
  (*495*) Assign (T 171) (Plain (Zeros [3;6;7]));
  (*496*) AddTo (T 171) (Plain (Einsum [(n_t1'bb,[0;1]); (T 45,[2;0;3])] [2;3;1]));
  (*497*) Assign (T 172) (Plain (Zeros [3;6;7]));
  (*498*) SubFrom (T 172) (Plain (Einsum [(T 171,[0;1;2])] [0;1;2]));
  (*499*) Del (T 171);
  (*500*) SubFrom n_t1new_bb (Plain (Einsum [(n_u11'bb,[0;1;2]); (T 45,[0;1;3])] [3;2]));
  (*501*) Del (T 45);
  (*502*) Assign (T 46) (Plain (Zeros [6;6]));
  (*503*) AddTo (T 46) (Plain (Einsum [(n_s1,[0]); (n_g'bb'boo,[0;1;2])] [1;2]));
  (*504*) AddTo (T 54) (Plain (Einsum [(T 46,[0;1])] [0;1]));
  (*505*) Assign (T 166) (Plain (Zeros [6;6]));
  (*506*) AddTo (T 166) (Plain (Einsum [(T 46,[0;1])] [1;0]));
  (*507*) Del (T 46);
  (*508*) Assign (T 47) (Plain (Zeros [6;6]));
  (*509*) AddTo (T 47) (Plain (Einsum [(n_g'bb'bov,[0;1;2]); (n_u11'bb,[0;3;2])] [1;3]));
  (*510*) AddTo (T 54) (Plain (Einsum [(T 47,[0;1])] [0;1]));
  (*511*) Assign (T 179) (Plain (Zeros [6;6]));
  (*512*) AddTo (T 179) (Plain (Einsum [(T 47,[0;1])] [0;1]));
  (*513*) Del (T 47);
  (*514*) Assign (T 48) (Plain (Zeros [6;6]));
  (*515*) AddTo (T 48) (Plain (Einsum [(n_t1'aa,[0;1]); (n_v'aabb'ovoo,[0;1;2;3])] [2;3]));
  (*516*) AddTo (T 54) (Plain (Einsum [(T 48,[0;1])] [0;1]));
  (*517*) AddTo (T 179) (Plain (Einsum [(T 48,[0;1])] [0;1]));
  (*518*) Del (T 48);
  (*519*) Assign (T 180) (Plain (Zeros [6;6;7;7]));
  (*520*) AddTo (T 180) (Plain (Einsum [(T 179,[0;1]); (n_t2'bbbb,[0;2;3;4])] [2;1;3;4]));
  (*521*) Del (T 179);
  (*522*) Assign (T 181) (Plain (Zeros [6;6;7;7]));
  (*523*) SubFrom (T 181) (Plain (Einsum [(T 180,[0;1;2;3])] [0;1;3;2]));
  (*524*) Del (T 180);
  (*525*) Assign (T 49) (Plain (Zeros [6;6]));
  (*526*) AddTo (T 49) (Plain (Einsum [(n_t2'abab,[0;1;2;3]); (n_v'aabb'ovov,[0;2;4;3])] [1;4]));
  (*527*) AddTo (T 54) (Plain (Einsum [(T 49,[0;1])] [1;0]));
  (*528*) AddTo (T 218) (Plain (Einsum [(T 49,[0;1])] [0;1]));
  (*529*) Del (T 49);
  (*530*) Assign (T 219) (Plain (Zeros [6;6;7;7]));
  (*531*) AddTo (T 219) (Plain (Einsum [(T 218,[0;1]); (n_t2'bbbb,[1;2;3;4])] [0;2;3;4]));
  (*532*) Del (T 218);
  (*533*) AddTo (T 220) (Times (Einsum [(T 219,[0;1;2;3])] [0;1;3;2]) (-1) 1);
  (*534*) Del (T 219);
  (*535*) Assign (T 51) (Plain (Zeros [6;6;6;7]));
  (*536*) AddTo (T 51) (Times (Einsum [(n_v'bbbb'ooov,[0;1;2;3])] [0;2;1;3]) (-1) 1);
  (*537*) AddTo (T 51) (Plain (Einsum [(n_v'bbbb'ooov,[0;1;2;3])] [2;0;1;3]));
  (*538*) Assign (T 52) (Plain (Zeros [6;6]));
  (*539*) AddTo (T 52) (Plain (Einsum [(n_t1'bb,[0;1]); (T 51,[2;0;3;1])] [2;3]));
  (*540*) AddTo (T 54) (Times (Einsum [(T 52,[0;1])] [0;1]) (-1) 1);
  (*541*) Del (T 52);
  (*542*) Assign (T 330) (Plain (Zeros [3;6;6]));
  (*543*) AddTo (T 330) (Times (Einsum [(n_u11'bb,[0;1;2]); (T 51,[3;1;4;2])] [0;3;4]) (-1) 1);
  (*544*) Del (T 51);
  (*545*) AddTo (T 54) (Plain (Einsum [(n_f'bb'oo,[0;1])] [0;1]));
  (*546*) Assign (T 294) (Plain (Zeros [4;6;5;7]));
  (*547*) AddTo (T 294) (Plain (Einsum [(T 54,[0;1]); (n_t2'abab,[2;0;3;4])] [2;1;3;4]));
  (*548*) AddTo n_t2new_baba (Times (Einsum [(T 294,[0;1;2;3])] [1;0;3;2]) (-1) 1);
  (*549*) AddTo n_t2new_abab (Times (Einsum [(T 294,[0;1;2;3])] [0;1;2;3]) (-1) 1);
  (*550*) Del (T 294);
  (*551*) AddTo n_t1new_bb (Times (Einsum [(n_t1'bb,[0;1]); (T 54,[0;2])] [2;1]) (-1) 1);
  (*552*) AddTo n_u11new_bb (Times (Einsum [(T 54,[0;1]); (n_u11'bb,[2;0;3])] [2;1;3]) (-1) 1);
  (*553*) Del (T 54);
  (*554*) Assign (T 55) (Plain (Zeros [7;7]));
  (*555*) AddTo (T 55) (Plain (Einsum [(n_s1,[0]); (n_g'bb'bvv,[0;1;2])] [1;2]));
  (*556*) Assign (T 59) (Plain (Zeros [7;7]));
  (*557*) AddTo (T 59) (Plain (Einsum [(T 55,[0;1])] [0;1]));
  (*558*) Assign (T 174) (Plain (Zeros [7;7]));
  (*559*) AddTo (T 174) (Plain (Einsum [(T 55,[0;1])] [0;1]));
  (*560*) Assign (T 278) (Plain (Zeros [7;7]));
  (*561*) AddTo (T 278) (Plain (Einsum [(T 55,[0;1])] [0;1]));
  (*562*) AddTo (T 328) (Plain (Einsum [(T 55,[0;1])] [0;1]));
  (*563*) Del (T 55);
  (*564*) Assign (T 56) (Plain (Zeros [7;7]));
  (*565*) AddTo (T 56) (Plain (Einsum [(n_t1'aa,[0;1]); (n_v'aabb'ovvv,[0;1;2;3])] [2;3]));
  (*566*) AddTo (T 59) (Plain (Einsum [(T 56,[0;1])] [0;1]));
  (*567*) Assign (T 177) (Plain (Zeros [7;7]));
  (*568*) SubFrom (T 177) (Plain (Einsum [(T 56,[0;1])] [1;0]));
  (*569*) AddTo (T 278) (Plain (Einsum [(T 56,[0;1])] [0;1]));
  (*570*) AddTo (T 328) (Plain (Einsum [(T 56,[0;1])] [0;1]));
  (*571*) Del (T 56);
  (*572*) Assign (T 57) (Plain (Zeros [6;7;7;7]));
  (*573*) AddTo (T 57) (Times (Einsum [(n_v'bbbb'ovvv,[0;1;2;3])] [0;2;1;3]) (-1) 1);
  (*574*) AddTo (T 57) (Plain (Einsum [(n_v'bbbb'ovvv,[0;1;2;3])] [0;2;3;1]));
  (*575*) Assign (T 58) (Plain (Zeros [7;7]));
  (*576*) AddTo (T 58) (Plain (Einsum [(n_t1'bb,[0;1]); (T 57,[0;2;1;3])] [2;3]));
  (*577*) AddTo (T 59) (Times (Einsum [(T 58,[0;1])] [0;1]) (-1) 1);
  (*578*) AddTo (T 278) (Times (Einsum [(T 58,[0;1])] [0;1]) (-1) 1);
  (*579*) AddTo (T 328) (Times (Einsum [(T 58,[0;1])] [0;1]) (-1) 1);
  (*580*) Del (T 58);
  (*581*) Assign (T 193) (Plain (Zeros [6;6;7;7]));
  (*582*) AddTo (T 193) (Plain (Einsum [(n_t1'bb,[0;1]); (T 57,[2;3;4;1])] [0;2;3;4]));
  (*583*) Del (T 57);
  (*584*) Assign (T 194) (Plain (Zeros [6;6;7;7]));
  (*585*) AddTo (T 194) (Times (Einsum [(T 193,[0;1;2;3]); (T 42,[1;4;5;3])] [4;0;5;2]) (-1) 1);
  (*586*) Del (T 193);
  (*587*) AddTo (T 220) (Times (Einsum [(T 194,[0;1;2;3])] [1;0;2;3]) (-1) 1);
  (*588*) Del (T 194);
  (*589*) AddTo (T 59) (Plain (Einsum [(n_f'bb'vv,[0;1])] [0;1]));
  (*590*) AddTo n_t1new_bb (Plain (Einsum [(n_t1'bb,[0;1]); (T 59,[2;1])] [0;2]));
  (*591*) Del (T 59);
  (*592*) Assign (T 60) (Plain (Zeros [4;4;4;4]));
  (*593*) AddTo (T 60) (Plain (Einsum [(n_t1'aa,[0;1]); (n_v'aaaa'ooov,[2;3;4;1])] [0;2;4;3]));
  (*594*) Assign (T 61) (Plain (Zeros [4;4;5;5]));
  (*595*) AddTo (T 61) (Plain (Einsum [(n_t2'aaaa,[0;1;2;3]); (T 60,[4;0;1;5])] [4;5;2;3]));
  (*596*) AddTo (T 88) (Plain (Einsum [(T 61,[0;1;2;3])] [0;1;2;3]));
  (*597*) Del (T 61);
  (*598*) Assign (T 76) (Plain (Zeros [4;4;4;5]));
  (*599*) AddTo (T 76) (Plain (Einsum [(n_t1'aa,[0;1]); (T 60,[2;3;0;4])] [2;3;4;1]));
  (*600*) Del (T 60);
  (*601*) AddTo (T 84) (Plain (Einsum [(T 76,[0;1;2;3])] [0;1;2;3]));
  (*602*) Del (T 76);
  (*603*) Assign (T 64) (Plain (Zeros [4;4;5;5]));
  (*604*) AddTo (T 64) (Plain (Einsum [(n_t2'aaaa,[0;1;2;3])] [1;0;2;3]));
  (*605*) AddTo (T 64) (Times (Einsum [(n_t2'aaaa,[0;1;2;3])] [1;0;3;2]) (-1) 1);
  (*606*) Assign (T 66) (Plain (Zeros [4;4;5;5]));
  (*607*) AddTo (T 66) (Times (Einsum [(T 64,[0;1;2;3]); (T 65,[4;0;5;2])] [1;4;3;5]) (-1) 1);
  (*608*) Del (T 65);
  (*609*) AddTo (T 88) (Times (Einsum [(T 66,[0;1;2;3])] [1;0;2;3]) (-1) 1);
  (*610*) Del (T 66);
  (*611*) Assign (T 237) (Plain (Zeros [4;6;5;7]));
  (*612*) AddTo (T 237) (Plain (Einsum [(n_v'aabb'ovov,[0;1;2;3]); (T 64,[0;4;1;5])] [4;2;5;3]));
  (*613*) AddTo (T 239) (Times (Einsum [(T 237,[0;1;2;3])] [0;1;2;3]) (-1) 1);
  (*614*) Del (T 237);
  (*615*) Assign (T 240) (Plain (Zeros [4;4;5;5]));
  (*616*) AddTo (T 240) (Plain (Einsum [(T 64,[0;1;2;3]); (T 8,[0;4;2;5])] [4;1;5;3]));
  (*617*) Del (T 8);
  (*618*) Assign (T 242) (Plain (Zeros [4;4;5;5]));
  (*619*) AddTo (T 242) (Plain (Einsum [(T 240,[0;1;2;3])] [0;1;3;2]));
  (*620*) Del (T 240);
  (*621*) Assign (T 267) (Plain (Zeros [4;6;6;5]));
  (*622*) AddTo (T 267) (Plain (Einsum [(T 41,[0;1;2;3]); (T 64,[0;4;3;5])] [4;1;2;5]));
  (*623*) Del (T 41);
  (*624*) Del (T 64);
  (*625*) AddTo (T 275) (Times (Einsum [(T 267,[0;1;2;3])] [0;1;2;3]) (-1) 1);
  (*626*) Del (T 267);
  (*627*) Assign (T 67) (Plain (Zeros [4;4;5;5]));
  (*628*) AddTo (T 67) (Plain (Einsum [(n_t2'abab,[0;1;2;3]); (n_v'aabb'ovov,[4;5;1;3])] [0;4;2;5]));
  (*629*) AddTo (T 242) (Plain (Einsum [(T 67,[0;1;2;3])] [1;0;2;3]));
  (*630*) Assign (T 68) (Plain (Zeros [4;4;5;5]));
  (*631*) AddTo (T 68) (Times (Einsum [(n_t2'aaaa,[0;1;2;3])] [1;0;2;3]) (-1) 1);
  (*632*) AddTo (T 68) (Plain (Einsum [(n_t2'aaaa,[0;1;2;3])] [1;0;3;2]));
  (*633*) Assign (T 69) (Plain (Zeros [4;4;5;5]));
  (*634*) AddTo (T 69) (Plain (Einsum [(T 67,[0;1;2;3]); (T 68,[1;4;3;5])] [0;4;2;5]));
  (*635*) Del (T 67);
  (*636*) AddTo (T 88) (Times (Einsum [(T 69,[0;1;2;3])] [1;0;3;2]) (-1) 1);
  (*637*) Del (T 69);
  (*638*) Assign (T 70) (Plain (Zeros [5;5]));
  (*639*) AddTo (T 70) (Plain (Einsum [(n_t2'abab,[0;1;2;3]); (n_v'aabb'ovov,[0;4;1;3])] [2;4]));
  (*640*) AddTo (T 74) (Plain (Einsum [(T 70,[0;1])] [0;1]));
  (*641*) AddTo (T 281) (Times (Einsum [(T 70,[0;1])] [0;1]) (-1) 1);
  (*642*) AddTo (T 322) (Times (Einsum [(T 70,[0;1])] [0;1]) (-1) 1);
  (*643*) Del (T 70);
  (*644*) Assign (T 72) (Plain (Zeros [4;5;5;5]));
  (*645*) AddTo (T 72) (Times (Einsum [(n_v'aaaa'ovvv,[0;1;2;3])] [0;2;1;3]) (-1) 1);
  (*646*) AddTo (T 72) (Plain (Einsum [(n_v'aaaa'ovvv,[0;1;2;3])] [0;2;3;1]));
  (*647*) Assign (T 73) (Plain (Zeros [5;5]));
  (*648*) AddTo (T 73) (Plain (Einsum [(n_t1'aa,[0;1]); (T 72,[0;2;3;1])] [2;3]));
  (*649*) AddTo (T 74) (Times (Einsum [(T 73,[0;1])] [0;1]) (-1) 1);
  (*650*) Del (T 73);
  (*651*) Assign (T 75) (Plain (Zeros [4;4;5;5]));
  (*652*) AddTo (T 75) (Plain (Einsum [(T 74,[0;1]); (n_t2'aaaa,[2;3;1;4])] [2;3;4;0]));
  (*653*) Del (T 74);
  (*654*) AddTo (T 88) (Plain (Einsum [(T 75,[0;1;2;3])] [1;0;2;3]));
  (*655*) Del (T 75);
  (*656*) Assign (T 241) (Plain (Zeros [4;4;5;5]));
  (*657*) AddTo (T 241) (Plain (Einsum [(n_t1'aa,[0;1]); (T 72,[2;3;4;1])] [0;2;3;4]));
  (*658*) Del (T 72);
  (*659*) AddTo (T 242) (Times (Einsum [(T 241,[0;1;2;3])] [1;0;2;3]) (-1) 1);
  (*660*) Del (T 241);
  (*661*) Assign (T 77) (Plain (Zeros [4;4;4;5]));
  (*662*) AddTo (T 77) (Plain (Einsum [(n_t2'aaaa,[0;1;2;3]); (n_v'aaaa'ovvv,[4;2;5;3])] [0;1;4;5]));
  (*663*) AddTo (T 84) (Plain (Einsum [(T 77,[0;1;2;3])] [0;2;1;3]));
  (*664*) Del (T 77);
  (*665*) Assign (T 78) (Plain (Zeros [4;4;5;5]));
  (*666*) AddTo (T 78) (Plain (Einsum [(n_t1'aa,[0;1]); (n_v'aaaa'ovvv,[2;3;4;1])] [0;2;4;3]));
  (*667*) Assign (T 79) (Plain (Zeros [4;4;4;5]));
  (*668*) AddTo (T 79) (Plain (Einsum [(n_t1'aa,[0;1]); (T 78,[2;3;4;1])] [0;2;3;4]));
  (*669*) Del (T 78);
  (*670*) AddTo (T 84) (Plain (Einsum [(T 79,[0;1;2;3])] [0;2;1;3]));
  (*671*) Del (T 79);
  (*672*) Assign (T 82) (Plain (Zeros [4;4;4;5]));
  (*673*) AddTo (T 82) (Times (Einsum [(n_v'aaaa'ooov,[0;1;2;3])] [0;2;1;3]) (-1) 1);
  (*674*) AddTo (T 82) (Plain (Einsum [(n_v'aaaa'ooov,[0;1;2;3])] [2;0;1;3]));
  (*675*) Assign (T 83) (Plain (Zeros [4;4;4;5]));
  (*676*) AddTo (T 83) (Plain (Einsum [(T 68,[0;1;2;3]); (T 82,[0;4;5;3])] [1;4;5;2]));
  (*677*) Del (T 82);
  (*678*) Del (T 68);
  (*679*) AddTo (T 84) (Plain (Einsum [(T 83,[0;1;2;3])] [0;1;2;3]));
  (*680*) Del (T 83);
  (*681*) Assign (T 85) (Plain (Zeros [4;4;5;5]));
  (*682*) AddTo (T 85) (Plain (Einsum [(n_t1'aa,[0;1]); (T 84,[2;0;3;4])] [2;3;1;4]));
  (*683*) Del (T 84);
  (*684*) AddTo (T 88) (Plain (Einsum [(T 85,[0;1;2;3])] [0;1;2;3]));
  (*685*) Del (T 85);
  (*686*) Assign n_t2new_aaaa (Plain (Zeros [4;4;5;5]));
  (*687*) AddTo n_t2new_aaaa (Times (Einsum [(T 88,[0;1;2;3])] [0;1;2;3]) (-1) 1);
  (*688*) AddTo n_t2new_aaaa (Plain (Einsum [(T 88,[0;1;2;3])] [0;1;3;2]));
  (*689*) AddTo n_t2new_aaaa (Plain (Einsum [(T 88,[0;1;2;3])] [1;0;2;3]));
  (*690*) AddTo n_t2new_aaaa (Times (Einsum [(T 88,[0;1;2;3])] [1;0;3;2]) (-1) 1);
  (*691*) Del (T 88);
  (*692*) Assign (T 89) (Plain (Zeros [4;4;5;5]));
  (*693*) AddTo (T 89) (Plain (Einsum [(n_t1'aa,[0;1]); (n_v'aaaa'vovv,[2;3;4;1])] [0;3;2;4]));
  (*694*) SubFrom (T 124) (Plain (Einsum [(T 89,[0;1;2;3])] [0;1;2;3]));
  (*695*) Del (T 89);
  (*696*) Assign (T 90) (Plain (Zeros [4;4;5;5]));
  (*697*) AddTo (T 90) (Plain (Einsum [(n_t2'abab,[0;1;2;3]); (n_v'bbaa'ovvo,[1;3;4;5])] [0;5;2;4]));
  (*698*) AddTo (T 124) (Plain (Einsum [(T 90,[0;1;2;3])] [0;1;2;3]));
  (*699*) Del (T 90);
  (*700*) Assign (T 91) (Plain (Zeros [4;6;5;7]));
  (*701*) AddTo (T 91) (Plain (Einsum [(n_t1'aa,[0;1]); (n_v'bbaa'ovvv,[2;3;4;1])] [0;2;4;3]));
  (*702*) Assign (T 92) (Plain (Zeros [4;4;5;5]));
  (*703*) AddTo (T 92) (Plain (Einsum [(n_t2'abab,[0;1;2;3]); (T 91,[4;1;5;3])] [4;0;2;5]));
  (*704*) SubFrom (T 124) (Plain (Einsum [(T 92,[0;1;2;3])] [0;1;2;3]));
  (*705*) Del (T 92);
  (*706*) AddTo (T 239) (Plain (Einsum [(T 91,[0;1;2;3])] [0;1;2;3]));
  (*707*) Del (T 91);
  (*708*) Assign (T 93) (Plain (Zeros [4;4;5;5]));
  (*709*) SubFrom (T 93) (Plain (Einsum [(n_t2'aaaa,[0;1;2;3])] [1;0;2;3]));
  (*710*) AddTo (T 93) (Plain (Einsum [(n_t2'aaaa,[0;1;2;3])] [1;0;3;2]));
  (*711*) Assign (T 94) (Plain (Zeros [4;4;5;5]));
  (*712*) AddTo (T 94) (Plain (Einsum [(T 17,[0;1;2;3]); (T 93,[0;4;5;3])] [1;4;2;5]));
  (*713*) Del (T 17);
  (*714*) SubFrom (T 124) (Plain (Einsum [(T 94,[0;1;2;3])] [1;0;3;2]));
  (*715*) Del (T 94);
  (*716*) Assign (T 100) (Plain (Zeros [4;4;4;5]));
  (*717*) AddTo (T 100) (Plain (Einsum [(T 93,[0;1;2;3]); (T 99,[4;5;0;3])] [1;4;5;2]));
  (*718*) Del (T 99);
  (*719*) Del (T 93);
  (*720*) AddTo (T 106) (Plain (Einsum [(T 100,[0;1;2;3])] [2;1;0;3]));
  (*721*) Del (T 100);
  (*722*) Assign (T 95) (Plain (Zeros [4;4;5;5]));
  (*723*) SubFrom (T 95) (Plain (Einsum [(n_v'aaaa'ovov,[0;1;2;3])] [2;0;1;3]));
  (*724*) AddTo (T 95) (Plain (Einsum [(n_v'aaaa'ovov,[0;1;2;3])] [2;0;3;1]));
  (*725*) Assign (T 96) (Plain (Zeros [4;4;5;5]));
  (*726*) AddTo (T 96) (Plain (Einsum [(n_t2'aaaa,[0;1;2;3]); (T 95,[0;4;5;3])] [1;4;2;5]));
  (*727*) Assign (T 97) (Plain (Zeros [4;4;5;5]));
  (*728*) SubFrom (T 97) (Plain (Einsum [(n_t2'aaaa,[0;1;2;3]); (T 96,[4;0;5;2])] [1;4;3;5]));
  (*729*) SubFrom (T 124) (Plain (Einsum [(T 97,[0;1;2;3])] [0;1;2;3]));
  (*730*) Del (T 97);
  (*731*) Assign (T 130) (Plain (Zeros [4;4;5;5]));
  (*732*) SubFrom (T 130) (Plain (Einsum [(n_t2'aaaa,[0;1;2;3]); (T 96,[4;0;5;3])] [1;4;2;5]));
  (*733*) Del (T 96);
  (*734*) AddTo (T 134) (Plain (Einsum [(T 130,[0;1;2;3])] [1;0;3;2]));
  (*735*) Del (T 130);
  (*736*) Assign (T 128) (Plain (Zeros [4;4;5;5]));
  (*737*) AddTo (T 128) (Plain (Einsum [(n_t2'aaaa,[0;1;2;3]); (T 95,[0;4;5;2])] [1;4;3;5]));
  (*738*) Del (T 95);
  (*739*) Assign (T 129) (Plain (Zeros [4;4;5;5]));
  (*740*) SubFrom (T 129) (Plain (Einsum [(n_t2'aaaa,[0;1;2;3]); (T 128,[4;0;5;2])] [1;4;3;5]));
  (*741*) Del (T 128);
  (*742*) AddTo (T 134) (Plain (Einsum [(T 129,[0;1;2;3])] [0;1;2;3]));
  (*743*) Del (T 129);
  (*744*) Assign (T 98) (Plain (Zeros [4;4;4;5]));
  (*745*) AddTo (T 98) (Plain (Einsum [(n_t2'abab,[0;1;2;3]); (n_v'aabb'ooov,[4;5;1;3])] [0;4;5;2]));
  (*746*) AddTo (T 106) (Plain (Einsum [(T 98,[0;1;2;3])] [1;0;2;3]));
  (*747*) Del (T 98);
  (*748*) Assign (T 101) (Plain (Zeros [4;4;5;5]));
  (*749*) AddTo (T 101) (Plain (Einsum [(n_v'aaaa'ovov,[0;1;2;3])] [2;0;1;3]));
  (*750*) SubFrom (T 101) (Plain (Einsum [(n_v'aaaa'ovov,[0;1;2;3])] [2;0;3;1]));
  (*751*) Assign (T 102) (Plain (Zeros [4;5]));
  (*752*) AddTo (T 102) (Plain (Einsum [(n_t1'aa,[0;1]); (T 101,[0;2;1;3])] [2;3]));
  (*753*) SubFrom (T 103) (Plain (Einsum [(T 102,[0;1])] [0;1]));
  (*754*) SubFrom (T 301) (Plain (Einsum [(T 102,[0;1])] [0;1]));
  (*755*) Del (T 102);
  (*756*) Assign (T 230) (Plain (Zeros [4;6;5;7]));
  (*757*) AddTo (T 230) (Plain (Einsum [(n_t2'abab,[0;1;2;3]); (T 101,[0;4;2;5])] [4;1;5;3]));
  (*758*) Assign (T 231) (Plain (Zeros [6;6;7;7]));
  (*759*) SubFrom (T 231) (Plain (Einsum [(n_t2'abab,[0;1;2;3]); (T 230,[0;4;2;5])] [4;1;5;3]));
  (*760*) Del (T 230);
  (*761*) Assign n_t2new_bbbb (Plain (Zeros [6;6;7;7]));
  (*762*) SubFrom n_t2new_bbbb (Plain (Einsum [(T 231,[0;1;2;3])] [0;1;3;2]));
  (*763*) AddTo n_t2new_bbbb (Plain (Einsum [(T 231,[0;1;2;3])] [1;0;3;2]));
  (*764*) Del (T 231);
  (*765*) Assign (T 312) (Plain (Zeros [3;4;5]));
  (*766*) SubFrom (T 312) (Plain (Einsum [(n_u11'aa,[0;1;2]); (T 101,[1;3;2;4])] [0;3;4]));
  (*767*) Del (T 101);
  (*768*) Assign n_s2new (Plain (Zeros [3;3]));
  (*769*) AddTo n_s2new (Plain (Einsum [(n_u11'aa,[0;1;2]); (T 312,[3;1;2])] [3;0]));
  (*770*) Del (T 312);
  (*771*) AddTo (T 103) (Plain (Einsum [(n_f'aa'ov,[0;1])] [0;1]));
  (*772*) Assign (T 104) (Plain (Zeros [4;4;4;5]));
  (*773*) AddTo (T 104) (Plain (Einsum [(T 103,[0;1]); (n_t2'aaaa,[2;3;1;4])] [2;3;0;4]));
  (*774*) AddTo (T 106) (Plain (Einsum [(T 104,[0;1;2;3])] [2;1;0;3]));
  (*775*) Del (T 104);
  (*776*) Assign (T 108) (Plain (Zeros [4;4]));
  (*777*) AddTo (T 108) (Plain (Einsum [(n_t1'aa,[0;1]); (T 103,[2;1])] [0;2]));
  (*778*) Del (T 103);
  (*779*) AddTo (T 109) (Plain (Einsum [(T 108,[0;1])] [0;1]));
  (*780*) Del (T 108);
  (*781*) SubFrom (T 106) (Plain (Einsum [(n_v'aaaa'oovo,[0;1;2;3])] [0;1;3;2]));
  (*782*) Assign (T 107) (Plain (Zeros [4;4;5;5]));
  (*783*) AddTo (T 107) (Plain (Einsum [(n_t1'aa,[0;1]); (T 106,[0;2;3;4])] [2;3;1;4]));
  (*784*) Del (T 106);
  (*785*) AddTo (T 124) (Plain (Einsum [(T 107,[0;1;2;3])] [0;1;2;3]));
  (*786*) Del (T 107);
  (*787*) AddTo (T 109) (Plain (Einsum [(n_f'aa'oo,[0;1])] [1;0]));
  (*788*) Assign (T 110) (Plain (Zeros [4;4;5;5]));
  (*789*) AddTo (T 110) (Plain (Einsum [(T 109,[0;1]); (n_t2'aaaa,[1;2;3;4])] [2;0;3;4]));
  (*790*) Del (T 109);
  (*791*) AddTo (T 124) (Plain (Einsum [(T 110,[0;1;2;3])] [1;0;3;2]));
  (*792*) Del (T 110);
  (*793*) Assign (T 111) (Plain (Zeros [3;4;5]));
  (*794*) AddTo (T 111) (Plain (Einsum [(n_t1'aa,[0;1]); (n_g'aa'bvv,[2;3;1])] [2;0;3]));
  (*795*) AddTo (T 115) (Plain (Einsum [(T 111,[0;1;2])] [0;1;2]));
  (*796*) Del (T 111);
  (*797*) Assign (T 112) (Plain (Zeros [3;4;5]));
  (*798*) AddTo (T 112) (Plain (Einsum [(n_g'bb'bov,[0;1;2]); (n_t2'abab,[3;1;4;2])] [0;3;4]));
  (*799*) AddTo (T 115) (Plain (Einsum [(T 112,[0;1;2])] [0;1;2]));
  (*800*) Del (T 112);
  (*801*) AddTo (T 115) (Plain (Einsum [(n_g'aa'bvo,[0;1;2])] [0;2;1]));
  (*802*) Assign (T 116) (Plain (Zeros [4;4;5;5]));
  (*803*) AddTo (T 116) (Plain (Einsum [(n_u11'aa,[0;1;2]); (T 115,[0;3;4])] [1;3;2;4]));
  (*804*) AddTo (T 124) (Plain (Einsum [(T 116,[0;1;2;3])] [1;0;3;2]));
  (*805*) Del (T 116);
  (*806*) Assign (T 297) (Plain (Zeros [4;6;5;7]));
  (*807*) AddTo (T 297) (Plain (Einsum [(n_u11'bb,[0;1;2]); (T 115,[0;3;4])] [3;1;4;2]));
  (*808*) Del (T 115);
  (*809*) AddTo n_t2new_baba (Plain (Einsum [(T 297,[0;1;2;3])] [1;0;3;2]));
  (*810*) AddTo n_t2new_abab (Plain (Einsum [(T 297,[0;1;2;3])] [0;1;2;3]));
  (*811*) Del (T 297);
  (*812*) AddTo (T 117) (Plain (Einsum [(n_f'aa'vv,[0;1])] [0;1]));
  (*813*) Assign (T 118) (Plain (Zeros [4;4;5;5]));
  (*814*) AddTo (T 118) (Plain (Einsum [(T 117,[0;1]); (n_t2'aaaa,[2;3;1;4])] [2;3;4;0]));
  (*815*) Del (T 117);
  (*816*) SubFrom (T 124) (Plain (Einsum [(T 118,[0;1;2;3])] [1;0;3;2]));
  (*817*) Del (T 118);
  (*818*) Assign (T 119) (Plain (Zeros [5;5]));
  (*819*) AddTo (T 119) (Plain (Einsum [(n_g'aa'bov,[0;1;2]); (n_u11'aa,[0;1;3])] [2;3]));
  (*820*) AddTo (T 120) (Plain (Einsum [(T 119,[0;1])] [0;1]));
  (*821*) Assign (T 121) (Plain (Zeros [4;4;5;5]));
  (*822*) AddTo (T 121) (Plain (Einsum [(T 120,[0;1]); (n_t2'aaaa,[2;3;0;4])] [2;3;4;1]));
  (*823*) Del (T 120);
  (*824*) SubFrom (T 124) (Plain (Einsum [(T 121,[0;1;2;3])] [1;0;2;3]));
  (*825*) Del (T 121);
  (*826*) AddTo n_t2new_aaaa (Plain (Einsum [(T 124,[0;1;2;3])] [0;1;2;3]));
  (*827*) SubFrom n_t2new_aaaa (Plain (Einsum [(T 124,[0;1;2;3])] [0;1;3;2]));
  (*828*) SubFrom n_t2new_aaaa (Plain (Einsum [(T 124,[0;1;2;3])] [1;0;2;3]));
  (*829*) AddTo n_t2new_aaaa (Plain (Einsum [(T 124,[0;1;2;3])] [1;0;3;2]));
  (*830*) Del (T 124);
  (*831*) AddTo (T 281) (Times (Einsum [(T 119,[0;1])] [1;0]) (-1) 1);
  (*832*) AddTo (T 322) (Times (Einsum [(T 119,[0;1])] [1;0]) (-1) 1);
  (*833*) Del (T 119);
  (*834*) Assign (T 131) (Plain (Zeros [6;6;7;7]));
  (*835*) SubFrom (T 131) (Plain (Einsum [(n_v'bbbb'ovov,[0;1;2;3])] [2;0;1;3]));
  (*836*) AddTo (T 131) (Plain (Einsum [(n_v'bbbb'ovov,[0;1;2;3])] [2;0;3;1]));
  (*837*) Assign (T 132) (Plain (Zeros [4;6;5;7]));
  (*838*) AddTo (T 132) (Plain (Einsum [(n_t2'abab,[0;1;2;3]); (T 131,[1;4;5;3])] [0;4;2;5]));
  (*839*) Assign (T 133) (Plain (Zeros [4;4;5;5]));
  (*840*) SubFrom (T 133) (Plain (Einsum [(n_t2'abab,[0;1;2;3]); (T 132,[4;1;5;3])] [0;4;2;5]));
  (*841*) Del (T 132);
  (*842*) AddTo (T 134) (Plain (Einsum [(T 133,[0;1;2;3])] [0;1;2;3]));
  (*843*) Del (T 133);
  (*844*) AddTo n_t2new_aaaa (Plain (Einsum [(T 134,[0;1;2;3])] [0;1;2;3]));
  (*845*) SubFrom n_t2new_aaaa (Plain (Einsum [(T 134,[0;1;2;3])] [0;1;3;2]));
  (*846*) Del (T 134);
  (*847*) Assign (T 153) (Plain (Zeros [6;6;7;7]));
  (*848*) AddTo (T 153) (Plain (Einsum [(n_t2'bbbb,[0;1;2;3]); (T 131,[0;4;5;3])] [1;4;2;5]));
  (*849*) Assign (T 154) (Plain (Zeros [6;6;7;7]));
  (*850*) SubFrom (T 154) (Plain (Einsum [(n_t2'bbbb,[0;1;2;3]); (T 153,[4;0;5;2])] [1;4;3;5]));
  (*851*) SubFrom (T 181) (Plain (Einsum [(T 154,[0;1;2;3])] [0;1;2;3]));
  (*852*) Del (T 154);
  (*853*) Assign (T 187) (Plain (Zeros [6;6;7;7]));
  (*854*) SubFrom (T 187) (Plain (Einsum [(n_t2'bbbb,[0;1;2;3]); (T 153,[4;0;5;3])] [1;4;2;5]));
  (*855*) Del (T 153);
  (*856*) AddTo (T 188) (Plain (Einsum [(T 187,[0;1;2;3])] [0;1;2;3]));
  (*857*) Del (T 187);
  (*858*) Assign (T 159) (Plain (Zeros [6;7]));
  (*859*) AddTo (T 159) (Plain (Einsum [(n_t1'bb,[0;1]); (T 131,[0;2;3;1])] [2;3]));
  (*860*) SubFrom (T 160) (Plain (Einsum [(T 159,[0;1])] [0;1]));
  (*861*) SubFrom (T 302) (Plain (Einsum [(T 159,[0;1])] [0;1]));
  (*862*) Del (T 159);
  (*863*) Assign (T 185) (Plain (Zeros [6;6;7;7]));
  (*864*) AddTo (T 185) (Plain (Einsum [(n_t2'bbbb,[0;1;2;3]); (T 131,[0;4;5;2])] [1;4;3;5]));
  (*865*) Assign (T 186) (Plain (Zeros [6;6;7;7]));
  (*866*) SubFrom (T 186) (Plain (Einsum [(n_t2'bbbb,[0;1;2;3]); (T 185,[4;0;5;2])] [1;4;3;5]));
  (*867*) Del (T 185);
  (*868*) AddTo (T 188) (Plain (Einsum [(T 186,[0;1;2;3])] [1;0;3;2]));
  (*869*) Del (T 186);
  (*870*) AddTo n_t2new_bbbb (Plain (Einsum [(T 188,[0;1;2;3])] [0;1;2;3]));
  (*871*) SubFrom n_t2new_bbbb (Plain (Einsum [(T 188,[0;1;2;3])] [0;1;3;2]));
  (*872*) Del (T 188);
  (*873*) Assign (T 313) (Plain (Zeros [3;6;7]));
  (*874*) SubFrom (T 313) (Plain (Einsum [(n_u11'bb,[0;1;2]); (T 131,[1;3;4;2])] [0;3;4]));
  (*875*) Del (T 131);
  (*876*) AddTo n_s2new (Plain (Einsum [(n_u11'bb,[0;1;2]); (T 313,[3;1;2])] [3;0]));
  (*877*) Del (T 313);
  (*878*) Assign (T 135) (Plain (Zeros [4;4;5;5]));
  (*879*) AddTo (T 135) (Plain (Einsum [(n_t2'aaaa,[0;1;2;3]); (n_v'aaaa'oooo,[0;4;1;5])] [4;5;2;3]));
  (*880*) Assign (T 137) (Plain (Zeros [4;4;5;5]));
  (*881*) AddTo (T 137) (Plain (Einsum [(T 135,[0;1;2;3])] [1;0;3;2]));
  (*882*) Del (T 135);
  (*883*) Assign (T 136) (Plain (Zeros [4;4;5;5]));
  (*884*) AddTo (T 136) (Plain (Einsum [(n_t2'aaaa,[0;1;2;3]); (n_v'aaaa'vvvv,[4;2;5;3])] [0;1;4;5]));
  (*885*) AddTo (T 137) (Plain (Einsum [(T 136,[0;1;2;3])] [1;0;3;2]));
  (*886*) Del (T 136);
  (*887*) AddTo n_t2new_aaaa (Times (Einsum [(T 137,[0;1;2;3])] [0;1;3;2]) (-1) 1);
  (*888*) AddTo n_t2new_aaaa (Plain (Einsum [(T 137,[0;1;2;3])] [0;1;2;3]));
  (*889*) Del (T 137);
  (*890*) Assign (T 138) (Plain (Zeros [4;4;4;5]));
  (*891*) AddTo (T 138) (Plain (Einsum [(n_t1'aa,[0;1]); (n_v'aaaa'oooo,[2;3;0;4])] [2;3;4;1]));
  (*892*) Assign (T 139) (Plain (Zeros [4;4;5;5]));
  (*893*) AddTo (T 139) (Plain (Einsum [(n_t1'aa,[0;1]); (T 138,[0;2;3;4])] [2;3;1;4]));
  (*894*) Del (T 138);
  (*895*) AddTo (T 146) (Plain (Einsum [(T 139,[0;1;2;3])] [0;1;2;3]));
  (*896*) Del (T 139);
  (*897*) Assign (T 140) (Plain (Zeros [4;5;5;5]));
  (*898*) AddTo (T 140) (Plain (Einsum [(n_t1'aa,[0;1]); (n_v'aaaa'vvvv,[2;1;3;4])] [0;3;2;4]));
  (*899*) Assign (T 141) (Plain (Zeros [4;4;5;5]));
  (*900*) AddTo (T 141) (Plain (Einsum [(n_t1'aa,[0;1]); (T 140,[2;3;4;1])] [0;2;3;4]));
  (*901*) Del (T 140);
  (*902*) AddTo (T 146) (Plain (Einsum [(T 141,[0;1;2;3])] [0;1;2;3]));
  (*903*) Del (T 141);
  (*904*) Assign (T 143) (Plain (Zeros [4;4;4;4]));
  (*905*) AddTo (T 143) (Plain (Einsum [(n_t2'aaaa,[0;1;2;3]); (n_v'aaaa'ovov,[4;2;5;3])] [0;1;4;5]));
  (*906*) Assign (T 144) (Plain (Zeros [4;4;5;5]));
  (*907*) AddTo (T 144) (Plain (Einsum [(n_t2'aaaa,[0;1;2;3])] [1;0;3;2]));
  (*908*) AddTo (T 144) (Plain (Einsum [(n_t1'aa,[0;1]); (n_t1'aa,[2;3])] [0;2;1;3]));
  (*909*) Assign (T 145) (Plain (Zeros [4;4;5;5]));
  (*910*) AddTo (T 145) (Plain (Einsum [(T 143,[0;1;2;3]); (T 144,[2;3;4;5])] [0;1;4;5]));
  (*911*) Del (T 143);
  (*912*) Del (T 144);
  (*913*) AddTo (T 146) (Plain (Einsum [(T 145,[0;1;2;3])] [1;0;3;2]));
  (*914*) Del (T 145);
  (*915*) AddTo n_t2new_aaaa (Plain (Einsum [(T 146,[0;1;2;3])] [0;1;2;3]));
  (*916*) AddTo n_t2new_aaaa (Times (Einsum [(T 146,[0;1;2;3])] [0;1;3;2]) (-1) 1);
  (*917*) Del (T 146);
  (*918*) Assign (T 147) (Plain (Zeros [6;6;7;7]));
  (*919*) AddTo (T 147) (Plain (Einsum [(n_t1'bb,[0;1]); (n_v'bbbb'vovv,[2;3;4;1])] [0;3;2;4]));
  (*920*) SubFrom (T 181) (Plain (Einsum [(T 147,[0;1;2;3])] [0;1;2;3]));
  (*921*) Del (T 147);
  (*922*) Assign (T 148) (Plain (Zeros [6;6;7;7]));
  (*923*) AddTo (T 148) (Plain (Einsum [(n_t2'abab,[0;1;2;3]); (n_v'aabb'ovvo,[0;2;4;5])] [1;5;3;4]));
  (*924*) AddTo (T 181) (Plain (Einsum [(T 148,[0;1;2;3])] [0;1;2;3]));
  (*925*) Del (T 148);
  (*926*) Assign (T 149) (Plain (Zeros [4;6;5;7]));
  (*927*) AddTo (T 149) (Plain (Einsum [(n_t1'bb,[0;1]); (n_v'aabb'ovvv,[2;3;4;1])] [2;0;3;4]));
  (*928*) Assign (T 150) (Plain (Zeros [6;6;7;7]));
  (*929*) AddTo (T 150) (Plain (Einsum [(n_t2'abab,[0;1;2;3]); (T 149,[0;4;2;5])] [4;1;3;5]));
  (*930*) SubFrom (T 181) (Plain (Einsum [(T 150,[0;1;2;3])] [0;1;2;3]));
  (*931*) Del (T 150);
  (*932*) Assign (T 244) (Plain (Zeros [4;6;5;7]));
  (*933*) AddTo (T 244) (Plain (Einsum [(T 149,[0;1;2;3])] [0;1;2;3]));
  (*934*) Assign (T 290) (Plain (Zeros [4;6;5;7]));
  (*935*) AddTo (T 290) (Plain (Einsum [(T 149,[0;1;2;3])] [0;1;2;3]));
  (*936*) Del (T 149);
  (*937*) Assign (T 151) (Plain (Zeros [6;6;7;7]));
  (*938*) SubFrom (T 151) (Plain (Einsum [(n_t2'bbbb,[0;1;2;3])] [1;0;2;3]));
  (*939*) AddTo (T 151) (Plain (Einsum [(n_t2'bbbb,[0;1;2;3])] [1;0;3;2]));
  (*940*) Assign (T 152) (Plain (Zeros [6;6;7;7]));
  (*941*) AddTo (T 152) (Plain (Einsum [(T 151,[0;1;2;3]); (T 43,[0;4;5;3])] [4;1;5;2]));
  (*942*) Del (T 43);
  (*943*) SubFrom (T 181) (Plain (Einsum [(T 152,[0;1;2;3])] [1;0;3;2]));
  (*944*) Del (T 152);
  (*945*) Assign (T 170) (Plain (Zeros [3;6;7]));
  (*946*) AddTo (T 170) (Plain (Einsum [(n_g'bb'bov,[0;1;2]); (T 151,[1;3;4;2])] [0;3;4]));
  (*947*) Del (T 151);
  (*948*) SubFrom (T 172) (Plain (Einsum [(T 170,[0;1;2])] [0;1;2]));
  (*949*) Del (T 170);
  (*950*) Assign (T 155) (Plain (Zeros [6;6;6;7]));
  (*951*) AddTo (T 155) (Plain (Einsum [(n_t2'abab,[0;1;2;3]); (n_v'aabb'ovoo,[0;2;4;5])] [1;4;5;3]));
  (*952*) AddTo (T 163) (Plain (Einsum [(T 155,[0;1;2;3])] [1;0;2;3]));
  (*953*) Del (T 155);
  (*954*) Assign (T 157) (Plain (Zeros [6;6;7;7]));
  (*955*) AddTo (T 157) (Plain (Einsum [(n_t2'bbbb,[0;1;2;3])] [1;0;2;3]));
  (*956*) SubFrom (T 157) (Plain (Einsum [(n_t2'bbbb,[0;1;2;3])] [1;0;3;2]));
  (*957*) Assign (T 158) (Plain (Zeros [6;6;6;7]));
  (*958*) AddTo (T 158) (Plain (Einsum [(T 156,[0;1;2;3]); (T 157,[2;4;3;5])] [0;1;4;5]));
  (*959*) Del (T 156);
  (*960*) AddTo (T 163) (Plain (Einsum [(T 158,[0;1;2;3])] [1;0;2;3]));
  (*961*) Del (T 158);
  (*962*) AddTo (T 160) (Plain (Einsum [(n_f'bb'ov,[0;1])] [0;1]));
  (*963*) Assign (T 161) (Plain (Zeros [6;6;6;7]));
  (*964*) AddTo (T 161) (Plain (Einsum [(T 160,[0;1]); (n_t2'bbbb,[2;3;1;4])] [2;3;0;4]));
  (*965*) AddTo (T 163) (Plain (Einsum [(T 161,[0;1;2;3])] [2;1;0;3]));
  (*966*) Del (T 161);
  (*967*) Assign (T 165) (Plain (Zeros [6;6]));
  (*968*) AddTo (T 165) (Plain (Einsum [(n_t1'bb,[0;1]); (T 160,[2;1])] [0;2]));
  (*969*) Del (T 160);
  (*970*) AddTo (T 166) (Plain (Einsum [(T 165,[0;1])] [0;1]));
  (*971*) Del (T 165);
  (*972*) SubFrom (T 163) (Plain (Einsum [(n_v'bbbb'oovo,[0;1;2;3])] [0;1;3;2]));
  (*973*) Assign (T 164) (Plain (Zeros [6;6;7;7]));
  (*974*) AddTo (T 164) (Plain (Einsum [(n_t1'bb,[0;1]); (T 163,[0;2;3;4])] [2;3;1;4]));
  (*975*) Del (T 163);
  (*976*) AddTo (T 181) (Plain (Einsum [(T 164,[0;1;2;3])] [0;1;2;3]));
  (*977*) Del (T 164);
  (*978*) AddTo (T 166) (Plain (Einsum [(n_f'bb'oo,[0;1])] [1;0]));
  (*979*) Assign (T 167) (Plain (Zeros [6;6;7;7]));
  (*980*) AddTo (T 167) (Plain (Einsum [(T 166,[0;1]); (n_t2'bbbb,[1;2;3;4])] [2;0;3;4]));
  (*981*) Del (T 166);
  (*982*) AddTo (T 181) (Plain (Einsum [(T 167,[0;1;2;3])] [1;0;3;2]));
  (*983*) Del (T 167);
  (*984*) Assign (T 168) (Plain (Zeros [3;6;7]));
  (*985*) AddTo (T 168) (Plain (Einsum [(n_t1'bb,[0;1]); (n_g'bb'bvv,[2;3;1])] [2;0;3]));
  (*986*) AddTo (T 172) (Plain (Einsum [(T 168,[0;1;2])] [0;1;2]));
  (*987*) Del (T 168);
  (*988*) Assign (T 169) (Plain (Zeros [3;6;7]));
  (*989*) AddTo (T 169) (Plain (Einsum [(n_g'aa'bov,[0;1;2]); (n_t2'abab,[1;3;2;4])] [0;3;4]));
  (*990*) AddTo (T 172) (Plain (Einsum [(T 169,[0;1;2])] [0;1;2]));
  (*991*) Del (T 169);
  (*992*) AddTo (T 172) (Plain (Einsum [(n_g'bb'bvo,[0;1;2])] [0;2;1]));
  (*993*) Assign (T 173) (Plain (Zeros [6;6;7;7]));
  (*994*) AddTo (T 173) (Plain (Einsum [(n_u11'bb,[0;1;2]); (T 172,[0;3;4])] [1;3;2;4]));
  (*995*) AddTo (T 181) (Plain (Einsum [(T 173,[0;1;2;3])] [1;0;3;2]));
  (*996*) Del (T 173);
  (*997*) Assign (T 296) (Plain (Zeros [4;6;5;7]));
  (*998*) AddTo (T 296) (Plain (Einsum [(n_u11'aa,[0;1;2]); (T 172,[0;3;4])] [1;3;2;4]));
  (*999*) Del (T 172);
  (*1000*) AddTo n_t2new_baba (Plain (Einsum [(T 296,[0;1;2;3])] [1;0;3;2]));
  (*1001*) AddTo n_t2new_abab (Plain (Einsum [(T 296,[0;1;2;3])] [0;1;2;3]));
  (*1002*) Del (T 296);
  (*1003*) AddTo (T 174) (Plain (Einsum [(n_f'bb'vv,[0;1])] [0;1]));
  (*1004*) Assign (T 175) (Plain (Zeros [6;6;7;7]));
  (*1005*) AddTo (T 175) (Plain (Einsum [(T 174,[0;1]); (n_t2'bbbb,[2;3;1;4])] [2;3;4;0]));
  (*1006*) Del (T 174);
  (*1007*) SubFrom (T 181) (Plain (Einsum [(T 175,[0;1;2;3])] [1;0;3;2]));
  (*1008*) Del (T 175);
  (*1009*) Assign (T 176) (Plain (Zeros [7;7]));
  (*1010*) AddTo (T 176) (Plain (Einsum [(n_g'bb'bov,[0;1;2]); (n_u11'bb,[0;1;3])] [2;3]));
  (*1011*) AddTo (T 177) (Plain (Einsum [(T 176,[0;1])] [0;1]));
  (*1012*) Assign (T 178) (Plain (Zeros [6;6;7;7]));
  (*1013*) AddTo (T 178) (Plain (Einsum [(T 177,[0;1]); (n_t2'bbbb,[2;3;0;4])] [2;3;4;1]));
  (*1014*) Del (T 177);
  (*1015*) SubFrom (T 181) (Plain (Einsum [(T 178,[0;1;2;3])] [1;0;2;3]));
  (*1016*) Del (T 178);
  (*1017*) AddTo n_t2new_bbbb (Plain (Einsum [(T 181,[0;1;2;3])] [0;1;2;3]));
  (*1018*) SubFrom n_t2new_bbbb (Plain (Einsum [(T 181,[0;1;2;3])] [0;1;3;2]));
  (*1019*) SubFrom n_t2new_bbbb (Plain (Einsum [(T 181,[0;1;2;3])] [1;0;2;3]));
  (*1020*) AddTo n_t2new_bbbb (Plain (Einsum [(T 181,[0;1;2;3])] [1;0;3;2]));
  (*1021*) Del (T 181);
  (*1022*) AddTo (T 278) (Times (Einsum [(T 176,[0;1])] [1;0]) (-1) 1);
  (*1023*) AddTo (T 328) (Times (Einsum [(T 176,[0;1])] [1;0]) (-1) 1);
  (*1024*) Del (T 176);
  (*1025*) Assign (T 189) (Plain (Zeros [6;6;6;6]));
  (*1026*) AddTo (T 189) (Plain (Einsum [(n_t1'bb,[0;1]); (n_v'bbbb'ooov,[2;3;4;1])] [0;2;4;3]));
  (*1027*) Assign (T 190) (Plain (Zeros [6;6;7;7]));
  (*1028*) AddTo (T 190) (Plain (Einsum [(n_t2'bbbb,[0;1;2;3]); (T 189,[4;0;1;5])] [4;5;2;3]));
  (*1029*) AddTo (T 220) (Plain (Einsum [(T 190,[0;1;2;3])] [0;1;2;3]));
  (*1030*) Del (T 190);
  (*1031*) Assign (T 197) (Plain (Zeros [6;6;6;7]));
  (*1032*) AddTo (T 197) (Plain (Einsum [(n_t1'bb,[0;1]); (T 189,[2;3;0;4])] [2;3;4;1]));
  (*1033*) Del (T 189);
  (*1034*) AddTo (T 206) (Plain (Einsum [(T 197,[0;1;2;3])] [0;1;2;3]));
  (*1035*) Del (T 197);
  (*1036*) Assign (T 191) (Plain (Zeros [7;7]));
  (*1037*) AddTo (T 191) (Plain (Einsum [(n_t2'abab,[0;1;2;3]); (n_v'aabb'ovov,[0;2;1;4])] [3;4]));
  (*1038*) Assign (T 192) (Plain (Zeros [6;6;7;7]));
  (*1039*) AddTo (T 192) (Plain (Einsum [(T 191,[0;1]); (n_t2'bbbb,[2;3;1;4])] [3;2;0;4]));
  (*1040*) AddTo (T 220) (Times (Einsum [(T 192,[0;1;2;3])] [0;1;2;3]) (-1) 1);
  (*1041*) Del (T 192);
  (*1042*) AddTo (T 278) (Times (Einsum [(T 191,[0;1])] [0;1]) (-1) 1);
  (*1043*) AddTo (T 328) (Times (Einsum [(T 191,[0;1])] [0;1]) (-1) 1);
  (*1044*) Del (T 191);
  (*1045*) Assign (T 198) (Plain (Zeros [6;6;6;7]));
  (*1046*) AddTo (T 198) (Plain (Einsum [(n_t2'bbbb,[0;1;2;3]); (n_v'bbbb'ovvv,[4;3;5;2])] [1;0;4;5]));
  (*1047*) AddTo (T 206) (Plain (Einsum [(T 198,[0;1;2;3])] [0;2;1;3]));
  (*1048*) Del (T 198);
  (*1049*) Assign (T 199) (Plain (Zeros [6;6;7;7]));
  (*1050*) AddTo (T 199) (Plain (Einsum [(n_t1'bb,[0;1]); (n_v'bbbb'ovvv,[2;3;4;1])] [0;2;4;3]));
  (*1051*) Assign (T 200) (Plain (Zeros [6;6;6;7]));
  (*1052*) AddTo (T 200) (Plain (Einsum [(n_t1'bb,[0;1]); (T 199,[2;3;4;1])] [0;2;3;4]));
  (*1053*) Del (T 199);
  (*1054*) AddTo (T 206) (Plain (Einsum [(T 200,[0;1;2;3])] [0;2;1;3]));
  (*1055*) Del (T 200);
  (*1056*) Assign (T 203) (Plain (Zeros [6;6;6;7]));
  (*1057*) AddTo (T 203) (Plain (Einsum [(n_v'bbbb'ooov,[0;1;2;3])] [0;2;1;3]));
  (*1058*) AddTo (T 203) (Times (Einsum [(n_v'bbbb'ooov,[0;1;2;3])] [2;0;1;3]) (-1) 1);
  (*1059*) Assign (T 214) (Plain (Zeros [6;6]));
  (*1060*) AddTo (T 214) (Plain (Einsum [(n_t1'bb,[0;1]); (T 203,[2;0;3;1])] [2;3]));
  (*1061*) Assign (T 215) (Plain (Zeros [6;6]));
  (*1062*) AddTo (T 215) (Times (Einsum [(T 214,[0;1])] [0;1]) (-1) 1);
  (*1063*) Del (T 214);
  (*1064*) Assign (T 204) (Plain (Zeros [6;6;7;7]));
  (*1065*) AddTo (T 204) (Plain (Einsum [(n_t2'bbbb,[0;1;2;3])] [1;0;2;3]));
  (*1066*) AddTo (T 204) (Times (Einsum [(n_t2'bbbb,[0;1;2;3])] [1;0;3;2]) (-1) 1);
  (*1067*) Assign (T 205) (Plain (Zeros [6;6;6;7]));
  (*1068*) AddTo (T 205) (Plain (Einsum [(T 203,[0;1;2;3]); (T 204,[1;4;3;5])] [0;2;4;5]));
  (*1069*) Del (T 203);
  (*1070*) Del (T 204);
  (*1071*) AddTo (T 206) (Plain (Einsum [(T 205,[0;1;2;3])] [2;0;1;3]));
  (*1072*) Del (T 205);
  (*1073*) Assign (T 207) (Plain (Zeros [6;6;7;7]));
  (*1074*) AddTo (T 207) (Plain (Einsum [(n_t1'bb,[0;1]); (T 206,[2;0;3;4])] [2;3;1;4]));
  (*1075*) Del (T 206);
  (*1076*) AddTo (T 220) (Plain (Einsum [(T 207,[0;1;2;3])] [0;1;2;3]));
  (*1077*) Del (T 207);
  (*1078*) Assign (T 208) (Plain (Zeros [6;6;7;7]));
  (*1079*) AddTo (T 208) (Plain (Einsum [(n_v'bbbb'ovov,[0;1;2;3])] [2;0;1;3]));
  (*1080*) AddTo (T 208) (Times (Einsum [(n_v'bbbb'ovov,[0;1;2;3])] [2;0;3;1]) (-1) 1);
  (*1081*) Assign (T 209) (Plain (Zeros [7;7]));
  (*1082*) AddTo (T 209) (Plain (Einsum [(n_t2'bbbb,[0;1;2;3]); (T 208,[0;1;2;4])] [3;4]));
  (*1083*) AddTo (T 211) (Times (Einsum [(T 209,[0;1])] [0;1]) (-1) 1);
  (*1084*) Del (T 209);
  (*1085*) Assign (T 212) (Plain (Zeros [6;6;7;7]));
  (*1086*) AddTo (T 212) (Plain (Einsum [(T 211,[0;1]); (n_t2'bbbb,[2;3;1;4])] [2;3;4;0]));
  (*1087*) Del (T 211);
  (*1088*) AddTo (T 220) (Plain (Einsum [(T 212,[0;1;2;3])] [1;0;2;3]));
  (*1089*) Del (T 212);
  (*1090*) Assign (T 213) (Plain (Zeros [6;6]));
  (*1091*) AddTo (T 213) (Plain (Einsum [(n_t2'bbbb,[0;1;2;3]); (T 208,[0;4;3;2])] [1;4]));
  (*1092*) AddTo (T 215) (Times (Einsum [(T 213,[0;1])] [1;0]) (-1) 1);
  (*1093*) Del (T 213);
  (*1094*) Assign (T 216) (Plain (Zeros [6;6;7;7]));
  (*1095*) AddTo (T 216) (Plain (Einsum [(T 215,[0;1]); (n_t2'bbbb,[0;2;3;4])] [1;2;3;4]));
  (*1096*) Del (T 215);
  (*1097*) AddTo (T 220) (Times (Einsum [(T 216,[0;1;2;3])] [1;0;3;2]) (-1) 1);
  (*1098*) Del (T 216);
  (*1099*) AddTo n_t2new_bbbb (Times (Einsum [(T 220,[0;1;2;3])] [0;1;2;3]) (-1) 1);
  (*1100*) AddTo n_t2new_bbbb (Plain (Einsum [(T 220,[0;1;2;3])] [0;1;3;2]));
  (*1101*) AddTo n_t2new_bbbb (Plain (Einsum [(T 220,[0;1;2;3])] [1;0;2;3]));
  (*1102*) AddTo n_t2new_bbbb (Times (Einsum [(T 220,[0;1;2;3])] [1;0;3;2]) (-1) 1);
  (*1103*) Del (T 220);
  (*1104*) Assign (T 277) (Plain (Zeros [7;7]));
  (*1105*) AddTo (T 277) (Plain (Einsum [(n_t2'bbbb,[0;1;2;3]); (T 208,[0;1;4;2])] [3;4]));
  (*1106*) Del (T 208);
  (*1107*) AddTo (T 278) (Times (Einsum [(T 277,[0;1])] [0;1]) (-1) 1);
  (*1108*) AddTo (T 328) (Times (Einsum [(T 277,[0;1])] [0;1]) (-1) 1);
  (*1109*) Del (T 277);
  (*1110*) Assign (T 221) (Plain (Zeros [6;7;7;7]));
  (*1111*) AddTo (T 221) (Plain (Einsum [(n_t1'bb,[0;1]); (n_v'bbbb'vvvv,[2;3;4;1])] [0;2;4;3]));
  (*1112*) Assign (T 222) (Plain (Zeros [6;6;7;7]));
  (*1113*) AddTo (T 222) (Plain (Einsum [(n_t1'bb,[0;1]); (T 221,[2;3;4;1])] [0;2;3;4]));
  (*1114*) Del (T 221);
  (*1115*) Assign (T 229) (Plain (Zeros [6;6;7;7]));
  (*1116*) AddTo (T 229) (Plain (Einsum [(T 222,[0;1;2;3])] [0;1;2;3]));
  (*1117*) Del (T 222);
  (*1118*) Assign (T 223) (Plain (Zeros [6;6;6;6]));
  (*1119*) AddTo (T 223) (Plain (Einsum [(n_t2'bbbb,[0;1;2;3]); (n_v'bbbb'ovov,[4;3;5;2])] [0;1;5;4]));
  (*1120*) AddTo (T 224) (Plain (Einsum [(T 223,[0;1;2;3])] [1;0;3;2]));
  (*1121*) Assign (T 225) (Plain (Zeros [6;6;7;7]));
  (*1122*) AddTo (T 225) (Plain (Einsum [(n_t2'bbbb,[0;1;2;3]); (T 224,[4;5;1;0])] [4;5;2;3]));
  (*1123*) Del (T 224);
  (*1124*) AddTo (T 229) (Plain (Einsum [(T 225,[0;1;2;3])] [1;0;2;3]));
  (*1125*) Del (T 225);
  (*1126*) Assign (T 226) (Plain (Zeros [6;6;6;6]));
  (*1127*) AddTo (T 226) (Plain (Einsum [(T 223,[0;1;2;3])] [3;2;1;0]));
  (*1128*) Del (T 223);
  (*1129*) AddTo (T 226) (Plain (Einsum [(n_v'bbbb'oooo,[0;1;2;3])] [2;0;3;1]));
  (*1130*) Assign (T 227) (Plain (Zeros [6;6;6;7]));
  (*1131*) AddTo (T 227) (Plain (Einsum [(n_t1'bb,[0;1]); (T 226,[0;2;3;4])] [2;3;4;1]));
  (*1132*) Del (T 226);
  (*1133*) Assign (T 228) (Plain (Zeros [6;6;7;7]));
  (*1134*) AddTo (T 228) (Plain (Einsum [(n_t1'bb,[0;1]); (T 227,[0;2;3;4])] [3;2;4;1]));
  (*1135*) Del (T 227);
  (*1136*) AddTo (T 229) (Plain (Einsum [(T 228,[0;1;2;3])] [1;0;2;3]));
  (*1137*) Del (T 228);
  (*1138*) AddTo n_t2new_bbbb (Plain (Einsum [(T 229,[0;1;2;3])] [0;1;2;3]));
  (*1139*) AddTo n_t2new_bbbb (Times (Einsum [(T 229,[0;1;2;3])] [0;1;3;2]) (-1) 1);
  (*1140*) Del (T 229);
  (*1141*) Assign (T 232) (Plain (Zeros [6;6;7;7]));
  (*1142*) AddTo (T 232) (Plain (Einsum [(n_t2'bbbb,[0;1;2;3]); (n_v'bbbb'oooo,[0;4;1;5])] [5;4;3;2]));
  (*1143*) Assign (T 234) (Plain (Zeros [6;6;7;7]));
  (*1144*) AddTo (T 234) (Plain (Einsum [(T 232,[0;1;2;3])] [1;0;3;2]));
  (*1145*) Del (T 232);
  (*1146*) Assign (T 233) (Plain (Zeros [6;6;7;7]));
  (*1147*) AddTo (T 233) (Plain (Einsum [(n_t2'bbbb,[0;1;2;3]); (n_v'bbbb'vvvv,[4;2;5;3])] [0;1;4;5]));
  (*1148*) AddTo (T 234) (Plain (Einsum [(T 233,[0;1;2;3])] [1;0;3;2]));
  (*1149*) Del (T 233);
  (*1150*) AddTo n_t2new_bbbb (Times (Einsum [(T 234,[0;1;2;3])] [0;1;3;2]) (-1) 1);
  (*1151*) AddTo n_t2new_bbbb (Plain (Einsum [(T 234,[0;1;2;3])] [0;1;2;3]));
  (*1152*) Del (T 234);
  (*1153*) Assign (T 235) (Plain (Zeros [4;6;5;7]));
  (*1154*) AddTo (T 235) (Plain (Einsum [(n_t1'aa,[0;1]); (n_v'aabb'vvvo,[2;1;3;4])] [0;4;2;3]));
  (*1155*) AddTo n_t2new_baba (Plain (Einsum [(T 235,[0;1;2;3])] [1;0;3;2]));
  (*1156*) AddTo n_t2new_abab (Plain (Einsum [(T 235,[0;1;2;3])] [0;1;2;3]));
  (*1157*) Del (T 235);
  (*1158*) Assign (T 236) (Plain (Zeros [4;6;5;7]));
  (*1159*) AddTo (T 236) (Plain (Einsum [(n_t2'abab,[0;1;2;3]); (n_v'aabb'vvvv,[4;2;5;3])] [0;1;4;5]));
  (*1160*) AddTo n_t2new_baba (Plain (Einsum [(T 236,[0;1;2;3])] [1;0;3;2]));
  (*1161*) AddTo n_t2new_abab (Plain (Einsum [(T 236,[0;1;2;3])] [0;1;2;3]));
  (*1162*) Del (T 236);
  (*1163*) AddTo (T 239) (Plain (Einsum [(n_v'bbaa'ovvo,[0;1;2;3])] [3;0;2;1]));
  (*1164*) AddTo n_t2new_baba (Plain (Einsum [(T 157,[0;1;2;3]); (T 239,[4;0;5;3])] [1;4;2;5]));
  (*1165*) Del (T 157);
  (*1166*) AddTo n_t2new_abab (Times (Einsum [(T 239,[0;1;2;3]); (T 42,[1;4;5;3])] [0;4;2;5]) (-1) 1);
  (*1167*) Del (T 239);
  (*1168*) AddTo (T 242) (Plain (Einsum [(n_v'aaaa'ovvo,[0;1;2;3])] [0;3;2;1]));
  (*1169*) AddTo (T 242) (Times (Einsum [(n_v'aaaa'oovv,[0;1;2;3])] [0;1;2;3]) (-1) 1);
  (*1170*) Assign (T 243) (Plain (Zeros [4;6;5;7]));
  (*1171*) AddTo (T 243) (Plain (Einsum [(n_t2'abab,[0;1;2;3]); (T 242,[0;4;5;2])] [4;1;5;3]));
  (*1172*) Del (T 242);
  (*1173*) AddTo n_t2new_baba (Plain (Einsum [(T 243,[0;1;2;3])] [1;0;3;2]));
  (*1174*) AddTo n_t2new_abab (Plain (Einsum [(T 243,[0;1;2;3])] [0;1;2;3]));
  (*1175*) Del (T 243);
  (*1176*) AddTo (T 244) (Plain (Einsum [(n_v'aabb'ovvo,[0;1;2;3])] [0;3;1;2]));
  (*1177*) Assign (T 245) (Plain (Zeros [4;6;5;7]));
  (*1178*) AddTo (T 245) (Plain (Einsum [(T 11,[0;1;2;3]); (T 244,[0;4;2;5])] [1;4;3;5]));
  (*1179*) Del (T 244);
  (*1180*) SubFrom n_t2new_baba (Plain (Einsum [(T 245,[0;1;2;3])] [1;0;3;2]));
  (*1181*) SubFrom n_t2new_abab (Plain (Einsum [(T 245,[0;1;2;3])] [0;1;2;3]));
  (*1182*) Del (T 245);
  (*1183*) Assign (T 246) (Plain (Zeros [6;7;7;7]));
  (*1184*) AddTo (T 246) (Plain (Einsum [(n_v'bbbb'ovvv,[0;1;2;3])] [0;2;1;3]));
  (*1185*) SubFrom (T 246) (Plain (Einsum [(n_v'bbbb'ovvv,[0;1;2;3])] [0;2;3;1]));
  (*1186*) Assign (T 247) (Plain (Zeros [6;6;7;7]));
  (*1187*) AddTo (T 247) (Plain (Einsum [(n_t1'bb,[0;1]); (T 246,[2;3;1;4])] [2;0;3;4]));
  (*1188*) Del (T 246);
  (*1189*) Assign (T 248) (Plain (Zeros [6;6;7;7]));
  (*1190*) SubFrom (T 248) (Plain (Einsum [(T 247,[0;1;2;3])] [0;1;2;3]));
  (*1191*) Del (T 247);
  (*1192*) AddTo (T 248) (Plain (Einsum [(n_v'bbbb'ovvo,[0;1;2;3])] [0;3;2;1]));
  (*1193*) SubFrom (T 248) (Plain (Einsum [(n_v'bbbb'oovv,[0;1;2;3])] [0;1;2;3]));
  (*1194*) Assign (T 249) (Plain (Zeros [4;6;5;7]));
  (*1195*) AddTo (T 249) (Plain (Einsum [(n_t2'abab,[0;1;2;3]); (T 248,[1;4;5;3])] [0;4;2;5]));
  (*1196*) Del (T 248);
  (*1197*) AddTo n_t2new_baba (Plain (Einsum [(T 249,[0;1;2;3])] [1;0;3;2]));
  (*1198*) AddTo n_t2new_abab (Plain (Einsum [(T 249,[0;1;2;3])] [0;1;2;3]));
  (*1199*) Del (T 249);
  (*1200*) Assign (T 250) (Plain (Zeros [4;4;7;7]));
  (*1201*) AddTo (T 250) (Plain (Einsum [(n_t1'aa,[0;1]); (n_v'aabb'ovvv,[2;1;3;4])] [0;2;3;4]));
  (*1202*) Assign (T 252) (Plain (Zeros [4;4;7;7]));
  (*1203*) AddTo (T 252) (Plain (Einsum [(T 250,[0;1;2;3])] [1;0;2;3]));
  (*1204*) Del (T 250);
  (*1205*) Assign (T 251) (Plain (Zeros [4;4;7;7]));
  (*1206*) AddTo (T 251) (Plain (Einsum [(n_t2'abab,[0;1;2;3]); (n_v'aabb'ovov,[4;2;1;5])] [0;4;3;5]));
  (*1207*) SubFrom (T 252) (Plain (Einsum [(T 251,[0;1;2;3])] [1;0;2;3]));
  (*1208*) Del (T 251);
  (*1209*) AddTo (T 252) (Plain (Einsum [(n_v'aabb'oovv,[0;1;2;3])] [0;1;2;3]));
  (*1210*) Assign (T 253) (Plain (Zeros [4;6;5;7]));
  (*1211*) AddTo (T 253) (Plain (Einsum [(n_t2'abab,[0;1;2;3]); (T 252,[0;4;5;3])] [4;1;2;5]));
  (*1212*) Del (T 252);
  (*1213*) SubFrom n_t2new_baba (Plain (Einsum [(T 253,[0;1;2;3])] [1;0;3;2]));
  (*1214*) SubFrom n_t2new_abab (Plain (Einsum [(T 253,[0;1;2;3])] [0;1;2;3]));
  (*1215*) Del (T 253);
  (*1216*) Assign (T 254) (Plain (Zeros [4;4;6;6]));
  (*1217*) AddTo (T 254) (Plain (Einsum [(n_t1'bb,[0;1]); (n_v'aabb'ooov,[2;3;4;1])] [2;3;0;4]));
  (*1218*) Assign (T 258) (Plain (Zeros [4;4;6;6]));
  (*1219*) AddTo (T 258) (Plain (Einsum [(T 254,[0;1;2;3])] [0;1;3;2]));
  (*1220*) AddTo (T 271) (Plain (Einsum [(T 254,[0;1;2;3])] [0;1;3;2]));
  (*1221*) Del (T 254);
  (*1222*) Assign (T 255) (Plain (Zeros [4;4;6;6]));
  (*1223*) AddTo (T 255) (Plain (Einsum [(n_t2'abab,[0;1;2;3]); (n_v'aabb'ovov,[4;2;5;3])] [0;4;1;5]));
  (*1224*) AddTo (T 258) (Plain (Einsum [(T 255,[0;1;2;3])] [1;0;3;2]));
  (*1225*) AddTo (T 271) (Plain (Einsum [(T 255,[0;1;2;3])] [1;0;3;2]));
  (*1226*) Del (T 255);
  (*1227*) AddTo (T 256) (Plain (Einsum [(n_v'aabb'ovoo,[0;1;2;3])] [0;2;3;1]));
  (*1228*) Assign (T 257) (Plain (Zeros [4;4;6;6]));
  (*1229*) AddTo (T 257) (Plain (Einsum [(n_t1'aa,[0;1]); (T 256,[2;3;4;1])] [2;0;3;4]));
  (*1230*) Del (T 256);
  (*1231*) AddTo (T 258) (Plain (Einsum [(T 257,[0;1;2;3])] [0;1;2;3]));
  (*1232*) Del (T 257);
  (*1233*) AddTo (T 258) (Plain (Einsum [(n_v'aabb'oooo,[0;1;2;3])] [0;1;2;3]));
  (*1234*) Assign (T 259) (Plain (Zeros [4;6;5;7]));
  (*1235*) AddTo (T 259) (Plain (Einsum [(n_t2'abab,[0;1;2;3]); (T 258,[0;4;1;5])] [4;5;2;3]));
  (*1236*) Del (T 258);
  (*1237*) AddTo n_t2new_baba (Plain (Einsum [(T 259,[0;1;2;3])] [1;0;3;2]));
  (*1238*) AddTo n_t2new_abab (Plain (Einsum [(T 259,[0;1;2;3])] [0;1;2;3]));
  (*1239*) Del (T 259);
  (*1240*) Assign (T 260) (Plain (Zeros [6;6;5;5]));
  (*1241*) AddTo (T 260) (Plain (Einsum [(n_t1'bb,[0;1]); (n_v'bbaa'ovvv,[2;1;3;4])] [0;2;3;4]));
  (*1242*) Assign (T 261) (Plain (Zeros [6;6;5;5]));
  (*1243*) AddTo (T 261) (Plain (Einsum [(T 260,[0;1;2;3])] [1;0;2;3]));
  (*1244*) Assign (T 273) (Plain (Zeros [6;6;5;5]));
  (*1245*) AddTo (T 273) (Plain (Einsum [(T 260,[0;1;2;3])] [1;0;2;3]));
  (*1246*) Del (T 260);
  (*1247*) AddTo (T 261) (Plain (Einsum [(n_v'bbaa'oovv,[0;1;2;3])] [0;1;2;3]));
  (*1248*) Assign (T 262) (Plain (Zeros [4;6;5;7]));
  (*1249*) AddTo (T 262) (Plain (Einsum [(n_t2'abab,[0;1;2;3]); (T 261,[1;4;5;2])] [0;4;5;3]));
  (*1250*) Del (T 261);
  (*1251*) SubFrom n_t2new_baba (Plain (Einsum [(T 262,[0;1;2;3])] [1;0;3;2]));
  (*1252*) SubFrom n_t2new_abab (Plain (Einsum [(T 262,[0;1;2;3])] [0;1;2;3]));
  (*1253*) Del (T 262);
  (*1254*) Assign (T 263) (Plain (Zeros [4;6;6;5]));
  (*1255*) AddTo (T 263) (Plain (Einsum [(n_t1'bb,[0;1]); (n_v'bbaa'ovvo,[2;1;3;4])] [4;0;2;3]));
  (*1256*) AddTo (T 275) (Plain (Einsum [(T 263,[0;1;2;3])] [0;2;1;3]));
  (*1257*) Del (T 263);
  (*1258*) Assign (T 264) (Plain (Zeros [4;6;6;5]));
  (*1259*) AddTo (T 264) (Plain (Einsum [(n_t2'abab,[0;1;2;3]); (n_v'bbaa'ovvv,[4;3;5;2])] [0;1;4;5]));
  (*1260*) AddTo (T 275) (Plain (Einsum [(T 264,[0;1;2;3])] [0;2;1;3]));
  (*1261*) Del (T 264);
  (*1262*) AddTo (T 265) (Times (Einsum [(n_v'bbbb'ooov,[0;1;2;3])] [0;2;1;3]) (-1) 1);
  (*1263*) AddTo (T 265) (Plain (Einsum [(n_v'bbbb'ooov,[0;1;2;3])] [2;0;1;3]));
  (*1264*) Assign (T 266) (Plain (Zeros [4;6;6;5]));
  (*1265*) AddTo (T 266) (Plain (Einsum [(n_t2'abab,[0;1;2;3]); (T 265,[4;1;5;3])] [0;4;5;2]));
  (*1266*) Del (T 265);
  (*1267*) AddTo (T 275) (Times (Einsum [(T 266,[0;1;2;3])] [0;1;2;3]) (-1) 1);
  (*1268*) Del (T 266);
  (*1269*) AddTo (T 271) (Plain (Einsum [(n_v'aabb'oooo,[0;1;2;3])] [0;1;2;3]));
  (*1270*) Assign (T 272) (Plain (Zeros [4;6;6;5]));
  (*1271*) AddTo (T 272) (Plain (Einsum [(n_t1'aa,[0;1]); (T 271,[0;2;3;4])] [2;3;4;1]));
  (*1272*) Del (T 271);
  (*1273*) AddTo (T 275) (Times (Einsum [(T 272,[0;1;2;3])] [0;1;2;3]) (-1) 1);
  (*1274*) Del (T 272);
  (*1275*) AddTo (T 273) (Plain (Einsum [(n_v'bbaa'oovv,[0;1;2;3])] [0;1;2;3]));
  (*1276*) Assign (T 274) (Plain (Zeros [4;6;6;5]));
  (*1277*) AddTo (T 274) (Plain (Einsum [(n_t1'aa,[0;1]); (T 273,[2;3;4;1])] [0;2;3;4]));
  (*1278*) Del (T 273);
  (*1279*) AddTo (T 275) (Plain (Einsum [(T 274,[0;1;2;3])] [0;1;2;3]));
  (*1280*) Del (T 274);
  (*1281*) AddTo (T 275) (Plain (Einsum [(n_v'bbaa'oovo,[0;1;2;3])] [3;0;1;2]));
  (*1282*) Assign (T 276) (Plain (Zeros [4;6;5;7]));
  (*1283*) AddTo (T 276) (Plain (Einsum [(n_t1'bb,[0;1]); (T 275,[2;0;3;4])] [2;3;4;1]));
  (*1284*) Del (T 275);
  (*1285*) AddTo n_t2new_baba (Times (Einsum [(T 276,[0;1;2;3])] [1;0;3;2]) (-1) 1);
  (*1286*) AddTo n_t2new_abab (Times (Einsum [(T 276,[0;1;2;3])] [0;1;2;3]) (-1) 1);
  (*1287*) Del (T 276);
  (*1288*) AddTo (T 278) (Plain (Einsum [(n_f'bb'vv,[0;1])] [0;1]));
  (*1289*) Assign (T 279) (Plain (Zeros [4;6;5;7]));
  (*1290*) AddTo (T 279) (Plain (Einsum [(T 278,[0;1]); (n_t2'abab,[2;3;4;1])] [2;3;4;0]));
  (*1291*) Del (T 278);
  (*1292*) AddTo n_t2new_baba (Plain (Einsum [(T 279,[0;1;2;3])] [1;0;3;2]));
  (*1293*) AddTo n_t2new_abab (Plain (Einsum [(T 279,[0;1;2;3])] [0;1;2;3]));
  (*1294*) Del (T 279);
  (*1295*) AddTo (T 281) (Plain (Einsum [(n_f'aa'vv,[0;1])] [0;1]));
  (*1296*) Assign (T 282) (Plain (Zeros [4;6;5;7]));
  (*1297*) AddTo (T 282) (Plain (Einsum [(T 281,[0;1]); (n_t2'abab,[2;3;1;4])] [2;3;0;4]));
  (*1298*) Del (T 281);
  (*1299*) AddTo n_t2new_baba (Plain (Einsum [(T 282,[0;1;2;3])] [1;0;3;2]));
  (*1300*) AddTo n_t2new_abab (Plain (Einsum [(T 282,[0;1;2;3])] [0;1;2;3]));
  (*1301*) Del (T 282);
  (*1302*) Assign (T 283) (Plain (Zeros [4;4;6;7]));
  (*1303*) AddTo (T 283) (Plain (Einsum [(n_t1'bb,[0;1]); (n_v'aabb'oovv,[2;3;4;1])] [2;3;0;4]));
  (*1304*) AddTo (T 292) (Plain (Einsum [(T 283,[0;1;2;3])] [0;1;2;3]));
  (*1305*) Del (T 283);
  (*1306*) Assign (T 284) (Plain (Zeros [4;4;6;7]));
  (*1307*) AddTo (T 284) (Plain (Einsum [(n_t2'abab,[0;1;2;3]); (n_v'aabb'ovvv,[4;2;5;3])] [0;4;1;5]));
  (*1308*) AddTo (T 292) (Plain (Einsum [(T 284,[0;1;2;3])] [1;0;2;3]));
  (*1309*) Del (T 284);
  (*1310*) AddTo (T 285) (Plain (Einsum [(n_v'aaaa'ooov,[0;1;2;3])] [0;2;1;3]));
  (*1311*) AddTo (T 285) (Times (Einsum [(n_v'aaaa'ooov,[0;1;2;3])] [2;0;1;3]) (-1) 1);
  (*1312*) Assign (T 286) (Plain (Zeros [4;4;6;7]));
  (*1313*) AddTo (T 286) (Plain (Einsum [(n_t2'abab,[0;1;2;3]); (T 285,[0;4;5;2])] [4;5;1;3]));
  (*1314*) Del (T 285);
  (*1315*) AddTo (T 292) (Times (Einsum [(T 286,[0;1;2;3])] [0;1;2;3]) (-1) 1);
  (*1316*) Del (T 286);
  (*1317*) AddTo (T 290) (Plain (Einsum [(n_v'aabb'ovvo,[0;1;2;3])] [0;3;1;2]));
  (*1318*) Assign (T 291) (Plain (Zeros [4;4;6;7]));
  (*1319*) AddTo (T 291) (Plain (Einsum [(n_t1'aa,[0;1]); (T 290,[2;3;1;4])] [2;0;3;4]));
  (*1320*) Del (T 290);
  (*1321*) AddTo (T 292) (Plain (Einsum [(T 291,[0;1;2;3])] [0;1;2;3]));
  (*1322*) Del (T 291);
  (*1323*) AddTo (T 292) (Plain (Einsum [(n_v'aabb'oovo,[0;1;2;3])] [0;1;3;2]));
  (*1324*) Assign (T 293) (Plain (Zeros [4;6;5;7]));
  (*1325*) AddTo (T 293) (Plain (Einsum [(n_t1'aa,[0;1]); (T 292,[0;2;3;4])] [2;3;1;4]));
  (*1326*) Del (T 292);
  (*1327*) AddTo n_t2new_baba (Times (Einsum [(T 293,[0;1;2;3])] [1;0;3;2]) (-1) 1);
  (*1328*) AddTo n_t2new_abab (Times (Einsum [(T 293,[0;1;2;3])] [0;1;2;3]) (-1) 1);
  (*1329*) Del (T 293);
  (*1330*) Assign (T 298) (Plain (Zeros [4;5;7;7]));
  (*1331*) AddTo (T 298) (Plain (Einsum [(n_t1'aa,[0;1]); (n_v'aabb'vvvv,[2;1;3;4])] [0;2;3;4]));
  (*1332*) Assign (T 299) (Plain (Zeros [4;5;7;7]));
  (*1333*) AddTo (T 299) (Plain (Einsum [(T 298,[0;1;2;3])] [0;1;2;3]));
  (*1334*) Del (T 298);
  (*1335*) AddTo (T 299) (Plain (Einsum [(n_v'aabb'vovv,[0;1;2;3])] [1;0;2;3]));
  (*1336*) Assign (T 300) (Plain (Zeros [4;6;5;7]));
  (*1337*) AddTo (T 300) (Plain (Einsum [(n_t1'bb,[0;1]); (T 299,[2;3;4;1])] [2;0;3;4]));
  (*1338*) Del (T 299);
  (*1339*) AddTo n_t2new_baba (Plain (Einsum [(T 300,[0;1;2;3])] [1;0;3;2]));
  (*1340*) AddTo n_t2new_abab (Plain (Einsum [(T 300,[0;1;2;3])] [0;1;2;3]));
  (*1341*) Del (T 300);
  (*1342*) AddTo (T 301) (Plain (Einsum [(n_f'aa'ov,[0;1])] [0;1]));
  (*1343*) AddTo n_s1new (Plain (Einsum [(T 301,[0;1]); (n_u11'aa,[2;0;1])] [2]));
  (*1344*) Del (T 301);
  (*1345*) AddTo (T 302) (Plain (Einsum [(n_f'bb'ov,[0;1])] [0;1]));
  (*1346*) AddTo n_s1new (Plain (Einsum [(T 302,[0;1]); (n_u11'bb,[2;0;1])] [2]));
  (*1347*) Del (T 302);
  (*1348*) Assign (T 303) (Plain (Zeros [3;3]));
  (*1349*) AddTo (T 303) (Plain (Einsum [(n_gc'aa'bov,[0;1;2]); (n_u11'aa,[3;1;2])] [0;3]));
  (*1350*) Assign (T 311) (Plain (Zeros [3;3]));
  (*1351*) AddTo (T 311) (Plain (Einsum [(T 303,[0;1])] [0;1]));
  (*1352*) Del (T 303);
  (*1353*) Assign (T 304) (Plain (Zeros [3;6;7]));
  (*1354*) AddTo (T 304) (Plain (Einsum [(n_u11'aa,[0;1;2]); (n_v'aabb'ovov,[1;2;3;4])] [0;3;4]));
  (*1355*) Assign (T 305) (Plain (Zeros [3;6;7]));
  (*1356*) AddTo (T 305) (Plain (Einsum [(T 304,[0;1;2])] [0;1;2]));
  (*1357*) AddTo (T 320) (Plain (Einsum [(T 304,[0;1;2])] [0;1;2]));
  (*1358*) Del (T 304);
  (*1359*) AddTo (T 305) (Plain (Einsum [(n_gc'bb'bov,[0;1;2])] [0;1;2]));
  (*1360*) Assign (T 306) (Plain (Zeros [3;3]));
  (*1361*) AddTo (T 306) (Plain (Einsum [(n_u11'bb,[0;1;2]); (T 305,[3;1;2])] [3;0]));
  (*1362*) Del (T 305);
  (*1363*) AddTo (T 311) (Plain (Einsum [(T 306,[0;1])] [0;1]));
  (*1364*) Del (T 306);
  (*1365*) Assign (T 307) (Plain (Zeros [3;3]));
  (*1366*) AddTo (T 307) (Plain (Einsum [(n_g'aa'bov,[0;1;2]); (n_u11'aa,[3;1;2])] [0;3]));
  (*1367*) Assign (T 309) (Plain (Zeros [3;3]));
  (*1368*) AddTo (T 309) (Plain (Einsum [(T 307,[0;1])] [0;1]));
  (*1369*) Del (T 307);
  (*1370*) Assign (T 308) (Plain (Zeros [3;3]));
  (*1371*) AddTo (T 308) (Plain (Einsum [(n_g'bb'bov,[0;1;2]); (n_u11'bb,[3;1;2])] [0;3]));
  (*1372*) AddTo (T 309) (Plain (Einsum [(T 308,[0;1])] [0;1]));
  (*1373*) Del (T 308);
  (*1374*) AddTo (T 309) (Plain (Einsum [(n_w,[0;1])] [0;1]));
  (*1375*) Assign (T 310) (Plain (Zeros [3;3]));
  (*1376*) AddTo (T 310) (Plain (Einsum [(n_s2,[0;1]); (T 309,[0;2])] [1;2]));
  (*1377*) AddTo (T 311) (Plain (Einsum [(T 310,[0;1])] [0;1]));
  (*1378*) Del (T 310);
  (*1379*) AddTo n_s2new (Plain (Einsum [(T 311,[0;1])] [0;1]));
  (*1380*) AddTo n_s2new (Plain (Einsum [(T 311,[0;1])] [1;0]));
  (*1381*) Del (T 311);
  (*1382*) AddTo n_u11new_aa (Plain (Einsum [(T 309,[0;1]); (n_u11'aa,[0;2;3])] [1;2;3]));
  (*1383*) AddTo n_u11new_bb (Plain (Einsum [(T 309,[0;1]); (n_u11'bb,[0;2;3])] [1;2;3]));
  (*1384*) Del (T 309);
  (*1385*) Assign (T 314) (Plain (Zeros [3;4;5]));
  (*1386*) AddTo (T 314) (Plain (Einsum [(n_s2,[0;1]); (n_g'aa'bov,[1;2;3])] [0;2;3]));
  (*1387*) AddTo (T 317) (Plain (Einsum [(T 314,[0;1;2])] [0;1;2]));
  (*1388*) Del (T 314);
  (*1389*) Assign (T 315) (Plain (Zeros [3;4;5]));
  (*1390*) AddTo (T 315) (Plain (Einsum [(n_u11'bb,[0;1;2]); (n_v'aabb'ovov,[3;4;1;2])] [0;3;4]));
  (*1391*) AddTo (T 317) (Plain (Einsum [(T 315,[0;1;2])] [0;1;2]));
  (*1392*) Del (T 315);
  (*1393*) AddTo (T 317) (Plain (Einsum [(n_gc'aa'bov,[0;1;2])] [0;1;2]));
  (*1394*) AddTo (T 324) (Plain (Einsum [(n_t1'aa,[0;1]); (T 317,[2;3;1])] [2;3;0]));
  (*1395*) AddTo n_u11new_aa (Times (Einsum [(T 317,[0;1;2]); (T 11,[1;3;2;4])] [0;3;4]) (-1) 1);
  (*1396*) Del (T 11);
  (*1397*) AddTo n_u11new_bb (Plain (Einsum [(T 317,[0;1;2]); (n_t2'abab,[1;3;2;4])] [0;3;4]));
  (*1398*) Del (T 317);
  (*1399*) Assign (T 318) (Plain (Zeros [3;6;7]));
  (*1400*) AddTo (T 318) (Plain (Einsum [(n_s2,[0;1]); (n_g'bb'bov,[1;2;3])] [0;2;3]));
  (*1401*) AddTo (T 320) (Plain (Einsum [(T 318,[0;1;2])] [0;1;2]));
  (*1402*) Del (T 318);
  (*1403*) AddTo (T 320) (Plain (Einsum [(n_gc'bb'bov,[0;1;2])] [0;1;2]));
  (*1404*) AddTo (T 330) (Plain (Einsum [(n_t1'bb,[0;1]); (T 320,[2;3;1])] [2;3;0]));
  (*1405*) AddTo n_u11new_aa (Plain (Einsum [(T 320,[0;1;2]); (n_t2'abab,[3;1;4;2])] [0;3;4]));
  (*1406*) AddTo n_u11new_bb (Times (Einsum [(T 320,[0;1;2]); (T 42,[1;3;4;2])] [0;3;4]) (-1) 1);
  (*1407*) Del (T 42);
  (*1408*) Del (T 320);
  (*1409*) AddTo (T 322) (Plain (Einsum [(n_f'aa'vv,[0;1])] [0;1]));
  (*1410*) AddTo n_u11new_aa (Plain (Einsum [(T 322,[0;1]); (n_u11'aa,[2;3;1])] [2;3;0]));
  (*1411*) Del (T 322);
  (*1412*) AddTo (T 323) (Plain (Einsum [(n_f'aa'ov,[0;1])] [0;1]));
  (*1413*) AddTo (T 324) (Plain (Einsum [(T 323,[0;1]); (n_u11'aa,[2;3;1])] [2;0;3]));
  (*1414*) Del (T 323);
  (*1415*) AddTo (T 324) (Plain (Einsum [(n_gc'aa'boo,[0;1;2])] [0;1;2]));
  (*1416*) AddTo (T 324) (Plain (Einsum [(n_s2,[0;1]); (n_g'aa'boo,[1;2;3])] [0;2;3]));
  (*1417*) AddTo (T 324) (Plain (Einsum [(n_u11'bb,[0;1;2]); (n_v'aabb'ooov,[3;4;1;2])] [0;3;4]));
  (*1418*) AddTo n_u11new_aa (Times (Einsum [(n_t1'aa,[0;1]); (T 324,[2;0;3])] [2;3;1]) (-1) 1);
  (*1419*) Del (T 324);
  (*1420*) Assign (T 325) (Plain (Zeros [4;5;5;5]));
  (*1421*) AddTo (T 325) (Plain (Einsum [(n_v'aaaa'ovvv,[0;1;2;3])] [0;2;1;3]));
  (*1422*) SubFrom (T 325) (Plain (Einsum [(n_v'aaaa'ovvv,[0;1;2;3])] [0;2;3;1]));
  (*1423*) Assign (T 326) (Plain (Zeros [3;5;5]));
  (*1424*) SubFrom (T 326) (Plain (Einsum [(n_u11'aa,[0;1;2]); (T 325,[1;3;4;2])] [0;3;4]));
  (*1425*) Del (T 325);
  (*1426*) AddTo (T 326) (Plain (Einsum [(n_gc'aa'bvv,[0;1;2])] [0;1;2]));
  (*1427*) AddTo (T 326) (Plain (Einsum [(n_s2,[0;1]); (n_g'aa'bvv,[1;2;3])] [0;2;3]));
  (*1428*) AddTo (T 326) (Plain (Einsum [(n_u11'bb,[0;1;2]); (n_v'bbaa'ovvv,[1;2;3;4])] [0;3;4]));
  (*1429*) AddTo n_u11new_aa (Plain (Einsum [(n_t1'aa,[0;1]); (T 326,[2;3;1])] [2;0;3]));
  (*1430*) Del (T 326);
  (*1431*) AddTo (T 328) (Plain (Einsum [(n_f'bb'vv,[0;1])] [0;1]));
  (*1432*) AddTo n_u11new_bb (Plain (Einsum [(T 328,[0;1]); (n_u11'bb,[2;3;1])] [2;3;0]));
  (*1433*) Del (T 328);
  (*1434*) AddTo (T 329) (Plain (Einsum [(n_f'bb'ov,[0;1])] [0;1]));
  (*1435*) AddTo (T 330) (Plain (Einsum [(T 329,[0;1]); (n_u11'bb,[2;3;1])] [2;0;3]));
  (*1436*) Del (T 329);
  (*1437*) AddTo (T 330) (Plain (Einsum [(n_gc'bb'boo,[0;1;2])] [0;1;2]));
  (*1438*) AddTo (T 330) (Plain (Einsum [(n_s2,[0;1]); (n_g'bb'boo,[1;2;3])] [0;2;3]));
  (*1439*) AddTo (T 330) (Plain (Einsum [(n_u11'aa,[0;1;2]); (n_v'aabb'ovoo,[1;2;3;4])] [0;3;4]));
  (*1440*) AddTo n_u11new_bb (Times (Einsum [(n_t1'bb,[0;1]); (T 330,[2;0;3])] [2;3;1]) (-1) 1);
  (*1441*) Del (T 330);
  (*1442*) Assign (T 331) (Plain (Zeros [6;7;7;7]));
  (*1443*) SubFrom (T 331) (Plain (Einsum [(n_v'bbbb'ovvv,[0;1;2;3])] [0;2;1;3]));
  (*1444*) AddTo (T 331) (Plain (Einsum [(n_v'bbbb'ovvv,[0;1;2;3])] [0;2;3;1]));
  (*1445*) Assign (T 332) (Plain (Zeros [3;7;7]));
  (*1446*) SubFrom (T 332) (Plain (Einsum [(n_u11'bb,[0;1;2]); (T 331,[1;3;2;4])] [0;3;4]));
  (*1447*) Del (T 331);
  (*1448*) AddTo (T 332) (Plain (Einsum [(n_gc'bb'bvv,[0;1;2])] [0;1;2]));
  (*1449*) AddTo (T 332) (Plain (Einsum [(n_s2,[0;1]); (n_g'bb'bvv,[1;2;3])] [0;2;3]));
  (*1450*) AddTo (T 332) (Plain (Einsum [(n_u11'aa,[0;1;2]); (n_v'aabb'ovvv,[1;2;3;4])] [0;3;4]));
  (*1451*) AddTo n_u11new_bb (Plain (Einsum [(n_t1'bb,[0;1]); (T 332,[2;3;1])] [2;0;3]));
  (*1452*) Del (T 332);
  (*1453*) AddTo n_t1new_aa (Plain (Einsum [(n_t2'abab,[0;1;2;3]); (n_v'bbaa'ovvv,[1;3;4;2])] [0;4]));
  (*1454*) AddTo n_t1new_aa (Plain (Einsum [(n_g'aa'bvv,[0;1;2]); (n_u11'aa,[0;3;2])] [3;1]));
  (*1455*) AddTo n_t1new_aa (Plain (Einsum [(n_t1'bb,[0;1]); (n_v'bbaa'ovvo,[0;1;2;3])] [3;2]));
  (*1456*) AddTo n_t1new_aa (Plain (Einsum [(n_f'aa'vo,[0;1])] [1;0]));
  (*1457*) AddTo n_t1new_aa (Plain (Einsum [(n_s1,[0]); (n_g'aa'bvo,[0;1;2])] [2;1]));
  (*1458*) AddTo n_t1new_bb (Plain (Einsum [(n_t1'aa,[0;1]); (n_v'aabb'ovvo,[0;1;2;3])] [3;2]));
  (*1459*) AddTo n_t1new_bb (Plain (Einsum [(n_t2'abab,[0;1;2;3]); (n_v'aabb'ovvv,[0;2;4;3])] [1;4]));
  (*1460*) AddTo n_t1new_bb (Plain (Einsum [(n_f'bb'vo,[0;1])] [1;0]));
  (*1461*) AddTo n_t1new_bb (Plain (Einsum [(n_g'bb'bvv,[0;1;2]); (n_u11'bb,[0;3;2])] [3;1]));
  (*1462*) AddTo n_t1new_bb (Plain (Einsum [(n_s1,[0]); (n_g'bb'bvo,[0;1;2])] [2;1]));
  (*1463*) SubFrom n_t2new_aaaa (Plain (Einsum [(n_v'aaaa'vovo,[0;1;2;3])] [3;1;0;2]));
  (*1464*) AddTo n_t2new_aaaa (Plain (Einsum [(n_v'aaaa'vovo,[0;1;2;3])] [3;1;2;0]));
  (*1465*) SubFrom n_t2new_bbbb (Plain (Einsum [(n_v'bbbb'vovo,[0;1;2;3])] [3;1;0;2]));
  (*1466*) AddTo n_t2new_bbbb (Plain (Einsum [(n_v'bbbb'vovo,[0;1;2;3])] [3;1;2;0]));
  (*1467*) AddTo n_t2new_baba (Plain (Einsum [(n_v'aabb'vovo,[0;1;2;3])] [3;1;2;0]));
  (*1468*) AddTo n_t2new_abab (Plain (Einsum [(n_v'aabb'vovo,[0;1;2;3])] [1;3;0;2]));
  (*1469*) AddTo n_s1new (Plain (Einsum [(n_t1'aa,[0;1]); (n_gc'aa'bov,[2;0;1])] [2]));
  (*1470*) AddTo n_s1new (Plain (Einsum [(n_s1,[0]); (n_w,[0;1])] [1]));
  (*1471*) AddTo n_s1new (Plain (Einsum [(n_t1'bb,[0;1]); (n_gc'bb'bov,[2;0;1])] [2]));
  (*1472*) AddTo n_s1new (Plain (Einsum [(n_G,[0])] [0]));
  (*1473*) AddTo n_u11new_aa (Plain (Einsum [(n_s2,[0;1]); (n_g'aa'bvo,[1;2;3])] [0;3;2]));
  (*1474*) AddTo n_u11new_aa (Plain (Einsum [(n_u11'bb,[0;1;2]); (n_v'bbaa'ovvo,[1;2;3;4])] [0;4;3]));
  (*1475*) AddTo n_u11new_aa (Plain (Einsum [(n_gc'aa'bvo,[0;1;2])] [0;2;1]));
  (*1476*) AddTo n_u11new_bb (Plain (Einsum [(n_u11'aa,[0;1;2]); (n_v'aabb'ovvo,[1;2;3;4])] [0;4;3]));
  (*1477*) AddTo n_u11new_bb (Plain (Einsum [(n_s2,[0;1]); (n_g'bb'bvo,[1;2;3])] [0;3;2]));
  (*1478*) AddTo n_u11new_bb (Plain (Einsum [(n_gc'bb'bvo,[0;1;2])] [0;2;1]));
  (*1480*) Assign n_t1new'aa (Plain (Copy n_t1new_aa));
  (*1481*) Assign n_t1new'bb (Plain (Copy n_t1new_bb));
  (*1482*) Assign n_t2new'abab (Plain (Copy n_t2new_abab));
  (*1483*) Assign n_t2new'baba (Plain (Copy n_t2new_baba));
  (*1484*) Assign n_t2new'aaaa (Plain (Copy n_t2new_aaaa));
  (*1485*) Assign n_t2new'bbbb (Plain (Copy n_t2new_bbbb));
  (*1486*) Assign n_u11new'aa (Plain (Copy n_u11new_aa));
  (*1487*) Assign n_u11new'bb (Plain (Copy n_u11new_bb))]
 [(n_t1new'aa,[4;5]); (n_t1new'bb,[6;7]); (n_t2new'abab,[4;6;5;7]); (n_t2new'baba,[6;4;7;5]); (n_t2new'aaaa,[4;4;5;5]); (n_t2new'bbbb,[6;6;7;7]); (n_s1new,[3]); (n_s2new,[3;3]); (n_u11new'aa,[3;4;5]); (n_u11new'bb,[3;6;7])].

(** ebcc/codegen/UCCSD_SD_1_1.py:1491-3875 [update_lams] *)
Definition UCCSD_SD_1_1_update_lams : prog := mkprog
 [(n_g'aa'boo,[3;4;4]); (n_g'aa'bvo,[3;5;4]); (n_g'aa'bov,[3;4;5]); (n_g'aa'bvv,[3;5;5]); (n_g'bb'boo,[3;6;6]); (n_g'bb'bvo,[3;7;6]); (n_g'bb'bov,[3;6;7]); (n_g'bb'bvv,[3;7;7]); (n_l2'abab,[5;7;4;6]); (n_t2'abab,[4;6;5;7]); (n_v'aabb'ovvv,[4;5;7;7]); (n_t1'bb,[6;7]); (n_t1'aa,[4;5]); (n_v'aabb'ovoo,[4;5;6;6]); (n_v'aabb'ooov,[4;4;6;7]); (n_v'bbaa'ovvv,[6;7;5;5]); (n_v'bbaa'oovv,[6;6;5;5]); (n_v'aabb'ovov,[4;5;6;7]); (n_l1'aa,[5;4]); (n_s1,[3]); (n_f'aa'ov,[4;5]); (n_t2'aaaa,[4;4;5;5]); (n_v'aaaa'oovo,[4;4;5;4]); (n_v'aaaa'ovvv,[4;5;5;5]); (n_v'aaaa'ovov,[4;5;4;5]); (n_u11'aa,[3;4;5]); (n_l2'aaaa,[5;5;4;4]); (n_v'aaaa'ooov,[4;4;4;5]); (n_v'aaaa'ovvo,[4;5;5;4]); (n_v'aaaa'oovv,[4;4;5;5]); (n_v'aaaa'oooo,[4;4;4;4]); (n_t2'bbbb,[6;6;7;7]); (n_v'bbbb'ovvv,[6;7;7;7]); (n_l2'bbbb,[7;7;6;6]); (n_ls1,[3]); (n_v'aabb'oooo,[4;4;6;6]); (n_v'aabb'ovvo,[4;5;7;6]); (n_v'aabb'oovo,[4;4;7;6]); (n_v'aabb'oovv,[4;4;7;7]); (n_l1'bb,[7;6]); (n_v'aaaa'vvvv,[5;5;5;5]); (n_v'aaaa'vovv,[5;4;5;5]); (n_v'aabb'vvvo,[5;5;7;6]); (n_v'aabb'vvvv,[5;5;7;7]); (n_v'bbaa'ovvo,[6;7;5;4]); (n_v'bbbb'ovov,[6;7;6;7]); (n_u11'bb,[3;6;7]); (n_f'bb'ov,[6;7]); (n_f'aa'oo,[4;4]); (n_f'aa'vv,[5;5]); (n_G,[3]); (n_s2,[3;3]); (n_f'aa'vo,[5;4]); (n_lu11'aa,[3;5;4]); (n_v'bbbb'ooov,[6;6;6;7]); (n_v'bbbb'ovvo,[6;7;7;6]); (n_v'bbbb'oovv,[6;6;7;7]); (n_f'bb'oo,[6;6]); (n_f'bb'vv,[7;7]); (n_f'bb'vo,[7;6]); (n_lu11'bb,[3;7;6]); (n_w,[3;3]); (n_v'bbbb'oovo,[6;6;7;6]); (n_v'bbbb'oooo,[6;6;6;6]); (n_v'bbaa'oovo,[6;6;5;4]); (n_v'bbbb'vvvv,[7;7;7;7]); (n_v'bbbb'vovv,[7;6;7;7]); (n_v'aabb'vovv,[5;4;7;7]); (n_ls2,[3;3])]
 [(*1497*) Assign n_gc'aa'boo (Plain (Transpose n_g'aa'boo [0;2;1]));
  (*1497*) Assign n_gc'aa'bov (Plain (Transpose n_g'aa'bvo [0;2;1]));
  (*1497*) Assign n_gc'aa'bvo (Plain (Transpose n_g'aa'bov [0;2;1]));
  (*1497*) Assign n_gc'aa'bvv (Plain (Transpose n_g'aa'bvv [0;2;1]));
  (*1497*) Assign n_gc'bb'boo (Plain (Transpose n_g'bb'boo [0;2;1]));
  (*1497*) Assign n_gc'bb'bov (Plain (Transpose n_g'bb'bvo [0;2;1]));
  (*1497*) Assign n_gc'bb'bvo (Plain (Transpose n_g'bb'bov [0;2;1]));
  (*1497*) Assign n_gc'bb'bvv (Plain (Transpose n_g'bb'bvv [0;2;1]));
  (*1513*) Assign (T 1) (Plain (Zeros [4;4;7;7]));
  (*1514*) AddTo (T 1) (Plain (Einsum [(n_l2'abab,[0;1;2;3]); (n_t2'abab,[4;3;0;5])] [2;4;1;5]));
  (*1515*) Assign n_l1new_aa (Plain (Zeros [5;4]));
  (*1516*) AddTo n_l1new_aa (Times (Einsum [(n_v'aabb'ovvv,[0;1;2;3]); (T 1,[4;0;2;3])] [1;4]) (-1) 1);
  (*1517*) Del (T 1);
  (*1518*) Assign (T 2) (Plain (Zeros [4;6;6;5]));
  (*1519*) AddTo (T 2) (Plain (Einsum [(n_t1'bb,[0;1]); (n_l2'abab,[2;1;3;4])] [3;4;0;2]));
  (*1520*) Assign (T 4) (Plain (Zeros [4;4;6;6]));
  (*1521*) AddTo (T 4) (Plain (Einsum [(n_t1'aa,[0;1]); (T 2,[2;3;4;1])] [2;0;3;4]));
  (*1522*) Assign (T 69) (Plain (Zeros [4;4;6;6]));
  (*1523*) AddTo (T 69) (Plain (Einsum [(T 4,[0;1;2;3])] [0;1;2;3]));
  (*1524*) Assign (T 477) (Plain (Zeros [4;4;6;6]));
  (*1525*) AddTo (T 477) (Plain (Einsum [(T 4,[0;1;2;3])] [0;1;2;3]));
  (*1526*) AddTo n_l1new_aa (Plain (Einsum [(n_v'aabb'ovoo,[0;1;2;3]); (T 4,[4;0;3;2])] [1;4]));
  (*1527*) Assign n_l1new_bb (Plain (Zeros [7;6]));
  (*1528*) AddTo n_l1new_bb (Plain (Einsum [(n_v'aabb'ooov,[0;1;2;3]); (T 4,[1;0;4;2])] [3;4]));
  (*1529*) Del (T 4);
  (*1530*) Assign (T 56) (Plain (Zeros [4;6;5;7]));
  (*1531*) AddTo (T 56) (Plain (Einsum [(n_t1'bb,[0;1]); (T 2,[2;0;3;4])] [2;3;4;1]));
  (*1532*) Assign (T 70) (Plain (Zeros [4;4;6;7]));
  (*1533*) AddTo (T 70) (Plain (Einsum [(n_t2'abab,[0;1;2;3]); (T 2,[4;1;5;2])] [4;0;5;3]));
  (*1534*) Assign (T 181) (Plain (Zeros [6;7]));
  (*1535*) AddTo (T 181) (Plain (Einsum [(n_t2'abab,[0;1;2;3]); (T 2,[0;1;4;2])] [4;3]));
  (*1536*) Assign (T 191) (Plain (Zeros [6;7]));
  (*1537*) AddTo (T 191) (Plain (Einsum [(T 181,[0;1])] [0;1]));
  (*1538*) Del (T 181);
  (*1539*) Assign (T 263) (Plain (Zeros [6;6;6;7]));
  (*1540*) AddTo (T 263) (Plain (Einsum [(n_t2'abab,[0;1;2;3]); (T 2,[0;4;5;2])] [4;1;5;3]));
  (*1541*) Assign (T 304) (Plain (Zeros [4;4;5;5]));
  (*1542*) AddTo (T 304) (Plain (Einsum [(n_v'aabb'ovoo,[0;1;2;3]); (T 2,[4;3;2;5])] [4;0;5;1]));
  (*1543*) Assign (T 343) (Plain (Zeros [4;4;5;5]));
  (*1544*) SubFrom (T 343) (Plain (Einsum [(T 304,[0;1;2;3])] [0;1;2;3]));
  (*1545*) Del (T 304);
  (*1546*) Assign (T 445) (Plain (Zeros [4;6;5;7]));
  (*1547*) AddTo (T 445) (Plain (Einsum [(n_v'bbaa'ovvv,[0;1;2;3]); (T 2,[4;5;0;2])] [4;5;3;1]));
  (*1548*) Assign n_l2new_baba (Plain (Zeros [7;5;6;4]));
  (*1549*) SubFrom n_l2new_baba (Plain (Einsum [(T 445,[0;1;2;3])] [3;2;1;0]));
  (*1550*) Assign n_l2new_abab (Plain (Zeros [5;7;4;6]));
  (*1551*) SubFrom n_l2new_abab (Plain (Einsum [(T 445,[0;1;2;3])] [2;3;0;1]));
  (*1552*) Del (T 445);
  (*1553*) SubFrom n_l1new_aa (Plain (Einsum [(n_v'bbaa'oovv,[0;1;2;3]); (T 2,[4;1;0;2])] [3;4]));
  (*1554*) Assign (T 3) (Plain (Zeros [4;4;6;6]));
  (*1555*) AddTo (T 3) (Plain (Einsum [(n_l2'abab,[0;1;2;3]); (n_t2'abab,[4;5;0;1])] [2;4;3;5]));
  (*1556*) AddTo (T 69) (Plain (Einsum [(T 3,[0;1;2;3])] [0;1;2;3]));
  (*1557*) AddTo (T 70) (Plain (Einsum [(n_t1'bb,[0;1]); (T 69,[2;3;0;4])] [2;3;4;1]));
  (*1558*) Assign (T 268) (Plain (Zeros [4;6;6;5]));
  (*1559*) AddTo (T 268) (Plain (Einsum [(n_t1'aa,[0;1]); (T 69,[0;2;3;4])] [2;3;4;1]));
  (*1560*) Del (T 69);
  (*1561*) AddTo (T 477) (Plain (Einsum [(T 3,[0;1;2;3])] [0;1;2;3]));
  (*1562*) Assign (T 478) (Plain (Zeros [4;6;5;7]));
  (*1563*) AddTo (T 478) (Plain (Einsum [(n_v'aabb'ovov,[0;1;2;3]); (T 477,[4;0;5;2])] [4;5;1;3]));
  (*1564*) Del (T 477);
  (*1565*) AddTo n_l2new_baba (Plain (Einsum [(T 478,[0;1;2;3])] [3;2;1;0]));
  (*1566*) AddTo n_l2new_abab (Plain (Einsum [(T 478,[0;1;2;3])] [2;3;0;1]));
  (*1567*) Del (T 478);
  (*1568*) AddTo n_l1new_aa (Plain (Einsum [(n_v'aabb'ovoo,[0;1;2;3]); (T 3,[4;0;3;2])] [1;4]));
  (*1569*) AddTo n_l1new_bb (Plain (Einsum [(n_v'aabb'ooov,[0;1;2;3]); (T 3,[1;0;4;2])] [3;4]));
  (*1570*) Del (T 3);
  (*1571*) Assign (T 5) (Plain (Zeros [4;4]));
  (*1572*) AddTo (T 5) (Plain (Einsum [(n_l1'aa,[0;1]); (n_t1'aa,[2;0])] [1;2]));
  (*1573*) Assign (T 168) (Plain (Zeros [4;4]));
  (*1574*) AddTo (T 168) (Plain (Einsum [(T 5,[0;1])] [0;1]));
  (*1575*) Assign (T 221) (Plain (Zeros [4;4]));
  (*1576*) AddTo (T 221) (Plain (Einsum [(T 5,[0;1])] [0;1]));
  (*1577*) Assign (T 336) (Plain (Zeros [4;4]));
  (*1578*) AddTo (T 336) (Plain (Einsum [(T 5,[0;1])] [0;1]));
  (*1579*) Assign (T 6) (Plain (Zeros [4;5]));
  (*1580*) AddTo (T 6) (Plain (Einsum [(n_s1,[0]); (n_g'aa'bov,[0;1;2])] [1;2]));
  (*1581*) Assign (T 7) (Plain (Zeros [4;5]));
  (*1582*) AddTo (T 7) (Plain (Einsum [(T 6,[0;1])] [0;1]));
  (*1583*) Assign (T 39) (Plain (Zeros [4;5]));
  (*1584*) AddTo (T 39) (Plain (Einsum [(T 6,[0;1])] [0;1]));
  (*1585*) Assign (T 323) (Plain (Zeros [4;5]));
  (*1586*) AddTo (T 323) (Plain (Einsum [(T 6,[0;1])] [0;1]));
  (*1587*) Assign (T 513) (Plain (Zeros [4;5]));
  (*1588*) AddTo (T 513) (Plain (Einsum [(T 6,[0;1])] [0;1]));
  (*1589*) SubFrom n_l1new_aa (Plain (Einsum [(T 5,[0;1]); (T 6,[1;2])] [2;0]));
  (*1590*) Del (T 5);
  (*1591*) Del (T 6);
  (*1592*) AddTo (T 7) (Plain (Einsum [(n_f'aa'ov,[0;1])] [0;1]));
  (*1593*) Assign (T 8) (Plain (Zeros [4;4;4;5]));
  (*1594*) AddTo (T 8) (Plain (Einsum [(T 7,[0;1]); (n_t2'aaaa,[2;3;1;4])] [2;3;0;4]));
  (*1595*) Del (T 7);
  (*1596*) Assign (T 9) (Plain (Zeros [4;4;4;5]));
  (*1597*) AddTo (T 9) (Plain (Einsum [(T 8,[0;1;2;3])] [2;1;0;3]));
  (*1598*) Del (T 8);
  (*1599*) AddTo (T 9) (Times (Einsum [(n_v'aaaa'oovo,[0;1;2;3])] [0;1;3;2]) (-1) 1);
  (*1600*) Assign (T 34) (Plain (Zeros [4;4;4;5]));
  (*1601*) AddTo (T 34) (Times (Einsum [(T 9,[0;1;2;3])] [1;0;2;3]) (-1) 1);
  (*1602*) AddTo (T 34) (Plain (Einsum [(T 9,[0;1;2;3])] [2;0;1;3]));
  (*1603*) Del (T 9);
  (*1604*) Assign (T 10) (Plain (Zeros [4;4;4;5]));
  (*1605*) AddTo (T 10) (Plain (Einsum [(n_t2'aaaa,[0;1;2;3]); (n_v'aaaa'ovvv,[4;2;5;3])] [0;1;4;5]));
  (*1606*) Assign (T 23) (Plain (Zeros [4;4;4;5]));
  (*1607*) AddTo (T 23) (Times (Einsum [(T 10,[0;1;2;3])] [0;1;2;3]) (-1) 1);
  (*1608*) Del (T 10);
  (*1609*) Assign (T 11) (Plain (Zeros [4;4;5;5]));
  (*1610*) AddTo (T 11) (Plain (Einsum [(n_t1'aa,[0;1]); (n_v'aaaa'ovvv,[2;1;3;4])] [0;2;3;4]));
  (*1611*) Assign (T 12) (Plain (Zeros [4;4;4;5]));
  (*1612*) AddTo (T 12) (Plain (Einsum [(n_t1'aa,[0;1]); (T 11,[2;3;4;1])] [2;0;3;4]));
  (*1613*) Del (T 11);
  (*1614*) AddTo (T 23) (Times (Einsum [(T 12,[0;1;2;3])] [0;1;2;3]) (-1) 1);
  (*1615*) Del (T 12);
  (*1616*) Assign (T 13) (Plain (Zeros [4;5]));
  (*1617*) AddTo (T 13) (Plain (Einsum [(n_t1'bb,[0;1]); (n_v'aabb'ovov,[2;3;0;1])] [2;3]));
  (*1618*) Assign (T 16) (Plain (Zeros [4;5]));
  (*1619*) AddTo (T 16) (Plain (Einsum [(T 13,[0;1])] [0;1]));
  (*1620*) AddTo (T 39) (Plain (Einsum [(T 13,[0;1])] [0;1]));
  (*1621*) Assign (T 222) (Plain (Zeros [4;5]));
  (*1622*) AddTo (T 222) (Plain (Einsum [(T 13,[0;1])] [0;1]));
  (*1623*) Assign (T 342) (Plain (Zeros [4;5]));
  (*1624*) AddTo (T 342) (Plain (Einsum [(T 13,[0;1])] [0;1]));
  (*1625*) AddTo (T 513) (Plain (Einsum [(T 13,[0;1])] [0;1]));
  (*1626*) Del (T 13);
  (*1627*) Assign (T 14) (Plain (Zeros [4;4;5;5]));
  (*1628*) AddTo (T 14) (Times (Einsum [(n_v'aaaa'ovov,[0;1;2;3])] [2;0;1;3]) (-1) 1);
  (*1629*) AddTo (T 14) (Plain (Einsum [(n_v'aaaa'ovov,[0;1;2;3])] [2;0;3;1]));
  (*1630*) Assign (T 15) (Plain (Zeros [4;5]));
  (*1631*) AddTo (T 15) (Plain (Einsum [(n_t1'aa,[0;1]); (T 14,[0;2;3;1])] [2;3]));
  (*1632*) AddTo (T 16) (Times (Einsum [(T 15,[0;1])] [0;1]) (-1) 1);
  (*1633*) Assign (T 17) (Plain (Zeros [4;4;4;5]));
  (*1634*) AddTo (T 17) (Plain (Einsum [(T 16,[0;1]); (n_t2'aaaa,[2;3;1;4])] [2;3;0;4]));
  (*1635*) AddTo (T 23) (Plain (Einsum [(T 17,[0;1;2;3])] [1;0;2;3]));
  (*1636*) Del (T 17);
  (*1637*) Assign (T 352) (Plain (Zeros [4;4]));
  (*1638*) AddTo (T 352) (Plain (Einsum [(n_t1'aa,[0;1]); (T 16,[2;1])] [0;2]));
  (*1639*) Assign (T 353) (Plain (Zeros [4;4]));
  (*1640*) AddTo (T 353) (Plain (Einsum [(T 352,[0;1])] [0;1]));
  (*1641*) Del (T 352);
  (*1642*) AddTo (T 39) (Times (Einsum [(T 15,[0;1])] [0;1]) (-1) 1);
  (*1643*) AddTo (T 222) (Times (Einsum [(T 15,[0;1])] [0;1]) (-1) 1);
  (*1644*) Del (T 15);
  (*1645*) Assign (T 199) (Plain (Zeros [3;4;5]));
  (*1646*) AddTo (T 199) (Plain (Einsum [(n_u11'aa,[0;1;2]); (T 14,[1;3;4;2])] [0;3;4]));
  (*1647*) Assign (T 200) (Plain (Zeros [3;4;5]));
  (*1648*) AddTo (T 200) (Times (Einsum [(T 199,[0;1;2])] [0;1;2]) (-1) 1);
  (*1649*) Assign (T 212) (Plain (Zeros [3;4;5]));
  (*1650*) AddTo (T 212) (Times (Einsum [(T 199,[0;1;2])] [0;1;2]) (-1) 1);
  (*1651*) Del (T 199);
  (*1652*) Assign (T 454) (Plain (Zeros [4;6;5;7]));
  (*1653*) AddTo (T 454) (Plain (Einsum [(n_t2'abab,[0;1;2;3]); (T 14,[0;4;5;2])] [4;1;5;3]));
  (*1654*) Assign (T 456) (Plain (Zeros [4;6;5;7]));
  (*1655*) AddTo (T 456) (Times (Einsum [(T 454,[0;1;2;3])] [0;1;2;3]) (-1) 1);
  (*1656*) Del (T 454);
  (*1657*) Assign (T 18) (Plain (Zeros [4;4;4;4]));
  (*1658*) AddTo (T 18) (Plain (Einsum [(n_t2'aaaa,[0;1;2;3]); (n_v'aaaa'ovov,[4;3;5;2])] [0;1;5;4]));
  (*1659*) Assign (T 21) (Plain (Zeros [4;4;4;4]));
  (*1660*) AddTo (T 21) (Plain (Einsum [(T 18,[0;1;2;3])] [1;0;3;2]));
  (*1661*) Assign (T 369) (Plain (Zeros [4;4;4;4]));
  (*1662*) AddTo (T 369) (Plain (Einsum [(T 18,[0;1;2;3])] [1;0;3;2]));
  (*1663*) Del (T 18);
  (*1664*) Assign (T 19) (Plain (Zeros [4;4;4;5]));
  (*1665*) AddTo (T 19) (Plain (Einsum [(n_t1'aa,[0;1]); (n_v'aaaa'ovov,[2;1;3;4])] [0;3;2;4]));
  (*1666*) Assign (T 20) (Plain (Zeros [4;4;4;4]));
  (*1667*) AddTo (T 20) (Plain (Einsum [(n_t1'aa,[0;1]); (T 19,[2;3;4;1])] [0;2;3;4]));
  (*1668*) AddTo (T 21) (Plain (Einsum [(T 20,[0;1;2;3])] [0;1;2;3]));
  (*1669*) Assign (T 22) (Plain (Zeros [4;4;4;5]));
  (*1670*) AddTo (T 22) (Plain (Einsum [(n_t1'aa,[0;1]); (T 21,[2;3;0;4])] [2;3;4;1]));
  (*1671*) Del (T 21);
  (*1672*) AddTo (T 23) (Plain (Einsum [(T 22,[0;1;2;3])] [1;0;2;3]));
  (*1673*) Del (T 22);
  (*1674*) AddTo (T 34) (Times (Einsum [(T 23,[0;1;2;3])] [0;2;1;3]) (-1) 1);
  (*1675*) AddTo (T 34) (Plain (Einsum [(T 23,[0;1;2;3])] [1;2;0;3]));
  (*1676*) Del (T 23);
  (*1677*) AddTo (T 369) (Plain (Einsum [(T 20,[0;1;2;3])] [0;1;2;3]));
  (*1678*) Del (T 20);
  (*1679*) Assign (T 370) (Plain (Zeros [4;4;5;5]));
  (*1680*) AddTo (T 370) (Plain (Einsum [(n_l2'aaaa,[0;1;2;3]); (T 369,[2;3;4;5])] [4;5;0;1]));
  (*1681*) Del (T 369);
  (*1682*) Assign (T 371) (Plain (Zeros [4;4;5;5]));
  (*1683*) AddTo (T 371) (Plain (Einsum [(T 370,[0;1;2;3])] [0;1;2;3]));
  (*1684*) Del (T 370);
  (*1685*) Assign (T 24) (Plain (Zeros [4;4;4;5]));
  (*1686*) AddTo (T 24) (Times (Einsum [(T 19,[0;1;2;3])] [0;1;2;3]) (-1) 1);
  (*1687*) AddTo (T 24) (Plain (Einsum [(T 19,[0;1;2;3])] [0;2;1;3]));
  (*1688*) Assign (T 35) (Plain (Zeros [4;4;4;5]));
  (*1689*) AddTo (T 35) (Times (Einsum [(T 19,[0;1;2;3])] [1;2;0;3]) (-1) 1);
  (*1690*) AddTo (T 35) (Plain (Einsum [(T 19,[0;1;2;3])] [2;1;0;3]));
  (*1691*) Assign (T 80) (Plain (Zeros [4;4;4;5]));
  (*1692*) AddTo (T 80) (Times (Einsum [(T 19,[0;1;2;3])] [1;2;0;3]) (-1) 1);
  (*1693*) Assign (T 87) (Plain (Zeros [4;4;4;5]));
  (*1694*) AddTo (T 87) (Times (Einsum [(T 19,[0;1;2;3])] [1;2;0;3]) (-1) 1);
  (*1695*) AddTo (T 87) (Plain (Einsum [(T 19,[0;1;2;3])] [2;1;0;3]));
  (*1696*) Assign (T 339) (Plain (Zeros [4;4;4;5]));
  (*1697*) AddTo (T 339) (Plain (Einsum [(T 19,[0;1;2;3])] [0;1;2;3]));
  (*1698*) Assign (T 348) (Plain (Zeros [4;4;4;5]));
  (*1699*) AddTo (T 348) (Plain (Einsum [(T 19,[0;1;2;3])] [0;1;2;3]));
  (*1700*) AddTo (T 348) (Times (Einsum [(T 19,[0;1;2;3])] [0;2;1;3]) (-1) 1);
  (*1701*) Assign (T 515) (Plain (Zeros [4;4;4;5]));
  (*1702*) AddTo (T 515) (Times (Einsum [(T 19,[0;1;2;3])] [0;1;2;3]) (-1) 1);
  (*1703*) AddTo (T 515) (Plain (Einsum [(T 19,[0;1;2;3])] [0;2;1;3]));
  (*1704*) Del (T 19);
  (*1705*) AddTo (T 24) (Plain (Einsum [(n_v'aaaa'ooov,[0;1;2;3])] [1;0;2;3]));
  (*1706*) AddTo (T 24) (Times (Einsum [(n_v'aaaa'ooov,[0;1;2;3])] [1;2;0;3]) (-1) 1);
  (*1707*) Assign (T 25) (Plain (Zeros [4;4;5;5]));
  (*1708*) AddTo (T 25) (Times (Einsum [(n_t2'aaaa,[0;1;2;3])] [1;0;2;3]) (-1) 1);
  (*1709*) AddTo (T 25) (Plain (Einsum [(n_t2'aaaa,[0;1;2;3])] [1;0;3;2]));
  (*1710*) Assign (T 26) (Plain (Zeros [4;4;4;5]));
  (*1711*) AddTo (T 26) (Plain (Einsum [(T 24,[0;1;2;3]); (T 25,[1;4;5;3])] [0;2;4;5]));
  (*1712*) Del (T 24);
  (*1713*) AddTo (T 34) (Plain (Einsum [(T 26,[0;1;2;3])] [0;1;2;3]));
  (*1714*) Assign (T 54) (Plain (Zeros [4;4;4;5]));
  (*1715*) AddTo (T 54) (Plain (Einsum [(T 26,[0;1;2;3])] [0;1;2;3]));
  (*1716*) Del (T 26);
  (*1717*) Assign (T 61) (Plain (Zeros [4;4]));
  (*1718*) AddTo (T 61) (Plain (Einsum [(n_l2'aaaa,[0;1;2;3]); (T 25,[2;4;1;0])] [3;4]));
  (*1719*) Assign (T 62) (Plain (Zeros [4;4]));
  (*1720*) AddTo (T 62) (Times (Einsum [(T 61,[0;1])] [0;1]) (-1) 1);
  (*1721*) AddTo (T 168) (Times (Einsum [(T 61,[0;1])] [0;1]) (-1) 1);
  (*1722*) Assign (T 210) (Plain (Zeros [4;4]));
  (*1723*) AddTo (T 210) (Times (Einsum [(T 61,[0;1])] [0;1]) (-1) 1);
  (*1724*) Del (T 61);
  (*1725*) Assign (T 86) (Plain (Zeros [4;5]));
  (*1726*) AddTo (T 86) (Plain (Einsum [(n_v'aaaa'ovvv,[0;1;2;3]); (T 25,[0;4;3;1])] [4;2]));
  (*1727*) Assign (T 121) (Plain (Zeros [4;5]));
  (*1728*) AddTo (T 121) (Times (Einsum [(T 86,[0;1])] [0;1]) (-1) 1);
  (*1729*) Del (T 86);
  (*1730*) Assign (T 105) (Plain (Zeros [4;4]));
  (*1731*) AddTo (T 105) (Plain (Einsum [(n_v'aaaa'ovov,[0;1;2;3]); (T 25,[0;4;3;1])] [4;2]));
  (*1732*) Assign (T 109) (Plain (Zeros [4;4]));
  (*1733*) AddTo (T 109) (Times (Einsum [(T 105,[0;1])] [1;0]) (-1) 1);
  (*1734*) Del (T 105);
  (*1735*) Assign (T 449) (Plain (Zeros [4;6;5;7]));
  (*1736*) AddTo (T 449) (Plain (Einsum [(n_v'aabb'ovov,[0;1;2;3]); (T 25,[0;4;5;1])] [4;2;5;3]));
  (*1737*) Assign (T 451) (Plain (Zeros [4;6;5;7]));
  (*1738*) AddTo (T 451) (Times (Einsum [(T 449,[0;1;2;3])] [0;1;2;3]) (-1) 1);
  (*1739*) Del (T 449);
  (*1740*) Assign (T 27) (Plain (Zeros [4;4;6;7]));
  (*1741*) AddTo (T 27) (Plain (Einsum [(n_t1'aa,[0;1]); (n_v'aabb'ovov,[2;1;3;4])] [0;2;3;4]));
  (*1742*) Assign (T 28) (Plain (Zeros [4;4;6;7]));
  (*1743*) AddTo (T 28) (Plain (Einsum [(T 27,[0;1;2;3])] [1;0;2;3]));
  (*1744*) Assign (T 509) (Plain (Zeros [4;4;6;7]));
  (*1745*) AddTo (T 509) (Plain (Einsum [(T 27,[0;1;2;3])] [1;0;2;3]));
  (*1746*) AddTo (T 28) (Plain (Einsum [(n_v'aabb'ooov,[0;1;2;3])] [0;1;2;3]));
  (*1747*) Assign (T 29) (Plain (Zeros [4;4;4;5]));
  (*1748*) AddTo (T 29) (Plain (Einsum [(n_t2'abab,[0;1;2;3]); (T 28,[4;5;1;3])] [0;4;5;2]));
  (*1749*) AddTo (T 34) (Plain (Einsum [(T 29,[0;1;2;3])] [2;1;0;3]));
  (*1750*) AddTo (T 54) (Plain (Einsum [(T 29,[0;1;2;3])] [2;1;0;3]));
  (*1751*) Del (T 29);
  (*1752*) Assign (T 89) (Plain (Zeros [4;5]));
  (*1753*) AddTo (T 89) (Plain (Einsum [(n_t2'abab,[0;1;2;3]); (T 28,[0;4;1;3])] [4;2]));
  (*1754*) AddTo (T 121) (Times (Einsum [(T 89,[0;1])] [0;1]) (-1) 1);
  (*1755*) Del (T 89);
  (*1756*) Assign (T 251) (Plain (Zeros [4;6;6;5]));
  (*1757*) AddTo (T 251) (Times (Einsum [(n_t2'abab,[0;1;2;3]); (T 28,[0;4;5;3])] [4;5;1;2]) (-1) 1);
  (*1758*) Assign (T 479) (Plain (Zeros [4;6;5;7]));
  (*1759*) AddTo (T 479) (Plain (Einsum [(T 2,[0;1;2;3]); (T 28,[4;0;2;5])] [4;1;3;5]));
  (*1760*) AddTo n_l2new_baba (Plain (Einsum [(T 479,[0;1;2;3])] [3;2;1;0]));
  (*1761*) AddTo n_l2new_abab (Plain (Einsum [(T 479,[0;1;2;3])] [2;3;0;1]));
  (*1762*) Del (T 479);
  (*1763*) Assign (T 30) (Plain (Zeros [4;4;5;5]));
  (*1764*) AddTo (T 30) (Plain (Einsum [(n_v'aaaa'ovvo,[0;1;2;3])] [0;3;2;1]));
  (*1765*) AddTo (T 30) (Times (Einsum [(n_v'aaaa'oovv,[0;1;2;3])] [0;1;2;3]) (-1) 1);
  (*1766*) Assign (T 31) (Plain (Zeros [4;4;4;5]));
  (*1767*) AddTo (T 31) (Plain (Einsum [(n_t1'aa,[0;1]); (T 30,[2;3;4;1])] [0;2;3;4]));
  (*1768*) AddTo (T 34) (Plain (Einsum [(T 31,[0;1;2;3])] [0;1;2;3]));
  (*1769*) AddTo (T 54) (Plain (Einsum [(T 31,[0;1;2;3])] [0;1;2;3]));
  (*1770*) Del (T 31);
  (*1771*) Assign (T 97) (Plain (Zeros [4;5]));
  (*1772*) AddTo (T 97) (Plain (Einsum [(n_t1'aa,[0;1]); (T 30,[0;2;3;1])] [2;3]));
  (*1773*) AddTo (T 121) (Plain (Einsum [(T 97,[0;1])] [0;1]));
  (*1774*) Del (T 97);
  (*1775*) Assign (T 32) (Plain (Zeros [4;4;4;4]));
  (*1776*) AddTo (T 32) (Plain (Einsum [(n_t1'aa,[0;1]); (n_v'aaaa'ooov,[2;3;4;1])] [0;2;4;3]));
  (*1777*) Assign (T 33) (Plain (Zeros [4;4;4;4]));
  (*1778*) AddTo (T 33) (Plain (Einsum [(T 32,[0;1;2;3])] [1;2;0;3]));
  (*1779*) AddTo (T 33) (Times (Einsum [(T 32,[0;1;2;3])] [2;1;0;3]) (-1) 1);
  (*1780*) Assign (T 53) (Plain (Zeros [4;4;4;4]));
  (*1781*) AddTo (T 53) (Plain (Einsum [(T 32,[0;1;2;3])] [0;1;2;3]));
  (*1782*) AddTo (T 53) (Times (Einsum [(T 32,[0;1;2;3])] [0;2;1;3]) (-1) 1);
  (*1783*) AddTo (T 54) (Times (Einsum [(n_t1'aa,[0;1]); (T 53,[2;0;3;4])] [2;3;4;1]) (-1) 1);
  (*1784*) Del (T 53);
  (*1785*) AddTo n_l1new_aa (Plain (Einsum [(n_l2'aaaa,[0;1;2;3]); (T 54,[3;4;2;1])] [0;4]));
  (*1786*) Del (T 54);
  (*1787*) Assign (T 302) (Plain (Zeros [4;4;5;5]));
  (*1788*) AddTo (T 302) (Plain (Einsum [(n_l2'aaaa,[0;1;2;3]); (T 32,[3;4;5;2])] [4;5;1;0]));
  (*1789*) Del (T 32);
  (*1790*) SubFrom (T 343) (Plain (Einsum [(T 302,[0;1;2;3])] [0;1;2;3]));
  (*1791*) Del (T 302);
  (*1792*) AddTo (T 33) (Plain (Einsum [(n_v'aaaa'oooo,[0;1;2;3])] [2;0;1;3]));
  (*1793*) AddTo (T 33) (Times (Einsum [(n_v'aaaa'oooo,[0;1;2;3])] [2;0;3;1]) (-1) 1);
  (*1794*) AddTo (T 34) (Times (Einsum [(n_t1'aa,[0;1]); (T 33,[0;2;3;4])] [3;2;4;1]) (-1) 1);
  (*1795*) Del (T 33);
  (*1796*) AddTo n_l1new_aa (Times (Einsum [(n_l2'aaaa,[0;1;2;3]); (T 34,[3;4;2;0])] [1;4]) (-1) 1);
  (*1797*) Del (T 34);
  (*1798*) AddTo (T 35) (Plain (Einsum [(n_v'aaaa'ooov,[0;1;2;3])] [0;2;1;3]));
  (*1799*) AddTo (T 35) (Times (Einsum [(n_v'aaaa'ooov,[0;1;2;3])] [2;0;1;3]) (-1) 1);
  (*1800*) Assign (T 47) (Plain (Zeros [4;4;6;7]));
  (*1801*) AddTo (T 47) (Times (Einsum [(n_t2'abab,[0;1;2;3]); (T 35,[0;4;5;2])] [4;5;1;3]) (-1) 1);
  (*1802*) Del (T 35);
  (*1803*) Assign (T 36) (Plain (Zeros [6;6;7;7]));
  (*1804*) AddTo (T 36) (Times (Einsum [(n_t2'bbbb,[0;1;2;3])] [1;0;2;3]) (-1) 1);
  (*1805*) AddTo (T 36) (Plain (Einsum [(n_t2'bbbb,[0;1;2;3])] [1;0;3;2]));
  (*1806*) AddTo (T 47) (Times (Einsum [(T 28,[0;1;2;3]); (T 36,[2;4;5;3])] [0;1;4;5]) (-1) 1);
  (*1807*) Del (T 28);
  (*1808*) Assign (T 129) (Plain (Zeros [6;7]));
  (*1809*) AddTo (T 129) (Plain (Einsum [(n_v'bbbb'ovvv,[0;1;2;3]); (T 36,[0;4;3;1])] [4;2]));
  (*1810*) Assign (T 159) (Plain (Zeros [6;7]));
  (*1811*) AddTo (T 159) (Times (Einsum [(T 129,[0;1])] [0;1]) (-1) 1);
  (*1812*) Del (T 129);
  (*1813*) Assign (T 188) (Plain (Zeros [6;6]));
  (*1814*) AddTo (T 188) (Plain (Einsum [(n_l2'bbbb,[0;1;2;3]); (T 36,[2;4;1;0])] [3;4]));
  (*1815*) Assign (T 189) (Plain (Zeros [6;6]));
  (*1816*) AddTo (T 189) (Times (Einsum [(T 188,[0;1])] [0;1]) (-1) 1);
  (*1817*) Assign (T 262) (Plain (Zeros [6;6]));
  (*1818*) AddTo (T 262) (Times (Einsum [(T 188,[0;1])] [0;1]) (-1) 1);
  (*1819*) Assign (T 294) (Plain (Zeros [6;6]));
  (*1820*) AddTo (T 294) (Times (Einsum [(T 188,[0;1])] [0;1]) (-1) 1);
  (*1821*) Del (T 188);
  (*1822*) Assign (T 195) (Plain (Zeros [7;7]));
  (*1823*) AddTo (T 195) (Plain (Einsum [(n_l2'bbbb,[0;1;2;3]); (T 36,[2;3;1;4])] [0;4]));
  (*1824*) Assign (T 196) (Plain (Zeros [7;7]));
  (*1825*) AddTo (T 196) (Times (Einsum [(T 195,[0;1])] [0;1]) (-1) 1);
  (*1826*) Assign (T 436) (Plain (Zeros [7;7]));
  (*1827*) AddTo (T 436) (Times (Einsum [(T 195,[0;1])] [0;1]) (-1) 1);
  (*1828*) Assign (T 497) (Plain (Zeros [7;7]));
  (*1829*) AddTo (T 497) (Times (Einsum [(T 195,[0;1])] [0;1]) (-1) 1);
  (*1830*) Del (T 195);
  (*1831*) Assign (T 455) (Plain (Zeros [4;6;5;7]));
  (*1832*) AddTo (T 455) (Plain (Einsum [(n_v'aabb'ovov,[0;1;2;3]); (T 36,[2;4;5;3])] [0;4;1;5]));
  (*1833*) AddTo (T 456) (Times (Einsum [(T 455,[0;1;2;3])] [0;1;2;3]) (-1) 1);
  (*1834*) Del (T 455);
  (*1835*) Assign (T 37) (Plain (Zeros [4;6;6;5]));
  (*1836*) AddTo (T 37) (Plain (Einsum [(n_t1'bb,[0;1]); (n_v'aabb'ovov,[2;3;4;1])] [2;0;4;3]));
  (*1837*) Assign (T 38) (Plain (Zeros [4;6;6;5]));
  (*1838*) AddTo (T 38) (Plain (Einsum [(T 37,[0;1;2;3])] [0;2;1;3]));
  (*1839*) Assign (T 42) (Plain (Zeros [4;6;6;5]));
  (*1840*) AddTo (T 42) (Plain (Einsum [(T 37,[0;1;2;3])] [0;2;1;3]));
  (*1841*) Assign (T 305) (Plain (Zeros [4;4;5;5]));
  (*1842*) AddTo (T 305) (Plain (Einsum [(T 2,[0;1;2;3]); (T 37,[4;1;2;5])] [0;4;3;5]));
  (*1843*) SubFrom (T 343) (Plain (Einsum [(T 305,[0;1;2;3])] [0;1;2;3]));
  (*1844*) Del (T 305);
  (*1845*) Assign (T 511) (Plain (Zeros [4;6;6;5]));
  (*1846*) AddTo (T 511) (Plain (Einsum [(T 37,[0;1;2;3])] [0;2;1;3]));
  (*1847*) AddTo (T 38) (Plain (Einsum [(n_v'aabb'ovoo,[0;1;2;3])] [0;2;3;1]));
  (*1848*) AddTo (T 47) (Times (Einsum [(n_t2'abab,[0;1;2;3]); (T 38,[4;1;5;2])] [4;0;5;3]) (-1) 1);
  (*1849*) Assign (T 133) (Plain (Zeros [6;7]));
  (*1850*) AddTo (T 133) (Plain (Einsum [(n_t2'abab,[0;1;2;3]); (T 38,[0;1;4;2])] [4;3]));
  (*1851*) AddTo (T 159) (Times (Einsum [(T 133,[0;1])] [0;1]) (-1) 1);
  (*1852*) Del (T 133);
  (*1853*) Assign (T 243) (Plain (Zeros [6;6;6;7]));
  (*1854*) AddTo (T 243) (Plain (Einsum [(n_t2'abab,[0;1;2;3]); (T 38,[0;4;5;2])] [1;4;5;3]));
  (*1855*) Assign (T 247) (Plain (Zeros [6;6;6;7]));
  (*1856*) AddTo (T 247) (Plain (Einsum [(T 243,[0;1;2;3])] [2;1;0;3]));
  (*1857*) Assign (T 258) (Plain (Zeros [6;6;6;7]));
  (*1858*) AddTo (T 258) (Plain (Einsum [(T 243,[0;1;2;3])] [2;1;0;3]));
  (*1859*) Del (T 243);
  (*1860*) AddTo (T 251) (Times (Einsum [(T 25,[0;1;2;3]); (T 38,[0;4;5;3])] [1;4;5;2]) (-1) 1);
  (*1861*) Assign (T 474) (Plain (Zeros [4;4;6;6]));
  (*1862*) AddTo (T 474) (Plain (Einsum [(n_t1'aa,[0;1]); (T 38,[2;3;4;1])] [0;2;3;4]));
  (*1863*) Assign (T 475) (Plain (Zeros [4;4;6;6]));
  (*1864*) AddTo (T 475) (Plain (Einsum [(T 474,[0;1;2;3])] [1;0;2;3]));
  (*1865*) Del (T 474);
  (*1866*) AddTo (T 39) (Plain (Einsum [(n_f'aa'ov,[0;1])] [0;1]));
  (*1867*) AddTo (T 47) (Plain (Einsum [(T 39,[0;1]); (n_t2'abab,[2;3;1;4])] [0;2;3;4]));
  (*1868*) Assign (T 90) (Plain (Zeros [4;5]));
  (*1869*) AddTo (T 90) (Plain (Einsum [(T 39,[0;1]); (T 25,[0;2;3;1])] [2;3]));
  (*1870*) AddTo (T 121) (Times (Einsum [(T 90,[0;1])] [0;1]) (-1) 1);
  (*1871*) Del (T 90);
  (*1872*) Assign (T 108) (Plain (Zeros [4;4]));
  (*1873*) AddTo (T 108) (Plain (Einsum [(n_t1'aa,[0;1]); (T 39,[2;1])] [0;2]));
  (*1874*) AddTo (T 109) (Plain (Einsum [(T 108,[0;1])] [1;0]));
  (*1875*) Del (T 108);
  (*1876*) Assign (T 135) (Plain (Zeros [6;7]));
  (*1877*) AddTo (T 135) (Plain (Einsum [(T 39,[0;1]); (n_t2'abab,[0;2;1;3])] [2;3]));
  (*1878*) AddTo (T 159) (Plain (Einsum [(T 135,[0;1])] [0;1]));
  (*1879*) Del (T 135);
  (*1880*) Assign (T 201) (Plain (Zeros [3;4;4]));
  (*1881*) AddTo (T 201) (Plain (Einsum [(T 39,[0;1]); (n_u11'aa,[2;3;1])] [2;0;3]));
  (*1882*) Assign (T 217) (Plain (Zeros [3]));
  (*1883*) AddTo (T 217) (Plain (Einsum [(T 39,[0;1]); (n_u11'aa,[2;0;1])] [2]));
  (*1884*) Assign (T 220) (Plain (Zeros [3]));
  (*1885*) AddTo (T 220) (Plain (Einsum [(T 217,[0])] [0]));
  (*1886*) Del (T 217);
  (*1887*) Assign n_lu11new_aa (Plain (Zeros [3;5;4]));
  (*1888*) AddTo n_lu11new_aa (Times (Einsum [(n_ls1,[0]); (T 39,[1;2])] [0;2;1]) (2) 1);
  (*1889*) Assign (T 40) (Plain (Zeros [4;4;6;6]));
  (*1890*) AddTo (T 40) (Plain (Einsum [(n_t1'bb,[0;1]); (n_v'aabb'ooov,[2;3;4;1])] [2;3;0;4]));
  (*1891*) Assign (T 44) (Plain (Zeros [4;4;6;6]));
  (*1892*) AddTo (T 44) (Plain (Einsum [(T 40,[0;1;2;3])] [0;1;3;2]));
  (*1893*) AddTo (T 475) (Plain (Einsum [(T 40,[0;1;2;3])] [0;1;3;2]));
  (*1894*) Del (T 40);
  (*1895*) Assign (T 41) (Plain (Zeros [4;4;6;6]));
  (*1896*) AddTo (T 41) (Plain (Einsum [(n_t2'abab,[0;1;2;3]); (n_v'aabb'ovov,[4;2;5;3])] [0;4;1;5]));
  (*1897*) AddTo (T 44) (Plain (Einsum [(T 41,[0;1;2;3])] [1;0;3;2]));
  (*1898*) AddTo (T 475) (Plain (Einsum [(T 41,[0;1;2;3])] [1;0;3;2]));
  (*1899*) Del (T 41);
  (*1900*) AddTo (T 42) (Plain (Einsum [(n_v'aabb'ovoo,[0;1;2;3])] [0;2;3;1]));
  (*1901*) Assign (T 43) (Plain (Zeros [4;4;6;6]));
  (*1902*) AddTo (T 43) (Plain (Einsum [(n_t1'aa,[0;1]); (T 42,[2;3;4;1])] [0;2;3;4]));
  (*1903*) Del (T 42);
  (*1904*) AddTo (T 44) (Plain (Einsum [(T 43,[0;1;2;3])] [1;0;2;3]));
  (*1905*) Del (T 43);
  (*1906*) AddTo (T 44) (Plain (Einsum [(n_v'aabb'oooo,[0;1;2;3])] [0;1;2;3]));
  (*1907*) AddTo (T 47) (Times (Einsum [(n_t1'bb,[0;1]); (T 44,[2;3;0;4])] [2;3;4;1]) (-1) 1);
  (*1908*) AddTo (T 251) (Times (Einsum [(n_t1'aa,[0;1]); (T 44,[0;2;3;4])] [2;3;4;1]) (-1) 1);
  (*1909*) Del (T 44);
  (*1910*) Assign (T 45) (Plain (Zeros [4;6;5;7]));
  (*1911*) AddTo (T 45) (Plain (Einsum [(n_t1'bb,[0;1]); (n_v'aabb'ovvv,[2;3;4;1])] [2;0;3;4]));
  (*1912*) Assign (T 46) (Plain (Zeros [4;6;5;7]));
  (*1913*) AddTo (T 46) (Plain (Einsum [(T 45,[0;1;2;3])] [0;1;2;3]));
  (*1914*) Assign (T 312) (Plain (Zeros [4;6;5;7]));
  (*1915*) AddTo (T 312) (Plain (Einsum [(T 45,[0;1;2;3])] [0;1;2;3]));
  (*1916*) AddTo (T 456) (Plain (Einsum [(T 45,[0;1;2;3])] [0;1;2;3]));
  (*1917*) Del (T 45);
  (*1918*) AddTo (T 46) (Plain (Einsum [(n_v'aabb'ovvo,[0;1;2;3])] [0;3;1;2]));
  (*1919*) AddTo (T 47) (Plain (Einsum [(n_t1'aa,[0;1]); (T 46,[2;3;1;4])] [2;0;3;4]));
  (*1920*) AddTo (T 47) (Plain (Einsum [(n_v'aabb'oovo,[0;1;2;3])] [0;1;3;2]));
  (*1921*) AddTo (T 47) (Plain (Einsum [(n_t1'bb,[0;1]); (n_v'aabb'oovv,[2;3;4;1])] [2;3;0;4]));
  (*1922*) AddTo (T 47) (Plain (Einsum [(n_t2'abab,[0;1;2;3]); (n_v'aabb'ovvv,[4;2;5;3])] [4;0;1;5]));
  (*1923*) AddTo n_l1new_aa (Times (Einsum [(n_l2'abab,[0;1;2;3]); (T 47,[4;2;3;1])] [0;4]) (-1) 1);
  (*1924*) Del (T 47);
  (*1925*) Assign (T 48) (Plain (Zeros [4;4;5;5]));
  (*1926*) AddTo (T 48) (Plain (Einsum [(n_l2'abab,[0;1;2;3]); (n_t2'abab,[4;3;5;1])] [2;4;0;5]));
  (*1927*) Assign (T 51) (Plain (Zeros [4;4;5;5]));
  (*1928*) AddTo (T 51) (Plain (Einsum [(T 48,[0;1;2;3])] [0;1;2;3]));
  (*1929*) Assign (T 350) (Plain (Zeros [4;4;5;5]));
  (*1930*) AddTo (T 350) (Plain (Einsum [(T 14,[0;1;2;3]); (T 48,[4;0;5;2])] [4;1;5;3]));
  (*1931*) Del (T 48);
  (*1932*) Assign (T 363) (Plain (Zeros [4;4;5;5]));
  (*1933*) AddTo (T 363) (Times (Einsum [(T 350,[0;1;2;3])] [0;1;2;3]) (-1) 1);
  (*1934*) Del (T 350);
  (*1935*) Assign (T 49) (Plain (Zeros [4;4;5;5]));
  (*1936*) AddTo (T 49) (Plain (Einsum [(n_l2'aaaa,[0;1;2;3])] [3;2;0;1]));
  (*1937*) AddTo (T 49) (Times (Einsum [(n_l2'aaaa,[0;1;2;3])] [3;2;1;0]) (-1) 1);
  (*1938*) AddTo (T 56) (Times (Einsum [(n_t2'abab,[0;1;2;3]); (T 49,[0;4;5;2])] [4;1;5;3]) (-1) 1);
  (*1939*) Assign (T 50) (Plain (Zeros [4;4;5;5]));
  (*1940*) AddTo (T 50) (Plain (Einsum [(n_t2'aaaa,[0;1;2;3])] [1;0;2;3]));
  (*1941*) AddTo (T 50) (Times (Einsum [(n_t2'aaaa,[0;1;2;3])] [1;0;3;2]) (-1) 1);
  (*1942*) AddTo (T 51) (Plain (Einsum [(T 49,[0;1;2;3]); (T 50,[0;4;2;5])] [1;4;3;5]));
  (*1943*) Assign (T 166) (Plain (Zeros [4;5]));
  (*1944*) AddTo (T 166) (Plain (Einsum [(n_l1'aa,[0;1]); (T 50,[1;2;3;0])] [2;3]));
  (*1945*) Assign (T 170) (Plain (Zeros [4;5]));
  (*1946*) AddTo (T 170) (Times (Einsum [(T 166,[0;1])] [0;1]) (-1) 1);
  (*1947*) Del (T 166);
  (*1948*) Assign (T 175) (Plain (Zeros [5;5]));
  (*1949*) AddTo (T 175) (Plain (Einsum [(n_l2'aaaa,[0;1;2;3]); (T 50,[2;3;4;1])] [0;4]));
  (*1950*) Assign (T 176) (Plain (Zeros [5;5]));
  (*1951*) AddTo (T 176) (Times (Einsum [(T 175,[0;1])] [0;1]) (-1) 1);
  (*1952*) Assign (T 359) (Plain (Zeros [5;5]));
  (*1953*) AddTo (T 359) (Times (Einsum [(T 175,[0;1])] [0;1]) (-1) 1);
  (*1954*) Assign (T 495) (Plain (Zeros [5;5]));
  (*1955*) AddTo (T 495) (Times (Einsum [(T 175,[0;1])] [0;1]) (-1) 1);
  (*1956*) Del (T 175);
  (*1957*) Assign (T 260) (Plain (Zeros [4;6;5;7]));
  (*1958*) AddTo (T 260) (Times (Einsum [(n_l2'abab,[0;1;2;3]); (T 50,[2;4;5;0])] [4;3;5;1]) (-1) 1);
  (*1959*) AddTo (T 268) (Times (Einsum [(T 2,[0;1;2;3]); (T 50,[0;4;5;3])] [4;1;2;5]) (-1) 1);
  (*1960*) Assign (T 345) (Plain (Zeros [4;4;5;5]));
  (*1961*) AddTo (T 345) (Plain (Einsum [(T 14,[0;1;2;3]); (T 50,[0;4;5;2])] [1;4;3;5]));
  (*1962*) Del (T 14);
  (*1963*) Assign (T 346) (Plain (Zeros [4;4;5;5]));
  (*1964*) AddTo (T 346) (Plain (Einsum [(T 345,[0;1;2;3])] [1;0;3;2]));
  (*1965*) Del (T 345);
  (*1966*) Assign (T 351) (Plain (Zeros [4;4]));
  (*1967*) AddTo (T 351) (Plain (Einsum [(n_v'aaaa'ovov,[0;1;2;3]); (T 50,[0;4;1;3])] [4;2]));
  (*1968*) AddTo (T 353) (Times (Einsum [(T 351,[0;1])] [0;1]) (-1) 1);
  (*1969*) Del (T 351);
  (*1970*) Assign (T 356) (Plain (Zeros [5;5]));
  (*1971*) AddTo (T 356) (Plain (Einsum [(n_v'aaaa'ovov,[0;1;2;3]); (T 50,[0;2;1;4])] [4;3]));
  (*1972*) Assign (T 357) (Plain (Zeros [5;5]));
  (*1973*) AddTo (T 357) (Times (Einsum [(T 356,[0;1])] [0;1]) (-1) 1);
  (*1974*) Del (T 356);
  (*1975*) Assign (T 487) (Plain (Zeros [5;5]));
  (*1976*) AddTo (T 487) (Plain (Einsum [(n_v'aaaa'ovov,[0;1;2;3]); (T 50,[0;2;4;1])] [4;3]));
  (*1977*) Assign (T 488) (Plain (Zeros [5;5]));
  (*1978*) AddTo (T 488) (Times (Einsum [(T 487,[0;1])] [0;1]) (-1) 1);
  (*1979*) Del (T 487);
  (*1980*) Assign (T 52) (Plain (Zeros [4;5;5;5]));
  (*1981*) AddTo (T 52) (Times (Einsum [(n_v'aaaa'ovvv,[0;1;2;3])] [0;2;3;1]) (-1) 1);
  (*1982*) AddTo (T 52) (Plain (Einsum [(n_v'aaaa'ovvv,[0;1;2;3])] [0;2;1;3]));
  (*1983*) Assign (T 459) (Plain (Zeros [4;4;5;5]));
  (*1984*) AddTo (T 459) (Plain (Einsum [(n_t1'aa,[0;1]); (T 52,[2;3;1;4])] [0;2;3;4]));
  (*1985*) Assign (T 460) (Plain (Zeros [4;4;5;5]));
  (*1986*) AddTo (T 460) (Times (Einsum [(T 459,[0;1;2;3])] [1;0;2;3]) (-1) 1);
  (*1987*) Del (T 459);
  (*1988*) AddTo n_l1new_aa (Plain (Einsum [(T 51,[0;1;2;3]); (T 52,[1;2;3;4])] [4;0]));
  (*1989*) Del (T 51);
  (*1990*) Assign (T 55) (Plain (Zeros [6;6;7;7]));
  (*1991*) AddTo (T 55) (Plain (Einsum [(n_t2'bbbb,[0;1;2;3])] [1;0;2;3]));
  (*1992*) AddTo (T 55) (Times (Einsum [(n_t2'bbbb,[0;1;2;3])] [1;0;3;2]) (-1) 1);
  (*1993*) AddTo (T 56) (Times (Einsum [(n_l2'abab,[0;1;2;3]); (T 55,[3;4;5;1])] [2;4;0;5]) (-1) 1);
  (*1994*) AddTo n_l1new_aa (Times (Einsum [(n_v'bbaa'ovvv,[0;1;2;3]); (T 56,[4;0;2;1])] [3;4]) (-1) 1);
  (*1995*) Del (T 56);
  (*1996*) Assign (T 184) (Plain (Zeros [6;7]));
  (*1997*) AddTo (T 184) (Plain (Einsum [(n_l1'bb,[0;1]); (T 55,[1;2;3;0])] [2;3]));
  (*1998*) AddTo (T 191) (Times (Einsum [(T 184,[0;1])] [0;1]) (-1) 1);
  (*1999*) Del (T 184);
  (*2000*) Assign (T 57) (Plain (Zeros [4;4;6;7]));
  (*2001*) AddTo (T 57) (Plain (Einsum [(n_t1'aa,[0;1]); (n_l2'abab,[1;2;3;4])] [3;0;4;2]));
  (*2002*) Assign (T 63) (Plain (Zeros [4;4;4;5]));
  (*2003*) AddTo (T 63) (Plain (Einsum [(n_t2'abab,[0;1;2;3]); (T 57,[4;5;1;3])] [4;5;0;2]));
  (*2004*) AddTo (T 70) (Times (Einsum [(T 55,[0;1;2;3]); (T 57,[4;5;0;3])] [4;5;1;2]) (-1) 1);
  (*2005*) Assign (T 164) (Plain (Zeros [4;5]));
  (*2006*) AddTo (T 164) (Plain (Einsum [(n_t2'abab,[0;1;2;3]); (T 57,[0;4;1;3])] [4;2]));
  (*2007*) AddTo (T 170) (Plain (Einsum [(T 164,[0;1])] [0;1]));
  (*2008*) Del (T 164);
  (*2009*) AddTo (T 260) (Plain (Einsum [(n_t1'aa,[0;1]); (T 57,[0;2;3;4])] [2;3;1;4]));
  (*2010*) AddTo (T 268) (Plain (Einsum [(n_t2'abab,[0;1;2;3]); (T 57,[0;4;5;3])] [4;5;1;2]));
  (*2011*) Assign (T 375) (Plain (Zeros [6;6;7;7]));
  (*2012*) AddTo (T 375) (Plain (Einsum [(n_v'aabb'ooov,[0;1;2;3]); (T 57,[1;0;4;5])] [4;2;5;3]));
  (*2013*) Assign (T 416) (Plain (Zeros [6;6;7;7]));
  (*2014*) SubFrom (T 416) (Plain (Einsum [(T 375,[0;1;2;3])] [0;1;2;3]));
  (*2015*) Del (T 375);
  (*2016*) Assign (T 378) (Plain (Zeros [6;6;7;7]));
  (*2017*) AddTo (T 378) (Plain (Einsum [(T 27,[0;1;2;3]); (T 57,[0;1;4;5])] [4;2;5;3]));
  (*2018*) SubFrom (T 416) (Plain (Einsum [(T 378,[0;1;2;3])] [0;1;2;3]));
  (*2019*) Del (T 378);
  (*2020*) Assign (T 447) (Plain (Zeros [4;6;5;7]));
  (*2021*) AddTo (T 447) (Plain (Einsum [(n_v'aabb'ovvv,[0;1;2;3]); (T 57,[4;0;5;2])] [4;5;1;3]));
  (*2022*) SubFrom n_l2new_baba (Plain (Einsum [(T 447,[0;1;2;3])] [3;2;1;0]));
  (*2023*) SubFrom n_l2new_abab (Plain (Einsum [(T 447,[0;1;2;3])] [2;3;0;1]));
  (*2024*) Del (T 447);
  (*2025*) Assign (T 480) (Plain (Zeros [4;6;5;7]));
  (*2026*) AddTo (T 480) (Plain (Einsum [(T 38,[0;1;2;3]); (T 57,[4;0;2;5])] [4;1;3;5]));
  (*2027*) Del (T 38);
  (*2028*) AddTo n_l2new_baba (Plain (Einsum [(T 480,[0;1;2;3])] [3;2;1;0]));
  (*2029*) AddTo n_l2new_abab (Plain (Einsum [(T 480,[0;1;2;3])] [2;3;0;1]));
  (*2030*) Del (T 480);
  (*2031*) Assign (T 501) (Plain (Zeros [4;6;5;7]));
  (*2032*) AddTo (T 501) (Plain (Einsum [(T 39,[0;1]); (T 57,[2;0;3;4])] [2;3;1;4]));
  (*2033*) Del (T 39);
  (*2034*) AddTo n_l2new_baba (Times (Einsum [(T 501,[0;1;2;3])] [3;2;1;0]) (-1) 1);
  (*2035*) AddTo n_l2new_abab (Times (Einsum [(T 501,[0;1;2;3])] [2;3;0;1]) (-1) 1);
  (*2036*) Del (T 501);
  (*2037*) AddTo n_l1new_aa (Times (Einsum [(T 46,[0;1;2;3]); (T 57,[4;0;1;3])] [2;4]) (-1) 1);
  (*2038*) Del (T 46);
  (*2039*) SubFrom n_l1new_bb (Plain (Einsum [(n_v'aabb'oovv,[0;1;2;3]); (T 57,[1;0;4;2])] [3;4]));
  (*2040*) AddTo n_l2new_baba (Times (Einsum [(T 348,[0;1;2;3]); (T 57,[0;2;4;5])] [5;3;4;1]) (-1) 1);
  (*2041*) AddTo n_l2new_abab (Plain (Einsum [(T 515,[0;1;2;3]); (T 57,[0;2;4;5])] [3;5;1;4]));
  (*2042*) Del (T 515);
  (*2043*) Assign (T 58) (Plain (Zeros [4;4;4;5]));
  (*2044*) AddTo (T 58) (Plain (Einsum [(n_t1'aa,[0;1]); (n_l2'aaaa,[1;2;3;4])] [4;3;0;2]));
  (*2045*) Assign (T 59) (Plain (Zeros [4;4;4;5]));
  (*2046*) AddTo (T 59) (Plain (Einsum [(T 58,[0;1;2;3])] [0;1;2;3]));
  (*2047*) AddTo (T 59) (Times (Einsum [(T 58,[0;1;2;3])] [1;0;2;3]) (-1) 1);
  (*2048*) AddTo (T 63) (Plain (Einsum [(T 50,[0;1;2;3]); (T 59,[0;4;5;3])] [4;5;1;2]));
  (*2049*) Assign (T 65) (Plain (Zeros [4;4;5;5]));
  (*2050*) AddTo (T 65) (Times (Einsum [(n_t1'aa,[0;1]); (T 59,[0;2;3;4])] [2;3;4;1]) (-1) 1);
  (*2051*) AddTo n_l1new_aa (Plain (Einsum [(T 52,[0;1;2;3]); (T 65,[4;0;1;3])] [2;4]));
  (*2052*) Del (T 65);
  (*2053*) AddTo (T 70) (Times (Einsum [(n_t2'abab,[0;1;2;3]); (T 59,[0;4;5;2])] [4;5;1;3]) (-1) 1);
  (*2054*) Assign (T 349) (Plain (Zeros [4;4;5;5]));
  (*2055*) AddTo (T 349) (Plain (Einsum [(T 348,[0;1;2;3]); (T 59,[0;4;1;5])] [4;2;5;3]));
  (*2056*) Del (T 59);
  (*2057*) Del (T 348);
  (*2058*) AddTo (T 363) (Plain (Einsum [(T 349,[0;1;2;3])] [0;1;2;3]));
  (*2059*) Del (T 349);
  (*2060*) Assign (T 72) (Plain (Zeros [4;4;4;4]));
  (*2061*) AddTo (T 72) (Plain (Einsum [(n_t1'aa,[0;1]); (T 58,[2;3;4;1])] [3;2;4;0]));
  (*2062*) Assign (T 73) (Plain (Zeros [4;4;4;5]));
  (*2063*) AddTo (T 73) (Plain (Einsum [(n_t1'aa,[0;1]); (T 72,[0;2;3;4])] [2;4;3;1]));
  (*2064*) Assign (T 74) (Plain (Zeros [4;4;4;5]));
  (*2065*) AddTo (T 74) (Plain (Einsum [(T 73,[0;1;2;3])] [0;1;2;3]));
  (*2066*) Del (T 73);
  (*2067*) Assign (T 123) (Plain (Zeros [4;4;4;4]));
  (*2068*) AddTo (T 123) (Plain (Einsum [(T 72,[0;1;2;3])] [0;1;2;3]));
  (*2069*) AddTo (T 123) (Times (Einsum [(T 72,[0;1;2;3])] [0;1;3;2]) (-1) 1);
  (*2070*) AddTo n_l1new_aa (Plain (Einsum [(n_v'aaaa'ooov,[0;1;2;3]); (T 123,[4;1;2;0])] [3;4]));
  (*2071*) Del (T 123);
  (*2072*) Assign (T 368) (Plain (Zeros [4;4;5;5]));
  (*2073*) AddTo (T 368) (Plain (Einsum [(n_v'aaaa'ovov,[0;1;2;3]); (T 72,[4;5;0;2])] [4;5;1;3]));
  (*2074*) Del (T 72);
  (*2075*) AddTo (T 371) (Plain (Einsum [(T 368,[0;1;2;3])] [0;1;2;3]));
  (*2076*) Del (T 368);
  (*2077*) Assign (T 76) (Plain (Zeros [4;4;4;5]));
  (*2078*) AddTo (T 76) (Times (Einsum [(T 58,[0;1;2;3])] [0;1;2;3]) (-1) 1);
  (*2079*) AddTo (T 76) (Plain (Einsum [(T 58,[0;1;2;3])] [1;0;2;3]));
  (*2080*) Assign (T 482) (Plain (Zeros [4;6;5;7]));
  (*2081*) AddTo (T 482) (Plain (Einsum [(T 27,[0;1;2;3]); (T 76,[0;4;1;5])] [4;2;5;3]));
  (*2082*) Del (T 27);
  (*2083*) AddTo n_l2new_baba (Times (Einsum [(T 482,[0;1;2;3])] [3;2;1;0]) (-1) 1);
  (*2084*) AddTo n_l2new_abab (Times (Einsum [(T 482,[0;1;2;3])] [2;3;0;1]) (-1) 1);
  (*2085*) Del (T 482);
  (*2086*) AddTo n_l1new_aa (Plain (Einsum [(T 30,[0;1;2;3]); (T 76,[1;4;0;2])] [3;4]));
  (*2087*) Del (T 76);
  (*2088*) Del (T 30);
  (*2089*) Assign (T 165) (Plain (Zeros [4;5]));
  (*2090*) AddTo (T 165) (Plain (Einsum [(T 50,[0;1;2;3]); (T 58,[0;1;4;2])] [4;3]));
  (*2091*) Del (T 50);
  (*2092*) AddTo (T 170) (Times (Einsum [(T 165,[0;1])] [0;1]) (-1) 1);
  (*2093*) Del (T 165);
  (*2094*) Assign (T 303) (Plain (Zeros [4;4;5;5]));
  (*2095*) AddTo (T 303) (Plain (Einsum [(n_v'aaaa'ovvv,[0;1;2;3]); (T 58,[4;5;0;2])] [5;4;1;3]));
  (*2096*) SubFrom (T 343) (Plain (Einsum [(T 303,[0;1;2;3])] [0;1;2;3]));
  (*2097*) Del (T 303);
  (*2098*) Assign (T 314) (Plain (Zeros [4;4;4;5]));
  (*2099*) AddTo (T 314) (Plain (Einsum [(T 58,[0;1;2;3])] [0;1;2;3]));
  (*2100*) SubFrom (T 314) (Plain (Einsum [(T 58,[0;1;2;3])] [1;0;2;3]));
  (*2101*) Assign (T 481) (Plain (Zeros [4;6;5;7]));
  (*2102*) AddTo (T 481) (Plain (Einsum [(n_v'aabb'ooov,[0;1;2;3]); (T 314,[4;1;0;5])] [4;2;5;3]));
  (*2103*) SubFrom n_l2new_baba (Plain (Einsum [(T 481,[0;1;2;3])] [3;2;1;0]));
  (*2104*) SubFrom n_l2new_abab (Plain (Einsum [(T 481,[0;1;2;3])] [2;3;0;1]));
  (*2105*) Del (T 481);
  (*2106*) Assign (T 362) (Plain (Zeros [4;4;5;5]));
  (*2107*) AddTo (T 362) (Plain (Einsum [(T 16,[0;1]); (T 58,[2;3;0;4])] [2;3;4;1]));
  (*2108*) Del (T 16);
  (*2109*) AddTo (T 363) (Plain (Einsum [(T 362,[0;1;2;3])] [0;1;2;3]));
  (*2110*) Del (T 362);
  (*2111*) Assign (T 60) (Plain (Zeros [4;4]));
  (*2112*) AddTo (T 60) (Plain (Einsum [(n_l2'abab,[0;1;2;3]); (n_t2'abab,[4;3;0;1])] [2;4]));
  (*2113*) AddTo (T 62) (Plain (Einsum [(T 60,[0;1])] [0;1]));
  (*2114*) AddTo (T 63) (Plain (Einsum [(n_t1'aa,[0;1]); (T 62,[2;3])] [2;3;0;1]));
  (*2115*) AddTo (T 70) (Times (Einsum [(n_t1'bb,[0;1]); (T 62,[2;3])] [2;3;0;1]) (-1) 1);
  (*2116*) Assign (T 361) (Plain (Zeros [4;4;5;5]));
  (*2117*) AddTo (T 361) (Plain (Einsum [(T 62,[0;1]); (n_v'aaaa'ovov,[1;2;3;4])] [0;3;2;4]));
  (*2118*) AddTo (T 363) (Times (Einsum [(T 361,[0;1;2;3])] [0;1;3;2]) (-1) 1);
  (*2119*) Del (T 361);
  (*2120*) AddTo n_l1new_aa (Times (Einsum [(n_f'aa'ov,[0;1]); (T 62,[2;0])] [1;2]) (-1) 1);
  (*2121*) Del (T 62);
  (*2122*) AddTo (T 168) (Plain (Einsum [(T 60,[0;1])] [0;1]));
  (*2123*) AddTo (T 210) (Plain (Einsum [(T 60,[0;1])] [0;1]));
  (*2124*) Del (T 60);
  (*2125*) Assign (T 64) (Plain (Zeros [4;4;5;5]));
  (*2126*) SubFrom (T 64) (Plain (Einsum [(n_v'aaaa'ovov,[0;1;2;3])] [2;0;1;3]));
  (*2127*) AddTo (T 64) (Plain (Einsum [(n_v'aaaa'ovov,[0;1;2;3])] [2;0;3;1]));
  (*2128*) Assign (T 333) (Plain (Zeros [3;4;5]));
  (*2129*) AddTo (T 333) (Plain (Einsum [(n_u11'aa,[0;1;2]); (T 64,[1;3;4;2])] [0;3;4]));
  (*2130*) Assign (T 334) (Plain (Zeros [3;4;5]));
  (*2131*) SubFrom (T 334) (Plain (Einsum [(T 333,[0;1;2])] [0;1;2]));
  (*2132*) Assign (T 503) (Plain (Zeros [3;4;5]));
  (*2133*) SubFrom (T 503) (Plain (Einsum [(T 333,[0;1;2])] [0;1;2]));
  (*2134*) Del (T 333);
  (*2135*) Assign (T 341) (Plain (Zeros [4;5]));
  (*2136*) AddTo (T 341) (Plain (Einsum [(n_t1'aa,[0;1]); (T 64,[0;2;3;1])] [2;3]));
  (*2137*) SubFrom (T 342) (Plain (Einsum [(T 341,[0;1])] [0;1]));
  (*2138*) AddTo (T 343) (Plain (Einsum [(n_l1'aa,[0;1]); (T 342,[2;3])] [1;2;0;3]));
  (*2139*) Del (T 342);
  (*2140*) SubFrom (T 513) (Plain (Einsum [(T 341,[0;1])] [0;1]));
  (*2141*) Del (T 341);
  (*2142*) AddTo n_l1new_aa (Times (Einsum [(T 63,[0;1;2;3]); (T 64,[2;1;3;4])] [4;0]) (-1) 1);
  (*2143*) Del (T 63);
  (*2144*) Del (T 64);
  (*2145*) Assign (T 66) (Plain (Zeros [4;5;5;5]));
  (*2146*) AddTo (T 66) (Plain (Einsum [(n_t1'aa,[0;1]); (n_v'aaaa'vvvv,[2;3;4;1])] [0;2;4;3]));
  (*2147*) Assign (T 67) (Plain (Zeros [4;5;5;5]));
  (*2148*) AddTo (T 67) (Times (Einsum [(T 66,[0;1;2;3])] [0;1;2;3]) (-1) 1);
  (*2149*) Del (T 66);
  (*2150*) AddTo (T 67) (Plain (Einsum [(n_v'aaaa'vovv,[0;1;2;3])] [1;0;2;3]));
  (*2151*) Assign (T 68) (Plain (Zeros [4;5;5;5]));
  (*2152*) AddTo (T 68) (Plain (Einsum [(T 67,[0;1;2;3])] [0;1;2;3]));
  (*2153*) AddTo (T 68) (Times (Einsum [(T 67,[0;1;2;3])] [0;2;1;3]) (-1) 1);
  (*2154*) Del (T 67);
  (*2155*) AddTo n_l1new_aa (Times (Einsum [(n_l2'aaaa,[0;1;2;3]); (T 68,[2;1;0;4])] [4;3]) (-1) 1);
  (*2156*) Del (T 68);
  (*2157*) AddTo (T 70) (Times (Einsum [(n_l1'aa,[0;1]); (n_t2'abab,[2;3;0;4])] [1;2;3;4]) (-1) 1);
  (*2158*) AddTo n_l1new_aa (Plain (Einsum [(n_v'aabb'ovov,[0;1;2;3]); (T 70,[4;0;2;3])] [1;4]));
  (*2159*) Del (T 70);
  (*2160*) Assign (T 71) (Plain (Zeros [4;4;4;5]));
  (*2161*) AddTo (T 71) (Plain (Einsum [(n_l1'aa,[0;1]); (n_t2'aaaa,[2;3;0;4])] [1;3;2;4]));
  (*2162*) AddTo (T 74) (Times (Einsum [(T 71,[0;1;2;3])] [0;1;2;3]) (9999999999999993) 10000000000000000);
  (*2163*) Del (T 71);
  (*2164*) Assign (T 75) (Plain (Zeros [4;4;4;5]));
  (*2165*) AddTo (T 75) (Times (Einsum [(T 74,[0;1;2;3])] [0;1;2;3]) (-1) 1);
  (*2166*) AddTo (T 75) (Plain (Einsum [(T 74,[0;1;2;3])] [0;2;1;3]));
  (*2167*) Del (T 74);
  (*2168*) AddTo n_l1new_aa (Times (Einsum [(n_v'aaaa'ovov,[0;1;2;3]); (T 75,[4;2;0;1])] [3;4]) (-1) 1);
  (*2169*) Del (T 75);
  (*2170*) Assign (T 77) (Plain (Zeros [6;5;5;7]));
  (*2171*) AddTo (T 77) (Plain (Einsum [(n_v'aabb'vvvo,[0;1;2;3])] [3;0;1;2]));
  (*2172*) AddTo (T 77) (Plain (Einsum [(n_t1'bb,[0;1]); (n_v'aabb'vvvv,[2;3;4;1])] [0;2;3;4]));
  (*2173*) AddTo n_l1new_aa (Plain (Einsum [(n_l2'abab,[0;1;2;3]); (T 77,[3;0;4;1])] [4;2]));
  (*2174*) Del (T 77);
  (*2175*) Assign (T 78) (Plain (Zeros [4;4;4;4]));
  (*2176*) AddTo (T 78) (Plain (Einsum [(n_l2'aaaa,[0;1;2;3]); (n_t2'aaaa,[4;5;1;0])] [2;3;5;4]));
  (*2177*) Assign (T 79) (Plain (Zeros [4;4;4;4]));
  (*2178*) AddTo (T 79) (Plain (Einsum [(T 78,[0;1;2;3])] [1;0;2;3]));
  (*2179*) AddTo (T 79) (Times (Einsum [(T 78,[0;1;2;3])] [1;0;3;2]) (-1) 1);
  (*2180*) Assign (T 367) (Plain (Zeros [4;4;5;5]));
  (*2181*) AddTo (T 367) (Plain (Einsum [(n_v'aaaa'ovov,[0;1;2;3]); (T 78,[4;5;0;2])] [5;4;3;1]));
  (*2182*) Del (T 78);
  (*2183*) AddTo (T 371) (Plain (Einsum [(T 367,[0;1;2;3])] [0;1;2;3]));
  (*2184*) Del (T 367);
  (*2185*) Assign n_l2new_aaaa (Plain (Zeros [5;5;4;4]));
  (*2186*) AddTo n_l2new_aaaa (Plain (Einsum [(T 371,[0;1;2;3])] [2;3;0;1]));
  (*2187*) AddTo n_l2new_aaaa (Times (Einsum [(T 371,[0;1;2;3])] [3;2;0;1]) (-1) 1);
  (*2188*) Del (T 371);
  (*2189*) AddTo (T 80) (Plain (Einsum [(n_v'aaaa'ooov,[0;1;2;3])] [0;2;1;3]));
  (*2190*) AddTo n_l1new_aa (Times (Einsum [(T 79,[0;1;2;3]); (T 80,[2;3;0;4])] [4;1]) (-1) 1);
  (*2191*) Del (T 79);
  (*2192*) Del (T 80);
  (*2193*) Assign (T 81) (Plain (Zeros [4;5]));
  (*2194*) AddTo (T 81) (Plain (Einsum [(n_s1,[0]); (n_g'aa'bvo,[0;1;2])] [2;1]));
  (*2195*) AddTo (T 121) (Plain (Einsum [(T 81,[0;1])] [0;1]));
  (*2196*) Del (T 81);
  (*2197*) Assign (T 82) (Plain (Zeros [4;5]));
  (*2198*) AddTo (T 82) (Plain (Einsum [(n_g'aa'bvv,[0;1;2]); (n_u11'aa,[0;3;2])] [3;1]));
  (*2199*) AddTo (T 121) (Plain (Einsum [(T 82,[0;1])] [0;1]));
  (*2200*) Del (T 82);
  (*2201*) Assign (T 83) (Plain (Zeros [4;5]));
  (*2202*) AddTo (T 83) (Plain (Einsum [(n_t1'bb,[0;1]); (n_v'bbaa'ovvo,[0;1;2;3])] [3;2]));
  (*2203*) AddTo (T 121) (Plain (Einsum [(T 83,[0;1])] [0;1]));
  (*2204*) Del (T 83);
  (*2205*) Assign (T 84) (Plain (Zeros [4;5]));
  (*2206*) AddTo (T 84) (Plain (Einsum [(n_t2'aaaa,[0;1;2;3]); (n_v'aaaa'ooov,[0;4;1;2])] [4;3]));
  (*2207*) AddTo (T 121) (Plain (Einsum [(T 84,[0;1])] [0;1]));
  (*2208*) Del (T 84);
  (*2209*) Assign (T 85) (Plain (Zeros [4;5]));
  (*2210*) AddTo (T 85) (Plain (Einsum [(n_t2'abab,[0;1;2;3]); (n_v'bbaa'ovvv,[1;3;4;2])] [0;4]));
  (*2211*) AddTo (T 121) (Plain (Einsum [(T 85,[0;1])] [0;1]));
  (*2212*) Del (T 85);
  (*2213*) AddTo (T 87) (Plain (Einsum [(n_v'aaaa'ooov,[0;1;2;3])] [0;2;1;3]));
  (*2214*) Assign (T 88) (Plain (Zeros [4;5]));
  (*2215*) AddTo (T 88) (Plain (Einsum [(n_t2'aaaa,[0;1;2;3]); (T 87,[0;1;4;3])] [4;2]));
  (*2216*) Del (T 87);
  (*2217*) AddTo (T 121) (Times (Einsum [(T 88,[0;1])] [0;1]) (-1) 1);
  (*2218*) Del (T 88);
  (*2219*) Assign (T 91) (Plain (Zeros [6;7]));
  (*2220*) AddTo (T 91) (Plain (Einsum [(n_s1,[0]); (n_g'bb'bov,[0;1;2])] [1;2]));
  (*2221*) Assign (T 95) (Plain (Zeros [6;7]));
  (*2222*) AddTo (T 95) (Plain (Einsum [(T 91,[0;1])] [0;1]));
  (*2223*) Assign (T 228) (Plain (Zeros [6;7]));
  (*2224*) AddTo (T 228) (Plain (Einsum [(T 91,[0;1])] [0;1]));
  (*2225*) Assign (T 298) (Plain (Zeros [6;7]));
  (*2226*) AddTo (T 298) (Plain (Einsum [(T 91,[0;1])] [0;1]));
  (*2227*) Assign (T 395) (Plain (Zeros [6;7]));
  (*2228*) AddTo (T 395) (Plain (Einsum [(T 91,[0;1])] [0;1]));
  (*2229*) Assign (T 514) (Plain (Zeros [6;7]));
  (*2230*) AddTo (T 514) (Plain (Einsum [(T 91,[0;1])] [0;1]));
  (*2231*) Del (T 91);
  (*2232*) Assign (T 92) (Plain (Zeros [6;7]));
  (*2233*) AddTo (T 92) (Plain (Einsum [(n_t1'aa,[0;1]); (n_v'aabb'ovov,[0;1;2;3])] [2;3]));
  (*2234*) AddTo (T 95) (Plain (Einsum [(T 92,[0;1])] [0;1]));
  (*2235*) Assign (T 234) (Plain (Zeros [6;7]));
  (*2236*) AddTo (T 234) (Plain (Einsum [(T 92,[0;1])] [0;1]));
  (*2237*) AddTo (T 298) (Plain (Einsum [(T 92,[0;1])] [0;1]));
  (*2238*) Assign (T 415) (Plain (Zeros [6;7]));
  (*2239*) AddTo (T 415) (Plain (Einsum [(T 92,[0;1])] [0;1]));
  (*2240*) AddTo (T 514) (Plain (Einsum [(T 92,[0;1])] [0;1]));
  (*2241*) Del (T 92);
  (*2242*) Assign (T 93) (Plain (Zeros [6;6;7;7]));
  (*2243*) AddTo (T 93) (Times (Einsum [(n_v'bbbb'ovov,[0;1;2;3])] [2;0;1;3]) (-1) 1);
  (*2244*) AddTo (T 93) (Plain (Einsum [(n_v'bbbb'ovov,[0;1;2;3])] [2;0;3;1]));
  (*2245*) Assign (T 94) (Plain (Zeros [6;7]));
  (*2246*) AddTo (T 94) (Plain (Einsum [(n_t1'bb,[0;1]); (T 93,[0;2;3;1])] [2;3]));
  (*2247*) AddTo (T 95) (Times (Einsum [(T 94,[0;1])] [0;1]) (-1) 1);
  (*2248*) AddTo (T 234) (Times (Einsum [(T 94,[0;1])] [0;1]) (-1) 1);
  (*2249*) Assign (T 235) (Plain (Zeros [6;6;6;7]));
  (*2250*) AddTo (T 235) (Plain (Einsum [(T 234,[0;1]); (n_t2'bbbb,[2;3;1;4])] [2;3;0;4]));
  (*2251*) Assign (T 240) (Plain (Zeros [6;6;6;7]));
  (*2252*) AddTo (T 240) (Plain (Einsum [(T 235,[0;1;2;3])] [1;0;2;3]));
  (*2253*) Del (T 235);
  (*2254*) Assign (T 429) (Plain (Zeros [6;6]));
  (*2255*) AddTo (T 429) (Plain (Einsum [(n_t1'bb,[0;1]); (T 234,[2;1])] [0;2]));
  (*2256*) Assign (T 430) (Plain (Zeros [6;6]));
  (*2257*) AddTo (T 430) (Plain (Einsum [(T 429,[0;1])] [0;1]));
  (*2258*) Del (T 429);
  (*2259*) AddTo (T 298) (Times (Einsum [(T 94,[0;1])] [0;1]) (-1) 1);
  (*2260*) Del (T 94);
  (*2261*) Assign (T 284) (Plain (Zeros [3;6;7]));
  (*2262*) AddTo (T 284) (Plain (Einsum [(n_u11'bb,[0;1;2]); (T 93,[1;3;4;2])] [0;3;4]));
  (*2263*) Assign (T 285) (Plain (Zeros [3;6;7]));
  (*2264*) AddTo (T 285) (Times (Einsum [(T 284,[0;1;2])] [0;1;2]) (-1) 1);
  (*2265*) Assign (T 296) (Plain (Zeros [3;6;7]));
  (*2266*) AddTo (T 296) (Times (Einsum [(T 284,[0;1;2])] [0;1;2]) (-1) 1);
  (*2267*) Del (T 284);
  (*2268*) Assign (T 428) (Plain (Zeros [6;6]));
  (*2269*) AddTo (T 428) (Plain (Einsum [(n_t2'bbbb,[0;1;2;3]); (T 93,[0;4;3;2])] [1;4]));
  (*2270*) AddTo (T 430) (Times (Einsum [(T 428,[0;1])] [0;1]) (-1) 1);
  (*2271*) Del (T 428);
  (*2272*) Assign (T 450) (Plain (Zeros [4;6;5;7]));
  (*2273*) AddTo (T 450) (Plain (Einsum [(n_t2'abab,[0;1;2;3]); (T 93,[1;4;5;3])] [0;4;2;5]));
  (*2274*) AddTo (T 451) (Times (Einsum [(T 450,[0;1;2;3])] [0;1;2;3]) (-1) 1);
  (*2275*) Del (T 450);
  (*2276*) Assign (T 490) (Plain (Zeros [7;7]));
  (*2277*) AddTo (T 490) (Plain (Einsum [(n_t2'bbbb,[0;1;2;3]); (T 93,[0;1;2;4])] [3;4]));
  (*2278*) Assign (T 491) (Plain (Zeros [7;7]));
  (*2279*) AddTo (T 491) (Times (Einsum [(T 490,[0;1])] [0;1]) (-1) 1);
  (*2280*) Del (T 490);
  (*2281*) AddTo (T 95) (Plain (Einsum [(n_f'bb'ov,[0;1])] [0;1]));
  (*2282*) Assign (T 96) (Plain (Zeros [4;5]));
  (*2283*) AddTo (T 96) (Plain (Einsum [(T 95,[0;1]); (n_t2'abab,[2;0;3;1])] [2;3]));
  (*2284*) AddTo (T 121) (Plain (Einsum [(T 96,[0;1])] [0;1]));
  (*2285*) Del (T 96);
  (*2286*) Assign (T 134) (Plain (Zeros [6;7]));
  (*2287*) AddTo (T 134) (Plain (Einsum [(T 95,[0;1]); (T 36,[0;2;3;1])] [2;3]));
  (*2288*) AddTo (T 159) (Times (Einsum [(T 134,[0;1])] [0;1]) (-1) 1);
  (*2289*) Del (T 134);
  (*2290*) Assign (T 149) (Plain (Zeros [6;6]));
  (*2291*) AddTo (T 149) (Plain (Einsum [(n_t1'bb,[0;1]); (T 95,[2;1])] [0;2]));
  (*2292*) Assign (T 150) (Plain (Zeros [6;6]));
  (*2293*) AddTo (T 150) (Plain (Einsum [(T 149,[0;1])] [1;0]));
  (*2294*) Del (T 149);
  (*2295*) Assign (T 218) (Plain (Zeros [3]));
  (*2296*) AddTo (T 218) (Plain (Einsum [(T 95,[0;1]); (n_u11'bb,[2;0;1])] [2]));
  (*2297*) AddTo (T 220) (Plain (Einsum [(T 218,[0])] [0]));
  (*2298*) Del (T 218);
  (*2299*) AddTo (T 251) (Plain (Einsum [(T 95,[0;1]); (n_t2'abab,[2;3;4;1])] [2;0;3;4]));
  (*2300*) Assign (T 286) (Plain (Zeros [3;6;6]));
  (*2301*) AddTo (T 286) (Plain (Einsum [(T 95,[0;1]); (n_u11'bb,[2;3;1])] [2;0;3]));
  (*2302*) Assign (T 502) (Plain (Zeros [4;6;5;7]));
  (*2303*) AddTo (T 502) (Plain (Einsum [(T 95,[0;1]); (T 2,[2;3;0;4])] [2;3;4;1]));
  (*2304*) AddTo n_l2new_baba (Times (Einsum [(T 502,[0;1;2;3])] [3;2;1;0]) (-1) 1);
  (*2305*) AddTo n_l2new_abab (Times (Einsum [(T 502,[0;1;2;3])] [2;3;0;1]) (-1) 1);
  (*2306*) Del (T 502);
  (*2307*) Assign n_lu11new_bb (Plain (Zeros [3;7;6]));
  (*2308*) AddTo n_lu11new_bb (Times (Einsum [(n_ls1,[0]); (T 95,[1;2])] [0;2;1]) (2) 1);
  (*2309*) Del (T 95);
  (*2310*) Assign (T 98) (Plain (Zeros [3;4;4]));
  (*2311*) AddTo (T 98) (Plain (Einsum [(n_t1'aa,[0;1]); (n_g'aa'bov,[2;3;1])] [2;3;0]));
  (*2312*) Assign (T 99) (Plain (Zeros [3;4;4]));
  (*2313*) AddTo (T 99) (Plain (Einsum [(T 98,[0;1;2])] [0;1;2]));
  (*2314*) Assign (T 522) (Plain (Zeros [3;4;4]));
  (*2315*) AddTo (T 522) (Plain (Einsum [(T 98,[0;1;2])] [0;1;2]));
  (*2316*) Del (T 98);
  (*2317*) AddTo (T 99) (Plain (Einsum [(n_g'aa'boo,[0;1;2])] [0;1;2]));
  (*2318*) Assign (T 100) (Plain (Zeros [4;5]));
  (*2319*) AddTo (T 100) (Plain (Einsum [(n_u11'aa,[0;1;2]); (T 99,[0;1;3])] [3;2]));
  (*2320*) AddTo (T 121) (Times (Einsum [(T 100,[0;1])] [0;1]) (-1) 1);
  (*2321*) Del (T 100);
  (*2322*) Assign (T 101) (Plain (Zeros [4;4]));
  (*2323*) AddTo (T 101) (Plain (Einsum [(n_s1,[0]); (n_g'aa'boo,[0;1;2])] [1;2]));
  (*2324*) AddTo (T 109) (Plain (Einsum [(T 101,[0;1])] [0;1]));
  (*2325*) Assign (T 325) (Plain (Zeros [4;4]));
  (*2326*) AddTo (T 325) (Plain (Einsum [(T 101,[0;1])] [0;1]));
  (*2327*) Del (T 101);
  (*2328*) Assign (T 102) (Plain (Zeros [4;4]));
  (*2329*) AddTo (T 102) (Plain (Einsum [(n_g'aa'bov,[0;1;2]); (n_u11'aa,[0;3;2])] [1;3]));
  (*2330*) AddTo (T 109) (Plain (Einsum [(T 102,[0;1])] [0;1]));
  (*2331*) AddTo (T 325) (Plain (Einsum [(T 102,[0;1])] [0;1]));
  (*2332*) Del (T 102);
  (*2333*) Assign (T 103) (Plain (Zeros [4;4]));
  (*2334*) AddTo (T 103) (Plain (Einsum [(n_t1'bb,[0;1]); (n_v'aabb'ooov,[2;3;0;1])] [2;3]));
  (*2335*) AddTo (T 109) (Plain (Einsum [(T 103,[0;1])] [0;1]));
  (*2336*) Assign (T 329) (Plain (Zeros [4;4]));
  (*2337*) AddTo (T 329) (Plain (Einsum [(T 103,[0;1])] [0;1]));
  (*2338*) Del (T 103);
  (*2339*) Assign (T 104) (Plain (Zeros [4;4]));
  (*2340*) AddTo (T 104) (Plain (Einsum [(n_t2'abab,[0;1;2;3]); (n_v'aabb'ovov,[4;2;1;3])] [0;4]));
  (*2341*) AddTo (T 109) (Plain (Einsum [(T 104,[0;1])] [1;0]));
  (*2342*) AddTo (T 353) (Plain (Einsum [(T 104,[0;1])] [0;1]));
  (*2343*) Del (T 104);
  (*2344*) Assign (T 354) (Plain (Zeros [4;4;5;5]));
  (*2345*) AddTo (T 354) (Plain (Einsum [(T 353,[0;1]); (n_l2'aaaa,[2;3;0;4])] [4;1;2;3]));
  (*2346*) Del (T 353);
  (*2347*) AddTo (T 363) (Plain (Einsum [(T 354,[0;1;2;3])] [0;1;3;2]));
  (*2348*) Del (T 354);
  (*2349*) Assign (T 106) (Plain (Zeros [4;4;4;5]));
  (*2350*) AddTo (T 106) (Plain (Einsum [(n_v'aaaa'ooov,[0;1;2;3])] [0;2;1;3]));
  (*2351*) AddTo (T 106) (Times (Einsum [(n_v'aaaa'ooov,[0;1;2;3])] [2;0;1;3]) (-1) 1);
  (*2352*) Assign (T 107) (Plain (Zeros [4;4]));
  (*2353*) AddTo (T 107) (Plain (Einsum [(n_t1'aa,[0;1]); (T 106,[0;2;3;1])] [2;3]));
  (*2354*) AddTo (T 109) (Times (Einsum [(T 107,[0;1])] [0;1]) (-1) 1);
  (*2355*) Del (T 107);
  (*2356*) AddTo (T 201) (Times (Einsum [(n_u11'aa,[0;1;2]); (T 106,[1;3;4;2])] [0;3;4]) (-1) 1);
  (*2357*) AddTo (T 109) (Plain (Einsum [(n_f'aa'oo,[0;1])] [0;1]));
  (*2358*) Assign (T 110) (Plain (Zeros [4;5]));
  (*2359*) AddTo (T 110) (Plain (Einsum [(n_t1'aa,[0;1]); (T 109,[0;2])] [2;1]));
  (*2360*) AddTo (T 121) (Times (Einsum [(T 110,[0;1])] [0;1]) (-1) 1);
  (*2361*) Del (T 110);
  (*2362*) Assign (T 493) (Plain (Zeros [4;6;5;7]));
  (*2363*) AddTo (T 493) (Plain (Einsum [(T 109,[0;1]); (n_l2'abab,[2;3;1;4])] [0;4;2;3]));
  (*2364*) AddTo n_l2new_baba (Times (Einsum [(T 493,[0;1;2;3])] [3;2;1;0]) (-1) 1);
  (*2365*) AddTo n_l2new_abab (Times (Einsum [(T 493,[0;1;2;3])] [2;3;0;1]) (-1) 1);
  (*2366*) Del (T 493);
  (*2367*) AddTo n_l1new_aa (Times (Einsum [(n_l1'aa,[0;1]); (T 109,[2;1])] [0;2]) (-1) 1);
  (*2368*) Del (T 109);
  (*2369*) Assign (T 111) (Plain (Zeros [5;5]));
  (*2370*) AddTo (T 111) (Plain (Einsum [(n_s1,[0]); (n_g'aa'bvv,[0;1;2])] [1;2]));
  (*2371*) Assign (T 115) (Plain (Zeros [5;5]));
  (*2372*) AddTo (T 115) (Plain (Einsum [(T 111,[0;1])] [0;1]));
  (*2373*) Assign (T 318) (Plain (Zeros [5;5]));
  (*2374*) AddTo (T 318) (Plain (Einsum [(T 111,[0;1])] [0;1]));
  (*2375*) AddTo (T 488) (Plain (Einsum [(T 111,[0;1])] [0;1]));
  (*2376*) Del (T 111);
  (*2377*) Assign (T 112) (Plain (Zeros [5;5]));
  (*2378*) AddTo (T 112) (Plain (Einsum [(n_t1'bb,[0;1]); (n_v'bbaa'ovvv,[0;1;2;3])] [2;3]));
  (*2379*) AddTo (T 115) (Plain (Einsum [(T 112,[0;1])] [0;1]));
  (*2380*) Assign (T 321) (Plain (Zeros [5;5]));
  (*2381*) AddTo (T 321) (Plain (Einsum [(T 112,[0;1])] [0;1]));
  (*2382*) AddTo (T 488) (Plain (Einsum [(T 112,[0;1])] [0;1]));
  (*2383*) Del (T 112);
  (*2384*) Assign (T 113) (Plain (Zeros [4;5;5;5]));
  (*2385*) AddTo (T 113) (Plain (Einsum [(n_v'aaaa'ovvv,[0;1;2;3])] [0;2;3;1]));
  (*2386*) AddTo (T 113) (Times (Einsum [(n_v'aaaa'ovvv,[0;1;2;3])] [0;2;1;3]) (-1) 1);
  (*2387*) Assign (T 114) (Plain (Zeros [5;5]));
  (*2388*) AddTo (T 114) (Plain (Einsum [(n_t1'aa,[0;1]); (T 113,[0;2;1;3])] [2;3]));
  (*2389*) Del (T 113);
  (*2390*) AddTo (T 115) (Times (Einsum [(T 114,[0;1])] [0;1]) (-1) 1);
  (*2391*) AddTo (T 488) (Times (Einsum [(T 114,[0;1])] [0;1]) (-1) 1);
  (*2392*) Del (T 114);
  (*2393*) AddTo (T 115) (Plain (Einsum [(n_f'aa'vv,[0;1])] [0;1]));
  (*2394*) Assign (T 116) (Plain (Zeros [4;5]));
  (*2395*) AddTo (T 116) (Plain (Einsum [(n_t1'aa,[0;1]); (T 115,[2;1])] [0;2]));
  (*2396*) AddTo (T 121) (Plain (Einsum [(T 116,[0;1])] [0;1]));
  (*2397*) Del (T 116);
  (*2398*) AddTo n_l1new_aa (Plain (Einsum [(n_l1'aa,[0;1]); (T 115,[0;2])] [2;1]));
  (*2399*) Del (T 115);
  (*2400*) Assign (T 117) (Plain (Zeros [3]));
  (*2401*) AddTo (T 117) (Plain (Einsum [(n_t1'aa,[0;1]); (n_g'aa'bov,[2;0;1])] [2]));
  (*2402*) Assign (T 119) (Plain (Zeros [3]));
  (*2403*) AddTo (T 119) (Plain (Einsum [(T 117,[0])] [0]));
  (*2404*) Assign (T 516) (Plain (Zeros [3]));
  (*2405*) AddTo (T 516) (Plain (Einsum [(T 117,[0])] [0]));
  (*2406*) Del (T 117);
  (*2407*) Assign (T 118) (Plain (Zeros [3]));
  (*2408*) AddTo (T 118) (Plain (Einsum [(n_t1'bb,[0;1]); (n_g'bb'bov,[2;0;1])] [2]));
  (*2409*) AddTo (T 119) (Plain (Einsum [(T 118,[0])] [0]));
  (*2410*) AddTo (T 516) (Plain (Einsum [(T 118,[0])] [0]));
  (*2411*) Del (T 118);
  (*2412*) AddTo (T 119) (Plain (Einsum [(n_G,[0])] [0]));
  (*2413*) Assign (T 120) (Plain (Zeros [4;5]));
  (*2414*) AddTo (T 120) (Plain (Einsum [(T 119,[0]); (n_u11'aa,[0;1;2])] [1;2]));
  (*2415*) AddTo (T 121) (Plain (Einsum [(T 120,[0;1])] [0;1]));
  (*2416*) Del (T 120);
  (*2417*) Assign (T 158) (Plain (Zeros [6;7]));
  (*2418*) AddTo (T 158) (Plain (Einsum [(T 119,[0]); (n_u11'bb,[0;1;2])] [1;2]));
  (*2419*) AddTo (T 159) (Plain (Einsum [(T 158,[0;1])] [0;1]));
  (*2420*) Del (T 158);
  (*2421*) Assign (T 219) (Plain (Zeros [3]));
  (*2422*) AddTo (T 219) (Plain (Einsum [(T 119,[0]); (n_s2,[0;1])] [1]));
  (*2423*) Del (T 119);
  (*2424*) AddTo (T 220) (Plain (Einsum [(T 219,[0])] [0]));
  (*2425*) Del (T 219);
  (*2426*) AddTo (T 121) (Plain (Einsum [(n_f'aa'vo,[0;1])] [1;0]));
  (*2427*) AddTo n_l1new_bb (Plain (Einsum [(T 121,[0;1]); (n_l2'abab,[1;2;0;3])] [2;3]));
  (*2428*) Assign n_ls1new (Plain (Zeros [3]));
  (*2429*) AddTo n_ls1new (Plain (Einsum [(T 121,[0;1]); (n_lu11'aa,[2;1;0])] [2]));
  (*2430*) Assign (T 122) (Plain (Zeros [4;4;5;5]));
  (*2431*) SubFrom (T 122) (Plain (Einsum [(n_l2'aaaa,[0;1;2;3])] [3;2;0;1]));
  (*2432*) AddTo (T 122) (Plain (Einsum [(n_l2'aaaa,[0;1;2;3])] [3;2;1;0]));
  (*2433*) Assign (T 205) (Plain (Zeros [3;4;5]));
  (*2434*) AddTo (T 205) (Plain (Einsum [(n_u11'aa,[0;1;2]); (T 122,[1;3;4;2])] [0;3;4]));
  (*2435*) Assign (T 206) (Plain (Zeros [3;4;5]));
  (*2436*) SubFrom (T 206) (Plain (Einsum [(T 205,[0;1;2])] [0;1;2]));
  (*2437*) Assign (T 331) (Plain (Zeros [3;4;5]));
  (*2438*) SubFrom (T 331) (Plain (Einsum [(T 205,[0;1;2])] [0;1;2]));
  (*2439*) Del (T 205);
  (*2440*) AddTo n_l1new_aa (Times (Einsum [(T 121,[0;1]); (T 122,[0;2;3;1])] [3;2]) (-1) 1);
  (*2441*) Del (T 121);
  (*2442*) SubFrom n_lu11new_aa (Plain (Einsum [(n_g'aa'bvo,[0;1;2]); (T 122,[2;3;4;1])] [0;4;3]));
  (*2443*) Del (T 122);
  (*2444*) Assign (T 124) (Plain (Zeros [6;7]));
  (*2445*) AddTo (T 124) (Plain (Einsum [(n_s1,[0]); (n_g'bb'bvo,[0;1;2])] [2;1]));
  (*2446*) AddTo (T 159) (Plain (Einsum [(T 124,[0;1])] [0;1]));
  (*2447*) Del (T 124);
  (*2448*) Assign (T 125) (Plain (Zeros [6;7]));
  (*2449*) AddTo (T 125) (Plain (Einsum [(n_g'bb'bvv,[0;1;2]); (n_u11'bb,[0;3;2])] [3;1]));
  (*2450*) AddTo (T 159) (Plain (Einsum [(T 125,[0;1])] [0;1]));
  (*2451*) Del (T 125);
  (*2452*) Assign (T 126) (Plain (Zeros [6;7]));
  (*2453*) AddTo (T 126) (Plain (Einsum [(n_t1'aa,[0;1]); (n_v'aabb'ovvo,[0;1;2;3])] [3;2]));
  (*2454*) AddTo (T 159) (Plain (Einsum [(T 126,[0;1])] [0;1]));
  (*2455*) Del (T 126);
  (*2456*) Assign (T 127) (Plain (Zeros [6;7]));
  (*2457*) AddTo (T 127) (Plain (Einsum [(n_t2'abab,[0;1;2;3]); (n_v'aabb'ovvv,[0;2;4;3])] [1;4]));
  (*2458*) AddTo (T 159) (Plain (Einsum [(T 127,[0;1])] [0;1]));
  (*2459*) Del (T 127);
  (*2460*) Assign (T 128) (Plain (Zeros [6;7]));
  (*2461*) AddTo (T 128) (Plain (Einsum [(n_t2'bbbb,[0;1;2;3]); (n_v'bbbb'ooov,[1;4;0;3])] [4;2]));
  (*2462*) AddTo (T 159) (Plain (Einsum [(T 128,[0;1])] [0;1]));
  (*2463*) Del (T 128);
  (*2464*) Assign (T 130) (Plain (Zeros [6;6;6;7]));
  (*2465*) AddTo (T 130) (Plain (Einsum [(n_t1'bb,[0;1]); (n_v'bbbb'ovov,[2;1;3;4])] [0;3;2;4]));
  (*2466*) Assign (T 131) (Plain (Zeros [6;6;6;7]));
  (*2467*) AddTo (T 131) (Times (Einsum [(T 130,[0;1;2;3])] [1;2;0;3]) (-1) 1);
  (*2468*) AddTo (T 131) (Plain (Einsum [(T 130,[0;1;2;3])] [2;1;0;3]));
  (*2469*) Assign (T 237) (Plain (Zeros [6;6;6;6]));
  (*2470*) AddTo (T 237) (Plain (Einsum [(n_t1'bb,[0;1]); (T 130,[2;3;4;1])] [0;2;3;4]));
  (*2471*) Assign (T 238) (Plain (Zeros [6;6;6;6]));
  (*2472*) AddTo (T 238) (Plain (Einsum [(T 237,[0;1;2;3])] [0;1;2;3]));
  (*2473*) Assign (T 419) (Plain (Zeros [6;6;6;6]));
  (*2474*) AddTo (T 419) (Plain (Einsum [(T 237,[0;1;2;3])] [0;1;2;3]));
  (*2475*) Del (T 237);
  (*2476*) Assign (T 241) (Plain (Zeros [6;6;6;7]));
  (*2477*) AddTo (T 241) (Times (Einsum [(T 130,[0;1;2;3])] [0;1;2;3]) (-1) 1);
  (*2478*) AddTo (T 241) (Plain (Einsum [(T 130,[0;1;2;3])] [0;2;1;3]));
  (*2479*) Assign (T 248) (Plain (Zeros [6;6;6;7]));
  (*2480*) AddTo (T 248) (Times (Einsum [(T 130,[0;1;2;3])] [1;2;0;3]) (-1) 1);
  (*2481*) AddTo (T 248) (Plain (Einsum [(T 130,[0;1;2;3])] [2;1;0;3]));
  (*2482*) Assign (T 277) (Plain (Zeros [6;6;6;7]));
  (*2483*) AddTo (T 277) (Times (Einsum [(T 130,[0;1;2;3])] [1;2;0;3]) (-1) 1);
  (*2484*) Assign (T 412) (Plain (Zeros [6;6;6;7]));
  (*2485*) AddTo (T 412) (Plain (Einsum [(T 130,[0;1;2;3])] [0;1;2;3]));
  (*2486*) Assign (T 424) (Plain (Zeros [6;6;6;7]));
  (*2487*) AddTo (T 424) (Plain (Einsum [(T 130,[0;1;2;3])] [0;1;2;3]));
  (*2488*) AddTo (T 424) (Times (Einsum [(T 130,[0;1;2;3])] [0;2;1;3]) (-1) 1);
  (*2489*) Assign (T 483) (Plain (Zeros [6;6;6;7]));
  (*2490*) AddTo (T 483) (Times (Einsum [(T 130,[0;1;2;3])] [0;1;2;3]) (-1) 1);
  (*2491*) AddTo (T 483) (Plain (Einsum [(T 130,[0;1;2;3])] [0;2;1;3]));
  (*2492*) Del (T 130);
  (*2493*) Assign (T 484) (Plain (Zeros [4;6;5;7]));
  (*2494*) AddTo (T 484) (Plain (Einsum [(T 2,[0;1;2;3]); (T 483,[1;2;4;5])] [0;4;3;5]));
  (*2495*) Del (T 483);
  (*2496*) AddTo n_l2new_baba (Times (Einsum [(T 484,[0;1;2;3])] [3;2;1;0]) (-1) 1);
  (*2497*) AddTo n_l2new_abab (Times (Einsum [(T 484,[0;1;2;3])] [2;3;0;1]) (-1) 1);
  (*2498*) Del (T 484);
  (*2499*) AddTo (T 131) (Plain (Einsum [(n_v'bbbb'ooov,[0;1;2;3])] [0;2;1;3]));
  (*2500*) Assign (T 132) (Plain (Zeros [6;7]));
  (*2501*) AddTo (T 132) (Plain (Einsum [(n_t2'bbbb,[0;1;2;3]); (T 131,[1;0;4;2])] [4;3]));
  (*2502*) Del (T 131);
  (*2503*) AddTo (T 159) (Times (Einsum [(T 132,[0;1])] [0;1]) (-1) 1);
  (*2504*) Del (T 132);
  (*2505*) Assign (T 136) (Plain (Zeros [6;6;7;7]));
  (*2506*) AddTo (T 136) (Plain (Einsum [(n_v'bbbb'ovvo,[0;1;2;3])] [0;3;2;1]));
  (*2507*) AddTo (T 136) (Times (Einsum [(n_v'bbbb'oovv,[0;1;2;3])] [0;1;2;3]) (-1) 1);
  (*2508*) Assign (T 137) (Plain (Zeros [6;7]));
  (*2509*) AddTo (T 137) (Plain (Einsum [(n_t1'bb,[0;1]); (T 136,[0;2;3;1])] [2;3]));
  (*2510*) AddTo (T 159) (Plain (Einsum [(T 137,[0;1])] [0;1]));
  (*2511*) Del (T 137);
  (*2512*) Assign (T 244) (Plain (Zeros [6;6;6;7]));
  (*2513*) AddTo (T 244) (Plain (Einsum [(n_t1'bb,[0;1]); (T 136,[2;3;4;1])] [0;2;3;4]));
  (*2514*) AddTo (T 247) (Plain (Einsum [(T 244,[0;1;2;3])] [0;1;2;3]));
  (*2515*) AddTo (T 258) (Plain (Einsum [(T 244,[0;1;2;3])] [0;1;2;3]));
  (*2516*) Del (T 244);
  (*2517*) Assign (T 138) (Plain (Zeros [3;6;6]));
  (*2518*) AddTo (T 138) (Plain (Einsum [(n_t1'bb,[0;1]); (n_g'bb'bov,[2;3;1])] [2;3;0]));
  (*2519*) Assign (T 139) (Plain (Zeros [3;6;6]));
  (*2520*) AddTo (T 139) (Plain (Einsum [(T 138,[0;1;2])] [0;1;2]));
  (*2521*) Assign (T 529) (Plain (Zeros [3;6;6]));
  (*2522*) AddTo (T 529) (Plain (Einsum [(T 138,[0;1;2])] [0;1;2]));
  (*2523*) Del (T 138);
  (*2524*) AddTo (T 139) (Plain (Einsum [(n_g'bb'boo,[0;1;2])] [0;1;2]));
  (*2525*) Assign (T 140) (Plain (Zeros [6;7]));
  (*2526*) AddTo (T 140) (Plain (Einsum [(n_u11'bb,[0;1;2]); (T 139,[0;1;3])] [3;2]));
  (*2527*) AddTo (T 159) (Times (Einsum [(T 140,[0;1])] [0;1]) (-1) 1);
  (*2528*) Del (T 140);
  (*2529*) Assign (T 141) (Plain (Zeros [6;6]));
  (*2530*) AddTo (T 141) (Plain (Einsum [(n_s1,[0]); (n_g'bb'boo,[0;1;2])] [1;2]));
  (*2531*) AddTo (T 150) (Plain (Einsum [(T 141,[0;1])] [0;1]));
  (*2532*) Assign (T 397) (Plain (Zeros [6;6]));
  (*2533*) AddTo (T 397) (Plain (Einsum [(T 141,[0;1])] [0;1]));
  (*2534*) Del (T 141);
  (*2535*) Assign (T 142) (Plain (Zeros [6;6]));
  (*2536*) AddTo (T 142) (Plain (Einsum [(n_g'bb'bov,[0;1;2]); (n_u11'bb,[0;3;2])] [1;3]));
  (*2537*) AddTo (T 150) (Plain (Einsum [(T 142,[0;1])] [0;1]));
  (*2538*) AddTo (T 397) (Plain (Einsum [(T 142,[0;1])] [0;1]));
  (*2539*) Del (T 142);
  (*2540*) Assign (T 143) (Plain (Zeros [6;6]));
  (*2541*) AddTo (T 143) (Plain (Einsum [(n_t1'aa,[0;1]); (n_v'aabb'ovoo,[0;1;2;3])] [2;3]));
  (*2542*) AddTo (T 150) (Plain (Einsum [(T 143,[0;1])] [0;1]));
  (*2543*) Assign (T 401) (Plain (Zeros [6;6]));
  (*2544*) AddTo (T 401) (Plain (Einsum [(T 143,[0;1])] [0;1]));
  (*2545*) Del (T 143);
  (*2546*) Assign (T 144) (Plain (Zeros [6;6]));
  (*2547*) AddTo (T 144) (Plain (Einsum [(n_t2'abab,[0;1;2;3]); (n_v'aabb'ovov,[0;2;4;3])] [1;4]));
  (*2548*) AddTo (T 150) (Plain (Einsum [(T 144,[0;1])] [1;0]));
  (*2549*) AddTo (T 430) (Plain (Einsum [(T 144,[0;1])] [0;1]));
  (*2550*) Del (T 144);
  (*2551*) Assign (T 431) (Plain (Zeros [6;6;7;7]));
  (*2552*) AddTo (T 431) (Plain (Einsum [(T 430,[0;1]); (n_l2'bbbb,[2;3;0;4])] [4;1;2;3]));
  (*2553*) Del (T 430);
  (*2554*) Assign (T 440) (Plain (Zeros [6;6;7;7]));
  (*2555*) AddTo (T 440) (Plain (Einsum [(T 431,[0;1;2;3])] [0;1;3;2]));
  (*2556*) Del (T 431);
  (*2557*) Assign (T 145) (Plain (Zeros [6;6;7;7]));
  (*2558*) AddTo (T 145) (Plain (Einsum [(n_v'bbbb'ovov,[0;1;2;3])] [2;0;1;3]));
  (*2559*) AddTo (T 145) (Times (Einsum [(n_v'bbbb'ovov,[0;1;2;3])] [2;0;3;1]) (-1) 1);
  (*2560*) Assign (T 146) (Plain (Zeros [6;6]));
  (*2561*) AddTo (T 146) (Plain (Einsum [(n_t2'bbbb,[0;1;2;3]); (T 145,[0;4;2;3])] [1;4]));
  (*2562*) AddTo (T 150) (Times (Einsum [(T 146,[0;1])] [1;0]) (-1) 1);
  (*2563*) Del (T 146);
  (*2564*) Assign (T 433) (Plain (Zeros [7;7]));
  (*2565*) AddTo (T 433) (Plain (Einsum [(n_t2'bbbb,[0;1;2;3]); (T 145,[0;1;2;4])] [3;4]));
  (*2566*) Assign (T 434) (Plain (Zeros [7;7]));
  (*2567*) AddTo (T 434) (Times (Einsum [(T 433,[0;1])] [0;1]) (-1) 1);
  (*2568*) Del (T 433);
  (*2569*) Assign (T 463) (Plain (Zeros [6;6;7;7]));
  (*2570*) AddTo (T 463) (Plain (Einsum [(T 145,[0;1;2;3]); (T 55,[0;4;5;3])] [4;1;5;2]));
  (*2571*) Assign (T 465) (Plain (Zeros [6;6;7;7]));
  (*2572*) AddTo (T 465) (Plain (Einsum [(T 463,[0;1;2;3])] [1;0;2;3]));
  (*2573*) Del (T 463);
  (*2574*) Assign (T 147) (Plain (Zeros [6;6;6;7]));
  (*2575*) AddTo (T 147) (Plain (Einsum [(n_v'bbbb'ooov,[0;1;2;3])] [0;2;1;3]));
  (*2576*) AddTo (T 147) (Times (Einsum [(n_v'bbbb'ooov,[0;1;2;3])] [2;0;1;3]) (-1) 1);
  (*2577*) Assign (T 148) (Plain (Zeros [6;6]));
  (*2578*) AddTo (T 148) (Plain (Einsum [(n_t1'bb,[0;1]); (T 147,[0;2;3;1])] [2;3]));
  (*2579*) AddTo (T 150) (Times (Einsum [(T 148,[0;1])] [0;1]) (-1) 1);
  (*2580*) Del (T 148);
  (*2581*) AddTo (T 286) (Times (Einsum [(n_u11'bb,[0;1;2]); (T 147,[1;3;4;2])] [0;3;4]) (-1) 1);
  (*2582*) AddTo (T 150) (Plain (Einsum [(n_f'bb'oo,[0;1])] [0;1]));
  (*2583*) Assign (T 151) (Plain (Zeros [6;7]));
  (*2584*) AddTo (T 151) (Plain (Einsum [(n_t1'bb,[0;1]); (T 150,[0;2])] [2;1]));
  (*2585*) AddTo (T 159) (Times (Einsum [(T 151,[0;1])] [0;1]) (-1) 1);
  (*2586*) Del (T 151);
  (*2587*) Assign (T 494) (Plain (Zeros [4;6;5;7]));
  (*2588*) AddTo (T 494) (Plain (Einsum [(T 150,[0;1]); (n_l2'abab,[2;3;4;1])] [4;0;2;3]));
  (*2589*) AddTo n_l2new_baba (Times (Einsum [(T 494,[0;1;2;3])] [3;2;1;0]) (-1) 1);
  (*2590*) AddTo n_l2new_abab (Times (Einsum [(T 494,[0;1;2;3])] [2;3;0;1]) (-1) 1);
  (*2591*) Del (T 494);
  (*2592*) AddTo n_l1new_bb (Times (Einsum [(n_l1'bb,[0;1]); (T 150,[2;1])] [0;2]) (-1) 1);
  (*2593*) Del (T 150);
  (*2594*) Assign (T 152) (Plain (Zeros [7;7]));
  (*2595*) AddTo (T 152) (Plain (Einsum [(n_s1,[0]); (n_g'bb'bvv,[0;1;2])] [1;2]));
  (*2596*) Assign (T 156) (Plain (Zeros [7;7]));
  (*2597*) AddTo (T 156) (Plain (Einsum [(T 152,[0;1])] [0;1]));
  (*2598*) Assign (T 390) (Plain (Zeros [7;7]));
  (*2599*) AddTo (T 390) (Plain (Einsum [(T 152,[0;1])] [0;1]));
  (*2600*) AddTo (T 491) (Plain (Einsum [(T 152,[0;1])] [0;1]));
  (*2601*) Del (T 152);
  (*2602*) Assign (T 153) (Plain (Zeros [7;7]));
  (*2603*) AddTo (T 153) (Plain (Einsum [(n_t1'aa,[0;1]); (n_v'aabb'ovvv,[0;1;2;3])] [2;3]));
  (*2604*) AddTo (T 156) (Plain (Einsum [(T 153,[0;1])] [0;1]));
  (*2605*) Assign (T 393) (Plain (Zeros [7;7]));
  (*2606*) AddTo (T 393) (Plain (Einsum [(T 153,[0;1])] [0;1]));
  (*2607*) AddTo (T 491) (Plain (Einsum [(T 153,[0;1])] [0;1]));
  (*2608*) Del (T 153);
  (*2609*) Assign (T 154) (Plain (Zeros [6;7;7;7]));
  (*2610*) AddTo (T 154) (Plain (Einsum [(n_v'bbbb'ovvv,[0;1;2;3])] [0;2;3;1]));
  (*2611*) AddTo (T 154) (Times (Einsum [(n_v'bbbb'ovvv,[0;1;2;3])] [0;2;1;3]) (-1) 1);
  (*2612*) Assign (T 155) (Plain (Zeros [7;7]));
  (*2613*) AddTo (T 155) (Plain (Einsum [(n_t1'bb,[0;1]); (T 154,[0;2;1;3])] [2;3]));
  (*2614*) AddTo (T 156) (Times (Einsum [(T 155,[0;1])] [0;1]) (-1) 1);
  (*2615*) AddTo (T 491) (Times (Einsum [(T 155,[0;1])] [0;1]) (-1) 1);
  (*2616*) Del (T 155);
  (*2617*) AddTo (T 156) (Plain (Einsum [(n_f'bb'vv,[0;1])] [0;1]));
  (*2618*) Assign (T 157) (Plain (Zeros [6;7]));
  (*2619*) AddTo (T 157) (Plain (Einsum [(n_t1'bb,[0;1]); (T 156,[2;1])] [0;2]));
  (*2620*) AddTo (T 159) (Plain (Einsum [(T 157,[0;1])] [0;1]));
  (*2621*) Del (T 157);
  (*2622*) AddTo n_l1new_bb (Plain (Einsum [(n_l1'bb,[0;1]); (T 156,[0;2])] [2;1]));
  (*2623*) Del (T 156);
  (*2624*) AddTo (T 159) (Plain (Einsum [(n_f'bb'vo,[0;1])] [1;0]));
  (*2625*) AddTo n_l1new_aa (Plain (Einsum [(T 159,[0;1]); (n_l2'abab,[2;1;3;0])] [2;3]));
  (*2626*) AddTo n_ls1new (Plain (Einsum [(T 159,[0;1]); (n_lu11'bb,[2;1;0])] [2]));
  (*2627*) Assign (T 160) (Plain (Zeros [4;5]));
  (*2628*) AddTo (T 160) (Plain (Einsum [(n_ls1,[0]); (n_u11'aa,[0;1;2])] [1;2]));
  (*2629*) AddTo (T 170) (Times (Einsum [(T 160,[0;1])] [0;1]) (-1) 1);
  (*2630*) Del (T 160);
  (*2631*) Assign (T 161) (Plain (Zeros [4;5]));
  (*2632*) AddTo (T 161) (Plain (Einsum [(n_l1'bb,[0;1]); (n_t2'abab,[2;1;3;0])] [2;3]));
  (*2633*) AddTo (T 170) (Times (Einsum [(T 161,[0;1])] [0;1]) (-1) 1);
  (*2634*) Del (T 161);
  (*2635*) Assign (T 162) (Plain (Zeros [3;4;4]));
  (*2636*) AddTo (T 162) (Plain (Einsum [(n_t1'aa,[0;1]); (n_lu11'aa,[2;1;3])] [2;3;0]));
  (*2637*) Assign (T 163) (Plain (Zeros [4;5]));
  (*2638*) AddTo (T 163) (Plain (Einsum [(n_u11'aa,[0;1;2]); (T 162,[0;1;3])] [3;2]));
  (*2639*) AddTo (T 170) (Plain (Einsum [(T 163,[0;1])] [0;1]));
  (*2640*) Del (T 163);
  (*2641*) Assign (T 167) (Plain (Zeros [4;4]));
  (*2642*) AddTo (T 167) (Plain (Einsum [(n_lu11'aa,[0;1;2]); (n_u11'aa,[0;3;1])] [2;3]));
  (*2643*) AddTo (T 168) (Plain (Einsum [(T 167,[0;1])] [0;1]));
  (*2644*) Assign (T 169) (Plain (Zeros [4;5]));
  (*2645*) AddTo (T 169) (Plain (Einsum [(n_t1'aa,[0;1]); (T 168,[0;2])] [2;1]));
  (*2646*) AddTo (T 170) (Plain (Einsum [(T 169,[0;1])] [0;1]));
  (*2647*) Del (T 169);
  (*2648*) Assign (T 499) (Plain (Zeros [4;6;5;7]));
  (*2649*) AddTo (T 499) (Plain (Einsum [(T 168,[0;1]); (n_v'aabb'ovov,[1;2;3;4])] [0;3;2;4]));
  (*2650*) AddTo n_l2new_baba (Times (Einsum [(T 499,[0;1;2;3])] [3;2;1;0]) (-1) 1);
  (*2651*) AddTo n_l2new_abab (Times (Einsum [(T 499,[0;1;2;3])] [2;3;0;1]) (-1) 1);
  (*2652*) Del (T 499);
  (*2653*) AddTo n_l1new_aa (Times (Einsum [(T 168,[0;1]); (T 106,[1;2;0;3])] [3;2]) (-1) 1);
  (*2654*) Del (T 106);
  (*2655*) AddTo n_l1new_bb (Times (Einsum [(T 168,[0;1]); (n_v'aabb'ooov,[1;0;2;3])] [3;2]) (-1) 1);
  (*2656*) AddTo n_ls1new (Times (Einsum [(T 168,[0;1]); (n_g'aa'boo,[2;1;0])] [2]) (-1) 1);
  (*2657*) Del (T 168);
  (*2658*) AddTo (T 210) (Plain (Einsum [(T 167,[0;1])] [0;1]));
  (*2659*) Assign (T 211) (Plain (Zeros [3;4;4]));
  (*2660*) AddTo (T 211) (Plain (Einsum [(n_s1,[0]); (T 210,[1;2])] [0;1;2]));
  (*2661*) Del (T 210);
  (*2662*) AddTo (T 221) (Plain (Einsum [(T 167,[0;1])] [0;1]));
  (*2663*) AddTo (T 336) (Plain (Einsum [(T 167,[0;1])] [0;1]));
  (*2664*) Del (T 167);
  (*2665*) Assign (T 337) (Plain (Zeros [4;4;5;5]));
  (*2666*) AddTo (T 337) (Plain (Einsum [(T 336,[0;1]); (n_v'aaaa'ovov,[1;2;3;4])] [0;3;2;4]));
  (*2667*) Del (T 336);
  (*2668*) AddTo (T 343) (Plain (Einsum [(T 337,[0;1;2;3])] [0;1;3;2]));
  (*2669*) Del (T 337);
  (*2670*) AddTo (T 170) (Times (Einsum [(n_t1'aa,[0;1])] [0;1]) (-1) 1);
  (*2671*) AddTo n_l1new_bb (Times (Einsum [(T 170,[0;1]); (n_v'aabb'ovov,[0;1;2;3])] [3;2]) (-1) 1);
  (*2672*) AddTo n_ls1new (Times (Einsum [(T 170,[0;1]); (n_g'aa'bov,[2;0;1])] [2]) (-1) 1);
  (*2673*) Assign (T 171) (Plain (Zeros [4;4;5;5]));
  (*2674*) AddTo (T 171) (Plain (Einsum [(n_v'aaaa'ovov,[0;1;2;3])] [2;0;1;3]));
  (*2675*) SubFrom (T 171) (Plain (Einsum [(n_v'aaaa'ovov,[0;1;2;3])] [2;0;3;1]));
  (*2676*) AddTo n_l1new_aa (Times (Einsum [(T 170,[0;1]); (T 171,[0;2;3;1])] [3;2]) (-1) 1);
  (*2677*) Del (T 170);
  (*2678*) Del (T 171);
  (*2679*) Assign (T 172) (Plain (Zeros [5;5]));
  (*2680*) AddTo (T 172) (Plain (Einsum [(n_l1'aa,[0;1]); (n_t1'aa,[1;2])] [0;2]));
  (*2681*) AddTo (T 176) (Plain (Einsum [(T 172,[0;1])] [0;1]));
  (*2682*) Del (T 172);
  (*2683*) Assign (T 173) (Plain (Zeros [5;5]));
  (*2684*) AddTo (T 173) (Plain (Einsum [(n_lu11'aa,[0;1;2]); (n_u11'aa,[0;2;3])] [1;3]));
  (*2685*) AddTo (T 176) (Plain (Einsum [(T 173,[0;1])] [0;1]));
  (*2686*) Assign (T 301) (Plain (Zeros [4;4;5;5]));
  (*2687*) AddTo (T 301) (Plain (Einsum [(T 173,[0;1]); (n_v'aaaa'ovov,[2;3;4;1])] [2;4;0;3]));
  (*2688*) AddTo (T 343) (Plain (Einsum [(T 301,[0;1;2;3])] [0;1;2;3]));
  (*2689*) Del (T 301);
  (*2690*) AddTo (T 495) (Plain (Einsum [(T 173,[0;1])] [0;1]));
  (*2691*) Del (T 173);
  (*2692*) Assign (T 174) (Plain (Zeros [5;5]));
  (*2693*) AddTo (T 174) (Plain (Einsum [(n_l2'abab,[0;1;2;3]); (n_t2'abab,[2;3;4;1])] [0;4]));
  (*2694*) AddTo (T 176) (Plain (Einsum [(T 174,[0;1])] [0;1]));
  (*2695*) AddTo n_l1new_aa (Times (Einsum [(T 176,[0;1]); (T 52,[2;0;1;3])] [3;2]) (-1) 1);
  (*2696*) Del (T 52);
  (*2697*) AddTo n_l1new_bb (Plain (Einsum [(T 176,[0;1]); (n_v'bbaa'ovvv,[2;3;0;1])] [3;2]));
  (*2698*) AddTo n_ls1new (Plain (Einsum [(T 176,[0;1]); (n_g'aa'bvv,[2;0;1])] [2]));
  (*2699*) Del (T 176);
  (*2700*) AddTo (T 359) (Plain (Einsum [(T 174,[0;1])] [0;1]));
  (*2701*) Assign (T 360) (Plain (Zeros [4;4;5;5]));
  (*2702*) AddTo (T 360) (Plain (Einsum [(T 359,[0;1]); (n_v'aaaa'ovov,[2;1;3;4])] [2;3;0;4]));
  (*2703*) Del (T 359);
  (*2704*) AddTo (T 363) (Times (Einsum [(T 360,[0;1;2;3])] [1;0;2;3]) (-1) 1);
  (*2705*) Del (T 360);
  (*2706*) AddTo (T 495) (Plain (Einsum [(T 174,[0;1])] [0;1]));
  (*2707*) Del (T 174);
  (*2708*) Assign (T 496) (Plain (Zeros [4;6;5;7]));
  (*2709*) AddTo (T 496) (Plain (Einsum [(T 495,[0;1]); (n_v'aabb'ovov,[2;1;3;4])] [2;3;0;4]));
  (*2710*) Del (T 495);
  (*2711*) AddTo n_l2new_baba (Times (Einsum [(T 496,[0;1;2;3])] [3;2;1;0]) (-1) 1);
  (*2712*) AddTo n_l2new_abab (Times (Einsum [(T 496,[0;1;2;3])] [2;3;0;1]) (-1) 1);
  (*2713*) Del (T 496);
  (*2714*) Assign (T 177) (Plain (Zeros [6;7]));
  (*2715*) AddTo (T 177) (Plain (Einsum [(n_ls1,[0]); (n_u11'bb,[0;1;2])] [1;2]));
  (*2716*) AddTo (T 191) (Times (Einsum [(T 177,[0;1])] [0;1]) (-1) 1);
  (*2717*) Del (T 177);
  (*2718*) Assign (T 178) (Plain (Zeros [6;7]));
  (*2719*) AddTo (T 178) (Plain (Einsum [(n_l1'aa,[0;1]); (n_t2'abab,[1;2;0;3])] [2;3]));
  (*2720*) AddTo (T 191) (Times (Einsum [(T 178,[0;1])] [0;1]) (-1) 1);
  (*2721*) Del (T 178);
  (*2722*) Assign (T 179) (Plain (Zeros [3;6;6]));
  (*2723*) AddTo (T 179) (Plain (Einsum [(n_t1'bb,[0;1]); (n_lu11'bb,[2;1;3])] [2;3;0]));
  (*2724*) Assign (T 180) (Plain (Zeros [6;7]));
  (*2725*) AddTo (T 180) (Plain (Einsum [(n_u11'bb,[0;1;2]); (T 179,[0;1;3])] [3;2]));
  (*2726*) AddTo (T 191) (Plain (Einsum [(T 180,[0;1])] [0;1]));
  (*2727*) Del (T 180);
  (*2728*) Assign (T 182) (Plain (Zeros [6;6;6;7]));
  (*2729*) AddTo (T 182) (Plain (Einsum [(n_t1'bb,[0;1]); (n_l2'bbbb,[1;2;3;4])] [4;3;0;2]));
  (*2730*) Assign (T 183) (Plain (Zeros [6;7]));
  (*2731*) AddTo (T 183) (Plain (Einsum [(T 182,[0;1;2;3]); (T 55,[1;0;4;3])] [2;4]));
  (*2732*) AddTo (T 191) (Times (Einsum [(T 183,[0;1])] [0;1]) (-1) 1);
  (*2733*) Del (T 183);
  (*2734*) Assign (T 261) (Plain (Zeros [6;6;6;7]));
  (*2735*) AddTo (T 261) (Plain (Einsum [(T 182,[0;1;2;3])] [0;1;2;3]));
  (*2736*) AddTo (T 261) (Times (Einsum [(T 182,[0;1;2;3])] [1;0;2;3]) (-1) 1);
  (*2737*) AddTo (T 263) (Plain (Einsum [(T 261,[0;1;2;3]); (T 36,[0;4;3;5])] [1;4;2;5]));
  (*2738*) Assign (T 264) (Plain (Zeros [6;6;7;7]));
  (*2739*) AddTo (T 264) (Times (Einsum [(n_t1'bb,[0;1]); (T 261,[0;2;3;4])] [2;3;4;1]) (-1) 1);
  (*2740*) AddTo (T 268) (Times (Einsum [(n_t2'abab,[0;1;2;3]); (T 261,[1;4;5;3])] [0;4;5;2]) (-1) 1);
  (*2741*) AddTo n_l1new_bb (Times (Einsum [(T 136,[0;1;2;3]); (T 261,[1;4;0;2])] [3;4]) (-1) 1);
  (*2742*) Del (T 136);
  (*2743*) AddTo n_l2new_baba (Plain (Einsum [(T 261,[0;1;2;3]); (T 37,[4;0;2;5])] [3;5;1;4]));
  (*2744*) Del (T 261);
  (*2745*) Assign (T 270) (Plain (Zeros [6;6;6;6]));
  (*2746*) AddTo (T 270) (Plain (Einsum [(n_t1'bb,[0;1]); (T 182,[2;3;4;1])] [3;2;4;0]));
  (*2747*) Assign (T 271) (Plain (Zeros [6;6;6;7]));
  (*2748*) AddTo (T 271) (Plain (Einsum [(n_t1'bb,[0;1]); (T 270,[0;2;3;4])] [2;4;3;1]));
  (*2749*) Assign (T 272) (Plain (Zeros [6;6;6;7]));
  (*2750*) AddTo (T 272) (Plain (Einsum [(T 271,[0;1;2;3])] [0;1;2;3]));
  (*2751*) Del (T 271);
  (*2752*) Assign (T 281) (Plain (Zeros [6;6;6;6]));
  (*2753*) AddTo (T 281) (Times (Einsum [(T 270,[0;1;2;3])] [0;1;2;3]) (-1) 1);
  (*2754*) AddTo (T 281) (Plain (Einsum [(T 270,[0;1;2;3])] [0;1;3;2]));
  (*2755*) AddTo n_l1new_bb (Times (Einsum [(n_v'bbbb'ooov,[0;1;2;3]); (T 281,[4;1;2;0])] [3;4]) (-1) 1);
  (*2756*) Del (T 281);
  (*2757*) Assign (T 418) (Plain (Zeros [6;6;7;7]));
  (*2758*) AddTo (T 418) (Plain (Einsum [(n_v'bbbb'ovov,[0;1;2;3]); (T 270,[4;5;0;2])] [4;5;1;3]));
  (*2759*) Del (T 270);
  (*2760*) Assign (T 421) (Plain (Zeros [6;6;7;7]));
  (*2761*) AddTo (T 421) (Plain (Einsum [(T 418,[0;1;2;3])] [0;1;2;3]));
  (*2762*) Del (T 418);
  (*2763*) Assign (T 377) (Plain (Zeros [6;6;7;7]));
  (*2764*) AddTo (T 377) (Plain (Einsum [(n_v'bbbb'ovvv,[0;1;2;3]); (T 182,[4;5;0;2])] [5;4;1;3]));
  (*2765*) SubFrom (T 416) (Plain (Einsum [(T 377,[0;1;2;3])] [0;1;2;3]));
  (*2766*) Del (T 377);
  (*2767*) Assign (T 386) (Plain (Zeros [6;6;6;7]));
  (*2768*) SubFrom (T 386) (Plain (Einsum [(T 182,[0;1;2;3])] [0;1;2;3]));
  (*2769*) AddTo (T 386) (Plain (Einsum [(T 182,[0;1;2;3])] [1;0;2;3]));
  (*2770*) SubFrom n_l2new_abab (Plain (Einsum [(n_v'aabb'ovoo,[0;1;2;3]); (T 386,[3;4;2;5])] [1;5;0;4]));
  (*2771*) Assign (T 423) (Plain (Zeros [6;6;6;7]));
  (*2772*) AddTo (T 423) (Times (Einsum [(T 182,[0;1;2;3])] [0;1;2;3]) (-1) 1);
  (*2773*) AddTo (T 423) (Plain (Einsum [(T 182,[0;1;2;3])] [1;0;2;3]));
  (*2774*) Assign (T 425) (Plain (Zeros [6;6;7;7]));
  (*2775*) AddTo (T 425) (Plain (Einsum [(T 423,[0;1;2;3]); (T 424,[1;2;4;5])] [0;4;3;5]));
  (*2776*) Del (T 424);
  (*2777*) AddTo (T 440) (Plain (Einsum [(T 425,[0;1;2;3])] [0;1;2;3]));
  (*2778*) Del (T 425);
  (*2779*) AddTo n_l2new_abab (Times (Einsum [(T 37,[0;1;2;3]); (T 423,[1;4;2;5])] [3;5;0;4]) (-1) 1);
  (*2780*) Del (T 37);
  (*2781*) Del (T 423);
  (*2782*) Assign (T 439) (Plain (Zeros [6;6;7;7]));
  (*2783*) AddTo (T 439) (Plain (Einsum [(T 234,[0;1]); (T 182,[2;3;0;4])] [2;3;4;1]));
  (*2784*) AddTo (T 440) (Plain (Einsum [(T 439,[0;1;2;3])] [0;1;2;3]));
  (*2785*) Del (T 439);
  (*2786*) Assign (T 486) (Plain (Zeros [6;6;6;7]));
  (*2787*) AddTo (T 486) (Plain (Einsum [(T 182,[0;1;2;3])] [0;1;2;3]));
  (*2788*) SubFrom (T 486) (Plain (Einsum [(T 182,[0;1;2;3])] [1;0;2;3]));
  (*2789*) AddTo n_l2new_baba (Plain (Einsum [(n_v'aabb'ovoo,[0;1;2;3]); (T 486,[3;4;2;5])] [5;1;4;0]));
  (*2790*) Del (T 486);
  (*2791*) Assign (T 185) (Plain (Zeros [6;6]));
  (*2792*) AddTo (T 185) (Plain (Einsum [(n_l1'bb,[0;1]); (n_t1'bb,[2;0])] [1;2]));
  (*2793*) AddTo (T 189) (Plain (Einsum [(T 185,[0;1])] [0;1]));
  (*2794*) Assign (T 409) (Plain (Zeros [6;6]));
  (*2795*) AddTo (T 409) (Plain (Einsum [(T 185,[0;1])] [0;1]));
  (*2796*) AddTo n_l1new_bb (Times (Einsum [(T 185,[0;1]); (T 298,[1;2])] [2;0]) (-1) 1);
  (*2797*) Del (T 185);
  (*2798*) Del (T 298);
  (*2799*) Assign (T 186) (Plain (Zeros [6;6]));
  (*2800*) AddTo (T 186) (Plain (Einsum [(n_lu11'bb,[0;1;2]); (n_u11'bb,[0;3;1])] [2;3]));
  (*2801*) AddTo (T 189) (Plain (Einsum [(T 186,[0;1])] [0;1]));
  (*2802*) AddTo (T 294) (Plain (Einsum [(T 186,[0;1])] [0;1]));
  (*2803*) AddTo (T 409) (Plain (Einsum [(T 186,[0;1])] [0;1]));
  (*2804*) Assign (T 410) (Plain (Zeros [6;6;7;7]));
  (*2805*) AddTo (T 410) (Plain (Einsum [(T 409,[0;1]); (n_v'bbbb'ovov,[1;2;3;4])] [3;0;2;4]));
  (*2806*) Del (T 409);
  (*2807*) AddTo (T 416) (Plain (Einsum [(T 410,[0;1;2;3])] [1;0;3;2]));
  (*2808*) Del (T 410);
  (*2809*) AddTo n_l1new_bb (Times (Einsum [(T 186,[0;1]); (T 234,[1;2])] [2;0]) (-1) 1);
  (*2810*) Del (T 234);
  (*2811*) Del (T 186);
  (*2812*) Assign (T 187) (Plain (Zeros [6;6]));
  (*2813*) AddTo (T 187) (Plain (Einsum [(n_l2'abab,[0;1;2;3]); (n_t2'abab,[2;4;0;1])] [3;4]));
  (*2814*) AddTo (T 189) (Plain (Einsum [(T 187,[0;1])] [0;1]));
  (*2815*) Assign (T 190) (Plain (Zeros [6;7]));
  (*2816*) AddTo (T 190) (Plain (Einsum [(n_t1'bb,[0;1]); (T 189,[0;2])] [2;1]));
  (*2817*) AddTo (T 191) (Plain (Einsum [(T 190,[0;1])] [0;1]));
  (*2818*) Del (T 190);
  (*2819*) Assign (T 500) (Plain (Zeros [4;6;5;7]));
  (*2820*) AddTo (T 500) (Plain (Einsum [(T 189,[0;1]); (n_v'aabb'ovov,[2;3;1;4])] [2;0;3;4]));
  (*2821*) AddTo n_l2new_baba (Times (Einsum [(T 500,[0;1;2;3])] [3;2;1;0]) (-1) 1);
  (*2822*) AddTo n_l2new_abab (Times (Einsum [(T 500,[0;1;2;3])] [2;3;0;1]) (-1) 1);
  (*2823*) Del (T 500);
  (*2824*) AddTo n_l1new_aa (Times (Einsum [(T 189,[0;1]); (n_v'aabb'ovoo,[2;3;1;0])] [3;2]) (-1) 1);
  (*2825*) AddTo n_l1new_bb (Times (Einsum [(T 189,[0;1]); (T 147,[1;2;0;3])] [3;2]) (-1) 1);
  (*2826*) Del (T 147);
  (*2827*) AddTo n_l1new_bb (Times (Einsum [(n_f'bb'ov,[0;1]); (T 189,[2;0])] [1;2]) (-1) 1);
  (*2828*) AddTo n_ls1new (Times (Einsum [(T 189,[0;1]); (n_g'bb'boo,[2;1;0])] [2]) (-1) 1);
  (*2829*) Del (T 189);
  (*2830*) AddTo (T 262) (Plain (Einsum [(T 187,[0;1])] [0;1]));
  (*2831*) AddTo (T 263) (Plain (Einsum [(n_t1'bb,[0;1]); (T 262,[2;3])] [2;0;3;1]));
  (*2832*) AddTo n_l1new_bb (Plain (Einsum [(T 263,[0;1;2;3]); (T 93,[1;2;4;3])] [4;0]));
  (*2833*) Del (T 263);
  (*2834*) AddTo (T 268) (Times (Einsum [(n_t1'aa,[0;1]); (T 262,[2;3])] [0;2;3;1]) (-1) 1);
  (*2835*) Assign (T 438) (Plain (Zeros [6;6;7;7]));
  (*2836*) AddTo (T 438) (Plain (Einsum [(T 262,[0;1]); (n_v'bbbb'ovov,[1;2;3;4])] [3;0;2;4]));
  (*2837*) Del (T 262);
  (*2838*) AddTo (T 440) (Times (Einsum [(T 438,[0;1;2;3])] [1;0;3;2]) (-1) 1);
  (*2839*) Del (T 438);
  (*2840*) AddTo (T 294) (Plain (Einsum [(T 187,[0;1])] [0;1]));
  (*2841*) Del (T 187);
  (*2842*) Assign (T 295) (Plain (Zeros [3;6;6]));
  (*2843*) AddTo (T 295) (Plain (Einsum [(n_s1,[0]); (T 294,[1;2])] [0;1;2]));
  (*2844*) Del (T 294);
  (*2845*) AddTo (T 191) (Times (Einsum [(n_t1'bb,[0;1])] [0;1]) (-1) 1);
  (*2846*) AddTo n_l1new_aa (Times (Einsum [(T 191,[0;1]); (n_v'aabb'ovov,[2;3;0;1])] [3;2]) (-1) 1);
  (*2847*) AddTo n_l1new_bb (Times (Einsum [(T 191,[0;1]); (T 145,[0;2;3;1])] [3;2]) (-1) 1);
  (*2848*) Del (T 145);
  (*2849*) AddTo n_ls1new (Times (Einsum [(T 191,[0;1]); (n_g'bb'bov,[2;0;1])] [2]) (-1) 1);
  (*2850*) Del (T 191);
  (*2851*) Assign (T 192) (Plain (Zeros [7;7]));
  (*2852*) AddTo (T 192) (Plain (Einsum [(n_l1'bb,[0;1]); (n_t1'bb,[1;2])] [0;2]));
  (*2853*) AddTo (T 196) (Plain (Einsum [(T 192,[0;1])] [0;1]));
  (*2854*) Del (T 192);
  (*2855*) Assign (T 193) (Plain (Zeros [7;7]));
  (*2856*) AddTo (T 193) (Plain (Einsum [(n_lu11'bb,[0;1;2]); (n_u11'bb,[0;2;3])] [1;3]));
  (*2857*) AddTo (T 196) (Plain (Einsum [(T 193,[0;1])] [0;1]));
  (*2858*) Assign (T 374) (Plain (Zeros [6;6;7;7]));
  (*2859*) AddTo (T 374) (Plain (Einsum [(T 193,[0;1]); (n_v'bbbb'ovov,[2;3;4;1])] [2;4;0;3]));
  (*2860*) AddTo (T 416) (Plain (Einsum [(T 374,[0;1;2;3])] [0;1;2;3]));
  (*2861*) Del (T 374);
  (*2862*) AddTo (T 497) (Plain (Einsum [(T 193,[0;1])] [0;1]));
  (*2863*) Del (T 193);
  (*2864*) Assign (T 194) (Plain (Zeros [7;7]));
  (*2865*) AddTo (T 194) (Plain (Einsum [(n_l2'abab,[0;1;2;3]); (n_t2'abab,[2;3;0;4])] [1;4]));
  (*2866*) AddTo (T 196) (Plain (Einsum [(T 194,[0;1])] [0;1]));
  (*2867*) AddTo n_l1new_aa (Plain (Einsum [(T 196,[0;1]); (n_v'aabb'ovvv,[2;3;0;1])] [3;2]));
  (*2868*) AddTo n_l1new_bb (Times (Einsum [(T 196,[0;1]); (T 154,[2;0;3;1])] [3;2]) (-1) 1);
  (*2869*) Del (T 154);
  (*2870*) AddTo n_ls1new (Plain (Einsum [(T 196,[0;1]); (n_g'bb'bvv,[2;0;1])] [2]));
  (*2871*) Del (T 196);
  (*2872*) AddTo (T 436) (Plain (Einsum [(T 194,[0;1])] [0;1]));
  (*2873*) Assign (T 437) (Plain (Zeros [6;6;7;7]));
  (*2874*) AddTo (T 437) (Plain (Einsum [(T 436,[0;1]); (n_v'bbbb'ovov,[2;1;3;4])] [2;3;4;0]));
  (*2875*) Del (T 436);
  (*2876*) AddTo (T 440) (Times (Einsum [(T 437,[0;1;2;3])] [1;0;3;2]) (-1) 1);
  (*2877*) Del (T 437);
  (*2878*) AddTo (T 497) (Plain (Einsum [(T 194,[0;1])] [0;1]));
  (*2879*) Del (T 194);
  (*2880*) Assign (T 498) (Plain (Zeros [4;6;5;7]));
  (*2881*) AddTo (T 498) (Plain (Einsum [(T 497,[0;1]); (n_v'aabb'ovov,[2;3;4;1])] [2;4;3;0]));
  (*2882*) Del (T 497);
  (*2883*) AddTo n_l2new_baba (Times (Einsum [(T 498,[0;1;2;3])] [3;2;1;0]) (-1) 1);
  (*2884*) AddTo n_l2new_abab (Times (Einsum [(T 498,[0;1;2;3])] [2;3;0;1]) (-1) 1);
  (*2885*) Del (T 498);
  (*2886*) Assign (T 197) (Plain (Zeros [3;4;5]));
  (*2887*) AddTo (T 197) (Plain (Einsum [(n_s2,[0;1]); (n_g'aa'bov,[0;2;3])] [1;2;3]));
  (*2888*) AddTo (T 200) (Plain (Einsum [(T 197,[0;1;2])] [0;1;2]));
  (*2889*) AddTo (T 503) (Plain (Einsum [(T 197,[0;1;2])] [0;1;2]));
  (*2890*) Del (T 197);
  (*2891*) Assign (T 198) (Plain (Zeros [3;4;5]));
  (*2892*) AddTo (T 198) (Plain (Einsum [(n_u11'bb,[0;1;2]); (n_v'aabb'ovov,[3;4;1;2])] [0;3;4]));
  (*2893*) AddTo (T 200) (Plain (Einsum [(T 198,[0;1;2])] [0;1;2]));
  (*2894*) AddTo (T 212) (Plain (Einsum [(T 198,[0;1;2])] [0;1;2]));
  (*2895*) AddTo (T 334) (Plain (Einsum [(T 198,[0;1;2])] [0;1;2]));
  (*2896*) Assign (T 335) (Plain (Zeros [4;4;5;5]));
  (*2897*) AddTo (T 335) (Plain (Einsum [(n_lu11'aa,[0;1;2]); (T 334,[0;3;4])] [2;3;1;4]));
  (*2898*) Del (T 334);
  (*2899*) AddTo (T 343) (Plain (Einsum [(T 335,[0;1;2;3])] [0;1;2;3]));
  (*2900*) Del (T 335);
  (*2901*) AddTo (T 503) (Plain (Einsum [(T 198,[0;1;2])] [0;1;2]));
  (*2902*) Del (T 198);
  (*2903*) AddTo (T 200) (Plain (Einsum [(n_gc'aa'bov,[0;1;2])] [0;1;2]));
  (*2904*) AddTo (T 201) (Plain (Einsum [(n_t1'aa,[0;1]); (T 200,[2;3;1])] [2;3;0]));
  (*2905*) Del (T 200);
  (*2906*) AddTo (T 201) (Plain (Einsum [(n_gc'aa'boo,[0;1;2])] [0;1;2]));
  (*2907*) AddTo (T 201) (Plain (Einsum [(n_s2,[0;1]); (n_g'aa'boo,[0;2;3])] [1;2;3]));
  (*2908*) AddTo (T 201) (Plain (Einsum [(n_u11'bb,[0;1;2]); (n_v'aabb'ooov,[3;4;1;2])] [0;3;4]));
  (*2909*) AddTo n_l1new_aa (Times (Einsum [(n_lu11'aa,[0;1;2]); (T 201,[0;3;2])] [1;3]) (-1) 1);
  (*2910*) Del (T 201);
  (*2911*) Assign (T 202) (Plain (Zeros [4;5;5;5]));
  (*2912*) AddTo (T 202) (Plain (Einsum [(n_v'aaaa'ovvv,[0;1;2;3])] [0;2;3;1]));
  (*2913*) SubFrom (T 202) (Plain (Einsum [(n_v'aaaa'ovvv,[0;1;2;3])] [0;2;1;3]));
  (*2914*) Assign (T 203) (Plain (Zeros [3;5;5]));
  (*2915*) SubFrom (T 203) (Plain (Einsum [(n_u11'aa,[0;1;2]); (T 202,[1;3;2;4])] [0;3;4]));
  (*2916*) Assign (T 307) (Plain (Zeros [4;4;5;5]));
  (*2917*) AddTo (T 307) (Plain (Einsum [(n_t1'aa,[0;1]); (T 202,[2;3;1;4])] [0;2;3;4]));
  (*2918*) Assign (T 308) (Plain (Zeros [4;4;5;5]));
  (*2919*) SubFrom (T 308) (Plain (Einsum [(T 307,[0;1;2;3])] [0;1;2;3]));
  (*2920*) Del (T 307);
  (*2921*) Assign (T 320) (Plain (Zeros [5;5]));
  (*2922*) AddTo (T 320) (Plain (Einsum [(n_t1'aa,[0;1]); (T 202,[0;2;1;3])] [2;3]));
  (*2923*) Del (T 202);
  (*2924*) SubFrom (T 321) (Plain (Einsum [(T 320,[0;1])] [0;1]));
  (*2925*) Del (T 320);
  (*2926*) Assign (T 322) (Plain (Zeros [4;4;5;5]));
  (*2927*) AddTo (T 322) (Plain (Einsum [(T 321,[0;1]); (n_l2'aaaa,[0;2;3;4])] [3;4;2;1]));
  (*2928*) Del (T 321);
  (*2929*) AddTo (T 343) (Plain (Einsum [(T 322,[0;1;2;3])] [1;0;2;3]));
  (*2930*) Del (T 322);
  (*2931*) AddTo (T 203) (Plain (Einsum [(n_gc'aa'bvv,[0;1;2])] [0;1;2]));
  (*2932*) AddTo (T 203) (Plain (Einsum [(n_s2,[0;1]); (n_g'aa'bvv,[0;2;3])] [1;2;3]));
  (*2933*) AddTo (T 203) (Plain (Einsum [(n_u11'bb,[0;1;2]); (n_v'bbaa'ovvv,[1;2;3;4])] [0;3;4]));
  (*2934*) AddTo n_l1new_aa (Plain (Einsum [(n_lu11'aa,[0;1;2]); (T 203,[0;1;3])] [3;2]));
  (*2935*) Del (T 203);
  (*2936*) Assign (T 204) (Plain (Zeros [3;4;5]));
  (*2937*) AddTo (T 204) (Plain (Einsum [(n_u11'bb,[0;1;2]); (n_l2'abab,[3;2;4;1])] [0;4;3]));
  (*2938*) AddTo (T 206) (Plain (Einsum [(T 204,[0;1;2])] [0;1;2]));
  (*2939*) Assign (T 508) (Plain (Zeros [4;6;5;7]));
  (*2940*) AddTo (T 508) (Plain (Einsum [(n_g'bb'bov,[0;1;2]); (T 206,[0;3;4])] [3;1;4;2]));
  (*2941*) AddTo n_l2new_baba (Plain (Einsum [(T 508,[0;1;2;3])] [3;2;1;0]));
  (*2942*) AddTo n_l2new_abab (Plain (Einsum [(T 508,[0;1;2;3])] [2;3;0;1]));
  (*2943*) Del (T 508);
  (*2944*) AddTo n_l1new_aa (Plain (Einsum [(n_g'aa'bvv,[0;1;2]); (T 206,[0;3;1])] [2;3]));
  (*2945*) AddTo n_l1new_aa (Times (Einsum [(T 206,[0;1;2]); (T 99,[0;3;1])] [2;3]) (-1) 1);
  (*2946*) Del (T 99);
  (*2947*) Del (T 206);
  (*2948*) Assign (T 209) (Plain (Zeros [3;4;5]));
  (*2949*) AddTo (T 209) (Plain (Einsum [(T 204,[0;1;2])] [0;1;2]));
  (*2950*) AddTo (T 331) (Plain (Einsum [(T 204,[0;1;2])] [0;1;2]));
  (*2951*) Del (T 204);
  (*2952*) Assign (T 207) (Plain (Zeros [3;4;5]));
  (*2953*) AddTo (T 207) (Plain (Einsum [(n_s2,[0;1]); (n_lu11'aa,[1;2;3])] [0;3;2]));
  (*2954*) AddTo (T 209) (Plain (Einsum [(T 207,[0;1;2])] [0;1;2]));
  (*2955*) AddTo (T 331) (Plain (Einsum [(T 207,[0;1;2])] [0;1;2]));
  (*2956*) Del (T 207);
  (*2957*) Assign (T 332) (Plain (Zeros [4;4;5;5]));
  (*2958*) AddTo (T 332) (Plain (Einsum [(n_g'aa'bov,[0;1;2]); (T 331,[0;3;4])] [1;3;2;4]));
  (*2959*) Del (T 331);
  (*2960*) AddTo (T 343) (Plain (Einsum [(T 332,[0;1;2;3])] [0;1;2;3]));
  (*2961*) Del (T 332);
  (*2962*) Assign (T 208) (Plain (Zeros [4;4;5;5]));
  (*2963*) AddTo (T 208) (Times (Einsum [(n_l2'aaaa,[0;1;2;3])] [3;2;0;1]) (-1) 1);
  (*2964*) AddTo (T 208) (Plain (Einsum [(n_l2'aaaa,[0;1;2;3])] [3;2;1;0]));
  (*2965*) AddTo (T 209) (Times (Einsum [(n_u11'aa,[0;1;2]); (T 208,[1;3;4;2])] [0;3;4]) (-1) 1);
  (*2966*) AddTo (T 211) (Plain (Einsum [(n_t1'aa,[0;1]); (T 209,[2;3;1])] [2;3;0]));
  (*2967*) Del (T 209);
  (*2968*) AddTo (T 211) (Plain (Einsum [(n_l1'aa,[0;1]); (n_u11'aa,[2;3;0])] [2;1;3]));
  (*2969*) AddTo n_l1new_aa (Times (Einsum [(n_g'aa'bov,[0;1;2]); (T 211,[0;3;1])] [2;3]) (-1) 1);
  (*2970*) Del (T 211);
  (*2971*) AddTo (T 212) (Plain (Einsum [(n_gc'aa'bov,[0;1;2])] [0;1;2]));
  (*2972*) AddTo n_l1new_aa (Times (Einsum [(T 162,[0;1;2]); (T 212,[0;2;3])] [3;1]) (-1) 1);
  (*2973*) Del (T 162);
  (*2974*) Del (T 212);
  (*2975*) Assign (T 213) (Plain (Zeros [4;4;5;5]));
  (*2976*) AddTo (T 213) (Plain (Einsum [(n_v'aaaa'ovvo,[0;1;2;3])] [0;3;2;1]));
  (*2977*) SubFrom (T 213) (Plain (Einsum [(n_v'aaaa'oovv,[0;1;2;3])] [0;1;2;3]));
  (*2978*) AddTo n_l1new_aa (Plain (Einsum [(n_l1'aa,[0;1]); (T 213,[2;1;0;3])] [3;2]));
  (*2979*) AddTo n_lu11new_aa (Plain (Einsum [(n_lu11'aa,[0;1;2]); (T 213,[3;2;1;4])] [0;4;3]));
  (*2980*) Del (T 213);
  (*2981*) Assign (T 214) (Plain (Zeros [3]));
  (*2982*) AddTo (T 214) (Plain (Einsum [(n_s1,[0]); (n_w,[0;1])] [1]));
  (*2983*) AddTo (T 220) (Plain (Einsum [(T 214,[0])] [0]));
  (*2984*) Assign (T 517) (Plain (Zeros [3]));
  (*2985*) AddTo (T 517) (Plain (Einsum [(T 214,[0])] [0]));
  (*2986*) Del (T 214);
  (*2987*) Assign (T 215) (Plain (Zeros [3]));
  (*2988*) AddTo (T 215) (Plain (Einsum [(n_t1'aa,[0;1]); (n_gc'aa'bov,[2;0;1])] [2]));
  (*2989*) AddTo (T 220) (Plain (Einsum [(T 215,[0])] [0]));
  (*2990*) AddTo (T 517) (Plain (Einsum [(T 215,[0])] [0]));
  (*2991*) Del (T 215);
  (*2992*) Assign (T 216) (Plain (Zeros [3]));
  (*2993*) AddTo (T 216) (Plain (Einsum [(n_t1'bb,[0;1]); (n_gc'bb'bov,[2;0;1])] [2]));
  (*2994*) AddTo (T 220) (Plain (Einsum [(T 216,[0])] [0]));
  (*2995*) AddTo (T 517) (Plain (Einsum [(T 216,[0])] [0]));
  (*2996*) Del (T 216);
  (*2997*) AddTo (T 220) (Plain (Einsum [(n_G,[0])] [0]));
  (*2998*) AddTo n_l1new_aa (Plain (Einsum [(T 220,[0]); (n_lu11'aa,[0;1;2])] [1;2]));
  (*2999*) AddTo n_l1new_bb (Plain (Einsum [(T 220,[0]); (n_lu11'bb,[0;1;2])] [1;2]));
  (*3000*) Del (T 220);
  (*3001*) AddTo (T 222) (Plain (Einsum [(n_f'aa'ov,[0;1])] [0;1]));
  (*3002*) AddTo n_l1new_aa (Times (Einsum [(T 221,[0;1]); (T 222,[1;2])] [2;0]) (-1) 1);
  (*3003*) Del (T 221);
  (*3004*) Del (T 222);
  (*3005*) Assign (T 223) (Plain (Zeros [3]));
  (*3006*) AddTo (T 223) (Plain (Einsum [(n_ls1,[0]); (n_s2,[1;0])] [1]));
  (*3007*) Assign (T 226) (Plain (Zeros [3]));
  (*3008*) AddTo (T 226) (Plain (Einsum [(T 223,[0])] [0]));
  (*3009*) Del (T 223);
  (*3010*) Assign (T 224) (Plain (Zeros [3]));
  (*3011*) AddTo (T 224) (Plain (Einsum [(n_l1'aa,[0;1]); (n_u11'aa,[2;1;0])] [2]));
  (*3012*) AddTo (T 226) (Plain (Einsum [(T 224,[0])] [0]));
  (*3013*) Del (T 224);
  (*3014*) Assign (T 225) (Plain (Zeros [3]));
  (*3015*) AddTo (T 225) (Plain (Einsum [(n_l1'bb,[0;1]); (n_u11'bb,[2;1;0])] [2]));
  (*3016*) AddTo (T 226) (Plain (Einsum [(T 225,[0])] [0]));
  (*3017*) Del (T 225);
  (*3018*) AddTo (T 226) (Plain (Einsum [(n_s1,[0])] [0]));
  (*3019*) AddTo n_l1new_aa (Plain (Einsum [(T 226,[0]); (n_g'aa'bov,[0;1;2])] [2;1]));
  (*3020*) AddTo n_l1new_bb (Plain (Einsum [(T 226,[0]); (n_g'bb'bov,[0;1;2])] [2;1]));
  (*3021*) Del (T 226);
  (*3022*) Assign (T 227) (Plain (Zeros [6;6;5;5]));
  (*3023*) AddTo (T 227) (Plain (Einsum [(n_l2'abab,[0;1;2;3]); (n_t2'abab,[2;4;5;1])] [3;4;0;5]));
  (*3024*) AddTo n_l1new_bb (Times (Einsum [(n_v'bbaa'ovvv,[0;1;2;3]); (T 227,[4;0;2;3])] [1;4]) (-1) 1);
  (*3025*) Del (T 227);
  (*3026*) AddTo (T 228) (Plain (Einsum [(n_f'bb'ov,[0;1])] [0;1]));
  (*3027*) Assign (T 229) (Plain (Zeros [6;6;6;7]));
  (*3028*) AddTo (T 229) (Plain (Einsum [(T 228,[0;1]); (n_t2'bbbb,[2;3;1;4])] [2;3;0;4]));
  (*3029*) Del (T 228);
  (*3030*) Assign (T 230) (Plain (Zeros [6;6;6;7]));
  (*3031*) AddTo (T 230) (Plain (Einsum [(T 229,[0;1;2;3])] [2;1;0;3]));
  (*3032*) Del (T 229);
  (*3033*) AddTo (T 230) (Times (Einsum [(n_v'bbbb'oovo,[0;1;2;3])] [0;1;3;2]) (-1) 1);
  (*3034*) AddTo (T 247) (Times (Einsum [(T 230,[0;1;2;3])] [1;0;2;3]) (-1) 1);
  (*3035*) AddTo (T 247) (Plain (Einsum [(T 230,[0;1;2;3])] [2;0;1;3]));
  (*3036*) Del (T 230);
  (*3037*) Assign (T 231) (Plain (Zeros [6;6;6;7]));
  (*3038*) AddTo (T 231) (Plain (Einsum [(n_t2'bbbb,[0;1;2;3]); (n_v'bbbb'ovvv,[4;2;5;3])] [0;1;4;5]));
  (*3039*) AddTo (T 240) (Times (Einsum [(T 231,[0;1;2;3])] [0;1;2;3]) (-1) 1);
  (*3040*) Del (T 231);
  (*3041*) Assign (T 232) (Plain (Zeros [6;6;7;7]));
  (*3042*) AddTo (T 232) (Plain (Einsum [(n_t1'bb,[0;1]); (n_v'bbbb'ovvv,[2;1;3;4])] [0;2;3;4]));
  (*3043*) Assign (T 233) (Plain (Zeros [6;6;6;7]));
  (*3044*) AddTo (T 233) (Plain (Einsum [(n_t1'bb,[0;1]); (T 232,[2;3;4;1])] [2;0;3;4]));
  (*3045*) Del (T 232);
  (*3046*) AddTo (T 240) (Times (Einsum [(T 233,[0;1;2;3])] [0;1;2;3]) (-1) 1);
  (*3047*) Del (T 233);
  (*3048*) Assign (T 236) (Plain (Zeros [6;6;6;6]));
  (*3049*) AddTo (T 236) (Plain (Einsum [(n_t2'bbbb,[0;1;2;3]); (n_v'bbbb'ovov,[4;3;5;2])] [0;1;5;4]));
  (*3050*) AddTo (T 238) (Plain (Einsum [(T 236,[0;1;2;3])] [1;0;3;2]));
  (*3051*) Assign (T 239) (Plain (Zeros [6;6;6;7]));
  (*3052*) AddTo (T 239) (Plain (Einsum [(n_t1'bb,[0;1]); (T 238,[2;3;0;4])] [2;3;4;1]));
  (*3053*) Del (T 238);
  (*3054*) AddTo (T 240) (Plain (Einsum [(T 239,[0;1;2;3])] [1;0;2;3]));
  (*3055*) Del (T 239);
  (*3056*) AddTo (T 247) (Times (Einsum [(T 240,[0;1;2;3])] [0;2;1;3]) (-1) 1);
  (*3057*) AddTo (T 247) (Plain (Einsum [(T 240,[0;1;2;3])] [1;2;0;3]));
  (*3058*) Del (T 240);
  (*3059*) AddTo (T 419) (Plain (Einsum [(T 236,[0;1;2;3])] [1;0;3;2]));
  (*3060*) Del (T 236);
  (*3061*) Assign (T 420) (Plain (Zeros [6;6;7;7]));
  (*3062*) AddTo (T 420) (Plain (Einsum [(n_l2'bbbb,[0;1;2;3]); (T 419,[2;3;4;5])] [4;5;0;1]));
  (*3063*) Del (T 419);
  (*3064*) AddTo (T 421) (Plain (Einsum [(T 420,[0;1;2;3])] [0;1;2;3]));
  (*3065*) Del (T 420);
  (*3066*) AddTo (T 241) (Plain (Einsum [(n_v'bbbb'ooov,[0;1;2;3])] [1;0;2;3]));
  (*3067*) AddTo (T 241) (Times (Einsum [(n_v'bbbb'ooov,[0;1;2;3])] [1;2;0;3]) (-1) 1);
  (*3068*) Assign (T 242) (Plain (Zeros [6;6;6;7]));
  (*3069*) AddTo (T 242) (Plain (Einsum [(T 241,[0;1;2;3]); (T 36,[1;4;5;3])] [4;0;2;5]));
  (*3070*) Del (T 241);
  (*3071*) Del (T 36);
  (*3072*) AddTo (T 247) (Plain (Einsum [(T 242,[0;1;2;3])] [1;2;0;3]));
  (*3073*) AddTo (T 258) (Plain (Einsum [(T 242,[0;1;2;3])] [1;2;0;3]));
  (*3074*) Del (T 242);
  (*3075*) Assign (T 245) (Plain (Zeros [6;6;6;6]));
  (*3076*) AddTo (T 245) (Plain (Einsum [(n_t1'bb,[0;1]); (n_v'bbbb'ooov,[2;3;4;1])] [0;2;4;3]));
  (*3077*) Assign (T 246) (Plain (Zeros [6;6;6;6]));
  (*3078*) AddTo (T 246) (Plain (Einsum [(T 245,[0;1;2;3])] [1;2;3;0]));
  (*3079*) AddTo (T 246) (Times (Einsum [(T 245,[0;1;2;3])] [2;1;3;0]) (-1) 1);
  (*3080*) Assign (T 257) (Plain (Zeros [6;6;6;6]));
  (*3081*) AddTo (T 257) (Times (Einsum [(T 245,[0;1;2;3])] [0;1;2;3]) (-1) 1);
  (*3082*) AddTo (T 257) (Plain (Einsum [(T 245,[0;1;2;3])] [0;2;1;3]));
  (*3083*) AddTo (T 258) (Times (Einsum [(n_t1'bb,[0;1]); (T 257,[2;3;0;4])] [2;3;4;1]) (-1) 1);
  (*3084*) Del (T 257);
  (*3085*) AddTo n_l1new_bb (Plain (Einsum [(n_l2'bbbb,[0;1;2;3]); (T 258,[3;4;2;1])] [0;4]));
  (*3086*) Del (T 258);
  (*3087*) Assign (T 376) (Plain (Zeros [6;6;7;7]));
  (*3088*) AddTo (T 376) (Plain (Einsum [(n_l2'bbbb,[0;1;2;3]); (T 245,[3;4;5;2])] [4;5;1;0]));
  (*3089*) Del (T 245);
  (*3090*) SubFrom (T 416) (Plain (Einsum [(T 376,[0;1;2;3])] [0;1;2;3]));
  (*3091*) Del (T 376);
  (*3092*) AddTo (T 246) (Times (Einsum [(n_v'bbbb'oooo,[0;1;2;3])] [2;0;1;3]) (-1) 1);
  (*3093*) AddTo (T 246) (Plain (Einsum [(n_v'bbbb'oooo,[0;1;2;3])] [2;0;3;1]));
  (*3094*) AddTo (T 247) (Times (Einsum [(n_t1'bb,[0;1]); (T 246,[0;2;3;4])] [4;2;3;1]) (-1) 1);
  (*3095*) Del (T 246);
  (*3096*) AddTo n_l1new_bb (Times (Einsum [(n_l2'bbbb,[0;1;2;3]); (T 247,[3;4;2;0])] [1;4]) (-1) 1);
  (*3097*) Del (T 247);
  (*3098*) AddTo (T 248) (Plain (Einsum [(n_v'bbbb'ooov,[0;1;2;3])] [0;2;1;3]));
  (*3099*) AddTo (T 248) (Times (Einsum [(n_v'bbbb'ooov,[0;1;2;3])] [2;0;1;3]) (-1) 1);
  (*3100*) AddTo (T 251) (Times (Einsum [(n_t2'abab,[0;1;2;3]); (T 248,[1;4;5;3])] [0;4;5;2]) (-1) 1);
  (*3101*) Del (T 248);
  (*3102*) Assign (T 249) (Plain (Zeros [6;6;5;5]));
  (*3103*) AddTo (T 249) (Plain (Einsum [(n_t1'bb,[0;1]); (n_v'bbaa'ovvv,[2;1;3;4])] [0;2;3;4]));
  (*3104*) Assign (T 250) (Plain (Zeros [6;6;5;5]));
  (*3105*) AddTo (T 250) (Plain (Einsum [(T 249,[0;1;2;3])] [1;0;2;3]));
  (*3106*) Assign (T 472) (Plain (Zeros [6;6;5;5]));
  (*3107*) AddTo (T 472) (Plain (Einsum [(T 249,[0;1;2;3])] [1;0;2;3]));
  (*3108*) Del (T 249);
  (*3109*) AddTo (T 250) (Plain (Einsum [(n_v'bbaa'oovv,[0;1;2;3])] [0;1;2;3]));
  (*3110*) AddTo (T 251) (Plain (Einsum [(n_t1'aa,[0;1]); (T 250,[2;3;4;1])] [0;2;3;4]));
  (*3111*) Del (T 250);
  (*3112*) AddTo (T 251) (Plain (Einsum [(n_v'bbaa'oovo,[0;1;2;3])] [3;0;1;2]));
  (*3113*) AddTo (T 251) (Plain (Einsum [(n_t1'bb,[0;1]); (n_v'bbaa'ovvo,[2;1;3;4])] [4;2;0;3]));
  (*3114*) AddTo (T 251) (Plain (Einsum [(n_t2'abab,[0;1;2;3]); (n_v'bbaa'ovvv,[4;3;5;2])] [0;4;1;5]));
  (*3115*) AddTo n_l1new_bb (Times (Einsum [(n_l2'abab,[0;1;2;3]); (T 251,[2;4;3;0])] [1;4]) (-1) 1);
  (*3116*) Del (T 251);
  (*3117*) Assign (T 252) (Plain (Zeros [6;6;7;7]));
  (*3118*) AddTo (T 252) (Plain (Einsum [(n_l2'abab,[0;1;2;3]); (n_t2'abab,[2;4;0;5])] [3;4;1;5]));
  (*3119*) Assign (T 255) (Plain (Zeros [6;6;7;7]));
  (*3120*) AddTo (T 255) (Plain (Einsum [(T 252,[0;1;2;3])] [0;1;2;3]));
  (*3121*) Del (T 252);
  (*3122*) Assign (T 253) (Plain (Zeros [6;6;7;7]));
  (*3123*) AddTo (T 253) (Times (Einsum [(n_l2'bbbb,[0;1;2;3])] [3;2;0;1]) (-1) 1);
  (*3124*) AddTo (T 253) (Plain (Einsum [(n_l2'bbbb,[0;1;2;3])] [3;2;1;0]));
  (*3125*) Assign (T 254) (Plain (Zeros [6;6;7;7]));
  (*3126*) AddTo (T 254) (Plain (Einsum [(T 253,[0;1;2;3]); (T 55,[0;4;3;5])] [4;1;5;2]));
  (*3127*) Del (T 55);
  (*3128*) AddTo (T 255) (Plain (Einsum [(T 254,[0;1;2;3])] [1;0;3;2]));
  (*3129*) Del (T 254);
  (*3130*) Assign (T 422) (Plain (Zeros [6;6;7;7]));
  (*3131*) AddTo (T 422) (Plain (Einsum [(T 255,[0;1;2;3]); (T 93,[1;4;3;5])] [4;0;5;2]));
  (*3132*) Del (T 93);
  (*3133*) AddTo (T 440) (Times (Einsum [(T 422,[0;1;2;3])] [1;0;3;2]) (-1) 1);
  (*3134*) Del (T 422);
  (*3135*) Assign (T 293) (Plain (Zeros [3;6;7]));
  (*3136*) AddTo (T 293) (Times (Einsum [(n_u11'bb,[0;1;2]); (T 253,[1;3;4;2])] [0;3;4]) (-1) 1);
  (*3137*) Assign (T 426) (Plain (Zeros [4;6;5;7]));
  (*3138*) AddTo (T 426) (Plain (Einsum [(n_t2'abab,[0;1;2;3]); (T 253,[1;4;5;3])] [0;4;2;5]));
  (*3139*) Assign (T 427) (Plain (Zeros [6;6;7;7]));
  (*3140*) AddTo (T 427) (Times (Einsum [(n_v'aabb'ovov,[0;1;2;3]); (T 426,[0;4;1;5])] [2;4;3;5]) (-1) 1);
  (*3141*) Del (T 426);
  (*3142*) AddTo (T 440) (Times (Einsum [(T 427,[0;1;2;3])] [1;0;3;2]) (-1) 1);
  (*3143*) Del (T 427);
  (*3144*) Assign (T 256) (Plain (Zeros [6;7;7;7]));
  (*3145*) AddTo (T 256) (Times (Einsum [(n_v'bbbb'ovvv,[0;1;2;3])] [0;2;3;1]) (-1) 1);
  (*3146*) AddTo (T 256) (Plain (Einsum [(n_v'bbbb'ovvv,[0;1;2;3])] [0;2;1;3]));
  (*3147*) Assign (T 464) (Plain (Zeros [6;6;7;7]));
  (*3148*) AddTo (T 464) (Plain (Einsum [(n_t1'bb,[0;1]); (T 256,[2;3;1;4])] [0;2;3;4]));
  (*3149*) AddTo (T 465) (Times (Einsum [(T 464,[0;1;2;3])] [1;0;2;3]) (-1) 1);
  (*3150*) Del (T 464);
  (*3151*) AddTo n_l1new_bb (Times (Einsum [(T 255,[0;1;2;3]); (T 256,[1;2;4;3])] [4;0]) (-1) 1);
  (*3152*) Del (T 255);
  (*3153*) AddTo n_l1new_bb (Plain (Einsum [(T 256,[0;1;2;3]); (T 264,[4;0;1;3])] [2;4]));
  (*3154*) Del (T 256);
  (*3155*) Del (T 264);
  (*3156*) Assign (T 259) (Plain (Zeros [6;6;7;7]));
  (*3157*) AddTo (T 259) (Plain (Einsum [(n_l2'bbbb,[0;1;2;3])] [3;2;0;1]));
  (*3158*) AddTo (T 259) (Times (Einsum [(n_l2'bbbb,[0;1;2;3])] [3;2;1;0]) (-1) 1);
  (*3159*) AddTo (T 260) (Times (Einsum [(n_t2'abab,[0;1;2;3]); (T 259,[1;4;5;3])] [0;4;2;5]) (-1) 1);
  (*3160*) Del (T 259);
  (*3161*) AddTo n_l1new_bb (Times (Einsum [(n_v'aabb'ovvv,[0;1;2;3]); (T 260,[0;4;1;2])] [3;4]) (-1) 1);
  (*3162*) Del (T 260);
  (*3163*) Assign (T 265) (Plain (Zeros [6;7;7;7]));
  (*3164*) AddTo (T 265) (Plain (Einsum [(n_t1'bb,[0;1]); (n_v'bbbb'vvvv,[2;1;3;4])] [0;3;2;4]));
  (*3165*) Assign (T 266) (Plain (Zeros [6;7;7;7]));
  (*3166*) AddTo (T 266) (Times (Einsum [(T 265,[0;1;2;3])] [0;1;2;3]) (-1) 1);
  (*3167*) Del (T 265);
  (*3168*) AddTo (T 266) (Plain (Einsum [(n_v'bbbb'vovv,[0;1;2;3])] [1;0;2;3]));
  (*3169*) Assign (T 267) (Plain (Zeros [6;7;7;7]));
  (*3170*) AddTo (T 267) (Times (Einsum [(T 266,[0;1;2;3])] [0;1;2;3]) (-1) 1);
  (*3171*) AddTo (T 267) (Plain (Einsum [(T 266,[0;1;2;3])] [0;2;1;3]));
  (*3172*) Del (T 266);
  (*3173*) AddTo n_l1new_bb (Times (Einsum [(n_l2'bbbb,[0;1;2;3]); (T 267,[2;0;1;4])] [4;3]) (-1) 1);
  (*3174*) Del (T 267);
  (*3175*) AddTo (T 268) (Times (Einsum [(n_l1'bb,[0;1]); (n_t2'abab,[2;3;4;0])] [2;1;3;4]) (-1) 1);
  (*3176*) AddTo n_l1new_bb (Plain (Einsum [(n_v'aabb'ovov,[0;1;2;3]); (T 268,[0;4;2;1])] [3;4]));
  (*3177*) Del (T 268);
  (*3178*) Assign (T 269) (Plain (Zeros [6;6;6;7]));
  (*3179*) AddTo (T 269) (Plain (Einsum [(n_l1'bb,[0;1]); (n_t2'bbbb,[2;3;0;4])] [1;3;2;4]));
  (*3180*) AddTo (T 272) (Times (Einsum [(T 269,[0;1;2;3])] [0;1;2;3]) (9999999999999993) 10000000000000000);
  (*3181*) Del (T 269);
  (*3182*) Assign (T 273) (Plain (Zeros [6;6;6;7]));
  (*3183*) AddTo (T 273) (Times (Einsum [(T 272,[0;1;2;3])] [0;1;2;3]) (-1) 1);
  (*3184*) AddTo (T 273) (Plain (Einsum [(T 272,[0;1;2;3])] [0;2;1;3]));
  (*3185*) Del (T 272);
  (*3186*) AddTo n_l1new_bb (Plain (Einsum [(n_v'bbbb'ovov,[0;1;2;3]); (T 273,[4;0;2;1])] [3;4]));
  (*3187*) Del (T 273);
  (*3188*) Assign (T 274) (Plain (Zeros [4;5;7;7]));
  (*3189*) AddTo (T 274) (Plain (Einsum [(n_v'aabb'vovv,[0;1;2;3])] [1;0;2;3]));
  (*3190*) AddTo (T 274) (Plain (Einsum [(n_t1'aa,[0;1]); (n_v'aabb'vvvv,[2;1;3;4])] [0;2;3;4]));
  (*3191*) AddTo n_l1new_bb (Plain (Einsum [(n_l2'abab,[0;1;2;3]); (T 274,[2;0;1;4])] [4;3]));
  (*3192*) Del (T 274);
  (*3193*) Assign (T 275) (Plain (Zeros [6;6;6;6]));
  (*3194*) AddTo (T 275) (Plain (Einsum [(n_l2'bbbb,[0;1;2;3]); (n_t2'bbbb,[4;5;0;1])] [2;3;4;5]));
  (*3195*) Assign (T 276) (Plain (Zeros [6;6;6;6]));
  (*3196*) AddTo (T 276) (Plain (Einsum [(T 275,[0;1;2;3])] [1;0;2;3]));
  (*3197*) AddTo (T 276) (Times (Einsum [(T 275,[0;1;2;3])] [1;0;3;2]) (-1) 1);
  (*3198*) Assign (T 417) (Plain (Zeros [6;6;7;7]));
  (*3199*) AddTo (T 417) (Plain (Einsum [(n_v'bbbb'ovov,[0;1;2;3]); (T 275,[4;5;0;2])] [5;4;3;1]));
  (*3200*) Del (T 275);
  (*3201*) AddTo (T 421) (Plain (Einsum [(T 417,[0;1;2;3])] [0;1;2;3]));
  (*3202*) Del (T 417);
  (*3203*) Assign n_l2new_bbbb (Plain (Zeros [7;7;6;6]));
  (*3204*) AddTo n_l2new_bbbb (Plain (Einsum [(T 421,[0;1;2;3])] [2;3;0;1]));
  (*3205*) AddTo n_l2new_bbbb (Times (Einsum [(T 421,[0;1;2;3])] [3;2;0;1]) (-1) 1);
  (*3206*) Del (T 421);
  (*3207*) AddTo (T 277) (Plain (Einsum [(n_v'bbbb'ooov,[0;1;2;3])] [0;2;1;3]));
  (*3208*) AddTo n_l1new_bb (Times (Einsum [(T 276,[0;1;2;3]); (T 277,[2;3;0;4])] [4;1]) (-1) 1);
  (*3209*) Del (T 276);
  (*3210*) Del (T 277);
  (*3211*) Assign (T 278) (Plain (Zeros [4;6;5;7]));
  (*3212*) AddTo (T 278) (Plain (Einsum [(n_t1'aa,[0;1]); (n_v'bbaa'ovvv,[2;3;4;1])] [0;2;4;3]));
  (*3213*) Assign (T 279) (Plain (Zeros [4;6;5;7]));
  (*3214*) AddTo (T 279) (Plain (Einsum [(T 278,[0;1;2;3])] [0;1;2;3]));
  (*3215*) Assign (T 384) (Plain (Zeros [4;6;5;7]));
  (*3216*) AddTo (T 384) (Plain (Einsum [(T 278,[0;1;2;3])] [0;1;2;3]));
  (*3217*) AddTo (T 451) (Plain (Einsum [(T 278,[0;1;2;3])] [0;1;2;3]));
  (*3218*) Del (T 278);
  (*3219*) AddTo (T 279) (Plain (Einsum [(n_v'bbaa'ovvo,[0;1;2;3])] [3;0;2;1]));
  (*3220*) AddTo n_l1new_bb (Times (Einsum [(T 2,[0;1;2;3]); (T 279,[0;2;3;4])] [4;1]) (-1) 1);
  (*3221*) Del (T 279);
  (*3222*) Assign (T 280) (Plain (Zeros [6;6;7;7]));
  (*3223*) SubFrom (T 280) (Plain (Einsum [(n_l2'bbbb,[0;1;2;3])] [3;2;0;1]));
  (*3224*) AddTo (T 280) (Plain (Einsum [(n_l2'bbbb,[0;1;2;3])] [3;2;1;0]));
  (*3225*) Assign (T 290) (Plain (Zeros [3;6;7]));
  (*3226*) AddTo (T 290) (Plain (Einsum [(n_u11'bb,[0;1;2]); (T 280,[1;3;4;2])] [0;3;4]));
  (*3227*) Assign (T 291) (Plain (Zeros [3;6;7]));
  (*3228*) SubFrom (T 291) (Plain (Einsum [(T 290,[0;1;2])] [0;1;2]));
  (*3229*) Assign (T 403) (Plain (Zeros [3;6;7]));
  (*3230*) SubFrom (T 403) (Plain (Einsum [(T 290,[0;1;2])] [0;1;2]));
  (*3231*) Del (T 290);
  (*3232*) AddTo n_l1new_bb (Times (Einsum [(T 159,[0;1]); (T 280,[0;2;3;1])] [3;2]) (-1) 1);
  (*3233*) Del (T 159);
  (*3234*) SubFrom n_lu11new_bb (Plain (Einsum [(n_g'bb'bvo,[0;1;2]); (T 280,[2;3;4;1])] [0;4;3]));
  (*3235*) Assign (T 282) (Plain (Zeros [3;6;7]));
  (*3236*) AddTo (T 282) (Plain (Einsum [(n_s2,[0;1]); (n_g'bb'bov,[0;2;3])] [1;2;3]));
  (*3237*) AddTo (T 285) (Plain (Einsum [(T 282,[0;1;2])] [0;1;2]));
  (*3238*) Assign (T 505) (Plain (Zeros [3;6;7]));
  (*3239*) AddTo (T 505) (Plain (Einsum [(T 282,[0;1;2])] [0;1;2]));
  (*3240*) Del (T 282);
  (*3241*) Assign (T 283) (Plain (Zeros [3;6;7]));
  (*3242*) AddTo (T 283) (Plain (Einsum [(n_u11'aa,[0;1;2]); (n_v'aabb'ovov,[1;2;3;4])] [0;3;4]));
  (*3243*) AddTo (T 285) (Plain (Einsum [(T 283,[0;1;2])] [0;1;2]));
  (*3244*) AddTo (T 296) (Plain (Einsum [(T 283,[0;1;2])] [0;1;2]));
  (*3245*) Assign (T 407) (Plain (Zeros [3;6;7]));
  (*3246*) AddTo (T 407) (Plain (Einsum [(T 283,[0;1;2])] [0;1;2]));
  (*3247*) AddTo (T 505) (Plain (Einsum [(T 283,[0;1;2])] [0;1;2]));
  (*3248*) Del (T 283);
  (*3249*) AddTo (T 285) (Plain (Einsum [(n_gc'bb'bov,[0;1;2])] [0;1;2]));
  (*3250*) AddTo (T 286) (Plain (Einsum [(n_t1'bb,[0;1]); (T 285,[2;3;1])] [2;3;0]));
  (*3251*) Del (T 285);
  (*3252*) AddTo (T 286) (Plain (Einsum [(n_gc'bb'boo,[0;1;2])] [0;1;2]));
  (*3253*) AddTo (T 286) (Plain (Einsum [(n_s2,[0;1]); (n_g'bb'boo,[0;2;3])] [1;2;3]));
  (*3254*) AddTo (T 286) (Plain (Einsum [(n_u11'aa,[0;1;2]); (n_v'aabb'ovoo,[1;2;3;4])] [0;3;4]));
  (*3255*) AddTo n_l1new_bb (Times (Einsum [(n_lu11'bb,[0;1;2]); (T 286,[0;3;2])] [1;3]) (-1) 1);
  (*3256*) Del (T 286);
  (*3257*) Assign (T 287) (Plain (Zeros [6;7;7;7]));
  (*3258*) AddTo (T 287) (Plain (Einsum [(n_v'bbbb'ovvv,[0;1;2;3])] [0;2;3;1]));
  (*3259*) SubFrom (T 287) (Plain (Einsum [(n_v'bbbb'ovvv,[0;1;2;3])] [0;2;1;3]));
  (*3260*) Assign (T 288) (Plain (Zeros [3;7;7]));
  (*3261*) SubFrom (T 288) (Plain (Einsum [(n_u11'bb,[0;1;2]); (T 287,[1;3;2;4])] [0;3;4]));
  (*3262*) Assign (T 379) (Plain (Zeros [6;6;7;7]));
  (*3263*) AddTo (T 379) (Plain (Einsum [(n_t1'bb,[0;1]); (T 287,[2;3;1;4])] [0;2;3;4]));
  (*3264*) Assign (T 380) (Plain (Zeros [6;6;7;7]));
  (*3265*) SubFrom (T 380) (Plain (Einsum [(T 379,[0;1;2;3])] [0;1;2;3]));
  (*3266*) Del (T 379);
  (*3267*) Assign (T 392) (Plain (Zeros [7;7]));
  (*3268*) AddTo (T 392) (Plain (Einsum [(n_t1'bb,[0;1]); (T 287,[0;2;1;3])] [2;3]));
  (*3269*) Del (T 287);
  (*3270*) SubFrom (T 393) (Plain (Einsum [(T 392,[0;1])] [0;1]));
  (*3271*) Del (T 392);
  (*3272*) Assign (T 394) (Plain (Zeros [6;6;7;7]));
  (*3273*) AddTo (T 394) (Plain (Einsum [(T 393,[0;1]); (n_l2'bbbb,[0;2;3;4])] [3;4;2;1]));
  (*3274*) Del (T 393);
  (*3275*) AddTo (T 416) (Plain (Einsum [(T 394,[0;1;2;3])] [1;0;2;3]));
  (*3276*) Del (T 394);
  (*3277*) AddTo (T 288) (Plain (Einsum [(n_gc'bb'bvv,[0;1;2])] [0;1;2]));
  (*3278*) AddTo (T 288) (Plain (Einsum [(n_s2,[0;1]); (n_g'bb'bvv,[0;2;3])] [1;2;3]));
  (*3279*) AddTo (T 288) (Plain (Einsum [(n_u11'aa,[0;1;2]); (n_v'aabb'ovvv,[1;2;3;4])] [0;3;4]));
  (*3280*) AddTo n_l1new_bb (Plain (Einsum [(n_lu11'bb,[0;1;2]); (T 288,[0;1;3])] [3;2]));
  (*3281*) Del (T 288);
  (*3282*) Assign (T 289) (Plain (Zeros [3;6;7]));
  (*3283*) AddTo (T 289) (Plain (Einsum [(n_u11'aa,[0;1;2]); (n_l2'abab,[2;3;1;4])] [0;4;3]));
  (*3284*) AddTo (T 291) (Plain (Einsum [(T 289,[0;1;2])] [0;1;2]));
  (*3285*) Assign (T 507) (Plain (Zeros [4;6;5;7]));
  (*3286*) AddTo (T 507) (Plain (Einsum [(n_g'aa'bov,[0;1;2]); (T 291,[0;3;4])] [1;3;2;4]));
  (*3287*) AddTo n_l2new_baba (Plain (Einsum [(T 507,[0;1;2;3])] [3;2;1;0]));
  (*3288*) AddTo n_l2new_abab (Plain (Einsum [(T 507,[0;1;2;3])] [2;3;0;1]));
  (*3289*) Del (T 507);
  (*3290*) AddTo n_l1new_bb (Plain (Einsum [(n_g'bb'bvv,[0;1;2]); (T 291,[0;3;1])] [2;3]));
  (*3291*) AddTo n_l1new_bb (Times (Einsum [(T 139,[0;1;2]); (T 291,[0;2;3])] [3;1]) (-1) 1);
  (*3292*) Del (T 139);
  (*3293*) Del (T 291);
  (*3294*) AddTo (T 293) (Plain (Einsum [(T 289,[0;1;2])] [0;1;2]));
  (*3295*) AddTo (T 403) (Plain (Einsum [(T 289,[0;1;2])] [0;1;2]));
  (*3296*) Del (T 289);
  (*3297*) Assign (T 292) (Plain (Zeros [3;6;7]));
  (*3298*) AddTo (T 292) (Plain (Einsum [(n_s2,[0;1]); (n_lu11'bb,[1;2;3])] [0;3;2]));
  (*3299*) AddTo (T 293) (Plain (Einsum [(T 292,[0;1;2])] [0;1;2]));
  (*3300*) AddTo (T 295) (Plain (Einsum [(n_t1'bb,[0;1]); (T 293,[2;3;1])] [2;3;0]));
  (*3301*) Del (T 293);
  (*3302*) AddTo (T 403) (Plain (Einsum [(T 292,[0;1;2])] [0;1;2]));
  (*3303*) Del (T 292);
  (*3304*) Assign (T 404) (Plain (Zeros [6;6;7;7]));
  (*3305*) AddTo (T 404) (Plain (Einsum [(n_g'bb'bov,[0;1;2]); (T 403,[0;3;4])] [1;3;2;4]));
  (*3306*) Del (T 403);
  (*3307*) AddTo (T 416) (Plain (Einsum [(T 404,[0;1;2;3])] [0;1;2;3]));
  (*3308*) Del (T 404);
  (*3309*) AddTo (T 295) (Plain (Einsum [(n_l1'bb,[0;1]); (n_u11'bb,[2;3;0])] [2;1;3]));
  (*3310*) AddTo n_l1new_bb (Times (Einsum [(n_g'bb'bov,[0;1;2]); (T 295,[0;3;1])] [2;3]) (-1) 1);
  (*3311*) Del (T 295);
  (*3312*) AddTo (T 296) (Plain (Einsum [(n_gc'bb'bov,[0;1;2])] [0;1;2]));
  (*3313*) AddTo n_l1new_bb (Times (Einsum [(T 179,[0;1;2]); (T 296,[0;2;3])] [3;1]) (-1) 1);
  (*3314*) Del (T 179);
  (*3315*) Del (T 296);
  (*3316*) Assign (T 297) (Plain (Zeros [6;6;7;7]));
  (*3317*) AddTo (T 297) (Plain (Einsum [(n_v'bbbb'ovvo,[0;1;2;3])] [0;3;2;1]));
  (*3318*) SubFrom (T 297) (Plain (Einsum [(n_v'bbbb'oovv,[0;1;2;3])] [0;1;2;3]));
  (*3319*) AddTo n_l1new_bb (Plain (Einsum [(n_l1'bb,[0;1]); (T 297,[2;1;0;3])] [3;2]));
  (*3320*) AddTo n_lu11new_bb (Plain (Einsum [(n_lu11'bb,[0;1;2]); (T 297,[3;2;1;4])] [0;4;3]));
  (*3321*) Del (T 297);
  (*3322*) Assign (T 299) (Plain (Zeros [4;4;5;5]));
  (*3323*) AddTo (T 299) (Plain (Einsum [(n_gc'aa'bov,[0;1;2]); (n_lu11'aa,[0;3;4])] [1;4;2;3]));
  (*3324*) AddTo (T 343) (Plain (Einsum [(T 299,[0;1;2;3])] [0;1;2;3]));
  (*3325*) Del (T 299);
  (*3326*) Assign (T 300) (Plain (Zeros [4;4;5;5]));
  (*3327*) AddTo (T 300) (Plain (Einsum [(n_l1'aa,[0;1]); (n_v'aaaa'ovvv,[2;3;0;4])] [1;2;3;4]));
  (*3328*) SubFrom (T 343) (Plain (Einsum [(T 300,[0;1;2;3])] [0;1;2;3]));
  (*3329*) Del (T 300);
  (*3330*) Assign (T 306) (Plain (Zeros [4;4;5;5]));
  (*3331*) AddTo (T 306) (Plain (Einsum [(n_l2'aaaa,[0;1;2;3])] [3;2;0;1]));
  (*3332*) SubFrom (T 306) (Plain (Einsum [(n_l2'aaaa,[0;1;2;3])] [3;2;1;0]));
  (*3333*) AddTo (T 308) (Plain (Einsum [(n_v'aaaa'oovv,[0;1;2;3])] [1;0;2;3]));
  (*3334*) SubFrom (T 308) (Plain (Einsum [(n_v'aaaa'ovvo,[0;1;2;3])] [3;0;2;1]));
  (*3335*) Assign (T 309) (Plain (Zeros [4;4;5;5]));
  (*3336*) AddTo (T 309) (Plain (Einsum [(T 306,[0;1;2;3]); (T 308,[0;4;2;5])] [1;4;3;5]));
  (*3337*) Del (T 306);
  (*3338*) Del (T 308);
  (*3339*) AddTo (T 343) (Plain (Einsum [(T 309,[0;1;2;3])] [0;1;2;3]));
  (*3340*) Del (T 309);
  (*3341*) Assign (T 310) (Plain (Zeros [6;6;7;7]));
  (*3342*) SubFrom (T 310) (Plain (Einsum [(n_t2'bbbb,[0;1;2;3])] [1;0;2;3]));
  (*3343*) AddTo (T 310) (Plain (Einsum [(n_t2'bbbb,[0;1;2;3])] [1;0;3;2]));
  (*3344*) Assign (T 311) (Plain (Zeros [4;6;5;7]));
  (*3345*) AddTo (T 311) (Plain (Einsum [(n_v'aabb'ovov,[0;1;2;3]); (T 310,[2;4;5;3])] [0;4;1;5]));
  (*3346*) SubFrom (T 312) (Plain (Einsum [(T 311,[0;1;2;3])] [0;1;2;3]));
  (*3347*) Del (T 311);
  (*3348*) Assign (T 528) (Plain (Zeros [3;6;7]));
  (*3349*) AddTo (T 528) (Plain (Einsum [(n_g'bb'bov,[0;1;2]); (T 310,[1;3;4;2])] [0;3;4]));
  (*3350*) Del (T 310);
  (*3351*) Assign (T 531) (Plain (Zeros [3;6;7]));
  (*3352*) SubFrom (T 531) (Plain (Einsum [(T 528,[0;1;2])] [0;1;2]));
  (*3353*) Del (T 528);
  (*3354*) AddTo (T 312) (Plain (Einsum [(n_v'aabb'ovvo,[0;1;2;3])] [0;3;1;2]));
  (*3355*) Assign (T 313) (Plain (Zeros [4;4;5;5]));
  (*3356*) AddTo (T 313) (Plain (Einsum [(n_l2'abab,[0;1;2;3]); (T 312,[4;3;5;1])] [2;4;0;5]));
  (*3357*) Del (T 312);
  (*3358*) AddTo (T 343) (Plain (Einsum [(T 313,[0;1;2;3])] [0;1;2;3]));
  (*3359*) Del (T 313);
  (*3360*) Assign (T 315) (Plain (Zeros [4;4;4;5]));
  (*3361*) SubFrom (T 315) (Plain (Einsum [(n_v'aaaa'ooov,[0;1;2;3])] [0;2;1;3]));
  (*3362*) AddTo (T 315) (Plain (Einsum [(n_v'aaaa'ooov,[0;1;2;3])] [2;0;1;3]));
  (*3363*) Assign (T 316) (Plain (Zeros [4;4;5;5]));
  (*3364*) AddTo (T 316) (Plain (Einsum [(T 314,[0;1;2;3]); (T 315,[4;2;0;5])] [1;4;3;5]));
  (*3365*) Del (T 314);
  (*3366*) AddTo (T 343) (Plain (Einsum [(T 316,[0;1;2;3])] [0;1;2;3]));
  (*3367*) Del (T 316);
  (*3368*) AddTo n_l2new_abab (Plain (Einsum [(T 315,[0;1;2;3]); (T 57,[2;0;4;5])] [3;5;1;4]));
  (*3369*) Del (T 315);
  (*3370*) Assign (T 317) (Plain (Zeros [5;5]));
  (*3371*) AddTo (T 317) (Plain (Einsum [(n_g'aa'bov,[0;1;2]); (n_u11'aa,[0;1;3])] [2;3]));
  (*3372*) SubFrom (T 318) (Plain (Einsum [(T 317,[0;1])] [1;0]));
  (*3373*) AddTo (T 488) (Times (Einsum [(T 317,[0;1])] [1;0]) (-1) 1);
  (*3374*) Del (T 317);
  (*3375*) AddTo (T 318) (Plain (Einsum [(n_f'aa'vv,[0;1])] [0;1]));
  (*3376*) Assign (T 319) (Plain (Zeros [4;4;5;5]));
  (*3377*) AddTo (T 319) (Plain (Einsum [(T 318,[0;1]); (n_l2'aaaa,[0;2;3;4])] [3;4;2;1]));
  (*3378*) Del (T 318);
  (*3379*) SubFrom (T 343) (Plain (Einsum [(T 319,[0;1;2;3])] [1;0;3;2]));
  (*3380*) Del (T 319);
  (*3381*) AddTo (T 323) (Plain (Einsum [(n_f'aa'ov,[0;1])] [0;1]));
  (*3382*) Assign (T 324) (Plain (Zeros [4;4]));
  (*3383*) AddTo (T 324) (Plain (Einsum [(n_t1'aa,[0;1]); (T 323,[2;1])] [0;2]));
  (*3384*) AddTo (T 325) (Plain (Einsum [(T 324,[0;1])] [1;0]));
  (*3385*) Del (T 324);
  (*3386*) Assign (T 338) (Plain (Zeros [4;4;5;5]));
  (*3387*) AddTo (T 338) (Plain (Einsum [(T 323,[0;1]); (T 58,[2;3;0;4])] [2;3;4;1]));
  (*3388*) Del (T 58);
  (*3389*) AddTo (T 343) (Plain (Einsum [(T 338,[0;1;2;3])] [0;1;3;2]));
  (*3390*) Del (T 338);
  (*3391*) AddTo (T 343) (Plain (Einsum [(n_l1'aa,[0;1]); (T 323,[2;3])] [2;1;3;0]));
  (*3392*) Del (T 323);
  (*3393*) AddTo (T 325) (Plain (Einsum [(n_f'aa'oo,[0;1])] [0;1]));
  (*3394*) Assign (T 326) (Plain (Zeros [4;4;5;5]));
  (*3395*) AddTo (T 326) (Plain (Einsum [(T 325,[0;1]); (n_l2'aaaa,[2;3;1;4])] [4;0;2;3]));
  (*3396*) Del (T 325);
  (*3397*) AddTo (T 343) (Plain (Einsum [(T 326,[0;1;2;3])] [1;0;3;2]));
  (*3398*) Del (T 326);
  (*3399*) Assign (T 327) (Plain (Zeros [4;4;4;5]));
  (*3400*) AddTo (T 327) (Plain (Einsum [(n_v'aaaa'ooov,[0;1;2;3])] [0;2;1;3]));
  (*3401*) SubFrom (T 327) (Plain (Einsum [(n_v'aaaa'ooov,[0;1;2;3])] [2;0;1;3]));
  (*3402*) Assign (T 328) (Plain (Zeros [4;4]));
  (*3403*) AddTo (T 328) (Plain (Einsum [(n_t1'aa,[0;1]); (T 327,[0;2;3;1])] [2;3]));
  (*3404*) SubFrom (T 329) (Plain (Einsum [(T 328,[0;1])] [0;1]));
  (*3405*) Del (T 328);
  (*3406*) Assign (T 330) (Plain (Zeros [4;4;5;5]));
  (*3407*) AddTo (T 330) (Plain (Einsum [(T 329,[0;1]); (n_l2'aaaa,[2;3;1;4])] [4;0;2;3]));
  (*3408*) Del (T 329);
  (*3409*) SubFrom (T 343) (Plain (Einsum [(T 330,[0;1;2;3])] [0;1;3;2]));
  (*3410*) Del (T 330);
  (*3411*) SubFrom n_l2new_baba (Plain (Einsum [(T 327,[0;1;2;3]); (T 57,[2;0;4;5])] [5;3;4;1]));
  (*3412*) Del (T 57);
  (*3413*) Del (T 327);
  (*3414*) SubFrom (T 339) (Plain (Einsum [(n_v'aaaa'ooov,[0;1;2;3])] [1;0;2;3]));
  (*3415*) Assign (T 340) (Plain (Zeros [4;4;5;5]));
  (*3416*) AddTo (T 340) (Plain (Einsum [(n_l1'aa,[0;1]); (T 339,[1;2;3;4])] [2;3;0;4]));
  (*3417*) Del (T 339);
  (*3418*) AddTo (T 343) (Plain (Einsum [(T 340,[0;1;2;3])] [0;1;2;3]));
  (*3419*) Del (T 340);
  (*3420*) AddTo n_l2new_aaaa (Plain (Einsum [(T 343,[0;1;2;3])] [2;3;0;1]));
  (*3421*) SubFrom n_l2new_aaaa (Plain (Einsum [(T 343,[0;1;2;3])] [3;2;0;1]));
  (*3422*) SubFrom n_l2new_aaaa (Plain (Einsum [(T 343,[0;1;2;3])] [2;3;1;0]));
  (*3423*) AddTo n_l2new_aaaa (Plain (Einsum [(T 343,[0;1;2;3])] [3;2;1;0]));
  (*3424*) Del (T 343);
  (*3425*) Assign (T 344) (Plain (Zeros [4;4;5;5]));
  (*3426*) AddTo (T 344) (Plain (Einsum [(n_t2'abab,[0;1;2;3]); (n_v'aabb'ovov,[4;5;1;3])] [0;4;2;5]));
  (*3427*) AddTo (T 346) (Plain (Einsum [(T 344,[0;1;2;3])] [0;1;2;3]));
  (*3428*) Assign (T 347) (Plain (Zeros [4;4;5;5]));
  (*3429*) AddTo (T 347) (Plain (Einsum [(T 346,[0;1;2;3]); (T 49,[0;4;2;5])] [4;1;5;3]));
  (*3430*) Del (T 49);
  (*3431*) Del (T 346);
  (*3432*) AddTo (T 363) (Plain (Einsum [(T 347,[0;1;2;3])] [0;1;2;3]));
  (*3433*) Del (T 347);
  (*3434*) AddTo (T 460) (Plain (Einsum [(T 344,[0;1;2;3])] [1;0;2;3]));
  (*3435*) Del (T 344);
  (*3436*) Assign (T 355) (Plain (Zeros [5;5]));
  (*3437*) AddTo (T 355) (Plain (Einsum [(n_t2'abab,[0;1;2;3]); (n_v'aabb'ovov,[0;4;1;3])] [2;4]));
  (*3438*) AddTo (T 357) (Plain (Einsum [(T 355,[0;1])] [0;1]));
  (*3439*) Assign (T 358) (Plain (Zeros [4;4;5;5]));
  (*3440*) AddTo (T 358) (Plain (Einsum [(T 357,[0;1]); (n_l2'aaaa,[0;2;3;4])] [3;4;2;1]));
  (*3441*) Del (T 357);
  (*3442*) AddTo (T 363) (Plain (Einsum [(T 358,[0;1;2;3])] [1;0;2;3]));
  (*3443*) Del (T 358);
  (*3444*) AddTo n_l2new_aaaa (Times (Einsum [(T 363,[0;1;2;3])] [2;3;0;1]) (-1) 1);
  (*3445*) AddTo n_l2new_aaaa (Plain (Einsum [(T 363,[0;1;2;3])] [3;2;0;1]));
  (*3446*) AddTo n_l2new_aaaa (Plain (Einsum [(T 363,[0;1;2;3])] [2;3;1;0]));
  (*3447*) AddTo n_l2new_aaaa (Times (Einsum [(T 363,[0;1;2;3])] [3;2;1;0]) (-1) 1);
  (*3448*) Del (T 363);
  (*3449*) AddTo (T 488) (Times (Einsum [(T 355,[0;1])] [0;1]) (-1) 1);
  (*3450*) Del (T 355);
  (*3451*) Assign (T 364) (Plain (Zeros [4;4;5;5]));
  (*3452*) AddTo (T 364) (Plain (Einsum [(n_l2'aaaa,[0;1;2;3]); (n_v'aaaa'oooo,[4;3;5;2])] [4;5;1;0]));
  (*3453*) Assign (T 366) (Plain (Zeros [4;4;5;5]));
  (*3454*) AddTo (T 366) (Plain (Einsum [(T 364,[0;1;2;3])] [1;0;3;2]));
  (*3455*) Del (T 364);
  (*3456*) Assign (T 365) (Plain (Zeros [4;4;5;5]));
  (*3457*) AddTo (T 365) (Plain (Einsum [(n_l2'aaaa,[0;1;2;3]); (n_v'aaaa'vvvv,[0;4;1;5])] [2;3;4;5]));
  (*3458*) AddTo (T 366) (Plain (Einsum [(T 365,[0;1;2;3])] [1;0;3;2]));
  (*3459*) Del (T 365);
  (*3460*) AddTo n_l2new_aaaa (Times (Einsum [(T 366,[0;1;2;3])] [3;2;0;1]) (-1) 1);
  (*3461*) AddTo n_l2new_aaaa (Plain (Einsum [(T 366,[0;1;2;3])] [2;3;0;1]));
  (*3462*) Del (T 366);
  (*3463*) Assign (T 372) (Plain (Zeros [6;6;7;7]));
  (*3464*) AddTo (T 372) (Plain (Einsum [(n_gc'bb'bov,[0;1;2]); (n_lu11'bb,[0;3;4])] [1;4;2;3]));
  (*3465*) AddTo (T 416) (Plain (Einsum [(T 372,[0;1;2;3])] [0;1;2;3]));
  (*3466*) Del (T 372);
  (*3467*) Assign (T 373) (Plain (Zeros [6;6;7;7]));
  (*3468*) AddTo (T 373) (Plain (Einsum [(n_l1'bb,[0;1]); (n_v'bbbb'ovvv,[2;3;0;4])] [1;2;3;4]));
  (*3469*) SubFrom (T 416) (Plain (Einsum [(T 373,[0;1;2;3])] [0;1;2;3]));
  (*3470*) Del (T 373);
  (*3471*) AddTo (T 380) (Plain (Einsum [(n_v'bbbb'oovv,[0;1;2;3])] [1;0;2;3]));
  (*3472*) SubFrom (T 380) (Plain (Einsum [(n_v'bbbb'ovvo,[0;1;2;3])] [3;0;2;1]));
  (*3473*) Assign (T 381) (Plain (Zeros [6;6;7;7]));
  (*3474*) AddTo (T 381) (Plain (Einsum [(T 280,[0;1;2;3]); (T 380,[0;4;3;5])] [1;4;2;5]));
  (*3475*) Del (T 380);
  (*3476*) Del (T 280);
  (*3477*) AddTo (T 416) (Plain (Einsum [(T 381,[0;1;2;3])] [0;1;2;3]));
  (*3478*) Del (T 381);
  (*3479*) Assign (T 382) (Plain (Zeros [4;4;5;5]));
  (*3480*) SubFrom (T 382) (Plain (Einsum [(n_t2'aaaa,[0;1;2;3])] [1;0;2;3]));
  (*3481*) AddTo (T 382) (Plain (Einsum [(n_t2'aaaa,[0;1;2;3])] [1;0;3;2]));
  (*3482*) Assign (T 383) (Plain (Zeros [4;6;5;7]));
  (*3483*) AddTo (T 383) (Plain (Einsum [(n_v'aabb'ovov,[0;1;2;3]); (T 382,[0;4;5;1])] [4;2;5;3]));
  (*3484*) SubFrom (T 384) (Plain (Einsum [(T 383,[0;1;2;3])] [0;1;2;3]));
  (*3485*) Del (T 383);
  (*3486*) Assign (T 521) (Plain (Zeros [3;4;5]));
  (*3487*) AddTo (T 521) (Plain (Einsum [(n_g'aa'bov,[0;1;2]); (T 382,[1;3;4;2])] [0;3;4]));
  (*3488*) Del (T 382);
  (*3489*) Assign (T 524) (Plain (Zeros [3;4;5]));
  (*3490*) SubFrom (T 524) (Plain (Einsum [(T 521,[0;1;2])] [0;1;2]));
  (*3491*) Del (T 521);
  (*3492*) AddTo (T 384) (Plain (Einsum [(n_v'bbaa'ovvo,[0;1;2;3])] [3;0;2;1]));
  (*3493*) Assign (T 385) (Plain (Zeros [6;6;7;7]));
  (*3494*) AddTo (T 385) (Plain (Einsum [(n_l2'abab,[0;1;2;3]); (T 384,[2;4;0;5])] [3;4;1;5]));
  (*3495*) Del (T 384);
  (*3496*) AddTo (T 416) (Plain (Einsum [(T 385,[0;1;2;3])] [0;1;2;3]));
  (*3497*) Del (T 385);
  (*3498*) Assign (T 387) (Plain (Zeros [6;6;6;7]));
  (*3499*) SubFrom (T 387) (Plain (Einsum [(n_v'bbbb'ooov,[0;1;2;3])] [0;2;1;3]));
  (*3500*) AddTo (T 387) (Plain (Einsum [(n_v'bbbb'ooov,[0;1;2;3])] [2;0;1;3]));
  (*3501*) Assign (T 388) (Plain (Zeros [6;6;7;7]));
  (*3502*) AddTo (T 388) (Plain (Einsum [(T 386,[0;1;2;3]); (T 387,[4;2;1;5])] [0;4;3;5]));
  (*3503*) Del (T 386);
  (*3504*) Del (T 387);
  (*3505*) AddTo (T 416) (Plain (Einsum [(T 388,[0;1;2;3])] [0;1;2;3]));
  (*3506*) Del (T 388);
  (*3507*) Assign (T 389) (Plain (Zeros [7;7]));
  (*3508*) AddTo (T 389) (Plain (Einsum [(n_g'bb'bov,[0;1;2]); (n_u11'bb,[0;1;3])] [2;3]));
  (*3509*) SubFrom (T 390) (Plain (Einsum [(T 389,[0;1])] [1;0]));
  (*3510*) AddTo (T 491) (Times (Einsum [(T 389,[0;1])] [1;0]) (-1) 1);
  (*3511*) Del (T 389);
  (*3512*) AddTo (T 390) (Plain (Einsum [(n_f'bb'vv,[0;1])] [0;1]));
  (*3513*) Assign (T 391) (Plain (Zeros [6;6;7;7]));
  (*3514*) AddTo (T 391) (Plain (Einsum [(T 390,[0;1]); (n_l2'bbbb,[0;2;3;4])] [3;4;2;1]));
  (*3515*) Del (T 390);
  (*3516*) SubFrom (T 416) (Plain (Einsum [(T 391,[0;1;2;3])] [1;0;3;2]));
  (*3517*) Del (T 391);
  (*3518*) AddTo (T 395) (Plain (Einsum [(n_f'bb'ov,[0;1])] [0;1]));
  (*3519*) Assign (T 396) (Plain (Zeros [6;6]));
  (*3520*) AddTo (T 396) (Plain (Einsum [(n_t1'bb,[0;1]); (T 395,[2;1])] [0;2]));
  (*3521*) AddTo (T 397) (Plain (Einsum [(T 396,[0;1])] [1;0]));
  (*3522*) Del (T 396);
  (*3523*) Assign (T 411) (Plain (Zeros [6;6;7;7]));
  (*3524*) AddTo (T 411) (Plain (Einsum [(T 395,[0;1]); (T 182,[2;3;0;4])] [2;3;4;1]));
  (*3525*) Del (T 182);
  (*3526*) AddTo (T 416) (Plain (Einsum [(T 411,[0;1;2;3])] [0;1;3;2]));
  (*3527*) Del (T 411);
  (*3528*) AddTo (T 416) (Plain (Einsum [(n_l1'bb,[0;1]); (T 395,[2;3])] [2;1;3;0]));
  (*3529*) Del (T 395);
  (*3530*) AddTo (T 397) (Plain (Einsum [(n_f'bb'oo,[0;1])] [0;1]));
  (*3531*) Assign (T 398) (Plain (Zeros [6;6;7;7]));
  (*3532*) AddTo (T 398) (Plain (Einsum [(T 397,[0;1]); (n_l2'bbbb,[2;3;1;4])] [4;0;2;3]));
  (*3533*) Del (T 397);
  (*3534*) AddTo (T 416) (Plain (Einsum [(T 398,[0;1;2;3])] [1;0;3;2]));
  (*3535*) Del (T 398);
  (*3536*) Assign (T 399) (Plain (Zeros [6;6;6;7]));
  (*3537*) AddTo (T 399) (Plain (Einsum [(n_v'bbbb'ooov,[0;1;2;3])] [0;2;1;3]));
  (*3538*) SubFrom (T 399) (Plain (Einsum [(n_v'bbbb'ooov,[0;1;2;3])] [2;0;1;3]));
  (*3539*) Assign (T 400) (Plain (Zeros [6;6]));
  (*3540*) AddTo (T 400) (Plain (Einsum [(n_t1'bb,[0;1]); (T 399,[0;2;3;1])] [2;3]));
  (*3541*) SubFrom (T 401) (Plain (Einsum [(T 400,[0;1])] [0;1]));
  (*3542*) Del (T 400);
  (*3543*) Assign (T 402) (Plain (Zeros [6;6;7;7]));
  (*3544*) AddTo (T 402) (Plain (Einsum [(T 401,[0;1]); (n_l2'bbbb,[2;3;1;4])] [4;0;2;3]));
  (*3545*) Del (T 401);
  (*3546*) SubFrom (T 416) (Plain (Einsum [(T 402,[0;1;2;3])] [0;1;3;2]));
  (*3547*) Del (T 402);
  (*3548*) Assign (T 485) (Plain (Zeros [4;6;5;7]));
  (*3549*) AddTo (T 485) (Plain (Einsum [(T 2,[0;1;2;3]); (T 399,[2;4;1;5])] [0;4;3;5]));
  (*3550*) Del (T 2);
  (*3551*) Del (T 399);
  (*3552*) SubFrom n_l2new_baba (Plain (Einsum [(T 485,[0;1;2;3])] [3;2;1;0]));
  (*3553*) SubFrom n_l2new_abab (Plain (Einsum [(T 485,[0;1;2;3])] [2;3;0;1]));
  (*3554*) Del (T 485);
  (*3555*) Assign (T 405) (Plain (Zeros [6;6;7;7]));
  (*3556*) SubFrom (T 405) (Plain (Einsum [(n_v'bbbb'ovov,[0;1;2;3])] [2;0;1;3]));
  (*3557*) AddTo (T 405) (Plain (Einsum [(n_v'bbbb'ovov,[0;1;2;3])] [2;0;3;1]));
  (*3558*) Assign (T 406) (Plain (Zeros [3;6;7]));
  (*3559*) AddTo (T 406) (Plain (Einsum [(n_u11'bb,[0;1;2]); (T 405,[1;3;4;2])] [0;3;4]));
  (*3560*) SubFrom (T 407) (Plain (Einsum [(T 406,[0;1;2])] [0;1;2]));
  (*3561*) Assign (T 408) (Plain (Zeros [6;6;7;7]));
  (*3562*) AddTo (T 408) (Plain (Einsum [(n_lu11'bb,[0;1;2]); (T 407,[0;3;4])] [2;3;1;4]));
  (*3563*) Del (T 407);
  (*3564*) AddTo (T 416) (Plain (Einsum [(T 408,[0;1;2;3])] [0;1;2;3]));
  (*3565*) Del (T 408);
  (*3566*) SubFrom (T 505) (Plain (Einsum [(T 406,[0;1;2])] [0;1;2]));
  (*3567*) Del (T 406);
  (*3568*) Assign (T 414) (Plain (Zeros [6;7]));
  (*3569*) AddTo (T 414) (Plain (Einsum [(n_t1'bb,[0;1]); (T 405,[0;2;3;1])] [2;3]));
  (*3570*) Del (T 405);
  (*3571*) SubFrom (T 415) (Plain (Einsum [(T 414,[0;1])] [0;1]));
  (*3572*) AddTo (T 416) (Plain (Einsum [(n_l1'bb,[0;1]); (T 415,[2;3])] [1;2;0;3]));
  (*3573*) Del (T 415);
  (*3574*) SubFrom (T 514) (Plain (Einsum [(T 414,[0;1])] [0;1]));
  (*3575*) Del (T 414);
  (*3576*) SubFrom (T 412) (Plain (Einsum [(n_v'bbbb'ooov,[0;1;2;3])] [1;0;2;3]));
  (*3577*) Assign (T 413) (Plain (Zeros [6;6;7;7]));
  (*3578*) AddTo (T 413) (Plain (Einsum [(n_l1'bb,[0;1]); (T 412,[1;2;3;4])] [2;3;0;4]));
  (*3579*) Del (T 412);
  (*3580*) AddTo (T 416) (Plain (Einsum [(T 413,[0;1;2;3])] [0;1;2;3]));
  (*3581*) Del (T 413);
  (*3582*) AddTo n_l2new_bbbb (Plain (Einsum [(T 416,[0;1;2;3])] [2;3;0;1]));
  (*3583*) SubFrom n_l2new_bbbb (Plain (Einsum [(T 416,[0;1;2;3])] [3;2;0;1]));
  (*3584*) SubFrom n_l2new_bbbb (Plain (Einsum [(T 416,[0;1;2;3])] [2;3;1;0]));
  (*3585*) AddTo n_l2new_bbbb (Plain (Einsum [(T 416,[0;1;2;3])] [3;2;1;0]));
  (*3586*) Del (T 416);
  (*3587*) Assign (T 432) (Plain (Zeros [7;7]));
  (*3588*) AddTo (T 432) (Plain (Einsum [(n_t2'abab,[0;1;2;3]); (n_v'aabb'ovov,[0;2;1;4])] [3;4]));
  (*3589*) AddTo (T 434) (Plain (Einsum [(T 432,[0;1])] [0;1]));
  (*3590*) Assign (T 435) (Plain (Zeros [6;6;7;7]));
  (*3591*) AddTo (T 435) (Plain (Einsum [(T 434,[0;1]); (n_l2'bbbb,[0;2;3;4])] [3;4;2;1]));
  (*3592*) Del (T 434);
  (*3593*) AddTo (T 440) (Plain (Einsum [(T 435,[0;1;2;3])] [1;0;2;3]));
  (*3594*) Del (T 435);
  (*3595*) AddTo n_l2new_bbbb (Times (Einsum [(T 440,[0;1;2;3])] [2;3;0;1]) (-1) 1);
  (*3596*) AddTo n_l2new_bbbb (Plain (Einsum [(T 440,[0;1;2;3])] [3;2;0;1]));
  (*3597*) AddTo n_l2new_bbbb (Plain (Einsum [(T 440,[0;1;2;3])] [2;3;1;0]));
  (*3598*) AddTo n_l2new_bbbb (Times (Einsum [(T 440,[0;1;2;3])] [3;2;1;0]) (-1) 1);
  (*3599*) Del (T 440);
  (*3600*) AddTo (T 491) (Times (Einsum [(T 432,[0;1])] [0;1]) (-1) 1);
  (*3601*) Del (T 432);
  (*3602*) Assign (T 441) (Plain (Zeros [6;6;7;7]));
  (*3603*) AddTo (T 441) (Plain (Einsum [(n_l2'bbbb,[0;1;2;3]); (n_v'bbbb'oooo,[4;3;5;2])] [4;5;1;0]));
  (*3604*) Assign (T 443) (Plain (Zeros [6;6;7;7]));
  (*3605*) AddTo (T 443) (Plain (Einsum [(T 441,[0;1;2;3])] [1;0;3;2]));
  (*3606*) Del (T 441);
  (*3607*) Assign (T 442) (Plain (Zeros [6;6;7;7]));
  (*3608*) AddTo (T 442) (Plain (Einsum [(n_l2'bbbb,[0;1;2;3]); (n_v'bbbb'vvvv,[1;4;0;5])] [2;3;5;4]));
  (*3609*) AddTo (T 443) (Plain (Einsum [(T 442,[0;1;2;3])] [1;0;3;2]));
  (*3610*) Del (T 442);
  (*3611*) AddTo n_l2new_bbbb (Times (Einsum [(T 443,[0;1;2;3])] [3;2;0;1]) (-1) 1);
  (*3612*) AddTo n_l2new_bbbb (Plain (Einsum [(T 443,[0;1;2;3])] [2;3;0;1]));
  (*3613*) Del (T 443);
  (*3614*) Assign (T 444) (Plain (Zeros [4;6;5;7]));
  (*3615*) AddTo (T 444) (Plain (Einsum [(n_l1'aa,[0;1]); (n_v'bbaa'ovvv,[2;3;0;4])] [1;2;4;3]));
  (*3616*) AddTo n_l2new_baba (Plain (Einsum [(T 444,[0;1;2;3])] [3;2;1;0]));
  (*3617*) AddTo n_l2new_abab (Plain (Einsum [(T 444,[0;1;2;3])] [2;3;0;1]));
  (*3618*) Del (T 444);
  (*3619*) Assign (T 446) (Plain (Zeros [4;6;5;7]));
  (*3620*) AddTo (T 446) (Plain (Einsum [(n_l2'abab,[0;1;2;3]); (n_v'aabb'vvvv,[0;4;1;5])] [2;3;4;5]));
  (*3621*) AddTo n_l2new_baba (Plain (Einsum [(T 446,[0;1;2;3])] [3;2;1;0]));
  (*3622*) AddTo n_l2new_abab (Plain (Einsum [(T 446,[0;1;2;3])] [2;3;0;1]));
  (*3623*) Del (T 446);
  (*3624*) Assign (T 448) (Plain (Zeros [4;6;5;7]));
  (*3625*) AddTo (T 448) (Plain (Einsum [(n_l1'bb,[0;1]); (n_v'aabb'ovvv,[2;3;0;4])] [2;1;3;4]));
  (*3626*) AddTo n_l2new_baba (Plain (Einsum [(T 448,[0;1;2;3])] [3;2;1;0]));
  (*3627*) AddTo n_l2new_abab (Plain (Einsum [(T 448,[0;1;2;3])] [2;3;0;1]));
  (*3628*) Del (T 448);
  (*3629*) AddTo (T 451) (Plain (Einsum [(n_v'bbaa'ovvo,[0;1;2;3])] [3;0;2;1]));
  (*3630*) Assign (T 452) (Plain (Zeros [4;6;5;7]));
  (*3631*) AddTo (T 452) (Plain (Einsum [(T 208,[0;1;2;3]); (T 451,[0;4;3;5])] [1;4;2;5]));
  (*3632*) Del (T 451);
  (*3633*) Del (T 208);
  (*3634*) AddTo n_l2new_baba (Times (Einsum [(T 452,[0;1;2;3])] [3;2;1;0]) (-1) 1);
  (*3635*) AddTo n_l2new_abab (Times (Einsum [(T 452,[0;1;2;3])] [2;3;0;1]) (-1) 1);
  (*3636*) Del (T 452);
  (*3637*) Assign (T 453) (Plain (Zeros [6;6;7;7]));
  (*3638*) AddTo (T 453) (Plain (Einsum [(n_l2'bbbb,[0;1;2;3])] [3;2;0;1]));
  (*3639*) SubFrom (T 453) (Plain (Einsum [(n_l2'bbbb,[0;1;2;3])] [3;2;1;0]));
  (*3640*) AddTo (T 456) (Plain (Einsum [(n_v'aabb'ovvo,[0;1;2;3])] [0;3;1;2]));
  (*3641*) AddTo n_l2new_baba (Plain (Einsum [(T 453,[0;1;2;3]); (T 456,[4;0;5;3])] [2;5;1;4]));
  (*3642*) Del (T 453);
  (*3643*) AddTo n_l2new_abab (Times (Einsum [(T 253,[0;1;2;3]); (T 456,[4;0;5;3])] [5;2;4;1]) (-1) 1);
  (*3644*) Del (T 253);
  (*3645*) Del (T 456);
  (*3646*) Assign (T 457) (Plain (Zeros [4;4;5;5]));
  (*3647*) AddTo (T 457) (Plain (Einsum [(n_v'aaaa'ovov,[0;1;2;3])] [2;0;1;3]));
  (*3648*) AddTo (T 457) (Times (Einsum [(n_v'aaaa'ovov,[0;1;2;3])] [2;0;3;1]) (-1) 1);
  (*3649*) Assign (T 458) (Plain (Zeros [4;4;5;5]));
  (*3650*) AddTo (T 458) (Plain (Einsum [(T 25,[0;1;2;3]); (T 457,[0;4;5;2])] [1;4;3;5]));
  (*3651*) Del (T 25);
  (*3652*) Del (T 457);
  (*3653*) AddTo (T 460) (Plain (Einsum [(T 458,[0;1;2;3])] [1;0;2;3]));
  (*3654*) Del (T 458);
  (*3655*) AddTo (T 460) (Plain (Einsum [(n_v'aaaa'ovvo,[0;1;2;3])] [0;3;2;1]));
  (*3656*) AddTo (T 460) (Times (Einsum [(n_v'aaaa'oovv,[0;1;2;3])] [0;1;2;3]) (-1) 1);
  (*3657*) Assign (T 461) (Plain (Zeros [4;6;5;7]));
  (*3658*) AddTo (T 461) (Plain (Einsum [(n_l2'abab,[0;1;2;3]); (T 460,[4;2;0;5])] [4;3;5;1]));
  (*3659*) Del (T 460);
  (*3660*) AddTo n_l2new_baba (Plain (Einsum [(T 461,[0;1;2;3])] [3;2;1;0]));
  (*3661*) AddTo n_l2new_abab (Plain (Einsum [(T 461,[0;1;2;3])] [2;3;0;1]));
  (*3662*) Del (T 461);
  (*3663*) Assign (T 462) (Plain (Zeros [6;6;7;7]));
  (*3664*) AddTo (T 462) (Plain (Einsum [(n_t2'abab,[0;1;2;3]); (n_v'aabb'ovov,[0;2;4;5])] [1;4;3;5]));
  (*3665*) AddTo (T 465) (Plain (Einsum [(T 462,[0;1;2;3])] [1;0;2;3]));
  (*3666*) Del (T 462);
  (*3667*) AddTo (T 465) (Plain (Einsum [(n_v'bbbb'ovvo,[0;1;2;3])] [0;3;2;1]));
  (*3668*) AddTo (T 465) (Times (Einsum [(n_v'bbbb'oovv,[0;1;2;3])] [0;1;2;3]) (-1) 1);
  (*3669*) Assign (T 466) (Plain (Zeros [4;6;5;7]));
  (*3670*) AddTo (T 466) (Plain (Einsum [(n_l2'abab,[0;1;2;3]); (T 465,[4;3;1;5])] [2;4;0;5]));
  (*3671*) Del (T 465);
  (*3672*) AddTo n_l2new_baba (Plain (Einsum [(T 466,[0;1;2;3])] [3;2;1;0]));
  (*3673*) AddTo n_l2new_abab (Plain (Einsum [(T 466,[0;1;2;3])] [2;3;0;1]));
  (*3674*) Del (T 466);
  (*3675*) Assign (T 467) (Plain (Zeros [4;4;7;7]));
  (*3676*) AddTo (T 467) (Plain (Einsum [(n_t1'aa,[0;1]); (n_v'aabb'ovvv,[2;1;3;4])] [0;2;3;4]));
  (*3677*) Assign (T 469) (Plain (Zeros [4;4;7;7]));
  (*3678*) AddTo (T 469) (Plain (Einsum [(T 467,[0;1;2;3])] [1;0;2;3]));
  (*3679*) Del (T 467);
  (*3680*) Assign (T 468) (Plain (Zeros [4;4;7;7]));
  (*3681*) AddTo (T 468) (Plain (Einsum [(n_t2'abab,[0;1;2;3]); (n_v'aabb'ovov,[4;2;1;5])] [0;4;3;5]));
  (*3682*) AddTo (T 469) (Times (Einsum [(T 468,[0;1;2;3])] [1;0;2;3]) (-1) 1);
  (*3683*) Del (T 468);
  (*3684*) AddTo (T 469) (Plain (Einsum [(n_v'aabb'oovv,[0;1;2;3])] [0;1;2;3]));
  (*3685*) Assign (T 470) (Plain (Zeros [4;6;5;7]));
  (*3686*) AddTo (T 470) (Plain (Einsum [(n_l2'abab,[0;1;2;3]); (T 469,[4;2;1;5])] [4;3;0;5]));
  (*3687*) Del (T 469);
  (*3688*) AddTo n_l2new_baba (Times (Einsum [(T 470,[0;1;2;3])] [3;2;1;0]) (-1) 1);
  (*3689*) AddTo n_l2new_abab (Times (Einsum [(T 470,[0;1;2;3])] [2;3;0;1]) (-1) 1);
  (*3690*) Del (T 470);
  (*3691*) Assign (T 471) (Plain (Zeros [6;6;5;5]));
  (*3692*) AddTo (T 471) (Plain (Einsum [(n_t2'abab,[0;1;2;3]); (n_v'aabb'ovov,[0;4;5;3])] [1;5;2;4]));
  (*3693*) AddTo (T 472) (Times (Einsum [(T 471,[0;1;2;3])] [1;0;2;3]) (-1) 1);
  (*3694*) Del (T 471);
  (*3695*) AddTo (T 472) (Plain (Einsum [(n_v'bbaa'oovv,[0;1;2;3])] [0;1;2;3]));
  (*3696*) Assign (T 473) (Plain (Zeros [4;6;5;7]));
  (*3697*) AddTo (T 473) (Plain (Einsum [(n_l2'abab,[0;1;2;3]); (T 472,[4;3;0;5])] [2;4;5;1]));
  (*3698*) Del (T 472);
  (*3699*) AddTo n_l2new_baba (Times (Einsum [(T 473,[0;1;2;3])] [3;2;1;0]) (-1) 1);
  (*3700*) AddTo n_l2new_abab (Times (Einsum [(T 473,[0;1;2;3])] [2;3;0;1]) (-1) 1);
  (*3701*) Del (T 473);
  (*3702*) AddTo (T 475) (Plain (Einsum [(n_v'aabb'oooo,[0;1;2;3])] [0;1;2;3]));
  (*3703*) Assign (T 476) (Plain (Zeros [4;6;5;7]));
  (*3704*) AddTo (T 476) (Plain (Einsum [(n_l2'abab,[0;1;2;3]); (T 475,[4;2;5;3])] [4;5;0;1]));
  (*3705*) Del (T 475);
  (*3706*) AddTo n_l2new_baba (Plain (Einsum [(T 476,[0;1;2;3])] [3;2;1;0]));
  (*3707*) AddTo n_l2new_abab (Plain (Einsum [(T 476,[0;1;2;3])] [2;3;0;1]));
  (*3708*) Del (T 476);
  (*3709*) AddTo (T 488) (Plain (Einsum [(n_f'aa'vv,[0;1])] [0;1]));
  (*3710*) Assign (T 489) (Plain (Zeros [4;6;5;7]));
  (*3711*) AddTo (T 489) (Plain (Einsum [(T 488,[0;1]); (n_l2'abab,[0;2;3;4])] [3;4;1;2]));
  (*3712*) Del (T 488);
  (*3713*) AddTo n_l2new_baba (Plain (Einsum [(T 489,[0;1;2;3])] [3;2;1;0]));
  (*3714*) AddTo n_l2new_abab (Plain (Einsum [(T 489,[0;1;2;3])] [2;3;0;1]));
  (*3715*) Del (T 489);
  (*3716*) AddTo (T 491) (Plain (Einsum [(n_f'bb'vv,[0;1])] [0;1]));
  (*3717*) Assign (T 492) (Plain (Zeros [4;6;5;7]));
  (*3718*) AddTo (T 492) (Plain (Einsum [(T 491,[0;1]); (n_l2'abab,[2;0;3;4])] [3;4;2;1]));
  (*3719*) Del (T 491);
  (*3720*) AddTo n_l2new_baba (Plain (Einsum [(T 492,[0;1;2;3])] [3;2;1;0]));
  (*3721*) AddTo n_l2new_abab (Plain (Einsum [(T 492,[0;1;2;3])] [2;3;0;1]));
  (*3722*) Del (T 492);
  (*3723*) AddTo (T 503) (Plain (Einsum [(n_gc'aa'bov,[0;1;2])] [0;1;2]));
  (*3724*) Assign (T 504) (Plain (Zeros [4;6;5;7]));
  (*3725*) AddTo (T 504) (Plain (Einsum [(n_lu11'bb,[0;1;2]); (T 503,[0;3;4])] [3;2;4;1]));
  (*3726*) Del (T 503);
  (*3727*) AddTo n_l2new_baba (Plain (Einsum [(T 504,[0;1;2;3])] [3;2;1;0]));
  (*3728*) AddTo n_l2new_abab (Plain (Einsum [(T 504,[0;1;2;3])] [2;3;0;1]));
  (*3729*) Del (T 504);
  (*3730*) AddTo (T 505) (Plain (Einsum [(n_gc'bb'bov,[0;1;2])] [0;1;2]));
  (*3731*) Assign (T 506) (Plain (Zeros [4;6;5;7]));
  (*3732*) AddTo (T 506) (Plain (Einsum [(n_lu11'aa,[0;1;2]); (T 505,[0;3;4])] [2;3;1;4]));
  (*3733*) Del (T 505);
  (*3734*) AddTo n_l2new_baba (Plain (Einsum [(T 506,[0;1;2;3])] [3;2;1;0]));
  (*3735*) AddTo n_l2new_abab (Plain (Einsum [(T 506,[0;1;2;3])] [2;3;0;1]));
  (*3736*) Del (T 506);
  (*3737*) AddTo (T 509) (Plain (Einsum [(n_v'aabb'ooov,[0;1;2;3])] [0;1;2;3]));
  (*3738*) Assign (T 510) (Plain (Zeros [4;6;5;7]));
  (*3739*) AddTo (T 510) (Plain (Einsum [(n_l1'aa,[0;1]); (T 509,[2;1;3;4])] [2;3;0;4]));
  (*3740*) Del (T 509);
  (*3741*) SubFrom n_l2new_baba (Plain (Einsum [(T 510,[0;1;2;3])] [3;2;1;0]));
  (*3742*) SubFrom n_l2new_abab (Plain (Einsum [(T 510,[0;1;2;3])] [2;3;0;1]));
  (*3743*) Del (T 510);
  (*3744*) AddTo (T 511) (Plain (Einsum [(n_v'aabb'ovoo,[0;1;2;3])] [0;2;3;1]));
  (*3745*) Assign (T 512) (Plain (Zeros [4;6;5;7]));
  (*3746*) AddTo (T 512) (Plain (Einsum [(n_l1'bb,[0;1]); (T 511,[2;3;1;4])] [2;3;4;0]));
  (*3747*) Del (T 511);
  (*3748*) SubFrom n_l2new_baba (Plain (Einsum [(T 512,[0;1;2;3])] [3;2;1;0]));
  (*3749*) SubFrom n_l2new_abab (Plain (Einsum [(T 512,[0;1;2;3])] [2;3;0;1]));
  (*3750*) Del (T 512);
  (*3751*) AddTo (T 513) (Plain (Einsum [(n_f'aa'ov,[0;1])] [0;1]));
  (*3752*) AddTo (T 517) (Plain (Einsum [(T 513,[0;1]); (n_u11'aa,[2;0;1])] [2]));
  (*3753*) AddTo n_l2new_baba (Plain (Einsum [(n_l1'bb,[0;1]); (T 513,[2;3])] [0;3;1;2]));
  (*3754*) AddTo n_l2new_abab (Plain (Einsum [(n_l1'bb,[0;1]); (T 513,[2;3])] [3;0;2;1]));
  (*3755*) Del (T 513);
  (*3756*) AddTo (T 514) (Plain (Einsum [(n_f'bb'ov,[0;1])] [0;1]));
  (*3757*) AddTo (T 517) (Plain (Einsum [(T 514,[0;1]); (n_u11'bb,[2;0;1])] [2]));
  (*3758*) AddTo n_l2new_baba (Plain (Einsum [(n_l1'aa,[0;1]); (T 514,[2;3])] [3;0;2;1]));
  (*3759*) AddTo n_l2new_abab (Plain (Einsum [(n_l1'aa,[0;1]); (T 514,[2;3])] [0;3;1;2]));
  (*3760*) Del (T 514);
  (*3761*) AddTo (T 516) (Plain (Einsum [(n_G,[0])] [0]));
  (*3762*) AddTo (T 517) (Plain (Einsum [(T 516,[0]); (n_s2,[0;1])] [1]));
  (*3763*) Assign (T 537) (Plain (Zeros [3;3]));
  (*3764*) AddTo (T 537) (Plain (Einsum [(n_ls1,[0]); (T 516,[1])] [1;0]));
  (*3765*) Del (T 516);
  (*3766*) AddTo (T 517) (Plain (Einsum [(n_G,[0])] [0]));
  (*3767*) AddTo n_ls1new (Plain (Einsum [(T 517,[0]); (n_ls2,[0;1])] [1]));
  (*3768*) Del (T 517);
  (*3769*) Assign (T 518) (Plain (Zeros [3;3]));
  (*3770*) AddTo (T 518) (Plain (Einsum [(n_ls2,[0;1]); (n_w,[2;1])] [0;2]));
  (*3771*) AddTo (T 537) (Plain (Einsum [(T 518,[0;1])] [0;1]));
  (*3772*) Del (T 518);
  (*3773*) Assign (T 519) (Plain (Zeros [3;4;5]));
  (*3774*) AddTo (T 519) (Plain (Einsum [(n_t1'aa,[0;1]); (n_g'aa'bvv,[2;3;1])] [2;0;3]));
  (*3775*) AddTo (T 524) (Plain (Einsum [(T 519,[0;1;2])] [0;1;2]));
  (*3776*) Del (T 519);
  (*3777*) Assign (T 520) (Plain (Zeros [3;4;5]));
  (*3778*) AddTo (T 520) (Plain (Einsum [(n_g'bb'bov,[0;1;2]); (n_t2'abab,[3;1;4;2])] [0;3;4]));
  (*3779*) AddTo (T 524) (Plain (Einsum [(T 520,[0;1;2])] [0;1;2]));
  (*3780*) Del (T 520);
  (*3781*) AddTo (T 522) (Plain (Einsum [(n_g'aa'boo,[0;1;2])] [0;1;2]));
  (*3782*) Assign (T 523) (Plain (Zeros [3;4;5]));
  (*3783*) AddTo (T 523) (Plain (Einsum [(n_t1'aa,[0;1]); (T 522,[2;0;3])] [2;3;1]));
  (*3784*) Del (T 522);
  (*3785*) SubFrom (T 524) (Plain (Einsum [(T 523,[0;1;2])] [0;1;2]));
  (*3786*) Del (T 523);
  (*3787*) AddTo (T 524) (Plain (Einsum [(n_g'aa'bvo,[0;1;2])] [0;2;1]));
  (*3788*) Assign (T 525) (Plain (Zeros [3;3]));
  (*3789*) AddTo (T 525) (Plain (Einsum [(n_lu11'aa,[0;1;2]); (T 524,[3;2;1])] [0;3]));
  (*3790*) Del (T 524);
  (*3791*) AddTo (T 537) (Plain (Einsum [(T 525,[0;1])] [1;0]));
  (*3792*) Del (T 525);
  (*3793*) Assign (T 526) (Plain (Zeros [3;6;7]));
  (*3794*) AddTo (T 526) (Plain (Einsum [(n_t1'bb,[0;1]); (n_g'bb'bvv,[2;3;1])] [2;0;3]));
  (*3795*) AddTo (T 531) (Plain (Einsum [(T 526,[0;1;2])] [0;1;2]));
  (*3796*) Del (T 526);
  (*3797*) Assign (T 527) (Plain (Zeros [3;6;7]));
  (*3798*) AddTo (T 527) (Plain (Einsum [(n_g'aa'bov,[0;1;2]); (n_t2'abab,[1;3;2;4])] [0;3;4]));
  (*3799*) AddTo (T 531) (Plain (Einsum [(T 527,[0;1;2])] [0;1;2]));
  (*3800*) Del (T 527);
  (*3801*) AddTo (T 529) (Plain (Einsum [(n_g'bb'boo,[0;1;2])] [0;1;2]));
  (*3802*) Assign (T 530) (Plain (Zeros [3;6;7]));
  (*3803*) AddTo (T 530) (Plain (Einsum [(n_t1'bb,[0;1]); (T 529,[2;0;3])] [2;3;1]));
  (*3804*) Del (T 529);
  (*3805*) SubFrom (T 531) (Plain (Einsum [(T 530,[0;1;2])] [0;1;2]));
  (*3806*) Del (T 530);
  (*3807*) AddTo (T 531) (Plain (Einsum [(n_g'bb'bvo,[0;1;2])] [0;2;1]));
  (*3808*) Assign (T 532) (Plain (Zeros [3;3]));
  (*3809*) AddTo (T 532) (Plain (Einsum [(n_lu11'bb,[0;1;2]); (T 531,[3;2;1])] [0;3]));
  (*3810*) Del (T 531);
  (*3811*) AddTo (T 537) (Plain (Einsum [(T 532,[0;1])] [1;0]));
  (*3812*) Del (T 532);
  (*3813*) Assign (T 533) (Plain (Zeros [3;3]));
  (*3814*) AddTo (T 533) (Plain (Einsum [(n_g'aa'bov,[0;1;2]); (n_u11'aa,[3;1;2])] [0;3]));
  (*3815*) Assign (T 535) (Plain (Zeros [3;3]));
  (*3816*) AddTo (T 535) (Plain (Einsum [(T 533,[0;1])] [0;1]));
  (*3817*) Del (T 533);
  (*3818*) Assign (T 534) (Plain (Zeros [3;3]));
  (*3819*) AddTo (T 534) (Plain (Einsum [(n_g'bb'bov,[0;1;2]); (n_u11'bb,[3;1;2])] [0;3]));
  (*3820*) AddTo (T 535) (Plain (Einsum [(T 534,[0;1])] [0;1]));
  (*3821*) Del (T 534);
  (*3822*) Assign (T 536) (Plain (Zeros [3;3]));
  (*3823*) AddTo (T 536) (Plain (Einsum [(n_ls2,[0;1]); (T 535,[2;0])] [1;2]));
  (*3824*) Del (T 535);
  (*3825*) AddTo (T 537) (Plain (Einsum [(T 536,[0;1])] [1;0]));
  (*3826*) Del (T 536);
  (*3827*) Assign n_ls2new (Plain (Zeros [3;3]));
  (*3828*) AddTo n_ls2new (Plain (Einsum [(T 537,[0;1])] [0;1]));
  (*3829*) AddTo n_ls2new (Plain (Einsum [(T 537,[0;1])] [1;0]));
  (*3830*) Del (T 537);
  (*3831*) AddTo n_l1new_aa (Plain (Einsum [(n_f'aa'ov,[0;1])] [1;0]));
  (*3832*) AddTo n_l1new_aa (Plain (Einsum [(n_ls1,[0]); (n_gc'aa'bov,[0;1;2])] [2;1]));
  (*3833*) AddTo n_l1new_aa (Plain (Einsum [(n_l1'bb,[0;1]); (n_v'aabb'ovvo,[2;3;0;1])] [3;2]));
  (*3834*) AddTo n_l1new_bb (Plain (Einsum [(n_l1'aa,[0;1]); (n_v'bbaa'ovvo,[2;3;0;1])] [3;2]));
  (*3835*) AddTo n_l1new_bb (Plain (Einsum [(n_f'bb'ov,[0;1])] [1;0]));
  (*3836*) AddTo n_l1new_bb (Plain (Einsum [(n_ls1,[0]); (n_gc'bb'bov,[0;1;2])] [2;1]));
  (*3837*) SubFrom n_l2new_aaaa (Plain (Einsum [(n_v'aaaa'ovov,[0;1;2;3])] [1;3;2;0]));
  (*3838*) AddTo n_l2new_aaaa (Plain (Einsum [(n_v'aaaa'ovov,[0;1;2;3])] [3;1;2;0]));
  (*3839*) SubFrom n_l2new_bbbb (Plain (Einsum [(n_v'bbbb'ovov,[0;1;2;3])] [1;3;2;0]));
  (*3840*) AddTo n_l2new_bbbb (Plain (Einsum [(n_v'bbbb'ovov,[0;1;2;3])] [3;1;2;0]));
  (*3841*) AddTo n_l2new_baba (Plain (Einsum [(n_v'aabb'ovov,[0;1;2;3])] [3;1;2;0]));
  (*3842*) AddTo n_l2new_abab (Plain (Einsum [(n_v'aabb'ovov,[0;1;2;3])] [1;3;0;2]));
  (*3843*) AddTo n_ls1new (Plain (Einsum [(n_l1'aa,[0;1]); (n_g'aa'bvo,[2;0;1])] [2]));
  (*3844*) AddTo n_ls1new (Plain (Einsum [(n_G,[0])] [0]));
  (*3845*) AddTo n_ls1new (Plain (Einsum [(n_ls1,[0]); (n_w,[1;0])] [1]));
  (*3846*) AddTo n_ls1new (Plain (Einsum [(n_l1'bb,[0;1]); (n_g'bb'bvo,[2;0;1])] [2]));
  (*3847*) AddTo n_lu11new_aa (Plain (Einsum [(n_f'aa'vv,[0;1]); (n_lu11'aa,[2;0;3])] [2;1;3]));
  (*3848*) AddTo n_lu11new_aa (Plain (Einsum [(n_l1'aa,[0;1]); (n_g'aa'bvv,[2;0;3])] [2;3;1]));
  (*3849*) AddTo n_lu11new_aa (Plain (Einsum [(n_ls2,[0;1]); (n_gc'aa'bov,[1;2;3])] [0;3;2]));
  (*3850*) AddTo n_lu11new_aa (Plain (Einsum [(n_w,[0;1]); (n_lu11'aa,[1;2;3])] [0;2;3]));
  (*3851*) SubFrom n_lu11new_aa (Plain (Einsum [(n_f'aa'oo,[0;1]); (n_lu11'aa,[2;3;1])] [2;3;0]));
  (*3852*) SubFrom n_lu11new_aa (Plain (Einsum [(n_l1'aa,[0;1]); (n_g'aa'boo,[2;3;1])] [2;0;3]));
  (*3853*) AddTo n_lu11new_aa (Plain (Einsum [(n_g'aa'bov,[0;1;2])] [0;2;1]));
  (*3854*) AddTo n_lu11new_aa (Plain (Einsum [(n_g'bb'bvo,[0;1;2]); (n_l2'abab,[3;1;4;2])] [0;3;4]));
  (*3855*) AddTo n_lu11new_aa (Plain (Einsum [(n_lu11'bb,[0;1;2]); (n_v'aabb'ovvo,[3;4;1;2])] [0;4;3]));
  (*3856*) SubFrom n_lu11new_bb (Plain (Einsum [(n_f'bb'oo,[0;1]); (n_lu11'bb,[2;3;1])] [2;3;0]));
  (*3857*) SubFrom n_lu11new_bb (Plain (Einsum [(n_l1'bb,[0;1]); (n_g'bb'boo,[2;3;1])] [2;0;3]));
  (*3858*) AddTo n_lu11new_bb (Plain (Einsum [(n_ls2,[0;1]); (n_gc'bb'bov,[1;2;3])] [0;3;2]));
  (*3859*) AddTo n_lu11new_bb (Plain (Einsum [(n_w,[0;1]); (n_lu11'bb,[1;2;3])] [0;2;3]));
  (*3860*) AddTo n_lu11new_bb (Plain (Einsum [(n_g'bb'bov,[0;1;2])] [0;2;1]));
  (*3861*) AddTo n_lu11new_bb (Plain (Einsum [(n_f'bb'vv,[0;1]); (n_lu11'bb,[2;0;3])] [2;1;3]));
  (*3862*) AddTo n_lu11new_bb (Plain (Einsum [(n_l1'bb,[0;1]); (n_g'bb'bvv,[2;0;3])] [2;3;1]));
  (*3863*) AddTo n_lu11new_bb (Plain (Einsum [(n_g'aa'bvo,[0;1;2]); (n_l2'abab,[1;3;2;4])] [0;3;4]));
  (*3864*) AddTo n_lu11new_bb (Plain (Einsum [(n_lu11'aa,[0;1;2]); (n_v'bbaa'ovvo,[3;4;1;2])] [0;4;3]));
  (*3866*) Assign n_l1new'aa (Plain (Copy n_l1new_aa));
  (*3867*) Assign n_l1new'bb (Plain (Copy n_l1new_bb));
  (*3868*) Assign n_l2new'abab (Plain (Copy n_l2new_abab));
  (*3869*) Assign n_l2new'baba (Plain (Copy n_l2new_baba));
  (*3870*) Assign n_l2new'aaaa (Plain (Copy n_l2new_aaaa));
  (*3871*) Assign n_l2new'bbbb (Plain (Copy n_l2new_bbbb));
  (*3872*) Assign n_lu11new'aa (Plain (Copy n_lu11new_aa));
  (*3873*) Assign n_lu11new'bb (Plain (Copy n_lu11new_bb))]
 [(n_l1new'aa,[5;4]); (n_l1new'bb,[7;6]); (n_l2new'abab,[5;7;4;6]); (n_l2new'baba,[7;5;6;4]); (n_l2new'aaaa,[5;5;4;4]); (n_l2new'bbbb,[7;7;6;6]); (n_ls1new,[3]); (n_ls2new,[3;3]); (n_lu11new'aa,[3;5;4]); (n_lu11new'bb,[3;7;6])].

(** ebcc/codegen/UCCSD_SD_1_1.py:3877-4043 [make_rdm1_f]; assembly (line 4037) not translated; assembly (line 4038) not translated *)
Definition UCCSD_SD_1_1_make_rdm1_f : prog := mkprog
 [(n_g'aa'boo,[3;4;4]); (n_g'aa'bvo,[3;5;4]); (n_g'aa'bov,[3;4;5]); (n_g'aa'bvv,[3;5;5]); (n_g'bb'boo,[3;6;6]); (n_g'bb'bvo,[3;7;6]); (n_g'bb'bov,[3;6;7]); (n_g'bb'bvv,[3;7;7]); (n_l2'abab,[5;7;4;6]); (n_t2'abab,[4;6;5;7]); (n_l1'aa,[5;4]); (n_t1'aa,[4;5]); (n_lu11'aa,[3;5;4]); (n_u11'aa,[3;4;5]); (n_t2'aaaa,[4;4;5;5]); (n_l2'aaaa,[5;5;4;4]); (n_lu11'bb,[3;7;6]); (n_u11'bb,[3;6;7]); (n_l1'bb,[7;6]); (n_t1'bb,[6;7]); (n_t2'bbbb,[6;6;7;7]); (n_l2'bbbb,[7;7;6;6]); (n_ls1,[3])]
 [(*3881*) Assign n_gc'aa'boo (Plain (Transpose n_g'aa'boo [0;2;1]));
  (*3881*) Assign n_gc'aa'bov (Plain (Transpose n_g'aa'bvo [0;2;1]));
  (*3881*) Assign n_gc'aa'bvo (Plain (Transpose n_g'aa'bov [0;2;1]));
  (*3881*) Assign n_gc'aa'bvv (Plain (Transpose n_g'aa'bvv [0;2;1]));
  (*3881*) Assign n_gc'bb'boo (Plain (Transpose n_g'bb'boo [0;2;1]));
  (*3881*) Assign n_gc'bb'bov (Plain (Transpose n_g'bb'bvo [0;2;1]));
  (*3881*) Assign n_gc'bb'bvo (Plain (Transpose n_g'bb'bov [0;2;1]));
  (*3881*) Assign n_gc'bb'bvv (Plain (Transpose n_g'bb'bvv [0;2;1]));
  (*3897*) Assign n_delta_oo'aa (Plain (Eye 4));
  (*3898*) Assign n_delta_oo'bb (Plain (Eye 6));
  (*3900*) Assign n_delta_vv'aa (Plain (Eye 5));
  (*3901*) Assign n_delta_vv'bb (Plain (Eye 7));
  (*3904*) Assign (T 1) (Plain (Zeros [4;4]));
  (*3905*) AddTo (T 1) (Plain (Einsum [(n_l2'abab,[0;1;2;3]); (n_t2'abab,[4;3;0;1])] [2;4]));
  (*3906*) Assign (T 15) (Plain (Zeros [4;4]));
  (*3907*) AddTo (T 15) (Plain (Einsum [(T 1,[0;1])] [0;1]));
  (*3908*) Assign n_rdm1_f_oo_aa (Plain (Zeros [4;4]));
  (*3909*) AddTo n_rdm1_f_oo_aa (Times (Einsum [(T 1,[0;1])] [0;1]) (-1) 1);
  (*3910*) Del (T 1);
  (*3911*) Assign (T 2) (Plain (Zeros [4;4]));
  (*3912*) AddTo (T 2) (Plain (Einsum [(n_l1'aa,[0;1]); (n_t1'aa,[2;0])] [1;2]));
  (*3913*) AddTo (T 15) (Plain (Einsum [(T 2,[0;1])] [0;1]));
  (*3914*) SubFrom n_rdm1_f_oo_aa (Plain (Einsum [(T 2,[0;1])] [0;1]));
  (*3915*) Del (T 2);
  (*3916*) Assign (T 3) (Plain (Zeros [4;4]));
  (*3917*) AddTo (T 3) (Plain (Einsum [(n_lu11'aa,[0;1;2]); (n_u11'aa,[0;3;1])] [2;3]));
  (*3918*) AddTo (T 15) (Plain (Einsum [(T 3,[0;1])] [0;1]));
  (*3919*) SubFrom n_rdm1_f_oo_aa (Plain (Einsum [(T 3,[0;1])] [0;1]));
  (*3920*) Del (T 3);
  (*3921*) Assign (T 4) (Plain (Zeros [4;4;5;5]));
  (*3922*) AddTo (T 4) (Plain (Einsum [(n_t2'aaaa,[0;1;2;3])] [1;0;2;3]));
  (*3923*) AddTo (T 4) (Times (Einsum [(n_t2'aaaa,[0;1;2;3])] [1;0;3;2]) (-1) 1);
  (*3924*) AddTo n_rdm1_f_oo_aa (Times (Einsum [(n_l2'aaaa,[0;1;2;3]); (T 4,[2;4;1;0])] [3;4]) (-1) 1);
  (*3925*) Del (T 4);
  (*3926*) Assign (T 5) (Plain (Zeros [6;6]));
  (*3927*) AddTo (T 5) (Plain (Einsum [(n_lu11'bb,[0;1;2]); (n_u11'bb,[0;3;1])] [2;3]));
  (*3928*) Assign (T 22) (Plain (Zeros [6;6]));
  (*3929*) AddTo (T 22) (Plain (Einsum [(T 5,[0;1])] [0;1]));
  (*3930*) Assign n_rdm1_f_oo_bb (Plain (Zeros [6;6]));
  (*3931*) SubFrom n_rdm1_f_oo_bb (Plain (Einsum [(T 5,[0;1])] [0;1]));
  (*3932*) Del (T 5);
  (*3933*) Assign (T 6) (Plain (Zeros [6;6]));
  (*3934*) AddTo (T 6) (Plain (Einsum [(n_l2'abab,[0;1;2;3]); (n_t2'abab,[2;4;0;1])] [3;4]));
  (*3935*) AddTo (T 22) (Plain (Einsum [(T 6,[0;1])] [0;1]));
  (*3936*) AddTo n_rdm1_f_oo_bb (Times (Einsum [(T 6,[0;1])] [0;1]) (-1) 1);
  (*3937*) Del (T 6);
  (*3938*) Assign (T 7) (Plain (Zeros [6;6]));
  (*3939*) AddTo (T 7) (Plain (Einsum [(n_l1'bb,[0;1]); (n_t1'bb,[2;0])] [1;2]));
  (*3940*) AddTo (T 22) (Plain (Einsum [(T 7,[0;1])] [0;1]));
  (*3941*) SubFrom n_rdm1_f_oo_bb (Plain (Einsum [(T 7,[0;1])] [0;1]));
  (*3942*) Del (T 7);
  (*3943*) Assign (T 8) (Plain (Zeros [6;6;7;7]));
  (*3944*) AddTo (T 8) (Plain (Einsum [(n_t2'bbbb,[0;1;2;3])] [1;0;2;3]));
  (*3945*) AddTo (T 8) (Times (Einsum [(n_t2'bbbb,[0;1;2;3])] [1;0;3;2]) (-1) 1);
  (*3946*) AddTo n_rdm1_f_oo_bb (Times (Einsum [(n_l2'bbbb,[0;1;2;3]); (T 8,[2;4;1;0])] [3;4]) (-1) 1);
  (*3947*) Del (T 8);
  (*3948*) Assign (T 9) (Plain (Zeros [3;4;4]));
  (*3949*) AddTo (T 9) (Plain (Einsum [(n_t1'aa,[0;1]); (n_lu11'aa,[2;1;3])] [2;3;0]));
  (*3950*) Assign n_rdm1_f_vo_aa (Plain (Zeros [5;4]));
  (*3951*) SubFrom n_rdm1_f_vo_aa (Plain (Einsum [(n_u11'aa,[0;1;2]); (T 9,[0;1;3])] [2;3]));
  (*3952*) Del (T 9);
  (*3953*) Assign (T 10) (Plain (Zeros [4;4;6;7]));
  (*3954*) AddTo (T 10) (Plain (Einsum [(n_t1'aa,[0;1]); (n_l2'abab,[1;2;3;4])] [3;0;4;2]));
  (*3955*) AddTo n_rdm1_f_vo_aa (Times (Einsum [(n_t2'abab,[0;1;2;3]); (T 10,[0;4;1;3])] [2;4]) (-1) 1);
  (*3956*) Del (T 10);
  (*3957*) Assign (T 11) (Plain (Zeros [4;4;4;5]));
  (*3958*) AddTo (T 11) (Plain (Einsum [(n_t1'aa,[0;1]); (n_l2'aaaa,[2;1;3;4])] [3;4;0;2]));
  (*3959*) Assign (T 12) (Plain (Zeros [4;4;4;5]));
  (*3960*) AddTo (T 12) (Times (Einsum [(T 11,[0;1;2;3])] [0;1;2;3]) (-1) 1);
  (*3961*) AddTo (T 12) (Plain (Einsum [(T 11,[0;1;2;3])] [1;0;2;3]));
  (*3962*) Del (T 11);
  (*3963*) AddTo n_rdm1_f_vo_aa (Times (Einsum [(n_t2'aaaa,[0;1;2;3]); (T 12,[0;1;4;3])] [2;4]) (-1) 1);
  (*3964*) Del (T 12);
  (*3965*) Assign (T 13) (Plain (Zeros [4;4;5;5]));
  (*3966*) SubFrom (T 13) (Plain (Einsum [(n_t2'aaaa,[0;1;2;3])] [1;0;2;3]));
  (*3967*) AddTo (T 13) (Plain (Einsum [(n_t2'aaaa,[0;1;2;3])] [1;0;3;2]));
  (*3968*) SubFrom n_rdm1_f_vo_aa (Plain (Einsum [(n_l1'aa,[0;1]); (T 13,[1;2;3;0])] [3;2]));
  (*3969*) Del (T 13);
  (*3970*) Assign (T 14) (Plain (Zeros [4;4;5;5]));
  (*3971*) AddTo (T 14) (Times (Einsum [(n_t2'aaaa,[0;1;2;3])] [1;0;2;3]) (-1) 1);
  (*3972*) AddTo (T 14) (Plain (Einsum [(n_t2'aaaa,[0;1;2;3])] [1;0;3;2]));
  (*3973*) AddTo (T 15) (Times (Einsum [(n_l2'aaaa,[0;1;2;3]); (T 14,[2;4;1;0])] [3;4]) (-1) 1);
  (*3974*) Del (T 14);
  (*3975*) AddTo n_rdm1_f_vo_aa (Times (Einsum [(n_t1'aa,[0;1]); (T 15,[0;2])] [1;2]) (-1) 1);
  (*3976*) Del (T 15);
  (*3977*) Assign (T 16) (Plain (Zeros [4;6;6;5]));
  (*3978*) AddTo (T 16) (Plain (Einsum [(n_t1'bb,[0;1]); (n_l2'abab,[2;1;3;4])] [3;4;0;2]));
  (*3979*) Assign n_rdm1_f_vo_bb (Plain (Zeros [7;6]));
  (*3980*) AddTo n_rdm1_f_vo_bb (Times (Einsum [(n_t2'abab,[0;1;2;3]); (T 16,[0;1;4;2])] [3;4]) (-1) 1);
  (*3981*) Del (T 16);
  (*3982*) Assign (T 17) (Plain (Zeros [3;6;6]));
  (*3983*) AddTo (T 17) (Plain (Einsum [(n_t1'bb,[0;1]); (n_lu11'bb,[2;1;3])] [2;3;0]));
  (*3984*) SubFrom n_rdm1_f_vo_bb (Plain (Einsum [(n_u11'bb,[0;1;2]); (T 17,[0;1;3])] [2;3]));
  (*3985*) Del (T 17);
  (*3986*) Assign (T 18) (Plain (Zeros [6;6;6;7]));
  (*3987*) AddTo (T 18) (Plain (Einsum [(n_t1'bb,[0;1]); (n_l2'bbbb,[1;2;3;4])] [4;3;0;2]));
  (*3988*) Assign (T 19) (Plain (Zeros [6;6;6;7]));
  (*3989*) AddTo (T 19) (Plain (Einsum [(T 18,[0;1;2;3])] [0;1;2;3]));
  (*3990*) AddTo (T 19) (Times (Einsum [(T 18,[0;1;2;3])] [1;0;2;3]) (-1) 1);
  (*3991*) Del (T 18);
  (*3992*) AddTo n_rdm1_f_vo_bb (Times (Einsum [(n_t2'bbbb,[0;1;2;3]); (T 19,[0;1;4;2])] [3;4]) (-1) 1);
  (*3993*) Del (T 19);
  (*3994*) Assign (T 20) (Plain (Zeros [6;6;7;7]));
  (*3995*) AddTo (T 20) (Plain (Einsum [(n_t2'bbbb,[0;1;2;3])] [1;0;2;3]));
  (*3996*) SubFrom (T 20) (Plain (Einsum [(n_t2'bbbb,[0;1;2;3])] [1;0;3;2]));
  (*3997*) SubFrom n_rdm1_f_vo_bb (Plain (Einsum [(n_l1'bb,[0;1]); (T 20,[1;2;0;3])] [3;2]));
  (*3998*) Del (T 20);
  (*3999*) Assign (T 21) (Plain (Zeros [6;6;7;7]));
  (*4000*) AddTo (T 21) (Times (Einsum [(n_t2'bbbb,[0;1;2;3])] [1;0;2;3]) (-1) 1);
  (*4001*) AddTo (T 21) (Plain (Einsum [(n_t2'bbbb,[0;1;2;3])] [1;0;3;2]));
  (*4002*) AddTo (T 22) (Times (Einsum [(n_l2'bbbb,[0;1;2;3]); (T 21,[2;4;1;0])] [3;4]) (-1) 1);
  (*4003*) Del (T 21);
  (*4004*) AddTo n_rdm1_f_vo_bb (Times (Einsum [(n_t1'bb,[0;1]); (T 22,[0;2])] [1;2]) (-1) 1);
  (*4005*) Del (T 22);
  (*4006*) Assign (T 23) (Plain (Zeros [4;4;5;5]));
  (*4007*) AddTo (T 23) (Plain (Einsum [(n_l2'aaaa,[0;1;2;3])] [3;2;0;1]));
  (*4008*) AddTo (T 23) (Times (Einsum [(n_l2'aaaa,[0;1;2;3])] [3;2;1;0]) (-1) 1);
  (*4009*) Assign n_rdm1_f_vv_aa (Plain (Zeros [5;5]));
  (*4010*) AddTo n_rdm1_f_vv_aa (Times (Einsum [(n_t2'aaaa,[0;1;2;3]); (T 23,[0;1;4;3])] [2;4]) (-1) 1);
  (*4011*) Del (T 23);
  (*4012*) Assign (T 24) (Plain (Zeros [6;6;7;7]));
  (*4013*) AddTo (T 24) (Times (Einsum [(n_l2'bbbb,[0;1;2;3])] [3;2;0;1]) (-1) 1);
  (*4014*) AddTo (T 24) (Plain (Einsum [(n_l2'bbbb,[0;1;2;3])] [3;2;1;0]));
  (*4015*) Assign n_rdm1_f_vv_bb (Plain (Zeros [7;7]));
  (*4016*) AddTo n_rdm1_f_vv_bb (Times (Einsum [(n_t2'bbbb,[0;1;2;3]); (T 24,[0;1;4;2])] [3;4]) (-1) 1);
  (*4017*) Del (T 24);
  (*4018*) AddTo n_rdm1_f_oo_aa (Plain (Einsum [(n_delta_oo'aa,[0;1])] [1;0]));
  (*4019*) AddTo n_rdm1_f_oo_bb (Plain (Einsum [(n_delta_oo'bb,[0;1])] [1;0]));
  (*4020*) Assign n_rdm1_f_ov_aa (Plain (Zeros [4;5]));
  (*4021*) AddTo n_rdm1_f_ov_aa (Plain (Einsum [(n_l1'aa,[0;1])] [1;0]));
  (*4022*) Assign n_rdm1_f_ov_bb (Plain (Zeros [6;7]));
  (*4023*) AddTo n_rdm1_f_ov_bb (Plain (Einsum [(n_l1'bb,[0;1])] [1;0]));
  (*4024*) AddTo n_rdm1_f_vo_aa (Plain (Einsum [(n_l1'bb,[0;1]); (n_t2'abab,[2;1;3;0])] [3;2]));
  (*4025*) AddTo n_rdm1_f_vo_aa (Plain (Einsum [(n_ls1,[0]); (n_u11'aa,[0;1;2])] [2;1]));
  (*4026*) AddTo n_rdm1_f_vo_aa (Plain (Einsum [(n_t1'aa,[0;1])] [1;0]));
  (*4027*) AddTo n_rdm1_f_vo_bb (Plain (Einsum [(n_l1'aa,[0;1]); (n_t2'abab,[1;2;0;3])] [3;2]));
  (*4028*) AddTo n_rdm1_f_vo_bb (Plain (Einsum [(n_ls1,[0]); (n_u11'bb,[0;1;2])] [2;1]));
  (*4029*) AddTo n_rdm1_f_vo_bb (Plain (Einsum [(n_t1'bb,[0;1])] [1;0]));
  (*4030*) AddTo n_rdm1_f_vv_aa (Plain (Einsum [(n_lu11'aa,[0;1;2]); (n_u11'aa,[0;2;3])] [3;1]));
  (*4031*) AddTo n_rdm1_f_vv_aa (Plain (Einsum [(n_l1'aa,[0;1]); (n_t1'aa,[1;2])] [2;0]));
  (*4032*) AddTo n_rdm1_f_vv_aa (Plain (Einsum [(n_l2'abab,[0;1;2;3]); (n_t2'abab,[2;3;4;1])] [4;0]));
  (*4033*) AddTo n_rdm1_f_vv_bb (Plain (Einsum [(n_lu11'bb,[0;1;2]); (n_u11'bb,[0;2;3])] [3;1]));
  (*4034*) AddTo n_rdm1_f_vv_bb (Plain (Einsum [(n_l2'abab,[0;1;2;3]); (n_t2'abab,[2;3;0;4])] [4;1]));
  (*4035*) AddTo n_rdm1_f_vv_bb (Plain (Einsum [(n_l1'bb,[0;1]); (n_t1'bb,[1;2])] [2;0]))]
 [(n_rdm1_f_oo_aa,[4;4]); (n_rdm1_f_ov_aa,[4;5]); (n_rdm1_f_vo_aa,[5;4]); (n_rdm1_f_vv_aa,[5;5]); (n_rdm1_f_oo_bb,[6;6]); (n_rdm1_f_ov_bb,[6;7]); (n_rdm1_f_vo_bb,[7;6]); (n_rdm1_f_vv_bb,[7;7])].

(** ebcc/codegen/UCCSD_SD_1_1.py:4045-5661 [make_rdm2_f]; assembly (line 5651) not translated; assembly (line 5652) not translated; assembly (line 5653) not translated; assembly (line 5654) not translated *)
Definition UCCSD_SD_1_1_make_rdm2_f : prog := mkprog
 [(n_g'aa'boo,[3;4;4]); (n_g'aa'bvo,[3;5;4]); (n_g'aa'bov,[3;4;5]); (n_g'aa'bvv,[3;5;5]); (n_g'bb'boo,[3;6;6]); (n_g'bb'bvo,[3;7;6]); (n_g'bb'bov,[3;6;7]); (n_g'bb'bvv,[3;7;7]); (n_l1'aa,[5;4]); (n_t1'aa,[4;5]); (n_t2'aaaa,[4;4;5;5]); (n_l2'abab,[5;7;4;6]); (n_t2'abab,[4;6;5;7]); (n_l2'aaaa,[5;5;4;4]); (n_lu11'aa,[3;5;4]); (n_u11'aa,[3;4;5]); (n_t1'bb,[6;7]); (n_l1'bb,[7;6]); (n_t2'bbbb,[6;6;7;7]); (n_lu11'bb,[3;7;6]); (n_u11'bb,[3;6;7]); (n_l2'bbbb,[7;7;6;6]); (n_ls1,[3]); (n_ls2,[3;3])]
 [(*4049*) Assign n_gc'aa'boo (Plain (Transpose n_g'aa'boo [0;2;1]));
  (*4049*) Assign n_gc'aa'bov (Plain (Transpose n_g'aa'bvo [0;2;1]));
  (*4049*) Assign n_gc'aa'bvo (Plain (Transpose n_g'aa'bov [0;2;1]));
  (*4049*) Assign n_gc'aa'bvv (Plain (Transpose n_g'aa'bvv [0;2;1]));
  (*4049*) Assign n_gc'bb'boo (Plain (Transpose n_g'bb'boo [0;2;1]));
  (*4049*) Assign n_gc'bb'bov (Plain (Transpose n_g'bb'bvo [0;2;1]));
  (*4049*) Assign n_gc'bb'bvo (Plain (Transpose n_g'bb'bov [0;2;1]));
  (*4049*) Assign n_gc'bb'bvv (Plain (Transpose n_g'bb'bvv [0;2;1]));
  (*4065*) Assign n_delta_oo'aa (Plain (Eye 4));
  (*4066*) Assign n_delta_oo'bb (Plain (Eye 6));
  (*4068*) Assign n_delta_vv'aa (Plain (Eye 5));
  (*4069*) Assign n_delta_vv'bb (Plain (Eye 7));
  (*4072*) Assign (T 1) (Plain (Zeros [4;4]));
  (*4073*) AddTo (T 1) (Plain (Einsum [(n_l1'aa,[0;1]); (n_t1'aa,[2;0])] [1;2]));
  (*4074*) Assign (T 13) (Plain (Zeros [4;4]));
  (*4075*) AddTo (T 13) (Plain (Einsum [(T 1,[0;1])] [1;0]));
  (*4076*) Assign (T 34) (Plain (Zeros [4;4]));
  (*4077*) AddTo (T 34) (Plain (Einsum [(T 1,[0;1])] [0;1]));
  (*4078*) Assign (T 48) (Plain (Zeros [4;5]));
  (*4079*) AddTo (T 48) (Plain (Einsum [(n_t1'aa,[0;1]); (T 1,[0;2])] [2;1]));
  (*4080*) Assign (T 49) (Plain (Zeros [4;5]));
  (*4081*) SubFrom (T 49) (Plain (Einsum [(T 48,[0;1])] [0;1]));
  (*4082*) Del (T 48);
  (*4083*) Assign (T 86) (Plain (Zeros [4;4]));
  (*4084*) AddTo (T 86) (Plain (Einsum [(T 1,[0;1])] [0;1]));
  (*4085*) Assign (T 154) (Plain (Zeros [4;4;5;5]));
  (*4086*) AddTo (T 154) (Plain (Einsum [(T 1,[0;1]); (n_t2'aaaa,[2;0;3;4])] [1;2;3;4]));
  (*4087*) Assign (T 172) (Plain (Zeros [4;4;5;5]));
  (*4088*) AddTo (T 172) (Plain (Einsum [(T 154,[0;1;2;3])] [0;1;2;3]));
  (*4089*) Del (T 154);
  (*4090*) Assign (T 259) (Plain (Zeros [4;4]));
  (*4091*) AddTo (T 259) (Plain (Einsum [(T 1,[0;1])] [0;1]));
  (*4092*) Assign n_rdm2_f_oooo_aaaa (Plain (Zeros [4;4;4;4]));
  (*4093*) SubFrom n_rdm2_f_oooo_aaaa (Plain (Einsum [(n_delta_oo'aa,[0;1]); (T 1,[2;3])] [1;0;2;3]));
  (*4094*) AddTo n_rdm2_f_oooo_aaaa (Plain (Einsum [(n_delta_oo'aa,[0;1]); (T 1,[2;3])] [2;0;1;3]));
  (*4095*) AddTo n_rdm2_f_oooo_aaaa (Plain (Einsum [(n_delta_oo'aa,[0;1]); (T 1,[2;3])] [1;3;2;0]));
  (*4096*) SubFrom n_rdm2_f_oooo_aaaa (Plain (Einsum [(n_delta_oo'aa,[0;1]); (T 1,[2;3])] [2;3;1;0]));
  (*4097*) Del (T 1);
  (*4098*) Assign (T 2) (Plain (Zeros [4;4]));
  (*4099*) AddTo (T 2) (Plain (Einsum [(n_l2'abab,[0;1;2;3]); (n_t2'abab,[4;3;0;1])] [2;4]));
  (*4100*) Assign (T 5) (Plain (Zeros [4;4]));
  (*4101*) AddTo (T 5) (Plain (Einsum [(T 2,[0;1])] [0;1]));
  (*4102*) AddTo (T 13) (Plain (Einsum [(T 2,[0;1])] [1;0]));
  (*4103*) AddTo (T 86) (Plain (Einsum [(T 2,[0;1])] [0;1]));
  (*4104*) AddTo (T 259) (Plain (Einsum [(T 2,[0;1])] [0;1]));
  (*4105*) Del (T 2);
  (*4106*) Assign (T 3) (Plain (Zeros [4;4;5;5]));
  (*4107*) AddTo (T 3) (Plain (Einsum [(n_t2'aaaa,[0;1;2;3])] [1;0;2;3]));
  (*4108*) AddTo (T 3) (Times (Einsum [(n_t2'aaaa,[0;1;2;3])] [1;0;3;2]) (-1) 1);
  (*4109*) Assign (T 4) (Plain (Zeros [4;4]));
  (*4110*) AddTo (T 4) (Plain (Einsum [(n_l2'aaaa,[0;1;2;3]); (T 3,[2;4;0;1])] [3;4]));
  (*4111*) AddTo (T 5) (Times (Einsum [(T 4,[0;1])] [0;1]) (-1) 1);
  (*4112*) Assign (T 44) (Plain (Zeros [4;5]));
  (*4113*) AddTo (T 44) (Plain (Einsum [(n_t1'aa,[0;1]); (T 5,[0;2])] [2;1]));
  (*4114*) Assign (T 45) (Plain (Zeros [4;5]));
  (*4115*) AddTo (T 45) (Plain (Einsum [(T 44,[0;1])] [0;1]));
  (*4116*) Del (T 44);
  (*4117*) Assign (T 46) (Plain (Zeros [4;4;4;5]));
  (*4118*) AddTo (T 46) (Plain (Einsum [(n_t1'aa,[0;1]); (T 5,[2;3])] [2;0;3;1]));
  (*4119*) Assign (T 97) (Plain (Zeros [4;4;4;5]));
  (*4120*) AddTo (T 97) (Plain (Einsum [(n_t1'aa,[0;1]); (T 5,[2;3])] [2;0;3;1]));
  (*4121*) Assign (T 175) (Plain (Zeros [4;4;5;5]));
  (*4122*) AddTo (T 175) (Plain (Einsum [(T 5,[0;1]); (n_t2'aaaa,[0;2;3;4])] [2;1;3;4]));
  (*4123*) Assign (T 176) (Plain (Zeros [4;4;5;5]));
  (*4124*) AddTo (T 176) (Plain (Einsum [(T 175,[0;1;2;3])] [0;1;3;2]));
  (*4125*) Del (T 175);
  (*4126*) AddTo n_rdm2_f_oooo_aaaa (Times (Einsum [(n_delta_oo'aa,[0;1]); (T 5,[2;3])] [1;0;2;3]) (-1) 1);
  (*4127*) AddTo n_rdm2_f_oooo_aaaa (Plain (Einsum [(n_delta_oo'aa,[0;1]); (T 5,[2;3])] [1;3;2;0]));
  (*4128*) AddTo n_rdm2_f_oooo_aaaa (Plain (Einsum [(n_delta_oo'aa,[0;1]); (T 5,[2;3])] [2;1;0;3]));
  (*4129*) AddTo n_rdm2_f_oooo_aaaa (Times (Einsum [(n_delta_oo'aa,[0;1]); (T 5,[2;3])] [2;3;0;1]) (-1) 1);
  (*4130*) Del (T 5);
  (*4131*) AddTo (T 13) (Times (Einsum [(T 4,[0;1])] [1;0]) (-1) 1);
  (*4132*) AddTo (T 86) (Times (Einsum [(T 4,[0;1])] [0;1]) (-1) 1);
  (*4133*) Del (T 4);
  (*4134*) Assign (T 93) (Plain (Zeros [4;5]));
  (*4135*) AddTo (T 93) (Plain (Einsum [(n_l1'aa,[0;1]); (T 3,[1;2;3;0])] [2;3]));
  (*4136*) Assign (T 95) (Plain (Zeros [4;5]));
  (*4137*) AddTo (T 95) (Times (Einsum [(T 93,[0;1])] [0;1]) (-1) 1);
  (*4138*) Assign (T 260) (Plain (Zeros [4;5]));
  (*4139*) AddTo (T 260) (Times (Einsum [(T 93,[0;1])] [0;1]) (-1) 1);
  (*4140*) Del (T 93);
  (*4141*) Assign (T 258) (Plain (Zeros [4;4]));
  (*4142*) AddTo (T 258) (Plain (Einsum [(n_l2'aaaa,[0;1;2;3]); (T 3,[2;4;0;1])] [3;4]));
  (*4143*) AddTo (T 259) (Times (Einsum [(T 258,[0;1])] [0;1]) (-1) 1);
  (*4144*) Del (T 258);
  (*4145*) Assign (T 261) (Plain (Zeros [4;5]));
  (*4146*) AddTo (T 261) (Times (Einsum [(n_l1'aa,[0;1]); (T 3,[1;2;3;0])] [2;3]) (-9999999999999993) 10000000000000000);
  (*4147*) Assign (T 303) (Plain (Zeros [4;6;5;7]));
  (*4148*) AddTo (T 303) (Plain (Einsum [(n_l2'abab,[0;1;2;3]); (T 3,[2;4;5;0])] [4;3;5;1]));
  (*4149*) Assign (T 305) (Plain (Zeros [4;6;5;7]));
  (*4150*) AddTo (T 305) (Times (Einsum [(T 303,[0;1;2;3])] [0;1;2;3]) (-1) 1);
  (*4151*) Del (T 303);
  (*4152*) Assign (T 6) (Plain (Zeros [4;4]));
  (*4153*) AddTo (T 6) (Plain (Einsum [(n_lu11'aa,[0;1;2]); (n_u11'aa,[0;3;1])] [2;3]));
  (*4154*) AddTo (T 13) (Plain (Einsum [(T 6,[0;1])] [1;0]));
  (*4155*) Assign (T 30) (Plain (Zeros [4;5]));
  (*4156*) AddTo (T 30) (Plain (Einsum [(n_t1'aa,[0;1]); (T 6,[0;2])] [2;1]));
  (*4157*) Assign (T 33) (Plain (Zeros [4;5]));
  (*4158*) AddTo (T 33) (Plain (Einsum [(T 30,[0;1])] [0;1]));
  (*4159*) Del (T 30);
  (*4160*) AddTo (T 34) (Plain (Einsum [(T 6,[0;1])] [0;1]));
  (*4161*) Assign (T 35) (Plain (Zeros [4;4;4;5]));
  (*4162*) AddTo (T 35) (Plain (Einsum [(n_t1'aa,[0;1]); (T 34,[2;3])] [2;0;3;1]));
  (*4163*) Assign (T 96) (Plain (Zeros [4;4;4;5]));
  (*4164*) AddTo (T 96) (Plain (Einsum [(n_t1'aa,[0;1]); (T 34,[2;3])] [2;0;3;1]));
  (*4165*) Assign (T 184) (Plain (Zeros [4;5]));
  (*4166*) AddTo (T 184) (Plain (Einsum [(n_t1'aa,[0;1]); (T 34,[0;2])] [2;1]));
  (*4167*) Del (T 34);
  (*4168*) Assign (T 185) (Plain (Zeros [4;5]));
  (*4169*) AddTo (T 185) (Plain (Einsum [(T 184,[0;1])] [0;1]));
  (*4170*) Assign (T 186) (Plain (Zeros [4;5]));
  (*4171*) AddTo (T 186) (Plain (Einsum [(T 184,[0;1])] [0;1]));
  (*4172*) Del (T 184);
  (*4173*) AddTo (T 86) (Plain (Einsum [(T 6,[0;1])] [0;1]));
  (*4174*) Assign (T 94) (Plain (Zeros [4;5]));
  (*4175*) AddTo (T 94) (Plain (Einsum [(n_t1'aa,[0;1]); (T 86,[0;2])] [2;1]));
  (*4176*) AddTo (T 95) (Plain (Einsum [(T 94,[0;1])] [0;1]));
  (*4177*) Del (T 94);
  (*4178*) Assign (T 249) (Plain (Zeros [4;6;5;7]));
  (*4179*) AddTo (T 249) (Plain (Einsum [(T 86,[0;1]); (n_t2'abab,[0;2;3;4])] [1;2;3;4]));
  (*4180*) Assign n_rdm2_f_vovo_bbaa (Plain (Zeros [7;6;5;4]));
  (*4181*) AddTo n_rdm2_f_vovo_bbaa (Times (Einsum [(T 249,[0;1;2;3])] [3;1;2;0]) (-1) 1);
  (*4182*) Assign n_rdm2_f_vovo_aabb (Plain (Zeros [5;4;7;6]));
  (*4183*) AddTo n_rdm2_f_vovo_aabb (Times (Einsum [(T 249,[0;1;2;3])] [2;0;3;1]) (-1) 1);
  (*4184*) Del (T 249);
  (*4185*) Assign n_rdm2_f_oovo_aabb (Plain (Zeros [4;4;7;6]));
  (*4186*) AddTo n_rdm2_f_oovo_aabb (Times (Einsum [(n_t1'bb,[0;1]); (T 86,[2;3])] [2;3;1;0]) (-1) 1);
  (*4187*) Del (T 86);
  (*4188*) Assign (T 156) (Plain (Zeros [4;4;5;5]));
  (*4189*) AddTo (T 156) (Plain (Einsum [(T 6,[0;1]); (n_t2'aaaa,[2;0;3;4])] [2;1;3;4]));
  (*4190*) SubFrom (T 172) (Plain (Einsum [(T 156,[0;1;2;3])] [0;1;2;3]));
  (*4191*) Del (T 156);
  (*4192*) AddTo (T 259) (Plain (Einsum [(T 6,[0;1])] [0;1]));
  (*4193*) AddTo (T 260) (Plain (Einsum [(n_t1'aa,[0;1]); (T 259,[0;2])] [2;1]));
  (*4194*) AddTo (T 261) (Times (Einsum [(n_t1'aa,[0;1]); (T 259,[0;2])] [2;1]) (9999999999999993) 10000000000000000);
  (*4195*) Del (T 259);
  (*4196*) SubFrom n_rdm2_f_oooo_aaaa (Plain (Einsum [(n_delta_oo'aa,[0;1]); (T 6,[2;3])] [0;1;2;3]));
  (*4197*) AddTo n_rdm2_f_oooo_aaaa (Plain (Einsum [(n_delta_oo'aa,[0;1]); (T 6,[2;3])] [0;3;2;1]));
  (*4198*) AddTo n_rdm2_f_oooo_aaaa (Plain (Einsum [(n_delta_oo'aa,[0;1]); (T 6,[2;3])] [2;0;1;3]));
  (*4199*) SubFrom n_rdm2_f_oooo_aaaa (Plain (Einsum [(n_delta_oo'aa,[0;1]); (T 6,[2;3])] [2;3;1;0]));
  (*4200*) Del (T 6);
  (*4201*) Assign (T 7) (Plain (Zeros [4;4;4;4]));
  (*4202*) AddTo (T 7) (Plain (Einsum [(n_l2'aaaa,[0;1;2;3]); (n_t2'aaaa,[4;5;1;0])] [2;3;5;4]));
  (*4203*) Assign (T 40) (Plain (Zeros [4;4;4;4]));
  (*4204*) AddTo (T 40) (Plain (Einsum [(T 7,[0;1;2;3])] [1;0;3;2]));
  (*4205*) Assign (T 177) (Plain (Zeros [4;4;5;5]));
  (*4206*) AddTo (T 177) (Plain (Einsum [(n_t2'aaaa,[0;1;2;3]); (T 7,[0;1;4;5])] [4;5;2;3]));
  (*4207*) Assign (T 181) (Plain (Zeros [4;4;5;5]));
  (*4208*) AddTo (T 181) (Plain (Einsum [(T 177,[0;1;2;3])] [0;1;2;3]));
  (*4209*) Del (T 177);
  (*4210*) Assign (T 179) (Plain (Zeros [4;4;4;5]));
  (*4211*) AddTo (T 179) (Plain (Einsum [(n_t1'aa,[0;1]); (T 7,[2;0;3;4])] [2;3;4;1]));
  (*4212*) Assign (T 180) (Plain (Zeros [4;4;5;5]));
  (*4213*) AddTo (T 180) (Plain (Einsum [(n_t1'aa,[0;1]); (T 179,[0;2;3;4])] [2;3;1;4]));
  (*4214*) Del (T 179);
  (*4215*) AddTo (T 181) (Plain (Einsum [(T 180,[0;1;2;3])] [0;1;2;3]));
  (*4216*) Del (T 180);
  (*4217*) AddTo n_rdm2_f_oooo_aaaa (Times (Einsum [(T 7,[0;1;2;3])] [1;2;0;3]) (-1) 1);
  (*4218*) AddTo n_rdm2_f_oooo_aaaa (Plain (Einsum [(T 7,[0;1;2;3])] [1;3;0;2]));
  (*4219*) Del (T 7);
  (*4220*) Assign (T 8) (Plain (Zeros [4;4;4;5]));
  (*4221*) AddTo (T 8) (Plain (Einsum [(n_t1'aa,[0;1]); (n_l2'aaaa,[1;2;3;4])] [4;3;0;2]));
  (*4222*) Assign (T 9) (Plain (Zeros [4;4;4;4]));
  (*4223*) AddTo (T 9) (Plain (Einsum [(n_t1'aa,[0;1]); (T 8,[2;3;4;1])] [2;3;0;4]));
  (*4224*) AddTo (T 40) (Plain (Einsum [(T 9,[0;1;2;3])] [0;1;2;3]));
  (*4225*) Assign (T 41) (Plain (Zeros [4;4;4;5]));
  (*4226*) AddTo (T 41) (Plain (Einsum [(n_t1'aa,[0;1]); (T 40,[0;2;3;4])] [2;3;4;1]));
  (*4227*) Del (T 40);
  (*4228*) AddTo (T 46) (Plain (Einsum [(T 41,[0;1;2;3])] [0;2;1;3]));
  (*4229*) AddTo (T 97) (Plain (Einsum [(T 41,[0;1;2;3])] [0;2;1;3]));
  (*4230*) Del (T 41);
  (*4231*) Assign (T 145) (Plain (Zeros [4;4;4;5]));
  (*4232*) AddTo (T 145) (Plain (Einsum [(n_t1'aa,[0;1]); (T 9,[0;2;3;4])] [2;4;3;1]));
  (*4233*) Assign (T 146) (Plain (Zeros [4;4;5;5]));
  (*4234*) AddTo (T 146) (Plain (Einsum [(n_t1'aa,[0;1]); (T 145,[0;2;3;4])] [2;3;1;4]));
  (*4235*) Del (T 145);
  (*4236*) Assign (T 153) (Plain (Zeros [4;4;5;5]));
  (*4237*) AddTo (T 153) (Plain (Einsum [(T 146,[0;1;2;3])] [0;1;2;3]));
  (*4238*) Del (T 146);
  (*4239*) Assign (T 178) (Plain (Zeros [4;4;5;5]));
  (*4240*) AddTo (T 178) (Plain (Einsum [(n_t2'aaaa,[0;1;2;3]); (T 9,[1;0;4;5])] [4;5;3;2]));
  (*4241*) AddTo (T 181) (Plain (Einsum [(T 178,[0;1;2;3])] [0;1;2;3]));
  (*4242*) Del (T 178);
  (*4243*) Assign n_rdm2_f_vovo_aaaa (Plain (Zeros [5;4;5;4]));
  (*4244*) AddTo n_rdm2_f_vovo_aaaa (Times (Einsum [(T 181,[0;1;2;3])] [2;1;3;0]) (-1) 1);
  (*4245*) AddTo n_rdm2_f_vovo_aaaa (Plain (Einsum [(T 181,[0;1;2;3])] [3;1;2;0]));
  (*4246*) Del (T 181);
  (*4247*) AddTo n_rdm2_f_oooo_aaaa (Plain (Einsum [(T 9,[0;1;2;3])] [0;2;1;3]));
  (*4248*) AddTo n_rdm2_f_oooo_aaaa (Times (Einsum [(T 9,[0;1;2;3])] [0;3;1;2]) (-1) 1);
  (*4249*) Del (T 9);
  (*4250*) Assign (T 37) (Plain (Zeros [4;4;4;5]));
  (*4251*) AddTo (T 37) (Plain (Einsum [(T 8,[0;1;2;3])] [0;1;2;3]));
  (*4252*) AddTo (T 37) (Times (Einsum [(T 8,[0;1;2;3])] [1;0;2;3]) (-1) 1);
  (*4253*) Assign (T 43) (Plain (Zeros [4;5]));
  (*4254*) AddTo (T 43) (Plain (Einsum [(n_t2'aaaa,[0;1;2;3]); (T 37,[1;0;4;2])] [4;3]));
  (*4255*) AddTo (T 45) (Times (Einsum [(T 43,[0;1])] [0;1]) (-1) 1);
  (*4256*) AddTo (T 95) (Times (Einsum [(T 43,[0;1])] [0;1]) (-1) 1);
  (*4257*) AddTo (T 261) (Times (Einsum [(T 43,[0;1])] [0;1]) (-1) 1);
  (*4258*) Del (T 43);
  (*4259*) Assign (T 79) (Plain (Zeros [4;4;6;7]));
  (*4260*) AddTo (T 79) (Plain (Einsum [(n_t2'abab,[0;1;2;3]); (T 37,[0;4;5;2])] [4;5;1;3]));
  (*4261*) AddTo n_rdm2_f_oovo_aabb (Times (Einsum [(T 79,[0;1;2;3])] [0;1;3;2]) (-1) 1);
  (*4262*) Assign n_rdm2_f_vooo_bbaa (Plain (Zeros [7;6;4;4]));
  (*4263*) AddTo n_rdm2_f_vooo_bbaa (Times (Einsum [(T 79,[0;1;2;3])] [3;2;0;1]) (-1) 1);
  (*4264*) Del (T 79);
  (*4265*) AddTo (T 260) (Times (Einsum [(n_t2'aaaa,[0;1;2;3]); (T 37,[1;0;4;2])] [4;3]) (-1) 1);
  (*4266*) Assign (T 106) (Plain (Zeros [4;4;4;5]));
  (*4267*) SubFrom (T 106) (Plain (Einsum [(T 8,[0;1;2;3])] [0;1;2;3]));
  (*4268*) AddTo (T 106) (Plain (Einsum [(T 8,[0;1;2;3])] [1;0;2;3]));
  (*4269*) Assign (T 107) (Plain (Zeros [4;4;5;5]));
  (*4270*) AddTo (T 107) (Plain (Einsum [(n_t1'aa,[0;1]); (T 106,[2;0;3;4])] [2;3;1;4]));
  (*4271*) Assign n_rdm2_f_oovv_aaaa (Plain (Zeros [4;4;5;5]));
  (*4272*) SubFrom n_rdm2_f_oovv_aaaa (Plain (Einsum [(T 107,[0;1;2;3])] [0;1;2;3]));
  (*4273*) Assign n_rdm2_f_vvoo_aaaa (Plain (Zeros [5;5;4;4]));
  (*4274*) SubFrom n_rdm2_f_vvoo_aaaa (Plain (Einsum [(T 107,[0;1;2;3])] [2;3;0;1]));
  (*4275*) Del (T 107);
  (*4276*) Assign (T 244) (Plain (Zeros [4;4;6;7]));
  (*4277*) AddTo (T 244) (Plain (Einsum [(n_t2'abab,[0;1;2;3]); (T 106,[0;4;5;2])] [4;5;1;3]));
  (*4278*) Del (T 106);
  (*4279*) Assign (T 246) (Plain (Zeros [4;4;6;7]));
  (*4280*) SubFrom (T 246) (Plain (Einsum [(T 244,[0;1;2;3])] [0;1;2;3]));
  (*4281*) Del (T 244);
  (*4282*) Assign (T 131) (Plain (Zeros [4;4;4;5]));
  (*4283*) AddTo (T 131) (Plain (Einsum [(T 8,[0;1;2;3])] [0;1;2;3]));
  (*4284*) SubFrom (T 131) (Plain (Einsum [(T 8,[0;1;2;3])] [1;0;2;3]));
  (*4285*) Assign (T 132) (Plain (Zeros [4;4;5;5]));
  (*4286*) AddTo (T 132) (Plain (Einsum [(n_t1'aa,[0;1]); (T 131,[2;0;3;4])] [2;3;1;4]));
  (*4287*) Assign n_rdm2_f_ovvo_aaaa (Plain (Zeros [4;5;5;4]));
  (*4288*) SubFrom n_rdm2_f_ovvo_aaaa (Plain (Einsum [(T 132,[0;1;2;3])] [0;3;2;1]));
  (*4289*) Assign n_rdm2_f_voov_aaaa (Plain (Zeros [5;4;4;5]));
  (*4290*) SubFrom n_rdm2_f_voov_aaaa (Plain (Einsum [(T 132,[0;1;2;3])] [2;1;0;3]));
  (*4291*) Del (T 132);
  (*4292*) Assign (T 267) (Plain (Zeros [4;5;5;5]));
  (*4293*) AddTo (T 267) (Plain (Einsum [(n_t2'aaaa,[0;1;2;3]); (T 8,[1;0;4;5])] [4;5;3;2]));
  (*4294*) Assign (T 272) (Plain (Zeros [4;5;5;5]));
  (*4295*) AddTo (T 272) (Plain (Einsum [(T 267,[0;1;2;3])] [0;1;2;3]));
  (*4296*) Del (T 267);
  (*4297*) Assign (T 268) (Plain (Zeros [4;4;5;5]));
  (*4298*) AddTo (T 268) (Plain (Einsum [(n_t1'aa,[0;1]); (T 8,[2;0;3;4])] [2;3;4;1]));
  (*4299*) Assign (T 270) (Plain (Zeros [4;4;5;5]));
  (*4300*) AddTo (T 270) (Times (Einsum [(T 268,[0;1;2;3])] [0;1;2;3]) (-1) 1);
  (*4301*) Del (T 268);
  (*4302*) Assign n_rdm2_f_ooov_aaaa (Plain (Zeros [4;4;4;5]));
  (*4303*) AddTo n_rdm2_f_ooov_aaaa (Plain (Einsum [(T 8,[0;1;2;3])] [0;2;1;3]));
  (*4304*) SubFrom n_rdm2_f_ooov_aaaa (Plain (Einsum [(T 8,[0;1;2;3])] [1;2;0;3]));
  (*4305*) Assign n_rdm2_f_ovoo_aaaa (Plain (Zeros [4;5;4;4]));
  (*4306*) SubFrom n_rdm2_f_ovoo_aaaa (Plain (Einsum [(T 8,[0;1;2;3])] [0;3;1;2]));
  (*4307*) AddTo n_rdm2_f_ovoo_aaaa (Plain (Einsum [(T 8,[0;1;2;3])] [1;3;0;2]));
  (*4308*) Del (T 8);
  (*4309*) Assign (T 10) (Plain (Zeros [4;4;6;6]));
  (*4310*) AddTo (T 10) (Plain (Einsum [(n_l2'abab,[0;1;2;3]); (n_t2'abab,[4;5;0;1])] [2;4;3;5]));
  (*4311*) Assign (T 81) (Plain (Zeros [4;4;6;6]));
  (*4312*) AddTo (T 81) (Plain (Einsum [(T 10,[0;1;2;3])] [0;1;2;3]));
  (*4313*) Assign (T 234) (Plain (Zeros [4;4;6;6]));
  (*4314*) AddTo (T 234) (Plain (Einsum [(T 10,[0;1;2;3])] [0;1;2;3]));
  (*4315*) Assign (T 240) (Plain (Zeros [4;4;6;6]));
  (*4316*) AddTo (T 240) (Plain (Einsum [(T 10,[0;1;2;3])] [0;1;2;3]));
  (*4317*) Assign n_rdm2_f_oooo_aabb (Plain (Zeros [4;4;6;6]));
  (*4318*) AddTo n_rdm2_f_oooo_aabb (Plain (Einsum [(T 10,[0;1;2;3])] [0;1;2;3]));
  (*4319*) Assign n_rdm2_f_oooo_bbaa (Plain (Zeros [6;6;4;4]));
  (*4320*) AddTo n_rdm2_f_oooo_bbaa (Plain (Einsum [(T 10,[0;1;2;3])] [2;3;0;1]));
  (*4321*) Del (T 10);
  (*4322*) Assign (T 11) (Plain (Zeros [4;6;6;5]));
  (*4323*) AddTo (T 11) (Plain (Einsum [(n_t1'bb,[0;1]); (n_l2'abab,[2;1;3;4])] [3;4;0;2]));
  (*4324*) Assign (T 12) (Plain (Zeros [4;4;6;6]));
  (*4325*) AddTo (T 12) (Plain (Einsum [(n_t1'aa,[0;1]); (T 11,[2;3;4;1])] [2;0;3;4]));
  (*4326*) AddTo (T 81) (Plain (Einsum [(T 12,[0;1;2;3])] [0;1;2;3]));
  (*4327*) Assign (T 82) (Plain (Zeros [4;4;6;7]));
  (*4328*) AddTo (T 82) (Plain (Einsum [(n_t1'bb,[0;1]); (T 81,[2;3;0;4])] [2;3;4;1]));
  (*4329*) AddTo n_rdm2_f_oovo_aabb (Plain (Einsum [(T 82,[0;1;2;3])] [0;1;3;2]));
  (*4330*) AddTo n_rdm2_f_vooo_bbaa (Plain (Einsum [(T 82,[0;1;2;3])] [3;2;0;1]));
  (*4331*) Del (T 82);
  (*4332*) Assign (T 92) (Plain (Zeros [4;6;6;5]));
  (*4333*) AddTo (T 92) (Plain (Einsum [(n_t1'aa,[0;1]); (T 81,[0;2;3;4])] [2;3;4;1]));
  (*4334*) Del (T 81);
  (*4335*) Assign n_rdm2_f_oovo_bbaa (Plain (Zeros [6;6;5;4]));
  (*4336*) AddTo n_rdm2_f_oovo_bbaa (Plain (Einsum [(T 92,[0;1;2;3])] [1;2;3;0]));
  (*4337*) Assign n_rdm2_f_vooo_aabb (Plain (Zeros [5;4;6;6]));
  (*4338*) AddTo n_rdm2_f_vooo_aabb (Plain (Einsum [(T 92,[0;1;2;3])] [3;0;1;2]));
  (*4339*) Del (T 92);
  (*4340*) AddTo (T 234) (Plain (Einsum [(T 12,[0;1;2;3])] [0;1;2;3]));
  (*4341*) Assign (T 235) (Plain (Zeros [4;6;5;7]));
  (*4342*) AddTo (T 235) (Plain (Einsum [(n_t2'abab,[0;1;2;3]); (T 234,[0;4;1;5])] [4;5;2;3]));
  (*4343*) Del (T 234);
  (*4344*) AddTo n_rdm2_f_vovo_bbaa (Plain (Einsum [(T 235,[0;1;2;3])] [3;1;2;0]));
  (*4345*) AddTo n_rdm2_f_vovo_aabb (Plain (Einsum [(T 235,[0;1;2;3])] [2;0;3;1]));
  (*4346*) Del (T 235);
  (*4347*) AddTo (T 240) (Times (Einsum [(T 12,[0;1;2;3])] [0;1;2;3]) (9999999999999993) 10000000000000000);
  (*4348*) Assign (T 241) (Plain (Zeros [4;6;6;5]));
  (*4349*) AddTo (T 241) (Plain (Einsum [(n_t1'aa,[0;1]); (T 240,[0;2;3;4])] [2;3;4;1]));
  (*4350*) Del (T 240);
  (*4351*) Assign (T 242) (Plain (Zeros [4;6;6;5]));
  (*4352*) AddTo (T 242) (Plain (Einsum [(T 241,[0;1;2;3])] [0;1;2;3]));
  (*4353*) Del (T 241);
  (*4354*) AddTo n_rdm2_f_oooo_aabb (Plain (Einsum [(T 12,[0;1;2;3])] [0;1;2;3]));
  (*4355*) AddTo n_rdm2_f_oooo_bbaa (Plain (Einsum [(T 12,[0;1;2;3])] [2;3;0;1]));
  (*4356*) Del (T 12);
  (*4357*) Assign (T 61) (Plain (Zeros [6;6;6;7]));
  (*4358*) AddTo (T 61) (Plain (Einsum [(n_t2'abab,[0;1;2;3]); (T 11,[0;4;5;2])] [4;5;1;3]));
  (*4359*) Assign (T 72) (Plain (Zeros [6;6;6;7]));
  (*4360*) AddTo (T 72) (Times (Einsum [(T 61,[0;1;2;3])] [0;1;2;3]) (-1) 1);
  (*4361*) Assign (T 100) (Plain (Zeros [6;6;6;7]));
  (*4362*) AddTo (T 100) (Times (Einsum [(T 61,[0;1;2;3])] [0;1;2;3]) (-1) 1);
  (*4363*) Assign (T 205) (Plain (Zeros [6;6;6;7]));
  (*4364*) SubFrom (T 205) (Plain (Einsum [(T 61,[0;1;2;3])] [0;1;2;3]));
  (*4365*) Del (T 61);
  (*4366*) Assign (T 67) (Plain (Zeros [6;7]));
  (*4367*) AddTo (T 67) (Plain (Einsum [(n_t2'abab,[0;1;2;3]); (T 11,[0;1;4;2])] [4;3]));
  (*4368*) Assign (T 71) (Plain (Zeros [6;7]));
  (*4369*) AddTo (T 71) (Plain (Einsum [(T 67,[0;1])] [0;1]));
  (*4370*) Assign (T 85) (Plain (Zeros [6;7]));
  (*4371*) AddTo (T 85) (Plain (Einsum [(T 67,[0;1])] [0;1]));
  (*4372*) Assign (T 98) (Plain (Zeros [6;7]));
  (*4373*) AddTo (T 98) (Plain (Einsum [(T 67,[0;1])] [0;1]));
  (*4374*) Assign (T 257) (Plain (Zeros [6;7]));
  (*4375*) AddTo (T 257) (Plain (Einsum [(T 67,[0;1])] [0;1]));
  (*4376*) Assign (T 262) (Plain (Zeros [6;7]));
  (*4377*) AddTo (T 262) (Plain (Einsum [(T 67,[0;1])] [0;1]));
  (*4378*) Del (T 67);
  (*4379*) Assign (T 78) (Plain (Zeros [4;4;6;7]));
  (*4380*) AddTo (T 78) (Plain (Einsum [(n_t2'abab,[0;1;2;3]); (T 11,[4;1;5;2])] [4;0;5;3]));
  (*4381*) SubFrom (T 246) (Plain (Einsum [(T 78,[0;1;2;3])] [0;1;2;3]));
  (*4382*) AddTo n_rdm2_f_oovo_aabb (Plain (Einsum [(T 78,[0;1;2;3])] [0;1;3;2]));
  (*4383*) AddTo n_rdm2_f_vooo_bbaa (Plain (Einsum [(T 78,[0;1;2;3])] [3;2;0;1]));
  (*4384*) Del (T 78);
  (*4385*) Assign (T 91) (Plain (Zeros [4;6;6;5]));
  (*4386*) AddTo (T 91) (Plain (Einsum [(T 11,[0;1;2;3]); (T 3,[0;4;5;3])] [4;1;2;5]));
  (*4387*) Del (T 3);
  (*4388*) AddTo (T 242) (Times (Einsum [(T 91,[0;1;2;3])] [0;1;2;3]) (-1) 1);
  (*4389*) AddTo n_rdm2_f_oovo_bbaa (Times (Einsum [(T 91,[0;1;2;3])] [1;2;3;0]) (-1) 1);
  (*4390*) AddTo n_rdm2_f_vooo_aabb (Times (Einsum [(T 91,[0;1;2;3])] [3;0;1;2]) (-1) 1);
  (*4391*) Del (T 91);
  (*4392*) Assign (T 127) (Plain (Zeros [6;6;5;5]));
  (*4393*) AddTo (T 127) (Plain (Einsum [(n_t1'aa,[0;1]); (T 11,[0;2;3;4])] [2;3;4;1]));
  (*4394*) Assign n_rdm2_f_oovv_bbaa (Plain (Zeros [6;6;5;5]));
  (*4395*) SubFrom n_rdm2_f_oovv_bbaa (Plain (Einsum [(T 127,[0;1;2;3])] [0;1;3;2]));
  (*4396*) Assign n_rdm2_f_vvoo_aabb (Plain (Zeros [5;5;6;6]));
  (*4397*) SubFrom n_rdm2_f_vvoo_aabb (Plain (Einsum [(T 127,[0;1;2;3])] [3;2;0;1]));
  (*4398*) Del (T 127);
  (*4399*) Assign (T 134) (Plain (Zeros [4;6;5;7]));
  (*4400*) AddTo (T 134) (Plain (Einsum [(n_t1'bb,[0;1]); (T 11,[2;0;3;4])] [2;3;4;1]));
  (*4401*) Assign (T 297) (Plain (Zeros [4;6;5;7]));
  (*4402*) AddTo (T 297) (Plain (Einsum [(T 134,[0;1;2;3])] [0;1;2;3]));
  (*4403*) Assign n_rdm2_f_ovvo_aabb (Plain (Zeros [4;5;7;6]));
  (*4404*) SubFrom n_rdm2_f_ovvo_aabb (Plain (Einsum [(T 134,[0;1;2;3])] [0;2;3;1]));
  (*4405*) Assign n_rdm2_f_voov_bbaa (Plain (Zeros [7;6;4;5]));
  (*4406*) SubFrom n_rdm2_f_voov_bbaa (Plain (Einsum [(T 134,[0;1;2;3])] [3;1;0;2]));
  (*4407*) Del (T 134);
  (*4408*) Assign (T 293) (Plain (Zeros [6;5;5;7]));
  (*4409*) AddTo (T 293) (Plain (Einsum [(n_t2'abab,[0;1;2;3]); (T 11,[0;1;4;5])] [4;5;2;3]));
  (*4410*) Assign n_rdm2_f_vovv_bbaa (Plain (Zeros [7;6;5;5]));
  (*4411*) AddTo n_rdm2_f_vovv_bbaa (Times (Einsum [(T 293,[0;1;2;3])] [3;0;2;1]) (-1) 1);
  (*4412*) Assign n_rdm2_f_vvvo_aabb (Plain (Zeros [5;5;7;6]));
  (*4413*) AddTo n_rdm2_f_vvvo_aabb (Times (Einsum [(T 293,[0;1;2;3])] [2;1;3;0]) (-1) 1);
  (*4414*) Del (T 293);
  (*4415*) Assign n_rdm2_f_ooov_bbaa (Plain (Zeros [6;6;4;5]));
  (*4416*) SubFrom n_rdm2_f_ooov_bbaa (Plain (Einsum [(T 11,[0;1;2;3])] [1;2;0;3]));
  (*4417*) Assign n_rdm2_f_ovoo_aabb (Plain (Zeros [4;5;6;6]));
  (*4418*) SubFrom n_rdm2_f_ovoo_aabb (Plain (Einsum [(T 11,[0;1;2;3])] [0;3;1;2]));
  (*4419*) Del (T 11);
  (*4420*) AddTo (T 13) (Times (Einsum [(n_delta_oo'aa,[0;1])] [1;0]) (-1) 1);
  (*4421*) AddTo n_rdm2_f_oooo_aabb (Times (Einsum [(n_delta_oo'bb,[0;1]); (T 13,[2;3])] [3;2;1;0]) (-1) 1);
  (*4422*) AddTo n_rdm2_f_oooo_bbaa (Times (Einsum [(n_delta_oo'bb,[0;1]); (T 13,[2;3])] [1;0;3;2]) (-1) 1);
  (*4423*) AddTo n_rdm2_f_vooo_bbaa (Times (Einsum [(n_t1'bb,[0;1]); (T 13,[2;3])] [1;0;3;2]) (-1) 1);
  (*4424*) Del (T 13);
  (*4425*) Assign (T 14) (Plain (Zeros [6;6]));
  (*4426*) AddTo (T 14) (Plain (Einsum [(n_l1'bb,[0;1]); (n_t1'bb,[2;0])] [1;2]));
  (*4427*) Assign (T 19) (Plain (Zeros [6;6]));
  (*4428*) AddTo (T 19) (Plain (Einsum [(T 14,[0;1])] [0;1]));
  (*4429*) Assign (T 59) (Plain (Zeros [6;6]));
  (*4430*) AddTo (T 59) (Plain (Einsum [(T 14,[0;1])] [0;1]));
  (*4431*) Assign (T 74) (Plain (Zeros [6;7]));
  (*4432*) AddTo (T 74) (Plain (Einsum [(n_t1'bb,[0;1]); (T 14,[0;2])] [2;1]));
  (*4433*) Assign (T 75) (Plain (Zeros [6;7]));
  (*4434*) SubFrom (T 75) (Plain (Einsum [(T 74,[0;1])] [0;1]));
  (*4435*) Del (T 74);
  (*4436*) Assign (T 199) (Plain (Zeros [6;6;7;7]));
  (*4437*) AddTo (T 199) (Plain (Einsum [(T 14,[0;1]); (n_t2'bbbb,[2;0;3;4])] [1;2;3;4]));
  (*4438*) Assign (T 214) (Plain (Zeros [6;6;7;7]));
  (*4439*) AddTo (T 214) (Plain (Einsum [(T 199,[0;1;2;3])] [0;1;2;3]));
  (*4440*) Del (T 199);
  (*4441*) Assign (T 255) (Plain (Zeros [6;6]));
  (*4442*) AddTo (T 255) (Plain (Einsum [(T 14,[0;1])] [0;1]));
  (*4443*) Assign n_rdm2_f_oooo_bbbb (Plain (Zeros [6;6;6;6]));
  (*4444*) SubFrom n_rdm2_f_oooo_bbbb (Plain (Einsum [(n_delta_oo'bb,[0;1]); (T 14,[2;3])] [1;0;2;3]));
  (*4445*) AddTo n_rdm2_f_oooo_bbbb (Plain (Einsum [(n_delta_oo'bb,[0;1]); (T 14,[2;3])] [2;0;1;3]));
  (*4446*) AddTo n_rdm2_f_oooo_bbbb (Plain (Einsum [(n_delta_oo'bb,[0;1]); (T 14,[2;3])] [1;3;2;0]));
  (*4447*) SubFrom n_rdm2_f_oooo_bbbb (Plain (Einsum [(n_delta_oo'bb,[0;1]); (T 14,[2;3])] [2;3;1;0]));
  (*4448*) Del (T 14);
  (*4449*) Assign (T 15) (Plain (Zeros [6;6]));
  (*4450*) AddTo (T 15) (Plain (Einsum [(n_lu11'bb,[0;1;2]); (n_u11'bb,[0;3;1])] [2;3]));
  (*4451*) AddTo (T 19) (Plain (Einsum [(T 15,[0;1])] [0;1]));
  (*4452*) Assign (T 55) (Plain (Zeros [6;7]));
  (*4453*) AddTo (T 55) (Plain (Einsum [(n_t1'bb,[0;1]); (T 15,[0;2])] [2;1]));
  (*4454*) Assign (T 58) (Plain (Zeros [6;7]));
  (*4455*) AddTo (T 58) (Plain (Einsum [(T 55,[0;1])] [0;1]));
  (*4456*) Del (T 55);
  (*4457*) AddTo (T 59) (Plain (Einsum [(T 15,[0;1])] [0;1]));
  (*4458*) Assign (T 60) (Plain (Zeros [6;6;6;7]));
  (*4459*) AddTo (T 60) (Plain (Einsum [(n_t1'bb,[0;1]); (T 59,[2;3])] [2;0;3;1]));
  (*4460*) Assign (T 99) (Plain (Zeros [6;6;6;7]));
  (*4461*) AddTo (T 99) (Plain (Einsum [(n_t1'bb,[0;1]); (T 59,[2;3])] [2;0;3;1]));
  (*4462*) Assign (T 225) (Plain (Zeros [6;7]));
  (*4463*) AddTo (T 225) (Plain (Einsum [(n_t1'bb,[0;1]); (T 59,[0;2])] [2;1]));
  (*4464*) Del (T 59);
  (*4465*) Assign (T 226) (Plain (Zeros [6;7]));
  (*4466*) AddTo (T 226) (Plain (Einsum [(T 225,[0;1])] [0;1]));
  (*4467*) Assign (T 227) (Plain (Zeros [6;7]));
  (*4468*) AddTo (T 227) (Plain (Einsum [(T 225,[0;1])] [0;1]));
  (*4469*) Del (T 225);
  (*4470*) Assign (T 201) (Plain (Zeros [6;6;7;7]));
  (*4471*) AddTo (T 201) (Plain (Einsum [(T 15,[0;1]); (n_t2'bbbb,[2;0;3;4])] [2;1;3;4]));
  (*4472*) SubFrom (T 214) (Plain (Einsum [(T 201,[0;1;2;3])] [0;1;2;3]));
  (*4473*) Del (T 201);
  (*4474*) AddTo (T 255) (Plain (Einsum [(T 15,[0;1])] [0;1]));
  (*4475*) SubFrom n_rdm2_f_oooo_bbbb (Plain (Einsum [(n_delta_oo'bb,[0;1]); (T 15,[2;3])] [0;1;2;3]));
  (*4476*) AddTo n_rdm2_f_oooo_bbbb (Plain (Einsum [(n_delta_oo'bb,[0;1]); (T 15,[2;3])] [0;3;2;1]));
  (*4477*) AddTo n_rdm2_f_oooo_bbbb (Plain (Einsum [(n_delta_oo'bb,[0;1]); (T 15,[2;3])] [2;0;1;3]));
  (*4478*) SubFrom n_rdm2_f_oooo_bbbb (Plain (Einsum [(n_delta_oo'bb,[0;1]); (T 15,[2;3])] [2;3;1;0]));
  (*4479*) Del (T 15);
  (*4480*) Assign (T 16) (Plain (Zeros [6;6]));
  (*4481*) AddTo (T 16) (Plain (Einsum [(n_l2'abab,[0;1;2;3]); (n_t2'abab,[2;4;0;1])] [3;4]));
  (*4482*) AddTo (T 19) (Plain (Einsum [(T 16,[0;1])] [0;1]));
  (*4483*) Assign (T 23) (Plain (Zeros [6;6]));
  (*4484*) AddTo (T 23) (Plain (Einsum [(T 16,[0;1])] [0;1]));
  (*4485*) Assign (T 215) (Plain (Zeros [6;6;7;7]));
  (*4486*) AddTo (T 215) (Plain (Einsum [(T 16,[0;1]); (n_t2'bbbb,[2;0;3;4])] [1;2;3;4]));
  (*4487*) Assign (T 219) (Plain (Zeros [6;6;7;7]));
  (*4488*) AddTo (T 219) (Times (Einsum [(T 215,[0;1;2;3])] [0;1;2;3]) (-1) 1);
  (*4489*) Del (T 215);
  (*4490*) AddTo (T 255) (Plain (Einsum [(T 16,[0;1])] [0;1]));
  (*4491*) Del (T 16);
  (*4492*) Assign (T 17) (Plain (Zeros [6;6;7;7]));
  (*4493*) AddTo (T 17) (Plain (Einsum [(n_t2'bbbb,[0;1;2;3])] [1;0;2;3]));
  (*4494*) AddTo (T 17) (Times (Einsum [(n_t2'bbbb,[0;1;2;3])] [1;0;3;2]) (-1) 1);
  (*4495*) Assign (T 18) (Plain (Zeros [6;6]));
  (*4496*) AddTo (T 18) (Plain (Einsum [(n_l2'bbbb,[0;1;2;3]); (T 17,[2;4;0;1])] [3;4]));
  (*4497*) AddTo (T 19) (Times (Einsum [(T 18,[0;1])] [0;1]) (-1) 1);
  (*4498*) Assign (T 84) (Plain (Zeros [6;7]));
  (*4499*) AddTo (T 84) (Plain (Einsum [(n_t1'bb,[0;1]); (T 19,[0;2])] [2;1]));
  (*4500*) AddTo (T 85) (Plain (Einsum [(T 84,[0;1])] [0;1]));
  (*4501*) AddTo (T 98) (Plain (Einsum [(T 84,[0;1])] [0;1]));
  (*4502*) Del (T 84);
  (*4503*) Assign (T 248) (Plain (Zeros [4;6;5;7]));
  (*4504*) AddTo (T 248) (Plain (Einsum [(T 19,[0;1]); (n_t2'abab,[2;0;3;4])] [2;1;3;4]));
  (*4505*) AddTo n_rdm2_f_vovo_bbaa (Times (Einsum [(T 248,[0;1;2;3])] [3;1;2;0]) (-1) 1);
  (*4506*) AddTo n_rdm2_f_vovo_aabb (Times (Einsum [(T 248,[0;1;2;3])] [2;0;3;1]) (-1) 1);
  (*4507*) Del (T 248);
  (*4508*) AddTo n_rdm2_f_oooo_aabb (Times (Einsum [(n_delta_oo'aa,[0;1]); (T 19,[2;3])] [1;0;2;3]) (-1) 1);
  (*4509*) AddTo n_rdm2_f_oooo_bbaa (Times (Einsum [(n_delta_oo'aa,[0;1]); (T 19,[2;3])] [2;3;1;0]) (-1) 1);
  (*4510*) AddTo n_rdm2_f_oovo_bbaa (Times (Einsum [(n_t1'aa,[0;1]); (T 19,[2;3])] [2;3;1;0]) (-1) 1);
  (*4511*) AddTo n_rdm2_f_vooo_aabb (Times (Einsum [(n_t1'aa,[0;1]); (T 19,[2;3])] [1;0;2;3]) (-1) 1);
  (*4512*) Del (T 19);
  (*4513*) AddTo (T 23) (Times (Einsum [(T 18,[0;1])] [0;1]) (-1) 1);
  (*4514*) Assign (T 70) (Plain (Zeros [6;7]));
  (*4515*) AddTo (T 70) (Plain (Einsum [(n_t1'bb,[0;1]); (T 23,[0;2])] [2;1]));
  (*4516*) AddTo (T 71) (Plain (Einsum [(T 70,[0;1])] [0;1]));
  (*4517*) Del (T 70);
  (*4518*) AddTo (T 72) (Plain (Einsum [(n_t1'bb,[0;1]); (T 23,[2;3])] [2;0;3;1]));
  (*4519*) AddTo (T 100) (Plain (Einsum [(n_t1'bb,[0;1]); (T 23,[2;3])] [2;0;3;1]));
  (*4520*) AddTo n_rdm2_f_oooo_bbbb (Times (Einsum [(n_delta_oo'bb,[0;1]); (T 23,[2;3])] [1;0;2;3]) (-1) 1);
  (*4521*) AddTo n_rdm2_f_oooo_bbbb (Plain (Einsum [(n_delta_oo'bb,[0;1]); (T 23,[2;3])] [1;3;2;0]));
  (*4522*) AddTo n_rdm2_f_oooo_bbbb (Plain (Einsum [(n_delta_oo'bb,[0;1]); (T 23,[2;3])] [2;1;0;3]));
  (*4523*) AddTo n_rdm2_f_oooo_bbbb (Times (Einsum [(n_delta_oo'bb,[0;1]); (T 23,[2;3])] [2;3;0;1]) (-1) 1);
  (*4524*) Del (T 23);
  (*4525*) Assign (T 218) (Plain (Zeros [6;6;7;7]));
  (*4526*) AddTo (T 218) (Times (Einsum [(T 18,[0;1]); (n_t2'bbbb,[0;2;3;4])] [2;1;3;4]) (-1) 1);
  (*4527*) Del (T 18);
  (*4528*) AddTo (T 219) (Plain (Einsum [(T 218,[0;1;2;3])] [0;1;3;2]));
  (*4529*) Del (T 218);
  (*4530*) Assign (T 83) (Plain (Zeros [6;7]));
  (*4531*) AddTo (T 83) (Plain (Einsum [(n_l1'bb,[0;1]); (T 17,[1;2;3;0])] [2;3]));
  (*4532*) AddTo (T 85) (Times (Einsum [(T 83,[0;1])] [0;1]) (-1) 1);
  (*4533*) AddTo (T 98) (Times (Einsum [(T 83,[0;1])] [0;1]) (-1) 1);
  (*4534*) Del (T 83);
  (*4535*) Assign (T 253) (Plain (Zeros [6;7]));
  (*4536*) AddTo (T 253) (Times (Einsum [(n_l1'bb,[0;1]); (T 17,[1;2;3;0])] [2;3]) (9999999999999993) 10000000000000000);
  (*4537*) AddTo (T 257) (Times (Einsum [(T 253,[0;1])] [0;1]) (-1) 1);
  (*4538*) AddTo (T 262) (Times (Einsum [(T 253,[0;1])] [0;1]) (-1) 1);
  (*4539*) Del (T 253);
  (*4540*) Assign (T 254) (Plain (Zeros [6;6]));
  (*4541*) AddTo (T 254) (Plain (Einsum [(n_l2'bbbb,[0;1;2;3]); (T 17,[2;4;0;1])] [3;4]));
  (*4542*) AddTo (T 255) (Times (Einsum [(T 254,[0;1])] [0;1]) (-1) 1);
  (*4543*) Del (T 254);
  (*4544*) Assign (T 256) (Plain (Zeros [6;7]));
  (*4545*) AddTo (T 256) (Times (Einsum [(n_t1'bb,[0;1]); (T 255,[0;2])] [2;1]) (9999999999999993) 10000000000000000);
  (*4546*) Del (T 255);
  (*4547*) AddTo (T 257) (Plain (Einsum [(T 256,[0;1])] [0;1]));
  (*4548*) AddTo (T 262) (Plain (Einsum [(T 256,[0;1])] [0;1]));
  (*4549*) Del (T 256);
  (*4550*) Assign (T 296) (Plain (Zeros [4;6;5;7]));
  (*4551*) AddTo (T 296) (Plain (Einsum [(n_l2'abab,[0;1;2;3]); (T 17,[3;4;5;1])] [2;4;0;5]));
  (*4552*) AddTo (T 297) (Times (Einsum [(T 296,[0;1;2;3])] [0;1;2;3]) (-1) 1);
  (*4553*) Del (T 296);
  (*4554*) Assign (T 20) (Plain (Zeros [6;6;6;6]));
  (*4555*) AddTo (T 20) (Plain (Einsum [(n_l2'bbbb,[0;1;2;3]); (n_t2'bbbb,[4;5;0;1])] [2;3;4;5]));
  (*4556*) Assign (T 65) (Plain (Zeros [6;6;6;6]));
  (*4557*) AddTo (T 65) (Plain (Einsum [(T 20,[0;1;2;3])] [1;0;3;2]));
  (*4558*) Assign (T 220) (Plain (Zeros [6;6;6;7]));
  (*4559*) AddTo (T 220) (Plain (Einsum [(n_t1'bb,[0;1]); (T 20,[2;0;3;4])] [2;3;4;1]));
  (*4560*) Assign (T 221) (Plain (Zeros [6;6;7;7]));
  (*4561*) AddTo (T 221) (Plain (Einsum [(n_t1'bb,[0;1]); (T 220,[0;2;3;4])] [3;2;4;1]));
  (*4562*) Del (T 220);
  (*4563*) Assign (T 224) (Plain (Zeros [6;6;7;7]));
  (*4564*) AddTo (T 224) (Plain (Einsum [(T 221,[0;1;2;3])] [0;1;2;3]));
  (*4565*) Del (T 221);
  (*4566*) Assign (T 222) (Plain (Zeros [6;6;6;6]));
  (*4567*) AddTo (T 222) (Plain (Einsum [(T 20,[0;1;2;3])] [1;0;3;2]));
  (*4568*) AddTo n_rdm2_f_oooo_bbbb (Times (Einsum [(T 20,[0;1;2;3])] [1;2;0;3]) (-1) 1);
  (*4569*) AddTo n_rdm2_f_oooo_bbbb (Plain (Einsum [(T 20,[0;1;2;3])] [1;3;0;2]));
  (*4570*) Del (T 20);
  (*4571*) Assign (T 21) (Plain (Zeros [6;6;6;7]));
  (*4572*) AddTo (T 21) (Plain (Einsum [(n_t1'bb,[0;1]); (n_l2'bbbb,[2;1;3;4])] [3;4;0;2]));
  (*4573*) Assign (T 22) (Plain (Zeros [6;6;6;6]));
  (*4574*) AddTo (T 22) (Plain (Einsum [(n_t1'bb,[0;1]); (T 21,[2;3;4;1])] [3;2;4;0]));
  (*4575*) AddTo (T 65) (Plain (Einsum [(T 22,[0;1;2;3])] [0;1;2;3]));
  (*4576*) Assign (T 66) (Plain (Zeros [6;6;6;7]));
  (*4577*) AddTo (T 66) (Plain (Einsum [(n_t1'bb,[0;1]); (T 65,[0;2;3;4])] [2;3;4;1]));
  (*4578*) Del (T 65);
  (*4579*) AddTo (T 72) (Plain (Einsum [(T 66,[0;1;2;3])] [0;2;1;3]));
  (*4580*) AddTo (T 100) (Plain (Einsum [(T 66,[0;1;2;3])] [0;2;1;3]));
  (*4581*) Del (T 66);
  (*4582*) Assign (T 191) (Plain (Zeros [6;6;6;7]));
  (*4583*) AddTo (T 191) (Plain (Einsum [(n_t1'bb,[0;1]); (T 22,[0;2;3;4])] [2;4;3;1]));
  (*4584*) Assign (T 192) (Plain (Zeros [6;6;7;7]));
  (*4585*) AddTo (T 192) (Plain (Einsum [(n_t1'bb,[0;1]); (T 191,[0;2;3;4])] [2;3;1;4]));
  (*4586*) Del (T 191);
  (*4587*) Assign (T 198) (Plain (Zeros [6;6;7;7]));
  (*4588*) AddTo (T 198) (Plain (Einsum [(T 192,[0;1;2;3])] [0;1;2;3]));
  (*4589*) Del (T 192);
  (*4590*) AddTo (T 222) (Plain (Einsum [(T 22,[0;1;2;3])] [0;1;2;3]));
  (*4591*) Assign (T 223) (Plain (Zeros [6;6;7;7]));
  (*4592*) AddTo (T 223) (Plain (Einsum [(n_t2'bbbb,[0;1;2;3]); (T 222,[0;1;4;5])] [4;5;2;3]));
  (*4593*) Del (T 222);
  (*4594*) AddTo (T 224) (Plain (Einsum [(T 223,[0;1;2;3])] [1;0;3;2]));
  (*4595*) Del (T 223);
  (*4596*) Assign n_rdm2_f_vovo_bbbb (Plain (Zeros [7;6;7;6]));
  (*4597*) AddTo n_rdm2_f_vovo_bbbb (Times (Einsum [(T 224,[0;1;2;3])] [2;1;3;0]) (-1) 1);
  (*4598*) AddTo n_rdm2_f_vovo_bbbb (Plain (Einsum [(T 224,[0;1;2;3])] [3;1;2;0]));
  (*4599*) Del (T 224);
  (*4600*) AddTo n_rdm2_f_oooo_bbbb (Plain (Einsum [(T 22,[0;1;2;3])] [0;2;1;3]));
  (*4601*) AddTo n_rdm2_f_oooo_bbbb (Times (Einsum [(T 22,[0;1;2;3])] [0;3;1;2]) (-1) 1);
  (*4602*) Del (T 22);
  (*4603*) Assign (T 62) (Plain (Zeros [6;6;6;7]));
  (*4604*) AddTo (T 62) (Plain (Einsum [(T 21,[0;1;2;3])] [0;1;2;3]));
  (*4605*) AddTo (T 62) (Times (Einsum [(T 21,[0;1;2;3])] [1;0;2;3]) (-1) 1);
  (*4606*) Assign (T 90) (Plain (Zeros [4;6;6;5]));
  (*4607*) AddTo (T 90) (Plain (Einsum [(n_t2'abab,[0;1;2;3]); (T 62,[1;4;5;3])] [0;4;5;2]));
  (*4608*) AddTo (T 242) (Times (Einsum [(T 90,[0;1;2;3])] [0;1;2;3]) (-1) 1);
  (*4609*) AddTo n_rdm2_f_oovo_bbaa (Times (Einsum [(T 90,[0;1;2;3])] [1;2;3;0]) (-1) 1);
  (*4610*) AddTo n_rdm2_f_vooo_aabb (Times (Einsum [(T 90,[0;1;2;3])] [3;0;1;2]) (-1) 1);
  (*4611*) Del (T 90);
  (*4612*) Assign (T 68) (Plain (Zeros [6;6;6;7]));
  (*4613*) AddTo (T 68) (Times (Einsum [(T 21,[0;1;2;3])] [0;1;2;3]) (-1) 1);
  (*4614*) AddTo (T 68) (Plain (Einsum [(T 21,[0;1;2;3])] [1;0;2;3]));
  (*4615*) Assign (T 69) (Plain (Zeros [6;7]));
  (*4616*) AddTo (T 69) (Plain (Einsum [(n_t2'bbbb,[0;1;2;3]); (T 68,[1;0;4;3])] [4;2]));
  (*4617*) Del (T 68);
  (*4618*) AddTo (T 71) (Times (Einsum [(T 69,[0;1])] [0;1]) (-1) 1);
  (*4619*) AddTo (T 72) (Times (Einsum [(n_delta_oo'bb,[0;1]); (T 71,[2;3])] [1;0;2;3]) (-1) 1);
  (*4620*) AddTo (T 219) (Plain (Einsum [(n_t1'bb,[0;1]); (T 71,[2;3])] [0;2;1;3]));
  (*4621*) Assign n_rdm2_f_vooo_bbbb (Plain (Zeros [7;6;6;6]));
  (*4622*) AddTo n_rdm2_f_vooo_bbbb (Plain (Einsum [(n_delta_oo'bb,[0;1]); (T 71,[2;3])] [3;1;0;2]));
  (*4623*) AddTo n_rdm2_f_vooo_bbbb (Times (Einsum [(n_delta_oo'bb,[0;1]); (T 71,[2;3])] [3;2;0;1]) (-1) 1);
  (*4624*) Del (T 71);
  (*4625*) AddTo (T 85) (Times (Einsum [(T 69,[0;1])] [0;1]) (-1) 1);
  (*4626*) AddTo (T 98) (Times (Einsum [(T 69,[0;1])] [0;1]) (-1) 1);
  (*4627*) AddTo (T 257) (Times (Einsum [(T 69,[0;1])] [0;1]) (-1) 1);
  (*4628*) AddTo (T 262) (Times (Einsum [(T 69,[0;1])] [0;1]) (-1) 1);
  (*4629*) Del (T 69);
  (*4630*) Assign (T 118) (Plain (Zeros [6;6;6;7]));
  (*4631*) SubFrom (T 118) (Plain (Einsum [(T 21,[0;1;2;3])] [0;1;2;3]));
  (*4632*) AddTo (T 118) (Plain (Einsum [(T 21,[0;1;2;3])] [1;0;2;3]));
  (*4633*) Assign (T 119) (Plain (Zeros [6;6;7;7]));
  (*4634*) AddTo (T 119) (Plain (Einsum [(n_t1'bb,[0;1]); (T 118,[2;0;3;4])] [2;3;1;4]));
  (*4635*) Del (T 118);
  (*4636*) Assign n_rdm2_f_oovv_bbbb (Plain (Zeros [6;6;7;7]));
  (*4637*) SubFrom n_rdm2_f_oovv_bbbb (Plain (Einsum [(T 119,[0;1;2;3])] [0;1;2;3]));
  (*4638*) Assign n_rdm2_f_vvoo_bbbb (Plain (Zeros [7;7;6;6]));
  (*4639*) SubFrom n_rdm2_f_vvoo_bbbb (Plain (Einsum [(T 119,[0;1;2;3])] [2;3;0;1]));
  (*4640*) Del (T 119);
  (*4641*) Assign (T 143) (Plain (Zeros [6;6;6;7]));
  (*4642*) AddTo (T 143) (Plain (Einsum [(T 21,[0;1;2;3])] [0;1;2;3]));
  (*4643*) SubFrom (T 143) (Plain (Einsum [(T 21,[0;1;2;3])] [1;0;2;3]));
  (*4644*) Assign (T 144) (Plain (Zeros [6;6;7;7]));
  (*4645*) AddTo (T 144) (Plain (Einsum [(n_t1'bb,[0;1]); (T 143,[2;0;3;4])] [2;3;1;4]));
  (*4646*) Assign n_rdm2_f_ovvo_bbbb (Plain (Zeros [6;7;7;6]));
  (*4647*) SubFrom n_rdm2_f_ovvo_bbbb (Plain (Einsum [(T 144,[0;1;2;3])] [0;3;2;1]));
  (*4648*) Assign n_rdm2_f_voov_bbbb (Plain (Zeros [7;6;6;7]));
  (*4649*) SubFrom n_rdm2_f_voov_bbbb (Plain (Einsum [(T 144,[0;1;2;3])] [2;1;0;3]));
  (*4650*) Del (T 144);
  (*4651*) Assign (T 283) (Plain (Zeros [6;7;7;7]));
  (*4652*) AddTo (T 283) (Plain (Einsum [(n_t2'bbbb,[0;1;2;3]); (T 21,[1;0;4;5])] [4;5;3;2]));
  (*4653*) Assign (T 290) (Plain (Zeros [6;7;7;7]));
  (*4654*) AddTo (T 290) (Plain (Einsum [(T 283,[0;1;2;3])] [0;1;2;3]));
  (*4655*) Del (T 283);
  (*4656*) Assign (T 284) (Plain (Zeros [6;6;7;7]));
  (*4657*) AddTo (T 284) (Plain (Einsum [(n_t1'bb,[0;1]); (T 21,[2;0;3;4])] [2;3;4;1]));
  (*4658*) Assign (T 287) (Plain (Zeros [6;6;7;7]));
  (*4659*) AddTo (T 287) (Times (Einsum [(T 284,[0;1;2;3])] [0;1;2;3]) (-1) 1);
  (*4660*) Del (T 284);
  (*4661*) Assign n_rdm2_f_ooov_bbbb (Plain (Zeros [6;6;6;7]));
  (*4662*) AddTo n_rdm2_f_ooov_bbbb (Plain (Einsum [(T 21,[0;1;2;3])] [0;2;1;3]));
  (*4663*) SubFrom n_rdm2_f_ooov_bbbb (Plain (Einsum [(T 21,[0;1;2;3])] [1;2;0;3]));
  (*4664*) Assign n_rdm2_f_ovoo_bbbb (Plain (Zeros [6;7;6;6]));
  (*4665*) SubFrom n_rdm2_f_ovoo_bbbb (Plain (Einsum [(T 21,[0;1;2;3])] [0;3;1;2]));
  (*4666*) AddTo n_rdm2_f_ovoo_bbbb (Plain (Einsum [(T 21,[0;1;2;3])] [1;3;0;2]));
  (*4667*) Del (T 21);
  (*4668*) Assign (T 24) (Plain (Zeros [4;4;6;7]));
  (*4669*) AddTo (T 24) (Plain (Einsum [(n_t1'aa,[0;1]); (n_l2'abab,[1;2;3;4])] [3;0;4;2]));
  (*4670*) Assign (T 36) (Plain (Zeros [4;4;4;5]));
  (*4671*) AddTo (T 36) (Plain (Einsum [(n_t2'abab,[0;1;2;3]); (T 24,[4;5;1;3])] [4;5;0;2]));
  (*4672*) AddTo (T 46) (Times (Einsum [(T 36,[0;1;2;3])] [0;1;2;3]) (-1) 1);
  (*4673*) AddTo (T 97) (Times (Einsum [(T 36,[0;1;2;3])] [0;1;2;3]) (-1) 1);
  (*4674*) Assign (T 163) (Plain (Zeros [4;4;4;5]));
  (*4675*) SubFrom (T 163) (Plain (Einsum [(T 36,[0;1;2;3])] [0;1;2;3]));
  (*4676*) Del (T 36);
  (*4677*) Assign (T 42) (Plain (Zeros [4;5]));
  (*4678*) AddTo (T 42) (Plain (Einsum [(n_t2'abab,[0;1;2;3]); (T 24,[0;4;1;3])] [4;2]));
  (*4679*) AddTo (T 45) (Plain (Einsum [(T 42,[0;1])] [0;1]));
  (*4680*) AddTo (T 46) (Times (Einsum [(n_delta_oo'aa,[0;1]); (T 45,[2;3])] [1;0;2;3]) (-1) 1);
  (*4681*) AddTo (T 176) (Plain (Einsum [(n_t1'aa,[0;1]); (T 45,[2;3])] [0;2;1;3]));
  (*4682*) Assign n_rdm2_f_vooo_aaaa (Plain (Zeros [5;4;4;4]));
  (*4683*) AddTo n_rdm2_f_vooo_aaaa (Plain (Einsum [(n_delta_oo'aa,[0;1]); (T 45,[2;3])] [3;1;0;2]));
  (*4684*) AddTo n_rdm2_f_vooo_aaaa (Times (Einsum [(n_delta_oo'aa,[0;1]); (T 45,[2;3])] [3;2;0;1]) (-1) 1);
  (*4685*) Del (T 45);
  (*4686*) AddTo (T 95) (Plain (Einsum [(T 42,[0;1])] [0;1]));
  (*4687*) AddTo (T 260) (Plain (Einsum [(T 42,[0;1])] [0;1]));
  (*4688*) AddTo (T 261) (Plain (Einsum [(T 42,[0;1])] [0;1]));
  (*4689*) Del (T 42);
  (*4690*) Assign (T 80) (Plain (Zeros [4;4;6;7]));
  (*4691*) AddTo (T 80) (Plain (Einsum [(T 17,[0;1;2;3]); (T 24,[4;5;0;3])] [4;5;1;2]));
  (*4692*) AddTo n_rdm2_f_oovo_aabb (Times (Einsum [(T 80,[0;1;2;3])] [0;1;3;2]) (-1) 1);
  (*4693*) AddTo n_rdm2_f_vooo_bbaa (Times (Einsum [(T 80,[0;1;2;3])] [3;2;0;1]) (-1) 1);
  (*4694*) Del (T 80);
  (*4695*) Assign (T 88) (Plain (Zeros [4;6;6;5]));
  (*4696*) AddTo (T 88) (Plain (Einsum [(n_t2'abab,[0;1;2;3]); (T 24,[0;4;5;3])] [4;5;1;2]));
  (*4697*) AddTo (T 242) (Plain (Einsum [(T 88,[0;1;2;3])] [0;1;2;3]));
  (*4698*) AddTo n_rdm2_f_oovo_bbaa (Plain (Einsum [(T 88,[0;1;2;3])] [1;2;3;0]));
  (*4699*) AddTo n_rdm2_f_vooo_aabb (Plain (Einsum [(T 88,[0;1;2;3])] [3;0;1;2]));
  (*4700*) Del (T 88);
  (*4701*) Assign (T 129) (Plain (Zeros [4;4;7;7]));
  (*4702*) AddTo (T 129) (Plain (Einsum [(n_t1'bb,[0;1]); (T 24,[2;3;0;4])] [2;3;4;1]));
  (*4703*) Assign n_rdm2_f_oovv_aabb (Plain (Zeros [4;4;7;7]));
  (*4704*) SubFrom n_rdm2_f_oovv_aabb (Plain (Einsum [(T 129,[0;1;2;3])] [0;1;3;2]));
  (*4705*) Assign n_rdm2_f_vvoo_bbaa (Plain (Zeros [7;7;4;4]));
  (*4706*) SubFrom n_rdm2_f_vvoo_bbaa (Plain (Einsum [(T 129,[0;1;2;3])] [3;2;0;1]));
  (*4707*) Del (T 129);
  (*4708*) Assign (T 139) (Plain (Zeros [4;6;5;7]));
  (*4709*) AddTo (T 139) (Plain (Einsum [(n_t1'aa,[0;1]); (T 24,[0;2;3;4])] [2;3;1;4]));
  (*4710*) AddTo (T 305) (Plain (Einsum [(T 139,[0;1;2;3])] [0;1;2;3]));
  (*4711*) Assign n_rdm2_f_ovvo_bbaa (Plain (Zeros [6;7;5;4]));
  (*4712*) SubFrom n_rdm2_f_ovvo_bbaa (Plain (Einsum [(T 139,[0;1;2;3])] [1;3;2;0]));
  (*4713*) Assign n_rdm2_f_voov_aabb (Plain (Zeros [5;4;6;7]));
  (*4714*) SubFrom n_rdm2_f_voov_aabb (Plain (Einsum [(T 139,[0;1;2;3])] [2;0;1;3]));
  (*4715*) Del (T 139);
  (*4716*) Assign (T 299) (Plain (Zeros [4;5;7;7]));
  (*4717*) AddTo (T 299) (Plain (Einsum [(n_t2'abab,[0;1;2;3]); (T 24,[0;4;1;5])] [4;2;5;3]));
  (*4718*) Assign n_rdm2_f_vovv_aabb (Plain (Zeros [5;4;7;7]));
  (*4719*) AddTo n_rdm2_f_vovv_aabb (Times (Einsum [(T 299,[0;1;2;3])] [1;0;3;2]) (-1) 1);
  (*4720*) Assign n_rdm2_f_vvvo_bbaa (Plain (Zeros [7;7;5;4]));
  (*4721*) AddTo n_rdm2_f_vvvo_bbaa (Times (Einsum [(T 299,[0;1;2;3])] [3;2;1;0]) (-1) 1);
  (*4722*) Del (T 299);
  (*4723*) Assign n_rdm2_f_ooov_aabb (Plain (Zeros [4;4;6;7]));
  (*4724*) SubFrom n_rdm2_f_ooov_aabb (Plain (Einsum [(T 24,[0;1;2;3])] [0;1;2;3]));
  (*4725*) Assign n_rdm2_f_ovoo_bbaa (Plain (Zeros [6;7;4;4]));
  (*4726*) SubFrom n_rdm2_f_ovoo_bbaa (Plain (Einsum [(T 24,[0;1;2;3])] [2;3;0;1]));
  (*4727*) Assign (T 25) (Plain (Zeros [4;4;4;5]));
  (*4728*) AddTo (T 25) (Plain (Einsum [(n_l1'aa,[0;1]); (n_t2'aaaa,[2;3;4;0])] [1;2;3;4]));
  (*4729*) AddTo (T 35) (Plain (Einsum [(T 25,[0;1;2;3])] [0;1;2;3]));
  (*4730*) AddTo (T 96) (Plain (Einsum [(T 25,[0;1;2;3])] [0;1;2;3]));
  (*4731*) AddTo (T 163) (Plain (Einsum [(T 25,[0;1;2;3])] [0;1;2;3]));
  (*4732*) Del (T 25);
  (*4733*) Assign (T 26) (Plain (Zeros [3;4;4]));
  (*4734*) AddTo (T 26) (Plain (Einsum [(n_t1'aa,[0;1]); (n_lu11'aa,[2;1;3])] [2;3;0]));
  (*4735*) Assign (T 27) (Plain (Zeros [4;4;4;5]));
  (*4736*) AddTo (T 27) (Plain (Einsum [(n_u11'aa,[0;1;2]); (T 26,[0;3;4])] [3;4;1;2]));
  (*4737*) SubFrom (T 35) (Plain (Einsum [(T 27,[0;1;2;3])] [0;1;2;3]));
  (*4738*) SubFrom (T 96) (Plain (Einsum [(T 27,[0;1;2;3])] [0;1;2;3]));
  (*4739*) Del (T 27);
  (*4740*) SubFrom n_rdm2_f_vooo_aaaa (Plain (Einsum [(T 96,[0;1;2;3])] [3;1;0;2]));
  (*4741*) AddTo n_rdm2_f_vooo_aaaa (Plain (Einsum [(T 96,[0;1;2;3])] [3;2;0;1]));
  (*4742*) Del (T 96);
  (*4743*) Assign (T 29) (Plain (Zeros [4;5]));
  (*4744*) AddTo (T 29) (Plain (Einsum [(n_u11'aa,[0;1;2]); (T 26,[0;1;3])] [3;2]));
  (*4745*) AddTo (T 33) (Plain (Einsum [(T 29,[0;1])] [0;1]));
  (*4746*) AddTo (T 95) (Plain (Einsum [(T 29,[0;1])] [0;1]));
  (*4747*) AddTo (T 185) (Plain (Einsum [(T 29,[0;1])] [0;1]));
  (*4748*) AddTo (T 186) (Plain (Einsum [(T 29,[0;1])] [0;1]));
  (*4749*) AddTo (T 260) (Plain (Einsum [(T 29,[0;1])] [0;1]));
  (*4750*) AddTo (T 261) (Times (Einsum [(T 29,[0;1])] [0;1]) (9999999999999993) 10000000000000000);
  (*4751*) Del (T 29);
  (*4752*) Assign (T 77) (Plain (Zeros [4;4;6;7]));
  (*4753*) AddTo (T 77) (Plain (Einsum [(n_u11'bb,[0;1;2]); (T 26,[0;3;4])] [3;4;1;2]));
  (*4754*) SubFrom n_rdm2_f_oovo_aabb (Plain (Einsum [(T 77,[0;1;2;3])] [0;1;3;2]));
  (*4755*) SubFrom n_rdm2_f_vooo_bbaa (Plain (Einsum [(T 77,[0;1;2;3])] [3;2;0;1]));
  (*4756*) Del (T 77);
  (*4757*) Assign (T 165) (Plain (Zeros [3;4;5]));
  (*4758*) AddTo (T 165) (Plain (Einsum [(n_t1'aa,[0;1]); (T 26,[2;0;3])] [2;3;1]));
  (*4759*) Del (T 26);
  (*4760*) Assign (T 168) (Plain (Zeros [3;4;5]));
  (*4761*) SubFrom (T 168) (Plain (Einsum [(T 165,[0;1;2])] [0;1;2]));
  (*4762*) Del (T 165);
  (*4763*) Assign (T 28) (Plain (Zeros [4;5]));
  (*4764*) AddTo (T 28) (Plain (Einsum [(n_l1'bb,[0;1]); (n_t2'abab,[2;1;3;0])] [2;3]));
  (*4765*) SubFrom (T 33) (Plain (Einsum [(T 28,[0;1])] [0;1]));
  (*4766*) AddTo (T 95) (Times (Einsum [(T 28,[0;1])] [0;1]) (-1) 1);
  (*4767*) Assign (T 171) (Plain (Zeros [4;5]));
  (*4768*) AddTo (T 171) (Plain (Einsum [(T 28,[0;1])] [0;1]));
  (*4769*) AddTo (T 260) (Times (Einsum [(T 28,[0;1])] [0;1]) (-1) 1);
  (*4770*) AddTo (T 261) (Times (Einsum [(T 28,[0;1])] [0;1]) (-9999999999999993) 10000000000000000);
  (*4771*) Del (T 28);
  (*4772*) Assign (T 31) (Plain (Zeros [4;4;5;5]));
  (*4773*) AddTo (T 31) (Plain (Einsum [(n_t2'aaaa,[0;1;2;3])] [1;0;2;3]));
  (*4774*) SubFrom (T 31) (Plain (Einsum [(n_t2'aaaa,[0;1;2;3])] [1;0;3;2]));
  (*4775*) Assign (T 32) (Plain (Zeros [4;5]));
  (*4776*) AddTo (T 32) (Plain (Einsum [(n_l1'aa,[0;1]); (T 31,[1;2;3;0])] [2;3]));
  (*4777*) SubFrom (T 33) (Plain (Einsum [(T 32,[0;1])] [0;1]));
  (*4778*) Del (T 32);
  (*4779*) SubFrom (T 35) (Plain (Einsum [(n_delta_oo'aa,[0;1]); (T 33,[2;3])] [1;0;2;3]));
  (*4780*) Assign n_rdm2_f_oovo_aaaa (Plain (Zeros [4;4;5;4]));
  (*4781*) AddTo n_rdm2_f_oovo_aaaa (Plain (Einsum [(T 35,[0;1;2;3])] [0;1;3;2]));
  (*4782*) SubFrom n_rdm2_f_oovo_aaaa (Plain (Einsum [(T 35,[0;1;2;3])] [0;2;3;1]));
  (*4783*) Del (T 35);
  (*4784*) AddTo n_rdm2_f_vooo_aaaa (Plain (Einsum [(n_delta_oo'aa,[0;1]); (T 33,[2;3])] [3;1;0;2]));
  (*4785*) SubFrom n_rdm2_f_vooo_aaaa (Plain (Einsum [(n_delta_oo'aa,[0;1]); (T 33,[2;3])] [3;2;0;1]));
  (*4786*) Del (T 33);
  (*4787*) Assign (T 38) (Plain (Zeros [4;4;5;5]));
  (*4788*) AddTo (T 38) (Times (Einsum [(n_t2'aaaa,[0;1;2;3])] [1;0;2;3]) (-1) 1);
  (*4789*) AddTo (T 38) (Plain (Einsum [(n_t2'aaaa,[0;1;2;3])] [1;0;3;2]));
  (*4790*) Assign (T 39) (Plain (Zeros [4;4;4;5]));
  (*4791*) AddTo (T 39) (Plain (Einsum [(T 37,[0;1;2;3]); (T 38,[1;4;3;5])] [0;2;4;5]));
  (*4792*) Del (T 37);
  (*4793*) AddTo (T 46) (Plain (Einsum [(T 39,[0;1;2;3])] [0;1;2;3]));
  (*4794*) AddTo n_rdm2_f_oovo_aaaa (Plain (Einsum [(T 46,[0;1;2;3])] [0;1;3;2]));
  (*4795*) AddTo n_rdm2_f_oovo_aaaa (Times (Einsum [(T 46,[0;1;2;3])] [0;2;3;1]) (-1) 1);
  (*4796*) Del (T 46);
  (*4797*) AddTo (T 97) (Plain (Einsum [(T 39,[0;1;2;3])] [0;1;2;3]));
  (*4798*) Del (T 39);
  (*4799*) AddTo n_rdm2_f_vooo_aaaa (Times (Einsum [(T 97,[0;1;2;3])] [3;1;0;2]) (-1) 1);
  (*4800*) AddTo n_rdm2_f_vooo_aaaa (Plain (Einsum [(T 97,[0;1;2;3])] [3;2;0;1]));
  (*4801*) Del (T 97);
  (*4802*) Assign (T 47) (Plain (Zeros [4;5]));
  (*4803*) AddTo (T 47) (Plain (Einsum [(n_ls1,[0]); (n_u11'aa,[0;1;2])] [1;2]));
  (*4804*) AddTo (T 49) (Plain (Einsum [(T 47,[0;1])] [0;1]));
  (*4805*) AddTo (T 95) (Times (Einsum [(T 47,[0;1])] [0;1]) (-1) 1);
  (*4806*) SubFrom (T 185) (Plain (Einsum [(T 47,[0;1])] [0;1]));
  (*4807*) SubFrom (T 186) (Plain (Einsum [(T 47,[0;1])] [0;1]));
  (*4808*) SubFrom n_rdm2_f_vovo_aaaa (Plain (Einsum [(n_t1'aa,[0;1]); (T 186,[2;3])] [1;0;3;2]));
  (*4809*) AddTo n_rdm2_f_vovo_aaaa (Plain (Einsum [(n_t1'aa,[0;1]); (T 186,[2;3])] [3;0;1;2]));
  (*4810*) Del (T 186);
  (*4811*) AddTo (T 260) (Times (Einsum [(T 47,[0;1])] [0;1]) (-1) 1);
  (*4812*) AddTo n_rdm2_f_vovo_bbaa (Times (Einsum [(n_t1'bb,[0;1]); (T 260,[2;3])] [1;0;3;2]) (-1) 1);
  (*4813*) Del (T 260);
  (*4814*) AddTo (T 261) (Times (Einsum [(T 47,[0;1])] [0;1]) (-9999999999999993) 10000000000000000);
  (*4815*) Del (T 47);
  (*4816*) AddTo (T 49) (Plain (Einsum [(n_t1'aa,[0;1])] [0;1]));
  (*4817*) SubFrom n_rdm2_f_oovo_aaaa (Plain (Einsum [(n_delta_oo'aa,[0;1]); (T 49,[2;3])] [1;2;3;0]));
  (*4818*) AddTo n_rdm2_f_oovo_aaaa (Plain (Einsum [(n_delta_oo'aa,[0;1]); (T 49,[2;3])] [1;0;3;2]));
  (*4819*) SubFrom n_rdm2_f_vooo_aaaa (Plain (Einsum [(n_delta_oo'aa,[0;1]); (T 49,[2;3])] [3;0;1;2]));
  (*4820*) AddTo n_rdm2_f_vooo_aaaa (Plain (Einsum [(n_delta_oo'aa,[0;1]); (T 49,[2;3])] [3;2;1;0]));
  (*4821*) Del (T 49);
  (*4822*) Assign (T 50) (Plain (Zeros [6;6;6;7]));
  (*4823*) AddTo (T 50) (Plain (Einsum [(n_l1'bb,[0;1]); (n_t2'bbbb,[2;3;0;4])] [1;3;2;4]));
  (*4824*) AddTo (T 60) (Plain (Einsum [(T 50,[0;1;2;3])] [0;1;2;3]));
  (*4825*) AddTo (T 99) (Plain (Einsum [(T 50,[0;1;2;3])] [0;1;2;3]));
  (*4826*) AddTo (T 205) (Plain (Einsum [(T 50,[0;1;2;3])] [0;1;2;3]));
  (*4827*) Del (T 50);
  (*4828*) Assign (T 51) (Plain (Zeros [3;6;6]));
  (*4829*) AddTo (T 51) (Plain (Einsum [(n_t1'bb,[0;1]); (n_lu11'bb,[2;1;3])] [2;3;0]));
  (*4830*) Assign (T 52) (Plain (Zeros [6;6;6;7]));
  (*4831*) AddTo (T 52) (Plain (Einsum [(n_u11'bb,[0;1;2]); (T 51,[0;3;4])] [3;4;1;2]));
  (*4832*) SubFrom (T 60) (Plain (Einsum [(T 52,[0;1;2;3])] [0;1;2;3]));
  (*4833*) SubFrom (T 99) (Plain (Einsum [(T 52,[0;1;2;3])] [0;1;2;3]));
  (*4834*) Del (T 52);
  (*4835*) SubFrom n_rdm2_f_vooo_bbbb (Plain (Einsum [(T 99,[0;1;2;3])] [3;1;0;2]));
  (*4836*) AddTo n_rdm2_f_vooo_bbbb (Plain (Einsum [(T 99,[0;1;2;3])] [3;2;0;1]));
  (*4837*) Del (T 99);
  (*4838*) Assign (T 54) (Plain (Zeros [6;7]));
  (*4839*) AddTo (T 54) (Plain (Einsum [(n_u11'bb,[0;1;2]); (T 51,[0;1;3])] [3;2]));
  (*4840*) AddTo (T 58) (Plain (Einsum [(T 54,[0;1])] [0;1]));
  (*4841*) AddTo (T 85) (Plain (Einsum [(T 54,[0;1])] [0;1]));
  (*4842*) AddTo (T 98) (Plain (Einsum [(T 54,[0;1])] [0;1]));
  (*4843*) AddTo (T 226) (Plain (Einsum [(T 54,[0;1])] [0;1]));
  (*4844*) AddTo (T 227) (Plain (Einsum [(T 54,[0;1])] [0;1]));
  (*4845*) AddTo (T 257) (Times (Einsum [(T 54,[0;1])] [0;1]) (9999999999999993) 10000000000000000);
  (*4846*) AddTo (T 262) (Times (Einsum [(T 54,[0;1])] [0;1]) (9999999999999993) 10000000000000000);
  (*4847*) Del (T 54);
  (*4848*) Assign (T 87) (Plain (Zeros [4;6;6;5]));
  (*4849*) AddTo (T 87) (Plain (Einsum [(n_u11'aa,[0;1;2]); (T 51,[0;3;4])] [1;3;4;2]));
  (*4850*) SubFrom n_rdm2_f_oovo_bbaa (Plain (Einsum [(T 87,[0;1;2;3])] [1;2;3;0]));
  (*4851*) SubFrom n_rdm2_f_vooo_aabb (Plain (Einsum [(T 87,[0;1;2;3])] [3;0;1;2]));
  (*4852*) Del (T 87);
  (*4853*) Assign (T 208) (Plain (Zeros [3;6;7]));
  (*4854*) AddTo (T 208) (Plain (Einsum [(n_t1'bb,[0;1]); (T 51,[2;0;3])] [2;3;1]));
  (*4855*) Del (T 51);
  (*4856*) Assign (T 210) (Plain (Zeros [3;6;7]));
  (*4857*) SubFrom (T 210) (Plain (Einsum [(T 208,[0;1;2])] [0;1;2]));
  (*4858*) Assign (T 250) (Plain (Zeros [3;6;7]));
  (*4859*) SubFrom (T 250) (Plain (Einsum [(T 208,[0;1;2])] [0;1;2]));
  (*4860*) Del (T 208);
  (*4861*) Assign (T 53) (Plain (Zeros [6;7]));
  (*4862*) AddTo (T 53) (Plain (Einsum [(n_l1'aa,[0;1]); (n_t2'abab,[1;2;0;3])] [2;3]));
  (*4863*) SubFrom (T 58) (Plain (Einsum [(T 53,[0;1])] [0;1]));
  (*4864*) AddTo (T 85) (Times (Einsum [(T 53,[0;1])] [0;1]) (-1) 1);
  (*4865*) AddTo (T 98) (Times (Einsum [(T 53,[0;1])] [0;1]) (-1) 1);
  (*4866*) Assign (T 213) (Plain (Zeros [6;7]));
  (*4867*) AddTo (T 213) (Plain (Einsum [(T 53,[0;1])] [0;1]));
  (*4868*) AddTo (T 257) (Times (Einsum [(T 53,[0;1])] [0;1]) (-9999999999999993) 10000000000000000);
  (*4869*) AddTo (T 262) (Times (Einsum [(T 53,[0;1])] [0;1]) (-9999999999999993) 10000000000000000);
  (*4870*) Del (T 53);
  (*4871*) Assign (T 56) (Plain (Zeros [6;6;7;7]));
  (*4872*) AddTo (T 56) (Plain (Einsum [(n_t2'bbbb,[0;1;2;3])] [1;0;2;3]));
  (*4873*) SubFrom (T 56) (Plain (Einsum [(n_t2'bbbb,[0;1;2;3])] [1;0;3;2]));
  (*4874*) Assign (T 57) (Plain (Zeros [6;7]));
  (*4875*) AddTo (T 57) (Plain (Einsum [(n_l1'bb,[0;1]); (T 56,[1;2;3;0])] [2;3]));
  (*4876*) SubFrom (T 58) (Plain (Einsum [(T 57,[0;1])] [0;1]));
  (*4877*) Del (T 57);
  (*4878*) SubFrom (T 60) (Plain (Einsum [(n_delta_oo'bb,[0;1]); (T 58,[2;3])] [1;0;2;3]));
  (*4879*) Assign n_rdm2_f_oovo_bbbb (Plain (Zeros [6;6;7;6]));
  (*4880*) AddTo n_rdm2_f_oovo_bbbb (Plain (Einsum [(T 60,[0;1;2;3])] [0;1;3;2]));
  (*4881*) SubFrom n_rdm2_f_oovo_bbbb (Plain (Einsum [(T 60,[0;1;2;3])] [0;2;3;1]));
  (*4882*) Del (T 60);
  (*4883*) AddTo n_rdm2_f_vooo_bbbb (Plain (Einsum [(n_delta_oo'bb,[0;1]); (T 58,[2;3])] [3;1;0;2]));
  (*4884*) SubFrom n_rdm2_f_vooo_bbbb (Plain (Einsum [(n_delta_oo'bb,[0;1]); (T 58,[2;3])] [3;2;0;1]));
  (*4885*) Del (T 58);
  (*4886*) Assign (T 63) (Plain (Zeros [6;6;7;7]));
  (*4887*) AddTo (T 63) (Times (Einsum [(n_t2'bbbb,[0;1;2;3])] [1;0;2;3]) (-1) 1);
  (*4888*) AddTo (T 63) (Plain (Einsum [(n_t2'bbbb,[0;1;2;3])] [1;0;3;2]));
  (*4889*) Assign (T 64) (Plain (Zeros [6;6;6;7]));
  (*4890*) AddTo (T 64) (Plain (Einsum [(T 62,[0;1;2;3]); (T 63,[1;4;3;5])] [0;2;4;5]));
  (*4891*) Del (T 62);
  (*4892*) Del (T 63);
  (*4893*) AddTo (T 72) (Plain (Einsum [(T 64,[0;1;2;3])] [0;1;2;3]));
  (*4894*) AddTo n_rdm2_f_oovo_bbbb (Plain (Einsum [(T 72,[0;1;2;3])] [0;1;3;2]));
  (*4895*) AddTo n_rdm2_f_oovo_bbbb (Times (Einsum [(T 72,[0;1;2;3])] [0;2;3;1]) (-1) 1);
  (*4896*) Del (T 72);
  (*4897*) AddTo (T 100) (Plain (Einsum [(T 64,[0;1;2;3])] [0;1;2;3]));
  (*4898*) Del (T 64);
  (*4899*) AddTo n_rdm2_f_vooo_bbbb (Times (Einsum [(T 100,[0;1;2;3])] [3;1;0;2]) (-1) 1);
  (*4900*) AddTo n_rdm2_f_vooo_bbbb (Plain (Einsum [(T 100,[0;1;2;3])] [3;2;0;1]));
  (*4901*) Del (T 100);
  (*4902*) Assign (T 73) (Plain (Zeros [6;7]));
  (*4903*) AddTo (T 73) (Plain (Einsum [(n_ls1,[0]); (n_u11'bb,[0;1;2])] [1;2]));
  (*4904*) AddTo (T 75) (Plain (Einsum [(T 73,[0;1])] [0;1]));
  (*4905*) AddTo (T 85) (Times (Einsum [(T 73,[0;1])] [0;1]) (-1) 1);
  (*4906*) AddTo (T 98) (Times (Einsum [(T 73,[0;1])] [0;1]) (-1) 1);
  (*4907*) AddTo n_rdm2_f_vooo_bbaa (Times (Einsum [(n_delta_oo'aa,[0;1]); (T 98,[2;3])] [3;2;1;0]) (-1) 1);
  (*4908*) Del (T 98);
  (*4909*) SubFrom (T 226) (Plain (Einsum [(T 73,[0;1])] [0;1]));
  (*4910*) SubFrom (T 227) (Plain (Einsum [(T 73,[0;1])] [0;1]));
  (*4911*) SubFrom n_rdm2_f_vovo_bbbb (Plain (Einsum [(n_t1'bb,[0;1]); (T 227,[2;3])] [1;0;3;2]));
  (*4912*) AddTo n_rdm2_f_vovo_bbbb (Plain (Einsum [(n_t1'bb,[0;1]); (T 227,[2;3])] [3;0;1;2]));
  (*4913*) Del (T 227);
  (*4914*) AddTo (T 257) (Times (Einsum [(T 73,[0;1])] [0;1]) (-9999999999999993) 10000000000000000);
  (*4915*) AddTo (T 262) (Times (Einsum [(T 73,[0;1])] [0;1]) (-9999999999999993) 10000000000000000);
  (*4916*) Del (T 73);
  (*4917*) AddTo n_rdm2_f_vovo_aabb (Times (Einsum [(n_t1'aa,[0;1]); (T 262,[2;3])] [1;0;3;2]) (-1) 1);
  (*4918*) Del (T 262);
  (*4919*) AddTo (T 75) (Plain (Einsum [(n_t1'bb,[0;1])] [0;1]));
  (*4920*) SubFrom n_rdm2_f_oovo_bbbb (Plain (Einsum [(n_delta_oo'bb,[0;1]); (T 75,[2;3])] [1;2;3;0]));
  (*4921*) AddTo n_rdm2_f_oovo_bbbb (Plain (Einsum [(n_delta_oo'bb,[0;1]); (T 75,[2;3])] [1;0;3;2]));
  (*4922*) SubFrom n_rdm2_f_vooo_bbbb (Plain (Einsum [(n_delta_oo'bb,[0;1]); (T 75,[2;3])] [3;0;1;2]));
  (*4923*) AddTo n_rdm2_f_vooo_bbbb (Plain (Einsum [(n_delta_oo'bb,[0;1]); (T 75,[2;3])] [3;2;1;0]));
  (*4924*) Del (T 75);
  (*4925*) Assign (T 76) (Plain (Zeros [4;4;6;7]));
  (*4926*) AddTo (T 76) (Plain (Einsum [(n_l1'aa,[0;1]); (n_t2'abab,[2;3;0;4])] [1;2;3;4]));
  (*4927*) AddTo (T 246) (Plain (Einsum [(T 76,[0;1;2;3])] [0;1;2;3]));
  (*4928*) SubFrom n_rdm2_f_oovo_aabb (Plain (Einsum [(T 76,[0;1;2;3])] [0;1;3;2]));
  (*4929*) SubFrom n_rdm2_f_vooo_bbaa (Plain (Einsum [(T 76,[0;1;2;3])] [3;2;0;1]));
  (*4930*) Del (T 76);
  (*4931*) AddTo (T 85) (Times (Einsum [(n_t1'bb,[0;1])] [0;1]) (-1) 1);
  (*4932*) AddTo n_rdm2_f_oovo_aabb (Times (Einsum [(n_delta_oo'aa,[0;1]); (T 85,[2;3])] [1;0;3;2]) (-1) 1);
  (*4933*) Del (T 85);
  (*4934*) Assign (T 89) (Plain (Zeros [4;6;6;5]));
  (*4935*) AddTo (T 89) (Plain (Einsum [(n_l1'bb,[0;1]); (n_t2'abab,[2;3;4;0])] [2;1;3;4]));
  (*4936*) AddTo (T 242) (Times (Einsum [(T 89,[0;1;2;3])] [0;1;2;3]) (-1) 1);
  (*4937*) Assign (T 243) (Plain (Zeros [4;6;5;7]));
  (*4938*) AddTo (T 243) (Plain (Einsum [(n_t1'bb,[0;1]); (T 242,[2;0;3;4])] [2;3;4;1]));
  (*4939*) Del (T 242);
  (*4940*) AddTo n_rdm2_f_vovo_bbaa (Plain (Einsum [(T 243,[0;1;2;3])] [3;1;2;0]));
  (*4941*) AddTo n_rdm2_f_vovo_aabb (Plain (Einsum [(T 243,[0;1;2;3])] [2;0;3;1]));
  (*4942*) Del (T 243);
  (*4943*) SubFrom n_rdm2_f_oovo_bbaa (Plain (Einsum [(T 89,[0;1;2;3])] [1;2;3;0]));
  (*4944*) SubFrom n_rdm2_f_vooo_aabb (Plain (Einsum [(T 89,[0;1;2;3])] [3;0;1;2]));
  (*4945*) Del (T 89);
  (*4946*) AddTo (T 95) (Times (Einsum [(n_t1'aa,[0;1])] [0;1]) (-1) 1);
  (*4947*) AddTo n_rdm2_f_oovo_bbaa (Times (Einsum [(n_delta_oo'bb,[0;1]); (T 95,[2;3])] [1;0;3;2]) (-1) 1);
  (*4948*) AddTo n_rdm2_f_vooo_aabb (Times (Einsum [(n_delta_oo'bb,[0;1]); (T 95,[2;3])] [3;2;1;0]) (-1) 1);
  (*4949*) Del (T 95);
  (*4950*) Assign (T 101) (Plain (Zeros [4;4;5;5]));
  (*4951*) AddTo (T 101) (Plain (Einsum [(n_lu11'aa,[0;1;2]); (n_u11'aa,[0;3;4])] [2;3;1;4]));
  (*4952*) SubFrom n_rdm2_f_oovv_aaaa (Plain (Einsum [(T 101,[0;1;2;3])] [0;1;3;2]));
  (*4953*) AddTo n_rdm2_f_ovvo_aaaa (Plain (Einsum [(T 101,[0;1;2;3])] [0;2;3;1]));
  (*4954*) AddTo n_rdm2_f_voov_aaaa (Plain (Einsum [(T 101,[0;1;2;3])] [3;1;0;2]));
  (*4955*) SubFrom n_rdm2_f_vvoo_aaaa (Plain (Einsum [(T 101,[0;1;2;3])] [3;2;0;1]));
  (*4956*) Del (T 101);
  (*4957*) Assign (T 102) (Plain (Zeros [4;4;5;5]));
  (*4958*) AddTo (T 102) (Plain (Einsum [(n_l2'abab,[0;1;2;3]); (n_t2'abab,[4;3;5;1])] [2;4;0;5]));
  (*4959*) Assign (T 160) (Plain (Zeros [4;4;5;5]));
  (*4960*) AddTo (T 160) (Plain (Einsum [(T 102,[0;1;2;3])] [0;1;2;3]));
  (*4961*) Assign (T 232) (Plain (Zeros [4;4;5;5]));
  (*4962*) AddTo (T 232) (Plain (Einsum [(T 102,[0;1;2;3])] [0;1;2;3]));
  (*4963*) AddTo (T 270) (Plain (Einsum [(T 102,[0;1;2;3])] [0;1;2;3]));
  (*4964*) SubFrom n_rdm2_f_oovv_aaaa (Plain (Einsum [(T 102,[0;1;2;3])] [0;1;3;2]));
  (*4965*) AddTo n_rdm2_f_ovvo_aaaa (Plain (Einsum [(T 102,[0;1;2;3])] [0;2;3;1]));
  (*4966*) AddTo n_rdm2_f_voov_aaaa (Plain (Einsum [(T 102,[0;1;2;3])] [3;1;0;2]));
  (*4967*) SubFrom n_rdm2_f_vvoo_aaaa (Plain (Einsum [(T 102,[0;1;2;3])] [3;2;0;1]));
  (*4968*) Del (T 102);
  (*4969*) Assign (T 103) (Plain (Zeros [4;4;5;5]));
  (*4970*) SubFrom (T 103) (Plain (Einsum [(n_t2'aaaa,[0;1;2;3])] [1;0;2;3]));
  (*4971*) AddTo (T 103) (Plain (Einsum [(n_t2'aaaa,[0;1;2;3])] [1;0;3;2]));
  (*4972*) Assign (T 140) (Plain (Zeros [4;6;5;7]));
  (*4973*) AddTo (T 140) (Plain (Einsum [(n_l2'abab,[0;1;2;3]); (T 103,[2;4;5;0])] [4;3;5;1]));
  (*4974*) Assign (T 229) (Plain (Zeros [4;6;5;7]));
  (*4975*) SubFrom (T 229) (Plain (Einsum [(T 140,[0;1;2;3])] [0;1;2;3]));
  (*4976*) SubFrom n_rdm2_f_ovvo_bbaa (Plain (Einsum [(T 140,[0;1;2;3])] [1;3;2;0]));
  (*4977*) SubFrom n_rdm2_f_voov_aabb (Plain (Einsum [(T 140,[0;1;2;3])] [2;0;1;3]));
  (*4978*) Del (T 140);
  (*4979*) Assign (T 162) (Plain (Zeros [4;4;4;5]));
  (*4980*) AddTo (T 162) (Plain (Einsum [(T 103,[0;1;2;3]); (T 131,[4;0;5;2])] [1;4;5;3]));
  (*4981*) Del (T 131);
  (*4982*) AddTo (T 163) (Plain (Einsum [(T 162,[0;1;2;3])] [1;2;0;3]));
  (*4983*) Del (T 162);
  (*4984*) Assign (T 164) (Plain (Zeros [4;4;5;5]));
  (*4985*) AddTo (T 164) (Plain (Einsum [(n_t1'aa,[0;1]); (T 163,[0;2;3;4])] [2;3;1;4]));
  (*4986*) Del (T 163);
  (*4987*) AddTo (T 172) (Plain (Einsum [(T 164,[0;1;2;3])] [0;1;2;3]));
  (*4988*) Del (T 164);
  (*4989*) Assign (T 167) (Plain (Zeros [3;4;5]));
  (*4990*) AddTo (T 167) (Plain (Einsum [(n_lu11'aa,[0;1;2]); (T 103,[2;3;4;1])] [0;3;4]));
  (*4991*) SubFrom (T 168) (Plain (Einsum [(T 167,[0;1;2])] [0;1;2]));
  (*4992*) Del (T 167);
  (*4993*) Assign (T 170) (Plain (Zeros [4;5]));
  (*4994*) AddTo (T 170) (Plain (Einsum [(n_l1'aa,[0;1]); (T 103,[1;2;3;0])] [2;3]));
  (*4995*) SubFrom (T 171) (Plain (Einsum [(T 170,[0;1])] [0;1]));
  (*4996*) Del (T 170);
  (*4997*) AddTo (T 172) (Plain (Einsum [(n_t1'aa,[0;1]); (T 171,[2;3])] [0;2;1;3]));
  (*4998*) Del (T 171);
  (*4999*) Assign (T 104) (Plain (Zeros [4;4;5;5]));
  (*5000*) SubFrom (T 104) (Plain (Einsum [(n_l2'aaaa,[0;1;2;3])] [3;2;0;1]));
  (*5001*) AddTo (T 104) (Plain (Einsum [(n_l2'aaaa,[0;1;2;3])] [3;2;1;0]));
  (*5002*) Assign (T 105) (Plain (Zeros [4;4;5;5]));
  (*5003*) AddTo (T 105) (Plain (Einsum [(T 103,[0;1;2;3]); (T 104,[0;4;5;2])] [1;4;3;5]));
  (*5004*) AddTo n_rdm2_f_oovv_aaaa (Plain (Einsum [(T 105,[0;1;2;3])] [1;0;2;3]));
  (*5005*) AddTo n_rdm2_f_vvoo_aaaa (Plain (Einsum [(T 105,[0;1;2;3])] [2;3;1;0]));
  (*5006*) Del (T 105);
  (*5007*) Assign (T 130) (Plain (Zeros [4;4;5;5]));
  (*5008*) AddTo (T 130) (Plain (Einsum [(T 104,[0;1;2;3]); (T 31,[0;4;3;5])] [4;1;5;2]));
  (*5009*) Del (T 31);
  (*5010*) AddTo n_rdm2_f_ovvo_aaaa (Plain (Einsum [(T 130,[0;1;2;3])] [1;3;2;0]));
  (*5011*) AddTo n_rdm2_f_voov_aaaa (Plain (Einsum [(T 130,[0;1;2;3])] [2;0;1;3]));
  (*5012*) Del (T 130);
  (*5013*) Assign (T 135) (Plain (Zeros [4;6;5;7]));
  (*5014*) AddTo (T 135) (Plain (Einsum [(n_t2'abab,[0;1;2;3]); (T 104,[0;4;5;2])] [4;1;5;3]));
  (*5015*) Assign (T 189) (Plain (Zeros [6;6;7;7]));
  (*5016*) SubFrom (T 189) (Plain (Einsum [(n_t2'abab,[0;1;2;3]); (T 135,[0;4;2;5])] [1;4;3;5]));
  (*5017*) Assign (T 190) (Plain (Zeros [6;6;7;7]));
  (*5018*) AddTo (T 190) (Plain (Einsum [(T 189,[0;1;2;3])] [0;1;2;3]));
  (*5019*) Del (T 189);
  (*5020*) SubFrom n_rdm2_f_ovvo_aabb (Plain (Einsum [(T 135,[0;1;2;3])] [0;2;3;1]));
  (*5021*) SubFrom n_rdm2_f_voov_bbaa (Plain (Einsum [(T 135,[0;1;2;3])] [3;1;0;2]));
  (*5022*) Del (T 135);
  (*5023*) Assign (T 159) (Plain (Zeros [4;4;5;5]));
  (*5024*) AddTo (T 159) (Plain (Einsum [(n_t2'aaaa,[0;1;2;3]); (T 104,[0;4;3;5])] [1;4;2;5]));
  (*5025*) Del (T 104);
  (*5026*) SubFrom (T 160) (Plain (Einsum [(T 159,[0;1;2;3])] [1;0;3;2]));
  (*5027*) Del (T 159);
  (*5028*) Assign (T 161) (Plain (Zeros [4;4;5;5]));
  (*5029*) AddTo (T 161) (Plain (Einsum [(n_t2'aaaa,[0;1;2;3]); (T 160,[0;4;2;5])] [1;4;3;5]));
  (*5030*) Del (T 160);
  (*5031*) AddTo (T 172) (Plain (Einsum [(T 161,[0;1;2;3])] [0;1;2;3]));
  (*5032*) Del (T 161);
  (*5033*) Assign (T 108) (Plain (Zeros [5;5]));
  (*5034*) AddTo (T 108) (Plain (Einsum [(n_l1'aa,[0;1]); (n_t1'aa,[1;2])] [0;2]));
  (*5035*) Assign (T 113) (Plain (Zeros [5;5]));
  (*5036*) AddTo (T 113) (Plain (Einsum [(T 108,[0;1])] [0;1]));
  (*5037*) Assign (T 276) (Plain (Zeros [5;5]));
  (*5038*) AddTo (T 276) (Plain (Einsum [(T 108,[0;1])] [0;1]));
  (*5039*) Del (T 108);
  (*5040*) Assign (T 109) (Plain (Zeros [5;5]));
  (*5041*) AddTo (T 109) (Plain (Einsum [(n_lu11'aa,[0;1;2]); (n_u11'aa,[0;2;3])] [1;3]));
  (*5042*) AddTo (T 113) (Plain (Einsum [(T 109,[0;1])] [0;1]));
  (*5043*) Assign (T 155) (Plain (Zeros [4;4;5;5]));
  (*5044*) AddTo (T 155) (Plain (Einsum [(T 109,[0;1]); (n_t2'aaaa,[2;3;4;0])] [2;3;4;1]));
  (*5045*) SubFrom (T 172) (Plain (Einsum [(T 155,[0;1;2;3])] [0;1;2;3]));
  (*5046*) Del (T 155);
  (*5047*) Assign (T 238) (Plain (Zeros [5;5]));
  (*5048*) AddTo (T 238) (Plain (Einsum [(T 109,[0;1])] [0;1]));
  (*5049*) AddTo (T 276) (Plain (Einsum [(T 109,[0;1])] [0;1]));
  (*5050*) Del (T 109);
  (*5051*) Assign (T 277) (Plain (Zeros [4;5;5;5]));
  (*5052*) AddTo (T 277) (Plain (Einsum [(n_t1'aa,[0;1]); (T 276,[2;3])] [0;2;1;3]));
  (*5053*) Del (T 276);
  (*5054*) Assign (T 110) (Plain (Zeros [5;5]));
  (*5055*) AddTo (T 110) (Plain (Einsum [(n_l2'abab,[0;1;2;3]); (n_t2'abab,[2;3;4;1])] [0;4]));
  (*5056*) AddTo (T 113) (Plain (Einsum [(T 110,[0;1])] [0;1]));
  (*5057*) Assign (T 173) (Plain (Zeros [5;5]));
  (*5058*) AddTo (T 173) (Plain (Einsum [(T 110,[0;1])] [0;1]));
  (*5059*) AddTo (T 238) (Plain (Einsum [(T 110,[0;1])] [0;1]));
  (*5060*) Del (T 110);
  (*5061*) Assign (T 111) (Plain (Zeros [4;4;5;5]));
  (*5062*) AddTo (T 111) (Plain (Einsum [(n_l2'aaaa,[0;1;2;3])] [3;2;0;1]));
  (*5063*) AddTo (T 111) (Times (Einsum [(n_l2'aaaa,[0;1;2;3])] [3;2;1;0]) (-1) 1);
  (*5064*) Assign (T 112) (Plain (Zeros [5;5]));
  (*5065*) AddTo (T 112) (Plain (Einsum [(n_t2'aaaa,[0;1;2;3]); (T 111,[0;1;2;4])] [3;4]));
  (*5066*) AddTo (T 113) (Times (Einsum [(T 112,[0;1])] [1;0]) (-1) 1);
  (*5067*) AddTo n_rdm2_f_oovv_aaaa (Plain (Einsum [(n_delta_oo'aa,[0;1]); (T 113,[2;3])] [1;0;3;2]));
  (*5068*) AddTo n_rdm2_f_oovv_bbaa (Plain (Einsum [(n_delta_oo'bb,[0;1]); (T 113,[2;3])] [1;0;3;2]));
  (*5069*) AddTo n_rdm2_f_ovvo_aaaa (Times (Einsum [(n_delta_oo'aa,[0;1]); (T 113,[2;3])] [1;2;3;0]) (-1) 1);
  (*5070*) AddTo n_rdm2_f_voov_aaaa (Times (Einsum [(n_delta_oo'aa,[0;1]); (T 113,[2;3])] [3;0;1;2]) (-1) 1);
  (*5071*) AddTo n_rdm2_f_vvoo_aaaa (Plain (Einsum [(n_delta_oo'aa,[0;1]); (T 113,[2;3])] [3;2;1;0]));
  (*5072*) AddTo n_rdm2_f_vvoo_aabb (Plain (Einsum [(n_delta_oo'bb,[0;1]); (T 113,[2;3])] [3;2;1;0]));
  (*5073*) AddTo n_rdm2_f_vovv_bbaa (Plain (Einsum [(n_t1'bb,[0;1]); (T 113,[2;3])] [1;0;3;2]));
  (*5074*) AddTo n_rdm2_f_vvvo_aabb (Plain (Einsum [(n_t1'bb,[0;1]); (T 113,[2;3])] [3;2;1;0]));
  (*5075*) Del (T 113);
  (*5076*) AddTo (T 173) (Times (Einsum [(T 112,[0;1])] [1;0]) (-1) 1);
  (*5077*) Assign (T 174) (Plain (Zeros [4;4;5;5]));
  (*5078*) AddTo (T 174) (Plain (Einsum [(T 173,[0;1]); (n_t2'aaaa,[2;3;0;4])] [2;3;4;1]));
  (*5079*) AddTo (T 176) (Plain (Einsum [(T 174,[0;1;2;3])] [1;0;2;3]));
  (*5080*) Del (T 174);
  (*5081*) AddTo n_rdm2_f_vovo_aaaa (Times (Einsum [(T 176,[0;1;2;3])] [2;0;3;1]) (-1) 1);
  (*5082*) AddTo n_rdm2_f_vovo_aaaa (Plain (Einsum [(T 176,[0;1;2;3])] [3;0;2;1]));
  (*5083*) AddTo n_rdm2_f_vovo_aaaa (Plain (Einsum [(T 176,[0;1;2;3])] [2;1;3;0]));
  (*5084*) AddTo n_rdm2_f_vovo_aaaa (Times (Einsum [(T 176,[0;1;2;3])] [3;1;2;0]) (-1) 1);
  (*5085*) Del (T 176);
  (*5086*) AddTo (T 272) (Plain (Einsum [(n_t1'aa,[0;1]); (T 173,[2;3])] [0;2;1;3]));
  (*5087*) Del (T 173);
  (*5088*) AddTo (T 238) (Times (Einsum [(T 112,[0;1])] [1;0]) (-1) 1);
  (*5089*) Del (T 112);
  (*5090*) Assign (T 239) (Plain (Zeros [4;6;5;7]));
  (*5091*) AddTo (T 239) (Plain (Einsum [(T 238,[0;1]); (n_t2'abab,[2;3;0;4])] [2;3;1;4]));
  (*5092*) Del (T 238);
  (*5093*) AddTo n_rdm2_f_vovo_bbaa (Times (Einsum [(T 239,[0;1;2;3])] [3;1;2;0]) (-1) 1);
  (*5094*) AddTo n_rdm2_f_vovo_aabb (Times (Einsum [(T 239,[0;1;2;3])] [2;0;3;1]) (-1) 1);
  (*5095*) Del (T 239);
  (*5096*) Assign (T 269) (Plain (Zeros [4;4;5;5]));
  (*5097*) AddTo (T 269) (Plain (Einsum [(T 111,[0;1;2;3]); (T 38,[0;4;5;2])] [4;1;5;3]));
  (*5098*) Del (T 38);
  (*5099*) AddTo (T 270) (Plain (Einsum [(T 269,[0;1;2;3])] [1;0;3;2]));
  (*5100*) Del (T 269);
  (*5101*) Assign (T 271) (Plain (Zeros [4;5;5;5]));
  (*5102*) AddTo (T 271) (Plain (Einsum [(n_t1'aa,[0;1]); (T 270,[0;2;3;4])] [2;1;3;4]));
  (*5103*) Del (T 270);
  (*5104*) AddTo (T 272) (Times (Einsum [(T 271,[0;1;2;3])] [0;2;1;3]) (-1) 1);
  (*5105*) Del (T 271);
  (*5106*) Assign n_rdm2_f_vovv_aaaa (Plain (Zeros [5;4;5;5]));
  (*5107*) AddTo n_rdm2_f_vovv_aaaa (Plain (Einsum [(T 272,[0;1;2;3])] [2;0;3;1]));
  (*5108*) AddTo n_rdm2_f_vovv_aaaa (Times (Einsum [(T 272,[0;1;2;3])] [3;0;2;1]) (-1) 1);
  (*5109*) Assign n_rdm2_f_vvvo_aaaa (Plain (Zeros [5;5;5;4]));
  (*5110*) AddTo n_rdm2_f_vvvo_aaaa (Times (Einsum [(T 272,[0;1;2;3])] [2;1;3;0]) (-1) 1);
  (*5111*) AddTo n_rdm2_f_vvvo_aaaa (Plain (Einsum [(T 272,[0;1;2;3])] [3;1;2;0]));
  (*5112*) Del (T 272);
  (*5113*) Assign (T 295) (Plain (Zeros [4;6;5;7]));
  (*5114*) AddTo (T 295) (Plain (Einsum [(n_t2'abab,[0;1;2;3]); (T 111,[0;4;5;2])] [4;1;5;3]));
  (*5115*) Del (T 111);
  (*5116*) AddTo (T 297) (Times (Einsum [(T 295,[0;1;2;3])] [0;1;2;3]) (-1) 1);
  (*5117*) Del (T 295);
  (*5118*) Assign (T 298) (Plain (Zeros [6;5;5;7]));
  (*5119*) AddTo (T 298) (Plain (Einsum [(n_t1'aa,[0;1]); (T 297,[0;2;3;4])] [2;1;3;4]));
  (*5120*) Del (T 297);
  (*5121*) AddTo n_rdm2_f_vovv_bbaa (Times (Einsum [(T 298,[0;1;2;3])] [3;0;1;2]) (-1) 1);
  (*5122*) AddTo n_rdm2_f_vvvo_aabb (Times (Einsum [(T 298,[0;1;2;3])] [1;2;3;0]) (-1) 1);
  (*5123*) Del (T 298);
  (*5124*) Assign (T 114) (Plain (Zeros [6;6;7;7]));
  (*5125*) AddTo (T 114) (Plain (Einsum [(n_lu11'bb,[0;1;2]); (n_u11'bb,[0;3;4])] [2;3;1;4]));
  (*5126*) SubFrom n_rdm2_f_oovv_bbbb (Plain (Einsum [(T 114,[0;1;2;3])] [0;1;3;2]));
  (*5127*) AddTo n_rdm2_f_ovvo_bbbb (Plain (Einsum [(T 114,[0;1;2;3])] [0;2;3;1]));
  (*5128*) AddTo n_rdm2_f_voov_bbbb (Plain (Einsum [(T 114,[0;1;2;3])] [3;1;0;2]));
  (*5129*) SubFrom n_rdm2_f_vvoo_bbbb (Plain (Einsum [(T 114,[0;1;2;3])] [3;2;0;1]));
  (*5130*) Del (T 114);
  (*5131*) Assign (T 115) (Plain (Zeros [6;6;7;7]));
  (*5132*) AddTo (T 115) (Plain (Einsum [(n_l2'abab,[0;1;2;3]); (n_t2'abab,[2;4;0;5])] [3;4;1;5]));
  (*5133*) Assign (T 203) (Plain (Zeros [6;6;7;7]));
  (*5134*) AddTo (T 203) (Plain (Einsum [(T 115,[0;1;2;3]); (T 56,[0;4;2;5])] [1;4;3;5]));
  (*5135*) SubFrom (T 214) (Plain (Einsum [(T 203,[0;1;2;3])] [0;1;2;3]));
  (*5136*) Del (T 203);
  (*5137*) AddTo (T 287) (Plain (Einsum [(T 115,[0;1;2;3])] [0;1;2;3]));
  (*5138*) SubFrom n_rdm2_f_oovv_bbbb (Plain (Einsum [(T 115,[0;1;2;3])] [0;1;3;2]));
  (*5139*) AddTo n_rdm2_f_ovvo_bbbb (Plain (Einsum [(T 115,[0;1;2;3])] [0;2;3;1]));
  (*5140*) AddTo n_rdm2_f_voov_bbbb (Plain (Einsum [(T 115,[0;1;2;3])] [3;1;0;2]));
  (*5141*) SubFrom n_rdm2_f_vvoo_bbbb (Plain (Einsum [(T 115,[0;1;2;3])] [3;2;0;1]));
  (*5142*) Del (T 115);
  (*5143*) Assign (T 116) (Plain (Zeros [6;6;7;7]));
  (*5144*) SubFrom (T 116) (Plain (Einsum [(n_l2'bbbb,[0;1;2;3])] [3;2;0;1]));
  (*5145*) AddTo (T 116) (Plain (Einsum [(n_l2'bbbb,[0;1;2;3])] [3;2;1;0]));
  (*5146*) Assign (T 117) (Plain (Zeros [6;6;7;7]));
  (*5147*) AddTo (T 117) (Plain (Einsum [(T 116,[0;1;2;3]); (T 56,[0;4;5;3])] [4;1;5;2]));
  (*5148*) AddTo n_rdm2_f_oovv_bbbb (Plain (Einsum [(T 117,[0;1;2;3])] [1;0;2;3]));
  (*5149*) AddTo n_rdm2_f_vvoo_bbbb (Plain (Einsum [(T 117,[0;1;2;3])] [2;3;1;0]));
  (*5150*) Del (T 117);
  (*5151*) Assign (T 141) (Plain (Zeros [4;6;5;7]));
  (*5152*) AddTo (T 141) (Plain (Einsum [(n_t2'abab,[0;1;2;3]); (T 116,[1;4;5;3])] [0;4;2;5]));
  (*5153*) Assign (T 152) (Plain (Zeros [4;4;5;5]));
  (*5154*) SubFrom (T 152) (Plain (Einsum [(n_t2'abab,[0;1;2;3]); (T 141,[4;1;5;3])] [0;4;2;5]));
  (*5155*) AddTo (T 153) (Plain (Einsum [(T 152,[0;1;2;3])] [1;0;3;2]));
  (*5156*) Del (T 152);
  (*5157*) SubFrom (T 229) (Plain (Einsum [(T 141,[0;1;2;3])] [0;1;2;3]));
  (*5158*) SubFrom n_rdm2_f_ovvo_bbaa (Plain (Einsum [(T 141,[0;1;2;3])] [1;3;2;0]));
  (*5159*) SubFrom n_rdm2_f_voov_aabb (Plain (Einsum [(T 141,[0;1;2;3])] [2;0;1;3]));
  (*5160*) Del (T 141);
  (*5161*) Assign (T 142) (Plain (Zeros [6;6;7;7]));
  (*5162*) AddTo (T 142) (Plain (Einsum [(T 116,[0;1;2;3]); (T 56,[0;4;3;5])] [4;1;5;2]));
  (*5163*) Del (T 116);
  (*5164*) Del (T 56);
  (*5165*) AddTo n_rdm2_f_ovvo_bbbb (Plain (Einsum [(T 142,[0;1;2;3])] [1;3;2;0]));
  (*5166*) AddTo n_rdm2_f_voov_bbbb (Plain (Einsum [(T 142,[0;1;2;3])] [2;0;1;3]));
  (*5167*) Del (T 142);
  (*5168*) Assign (T 120) (Plain (Zeros [7;7]));
  (*5169*) AddTo (T 120) (Plain (Einsum [(n_l1'bb,[0;1]); (n_t1'bb,[1;2])] [0;2]));
  (*5170*) Assign (T 125) (Plain (Zeros [7;7]));
  (*5171*) AddTo (T 125) (Plain (Einsum [(T 120,[0;1])] [0;1]));
  (*5172*) Assign (T 281) (Plain (Zeros [7;7]));
  (*5173*) AddTo (T 281) (Plain (Einsum [(T 120,[0;1])] [0;1]));
  (*5174*) Del (T 120);
  (*5175*) Assign (T 121) (Plain (Zeros [7;7]));
  (*5176*) AddTo (T 121) (Plain (Einsum [(n_lu11'bb,[0;1;2]); (n_u11'bb,[0;2;3])] [1;3]));
  (*5177*) AddTo (T 125) (Plain (Einsum [(T 121,[0;1])] [0;1]));
  (*5178*) Assign (T 200) (Plain (Zeros [6;6;7;7]));
  (*5179*) AddTo (T 200) (Plain (Einsum [(T 121,[0;1]); (n_t2'bbbb,[2;3;0;4])] [3;2;4;1]));
  (*5180*) SubFrom (T 214) (Plain (Einsum [(T 200,[0;1;2;3])] [0;1;2;3]));
  (*5181*) Del (T 200);
  (*5182*) Assign (T 236) (Plain (Zeros [7;7]));
  (*5183*) AddTo (T 236) (Plain (Einsum [(T 121,[0;1])] [0;1]));
  (*5184*) AddTo (T 281) (Plain (Einsum [(T 121,[0;1])] [0;1]));
  (*5185*) Del (T 121);
  (*5186*) Assign (T 282) (Plain (Zeros [6;7;7;7]));
  (*5187*) AddTo (T 282) (Plain (Einsum [(n_t1'bb,[0;1]); (T 281,[2;3])] [0;2;1;3]));
  (*5188*) Del (T 281);
  (*5189*) Assign (T 122) (Plain (Zeros [7;7]));
  (*5190*) AddTo (T 122) (Plain (Einsum [(n_l2'abab,[0;1;2;3]); (n_t2'abab,[2;3;0;4])] [1;4]));
  (*5191*) AddTo (T 125) (Plain (Einsum [(T 122,[0;1])] [0;1]));
  (*5192*) Assign (T 216) (Plain (Zeros [6;6;7;7]));
  (*5193*) AddTo (T 216) (Plain (Einsum [(T 122,[0;1]); (n_t2'bbbb,[2;3;0;4])] [3;2;1;4]));
  (*5194*) AddTo (T 219) (Times (Einsum [(T 216,[0;1;2;3])] [0;1;2;3]) (-1) 1);
  (*5195*) Del (T 216);
  (*5196*) AddTo (T 236) (Plain (Einsum [(T 122,[0;1])] [0;1]));
  (*5197*) Assign (T 289) (Plain (Zeros [7;7]));
  (*5198*) AddTo (T 289) (Plain (Einsum [(T 122,[0;1])] [0;1]));
  (*5199*) Del (T 122);
  (*5200*) Assign (T 123) (Plain (Zeros [6;6;7;7]));
  (*5201*) AddTo (T 123) (Times (Einsum [(n_l2'bbbb,[0;1;2;3])] [3;2;0;1]) (-1) 1);
  (*5202*) AddTo (T 123) (Plain (Einsum [(n_l2'bbbb,[0;1;2;3])] [3;2;1;0]));
  (*5203*) Assign (T 124) (Plain (Zeros [7;7]));
  (*5204*) AddTo (T 124) (Plain (Einsum [(n_t2'bbbb,[0;1;2;3]); (T 123,[0;1;3;4])] [2;4]));
  (*5205*) Del (T 123);
  (*5206*) AddTo (T 125) (Times (Einsum [(T 124,[0;1])] [1;0]) (-1) 1);
  (*5207*) AddTo n_rdm2_f_oovv_bbbb (Plain (Einsum [(n_delta_oo'bb,[0;1]); (T 125,[2;3])] [1;0;3;2]));
  (*5208*) AddTo n_rdm2_f_oovv_aabb (Plain (Einsum [(n_delta_oo'aa,[0;1]); (T 125,[2;3])] [1;0;3;2]));
  (*5209*) AddTo n_rdm2_f_ovvo_bbbb (Times (Einsum [(n_delta_oo'bb,[0;1]); (T 125,[2;3])] [1;2;3;0]) (-1) 1);
  (*5210*) AddTo n_rdm2_f_voov_bbbb (Times (Einsum [(n_delta_oo'bb,[0;1]); (T 125,[2;3])] [3;0;1;2]) (-1) 1);
  (*5211*) AddTo n_rdm2_f_vvoo_bbbb (Plain (Einsum [(n_delta_oo'bb,[0;1]); (T 125,[2;3])] [3;2;1;0]));
  (*5212*) AddTo n_rdm2_f_vvoo_bbaa (Plain (Einsum [(n_delta_oo'aa,[0;1]); (T 125,[2;3])] [3;2;1;0]));
  (*5213*) AddTo n_rdm2_f_vovv_aabb (Plain (Einsum [(n_t1'aa,[0;1]); (T 125,[2;3])] [1;0;3;2]));
  (*5214*) AddTo n_rdm2_f_vvvo_bbaa (Plain (Einsum [(n_t1'aa,[0;1]); (T 125,[2;3])] [3;2;1;0]));
  (*5215*) Del (T 125);
  (*5216*) Assign (T 217) (Plain (Zeros [6;6;7;7]));
  (*5217*) AddTo (T 217) (Times (Einsum [(T 124,[0;1]); (n_t2'bbbb,[2;3;1;4])] [2;3;4;0]) (-1) 1);
  (*5218*) AddTo (T 219) (Plain (Einsum [(T 217,[0;1;2;3])] [1;0;2;3]));
  (*5219*) Del (T 217);
  (*5220*) AddTo n_rdm2_f_vovo_bbbb (Times (Einsum [(T 219,[0;1;2;3])] [2;0;3;1]) (-1) 1);
  (*5221*) AddTo n_rdm2_f_vovo_bbbb (Plain (Einsum [(T 219,[0;1;2;3])] [3;0;2;1]));
  (*5222*) AddTo n_rdm2_f_vovo_bbbb (Plain (Einsum [(T 219,[0;1;2;3])] [2;1;3;0]));
  (*5223*) AddTo n_rdm2_f_vovo_bbbb (Times (Einsum [(T 219,[0;1;2;3])] [3;1;2;0]) (-1) 1);
  (*5224*) Del (T 219);
  (*5225*) AddTo (T 236) (Times (Einsum [(T 124,[0;1])] [1;0]) (-1) 1);
  (*5226*) Assign (T 237) (Plain (Zeros [4;6;5;7]));
  (*5227*) AddTo (T 237) (Plain (Einsum [(T 236,[0;1]); (n_t2'abab,[2;3;4;0])] [2;3;4;1]));
  (*5228*) Del (T 236);
  (*5229*) AddTo n_rdm2_f_vovo_bbaa (Times (Einsum [(T 237,[0;1;2;3])] [3;1;2;0]) (-1) 1);
  (*5230*) AddTo n_rdm2_f_vovo_aabb (Times (Einsum [(T 237,[0;1;2;3])] [2;0;3;1]) (-1) 1);
  (*5231*) Del (T 237);
  (*5232*) AddTo (T 289) (Times (Einsum [(T 124,[0;1])] [1;0]) (-1) 1);
  (*5233*) Del (T 124);
  (*5234*) AddTo (T 290) (Plain (Einsum [(n_t1'bb,[0;1]); (T 289,[2;3])] [0;2;1;3]));
  (*5235*) Del (T 289);
  (*5236*) Assign (T 126) (Plain (Zeros [6;6;5;5]));
  (*5237*) AddTo (T 126) (Plain (Einsum [(n_l2'abab,[0;1;2;3]); (n_t2'abab,[2;4;5;1])] [3;4;0;5]));
  (*5238*) Assign (T 294) (Plain (Zeros [6;5;5;7]));
  (*5239*) AddTo (T 294) (Plain (Einsum [(n_t1'bb,[0;1]); (T 126,[0;2;3;4])] [2;3;4;1]));
  (*5240*) AddTo n_rdm2_f_vovv_bbaa (Times (Einsum [(T 294,[0;1;2;3])] [3;0;2;1]) (-1) 1);
  (*5241*) AddTo n_rdm2_f_vvvo_aabb (Times (Einsum [(T 294,[0;1;2;3])] [2;1;3;0]) (-1) 1);
  (*5242*) Del (T 294);
  (*5243*) SubFrom n_rdm2_f_oovv_bbaa (Plain (Einsum [(T 126,[0;1;2;3])] [0;1;3;2]));
  (*5244*) SubFrom n_rdm2_f_vvoo_aabb (Plain (Einsum [(T 126,[0;1;2;3])] [3;2;0;1]));
  (*5245*) Del (T 126);
  (*5246*) Assign (T 128) (Plain (Zeros [4;4;7;7]));
  (*5247*) AddTo (T 128) (Plain (Einsum [(n_l2'abab,[0;1;2;3]); (n_t2'abab,[4;3;0;5])] [2;4;1;5]));
  (*5248*) Assign (T 228) (Plain (Zeros [4;6;5;7]));
  (*5249*) AddTo (T 228) (Plain (Einsum [(n_t2'abab,[0;1;2;3]); (T 128,[0;4;3;5])] [4;1;2;5]));
  (*5250*) AddTo n_rdm2_f_vovo_bbaa (Plain (Einsum [(T 228,[0;1;2;3])] [3;1;2;0]));
  (*5251*) AddTo n_rdm2_f_vovo_aabb (Plain (Einsum [(T 228,[0;1;2;3])] [2;0;3;1]));
  (*5252*) Del (T 228);
  (*5253*) Assign (T 300) (Plain (Zeros [4;5;7;7]));
  (*5254*) AddTo (T 300) (Plain (Einsum [(n_t1'aa,[0;1]); (T 128,[0;2;3;4])] [2;1;3;4]));
  (*5255*) AddTo n_rdm2_f_vovv_aabb (Times (Einsum [(T 300,[0;1;2;3])] [1;0;3;2]) (-1) 1);
  (*5256*) AddTo n_rdm2_f_vvvo_bbaa (Times (Einsum [(T 300,[0;1;2;3])] [3;2;1;0]) (-1) 1);
  (*5257*) Del (T 300);
  (*5258*) SubFrom n_rdm2_f_oovv_aabb (Plain (Einsum [(T 128,[0;1;2;3])] [0;1;3;2]));
  (*5259*) SubFrom n_rdm2_f_vvoo_bbaa (Plain (Einsum [(T 128,[0;1;2;3])] [3;2;0;1]));
  (*5260*) Del (T 128);
  (*5261*) Assign (T 133) (Plain (Zeros [4;6;5;7]));
  (*5262*) AddTo (T 133) (Plain (Einsum [(n_lu11'aa,[0;1;2]); (n_u11'bb,[0;3;4])] [2;3;1;4]));
  (*5263*) AddTo n_rdm2_f_ovvo_aabb (Plain (Einsum [(T 133,[0;1;2;3])] [0;2;3;1]));
  (*5264*) AddTo n_rdm2_f_voov_bbaa (Plain (Einsum [(T 133,[0;1;2;3])] [3;1;0;2]));
  (*5265*) Del (T 133);
  (*5266*) Assign (T 136) (Plain (Zeros [6;6;7;7]));
  (*5267*) SubFrom (T 136) (Plain (Einsum [(n_t2'bbbb,[0;1;2;3])] [1;0;2;3]));
  (*5268*) AddTo (T 136) (Plain (Einsum [(n_t2'bbbb,[0;1;2;3])] [1;0;3;2]));
  (*5269*) Assign (T 137) (Plain (Zeros [4;6;5;7]));
  (*5270*) AddTo (T 137) (Plain (Einsum [(n_l2'abab,[0;1;2;3]); (T 136,[3;4;5;1])] [2;4;0;5]));
  (*5271*) SubFrom n_rdm2_f_ovvo_aabb (Plain (Einsum [(T 137,[0;1;2;3])] [0;2;3;1]));
  (*5272*) SubFrom n_rdm2_f_voov_bbaa (Plain (Einsum [(T 137,[0;1;2;3])] [3;1;0;2]));
  (*5273*) Del (T 137);
  (*5274*) Assign (T 204) (Plain (Zeros [6;6;6;7]));
  (*5275*) AddTo (T 204) (Plain (Einsum [(T 136,[0;1;2;3]); (T 143,[4;0;5;2])] [1;4;5;3]));
  (*5276*) Del (T 143);
  (*5277*) AddTo (T 205) (Plain (Einsum [(T 204,[0;1;2;3])] [1;2;0;3]));
  (*5278*) Del (T 204);
  (*5279*) Assign (T 206) (Plain (Zeros [6;6;7;7]));
  (*5280*) AddTo (T 206) (Plain (Einsum [(n_t1'bb,[0;1]); (T 205,[0;2;3;4])] [2;3;1;4]));
  (*5281*) Del (T 205);
  (*5282*) AddTo (T 214) (Plain (Einsum [(T 206,[0;1;2;3])] [0;1;2;3]));
  (*5283*) Del (T 206);
  (*5284*) Assign (T 209) (Plain (Zeros [3;6;7]));
  (*5285*) AddTo (T 209) (Plain (Einsum [(n_lu11'bb,[0;1;2]); (T 136,[2;3;4;1])] [0;3;4]));
  (*5286*) SubFrom (T 210) (Plain (Einsum [(T 209,[0;1;2])] [0;1;2]));
  (*5287*) SubFrom (T 250) (Plain (Einsum [(T 209,[0;1;2])] [0;1;2]));
  (*5288*) Del (T 209);
  (*5289*) Assign (T 212) (Plain (Zeros [6;7]));
  (*5290*) AddTo (T 212) (Plain (Einsum [(n_l1'bb,[0;1]); (T 136,[1;2;3;0])] [2;3]));
  (*5291*) SubFrom (T 213) (Plain (Einsum [(T 212,[0;1])] [0;1]));
  (*5292*) Del (T 212);
  (*5293*) AddTo (T 214) (Plain (Einsum [(n_t1'bb,[0;1]); (T 213,[2;3])] [0;2;1;3]));
  (*5294*) Del (T 213);
  (*5295*) Assign (T 230) (Plain (Zeros [4;6;5;7]));
  (*5296*) AddTo (T 230) (Plain (Einsum [(T 136,[0;1;2;3]); (T 229,[4;0;5;3])] [4;1;5;2]));
  (*5297*) Del (T 229);
  (*5298*) SubFrom n_rdm2_f_vovo_bbaa (Plain (Einsum [(T 230,[0;1;2;3])] [3;1;2;0]));
  (*5299*) SubFrom n_rdm2_f_vovo_aabb (Plain (Einsum [(T 230,[0;1;2;3])] [2;0;3;1]));
  (*5300*) Del (T 230);
  (*5301*) Assign (T 245) (Plain (Zeros [4;4;6;7]));
  (*5302*) AddTo (T 245) (Plain (Einsum [(T 136,[0;1;2;3]); (T 24,[4;5;0;3])] [4;5;1;2]));
  (*5303*) Del (T 136);
  (*5304*) Del (T 24);
  (*5305*) SubFrom (T 246) (Plain (Einsum [(T 245,[0;1;2;3])] [0;1;2;3]));
  (*5306*) Del (T 245);
  (*5307*) Assign (T 247) (Plain (Zeros [4;6;5;7]));
  (*5308*) AddTo (T 247) (Plain (Einsum [(n_t1'aa,[0;1]); (T 246,[0;2;3;4])] [2;3;1;4]));
  (*5309*) Del (T 246);
  (*5310*) SubFrom n_rdm2_f_vovo_bbaa (Plain (Einsum [(T 247,[0;1;2;3])] [3;1;2;0]));
  (*5311*) SubFrom n_rdm2_f_vovo_aabb (Plain (Einsum [(T 247,[0;1;2;3])] [2;0;3;1]));
  (*5312*) Del (T 247);
  (*5313*) Assign (T 138) (Plain (Zeros [4;6;5;7]));
  (*5314*) AddTo (T 138) (Plain (Einsum [(n_lu11'bb,[0;1;2]); (n_u11'aa,[0;3;4])] [3;2;4;1]));
  (*5315*) AddTo n_rdm2_f_ovvo_bbaa (Plain (Einsum [(T 138,[0;1;2;3])] [1;3;2;0]));
  (*5316*) AddTo n_rdm2_f_voov_aabb (Plain (Einsum [(T 138,[0;1;2;3])] [2;0;1;3]));
  (*5317*) Del (T 138);
  (*5318*) Assign (T 147) (Plain (Zeros [4;4;5;5]));
  (*5319*) AddTo (T 147) (Plain (Einsum [(n_l2'aaaa,[0;1;2;3])] [3;2;0;1]));
  (*5320*) SubFrom (T 147) (Plain (Einsum [(n_l2'aaaa,[0;1;2;3])] [3;2;1;0]));
  (*5321*) Assign (T 148) (Plain (Zeros [4;4;5;5]));
  (*5322*) AddTo (T 148) (Plain (Einsum [(n_t2'aaaa,[0;1;2;3]); (T 147,[0;4;2;5])] [1;4;3;5]));
  (*5323*) Assign (T 149) (Plain (Zeros [4;4;5;5]));
  (*5324*) SubFrom (T 149) (Plain (Einsum [(n_t2'aaaa,[0;1;2;3]); (T 148,[4;0;5;2])] [1;4;3;5]));
  (*5325*) Del (T 148);
  (*5326*) AddTo (T 153) (Plain (Einsum [(T 149,[0;1;2;3])] [1;0;3;2]));
  (*5327*) Del (T 149);
  (*5328*) Assign (T 150) (Plain (Zeros [4;4;5;5]));
  (*5329*) AddTo (T 150) (Plain (Einsum [(n_t2'aaaa,[0;1;2;3]); (T 147,[0;4;3;5])] [1;4;2;5]));
  (*5330*) Assign (T 151) (Plain (Zeros [4;4;5;5]));
  (*5331*) SubFrom (T 151) (Plain (Einsum [(n_t2'aaaa,[0;1;2;3]); (T 150,[4;0;5;3])] [1;4;2;5]));
  (*5332*) Del (T 150);
  (*5333*) AddTo (T 153) (Plain (Einsum [(T 151,[0;1;2;3])] [0;1;2;3]));
  (*5334*) Del (T 151);
  (*5335*) Assign (T 231) (Plain (Zeros [4;4;5;5]));
  (*5336*) AddTo (T 231) (Plain (Einsum [(T 103,[0;1;2;3]); (T 147,[0;4;3;5])] [1;4;2;5]));
  (*5337*) Del (T 147);
  (*5338*) Del (T 103);
  (*5339*) AddTo (T 232) (Plain (Einsum [(T 231,[0;1;2;3])] [1;0;3;2]));
  (*5340*) Del (T 231);
  (*5341*) Assign (T 233) (Plain (Zeros [4;6;5;7]));
  (*5342*) AddTo (T 233) (Plain (Einsum [(n_t2'abab,[0;1;2;3]); (T 232,[0;4;2;5])] [4;1;5;3]));
  (*5343*) Del (T 232);
  (*5344*) AddTo n_rdm2_f_vovo_bbaa (Plain (Einsum [(T 233,[0;1;2;3])] [3;1;2;0]));
  (*5345*) AddTo n_rdm2_f_vovo_aabb (Plain (Einsum [(T 233,[0;1;2;3])] [2;0;3;1]));
  (*5346*) Del (T 233);
  (*5347*) AddTo (T 153) (Plain (Einsum [(n_t2'aaaa,[0;1;2;3])] [1;0;3;2]));
  (*5348*) SubFrom n_rdm2_f_vovo_aaaa (Plain (Einsum [(T 153,[0;1;2;3])] [3;0;2;1]));
  (*5349*) AddTo n_rdm2_f_vovo_aaaa (Plain (Einsum [(T 153,[0;1;2;3])] [2;0;3;1]));
  (*5350*) Del (T 153);
  (*5351*) Assign (T 157) (Plain (Zeros [4;6;5;7]));
  (*5352*) AddTo (T 157) (Plain (Einsum [(n_l2'abab,[0;1;2;3]); (n_t2'aaaa,[4;2;0;5])] [4;3;5;1]));
  (*5353*) Assign (T 158) (Plain (Zeros [4;4;5;5]));
  (*5354*) AddTo (T 158) (Plain (Einsum [(n_t2'abab,[0;1;2;3]); (T 157,[4;1;5;3])] [4;0;5;2]));
  (*5355*) Del (T 157);
  (*5356*) SubFrom (T 172) (Plain (Einsum [(T 158,[0;1;2;3])] [0;1;2;3]));
  (*5357*) Del (T 158);
  (*5358*) Assign (T 166) (Plain (Zeros [3;4;5]));
  (*5359*) AddTo (T 166) (Plain (Einsum [(n_lu11'bb,[0;1;2]); (n_t2'abab,[3;2;4;1])] [0;3;4]));
  (*5360*) AddTo (T 168) (Plain (Einsum [(T 166,[0;1;2])] [0;1;2]));
  (*5361*) Del (T 166);
  (*5362*) Assign (T 169) (Plain (Zeros [4;4;5;5]));
  (*5363*) AddTo (T 169) (Plain (Einsum [(n_u11'aa,[0;1;2]); (T 168,[0;3;4])] [1;3;2;4]));
  (*5364*) AddTo (T 172) (Plain (Einsum [(T 169,[0;1;2;3])] [1;0;3;2]));
  (*5365*) Del (T 169);
  (*5366*) AddTo n_rdm2_f_vovo_aaaa (Plain (Einsum [(T 172,[0;1;2;3])] [2;0;3;1]));
  (*5367*) SubFrom n_rdm2_f_vovo_aaaa (Plain (Einsum [(T 172,[0;1;2;3])] [3;0;2;1]));
  (*5368*) SubFrom n_rdm2_f_vovo_aaaa (Plain (Einsum [(T 172,[0;1;2;3])] [2;1;3;0]));
  (*5369*) AddTo n_rdm2_f_vovo_aaaa (Plain (Einsum [(T 172,[0;1;2;3])] [3;1;2;0]));
  (*5370*) Del (T 172);
  (*5371*) Assign (T 252) (Plain (Zeros [4;6;5;7]));
  (*5372*) AddTo (T 252) (Plain (Einsum [(n_u11'bb,[0;1;2]); (T 168,[0;3;4])] [3;1;4;2]));
  (*5373*) Del (T 168);
  (*5374*) AddTo n_rdm2_f_vovo_bbaa (Plain (Einsum [(T 252,[0;1;2;3])] [3;1;2;0]));
  (*5375*) AddTo n_rdm2_f_vovo_aabb (Plain (Einsum [(T 252,[0;1;2;3])] [2;0;3;1]));
  (*5376*) Del (T 252);
  (*5377*) Assign (T 182) (Plain (Zeros [3;4;5]));
  (*5378*) AddTo (T 182) (Plain (Einsum [(n_ls2,[0;1]); (n_u11'aa,[1;2;3])] [0;2;3]));
  (*5379*) Assign (T 183) (Plain (Zeros [4;4;5;5]));
  (*5380*) AddTo (T 183) (Plain (Einsum [(n_u11'aa,[0;1;2]); (T 182,[0;3;4])] [3;1;4;2]));
  (*5381*) Del (T 182);
  (*5382*) SubFrom n_rdm2_f_vovo_aaaa (Plain (Einsum [(T 183,[0;1;2;3])] [3;0;2;1]));
  (*5383*) AddTo n_rdm2_f_vovo_aaaa (Plain (Einsum [(T 183,[0;1;2;3])] [3;1;2;0]));
  (*5384*) Del (T 183);
  (*5385*) SubFrom (T 185) (Plain (Einsum [(n_t1'aa,[0;1])] [0;1]));
  (*5386*) SubFrom n_rdm2_f_vovo_aaaa (Plain (Einsum [(n_t1'aa,[0;1]); (T 185,[2;3])] [3;2;1;0]));
  (*5387*) AddTo n_rdm2_f_vovo_aaaa (Plain (Einsum [(n_t1'aa,[0;1]); (T 185,[2;3])] [1;2;3;0]));
  (*5388*) Del (T 185);
  (*5389*) Assign (T 187) (Plain (Zeros [3;6;7]));
  (*5390*) AddTo (T 187) (Plain (Einsum [(n_ls2,[0;1]); (n_u11'bb,[1;2;3])] [0;2;3]));
  (*5391*) Assign (T 188) (Plain (Zeros [6;6;7;7]));
  (*5392*) AddTo (T 188) (Plain (Einsum [(n_u11'bb,[0;1;2]); (T 187,[0;3;4])] [3;1;4;2]));
  (*5393*) AddTo (T 190) (Plain (Einsum [(T 188,[0;1;2;3])] [1;0;3;2]));
  (*5394*) Del (T 188);
  (*5395*) SubFrom n_rdm2_f_vovo_bbbb (Plain (Einsum [(T 190,[0;1;2;3])] [2;1;3;0]));
  (*5396*) AddTo n_rdm2_f_vovo_bbbb (Plain (Einsum [(T 190,[0;1;2;3])] [2;0;3;1]));
  (*5397*) Del (T 190);
  (*5398*) AddTo (T 250) (Plain (Einsum [(T 187,[0;1;2])] [0;1;2]));
  (*5399*) Del (T 187);
  (*5400*) Assign (T 193) (Plain (Zeros [6;6;7;7]));
  (*5401*) AddTo (T 193) (Plain (Einsum [(n_l2'bbbb,[0;1;2;3])] [3;2;0;1]));
  (*5402*) SubFrom (T 193) (Plain (Einsum [(n_l2'bbbb,[0;1;2;3])] [3;2;1;0]));
  (*5403*) Assign (T 194) (Plain (Zeros [6;6;7;7]));
  (*5404*) AddTo (T 194) (Plain (Einsum [(n_t2'bbbb,[0;1;2;3]); (T 193,[0;4;2;5])] [1;4;3;5]));
  (*5405*) Assign (T 195) (Plain (Zeros [6;6;7;7]));
  (*5406*) SubFrom (T 195) (Plain (Einsum [(n_t2'bbbb,[0;1;2;3]); (T 194,[4;0;5;2])] [1;4;3;5]));
  (*5407*) Del (T 194);
  (*5408*) AddTo (T 198) (Plain (Einsum [(T 195,[0;1;2;3])] [1;0;3;2]));
  (*5409*) Del (T 195);
  (*5410*) Assign (T 196) (Plain (Zeros [6;6;7;7]));
  (*5411*) AddTo (T 196) (Plain (Einsum [(n_t2'bbbb,[0;1;2;3]); (T 193,[0;4;3;5])] [1;4;2;5]));
  (*5412*) Del (T 193);
  (*5413*) Assign (T 197) (Plain (Zeros [6;6;7;7]));
  (*5414*) SubFrom (T 197) (Plain (Einsum [(n_t2'bbbb,[0;1;2;3]); (T 196,[4;0;5;3])] [1;4;2;5]));
  (*5415*) AddTo (T 198) (Plain (Einsum [(T 197,[0;1;2;3])] [0;1;2;3]));
  (*5416*) Del (T 197);
  (*5417*) Assign (T 202) (Plain (Zeros [6;6;7;7]));
  (*5418*) SubFrom (T 202) (Plain (Einsum [(n_t2'bbbb,[0;1;2;3]); (T 196,[4;0;5;2])] [1;4;3;5]));
  (*5419*) Del (T 196);
  (*5420*) SubFrom (T 214) (Plain (Einsum [(T 202,[0;1;2;3])] [0;1;2;3]));
  (*5421*) Del (T 202);
  (*5422*) AddTo (T 198) (Plain (Einsum [(n_t2'bbbb,[0;1;2;3])] [1;0;3;2]));
  (*5423*) SubFrom n_rdm2_f_vovo_bbbb (Plain (Einsum [(T 198,[0;1;2;3])] [3;0;2;1]));
  (*5424*) AddTo n_rdm2_f_vovo_bbbb (Plain (Einsum [(T 198,[0;1;2;3])] [2;0;3;1]));
  (*5425*) Del (T 198);
  (*5426*) Assign (T 207) (Plain (Zeros [3;6;7]));
  (*5427*) AddTo (T 207) (Plain (Einsum [(n_lu11'aa,[0;1;2]); (n_t2'abab,[2;3;1;4])] [0;3;4]));
  (*5428*) AddTo (T 210) (Plain (Einsum [(T 207,[0;1;2])] [0;1;2]));
  (*5429*) Assign (T 211) (Plain (Zeros [6;6;7;7]));
  (*5430*) AddTo (T 211) (Plain (Einsum [(n_u11'bb,[0;1;2]); (T 210,[0;3;4])] [1;3;2;4]));
  (*5431*) Del (T 210);
  (*5432*) AddTo (T 214) (Plain (Einsum [(T 211,[0;1;2;3])] [1;0;3;2]));
  (*5433*) Del (T 211);
  (*5434*) AddTo n_rdm2_f_vovo_bbbb (Plain (Einsum [(T 214,[0;1;2;3])] [2;0;3;1]));
  (*5435*) SubFrom n_rdm2_f_vovo_bbbb (Plain (Einsum [(T 214,[0;1;2;3])] [3;0;2;1]));
  (*5436*) SubFrom n_rdm2_f_vovo_bbbb (Plain (Einsum [(T 214,[0;1;2;3])] [2;1;3;0]));
  (*5437*) AddTo n_rdm2_f_vovo_bbbb (Plain (Einsum [(T 214,[0;1;2;3])] [3;1;2;0]));
  (*5438*) Del (T 214);
  (*5439*) AddTo (T 250) (Plain (Einsum [(T 207,[0;1;2])] [0;1;2]));
  (*5440*) Del (T 207);
  (*5441*) Assign (T 251) (Plain (Zeros [4;6;5;7]));
  (*5442*) AddTo (T 251) (Plain (Einsum [(n_u11'aa,[0;1;2]); (T 250,[0;3;4])] [1;3;2;4]));
  (*5443*) Del (T 250);
  (*5444*) AddTo n_rdm2_f_vovo_bbaa (Plain (Einsum [(T 251,[0;1;2;3])] [3;1;2;0]));
  (*5445*) AddTo n_rdm2_f_vovo_aabb (Plain (Einsum [(T 251,[0;1;2;3])] [2;0;3;1]));
  (*5446*) Del (T 251);
  (*5447*) SubFrom (T 226) (Plain (Einsum [(n_t1'bb,[0;1])] [0;1]));
  (*5448*) SubFrom n_rdm2_f_vovo_bbbb (Plain (Einsum [(n_t1'bb,[0;1]); (T 226,[2;3])] [3;2;1;0]));
  (*5449*) AddTo n_rdm2_f_vovo_bbbb (Plain (Einsum [(n_t1'bb,[0;1]); (T 226,[2;3])] [1;2;3;0]));
  (*5450*) Del (T 226);
  (*5451*) AddTo (T 257) (Times (Einsum [(n_t1'bb,[0;1])] [0;1]) (-9999999999999993) 10000000000000000);
  (*5452*) AddTo n_rdm2_f_vovo_bbaa (Times (Einsum [(n_t1'aa,[0;1]); (T 257,[2;3])] [3;2;1;0]) (-1) 1);
  (*5453*) Del (T 257);
  (*5454*) AddTo (T 261) (Times (Einsum [(n_t1'aa,[0;1])] [0;1]) (-9999999999999993) 10000000000000000);
  (*5455*) AddTo n_rdm2_f_vovo_aabb (Times (Einsum [(n_t1'bb,[0;1]); (T 261,[2;3])] [3;2;1;0]) (-1) 1);
  (*5456*) Del (T 261);
  (*5457*) Assign (T 263) (Plain (Zeros [4;5;5;5]));
  (*5458*) AddTo (T 263) (Plain (Einsum [(n_t1'aa,[0;1]); (n_l2'aaaa,[2;3;4;0])] [4;2;3;1]));
  (*5459*) Assign (T 308) (Plain (Zeros [5;5;5;5]));
  (*5460*) AddTo (T 308) (Plain (Einsum [(n_t1'aa,[0;1]); (T 263,[0;2;3;4])] [3;2;4;1]));
  (*5461*) Assign (T 309) (Plain (Zeros [5;5;5;5]));
  (*5462*) AddTo (T 309) (Plain (Einsum [(T 308,[0;1;2;3])] [1;0;3;2]));
  (*5463*) Del (T 308);
  (*5464*) Assign n_rdm2_f_ovvv_aaaa (Plain (Zeros [4;5;5;5]));
  (*5465*) AddTo n_rdm2_f_ovvv_aaaa (Plain (Einsum [(T 263,[0;1;2;3])] [0;1;3;2]));
  (*5466*) SubFrom n_rdm2_f_ovvv_aaaa (Plain (Einsum [(T 263,[0;1;2;3])] [0;2;3;1]));
  (*5467*) Assign n_rdm2_f_vvov_aaaa (Plain (Zeros [5;5;4;5]));
  (*5468*) SubFrom n_rdm2_f_vvov_aaaa (Plain (Einsum [(T 263,[0;1;2;3])] [3;1;0;2]));
  (*5469*) AddTo n_rdm2_f_vvov_aaaa (Plain (Einsum [(T 263,[0;1;2;3])] [3;2;0;1]));
  (*5470*) Del (T 263);
  (*5471*) Assign (T 264) (Plain (Zeros [6;7;7;7]));
  (*5472*) AddTo (T 264) (Plain (Einsum [(n_t1'bb,[0;1]); (n_l2'bbbb,[2;3;4;0])] [4;2;3;1]));
  (*5473*) Assign (T 313) (Plain (Zeros [7;7;7;7]));
  (*5474*) AddTo (T 313) (Plain (Einsum [(n_t1'bb,[0;1]); (T 264,[0;2;3;4])] [3;2;4;1]));
  (*5475*) Assign (T 314) (Plain (Zeros [7;7;7;7]));
  (*5476*) AddTo (T 314) (Plain (Einsum [(T 313,[0;1;2;3])] [1;0;3;2]));
  (*5477*) Del (T 313);
  (*5478*) Assign n_rdm2_f_ovvv_bbbb (Plain (Zeros [6;7;7;7]));
  (*5479*) AddTo n_rdm2_f_ovvv_bbbb (Plain (Einsum [(T 264,[0;1;2;3])] [0;1;3;2]));
  (*5480*) SubFrom n_rdm2_f_ovvv_bbbb (Plain (Einsum [(T 264,[0;1;2;3])] [0;2;3;1]));
  (*5481*) Assign n_rdm2_f_vvov_bbbb (Plain (Zeros [7;7;6;7]));
  (*5482*) SubFrom n_rdm2_f_vvov_bbbb (Plain (Einsum [(T 264,[0;1;2;3])] [3;1;0;2]));
  (*5483*) AddTo n_rdm2_f_vvov_bbbb (Plain (Einsum [(T 264,[0;1;2;3])] [3;2;0;1]));
  (*5484*) Del (T 264);
  (*5485*) Assign (T 265) (Plain (Zeros [6;5;5;7]));
  (*5486*) AddTo (T 265) (Plain (Einsum [(n_t1'aa,[0;1]); (n_l2'abab,[2;3;0;4])] [4;2;1;3]));
  (*5487*) Assign n_rdm2_f_ovvv_bbaa (Plain (Zeros [6;7;5;5]));
  (*5488*) AddTo n_rdm2_f_ovvv_bbaa (Plain (Einsum [(T 265,[0;1;2;3])] [0;3;2;1]));
  (*5489*) Assign n_rdm2_f_vvov_aabb (Plain (Zeros [5;5;6;7]));
  (*5490*) AddTo n_rdm2_f_vvov_aabb (Plain (Einsum [(T 265,[0;1;2;3])] [2;1;0;3]));
  (*5491*) Del (T 265);
  (*5492*) Assign (T 266) (Plain (Zeros [4;5;7;7]));
  (*5493*) AddTo (T 266) (Plain (Einsum [(n_t1'bb,[0;1]); (n_l2'abab,[2;3;4;0])] [4;2;3;1]));
  (*5494*) Assign (T 311) (Plain (Zeros [5;5;7;7]));
  (*5495*) AddTo (T 311) (Plain (Einsum [(n_t1'aa,[0;1]); (T 266,[0;2;3;4])] [2;1;3;4]));
  (*5496*) Assign n_rdm2_f_vvvv_bbaa (Plain (Zeros [7;7;5;5]));
  (*5497*) AddTo n_rdm2_f_vvvv_bbaa (Plain (Einsum [(T 311,[0;1;2;3])] [3;2;1;0]));
  (*5498*) Assign n_rdm2_f_vvvv_aabb (Plain (Zeros [5;5;7;7]));
  (*5499*) AddTo n_rdm2_f_vvvv_aabb (Plain (Einsum [(T 311,[0;1;2;3])] [1;0;3;2]));
  (*5500*) Del (T 311);
  (*5501*) Assign n_rdm2_f_ovvv_aabb (Plain (Zeros [4;5;7;7]));
  (*5502*) AddTo n_rdm2_f_ovvv_aabb (Plain (Einsum [(T 266,[0;1;2;3])] [0;1;3;2]));
  (*5503*) Assign n_rdm2_f_vvov_bbaa (Plain (Zeros [7;7;4;5]));
  (*5504*) AddTo n_rdm2_f_vvov_bbaa (Plain (Einsum [(T 266,[0;1;2;3])] [3;2;0;1]));
  (*5505*) Del (T 266);
  (*5506*) Assign (T 273) (Plain (Zeros [4;5;5;5]));
  (*5507*) AddTo (T 273) (Plain (Einsum [(n_l1'aa,[0;1]); (n_t2'aaaa,[2;1;3;4])] [2;0;3;4]));
  (*5508*) AddTo (T 277) (Plain (Einsum [(T 273,[0;1;2;3])] [0;1;2;3]));
  (*5509*) Del (T 273);
  (*5510*) Assign (T 274) (Plain (Zeros [3;5;5]));
  (*5511*) AddTo (T 274) (Plain (Einsum [(n_t1'aa,[0;1]); (n_lu11'aa,[2;3;0])] [2;3;1]));
  (*5512*) Assign (T 275) (Plain (Zeros [4;5;5;5]));
  (*5513*) AddTo (T 275) (Plain (Einsum [(n_u11'aa,[0;1;2]); (T 274,[0;3;4])] [1;3;4;2]));
  (*5514*) SubFrom (T 277) (Plain (Einsum [(T 275,[0;1;2;3])] [0;1;2;3]));
  (*5515*) Del (T 275);
  (*5516*) AddTo n_rdm2_f_vovv_aaaa (Plain (Einsum [(T 277,[0;1;2;3])] [2;0;3;1]));
  (*5517*) SubFrom n_rdm2_f_vovv_aaaa (Plain (Einsum [(T 277,[0;1;2;3])] [3;0;2;1]));
  (*5518*) SubFrom n_rdm2_f_vvvo_aaaa (Plain (Einsum [(T 277,[0;1;2;3])] [2;1;3;0]));
  (*5519*) AddTo n_rdm2_f_vvvo_aaaa (Plain (Einsum [(T 277,[0;1;2;3])] [3;1;2;0]));
  (*5520*) Del (T 277);
  (*5521*) Assign (T 291) (Plain (Zeros [6;5;5;7]));
  (*5522*) AddTo (T 291) (Plain (Einsum [(n_u11'bb,[0;1;2]); (T 274,[0;3;4])] [1;3;4;2]));
  (*5523*) Del (T 274);
  (*5524*) AddTo n_rdm2_f_vovv_bbaa (Plain (Einsum [(T 291,[0;1;2;3])] [3;0;2;1]));
  (*5525*) AddTo n_rdm2_f_vvvo_aabb (Plain (Einsum [(T 291,[0;1;2;3])] [2;1;3;0]));
  (*5526*) Del (T 291);
  (*5527*) Assign (T 278) (Plain (Zeros [6;7;7;7]));
  (*5528*) AddTo (T 278) (Plain (Einsum [(n_l1'bb,[0;1]); (n_t2'bbbb,[2;1;3;4])] [2;0;3;4]));
  (*5529*) AddTo (T 282) (Plain (Einsum [(T 278,[0;1;2;3])] [0;1;2;3]));
  (*5530*) Del (T 278);
  (*5531*) Assign (T 279) (Plain (Zeros [3;7;7]));
  (*5532*) AddTo (T 279) (Plain (Einsum [(n_t1'bb,[0;1]); (n_lu11'bb,[2;3;0])] [2;3;1]));
  (*5533*) Assign (T 280) (Plain (Zeros [6;7;7;7]));
  (*5534*) AddTo (T 280) (Plain (Einsum [(n_u11'bb,[0;1;2]); (T 279,[0;3;4])] [1;3;4;2]));
  (*5535*) SubFrom (T 282) (Plain (Einsum [(T 280,[0;1;2;3])] [0;1;2;3]));
  (*5536*) Del (T 280);
  (*5537*) Assign n_rdm2_f_vovv_bbbb (Plain (Zeros [7;6;7;7]));
  (*5538*) AddTo n_rdm2_f_vovv_bbbb (Plain (Einsum [(T 282,[0;1;2;3])] [2;0;3;1]));
  (*5539*) SubFrom n_rdm2_f_vovv_bbbb (Plain (Einsum [(T 282,[0;1;2;3])] [3;0;2;1]));
  (*5540*) Assign n_rdm2_f_vvvo_bbbb (Plain (Zeros [7;7;7;6]));
  (*5541*) SubFrom n_rdm2_f_vvvo_bbbb (Plain (Einsum [(T 282,[0;1;2;3])] [2;1;3;0]));
  (*5542*) AddTo n_rdm2_f_vvvo_bbbb (Plain (Einsum [(T 282,[0;1;2;3])] [3;1;2;0]));
  (*5543*) Del (T 282);
  (*5544*) Assign (T 301) (Plain (Zeros [4;5;7;7]));
  (*5545*) AddTo (T 301) (Plain (Einsum [(n_u11'aa,[0;1;2]); (T 279,[0;3;4])] [1;2;3;4]));
  (*5546*) Del (T 279);
  (*5547*) AddTo n_rdm2_f_vovv_aabb (Plain (Einsum [(T 301,[0;1;2;3])] [1;0;3;2]));
  (*5548*) AddTo n_rdm2_f_vvvo_bbaa (Plain (Einsum [(T 301,[0;1;2;3])] [3;2;1;0]));
  (*5549*) Del (T 301);
  (*5550*) Assign (T 285) (Plain (Zeros [6;6;7;7]));
  (*5551*) AddTo (T 285) (Plain (Einsum [(n_l2'bbbb,[0;1;2;3])] [3;2;0;1]));
  (*5552*) AddTo (T 285) (Times (Einsum [(n_l2'bbbb,[0;1;2;3])] [3;2;1;0]) (-1) 1);
  (*5553*) Assign (T 286) (Plain (Zeros [6;6;7;7]));
  (*5554*) AddTo (T 286) (Plain (Einsum [(T 17,[0;1;2;3]); (T 285,[0;4;2;5])] [1;4;3;5]));
  (*5555*) Del (T 17);
  (*5556*) AddTo (T 287) (Plain (Einsum [(T 286,[0;1;2;3])] [1;0;3;2]));
  (*5557*) Del (T 286);
  (*5558*) Assign (T 288) (Plain (Zeros [6;7;7;7]));
  (*5559*) AddTo (T 288) (Plain (Einsum [(n_t1'bb,[0;1]); (T 287,[0;2;3;4])] [2;1;3;4]));
  (*5560*) Del (T 287);
  (*5561*) AddTo (T 290) (Times (Einsum [(T 288,[0;1;2;3])] [0;2;1;3]) (-1) 1);
  (*5562*) Del (T 288);
  (*5563*) AddTo n_rdm2_f_vovv_bbbb (Plain (Einsum [(T 290,[0;1;2;3])] [2;0;3;1]));
  (*5564*) AddTo n_rdm2_f_vovv_bbbb (Times (Einsum [(T 290,[0;1;2;3])] [3;0;2;1]) (-1) 1);
  (*5565*) AddTo n_rdm2_f_vvvo_bbbb (Times (Einsum [(T 290,[0;1;2;3])] [2;1;3;0]) (-1) 1);
  (*5566*) AddTo n_rdm2_f_vvvo_bbbb (Plain (Einsum [(T 290,[0;1;2;3])] [3;1;2;0]));
  (*5567*) Del (T 290);
  (*5568*) Assign (T 304) (Plain (Zeros [4;6;5;7]));
  (*5569*) AddTo (T 304) (Plain (Einsum [(n_t2'abab,[0;1;2;3]); (T 285,[1;4;5;3])] [0;4;2;5]));
  (*5570*) Del (T 285);
  (*5571*) AddTo (T 305) (Times (Einsum [(T 304,[0;1;2;3])] [0;1;2;3]) (-1) 1);
  (*5572*) Del (T 304);
  (*5573*) Assign (T 306) (Plain (Zeros [4;5;7;7]));
  (*5574*) AddTo (T 306) (Plain (Einsum [(n_t1'bb,[0;1]); (T 305,[2;0;3;4])] [2;3;1;4]));
  (*5575*) Del (T 305);
  (*5576*) AddTo n_rdm2_f_vovv_aabb (Times (Einsum [(T 306,[0;1;2;3])] [1;0;2;3]) (-1) 1);
  (*5577*) AddTo n_rdm2_f_vvvo_bbaa (Times (Einsum [(T 306,[0;1;2;3])] [2;3;1;0]) (-1) 1);
  (*5578*) Del (T 306);
  (*5579*) Assign (T 292) (Plain (Zeros [6;5;5;7]));
  (*5580*) AddTo (T 292) (Plain (Einsum [(n_l1'aa,[0;1]); (n_t2'abab,[1;2;3;4])] [2;0;3;4]));
  (*5581*) AddTo n_rdm2_f_vovv_bbaa (Plain (Einsum [(T 292,[0;1;2;3])] [3;0;2;1]));
  (*5582*) AddTo n_rdm2_f_vvvo_aabb (Plain (Einsum [(T 292,[0;1;2;3])] [2;1;3;0]));
  (*5583*) Del (T 292);
  (*5584*) Assign (T 302) (Plain (Zeros [4;5;7;7]));
  (*5585*) AddTo (T 302) (Plain (Einsum [(n_l1'bb,[0;1]); (n_t2'abab,[2;1;3;4])] [2;3;0;4]));
  (*5586*) AddTo n_rdm2_f_vovv_aabb (Plain (Einsum [(T 302,[0;1;2;3])] [1;0;3;2]));
  (*5587*) AddTo n_rdm2_f_vvvo_bbaa (Plain (Einsum [(T 302,[0;1;2;3])] [3;2;1;0]));
  (*5588*) Del (T 302);
  (*5589*) Assign (T 307) (Plain (Zeros [5;5;5;5]));
  (*5590*) AddTo (T 307) (Plain (Einsum [(n_l2'aaaa,[0;1;2;3]); (n_t2'aaaa,[2;3;4;5])] [0;1;4;5]));
  (*5591*) AddTo (T 309) (Plain (Einsum [(T 307,[0;1;2;3])] [1;0;3;2]));
  (*5592*) Del (T 307);
  (*5593*) Assign n_rdm2_f_vvvv_aaaa (Plain (Zeros [5;5;5;5]));
  (*5594*) AddTo n_rdm2_f_vvvv_aaaa (Times (Einsum [(T 309,[0;1;2;3])] [3;0;2;1]) (-1) 1);
  (*5595*) AddTo n_rdm2_f_vvvv_aaaa (Plain (Einsum [(T 309,[0;1;2;3])] [2;0;3;1]));
  (*5596*) Del (T 309);
  (*5597*) Assign (T 310) (Plain (Zeros [5;5;7;7]));
  (*5598*) AddTo (T 310) (Plain (Einsum [(n_l2'abab,[0;1;2;3]); (n_t2'abab,[2;3;4;5])] [0;4;1;5]));
  (*5599*) AddTo n_rdm2_f_vvvv_bbaa (Plain (Einsum [(T 310,[0;1;2;3])] [3;2;1;0]));
  (*5600*) AddTo n_rdm2_f_vvvv_aabb (Plain (Einsum [(T 310,[0;1;2;3])] [1;0;3;2]));
  (*5601*) Del (T 310);
  (*5602*) Assign (T 312) (Plain (Zeros [7;7;7;7]));
  (*5603*) AddTo (T 312) (Plain (Einsum [(n_l2'bbbb,[0;1;2;3]); (n_t2'bbbb,[2;3;4;5])] [0;1;4;5]));
  (*5604*) AddTo (T 314) (Plain (Einsum [(T 312,[0;1;2;3])] [1;0;3;2]));
  (*5605*) Del (T 312);
  (*5606*) Assign n_rdm2_f_vvvv_bbbb (Plain (Zeros [7;7;7;7]));
  (*5607*) AddTo n_rdm2_f_vvvv_bbbb (Times (Einsum [(T 314,[0;1;2;3])] [3;0;2;1]) (-1) 1);
  (*5608*) AddTo n_rdm2_f_vvvv_bbbb (Plain (Einsum [(T 314,[0;1;2;3])] [2;0;3;1]));
  (*5609*) Del (T 314);
  (*5610*) AddTo n_rdm2_f_oooo_aaaa (Plain (Einsum [(n_delta_oo'aa,[0;1]); (n_delta_oo'aa,[2;3])] [1;0;3;2]));
  (*5611*) SubFrom n_rdm2_f_oooo_aaaa (Plain (Einsum [(n_delta_oo'aa,[0;1]); (n_delta_oo'aa,[2;3])] [3;1;0;2]));
  (*5612*) AddTo n_rdm2_f_oooo_bbbb (Plain (Einsum [(n_delta_oo'bb,[0;1]); (n_delta_oo'bb,[2;3])] [1;0;3;2]));
  (*5613*) SubFrom n_rdm2_f_oooo_bbbb (Plain (Einsum [(n_delta_oo'bb,[0;1]); (n_delta_oo'bb,[2;3])] [3;1;0;2]));
  (*5614*) AddTo n_rdm2_f_ooov_aaaa (Plain (Einsum [(n_delta_oo'aa,[0;1]); (n_l1'aa,[2;3])] [1;0;3;2]));
  (*5615*) SubFrom n_rdm2_f_ooov_aaaa (Plain (Einsum [(n_delta_oo'aa,[0;1]); (n_l1'aa,[2;3])] [3;0;1;2]));
  (*5616*) AddTo n_rdm2_f_ooov_bbbb (Plain (Einsum [(n_delta_oo'bb,[0;1]); (n_l1'bb,[2;3])] [1;0;3;2]));
  (*5617*) SubFrom n_rdm2_f_ooov_bbbb (Plain (Einsum [(n_delta_oo'bb,[0;1]); (n_l1'bb,[2;3])] [3;0;1;2]));
  (*5618*) AddTo n_rdm2_f_ooov_aabb (Plain (Einsum [(n_delta_oo'aa,[0;1]); (n_l1'bb,[2;3])] [1;0;3;2]));
  (*5619*) AddTo n_rdm2_f_ooov_bbaa (Plain (Einsum [(n_delta_oo'bb,[0;1]); (n_l1'aa,[2;3])] [1;0;3;2]));
  (*5620*) SubFrom n_rdm2_f_ovoo_aaaa (Plain (Einsum [(n_delta_oo'aa,[0;1]); (n_l1'aa,[2;3])] [1;2;3;0]));
  (*5621*) AddTo n_rdm2_f_ovoo_aaaa (Plain (Einsum [(n_delta_oo'aa,[0;1]); (n_l1'aa,[2;3])] [3;2;1;0]));
  (*5622*) AddTo n_rdm2_f_ovoo_bbaa (Plain (Einsum [(n_delta_oo'aa,[0;1]); (n_l1'bb,[2;3])] [3;2;1;0]));
  (*5623*) AddTo n_rdm2_f_ovoo_aabb (Plain (Einsum [(n_delta_oo'bb,[0;1]); (n_l1'aa,[2;3])] [3;2;1;0]));
  (*5624*) SubFrom n_rdm2_f_ovoo_bbbb (Plain (Einsum [(n_delta_oo'bb,[0;1]); (n_l1'bb,[2;3])] [1;2;3;0]));
  (*5625*) AddTo n_rdm2_f_ovoo_bbbb (Plain (Einsum [(n_delta_oo'bb,[0;1]); (n_l1'bb,[2;3])] [3;2;1;0]));
  (*5626*) Assign n_rdm2_f_ovov_aaaa (Plain (Zeros [4;5;4;5]));
  (*5627*) SubFrom n_rdm2_f_ovov_aaaa (Plain (Einsum [(n_l2'aaaa,[0;1;2;3])] [3;0;2;1]));
  (*5628*) AddTo n_rdm2_f_ovov_aaaa (Plain (Einsum [(n_l2'aaaa,[0;1;2;3])] [3;1;2;0]));
  (*5629*) Assign n_rdm2_f_ovov_bbbb (Plain (Zeros [6;7;6;7]));
  (*5630*) SubFrom n_rdm2_f_ovov_bbbb (Plain (Einsum [(n_l2'bbbb,[0;1;2;3])] [3;0;2;1]));
  (*5631*) AddTo n_rdm2_f_ovov_bbbb (Plain (Einsum [(n_l2'bbbb,[0;1;2;3])] [3;1;2;0]));
  (*5632*) Assign n_rdm2_f_ovov_bbaa (Plain (Zeros [6;7;4;5]));
  (*5633*) AddTo n_rdm2_f_ovov_bbaa (Plain (Einsum [(n_l2'abab,[0;1;2;3])] [3;1;2;0]));
  (*5634*) Assign n_rdm2_f_ovov_aabb (Plain (Zeros [4;5;6;7]));
  (*5635*) AddTo n_rdm2_f_ovov_aabb (Plain (Einsum [(n_l2'abab,[0;1;2;3])] [2;0;3;1]));
  (*5636*) SubFrom n_rdm2_f_oovv_aaaa (Plain (Einsum [(n_l1'aa,[0;1]); (n_t1'aa,[2;3])] [1;2;3;0]));
  (*5637*) SubFrom n_rdm2_f_oovv_bbbb (Plain (Einsum [(n_l1'bb,[0;1]); (n_t1'bb,[2;3])] [1;2;3;0]));
  (*5638*) AddTo n_rdm2_f_ovvo_aaaa (Plain (Einsum [(n_l1'aa,[0;1]); (n_t1'aa,[2;3])] [1;0;3;2]));
  (*5639*) AddTo n_rdm2_f_ovvo_aabb (Plain (Einsum [(n_l1'aa,[0;1]); (n_t1'bb,[2;3])] [1;0;3;2]));
  (*5640*) AddTo n_rdm2_f_ovvo_bbaa (Plain (Einsum [(n_l1'bb,[0;1]); (n_t1'aa,[2;3])] [1;0;3;2]));
  (*5641*) AddTo n_rdm2_f_ovvo_bbbb (Plain (Einsum [(n_l1'bb,[0;1]); (n_t1'bb,[2;3])] [1;0;3;2]));
  (*5642*) AddTo n_rdm2_f_voov_aaaa (Plain (Einsum [(n_l1'aa,[0;1]); (n_t1'aa,[2;3])] [3;2;1;0]));
  (*5643*) AddTo n_rdm2_f_voov_bbaa (Plain (Einsum [(n_l1'aa,[0;1]); (n_t1'bb,[2;3])] [3;2;1;0]));
  (*5644*) AddTo n_rdm2_f_voov_aabb (Plain (Einsum [(n_l1'bb,[0;1]); (n_t1'aa,[2;3])] [3;2;1;0]));
  (*5645*) AddTo n_rdm2_f_voov_bbbb (Plain (Einsum [(n_l1'bb,[0;1]); (n_t1'bb,[2;3])] [3;2;1;0]));
  (*5646*) SubFrom n_rdm2_f_vvoo_aaaa (Plain (Einsum [(n_l1'aa,[0;1]); (n_t1'aa,[2;3])] [3;0;1;2]));
  (*5647*) SubFrom n_rdm2_f_vvoo_bbbb (Plain (Einsum [(n_l1'bb,[0;1]); (n_t1'bb,[2;3])] [3;0;1;2]));
  (*5648*) AddTo n_rdm2_f_vovo_bbaa (Plain (Einsum [(n_t2'abab,[0;1;2;3])] [3;1;2;0]));
  (*5649*) AddTo n_rdm2_f_vovo_aabb (Plain (Einsum [(n_t2'abab,[0;1;2;3])] [2;0;3;1]))]
 [(n_rdm2_f_oooo_aaaa,[4;4;4;4]); (n_rdm2_f_ooov_aaaa,[4;4;4;5]); (n_rdm2_f_oovo_aaaa,[4;4;5;4]); (n_rdm2_f_ovoo_aaaa,[4;5;4;4]); (n_rdm2_f_vooo_aaaa,[5;4;4;4]); (n_rdm2_f_oovv_aaaa,[4;4;5;5]); (n_rdm2_f_ovov_aaaa,[4;5;4;5]); (n_rdm2_f_ovvo_aaaa,[4;5;5;4]); (n_rdm2_f_voov_aaaa,[5;4;4;5]); (n_rdm2_f_vovo_aaaa,[5;4;5;4]); (n_rdm2_f_vvoo_aaaa,[5;5;4;4]); (n_rdm2_f_ovvv_aaaa,[4;5;5;5]); (n_rdm2_f_vovv_aaaa,[5;4;5;5]); (n_rdm2_f_vvov_aaaa,[5;5;4;5]); (n_rdm2_f_vvvo_aaaa,[5;5;5;4]); (n_rdm2_f_vvvv_aaaa,[5;5;5;5]); (n_rdm2_f_oooo_aabb,[4;4;6;6]); (n_rdm2_f_ooov_aabb,[4;4;6;7]); (n_rdm2_f_oovo_aabb,[4;4;7;6]); (n_rdm2_f_ovoo_aabb,[4;5;6;6]); (n_rdm2_f_vooo_aabb,[5;4;6;6]); (n_rdm2_f_oovv_aabb,[4;4;7;7]); (n_rdm2_f_ovov_aabb,[4;5;6;7]); (n_rdm2_f_ovvo_aabb,[4;5;7;6]); (n_rdm2_f_voov_aabb,[5;4;6;7]); (n_rdm2_f_vovo_aabb,[5;4;7;6]); (n_rdm2_f_vvoo_aabb,[5;5;6;6]); (n_rdm2_f_ovvv_aabb,[4;5;7;7]); (n_rdm2_f_vovv_aabb,[5;4;7;7]); (n_rdm2_f_vvov_aabb,[5;5;6;7]); (n_rdm2_f_vvvo_aabb,[5;5;7;6]); (n_rdm2_f_vvvv_aabb,[5;5;7;7]); (n_rdm2_f_oooo_bbaa,[6;6;4;4]); (n_rdm2_f_ooov_bbaa,[6;6;4;5]); (n_rdm2_f_oovo_bbaa,[6;6;5;4]); (n_rdm2_f_ovoo_bbaa,[6;7;4;4]); (n_rdm2_f_vooo_bbaa,[7;6;4;4]); (n_rdm2_f_oovv_bbaa,[6;6;5;5]); (n_rdm2_f_ovov_bbaa,[6;7;4;5]); (n_rdm2_f_ovvo_bbaa,[6;7;5;4]); (n_rdm2_f_voov_bbaa,[7;6;4;5]); (n_rdm2_f_vovo_bbaa,[7;6;5;4]); (n_rdm2_f_vvoo_bbaa,[7;7;4;4]); (n_rdm2_f_ovvv_bbaa,[6;7;5;5]); (n_rdm2_f_vovv_bbaa,[7;6;5;5]); (n_rdm2_f_vvov_bbaa,[7;7;4;5]); (n_rdm2_f_vvvo_bbaa,[7;7;5;4]); (n_rdm2_f_vvvv_bbaa,[7;7;5;5]); (n_rdm2_f_oooo_bbbb,[6;6;6;6]); (n_rdm2_f_ooov_bbbb,[6;6;6;7]); (n_rdm2_f_oovo_bbbb,[6;6;7;6]); (n_rdm2_f_ovoo_bbbb,[6;7;6;6]); (n_rdm2_f_vooo_bbbb,[7;6;6;6]); (n_rdm2_f_oovv_bbbb,[6;6;7;7]); (n_rdm2_f_ovov_bbbb,[6;7;6;7]); (n_rdm2_f_ovvo_bbbb,[6;7;7;6]); (n_rdm2_f_voov_bbbb,[7;6;6;7]); (n_rdm2_f_vovo_bbbb,[7;6;7;6]); (n_rdm2_f_vvoo_bbbb,[7;7;6;6]); (n_rdm2_f_ovvv_bbbb,[6;7;7;7]); (n_rdm2_f_vovv_bbbb,[7;6;7;7]); (n_rdm2_f_vvov_bbbb,[7;7;6;7]); (n_rdm2_f_vvvo_bbbb,[7;7;7;6]); (n_rdm2_f_vvvv_bbbb,[7;7;7;7])].

(** ebcc/codegen/UCCSD_SD_1_1.py:5663-5691 [make_sing_b_dm]; assembly (line 5689) not translated *)
Definition UCCSD_SD_1_1_make_sing_b_dm : prog := mkprog
 [(n_g'aa'boo,[3;4;4]); (n_g'aa'bvo,[3;5;4]); (n_g'aa'bov,[3;4;5]); (n_g'aa'bvv,[3;5;5]); (n_g'bb'boo,[3;6;6]); (n_g'bb'bvo,[3;7;6]); (n_g'bb'bov,[3;6;7]); (n_g'bb'bvv,[3;7;7]); (n_ls1,[3]); (n_s1,[3]); (n_l1'bb,[7;6]); (n_u11'bb,[3;6;7]); (n_l1'aa,[5;4]); (n_u11'aa,[3;4;5]); (n_s2,[3;3])]
 [(*5665*) Assign n_gc'aa'boo (Plain (Transpose n_g'aa'boo [0;2;1]));
  (*5665*) Assign n_gc'aa'bov (Plain (Transpose n_g'aa'bvo [0;2;1]));
  (*5665*) Assign n_gc'aa'bvo (Plain (Transpose n_g'aa'bov [0;2;1]));
  (*5665*) Assign n_gc'aa'bvv (Plain (Transpose n_g'aa'bvv [0;2;1]));
  (*5665*) Assign n_gc'bb'boo (Plain (Transpose n_g'bb'boo [0;2;1]));
  (*5665*) Assign n_gc'bb'bov (Plain (Transpose n_g'bb'bvo [0;2;1]));
  (*5665*) Assign n_gc'bb'bvo (Plain (Transpose n_g'bb'bov [0;2;1]));
  (*5665*) Assign n_gc'bb'bvv (Plain (Transpose n_g'bb'bvv [0;2;1]));
  (*5681*) Assign n_dm_b_cre (Plain (Zeros [3]));
  (*5682*) AddTo n_dm_b_cre (Plain (Einsum [(n_ls1,[0])] [0]));
  (*5683*) Assign n_dm_b_des (Plain (Zeros [3]));
  (*5684*) AddTo n_dm_b_des (Plain (Einsum [(n_s1,[0])] [0]));
  (*5685*) AddTo n_dm_b_des (Plain (Einsum [(n_l1'bb,[0;1]); (n_u11'bb,[2;1;0])] [2]));
  (*5686*) AddTo n_dm_b_des (Plain (Einsum [(n_l1'aa,[0;1]); (n_u11'aa,[2;1;0])] [2]));
  (*5687*) AddTo n_dm_b_des (Plain (Einsum [(n_ls1,[0]); (n_s2,[1;0])] [1]))]
 [(n_dm_b_cre,[3]); (n_dm_b_des,[3])].

(** ebcc/codegen/UCCSD_SD_1_1.py:5693-5717 [make_rdm1_b] *)
Definition UCCSD_SD_1_1_make_rdm1_b : prog := mkprog
 [(n_g'aa'boo,[3;4;4]); (n_g'aa'bvo,[3;5;4]); (n_g'aa'bov,[3;4;5]); (n_g'aa'bvv,[3;5;5]); (n_g'bb'boo,[3;6;6]); (n_g'bb'bvo,[3;7;6]); (n_g'bb'bov,[3;6;7]); (n_g'bb'bvv,[3;7;7]); (n_ls2,[3;3]); (n_s2,[3;3]); (n_ls1,[3]); (n_s1,[3]); (n_lu11'bb,[3;7;6]); (n_u11'bb,[3;6;7]); (n_lu11'aa,[3;5;4]); (n_u11'aa,[3;4;5])]
 [(*5695*) Assign n_gc'aa'boo (Plain (Transpose n_g'aa'boo [0;2;1]));
  (*5695*) Assign n_gc'aa'bov (Plain (Transpose n_g'aa'bvo [0;2;1]));
  (*5695*) Assign n_gc'aa'bvo (Plain (Transpose n_g'aa'bov [0;2;1]));
  (*5695*) Assign n_gc'aa'bvv (Plain (Transpose n_g'aa'bvv [0;2;1]));
  (*5695*) Assign n_gc'bb'boo (Plain (Transpose n_g'bb'boo [0;2;1]));
  (*5695*) Assign n_gc'bb'bov (Plain (Transpose n_g'bb'bvo [0;2;1]));
  (*5695*) Assign n_gc'bb'bvo (Plain (Transpose n_g'bb'bov [0;2;1]));
  (*5695*) Assign n_gc'bb'bvv (Plain (Transpose n_g'bb'bvv [0;2;1]));
  (*5711*) Assign n_rdm1_b (Plain (Zeros [3;3]));
  (*5712*) AddTo n_rdm1_b (Plain (Einsum [(n_ls2,[0;1]); (n_s2,[2;1])] [0;2]));
  (*5713*) AddTo n_rdm1_b (Plain (Einsum [(n_ls1,[0]); (n_s1,[1])] [0;1]));
  (*5714*) AddTo n_rdm1_b (Plain (Einsum [(n_lu11'bb,[0;1;2]); (n_u11'bb,[3;2;1])] [0;3]));
  (*5715*) AddTo n_rdm1_b (Plain (Einsum [(n_lu11'aa,[0;1;2]); (n_u11'aa,[3;2;1])] [0;3]))]
 [(n_rdm1_b,[3;3])].

(** ebcc/codegen/UCCSD_SD_1_1.py:5719-6107 [make_eb_coup_rdm]; assembly (line 6095) not translated; assembly (line 6099) not translated *)
Definition UCCSD_SD_1_1_make_eb_coup_rdm : prog := mkprog
 [(n_g'aa'boo,[3;4;4]); (n_g'aa'bvo,[3;5;4]); (n_g'aa'bov,[3;4;5]); (n_g'aa'bvv,[3;5;5]); (n_g'bb'boo,[3;6;6]); (n_g'bb'bvo,[3;7;6]); (n_g'bb'bov,[3;6;7]); (n_g'bb'bvv,[3;7;7]); (n_t1'aa,[4;5]); (n_lu11'aa,[3;5;4]); (n_u11'aa,[3;4;5]); (n_t1'bb,[6;7]); (n_lu11'bb,[3;7;6]); (n_u11'bb,[3;6;7]); (n_t2'aaaa,[4;4;5;5]); (n_t2'bbbb,[6;6;7;7]); (n_l1'aa,[5;4]); (n_s2,[3;3]); (n_l2'abab,[5;7;4;6]); (n_l2'aaaa,[5;5;4;4]); (n_t2'abab,[4;6;5;7]); (n_s1,[3]); (n_ls1,[3]); (n_l1'bb,[7;6]); (n_l2'bbbb,[7;7;6;6]); (n_ls2,[3;3])]
 [(*5723*) Assign n_gc'aa'boo (Plain (Transpose n_g'aa'boo [0;2;1]));
  (*5723*) Assign n_gc'aa'bov (Plain (Transpose n_g'aa'bvo [0;2;1]));
  (*5723*) Assign n_gc'aa'bvo (Plain (Transpose n_g'aa'bov [0;2;1]));
  (*5723*) Assign n_gc'aa'bvv (Plain (Transpose n_g'aa'bvv [0;2;1]));
  (*5723*) Assign n_gc'bb'boo (Plain (Transpose n_g'bb'boo [0;2;1]));
  (*5723*) Assign n_gc'bb'bov (Plain (Transpose n_g'bb'bvo [0;2;1]));
  (*5723*) Assign n_gc'bb'bvo (Plain (Transpose n_g'bb'bov [0;2;1]));
  (*5723*) Assign n_gc'bb'bvv (Plain (Transpose n_g'bb'bvv [0;2;1]));
  (*5739*) Assign n_delta_oo'aa (Plain (Eye 4));
  (*5740*) Assign n_delta_oo'bb (Plain (Eye 6));
  (*5742*) Assign n_delta_vv'aa (Plain (Eye 5));
  (*5743*) Assign n_delta_vv'bb (Plain (Eye 7));
  (*5746*) Assign (T 1) (Plain (Zeros [3;4;4]));
  (*5747*) AddTo (T 1) (Plain (Einsum [(n_t1'aa,[0;1]); (n_lu11'aa,[2;1;3])] [2;3;0]));
  (*5748*) Assign (T 54) (Plain (Zeros [4;5]));
  (*5749*) AddTo (T 54) (Plain (Einsum [(n_u11'aa,[0;1;2]); (T 1,[0;1;3])] [3;2]));
  (*5750*) Assign n_rdm_eb_cre_oo_aa (Plain (Zeros [3;4;4]));
  (*5751*) SubFrom n_rdm_eb_cre_oo_aa (Plain (Einsum [(T 1,[0;1;2])] [0;2;1]));
  (*5752*) Assign n_rdm_eb_cre_ov_aa (Plain (Zeros [3;4;5]));
  (*5753*) SubFrom n_rdm_eb_cre_ov_aa (Plain (Einsum [(n_t1'aa,[0;1]); (T 1,[2;0;3])] [2;3;1]));
  (*5754*) Del (T 1);
  (*5755*) Assign (T 2) (Plain (Zeros [3;6;6]));
  (*5756*) AddTo (T 2) (Plain (Einsum [(n_t1'bb,[0;1]); (n_lu11'bb,[2;1;3])] [2;3;0]));
  (*5757*) Assign (T 66) (Plain (Zeros [6;7]));
  (*5758*) AddTo (T 66) (Plain (Einsum [(n_u11'bb,[0;1;2]); (T 2,[0;1;3])] [3;2]));
  (*5759*) Assign n_rdm_eb_cre_oo_bb (Plain (Zeros [3;6;6]));
  (*5760*) SubFrom n_rdm_eb_cre_oo_bb (Plain (Einsum [(T 2,[0;1;2])] [0;2;1]));
  (*5761*) Assign n_rdm_eb_cre_ov_bb (Plain (Zeros [3;6;7]));
  (*5762*) SubFrom n_rdm_eb_cre_ov_bb (Plain (Einsum [(n_t1'bb,[0;1]); (T 2,[2;0;3])] [2;3;1]));
  (*5763*) Del (T 2);
  (*5764*) Assign (T 3) (Plain (Zeros [4;4;5;5]));
  (*5765*) SubFrom (T 3) (Plain (Einsum [(n_t2'aaaa,[0;1;2;3])] [1;0;2;3]));
  (*5766*) AddTo (T 3) (Plain (Einsum [(n_t2'aaaa,[0;1;2;3])] [1;0;3;2]));
  (*5767*) SubFrom n_rdm_eb_cre_ov_aa (Plain (Einsum [(n_lu11'aa,[0;1;2]); (T 3,[2;3;4;1])] [0;3;4]));
  (*5768*) Assign (T 4) (Plain (Zeros [6;6;7;7]));
  (*5769*) AddTo (T 4) (Plain (Einsum [(n_t2'bbbb,[0;1;2;3])] [1;0;2;3]));
  (*5770*) SubFrom (T 4) (Plain (Einsum [(n_t2'bbbb,[0;1;2;3])] [1;0;3;2]));
  (*5771*) SubFrom n_rdm_eb_cre_ov_bb (Plain (Einsum [(n_lu11'bb,[0;1;2]); (T 4,[2;3;1;4])] [0;3;4]));
  (*5772*) Assign (T 5) (Plain (Zeros [3;4;4]));
  (*5773*) AddTo (T 5) (Plain (Einsum [(n_l1'aa,[0;1]); (n_u11'aa,[2;3;0])] [2;1;3]));
  (*5774*) Assign (T 44) (Plain (Zeros [3;4;4]));
  (*5775*) AddTo (T 44) (Plain (Einsum [(T 5,[0;1;2])] [0;1;2]));
  (*5776*) Assign n_rdm_eb_des_oo_aa (Plain (Zeros [3;4;4]));
  (*5777*) SubFrom n_rdm_eb_des_oo_aa (Plain (Einsum [(T 5,[0;1;2])] [0;2;1]));
  (*5778*) Del (T 5);
  (*5779*) Assign (T 6) (Plain (Zeros [3;4;5]));
  (*5780*) AddTo (T 6) (Plain (Einsum [(n_s2,[0;1]); (n_lu11'aa,[1;2;3])] [0;3;2]));
  (*5781*) Assign (T 10) (Plain (Zeros [3;4;5]));
  (*5782*) AddTo (T 10) (Plain (Einsum [(T 6,[0;1;2])] [0;1;2]));
  (*5783*) Assign (T 35) (Plain (Zeros [3;4;5]));
  (*5784*) AddTo (T 35) (Plain (Einsum [(T 6,[0;1;2])] [0;1;2]));
  (*5785*) Assign n_rdm_eb_des_vo_aa (Plain (Zeros [3;5;4]));
  (*5786*) AddTo n_rdm_eb_des_vo_aa (Plain (Einsum [(T 6,[0;1;2])] [0;2;1]));
  (*5787*) Del (T 6);
  (*5788*) Assign (T 7) (Plain (Zeros [3;4;5]));
  (*5789*) AddTo (T 7) (Plain (Einsum [(n_u11'bb,[0;1;2]); (n_l2'abab,[3;2;4;1])] [0;4;3]));
  (*5790*) AddTo (T 10) (Plain (Einsum [(T 7,[0;1;2])] [0;1;2]));
  (*5791*) AddTo (T 35) (Plain (Einsum [(T 7,[0;1;2])] [0;1;2]));
  (*5792*) AddTo n_rdm_eb_des_vo_aa (Plain (Einsum [(T 7,[0;1;2])] [0;2;1]));
  (*5793*) Del (T 7);
  (*5794*) Assign (T 8) (Plain (Zeros [4;4;5;5]));
  (*5795*) AddTo (T 8) (Times (Einsum [(n_l2'aaaa,[0;1;2;3])] [3;2;0;1]) (-1) 1);
  (*5796*) AddTo (T 8) (Plain (Einsum [(n_l2'aaaa,[0;1;2;3])] [3;2;1;0]));
  (*5797*) Assign (T 9) (Plain (Zeros [3;4;5]));
  (*5798*) AddTo (T 9) (Plain (Einsum [(n_u11'aa,[0;1;2]); (T 8,[1;3;4;2])] [0;3;4]));
  (*5799*) AddTo (T 10) (Times (Einsum [(T 9,[0;1;2])] [0;1;2]) (-1) 1);
  (*5800*) Del (T 9);
  (*5801*) AddTo n_rdm_eb_des_oo_aa (Times (Einsum [(n_t1'aa,[0;1]); (T 10,[2;3;1])] [2;0;3]) (-1) 1);
  (*5802*) Assign n_rdm_eb_des_vv_aa (Plain (Zeros [3;5;5]));
  (*5803*) AddTo n_rdm_eb_des_vv_aa (Plain (Einsum [(n_t1'aa,[0;1]); (T 10,[2;0;3])] [2;3;1]));
  (*5804*) Del (T 10);
  (*5805*) Assign (T 41) (Plain (Zeros [5;5]));
  (*5806*) AddTo (T 41) (Plain (Einsum [(n_t2'aaaa,[0;1;2;3]); (T 8,[0;1;3;4])] [2;4]));
  (*5807*) Del (T 8);
  (*5808*) Assign (T 42) (Plain (Zeros [5;5]));
  (*5809*) AddTo (T 42) (Times (Einsum [(T 41,[0;1])] [1;0]) (-1) 1);
  (*5810*) Assign (T 67) (Plain (Zeros [5;5]));
  (*5811*) AddTo (T 67) (Times (Einsum [(T 41,[0;1])] [1;0]) (-1) 1);
  (*5812*) Del (T 41);
  (*5813*) Assign (T 11) (Plain (Zeros [4;4]));
  (*5814*) AddTo (T 11) (Plain (Einsum [(n_l1'aa,[0;1]); (n_t1'aa,[2;0])] [1;2]));
  (*5815*) Assign (T 16) (Plain (Zeros [4;4]));
  (*5816*) AddTo (T 16) (Plain (Einsum [(T 11,[0;1])] [0;1]));
  (*5817*) Assign (T 43) (Plain (Zeros [4;4]));
  (*5818*) AddTo (T 43) (Plain (Einsum [(T 11,[0;1])] [0;1]));
  (*5819*) Assign (T 53) (Plain (Zeros [4;4]));
  (*5820*) AddTo (T 53) (Plain (Einsum [(T 11,[0;1])] [0;1]));
  (*5821*) Del (T 11);
  (*5822*) Assign (T 12) (Plain (Zeros [4;4]));
  (*5823*) AddTo (T 12) (Plain (Einsum [(n_lu11'aa,[0;1;2]); (n_u11'aa,[0;3;1])] [2;3]));
  (*5824*) AddTo (T 16) (Plain (Einsum [(T 12,[0;1])] [0;1]));
  (*5825*) AddTo (T 43) (Plain (Einsum [(T 12,[0;1])] [0;1]));
  (*5826*) AddTo (T 53) (Plain (Einsum [(T 12,[0;1])] [0;1]));
  (*5827*) Del (T 12);
  (*5828*) Assign (T 13) (Plain (Zeros [4;4]));
  (*5829*) AddTo (T 13) (Plain (Einsum [(n_l2'abab,[0;1;2;3]); (n_t2'abab,[4;3;0;1])] [2;4]));
  (*5830*) AddTo (T 16) (Plain (Einsum [(T 13,[0;1])] [0;1]));
  (*5831*) AddTo (T 43) (Plain (Einsum [(T 13,[0;1])] [0;1]));
  (*5832*) AddTo (T 53) (Plain (Einsum [(T 13,[0;1])] [0;1]));
  (*5833*) Del (T 13);
  (*5834*) Assign (T 14) (Plain (Zeros [4;4;5;5]));
  (*5835*) AddTo (T 14) (Times (Einsum [(n_t2'aaaa,[0;1;2;3])] [1;0;2;3]) (-1) 1);
  (*5836*) AddTo (T 14) (Plain (Einsum [(n_t2'aaaa,[0;1;2;3])] [1;0;3;2]));
  (*5837*) Assign (T 15) (Plain (Zeros [4;4]));
  (*5838*) AddTo (T 15) (Plain (Einsum [(n_l2'aaaa,[0;1;2;3]); (T 14,[2;4;1;0])] [3;4]));
  (*5839*) AddTo (T 16) (Times (Einsum [(T 15,[0;1])] [0;1]) (-1) 1);
  (*5840*) AddTo (T 43) (Times (Einsum [(T 15,[0;1])] [0;1]) (-1) 1);
  (*5841*) Del (T 15);
  (*5842*) Assign n_rdm_eb_des_ov_aa (Plain (Zeros [3;4;5]));
  (*5843*) AddTo n_rdm_eb_des_ov_aa (Times (Einsum [(T 43,[0;1]); (n_u11'aa,[2;0;3])] [2;1;3]) (-1) 1);
  (*5844*) Del (T 43);
  (*5845*) AddTo (T 53) (Times (Einsum [(n_l2'aaaa,[0;1;2;3]); (T 14,[2;4;1;0])] [3;4]) (-1) 1);
  (*5846*) Del (T 14);
  (*5847*) AddTo (T 54) (Plain (Einsum [(n_t1'aa,[0;1]); (T 53,[0;2])] [2;1]));
  (*5848*) Del (T 53);
  (*5849*) AddTo (T 16) (Times (Einsum [(n_delta_oo'aa,[0;1])] [1;0]) (-1) 1);
  (*5850*) AddTo n_rdm_eb_des_oo_aa (Times (Einsum [(n_s1,[0]); (T 16,[1;2])] [0;2;1]) (-1) 1);
  (*5851*) Del (T 16);
  (*5852*) Assign (T 17) (Plain (Zeros [3]));
  (*5853*) AddTo (T 17) (Plain (Einsum [(n_ls1,[0]); (n_s2,[1;0])] [1]));
  (*5854*) Assign (T 20) (Plain (Zeros [3]));
  (*5855*) AddTo (T 20) (Plain (Einsum [(T 17,[0])] [0]));
  (*5856*) Del (T 17);
  (*5857*) Assign (T 18) (Plain (Zeros [3]));
  (*5858*) AddTo (T 18) (Plain (Einsum [(n_l1'aa,[0;1]); (n_u11'aa,[2;1;0])] [2]));
  (*5859*) AddTo (T 20) (Plain (Einsum [(T 18,[0])] [0]));
  (*5860*) Del (T 18);
  (*5861*) Assign (T 19) (Plain (Zeros [3]));
  (*5862*) AddTo (T 19) (Plain (Einsum [(n_l1'bb,[0;1]); (n_u11'bb,[2;1;0])] [2]));
  (*5863*) AddTo (T 20) (Plain (Einsum [(T 19,[0])] [0]));
  (*5864*) Del (T 19);
  (*5865*) AddTo n_rdm_eb_des_oo_aa (Plain (Einsum [(T 20,[0]); (n_delta_oo'aa,[1;2])] [0;2;1]));
  (*5866*) Assign n_rdm_eb_des_oo_bb (Plain (Zeros [3;6;6]));
  (*5867*) AddTo n_rdm_eb_des_oo_bb (Plain (Einsum [(T 20,[0]); (n_delta_oo'bb,[1;2])] [0;2;1]));
  (*5868*) AddTo n_rdm_eb_des_ov_aa (Plain (Einsum [(T 20,[0]); (n_t1'aa,[1;2])] [0;1;2]));
  (*5869*) Assign n_rdm_eb_des_ov_bb (Plain (Zeros [3;6;7]));
  (*5870*) AddTo n_rdm_eb_des_ov_bb (Plain (Einsum [(T 20,[0]); (n_t1'bb,[1;2])] [0;1;2]));
  (*5871*) Del (T 20);
  (*5872*) Assign (T 21) (Plain (Zeros [3;6;6]));
  (*5873*) AddTo (T 21) (Plain (Einsum [(n_l1'bb,[0;1]); (n_u11'bb,[2;3;0])] [2;1;3]));
  (*5874*) Assign (T 61) (Plain (Zeros [3;6;6]));
  (*5875*) AddTo (T 61) (Plain (Einsum [(T 21,[0;1;2])] [0;1;2]));
  (*5876*) SubFrom n_rdm_eb_des_oo_bb (Plain (Einsum [(T 21,[0;1;2])] [0;2;1]));
  (*5877*) Del (T 21);
  (*5878*) Assign (T 22) (Plain (Zeros [3;6;7]));
  (*5879*) AddTo (T 22) (Plain (Einsum [(n_s2,[0;1]); (n_lu11'bb,[1;2;3])] [0;3;2]));
  (*5880*) Assign (T 26) (Plain (Zeros [3;6;7]));
  (*5881*) AddTo (T 26) (Plain (Einsum [(T 22,[0;1;2])] [0;1;2]));
  (*5882*) Assign (T 38) (Plain (Zeros [3;6;7]));
  (*5883*) AddTo (T 38) (Plain (Einsum [(T 22,[0;1;2])] [0;1;2]));
  (*5884*) Assign n_rdm_eb_des_vo_bb (Plain (Zeros [3;7;6]));
  (*5885*) AddTo n_rdm_eb_des_vo_bb (Plain (Einsum [(T 22,[0;1;2])] [0;2;1]));
  (*5886*) Del (T 22);
  (*5887*) Assign (T 23) (Plain (Zeros [3;6;7]));
  (*5888*) AddTo (T 23) (Plain (Einsum [(n_u11'aa,[0;1;2]); (n_l2'abab,[2;3;1;4])] [0;4;3]));
  (*5889*) AddTo (T 26) (Plain (Einsum [(T 23,[0;1;2])] [0;1;2]));
  (*5890*) AddTo (T 38) (Plain (Einsum [(T 23,[0;1;2])] [0;1;2]));
  (*5891*) AddTo n_rdm_eb_des_vo_bb (Plain (Einsum [(T 23,[0;1;2])] [0;2;1]));
  (*5892*) Del (T 23);
  (*5893*) Assign (T 24) (Plain (Zeros [6;6;7;7]));
  (*5894*) AddTo (T 24) (Plain (Einsum [(n_l2'bbbb,[0;1;2;3])] [3;2;0;1]));
  (*5895*) AddTo (T 24) (Times (Einsum [(n_l2'bbbb,[0;1;2;3])] [3;2;1;0]) (-1) 1);
  (*5896*) Assign (T 25) (Plain (Zeros [3;6;7]));
  (*5897*) AddTo (T 25) (Plain (Einsum [(n_u11'bb,[0;1;2]); (T 24,[1;3;2;4])] [0;3;4]));
  (*5898*) Del (T 24);
  (*5899*) AddTo (T 26) (Times (Einsum [(T 25,[0;1;2])] [0;1;2]) (-1) 1);
  (*5900*) Del (T 25);
  (*5901*) AddTo n_rdm_eb_des_oo_bb (Times (Einsum [(n_t1'bb,[0;1]); (T 26,[2;3;1])] [2;0;3]) (-1) 1);
  (*5902*) Assign n_rdm_eb_des_vv_bb (Plain (Zeros [3;7;7]));
  (*5903*) AddTo n_rdm_eb_des_vv_bb (Plain (Einsum [(n_t1'bb,[0;1]); (T 26,[2;0;3])] [2;3;1]));
  (*5904*) Del (T 26);
  (*5905*) Assign (T 27) (Plain (Zeros [6;6]));
  (*5906*) AddTo (T 27) (Plain (Einsum [(n_l1'bb,[0;1]); (n_t1'bb,[2;0])] [1;2]));
  (*5907*) Assign (T 32) (Plain (Zeros [6;6]));
  (*5908*) AddTo (T 32) (Plain (Einsum [(T 27,[0;1])] [0;1]));
  (*5909*) Assign (T 60) (Plain (Zeros [6;6]));
  (*5910*) AddTo (T 60) (Plain (Einsum [(T 27,[0;1])] [0;1]));
  (*5911*) Assign (T 65) (Plain (Zeros [6;6]));
  (*5912*) AddTo (T 65) (Plain (Einsum [(T 27,[0;1])] [0;1]));
  (*5913*) Del (T 27);
  (*5914*) Assign (T 28) (Plain (Zeros [6;6]));
  (*5915*) AddTo (T 28) (Plain (Einsum [(n_lu11'bb,[0;1;2]); (n_u11'bb,[0;3;1])] [2;3]));
  (*5916*) AddTo (T 32) (Plain (Einsum [(T 28,[0;1])] [0;1]));
  (*5917*) AddTo (T 60) (Plain (Einsum [(T 28,[0;1])] [0;1]));
  (*5918*) AddTo (T 65) (Plain (Einsum [(T 28,[0;1])] [0;1]));
  (*5919*) Del (T 28);
  (*5920*) Assign (T 29) (Plain (Zeros [6;6]));
  (*5921*) AddTo (T 29) (Plain (Einsum [(n_l2'abab,[0;1;2;3]); (n_t2'abab,[2;4;0;1])] [3;4]));
  (*5922*) AddTo (T 32) (Plain (Einsum [(T 29,[0;1])] [0;1]));
  (*5923*) AddTo (T 60) (Plain (Einsum [(T 29,[0;1])] [0;1]));
  (*5924*) AddTo (T 65) (Plain (Einsum [(T 29,[0;1])] [0;1]));
  (*5925*) Del (T 29);
  (*5926*) Assign (T 30) (Plain (Zeros [6;6;7;7]));
  (*5927*) AddTo (T 30) (Times (Einsum [(n_t2'bbbb,[0;1;2;3])] [1;0;2;3]) (-1) 1);
  (*5928*) AddTo (T 30) (Plain (Einsum [(n_t2'bbbb,[0;1;2;3])] [1;0;3;2]));
  (*5929*) Assign (T 31) (Plain (Zeros [6;6]));
  (*5930*) AddTo (T 31) (Plain (Einsum [(n_l2'bbbb,[0;1;2;3]); (T 30,[2;4;1;0])] [3;4]));
  (*5931*) AddTo (T 32) (Times (Einsum [(T 31,[0;1])] [0;1]) (-1) 1);
  (*5932*) AddTo (T 60) (Times (Einsum [(T 31,[0;1])] [0;1]) (-1) 1);
  (*5933*) Del (T 31);
  (*5934*) AddTo n_rdm_eb_des_ov_bb (Times (Einsum [(T 60,[0;1]); (n_u11'bb,[2;0;3])] [2;1;3]) (-1) 1);
  (*5935*) Del (T 60);
  (*5936*) AddTo (T 65) (Times (Einsum [(n_l2'bbbb,[0;1;2;3]); (T 30,[2;4;1;0])] [3;4]) (-1) 1);
  (*5937*) AddTo (T 66) (Plain (Einsum [(n_t1'bb,[0;1]); (T 65,[0;2])] [2;1]));
  (*5938*) Del (T 65);
  (*5939*) AddTo (T 66) (Times (Einsum [(n_l1'bb,[0;1]); (T 30,[1;2;0;3])] [2;3]) (-1) 1);
  (*5940*) Del (T 30);
  (*5941*) AddTo (T 32) (Times (Einsum [(n_delta_oo'bb,[0;1])] [1;0]) (-1) 1);
  (*5942*) AddTo n_rdm_eb_des_oo_bb (Times (Einsum [(n_s1,[0]); (T 32,[1;2])] [0;2;1]) (-1) 1);
  (*5943*) Del (T 32);
  (*5944*) Assign (T 33) (Plain (Zeros [4;4;5;5]));
  (*5945*) SubFrom (T 33) (Plain (Einsum [(n_l2'aaaa,[0;1;2;3])] [3;2;0;1]));
  (*5946*) AddTo (T 33) (Plain (Einsum [(n_l2'aaaa,[0;1;2;3])] [3;2;1;0]));
  (*5947*) Assign (T 34) (Plain (Zeros [3;4;5]));
  (*5948*) AddTo (T 34) (Plain (Einsum [(n_u11'aa,[0;1;2]); (T 33,[1;3;4;2])] [0;3;4]));
  (*5949*) Del (T 33);
  (*5950*) SubFrom (T 35) (Plain (Einsum [(T 34,[0;1;2])] [0;1;2]));
  (*5951*) AddTo (T 44) (Plain (Einsum [(n_t1'aa,[0;1]); (T 35,[2;3;1])] [2;3;0]));
  (*5952*) SubFrom n_rdm_eb_des_ov_aa (Plain (Einsum [(n_t1'aa,[0;1]); (T 44,[2;0;3])] [2;3;1]));
  (*5953*) Del (T 44);
  (*5954*) SubFrom n_rdm_eb_des_ov_aa (Plain (Einsum [(T 35,[0;1;2]); (T 3,[1;3;4;2])] [0;3;4]));
  (*5955*) Del (T 3);
  (*5956*) AddTo n_rdm_eb_des_ov_bb (Plain (Einsum [(T 35,[0;1;2]); (n_t2'abab,[1;3;2;4])] [0;3;4]));
  (*5957*) Del (T 35);
  (*5958*) SubFrom n_rdm_eb_des_vo_aa (Plain (Einsum [(T 34,[0;1;2])] [0;2;1]));
  (*5959*) Del (T 34);
  (*5960*) Assign (T 36) (Plain (Zeros [6;6;7;7]));
  (*5961*) AddTo (T 36) (Plain (Einsum [(n_l2'bbbb,[0;1;2;3])] [3;2;0;1]));
  (*5962*) SubFrom (T 36) (Plain (Einsum [(n_l2'bbbb,[0;1;2;3])] [3;2;1;0]));
  (*5963*) Assign (T 37) (Plain (Zeros [3;6;7]));
  (*5964*) AddTo (T 37) (Plain (Einsum [(n_u11'bb,[0;1;2]); (T 36,[1;3;2;4])] [0;3;4]));
  (*5965*) Del (T 36);
  (*5966*) SubFrom (T 38) (Plain (Einsum [(T 37,[0;1;2])] [0;1;2]));
  (*5967*) AddTo (T 61) (Plain (Einsum [(n_t1'bb,[0;1]); (T 38,[2;3;1])] [2;3;0]));
  (*5968*) SubFrom n_rdm_eb_des_ov_bb (Plain (Einsum [(n_t1'bb,[0;1]); (T 61,[2;0;3])] [2;3;1]));
  (*5969*) Del (T 61);
  (*5970*) AddTo n_rdm_eb_des_ov_aa (Plain (Einsum [(T 38,[0;1;2]); (n_t2'abab,[3;1;4;2])] [0;3;4]));
  (*5971*) SubFrom n_rdm_eb_des_ov_bb (Plain (Einsum [(T 38,[0;1;2]); (T 4,[1;3;2;4])] [0;3;4]));
  (*5972*) Del (T 4);
  (*5973*) Del (T 38);
  (*5974*) SubFrom n_rdm_eb_des_vo_bb (Plain (Einsum [(T 37,[0;1;2])] [0;2;1]));
  (*5975*) Del (T 37);
  (*5976*) Assign (T 39) (Plain (Zeros [5;5]));
  (*5977*) AddTo (T 39) (Plain (Einsum [(n_lu11'aa,[0;1;2]); (n_u11'aa,[0;2;3])] [1;3]));
  (*5978*) AddTo (T 42) (Plain (Einsum [(T 39,[0;1])] [0;1]));
  (*5979*) AddTo (T 67) (Plain (Einsum [(T 39,[0;1])] [0;1]));
  (*5980*) Del (T 39);
  (*5981*) Assign (T 40) (Plain (Zeros [5;5]));
  (*5982*) AddTo (T 40) (Plain (Einsum [(n_l2'abab,[0;1;2;3]); (n_t2'abab,[2;3;4;1])] [0;4]));
  (*5983*) AddTo (T 42) (Plain (Einsum [(T 40,[0;1])] [0;1]));
  (*5984*) AddTo n_rdm_eb_des_ov_aa (Times (Einsum [(T 42,[0;1]); (n_u11'aa,[2;3;0])] [2;3;1]) (-1) 1);
  (*5985*) Del (T 42);
  (*5986*) AddTo (T 67) (Plain (Einsum [(T 40,[0;1])] [0;1]));
  (*5987*) Del (T 40);
  (*5988*) Assign (T 45) (Plain (Zeros [3;3]));
  (*5989*) AddTo (T 45) (Plain (Einsum [(n_ls2,[0;1]); (n_s2,[2;0])] [1;2]));
  (*5990*) Assign (T 48) (Plain (Zeros [3;3]));
  (*5991*) AddTo (T 48) (Plain (Einsum [(T 45,[0;1])] [0;1]));
  (*5992*) Del (T 45);
  (*5993*) Assign (T 46) (Plain (Zeros [3;3]));
  (*5994*) AddTo (T 46) (Plain (Einsum [(n_lu11'aa,[0;1;2]); (n_u11'aa,[3;2;1])] [0;3]));
  (*5995*) AddTo (T 48) (Plain (Einsum [(T 46,[0;1])] [0;1]));
  (*5996*) Del (T 46);
  (*5997*) Assign (T 47) (Plain (Zeros [3;3]));
  (*5998*) AddTo (T 47) (Plain (Einsum [(n_lu11'bb,[0;1;2]); (n_u11'bb,[3;2;1])] [0;3]));
  (*5999*) AddTo (T 48) (Plain (Einsum [(T 47,[0;1])] [0;1]));
  (*6000*) Del (T 47);
  (*6001*) AddTo n_rdm_eb_des_ov_aa (Plain (Einsum [(T 48,[0;1]); (n_u11'aa,[0;2;3])] [1;2;3]));
  (*6002*) AddTo n_rdm_eb_des_ov_bb (Plain (Einsum [(T 48,[0;1]); (n_u11'bb,[0;2;3])] [1;2;3]));
  (*6003*) Del (T 48);
  (*6004*) Assign (T 49) (Plain (Zeros [4;4;6;7]));
  (*6005*) AddTo (T 49) (Plain (Einsum [(n_t1'aa,[0;1]); (n_l2'abab,[1;2;3;4])] [3;0;4;2]));
  (*6006*) AddTo (T 54) (Plain (Einsum [(n_t2'abab,[0;1;2;3]); (T 49,[0;4;1;3])] [4;2]));
  (*6007*) Del (T 49);
  (*6008*) Assign (T 50) (Plain (Zeros [4;4;4;5]));
  (*6009*) AddTo (T 50) (Plain (Einsum [(n_t1'aa,[0;1]); (n_l2'aaaa,[2;1;3;4])] [3;4;0;2]));
  (*6010*) Assign (T 51) (Plain (Zeros [4;4;4;5]));
  (*6011*) AddTo (T 51) (Plain (Einsum [(T 50,[0;1;2;3])] [0;1;2;3]));
  (*6012*) AddTo (T 51) (Times (Einsum [(T 50,[0;1;2;3])] [1;0;2;3]) (-1) 1);
  (*6013*) Del (T 50);
  (*6014*) AddTo (T 54) (Times (Einsum [(n_t2'aaaa,[0;1;2;3]); (T 51,[0;1;4;3])] [4;2]) (-1) 1);
  (*6015*) Del (T 51);
  (*6016*) Assign (T 52) (Plain (Zeros [4;4;5;5]));
  (*6017*) AddTo (T 52) (Plain (Einsum [(n_t2'aaaa,[0;1;2;3])] [1;0;2;3]));
  (*6018*) AddTo (T 52) (Times (Einsum [(n_t2'aaaa,[0;1;2;3])] [1;0;3;2]) (-1) 1);
  (*6019*) AddTo (T 54) (Times (Einsum [(n_l1'aa,[0;1]); (T 52,[1;2;3;0])] [2;3]) (-1) 1);
  (*6020*) Del (T 52);
  (*6021*) AddTo (T 54) (Times (Einsum [(n_t1'aa,[0;1])] [0;1]) (-1) 1);
  (*6022*) AddTo (T 54) (Times (Einsum [(n_ls1,[0]); (n_u11'aa,[0;1;2])] [1;2]) (-1) 1);
  (*6023*) AddTo (T 54) (Times (Einsum [(n_l1'bb,[0;1]); (n_t2'abab,[2;1;3;0])] [2;3]) (-1) 1);
  (*6024*) AddTo n_rdm_eb_des_ov_aa (Times (Einsum [(n_s1,[0]); (T 54,[1;2])] [0;1;2]) (-1) 1);
  (*6025*) Del (T 54);
  (*6026*) Assign (T 55) (Plain (Zeros [7;7]));
  (*6027*) AddTo (T 55) (Plain (Einsum [(n_lu11'bb,[0;1;2]); (n_u11'bb,[0;2;3])] [1;3]));
  (*6028*) Assign (T 59) (Plain (Zeros [7;7]));
  (*6029*) AddTo (T 59) (Plain (Einsum [(T 55,[0;1])] [0;1]));
  (*6030*) Assign (T 68) (Plain (Zeros [7;7]));
  (*6031*) AddTo (T 68) (Plain (Einsum [(T 55,[0;1])] [0;1]));
  (*6032*) Del (T 55);
  (*6033*) Assign (T 56) (Plain (Zeros [7;7]));
  (*6034*) AddTo (T 56) (Plain (Einsum [(n_l2'abab,[0;1;2;3]); (n_t2'abab,[2;3;0;4])] [1;4]));
  (*6035*) AddTo (T 59) (Plain (Einsum [(T 56,[0;1])] [0;1]));
  (*6036*) AddTo (T 68) (Plain (Einsum [(T 56,[0;1])] [0;1]));
  (*6037*) Del (T 56);
  (*6038*) Assign (T 57) (Plain (Zeros [6;6;7;7]));
  (*6039*) AddTo (T 57) (Times (Einsum [(n_l2'bbbb,[0;1;2;3])] [3;2;0;1]) (-1) 1);
  (*6040*) AddTo (T 57) (Plain (Einsum [(n_l2'bbbb,[0;1;2;3])] [3;2;1;0]));
  (*6041*) Assign (T 58) (Plain (Zeros [7;7]));
  (*6042*) AddTo (T 58) (Plain (Einsum [(n_t2'bbbb,[0;1;2;3]); (T 57,[0;1;4;2])] [3;4]));
  (*6043*) Del (T 57);
  (*6044*) AddTo (T 59) (Times (Einsum [(T 58,[0;1])] [1;0]) (-1) 1);
  (*6045*) AddTo n_rdm_eb_des_ov_bb (Times (Einsum [(T 59,[0;1]); (n_u11'bb,[2;3;0])] [2;3;1]) (-1) 1);
  (*6046*) Del (T 59);
  (*6047*) AddTo (T 68) (Times (Einsum [(T 58,[0;1])] [1;0]) (-1) 1);
  (*6048*) Del (T 58);
  (*6049*) Assign (T 62) (Plain (Zeros [4;6;6;5]));
  (*6050*) AddTo (T 62) (Plain (Einsum [(n_t1'bb,[0;1]); (n_l2'abab,[2;1;3;4])] [3;4;0;2]));
  (*6051*) AddTo (T 66) (Plain (Einsum [(n_t2'abab,[0;1;2;3]); (T 62,[0;1;4;2])] [4;3]));
  (*6052*) Del (T 62);
  (*6053*) Assign (T 63) (Plain (Zeros [6;6;6;7]));
  (*6054*) AddTo (T 63) (Plain (Einsum [(n_t1'bb,[0;1]); (n_l2'bbbb,[2;1;3;4])] [3;4;0;2]));
  (*6055*) Assign (T 64) (Plain (Zeros [6;6;6;7]));
  (*6056*) AddTo (T 64) (Times (Einsum [(T 63,[0;1;2;3])] [0;1;2;3]) (-1) 1);
  (*6057*) AddTo (T 64) (Plain (Einsum [(T 63,[0;1;2;3])] [1;0;2;3]));
  (*6058*) Del (T 63);
  (*6059*) AddTo (T 66) (Times (Einsum [(n_t2'bbbb,[0;1;2;3]); (T 64,[0;1;4;2])] [4;3]) (-1) 1);
  (*6060*) Del (T 64);
  (*6061*) AddTo (T 66) (Times (Einsum [(n_t1'bb,[0;1])] [0;1]) (-1) 1);
  (*6062*) AddTo (T 66) (Times (Einsum [(n_ls1,[0]); (n_u11'bb,[0;1;2])] [1;2]) (-1) 1);
  (*6063*) AddTo (T 66) (Times (Einsum [(n_l1'aa,[0;1]); (n_t2'abab,[1;2;0;3])] [2;3]) (-1) 1);
  (*6064*) AddTo n_rdm_eb_des_ov_bb (Times (Einsum [(n_s1,[0]); (T 66,[1;2])] [0;1;2]) (-1) 1);
  (*6065*) Del (T 66);
  (*6066*) AddTo (T 67) (Plain (Einsum [(n_l1'aa,[0;1]); (n_t1'aa,[1;2])] [0;2]));
  (*6067*) AddTo n_rdm_eb_des_vv_aa (Plain (Einsum [(n_s1,[0]); (T 67,[1;2])] [0;1;2]));
  (*6068*) Del (T 67);
  (*6069*) AddTo (T 68) (Plain (Einsum [(n_l1'bb,[0;1]); (n_t1'bb,[1;2])] [0;2]));
  (*6070*) AddTo n_rdm_eb_des_vv_bb (Plain (Einsum [(n_s1,[0]); (T 68,[1;2])] [0;1;2]));
  (*6071*) Del (T 68);
  (*6072*) AddTo n_rdm_eb_cre_oo_aa (Plain (Einsum [(n_ls1,[0]); (n_delta_oo'aa,[1;2])] [0;2;1]));
  (*6073*) AddTo n_rdm_eb_cre_oo_bb (Plain (Einsum [(n_ls1,[0]); (n_delta_oo'bb,[1;2])] [0;2;1]));
  (*6074*) AddTo n_rdm_eb_cre_ov_aa (Plain (Einsum [(n_ls1,[0]); (n_t1'aa,[1;2])] [0;1;2]));
  (*6075*) AddTo n_rdm_eb_cre_ov_aa (Plain (Einsum [(n_lu11'bb,[0;1;2]); (n_t2'abab,[3;2;4;1])] [0;3;4]));
  (*6076*) AddTo n_rdm_eb_cre_ov_aa (Plain (Einsum [(n_ls2,[0;1]); (n_u11'aa,[1;2;3])] [0;2;3]));
  (*6077*) AddTo n_rdm_eb_cre_ov_bb (Plain (Einsum [(n_lu11'aa,[0;1;2]); (n_t2'abab,[2;3;1;4])] [0;3;4]));
  (*6078*) AddTo n_rdm_eb_cre_ov_bb (Plain (Einsum [(n_ls1,[0]); (n_t1'bb,[1;2])] [0;1;2]));
  (*6079*) AddTo n_rdm_eb_cre_ov_bb (Plain (Einsum [(n_ls2,[0;1]); (n_u11'bb,[1;2;3])] [0;2;3]));
  (*6080*) Assign n_rdm_eb_cre_vo_aa (Plain (Zeros [3;5;4]));
  (*6081*) AddTo n_rdm_eb_cre_vo_aa (Plain (Einsum [(n_lu11'aa,[0;1;2])] [0;1;2]));
  (*6082*) Assign n_rdm_eb_cre_vo_bb (Plain (Zeros [3;7;6]));
  (*6083*) AddTo n_rdm_eb_cre_vo_bb (Plain (Einsum [(n_lu11'bb,[0;1;2])] [0;1;2]));
  (*6084*) Assign n_rdm_eb_cre_vv_aa (Plain (Zeros [3;5;5]));
  (*6085*) AddTo n_rdm_eb_cre_vv_aa (Plain (Einsum [(n_t1'aa,[0;1]); (n_lu11'aa,[2;3;0])] [2;3;1]));
  (*6086*) Assign n_rdm_eb_cre_vv_bb (Plain (Zeros [3;7;7]));
  (*6087*) AddTo n_rdm_eb_cre_vv_bb (Plain (Einsum [(n_t1'bb,[0;1]); (n_lu11'bb,[2;3;0])] [2;3;1]));
  (*6088*) AddTo n_rdm_eb_des_ov_aa (Plain (Einsum [(n_u11'aa,[0;1;2])] [0;1;2]));
  (*6089*) AddTo n_rdm_eb_des_ov_bb (Plain (Einsum [(n_u11'bb,[0;1;2])] [0;1;2]));
  (*6090*) AddTo n_rdm_eb_des_vo_aa (Plain (Einsum [(n_s1,[0]); (n_l1'aa,[1;2])] [0;1;2]));
  (*6091*) AddTo n_rdm_eb_des_vo_bb (Plain (Einsum [(n_s1,[0]); (n_l1'bb,[1;2])] [0;1;2]));
  (*6092*) AddTo n_rdm_eb_des_vv_aa (Plain (Einsum [(n_l1'aa,[0;1]); (n_u11'aa,[2;1;3])] [2;0;3]));
  (*6093*) AddTo n_rdm_eb_des_vv_bb (Plain (Einsum [(n_l1'bb,[0;1]); (n_u11'bb,[2;1;3])] [2;0;3]))]
 [(n_rdm_eb_cre_oo_aa,[3;4;4]); (n_rdm_eb_cre_ov_aa,[3;4;5]); (n_rdm_eb_cre_vo_aa,[3;5;4]); (n_rdm_eb_cre_vv_aa,[3;5;5]); (n_rdm_eb_des_oo_aa,[3;4;4]); (n_rdm_eb_des_ov_aa,[3;4;5]); (n_rdm_eb_des_vo_aa,[3;5;4]); (n_rdm_eb_des_vv_aa,[3;5;5]); (n_rdm_eb_cre_oo_bb,[3;6;6]); (n_rdm_eb_cre_ov_bb,[3;6;7]); (n_rdm_eb_cre_vo_bb,[3;7;6]); (n_rdm_eb_cre_vv_bb,[3;7;7]); (n_rdm_eb_des_oo_bb,[3;6;6]); (n_rdm_eb_des_ov_bb,[3;6;7]); (n_rdm_eb_des_vo_bb,[3;7;6]); (n_rdm_eb_des_vv_bb,[3;7;7])].

