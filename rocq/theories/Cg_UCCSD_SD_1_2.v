(** Generated by tools/translate_codegen.py from ebcc/codegen/UCCSD_SD_1_2.py; one statement per source line
    (the number in the comment before it). *)
From Coq Require Import ZArith List.
From Verif Require Import CgModel CgNames.
Import ListNotations.

(** ebcc/codegen/UCCSD_SD_1_2.py:7-44 [energy] *)
Definition UCCSD_SD_1_2_energy : prog := mkprog
 [(n_v'aaaa'ovov,[4;5;4;5]); (n_t2'aaaa,[4;4;5;5]); (n_t1'aa,[4;5]); (n_v'bbbb'ovov,[6;7;6;7]); (n_t2'bbbb,[6;6;7;7]); (n_t1'bb,[6;7]); (n_t2'abab,[4;6;5;7]); (n_v'aabb'ovov,[4;5;6;7]); (n_G,[3]); (n_g'aa'bov,[3;4;5]); (n_g'bb'bov,[3;6;7]); (n_s1,[3]); (n_f'aa'ov,[4;5]); (n_u11'bb,[3;6;7]); (n_f'bb'ov,[6;7]); (n_u11'aa,[3;4;5])]
 [(*9*) Assign (T 1) (Plain (Zeros [4;4;5;5]));
  (*10*) AddTo (T 1) (Times (Einsum [(n_v'aaaa'ovov,[0;1;2;3])] [2;0;1;3]) (-1) 1);
  (*11*) AddTo (T 1) (Plain (Einsum [(n_v'aaaa'ovov,[0;1;2;3])] [2;0;3;1]));
  (*12*) Assign (T 2) (Plain (Zeros [4;4;5;5]));
  (*13*) AddTo (T 2) (Plain (Einsum [(n_t2'aaaa,[0;1;2;3])] [1;0;3;2]));
  (*14*) AddTo (T 2) (Plain (Einsum [(n_t1'aa,[0;1]); (n_t1'aa,[2;3])] [0;2;1;3]));
  (*15*) Assign n_e_cc (Plain (Zeros []));
  (*16*) AddTo n_e_cc (Times (Einsum [(T 1,[0;1;2;3]); (T 2,[0;1;3;2])] []) (-1) 2);
  (*17*) Del (T 1);
  (*18*) Del (T 2);
  (*19*) Assign (T 3) (Plain (Zeros [6;6;7;7]));
  (*20*) AddTo (T 3) (Times (Einsum [(n_v'bbbb'ovov,[0;1;2;3])] [2;0;1;3]) (-1) 1);
  (*21*) AddTo (T 3) (Plain (Einsum [(n_v'bbbb'ovov,[0;1;2;3])] [2;0;3;1]));
  (*22*) Assign (T 4) (Plain (Zeros [6;6;7;7]));
  (*23*) AddTo (T 4) (Plain (Einsum [(n_t2'bbbb,[0;1;2;3])] [1;0;3;2]));
  (*24*) AddTo (T 4) (Plain (Einsum [(n_t1'bb,[0;1]); (n_t1'bb,[2;3])] [0;2;1;3]));
  (*25*) AddTo n_e_cc (Times (Einsum [(T 3,[0;1;2;3]); (T 4,[0;1;3;2])] []) (-1) 2);
  (*26*) Del (T 3);
  (*27*) Del (T 4);
  (*28*) Assign (T 5) (Plain (Zeros [4;6;5;7]));
  (*29*) AddTo (T 5) (Plain (Einsum [(n_t2'abab,[0;1;2;3])] [0;1;2;3]));
  (*30*) AddTo (T 5) (Plain (Einsum [(n_t1'aa,[0;1]); (n_t1'bb,[2;3])] [0;2;1;3]));
  (*31*) AddTo n_e_cc (Plain (Einsum [(n_v'aabb'ovov,[0;1;2;3]); (T 5,[0;2;1;3])] []));
  (*32*) Del (T 5);
  (*33*) Assign (T 6) (Plain (Zeros [3]));
  (*34*) AddTo (T 6) (Plain (Einsum [(n_G,[0])] [0]));
  (*35*) AddTo (T 6) (Plain (Einsum [(n_t1'aa,[0;1]); (n_g'aa'bov,[2;0;1])] [2]));
  (*36*) AddTo (T 6) (Plain (Einsum [(n_t1'bb,[0;1]); (n_g'bb'bov,[2;0;1])] [2]));
  (*37*) AddTo n_e_cc (Plain (Einsum [(n_s1,[0]); (T 6,[0])] []));
  (*38*) Del (T 6);
  (*39*) AddTo n_e_cc (Plain (Einsum [(n_f'aa'ov,[0;1]); (n_t1'aa,[0;1])] []));
  (*40*) AddTo n_e_cc (Plain (Einsum [(n_g'bb'bov,[0;1;2]); (n_u11'bb,[0;1;2])] []));
  (*41*) AddTo n_e_cc (Plain (Einsum [(n_f'bb'ov,[0;1]); (n_t1'bb,[0;1])] []));
  (*42*) AddTo n_e_cc (Plain (Einsum [(n_g'aa'bov,[0;1;2]); (n_u11'aa,[0;1;2])] []))]
 [(n_e_cc,[])].

(** ebcc/codegen/UCCSD_SD_1_2.py:46-1825 [update_amps] *)
Definition UCCSD_SD_1_2_update_amps : prog := mkprog
 [(n_g'aa'boo,[3;4;4]); (n_g'aa'bvo,[3;5;4]); (n_g'aa'bov,[3;4;5]); (n_g'aa'bvv,[3;5;5]); (n_g'bb'boo,[3;6;6]); (n_g'bb'bvo,[3;7;6]); (n_g'bb'bov,[3;6;7]); (n_g'bb'bvv,[3;7;7]); (n_t1'aa,[4;5]); (n_v'aaaa'ovov,[4;5;4;5]); (n_t2'aaaa,[4;4;5;5]); (n_v'aaaa'ooov,[4;4;4;5]); (n_v'aaaa'ovvv,[4;5;5;5]); (n_v'aabb'ovov,[4;5;6;7]); (n_t2'abab,[4;6;5;7]); (n_v'aabb'ooov,[4;4;6;7]); (n_u12'bb,[3;3;6;7]); (n_s1,[3]); (n_t1'bb,[6;7]); (n_u11'aa,[3;4;5]); (n_u12'aa,[3;3;4;5]); (n_f'aa'ov,[4;5]); (n_t2'bbbb,[6;6;7;7]); (n_v'bbbb'ovov,[6;7;6;7]); (n_u11'bb,[3;6;7]); (n_f'bb'ov,[6;7]); (n_v'aaaa'ovvo,[4;5;5;4]); (n_v'aaaa'oovv,[4;4;5;5]); (n_f'aa'oo,[4;4]); (n_v'bbaa'ovvv,[6;7;5;5]); (n_f'aa'vv,[5;5]); (n_G,[3]); (n_s2,[3;3]); (n_v'bbbb'ooov,[6;6;6;7]); (n_v'bbbb'ovvv,[6;7;7;7]); (n_v'aabb'ovoo,[4;5;6;6]); (n_v'bbbb'ovvo,[6;7;7;6]); (n_v'bbbb'oovv,[6;6;7;7]); (n_f'bb'oo,[6;6]); (n_v'aabb'ovvv,[4;5;7;7]); (n_f'bb'vv,[7;7]); (n_v'aaaa'vovv,[5;4;5;5]); (n_v'bbaa'ovvo,[6;7;5;4]); (n_v'aaaa'oovo,[4;4;5;4]); (n_v'aaaa'oooo,[4;4;4;4]); (n_v'aaaa'vvvv,[5;5;5;5]); (n_v'bbbb'vovv,[7;6;7;7]); (n_v'aabb'ovvo,[4;5;7;6]); (n_v'bbbb'oovo,[6;6;7;6]); (n_v'bbbb'oooo,[6;6;6;6]); (n_v'bbbb'vvvv,[7;7;7;7]); (n_v'aabb'vvvv,[5;5;7;7]); (n_v'aabb'vovv,[5;4;7;7]); (n_v'aabb'oovv,[4;4;7;7]); (n_v'aabb'oooo,[4;4;6;6]); (n_v'bbaa'oovv,[6;6;5;5]); (n_v'aabb'oovo,[4;4;7;6]); (n_v'bbaa'oovo,[6;6;5;4]); (n_v'aabb'vvvo,[5;5;7;6]); (n_w,[3;3]); (n_f'aa'vo,[5;4]); (n_f'bb'vo,[7;6]); (n_v'aaaa'vovo,[5;4;5;4]); (n_v'bbbb'vovo,[7;6;7;6]); (n_v'aabb'vovo,[5;4;7;6])]
 [(*53*) Assign n_gc'aa'boo (Plain (Transpose n_g'aa'boo [0;2;1]));
  (*53*) Assign n_gc'aa'bov (Plain (Transpose n_g'aa'bvo [0;2;1]));
  (*53*) Assign n_gc'aa'bvo (Plain (Transpose n_g'aa'bov [0;2;1]));
  (*53*) Assign n_gc'aa'bvv (Plain (Transpose n_g'aa'bvv [0;2;1]));
  (*53*) Assign n_gc'bb'boo (Plain (Transpose n_g'bb'boo [0;2;1]));
  (*53*) Assign n_gc'bb'bov (Plain (Transpose n_g'bb'bvo [0;2;1]));
  (*53*) Assign n_gc'bb'bvo (Plain (Transpose n_g'bb'bov [0;2;1]));
  (*53*) Assign n_gc'bb'bvv (Plain (Transpose n_g'bb'bvv [0;2;1]));
  (*69*) Assign (T 1) (Plain (Zeros [4;4;4;5]));
  (*70*) AddTo (T 1) (Plain (Einsum [(n_t1'aa,[0;1]); (n_v'aaaa'ovov,[2;3;4;1])] [0;2;4;3]));
  (*71*) Assign (T 2) (Plain (Zeros [4;4;4;5]));
  (*72*) AddTo (T 2) (Plain (Einsum [(T 1,[0;1;2;3])] [0;1;2;3]));
  (*73*) AddTo (T 2) (Times (Einsum [(T 1,[0;1;2;3])] [0;2;1;3]) (-1) 1);
  (*74*) Assign (T 70) (Plain (Zeros [4;4;4;5]));
  (*75*) AddTo (T 70) (Plain (Einsum [(T 1,[0;1;2;3])] [0;1;2;3]));
  (*76*) SubFrom (T 70) (Plain (Einsum [(T 1,[0;1;2;3])] [0;2;1;3]));
  (*77*) Assign (T 128) (Plain (Zeros [4;4;4;4]));
  (*78*) AddTo (T 128) (Plain (Einsum [(n_t1'aa,[0;1]); (T 1,[2;3;4;1])] [2;0;4;3]));
  (*79*) Assign (T 129) (Plain (Zeros [4;4;5;5]));
  (*80*) AddTo (T 129) (Plain (Einsum [(n_t2'aaaa,[0;1;2;3]); (T 128,[4;5;0;1])] [5;4;3;2]));
  (*81*) Assign (T 133) (Plain (Zeros [4;4;5;5]));
  (*82*) AddTo (T 133) (Plain (Einsum [(T 129,[0;1;2;3])] [0;1;2;3]));
  (*83*) Del (T 129);
  (*84*) Assign (T 134) (Plain (Zeros [4;4;4;5]));
  (*85*) AddTo (T 134) (Plain (Einsum [(n_t1'aa,[0;1]); (T 128,[2;3;4;0])] [2;3;4;1]));
  (*86*) Del (T 128);
  (*87*) Assign (T 135) (Plain (Zeros [4;4;5;5]));
  (*88*) AddTo (T 135) (Plain (Einsum [(n_t1'aa,[0;1]); (T 134,[2;3;0;4])] [2;3;1;4]));
  (*89*) Del (T 134);
  (*90*) Assign (T 142) (Plain (Zeros [4;4;5;5]));
  (*91*) AddTo (T 142) (Plain (Einsum [(T 135,[0;1;2;3])] [0;1;2;3]));
  (*92*) Del (T 135);
  (*93*) Assign (T 260) (Plain (Zeros [4;4;4;5]));
  (*94*) AddTo (T 260) (Times (Einsum [(T 1,[0;1;2;3])] [1;2;0;3]) (-1) 1);
  (*95*) AddTo (T 260) (Plain (Einsum [(T 1,[0;1;2;3])] [2;1;0;3]));
  (*96*) Del (T 1);
  (*97*) AddTo (T 2) (Times (Einsum [(n_v'aaaa'ooov,[0;1;2;3])] [1;0;2;3]) (-1) 1);
  (*98*) AddTo (T 2) (Plain (Einsum [(n_v'aaaa'ooov,[0;1;2;3])] [1;2;0;3]));
  (*99*) Assign n_t1new_aa (Plain (Zeros [4;5]));
  (*100*) AddTo n_t1new_aa (Times (Einsum [(n_t2'aaaa,[0;1;2;3]); (T 2,[4;1;0;3])] [4;2]) (-1) 1);
  (*101*) Del (T 2);
  (*102*) Assign (T 3) (Plain (Zeros [4;5;5;5]));
  (*103*) AddTo (T 3) (Times (Einsum [(n_v'aaaa'ovvv,[0;1;2;3])] [0;2;1;3]) (-1) 1);
  (*104*) AddTo (T 3) (Plain (Einsum [(n_v'aaaa'ovvv,[0;1;2;3])] [0;2;3;1]));
  (*105*) Assign (T 100) (Plain (Zeros [4;4;5;5]));
  (*106*) AddTo (T 100) (Plain (Einsum [(n_t1'aa,[0;1]); (T 3,[2;3;4;1])] [0;2;3;4]));
  (*107*) Assign (T 106) (Plain (Zeros [5;5]));
  (*108*) AddTo (T 106) (Plain (Einsum [(n_t1'aa,[0;1]); (T 3,[0;2;3;1])] [2;3]));
  (*109*) Assign (T 107) (Plain (Zeros [5;5]));
  (*110*) AddTo (T 107) (Times (Einsum [(T 106,[0;1])] [0;1]) (-1) 1);
  (*111*) Del (T 106);
  (*112*) AddTo n_t1new_aa (Times (Einsum [(n_t2'aaaa,[0;1;2;3]); (T 3,[0;4;2;3])] [1;4]) (-1) 1);
  (*113*) Del (T 3);
  (*114*) Assign (T 4) (Plain (Zeros [4;4;6;7]));
  (*115*) AddTo (T 4) (Plain (Einsum [(n_t1'aa,[0;1]); (n_v'aabb'ovov,[2;1;3;4])] [0;2;3;4]));
  (*116*) Assign (T 5) (Plain (Zeros [4;4;6;7]));
  (*117*) AddTo (T 5) (Plain (Einsum [(T 4,[0;1;2;3])] [1;0;2;3]));
  (*118*) Assign (T 113) (Plain (Zeros [4;4;4;5]));
  (*119*) AddTo (T 113) (Plain (Einsum [(n_t2'abab,[0;1;2;3]); (T 4,[4;5;1;3])] [4;0;5;2]));
  (*120*) Del (T 4);
  (*121*) Assign (T 116) (Plain (Zeros [4;4;4;5]));
  (*122*) AddTo (T 116) (Plain (Einsum [(T 113,[0;1;2;3])] [0;2;1;3]));
  (*123*) Del (T 113);
  (*124*) AddTo (T 5) (Plain (Einsum [(n_v'aabb'ooov,[0;1;2;3])] [0;1;2;3]));
  (*125*) Assign (T 284) (Plain (Zeros [4;6;6;5]));
  (*126*) AddTo (T 284) (Plain (Einsum [(n_t2'abab,[0;1;2;3]); (T 5,[0;4;5;3])] [4;1;5;2]));
  (*127*) Assign (T 288) (Plain (Zeros [4;6;6;5]));
  (*128*) AddTo (T 288) (Times (Einsum [(T 284,[0;1;2;3])] [0;2;1;3]) (-1) 1);
  (*129*) Del (T 284);
  (*130*) Assign (T 375) (Plain (Zeros [3;3;4;4]));
  (*131*) AddTo (T 375) (Plain (Einsum [(n_u12'bb,[0;1;2;3]); (T 5,[4;5;2;3])] [1;0;4;5]));
  (*132*) AddTo n_t1new_aa (Times (Einsum [(n_t2'abab,[0;1;2;3]); (T 5,[0;4;1;3])] [4;2]) (-1) 1);
  (*133*) Assign (T 6) (Plain (Zeros [4;5]));
  (*134*) AddTo (T 6) (Plain (Einsum [(n_s1,[0]); (n_g'aa'bov,[0;1;2])] [1;2]));
  (*135*) Assign (T 10) (Plain (Zeros [4;5]));
  (*136*) AddTo (T 10) (Plain (Einsum [(T 6,[0;1])] [0;1]));
  (*137*) Assign (T 74) (Plain (Zeros [4;5]));
  (*138*) AddTo (T 74) (Plain (Einsum [(T 6,[0;1])] [0;1]));
  (*139*) Assign (T 298) (Plain (Zeros [4;5]));
  (*140*) AddTo (T 298) (Plain (Einsum [(T 6,[0;1])] [0;1]));
  (*141*) Assign (T 322) (Plain (Zeros [4;5]));
  (*142*) AddTo (T 322) (Plain (Einsum [(T 6,[0;1])] [0;1]));
  (*143*) Assign (T 344) (Plain (Zeros [4;5]));
  (*144*) AddTo (T 344) (Plain (Einsum [(T 6,[0;1])] [0;1]));
  (*145*) Del (T 6);
  (*146*) Assign (T 7) (Plain (Zeros [4;5]));
  (*147*) AddTo (T 7) (Plain (Einsum [(n_t1'bb,[0;1]); (n_v'aabb'ovov,[2;3;0;1])] [2;3]));
  (*148*) AddTo (T 10) (Plain (Einsum [(T 7,[0;1])] [0;1]));
  (*149*) Assign (T 98) (Plain (Zeros [4;4]));
  (*150*) AddTo (T 98) (Plain (Einsum [(n_t1'aa,[0;1]); (T 7,[2;1])] [0;2]));
  (*151*) Assign (T 99) (Plain (Zeros [4;4;5;5]));
  (*152*) AddTo (T 99) (Plain (Einsum [(T 98,[0;1]); (n_t2'aaaa,[2;1;3;4])] [0;2;3;4]));
  (*153*) Del (T 98);
  (*154*) Assign (T 120) (Plain (Zeros [4;4;5;5]));
  (*155*) AddTo (T 120) (Times (Einsum [(T 99,[0;1;2;3])] [0;1;2;3]) (-1) 1);
  (*156*) Del (T 99);
  (*157*) Assign (T 114) (Plain (Zeros [4;4;4;5]));
  (*158*) AddTo (T 114) (Plain (Einsum [(T 7,[0;1]); (n_t2'aaaa,[2;3;4;1])] [2;3;0;4]));
  (*159*) AddTo (T 116) (Times (Einsum [(T 114,[0;1;2;3])] [0;2;1;3]) (-1) 1);
  (*160*) Del (T 114);
  (*161*) AddTo (T 298) (Plain (Einsum [(T 7,[0;1])] [0;1]));
  (*162*) Assign (T 317) (Plain (Zeros [4;5]));
  (*163*) AddTo (T 317) (Plain (Einsum [(T 7,[0;1])] [0;1]));
  (*164*) Del (T 7);
  (*165*) Assign (T 8) (Plain (Zeros [4;4;5;5]));
  (*166*) AddTo (T 8) (Plain (Einsum [(n_v'aaaa'ovov,[0;1;2;3])] [2;0;1;3]));
  (*167*) AddTo (T 8) (Times (Einsum [(n_v'aaaa'ovov,[0;1;2;3])] [2;0;3;1]) (-1) 1);
  (*168*) Assign (T 9) (Plain (Zeros [4;5]));
  (*169*) AddTo (T 9) (Plain (Einsum [(n_t1'aa,[0;1]); (T 8,[0;2;1;3])] [2;3]));
  (*170*) AddTo (T 10) (Times (Einsum [(T 9,[0;1])] [0;1]) (-1) 1);
  (*171*) AddTo (T 317) (Times (Einsum [(T 9,[0;1])] [0;1]) (-1) 1);
  (*172*) Del (T 9);
  (*173*) Assign (T 318) (Plain (Zeros [5;5]));
  (*174*) AddTo (T 318) (Times (Einsum [(n_t1'aa,[0;1]); (T 317,[0;2])] [1;2]) (-1) 1);
  (*175*) Assign (T 366) (Plain (Zeros [3;4;4]));
  (*176*) AddTo (T 366) (Plain (Einsum [(T 317,[0;1]); (n_u11'aa,[2;3;1])] [2;0;3]));
  (*177*) Del (T 317);
  (*178*) Assign (T 367) (Plain (Zeros [3;3;4;5]));
  (*179*) AddTo (T 367) (Plain (Einsum [(n_u11'aa,[0;1;2]); (T 366,[3;1;4])] [3;0;4;2]));
  (*180*) Del (T 366);
  (*181*) Assign (T 368) (Plain (Zeros [3;3;4;5]));
  (*182*) AddTo (T 368) (Plain (Einsum [(T 367,[0;1;2;3])] [0;1;2;3]));
  (*183*) Del (T 367);
  (*184*) Assign (T 24) (Plain (Zeros [4;4]));
  (*185*) AddTo (T 24) (Plain (Einsum [(n_t2'aaaa,[0;1;2;3]); (T 8,[0;4;2;3])] [1;4]));
  (*186*) Assign (T 28) (Plain (Zeros [4;4]));
  (*187*) AddTo (T 28) (Times (Einsum [(T 24,[0;1])] [1;0]) (-1) 1);
  (*188*) Assign (T 118) (Plain (Zeros [4;4]));
  (*189*) AddTo (T 118) (Times (Einsum [(T 24,[0;1])] [1;0]) (-1) 1);
  (*190*) Del (T 24);
  (*191*) Assign (T 105) (Plain (Zeros [5;5]));
  (*192*) AddTo (T 105) (Plain (Einsum [(n_t2'aaaa,[0;1;2;3]); (T 8,[0;1;4;3])] [2;4]));
  (*193*) AddTo (T 107) (Times (Einsum [(T 105,[0;1])] [0;1]) (-1) 1);
  (*194*) Del (T 105);
  (*195*) Assign (T 232) (Plain (Zeros [4;6;5;7]));
  (*196*) AddTo (T 232) (Plain (Einsum [(n_t2'abab,[0;1;2;3]); (T 8,[0;4;2;5])] [4;1;5;3]));
  (*197*) Assign (T 233) (Plain (Zeros [4;6;5;7]));
  (*198*) AddTo (T 233) (Times (Einsum [(T 232,[0;1;2;3])] [0;1;2;3]) (-1) 1);
  (*199*) Del (T 232);
  (*200*) Assign (T 312) (Plain (Zeros [3;4;5]));
  (*201*) AddTo (T 312) (Plain (Einsum [(n_u11'aa,[0;1;2]); (T 8,[1;3;2;4])] [0;3;4]));
  (*202*) Assign (T 313) (Plain (Zeros [3;4;5]));
  (*203*) AddTo (T 313) (Times (Einsum [(T 312,[0;1;2])] [0;1;2]) (-1) 1);
  (*204*) Assign (T 361) (Plain (Zeros [3;4;5]));
  (*205*) AddTo (T 361) (Times (Einsum [(T 312,[0;1;2])] [0;1;2]) (-1) 1);
  (*206*) Del (T 312);
  (*207*) Assign (T 370) (Plain (Zeros [3;3;4;5]));
  (*208*) AddTo (T 370) (Plain (Einsum [(n_u12'aa,[0;1;2;3]); (T 8,[2;4;3;5])] [0;1;4;5]));
  (*209*) Del (T 8);
  (*210*) Assign (T 371) (Plain (Zeros [3;3;4;5]));
  (*211*) AddTo (T 371) (Times (Einsum [(T 370,[0;1;2;3])] [1;0;2;3]) (-1) 1);
  (*212*) Del (T 370);
  (*213*) AddTo (T 10) (Plain (Einsum [(n_f'aa'ov,[0;1])] [0;1]));
  (*214*) Assign (T 27) (Plain (Zeros [4;4]));
  (*215*) AddTo (T 27) (Plain (Einsum [(n_t1'aa,[0;1]); (T 10,[2;1])] [0;2]));
  (*216*) AddTo (T 28) (Plain (Einsum [(T 27,[0;1])] [1;0]));
  (*217*) Del (T 27);
  (*218*) Assign (T 264) (Plain (Zeros [4;4;6;7]));
  (*219*) AddTo (T 264) (Plain (Einsum [(T 10,[0;1]); (n_t2'abab,[2;3;1;4])] [2;0;3;4]));
  (*220*) Assign (T 270) (Plain (Zeros [4;4;6;7]));
  (*221*) AddTo (T 270) (Plain (Einsum [(T 264,[0;1;2;3])] [1;0;2;3]));
  (*222*) Del (T 264);
  (*223*) AddTo (T 375) (Plain (Einsum [(T 10,[0;1]); (n_u12'aa,[2;3;4;1])] [3;2;0;4]));
  (*224*) Assign n_t1new_bb (Plain (Zeros [6;7]));
  (*225*) AddTo n_t1new_bb (Plain (Einsum [(T 10,[0;1]); (n_t2'abab,[0;2;1;3])] [2;3]));
  (*226*) Assign (T 11) (Plain (Zeros [4;4;5;5]));
  (*227*) AddTo (T 11) (Plain (Einsum [(n_t2'aaaa,[0;1;2;3])] [1;0;2;3]));
  (*228*) AddTo (T 11) (Times (Einsum [(n_t2'aaaa,[0;1;2;3])] [1;0;3;2]) (-1) 1);
  (*229*) Assign (T 101) (Plain (Zeros [4;4;5;5]));
  (*230*) AddTo (T 101) (Times (Einsum [(T 11,[0;1;2;3]); (T 100,[4;0;5;2])] [4;1;5;3]) (-1) 1);
  (*231*) Del (T 100);
  (*232*) AddTo (T 120) (Times (Einsum [(T 101,[0;1;2;3])] [0;1;3;2]) (-1) 1);
  (*233*) Del (T 101);
  (*234*) AddTo n_t1new_aa (Times (Einsum [(T 10,[0;1]); (T 11,[0;2;1;3])] [2;3]) (-1) 1);
  (*235*) Del (T 10);
  (*236*) Assign (T 12) (Plain (Zeros [6;7]));
  (*237*) AddTo (T 12) (Plain (Einsum [(n_s1,[0]); (n_g'bb'bov,[0;1;2])] [1;2]));
  (*238*) Assign (T 16) (Plain (Zeros [6;7]));
  (*239*) AddTo (T 16) (Plain (Einsum [(T 12,[0;1])] [0;1]));
  (*240*) Assign (T 155) (Plain (Zeros [6;7]));
  (*241*) AddTo (T 155) (Plain (Einsum [(T 12,[0;1])] [0;1]));
  (*242*) Assign (T 297) (Plain (Zeros [6;7]));
  (*243*) AddTo (T 297) (Plain (Einsum [(T 12,[0;1])] [0;1]));
  (*244*) Assign (T 333) (Plain (Zeros [6;7]));
  (*245*) AddTo (T 333) (Plain (Einsum [(T 12,[0;1])] [0;1]));
  (*246*) Assign (T 380) (Plain (Zeros [6;7]));
  (*247*) AddTo (T 380) (Plain (Einsum [(T 12,[0;1])] [0;1]));
  (*248*) Del (T 12);
  (*249*) Assign (T 13) (Plain (Zeros [6;7]));
  (*250*) AddTo (T 13) (Plain (Einsum [(n_t1'aa,[0;1]); (n_v'aabb'ovov,[0;1;2;3])] [2;3]));
  (*251*) AddTo (T 16) (Plain (Einsum [(T 13,[0;1])] [0;1]));
  (*252*) Assign (T 194) (Plain (Zeros [6;6;6;7]));
  (*253*) AddTo (T 194) (Plain (Einsum [(T 13,[0;1]); (n_t2'bbbb,[2;3;1;4])] [3;2;0;4]));
  (*254*) Assign (T 197) (Plain (Zeros [6;6;6;7]));
  (*255*) AddTo (T 197) (Times (Einsum [(T 194,[0;1;2;3])] [0;2;1;3]) (-1) 1);
  (*256*) Del (T 194);
  (*257*) Assign (T 207) (Plain (Zeros [6;6]));
  (*258*) AddTo (T 207) (Plain (Einsum [(n_t1'bb,[0;1]); (T 13,[2;1])] [0;2]));
  (*259*) Assign (T 208) (Plain (Zeros [6;6]));
  (*260*) AddTo (T 208) (Plain (Einsum [(T 207,[0;1])] [0;1]));
  (*261*) Del (T 207);
  (*262*) AddTo (T 297) (Plain (Einsum [(T 13,[0;1])] [0;1]));
  (*263*) Assign (T 328) (Plain (Zeros [6;7]));
  (*264*) AddTo (T 328) (Plain (Einsum [(T 13,[0;1])] [0;1]));
  (*265*) Del (T 13);
  (*266*) Assign (T 14) (Plain (Zeros [6;6;7;7]));
  (*267*) AddTo (T 14) (Plain (Einsum [(n_v'bbbb'ovov,[0;1;2;3])] [2;0;1;3]));
  (*268*) AddTo (T 14) (Times (Einsum [(n_v'bbbb'ovov,[0;1;2;3])] [2;0;3;1]) (-1) 1);
  (*269*) Assign (T 15) (Plain (Zeros [6;7]));
  (*270*) AddTo (T 15) (Plain (Einsum [(n_t1'bb,[0;1]); (T 14,[0;2;1;3])] [2;3]));
  (*271*) AddTo (T 16) (Times (Einsum [(T 15,[0;1])] [0;1]) (-1) 1);
  (*272*) AddTo (T 328) (Times (Einsum [(T 15,[0;1])] [0;1]) (-1) 1);
  (*273*) Del (T 15);
  (*274*) Assign (T 329) (Plain (Zeros [7;7]));
  (*275*) AddTo (T 329) (Times (Einsum [(n_t1'bb,[0;1]); (T 328,[0;2])] [1;2]) (-1) 1);
  (*276*) Assign (T 402) (Plain (Zeros [3;6;6]));
  (*277*) AddTo (T 402) (Plain (Einsum [(T 328,[0;1]); (n_u11'bb,[2;3;1])] [2;0;3]));
  (*278*) Del (T 328);
  (*279*) Assign (T 403) (Plain (Zeros [3;6;6]));
  (*280*) AddTo (T 403) (Plain (Einsum [(T 402,[0;1;2])] [0;2;1]));
  (*281*) Del (T 402);
  (*282*) Assign (T 272) (Plain (Zeros [7;7]));
  (*283*) AddTo (T 272) (Plain (Einsum [(n_t2'bbbb,[0;1;2;3]); (T 14,[0;1;3;4])] [4;2]));
  (*284*) Assign (T 273) (Plain (Zeros [7;7]));
  (*285*) AddTo (T 273) (Times (Einsum [(T 272,[0;1])] [1;0]) (-1) 1);
  (*286*) AddTo (T 329) (Times (Einsum [(T 272,[0;1])] [1;0]) (-1) 1);
  (*287*) Del (T 272);
  (*288*) Assign (T 315) (Plain (Zeros [3;6;7]));
  (*289*) AddTo (T 315) (Plain (Einsum [(n_u11'bb,[0;1;2]); (T 14,[1;3;2;4])] [0;3;4]));
  (*290*) Assign (T 316) (Plain (Zeros [3;6;7]));
  (*291*) AddTo (T 316) (Times (Einsum [(T 315,[0;1;2])] [0;1;2]) (-1) 1);
  (*292*) Assign (T 406) (Plain (Zeros [3;3;6;6]));
  (*293*) AddTo (T 406) (Times (Einsum [(n_u11'bb,[0;1;2]); (T 315,[3;4;2])] [3;0;4;1]) (-1) 1);
  (*294*) Assign (T 407) (Plain (Zeros [3;3;6;6]));
  (*295*) AddTo (T 407) (Plain (Einsum [(T 406,[0;1;2;3])] [1;0;3;2]));
  (*296*) Del (T 406);
  (*297*) Assign (T 409) (Plain (Zeros [3;6;6]));
  (*298*) AddTo (T 409) (Times (Einsum [(n_t1'bb,[0;1]); (T 315,[2;3;1])] [2;3;0]) (-1) 1);
  (*299*) Del (T 315);
  (*300*) Assign (T 410) (Plain (Zeros [3;3;6;7]));
  (*301*) AddTo (T 410) (Plain (Einsum [(n_u11'bb,[0;1;2]); (T 409,[3;1;4])] [3;0;4;2]));
  (*302*) Del (T 409);
  (*303*) Assign (T 411) (Plain (Zeros [3;3;6;7]));
  (*304*) AddTo (T 411) (Plain (Einsum [(T 410,[0;1;2;3])] [1;0;2;3]));
  (*305*) Del (T 410);
  (*306*) Assign (T 373) (Plain (Zeros [3;3;6;7]));
  (*307*) AddTo (T 373) (Plain (Einsum [(n_u12'bb,[0;1;2;3]); (T 14,[2;4;3;5])] [0;1;4;5]));
  (*308*) Del (T 14);
  (*309*) Assign (T 374) (Plain (Zeros [3;3;6;7]));
  (*310*) AddTo (T 374) (Times (Einsum [(T 373,[0;1;2;3])] [1;0;2;3]) (-1) 1);
  (*311*) Del (T 373);
  (*312*) AddTo (T 16) (Plain (Einsum [(n_f'bb'ov,[0;1])] [0;1]));
  (*313*) Assign (T 54) (Plain (Zeros [6;6]));
  (*314*) AddTo (T 54) (Plain (Einsum [(n_t1'bb,[0;1]); (T 16,[2;1])] [0;2]));
  (*315*) Assign (T 55) (Plain (Zeros [6;6]));
  (*316*) AddTo (T 55) (Plain (Einsum [(T 54,[0;1])] [1;0]));
  (*317*) Del (T 54);
  (*318*) Assign (T 285) (Plain (Zeros [4;6;6;5]));
  (*319*) AddTo (T 285) (Plain (Einsum [(T 16,[0;1]); (n_t2'abab,[2;3;4;1])] [2;3;0;4]));
  (*320*) AddTo (T 288) (Plain (Einsum [(T 285,[0;1;2;3])] [0;2;1;3]));
  (*321*) Del (T 285);
  (*322*) Assign (T 414) (Plain (Zeros [3;3;6;6]));
  (*323*) AddTo (T 414) (Plain (Einsum [(T 16,[0;1]); (n_u12'bb,[2;3;4;1])] [3;2;0;4]));
  (*324*) AddTo n_t1new_aa (Plain (Einsum [(T 16,[0;1]); (n_t2'abab,[2;0;3;1])] [2;3]));
  (*325*) Assign (T 17) (Plain (Zeros [4;4;5;5]));
  (*326*) AddTo (T 17) (Plain (Einsum [(n_v'aaaa'ovvo,[0;1;2;3])] [0;3;2;1]));
  (*327*) SubFrom (T 17) (Plain (Einsum [(n_v'aaaa'oovv,[0;1;2;3])] [0;1;2;3]));
  (*328*) Assign (T 76) (Plain (Zeros [4;4;4;5]));
  (*329*) AddTo (T 76) (Plain (Einsum [(n_t1'aa,[0;1]); (T 17,[2;3;4;1])] [0;2;3;4]));
  (*330*) Assign (T 77) (Plain (Zeros [4;4;4;5]));
  (*331*) SubFrom (T 77) (Plain (Einsum [(T 76,[0;1;2;3])] [1;0;2;3]));
  (*332*) Del (T 76);
  (*333*) AddTo n_t1new_aa (Plain (Einsum [(n_t1'aa,[0;1]); (T 17,[0;2;3;1])] [2;3]));
  (*334*) Assign n_u11new_aa (Plain (Zeros [3;4;5]));
  (*335*) AddTo n_u11new_aa (Plain (Einsum [(n_u11'aa,[0;1;2]); (T 17,[1;3;4;2])] [0;3;4]));
  (*336*) Assign (T 18) (Plain (Zeros [3;4;4]));
  (*337*) AddTo (T 18) (Plain (Einsum [(n_t1'aa,[0;1]); (n_g'aa'bov,[2;3;1])] [2;3;0]));
  (*338*) Assign (T 19) (Plain (Zeros [3;4;4]));
  (*339*) AddTo (T 19) (Plain (Einsum [(T 18,[0;1;2])] [0;1;2]));
  (*340*) Del (T 18);
  (*341*) AddTo (T 19) (Plain (Einsum [(n_g'aa'boo,[0;1;2])] [0;1;2]));
  (*342*) Assign (T 85) (Plain (Zeros [3;4;5]));
  (*343*) AddTo (T 85) (Plain (Einsum [(n_t1'aa,[0;1]); (T 19,[2;0;3])] [2;3;1]));
  (*344*) Assign (T 86) (Plain (Zeros [3;4;5]));
  (*345*) SubFrom (T 86) (Plain (Einsum [(T 85,[0;1;2])] [0;1;2]));
  (*346*) Del (T 85);
  (*347*) SubFrom n_t1new_aa (Plain (Einsum [(n_u11'aa,[0;1;2]); (T 19,[0;1;3])] [3;2]));
  (*348*) SubFrom n_u11new_aa (Plain (Einsum [(T 19,[0;1;2]); (n_u12'aa,[0;3;1;4])] [3;2;4]));
  (*349*) Del (T 19);
  (*350*) Assign (T 20) (Plain (Zeros [4;4]));
  (*351*) AddTo (T 20) (Plain (Einsum [(n_s1,[0]); (n_g'aa'boo,[0;1;2])] [1;2]));
  (*352*) AddTo (T 28) (Plain (Einsum [(T 20,[0;1])] [0;1]));
  (*353*) Assign (T 80) (Plain (Zeros [4;4]));
  (*354*) AddTo (T 80) (Plain (Einsum [(T 20,[0;1])] [1;0]));
  (*355*) Del (T 20);
  (*356*) Assign (T 21) (Plain (Zeros [4;4]));
  (*357*) AddTo (T 21) (Plain (Einsum [(n_g'aa'bov,[0;1;2]); (n_u11'aa,[0;3;2])] [1;3]));
  (*358*) AddTo (T 28) (Plain (Einsum [(T 21,[0;1])] [0;1]));
  (*359*) Assign (T 93) (Plain (Zeros [4;4]));
  (*360*) AddTo (T 93) (Plain (Einsum [(T 21,[0;1])] [0;1]));
  (*361*) Del (T 21);
  (*362*) Assign (T 22) (Plain (Zeros [4;4]));
  (*363*) AddTo (T 22) (Plain (Einsum [(n_t1'bb,[0;1]); (n_v'aabb'ooov,[2;3;0;1])] [2;3]));
  (*364*) AddTo (T 28) (Plain (Einsum [(T 22,[0;1])] [0;1]));
  (*365*) AddTo (T 93) (Plain (Einsum [(T 22,[0;1])] [0;1]));
  (*366*) Del (T 22);
  (*367*) Assign (T 94) (Plain (Zeros [4;4;5;5]));
  (*368*) AddTo (T 94) (Plain (Einsum [(T 93,[0;1]); (n_t2'aaaa,[0;2;3;4])] [1;2;3;4]));
  (*369*) Del (T 93);
  (*370*) Assign (T 95) (Plain (Zeros [4;4;5;5]));
  (*371*) SubFrom (T 95) (Plain (Einsum [(T 94,[0;1;2;3])] [1;0;3;2]));
  (*372*) Del (T 94);
  (*373*) Assign (T 23) (Plain (Zeros [4;4]));
  (*374*) AddTo (T 23) (Plain (Einsum [(n_t2'abab,[0;1;2;3]); (n_v'aabb'ovov,[4;2;1;3])] [0;4]));
  (*375*) AddTo (T 28) (Plain (Einsum [(T 23,[0;1])] [1;0]));
  (*376*) AddTo (T 118) (Plain (Einsum [(T 23,[0;1])] [1;0]));
  (*377*) Del (T 23);
  (*378*) Assign (T 25) (Plain (Zeros [4;4;4;5]));
  (*379*) AddTo (T 25) (Plain (Einsum [(n_v'aaaa'ooov,[0;1;2;3])] [0;2;1;3]));
  (*380*) AddTo (T 25) (Times (Einsum [(n_v'aaaa'ooov,[0;1;2;3])] [2;0;1;3]) (-1) 1);
  (*381*) Assign (T 26) (Plain (Zeros [4;4]));
  (*382*) AddTo (T 26) (Plain (Einsum [(n_t1'aa,[0;1]); (T 25,[0;2;3;1])] [2;3]));
  (*383*) AddTo (T 28) (Times (Einsum [(T 26,[0;1])] [0;1]) (-1) 1);
  (*384*) AddTo (T 118) (Times (Einsum [(T 26,[0;1])] [0;1]) (-1) 1);
  (*385*) Del (T 26);
  (*386*) Assign (T 119) (Plain (Zeros [4;4;5;5]));
  (*387*) AddTo (T 119) (Plain (Einsum [(T 118,[0;1]); (n_t2'aaaa,[0;2;3;4])] [1;2;3;4]));
  (*388*) Del (T 118);
  (*389*) AddTo (T 120) (Plain (Einsum [(T 119,[0;1;2;3])] [1;0;3;2]));
  (*390*) Del (T 119);
  (*391*) Assign (T 115) (Plain (Zeros [4;4;4;5]));
  (*392*) AddTo (T 115) (Plain (Einsum [(T 11,[0;1;2;3]); (T 25,[4;0;5;2])] [1;4;5;3]));
  (*393*) AddTo (T 116) (Plain (Einsum [(T 115,[0;1;2;3])] [0;1;2;3]));
  (*394*) Del (T 115);
  (*395*) Assign (T 323) (Plain (Zeros [3;4;4]));
  (*396*) AddTo (T 323) (Times (Einsum [(n_u11'aa,[0;1;2]); (T 25,[1;3;4;2])] [0;3;4]) (-1) 1);
  (*397*) Del (T 25);
  (*398*) AddTo (T 28) (Plain (Einsum [(n_f'aa'oo,[0;1])] [0;1]));
  (*399*) Assign (T 291) (Plain (Zeros [4;6;5;7]));
  (*400*) AddTo (T 291) (Plain (Einsum [(T 28,[0;1]); (n_t2'abab,[0;2;3;4])] [1;2;3;4]));
  (*401*) Assign n_t2new_baba (Plain (Zeros [6;4;7;5]));
  (*402*) AddTo n_t2new_baba (Times (Einsum [(T 291,[0;1;2;3])] [1;0;3;2]) (-1) 1);
  (*403*) Assign n_t2new_abab (Plain (Zeros [4;6;5;7]));
  (*404*) AddTo n_t2new_abab (Times (Einsum [(T 291,[0;1;2;3])] [0;1;2;3]) (-1) 1);
  (*405*) Del (T 291);
  (*406*) AddTo n_t1new_aa (Times (Einsum [(n_t1'aa,[0;1]); (T 28,[0;2])] [2;1]) (-1) 1);
  (*407*) AddTo n_u11new_aa (Times (Einsum [(T 28,[0;1]); (n_u11'aa,[2;0;3])] [2;1;3]) (-1) 1);
  (*408*) Assign n_u12new_aa (Plain (Zeros [3;3;4;5]));
  (*409*) AddTo n_u12new_aa (Times (Einsum [(T 28,[0;1]); (n_u12'aa,[2;3;0;4])] [3;2;1;4]) (-1) 1);
  (*410*) Del (T 28);
  (*411*) Assign (T 29) (Plain (Zeros [5;5]));
  (*412*) AddTo (T 29) (Plain (Einsum [(n_s1,[0]); (n_g'aa'bvv,[0;1;2])] [1;2]));
  (*413*) Assign (T 33) (Plain (Zeros [5;5]));
  (*414*) AddTo (T 33) (Plain (Einsum [(T 29,[0;1])] [0;1]));
  (*415*) Assign (T 88) (Plain (Zeros [5;5]));
  (*416*) AddTo (T 88) (Plain (Einsum [(T 29,[0;1])] [0;1]));
  (*417*) Assign (T 277) (Plain (Zeros [5;5]));
  (*418*) AddTo (T 277) (Plain (Einsum [(T 29,[0;1])] [0;1]));
  (*419*) AddTo (T 318) (Plain (Einsum [(T 29,[0;1])] [0;1]));
  (*420*) Del (T 29);
  (*421*) Assign (T 30) (Plain (Zeros [5;5]));
  (*422*) AddTo (T 30) (Plain (Einsum [(n_t1'bb,[0;1]); (n_v'bbaa'ovvv,[0;1;2;3])] [2;3]));
  (*423*) AddTo (T 33) (Plain (Einsum [(T 30,[0;1])] [0;1]));
  (*424*) Assign (T 91) (Plain (Zeros [5;5]));
  (*425*) SubFrom (T 91) (Plain (Einsum [(T 30,[0;1])] [1;0]));
  (*426*) AddTo (T 277) (Plain (Einsum [(T 30,[0;1])] [0;1]));
  (*427*) AddTo (T 318) (Plain (Einsum [(T 30,[0;1])] [0;1]));
  (*428*) Del (T 30);
  (*429*) Assign (T 31) (Plain (Zeros [4;5;5;5]));
  (*430*) AddTo (T 31) (Plain (Einsum [(n_v'aaaa'ovvv,[0;1;2;3])] [0;2;1;3]));
  (*431*) AddTo (T 31) (Times (Einsum [(n_v'aaaa'ovvv,[0;1;2;3])] [0;2;3;1]) (-1) 1);
  (*432*) Assign (T 32) (Plain (Zeros [5;5]));
  (*433*) AddTo (T 32) (Plain (Einsum [(n_t1'aa,[0;1]); (T 31,[0;2;3;1])] [2;3]));
  (*434*) Del (T 31);
  (*435*) AddTo (T 33) (Times (Einsum [(T 32,[0;1])] [0;1]) (-1) 1);
  (*436*) AddTo (T 277) (Times (Einsum [(T 32,[0;1])] [0;1]) (-1) 1);
  (*437*) AddTo (T 318) (Times (Einsum [(T 32,[0;1])] [0;1]) (-1) 1);
  (*438*) Del (T 32);
  (*439*) AddTo (T 33) (Plain (Einsum [(n_f'aa'vv,[0;1])] [0;1]));
  (*440*) AddTo n_t1new_aa (Plain (Einsum [(n_t1'aa,[0;1]); (T 33,[2;1])] [0;2]));
  (*441*) Del (T 33);
  (*442*) Assign (T 34) (Plain (Zeros [3]));
  (*443*) AddTo (T 34) (Plain (Einsum [(n_t1'aa,[0;1]); (n_g'aa'bov,[2;0;1])] [2]));
  (*444*) Assign (T 36) (Plain (Zeros [3]));
  (*445*) AddTo (T 36) (Plain (Einsum [(T 34,[0])] [0]));
  (*446*) Del (T 34);
  (*447*) Assign (T 35) (Plain (Zeros [3]));
  (*448*) AddTo (T 35) (Plain (Einsum [(n_t1'bb,[0;1]); (n_g'bb'bov,[2;0;1])] [2]));
  (*449*) AddTo (T 36) (Plain (Einsum [(T 35,[0])] [0]));
  (*450*) Del (T 35);
  (*451*) AddTo (T 36) (Plain (Einsum [(n_G,[0])] [0]));
  (*452*) AddTo n_t1new_aa (Plain (Einsum [(T 36,[0]); (n_u11'aa,[0;1;2])] [1;2]));
  (*453*) AddTo n_t1new_bb (Plain (Einsum [(T 36,[0]); (n_u11'bb,[0;1;2])] [1;2]));
  (*454*) Assign n_s1new (Plain (Zeros [3]));
  (*455*) AddTo n_s1new (Plain (Einsum [(T 36,[0]); (n_s2,[0;1])] [1]));
  (*456*) AddTo n_u11new_aa (Plain (Einsum [(T 36,[0]); (n_u12'aa,[0;1;2;3])] [1;2;3]));
  (*457*) Assign n_u11new_bb (Plain (Zeros [3;6;7]));
  (*458*) AddTo n_u11new_bb (Plain (Einsum [(T 36,[0]); (n_u12'bb,[0;1;2;3])] [1;2;3]));
  (*459*) Del (T 36);
  (*460*) Assign (T 37) (Plain (Zeros [6;6;6;7]));
  (*461*) AddTo (T 37) (Plain (Einsum [(n_t1'bb,[0;1]); (n_v'bbbb'ovov,[2;3;4;1])] [0;2;4;3]));
  (*462*) Assign (T 38) (Plain (Zeros [6;6;6;7]));
  (*463*) AddTo (T 38) (Times (Einsum [(T 37,[0;1;2;3])] [0;1;2;3]) (-1) 1);
  (*464*) AddTo (T 38) (Plain (Einsum [(T 37,[0;1;2;3])] [0;2;1;3]));
  (*465*) Assign (T 152) (Plain (Zeros [6;6;6;7]));
  (*466*) SubFrom (T 152) (Plain (Einsum [(T 37,[0;1;2;3])] [0;1;2;3]));
  (*467*) AddTo (T 152) (Plain (Einsum [(T 37,[0;1;2;3])] [0;2;1;3]));
  (*468*) Assign (T 217) (Plain (Zeros [6;6;6;6]));
  (*469*) AddTo (T 217) (Plain (Einsum [(n_t1'bb,[0;1]); (T 37,[2;3;4;1])] [2;0;4;3]));
  (*470*) Assign (T 218) (Plain (Zeros [6;6;6;6]));
  (*471*) AddTo (T 218) (Plain (Einsum [(T 217,[0;1;2;3])] [0;1;2;3]));
  (*472*) Assign (T 224) (Plain (Zeros [6;6;6;7]));
  (*473*) AddTo (T 224) (Plain (Einsum [(n_t1'bb,[0;1]); (T 217,[2;3;4;0])] [2;3;4;1]));
  (*474*) Del (T 217);
  (*475*) Assign (T 225) (Plain (Zeros [6;6;7;7]));
  (*476*) AddTo (T 225) (Plain (Einsum [(n_t1'bb,[0;1]); (T 224,[2;3;0;4])] [2;3;1;4]));
  (*477*) Del (T 224);
  (*478*) Assign (T 229) (Plain (Zeros [6;6;7;7]));
  (*479*) AddTo (T 229) (Plain (Einsum [(T 225,[0;1;2;3])] [0;1;2;3]));
  (*480*) Del (T 225);
  (*481*) Assign (T 281) (Plain (Zeros [6;6;6;7]));
  (*482*) AddTo (T 281) (Times (Einsum [(T 37,[0;1;2;3])] [1;2;0;3]) (-1) 1);
  (*483*) AddTo (T 281) (Plain (Einsum [(T 37,[0;1;2;3])] [2;1;0;3]));
  (*484*) Del (T 37);
  (*485*) AddTo (T 38) (Plain (Einsum [(n_v'bbbb'ooov,[0;1;2;3])] [1;0;2;3]));
  (*486*) AddTo (T 38) (Times (Einsum [(n_v'bbbb'ooov,[0;1;2;3])] [1;2;0;3]) (-1) 1);
  (*487*) AddTo n_t1new_bb (Times (Einsum [(n_t2'bbbb,[0;1;2;3]); (T 38,[4;0;1;3])] [4;2]) (-1) 1);
  (*488*) Del (T 38);
  (*489*) Assign (T 39) (Plain (Zeros [6;7;7;7]));
  (*490*) AddTo (T 39) (Times (Einsum [(n_v'bbbb'ovvv,[0;1;2;3])] [0;2;1;3]) (-1) 1);
  (*491*) AddTo (T 39) (Plain (Einsum [(n_v'bbbb'ovvv,[0;1;2;3])] [0;2;3;1]));
  (*492*) Assign (T 58) (Plain (Zeros [7;7]));
  (*493*) AddTo (T 58) (Plain (Einsum [(n_t1'bb,[0;1]); (T 39,[0;2;1;3])] [2;3]));
  (*494*) Assign (T 59) (Plain (Zeros [7;7]));
  (*495*) AddTo (T 59) (Times (Einsum [(T 58,[0;1])] [0;1]) (-1) 1);
  (*496*) AddTo (T 273) (Times (Einsum [(T 58,[0;1])] [0;1]) (-1) 1);
  (*497*) AddTo (T 329) (Times (Einsum [(T 58,[0;1])] [0;1]) (-1) 1);
  (*498*) Del (T 58);
  (*499*) AddTo n_t1new_bb (Times (Einsum [(n_t2'bbbb,[0;1;2;3]); (T 39,[0;4;2;3])] [1;4]) (-1) 1);
  (*500*) Del (T 39);
  (*501*) Assign (T 40) (Plain (Zeros [4;6;6;5]));
  (*502*) AddTo (T 40) (Plain (Einsum [(n_t1'bb,[0;1]); (n_v'aabb'ovov,[2;3;4;1])] [2;0;4;3]));
  (*503*) Assign (T 41) (Plain (Zeros [4;6;6;5]));
  (*504*) AddTo (T 41) (Plain (Einsum [(T 40,[0;1;2;3])] [0;2;1;3]));
  (*505*) Assign (T 193) (Plain (Zeros [6;6;6;7]));
  (*506*) AddTo (T 193) (Plain (Einsum [(n_t2'abab,[0;1;2;3]); (T 40,[0;4;5;2])] [4;1;5;3]));
  (*507*) AddTo (T 197) (Plain (Einsum [(T 193,[0;1;2;3])] [0;2;1;3]));
  (*508*) Del (T 193);
  (*509*) Assign (T 251) (Plain (Zeros [4;6;6;5]));
  (*510*) AddTo (T 251) (Plain (Einsum [(T 40,[0;1;2;3])] [0;2;1;3]));
  (*511*) Del (T 40);
  (*512*) AddTo (T 41) (Plain (Einsum [(n_v'aabb'ovoo,[0;1;2;3])] [0;2;3;1]));
  (*513*) Assign (T 263) (Plain (Zeros [4;4;6;7]));
  (*514*) AddTo (T 263) (Plain (Einsum [(n_t2'abab,[0;1;2;3]); (T 41,[4;1;5;2])] [0;4;5;3]));
  (*515*) AddTo (T 270) (Times (Einsum [(T 263,[0;1;2;3])] [1;0;2;3]) (-1) 1);
  (*516*) Del (T 263);
  (*517*) Assign (T 265) (Plain (Zeros [4;4;6;6]));
  (*518*) AddTo (T 265) (Plain (Einsum [(n_t1'aa,[0;1]); (T 41,[2;3;4;1])] [0;2;3;4]));
  (*519*) Assign (T 266) (Plain (Zeros [4;4;6;6]));
  (*520*) AddTo (T 266) (Plain (Einsum [(T 265,[0;1;2;3])] [1;0;2;3]));
  (*521*) Del (T 265);
  (*522*) Assign (T 283) (Plain (Zeros [4;6;6;5]));
  (*523*) AddTo (T 283) (Plain (Einsum [(T 11,[0;1;2;3]); (T 41,[0;4;5;2])] [1;4;5;3]));
  (*524*) AddTo (T 288) (Times (Einsum [(T 283,[0;1;2;3])] [0;1;2;3]) (-1) 1);
  (*525*) Del (T 283);
  (*526*) AddTo (T 414) (Plain (Einsum [(n_u12'aa,[0;1;2;3]); (T 41,[2;4;5;3])] [1;0;4;5]));
  (*527*) AddTo n_t1new_bb (Times (Einsum [(n_t2'abab,[0;1;2;3]); (T 41,[0;1;4;2])] [4;3]) (-1) 1);
  (*528*) Del (T 41);
  (*529*) Assign (T 42) (Plain (Zeros [6;6;7;7]));
  (*530*) AddTo (T 42) (Plain (Einsum [(n_t2'bbbb,[0;1;2;3])] [1;0;2;3]));
  (*531*) AddTo (T 42) (Times (Einsum [(n_t2'bbbb,[0;1;2;3])] [1;0;3;2]) (-1) 1);
  (*532*) Assign (T 187) (Plain (Zeros [4;6;5;7]));
  (*533*) AddTo (T 187) (Plain (Einsum [(n_v'aabb'ovov,[0;1;2;3]); (T 42,[2;4;3;5])] [0;4;1;5]));
  (*534*) Assign (T 188) (Plain (Zeros [6;6;7;7]));
  (*535*) AddTo (T 188) (Times (Einsum [(n_t2'abab,[0;1;2;3]); (T 187,[0;4;2;5])] [4;1;5;3]) (-1) 1);
  (*536*) Assign (T 210) (Plain (Zeros [6;6;7;7]));
  (*537*) AddTo (T 210) (Times (Einsum [(T 188,[0;1;2;3])] [1;0;3;2]) (-1) 1);
  (*538*) Del (T 188);
  (*539*) AddTo (T 233) (Times (Einsum [(T 187,[0;1;2;3])] [0;1;2;3]) (-1) 1);
  (*540*) Del (T 187);
  (*541*) Assign (T 262) (Plain (Zeros [4;4;6;7]));
  (*542*) AddTo (T 262) (Plain (Einsum [(T 5,[0;1;2;3]); (T 42,[2;4;3;5])] [0;1;4;5]));
  (*543*) Del (T 5);
  (*544*) AddTo (T 270) (Times (Einsum [(T 262,[0;1;2;3])] [0;1;2;3]) (-1) 1);
  (*545*) Del (T 262);
  (*546*) AddTo n_t1new_bb (Times (Einsum [(T 16,[0;1]); (T 42,[0;2;1;3])] [2;3]) (-1) 1);
  (*547*) Del (T 16);
  (*548*) Assign (T 43) (Plain (Zeros [6;6;7;7]));
  (*549*) AddTo (T 43) (Plain (Einsum [(n_v'bbbb'ovvo,[0;1;2;3])] [0;3;2;1]));
  (*550*) SubFrom (T 43) (Plain (Einsum [(n_v'bbbb'oovv,[0;1;2;3])] [0;1;2;3]));
  (*551*) Assign (T 157) (Plain (Zeros [6;6;6;7]));
  (*552*) AddTo (T 157) (Plain (Einsum [(n_t1'bb,[0;1]); (T 43,[2;3;4;1])] [0;2;3;4]));
  (*553*) Assign (T 158) (Plain (Zeros [6;6;6;7]));
  (*554*) SubFrom (T 158) (Plain (Einsum [(T 157,[0;1;2;3])] [1;0;2;3]));
  (*555*) Del (T 157);
  (*556*) AddTo n_t1new_bb (Plain (Einsum [(n_t1'bb,[0;1]); (T 43,[0;2;3;1])] [2;3]));
  (*557*) AddTo n_u11new_bb (Plain (Einsum [(n_u11'bb,[0;1;2]); (T 43,[1;3;4;2])] [0;3;4]));
  (*558*) Assign (T 44) (Plain (Zeros [3;6;6]));
  (*559*) AddTo (T 44) (Plain (Einsum [(n_t1'bb,[0;1]); (n_g'bb'bov,[2;3;1])] [2;3;0]));
  (*560*) Assign (T 45) (Plain (Zeros [3;6;6]));
  (*561*) AddTo (T 45) (Plain (Einsum [(T 44,[0;1;2])] [0;1;2]));
  (*562*) Del (T 44);
  (*563*) AddTo (T 45) (Plain (Einsum [(n_g'bb'boo,[0;1;2])] [0;1;2]));
  (*564*) Assign (T 167) (Plain (Zeros [3;6;7]));
  (*565*) AddTo (T 167) (Plain (Einsum [(n_t1'bb,[0;1]); (T 45,[2;0;3])] [2;3;1]));
  (*566*) Assign (T 168) (Plain (Zeros [3;6;7]));
  (*567*) SubFrom (T 168) (Plain (Einsum [(T 167,[0;1;2])] [0;1;2]));
  (*568*) Del (T 167);
  (*569*) SubFrom n_t1new_bb (Plain (Einsum [(n_u11'bb,[0;1;2]); (T 45,[0;1;3])] [3;2]));
  (*570*) SubFrom n_u11new_bb (Plain (Einsum [(T 45,[0;1;2]); (n_u12'bb,[0;3;1;4])] [3;2;4]));
  (*571*) Del (T 45);
  (*572*) Assign (T 46) (Plain (Zeros [6;6]));
  (*573*) AddTo (T 46) (Plain (Einsum [(n_s1,[0]); (n_g'bb'boo,[0;1;2])] [1;2]));
  (*574*) AddTo (T 55) (Plain (Einsum [(T 46,[0;1])] [0;1]));
  (*575*) Assign (T 161) (Plain (Zeros [6;6]));
  (*576*) AddTo (T 161) (Plain (Einsum [(T 46,[0;1])] [1;0]));
  (*577*) Del (T 46);
  (*578*) Assign (T 47) (Plain (Zeros [6;6]));
  (*579*) AddTo (T 47) (Plain (Einsum [(n_g'bb'bov,[0;1;2]); (n_u11'bb,[0;3;2])] [1;3]));
  (*580*) AddTo (T 55) (Plain (Einsum [(T 47,[0;1])] [0;1]));
  (*581*) Assign (T 175) (Plain (Zeros [6;6]));
  (*582*) AddTo (T 175) (Plain (Einsum [(T 47,[0;1])] [0;1]));
  (*583*) Del (T 47);
  (*584*) Assign (T 48) (Plain (Zeros [6;6]));
  (*585*) AddTo (T 48) (Plain (Einsum [(n_t1'aa,[0;1]); (n_v'aabb'ovoo,[0;1;2;3])] [2;3]));
  (*586*) AddTo (T 55) (Plain (Einsum [(T 48,[0;1])] [0;1]));
  (*587*) AddTo (T 175) (Plain (Einsum [(T 48,[0;1])] [0;1]));
  (*588*) Del (T 48);
  (*589*) Assign (T 176) (Plain (Zeros [6;6;7;7]));
  (*590*) AddTo (T 176) (Plain (Einsum [(T 175,[0;1]); (n_t2'bbbb,[0;2;3;4])] [1;2;3;4]));
  (*591*) Del (T 175);
  (*592*) Assign (T 177) (Plain (Zeros [6;6;7;7]));
  (*593*) SubFrom (T 177) (Plain (Einsum [(T 176,[0;1;2;3])] [1;0;3;2]));
  (*594*) Del (T 176);
  (*595*) Assign (T 49) (Plain (Zeros [6;6]));
  (*596*) AddTo (T 49) (Plain (Einsum [(n_t2'abab,[0;1;2;3]); (n_v'aabb'ovov,[0;2;4;3])] [1;4]));
  (*597*) AddTo (T 55) (Plain (Einsum [(T 49,[0;1])] [1;0]));
  (*598*) AddTo (T 208) (Plain (Einsum [(T 49,[0;1])] [0;1]));
  (*599*) Del (T 49);
  (*600*) Assign (T 209) (Plain (Zeros [6;6;7;7]));
  (*601*) AddTo (T 209) (Plain (Einsum [(T 208,[0;1]); (n_t2'bbbb,[1;2;3;4])] [0;2;3;4]));
  (*602*) Del (T 208);
  (*603*) AddTo (T 210) (Times (Einsum [(T 209,[0;1;2;3])] [0;1;3;2]) (-1) 1);
  (*604*) Del (T 209);
  (*605*) Assign (T 50) (Plain (Zeros [6;6;7;7]));
  (*606*) AddTo (T 50) (Times (Einsum [(n_v'bbbb'ovov,[0;1;2;3])] [2;0;1;3]) (-1) 1);
  (*607*) AddTo (T 50) (Plain (Einsum [(n_v'bbbb'ovov,[0;1;2;3])] [2;0;3;1]));
  (*608*) Assign (T 51) (Plain (Zeros [6;6]));
  (*609*) AddTo (T 51) (Plain (Einsum [(n_t2'bbbb,[0;1;2;3]); (T 50,[0;4;3;2])] [1;4]));
  (*610*) AddTo (T 55) (Times (Einsum [(T 51,[0;1])] [1;0]) (-1) 1);
  (*611*) Del (T 51);
  (*612*) Assign (T 199) (Plain (Zeros [7;7]));
  (*613*) AddTo (T 199) (Plain (Einsum [(n_t2'bbbb,[0;1;2;3]); (T 50,[0;1;3;4])] [2;4]));
  (*614*) Assign (T 201) (Plain (Zeros [7;7]));
  (*615*) AddTo (T 201) (Times (Einsum [(T 199,[0;1])] [0;1]) (-1) 1);
  (*616*) Del (T 199);
  (*617*) Assign (T 203) (Plain (Zeros [6;6]));
  (*618*) AddTo (T 203) (Plain (Einsum [(n_t2'bbbb,[0;1;2;3]); (T 50,[0;4;2;3])] [1;4]));
  (*619*) Assign (T 205) (Plain (Zeros [6;6]));
  (*620*) AddTo (T 205) (Times (Einsum [(T 203,[0;1])] [1;0]) (-1) 1);
  (*621*) Del (T 203);
  (*622*) Assign (T 236) (Plain (Zeros [6;6;7;7]));
  (*623*) AddTo (T 236) (Plain (Einsum [(T 42,[0;1;2;3]); (T 50,[0;4;5;2])] [1;4;3;5]));
  (*624*) Del (T 50);
  (*625*) Assign (T 237) (Plain (Zeros [6;6;7;7]));
  (*626*) AddTo (T 237) (Plain (Einsum [(T 236,[0;1;2;3])] [1;0;2;3]));
  (*627*) Del (T 236);
  (*628*) Assign (T 52) (Plain (Zeros [6;6;6;7]));
  (*629*) AddTo (T 52) (Plain (Einsum [(n_v'bbbb'ooov,[0;1;2;3])] [0;2;1;3]));
  (*630*) AddTo (T 52) (Times (Einsum [(n_v'bbbb'ooov,[0;1;2;3])] [2;0;1;3]) (-1) 1);
  (*631*) Assign (T 53) (Plain (Zeros [6;6]));
  (*632*) AddTo (T 53) (Plain (Einsum [(n_t1'bb,[0;1]); (T 52,[0;2;3;1])] [2;3]));
  (*633*) AddTo (T 55) (Times (Einsum [(T 53,[0;1])] [0;1]) (-1) 1);
  (*634*) Del (T 53);
  (*635*) Assign (T 334) (Plain (Zeros [3;6;6]));
  (*636*) AddTo (T 334) (Times (Einsum [(n_u11'bb,[0;1;2]); (T 52,[1;3;4;2])] [0;3;4]) (-1) 1);
  (*637*) Del (T 52);
  (*638*) AddTo (T 55) (Plain (Einsum [(n_f'bb'oo,[0;1])] [0;1]));
  (*639*) Assign (T 290) (Plain (Zeros [4;6;5;7]));
  (*640*) AddTo (T 290) (Plain (Einsum [(T 55,[0;1]); (n_t2'abab,[2;0;3;4])] [2;1;3;4]));
  (*641*) AddTo n_t2new_baba (Times (Einsum [(T 290,[0;1;2;3])] [1;0;3;2]) (-1) 1);
  (*642*) AddTo n_t2new_abab (Times (Einsum [(T 290,[0;1;2;3])] [0;1;2;3]) (-1) 1);
  (*643*) Del (T 290);
  (*644*) AddTo n_t1new_bb (Times (Einsum [(n_t1'bb,[0;1]); (T 55,[0;2])] [2;1]) (-1) 1);
  (*645*) AddTo n_u11new_bb (Times (Einsum [(T 55,[0;1]); (n_u11'bb,[2;0;3])] [2;1;3]) (-1) 1);
  (*646*) Assign n_u12new_bb (Plain (Zeros [3;3;6;7]));
  (*647*) AddTo n_u12new_bb (Times (Einsum [(T 55,[0;1]); (n_u12'bb,[2;3;0;4])] [3;2;1;4]) (-1) 1);
  (*648*) Del (T 55);
  (*649*) Assign (T 56) (Plain (Zeros [7;7]));
  (*650*) AddTo (T 56) (Plain (Einsum [(n_s1,[0]); (n_g'bb'bvv,[0;1;2])] [1;2]));
  (*651*) AddTo (T 59) (Plain (Einsum [(T 56,[0;1])] [0;1]));
  (*652*) Assign (T 170) (Plain (Zeros [7;7]));
  (*653*) AddTo (T 170) (Plain (Einsum [(T 56,[0;1])] [0;1]));
  (*654*) AddTo (T 273) (Plain (Einsum [(T 56,[0;1])] [0;1]));
  (*655*) AddTo (T 329) (Plain (Einsum [(T 56,[0;1])] [0;1]));
  (*656*) Del (T 56);
  (*657*) Assign (T 57) (Plain (Zeros [7;7]));
  (*658*) AddTo (T 57) (Plain (Einsum [(n_t1'aa,[0;1]); (n_v'aabb'ovvv,[0;1;2;3])] [2;3]));
  (*659*) AddTo (T 59) (Plain (Einsum [(T 57,[0;1])] [0;1]));
  (*660*) Assign (T 173) (Plain (Zeros [7;7]));
  (*661*) SubFrom (T 173) (Plain (Einsum [(T 57,[0;1])] [1;0]));
  (*662*) AddTo (T 273) (Plain (Einsum [(T 57,[0;1])] [0;1]));
  (*663*) AddTo (T 329) (Plain (Einsum [(T 57,[0;1])] [0;1]));
  (*664*) Del (T 57);
  (*665*) AddTo (T 59) (Plain (Einsum [(n_f'bb'vv,[0;1])] [0;1]));
  (*666*) AddTo n_t1new_bb (Plain (Einsum [(n_t1'bb,[0;1]); (T 59,[2;1])] [0;2]));
  (*667*) Del (T 59);
  (*668*) Assign (T 60) (Plain (Zeros [4;4;5;5]));
  (*669*) AddTo (T 60) (Plain (Einsum [(n_t1'aa,[0;1]); (n_v'aaaa'vovv,[2;3;4;1])] [0;3;2;4]));
  (*670*) SubFrom (T 95) (Plain (Einsum [(T 60,[0;1;2;3])] [0;1;2;3]));
  (*671*) Del (T 60);
  (*672*) Assign (T 61) (Plain (Zeros [4;4;5;5]));
  (*673*) AddTo (T 61) (Plain (Einsum [(n_t2'abab,[0;1;2;3]); (n_v'bbaa'ovvo,[1;3;4;5])] [0;5;2;4]));
  (*674*) AddTo (T 95) (Plain (Einsum [(T 61,[0;1;2;3])] [0;1;2;3]));
  (*675*) Del (T 61);
  (*676*) Assign (T 62) (Plain (Zeros [4;6;5;7]));
  (*677*) AddTo (T 62) (Plain (Einsum [(n_t1'aa,[0;1]); (n_v'bbaa'ovvv,[2;3;4;1])] [0;2;4;3]));
  (*678*) Assign (T 63) (Plain (Zeros [4;4;5;5]));
  (*679*) AddTo (T 63) (Plain (Einsum [(n_t2'abab,[0;1;2;3]); (T 62,[4;1;5;3])] [4;0;2;5]));
  (*680*) SubFrom (T 95) (Plain (Einsum [(T 63,[0;1;2;3])] [0;1;2;3]));
  (*681*) Del (T 63);
  (*682*) Assign (T 239) (Plain (Zeros [4;6;5;7]));
  (*683*) AddTo (T 239) (Plain (Einsum [(T 62,[0;1;2;3])] [0;1;2;3]));
  (*684*) Del (T 62);
  (*685*) Assign (T 64) (Plain (Zeros [4;4;5;5]));
  (*686*) SubFrom (T 64) (Plain (Einsum [(n_t2'aaaa,[0;1;2;3])] [1;0;2;3]));
  (*687*) AddTo (T 64) (Plain (Einsum [(n_t2'aaaa,[0;1;2;3])] [1;0;3;2]));
  (*688*) Assign (T 65) (Plain (Zeros [4;4;5;5]));
  (*689*) AddTo (T 65) (Plain (Einsum [(T 17,[0;1;2;3]); (T 64,[0;4;5;3])] [4;1;5;2]));
  (*690*) Del (T 17);
  (*691*) SubFrom (T 95) (Plain (Einsum [(T 65,[0;1;2;3])] [0;1;2;3]));
  (*692*) Del (T 65);
  (*693*) Assign (T 66) (Plain (Zeros [4;4;5;5]));
  (*694*) AddTo (T 66) (Plain (Einsum [(n_v'aaaa'ovov,[0;1;2;3])] [2;0;1;3]));
  (*695*) SubFrom (T 66) (Plain (Einsum [(n_v'aaaa'ovov,[0;1;2;3])] [2;0;3;1]));
  (*696*) Assign (T 67) (Plain (Zeros [4;4;5;5]));
  (*697*) AddTo (T 67) (Plain (Einsum [(n_t2'aaaa,[0;1;2;3]); (T 66,[0;4;3;5])] [4;1;5;2]));
  (*698*) Assign (T 68) (Plain (Zeros [4;4;5;5]));
  (*699*) SubFrom (T 68) (Plain (Einsum [(n_t2'aaaa,[0;1;2;3]); (T 67,[0;4;2;5])] [4;1;5;3]));
  (*700*) SubFrom (T 95) (Plain (Einsum [(T 68,[0;1;2;3])] [1;0;3;2]));
  (*701*) Del (T 68);
  (*702*) Assign (T 138) (Plain (Zeros [4;4;5;5]));
  (*703*) SubFrom (T 138) (Plain (Einsum [(n_t2'aaaa,[0;1;2;3]); (T 67,[0;4;3;5])] [4;1;5;2]));
  (*704*) Del (T 67);
  (*705*) AddTo (T 142) (Plain (Einsum [(T 138,[0;1;2;3])] [1;0;3;2]));
  (*706*) Del (T 138);
  (*707*) Assign (T 73) (Plain (Zeros [4;5]));
  (*708*) AddTo (T 73) (Plain (Einsum [(n_t1'aa,[0;1]); (T 66,[0;2;1;3])] [2;3]));
  (*709*) SubFrom (T 74) (Plain (Einsum [(T 73,[0;1])] [0;1]));
  (*710*) SubFrom (T 298) (Plain (Einsum [(T 73,[0;1])] [0;1]));
  (*711*) Del (T 73);
  (*712*) Assign (T 136) (Plain (Zeros [4;4;5;5]));
  (*713*) AddTo (T 136) (Plain (Einsum [(n_t2'aaaa,[0;1;2;3]); (T 66,[0;4;2;5])] [4;1;5;3]));
  (*714*) Assign (T 137) (Plain (Zeros [4;4;5;5]));
  (*715*) SubFrom (T 137) (Plain (Einsum [(n_t2'aaaa,[0;1;2;3]); (T 136,[0;4;2;5])] [4;1;5;3]));
  (*716*) Del (T 136);
  (*717*) AddTo (T 142) (Plain (Einsum [(T 137,[0;1;2;3])] [0;1;2;3]));
  (*718*) Del (T 137);
  (*719*) Assign (T 178) (Plain (Zeros [4;6;5;7]));
  (*720*) AddTo (T 178) (Plain (Einsum [(n_t2'abab,[0;1;2;3]); (T 66,[0;4;2;5])] [4;1;5;3]));
  (*721*) Assign (T 179) (Plain (Zeros [6;6;7;7]));
  (*722*) SubFrom (T 179) (Plain (Einsum [(n_t2'abab,[0;1;2;3]); (T 178,[0;4;2;5])] [4;1;5;3]));
  (*723*) Del (T 178);
  (*724*) Assign n_t2new_bbbb (Plain (Zeros [6;6;7;7]));
  (*725*) SubFrom n_t2new_bbbb (Plain (Einsum [(T 179,[0;1;2;3])] [0;1;3;2]));
  (*726*) AddTo n_t2new_bbbb (Plain (Einsum [(T 179,[0;1;2;3])] [1;0;3;2]));
  (*727*) Del (T 179);
  (*728*) Assign (T 309) (Plain (Zeros [3;4;5]));
  (*729*) SubFrom (T 309) (Plain (Einsum [(n_u11'aa,[0;1;2]); (T 66,[1;3;2;4])] [0;3;4]));
  (*730*) Del (T 66);
  (*731*) Assign n_s2new (Plain (Zeros [3;3]));
  (*732*) AddTo n_s2new (Plain (Einsum [(n_u11'aa,[0;1;2]); (T 309,[3;1;2])] [0;3]));
  (*733*) Del (T 309);
  (*734*) Assign (T 69) (Plain (Zeros [4;4;4;5]));
  (*735*) AddTo (T 69) (Plain (Einsum [(n_t2'abab,[0;1;2;3]); (n_v'aabb'ooov,[4;5;1;3])] [0;4;5;2]));
  (*736*) AddTo (T 77) (Plain (Einsum [(T 69,[0;1;2;3])] [1;0;2;3]));
  (*737*) Del (T 69);
  (*738*) Assign (T 71) (Plain (Zeros [4;4;5;5]));
  (*739*) AddTo (T 71) (Plain (Einsum [(n_t2'aaaa,[0;1;2;3])] [1;0;2;3]));
  (*740*) SubFrom (T 71) (Plain (Einsum [(n_t2'aaaa,[0;1;2;3])] [1;0;3;2]));
  (*741*) Assign (T 72) (Plain (Zeros [4;4;4;5]));
  (*742*) AddTo (T 72) (Plain (Einsum [(T 70,[0;1;2;3]); (T 71,[1;4;3;5])] [0;2;4;5]));
  (*743*) Del (T 70);
  (*744*) AddTo (T 77) (Plain (Einsum [(T 72,[0;1;2;3])] [1;0;2;3]));
  (*745*) Del (T 72);
  (*746*) Assign (T 84) (Plain (Zeros [3;4;5]));
  (*747*) AddTo (T 84) (Plain (Einsum [(n_g'aa'bov,[0;1;2]); (T 71,[1;3;2;4])] [0;3;4]));
  (*748*) Del (T 71);
  (*749*) SubFrom (T 86) (Plain (Einsum [(T 84,[0;1;2])] [0;1;2]));
  (*750*) Del (T 84);
  (*751*) AddTo (T 74) (Plain (Einsum [(n_f'aa'ov,[0;1])] [0;1]));
  (*752*) Assign (T 75) (Plain (Zeros [4;4;4;5]));
  (*753*) AddTo (T 75) (Plain (Einsum [(T 74,[0;1]); (n_t2'aaaa,[2;3;1;4])] [0;2;3;4]));
  (*754*) AddTo (T 77) (Plain (Einsum [(T 75,[0;1;2;3])] [0;2;1;3]));
  (*755*) Del (T 75);
  (*756*) Assign (T 79) (Plain (Zeros [4;4]));
  (*757*) AddTo (T 79) (Plain (Einsum [(n_t1'aa,[0;1]); (T 74,[2;1])] [2;0]));
  (*758*) Del (T 74);
  (*759*) AddTo (T 80) (Plain (Einsum [(T 79,[0;1])] [1;0]));
  (*760*) Del (T 79);
  (*761*) SubFrom (T 77) (Plain (Einsum [(n_v'aaaa'oovo,[0;1;2;3])] [0;1;3;2]));
  (*762*) Assign (T 78) (Plain (Zeros [4;4;5;5]));
  (*763*) AddTo (T 78) (Plain (Einsum [(n_t1'aa,[0;1]); (T 77,[0;2;3;4])] [2;3;4;1]));
  (*764*) Del (T 77);
  (*765*) AddTo (T 95) (Plain (Einsum [(T 78,[0;1;2;3])] [0;1;3;2]));
  (*766*) Del (T 78);
  (*767*) AddTo (T 80) (Plain (Einsum [(n_f'aa'oo,[0;1])] [1;0]));
  (*768*) Assign (T 81) (Plain (Zeros [4;4;5;5]));
  (*769*) AddTo (T 81) (Plain (Einsum [(T 80,[0;1]); (n_t2'aaaa,[1;2;3;4])] [0;2;3;4]));
  (*770*) Del (T 80);
  (*771*) AddTo (T 95) (Plain (Einsum [(T 81,[0;1;2;3])] [0;1;3;2]));
  (*772*) Del (T 81);
  (*773*) Assign (T 82) (Plain (Zeros [3;4;5]));
  (*774*) AddTo (T 82) (Plain (Einsum [(n_t1'aa,[0;1]); (n_g'aa'bvv,[2;3;1])] [2;0;3]));
  (*775*) AddTo (T 86) (Plain (Einsum [(T 82,[0;1;2])] [0;1;2]));
  (*776*) Del (T 82);
  (*777*) Assign (T 83) (Plain (Zeros [3;4;5]));
  (*778*) AddTo (T 83) (Plain (Einsum [(n_g'bb'bov,[0;1;2]); (n_t2'abab,[3;1;4;2])] [0;3;4]));
  (*779*) AddTo (T 86) (Plain (Einsum [(T 83,[0;1;2])] [0;1;2]));
  (*780*) Del (T 83);
  (*781*) AddTo (T 86) (Plain (Einsum [(n_g'aa'bvo,[0;1;2])] [0;2;1]));
  (*782*) Assign (T 87) (Plain (Zeros [4;4;5;5]));
  (*783*) AddTo (T 87) (Plain (Einsum [(n_u11'aa,[0;1;2]); (T 86,[0;3;4])] [3;1;4;2]));
  (*784*) AddTo (T 95) (Plain (Einsum [(T 87,[0;1;2;3])] [0;1;2;3]));
  (*785*) Del (T 87);
  (*786*) Assign (T 293) (Plain (Zeros [4;6;5;7]));
  (*787*) AddTo (T 293) (Plain (Einsum [(n_u11'bb,[0;1;2]); (T 86,[0;3;4])] [3;1;4;2]));
  (*788*) Del (T 86);
  (*789*) AddTo n_t2new_baba (Plain (Einsum [(T 293,[0;1;2;3])] [1;0;3;2]));
  (*790*) AddTo n_t2new_abab (Plain (Einsum [(T 293,[0;1;2;3])] [0;1;2;3]));
  (*791*) Del (T 293);
  (*792*) AddTo (T 88) (Plain (Einsum [(n_f'aa'vv,[0;1])] [0;1]));
  (*793*) Assign (T 89) (Plain (Zeros [4;4;5;5]));
  (*794*) AddTo (T 89) (Plain (Einsum [(T 88,[0;1]); (n_t2'aaaa,[2;3;1;4])] [2;3;0;4]));
  (*795*) Del (T 88);
  (*796*) SubFrom (T 95) (Plain (Einsum [(T 89,[0;1;2;3])] [1;0;2;3]));
  (*797*) Del (T 89);
  (*798*) Assign (T 90) (Plain (Zeros [5;5]));
  (*799*) AddTo (T 90) (Plain (Einsum [(n_g'aa'bov,[0;1;2]); (n_u11'aa,[0;1;3])] [2;3]));
  (*800*) AddTo (T 91) (Plain (Einsum [(T 90,[0;1])] [0;1]));
  (*801*) Assign (T 92) (Plain (Zeros [4;4;5;5]));
  (*802*) AddTo (T 92) (Plain (Einsum [(T 91,[0;1]); (n_t2'aaaa,[2;3;0;4])] [2;3;1;4]));
  (*803*) Del (T 91);
  (*804*) SubFrom (T 95) (Plain (Einsum [(T 92,[0;1;2;3])] [1;0;3;2]));
  (*805*) Del (T 92);
  (*806*) Assign n_t2new_aaaa (Plain (Zeros [4;4;5;5]));
  (*807*) AddTo n_t2new_aaaa (Plain (Einsum [(T 95,[0;1;2;3])] [0;1;2;3]));
  (*808*) SubFrom n_t2new_aaaa (Plain (Einsum [(T 95,[0;1;2;3])] [0;1;3;2]));
  (*809*) SubFrom n_t2new_aaaa (Plain (Einsum [(T 95,[0;1;2;3])] [1;0;2;3]));
  (*810*) AddTo n_t2new_aaaa (Plain (Einsum [(T 95,[0;1;2;3])] [1;0;3;2]));
  (*811*) Del (T 95);
  (*812*) AddTo (T 277) (Times (Einsum [(T 90,[0;1])] [1;0]) (-1) 1);
  (*813*) AddTo (T 318) (Times (Einsum [(T 90,[0;1])] [1;0]) (-1) 1);
  (*814*) Del (T 90);
  (*815*) Assign (T 96) (Plain (Zeros [4;4;4;4]));
  (*816*) AddTo (T 96) (Plain (Einsum [(n_t1'aa,[0;1]); (n_v'aaaa'ooov,[2;3;4;1])] [0;2;4;3]));
  (*817*) Assign (T 97) (Plain (Zeros [4;4;5;5]));
  (*818*) AddTo (T 97) (Plain (Einsum [(n_t2'aaaa,[0;1;2;3]); (T 96,[4;1;0;5])] [4;5;3;2]));
  (*819*) AddTo (T 120) (Plain (Einsum [(T 97,[0;1;2;3])] [0;1;2;3]));
  (*820*) Del (T 97);
  (*821*) Assign (T 109) (Plain (Zeros [4;4;4;5]));
  (*822*) AddTo (T 109) (Plain (Einsum [(n_t1'aa,[0;1]); (T 96,[2;3;0;4])] [2;3;4;1]));
  (*823*) Del (T 96);
  (*824*) AddTo (T 116) (Plain (Einsum [(T 109,[0;1;2;3])] [0;1;2;3]));
  (*825*) Del (T 109);
  (*826*) Assign (T 102) (Plain (Zeros [4;4;5;5]));
  (*827*) AddTo (T 102) (Plain (Einsum [(n_t2'abab,[0;1;2;3]); (n_v'aabb'ovov,[4;5;1;3])] [0;4;2;5]));
  (*828*) Assign (T 103) (Plain (Zeros [4;4;5;5]));
  (*829*) AddTo (T 103) (Plain (Einsum [(T 11,[0;1;2;3]); (T 102,[4;0;5;3])] [4;1;5;2]));
  (*830*) Del (T 102);
  (*831*) AddTo (T 120) (Times (Einsum [(T 103,[0;1;2;3])] [1;0;3;2]) (-1) 1);
  (*832*) Del (T 103);
  (*833*) Assign (T 104) (Plain (Zeros [5;5]));
  (*834*) AddTo (T 104) (Plain (Einsum [(n_t2'abab,[0;1;2;3]); (n_v'aabb'ovov,[0;4;1;3])] [2;4]));
  (*835*) AddTo (T 107) (Plain (Einsum [(T 104,[0;1])] [0;1]));
  (*836*) Assign (T 108) (Plain (Zeros [4;4;5;5]));
  (*837*) AddTo (T 108) (Plain (Einsum [(T 107,[0;1]); (n_t2'aaaa,[2;3;1;4])] [2;3;0;4]));
  (*838*) Del (T 107);
  (*839*) AddTo (T 120) (Plain (Einsum [(T 108,[0;1;2;3])] [1;0;3;2]));
  (*840*) Del (T 108);
  (*841*) AddTo (T 277) (Times (Einsum [(T 104,[0;1])] [0;1]) (-1) 1);
  (*842*) AddTo (T 318) (Times (Einsum [(T 104,[0;1])] [0;1]) (-1) 1);
  (*843*) Del (T 104);
  (*844*) Assign (T 110) (Plain (Zeros [4;4;4;5]));
  (*845*) AddTo (T 110) (Plain (Einsum [(n_t2'aaaa,[0;1;2;3]); (n_v'aaaa'ovvv,[4;2;5;3])] [0;1;4;5]));
  (*846*) AddTo (T 116) (Plain (Einsum [(T 110,[0;1;2;3])] [0;2;1;3]));
  (*847*) Del (T 110);
  (*848*) Assign (T 111) (Plain (Zeros [4;4;5;5]));
  (*849*) AddTo (T 111) (Plain (Einsum [(n_t1'aa,[0;1]); (n_v'aaaa'ovvv,[2;3;4;1])] [0;2;4;3]));
  (*850*) Assign (T 112) (Plain (Zeros [4;4;4;5]));
  (*851*) AddTo (T 112) (Plain (Einsum [(n_t1'aa,[0;1]); (T 111,[2;3;4;1])] [0;2;3;4]));
  (*852*) Del (T 111);
  (*853*) AddTo (T 116) (Plain (Einsum [(T 112,[0;1;2;3])] [0;2;1;3]));
  (*854*) Del (T 112);
  (*855*) Assign (T 117) (Plain (Zeros [4;4;5;5]));
  (*856*) AddTo (T 117) (Plain (Einsum [(n_t1'aa,[0;1]); (T 116,[2;0;3;4])] [2;3;4;1]));
  (*857*) Del (T 116);
  (*858*) AddTo (T 120) (Plain (Einsum [(T 117,[0;1;2;3])] [0;1;3;2]));
  (*859*) Del (T 117);
  (*860*) AddTo n_t2new_aaaa (Times (Einsum [(T 120,[0;1;2;3])] [0;1;2;3]) (-1) 1);
  (*861*) AddTo n_t2new_aaaa (Plain (Einsum [(T 120,[0;1;2;3])] [0;1;3;2]));
  (*862*) AddTo n_t2new_aaaa (Plain (Einsum [(T 120,[0;1;2;3])] [1;0;2;3]));
  (*863*) AddTo n_t2new_aaaa (Times (Einsum [(T 120,[0;1;2;3])] [1;0;3;2]) (-1) 1);
  (*864*) Del (T 120);
  (*865*) Assign (T 121) (Plain (Zeros [4;4;5;5]));
  (*866*) AddTo (T 121) (Plain (Einsum [(n_t2'aaaa,[0;1;2;3]); (n_v'aaaa'oooo,[0;4;1;5])] [5;4;3;2]));
  (*867*) Assign (T 123) (Plain (Zeros [4;4;5;5]));
  (*868*) AddTo (T 123) (Plain (Einsum [(T 121,[0;1;2;3])] [1;0;3;2]));
  (*869*) Del (T 121);
  (*870*) Assign (T 122) (Plain (Zeros [4;4;5;5]));
  (*871*) AddTo (T 122) (Plain (Einsum [(n_t2'aaaa,[0;1;2;3]); (n_v'aaaa'vvvv,[4;2;5;3])] [0;1;4;5]));
  (*872*) AddTo (T 123) (Plain (Einsum [(T 122,[0;1;2;3])] [1;0;3;2]));
  (*873*) Del (T 122);
  (*874*) AddTo n_t2new_aaaa (Times (Einsum [(T 123,[0;1;2;3])] [0;1;3;2]) (-1) 1);
  (*875*) AddTo n_t2new_aaaa (Plain (Einsum [(T 123,[0;1;2;3])] [0;1;2;3]));
  (*876*) Del (T 123);
  (*877*) Assign (T 124) (Plain (Zeros [4;5;5;5]));
  (*878*) AddTo (T 124) (Plain (Einsum [(n_t1'aa,[0;1]); (n_v'aaaa'vvvv,[2;1;3;4])] [0;3;2;4]));
  (*879*) Assign (T 125) (Plain (Zeros [4;4;5;5]));
  (*880*) AddTo (T 125) (Plain (Einsum [(n_t1'aa,[0;1]); (T 124,[2;3;4;1])] [0;2;3;4]));
  (*881*) Del (T 124);
  (*882*) AddTo (T 133) (Plain (Einsum [(T 125,[0;1;2;3])] [0;1;2;3]));
  (*883*) Del (T 125);
  (*884*) Assign (T 126) (Plain (Zeros [4;4;4;4]));
  (*885*) AddTo (T 126) (Plain (Einsum [(n_t2'aaaa,[0;1;2;3]); (n_v'aaaa'ovov,[4;3;5;2])] [0;1;5;4]));
  (*886*) Assign (T 127) (Plain (Zeros [4;4;5;5]));
  (*887*) AddTo (T 127) (Plain (Einsum [(n_t2'aaaa,[0;1;2;3]); (T 126,[4;5;1;0])] [5;4;2;3]));
  (*888*) AddTo (T 133) (Plain (Einsum [(T 127,[0;1;2;3])] [0;1;2;3]));
  (*889*) Del (T 127);
  (*890*) Assign (T 130) (Plain (Zeros [4;4;4;4]));
  (*891*) AddTo (T 130) (Plain (Einsum [(T 126,[0;1;2;3])] [3;2;1;0]));
  (*892*) Del (T 126);
  (*893*) AddTo (T 130) (Plain (Einsum [(n_v'aaaa'oooo,[0;1;2;3])] [2;0;3;1]));
  (*894*) Assign (T 131) (Plain (Zeros [4;4;4;5]));
  (*895*) AddTo (T 131) (Plain (Einsum [(n_t1'aa,[0;1]); (T 130,[0;2;3;4])] [2;3;4;1]));
  (*896*) Del (T 130);
  (*897*) Assign (T 132) (Plain (Zeros [4;4;5;5]));
  (*898*) AddTo (T 132) (Plain (Einsum [(n_t1'aa,[0;1]); (T 131,[0;2;3;4])] [3;2;4;1]));
  (*899*) Del (T 131);
  (*900*) AddTo (T 133) (Plain (Einsum [(T 132,[0;1;2;3])] [0;1;3;2]));
  (*901*) Del (T 132);
  (*902*) AddTo n_t2new_aaaa (Plain (Einsum [(T 133,[0;1;2;3])] [0;1;2;3]));
  (*903*) AddTo n_t2new_aaaa (Times (Einsum [(T 133,[0;1;2;3])] [0;1;3;2]) (-1) 1);
  (*904*) Del (T 133);
  (*905*) Assign (T 139) (Plain (Zeros [6;6;7;7]));
  (*906*) AddTo (T 139) (Plain (Einsum [(n_v'bbbb'ovov,[0;1;2;3])] [2;0;1;3]));
  (*907*) SubFrom (T 139) (Plain (Einsum [(n_v'bbbb'ovov,[0;1;2;3])] [2;0;3;1]));
  (*908*) Assign (T 140) (Plain (Zeros [4;6;5;7]));
  (*909*) AddTo (T 140) (Plain (Einsum [(n_t2'abab,[0;1;2;3]); (T 139,[1;4;3;5])] [0;4;2;5]));
  (*910*) Assign (T 141) (Plain (Zeros [4;4;5;5]));
  (*911*) SubFrom (T 141) (Plain (Einsum [(n_t2'abab,[0;1;2;3]); (T 140,[4;1;5;3])] [4;0;5;2]));
  (*912*) Del (T 140);
  (*913*) AddTo (T 142) (Plain (Einsum [(T 141,[0;1;2;3])] [0;1;2;3]));
  (*914*) Del (T 141);
  (*915*) AddTo n_t2new_aaaa (Plain (Einsum [(T 142,[0;1;2;3])] [0;1;2;3]));
  (*916*) SubFrom n_t2new_aaaa (Plain (Einsum [(T 142,[0;1;2;3])] [0;1;3;2]));
  (*917*) Del (T 142);
  (*918*) Assign (T 149) (Plain (Zeros [6;6;7;7]));
  (*919*) AddTo (T 149) (Plain (Einsum [(n_t2'bbbb,[0;1;2;3]); (T 139,[0;4;3;5])] [4;1;5;2]));
  (*920*) Assign (T 150) (Plain (Zeros [6;6;7;7]));
  (*921*) SubFrom (T 150) (Plain (Einsum [(n_t2'bbbb,[0;1;2;3]); (T 149,[0;4;2;5])] [4;1;5;3]));
  (*922*) SubFrom (T 177) (Plain (Einsum [(T 150,[0;1;2;3])] [1;0;3;2]));
  (*923*) Del (T 150);
  (*924*) Assign (T 228) (Plain (Zeros [6;6;7;7]));
  (*925*) SubFrom (T 228) (Plain (Einsum [(n_t2'bbbb,[0;1;2;3]); (T 149,[0;4;3;5])] [4;1;5;2]));
  (*926*) Del (T 149);
  (*927*) AddTo (T 229) (Plain (Einsum [(T 228,[0;1;2;3])] [0;1;2;3]));
  (*928*) Del (T 228);
  (*929*) Assign (T 154) (Plain (Zeros [6;7]));
  (*930*) AddTo (T 154) (Plain (Einsum [(n_t1'bb,[0;1]); (T 139,[0;2;1;3])] [2;3]));
  (*931*) SubFrom (T 155) (Plain (Einsum [(T 154,[0;1])] [0;1]));
  (*932*) SubFrom (T 297) (Plain (Einsum [(T 154,[0;1])] [0;1]));
  (*933*) Del (T 154);
  (*934*) Assign (T 226) (Plain (Zeros [6;6;7;7]));
  (*935*) AddTo (T 226) (Plain (Einsum [(n_t2'bbbb,[0;1;2;3]); (T 139,[0;4;2;5])] [4;1;5;3]));
  (*936*) Assign (T 227) (Plain (Zeros [6;6;7;7]));
  (*937*) SubFrom (T 227) (Plain (Einsum [(n_t2'bbbb,[0;1;2;3]); (T 226,[0;4;2;5])] [4;1;5;3]));
  (*938*) Del (T 226);
  (*939*) AddTo (T 229) (Plain (Einsum [(T 227,[0;1;2;3])] [1;0;3;2]));
  (*940*) Del (T 227);
  (*941*) AddTo n_t2new_bbbb (Plain (Einsum [(T 229,[0;1;2;3])] [0;1;2;3]));
  (*942*) SubFrom n_t2new_bbbb (Plain (Einsum [(T 229,[0;1;2;3])] [0;1;3;2]));
  (*943*) Del (T 229);
  (*944*) Assign (T 308) (Plain (Zeros [3;6;7]));
  (*945*) SubFrom (T 308) (Plain (Einsum [(n_u11'bb,[0;1;2]); (T 139,[1;3;2;4])] [0;3;4]));
  (*946*) Del (T 139);
  (*947*) AddTo n_s2new (Plain (Einsum [(n_u11'bb,[0;1;2]); (T 308,[3;1;2])] [0;3]));
  (*948*) Del (T 308);
  (*949*) Assign (T 143) (Plain (Zeros [6;6;7;7]));
  (*950*) AddTo (T 143) (Plain (Einsum [(n_t1'bb,[0;1]); (n_v'bbbb'vovv,[2;3;4;1])] [0;3;2;4]));
  (*951*) SubFrom (T 177) (Plain (Einsum [(T 143,[0;1;2;3])] [0;1;2;3]));
  (*952*) Del (T 143);
  (*953*) Assign (T 144) (Plain (Zeros [6;6;7;7]));
  (*954*) AddTo (T 144) (Plain (Einsum [(n_t2'abab,[0;1;2;3]); (n_v'aabb'ovvo,[0;2;4;5])] [1;5;3;4]));
  (*955*) AddTo (T 177) (Plain (Einsum [(T 144,[0;1;2;3])] [0;1;2;3]));
  (*956*) Del (T 144);
  (*957*) Assign (T 145) (Plain (Zeros [4;6;5;7]));
  (*958*) AddTo (T 145) (Plain (Einsum [(n_t1'bb,[0;1]); (n_v'aabb'ovvv,[2;3;4;1])] [2;0;3;4]));
  (*959*) Assign (T 146) (Plain (Zeros [6;6;7;7]));
  (*960*) AddTo (T 146) (Plain (Einsum [(n_t2'abab,[0;1;2;3]); (T 145,[0;4;2;5])] [4;1;3;5]));
  (*961*) SubFrom (T 177) (Plain (Einsum [(T 146,[0;1;2;3])] [0;1;2;3]));
  (*962*) Del (T 146);
  (*963*) AddTo (T 233) (Plain (Einsum [(T 145,[0;1;2;3])] [0;1;2;3]));
  (*964*) Assign (T 268) (Plain (Zeros [4;6;5;7]));
  (*965*) AddTo (T 268) (Plain (Einsum [(T 145,[0;1;2;3])] [0;1;2;3]));
  (*966*) Assign (T 413) (Plain (Zeros [4;6;5;7]));
  (*967*) AddTo (T 413) (Plain (Einsum [(T 145,[0;1;2;3])] [0;1;2;3]));
  (*968*) Del (T 145);
  (*969*) Assign (T 147) (Plain (Zeros [6;6;7;7]));
  (*970*) SubFrom (T 147) (Plain (Einsum [(n_t2'bbbb,[0;1;2;3])] [1;0;2;3]));
  (*971*) AddTo (T 147) (Plain (Einsum [(n_t2'bbbb,[0;1;2;3])] [1;0;3;2]));
  (*972*) Assign (T 148) (Plain (Zeros [6;6;7;7]));
  (*973*) AddTo (T 148) (Plain (Einsum [(T 147,[0;1;2;3]); (T 43,[0;4;5;3])] [1;4;2;5]));
  (*974*) Del (T 43);
  (*975*) SubFrom (T 177) (Plain (Einsum [(T 148,[0;1;2;3])] [0;1;2;3]));
  (*976*) Del (T 148);
  (*977*) Assign (T 153) (Plain (Zeros [6;6;6;7]));
  (*978*) AddTo (T 153) (Plain (Einsum [(T 147,[0;1;2;3]); (T 152,[4;5;0;3])] [1;4;5;2]));
  (*979*) Del (T 147);
  (*980*) Del (T 152);
  (*981*) AddTo (T 158) (Plain (Einsum [(T 153,[0;1;2;3])] [2;1;0;3]));
  (*982*) Del (T 153);
  (*983*) Assign (T 151) (Plain (Zeros [6;6;6;7]));
  (*984*) AddTo (T 151) (Plain (Einsum [(n_t2'abab,[0;1;2;3]); (n_v'aabb'ovoo,[0;2;4;5])] [1;4;5;3]));
  (*985*) AddTo (T 158) (Plain (Einsum [(T 151,[0;1;2;3])] [1;0;2;3]));
  (*986*) Del (T 151);
  (*987*) AddTo (T 155) (Plain (Einsum [(n_f'bb'ov,[0;1])] [0;1]));
  (*988*) Assign (T 156) (Plain (Zeros [6;6;6;7]));
  (*989*) AddTo (T 156) (Plain (Einsum [(T 155,[0;1]); (n_t2'bbbb,[2;3;1;4])] [0;2;3;4]));
  (*990*) AddTo (T 158) (Plain (Einsum [(T 156,[0;1;2;3])] [0;2;1;3]));
  (*991*) Del (T 156);
  (*992*) Assign (T 160) (Plain (Zeros [6;6]));
  (*993*) AddTo (T 160) (Plain (Einsum [(n_t1'bb,[0;1]); (T 155,[2;1])] [2;0]));
  (*994*) Del (T 155);
  (*995*) AddTo (T 161) (Plain (Einsum [(T 160,[0;1])] [1;0]));
  (*996*) Del (T 160);
  (*997*) SubFrom (T 158) (Plain (Einsum [(n_v'bbbb'oovo,[0;1;2;3])] [0;1;3;2]));
  (*998*) Assign (T 159) (Plain (Zeros [6;6;7;7]));
  (*999*) AddTo (T 159) (Plain (Einsum [(n_t1'bb,[0;1]); (T 158,[0;2;3;4])] [2;3;4;1]));
  (*1000*) Del (T 158);
  (*1001*) AddTo (T 177) (Plain (Einsum [(T 159,[0;1;2;3])] [0;1;3;2]));
  (*1002*) Del (T 159);
  (*1003*) AddTo (T 161) (Plain (Einsum [(n_f'bb'oo,[0;1])] [1;0]));
  (*1004*) Assign (T 162) (Plain (Zeros [6;6;7;7]));
  (*1005*) AddTo (T 162) (Plain (Einsum [(T 161,[0;1]); (n_t2'bbbb,[1;2;3;4])] [0;2;3;4]));
  (*1006*) Del (T 161);
  (*1007*) AddTo (T 177) (Plain (Einsum [(T 162,[0;1;2;3])] [0;1;3;2]));
  (*1008*) Del (T 162);
  (*1009*) Assign (T 163) (Plain (Zeros [3;6;7]));
  (*1010*) AddTo (T 163) (Plain (Einsum [(n_t1'bb,[0;1]); (n_g'bb'bvv,[2;3;1])] [2;0;3]));
  (*1011*) AddTo (T 168) (Plain (Einsum [(T 163,[0;1;2])] [0;1;2]));
  (*1012*) Del (T 163);
  (*1013*) Assign (T 164) (Plain (Zeros [3;6;7]));
  (*1014*) AddTo (T 164) (Plain (Einsum [(n_g'aa'bov,[0;1;2]); (n_t2'abab,[1;3;2;4])] [0;3;4]));
  (*1015*) AddTo (T 168) (Plain (Einsum [(T 164,[0;1;2])] [0;1;2]));
  (*1016*) Del (T 164);
  (*1017*) Assign (T 165) (Plain (Zeros [6;6;7;7]));
  (*1018*) AddTo (T 165) (Plain (Einsum [(n_t2'bbbb,[0;1;2;3])] [1;0;2;3]));
  (*1019*) SubFrom (T 165) (Plain (Einsum [(n_t2'bbbb,[0;1;2;3])] [1;0;3;2]));
  (*1020*) Assign (T 166) (Plain (Zeros [3;6;7]));
  (*1021*) AddTo (T 166) (Plain (Einsum [(n_g'bb'bov,[0;1;2]); (T 165,[1;3;2;4])] [0;3;4]));
  (*1022*) SubFrom (T 168) (Plain (Einsum [(T 166,[0;1;2])] [0;1;2]));
  (*1023*) Del (T 166);
  (*1024*) AddTo (T 168) (Plain (Einsum [(n_g'bb'bvo,[0;1;2])] [0;2;1]));
  (*1025*) Assign (T 169) (Plain (Zeros [6;6;7;7]));
  (*1026*) AddTo (T 169) (Plain (Einsum [(n_u11'bb,[0;1;2]); (T 168,[0;3;4])] [3;1;4;2]));
  (*1027*) AddTo (T 177) (Plain (Einsum [(T 169,[0;1;2;3])] [0;1;2;3]));
  (*1028*) Del (T 169);
  (*1029*) Assign (T 292) (Plain (Zeros [4;6;5;7]));
  (*1030*) AddTo (T 292) (Plain (Einsum [(n_u11'aa,[0;1;2]); (T 168,[0;3;4])] [1;3;2;4]));
  (*1031*) Del (T 168);
  (*1032*) AddTo n_t2new_baba (Plain (Einsum [(T 292,[0;1;2;3])] [1;0;3;2]));
  (*1033*) AddTo n_t2new_abab (Plain (Einsum [(T 292,[0;1;2;3])] [0;1;2;3]));
  (*1034*) Del (T 292);
  (*1035*) AddTo (T 170) (Plain (Einsum [(n_f'bb'vv,[0;1])] [0;1]));
  (*1036*) Assign (T 171) (Plain (Zeros [6;6;7;7]));
  (*1037*) AddTo (T 171) (Plain (Einsum [(T 170,[0;1]); (n_t2'bbbb,[2;3;1;4])] [2;3;0;4]));
  (*1038*) Del (T 170);
  (*1039*) SubFrom (T 177) (Plain (Einsum [(T 171,[0;1;2;3])] [1;0;2;3]));
  (*1040*) Del (T 171);
  (*1041*) Assign (T 172) (Plain (Zeros [7;7]));
  (*1042*) AddTo (T 172) (Plain (Einsum [(n_g'bb'bov,[0;1;2]); (n_u11'bb,[0;1;3])] [2;3]));
  (*1043*) AddTo (T 173) (Plain (Einsum [(T 172,[0;1])] [0;1]));
  (*1044*) Assign (T 174) (Plain (Zeros [6;6;7;7]));
  (*1045*) AddTo (T 174) (Plain (Einsum [(T 173,[0;1]); (n_t2'bbbb,[2;3;0;4])] [2;3;1;4]));
  (*1046*) Del (T 173);
  (*1047*) SubFrom (T 177) (Plain (Einsum [(T 174,[0;1;2;3])] [1;0;3;2]));
  (*1048*) Del (T 174);
  (*1049*) AddTo n_t2new_bbbb (Plain (Einsum [(T 177,[0;1;2;3])] [0;1;2;3]));
  (*1050*) SubFrom n_t2new_bbbb (Plain (Einsum [(T 177,[0;1;2;3])] [0;1;3;2]));
  (*1051*) SubFrom n_t2new_bbbb (Plain (Einsum [(T 177,[0;1;2;3])] [1;0;2;3]));
  (*1052*) AddTo n_t2new_bbbb (Plain (Einsum [(T 177,[0;1;2;3])] [1;0;3;2]));
  (*1053*) Del (T 177);
  (*1054*) AddTo (T 273) (Times (Einsum [(T 172,[0;1])] [1;0]) (-1) 1);
  (*1055*) AddTo (T 329) (Times (Einsum [(T 172,[0;1])] [1;0]) (-1) 1);
  (*1056*) Del (T 172);
  (*1057*) Assign (T 180) (Plain (Zeros [6;6;6;6]));
  (*1058*) AddTo (T 180) (Plain (Einsum [(n_t1'bb,[0;1]); (n_v'bbbb'ooov,[2;3;4;1])] [0;2;4;3]));
  (*1059*) Assign (T 181) (Plain (Zeros [6;6;7;7]));
  (*1060*) AddTo (T 181) (Plain (Einsum [(n_t2'bbbb,[0;1;2;3]); (T 180,[4;0;1;5])] [4;5;2;3]));
  (*1061*) AddTo (T 210) (Plain (Einsum [(T 181,[0;1;2;3])] [0;1;2;3]));
  (*1062*) Del (T 181);
  (*1063*) Assign (T 189) (Plain (Zeros [6;6;6;7]));
  (*1064*) AddTo (T 189) (Plain (Einsum [(n_t1'bb,[0;1]); (T 180,[2;3;0;4])] [2;3;4;1]));
  (*1065*) Del (T 180);
  (*1066*) AddTo (T 197) (Plain (Einsum [(T 189,[0;1;2;3])] [0;1;2;3]));
  (*1067*) Del (T 189);
  (*1068*) Assign (T 182) (Plain (Zeros [7;7]));
  (*1069*) AddTo (T 182) (Plain (Einsum [(n_t2'abab,[0;1;2;3]); (n_v'aabb'ovov,[0;2;1;4])] [3;4]));
  (*1070*) Assign (T 183) (Plain (Zeros [6;6;7;7]));
  (*1071*) AddTo (T 183) (Plain (Einsum [(T 182,[0;1]); (n_t2'bbbb,[2;3;1;4])] [3;2;0;4]));
  (*1072*) AddTo (T 210) (Times (Einsum [(T 183,[0;1;2;3])] [0;1;2;3]) (-1) 1);
  (*1073*) Del (T 183);
  (*1074*) AddTo (T 273) (Times (Einsum [(T 182,[0;1])] [0;1]) (-1) 1);
  (*1075*) AddTo (T 329) (Times (Einsum [(T 182,[0;1])] [0;1]) (-1) 1);
  (*1076*) Del (T 182);
  (*1077*) Assign (T 184) (Plain (Zeros [6;7;7;7]));
  (*1078*) AddTo (T 184) (Plain (Einsum [(n_v'bbbb'ovvv,[0;1;2;3])] [0;2;1;3]));
  (*1079*) AddTo (T 184) (Times (Einsum [(n_v'bbbb'ovvv,[0;1;2;3])] [0;2;3;1]) (-1) 1);
  (*1080*) Assign (T 185) (Plain (Zeros [6;6;7;7]));
  (*1081*) AddTo (T 185) (Plain (Einsum [(n_t1'bb,[0;1]); (T 184,[2;3;1;4])] [2;0;3;4]));
  (*1082*) Assign (T 186) (Plain (Zeros [6;6;7;7]));
  (*1083*) AddTo (T 186) (Times (Einsum [(T 185,[0;1;2;3]); (T 42,[0;4;3;5])] [1;4;2;5]) (-1) 1);
  (*1084*) AddTo (T 210) (Times (Einsum [(T 186,[0;1;2;3])] [0;1;3;2]) (-1) 1);
  (*1085*) Del (T 186);
  (*1086*) AddTo (T 237) (Times (Einsum [(T 185,[0;1;2;3])] [0;1;2;3]) (-1) 1);
  (*1087*) Del (T 185);
  (*1088*) Assign (T 200) (Plain (Zeros [7;7]));
  (*1089*) AddTo (T 200) (Plain (Einsum [(n_t1'bb,[0;1]); (T 184,[0;2;1;3])] [2;3]));
  (*1090*) Del (T 184);
  (*1091*) AddTo (T 201) (Times (Einsum [(T 200,[0;1])] [0;1]) (-1) 1);
  (*1092*) Del (T 200);
  (*1093*) Assign (T 202) (Plain (Zeros [6;6;7;7]));
  (*1094*) AddTo (T 202) (Plain (Einsum [(T 201,[0;1]); (n_t2'bbbb,[2;3;1;4])] [2;3;0;4]));
  (*1095*) Del (T 201);
  (*1096*) AddTo (T 210) (Plain (Einsum [(T 202,[0;1;2;3])] [1;0;3;2]));
  (*1097*) Del (T 202);
  (*1098*) Assign (T 190) (Plain (Zeros [6;6;6;7]));
  (*1099*) AddTo (T 190) (Plain (Einsum [(n_t2'bbbb,[0;1;2;3]); (n_v'bbbb'ovvv,[4;3;5;2])] [1;0;4;5]));
  (*1100*) AddTo (T 197) (Plain (Einsum [(T 190,[0;1;2;3])] [0;2;1;3]));
  (*1101*) Del (T 190);
  (*1102*) Assign (T 191) (Plain (Zeros [6;6;7;7]));
  (*1103*) AddTo (T 191) (Plain (Einsum [(n_t1'bb,[0;1]); (n_v'bbbb'ovvv,[2;3;4;1])] [0;2;4;3]));
  (*1104*) Assign (T 192) (Plain (Zeros [6;6;6;7]));
  (*1105*) AddTo (T 192) (Plain (Einsum [(n_t1'bb,[0;1]); (T 191,[2;3;4;1])] [0;2;3;4]));
  (*1106*) Del (T 191);
  (*1107*) AddTo (T 197) (Plain (Einsum [(T 192,[0;1;2;3])] [0;2;1;3]));
  (*1108*) Del (T 192);
  (*1109*) Assign (T 195) (Plain (Zeros [6;6;6;7]));
  (*1110*) AddTo (T 195) (Times (Einsum [(n_v'bbbb'ooov,[0;1;2;3])] [0;2;1;3]) (-1) 1);
  (*1111*) AddTo (T 195) (Plain (Einsum [(n_v'bbbb'ooov,[0;1;2;3])] [2;0;1;3]));
  (*1112*) Assign (T 196) (Plain (Zeros [6;6;6;7]));
  (*1113*) AddTo (T 196) (Plain (Einsum [(T 195,[0;1;2;3]); (T 42,[0;4;3;5])] [1;2;4;5]));
  (*1114*) AddTo (T 197) (Plain (Einsum [(T 196,[0;1;2;3])] [2;0;1;3]));
  (*1115*) Del (T 196);
  (*1116*) Assign (T 198) (Plain (Zeros [6;6;7;7]));
  (*1117*) AddTo (T 198) (Plain (Einsum [(n_t1'bb,[0;1]); (T 197,[2;0;3;4])] [2;3;4;1]));
  (*1118*) Del (T 197);
  (*1119*) AddTo (T 210) (Plain (Einsum [(T 198,[0;1;2;3])] [0;1;3;2]));
  (*1120*) Del (T 198);
  (*1121*) Assign (T 204) (Plain (Zeros [6;6]));
  (*1122*) AddTo (T 204) (Plain (Einsum [(n_t1'bb,[0;1]); (T 195,[0;2;3;1])] [2;3]));
  (*1123*) Del (T 195);
  (*1124*) AddTo (T 205) (Times (Einsum [(T 204,[0;1])] [0;1]) (-1) 1);
  (*1125*) Del (T 204);
  (*1126*) Assign (T 206) (Plain (Zeros [6;6;7;7]));
  (*1127*) AddTo (T 206) (Plain (Einsum [(T 205,[0;1]); (n_t2'bbbb,[0;2;3;4])] [1;2;3;4]));
  (*1128*) Del (T 205);
  (*1129*) AddTo (T 210) (Times (Einsum [(T 206,[0;1;2;3])] [1;0;3;2]) (-1) 1);
  (*1130*) Del (T 206);
  (*1131*) AddTo n_t2new_bbbb (Times (Einsum [(T 210,[0;1;2;3])] [0;1;2;3]) (-1) 1);
  (*1132*) AddTo n_t2new_bbbb (Plain (Einsum [(T 210,[0;1;2;3])] [0;1;3;2]));
  (*1133*) AddTo n_t2new_bbbb (Plain (Einsum [(T 210,[0;1;2;3])] [1;0;2;3]));
  (*1134*) AddTo n_t2new_bbbb (Times (Einsum [(T 210,[0;1;2;3])] [1;0;3;2]) (-1) 1);
  (*1135*) Del (T 210);
  (*1136*) Assign (T 211) (Plain (Zeros [6;6;7;7]));
  (*1137*) AddTo (T 211) (Plain (Einsum [(n_t2'bbbb,[0;1;2;3]); (n_v'bbbb'oooo,[0;4;1;5])] [5;4;3;2]));
  (*1138*) Assign (T 213) (Plain (Zeros [6;6;7;7]));
  (*1139*) AddTo (T 213) (Plain (Einsum [(T 211,[0;1;2;3])] [1;0;3;2]));
  (*1140*) Del (T 211);
  (*1141*) Assign (T 212) (Plain (Zeros [6;6;7;7]));
  (*1142*) AddTo (T 212) (Plain (Einsum [(n_t2'bbbb,[0;1;2;3]); (n_v'bbbb'vvvv,[4;3;5;2])] [0;1;5;4]));
  (*1143*) AddTo (T 213) (Plain (Einsum [(T 212,[0;1;2;3])] [1;0;3;2]));
  (*1144*) Del (T 212);
  (*1145*) AddTo n_t2new_bbbb (Times (Einsum [(T 213,[0;1;2;3])] [0;1;3;2]) (-1) 1);
  (*1146*) AddTo n_t2new_bbbb (Plain (Einsum [(T 213,[0;1;2;3])] [0;1;2;3]));
  (*1147*) Del (T 213);
  (*1148*) Assign (T 214) (Plain (Zeros [6;7;7;7]));
  (*1149*) AddTo (T 214) (Plain (Einsum [(n_t1'bb,[0;1]); (n_v'bbbb'vvvv,[2;1;3;4])] [0;3;2;4]));
  (*1150*) Assign (T 215) (Plain (Zeros [6;6;7;7]));
  (*1151*) AddTo (T 215) (Plain (Einsum [(n_t1'bb,[0;1]); (T 214,[2;3;4;1])] [0;2;3;4]));
  (*1152*) Del (T 214);
  (*1153*) Assign (T 223) (Plain (Zeros [6;6;7;7]));
  (*1154*) AddTo (T 223) (Plain (Einsum [(T 215,[0;1;2;3])] [0;1;2;3]));
  (*1155*) Del (T 215);
  (*1156*) Assign (T 216) (Plain (Zeros [6;6;6;6]));
  (*1157*) AddTo (T 216) (Plain (Einsum [(n_t2'bbbb,[0;1;2;3]); (n_v'bbbb'ovov,[4;3;5;2])] [0;1;5;4]));
  (*1158*) AddTo (T 218) (Plain (Einsum [(T 216,[0;1;2;3])] [1;0;3;2]));
  (*1159*) Assign (T 219) (Plain (Zeros [6;6;7;7]));
  (*1160*) AddTo (T 219) (Plain (Einsum [(n_t2'bbbb,[0;1;2;3]); (T 218,[4;5;1;0])] [4;5;2;3]));
  (*1161*) Del (T 218);
  (*1162*) AddTo (T 223) (Plain (Einsum [(T 219,[0;1;2;3])] [1;0;2;3]));
  (*1163*) Del (T 219);
  (*1164*) Assign (T 220) (Plain (Zeros [6;6;6;6]));
  (*1165*) AddTo (T 220) (Plain (Einsum [(T 216,[0;1;2;3])] [3;2;1;0]));
  (*1166*) Del (T 216);
  (*1167*) AddTo (T 220) (Plain (Einsum [(n_v'bbbb'oooo,[0;1;2;3])] [2;0;3;1]));
  (*1168*) Assign (T 221) (Plain (Zeros [6;6;6;7]));
  (*1169*) AddTo (T 221) (Plain (Einsum [(n_t1'bb,[0;1]); (T 220,[0;2;3;4])] [2;3;4;1]));
  (*1170*) Del (T 220);
  (*1171*) Assign (T 222) (Plain (Zeros [6;6;7;7]));
  (*1172*) AddTo (T 222) (Plain (Einsum [(n_t1'bb,[0;1]); (T 221,[0;2;3;4])] [3;2;4;1]));
  (*1173*) Del (T 221);
  (*1174*) AddTo (T 223) (Plain (Einsum [(T 222,[0;1;2;3])] [1;0;2;3]));
  (*1175*) Del (T 222);
  (*1176*) AddTo n_t2new_bbbb (Plain (Einsum [(T 223,[0;1;2;3])] [0;1;2;3]));
  (*1177*) AddTo n_t2new_bbbb (Times (Einsum [(T 223,[0;1;2;3])] [0;1;3;2]) (-1) 1);
  (*1178*) Del (T 223);
  (*1179*) Assign (T 230) (Plain (Zeros [4;6;5;7]));
  (*1180*) AddTo (T 230) (Plain (Einsum [(n_t2'abab,[0;1;2;3]); (n_v'aabb'vvvv,[4;2;5;3])] [0;1;4;5]));
  (*1181*) AddTo n_t2new_baba (Plain (Einsum [(T 230,[0;1;2;3])] [1;0;3;2]));
  (*1182*) AddTo n_t2new_abab (Plain (Einsum [(T 230,[0;1;2;3])] [0;1;2;3]));
  (*1183*) Del (T 230);
  (*1184*) Assign (T 231) (Plain (Zeros [4;6;5;7]));
  (*1185*) AddTo (T 231) (Plain (Einsum [(n_t1'bb,[0;1]); (n_v'aabb'vovv,[2;3;4;1])] [3;0;2;4]));
  (*1186*) AddTo n_t2new_baba (Plain (Einsum [(T 231,[0;1;2;3])] [1;0;3;2]));
  (*1187*) AddTo n_t2new_abab (Plain (Einsum [(T 231,[0;1;2;3])] [0;1;2;3]));
  (*1188*) Del (T 231);
  (*1189*) AddTo (T 233) (Plain (Einsum [(n_v'aabb'ovvo,[0;1;2;3])] [0;3;1;2]));
  (*1190*) Assign (T 234) (Plain (Zeros [4;6;5;7]));
  (*1191*) AddTo (T 234) (Plain (Einsum [(T 233,[0;1;2;3]); (T 64,[0;4;2;5])] [4;1;5;3]));
  (*1192*) Del (T 233);
  (*1193*) Del (T 64);
  (*1194*) AddTo n_t2new_baba (Plain (Einsum [(T 234,[0;1;2;3])] [1;0;3;2]));
  (*1195*) AddTo n_t2new_abab (Plain (Einsum [(T 234,[0;1;2;3])] [0;1;2;3]));
  (*1196*) Del (T 234);
  (*1197*) Assign (T 235) (Plain (Zeros [6;6;7;7]));
  (*1198*) AddTo (T 235) (Plain (Einsum [(n_t2'abab,[0;1;2;3]); (n_v'aabb'ovov,[0;2;4;5])] [1;4;3;5]));
  (*1199*) AddTo (T 237) (Plain (Einsum [(T 235,[0;1;2;3])] [1;0;2;3]));
  (*1200*) Del (T 235);
  (*1201*) AddTo (T 237) (Plain (Einsum [(n_v'bbbb'ovvo,[0;1;2;3])] [0;3;2;1]));
  (*1202*) AddTo (T 237) (Times (Einsum [(n_v'bbbb'oovv,[0;1;2;3])] [0;1;2;3]) (-1) 1);
  (*1203*) Assign (T 238) (Plain (Zeros [4;6;5;7]));
  (*1204*) AddTo (T 238) (Plain (Einsum [(n_t2'abab,[0;1;2;3]); (T 237,[1;4;5;3])] [0;4;2;5]));
  (*1205*) Del (T 237);
  (*1206*) AddTo n_t2new_baba (Plain (Einsum [(T 238,[0;1;2;3])] [1;0;3;2]));
  (*1207*) AddTo n_t2new_abab (Plain (Einsum [(T 238,[0;1;2;3])] [0;1;2;3]));
  (*1208*) Del (T 238);
  (*1209*) AddTo (T 239) (Plain (Einsum [(n_v'bbaa'ovvo,[0;1;2;3])] [3;0;2;1]));
  (*1210*) Assign (T 240) (Plain (Zeros [4;6;5;7]));
  (*1211*) AddTo (T 240) (Plain (Einsum [(T 165,[0;1;2;3]); (T 239,[4;0;5;3])] [4;1;5;2]));
  (*1212*) AddTo n_t2new_baba (Plain (Einsum [(T 240,[0;1;2;3])] [1;0;3;2]));
  (*1213*) AddTo n_t2new_abab (Plain (Einsum [(T 240,[0;1;2;3])] [0;1;2;3]));
  (*1214*) Del (T 240);
  (*1215*) AddTo n_u12new_aa (Plain (Einsum [(n_u12'bb,[0;1;2;3]); (T 239,[4;2;5;3])] [1;0;4;5]));
  (*1216*) Del (T 239);
  (*1217*) Assign (T 241) (Plain (Zeros [4;5;5;5]));
  (*1218*) SubFrom (T 241) (Plain (Einsum [(n_v'aaaa'ovvv,[0;1;2;3])] [0;2;1;3]));
  (*1219*) AddTo (T 241) (Plain (Einsum [(n_v'aaaa'ovvv,[0;1;2;3])] [0;2;3;1]));
  (*1220*) Assign (T 242) (Plain (Zeros [4;4;5;5]));
  (*1221*) AddTo (T 242) (Plain (Einsum [(n_t1'aa,[0;1]); (T 241,[2;3;4;1])] [2;0;3;4]));
  (*1222*) Assign (T 243) (Plain (Zeros [4;4;5;5]));
  (*1223*) SubFrom (T 243) (Plain (Einsum [(T 242,[0;1;2;3])] [0;1;2;3]));
  (*1224*) Del (T 242);
  (*1225*) Assign (T 341) (Plain (Zeros [3;5;5]));
  (*1226*) AddTo (T 341) (Plain (Einsum [(n_u11'aa,[0;1;2]); (T 241,[1;3;4;2])] [0;3;4]));
  (*1227*) Del (T 241);
  (*1228*) Assign (T 342) (Plain (Zeros [3;5;5]));
  (*1229*) SubFrom (T 342) (Plain (Einsum [(T 341,[0;1;2])] [0;2;1]));
  (*1230*) Del (T 341);
  (*1231*) AddTo (T 243) (Plain (Einsum [(n_v'aaaa'ovvo,[0;1;2;3])] [0;3;2;1]));
  (*1232*) SubFrom (T 243) (Plain (Einsum [(n_v'aaaa'oovv,[0;1;2;3])] [0;1;2;3]));
  (*1233*) Assign (T 244) (Plain (Zeros [4;6;5;7]));
  (*1234*) AddTo (T 244) (Plain (Einsum [(n_t2'abab,[0;1;2;3]); (T 243,[0;4;5;2])] [4;1;5;3]));
  (*1235*) AddTo n_t2new_baba (Plain (Einsum [(T 244,[0;1;2;3])] [1;0;3;2]));
  (*1236*) AddTo n_t2new_abab (Plain (Einsum [(T 244,[0;1;2;3])] [0;1;2;3]));
  (*1237*) Del (T 244);
  (*1238*) AddTo n_u12new_aa (Plain (Einsum [(n_u12'aa,[0;1;2;3]); (T 243,[2;4;5;3])] [1;0;4;5]));
  (*1239*) Del (T 243);
  (*1240*) Assign (T 245) (Plain (Zeros [4;4;7;7]));
  (*1241*) AddTo (T 245) (Plain (Einsum [(n_t1'aa,[0;1]); (n_v'aabb'ovvv,[2;1;3;4])] [0;2;3;4]));
  (*1242*) Assign (T 247) (Plain (Zeros [4;4;7;7]));
  (*1243*) AddTo (T 247) (Plain (Einsum [(T 245,[0;1;2;3])] [1;0;2;3]));
  (*1244*) Del (T 245);
  (*1245*) Assign (T 246) (Plain (Zeros [4;4;7;7]));
  (*1246*) AddTo (T 246) (Plain (Einsum [(n_t2'abab,[0;1;2;3]); (n_v'aabb'ovov,[4;2;1;5])] [0;4;3;5]));
  (*1247*) SubFrom (T 247) (Plain (Einsum [(T 246,[0;1;2;3])] [1;0;2;3]));
  (*1248*) Del (T 246);
  (*1249*) AddTo (T 247) (Plain (Einsum [(n_v'aabb'oovv,[0;1;2;3])] [0;1;2;3]));
  (*1250*) Assign (T 248) (Plain (Zeros [4;6;5;7]));
  (*1251*) AddTo (T 248) (Plain (Einsum [(n_t2'abab,[0;1;2;3]); (T 247,[0;4;5;3])] [4;1;2;5]));
  (*1252*) Del (T 247);
  (*1253*) SubFrom n_t2new_baba (Plain (Einsum [(T 248,[0;1;2;3])] [1;0;3;2]));
  (*1254*) SubFrom n_t2new_abab (Plain (Einsum [(T 248,[0;1;2;3])] [0;1;2;3]));
  (*1255*) Del (T 248);
  (*1256*) Assign (T 249) (Plain (Zeros [4;4;6;6]));
  (*1257*) AddTo (T 249) (Plain (Einsum [(n_t1'bb,[0;1]); (n_v'aabb'ooov,[2;3;4;1])] [2;3;0;4]));
  (*1258*) Assign (T 253) (Plain (Zeros [4;4;6;6]));
  (*1259*) AddTo (T 253) (Plain (Einsum [(T 249,[0;1;2;3])] [0;1;3;2]));
  (*1260*) AddTo (T 266) (Plain (Einsum [(T 249,[0;1;2;3])] [0;1;3;2]));
  (*1261*) Del (T 249);
  (*1262*) Assign (T 250) (Plain (Zeros [4;4;6;6]));
  (*1263*) AddTo (T 250) (Plain (Einsum [(n_t2'abab,[0;1;2;3]); (n_v'aabb'ovov,[4;2;5;3])] [0;4;1;5]));
  (*1264*) AddTo (T 253) (Plain (Einsum [(T 250,[0;1;2;3])] [1;0;3;2]));
  (*1265*) AddTo (T 266) (Plain (Einsum [(T 250,[0;1;2;3])] [1;0;3;2]));
  (*1266*) Del (T 250);
  (*1267*) AddTo (T 251) (Plain (Einsum [(n_v'aabb'ovoo,[0;1;2;3])] [0;2;3;1]));
  (*1268*) Assign (T 252) (Plain (Zeros [4;4;6;6]));
  (*1269*) AddTo (T 252) (Plain (Einsum [(n_t1'aa,[0;1]); (T 251,[2;3;4;1])] [2;0;3;4]));
  (*1270*) Del (T 251);
  (*1271*) AddTo (T 253) (Plain (Einsum [(T 252,[0;1;2;3])] [0;1;2;3]));
  (*1272*) Del (T 252);
  (*1273*) AddTo (T 253) (Plain (Einsum [(n_v'aabb'oooo,[0;1;2;3])] [0;1;2;3]));
  (*1274*) Assign (T 254) (Plain (Zeros [4;6;5;7]));
  (*1275*) AddTo (T 254) (Plain (Einsum [(n_t2'abab,[0;1;2;3]); (T 253,[0;4;1;5])] [4;5;2;3]));
  (*1276*) Del (T 253);
  (*1277*) AddTo n_t2new_baba (Plain (Einsum [(T 254,[0;1;2;3])] [1;0;3;2]));
  (*1278*) AddTo n_t2new_abab (Plain (Einsum [(T 254,[0;1;2;3])] [0;1;2;3]));
  (*1279*) Del (T 254);
  (*1280*) Assign (T 255) (Plain (Zeros [6;6;5;5]));
  (*1281*) AddTo (T 255) (Plain (Einsum [(n_t1'bb,[0;1]); (n_v'bbaa'ovvv,[2;1;3;4])] [0;2;3;4]));
  (*1282*) Assign (T 256) (Plain (Zeros [6;6;5;5]));
  (*1283*) AddTo (T 256) (Plain (Einsum [(T 255,[0;1;2;3])] [1;0;2;3]));
  (*1284*) Assign (T 286) (Plain (Zeros [6;6;5;5]));
  (*1285*) AddTo (T 286) (Plain (Einsum [(T 255,[0;1;2;3])] [1;0;2;3]));
  (*1286*) Del (T 255);
  (*1287*) AddTo (T 256) (Plain (Einsum [(n_v'bbaa'oovv,[0;1;2;3])] [0;1;2;3]));
  (*1288*) Assign (T 257) (Plain (Zeros [4;6;5;7]));
  (*1289*) AddTo (T 257) (Plain (Einsum [(n_t2'abab,[0;1;2;3]); (T 256,[1;4;5;2])] [0;4;5;3]));
  (*1290*) Del (T 256);
  (*1291*) SubFrom n_t2new_baba (Plain (Einsum [(T 257,[0;1;2;3])] [1;0;3;2]));
  (*1292*) SubFrom n_t2new_abab (Plain (Einsum [(T 257,[0;1;2;3])] [0;1;2;3]));
  (*1293*) Del (T 257);
  (*1294*) Assign (T 258) (Plain (Zeros [4;4;6;7]));
  (*1295*) AddTo (T 258) (Plain (Einsum [(n_t1'bb,[0;1]); (n_v'aabb'oovv,[2;3;4;1])] [2;3;0;4]));
  (*1296*) AddTo (T 270) (Plain (Einsum [(T 258,[0;1;2;3])] [0;1;2;3]));
  (*1297*) Del (T 258);
  (*1298*) Assign (T 259) (Plain (Zeros [4;4;6;7]));
  (*1299*) AddTo (T 259) (Plain (Einsum [(n_t2'abab,[0;1;2;3]); (n_v'aabb'ovvv,[4;2;5;3])] [0;4;1;5]));
  (*1300*) AddTo (T 270) (Plain (Einsum [(T 259,[0;1;2;3])] [1;0;2;3]));
  (*1301*) Del (T 259);
  (*1302*) AddTo (T 260) (Plain (Einsum [(n_v'aaaa'ooov,[0;1;2;3])] [0;2;1;3]));
  (*1303*) AddTo (T 260) (Times (Einsum [(n_v'aaaa'ooov,[0;1;2;3])] [2;0;1;3]) (-1) 1);
  (*1304*) Assign (T 261) (Plain (Zeros [4;4;6;7]));
  (*1305*) AddTo (T 261) (Plain (Einsum [(n_t2'abab,[0;1;2;3]); (T 260,[0;4;5;2])] [4;5;1;3]));
  (*1306*) AddTo (T 270) (Times (Einsum [(T 261,[0;1;2;3])] [0;1;2;3]) (-1) 1);
  (*1307*) Del (T 261);
  (*1308*) AddTo (T 375) (Times (Einsum [(n_u12'aa,[0;1;2;3]); (T 260,[2;4;5;3])] [1;0;4;5]) (-1) 1);
  (*1309*) Del (T 260);
  (*1310*) AddTo n_u12new_aa (Times (Einsum [(n_t1'aa,[0;1]); (T 375,[2;3;0;4])] [3;2;4;1]) (-1) 1);
  (*1311*) Del (T 375);
  (*1312*) AddTo (T 266) (Plain (Einsum [(n_v'aabb'oooo,[0;1;2;3])] [0;1;2;3]));
  (*1313*) Assign (T 267) (Plain (Zeros [4;4;6;7]));
  (*1314*) AddTo (T 267) (Plain (Einsum [(n_t1'bb,[0;1]); (T 266,[2;3;0;4])] [2;3;4;1]));
  (*1315*) Del (T 266);
  (*1316*) AddTo (T 270) (Times (Einsum [(T 267,[0;1;2;3])] [0;1;2;3]) (-1) 1);
  (*1317*) Del (T 267);
  (*1318*) AddTo (T 268) (Plain (Einsum [(n_v'aabb'ovvo,[0;1;2;3])] [0;3;1;2]));
  (*1319*) Assign (T 269) (Plain (Zeros [4;4;6;7]));
  (*1320*) AddTo (T 269) (Plain (Einsum [(n_t1'aa,[0;1]); (T 268,[2;3;1;4])] [2;0;3;4]));
  (*1321*) Del (T 268);
  (*1322*) AddTo (T 270) (Plain (Einsum [(T 269,[0;1;2;3])] [0;1;2;3]));
  (*1323*) Del (T 269);
  (*1324*) AddTo (T 270) (Plain (Einsum [(n_v'aabb'oovo,[0;1;2;3])] [0;1;3;2]));
  (*1325*) Assign (T 271) (Plain (Zeros [4;6;5;7]));
  (*1326*) AddTo (T 271) (Plain (Einsum [(n_t1'aa,[0;1]); (T 270,[0;2;3;4])] [2;3;1;4]));
  (*1327*) Del (T 270);
  (*1328*) AddTo n_t2new_baba (Times (Einsum [(T 271,[0;1;2;3])] [1;0;3;2]) (-1) 1);
  (*1329*) AddTo n_t2new_abab (Times (Einsum [(T 271,[0;1;2;3])] [0;1;2;3]) (-1) 1);
  (*1330*) Del (T 271);
  (*1331*) AddTo (T 273) (Plain (Einsum [(n_f'bb'vv,[0;1])] [0;1]));
  (*1332*) Assign (T 274) (Plain (Zeros [4;6;5;7]));
  (*1333*) AddTo (T 274) (Plain (Einsum [(T 273,[0;1]); (n_t2'abab,[2;3;4;1])] [2;3;4;0]));
  (*1334*) AddTo n_t2new_baba (Plain (Einsum [(T 274,[0;1;2;3])] [1;0;3;2]));
  (*1335*) AddTo n_t2new_abab (Plain (Einsum [(T 274,[0;1;2;3])] [0;1;2;3]));
  (*1336*) Del (T 274);
  (*1337*) AddTo n_u12new_bb (Plain (Einsum [(T 273,[0;1]); (n_u12'bb,[2;3;4;1])] [3;2;4;0]));
  (*1338*) Del (T 273);
  (*1339*) Assign (T 275) (Plain (Zeros [4;4;5;5]));
  (*1340*) AddTo (T 275) (Times (Einsum [(n_v'aaaa'ovov,[0;1;2;3])] [2;0;1;3]) (-1) 1);
  (*1341*) AddTo (T 275) (Plain (Einsum [(n_v'aaaa'ovov,[0;1;2;3])] [2;0;3;1]));
  (*1342*) Assign (T 276) (Plain (Zeros [5;5]));
  (*1343*) AddTo (T 276) (Plain (Einsum [(n_t2'aaaa,[0;1;2;3]); (T 275,[0;1;4;3])] [4;2]));
  (*1344*) Del (T 275);
  (*1345*) AddTo (T 277) (Times (Einsum [(T 276,[0;1])] [1;0]) (-1) 1);
  (*1346*) AddTo (T 318) (Times (Einsum [(T 276,[0;1])] [1;0]) (-1) 1);
  (*1347*) Del (T 276);
  (*1348*) AddTo (T 277) (Plain (Einsum [(n_f'aa'vv,[0;1])] [0;1]));
  (*1349*) Assign (T 278) (Plain (Zeros [4;6;5;7]));
  (*1350*) AddTo (T 278) (Plain (Einsum [(T 277,[0;1]); (n_t2'abab,[2;3;1;4])] [2;3;0;4]));
  (*1351*) AddTo n_t2new_baba (Plain (Einsum [(T 278,[0;1;2;3])] [1;0;3;2]));
  (*1352*) AddTo n_t2new_abab (Plain (Einsum [(T 278,[0;1;2;3])] [0;1;2;3]));
  (*1353*) Del (T 278);
  (*1354*) AddTo n_u12new_aa (Plain (Einsum [(T 277,[0;1]); (n_u12'aa,[2;3;4;1])] [3;2;4;0]));
  (*1355*) Del (T 277);
  (*1356*) Assign (T 279) (Plain (Zeros [4;6;6;5]));
  (*1357*) AddTo (T 279) (Plain (Einsum [(n_t1'bb,[0;1]); (n_v'bbaa'ovvo,[2;1;3;4])] [4;0;2;3]));
  (*1358*) AddTo (T 288) (Plain (Einsum [(T 279,[0;1;2;3])] [0;2;1;3]));
  (*1359*) Del (T 279);
  (*1360*) Assign (T 280) (Plain (Zeros [4;6;6;5]));
  (*1361*) AddTo (T 280) (Plain (Einsum [(n_t2'abab,[0;1;2;3]); (n_v'bbaa'ovvv,[4;3;5;2])] [0;1;4;5]));
  (*1362*) AddTo (T 288) (Plain (Einsum [(T 280,[0;1;2;3])] [0;2;1;3]));
  (*1363*) Del (T 280);
  (*1364*) AddTo (T 281) (Plain (Einsum [(n_v'bbbb'ooov,[0;1;2;3])] [0;2;1;3]));
  (*1365*) AddTo (T 281) (Times (Einsum [(n_v'bbbb'ooov,[0;1;2;3])] [2;0;1;3]) (-1) 1);
  (*1366*) Assign (T 282) (Plain (Zeros [4;6;6;5]));
  (*1367*) AddTo (T 282) (Plain (Einsum [(n_t2'abab,[0;1;2;3]); (T 281,[1;4;5;3])] [0;4;5;2]));
  (*1368*) AddTo (T 288) (Times (Einsum [(T 282,[0;1;2;3])] [0;1;2;3]) (-1) 1);
  (*1369*) Del (T 282);
  (*1370*) AddTo (T 414) (Times (Einsum [(n_u12'bb,[0;1;2;3]); (T 281,[2;4;5;3])] [1;0;4;5]) (-1) 1);
  (*1371*) Del (T 281);
  (*1372*) AddTo n_u12new_bb (Times (Einsum [(n_t1'bb,[0;1]); (T 414,[2;3;0;4])] [3;2;4;1]) (-1) 1);
  (*1373*) Del (T 414);
  (*1374*) AddTo (T 286) (Plain (Einsum [(n_v'bbaa'oovv,[0;1;2;3])] [0;1;2;3]));
  (*1375*) Assign (T 287) (Plain (Zeros [4;6;6;5]));
  (*1376*) AddTo (T 287) (Plain (Einsum [(n_t1'aa,[0;1]); (T 286,[2;3;4;1])] [0;2;3;4]));
  (*1377*) Del (T 286);
  (*1378*) AddTo (T 288) (Plain (Einsum [(T 287,[0;1;2;3])] [0;1;2;3]));
  (*1379*) Del (T 287);
  (*1380*) AddTo (T 288) (Plain (Einsum [(n_v'bbaa'oovo,[0;1;2;3])] [3;0;1;2]));
  (*1381*) Assign (T 289) (Plain (Zeros [4;6;5;7]));
  (*1382*) AddTo (T 289) (Plain (Einsum [(n_t1'bb,[0;1]); (T 288,[2;0;3;4])] [2;3;4;1]));
  (*1383*) Del (T 288);
  (*1384*) AddTo n_t2new_baba (Times (Einsum [(T 289,[0;1;2;3])] [1;0;3;2]) (-1) 1);
  (*1385*) AddTo n_t2new_abab (Times (Einsum [(T 289,[0;1;2;3])] [0;1;2;3]) (-1) 1);
  (*1386*) Del (T 289);
  (*1387*) Assign (T 294) (Plain (Zeros [6;5;5;7]));
  (*1388*) AddTo (T 294) (Plain (Einsum [(n_t1'bb,[0;1]); (n_v'aabb'vvvv,[2;3;4;1])] [0;2;3;4]));
  (*1389*) Assign (T 295) (Plain (Zeros [6;5;5;7]));
  (*1390*) AddTo (T 295) (Plain (Einsum [(T 294,[0;1;2;3])] [0;1;2;3]));
  (*1391*) Del (T 294);
  (*1392*) AddTo (T 295) (Plain (Einsum [(n_v'aabb'vvvo,[0;1;2;3])] [3;0;1;2]));
  (*1393*) Assign (T 296) (Plain (Zeros [4;6;5;7]));
  (*1394*) AddTo (T 296) (Plain (Einsum [(n_t1'aa,[0;1]); (T 295,[2;3;1;4])] [0;2;3;4]));
  (*1395*) Del (T 295);
  (*1396*) AddTo n_t2new_baba (Plain (Einsum [(T 296,[0;1;2;3])] [1;0;3;2]));
  (*1397*) AddTo n_t2new_abab (Plain (Einsum [(T 296,[0;1;2;3])] [0;1;2;3]));
  (*1398*) Del (T 296);
  (*1399*) AddTo (T 297) (Plain (Einsum [(n_f'bb'ov,[0;1])] [0;1]));
  (*1400*) AddTo n_s1new (Plain (Einsum [(T 297,[0;1]); (n_u11'bb,[2;0;1])] [2]));
  (*1401*) AddTo n_s2new (Plain (Einsum [(T 297,[0;1]); (n_u12'bb,[2;3;0;1])] [3;2]));
  (*1402*) Del (T 297);
  (*1403*) AddTo (T 298) (Plain (Einsum [(n_f'aa'ov,[0;1])] [0;1]));
  (*1404*) AddTo n_s1new (Plain (Einsum [(T 298,[0;1]); (n_u11'aa,[2;0;1])] [2]));
  (*1405*) AddTo n_s2new (Plain (Einsum [(T 298,[0;1]); (n_u12'aa,[2;3;0;1])] [3;2]));
  (*1406*) Del (T 298);
  (*1407*) Assign (T 299) (Plain (Zeros [3;3]));
  (*1408*) AddTo (T 299) (Plain (Einsum [(n_gc'aa'bov,[0;1;2]); (n_u11'aa,[3;1;2])] [0;3]));
  (*1409*) Assign (T 307) (Plain (Zeros [3;3]));
  (*1410*) AddTo (T 307) (Plain (Einsum [(T 299,[0;1])] [0;1]));
  (*1411*) Del (T 299);
  (*1412*) Assign (T 300) (Plain (Zeros [3;6;7]));
  (*1413*) AddTo (T 300) (Plain (Einsum [(n_u11'aa,[0;1;2]); (n_v'aabb'ovov,[1;2;3;4])] [0;3;4]));
  (*1414*) Assign (T 301) (Plain (Zeros [3;6;7]));
  (*1415*) AddTo (T 301) (Plain (Einsum [(T 300,[0;1;2])] [0;1;2]));
  (*1416*) AddTo (T 316) (Plain (Einsum [(T 300,[0;1;2])] [0;1;2]));
  (*1417*) Assign (T 401) (Plain (Zeros [3;6;6]));
  (*1418*) AddTo (T 401) (Plain (Einsum [(n_t1'bb,[0;1]); (T 300,[2;3;1])] [2;0;3]));
  (*1419*) AddTo (T 403) (Plain (Einsum [(T 401,[0;1;2])] [0;1;2]));
  (*1420*) Del (T 401);
  (*1421*) Assign (T 404) (Plain (Zeros [3;3;6;7]));
  (*1422*) AddTo (T 404) (Plain (Einsum [(n_u11'bb,[0;1;2]); (T 403,[3;4;1])] [3;0;4;2]));
  (*1423*) Del (T 403);
  (*1424*) AddTo (T 411) (Plain (Einsum [(T 404,[0;1;2;3])] [0;1;2;3]));
  (*1425*) Del (T 404);
  (*1426*) Assign (T 405) (Plain (Zeros [3;3;6;6]));
  (*1427*) AddTo (T 405) (Plain (Einsum [(n_u11'bb,[0;1;2]); (T 300,[3;4;2])] [3;0;1;4]));
  (*1428*) Del (T 300);
  (*1429*) AddTo (T 407) (Plain (Einsum [(T 405,[0;1;2;3])] [0;1;2;3]));
  (*1430*) Del (T 405);
  (*1431*) Assign (T 408) (Plain (Zeros [3;3;6;7]));
  (*1432*) AddTo (T 408) (Plain (Einsum [(n_t1'bb,[0;1]); (T 407,[2;3;4;0])] [2;3;4;1]));
  (*1433*) Del (T 407);
  (*1434*) AddTo (T 411) (Plain (Einsum [(T 408,[0;1;2;3])] [0;1;2;3]));
  (*1435*) Del (T 408);
  (*1436*) AddTo n_u12new_bb (Times (Einsum [(T 411,[0;1;2;3])] [0;1;2;3]) (-1) 1);
  (*1437*) AddTo n_u12new_bb (Times (Einsum [(T 411,[0;1;2;3])] [1;0;2;3]) (-1) 1);
  (*1438*) Del (T 411);
  (*1439*) AddTo (T 301) (Plain (Einsum [(n_gc'bb'bov,[0;1;2])] [0;1;2]));
  (*1440*) Assign (T 302) (Plain (Zeros [3;3]));
  (*1441*) AddTo (T 302) (Plain (Einsum [(n_u11'bb,[0;1;2]); (T 301,[3;1;2])] [3;0]));
  (*1442*) Del (T 301);
  (*1443*) AddTo (T 307) (Plain (Einsum [(T 302,[0;1])] [0;1]));
  (*1444*) Del (T 302);
  (*1445*) Assign (T 303) (Plain (Zeros [3;3]));
  (*1446*) AddTo (T 303) (Plain (Einsum [(n_g'aa'bov,[0;1;2]); (n_u11'aa,[3;1;2])] [0;3]));
  (*1447*) Assign (T 305) (Plain (Zeros [3;3]));
  (*1448*) AddTo (T 305) (Plain (Einsum [(T 303,[0;1])] [0;1]));
  (*1449*) Assign (T 358) (Plain (Zeros [3;3]));
  (*1450*) AddTo (T 358) (Plain (Einsum [(T 303,[0;1])] [0;1]));
  (*1451*) Del (T 303);
  (*1452*) Assign (T 304) (Plain (Zeros [3;3]));
  (*1453*) AddTo (T 304) (Plain (Einsum [(n_g'bb'bov,[0;1;2]); (n_u11'bb,[3;1;2])] [0;3]));
  (*1454*) AddTo (T 305) (Plain (Einsum [(T 304,[0;1])] [0;1]));
  (*1455*) AddTo (T 358) (Plain (Einsum [(T 304,[0;1])] [0;1]));
  (*1456*) Del (T 304);
  (*1457*) Assign (T 359) (Plain (Zeros [3;3;4;5]));
  (*1458*) AddTo (T 359) (Plain (Einsum [(T 358,[0;1]); (n_u12'aa,[0;2;3;4])] [2;1;3;4]));
  (*1459*) Assign (T 360) (Plain (Zeros [3;3;4;5]));
  (*1460*) SubFrom (T 360) (Plain (Einsum [(T 359,[0;1;2;3])] [1;0;2;3]));
  (*1461*) Del (T 359);
  (*1462*) Assign (T 399) (Plain (Zeros [3;3;6;7]));
  (*1463*) AddTo (T 399) (Plain (Einsum [(T 358,[0;1]); (n_u12'bb,[0;2;3;4])] [2;1;3;4]));
  (*1464*) Del (T 358);
  (*1465*) Assign (T 400) (Plain (Zeros [3;3;6;7]));
  (*1466*) SubFrom (T 400) (Plain (Einsum [(T 399,[0;1;2;3])] [1;0;2;3]));
  (*1467*) Del (T 399);
  (*1468*) AddTo (T 305) (Plain (Einsum [(n_w,[0;1])] [0;1]));
  (*1469*) Assign (T 306) (Plain (Zeros [3;3]));
  (*1470*) AddTo (T 306) (Plain (Einsum [(n_s2,[0;1]); (T 305,[0;2])] [1;2]));
  (*1471*) AddTo (T 307) (Plain (Einsum [(T 306,[0;1])] [0;1]));
  (*1472*) Del (T 306);
  (*1473*) AddTo n_s2new (Plain (Einsum [(T 307,[0;1])] [0;1]));
  (*1474*) AddTo n_s2new (Plain (Einsum [(T 307,[0;1])] [1;0]));
  (*1475*) Del (T 307);
  (*1476*) AddTo n_u11new_aa (Plain (Einsum [(T 305,[0;1]); (n_u11'aa,[0;2;3])] [1;2;3]));
  (*1477*) AddTo n_u11new_bb (Plain (Einsum [(T 305,[0;1]); (n_u11'bb,[0;2;3])] [1;2;3]));
  (*1478*) Del (T 305);
  (*1479*) Assign (T 310) (Plain (Zeros [3;4;5]));
  (*1480*) AddTo (T 310) (Plain (Einsum [(n_s2,[0;1]); (n_g'aa'bov,[1;2;3])] [0;2;3]));
  (*1481*) AddTo (T 313) (Plain (Einsum [(T 310,[0;1;2])] [0;1;2]));
  (*1482*) Assign (T 346) (Plain (Zeros [3;4;5]));
  (*1483*) AddTo (T 346) (Plain (Einsum [(T 310,[0;1;2])] [0;1;2]));
  (*1484*) Del (T 310);
  (*1485*) Assign (T 311) (Plain (Zeros [3;4;5]));
  (*1486*) AddTo (T 311) (Plain (Einsum [(n_u11'bb,[0;1;2]); (n_v'aabb'ovov,[3;4;1;2])] [0;3;4]));
  (*1487*) AddTo (T 313) (Plain (Einsum [(T 311,[0;1;2])] [0;1;2]));
  (*1488*) AddTo (T 361) (Plain (Einsum [(T 311,[0;1;2])] [0;1;2]));
  (*1489*) Del (T 311);
  (*1490*) Assign (T 362) (Plain (Zeros [3;5;5]));
  (*1491*) AddTo (T 362) (Plain (Einsum [(n_t1'aa,[0;1]); (T 361,[2;0;3])] [2;3;1]));
  (*1492*) Assign (T 363) (Plain (Zeros [3;3;4;5]));
  (*1493*) AddTo (T 363) (Plain (Einsum [(n_u11'aa,[0;1;2]); (T 362,[3;2;4])] [3;0;1;4]));
  (*1494*) Del (T 362);
  (*1495*) AddTo (T 368) (Plain (Einsum [(T 363,[0;1;2;3])] [1;0;2;3]));
  (*1496*) Del (T 363);
  (*1497*) Assign (T 364) (Plain (Zeros [3;4;4]));
  (*1498*) AddTo (T 364) (Plain (Einsum [(n_t1'aa,[0;1]); (T 361,[2;3;1])] [2;3;0]));
  (*1499*) Del (T 361);
  (*1500*) Assign (T 365) (Plain (Zeros [3;3;4;5]));
  (*1501*) AddTo (T 365) (Plain (Einsum [(n_u11'aa,[0;1;2]); (T 364,[3;1;4])] [3;0;4;2]));
  (*1502*) Del (T 364);
  (*1503*) AddTo (T 368) (Plain (Einsum [(T 365,[0;1;2;3])] [1;0;2;3]));
  (*1504*) Del (T 365);
  (*1505*) AddTo n_u12new_aa (Times (Einsum [(T 368,[0;1;2;3])] [0;1;2;3]) (-1) 1);
  (*1506*) AddTo n_u12new_aa (Times (Einsum [(T 368,[0;1;2;3])] [1;0;2;3]) (-1) 1);
  (*1507*) Del (T 368);
  (*1508*) AddTo (T 313) (Plain (Einsum [(n_gc'aa'bov,[0;1;2])] [0;1;2]));
  (*1509*) AddTo (T 323) (Plain (Einsum [(n_t1'aa,[0;1]); (T 313,[2;3;1])] [2;3;0]));
  (*1510*) AddTo n_u11new_aa (Times (Einsum [(T 313,[0;1;2]); (T 11,[1;3;2;4])] [0;3;4]) (-1) 1);
  (*1511*) AddTo n_u11new_bb (Plain (Einsum [(T 313,[0;1;2]); (n_t2'abab,[1;3;2;4])] [0;3;4]));
  (*1512*) Del (T 313);
  (*1513*) Assign (T 314) (Plain (Zeros [3;6;7]));
  (*1514*) AddTo (T 314) (Plain (Einsum [(n_s2,[0;1]); (n_g'bb'bov,[1;2;3])] [0;2;3]));
  (*1515*) AddTo (T 316) (Plain (Einsum [(T 314,[0;1;2])] [0;1;2]));
  (*1516*) Assign (T 382) (Plain (Zeros [3;6;7]));
  (*1517*) AddTo (T 382) (Plain (Einsum [(T 314,[0;1;2])] [0;1;2]));
  (*1518*) Del (T 314);
  (*1519*) AddTo (T 316) (Plain (Einsum [(n_gc'bb'bov,[0;1;2])] [0;1;2]));
  (*1520*) AddTo (T 334) (Plain (Einsum [(n_t1'bb,[0;1]); (T 316,[2;3;1])] [2;3;0]));
  (*1521*) AddTo n_u11new_aa (Plain (Einsum [(T 316,[0;1;2]); (n_t2'abab,[3;1;4;2])] [0;3;4]));
  (*1522*) AddTo n_u11new_bb (Times (Einsum [(T 316,[0;1;2]); (T 165,[1;3;2;4])] [0;3;4]) (-1) 1);
  (*1523*) Del (T 316);
  (*1524*) Del (T 165);
  (*1525*) AddTo (T 318) (Plain (Einsum [(n_f'aa'vv,[0;1])] [0;1]));
  (*1526*) AddTo n_u11new_aa (Plain (Einsum [(T 318,[0;1]); (n_u11'aa,[2;3;1])] [2;3;0]));
  (*1527*) Del (T 318);
  (*1528*) Assign (T 319) (Plain (Zeros [3;4;4]));
  (*1529*) AddTo (T 319) (Plain (Einsum [(n_s2,[0;1]); (n_g'aa'boo,[1;2;3])] [0;2;3]));
  (*1530*) AddTo (T 323) (Plain (Einsum [(T 319,[0;1;2])] [0;1;2]));
  (*1531*) Assign (T 348) (Plain (Zeros [3;4;4]));
  (*1532*) AddTo (T 348) (Plain (Einsum [(T 319,[0;1;2])] [0;1;2]));
  (*1533*) Del (T 319);
  (*1534*) Assign (T 320) (Plain (Zeros [3;4;4]));
  (*1535*) AddTo (T 320) (Plain (Einsum [(n_g'aa'bov,[0;1;2]); (n_u12'aa,[3;0;4;2])] [3;1;4]));
  (*1536*) AddTo (T 323) (Plain (Einsum [(T 320,[0;1;2])] [0;1;2]));
  (*1537*) Assign (T 352) (Plain (Zeros [3;4;4]));
  (*1538*) AddTo (T 352) (Plain (Einsum [(T 320,[0;1;2])] [0;1;2]));
  (*1539*) Del (T 320);
  (*1540*) Assign (T 321) (Plain (Zeros [3;4;4]));
  (*1541*) AddTo (T 321) (Plain (Einsum [(n_u11'bb,[0;1;2]); (n_v'aabb'ooov,[3;4;1;2])] [0;3;4]));
  (*1542*) AddTo (T 323) (Plain (Einsum [(T 321,[0;1;2])] [0;1;2]));
  (*1543*) AddTo (T 352) (Plain (Einsum [(T 321,[0;1;2])] [0;1;2]));
  (*1544*) Del (T 321);
  (*1545*) AddTo (T 322) (Plain (Einsum [(n_f'aa'ov,[0;1])] [0;1]));
  (*1546*) AddTo (T 323) (Plain (Einsum [(T 322,[0;1]); (n_u11'aa,[2;3;1])] [2;0;3]));
  (*1547*) Del (T 322);
  (*1548*) AddTo (T 323) (Plain (Einsum [(n_gc'aa'boo,[0;1;2])] [0;1;2]));
  (*1549*) AddTo n_u11new_aa (Times (Einsum [(n_t1'aa,[0;1]); (T 323,[2;0;3])] [2;3;1]) (-1) 1);
  (*1550*) Del (T 323);
  (*1551*) Assign (T 324) (Plain (Zeros [3;5;5]));
  (*1552*) AddTo (T 324) (Plain (Einsum [(n_s2,[0;1]); (n_g'aa'bvv,[1;2;3])] [0;2;3]));
  (*1553*) Assign (T 327) (Plain (Zeros [3;5;5]));
  (*1554*) AddTo (T 327) (Plain (Einsum [(T 324,[0;1;2])] [0;1;2]));
  (*1555*) Assign (T 354) (Plain (Zeros [3;5;5]));
  (*1556*) AddTo (T 354) (Plain (Einsum [(T 324,[0;1;2])] [0;1;2]));
  (*1557*) Del (T 324);
  (*1558*) Assign (T 325) (Plain (Zeros [3;5;5]));
  (*1559*) AddTo (T 325) (Plain (Einsum [(n_u11'bb,[0;1;2]); (n_v'bbaa'ovvv,[1;2;3;4])] [0;3;4]));
  (*1560*) AddTo (T 327) (Plain (Einsum [(T 325,[0;1;2])] [0;1;2]));
  (*1561*) SubFrom (T 342) (Plain (Einsum [(T 325,[0;1;2])] [0;2;1]));
  (*1562*) Del (T 325);
  (*1563*) Assign (T 326) (Plain (Zeros [4;5;5;5]));
  (*1564*) AddTo (T 326) (Plain (Einsum [(n_v'aaaa'ovvv,[0;1;2;3])] [0;2;1;3]));
  (*1565*) SubFrom (T 326) (Plain (Einsum [(n_v'aaaa'ovvv,[0;1;2;3])] [0;2;3;1]));
  (*1566*) SubFrom (T 327) (Plain (Einsum [(n_u11'aa,[0;1;2]); (T 326,[1;3;4;2])] [0;3;4]));
  (*1567*) Del (T 326);
  (*1568*) AddTo (T 327) (Plain (Einsum [(n_gc'aa'bvv,[0;1;2])] [0;1;2]));
  (*1569*) AddTo n_u11new_aa (Plain (Einsum [(n_t1'aa,[0;1]); (T 327,[2;3;1])] [2;0;3]));
  (*1570*) Del (T 327);
  (*1571*) AddTo (T 329) (Plain (Einsum [(n_f'bb'vv,[0;1])] [0;1]));
  (*1572*) AddTo n_u11new_bb (Plain (Einsum [(T 329,[0;1]); (n_u11'bb,[2;3;1])] [2;3;0]));
  (*1573*) Del (T 329);
  (*1574*) Assign (T 330) (Plain (Zeros [3;6;6]));
  (*1575*) AddTo (T 330) (Plain (Einsum [(n_s2,[0;1]); (n_g'bb'boo,[1;2;3])] [0;2;3]));
  (*1576*) AddTo (T 334) (Plain (Einsum [(T 330,[0;1;2])] [0;1;2]));
  (*1577*) Assign (T 384) (Plain (Zeros [3;6;6]));
  (*1578*) AddTo (T 384) (Plain (Einsum [(T 330,[0;1;2])] [0;1;2]));
  (*1579*) Del (T 330);
  (*1580*) Assign (T 331) (Plain (Zeros [3;6;6]));
  (*1581*) AddTo (T 331) (Plain (Einsum [(n_g'bb'bov,[0;1;2]); (n_u12'bb,[3;0;4;2])] [3;1;4]));
  (*1582*) AddTo (T 334) (Plain (Einsum [(T 331,[0;1;2])] [0;1;2]));
  (*1583*) Assign (T 395) (Plain (Zeros [3;6;6]));
  (*1584*) AddTo (T 395) (Plain (Einsum [(T 331,[0;1;2])] [0;1;2]));
  (*1585*) Del (T 331);
  (*1586*) Assign (T 332) (Plain (Zeros [3;6;6]));
  (*1587*) AddTo (T 332) (Plain (Einsum [(n_u11'aa,[0;1;2]); (n_v'aabb'ovoo,[1;2;3;4])] [0;3;4]));
  (*1588*) AddTo (T 334) (Plain (Einsum [(T 332,[0;1;2])] [0;1;2]));
  (*1589*) AddTo (T 384) (Plain (Einsum [(T 332,[0;1;2])] [0;1;2]));
  (*1590*) Del (T 332);
  (*1591*) AddTo (T 333) (Plain (Einsum [(n_f'bb'ov,[0;1])] [0;1]));
  (*1592*) AddTo (T 334) (Plain (Einsum [(T 333,[0;1]); (n_u11'bb,[2;3;1])] [2;0;3]));
  (*1593*) Del (T 333);
  (*1594*) AddTo (T 334) (Plain (Einsum [(n_gc'bb'boo,[0;1;2])] [0;1;2]));
  (*1595*) AddTo n_u11new_bb (Times (Einsum [(n_t1'bb,[0;1]); (T 334,[2;0;3])] [2;3;1]) (-1) 1);
  (*1596*) Del (T 334);
  (*1597*) Assign (T 335) (Plain (Zeros [3;7;7]));
  (*1598*) AddTo (T 335) (Plain (Einsum [(n_s2,[0;1]); (n_g'bb'bvv,[1;2;3])] [0;2;3]));
  (*1599*) Assign (T 338) (Plain (Zeros [3;7;7]));
  (*1600*) AddTo (T 338) (Plain (Einsum [(T 335,[0;1;2])] [0;1;2]));
  (*1601*) Assign (T 386) (Plain (Zeros [3;7;7]));
  (*1602*) AddTo (T 386) (Plain (Einsum [(T 335,[0;1;2])] [0;1;2]));
  (*1603*) Del (T 335);
  (*1604*) Assign (T 336) (Plain (Zeros [3;7;7]));
  (*1605*) AddTo (T 336) (Plain (Einsum [(n_u11'aa,[0;1;2]); (n_v'aabb'ovvv,[1;2;3;4])] [0;3;4]));
  (*1606*) AddTo (T 338) (Plain (Einsum [(T 336,[0;1;2])] [0;1;2]));
  (*1607*) AddTo (T 386) (Plain (Einsum [(T 336,[0;1;2])] [0;1;2]));
  (*1608*) Del (T 336);
  (*1609*) Assign (T 337) (Plain (Zeros [6;7;7;7]));
  (*1610*) SubFrom (T 337) (Plain (Einsum [(n_v'bbbb'ovvv,[0;1;2;3])] [0;2;1;3]));
  (*1611*) AddTo (T 337) (Plain (Einsum [(n_v'bbbb'ovvv,[0;1;2;3])] [0;2;3;1]));
  (*1612*) SubFrom (T 338) (Plain (Einsum [(n_u11'bb,[0;1;2]); (T 337,[1;3;2;4])] [0;3;4]));
  (*1613*) Del (T 337);
  (*1614*) AddTo (T 338) (Plain (Einsum [(n_gc'bb'bvv,[0;1;2])] [0;1;2]));
  (*1615*) AddTo n_u11new_bb (Plain (Einsum [(n_t1'bb,[0;1]); (T 338,[2;3;1])] [2;0;3]));
  (*1616*) Del (T 338);
  (*1617*) Assign (T 339) (Plain (Zeros [3;3;4;5]));
  (*1618*) AddTo (T 339) (Plain (Einsum [(n_w,[0;1]); (n_u12'aa,[2;0;3;4])] [2;1;3;4]));
  (*1619*) SubFrom (T 360) (Plain (Einsum [(T 339,[0;1;2;3])] [0;1;2;3]));
  (*1620*) Del (T 339);
  (*1621*) Assign (T 340) (Plain (Zeros [3;5;5]));
  (*1622*) AddTo (T 340) (Plain (Einsum [(n_g'aa'bov,[0;1;2]); (n_u12'aa,[3;0;1;4])] [3;2;4]));
  (*1623*) AddTo (T 342) (Plain (Einsum [(T 340,[0;1;2])] [0;1;2]));
  (*1624*) Del (T 340);
  (*1625*) Assign (T 343) (Plain (Zeros [3;3;4;5]));
  (*1626*) AddTo (T 343) (Plain (Einsum [(n_u11'aa,[0;1;2]); (T 342,[3;2;4])] [3;0;1;4]));
  (*1627*) Del (T 342);
  (*1628*) AddTo (T 360) (Plain (Einsum [(T 343,[0;1;2;3])] [1;0;2;3]));
  (*1629*) Del (T 343);
  (*1630*) AddTo (T 344) (Plain (Einsum [(n_f'aa'ov,[0;1])] [0;1]));
  (*1631*) Assign (T 345) (Plain (Zeros [3;4;4]));
  (*1632*) AddTo (T 345) (Plain (Einsum [(T 344,[0;1]); (n_u11'aa,[2;3;1])] [2;0;3]));
  (*1633*) Del (T 344);
  (*1634*) AddTo (T 348) (Plain (Einsum [(T 345,[0;1;2])] [0;1;2]));
  (*1635*) Del (T 345);
  (*1636*) AddTo (T 346) (Plain (Einsum [(n_gc'aa'bov,[0;1;2])] [0;1;2]));
  (*1637*) Assign (T 347) (Plain (Zeros [3;4;4]));
  (*1638*) AddTo (T 347) (Plain (Einsum [(n_t1'aa,[0;1]); (T 346,[2;3;1])] [2;3;0]));
  (*1639*) AddTo (T 348) (Plain (Einsum [(T 347,[0;1;2])] [0;1;2]));
  (*1640*) Del (T 347);
  (*1641*) Assign (T 356) (Plain (Zeros [3;3;4;4]));
  (*1642*) AddTo (T 356) (Plain (Einsum [(n_u11'aa,[0;1;2]); (T 346,[3;4;2])] [3;0;4;1]));
  (*1643*) Del (T 346);
  (*1644*) Assign (T 357) (Plain (Zeros [3;3;4;5]));
  (*1645*) AddTo (T 357) (Plain (Einsum [(n_t1'aa,[0;1]); (T 356,[2;3;0;4])] [2;3;4;1]));
  (*1646*) Del (T 356);
  (*1647*) AddTo (T 360) (Plain (Einsum [(T 357,[0;1;2;3])] [0;1;2;3]));
  (*1648*) Del (T 357);
  (*1649*) AddTo (T 348) (Plain (Einsum [(n_gc'aa'boo,[0;1;2])] [0;1;2]));
  (*1650*) Assign (T 349) (Plain (Zeros [3;3;4;5]));
  (*1651*) AddTo (T 349) (Plain (Einsum [(n_u11'aa,[0;1;2]); (T 348,[3;1;4])] [3;0;4;2]));
  (*1652*) Del (T 348);
  (*1653*) AddTo (T 360) (Plain (Einsum [(T 349,[0;1;2;3])] [0;1;2;3]));
  (*1654*) Del (T 349);
  (*1655*) Assign (T 350) (Plain (Zeros [4;4;4;5]));
  (*1656*) AddTo (T 350) (Plain (Einsum [(n_v'aaaa'ooov,[0;1;2;3])] [0;2;1;3]));
  (*1657*) SubFrom (T 350) (Plain (Einsum [(n_v'aaaa'ooov,[0;1;2;3])] [2;0;1;3]));
  (*1658*) Assign (T 351) (Plain (Zeros [3;4;4]));
  (*1659*) AddTo (T 351) (Plain (Einsum [(n_u11'aa,[0;1;2]); (T 350,[1;3;4;2])] [0;3;4]));
  (*1660*) Del (T 350);
  (*1661*) SubFrom (T 352) (Plain (Einsum [(T 351,[0;1;2])] [0;1;2]));
  (*1662*) Del (T 351);
  (*1663*) Assign (T 353) (Plain (Zeros [3;3;4;5]));
  (*1664*) AddTo (T 353) (Plain (Einsum [(n_u11'aa,[0;1;2]); (T 352,[3;1;4])] [3;0;4;2]));
  (*1665*) Del (T 352);
  (*1666*) AddTo (T 360) (Plain (Einsum [(T 353,[0;1;2;3])] [1;0;2;3]));
  (*1667*) Del (T 353);
  (*1668*) AddTo (T 354) (Plain (Einsum [(n_gc'aa'bvv,[0;1;2])] [0;1;2]));
  (*1669*) Assign (T 355) (Plain (Zeros [3;3;4;5]));
  (*1670*) AddTo (T 355) (Plain (Einsum [(n_u11'aa,[0;1;2]); (T 354,[3;4;2])] [3;0;1;4]));
  (*1671*) Del (T 354);
  (*1672*) SubFrom (T 360) (Plain (Einsum [(T 355,[0;1;2;3])] [0;1;2;3]));
  (*1673*) Del (T 355);
  (*1674*) SubFrom n_u12new_aa (Plain (Einsum [(T 360,[0;1;2;3])] [0;1;2;3]));
  (*1675*) SubFrom n_u12new_aa (Plain (Einsum [(T 360,[0;1;2;3])] [1;0;2;3]));
  (*1676*) Del (T 360);
  (*1677*) Assign (T 369) (Plain (Zeros [3;3;4;5]));
  (*1678*) AddTo (T 369) (Plain (Einsum [(n_u12'bb,[0;1;2;3]); (n_v'aabb'ovov,[4;5;2;3])] [0;1;4;5]));
  (*1679*) AddTo (T 371) (Plain (Einsum [(T 369,[0;1;2;3])] [1;0;2;3]));
  (*1680*) Del (T 369);
  (*1681*) AddTo n_u12new_aa (Times (Einsum [(T 11,[0;1;2;3]); (T 371,[4;5;0;2])] [5;4;1;3]) (-1) 1);
  (*1682*) Del (T 11);
  (*1683*) AddTo n_u12new_bb (Plain (Einsum [(n_t2'abab,[0;1;2;3]); (T 371,[4;5;0;2])] [5;4;1;3]));
  (*1684*) Del (T 371);
  (*1685*) Assign (T 372) (Plain (Zeros [3;3;6;7]));
  (*1686*) AddTo (T 372) (Plain (Einsum [(n_u12'aa,[0;1;2;3]); (n_v'aabb'ovov,[2;3;4;5])] [0;1;4;5]));
  (*1687*) AddTo (T 374) (Plain (Einsum [(T 372,[0;1;2;3])] [1;0;2;3]));
  (*1688*) Del (T 372);
  (*1689*) AddTo n_u12new_aa (Plain (Einsum [(n_t2'abab,[0;1;2;3]); (T 374,[4;5;1;3])] [5;4;0;2]));
  (*1690*) AddTo n_u12new_bb (Plain (Einsum [(T 374,[0;1;2;3]); (T 42,[2;4;5;3])] [1;0;4;5]));
  (*1691*) Del (T 42);
  (*1692*) Del (T 374);
  (*1693*) Assign (T 376) (Plain (Zeros [3;3;3]));
  (*1694*) AddTo (T 376) (Plain (Einsum [(n_g'aa'bov,[0;1;2]); (n_u12'aa,[3;4;1;2])] [0;3;4]));
  (*1695*) Assign (T 378) (Plain (Zeros [3;3;3]));
  (*1696*) AddTo (T 378) (Plain (Einsum [(T 376,[0;1;2])] [0;2;1]));
  (*1697*) Del (T 376);
  (*1698*) Assign (T 377) (Plain (Zeros [3;3;3]));
  (*1699*) AddTo (T 377) (Plain (Einsum [(n_g'bb'bov,[0;1;2]); (n_u12'bb,[3;4;1;2])] [0;3;4]));
  (*1700*) AddTo (T 378) (Plain (Einsum [(T 377,[0;1;2])] [0;2;1]));
  (*1701*) Del (T 377);
  (*1702*) AddTo n_u12new_aa (Plain (Einsum [(n_u11'aa,[0;1;2]); (T 378,[0;3;4])] [4;3;1;2]));
  (*1703*) AddTo n_u12new_bb (Plain (Einsum [(n_u11'bb,[0;1;2]); (T 378,[0;3;4])] [4;3;1;2]));
  (*1704*) Del (T 378);
  (*1705*) Assign (T 379) (Plain (Zeros [3;3;6;7]));
  (*1706*) AddTo (T 379) (Plain (Einsum [(n_w,[0;1]); (n_u12'bb,[2;0;3;4])] [2;1;3;4]));
  (*1707*) SubFrom (T 400) (Plain (Einsum [(T 379,[0;1;2;3])] [0;1;2;3]));
  (*1708*) Del (T 379);
  (*1709*) AddTo (T 380) (Plain (Einsum [(n_f'bb'ov,[0;1])] [0;1]));
  (*1710*) Assign (T 381) (Plain (Zeros [3;6;6]));
  (*1711*) AddTo (T 381) (Plain (Einsum [(T 380,[0;1]); (n_u11'bb,[2;3;1])] [2;0;3]));
  (*1712*) Del (T 380);
  (*1713*) AddTo (T 384) (Plain (Einsum [(T 381,[0;1;2])] [0;1;2]));
  (*1714*) Del (T 381);
  (*1715*) AddTo (T 382) (Plain (Einsum [(n_gc'bb'bov,[0;1;2])] [0;1;2]));
  (*1716*) Assign (T 383) (Plain (Zeros [3;6;6]));
  (*1717*) AddTo (T 383) (Plain (Einsum [(n_t1'bb,[0;1]); (T 382,[2;3;1])] [2;3;0]));
  (*1718*) AddTo (T 384) (Plain (Einsum [(T 383,[0;1;2])] [0;1;2]));
  (*1719*) Del (T 383);
  (*1720*) Assign (T 397) (Plain (Zeros [3;3;6;6]));
  (*1721*) AddTo (T 397) (Plain (Einsum [(n_u11'bb,[0;1;2]); (T 382,[3;4;2])] [3;0;4;1]));
  (*1722*) Del (T 382);
  (*1723*) Assign (T 398) (Plain (Zeros [3;3;6;7]));
  (*1724*) AddTo (T 398) (Plain (Einsum [(n_t1'bb,[0;1]); (T 397,[2;3;0;4])] [2;3;4;1]));
  (*1725*) Del (T 397);
  (*1726*) AddTo (T 400) (Plain (Einsum [(T 398,[0;1;2;3])] [0;1;2;3]));
  (*1727*) Del (T 398);
  (*1728*) AddTo (T 384) (Plain (Einsum [(n_gc'bb'boo,[0;1;2])] [0;1;2]));
  (*1729*) Assign (T 385) (Plain (Zeros [3;3;6;7]));
  (*1730*) AddTo (T 385) (Plain (Einsum [(n_u11'bb,[0;1;2]); (T 384,[3;1;4])] [3;0;4;2]));
  (*1731*) Del (T 384);
  (*1732*) AddTo (T 400) (Plain (Einsum [(T 385,[0;1;2;3])] [0;1;2;3]));
  (*1733*) Del (T 385);
  (*1734*) AddTo (T 386) (Plain (Einsum [(n_gc'bb'bvv,[0;1;2])] [0;1;2]));
  (*1735*) Assign (T 387) (Plain (Zeros [3;3;6;7]));
  (*1736*) AddTo (T 387) (Plain (Einsum [(n_u11'bb,[0;1;2]); (T 386,[3;4;2])] [3;0;1;4]));
  (*1737*) Del (T 386);
  (*1738*) SubFrom (T 400) (Plain (Einsum [(T 387,[0;1;2;3])] [0;1;2;3]));
  (*1739*) Del (T 387);
  (*1740*) Assign (T 388) (Plain (Zeros [3;7;7]));
  (*1741*) AddTo (T 388) (Plain (Einsum [(n_g'bb'bov,[0;1;2]); (n_u12'bb,[3;0;1;4])] [3;2;4]));
  (*1742*) Assign (T 391) (Plain (Zeros [3;7;7]));
  (*1743*) AddTo (T 391) (Plain (Einsum [(T 388,[0;1;2])] [0;1;2]));
  (*1744*) Del (T 388);
  (*1745*) Assign (T 389) (Plain (Zeros [6;7;7;7]));
  (*1746*) AddTo (T 389) (Plain (Einsum [(n_v'bbbb'ovvv,[0;1;2;3])] [0;2;1;3]));
  (*1747*) SubFrom (T 389) (Plain (Einsum [(n_v'bbbb'ovvv,[0;1;2;3])] [0;2;3;1]));
  (*1748*) Assign (T 390) (Plain (Zeros [3;7;7]));
  (*1749*) AddTo (T 390) (Plain (Einsum [(n_u11'bb,[0;1;2]); (T 389,[1;3;2;4])] [0;3;4]));
  (*1750*) SubFrom (T 391) (Plain (Einsum [(T 390,[0;1;2])] [0;2;1]));
  (*1751*) Del (T 390);
  (*1752*) Assign (T 392) (Plain (Zeros [3;3;6;7]));
  (*1753*) AddTo (T 392) (Plain (Einsum [(n_u11'bb,[0;1;2]); (T 391,[3;2;4])] [3;0;1;4]));
  (*1754*) Del (T 391);
  (*1755*) AddTo (T 400) (Plain (Einsum [(T 392,[0;1;2;3])] [1;0;2;3]));
  (*1756*) Del (T 392);
  (*1757*) Assign (T 412) (Plain (Zeros [6;6;7;7]));
  (*1758*) SubFrom (T 412) (Plain (Einsum [(n_t1'bb,[0;1]); (T 389,[2;3;1;4])] [2;0;3;4]));
  (*1759*) Del (T 389);
  (*1760*) Assign (T 393) (Plain (Zeros [6;6;6;7]));
  (*1761*) AddTo (T 393) (Plain (Einsum [(n_v'bbbb'ooov,[0;1;2;3])] [0;2;1;3]));
  (*1762*) SubFrom (T 393) (Plain (Einsum [(n_v'bbbb'ooov,[0;1;2;3])] [2;0;1;3]));
  (*1763*) Assign (T 394) (Plain (Zeros [3;6;6]));
  (*1764*) AddTo (T 394) (Plain (Einsum [(n_u11'bb,[0;1;2]); (T 393,[1;3;4;2])] [0;3;4]));
  (*1765*) Del (T 393);
  (*1766*) SubFrom (T 395) (Plain (Einsum [(T 394,[0;1;2])] [0;1;2]));
  (*1767*) Del (T 394);
  (*1768*) Assign (T 396) (Plain (Zeros [3;3;6;7]));
  (*1769*) AddTo (T 396) (Plain (Einsum [(n_u11'bb,[0;1;2]); (T 395,[3;1;4])] [3;0;4;2]));
  (*1770*) Del (T 395);
  (*1771*) AddTo (T 400) (Plain (Einsum [(T 396,[0;1;2;3])] [1;0;2;3]));
  (*1772*) Del (T 396);
  (*1773*) SubFrom n_u12new_bb (Plain (Einsum [(T 400,[0;1;2;3])] [0;1;2;3]));
  (*1774*) SubFrom n_u12new_bb (Plain (Einsum [(T 400,[0;1;2;3])] [1;0;2;3]));
  (*1775*) Del (T 400);
  (*1776*) AddTo (T 412) (Plain (Einsum [(n_v'bbbb'ovvo,[0;1;2;3])] [0;3;2;1]));
  (*1777*) SubFrom (T 412) (Plain (Einsum [(n_v'bbbb'oovv,[0;1;2;3])] [0;1;2;3]));
  (*1778*) AddTo n_u12new_bb (Plain (Einsum [(n_u12'bb,[0;1;2;3]); (T 412,[2;4;5;3])] [1;0;4;5]));
  (*1779*) Del (T 412);
  (*1780*) AddTo (T 413) (Plain (Einsum [(n_v'aabb'ovvo,[0;1;2;3])] [0;3;1;2]));
  (*1781*) AddTo n_u12new_bb (Plain (Einsum [(n_u12'aa,[0;1;2;3]); (T 413,[2;4;3;5])] [1;0;4;5]));
  (*1782*) Del (T 413);
  (*1783*) AddTo n_t1new_aa (Plain (Einsum [(n_s1,[0]); (n_g'aa'bvo,[0;1;2])] [2;1]));
  (*1784*) AddTo n_t1new_aa (Plain (Einsum [(n_t2'abab,[0;1;2;3]); (n_v'bbaa'ovvv,[1;3;4;2])] [0;4]));
  (*1785*) AddTo n_t1new_aa (Plain (Einsum [(n_g'aa'bvv,[0;1;2]); (n_u11'aa,[0;3;2])] [3;1]));
  (*1786*) AddTo n_t1new_aa (Plain (Einsum [(n_f'aa'vo,[0;1])] [1;0]));
  (*1787*) AddTo n_t1new_aa (Plain (Einsum [(n_t1'bb,[0;1]); (n_v'bbaa'ovvo,[0;1;2;3])] [3;2]));
  (*1788*) AddTo n_t1new_bb (Plain (Einsum [(n_s1,[0]); (n_g'bb'bvo,[0;1;2])] [2;1]));
  (*1789*) AddTo n_t1new_bb (Plain (Einsum [(n_g'bb'bvv,[0;1;2]); (n_u11'bb,[0;3;2])] [3;1]));
  (*1790*) AddTo n_t1new_bb (Plain (Einsum [(n_t1'aa,[0;1]); (n_v'aabb'ovvo,[0;1;2;3])] [3;2]));
  (*1791*) AddTo n_t1new_bb (Plain (Einsum [(n_t2'abab,[0;1;2;3]); (n_v'aabb'ovvv,[0;2;4;3])] [1;4]));
  (*1792*) AddTo n_t1new_bb (Plain (Einsum [(n_f'bb'vo,[0;1])] [1;0]));
  (*1793*) SubFrom n_t2new_aaaa (Plain (Einsum [(n_v'aaaa'vovo,[0;1;2;3])] [3;1;0;2]));
  (*1794*) AddTo n_t2new_aaaa (Plain (Einsum [(n_v'aaaa'vovo,[0;1;2;3])] [3;1;2;0]));
  (*1795*) SubFrom n_t2new_bbbb (Plain (Einsum [(n_v'bbbb'vovo,[0;1;2;3])] [3;1;0;2]));
  (*1796*) AddTo n_t2new_bbbb (Plain (Einsum [(n_v'bbbb'vovo,[0;1;2;3])] [3;1;2;0]));
  (*1797*) AddTo n_t2new_baba (Plain (Einsum [(n_v'aabb'vovo,[0;1;2;3])] [3;1;2;0]));
  (*1798*) AddTo n_t2new_abab (Plain (Einsum [(n_v'aabb'vovo,[0;1;2;3])] [1;3;0;2]));
  (*1799*) AddTo n_s1new (Plain (Einsum [(n_g'aa'bov,[0;1;2]); (n_u12'aa,[3;0;1;2])] [3]));
  (*1800*) AddTo n_s1new (Plain (Einsum [(n_s1,[0]); (n_w,[0;1])] [1]));
  (*1801*) AddTo n_s1new (Plain (Einsum [(n_t1'aa,[0;1]); (n_gc'aa'bov,[2;0;1])] [2]));
  (*1802*) AddTo n_s1new (Plain (Einsum [(n_G,[0])] [0]));
  (*1803*) AddTo n_s1new (Plain (Einsum [(n_t1'bb,[0;1]); (n_gc'bb'bov,[2;0;1])] [2]));
  (*1804*) AddTo n_s1new (Plain (Einsum [(n_g'bb'bov,[0;1;2]); (n_u12'bb,[3;0;1;2])] [3]));
  (*1805*) AddTo n_u11new_aa (Plain (Einsum [(n_s2,[0;1]); (n_g'aa'bvo,[1;2;3])] [0;3;2]));
  (*1806*) AddTo n_u11new_aa (Plain (Einsum [(n_g'aa'bvv,[0;1;2]); (n_u12'aa,[3;0;4;2])] [3;4;1]));
  (*1807*) AddTo n_u11new_aa (Plain (Einsum [(n_gc'aa'bvo,[0;1;2])] [0;2;1]));
  (*1808*) AddTo n_u11new_aa (Plain (Einsum [(n_u11'bb,[0;1;2]); (n_v'bbaa'ovvo,[1;2;3;4])] [0;4;3]));
  (*1809*) AddTo n_u11new_bb (Plain (Einsum [(n_s2,[0;1]); (n_g'bb'bvo,[1;2;3])] [0;3;2]));
  (*1810*) AddTo n_u11new_bb (Plain (Einsum [(n_g'bb'bvv,[0;1;2]); (n_u12'bb,[3;0;4;2])] [3;4;1]));
  (*1811*) AddTo n_u11new_bb (Plain (Einsum [(n_u11'aa,[0;1;2]); (n_v'aabb'ovvo,[1;2;3;4])] [0;4;3]));
  (*1812*) AddTo n_u11new_bb (Plain (Einsum [(n_gc'bb'bvo,[0;1;2])] [0;2;1]));
  (*1814*) Assign n_t1new'aa (Plain (Copy n_t1new_aa));
  (*1815*) Assign n_t1new'bb (Plain (Copy n_t1new_bb));
  (*1816*) Assign n_t2new'abab (Plain (Copy n_t2new_abab));
  (*1817*) Assign n_t2new'baba (Plain (Copy n_t2new_baba));
  (*1818*) Assign n_t2new'aaaa (Plain (Copy n_t2new_aaaa));
  (*1819*) Assign n_t2new'bbbb (Plain (Copy n_t2new_bbbb));
  (*1820*) Assign n_u11new'aa (Plain (Copy n_u11new_aa));
  (*1821*) Assign n_u11new'bb (Plain (Copy n_u11new_bb));
  (*1822*) Assign n_u12new'aa (Plain (Copy n_u12new_aa));
  (*1823*) Assign n_u12new'bb (Plain (Copy n_u12new_bb))]
 [(n_t1new'aa,[4;5]); (n_t1new'bb,[6;7]); (n_t2new'abab,[4;6;5;7]); (n_t2new'baba,[6;4;7;5]); (n_t2new'aaaa,[4;4;5;5]); (n_t2new'bbbb,[6;6;7;7]); (n_s1new,[3]); (n_s2new,[3;3]); (n_u11new'aa,[3;4;5]); (n_u11new'bb,[3;6;7]); (n_u12new'aa,[3;3;4;5]); (n_u12new'bb,[3;3;6;7])].

(** ebcc/codegen/UCCSD_SD_1_2.py:1827-4673 [update_lams] *)
Definition UCCSD_SD_1_2_update_lams : prog := mkprog
 [(n_g'aa'boo,[3;4;4]); (n_g'aa'bvo,[3;5;4]); (n_g'aa'bov,[3;4;5]); (n_g'aa'bvv,[3;5;5]); (n_g'bb'boo,[3;6;6]); (n_g'bb'bvo,[3;7;6]); (n_g'bb'bov,[3;6;7]); (n_g'bb'bvv,[3;7;7]); (n_l2'abab,[5;7;4;6]); (n_t2'abab,[4;6;5;7]); (n_v'aabb'ovoo,[4;5;6;6]); (n_v'aabb'ooov,[4;4;6;7]); (n_t1'bb,[6;7]); (n_t1'aa,[4;5]); (n_v'aabb'ovov,[4;5;6;7]); (n_v'bbaa'ovvv,[6;7;5;5]); (n_v'bbaa'oovv,[6;6;5;5]); (n_v'aabb'ovvv,[4;5;7;7]); (n_s1,[3]); (n_f'aa'ov,[4;5]); (n_t2'aaaa,[4;4;5;5]); (n_v'aaaa'oovo,[4;4;5;4]); (n_v'aaaa'ovvv,[4;5;5;5]); (n_v'aaaa'ovov,[4;5;4;5]); (n_u11'aa,[3;4;5]); (n_u12'aa,[3;3;4;5]); (n_l2'aaaa,[5;5;4;4]); (n_v'aaaa'ooov,[4;4;4;5]); (n_l1'aa,[5;4]); (n_u12'bb,[3;3;6;7]); (n_v'aaaa'ovvo,[4;5;5;4]); (n_v'aaaa'oovv,[4;4;5;5]); (n_v'aaaa'oooo,[4;4;4;4]); (n_lu12'aa,[3;3;5;4]); (n_t2'bbbb,[6;6;7;7]); (n_l2'bbbb,[7;7;6;6]); (n_lu12'bb,[3;3;7;6]); (n_ls1,[3]); (n_ls2,[3;3]); (n_v'aabb'oooo,[4;4;6;6]); (n_v'aabb'ovvo,[4;5;7;6]); (n_v'aabb'oovo,[4;4;7;6]); (n_v'aabb'oovv,[4;4;7;7]); (n_v'bbbb'ovvv,[6;7;7;7]); (n_l1'bb,[7;6]); (n_v'aaaa'vvvv,[5;5;5;5]); (n_v'aaaa'vovv,[5;4;5;5]); (n_v'aabb'vvvo,[5;5;7;6]); (n_v'aabb'vvvv,[5;5;7;7]); (n_s2,[3;3]); (n_u11'bb,[3;6;7]); (n_lu11'aa,[3;5;4]); (n_v'bbaa'ovvo,[6;7;5;4]); (n_v'bbbb'ovov,[6;7;6;7]); (n_f'bb'ov,[6;7]); (n_f'aa'oo,[4;4]); (n_f'aa'vv,[5;5]); (n_G,[3]); (n_f'aa'vo,[5;4]); (n_v'bbbb'ooov,[6;6;6;7]); (n_v'bbbb'ovvo,[6;7;7;6]); (n_v'bbbb'oovv,[6;6;7;7]); (n_f'bb'oo,[6;6]); (n_f'bb'vv,[7;7]); (n_f'bb'vo,[7;6]); (n_lu11'bb,[3;7;6]); (n_w,[3;3]); (n_v'bbbb'oovo,[6;6;7;6]); (n_v'bbbb'oooo,[6;6;6;6]); (n_v'bbaa'oovo,[6;6;5;4]); (n_v'bbbb'vvvv,[7;7;7;7]); (n_v'bbbb'vovv,[7;6;7;7]); (n_v'aabb'vovv,[5;4;7;7])]
 [(*1834*) Assign n_gc'aa'boo (Plain (Transpose n_g'aa'boo [0;2;1]));
  (*1834*) Assign n_gc'aa'bov (Plain (Transpose n_g'aa'bvo [0;2;1]));
  (*1834*) Assign n_gc'aa'bvo (Plain (Transpose n_g'aa'bov [0;2;1]));
  (*1834*) Assign n_gc'aa'bvv (Plain (Transpose n_g'aa'bvv [0;2;1]));
  (*1834*) Assign n_gc'bb'boo (Plain (Transpose n_g'bb'boo [0;2;1]));
  (*1834*) Assign n_gc'bb'bov (Plain (Transpose n_g'bb'bvo [0;2;1]));
  (*1834*) Assign n_gc'bb'bvo (Plain (Transpose n_g'bb'bov [0;2;1]));
  (*1834*) Assign n_gc'bb'bvv (Plain (Transpose n_g'bb'bvv [0;2;1]));
  (*1850*) Assign (T 1) (Plain (Zeros [4;4;6;6]));
  (*1851*) AddTo (T 1) (Plain (Einsum [(n_l2'abab,[0;1;2;3]); (n_t2'abab,[4;5;0;1])] [2;4;3;5]));
  (*1852*) Assign (T 62) (Plain (Zeros [4;4;6;6]));
  (*1853*) AddTo (T 62) (Plain (Einsum [(T 1,[0;1;2;3])] [0;1;2;3]));
  (*1854*) Assign (T 532) (Plain (Zeros [4;4;6;6]));
  (*1855*) AddTo (T 532) (Plain (Einsum [(T 1,[0;1;2;3])] [0;1;2;3]));
  (*1856*) Assign n_l1new_aa (Plain (Zeros [5;4]));
  (*1857*) AddTo n_l1new_aa (Plain (Einsum [(n_v'aabb'ovoo,[0;1;2;3]); (T 1,[4;0;3;2])] [1;4]));
  (*1858*) Assign n_l1new_bb (Plain (Zeros [7;6]));
  (*1859*) AddTo n_l1new_bb (Plain (Einsum [(n_v'aabb'ooov,[0;1;2;3]); (T 1,[1;0;4;2])] [3;4]));
  (*1860*) Del (T 1);
  (*1861*) Assign (T 2) (Plain (Zeros [4;6;6;5]));
  (*1862*) AddTo (T 2) (Plain (Einsum [(n_t1'bb,[0;1]); (n_l2'abab,[2;1;3;4])] [3;4;0;2]));
  (*1863*) Assign (T 3) (Plain (Zeros [4;4;6;6]));
  (*1864*) AddTo (T 3) (Plain (Einsum [(n_t1'aa,[0;1]); (T 2,[2;3;4;1])] [2;0;3;4]));
  (*1865*) AddTo (T 62) (Plain (Einsum [(T 3,[0;1;2;3])] [0;1;2;3]));
  (*1866*) Assign (T 63) (Plain (Zeros [4;4;6;7]));
  (*1867*) AddTo (T 63) (Plain (Einsum [(n_t1'bb,[0;1]); (T 62,[2;3;0;4])] [2;3;4;1]));
  (*1868*) Assign (T 302) (Plain (Zeros [4;6;6;5]));
  (*1869*) AddTo (T 302) (Plain (Einsum [(n_t1'aa,[0;1]); (T 62,[0;2;3;4])] [2;3;4;1]));
  (*1870*) Del (T 62);
  (*1871*) AddTo (T 532) (Plain (Einsum [(T 3,[0;1;2;3])] [0;1;2;3]));
  (*1872*) Assign (T 533) (Plain (Zeros [4;6;5;7]));
  (*1873*) AddTo (T 533) (Plain (Einsum [(n_v'aabb'ovov,[0;1;2;3]); (T 532,[4;0;5;2])] [4;5;1;3]));
  (*1874*) Del (T 532);
  (*1875*) Assign n_l2new_baba (Plain (Zeros [7;5;6;4]));
  (*1876*) AddTo n_l2new_baba (Plain (Einsum [(T 533,[0;1;2;3])] [3;2;1;0]));
  (*1877*) Assign n_l2new_abab (Plain (Zeros [5;7;4;6]));
  (*1878*) AddTo n_l2new_abab (Plain (Einsum [(T 533,[0;1;2;3])] [2;3;0;1]));
  (*1879*) Del (T 533);
  (*1880*) AddTo n_l1new_aa (Plain (Einsum [(n_v'aabb'ovoo,[0;1;2;3]); (T 3,[4;0;3;2])] [1;4]));
  (*1881*) AddTo n_l1new_bb (Plain (Einsum [(n_v'aabb'ooov,[0;1;2;3]); (T 3,[1;0;4;2])] [3;4]));
  (*1882*) Del (T 3);
  (*1883*) Assign (T 54) (Plain (Zeros [4;6;5;7]));
  (*1884*) AddTo (T 54) (Plain (Einsum [(n_t1'bb,[0;1]); (T 2,[2;0;3;4])] [2;3;4;1]));
  (*1885*) AddTo (T 63) (Plain (Einsum [(n_t2'abab,[0;1;2;3]); (T 2,[4;1;5;2])] [4;0;5;3]));
  (*1886*) Assign (T 193) (Plain (Zeros [6;7]));
  (*1887*) AddTo (T 193) (Plain (Einsum [(n_t2'abab,[0;1;2;3]); (T 2,[0;1;4;2])] [4;3]));
  (*1888*) Assign (T 208) (Plain (Zeros [6;7]));
  (*1889*) AddTo (T 208) (Plain (Einsum [(T 193,[0;1])] [0;1]));
  (*1890*) Del (T 193);
  (*1891*) Assign (T 300) (Plain (Zeros [6;6;6;7]));
  (*1892*) AddTo (T 300) (Plain (Einsum [(n_t2'abab,[0;1;2;3]); (T 2,[0;4;5;2])] [4;5;1;3]));
  (*1893*) Assign (T 354) (Plain (Zeros [4;4;5;5]));
  (*1894*) AddTo (T 354) (Plain (Einsum [(n_v'aabb'ovoo,[0;1;2;3]); (T 2,[4;3;2;5])] [4;0;5;1]));
  (*1895*) Assign (T 391) (Plain (Zeros [4;4;5;5]));
  (*1896*) SubFrom (T 391) (Plain (Einsum [(T 354,[0;1;2;3])] [0;1;2;3]));
  (*1897*) Del (T 354);
  (*1898*) Assign (T 504) (Plain (Zeros [4;6;5;7]));
  (*1899*) AddTo (T 504) (Plain (Einsum [(n_v'bbaa'ovvv,[0;1;2;3]); (T 2,[4;5;0;2])] [4;5;3;1]));
  (*1900*) SubFrom n_l2new_baba (Plain (Einsum [(T 504,[0;1;2;3])] [3;2;1;0]));
  (*1901*) SubFrom n_l2new_abab (Plain (Einsum [(T 504,[0;1;2;3])] [2;3;0;1]));
  (*1902*) Del (T 504);
  (*1903*) SubFrom n_l1new_aa (Plain (Einsum [(n_v'bbaa'oovv,[0;1;2;3]); (T 2,[4;1;0;2])] [3;4]));
  (*1904*) Assign (T 4) (Plain (Zeros [4;4;7;7]));
  (*1905*) AddTo (T 4) (Plain (Einsum [(n_l2'abab,[0;1;2;3]); (n_t2'abab,[4;3;0;5])] [2;4;1;5]));
  (*1906*) AddTo n_l1new_aa (Times (Einsum [(n_v'aabb'ovvv,[0;1;2;3]); (T 4,[4;0;2;3])] [1;4]) (-1) 1);
  (*1907*) Del (T 4);
  (*1908*) Assign (T 5) (Plain (Zeros [4;5]));
  (*1909*) AddTo (T 5) (Plain (Einsum [(n_s1,[0]); (n_g'aa'bov,[0;1;2])] [1;2]));
  (*1910*) Assign (T 6) (Plain (Zeros [4;5]));
  (*1911*) AddTo (T 6) (Plain (Einsum [(T 5,[0;1])] [0;1]));
  (*1912*) Assign (T 42) (Plain (Zeros [4;5]));
  (*1913*) AddTo (T 42) (Plain (Einsum [(T 5,[0;1])] [0;1]));
  (*1914*) Assign (T 373) (Plain (Zeros [4;5]));
  (*1915*) AddTo (T 373) (Plain (Einsum [(T 5,[0;1])] [0;1]));
  (*1916*) Assign (T 565) (Plain (Zeros [4;5]));
  (*1917*) AddTo (T 565) (Plain (Einsum [(T 5,[0;1])] [0;1]));
  (*1918*) Del (T 5);
  (*1919*) AddTo (T 6) (Plain (Einsum [(n_f'aa'ov,[0;1])] [0;1]));
  (*1920*) Assign (T 7) (Plain (Zeros [4;4;4;5]));
  (*1921*) AddTo (T 7) (Plain (Einsum [(T 6,[0;1]); (n_t2'aaaa,[2;3;1;4])] [2;3;0;4]));
  (*1922*) Del (T 6);
  (*1923*) Assign (T 8) (Plain (Zeros [4;4;4;5]));
  (*1924*) AddTo (T 8) (Plain (Einsum [(T 7,[0;1;2;3])] [2;1;0;3]));
  (*1925*) Del (T 7);
  (*1926*) AddTo (T 8) (Times (Einsum [(n_v'aaaa'oovo,[0;1;2;3])] [0;1;3;2]) (-1) 1);
  (*1927*) Assign (T 33) (Plain (Zeros [4;4;4;5]));
  (*1928*) AddTo (T 33) (Plain (Einsum [(T 8,[0;1;2;3])] [2;0;1;3]));
  (*1929*) AddTo (T 33) (Times (Einsum [(T 8,[0;1;2;3])] [1;0;2;3]) (-1) 1);
  (*1930*) Del (T 8);
  (*1931*) Assign (T 9) (Plain (Zeros [4;4;4;5]));
  (*1932*) AddTo (T 9) (Plain (Einsum [(n_t2'aaaa,[0;1;2;3]); (n_v'aaaa'ovvv,[4;3;5;2])] [1;0;4;5]));
  (*1933*) Assign (T 22) (Plain (Zeros [4;4;4;5]));
  (*1934*) AddTo (T 22) (Times (Einsum [(T 9,[0;1;2;3])] [0;1;2;3]) (-1) 1);
  (*1935*) Del (T 9);
  (*1936*) Assign (T 10) (Plain (Zeros [4;4;5;5]));
  (*1937*) AddTo (T 10) (Plain (Einsum [(n_t1'aa,[0;1]); (n_v'aaaa'ovvv,[2;3;4;1])] [0;2;4;3]));
  (*1938*) Assign (T 11) (Plain (Zeros [4;4;4;5]));
  (*1939*) AddTo (T 11) (Plain (Einsum [(n_t1'aa,[0;1]); (T 10,[2;3;4;1])] [0;2;3;4]));
  (*1940*) Del (T 10);
  (*1941*) AddTo (T 22) (Times (Einsum [(T 11,[0;1;2;3])] [0;1;2;3]) (-1) 1);
  (*1942*) Del (T 11);
  (*1943*) Assign (T 12) (Plain (Zeros [4;5]));
  (*1944*) AddTo (T 12) (Plain (Einsum [(n_t1'bb,[0;1]); (n_v'aabb'ovov,[2;3;0;1])] [2;3]));
  (*1945*) Assign (T 15) (Plain (Zeros [4;5]));
  (*1946*) AddTo (T 15) (Plain (Einsum [(T 12,[0;1])] [0;1]));
  (*1947*) AddTo (T 42) (Plain (Einsum [(T 12,[0;1])] [0;1]));
  (*1948*) Assign (T 390) (Plain (Zeros [4;5]));
  (*1949*) AddTo (T 390) (Plain (Einsum [(T 12,[0;1])] [0;1]));
  (*1950*) AddTo (T 565) (Plain (Einsum [(T 12,[0;1])] [0;1]));
  (*1951*) Del (T 12);
  (*1952*) Assign (T 13) (Plain (Zeros [4;4;5;5]));
  (*1953*) AddTo (T 13) (Plain (Einsum [(n_v'aaaa'ovov,[0;1;2;3])] [2;0;1;3]));
  (*1954*) AddTo (T 13) (Times (Einsum [(n_v'aaaa'ovov,[0;1;2;3])] [2;0;3;1]) (-1) 1);
  (*1955*) Assign (T 14) (Plain (Zeros [4;5]));
  (*1956*) AddTo (T 14) (Plain (Einsum [(n_t1'aa,[0;1]); (T 13,[0;2;1;3])] [2;3]));
  (*1957*) AddTo (T 15) (Times (Einsum [(T 14,[0;1])] [0;1]) (-1) 1);
  (*1958*) Assign (T 16) (Plain (Zeros [4;4;4;5]));
  (*1959*) AddTo (T 16) (Plain (Einsum [(T 15,[0;1]); (n_t2'aaaa,[2;3;1;4])] [2;3;0;4]));
  (*1960*) AddTo (T 22) (Plain (Einsum [(T 16,[0;1;2;3])] [1;0;2;3]));
  (*1961*) Del (T 16);
  (*1962*) Assign (T 405) (Plain (Zeros [4;4]));
  (*1963*) AddTo (T 405) (Plain (Einsum [(n_t1'aa,[0;1]); (T 15,[2;1])] [0;2]));
  (*1964*) Assign (T 406) (Plain (Zeros [4;4]));
  (*1965*) AddTo (T 406) (Plain (Einsum [(T 405,[0;1])] [0;1]));
  (*1966*) Del (T 405);
  (*1967*) AddTo (T 42) (Times (Einsum [(T 14,[0;1])] [0;1]) (-1) 1);
  (*1968*) Del (T 14);
  (*1969*) Assign (T 76) (Plain (Zeros [3;4;5]));
  (*1970*) AddTo (T 76) (Plain (Einsum [(n_u11'aa,[0;1;2]); (T 13,[1;3;2;4])] [0;3;4]));
  (*1971*) Assign (T 77) (Plain (Zeros [3;4;5]));
  (*1972*) AddTo (T 77) (Times (Einsum [(T 76,[0;1;2])] [0;1;2]) (-1) 1);
  (*1973*) Assign (T 221) (Plain (Zeros [3;4;5]));
  (*1974*) AddTo (T 221) (Times (Einsum [(T 76,[0;1;2])] [0;1;2]) (-1) 1);
  (*1975*) Assign (T 230) (Plain (Zeros [3;4;5]));
  (*1976*) AddTo (T 230) (Times (Einsum [(T 76,[0;1;2])] [0;1;2]) (-1) 1);
  (*1977*) Del (T 76);
  (*1978*) Assign (T 400) (Plain (Zeros [3;3;4;5]));
  (*1979*) AddTo (T 400) (Plain (Einsum [(n_u12'aa,[0;1;2;3]); (T 13,[2;4;3;5])] [0;1;4;5]));
  (*1980*) Assign (T 401) (Plain (Zeros [3;3;4;5]));
  (*1981*) AddTo (T 401) (Times (Einsum [(T 400,[0;1;2;3])] [1;0;2;3]) (-1) 1);
  (*1982*) Del (T 400);
  (*1983*) Assign (T 510) (Plain (Zeros [4;6;5;7]));
  (*1984*) AddTo (T 510) (Plain (Einsum [(n_t2'abab,[0;1;2;3]); (T 13,[0;4;2;5])] [4;1;5;3]));
  (*1985*) Assign (T 512) (Plain (Zeros [4;6;5;7]));
  (*1986*) AddTo (T 512) (Times (Einsum [(T 510,[0;1;2;3])] [0;1;2;3]) (-1) 1);
  (*1987*) Del (T 510);
  (*1988*) Assign (T 17) (Plain (Zeros [4;4;4;4]));
  (*1989*) AddTo (T 17) (Plain (Einsum [(n_t2'aaaa,[0;1;2;3]); (n_v'aaaa'ovov,[4;2;5;3])] [0;1;4;5]));
  (*1990*) Assign (T 20) (Plain (Zeros [4;4;4;4]));
  (*1991*) AddTo (T 20) (Plain (Einsum [(T 17,[0;1;2;3])] [1;0;3;2]));
  (*1992*) Assign (T 419) (Plain (Zeros [4;4;4;4]));
  (*1993*) AddTo (T 419) (Plain (Einsum [(T 17,[0;1;2;3])] [1;0;3;2]));
  (*1994*) Del (T 17);
  (*1995*) Assign (T 18) (Plain (Zeros [4;4;4;5]));
  (*1996*) AddTo (T 18) (Plain (Einsum [(n_t1'aa,[0;1]); (n_v'aaaa'ovov,[2;3;4;1])] [0;2;4;3]));
  (*1997*) Assign (T 19) (Plain (Zeros [4;4;4;4]));
  (*1998*) AddTo (T 19) (Plain (Einsum [(n_t1'aa,[0;1]); (T 18,[2;3;4;1])] [0;2;3;4]));
  (*1999*) AddTo (T 20) (Plain (Einsum [(T 19,[0;1;2;3])] [0;1;2;3]));
  (*2000*) Assign (T 21) (Plain (Zeros [4;4;4;5]));
  (*2001*) AddTo (T 21) (Plain (Einsum [(n_t1'aa,[0;1]); (T 20,[2;3;0;4])] [2;3;4;1]));
  (*2002*) Del (T 20);
  (*2003*) AddTo (T 22) (Plain (Einsum [(T 21,[0;1;2;3])] [1;0;2;3]));
  (*2004*) Del (T 21);
  (*2005*) AddTo (T 33) (Plain (Einsum [(T 22,[0;1;2;3])] [1;2;0;3]));
  (*2006*) AddTo (T 33) (Times (Einsum [(T 22,[0;1;2;3])] [0;2;1;3]) (-1) 1);
  (*2007*) Del (T 22);
  (*2008*) AddTo (T 419) (Plain (Einsum [(T 19,[0;1;2;3])] [0;1;2;3]));
  (*2009*) Del (T 19);
  (*2010*) Assign (T 420) (Plain (Zeros [4;4;5;5]));
  (*2011*) AddTo (T 420) (Plain (Einsum [(n_l2'aaaa,[0;1;2;3]); (T 419,[2;3;4;5])] [4;5;0;1]));
  (*2012*) Del (T 419);
  (*2013*) Assign (T 423) (Plain (Zeros [4;4;5;5]));
  (*2014*) AddTo (T 423) (Plain (Einsum [(T 420,[0;1;2;3])] [1;0;3;2]));
  (*2015*) Del (T 420);
  (*2016*) Assign (T 23) (Plain (Zeros [4;4;4;5]));
  (*2017*) AddTo (T 23) (Times (Einsum [(T 18,[0;1;2;3])] [0;2;1;3]) (-1) 1);
  (*2018*) AddTo (T 23) (Plain (Einsum [(T 18,[0;1;2;3])] [0;1;2;3]));
  (*2019*) Assign (T 38) (Plain (Zeros [4;4;4;5]));
  (*2020*) AddTo (T 38) (Plain (Einsum [(T 18,[0;1;2;3])] [1;2;0;3]));
  (*2021*) AddTo (T 38) (Times (Einsum [(T 18,[0;1;2;3])] [2;1;0;3]) (-1) 1);
  (*2022*) Assign (T 87) (Plain (Zeros [4;4;4;5]));
  (*2023*) AddTo (T 87) (Times (Einsum [(T 18,[0;1;2;3])] [1;2;0;3]) (-1) 1);
  (*2024*) AddTo (T 87) (Plain (Einsum [(T 18,[0;1;2;3])] [2;1;0;3]));
  (*2025*) Assign (T 387) (Plain (Zeros [4;4;4;5]));
  (*2026*) AddTo (T 387) (Plain (Einsum [(T 18,[0;1;2;3])] [0;1;2;3]));
  (*2027*) Assign (T 396) (Plain (Zeros [4;4;4;5]));
  (*2028*) AddTo (T 396) (Plain (Einsum [(T 18,[0;1;2;3])] [0;2;1;3]));
  (*2029*) AddTo (T 396) (Times (Einsum [(T 18,[0;1;2;3])] [0;1;2;3]) (-1) 1);
  (*2030*) Assign (T 536) (Plain (Zeros [4;4;4;5]));
  (*2031*) AddTo (T 536) (Times (Einsum [(T 18,[0;1;2;3])] [0;2;1;3]) (-1) 1);
  (*2032*) AddTo (T 536) (Plain (Einsum [(T 18,[0;1;2;3])] [0;1;2;3]));
  (*2033*) Del (T 18);
  (*2034*) AddTo (T 23) (Plain (Einsum [(n_v'aaaa'ooov,[0;1;2;3])] [1;2;0;3]));
  (*2035*) AddTo (T 23) (Times (Einsum [(n_v'aaaa'ooov,[0;1;2;3])] [1;0;2;3]) (-1) 1);
  (*2036*) Assign (T 24) (Plain (Zeros [4;4;5;5]));
  (*2037*) AddTo (T 24) (Times (Einsum [(n_t2'aaaa,[0;1;2;3])] [1;0;2;3]) (-1) 1);
  (*2038*) AddTo (T 24) (Plain (Einsum [(n_t2'aaaa,[0;1;2;3])] [1;0;3;2]));
  (*2039*) Assign (T 25) (Plain (Zeros [4;4;4;5]));
  (*2040*) AddTo (T 25) (Plain (Einsum [(T 23,[0;1;2;3]); (T 24,[2;4;5;3])] [0;1;4;5]));
  (*2041*) Del (T 23);
  (*2042*) AddTo (T 33) (Plain (Einsum [(T 25,[0;1;2;3])] [0;1;2;3]));
  (*2043*) Assign (T 52) (Plain (Zeros [4;4;4;5]));
  (*2044*) AddTo (T 52) (Plain (Einsum [(T 25,[0;1;2;3])] [0;1;2;3]));
  (*2045*) Del (T 25);
  (*2046*) Assign (T 86) (Plain (Zeros [4;5]));
  (*2047*) AddTo (T 86) (Plain (Einsum [(n_v'aaaa'ovvv,[0;1;2;3]); (T 24,[0;4;3;1])] [4;2]));
  (*2048*) Assign (T 122) (Plain (Zeros [4;5]));
  (*2049*) AddTo (T 122) (Times (Einsum [(T 86,[0;1])] [0;1]) (-1) 1);
  (*2050*) Del (T 86);
  (*2051*) Assign (T 106) (Plain (Zeros [4;4]));
  (*2052*) AddTo (T 106) (Plain (Einsum [(n_v'aaaa'ovov,[0;1;2;3]); (T 24,[0;4;3;1])] [2;4]));
  (*2053*) Assign (T 110) (Plain (Zeros [4;4]));
  (*2054*) AddTo (T 110) (Times (Einsum [(T 106,[0;1])] [0;1]) (-1) 1);
  (*2055*) AddTo (T 406) (Times (Einsum [(T 106,[0;1])] [1;0]) (-1) 1);
  (*2056*) Del (T 106);
  (*2057*) Assign (T 167) (Plain (Zeros [4;5]));
  (*2058*) AddTo (T 167) (Plain (Einsum [(n_l1'aa,[0;1]); (T 24,[1;2;0;3])] [2;3]));
  (*2059*) Assign (T 179) (Plain (Zeros [4;5]));
  (*2060*) AddTo (T 179) (Times (Einsum [(T 167,[0;1])] [0;1]) (-1) 1);
  (*2061*) Del (T 167);
  (*2062*) Assign (T 176) (Plain (Zeros [4;4]));
  (*2063*) AddTo (T 176) (Plain (Einsum [(n_l2'aaaa,[0;1;2;3]); (T 24,[2;4;1;0])] [3;4]));
  (*2064*) Assign (T 177) (Plain (Zeros [4;4]));
  (*2065*) AddTo (T 177) (Times (Einsum [(T 176,[0;1])] [0;1]) (-1) 1);
  (*2066*) Assign (T 412) (Plain (Zeros [4;4]));
  (*2067*) AddTo (T 412) (Times (Einsum [(T 176,[0;1])] [0;1]) (-1) 1);
  (*2068*) Del (T 176);
  (*2069*) Assign (T 185) (Plain (Zeros [5;5]));
  (*2070*) AddTo (T 185) (Plain (Einsum [(n_l2'aaaa,[0;1;2;3]); (T 24,[2;3;1;4])] [0;4]));
  (*2071*) Assign (T 186) (Plain (Zeros [5;5]));
  (*2072*) AddTo (T 186) (Times (Einsum [(T 185,[0;1])] [0;1]) (-1) 1);
  (*2073*) Assign (T 403) (Plain (Zeros [5;5]));
  (*2074*) AddTo (T 403) (Times (Einsum [(T 185,[0;1])] [0;1]) (-1) 1);
  (*2075*) Assign (T 549) (Plain (Zeros [5;5]));
  (*2076*) AddTo (T 549) (Times (Einsum [(T 185,[0;1])] [0;1]) (-1) 1);
  (*2077*) Del (T 185);
  (*2078*) Assign (T 215) (Plain (Zeros [4;4]));
  (*2079*) AddTo (T 215) (Times (Einsum [(n_l2'aaaa,[0;1;2;3]); (T 24,[2;4;1;0])] [3;4]) (2) 1);
  (*2080*) Assign (T 216) (Plain (Zeros [4;4]));
  (*2081*) AddTo (T 216) (Times (Einsum [(T 215,[0;1])] [0;1]) (-1) 1);
  (*2082*) Del (T 215);
  (*2083*) Assign (T 298) (Plain (Zeros [4;6;5;7]));
  (*2084*) AddTo (T 298) (Times (Einsum [(n_l2'abab,[0;1;2;3]); (T 24,[2;4;0;5])] [4;3;5;1]) (-2) 1);
  (*2085*) AddTo (T 302) (Times (Einsum [(T 2,[0;1;2;3]); (T 24,[0;4;3;5])] [4;1;2;5]) (-1) 1);
  (*2086*) Assign (T 325) (Plain (Zeros [5;5]));
  (*2087*) AddTo (T 325) (Times (Einsum [(n_l2'aaaa,[0;1;2;3]); (T 24,[2;3;1;4])] [0;4]) (2) 1);
  (*2088*) Assign (T 326) (Plain (Zeros [5;5]));
  (*2089*) AddTo (T 326) (Times (Einsum [(T 325,[0;1])] [0;1]) (-1) 1);
  (*2090*) Assign (T 568) (Plain (Zeros [5;5]));
  (*2091*) AddTo (T 568) (Times (Einsum [(T 325,[0;1])] [0;1]) (-1) 1);
  (*2092*) Del (T 325);
  (*2093*) Assign (T 409) (Plain (Zeros [5;5]));
  (*2094*) AddTo (T 409) (Plain (Einsum [(n_v'aaaa'ovov,[0;1;2;3]); (T 24,[0;2;3;4])] [1;4]));
  (*2095*) Assign (T 410) (Plain (Zeros [5;5]));
  (*2096*) AddTo (T 410) (Times (Einsum [(T 409,[0;1])] [1;0]) (-1) 1);
  (*2097*) Del (T 409);
  (*2098*) Assign (T 26) (Plain (Zeros [4;4;6;7]));
  (*2099*) AddTo (T 26) (Plain (Einsum [(n_t1'aa,[0;1]); (n_v'aabb'ovov,[2;1;3;4])] [0;2;3;4]));
  (*2100*) Assign (T 27) (Plain (Zeros [4;4;6;7]));
  (*2101*) AddTo (T 27) (Plain (Einsum [(T 26,[0;1;2;3])] [1;0;2;3]));
  (*2102*) Assign (T 560) (Plain (Zeros [4;4;6;7]));
  (*2103*) AddTo (T 560) (Plain (Einsum [(T 26,[0;1;2;3])] [1;0;2;3]));
  (*2104*) AddTo (T 27) (Plain (Einsum [(n_v'aabb'ooov,[0;1;2;3])] [0;1;2;3]));
  (*2105*) Assign (T 28) (Plain (Zeros [4;4;4;5]));
  (*2106*) AddTo (T 28) (Plain (Einsum [(n_t2'abab,[0;1;2;3]); (T 27,[4;5;1;3])] [0;4;5;2]));
  (*2107*) AddTo (T 33) (Plain (Einsum [(T 28,[0;1;2;3])] [2;1;0;3]));
  (*2108*) AddTo (T 52) (Plain (Einsum [(T 28,[0;1;2;3])] [2;1;0;3]));
  (*2109*) Del (T 28);
  (*2110*) Assign (T 78) (Plain (Zeros [3;3;4;4]));
  (*2111*) AddTo (T 78) (Plain (Einsum [(n_u12'bb,[0;1;2;3]); (T 27,[4;5;2;3])] [1;0;4;5]));
  (*2112*) Assign (T 89) (Plain (Zeros [4;5]));
  (*2113*) AddTo (T 89) (Plain (Einsum [(n_t2'abab,[0;1;2;3]); (T 27,[0;4;1;3])] [4;2]));
  (*2114*) AddTo (T 122) (Times (Einsum [(T 89,[0;1])] [0;1]) (-1) 1);
  (*2115*) Del (T 89);
  (*2116*) Assign (T 294) (Plain (Zeros [4;6;6;5]));
  (*2117*) AddTo (T 294) (Times (Einsum [(n_t2'abab,[0;1;2;3]); (T 27,[0;4;5;3])] [4;5;1;2]) (-1) 1);
  (*2118*) Assign (T 535) (Plain (Zeros [4;6;5;7]));
  (*2119*) AddTo (T 535) (Plain (Einsum [(T 2,[0;1;2;3]); (T 27,[4;0;2;5])] [4;1;3;5]));
  (*2120*) AddTo n_l2new_baba (Plain (Einsum [(T 535,[0;1;2;3])] [3;2;1;0]));
  (*2121*) AddTo n_l2new_abab (Plain (Einsum [(T 535,[0;1;2;3])] [2;3;0;1]));
  (*2122*) Del (T 535);
  (*2123*) Assign (T 29) (Plain (Zeros [4;4;5;5]));
  (*2124*) AddTo (T 29) (Plain (Einsum [(n_v'aaaa'ovvo,[0;1;2;3])] [0;3;2;1]));
  (*2125*) AddTo (T 29) (Times (Einsum [(n_v'aaaa'oovv,[0;1;2;3])] [0;1;2;3]) (-1) 1);
  (*2126*) Assign (T 30) (Plain (Zeros [4;4;4;5]));
  (*2127*) AddTo (T 30) (Plain (Einsum [(n_t1'aa,[0;1]); (T 29,[2;3;4;1])] [0;2;3;4]));
  (*2128*) AddTo (T 33) (Plain (Einsum [(T 30,[0;1;2;3])] [0;1;2;3]));
  (*2129*) AddTo (T 52) (Plain (Einsum [(T 30,[0;1;2;3])] [0;1;2;3]));
  (*2130*) Del (T 30);
  (*2131*) Assign (T 98) (Plain (Zeros [4;5]));
  (*2132*) AddTo (T 98) (Plain (Einsum [(n_t1'aa,[0;1]); (T 29,[0;2;3;1])] [2;3]));
  (*2133*) AddTo (T 122) (Plain (Einsum [(T 98,[0;1])] [0;1]));
  (*2134*) Del (T 98);
  (*2135*) Assign (T 576) (Plain (Zeros [3;4;5]));
  (*2136*) AddTo (T 576) (Times (Einsum [(n_u11'aa,[0;1;2]); (T 29,[1;3;4;2])] [0;3;4]) (-1) 1);
  (*2137*) Assign (T 31) (Plain (Zeros [4;4;4;4]));
  (*2138*) AddTo (T 31) (Plain (Einsum [(n_t1'aa,[0;1]); (n_v'aaaa'ooov,[2;3;4;1])] [0;2;4;3]));
  (*2139*) Assign (T 32) (Plain (Zeros [4;4;4;4]));
  (*2140*) AddTo (T 32) (Plain (Einsum [(T 31,[0;1;2;3])] [1;2;0;3]));
  (*2141*) AddTo (T 32) (Times (Einsum [(T 31,[0;1;2;3])] [2;1;0;3]) (-1) 1);
  (*2142*) Assign (T 51) (Plain (Zeros [4;4;4;4]));
  (*2143*) AddTo (T 51) (Times (Einsum [(T 31,[0;1;2;3])] [0;2;1;3]) (-1) 1);
  (*2144*) AddTo (T 51) (Plain (Einsum [(T 31,[0;1;2;3])] [0;1;2;3]));
  (*2145*) AddTo (T 52) (Times (Einsum [(n_t1'aa,[0;1]); (T 51,[2;0;3;4])] [2;3;4;1]) (-1) 1);
  (*2146*) Del (T 51);
  (*2147*) AddTo n_l1new_aa (Times (Einsum [(n_l2'aaaa,[0;1;2;3]); (T 52,[2;4;3;1])] [0;4]) (-1) 1);
  (*2148*) Del (T 52);
  (*2149*) Assign (T 352) (Plain (Zeros [4;4;5;5]));
  (*2150*) AddTo (T 352) (Plain (Einsum [(n_l2'aaaa,[0;1;2;3]); (T 31,[3;4;5;2])] [4;5;1;0]));
  (*2151*) Del (T 31);
  (*2152*) SubFrom (T 391) (Plain (Einsum [(T 352,[0;1;2;3])] [0;1;2;3]));
  (*2153*) Del (T 352);
  (*2154*) AddTo (T 32) (Plain (Einsum [(n_v'aaaa'oooo,[0;1;2;3])] [2;0;1;3]));
  (*2155*) AddTo (T 32) (Times (Einsum [(n_v'aaaa'oooo,[0;1;2;3])] [2;0;3;1]) (-1) 1);
  (*2156*) AddTo (T 33) (Times (Einsum [(n_t1'aa,[0;1]); (T 32,[0;2;3;4])] [3;2;4;1]) (-1) 1);
  (*2157*) Del (T 32);
  (*2158*) AddTo n_l1new_aa (Plain (Einsum [(n_l2'aaaa,[0;1;2;3]); (T 33,[2;4;3;0])] [1;4]));
  (*2159*) Del (T 33);
  (*2160*) Assign (T 34) (Plain (Zeros [4;4;5;5]));
  (*2161*) AddTo (T 34) (Plain (Einsum [(n_l2'abab,[0;1;2;3]); (n_t2'abab,[4;3;5;1])] [2;4;0;5]));
  (*2162*) Assign (T 36) (Plain (Zeros [4;4;5;5]));
  (*2163*) AddTo (T 36) (Plain (Einsum [(T 34,[0;1;2;3])] [0;1;2;3]));
  (*2164*) Assign (T 35) (Plain (Zeros [4;4;5;5]));
  (*2165*) AddTo (T 35) (Times (Einsum [(n_l2'aaaa,[0;1;2;3])] [3;2;0;1]) (-1) 1);
  (*2166*) AddTo (T 35) (Plain (Einsum [(n_l2'aaaa,[0;1;2;3])] [3;2;1;0]));
  (*2167*) AddTo (T 36) (Plain (Einsum [(T 24,[0;1;2;3]); (T 35,[0;4;2;5])] [4;1;5;3]));
  (*2168*) AddTo (T 54) (Times (Einsum [(n_t2'abab,[0;1;2;3]); (T 35,[0;4;2;5])] [4;1;5;3]) (-1) 1);
  (*2169*) AddTo (T 36) (Times (Einsum [(n_lu12'aa,[0;1;2;3]); (n_u12'aa,[0;1;4;5])] [3;4;2;5]) (1) 2);
  (*2170*) Assign (T 37) (Plain (Zeros [4;5;5;5]));
  (*2171*) AddTo (T 37) (Plain (Einsum [(n_v'aaaa'ovvv,[0;1;2;3])] [0;2;1;3]));
  (*2172*) AddTo (T 37) (Times (Einsum [(n_v'aaaa'ovvv,[0;1;2;3])] [0;2;3;1]) (-1) 1);
  (*2173*) Assign (T 513) (Plain (Zeros [4;4;5;5]));
  (*2174*) AddTo (T 513) (Plain (Einsum [(n_t1'aa,[0;1]); (T 37,[2;3;1;4])] [0;2;3;4]));
  (*2175*) Assign (T 514) (Plain (Zeros [4;4;5;5]));
  (*2176*) AddTo (T 514) (Times (Einsum [(T 513,[0;1;2;3])] [1;0;2;3]) (-1) 1);
  (*2177*) Del (T 513);
  (*2178*) AddTo n_l1new_aa (Times (Einsum [(T 36,[0;1;2;3]); (T 37,[1;2;4;3])] [4;0]) (-1) 1);
  (*2179*) Del (T 36);
  (*2180*) AddTo (T 38) (Times (Einsum [(n_v'aaaa'ooov,[0;1;2;3])] [0;2;1;3]) (-1) 1);
  (*2181*) AddTo (T 38) (Plain (Einsum [(n_v'aaaa'ooov,[0;1;2;3])] [2;0;1;3]));
  (*2182*) Assign (T 50) (Plain (Zeros [4;4;6;7]));
  (*2183*) AddTo (T 50) (Times (Einsum [(n_t2'abab,[0;1;2;3]); (T 38,[4;0;5;2])] [4;5;1;3]) (-1) 1);
  (*2184*) AddTo (T 78) (Times (Einsum [(n_u12'aa,[0;1;2;3]); (T 38,[4;2;5;3])] [1;0;4;5]) (-1) 1);
  (*2185*) Del (T 38);
  (*2186*) Assign (T 39) (Plain (Zeros [6;6;7;7]));
  (*2187*) AddTo (T 39) (Times (Einsum [(n_t2'bbbb,[0;1;2;3])] [1;0;2;3]) (-1) 1);
  (*2188*) AddTo (T 39) (Plain (Einsum [(n_t2'bbbb,[0;1;2;3])] [1;0;3;2]));
  (*2189*) AddTo (T 50) (Times (Einsum [(T 27,[0;1;2;3]); (T 39,[2;4;5;3])] [0;1;4;5]) (-1) 1);
  (*2190*) Assign (T 205) (Plain (Zeros [6;6]));
  (*2191*) AddTo (T 205) (Plain (Einsum [(n_l2'bbbb,[0;1;2;3]); (T 39,[2;4;1;0])] [3;4]));
  (*2192*) Assign (T 206) (Plain (Zeros [6;6]));
  (*2193*) AddTo (T 206) (Times (Einsum [(T 205,[0;1])] [0;1]) (-1) 1);
  (*2194*) Assign (T 489) (Plain (Zeros [6;6]));
  (*2195*) AddTo (T 489) (Times (Einsum [(T 205,[0;1])] [0;1]) (-1) 1);
  (*2196*) Assign (T 577) (Plain (Zeros [6;6]));
  (*2197*) AddTo (T 577) (Times (Einsum [(T 205,[0;1])] [0;1]) (-1) 1);
  (*2198*) Del (T 205);
  (*2199*) Assign (T 213) (Plain (Zeros [7;7]));
  (*2200*) AddTo (T 213) (Plain (Einsum [(n_l2'bbbb,[0;1;2;3]); (T 39,[2;3;1;4])] [0;4]));
  (*2201*) Assign (T 214) (Plain (Zeros [7;7]));
  (*2202*) AddTo (T 214) (Times (Einsum [(T 213,[0;1])] [0;1]) (-1) 1);
  (*2203*) Assign (T 479) (Plain (Zeros [7;7]));
  (*2204*) AddTo (T 479) (Times (Einsum [(T 213,[0;1])] [0;1]) (-1) 1);
  (*2205*) Assign (T 548) (Plain (Zeros [7;7]));
  (*2206*) AddTo (T 548) (Times (Einsum [(T 213,[0;1])] [0;1]) (-1) 1);
  (*2207*) Del (T 213);
  (*2208*) Assign (T 225) (Plain (Zeros [6;6]));
  (*2209*) AddTo (T 225) (Times (Einsum [(n_l2'bbbb,[0;1;2;3]); (T 39,[2;4;1;0])] [3;4]) (2) 1);
  (*2210*) Assign (T 226) (Plain (Zeros [6;6]));
  (*2211*) AddTo (T 226) (Times (Einsum [(T 225,[0;1])] [0;1]) (-1) 1);
  (*2212*) Del (T 225);
  (*2213*) Assign (T 511) (Plain (Zeros [4;6;5;7]));
  (*2214*) AddTo (T 511) (Plain (Einsum [(n_v'aabb'ovov,[0;1;2;3]); (T 39,[2;4;5;3])] [0;4;1;5]));
  (*2215*) AddTo (T 512) (Times (Einsum [(T 511,[0;1;2;3])] [0;1;2;3]) (-1) 1);
  (*2216*) Del (T 511);
  (*2217*) Assign (T 567) (Plain (Zeros [7;7]));
  (*2218*) AddTo (T 567) (Times (Einsum [(n_l2'bbbb,[0;1;2;3]); (T 39,[2;3;1;4])] [0;4]) (-2) 1);
  (*2219*) Assign (T 619) (Plain (Zeros [3;3;6;7]));
  (*2220*) AddTo (T 619) (Plain (Einsum [(n_lu12'bb,[0;1;2;3]); (T 39,[3;4;5;2])] [0;1;4;5]));
  (*2221*) Assign (T 620) (Plain (Zeros [3;3;6;7]));
  (*2222*) AddTo (T 620) (Times (Einsum [(T 619,[0;1;2;3])] [1;0;2;3]) (-1) 1);
  (*2223*) Del (T 619);
  (*2224*) Assign (T 40) (Plain (Zeros [4;6;6;5]));
  (*2225*) AddTo (T 40) (Plain (Einsum [(n_t1'bb,[0;1]); (n_v'aabb'ovov,[2;3;4;1])] [2;0;4;3]));
  (*2226*) Assign (T 41) (Plain (Zeros [4;6;6;5]));
  (*2227*) AddTo (T 41) (Plain (Einsum [(T 40,[0;1;2;3])] [0;2;1;3]));
  (*2228*) Assign (T 45) (Plain (Zeros [4;6;6;5]));
  (*2229*) AddTo (T 45) (Plain (Einsum [(T 40,[0;1;2;3])] [0;2;1;3]));
  (*2230*) Assign (T 355) (Plain (Zeros [4;4;5;5]));
  (*2231*) AddTo (T 355) (Plain (Einsum [(T 2,[0;1;2;3]); (T 40,[4;1;2;5])] [0;4;3;5]));
  (*2232*) SubFrom (T 391) (Plain (Einsum [(T 355,[0;1;2;3])] [0;1;2;3]));
  (*2233*) Del (T 355);
  (*2234*) Assign (T 562) (Plain (Zeros [4;6;6;5]));
  (*2235*) AddTo (T 562) (Plain (Einsum [(T 40,[0;1;2;3])] [0;2;1;3]));
  (*2236*) AddTo (T 41) (Plain (Einsum [(n_v'aabb'ovoo,[0;1;2;3])] [0;2;3;1]));
  (*2237*) AddTo (T 50) (Times (Einsum [(n_t2'abab,[0;1;2;3]); (T 41,[4;1;5;2])] [4;0;5;3]) (-1) 1);
  (*2238*) Assign (T 134) (Plain (Zeros [6;7]));
  (*2239*) AddTo (T 134) (Plain (Einsum [(n_t2'abab,[0;1;2;3]); (T 41,[0;1;4;2])] [4;3]));
  (*2240*) Assign (T 160) (Plain (Zeros [6;7]));
  (*2241*) AddTo (T 160) (Times (Einsum [(T 134,[0;1])] [0;1]) (-1) 1);
  (*2242*) Del (T 134);
  (*2243*) Assign (T 282) (Plain (Zeros [6;6;6;7]));
  (*2244*) AddTo (T 282) (Plain (Einsum [(n_t2'abab,[0;1;2;3]); (T 41,[0;4;5;2])] [1;4;5;3]));
  (*2245*) Assign (T 286) (Plain (Zeros [6;6;6;7]));
  (*2246*) AddTo (T 286) (Plain (Einsum [(T 282,[0;1;2;3])] [2;1;0;3]));
  (*2247*) Assign (T 296) (Plain (Zeros [6;6;6;7]));
  (*2248*) AddTo (T 296) (Plain (Einsum [(T 282,[0;1;2;3])] [2;1;0;3]));
  (*2249*) Del (T 282);
  (*2250*) Assign (T 318) (Plain (Zeros [3;3;6;6]));
  (*2251*) AddTo (T 318) (Times (Einsum [(n_u12'aa,[0;1;2;3]); (T 41,[2;4;5;3])] [1;0;4;5]) (1) 2);
  (*2252*) Assign (T 528) (Plain (Zeros [4;4;6;6]));
  (*2253*) AddTo (T 528) (Plain (Einsum [(n_t1'aa,[0;1]); (T 41,[2;3;4;1])] [0;2;3;4]));
  (*2254*) Assign (T 529) (Plain (Zeros [4;4;6;6]));
  (*2255*) AddTo (T 529) (Plain (Einsum [(T 528,[0;1;2;3])] [1;0;2;3]));
  (*2256*) Del (T 528);
  (*2257*) AddTo (T 42) (Plain (Einsum [(n_f'aa'ov,[0;1])] [0;1]));
  (*2258*) AddTo (T 50) (Plain (Einsum [(T 42,[0;1]); (n_t2'abab,[2;3;1;4])] [0;2;3;4]));
  (*2259*) AddTo (T 78) (Plain (Einsum [(T 42,[0;1]); (n_u12'aa,[2;3;4;1])] [3;2;0;4]));
  (*2260*) Assign (T 109) (Plain (Zeros [4;4]));
  (*2261*) AddTo (T 109) (Plain (Einsum [(n_t1'aa,[0;1]); (T 42,[2;1])] [0;2]));
  (*2262*) AddTo (T 110) (Plain (Einsum [(T 109,[0;1])] [1;0]));
  (*2263*) Del (T 109);
  (*2264*) Assign (T 136) (Plain (Zeros [6;7]));
  (*2265*) AddTo (T 136) (Plain (Einsum [(T 42,[0;1]); (n_t2'abab,[0;2;1;3])] [2;3]));
  (*2266*) AddTo (T 160) (Plain (Einsum [(T 136,[0;1])] [0;1]));
  (*2267*) Del (T 136);
  (*2268*) Assign (T 220) (Plain (Zeros [3;4;4]));
  (*2269*) AddTo (T 220) (Plain (Einsum [(T 42,[0;1]); (n_u11'aa,[2;3;1])] [2;3;0]));
  (*2270*) Assign (T 224) (Plain (Zeros [3;4;4]));
  (*2271*) AddTo (T 224) (Plain (Einsum [(T 220,[0;1;2])] [0;2;1]));
  (*2272*) Del (T 220);
  (*2273*) Assign (T 234) (Plain (Zeros [3;3]));
  (*2274*) AddTo (T 234) (Times (Einsum [(T 42,[0;1]); (n_u12'aa,[2;3;0;1])] [3;2]) (1) 2);
  (*2275*) Assign (T 256) (Plain (Zeros [3]));
  (*2276*) AddTo (T 256) (Plain (Einsum [(T 42,[0;1]); (n_u11'aa,[2;0;1])] [2]));
  (*2277*) Assign (T 259) (Plain (Zeros [3]));
  (*2278*) AddTo (T 259) (Plain (Einsum [(T 256,[0])] [0]));
  (*2279*) Del (T 256);
  (*2280*) Assign (T 335) (Plain (Zeros [3;3]));
  (*2281*) AddTo (T 335) (Plain (Einsum [(T 42,[0;1]); (n_u12'aa,[2;3;0;1])] [3;2]));
  (*2282*) Assign n_lu11new_aa (Plain (Zeros [3;5;4]));
  (*2283*) AddTo n_lu11new_aa (Times (Einsum [(n_ls1,[0]); (T 42,[1;2])] [0;2;1]) (2) 1);
  (*2284*) Assign n_lu12new_aa (Plain (Zeros [3;3;5;4]));
  (*2285*) AddTo n_lu12new_aa (Times (Einsum [(n_ls2,[0;1]); (T 42,[2;3])] [1;0;3;2]) (2) 1);
  (*2286*) Assign (T 43) (Plain (Zeros [4;4;6;6]));
  (*2287*) AddTo (T 43) (Plain (Einsum [(n_t1'bb,[0;1]); (n_v'aabb'ooov,[2;3;4;1])] [2;3;0;4]));
  (*2288*) Assign (T 47) (Plain (Zeros [4;4;6;6]));
  (*2289*) AddTo (T 47) (Plain (Einsum [(T 43,[0;1;2;3])] [0;1;3;2]));
  (*2290*) AddTo (T 529) (Plain (Einsum [(T 43,[0;1;2;3])] [0;1;3;2]));
  (*2291*) Del (T 43);
  (*2292*) Assign (T 44) (Plain (Zeros [4;4;6;6]));
  (*2293*) AddTo (T 44) (Plain (Einsum [(n_t2'abab,[0;1;2;3]); (n_v'aabb'ovov,[4;2;5;3])] [0;4;1;5]));
  (*2294*) AddTo (T 47) (Plain (Einsum [(T 44,[0;1;2;3])] [1;0;3;2]));
  (*2295*) AddTo (T 529) (Plain (Einsum [(T 44,[0;1;2;3])] [1;0;3;2]));
  (*2296*) Del (T 44);
  (*2297*) AddTo (T 45) (Plain (Einsum [(n_v'aabb'ovoo,[0;1;2;3])] [0;2;3;1]));
  (*2298*) Assign (T 46) (Plain (Zeros [4;4;6;6]));
  (*2299*) AddTo (T 46) (Plain (Einsum [(n_t1'aa,[0;1]); (T 45,[2;3;4;1])] [0;2;3;4]));
  (*2300*) Del (T 45);
  (*2301*) AddTo (T 47) (Plain (Einsum [(T 46,[0;1;2;3])] [1;0;2;3]));
  (*2302*) Del (T 46);
  (*2303*) AddTo (T 47) (Plain (Einsum [(n_v'aabb'oooo,[0;1;2;3])] [0;1;2;3]));
  (*2304*) AddTo (T 50) (Times (Einsum [(n_t1'bb,[0;1]); (T 47,[2;3;0;4])] [2;3;4;1]) (-1) 1);
  (*2305*) AddTo (T 294) (Times (Einsum [(n_t1'aa,[0;1]); (T 47,[0;2;3;4])] [2;3;4;1]) (-1) 1);
  (*2306*) Del (T 47);
  (*2307*) Assign (T 48) (Plain (Zeros [4;6;5;7]));
  (*2308*) AddTo (T 48) (Plain (Einsum [(n_t1'bb,[0;1]); (n_v'aabb'ovvv,[2;3;4;1])] [2;0;3;4]));
  (*2309*) Assign (T 49) (Plain (Zeros [4;6;5;7]));
  (*2310*) AddTo (T 49) (Plain (Einsum [(T 48,[0;1;2;3])] [0;1;2;3]));
  (*2311*) Assign (T 362) (Plain (Zeros [4;6;5;7]));
  (*2312*) AddTo (T 362) (Plain (Einsum [(T 48,[0;1;2;3])] [0;1;2;3]));
  (*2313*) AddTo (T 512) (Plain (Einsum [(T 48,[0;1;2;3])] [0;1;2;3]));
  (*2314*) Assign (T 621) (Plain (Zeros [4;6;5;7]));
  (*2315*) AddTo (T 621) (Plain (Einsum [(T 48,[0;1;2;3])] [0;1;2;3]));
  (*2316*) Del (T 48);
  (*2317*) AddTo (T 49) (Plain (Einsum [(n_v'aabb'ovvo,[0;1;2;3])] [0;3;1;2]));
  (*2318*) AddTo (T 50) (Plain (Einsum [(n_t1'aa,[0;1]); (T 49,[2;3;1;4])] [2;0;3;4]));
  (*2319*) AddTo (T 50) (Plain (Einsum [(n_v'aabb'oovo,[0;1;2;3])] [0;1;3;2]));
  (*2320*) AddTo (T 50) (Plain (Einsum [(n_t1'bb,[0;1]); (n_v'aabb'oovv,[2;3;4;1])] [2;3;0;4]));
  (*2321*) AddTo (T 50) (Plain (Einsum [(n_t2'abab,[0;1;2;3]); (n_v'aabb'ovvv,[4;2;5;3])] [4;0;1;5]));
  (*2322*) AddTo n_l1new_aa (Times (Einsum [(n_l2'abab,[0;1;2;3]); (T 50,[4;2;3;1])] [0;4]) (-1) 1);
  (*2323*) Del (T 50);
  (*2324*) Assign (T 53) (Plain (Zeros [6;6;7;7]));
  (*2325*) AddTo (T 53) (Plain (Einsum [(n_t2'bbbb,[0;1;2;3])] [1;0;2;3]));
  (*2326*) AddTo (T 53) (Times (Einsum [(n_t2'bbbb,[0;1;2;3])] [1;0;3;2]) (-1) 1);
  (*2327*) AddTo (T 54) (Times (Einsum [(n_l2'abab,[0;1;2;3]); (T 53,[3;4;5;1])] [2;4;0;5]) (-1) 1);
  (*2328*) Assign (T 130) (Plain (Zeros [6;7]));
  (*2329*) AddTo (T 130) (Plain (Einsum [(n_v'bbbb'ovvv,[0;1;2;3]); (T 53,[0;4;1;3])] [4;2]));
  (*2330*) AddTo (T 160) (Times (Einsum [(T 130,[0;1])] [0;1]) (-1) 1);
  (*2331*) Del (T 130);
  (*2332*) Assign (T 196) (Plain (Zeros [6;7]));
  (*2333*) AddTo (T 196) (Plain (Einsum [(n_l1'bb,[0;1]); (T 53,[1;2;3;0])] [2;3]));
  (*2334*) AddTo (T 208) (Times (Einsum [(T 196,[0;1])] [0;1]) (-1) 1);
  (*2335*) Del (T 196);
  (*2336*) AddTo (T 54) (Times (Einsum [(n_lu12'aa,[0;1;2;3]); (n_u12'bb,[0;1;4;5])] [3;4;2;5]) (-1) 2);
  (*2337*) AddTo n_l1new_aa (Times (Einsum [(n_v'bbaa'ovvv,[0;1;2;3]); (T 54,[4;0;2;1])] [3;4]) (-1) 1);
  (*2338*) Del (T 54);
  (*2339*) Assign (T 55) (Plain (Zeros [3;3;4;4]));
  (*2340*) AddTo (T 55) (Plain (Einsum [(n_t1'aa,[0;1]); (n_lu12'aa,[2;3;1;4])] [2;3;4;0]));
  (*2341*) Assign (T 59) (Plain (Zeros [4;4;4;5]));
  (*2342*) AddTo (T 59) (Times (Einsum [(n_u12'aa,[0;1;2;3]); (T 55,[0;1;4;5])] [4;5;2;3]) (1) 2);
  (*2343*) AddTo (T 63) (Times (Einsum [(n_u12'bb,[0;1;2;3]); (T 55,[0;1;4;5])] [4;5;2;3]) (-1) 2);
  (*2344*) Assign (T 164) (Plain (Zeros [4;5]));
  (*2345*) AddTo (T 164) (Plain (Einsum [(n_u12'aa,[0;1;2;3]); (T 55,[0;1;2;4])] [4;3]));
  (*2346*) AddTo (T 179) (Times (Einsum [(T 164,[0;1])] [0;1]) (1) 2);
  (*2347*) Del (T 164);
  (*2348*) Assign (T 586) (Plain (Zeros [3;4;5]));
  (*2349*) AddTo (T 586) (Plain (Einsum [(n_u11'aa,[0;1;2]); (T 55,[3;0;1;4])] [3;4;2]));
  (*2350*) Assign (T 587) (Plain (Zeros [3;3]));
  (*2351*) AddTo (T 587) (Plain (Einsum [(n_g'aa'bov,[0;1;2]); (T 586,[3;1;2])] [0;3]));
  (*2352*) Del (T 586);
  (*2353*) Assign (T 606) (Plain (Zeros [3;3]));
  (*2354*) SubFrom (T 606) (Plain (Einsum [(T 587,[0;1])] [0;1]));
  (*2355*) Del (T 587);
  (*2356*) AddTo n_lu12new_aa (Times (Einsum [(T 536,[0;1;2;3]); (T 55,[4;5;0;2])] [5;4;3;1]) (-1) 1);
  (*2357*) AddTo n_lu12new_aa (Times (Einsum [(T 42,[0;1]); (T 55,[2;3;4;0])] [3;2;1;4]) (-1) 1);
  (*2358*) Assign n_lu12new_bb (Plain (Zeros [3;3;7;6]));
  (*2359*) SubFrom n_lu12new_bb (Plain (Einsum [(n_v'aabb'ooov,[0;1;2;3]); (T 55,[4;5;1;0])] [5;4;3;2]));
  (*2360*) SubFrom n_lu12new_bb (Plain (Einsum [(T 26,[0;1;2;3]); (T 55,[4;5;0;1])] [5;4;3;2]));
  (*2361*) Assign (T 56) (Plain (Zeros [4;4;6;7]));
  (*2362*) AddTo (T 56) (Plain (Einsum [(n_t1'aa,[0;1]); (n_l2'abab,[1;2;3;4])] [3;0;4;2]));
  (*2363*) AddTo (T 59) (Plain (Einsum [(n_t2'abab,[0;1;2;3]); (T 56,[4;5;1;3])] [4;5;0;2]));
  (*2364*) AddTo (T 63) (Times (Einsum [(T 53,[0;1;2;3]); (T 56,[4;5;0;3])] [4;5;1;2]) (-1) 1);
  (*2365*) Assign (T 165) (Plain (Zeros [4;5]));
  (*2366*) AddTo (T 165) (Plain (Einsum [(n_t2'abab,[0;1;2;3]); (T 56,[0;4;1;3])] [4;2]));
  (*2367*) AddTo (T 179) (Plain (Einsum [(T 165,[0;1])] [0;1]));
  (*2368*) Del (T 165);
  (*2369*) AddTo (T 298) (Times (Einsum [(n_t1'aa,[0;1]); (T 56,[0;2;3;4])] [2;3;1;4]) (2) 1);
  (*2370*) AddTo (T 302) (Plain (Einsum [(n_t2'abab,[0;1;2;3]); (T 56,[0;4;5;3])] [4;5;1;2]));
  (*2371*) Assign (T 427) (Plain (Zeros [6;6;7;7]));
  (*2372*) AddTo (T 427) (Plain (Einsum [(n_v'aabb'ooov,[0;1;2;3]); (T 56,[1;0;4;5])] [4;2;5;3]));
  (*2373*) Assign (T 468) (Plain (Zeros [6;6;7;7]));
  (*2374*) SubFrom (T 468) (Plain (Einsum [(T 427,[0;1;2;3])] [0;1;2;3]));
  (*2375*) Del (T 427);
  (*2376*) Assign (T 430) (Plain (Zeros [6;6;7;7]));
  (*2377*) AddTo (T 430) (Plain (Einsum [(T 26,[0;1;2;3]); (T 56,[0;1;4;5])] [4;2;5;3]));
  (*2378*) Del (T 26);
  (*2379*) SubFrom (T 468) (Plain (Einsum [(T 430,[0;1;2;3])] [0;1;2;3]));
  (*2380*) Del (T 430);
  (*2381*) Assign (T 501) (Plain (Zeros [4;6;5;7]));
  (*2382*) AddTo (T 501) (Plain (Einsum [(n_v'aabb'ovvv,[0;1;2;3]); (T 56,[4;0;5;2])] [4;5;1;3]));
  (*2383*) SubFrom n_l2new_baba (Plain (Einsum [(T 501,[0;1;2;3])] [3;2;1;0]));
  (*2384*) SubFrom n_l2new_abab (Plain (Einsum [(T 501,[0;1;2;3])] [2;3;0;1]));
  (*2385*) Del (T 501);
  (*2386*) Assign (T 534) (Plain (Zeros [4;6;5;7]));
  (*2387*) AddTo (T 534) (Plain (Einsum [(T 41,[0;1;2;3]); (T 56,[4;0;2;5])] [4;1;3;5]));
  (*2388*) AddTo n_l2new_baba (Plain (Einsum [(T 534,[0;1;2;3])] [3;2;1;0]));
  (*2389*) AddTo n_l2new_abab (Plain (Einsum [(T 534,[0;1;2;3])] [2;3;0;1]));
  (*2390*) Del (T 534);
  (*2391*) Assign (T 552) (Plain (Zeros [4;6;5;7]));
  (*2392*) AddTo (T 552) (Plain (Einsum [(T 42,[0;1]); (T 56,[2;0;3;4])] [2;3;1;4]));
  (*2393*) AddTo n_l2new_baba (Times (Einsum [(T 552,[0;1;2;3])] [3;2;1;0]) (-1) 1);
  (*2394*) AddTo n_l2new_abab (Times (Einsum [(T 552,[0;1;2;3])] [2;3;0;1]) (-1) 1);
  (*2395*) Del (T 552);
  (*2396*) AddTo n_l1new_aa (Times (Einsum [(T 49,[0;1;2;3]); (T 56,[4;0;1;3])] [2;4]) (-1) 1);
  (*2397*) Del (T 49);
  (*2398*) SubFrom n_l1new_bb (Plain (Einsum [(n_v'aabb'oovv,[0;1;2;3]); (T 56,[1;0;4;2])] [3;4]));
  (*2399*) AddTo n_l2new_baba (Times (Einsum [(T 536,[0;1;2;3]); (T 56,[0;2;4;5])] [5;3;4;1]) (-1) 1);
  (*2400*) Del (T 536);
  (*2401*) AddTo n_l2new_abab (Plain (Einsum [(T 396,[0;1;2;3]); (T 56,[0;2;4;5])] [3;5;1;4]));
  (*2402*) Assign (T 57) (Plain (Zeros [4;4;4;5]));
  (*2403*) AddTo (T 57) (Plain (Einsum [(n_t1'aa,[0;1]); (n_l2'aaaa,[1;2;3;4])] [4;3;0;2]));
  (*2404*) Assign (T 58) (Plain (Zeros [4;4;4;5]));
  (*2405*) AddTo (T 58) (Plain (Einsum [(T 57,[0;1;2;3])] [0;1;2;3]));
  (*2406*) AddTo (T 58) (Times (Einsum [(T 57,[0;1;2;3])] [1;0;2;3]) (-1) 1);
  (*2407*) AddTo (T 59) (Plain (Einsum [(T 24,[0;1;2;3]); (T 58,[4;0;5;3])] [4;5;1;2]));
  (*2408*) Del (T 58);
  (*2409*) Assign (T 61) (Plain (Zeros [4;4;4;5]));
  (*2410*) AddTo (T 61) (Times (Einsum [(T 57,[0;1;2;3])] [0;1;2;3]) (-1) 1);
  (*2411*) AddTo (T 61) (Plain (Einsum [(T 57,[0;1;2;3])] [1;0;2;3]));
  (*2412*) AddTo (T 63) (Times (Einsum [(n_t2'abab,[0;1;2;3]); (T 61,[4;0;5;2])] [4;5;1;3]) (-1) 1);
  (*2413*) Assign (T 64) (Plain (Zeros [4;4;5;5]));
  (*2414*) AddTo (T 64) (Times (Einsum [(n_t1'aa,[0;1]); (T 61,[0;2;3;4])] [2;3;4;1]) (-1) 1);
  (*2415*) AddTo n_l1new_aa (Plain (Einsum [(T 37,[0;1;2;3]); (T 64,[4;0;1;2])] [3;4]));
  (*2416*) Del (T 37);
  (*2417*) Del (T 64);
  (*2418*) Assign (T 397) (Plain (Zeros [4;4;5;5]));
  (*2419*) AddTo (T 397) (Plain (Einsum [(T 396,[0;1;2;3]); (T 61,[0;4;2;5])] [4;1;5;3]));
  (*2420*) Del (T 396);
  (*2421*) Assign (T 415) (Plain (Zeros [4;4;5;5]));
  (*2422*) AddTo (T 415) (Plain (Einsum [(T 397,[0;1;2;3])] [0;1;2;3]));
  (*2423*) Del (T 397);
  (*2424*) AddTo n_l1new_aa (Plain (Einsum [(T 29,[0;1;2;3]); (T 61,[1;4;0;2])] [3;4]));
  (*2425*) Del (T 29);
  (*2426*) AddTo n_l2new_baba (Times (Einsum [(T 27,[0;1;2;3]); (T 61,[1;4;0;5])] [3;5;2;4]) (-1) 1);
  (*2427*) Del (T 61);
  (*2428*) Assign (T 69) (Plain (Zeros [4;4;4;4]));
  (*2429*) AddTo (T 69) (Plain (Einsum [(n_t1'aa,[0;1]); (T 57,[2;3;4;1])] [3;2;4;0]));
  (*2430*) Assign (T 70) (Plain (Zeros [4;4;4;4]));
  (*2431*) AddTo (T 70) (Plain (Einsum [(T 69,[0;1;2;3])] [0;1;2;3]));
  (*2432*) Assign (T 123) (Plain (Zeros [4;4;4;4]));
  (*2433*) AddTo (T 123) (Plain (Einsum [(T 69,[0;1;2;3])] [0;1;2;3]));
  (*2434*) AddTo (T 123) (Times (Einsum [(T 69,[0;1;2;3])] [0;1;3;2]) (-1) 1);
  (*2435*) AddTo n_l1new_aa (Plain (Einsum [(n_v'aaaa'ooov,[0;1;2;3]); (T 123,[4;1;2;0])] [3;4]));
  (*2436*) Del (T 123);
  (*2437*) Assign (T 421) (Plain (Zeros [4;4;4;4]));
  (*2438*) AddTo (T 421) (Plain (Einsum [(T 69,[0;1;2;3])] [0;1;2;3]));
  (*2439*) Del (T 69);
  (*2440*) Assign (T 353) (Plain (Zeros [4;4;5;5]));
  (*2441*) AddTo (T 353) (Plain (Einsum [(n_v'aaaa'ovvv,[0;1;2;3]); (T 57,[4;5;0;2])] [5;4;1;3]));
  (*2442*) SubFrom (T 391) (Plain (Einsum [(T 353,[0;1;2;3])] [0;1;2;3]));
  (*2443*) Del (T 353);
  (*2444*) Assign (T 364) (Plain (Zeros [4;4;4;5]));
  (*2445*) SubFrom (T 364) (Plain (Einsum [(T 57,[0;1;2;3])] [0;1;2;3]));
  (*2446*) AddTo (T 364) (Plain (Einsum [(T 57,[0;1;2;3])] [1;0;2;3]));
  (*2447*) AddTo n_l2new_abab (Times (Einsum [(T 27,[0;1;2;3]); (T 364,[1;4;0;5])] [5;3;4;2]) (-1) 1);
  (*2448*) Del (T 27);
  (*2449*) Assign (T 414) (Plain (Zeros [4;4;5;5]));
  (*2450*) AddTo (T 414) (Plain (Einsum [(T 15,[0;1]); (T 57,[2;3;0;4])] [2;3;4;1]));
  (*2451*) Del (T 15);
  (*2452*) AddTo (T 415) (Times (Einsum [(T 414,[0;1;2;3])] [0;1;2;3]) (-1) 1);
  (*2453*) Del (T 414);
  (*2454*) Assign (T 60) (Plain (Zeros [4;4;5;5]));
  (*2455*) AddTo (T 60) (Plain (Einsum [(n_v'aaaa'ovov,[0;1;2;3])] [2;0;1;3]));
  (*2456*) SubFrom (T 60) (Plain (Einsum [(n_v'aaaa'ovov,[0;1;2;3])] [2;0;3;1]));
  (*2457*) Assign (T 244) (Plain (Zeros [3;4;5]));
  (*2458*) AddTo (T 244) (Plain (Einsum [(n_u11'aa,[0;1;2]); (T 60,[1;3;2;4])] [0;3;4]));
  (*2459*) Assign (T 245) (Plain (Zeros [3;4;5]));
  (*2460*) SubFrom (T 245) (Plain (Einsum [(T 244,[0;1;2])] [0;1;2]));
  (*2461*) Assign (T 382) (Plain (Zeros [3;4;5]));
  (*2462*) SubFrom (T 382) (Plain (Einsum [(T 244,[0;1;2])] [0;1;2]));
  (*2463*) Assign (T 554) (Plain (Zeros [3;4;5]));
  (*2464*) SubFrom (T 554) (Plain (Einsum [(T 244,[0;1;2])] [0;1;2]));
  (*2465*) Del (T 244);
  (*2466*) Assign (T 389) (Plain (Zeros [4;5]));
  (*2467*) AddTo (T 389) (Plain (Einsum [(n_t1'aa,[0;1]); (T 60,[0;2;1;3])] [2;3]));
  (*2468*) SubFrom (T 390) (Plain (Einsum [(T 389,[0;1])] [0;1]));
  (*2469*) AddTo (T 391) (Plain (Einsum [(n_l1'aa,[0;1]); (T 390,[2;3])] [1;2;0;3]));
  (*2470*) Del (T 390);
  (*2471*) SubFrom (T 565) (Plain (Einsum [(T 389,[0;1])] [0;1]));
  (*2472*) Del (T 389);
  (*2473*) AddTo n_l1new_aa (Times (Einsum [(T 59,[0;1;2;3]); (T 60,[1;2;3;4])] [4;0]) (-1) 1);
  (*2474*) Del (T 59);
  (*2475*) Del (T 60);
  (*2476*) AddTo (T 63) (Times (Einsum [(n_l1'aa,[0;1]); (n_t2'abab,[2;3;0;4])] [1;2;3;4]) (-1) 1);
  (*2477*) AddTo n_l1new_aa (Plain (Einsum [(n_v'aabb'ovov,[0;1;2;3]); (T 63,[4;0;2;3])] [1;4]));
  (*2478*) Del (T 63);
  (*2479*) Assign (T 65) (Plain (Zeros [4;5;5;5]));
  (*2480*) AddTo (T 65) (Plain (Einsum [(n_t1'aa,[0;1]); (n_v'aaaa'vvvv,[2;1;3;4])] [0;3;2;4]));
  (*2481*) Assign (T 66) (Plain (Zeros [4;5;5;5]));
  (*2482*) AddTo (T 66) (Times (Einsum [(T 65,[0;1;2;3])] [0;1;2;3]) (-1) 1);
  (*2483*) Del (T 65);
  (*2484*) AddTo (T 66) (Plain (Einsum [(n_v'aaaa'vovv,[0;1;2;3])] [1;0;2;3]));
  (*2485*) Assign (T 67) (Plain (Zeros [4;5;5;5]));
  (*2486*) AddTo (T 67) (Plain (Einsum [(T 66,[0;1;2;3])] [0;1;2;3]));
  (*2487*) AddTo (T 67) (Times (Einsum [(T 66,[0;1;2;3])] [0;2;1;3]) (-1) 1);
  (*2488*) Del (T 66);
  (*2489*) AddTo n_l1new_aa (Times (Einsum [(n_l2'aaaa,[0;1;2;3]); (T 67,[2;1;0;4])] [4;3]) (-1) 1);
  (*2490*) Del (T 67);
  (*2491*) Assign (T 68) (Plain (Zeros [4;4;4;4]));
  (*2492*) AddTo (T 68) (Plain (Einsum [(n_l2'aaaa,[0;1;2;3]); (n_t2'aaaa,[4;5;0;1])] [2;3;4;5]));
  (*2493*) AddTo (T 70) (Plain (Einsum [(T 68,[0;1;2;3])] [1;0;3;2]));
  (*2494*) Assign (T 71) (Plain (Zeros [4;4;4;5]));
  (*2495*) AddTo (T 71) (Plain (Einsum [(n_t1'aa,[0;1]); (T 70,[0;2;3;4])] [2;3;4;1]));
  (*2496*) Del (T 70);
  (*2497*) Assign (T 72) (Plain (Zeros [4;4;4;5]));
  (*2498*) AddTo (T 72) (Plain (Einsum [(T 71,[0;1;2;3])] [0;1;2;3]));
  (*2499*) AddTo (T 72) (Times (Einsum [(T 71,[0;1;2;3])] [0;2;1;3]) (-1) 1);
  (*2500*) Del (T 71);
  (*2501*) AddTo n_l1new_aa (Plain (Einsum [(n_v'aaaa'ovov,[0;1;2;3]); (T 72,[4;2;0;3])] [1;4]));
  (*2502*) Del (T 72);
  (*2503*) Assign (T 124) (Plain (Zeros [4;4;4;4]));
  (*2504*) AddTo (T 124) (Times (Einsum [(T 68,[0;1;2;3])] [1;0;2;3]) (-1) 1);
  (*2505*) AddTo (T 124) (Plain (Einsum [(T 68,[0;1;2;3])] [1;0;3;2]));
  (*2506*) AddTo n_l1new_aa (Times (Einsum [(n_v'aaaa'ooov,[0;1;2;3]); (T 124,[1;4;2;0])] [3;4]) (-1) 1);
  (*2507*) Del (T 124);
  (*2508*) AddTo (T 421) (Plain (Einsum [(T 68,[0;1;2;3])] [1;0;3;2]));
  (*2509*) Del (T 68);
  (*2510*) Assign (T 422) (Plain (Zeros [4;4;5;5]));
  (*2511*) AddTo (T 422) (Plain (Einsum [(n_v'aaaa'ovov,[0;1;2;3]); (T 421,[4;5;2;0])] [4;5;1;3]));
  (*2512*) Del (T 421);
  (*2513*) AddTo (T 423) (Plain (Einsum [(T 422,[0;1;2;3])] [1;0;2;3]));
  (*2514*) Del (T 422);
  (*2515*) Assign n_l2new_aaaa (Plain (Zeros [5;5;4;4]));
  (*2516*) AddTo n_l2new_aaaa (Plain (Einsum [(T 423,[0;1;2;3])] [2;3;0;1]));
  (*2517*) AddTo n_l2new_aaaa (Times (Einsum [(T 423,[0;1;2;3])] [3;2;0;1]) (-1) 1);
  (*2518*) Del (T 423);
  (*2519*) Assign (T 73) (Plain (Zeros [6;5;5;7]));
  (*2520*) AddTo (T 73) (Plain (Einsum [(n_v'aabb'vvvo,[0;1;2;3])] [3;0;1;2]));
  (*2521*) AddTo (T 73) (Plain (Einsum [(n_t1'bb,[0;1]); (n_v'aabb'vvvv,[2;3;4;1])] [0;2;3;4]));
  (*2522*) AddTo n_l1new_aa (Plain (Einsum [(n_l2'abab,[0;1;2;3]); (T 73,[3;0;4;1])] [4;2]));
  (*2523*) Del (T 73);
  (*2524*) Assign (T 74) (Plain (Zeros [3;4;5]));
  (*2525*) AddTo (T 74) (Plain (Einsum [(n_s2,[0;1]); (n_g'aa'bov,[0;2;3])] [1;2;3]));
  (*2526*) AddTo (T 77) (Plain (Einsum [(T 74,[0;1;2])] [0;1;2]));
  (*2527*) AddTo (T 554) (Plain (Einsum [(T 74,[0;1;2])] [0;1;2]));
  (*2528*) Del (T 74);
  (*2529*) Assign (T 75) (Plain (Zeros [3;4;5]));
  (*2530*) AddTo (T 75) (Plain (Einsum [(n_u11'bb,[0;1;2]); (n_v'aabb'ovov,[3;4;1;2])] [0;3;4]));
  (*2531*) AddTo (T 77) (Plain (Einsum [(T 75,[0;1;2])] [0;1;2]));
  (*2532*) AddTo (T 221) (Plain (Einsum [(T 75,[0;1;2])] [0;1;2]));
  (*2533*) AddTo (T 245) (Plain (Einsum [(T 75,[0;1;2])] [0;1;2]));
  (*2534*) AddTo (T 382) (Plain (Einsum [(T 75,[0;1;2])] [0;1;2]));
  (*2535*) Assign (T 383) (Plain (Zeros [4;4;5;5]));
  (*2536*) AddTo (T 383) (Plain (Einsum [(n_lu11'aa,[0;1;2]); (T 382,[0;3;4])] [2;3;1;4]));
  (*2537*) Del (T 382);
  (*2538*) AddTo (T 391) (Plain (Einsum [(T 383,[0;1;2;3])] [0;1;2;3]));
  (*2539*) Del (T 383);
  (*2540*) AddTo (T 554) (Plain (Einsum [(T 75,[0;1;2])] [0;1;2]));
  (*2541*) Del (T 75);
  (*2542*) AddTo (T 77) (Plain (Einsum [(n_gc'aa'bov,[0;1;2])] [0;1;2]));
  (*2543*) AddTo (T 78) (Times (Einsum [(n_u11'aa,[0;1;2]); (T 77,[3;4;2])] [0;3;4;1]) (2) 1);
  (*2544*) AddTo n_l1new_aa (Times (Einsum [(n_lu12'aa,[0;1;2;3]); (T 78,[0;1;4;3])] [2;4]) (-1) 2);
  (*2545*) Del (T 78);
  (*2546*) Assign (T 572) (Plain (Zeros [3;6;7]));
  (*2547*) AddTo (T 572) (Times (Einsum [(T 77,[0;1;2]); (n_t2'abab,[1;3;2;4])] [0;3;4]) (-1) 1);
  (*2548*) AddTo (T 576) (Times (Einsum [(T 77,[0;1;2]); (T 24,[1;3;2;4])] [0;3;4]) (-1) 1);
  (*2549*) Del (T 77);
  (*2550*) Del (T 24);
  (*2551*) Assign (T 79) (Plain (Zeros [4;4;4;5]));
  (*2552*) AddTo (T 79) (Plain (Einsum [(n_l1'aa,[0;1]); (n_t2'aaaa,[2;3;4;0])] [1;2;3;4]));
  (*2553*) Assign (T 80) (Plain (Zeros [4;4;4;5]));
  (*2554*) AddTo (T 80) (Plain (Einsum [(T 79,[0;1;2;3])] [0;2;1;3]));
  (*2555*) AddTo (T 80) (Times (Einsum [(T 79,[0;1;2;3])] [0;1;2;3]) (-1) 1);
  (*2556*) Del (T 79);
  (*2557*) AddTo n_l1new_aa (Times (Einsum [(n_v'aaaa'ovov,[0;1;2;3]); (T 80,[4;2;0;1])] [3;4]) (-1) 1);
  (*2558*) Del (T 80);
  (*2559*) Assign (T 81) (Plain (Zeros [4;5]));
  (*2560*) AddTo (T 81) (Plain (Einsum [(n_s1,[0]); (n_g'aa'bvo,[0;1;2])] [2;1]));
  (*2561*) AddTo (T 122) (Plain (Einsum [(T 81,[0;1])] [0;1]));
  (*2562*) Del (T 81);
  (*2563*) Assign (T 82) (Plain (Zeros [4;5]));
  (*2564*) AddTo (T 82) (Plain (Einsum [(n_g'aa'bvv,[0;1;2]); (n_u11'aa,[0;3;2])] [3;1]));
  (*2565*) AddTo (T 122) (Plain (Einsum [(T 82,[0;1])] [0;1]));
  (*2566*) Del (T 82);
  (*2567*) Assign (T 83) (Plain (Zeros [4;5]));
  (*2568*) AddTo (T 83) (Plain (Einsum [(n_t1'bb,[0;1]); (n_v'bbaa'ovvo,[0;1;2;3])] [3;2]));
  (*2569*) AddTo (T 122) (Plain (Einsum [(T 83,[0;1])] [0;1]));
  (*2570*) Del (T 83);
  (*2571*) Assign (T 84) (Plain (Zeros [4;5]));
  (*2572*) AddTo (T 84) (Plain (Einsum [(n_t2'aaaa,[0;1;2;3]); (n_v'aaaa'ooov,[1;4;0;3])] [4;2]));
  (*2573*) AddTo (T 122) (Plain (Einsum [(T 84,[0;1])] [0;1]));
  (*2574*) Del (T 84);
  (*2575*) Assign (T 85) (Plain (Zeros [4;5]));
  (*2576*) AddTo (T 85) (Plain (Einsum [(n_t2'abab,[0;1;2;3]); (n_v'bbaa'ovvv,[1;3;4;2])] [0;4]));
  (*2577*) AddTo (T 122) (Plain (Einsum [(T 85,[0;1])] [0;1]));
  (*2578*) Del (T 85);
  (*2579*) AddTo (T 87) (Plain (Einsum [(n_v'aaaa'ooov,[0;1;2;3])] [0;2;1;3]));
  (*2580*) Assign (T 88) (Plain (Zeros [4;5]));
  (*2581*) AddTo (T 88) (Plain (Einsum [(n_t2'aaaa,[0;1;2;3]); (T 87,[0;1;4;3])] [4;2]));
  (*2582*) Del (T 87);
  (*2583*) AddTo (T 122) (Times (Einsum [(T 88,[0;1])] [0;1]) (-1) 1);
  (*2584*) Del (T 88);
  (*2585*) Assign (T 90) (Plain (Zeros [4;4;5;5]));
  (*2586*) AddTo (T 90) (Plain (Einsum [(n_t2'aaaa,[0;1;2;3])] [1;0;2;3]));
  (*2587*) AddTo (T 90) (Times (Einsum [(n_t2'aaaa,[0;1;2;3])] [1;0;3;2]) (-1) 1);
  (*2588*) Assign (T 91) (Plain (Zeros [4;5]));
  (*2589*) AddTo (T 91) (Plain (Einsum [(T 42,[0;1]); (T 90,[0;2;1;3])] [2;3]));
  (*2590*) AddTo (T 122) (Times (Einsum [(T 91,[0;1])] [0;1]) (-1) 1);
  (*2591*) Del (T 91);
  (*2592*) Assign (T 166) (Plain (Zeros [4;5]));
  (*2593*) AddTo (T 166) (Plain (Einsum [(T 57,[0;1;2;3]); (T 90,[0;1;3;4])] [2;4]));
  (*2594*) AddTo (T 179) (Times (Einsum [(T 166,[0;1])] [0;1]) (-1) 1);
  (*2595*) Del (T 166);
  (*2596*) AddTo (T 294) (Times (Einsum [(T 41,[0;1;2;3]); (T 90,[0;4;3;5])] [4;1;2;5]) (-1) 1);
  (*2597*) Assign (T 393) (Plain (Zeros [4;4;5;5]));
  (*2598*) AddTo (T 393) (Plain (Einsum [(T 13,[0;1;2;3]); (T 90,[0;4;2;5])] [1;4;3;5]));
  (*2599*) Assign (T 394) (Plain (Zeros [4;4;5;5]));
  (*2600*) AddTo (T 394) (Plain (Einsum [(T 393,[0;1;2;3])] [1;0;3;2]));
  (*2601*) AddTo (T 514) (Plain (Einsum [(T 393,[0;1;2;3])] [0;1;3;2]));
  (*2602*) Del (T 393);
  (*2603*) Assign (T 506) (Plain (Zeros [4;6;5;7]));
  (*2604*) AddTo (T 506) (Plain (Einsum [(n_v'aabb'ovov,[0;1;2;3]); (T 90,[0;4;1;5])] [4;2;5;3]));
  (*2605*) Assign (T 508) (Plain (Zeros [4;6;5;7]));
  (*2606*) AddTo (T 508) (Times (Einsum [(T 506,[0;1;2;3])] [0;1;2;3]) (-1) 1);
  (*2607*) Del (T 506);
  (*2608*) Assign (T 543) (Plain (Zeros [5;5]));
  (*2609*) AddTo (T 543) (Plain (Einsum [(n_v'aaaa'ovov,[0;1;2;3]); (T 90,[0;2;3;4])] [1;4]));
  (*2610*) Assign (T 544) (Plain (Zeros [5;5]));
  (*2611*) AddTo (T 544) (Times (Einsum [(T 543,[0;1])] [1;0]) (-1) 1);
  (*2612*) Del (T 543);
  (*2613*) Assign (T 615) (Plain (Zeros [3;3;4;5]));
  (*2614*) AddTo (T 615) (Plain (Einsum [(n_lu12'aa,[0;1;2;3]); (T 90,[3;4;2;5])] [0;1;4;5]));
  (*2615*) Del (T 90);
  (*2616*) Assign (T 616) (Plain (Zeros [3;3;4;5]));
  (*2617*) AddTo (T 616) (Times (Einsum [(T 615,[0;1;2;3])] [1;0;2;3]) (-1) 1);
  (*2618*) Del (T 615);
  (*2619*) Assign (T 92) (Plain (Zeros [6;7]));
  (*2620*) AddTo (T 92) (Plain (Einsum [(n_s1,[0]); (n_g'bb'bov,[0;1;2])] [1;2]));
  (*2621*) Assign (T 96) (Plain (Zeros [6;7]));
  (*2622*) AddTo (T 96) (Plain (Einsum [(T 92,[0;1])] [0;1]));
  (*2623*) Assign (T 267) (Plain (Zeros [6;7]));
  (*2624*) AddTo (T 267) (Plain (Einsum [(T 92,[0;1])] [0;1]));
  (*2625*) Assign (T 448) (Plain (Zeros [6;7]));
  (*2626*) AddTo (T 448) (Plain (Einsum [(T 92,[0;1])] [0;1]));
  (*2627*) Assign (T 564) (Plain (Zeros [6;7]));
  (*2628*) AddTo (T 564) (Plain (Einsum [(T 92,[0;1])] [0;1]));
  (*2629*) Del (T 92);
  (*2630*) Assign (T 93) (Plain (Zeros [6;7]));
  (*2631*) AddTo (T 93) (Plain (Einsum [(n_t1'aa,[0;1]); (n_v'aabb'ovov,[0;1;2;3])] [2;3]));
  (*2632*) AddTo (T 96) (Plain (Einsum [(T 93,[0;1])] [0;1]));
  (*2633*) Assign (T 273) (Plain (Zeros [6;7]));
  (*2634*) AddTo (T 273) (Plain (Einsum [(T 93,[0;1])] [0;1]));
  (*2635*) Assign (T 467) (Plain (Zeros [6;7]));
  (*2636*) AddTo (T 467) (Plain (Einsum [(T 93,[0;1])] [0;1]));
  (*2637*) AddTo (T 564) (Plain (Einsum [(T 93,[0;1])] [0;1]));
  (*2638*) Del (T 93);
  (*2639*) Assign (T 94) (Plain (Zeros [6;6;7;7]));
  (*2640*) AddTo (T 94) (Times (Einsum [(n_v'bbbb'ovov,[0;1;2;3])] [2;0;1;3]) (-1) 1);
  (*2641*) AddTo (T 94) (Plain (Einsum [(n_v'bbbb'ovov,[0;1;2;3])] [2;0;3;1]));
  (*2642*) Assign (T 95) (Plain (Zeros [6;7]));
  (*2643*) AddTo (T 95) (Plain (Einsum [(n_t1'bb,[0;1]); (T 94,[0;2;3;1])] [2;3]));
  (*2644*) AddTo (T 96) (Times (Einsum [(T 95,[0;1])] [0;1]) (-1) 1);
  (*2645*) AddTo (T 273) (Times (Einsum [(T 95,[0;1])] [0;1]) (-1) 1);
  (*2646*) Del (T 95);
  (*2647*) Assign (T 274) (Plain (Zeros [6;6;6;7]));
  (*2648*) AddTo (T 274) (Plain (Einsum [(T 273,[0;1]); (n_t2'bbbb,[2;3;1;4])] [2;3;0;4]));
  (*2649*) Assign (T 279) (Plain (Zeros [6;6;6;7]));
  (*2650*) AddTo (T 279) (Plain (Einsum [(T 274,[0;1;2;3])] [1;0;2;3]));
  (*2651*) Del (T 274);
  (*2652*) Assign (T 482) (Plain (Zeros [6;6]));
  (*2653*) AddTo (T 482) (Plain (Einsum [(n_t1'bb,[0;1]); (T 273,[2;1])] [0;2]));
  (*2654*) Assign (T 483) (Plain (Zeros [6;6]));
  (*2655*) AddTo (T 483) (Plain (Einsum [(T 482,[0;1])] [0;1]));
  (*2656*) Del (T 482);
  (*2657*) Assign (T 228) (Plain (Zeros [3;6;7]));
  (*2658*) AddTo (T 228) (Times (Einsum [(n_u11'bb,[0;1;2]); (T 94,[1;3;4;2])] [0;3;4]) (1) 2);
  (*2659*) Assign (T 229) (Plain (Zeros [3;6;7]));
  (*2660*) AddTo (T 229) (Times (Einsum [(T 228,[0;1;2])] [0;1;2]) (-1) 1);
  (*2661*) Del (T 228);
  (*2662*) Assign (T 316) (Plain (Zeros [3;6;7]));
  (*2663*) AddTo (T 316) (Plain (Einsum [(n_u11'bb,[0;1;2]); (T 94,[1;3;4;2])] [0;3;4]));
  (*2664*) Assign (T 317) (Plain (Zeros [3;6;7]));
  (*2665*) AddTo (T 317) (Times (Einsum [(T 316,[0;1;2])] [0;1;2]) (-1) 1);
  (*2666*) Assign (T 331) (Plain (Zeros [3;6;7]));
  (*2667*) AddTo (T 331) (Times (Einsum [(T 316,[0;1;2])] [0;1;2]) (-1) 1);
  (*2668*) Del (T 316);
  (*2669*) Assign (T 476) (Plain (Zeros [3;3;6;7]));
  (*2670*) AddTo (T 476) (Plain (Einsum [(n_u12'bb,[0;1;2;3]); (T 94,[2;4;5;3])] [0;1;4;5]));
  (*2671*) Assign (T 477) (Plain (Zeros [3;3;6;7]));
  (*2672*) AddTo (T 477) (Times (Einsum [(T 476,[0;1;2;3])] [1;0;2;3]) (-1) 1);
  (*2673*) Del (T 476);
  (*2674*) Assign (T 481) (Plain (Zeros [6;6]));
  (*2675*) AddTo (T 481) (Plain (Einsum [(n_t2'bbbb,[0;1;2;3]); (T 94,[0;4;3;2])] [1;4]));
  (*2676*) AddTo (T 483) (Times (Einsum [(T 481,[0;1])] [0;1]) (-1) 1);
  (*2677*) Del (T 481);
  (*2678*) Assign (T 486) (Plain (Zeros [7;7]));
  (*2679*) AddTo (T 486) (Plain (Einsum [(n_t2'bbbb,[0;1;2;3]); (T 94,[0;1;3;4])] [2;4]));
  (*2680*) Assign (T 487) (Plain (Zeros [7;7]));
  (*2681*) AddTo (T 487) (Times (Einsum [(T 486,[0;1])] [0;1]) (-1) 1);
  (*2682*) Del (T 486);
  (*2683*) Assign (T 507) (Plain (Zeros [4;6;5;7]));
  (*2684*) AddTo (T 507) (Plain (Einsum [(n_t2'abab,[0;1;2;3]); (T 94,[1;4;5;3])] [0;4;2;5]));
  (*2685*) AddTo (T 508) (Times (Einsum [(T 507,[0;1;2;3])] [0;1;2;3]) (-1) 1);
  (*2686*) Del (T 507);
  (*2687*) AddTo (T 96) (Plain (Einsum [(n_f'bb'ov,[0;1])] [0;1]));
  (*2688*) Assign (T 97) (Plain (Zeros [4;5]));
  (*2689*) AddTo (T 97) (Plain (Einsum [(T 96,[0;1]); (n_t2'abab,[2;0;3;1])] [2;3]));
  (*2690*) AddTo (T 122) (Plain (Einsum [(T 97,[0;1])] [0;1]));
  (*2691*) Del (T 97);
  (*2692*) Assign (T 135) (Plain (Zeros [6;7]));
  (*2693*) AddTo (T 135) (Plain (Einsum [(T 96,[0;1]); (T 39,[0;2;3;1])] [2;3]));
  (*2694*) AddTo (T 160) (Times (Einsum [(T 135,[0;1])] [0;1]) (-1) 1);
  (*2695*) Del (T 135);
  (*2696*) Assign (T 150) (Plain (Zeros [6;6]));
  (*2697*) AddTo (T 150) (Plain (Einsum [(n_t1'bb,[0;1]); (T 96,[2;1])] [0;2]));
  (*2698*) Assign (T 151) (Plain (Zeros [6;6]));
  (*2699*) AddTo (T 151) (Plain (Einsum [(T 150,[0;1])] [1;0]));
  (*2700*) Del (T 150);
  (*2701*) AddTo (T 234) (Times (Einsum [(T 96,[0;1]); (n_u12'bb,[2;3;0;1])] [3;2]) (1) 2);
  (*2702*) Assign (T 257) (Plain (Zeros [3]));
  (*2703*) AddTo (T 257) (Plain (Einsum [(T 96,[0;1]); (n_u11'bb,[2;0;1])] [2]));
  (*2704*) AddTo (T 259) (Plain (Einsum [(T 257,[0])] [0]));
  (*2705*) Del (T 257);
  (*2706*) AddTo (T 294) (Plain (Einsum [(T 96,[0;1]); (n_t2'abab,[2;3;4;1])] [2;0;3;4]));
  (*2707*) AddTo (T 318) (Times (Einsum [(T 96,[0;1]); (n_u12'bb,[2;3;4;1])] [3;2;0;4]) (1) 2);
  (*2708*) Assign (T 330) (Plain (Zeros [3;6;6]));
  (*2709*) AddTo (T 330) (Plain (Einsum [(T 96,[0;1]); (n_u11'bb,[2;3;1])] [2;3;0]));
  (*2710*) Assign (T 334) (Plain (Zeros [3;6;6]));
  (*2711*) AddTo (T 334) (Plain (Einsum [(T 330,[0;1;2])] [0;2;1]));
  (*2712*) Del (T 330);
  (*2713*) AddTo (T 335) (Plain (Einsum [(T 96,[0;1]); (n_u12'bb,[2;3;0;1])] [3;2]));
  (*2714*) Assign (T 553) (Plain (Zeros [4;6;5;7]));
  (*2715*) AddTo (T 553) (Plain (Einsum [(T 96,[0;1]); (T 2,[2;3;0;4])] [2;3;4;1]));
  (*2716*) AddTo n_l2new_baba (Times (Einsum [(T 553,[0;1;2;3])] [3;2;1;0]) (-1) 1);
  (*2717*) AddTo n_l2new_abab (Times (Einsum [(T 553,[0;1;2;3])] [2;3;0;1]) (-1) 1);
  (*2718*) Del (T 553);
  (*2719*) Assign n_lu11new_bb (Plain (Zeros [3;7;6]));
  (*2720*) AddTo n_lu11new_bb (Times (Einsum [(n_ls1,[0]); (T 96,[1;2])] [0;2;1]) (2) 1);
  (*2721*) AddTo n_lu12new_bb (Times (Einsum [(n_ls2,[0;1]); (T 96,[2;3])] [1;0;3;2]) (2) 1);
  (*2722*) Assign (T 99) (Plain (Zeros [3;4;4]));
  (*2723*) AddTo (T 99) (Plain (Einsum [(n_t1'aa,[0;1]); (n_g'aa'bov,[2;3;1])] [2;3;0]));
  (*2724*) Assign (T 100) (Plain (Zeros [3;4;4]));
  (*2725*) AddTo (T 100) (Plain (Einsum [(T 99,[0;1;2])] [0;1;2]));
  (*2726*) Assign (T 599) (Plain (Zeros [3;4;4]));
  (*2727*) AddTo (T 599) (Plain (Einsum [(T 99,[0;1;2])] [0;1;2]));
  (*2728*) Del (T 99);
  (*2729*) AddTo (T 100) (Plain (Einsum [(n_g'aa'boo,[0;1;2])] [0;1;2]));
  (*2730*) Assign (T 101) (Plain (Zeros [4;5]));
  (*2731*) AddTo (T 101) (Plain (Einsum [(n_u11'aa,[0;1;2]); (T 100,[0;1;3])] [3;2]));
  (*2732*) AddTo (T 122) (Times (Einsum [(T 101,[0;1])] [0;1]) (-1) 1);
  (*2733*) Del (T 101);
  (*2734*) Assign (T 223) (Plain (Zeros [3;4;4]));
  (*2735*) AddTo (T 223) (Plain (Einsum [(n_s2,[0;1]); (T 100,[0;2;3])] [1;2;3]));
  (*2736*) AddTo (T 224) (Plain (Einsum [(T 223,[0;1;2])] [0;1;2]));
  (*2737*) Del (T 223);
  (*2738*) AddTo (T 576) (Plain (Einsum [(T 100,[0;1;2]); (n_u12'aa,[0;3;1;4])] [3;2;4]));
  (*2739*) Assign (T 102) (Plain (Zeros [4;4]));
  (*2740*) AddTo (T 102) (Plain (Einsum [(n_s1,[0]); (n_g'aa'boo,[0;1;2])] [1;2]));
  (*2741*) AddTo (T 110) (Plain (Einsum [(T 102,[0;1])] [0;1]));
  (*2742*) Assign (T 375) (Plain (Zeros [4;4]));
  (*2743*) AddTo (T 375) (Plain (Einsum [(T 102,[0;1])] [0;1]));
  (*2744*) Del (T 102);
  (*2745*) Assign (T 103) (Plain (Zeros [4;4]));
  (*2746*) AddTo (T 103) (Plain (Einsum [(n_g'aa'bov,[0;1;2]); (n_u11'aa,[0;3;2])] [1;3]));
  (*2747*) AddTo (T 110) (Plain (Einsum [(T 103,[0;1])] [0;1]));
  (*2748*) AddTo (T 375) (Plain (Einsum [(T 103,[0;1])] [0;1]));
  (*2749*) Del (T 103);
  (*2750*) Assign (T 104) (Plain (Zeros [4;4]));
  (*2751*) AddTo (T 104) (Plain (Einsum [(n_t1'bb,[0;1]); (n_v'aabb'ooov,[2;3;0;1])] [2;3]));
  (*2752*) AddTo (T 110) (Plain (Einsum [(T 104,[0;1])] [0;1]));
  (*2753*) Assign (T 379) (Plain (Zeros [4;4]));
  (*2754*) AddTo (T 379) (Plain (Einsum [(T 104,[0;1])] [0;1]));
  (*2755*) Del (T 104);
  (*2756*) Assign (T 105) (Plain (Zeros [4;4]));
  (*2757*) AddTo (T 105) (Plain (Einsum [(n_t2'abab,[0;1;2;3]); (n_v'aabb'ovov,[4;2;1;3])] [0;4]));
  (*2758*) AddTo (T 110) (Plain (Einsum [(T 105,[0;1])] [1;0]));
  (*2759*) AddTo (T 406) (Plain (Einsum [(T 105,[0;1])] [0;1]));
  (*2760*) Del (T 105);
  (*2761*) Assign (T 407) (Plain (Zeros [4;4;5;5]));
  (*2762*) AddTo (T 407) (Plain (Einsum [(T 406,[0;1]); (n_l2'aaaa,[2;3;0;4])] [4;1;2;3]));
  (*2763*) Del (T 406);
  (*2764*) AddTo (T 415) (Times (Einsum [(T 407,[0;1;2;3])] [0;1;3;2]) (-1) 1);
  (*2765*) Del (T 407);
  (*2766*) Assign (T 107) (Plain (Zeros [4;4;4;5]));
  (*2767*) AddTo (T 107) (Times (Einsum [(n_v'aaaa'ooov,[0;1;2;3])] [0;2;1;3]) (-1) 1);
  (*2768*) AddTo (T 107) (Plain (Einsum [(n_v'aaaa'ooov,[0;1;2;3])] [2;0;1;3]));
  (*2769*) Assign (T 108) (Plain (Zeros [4;4]));
  (*2770*) AddTo (T 108) (Plain (Einsum [(n_t1'aa,[0;1]); (T 107,[2;0;3;1])] [2;3]));
  (*2771*) AddTo (T 110) (Times (Einsum [(T 108,[0;1])] [0;1]) (-1) 1);
  (*2772*) Del (T 108);
  (*2773*) Assign (T 219) (Plain (Zeros [3;4;4]));
  (*2774*) AddTo (T 219) (Plain (Einsum [(n_u11'aa,[0;1;2]); (T 107,[3;1;4;2])] [0;3;4]));
  (*2775*) AddTo (T 224) (Times (Einsum [(T 219,[0;1;2])] [0;1;2]) (-1) 1);
  (*2776*) Del (T 219);
  (*2777*) AddTo (T 110) (Plain (Einsum [(n_f'aa'oo,[0;1])] [0;1]));
  (*2778*) Assign (T 111) (Plain (Zeros [4;5]));
  (*2779*) AddTo (T 111) (Plain (Einsum [(n_t1'aa,[0;1]); (T 110,[0;2])] [2;1]));
  (*2780*) AddTo (T 122) (Times (Einsum [(T 111,[0;1])] [0;1]) (-1) 1);
  (*2781*) Del (T 111);
  (*2782*) Assign (T 546) (Plain (Zeros [4;6;5;7]));
  (*2783*) AddTo (T 546) (Plain (Einsum [(T 110,[0;1]); (n_l2'abab,[2;3;1;4])] [0;4;2;3]));
  (*2784*) AddTo n_l2new_baba (Times (Einsum [(T 546,[0;1;2;3])] [3;2;1;0]) (-1) 1);
  (*2785*) AddTo n_l2new_abab (Times (Einsum [(T 546,[0;1;2;3])] [2;3;0;1]) (-1) 1);
  (*2786*) Del (T 546);
  (*2787*) AddTo (T 576) (Plain (Einsum [(T 110,[0;1]); (n_u11'aa,[2;0;3])] [2;1;3]));
  (*2788*) AddTo n_l1new_aa (Times (Einsum [(n_l1'aa,[0;1]); (T 110,[2;1])] [0;2]) (-1) 1);
  (*2789*) AddTo n_lu12new_aa (Times (Einsum [(T 110,[0;1]); (n_lu12'aa,[2;3;4;1])] [3;2;4;0]) (-1) 1);
  (*2790*) Del (T 110);
  (*2791*) Assign (T 112) (Plain (Zeros [5;5]));
  (*2792*) AddTo (T 112) (Plain (Einsum [(n_s1,[0]); (n_g'aa'bvv,[0;1;2])] [1;2]));
  (*2793*) Assign (T 116) (Plain (Zeros [5;5]));
  (*2794*) AddTo (T 116) (Plain (Einsum [(T 112,[0;1])] [0;1]));
  (*2795*) Assign (T 368) (Plain (Zeros [5;5]));
  (*2796*) AddTo (T 368) (Plain (Einsum [(T 112,[0;1])] [0;1]));
  (*2797*) AddTo (T 544) (Plain (Einsum [(T 112,[0;1])] [0;1]));
  (*2798*) Del (T 112);
  (*2799*) Assign (T 113) (Plain (Zeros [5;5]));
  (*2800*) AddTo (T 113) (Plain (Einsum [(n_t1'bb,[0;1]); (n_v'bbaa'ovvv,[0;1;2;3])] [2;3]));
  (*2801*) AddTo (T 116) (Plain (Einsum [(T 113,[0;1])] [0;1]));
  (*2802*) Assign (T 371) (Plain (Zeros [5;5]));
  (*2803*) AddTo (T 371) (Plain (Einsum [(T 113,[0;1])] [0;1]));
  (*2804*) AddTo (T 544) (Plain (Einsum [(T 113,[0;1])] [0;1]));
  (*2805*) Del (T 113);
  (*2806*) Assign (T 114) (Plain (Zeros [4;5;5;5]));
  (*2807*) AddTo (T 114) (Times (Einsum [(n_v'aaaa'ovvv,[0;1;2;3])] [0;2;1;3]) (-1) 1);
  (*2808*) AddTo (T 114) (Plain (Einsum [(n_v'aaaa'ovvv,[0;1;2;3])] [0;2;3;1]));
  (*2809*) Assign (T 115) (Plain (Zeros [5;5]));
  (*2810*) AddTo (T 115) (Plain (Einsum [(n_t1'aa,[0;1]); (T 114,[0;2;1;3])] [2;3]));
  (*2811*) AddTo (T 116) (Times (Einsum [(T 115,[0;1])] [0;1]) (-1) 1);
  (*2812*) AddTo (T 544) (Times (Einsum [(T 115,[0;1])] [0;1]) (-1) 1);
  (*2813*) Del (T 115);
  (*2814*) Assign (T 573) (Plain (Zeros [3;5;5]));
  (*2815*) AddTo (T 573) (Times (Einsum [(n_u11'aa,[0;1;2]); (T 114,[1;3;2;4])] [0;3;4]) (-1) 1);
  (*2816*) Del (T 114);
  (*2817*) AddTo (T 116) (Plain (Einsum [(n_f'aa'vv,[0;1])] [0;1]));
  (*2818*) Assign (T 117) (Plain (Zeros [4;5]));
  (*2819*) AddTo (T 117) (Plain (Einsum [(n_t1'aa,[0;1]); (T 116,[2;1])] [0;2]));
  (*2820*) AddTo (T 122) (Plain (Einsum [(T 117,[0;1])] [0;1]));
  (*2821*) Del (T 117);
  (*2822*) AddTo n_l1new_aa (Plain (Einsum [(n_l1'aa,[0;1]); (T 116,[0;2])] [2;1]));
  (*2823*) Del (T 116);
  (*2824*) Assign (T 118) (Plain (Zeros [3]));
  (*2825*) AddTo (T 118) (Plain (Einsum [(n_t1'aa,[0;1]); (n_g'aa'bov,[2;0;1])] [2]));
  (*2826*) Assign (T 120) (Plain (Zeros [3]));
  (*2827*) AddTo (T 120) (Plain (Einsum [(T 118,[0])] [0]));
  (*2828*) Assign (T 578) (Plain (Zeros [3]));
  (*2829*) AddTo (T 578) (Plain (Einsum [(T 118,[0])] [0]));
  (*2830*) Del (T 118);
  (*2831*) Assign (T 119) (Plain (Zeros [3]));
  (*2832*) AddTo (T 119) (Plain (Einsum [(n_t1'bb,[0;1]); (n_g'bb'bov,[2;0;1])] [2]));
  (*2833*) AddTo (T 120) (Plain (Einsum [(T 119,[0])] [0]));
  (*2834*) AddTo (T 578) (Plain (Einsum [(T 119,[0])] [0]));
  (*2835*) Del (T 119);
  (*2836*) AddTo (T 120) (Plain (Einsum [(n_G,[0])] [0]));
  (*2837*) Assign (T 121) (Plain (Zeros [4;5]));
  (*2838*) AddTo (T 121) (Plain (Einsum [(T 120,[0]); (n_u11'aa,[0;1;2])] [1;2]));
  (*2839*) AddTo (T 122) (Plain (Einsum [(T 121,[0;1])] [0;1]));
  (*2840*) Del (T 121);
  (*2841*) Assign (T 159) (Plain (Zeros [6;7]));
  (*2842*) AddTo (T 159) (Plain (Einsum [(T 120,[0]); (n_u11'bb,[0;1;2])] [1;2]));
  (*2843*) AddTo (T 160) (Plain (Einsum [(T 159,[0;1])] [0;1]));
  (*2844*) Del (T 159);
  (*2845*) Assign (T 258) (Plain (Zeros [3]));
  (*2846*) AddTo (T 258) (Plain (Einsum [(T 120,[0]); (n_s2,[0;1])] [1]));
  (*2847*) AddTo (T 259) (Plain (Einsum [(T 258,[0])] [0]));
  (*2848*) Del (T 258);
  (*2849*) AddTo (T 572) (Times (Einsum [(T 120,[0]); (n_u12'bb,[0;1;2;3])] [1;2;3]) (-1) 1);
  (*2850*) AddTo (T 576) (Times (Einsum [(T 120,[0]); (n_u12'aa,[0;1;2;3])] [1;2;3]) (-1) 1);
  (*2851*) Del (T 120);
  (*2852*) AddTo (T 122) (Plain (Einsum [(n_f'aa'vo,[0;1])] [1;0]));
  (*2853*) AddTo n_l1new_aa (Plain (Einsum [(T 122,[0;1]); (T 35,[0;2;1;3])] [3;2]));
  (*2854*) AddTo n_l1new_bb (Plain (Einsum [(T 122,[0;1]); (n_l2'abab,[1;2;0;3])] [2;3]));
  (*2855*) Assign n_ls1new (Plain (Zeros [3]));
  (*2856*) AddTo n_ls1new (Plain (Einsum [(T 122,[0;1]); (n_lu11'aa,[2;1;0])] [2]));
  (*2857*) Assign n_ls2new (Plain (Zeros [3;3]));
  (*2858*) AddTo n_ls2new (Plain (Einsum [(T 122,[0;1]); (n_lu12'aa,[2;3;1;0])] [3;2]));
  (*2859*) Del (T 122);
  (*2860*) Assign (T 125) (Plain (Zeros [6;7]));
  (*2861*) AddTo (T 125) (Plain (Einsum [(n_s1,[0]); (n_g'bb'bvo,[0;1;2])] [2;1]));
  (*2862*) AddTo (T 160) (Plain (Einsum [(T 125,[0;1])] [0;1]));
  (*2863*) Del (T 125);
  (*2864*) Assign (T 126) (Plain (Zeros [6;7]));
  (*2865*) AddTo (T 126) (Plain (Einsum [(n_g'bb'bvv,[0;1;2]); (n_u11'bb,[0;3;2])] [3;1]));
  (*2866*) AddTo (T 160) (Plain (Einsum [(T 126,[0;1])] [0;1]));
  (*2867*) Del (T 126);
  (*2868*) Assign (T 127) (Plain (Zeros [6;7]));
  (*2869*) AddTo (T 127) (Plain (Einsum [(n_t1'aa,[0;1]); (n_v'aabb'ovvo,[0;1;2;3])] [3;2]));
  (*2870*) AddTo (T 160) (Plain (Einsum [(T 127,[0;1])] [0;1]));
  (*2871*) Del (T 127);
  (*2872*) Assign (T 128) (Plain (Zeros [6;7]));
  (*2873*) AddTo (T 128) (Plain (Einsum [(n_t2'abab,[0;1;2;3]); (n_v'aabb'ovvv,[0;2;4;3])] [1;4]));
  (*2874*) AddTo (T 160) (Plain (Einsum [(T 128,[0;1])] [0;1]));
  (*2875*) Del (T 128);
  (*2876*) Assign (T 129) (Plain (Zeros [6;7]));
  (*2877*) AddTo (T 129) (Plain (Einsum [(n_t2'bbbb,[0;1;2;3]); (n_v'bbbb'ooov,[0;4;1;2])] [4;3]));
  (*2878*) AddTo (T 160) (Plain (Einsum [(T 129,[0;1])] [0;1]));
  (*2879*) Del (T 129);
  (*2880*) Assign (T 131) (Plain (Zeros [6;6;6;7]));
  (*2881*) AddTo (T 131) (Plain (Einsum [(n_t1'bb,[0;1]); (n_v'bbbb'ovov,[2;3;4;1])] [0;2;4;3]));
  (*2882*) Assign (T 132) (Plain (Zeros [6;6;6;7]));
  (*2883*) AddTo (T 132) (Times (Einsum [(T 131,[0;1;2;3])] [1;2;0;3]) (-1) 1);
  (*2884*) AddTo (T 132) (Plain (Einsum [(T 131,[0;1;2;3])] [2;1;0;3]));
  (*2885*) Assign (T 276) (Plain (Zeros [6;6;6;6]));
  (*2886*) AddTo (T 276) (Plain (Einsum [(n_t1'bb,[0;1]); (T 131,[2;3;4;1])] [0;2;3;4]));
  (*2887*) Assign (T 277) (Plain (Zeros [6;6;6;6]));
  (*2888*) AddTo (T 277) (Plain (Einsum [(T 276,[0;1;2;3])] [0;1;2;3]));
  (*2889*) Assign (T 496) (Plain (Zeros [6;6;6;6]));
  (*2890*) AddTo (T 496) (Plain (Einsum [(T 276,[0;1;2;3])] [0;1;2;3]));
  (*2891*) Del (T 276);
  (*2892*) Assign (T 280) (Plain (Zeros [6;6;6;7]));
  (*2893*) AddTo (T 280) (Plain (Einsum [(T 131,[0;1;2;3])] [0;2;1;3]));
  (*2894*) AddTo (T 280) (Times (Einsum [(T 131,[0;1;2;3])] [0;1;2;3]) (-1) 1);
  (*2895*) Assign (T 291) (Plain (Zeros [6;6;6;7]));
  (*2896*) AddTo (T 291) (Plain (Einsum [(T 131,[0;1;2;3])] [1;2;0;3]));
  (*2897*) AddTo (T 291) (Times (Einsum [(T 131,[0;1;2;3])] [2;1;0;3]) (-1) 1);
  (*2898*) Assign (T 464) (Plain (Zeros [6;6;6;7]));
  (*2899*) AddTo (T 464) (Plain (Einsum [(T 131,[0;1;2;3])] [0;1;2;3]));
  (*2900*) Assign (T 471) (Plain (Zeros [6;6;6;7]));
  (*2901*) AddTo (T 471) (Times (Einsum [(T 131,[0;1;2;3])] [0;2;1;3]) (-1) 1);
  (*2902*) AddTo (T 471) (Plain (Einsum [(T 131,[0;1;2;3])] [0;1;2;3]));
  (*2903*) AddTo n_l2new_baba (Plain (Einsum [(T 2,[0;1;2;3]); (T 471,[1;2;4;5])] [5;3;4;0]));
  (*2904*) Assign (T 566) (Plain (Zeros [6;6;6;7]));
  (*2905*) AddTo (T 566) (Plain (Einsum [(T 131,[0;1;2;3])] [0;2;1;3]));
  (*2906*) AddTo (T 566) (Times (Einsum [(T 131,[0;1;2;3])] [0;1;2;3]) (-1) 1);
  (*2907*) Del (T 131);
  (*2908*) AddTo n_l2new_abab (Times (Einsum [(T 2,[0;1;2;3]); (T 566,[1;2;4;5])] [3;5;0;4]) (-1) 1);
  (*2909*) AddTo (T 132) (Plain (Einsum [(n_v'bbbb'ooov,[0;1;2;3])] [0;2;1;3]));
  (*2910*) Assign (T 133) (Plain (Zeros [6;7]));
  (*2911*) AddTo (T 133) (Plain (Einsum [(n_t2'bbbb,[0;1;2;3]); (T 132,[1;0;4;2])] [4;3]));
  (*2912*) Del (T 132);
  (*2913*) AddTo (T 160) (Times (Einsum [(T 133,[0;1])] [0;1]) (-1) 1);
  (*2914*) Del (T 133);
  (*2915*) Assign (T 137) (Plain (Zeros [6;6;7;7]));
  (*2916*) AddTo (T 137) (Plain (Einsum [(n_v'bbbb'ovvo,[0;1;2;3])] [0;3;2;1]));
  (*2917*) AddTo (T 137) (Times (Einsum [(n_v'bbbb'oovv,[0;1;2;3])] [0;1;2;3]) (-1) 1);
  (*2918*) Assign (T 138) (Plain (Zeros [6;7]));
  (*2919*) AddTo (T 138) (Plain (Einsum [(n_t1'bb,[0;1]); (T 137,[0;2;3;1])] [2;3]));
  (*2920*) AddTo (T 160) (Plain (Einsum [(T 138,[0;1])] [0;1]));
  (*2921*) Del (T 138);
  (*2922*) Assign (T 283) (Plain (Zeros [6;6;6;7]));
  (*2923*) AddTo (T 283) (Plain (Einsum [(n_t1'bb,[0;1]); (T 137,[2;3;4;1])] [0;2;3;4]));
  (*2924*) AddTo (T 286) (Plain (Einsum [(T 283,[0;1;2;3])] [0;1;2;3]));
  (*2925*) AddTo (T 296) (Plain (Einsum [(T 283,[0;1;2;3])] [0;1;2;3]));
  (*2926*) Del (T 283);
  (*2927*) AddTo (T 572) (Times (Einsum [(n_u11'bb,[0;1;2]); (T 137,[1;3;4;2])] [0;3;4]) (-1) 1);
  (*2928*) Assign (T 139) (Plain (Zeros [3;6;6]));
  (*2929*) AddTo (T 139) (Plain (Einsum [(n_t1'bb,[0;1]); (n_g'bb'bov,[2;3;1])] [2;3;0]));
  (*2930*) Assign (T 140) (Plain (Zeros [3;6;6]));
  (*2931*) AddTo (T 140) (Plain (Einsum [(T 139,[0;1;2])] [0;1;2]));
  (*2932*) Assign (T 602) (Plain (Zeros [3;6;6]));
  (*2933*) AddTo (T 602) (Plain (Einsum [(T 139,[0;1;2])] [0;1;2]));
  (*2934*) AddTo (T 140) (Plain (Einsum [(n_g'bb'boo,[0;1;2])] [0;1;2]));
  (*2935*) Assign (T 141) (Plain (Zeros [6;7]));
  (*2936*) AddTo (T 141) (Plain (Einsum [(n_u11'bb,[0;1;2]); (T 140,[0;1;3])] [3;2]));
  (*2937*) AddTo (T 160) (Times (Einsum [(T 141,[0;1])] [0;1]) (-1) 1);
  (*2938*) Del (T 141);
  (*2939*) Assign (T 333) (Plain (Zeros [3;6;6]));
  (*2940*) AddTo (T 333) (Plain (Einsum [(n_s2,[0;1]); (T 140,[0;2;3])] [1;2;3]));
  (*2941*) AddTo (T 334) (Plain (Einsum [(T 333,[0;1;2])] [0;1;2]));
  (*2942*) Del (T 333);
  (*2943*) AddTo (T 572) (Plain (Einsum [(T 140,[0;1;2]); (n_u12'bb,[0;3;1;4])] [3;2;4]));
  (*2944*) Assign (T 142) (Plain (Zeros [6;6]));
  (*2945*) AddTo (T 142) (Plain (Einsum [(n_s1,[0]); (n_g'bb'boo,[0;1;2])] [1;2]));
  (*2946*) AddTo (T 151) (Plain (Einsum [(T 142,[0;1])] [0;1]));
  (*2947*) Assign (T 450) (Plain (Zeros [6;6]));
  (*2948*) AddTo (T 450) (Plain (Einsum [(T 142,[0;1])] [0;1]));
  (*2949*) Del (T 142);
  (*2950*) Assign (T 143) (Plain (Zeros [6;6]));
  (*2951*) AddTo (T 143) (Plain (Einsum [(n_g'bb'bov,[0;1;2]); (n_u11'bb,[0;3;2])] [1;3]));
  (*2952*) AddTo (T 151) (Plain (Einsum [(T 143,[0;1])] [0;1]));
  (*2953*) AddTo (T 450) (Plain (Einsum [(T 143,[0;1])] [0;1]));
  (*2954*) Del (T 143);
  (*2955*) Assign (T 144) (Plain (Zeros [6;6]));
  (*2956*) AddTo (T 144) (Plain (Einsum [(n_t1'aa,[0;1]); (n_v'aabb'ovoo,[0;1;2;3])] [2;3]));
  (*2957*) AddTo (T 151) (Plain (Einsum [(T 144,[0;1])] [0;1]));
  (*2958*) Assign (T 454) (Plain (Zeros [6;6]));
  (*2959*) AddTo (T 454) (Plain (Einsum [(T 144,[0;1])] [0;1]));
  (*2960*) Del (T 144);
  (*2961*) Assign (T 145) (Plain (Zeros [6;6]));
  (*2962*) AddTo (T 145) (Plain (Einsum [(n_t2'abab,[0;1;2;3]); (n_v'aabb'ovov,[0;2;4;3])] [1;4]));
  (*2963*) AddTo (T 151) (Plain (Einsum [(T 145,[0;1])] [1;0]));
  (*2964*) AddTo (T 483) (Plain (Einsum [(T 145,[0;1])] [0;1]));
  (*2965*) Del (T 145);
  (*2966*) Assign (T 484) (Plain (Zeros [6;6;7;7]));
  (*2967*) AddTo (T 484) (Plain (Einsum [(T 483,[0;1]); (n_l2'bbbb,[2;3;0;4])] [4;1;2;3]));
  (*2968*) Del (T 483);
  (*2969*) Assign (T 492) (Plain (Zeros [6;6;7;7]));
  (*2970*) AddTo (T 492) (Times (Einsum [(T 484,[0;1;2;3])] [0;1;3;2]) (-1) 1);
  (*2971*) Del (T 484);
  (*2972*) Assign (T 146) (Plain (Zeros [6;6;7;7]));
  (*2973*) AddTo (T 146) (Plain (Einsum [(n_v'bbbb'ovov,[0;1;2;3])] [2;0;1;3]));
  (*2974*) AddTo (T 146) (Times (Einsum [(n_v'bbbb'ovov,[0;1;2;3])] [2;0;3;1]) (-1) 1);
  (*2975*) Assign (T 147) (Plain (Zeros [6;6]));
  (*2976*) AddTo (T 147) (Plain (Einsum [(n_t2'bbbb,[0;1;2;3]); (T 146,[0;4;2;3])] [1;4]));
  (*2977*) AddTo (T 151) (Times (Einsum [(T 147,[0;1])] [1;0]) (-1) 1);
  (*2978*) Del (T 147);
  (*2979*) Assign (T 517) (Plain (Zeros [6;6;7;7]));
  (*2980*) AddTo (T 517) (Plain (Einsum [(T 146,[0;1;2;3]); (T 53,[0;4;2;5])] [4;1;5;3]));
  (*2981*) Assign (T 519) (Plain (Zeros [6;6;7;7]));
  (*2982*) AddTo (T 519) (Plain (Einsum [(T 517,[0;1;2;3])] [1;0;2;3]));
  (*2983*) Del (T 517);
  (*2984*) Assign (T 540) (Plain (Zeros [7;7]));
  (*2985*) AddTo (T 540) (Plain (Einsum [(n_t2'bbbb,[0;1;2;3]); (T 146,[0;1;3;4])] [2;4]));
  (*2986*) Assign (T 541) (Plain (Zeros [7;7]));
  (*2987*) AddTo (T 541) (Times (Einsum [(T 540,[0;1])] [0;1]) (-1) 1);
  (*2988*) Del (T 540);
  (*2989*) Assign (T 148) (Plain (Zeros [6;6;6;7]));
  (*2990*) AddTo (T 148) (Times (Einsum [(n_v'bbbb'ooov,[0;1;2;3])] [0;2;1;3]) (-1) 1);
  (*2991*) AddTo (T 148) (Plain (Einsum [(n_v'bbbb'ooov,[0;1;2;3])] [2;0;1;3]));
  (*2992*) Assign (T 149) (Plain (Zeros [6;6]));
  (*2993*) AddTo (T 149) (Plain (Einsum [(n_t1'bb,[0;1]); (T 148,[2;0;3;1])] [2;3]));
  (*2994*) AddTo (T 151) (Times (Einsum [(T 149,[0;1])] [0;1]) (-1) 1);
  (*2995*) Del (T 149);
  (*2996*) Assign (T 329) (Plain (Zeros [3;6;6]));
  (*2997*) AddTo (T 329) (Plain (Einsum [(n_u11'bb,[0;1;2]); (T 148,[3;1;4;2])] [0;3;4]));
  (*2998*) AddTo (T 334) (Times (Einsum [(T 329,[0;1;2])] [0;1;2]) (-1) 1);
  (*2999*) Del (T 329);
  (*3000*) AddTo (T 151) (Plain (Einsum [(n_f'bb'oo,[0;1])] [0;1]));
  (*3001*) Assign (T 152) (Plain (Zeros [6;7]));
  (*3002*) AddTo (T 152) (Plain (Einsum [(n_t1'bb,[0;1]); (T 151,[0;2])] [2;1]));
  (*3003*) AddTo (T 160) (Times (Einsum [(T 152,[0;1])] [0;1]) (-1) 1);
  (*3004*) Del (T 152);
  (*3005*) Assign (T 547) (Plain (Zeros [4;6;5;7]));
  (*3006*) AddTo (T 547) (Plain (Einsum [(T 151,[0;1]); (n_l2'abab,[2;3;4;1])] [4;0;2;3]));
  (*3007*) AddTo n_l2new_baba (Times (Einsum [(T 547,[0;1;2;3])] [3;2;1;0]) (-1) 1);
  (*3008*) AddTo n_l2new_abab (Times (Einsum [(T 547,[0;1;2;3])] [2;3;0;1]) (-1) 1);
  (*3009*) Del (T 547);
  (*3010*) AddTo (T 572) (Plain (Einsum [(T 151,[0;1]); (n_u11'bb,[2;0;3])] [2;1;3]));
  (*3011*) AddTo n_l1new_bb (Times (Einsum [(n_l1'bb,[0;1]); (T 151,[2;1])] [0;2]) (-1) 1);
  (*3012*) AddTo n_lu12new_bb (Times (Einsum [(T 151,[0;1]); (n_lu12'bb,[2;3;4;1])] [3;2;4;0]) (-1) 1);
  (*3013*) Del (T 151);
  (*3014*) Assign (T 153) (Plain (Zeros [7;7]));
  (*3015*) AddTo (T 153) (Plain (Einsum [(n_s1,[0]); (n_g'bb'bvv,[0;1;2])] [1;2]));
  (*3016*) Assign (T 157) (Plain (Zeros [7;7]));
  (*3017*) AddTo (T 157) (Plain (Einsum [(T 153,[0;1])] [0;1]));
  (*3018*) Assign (T 443) (Plain (Zeros [7;7]));
  (*3019*) AddTo (T 443) (Plain (Einsum [(T 153,[0;1])] [0;1]));
  (*3020*) AddTo (T 541) (Plain (Einsum [(T 153,[0;1])] [0;1]));
  (*3021*) Del (T 153);
  (*3022*) Assign (T 154) (Plain (Zeros [7;7]));
  (*3023*) AddTo (T 154) (Plain (Einsum [(n_t1'aa,[0;1]); (n_v'aabb'ovvv,[0;1;2;3])] [2;3]));
  (*3024*) AddTo (T 157) (Plain (Einsum [(T 154,[0;1])] [0;1]));
  (*3025*) Assign (T 446) (Plain (Zeros [7;7]));
  (*3026*) AddTo (T 446) (Plain (Einsum [(T 154,[0;1])] [0;1]));
  (*3027*) AddTo (T 541) (Plain (Einsum [(T 154,[0;1])] [0;1]));
  (*3028*) Del (T 154);
  (*3029*) Assign (T 155) (Plain (Zeros [6;7;7;7]));
  (*3030*) AddTo (T 155) (Times (Einsum [(n_v'bbbb'ovvv,[0;1;2;3])] [0;2;1;3]) (-1) 1);
  (*3031*) AddTo (T 155) (Plain (Einsum [(n_v'bbbb'ovvv,[0;1;2;3])] [0;2;3;1]));
  (*3032*) Assign (T 156) (Plain (Zeros [7;7]));
  (*3033*) AddTo (T 156) (Plain (Einsum [(n_t1'bb,[0;1]); (T 155,[0;2;1;3])] [2;3]));
  (*3034*) AddTo (T 157) (Times (Einsum [(T 156,[0;1])] [0;1]) (-1) 1);
  (*3035*) AddTo (T 541) (Times (Einsum [(T 156,[0;1])] [0;1]) (-1) 1);
  (*3036*) Del (T 156);
  (*3037*) Assign (T 569) (Plain (Zeros [3;7;7]));
  (*3038*) AddTo (T 569) (Times (Einsum [(n_u11'bb,[0;1;2]); (T 155,[1;3;2;4])] [0;3;4]) (-1) 1);
  (*3039*) AddTo (T 157) (Plain (Einsum [(n_f'bb'vv,[0;1])] [0;1]));
  (*3040*) Assign (T 158) (Plain (Zeros [6;7]));
  (*3041*) AddTo (T 158) (Plain (Einsum [(n_t1'bb,[0;1]); (T 157,[2;1])] [0;2]));
  (*3042*) AddTo (T 160) (Plain (Einsum [(T 158,[0;1])] [0;1]));
  (*3043*) Del (T 158);
  (*3044*) AddTo n_l1new_bb (Plain (Einsum [(n_l1'bb,[0;1]); (T 157,[0;2])] [2;1]));
  (*3045*) Del (T 157);
  (*3046*) AddTo (T 160) (Plain (Einsum [(n_f'bb'vo,[0;1])] [1;0]));
  (*3047*) AddTo n_l1new_aa (Plain (Einsum [(T 160,[0;1]); (n_l2'abab,[2;1;3;0])] [2;3]));
  (*3048*) AddTo n_ls1new (Plain (Einsum [(T 160,[0;1]); (n_lu11'bb,[2;1;0])] [2]));
  (*3049*) AddTo n_ls2new (Plain (Einsum [(T 160,[0;1]); (n_lu12'bb,[2;3;1;0])] [3;2]));
  (*3050*) Assign (T 161) (Plain (Zeros [4;5]));
  (*3051*) AddTo (T 161) (Plain (Einsum [(n_ls1,[0]); (n_u11'aa,[0;1;2])] [1;2]));
  (*3052*) AddTo (T 179) (Times (Einsum [(T 161,[0;1])] [0;1]) (-1) 1);
  (*3053*) Del (T 161);
  (*3054*) Assign (T 162) (Plain (Zeros [4;5]));
  (*3055*) AddTo (T 162) (Plain (Einsum [(n_ls2,[0;1]); (n_u12'aa,[0;1;2;3])] [2;3]));
  (*3056*) AddTo (T 179) (Times (Einsum [(T 162,[0;1])] [0;1]) (-1) 2);
  (*3057*) Del (T 162);
  (*3058*) Assign (T 163) (Plain (Zeros [4;5]));
  (*3059*) AddTo (T 163) (Plain (Einsum [(n_l1'bb,[0;1]); (n_t2'abab,[2;1;3;0])] [2;3]));
  (*3060*) AddTo (T 179) (Times (Einsum [(T 163,[0;1])] [0;1]) (-1) 1);
  (*3061*) Del (T 163);
  (*3062*) Assign (T 168) (Plain (Zeros [3;4;4]));
  (*3063*) AddTo (T 168) (Plain (Einsum [(n_t1'aa,[0;1]); (n_lu11'aa,[2;1;3])] [2;3;0]));
  (*3064*) Assign (T 170) (Plain (Zeros [3;4;4]));
  (*3065*) AddTo (T 170) (Plain (Einsum [(T 168,[0;1;2])] [0;1;2]));
  (*3066*) Assign (T 243) (Plain (Zeros [3;4;4]));
  (*3067*) AddTo (T 243) (Plain (Einsum [(T 168,[0;1;2])] [0;1;2]));
  (*3068*) Assign (T 169) (Plain (Zeros [3;4;4]));
  (*3069*) AddTo (T 169) (Plain (Einsum [(n_u11'aa,[0;1;2]); (n_lu12'aa,[0;3;2;4])] [3;4;1]));
  (*3070*) AddTo (T 170) (Plain (Einsum [(T 169,[0;1;2])] [0;1;2]));
  (*3071*) Assign (T 171) (Plain (Zeros [4;5]));
  (*3072*) AddTo (T 171) (Plain (Einsum [(n_u11'aa,[0;1;2]); (T 170,[0;1;3])] [3;2]));
  (*3073*) AddTo (T 179) (Plain (Einsum [(T 171,[0;1])] [0;1]));
  (*3074*) Del (T 171);
  (*3075*) Assign (T 248) (Plain (Zeros [3;4;4]));
  (*3076*) AddTo (T 248) (Plain (Einsum [(n_s2,[0;1]); (T 170,[0;2;3])] [1;2;3]));
  (*3077*) Del (T 170);
  (*3078*) AddTo (T 243) (Plain (Einsum [(T 169,[0;1;2])] [0;1;2]));
  (*3079*) Assign (T 611) (Plain (Zeros [3;3;4;5]));
  (*3080*) AddTo (T 611) (Plain (Einsum [(n_g'aa'bov,[0;1;2]); (T 243,[3;4;1])] [0;3;4;2]));
  (*3081*) Assign (T 613) (Plain (Zeros [3;3;4;5]));
  (*3082*) AddTo (T 613) (Plain (Einsum [(T 611,[0;1;2;3])] [0;1;2;3]));
  (*3083*) Del (T 611);
  (*3084*) Assign (T 172) (Plain (Zeros [4;4]));
  (*3085*) AddTo (T 172) (Plain (Einsum [(n_l1'aa,[0;1]); (n_t1'aa,[2;0])] [1;2]));
  (*3086*) AddTo (T 177) (Plain (Einsum [(T 172,[0;1])] [0;1]));
  (*3087*) AddTo (T 216) (Times (Einsum [(T 172,[0;1])] [0;1]) (2) 1);
  (*3088*) Assign (T 384) (Plain (Zeros [4;4]));
  (*3089*) AddTo (T 384) (Plain (Einsum [(T 172,[0;1])] [0;1]));
  (*3090*) Del (T 172);
  (*3091*) Assign (T 173) (Plain (Zeros [4;4]));
  (*3092*) AddTo (T 173) (Plain (Einsum [(n_lu11'aa,[0;1;2]); (n_u11'aa,[0;3;1])] [2;3]));
  (*3093*) AddTo (T 177) (Plain (Einsum [(T 173,[0;1])] [0;1]));
  (*3094*) AddTo (T 216) (Times (Einsum [(T 173,[0;1])] [0;1]) (2) 1);
  (*3095*) AddTo (T 384) (Plain (Einsum [(T 173,[0;1])] [0;1]));
  (*3096*) Del (T 173);
  (*3097*) Assign (T 385) (Plain (Zeros [4;4;5;5]));
  (*3098*) AddTo (T 385) (Plain (Einsum [(T 384,[0;1]); (n_v'aaaa'ovov,[1;2;3;4])] [3;0;2;4]));
  (*3099*) Del (T 384);
  (*3100*) AddTo (T 391) (Plain (Einsum [(T 385,[0;1;2;3])] [1;0;3;2]));
  (*3101*) Del (T 385);
  (*3102*) Assign (T 174) (Plain (Zeros [4;4]));
  (*3103*) AddTo (T 174) (Plain (Einsum [(n_lu12'aa,[0;1;2;3]); (n_u12'aa,[0;1;4;2])] [3;4]));
  (*3104*) AddTo (T 177) (Times (Einsum [(T 174,[0;1])] [0;1]) (1) 2);
  (*3105*) AddTo (T 216) (Plain (Einsum [(T 174,[0;1])] [0;1]));
  (*3106*) AddTo (T 412) (Times (Einsum [(T 174,[0;1])] [0;1]) (1) 2);
  (*3107*) Del (T 174);
  (*3108*) Assign (T 175) (Plain (Zeros [4;4]));
  (*3109*) AddTo (T 175) (Plain (Einsum [(n_l2'abab,[0;1;2;3]); (n_t2'abab,[4;3;0;1])] [2;4]));
  (*3110*) AddTo (T 177) (Plain (Einsum [(T 175,[0;1])] [0;1]));
  (*3111*) Assign (T 178) (Plain (Zeros [4;5]));
  (*3112*) AddTo (T 178) (Plain (Einsum [(n_t1'aa,[0;1]); (T 177,[0;2])] [2;1]));
  (*3113*) AddTo (T 179) (Plain (Einsum [(T 178,[0;1])] [0;1]));
  (*3114*) Del (T 178);
  (*3115*) Assign (T 550) (Plain (Zeros [4;6;5;7]));
  (*3116*) AddTo (T 550) (Plain (Einsum [(T 177,[0;1]); (n_v'aabb'ovov,[1;2;3;4])] [0;3;2;4]));
  (*3117*) AddTo n_l2new_baba (Times (Einsum [(T 550,[0;1;2;3])] [3;2;1;0]) (-1) 1);
  (*3118*) AddTo n_l2new_abab (Times (Einsum [(T 550,[0;1;2;3])] [2;3;0;1]) (-1) 1);
  (*3119*) Del (T 550);
  (*3120*) AddTo n_l1new_bb (Times (Einsum [(T 177,[0;1]); (n_v'aabb'ooov,[1;0;2;3])] [3;2]) (-1) 1);
  (*3121*) AddTo n_ls1new (Times (Einsum [(T 177,[0;1]); (n_g'aa'boo,[2;1;0])] [2]) (-1) 1);
  (*3122*) Del (T 177);
  (*3123*) AddTo (T 216) (Times (Einsum [(T 175,[0;1])] [0;1]) (2) 1);
  (*3124*) AddTo n_l1new_aa (Times (Einsum [(T 216,[0;1]); (T 107,[2;1;0;3])] [3;2]) (-1) 2);
  (*3125*) Del (T 107);
  (*3126*) AddTo n_l1new_aa (Times (Einsum [(T 216,[0;1]); (T 42,[1;2])] [2;0]) (-1) 2);
  (*3127*) Del (T 42);
  (*3128*) Del (T 216);
  (*3129*) AddTo (T 412) (Plain (Einsum [(T 175,[0;1])] [0;1]));
  (*3130*) Del (T 175);
  (*3131*) Assign (T 413) (Plain (Zeros [4;4;5;5]));
  (*3132*) AddTo (T 413) (Plain (Einsum [(T 412,[0;1]); (n_v'aaaa'ovov,[1;2;3;4])] [3;0;2;4]));
  (*3133*) Del (T 412);
  (*3134*) AddTo (T 415) (Plain (Einsum [(T 413,[0;1;2;3])] [1;0;3;2]));
  (*3135*) Del (T 413);
  (*3136*) AddTo (T 179) (Times (Einsum [(n_t1'aa,[0;1])] [0;1]) (-1) 1);
  (*3137*) AddTo n_l1new_bb (Times (Einsum [(T 179,[0;1]); (n_v'aabb'ovov,[0;1;2;3])] [3;2]) (-1) 1);
  (*3138*) AddTo n_ls1new (Times (Einsum [(T 179,[0;1]); (n_g'aa'bov,[2;0;1])] [2]) (-1) 1);
  (*3139*) Assign (T 180) (Plain (Zeros [4;4;5;5]));
  (*3140*) AddTo (T 180) (Times (Einsum [(n_v'aaaa'ovov,[0;1;2;3])] [2;0;1;3]) (-1) 1);
  (*3141*) AddTo (T 180) (Plain (Einsum [(n_v'aaaa'ovov,[0;1;2;3])] [2;0;3;1]));
  (*3142*) Assign (T 398) (Plain (Zeros [4;4;5;5]));
  (*3143*) AddTo (T 398) (Plain (Einsum [(T 180,[0;1;2;3]); (T 34,[4;0;5;2])] [4;1;5;3]));
  (*3144*) Del (T 34);
  (*3145*) AddTo (T 415) (Plain (Einsum [(T 398,[0;1;2;3])] [0;1;2;3]));
  (*3146*) Del (T 398);
  (*3147*) AddTo n_l1new_aa (Times (Einsum [(T 179,[0;1]); (T 180,[0;2;1;3])] [3;2]) (-1) 1);
  (*3148*) Del (T 179);
  (*3149*) Del (T 180);
  (*3150*) Assign (T 181) (Plain (Zeros [5;5]));
  (*3151*) AddTo (T 181) (Plain (Einsum [(n_l1'aa,[0;1]); (n_t1'aa,[1;2])] [0;2]));
  (*3152*) AddTo (T 186) (Plain (Einsum [(T 181,[0;1])] [0;1]));
  (*3153*) AddTo (T 326) (Times (Einsum [(T 181,[0;1])] [0;1]) (2) 1);
  (*3154*) Del (T 181);
  (*3155*) Assign (T 182) (Plain (Zeros [5;5]));
  (*3156*) AddTo (T 182) (Plain (Einsum [(n_lu11'aa,[0;1;2]); (n_u11'aa,[0;2;3])] [1;3]));
  (*3157*) AddTo (T 186) (Plain (Einsum [(T 182,[0;1])] [0;1]));
  (*3158*) AddTo (T 326) (Times (Einsum [(T 182,[0;1])] [0;1]) (2) 1);
  (*3159*) Assign (T 351) (Plain (Zeros [4;4;5;5]));
  (*3160*) AddTo (T 351) (Plain (Einsum [(T 182,[0;1]); (n_v'aaaa'ovov,[2;3;4;1])] [2;4;0;3]));
  (*3161*) AddTo (T 391) (Plain (Einsum [(T 351,[0;1;2;3])] [0;1;2;3]));
  (*3162*) Del (T 351);
  (*3163*) AddTo (T 549) (Plain (Einsum [(T 182,[0;1])] [0;1]));
  (*3164*) AddTo (T 568) (Times (Einsum [(T 182,[0;1])] [0;1]) (2) 1);
  (*3165*) Del (T 182);
  (*3166*) Assign (T 183) (Plain (Zeros [5;5]));
  (*3167*) AddTo (T 183) (Plain (Einsum [(n_lu12'aa,[0;1;2;3]); (n_u12'aa,[0;1;3;4])] [2;4]));
  (*3168*) AddTo (T 186) (Times (Einsum [(T 183,[0;1])] [0;1]) (1) 2);
  (*3169*) AddTo (T 326) (Plain (Einsum [(T 183,[0;1])] [0;1]));
  (*3170*) AddTo (T 403) (Times (Einsum [(T 183,[0;1])] [0;1]) (1) 2);
  (*3171*) AddTo (T 549) (Times (Einsum [(T 183,[0;1])] [0;1]) (1) 2);
  (*3172*) AddTo (T 568) (Plain (Einsum [(T 183,[0;1])] [0;1]));
  (*3173*) Del (T 183);
  (*3174*) Assign (T 184) (Plain (Zeros [5;5]));
  (*3175*) AddTo (T 184) (Plain (Einsum [(n_l2'abab,[0;1;2;3]); (n_t2'abab,[2;3;4;1])] [0;4]));
  (*3176*) AddTo (T 186) (Plain (Einsum [(T 184,[0;1])] [0;1]));
  (*3177*) AddTo n_ls1new (Plain (Einsum [(T 186,[0;1]); (n_g'aa'bvv,[2;0;1])] [2]));
  (*3178*) AddTo (T 326) (Times (Einsum [(T 184,[0;1])] [0;1]) (2) 1);
  (*3179*) AddTo n_l1new_bb (Times (Einsum [(T 326,[0;1]); (n_v'bbaa'ovvv,[2;3;0;1])] [3;2]) (1) 2);
  (*3180*) Del (T 326);
  (*3181*) AddTo (T 403) (Plain (Einsum [(T 184,[0;1])] [0;1]));
  (*3182*) Assign (T 404) (Plain (Zeros [4;4;5;5]));
  (*3183*) AddTo (T 404) (Plain (Einsum [(T 403,[0;1]); (n_v'aaaa'ovov,[2;1;3;4])] [2;3;4;0]));
  (*3184*) Del (T 403);
  (*3185*) AddTo (T 415) (Plain (Einsum [(T 404,[0;1;2;3])] [1;0;3;2]));
  (*3186*) Del (T 404);
  (*3187*) AddTo (T 549) (Plain (Einsum [(T 184,[0;1])] [0;1]));
  (*3188*) AddTo n_l2new_baba (Times (Einsum [(T 549,[0;1]); (n_v'aabb'ovov,[2;1;3;4])] [4;0;3;2]) (-1) 1);
  (*3189*) Del (T 549);
  (*3190*) AddTo (T 568) (Times (Einsum [(T 184,[0;1])] [0;1]) (2) 1);
  (*3191*) Del (T 184);
  (*3192*) AddTo n_l2new_abab (Times (Einsum [(T 568,[0;1]); (n_v'aabb'ovov,[2;1;3;4])] [0;4;2;3]) (-1) 2);
  (*3193*) Del (T 568);
  (*3194*) Assign (T 187) (Plain (Zeros [4;5;5;5]));
  (*3195*) AddTo (T 187) (Plain (Einsum [(n_v'aaaa'ovvv,[0;1;2;3])] [0;2;1;3]));
  (*3196*) SubFrom (T 187) (Plain (Einsum [(n_v'aaaa'ovvv,[0;1;2;3])] [0;2;3;1]));
  (*3197*) Assign (T 617) (Plain (Zeros [4;4;5;5]));
  (*3198*) SubFrom (T 617) (Plain (Einsum [(n_t1'aa,[0;1]); (T 187,[2;3;1;4])] [2;0;3;4]));
  (*3199*) AddTo n_l1new_aa (Times (Einsum [(T 186,[0;1]); (T 187,[2;0;1;3])] [3;2]) (-1) 1);
  (*3200*) Del (T 186);
  (*3201*) Del (T 187);
  (*3202*) Assign (T 188) (Plain (Zeros [6;7]));
  (*3203*) AddTo (T 188) (Plain (Einsum [(n_ls1,[0]); (n_u11'bb,[0;1;2])] [1;2]));
  (*3204*) AddTo (T 208) (Times (Einsum [(T 188,[0;1])] [0;1]) (-1) 1);
  (*3205*) Del (T 188);
  (*3206*) Assign (T 189) (Plain (Zeros [6;7]));
  (*3207*) AddTo (T 189) (Plain (Einsum [(n_ls2,[0;1]); (n_u12'bb,[0;1;2;3])] [2;3]));
  (*3208*) AddTo (T 208) (Times (Einsum [(T 189,[0;1])] [0;1]) (-1) 2);
  (*3209*) Del (T 189);
  (*3210*) Assign (T 190) (Plain (Zeros [6;7]));
  (*3211*) AddTo (T 190) (Plain (Einsum [(n_l1'aa,[0;1]); (n_t2'abab,[1;2;0;3])] [2;3]));
  (*3212*) AddTo (T 208) (Times (Einsum [(T 190,[0;1])] [0;1]) (-1) 1);
  (*3213*) Del (T 190);
  (*3214*) Assign (T 191) (Plain (Zeros [3;3;6;6]));
  (*3215*) AddTo (T 191) (Plain (Einsum [(n_t1'bb,[0;1]); (n_lu12'bb,[2;3;1;4])] [2;3;4;0]));
  (*3216*) Assign (T 192) (Plain (Zeros [6;7]));
  (*3217*) AddTo (T 192) (Plain (Einsum [(n_u12'bb,[0;1;2;3]); (T 191,[0;1;2;4])] [4;3]));
  (*3218*) AddTo (T 208) (Times (Einsum [(T 192,[0;1])] [0;1]) (1) 2);
  (*3219*) Del (T 192);
  (*3220*) AddTo (T 300) (Times (Einsum [(n_u12'bb,[0;1;2;3]); (T 191,[0;1;4;5])] [4;5;2;3]) (1) 2);
  (*3221*) AddTo (T 302) (Times (Einsum [(n_u12'aa,[0;1;2;3]); (T 191,[0;1;4;5])] [2;4;5;3]) (-1) 2);
  (*3222*) Assign (T 588) (Plain (Zeros [3;6;7]));
  (*3223*) AddTo (T 588) (Plain (Einsum [(n_u11'bb,[0;1;2]); (T 191,[3;0;1;4])] [3;4;2]));
  (*3224*) Assign (T 589) (Plain (Zeros [3;3]));
  (*3225*) AddTo (T 589) (Plain (Einsum [(n_g'bb'bov,[0;1;2]); (T 588,[3;1;2])] [0;3]));
  (*3226*) Del (T 588);
  (*3227*) SubFrom (T 606) (Plain (Einsum [(T 589,[0;1])] [0;1]));
  (*3228*) Del (T 589);
  (*3229*) SubFrom n_lu12new_aa (Plain (Einsum [(n_v'aabb'ovoo,[0;1;2;3]); (T 191,[4;5;3;2])] [5;4;1;0]));
  (*3230*) SubFrom n_lu12new_aa (Plain (Einsum [(T 191,[0;1;2;3]); (T 40,[4;2;3;5])] [1;0;5;4]));
  (*3231*) Del (T 40);
  (*3232*) AddTo n_lu12new_bb (Times (Einsum [(T 191,[0;1;2;3]); (T 566,[2;3;4;5])] [1;0;5;4]) (-1) 1);
  (*3233*) Del (T 566);
  (*3234*) AddTo n_lu12new_bb (Times (Einsum [(T 96,[0;1]); (T 191,[2;3;4;0])] [3;2;1;4]) (-1) 1);
  (*3235*) Assign (T 194) (Plain (Zeros [6;6;6;7]));
  (*3236*) AddTo (T 194) (Plain (Einsum [(n_t1'bb,[0;1]); (n_l2'bbbb,[1;2;3;4])] [4;3;0;2]));
  (*3237*) Assign (T 195) (Plain (Zeros [6;7]));
  (*3238*) AddTo (T 195) (Plain (Einsum [(T 194,[0;1;2;3]); (T 53,[0;1;3;4])] [2;4]));
  (*3239*) AddTo (T 208) (Times (Einsum [(T 195,[0;1])] [0;1]) (-1) 1);
  (*3240*) Del (T 195);
  (*3241*) Assign (T 299) (Plain (Zeros [6;6;6;7]));
  (*3242*) AddTo (T 299) (Times (Einsum [(T 194,[0;1;2;3])] [0;1;2;3]) (-1) 1);
  (*3243*) AddTo (T 299) (Plain (Einsum [(T 194,[0;1;2;3])] [1;0;2;3]));
  (*3244*) AddTo (T 300) (Plain (Einsum [(T 299,[0;1;2;3]); (T 39,[0;4;5;3])] [1;2;4;5]));
  (*3245*) AddTo (T 302) (Times (Einsum [(n_t2'abab,[0;1;2;3]); (T 299,[4;1;5;3])] [0;4;5;2]) (-1) 1);
  (*3246*) AddTo n_l1new_bb (Times (Einsum [(T 137,[0;1;2;3]); (T 299,[4;1;0;2])] [3;4]) (-1) 1);
  (*3247*) Del (T 137);
  (*3248*) Del (T 299);
  (*3249*) Assign (T 303) (Plain (Zeros [6;6;6;7]));
  (*3250*) AddTo (T 303) (Plain (Einsum [(T 194,[0;1;2;3])] [0;1;2;3]));
  (*3251*) AddTo (T 303) (Times (Einsum [(T 194,[0;1;2;3])] [1;0;2;3]) (-1) 1);
  (*3252*) Assign (T 304) (Plain (Zeros [6;6;7;7]));
  (*3253*) AddTo (T 304) (Times (Einsum [(n_t1'bb,[0;1]); (T 303,[2;0;3;4])] [2;3;4;1]) (-1) 1);
  (*3254*) Assign (T 472) (Plain (Zeros [6;6;7;7]));
  (*3255*) AddTo (T 472) (Plain (Einsum [(T 303,[0;1;2;3]); (T 471,[1;2;4;5])] [0;4;3;5]));
  (*3256*) Del (T 303);
  (*3257*) Del (T 471);
  (*3258*) AddTo (T 492) (Plain (Einsum [(T 472,[0;1;2;3])] [0;1;2;3]));
  (*3259*) Del (T 472);
  (*3260*) Assign (T 310) (Plain (Zeros [6;6;6;6]));
  (*3261*) AddTo (T 310) (Plain (Einsum [(n_t1'bb,[0;1]); (T 194,[2;3;4;1])] [2;3;0;4]));
  (*3262*) Assign (T 311) (Plain (Zeros [6;6;6;6]));
  (*3263*) AddTo (T 311) (Plain (Einsum [(T 310,[0;1;2;3])] [0;1;2;3]));
  (*3264*) Assign (T 324) (Plain (Zeros [6;6;6;6]));
  (*3265*) AddTo (T 324) (Plain (Einsum [(T 310,[0;1;2;3])] [0;1;2;3]));
  (*3266*) AddTo (T 324) (Times (Einsum [(T 310,[0;1;2;3])] [0;1;3;2]) (-1) 1);
  (*3267*) AddTo n_l1new_bb (Plain (Einsum [(n_v'bbbb'ooov,[0;1;2;3]); (T 324,[4;1;2;0])] [3;4]));
  (*3268*) Del (T 324);
  (*3269*) Assign (T 498) (Plain (Zeros [6;6;6;6]));
  (*3270*) AddTo (T 498) (Plain (Einsum [(T 310,[0;1;2;3])] [0;1;2;3]));
  (*3271*) Del (T 310);
  (*3272*) Assign (T 429) (Plain (Zeros [6;6;7;7]));
  (*3273*) AddTo (T 429) (Plain (Einsum [(n_v'bbbb'ovvv,[0;1;2;3]); (T 194,[4;5;0;2])] [5;4;1;3]));
  (*3274*) SubFrom (T 468) (Plain (Einsum [(T 429,[0;1;2;3])] [0;1;2;3]));
  (*3275*) Del (T 429);
  (*3276*) Assign (T 439) (Plain (Zeros [6;6;6;7]));
  (*3277*) AddTo (T 439) (Plain (Einsum [(T 194,[0;1;2;3])] [0;1;2;3]));
  (*3278*) SubFrom (T 439) (Plain (Einsum [(T 194,[0;1;2;3])] [1;0;2;3]));
  (*3279*) AddTo n_l2new_abab (Times (Einsum [(T 41,[0;1;2;3]); (T 439,[4;2;1;5])] [3;5;0;4]) (-1) 1);
  (*3280*) Assign (T 491) (Plain (Zeros [6;6;7;7]));
  (*3281*) AddTo (T 491) (Plain (Einsum [(T 273,[0;1]); (T 194,[2;3;0;4])] [2;3;4;1]));
  (*3282*) Del (T 273);
  (*3283*) AddTo (T 492) (Times (Einsum [(T 491,[0;1;2;3])] [0;1;2;3]) (-1) 1);
  (*3284*) Del (T 491);
  (*3285*) Assign (T 531) (Plain (Zeros [6;6;6;7]));
  (*3286*) SubFrom (T 531) (Plain (Einsum [(T 194,[0;1;2;3])] [0;1;2;3]));
  (*3287*) AddTo (T 531) (Plain (Einsum [(T 194,[0;1;2;3])] [1;0;2;3]));
  (*3288*) AddTo n_l2new_baba (Plain (Einsum [(T 41,[0;1;2;3]); (T 531,[4;2;1;5])] [5;3;4;0]));
  (*3289*) Del (T 41);
  (*3290*) Del (T 531);
  (*3291*) Assign (T 197) (Plain (Zeros [3;6;6]));
  (*3292*) AddTo (T 197) (Plain (Einsum [(n_t1'bb,[0;1]); (n_lu11'bb,[2;1;3])] [2;3;0]));
  (*3293*) Assign (T 199) (Plain (Zeros [3;6;6]));
  (*3294*) AddTo (T 199) (Plain (Einsum [(T 197,[0;1;2])] [0;1;2]));
  (*3295*) Assign (T 344) (Plain (Zeros [3;6;6]));
  (*3296*) AddTo (T 344) (Plain (Einsum [(T 197,[0;1;2])] [0;1;2]));
  (*3297*) Assign (T 198) (Plain (Zeros [3;6;6]));
  (*3298*) AddTo (T 198) (Plain (Einsum [(n_u11'bb,[0;1;2]); (n_lu12'bb,[0;3;2;4])] [3;4;1]));
  (*3299*) AddTo (T 199) (Plain (Einsum [(T 198,[0;1;2])] [0;1;2]));
  (*3300*) Assign (T 200) (Plain (Zeros [6;7]));
  (*3301*) AddTo (T 200) (Plain (Einsum [(n_u11'bb,[0;1;2]); (T 199,[0;1;3])] [3;2]));
  (*3302*) AddTo (T 208) (Plain (Einsum [(T 200,[0;1])] [0;1]));
  (*3303*) Del (T 200);
  (*3304*) Assign (T 346) (Plain (Zeros [3;6;6]));
  (*3305*) AddTo (T 346) (Plain (Einsum [(n_s2,[0;1]); (T 199,[0;2;3])] [1;2;3]));
  (*3306*) Del (T 199);
  (*3307*) AddTo (T 344) (Plain (Einsum [(T 198,[0;1;2])] [0;1;2]));
  (*3308*) Assign (T 629) (Plain (Zeros [3;3;6;7]));
  (*3309*) AddTo (T 629) (Plain (Einsum [(n_g'bb'bov,[0;1;2]); (T 344,[3;4;1])] [0;3;4;2]));
  (*3310*) Assign (T 631) (Plain (Zeros [3;3;6;7]));
  (*3311*) AddTo (T 631) (Plain (Einsum [(T 629,[0;1;2;3])] [0;1;2;3]));
  (*3312*) Del (T 629);
  (*3313*) Assign (T 583) (Plain (Zeros [3;3]));
  (*3314*) AddTo (T 583) (Plain (Einsum [(n_g'bb'boo,[0;1;2]); (T 198,[3;2;1])] [0;3]));
  (*3315*) SubFrom (T 606) (Plain (Einsum [(T 583,[0;1])] [0;1]));
  (*3316*) Del (T 583);
  (*3317*) Assign (T 590) (Plain (Zeros [3;3]));
  (*3318*) AddTo (T 590) (Plain (Einsum [(T 139,[0;1;2]); (T 198,[3;2;1])] [0;3]));
  (*3319*) Del (T 139);
  (*3320*) Del (T 198);
  (*3321*) SubFrom (T 606) (Plain (Einsum [(T 590,[0;1])] [0;1]));
  (*3322*) Del (T 590);
  (*3323*) Assign (T 201) (Plain (Zeros [6;6]));
  (*3324*) AddTo (T 201) (Plain (Einsum [(n_l1'bb,[0;1]); (n_t1'bb,[2;0])] [1;2]));
  (*3325*) AddTo (T 206) (Plain (Einsum [(T 201,[0;1])] [0;1]));
  (*3326*) AddTo (T 226) (Times (Einsum [(T 201,[0;1])] [0;1]) (2) 1);
  (*3327*) Assign (T 461) (Plain (Zeros [6;6]));
  (*3328*) AddTo (T 461) (Plain (Einsum [(T 201,[0;1])] [0;1]));
  (*3329*) SubFrom n_ls1new (Plain (Einsum [(T 201,[0;1]); (n_g'bb'boo,[2;1;0])] [2]));
  (*3330*) Del (T 201);
  (*3331*) Assign (T 202) (Plain (Zeros [6;6]));
  (*3332*) AddTo (T 202) (Plain (Einsum [(n_lu11'bb,[0;1;2]); (n_u11'bb,[0;3;1])] [2;3]));
  (*3333*) AddTo (T 206) (Plain (Einsum [(T 202,[0;1])] [0;1]));
  (*3334*) AddTo (T 226) (Times (Einsum [(T 202,[0;1])] [0;1]) (2) 1);
  (*3335*) AddTo (T 461) (Plain (Einsum [(T 202,[0;1])] [0;1]));
  (*3336*) Assign (T 462) (Plain (Zeros [6;6;7;7]));
  (*3337*) AddTo (T 462) (Plain (Einsum [(T 461,[0;1]); (n_v'bbbb'ovov,[1;2;3;4])] [3;0;2;4]));
  (*3338*) Del (T 461);
  (*3339*) AddTo (T 468) (Plain (Einsum [(T 462,[0;1;2;3])] [1;0;3;2]));
  (*3340*) Del (T 462);
  (*3341*) AddTo (T 577) (Plain (Einsum [(T 202,[0;1])] [0;1]));
  (*3342*) Del (T 202);
  (*3343*) Assign (T 203) (Plain (Zeros [6;6]));
  (*3344*) AddTo (T 203) (Plain (Einsum [(n_lu12'bb,[0;1;2;3]); (n_u12'bb,[0;1;4;2])] [3;4]));
  (*3345*) AddTo (T 206) (Times (Einsum [(T 203,[0;1])] [0;1]) (1) 2);
  (*3346*) AddTo (T 226) (Plain (Einsum [(T 203,[0;1])] [0;1]));
  (*3347*) AddTo (T 489) (Times (Einsum [(T 203,[0;1])] [0;1]) (1) 2);
  (*3348*) AddTo (T 577) (Times (Einsum [(T 203,[0;1])] [0;1]) (1) 2);
  (*3349*) Del (T 203);
  (*3350*) Assign (T 204) (Plain (Zeros [6;6]));
  (*3351*) AddTo (T 204) (Plain (Einsum [(n_l2'abab,[0;1;2;3]); (n_t2'abab,[2;4;0;1])] [3;4]));
  (*3352*) AddTo (T 206) (Plain (Einsum [(T 204,[0;1])] [0;1]));
  (*3353*) Assign (T 207) (Plain (Zeros [6;7]));
  (*3354*) AddTo (T 207) (Plain (Einsum [(n_t1'bb,[0;1]); (T 206,[0;2])] [2;1]));
  (*3355*) AddTo (T 208) (Plain (Einsum [(T 207,[0;1])] [0;1]));
  (*3356*) Del (T 207);
  (*3357*) Assign (T 551) (Plain (Zeros [4;6;5;7]));
  (*3358*) AddTo (T 551) (Plain (Einsum [(T 206,[0;1]); (n_v'aabb'ovov,[2;3;1;4])] [2;0;3;4]));
  (*3359*) AddTo n_l2new_baba (Times (Einsum [(T 551,[0;1;2;3])] [3;2;1;0]) (-1) 1);
  (*3360*) AddTo n_l2new_abab (Times (Einsum [(T 551,[0;1;2;3])] [2;3;0;1]) (-1) 1);
  (*3361*) Del (T 551);
  (*3362*) AddTo n_l1new_bb (Times (Einsum [(T 206,[0;1]); (T 96,[1;2])] [2;0]) (-1) 1);
  (*3363*) Del (T 206);
  (*3364*) Del (T 96);
  (*3365*) AddTo (T 226) (Times (Einsum [(T 204,[0;1])] [0;1]) (2) 1);
  (*3366*) AddTo n_l1new_aa (Times (Einsum [(T 226,[0;1]); (n_v'aabb'ovoo,[2;3;1;0])] [3;2]) (-1) 2);
  (*3367*) AddTo n_l1new_bb (Times (Einsum [(T 226,[0;1]); (T 148,[2;1;0;3])] [3;2]) (-1) 2);
  (*3368*) Del (T 226);
  (*3369*) Del (T 148);
  (*3370*) AddTo (T 489) (Plain (Einsum [(T 204,[0;1])] [0;1]));
  (*3371*) Assign (T 490) (Plain (Zeros [6;6;7;7]));
  (*3372*) AddTo (T 490) (Plain (Einsum [(T 489,[0;1]); (n_v'bbbb'ovov,[1;2;3;4])] [3;0;2;4]));
  (*3373*) Del (T 489);
  (*3374*) AddTo (T 492) (Plain (Einsum [(T 490,[0;1;2;3])] [1;0;3;2]));
  (*3375*) Del (T 490);
  (*3376*) AddTo (T 577) (Plain (Einsum [(T 204,[0;1])] [0;1]));
  (*3377*) Del (T 204);
  (*3378*) AddTo n_ls1new (Times (Einsum [(T 577,[0;1]); (n_g'bb'boo,[2;1;0])] [2]) (-1) 1);
  (*3379*) Del (T 577);
  (*3380*) AddTo (T 208) (Times (Einsum [(n_t1'bb,[0;1])] [0;1]) (-1) 1);
  (*3381*) AddTo n_l1new_aa (Times (Einsum [(T 208,[0;1]); (n_v'aabb'ovov,[2;3;0;1])] [3;2]) (-1) 1);
  (*3382*) AddTo n_l1new_bb (Plain (Einsum [(T 208,[0;1]); (T 94,[0;2;3;1])] [3;2]));
  (*3383*) AddTo n_ls1new (Times (Einsum [(T 208,[0;1]); (n_g'bb'bov,[2;0;1])] [2]) (-1) 1);
  (*3384*) Del (T 208);
  (*3385*) Assign (T 209) (Plain (Zeros [7;7]));
  (*3386*) AddTo (T 209) (Plain (Einsum [(n_l1'bb,[0;1]); (n_t1'bb,[1;2])] [0;2]));
  (*3387*) AddTo (T 214) (Plain (Einsum [(T 209,[0;1])] [0;1]));
  (*3388*) AddTo n_ls1new (Plain (Einsum [(T 209,[0;1]); (n_g'bb'bvv,[2;0;1])] [2]));
  (*3389*) Del (T 209);
  (*3390*) Assign (T 210) (Plain (Zeros [7;7]));
  (*3391*) AddTo (T 210) (Plain (Einsum [(n_lu11'bb,[0;1;2]); (n_u11'bb,[0;2;3])] [1;3]));
  (*3392*) AddTo (T 214) (Plain (Einsum [(T 210,[0;1])] [0;1]));
  (*3393*) Assign (T 426) (Plain (Zeros [6;6;7;7]));
  (*3394*) AddTo (T 426) (Plain (Einsum [(T 210,[0;1]); (n_v'bbbb'ovov,[2;3;4;1])] [2;4;0;3]));
  (*3395*) AddTo (T 468) (Plain (Einsum [(T 426,[0;1;2;3])] [0;1;2;3]));
  (*3396*) Del (T 426);
  (*3397*) AddTo (T 548) (Plain (Einsum [(T 210,[0;1])] [0;1]));
  (*3398*) AddTo (T 567) (Times (Einsum [(T 210,[0;1])] [0;1]) (2) 1);
  (*3399*) Del (T 210);
  (*3400*) Assign (T 211) (Plain (Zeros [7;7]));
  (*3401*) AddTo (T 211) (Plain (Einsum [(n_lu12'bb,[0;1;2;3]); (n_u12'bb,[0;1;3;4])] [2;4]));
  (*3402*) AddTo (T 214) (Times (Einsum [(T 211,[0;1])] [0;1]) (1) 2);
  (*3403*) AddTo (T 479) (Times (Einsum [(T 211,[0;1])] [0;1]) (1) 2);
  (*3404*) AddTo (T 548) (Times (Einsum [(T 211,[0;1])] [0;1]) (1) 2);
  (*3405*) AddTo (T 567) (Plain (Einsum [(T 211,[0;1])] [0;1]));
  (*3406*) Del (T 211);
  (*3407*) Assign (T 212) (Plain (Zeros [7;7]));
  (*3408*) AddTo (T 212) (Plain (Einsum [(n_l2'abab,[0;1;2;3]); (n_t2'abab,[2;3;0;4])] [1;4]));
  (*3409*) AddTo (T 214) (Plain (Einsum [(T 212,[0;1])] [0;1]));
  (*3410*) AddTo n_l1new_aa (Plain (Einsum [(T 214,[0;1]); (n_v'aabb'ovvv,[2;3;0;1])] [3;2]));
  (*3411*) AddTo n_l1new_bb (Plain (Einsum [(T 214,[0;1]); (T 155,[2;0;1;3])] [3;2]));
  (*3412*) Del (T 214);
  (*3413*) AddTo (T 479) (Plain (Einsum [(T 212,[0;1])] [0;1]));
  (*3414*) Assign (T 480) (Plain (Zeros [6;6;7;7]));
  (*3415*) AddTo (T 480) (Plain (Einsum [(T 479,[0;1]); (n_v'bbbb'ovov,[2;1;3;4])] [2;3;4;0]));
  (*3416*) Del (T 479);
  (*3417*) AddTo (T 492) (Plain (Einsum [(T 480,[0;1;2;3])] [1;0;3;2]));
  (*3418*) Del (T 480);
  (*3419*) AddTo (T 548) (Plain (Einsum [(T 212,[0;1])] [0;1]));
  (*3420*) AddTo n_l2new_baba (Times (Einsum [(T 548,[0;1]); (n_v'aabb'ovov,[2;3;4;1])] [0;3;4;2]) (-1) 1);
  (*3421*) AddTo n_ls1new (Plain (Einsum [(T 548,[0;1]); (n_g'bb'bvv,[2;0;1])] [2]));
  (*3422*) Del (T 548);
  (*3423*) AddTo (T 567) (Times (Einsum [(T 212,[0;1])] [0;1]) (2) 1);
  (*3424*) Del (T 212);
  (*3425*) AddTo n_l2new_abab (Times (Einsum [(T 567,[0;1]); (n_v'aabb'ovov,[2;3;4;1])] [3;0;2;4]) (-1) 2);
  (*3426*) Del (T 567);
  (*3427*) Assign (T 217) (Plain (Zeros [3;4;4]));
  (*3428*) AddTo (T 217) (Plain (Einsum [(n_g'aa'bov,[0;1;2]); (n_u12'aa,[0;3;4;2])] [3;1;4]));
  (*3429*) AddTo (T 224) (Plain (Einsum [(T 217,[0;1;2])] [0;1;2]));
  (*3430*) Del (T 217);
  (*3431*) Assign (T 218) (Plain (Zeros [3;4;4]));
  (*3432*) AddTo (T 218) (Plain (Einsum [(n_u11'bb,[0;1;2]); (n_v'aabb'ooov,[3;4;1;2])] [0;3;4]));
  (*3433*) AddTo (T 224) (Plain (Einsum [(T 218,[0;1;2])] [0;1;2]));
  (*3434*) Del (T 218);
  (*3435*) AddTo (T 221) (Plain (Einsum [(n_gc'aa'bov,[0;1;2])] [0;1;2]));
  (*3436*) Assign (T 222) (Plain (Zeros [3;4;4]));
  (*3437*) AddTo (T 222) (Plain (Einsum [(n_t1'aa,[0;1]); (T 221,[2;3;1])] [2;0;3]));
  (*3438*) Del (T 221);
  (*3439*) AddTo (T 224) (Plain (Einsum [(T 222,[0;1;2])] [0;2;1]));
  (*3440*) Del (T 222);
  (*3441*) AddTo (T 224) (Plain (Einsum [(n_gc'aa'boo,[0;1;2])] [0;1;2]));
  (*3442*) AddTo (T 576) (Plain (Einsum [(n_t1'aa,[0;1]); (T 224,[2;0;3])] [2;3;1]));
  (*3443*) AddTo n_l1new_aa (Times (Einsum [(n_lu11'aa,[0;1;2]); (T 224,[0;3;2])] [1;3]) (-1) 1);
  (*3444*) Del (T 224);
  (*3445*) Assign (T 227) (Plain (Zeros [3;6;7]));
  (*3446*) AddTo (T 227) (Plain (Einsum [(n_u11'aa,[0;1;2]); (n_v'aabb'ovov,[1;2;3;4])] [0;3;4]));
  (*3447*) AddTo (T 229) (Plain (Einsum [(T 227,[0;1;2])] [0;1;2]));
  (*3448*) AddTo (T 317) (Plain (Einsum [(T 227,[0;1;2])] [0;1;2]));
  (*3449*) AddTo (T 331) (Plain (Einsum [(T 227,[0;1;2])] [0;1;2]));
  (*3450*) Assign (T 459) (Plain (Zeros [3;6;7]));
  (*3451*) AddTo (T 459) (Plain (Einsum [(T 227,[0;1;2])] [0;1;2]));
  (*3452*) Assign (T 556) (Plain (Zeros [3;6;7]));
  (*3453*) AddTo (T 556) (Plain (Einsum [(T 227,[0;1;2])] [0;1;2]));
  (*3454*) Del (T 227);
  (*3455*) AddTo (T 229) (Plain (Einsum [(n_gc'bb'bov,[0;1;2])] [0;1;2]));
  (*3456*) AddTo (T 234) (Plain (Einsum [(n_u11'bb,[0;1;2]); (T 229,[3;1;2])] [3;0]));
  (*3457*) AddTo (T 335) (Times (Einsum [(n_u11'bb,[0;1;2]); (T 229,[3;1;2])] [3;0]) (2) 1);
  (*3458*) Del (T 229);
  (*3459*) AddTo (T 230) (Times (Einsum [(n_gc'aa'bov,[0;1;2])] [0;1;2]) (2) 1);
  (*3460*) AddTo (T 234) (Times (Einsum [(n_u11'aa,[0;1;2]); (T 230,[3;1;2])] [3;0]) (1) 2);
  (*3461*) AddTo (T 335) (Plain (Einsum [(n_u11'aa,[0;1;2]); (T 230,[3;1;2])] [3;0]));
  (*3462*) Del (T 230);
  (*3463*) Assign (T 231) (Plain (Zeros [3;3]));
  (*3464*) AddTo (T 231) (Plain (Einsum [(n_g'aa'bov,[0;1;2]); (n_u11'aa,[3;1;2])] [0;3]));
  (*3465*) Assign (T 233) (Plain (Zeros [3;3]));
  (*3466*) AddTo (T 233) (Plain (Einsum [(T 231,[0;1])] [0;1]));
  (*3467*) Assign (T 604) (Plain (Zeros [3;3]));
  (*3468*) AddTo (T 604) (Plain (Einsum [(T 231,[0;1])] [0;1]));
  (*3469*) Del (T 231);
  (*3470*) Assign (T 232) (Plain (Zeros [3;3]));
  (*3471*) AddTo (T 232) (Plain (Einsum [(n_g'bb'bov,[0;1;2]); (n_u11'bb,[3;1;2])] [0;3]));
  (*3472*) AddTo (T 233) (Plain (Einsum [(T 232,[0;1])] [0;1]));
  (*3473*) AddTo (T 604) (Plain (Einsum [(T 232,[0;1])] [0;1]));
  (*3474*) Del (T 232);
  (*3475*) Assign (T 605) (Plain (Zeros [3;3]));
  (*3476*) AddTo (T 605) (Plain (Einsum [(n_ls2,[0;1]); (T 604,[2;0])] [1;2]));
  (*3477*) AddTo (T 606) (Plain (Einsum [(T 605,[0;1])] [1;0]));
  (*3478*) Del (T 605);
  (*3479*) Assign (T 612) (Plain (Zeros [3;3;4;5]));
  (*3480*) AddTo (T 612) (Plain (Einsum [(T 604,[0;1]); (n_lu12'aa,[1;2;3;4])] [2;0;4;3]));
  (*3481*) SubFrom (T 613) (Plain (Einsum [(T 612,[0;1;2;3])] [1;0;2;3]));
  (*3482*) Del (T 612);
  (*3483*) Assign (T 630) (Plain (Zeros [3;3;6;7]));
  (*3484*) AddTo (T 630) (Plain (Einsum [(T 604,[0;1]); (n_lu12'bb,[1;2;3;4])] [2;0;4;3]));
  (*3485*) Del (T 604);
  (*3486*) SubFrom (T 631) (Plain (Einsum [(T 630,[0;1;2;3])] [1;0;2;3]));
  (*3487*) Del (T 630);
  (*3488*) AddTo (T 233) (Plain (Einsum [(n_w,[0;1])] [0;1]));
  (*3489*) AddTo (T 234) (Plain (Einsum [(n_s2,[0;1]); (T 233,[0;2])] [1;2]));
  (*3490*) AddTo n_l1new_aa (Plain (Einsum [(T 234,[0;1]); (n_lu12'aa,[1;0;2;3])] [2;3]));
  (*3491*) Del (T 234);
  (*3492*) AddTo (T 335) (Times (Einsum [(n_s2,[0;1]); (T 233,[0;2])] [1;2]) (2) 1);
  (*3493*) AddTo n_l1new_bb (Times (Einsum [(T 335,[0;1]); (n_lu12'bb,[1;0;2;3])] [2;3]) (1) 2);
  (*3494*) Del (T 335);
  (*3495*) AddTo (T 572) (Times (Einsum [(T 233,[0;1]); (n_u11'bb,[0;2;3])] [1;2;3]) (-1) 1);
  (*3496*) AddTo (T 576) (Times (Einsum [(T 233,[0;1]); (n_u11'aa,[0;2;3])] [1;2;3]) (-1) 1);
  (*3497*) Del (T 233);
  (*3498*) Assign (T 235) (Plain (Zeros [3;4;5]));
  (*3499*) AddTo (T 235) (Plain (Einsum [(n_s2,[0;1]); (n_lu11'aa,[0;2;3])] [1;3;2]));
  (*3500*) Assign (T 239) (Plain (Zeros [3;4;5]));
  (*3501*) AddTo (T 239) (Plain (Einsum [(T 235,[0;1;2])] [0;1;2]));
  (*3502*) Del (T 235);
  (*3503*) Assign (T 236) (Plain (Zeros [3;4;5]));
  (*3504*) AddTo (T 236) (Plain (Einsum [(n_u11'bb,[0;1;2]); (n_l2'abab,[3;2;4;1])] [0;4;3]));
  (*3505*) AddTo (T 239) (Plain (Einsum [(T 236,[0;1;2])] [0;1;2]));
  (*3506*) Assign (T 247) (Plain (Zeros [3;4;5]));
  (*3507*) AddTo (T 247) (Plain (Einsum [(T 236,[0;1;2])] [0;1;2]));
  (*3508*) Assign (T 249) (Plain (Zeros [3;4;5]));
  (*3509*) AddTo (T 249) (Plain (Einsum [(T 236,[0;1;2])] [0;1;2]));
  (*3510*) Del (T 236);
  (*3511*) Assign (T 237) (Plain (Zeros [4;4;5;5]));
  (*3512*) AddTo (T 237) (Plain (Einsum [(n_l2'aaaa,[0;1;2;3])] [3;2;0;1]));
  (*3513*) SubFrom (T 237) (Plain (Einsum [(n_l2'aaaa,[0;1;2;3])] [3;2;1;0]));
  (*3514*) Assign (T 238) (Plain (Zeros [3;4;5]));
  (*3515*) AddTo (T 238) (Plain (Einsum [(n_u11'aa,[0;1;2]); (T 237,[1;3;2;4])] [0;3;4]));
  (*3516*) SubFrom (T 239) (Plain (Einsum [(T 238,[0;1;2])] [0;1;2]));
  (*3517*) Assign (T 381) (Plain (Zeros [4;4;5;5]));
  (*3518*) AddTo (T 381) (Plain (Einsum [(n_g'aa'bov,[0;1;2]); (T 239,[0;3;4])] [1;3;2;4]));
  (*3519*) AddTo (T 391) (Plain (Einsum [(T 381,[0;1;2;3])] [0;1;2;3]));
  (*3520*) Del (T 381);
  (*3521*) AddTo n_l1new_aa (Plain (Einsum [(n_g'aa'bvv,[0;1;2]); (T 239,[0;3;1])] [2;3]));
  (*3522*) Del (T 239);
  (*3523*) SubFrom (T 249) (Plain (Einsum [(T 238,[0;1;2])] [0;1;2]));
  (*3524*) Del (T 238);
  (*3525*) Assign (T 559) (Plain (Zeros [4;6;5;7]));
  (*3526*) AddTo (T 559) (Plain (Einsum [(n_g'bb'bov,[0;1;2]); (T 249,[0;3;4])] [3;1;4;2]));
  (*3527*) AddTo n_l2new_baba (Plain (Einsum [(T 559,[0;1;2;3])] [3;2;1;0]));
  (*3528*) AddTo n_l2new_abab (Plain (Einsum [(T 559,[0;1;2;3])] [2;3;0;1]));
  (*3529*) Del (T 559);
  (*3530*) AddTo n_l1new_aa (Times (Einsum [(T 249,[0;1;2]); (T 100,[0;3;1])] [2;3]) (-1) 1);
  (*3531*) Del (T 249);
  (*3532*) Del (T 100);
  (*3533*) SubFrom n_lu11new_aa (Plain (Einsum [(n_g'aa'bvo,[0;1;2]); (T 237,[2;3;1;4])] [0;4;3]));
  (*3534*) Del (T 237);
  (*3535*) Assign (T 240) (Plain (Zeros [3;5;5]));
  (*3536*) AddTo (T 240) (Plain (Einsum [(n_u11'bb,[0;1;2]); (n_v'bbaa'ovvv,[1;2;3;4])] [0;3;4]));
  (*3537*) Assign (T 242) (Plain (Zeros [3;5;5]));
  (*3538*) AddTo (T 242) (Plain (Einsum [(T 240,[0;1;2])] [0;1;2]));
  (*3539*) AddTo (T 573) (Plain (Einsum [(T 240,[0;1;2])] [0;1;2]));
  (*3540*) Del (T 240);
  (*3541*) Assign (T 241) (Plain (Zeros [4;5;5;5]));
  (*3542*) SubFrom (T 241) (Plain (Einsum [(n_v'aaaa'ovvv,[0;1;2;3])] [0;2;1;3]));
  (*3543*) AddTo (T 241) (Plain (Einsum [(n_v'aaaa'ovvv,[0;1;2;3])] [0;2;3;1]));
  (*3544*) SubFrom (T 242) (Plain (Einsum [(n_u11'aa,[0;1;2]); (T 241,[1;3;2;4])] [0;3;4]));
  (*3545*) Assign (T 357) (Plain (Zeros [4;4;5;5]));
  (*3546*) AddTo (T 357) (Plain (Einsum [(n_t1'aa,[0;1]); (T 241,[2;3;4;1])] [0;2;3;4]));
  (*3547*) Assign (T 358) (Plain (Zeros [4;4;5;5]));
  (*3548*) SubFrom (T 358) (Plain (Einsum [(T 357,[0;1;2;3])] [0;1;2;3]));
  (*3549*) Del (T 357);
  (*3550*) Assign (T 370) (Plain (Zeros [5;5]));
  (*3551*) AddTo (T 370) (Plain (Einsum [(n_t1'aa,[0;1]); (T 241,[0;2;1;3])] [2;3]));
  (*3552*) Del (T 241);
  (*3553*) SubFrom (T 371) (Plain (Einsum [(T 370,[0;1])] [0;1]));
  (*3554*) Del (T 370);
  (*3555*) Assign (T 372) (Plain (Zeros [4;4;5;5]));
  (*3556*) AddTo (T 372) (Plain (Einsum [(T 371,[0;1]); (n_l2'aaaa,[0;2;3;4])] [3;4;2;1]));
  (*3557*) Del (T 371);
  (*3558*) AddTo (T 391) (Plain (Einsum [(T 372,[0;1;2;3])] [1;0;2;3]));
  (*3559*) Del (T 372);
  (*3560*) AddTo (T 242) (Plain (Einsum [(n_gc'aa'bvv,[0;1;2])] [0;1;2]));
  (*3561*) AddTo n_l1new_aa (Plain (Einsum [(n_lu11'aa,[0;1;2]); (T 242,[0;1;3])] [3;2]));
  (*3562*) Del (T 242);
  (*3563*) AddTo (T 245) (Plain (Einsum [(n_gc'aa'bov,[0;1;2])] [0;1;2]));
  (*3564*) SubFrom n_l1new_aa (Plain (Einsum [(T 243,[0;1;2]); (T 245,[0;2;3])] [3;1]));
  (*3565*) Del (T 243);
  (*3566*) Del (T 245);
  (*3567*) Assign (T 246) (Plain (Zeros [4;4;5;5]));
  (*3568*) AddTo (T 246) (Plain (Einsum [(n_l2'aaaa,[0;1;2;3])] [3;2;0;1]));
  (*3569*) AddTo (T 246) (Times (Einsum [(n_l2'aaaa,[0;1;2;3])] [3;2;1;0]) (-1) 1);
  (*3570*) AddTo (T 247) (Times (Einsum [(n_u11'aa,[0;1;2]); (T 246,[1;3;2;4])] [0;3;4]) (-1) 1);
  (*3571*) AddTo (T 248) (Plain (Einsum [(n_t1'aa,[0;1]); (T 247,[2;3;1])] [2;3;0]));
  (*3572*) Del (T 247);
  (*3573*) AddTo (T 248) (Plain (Einsum [(n_l1'aa,[0;1]); (n_u11'aa,[2;3;0])] [2;1;3]));
  (*3574*) AddTo (T 248) (Plain (Einsum [(n_lu11'aa,[0;1;2]); (n_u12'aa,[0;3;4;1])] [3;2;4]));
  (*3575*) AddTo n_l1new_aa (Times (Einsum [(n_g'aa'bov,[0;1;2]); (T 248,[0;3;1])] [2;3]) (-1) 1);
  (*3576*) Del (T 248);
  (*3577*) Assign (T 250) (Plain (Zeros [4;4;5;5]));
  (*3578*) AddTo (T 250) (Plain (Einsum [(n_v'aaaa'ovvo,[0;1;2;3])] [0;3;2;1]));
  (*3579*) SubFrom (T 250) (Plain (Einsum [(n_v'aaaa'oovv,[0;1;2;3])] [0;1;2;3]));
  (*3580*) AddTo n_l1new_aa (Plain (Einsum [(n_l1'aa,[0;1]); (T 250,[2;1;0;3])] [3;2]));
  (*3581*) AddTo n_lu11new_aa (Plain (Einsum [(n_lu11'aa,[0;1;2]); (T 250,[3;2;1;4])] [0;4;3]));
  (*3582*) Del (T 250);
  (*3583*) Assign (T 251) (Plain (Zeros [3]));
  (*3584*) AddTo (T 251) (Plain (Einsum [(n_s1,[0]); (n_w,[0;1])] [1]));
  (*3585*) AddTo (T 259) (Plain (Einsum [(T 251,[0])] [0]));
  (*3586*) Assign (T 579) (Plain (Zeros [3]));
  (*3587*) AddTo (T 579) (Plain (Einsum [(T 251,[0])] [0]));
  (*3588*) Del (T 251);
  (*3589*) Assign (T 252) (Plain (Zeros [3]));
  (*3590*) AddTo (T 252) (Plain (Einsum [(n_t1'aa,[0;1]); (n_gc'aa'bov,[2;0;1])] [2]));
  (*3591*) AddTo (T 259) (Plain (Einsum [(T 252,[0])] [0]));
  (*3592*) AddTo (T 579) (Plain (Einsum [(T 252,[0])] [0]));
  (*3593*) Del (T 252);
  (*3594*) Assign (T 253) (Plain (Zeros [3]));
  (*3595*) AddTo (T 253) (Plain (Einsum [(n_t1'bb,[0;1]); (n_gc'bb'bov,[2;0;1])] [2]));
  (*3596*) AddTo (T 259) (Plain (Einsum [(T 253,[0])] [0]));
  (*3597*) AddTo (T 579) (Plain (Einsum [(T 253,[0])] [0]));
  (*3598*) Del (T 253);
  (*3599*) Assign (T 254) (Plain (Zeros [3]));
  (*3600*) AddTo (T 254) (Plain (Einsum [(n_g'aa'bov,[0;1;2]); (n_u12'aa,[0;3;1;2])] [3]));
  (*3601*) AddTo (T 259) (Plain (Einsum [(T 254,[0])] [0]));
  (*3602*) AddTo (T 579) (Plain (Einsum [(T 254,[0])] [0]));
  (*3603*) Del (T 254);
  (*3604*) Assign (T 255) (Plain (Zeros [3]));
  (*3605*) AddTo (T 255) (Plain (Einsum [(n_g'bb'bov,[0;1;2]); (n_u12'bb,[0;3;1;2])] [3]));
  (*3606*) AddTo (T 259) (Plain (Einsum [(T 255,[0])] [0]));
  (*3607*) AddTo (T 579) (Plain (Einsum [(T 255,[0])] [0]));
  (*3608*) Del (T 255);
  (*3609*) AddTo (T 259) (Plain (Einsum [(n_G,[0])] [0]));
  (*3610*) AddTo n_l1new_aa (Plain (Einsum [(T 259,[0]); (n_lu11'aa,[0;1;2])] [1;2]));
  (*3611*) AddTo n_l1new_bb (Plain (Einsum [(T 259,[0]); (n_lu11'bb,[0;1;2])] [1;2]));
  (*3612*) Del (T 259);
  (*3613*) Assign (T 260) (Plain (Zeros [3]));
  (*3614*) AddTo (T 260) (Plain (Einsum [(n_ls1,[0]); (n_s2,[1;0])] [1]));
  (*3615*) Assign (T 265) (Plain (Zeros [3]));
  (*3616*) AddTo (T 265) (Plain (Einsum [(T 260,[0])] [0]));
  (*3617*) Del (T 260);
  (*3618*) Assign (T 261) (Plain (Zeros [3]));
  (*3619*) AddTo (T 261) (Plain (Einsum [(n_l1'aa,[0;1]); (n_u11'aa,[2;1;0])] [2]));
  (*3620*) AddTo (T 265) (Plain (Einsum [(T 261,[0])] [0]));
  (*3621*) Del (T 261);
  (*3622*) Assign (T 262) (Plain (Zeros [3]));
  (*3623*) AddTo (T 262) (Plain (Einsum [(n_l1'bb,[0;1]); (n_u11'bb,[2;1;0])] [2]));
  (*3624*) AddTo (T 265) (Plain (Einsum [(T 262,[0])] [0]));
  (*3625*) Del (T 262);
  (*3626*) Assign (T 263) (Plain (Zeros [3]));
  (*3627*) AddTo (T 263) (Plain (Einsum [(n_lu11'aa,[0;1;2]); (n_u12'aa,[0;3;2;1])] [3]));
  (*3628*) AddTo (T 265) (Plain (Einsum [(T 263,[0])] [0]));
  (*3629*) Del (T 263);
  (*3630*) Assign (T 264) (Plain (Zeros [3]));
  (*3631*) AddTo (T 264) (Plain (Einsum [(n_lu11'bb,[0;1;2]); (n_u12'bb,[0;3;2;1])] [3]));
  (*3632*) AddTo (T 265) (Plain (Einsum [(T 264,[0])] [0]));
  (*3633*) Del (T 264);
  (*3634*) AddTo (T 265) (Plain (Einsum [(n_s1,[0])] [0]));
  (*3635*) AddTo n_l1new_aa (Plain (Einsum [(T 265,[0]); (n_g'aa'bov,[0;1;2])] [2;1]));
  (*3636*) AddTo n_l1new_bb (Plain (Einsum [(T 265,[0]); (n_g'bb'bov,[0;1;2])] [2;1]));
  (*3637*) Del (T 265);
  (*3638*) Assign (T 266) (Plain (Zeros [6;6;5;5]));
  (*3639*) AddTo (T 266) (Plain (Einsum [(n_l2'abab,[0;1;2;3]); (n_t2'abab,[2;4;5;1])] [3;4;0;5]));
  (*3640*) AddTo n_l1new_bb (Times (Einsum [(n_v'bbaa'ovvv,[0;1;2;3]); (T 266,[4;0;2;3])] [1;4]) (-1) 1);
  (*3641*) Del (T 266);
  (*3642*) AddTo (T 267) (Plain (Einsum [(n_f'bb'ov,[0;1])] [0;1]));
  (*3643*) Assign (T 268) (Plain (Zeros [6;6;6;7]));
  (*3644*) AddTo (T 268) (Plain (Einsum [(T 267,[0;1]); (n_t2'bbbb,[2;3;1;4])] [2;3;0;4]));
  (*3645*) Del (T 267);
  (*3646*) Assign (T 269) (Plain (Zeros [6;6;6;7]));
  (*3647*) AddTo (T 269) (Plain (Einsum [(T 268,[0;1;2;3])] [2;1;0;3]));
  (*3648*) Del (T 268);
  (*3649*) AddTo (T 269) (Times (Einsum [(n_v'bbbb'oovo,[0;1;2;3])] [0;1;3;2]) (-1) 1);
  (*3650*) AddTo (T 286) (Plain (Einsum [(T 269,[0;1;2;3])] [2;0;1;3]));
  (*3651*) AddTo (T 286) (Times (Einsum [(T 269,[0;1;2;3])] [1;0;2;3]) (-1) 1);
  (*3652*) Del (T 269);
  (*3653*) Assign (T 270) (Plain (Zeros [6;6;6;7]));
  (*3654*) AddTo (T 270) (Plain (Einsum [(n_t2'bbbb,[0;1;2;3]); (n_v'bbbb'ovvv,[4;3;5;2])] [1;0;4;5]));
  (*3655*) AddTo (T 279) (Times (Einsum [(T 270,[0;1;2;3])] [0;1;2;3]) (-1) 1);
  (*3656*) Del (T 270);
  (*3657*) Assign (T 271) (Plain (Zeros [6;6;7;7]));
  (*3658*) AddTo (T 271) (Plain (Einsum [(n_t1'bb,[0;1]); (n_v'bbbb'ovvv,[2;3;4;1])] [0;2;4;3]));
  (*3659*) Assign (T 272) (Plain (Zeros [6;6;6;7]));
  (*3660*) AddTo (T 272) (Plain (Einsum [(n_t1'bb,[0;1]); (T 271,[2;3;4;1])] [0;2;3;4]));
  (*3661*) Del (T 271);
  (*3662*) AddTo (T 279) (Times (Einsum [(T 272,[0;1;2;3])] [0;1;2;3]) (-1) 1);
  (*3663*) Del (T 272);
  (*3664*) Assign (T 275) (Plain (Zeros [6;6;6;6]));
  (*3665*) AddTo (T 275) (Plain (Einsum [(n_t2'bbbb,[0;1;2;3]); (n_v'bbbb'ovov,[4;2;5;3])] [0;1;4;5]));
  (*3666*) AddTo (T 277) (Plain (Einsum [(T 275,[0;1;2;3])] [1;0;3;2]));
  (*3667*) Assign (T 278) (Plain (Zeros [6;6;6;7]));
  (*3668*) AddTo (T 278) (Plain (Einsum [(n_t1'bb,[0;1]); (T 277,[2;3;0;4])] [2;3;4;1]));
  (*3669*) Del (T 277);
  (*3670*) AddTo (T 279) (Plain (Einsum [(T 278,[0;1;2;3])] [1;0;2;3]));
  (*3671*) Del (T 278);
  (*3672*) AddTo (T 286) (Plain (Einsum [(T 279,[0;1;2;3])] [1;2;0;3]));
  (*3673*) AddTo (T 286) (Times (Einsum [(T 279,[0;1;2;3])] [0;2;1;3]) (-1) 1);
  (*3674*) Del (T 279);
  (*3675*) AddTo (T 496) (Plain (Einsum [(T 275,[0;1;2;3])] [1;0;3;2]));
  (*3676*) Del (T 275);
  (*3677*) Assign (T 497) (Plain (Zeros [6;6;7;7]));
  (*3678*) AddTo (T 497) (Plain (Einsum [(n_l2'bbbb,[0;1;2;3]); (T 496,[2;3;4;5])] [4;5;0;1]));
  (*3679*) Del (T 496);
  (*3680*) Assign (T 500) (Plain (Zeros [6;6;7;7]));
  (*3681*) AddTo (T 500) (Plain (Einsum [(T 497,[0;1;2;3])] [1;0;3;2]));
  (*3682*) Del (T 497);
  (*3683*) AddTo (T 280) (Times (Einsum [(n_v'bbbb'ooov,[0;1;2;3])] [1;2;0;3]) (-1) 1);
  (*3684*) AddTo (T 280) (Plain (Einsum [(n_v'bbbb'ooov,[0;1;2;3])] [1;0;2;3]));
  (*3685*) Assign (T 281) (Plain (Zeros [6;6;6;7]));
  (*3686*) AddTo (T 281) (Plain (Einsum [(T 280,[0;1;2;3]); (T 39,[1;4;5;3])] [4;0;2;5]));
  (*3687*) Del (T 280);
  (*3688*) AddTo (T 286) (Plain (Einsum [(T 281,[0;1;2;3])] [1;2;0;3]));
  (*3689*) AddTo (T 296) (Plain (Einsum [(T 281,[0;1;2;3])] [1;2;0;3]));
  (*3690*) Del (T 281);
  (*3691*) Assign (T 284) (Plain (Zeros [6;6;6;6]));
  (*3692*) AddTo (T 284) (Plain (Einsum [(n_t1'bb,[0;1]); (n_v'bbbb'ooov,[2;3;4;1])] [0;2;4;3]));
  (*3693*) Assign (T 285) (Plain (Zeros [6;6;6;6]));
  (*3694*) AddTo (T 285) (Plain (Einsum [(T 284,[0;1;2;3])] [1;2;3;0]));
  (*3695*) AddTo (T 285) (Times (Einsum [(T 284,[0;1;2;3])] [2;1;3;0]) (-1) 1);
  (*3696*) Assign (T 295) (Plain (Zeros [6;6;6;6]));
  (*3697*) AddTo (T 295) (Times (Einsum [(T 284,[0;1;2;3])] [0;2;1;3]) (-1) 1);
  (*3698*) AddTo (T 295) (Plain (Einsum [(T 284,[0;1;2;3])] [0;1;2;3]));
  (*3699*) AddTo (T 296) (Times (Einsum [(n_t1'bb,[0;1]); (T 295,[2;0;3;4])] [2;3;4;1]) (-1) 1);
  (*3700*) Del (T 295);
  (*3701*) AddTo n_l1new_bb (Times (Einsum [(n_l2'bbbb,[0;1;2;3]); (T 296,[2;4;3;1])] [0;4]) (-1) 1);
  (*3702*) Del (T 296);
  (*3703*) Assign (T 428) (Plain (Zeros [6;6;7;7]));
  (*3704*) AddTo (T 428) (Plain (Einsum [(n_l2'bbbb,[0;1;2;3]); (T 284,[3;4;5;2])] [4;5;1;0]));
  (*3705*) Del (T 284);
  (*3706*) SubFrom (T 468) (Plain (Einsum [(T 428,[0;1;2;3])] [0;1;2;3]));
  (*3707*) Del (T 428);
  (*3708*) AddTo (T 285) (Times (Einsum [(n_v'bbbb'oooo,[0;1;2;3])] [2;0;1;3]) (-1) 1);
  (*3709*) AddTo (T 285) (Plain (Einsum [(n_v'bbbb'oooo,[0;1;2;3])] [2;0;3;1]));
  (*3710*) AddTo (T 286) (Times (Einsum [(n_t1'bb,[0;1]); (T 285,[0;2;3;4])] [4;2;3;1]) (-1) 1);
  (*3711*) Del (T 285);
  (*3712*) AddTo n_l1new_bb (Plain (Einsum [(n_l2'bbbb,[0;1;2;3]); (T 286,[2;4;3;0])] [1;4]));
  (*3713*) Del (T 286);
  (*3714*) Assign (T 287) (Plain (Zeros [6;6;7;7]));
  (*3715*) AddTo (T 287) (Plain (Einsum [(n_l2'abab,[0;1;2;3]); (n_t2'abab,[2;4;0;5])] [3;4;1;5]));
  (*3716*) Assign (T 290) (Plain (Zeros [6;6;7;7]));
  (*3717*) AddTo (T 290) (Plain (Einsum [(T 287,[0;1;2;3])] [0;1;2;3]));
  (*3718*) Assign (T 469) (Plain (Zeros [6;6;7;7]));
  (*3719*) AddTo (T 469) (Plain (Einsum [(T 287,[0;1;2;3])] [0;1;2;3]));
  (*3720*) Del (T 287);
  (*3721*) Assign (T 288) (Plain (Zeros [6;6;7;7]));
  (*3722*) AddTo (T 288) (Times (Einsum [(n_l2'bbbb,[0;1;2;3])] [3;2;0;1]) (-1) 1);
  (*3723*) AddTo (T 288) (Plain (Einsum [(n_l2'bbbb,[0;1;2;3])] [3;2;1;0]));
  (*3724*) Assign (T 289) (Plain (Zeros [6;6;7;7]));
  (*3725*) AddTo (T 289) (Plain (Einsum [(T 288,[0;1;2;3]); (T 39,[0;4;2;5])] [4;1;5;3]));
  (*3726*) Del (T 39);
  (*3727*) AddTo (T 290) (Plain (Einsum [(T 289,[0;1;2;3])] [1;0;3;2]));
  (*3728*) AddTo (T 469) (Plain (Einsum [(T 289,[0;1;2;3])] [1;0;3;2]));
  (*3729*) Del (T 289);
  (*3730*) Assign (T 470) (Plain (Zeros [6;6;7;7]));
  (*3731*) AddTo (T 470) (Plain (Einsum [(T 146,[0;1;2;3]); (T 469,[4;0;5;2])] [1;4;3;5]));
  (*3732*) Del (T 146);
  (*3733*) Del (T 469);
  (*3734*) AddTo (T 492) (Times (Einsum [(T 470,[0;1;2;3])] [1;0;3;2]) (-1) 1);
  (*3735*) Del (T 470);
  (*3736*) Assign (T 345) (Plain (Zeros [3;6;7]));
  (*3737*) AddTo (T 345) (Times (Einsum [(n_u11'bb,[0;1;2]); (T 288,[1;3;4;2])] [0;3;4]) (-1) 1);
  (*3738*) Assign (T 473) (Plain (Zeros [4;6;5;7]));
  (*3739*) AddTo (T 473) (Plain (Einsum [(n_t2'abab,[0;1;2;3]); (T 288,[1;4;5;3])] [0;4;2;5]));
  (*3740*) Assign (T 474) (Plain (Zeros [6;6;7;7]));
  (*3741*) AddTo (T 474) (Times (Einsum [(n_v'aabb'ovov,[0;1;2;3]); (T 473,[0;4;1;5])] [2;4;3;5]) (-1) 1);
  (*3742*) Del (T 473);
  (*3743*) AddTo (T 492) (Plain (Einsum [(T 474,[0;1;2;3])] [1;0;3;2]));
  (*3744*) Del (T 474);
  (*3745*) AddTo n_l1new_bb (Times (Einsum [(T 160,[0;1]); (T 288,[0;2;3;1])] [3;2]) (-1) 1);
  (*3746*) Del (T 160);
  (*3747*) AddTo (T 290) (Times (Einsum [(n_lu12'bb,[0;1;2;3]); (n_u12'bb,[0;1;4;5])] [3;4;2;5]) (1) 2);
  (*3748*) AddTo n_l1new_bb (Times (Einsum [(T 155,[0;1;2;3]); (T 290,[4;0;1;2])] [3;4]) (-1) 1);
  (*3749*) Del (T 290);
  (*3750*) Del (T 155);
  (*3751*) AddTo (T 291) (Times (Einsum [(n_v'bbbb'ooov,[0;1;2;3])] [0;2;1;3]) (-1) 1);
  (*3752*) AddTo (T 291) (Plain (Einsum [(n_v'bbbb'ooov,[0;1;2;3])] [2;0;1;3]));
  (*3753*) AddTo (T 294) (Times (Einsum [(n_t2'abab,[0;1;2;3]); (T 291,[4;1;5;3])] [0;4;5;2]) (-1) 1);
  (*3754*) AddTo (T 318) (Times (Einsum [(n_u12'bb,[0;1;2;3]); (T 291,[4;2;5;3])] [1;0;4;5]) (-1) 2);
  (*3755*) Del (T 291);
  (*3756*) Assign (T 292) (Plain (Zeros [6;6;5;5]));
  (*3757*) AddTo (T 292) (Plain (Einsum [(n_t1'bb,[0;1]); (n_v'bbaa'ovvv,[2;1;3;4])] [0;2;3;4]));
  (*3758*) Assign (T 293) (Plain (Zeros [6;6;5;5]));
  (*3759*) AddTo (T 293) (Plain (Einsum [(T 292,[0;1;2;3])] [1;0;2;3]));
  (*3760*) Assign (T 526) (Plain (Zeros [6;6;5;5]));
  (*3761*) AddTo (T 526) (Plain (Einsum [(T 292,[0;1;2;3])] [1;0;2;3]));
  (*3762*) Del (T 292);
  (*3763*) AddTo (T 293) (Plain (Einsum [(n_v'bbaa'oovv,[0;1;2;3])] [0;1;2;3]));
  (*3764*) AddTo (T 294) (Plain (Einsum [(n_t1'aa,[0;1]); (T 293,[2;3;4;1])] [0;2;3;4]));
  (*3765*) Del (T 293);
  (*3766*) AddTo (T 294) (Plain (Einsum [(n_v'bbaa'oovo,[0;1;2;3])] [3;0;1;2]));
  (*3767*) AddTo (T 294) (Plain (Einsum [(n_t1'bb,[0;1]); (n_v'bbaa'ovvo,[2;1;3;4])] [4;2;0;3]));
  (*3768*) AddTo (T 294) (Plain (Einsum [(n_t2'abab,[0;1;2;3]); (n_v'bbaa'ovvv,[4;3;5;2])] [0;4;1;5]));
  (*3769*) AddTo n_l1new_bb (Times (Einsum [(n_l2'abab,[0;1;2;3]); (T 294,[2;4;3;0])] [1;4]) (-1) 1);
  (*3770*) Del (T 294);
  (*3771*) Assign (T 297) (Plain (Zeros [6;6;7;7]));
  (*3772*) AddTo (T 297) (Plain (Einsum [(n_l2'bbbb,[0;1;2;3])] [3;2;0;1]));
  (*3773*) AddTo (T 297) (Times (Einsum [(n_l2'bbbb,[0;1;2;3])] [3;2;1;0]) (-1) 1);
  (*3774*) AddTo (T 298) (Times (Einsum [(n_t2'abab,[0;1;2;3]); (T 297,[1;4;5;3])] [0;4;2;5]) (-2) 1);
  (*3775*) AddTo (T 298) (Times (Einsum [(n_lu12'bb,[0;1;2;3]); (n_u12'aa,[0;1;4;5])] [4;3;5;2]) (-1) 1);
  (*3776*) AddTo n_l1new_bb (Times (Einsum [(n_v'aabb'ovvv,[0;1;2;3]); (T 298,[0;4;1;2])] [3;4]) (-1) 2);
  (*3777*) Del (T 298);
  (*3778*) Assign (T 301) (Plain (Zeros [6;6;7;7]));
  (*3779*) AddTo (T 301) (Plain (Einsum [(n_v'bbbb'ovov,[0;1;2;3])] [2;0;1;3]));
  (*3780*) SubFrom (T 301) (Plain (Einsum [(n_v'bbbb'ovov,[0;1;2;3])] [2;0;3;1]));
  (*3781*) AddTo n_l1new_bb (Times (Einsum [(T 300,[0;1;2;3]); (T 301,[1;2;3;4])] [4;0]) (-1) 1);
  (*3782*) Del (T 300);
  (*3783*) Del (T 301);
  (*3784*) AddTo (T 302) (Times (Einsum [(n_l1'bb,[0;1]); (n_t2'abab,[2;3;4;0])] [2;1;3;4]) (-1) 1);
  (*3785*) AddTo n_l1new_bb (Plain (Einsum [(n_v'aabb'ovov,[0;1;2;3]); (T 302,[0;4;2;1])] [3;4]));
  (*3786*) Del (T 302);
  (*3787*) Assign (T 305) (Plain (Zeros [6;7;7;7]));
  (*3788*) AddTo (T 305) (Plain (Einsum [(n_v'bbbb'ovvv,[0;1;2;3])] [0;2;1;3]));
  (*3789*) AddTo (T 305) (Times (Einsum [(n_v'bbbb'ovvv,[0;1;2;3])] [0;2;3;1]) (-1) 1);
  (*3790*) Assign (T 518) (Plain (Zeros [6;6;7;7]));
  (*3791*) AddTo (T 518) (Plain (Einsum [(n_t1'bb,[0;1]); (T 305,[2;3;1;4])] [0;2;3;4]));
  (*3792*) AddTo (T 519) (Times (Einsum [(T 518,[0;1;2;3])] [1;0;2;3]) (-1) 1);
  (*3793*) Del (T 518);
  (*3794*) AddTo n_l1new_bb (Plain (Einsum [(T 304,[0;1;2;3]); (T 305,[1;2;3;4])] [4;0]));
  (*3795*) Del (T 305);
  (*3796*) Del (T 304);
  (*3797*) Assign (T 306) (Plain (Zeros [6;7;7;7]));
  (*3798*) AddTo (T 306) (Plain (Einsum [(n_t1'bb,[0;1]); (n_v'bbbb'vvvv,[2;1;3;4])] [0;3;2;4]));
  (*3799*) Assign (T 307) (Plain (Zeros [6;7;7;7]));
  (*3800*) AddTo (T 307) (Times (Einsum [(T 306,[0;1;2;3])] [0;1;2;3]) (-1) 1);
  (*3801*) Del (T 306);
  (*3802*) AddTo (T 307) (Plain (Einsum [(n_v'bbbb'vovv,[0;1;2;3])] [1;0;2;3]));
  (*3803*) Assign (T 308) (Plain (Zeros [6;7;7;7]));
  (*3804*) AddTo (T 308) (Times (Einsum [(T 307,[0;1;2;3])] [0;1;2;3]) (-1) 1);
  (*3805*) AddTo (T 308) (Plain (Einsum [(T 307,[0;1;2;3])] [0;2;1;3]));
  (*3806*) Del (T 307);
  (*3807*) AddTo n_l1new_bb (Times (Einsum [(n_l2'bbbb,[0;1;2;3]); (T 308,[2;0;1;4])] [4;3]) (-1) 1);
  (*3808*) Del (T 308);
  (*3809*) Assign (T 309) (Plain (Zeros [6;6;6;6]));
  (*3810*) AddTo (T 309) (Plain (Einsum [(n_l2'bbbb,[0;1;2;3]); (n_t2'bbbb,[4;5;1;0])] [2;3;5;4]));
  (*3811*) AddTo (T 311) (Plain (Einsum [(T 309,[0;1;2;3])] [1;0;3;2]));
  (*3812*) Assign (T 312) (Plain (Zeros [6;6;6;7]));
  (*3813*) AddTo (T 312) (Plain (Einsum [(n_t1'bb,[0;1]); (T 311,[0;2;3;4])] [2;3;4;1]));
  (*3814*) Del (T 311);
  (*3815*) Assign (T 313) (Plain (Zeros [6;6;6;7]));
  (*3816*) AddTo (T 313) (Plain (Einsum [(T 312,[0;1;2;3])] [0;1;2;3]));
  (*3817*) AddTo (T 313) (Times (Einsum [(T 312,[0;1;2;3])] [0;2;1;3]) (-1) 1);
  (*3818*) Del (T 312);
  (*3819*) AddTo n_l1new_bb (Times (Einsum [(n_v'bbbb'ovov,[0;1;2;3]); (T 313,[4;0;2;3])] [1;4]) (-1) 1);
  (*3820*) Del (T 313);
  (*3821*) Assign (T 323) (Plain (Zeros [6;6;6;6]));
  (*3822*) AddTo (T 323) (Times (Einsum [(T 309,[0;1;2;3])] [1;0;2;3]) (-1) 1);
  (*3823*) AddTo (T 323) (Plain (Einsum [(T 309,[0;1;2;3])] [1;0;3;2]));
  (*3824*) AddTo n_l1new_bb (Plain (Einsum [(n_v'bbbb'ooov,[0;1;2;3]); (T 323,[1;4;0;2])] [3;4]));
  (*3825*) Del (T 323);
  (*3826*) AddTo (T 498) (Plain (Einsum [(T 309,[0;1;2;3])] [1;0;3;2]));
  (*3827*) Del (T 309);
  (*3828*) Assign (T 499) (Plain (Zeros [6;6;7;7]));
  (*3829*) AddTo (T 499) (Plain (Einsum [(n_v'bbbb'ovov,[0;1;2;3]); (T 498,[4;5;2;0])] [4;5;1;3]));
  (*3830*) Del (T 498);
  (*3831*) AddTo (T 500) (Plain (Einsum [(T 499,[0;1;2;3])] [1;0;2;3]));
  (*3832*) Del (T 499);
  (*3833*) Assign n_l2new_bbbb (Plain (Zeros [7;7;6;6]));
  (*3834*) AddTo n_l2new_bbbb (Plain (Einsum [(T 500,[0;1;2;3])] [2;3;0;1]));
  (*3835*) AddTo n_l2new_bbbb (Times (Einsum [(T 500,[0;1;2;3])] [3;2;0;1]) (-1) 1);
  (*3836*) Del (T 500);
  (*3837*) Assign (T 314) (Plain (Zeros [4;5;7;7]));
  (*3838*) AddTo (T 314) (Plain (Einsum [(n_v'aabb'vovv,[0;1;2;3])] [1;0;2;3]));
  (*3839*) AddTo (T 314) (Plain (Einsum [(n_t1'aa,[0;1]); (n_v'aabb'vvvv,[2;1;3;4])] [0;2;3;4]));
  (*3840*) AddTo n_l1new_bb (Plain (Einsum [(n_l2'abab,[0;1;2;3]); (T 314,[2;0;1;4])] [4;3]));
  (*3841*) Del (T 314);
  (*3842*) Assign (T 315) (Plain (Zeros [3;6;7]));
  (*3843*) AddTo (T 315) (Plain (Einsum [(n_s2,[0;1]); (n_g'bb'bov,[1;2;3])] [0;2;3]));
  (*3844*) AddTo (T 317) (Plain (Einsum [(T 315,[0;1;2])] [0;1;2]));
  (*3845*) AddTo (T 556) (Plain (Einsum [(T 315,[0;1;2])] [0;1;2]));
  (*3846*) Del (T 315);
  (*3847*) AddTo (T 317) (Plain (Einsum [(n_gc'bb'bov,[0;1;2])] [0;1;2]));
  (*3848*) AddTo (T 318) (Plain (Einsum [(n_u11'bb,[0;1;2]); (T 317,[3;4;2])] [0;3;4;1]));
  (*3849*) AddTo n_l1new_bb (Times (Einsum [(n_lu12'bb,[0;1;2;3]); (T 318,[0;1;4;3])] [2;4]) (-1) 1);
  (*3850*) Del (T 318);
  (*3851*) AddTo (T 572) (Times (Einsum [(T 317,[0;1;2]); (T 53,[1;3;4;2])] [0;3;4]) (-1) 1);
  (*3852*) Del (T 53);
  (*3853*) AddTo (T 576) (Times (Einsum [(T 317,[0;1;2]); (n_t2'abab,[3;1;4;2])] [0;3;4]) (-1) 1);
  (*3854*) Del (T 317);
  (*3855*) Assign (T 319) (Plain (Zeros [6;6;6;7]));
  (*3856*) AddTo (T 319) (Plain (Einsum [(n_l1'bb,[0;1]); (n_t2'bbbb,[2;3;4;0])] [1;2;3;4]));
  (*3857*) Assign (T 320) (Plain (Zeros [6;6;6;7]));
  (*3858*) AddTo (T 320) (Plain (Einsum [(T 319,[0;1;2;3])] [0;2;1;3]));
  (*3859*) AddTo (T 320) (Times (Einsum [(T 319,[0;1;2;3])] [0;1;2;3]) (-1) 1);
  (*3860*) Del (T 319);
  (*3861*) AddTo n_l1new_bb (Plain (Einsum [(n_v'bbbb'ovov,[0;1;2;3]); (T 320,[4;0;2;1])] [3;4]));
  (*3862*) Del (T 320);
  (*3863*) Assign (T 321) (Plain (Zeros [4;6;5;7]));
  (*3864*) AddTo (T 321) (Plain (Einsum [(n_t1'aa,[0;1]); (n_v'bbaa'ovvv,[2;3;4;1])] [0;2;4;3]));
  (*3865*) Assign (T 322) (Plain (Zeros [4;6;5;7]));
  (*3866*) AddTo (T 322) (Plain (Einsum [(T 321,[0;1;2;3])] [0;1;2;3]));
  (*3867*) Assign (T 437) (Plain (Zeros [4;6;5;7]));
  (*3868*) AddTo (T 437) (Plain (Einsum [(T 321,[0;1;2;3])] [0;1;2;3]));
  (*3869*) AddTo (T 508) (Plain (Einsum [(T 321,[0;1;2;3])] [0;1;2;3]));
  (*3870*) Assign (T 633) (Plain (Zeros [4;6;5;7]));
  (*3871*) AddTo (T 633) (Plain (Einsum [(T 321,[0;1;2;3])] [0;1;2;3]));
  (*3872*) Del (T 321);
  (*3873*) AddTo (T 322) (Plain (Einsum [(n_v'bbaa'ovvo,[0;1;2;3])] [3;0;2;1]));
  (*3874*) AddTo n_l1new_bb (Times (Einsum [(T 2,[0;1;2;3]); (T 322,[0;2;3;4])] [4;1]) (-1) 1);
  (*3875*) Del (T 322);
  (*3876*) Assign (T 327) (Plain (Zeros [3;6;6]));
  (*3877*) AddTo (T 327) (Plain (Einsum [(n_g'bb'bov,[0;1;2]); (n_u12'bb,[0;3;4;2])] [3;1;4]));
  (*3878*) AddTo (T 334) (Plain (Einsum [(T 327,[0;1;2])] [0;1;2]));
  (*3879*) Del (T 327);
  (*3880*) Assign (T 328) (Plain (Zeros [3;6;6]));
  (*3881*) AddTo (T 328) (Plain (Einsum [(n_u11'aa,[0;1;2]); (n_v'aabb'ovoo,[1;2;3;4])] [0;3;4]));
  (*3882*) AddTo (T 334) (Plain (Einsum [(T 328,[0;1;2])] [0;1;2]));
  (*3883*) Del (T 328);
  (*3884*) AddTo (T 331) (Plain (Einsum [(n_gc'bb'bov,[0;1;2])] [0;1;2]));
  (*3885*) Assign (T 332) (Plain (Zeros [3;6;6]));
  (*3886*) AddTo (T 332) (Plain (Einsum [(n_t1'bb,[0;1]); (T 331,[2;3;1])] [2;0;3]));
  (*3887*) AddTo (T 334) (Plain (Einsum [(T 332,[0;1;2])] [0;2;1]));
  (*3888*) Del (T 332);
  (*3889*) AddTo n_l1new_bb (Times (Einsum [(T 331,[0;1;2]); (T 344,[0;3;1])] [2;3]) (-1) 1);
  (*3890*) Del (T 331);
  (*3891*) Del (T 344);
  (*3892*) AddTo (T 334) (Plain (Einsum [(n_gc'bb'boo,[0;1;2])] [0;1;2]));
  (*3893*) AddTo (T 572) (Plain (Einsum [(n_t1'bb,[0;1]); (T 334,[2;0;3])] [2;3;1]));
  (*3894*) AddTo n_l1new_bb (Times (Einsum [(n_lu11'bb,[0;1;2]); (T 334,[0;3;2])] [1;3]) (-1) 1);
  (*3895*) Del (T 334);
  (*3896*) Assign (T 336) (Plain (Zeros [3;6;7]));
  (*3897*) AddTo (T 336) (Plain (Einsum [(n_s2,[0;1]); (n_lu11'bb,[0;2;3])] [1;3;2]));
  (*3898*) Assign (T 340) (Plain (Zeros [3;6;7]));
  (*3899*) AddTo (T 340) (Plain (Einsum [(T 336,[0;1;2])] [0;1;2]));
  (*3900*) Del (T 336);
  (*3901*) Assign (T 337) (Plain (Zeros [3;6;7]));
  (*3902*) AddTo (T 337) (Plain (Einsum [(n_u11'aa,[0;1;2]); (n_l2'abab,[2;3;1;4])] [0;4;3]));
  (*3903*) AddTo (T 340) (Plain (Einsum [(T 337,[0;1;2])] [0;1;2]));
  (*3904*) AddTo (T 345) (Plain (Einsum [(T 337,[0;1;2])] [0;1;2]));
  (*3905*) AddTo (T 346) (Plain (Einsum [(n_t1'bb,[0;1]); (T 345,[2;3;1])] [2;3;0]));
  (*3906*) Del (T 345);
  (*3907*) Assign (T 347) (Plain (Zeros [3;6;7]));
  (*3908*) AddTo (T 347) (Plain (Einsum [(T 337,[0;1;2])] [0;1;2]));
  (*3909*) Del (T 337);
  (*3910*) Assign (T 338) (Plain (Zeros [6;6;7;7]));
  (*3911*) SubFrom (T 338) (Plain (Einsum [(n_l2'bbbb,[0;1;2;3])] [3;2;0;1]));
  (*3912*) AddTo (T 338) (Plain (Einsum [(n_l2'bbbb,[0;1;2;3])] [3;2;1;0]));
  (*3913*) Assign (T 339) (Plain (Zeros [3;6;7]));
  (*3914*) AddTo (T 339) (Plain (Einsum [(n_u11'bb,[0;1;2]); (T 338,[1;3;4;2])] [0;3;4]));
  (*3915*) SubFrom (T 340) (Plain (Einsum [(T 339,[0;1;2])] [0;1;2]));
  (*3916*) Assign (T 456) (Plain (Zeros [6;6;7;7]));
  (*3917*) AddTo (T 456) (Plain (Einsum [(n_g'bb'bov,[0;1;2]); (T 340,[0;3;4])] [1;3;2;4]));
  (*3918*) AddTo (T 468) (Plain (Einsum [(T 456,[0;1;2;3])] [0;1;2;3]));
  (*3919*) Del (T 456);
  (*3920*) AddTo n_l1new_bb (Plain (Einsum [(n_g'bb'bvv,[0;1;2]); (T 340,[0;3;1])] [2;3]));
  (*3921*) Del (T 340);
  (*3922*) SubFrom (T 347) (Plain (Einsum [(T 339,[0;1;2])] [0;1;2]));
  (*3923*) Del (T 339);
  (*3924*) Assign (T 558) (Plain (Zeros [4;6;5;7]));
  (*3925*) AddTo (T 558) (Plain (Einsum [(n_g'aa'bov,[0;1;2]); (T 347,[0;3;4])] [1;3;2;4]));
  (*3926*) AddTo n_l2new_baba (Plain (Einsum [(T 558,[0;1;2;3])] [3;2;1;0]));
  (*3927*) AddTo n_l2new_abab (Plain (Einsum [(T 558,[0;1;2;3])] [2;3;0;1]));
  (*3928*) Del (T 558);
  (*3929*) AddTo n_l1new_bb (Times (Einsum [(T 140,[0;1;2]); (T 347,[0;2;3])] [3;1]) (-1) 1);
  (*3930*) Del (T 347);
  (*3931*) Del (T 140);
  (*3932*) SubFrom n_lu11new_bb (Plain (Einsum [(n_g'bb'bvo,[0;1;2]); (T 338,[2;3;4;1])] [0;4;3]));
  (*3933*) Assign (T 341) (Plain (Zeros [3;7;7]));
  (*3934*) AddTo (T 341) (Plain (Einsum [(n_u11'aa,[0;1;2]); (n_v'aabb'ovvv,[1;2;3;4])] [0;3;4]));
  (*3935*) Assign (T 343) (Plain (Zeros [3;7;7]));
  (*3936*) AddTo (T 343) (Plain (Einsum [(T 341,[0;1;2])] [0;1;2]));
  (*3937*) AddTo (T 569) (Plain (Einsum [(T 341,[0;1;2])] [0;1;2]));
  (*3938*) Del (T 341);
  (*3939*) Assign (T 342) (Plain (Zeros [6;7;7;7]));
  (*3940*) SubFrom (T 342) (Plain (Einsum [(n_v'bbbb'ovvv,[0;1;2;3])] [0;2;1;3]));
  (*3941*) AddTo (T 342) (Plain (Einsum [(n_v'bbbb'ovvv,[0;1;2;3])] [0;2;3;1]));
  (*3942*) SubFrom (T 343) (Plain (Einsum [(n_u11'bb,[0;1;2]); (T 342,[1;3;2;4])] [0;3;4]));
  (*3943*) Assign (T 445) (Plain (Zeros [7;7]));
  (*3944*) AddTo (T 445) (Plain (Einsum [(n_t1'bb,[0;1]); (T 342,[0;2;1;3])] [2;3]));
  (*3945*) Del (T 342);
  (*3946*) SubFrom (T 446) (Plain (Einsum [(T 445,[0;1])] [0;1]));
  (*3947*) Del (T 445);
  (*3948*) Assign (T 447) (Plain (Zeros [6;6;7;7]));
  (*3949*) AddTo (T 447) (Plain (Einsum [(T 446,[0;1]); (n_l2'bbbb,[0;2;3;4])] [3;4;2;1]));
  (*3950*) Del (T 446);
  (*3951*) AddTo (T 468) (Plain (Einsum [(T 447,[0;1;2;3])] [1;0;2;3]));
  (*3952*) Del (T 447);
  (*3953*) AddTo (T 343) (Plain (Einsum [(n_gc'bb'bvv,[0;1;2])] [0;1;2]));
  (*3954*) AddTo n_l1new_bb (Plain (Einsum [(n_lu11'bb,[0;1;2]); (T 343,[0;1;3])] [3;2]));
  (*3955*) Del (T 343);
  (*3956*) AddTo (T 346) (Plain (Einsum [(n_l1'bb,[0;1]); (n_u11'bb,[2;3;0])] [2;1;3]));
  (*3957*) AddTo (T 346) (Plain (Einsum [(n_lu11'bb,[0;1;2]); (n_u12'bb,[0;3;4;1])] [3;2;4]));
  (*3958*) AddTo n_l1new_bb (Times (Einsum [(n_g'bb'bov,[0;1;2]); (T 346,[0;3;1])] [2;3]) (-1) 1);
  (*3959*) Del (T 346);
  (*3960*) Assign (T 348) (Plain (Zeros [6;6;7;7]));
  (*3961*) AddTo (T 348) (Plain (Einsum [(n_v'bbbb'ovvo,[0;1;2;3])] [0;3;2;1]));
  (*3962*) SubFrom (T 348) (Plain (Einsum [(n_v'bbbb'oovv,[0;1;2;3])] [0;1;2;3]));
  (*3963*) AddTo n_l1new_bb (Plain (Einsum [(n_l1'bb,[0;1]); (T 348,[2;1;0;3])] [3;2]));
  (*3964*) AddTo n_lu11new_bb (Plain (Einsum [(n_lu11'bb,[0;1;2]); (T 348,[3;2;1;4])] [0;4;3]));
  (*3965*) Del (T 348);
  (*3966*) Assign (T 349) (Plain (Zeros [4;4;5;5]));
  (*3967*) AddTo (T 349) (Plain (Einsum [(n_gc'aa'bov,[0;1;2]); (n_lu11'aa,[0;3;4])] [1;4;2;3]));
  (*3968*) AddTo (T 391) (Plain (Einsum [(T 349,[0;1;2;3])] [0;1;2;3]));
  (*3969*) Del (T 349);
  (*3970*) Assign (T 350) (Plain (Zeros [4;4;5;5]));
  (*3971*) AddTo (T 350) (Plain (Einsum [(n_l1'aa,[0;1]); (n_v'aaaa'ovvv,[2;3;0;4])] [1;2;3;4]));
  (*3972*) SubFrom (T 391) (Plain (Einsum [(T 350,[0;1;2;3])] [0;1;2;3]));
  (*3973*) Del (T 350);
  (*3974*) Assign (T 356) (Plain (Zeros [4;4;5;5]));
  (*3975*) SubFrom (T 356) (Plain (Einsum [(n_l2'aaaa,[0;1;2;3])] [3;2;0;1]));
  (*3976*) AddTo (T 356) (Plain (Einsum [(n_l2'aaaa,[0;1;2;3])] [3;2;1;0]));
  (*3977*) AddTo (T 358) (Plain (Einsum [(n_v'aaaa'ovvo,[0;1;2;3])] [3;0;2;1]));
  (*3978*) SubFrom (T 358) (Plain (Einsum [(n_v'aaaa'oovv,[0;1;2;3])] [1;0;2;3]));
  (*3979*) Assign (T 359) (Plain (Zeros [4;4;5;5]));
  (*3980*) AddTo (T 359) (Plain (Einsum [(T 356,[0;1;2;3]); (T 358,[0;4;2;5])] [1;4;3;5]));
  (*3981*) Del (T 356);
  (*3982*) Del (T 358);
  (*3983*) AddTo (T 391) (Plain (Einsum [(T 359,[0;1;2;3])] [0;1;2;3]));
  (*3984*) Del (T 359);
  (*3985*) Assign (T 360) (Plain (Zeros [6;6;7;7]));
  (*3986*) SubFrom (T 360) (Plain (Einsum [(n_t2'bbbb,[0;1;2;3])] [1;0;2;3]));
  (*3987*) AddTo (T 360) (Plain (Einsum [(n_t2'bbbb,[0;1;2;3])] [1;0;3;2]));
  (*3988*) Assign (T 361) (Plain (Zeros [4;6;5;7]));
  (*3989*) AddTo (T 361) (Plain (Einsum [(n_v'aabb'ovov,[0;1;2;3]); (T 360,[2;4;5;3])] [0;4;1;5]));
  (*3990*) SubFrom (T 362) (Plain (Einsum [(T 361,[0;1;2;3])] [0;1;2;3]));
  (*3991*) Del (T 361);
  (*3992*) Assign (T 596) (Plain (Zeros [3;6;7]));
  (*3993*) AddTo (T 596) (Plain (Einsum [(n_g'bb'bov,[0;1;2]); (T 360,[1;3;4;2])] [0;3;4]));
  (*3994*) Del (T 360);
  (*3995*) Assign (T 597) (Plain (Zeros [3;6;7]));
  (*3996*) SubFrom (T 597) (Plain (Einsum [(T 596,[0;1;2])] [0;1;2]));
  (*3997*) Del (T 596);
  (*3998*) AddTo (T 362) (Plain (Einsum [(n_v'aabb'ovvo,[0;1;2;3])] [0;3;1;2]));
  (*3999*) Assign (T 363) (Plain (Zeros [4;4;5;5]));
  (*4000*) AddTo (T 363) (Plain (Einsum [(n_l2'abab,[0;1;2;3]); (T 362,[4;3;5;1])] [2;4;0;5]));
  (*4001*) Del (T 362);
  (*4002*) AddTo (T 391) (Plain (Einsum [(T 363,[0;1;2;3])] [0;1;2;3]));
  (*4003*) Del (T 363);
  (*4004*) Assign (T 365) (Plain (Zeros [4;4;4;5]));
  (*4005*) AddTo (T 365) (Plain (Einsum [(n_v'aaaa'ooov,[0;1;2;3])] [0;2;1;3]));
  (*4006*) SubFrom (T 365) (Plain (Einsum [(n_v'aaaa'ooov,[0;1;2;3])] [2;0;1;3]));
  (*4007*) Assign (T 366) (Plain (Zeros [4;4;5;5]));
  (*4008*) AddTo (T 366) (Plain (Einsum [(T 364,[0;1;2;3]); (T 365,[4;2;0;5])] [1;4;3;5]));
  (*4009*) Del (T 364);
  (*4010*) AddTo (T 391) (Plain (Einsum [(T 366,[0;1;2;3])] [0;1;2;3]));
  (*4011*) Del (T 366);
  (*4012*) AddTo n_l2new_abab (Plain (Einsum [(T 365,[0;1;2;3]); (T 56,[2;1;4;5])] [3;5;0;4]));
  (*4013*) Del (T 365);
  (*4014*) Assign (T 367) (Plain (Zeros [5;5]));
  (*4015*) AddTo (T 367) (Plain (Einsum [(n_g'aa'bov,[0;1;2]); (n_u11'aa,[0;1;3])] [2;3]));
  (*4016*) SubFrom (T 368) (Plain (Einsum [(T 367,[0;1])] [1;0]));
  (*4017*) AddTo (T 544) (Times (Einsum [(T 367,[0;1])] [1;0]) (-1) 1);
  (*4018*) Del (T 367);
  (*4019*) AddTo (T 368) (Plain (Einsum [(n_f'aa'vv,[0;1])] [0;1]));
  (*4020*) Assign (T 369) (Plain (Zeros [4;4;5;5]));
  (*4021*) AddTo (T 369) (Plain (Einsum [(T 368,[0;1]); (n_l2'aaaa,[0;2;3;4])] [3;4;2;1]));
  (*4022*) Del (T 368);
  (*4023*) SubFrom (T 391) (Plain (Einsum [(T 369,[0;1;2;3])] [1;0;3;2]));
  (*4024*) Del (T 369);
  (*4025*) AddTo (T 373) (Plain (Einsum [(n_f'aa'ov,[0;1])] [0;1]));
  (*4026*) Assign (T 374) (Plain (Zeros [4;4]));
  (*4027*) AddTo (T 374) (Plain (Einsum [(n_t1'aa,[0;1]); (T 373,[2;1])] [0;2]));
  (*4028*) AddTo (T 375) (Plain (Einsum [(T 374,[0;1])] [1;0]));
  (*4029*) Del (T 374);
  (*4030*) Assign (T 386) (Plain (Zeros [4;4;5;5]));
  (*4031*) AddTo (T 386) (Plain (Einsum [(T 373,[0;1]); (T 57,[2;3;0;4])] [2;3;4;1]));
  (*4032*) Del (T 57);
  (*4033*) AddTo (T 391) (Plain (Einsum [(T 386,[0;1;2;3])] [0;1;3;2]));
  (*4034*) Del (T 386);
  (*4035*) AddTo (T 391) (Plain (Einsum [(n_l1'aa,[0;1]); (T 373,[2;3])] [2;1;3;0]));
  (*4036*) Del (T 373);
  (*4037*) AddTo (T 375) (Plain (Einsum [(n_f'aa'oo,[0;1])] [0;1]));
  (*4038*) Assign (T 376) (Plain (Zeros [4;4;5;5]));
  (*4039*) AddTo (T 376) (Plain (Einsum [(T 375,[0;1]); (n_l2'aaaa,[2;3;1;4])] [4;0;2;3]));
  (*4040*) Del (T 375);
  (*4041*) AddTo (T 391) (Plain (Einsum [(T 376,[0;1;2;3])] [1;0;3;2]));
  (*4042*) Del (T 376);
  (*4043*) Assign (T 377) (Plain (Zeros [4;4;4;5]));
  (*4044*) SubFrom (T 377) (Plain (Einsum [(n_v'aaaa'ooov,[0;1;2;3])] [0;2;1;3]));
  (*4045*) AddTo (T 377) (Plain (Einsum [(n_v'aaaa'ooov,[0;1;2;3])] [2;0;1;3]));
  (*4046*) Assign (T 378) (Plain (Zeros [4;4]));
  (*4047*) AddTo (T 378) (Plain (Einsum [(n_t1'aa,[0;1]); (T 377,[2;0;3;1])] [2;3]));
  (*4048*) SubFrom (T 379) (Plain (Einsum [(T 378,[0;1])] [0;1]));
  (*4049*) Del (T 378);
  (*4050*) Assign (T 380) (Plain (Zeros [4;4;5;5]));
  (*4051*) AddTo (T 380) (Plain (Einsum [(T 379,[0;1]); (n_l2'aaaa,[2;3;1;4])] [4;0;2;3]));
  (*4052*) Del (T 379);
  (*4053*) SubFrom (T 391) (Plain (Einsum [(T 380,[0;1;2;3])] [0;1;3;2]));
  (*4054*) Del (T 380);
  (*4055*) SubFrom n_l2new_baba (Plain (Einsum [(T 377,[0;1;2;3]); (T 56,[2;1;4;5])] [5;3;4;0]));
  (*4056*) Del (T 56);
  (*4057*) SubFrom n_lu12new_aa (Plain (Einsum [(T 377,[0;1;2;3]); (T 55,[4;5;2;1])] [5;4;3;0]));
  (*4058*) Del (T 377);
  (*4059*) Del (T 55);
  (*4060*) SubFrom (T 387) (Plain (Einsum [(n_v'aaaa'ooov,[0;1;2;3])] [1;0;2;3]));
  (*4061*) Assign (T 388) (Plain (Zeros [4;4;5;5]));
  (*4062*) AddTo (T 388) (Plain (Einsum [(n_l1'aa,[0;1]); (T 387,[1;2;3;4])] [2;3;0;4]));
  (*4063*) Del (T 387);
  (*4064*) AddTo (T 391) (Plain (Einsum [(T 388,[0;1;2;3])] [0;1;2;3]));
  (*4065*) Del (T 388);
  (*4066*) AddTo n_l2new_aaaa (Plain (Einsum [(T 391,[0;1;2;3])] [2;3;0;1]));
  (*4067*) SubFrom n_l2new_aaaa (Plain (Einsum [(T 391,[0;1;2;3])] [3;2;0;1]));
  (*4068*) SubFrom n_l2new_aaaa (Plain (Einsum [(T 391,[0;1;2;3])] [2;3;1;0]));
  (*4069*) AddTo n_l2new_aaaa (Plain (Einsum [(T 391,[0;1;2;3])] [3;2;1;0]));
  (*4070*) Del (T 391);
  (*4071*) Assign (T 392) (Plain (Zeros [4;4;5;5]));
  (*4072*) AddTo (T 392) (Plain (Einsum [(n_t2'abab,[0;1;2;3]); (n_v'aabb'ovov,[4;5;1;3])] [0;4;2;5]));
  (*4073*) AddTo (T 394) (Plain (Einsum [(T 392,[0;1;2;3])] [0;1;2;3]));
  (*4074*) Assign (T 395) (Plain (Zeros [4;4;5;5]));
  (*4075*) AddTo (T 395) (Plain (Einsum [(T 35,[0;1;2;3]); (T 394,[0;4;2;5])] [1;4;3;5]));
  (*4076*) Del (T 394);
  (*4077*) Del (T 35);
  (*4078*) AddTo (T 415) (Plain (Einsum [(T 395,[0;1;2;3])] [0;1;2;3]));
  (*4079*) Del (T 395);
  (*4080*) AddTo (T 514) (Plain (Einsum [(T 392,[0;1;2;3])] [1;0;2;3]));
  (*4081*) Del (T 392);
  (*4082*) Assign (T 399) (Plain (Zeros [3;3;4;5]));
  (*4083*) AddTo (T 399) (Plain (Einsum [(n_u12'bb,[0;1;2;3]); (n_v'aabb'ovov,[4;5;2;3])] [0;1;4;5]));
  (*4084*) AddTo (T 401) (Plain (Einsum [(T 399,[0;1;2;3])] [1;0;2;3]));
  (*4085*) Del (T 399);
  (*4086*) Assign (T 402) (Plain (Zeros [4;4;5;5]));
  (*4087*) AddTo (T 402) (Times (Einsum [(n_lu12'aa,[0;1;2;3]); (T 401,[0;1;4;5])] [3;4;2;5]) (1) 2);
  (*4088*) AddTo (T 415) (Plain (Einsum [(T 402,[0;1;2;3])] [0;1;2;3]));
  (*4089*) Del (T 402);
  (*4090*) Assign (T 539) (Plain (Zeros [4;6;5;7]));
  (*4091*) AddTo (T 539) (Times (Einsum [(n_lu12'bb,[0;1;2;3]); (T 401,[0;1;4;5])] [4;3;5;2]) (1) 2);
  (*4092*) Del (T 401);
  (*4093*) AddTo n_l2new_baba (Plain (Einsum [(T 539,[0;1;2;3])] [3;2;1;0]));
  (*4094*) AddTo n_l2new_abab (Plain (Einsum [(T 539,[0;1;2;3])] [2;3;0;1]));
  (*4095*) Del (T 539);
  (*4096*) Assign (T 408) (Plain (Zeros [5;5]));
  (*4097*) AddTo (T 408) (Plain (Einsum [(n_t2'abab,[0;1;2;3]); (n_v'aabb'ovov,[0;4;1;3])] [2;4]));
  (*4098*) AddTo (T 410) (Plain (Einsum [(T 408,[0;1])] [0;1]));
  (*4099*) Assign (T 411) (Plain (Zeros [4;4;5;5]));
  (*4100*) AddTo (T 411) (Plain (Einsum [(T 410,[0;1]); (n_l2'aaaa,[0;2;3;4])] [3;4;2;1]));
  (*4101*) Del (T 410);
  (*4102*) AddTo (T 415) (Times (Einsum [(T 411,[0;1;2;3])] [1;0;2;3]) (-1) 1);
  (*4103*) Del (T 411);
  (*4104*) AddTo n_l2new_aaaa (Plain (Einsum [(T 415,[0;1;2;3])] [2;3;0;1]));
  (*4105*) AddTo n_l2new_aaaa (Times (Einsum [(T 415,[0;1;2;3])] [3;2;0;1]) (-1) 1);
  (*4106*) AddTo n_l2new_aaaa (Times (Einsum [(T 415,[0;1;2;3])] [2;3;1;0]) (-1) 1);
  (*4107*) AddTo n_l2new_aaaa (Plain (Einsum [(T 415,[0;1;2;3])] [3;2;1;0]));
  (*4108*) Del (T 415);
  (*4109*) AddTo (T 544) (Times (Einsum [(T 408,[0;1])] [0;1]) (-1) 1);
  (*4110*) Del (T 408);
  (*4111*) Assign (T 416) (Plain (Zeros [4;4;5;5]));
  (*4112*) AddTo (T 416) (Plain (Einsum [(n_l2'aaaa,[0;1;2;3]); (n_v'aaaa'oooo,[4;2;5;3])] [4;5;0;1]));
  (*4113*) Assign (T 418) (Plain (Zeros [4;4;5;5]));
  (*4114*) AddTo (T 418) (Plain (Einsum [(T 416,[0;1;2;3])] [1;0;3;2]));
  (*4115*) Del (T 416);
  (*4116*) Assign (T 417) (Plain (Zeros [4;4;5;5]));
  (*4117*) AddTo (T 417) (Plain (Einsum [(n_l2'aaaa,[0;1;2;3]); (n_v'aaaa'vvvv,[1;4;0;5])] [2;3;5;4]));
  (*4118*) AddTo (T 418) (Plain (Einsum [(T 417,[0;1;2;3])] [1;0;3;2]));
  (*4119*) Del (T 417);
  (*4120*) AddTo n_l2new_aaaa (Times (Einsum [(T 418,[0;1;2;3])] [3;2;0;1]) (-1) 1);
  (*4121*) AddTo n_l2new_aaaa (Plain (Einsum [(T 418,[0;1;2;3])] [2;3;0;1]));
  (*4122*) Del (T 418);
  (*4123*) Assign (T 424) (Plain (Zeros [6;6;7;7]));
  (*4124*) AddTo (T 424) (Plain (Einsum [(n_gc'bb'bov,[0;1;2]); (n_lu11'bb,[0;3;4])] [1;4;2;3]));
  (*4125*) AddTo (T 468) (Plain (Einsum [(T 424,[0;1;2;3])] [0;1;2;3]));
  (*4126*) Del (T 424);
  (*4127*) Assign (T 425) (Plain (Zeros [6;6;7;7]));
  (*4128*) AddTo (T 425) (Plain (Einsum [(n_l1'bb,[0;1]); (n_v'bbbb'ovvv,[2;3;0;4])] [1;2;3;4]));
  (*4129*) SubFrom (T 468) (Plain (Einsum [(T 425,[0;1;2;3])] [0;1;2;3]));
  (*4130*) Del (T 425);
  (*4131*) Assign (T 431) (Plain (Zeros [6;7;7;7]));
  (*4132*) AddTo (T 431) (Plain (Einsum [(n_v'bbbb'ovvv,[0;1;2;3])] [0;2;1;3]));
  (*4133*) SubFrom (T 431) (Plain (Einsum [(n_v'bbbb'ovvv,[0;1;2;3])] [0;2;3;1]));
  (*4134*) Assign (T 432) (Plain (Zeros [6;6;7;7]));
  (*4135*) AddTo (T 432) (Plain (Einsum [(n_t1'bb,[0;1]); (T 431,[2;3;1;4])] [0;2;3;4]));
  (*4136*) Del (T 431);
  (*4137*) Assign (T 433) (Plain (Zeros [6;6;7;7]));
  (*4138*) SubFrom (T 433) (Plain (Einsum [(T 432,[0;1;2;3])] [0;1;2;3]));
  (*4139*) Assign (T 632) (Plain (Zeros [6;6;7;7]));
  (*4140*) SubFrom (T 632) (Plain (Einsum [(T 432,[0;1;2;3])] [1;0;2;3]));
  (*4141*) Del (T 432);
  (*4142*) AddTo (T 433) (Plain (Einsum [(n_v'bbbb'ovvo,[0;1;2;3])] [3;0;2;1]));
  (*4143*) SubFrom (T 433) (Plain (Einsum [(n_v'bbbb'oovv,[0;1;2;3])] [1;0;2;3]));
  (*4144*) Assign (T 434) (Plain (Zeros [6;6;7;7]));
  (*4145*) AddTo (T 434) (Plain (Einsum [(T 338,[0;1;2;3]); (T 433,[0;4;2;5])] [1;4;3;5]));
  (*4146*) Del (T 433);
  (*4147*) Del (T 338);
  (*4148*) AddTo (T 468) (Plain (Einsum [(T 434,[0;1;2;3])] [0;1;2;3]));
  (*4149*) Del (T 434);
  (*4150*) Assign (T 435) (Plain (Zeros [4;4;5;5]));
  (*4151*) AddTo (T 435) (Plain (Einsum [(n_t2'aaaa,[0;1;2;3])] [1;0;2;3]));
  (*4152*) SubFrom (T 435) (Plain (Einsum [(n_t2'aaaa,[0;1;2;3])] [1;0;3;2]));
  (*4153*) Assign (T 436) (Plain (Zeros [4;6;5;7]));
  (*4154*) AddTo (T 436) (Plain (Einsum [(n_v'aabb'ovov,[0;1;2;3]); (T 435,[0;4;1;5])] [4;2;5;3]));
  (*4155*) SubFrom (T 437) (Plain (Einsum [(T 436,[0;1;2;3])] [0;1;2;3]));
  (*4156*) Del (T 436);
  (*4157*) Assign (T 592) (Plain (Zeros [3;4;5]));
  (*4158*) AddTo (T 592) (Plain (Einsum [(n_g'aa'bov,[0;1;2]); (T 435,[1;3;2;4])] [0;3;4]));
  (*4159*) Del (T 435);
  (*4160*) Assign (T 593) (Plain (Zeros [3;4;5]));
  (*4161*) SubFrom (T 593) (Plain (Einsum [(T 592,[0;1;2])] [0;1;2]));
  (*4162*) Del (T 592);
  (*4163*) AddTo (T 437) (Plain (Einsum [(n_v'bbaa'ovvo,[0;1;2;3])] [3;0;2;1]));
  (*4164*) Assign (T 438) (Plain (Zeros [6;6;7;7]));
  (*4165*) AddTo (T 438) (Plain (Einsum [(n_l2'abab,[0;1;2;3]); (T 437,[2;4;0;5])] [3;4;1;5]));
  (*4166*) Del (T 437);
  (*4167*) AddTo (T 468) (Plain (Einsum [(T 438,[0;1;2;3])] [0;1;2;3]));
  (*4168*) Del (T 438);
  (*4169*) Assign (T 440) (Plain (Zeros [6;6;6;7]));
  (*4170*) AddTo (T 440) (Plain (Einsum [(n_v'bbbb'ooov,[0;1;2;3])] [0;2;1;3]));
  (*4171*) SubFrom (T 440) (Plain (Einsum [(n_v'bbbb'ooov,[0;1;2;3])] [2;0;1;3]));
  (*4172*) Assign (T 441) (Plain (Zeros [6;6;7;7]));
  (*4173*) AddTo (T 441) (Plain (Einsum [(T 439,[0;1;2;3]); (T 440,[4;2;1;5])] [0;4;3;5]));
  (*4174*) Del (T 439);
  (*4175*) Del (T 440);
  (*4176*) AddTo (T 468) (Plain (Einsum [(T 441,[0;1;2;3])] [0;1;2;3]));
  (*4177*) Del (T 441);
  (*4178*) Assign (T 442) (Plain (Zeros [7;7]));
  (*4179*) AddTo (T 442) (Plain (Einsum [(n_g'bb'bov,[0;1;2]); (n_u11'bb,[0;1;3])] [2;3]));
  (*4180*) SubFrom (T 443) (Plain (Einsum [(T 442,[0;1])] [1;0]));
  (*4181*) AddTo (T 541) (Times (Einsum [(T 442,[0;1])] [1;0]) (-1) 1);
  (*4182*) Del (T 442);
  (*4183*) AddTo (T 443) (Plain (Einsum [(n_f'bb'vv,[0;1])] [0;1]));
  (*4184*) Assign (T 444) (Plain (Zeros [6;6;7;7]));
  (*4185*) AddTo (T 444) (Plain (Einsum [(T 443,[0;1]); (n_l2'bbbb,[0;2;3;4])] [3;4;2;1]));
  (*4186*) Del (T 443);
  (*4187*) SubFrom (T 468) (Plain (Einsum [(T 444,[0;1;2;3])] [1;0;3;2]));
  (*4188*) Del (T 444);
  (*4189*) AddTo (T 448) (Plain (Einsum [(n_f'bb'ov,[0;1])] [0;1]));
  (*4190*) Assign (T 449) (Plain (Zeros [6;6]));
  (*4191*) AddTo (T 449) (Plain (Einsum [(n_t1'bb,[0;1]); (T 448,[2;1])] [0;2]));
  (*4192*) AddTo (T 450) (Plain (Einsum [(T 449,[0;1])] [1;0]));
  (*4193*) Del (T 449);
  (*4194*) Assign (T 463) (Plain (Zeros [6;6;7;7]));
  (*4195*) AddTo (T 463) (Plain (Einsum [(T 448,[0;1]); (T 194,[2;3;0;4])] [2;3;4;1]));
  (*4196*) Del (T 194);
  (*4197*) AddTo (T 468) (Plain (Einsum [(T 463,[0;1;2;3])] [0;1;3;2]));
  (*4198*) Del (T 463);
  (*4199*) AddTo (T 468) (Plain (Einsum [(n_l1'bb,[0;1]); (T 448,[2;3])] [2;1;3;0]));
  (*4200*) Del (T 448);
  (*4201*) AddTo (T 450) (Plain (Einsum [(n_f'bb'oo,[0;1])] [0;1]));
  (*4202*) Assign (T 451) (Plain (Zeros [6;6;7;7]));
  (*4203*) AddTo (T 451) (Plain (Einsum [(T 450,[0;1]); (n_l2'bbbb,[2;3;1;4])] [4;0;2;3]));
  (*4204*) Del (T 450);
  (*4205*) AddTo (T 468) (Plain (Einsum [(T 451,[0;1;2;3])] [1;0;3;2]));
  (*4206*) Del (T 451);
  (*4207*) Assign (T 452) (Plain (Zeros [6;6;6;7]));
  (*4208*) SubFrom (T 452) (Plain (Einsum [(n_v'bbbb'ooov,[0;1;2;3])] [0;2;1;3]));
  (*4209*) AddTo (T 452) (Plain (Einsum [(n_v'bbbb'ooov,[0;1;2;3])] [2;0;1;3]));
  (*4210*) Assign (T 453) (Plain (Zeros [6;6]));
  (*4211*) AddTo (T 453) (Plain (Einsum [(n_t1'bb,[0;1]); (T 452,[2;0;3;1])] [2;3]));
  (*4212*) SubFrom (T 454) (Plain (Einsum [(T 453,[0;1])] [0;1]));
  (*4213*) Del (T 453);
  (*4214*) Assign (T 455) (Plain (Zeros [6;6;7;7]));
  (*4215*) AddTo (T 455) (Plain (Einsum [(T 454,[0;1]); (n_l2'bbbb,[2;3;1;4])] [4;0;2;3]));
  (*4216*) Del (T 454);
  (*4217*) SubFrom (T 468) (Plain (Einsum [(T 455,[0;1;2;3])] [0;1;3;2]));
  (*4218*) Del (T 455);
  (*4219*) Assign (T 537) (Plain (Zeros [4;6;5;7]));
  (*4220*) AddTo (T 537) (Plain (Einsum [(T 2,[0;1;2;3]); (T 452,[4;2;1;5])] [0;4;3;5]));
  (*4221*) Del (T 2);
  (*4222*) SubFrom n_l2new_baba (Plain (Einsum [(T 537,[0;1;2;3])] [3;2;1;0]));
  (*4223*) SubFrom n_l2new_abab (Plain (Einsum [(T 537,[0;1;2;3])] [2;3;0;1]));
  (*4224*) Del (T 537);
  (*4225*) SubFrom n_lu12new_bb (Plain (Einsum [(T 191,[0;1;2;3]); (T 452,[4;3;2;5])] [1;0;5;4]));
  (*4226*) Del (T 452);
  (*4227*) Del (T 191);
  (*4228*) Assign (T 457) (Plain (Zeros [6;6;7;7]));
  (*4229*) SubFrom (T 457) (Plain (Einsum [(n_v'bbbb'ovov,[0;1;2;3])] [2;0;1;3]));
  (*4230*) AddTo (T 457) (Plain (Einsum [(n_v'bbbb'ovov,[0;1;2;3])] [2;0;3;1]));
  (*4231*) Assign (T 458) (Plain (Zeros [3;6;7]));
  (*4232*) AddTo (T 458) (Plain (Einsum [(n_u11'bb,[0;1;2]); (T 457,[1;3;4;2])] [0;3;4]));
  (*4233*) SubFrom (T 459) (Plain (Einsum [(T 458,[0;1;2])] [0;1;2]));
  (*4234*) Assign (T 460) (Plain (Zeros [6;6;7;7]));
  (*4235*) AddTo (T 460) (Plain (Einsum [(n_lu11'bb,[0;1;2]); (T 459,[0;3;4])] [2;3;1;4]));
  (*4236*) Del (T 459);
  (*4237*) AddTo (T 468) (Plain (Einsum [(T 460,[0;1;2;3])] [0;1;2;3]));
  (*4238*) Del (T 460);
  (*4239*) SubFrom (T 556) (Plain (Einsum [(T 458,[0;1;2])] [0;1;2]));
  (*4240*) Del (T 458);
  (*4241*) Assign (T 466) (Plain (Zeros [6;7]));
  (*4242*) AddTo (T 466) (Plain (Einsum [(n_t1'bb,[0;1]); (T 457,[0;2;3;1])] [2;3]));
  (*4243*) Del (T 457);
  (*4244*) SubFrom (T 467) (Plain (Einsum [(T 466,[0;1])] [0;1]));
  (*4245*) AddTo (T 468) (Plain (Einsum [(n_l1'bb,[0;1]); (T 467,[2;3])] [1;2;0;3]));
  (*4246*) Del (T 467);
  (*4247*) SubFrom (T 564) (Plain (Einsum [(T 466,[0;1])] [0;1]));
  (*4248*) Del (T 466);
  (*4249*) SubFrom (T 464) (Plain (Einsum [(n_v'bbbb'ooov,[0;1;2;3])] [1;0;2;3]));
  (*4250*) Assign (T 465) (Plain (Zeros [6;6;7;7]));
  (*4251*) AddTo (T 465) (Plain (Einsum [(n_l1'bb,[0;1]); (T 464,[1;2;3;4])] [2;3;0;4]));
  (*4252*) Del (T 464);
  (*4253*) AddTo (T 468) (Plain (Einsum [(T 465,[0;1;2;3])] [0;1;2;3]));
  (*4254*) Del (T 465);
  (*4255*) AddTo n_l2new_bbbb (Plain (Einsum [(T 468,[0;1;2;3])] [2;3;0;1]));
  (*4256*) SubFrom n_l2new_bbbb (Plain (Einsum [(T 468,[0;1;2;3])] [3;2;0;1]));
  (*4257*) SubFrom n_l2new_bbbb (Plain (Einsum [(T 468,[0;1;2;3])] [2;3;1;0]));
  (*4258*) AddTo n_l2new_bbbb (Plain (Einsum [(T 468,[0;1;2;3])] [3;2;1;0]));
  (*4259*) Del (T 468);
  (*4260*) Assign (T 475) (Plain (Zeros [3;3;6;7]));
  (*4261*) AddTo (T 475) (Plain (Einsum [(n_u12'aa,[0;1;2;3]); (n_v'aabb'ovov,[2;3;4;5])] [0;1;4;5]));
  (*4262*) AddTo (T 477) (Plain (Einsum [(T 475,[0;1;2;3])] [1;0;2;3]));
  (*4263*) Del (T 475);
  (*4264*) Assign (T 478) (Plain (Zeros [6;6;7;7]));
  (*4265*) AddTo (T 478) (Times (Einsum [(n_lu12'bb,[0;1;2;3]); (T 477,[0;1;4;5])] [3;4;2;5]) (1) 2);
  (*4266*) AddTo (T 492) (Plain (Einsum [(T 478,[0;1;2;3])] [0;1;2;3]));
  (*4267*) Del (T 478);
  (*4268*) Assign (T 538) (Plain (Zeros [4;6;5;7]));
  (*4269*) AddTo (T 538) (Times (Einsum [(n_lu12'aa,[0;1;2;3]); (T 477,[0;1;4;5])] [3;4;2;5]) (1) 2);
  (*4270*) Del (T 477);
  (*4271*) AddTo n_l2new_baba (Plain (Einsum [(T 538,[0;1;2;3])] [3;2;1;0]));
  (*4272*) AddTo n_l2new_abab (Plain (Einsum [(T 538,[0;1;2;3])] [2;3;0;1]));
  (*4273*) Del (T 538);
  (*4274*) Assign (T 485) (Plain (Zeros [7;7]));
  (*4275*) AddTo (T 485) (Plain (Einsum [(n_t2'abab,[0;1;2;3]); (n_v'aabb'ovov,[0;2;1;4])] [3;4]));
  (*4276*) AddTo (T 487) (Plain (Einsum [(T 485,[0;1])] [0;1]));
  (*4277*) Assign (T 488) (Plain (Zeros [6;6;7;7]));
  (*4278*) AddTo (T 488) (Plain (Einsum [(T 487,[0;1]); (n_l2'bbbb,[0;2;3;4])] [3;4;2;1]));
  (*4279*) Del (T 487);
  (*4280*) AddTo (T 492) (Times (Einsum [(T 488,[0;1;2;3])] [1;0;2;3]) (-1) 1);
  (*4281*) Del (T 488);
  (*4282*) AddTo n_l2new_bbbb (Plain (Einsum [(T 492,[0;1;2;3])] [2;3;0;1]));
  (*4283*) AddTo n_l2new_bbbb (Times (Einsum [(T 492,[0;1;2;3])] [3;2;0;1]) (-1) 1);
  (*4284*) AddTo n_l2new_bbbb (Times (Einsum [(T 492,[0;1;2;3])] [2;3;1;0]) (-1) 1);
  (*4285*) AddTo n_l2new_bbbb (Plain (Einsum [(T 492,[0;1;2;3])] [3;2;1;0]));
  (*4286*) Del (T 492);
  (*4287*) AddTo (T 541) (Times (Einsum [(T 485,[0;1])] [0;1]) (-1) 1);
  (*4288*) Del (T 485);
  (*4289*) Assign (T 493) (Plain (Zeros [6;6;7;7]));
  (*4290*) AddTo (T 493) (Plain (Einsum [(n_l2'bbbb,[0;1;2;3]); (n_v'bbbb'oooo,[4;2;5;3])] [4;5;0;1]));
  (*4291*) Assign (T 495) (Plain (Zeros [6;6;7;7]));
  (*4292*) AddTo (T 495) (Plain (Einsum [(T 493,[0;1;2;3])] [1;0;3;2]));
  (*4293*) Del (T 493);
  (*4294*) Assign (T 494) (Plain (Zeros [6;6;7;7]));
  (*4295*) AddTo (T 494) (Plain (Einsum [(n_l2'bbbb,[0;1;2;3]); (n_v'bbbb'vvvv,[1;4;0;5])] [2;3;5;4]));
  (*4296*) AddTo (T 495) (Plain (Einsum [(T 494,[0;1;2;3])] [1;0;3;2]));
  (*4297*) Del (T 494);
  (*4298*) AddTo n_l2new_bbbb (Times (Einsum [(T 495,[0;1;2;3])] [3;2;0;1]) (-1) 1);
  (*4299*) AddTo n_l2new_bbbb (Plain (Einsum [(T 495,[0;1;2;3])] [2;3;0;1]));
  (*4300*) Del (T 495);
  (*4301*) Assign (T 502) (Plain (Zeros [4;6;5;7]));
  (*4302*) AddTo (T 502) (Plain (Einsum [(n_l2'abab,[0;1;2;3]); (n_v'aabb'vvvv,[0;4;1;5])] [2;3;4;5]));
  (*4303*) AddTo n_l2new_baba (Plain (Einsum [(T 502,[0;1;2;3])] [3;2;1;0]));
  (*4304*) AddTo n_l2new_abab (Plain (Einsum [(T 502,[0;1;2;3])] [2;3;0;1]));
  (*4305*) Del (T 502);
  (*4306*) Assign (T 503) (Plain (Zeros [4;6;5;7]));
  (*4307*) AddTo (T 503) (Plain (Einsum [(n_l1'aa,[0;1]); (n_v'bbaa'ovvv,[2;3;0;4])] [1;2;4;3]));
  (*4308*) AddTo n_l2new_baba (Plain (Einsum [(T 503,[0;1;2;3])] [3;2;1;0]));
  (*4309*) AddTo n_l2new_abab (Plain (Einsum [(T 503,[0;1;2;3])] [2;3;0;1]));
  (*4310*) Del (T 503);
  (*4311*) Assign (T 505) (Plain (Zeros [4;6;5;7]));
  (*4312*) AddTo (T 505) (Plain (Einsum [(n_l1'bb,[0;1]); (n_v'aabb'ovvv,[2;3;0;4])] [2;1;3;4]));
  (*4313*) AddTo n_l2new_baba (Plain (Einsum [(T 505,[0;1;2;3])] [3;2;1;0]));
  (*4314*) AddTo n_l2new_abab (Plain (Einsum [(T 505,[0;1;2;3])] [2;3;0;1]));
  (*4315*) Del (T 505);
  (*4316*) AddTo (T 508) (Plain (Einsum [(n_v'bbaa'ovvo,[0;1;2;3])] [3;0;2;1]));
  (*4317*) Assign (T 509) (Plain (Zeros [4;6;5;7]));
  (*4318*) AddTo (T 509) (Plain (Einsum [(T 246,[0;1;2;3]); (T 508,[0;4;2;5])] [1;4;3;5]));
  (*4319*) Del (T 508);
  (*4320*) Del (T 246);
  (*4321*) AddTo n_l2new_baba (Times (Einsum [(T 509,[0;1;2;3])] [3;2;1;0]) (-1) 1);
  (*4322*) AddTo n_l2new_abab (Times (Einsum [(T 509,[0;1;2;3])] [2;3;0;1]) (-1) 1);
  (*4323*) Del (T 509);
  (*4324*) AddTo (T 512) (Plain (Einsum [(n_v'aabb'ovvo,[0;1;2;3])] [0;3;1;2]));
  (*4325*) AddTo n_l2new_baba (Plain (Einsum [(T 297,[0;1;2;3]); (T 512,[4;0;5;3])] [2;5;1;4]));
  (*4326*) Del (T 297);
  (*4327*) AddTo n_l2new_abab (Times (Einsum [(T 288,[0;1;2;3]); (T 512,[4;0;5;3])] [5;2;4;1]) (-1) 1);
  (*4328*) Del (T 512);
  (*4329*) Del (T 288);
  (*4330*) AddTo (T 514) (Plain (Einsum [(n_v'aaaa'ovvo,[0;1;2;3])] [0;3;2;1]));
  (*4331*) AddTo (T 514) (Times (Einsum [(n_v'aaaa'oovv,[0;1;2;3])] [0;1;2;3]) (-1) 1);
  (*4332*) Assign (T 515) (Plain (Zeros [4;6;5;7]));
  (*4333*) AddTo (T 515) (Plain (Einsum [(n_l2'abab,[0;1;2;3]); (T 514,[4;2;0;5])] [4;3;5;1]));
  (*4334*) Del (T 514);
  (*4335*) AddTo n_l2new_baba (Plain (Einsum [(T 515,[0;1;2;3])] [3;2;1;0]));
  (*4336*) AddTo n_l2new_abab (Plain (Einsum [(T 515,[0;1;2;3])] [2;3;0;1]));
  (*4337*) Del (T 515);
  (*4338*) Assign (T 516) (Plain (Zeros [6;6;7;7]));
  (*4339*) AddTo (T 516) (Plain (Einsum [(n_t2'abab,[0;1;2;3]); (n_v'aabb'ovov,[0;2;4;5])] [1;4;3;5]));
  (*4340*) AddTo (T 519) (Plain (Einsum [(T 516,[0;1;2;3])] [1;0;2;3]));
  (*4341*) Del (T 516);
  (*4342*) AddTo (T 519) (Plain (Einsum [(n_v'bbbb'ovvo,[0;1;2;3])] [0;3;2;1]));
  (*4343*) AddTo (T 519) (Times (Einsum [(n_v'bbbb'oovv,[0;1;2;3])] [0;1;2;3]) (-1) 1);
  (*4344*) Assign (T 520) (Plain (Zeros [4;6;5;7]));
  (*4345*) AddTo (T 520) (Plain (Einsum [(n_l2'abab,[0;1;2;3]); (T 519,[4;3;1;5])] [2;4;0;5]));
  (*4346*) Del (T 519);
  (*4347*) AddTo n_l2new_baba (Plain (Einsum [(T 520,[0;1;2;3])] [3;2;1;0]));
  (*4348*) AddTo n_l2new_abab (Plain (Einsum [(T 520,[0;1;2;3])] [2;3;0;1]));
  (*4349*) Del (T 520);
  (*4350*) Assign (T 521) (Plain (Zeros [4;4;7;7]));
  (*4351*) AddTo (T 521) (Plain (Einsum [(n_t1'aa,[0;1]); (n_v'aabb'ovvv,[2;1;3;4])] [0;2;3;4]));
  (*4352*) Assign (T 523) (Plain (Zeros [4;4;7;7]));
  (*4353*) AddTo (T 523) (Plain (Einsum [(T 521,[0;1;2;3])] [1;0;2;3]));
  (*4354*) Del (T 521);
  (*4355*) Assign (T 522) (Plain (Zeros [4;4;7;7]));
  (*4356*) AddTo (T 522) (Plain (Einsum [(n_t2'abab,[0;1;2;3]); (n_v'aabb'ovov,[4;2;1;5])] [0;4;3;5]));
  (*4357*) AddTo (T 523) (Times (Einsum [(T 522,[0;1;2;3])] [1;0;2;3]) (-1) 1);
  (*4358*) Del (T 522);
  (*4359*) AddTo (T 523) (Plain (Einsum [(n_v'aabb'oovv,[0;1;2;3])] [0;1;2;3]));
  (*4360*) Assign (T 524) (Plain (Zeros [4;6;5;7]));
  (*4361*) AddTo (T 524) (Plain (Einsum [(n_l2'abab,[0;1;2;3]); (T 523,[4;2;1;5])] [4;3;0;5]));
  (*4362*) Del (T 523);
  (*4363*) AddTo n_l2new_baba (Times (Einsum [(T 524,[0;1;2;3])] [3;2;1;0]) (-1) 1);
  (*4364*) AddTo n_l2new_abab (Times (Einsum [(T 524,[0;1;2;3])] [2;3;0;1]) (-1) 1);
  (*4365*) Del (T 524);
  (*4366*) Assign (T 525) (Plain (Zeros [6;6;5;5]));
  (*4367*) AddTo (T 525) (Plain (Einsum [(n_t2'abab,[0;1;2;3]); (n_v'aabb'ovov,[0;4;5;3])] [1;5;2;4]));
  (*4368*) AddTo (T 526) (Times (Einsum [(T 525,[0;1;2;3])] [1;0;2;3]) (-1) 1);
  (*4369*) Del (T 525);
  (*4370*) AddTo (T 526) (Plain (Einsum [(n_v'bbaa'oovv,[0;1;2;3])] [0;1;2;3]));
  (*4371*) Assign (T 527) (Plain (Zeros [4;6;5;7]));
  (*4372*) AddTo (T 527) (Plain (Einsum [(n_l2'abab,[0;1;2;3]); (T 526,[4;3;0;5])] [2;4;5;1]));
  (*4373*) Del (T 526);
  (*4374*) AddTo n_l2new_baba (Times (Einsum [(T 527,[0;1;2;3])] [3;2;1;0]) (-1) 1);
  (*4375*) AddTo n_l2new_abab (Times (Einsum [(T 527,[0;1;2;3])] [2;3;0;1]) (-1) 1);
  (*4376*) Del (T 527);
  (*4377*) AddTo (T 529) (Plain (Einsum [(n_v'aabb'oooo,[0;1;2;3])] [0;1;2;3]));
  (*4378*) Assign (T 530) (Plain (Zeros [4;6;5;7]));
  (*4379*) AddTo (T 530) (Plain (Einsum [(n_l2'abab,[0;1;2;3]); (T 529,[4;2;5;3])] [4;5;0;1]));
  (*4380*) Del (T 529);
  (*4381*) AddTo n_l2new_baba (Plain (Einsum [(T 530,[0;1;2;3])] [3;2;1;0]));
  (*4382*) AddTo n_l2new_abab (Plain (Einsum [(T 530,[0;1;2;3])] [2;3;0;1]));
  (*4383*) Del (T 530);
  (*4384*) AddTo (T 541) (Plain (Einsum [(n_f'bb'vv,[0;1])] [0;1]));
  (*4385*) Assign (T 542) (Plain (Zeros [4;6;5;7]));
  (*4386*) AddTo (T 542) (Plain (Einsum [(T 541,[0;1]); (n_l2'abab,[2;0;3;4])] [3;4;2;1]));
  (*4387*) AddTo n_l2new_baba (Plain (Einsum [(T 542,[0;1;2;3])] [3;2;1;0]));
  (*4388*) AddTo n_l2new_abab (Plain (Einsum [(T 542,[0;1;2;3])] [2;3;0;1]));
  (*4389*) Del (T 542);
  (*4390*) AddTo (T 572) (Times (Einsum [(T 541,[0;1]); (n_u11'bb,[2;3;1])] [2;3;0]) (-1) 1);
  (*4391*) AddTo n_lu12new_bb (Plain (Einsum [(T 541,[0;1]); (n_lu12'bb,[2;3;0;4])] [3;2;1;4]));
  (*4392*) Del (T 541);
  (*4393*) AddTo (T 544) (Plain (Einsum [(n_f'aa'vv,[0;1])] [0;1]));
  (*4394*) Assign (T 545) (Plain (Zeros [4;6;5;7]));
  (*4395*) AddTo (T 545) (Plain (Einsum [(T 544,[0;1]); (n_l2'abab,[0;2;3;4])] [3;4;1;2]));
  (*4396*) AddTo n_l2new_baba (Plain (Einsum [(T 545,[0;1;2;3])] [3;2;1;0]));
  (*4397*) AddTo n_l2new_abab (Plain (Einsum [(T 545,[0;1;2;3])] [2;3;0;1]));
  (*4398*) Del (T 545);
  (*4399*) AddTo (T 576) (Times (Einsum [(T 544,[0;1]); (n_u11'aa,[2;3;1])] [2;3;0]) (-1) 1);
  (*4400*) AddTo n_lu12new_aa (Plain (Einsum [(T 544,[0;1]); (n_lu12'aa,[2;3;0;4])] [3;2;1;4]));
  (*4401*) Del (T 544);
  (*4402*) AddTo (T 554) (Plain (Einsum [(n_gc'aa'bov,[0;1;2])] [0;1;2]));
  (*4403*) Assign (T 555) (Plain (Zeros [4;6;5;7]));
  (*4404*) AddTo (T 555) (Plain (Einsum [(n_lu11'bb,[0;1;2]); (T 554,[0;3;4])] [3;2;4;1]));
  (*4405*) Del (T 554);
  (*4406*) AddTo n_l2new_baba (Plain (Einsum [(T 555,[0;1;2;3])] [3;2;1;0]));
  (*4407*) AddTo n_l2new_abab (Plain (Einsum [(T 555,[0;1;2;3])] [2;3;0;1]));
  (*4408*) Del (T 555);
  (*4409*) AddTo (T 556) (Plain (Einsum [(n_gc'bb'bov,[0;1;2])] [0;1;2]));
  (*4410*) Assign (T 557) (Plain (Zeros [4;6;5;7]));
  (*4411*) AddTo (T 557) (Plain (Einsum [(n_lu11'aa,[0;1;2]); (T 556,[0;3;4])] [2;3;1;4]));
  (*4412*) Del (T 556);
  (*4413*) AddTo n_l2new_baba (Plain (Einsum [(T 557,[0;1;2;3])] [3;2;1;0]));
  (*4414*) AddTo n_l2new_abab (Plain (Einsum [(T 557,[0;1;2;3])] [2;3;0;1]));
  (*4415*) Del (T 557);
  (*4416*) AddTo (T 560) (Plain (Einsum [(n_v'aabb'ooov,[0;1;2;3])] [0;1;2;3]));
  (*4417*) Assign (T 561) (Plain (Zeros [4;6;5;7]));
  (*4418*) AddTo (T 561) (Plain (Einsum [(n_l1'aa,[0;1]); (T 560,[2;1;3;4])] [2;3;0;4]));
  (*4419*) Del (T 560);
  (*4420*) SubFrom n_l2new_baba (Plain (Einsum [(T 561,[0;1;2;3])] [3;2;1;0]));
  (*4421*) SubFrom n_l2new_abab (Plain (Einsum [(T 561,[0;1;2;3])] [2;3;0;1]));
  (*4422*) Del (T 561);
  (*4423*) AddTo (T 562) (Plain (Einsum [(n_v'aabb'ovoo,[0;1;2;3])] [0;2;3;1]));
  (*4424*) Assign (T 563) (Plain (Zeros [4;6;5;7]));
  (*4425*) AddTo (T 563) (Plain (Einsum [(n_l1'bb,[0;1]); (T 562,[2;3;1;4])] [2;3;4;0]));
  (*4426*) Del (T 562);
  (*4427*) SubFrom n_l2new_baba (Plain (Einsum [(T 563,[0;1;2;3])] [3;2;1;0]));
  (*4428*) SubFrom n_l2new_abab (Plain (Einsum [(T 563,[0;1;2;3])] [2;3;0;1]));
  (*4429*) Del (T 563);
  (*4430*) AddTo (T 564) (Plain (Einsum [(n_f'bb'ov,[0;1])] [0;1]));
  (*4431*) AddTo (T 579) (Plain (Einsum [(T 564,[0;1]); (n_u11'bb,[2;0;1])] [2]));
  (*4432*) AddTo n_l2new_baba (Plain (Einsum [(n_l1'aa,[0;1]); (T 564,[2;3])] [3;0;2;1]));
  (*4433*) AddTo n_l2new_abab (Plain (Einsum [(n_l1'aa,[0;1]); (T 564,[2;3])] [0;3;1;2]));
  (*4434*) Del (T 564);
  (*4435*) AddTo (T 565) (Plain (Einsum [(n_f'aa'ov,[0;1])] [0;1]));
  (*4436*) AddTo (T 579) (Plain (Einsum [(T 565,[0;1]); (n_u11'aa,[2;0;1])] [2]));
  (*4437*) AddTo n_l2new_baba (Plain (Einsum [(n_l1'bb,[0;1]); (T 565,[2;3])] [0;3;1;2]));
  (*4438*) AddTo n_l2new_abab (Plain (Einsum [(n_l1'bb,[0;1]); (T 565,[2;3])] [3;0;2;1]));
  (*4439*) Del (T 565);
  (*4440*) AddTo (T 569) (Plain (Einsum [(n_gc'bb'bvv,[0;1;2])] [0;1;2]));
  (*4441*) AddTo (T 572) (Times (Einsum [(n_t1'bb,[0;1]); (T 569,[2;3;1])] [2;0;3]) (-1) 1);
  (*4442*) Del (T 569);
  (*4443*) Assign (T 570) (Plain (Zeros [3;6;7]));
  (*4444*) AddTo (T 570) (Plain (Einsum [(n_t1'bb,[0;1]); (n_g'bb'bvv,[2;3;1])] [2;0;3]));
  (*4445*) Assign (T 571) (Plain (Zeros [3;6;7]));
  (*4446*) AddTo (T 571) (Plain (Einsum [(T 570,[0;1;2])] [0;1;2]));
  (*4447*) AddTo (T 597) (Plain (Einsum [(T 570,[0;1;2])] [0;1;2]));
  (*4448*) Del (T 570);
  (*4449*) AddTo (T 571) (Plain (Einsum [(n_g'bb'bvo,[0;1;2])] [0;2;1]));
  (*4450*) AddTo (T 572) (Times (Einsum [(n_s2,[0;1]); (T 571,[0;2;3])] [1;2;3]) (-1) 1);
  (*4451*) Del (T 571);
  (*4452*) AddTo (T 572) (Times (Einsum [(n_gc'bb'bvo,[0;1;2])] [0;2;1]) (-1) 1);
  (*4453*) AddTo (T 572) (Times (Einsum [(n_g'bb'bvv,[0;1;2]); (n_u12'bb,[0;3;4;2])] [3;4;1]) (-1) 1);
  (*4454*) AddTo (T 572) (Times (Einsum [(n_u11'aa,[0;1;2]); (n_v'aabb'ovvo,[1;2;3;4])] [0;4;3]) (-1) 1);
  (*4455*) AddTo n_ls1new (Times (Einsum [(T 572,[0;1;2]); (n_lu12'bb,[0;3;2;1])] [3]) (-1) 1);
  (*4456*) Del (T 572);
  (*4457*) AddTo (T 573) (Plain (Einsum [(n_gc'aa'bvv,[0;1;2])] [0;1;2]));
  (*4458*) AddTo (T 576) (Times (Einsum [(n_t1'aa,[0;1]); (T 573,[2;3;1])] [2;0;3]) (-1) 1);
  (*4459*) Del (T 573);
  (*4460*) Assign (T 574) (Plain (Zeros [3;4;5]));
  (*4461*) AddTo (T 574) (Plain (Einsum [(n_t1'aa,[0;1]); (n_g'aa'bvv,[2;3;1])] [2;0;3]));
  (*4462*) Assign (T 575) (Plain (Zeros [3;4;5]));
  (*4463*) AddTo (T 575) (Plain (Einsum [(T 574,[0;1;2])] [0;1;2]));
  (*4464*) AddTo (T 593) (Plain (Einsum [(T 574,[0;1;2])] [0;1;2]));
  (*4465*) Del (T 574);
  (*4466*) AddTo (T 575) (Plain (Einsum [(n_g'aa'bvo,[0;1;2])] [0;2;1]));
  (*4467*) AddTo (T 576) (Times (Einsum [(n_s2,[0;1]); (T 575,[0;2;3])] [1;2;3]) (-1) 1);
  (*4468*) Del (T 575);
  (*4469*) AddTo (T 576) (Times (Einsum [(n_gc'aa'bvo,[0;1;2])] [0;2;1]) (-1) 1);
  (*4470*) AddTo (T 576) (Times (Einsum [(n_g'aa'bvv,[0;1;2]); (n_u12'aa,[0;3;4;2])] [3;4;1]) (-1) 1);
  (*4471*) AddTo (T 576) (Times (Einsum [(n_u11'bb,[0;1;2]); (n_v'bbaa'ovvo,[1;2;3;4])] [0;4;3]) (-1) 1);
  (*4472*) AddTo n_ls1new (Times (Einsum [(T 576,[0;1;2]); (n_lu12'aa,[0;3;2;1])] [3]) (-1) 1);
  (*4473*) Del (T 576);
  (*4474*) AddTo (T 578) (Plain (Einsum [(n_G,[0])] [0]));
  (*4475*) AddTo (T 579) (Plain (Einsum [(T 578,[0]); (n_s2,[0;1])] [1]));
  (*4476*) AddTo (T 606) (Plain (Einsum [(n_ls1,[0]); (T 578,[1])] [1;0]));
  (*4477*) Del (T 578);
  (*4478*) AddTo (T 579) (Plain (Einsum [(n_G,[0])] [0]));
  (*4479*) AddTo n_ls1new (Plain (Einsum [(T 579,[0]); (n_ls2,[0;1])] [1]));
  (*4480*) Del (T 579);
  (*4481*) Assign (T 580) (Plain (Zeros [3;3]));
  (*4482*) AddTo (T 580) (Plain (Einsum [(n_ls2,[0;1]); (n_w,[2;1])] [0;2]));
  (*4483*) AddTo (T 606) (Plain (Einsum [(T 580,[0;1])] [0;1]));
  (*4484*) Del (T 580);
  (*4485*) Assign (T 581) (Plain (Zeros [3;5;5]));
  (*4486*) AddTo (T 581) (Plain (Einsum [(n_u11'aa,[0;1;2]); (n_lu12'aa,[0;3;4;1])] [3;4;2]));
  (*4487*) Assign (T 582) (Plain (Zeros [3;3]));
  (*4488*) AddTo (T 582) (Plain (Einsum [(n_g'aa'bvv,[0;1;2]); (T 581,[3;1;2])] [0;3]));
  (*4489*) AddTo (T 606) (Plain (Einsum [(T 582,[0;1])] [0;1]));
  (*4490*) Del (T 582);
  (*4491*) Assign (T 609) (Plain (Zeros [3;3;4;5]));
  (*4492*) AddTo (T 609) (Plain (Einsum [(n_g'aa'bov,[0;1;2]); (T 581,[3;4;2])] [0;3;1;4]));
  (*4493*) Del (T 581);
  (*4494*) AddTo (T 613) (Plain (Einsum [(T 609,[0;1;2;3])] [0;1;2;3]));
  (*4495*) Del (T 609);
  (*4496*) Assign (T 584) (Plain (Zeros [3;7;7]));
  (*4497*) AddTo (T 584) (Plain (Einsum [(n_u11'bb,[0;1;2]); (n_lu12'bb,[3;0;4;1])] [3;4;2]));
  (*4498*) Assign (T 585) (Plain (Zeros [3;3]));
  (*4499*) AddTo (T 585) (Plain (Einsum [(n_g'bb'bvv,[0;1;2]); (T 584,[3;1;2])] [0;3]));
  (*4500*) AddTo (T 606) (Plain (Einsum [(T 585,[0;1])] [0;1]));
  (*4501*) Del (T 585);
  (*4502*) Assign (T 627) (Plain (Zeros [3;3;6;7]));
  (*4503*) AddTo (T 627) (Plain (Einsum [(n_g'bb'bov,[0;1;2]); (T 584,[3;4;2])] [0;3;1;4]));
  (*4504*) Del (T 584);
  (*4505*) AddTo (T 631) (Plain (Einsum [(T 627,[0;1;2;3])] [0;1;2;3]));
  (*4506*) Del (T 627);
  (*4507*) Assign (T 591) (Plain (Zeros [3;4;5]));
  (*4508*) AddTo (T 591) (Plain (Einsum [(n_g'bb'bov,[0;1;2]); (n_t2'abab,[3;1;4;2])] [0;3;4]));
  (*4509*) AddTo (T 593) (Plain (Einsum [(T 591,[0;1;2])] [0;1;2]));
  (*4510*) Del (T 591);
  (*4511*) AddTo (T 593) (Plain (Einsum [(n_g'aa'bvo,[0;1;2])] [0;2;1]));
  (*4512*) Assign (T 594) (Plain (Zeros [3;3]));
  (*4513*) AddTo (T 594) (Plain (Einsum [(n_lu11'aa,[0;1;2]); (T 593,[3;2;1])] [0;3]));
  (*4514*) Del (T 593);
  (*4515*) AddTo (T 606) (Plain (Einsum [(T 594,[0;1])] [1;0]));
  (*4516*) Del (T 594);
  (*4517*) Assign (T 595) (Plain (Zeros [3;6;7]));
  (*4518*) AddTo (T 595) (Plain (Einsum [(n_g'aa'bov,[0;1;2]); (n_t2'abab,[1;3;2;4])] [0;3;4]));
  (*4519*) AddTo (T 597) (Plain (Einsum [(T 595,[0;1;2])] [0;1;2]));
  (*4520*) Del (T 595);
  (*4521*) AddTo (T 597) (Plain (Einsum [(n_g'bb'bvo,[0;1;2])] [0;2;1]));
  (*4522*) Assign (T 598) (Plain (Zeros [3;3]));
  (*4523*) AddTo (T 598) (Plain (Einsum [(n_lu11'bb,[0;1;2]); (T 597,[3;2;1])] [0;3]));
  (*4524*) Del (T 597);
  (*4525*) AddTo (T 606) (Plain (Einsum [(T 598,[0;1])] [1;0]));
  (*4526*) Del (T 598);
  (*4527*) AddTo (T 599) (Plain (Einsum [(n_g'aa'boo,[0;1;2])] [0;1;2]));
  (*4528*) Assign (T 600) (Plain (Zeros [3;3]));
  (*4529*) AddTo (T 600) (Plain (Einsum [(T 168,[0;1;2]); (T 599,[3;2;1])] [0;3]));
  (*4530*) Del (T 168);
  (*4531*) SubFrom (T 606) (Plain (Einsum [(T 600,[0;1])] [1;0]));
  (*4532*) Del (T 600);
  (*4533*) Assign (T 601) (Plain (Zeros [3;3]));
  (*4534*) AddTo (T 601) (Plain (Einsum [(T 169,[0;1;2]); (T 599,[3;2;1])] [0;3]));
  (*4535*) Del (T 169);
  (*4536*) SubFrom (T 606) (Plain (Einsum [(T 601,[0;1])] [1;0]));
  (*4537*) Del (T 601);
  (*4538*) Assign (T 610) (Plain (Zeros [3;3;4;5]));
  (*4539*) AddTo (T 610) (Plain (Einsum [(n_lu11'aa,[0;1;2]); (T 599,[3;4;2])] [0;3;4;1]));
  (*4540*) Del (T 599);
  (*4541*) AddTo (T 613) (Plain (Einsum [(T 610,[0;1;2;3])] [1;0;2;3]));
  (*4542*) Del (T 610);
  (*4543*) AddTo (T 602) (Plain (Einsum [(n_g'bb'boo,[0;1;2])] [0;1;2]));
  (*4544*) Assign (T 603) (Plain (Zeros [3;3]));
  (*4545*) AddTo (T 603) (Plain (Einsum [(T 197,[0;1;2]); (T 602,[3;2;1])] [0;3]));
  (*4546*) Del (T 197);
  (*4547*) SubFrom (T 606) (Plain (Einsum [(T 603,[0;1])] [1;0]));
  (*4548*) Del (T 603);
  (*4549*) AddTo n_ls2new (Plain (Einsum [(T 606,[0;1])] [0;1]));
  (*4550*) AddTo n_ls2new (Plain (Einsum [(T 606,[0;1])] [1;0]));
  (*4551*) Del (T 606);
  (*4552*) Assign (T 628) (Plain (Zeros [3;3;6;7]));
  (*4553*) AddTo (T 628) (Plain (Einsum [(n_lu11'bb,[0;1;2]); (T 602,[3;4;2])] [0;3;4;1]));
  (*4554*) Del (T 602);
  (*4555*) AddTo (T 631) (Plain (Einsum [(T 628,[0;1;2;3])] [1;0;2;3]));
  (*4556*) Del (T 628);
  (*4557*) Assign (T 607) (Plain (Zeros [3;3;4;5]));
  (*4558*) AddTo (T 607) (Plain (Einsum [(n_w,[0;1]); (n_lu12'aa,[1;2;3;4])] [2;0;4;3]));
  (*4559*) SubFrom (T 613) (Plain (Einsum [(T 607,[0;1;2;3])] [0;1;2;3]));
  (*4560*) Del (T 607);
  (*4561*) Assign (T 608) (Plain (Zeros [3;3;4;5]));
  (*4562*) AddTo (T 608) (Plain (Einsum [(n_g'aa'bvv,[0;1;2]); (n_lu11'aa,[3;1;4])] [0;3;4;2]));
  (*4563*) SubFrom (T 613) (Plain (Einsum [(T 608,[0;1;2;3])] [0;1;2;3]));
  (*4564*) Del (T 608);
  (*4565*) SubFrom n_lu12new_aa (Plain (Einsum [(T 613,[0;1;2;3])] [0;1;3;2]));
  (*4566*) SubFrom n_lu12new_aa (Plain (Einsum [(T 613,[0;1;2;3])] [1;0;3;2]));
  (*4567*) Del (T 613);
  (*4568*) Assign (T 614) (Plain (Zeros [3;3;4;5]));
  (*4569*) AddTo (T 614) (Plain (Einsum [(n_lu12'bb,[0;1;2;3]); (n_t2'abab,[4;3;5;2])] [0;1;4;5]));
  (*4570*) AddTo (T 616) (Plain (Einsum [(T 614,[0;1;2;3])] [1;0;2;3]));
  (*4571*) Del (T 614);
  (*4572*) AddTo n_lu12new_aa (Times (Einsum [(T 13,[0;1;2;3]); (T 616,[4;5;0;2])] [5;4;3;1]) (-1) 1);
  (*4573*) Del (T 13);
  (*4574*) AddTo n_lu12new_bb (Plain (Einsum [(n_v'aabb'ovov,[0;1;2;3]); (T 616,[4;5;0;1])] [5;4;3;2]));
  (*4575*) Del (T 616);
  (*4576*) AddTo (T 617) (Plain (Einsum [(n_v'aaaa'ovvo,[0;1;2;3])] [0;3;2;1]));
  (*4577*) SubFrom (T 617) (Plain (Einsum [(n_v'aaaa'oovv,[0;1;2;3])] [0;1;2;3]));
  (*4578*) AddTo n_lu12new_aa (Plain (Einsum [(n_lu12'aa,[0;1;2;3]); (T 617,[4;3;2;5])] [1;0;5;4]));
  (*4579*) Del (T 617);
  (*4580*) Assign (T 618) (Plain (Zeros [3;3;6;7]));
  (*4581*) AddTo (T 618) (Plain (Einsum [(n_lu12'aa,[0;1;2;3]); (n_t2'abab,[3;4;2;5])] [0;1;4;5]));
  (*4582*) AddTo (T 620) (Plain (Einsum [(T 618,[0;1;2;3])] [1;0;2;3]));
  (*4583*) Del (T 618);
  (*4584*) AddTo n_lu12new_aa (Plain (Einsum [(n_v'aabb'ovov,[0;1;2;3]); (T 620,[4;5;2;3])] [5;4;1;0]));
  (*4585*) AddTo n_lu12new_bb (Times (Einsum [(T 620,[0;1;2;3]); (T 94,[2;4;5;3])] [1;0;5;4]) (-1) 1);
  (*4586*) Del (T 620);
  (*4587*) Del (T 94);
  (*4588*) AddTo (T 621) (Plain (Einsum [(n_v'aabb'ovvo,[0;1;2;3])] [0;3;1;2]));
  (*4589*) AddTo n_lu12new_aa (Plain (Einsum [(n_lu12'bb,[0;1;2;3]); (T 621,[4;3;5;2])] [1;0;5;4]));
  (*4590*) Del (T 621);
  (*4591*) Assign (T 622) (Plain (Zeros [3;3;3]));
  (*4592*) AddTo (T 622) (Plain (Einsum [(n_u11'aa,[0;1;2]); (n_lu12'aa,[3;4;2;1])] [3;4;0]));
  (*4593*) Assign (T 624) (Plain (Zeros [3;3;3]));
  (*4594*) AddTo (T 624) (Plain (Einsum [(T 622,[0;1;2])] [1;0;2]));
  (*4595*) Del (T 622);
  (*4596*) Assign (T 623) (Plain (Zeros [3;3;3]));
  (*4597*) AddTo (T 623) (Plain (Einsum [(n_u11'bb,[0;1;2]); (n_lu12'bb,[3;4;2;1])] [3;4;0]));
  (*4598*) AddTo (T 624) (Plain (Einsum [(T 623,[0;1;2])] [1;0;2]));
  (*4599*) Del (T 623);
  (*4600*) AddTo n_lu12new_aa (Plain (Einsum [(n_g'aa'bov,[0;1;2]); (T 624,[3;4;0])] [4;3;2;1]));
  (*4601*) AddTo n_lu12new_bb (Plain (Einsum [(n_g'bb'bov,[0;1;2]); (T 624,[3;4;0])] [4;3;2;1]));
  (*4602*) Del (T 624);
  (*4603*) Assign (T 625) (Plain (Zeros [3;3;6;7]));
  (*4604*) AddTo (T 625) (Plain (Einsum [(n_w,[0;1]); (n_lu12'bb,[1;2;3;4])] [2;0;4;3]));
  (*4605*) SubFrom (T 631) (Plain (Einsum [(T 625,[0;1;2;3])] [0;1;2;3]));
  (*4606*) Del (T 625);
  (*4607*) Assign (T 626) (Plain (Zeros [3;3;6;7]));
  (*4608*) AddTo (T 626) (Plain (Einsum [(n_g'bb'bvv,[0;1;2]); (n_lu11'bb,[3;1;4])] [0;3;4;2]));
  (*4609*) SubFrom (T 631) (Plain (Einsum [(T 626,[0;1;2;3])] [0;1;2;3]));
  (*4610*) Del (T 626);
  (*4611*) SubFrom n_lu12new_bb (Plain (Einsum [(T 631,[0;1;2;3])] [0;1;3;2]));
  (*4612*) SubFrom n_lu12new_bb (Plain (Einsum [(T 631,[0;1;2;3])] [1;0;3;2]));
  (*4613*) Del (T 631);
  (*4614*) AddTo (T 632) (Plain (Einsum [(n_v'bbbb'ovvo,[0;1;2;3])] [0;3;2;1]));
  (*4615*) SubFrom (T 632) (Plain (Einsum [(n_v'bbbb'oovv,[0;1;2;3])] [0;1;2;3]));
  (*4616*) AddTo n_lu12new_bb (Plain (Einsum [(n_lu12'bb,[0;1;2;3]); (T 632,[4;3;2;5])] [1;0;5;4]));
  (*4617*) Del (T 632);
  (*4618*) AddTo (T 633) (Plain (Einsum [(n_v'bbaa'ovvo,[0;1;2;3])] [3;0;2;1]));
  (*4619*) AddTo n_lu12new_bb (Plain (Einsum [(n_lu12'aa,[0;1;2;3]); (T 633,[3;4;2;5])] [1;0;5;4]));
  (*4620*) Del (T 633);
  (*4621*) AddTo n_l1new_aa (Plain (Einsum [(n_ls1,[0]); (n_gc'aa'bov,[0;1;2])] [2;1]));
  (*4622*) AddTo n_l1new_aa (Plain (Einsum [(n_l1'bb,[0;1]); (n_v'aabb'ovvo,[2;3;0;1])] [3;2]));
  (*4623*) AddTo n_l1new_aa (Plain (Einsum [(n_f'aa'ov,[0;1])] [1;0]));
  (*4624*) AddTo n_l1new_bb (Plain (Einsum [(n_ls1,[0]); (n_gc'bb'bov,[0;1;2])] [2;1]));
  (*4625*) AddTo n_l1new_bb (Plain (Einsum [(n_l1'aa,[0;1]); (n_v'bbaa'ovvo,[2;3;0;1])] [3;2]));
  (*4626*) AddTo n_l1new_bb (Plain (Einsum [(n_f'bb'ov,[0;1])] [1;0]));
  (*4627*) SubFrom n_l2new_aaaa (Plain (Einsum [(n_v'aaaa'ovov,[0;1;2;3])] [1;3;2;0]));
  (*4628*) AddTo n_l2new_aaaa (Plain (Einsum [(n_v'aaaa'ovov,[0;1;2;3])] [3;1;2;0]));
  (*4629*) SubFrom n_l2new_bbbb (Plain (Einsum [(n_v'bbbb'ovov,[0;1;2;3])] [1;3;2;0]));
  (*4630*) AddTo n_l2new_bbbb (Plain (Einsum [(n_v'bbbb'ovov,[0;1;2;3])] [3;1;2;0]));
  (*4631*) AddTo n_l2new_baba (Plain (Einsum [(n_v'aabb'ovov,[0;1;2;3])] [3;1;2;0]));
  (*4632*) AddTo n_l2new_abab (Plain (Einsum [(n_v'aabb'ovov,[0;1;2;3])] [1;3;0;2]));
  (*4633*) AddTo n_ls1new (Plain (Einsum [(n_ls1,[0]); (n_w,[1;0])] [1]));
  (*4634*) AddTo n_ls1new (Plain (Einsum [(n_l1'aa,[0;1]); (n_g'aa'bvo,[2;0;1])] [2]));
  (*4635*) AddTo n_ls1new (Plain (Einsum [(n_l1'bb,[0;1]); (n_g'bb'bvo,[2;0;1])] [2]));
  (*4636*) AddTo n_ls1new (Plain (Einsum [(n_G,[0])] [0]));
  (*4637*) AddTo n_lu11new_aa (Plain (Einsum [(n_G,[0]); (n_lu12'aa,[1;0;2;3])] [1;2;3]));
  (*4638*) AddTo n_lu11new_aa (Plain (Einsum [(n_ls2,[0;1]); (n_gc'aa'bov,[1;2;3])] [0;3;2]));
  (*4639*) AddTo n_lu11new_aa (Plain (Einsum [(n_w,[0;1]); (n_lu11'aa,[1;2;3])] [0;2;3]));
  (*4640*) SubFrom n_lu11new_aa (Plain (Einsum [(n_f'aa'oo,[0;1]); (n_lu11'aa,[2;3;1])] [2;3;0]));
  (*4641*) SubFrom n_lu11new_aa (Plain (Einsum [(n_l1'aa,[0;1]); (n_g'aa'boo,[2;3;1])] [2;0;3]));
  (*4642*) AddTo n_lu11new_aa (Plain (Einsum [(n_f'aa'vv,[0;1]); (n_lu11'aa,[2;0;3])] [2;1;3]));
  (*4643*) AddTo n_lu11new_aa (Plain (Einsum [(n_l1'aa,[0;1]); (n_g'aa'bvv,[2;0;3])] [2;3;1]));
  (*4644*) AddTo n_lu11new_aa (Plain (Einsum [(n_gc'aa'bvv,[0;1;2]); (n_lu12'aa,[3;0;1;4])] [3;2;4]));
  (*4645*) AddTo n_lu11new_aa (Plain (Einsum [(n_g'aa'bov,[0;1;2])] [0;2;1]));
  (*4646*) SubFrom n_lu11new_aa (Plain (Einsum [(n_gc'aa'boo,[0;1;2]); (n_lu12'aa,[3;0;4;2])] [3;4;1]));
  (*4647*) AddTo n_lu11new_aa (Plain (Einsum [(n_g'bb'bvo,[0;1;2]); (n_l2'abab,[3;1;4;2])] [0;3;4]));
  (*4648*) AddTo n_lu11new_aa (Plain (Einsum [(n_lu11'bb,[0;1;2]); (n_v'aabb'ovvo,[3;4;1;2])] [0;4;3]));
  (*4649*) AddTo n_lu11new_bb (Plain (Einsum [(n_G,[0]); (n_lu12'bb,[1;0;2;3])] [1;2;3]));
  (*4650*) AddTo n_lu11new_bb (Plain (Einsum [(n_ls2,[0;1]); (n_gc'bb'bov,[1;2;3])] [0;3;2]));
  (*4651*) AddTo n_lu11new_bb (Plain (Einsum [(n_w,[0;1]); (n_lu11'bb,[1;2;3])] [0;2;3]));
  (*4652*) AddTo n_lu11new_bb (Plain (Einsum [(n_f'bb'vv,[0;1]); (n_lu11'bb,[2;0;3])] [2;1;3]));
  (*4653*) AddTo n_lu11new_bb (Plain (Einsum [(n_l1'bb,[0;1]); (n_g'bb'bvv,[2;0;3])] [2;3;1]));
  (*4654*) AddTo n_lu11new_bb (Plain (Einsum [(n_g'aa'bvo,[0;1;2]); (n_l2'abab,[1;3;2;4])] [0;3;4]));
  (*4655*) AddTo n_lu11new_bb (Plain (Einsum [(n_lu11'aa,[0;1;2]); (n_v'bbaa'ovvo,[3;4;1;2])] [0;4;3]));
  (*4656*) AddTo n_lu11new_bb (Plain (Einsum [(n_g'bb'bov,[0;1;2])] [0;2;1]));
  (*4657*) SubFrom n_lu11new_bb (Plain (Einsum [(n_gc'bb'boo,[0;1;2]); (n_lu12'bb,[3;0;4;2])] [3;4;1]));
  (*4658*) SubFrom n_lu11new_bb (Plain (Einsum [(n_f'bb'oo,[0;1]); (n_lu11'bb,[2;3;1])] [2;3;0]));
  (*4659*) SubFrom n_lu11new_bb (Plain (Einsum [(n_l1'bb,[0;1]); (n_g'bb'boo,[2;3;1])] [2;0;3]));
  (*4660*) AddTo n_lu11new_bb (Plain (Einsum [(n_gc'bb'bvv,[0;1;2]); (n_lu12'bb,[3;0;1;4])] [3;2;4]));
  (*4662*) Assign n_l1new'aa (Plain (Copy n_l1new_aa));
  (*4663*) Assign n_l1new'bb (Plain (Copy n_l1new_bb));
  (*4664*) Assign n_l2new'abab (Plain (Copy n_l2new_abab));
  (*4665*) Assign n_l2new'baba (Plain (Copy n_l2new_baba));
  (*4666*) Assign n_l2new'aaaa (Plain (Copy n_l2new_aaaa));
  (*4667*) Assign n_l2new'bbbb (Plain (Copy n_l2new_bbbb));
  (*4668*) Assign n_lu11new'aa (Plain (Copy n_lu11new_aa));
  (*4669*) Assign n_lu11new'bb (Plain (Copy n_lu11new_bb));
  (*4670*) Assign n_lu12new'aa (Plain (Copy n_lu12new_aa));
  (*4671*) Assign n_lu12new'bb (Plain (Copy n_lu12new_bb))]
 [(n_l1new'aa,[5;4]); (n_l1new'bb,[7;6]); (n_l2new'abab,[5;7;4;6]); (n_l2new'baba,[7;5;6;4]); (n_l2new'aaaa,[5;5;4;4]); (n_l2new'bbbb,[7;7;6;6]); (n_ls1new,[3]); (n_ls2new,[3;3]); (n_lu11new'aa,[3;5;4]); (n_lu11new'bb,[3;7;6]); (n_lu12new'aa,[3;3;5;4]); (n_lu12new'bb,[3;3;7;6])].

(** ebcc/codegen/UCCSD_SD_1_2.py:4675-4861 [make_rdm1_f]; assembly (line 4855) not translated; assembly (line 4856) not translated *)
Definition UCCSD_SD_1_2_make_rdm1_f : prog := mkprog
 [(n_g'aa'boo,[3;4;4]); (n_g'aa'bvo,[3;5;4]); (n_g'aa'bov,[3;4;5]); (n_g'aa'bvv,[3;5;5]); (n_g'bb'boo,[3;6;6]); (n_g'bb'bvo,[3;7;6]); (n_g'bb'bov,[3;6;7]); (n_g'bb'bvv,[3;7;7]); (n_l2'abab,[5;7;4;6]); (n_t2'abab,[4;6;5;7]); (n_lu12'aa,[3;3;5;4]); (n_u12'aa,[3;3;4;5]); (n_l1'aa,[5;4]); (n_t1'aa,[4;5]); (n_lu11'aa,[3;5;4]); (n_u11'aa,[3;4;5]); (n_t2'aaaa,[4;4;5;5]); (n_l2'aaaa,[5;5;4;4]); (n_lu12'bb,[3;3;7;6]); (n_u12'bb,[3;3;6;7]); (n_lu11'bb,[3;7;6]); (n_u11'bb,[3;6;7]); (n_l1'bb,[7;6]); (n_t1'bb,[6;7]); (n_t2'bbbb,[6;6;7;7]); (n_l2'bbbb,[7;7;6;6]); (n_ls2,[3;3]); (n_ls1,[3])]
 [(*4679*) Assign n_gc'aa'boo (Plain (Transpose n_g'aa'boo [0;2;1]));
  (*4679*) Assign n_gc'aa'bov (Plain (Transpose n_g'aa'bvo [0;2;1]));
  (*4679*) Assign n_gc'aa'bvo (Plain (Transpose n_g'aa'bov [0;2;1]));
  (*4679*) Assign n_gc'aa'bvv (Plain (Transpose n_g'aa'bvv [0;2;1]));
  (*4679*) Assign n_gc'bb'boo (Plain (Transpose n_g'bb'boo [0;2;1]));
  (*4679*) Assign n_gc'bb'bov (Plain (Transpose n_g'bb'bvo [0;2;1]));
  (*4679*) Assign n_gc'bb'bvo (Plain (Transpose n_g'bb'bov [0;2;1]));
  (*4679*) Assign n_gc'bb'bvv (Plain (Transpose n_g'bb'bvv [0;2;1]));
  (*4695*) Assign n_delta_oo'aa (Plain (Eye 4));
  (*4696*) Assign n_delta_oo'bb (Plain (Eye 6));
  (*4698*) Assign n_delta_vv'aa (Plain (Eye 5));
  (*4699*) Assign n_delta_vv'bb (Plain (Eye 7));
  (*4702*) Assign (T 1) (Plain (Zeros [4;4]));
  (*4703*) AddTo (T 1) (Plain (Einsum [(n_l2'abab,[0;1;2;3]); (n_t2'abab,[4;3;0;1])] [2;4]));
  (*4704*) Assign (T 18) (Plain (Zeros [4;4]));
  (*4705*) AddTo (T 18) (Times (Einsum [(T 1,[0;1])] [0;1]) (2) 1);
  (*4706*) Assign n_rdm1_f_oo_aa (Plain (Zeros [4;4]));
  (*4707*) AddTo n_rdm1_f_oo_aa (Times (Einsum [(T 1,[0;1])] [0;1]) (-1) 1);
  (*4708*) Del (T 1);
  (*4709*) Assign (T 2) (Plain (Zeros [4;4]));
  (*4710*) AddTo (T 2) (Plain (Einsum [(n_lu12'aa,[0;1;2;3]); (n_u12'aa,[0;1;4;2])] [3;4]));
  (*4711*) AddTo (T 18) (Plain (Einsum [(T 2,[0;1])] [0;1]));
  (*4712*) AddTo n_rdm1_f_oo_aa (Times (Einsum [(T 2,[0;1])] [0;1]) (-1) 2);
  (*4713*) Del (T 2);
  (*4714*) Assign (T 3) (Plain (Zeros [4;4]));
  (*4715*) AddTo (T 3) (Plain (Einsum [(n_l1'aa,[0;1]); (n_t1'aa,[2;0])] [1;2]));
  (*4716*) AddTo (T 18) (Times (Einsum [(T 3,[0;1])] [0;1]) (2) 1);
  (*4717*) SubFrom n_rdm1_f_oo_aa (Plain (Einsum [(T 3,[0;1])] [0;1]));
  (*4718*) Del (T 3);
  (*4719*) Assign (T 4) (Plain (Zeros [4;4]));
  (*4720*) AddTo (T 4) (Plain (Einsum [(n_lu11'aa,[0;1;2]); (n_u11'aa,[0;3;1])] [2;3]));
  (*4721*) AddTo (T 18) (Times (Einsum [(T 4,[0;1])] [0;1]) (2) 1);
  (*4722*) SubFrom n_rdm1_f_oo_aa (Plain (Einsum [(T 4,[0;1])] [0;1]));
  (*4723*) Del (T 4);
  (*4724*) Assign (T 5) (Plain (Zeros [4;4;5;5]));
  (*4725*) AddTo (T 5) (Times (Einsum [(n_t2'aaaa,[0;1;2;3])] [1;0;2;3]) (-1) 1);
  (*4726*) AddTo (T 5) (Plain (Einsum [(n_t2'aaaa,[0;1;2;3])] [1;0;3;2]));
  (*4727*) AddTo n_rdm1_f_oo_aa (Times (Einsum [(n_l2'aaaa,[0;1;2;3]); (T 5,[2;4;0;1])] [3;4]) (-1) 1);
  (*4728*) Del (T 5);
  (*4729*) Assign (T 6) (Plain (Zeros [6;6]));
  (*4730*) AddTo (T 6) (Plain (Einsum [(n_lu12'bb,[0;1;2;3]); (n_u12'bb,[0;1;4;2])] [3;4]));
  (*4731*) Assign (T 25) (Plain (Zeros [6;6]));
  (*4732*) AddTo (T 25) (Times (Einsum [(T 6,[0;1])] [0;1]) (1) 2);
  (*4733*) Assign n_rdm1_f_oo_bb (Plain (Zeros [6;6]));
  (*4734*) AddTo n_rdm1_f_oo_bb (Times (Einsum [(T 6,[0;1])] [0;1]) (-1) 2);
  (*4735*) Del (T 6);
  (*4736*) Assign (T 7) (Plain (Zeros [6;6]));
  (*4737*) AddTo (T 7) (Plain (Einsum [(n_lu11'bb,[0;1;2]); (n_u11'bb,[0;3;1])] [2;3]));
  (*4738*) AddTo (T 25) (Plain (Einsum [(T 7,[0;1])] [0;1]));
  (*4739*) SubFrom n_rdm1_f_oo_bb (Plain (Einsum [(T 7,[0;1])] [0;1]));
  (*4740*) Del (T 7);
  (*4741*) Assign (T 8) (Plain (Zeros [6;6]));
  (*4742*) AddTo (T 8) (Plain (Einsum [(n_l1'bb,[0;1]); (n_t1'bb,[2;0])] [1;2]));
  (*4743*) AddTo (T 25) (Plain (Einsum [(T 8,[0;1])] [0;1]));
  (*4744*) SubFrom n_rdm1_f_oo_bb (Plain (Einsum [(T 8,[0;1])] [0;1]));
  (*4745*) Del (T 8);
  (*4746*) Assign (T 9) (Plain (Zeros [6;6]));
  (*4747*) AddTo (T 9) (Plain (Einsum [(n_l2'abab,[0;1;2;3]); (n_t2'abab,[2;4;0;1])] [3;4]));
  (*4748*) AddTo (T 25) (Plain (Einsum [(T 9,[0;1])] [0;1]));
  (*4749*) AddTo n_rdm1_f_oo_bb (Times (Einsum [(T 9,[0;1])] [0;1]) (-1) 1);
  (*4750*) Del (T 9);
  (*4751*) Assign (T 10) (Plain (Zeros [6;6;7;7]));
  (*4752*) AddTo (T 10) (Times (Einsum [(n_t2'bbbb,[0;1;2;3])] [1;0;2;3]) (-1) 1);
  (*4753*) AddTo (T 10) (Plain (Einsum [(n_t2'bbbb,[0;1;2;3])] [1;0;3;2]));
  (*4754*) AddTo (T 25) (Times (Einsum [(n_l2'bbbb,[0;1;2;3]); (T 10,[2;4;1;0])] [3;4]) (-1) 1);
  (*4755*) Assign n_rdm1_f_vo_bb (Plain (Zeros [7;6]));
  (*4756*) AddTo n_rdm1_f_vo_bb (Times (Einsum [(n_t1'bb,[0;1]); (T 25,[0;2])] [1;2]) (-1) 1);
  (*4757*) Del (T 25);
  (*4758*) AddTo n_rdm1_f_oo_bb (Times (Einsum [(n_l2'bbbb,[0;1;2;3]); (T 10,[2;4;0;1])] [3;4]) (-1) 1);
  (*4759*) Del (T 10);
  (*4760*) Assign (T 11) (Plain (Zeros [3;3;4;4]));
  (*4761*) AddTo (T 11) (Plain (Einsum [(n_t1'aa,[0;1]); (n_lu12'aa,[2;3;1;4])] [2;3;4;0]));
  (*4762*) Assign n_rdm1_f_vo_aa (Plain (Zeros [5;4]));
  (*4763*) AddTo n_rdm1_f_vo_aa (Times (Einsum [(n_u12'aa,[0;1;2;3]); (T 11,[0;1;2;4])] [3;4]) (-1) 2);
  (*4764*) Del (T 11);
  (*4765*) Assign (T 12) (Plain (Zeros [4;4;6;7]));
  (*4766*) AddTo (T 12) (Plain (Einsum [(n_t1'aa,[0;1]); (n_l2'abab,[1;2;3;4])] [3;0;4;2]));
  (*4767*) AddTo n_rdm1_f_vo_aa (Times (Einsum [(n_t2'abab,[0;1;2;3]); (T 12,[0;4;1;3])] [2;4]) (-1) 1);
  (*4768*) Del (T 12);
  (*4769*) Assign (T 13) (Plain (Zeros [4;4;4;5]));
  (*4770*) AddTo (T 13) (Plain (Einsum [(n_t1'aa,[0;1]); (n_l2'aaaa,[2;1;3;4])] [3;4;0;2]));
  (*4771*) Assign (T 14) (Plain (Zeros [4;4;4;5]));
  (*4772*) AddTo (T 14) (Plain (Einsum [(T 13,[0;1;2;3])] [0;1;2;3]));
  (*4773*) AddTo (T 14) (Times (Einsum [(T 13,[0;1;2;3])] [1;0;2;3]) (-1) 1);
  (*4774*) Del (T 13);
  (*4775*) AddTo n_rdm1_f_vo_aa (Times (Einsum [(n_t2'aaaa,[0;1;2;3]); (T 14,[1;0;4;3])] [2;4]) (-1) 1);
  (*4776*) Del (T 14);
  (*4777*) Assign (T 15) (Plain (Zeros [4;4;5;5]));
  (*4778*) AddTo (T 15) (Plain (Einsum [(n_t2'aaaa,[0;1;2;3])] [1;0;2;3]));
  (*4779*) SubFrom (T 15) (Plain (Einsum [(n_t2'aaaa,[0;1;2;3])] [1;0;3;2]));
  (*4780*) SubFrom n_rdm1_f_vo_aa (Plain (Einsum [(n_l1'aa,[0;1]); (T 15,[1;2;0;3])] [3;2]));
  (*4781*) Del (T 15);
  (*4782*) Assign (T 16) (Plain (Zeros [3;4;4]));
  (*4783*) AddTo (T 16) (Plain (Einsum [(n_t1'aa,[0;1]); (n_lu11'aa,[2;1;3])] [2;3;0]));
  (*4784*) AddTo (T 16) (Plain (Einsum [(n_u11'aa,[0;1;2]); (n_lu12'aa,[0;3;2;4])] [3;4;1]));
  (*4785*) SubFrom n_rdm1_f_vo_aa (Plain (Einsum [(n_u11'aa,[0;1;2]); (T 16,[0;1;3])] [2;3]));
  (*4786*) Del (T 16);
  (*4787*) Assign (T 17) (Plain (Zeros [4;4;5;5]));
  (*4788*) AddTo (T 17) (Plain (Einsum [(n_t2'aaaa,[0;1;2;3])] [1;0;2;3]));
  (*4789*) AddTo (T 17) (Times (Einsum [(n_t2'aaaa,[0;1;2;3])] [1;0;3;2]) (-1) 1);
  (*4790*) AddTo (T 18) (Times (Einsum [(n_l2'aaaa,[0;1;2;3]); (T 17,[2;4;0;1])] [3;4]) (-2) 1);
  (*4791*) Del (T 17);
  (*4792*) AddTo n_rdm1_f_vo_aa (Times (Einsum [(n_t1'aa,[0;1]); (T 18,[0;2])] [1;2]) (-1) 2);
  (*4793*) Del (T 18);
  (*4794*) Assign (T 19) (Plain (Zeros [3;3;6;6]));
  (*4795*) AddTo (T 19) (Plain (Einsum [(n_t1'bb,[0;1]); (n_lu12'bb,[2;3;1;4])] [2;3;4;0]));
  (*4796*) AddTo n_rdm1_f_vo_bb (Times (Einsum [(n_u12'bb,[0;1;2;3]); (T 19,[0;1;2;4])] [3;4]) (-1) 2);
  (*4797*) Del (T 19);
  (*4798*) Assign (T 20) (Plain (Zeros [4;6;6;5]));
  (*4799*) AddTo (T 20) (Plain (Einsum [(n_t1'bb,[0;1]); (n_l2'abab,[2;1;3;4])] [3;4;0;2]));
  (*4800*) AddTo n_rdm1_f_vo_bb (Times (Einsum [(n_t2'abab,[0;1;2;3]); (T 20,[0;1;4;2])] [3;4]) (-1) 1);
  (*4801*) Del (T 20);
  (*4802*) Assign (T 21) (Plain (Zeros [6;6;6;7]));
  (*4803*) AddTo (T 21) (Plain (Einsum [(n_t1'bb,[0;1]); (n_l2'bbbb,[1;2;3;4])] [4;3;0;2]));
  (*4804*) Assign (T 22) (Plain (Zeros [6;6;6;7]));
  (*4805*) AddTo (T 22) (Plain (Einsum [(T 21,[0;1;2;3])] [0;1;2;3]));
  (*4806*) AddTo (T 22) (Times (Einsum [(T 21,[0;1;2;3])] [1;0;2;3]) (-1) 1);
  (*4807*) Del (T 21);
  (*4808*) AddTo n_rdm1_f_vo_bb (Times (Einsum [(n_t2'bbbb,[0;1;2;3]); (T 22,[0;1;4;2])] [3;4]) (-1) 1);
  (*4809*) Del (T 22);
  (*4810*) Assign (T 23) (Plain (Zeros [6;6;7;7]));
  (*4811*) AddTo (T 23) (Plain (Einsum [(n_t2'bbbb,[0;1;2;3])] [1;0;2;3]));
  (*4812*) SubFrom (T 23) (Plain (Einsum [(n_t2'bbbb,[0;1;2;3])] [1;0;3;2]));
  (*4813*) SubFrom n_rdm1_f_vo_bb (Plain (Einsum [(n_l1'bb,[0;1]); (T 23,[1;2;0;3])] [3;2]));
  (*4814*) Del (T 23);
  (*4815*) Assign (T 24) (Plain (Zeros [3;6;6]));
  (*4816*) AddTo (T 24) (Plain (Einsum [(n_t1'bb,[0;1]); (n_lu11'bb,[2;1;3])] [2;3;0]));
  (*4817*) AddTo (T 24) (Plain (Einsum [(n_u11'bb,[0;1;2]); (n_lu12'bb,[0;3;2;4])] [3;4;1]));
  (*4818*) SubFrom n_rdm1_f_vo_bb (Plain (Einsum [(n_u11'bb,[0;1;2]); (T 24,[0;1;3])] [2;3]));
  (*4819*) Del (T 24);
  (*4820*) Assign (T 26) (Plain (Zeros [4;4;5;5]));
  (*4821*) AddTo (T 26) (Times (Einsum [(n_l2'aaaa,[0;1;2;3])] [3;2;0;1]) (-1) 1);
  (*4822*) AddTo (T 26) (Plain (Einsum [(n_l2'aaaa,[0;1;2;3])] [3;2;1;0]));
  (*4823*) Assign n_rdm1_f_vv_aa (Plain (Zeros [5;5]));
  (*4824*) AddTo n_rdm1_f_vv_aa (Times (Einsum [(n_t2'aaaa,[0;1;2;3]); (T 26,[0;1;3;4])] [2;4]) (-1) 1);
  (*4825*) Del (T 26);
  (*4826*) Assign (T 27) (Plain (Zeros [6;6;7;7]));
  (*4827*) AddTo (T 27) (Times (Einsum [(n_l2'bbbb,[0;1;2;3])] [3;2;0;1]) (-1) 1);
  (*4828*) AddTo (T 27) (Plain (Einsum [(n_l2'bbbb,[0;1;2;3])] [3;2;1;0]));
  (*4829*) Assign n_rdm1_f_vv_bb (Plain (Zeros [7;7]));
  (*4830*) AddTo n_rdm1_f_vv_bb (Times (Einsum [(n_t2'bbbb,[0;1;2;3]); (T 27,[0;1;4;2])] [3;4]) (-1) 1);
  (*4831*) Del (T 27);
  (*4832*) AddTo n_rdm1_f_oo_aa (Plain (Einsum [(n_delta_oo'aa,[0;1])] [1;0]));
  (*4833*) AddTo n_rdm1_f_oo_bb (Plain (Einsum [(n_delta_oo'bb,[0;1])] [1;0]));
  (*4834*) Assign n_rdm1_f_ov_aa (Plain (Zeros [4;5]));
  (*4835*) AddTo n_rdm1_f_ov_aa (Plain (Einsum [(n_l1'aa,[0;1])] [1;0]));
  (*4836*) Assign n_rdm1_f_ov_bb (Plain (Zeros [6;7]));
  (*4837*) AddTo n_rdm1_f_ov_bb (Plain (Einsum [(n_l1'bb,[0;1])] [1;0]));
  (*4838*) AddTo n_rdm1_f_vo_aa (Times (Einsum [(n_ls2,[0;1]); (n_u12'aa,[0;1;2;3])] [3;2]) (1) 2);
  (*4839*) AddTo n_rdm1_f_vo_aa (Plain (Einsum [(n_ls1,[0]); (n_u11'aa,[0;1;2])] [2;1]));
  (*4840*) AddTo n_rdm1_f_vo_aa (Plain (Einsum [(n_t1'aa,[0;1])] [1;0]));
  (*4841*) AddTo n_rdm1_f_vo_aa (Plain (Einsum [(n_l1'bb,[0;1]); (n_t2'abab,[2;1;3;0])] [3;2]));
  (*4842*) AddTo n_rdm1_f_vo_bb (Plain (Einsum [(n_l1'aa,[0;1]); (n_t2'abab,[1;2;0;3])] [3;2]));
  (*4843*) AddTo n_rdm1_f_vo_bb (Times (Einsum [(n_ls2,[0;1]); (n_u12'bb,[0;1;2;3])] [3;2]) (1) 2);
  (*4844*) AddTo n_rdm1_f_vo_bb (Plain (Einsum [(n_ls1,[0]); (n_u11'bb,[0;1;2])] [2;1]));
  (*4845*) AddTo n_rdm1_f_vo_bb (Plain (Einsum [(n_t1'bb,[0;1])] [1;0]));
  (*4846*) AddTo n_rdm1_f_vv_aa (Plain (Einsum [(n_lu11'aa,[0;1;2]); (n_u11'aa,[0;2;3])] [3;1]));
  (*4847*) AddTo n_rdm1_f_vv_aa (Plain (Einsum [(n_l1'aa,[0;1]); (n_t1'aa,[1;2])] [2;0]));
  (*4848*) AddTo n_rdm1_f_vv_aa (Times (Einsum [(n_lu12'aa,[0;1;2;3]); (n_u12'aa,[0;1;3;4])] [4;2]) (1) 2);
  (*4849*) AddTo n_rdm1_f_vv_aa (Plain (Einsum [(n_l2'abab,[0;1;2;3]); (n_t2'abab,[2;3;4;1])] [4;0]));
  (*4850*) AddTo n_rdm1_f_vv_bb (Plain (Einsum [(n_l1'bb,[0;1]); (n_t1'bb,[1;2])] [2;0]));
  (*4851*) AddTo n_rdm1_f_vv_bb (Plain (Einsum [(n_l2'abab,[0;1;2;3]); (n_t2'abab,[2;3;0;4])] [4;1]));
  (*4852*) AddTo n_rdm1_f_vv_bb (Times (Einsum [(n_lu12'bb,[0;1;2;3]); (n_u12'bb,[0;1;3;4])] [4;2]) (1) 2);
  (*4853*) AddTo n_rdm1_f_vv_bb (Plain (Einsum [(n_lu11'bb,[0;1;2]); (n_u11'bb,[0;2;3])] [3;1]))]
 [(n_rdm1_f_oo_aa,[4;4]); (n_rdm1_f_ov_aa,[4;5]); (n_rdm1_f_vo_aa,[5;4]); (n_rdm1_f_vv_aa,[5;5]); (n_rdm1_f_oo_bb,[6;6]); (n_rdm1_f_ov_bb,[6;7]); (n_rdm1_f_vo_bb,[7;6]); (n_rdm1_f_vv_bb,[7;7])].

(** ebcc/codegen/UCCSD_SD_1_2.py:4863-6850 [make_rdm2_f]; assembly (line 6840) not translated; assembly (line 6841) not translated; assembly (line 6842) not translated; assembly (line 6843) not translated *)
Definition UCCSD_SD_1_2_make_rdm2_f : prog := mkprog
 [(n_g'aa'boo,[3;4;4]); (n_g'aa'bvo,[3;5;4]); (n_g'aa'bov,[3;4;5]); (n_g'aa'bvv,[3;5;5]); (n_g'bb'boo,[3;6;6]); (n_g'bb'bvo,[3;7;6]); (n_g'bb'bov,[3;6;7]); (n_g'bb'bvv,[3;7;7]); (n_l2'aaaa,[5;5;4;4]); (n_t2'aaaa,[4;4;5;5]); (n_t1'aa,[4;5]); (n_t2'abab,[4;6;5;7]); (n_lu11'aa,[3;5;4]); (n_u11'aa,[3;4;5]); (n_lu12'aa,[3;3;5;4]); (n_u12'aa,[3;3;4;5]); (n_l2'abab,[5;7;4;6]); (n_l1'aa,[5;4]); (n_t1'bb,[6;7]); (n_l1'bb,[7;6]); (n_t2'bbbb,[6;6;7;7]); (n_lu11'bb,[3;7;6]); (n_u11'bb,[3;6;7]); (n_lu12'bb,[3;3;7;6]); (n_u12'bb,[3;3;6;7]); (n_l2'bbbb,[7;7;6;6]); (n_ls2,[3;3]); (n_ls1,[3])]
 [(*4867*) Assign n_gc'aa'boo (Plain (Transpose n_g'aa'boo [0;2;1]));
  (*4867*) Assign n_gc'aa'bov (Plain (Transpose n_g'aa'bvo [0;2;1]));
  (*4867*) Assign n_gc'aa'bvo (Plain (Transpose n_g'aa'bov [0;2;1]));
  (*4867*) Assign n_gc'aa'bvv (Plain (Transpose n_g'aa'bvv [0;2;1]));
  (*4867*) Assign n_gc'bb'boo (Plain (Transpose n_g'bb'boo [0;2;1]));
  (*4867*) Assign n_gc'bb'bov (Plain (Transpose n_g'bb'bvo [0;2;1]));
  (*4867*) Assign n_gc'bb'bvo (Plain (Transpose n_g'bb'bov [0;2;1]));
  (*4867*) Assign n_gc'bb'bvv (Plain (Transpose n_g'bb'bvv [0;2;1]));
  (*4883*) Assign n_delta_oo'aa (Plain (Eye 4));
  (*4884*) Assign n_delta_oo'bb (Plain (Eye 6));
  (*4886*) Assign n_delta_vv'aa (Plain (Eye 5));
  (*4887*) Assign n_delta_vv'bb (Plain (Eye 7));
  (*4890*) Assign (T 1) (Plain (Zeros [4;4;4;4]));
  (*4891*) AddTo (T 1) (Plain (Einsum [(n_l2'aaaa,[0;1;2;3]); (n_t2'aaaa,[4;5;0;1])] [2;3;4;5]));
  (*4892*) Assign (T 53) (Plain (Zeros [4;4;4;4]));
  (*4893*) AddTo (T 53) (Plain (Einsum [(T 1,[0;1;2;3])] [1;0;3;2]));
  (*4894*) Assign n_rdm2_f_oooo_aaaa (Plain (Zeros [4;4;4;4]));
  (*4895*) AddTo n_rdm2_f_oooo_aaaa (Times (Einsum [(T 1,[0;1;2;3])] [1;2;0;3]) (-1) 1);
  (*4896*) AddTo n_rdm2_f_oooo_aaaa (Plain (Einsum [(T 1,[0;1;2;3])] [1;3;0;2]));
  (*4897*) Assign (T 2) (Plain (Zeros [4;4;4;5]));
  (*4898*) AddTo (T 2) (Plain (Einsum [(n_t1'aa,[0;1]); (n_l2'aaaa,[1;2;3;4])] [4;3;0;2]));
  (*4899*) Assign (T 3) (Plain (Zeros [4;4;4;4]));
  (*4900*) AddTo (T 3) (Plain (Einsum [(n_t1'aa,[0;1]); (T 2,[2;3;4;1])] [2;3;0;4]));
  (*4901*) AddTo (T 53) (Plain (Einsum [(T 3,[0;1;2;3])] [0;1;2;3]));
  (*4902*) Assign (T 54) (Plain (Zeros [4;4;4;5]));
  (*4903*) AddTo (T 54) (Plain (Einsum [(n_t1'aa,[0;1]); (T 53,[0;2;3;4])] [2;3;4;1]));
  (*4904*) Del (T 53);
  (*4905*) Assign (T 61) (Plain (Zeros [4;4;4;5]));
  (*4906*) AddTo (T 61) (Times (Einsum [(T 54,[0;1;2;3])] [0;2;1;3]) (-1) 1);
  (*4907*) Assign (T 128) (Plain (Zeros [4;4;4;5]));
  (*4908*) AddTo (T 128) (Plain (Einsum [(T 54,[0;1;2;3])] [0;2;1;3]));
  (*4909*) Del (T 54);
  (*4910*) Assign (T 221) (Plain (Zeros [4;4;4;5]));
  (*4911*) AddTo (T 221) (Plain (Einsum [(n_t1'aa,[0;1]); (T 3,[0;2;3;4])] [2;4;3;1]));
  (*4912*) Assign (T 222) (Plain (Zeros [4;4;5;5]));
  (*4913*) AddTo (T 222) (Plain (Einsum [(n_t1'aa,[0;1]); (T 221,[0;2;3;4])] [2;3;1;4]));
  (*4914*) Del (T 221);
  (*4915*) Assign (T 228) (Plain (Zeros [4;4;5;5]));
  (*4916*) AddTo (T 228) (Plain (Einsum [(T 222,[0;1;2;3])] [0;1;2;3]));
  (*4917*) Del (T 222);
  (*4918*) Assign (T 231) (Plain (Zeros [4;4;5;5]));
  (*4919*) AddTo (T 231) (Plain (Einsum [(n_t2'aaaa,[0;1;2;3]); (T 3,[1;0;4;5])] [5;4;2;3]));
  (*4920*) Assign (T 234) (Plain (Zeros [4;4;5;5]));
  (*4921*) AddTo (T 234) (Plain (Einsum [(T 231,[0;1;2;3])] [0;1;2;3]));
  (*4922*) Del (T 231);
  (*4923*) AddTo n_rdm2_f_oooo_aaaa (Plain (Einsum [(T 3,[0;1;2;3])] [0;2;1;3]));
  (*4924*) AddTo n_rdm2_f_oooo_aaaa (Times (Einsum [(T 3,[0;1;2;3])] [0;3;1;2]) (-1) 1);
  (*4925*) Del (T 3);
  (*4926*) Assign (T 50) (Plain (Zeros [4;4;4;5]));
  (*4927*) AddTo (T 50) (Times (Einsum [(T 2,[0;1;2;3])] [0;1;2;3]) (-1) 1);
  (*4928*) AddTo (T 50) (Plain (Einsum [(T 2,[0;1;2;3])] [1;0;2;3]));
  (*4929*) Assign (T 57) (Plain (Zeros [4;5]));
  (*4930*) AddTo (T 57) (Times (Einsum [(n_t2'aaaa,[0;1;2;3]); (T 50,[0;1;4;2])] [4;3]) (2) 1);
  (*4931*) Assign (T 60) (Plain (Zeros [4;5]));
  (*4932*) AddTo (T 60) (Times (Einsum [(T 57,[0;1])] [0;1]) (-1) 1);
  (*4933*) Del (T 57);
  (*4934*) Assign (T 120) (Plain (Zeros [4;5]));
  (*4935*) AddTo (T 120) (Plain (Einsum [(n_t2'aaaa,[0;1;2;3]); (T 50,[0;1;4;2])] [4;3]));
  (*4936*) Assign (T 125) (Plain (Zeros [4;5]));
  (*4937*) AddTo (T 125) (Times (Einsum [(T 120,[0;1])] [0;1]) (-1) 1);
  (*4938*) Assign (T 337) (Plain (Zeros [4;5]));
  (*4939*) AddTo (T 337) (Times (Einsum [(T 120,[0;1])] [0;1]) (-1) 1);
  (*4940*) Del (T 120);
  (*4941*) Assign (T 191) (Plain (Zeros [4;5]));
  (*4942*) AddTo (T 191) (Times (Einsum [(n_t2'aaaa,[0;1;2;3]); (T 50,[0;1;4;2])] [4;3]) (20000000000000013) 10000000000000000);
  (*4943*) Assign (T 194) (Plain (Zeros [4;5]));
  (*4944*) AddTo (T 194) (Times (Einsum [(T 191,[0;1])] [0;1]) (-1) 1);
  (*4945*) Del (T 191);
  (*4946*) Assign (T 318) (Plain (Zeros [4;4;6;7]));
  (*4947*) AddTo (T 318) (Plain (Einsum [(n_t2'abab,[0;1;2;3]); (T 50,[0;4;5;2])] [4;5;1;3]));
  (*4948*) Assign (T 320) (Plain (Zeros [4;4;6;7]));
  (*4949*) AddTo (T 320) (Times (Einsum [(T 318,[0;1;2;3])] [0;1;2;3]) (-1) 1);
  (*4950*) Del (T 318);
  (*4951*) Assign (T 338) (Plain (Zeros [4;5]));
  (*4952*) AddTo (T 338) (Times (Einsum [(n_t2'aaaa,[0;1;2;3]); (T 50,[0;1;4;2])] [4;3]) (-1) 1);
  (*4953*) Assign (T 99) (Plain (Zeros [4;4;4;5]));
  (*4954*) AddTo (T 99) (Plain (Einsum [(T 2,[0;1;2;3])] [0;1;2;3]));
  (*4955*) AddTo (T 99) (Times (Einsum [(T 2,[0;1;2;3])] [1;0;2;3]) (-1) 1);
  (*4956*) Assign (T 100) (Plain (Zeros [4;4;6;7]));
  (*4957*) AddTo (T 100) (Plain (Einsum [(n_t2'abab,[0;1;2;3]); (T 99,[0;4;5;2])] [4;5;1;3]));
  (*4958*) Del (T 99);
  (*4959*) Assign n_rdm2_f_oovo_aabb (Plain (Zeros [4;4;7;6]));
  (*4960*) AddTo n_rdm2_f_oovo_aabb (Times (Einsum [(T 100,[0;1;2;3])] [0;1;3;2]) (-1) 1);
  (*4961*) Assign n_rdm2_f_vooo_bbaa (Plain (Zeros [7;6;4;4]));
  (*4962*) AddTo n_rdm2_f_vooo_bbaa (Times (Einsum [(T 100,[0;1;2;3])] [3;2;0;1]) (-1) 1);
  (*4963*) Del (T 100);
  (*4964*) Assign (T 137) (Plain (Zeros [4;4;4;5]));
  (*4965*) AddTo (T 137) (Plain (Einsum [(T 2,[0;1;2;3])] [0;1;2;3]));
  (*4966*) SubFrom (T 137) (Plain (Einsum [(T 2,[0;1;2;3])] [1;0;2;3]));
  (*4967*) Assign (T 138) (Plain (Zeros [4;4;5;5]));
  (*4968*) AddTo (T 138) (Plain (Einsum [(n_t1'aa,[0;1]); (T 137,[0;2;3;4])] [2;3;1;4]));
  (*4969*) Del (T 137);
  (*4970*) Assign n_rdm2_f_oovv_aaaa (Plain (Zeros [4;4;5;5]));
  (*4971*) SubFrom n_rdm2_f_oovv_aaaa (Plain (Einsum [(T 138,[0;1;2;3])] [0;1;2;3]));
  (*4972*) Assign n_rdm2_f_vvoo_aaaa (Plain (Zeros [5;5;4;4]));
  (*4973*) SubFrom n_rdm2_f_vvoo_aaaa (Plain (Einsum [(T 138,[0;1;2;3])] [2;3;0;1]));
  (*4974*) Del (T 138);
  (*4975*) Assign (T 169) (Plain (Zeros [4;4;4;5]));
  (*4976*) SubFrom (T 169) (Plain (Einsum [(T 2,[0;1;2;3])] [0;1;2;3]));
  (*4977*) AddTo (T 169) (Plain (Einsum [(T 2,[0;1;2;3])] [1;0;2;3]));
  (*4978*) Assign (T 170) (Plain (Zeros [4;4;5;5]));
  (*4979*) AddTo (T 170) (Plain (Einsum [(n_t1'aa,[0;1]); (T 169,[0;2;3;4])] [2;3;1;4]));
  (*4980*) Assign n_rdm2_f_ovvo_aaaa (Plain (Zeros [4;5;5;4]));
  (*4981*) SubFrom n_rdm2_f_ovvo_aaaa (Plain (Einsum [(T 170,[0;1;2;3])] [0;3;2;1]));
  (*4982*) Assign n_rdm2_f_voov_aaaa (Plain (Zeros [5;4;4;5]));
  (*4983*) SubFrom n_rdm2_f_voov_aaaa (Plain (Einsum [(T 170,[0;1;2;3])] [2;1;0;3]));
  (*4984*) Del (T 170);
  (*4985*) Assign (T 351) (Plain (Zeros [4;5;5;5]));
  (*4986*) AddTo (T 351) (Plain (Einsum [(n_t2'aaaa,[0;1;2;3]); (T 2,[0;1;4;5])] [4;5;2;3]));
  (*4987*) Assign (T 356) (Plain (Zeros [4;5;5;5]));
  (*4988*) AddTo (T 356) (Plain (Einsum [(T 351,[0;1;2;3])] [0;1;2;3]));
  (*4989*) Del (T 351);
  (*4990*) Assign (T 352) (Plain (Zeros [4;4;5;5]));
  (*4991*) AddTo (T 352) (Plain (Einsum [(n_t1'aa,[0;1]); (T 2,[2;0;3;4])] [2;3;4;1]));
  (*4992*) Assign (T 354) (Plain (Zeros [4;4;5;5]));
  (*4993*) AddTo (T 354) (Times (Einsum [(T 352,[0;1;2;3])] [0;1;2;3]) (-2) 1);
  (*4994*) Del (T 352);
  (*4995*) Assign n_rdm2_f_ooov_aaaa (Plain (Zeros [4;4;4;5]));
  (*4996*) AddTo n_rdm2_f_ooov_aaaa (Plain (Einsum [(T 2,[0;1;2;3])] [0;2;1;3]));
  (*4997*) SubFrom n_rdm2_f_ooov_aaaa (Plain (Einsum [(T 2,[0;1;2;3])] [1;2;0;3]));
  (*4998*) Assign n_rdm2_f_ovoo_aaaa (Plain (Zeros [4;5;4;4]));
  (*4999*) SubFrom n_rdm2_f_ovoo_aaaa (Plain (Einsum [(T 2,[0;1;2;3])] [0;3;1;2]));
  (*5000*) AddTo n_rdm2_f_ovoo_aaaa (Plain (Einsum [(T 2,[0;1;2;3])] [1;3;0;2]));
  (*5001*) Del (T 2);
  (*5002*) Assign (T 4) (Plain (Zeros [4;4]));
  (*5003*) AddTo (T 4) (Plain (Einsum [(n_lu11'aa,[0;1;2]); (n_u11'aa,[0;3;1])] [2;3]));
  (*5004*) Assign (T 15) (Plain (Zeros [4;4]));
  (*5005*) AddTo (T 15) (Plain (Einsum [(T 4,[0;1])] [1;0]));
  (*5006*) Assign (T 39) (Plain (Zeros [4;5]));
  (*5007*) AddTo (T 39) (Plain (Einsum [(n_t1'aa,[0;1]); (T 4,[0;2])] [2;1]));
  (*5008*) Assign (T 44) (Plain (Zeros [4;5]));
  (*5009*) AddTo (T 44) (Plain (Einsum [(T 39,[0;1])] [0;1]));
  (*5010*) Del (T 39);
  (*5011*) Assign (T 45) (Plain (Zeros [4;4]));
  (*5012*) AddTo (T 45) (Plain (Einsum [(T 4,[0;1])] [0;1]));
  (*5013*) Assign (T 111) (Plain (Zeros [4;4]));
  (*5014*) AddTo (T 111) (Plain (Einsum [(T 4,[0;1])] [0;1]));
  (*5015*) Assign (T 198) (Plain (Zeros [4;4;5;5]));
  (*5016*) AddTo (T 198) (Plain (Einsum [(T 4,[0;1]); (n_t2'aaaa,[2;0;3;4])] [2;1;3;4]));
  (*5017*) Assign (T 220) (Plain (Zeros [4;4;5;5]));
  (*5018*) SubFrom (T 220) (Plain (Einsum [(T 198,[0;1;2;3])] [0;1;2;3]));
  (*5019*) Del (T 198);
  (*5020*) Assign (T 236) (Plain (Zeros [4;4]));
  (*5021*) AddTo (T 236) (Plain (Einsum [(T 4,[0;1])] [0;1]));
  (*5022*) Assign (T 336) (Plain (Zeros [4;4]));
  (*5023*) AddTo (T 336) (Plain (Einsum [(T 4,[0;1])] [0;1]));
  (*5024*) SubFrom n_rdm2_f_oooo_aaaa (Plain (Einsum [(n_delta_oo'aa,[0;1]); (T 4,[2;3])] [0;1;2;3]));
  (*5025*) AddTo n_rdm2_f_oooo_aaaa (Plain (Einsum [(n_delta_oo'aa,[0;1]); (T 4,[2;3])] [0;3;2;1]));
  (*5026*) AddTo n_rdm2_f_oooo_aaaa (Plain (Einsum [(n_delta_oo'aa,[0;1]); (T 4,[2;3])] [2;0;1;3]));
  (*5027*) SubFrom n_rdm2_f_oooo_aaaa (Plain (Einsum [(n_delta_oo'aa,[0;1]); (T 4,[2;3])] [2;3;1;0]));
  (*5028*) Del (T 4);
  (*5029*) Assign (T 5) (Plain (Zeros [4;4]));
  (*5030*) AddTo (T 5) (Plain (Einsum [(n_lu12'aa,[0;1;2;3]); (n_u12'aa,[0;1;4;2])] [3;4]));
  (*5031*) Assign (T 9) (Plain (Zeros [4;4]));
  (*5032*) AddTo (T 9) (Plain (Einsum [(T 5,[0;1])] [0;1]));
  (*5033*) AddTo (T 15) (Times (Einsum [(T 5,[0;1])] [1;0]) (1) 2);
  (*5034*) Assign (T 58) (Plain (Zeros [4;4]));
  (*5035*) AddTo (T 58) (Times (Einsum [(T 5,[0;1])] [0;1]) (1) 2);
  (*5036*) AddTo (T 111) (Times (Einsum [(T 5,[0;1])] [0;1]) (1) 2);
  (*5037*) Assign (T 192) (Plain (Zeros [4;4]));
  (*5038*) AddTo (T 192) (Times (Einsum [(T 5,[0;1])] [0;1]) (49999999999999967) 100000000000000000);
  (*5039*) AddTo (T 336) (Times (Einsum [(T 5,[0;1])] [0;1]) (1) 2);
  (*5040*) Del (T 5);
  (*5041*) Assign (T 6) (Plain (Zeros [4;4]));
  (*5042*) AddTo (T 6) (Plain (Einsum [(n_l2'abab,[0;1;2;3]); (n_t2'abab,[4;3;0;1])] [2;4]));
  (*5043*) AddTo (T 9) (Times (Einsum [(T 6,[0;1])] [0;1]) (2) 1);
  (*5044*) AddTo (T 15) (Plain (Einsum [(T 6,[0;1])] [1;0]));
  (*5045*) AddTo (T 58) (Plain (Einsum [(T 6,[0;1])] [0;1]));
  (*5046*) AddTo (T 111) (Plain (Einsum [(T 6,[0;1])] [0;1]));
  (*5047*) AddTo (T 192) (Plain (Einsum [(T 6,[0;1])] [0;1]));
  (*5048*) AddTo (T 336) (Plain (Einsum [(T 6,[0;1])] [0;1]));
  (*5049*) Del (T 6);
  (*5050*) Assign (T 7) (Plain (Zeros [4;4;5;5]));
  (*5051*) AddTo (T 7) (Plain (Einsum [(n_t2'aaaa,[0;1;2;3])] [1;0;2;3]));
  (*5052*) AddTo (T 7) (Times (Einsum [(n_t2'aaaa,[0;1;2;3])] [1;0;3;2]) (-1) 1);
  (*5053*) Assign (T 8) (Plain (Zeros [4;4]));
  (*5054*) AddTo (T 8) (Times (Einsum [(n_l2'aaaa,[0;1;2;3]); (T 7,[2;4;0;1])] [3;4]) (2) 1);
  (*5055*) AddTo (T 9) (Times (Einsum [(T 8,[0;1])] [0;1]) (-1) 1);
  (*5056*) Del (T 8);
  (*5057*) AddTo n_rdm2_f_oooo_aaaa (Times (Einsum [(n_delta_oo'aa,[0;1]); (T 9,[2;3])] [1;0;2;3]) (-1) 2);
  (*5058*) AddTo n_rdm2_f_oooo_aaaa (Times (Einsum [(n_delta_oo'aa,[0;1]); (T 9,[2;3])] [1;3;2;0]) (1) 2);
  (*5059*) AddTo n_rdm2_f_oooo_aaaa (Times (Einsum [(n_delta_oo'aa,[0;1]); (T 9,[2;3])] [2;1;0;3]) (1) 2);
  (*5060*) AddTo n_rdm2_f_oooo_aaaa (Times (Einsum [(n_delta_oo'aa,[0;1]); (T 9,[2;3])] [2;3;0;1]) (-1) 2);
  (*5061*) Del (T 9);
  (*5062*) Assign (T 14) (Plain (Zeros [4;4]));
  (*5063*) AddTo (T 14) (Plain (Einsum [(n_l2'aaaa,[0;1;2;3]); (T 7,[2;4;0;1])] [3;4]));
  (*5064*) AddTo (T 15) (Times (Einsum [(T 14,[0;1])] [1;0]) (-1) 1);
  (*5065*) AddTo (T 58) (Times (Einsum [(T 14,[0;1])] [0;1]) (-1) 1);
  (*5066*) Assign (T 59) (Plain (Zeros [4;5]));
  (*5067*) AddTo (T 59) (Times (Einsum [(n_t1'aa,[0;1]); (T 58,[0;2])] [2;1]) (2) 1);
  (*5068*) AddTo (T 60) (Plain (Einsum [(T 59,[0;1])] [0;1]));
  (*5069*) Del (T 59);
  (*5070*) AddTo (T 61) (Times (Einsum [(n_t1'aa,[0;1]); (T 58,[2;3])] [2;0;3;1]) (-1) 1);
  (*5071*) AddTo (T 128) (Plain (Einsum [(n_t1'aa,[0;1]); (T 58,[2;3])] [2;0;3;1]));
  (*5072*) Assign (T 190) (Plain (Zeros [4;4;5;5]));
  (*5073*) AddTo (T 190) (Plain (Einsum [(T 58,[0;1]); (n_t2'aaaa,[0;2;3;4])] [2;1;3;4]));
  (*5074*) Del (T 58);
  (*5075*) Assign (T 195) (Plain (Zeros [4;4;5;5]));
  (*5076*) AddTo (T 195) (Plain (Einsum [(T 190,[0;1;2;3])] [0;1;3;2]));
  (*5077*) Del (T 190);
  (*5078*) AddTo (T 111) (Times (Einsum [(T 14,[0;1])] [0;1]) (-1) 1);
  (*5079*) AddTo (T 192) (Times (Einsum [(T 14,[0;1])] [0;1]) (-1) 1);
  (*5080*) Del (T 14);
  (*5081*) Assign (T 193) (Plain (Zeros [4;5]));
  (*5082*) AddTo (T 193) (Times (Einsum [(n_t1'aa,[0;1]); (T 192,[0;2])] [2;1]) (20000000000000013) 10000000000000000);
  (*5083*) Del (T 192);
  (*5084*) AddTo (T 194) (Plain (Einsum [(T 193,[0;1])] [0;1]));
  (*5085*) Del (T 193);
  (*5086*) Assign (T 127) (Plain (Zeros [4;4;4;5]));
  (*5087*) AddTo (T 127) (Plain (Einsum [(T 50,[0;1;2;3]); (T 7,[0;4;5;3])] [4;1;2;5]));
  (*5088*) AddTo (T 128) (Plain (Einsum [(T 127,[0;1;2;3])] [1;2;0;3]));
  (*5089*) Del (T 127);
  (*5090*) Assign (T 185) (Plain (Zeros [3;3;4;5]));
  (*5091*) AddTo (T 185) (Plain (Einsum [(n_lu12'aa,[0;1;2;3]); (T 7,[3;4;2;5])] [0;1;4;5]));
  (*5092*) Assign (T 186) (Plain (Zeros [3;3;4;5]));
  (*5093*) AddTo (T 186) (Times (Einsum [(T 185,[0;1;2;3])] [1;0;2;3]) (-1) 1);
  (*5094*) Del (T 185);
  (*5095*) Assign (T 335) (Plain (Zeros [4;4]));
  (*5096*) AddTo (T 335) (Plain (Einsum [(n_l2'aaaa,[0;1;2;3]); (T 7,[2;4;0;1])] [3;4]));
  (*5097*) AddTo (T 336) (Times (Einsum [(T 335,[0;1])] [0;1]) (-1) 1);
  (*5098*) Del (T 335);
  (*5099*) Assign (T 10) (Plain (Zeros [4;4]));
  (*5100*) AddTo (T 10) (Plain (Einsum [(n_l1'aa,[0;1]); (n_t1'aa,[2;0])] [1;2]));
  (*5101*) AddTo (T 15) (Plain (Einsum [(T 10,[0;1])] [1;0]));
  (*5102*) Assign (T 32) (Plain (Zeros [4;5]));
  (*5103*) AddTo (T 32) (Plain (Einsum [(n_t1'aa,[0;1]); (T 10,[0;2])] [2;1]));
  (*5104*) Assign (T 62) (Plain (Zeros [4;5]));
  (*5105*) AddTo (T 62) (Times (Einsum [(T 32,[0;1])] [0;1]) (-1) 1);
  (*5106*) Assign n_rdm2_f_oovo_aaaa (Plain (Zeros [4;4;5;4]));
  (*5107*) AddTo n_rdm2_f_oovo_aaaa (Plain (Einsum [(n_delta_oo'aa,[0;1]); (T 32,[2;3])] [0;2;3;1]));
  (*5108*) Assign n_rdm2_f_vooo_aaaa (Plain (Zeros [5;4;4;4]));
  (*5109*) SubFrom n_rdm2_f_vooo_aaaa (Plain (Einsum [(n_delta_oo'aa,[0;1]); (T 32,[2;3])] [3;2;1;0]));
  (*5110*) Del (T 32);
  (*5111*) AddTo (T 45) (Plain (Einsum [(T 10,[0;1])] [0;1]));
  (*5112*) Assign (T 46) (Plain (Zeros [4;4;4;5]));
  (*5113*) AddTo (T 46) (Plain (Einsum [(n_t1'aa,[0;1]); (T 45,[2;3])] [2;0;3;1]));
  (*5114*) Assign (T 126) (Plain (Zeros [4;4;4;5]));
  (*5115*) AddTo (T 126) (Plain (Einsum [(n_t1'aa,[0;1]); (T 45,[2;3])] [2;0;3;1]));
  (*5116*) Del (T 45);
  (*5117*) AddTo (T 111) (Plain (Einsum [(T 10,[0;1])] [0;1]));
  (*5118*) Assign (T 124) (Plain (Zeros [4;5]));
  (*5119*) AddTo (T 124) (Plain (Einsum [(n_t1'aa,[0;1]); (T 111,[0;2])] [2;1]));
  (*5120*) AddTo (T 125) (Plain (Einsum [(T 124,[0;1])] [0;1]));
  (*5121*) Del (T 124);
  (*5122*) Assign (T 323) (Plain (Zeros [4;6;5;7]));
  (*5123*) AddTo (T 323) (Plain (Einsum [(T 111,[0;1]); (n_t2'abab,[0;2;3;4])] [1;2;3;4]));
  (*5124*) Assign n_rdm2_f_vovo_bbaa (Plain (Zeros [7;6;5;4]));
  (*5125*) AddTo n_rdm2_f_vovo_bbaa (Times (Einsum [(T 323,[0;1;2;3])] [3;1;2;0]) (-1) 1);
  (*5126*) Assign n_rdm2_f_vovo_aabb (Plain (Zeros [5;4;7;6]));
  (*5127*) AddTo n_rdm2_f_vovo_aabb (Times (Einsum [(T 323,[0;1;2;3])] [2;0;3;1]) (-1) 1);
  (*5128*) Del (T 323);
  (*5129*) AddTo n_rdm2_f_oovo_aabb (Times (Einsum [(n_t1'bb,[0;1]); (T 111,[2;3])] [2;3;1;0]) (-1) 1);
  (*5130*) AddTo n_rdm2_f_vooo_bbaa (Times (Einsum [(n_t1'bb,[0;1]); (T 111,[2;3])] [1;0;2;3]) (-1) 1);
  (*5131*) Del (T 111);
  (*5132*) Assign (T 196) (Plain (Zeros [4;4;5;5]));
  (*5133*) AddTo (T 196) (Plain (Einsum [(T 10,[0;1]); (n_t2'aaaa,[2;0;3;4])] [1;2;3;4]));
  (*5134*) AddTo (T 220) (Plain (Einsum [(T 196,[0;1;2;3])] [0;1;2;3]));
  (*5135*) Del (T 196);
  (*5136*) AddTo (T 236) (Plain (Einsum [(T 10,[0;1])] [0;1]));
  (*5137*) Assign (T 237) (Plain (Zeros [4;5]));
  (*5138*) AddTo (T 237) (Plain (Einsum [(n_t1'aa,[0;1]); (T 236,[0;2])] [2;1]));
  (*5139*) Del (T 236);
  (*5140*) Assign (T 238) (Plain (Zeros [4;5]));
  (*5141*) AddTo (T 238) (Plain (Einsum [(T 237,[0;1])] [0;1]));
  (*5142*) Assign (T 239) (Plain (Zeros [4;5]));
  (*5143*) AddTo (T 239) (Plain (Einsum [(T 237,[0;1])] [0;1]));
  (*5144*) Del (T 237);
  (*5145*) AddTo (T 336) (Plain (Einsum [(T 10,[0;1])] [0;1]));
  (*5146*) AddTo (T 337) (Times (Einsum [(n_t1'aa,[0;1]); (T 336,[0;2])] [2;1]) (9999999999999993) 10000000000000000);
  (*5147*) AddTo (T 338) (Plain (Einsum [(n_t1'aa,[0;1]); (T 336,[0;2])] [2;1]));
  (*5148*) Del (T 336);
  (*5149*) SubFrom n_rdm2_f_oooo_aaaa (Plain (Einsum [(n_delta_oo'aa,[0;1]); (T 10,[2;3])] [1;0;2;3]));
  (*5150*) AddTo n_rdm2_f_oooo_aaaa (Plain (Einsum [(n_delta_oo'aa,[0;1]); (T 10,[2;3])] [2;0;1;3]));
  (*5151*) AddTo n_rdm2_f_oooo_aaaa (Plain (Einsum [(n_delta_oo'aa,[0;1]); (T 10,[2;3])] [1;3;2;0]));
  (*5152*) SubFrom n_rdm2_f_oooo_aaaa (Plain (Einsum [(n_delta_oo'aa,[0;1]); (T 10,[2;3])] [2;3;1;0]));
  (*5153*) Del (T 10);
  (*5154*) Assign (T 11) (Plain (Zeros [4;4;6;6]));
  (*5155*) AddTo (T 11) (Plain (Einsum [(n_l2'abab,[0;1;2;3]); (n_t2'abab,[4;5;0;1])] [2;4;3;5]));
  (*5156*) Assign (T 102) (Plain (Zeros [4;4;6;6]));
  (*5157*) AddTo (T 102) (Plain (Einsum [(T 11,[0;1;2;3])] [0;1;2;3]));
  (*5158*) Assign (T 306) (Plain (Zeros [4;4;6;6]));
  (*5159*) AddTo (T 306) (Plain (Einsum [(T 11,[0;1;2;3])] [0;1;2;3]));
  (*5160*) Assign (T 314) (Plain (Zeros [4;4;6;6]));
  (*5161*) AddTo (T 314) (Plain (Einsum [(T 11,[0;1;2;3])] [0;1;2;3]));
  (*5162*) Assign n_rdm2_f_oooo_aabb (Plain (Zeros [4;4;6;6]));
  (*5163*) AddTo n_rdm2_f_oooo_aabb (Plain (Einsum [(T 11,[0;1;2;3])] [0;1;2;3]));
  (*5164*) Assign n_rdm2_f_oooo_bbaa (Plain (Zeros [6;6;4;4]));
  (*5165*) AddTo n_rdm2_f_oooo_bbaa (Plain (Einsum [(T 11,[0;1;2;3])] [2;3;0;1]));
  (*5166*) Del (T 11);
  (*5167*) Assign (T 12) (Plain (Zeros [4;6;6;5]));
  (*5168*) AddTo (T 12) (Plain (Einsum [(n_t1'bb,[0;1]); (n_l2'abab,[2;1;3;4])] [3;4;0;2]));
  (*5169*) Assign (T 13) (Plain (Zeros [4;4;6;6]));
  (*5170*) AddTo (T 13) (Plain (Einsum [(n_t1'aa,[0;1]); (T 12,[2;3;4;1])] [2;0;3;4]));
  (*5171*) AddTo (T 102) (Plain (Einsum [(T 13,[0;1;2;3])] [0;1;2;3]));
  (*5172*) Assign (T 103) (Plain (Zeros [4;4;6;7]));
  (*5173*) AddTo (T 103) (Plain (Einsum [(n_t1'bb,[0;1]); (T 102,[2;3;0;4])] [2;3;4;1]));
  (*5174*) AddTo n_rdm2_f_oovo_aabb (Plain (Einsum [(T 103,[0;1;2;3])] [0;1;3;2]));
  (*5175*) AddTo n_rdm2_f_vooo_bbaa (Plain (Einsum [(T 103,[0;1;2;3])] [3;2;0;1]));
  (*5176*) Del (T 103);
  (*5177*) Assign (T 118) (Plain (Zeros [4;6;6;5]));
  (*5178*) AddTo (T 118) (Plain (Einsum [(n_t1'aa,[0;1]); (T 102,[0;2;3;4])] [2;3;4;1]));
  (*5179*) Del (T 102);
  (*5180*) Assign n_rdm2_f_oovo_bbaa (Plain (Zeros [6;6;5;4]));
  (*5181*) AddTo n_rdm2_f_oovo_bbaa (Plain (Einsum [(T 118,[0;1;2;3])] [1;2;3;0]));
  (*5182*) Assign n_rdm2_f_vooo_aabb (Plain (Zeros [5;4;6;6]));
  (*5183*) AddTo n_rdm2_f_vooo_aabb (Plain (Einsum [(T 118,[0;1;2;3])] [3;0;1;2]));
  (*5184*) Del (T 118);
  (*5185*) AddTo (T 306) (Plain (Einsum [(T 13,[0;1;2;3])] [0;1;2;3]));
  (*5186*) Assign (T 307) (Plain (Zeros [4;6;5;7]));
  (*5187*) AddTo (T 307) (Plain (Einsum [(n_t2'abab,[0;1;2;3]); (T 306,[0;4;1;5])] [4;5;2;3]));
  (*5188*) Del (T 306);
  (*5189*) AddTo n_rdm2_f_vovo_bbaa (Plain (Einsum [(T 307,[0;1;2;3])] [3;1;2;0]));
  (*5190*) AddTo n_rdm2_f_vovo_aabb (Plain (Einsum [(T 307,[0;1;2;3])] [2;0;3;1]));
  (*5191*) Del (T 307);
  (*5192*) AddTo (T 314) (Times (Einsum [(T 13,[0;1;2;3])] [0;1;2;3]) (9999999999999993) 10000000000000000);
  (*5193*) Assign (T 315) (Plain (Zeros [4;6;6;5]));
  (*5194*) AddTo (T 315) (Plain (Einsum [(n_t1'aa,[0;1]); (T 314,[0;2;3;4])] [2;3;4;1]));
  (*5195*) Del (T 314);
  (*5196*) Assign (T 316) (Plain (Zeros [4;6;6;5]));
  (*5197*) AddTo (T 316) (Plain (Einsum [(T 315,[0;1;2;3])] [0;1;2;3]));
  (*5198*) Del (T 315);
  (*5199*) AddTo n_rdm2_f_oooo_aabb (Plain (Einsum [(T 13,[0;1;2;3])] [0;1;2;3]));
  (*5200*) AddTo n_rdm2_f_oooo_bbaa (Plain (Einsum [(T 13,[0;1;2;3])] [2;3;0;1]));
  (*5201*) Del (T 13);
  (*5202*) Assign (T 65) (Plain (Zeros [6;6;6;7]));
  (*5203*) AddTo (T 65) (Plain (Einsum [(n_t2'abab,[0;1;2;3]); (T 12,[0;4;5;2])] [4;5;1;3]));
  (*5204*) Assign (T 77) (Plain (Zeros [6;6;6;7]));
  (*5205*) AddTo (T 77) (Plain (Einsum [(T 65,[0;1;2;3])] [0;1;2;3]));
  (*5206*) Assign (T 131) (Plain (Zeros [6;6;6;7]));
  (*5207*) AddTo (T 131) (Times (Einsum [(T 65,[0;1;2;3])] [0;1;2;3]) (-1) 1);
  (*5208*) Assign (T 254) (Plain (Zeros [6;6;6;7]));
  (*5209*) SubFrom (T 254) (Plain (Einsum [(T 65,[0;1;2;3])] [0;1;2;3]));
  (*5210*) Del (T 65);
  (*5211*) Assign (T 72) (Plain (Zeros [6;7]));
  (*5212*) AddTo (T 72) (Plain (Einsum [(n_t2'abab,[0;1;2;3]); (T 12,[0;1;4;2])] [4;3]));
  (*5213*) Assign (T 76) (Plain (Zeros [6;7]));
  (*5214*) AddTo (T 76) (Times (Einsum [(T 72,[0;1])] [0;1]) (2) 1);
  (*5215*) Assign (T 110) (Plain (Zeros [6;7]));
  (*5216*) AddTo (T 110) (Plain (Einsum [(T 72,[0;1])] [0;1]));
  (*5217*) Assign (T 280) (Plain (Zeros [6;7]));
  (*5218*) AddTo (T 280) (Times (Einsum [(T 72,[0;1])] [0;1]) (20000000000000013) 10000000000000000);
  (*5219*) Assign (T 334) (Plain (Zeros [6;7]));
  (*5220*) AddTo (T 334) (Plain (Einsum [(T 72,[0;1])] [0;1]));
  (*5221*) Assign (T 339) (Plain (Zeros [6;7]));
  (*5222*) AddTo (T 339) (Plain (Einsum [(T 72,[0;1])] [0;1]));
  (*5223*) Del (T 72);
  (*5224*) Assign (T 96) (Plain (Zeros [4;4;6;7]));
  (*5225*) AddTo (T 96) (Plain (Einsum [(n_t2'abab,[0;1;2;3]); (T 12,[4;1;5;2])] [4;0;5;3]));
  (*5226*) AddTo (T 320) (Times (Einsum [(T 96,[0;1;2;3])] [0;1;2;3]) (-1) 1);
  (*5227*) AddTo n_rdm2_f_oovo_aabb (Plain (Einsum [(T 96,[0;1;2;3])] [0;1;3;2]));
  (*5228*) AddTo n_rdm2_f_vooo_bbaa (Plain (Einsum [(T 96,[0;1;2;3])] [3;2;0;1]));
  (*5229*) Del (T 96);
  (*5230*) Assign (T 162) (Plain (Zeros [6;6;5;5]));
  (*5231*) AddTo (T 162) (Plain (Einsum [(n_t1'aa,[0;1]); (T 12,[0;2;3;4])] [2;3;4;1]));
  (*5232*) Assign n_rdm2_f_oovv_bbaa (Plain (Zeros [6;6;5;5]));
  (*5233*) SubFrom n_rdm2_f_oovv_bbaa (Plain (Einsum [(T 162,[0;1;2;3])] [0;1;3;2]));
  (*5234*) Assign n_rdm2_f_vvoo_aabb (Plain (Zeros [5;5;6;6]));
  (*5235*) SubFrom n_rdm2_f_vvoo_aabb (Plain (Einsum [(T 162,[0;1;2;3])] [3;2;0;1]));
  (*5236*) Del (T 162);
  (*5237*) Assign (T 173) (Plain (Zeros [4;6;5;7]));
  (*5238*) AddTo (T 173) (Plain (Einsum [(n_t1'bb,[0;1]); (T 12,[2;0;3;4])] [2;3;4;1]));
  (*5239*) Assign (T 377) (Plain (Zeros [4;6;5;7]));
  (*5240*) AddTo (T 377) (Plain (Einsum [(T 173,[0;1;2;3])] [0;1;2;3]));
  (*5241*) Assign n_rdm2_f_ovvo_aabb (Plain (Zeros [4;5;7;6]));
  (*5242*) SubFrom n_rdm2_f_ovvo_aabb (Plain (Einsum [(T 173,[0;1;2;3])] [0;2;3;1]));
  (*5243*) Assign n_rdm2_f_voov_bbaa (Plain (Zeros [7;6;4;5]));
  (*5244*) SubFrom n_rdm2_f_voov_bbaa (Plain (Einsum [(T 173,[0;1;2;3])] [3;1;0;2]));
  (*5245*) Del (T 173);
  (*5246*) Assign (T 372) (Plain (Zeros [6;5;5;7]));
  (*5247*) AddTo (T 372) (Plain (Einsum [(n_t2'abab,[0;1;2;3]); (T 12,[0;1;4;5])] [4;5;2;3]));
  (*5248*) Assign n_rdm2_f_vovv_bbaa (Plain (Zeros [7;6;5;5]));
  (*5249*) AddTo n_rdm2_f_vovv_bbaa (Times (Einsum [(T 372,[0;1;2;3])] [3;0;2;1]) (-1) 1);
  (*5250*) Assign n_rdm2_f_vvvo_aabb (Plain (Zeros [5;5;7;6]));
  (*5251*) AddTo n_rdm2_f_vvvo_aabb (Times (Einsum [(T 372,[0;1;2;3])] [2;1;3;0]) (-1) 1);
  (*5252*) Del (T 372);
  (*5253*) Assign n_rdm2_f_ooov_bbaa (Plain (Zeros [6;6;4;5]));
  (*5254*) SubFrom n_rdm2_f_ooov_bbaa (Plain (Einsum [(T 12,[0;1;2;3])] [1;2;0;3]));
  (*5255*) Assign n_rdm2_f_ovoo_aabb (Plain (Zeros [4;5;6;6]));
  (*5256*) SubFrom n_rdm2_f_ovoo_aabb (Plain (Einsum [(T 12,[0;1;2;3])] [0;3;1;2]));
  (*5257*) AddTo (T 15) (Times (Einsum [(n_delta_oo'aa,[0;1])] [1;0]) (-1) 1);
  (*5258*) AddTo n_rdm2_f_oooo_aabb (Times (Einsum [(n_delta_oo'bb,[0;1]); (T 15,[2;3])] [3;2;1;0]) (-1) 1);
  (*5259*) AddTo n_rdm2_f_oooo_bbaa (Times (Einsum [(n_delta_oo'bb,[0;1]); (T 15,[2;3])] [1;0;3;2]) (-1) 1);
  (*5260*) Del (T 15);
  (*5261*) Assign (T 16) (Plain (Zeros [6;6]));
  (*5262*) AddTo (T 16) (Plain (Einsum [(n_l1'bb,[0;1]); (n_t1'bb,[2;0])] [1;2]));
  (*5263*) Assign (T 22) (Plain (Zeros [6;6]));
  (*5264*) AddTo (T 22) (Times (Einsum [(T 16,[0;1])] [0;1]) (2) 1);
  (*5265*) Assign (T 24) (Plain (Zeros [6;6]));
  (*5266*) AddTo (T 24) (Plain (Einsum [(T 16,[0;1])] [0;1]));
  (*5267*) Assign (T 90) (Plain (Zeros [6;6]));
  (*5268*) AddTo (T 90) (Plain (Einsum [(T 16,[0;1])] [0;1]));
  (*5269*) Assign (T 94) (Plain (Zeros [6;7]));
  (*5270*) AddTo (T 94) (Plain (Einsum [(n_t1'bb,[0;1]); (T 16,[0;2])] [2;1]));
  (*5271*) Assign (T 95) (Plain (Zeros [6;7]));
  (*5272*) AddTo (T 95) (Times (Einsum [(T 94,[0;1])] [0;1]) (-1) 1);
  (*5273*) Del (T 94);
  (*5274*) Assign (T 240) (Plain (Zeros [6;6;7;7]));
  (*5275*) AddTo (T 240) (Plain (Einsum [(T 16,[0;1]); (n_t2'bbbb,[2;0;3;4])] [1;2;3;4]));
  (*5276*) Assign (T 264) (Plain (Zeros [6;6;7;7]));
  (*5277*) AddTo (T 264) (Plain (Einsum [(T 240,[0;1;2;3])] [0;1;2;3]));
  (*5278*) Del (T 240);
  (*5279*) Assign (T 298) (Plain (Zeros [6;6]));
  (*5280*) AddTo (T 298) (Plain (Einsum [(T 16,[0;1])] [0;1]));
  (*5281*) Assign (T 333) (Plain (Zeros [6;6]));
  (*5282*) AddTo (T 333) (Plain (Einsum [(T 16,[0;1])] [0;1]));
  (*5283*) Assign n_rdm2_f_oooo_bbbb (Plain (Zeros [6;6;6;6]));
  (*5284*) SubFrom n_rdm2_f_oooo_bbbb (Plain (Einsum [(n_delta_oo'bb,[0;1]); (T 16,[2;3])] [1;0;2;3]));
  (*5285*) AddTo n_rdm2_f_oooo_bbbb (Plain (Einsum [(n_delta_oo'bb,[0;1]); (T 16,[2;3])] [2;0;1;3]));
  (*5286*) AddTo n_rdm2_f_oooo_bbbb (Plain (Einsum [(n_delta_oo'bb,[0;1]); (T 16,[2;3])] [1;3;2;0]));
  (*5287*) SubFrom n_rdm2_f_oooo_bbbb (Plain (Einsum [(n_delta_oo'bb,[0;1]); (T 16,[2;3])] [2;3;1;0]));
  (*5288*) Del (T 16);
  (*5289*) Assign (T 17) (Plain (Zeros [6;6]));
  (*5290*) AddTo (T 17) (Plain (Einsum [(n_lu11'bb,[0;1;2]); (n_u11'bb,[0;3;1])] [2;3]));
  (*5291*) AddTo (T 22) (Times (Einsum [(T 17,[0;1])] [0;1]) (2) 1);
  (*5292*) AddTo (T 24) (Plain (Einsum [(T 17,[0;1])] [0;1]));
  (*5293*) Assign (T 84) (Plain (Zeros [6;7]));
  (*5294*) AddTo (T 84) (Plain (Einsum [(n_t1'bb,[0;1]); (T 17,[0;2])] [2;1]));
  (*5295*) Assign (T 89) (Plain (Zeros [6;7]));
  (*5296*) AddTo (T 89) (Plain (Einsum [(T 84,[0;1])] [0;1]));
  (*5297*) Del (T 84);
  (*5298*) AddTo (T 90) (Plain (Einsum [(T 17,[0;1])] [0;1]));
  (*5299*) Assign (T 91) (Plain (Zeros [6;6;6;7]));
  (*5300*) AddTo (T 91) (Plain (Einsum [(n_t1'bb,[0;1]); (T 90,[2;3])] [2;0;3;1]));
  (*5301*) Assign (T 129) (Plain (Zeros [6;6;6;7]));
  (*5302*) AddTo (T 129) (Plain (Einsum [(n_t1'bb,[0;1]); (T 90,[2;3])] [2;0;3;1]));
  (*5303*) Del (T 90);
  (*5304*) Assign (T 242) (Plain (Zeros [6;6;7;7]));
  (*5305*) AddTo (T 242) (Plain (Einsum [(T 17,[0;1]); (n_t2'bbbb,[2;0;3;4])] [2;1;3;4]));
  (*5306*) SubFrom (T 264) (Plain (Einsum [(T 242,[0;1;2;3])] [0;1;2;3]));
  (*5307*) Del (T 242);
  (*5308*) AddTo (T 298) (Plain (Einsum [(T 17,[0;1])] [0;1]));
  (*5309*) Assign (T 299) (Plain (Zeros [6;7]));
  (*5310*) AddTo (T 299) (Plain (Einsum [(n_t1'bb,[0;1]); (T 298,[0;2])] [2;1]));
  (*5311*) Del (T 298);
  (*5312*) Assign (T 300) (Plain (Zeros [6;7]));
  (*5313*) AddTo (T 300) (Plain (Einsum [(T 299,[0;1])] [0;1]));
  (*5314*) Assign (T 301) (Plain (Zeros [6;7]));
  (*5315*) AddTo (T 301) (Plain (Einsum [(T 299,[0;1])] [0;1]));
  (*5316*) Del (T 299);
  (*5317*) AddTo (T 333) (Plain (Einsum [(T 17,[0;1])] [0;1]));
  (*5318*) SubFrom n_rdm2_f_oooo_bbbb (Plain (Einsum [(n_delta_oo'bb,[0;1]); (T 17,[2;3])] [0;1;2;3]));
  (*5319*) AddTo n_rdm2_f_oooo_bbbb (Plain (Einsum [(n_delta_oo'bb,[0;1]); (T 17,[2;3])] [0;3;2;1]));
  (*5320*) AddTo n_rdm2_f_oooo_bbbb (Plain (Einsum [(n_delta_oo'bb,[0;1]); (T 17,[2;3])] [2;0;1;3]));
  (*5321*) SubFrom n_rdm2_f_oooo_bbbb (Plain (Einsum [(n_delta_oo'bb,[0;1]); (T 17,[2;3])] [2;3;1;0]));
  (*5322*) Del (T 17);
  (*5323*) Assign (T 18) (Plain (Zeros [6;6]));
  (*5324*) AddTo (T 18) (Plain (Einsum [(n_lu12'bb,[0;1;2;3]); (n_u12'bb,[0;1;4;2])] [3;4]));
  (*5325*) AddTo (T 22) (Plain (Einsum [(T 18,[0;1])] [0;1]));
  (*5326*) AddTo (T 24) (Times (Einsum [(T 18,[0;1])] [0;1]) (1) 2);
  (*5327*) Assign (T 25) (Plain (Zeros [6;6]));
  (*5328*) AddTo (T 25) (Plain (Einsum [(T 18,[0;1])] [0;1]));
  (*5329*) Assign (T 74) (Plain (Zeros [6;6]));
  (*5330*) AddTo (T 74) (Times (Einsum [(T 18,[0;1])] [0;1]) (1) 2);
  (*5331*) Assign (T 275) (Plain (Zeros [6;6]));
  (*5332*) AddTo (T 275) (Times (Einsum [(T 18,[0;1])] [0;1]) (1) 2);
  (*5333*) Assign (T 278) (Plain (Zeros [6;6]));
  (*5334*) AddTo (T 278) (Times (Einsum [(T 18,[0;1])] [0;1]) (49999999999999967) 100000000000000000);
  (*5335*) AddTo (T 333) (Times (Einsum [(T 18,[0;1])] [0;1]) (1) 2);
  (*5336*) Del (T 18);
  (*5337*) Assign (T 19) (Plain (Zeros [6;6]));
  (*5338*) AddTo (T 19) (Plain (Einsum [(n_l2'abab,[0;1;2;3]); (n_t2'abab,[2;4;0;1])] [3;4]));
  (*5339*) AddTo (T 22) (Times (Einsum [(T 19,[0;1])] [0;1]) (2) 1);
  (*5340*) AddTo (T 24) (Plain (Einsum [(T 19,[0;1])] [0;1]));
  (*5341*) AddTo (T 25) (Times (Einsum [(T 19,[0;1])] [0;1]) (2) 1);
  (*5342*) AddTo (T 74) (Plain (Einsum [(T 19,[0;1])] [0;1]));
  (*5343*) Assign (T 266) (Plain (Zeros [6;6;7;7]));
  (*5344*) AddTo (T 266) (Plain (Einsum [(T 19,[0;1]); (n_t2'bbbb,[2;0;3;4])] [1;2;3;4]));
  (*5345*) Assign (T 281) (Plain (Zeros [6;6;7;7]));
  (*5346*) AddTo (T 281) (Times (Einsum [(T 266,[0;1;2;3])] [0;1;2;3]) (-1) 1);
  (*5347*) Del (T 266);
  (*5348*) AddTo (T 278) (Plain (Einsum [(T 19,[0;1])] [0;1]));
  (*5349*) AddTo (T 333) (Plain (Einsum [(T 19,[0;1])] [0;1]));
  (*5350*) Del (T 19);
  (*5351*) Assign (T 20) (Plain (Zeros [6;6;7;7]));
  (*5352*) AddTo (T 20) (Times (Einsum [(n_t2'bbbb,[0;1;2;3])] [1;0;2;3]) (-1) 1);
  (*5353*) AddTo (T 20) (Plain (Einsum [(n_t2'bbbb,[0;1;2;3])] [1;0;3;2]));
  (*5354*) Assign (T 21) (Plain (Zeros [6;6]));
  (*5355*) AddTo (T 21) (Times (Einsum [(n_l2'bbbb,[0;1;2;3]); (T 20,[2;4;1;0])] [3;4]) (2) 1);
  (*5356*) AddTo (T 22) (Times (Einsum [(T 21,[0;1])] [0;1]) (-1) 1);
  (*5357*) AddTo n_rdm2_f_oooo_aabb (Times (Einsum [(n_delta_oo'aa,[0;1]); (T 22,[2;3])] [1;0;2;3]) (-1) 2);
  (*5358*) AddTo n_rdm2_f_oovo_bbaa (Times (Einsum [(n_t1'aa,[0;1]); (T 22,[2;3])] [2;3;1;0]) (-1) 2);
  (*5359*) AddTo n_rdm2_f_vooo_aabb (Times (Einsum [(n_t1'aa,[0;1]); (T 22,[2;3])] [1;0;2;3]) (-1) 2);
  (*5360*) Del (T 22);
  (*5361*) AddTo (T 25) (Times (Einsum [(T 21,[0;1])] [0;1]) (-1) 1);
  (*5362*) Del (T 21);
  (*5363*) AddTo n_rdm2_f_oooo_bbbb (Times (Einsum [(n_delta_oo'bb,[0;1]); (T 25,[2;3])] [1;0;2;3]) (-1) 2);
  (*5364*) AddTo n_rdm2_f_oooo_bbbb (Times (Einsum [(n_delta_oo'bb,[0;1]); (T 25,[2;3])] [1;3;2;0]) (1) 2);
  (*5365*) AddTo n_rdm2_f_oooo_bbbb (Times (Einsum [(n_delta_oo'bb,[0;1]); (T 25,[2;3])] [2;1;0;3]) (1) 2);
  (*5366*) AddTo n_rdm2_f_oooo_bbbb (Times (Einsum [(n_delta_oo'bb,[0;1]); (T 25,[2;3])] [2;3;0;1]) (-1) 2);
  (*5367*) Del (T 25);
  (*5368*) Assign (T 23) (Plain (Zeros [6;6]));
  (*5369*) AddTo (T 23) (Plain (Einsum [(n_l2'bbbb,[0;1;2;3]); (T 20,[2;4;1;0])] [3;4]));
  (*5370*) AddTo (T 24) (Times (Einsum [(T 23,[0;1])] [0;1]) (-1) 1);
  (*5371*) Assign (T 109) (Plain (Zeros [6;7]));
  (*5372*) AddTo (T 109) (Plain (Einsum [(n_t1'bb,[0;1]); (T 24,[0;2])] [2;1]));
  (*5373*) AddTo (T 110) (Plain (Einsum [(T 109,[0;1])] [0;1]));
  (*5374*) Del (T 109);
  (*5375*) Assign (T 322) (Plain (Zeros [4;6;5;7]));
  (*5376*) AddTo (T 322) (Plain (Einsum [(T 24,[0;1]); (n_t2'abab,[2;0;3;4])] [2;1;3;4]));
  (*5377*) AddTo n_rdm2_f_vovo_bbaa (Times (Einsum [(T 322,[0;1;2;3])] [3;1;2;0]) (-1) 1);
  (*5378*) AddTo n_rdm2_f_vovo_aabb (Times (Einsum [(T 322,[0;1;2;3])] [2;0;3;1]) (-1) 1);
  (*5379*) Del (T 322);
  (*5380*) AddTo n_rdm2_f_oooo_bbaa (Times (Einsum [(n_delta_oo'aa,[0;1]); (T 24,[2;3])] [2;3;1;0]) (-1) 1);
  (*5381*) Del (T 24);
  (*5382*) AddTo (T 74) (Times (Einsum [(T 23,[0;1])] [0;1]) (-1) 1);
  (*5383*) Assign (T 75) (Plain (Zeros [6;7]));
  (*5384*) AddTo (T 75) (Times (Einsum [(n_t1'bb,[0;1]); (T 74,[0;2])] [2;1]) (2) 1);
  (*5385*) AddTo (T 76) (Plain (Einsum [(T 75,[0;1])] [0;1]));
  (*5386*) Del (T 75);
  (*5387*) AddTo (T 77) (Times (Einsum [(n_t1'bb,[0;1]); (T 74,[2;3])] [2;0;3;1]) (-1) 1);
  (*5388*) AddTo (T 131) (Plain (Einsum [(n_t1'bb,[0;1]); (T 74,[2;3])] [2;0;3;1]));
  (*5389*) Del (T 74);
  (*5390*) AddTo (T 275) (Times (Einsum [(T 23,[0;1])] [0;1]) (-1) 1);
  (*5391*) Assign (T 276) (Plain (Zeros [6;6;7;7]));
  (*5392*) AddTo (T 276) (Plain (Einsum [(T 275,[0;1]); (n_t2'bbbb,[0;2;3;4])] [2;1;3;4]));
  (*5393*) Del (T 275);
  (*5394*) AddTo (T 281) (Plain (Einsum [(T 276,[0;1;2;3])] [0;1;3;2]));
  (*5395*) Del (T 276);
  (*5396*) AddTo (T 278) (Times (Einsum [(T 23,[0;1])] [0;1]) (-1) 1);
  (*5397*) Del (T 23);
  (*5398*) Assign (T 279) (Plain (Zeros [6;7]));
  (*5399*) AddTo (T 279) (Times (Einsum [(n_t1'bb,[0;1]); (T 278,[0;2])] [2;1]) (20000000000000013) 10000000000000000);
  (*5400*) Del (T 278);
  (*5401*) AddTo (T 280) (Plain (Einsum [(T 279,[0;1])] [0;1]));
  (*5402*) Del (T 279);
  (*5403*) Assign (T 269) (Plain (Zeros [3;3;6;7]));
  (*5404*) AddTo (T 269) (Plain (Einsum [(n_lu12'bb,[0;1;2;3]); (T 20,[3;4;5;2])] [0;1;4;5]));
  (*5405*) Assign (T 270) (Plain (Zeros [3;3;6;7]));
  (*5406*) AddTo (T 270) (Times (Einsum [(T 269,[0;1;2;3])] [1;0;2;3]) (-1) 1);
  (*5407*) Del (T 269);
  (*5408*) Assign (T 332) (Plain (Zeros [6;6]));
  (*5409*) AddTo (T 332) (Plain (Einsum [(n_l2'bbbb,[0;1;2;3]); (T 20,[2;4;1;0])] [3;4]));
  (*5410*) AddTo (T 333) (Times (Einsum [(T 332,[0;1])] [0;1]) (-1) 1);
  (*5411*) Del (T 332);
  (*5412*) AddTo (T 334) (Plain (Einsum [(n_t1'bb,[0;1]); (T 333,[0;2])] [2;1]));
  (*5413*) AddTo (T 339) (Times (Einsum [(n_t1'bb,[0;1]); (T 333,[0;2])] [2;1]) (9999999999999993) 10000000000000000);
  (*5414*) Del (T 333);
  (*5415*) Assign (T 26) (Plain (Zeros [6;6;6;6]));
  (*5416*) AddTo (T 26) (Plain (Einsum [(n_l2'bbbb,[0;1;2;3]); (n_t2'bbbb,[4;5;1;0])] [2;3;5;4]));
  (*5417*) Assign (T 69) (Plain (Zeros [6;6;6;6]));
  (*5418*) AddTo (T 69) (Plain (Einsum [(T 26,[0;1;2;3])] [1;0;3;2]));
  (*5419*) Assign (T 292) (Plain (Zeros [6;6;6;7]));
  (*5420*) AddTo (T 292) (Plain (Einsum [(n_t1'bb,[0;1]); (T 26,[2;0;3;4])] [2;3;4;1]));
  (*5421*) Assign (T 293) (Plain (Zeros [6;6;7;7]));
  (*5422*) AddTo (T 293) (Plain (Einsum [(n_t1'bb,[0;1]); (T 292,[0;2;3;4])] [3;2;4;1]));
  (*5423*) Del (T 292);
  (*5424*) Assign (T 296) (Plain (Zeros [6;6;7;7]));
  (*5425*) AddTo (T 296) (Plain (Einsum [(T 293,[0;1;2;3])] [0;1;2;3]));
  (*5426*) Del (T 293);
  (*5427*) Assign (T 294) (Plain (Zeros [6;6;6;6]));
  (*5428*) AddTo (T 294) (Plain (Einsum [(T 26,[0;1;2;3])] [1;0;3;2]));
  (*5429*) AddTo n_rdm2_f_oooo_bbbb (Times (Einsum [(T 26,[0;1;2;3])] [1;2;0;3]) (-1) 1);
  (*5430*) AddTo n_rdm2_f_oooo_bbbb (Plain (Einsum [(T 26,[0;1;2;3])] [1;3;0;2]));
  (*5431*) Del (T 26);
  (*5432*) Assign (T 27) (Plain (Zeros [6;6;6;7]));
  (*5433*) AddTo (T 27) (Plain (Einsum [(n_t1'bb,[0;1]); (n_l2'bbbb,[2;1;3;4])] [3;4;0;2]));
  (*5434*) Assign (T 28) (Plain (Zeros [6;6;6;6]));
  (*5435*) AddTo (T 28) (Plain (Einsum [(n_t1'bb,[0;1]); (T 27,[2;3;4;1])] [3;2;4;0]));
  (*5436*) AddTo (T 69) (Plain (Einsum [(T 28,[0;1;2;3])] [0;1;2;3]));
  (*5437*) Assign (T 70) (Plain (Zeros [6;6;6;7]));
  (*5438*) AddTo (T 70) (Plain (Einsum [(n_t1'bb,[0;1]); (T 69,[0;2;3;4])] [2;3;4;1]));
  (*5439*) Del (T 69);
  (*5440*) AddTo (T 77) (Times (Einsum [(T 70,[0;1;2;3])] [0;2;1;3]) (-1) 1);
  (*5441*) AddTo (T 131) (Plain (Einsum [(T 70,[0;1;2;3])] [0;2;1;3]));
  (*5442*) Del (T 70);
  (*5443*) Assign (T 286) (Plain (Zeros [6;6;6;7]));
  (*5444*) AddTo (T 286) (Plain (Einsum [(n_t1'bb,[0;1]); (T 28,[0;2;3;4])] [2;4;3;1]));
  (*5445*) Assign (T 287) (Plain (Zeros [6;6;7;7]));
  (*5446*) AddTo (T 287) (Plain (Einsum [(n_t1'bb,[0;1]); (T 286,[0;2;3;4])] [2;3;1;4]));
  (*5447*) Del (T 286);
  (*5448*) Assign (T 291) (Plain (Zeros [6;6;7;7]));
  (*5449*) AddTo (T 291) (Plain (Einsum [(T 287,[0;1;2;3])] [0;1;2;3]));
  (*5450*) Del (T 287);
  (*5451*) AddTo (T 294) (Plain (Einsum [(T 28,[0;1;2;3])] [0;1;2;3]));
  (*5452*) Assign (T 295) (Plain (Zeros [6;6;7;7]));
  (*5453*) AddTo (T 295) (Plain (Einsum [(n_t2'bbbb,[0;1;2;3]); (T 294,[0;1;4;5])] [4;5;2;3]));
  (*5454*) Del (T 294);
  (*5455*) AddTo (T 296) (Plain (Einsum [(T 295,[0;1;2;3])] [0;1;2;3]));
  (*5456*) Del (T 295);
  (*5457*) Assign n_rdm2_f_vovo_bbbb (Plain (Zeros [7;6;7;6]));
  (*5458*) AddTo n_rdm2_f_vovo_bbbb (Times (Einsum [(T 296,[0;1;2;3])] [2;1;3;0]) (-1) 1);
  (*5459*) AddTo n_rdm2_f_vovo_bbbb (Plain (Einsum [(T 296,[0;1;2;3])] [3;1;2;0]));
  (*5460*) Del (T 296);
  (*5461*) AddTo n_rdm2_f_oooo_bbbb (Plain (Einsum [(T 28,[0;1;2;3])] [0;2;1;3]));
  (*5462*) AddTo n_rdm2_f_oooo_bbbb (Times (Einsum [(T 28,[0;1;2;3])] [0;3;1;2]) (-1) 1);
  (*5463*) Del (T 28);
  (*5464*) Assign (T 66) (Plain (Zeros [6;6;6;7]));
  (*5465*) AddTo (T 66) (Plain (Einsum [(T 27,[0;1;2;3])] [0;1;2;3]));
  (*5466*) AddTo (T 66) (Times (Einsum [(T 27,[0;1;2;3])] [1;0;2;3]) (-1) 1);
  (*5467*) Assign (T 73) (Plain (Zeros [6;7]));
  (*5468*) AddTo (T 73) (Times (Einsum [(n_t2'bbbb,[0;1;2;3]); (T 66,[0;1;4;3])] [4;2]) (2) 1);
  (*5469*) AddTo (T 76) (Times (Einsum [(T 73,[0;1])] [0;1]) (-1) 1);
  (*5470*) Del (T 73);
  (*5471*) Assign (T 105) (Plain (Zeros [6;7]));
  (*5472*) AddTo (T 105) (Plain (Einsum [(n_t2'bbbb,[0;1;2;3]); (T 66,[0;1;4;3])] [4;2]));
  (*5473*) AddTo (T 110) (Times (Einsum [(T 105,[0;1])] [0;1]) (-1) 1);
  (*5474*) AddTo (T 339) (Times (Einsum [(T 105,[0;1])] [0;1]) (-1) 1);
  (*5475*) Del (T 105);
  (*5476*) Assign (T 130) (Plain (Zeros [6;6;6;7]));
  (*5477*) AddTo (T 130) (Plain (Einsum [(T 20,[0;1;2;3]); (T 66,[4;0;5;2])] [1;4;5;3]));
  (*5478*) AddTo (T 131) (Plain (Einsum [(T 130,[0;1;2;3])] [1;2;0;3]));
  (*5479*) Del (T 130);
  (*5480*) Assign (T 277) (Plain (Zeros [6;7]));
  (*5481*) AddTo (T 277) (Times (Einsum [(n_t2'bbbb,[0;1;2;3]); (T 66,[0;1;4;3])] [4;2]) (20000000000000013) 10000000000000000);
  (*5482*) AddTo (T 280) (Times (Einsum [(T 277,[0;1])] [0;1]) (-1) 1);
  (*5483*) Del (T 277);
  (*5484*) AddTo (T 334) (Times (Einsum [(n_t2'bbbb,[0;1;2;3]); (T 66,[0;1;4;3])] [4;2]) (-1) 1);
  (*5485*) Assign (T 115) (Plain (Zeros [6;6;6;7]));
  (*5486*) AddTo (T 115) (Times (Einsum [(T 27,[0;1;2;3])] [0;1;2;3]) (-1) 1);
  (*5487*) AddTo (T 115) (Plain (Einsum [(T 27,[0;1;2;3])] [1;0;2;3]));
  (*5488*) Assign (T 116) (Plain (Zeros [4;6;6;5]));
  (*5489*) AddTo (T 116) (Plain (Einsum [(n_t2'abab,[0;1;2;3]); (T 115,[4;1;5;3])] [0;4;5;2]));
  (*5490*) Del (T 115);
  (*5491*) AddTo (T 316) (Times (Einsum [(T 116,[0;1;2;3])] [0;1;2;3]) (-1) 1);
  (*5492*) AddTo n_rdm2_f_oovo_bbaa (Times (Einsum [(T 116,[0;1;2;3])] [1;2;3;0]) (-1) 1);
  (*5493*) AddTo n_rdm2_f_vooo_aabb (Times (Einsum [(T 116,[0;1;2;3])] [3;0;1;2]) (-1) 1);
  (*5494*) Del (T 116);
  (*5495*) Assign (T 152) (Plain (Zeros [6;6;6;7]));
  (*5496*) SubFrom (T 152) (Plain (Einsum [(T 27,[0;1;2;3])] [0;1;2;3]));
  (*5497*) AddTo (T 152) (Plain (Einsum [(T 27,[0;1;2;3])] [1;0;2;3]));
  (*5498*) Assign (T 153) (Plain (Zeros [6;6;7;7]));
  (*5499*) AddTo (T 153) (Plain (Einsum [(n_t1'bb,[0;1]); (T 152,[2;0;3;4])] [2;3;1;4]));
  (*5500*) Assign n_rdm2_f_oovv_bbbb (Plain (Zeros [6;6;7;7]));
  (*5501*) SubFrom n_rdm2_f_oovv_bbbb (Plain (Einsum [(T 153,[0;1;2;3])] [0;1;2;3]));
  (*5502*) Assign n_rdm2_f_vvoo_bbbb (Plain (Zeros [7;7;6;6]));
  (*5503*) SubFrom n_rdm2_f_vvoo_bbbb (Plain (Einsum [(T 153,[0;1;2;3])] [2;3;0;1]));
  (*5504*) Del (T 153);
  (*5505*) Assign (T 182) (Plain (Zeros [6;6;7;7]));
  (*5506*) AddTo (T 182) (Plain (Einsum [(n_t1'bb,[0;1]); (T 152,[0;2;3;4])] [2;3;1;4]));
  (*5507*) Del (T 152);
  (*5508*) Assign n_rdm2_f_ovvo_bbbb (Plain (Zeros [6;7;7;6]));
  (*5509*) SubFrom n_rdm2_f_ovvo_bbbb (Plain (Einsum [(T 182,[0;1;2;3])] [0;3;2;1]));
  (*5510*) Assign n_rdm2_f_voov_bbbb (Plain (Zeros [7;6;6;7]));
  (*5511*) SubFrom n_rdm2_f_voov_bbbb (Plain (Einsum [(T 182,[0;1;2;3])] [2;1;0;3]));
  (*5512*) Del (T 182);
  (*5513*) Assign (T 252) (Plain (Zeros [6;6;6;7]));
  (*5514*) AddTo (T 252) (Plain (Einsum [(T 27,[0;1;2;3])] [0;1;2;3]));
  (*5515*) SubFrom (T 252) (Plain (Einsum [(T 27,[0;1;2;3])] [1;0;2;3]));
  (*5516*) Assign (T 364) (Plain (Zeros [6;7;7;7]));
  (*5517*) AddTo (T 364) (Plain (Einsum [(n_t2'bbbb,[0;1;2;3]); (T 27,[0;1;4;5])] [4;5;2;3]));
  (*5518*) Assign (T 370) (Plain (Zeros [6;7;7;7]));
  (*5519*) AddTo (T 370) (Plain (Einsum [(T 364,[0;1;2;3])] [0;1;2;3]));
  (*5520*) Del (T 364);
  (*5521*) Assign (T 365) (Plain (Zeros [6;6;7;7]));
  (*5522*) AddTo (T 365) (Plain (Einsum [(n_t1'bb,[0;1]); (T 27,[2;0;3;4])] [2;3;4;1]));
  (*5523*) Assign (T 367) (Plain (Zeros [6;6;7;7]));
  (*5524*) AddTo (T 367) (Times (Einsum [(T 365,[0;1;2;3])] [0;1;2;3]) (-2) 1);
  (*5525*) Del (T 365);
  (*5526*) Assign n_rdm2_f_ooov_bbbb (Plain (Zeros [6;6;6;7]));
  (*5527*) AddTo n_rdm2_f_ooov_bbbb (Plain (Einsum [(T 27,[0;1;2;3])] [0;2;1;3]));
  (*5528*) SubFrom n_rdm2_f_ooov_bbbb (Plain (Einsum [(T 27,[0;1;2;3])] [1;2;0;3]));
  (*5529*) Assign n_rdm2_f_ovoo_bbbb (Plain (Zeros [6;7;6;6]));
  (*5530*) SubFrom n_rdm2_f_ovoo_bbbb (Plain (Einsum [(T 27,[0;1;2;3])] [0;3;1;2]));
  (*5531*) AddTo n_rdm2_f_ovoo_bbbb (Plain (Einsum [(T 27,[0;1;2;3])] [1;3;0;2]));
  (*5532*) Del (T 27);
  (*5533*) Assign (T 29) (Plain (Zeros [4;4;6;7]));
  (*5534*) AddTo (T 29) (Plain (Einsum [(n_t1'aa,[0;1]); (n_l2'abab,[1;2;3;4])] [3;0;4;2]));
  (*5535*) Assign (T 49) (Plain (Zeros [4;4;4;5]));
  (*5536*) AddTo (T 49) (Plain (Einsum [(n_t2'abab,[0;1;2;3]); (T 29,[4;5;1;3])] [4;5;0;2]));
  (*5537*) AddTo (T 61) (Plain (Einsum [(T 49,[0;1;2;3])] [0;1;2;3]));
  (*5538*) AddTo (T 128) (Times (Einsum [(T 49,[0;1;2;3])] [0;1;2;3]) (-1) 1);
  (*5539*) Assign (T 210) (Plain (Zeros [4;4;4;5]));
  (*5540*) SubFrom (T 210) (Plain (Einsum [(T 49,[0;1;2;3])] [0;1;2;3]));
  (*5541*) Del (T 49);
  (*5542*) Assign (T 56) (Plain (Zeros [4;5]));
  (*5543*) AddTo (T 56) (Plain (Einsum [(n_t2'abab,[0;1;2;3]); (T 29,[0;4;1;3])] [4;2]));
  (*5544*) AddTo (T 60) (Times (Einsum [(T 56,[0;1])] [0;1]) (2) 1);
  (*5545*) AddTo (T 125) (Plain (Einsum [(T 56,[0;1])] [0;1]));
  (*5546*) AddTo (T 194) (Times (Einsum [(T 56,[0;1])] [0;1]) (20000000000000013) 10000000000000000);
  (*5547*) AddTo (T 337) (Plain (Einsum [(T 56,[0;1])] [0;1]));
  (*5548*) AddTo (T 338) (Plain (Einsum [(T 56,[0;1])] [0;1]));
  (*5549*) Del (T 56);
  (*5550*) Assign (T 113) (Plain (Zeros [4;6;6;5]));
  (*5551*) AddTo (T 113) (Plain (Einsum [(n_t2'abab,[0;1;2;3]); (T 29,[0;4;5;3])] [4;5;1;2]));
  (*5552*) AddTo (T 316) (Plain (Einsum [(T 113,[0;1;2;3])] [0;1;2;3]));
  (*5553*) AddTo n_rdm2_f_oovo_bbaa (Plain (Einsum [(T 113,[0;1;2;3])] [1;2;3;0]));
  (*5554*) AddTo n_rdm2_f_vooo_aabb (Plain (Einsum [(T 113,[0;1;2;3])] [3;0;1;2]));
  (*5555*) Del (T 113);
  (*5556*) Assign (T 166) (Plain (Zeros [4;4;7;7]));
  (*5557*) AddTo (T 166) (Plain (Einsum [(n_t1'bb,[0;1]); (T 29,[2;3;0;4])] [2;3;4;1]));
  (*5558*) Assign n_rdm2_f_oovv_aabb (Plain (Zeros [4;4;7;7]));
  (*5559*) SubFrom n_rdm2_f_oovv_aabb (Plain (Einsum [(T 166,[0;1;2;3])] [0;1;3;2]));
  (*5560*) Assign n_rdm2_f_vvoo_bbaa (Plain (Zeros [7;7;4;4]));
  (*5561*) SubFrom n_rdm2_f_vvoo_bbaa (Plain (Einsum [(T 166,[0;1;2;3])] [3;2;0;1]));
  (*5562*) Del (T 166);
  (*5563*) Assign (T 178) (Plain (Zeros [4;6;5;7]));
  (*5564*) AddTo (T 178) (Plain (Einsum [(n_t1'aa,[0;1]); (T 29,[0;2;3;4])] [2;3;1;4]));
  (*5565*) Assign (T 387) (Plain (Zeros [4;6;5;7]));
  (*5566*) AddTo (T 387) (Plain (Einsum [(T 178,[0;1;2;3])] [0;1;2;3]));
  (*5567*) Assign n_rdm2_f_ovvo_bbaa (Plain (Zeros [6;7;5;4]));
  (*5568*) SubFrom n_rdm2_f_ovvo_bbaa (Plain (Einsum [(T 178,[0;1;2;3])] [1;3;2;0]));
  (*5569*) Assign n_rdm2_f_voov_aabb (Plain (Zeros [5;4;6;7]));
  (*5570*) SubFrom n_rdm2_f_voov_aabb (Plain (Einsum [(T 178,[0;1;2;3])] [2;0;1;3]));
  (*5571*) Del (T 178);
  (*5572*) Assign (T 319) (Plain (Zeros [4;4;6;7]));
  (*5573*) AddTo (T 319) (Plain (Einsum [(T 20,[0;1;2;3]); (T 29,[4;5;0;3])] [4;5;1;2]));
  (*5574*) Del (T 20);
  (*5575*) AddTo (T 320) (Times (Einsum [(T 319,[0;1;2;3])] [0;1;2;3]) (-1) 1);
  (*5576*) Del (T 319);
  (*5577*) Assign (T 382) (Plain (Zeros [4;5;7;7]));
  (*5578*) AddTo (T 382) (Plain (Einsum [(n_t2'abab,[0;1;2;3]); (T 29,[0;4;1;5])] [4;2;5;3]));
  (*5579*) Assign n_rdm2_f_vovv_aabb (Plain (Zeros [5;4;7;7]));
  (*5580*) AddTo n_rdm2_f_vovv_aabb (Times (Einsum [(T 382,[0;1;2;3])] [1;0;3;2]) (-1) 1);
  (*5581*) Assign n_rdm2_f_vvvo_bbaa (Plain (Zeros [7;7;5;4]));
  (*5582*) AddTo n_rdm2_f_vvvo_bbaa (Times (Einsum [(T 382,[0;1;2;3])] [3;2;1;0]) (-1) 1);
  (*5583*) Del (T 382);
  (*5584*) Assign n_rdm2_f_ooov_aabb (Plain (Zeros [4;4;6;7]));
  (*5585*) SubFrom n_rdm2_f_ooov_aabb (Plain (Einsum [(T 29,[0;1;2;3])] [0;1;2;3]));
  (*5586*) Assign n_rdm2_f_ovoo_bbaa (Plain (Zeros [6;7;4;4]));
  (*5587*) SubFrom n_rdm2_f_ovoo_bbaa (Plain (Einsum [(T 29,[0;1;2;3])] [2;3;0;1]));
  (*5588*) Assign (T 30) (Plain (Zeros [4;5]));
  (*5589*) AddTo (T 30) (Plain (Einsum [(n_ls2,[0;1]); (n_u12'aa,[0;1;2;3])] [2;3]));
  (*5590*) AddTo (T 62) (Times (Einsum [(T 30,[0;1])] [0;1]) (1) 2);
  (*5591*) AddTo (T 125) (Times (Einsum [(T 30,[0;1])] [0;1]) (-1) 2);
  (*5592*) AddTo (T 238) (Times (Einsum [(T 30,[0;1])] [0;1]) (-1) 2);
  (*5593*) AddTo (T 239) (Times (Einsum [(T 30,[0;1])] [0;1]) (-1) 2);
  (*5594*) AddTo (T 337) (Times (Einsum [(T 30,[0;1])] [0;1]) (-49999999999999967) 100000000000000000);
  (*5595*) AddTo (T 338) (Times (Einsum [(T 30,[0;1])] [0;1]) (-1) 2);
  (*5596*) AddTo n_rdm2_f_oovo_aaaa (Times (Einsum [(n_delta_oo'aa,[0;1]); (T 30,[2;3])] [1;2;3;0]) (-1) 2);
  (*5597*) AddTo n_rdm2_f_vooo_aaaa (Times (Einsum [(n_delta_oo'aa,[0;1]); (T 30,[2;3])] [3;2;0;1]) (1) 2);
  (*5598*) Del (T 30);
  (*5599*) Assign (T 31) (Plain (Zeros [4;5]));
  (*5600*) AddTo (T 31) (Plain (Einsum [(n_ls1,[0]); (n_u11'aa,[0;1;2])] [1;2]));
  (*5601*) AddTo (T 62) (Plain (Einsum [(T 31,[0;1])] [0;1]));
  (*5602*) AddTo (T 125) (Times (Einsum [(T 31,[0;1])] [0;1]) (-1) 1);
  (*5603*) AddTo (T 238) (Times (Einsum [(T 31,[0;1])] [0;1]) (-1) 1);
  (*5604*) AddTo (T 239) (Times (Einsum [(T 31,[0;1])] [0;1]) (-1) 1);
  (*5605*) AddTo (T 337) (Times (Einsum [(T 31,[0;1])] [0;1]) (-9999999999999993) 10000000000000000);
  (*5606*) AddTo (T 338) (Times (Einsum [(T 31,[0;1])] [0;1]) (-1) 1);
  (*5607*) SubFrom n_rdm2_f_oovo_aaaa (Plain (Einsum [(n_delta_oo'aa,[0;1]); (T 31,[2;3])] [1;2;3;0]));
  (*5608*) AddTo n_rdm2_f_vooo_aaaa (Plain (Einsum [(n_delta_oo'aa,[0;1]); (T 31,[2;3])] [3;2;1;0]));
  (*5609*) Del (T 31);
  (*5610*) Assign (T 33) (Plain (Zeros [4;4;4;5]));
  (*5611*) AddTo (T 33) (Plain (Einsum [(n_l1'aa,[0;1]); (n_t2'aaaa,[2;3;4;0])] [1;2;3;4]));
  (*5612*) AddTo (T 46) (Plain (Einsum [(T 33,[0;1;2;3])] [0;1;2;3]));
  (*5613*) AddTo (T 126) (Plain (Einsum [(T 33,[0;1;2;3])] [0;1;2;3]));
  (*5614*) AddTo (T 210) (Plain (Einsum [(T 33,[0;1;2;3])] [0;1;2;3]));
  (*5615*) Del (T 33);
  (*5616*) Assign (T 34) (Plain (Zeros [3;4;4]));
  (*5617*) AddTo (T 34) (Plain (Einsum [(n_t1'aa,[0;1]); (n_lu11'aa,[2;1;3])] [2;3;0]));
  (*5618*) Assign (T 35) (Plain (Zeros [4;4;4;5]));
  (*5619*) AddTo (T 35) (Plain (Einsum [(n_u11'aa,[0;1;2]); (T 34,[0;3;4])] [3;4;1;2]));
  (*5620*) SubFrom (T 46) (Plain (Einsum [(T 35,[0;1;2;3])] [0;1;2;3]));
  (*5621*) SubFrom (T 126) (Plain (Einsum [(T 35,[0;1;2;3])] [0;1;2;3]));
  (*5622*) Del (T 35);
  (*5623*) Assign (T 42) (Plain (Zeros [3;4;4]));
  (*5624*) AddTo (T 42) (Plain (Einsum [(T 34,[0;1;2])] [0;1;2]));
  (*5625*) Assign (T 122) (Plain (Zeros [3;4;4]));
  (*5626*) AddTo (T 122) (Plain (Einsum [(T 34,[0;1;2])] [0;1;2]));
  (*5627*) Assign (T 212) (Plain (Zeros [3;4;5]));
  (*5628*) AddTo (T 212) (Plain (Einsum [(n_t1'aa,[0;1]); (T 34,[2;0;3])] [2;3;1]));
  (*5629*) Assign (T 215) (Plain (Zeros [3;4;5]));
  (*5630*) SubFrom (T 215) (Plain (Einsum [(T 212,[0;1;2])] [0;1;2]));
  (*5631*) Del (T 212);
  (*5632*) Assign (T 235) (Plain (Zeros [4;5]));
  (*5633*) AddTo (T 235) (Plain (Einsum [(n_u11'aa,[0;1;2]); (T 34,[0;1;3])] [3;2]));
  (*5634*) Del (T 34);
  (*5635*) AddTo (T 238) (Plain (Einsum [(T 235,[0;1])] [0;1]));
  (*5636*) AddTo (T 239) (Plain (Einsum [(T 235,[0;1])] [0;1]));
  (*5637*) Del (T 235);
  (*5638*) Assign n_rdm2_f_vovo_aaaa (Plain (Zeros [5;4;5;4]));
  (*5639*) AddTo n_rdm2_f_vovo_aaaa (Plain (Einsum [(n_t1'aa,[0;1]); (T 239,[2;3])] [3;0;1;2]));
  (*5640*) AddTo n_rdm2_f_vovo_aaaa (Times (Einsum [(n_t1'aa,[0;1]); (T 239,[2;3])] [1;0;3;2]) (-1) 1);
  (*5641*) Del (T 239);
  (*5642*) Assign (T 36) (Plain (Zeros [3;4;4]));
  (*5643*) AddTo (T 36) (Plain (Einsum [(n_u11'aa,[0;1;2]); (n_lu12'aa,[0;3;2;4])] [3;4;1]));
  (*5644*) Assign (T 37) (Plain (Zeros [4;4;4;5]));
  (*5645*) AddTo (T 37) (Plain (Einsum [(n_u11'aa,[0;1;2]); (T 36,[0;3;4])] [3;1;4;2]));
  (*5646*) AddTo (T 46) (Plain (Einsum [(T 37,[0;1;2;3])] [0;1;2;3]));
  (*5647*) AddTo (T 126) (Plain (Einsum [(T 37,[0;1;2;3])] [0;1;2;3]));
  (*5648*) Del (T 37);
  (*5649*) SubFrom n_rdm2_f_vooo_aaaa (Plain (Einsum [(T 126,[0;1;2;3])] [3;1;0;2]));
  (*5650*) AddTo n_rdm2_f_vooo_aaaa (Plain (Einsum [(T 126,[0;1;2;3])] [3;2;0;1]));
  (*5651*) Del (T 126);
  (*5652*) AddTo (T 42) (Plain (Einsum [(T 36,[0;1;2])] [0;1;2]));
  (*5653*) Assign (T 43) (Plain (Zeros [4;5]));
  (*5654*) AddTo (T 43) (Plain (Einsum [(n_u11'aa,[0;1;2]); (T 42,[0;1;3])] [3;2]));
  (*5655*) AddTo (T 44) (Plain (Einsum [(T 43,[0;1])] [0;1]));
  (*5656*) Del (T 43);
  (*5657*) Assign (T 104) (Plain (Zeros [4;4;6;7]));
  (*5658*) AddTo (T 104) (Plain (Einsum [(n_u11'bb,[0;1;2]); (T 42,[0;3;4])] [3;4;1;2]));
  (*5659*) SubFrom n_rdm2_f_oovo_aabb (Plain (Einsum [(T 104,[0;1;2;3])] [0;1;3;2]));
  (*5660*) SubFrom n_rdm2_f_vooo_bbaa (Plain (Einsum [(T 104,[0;1;2;3])] [3;2;0;1]));
  (*5661*) Del (T 104);
  (*5662*) Assign (T 325) (Plain (Zeros [3;4;5]));
  (*5663*) AddTo (T 325) (Plain (Einsum [(n_t1'aa,[0;1]); (T 42,[2;0;3])] [2;3;1]));
  (*5664*) Del (T 42);
  (*5665*) Assign (T 326) (Plain (Zeros [3;4;5]));
  (*5666*) AddTo (T 326) (Plain (Einsum [(T 325,[0;1;2])] [0;1;2]));
  (*5667*) Del (T 325);
  (*5668*) AddTo (T 122) (Plain (Einsum [(T 36,[0;1;2])] [0;1;2]));
  (*5669*) Assign (T 123) (Plain (Zeros [4;5]));
  (*5670*) AddTo (T 123) (Plain (Einsum [(n_u11'aa,[0;1;2]); (T 122,[0;1;3])] [3;2]));
  (*5671*) AddTo (T 125) (Plain (Einsum [(T 123,[0;1])] [0;1]));
  (*5672*) AddTo (T 338) (Plain (Einsum [(T 123,[0;1])] [0;1]));
  (*5673*) Del (T 123);
  (*5674*) AddTo (T 337) (Times (Einsum [(n_u11'aa,[0;1;2]); (T 122,[0;1;3])] [3;2]) (9999999999999993) 10000000000000000);
  (*5675*) Del (T 122);
  (*5676*) Assign (T 201) (Plain (Zeros [3;4;5]));
  (*5677*) AddTo (T 201) (Plain (Einsum [(n_t1'aa,[0;1]); (T 36,[2;0;3])] [2;3;1]));
  (*5678*) Assign (T 202) (Plain (Zeros [4;4;5;5]));
  (*5679*) AddTo (T 202) (Plain (Einsum [(n_u11'aa,[0;1;2]); (T 201,[0;3;4])] [1;3;4;2]));
  (*5680*) Del (T 201);
  (*5681*) AddTo (T 220) (Plain (Einsum [(T 202,[0;1;2;3])] [0;1;2;3]));
  (*5682*) Del (T 202);
  (*5683*) Assign (T 217) (Plain (Zeros [4;5]));
  (*5684*) AddTo (T 217) (Plain (Einsum [(n_u11'aa,[0;1;2]); (T 36,[0;1;3])] [3;2]));
  (*5685*) Del (T 36);
  (*5686*) Assign (T 219) (Plain (Zeros [4;5]));
  (*5687*) SubFrom (T 219) (Plain (Einsum [(T 217,[0;1])] [0;1]));
  (*5688*) Del (T 217);
  (*5689*) Assign (T 38) (Plain (Zeros [4;5]));
  (*5690*) AddTo (T 38) (Plain (Einsum [(n_l1'bb,[0;1]); (n_t2'abab,[2;1;3;0])] [2;3]));
  (*5691*) SubFrom (T 44) (Plain (Einsum [(T 38,[0;1])] [0;1]));
  (*5692*) AddTo (T 125) (Times (Einsum [(T 38,[0;1])] [0;1]) (-1) 1);
  (*5693*) AddTo (T 219) (Plain (Einsum [(T 38,[0;1])] [0;1]));
  (*5694*) AddTo (T 337) (Times (Einsum [(T 38,[0;1])] [0;1]) (-9999999999999993) 10000000000000000);
  (*5695*) AddTo (T 338) (Times (Einsum [(T 38,[0;1])] [0;1]) (-1) 1);
  (*5696*) Del (T 38);
  (*5697*) Assign (T 40) (Plain (Zeros [4;4;5;5]));
  (*5698*) SubFrom (T 40) (Plain (Einsum [(n_t2'aaaa,[0;1;2;3])] [1;0;2;3]));
  (*5699*) AddTo (T 40) (Plain (Einsum [(n_t2'aaaa,[0;1;2;3])] [1;0;3;2]));
  (*5700*) Assign (T 41) (Plain (Zeros [4;5]));
  (*5701*) AddTo (T 41) (Plain (Einsum [(n_l1'aa,[0;1]); (T 40,[1;2;0;3])] [2;3]));
  (*5702*) SubFrom (T 44) (Plain (Einsum [(T 41,[0;1])] [0;1]));
  (*5703*) Del (T 41);
  (*5704*) SubFrom (T 46) (Plain (Einsum [(n_delta_oo'aa,[0;1]); (T 44,[2;3])] [1;0;2;3]));
  (*5705*) AddTo n_rdm2_f_oovo_aaaa (Plain (Einsum [(T 46,[0;1;2;3])] [0;1;3;2]));
  (*5706*) SubFrom n_rdm2_f_oovo_aaaa (Plain (Einsum [(T 46,[0;1;2;3])] [0;2;3;1]));
  (*5707*) Del (T 46);
  (*5708*) AddTo n_rdm2_f_vooo_aaaa (Plain (Einsum [(n_delta_oo'aa,[0;1]); (T 44,[2;3])] [3;1;0;2]));
  (*5709*) SubFrom n_rdm2_f_vooo_aaaa (Plain (Einsum [(n_delta_oo'aa,[0;1]); (T 44,[2;3])] [3;2;0;1]));
  (*5710*) Del (T 44);
  (*5711*) Assign (T 324) (Plain (Zeros [3;4;5]));
  (*5712*) AddTo (T 324) (Plain (Einsum [(n_lu11'aa,[0;1;2]); (T 40,[2;3;1;4])] [0;3;4]));
  (*5713*) SubFrom (T 326) (Plain (Einsum [(T 324,[0;1;2])] [0;1;2]));
  (*5714*) Del (T 324);
  (*5715*) Assign (T 47) (Plain (Zeros [3;3;4;4]));
  (*5716*) AddTo (T 47) (Plain (Einsum [(n_t1'aa,[0;1]); (n_lu12'aa,[2;3;1;4])] [2;3;4;0]));
  (*5717*) Assign (T 48) (Plain (Zeros [4;4;4;5]));
  (*5718*) AddTo (T 48) (Plain (Einsum [(n_u12'aa,[0;1;2;3]); (T 47,[0;1;4;5])] [4;5;2;3]));
  (*5719*) AddTo (T 61) (Times (Einsum [(T 48,[0;1;2;3])] [0;1;2;3]) (1) 2);
  (*5720*) AddTo (T 128) (Times (Einsum [(T 48,[0;1;2;3])] [0;1;2;3]) (-1) 2);
  (*5721*) AddTo n_rdm2_f_vooo_aaaa (Times (Einsum [(T 128,[0;1;2;3])] [3;1;0;2]) (-1) 1);
  (*5722*) AddTo n_rdm2_f_vooo_aaaa (Plain (Einsum [(T 128,[0;1;2;3])] [3;2;0;1]));
  (*5723*) Del (T 128);
  (*5724*) Assign (T 183) (Plain (Zeros [4;4;5;5]));
  (*5725*) AddTo (T 183) (Plain (Einsum [(n_t1'aa,[0;1]); (T 48,[0;2;3;4])] [2;3;1;4]));
  (*5726*) Del (T 48);
  (*5727*) AddTo (T 195) (Times (Einsum [(T 183,[0;1;2;3])] [0;1;2;3]) (1) 2);
  (*5728*) Del (T 183);
  (*5729*) Assign (T 55) (Plain (Zeros [4;5]));
  (*5730*) AddTo (T 55) (Plain (Einsum [(n_u12'aa,[0;1;2;3]); (T 47,[0;1;2;4])] [4;3]));
  (*5731*) AddTo (T 60) (Plain (Einsum [(T 55,[0;1])] [0;1]));
  (*5732*) AddTo (T 61) (Times (Einsum [(n_delta_oo'aa,[0;1]); (T 60,[2;3])] [1;0;2;3]) (1) 2);
  (*5733*) AddTo n_rdm2_f_vooo_aaaa (Times (Einsum [(n_delta_oo'aa,[0;1]); (T 60,[2;3])] [3;1;0;2]) (1) 2);
  (*5734*) AddTo n_rdm2_f_vooo_aaaa (Times (Einsum [(n_delta_oo'aa,[0;1]); (T 60,[2;3])] [3;2;0;1]) (-1) 2);
  (*5735*) Del (T 60);
  (*5736*) AddTo (T 125) (Times (Einsum [(T 55,[0;1])] [0;1]) (1) 2);
  (*5737*) AddTo (T 194) (Plain (Einsum [(T 55,[0;1])] [0;1]));
  (*5738*) AddTo (T 195) (Times (Einsum [(n_t1'aa,[0;1]); (T 194,[2;3])] [0;2;1;3]) (1) 2);
  (*5739*) Del (T 194);
  (*5740*) AddTo (T 337) (Times (Einsum [(T 55,[0;1])] [0;1]) (49999999999999967) 100000000000000000);
  (*5741*) AddTo (T 338) (Times (Einsum [(T 55,[0;1])] [0;1]) (1) 2);
  (*5742*) Del (T 55);
  (*5743*) Assign (T 97) (Plain (Zeros [4;4;6;7]));
  (*5744*) AddTo (T 97) (Plain (Einsum [(n_u12'bb,[0;1;2;3]); (T 47,[0;1;4;5])] [4;5;2;3]));
  (*5745*) AddTo (T 320) (Times (Einsum [(T 97,[0;1;2;3])] [0;1;2;3]) (1) 2);
  (*5746*) AddTo n_rdm2_f_oovo_aabb (Times (Einsum [(T 97,[0;1;2;3])] [0;1;3;2]) (-1) 2);
  (*5747*) AddTo n_rdm2_f_vooo_bbaa (Times (Einsum [(T 97,[0;1;2;3])] [3;2;0;1]) (-1) 2);
  (*5748*) Del (T 97);
  (*5749*) Assign (T 199) (Plain (Zeros [3;4;5]));
  (*5750*) AddTo (T 199) (Plain (Einsum [(n_u11'aa,[0;1;2]); (T 47,[0;3;1;4])] [3;4;2]));
  (*5751*) Del (T 47);
  (*5752*) Assign (T 200) (Plain (Zeros [4;4;5;5]));
  (*5753*) AddTo (T 200) (Plain (Einsum [(n_u11'aa,[0;1;2]); (T 199,[0;3;4])] [3;1;2;4]));
  (*5754*) AddTo (T 220) (Plain (Einsum [(T 200,[0;1;2;3])] [0;1;2;3]));
  (*5755*) Del (T 200);
  (*5756*) AddTo (T 326) (Plain (Einsum [(T 199,[0;1;2])] [0;1;2]));
  (*5757*) Del (T 199);
  (*5758*) Assign (T 51) (Plain (Zeros [4;4;5;5]));
  (*5759*) AddTo (T 51) (Times (Einsum [(n_t2'aaaa,[0;1;2;3])] [1;0;2;3]) (-1) 1);
  (*5760*) AddTo (T 51) (Plain (Einsum [(n_t2'aaaa,[0;1;2;3])] [1;0;3;2]));
  (*5761*) Assign (T 52) (Plain (Zeros [4;4;4;5]));
  (*5762*) AddTo (T 52) (Plain (Einsum [(T 50,[0;1;2;3]); (T 51,[0;4;5;3])] [1;2;4;5]));
  (*5763*) Del (T 50);
  (*5764*) AddTo (T 61) (Plain (Einsum [(T 52,[0;1;2;3])] [0;1;2;3]));
  (*5765*) Del (T 52);
  (*5766*) AddTo n_rdm2_f_oovo_aaaa (Times (Einsum [(T 61,[0;1;2;3])] [0;1;3;2]) (-1) 1);
  (*5767*) AddTo n_rdm2_f_oovo_aaaa (Plain (Einsum [(T 61,[0;1;2;3])] [0;2;3;1]));
  (*5768*) Del (T 61);
  (*5769*) Assign (T 117) (Plain (Zeros [4;6;6;5]));
  (*5770*) AddTo (T 117) (Plain (Einsum [(T 12,[0;1;2;3]); (T 51,[0;4;3;5])] [4;1;2;5]));
  (*5771*) Del (T 12);
  (*5772*) AddTo (T 316) (Times (Einsum [(T 117,[0;1;2;3])] [0;1;2;3]) (-1) 1);
  (*5773*) AddTo n_rdm2_f_oovo_bbaa (Times (Einsum [(T 117,[0;1;2;3])] [1;2;3;0]) (-1) 1);
  (*5774*) AddTo n_rdm2_f_vooo_aabb (Times (Einsum [(T 117,[0;1;2;3])] [3;0;1;2]) (-1) 1);
  (*5775*) Del (T 117);
  (*5776*) Assign (T 121) (Plain (Zeros [4;5]));
  (*5777*) AddTo (T 121) (Plain (Einsum [(n_l1'aa,[0;1]); (T 51,[1;2;0;3])] [2;3]));
  (*5778*) AddTo (T 125) (Times (Einsum [(T 121,[0;1])] [0;1]) (-1) 1);
  (*5779*) AddTo (T 338) (Times (Einsum [(T 121,[0;1])] [0;1]) (-1) 1);
  (*5780*) Del (T 121);
  (*5781*) AddTo (T 337) (Times (Einsum [(n_l1'aa,[0;1]); (T 51,[1;2;0;3])] [2;3]) (-9999999999999993) 10000000000000000);
  (*5782*) AddTo n_rdm2_f_vovo_bbaa (Times (Einsum [(n_t1'bb,[0;1]); (T 337,[2;3])] [1;0;3;2]) (-1) 1);
  (*5783*) Del (T 337);
  (*5784*) Assign (T 384) (Plain (Zeros [4;6;5;7]));
  (*5785*) AddTo (T 384) (Plain (Einsum [(n_l2'abab,[0;1;2;3]); (T 51,[2;4;0;5])] [4;3;5;1]));
  (*5786*) Del (T 51);
  (*5787*) AddTo (T 387) (Times (Einsum [(T 384,[0;1;2;3])] [0;1;2;3]) (-1) 1);
  (*5788*) Del (T 384);
  (*5789*) AddTo (T 62) (Plain (Einsum [(n_t1'aa,[0;1])] [0;1]));
  (*5790*) AddTo n_rdm2_f_oovo_aaaa (Plain (Einsum [(n_delta_oo'aa,[0;1]); (T 62,[2;3])] [1;0;3;2]));
  (*5791*) AddTo n_rdm2_f_vooo_aaaa (Times (Einsum [(n_delta_oo'aa,[0;1]); (T 62,[2;3])] [3;0;1;2]) (-1) 1);
  (*5792*) Del (T 62);
  (*5793*) Assign (T 63) (Plain (Zeros [3;3;6;6]));
  (*5794*) AddTo (T 63) (Plain (Einsum [(n_t1'bb,[0;1]); (n_lu12'bb,[2;3;1;4])] [2;3;4;0]));
  (*5795*) Assign (T 64) (Plain (Zeros [6;6;6;7]));
  (*5796*) AddTo (T 64) (Plain (Einsum [(n_u12'bb,[0;1;2;3]); (T 63,[0;1;4;5])] [4;5;2;3]));
  (*5797*) AddTo (T 77) (Times (Einsum [(T 64,[0;1;2;3])] [0;1;2;3]) (1) 2);
  (*5798*) AddTo (T 131) (Times (Einsum [(T 64,[0;1;2;3])] [0;1;2;3]) (-1) 2);
  (*5799*) Assign n_rdm2_f_vooo_bbbb (Plain (Zeros [7;6;6;6]));
  (*5800*) AddTo n_rdm2_f_vooo_bbbb (Times (Einsum [(T 131,[0;1;2;3])] [3;1;0;2]) (-1) 1);
  (*5801*) AddTo n_rdm2_f_vooo_bbbb (Plain (Einsum [(T 131,[0;1;2;3])] [3;2;0;1]));
  (*5802*) Del (T 131);
  (*5803*) Assign (T 265) (Plain (Zeros [6;6;7;7]));
  (*5804*) AddTo (T 265) (Plain (Einsum [(n_t1'bb,[0;1]); (T 64,[0;2;3;4])] [2;3;1;4]));
  (*5805*) Del (T 64);
  (*5806*) AddTo (T 281) (Times (Einsum [(T 265,[0;1;2;3])] [0;1;2;3]) (1) 2);
  (*5807*) Del (T 265);
  (*5808*) Assign (T 71) (Plain (Zeros [6;7]));
  (*5809*) AddTo (T 71) (Plain (Einsum [(n_u12'bb,[0;1;2;3]); (T 63,[0;1;2;4])] [4;3]));
  (*5810*) AddTo (T 76) (Plain (Einsum [(T 71,[0;1])] [0;1]));
  (*5811*) AddTo (T 77) (Times (Einsum [(n_delta_oo'bb,[0;1]); (T 76,[2;3])] [1;0;2;3]) (1) 2);
  (*5812*) AddTo n_rdm2_f_vooo_bbbb (Times (Einsum [(n_delta_oo'bb,[0;1]); (T 76,[2;3])] [3;1;0;2]) (1) 2);
  (*5813*) AddTo n_rdm2_f_vooo_bbbb (Times (Einsum [(n_delta_oo'bb,[0;1]); (T 76,[2;3])] [3;2;0;1]) (-1) 2);
  (*5814*) Del (T 76);
  (*5815*) AddTo (T 110) (Times (Einsum [(T 71,[0;1])] [0;1]) (1) 2);
  (*5816*) AddTo (T 280) (Plain (Einsum [(T 71,[0;1])] [0;1]));
  (*5817*) AddTo (T 281) (Times (Einsum [(n_t1'bb,[0;1]); (T 280,[2;3])] [0;2;1;3]) (1) 2);
  (*5818*) Del (T 280);
  (*5819*) AddTo (T 334) (Times (Einsum [(T 71,[0;1])] [0;1]) (1) 2);
  (*5820*) AddTo (T 339) (Times (Einsum [(T 71,[0;1])] [0;1]) (49999999999999967) 100000000000000000);
  (*5821*) Del (T 71);
  (*5822*) Assign (T 112) (Plain (Zeros [4;6;6;5]));
  (*5823*) AddTo (T 112) (Plain (Einsum [(n_u12'aa,[0;1;2;3]); (T 63,[0;1;4;5])] [2;4;5;3]));
  (*5824*) AddTo (T 316) (Times (Einsum [(T 112,[0;1;2;3])] [0;1;2;3]) (-1) 2);
  (*5825*) AddTo n_rdm2_f_oovo_bbaa (Times (Einsum [(T 112,[0;1;2;3])] [1;2;3;0]) (-1) 2);
  (*5826*) AddTo n_rdm2_f_vooo_aabb (Times (Einsum [(T 112,[0;1;2;3])] [3;0;1;2]) (-1) 2);
  (*5827*) Del (T 112);
  (*5828*) Assign (T 243) (Plain (Zeros [3;6;7]));
  (*5829*) AddTo (T 243) (Plain (Einsum [(n_u11'bb,[0;1;2]); (T 63,[0;3;1;4])] [3;4;2]));
  (*5830*) Del (T 63);
  (*5831*) Assign (T 244) (Plain (Zeros [6;6;7;7]));
  (*5832*) AddTo (T 244) (Plain (Einsum [(n_u11'bb,[0;1;2]); (T 243,[0;3;4])] [3;1;2;4]));
  (*5833*) AddTo (T 264) (Plain (Einsum [(T 244,[0;1;2;3])] [0;1;2;3]));
  (*5834*) Del (T 244);
  (*5835*) Assign (T 330) (Plain (Zeros [3;6;7]));
  (*5836*) AddTo (T 330) (Plain (Einsum [(T 243,[0;1;2])] [0;1;2]));
  (*5837*) Del (T 243);
  (*5838*) Assign (T 67) (Plain (Zeros [6;6;7;7]));
  (*5839*) AddTo (T 67) (Plain (Einsum [(n_t2'bbbb,[0;1;2;3])] [1;0;2;3]));
  (*5840*) AddTo (T 67) (Times (Einsum [(n_t2'bbbb,[0;1;2;3])] [1;0;3;2]) (-1) 1);
  (*5841*) Assign (T 68) (Plain (Zeros [6;6;6;7]));
  (*5842*) AddTo (T 68) (Plain (Einsum [(T 66,[0;1;2;3]); (T 67,[1;4;3;5])] [0;2;4;5]));
  (*5843*) Del (T 66);
  (*5844*) AddTo (T 77) (Plain (Einsum [(T 68,[0;1;2;3])] [0;1;2;3]));
  (*5845*) Del (T 68);
  (*5846*) Assign n_rdm2_f_oovo_bbbb (Plain (Zeros [6;6;7;6]));
  (*5847*) AddTo n_rdm2_f_oovo_bbbb (Times (Einsum [(T 77,[0;1;2;3])] [0;1;3;2]) (-1) 1);
  (*5848*) AddTo n_rdm2_f_oovo_bbbb (Plain (Einsum [(T 77,[0;1;2;3])] [0;2;3;1]));
  (*5849*) Del (T 77);
  (*5850*) Assign (T 101) (Plain (Zeros [4;4;6;7]));
  (*5851*) AddTo (T 101) (Plain (Einsum [(T 29,[0;1;2;3]); (T 67,[2;4;5;3])] [0;1;4;5]));
  (*5852*) Del (T 29);
  (*5853*) AddTo n_rdm2_f_oovo_aabb (Times (Einsum [(T 101,[0;1;2;3])] [0;1;3;2]) (-1) 1);
  (*5854*) AddTo n_rdm2_f_vooo_bbaa (Times (Einsum [(T 101,[0;1;2;3])] [3;2;0;1]) (-1) 1);
  (*5855*) Del (T 101);
  (*5856*) Assign (T 106) (Plain (Zeros [6;7]));
  (*5857*) AddTo (T 106) (Plain (Einsum [(n_l1'bb,[0;1]); (T 67,[1;2;3;0])] [2;3]));
  (*5858*) AddTo (T 110) (Times (Einsum [(T 106,[0;1])] [0;1]) (-1) 1);
  (*5859*) AddTo (T 334) (Times (Einsum [(T 106,[0;1])] [0;1]) (-1) 1);
  (*5860*) Del (T 106);
  (*5861*) AddTo (T 339) (Times (Einsum [(n_l1'bb,[0;1]); (T 67,[1;2;3;0])] [2;3]) (-9999999999999993) 10000000000000000);
  (*5862*) Assign (T 376) (Plain (Zeros [4;6;5;7]));
  (*5863*) AddTo (T 376) (Plain (Einsum [(n_l2'abab,[0;1;2;3]); (T 67,[3;4;5;1])] [2;4;0;5]));
  (*5864*) AddTo (T 377) (Times (Einsum [(T 376,[0;1;2;3])] [0;1;2;3]) (-1) 1);
  (*5865*) Del (T 376);
  (*5866*) Assign (T 78) (Plain (Zeros [6;6;6;7]));
  (*5867*) AddTo (T 78) (Plain (Einsum [(n_l1'bb,[0;1]); (n_t2'bbbb,[2;3;0;4])] [1;3;2;4]));
  (*5868*) AddTo (T 91) (Plain (Einsum [(T 78,[0;1;2;3])] [0;1;2;3]));
  (*5869*) AddTo (T 129) (Plain (Einsum [(T 78,[0;1;2;3])] [0;1;2;3]));
  (*5870*) AddTo (T 254) (Plain (Einsum [(T 78,[0;1;2;3])] [0;1;2;3]));
  (*5871*) Del (T 78);
  (*5872*) Assign (T 79) (Plain (Zeros [3;6;6]));
  (*5873*) AddTo (T 79) (Plain (Einsum [(n_t1'bb,[0;1]); (n_lu11'bb,[2;1;3])] [2;3;0]));
  (*5874*) Assign (T 80) (Plain (Zeros [6;6;6;7]));
  (*5875*) AddTo (T 80) (Plain (Einsum [(n_u11'bb,[0;1;2]); (T 79,[0;3;4])] [3;4;1;2]));
  (*5876*) SubFrom (T 91) (Plain (Einsum [(T 80,[0;1;2;3])] [0;1;2;3]));
  (*5877*) SubFrom (T 129) (Plain (Einsum [(T 80,[0;1;2;3])] [0;1;2;3]));
  (*5878*) Del (T 80);
  (*5879*) Assign (T 87) (Plain (Zeros [3;6;6]));
  (*5880*) AddTo (T 87) (Plain (Einsum [(T 79,[0;1;2])] [0;1;2]));
  (*5881*) Assign (T 107) (Plain (Zeros [3;6;6]));
  (*5882*) AddTo (T 107) (Plain (Einsum [(T 79,[0;1;2])] [0;1;2]));
  (*5883*) Assign (T 257) (Plain (Zeros [3;6;7]));
  (*5884*) AddTo (T 257) (Plain (Einsum [(n_t1'bb,[0;1]); (T 79,[2;0;3])] [2;3;1]));
  (*5885*) Assign (T 259) (Plain (Zeros [3;6;7]));
  (*5886*) SubFrom (T 259) (Plain (Einsum [(T 257,[0;1;2])] [0;1;2]));
  (*5887*) Del (T 257);
  (*5888*) Assign (T 297) (Plain (Zeros [6;7]));
  (*5889*) AddTo (T 297) (Plain (Einsum [(n_u11'bb,[0;1;2]); (T 79,[0;1;3])] [3;2]));
  (*5890*) Del (T 79);
  (*5891*) AddTo (T 300) (Plain (Einsum [(T 297,[0;1])] [0;1]));
  (*5892*) AddTo (T 301) (Plain (Einsum [(T 297,[0;1])] [0;1]));
  (*5893*) Del (T 297);
  (*5894*) Assign (T 81) (Plain (Zeros [3;6;6]));
  (*5895*) AddTo (T 81) (Plain (Einsum [(n_u11'bb,[0;1;2]); (n_lu12'bb,[0;3;2;4])] [3;4;1]));
  (*5896*) Assign (T 82) (Plain (Zeros [6;6;6;7]));
  (*5897*) AddTo (T 82) (Plain (Einsum [(n_u11'bb,[0;1;2]); (T 81,[0;3;4])] [3;1;4;2]));
  (*5898*) AddTo (T 91) (Plain (Einsum [(T 82,[0;1;2;3])] [0;1;2;3]));
  (*5899*) AddTo (T 129) (Plain (Einsum [(T 82,[0;1;2;3])] [0;1;2;3]));
  (*5900*) Del (T 82);
  (*5901*) SubFrom n_rdm2_f_vooo_bbbb (Plain (Einsum [(T 129,[0;1;2;3])] [3;1;0;2]));
  (*5902*) AddTo n_rdm2_f_vooo_bbbb (Plain (Einsum [(T 129,[0;1;2;3])] [3;2;0;1]));
  (*5903*) Del (T 129);
  (*5904*) AddTo (T 87) (Plain (Einsum [(T 81,[0;1;2])] [0;1;2]));
  (*5905*) Assign (T 88) (Plain (Zeros [6;7]));
  (*5906*) AddTo (T 88) (Plain (Einsum [(n_u11'bb,[0;1;2]); (T 87,[0;1;3])] [3;2]));
  (*5907*) AddTo (T 89) (Plain (Einsum [(T 88,[0;1])] [0;1]));
  (*5908*) Del (T 88);
  (*5909*) Assign (T 119) (Plain (Zeros [4;6;6;5]));
  (*5910*) AddTo (T 119) (Plain (Einsum [(n_u11'aa,[0;1;2]); (T 87,[0;3;4])] [1;3;4;2]));
  (*5911*) SubFrom n_rdm2_f_oovo_bbaa (Plain (Einsum [(T 119,[0;1;2;3])] [1;2;3;0]));
  (*5912*) SubFrom n_rdm2_f_vooo_aabb (Plain (Einsum [(T 119,[0;1;2;3])] [3;0;1;2]));
  (*5913*) Del (T 119);
  (*5914*) Assign (T 329) (Plain (Zeros [3;6;7]));
  (*5915*) AddTo (T 329) (Plain (Einsum [(n_t1'bb,[0;1]); (T 87,[2;0;3])] [2;3;1]));
  (*5916*) Del (T 87);
  (*5917*) AddTo (T 330) (Plain (Einsum [(T 329,[0;1;2])] [0;1;2]));
  (*5918*) Del (T 329);
  (*5919*) AddTo (T 107) (Plain (Einsum [(T 81,[0;1;2])] [0;1;2]));
  (*5920*) Assign (T 108) (Plain (Zeros [6;7]));
  (*5921*) AddTo (T 108) (Plain (Einsum [(n_u11'bb,[0;1;2]); (T 107,[0;1;3])] [3;2]));
  (*5922*) AddTo (T 110) (Plain (Einsum [(T 108,[0;1])] [0;1]));
  (*5923*) AddTo (T 334) (Plain (Einsum [(T 108,[0;1])] [0;1]));
  (*5924*) Del (T 108);
  (*5925*) AddTo (T 339) (Times (Einsum [(n_u11'bb,[0;1;2]); (T 107,[0;1;3])] [3;2]) (9999999999999993) 10000000000000000);
  (*5926*) Del (T 107);
  (*5927*) Assign (T 245) (Plain (Zeros [3;6;7]));
  (*5928*) AddTo (T 245) (Plain (Einsum [(n_t1'bb,[0;1]); (T 81,[2;0;3])] [2;3;1]));
  (*5929*) Assign (T 246) (Plain (Zeros [6;6;7;7]));
  (*5930*) AddTo (T 246) (Plain (Einsum [(n_u11'bb,[0;1;2]); (T 245,[0;3;4])] [1;3;4;2]));
  (*5931*) Del (T 245);
  (*5932*) AddTo (T 264) (Plain (Einsum [(T 246,[0;1;2;3])] [0;1;2;3]));
  (*5933*) Del (T 246);
  (*5934*) Assign (T 261) (Plain (Zeros [6;7]));
  (*5935*) AddTo (T 261) (Plain (Einsum [(n_u11'bb,[0;1;2]); (T 81,[0;1;3])] [3;2]));
  (*5936*) Del (T 81);
  (*5937*) Assign (T 263) (Plain (Zeros [6;7]));
  (*5938*) SubFrom (T 263) (Plain (Einsum [(T 261,[0;1])] [0;1]));
  (*5939*) Del (T 261);
  (*5940*) Assign (T 83) (Plain (Zeros [6;7]));
  (*5941*) AddTo (T 83) (Plain (Einsum [(n_l1'aa,[0;1]); (n_t2'abab,[1;2;0;3])] [2;3]));
  (*5942*) SubFrom (T 89) (Plain (Einsum [(T 83,[0;1])] [0;1]));
  (*5943*) AddTo (T 110) (Times (Einsum [(T 83,[0;1])] [0;1]) (-1) 1);
  (*5944*) AddTo (T 263) (Plain (Einsum [(T 83,[0;1])] [0;1]));
  (*5945*) AddTo (T 334) (Times (Einsum [(T 83,[0;1])] [0;1]) (-1) 1);
  (*5946*) AddTo (T 339) (Times (Einsum [(T 83,[0;1])] [0;1]) (-9999999999999993) 10000000000000000);
  (*5947*) Del (T 83);
  (*5948*) Assign (T 85) (Plain (Zeros [6;6;7;7]));
  (*5949*) AddTo (T 85) (Plain (Einsum [(n_t2'bbbb,[0;1;2;3])] [1;0;2;3]));
  (*5950*) SubFrom (T 85) (Plain (Einsum [(n_t2'bbbb,[0;1;2;3])] [1;0;3;2]));
  (*5951*) Assign (T 86) (Plain (Zeros [6;7]));
  (*5952*) AddTo (T 86) (Plain (Einsum [(n_l1'bb,[0;1]); (T 85,[1;2;3;0])] [2;3]));
  (*5953*) SubFrom (T 89) (Plain (Einsum [(T 86,[0;1])] [0;1]));
  (*5954*) Del (T 86);
  (*5955*) SubFrom (T 91) (Plain (Einsum [(n_delta_oo'bb,[0;1]); (T 89,[2;3])] [1;0;2;3]));
  (*5956*) AddTo n_rdm2_f_oovo_bbbb (Plain (Einsum [(T 91,[0;1;2;3])] [0;1;3;2]));
  (*5957*) SubFrom n_rdm2_f_oovo_bbbb (Plain (Einsum [(T 91,[0;1;2;3])] [0;2;3;1]));
  (*5958*) Del (T 91);
  (*5959*) AddTo n_rdm2_f_vooo_bbbb (Plain (Einsum [(n_delta_oo'bb,[0;1]); (T 89,[2;3])] [3;1;0;2]));
  (*5960*) SubFrom n_rdm2_f_vooo_bbbb (Plain (Einsum [(n_delta_oo'bb,[0;1]); (T 89,[2;3])] [3;2;0;1]));
  (*5961*) Del (T 89);
  (*5962*) Assign (T 328) (Plain (Zeros [3;6;7]));
  (*5963*) AddTo (T 328) (Plain (Einsum [(n_lu11'bb,[0;1;2]); (T 85,[2;3;4;1])] [0;3;4]));
  (*5964*) SubFrom (T 330) (Plain (Einsum [(T 328,[0;1;2])] [0;1;2]));
  (*5965*) Del (T 328);
  (*5966*) Assign (T 92) (Plain (Zeros [6;7]));
  (*5967*) AddTo (T 92) (Plain (Einsum [(n_ls1,[0]); (n_u11'bb,[0;1;2])] [1;2]));
  (*5968*) AddTo (T 95) (Plain (Einsum [(T 92,[0;1])] [0;1]));
  (*5969*) AddTo (T 110) (Times (Einsum [(T 92,[0;1])] [0;1]) (-1) 1);
  (*5970*) AddTo (T 300) (Times (Einsum [(T 92,[0;1])] [0;1]) (-1) 1);
  (*5971*) AddTo (T 301) (Times (Einsum [(T 92,[0;1])] [0;1]) (-1) 1);
  (*5972*) AddTo (T 334) (Times (Einsum [(T 92,[0;1])] [0;1]) (-1) 1);
  (*5973*) AddTo (T 339) (Times (Einsum [(T 92,[0;1])] [0;1]) (-9999999999999993) 10000000000000000);
  (*5974*) Del (T 92);
  (*5975*) Assign (T 93) (Plain (Zeros [6;7]));
  (*5976*) AddTo (T 93) (Plain (Einsum [(n_ls2,[0;1]); (n_u12'bb,[0;1;2;3])] [2;3]));
  (*5977*) AddTo (T 95) (Times (Einsum [(T 93,[0;1])] [0;1]) (1) 2);
  (*5978*) AddTo (T 110) (Times (Einsum [(T 93,[0;1])] [0;1]) (-1) 2);
  (*5979*) AddTo (T 300) (Times (Einsum [(T 93,[0;1])] [0;1]) (-1) 2);
  (*5980*) AddTo (T 301) (Times (Einsum [(T 93,[0;1])] [0;1]) (-1) 2);
  (*5981*) AddTo n_rdm2_f_vovo_bbbb (Plain (Einsum [(n_t1'bb,[0;1]); (T 301,[2;3])] [1;2;3;0]));
  (*5982*) AddTo n_rdm2_f_vovo_bbbb (Times (Einsum [(n_t1'bb,[0;1]); (T 301,[2;3])] [3;2;1;0]) (-1) 1);
  (*5983*) Del (T 301);
  (*5984*) AddTo (T 334) (Times (Einsum [(T 93,[0;1])] [0;1]) (-1) 2);
  (*5985*) AddTo (T 339) (Times (Einsum [(T 93,[0;1])] [0;1]) (-49999999999999967) 100000000000000000);
  (*5986*) Del (T 93);
  (*5987*) AddTo n_rdm2_f_vovo_aabb (Times (Einsum [(n_t1'aa,[0;1]); (T 339,[2;3])] [1;0;3;2]) (-1) 1);
  (*5988*) Del (T 339);
  (*5989*) AddTo (T 95) (Plain (Einsum [(n_t1'bb,[0;1])] [0;1]));
  (*5990*) AddTo n_rdm2_f_oovo_bbbb (Times (Einsum [(n_delta_oo'bb,[0;1]); (T 95,[2;3])] [1;2;3;0]) (-1) 1);
  (*5991*) AddTo n_rdm2_f_oovo_bbbb (Plain (Einsum [(n_delta_oo'bb,[0;1]); (T 95,[2;3])] [1;0;3;2]));
  (*5992*) AddTo n_rdm2_f_vooo_bbbb (Times (Einsum [(n_delta_oo'bb,[0;1]); (T 95,[2;3])] [3;0;1;2]) (-1) 1);
  (*5993*) AddTo n_rdm2_f_vooo_bbbb (Plain (Einsum [(n_delta_oo'bb,[0;1]); (T 95,[2;3])] [3;2;1;0]));
  (*5994*) Del (T 95);
  (*5995*) Assign (T 98) (Plain (Zeros [4;4;6;7]));
  (*5996*) AddTo (T 98) (Plain (Einsum [(n_l1'aa,[0;1]); (n_t2'abab,[2;3;0;4])] [1;2;3;4]));
  (*5997*) AddTo (T 320) (Plain (Einsum [(T 98,[0;1;2;3])] [0;1;2;3]));
  (*5998*) Assign (T 321) (Plain (Zeros [4;6;5;7]));
  (*5999*) AddTo (T 321) (Plain (Einsum [(n_t1'aa,[0;1]); (T 320,[0;2;3;4])] [2;3;1;4]));
  (*6000*) Del (T 320);
  (*6001*) AddTo n_rdm2_f_vovo_bbaa (Times (Einsum [(T 321,[0;1;2;3])] [3;1;2;0]) (-1) 1);
  (*6002*) AddTo n_rdm2_f_vovo_aabb (Times (Einsum [(T 321,[0;1;2;3])] [2;0;3;1]) (-1) 1);
  (*6003*) Del (T 321);
  (*6004*) SubFrom n_rdm2_f_oovo_aabb (Plain (Einsum [(T 98,[0;1;2;3])] [0;1;3;2]));
  (*6005*) SubFrom n_rdm2_f_vooo_bbaa (Plain (Einsum [(T 98,[0;1;2;3])] [3;2;0;1]));
  (*6006*) Del (T 98);
  (*6007*) AddTo (T 110) (Times (Einsum [(n_t1'bb,[0;1])] [0;1]) (-1) 1);
  (*6008*) AddTo n_rdm2_f_oovo_aabb (Times (Einsum [(n_delta_oo'aa,[0;1]); (T 110,[2;3])] [1;0;3;2]) (-1) 1);
  (*6009*) AddTo n_rdm2_f_vooo_bbaa (Times (Einsum [(n_delta_oo'aa,[0;1]); (T 110,[2;3])] [3;2;1;0]) (-1) 1);
  (*6010*) Del (T 110);
  (*6011*) Assign (T 114) (Plain (Zeros [4;6;6;5]));
  (*6012*) AddTo (T 114) (Plain (Einsum [(n_l1'bb,[0;1]); (n_t2'abab,[2;3;4;0])] [2;1;3;4]));
  (*6013*) AddTo (T 316) (Times (Einsum [(T 114,[0;1;2;3])] [0;1;2;3]) (-1) 1);
  (*6014*) Assign (T 317) (Plain (Zeros [4;6;5;7]));
  (*6015*) AddTo (T 317) (Plain (Einsum [(n_t1'bb,[0;1]); (T 316,[2;0;3;4])] [2;3;4;1]));
  (*6016*) Del (T 316);
  (*6017*) AddTo n_rdm2_f_vovo_bbaa (Plain (Einsum [(T 317,[0;1;2;3])] [3;1;2;0]));
  (*6018*) AddTo n_rdm2_f_vovo_aabb (Plain (Einsum [(T 317,[0;1;2;3])] [2;0;3;1]));
  (*6019*) Del (T 317);
  (*6020*) SubFrom n_rdm2_f_oovo_bbaa (Plain (Einsum [(T 114,[0;1;2;3])] [1;2;3;0]));
  (*6021*) SubFrom n_rdm2_f_vooo_aabb (Plain (Einsum [(T 114,[0;1;2;3])] [3;0;1;2]));
  (*6022*) Del (T 114);
  (*6023*) AddTo (T 125) (Times (Einsum [(n_t1'aa,[0;1])] [0;1]) (-1) 1);
  (*6024*) AddTo n_rdm2_f_oovo_bbaa (Times (Einsum [(n_delta_oo'bb,[0;1]); (T 125,[2;3])] [1;0;3;2]) (-1) 1);
  (*6025*) AddTo n_rdm2_f_vooo_aabb (Times (Einsum [(n_delta_oo'bb,[0;1]); (T 125,[2;3])] [3;2;1;0]) (-1) 1);
  (*6026*) Del (T 125);
  (*6027*) Assign (T 132) (Plain (Zeros [4;4;5;5]));
  (*6028*) AddTo (T 132) (Plain (Einsum [(n_l2'abab,[0;1;2;3]); (n_t2'abab,[4;3;5;1])] [2;4;0;5]));
  (*6029*) Assign (T 207) (Plain (Zeros [4;4;5;5]));
  (*6030*) AddTo (T 207) (Plain (Einsum [(T 132,[0;1;2;3])] [0;1;2;3]));
  (*6031*) Assign (T 304) (Plain (Zeros [4;4;5;5]));
  (*6032*) AddTo (T 304) (Plain (Einsum [(T 132,[0;1;2;3])] [0;1;2;3]));
  (*6033*) AddTo (T 354) (Times (Einsum [(T 132,[0;1;2;3])] [0;1;2;3]) (2) 1);
  (*6034*) SubFrom n_rdm2_f_oovv_aaaa (Plain (Einsum [(T 132,[0;1;2;3])] [0;1;3;2]));
  (*6035*) AddTo n_rdm2_f_ovvo_aaaa (Plain (Einsum [(T 132,[0;1;2;3])] [0;2;3;1]));
  (*6036*) AddTo n_rdm2_f_voov_aaaa (Plain (Einsum [(T 132,[0;1;2;3])] [3;1;0;2]));
  (*6037*) SubFrom n_rdm2_f_vvoo_aaaa (Plain (Einsum [(T 132,[0;1;2;3])] [3;2;0;1]));
  (*6038*) Del (T 132);
  (*6039*) Assign (T 133) (Plain (Zeros [4;4;5;5]));
  (*6040*) AddTo (T 133) (Plain (Einsum [(n_lu12'aa,[0;1;2;3]); (n_u12'aa,[0;1;4;5])] [3;4;2;5]));
  (*6041*) AddTo (T 354) (Plain (Einsum [(T 133,[0;1;2;3])] [0;1;2;3]));
  (*6042*) AddTo n_rdm2_f_oovv_aaaa (Times (Einsum [(T 133,[0;1;2;3])] [0;1;3;2]) (-1) 2);
  (*6043*) AddTo n_rdm2_f_ovvo_aaaa (Times (Einsum [(T 133,[0;1;2;3])] [0;2;3;1]) (1) 2);
  (*6044*) AddTo n_rdm2_f_voov_aaaa (Times (Einsum [(T 133,[0;1;2;3])] [3;1;0;2]) (1) 2);
  (*6045*) AddTo n_rdm2_f_vvoo_aaaa (Times (Einsum [(T 133,[0;1;2;3])] [3;2;0;1]) (-1) 2);
  (*6046*) Del (T 133);
  (*6047*) Assign (T 134) (Plain (Zeros [4;4;5;5]));
  (*6048*) AddTo (T 134) (Plain (Einsum [(n_lu11'aa,[0;1;2]); (n_u11'aa,[0;3;4])] [2;3;1;4]));
  (*6049*) SubFrom n_rdm2_f_oovv_aaaa (Plain (Einsum [(T 134,[0;1;2;3])] [0;1;3;2]));
  (*6050*) AddTo n_rdm2_f_ovvo_aaaa (Plain (Einsum [(T 134,[0;1;2;3])] [0;2;3;1]));
  (*6051*) AddTo n_rdm2_f_voov_aaaa (Plain (Einsum [(T 134,[0;1;2;3])] [3;1;0;2]));
  (*6052*) SubFrom n_rdm2_f_vvoo_aaaa (Plain (Einsum [(T 134,[0;1;2;3])] [3;2;0;1]));
  (*6053*) Del (T 134);
  (*6054*) Assign (T 135) (Plain (Zeros [4;4;5;5]));
  (*6055*) AddTo (T 135) (Plain (Einsum [(n_l2'aaaa,[0;1;2;3])] [3;2;0;1]));
  (*6056*) SubFrom (T 135) (Plain (Einsum [(n_l2'aaaa,[0;1;2;3])] [3;2;1;0]));
  (*6057*) Assign (T 136) (Plain (Zeros [4;4;5;5]));
  (*6058*) AddTo (T 136) (Plain (Einsum [(T 135,[0;1;2;3]); (T 40,[0;4;2;5])] [4;1;5;3]));
  (*6059*) Del (T 40);
  (*6060*) AddTo n_rdm2_f_oovv_aaaa (Plain (Einsum [(T 136,[0;1;2;3])] [1;0;2;3]));
  (*6061*) AddTo n_rdm2_f_vvoo_aaaa (Plain (Einsum [(T 136,[0;1;2;3])] [2;3;1;0]));
  (*6062*) Del (T 136);
  (*6063*) Assign (T 174) (Plain (Zeros [4;6;5;7]));
  (*6064*) AddTo (T 174) (Plain (Einsum [(n_t2'abab,[0;1;2;3]); (T 135,[0;4;2;5])] [4;1;5;3]));
  (*6065*) Assign (T 284) (Plain (Zeros [6;6;7;7]));
  (*6066*) SubFrom (T 284) (Plain (Einsum [(n_t2'abab,[0;1;2;3]); (T 174,[0;4;2;5])] [1;4;3;5]));
  (*6067*) Assign (T 285) (Plain (Zeros [6;6;7;7]));
  (*6068*) AddTo (T 285) (Plain (Einsum [(T 284,[0;1;2;3])] [0;1;2;3]));
  (*6069*) Del (T 284);
  (*6070*) SubFrom n_rdm2_f_ovvo_aabb (Plain (Einsum [(T 174,[0;1;2;3])] [0;2;3;1]));
  (*6071*) SubFrom n_rdm2_f_voov_bbaa (Plain (Einsum [(T 174,[0;1;2;3])] [3;1;0;2]));
  (*6072*) Del (T 174);
  (*6073*) Assign (T 223) (Plain (Zeros [4;4;5;5]));
  (*6074*) AddTo (T 223) (Plain (Einsum [(n_t2'aaaa,[0;1;2;3]); (T 135,[0;4;2;5])] [1;4;3;5]));
  (*6075*) Assign (T 224) (Plain (Zeros [4;4;5;5]));
  (*6076*) SubFrom (T 224) (Plain (Einsum [(n_t2'aaaa,[0;1;2;3]); (T 223,[4;0;5;2])] [1;4;3;5]));
  (*6077*) Del (T 223);
  (*6078*) AddTo (T 228) (Plain (Einsum [(T 224,[0;1;2;3])] [0;1;2;3]));
  (*6079*) Del (T 224);
  (*6080*) Assign (T 225) (Plain (Zeros [4;4;5;5]));
  (*6081*) AddTo (T 225) (Plain (Einsum [(n_t2'aaaa,[0;1;2;3]); (T 135,[0;4;3;5])] [1;4;2;5]));
  (*6082*) Assign (T 226) (Plain (Zeros [4;4;5;5]));
  (*6083*) SubFrom (T 226) (Plain (Einsum [(n_t2'aaaa,[0;1;2;3]); (T 225,[4;0;5;3])] [1;4;2;5]));
  (*6084*) Del (T 225);
  (*6085*) AddTo (T 228) (Plain (Einsum [(T 226,[0;1;2;3])] [1;0;3;2]));
  (*6086*) Del (T 226);
  (*6087*) Assign (T 139) (Plain (Zeros [5;5]));
  (*6088*) AddTo (T 139) (Plain (Einsum [(n_l1'aa,[0;1]); (n_t1'aa,[1;2])] [0;2]));
  (*6089*) Assign (T 145) (Plain (Zeros [5;5]));
  (*6090*) AddTo (T 145) (Times (Einsum [(T 139,[0;1])] [0;1]) (2) 1);
  (*6091*) Assign (T 164) (Plain (Zeros [5;5]));
  (*6092*) AddTo (T 164) (Plain (Einsum [(T 139,[0;1])] [0;1]));
  (*6093*) Assign (T 349) (Plain (Zeros [5;5]));
  (*6094*) AddTo (T 349) (Plain (Einsum [(T 139,[0;1])] [0;1]));
  (*6095*) Del (T 139);
  (*6096*) Assign (T 140) (Plain (Zeros [5;5]));
  (*6097*) AddTo (T 140) (Plain (Einsum [(n_lu11'aa,[0;1;2]); (n_u11'aa,[0;2;3])] [1;3]));
  (*6098*) AddTo (T 145) (Times (Einsum [(T 140,[0;1])] [0;1]) (2) 1);
  (*6099*) AddTo (T 164) (Plain (Einsum [(T 140,[0;1])] [0;1]));
  (*6100*) Assign (T 197) (Plain (Zeros [4;4;5;5]));
  (*6101*) AddTo (T 197) (Plain (Einsum [(T 140,[0;1]); (n_t2'aaaa,[2;3;4;0])] [2;3;4;1]));
  (*6102*) SubFrom (T 220) (Plain (Einsum [(T 197,[0;1;2;3])] [0;1;2;3]));
  (*6103*) Del (T 197);
  (*6104*) Assign (T 312) (Plain (Zeros [5;5]));
  (*6105*) AddTo (T 312) (Plain (Einsum [(T 140,[0;1])] [0;1]));
  (*6106*) AddTo (T 349) (Plain (Einsum [(T 140,[0;1])] [0;1]));
  (*6107*) Del (T 140);
  (*6108*) Assign (T 350) (Plain (Zeros [4;5;5;5]));
  (*6109*) AddTo (T 350) (Plain (Einsum [(n_t1'aa,[0;1]); (T 349,[2;3])] [0;2;1;3]));
  (*6110*) Del (T 349);
  (*6111*) Assign (T 141) (Plain (Zeros [5;5]));
  (*6112*) AddTo (T 141) (Plain (Einsum [(n_lu12'aa,[0;1;2;3]); (n_u12'aa,[0;1;3;4])] [2;4]));
  (*6113*) AddTo (T 145) (Plain (Einsum [(T 141,[0;1])] [0;1]));
  (*6114*) AddTo (T 164) (Times (Einsum [(T 141,[0;1])] [0;1]) (1) 2);
  (*6115*) Assign (T 188) (Plain (Zeros [5;5]));
  (*6116*) AddTo (T 188) (Plain (Einsum [(T 141,[0;1])] [0;1]));
  (*6117*) AddTo (T 312) (Times (Einsum [(T 141,[0;1])] [0;1]) (1) 2);
  (*6118*) Del (T 141);
  (*6119*) Assign (T 142) (Plain (Zeros [5;5]));
  (*6120*) AddTo (T 142) (Plain (Einsum [(n_l2'abab,[0;1;2;3]); (n_t2'abab,[2;3;4;1])] [0;4]));
  (*6121*) AddTo (T 145) (Times (Einsum [(T 142,[0;1])] [0;1]) (2) 1);
  (*6122*) AddTo (T 164) (Plain (Einsum [(T 142,[0;1])] [0;1]));
  (*6123*) AddTo (T 188) (Times (Einsum [(T 142,[0;1])] [0;1]) (2) 1);
  (*6124*) AddTo (T 312) (Plain (Einsum [(T 142,[0;1])] [0;1]));
  (*6125*) Del (T 142);
  (*6126*) Assign (T 143) (Plain (Zeros [4;4;5;5]));
  (*6127*) AddTo (T 143) (Plain (Einsum [(n_l2'aaaa,[0;1;2;3])] [3;2;0;1]));
  (*6128*) AddTo (T 143) (Times (Einsum [(n_l2'aaaa,[0;1;2;3])] [3;2;1;0]) (-1) 1);
  (*6129*) Assign (T 144) (Plain (Zeros [5;5]));
  (*6130*) AddTo (T 144) (Times (Einsum [(n_t2'aaaa,[0;1;2;3]); (T 143,[0;1;2;4])] [3;4]) (2) 1);
  (*6131*) AddTo (T 145) (Times (Einsum [(T 144,[0;1])] [1;0]) (-1) 1);
  (*6132*) AddTo n_rdm2_f_oovv_aaaa (Times (Einsum [(n_delta_oo'aa,[0;1]); (T 145,[2;3])] [1;0;3;2]) (1) 2);
  (*6133*) AddTo n_rdm2_f_ovvo_aaaa (Times (Einsum [(n_delta_oo'aa,[0;1]); (T 145,[2;3])] [1;2;3;0]) (-1) 2);
  (*6134*) AddTo n_rdm2_f_voov_aaaa (Times (Einsum [(n_delta_oo'aa,[0;1]); (T 145,[2;3])] [3;0;1;2]) (-1) 2);
  (*6135*) AddTo n_rdm2_f_vvoo_aaaa (Times (Einsum [(n_delta_oo'aa,[0;1]); (T 145,[2;3])] [3;2;1;0]) (1) 2);
  (*6136*) Del (T 145);
  (*6137*) AddTo (T 188) (Times (Einsum [(T 144,[0;1])] [1;0]) (-1) 1);
  (*6138*) Del (T 144);
  (*6139*) Assign (T 189) (Plain (Zeros [4;4;5;5]));
  (*6140*) AddTo (T 189) (Times (Einsum [(T 188,[0;1]); (n_t2'aaaa,[2;3;0;4])] [2;3;4;1]) (1) 2);
  (*6141*) AddTo (T 195) (Plain (Einsum [(T 189,[0;1;2;3])] [1;0;2;3]));
  (*6142*) Del (T 189);
  (*6143*) AddTo (T 356) (Times (Einsum [(n_t1'aa,[0;1]); (T 188,[2;3])] [0;2;1;3]) (1) 2);
  (*6144*) Del (T 188);
  (*6145*) Assign (T 163) (Plain (Zeros [5;5]));
  (*6146*) AddTo (T 163) (Plain (Einsum [(n_t2'aaaa,[0;1;2;3]); (T 143,[0;1;2;4])] [3;4]));
  (*6147*) AddTo (T 164) (Times (Einsum [(T 163,[0;1])] [1;0]) (-1) 1);
  (*6148*) AddTo n_rdm2_f_oovv_bbaa (Plain (Einsum [(n_delta_oo'bb,[0;1]); (T 164,[2;3])] [1;0;3;2]));
  (*6149*) AddTo n_rdm2_f_vvoo_aabb (Plain (Einsum [(n_delta_oo'bb,[0;1]); (T 164,[2;3])] [3;2;1;0]));
  (*6150*) AddTo n_rdm2_f_vovv_bbaa (Plain (Einsum [(n_t1'bb,[0;1]); (T 164,[2;3])] [1;0;3;2]));
  (*6151*) AddTo n_rdm2_f_vvvo_aabb (Plain (Einsum [(n_t1'bb,[0;1]); (T 164,[2;3])] [3;2;1;0]));
  (*6152*) Del (T 164);
  (*6153*) AddTo (T 312) (Times (Einsum [(T 163,[0;1])] [1;0]) (-1) 1);
  (*6154*) Del (T 163);
  (*6155*) Assign (T 313) (Plain (Zeros [4;6;5;7]));
  (*6156*) AddTo (T 313) (Plain (Einsum [(T 312,[0;1]); (n_t2'abab,[2;3;0;4])] [2;3;1;4]));
  (*6157*) Del (T 312);
  (*6158*) AddTo n_rdm2_f_vovo_bbaa (Times (Einsum [(T 313,[0;1;2;3])] [3;1;2;0]) (-1) 1);
  (*6159*) AddTo n_rdm2_f_vovo_aabb (Times (Einsum [(T 313,[0;1;2;3])] [2;0;3;1]) (-1) 1);
  (*6160*) Del (T 313);
  (*6161*) Assign (T 353) (Plain (Zeros [4;4;5;5]));
  (*6162*) AddTo (T 353) (Times (Einsum [(T 143,[0;1;2;3]); (T 7,[0;4;2;5])] [4;1;5;3]) (2) 1);
  (*6163*) Del (T 143);
  (*6164*) Del (T 7);
  (*6165*) AddTo (T 354) (Plain (Einsum [(T 353,[0;1;2;3])] [1;0;3;2]));
  (*6166*) Del (T 353);
  (*6167*) Assign (T 355) (Plain (Zeros [4;5;5;5]));
  (*6168*) AddTo (T 355) (Times (Einsum [(n_t1'aa,[0;1]); (T 354,[0;2;3;4])] [2;1;3;4]) (1) 2);
  (*6169*) Del (T 354);
  (*6170*) AddTo (T 356) (Times (Einsum [(T 355,[0;1;2;3])] [0;2;1;3]) (-1) 1);
  (*6171*) Del (T 355);
  (*6172*) Assign n_rdm2_f_vovv_aaaa (Plain (Zeros [5;4;5;5]));
  (*6173*) AddTo n_rdm2_f_vovv_aaaa (Plain (Einsum [(T 356,[0;1;2;3])] [2;0;3;1]));
  (*6174*) AddTo n_rdm2_f_vovv_aaaa (Times (Einsum [(T 356,[0;1;2;3])] [3;0;2;1]) (-1) 1);
  (*6175*) Assign n_rdm2_f_vvvo_aaaa (Plain (Zeros [5;5;5;4]));
  (*6176*) AddTo n_rdm2_f_vvvo_aaaa (Times (Einsum [(T 356,[0;1;2;3])] [2;1;3;0]) (-1) 1);
  (*6177*) AddTo n_rdm2_f_vvvo_aaaa (Plain (Einsum [(T 356,[0;1;2;3])] [3;1;2;0]));
  (*6178*) Del (T 356);
  (*6179*) Assign (T 146) (Plain (Zeros [6;6;7;7]));
  (*6180*) AddTo (T 146) (Plain (Einsum [(n_l2'abab,[0;1;2;3]); (n_t2'abab,[2;4;0;5])] [3;4;1;5]));
  (*6181*) Assign (T 250) (Plain (Zeros [6;6;7;7]));
  (*6182*) AddTo (T 250) (Plain (Einsum [(T 146,[0;1;2;3])] [0;1;2;3]));
  (*6183*) AddTo (T 367) (Times (Einsum [(T 146,[0;1;2;3])] [0;1;2;3]) (2) 1);
  (*6184*) SubFrom n_rdm2_f_oovv_bbbb (Plain (Einsum [(T 146,[0;1;2;3])] [0;1;3;2]));
  (*6185*) AddTo n_rdm2_f_ovvo_bbbb (Plain (Einsum [(T 146,[0;1;2;3])] [0;2;3;1]));
  (*6186*) AddTo n_rdm2_f_voov_bbbb (Plain (Einsum [(T 146,[0;1;2;3])] [3;1;0;2]));
  (*6187*) SubFrom n_rdm2_f_vvoo_bbbb (Plain (Einsum [(T 146,[0;1;2;3])] [3;2;0;1]));
  (*6188*) Del (T 146);
  (*6189*) Assign (T 147) (Plain (Zeros [6;6;7;7]));
  (*6190*) AddTo (T 147) (Plain (Einsum [(n_lu12'bb,[0;1;2;3]); (n_u12'bb,[0;1;4;5])] [3;4;2;5]));
  (*6191*) AddTo (T 367) (Plain (Einsum [(T 147,[0;1;2;3])] [0;1;2;3]));
  (*6192*) AddTo n_rdm2_f_oovv_bbbb (Times (Einsum [(T 147,[0;1;2;3])] [0;1;3;2]) (-1) 2);
  (*6193*) AddTo n_rdm2_f_ovvo_bbbb (Times (Einsum [(T 147,[0;1;2;3])] [0;2;3;1]) (1) 2);
  (*6194*) AddTo n_rdm2_f_voov_bbbb (Times (Einsum [(T 147,[0;1;2;3])] [3;1;0;2]) (1) 2);
  (*6195*) AddTo n_rdm2_f_vvoo_bbbb (Times (Einsum [(T 147,[0;1;2;3])] [3;2;0;1]) (-1) 2);
  (*6196*) Del (T 147);
  (*6197*) Assign (T 148) (Plain (Zeros [6;6;7;7]));
  (*6198*) AddTo (T 148) (Plain (Einsum [(n_lu11'bb,[0;1;2]); (n_u11'bb,[0;3;4])] [2;3;1;4]));
  (*6199*) SubFrom n_rdm2_f_oovv_bbbb (Plain (Einsum [(T 148,[0;1;2;3])] [0;1;3;2]));
  (*6200*) AddTo n_rdm2_f_ovvo_bbbb (Plain (Einsum [(T 148,[0;1;2;3])] [0;2;3;1]));
  (*6201*) AddTo n_rdm2_f_voov_bbbb (Plain (Einsum [(T 148,[0;1;2;3])] [3;1;0;2]));
  (*6202*) SubFrom n_rdm2_f_vvoo_bbbb (Plain (Einsum [(T 148,[0;1;2;3])] [3;2;0;1]));
  (*6203*) Del (T 148);
  (*6204*) Assign (T 149) (Plain (Zeros [6;6;7;7]));
  (*6205*) SubFrom (T 149) (Plain (Einsum [(n_t2'bbbb,[0;1;2;3])] [1;0;2;3]));
  (*6206*) AddTo (T 149) (Plain (Einsum [(n_t2'bbbb,[0;1;2;3])] [1;0;3;2]));
  (*6207*) Assign (T 175) (Plain (Zeros [4;6;5;7]));
  (*6208*) AddTo (T 175) (Plain (Einsum [(n_l2'abab,[0;1;2;3]); (T 149,[3;4;5;1])] [2;4;0;5]));
  (*6209*) SubFrom n_rdm2_f_ovvo_aabb (Plain (Einsum [(T 175,[0;1;2;3])] [0;2;3;1]));
  (*6210*) SubFrom n_rdm2_f_voov_bbaa (Plain (Einsum [(T 175,[0;1;2;3])] [3;1;0;2]));
  (*6211*) Del (T 175);
  (*6212*) Assign (T 253) (Plain (Zeros [6;6;6;7]));
  (*6213*) AddTo (T 253) (Plain (Einsum [(T 149,[0;1;2;3]); (T 252,[4;0;5;2])] [1;4;5;3]));
  (*6214*) Del (T 252);
  (*6215*) AddTo (T 254) (Plain (Einsum [(T 253,[0;1;2;3])] [1;2;0;3]));
  (*6216*) Del (T 253);
  (*6217*) Assign (T 255) (Plain (Zeros [6;6;7;7]));
  (*6218*) AddTo (T 255) (Plain (Einsum [(n_t1'bb,[0;1]); (T 254,[0;2;3;4])] [2;3;1;4]));
  (*6219*) Del (T 254);
  (*6220*) AddTo (T 264) (Plain (Einsum [(T 255,[0;1;2;3])] [0;1;2;3]));
  (*6221*) Del (T 255);
  (*6222*) Assign (T 258) (Plain (Zeros [3;6;7]));
  (*6223*) AddTo (T 258) (Plain (Einsum [(n_lu11'bb,[0;1;2]); (T 149,[2;3;4;1])] [0;3;4]));
  (*6224*) SubFrom (T 259) (Plain (Einsum [(T 258,[0;1;2])] [0;1;2]));
  (*6225*) Del (T 258);
  (*6226*) Assign (T 262) (Plain (Zeros [6;7]));
  (*6227*) AddTo (T 262) (Plain (Einsum [(n_l1'bb,[0;1]); (T 149,[1;2;3;0])] [2;3]));
  (*6228*) SubFrom (T 263) (Plain (Einsum [(T 262,[0;1])] [0;1]));
  (*6229*) Del (T 262);
  (*6230*) AddTo (T 264) (Plain (Einsum [(n_t1'bb,[0;1]); (T 263,[2;3])] [0;2;1;3]));
  (*6231*) Del (T 263);
  (*6232*) Assign (T 150) (Plain (Zeros [6;6;7;7]));
  (*6233*) SubFrom (T 150) (Plain (Einsum [(n_l2'bbbb,[0;1;2;3])] [3;2;0;1]));
  (*6234*) AddTo (T 150) (Plain (Einsum [(n_l2'bbbb,[0;1;2;3])] [3;2;1;0]));
  (*6235*) Assign (T 151) (Plain (Zeros [6;6;7;7]));
  (*6236*) AddTo (T 151) (Plain (Einsum [(T 149,[0;1;2;3]); (T 150,[0;4;5;2])] [1;4;3;5]));
  (*6237*) AddTo n_rdm2_f_oovv_bbbb (Plain (Einsum [(T 151,[0;1;2;3])] [1;0;2;3]));
  (*6238*) AddTo n_rdm2_f_vvoo_bbbb (Plain (Einsum [(T 151,[0;1;2;3])] [2;3;1;0]));
  (*6239*) Del (T 151);
  (*6240*) Assign (T 180) (Plain (Zeros [4;6;5;7]));
  (*6241*) AddTo (T 180) (Plain (Einsum [(n_t2'abab,[0;1;2;3]); (T 150,[1;4;5;3])] [0;4;2;5]));
  (*6242*) Assign (T 227) (Plain (Zeros [4;4;5;5]));
  (*6243*) SubFrom (T 227) (Plain (Einsum [(n_t2'abab,[0;1;2;3]); (T 180,[4;1;5;3])] [0;4;2;5]));
  (*6244*) AddTo (T 228) (Plain (Einsum [(T 227,[0;1;2;3])] [0;1;2;3]));
  (*6245*) Del (T 227);
  (*6246*) Assign (T 303) (Plain (Zeros [4;6;5;7]));
  (*6247*) SubFrom (T 303) (Plain (Einsum [(T 180,[0;1;2;3])] [0;1;2;3]));
  (*6248*) SubFrom n_rdm2_f_ovvo_bbaa (Plain (Einsum [(T 180,[0;1;2;3])] [1;3;2;0]));
  (*6249*) SubFrom n_rdm2_f_voov_aabb (Plain (Einsum [(T 180,[0;1;2;3])] [2;0;1;3]));
  (*6250*) Del (T 180);
  (*6251*) Assign (T 181) (Plain (Zeros [6;6;7;7]));
  (*6252*) AddTo (T 181) (Plain (Einsum [(T 150,[0;1;2;3]); (T 85,[0;4;3;5])] [4;1;5;2]));
  (*6253*) AddTo n_rdm2_f_ovvo_bbbb (Plain (Einsum [(T 181,[0;1;2;3])] [1;3;2;0]));
  (*6254*) AddTo n_rdm2_f_voov_bbbb (Plain (Einsum [(T 181,[0;1;2;3])] [2;0;1;3]));
  (*6255*) Del (T 181);
  (*6256*) Assign (T 249) (Plain (Zeros [6;6;7;7]));
  (*6257*) AddTo (T 249) (Plain (Einsum [(n_t2'bbbb,[0;1;2;3]); (T 150,[0;4;5;2])] [1;4;3;5]));
  (*6258*) SubFrom (T 250) (Plain (Einsum [(T 249,[0;1;2;3])] [1;0;3;2]));
  (*6259*) Assign (T 251) (Plain (Zeros [6;6;7;7]));
  (*6260*) AddTo (T 251) (Plain (Einsum [(n_t2'bbbb,[0;1;2;3]); (T 250,[0;4;3;5])] [1;4;2;5]));
  (*6261*) Del (T 250);
  (*6262*) SubFrom (T 264) (Plain (Einsum [(T 251,[0;1;2;3])] [1;0;3;2]));
  (*6263*) Del (T 251);
  (*6264*) Assign (T 288) (Plain (Zeros [6;6;7;7]));
  (*6265*) SubFrom (T 288) (Plain (Einsum [(n_t2'bbbb,[0;1;2;3]); (T 249,[4;0;5;2])] [1;4;3;5]));
  (*6266*) Del (T 249);
  (*6267*) AddTo (T 291) (Plain (Einsum [(T 288,[0;1;2;3])] [1;0;3;2]));
  (*6268*) Del (T 288);
  (*6269*) Assign (T 289) (Plain (Zeros [6;6;7;7]));
  (*6270*) AddTo (T 289) (Plain (Einsum [(n_t2'bbbb,[0;1;2;3]); (T 150,[0;4;5;3])] [1;4;2;5]));
  (*6271*) Del (T 150);
  (*6272*) Assign (T 290) (Plain (Zeros [6;6;7;7]));
  (*6273*) SubFrom (T 290) (Plain (Einsum [(n_t2'bbbb,[0;1;2;3]); (T 289,[4;0;5;3])] [1;4;2;5]));
  (*6274*) Del (T 289);
  (*6275*) AddTo (T 291) (Plain (Einsum [(T 290,[0;1;2;3])] [0;1;2;3]));
  (*6276*) Del (T 290);
  (*6277*) Assign (T 154) (Plain (Zeros [7;7]));
  (*6278*) AddTo (T 154) (Plain (Einsum [(n_l1'bb,[0;1]); (n_t1'bb,[1;2])] [0;2]));
  (*6279*) Assign (T 160) (Plain (Zeros [7;7]));
  (*6280*) AddTo (T 160) (Plain (Einsum [(T 154,[0;1])] [0;1]));
  (*6281*) Assign (T 362) (Plain (Zeros [7;7]));
  (*6282*) AddTo (T 362) (Plain (Einsum [(T 154,[0;1])] [0;1]));
  (*6283*) Del (T 154);
  (*6284*) Assign (T 155) (Plain (Zeros [7;7]));
  (*6285*) AddTo (T 155) (Plain (Einsum [(n_lu11'bb,[0;1;2]); (n_u11'bb,[0;2;3])] [1;3]));
  (*6286*) AddTo (T 160) (Plain (Einsum [(T 155,[0;1])] [0;1]));
  (*6287*) Assign (T 241) (Plain (Zeros [6;6;7;7]));
  (*6288*) AddTo (T 241) (Plain (Einsum [(T 155,[0;1]); (n_t2'bbbb,[2;3;0;4])] [3;2;4;1]));
  (*6289*) SubFrom (T 264) (Plain (Einsum [(T 241,[0;1;2;3])] [0;1;2;3]));
  (*6290*) Del (T 241);
  (*6291*) Assign (T 310) (Plain (Zeros [7;7]));
  (*6292*) AddTo (T 310) (Plain (Einsum [(T 155,[0;1])] [0;1]));
  (*6293*) AddTo (T 362) (Plain (Einsum [(T 155,[0;1])] [0;1]));
  (*6294*) Del (T 155);
  (*6295*) Assign (T 363) (Plain (Zeros [6;7;7;7]));
  (*6296*) AddTo (T 363) (Plain (Einsum [(n_t1'bb,[0;1]); (T 362,[2;3])] [0;2;1;3]));
  (*6297*) Del (T 362);
  (*6298*) Assign (T 156) (Plain (Zeros [7;7]));
  (*6299*) AddTo (T 156) (Plain (Einsum [(n_lu12'bb,[0;1;2;3]); (n_u12'bb,[0;1;3;4])] [2;4]));
  (*6300*) AddTo (T 160) (Times (Einsum [(T 156,[0;1])] [0;1]) (1) 2);
  (*6301*) Assign (T 273) (Plain (Zeros [7;7]));
  (*6302*) AddTo (T 273) (Plain (Einsum [(T 156,[0;1])] [0;1]));
  (*6303*) AddTo (T 310) (Times (Einsum [(T 156,[0;1])] [0;1]) (1) 2);
  (*6304*) Assign (T 369) (Plain (Zeros [7;7]));
  (*6305*) AddTo (T 369) (Plain (Einsum [(T 156,[0;1])] [0;1]));
  (*6306*) Del (T 156);
  (*6307*) Assign (T 157) (Plain (Zeros [7;7]));
  (*6308*) AddTo (T 157) (Plain (Einsum [(n_l2'abab,[0;1;2;3]); (n_t2'abab,[2;3;0;4])] [1;4]));
  (*6309*) AddTo (T 160) (Plain (Einsum [(T 157,[0;1])] [0;1]));
  (*6310*) Assign (T 267) (Plain (Zeros [6;6;7;7]));
  (*6311*) AddTo (T 267) (Plain (Einsum [(T 157,[0;1]); (n_t2'bbbb,[2;3;0;4])] [3;2;1;4]));
  (*6312*) AddTo (T 281) (Times (Einsum [(T 267,[0;1;2;3])] [0;1;2;3]) (-1) 1);
  (*6313*) Del (T 267);
  (*6314*) AddTo (T 310) (Plain (Einsum [(T 157,[0;1])] [0;1]));
  (*6315*) AddTo (T 369) (Times (Einsum [(T 157,[0;1])] [0;1]) (2) 1);
  (*6316*) Del (T 157);
  (*6317*) Assign (T 158) (Plain (Zeros [6;6;7;7]));
  (*6318*) AddTo (T 158) (Times (Einsum [(n_l2'bbbb,[0;1;2;3])] [3;2;0;1]) (-1) 1);
  (*6319*) AddTo (T 158) (Plain (Einsum [(n_l2'bbbb,[0;1;2;3])] [3;2;1;0]));
  (*6320*) Assign (T 159) (Plain (Zeros [7;7]));
  (*6321*) AddTo (T 159) (Plain (Einsum [(n_t2'bbbb,[0;1;2;3]); (T 158,[0;1;3;4])] [2;4]));
  (*6322*) AddTo (T 160) (Times (Einsum [(T 159,[0;1])] [1;0]) (-1) 1);
  (*6323*) AddTo n_rdm2_f_oovv_bbbb (Plain (Einsum [(n_delta_oo'bb,[0;1]); (T 160,[2;3])] [1;0;3;2]));
  (*6324*) AddTo n_rdm2_f_oovv_aabb (Plain (Einsum [(n_delta_oo'aa,[0;1]); (T 160,[2;3])] [1;0;3;2]));
  (*6325*) AddTo n_rdm2_f_ovvo_bbbb (Times (Einsum [(n_delta_oo'bb,[0;1]); (T 160,[2;3])] [1;2;3;0]) (-1) 1);
  (*6326*) AddTo n_rdm2_f_voov_bbbb (Times (Einsum [(n_delta_oo'bb,[0;1]); (T 160,[2;3])] [3;0;1;2]) (-1) 1);
  (*6327*) AddTo n_rdm2_f_vvoo_bbbb (Plain (Einsum [(n_delta_oo'bb,[0;1]); (T 160,[2;3])] [3;2;1;0]));
  (*6328*) AddTo n_rdm2_f_vvoo_bbaa (Plain (Einsum [(n_delta_oo'aa,[0;1]); (T 160,[2;3])] [3;2;1;0]));
  (*6329*) AddTo n_rdm2_f_vovv_aabb (Plain (Einsum [(n_t1'aa,[0;1]); (T 160,[2;3])] [1;0;3;2]));
  (*6330*) AddTo n_rdm2_f_vvvo_bbaa (Plain (Einsum [(n_t1'aa,[0;1]); (T 160,[2;3])] [3;2;1;0]));
  (*6331*) Del (T 160);
  (*6332*) AddTo (T 310) (Times (Einsum [(T 159,[0;1])] [1;0]) (-1) 1);
  (*6333*) Del (T 159);
  (*6334*) Assign (T 311) (Plain (Zeros [4;6;5;7]));
  (*6335*) AddTo (T 311) (Plain (Einsum [(T 310,[0;1]); (n_t2'abab,[2;3;4;0])] [2;3;4;1]));
  (*6336*) Del (T 310);
  (*6337*) AddTo n_rdm2_f_vovo_bbaa (Times (Einsum [(T 311,[0;1;2;3])] [3;1;2;0]) (-1) 1);
  (*6338*) AddTo n_rdm2_f_vovo_aabb (Times (Einsum [(T 311,[0;1;2;3])] [2;0;3;1]) (-1) 1);
  (*6339*) Del (T 311);
  (*6340*) Assign (T 272) (Plain (Zeros [7;7]));
  (*6341*) AddTo (T 272) (Times (Einsum [(n_t2'bbbb,[0;1;2;3]); (T 158,[0;1;3;4])] [2;4]) (2) 1);
  (*6342*) AddTo (T 273) (Times (Einsum [(T 272,[0;1])] [1;0]) (-1) 1);
  (*6343*) Assign (T 274) (Plain (Zeros [6;6;7;7]));
  (*6344*) AddTo (T 274) (Times (Einsum [(T 273,[0;1]); (n_t2'bbbb,[2;3;0;4])] [2;3;4;1]) (1) 2);
  (*6345*) Del (T 273);
  (*6346*) AddTo (T 281) (Plain (Einsum [(T 274,[0;1;2;3])] [1;0;2;3]));
  (*6347*) Del (T 274);
  (*6348*) AddTo (T 369) (Times (Einsum [(T 272,[0;1])] [1;0]) (-1) 1);
  (*6349*) Del (T 272);
  (*6350*) AddTo (T 370) (Times (Einsum [(n_t1'bb,[0;1]); (T 369,[2;3])] [0;2;1;3]) (1) 2);
  (*6351*) Del (T 369);
  (*6352*) Assign (T 366) (Plain (Zeros [6;6;7;7]));
  (*6353*) AddTo (T 366) (Times (Einsum [(T 158,[0;1;2;3]); (T 67,[0;4;3;5])] [4;1;5;2]) (2) 1);
  (*6354*) Del (T 67);
  (*6355*) Del (T 158);
  (*6356*) AddTo (T 367) (Plain (Einsum [(T 366,[0;1;2;3])] [1;0;3;2]));
  (*6357*) Del (T 366);
  (*6358*) Assign (T 368) (Plain (Zeros [6;7;7;7]));
  (*6359*) AddTo (T 368) (Times (Einsum [(n_t1'bb,[0;1]); (T 367,[0;2;3;4])] [2;1;3;4]) (1) 2);
  (*6360*) Del (T 367);
  (*6361*) AddTo (T 370) (Times (Einsum [(T 368,[0;1;2;3])] [0;2;1;3]) (-1) 1);
  (*6362*) Del (T 368);
  (*6363*) Assign n_rdm2_f_vovv_bbbb (Plain (Zeros [7;6;7;7]));
  (*6364*) AddTo n_rdm2_f_vovv_bbbb (Plain (Einsum [(T 370,[0;1;2;3])] [2;0;3;1]));
  (*6365*) AddTo n_rdm2_f_vovv_bbbb (Times (Einsum [(T 370,[0;1;2;3])] [3;0;2;1]) (-1) 1);
  (*6366*) Assign n_rdm2_f_vvvo_bbbb (Plain (Zeros [7;7;7;6]));
  (*6367*) AddTo n_rdm2_f_vvvo_bbbb (Times (Einsum [(T 370,[0;1;2;3])] [2;1;3;0]) (-1) 1);
  (*6368*) AddTo n_rdm2_f_vvvo_bbbb (Plain (Einsum [(T 370,[0;1;2;3])] [3;1;2;0]));
  (*6369*) Del (T 370);
  (*6370*) Assign (T 161) (Plain (Zeros [6;6;5;5]));
  (*6371*) AddTo (T 161) (Plain (Einsum [(n_l2'abab,[0;1;2;3]); (n_t2'abab,[2;4;5;1])] [3;4;0;5]));
  (*6372*) Assign (T 373) (Plain (Zeros [6;5;5;7]));
  (*6373*) AddTo (T 373) (Plain (Einsum [(n_t1'bb,[0;1]); (T 161,[0;2;3;4])] [2;3;4;1]));
  (*6374*) AddTo n_rdm2_f_vovv_bbaa (Times (Einsum [(T 373,[0;1;2;3])] [3;0;2;1]) (-1) 1);
  (*6375*) AddTo n_rdm2_f_vvvo_aabb (Times (Einsum [(T 373,[0;1;2;3])] [2;1;3;0]) (-1) 1);
  (*6376*) Del (T 373);
  (*6377*) SubFrom n_rdm2_f_oovv_bbaa (Plain (Einsum [(T 161,[0;1;2;3])] [0;1;3;2]));
  (*6378*) SubFrom n_rdm2_f_vvoo_aabb (Plain (Einsum [(T 161,[0;1;2;3])] [3;2;0;1]));
  (*6379*) Del (T 161);
  (*6380*) Assign (T 165) (Plain (Zeros [4;4;7;7]));
  (*6381*) AddTo (T 165) (Plain (Einsum [(n_l2'abab,[0;1;2;3]); (n_t2'abab,[4;3;0;5])] [2;4;1;5]));
  (*6382*) Assign (T 302) (Plain (Zeros [4;6;5;7]));
  (*6383*) AddTo (T 302) (Plain (Einsum [(n_t2'abab,[0;1;2;3]); (T 165,[0;4;3;5])] [4;1;2;5]));
  (*6384*) AddTo n_rdm2_f_vovo_bbaa (Plain (Einsum [(T 302,[0;1;2;3])] [3;1;2;0]));
  (*6385*) AddTo n_rdm2_f_vovo_aabb (Plain (Einsum [(T 302,[0;1;2;3])] [2;0;3;1]));
  (*6386*) Del (T 302);
  (*6387*) Assign (T 383) (Plain (Zeros [4;5;7;7]));
  (*6388*) AddTo (T 383) (Plain (Einsum [(n_t1'aa,[0;1]); (T 165,[0;2;3;4])] [2;1;3;4]));
  (*6389*) AddTo n_rdm2_f_vovv_aabb (Times (Einsum [(T 383,[0;1;2;3])] [1;0;3;2]) (-1) 1);
  (*6390*) AddTo n_rdm2_f_vvvo_bbaa (Times (Einsum [(T 383,[0;1;2;3])] [3;2;1;0]) (-1) 1);
  (*6391*) Del (T 383);
  (*6392*) SubFrom n_rdm2_f_oovv_aabb (Plain (Einsum [(T 165,[0;1;2;3])] [0;1;3;2]));
  (*6393*) SubFrom n_rdm2_f_vvoo_bbaa (Plain (Einsum [(T 165,[0;1;2;3])] [3;2;0;1]));
  (*6394*) Del (T 165);
  (*6395*) Assign (T 167) (Plain (Zeros [4;4;5;5]));
  (*6396*) AddTo (T 167) (Plain (Einsum [(n_t2'aaaa,[0;1;2;3])] [1;0;2;3]));
  (*6397*) SubFrom (T 167) (Plain (Einsum [(n_t2'aaaa,[0;1;2;3])] [1;0;3;2]));
  (*6398*) Assign (T 168) (Plain (Zeros [4;4;5;5]));
  (*6399*) AddTo (T 168) (Plain (Einsum [(T 135,[0;1;2;3]); (T 167,[0;4;2;5])] [1;4;3;5]));
  (*6400*) Del (T 135);
  (*6401*) AddTo (T 304) (Plain (Einsum [(T 168,[0;1;2;3])] [0;1;2;3]));
  (*6402*) Assign (T 305) (Plain (Zeros [4;6;5;7]));
  (*6403*) AddTo (T 305) (Plain (Einsum [(n_t2'abab,[0;1;2;3]); (T 304,[0;4;2;5])] [4;1;5;3]));
  (*6404*) Del (T 304);
  (*6405*) AddTo n_rdm2_f_vovo_bbaa (Plain (Einsum [(T 305,[0;1;2;3])] [3;1;2;0]));
  (*6406*) AddTo n_rdm2_f_vovo_aabb (Plain (Einsum [(T 305,[0;1;2;3])] [2;0;3;1]));
  (*6407*) Del (T 305);
  (*6408*) AddTo n_rdm2_f_ovvo_aaaa (Plain (Einsum [(T 168,[0;1;2;3])] [0;2;3;1]));
  (*6409*) AddTo n_rdm2_f_voov_aaaa (Plain (Einsum [(T 168,[0;1;2;3])] [3;1;0;2]));
  (*6410*) Del (T 168);
  (*6411*) Assign (T 179) (Plain (Zeros [4;6;5;7]));
  (*6412*) AddTo (T 179) (Plain (Einsum [(n_l2'abab,[0;1;2;3]); (T 167,[2;4;0;5])] [4;3;5;1]));
  (*6413*) SubFrom (T 303) (Plain (Einsum [(T 179,[0;1;2;3])] [0;1;2;3]));
  (*6414*) AddTo n_rdm2_f_vovo_bbaa (Plain (Einsum [(T 303,[0;1;2;3]); (T 85,[1;4;5;3])] [5;4;2;0]));
  (*6415*) Del (T 85);
  (*6416*) SubFrom n_rdm2_f_vovo_aabb (Plain (Einsum [(T 149,[0;1;2;3]); (T 303,[4;0;5;3])] [5;4;2;1]));
  (*6417*) Del (T 149);
  (*6418*) Del (T 303);
  (*6419*) SubFrom n_rdm2_f_ovvo_bbaa (Plain (Einsum [(T 179,[0;1;2;3])] [1;3;2;0]));
  (*6420*) SubFrom n_rdm2_f_voov_aabb (Plain (Einsum [(T 179,[0;1;2;3])] [2;0;1;3]));
  (*6421*) Del (T 179);
  (*6422*) Assign (T 209) (Plain (Zeros [4;4;4;5]));
  (*6423*) AddTo (T 209) (Plain (Einsum [(T 167,[0;1;2;3]); (T 169,[0;4;5;3])] [1;4;5;2]));
  (*6424*) Del (T 169);
  (*6425*) AddTo (T 210) (Plain (Einsum [(T 209,[0;1;2;3])] [1;2;0;3]));
  (*6426*) Del (T 209);
  (*6427*) Assign (T 211) (Plain (Zeros [4;4;5;5]));
  (*6428*) AddTo (T 211) (Plain (Einsum [(n_t1'aa,[0;1]); (T 210,[0;2;3;4])] [2;3;1;4]));
  (*6429*) Del (T 210);
  (*6430*) AddTo (T 220) (Plain (Einsum [(T 211,[0;1;2;3])] [0;1;2;3]));
  (*6431*) Del (T 211);
  (*6432*) Assign (T 214) (Plain (Zeros [3;4;5]));
  (*6433*) AddTo (T 214) (Plain (Einsum [(n_lu11'aa,[0;1;2]); (T 167,[2;3;1;4])] [0;3;4]));
  (*6434*) SubFrom (T 215) (Plain (Einsum [(T 214,[0;1;2])] [0;1;2]));
  (*6435*) Del (T 214);
  (*6436*) Assign (T 218) (Plain (Zeros [4;5]));
  (*6437*) AddTo (T 218) (Plain (Einsum [(n_l1'aa,[0;1]); (T 167,[1;2;0;3])] [2;3]));
  (*6438*) Del (T 167);
  (*6439*) SubFrom (T 219) (Plain (Einsum [(T 218,[0;1])] [0;1]));
  (*6440*) Del (T 218);
  (*6441*) AddTo (T 220) (Plain (Einsum [(n_t1'aa,[0;1]); (T 219,[2;3])] [0;2;1;3]));
  (*6442*) Del (T 219);
  (*6443*) Assign (T 171) (Plain (Zeros [4;6;5;7]));
  (*6444*) AddTo (T 171) (Plain (Einsum [(n_lu12'aa,[0;1;2;3]); (n_u12'bb,[0;1;4;5])] [3;4;2;5]));
  (*6445*) AddTo (T 377) (Times (Einsum [(T 171,[0;1;2;3])] [0;1;2;3]) (-1) 2);
  (*6446*) AddTo n_rdm2_f_ovvo_aabb (Times (Einsum [(T 171,[0;1;2;3])] [0;2;3;1]) (1) 2);
  (*6447*) AddTo n_rdm2_f_voov_bbaa (Times (Einsum [(T 171,[0;1;2;3])] [3;1;0;2]) (1) 2);
  (*6448*) Del (T 171);
  (*6449*) Assign (T 172) (Plain (Zeros [4;6;5;7]));
  (*6450*) AddTo (T 172) (Plain (Einsum [(n_lu11'aa,[0;1;2]); (n_u11'bb,[0;3;4])] [2;3;1;4]));
  (*6451*) AddTo n_rdm2_f_ovvo_aabb (Plain (Einsum [(T 172,[0;1;2;3])] [0;2;3;1]));
  (*6452*) AddTo n_rdm2_f_voov_bbaa (Plain (Einsum [(T 172,[0;1;2;3])] [3;1;0;2]));
  (*6453*) Del (T 172);
  (*6454*) Assign (T 176) (Plain (Zeros [4;6;5;7]));
  (*6455*) AddTo (T 176) (Plain (Einsum [(n_lu12'bb,[0;1;2;3]); (n_u12'aa,[0;1;4;5])] [4;3;5;2]));
  (*6456*) AddTo (T 387) (Times (Einsum [(T 176,[0;1;2;3])] [0;1;2;3]) (-1) 2);
  (*6457*) AddTo n_rdm2_f_ovvo_bbaa (Times (Einsum [(T 176,[0;1;2;3])] [1;3;2;0]) (1) 2);
  (*6458*) AddTo n_rdm2_f_voov_aabb (Times (Einsum [(T 176,[0;1;2;3])] [2;0;1;3]) (1) 2);
  (*6459*) Del (T 176);
  (*6460*) Assign (T 177) (Plain (Zeros [4;6;5;7]));
  (*6461*) AddTo (T 177) (Plain (Einsum [(n_lu11'bb,[0;1;2]); (n_u11'aa,[0;3;4])] [3;2;4;1]));
  (*6462*) AddTo n_rdm2_f_ovvo_bbaa (Plain (Einsum [(T 177,[0;1;2;3])] [1;3;2;0]));
  (*6463*) AddTo n_rdm2_f_voov_aabb (Plain (Einsum [(T 177,[0;1;2;3])] [2;0;1;3]));
  (*6464*) Del (T 177);
  (*6465*) Assign (T 184) (Plain (Zeros [3;3;4;5]));
  (*6466*) AddTo (T 184) (Plain (Einsum [(n_lu12'bb,[0;1;2;3]); (n_t2'abab,[4;3;5;2])] [0;1;4;5]));
  (*6467*) AddTo (T 186) (Plain (Einsum [(T 184,[0;1;2;3])] [1;0;2;3]));
  (*6468*) Del (T 184);
  (*6469*) Assign (T 187) (Plain (Zeros [4;4;5;5]));
  (*6470*) AddTo (T 187) (Times (Einsum [(n_u12'aa,[0;1;2;3]); (T 186,[0;1;4;5])] [2;4;3;5]) (1) 2);
  (*6471*) AddTo (T 195) (Times (Einsum [(T 187,[0;1;2;3])] [1;0;3;2]) (-1) 1);
  (*6472*) Del (T 187);
  (*6473*) AddTo n_rdm2_f_vovo_aaaa (Times (Einsum [(T 195,[0;1;2;3])] [2;0;3;1]) (-1) 1);
  (*6474*) AddTo n_rdm2_f_vovo_aaaa (Plain (Einsum [(T 195,[0;1;2;3])] [3;0;2;1]));
  (*6475*) AddTo n_rdm2_f_vovo_aaaa (Plain (Einsum [(T 195,[0;1;2;3])] [2;1;3;0]));
  (*6476*) AddTo n_rdm2_f_vovo_aaaa (Times (Einsum [(T 195,[0;1;2;3])] [3;1;2;0]) (-1) 1);
  (*6477*) Del (T 195);
  (*6478*) Assign (T 309) (Plain (Zeros [4;6;5;7]));
  (*6479*) AddTo (T 309) (Times (Einsum [(n_u12'bb,[0;1;2;3]); (T 186,[0;1;4;5])] [4;2;5;3]) (1) 2);
  (*6480*) Del (T 186);
  (*6481*) AddTo n_rdm2_f_vovo_bbaa (Plain (Einsum [(T 309,[0;1;2;3])] [3;1;2;0]));
  (*6482*) AddTo n_rdm2_f_vovo_aabb (Plain (Einsum [(T 309,[0;1;2;3])] [2;0;3;1]));
  (*6483*) Del (T 309);
  (*6484*) Assign (T 203) (Plain (Zeros [4;6;5;7]));
  (*6485*) AddTo (T 203) (Plain (Einsum [(n_l2'abab,[0;1;2;3]); (n_t2'aaaa,[4;2;0;5])] [4;3;5;1]));
  (*6486*) Assign (T 204) (Plain (Zeros [4;4;5;5]));
  (*6487*) AddTo (T 204) (Plain (Einsum [(n_t2'abab,[0;1;2;3]); (T 203,[4;1;5;3])] [4;0;5;2]));
  (*6488*) Del (T 203);
  (*6489*) SubFrom (T 220) (Plain (Einsum [(T 204,[0;1;2;3])] [0;1;2;3]));
  (*6490*) Del (T 204);
  (*6491*) Assign (T 205) (Plain (Zeros [4;4;5;5]));
  (*6492*) SubFrom (T 205) (Plain (Einsum [(n_l2'aaaa,[0;1;2;3])] [3;2;0;1]));
  (*6493*) AddTo (T 205) (Plain (Einsum [(n_l2'aaaa,[0;1;2;3])] [3;2;1;0]));
  (*6494*) Assign (T 206) (Plain (Zeros [4;4;5;5]));
  (*6495*) AddTo (T 206) (Plain (Einsum [(n_t2'aaaa,[0;1;2;3]); (T 205,[0;4;3;5])] [1;4;2;5]));
  (*6496*) Del (T 205);
  (*6497*) SubFrom (T 207) (Plain (Einsum [(T 206,[0;1;2;3])] [1;0;3;2]));
  (*6498*) Del (T 206);
  (*6499*) Assign (T 208) (Plain (Zeros [4;4;5;5]));
  (*6500*) AddTo (T 208) (Plain (Einsum [(n_t2'aaaa,[0;1;2;3]); (T 207,[0;4;2;5])] [1;4;3;5]));
  (*6501*) Del (T 207);
  (*6502*) AddTo (T 220) (Plain (Einsum [(T 208,[0;1;2;3])] [0;1;2;3]));
  (*6503*) Del (T 208);
  (*6504*) Assign (T 213) (Plain (Zeros [3;4;5]));
  (*6505*) AddTo (T 213) (Plain (Einsum [(n_lu11'bb,[0;1;2]); (n_t2'abab,[3;2;4;1])] [0;3;4]));
  (*6506*) AddTo (T 215) (Plain (Einsum [(T 213,[0;1;2])] [0;1;2]));
  (*6507*) Assign (T 216) (Plain (Zeros [4;4;5;5]));
  (*6508*) AddTo (T 216) (Plain (Einsum [(n_u11'aa,[0;1;2]); (T 215,[0;3;4])] [1;3;2;4]));
  (*6509*) Del (T 215);
  (*6510*) AddTo (T 220) (Plain (Einsum [(T 216,[0;1;2;3])] [1;0;3;2]));
  (*6511*) Del (T 216);
  (*6512*) AddTo n_rdm2_f_vovo_aaaa (Plain (Einsum [(T 220,[0;1;2;3])] [2;0;3;1]));
  (*6513*) SubFrom n_rdm2_f_vovo_aaaa (Plain (Einsum [(T 220,[0;1;2;3])] [3;0;2;1]));
  (*6514*) SubFrom n_rdm2_f_vovo_aaaa (Plain (Einsum [(T 220,[0;1;2;3])] [2;1;3;0]));
  (*6515*) AddTo n_rdm2_f_vovo_aaaa (Plain (Einsum [(T 220,[0;1;2;3])] [3;1;2;0]));
  (*6516*) Del (T 220);
  (*6517*) SubFrom (T 326) (Plain (Einsum [(T 213,[0;1;2])] [0;1;2]));
  (*6518*) Del (T 213);
  (*6519*) AddTo (T 228) (Plain (Einsum [(n_t2'aaaa,[0;1;2;3])] [1;0;3;2]));
  (*6520*) SubFrom n_rdm2_f_vovo_aaaa (Plain (Einsum [(T 228,[0;1;2;3])] [3;0;2;1]));
  (*6521*) AddTo n_rdm2_f_vovo_aaaa (Plain (Einsum [(T 228,[0;1;2;3])] [2;0;3;1]));
  (*6522*) Del (T 228);
  (*6523*) Assign (T 229) (Plain (Zeros [3;4;5]));
  (*6524*) AddTo (T 229) (Plain (Einsum [(n_ls2,[0;1]); (n_u11'aa,[1;2;3])] [0;2;3]));
  (*6525*) Assign (T 230) (Plain (Zeros [4;4;5;5]));
  (*6526*) AddTo (T 230) (Plain (Einsum [(n_u11'aa,[0;1;2]); (T 229,[0;3;4])] [3;1;4;2]));
  (*6527*) SubFrom n_rdm2_f_vovo_aaaa (Plain (Einsum [(T 230,[0;1;2;3])] [3;0;2;1]));
  (*6528*) AddTo n_rdm2_f_vovo_aaaa (Plain (Einsum [(T 230,[0;1;2;3])] [3;1;2;0]));
  (*6529*) Del (T 230);
  (*6530*) SubFrom (T 326) (Plain (Einsum [(T 229,[0;1;2])] [0;1;2]));
  (*6531*) Del (T 229);
  (*6532*) Assign (T 327) (Plain (Zeros [4;6;5;7]));
  (*6533*) AddTo (T 327) (Plain (Einsum [(n_u11'bb,[0;1;2]); (T 326,[0;3;4])] [3;1;4;2]));
  (*6534*) Del (T 326);
  (*6535*) SubFrom n_rdm2_f_vovo_bbaa (Plain (Einsum [(T 327,[0;1;2;3])] [3;1;2;0]));
  (*6536*) SubFrom n_rdm2_f_vovo_aabb (Plain (Einsum [(T 327,[0;1;2;3])] [2;0;3;1]));
  (*6537*) Del (T 327);
  (*6538*) Assign (T 232) (Plain (Zeros [4;4;5;5]));
  (*6539*) AddTo (T 232) (Plain (Einsum [(n_t2'aaaa,[0;1;2;3])] [1;0;3;2]));
  (*6540*) AddTo (T 232) (Plain (Einsum [(n_t1'aa,[0;1]); (n_t1'aa,[2;3])] [0;2;1;3]));
  (*6541*) Assign (T 233) (Plain (Zeros [4;4;5;5]));
  (*6542*) AddTo (T 233) (Plain (Einsum [(T 1,[0;1;2;3]); (T 232,[0;1;4;5])] [2;3;4;5]));
  (*6543*) Del (T 1);
  (*6544*) Del (T 232);
  (*6545*) AddTo (T 234) (Plain (Einsum [(T 233,[0;1;2;3])] [1;0;3;2]));
  (*6546*) Del (T 233);
  (*6547*) AddTo n_rdm2_f_vovo_aaaa (Times (Einsum [(T 234,[0;1;2;3])] [2;1;3;0]) (-1) 1);
  (*6548*) AddTo n_rdm2_f_vovo_aaaa (Plain (Einsum [(T 234,[0;1;2;3])] [3;1;2;0]));
  (*6549*) Del (T 234);
  (*6550*) AddTo (T 238) (Times (Einsum [(n_t1'aa,[0;1])] [0;1]) (-1) 1);
  (*6551*) AddTo n_rdm2_f_vovo_aaaa (Plain (Einsum [(n_t1'aa,[0;1]); (T 238,[2;3])] [1;2;3;0]));
  (*6552*) AddTo n_rdm2_f_vovo_aaaa (Times (Einsum [(n_t1'aa,[0;1]); (T 238,[2;3])] [3;2;1;0]) (-1) 1);
  (*6553*) Del (T 238);
  (*6554*) Assign (T 247) (Plain (Zeros [4;6;5;7]));
  (*6555*) AddTo (T 247) (Plain (Einsum [(n_l2'abab,[0;1;2;3]); (n_t2'bbbb,[4;3;5;1])] [2;4;0;5]));
  (*6556*) Assign (T 248) (Plain (Zeros [6;6;7;7]));
  (*6557*) AddTo (T 248) (Plain (Einsum [(n_t2'abab,[0;1;2;3]); (T 247,[0;4;2;5])] [1;4;3;5]));
  (*6558*) Del (T 247);
  (*6559*) AddTo (T 264) (Plain (Einsum [(T 248,[0;1;2;3])] [0;1;2;3]));
  (*6560*) Del (T 248);
  (*6561*) Assign (T 256) (Plain (Zeros [3;6;7]));
  (*6562*) AddTo (T 256) (Plain (Einsum [(n_lu11'aa,[0;1;2]); (n_t2'abab,[2;3;1;4])] [0;3;4]));
  (*6563*) AddTo (T 259) (Plain (Einsum [(T 256,[0;1;2])] [0;1;2]));
  (*6564*) Assign (T 260) (Plain (Zeros [6;6;7;7]));
  (*6565*) AddTo (T 260) (Plain (Einsum [(n_u11'bb,[0;1;2]); (T 259,[0;3;4])] [1;3;2;4]));
  (*6566*) Del (T 259);
  (*6567*) AddTo (T 264) (Plain (Einsum [(T 260,[0;1;2;3])] [1;0;3;2]));
  (*6568*) Del (T 260);
  (*6569*) AddTo n_rdm2_f_vovo_bbbb (Plain (Einsum [(T 264,[0;1;2;3])] [2;0;3;1]));
  (*6570*) SubFrom n_rdm2_f_vovo_bbbb (Plain (Einsum [(T 264,[0;1;2;3])] [3;0;2;1]));
  (*6571*) SubFrom n_rdm2_f_vovo_bbbb (Plain (Einsum [(T 264,[0;1;2;3])] [2;1;3;0]));
  (*6572*) AddTo n_rdm2_f_vovo_bbbb (Plain (Einsum [(T 264,[0;1;2;3])] [3;1;2;0]));
  (*6573*) Del (T 264);
  (*6574*) SubFrom (T 330) (Plain (Einsum [(T 256,[0;1;2])] [0;1;2]));
  (*6575*) Del (T 256);
  (*6576*) Assign (T 331) (Plain (Zeros [4;6;5;7]));
  (*6577*) AddTo (T 331) (Plain (Einsum [(n_u11'aa,[0;1;2]); (T 330,[0;3;4])] [1;3;2;4]));
  (*6578*) Del (T 330);
  (*6579*) SubFrom n_rdm2_f_vovo_bbaa (Plain (Einsum [(T 331,[0;1;2;3])] [3;1;2;0]));
  (*6580*) SubFrom n_rdm2_f_vovo_aabb (Plain (Einsum [(T 331,[0;1;2;3])] [2;0;3;1]));
  (*6581*) Del (T 331);
  (*6582*) Assign (T 268) (Plain (Zeros [3;3;6;7]));
  (*6583*) AddTo (T 268) (Plain (Einsum [(n_lu12'aa,[0;1;2;3]); (n_t2'abab,[3;4;2;5])] [0;1;4;5]));
  (*6584*) AddTo (T 270) (Plain (Einsum [(T 268,[0;1;2;3])] [1;0;2;3]));
  (*6585*) Del (T 268);
  (*6586*) Assign (T 271) (Plain (Zeros [6;6;7;7]));
  (*6587*) AddTo (T 271) (Times (Einsum [(n_u12'bb,[0;1;2;3]); (T 270,[0;1;4;5])] [2;4;3;5]) (1) 2);
  (*6588*) AddTo (T 281) (Times (Einsum [(T 271,[0;1;2;3])] [1;0;3;2]) (-1) 1);
  (*6589*) Del (T 271);
  (*6590*) AddTo n_rdm2_f_vovo_bbbb (Times (Einsum [(T 281,[0;1;2;3])] [2;0;3;1]) (-1) 1);
  (*6591*) AddTo n_rdm2_f_vovo_bbbb (Plain (Einsum [(T 281,[0;1;2;3])] [3;0;2;1]));
  (*6592*) AddTo n_rdm2_f_vovo_bbbb (Plain (Einsum [(T 281,[0;1;2;3])] [2;1;3;0]));
  (*6593*) AddTo n_rdm2_f_vovo_bbbb (Times (Einsum [(T 281,[0;1;2;3])] [3;1;2;0]) (-1) 1);
  (*6594*) Del (T 281);
  (*6595*) Assign (T 308) (Plain (Zeros [4;6;5;7]));
  (*6596*) AddTo (T 308) (Times (Einsum [(n_u12'aa,[0;1;2;3]); (T 270,[0;1;4;5])] [2;4;3;5]) (1) 2);
  (*6597*) Del (T 270);
  (*6598*) AddTo n_rdm2_f_vovo_bbaa (Plain (Einsum [(T 308,[0;1;2;3])] [3;1;2;0]));
  (*6599*) AddTo n_rdm2_f_vovo_aabb (Plain (Einsum [(T 308,[0;1;2;3])] [2;0;3;1]));
  (*6600*) Del (T 308);
  (*6601*) Assign (T 282) (Plain (Zeros [3;6;7]));
  (*6602*) AddTo (T 282) (Plain (Einsum [(n_ls2,[0;1]); (n_u11'bb,[1;2;3])] [0;2;3]));
  (*6603*) Assign (T 283) (Plain (Zeros [6;6;7;7]));
  (*6604*) AddTo (T 283) (Plain (Einsum [(n_u11'bb,[0;1;2]); (T 282,[0;3;4])] [3;1;4;2]));
  (*6605*) Del (T 282);
  (*6606*) AddTo (T 285) (Plain (Einsum [(T 283,[0;1;2;3])] [1;0;3;2]));
  (*6607*) Del (T 283);
  (*6608*) SubFrom n_rdm2_f_vovo_bbbb (Plain (Einsum [(T 285,[0;1;2;3])] [2;1;3;0]));
  (*6609*) AddTo n_rdm2_f_vovo_bbbb (Plain (Einsum [(T 285,[0;1;2;3])] [2;0;3;1]));
  (*6610*) Del (T 285);
  (*6611*) AddTo (T 291) (Plain (Einsum [(n_t2'bbbb,[0;1;2;3])] [1;0;3;2]));
  (*6612*) SubFrom n_rdm2_f_vovo_bbbb (Plain (Einsum [(T 291,[0;1;2;3])] [3;0;2;1]));
  (*6613*) AddTo n_rdm2_f_vovo_bbbb (Plain (Einsum [(T 291,[0;1;2;3])] [2;0;3;1]));
  (*6614*) Del (T 291);
  (*6615*) AddTo (T 300) (Times (Einsum [(n_t1'bb,[0;1])] [0;1]) (-1) 1);
  (*6616*) AddTo n_rdm2_f_vovo_bbbb (Plain (Einsum [(n_t1'bb,[0;1]); (T 300,[2;3])] [3;0;1;2]));
  (*6617*) AddTo n_rdm2_f_vovo_bbbb (Times (Einsum [(n_t1'bb,[0;1]); (T 300,[2;3])] [1;0;3;2]) (-1) 1);
  (*6618*) Del (T 300);
  (*6619*) AddTo (T 334) (Times (Einsum [(n_t1'bb,[0;1])] [0;1]) (-1) 1);
  (*6620*) AddTo n_rdm2_f_vovo_bbaa (Times (Einsum [(n_t1'aa,[0;1]); (T 334,[2;3])] [3;2;1;0]) (-1) 1);
  (*6621*) Del (T 334);
  (*6622*) AddTo (T 338) (Times (Einsum [(n_t1'aa,[0;1])] [0;1]) (-1) 1);
  (*6623*) AddTo n_rdm2_f_vovo_aabb (Times (Einsum [(n_t1'bb,[0;1]); (T 338,[2;3])] [3;2;1;0]) (-1) 1);
  (*6624*) Del (T 338);
  (*6625*) Assign (T 340) (Plain (Zeros [4;5;5;5]));
  (*6626*) AddTo (T 340) (Plain (Einsum [(n_t1'aa,[0;1]); (n_l2'aaaa,[2;3;4;0])] [4;2;3;1]));
  (*6627*) Assign (T 392) (Plain (Zeros [5;5;5;5]));
  (*6628*) AddTo (T 392) (Plain (Einsum [(n_t1'aa,[0;1]); (T 340,[0;2;3;4])] [3;2;4;1]));
  (*6629*) Assign (T 393) (Plain (Zeros [5;5;5;5]));
  (*6630*) AddTo (T 393) (Plain (Einsum [(T 392,[0;1;2;3])] [1;0;3;2]));
  (*6631*) Del (T 392);
  (*6632*) Assign n_rdm2_f_ovvv_aaaa (Plain (Zeros [4;5;5;5]));
  (*6633*) AddTo n_rdm2_f_ovvv_aaaa (Plain (Einsum [(T 340,[0;1;2;3])] [0;1;3;2]));
  (*6634*) SubFrom n_rdm2_f_ovvv_aaaa (Plain (Einsum [(T 340,[0;1;2;3])] [0;2;3;1]));
  (*6635*) Assign n_rdm2_f_vvov_aaaa (Plain (Zeros [5;5;4;5]));
  (*6636*) SubFrom n_rdm2_f_vvov_aaaa (Plain (Einsum [(T 340,[0;1;2;3])] [3;1;0;2]));
  (*6637*) AddTo n_rdm2_f_vvov_aaaa (Plain (Einsum [(T 340,[0;1;2;3])] [3;2;0;1]));
  (*6638*) Del (T 340);
  (*6639*) Assign (T 341) (Plain (Zeros [6;7;7;7]));
  (*6640*) AddTo (T 341) (Plain (Einsum [(n_t1'bb,[0;1]); (n_l2'bbbb,[2;3;4;0])] [4;2;3;1]));
  (*6641*) Assign (T 397) (Plain (Zeros [7;7;7;7]));
  (*6642*) AddTo (T 397) (Plain (Einsum [(n_t1'bb,[0;1]); (T 341,[0;2;3;4])] [3;2;4;1]));
  (*6643*) Assign (T 398) (Plain (Zeros [7;7;7;7]));
  (*6644*) AddTo (T 398) (Plain (Einsum [(T 397,[0;1;2;3])] [1;0;3;2]));
  (*6645*) Del (T 397);
  (*6646*) Assign n_rdm2_f_ovvv_bbbb (Plain (Zeros [6;7;7;7]));
  (*6647*) AddTo n_rdm2_f_ovvv_bbbb (Plain (Einsum [(T 341,[0;1;2;3])] [0;1;3;2]));
  (*6648*) SubFrom n_rdm2_f_ovvv_bbbb (Plain (Einsum [(T 341,[0;1;2;3])] [0;2;3;1]));
  (*6649*) Assign n_rdm2_f_vvov_bbbb (Plain (Zeros [7;7;6;7]));
  (*6650*) SubFrom n_rdm2_f_vvov_bbbb (Plain (Einsum [(T 341,[0;1;2;3])] [3;1;0;2]));
  (*6651*) AddTo n_rdm2_f_vvov_bbbb (Plain (Einsum [(T 341,[0;1;2;3])] [3;2;0;1]));
  (*6652*) Del (T 341);
  (*6653*) Assign (T 342) (Plain (Zeros [6;5;5;7]));
  (*6654*) AddTo (T 342) (Plain (Einsum [(n_t1'aa,[0;1]); (n_l2'abab,[2;3;0;4])] [4;2;1;3]));
  (*6655*) Assign n_rdm2_f_ovvv_bbaa (Plain (Zeros [6;7;5;5]));
  (*6656*) AddTo n_rdm2_f_ovvv_bbaa (Plain (Einsum [(T 342,[0;1;2;3])] [0;3;2;1]));
  (*6657*) Assign n_rdm2_f_vvov_aabb (Plain (Zeros [5;5;6;7]));
  (*6658*) AddTo n_rdm2_f_vvov_aabb (Plain (Einsum [(T 342,[0;1;2;3])] [2;1;0;3]));
  (*6659*) Del (T 342);
  (*6660*) Assign (T 343) (Plain (Zeros [4;5;7;7]));
  (*6661*) AddTo (T 343) (Plain (Einsum [(n_t1'bb,[0;1]); (n_l2'abab,[2;3;4;0])] [4;2;3;1]));
  (*6662*) Assign (T 395) (Plain (Zeros [5;5;7;7]));
  (*6663*) AddTo (T 395) (Plain (Einsum [(n_t1'aa,[0;1]); (T 343,[0;2;3;4])] [2;1;3;4]));
  (*6664*) Assign n_rdm2_f_vvvv_bbaa (Plain (Zeros [7;7;5;5]));
  (*6665*) AddTo n_rdm2_f_vvvv_bbaa (Plain (Einsum [(T 395,[0;1;2;3])] [3;2;1;0]));
  (*6666*) Assign n_rdm2_f_vvvv_aabb (Plain (Zeros [5;5;7;7]));
  (*6667*) AddTo n_rdm2_f_vvvv_aabb (Plain (Einsum [(T 395,[0;1;2;3])] [1;0;3;2]));
  (*6668*) Del (T 395);
  (*6669*) Assign n_rdm2_f_ovvv_aabb (Plain (Zeros [4;5;7;7]));
  (*6670*) AddTo n_rdm2_f_ovvv_aabb (Plain (Einsum [(T 343,[0;1;2;3])] [0;1;3;2]));
  (*6671*) Assign n_rdm2_f_vvov_bbaa (Plain (Zeros [7;7;4;5]));
  (*6672*) AddTo n_rdm2_f_vvov_bbaa (Plain (Einsum [(T 343,[0;1;2;3])] [3;2;0;1]));
  (*6673*) Del (T 343);
  (*6674*) Assign (T 344) (Plain (Zeros [4;5;5;5]));
  (*6675*) AddTo (T 344) (Plain (Einsum [(n_l1'aa,[0;1]); (n_t2'aaaa,[2;1;3;4])] [2;0;3;4]));
  (*6676*) AddTo (T 350) (Plain (Einsum [(T 344,[0;1;2;3])] [0;1;2;3]));
  (*6677*) Del (T 344);
  (*6678*) Assign (T 345) (Plain (Zeros [3;5;5]));
  (*6679*) AddTo (T 345) (Plain (Einsum [(n_t1'aa,[0;1]); (n_lu11'aa,[2;3;0])] [2;3;1]));
  (*6680*) Assign (T 346) (Plain (Zeros [4;5;5;5]));
  (*6681*) AddTo (T 346) (Plain (Einsum [(n_u11'aa,[0;1;2]); (T 345,[0;3;4])] [1;3;4;2]));
  (*6682*) SubFrom (T 350) (Plain (Einsum [(T 346,[0;1;2;3])] [0;1;2;3]));
  (*6683*) Del (T 346);
  (*6684*) Assign (T 379) (Plain (Zeros [3;5;5]));
  (*6685*) AddTo (T 379) (Plain (Einsum [(T 345,[0;1;2])] [0;1;2]));
  (*6686*) Del (T 345);
  (*6687*) Assign (T 347) (Plain (Zeros [3;5;5]));
  (*6688*) AddTo (T 347) (Plain (Einsum [(n_u11'aa,[0;1;2]); (n_lu12'aa,[3;0;4;1])] [3;4;2]));
  (*6689*) Assign (T 348) (Plain (Zeros [4;5;5;5]));
  (*6690*) AddTo (T 348) (Plain (Einsum [(n_u11'aa,[0;1;2]); (T 347,[0;3;4])] [1;3;2;4]));
  (*6691*) AddTo (T 350) (Plain (Einsum [(T 348,[0;1;2;3])] [0;1;2;3]));
  (*6692*) Del (T 348);
  (*6693*) AddTo n_rdm2_f_vovv_aaaa (Plain (Einsum [(T 350,[0;1;2;3])] [2;0;3;1]));
  (*6694*) SubFrom n_rdm2_f_vovv_aaaa (Plain (Einsum [(T 350,[0;1;2;3])] [3;0;2;1]));
  (*6695*) SubFrom n_rdm2_f_vvvo_aaaa (Plain (Einsum [(T 350,[0;1;2;3])] [2;1;3;0]));
  (*6696*) AddTo n_rdm2_f_vvvo_aaaa (Plain (Einsum [(T 350,[0;1;2;3])] [3;1;2;0]));
  (*6697*) Del (T 350);
  (*6698*) AddTo (T 379) (Plain (Einsum [(T 347,[0;1;2])] [0;1;2]));
  (*6699*) Del (T 347);
  (*6700*) Assign (T 380) (Plain (Zeros [6;5;5;7]));
  (*6701*) AddTo (T 380) (Plain (Einsum [(n_u11'bb,[0;1;2]); (T 379,[0;3;4])] [1;3;4;2]));
  (*6702*) Del (T 379);
  (*6703*) AddTo n_rdm2_f_vovv_bbaa (Plain (Einsum [(T 380,[0;1;2;3])] [3;0;2;1]));
  (*6704*) AddTo n_rdm2_f_vvvo_aabb (Plain (Einsum [(T 380,[0;1;2;3])] [2;1;3;0]));
  (*6705*) Del (T 380);
  (*6706*) Assign (T 357) (Plain (Zeros [6;7;7;7]));
  (*6707*) AddTo (T 357) (Plain (Einsum [(n_l1'bb,[0;1]); (n_t2'bbbb,[2;1;3;4])] [2;0;3;4]));
  (*6708*) AddTo (T 363) (Plain (Einsum [(T 357,[0;1;2;3])] [0;1;2;3]));
  (*6709*) Del (T 357);
  (*6710*) Assign (T 358) (Plain (Zeros [3;7;7]));
  (*6711*) AddTo (T 358) (Plain (Einsum [(n_t1'bb,[0;1]); (n_lu11'bb,[2;3;0])] [2;3;1]));
  (*6712*) Assign (T 359) (Plain (Zeros [6;7;7;7]));
  (*6713*) AddTo (T 359) (Plain (Einsum [(n_u11'bb,[0;1;2]); (T 358,[0;3;4])] [1;3;4;2]));
  (*6714*) SubFrom (T 363) (Plain (Einsum [(T 359,[0;1;2;3])] [0;1;2;3]));
  (*6715*) Del (T 359);
  (*6716*) Assign (T 389) (Plain (Zeros [3;7;7]));
  (*6717*) AddTo (T 389) (Plain (Einsum [(T 358,[0;1;2])] [0;1;2]));
  (*6718*) Del (T 358);
  (*6719*) Assign (T 360) (Plain (Zeros [3;7;7]));
  (*6720*) AddTo (T 360) (Plain (Einsum [(n_u11'bb,[0;1;2]); (n_lu12'bb,[3;0;4;1])] [3;4;2]));
  (*6721*) Assign (T 361) (Plain (Zeros [6;7;7;7]));
  (*6722*) AddTo (T 361) (Plain (Einsum [(n_u11'bb,[0;1;2]); (T 360,[0;3;4])] [1;3;2;4]));
  (*6723*) AddTo (T 363) (Plain (Einsum [(T 361,[0;1;2;3])] [0;1;2;3]));
  (*6724*) Del (T 361);
  (*6725*) AddTo n_rdm2_f_vovv_bbbb (Plain (Einsum [(T 363,[0;1;2;3])] [2;0;3;1]));
  (*6726*) SubFrom n_rdm2_f_vovv_bbbb (Plain (Einsum [(T 363,[0;1;2;3])] [3;0;2;1]));
  (*6727*) SubFrom n_rdm2_f_vvvo_bbbb (Plain (Einsum [(T 363,[0;1;2;3])] [2;1;3;0]));
  (*6728*) AddTo n_rdm2_f_vvvo_bbbb (Plain (Einsum [(T 363,[0;1;2;3])] [3;1;2;0]));
  (*6729*) Del (T 363);
  (*6730*) AddTo (T 389) (Plain (Einsum [(T 360,[0;1;2])] [0;1;2]));
  (*6731*) Del (T 360);
  (*6732*) Assign (T 390) (Plain (Zeros [4;5;7;7]));
  (*6733*) AddTo (T 390) (Plain (Einsum [(n_u11'aa,[0;1;2]); (T 389,[0;3;4])] [1;2;3;4]));
  (*6734*) Del (T 389);
  (*6735*) AddTo n_rdm2_f_vovv_aabb (Plain (Einsum [(T 390,[0;1;2;3])] [1;0;3;2]));
  (*6736*) AddTo n_rdm2_f_vvvo_bbaa (Plain (Einsum [(T 390,[0;1;2;3])] [3;2;1;0]));
  (*6737*) Del (T 390);
  (*6738*) Assign (T 371) (Plain (Zeros [6;5;5;7]));
  (*6739*) AddTo (T 371) (Plain (Einsum [(n_l1'aa,[0;1]); (n_t2'abab,[1;2;3;4])] [2;0;3;4]));
  (*6740*) AddTo n_rdm2_f_vovv_bbaa (Plain (Einsum [(T 371,[0;1;2;3])] [3;0;2;1]));
  (*6741*) AddTo n_rdm2_f_vvvo_aabb (Plain (Einsum [(T 371,[0;1;2;3])] [2;1;3;0]));
  (*6742*) Del (T 371);
  (*6743*) Assign (T 374) (Plain (Zeros [4;4;5;5]));
  (*6744*) AddTo (T 374) (Times (Einsum [(n_l2'aaaa,[0;1;2;3])] [3;2;0;1]) (-1) 1);
  (*6745*) AddTo (T 374) (Plain (Einsum [(n_l2'aaaa,[0;1;2;3])] [3;2;1;0]));
  (*6746*) Assign (T 375) (Plain (Zeros [4;6;5;7]));
  (*6747*) AddTo (T 375) (Plain (Einsum [(n_t2'abab,[0;1;2;3]); (T 374,[0;4;2;5])] [4;1;5;3]));
  (*6748*) Del (T 374);
  (*6749*) AddTo (T 377) (Times (Einsum [(T 375,[0;1;2;3])] [0;1;2;3]) (-1) 1);
  (*6750*) Del (T 375);
  (*6751*) Assign (T 378) (Plain (Zeros [6;5;5;7]));
  (*6752*) AddTo (T 378) (Plain (Einsum [(n_t1'aa,[0;1]); (T 377,[0;2;3;4])] [2;1;3;4]));
  (*6753*) Del (T 377);
  (*6754*) AddTo n_rdm2_f_vovv_bbaa (Times (Einsum [(T 378,[0;1;2;3])] [3;0;1;2]) (-1) 1);
  (*6755*) AddTo n_rdm2_f_vvvo_aabb (Times (Einsum [(T 378,[0;1;2;3])] [1;2;3;0]) (-1) 1);
  (*6756*) Del (T 378);
  (*6757*) Assign (T 381) (Plain (Zeros [4;5;7;7]));
  (*6758*) AddTo (T 381) (Plain (Einsum [(n_l1'bb,[0;1]); (n_t2'abab,[2;1;3;4])] [2;3;0;4]));
  (*6759*) AddTo n_rdm2_f_vovv_aabb (Plain (Einsum [(T 381,[0;1;2;3])] [1;0;3;2]));
  (*6760*) AddTo n_rdm2_f_vvvo_bbaa (Plain (Einsum [(T 381,[0;1;2;3])] [3;2;1;0]));
  (*6761*) Del (T 381);
  (*6762*) Assign (T 385) (Plain (Zeros [6;6;7;7]));
  (*6763*) AddTo (T 385) (Plain (Einsum [(n_l2'bbbb,[0;1;2;3])] [3;2;0;1]));
  (*6764*) AddTo (T 385) (Times (Einsum [(n_l2'bbbb,[0;1;2;3])] [3;2;1;0]) (-1) 1);
  (*6765*) Assign (T 386) (Plain (Zeros [4;6;5;7]));
  (*6766*) AddTo (T 386) (Plain (Einsum [(n_t2'abab,[0;1;2;3]); (T 385,[1;4;5;3])] [0;4;2;5]));
  (*6767*) Del (T 385);
  (*6768*) AddTo (T 387) (Times (Einsum [(T 386,[0;1;2;3])] [0;1;2;3]) (-1) 1);
  (*6769*) Del (T 386);
  (*6770*) Assign (T 388) (Plain (Zeros [4;5;7;7]));
  (*6771*) AddTo (T 388) (Plain (Einsum [(n_t1'bb,[0;1]); (T 387,[2;0;3;4])] [2;3;1;4]));
  (*6772*) Del (T 387);
  (*6773*) AddTo n_rdm2_f_vovv_aabb (Times (Einsum [(T 388,[0;1;2;3])] [1;0;2;3]) (-1) 1);
  (*6774*) AddTo n_rdm2_f_vvvo_bbaa (Times (Einsum [(T 388,[0;1;2;3])] [2;3;1;0]) (-1) 1);
  (*6775*) Del (T 388);
  (*6776*) Assign (T 391) (Plain (Zeros [5;5;5;5]));
  (*6777*) AddTo (T 391) (Plain (Einsum [(n_l2'aaaa,[0;1;2;3]); (n_t2'aaaa,[2;3;4;5])] [0;1;4;5]));
  (*6778*) AddTo (T 393) (Plain (Einsum [(T 391,[0;1;2;3])] [1;0;3;2]));
  (*6779*) Del (T 391);
  (*6780*) Assign n_rdm2_f_vvvv_aaaa (Plain (Zeros [5;5;5;5]));
  (*6781*) AddTo n_rdm2_f_vvvv_aaaa (Times (Einsum [(T 393,[0;1;2;3])] [3;0;2;1]) (-1) 1);
  (*6782*) AddTo n_rdm2_f_vvvv_aaaa (Plain (Einsum [(T 393,[0;1;2;3])] [2;0;3;1]));
  (*6783*) Del (T 393);
  (*6784*) Assign (T 394) (Plain (Zeros [5;5;7;7]));
  (*6785*) AddTo (T 394) (Plain (Einsum [(n_l2'abab,[0;1;2;3]); (n_t2'abab,[2;3;4;5])] [0;4;1;5]));
  (*6786*) AddTo n_rdm2_f_vvvv_bbaa (Plain (Einsum [(T 394,[0;1;2;3])] [3;2;1;0]));
  (*6787*) AddTo n_rdm2_f_vvvv_aabb (Plain (Einsum [(T 394,[0;1;2;3])] [1;0;3;2]));
  (*6788*) Del (T 394);
  (*6789*) Assign (T 396) (Plain (Zeros [7;7;7;7]));
  (*6790*) AddTo (T 396) (Plain (Einsum [(n_l2'bbbb,[0;1;2;3]); (n_t2'bbbb,[2;3;4;5])] [0;1;4;5]));
  (*6791*) AddTo (T 398) (Plain (Einsum [(T 396,[0;1;2;3])] [1;0;3;2]));
  (*6792*) Del (T 396);
  (*6793*) Assign n_rdm2_f_vvvv_bbbb (Plain (Zeros [7;7;7;7]));
  (*6794*) AddTo n_rdm2_f_vvvv_bbbb (Times (Einsum [(T 398,[0;1;2;3])] [3;0;2;1]) (-1) 1);
  (*6795*) AddTo n_rdm2_f_vvvv_bbbb (Plain (Einsum [(T 398,[0;1;2;3])] [2;0;3;1]));
  (*6796*) Del (T 398);
  (*6797*) AddTo n_rdm2_f_oooo_aaaa (Plain (Einsum [(n_delta_oo'aa,[0;1]); (n_delta_oo'aa,[2;3])] [1;0;3;2]));
  (*6798*) SubFrom n_rdm2_f_oooo_aaaa (Plain (Einsum [(n_delta_oo'aa,[0;1]); (n_delta_oo'aa,[2;3])] [3;1;0;2]));
  (*6799*) AddTo n_rdm2_f_oooo_bbbb (Plain (Einsum [(n_delta_oo'bb,[0;1]); (n_delta_oo'bb,[2;3])] [1;0;3;2]));
  (*6800*) SubFrom n_rdm2_f_oooo_bbbb (Plain (Einsum [(n_delta_oo'bb,[0;1]); (n_delta_oo'bb,[2;3])] [3;1;0;2]));
  (*6801*) AddTo n_rdm2_f_ooov_aaaa (Plain (Einsum [(n_delta_oo'aa,[0;1]); (n_l1'aa,[2;3])] [1;0;3;2]));
  (*6802*) SubFrom n_rdm2_f_ooov_aaaa (Plain (Einsum [(n_delta_oo'aa,[0;1]); (n_l1'aa,[2;3])] [3;0;1;2]));
  (*6803*) AddTo n_rdm2_f_ooov_bbbb (Plain (Einsum [(n_delta_oo'bb,[0;1]); (n_l1'bb,[2;3])] [1;0;3;2]));
  (*6804*) SubFrom n_rdm2_f_ooov_bbbb (Plain (Einsum [(n_delta_oo'bb,[0;1]); (n_l1'bb,[2;3])] [3;0;1;2]));
  (*6805*) AddTo n_rdm2_f_ooov_aabb (Plain (Einsum [(n_delta_oo'aa,[0;1]); (n_l1'bb,[2;3])] [1;0;3;2]));
  (*6806*) AddTo n_rdm2_f_ooov_bbaa (Plain (Einsum [(n_delta_oo'bb,[0;1]); (n_l1'aa,[2;3])] [1;0;3;2]));
  (*6807*) SubFrom n_rdm2_f_ovoo_aaaa (Plain (Einsum [(n_delta_oo'aa,[0;1]); (n_l1'aa,[2;3])] [1;2;3;0]));
  (*6808*) AddTo n_rdm2_f_ovoo_aaaa (Plain (Einsum [(n_delta_oo'aa,[0;1]); (n_l1'aa,[2;3])] [3;2;1;0]));
  (*6809*) AddTo n_rdm2_f_ovoo_bbaa (Plain (Einsum [(n_delta_oo'aa,[0;1]); (n_l1'bb,[2;3])] [3;2;1;0]));
  (*6810*) AddTo n_rdm2_f_ovoo_aabb (Plain (Einsum [(n_delta_oo'bb,[0;1]); (n_l1'aa,[2;3])] [3;2;1;0]));
  (*6811*) SubFrom n_rdm2_f_ovoo_bbbb (Plain (Einsum [(n_delta_oo'bb,[0;1]); (n_l1'bb,[2;3])] [1;2;3;0]));
  (*6812*) AddTo n_rdm2_f_ovoo_bbbb (Plain (Einsum [(n_delta_oo'bb,[0;1]); (n_l1'bb,[2;3])] [3;2;1;0]));
  (*6813*) SubFrom n_rdm2_f_oovo_aaaa (Plain (Einsum [(n_delta_oo'aa,[0;1]); (n_t1'aa,[2;3])] [1;2;3;0]));
  (*6814*) AddTo n_rdm2_f_vooo_aaaa (Plain (Einsum [(n_delta_oo'aa,[0;1]); (n_t1'aa,[2;3])] [3;2;1;0]));
  (*6815*) Assign n_rdm2_f_ovov_aaaa (Plain (Zeros [4;5;4;5]));
  (*6816*) SubFrom n_rdm2_f_ovov_aaaa (Plain (Einsum [(n_l2'aaaa,[0;1;2;3])] [3;0;2;1]));
  (*6817*) AddTo n_rdm2_f_ovov_aaaa (Plain (Einsum [(n_l2'aaaa,[0;1;2;3])] [3;1;2;0]));
  (*6818*) Assign n_rdm2_f_ovov_bbbb (Plain (Zeros [6;7;6;7]));
  (*6819*) SubFrom n_rdm2_f_ovov_bbbb (Plain (Einsum [(n_l2'bbbb,[0;1;2;3])] [3;0;2;1]));
  (*6820*) AddTo n_rdm2_f_ovov_bbbb (Plain (Einsum [(n_l2'bbbb,[0;1;2;3])] [3;1;2;0]));
  (*6821*) Assign n_rdm2_f_ovov_bbaa (Plain (Zeros [6;7;4;5]));
  (*6822*) AddTo n_rdm2_f_ovov_bbaa (Plain (Einsum [(n_l2'abab,[0;1;2;3])] [3;1;2;0]));
  (*6823*) Assign n_rdm2_f_ovov_aabb (Plain (Zeros [4;5;6;7]));
  (*6824*) AddTo n_rdm2_f_ovov_aabb (Plain (Einsum [(n_l2'abab,[0;1;2;3])] [2;0;3;1]));
  (*6825*) SubFrom n_rdm2_f_oovv_aaaa (Plain (Einsum [(n_l1'aa,[0;1]); (n_t1'aa,[2;3])] [1;2;3;0]));
  (*6826*) SubFrom n_rdm2_f_oovv_bbbb (Plain (Einsum [(n_l1'bb,[0;1]); (n_t1'bb,[2;3])] [1;2;3;0]));
  (*6827*) AddTo n_rdm2_f_ovvo_aaaa (Plain (Einsum [(n_l1'aa,[0;1]); (n_t1'aa,[2;3])] [1;0;3;2]));
  (*6828*) AddTo n_rdm2_f_ovvo_aabb (Plain (Einsum [(n_l1'aa,[0;1]); (n_t1'bb,[2;3])] [1;0;3;2]));
  (*6829*) AddTo n_rdm2_f_ovvo_bbaa (Plain (Einsum [(n_l1'bb,[0;1]); (n_t1'aa,[2;3])] [1;0;3;2]));
  (*6830*) AddTo n_rdm2_f_ovvo_bbbb (Plain (Einsum [(n_l1'bb,[0;1]); (n_t1'bb,[2;3])] [1;0;3;2]));
  (*6831*) AddTo n_rdm2_f_voov_aaaa (Plain (Einsum [(n_l1'aa,[0;1]); (n_t1'aa,[2;3])] [3;2;1;0]));
  (*6832*) AddTo n_rdm2_f_voov_bbaa (Plain (Einsum [(n_l1'aa,[0;1]); (n_t1'bb,[2;3])] [3;2;1;0]));
  (*6833*) AddTo n_rdm2_f_voov_aabb (Plain (Einsum [(n_l1'bb,[0;1]); (n_t1'aa,[2;3])] [3;2;1;0]));
  (*6834*) AddTo n_rdm2_f_voov_bbbb (Plain (Einsum [(n_l1'bb,[0;1]); (n_t1'bb,[2;3])] [3;2;1;0]));
  (*6835*) SubFrom n_rdm2_f_vvoo_aaaa (Plain (Einsum [(n_l1'aa,[0;1]); (n_t1'aa,[2;3])] [3;0;1;2]));
  (*6836*) SubFrom n_rdm2_f_vvoo_bbbb (Plain (Einsum [(n_l1'bb,[0;1]); (n_t1'bb,[2;3])] [3;0;1;2]));
  (*6837*) AddTo n_rdm2_f_vovo_bbaa (Plain (Einsum [(n_t2'abab,[0;1;2;3])] [3;1;2;0]));
  (*6838*) AddTo n_rdm2_f_vovo_aabb (Plain (Einsum [(n_t2'abab,[0;1;2;3])] [2;0;3;1]))]
 [(n_rdm2_f_oooo_aaaa,[4;4;4;4]); (n_rdm2_f_ooov_aaaa,[4;4;4;5]); (n_rdm2_f_oovo_aaaa,[4;4;5;4]); (n_rdm2_f_ovoo_aaaa,[4;5;4;4]); (n_rdm2_f_vooo_aaaa,[5;4;4;4]); (n_rdm2_f_oovv_aaaa,[4;4;5;5]); (n_rdm2_f_ovov_aaaa,[4;5;4;5]); (n_rdm2_f_ovvo_aaaa,[4;5;5;4]); (n_rdm2_f_voov_aaaa,[5;4;4;5]); (n_rdm2_f_vovo_aaaa,[5;4;5;4]); (n_rdm2_f_vvoo_aaaa,[5;5;4;4]); (n_rdm2_f_ovvv_aaaa,[4;5;5;5]); (n_rdm2_f_vovv_aaaa,[5;4;5;5]); (n_rdm2_f_vvov_aaaa,[5;5;4;5]); (n_rdm2_f_vvvo_aaaa,[5;5;5;4]); (n_rdm2_f_vvvv_aaaa,[5;5;5;5]); (n_rdm2_f_oooo_aabb,[4;4;6;6]); (n_rdm2_f_ooov_aabb,[4;4;6;7]); (n_rdm2_f_oovo_aabb,[4;4;7;6]); (n_rdm2_f_ovoo_aabb,[4;5;6;6]); (n_rdm2_f_vooo_aabb,[5;4;6;6]); (n_rdm2_f_oovv_aabb,[4;4;7;7]); (n_rdm2_f_ovov_aabb,[4;5;6;7]); (n_rdm2_f_ovvo_aabb,[4;5;7;6]); (n_rdm2_f_voov_aabb,[5;4;6;7]); (n_rdm2_f_vovo_aabb,[5;4;7;6]); (n_rdm2_f_vvoo_aabb,[5;5;6;6]); (n_rdm2_f_ovvv_aabb,[4;5;7;7]); (n_rdm2_f_vovv_aabb,[5;4;7;7]); (n_rdm2_f_vvov_aabb,[5;5;6;7]); (n_rdm2_f_vvvo_aabb,[5;5;7;6]); (n_rdm2_f_vvvv_aabb,[5;5;7;7]); (n_rdm2_f_oooo_bbaa,[6;6;4;4]); (n_rdm2_f_ooov_bbaa,[6;6;4;5]); (n_rdm2_f_oovo_bbaa,[6;6;5;4]); (n_rdm2_f_ovoo_bbaa,[6;7;4;4]); (n_rdm2_f_vooo_bbaa,[7;6;4;4]); (n_rdm2_f_oovv_bbaa,[6;6;5;5]); (n_rdm2_f_ovov_bbaa,[6;7;4;5]); (n_rdm2_f_ovvo_bbaa,[6;7;5;4]); (n_rdm2_f_voov_bbaa,[7;6;4;5]); (n_rdm2_f_vovo_bbaa,[7;6;5;4]); (n_rdm2_f_vvoo_bbaa,[7;7;4;4]); (n_rdm2_f_ovvv_bbaa,[6;7;5;5]); (n_rdm2_f_vovv_bbaa,[7;6;5;5]); (n_rdm2_f_vvov_bbaa,[7;7;4;5]); (n_rdm2_f_vvvo_bbaa,[7;7;5;4]); (n_rdm2_f_vvvv_bbaa,[7;7;5;5]); (n_rdm2_f_oooo_bbbb,[6;6;6;6]); (n_rdm2_f_ooov_bbbb,[6;6;6;7]); (n_rdm2_f_oovo_bbbb,[6;6;7;6]); (n_rdm2_f_ovoo_bbbb,[6;7;6;6]); (n_rdm2_f_vooo_bbbb,[7;6;6;6]); (n_rdm2_f_oovv_bbbb,[6;6;7;7]); (n_rdm2_f_ovov_bbbb,[6;7;6;7]); (n_rdm2_f_ovvo_bbbb,[6;7;7;6]); (n_rdm2_f_voov_bbbb,[7;6;6;7]); (n_rdm2_f_vovo_bbbb,[7;6;7;6]); (n_rdm2_f_vvoo_bbbb,[7;7;6;6]); (n_rdm2_f_ovvv_bbbb,[6;7;7;7]); (n_rdm2_f_vovv_bbbb,[7;6;7;7]); (n_rdm2_f_vvov_bbbb,[7;7;6;7]); (n_rdm2_f_vvvo_bbbb,[7;7;7;6]); (n_rdm2_f_vvvv_bbbb,[7;7;7;7])].

(** ebcc/codegen/UCCSD_SD_1_2.py:6852-6882 [make_sing_b_dm]; assembly (line 6880) not translated *)
Definition UCCSD_SD_1_2_make_sing_b_dm : prog := mkprog
 [(n_g'aa'boo,[3;4;4]); (n_g'aa'bvo,[3;5;4]); (n_g'aa'bov,[3;4;5]); (n_g'aa'bvv,[3;5;5]); (n_g'bb'boo,[3;6;6]); (n_g'bb'bvo,[3;7;6]); (n_g'bb'bov,[3;6;7]); (n_g'bb'bvv,[3;7;7]); (n_ls1,[3]); (n_l1'aa,[5;4]); (n_u11'aa,[3;4;5]); (n_lu11'aa,[3;5;4]); (n_u12'aa,[3;3;4;5]); (n_s1,[3]); (n_l1'bb,[7;6]); (n_u11'bb,[3;6;7]); (n_s2,[3;3]); (n_lu11'bb,[3;7;6]); (n_u12'bb,[3;3;6;7])]
 [(*6854*) Assign n_gc'aa'boo (Plain (Transpose n_g'aa'boo [0;2;1]));
  (*6854*) Assign n_gc'aa'bov (Plain (Transpose n_g'aa'bvo [0;2;1]));
  (*6854*) Assign n_gc'aa'bvo (Plain (Transpose n_g'aa'bov [0;2;1]));
  (*6854*) Assign n_gc'aa'bvv (Plain (Transpose n_g'aa'bvv [0;2;1]));
  (*6854*) Assign n_gc'bb'boo (Plain (Transpose n_g'bb'boo [0;2;1]));
  (*6854*) Assign n_gc'bb'bov (Plain (Transpose n_g'bb'bvo [0;2;1]));
  (*6854*) Assign n_gc'bb'bvo (Plain (Transpose n_g'bb'bov [0;2;1]));
  (*6854*) Assign n_gc'bb'bvv (Plain (Transpose n_g'bb'bvv [0;2;1]));
  (*6870*) Assign n_dm_b_cre (Plain (Zeros [3]));
  (*6871*) AddTo n_dm_b_cre (Plain (Einsum [(n_ls1,[0])] [0]));
  (*6872*) Assign n_dm_b_des (Plain (Zeros [3]));
  (*6873*) AddTo n_dm_b_des (Plain (Einsum [(n_l1'aa,[0;1]); (n_u11'aa,[2;1;0])] [2]));
  (*6874*) AddTo n_dm_b_des (Plain (Einsum [(n_lu11'aa,[0;1;2]); (n_u12'aa,[3;0;2;1])] [3]));
  (*6875*) AddTo n_dm_b_des (Plain (Einsum [(n_s1,[0])] [0]));
  (*6876*) AddTo n_dm_b_des (Plain (Einsum [(n_l1'bb,[0;1]); (n_u11'bb,[2;1;0])] [2]));
  (*6877*) AddTo n_dm_b_des (Plain (Einsum [(n_ls1,[0]); (n_s2,[1;0])] [1]));
  (*6878*) AddTo n_dm_b_des (Plain (Einsum [(n_lu11'bb,[0;1;2]); (n_u12'bb,[3;0;2;1])] [3]))]
 [(n_dm_b_cre,[3]); (n_dm_b_des,[3])].

(** ebcc/codegen/UCCSD_SD_1_2.py:6884-6910 [make_rdm1_b] *)
Definition UCCSD_SD_1_2_make_rdm1_b : prog := mkprog
 [(n_g'aa'boo,[3;4;4]); (n_g'aa'bvo,[3;5;4]); (n_g'aa'bov,[3;4;5]); (n_g'aa'bvv,[3;5;5]); (n_g'bb'boo,[3;6;6]); (n_g'bb'bvo,[3;7;6]); (n_g'bb'bov,[3;6;7]); (n_g'bb'bvv,[3;7;7]); (n_lu12'bb,[3;3;7;6]); (n_u12'bb,[3;3;6;7]); (n_lu11'aa,[3;5;4]); (n_u11'aa,[3;4;5]); (n_ls2,[3;3]); (n_s2,[3;3]); (n_lu12'aa,[3;3;5;4]); (n_u12'aa,[3;3;4;5]); (n_ls1,[3]); (n_s1,[3]); (n_lu11'bb,[3;7;6]); (n_u11'bb,[3;6;7])]
 [(*6886*) Assign n_gc'aa'boo (Plain (Transpose n_g'aa'boo [0;2;1]));
  (*6886*) Assign n_gc'aa'bov (Plain (Transpose n_g'aa'bvo [0;2;1]));
  (*6886*) Assign n_gc'aa'bvo (Plain (Transpose n_g'aa'bov [0;2;1]));
  (*6886*) Assign n_gc'aa'bvv (Plain (Transpose n_g'aa'bvv [0;2;1]));
  (*6886*) Assign n_gc'bb'boo (Plain (Transpose n_g'bb'boo [0;2;1]));
  (*6886*) Assign n_gc'bb'bov (Plain (Transpose n_g'bb'bvo [0;2;1]));
  (*6886*) Assign n_gc'bb'bvo (Plain (Transpose n_g'bb'bov [0;2;1]));
  (*6886*) Assign n_gc'bb'bvv (Plain (Transpose n_g'bb'bvv [0;2;1]));
  (*6902*) Assign n_rdm1_b (Plain (Zeros [3;3]));
  (*6903*) AddTo n_rdm1_b (Plain (Einsum [(n_lu12'bb,[0;1;2;3]); (n_u12'bb,[4;1;3;2])] [0;4]));
  (*6904*) AddTo n_rdm1_b (Plain (Einsum [(n_lu11'aa,[0;1;2]); (n_u11'aa,[3;2;1])] [0;3]));
  (*6905*) AddTo n_rdm1_b (Plain (Einsum [(n_ls2,[0;1]); (n_s2,[2;1])] [0;2]));
  (*6906*) AddTo n_rdm1_b (Plain (Einsum [(n_lu12'aa,[0;1;2;3]); (n_u12'aa,[4;1;3;2])] [0;4]));
  (*6907*) AddTo n_rdm1_b (Plain (Einsum [(n_ls1,[0]); (n_s1,[1])] [0;1]));
  (*6908*) AddTo n_rdm1_b (Plain (Einsum [(n_lu11'bb,[0;1;2]); (n_u11'bb,[3;2;1])] [0;3]))]
 [(n_rdm1_b,[3;3])].

(** ebcc/codegen/UCCSD_SD_1_2.py:6912-7429 [make_eb_coup_rdm]; assembly (line 7417) not translated; assembly (line 7421) not translated *)
Definition UCCSD_SD_1_2_make_eb_coup_rdm : prog := mkprog
 [(n_g'aa'boo,[3;4;4]); (n_g'aa'bvo,[3;5;4]); (n_g'aa'bov,[3;4;5]); (n_g'aa'bvv,[3;5;5]); (n_g'bb'boo,[3;6;6]); (n_g'bb'bvo,[3;7;6]); (n_g'bb'bov,[3;6;7]); (n_g'bb'bvv,[3;7;7]); (n_u11'aa,[3;4;5]); (n_lu12'aa,[3;3;5;4]); (n_s2,[3;3]); (n_t1'aa,[4;5]); (n_lu11'aa,[3;5;4]); (n_u12'aa,[3;3;4;5]); (n_u11'bb,[3;6;7]); (n_lu12'bb,[3;3;7;6]); (n_t1'bb,[6;7]); (n_lu11'bb,[3;7;6]); (n_u12'bb,[3;3;6;7]); (n_t2'aaaa,[4;4;5;5]); (n_t2'bbbb,[6;6;7;7]); (n_l1'aa,[5;4]); (n_l2'abab,[5;7;4;6]); (n_l2'aaaa,[5;5;4;4]); (n_t2'abab,[4;6;5;7]); (n_s1,[3]); (n_ls1,[3]); (n_l1'bb,[7;6]); (n_l2'bbbb,[7;7;6;6]); (n_ls2,[3;3])]
 [(*6916*) Assign n_gc'aa'boo (Plain (Transpose n_g'aa'boo [0;2;1]));
  (*6916*) Assign n_gc'aa'bov (Plain (Transpose n_g'aa'bvo [0;2;1]));
  (*6916*) Assign n_gc'aa'bvo (Plain (Transpose n_g'aa'bov [0;2;1]));
  (*6916*) Assign n_gc'aa'bvv (Plain (Transpose n_g'aa'bvv [0;2;1]));
  (*6916*) Assign n_gc'bb'boo (Plain (Transpose n_g'bb'boo [0;2;1]));
  (*6916*) Assign n_gc'bb'bov (Plain (Transpose n_g'bb'bvo [0;2;1]));
  (*6916*) Assign n_gc'bb'bvo (Plain (Transpose n_g'bb'bov [0;2;1]));
  (*6916*) Assign n_gc'bb'bvv (Plain (Transpose n_g'bb'bvv [0;2;1]));
  (*6932*) Assign n_delta_oo'aa (Plain (Eye 4));
  (*6933*) Assign n_delta_oo'bb (Plain (Eye 6));
  (*6935*) Assign n_delta_vv'aa (Plain (Eye 5));
  (*6936*) Assign n_delta_vv'bb (Plain (Eye 7));
  (*6939*) Assign (T 1) (Plain (Zeros [3;4;4]));
  (*6940*) AddTo (T 1) (Plain (Einsum [(n_u11'aa,[0;1;2]); (n_lu12'aa,[3;0;2;4])] [3;4;1]));
  (*6941*) Assign (T 8) (Plain (Zeros [3;4;4]));
  (*6942*) AddTo (T 8) (Plain (Einsum [(T 1,[0;1;2])] [0;1;2]));
  (*6943*) Assign (T 17) (Plain (Zeros [3;4;4]));
  (*6944*) AddTo (T 17) (Plain (Einsum [(n_s2,[0;1]); (T 1,[1;2;3])] [0;2;3]));
  (*6945*) Assign (T 65) (Plain (Zeros [3;4;4]));
  (*6946*) AddTo (T 65) (Plain (Einsum [(T 17,[0;1;2])] [0;1;2]));
  (*6947*) Assign n_rdm_eb_des_oo_aa (Plain (Zeros [3;4;4]));
  (*6948*) SubFrom n_rdm_eb_des_oo_aa (Plain (Einsum [(T 17,[0;1;2])] [0;2;1]));
  (*6949*) Del (T 17);
  (*6950*) Assign (T 76) (Plain (Zeros [3;4;4]));
  (*6951*) AddTo (T 76) (Plain (Einsum [(T 1,[0;1;2])] [0;1;2]));
  (*6952*) Assign n_rdm_eb_cre_oo_aa (Plain (Zeros [3;4;4]));
  (*6953*) SubFrom n_rdm_eb_cre_oo_aa (Plain (Einsum [(T 1,[0;1;2])] [0;2;1]));
  (*6954*) Del (T 1);
  (*6955*) Assign (T 2) (Plain (Zeros [3;4;4]));
  (*6956*) AddTo (T 2) (Plain (Einsum [(n_t1'aa,[0;1]); (n_lu11'aa,[2;1;3])] [2;3;0]));
  (*6957*) AddTo (T 8) (Plain (Einsum [(T 2,[0;1;2])] [0;1;2]));
  (*6958*) Assign n_rdm_eb_cre_ov_aa (Plain (Zeros [3;4;5]));
  (*6959*) SubFrom n_rdm_eb_cre_ov_aa (Plain (Einsum [(n_t1'aa,[0;1]); (T 8,[2;0;3])] [2;3;1]));
  (*6960*) Assign n_rdm_eb_des_ov_aa (Plain (Zeros [3;4;5]));
  (*6961*) SubFrom n_rdm_eb_des_ov_aa (Plain (Einsum [(T 8,[0;1;2]); (n_u12'aa,[0;3;1;4])] [3;2;4]));
  (*6962*) Del (T 8);
  (*6963*) AddTo (T 76) (Plain (Einsum [(T 2,[0;1;2])] [0;1;2]));
  (*6964*) Assign (T 78) (Plain (Zeros [4;5]));
  (*6965*) AddTo (T 78) (Plain (Einsum [(n_u11'aa,[0;1;2]); (T 76,[0;1;3])] [3;2]));
  (*6966*) Del (T 76);
  (*6967*) SubFrom n_rdm_eb_cre_oo_aa (Plain (Einsum [(T 2,[0;1;2])] [0;2;1]));
  (*6968*) Del (T 2);
  (*6969*) Assign (T 3) (Plain (Zeros [3;6;6]));
  (*6970*) AddTo (T 3) (Plain (Einsum [(n_u11'bb,[0;1;2]); (n_lu12'bb,[3;0;2;4])] [3;4;1]));
  (*6971*) Assign (T 12) (Plain (Zeros [3;6;6]));
  (*6972*) AddTo (T 12) (Plain (Einsum [(T 3,[0;1;2])] [0;1;2]));
  (*6973*) Assign (T 37) (Plain (Zeros [3;6;6]));
  (*6974*) AddTo (T 37) (Plain (Einsum [(n_s2,[0;1]); (T 3,[1;2;3])] [0;2;3]));
  (*6975*) Assign (T 84) (Plain (Zeros [3;6;6]));
  (*6976*) AddTo (T 84) (Plain (Einsum [(T 37,[0;1;2])] [0;1;2]));
  (*6977*) Assign n_rdm_eb_des_oo_bb (Plain (Zeros [3;6;6]));
  (*6978*) SubFrom n_rdm_eb_des_oo_bb (Plain (Einsum [(T 37,[0;1;2])] [0;2;1]));
  (*6979*) Del (T 37);
  (*6980*) Assign (T 90) (Plain (Zeros [3;6;6]));
  (*6981*) AddTo (T 90) (Plain (Einsum [(T 3,[0;1;2])] [0;1;2]));
  (*6982*) Assign n_rdm_eb_cre_oo_bb (Plain (Zeros [3;6;6]));
  (*6983*) SubFrom n_rdm_eb_cre_oo_bb (Plain (Einsum [(T 3,[0;1;2])] [0;2;1]));
  (*6984*) Del (T 3);
  (*6985*) Assign (T 4) (Plain (Zeros [3;6;6]));
  (*6986*) AddTo (T 4) (Plain (Einsum [(n_t1'bb,[0;1]); (n_lu11'bb,[2;1;3])] [2;3;0]));
  (*6987*) AddTo (T 12) (Plain (Einsum [(T 4,[0;1;2])] [0;1;2]));
  (*6988*) Assign n_rdm_eb_cre_ov_bb (Plain (Zeros [3;6;7]));
  (*6989*) SubFrom n_rdm_eb_cre_ov_bb (Plain (Einsum [(n_t1'bb,[0;1]); (T 12,[2;0;3])] [2;3;1]));
  (*6990*) Assign n_rdm_eb_des_ov_bb (Plain (Zeros [3;6;7]));
  (*6991*) SubFrom n_rdm_eb_des_ov_bb (Plain (Einsum [(T 12,[0;1;2]); (n_u12'bb,[0;3;1;4])] [3;2;4]));
  (*6992*) Del (T 12);
  (*6993*) AddTo (T 90) (Plain (Einsum [(T 4,[0;1;2])] [0;1;2]));
  (*6994*) Assign (T 92) (Plain (Zeros [6;7]));
  (*6995*) AddTo (T 92) (Plain (Einsum [(n_u11'bb,[0;1;2]); (T 90,[0;1;3])] [3;2]));
  (*6996*) Del (T 90);
  (*6997*) SubFrom n_rdm_eb_cre_oo_bb (Plain (Einsum [(T 4,[0;1;2])] [0;2;1]));
  (*6998*) Del (T 4);
  (*6999*) Assign (T 5) (Plain (Zeros [3;3;4;4]));
  (*7000*) AddTo (T 5) (Plain (Einsum [(n_t1'aa,[0;1]); (n_lu12'aa,[2;3;1;4])] [2;3;4;0]));
  (*7001*) Assign (T 6) (Plain (Zeros [3;4;5]));
  (*7002*) AddTo (T 6) (Plain (Einsum [(n_u11'aa,[0;1;2]); (T 5,[3;0;1;4])] [3;4;2]));
  (*7003*) SubFrom n_rdm_eb_cre_ov_aa (Plain (Einsum [(T 6,[0;1;2])] [0;1;2]));
  (*7004*) SubFrom n_rdm_eb_des_ov_aa (Plain (Einsum [(n_s2,[0;1]); (T 6,[1;2;3])] [0;2;3]));
  (*7005*) Del (T 6);
  (*7006*) AddTo (T 78) (Times (Einsum [(n_u12'aa,[0;1;2;3]); (T 5,[0;1;2;4])] [4;3]) (1) 2);
  (*7007*) Del (T 5);
  (*7008*) Assign (T 7) (Plain (Zeros [4;4;5;5]));
  (*7009*) AddTo (T 7) (Plain (Einsum [(n_t2'aaaa,[0;1;2;3])] [1;0;2;3]));
  (*7010*) SubFrom (T 7) (Plain (Einsum [(n_t2'aaaa,[0;1;2;3])] [1;0;3;2]));
  (*7011*) SubFrom n_rdm_eb_cre_ov_aa (Plain (Einsum [(n_lu11'aa,[0;1;2]); (T 7,[2;3;1;4])] [0;3;4]));
  (*7012*) Assign (T 9) (Plain (Zeros [3;3;6;6]));
  (*7013*) AddTo (T 9) (Plain (Einsum [(n_t1'bb,[0;1]); (n_lu12'bb,[2;3;1;4])] [2;3;4;0]));
  (*7014*) Assign (T 10) (Plain (Zeros [3;6;7]));
  (*7015*) AddTo (T 10) (Plain (Einsum [(n_u11'bb,[0;1;2]); (T 9,[3;0;1;4])] [3;4;2]));
  (*7016*) SubFrom n_rdm_eb_cre_ov_bb (Plain (Einsum [(T 10,[0;1;2])] [0;1;2]));
  (*7017*) SubFrom n_rdm_eb_des_ov_bb (Plain (Einsum [(n_s2,[0;1]); (T 10,[1;2;3])] [0;2;3]));
  (*7018*) Del (T 10);
  (*7019*) AddTo (T 92) (Times (Einsum [(n_u12'bb,[0;1;2;3]); (T 9,[0;1;2;4])] [4;3]) (1) 2);
  (*7020*) Del (T 9);
  (*7021*) Assign (T 11) (Plain (Zeros [6;6;7;7]));
  (*7022*) AddTo (T 11) (Plain (Einsum [(n_t2'bbbb,[0;1;2;3])] [1;0;2;3]));
  (*7023*) SubFrom (T 11) (Plain (Einsum [(n_t2'bbbb,[0;1;2;3])] [1;0;3;2]));
  (*7024*) SubFrom n_rdm_eb_cre_ov_bb (Plain (Einsum [(n_lu11'bb,[0;1;2]); (T 11,[2;3;1;4])] [0;3;4]));
  (*7025*) Assign (T 13) (Plain (Zeros [3;5;5]));
  (*7026*) AddTo (T 13) (Plain (Einsum [(n_u11'aa,[0;1;2]); (n_lu12'aa,[3;0;4;1])] [3;4;2]));
  (*7027*) Assign n_rdm_eb_cre_vv_aa (Plain (Zeros [3;5;5]));
  (*7028*) AddTo n_rdm_eb_cre_vv_aa (Plain (Einsum [(T 13,[0;1;2])] [0;1;2]));
  (*7029*) SubFrom n_rdm_eb_des_ov_aa (Plain (Einsum [(T 13,[0;1;2]); (n_u12'aa,[3;0;4;1])] [3;4;2]));
  (*7030*) Assign n_rdm_eb_des_vv_aa (Plain (Zeros [3;5;5]));
  (*7031*) AddTo n_rdm_eb_des_vv_aa (Plain (Einsum [(n_s2,[0;1]); (T 13,[1;2;3])] [0;2;3]));
  (*7032*) Del (T 13);
  (*7033*) Assign (T 14) (Plain (Zeros [3;7;7]));
  (*7034*) AddTo (T 14) (Plain (Einsum [(n_u11'bb,[0;1;2]); (n_lu12'bb,[3;0;4;1])] [3;4;2]));
  (*7035*) Assign n_rdm_eb_cre_vv_bb (Plain (Zeros [3;7;7]));
  (*7036*) AddTo n_rdm_eb_cre_vv_bb (Plain (Einsum [(T 14,[0;1;2])] [0;1;2]));
  (*7037*) SubFrom n_rdm_eb_des_ov_bb (Plain (Einsum [(T 14,[0;1;2]); (n_u12'bb,[3;0;4;1])] [3;4;2]));
  (*7038*) Assign n_rdm_eb_des_vv_bb (Plain (Zeros [3;7;7]));
  (*7039*) AddTo n_rdm_eb_des_vv_bb (Plain (Einsum [(n_s2,[0;1]); (T 14,[1;2;3])] [0;2;3]));
  (*7040*) Del (T 14);
  (*7041*) Assign (T 15) (Plain (Zeros [3;4;4]));
  (*7042*) AddTo (T 15) (Plain (Einsum [(n_lu11'aa,[0;1;2]); (n_u12'aa,[3;0;4;1])] [3;2;4]));
  (*7043*) AddTo (T 65) (Plain (Einsum [(T 15,[0;1;2])] [0;1;2]));
  (*7044*) SubFrom n_rdm_eb_des_oo_aa (Plain (Einsum [(T 15,[0;1;2])] [0;2;1]));
  (*7045*) Del (T 15);
  (*7046*) Assign (T 16) (Plain (Zeros [3;4;4]));
  (*7047*) AddTo (T 16) (Plain (Einsum [(n_l1'aa,[0;1]); (n_u11'aa,[2;3;0])] [2;1;3]));
  (*7048*) AddTo (T 65) (Plain (Einsum [(T 16,[0;1;2])] [0;1;2]));
  (*7049*) SubFrom n_rdm_eb_des_oo_aa (Plain (Einsum [(T 16,[0;1;2])] [0;2;1]));
  (*7050*) Del (T 16);
  (*7051*) Assign (T 18) (Plain (Zeros [3;4;5]));
  (*7052*) AddTo (T 18) (Plain (Einsum [(n_s2,[0;1]); (n_lu11'aa,[1;2;3])] [0;3;2]));
  (*7053*) Assign (T 22) (Plain (Zeros [3;4;5]));
  (*7054*) AddTo (T 22) (Plain (Einsum [(T 18,[0;1;2])] [0;1;2]));
  (*7055*) Assign (T 53) (Plain (Zeros [3;4;5]));
  (*7056*) AddTo (T 53) (Plain (Einsum [(T 18,[0;1;2])] [0;1;2]));
  (*7057*) Assign n_rdm_eb_des_vo_aa (Plain (Zeros [3;5;4]));
  (*7058*) AddTo n_rdm_eb_des_vo_aa (Plain (Einsum [(T 18,[0;1;2])] [0;2;1]));
  (*7059*) Del (T 18);
  (*7060*) Assign (T 19) (Plain (Zeros [3;4;5]));
  (*7061*) AddTo (T 19) (Plain (Einsum [(n_u11'bb,[0;1;2]); (n_l2'abab,[3;2;4;1])] [0;4;3]));
  (*7062*) AddTo (T 22) (Plain (Einsum [(T 19,[0;1;2])] [0;1;2]));
  (*7063*) AddTo (T 53) (Plain (Einsum [(T 19,[0;1;2])] [0;1;2]));
  (*7064*) AddTo n_rdm_eb_des_vo_aa (Plain (Einsum [(T 19,[0;1;2])] [0;2;1]));
  (*7065*) Del (T 19);
  (*7066*) Assign (T 20) (Plain (Zeros [4;4;5;5]));
  (*7067*) AddTo (T 20) (Plain (Einsum [(n_l2'aaaa,[0;1;2;3])] [3;2;0;1]));
  (*7068*) AddTo (T 20) (Times (Einsum [(n_l2'aaaa,[0;1;2;3])] [3;2;1;0]) (-1) 1);
  (*7069*) Assign (T 21) (Plain (Zeros [3;4;5]));
  (*7070*) AddTo (T 21) (Plain (Einsum [(n_u11'aa,[0;1;2]); (T 20,[1;3;2;4])] [0;3;4]));
  (*7071*) AddTo (T 22) (Times (Einsum [(T 21,[0;1;2])] [0;1;2]) (-1) 1);
  (*7072*) Del (T 21);
  (*7073*) AddTo n_rdm_eb_des_oo_aa (Times (Einsum [(n_t1'aa,[0;1]); (T 22,[2;3;1])] [2;0;3]) (-1) 1);
  (*7074*) AddTo n_rdm_eb_des_vv_aa (Plain (Einsum [(n_t1'aa,[0;1]); (T 22,[2;0;3])] [2;3;1]));
  (*7075*) Del (T 22);
  (*7076*) Assign (T 63) (Plain (Zeros [5;5]));
  (*7077*) AddTo (T 63) (Plain (Einsum [(n_t2'aaaa,[0;1;2;3]); (T 20,[0;1;4;3])] [2;4]));
  (*7078*) Del (T 20);
  (*7079*) Assign (T 64) (Plain (Zeros [5;5]));
  (*7080*) AddTo (T 64) (Times (Einsum [(T 63,[0;1])] [1;0]) (-1) 1);
  (*7081*) Assign (T 93) (Plain (Zeros [5;5]));
  (*7082*) AddTo (T 93) (Times (Einsum [(T 63,[0;1])] [1;0]) (-1) 1);
  (*7083*) Del (T 63);
  (*7084*) Assign (T 23) (Plain (Zeros [4;4]));
  (*7085*) AddTo (T 23) (Plain (Einsum [(n_l1'aa,[0;1]); (n_t1'aa,[2;0])] [1;2]));
  (*7086*) Assign (T 29) (Plain (Zeros [4;4]));
  (*7087*) AddTo (T 29) (Plain (Einsum [(T 23,[0;1])] [0;1]));
  (*7088*) Assign (T 66) (Plain (Zeros [4;4]));
  (*7089*) AddTo (T 66) (Plain (Einsum [(T 23,[0;1])] [0;1]));
  (*7090*) Assign (T 77) (Plain (Zeros [4;4]));
  (*7091*) AddTo (T 77) (Plain (Einsum [(T 23,[0;1])] [0;1]));
  (*7092*) Del (T 23);
  (*7093*) Assign (T 24) (Plain (Zeros [4;4]));
  (*7094*) AddTo (T 24) (Plain (Einsum [(n_lu11'aa,[0;1;2]); (n_u11'aa,[0;3;1])] [2;3]));
  (*7095*) AddTo (T 29) (Plain (Einsum [(T 24,[0;1])] [0;1]));
  (*7096*) AddTo (T 66) (Plain (Einsum [(T 24,[0;1])] [0;1]));
  (*7097*) AddTo (T 77) (Plain (Einsum [(T 24,[0;1])] [0;1]));
  (*7098*) Del (T 24);
  (*7099*) Assign (T 25) (Plain (Zeros [4;4]));
  (*7100*) AddTo (T 25) (Plain (Einsum [(n_lu12'aa,[0;1;2;3]); (n_u12'aa,[0;1;4;2])] [3;4]));
  (*7101*) AddTo (T 29) (Times (Einsum [(T 25,[0;1])] [0;1]) (1) 2);
  (*7102*) AddTo (T 66) (Times (Einsum [(T 25,[0;1])] [0;1]) (1) 2);
  (*7103*) AddTo (T 77) (Times (Einsum [(T 25,[0;1])] [0;1]) (1) 2);
  (*7104*) Del (T 25);
  (*7105*) Assign (T 26) (Plain (Zeros [4;4]));
  (*7106*) AddTo (T 26) (Plain (Einsum [(n_l2'abab,[0;1;2;3]); (n_t2'abab,[4;3;0;1])] [2;4]));
  (*7107*) AddTo (T 29) (Plain (Einsum [(T 26,[0;1])] [0;1]));
  (*7108*) AddTo (T 66) (Plain (Einsum [(T 26,[0;1])] [0;1]));
  (*7109*) AddTo (T 77) (Plain (Einsum [(T 26,[0;1])] [0;1]));
  (*7110*) Del (T 26);
  (*7111*) Assign (T 27) (Plain (Zeros [4;4;5;5]));
  (*7112*) AddTo (T 27) (Plain (Einsum [(n_t2'aaaa,[0;1;2;3])] [1;0;2;3]));
  (*7113*) AddTo (T 27) (Times (Einsum [(n_t2'aaaa,[0;1;2;3])] [1;0;3;2]) (-1) 1);
  (*7114*) Assign (T 28) (Plain (Zeros [4;4]));
  (*7115*) AddTo (T 28) (Plain (Einsum [(n_l2'aaaa,[0;1;2;3]); (T 27,[2;4;0;1])] [3;4]));
  (*7116*) AddTo (T 29) (Times (Einsum [(T 28,[0;1])] [0;1]) (-1) 1);
  (*7117*) AddTo (T 66) (Times (Einsum [(T 28,[0;1])] [0;1]) (-1) 1);
  (*7118*) Del (T 28);
  (*7119*) AddTo n_rdm_eb_des_ov_aa (Times (Einsum [(T 66,[0;1]); (n_u11'aa,[2;0;3])] [2;1;3]) (-1) 1);
  (*7120*) Del (T 66);
  (*7121*) AddTo (T 77) (Times (Einsum [(n_l2'aaaa,[0;1;2;3]); (T 27,[2;4;0;1])] [3;4]) (-1) 1);
  (*7122*) AddTo (T 78) (Plain (Einsum [(n_t1'aa,[0;1]); (T 77,[0;2])] [2;1]));
  (*7123*) Del (T 77);
  (*7124*) AddTo (T 78) (Times (Einsum [(n_l1'aa,[0;1]); (T 27,[1;2;3;0])] [2;3]) (-1) 1);
  (*7125*) Del (T 27);
  (*7126*) AddTo (T 29) (Times (Einsum [(n_delta_oo'aa,[0;1])] [1;0]) (-1) 1);
  (*7127*) AddTo n_rdm_eb_des_oo_aa (Times (Einsum [(n_s1,[0]); (T 29,[1;2])] [0;2;1]) (-1) 1);
  (*7128*) Del (T 29);
  (*7129*) Assign (T 30) (Plain (Zeros [3]));
  (*7130*) AddTo (T 30) (Plain (Einsum [(n_ls1,[0]); (n_s2,[1;0])] [1]));
  (*7131*) Assign (T 35) (Plain (Zeros [3]));
  (*7132*) AddTo (T 35) (Plain (Einsum [(T 30,[0])] [0]));
  (*7133*) Del (T 30);
  (*7134*) Assign (T 31) (Plain (Zeros [3]));
  (*7135*) AddTo (T 31) (Plain (Einsum [(n_l1'aa,[0;1]); (n_u11'aa,[2;1;0])] [2]));
  (*7136*) AddTo (T 35) (Plain (Einsum [(T 31,[0])] [0]));
  (*7137*) Del (T 31);
  (*7138*) Assign (T 32) (Plain (Zeros [3]));
  (*7139*) AddTo (T 32) (Plain (Einsum [(n_l1'bb,[0;1]); (n_u11'bb,[2;1;0])] [2]));
  (*7140*) AddTo (T 35) (Plain (Einsum [(T 32,[0])] [0]));
  (*7141*) Del (T 32);
  (*7142*) Assign (T 33) (Plain (Zeros [3]));
  (*7143*) AddTo (T 33) (Plain (Einsum [(n_lu11'aa,[0;1;2]); (n_u12'aa,[3;0;2;1])] [3]));
  (*7144*) AddTo (T 35) (Plain (Einsum [(T 33,[0])] [0]));
  (*7145*) Del (T 33);
  (*7146*) Assign (T 34) (Plain (Zeros [3]));
  (*7147*) AddTo (T 34) (Plain (Einsum [(n_lu11'bb,[0;1;2]); (n_u12'bb,[3;0;2;1])] [3]));
  (*7148*) AddTo (T 35) (Plain (Einsum [(T 34,[0])] [0]));
  (*7149*) Del (T 34);
  (*7150*) AddTo n_rdm_eb_des_oo_aa (Plain (Einsum [(T 35,[0]); (n_delta_oo'aa,[1;2])] [0;2;1]));
  (*7151*) AddTo n_rdm_eb_des_oo_bb (Plain (Einsum [(T 35,[0]); (n_delta_oo'bb,[1;2])] [0;2;1]));
  (*7152*) AddTo n_rdm_eb_des_ov_aa (Plain (Einsum [(T 35,[0]); (n_t1'aa,[1;2])] [0;1;2]));
  (*7153*) AddTo n_rdm_eb_des_ov_bb (Plain (Einsum [(T 35,[0]); (n_t1'bb,[1;2])] [0;1;2]));
  (*7154*) Del (T 35);
  (*7155*) Assign (T 36) (Plain (Zeros [3;6;6]));
  (*7156*) AddTo (T 36) (Plain (Einsum [(n_lu11'bb,[0;1;2]); (n_u12'bb,[3;0;4;1])] [3;2;4]));
  (*7157*) AddTo (T 84) (Plain (Einsum [(T 36,[0;1;2])] [0;1;2]));
  (*7158*) SubFrom n_rdm_eb_des_oo_bb (Plain (Einsum [(T 36,[0;1;2])] [0;2;1]));
  (*7159*) Del (T 36);
  (*7160*) Assign (T 38) (Plain (Zeros [3;6;6]));
  (*7161*) AddTo (T 38) (Plain (Einsum [(n_l1'bb,[0;1]); (n_u11'bb,[2;3;0])] [2;1;3]));
  (*7162*) AddTo (T 84) (Plain (Einsum [(T 38,[0;1;2])] [0;1;2]));
  (*7163*) SubFrom n_rdm_eb_des_oo_bb (Plain (Einsum [(T 38,[0;1;2])] [0;2;1]));
  (*7164*) Del (T 38);
  (*7165*) Assign (T 39) (Plain (Zeros [3;6;7]));
  (*7166*) AddTo (T 39) (Plain (Einsum [(n_s2,[0;1]); (n_lu11'bb,[1;2;3])] [0;3;2]));
  (*7167*) Assign (T 43) (Plain (Zeros [3;6;7]));
  (*7168*) AddTo (T 43) (Plain (Einsum [(T 39,[0;1;2])] [0;1;2]));
  (*7169*) Assign (T 56) (Plain (Zeros [3;6;7]));
  (*7170*) AddTo (T 56) (Plain (Einsum [(T 39,[0;1;2])] [0;1;2]));
  (*7171*) Assign n_rdm_eb_des_vo_bb (Plain (Zeros [3;7;6]));
  (*7172*) AddTo n_rdm_eb_des_vo_bb (Plain (Einsum [(T 39,[0;1;2])] [0;2;1]));
  (*7173*) Del (T 39);
  (*7174*) Assign (T 40) (Plain (Zeros [3;6;7]));
  (*7175*) AddTo (T 40) (Plain (Einsum [(n_u11'aa,[0;1;2]); (n_l2'abab,[2;3;1;4])] [0;4;3]));
  (*7176*) AddTo (T 43) (Plain (Einsum [(T 40,[0;1;2])] [0;1;2]));
  (*7177*) AddTo (T 56) (Plain (Einsum [(T 40,[0;1;2])] [0;1;2]));
  (*7178*) AddTo n_rdm_eb_des_vo_bb (Plain (Einsum [(T 40,[0;1;2])] [0;2;1]));
  (*7179*) Del (T 40);
  (*7180*) Assign (T 41) (Plain (Zeros [6;6;7;7]));
  (*7181*) AddTo (T 41) (Plain (Einsum [(n_l2'bbbb,[0;1;2;3])] [3;2;0;1]));
  (*7182*) AddTo (T 41) (Times (Einsum [(n_l2'bbbb,[0;1;2;3])] [3;2;1;0]) (-1) 1);
  (*7183*) Assign (T 42) (Plain (Zeros [3;6;7]));
  (*7184*) AddTo (T 42) (Plain (Einsum [(n_u11'bb,[0;1;2]); (T 41,[1;3;2;4])] [0;3;4]));
  (*7185*) Del (T 41);
  (*7186*) AddTo (T 43) (Times (Einsum [(T 42,[0;1;2])] [0;1;2]) (-1) 1);
  (*7187*) Del (T 42);
  (*7188*) AddTo n_rdm_eb_des_oo_bb (Times (Einsum [(n_t1'bb,[0;1]); (T 43,[2;3;1])] [2;0;3]) (-1) 1);
  (*7189*) AddTo n_rdm_eb_des_vv_bb (Plain (Einsum [(n_t1'bb,[0;1]); (T 43,[2;0;3])] [2;3;1]));
  (*7190*) Del (T 43);
  (*7191*) Assign (T 44) (Plain (Zeros [6;6]));
  (*7192*) AddTo (T 44) (Plain (Einsum [(n_l1'bb,[0;1]); (n_t1'bb,[2;0])] [1;2]));
  (*7193*) Assign (T 50) (Plain (Zeros [6;6]));
  (*7194*) AddTo (T 50) (Plain (Einsum [(T 44,[0;1])] [0;1]));
  (*7195*) Assign (T 85) (Plain (Zeros [6;6]));
  (*7196*) AddTo (T 85) (Plain (Einsum [(T 44,[0;1])] [0;1]));
  (*7197*) Assign (T 91) (Plain (Zeros [6;6]));
  (*7198*) AddTo (T 91) (Plain (Einsum [(T 44,[0;1])] [0;1]));
  (*7199*) Del (T 44);
  (*7200*) Assign (T 45) (Plain (Zeros [6;6]));
  (*7201*) AddTo (T 45) (Plain (Einsum [(n_lu11'bb,[0;1;2]); (n_u11'bb,[0;3;1])] [2;3]));
  (*7202*) AddTo (T 50) (Plain (Einsum [(T 45,[0;1])] [0;1]));
  (*7203*) AddTo (T 85) (Plain (Einsum [(T 45,[0;1])] [0;1]));
  (*7204*) AddTo (T 91) (Plain (Einsum [(T 45,[0;1])] [0;1]));
  (*7205*) Del (T 45);
  (*7206*) Assign (T 46) (Plain (Zeros [6;6]));
  (*7207*) AddTo (T 46) (Plain (Einsum [(n_lu12'bb,[0;1;2;3]); (n_u12'bb,[0;1;4;2])] [3;4]));
  (*7208*) AddTo (T 50) (Times (Einsum [(T 46,[0;1])] [0;1]) (1) 2);
  (*7209*) AddTo (T 85) (Times (Einsum [(T 46,[0;1])] [0;1]) (1) 2);
  (*7210*) AddTo (T 91) (Times (Einsum [(T 46,[0;1])] [0;1]) (1) 2);
  (*7211*) Del (T 46);
  (*7212*) Assign (T 47) (Plain (Zeros [6;6]));
  (*7213*) AddTo (T 47) (Plain (Einsum [(n_l2'abab,[0;1;2;3]); (n_t2'abab,[2;4;0;1])] [3;4]));
  (*7214*) AddTo (T 50) (Plain (Einsum [(T 47,[0;1])] [0;1]));
  (*7215*) AddTo (T 85) (Plain (Einsum [(T 47,[0;1])] [0;1]));
  (*7216*) AddTo (T 91) (Plain (Einsum [(T 47,[0;1])] [0;1]));
  (*7217*) Del (T 47);
  (*7218*) Assign (T 48) (Plain (Zeros [6;6;7;7]));
  (*7219*) AddTo (T 48) (Times (Einsum [(n_t2'bbbb,[0;1;2;3])] [1;0;2;3]) (-1) 1);
  (*7220*) AddTo (T 48) (Plain (Einsum [(n_t2'bbbb,[0;1;2;3])] [1;0;3;2]));
  (*7221*) Assign (T 49) (Plain (Zeros [6;6]));
  (*7222*) AddTo (T 49) (Plain (Einsum [(n_l2'bbbb,[0;1;2;3]); (T 48,[2;4;1;0])] [3;4]));
  (*7223*) AddTo (T 50) (Times (Einsum [(T 49,[0;1])] [0;1]) (-1) 1);
  (*7224*) AddTo (T 85) (Times (Einsum [(T 49,[0;1])] [0;1]) (-1) 1);
  (*7225*) Del (T 49);
  (*7226*) AddTo n_rdm_eb_des_ov_bb (Times (Einsum [(T 85,[0;1]); (n_u11'bb,[2;0;3])] [2;1;3]) (-1) 1);
  (*7227*) Del (T 85);
  (*7228*) AddTo (T 91) (Times (Einsum [(n_l2'bbbb,[0;1;2;3]); (T 48,[2;4;1;0])] [3;4]) (-1) 1);
  (*7229*) Del (T 48);
  (*7230*) AddTo (T 92) (Plain (Einsum [(n_t1'bb,[0;1]); (T 91,[0;2])] [2;1]));
  (*7231*) Del (T 91);
  (*7232*) AddTo (T 50) (Times (Einsum [(n_delta_oo'bb,[0;1])] [1;0]) (-1) 1);
  (*7233*) AddTo n_rdm_eb_des_oo_bb (Times (Einsum [(n_s1,[0]); (T 50,[1;2])] [0;2;1]) (-1) 1);
  (*7234*) Del (T 50);
  (*7235*) Assign (T 51) (Plain (Zeros [4;4;5;5]));
  (*7236*) AddTo (T 51) (Plain (Einsum [(n_l2'aaaa,[0;1;2;3])] [3;2;0;1]));
  (*7237*) SubFrom (T 51) (Plain (Einsum [(n_l2'aaaa,[0;1;2;3])] [3;2;1;0]));
  (*7238*) Assign (T 52) (Plain (Zeros [3;4;5]));
  (*7239*) AddTo (T 52) (Plain (Einsum [(n_u11'aa,[0;1;2]); (T 51,[1;3;2;4])] [0;3;4]));
  (*7240*) Del (T 51);
  (*7241*) SubFrom (T 53) (Plain (Einsum [(T 52,[0;1;2])] [0;1;2]));
  (*7242*) AddTo (T 65) (Plain (Einsum [(n_t1'aa,[0;1]); (T 53,[2;3;1])] [2;3;0]));
  (*7243*) SubFrom n_rdm_eb_des_ov_aa (Plain (Einsum [(n_t1'aa,[0;1]); (T 65,[2;0;3])] [2;3;1]));
  (*7244*) Del (T 65);
  (*7245*) SubFrom n_rdm_eb_des_ov_aa (Plain (Einsum [(T 53,[0;1;2]); (T 7,[1;3;2;4])] [0;3;4]));
  (*7246*) Del (T 7);
  (*7247*) AddTo n_rdm_eb_des_ov_bb (Plain (Einsum [(T 53,[0;1;2]); (n_t2'abab,[1;3;2;4])] [0;3;4]));
  (*7248*) Del (T 53);
  (*7249*) SubFrom n_rdm_eb_des_vo_aa (Plain (Einsum [(T 52,[0;1;2])] [0;2;1]));
  (*7250*) Del (T 52);
  (*7251*) Assign (T 54) (Plain (Zeros [6;6;7;7]));
  (*7252*) AddTo (T 54) (Plain (Einsum [(n_l2'bbbb,[0;1;2;3])] [3;2;0;1]));
  (*7253*) SubFrom (T 54) (Plain (Einsum [(n_l2'bbbb,[0;1;2;3])] [3;2;1;0]));
  (*7254*) Assign (T 55) (Plain (Zeros [3;6;7]));
  (*7255*) AddTo (T 55) (Plain (Einsum [(n_u11'bb,[0;1;2]); (T 54,[1;3;2;4])] [0;3;4]));
  (*7256*) Del (T 54);
  (*7257*) SubFrom (T 56) (Plain (Einsum [(T 55,[0;1;2])] [0;1;2]));
  (*7258*) AddTo (T 84) (Plain (Einsum [(n_t1'bb,[0;1]); (T 56,[2;3;1])] [2;3;0]));
  (*7259*) SubFrom n_rdm_eb_des_ov_bb (Plain (Einsum [(n_t1'bb,[0;1]); (T 84,[2;0;3])] [2;3;1]));
  (*7260*) Del (T 84);
  (*7261*) AddTo n_rdm_eb_des_ov_aa (Plain (Einsum [(T 56,[0;1;2]); (n_t2'abab,[3;1;4;2])] [0;3;4]));
  (*7262*) SubFrom n_rdm_eb_des_ov_bb (Plain (Einsum [(T 56,[0;1;2]); (T 11,[1;3;2;4])] [0;3;4]));
  (*7263*) Del (T 11);
  (*7264*) Del (T 56);
  (*7265*) SubFrom n_rdm_eb_des_vo_bb (Plain (Einsum [(T 55,[0;1;2])] [0;2;1]));
  (*7266*) Del (T 55);
  (*7267*) Assign (T 57) (Plain (Zeros [3;3;3]));
  (*7268*) AddTo (T 57) (Plain (Einsum [(n_u11'aa,[0;1;2]); (n_lu12'aa,[3;4;2;1])] [3;4;0]));
  (*7269*) Assign (T 59) (Plain (Zeros [3;3;3]));
  (*7270*) AddTo (T 59) (Plain (Einsum [(T 57,[0;1;2])] [1;0;2]));
  (*7271*) Del (T 57);
  (*7272*) Assign (T 58) (Plain (Zeros [3;3;3]));
  (*7273*) AddTo (T 58) (Plain (Einsum [(n_u11'bb,[0;1;2]); (n_lu12'bb,[3;4;2;1])] [3;4;0]));
  (*7274*) AddTo (T 59) (Plain (Einsum [(T 58,[0;1;2])] [1;0;2]));
  (*7275*) Del (T 58);
  (*7276*) AddTo n_rdm_eb_des_ov_aa (Times (Einsum [(T 59,[0;1;2]); (n_u12'aa,[0;1;3;4])] [2;3;4]) (1) 2);
  (*7277*) AddTo n_rdm_eb_des_ov_bb (Times (Einsum [(T 59,[0;1;2]); (n_u12'bb,[0;1;3;4])] [2;3;4]) (1) 2);
  (*7278*) Del (T 59);
  (*7279*) Assign (T 60) (Plain (Zeros [5;5]));
  (*7280*) AddTo (T 60) (Plain (Einsum [(n_lu11'aa,[0;1;2]); (n_u11'aa,[0;2;3])] [1;3]));
  (*7281*) AddTo (T 64) (Plain (Einsum [(T 60,[0;1])] [0;1]));
  (*7282*) AddTo (T 93) (Plain (Einsum [(T 60,[0;1])] [0;1]));
  (*7283*) Del (T 60);
  (*7284*) Assign (T 61) (Plain (Zeros [5;5]));
  (*7285*) AddTo (T 61) (Plain (Einsum [(n_lu12'aa,[0;1;2;3]); (n_u12'aa,[0;1;3;4])] [2;4]));
  (*7286*) AddTo (T 64) (Times (Einsum [(T 61,[0;1])] [0;1]) (1) 2);
  (*7287*) AddTo (T 93) (Times (Einsum [(T 61,[0;1])] [0;1]) (1) 2);
  (*7288*) Del (T 61);
  (*7289*) Assign (T 62) (Plain (Zeros [5;5]));
  (*7290*) AddTo (T 62) (Plain (Einsum [(n_l2'abab,[0;1;2;3]); (n_t2'abab,[2;3;4;1])] [0;4]));
  (*7291*) AddTo (T 64) (Plain (Einsum [(T 62,[0;1])] [0;1]));
  (*7292*) AddTo n_rdm_eb_des_ov_aa (Times (Einsum [(T 64,[0;1]); (n_u11'aa,[2;3;0])] [2;3;1]) (-1) 1);
  (*7293*) Del (T 64);
  (*7294*) AddTo (T 93) (Plain (Einsum [(T 62,[0;1])] [0;1]));
  (*7295*) Del (T 62);
  (*7296*) Assign (T 67) (Plain (Zeros [3;3]));
  (*7297*) AddTo (T 67) (Plain (Einsum [(n_ls2,[0;1]); (n_s2,[2;1])] [0;2]));
  (*7298*) Assign (T 72) (Plain (Zeros [3;3]));
  (*7299*) AddTo (T 72) (Plain (Einsum [(T 67,[0;1])] [0;1]));
  (*7300*) Del (T 67);
  (*7301*) Assign (T 68) (Plain (Zeros [3;3]));
  (*7302*) AddTo (T 68) (Plain (Einsum [(n_lu11'aa,[0;1;2]); (n_u11'aa,[3;2;1])] [0;3]));
  (*7303*) AddTo (T 72) (Plain (Einsum [(T 68,[0;1])] [0;1]));
  (*7304*) Del (T 68);
  (*7305*) Assign (T 69) (Plain (Zeros [3;3]));
  (*7306*) AddTo (T 69) (Plain (Einsum [(n_lu11'bb,[0;1;2]); (n_u11'bb,[3;2;1])] [0;3]));
  (*7307*) AddTo (T 72) (Plain (Einsum [(T 69,[0;1])] [0;1]));
  (*7308*) Del (T 69);
  (*7309*) Assign (T 70) (Plain (Zeros [3;3]));
  (*7310*) AddTo (T 70) (Plain (Einsum [(n_lu12'aa,[0;1;2;3]); (n_u12'aa,[4;0;3;2])] [1;4]));
  (*7311*) AddTo (T 72) (Plain (Einsum [(T 70,[0;1])] [0;1]));
  (*7312*) Del (T 70);
  (*7313*) Assign (T 71) (Plain (Zeros [3;3]));
  (*7314*) AddTo (T 71) (Plain (Einsum [(n_lu12'bb,[0;1;2;3]); (n_u12'bb,[4;0;3;2])] [1;4]));
  (*7315*) AddTo (T 72) (Plain (Einsum [(T 71,[0;1])] [0;1]));
  (*7316*) Del (T 71);
  (*7317*) AddTo n_rdm_eb_des_ov_aa (Plain (Einsum [(T 72,[0;1]); (n_u11'aa,[0;2;3])] [1;2;3]));
  (*7318*) AddTo n_rdm_eb_des_ov_bb (Plain (Einsum [(T 72,[0;1]); (n_u11'bb,[0;2;3])] [1;2;3]));
  (*7319*) Del (T 72);
  (*7320*) Assign (T 73) (Plain (Zeros [4;4;6;7]));
  (*7321*) AddTo (T 73) (Plain (Einsum [(n_t1'aa,[0;1]); (n_l2'abab,[1;2;3;4])] [3;0;4;2]));
  (*7322*) AddTo (T 78) (Plain (Einsum [(n_t2'abab,[0;1;2;3]); (T 73,[0;4;1;3])] [4;2]));
  (*7323*) Del (T 73);
  (*7324*) Assign (T 74) (Plain (Zeros [4;4;4;5]));
  (*7325*) AddTo (T 74) (Plain (Einsum [(n_t1'aa,[0;1]); (n_l2'aaaa,[2;1;3;4])] [3;4;0;2]));
  (*7326*) Assign (T 75) (Plain (Zeros [4;4;4;5]));
  (*7327*) AddTo (T 75) (Times (Einsum [(T 74,[0;1;2;3])] [0;1;2;3]) (-1) 1);
  (*7328*) AddTo (T 75) (Plain (Einsum [(T 74,[0;1;2;3])] [1;0;2;3]));
  (*7329*) Del (T 74);
  (*7330*) AddTo (T 78) (Times (Einsum [(n_t2'aaaa,[0;1;2;3]); (T 75,[1;0;4;3])] [4;2]) (-1) 1);
  (*7331*) Del (T 75);
  (*7332*) AddTo (T 78) (Times (Einsum [(n_t1'aa,[0;1])] [0;1]) (-1) 1);
  (*7333*) AddTo (T 78) (Times (Einsum [(n_ls1,[0]); (n_u11'aa,[0;1;2])] [1;2]) (-1) 1);
  (*7334*) AddTo (T 78) (Times (Einsum [(n_ls2,[0;1]); (n_u12'aa,[0;1;2;3])] [2;3]) (-1) 2);
  (*7335*) AddTo (T 78) (Times (Einsum [(n_l1'bb,[0;1]); (n_t2'abab,[2;1;3;0])] [2;3]) (-1) 1);
  (*7336*) AddTo n_rdm_eb_des_ov_aa (Times (Einsum [(n_s1,[0]); (T 78,[1;2])] [0;1;2]) (-1) 1);
  (*7337*) Del (T 78);
  (*7338*) Assign (T 79) (Plain (Zeros [7;7]));
  (*7339*) AddTo (T 79) (Plain (Einsum [(n_lu11'bb,[0;1;2]); (n_u11'bb,[0;2;3])] [1;3]));
  (*7340*) Assign (T 83) (Plain (Zeros [7;7]));
  (*7341*) AddTo (T 83) (Plain (Einsum [(T 79,[0;1])] [0;1]));
  (*7342*) Assign (T 94) (Plain (Zeros [7;7]));
  (*7343*) AddTo (T 94) (Times (Einsum [(T 79,[0;1])] [0;1]) (2) 1);
  (*7344*) Del (T 79);
  (*7345*) Assign (T 80) (Plain (Zeros [7;7]));
  (*7346*) AddTo (T 80) (Plain (Einsum [(n_lu12'bb,[0;1;2;3]); (n_u12'bb,[0;1;3;4])] [2;4]));
  (*7347*) AddTo (T 83) (Times (Einsum [(T 80,[0;1])] [0;1]) (1) 2);
  (*7348*) AddTo (T 94) (Plain (Einsum [(T 80,[0;1])] [0;1]));
  (*7349*) Del (T 80);
  (*7350*) Assign (T 81) (Plain (Zeros [7;7]));
  (*7351*) AddTo (T 81) (Plain (Einsum [(n_l2'abab,[0;1;2;3]); (n_t2'abab,[2;3;0;4])] [1;4]));
  (*7352*) AddTo (T 83) (Plain (Einsum [(T 81,[0;1])] [0;1]));
  (*7353*) AddTo (T 94) (Times (Einsum [(T 81,[0;1])] [0;1]) (2) 1);
  (*7354*) Del (T 81);
  (*7355*) Assign (T 82) (Plain (Zeros [6;6;7;7]));
  (*7356*) AddTo (T 82) (Times (Einsum [(n_l2'bbbb,[0;1;2;3])] [3;2;0;1]) (-1) 1);
  (*7357*) AddTo (T 82) (Plain (Einsum [(n_l2'bbbb,[0;1;2;3])] [3;2;1;0]));
  (*7358*) AddTo (T 83) (Times (Einsum [(n_t2'bbbb,[0;1;2;3]); (T 82,[0;1;4;2])] [4;3]) (-1) 1);
  (*7359*) AddTo n_rdm_eb_des_ov_bb (Times (Einsum [(T 83,[0;1]); (n_u11'bb,[2;3;0])] [2;3;1]) (-1) 1);
  (*7360*) Del (T 83);
  (*7361*) AddTo (T 94) (Times (Einsum [(n_t2'bbbb,[0;1;2;3]); (T 82,[0;1;4;2])] [4;3]) (-2) 1);
  (*7362*) Del (T 82);
  (*7363*) Assign (T 86) (Plain (Zeros [4;6;6;5]));
  (*7364*) AddTo (T 86) (Plain (Einsum [(n_t1'bb,[0;1]); (n_l2'abab,[2;1;3;4])] [3;4;0;2]));
  (*7365*) AddTo (T 92) (Plain (Einsum [(n_t2'abab,[0;1;2;3]); (T 86,[0;1;4;2])] [4;3]));
  (*7366*) Del (T 86);
  (*7367*) Assign (T 87) (Plain (Zeros [6;6;6;7]));
  (*7368*) AddTo (T 87) (Plain (Einsum [(n_t1'bb,[0;1]); (n_l2'bbbb,[2;1;3;4])] [3;4;0;2]));
  (*7369*) Assign (T 88) (Plain (Zeros [6;6;6;7]));
  (*7370*) AddTo (T 88) (Times (Einsum [(T 87,[0;1;2;3])] [0;1;2;3]) (-1) 1);
  (*7371*) AddTo (T 88) (Plain (Einsum [(T 87,[0;1;2;3])] [1;0;2;3]));
  (*7372*) Del (T 87);
  (*7373*) AddTo (T 92) (Times (Einsum [(n_t2'bbbb,[0;1;2;3]); (T 88,[0;1;4;2])] [4;3]) (-1) 1);
  (*7374*) Del (T 88);
  (*7375*) Assign (T 89) (Plain (Zeros [6;6;7;7]));
  (*7376*) AddTo (T 89) (Plain (Einsum [(n_t2'bbbb,[0;1;2;3])] [1;0;2;3]));
  (*7377*) AddTo (T 89) (Times (Einsum [(n_t2'bbbb,[0;1;2;3])] [1;0;3;2]) (-1) 1);
  (*7378*) AddTo (T 92) (Times (Einsum [(n_l1'bb,[0;1]); (T 89,[1;2;3;0])] [2;3]) (-1) 1);
  (*7379*) Del (T 89);
  (*7380*) AddTo (T 92) (Times (Einsum [(n_t1'bb,[0;1])] [0;1]) (-1) 1);
  (*7381*) AddTo (T 92) (Times (Einsum [(n_ls1,[0]); (n_u11'bb,[0;1;2])] [1;2]) (-1) 1);
  (*7382*) AddTo (T 92) (Times (Einsum [(n_ls2,[0;1]); (n_u12'bb,[0;1;2;3])] [2;3]) (-1) 2);
  (*7383*) AddTo (T 92) (Times (Einsum [(n_l1'aa,[0;1]); (n_t2'abab,[1;2;0;3])] [2;3]) (-1) 1);
  (*7384*) AddTo n_rdm_eb_des_ov_bb (Times (Einsum [(n_s1,[0]); (T 92,[1;2])] [0;1;2]) (-1) 1);
  (*7385*) Del (T 92);
  (*7386*) AddTo (T 93) (Plain (Einsum [(n_l1'aa,[0;1]); (n_t1'aa,[1;2])] [0;2]));
  (*7387*) AddTo n_rdm_eb_des_vv_aa (Plain (Einsum [(n_s1,[0]); (T 93,[1;2])] [0;1;2]));
  (*7388*) Del (T 93);
  (*7389*) AddTo (T 94) (Times (Einsum [(n_l1'bb,[0;1]); (n_t1'bb,[1;2])] [0;2]) (2) 1);
  (*7390*) AddTo n_rdm_eb_des_vv_bb (Times (Einsum [(n_s1,[0]); (T 94,[1;2])] [0;1;2]) (1) 2);
  (*7391*) Del (T 94);
  (*7392*) AddTo n_rdm_eb_cre_oo_aa (Plain (Einsum [(n_ls1,[0]); (n_delta_oo'aa,[1;2])] [0;2;1]));
  (*7393*) AddTo n_rdm_eb_cre_oo_bb (Plain (Einsum [(n_ls1,[0]); (n_delta_oo'bb,[1;2])] [0;2;1]));
  (*7394*) AddTo n_rdm_eb_cre_ov_aa (Plain (Einsum [(n_ls1,[0]); (n_t1'aa,[1;2])] [0;1;2]));
  (*7395*) AddTo n_rdm_eb_cre_ov_aa (Plain (Einsum [(n_lu11'bb,[0;1;2]); (n_t2'abab,[3;2;4;1])] [0;3;4]));
  (*7396*) AddTo n_rdm_eb_cre_ov_aa (Plain (Einsum [(n_ls2,[0;1]); (n_u11'aa,[1;2;3])] [0;2;3]));
  (*7397*) AddTo n_rdm_eb_cre_ov_bb (Plain (Einsum [(n_lu11'aa,[0;1;2]); (n_t2'abab,[2;3;1;4])] [0;3;4]));
  (*7398*) AddTo n_rdm_eb_cre_ov_bb (Plain (Einsum [(n_ls1,[0]); (n_t1'bb,[1;2])] [0;1;2]));
  (*7399*) AddTo n_rdm_eb_cre_ov_bb (Plain (Einsum [(n_ls2,[0;1]); (n_u11'bb,[1;2;3])] [0;2;3]));
  (*7400*) Assign n_rdm_eb_cre_vo_aa (Plain (Zeros [3;5;4]));
  (*7401*) AddTo n_rdm_eb_cre_vo_aa (Plain (Einsum [(n_lu11'aa,[0;1;2])] [0;1;2]));
  (*7402*) Assign n_rdm_eb_cre_vo_bb (Plain (Zeros [3;7;6]));
  (*7403*) AddTo n_rdm_eb_cre_vo_bb (Plain (Einsum [(n_lu11'bb,[0;1;2])] [0;1;2]));
  (*7404*) AddTo n_rdm_eb_cre_vv_aa (Plain (Einsum [(n_t1'aa,[0;1]); (n_lu11'aa,[2;3;0])] [2;3;1]));
  (*7405*) AddTo n_rdm_eb_cre_vv_bb (Plain (Einsum [(n_t1'bb,[0;1]); (n_lu11'bb,[2;3;0])] [2;3;1]));
  (*7406*) AddTo n_rdm_eb_des_ov_aa (Plain (Einsum [(n_ls1,[0]); (n_u12'aa,[1;0;2;3])] [1;2;3]));
  (*7407*) AddTo n_rdm_eb_des_ov_aa (Plain (Einsum [(n_u11'aa,[0;1;2])] [0;1;2]));
  (*7408*) AddTo n_rdm_eb_des_ov_bb (Plain (Einsum [(n_ls1,[0]); (n_u12'bb,[1;0;2;3])] [1;2;3]));
  (*7409*) AddTo n_rdm_eb_des_ov_bb (Plain (Einsum [(n_u11'bb,[0;1;2])] [0;1;2]));
  (*7410*) AddTo n_rdm_eb_des_vo_aa (Plain (Einsum [(n_s1,[0]); (n_l1'aa,[1;2])] [0;1;2]));
  (*7411*) AddTo n_rdm_eb_des_vo_bb (Plain (Einsum [(n_s1,[0]); (n_l1'bb,[1;2])] [0;1;2]));
  (*7412*) AddTo n_rdm_eb_des_vv_aa (Plain (Einsum [(n_l1'aa,[0;1]); (n_u11'aa,[2;1;3])] [2;0;3]));
  (*7413*) AddTo n_rdm_eb_des_vv_aa (Plain (Einsum [(n_lu11'aa,[0;1;2]); (n_u12'aa,[3;0;2;4])] [3;1;4]));
  (*7414*) AddTo n_rdm_eb_des_vv_bb (Plain (Einsum [(n_l1'bb,[0;1]); (n_u11'bb,[2;1;3])] [2;0;3]));
  (*7415*) AddTo n_rdm_eb_des_vv_bb (Plain (Einsum [(n_lu11'bb,[0;1;2]); (n_u12'bb,[3;0;2;4])] [3;1;4]))]
 [(n_rdm_eb_cre_oo_aa,[3;4;4]); (n_rdm_eb_cre_ov_aa,[3;4;5]); (n_rdm_eb_cre_vo_aa,[3;5;4]); (n_rdm_eb_cre_vv_aa,[3;5;5]); (n_rdm_eb_des_oo_aa,[3;4;4]); (n_rdm_eb_des_ov_aa,[3;4;5]); (n_rdm_eb_des_vo_aa,[3;5;4]); (n_rdm_eb_des_vv_aa,[3;5;5]); (n_rdm_eb_cre_oo_bb,[3;6;6]); (n_rdm_eb_cre_ov_bb,[3;6;7]); (n_rdm_eb_cre_vo_bb,[3;7;6]); (n_rdm_eb_cre_vv_bb,[3;7;7]); (n_rdm_eb_des_oo_bb,[3;6;6]); (n_rdm_eb_des_ov_bb,[3;6;7]); (n_rdm_eb_des_vo_bb,[3;7;6]); (n_rdm_eb_des_vv_bb,[3;7;7])].

