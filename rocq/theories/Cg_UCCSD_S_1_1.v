(** Generated by tools/translate_codegen.py from ebcc/codegen/UCCSD_S_1_1.py; one statement per source line
    (the number in the comment before it). *)
From Coq Require Import ZArith List.
From Verif Require Import CgModel CgNames.
Import ListNotations.

(** ebcc/codegen/UCCSD_S_1_1.py:7-44 [energy] *)
Definition UCCSD_S_1_1_energy : prog := mkprog
 [(n_v'bbbb'ovov,[6;7;6;7]); (n_t2'bbbb,[6;6;7;7]); (n_t1'bb,[6;7]); (n_v'aaaa'ovov,[4;5;4;5]); (n_t2'aaaa,[4;4;5;5]); (n_t1'aa,[4;5]); (n_t2'abab,[4;6;5;7]); (n_v'aabb'ovov,[4;5;6;7]); (n_G,[3]); (n_g'aa'bov,[3;4;5]); (n_g'bb'bov,[3;6;7]); (n_s1,[3]); (n_u11'aa,[3;4;5]); (n_f'aa'ov,[4;5]); (n_f'bb'ov,[6;7]); (n_u11'bb,[3;6;7])]
 [(*9*) Assign (T 1) (Plain (Zeros [6;6;7;7]));
  (*10*) AddTo (T 1) (Plain (Einsum [(n_v'bbbb'ovov,[0;1;2;3])] [2;0;1;3]));
  (*11*) AddTo (T 1) (Times (Einsum [(n_v'bbbb'ovov,[0;1;2;3])] [2;0;3;1]) (-1) 1);
  (*12*) Assign (T 2) (Plain (Zeros [6;6;7;7]));
  (*13*) AddTo (T 2) (Plain (Einsum [(n_t2'bbbb,[0;1;2;3])] [1;0;3;2]));
  (*14*) AddTo (T 2) (Times (Einsum [(n_t1'bb,[0;1]); (n_t1'bb,[2;3])] [0;2;3;1]) (-1) 1);
  (*15*) Assign n_e_cc (Plain (Zeros []));
  (*16*) AddTo n_e_cc (Times (Einsum [(T 1,[0;1;2;3]); (T 2,[0;1;2;3])] []) (-1) 2);
  (*17*) Del (T 1);
  (*18*) Del (T 2);
  (*19*) Assign (T 3) (Plain (Zeros [4;4;5;5]));
  (*20*) AddTo (T 3) (Plain (Einsum [(n_v'aaaa'ovov,[0;1;2;3])] [2;0;1;3]));
  (*21*) AddTo (T 3) (Times (Einsum [(n_v'aaaa'ovov,[0;1;2;3])] [2;0;3;1]) (-1) 1);
  (*22*) Assign (T 4) (Plain (Zeros [4;4;5;5]));
  (*23*) AddTo (T 4) (Plain (Einsum [(n_t2'aaaa,[0;1;2;3])] [1;0;3;2]));
  (*24*) AddTo (T 4) (Plain (Einsum [(n_t1'aa,[0;1]); (n_t1'aa,[2;3])] [0;2;1;3]));
  (*25*) AddTo n_e_cc (Times (Einsum [(T 3,[0;1;2;3]); (T 4,[0;1;2;3])] []) (-1) 2);
  (*26*) Del (T 3);
  (*27*) Del (T 4);
  (*28*) Assign (T 5) (Plain (Zeros [4;6;5;7]));
  (*29*) AddTo (T 5) (Plain (Einsum [(n_t2'abab,[0;1;2;3])] [0;1;2;3]));
  (*30*) AddTo (T 5) (Plain (Einsum [(n_t1'aa,[0;1]); (n_t1'bb,[2;3])] [0;2;1;3]));
  (*31*) AddTo n_e_cc (Plain (Einsum [(n_v'aabb'ovov,[0;1;2;3]); (T 5,[0;2;1;3])] []));
  (*32*) Del (T 5);
  (*33*) Assign (T 6) (Plain (Zeros [3]));
  (*34*) AddTo (T 6) (Plain (Einsum [(n_G,[0])] [0]));
  (*35*) AddTo (T 6) (Plain (Einsum [(n_t1'aa,[0;1]); (n_g'aa'bov,[2;0;1])] [2]));
  (*36*) AddTo (T 6) (Plain (Einsum [(n_t1'bb,[0;1]); (n_g'bb'bov,[2;0;1])] [2]));
  (*37*) AddTo n_e_cc (Plain (Einsum [(n_s1,[0]); (T 6,[0])] []));
  (*38*) Del (T 6);
  (*39*) AddTo n_e_cc (Plain (Einsum [(n_g'aa'bov,[0;1;2]); (n_u11'aa,[0;1;2])] []));
  (*40*) AddTo n_e_cc (Plain (Einsum [(n_f'aa'ov,[0;1]); (n_t1'aa,[0;1])] []));
  (*41*) AddTo n_e_cc (Plain (Einsum [(n_f'bb'ov,[0;1]); (n_t1'bb,[0;1])] []));
  (*42*) AddTo n_e_cc (Plain (Einsum [(n_g'bb'bov,[0;1;2]); (n_u11'bb,[0;1;2])] []))]
 [(n_e_cc,[])].

(** ebcc/codegen/UCCSD_S_1_1.py:46-1437 [update_amps] *)
Definition UCCSD_S_1_1_update_amps : prog := mkprog
 [(n_g'aa'boo,[3;4;4]); (n_g'aa'bvo,[3;5;4]); (n_g'aa'bov,[3;4;5]); (n_g'aa'bvv,[3;5;5]); (n_g'bb'boo,[3;6;6]); (n_g'bb'bvo,[3;7;6]); (n_g'bb'bov,[3;6;7]); (n_g'bb'bvv,[3;7;7]); (n_t1'aa,[4;5]); (n_v'aaaa'ovov,[4;5;4;5]); (n_v'aaaa'ooov,[4;4;4;5]); (n_t2'aaaa,[4;4;5;5]); (n_v'aaaa'ovvv,[4;5;5;5]); (n_v'aabb'ovov,[4;5;6;7]); (n_t2'abab,[4;6;5;7]); (n_v'aabb'ooov,[4;4;6;7]); (n_s1,[3]); (n_t1'bb,[6;7]); (n_u11'aa,[3;4;5]); (n_f'aa'ov,[4;5]); (n_t2'bbbb,[6;6;7;7]); (n_v'bbbb'ovov,[6;7;6;7]); (n_u11'bb,[3;6;7]); (n_f'bb'ov,[6;7]); (n_v'aaaa'ovvo,[4;5;5;4]); (n_v'aaaa'oovv,[4;4;5;5]); (n_f'aa'oo,[4;4]); (n_v'bbaa'ovvv,[6;7;5;5]); (n_f'aa'vv,[5;5]); (n_G,[3]); (n_v'bbbb'ooov,[6;6;6;7]); (n_v'bbbb'ovvv,[6;7;7;7]); (n_v'aabb'ovoo,[4;5;6;6]); (n_v'bbbb'ovvo,[6;7;7;6]); (n_v'bbbb'oovv,[6;6;7;7]); (n_f'bb'oo,[6;6]); (n_v'aabb'ovvv,[4;5;7;7]); (n_f'bb'vv,[7;7]); (n_v'aaaa'vovv,[5;4;5;5]); (n_v'bbaa'ovvo,[6;7;5;4]); (n_v'aaaa'oovo,[4;4;5;4]); (n_v'aaaa'vvvv,[5;5;5;5]); (n_v'aaaa'oooo,[4;4;4;4]); (n_v'bbbb'vovv,[7;6;7;7]); (n_v'aabb'ovvo,[4;5;7;6]); (n_v'bbbb'oovo,[6;6;7;6]); (n_v'bbbb'oooo,[6;6;6;6]); (n_v'bbbb'vvvv,[7;7;7;7]); (n_v'aabb'vovv,[5;4;7;7]); (n_v'aabb'vvvv,[5;5;7;7]); (n_v'aabb'oovv,[4;4;7;7]); (n_v'aabb'oooo,[4;4;6;6]); (n_v'bbaa'oovv,[6;6;5;5]); (n_v'aabb'oovo,[4;4;7;6]); (n_v'bbaa'oovo,[6;6;5;4]); (n_v'aabb'vvvo,[5;5;7;6]); (n_w,[3;3]); (n_f'aa'vo,[5;4]); (n_f'bb'vo,[7;6]); (n_v'aaaa'vovo,[5;4;5;4]); (n_v'bbbb'vovo,[7;6;7;6]); (n_v'aabb'vovo,[5;4;7;6])]
 [(*52*) Assign n_gc'aa'boo (Plain (Transpose n_g'aa'boo [0;2;1]));
  (*52*) Assign n_gc'aa'bov (Plain (Transpose n_g'aa'bvo [0;2;1]));
  (*52*) Assign n_gc'aa'bvo (Plain (Transpose n_g'aa'bov [0;2;1]));
  (*52*) Assign n_gc'aa'bvv (Plain (Transpose n_g'aa'bvv [0;2;1]));
  (*52*) Assign n_gc'bb'boo (Plain (Transpose n_g'bb'boo [0;2;1]));
  (*52*) Assign n_gc'bb'bov (Plain (Transpose n_g'bb'bvo [0;2;1]));
  (*52*) Assign n_gc'bb'bvo (Plain (Transpose n_g'bb'bov [0;2;1]));
  (*52*) Assign n_gc'bb'bvv (Plain (Transpose n_g'bb'bvv [0;2;1]));
  (*68*) Assign (T 1) (Plain (Zeros [4;4;4;5]));
  (*69*) AddTo (T 1) (Plain (Einsum [(n_t1'aa,[0;1]); (n_v'aaaa'ovov,[2;1;3;4])] [0;3;2;4]));
  (*70*) Assign (T 2) (Plain (Zeros [4;4;4;5]));
  (*71*) AddTo (T 2) (Times (Einsum [(T 1,[0;1;2;3])] [0;1;2;3]) (-1) 1);
  (*72*) AddTo (T 2) (Plain (Einsum [(T 1,[0;1;2;3])] [0;2;1;3]));
  (*73*) Assign (T 68) (Plain (Zeros [4;4;4;5]));
  (*74*) SubFrom (T 68) (Plain (Einsum [(T 1,[0;1;2;3])] [0;1;2;3]));
  (*75*) AddTo (T 68) (Plain (Einsum [(T 1,[0;1;2;3])] [0;2;1;3]));
  (*76*) Assign (T 94) (Plain (Zeros [4;4;4;4]));
  (*77*) AddTo (T 94) (Plain (Einsum [(n_t1'aa,[0;1]); (T 1,[2;3;4;1])] [2;0;4;3]));
  (*78*) Assign (T 95) (Plain (Zeros [4;4;4;5]));
  (*79*) AddTo (T 95) (Plain (Einsum [(n_t1'aa,[0;1]); (T 94,[2;3;4;0])] [2;3;4;1]));
  (*80*) Assign (T 96) (Plain (Zeros [4;4;5;5]));
  (*81*) AddTo (T 96) (Plain (Einsum [(n_t1'aa,[0;1]); (T 95,[2;3;0;4])] [2;3;1;4]));
  (*82*) Del (T 95);
  (*83*) Assign (T 103) (Plain (Zeros [4;4;5;5]));
  (*84*) AddTo (T 103) (Plain (Einsum [(T 96,[0;1;2;3])] [0;1;2;3]));
  (*85*) Del (T 96);
  (*86*) Assign (T 135) (Plain (Zeros [4;4;4;4]));
  (*87*) AddTo (T 135) (Plain (Einsum [(T 94,[0;1;2;3])] [0;1;2;3]));
  (*88*) Del (T 94);
  (*89*) Assign (T 262) (Plain (Zeros [4;4;4;5]));
  (*90*) AddTo (T 262) (Times (Einsum [(T 1,[0;1;2;3])] [1;2;0;3]) (-1) 1);
  (*91*) AddTo (T 262) (Plain (Einsum [(T 1,[0;1;2;3])] [2;1;0;3]));
  (*92*) Del (T 1);
  (*93*) AddTo (T 2) (Plain (Einsum [(n_v'aaaa'ooov,[0;1;2;3])] [1;0;2;3]));
  (*94*) AddTo (T 2) (Times (Einsum [(n_v'aaaa'ooov,[0;1;2;3])] [1;2;0;3]) (-1) 1);
  (*95*) Assign n_t1new_aa (Plain (Zeros [4;5]));
  (*96*) AddTo n_t1new_aa (Times (Einsum [(n_t2'aaaa,[0;1;2;3]); (T 2,[4;1;0;2])] [4;3]) (-1) 1);
  (*97*) Del (T 2);
  (*98*) Assign (T 3) (Plain (Zeros [4;5;5;5]));
  (*99*) AddTo (T 3) (Plain (Einsum [(n_v'aaaa'ovvv,[0;1;2;3])] [0;2;1;3]));
  (*100*) AddTo (T 3) (Times (Einsum [(n_v'aaaa'ovvv,[0;1;2;3])] [0;2;3;1]) (-1) 1);
  (*101*) Assign (T 31) (Plain (Zeros [5;5]));
  (*102*) AddTo (T 31) (Plain (Einsum [(n_t1'aa,[0;1]); (T 3,[0;2;3;1])] [2;3]));
  (*103*) Assign (T 32) (Plain (Zeros [5;5]));
  (*104*) AddTo (T 32) (Times (Einsum [(T 31,[0;1])] [0;1]) (-1) 1);
  (*105*) Assign (T 276) (Plain (Zeros [5;5]));
  (*106*) AddTo (T 276) (Times (Einsum [(T 31,[0;1])] [0;1]) (-1) 1);
  (*107*) Assign (T 308) (Plain (Zeros [5;5]));
  (*108*) AddTo (T 308) (Times (Einsum [(T 31,[0;1])] [0;1]) (-1) 1);
  (*109*) Del (T 31);
  (*110*) Assign (T 108) (Plain (Zeros [4;4;5;5]));
  (*111*) AddTo (T 108) (Plain (Einsum [(n_t1'aa,[0;1]); (T 3,[2;3;1;4])] [0;2;3;4]));
  (*112*) AddTo n_t1new_aa (Times (Einsum [(n_t2'aaaa,[0;1;2;3]); (T 3,[0;4;3;2])] [1;4]) (-1) 1);
  (*113*) Del (T 3);
  (*114*) Assign (T 4) (Plain (Zeros [4;4;6;7]));
  (*115*) AddTo (T 4) (Plain (Einsum [(n_t1'aa,[0;1]); (n_v'aabb'ovov,[2;1;3;4])] [0;2;3;4]));
  (*116*) Assign (T 5) (Plain (Zeros [4;4;6;7]));
  (*117*) AddTo (T 5) (Plain (Einsum [(T 4,[0;1;2;3])] [1;0;2;3]));
  (*118*) Assign (T 123) (Plain (Zeros [4;4;4;5]));
  (*119*) AddTo (T 123) (Plain (Einsum [(n_t2'abab,[0;1;2;3]); (T 4,[4;5;1;3])] [4;0;5;2]));
  (*120*) Del (T 4);
  (*121*) Assign (T 127) (Plain (Zeros [4;4;4;5]));
  (*122*) AddTo (T 127) (Plain (Einsum [(T 123,[0;1;2;3])] [0;2;1;3]));
  (*123*) Del (T 123);
  (*124*) AddTo (T 5) (Plain (Einsum [(n_v'aabb'ooov,[0;1;2;3])] [0;1;2;3]));
  (*125*) Assign (T 286) (Plain (Zeros [4;6;6;5]));
  (*126*) AddTo (T 286) (Plain (Einsum [(n_t2'abab,[0;1;2;3]); (T 5,[0;4;5;3])] [4;1;5;2]));
  (*127*) Assign (T 290) (Plain (Zeros [4;6;6;5]));
  (*128*) AddTo (T 290) (Times (Einsum [(T 286,[0;1;2;3])] [0;2;1;3]) (-1) 1);
  (*129*) Del (T 286);
  (*130*) AddTo n_t1new_aa (Times (Einsum [(n_t2'abab,[0;1;2;3]); (T 5,[0;4;1;3])] [4;2]) (-1) 1);
  (*131*) Assign (T 6) (Plain (Zeros [4;5]));
  (*132*) AddTo (T 6) (Plain (Einsum [(n_s1,[0]); (n_g'aa'bov,[0;1;2])] [1;2]));
  (*133*) Assign (T 10) (Plain (Zeros [4;5]));
  (*134*) AddTo (T 10) (Plain (Einsum [(T 6,[0;1])] [0;1]));
  (*135*) Assign (T 72) (Plain (Zeros [4;5]));
  (*136*) AddTo (T 72) (Plain (Einsum [(T 6,[0;1])] [0;1]));
  (*137*) Assign (T 300) (Plain (Zeros [4;5]));
  (*138*) AddTo (T 300) (Plain (Einsum [(T 6,[0;1])] [0;1]));
  (*139*) Assign (T 309) (Plain (Zeros [4;5]));
  (*140*) AddTo (T 309) (Plain (Einsum [(T 6,[0;1])] [0;1]));
  (*141*) Del (T 6);
  (*142*) Assign (T 7) (Plain (Zeros [4;5]));
  (*143*) AddTo (T 7) (Plain (Einsum [(n_t1'bb,[0;1]); (n_v'aabb'ovov,[2;3;0;1])] [2;3]));
  (*144*) AddTo (T 10) (Plain (Einsum [(T 7,[0;1])] [0;1]));
  (*145*) Assign (T 106) (Plain (Zeros [4;4]));
  (*146*) AddTo (T 106) (Plain (Einsum [(n_t1'aa,[0;1]); (T 7,[2;1])] [0;2]));
  (*147*) Assign (T 107) (Plain (Zeros [4;4;5;5]));
  (*148*) AddTo (T 107) (Plain (Einsum [(T 106,[0;1]); (n_t2'aaaa,[2;1;3;4])] [0;2;3;4]));
  (*149*) Del (T 106);
  (*150*) Assign (T 131) (Plain (Zeros [4;4;5;5]));
  (*151*) AddTo (T 131) (Times (Einsum [(T 107,[0;1;2;3])] [0;1;2;3]) (-1) 1);
  (*152*) Del (T 107);
  (*153*) Assign (T 124) (Plain (Zeros [4;4;4;5]));
  (*154*) AddTo (T 124) (Plain (Einsum [(T 7,[0;1]); (n_t2'aaaa,[2;3;1;4])] [3;2;0;4]));
  (*155*) AddTo (T 127) (Times (Einsum [(T 124,[0;1;2;3])] [0;2;1;3]) (-1) 1);
  (*156*) Del (T 124);
  (*157*) AddTo (T 300) (Plain (Einsum [(T 7,[0;1])] [0;1]));
  (*158*) Assign (T 307) (Plain (Zeros [4;5]));
  (*159*) AddTo (T 307) (Plain (Einsum [(T 7,[0;1])] [0;1]));
  (*160*) Del (T 7);
  (*161*) Assign (T 8) (Plain (Zeros [4;4;5;5]));
  (*162*) AddTo (T 8) (Times (Einsum [(n_v'aaaa'ovov,[0;1;2;3])] [2;0;1;3]) (-1) 1);
  (*163*) AddTo (T 8) (Plain (Einsum [(n_v'aaaa'ovov,[0;1;2;3])] [2;0;3;1]));
  (*164*) Assign (T 9) (Plain (Zeros [4;5]));
  (*165*) AddTo (T 9) (Plain (Einsum [(n_t1'aa,[0;1]); (T 8,[0;2;3;1])] [2;3]));
  (*166*) AddTo (T 10) (Times (Einsum [(T 9,[0;1])] [0;1]) (-1) 1);
  (*167*) AddTo (T 307) (Times (Einsum [(T 9,[0;1])] [0;1]) (-1) 1);
  (*168*) Del (T 9);
  (*169*) AddTo (T 308) (Times (Einsum [(n_t1'aa,[0;1]); (T 307,[0;2])] [1;2]) (-1) 1);
  (*170*) Del (T 307);
  (*171*) Assign (T 24) (Plain (Zeros [4;4]));
  (*172*) AddTo (T 24) (Plain (Einsum [(n_t2'aaaa,[0;1;2;3]); (T 8,[0;4;3;2])] [1;4]));
  (*173*) Assign (T 28) (Plain (Zeros [4;4]));
  (*174*) AddTo (T 28) (Times (Einsum [(T 24,[0;1])] [1;0]) (-1) 1);
  (*175*) Assign (T 129) (Plain (Zeros [4;4]));
  (*176*) AddTo (T 129) (Times (Einsum [(T 24,[0;1])] [1;0]) (-1) 1);
  (*177*) Del (T 24);
  (*178*) Assign (T 114) (Plain (Zeros [5;5]));
  (*179*) AddTo (T 114) (Plain (Einsum [(n_t2'aaaa,[0;1;2;3]); (T 8,[0;1;4;2])] [3;4]));
  (*180*) Assign (T 117) (Plain (Zeros [5;5]));
  (*181*) AddTo (T 117) (Times (Einsum [(T 114,[0;1])] [0;1]) (-1) 1);
  (*182*) Del (T 114);
  (*183*) Assign (T 234) (Plain (Zeros [4;6;5;7]));
  (*184*) AddTo (T 234) (Plain (Einsum [(n_t2'abab,[0;1;2;3]); (T 8,[0;4;5;2])] [4;1;5;3]));
  (*185*) Assign (T 235) (Plain (Zeros [4;6;5;7]));
  (*186*) AddTo (T 235) (Times (Einsum [(T 234,[0;1;2;3])] [0;1;2;3]) (-1) 1);
  (*187*) Del (T 234);
  (*188*) Assign (T 302) (Plain (Zeros [3;4;5]));
  (*189*) AddTo (T 302) (Plain (Einsum [(n_u11'aa,[0;1;2]); (T 8,[1;3;4;2])] [0;3;4]));
  (*190*) Del (T 8);
  (*191*) Assign (T 303) (Plain (Zeros [3;4;5]));
  (*192*) AddTo (T 303) (Times (Einsum [(T 302,[0;1;2])] [0;1;2]) (-1) 1);
  (*193*) Del (T 302);
  (*194*) AddTo (T 10) (Plain (Einsum [(n_f'aa'ov,[0;1])] [0;1]));
  (*195*) Assign (T 27) (Plain (Zeros [4;4]));
  (*196*) AddTo (T 27) (Plain (Einsum [(n_t1'aa,[0;1]); (T 10,[2;1])] [0;2]));
  (*197*) AddTo (T 28) (Plain (Einsum [(T 27,[0;1])] [1;0]));
  (*198*) Del (T 27);
  (*199*) Assign (T 266) (Plain (Zeros [4;4;6;7]));
  (*200*) AddTo (T 266) (Plain (Einsum [(T 10,[0;1]); (n_t2'abab,[2;3;1;4])] [2;0;3;4]));
  (*201*) Assign (T 272) (Plain (Zeros [4;4;6;7]));
  (*202*) AddTo (T 272) (Plain (Einsum [(T 266,[0;1;2;3])] [1;0;2;3]));
  (*203*) Del (T 266);
  (*204*) Assign n_t1new_bb (Plain (Zeros [6;7]));
  (*205*) AddTo n_t1new_bb (Plain (Einsum [(T 10,[0;1]); (n_t2'abab,[0;2;1;3])] [2;3]));
  (*206*) Assign (T 11) (Plain (Zeros [4;4;5;5]));
  (*207*) AddTo (T 11) (Plain (Einsum [(n_t2'aaaa,[0;1;2;3])] [1;0;2;3]));
  (*208*) AddTo (T 11) (Times (Einsum [(n_t2'aaaa,[0;1;2;3])] [1;0;3;2]) (-1) 1);
  (*209*) Assign (T 109) (Plain (Zeros [4;4;5;5]));
  (*210*) AddTo (T 109) (Times (Einsum [(T 11,[0;1;2;3]); (T 108,[4;0;5;2])] [1;4;3;5]) (-1) 1);
  (*211*) Del (T 108);
  (*212*) AddTo (T 131) (Times (Einsum [(T 109,[0;1;2;3])] [1;0;2;3]) (-1) 1);
  (*213*) Del (T 109);
  (*214*) AddTo n_t1new_aa (Plain (Einsum [(T 10,[0;1]); (T 11,[0;2;3;1])] [2;3]));
  (*215*) Del (T 10);
  (*216*) Assign (T 12) (Plain (Zeros [6;7]));
  (*217*) AddTo (T 12) (Plain (Einsum [(n_s1,[0]); (n_g'bb'bov,[0;1;2])] [1;2]));
  (*218*) Assign (T 16) (Plain (Zeros [6;7]));
  (*219*) AddTo (T 16) (Plain (Einsum [(T 12,[0;1])] [0;1]));
  (*220*) Assign (T 156) (Plain (Zeros [6;7]));
  (*221*) AddTo (T 156) (Plain (Einsum [(T 12,[0;1])] [0;1]));
  (*222*) Assign (T 299) (Plain (Zeros [6;7]));
  (*223*) AddTo (T 299) (Plain (Einsum [(T 12,[0;1])] [0;1]));
  (*224*) Assign (T 318) (Plain (Zeros [6;7]));
  (*225*) AddTo (T 318) (Plain (Einsum [(T 12,[0;1])] [0;1]));
  (*226*) Del (T 12);
  (*227*) Assign (T 13) (Plain (Zeros [6;7]));
  (*228*) AddTo (T 13) (Plain (Einsum [(n_t1'aa,[0;1]); (n_v'aabb'ovov,[0;1;2;3])] [2;3]));
  (*229*) AddTo (T 16) (Plain (Einsum [(T 13,[0;1])] [0;1]));
  (*230*) Assign (T 205) (Plain (Zeros [6;6;6;7]));
  (*231*) AddTo (T 205) (Plain (Einsum [(T 13,[0;1]); (n_t2'bbbb,[2;3;4;1])] [2;3;0;4]));
  (*232*) Assign (T 209) (Plain (Zeros [6;6;6;7]));
  (*233*) AddTo (T 209) (Times (Einsum [(T 205,[0;1;2;3])] [0;2;1;3]) (-1) 1);
  (*234*) Del (T 205);
  (*235*) Assign (T 220) (Plain (Zeros [6;6]));
  (*236*) AddTo (T 220) (Plain (Einsum [(n_t1'bb,[0;1]); (T 13,[2;1])] [0;2]));
  (*237*) Assign (T 221) (Plain (Zeros [6;6]));
  (*238*) AddTo (T 221) (Plain (Einsum [(T 220,[0;1])] [0;1]));
  (*239*) Del (T 220);
  (*240*) AddTo (T 299) (Plain (Einsum [(T 13,[0;1])] [0;1]));
  (*241*) Assign (T 316) (Plain (Zeros [6;7]));
  (*242*) AddTo (T 316) (Plain (Einsum [(T 13,[0;1])] [0;1]));
  (*243*) Del (T 13);
  (*244*) Assign (T 14) (Plain (Zeros [6;6;7;7]));
  (*245*) AddTo (T 14) (Times (Einsum [(n_v'bbbb'ovov,[0;1;2;3])] [2;0;1;3]) (-1) 1);
  (*246*) AddTo (T 14) (Plain (Einsum [(n_v'bbbb'ovov,[0;1;2;3])] [2;0;3;1]));
  (*247*) Assign (T 15) (Plain (Zeros [6;7]));
  (*248*) AddTo (T 15) (Plain (Einsum [(n_t1'bb,[0;1]); (T 14,[0;2;3;1])] [2;3]));
  (*249*) AddTo (T 16) (Times (Einsum [(T 15,[0;1])] [0;1]) (-1) 1);
  (*250*) AddTo (T 316) (Times (Einsum [(T 15,[0;1])] [0;1]) (-1) 1);
  (*251*) Del (T 15);
  (*252*) Assign (T 317) (Plain (Zeros [7;7]));
  (*253*) AddTo (T 317) (Times (Einsum [(n_t1'bb,[0;1]); (T 316,[0;2])] [1;2]) (-1) 1);
  (*254*) Del (T 316);
  (*255*) Assign (T 49) (Plain (Zeros [6;6]));
  (*256*) AddTo (T 49) (Plain (Einsum [(n_t2'bbbb,[0;1;2;3]); (T 14,[0;4;3;2])] [4;1]));
  (*257*) Assign (T 53) (Plain (Zeros [6;6]));
  (*258*) AddTo (T 53) (Times (Einsum [(T 49,[0;1])] [0;1]) (-1) 1);
  (*259*) Del (T 49);
  (*260*) Assign (T 211) (Plain (Zeros [7;7]));
  (*261*) AddTo (T 211) (Plain (Einsum [(n_t2'bbbb,[0;1;2;3]); (T 14,[0;1;4;2])] [4;3]));
  (*262*) Assign (T 214) (Plain (Zeros [7;7]));
  (*263*) AddTo (T 214) (Times (Einsum [(T 211,[0;1])] [1;0]) (-1) 1);
  (*264*) Del (T 211);
  (*265*) Assign (T 216) (Plain (Zeros [6;6]));
  (*266*) AddTo (T 216) (Plain (Einsum [(n_t2'bbbb,[0;1;2;3]); (T 14,[0;4;2;3])] [4;1]));
  (*267*) Assign (T 218) (Plain (Zeros [6;6]));
  (*268*) AddTo (T 218) (Times (Einsum [(T 216,[0;1])] [0;1]) (-1) 1);
  (*269*) Del (T 216);
  (*270*) Assign (T 278) (Plain (Zeros [7;7]));
  (*271*) AddTo (T 278) (Plain (Einsum [(n_t2'bbbb,[0;1;2;3]); (T 14,[0;1;2;4])] [4;3]));
  (*272*) Assign (T 279) (Plain (Zeros [7;7]));
  (*273*) AddTo (T 279) (Times (Einsum [(T 278,[0;1])] [1;0]) (-1) 1);
  (*274*) AddTo (T 317) (Times (Einsum [(T 278,[0;1])] [1;0]) (-1) 1);
  (*275*) Del (T 278);
  (*276*) Assign (T 305) (Plain (Zeros [3;6;7]));
  (*277*) AddTo (T 305) (Plain (Einsum [(n_u11'bb,[0;1;2]); (T 14,[1;3;4;2])] [0;3;4]));
  (*278*) Assign (T 306) (Plain (Zeros [3;6;7]));
  (*279*) AddTo (T 306) (Times (Einsum [(T 305,[0;1;2])] [0;1;2]) (-1) 1);
  (*280*) Del (T 305);
  (*281*) AddTo (T 16) (Plain (Einsum [(n_f'bb'ov,[0;1])] [0;1]));
  (*282*) Assign (T 52) (Plain (Zeros [6;6]));
  (*283*) AddTo (T 52) (Plain (Einsum [(n_t1'bb,[0;1]); (T 16,[2;1])] [0;2]));
  (*284*) AddTo (T 53) (Plain (Einsum [(T 52,[0;1])] [1;0]));
  (*285*) Del (T 52);
  (*286*) Assign (T 287) (Plain (Zeros [4;6;6;5]));
  (*287*) AddTo (T 287) (Plain (Einsum [(T 16,[0;1]); (n_t2'abab,[2;3;4;1])] [2;3;0;4]));
  (*288*) AddTo (T 290) (Plain (Einsum [(T 287,[0;1;2;3])] [0;2;1;3]));
  (*289*) Del (T 287);
  (*290*) AddTo n_t1new_aa (Plain (Einsum [(T 16,[0;1]); (n_t2'abab,[2;0;3;1])] [2;3]));
  (*291*) Assign (T 17) (Plain (Zeros [4;4;5;5]));
  (*292*) AddTo (T 17) (Plain (Einsum [(n_v'aaaa'ovvo,[0;1;2;3])] [0;3;2;1]));
  (*293*) SubFrom (T 17) (Plain (Einsum [(n_v'aaaa'oovv,[0;1;2;3])] [0;1;2;3]));
  (*294*) Assign (T 74) (Plain (Zeros [4;4;4;5]));
  (*295*) AddTo (T 74) (Plain (Einsum [(n_t1'aa,[0;1]); (T 17,[2;3;4;1])] [0;2;3;4]));
  (*296*) Assign (T 75) (Plain (Zeros [4;4;4;5]));
  (*297*) SubFrom (T 75) (Plain (Einsum [(T 74,[0;1;2;3])] [1;0;2;3]));
  (*298*) Del (T 74);
  (*299*) AddTo n_t1new_aa (Plain (Einsum [(n_t1'aa,[0;1]); (T 17,[0;2;3;1])] [2;3]));
  (*300*) Assign n_u11new_aa (Plain (Zeros [3;4;5]));
  (*301*) AddTo n_u11new_aa (Plain (Einsum [(n_u11'aa,[0;1;2]); (T 17,[1;3;4;2])] [0;3;4]));
  (*302*) Assign (T 18) (Plain (Zeros [3;4;4]));
  (*303*) AddTo (T 18) (Plain (Einsum [(n_t1'aa,[0;1]); (n_g'aa'bov,[2;3;1])] [2;3;0]));
  (*304*) Assign (T 19) (Plain (Zeros [3;4;4]));
  (*305*) AddTo (T 19) (Plain (Einsum [(T 18,[0;1;2])] [0;1;2]));
  (*306*) Del (T 18);
  (*307*) AddTo (T 19) (Plain (Einsum [(n_g'aa'boo,[0;1;2])] [0;1;2]));
  (*308*) Assign (T 83) (Plain (Zeros [3;4;5]));
  (*309*) AddTo (T 83) (Plain (Einsum [(n_t1'aa,[0;1]); (T 19,[2;0;3])] [2;3;1]));
  (*310*) Assign (T 84) (Plain (Zeros [3;4;5]));
  (*311*) SubFrom (T 84) (Plain (Einsum [(T 83,[0;1;2])] [0;1;2]));
  (*312*) Del (T 83);
  (*313*) SubFrom n_t1new_aa (Plain (Einsum [(n_u11'aa,[0;1;2]); (T 19,[0;1;3])] [3;2]));
  (*314*) Del (T 19);
  (*315*) Assign (T 20) (Plain (Zeros [4;4]));
  (*316*) AddTo (T 20) (Plain (Einsum [(n_s1,[0]); (n_g'aa'boo,[0;1;2])] [1;2]));
  (*317*) AddTo (T 28) (Plain (Einsum [(T 20,[0;1])] [0;1]));
  (*318*) Assign (T 78) (Plain (Zeros [4;4]));
  (*319*) AddTo (T 78) (Plain (Einsum [(T 20,[0;1])] [1;0]));
  (*320*) Del (T 20);
  (*321*) Assign (T 21) (Plain (Zeros [4;4]));
  (*322*) AddTo (T 21) (Plain (Einsum [(n_g'aa'bov,[0;1;2]); (n_u11'aa,[0;3;2])] [1;3]));
  (*323*) AddTo (T 28) (Plain (Einsum [(T 21,[0;1])] [0;1]));
  (*324*) Assign (T 91) (Plain (Zeros [4;4]));
  (*325*) AddTo (T 91) (Plain (Einsum [(T 21,[0;1])] [0;1]));
  (*326*) Del (T 21);
  (*327*) Assign (T 22) (Plain (Zeros [4;4]));
  (*328*) AddTo (T 22) (Plain (Einsum [(n_t1'bb,[0;1]); (n_v'aabb'ooov,[2;3;0;1])] [2;3]));
  (*329*) AddTo (T 28) (Plain (Einsum [(T 22,[0;1])] [0;1]));
  (*330*) AddTo (T 91) (Plain (Einsum [(T 22,[0;1])] [0;1]));
  (*331*) Del (T 22);
  (*332*) Assign (T 92) (Plain (Zeros [4;4;5;5]));
  (*333*) AddTo (T 92) (Plain (Einsum [(T 91,[0;1]); (n_t2'aaaa,[0;2;3;4])] [2;1;3;4]));
  (*334*) Del (T 91);
  (*335*) Assign (T 93) (Plain (Zeros [4;4;5;5]));
  (*336*) SubFrom (T 93) (Plain (Einsum [(T 92,[0;1;2;3])] [0;1;3;2]));
  (*337*) Del (T 92);
  (*338*) Assign (T 23) (Plain (Zeros [4;4]));
  (*339*) AddTo (T 23) (Plain (Einsum [(n_t2'abab,[0;1;2;3]); (n_v'aabb'ovov,[4;2;1;3])] [0;4]));
  (*340*) AddTo (T 28) (Plain (Einsum [(T 23,[0;1])] [1;0]));
  (*341*) AddTo (T 129) (Plain (Einsum [(T 23,[0;1])] [1;0]));
  (*342*) Del (T 23);
  (*343*) Assign (T 25) (Plain (Zeros [4;4;4;5]));
  (*344*) AddTo (T 25) (Plain (Einsum [(n_v'aaaa'ooov,[0;1;2;3])] [0;2;1;3]));
  (*345*) AddTo (T 25) (Times (Einsum [(n_v'aaaa'ooov,[0;1;2;3])] [2;0;1;3]) (-1) 1);
  (*346*) Assign (T 26) (Plain (Zeros [4;4]));
  (*347*) AddTo (T 26) (Plain (Einsum [(n_t1'aa,[0;1]); (T 25,[0;2;3;1])] [2;3]));
  (*348*) AddTo (T 28) (Times (Einsum [(T 26,[0;1])] [0;1]) (-1) 1);
  (*349*) AddTo (T 129) (Times (Einsum [(T 26,[0;1])] [0;1]) (-1) 1);
  (*350*) Del (T 26);
  (*351*) Assign (T 130) (Plain (Zeros [4;4;5;5]));
  (*352*) AddTo (T 130) (Plain (Einsum [(T 129,[0;1]); (n_t2'aaaa,[0;2;3;4])] [2;1;3;4]));
  (*353*) Del (T 129);
  (*354*) AddTo (T 131) (Plain (Einsum [(T 130,[0;1;2;3])] [0;1;3;2]));
  (*355*) Del (T 130);
  (*356*) Assign (T 310) (Plain (Zeros [3;4;4]));
  (*357*) AddTo (T 310) (Times (Einsum [(n_u11'aa,[0;1;2]); (T 25,[1;3;4;2])] [0;3;4]) (-1) 1);
  (*358*) Del (T 25);
  (*359*) AddTo (T 28) (Plain (Einsum [(n_f'aa'oo,[0;1])] [0;1]));
  (*360*) Assign (T 292) (Plain (Zeros [4;6;5;7]));
  (*361*) AddTo (T 292) (Plain (Einsum [(T 28,[0;1]); (n_t2'abab,[0;2;3;4])] [1;2;3;4]));
  (*362*) Assign n_t2new_baba (Plain (Zeros [6;4;7;5]));
  (*363*) AddTo n_t2new_baba (Times (Einsum [(T 292,[0;1;2;3])] [1;0;3;2]) (-1) 1);
  (*364*) Assign n_t2new_abab (Plain (Zeros [4;6;5;7]));
  (*365*) AddTo n_t2new_abab (Times (Einsum [(T 292,[0;1;2;3])] [0;1;2;3]) (-1) 1);
  (*366*) Del (T 292);
  (*367*) AddTo n_t1new_aa (Times (Einsum [(n_t1'aa,[0;1]); (T 28,[0;2])] [2;1]) (-1) 1);
  (*368*) AddTo n_u11new_aa (Times (Einsum [(T 28,[0;1]); (n_u11'aa,[2;0;3])] [2;1;3]) (-1) 1);
  (*369*) Del (T 28);
  (*370*) Assign (T 29) (Plain (Zeros [5;5]));
  (*371*) AddTo (T 29) (Plain (Einsum [(n_s1,[0]); (n_g'aa'bvv,[0;1;2])] [1;2]));
  (*372*) AddTo (T 32) (Plain (Einsum [(T 29,[0;1])] [0;1]));
  (*373*) Assign (T 86) (Plain (Zeros [5;5]));
  (*374*) AddTo (T 86) (Plain (Einsum [(T 29,[0;1])] [0;1]));
  (*375*) AddTo (T 276) (Plain (Einsum [(T 29,[0;1])] [0;1]));
  (*376*) AddTo (T 308) (Plain (Einsum [(T 29,[0;1])] [0;1]));
  (*377*) Del (T 29);
  (*378*) Assign (T 30) (Plain (Zeros [5;5]));
  (*379*) AddTo (T 30) (Plain (Einsum [(n_t1'bb,[0;1]); (n_v'bbaa'ovvv,[0;1;2;3])] [2;3]));
  (*380*) AddTo (T 32) (Plain (Einsum [(T 30,[0;1])] [0;1]));
  (*381*) Assign (T 89) (Plain (Zeros [5;5]));
  (*382*) SubFrom (T 89) (Plain (Einsum [(T 30,[0;1])] [1;0]));
  (*383*) AddTo (T 276) (Plain (Einsum [(T 30,[0;1])] [0;1]));
  (*384*) AddTo (T 308) (Plain (Einsum [(T 30,[0;1])] [0;1]));
  (*385*) Del (T 30);
  (*386*) AddTo (T 32) (Plain (Einsum [(n_f'aa'vv,[0;1])] [0;1]));
  (*387*) AddTo n_t1new_aa (Plain (Einsum [(n_t1'aa,[0;1]); (T 32,[2;1])] [0;2]));
  (*388*) Del (T 32);
  (*389*) Assign (T 33) (Plain (Zeros [3]));
  (*390*) AddTo (T 33) (Plain (Einsum [(n_t1'aa,[0;1]); (n_g'aa'bov,[2;0;1])] [2]));
  (*391*) Assign (T 35) (Plain (Zeros [3]));
  (*392*) AddTo (T 35) (Plain (Einsum [(T 33,[0])] [0]));
  (*393*) Del (T 33);
  (*394*) Assign (T 34) (Plain (Zeros [3]));
  (*395*) AddTo (T 34) (Plain (Einsum [(n_t1'bb,[0;1]); (n_g'bb'bov,[2;0;1])] [2]));
  (*396*) AddTo (T 35) (Plain (Einsum [(T 34,[0])] [0]));
  (*397*) Del (T 34);
  (*398*) AddTo (T 35) (Plain (Einsum [(n_G,[0])] [0]));
  (*399*) AddTo n_t1new_aa (Plain (Einsum [(T 35,[0]); (n_u11'aa,[0;1;2])] [1;2]));
  (*400*) AddTo n_t1new_bb (Plain (Einsum [(T 35,[0]); (n_u11'bb,[0;1;2])] [1;2]));
  (*401*) Del (T 35);
  (*402*) Assign (T 36) (Plain (Zeros [6;6;6;7]));
  (*403*) AddTo (T 36) (Plain (Einsum [(n_t1'bb,[0;1]); (n_v'bbbb'ovov,[2;1;3;4])] [0;3;2;4]));
  (*404*) Assign (T 37) (Plain (Zeros [6;6;6;7]));
  (*405*) AddTo (T 37) (Plain (Einsum [(T 36,[0;1;2;3])] [0;1;2;3]));
  (*406*) AddTo (T 37) (Times (Einsum [(T 36,[0;1;2;3])] [0;2;1;3]) (-1) 1);
  (*407*) Assign (T 152) (Plain (Zeros [6;6;6;7]));
  (*408*) SubFrom (T 152) (Plain (Einsum [(T 36,[0;1;2;3])] [0;1;2;3]));
  (*409*) AddTo (T 152) (Plain (Einsum [(T 36,[0;1;2;3])] [0;2;1;3]));
  (*410*) Assign (T 185) (Plain (Zeros [6;6;6;6]));
  (*411*) AddTo (T 185) (Plain (Einsum [(n_t1'bb,[0;1]); (T 36,[2;3;4;1])] [2;0;4;3]));
  (*412*) Assign (T 186) (Plain (Zeros [6;6;7;7]));
  (*413*) AddTo (T 186) (Plain (Einsum [(n_t2'bbbb,[0;1;2;3]); (T 185,[4;5;0;1])] [5;4;3;2]));
  (*414*) Assign (T 190) (Plain (Zeros [6;6;7;7]));
  (*415*) AddTo (T 190) (Plain (Einsum [(T 186,[0;1;2;3])] [0;1;2;3]));
  (*416*) Del (T 186);
  (*417*) Assign (T 226) (Plain (Zeros [6;6;6;7]));
  (*418*) AddTo (T 226) (Plain (Einsum [(n_t1'bb,[0;1]); (T 185,[2;3;4;0])] [2;3;4;1]));
  (*419*) Del (T 185);
  (*420*) Assign (T 227) (Plain (Zeros [6;6;7;7]));
  (*421*) AddTo (T 227) (Plain (Einsum [(n_t1'bb,[0;1]); (T 226,[2;3;0;4])] [2;3;1;4]));
  (*422*) Del (T 226);
  (*423*) Assign (T 231) (Plain (Zeros [6;6;7;7]));
  (*424*) AddTo (T 231) (Plain (Einsum [(T 227,[0;1;2;3])] [0;1;2;3]));
  (*425*) Del (T 227);
  (*426*) Assign (T 283) (Plain (Zeros [6;6;6;7]));
  (*427*) AddTo (T 283) (Times (Einsum [(T 36,[0;1;2;3])] [1;2;0;3]) (-1) 1);
  (*428*) AddTo (T 283) (Plain (Einsum [(T 36,[0;1;2;3])] [2;1;0;3]));
  (*429*) Del (T 36);
  (*430*) AddTo (T 37) (Times (Einsum [(n_v'bbbb'ooov,[0;1;2;3])] [1;0;2;3]) (-1) 1);
  (*431*) AddTo (T 37) (Plain (Einsum [(n_v'bbbb'ooov,[0;1;2;3])] [1;2;0;3]));
  (*432*) AddTo n_t1new_bb (Times (Einsum [(n_t2'bbbb,[0;1;2;3]); (T 37,[4;0;1;2])] [4;3]) (-1) 1);
  (*433*) Del (T 37);
  (*434*) Assign (T 38) (Plain (Zeros [6;7;7;7]));
  (*435*) AddTo (T 38) (Plain (Einsum [(n_v'bbbb'ovvv,[0;1;2;3])] [0;2;1;3]));
  (*436*) AddTo (T 38) (Times (Einsum [(n_v'bbbb'ovvv,[0;1;2;3])] [0;2;3;1]) (-1) 1);
  (*437*) Assign (T 56) (Plain (Zeros [7;7]));
  (*438*) AddTo (T 56) (Plain (Einsum [(n_t1'bb,[0;1]); (T 38,[0;2;3;1])] [2;3]));
  (*439*) Assign (T 57) (Plain (Zeros [7;7]));
  (*440*) AddTo (T 57) (Times (Einsum [(T 56,[0;1])] [0;1]) (-1) 1);
  (*441*) AddTo (T 279) (Times (Einsum [(T 56,[0;1])] [0;1]) (-1) 1);
  (*442*) AddTo (T 317) (Times (Einsum [(T 56,[0;1])] [0;1]) (-1) 1);
  (*443*) Del (T 56);
  (*444*) Assign (T 196) (Plain (Zeros [6;6;7;7]));
  (*445*) AddTo (T 196) (Plain (Einsum [(n_t1'bb,[0;1]); (T 38,[2;3;1;4])] [0;2;3;4]));
  (*446*) AddTo n_t1new_bb (Times (Einsum [(n_t2'bbbb,[0;1;2;3]); (T 38,[0;4;3;2])] [1;4]) (-1) 1);
  (*447*) Del (T 38);
  (*448*) Assign (T 39) (Plain (Zeros [4;6;6;5]));
  (*449*) AddTo (T 39) (Plain (Einsum [(n_t1'bb,[0;1]); (n_v'aabb'ovov,[2;3;4;1])] [2;0;4;3]));
  (*450*) Assign (T 40) (Plain (Zeros [4;6;6;5]));
  (*451*) AddTo (T 40) (Plain (Einsum [(T 39,[0;1;2;3])] [0;2;1;3]));
  (*452*) Assign (T 204) (Plain (Zeros [6;6;6;7]));
  (*453*) AddTo (T 204) (Plain (Einsum [(n_t2'abab,[0;1;2;3]); (T 39,[0;4;5;2])] [4;1;5;3]));
  (*454*) AddTo (T 209) (Plain (Einsum [(T 204,[0;1;2;3])] [0;2;1;3]));
  (*455*) Del (T 204);
  (*456*) Assign (T 253) (Plain (Zeros [4;6;6;5]));
  (*457*) AddTo (T 253) (Plain (Einsum [(T 39,[0;1;2;3])] [0;2;1;3]));
  (*458*) Del (T 39);
  (*459*) AddTo (T 40) (Plain (Einsum [(n_v'aabb'ovoo,[0;1;2;3])] [0;2;3;1]));
  (*460*) Assign (T 265) (Plain (Zeros [4;4;6;7]));
  (*461*) AddTo (T 265) (Plain (Einsum [(n_t2'abab,[0;1;2;3]); (T 40,[4;1;5;2])] [0;4;5;3]));
  (*462*) AddTo (T 272) (Times (Einsum [(T 265,[0;1;2;3])] [1;0;2;3]) (-1) 1);
  (*463*) Del (T 265);
  (*464*) Assign (T 267) (Plain (Zeros [4;4;6;6]));
  (*465*) AddTo (T 267) (Plain (Einsum [(n_t1'aa,[0;1]); (T 40,[2;3;4;1])] [0;2;3;4]));
  (*466*) Assign (T 268) (Plain (Zeros [4;4;6;6]));
  (*467*) AddTo (T 268) (Plain (Einsum [(T 267,[0;1;2;3])] [1;0;2;3]));
  (*468*) Del (T 267);
  (*469*) AddTo n_t1new_bb (Times (Einsum [(n_t2'abab,[0;1;2;3]); (T 40,[0;1;4;2])] [4;3]) (-1) 1);
  (*470*) Assign (T 41) (Plain (Zeros [6;6;7;7]));
  (*471*) SubFrom (T 41) (Plain (Einsum [(n_t2'bbbb,[0;1;2;3])] [1;0;2;3]));
  (*472*) AddTo (T 41) (Plain (Einsum [(n_t2'bbbb,[0;1;2;3])] [1;0;3;2]));
  (*473*) Assign (T 166) (Plain (Zeros [3;6;7]));
  (*474*) AddTo (T 166) (Plain (Einsum [(n_g'bb'bov,[0;1;2]); (T 41,[1;3;4;2])] [0;3;4]));
  (*475*) Assign (T 168) (Plain (Zeros [3;6;7]));
  (*476*) SubFrom (T 168) (Plain (Einsum [(T 166,[0;1;2])] [0;1;2]));
  (*477*) Del (T 166);
  (*478*) AddTo n_t1new_bb (Times (Einsum [(T 16,[0;1]); (T 41,[0;2;3;1])] [2;3]) (-1) 1);
  (*479*) Del (T 16);
  (*480*) Assign (T 42) (Plain (Zeros [6;6;7;7]));
  (*481*) AddTo (T 42) (Plain (Einsum [(n_v'bbbb'ovvo,[0;1;2;3])] [0;3;2;1]));
  (*482*) SubFrom (T 42) (Plain (Einsum [(n_v'bbbb'oovv,[0;1;2;3])] [0;1;2;3]));
  (*483*) Assign (T 148) (Plain (Zeros [6;6;7;7]));
  (*484*) AddTo (T 148) (Plain (Einsum [(T 41,[0;1;2;3]); (T 42,[0;4;5;3])] [1;4;2;5]));
  (*485*) Assign (T 177) (Plain (Zeros [6;6;7;7]));
  (*486*) SubFrom (T 177) (Plain (Einsum [(T 148,[0;1;2;3])] [0;1;2;3]));
  (*487*) Del (T 148);
  (*488*) Assign (T 158) (Plain (Zeros [6;6;6;7]));
  (*489*) AddTo (T 158) (Plain (Einsum [(n_t1'bb,[0;1]); (T 42,[2;3;4;1])] [0;2;3;4]));
  (*490*) Assign (T 159) (Plain (Zeros [6;6;6;7]));
  (*491*) SubFrom (T 159) (Plain (Einsum [(T 158,[0;1;2;3])] [1;0;2;3]));
  (*492*) Del (T 158);
  (*493*) AddTo n_t1new_bb (Plain (Einsum [(n_t1'bb,[0;1]); (T 42,[0;2;3;1])] [2;3]));
  (*494*) Assign n_u11new_bb (Plain (Zeros [3;6;7]));
  (*495*) AddTo n_u11new_bb (Plain (Einsum [(n_u11'bb,[0;1;2]); (T 42,[1;3;4;2])] [0;3;4]));
  (*496*) Del (T 42);
  (*497*) Assign (T 43) (Plain (Zeros [3;6;6]));
  (*498*) AddTo (T 43) (Plain (Einsum [(n_t1'bb,[0;1]); (n_g'bb'bov,[2;3;1])] [2;3;0]));
  (*499*) Assign (T 44) (Plain (Zeros [3;6;6]));
  (*500*) AddTo (T 44) (Plain (Einsum [(T 43,[0;1;2])] [0;1;2]));
  (*501*) Del (T 43);
  (*502*) AddTo (T 44) (Plain (Einsum [(n_g'bb'boo,[0;1;2])] [0;1;2]));
  (*503*) Assign (T 167) (Plain (Zeros [3;6;7]));
  (*504*) AddTo (T 167) (Plain (Einsum [(n_t1'bb,[0;1]); (T 44,[2;0;3])] [2;3;1]));
  (*505*) SubFrom (T 168) (Plain (Einsum [(T 167,[0;1;2])] [0;1;2]));
  (*506*) Del (T 167);
  (*507*) SubFrom n_t1new_bb (Plain (Einsum [(n_u11'bb,[0;1;2]); (T 44,[0;1;3])] [3;2]));
  (*508*) Del (T 44);
  (*509*) Assign (T 45) (Plain (Zeros [6;6]));
  (*510*) AddTo (T 45) (Plain (Einsum [(n_s1,[0]); (n_g'bb'boo,[0;1;2])] [1;2]));
  (*511*) AddTo (T 53) (Plain (Einsum [(T 45,[0;1])] [0;1]));
  (*512*) Assign (T 162) (Plain (Zeros [6;6]));
  (*513*) AddTo (T 162) (Plain (Einsum [(T 45,[0;1])] [1;0]));
  (*514*) Del (T 45);
  (*515*) Assign (T 46) (Plain (Zeros [6;6]));
  (*516*) AddTo (T 46) (Plain (Einsum [(n_g'bb'bov,[0;1;2]); (n_u11'bb,[0;3;2])] [1;3]));
  (*517*) AddTo (T 53) (Plain (Einsum [(T 46,[0;1])] [0;1]));
  (*518*) Assign (T 175) (Plain (Zeros [6;6]));
  (*519*) AddTo (T 175) (Plain (Einsum [(T 46,[0;1])] [0;1]));
  (*520*) Del (T 46);
  (*521*) Assign (T 47) (Plain (Zeros [6;6]));
  (*522*) AddTo (T 47) (Plain (Einsum [(n_t1'aa,[0;1]); (n_v'aabb'ovoo,[0;1;2;3])] [2;3]));
  (*523*) AddTo (T 53) (Plain (Einsum [(T 47,[0;1])] [0;1]));
  (*524*) AddTo (T 175) (Plain (Einsum [(T 47,[0;1])] [0;1]));
  (*525*) Del (T 47);
  (*526*) Assign (T 176) (Plain (Zeros [6;6;7;7]));
  (*527*) AddTo (T 176) (Plain (Einsum [(T 175,[0;1]); (n_t2'bbbb,[0;2;3;4])] [2;1;3;4]));
  (*528*) Del (T 175);
  (*529*) SubFrom (T 177) (Plain (Einsum [(T 176,[0;1;2;3])] [0;1;3;2]));
  (*530*) Del (T 176);
  (*531*) Assign (T 48) (Plain (Zeros [6;6]));
  (*532*) AddTo (T 48) (Plain (Einsum [(n_t2'abab,[0;1;2;3]); (n_v'aabb'ovov,[0;2;4;3])] [1;4]));
  (*533*) AddTo (T 53) (Plain (Einsum [(T 48,[0;1])] [1;0]));
  (*534*) AddTo (T 221) (Plain (Einsum [(T 48,[0;1])] [0;1]));
  (*535*) Del (T 48);
  (*536*) Assign (T 222) (Plain (Zeros [6;6;7;7]));
  (*537*) AddTo (T 222) (Plain (Einsum [(T 221,[0;1]); (n_t2'bbbb,[1;2;3;4])] [2;0;3;4]));
  (*538*) Del (T 221);
  (*539*) Assign (T 223) (Plain (Zeros [6;6;7;7]));
  (*540*) AddTo (T 223) (Times (Einsum [(T 222,[0;1;2;3])] [1;0;3;2]) (-1) 1);
  (*541*) Del (T 222);
  (*542*) Assign (T 50) (Plain (Zeros [6;6;6;7]));
  (*543*) AddTo (T 50) (Plain (Einsum [(n_v'bbbb'ooov,[0;1;2;3])] [0;2;1;3]));
  (*544*) AddTo (T 50) (Times (Einsum [(n_v'bbbb'ooov,[0;1;2;3])] [2;0;1;3]) (-1) 1);
  (*545*) Assign (T 51) (Plain (Zeros [6;6]));
  (*546*) AddTo (T 51) (Plain (Einsum [(n_t1'bb,[0;1]); (T 50,[0;2;3;1])] [2;3]));
  (*547*) AddTo (T 53) (Times (Einsum [(T 51,[0;1])] [0;1]) (-1) 1);
  (*548*) Del (T 51);
  (*549*) Assign (T 217) (Plain (Zeros [6;6]));
  (*550*) AddTo (T 217) (Plain (Einsum [(n_t1'bb,[0;1]); (T 50,[2;0;3;1])] [2;3]));
  (*551*) AddTo (T 218) (Times (Einsum [(T 217,[0;1])] [0;1]) (-1) 1);
  (*552*) Del (T 217);
  (*553*) Assign (T 219) (Plain (Zeros [6;6;7;7]));
  (*554*) AddTo (T 219) (Plain (Einsum [(T 218,[0;1]); (n_t2'bbbb,[0;2;3;4])] [2;1;3;4]));
  (*555*) Del (T 218);
  (*556*) AddTo (T 223) (Times (Einsum [(T 219,[0;1;2;3])] [0;1;3;2]) (-1) 1);
  (*557*) Del (T 219);
  (*558*) Assign (T 319) (Plain (Zeros [3;6;6]));
  (*559*) AddTo (T 319) (Times (Einsum [(n_u11'bb,[0;1;2]); (T 50,[1;3;4;2])] [0;3;4]) (-1) 1);
  (*560*) Del (T 50);
  (*561*) AddTo (T 53) (Plain (Einsum [(n_f'bb'oo,[0;1])] [0;1]));
  (*562*) Assign (T 293) (Plain (Zeros [4;6;5;7]));
  (*563*) AddTo (T 293) (Plain (Einsum [(T 53,[0;1]); (n_t2'abab,[2;0;3;4])] [2;1;3;4]));
  (*564*) AddTo n_t2new_baba (Times (Einsum [(T 293,[0;1;2;3])] [1;0;3;2]) (-1) 1);
  (*565*) AddTo n_t2new_abab (Times (Einsum [(T 293,[0;1;2;3])] [0;1;2;3]) (-1) 1);
  (*566*) Del (T 293);
  (*567*) AddTo n_t1new_bb (Times (Einsum [(n_t1'bb,[0;1]); (T 53,[0;2])] [2;1]) (-1) 1);
  (*568*) AddTo n_u11new_bb (Times (Einsum [(T 53,[0;1]); (n_u11'bb,[2;0;3])] [2;1;3]) (-1) 1);
  (*569*) Del (T 53);
  (*570*) Assign (T 54) (Plain (Zeros [7;7]));
  (*571*) AddTo (T 54) (Plain (Einsum [(n_s1,[0]); (n_g'bb'bvv,[0;1;2])] [1;2]));
  (*572*) AddTo (T 57) (Plain (Einsum [(T 54,[0;1])] [0;1]));
  (*573*) Assign (T 170) (Plain (Zeros [7;7]));
  (*574*) AddTo (T 170) (Plain (Einsum [(T 54,[0;1])] [0;1]));
  (*575*) AddTo (T 279) (Plain (Einsum [(T 54,[0;1])] [0;1]));
  (*576*) AddTo (T 317) (Plain (Einsum [(T 54,[0;1])] [0;1]));
  (*577*) Del (T 54);
  (*578*) Assign (T 55) (Plain (Zeros [7;7]));
  (*579*) AddTo (T 55) (Plain (Einsum [(n_t1'aa,[0;1]); (n_v'aabb'ovvv,[0;1;2;3])] [2;3]));
  (*580*) AddTo (T 57) (Plain (Einsum [(T 55,[0;1])] [0;1]));
  (*581*) Assign (T 173) (Plain (Zeros [7;7]));
  (*582*) SubFrom (T 173) (Plain (Einsum [(T 55,[0;1])] [1;0]));
  (*583*) AddTo (T 279) (Plain (Einsum [(T 55,[0;1])] [0;1]));
  (*584*) AddTo (T 317) (Plain (Einsum [(T 55,[0;1])] [0;1]));
  (*585*) Del (T 55);
  (*586*) AddTo (T 57) (Plain (Einsum [(n_f'bb'vv,[0;1])] [0;1]));
  (*587*) AddTo n_t1new_bb (Plain (Einsum [(n_t1'bb,[0;1]); (T 57,[2;1])] [0;2]));
  (*588*) Del (T 57);
  (*589*) Assign (T 58) (Plain (Zeros [4;4;5;5]));
  (*590*) AddTo (T 58) (Plain (Einsum [(n_t1'aa,[0;1]); (n_v'aaaa'vovv,[2;3;4;1])] [0;3;2;4]));
  (*591*) SubFrom (T 93) (Plain (Einsum [(T 58,[0;1;2;3])] [0;1;2;3]));
  (*592*) Del (T 58);
  (*593*) Assign (T 59) (Plain (Zeros [4;4;5;5]));
  (*594*) AddTo (T 59) (Plain (Einsum [(n_t2'abab,[0;1;2;3]); (n_v'bbaa'ovvo,[1;3;4;5])] [0;5;2;4]));
  (*595*) AddTo (T 93) (Plain (Einsum [(T 59,[0;1;2;3])] [0;1;2;3]));
  (*596*) Del (T 59);
  (*597*) Assign (T 60) (Plain (Zeros [4;6;5;7]));
  (*598*) AddTo (T 60) (Plain (Einsum [(n_t1'aa,[0;1]); (n_v'bbaa'ovvv,[2;3;4;1])] [0;2;4;3]));
  (*599*) Assign (T 61) (Plain (Zeros [4;4;5;5]));
  (*600*) AddTo (T 61) (Plain (Einsum [(n_t2'abab,[0;1;2;3]); (T 60,[4;1;5;3])] [4;0;2;5]));
  (*601*) SubFrom (T 93) (Plain (Einsum [(T 61,[0;1;2;3])] [0;1;2;3]));
  (*602*) Del (T 61);
  (*603*) Assign (T 242) (Plain (Zeros [4;6;5;7]));
  (*604*) AddTo (T 242) (Plain (Einsum [(T 60,[0;1;2;3])] [0;1;2;3]));
  (*605*) Del (T 60);
  (*606*) Assign (T 62) (Plain (Zeros [4;4;5;5]));
  (*607*) AddTo (T 62) (Plain (Einsum [(n_t2'aaaa,[0;1;2;3])] [1;0;2;3]));
  (*608*) SubFrom (T 62) (Plain (Einsum [(n_t2'aaaa,[0;1;2;3])] [1;0;3;2]));
  (*609*) Assign (T 63) (Plain (Zeros [4;4;5;5]));
  (*610*) AddTo (T 63) (Plain (Einsum [(T 17,[0;1;2;3]); (T 62,[0;4;3;5])] [1;4;2;5]));
  (*611*) Del (T 17);
  (*612*) Del (T 62);
  (*613*) SubFrom (T 93) (Plain (Einsum [(T 63,[0;1;2;3])] [1;0;3;2]));
  (*614*) Del (T 63);
  (*615*) Assign (T 64) (Plain (Zeros [4;4;5;5]));
  (*616*) SubFrom (T 64) (Plain (Einsum [(n_v'aaaa'ovov,[0;1;2;3])] [2;0;1;3]));
  (*617*) AddTo (T 64) (Plain (Einsum [(n_v'aaaa'ovov,[0;1;2;3])] [2;0;3;1]));
  (*618*) Assign (T 65) (Plain (Zeros [4;4;5;5]));
  (*619*) AddTo (T 65) (Plain (Einsum [(n_t2'aaaa,[0;1;2;3]); (T 64,[0;4;5;3])] [1;4;2;5]));
  (*620*) Assign (T 66) (Plain (Zeros [4;4;5;5]));
  (*621*) SubFrom (T 66) (Plain (Einsum [(n_t2'aaaa,[0;1;2;3]); (T 65,[4;0;5;2])] [1;4;3;5]));
  (*622*) SubFrom (T 93) (Plain (Einsum [(T 66,[0;1;2;3])] [0;1;2;3]));
  (*623*) Del (T 66);
  (*624*) Assign (T 99) (Plain (Zeros [4;4;5;5]));
  (*625*) SubFrom (T 99) (Plain (Einsum [(n_t2'aaaa,[0;1;2;3]); (T 65,[4;0;5;3])] [1;4;2;5]));
  (*626*) Del (T 65);
  (*627*) AddTo (T 103) (Plain (Einsum [(T 99,[0;1;2;3])] [1;0;3;2]));
  (*628*) Del (T 99);
  (*629*) Assign (T 71) (Plain (Zeros [4;5]));
  (*630*) AddTo (T 71) (Plain (Einsum [(n_t1'aa,[0;1]); (T 64,[0;2;3;1])] [2;3]));
  (*631*) SubFrom (T 72) (Plain (Einsum [(T 71,[0;1])] [0;1]));
  (*632*) SubFrom (T 300) (Plain (Einsum [(T 71,[0;1])] [0;1]));
  (*633*) Del (T 71);
  (*634*) Assign (T 97) (Plain (Zeros [4;4;5;5]));
  (*635*) AddTo (T 97) (Plain (Einsum [(n_t2'aaaa,[0;1;2;3]); (T 64,[0;4;5;2])] [1;4;3;5]));
  (*636*) Assign (T 98) (Plain (Zeros [4;4;5;5]));
  (*637*) SubFrom (T 98) (Plain (Einsum [(n_t2'aaaa,[0;1;2;3]); (T 97,[4;0;5;2])] [1;4;3;5]));
  (*638*) Del (T 97);
  (*639*) AddTo (T 103) (Plain (Einsum [(T 98,[0;1;2;3])] [0;1;2;3]));
  (*640*) Del (T 98);
  (*641*) Assign (T 224) (Plain (Zeros [4;6;5;7]));
  (*642*) AddTo (T 224) (Plain (Einsum [(n_t2'abab,[0;1;2;3]); (T 64,[0;4;5;2])] [4;1;5;3]));
  (*643*) Del (T 64);
  (*644*) Assign (T 225) (Plain (Zeros [6;6;7;7]));
  (*645*) SubFrom (T 225) (Plain (Einsum [(n_t2'abab,[0;1;2;3]); (T 224,[0;4;2;5])] [1;4;3;5]));
  (*646*) Del (T 224);
  (*647*) Assign n_t2new_bbbb (Plain (Zeros [6;6;7;7]));
  (*648*) SubFrom n_t2new_bbbb (Plain (Einsum [(T 225,[0;1;2;3])] [1;0;2;3]));
  (*649*) AddTo n_t2new_bbbb (Plain (Einsum [(T 225,[0;1;2;3])] [0;1;2;3]));
  (*650*) Del (T 225);
  (*651*) Assign (T 67) (Plain (Zeros [4;4;4;5]));
  (*652*) AddTo (T 67) (Plain (Einsum [(n_t2'abab,[0;1;2;3]); (n_v'aabb'ooov,[4;5;1;3])] [0;4;5;2]));
  (*653*) AddTo (T 75) (Plain (Einsum [(T 67,[0;1;2;3])] [1;0;2;3]));
  (*654*) Del (T 67);
  (*655*) Assign (T 69) (Plain (Zeros [4;4;5;5]));
  (*656*) SubFrom (T 69) (Plain (Einsum [(n_t2'aaaa,[0;1;2;3])] [1;0;2;3]));
  (*657*) AddTo (T 69) (Plain (Einsum [(n_t2'aaaa,[0;1;2;3])] [1;0;3;2]));
  (*658*) Assign (T 70) (Plain (Zeros [4;4;4;5]));
  (*659*) AddTo (T 70) (Plain (Einsum [(T 68,[0;1;2;3]); (T 69,[2;4;5;3])] [0;1;4;5]));
  (*660*) Del (T 68);
  (*661*) AddTo (T 75) (Plain (Einsum [(T 70,[0;1;2;3])] [1;0;2;3]));
  (*662*) Del (T 70);
  (*663*) Assign (T 82) (Plain (Zeros [3;4;5]));
  (*664*) AddTo (T 82) (Plain (Einsum [(n_g'aa'bov,[0;1;2]); (T 69,[1;3;4;2])] [0;3;4]));
  (*665*) Del (T 69);
  (*666*) SubFrom (T 84) (Plain (Einsum [(T 82,[0;1;2])] [0;1;2]));
  (*667*) Del (T 82);
  (*668*) AddTo (T 72) (Plain (Einsum [(n_f'aa'ov,[0;1])] [0;1]));
  (*669*) Assign (T 73) (Plain (Zeros [4;4;4;5]));
  (*670*) AddTo (T 73) (Plain (Einsum [(T 72,[0;1]); (n_t2'aaaa,[2;3;1;4])] [2;3;0;4]));
  (*671*) AddTo (T 75) (Plain (Einsum [(T 73,[0;1;2;3])] [2;1;0;3]));
  (*672*) Del (T 73);
  (*673*) Assign (T 77) (Plain (Zeros [4;4]));
  (*674*) AddTo (T 77) (Plain (Einsum [(n_t1'aa,[0;1]); (T 72,[2;1])] [0;2]));
  (*675*) Del (T 72);
  (*676*) AddTo (T 78) (Plain (Einsum [(T 77,[0;1])] [0;1]));
  (*677*) Del (T 77);
  (*678*) SubFrom (T 75) (Plain (Einsum [(n_v'aaaa'oovo,[0;1;2;3])] [0;1;3;2]));
  (*679*) Assign (T 76) (Plain (Zeros [4;4;5;5]));
  (*680*) AddTo (T 76) (Plain (Einsum [(n_t1'aa,[0;1]); (T 75,[0;2;3;4])] [2;3;1;4]));
  (*681*) Del (T 75);
  (*682*) AddTo (T 93) (Plain (Einsum [(T 76,[0;1;2;3])] [0;1;2;3]));
  (*683*) Del (T 76);
  (*684*) AddTo (T 78) (Plain (Einsum [(n_f'aa'oo,[0;1])] [1;0]));
  (*685*) Assign (T 79) (Plain (Zeros [4;4;5;5]));
  (*686*) AddTo (T 79) (Plain (Einsum [(T 78,[0;1]); (n_t2'aaaa,[1;2;3;4])] [2;0;3;4]));
  (*687*) Del (T 78);
  (*688*) AddTo (T 93) (Plain (Einsum [(T 79,[0;1;2;3])] [1;0;3;2]));
  (*689*) Del (T 79);
  (*690*) Assign (T 80) (Plain (Zeros [3;4;5]));
  (*691*) AddTo (T 80) (Plain (Einsum [(n_t1'aa,[0;1]); (n_g'aa'bvv,[2;3;1])] [2;0;3]));
  (*692*) AddTo (T 84) (Plain (Einsum [(T 80,[0;1;2])] [0;1;2]));
  (*693*) Del (T 80);
  (*694*) Assign (T 81) (Plain (Zeros [3;4;5]));
  (*695*) AddTo (T 81) (Plain (Einsum [(n_g'bb'bov,[0;1;2]); (n_t2'abab,[3;1;4;2])] [0;3;4]));
  (*696*) AddTo (T 84) (Plain (Einsum [(T 81,[0;1;2])] [0;1;2]));
  (*697*) Del (T 81);
  (*698*) AddTo (T 84) (Plain (Einsum [(n_g'aa'bvo,[0;1;2])] [0;2;1]));
  (*699*) Assign (T 85) (Plain (Zeros [4;4;5;5]));
  (*700*) AddTo (T 85) (Plain (Einsum [(n_u11'aa,[0;1;2]); (T 84,[0;3;4])] [1;3;2;4]));
  (*701*) AddTo (T 93) (Plain (Einsum [(T 85,[0;1;2;3])] [1;0;3;2]));
  (*702*) Del (T 85);
  (*703*) Assign (T 295) (Plain (Zeros [4;6;5;7]));
  (*704*) AddTo (T 295) (Plain (Einsum [(n_u11'bb,[0;1;2]); (T 84,[0;3;4])] [3;1;4;2]));
  (*705*) Del (T 84);
  (*706*) AddTo n_t2new_baba (Plain (Einsum [(T 295,[0;1;2;3])] [1;0;3;2]));
  (*707*) AddTo n_t2new_abab (Plain (Einsum [(T 295,[0;1;2;3])] [0;1;2;3]));
  (*708*) Del (T 295);
  (*709*) AddTo (T 86) (Plain (Einsum [(n_f'aa'vv,[0;1])] [0;1]));
  (*710*) Assign (T 87) (Plain (Zeros [4;4;5;5]));
  (*711*) AddTo (T 87) (Plain (Einsum [(T 86,[0;1]); (n_t2'aaaa,[2;3;1;4])] [2;3;4;0]));
  (*712*) Del (T 86);
  (*713*) SubFrom (T 93) (Plain (Einsum [(T 87,[0;1;2;3])] [1;0;3;2]));
  (*714*) Del (T 87);
  (*715*) Assign (T 88) (Plain (Zeros [5;5]));
  (*716*) AddTo (T 88) (Plain (Einsum [(n_g'aa'bov,[0;1;2]); (n_u11'aa,[0;1;3])] [2;3]));
  (*717*) AddTo (T 89) (Plain (Einsum [(T 88,[0;1])] [0;1]));
  (*718*) Assign (T 90) (Plain (Zeros [4;4;5;5]));
  (*719*) AddTo (T 90) (Plain (Einsum [(T 89,[0;1]); (n_t2'aaaa,[2;3;0;4])] [2;3;4;1]));
  (*720*) Del (T 89);
  (*721*) SubFrom (T 93) (Plain (Einsum [(T 90,[0;1;2;3])] [1;0;2;3]));
  (*722*) Del (T 90);
  (*723*) Assign n_t2new_aaaa (Plain (Zeros [4;4;5;5]));
  (*724*) AddTo n_t2new_aaaa (Plain (Einsum [(T 93,[0;1;2;3])] [0;1;2;3]));
  (*725*) SubFrom n_t2new_aaaa (Plain (Einsum [(T 93,[0;1;2;3])] [0;1;3;2]));
  (*726*) SubFrom n_t2new_aaaa (Plain (Einsum [(T 93,[0;1;2;3])] [1;0;2;3]));
  (*727*) AddTo n_t2new_aaaa (Plain (Einsum [(T 93,[0;1;2;3])] [1;0;3;2]));
  (*728*) Del (T 93);
  (*729*) AddTo (T 276) (Times (Einsum [(T 88,[0;1])] [1;0]) (-1) 1);
  (*730*) AddTo (T 308) (Times (Einsum [(T 88,[0;1])] [1;0]) (-1) 1);
  (*731*) Del (T 88);
  (*732*) Assign (T 100) (Plain (Zeros [6;6;7;7]));
  (*733*) SubFrom (T 100) (Plain (Einsum [(n_v'bbbb'ovov,[0;1;2;3])] [2;0;1;3]));
  (*734*) AddTo (T 100) (Plain (Einsum [(n_v'bbbb'ovov,[0;1;2;3])] [2;0;3;1]));
  (*735*) Assign (T 101) (Plain (Zeros [4;6;5;7]));
  (*736*) AddTo (T 101) (Plain (Einsum [(n_t2'abab,[0;1;2;3]); (T 100,[1;4;5;3])] [0;4;2;5]));
  (*737*) Assign (T 102) (Plain (Zeros [4;4;5;5]));
  (*738*) SubFrom (T 102) (Plain (Einsum [(n_t2'abab,[0;1;2;3]); (T 101,[4;1;5;3])] [0;4;2;5]));
  (*739*) Del (T 101);
  (*740*) AddTo (T 103) (Plain (Einsum [(T 102,[0;1;2;3])] [0;1;2;3]));
  (*741*) Del (T 102);
  (*742*) AddTo n_t2new_aaaa (Plain (Einsum [(T 103,[0;1;2;3])] [0;1;2;3]));
  (*743*) SubFrom n_t2new_aaaa (Plain (Einsum [(T 103,[0;1;2;3])] [0;1;3;2]));
  (*744*) Del (T 103);
  (*745*) Assign (T 149) (Plain (Zeros [6;6;7;7]));
  (*746*) AddTo (T 149) (Plain (Einsum [(n_t2'bbbb,[0;1;2;3]); (T 100,[0;4;5;3])] [1;4;2;5]));
  (*747*) Assign (T 150) (Plain (Zeros [6;6;7;7]));
  (*748*) SubFrom (T 150) (Plain (Einsum [(n_t2'bbbb,[0;1;2;3]); (T 149,[4;0;5;2])] [1;4;3;5]));
  (*749*) SubFrom (T 177) (Plain (Einsum [(T 150,[0;1;2;3])] [0;1;2;3]));
  (*750*) Del (T 150);
  (*751*) Assign (T 230) (Plain (Zeros [6;6;7;7]));
  (*752*) SubFrom (T 230) (Plain (Einsum [(n_t2'bbbb,[0;1;2;3]); (T 149,[4;0;5;3])] [1;4;2;5]));
  (*753*) Del (T 149);
  (*754*) AddTo (T 231) (Plain (Einsum [(T 230,[0;1;2;3])] [0;1;2;3]));
  (*755*) Del (T 230);
  (*756*) Assign (T 155) (Plain (Zeros [6;7]));
  (*757*) AddTo (T 155) (Plain (Einsum [(n_t1'bb,[0;1]); (T 100,[0;2;3;1])] [2;3]));
  (*758*) SubFrom (T 156) (Plain (Einsum [(T 155,[0;1])] [0;1]));
  (*759*) SubFrom (T 299) (Plain (Einsum [(T 155,[0;1])] [0;1]));
  (*760*) Del (T 155);
  (*761*) Assign (T 228) (Plain (Zeros [6;6;7;7]));
  (*762*) AddTo (T 228) (Plain (Einsum [(n_t2'bbbb,[0;1;2;3]); (T 100,[0;4;5;2])] [1;4;3;5]));
  (*763*) Del (T 100);
  (*764*) Assign (T 229) (Plain (Zeros [6;6;7;7]));
  (*765*) SubFrom (T 229) (Plain (Einsum [(n_t2'bbbb,[0;1;2;3]); (T 228,[4;0;5;2])] [1;4;3;5]));
  (*766*) Del (T 228);
  (*767*) AddTo (T 231) (Plain (Einsum [(T 229,[0;1;2;3])] [1;0;3;2]));
  (*768*) Del (T 229);
  (*769*) AddTo n_t2new_bbbb (Plain (Einsum [(T 231,[0;1;2;3])] [0;1;2;3]));
  (*770*) SubFrom n_t2new_bbbb (Plain (Einsum [(T 231,[0;1;2;3])] [0;1;3;2]));
  (*771*) Del (T 231);
  (*772*) Assign (T 104) (Plain (Zeros [4;4;4;4]));
  (*773*) AddTo (T 104) (Plain (Einsum [(n_t1'aa,[0;1]); (n_v'aaaa'ooov,[2;3;4;1])] [0;2;4;3]));
  (*774*) Assign (T 105) (Plain (Zeros [4;4;5;5]));
  (*775*) AddTo (T 105) (Plain (Einsum [(n_t2'aaaa,[0;1;2;3]); (T 104,[4;0;1;5])] [4;5;2;3]));
  (*776*) AddTo (T 131) (Plain (Einsum [(T 105,[0;1;2;3])] [0;1;2;3]));
  (*777*) Del (T 105);
  (*778*) Assign (T 119) (Plain (Zeros [4;4;4;5]));
  (*779*) AddTo (T 119) (Plain (Einsum [(n_t1'aa,[0;1]); (T 104,[2;3;0;4])] [2;3;4;1]));
  (*780*) Del (T 104);
  (*781*) AddTo (T 127) (Plain (Einsum [(T 119,[0;1;2;3])] [0;1;2;3]));
  (*782*) Del (T 119);
  (*783*) Assign (T 110) (Plain (Zeros [4;4;5;5]));
  (*784*) AddTo (T 110) (Plain (Einsum [(n_t2'abab,[0;1;2;3]); (n_v'aabb'ovov,[4;5;1;3])] [0;4;2;5]));
  (*785*) Assign (T 111) (Plain (Zeros [4;4;5;5]));
  (*786*) AddTo (T 111) (Times (Einsum [(n_t2'aaaa,[0;1;2;3])] [1;0;2;3]) (-1) 1);
  (*787*) AddTo (T 111) (Plain (Einsum [(n_t2'aaaa,[0;1;2;3])] [1;0;3;2]));
  (*788*) Assign (T 112) (Plain (Zeros [4;4;5;5]));
  (*789*) AddTo (T 112) (Plain (Einsum [(T 110,[0;1;2;3]); (T 111,[1;4;3;5])] [0;4;2;5]));
  (*790*) Del (T 110);
  (*791*) AddTo (T 131) (Times (Einsum [(T 112,[0;1;2;3])] [1;0;3;2]) (-1) 1);
  (*792*) Del (T 112);
  (*793*) Assign (T 285) (Plain (Zeros [4;6;6;5]));
  (*794*) AddTo (T 285) (Plain (Einsum [(T 111,[0;1;2;3]); (T 40,[0;4;5;3])] [1;4;5;2]));
  (*795*) Del (T 111);
  (*796*) Del (T 40);
  (*797*) AddTo (T 290) (Times (Einsum [(T 285,[0;1;2;3])] [0;1;2;3]) (-1) 1);
  (*798*) Del (T 285);
  (*799*) Assign (T 113) (Plain (Zeros [5;5]));
  (*800*) AddTo (T 113) (Plain (Einsum [(n_t2'abab,[0;1;2;3]); (n_v'aabb'ovov,[0;4;1;3])] [2;4]));
  (*801*) AddTo (T 117) (Plain (Einsum [(T 113,[0;1])] [0;1]));
  (*802*) AddTo (T 276) (Times (Einsum [(T 113,[0;1])] [0;1]) (-1) 1);
  (*803*) AddTo (T 308) (Times (Einsum [(T 113,[0;1])] [0;1]) (-1) 1);
  (*804*) Del (T 113);
  (*805*) Assign (T 115) (Plain (Zeros [4;5;5;5]));
  (*806*) AddTo (T 115) (Times (Einsum [(n_v'aaaa'ovvv,[0;1;2;3])] [0;2;1;3]) (-1) 1);
  (*807*) AddTo (T 115) (Plain (Einsum [(n_v'aaaa'ovvv,[0;1;2;3])] [0;2;3;1]));
  (*808*) Assign (T 116) (Plain (Zeros [5;5]));
  (*809*) AddTo (T 116) (Plain (Einsum [(n_t1'aa,[0;1]); (T 115,[0;2;3;1])] [2;3]));
  (*810*) Del (T 115);
  (*811*) AddTo (T 117) (Times (Einsum [(T 116,[0;1])] [0;1]) (-1) 1);
  (*812*) Del (T 116);
  (*813*) Assign (T 118) (Plain (Zeros [4;4;5;5]));
  (*814*) AddTo (T 118) (Plain (Einsum [(T 117,[0;1]); (n_t2'aaaa,[2;3;1;4])] [2;3;4;0]));
  (*815*) Del (T 117);
  (*816*) AddTo (T 131) (Plain (Einsum [(T 118,[0;1;2;3])] [1;0;2;3]));
  (*817*) Del (T 118);
  (*818*) Assign (T 120) (Plain (Zeros [4;4;4;5]));
  (*819*) AddTo (T 120) (Plain (Einsum [(n_t2'aaaa,[0;1;2;3]); (n_v'aaaa'ovvv,[4;3;5;2])] [1;0;4;5]));
  (*820*) AddTo (T 127) (Plain (Einsum [(T 120,[0;1;2;3])] [0;2;1;3]));
  (*821*) Del (T 120);
  (*822*) Assign (T 121) (Plain (Zeros [4;4;5;5]));
  (*823*) AddTo (T 121) (Plain (Einsum [(n_t1'aa,[0;1]); (n_v'aaaa'ovvv,[2;3;4;1])] [0;2;4;3]));
  (*824*) Assign (T 122) (Plain (Zeros [4;4;4;5]));
  (*825*) AddTo (T 122) (Plain (Einsum [(n_t1'aa,[0;1]); (T 121,[2;3;4;1])] [0;2;3;4]));
  (*826*) Del (T 121);
  (*827*) AddTo (T 127) (Plain (Einsum [(T 122,[0;1;2;3])] [0;2;1;3]));
  (*828*) Del (T 122);
  (*829*) Assign (T 125) (Plain (Zeros [4;4;4;5]));
  (*830*) AddTo (T 125) (Times (Einsum [(n_v'aaaa'ooov,[0;1;2;3])] [0;2;1;3]) (-1) 1);
  (*831*) AddTo (T 125) (Plain (Einsum [(n_v'aaaa'ooov,[0;1;2;3])] [2;0;1;3]));
  (*832*) Assign (T 126) (Plain (Zeros [4;4;4;5]));
  (*833*) AddTo (T 126) (Plain (Einsum [(T 11,[0;1;2;3]); (T 125,[0;4;5;2])] [1;4;5;3]));
  (*834*) Del (T 125);
  (*835*) AddTo (T 127) (Plain (Einsum [(T 126,[0;1;2;3])] [0;1;2;3]));
  (*836*) Del (T 126);
  (*837*) Assign (T 128) (Plain (Zeros [4;4;5;5]));
  (*838*) AddTo (T 128) (Plain (Einsum [(n_t1'aa,[0;1]); (T 127,[2;0;3;4])] [2;3;1;4]));
  (*839*) Del (T 127);
  (*840*) AddTo (T 131) (Plain (Einsum [(T 128,[0;1;2;3])] [0;1;2;3]));
  (*841*) Del (T 128);
  (*842*) AddTo n_t2new_aaaa (Times (Einsum [(T 131,[0;1;2;3])] [0;1;2;3]) (-1) 1);
  (*843*) AddTo n_t2new_aaaa (Plain (Einsum [(T 131,[0;1;2;3])] [0;1;3;2]));
  (*844*) AddTo n_t2new_aaaa (Plain (Einsum [(T 131,[0;1;2;3])] [1;0;2;3]));
  (*845*) AddTo n_t2new_aaaa (Times (Einsum [(T 131,[0;1;2;3])] [1;0;3;2]) (-1) 1);
  (*846*) Del (T 131);
  (*847*) Assign (T 132) (Plain (Zeros [4;5;5;5]));
  (*848*) AddTo (T 132) (Plain (Einsum [(n_t1'aa,[0;1]); (n_v'aaaa'vvvv,[2;3;4;1])] [0;2;4;3]));
  (*849*) Assign (T 133) (Plain (Zeros [4;4;5;5]));
  (*850*) AddTo (T 133) (Plain (Einsum [(n_t1'aa,[0;1]); (T 132,[2;3;4;1])] [0;2;3;4]));
  (*851*) Del (T 132);
  (*852*) Assign (T 140) (Plain (Zeros [4;4;5;5]));
  (*853*) AddTo (T 140) (Plain (Einsum [(T 133,[0;1;2;3])] [0;1;2;3]));
  (*854*) Del (T 133);
  (*855*) Assign (T 134) (Plain (Zeros [4;4;4;4]));
  (*856*) AddTo (T 134) (Plain (Einsum [(n_t2'aaaa,[0;1;2;3]); (n_v'aaaa'ovov,[4;3;5;2])] [0;1;5;4]));
  (*857*) AddTo (T 135) (Plain (Einsum [(T 134,[0;1;2;3])] [1;0;3;2]));
  (*858*) Assign (T 136) (Plain (Zeros [4;4;5;5]));
  (*859*) AddTo (T 136) (Plain (Einsum [(n_t2'aaaa,[0;1;2;3]); (T 135,[4;5;1;0])] [4;5;2;3]));
  (*860*) Del (T 135);
  (*861*) AddTo (T 140) (Plain (Einsum [(T 136,[0;1;2;3])] [1;0;2;3]));
  (*862*) Del (T 136);
  (*863*) Assign (T 137) (Plain (Zeros [4;4;4;4]));
  (*864*) AddTo (T 137) (Plain (Einsum [(T 134,[0;1;2;3])] [3;2;1;0]));
  (*865*) Del (T 134);
  (*866*) AddTo (T 137) (Plain (Einsum [(n_v'aaaa'oooo,[0;1;2;3])] [2;0;3;1]));
  (*867*) Assign (T 138) (Plain (Zeros [4;4;4;5]));
  (*868*) AddTo (T 138) (Plain (Einsum [(n_t1'aa,[0;1]); (T 137,[0;2;3;4])] [2;3;4;1]));
  (*869*) Del (T 137);
  (*870*) Assign (T 139) (Plain (Zeros [4;4;5;5]));
  (*871*) AddTo (T 139) (Plain (Einsum [(n_t1'aa,[0;1]); (T 138,[0;2;3;4])] [3;2;1;4]));
  (*872*) Del (T 138);
  (*873*) AddTo (T 140) (Plain (Einsum [(T 139,[0;1;2;3])] [1;0;3;2]));
  (*874*) Del (T 139);
  (*875*) AddTo n_t2new_aaaa (Plain (Einsum [(T 140,[0;1;2;3])] [0;1;2;3]));
  (*876*) AddTo n_t2new_aaaa (Times (Einsum [(T 140,[0;1;2;3])] [0;1;3;2]) (-1) 1);
  (*877*) Del (T 140);
  (*878*) Assign (T 141) (Plain (Zeros [4;4;5;5]));
  (*879*) AddTo (T 141) (Plain (Einsum [(n_t2'aaaa,[0;1;2;3]); (n_v'aaaa'oooo,[0;4;1;5])] [5;4;3;2]));
  (*880*) Assign (T 143) (Plain (Zeros [4;4;5;5]));
  (*881*) AddTo (T 143) (Plain (Einsum [(T 141,[0;1;2;3])] [1;0;3;2]));
  (*882*) Del (T 141);
  (*883*) Assign (T 142) (Plain (Zeros [4;4;5;5]));
  (*884*) AddTo (T 142) (Plain (Einsum [(n_t2'aaaa,[0;1;2;3]); (n_v'aaaa'vvvv,[4;2;5;3])] [0;1;4;5]));
  (*885*) AddTo (T 143) (Plain (Einsum [(T 142,[0;1;2;3])] [1;0;3;2]));
  (*886*) Del (T 142);
  (*887*) AddTo n_t2new_aaaa (Times (Einsum [(T 143,[0;1;2;3])] [0;1;3;2]) (-1) 1);
  (*888*) AddTo n_t2new_aaaa (Plain (Einsum [(T 143,[0;1;2;3])] [0;1;2;3]));
  (*889*) Del (T 143);
  (*890*) Assign (T 144) (Plain (Zeros [6;6;7;7]));
  (*891*) AddTo (T 144) (Plain (Einsum [(n_t1'bb,[0;1]); (n_v'bbbb'vovv,[2;3;4;1])] [0;3;2;4]));
  (*892*) SubFrom (T 177) (Plain (Einsum [(T 144,[0;1;2;3])] [0;1;2;3]));
  (*893*) Del (T 144);
  (*894*) Assign (T 145) (Plain (Zeros [6;6;7;7]));
  (*895*) AddTo (T 145) (Plain (Einsum [(n_t2'abab,[0;1;2;3]); (n_v'aabb'ovvo,[0;2;4;5])] [1;5;3;4]));
  (*896*) AddTo (T 177) (Plain (Einsum [(T 145,[0;1;2;3])] [0;1;2;3]));
  (*897*) Del (T 145);
  (*898*) Assign (T 146) (Plain (Zeros [4;6;5;7]));
  (*899*) AddTo (T 146) (Plain (Einsum [(n_t1'bb,[0;1]); (n_v'aabb'ovvv,[2;3;4;1])] [2;0;3;4]));
  (*900*) Assign (T 147) (Plain (Zeros [6;6;7;7]));
  (*901*) AddTo (T 147) (Plain (Einsum [(n_t2'abab,[0;1;2;3]); (T 146,[0;4;2;5])] [4;1;3;5]));
  (*902*) SubFrom (T 177) (Plain (Einsum [(T 147,[0;1;2;3])] [0;1;2;3]));
  (*903*) Del (T 147);
  (*904*) AddTo (T 235) (Plain (Einsum [(T 146,[0;1;2;3])] [0;1;2;3]));
  (*905*) Assign (T 270) (Plain (Zeros [4;6;5;7]));
  (*906*) AddTo (T 270) (Plain (Einsum [(T 146,[0;1;2;3])] [0;1;2;3]));
  (*907*) Del (T 146);
  (*908*) Assign (T 151) (Plain (Zeros [6;6;6;7]));
  (*909*) AddTo (T 151) (Plain (Einsum [(n_t2'abab,[0;1;2;3]); (n_v'aabb'ovoo,[0;2;4;5])] [1;4;5;3]));
  (*910*) AddTo (T 159) (Plain (Einsum [(T 151,[0;1;2;3])] [1;0;2;3]));
  (*911*) Del (T 151);
  (*912*) Assign (T 153) (Plain (Zeros [6;6;7;7]));
  (*913*) AddTo (T 153) (Plain (Einsum [(n_t2'bbbb,[0;1;2;3])] [1;0;2;3]));
  (*914*) SubFrom (T 153) (Plain (Einsum [(n_t2'bbbb,[0;1;2;3])] [1;0;3;2]));
  (*915*) Assign (T 154) (Plain (Zeros [6;6;6;7]));
  (*916*) AddTo (T 154) (Plain (Einsum [(T 152,[0;1;2;3]); (T 153,[2;4;3;5])] [0;1;4;5]));
  (*917*) Del (T 153);
  (*918*) Del (T 152);
  (*919*) AddTo (T 159) (Plain (Einsum [(T 154,[0;1;2;3])] [1;0;2;3]));
  (*920*) Del (T 154);
  (*921*) AddTo (T 156) (Plain (Einsum [(n_f'bb'ov,[0;1])] [0;1]));
  (*922*) Assign (T 157) (Plain (Zeros [6;6;6;7]));
  (*923*) AddTo (T 157) (Plain (Einsum [(T 156,[0;1]); (n_t2'bbbb,[2;3;1;4])] [2;3;0;4]));
  (*924*) AddTo (T 159) (Plain (Einsum [(T 157,[0;1;2;3])] [2;1;0;3]));
  (*925*) Del (T 157);
  (*926*) Assign (T 161) (Plain (Zeros [6;6]));
  (*927*) AddTo (T 161) (Plain (Einsum [(n_t1'bb,[0;1]); (T 156,[2;1])] [0;2]));
  (*928*) Del (T 156);
  (*929*) AddTo (T 162) (Plain (Einsum [(T 161,[0;1])] [0;1]));
  (*930*) Del (T 161);
  (*931*) SubFrom (T 159) (Plain (Einsum [(n_v'bbbb'oovo,[0;1;2;3])] [0;1;3;2]));
  (*932*) Assign (T 160) (Plain (Zeros [6;6;7;7]));
  (*933*) AddTo (T 160) (Plain (Einsum [(n_t1'bb,[0;1]); (T 159,[0;2;3;4])] [2;3;1;4]));
  (*934*) Del (T 159);
  (*935*) AddTo (T 177) (Plain (Einsum [(T 160,[0;1;2;3])] [0;1;2;3]));
  (*936*) Del (T 160);
  (*937*) AddTo (T 162) (Plain (Einsum [(n_f'bb'oo,[0;1])] [1;0]));
  (*938*) Assign (T 163) (Plain (Zeros [6;6;7;7]));
  (*939*) AddTo (T 163) (Plain (Einsum [(T 162,[0;1]); (n_t2'bbbb,[1;2;3;4])] [2;0;3;4]));
  (*940*) Del (T 162);
  (*941*) AddTo (T 177) (Plain (Einsum [(T 163,[0;1;2;3])] [1;0;3;2]));
  (*942*) Del (T 163);
  (*943*) Assign (T 164) (Plain (Zeros [3;6;7]));
  (*944*) AddTo (T 164) (Plain (Einsum [(n_t1'bb,[0;1]); (n_g'bb'bvv,[2;3;1])] [2;0;3]));
  (*945*) AddTo (T 168) (Plain (Einsum [(T 164,[0;1;2])] [0;1;2]));
  (*946*) Del (T 164);
  (*947*) Assign (T 165) (Plain (Zeros [3;6;7]));
  (*948*) AddTo (T 165) (Plain (Einsum [(n_g'aa'bov,[0;1;2]); (n_t2'abab,[1;3;2;4])] [0;3;4]));
  (*949*) AddTo (T 168) (Plain (Einsum [(T 165,[0;1;2])] [0;1;2]));
  (*950*) Del (T 165);
  (*951*) AddTo (T 168) (Plain (Einsum [(n_g'bb'bvo,[0;1;2])] [0;2;1]));
  (*952*) Assign (T 169) (Plain (Zeros [6;6;7;7]));
  (*953*) AddTo (T 169) (Plain (Einsum [(n_u11'bb,[0;1;2]); (T 168,[0;3;4])] [1;3;2;4]));
  (*954*) AddTo (T 177) (Plain (Einsum [(T 169,[0;1;2;3])] [1;0;3;2]));
  (*955*) Del (T 169);
  (*956*) Assign (T 294) (Plain (Zeros [4;6;5;7]));
  (*957*) AddTo (T 294) (Plain (Einsum [(n_u11'aa,[0;1;2]); (T 168,[0;3;4])] [1;3;2;4]));
  (*958*) Del (T 168);
  (*959*) AddTo n_t2new_baba (Plain (Einsum [(T 294,[0;1;2;3])] [1;0;3;2]));
  (*960*) AddTo n_t2new_abab (Plain (Einsum [(T 294,[0;1;2;3])] [0;1;2;3]));
  (*961*) Del (T 294);
  (*962*) AddTo (T 170) (Plain (Einsum [(n_f'bb'vv,[0;1])] [0;1]));
  (*963*) Assign (T 171) (Plain (Zeros [6;6;7;7]));
  (*964*) AddTo (T 171) (Plain (Einsum [(T 170,[0;1]); (n_t2'bbbb,[2;3;1;4])] [2;3;4;0]));
  (*965*) Del (T 170);
  (*966*) SubFrom (T 177) (Plain (Einsum [(T 171,[0;1;2;3])] [1;0;3;2]));
  (*967*) Del (T 171);
  (*968*) Assign (T 172) (Plain (Zeros [7;7]));
  (*969*) AddTo (T 172) (Plain (Einsum [(n_g'bb'bov,[0;1;2]); (n_u11'bb,[0;1;3])] [2;3]));
  (*970*) AddTo (T 173) (Plain (Einsum [(T 172,[0;1])] [0;1]));
  (*971*) Assign (T 174) (Plain (Zeros [6;6;7;7]));
  (*972*) AddTo (T 174) (Plain (Einsum [(T 173,[0;1]); (n_t2'bbbb,[2;3;0;4])] [2;3;4;1]));
  (*973*) Del (T 173);
  (*974*) SubFrom (T 177) (Plain (Einsum [(T 174,[0;1;2;3])] [1;0;2;3]));
  (*975*) Del (T 174);
  (*976*) AddTo n_t2new_bbbb (Plain (Einsum [(T 177,[0;1;2;3])] [0;1;2;3]));
  (*977*) SubFrom n_t2new_bbbb (Plain (Einsum [(T 177,[0;1;2;3])] [0;1;3;2]));
  (*978*) SubFrom n_t2new_bbbb (Plain (Einsum [(T 177,[0;1;2;3])] [1;0;2;3]));
  (*979*) AddTo n_t2new_bbbb (Plain (Einsum [(T 177,[0;1;2;3])] [1;0;3;2]));
  (*980*) Del (T 177);
  (*981*) AddTo (T 279) (Times (Einsum [(T 172,[0;1])] [1;0]) (-1) 1);
  (*982*) AddTo (T 317) (Times (Einsum [(T 172,[0;1])] [1;0]) (-1) 1);
  (*983*) Del (T 172);
  (*984*) Assign (T 178) (Plain (Zeros [6;6;7;7]));
  (*985*) AddTo (T 178) (Plain (Einsum [(n_t2'bbbb,[0;1;2;3]); (n_v'bbbb'oooo,[0;4;1;5])] [5;4;3;2]));
  (*986*) Assign (T 180) (Plain (Zeros [6;6;7;7]));
  (*987*) AddTo (T 180) (Plain (Einsum [(T 178,[0;1;2;3])] [1;0;3;2]));
  (*988*) Del (T 178);
  (*989*) Assign (T 179) (Plain (Zeros [6;6;7;7]));
  (*990*) AddTo (T 179) (Plain (Einsum [(n_t2'bbbb,[0;1;2;3]); (n_v'bbbb'vvvv,[4;3;5;2])] [0;1;5;4]));
  (*991*) AddTo (T 180) (Plain (Einsum [(T 179,[0;1;2;3])] [1;0;3;2]));
  (*992*) Del (T 179);
  (*993*) AddTo n_t2new_bbbb (Times (Einsum [(T 180,[0;1;2;3])] [0;1;3;2]) (-1) 1);
  (*994*) AddTo n_t2new_bbbb (Plain (Einsum [(T 180,[0;1;2;3])] [0;1;2;3]));
  (*995*) Del (T 180);
  (*996*) Assign (T 181) (Plain (Zeros [6;7;7;7]));
  (*997*) AddTo (T 181) (Plain (Einsum [(n_t1'bb,[0;1]); (n_v'bbbb'vvvv,[2;3;4;1])] [0;2;4;3]));
  (*998*) Assign (T 182) (Plain (Zeros [6;6;7;7]));
  (*999*) AddTo (T 182) (Plain (Einsum [(n_t1'bb,[0;1]); (T 181,[2;3;4;1])] [0;2;3;4]));
  (*1000*) Del (T 181);
  (*1001*) AddTo (T 190) (Plain (Einsum [(T 182,[0;1;2;3])] [0;1;2;3]));
  (*1002*) Del (T 182);
  (*1003*) Assign (T 183) (Plain (Zeros [6;6;6;6]));
  (*1004*) AddTo (T 183) (Plain (Einsum [(n_t2'bbbb,[0;1;2;3]); (n_v'bbbb'ovov,[4;3;5;2])] [0;1;5;4]));
  (*1005*) Assign (T 184) (Plain (Zeros [6;6;7;7]));
  (*1006*) AddTo (T 184) (Plain (Einsum [(n_t2'bbbb,[0;1;2;3]); (T 183,[4;5;1;0])] [5;4;2;3]));
  (*1007*) AddTo (T 190) (Plain (Einsum [(T 184,[0;1;2;3])] [0;1;2;3]));
  (*1008*) Del (T 184);
  (*1009*) Assign (T 187) (Plain (Zeros [6;6;6;6]));
  (*1010*) AddTo (T 187) (Plain (Einsum [(T 183,[0;1;2;3])] [3;2;1;0]));
  (*1011*) Del (T 183);
  (*1012*) AddTo (T 187) (Plain (Einsum [(n_v'bbbb'oooo,[0;1;2;3])] [2;0;3;1]));
  (*1013*) Assign (T 188) (Plain (Zeros [6;6;6;7]));
  (*1014*) AddTo (T 188) (Plain (Einsum [(n_t1'bb,[0;1]); (T 187,[0;2;3;4])] [2;3;4;1]));
  (*1015*) Del (T 187);
  (*1016*) Assign (T 189) (Plain (Zeros [6;6;7;7]));
  (*1017*) AddTo (T 189) (Plain (Einsum [(n_t1'bb,[0;1]); (T 188,[0;2;3;4])] [3;2;1;4]));
  (*1018*) Del (T 188);
  (*1019*) AddTo (T 190) (Plain (Einsum [(T 189,[0;1;2;3])] [0;1;2;3]));
  (*1020*) Del (T 189);
  (*1021*) AddTo n_t2new_bbbb (Plain (Einsum [(T 190,[0;1;2;3])] [0;1;2;3]));
  (*1022*) AddTo n_t2new_bbbb (Times (Einsum [(T 190,[0;1;2;3])] [0;1;3;2]) (-1) 1);
  (*1023*) Del (T 190);
  (*1024*) Assign (T 191) (Plain (Zeros [6;6;6;6]));
  (*1025*) AddTo (T 191) (Plain (Einsum [(n_t1'bb,[0;1]); (n_v'bbbb'ooov,[2;3;4;1])] [0;2;4;3]));
  (*1026*) Assign (T 192) (Plain (Zeros [6;6;7;7]));
  (*1027*) AddTo (T 192) (Plain (Einsum [(n_t2'bbbb,[0;1;2;3]); (T 191,[4;1;0;5])] [4;5;3;2]));
  (*1028*) AddTo (T 223) (Plain (Einsum [(T 192,[0;1;2;3])] [0;1;2;3]));
  (*1029*) Del (T 192);
  (*1030*) Assign (T 200) (Plain (Zeros [6;6;6;7]));
  (*1031*) AddTo (T 200) (Plain (Einsum [(n_t1'bb,[0;1]); (T 191,[2;3;0;4])] [2;3;4;1]));
  (*1032*) Del (T 191);
  (*1033*) AddTo (T 209) (Plain (Einsum [(T 200,[0;1;2;3])] [0;1;2;3]));
  (*1034*) Del (T 200);
  (*1035*) Assign (T 193) (Plain (Zeros [7;7]));
  (*1036*) AddTo (T 193) (Plain (Einsum [(n_t2'abab,[0;1;2;3]); (n_v'aabb'ovov,[0;2;1;4])] [3;4]));
  (*1037*) Assign (T 194) (Plain (Zeros [6;6;7;7]));
  (*1038*) AddTo (T 194) (Plain (Einsum [(T 193,[0;1]); (n_t2'bbbb,[2;3;4;1])] [2;3;0;4]));
  (*1039*) AddTo (T 223) (Times (Einsum [(T 194,[0;1;2;3])] [0;1;2;3]) (-1) 1);
  (*1040*) Del (T 194);
  (*1041*) AddTo (T 279) (Times (Einsum [(T 193,[0;1])] [0;1]) (-1) 1);
  (*1042*) AddTo (T 317) (Times (Einsum [(T 193,[0;1])] [0;1]) (-1) 1);
  (*1043*) Del (T 193);
  (*1044*) Assign (T 195) (Plain (Zeros [6;6;7;7]));
  (*1045*) AddTo (T 195) (Times (Einsum [(n_t2'bbbb,[0;1;2;3])] [1;0;2;3]) (-1) 1);
  (*1046*) AddTo (T 195) (Plain (Einsum [(n_t2'bbbb,[0;1;2;3])] [1;0;3;2]));
  (*1047*) Assign (T 197) (Plain (Zeros [6;6;7;7]));
  (*1048*) AddTo (T 197) (Times (Einsum [(T 195,[0;1;2;3]); (T 196,[4;0;5;3])] [1;4;2;5]) (-1) 1);
  (*1049*) Del (T 196);
  (*1050*) AddTo (T 223) (Times (Einsum [(T 197,[0;1;2;3])] [1;0;2;3]) (-1) 1);
  (*1051*) Del (T 197);
  (*1052*) Assign (T 198) (Plain (Zeros [4;6;5;7]));
  (*1053*) AddTo (T 198) (Plain (Einsum [(n_v'aabb'ovov,[0;1;2;3]); (T 195,[2;4;5;3])] [0;4;1;5]));
  (*1054*) Assign (T 199) (Plain (Zeros [6;6;7;7]));
  (*1055*) AddTo (T 199) (Times (Einsum [(n_t2'abab,[0;1;2;3]); (T 198,[0;4;2;5])] [1;4;3;5]) (-1) 1);
  (*1056*) AddTo (T 223) (Times (Einsum [(T 199,[0;1;2;3])] [0;1;2;3]) (-1) 1);
  (*1057*) Del (T 199);
  (*1058*) AddTo (T 235) (Times (Einsum [(T 198,[0;1;2;3])] [0;1;2;3]) (-1) 1);
  (*1059*) Del (T 198);
  (*1060*) Assign (T 238) (Plain (Zeros [6;6;7;7]));
  (*1061*) AddTo (T 238) (Plain (Einsum [(T 14,[0;1;2;3]); (T 195,[0;4;5;3])] [1;4;2;5]));
  (*1062*) Del (T 14);
  (*1063*) Assign (T 240) (Plain (Zeros [6;6;7;7]));
  (*1064*) AddTo (T 240) (Plain (Einsum [(T 238,[0;1;2;3])] [0;1;3;2]));
  (*1065*) Del (T 238);
  (*1066*) Assign (T 264) (Plain (Zeros [4;4;6;7]));
  (*1067*) AddTo (T 264) (Plain (Einsum [(T 195,[0;1;2;3]); (T 5,[4;5;0;3])] [4;5;1;2]));
  (*1068*) Del (T 5);
  (*1069*) AddTo (T 272) (Times (Einsum [(T 264,[0;1;2;3])] [0;1;2;3]) (-1) 1);
  (*1070*) Del (T 264);
  (*1071*) Assign (T 201) (Plain (Zeros [6;6;6;7]));
  (*1072*) AddTo (T 201) (Plain (Einsum [(n_t2'bbbb,[0;1;2;3]); (n_v'bbbb'ovvv,[4;2;5;3])] [0;1;4;5]));
  (*1073*) AddTo (T 209) (Plain (Einsum [(T 201,[0;1;2;3])] [0;2;1;3]));
  (*1074*) Del (T 201);
  (*1075*) Assign (T 202) (Plain (Zeros [6;6;7;7]));
  (*1076*) AddTo (T 202) (Plain (Einsum [(n_t1'bb,[0;1]); (n_v'bbbb'ovvv,[2;3;4;1])] [0;2;4;3]));
  (*1077*) Assign (T 203) (Plain (Zeros [6;6;6;7]));
  (*1078*) AddTo (T 203) (Plain (Einsum [(n_t1'bb,[0;1]); (T 202,[2;3;4;1])] [0;2;3;4]));
  (*1079*) Del (T 202);
  (*1080*) AddTo (T 209) (Plain (Einsum [(T 203,[0;1;2;3])] [0;2;1;3]));
  (*1081*) Del (T 203);
  (*1082*) Assign (T 206) (Plain (Zeros [6;6;6;7]));
  (*1083*) AddTo (T 206) (Times (Einsum [(n_v'bbbb'ooov,[0;1;2;3])] [0;2;1;3]) (-1) 1);
  (*1084*) AddTo (T 206) (Plain (Einsum [(n_v'bbbb'ooov,[0;1;2;3])] [2;0;1;3]));
  (*1085*) Assign (T 207) (Plain (Zeros [6;6;7;7]));
  (*1086*) AddTo (T 207) (Plain (Einsum [(n_t2'bbbb,[0;1;2;3])] [1;0;2;3]));
  (*1087*) AddTo (T 207) (Times (Einsum [(n_t2'bbbb,[0;1;2;3])] [1;0;3;2]) (-1) 1);
  (*1088*) Assign (T 208) (Plain (Zeros [6;6;6;7]));
  (*1089*) AddTo (T 208) (Plain (Einsum [(T 206,[0;1;2;3]); (T 207,[0;4;3;5])] [1;2;4;5]));
  (*1090*) Del (T 206);
  (*1091*) Del (T 207);
  (*1092*) AddTo (T 209) (Plain (Einsum [(T 208,[0;1;2;3])] [2;0;1;3]));
  (*1093*) Del (T 208);
  (*1094*) Assign (T 210) (Plain (Zeros [6;6;7;7]));
  (*1095*) AddTo (T 210) (Plain (Einsum [(n_t1'bb,[0;1]); (T 209,[2;0;3;4])] [2;3;1;4]));
  (*1096*) Del (T 209);
  (*1097*) AddTo (T 223) (Plain (Einsum [(T 210,[0;1;2;3])] [0;1;2;3]));
  (*1098*) Del (T 210);
  (*1099*) Assign (T 212) (Plain (Zeros [6;7;7;7]));
  (*1100*) AddTo (T 212) (Times (Einsum [(n_v'bbbb'ovvv,[0;1;2;3])] [0;2;1;3]) (-1) 1);
  (*1101*) AddTo (T 212) (Plain (Einsum [(n_v'bbbb'ovvv,[0;1;2;3])] [0;2;3;1]));
  (*1102*) Assign (T 213) (Plain (Zeros [7;7]));
  (*1103*) AddTo (T 213) (Plain (Einsum [(n_t1'bb,[0;1]); (T 212,[0;2;3;1])] [2;3]));
  (*1104*) AddTo (T 214) (Times (Einsum [(T 213,[0;1])] [0;1]) (-1) 1);
  (*1105*) Del (T 213);
  (*1106*) Assign (T 215) (Plain (Zeros [6;6;7;7]));
  (*1107*) AddTo (T 215) (Plain (Einsum [(T 214,[0;1]); (n_t2'bbbb,[2;3;1;4])] [2;3;4;0]));
  (*1108*) Del (T 214);
  (*1109*) AddTo (T 223) (Plain (Einsum [(T 215,[0;1;2;3])] [1;0;2;3]));
  (*1110*) Del (T 215);
  (*1111*) AddTo n_t2new_bbbb (Times (Einsum [(T 223,[0;1;2;3])] [0;1;2;3]) (-1) 1);
  (*1112*) AddTo n_t2new_bbbb (Plain (Einsum [(T 223,[0;1;2;3])] [0;1;3;2]));
  (*1113*) AddTo n_t2new_bbbb (Plain (Einsum [(T 223,[0;1;2;3])] [1;0;2;3]));
  (*1114*) AddTo n_t2new_bbbb (Times (Einsum [(T 223,[0;1;2;3])] [1;0;3;2]) (-1) 1);
  (*1115*) Del (T 223);
  (*1116*) Assign (T 239) (Plain (Zeros [6;6;7;7]));
  (*1117*) AddTo (T 239) (Plain (Einsum [(n_t1'bb,[0;1]); (T 212,[2;3;4;1])] [0;2;3;4]));
  (*1118*) Del (T 212);
  (*1119*) AddTo (T 240) (Times (Einsum [(T 239,[0;1;2;3])] [1;0;2;3]) (-1) 1);
  (*1120*) Del (T 239);
  (*1121*) Assign (T 232) (Plain (Zeros [4;6;5;7]));
  (*1122*) AddTo (T 232) (Plain (Einsum [(n_t1'bb,[0;1]); (n_v'aabb'vovv,[2;3;4;1])] [3;0;2;4]));
  (*1123*) AddTo n_t2new_baba (Plain (Einsum [(T 232,[0;1;2;3])] [1;0;3;2]));
  (*1124*) AddTo n_t2new_abab (Plain (Einsum [(T 232,[0;1;2;3])] [0;1;2;3]));
  (*1125*) Del (T 232);
  (*1126*) Assign (T 233) (Plain (Zeros [4;6;5;7]));
  (*1127*) AddTo (T 233) (Plain (Einsum [(n_t2'abab,[0;1;2;3]); (n_v'aabb'vvvv,[4;2;5;3])] [0;1;4;5]));
  (*1128*) AddTo n_t2new_baba (Plain (Einsum [(T 233,[0;1;2;3])] [1;0;3;2]));
  (*1129*) AddTo n_t2new_abab (Plain (Einsum [(T 233,[0;1;2;3])] [0;1;2;3]));
  (*1130*) Del (T 233);
  (*1131*) AddTo (T 235) (Plain (Einsum [(n_v'aabb'ovvo,[0;1;2;3])] [0;3;1;2]));
  (*1132*) Assign (T 236) (Plain (Zeros [4;6;5;7]));
  (*1133*) AddTo (T 236) (Plain (Einsum [(T 11,[0;1;2;3]); (T 235,[0;4;3;5])] [1;4;2;5]));
  (*1134*) Del (T 235);
  (*1135*) AddTo n_t2new_baba (Plain (Einsum [(T 236,[0;1;2;3])] [1;0;3;2]));
  (*1136*) AddTo n_t2new_abab (Plain (Einsum [(T 236,[0;1;2;3])] [0;1;2;3]));
  (*1137*) Del (T 236);
  (*1138*) Assign (T 237) (Plain (Zeros [6;6;7;7]));
  (*1139*) AddTo (T 237) (Plain (Einsum [(n_t2'abab,[0;1;2;3]); (n_v'aabb'ovov,[0;2;4;5])] [1;4;3;5]));
  (*1140*) AddTo (T 240) (Plain (Einsum [(T 237,[0;1;2;3])] [1;0;2;3]));
  (*1141*) Del (T 237);
  (*1142*) AddTo (T 240) (Plain (Einsum [(n_v'bbbb'ovvo,[0;1;2;3])] [0;3;2;1]));
  (*1143*) AddTo (T 240) (Times (Einsum [(n_v'bbbb'oovv,[0;1;2;3])] [0;1;2;3]) (-1) 1);
  (*1144*) Assign (T 241) (Plain (Zeros [4;6;5;7]));
  (*1145*) AddTo (T 241) (Plain (Einsum [(n_t2'abab,[0;1;2;3]); (T 240,[1;4;5;3])] [0;4;2;5]));
  (*1146*) Del (T 240);
  (*1147*) AddTo n_t2new_baba (Plain (Einsum [(T 241,[0;1;2;3])] [1;0;3;2]));
  (*1148*) AddTo n_t2new_abab (Plain (Einsum [(T 241,[0;1;2;3])] [0;1;2;3]));
  (*1149*) Del (T 241);
  (*1150*) AddTo (T 242) (Plain (Einsum [(n_v'bbaa'ovvo,[0;1;2;3])] [3;0;2;1]));
  (*1151*) AddTo n_t2new_baba (Plain (Einsum [(T 242,[0;1;2;3]); (T 41,[1;4;3;5])] [4;0;5;2]));
  (*1152*) SubFrom n_t2new_abab (Plain (Einsum [(T 242,[0;1;2;3]); (T 41,[1;4;5;3])] [0;4;2;5]));
  (*1153*) Del (T 41);
  (*1154*) Del (T 242);
  (*1155*) Assign (T 243) (Plain (Zeros [4;5;5;5]));
  (*1156*) SubFrom (T 243) (Plain (Einsum [(n_v'aaaa'ovvv,[0;1;2;3])] [0;2;1;3]));
  (*1157*) AddTo (T 243) (Plain (Einsum [(n_v'aaaa'ovvv,[0;1;2;3])] [0;2;3;1]));
  (*1158*) Assign (T 244) (Plain (Zeros [4;4;5;5]));
  (*1159*) AddTo (T 244) (Plain (Einsum [(n_t1'aa,[0;1]); (T 243,[2;3;4;1])] [2;0;3;4]));
  (*1160*) Del (T 243);
  (*1161*) Assign (T 245) (Plain (Zeros [4;4;5;5]));
  (*1162*) SubFrom (T 245) (Plain (Einsum [(T 244,[0;1;2;3])] [0;1;2;3]));
  (*1163*) Del (T 244);
  (*1164*) AddTo (T 245) (Plain (Einsum [(n_v'aaaa'ovvo,[0;1;2;3])] [0;3;2;1]));
  (*1165*) SubFrom (T 245) (Plain (Einsum [(n_v'aaaa'oovv,[0;1;2;3])] [0;1;2;3]));
  (*1166*) Assign (T 246) (Plain (Zeros [4;6;5;7]));
  (*1167*) AddTo (T 246) (Plain (Einsum [(n_t2'abab,[0;1;2;3]); (T 245,[0;4;5;2])] [4;1;5;3]));
  (*1168*) Del (T 245);
  (*1169*) AddTo n_t2new_baba (Plain (Einsum [(T 246,[0;1;2;3])] [1;0;3;2]));
  (*1170*) AddTo n_t2new_abab (Plain (Einsum [(T 246,[0;1;2;3])] [0;1;2;3]));
  (*1171*) Del (T 246);
  (*1172*) Assign (T 247) (Plain (Zeros [4;4;7;7]));
  (*1173*) AddTo (T 247) (Plain (Einsum [(n_t1'aa,[0;1]); (n_v'aabb'ovvv,[2;1;3;4])] [0;2;3;4]));
  (*1174*) Assign (T 249) (Plain (Zeros [4;4;7;7]));
  (*1175*) AddTo (T 249) (Plain (Einsum [(T 247,[0;1;2;3])] [1;0;2;3]));
  (*1176*) Del (T 247);
  (*1177*) Assign (T 248) (Plain (Zeros [4;4;7;7]));
  (*1178*) AddTo (T 248) (Plain (Einsum [(n_t2'abab,[0;1;2;3]); (n_v'aabb'ovov,[4;2;1;5])] [0;4;3;5]));
  (*1179*) SubFrom (T 249) (Plain (Einsum [(T 248,[0;1;2;3])] [1;0;2;3]));
  (*1180*) Del (T 248);
  (*1181*) AddTo (T 249) (Plain (Einsum [(n_v'aabb'oovv,[0;1;2;3])] [0;1;2;3]));
  (*1182*) Assign (T 250) (Plain (Zeros [4;6;5;7]));
  (*1183*) AddTo (T 250) (Plain (Einsum [(n_t2'abab,[0;1;2;3]); (T 249,[0;4;5;3])] [4;1;2;5]));
  (*1184*) Del (T 249);
  (*1185*) SubFrom n_t2new_baba (Plain (Einsum [(T 250,[0;1;2;3])] [1;0;3;2]));
  (*1186*) SubFrom n_t2new_abab (Plain (Einsum [(T 250,[0;1;2;3])] [0;1;2;3]));
  (*1187*) Del (T 250);
  (*1188*) Assign (T 251) (Plain (Zeros [4;4;6;6]));
  (*1189*) AddTo (T 251) (Plain (Einsum [(n_t1'bb,[0;1]); (n_v'aabb'ooov,[2;3;4;1])] [2;3;0;4]));
  (*1190*) Assign (T 255) (Plain (Zeros [4;4;6;6]));
  (*1191*) AddTo (T 255) (Plain (Einsum [(T 251,[0;1;2;3])] [0;1;3;2]));
  (*1192*) AddTo (T 268) (Plain (Einsum [(T 251,[0;1;2;3])] [0;1;3;2]));
  (*1193*) Del (T 251);
  (*1194*) Assign (T 252) (Plain (Zeros [4;4;6;6]));
  (*1195*) AddTo (T 252) (Plain (Einsum [(n_t2'abab,[0;1;2;3]); (n_v'aabb'ovov,[4;2;5;3])] [0;4;1;5]));
  (*1196*) AddTo (T 255) (Plain (Einsum [(T 252,[0;1;2;3])] [1;0;3;2]));
  (*1197*) AddTo (T 268) (Plain (Einsum [(T 252,[0;1;2;3])] [1;0;3;2]));
  (*1198*) Del (T 252);
  (*1199*) AddTo (T 253) (Plain (Einsum [(n_v'aabb'ovoo,[0;1;2;3])] [0;2;3;1]));
  (*1200*) Assign (T 254) (Plain (Zeros [4;4;6;6]));
  (*1201*) AddTo (T 254) (Plain (Einsum [(n_t1'aa,[0;1]); (T 253,[2;3;4;1])] [2;0;3;4]));
  (*1202*) Del (T 253);
  (*1203*) AddTo (T 255) (Plain (Einsum [(T 254,[0;1;2;3])] [0;1;2;3]));
  (*1204*) Del (T 254);
  (*1205*) AddTo (T 255) (Plain (Einsum [(n_v'aabb'oooo,[0;1;2;3])] [0;1;2;3]));
  (*1206*) Assign (T 256) (Plain (Zeros [4;6;5;7]));
  (*1207*) AddTo (T 256) (Plain (Einsum [(n_t2'abab,[0;1;2;3]); (T 255,[0;4;1;5])] [4;5;2;3]));
  (*1208*) Del (T 255);
  (*1209*) AddTo n_t2new_baba (Plain (Einsum [(T 256,[0;1;2;3])] [1;0;3;2]));
  (*1210*) AddTo n_t2new_abab (Plain (Einsum [(T 256,[0;1;2;3])] [0;1;2;3]));
  (*1211*) Del (T 256);
  (*1212*) Assign (T 257) (Plain (Zeros [6;6;5;5]));
  (*1213*) AddTo (T 257) (Plain (Einsum [(n_t1'bb,[0;1]); (n_v'bbaa'ovvv,[2;1;3;4])] [0;2;3;4]));
  (*1214*) Assign (T 258) (Plain (Zeros [6;6;5;5]));
  (*1215*) AddTo (T 258) (Plain (Einsum [(T 257,[0;1;2;3])] [1;0;2;3]));
  (*1216*) Assign (T 288) (Plain (Zeros [6;6;5;5]));
  (*1217*) AddTo (T 288) (Plain (Einsum [(T 257,[0;1;2;3])] [1;0;2;3]));
  (*1218*) Del (T 257);
  (*1219*) AddTo (T 258) (Plain (Einsum [(n_v'bbaa'oovv,[0;1;2;3])] [0;1;2;3]));
  (*1220*) Assign (T 259) (Plain (Zeros [4;6;5;7]));
  (*1221*) AddTo (T 259) (Plain (Einsum [(n_t2'abab,[0;1;2;3]); (T 258,[1;4;5;2])] [0;4;5;3]));
  (*1222*) Del (T 258);
  (*1223*) SubFrom n_t2new_baba (Plain (Einsum [(T 259,[0;1;2;3])] [1;0;3;2]));
  (*1224*) SubFrom n_t2new_abab (Plain (Einsum [(T 259,[0;1;2;3])] [0;1;2;3]));
  (*1225*) Del (T 259);
  (*1226*) Assign (T 260) (Plain (Zeros [4;4;6;7]));
  (*1227*) AddTo (T 260) (Plain (Einsum [(n_t1'bb,[0;1]); (n_v'aabb'oovv,[2;3;4;1])] [2;3;0;4]));
  (*1228*) AddTo (T 272) (Plain (Einsum [(T 260,[0;1;2;3])] [0;1;2;3]));
  (*1229*) Del (T 260);
  (*1230*) Assign (T 261) (Plain (Zeros [4;4;6;7]));
  (*1231*) AddTo (T 261) (Plain (Einsum [(n_t2'abab,[0;1;2;3]); (n_v'aabb'ovvv,[4;2;5;3])] [0;4;1;5]));
  (*1232*) AddTo (T 272) (Plain (Einsum [(T 261,[0;1;2;3])] [1;0;2;3]));
  (*1233*) Del (T 261);
  (*1234*) AddTo (T 262) (Plain (Einsum [(n_v'aaaa'ooov,[0;1;2;3])] [0;2;1;3]));
  (*1235*) AddTo (T 262) (Times (Einsum [(n_v'aaaa'ooov,[0;1;2;3])] [2;0;1;3]) (-1) 1);
  (*1236*) Assign (T 263) (Plain (Zeros [4;4;6;7]));
  (*1237*) AddTo (T 263) (Plain (Einsum [(n_t2'abab,[0;1;2;3]); (T 262,[0;4;5;2])] [4;5;1;3]));
  (*1238*) Del (T 262);
  (*1239*) AddTo (T 272) (Times (Einsum [(T 263,[0;1;2;3])] [0;1;2;3]) (-1) 1);
  (*1240*) Del (T 263);
  (*1241*) AddTo (T 268) (Plain (Einsum [(n_v'aabb'oooo,[0;1;2;3])] [0;1;2;3]));
  (*1242*) Assign (T 269) (Plain (Zeros [4;4;6;7]));
  (*1243*) AddTo (T 269) (Plain (Einsum [(n_t1'bb,[0;1]); (T 268,[2;3;0;4])] [2;3;4;1]));
  (*1244*) Del (T 268);
  (*1245*) AddTo (T 272) (Times (Einsum [(T 269,[0;1;2;3])] [0;1;2;3]) (-1) 1);
  (*1246*) Del (T 269);
  (*1247*) AddTo (T 270) (Plain (Einsum [(n_v'aabb'ovvo,[0;1;2;3])] [0;3;1;2]));
  (*1248*) Assign (T 271) (Plain (Zeros [4;4;6;7]));
  (*1249*) AddTo (T 271) (Plain (Einsum [(n_t1'aa,[0;1]); (T 270,[2;3;1;4])] [2;0;3;4]));
  (*1250*) Del (T 270);
  (*1251*) AddTo (T 272) (Plain (Einsum [(T 271,[0;1;2;3])] [0;1;2;3]));
  (*1252*) Del (T 271);
  (*1253*) AddTo (T 272) (Plain (Einsum [(n_v'aabb'oovo,[0;1;2;3])] [0;1;3;2]));
  (*1254*) Assign (T 273) (Plain (Zeros [4;6;5;7]));
  (*1255*) AddTo (T 273) (Plain (Einsum [(n_t1'aa,[0;1]); (T 272,[0;2;3;4])] [2;3;1;4]));
  (*1256*) Del (T 272);
  (*1257*) AddTo n_t2new_baba (Times (Einsum [(T 273,[0;1;2;3])] [1;0;3;2]) (-1) 1);
  (*1258*) AddTo n_t2new_abab (Times (Einsum [(T 273,[0;1;2;3])] [0;1;2;3]) (-1) 1);
  (*1259*) Del (T 273);
  (*1260*) Assign (T 274) (Plain (Zeros [4;4;5;5]));
  (*1261*) AddTo (T 274) (Plain (Einsum [(n_v'aaaa'ovov,[0;1;2;3])] [2;0;1;3]));
  (*1262*) AddTo (T 274) (Times (Einsum [(n_v'aaaa'ovov,[0;1;2;3])] [2;0;3;1]) (-1) 1);
  (*1263*) Assign (T 275) (Plain (Zeros [5;5]));
  (*1264*) AddTo (T 275) (Plain (Einsum [(n_t2'aaaa,[0;1;2;3]); (T 274,[0;1;4;2])] [4;3]));
  (*1265*) Del (T 274);
  (*1266*) AddTo (T 276) (Times (Einsum [(T 275,[0;1])] [1;0]) (-1) 1);
  (*1267*) AddTo (T 308) (Times (Einsum [(T 275,[0;1])] [1;0]) (-1) 1);
  (*1268*) Del (T 275);
  (*1269*) AddTo (T 276) (Plain (Einsum [(n_f'aa'vv,[0;1])] [0;1]));
  (*1270*) Assign (T 277) (Plain (Zeros [4;6;5;7]));
  (*1271*) AddTo (T 277) (Plain (Einsum [(T 276,[0;1]); (n_t2'abab,[2;3;1;4])] [2;3;0;4]));
  (*1272*) Del (T 276);
  (*1273*) AddTo n_t2new_baba (Plain (Einsum [(T 277,[0;1;2;3])] [1;0;3;2]));
  (*1274*) AddTo n_t2new_abab (Plain (Einsum [(T 277,[0;1;2;3])] [0;1;2;3]));
  (*1275*) Del (T 277);
  (*1276*) AddTo (T 279) (Plain (Einsum [(n_f'bb'vv,[0;1])] [0;1]));
  (*1277*) Assign (T 280) (Plain (Zeros [4;6;5;7]));
  (*1278*) AddTo (T 280) (Plain (Einsum [(T 279,[0;1]); (n_t2'abab,[2;3;4;1])] [2;3;4;0]));
  (*1279*) Del (T 279);
  (*1280*) AddTo n_t2new_baba (Plain (Einsum [(T 280,[0;1;2;3])] [1;0;3;2]));
  (*1281*) AddTo n_t2new_abab (Plain (Einsum [(T 280,[0;1;2;3])] [0;1;2;3]));
  (*1282*) Del (T 280);
  (*1283*) Assign (T 281) (Plain (Zeros [4;6;6;5]));
  (*1284*) AddTo (T 281) (Plain (Einsum [(n_t1'bb,[0;1]); (n_v'bbaa'ovvo,[2;1;3;4])] [4;0;2;3]));
  (*1285*) AddTo (T 290) (Plain (Einsum [(T 281,[0;1;2;3])] [0;2;1;3]));
  (*1286*) Del (T 281);
  (*1287*) Assign (T 282) (Plain (Zeros [4;6;6;5]));
  (*1288*) AddTo (T 282) (Plain (Einsum [(n_t2'abab,[0;1;2;3]); (n_v'bbaa'ovvv,[4;3;5;2])] [0;1;4;5]));
  (*1289*) AddTo (T 290) (Plain (Einsum [(T 282,[0;1;2;3])] [0;2;1;3]));
  (*1290*) Del (T 282);
  (*1291*) AddTo (T 283) (Plain (Einsum [(n_v'bbbb'ooov,[0;1;2;3])] [0;2;1;3]));
  (*1292*) AddTo (T 283) (Times (Einsum [(n_v'bbbb'ooov,[0;1;2;3])] [2;0;1;3]) (-1) 1);
  (*1293*) Assign (T 284) (Plain (Zeros [4;6;6;5]));
  (*1294*) AddTo (T 284) (Plain (Einsum [(n_t2'abab,[0;1;2;3]); (T 283,[1;4;5;3])] [0;4;5;2]));
  (*1295*) Del (T 283);
  (*1296*) AddTo (T 290) (Times (Einsum [(T 284,[0;1;2;3])] [0;1;2;3]) (-1) 1);
  (*1297*) Del (T 284);
  (*1298*) AddTo (T 288) (Plain (Einsum [(n_v'bbaa'oovv,[0;1;2;3])] [0;1;2;3]));
  (*1299*) Assign (T 289) (Plain (Zeros [4;6;6;5]));
  (*1300*) AddTo (T 289) (Plain (Einsum [(n_t1'aa,[0;1]); (T 288,[2;3;4;1])] [0;2;3;4]));
  (*1301*) Del (T 288);
  (*1302*) AddTo (T 290) (Plain (Einsum [(T 289,[0;1;2;3])] [0;1;2;3]));
  (*1303*) Del (T 289);
  (*1304*) AddTo (T 290) (Plain (Einsum [(n_v'bbaa'oovo,[0;1;2;3])] [3;0;1;2]));
  (*1305*) Assign (T 291) (Plain (Zeros [4;6;5;7]));
  (*1306*) AddTo (T 291) (Plain (Einsum [(n_t1'bb,[0;1]); (T 290,[2;0;3;4])] [2;3;4;1]));
  (*1307*) Del (T 290);
  (*1308*) AddTo n_t2new_baba (Times (Einsum [(T 291,[0;1;2;3])] [1;0;3;2]) (-1) 1);
  (*1309*) AddTo n_t2new_abab (Times (Einsum [(T 291,[0;1;2;3])] [0;1;2;3]) (-1) 1);
  (*1310*) Del (T 291);
  (*1311*) Assign (T 296) (Plain (Zeros [6;5;5;7]));
  (*1312*) AddTo (T 296) (Plain (Einsum [(n_t1'bb,[0;1]); (n_v'aabb'vvvv,[2;3;4;1])] [0;2;3;4]));
  (*1313*) Assign (T 297) (Plain (Zeros [6;5;5;7]));
  (*1314*) AddTo (T 297) (Plain (Einsum [(T 296,[0;1;2;3])] [0;1;2;3]));
  (*1315*) Del (T 296);
  (*1316*) AddTo (T 297) (Plain (Einsum [(n_v'aabb'vvvo,[0;1;2;3])] [3;0;1;2]));
  (*1317*) Assign (T 298) (Plain (Zeros [4;6;5;7]));
  (*1318*) AddTo (T 298) (Plain (Einsum [(n_t1'aa,[0;1]); (T 297,[2;3;1;4])] [0;2;3;4]));
  (*1319*) Del (T 297);
  (*1320*) AddTo n_t2new_baba (Plain (Einsum [(T 298,[0;1;2;3])] [1;0;3;2]));
  (*1321*) AddTo n_t2new_abab (Plain (Einsum [(T 298,[0;1;2;3])] [0;1;2;3]));
  (*1322*) Del (T 298);
  (*1323*) AddTo (T 299) (Plain (Einsum [(n_f'bb'ov,[0;1])] [0;1]));
  (*1324*) Assign n_s1new (Plain (Zeros [3]));
  (*1325*) AddTo n_s1new (Plain (Einsum [(T 299,[0;1]); (n_u11'bb,[2;0;1])] [2]));
  (*1326*) Del (T 299);
  (*1327*) AddTo (T 300) (Plain (Einsum [(n_f'aa'ov,[0;1])] [0;1]));
  (*1328*) AddTo n_s1new (Plain (Einsum [(T 300,[0;1]); (n_u11'aa,[2;0;1])] [2]));
  (*1329*) Del (T 300);
  (*1330*) Assign (T 301) (Plain (Zeros [3;4;5]));
  (*1331*) AddTo (T 301) (Plain (Einsum [(n_u11'bb,[0;1;2]); (n_v'aabb'ovov,[3;4;1;2])] [0;3;4]));
  (*1332*) AddTo (T 303) (Plain (Einsum [(T 301,[0;1;2])] [0;1;2]));
  (*1333*) Del (T 301);
  (*1334*) AddTo (T 303) (Plain (Einsum [(n_gc'aa'bov,[0;1;2])] [0;1;2]));
  (*1335*) AddTo (T 310) (Plain (Einsum [(n_t1'aa,[0;1]); (T 303,[2;3;1])] [2;3;0]));
  (*1336*) AddTo n_u11new_aa (Plain (Einsum [(T 303,[0;1;2]); (T 11,[1;3;4;2])] [0;3;4]));
  (*1337*) Del (T 11);
  (*1338*) AddTo n_u11new_bb (Plain (Einsum [(T 303,[0;1;2]); (n_t2'abab,[1;3;2;4])] [0;3;4]));
  (*1339*) Del (T 303);
  (*1340*) Assign (T 304) (Plain (Zeros [3;6;7]));
  (*1341*) AddTo (T 304) (Plain (Einsum [(n_u11'aa,[0;1;2]); (n_v'aabb'ovov,[1;2;3;4])] [0;3;4]));
  (*1342*) AddTo (T 306) (Plain (Einsum [(T 304,[0;1;2])] [0;1;2]));
  (*1343*) Del (T 304);
  (*1344*) AddTo (T 306) (Plain (Einsum [(n_gc'bb'bov,[0;1;2])] [0;1;2]));
  (*1345*) AddTo (T 319) (Plain (Einsum [(n_t1'bb,[0;1]); (T 306,[2;3;1])] [2;3;0]));
  (*1346*) AddTo n_u11new_aa (Plain (Einsum [(T 306,[0;1;2]); (n_t2'abab,[3;1;4;2])] [0;3;4]));
  (*1347*) AddTo n_u11new_bb (Plain (Einsum [(T 306,[0;1;2]); (T 195,[1;3;2;4])] [0;3;4]));
  (*1348*) Del (T 306);
  (*1349*) Del (T 195);
  (*1350*) AddTo (T 308) (Plain (Einsum [(n_f'aa'vv,[0;1])] [0;1]));
  (*1351*) AddTo n_u11new_aa (Plain (Einsum [(T 308,[0;1]); (n_u11'aa,[2;3;1])] [2;3;0]));
  (*1352*) Del (T 308);
  (*1353*) AddTo (T 309) (Plain (Einsum [(n_f'aa'ov,[0;1])] [0;1]));
  (*1354*) AddTo (T 310) (Plain (Einsum [(T 309,[0;1]); (n_u11'aa,[2;3;1])] [2;0;3]));
  (*1355*) Del (T 309);
  (*1356*) AddTo (T 310) (Plain (Einsum [(n_gc'aa'boo,[0;1;2])] [0;1;2]));
  (*1357*) AddTo (T 310) (Plain (Einsum [(n_u11'bb,[0;1;2]); (n_v'aabb'ooov,[3;4;1;2])] [0;3;4]));
  (*1358*) AddTo n_u11new_aa (Times (Einsum [(n_t1'aa,[0;1]); (T 310,[2;0;3])] [2;3;1]) (-1) 1);
  (*1359*) Del (T 310);
  (*1360*) Assign (T 311) (Plain (Zeros [4;5;5;5]));
  (*1361*) AddTo (T 311) (Plain (Einsum [(n_v'aaaa'ovvv,[0;1;2;3])] [0;2;1;3]));
  (*1362*) SubFrom (T 311) (Plain (Einsum [(n_v'aaaa'ovvv,[0;1;2;3])] [0;2;3;1]));
  (*1363*) Assign (T 312) (Plain (Zeros [3;5;5]));
  (*1364*) SubFrom (T 312) (Plain (Einsum [(n_u11'aa,[0;1;2]); (T 311,[1;3;4;2])] [0;3;4]));
  (*1365*) Del (T 311);
  (*1366*) AddTo (T 312) (Plain (Einsum [(n_gc'aa'bvv,[0;1;2])] [0;1;2]));
  (*1367*) AddTo (T 312) (Plain (Einsum [(n_u11'bb,[0;1;2]); (n_v'bbaa'ovvv,[1;2;3;4])] [0;3;4]));
  (*1368*) AddTo n_u11new_aa (Plain (Einsum [(n_t1'aa,[0;1]); (T 312,[2;3;1])] [2;0;3]));
  (*1369*) Del (T 312);
  (*1370*) Assign (T 313) (Plain (Zeros [3;3]));
  (*1371*) AddTo (T 313) (Plain (Einsum [(n_g'aa'bov,[0;1;2]); (n_u11'aa,[3;1;2])] [0;3]));
  (*1372*) Assign (T 315) (Plain (Zeros [3;3]));
  (*1373*) AddTo (T 315) (Plain (Einsum [(T 313,[0;1])] [0;1]));
  (*1374*) Del (T 313);
  (*1375*) Assign (T 314) (Plain (Zeros [3;3]));
  (*1376*) AddTo (T 314) (Plain (Einsum [(n_g'bb'bov,[0;1;2]); (n_u11'bb,[3;1;2])] [0;3]));
  (*1377*) AddTo (T 315) (Plain (Einsum [(T 314,[0;1])] [0;1]));
  (*1378*) Del (T 314);
  (*1379*) AddTo (T 315) (Plain (Einsum [(n_w,[0;1])] [0;1]));
  (*1380*) AddTo n_u11new_aa (Plain (Einsum [(T 315,[0;1]); (n_u11'aa,[0;2;3])] [1;2;3]));
  (*1381*) AddTo n_u11new_bb (Plain (Einsum [(T 315,[0;1]); (n_u11'bb,[0;2;3])] [1;2;3]));
  (*1382*) Del (T 315);
  (*1383*) AddTo (T 317) (Plain (Einsum [(n_f'bb'vv,[0;1])] [0;1]));
  (*1384*) AddTo n_u11new_bb (Plain (Einsum [(T 317,[0;1]); (n_u11'bb,[2;3;1])] [2;3;0]));
  (*1385*) Del (T 317);
  (*1386*) AddTo (T 318) (Plain (Einsum [(n_f'bb'ov,[0;1])] [0;1]));
  (*1387*) AddTo (T 319) (Plain (Einsum [(T 318,[0;1]); (n_u11'bb,[2;3;1])] [2;0;3]));
  (*1388*) Del (T 318);
  (*1389*) AddTo (T 319) (Plain (Einsum [(n_gc'bb'boo,[0;1;2])] [0;1;2]));
  (*1390*) AddTo (T 319) (Plain (Einsum [(n_u11'aa,[0;1;2]); (n_v'aabb'ovoo,[1;2;3;4])] [0;3;4]));
  (*1391*) AddTo n_u11new_bb (Times (Einsum [(n_t1'bb,[0;1]); (T 319,[2;0;3])] [2;3;1]) (-1) 1);
  (*1392*) Del (T 319);
  (*1393*) Assign (T 320) (Plain (Zeros [6;7;7;7]));
  (*1394*) AddTo (T 320) (Plain (Einsum [(n_v'bbbb'ovvv,[0;1;2;3])] [0;2;1;3]));
  (*1395*) SubFrom (T 320) (Plain (Einsum [(n_v'bbbb'ovvv,[0;1;2;3])] [0;2;3;1]));
  (*1396*) Assign (T 321) (Plain (Zeros [3;7;7]));
  (*1397*) SubFrom (T 321) (Plain (Einsum [(n_u11'bb,[0;1;2]); (T 320,[1;3;4;2])] [0;3;4]));
  (*1398*) Del (T 320);
  (*1399*) AddTo (T 321) (Plain (Einsum [(n_gc'bb'bvv,[0;1;2])] [0;1;2]));
  (*1400*) AddTo (T 321) (Plain (Einsum [(n_u11'aa,[0;1;2]); (n_v'aabb'ovvv,[1;2;3;4])] [0;3;4]));
  (*1401*) AddTo n_u11new_bb (Plain (Einsum [(n_t1'bb,[0;1]); (T 321,[2;3;1])] [2;0;3]));
  (*1402*) Del (T 321);
  (*1403*) AddTo n_t1new_aa (Plain (Einsum [(n_f'aa'vo,[0;1])] [1;0]));
  (*1404*) AddTo n_t1new_aa (Plain (Einsum [(n_t2'abab,[0;1;2;3]); (n_v'bbaa'ovvv,[1;3;4;2])] [0;4]));
  (*1405*) AddTo n_t1new_aa (Plain (Einsum [(n_t1'bb,[0;1]); (n_v'bbaa'ovvo,[0;1;2;3])] [3;2]));
  (*1406*) AddTo n_t1new_aa (Plain (Einsum [(n_s1,[0]); (n_g'aa'bvo,[0;1;2])] [2;1]));
  (*1407*) AddTo n_t1new_aa (Plain (Einsum [(n_g'aa'bvv,[0;1;2]); (n_u11'aa,[0;3;2])] [3;1]));
  (*1408*) AddTo n_t1new_bb (Plain (Einsum [(n_g'bb'bvv,[0;1;2]); (n_u11'bb,[0;3;2])] [3;1]));
  (*1409*) AddTo n_t1new_bb (Plain (Einsum [(n_t1'aa,[0;1]); (n_v'aabb'ovvo,[0;1;2;3])] [3;2]));
  (*1410*) AddTo n_t1new_bb (Plain (Einsum [(n_t2'abab,[0;1;2;3]); (n_v'aabb'ovvv,[0;2;4;3])] [1;4]));
  (*1411*) AddTo n_t1new_bb (Plain (Einsum [(n_f'bb'vo,[0;1])] [1;0]));
  (*1412*) AddTo n_t1new_bb (Plain (Einsum [(n_s1,[0]); (n_g'bb'bvo,[0;1;2])] [2;1]));
  (*1413*) SubFrom n_t2new_aaaa (Plain (Einsum [(n_v'aaaa'vovo,[0;1;2;3])] [3;1;0;2]));
  (*1414*) AddTo n_t2new_aaaa (Plain (Einsum [(n_v'aaaa'vovo,[0;1;2;3])] [3;1;2;0]));
  (*1415*) SubFrom n_t2new_bbbb (Plain (Einsum [(n_v'bbbb'vovo,[0;1;2;3])] [3;1;0;2]));
  (*1416*) AddTo n_t2new_bbbb (Plain (Einsum [(n_v'bbbb'vovo,[0;1;2;3])] [3;1;2;0]));
  (*1417*) AddTo n_t2new_baba (Plain (Einsum [(n_v'aabb'vovo,[0;1;2;3])] [3;1;2;0]));
  (*1418*) AddTo n_t2new_abab (Plain (Einsum [(n_v'aabb'vovo,[0;1;2;3])] [1;3;0;2]));
  (*1419*) AddTo n_s1new (Plain (Einsum [(n_t1'aa,[0;1]); (n_gc'aa'bov,[2;0;1])] [2]));
  (*1420*) AddTo n_s1new (Plain (Einsum [(n_G,[0])] [0]));
  (*1421*) AddTo n_s1new (Plain (Einsum [(n_s1,[0]); (n_w,[0;1])] [1]));
  (*1422*) AddTo n_s1new (Plain (Einsum [(n_t1'bb,[0;1]); (n_gc'bb'bov,[2;0;1])] [2]));
  (*1423*) AddTo n_u11new_aa (Plain (Einsum [(n_gc'aa'bvo,[0;1;2])] [0;2;1]));
  (*1424*) AddTo n_u11new_aa (Plain (Einsum [(n_u11'bb,[0;1;2]); (n_v'bbaa'ovvo,[1;2;3;4])] [0;4;3]));
  (*1425*) AddTo n_u11new_bb (Plain (Einsum [(n_u11'aa,[0;1;2]); (n_v'aabb'ovvo,[1;2;3;4])] [0;4;3]));
  (*1426*) AddTo n_u11new_bb (Plain (Einsum [(n_gc'bb'bvo,[0;1;2])] [0;2;1]));
  (*1428*) Assign n_t1new'aa (Plain (Copy n_t1new_aa));
  (*1429*) Assign n_t1new'bb (Plain (Copy n_t1new_bb));
  (*1430*) Assign n_t2new'abab (Plain (Copy n_t2new_abab));
  (*1431*) Assign n_t2new'baba (Plain (Copy n_t2new_baba));
  (*1432*) Assign n_t2new'aaaa (Plain (Copy n_t2new_aaaa));
  (*1433*) Assign n_t2new'bbbb (Plain (Copy n_t2new_bbbb));
  (*1434*) Assign n_u11new'aa (Plain (Copy n_u11new_aa));
  (*1435*) Assign n_u11new'bb (Plain (Copy n_u11new_bb))]
 [(n_t1new'aa,[4;5]); (n_t1new'bb,[6;7]); (n_t2new'abab,[4;6;5;7]); (n_t2new'baba,[6;4;7;5]); (n_t2new'aaaa,[4;4;5;5]); (n_t2new'bbbb,[6;6;7;7]); (n_s1new,[3]); (n_u11new'aa,[3;4;5]); (n_u11new'bb,[3;6;7])].

(** ebcc/codegen/UCCSD_S_1_1.py:1439-3787 [update_lams] *)
Definition UCCSD_S_1_1_update_lams : prog := mkprog
 [(n_g'aa'boo,[3;4;4]); (n_g'aa'bvo,[3;5;4]); (n_g'aa'bov,[3;4;5]); (n_g'aa'bvv,[3;5;5]); (n_g'bb'boo,[3;6;6]); (n_g'bb'bvo,[3;7;6]); (n_g'bb'bov,[3;6;7]); (n_g'bb'bvv,[3;7;7]); (n_t1'bb,[6;7]); (n_l2'abab,[5;7;4;6]); (n_t1'aa,[4;5]); (n_v'aabb'ovoo,[4;5;6;6]); (n_v'aabb'ooov,[4;4;6;7]); (n_t2'abab,[4;6;5;7]); (n_v'bbaa'ovvv,[6;7;5;5]); (n_v'bbaa'oovv,[6;6;5;5]); (n_v'aabb'ovov,[4;5;6;7]); (n_l1'aa,[5;4]); (n_s1,[3]); (n_v'aabb'ovvv,[4;5;7;7]); (n_f'aa'ov,[4;5]); (n_t2'aaaa,[4;4;5;5]); (n_v'aaaa'oovo,[4;4;5;4]); (n_v'aaaa'ovvv,[4;5;5;5]); (n_v'aaaa'ovov,[4;5;4;5]); (n_l2'aaaa,[5;5;4;4]); (n_u11'aa,[3;4;5]); (n_v'aaaa'ooov,[4;4;4;5]); (n_v'aaaa'ovvo,[4;5;5;4]); (n_v'aaaa'oovv,[4;4;5;5]); (n_v'aaaa'oooo,[4;4;4;4]); (n_t2'bbbb,[6;6;7;7]); (n_v'bbbb'ovvv,[6;7;7;7]); (n_l2'bbbb,[7;7;6;6]); (n_lu11'bb,[3;7;6]); (n_ls1,[3]); (n_v'aabb'oooo,[4;4;6;6]); (n_v'aabb'ovvo,[4;5;7;6]); (n_v'aabb'oovo,[4;4;7;6]); (n_v'aabb'oovv,[4;4;7;7]); (n_l1'bb,[7;6]); (n_lu11'aa,[3;5;4]); (n_v'aaaa'vvvv,[5;5;5;5]); (n_v'aaaa'vovv,[5;4;5;5]); (n_v'aabb'vvvo,[5;5;7;6]); (n_v'aabb'vvvv,[5;5;7;7]); (n_v'bbaa'ovvo,[6;7;5;4]); (n_v'bbbb'ovov,[6;7;6;7]); (n_u11'bb,[3;6;7]); (n_f'bb'ov,[6;7]); (n_f'aa'oo,[4;4]); (n_f'aa'vv,[5;5]); (n_G,[3]); (n_f'aa'vo,[5;4]); (n_v'bbbb'ooov,[6;6;6;7]); (n_v'bbbb'ovvo,[6;7;7;6]); (n_v'bbbb'oovv,[6;6;7;7]); (n_f'bb'oo,[6;6]); (n_f'bb'vv,[7;7]); (n_f'bb'vo,[7;6]); (n_w,[3;3]); (n_v'bbaa'oovo,[6;6;5;4]); (n_v'bbbb'oooo,[6;6;6;6]); (n_v'bbbb'oovo,[6;6;7;6]); (n_v'bbbb'vvvv,[7;7;7;7]); (n_v'bbbb'vovv,[7;6;7;7]); (n_v'aabb'vovv,[5;4;7;7])]
 [(*1445*) Assign n_gc'aa'boo (Plain (Transpose n_g'aa'boo [0;2;1]));
  (*1445*) Assign n_gc'aa'bov (Plain (Transpose n_g'aa'bvo [0;2;1]));
  (*1445*) Assign n_gc'aa'bvo (Plain (Transpose n_g'aa'bov [0;2;1]));
  (*1445*) Assign n_gc'aa'bvv (Plain (Transpose n_g'aa'bvv [0;2;1]));
  (*1445*) Assign n_gc'bb'boo (Plain (Transpose n_g'bb'boo [0;2;1]));
  (*1445*) Assign n_gc'bb'bov (Plain (Transpose n_g'bb'bvo [0;2;1]));
  (*1445*) Assign n_gc'bb'bvo (Plain (Transpose n_g'bb'bov [0;2;1]));
  (*1445*) Assign n_gc'bb'bvv (Plain (Transpose n_g'bb'bvv [0;2;1]));
  (*1461*) Assign (T 1) (Plain (Zeros [4;6;6;5]));
  (*1462*) AddTo (T 1) (Plain (Einsum [(n_t1'bb,[0;1]); (n_l2'abab,[2;1;3;4])] [3;4;0;2]));
  (*1463*) Assign (T 3) (Plain (Zeros [4;4;6;6]));
  (*1464*) AddTo (T 3) (Plain (Einsum [(n_t1'aa,[0;1]); (T 1,[2;3;4;1])] [2;0;3;4]));
  (*1465*) Assign (T 68) (Plain (Zeros [4;4;6;6]));
  (*1466*) AddTo (T 68) (Plain (Einsum [(T 3,[0;1;2;3])] [0;1;2;3]));
  (*1467*) Assign (T 462) (Plain (Zeros [4;4;6;6]));
  (*1468*) AddTo (T 462) (Plain (Einsum [(T 3,[0;1;2;3])] [0;1;2;3]));
  (*1469*) Assign n_l1new_aa (Plain (Zeros [5;4]));
  (*1470*) AddTo n_l1new_aa (Plain (Einsum [(n_v'aabb'ovoo,[0;1;2;3]); (T 3,[4;0;3;2])] [1;4]));
  (*1471*) Assign n_l1new_bb (Plain (Zeros [7;6]));
  (*1472*) AddTo n_l1new_bb (Plain (Einsum [(n_v'aabb'ooov,[0;1;2;3]); (T 3,[1;0;4;2])] [3;4]));
  (*1473*) Del (T 3);
  (*1474*) Assign (T 53) (Plain (Zeros [4;6;5;7]));
  (*1475*) AddTo (T 53) (Plain (Einsum [(n_t1'bb,[0;1]); (T 1,[2;0;3;4])] [2;3;4;1]));
  (*1476*) Assign (T 69) (Plain (Zeros [4;4;6;7]));
  (*1477*) AddTo (T 69) (Plain (Einsum [(n_t2'abab,[0;1;2;3]); (T 1,[4;1;5;2])] [4;0;5;3]));
  (*1478*) Assign (T 177) (Plain (Zeros [6;7]));
  (*1479*) AddTo (T 177) (Plain (Einsum [(n_t2'abab,[0;1;2;3]); (T 1,[0;1;4;2])] [4;3]));
  (*1480*) Assign (T 187) (Plain (Zeros [6;7]));
  (*1481*) AddTo (T 187) (Plain (Einsum [(T 177,[0;1])] [0;1]));
  (*1482*) Del (T 177);
  (*1483*) Assign (T 253) (Plain (Zeros [6;6;6;7]));
  (*1484*) AddTo (T 253) (Plain (Einsum [(n_t2'abab,[0;1;2;3]); (T 1,[0;4;5;2])] [4;1;5;3]));
  (*1485*) Assign (T 296) (Plain (Zeros [4;4;5;5]));
  (*1486*) AddTo (T 296) (Plain (Einsum [(n_v'aabb'ovoo,[0;1;2;3]); (T 1,[4;3;2;5])] [4;0;5;1]));
  (*1487*) Assign (T 334) (Plain (Zeros [4;4;5;5]));
  (*1488*) SubFrom (T 334) (Plain (Einsum [(T 296,[0;1;2;3])] [0;1;2;3]));
  (*1489*) Del (T 296);
  (*1490*) Assign (T 431) (Plain (Zeros [4;6;5;7]));
  (*1491*) AddTo (T 431) (Plain (Einsum [(n_v'bbaa'ovvv,[0;1;2;3]); (T 1,[4;5;0;2])] [4;5;3;1]));
  (*1492*) Assign n_l2new_baba (Plain (Zeros [7;5;6;4]));
  (*1493*) SubFrom n_l2new_baba (Plain (Einsum [(T 431,[0;1;2;3])] [3;2;1;0]));
  (*1494*) Assign n_l2new_abab (Plain (Zeros [5;7;4;6]));
  (*1495*) SubFrom n_l2new_abab (Plain (Einsum [(T 431,[0;1;2;3])] [2;3;0;1]));
  (*1496*) Del (T 431);
  (*1497*) SubFrom n_l1new_aa (Plain (Einsum [(n_v'bbaa'oovv,[0;1;2;3]); (T 1,[4;1;0;2])] [3;4]));
  (*1498*) Assign (T 2) (Plain (Zeros [4;4;6;6]));
  (*1499*) AddTo (T 2) (Plain (Einsum [(n_l2'abab,[0;1;2;3]); (n_t2'abab,[4;5;0;1])] [2;4;3;5]));
  (*1500*) AddTo (T 68) (Plain (Einsum [(T 2,[0;1;2;3])] [0;1;2;3]));
  (*1501*) AddTo (T 69) (Plain (Einsum [(n_t1'bb,[0;1]); (T 68,[2;3;0;4])] [2;3;4;1]));
  (*1502*) Assign (T 259) (Plain (Zeros [4;6;6;5]));
  (*1503*) AddTo (T 259) (Plain (Einsum [(n_t1'aa,[0;1]); (T 68,[0;2;3;4])] [2;3;4;1]));
  (*1504*) Del (T 68);
  (*1505*) AddTo (T 462) (Plain (Einsum [(T 2,[0;1;2;3])] [0;1;2;3]));
  (*1506*) Assign (T 463) (Plain (Zeros [4;6;5;7]));
  (*1507*) AddTo (T 463) (Plain (Einsum [(n_v'aabb'ovov,[0;1;2;3]); (T 462,[4;0;5;2])] [4;5;1;3]));
  (*1508*) Del (T 462);
  (*1509*) AddTo n_l2new_baba (Plain (Einsum [(T 463,[0;1;2;3])] [3;2;1;0]));
  (*1510*) AddTo n_l2new_abab (Plain (Einsum [(T 463,[0;1;2;3])] [2;3;0;1]));
  (*1511*) Del (T 463);
  (*1512*) AddTo n_l1new_aa (Plain (Einsum [(n_v'aabb'ovoo,[0;1;2;3]); (T 2,[4;0;3;2])] [1;4]));
  (*1513*) AddTo n_l1new_bb (Plain (Einsum [(n_v'aabb'ooov,[0;1;2;3]); (T 2,[1;0;4;2])] [3;4]));
  (*1514*) Del (T 2);
  (*1515*) Assign (T 4) (Plain (Zeros [4;4]));
  (*1516*) AddTo (T 4) (Plain (Einsum [(n_l1'aa,[0;1]); (n_t1'aa,[2;0])] [1;2]));
  (*1517*) Assign (T 164) (Plain (Zeros [4;4]));
  (*1518*) AddTo (T 164) (Plain (Einsum [(T 4,[0;1])] [0;1]));
  (*1519*) Assign (T 209) (Plain (Zeros [4;4]));
  (*1520*) AddTo (T 209) (Plain (Einsum [(T 4,[0;1])] [0;1]));
  (*1521*) Assign (T 327) (Plain (Zeros [4;4]));
  (*1522*) AddTo (T 327) (Plain (Einsum [(T 4,[0;1])] [0;1]));
  (*1523*) Assign (T 5) (Plain (Zeros [4;5]));
  (*1524*) AddTo (T 5) (Plain (Einsum [(n_s1,[0]); (n_g'aa'bov,[0;1;2])] [1;2]));
  (*1525*) Assign (T 7) (Plain (Zeros [4;5]));
  (*1526*) AddTo (T 7) (Plain (Einsum [(T 5,[0;1])] [0;1]));
  (*1527*) Assign (T 32) (Plain (Zeros [4;5]));
  (*1528*) AddTo (T 32) (Plain (Einsum [(T 5,[0;1])] [0;1]));
  (*1529*) Assign (T 315) (Plain (Zeros [4;5]));
  (*1530*) AddTo (T 315) (Plain (Einsum [(T 5,[0;1])] [0;1]));
  (*1531*) Assign (T 496) (Plain (Zeros [4;5]));
  (*1532*) AddTo (T 496) (Plain (Einsum [(T 5,[0;1])] [0;1]));
  (*1533*) SubFrom n_l1new_aa (Plain (Einsum [(T 4,[0;1]); (T 5,[1;2])] [2;0]));
  (*1534*) Del (T 4);
  (*1535*) Del (T 5);
  (*1536*) Assign (T 6) (Plain (Zeros [4;4;7;7]));
  (*1537*) AddTo (T 6) (Plain (Einsum [(n_l2'abab,[0;1;2;3]); (n_t2'abab,[4;3;0;5])] [2;4;1;5]));
  (*1538*) AddTo n_l1new_aa (Times (Einsum [(n_v'aabb'ovvv,[0;1;2;3]); (T 6,[4;0;2;3])] [1;4]) (-1) 1);
  (*1539*) Del (T 6);
  (*1540*) AddTo (T 7) (Plain (Einsum [(n_f'aa'ov,[0;1])] [0;1]));
  (*1541*) Assign (T 8) (Plain (Zeros [4;4;4;5]));
  (*1542*) AddTo (T 8) (Plain (Einsum [(T 7,[0;1]); (n_t2'aaaa,[2;3;1;4])] [2;3;0;4]));
  (*1543*) Del (T 7);
  (*1544*) Assign (T 9) (Plain (Zeros [4;4;4;5]));
  (*1545*) AddTo (T 9) (Plain (Einsum [(T 8,[0;1;2;3])] [2;1;0;3]));
  (*1546*) Del (T 8);
  (*1547*) AddTo (T 9) (Times (Einsum [(n_v'aaaa'oovo,[0;1;2;3])] [0;1;3;2]) (-1) 1);
  (*1548*) Assign (T 27) (Plain (Zeros [4;4;4;5]));
  (*1549*) AddTo (T 27) (Plain (Einsum [(T 9,[0;1;2;3])] [2;0;1;3]));
  (*1550*) AddTo (T 27) (Times (Einsum [(T 9,[0;1;2;3])] [1;0;2;3]) (-1) 1);
  (*1551*) Del (T 9);
  (*1552*) Assign (T 10) (Plain (Zeros [4;4;4;5]));
  (*1553*) AddTo (T 10) (Plain (Einsum [(n_t2'aaaa,[0;1;2;3]); (n_v'aaaa'ovvv,[4;2;5;3])] [0;1;4;5]));
  (*1554*) Assign (T 18) (Plain (Zeros [4;4;4;5]));
  (*1555*) AddTo (T 18) (Times (Einsum [(T 10,[0;1;2;3])] [0;1;2;3]) (-1) 1);
  (*1556*) Del (T 10);
  (*1557*) Assign (T 11) (Plain (Zeros [4;4;4;4]));
  (*1558*) AddTo (T 11) (Plain (Einsum [(n_t2'aaaa,[0;1;2;3]); (n_v'aaaa'ovov,[4;3;5;2])] [0;1;5;4]));
  (*1559*) Assign (T 12) (Plain (Zeros [4;4;4;5]));
  (*1560*) AddTo (T 12) (Plain (Einsum [(n_t1'aa,[0;1]); (T 11,[2;3;0;4])] [3;2;4;1]));
  (*1561*) AddTo (T 18) (Plain (Einsum [(T 12,[0;1;2;3])] [0;1;2;3]));
  (*1562*) Del (T 12);
  (*1563*) Assign (T 357) (Plain (Zeros [4;4;5;5]));
  (*1564*) AddTo (T 357) (Plain (Einsum [(n_l2'aaaa,[0;1;2;3]); (T 11,[2;3;4;5])] [4;5;0;1]));
  (*1565*) Del (T 11);
  (*1566*) Assign (T 361) (Plain (Zeros [4;4;5;5]));
  (*1567*) AddTo (T 361) (Plain (Einsum [(T 357,[0;1;2;3])] [0;1;2;3]));
  (*1568*) Del (T 357);
  (*1569*) Assign (T 13) (Plain (Zeros [4;5]));
  (*1570*) AddTo (T 13) (Plain (Einsum [(n_t1'bb,[0;1]); (n_v'aabb'ovov,[2;3;0;1])] [2;3]));
  (*1571*) Assign (T 16) (Plain (Zeros [4;5]));
  (*1572*) AddTo (T 16) (Plain (Einsum [(T 13,[0;1])] [0;1]));
  (*1573*) AddTo (T 32) (Plain (Einsum [(T 13,[0;1])] [0;1]));
  (*1574*) Assign (T 210) (Plain (Zeros [4;5]));
  (*1575*) AddTo (T 210) (Plain (Einsum [(T 13,[0;1])] [0;1]));
  (*1576*) Assign (T 333) (Plain (Zeros [4;5]));
  (*1577*) AddTo (T 333) (Plain (Einsum [(T 13,[0;1])] [0;1]));
  (*1578*) AddTo (T 496) (Plain (Einsum [(T 13,[0;1])] [0;1]));
  (*1579*) Del (T 13);
  (*1580*) Assign (T 14) (Plain (Zeros [4;4;5;5]));
  (*1581*) AddTo (T 14) (Times (Einsum [(n_v'aaaa'ovov,[0;1;2;3])] [2;0;1;3]) (-1) 1);
  (*1582*) AddTo (T 14) (Plain (Einsum [(n_v'aaaa'ovov,[0;1;2;3])] [2;0;3;1]));
  (*1583*) Assign (T 15) (Plain (Zeros [4;5]));
  (*1584*) AddTo (T 15) (Plain (Einsum [(n_t1'aa,[0;1]); (T 14,[0;2;3;1])] [2;3]));
  (*1585*) AddTo (T 16) (Times (Einsum [(T 15,[0;1])] [0;1]) (-1) 1);
  (*1586*) Assign (T 17) (Plain (Zeros [4;4;4;5]));
  (*1587*) AddTo (T 17) (Plain (Einsum [(T 16,[0;1]); (n_t2'aaaa,[2;3;1;4])] [2;3;0;4]));
  (*1588*) AddTo (T 18) (Plain (Einsum [(T 17,[0;1;2;3])] [1;0;2;3]));
  (*1589*) Del (T 17);
  (*1590*) AddTo (T 27) (Plain (Einsum [(T 18,[0;1;2;3])] [1;2;0;3]));
  (*1591*) AddTo (T 27) (Times (Einsum [(T 18,[0;1;2;3])] [0;2;1;3]) (-1) 1);
  (*1592*) Del (T 18);
  (*1593*) Assign (T 345) (Plain (Zeros [4;4]));
  (*1594*) AddTo (T 345) (Plain (Einsum [(n_t1'aa,[0;1]); (T 16,[2;1])] [0;2]));
  (*1595*) Assign (T 346) (Plain (Zeros [4;4]));
  (*1596*) AddTo (T 346) (Plain (Einsum [(T 345,[0;1])] [0;1]));
  (*1597*) Del (T 345);
  (*1598*) Assign (T 518) (Plain (Zeros [5;5]));
  (*1599*) AddTo (T 518) (Times (Einsum [(n_t1'aa,[0;1]); (T 16,[0;2])] [1;2]) (-1) 1);
  (*1600*) AddTo (T 32) (Times (Einsum [(T 15,[0;1])] [0;1]) (-1) 1);
  (*1601*) AddTo (T 210) (Times (Einsum [(T 15,[0;1])] [0;1]) (-1) 1);
  (*1602*) Del (T 15);
  (*1603*) Assign (T 195) (Plain (Zeros [3;4;5]));
  (*1604*) AddTo (T 195) (Plain (Einsum [(n_u11'aa,[0;1;2]); (T 14,[1;3;4;2])] [0;3;4]));
  (*1605*) Assign (T 196) (Plain (Zeros [3;4;5]));
  (*1606*) AddTo (T 196) (Times (Einsum [(T 195,[0;1;2])] [0;1;2]) (-1) 1);
  (*1607*) Del (T 195);
  (*1608*) Assign (T 436) (Plain (Zeros [4;6;5;7]));
  (*1609*) AddTo (T 436) (Plain (Einsum [(n_t2'abab,[0;1;2;3]); (T 14,[0;4;5;2])] [4;1;5;3]));
  (*1610*) Assign (T 438) (Plain (Zeros [4;6;5;7]));
  (*1611*) AddTo (T 438) (Times (Einsum [(T 436,[0;1;2;3])] [0;1;2;3]) (-1) 1);
  (*1612*) Del (T 436);
  (*1613*) Assign (T 19) (Plain (Zeros [4;4;4;5]));
  (*1614*) AddTo (T 19) (Plain (Einsum [(n_t1'aa,[0;1]); (n_v'aaaa'ovov,[2;3;4;1])] [0;2;4;3]));
  (*1615*) Assign (T 20) (Plain (Zeros [4;4;4;5]));
  (*1616*) AddTo (T 20) (Times (Einsum [(T 19,[0;1;2;3])] [0;2;1;3]) (-1) 1);
  (*1617*) AddTo (T 20) (Plain (Einsum [(T 19,[0;1;2;3])] [0;1;2;3]));
  (*1618*) Assign (T 28) (Plain (Zeros [4;4;4;5]));
  (*1619*) AddTo (T 28) (Plain (Einsum [(T 19,[0;1;2;3])] [1;2;0;3]));
  (*1620*) AddTo (T 28) (Times (Einsum [(T 19,[0;1;2;3])] [2;1;0;3]) (-1) 1);
  (*1621*) Assign (T 47) (Plain (Zeros [4;4;4;4]));
  (*1622*) AddTo (T 47) (Plain (Einsum [(n_t1'aa,[0;1]); (T 19,[2;3;4;1])] [0;2;3;4]));
  (*1623*) Assign (T 48) (Plain (Zeros [4;4;4;5]));
  (*1624*) AddTo (T 48) (Plain (Einsum [(n_t1'aa,[0;1]); (T 47,[2;3;0;4])] [3;2;4;1]));
  (*1625*) Assign (T 49) (Plain (Zeros [4;4;4;5]));
  (*1626*) AddTo (T 49) (Plain (Einsum [(T 48,[0;1;2;3])] [0;1;2;3]));
  (*1627*) Del (T 48);
  (*1628*) Assign (T 358) (Plain (Zeros [4;4;5;5]));
  (*1629*) AddTo (T 358) (Plain (Einsum [(n_l2'aaaa,[0;1;2;3]); (T 47,[3;2;4;5])] [4;5;1;0]));
  (*1630*) Del (T 47);
  (*1631*) AddTo (T 361) (Plain (Einsum [(T 358,[0;1;2;3])] [0;1;2;3]));
  (*1632*) Del (T 358);
  (*1633*) Assign (T 84) (Plain (Zeros [4;4;4;5]));
  (*1634*) AddTo (T 84) (Times (Einsum [(T 19,[0;1;2;3])] [1;2;0;3]) (-1) 1);
  (*1635*) AddTo (T 84) (Plain (Einsum [(T 19,[0;1;2;3])] [2;1;0;3]));
  (*1636*) Assign (T 330) (Plain (Zeros [4;4;4;5]));
  (*1637*) AddTo (T 330) (Plain (Einsum [(T 19,[0;1;2;3])] [0;1;2;3]));
  (*1638*) Assign (T 342) (Plain (Zeros [4;4;4;5]));
  (*1639*) AddTo (T 342) (Times (Einsum [(T 19,[0;1;2;3])] [0;2;1;3]) (-1) 1);
  (*1640*) AddTo (T 342) (Plain (Einsum [(T 19,[0;1;2;3])] [0;1;2;3]));
  (*1641*) Assign (T 467) (Plain (Zeros [4;4;4;5]));
  (*1642*) AddTo (T 467) (Plain (Einsum [(T 19,[0;1;2;3])] [0;2;1;3]));
  (*1643*) AddTo (T 467) (Times (Einsum [(T 19,[0;1;2;3])] [0;1;2;3]) (-1) 1);
  (*1644*) Del (T 19);
  (*1645*) AddTo (T 20) (Plain (Einsum [(n_v'aaaa'ooov,[0;1;2;3])] [1;2;0;3]));
  (*1646*) AddTo (T 20) (Times (Einsum [(n_v'aaaa'ooov,[0;1;2;3])] [1;0;2;3]) (-1) 1);
  (*1647*) Assign (T 21) (Plain (Zeros [4;4;5;5]));
  (*1648*) AddTo (T 21) (Plain (Einsum [(n_t2'aaaa,[0;1;2;3])] [1;0;2;3]));
  (*1649*) AddTo (T 21) (Times (Einsum [(n_t2'aaaa,[0;1;2;3])] [1;0;3;2]) (-1) 1);
  (*1650*) AddTo (T 27) (Plain (Einsum [(T 20,[0;1;2;3]); (T 21,[2;4;3;5])] [0;1;4;5]));
  (*1651*) Assign (T 51) (Plain (Zeros [4;4;4;5]));
  (*1652*) AddTo (T 51) (Times (Einsum [(T 20,[0;1;2;3]); (T 21,[2;4;3;5])] [0;1;4;5]) (9999999999999993) 10000000000000000);
  (*1653*) Del (T 20);
  (*1654*) Assign (T 83) (Plain (Zeros [4;5]));
  (*1655*) AddTo (T 83) (Plain (Einsum [(n_v'aaaa'ovvv,[0;1;2;3]); (T 21,[0;4;1;3])] [4;2]));
  (*1656*) Assign (T 117) (Plain (Zeros [4;5]));
  (*1657*) AddTo (T 117) (Times (Einsum [(T 83,[0;1])] [0;1]) (-1) 1);
  (*1658*) Del (T 83);
  (*1659*) Assign (T 162) (Plain (Zeros [4;5]));
  (*1660*) AddTo (T 162) (Plain (Einsum [(n_l1'aa,[0;1]); (T 21,[1;2;3;0])] [2;3]));
  (*1661*) Assign (T 166) (Plain (Zeros [4;5]));
  (*1662*) AddTo (T 166) (Times (Einsum [(T 162,[0;1])] [0;1]) (-1) 1);
  (*1663*) Del (T 162);
  (*1664*) Assign (T 170) (Plain (Zeros [5;5]));
  (*1665*) AddTo (T 170) (Plain (Einsum [(n_l2'aaaa,[0;1;2;3]); (T 21,[2;3;0;4])] [1;4]));
  (*1666*) Assign (T 171) (Plain (Zeros [5;5]));
  (*1667*) AddTo (T 171) (Times (Einsum [(T 170,[0;1])] [0;1]) (-1) 1);
  (*1668*) Assign (T 348) (Plain (Zeros [5;5]));
  (*1669*) AddTo (T 348) (Times (Einsum [(T 170,[0;1])] [0;1]) (-1) 1);
  (*1670*) Assign (T 477) (Plain (Zeros [5;5]));
  (*1671*) AddTo (T 477) (Times (Einsum [(T 170,[0;1])] [0;1]) (-1) 1);
  (*1672*) Del (T 170);
  (*1673*) Assign (T 250) (Plain (Zeros [4;6;5;7]));
  (*1674*) AddTo (T 250) (Times (Einsum [(n_l2'abab,[0;1;2;3]); (T 21,[2;4;5;0])] [4;3;5;1]) (-1) 1);
  (*1675*) AddTo (T 259) (Times (Einsum [(T 1,[0;1;2;3]); (T 21,[0;4;5;3])] [4;1;2;5]) (-1) 1);
  (*1676*) Assign (T 339) (Plain (Zeros [4;4;5;5]));
  (*1677*) AddTo (T 339) (Plain (Einsum [(T 14,[0;1;2;3]); (T 21,[0;4;3;5])] [4;1;5;2]));
  (*1678*) Assign (T 340) (Plain (Zeros [4;4;5;5]));
  (*1679*) AddTo (T 340) (Plain (Einsum [(T 339,[0;1;2;3])] [0;1;2;3]));
  (*1680*) Del (T 339);
  (*1681*) Assign (T 351) (Plain (Zeros [5;5]));
  (*1682*) AddTo (T 351) (Plain (Einsum [(n_v'aaaa'ovov,[0;1;2;3]); (T 21,[0;2;1;4])] [4;3]));
  (*1683*) Assign (T 352) (Plain (Zeros [5;5]));
  (*1684*) AddTo (T 352) (Times (Einsum [(T 351,[0;1])] [0;1]) (-1) 1);
  (*1685*) Del (T 351);
  (*1686*) Assign (T 469) (Plain (Zeros [5;5]));
  (*1687*) AddTo (T 469) (Plain (Einsum [(n_v'aaaa'ovov,[0;1;2;3]); (T 21,[0;2;4;1])] [4;3]));
  (*1688*) Assign (T 470) (Plain (Zeros [5;5]));
  (*1689*) AddTo (T 470) (Times (Einsum [(T 469,[0;1])] [0;1]) (-1) 1);
  (*1690*) AddTo (T 518) (Times (Einsum [(T 469,[0;1])] [0;1]) (-1) 1);
  (*1691*) Del (T 469);
  (*1692*) Assign (T 22) (Plain (Zeros [4;4;6;7]));
  (*1693*) AddTo (T 22) (Plain (Einsum [(n_t1'aa,[0;1]); (n_v'aabb'ovov,[2;1;3;4])] [0;2;3;4]));
  (*1694*) Assign (T 23) (Plain (Zeros [4;4;6;7]));
  (*1695*) AddTo (T 23) (Plain (Einsum [(T 22,[0;1;2;3])] [1;0;2;3]));
  (*1696*) Assign (T 493) (Plain (Zeros [4;4;6;7]));
  (*1697*) AddTo (T 493) (Plain (Einsum [(T 22,[0;1;2;3])] [1;0;2;3]));
  (*1698*) AddTo (T 23) (Plain (Einsum [(n_v'aabb'ooov,[0;1;2;3])] [0;1;2;3]));
  (*1699*) AddTo (T 27) (Plain (Einsum [(n_t2'abab,[0;1;2;3]); (T 23,[4;5;1;3])] [5;4;0;2]));
  (*1700*) AddTo (T 51) (Times (Einsum [(n_t2'abab,[0;1;2;3]); (T 23,[4;5;1;3])] [5;4;0;2]) (9999999999999993) 10000000000000000);
  (*1701*) Assign (T 86) (Plain (Zeros [4;5]));
  (*1702*) AddTo (T 86) (Plain (Einsum [(n_t2'abab,[0;1;2;3]); (T 23,[0;4;1;3])] [4;2]));
  (*1703*) AddTo (T 117) (Times (Einsum [(T 86,[0;1])] [0;1]) (-1) 1);
  (*1704*) Del (T 86);
  (*1705*) Assign (T 229) (Plain (Zeros [4;6;6;5]));
  (*1706*) AddTo (T 229) (Times (Einsum [(n_t2'abab,[0;1;2;3]); (T 23,[0;4;5;3])] [4;5;1;2]) (-1) 1);
  (*1707*) Assign (T 466) (Plain (Zeros [4;6;5;7]));
  (*1708*) AddTo (T 466) (Plain (Einsum [(T 1,[0;1;2;3]); (T 23,[4;0;2;5])] [4;1;3;5]));
  (*1709*) AddTo n_l2new_baba (Plain (Einsum [(T 466,[0;1;2;3])] [3;2;1;0]));
  (*1710*) AddTo n_l2new_abab (Plain (Einsum [(T 466,[0;1;2;3])] [2;3;0;1]));
  (*1711*) Del (T 466);
  (*1712*) Assign (T 24) (Plain (Zeros [4;4;5;5]));
  (*1713*) AddTo (T 24) (Plain (Einsum [(n_v'aaaa'ovvo,[0;1;2;3])] [0;3;2;1]));
  (*1714*) AddTo (T 24) (Times (Einsum [(n_v'aaaa'oovv,[0;1;2;3])] [0;1;2;3]) (-1) 1);
  (*1715*) AddTo (T 27) (Plain (Einsum [(n_t1'aa,[0;1]); (T 24,[2;3;4;1])] [0;2;3;4]));
  (*1716*) AddTo (T 51) (Times (Einsum [(n_t1'aa,[0;1]); (T 24,[2;3;4;1])] [0;2;3;4]) (9999999999999993) 10000000000000000);
  (*1717*) Assign (T 94) (Plain (Zeros [4;5]));
  (*1718*) AddTo (T 94) (Plain (Einsum [(n_t1'aa,[0;1]); (T 24,[0;2;3;1])] [2;3]));
  (*1719*) AddTo (T 117) (Plain (Einsum [(T 94,[0;1])] [0;1]));
  (*1720*) Del (T 94);
  (*1721*) Assign (T 25) (Plain (Zeros [4;4;4;4]));
  (*1722*) AddTo (T 25) (Plain (Einsum [(n_t1'aa,[0;1]); (n_v'aaaa'ooov,[2;3;4;1])] [0;2;4;3]));
  (*1723*) Assign (T 26) (Plain (Zeros [4;4;4;4]));
  (*1724*) AddTo (T 26) (Plain (Einsum [(T 25,[0;1;2;3])] [1;2;0;3]));
  (*1725*) AddTo (T 26) (Times (Einsum [(T 25,[0;1;2;3])] [2;1;0;3]) (-1) 1);
  (*1726*) Assign (T 50) (Plain (Zeros [4;4;4;4]));
  (*1727*) AddTo (T 50) (Plain (Einsum [(T 25,[0;1;2;3])] [0;2;1;3]));
  (*1728*) AddTo (T 50) (Times (Einsum [(T 25,[0;1;2;3])] [0;1;2;3]) (-1) 1);
  (*1729*) AddTo (T 51) (Times (Einsum [(n_t1'aa,[0;1]); (T 50,[2;3;0;4])] [2;3;4;1]) (-9999999999999993) 10000000000000000);
  (*1730*) Del (T 50);
  (*1731*) Assign (T 294) (Plain (Zeros [4;4;5;5]));
  (*1732*) AddTo (T 294) (Plain (Einsum [(n_l2'aaaa,[0;1;2;3]); (T 25,[3;4;5;2])] [4;5;1;0]));
  (*1733*) Del (T 25);
  (*1734*) SubFrom (T 334) (Plain (Einsum [(T 294,[0;1;2;3])] [0;1;2;3]));
  (*1735*) Del (T 294);
  (*1736*) AddTo (T 26) (Plain (Einsum [(n_v'aaaa'oooo,[0;1;2;3])] [2;0;1;3]));
  (*1737*) AddTo (T 26) (Times (Einsum [(n_v'aaaa'oooo,[0;1;2;3])] [2;0;3;1]) (-1) 1);
  (*1738*) AddTo (T 27) (Times (Einsum [(n_t1'aa,[0;1]); (T 26,[0;2;3;4])] [3;2;4;1]) (-1) 1);
  (*1739*) Del (T 26);
  (*1740*) AddTo n_l1new_aa (Times (Einsum [(n_l2'aaaa,[0;1;2;3]); (T 27,[2;4;3;1])] [0;4]) (-1) 1);
  (*1741*) Del (T 27);
  (*1742*) AddTo (T 28) (Times (Einsum [(n_v'aaaa'ooov,[0;1;2;3])] [0;2;1;3]) (-1) 1);
  (*1743*) AddTo (T 28) (Plain (Einsum [(n_v'aaaa'ooov,[0;1;2;3])] [2;0;1;3]));
  (*1744*) Assign (T 40) (Plain (Zeros [4;4;6;7]));
  (*1745*) AddTo (T 40) (Times (Einsum [(n_t2'abab,[0;1;2;3]); (T 28,[4;0;5;2])] [4;5;1;3]) (-1) 1);
  (*1746*) Del (T 28);
  (*1747*) Assign (T 29) (Plain (Zeros [6;6;7;7]));
  (*1748*) AddTo (T 29) (Plain (Einsum [(n_t2'bbbb,[0;1;2;3])] [1;0;2;3]));
  (*1749*) AddTo (T 29) (Times (Einsum [(n_t2'bbbb,[0;1;2;3])] [1;0;3;2]) (-1) 1);
  (*1750*) AddTo (T 40) (Times (Einsum [(T 23,[0;1;2;3]); (T 29,[2;4;3;5])] [0;1;4;5]) (-1) 1);
  (*1751*) Assign (T 125) (Plain (Zeros [6;7]));
  (*1752*) AddTo (T 125) (Plain (Einsum [(n_v'bbbb'ovvv,[0;1;2;3]); (T 29,[0;4;1;3])] [4;2]));
  (*1753*) Assign (T 155) (Plain (Zeros [6;7]));
  (*1754*) AddTo (T 155) (Times (Einsum [(T 125,[0;1])] [0;1]) (-1) 1);
  (*1755*) Del (T 125);
  (*1756*) Assign (T 184) (Plain (Zeros [6;6]));
  (*1757*) AddTo (T 184) (Plain (Einsum [(n_l2'bbbb,[0;1;2;3]); (T 29,[2;4;0;1])] [3;4]));
  (*1758*) Assign (T 185) (Plain (Zeros [6;6]));
  (*1759*) AddTo (T 185) (Times (Einsum [(T 184,[0;1])] [0;1]) (-1) 1);
  (*1760*) Assign (T 252) (Plain (Zeros [6;6]));
  (*1761*) AddTo (T 252) (Times (Einsum [(T 184,[0;1])] [0;1]) (-1) 1);
  (*1762*) Assign (T 286) (Plain (Zeros [6;6]));
  (*1763*) AddTo (T 286) (Times (Einsum [(T 184,[0;1])] [0;1]) (-1) 1);
  (*1764*) Del (T 184);
  (*1765*) Assign (T 437) (Plain (Zeros [4;6;5;7]));
  (*1766*) AddTo (T 437) (Plain (Einsum [(n_v'aabb'ovov,[0;1;2;3]); (T 29,[2;4;3;5])] [0;4;1;5]));
  (*1767*) AddTo (T 438) (Times (Einsum [(T 437,[0;1;2;3])] [0;1;2;3]) (-1) 1);
  (*1768*) Del (T 437);
  (*1769*) Assign (T 510) (Plain (Zeros [3;6;7]));
  (*1770*) AddTo (T 510) (Plain (Einsum [(n_g'bb'bov,[0;1;2]); (T 29,[1;3;2;4])] [0;3;4]));
  (*1771*) Assign (T 512) (Plain (Zeros [3;6;7]));
  (*1772*) AddTo (T 512) (Times (Einsum [(T 510,[0;1;2])] [0;1;2]) (-1) 1);
  (*1773*) Del (T 510);
  (*1774*) Assign (T 515) (Plain (Zeros [3;6;7]));
  (*1775*) AddTo (T 515) (Plain (Einsum [(n_lu11'bb,[0;1;2]); (T 29,[2;3;1;4])] [0;3;4]));
  (*1776*) Assign (T 516) (Plain (Zeros [3;6;7]));
  (*1777*) AddTo (T 516) (Times (Einsum [(T 515,[0;1;2])] [0;1;2]) (-1) 1);
  (*1778*) Del (T 515);
  (*1779*) Assign (T 30) (Plain (Zeros [4;6;6;5]));
  (*1780*) AddTo (T 30) (Plain (Einsum [(n_t1'bb,[0;1]); (n_v'aabb'ovov,[2;3;4;1])] [2;0;4;3]));
  (*1781*) Assign (T 31) (Plain (Zeros [4;6;6;5]));
  (*1782*) AddTo (T 31) (Plain (Einsum [(T 30,[0;1;2;3])] [0;2;1;3]));
  (*1783*) Assign (T 35) (Plain (Zeros [4;6;6;5]));
  (*1784*) AddTo (T 35) (Plain (Einsum [(T 30,[0;1;2;3])] [0;2;1;3]));
  (*1785*) Assign (T 297) (Plain (Zeros [4;4;5;5]));
  (*1786*) AddTo (T 297) (Plain (Einsum [(T 1,[0;1;2;3]); (T 30,[4;1;2;5])] [0;4;3;5]));
  (*1787*) SubFrom (T 334) (Plain (Einsum [(T 297,[0;1;2;3])] [0;1;2;3]));
  (*1788*) Del (T 297);
  (*1789*) Assign (T 491) (Plain (Zeros [4;6;6;5]));
  (*1790*) AddTo (T 491) (Plain (Einsum [(T 30,[0;1;2;3])] [0;2;1;3]));
  (*1791*) Del (T 30);
  (*1792*) AddTo (T 31) (Plain (Einsum [(n_v'aabb'ovoo,[0;1;2;3])] [0;2;3;1]));
  (*1793*) AddTo (T 40) (Times (Einsum [(n_t2'abab,[0;1;2;3]); (T 31,[4;1;5;2])] [4;0;5;3]) (-1) 1);
  (*1794*) Assign (T 129) (Plain (Zeros [6;7]));
  (*1795*) AddTo (T 129) (Plain (Einsum [(n_t2'abab,[0;1;2;3]); (T 31,[0;1;4;2])] [4;3]));
  (*1796*) AddTo (T 155) (Times (Einsum [(T 129,[0;1])] [0;1]) (-1) 1);
  (*1797*) Del (T 129);
  (*1798*) Assign (T 224) (Plain (Zeros [6;6;6;7]));
  (*1799*) AddTo (T 224) (Plain (Einsum [(n_t2'abab,[0;1;2;3]); (T 31,[0;4;5;2])] [5;4;1;3]));
  (*1800*) Assign (T 459) (Plain (Zeros [4;4;6;6]));
  (*1801*) AddTo (T 459) (Plain (Einsum [(n_t1'aa,[0;1]); (T 31,[2;3;4;1])] [0;2;3;4]));
  (*1802*) Assign (T 460) (Plain (Zeros [4;4;6;6]));
  (*1803*) AddTo (T 460) (Plain (Einsum [(T 459,[0;1;2;3])] [1;0;2;3]));
  (*1804*) Del (T 459);
  (*1805*) AddTo (T 32) (Plain (Einsum [(n_f'aa'ov,[0;1])] [0;1]));
  (*1806*) AddTo (T 40) (Plain (Einsum [(T 32,[0;1]); (n_t2'abab,[2;3;1;4])] [0;2;3;4]));
  (*1807*) Assign (T 105) (Plain (Zeros [4;4]));
  (*1808*) AddTo (T 105) (Plain (Einsum [(n_t1'aa,[0;1]); (T 32,[2;1])] [0;2]));
  (*1809*) Assign (T 106) (Plain (Zeros [4;4]));
  (*1810*) AddTo (T 106) (Plain (Einsum [(T 105,[0;1])] [1;0]));
  (*1811*) Del (T 105);
  (*1812*) Assign (T 131) (Plain (Zeros [6;7]));
  (*1813*) AddTo (T 131) (Plain (Einsum [(T 32,[0;1]); (n_t2'abab,[0;2;1;3])] [2;3]));
  (*1814*) AddTo (T 155) (Plain (Einsum [(T 131,[0;1])] [0;1]));
  (*1815*) Del (T 131);
  (*1816*) Assign (T 197) (Plain (Zeros [3;4;4]));
  (*1817*) AddTo (T 197) (Plain (Einsum [(T 32,[0;1]); (n_u11'aa,[2;3;1])] [2;0;3]));
  (*1818*) Assign (T 214) (Plain (Zeros [3]));
  (*1819*) AddTo (T 214) (Plain (Einsum [(T 32,[0;1]); (n_u11'aa,[2;0;1])] [2]));
  (*1820*) Assign (T 216) (Plain (Zeros [3]));
  (*1821*) AddTo (T 216) (Plain (Einsum [(T 214,[0])] [0]));
  (*1822*) Del (T 214);
  (*1823*) Assign n_lu11new_aa (Plain (Zeros [3;5;4]));
  (*1824*) AddTo n_lu11new_aa (Times (Einsum [(n_ls1,[0]); (T 32,[1;2])] [0;2;1]) (2) 1);
  (*1825*) Assign (T 33) (Plain (Zeros [4;4;6;6]));
  (*1826*) AddTo (T 33) (Plain (Einsum [(n_t1'bb,[0;1]); (n_v'aabb'ooov,[2;3;4;1])] [2;3;0;4]));
  (*1827*) Assign (T 37) (Plain (Zeros [4;4;6;6]));
  (*1828*) AddTo (T 37) (Plain (Einsum [(T 33,[0;1;2;3])] [0;1;3;2]));
  (*1829*) AddTo (T 460) (Plain (Einsum [(T 33,[0;1;2;3])] [0;1;3;2]));
  (*1830*) Del (T 33);
  (*1831*) Assign (T 34) (Plain (Zeros [4;4;6;6]));
  (*1832*) AddTo (T 34) (Plain (Einsum [(n_t2'abab,[0;1;2;3]); (n_v'aabb'ovov,[4;2;5;3])] [0;4;1;5]));
  (*1833*) AddTo (T 37) (Plain (Einsum [(T 34,[0;1;2;3])] [1;0;3;2]));
  (*1834*) AddTo (T 460) (Plain (Einsum [(T 34,[0;1;2;3])] [1;0;3;2]));
  (*1835*) Del (T 34);
  (*1836*) AddTo (T 35) (Plain (Einsum [(n_v'aabb'ovoo,[0;1;2;3])] [0;2;3;1]));
  (*1837*) Assign (T 36) (Plain (Zeros [4;4;6;6]));
  (*1838*) AddTo (T 36) (Plain (Einsum [(n_t1'aa,[0;1]); (T 35,[2;3;4;1])] [0;2;3;4]));
  (*1839*) Del (T 35);
  (*1840*) AddTo (T 37) (Plain (Einsum [(T 36,[0;1;2;3])] [1;0;2;3]));
  (*1841*) Del (T 36);
  (*1842*) AddTo (T 37) (Plain (Einsum [(n_v'aabb'oooo,[0;1;2;3])] [0;1;2;3]));
  (*1843*) AddTo (T 40) (Times (Einsum [(n_t1'bb,[0;1]); (T 37,[2;3;0;4])] [2;3;4;1]) (-1) 1);
  (*1844*) AddTo (T 229) (Times (Einsum [(n_t1'aa,[0;1]); (T 37,[0;2;3;4])] [2;3;4;1]) (-1) 1);
  (*1845*) Del (T 37);
  (*1846*) Assign (T 38) (Plain (Zeros [4;6;5;7]));
  (*1847*) AddTo (T 38) (Plain (Einsum [(n_t1'bb,[0;1]); (n_v'aabb'ovvv,[2;3;4;1])] [2;0;3;4]));
  (*1848*) Assign (T 39) (Plain (Zeros [4;6;5;7]));
  (*1849*) AddTo (T 39) (Plain (Einsum [(T 38,[0;1;2;3])] [0;1;2;3]));
  (*1850*) Assign (T 305) (Plain (Zeros [4;6;5;7]));
  (*1851*) AddTo (T 305) (Plain (Einsum [(T 38,[0;1;2;3])] [0;1;2;3]));
  (*1852*) AddTo (T 438) (Plain (Einsum [(T 38,[0;1;2;3])] [0;1;2;3]));
  (*1853*) Del (T 38);
  (*1854*) AddTo (T 39) (Plain (Einsum [(n_v'aabb'ovvo,[0;1;2;3])] [0;3;1;2]));
  (*1855*) AddTo (T 40) (Plain (Einsum [(n_t1'aa,[0;1]); (T 39,[2;3;1;4])] [2;0;3;4]));
  (*1856*) AddTo (T 40) (Plain (Einsum [(n_v'aabb'oovo,[0;1;2;3])] [0;1;3;2]));
  (*1857*) AddTo (T 40) (Plain (Einsum [(n_t1'bb,[0;1]); (n_v'aabb'oovv,[2;3;4;1])] [2;3;0;4]));
  (*1858*) AddTo (T 40) (Plain (Einsum [(n_t2'abab,[0;1;2;3]); (n_v'aabb'ovvv,[4;2;5;3])] [4;0;1;5]));
  (*1859*) AddTo n_l1new_aa (Times (Einsum [(n_l2'abab,[0;1;2;3]); (T 40,[4;2;3;1])] [0;4]) (-1) 1);
  (*1860*) Del (T 40);
  (*1861*) Assign (T 41) (Plain (Zeros [4;4;5;5]));
  (*1862*) AddTo (T 41) (Plain (Einsum [(n_l2'abab,[0;1;2;3]); (n_t2'abab,[4;3;5;1])] [2;4;0;5]));
  (*1863*) Assign (T 43) (Plain (Zeros [4;4;5;5]));
  (*1864*) AddTo (T 43) (Plain (Einsum [(T 41,[0;1;2;3])] [0;1;2;3]));
  (*1865*) Assign (T 344) (Plain (Zeros [4;4;5;5]));
  (*1866*) AddTo (T 344) (Plain (Einsum [(T 14,[0;1;2;3]); (T 41,[4;0;5;3])] [4;1;5;2]));
  (*1867*) Del (T 41);
  (*1868*) Assign (T 356) (Plain (Zeros [4;4;5;5]));
  (*1869*) AddTo (T 356) (Plain (Einsum [(T 344,[0;1;2;3])] [0;1;2;3]));
  (*1870*) Del (T 344);
  (*1871*) Assign (T 42) (Plain (Zeros [4;4;5;5]));
  (*1872*) AddTo (T 42) (Plain (Einsum [(n_l2'aaaa,[0;1;2;3])] [3;2;0;1]));
  (*1873*) AddTo (T 42) (Times (Einsum [(n_l2'aaaa,[0;1;2;3])] [3;2;1;0]) (-1) 1);
  (*1874*) AddTo (T 43) (Plain (Einsum [(T 21,[0;1;2;3]); (T 42,[0;4;5;3])] [4;1;5;2]));
  (*1875*) AddTo (T 53) (Times (Einsum [(n_t2'abab,[0;1;2;3]); (T 42,[0;4;5;2])] [4;1;5;3]) (-1) 1);
  (*1876*) Assign (T 44) (Plain (Zeros [4;5;5;5]));
  (*1877*) AddTo (T 44) (Plain (Einsum [(n_v'aaaa'ovvv,[0;1;2;3])] [0;2;1;3]));
  (*1878*) AddTo (T 44) (Times (Einsum [(n_v'aaaa'ovvv,[0;1;2;3])] [0;2;3;1]) (-1) 1);
  (*1879*) Assign (T 110) (Plain (Zeros [5;5]));
  (*1880*) AddTo (T 110) (Plain (Einsum [(n_t1'aa,[0;1]); (T 44,[0;2;3;1])] [2;3]));
  (*1881*) Assign (T 111) (Plain (Zeros [5;5]));
  (*1882*) AddTo (T 111) (Times (Einsum [(T 110,[0;1])] [0;1]) (-1) 1);
  (*1883*) AddTo (T 470) (Times (Einsum [(T 110,[0;1])] [0;1]) (-1) 1);
  (*1884*) AddTo (T 518) (Times (Einsum [(T 110,[0;1])] [0;1]) (-1) 1);
  (*1885*) Del (T 110);
  (*1886*) Assign (T 449) (Plain (Zeros [4;4;5;5]));
  (*1887*) AddTo (T 449) (Plain (Einsum [(n_t1'aa,[0;1]); (T 44,[2;3;1;4])] [0;2;3;4]));
  (*1888*) Assign (T 450) (Plain (Zeros [4;4;5;5]));
  (*1889*) AddTo (T 450) (Times (Einsum [(T 449,[0;1;2;3])] [1;0;2;3]) (-1) 1);
  (*1890*) Del (T 449);
  (*1891*) AddTo n_l1new_aa (Times (Einsum [(T 43,[0;1;2;3]); (T 44,[1;2;4;3])] [4;0]) (-1) 1);
  (*1892*) Del (T 43);
  (*1893*) Assign (T 45) (Plain (Zeros [4;4;5;5]));
  (*1894*) AddTo (T 45) (Plain (Einsum [(n_t1'aa,[0;1]); (n_v'aaaa'ovvv,[2;3;4;1])] [0;2;4;3]));
  (*1895*) Assign (T 46) (Plain (Zeros [4;4;4;5]));
  (*1896*) AddTo (T 46) (Plain (Einsum [(n_t1'aa,[0;1]); (T 45,[2;3;4;1])] [0;2;3;4]));
  (*1897*) Del (T 45);
  (*1898*) AddTo (T 49) (Times (Einsum [(T 46,[0;1;2;3])] [0;1;2;3]) (-9999999999999993) 10000000000000000);
  (*1899*) Del (T 46);
  (*1900*) AddTo (T 51) (Plain (Einsum [(T 49,[0;1;2;3])] [1;2;0;3]));
  (*1901*) AddTo (T 51) (Times (Einsum [(T 49,[0;1;2;3])] [0;2;1;3]) (-1) 1);
  (*1902*) Del (T 49);
  (*1903*) AddTo n_l1new_aa (Plain (Einsum [(n_l2'aaaa,[0;1;2;3]); (T 51,[2;4;3;0])] [1;4]));
  (*1904*) Del (T 51);
  (*1905*) Assign (T 52) (Plain (Zeros [6;6;7;7]));
  (*1906*) AddTo (T 52) (Times (Einsum [(n_t2'bbbb,[0;1;2;3])] [1;0;2;3]) (-1) 1);
  (*1907*) AddTo (T 52) (Plain (Einsum [(n_t2'bbbb,[0;1;2;3])] [1;0;3;2]));
  (*1908*) AddTo (T 53) (Times (Einsum [(n_l2'abab,[0;1;2;3]); (T 52,[3;4;1;5])] [2;4;0;5]) (-1) 1);
  (*1909*) AddTo n_l1new_aa (Times (Einsum [(n_v'bbaa'ovvv,[0;1;2;3]); (T 53,[4;0;2;1])] [3;4]) (-1) 1);
  (*1910*) Del (T 53);
  (*1911*) Assign (T 180) (Plain (Zeros [6;7]));
  (*1912*) AddTo (T 180) (Plain (Einsum [(n_l1'bb,[0;1]); (T 52,[1;2;0;3])] [2;3]));
  (*1913*) AddTo (T 187) (Times (Einsum [(T 180,[0;1])] [0;1]) (-1) 1);
  (*1914*) Del (T 180);
  (*1915*) Assign (T 191) (Plain (Zeros [7;7]));
  (*1916*) AddTo (T 191) (Plain (Einsum [(n_l2'bbbb,[0;1;2;3]); (T 52,[2;3;1;4])] [0;4]));
  (*1917*) Assign (T 192) (Plain (Zeros [7;7]));
  (*1918*) AddTo (T 192) (Times (Einsum [(T 191,[0;1])] [0;1]) (-1) 1);
  (*1919*) Assign (T 423) (Plain (Zeros [7;7]));
  (*1920*) AddTo (T 423) (Times (Einsum [(T 191,[0;1])] [0;1]) (-1) 1);
  (*1921*) Assign (T 479) (Plain (Zeros [7;7]));
  (*1922*) AddTo (T 479) (Times (Einsum [(T 191,[0;1])] [0;1]) (-1) 1);
  (*1923*) Del (T 191);
  (*1924*) Assign (T 54) (Plain (Zeros [4;4;6;7]));
  (*1925*) AddTo (T 54) (Plain (Einsum [(n_t1'aa,[0;1]); (n_l2'abab,[1;2;3;4])] [3;0;4;2]));
  (*1926*) Assign (T 61) (Plain (Zeros [4;4;4;5]));
  (*1927*) AddTo (T 61) (Plain (Einsum [(n_t2'abab,[0;1;2;3]); (T 54,[4;5;1;3])] [4;0;5;2]));
  (*1928*) AddTo (T 69) (Times (Einsum [(T 52,[0;1;2;3]); (T 54,[4;5;0;2])] [4;5;1;3]) (-1) 1);
  (*1929*) Assign (T 160) (Plain (Zeros [4;5]));
  (*1930*) AddTo (T 160) (Plain (Einsum [(n_t2'abab,[0;1;2;3]); (T 54,[0;4;1;3])] [4;2]));
  (*1931*) AddTo (T 166) (Plain (Einsum [(T 160,[0;1])] [0;1]));
  (*1932*) Del (T 160);
  (*1933*) AddTo (T 250) (Plain (Einsum [(n_t1'aa,[0;1]); (T 54,[0;2;3;4])] [2;3;1;4]));
  (*1934*) AddTo (T 259) (Plain (Einsum [(n_t2'abab,[0;1;2;3]); (T 54,[0;4;5;3])] [4;5;1;2]));
  (*1935*) Assign (T 365) (Plain (Zeros [6;6;7;7]));
  (*1936*) AddTo (T 365) (Plain (Einsum [(n_v'aabb'ooov,[0;1;2;3]); (T 54,[1;0;4;5])] [4;2;5;3]));
  (*1937*) Assign (T 404) (Plain (Zeros [6;6;7;7]));
  (*1938*) SubFrom (T 404) (Plain (Einsum [(T 365,[0;1;2;3])] [0;1;2;3]));
  (*1939*) Del (T 365);
  (*1940*) Assign (T 368) (Plain (Zeros [6;6;7;7]));
  (*1941*) AddTo (T 368) (Plain (Einsum [(T 22,[0;1;2;3]); (T 54,[0;1;4;5])] [4;2;5;3]));
  (*1942*) Del (T 22);
  (*1943*) SubFrom (T 404) (Plain (Einsum [(T 368,[0;1;2;3])] [0;1;2;3]));
  (*1944*) Del (T 368);
  (*1945*) Assign (T 434) (Plain (Zeros [4;6;5;7]));
  (*1946*) AddTo (T 434) (Plain (Einsum [(n_v'aabb'ovvv,[0;1;2;3]); (T 54,[4;0;5;2])] [4;5;1;3]));
  (*1947*) SubFrom n_l2new_baba (Plain (Einsum [(T 434,[0;1;2;3])] [3;2;1;0]));
  (*1948*) SubFrom n_l2new_abab (Plain (Einsum [(T 434,[0;1;2;3])] [2;3;0;1]));
  (*1949*) Del (T 434);
  (*1950*) Assign (T 465) (Plain (Zeros [4;6;5;7]));
  (*1951*) AddTo (T 465) (Plain (Einsum [(T 31,[0;1;2;3]); (T 54,[4;0;2;5])] [4;1;3;5]));
  (*1952*) AddTo n_l2new_baba (Plain (Einsum [(T 465,[0;1;2;3])] [3;2;1;0]));
  (*1953*) AddTo n_l2new_abab (Plain (Einsum [(T 465,[0;1;2;3])] [2;3;0;1]));
  (*1954*) Del (T 465);
  (*1955*) Assign (T 484) (Plain (Zeros [4;6;5;7]));
  (*1956*) AddTo (T 484) (Plain (Einsum [(T 32,[0;1]); (T 54,[2;0;3;4])] [2;3;1;4]));
  (*1957*) AddTo n_l2new_baba (Times (Einsum [(T 484,[0;1;2;3])] [3;2;1;0]) (-1) 1);
  (*1958*) AddTo n_l2new_abab (Times (Einsum [(T 484,[0;1;2;3])] [2;3;0;1]) (-1) 1);
  (*1959*) Del (T 484);
  (*1960*) AddTo n_l1new_aa (Times (Einsum [(T 39,[0;1;2;3]); (T 54,[4;0;1;3])] [2;4]) (-1) 1);
  (*1961*) Del (T 39);
  (*1962*) SubFrom n_l1new_bb (Plain (Einsum [(n_v'aabb'oovv,[0;1;2;3]); (T 54,[1;0;4;2])] [3;4]));
  (*1963*) AddTo n_l2new_baba (Times (Einsum [(T 467,[0;1;2;3]); (T 54,[0;1;4;5])] [5;3;4;2]) (-1) 1);
  (*1964*) AddTo n_l2new_abab (Plain (Einsum [(T 467,[0;1;2;3]); (T 54,[0;2;4;5])] [3;5;1;4]));
  (*1965*) Del (T 467);
  (*1966*) Assign (T 55) (Plain (Zeros [4;4;4;5]));
  (*1967*) AddTo (T 55) (Plain (Einsum [(n_t1'aa,[0;1]); (n_l2'aaaa,[1;2;3;4])] [4;3;0;2]));
  (*1968*) Assign (T 56) (Plain (Zeros [4;4;4;5]));
  (*1969*) AddTo (T 56) (Times (Einsum [(T 55,[0;1;2;3])] [0;1;2;3]) (-1) 1);
  (*1970*) AddTo (T 56) (Plain (Einsum [(T 55,[0;1;2;3])] [1;0;2;3]));
  (*1971*) AddTo (T 69) (Times (Einsum [(n_t2'abab,[0;1;2;3]); (T 56,[4;0;5;2])] [4;5;1;3]) (-1) 1);
  (*1972*) AddTo n_l1new_aa (Times (Einsum [(T 24,[0;1;2;3]); (T 56,[4;1;0;2])] [3;4]) (-1) 1);
  (*1973*) Del (T 24);
  (*1974*) Assign (T 63) (Plain (Zeros [4;4;4;5]));
  (*1975*) AddTo (T 63) (Plain (Einsum [(T 55,[0;1;2;3])] [0;1;2;3]));
  (*1976*) AddTo (T 63) (Times (Einsum [(T 55,[0;1;2;3])] [1;0;2;3]) (-1) 1);
  (*1977*) Assign (T 64) (Plain (Zeros [4;4;5;5]));
  (*1978*) AddTo (T 64) (Times (Einsum [(n_t1'aa,[0;1]); (T 63,[2;0;3;4])] [2;3;4;1]) (-1) 1);
  (*1979*) AddTo n_l1new_aa (Plain (Einsum [(T 44,[0;1;2;3]); (T 64,[4;0;1;2])] [3;4]));
  (*1980*) Del (T 44);
  (*1981*) Del (T 64);
  (*1982*) Assign (T 343) (Plain (Zeros [4;4;5;5]));
  (*1983*) AddTo (T 343) (Plain (Einsum [(T 342,[0;1;2;3]); (T 63,[4;0;2;5])] [4;1;5;3]));
  (*1984*) Del (T 342);
  (*1985*) AddTo (T 356) (Plain (Einsum [(T 343,[0;1;2;3])] [0;1;2;3]));
  (*1986*) Del (T 343);
  (*1987*) AddTo n_l2new_abab (Times (Einsum [(T 23,[0;1;2;3]); (T 63,[4;1;0;5])] [5;3;4;2]) (-1) 1);
  (*1988*) Del (T 63);
  (*1989*) Assign (T 72) (Plain (Zeros [4;4;4;4]));
  (*1990*) AddTo (T 72) (Plain (Einsum [(n_t1'aa,[0;1]); (T 55,[2;3;4;1])] [3;2;4;0]));
  (*1991*) Assign (T 73) (Plain (Zeros [4;4;4;4]));
  (*1992*) AddTo (T 73) (Plain (Einsum [(T 72,[0;1;2;3])] [0;1;2;3]));
  (*1993*) Assign (T 118) (Plain (Zeros [4;4;4;4]));
  (*1994*) AddTo (T 118) (Times (Einsum [(T 72,[0;1;2;3])] [0;1;2;3]) (-1) 1);
  (*1995*) AddTo (T 118) (Plain (Einsum [(T 72,[0;1;2;3])] [0;1;3;2]));
  (*1996*) AddTo n_l1new_aa (Plain (Einsum [(n_v'aaaa'ooov,[0;1;2;3]); (T 118,[4;1;0;2])] [3;4]));
  (*1997*) Del (T 118);
  (*1998*) Assign (T 359) (Plain (Zeros [4;4;4;4]));
  (*1999*) AddTo (T 359) (Plain (Einsum [(T 72,[0;1;2;3])] [0;1;2;3]));
  (*2000*) Del (T 72);
  (*2001*) Assign (T 161) (Plain (Zeros [4;5]));
  (*2002*) AddTo (T 161) (Plain (Einsum [(T 21,[0;1;2;3]); (T 55,[1;0;4;3])] [4;2]));
  (*2003*) Del (T 21);
  (*2004*) AddTo (T 166) (Times (Einsum [(T 161,[0;1])] [0;1]) (-1) 1);
  (*2005*) Del (T 161);
  (*2006*) Assign (T 295) (Plain (Zeros [4;4;5;5]));
  (*2007*) AddTo (T 295) (Plain (Einsum [(n_v'aaaa'ovvv,[0;1;2;3]); (T 55,[4;5;0;2])] [5;4;1;3]));
  (*2008*) SubFrom (T 334) (Plain (Einsum [(T 295,[0;1;2;3])] [0;1;2;3]));
  (*2009*) Del (T 295);
  (*2010*) Assign (T 307) (Plain (Zeros [4;4;4;5]));
  (*2011*) AddTo (T 307) (Plain (Einsum [(T 55,[0;1;2;3])] [0;1;2;3]));
  (*2012*) SubFrom (T 307) (Plain (Einsum [(T 55,[0;1;2;3])] [1;0;2;3]));
  (*2013*) AddTo n_l2new_baba (Times (Einsum [(T 23,[0;1;2;3]); (T 307,[4;1;0;5])] [3;5;2;4]) (-1) 1);
  (*2014*) Del (T 23);
  (*2015*) Assign (T 355) (Plain (Zeros [4;4;5;5]));
  (*2016*) AddTo (T 355) (Plain (Einsum [(T 16,[0;1]); (T 55,[2;3;0;4])] [2;3;4;1]));
  (*2017*) Del (T 16);
  (*2018*) AddTo (T 356) (Plain (Einsum [(T 355,[0;1;2;3])] [0;1;2;3]));
  (*2019*) Del (T 355);
  (*2020*) Assign (T 57) (Plain (Zeros [4;4;5;5]));
  (*2021*) AddTo (T 57) (Times (Einsum [(n_t2'aaaa,[0;1;2;3])] [1;0;2;3]) (-1) 1);
  (*2022*) AddTo (T 57) (Plain (Einsum [(n_t2'aaaa,[0;1;2;3])] [1;0;3;2]));
  (*2023*) Assign (T 59) (Plain (Zeros [4;4]));
  (*2024*) AddTo (T 59) (Plain (Einsum [(n_l2'aaaa,[0;1;2;3]); (T 57,[2;4;1;0])] [3;4]));
  (*2025*) Assign (T 60) (Plain (Zeros [4;4]));
  (*2026*) AddTo (T 60) (Times (Einsum [(T 59,[0;1])] [0;1]) (-1) 1);
  (*2027*) AddTo (T 164) (Times (Einsum [(T 59,[0;1])] [0;1]) (-1) 1);
  (*2028*) Assign (T 206) (Plain (Zeros [4;4]));
  (*2029*) AddTo (T 206) (Times (Einsum [(T 59,[0;1])] [0;1]) (-1) 1);
  (*2030*) Del (T 59);
  (*2031*) AddTo (T 61) (Plain (Einsum [(T 56,[0;1;2;3]); (T 57,[0;4;5;3])] [1;4;2;5]));
  (*2032*) Del (T 56);
  (*2033*) Assign (T 87) (Plain (Zeros [4;5]));
  (*2034*) AddTo (T 87) (Plain (Einsum [(T 32,[0;1]); (T 57,[0;2;3;1])] [2;3]));
  (*2035*) Del (T 32);
  (*2036*) AddTo (T 117) (Times (Einsum [(T 87,[0;1])] [0;1]) (-1) 1);
  (*2037*) Del (T 87);
  (*2038*) Assign (T 102) (Plain (Zeros [4;4]));
  (*2039*) AddTo (T 102) (Plain (Einsum [(n_v'aaaa'ovov,[0;1;2;3]); (T 57,[0;4;3;1])] [4;2]));
  (*2040*) AddTo (T 106) (Times (Einsum [(T 102,[0;1])] [1;0]) (-1) 1);
  (*2041*) AddTo (T 346) (Times (Einsum [(T 102,[0;1])] [0;1]) (-1) 1);
  (*2042*) Del (T 102);
  (*2043*) AddTo (T 229) (Times (Einsum [(T 31,[0;1;2;3]); (T 57,[0;4;5;3])] [4;1;2;5]) (-1) 1);
  (*2044*) Assign (T 440) (Plain (Zeros [4;6;5;7]));
  (*2045*) AddTo (T 440) (Plain (Einsum [(n_v'aabb'ovov,[0;1;2;3]); (T 57,[0;4;5;1])] [4;2;5;3]));
  (*2046*) Assign (T 442) (Plain (Zeros [4;6;5;7]));
  (*2047*) AddTo (T 442) (Times (Einsum [(T 440,[0;1;2;3])] [0;1;2;3]) (-1) 1);
  (*2048*) Del (T 440);
  (*2049*) Assign (T 501) (Plain (Zeros [3;4;5]));
  (*2050*) AddTo (T 501) (Plain (Einsum [(n_g'aa'bov,[0;1;2]); (T 57,[1;3;4;2])] [0;3;4]));
  (*2051*) Assign (T 503) (Plain (Zeros [3;4;5]));
  (*2052*) AddTo (T 503) (Times (Einsum [(T 501,[0;1;2])] [0;1;2]) (-1) 1);
  (*2053*) Del (T 501);
  (*2054*) Assign (T 506) (Plain (Zeros [3;4;5]));
  (*2055*) AddTo (T 506) (Plain (Einsum [(n_lu11'aa,[0;1;2]); (T 57,[2;3;4;1])] [0;3;4]));
  (*2056*) Assign (T 507) (Plain (Zeros [3;4;5]));
  (*2057*) AddTo (T 507) (Times (Einsum [(T 506,[0;1;2])] [0;1;2]) (-1) 1);
  (*2058*) Del (T 506);
  (*2059*) Assign (T 58) (Plain (Zeros [4;4]));
  (*2060*) AddTo (T 58) (Plain (Einsum [(n_l2'abab,[0;1;2;3]); (n_t2'abab,[4;3;0;1])] [2;4]));
  (*2061*) AddTo (T 60) (Plain (Einsum [(T 58,[0;1])] [0;1]));
  (*2062*) AddTo (T 61) (Plain (Einsum [(n_t1'aa,[0;1]); (T 60,[2;3])] [2;0;3;1]));
  (*2063*) AddTo (T 69) (Times (Einsum [(n_t1'bb,[0;1]); (T 60,[2;3])] [2;3;0;1]) (-1) 1);
  (*2064*) Assign (T 354) (Plain (Zeros [4;4;5;5]));
  (*2065*) AddTo (T 354) (Plain (Einsum [(T 60,[0;1]); (n_v'aaaa'ovov,[1;2;3;4])] [0;3;2;4]));
  (*2066*) AddTo (T 356) (Times (Einsum [(T 354,[0;1;2;3])] [0;1;3;2]) (-1) 1);
  (*2067*) Del (T 354);
  (*2068*) AddTo n_l1new_aa (Times (Einsum [(n_f'aa'ov,[0;1]); (T 60,[2;0])] [1;2]) (-1) 1);
  (*2069*) Del (T 60);
  (*2070*) AddTo (T 164) (Plain (Einsum [(T 58,[0;1])] [0;1]));
  (*2071*) AddTo (T 206) (Plain (Einsum [(T 58,[0;1])] [0;1]));
  (*2072*) Del (T 58);
  (*2073*) Assign (T 62) (Plain (Zeros [4;4;5;5]));
  (*2074*) AddTo (T 62) (Plain (Einsum [(n_v'aaaa'ovov,[0;1;2;3])] [2;0;1;3]));
  (*2075*) AddTo (T 62) (Times (Einsum [(n_v'aaaa'ovov,[0;1;2;3])] [2;0;3;1]) (-1) 1);
  (*2076*) Assign (T 448) (Plain (Zeros [4;4;5;5]));
  (*2077*) AddTo (T 448) (Plain (Einsum [(T 57,[0;1;2;3]); (T 62,[0;4;3;5])] [1;4;2;5]));
  (*2078*) Del (T 57);
  (*2079*) AddTo (T 450) (Plain (Einsum [(T 448,[0;1;2;3])] [1;0;2;3]));
  (*2080*) Del (T 448);
  (*2081*) AddTo n_l1new_aa (Times (Einsum [(T 61,[0;1;2;3]); (T 62,[2;1;3;4])] [4;0]) (-1) 1);
  (*2082*) Del (T 61);
  (*2083*) Assign (T 65) (Plain (Zeros [4;5;5;5]));
  (*2084*) AddTo (T 65) (Plain (Einsum [(n_t1'aa,[0;1]); (n_v'aaaa'vvvv,[2;3;4;1])] [0;2;4;3]));
  (*2085*) Assign (T 66) (Plain (Zeros [4;5;5;5]));
  (*2086*) AddTo (T 66) (Times (Einsum [(T 65,[0;1;2;3])] [0;1;2;3]) (-1) 1);
  (*2087*) Del (T 65);
  (*2088*) AddTo (T 66) (Plain (Einsum [(n_v'aaaa'vovv,[0;1;2;3])] [1;0;2;3]));
  (*2089*) Assign (T 67) (Plain (Zeros [4;5;5;5]));
  (*2090*) AddTo (T 67) (Plain (Einsum [(T 66,[0;1;2;3])] [0;1;2;3]));
  (*2091*) AddTo (T 67) (Times (Einsum [(T 66,[0;1;2;3])] [0;2;1;3]) (-1) 1);
  (*2092*) Del (T 66);
  (*2093*) AddTo n_l1new_aa (Times (Einsum [(n_l2'aaaa,[0;1;2;3]); (T 67,[2;1;0;4])] [4;3]) (-1) 1);
  (*2094*) Del (T 67);
  (*2095*) AddTo (T 69) (Times (Einsum [(n_l1'aa,[0;1]); (n_t2'abab,[2;3;0;4])] [1;2;3;4]) (-1) 1);
  (*2096*) AddTo n_l1new_aa (Plain (Einsum [(n_v'aabb'ovov,[0;1;2;3]); (T 69,[4;0;2;3])] [1;4]));
  (*2097*) Del (T 69);
  (*2098*) Assign (T 70) (Plain (Zeros [4;4;4;5]));
  (*2099*) AddTo (T 70) (Plain (Einsum [(n_l1'aa,[0;1]); (n_t2'aaaa,[2;3;0;4])] [1;3;2;4]));
  (*2100*) Assign (T 75) (Plain (Zeros [4;4;4;5]));
  (*2101*) AddTo (T 75) (Plain (Einsum [(T 70,[0;1;2;3])] [0;1;2;3]));
  (*2102*) Del (T 70);
  (*2103*) Assign (T 71) (Plain (Zeros [4;4;4;4]));
  (*2104*) AddTo (T 71) (Plain (Einsum [(n_l2'aaaa,[0;1;2;3]); (n_t2'aaaa,[4;5;0;1])] [2;3;4;5]));
  (*2105*) AddTo (T 73) (Plain (Einsum [(T 71,[0;1;2;3])] [1;0;3;2]));
  (*2106*) Assign (T 74) (Plain (Zeros [4;4;4;5]));
  (*2107*) AddTo (T 74) (Plain (Einsum [(n_t1'aa,[0;1]); (T 73,[0;2;3;4])] [2;3;4;1]));
  (*2108*) Del (T 73);
  (*2109*) AddTo (T 75) (Plain (Einsum [(T 74,[0;1;2;3])] [0;2;1;3]));
  (*2110*) Del (T 74);
  (*2111*) Assign (T 76) (Plain (Zeros [4;4;4;5]));
  (*2112*) AddTo (T 76) (Plain (Einsum [(T 75,[0;1;2;3])] [0;2;1;3]));
  (*2113*) AddTo (T 76) (Times (Einsum [(T 75,[0;1;2;3])] [0;1;2;3]) (-1) 1);
  (*2114*) Del (T 75);
  (*2115*) AddTo n_l1new_aa (Times (Einsum [(n_v'aaaa'ovov,[0;1;2;3]); (T 76,[4;0;2;3])] [1;4]) (-1) 1);
  (*2116*) Del (T 76);
  (*2117*) Assign (T 119) (Plain (Zeros [4;4;4;4]));
  (*2118*) AddTo (T 119) (Plain (Einsum [(T 71,[0;1;2;3])] [1;0;2;3]));
  (*2119*) AddTo (T 119) (Times (Einsum [(T 71,[0;1;2;3])] [1;0;3;2]) (-1) 1);
  (*2120*) AddTo n_l1new_aa (Times (Einsum [(n_v'aaaa'ooov,[0;1;2;3]); (T 119,[1;4;0;2])] [3;4]) (-1) 1);
  (*2121*) Del (T 119);
  (*2122*) AddTo (T 359) (Plain (Einsum [(T 71,[0;1;2;3])] [1;0;3;2]));
  (*2123*) Del (T 71);
  (*2124*) Assign (T 360) (Plain (Zeros [4;4;5;5]));
  (*2125*) AddTo (T 360) (Plain (Einsum [(n_v'aaaa'ovov,[0;1;2;3]); (T 359,[4;5;2;0])] [4;5;1;3]));
  (*2126*) Del (T 359);
  (*2127*) AddTo (T 361) (Plain (Einsum [(T 360,[0;1;2;3])] [1;0;2;3]));
  (*2128*) Del (T 360);
  (*2129*) Assign n_l2new_aaaa (Plain (Zeros [5;5;4;4]));
  (*2130*) AddTo n_l2new_aaaa (Plain (Einsum [(T 361,[0;1;2;3])] [2;3;0;1]));
  (*2131*) AddTo n_l2new_aaaa (Times (Einsum [(T 361,[0;1;2;3])] [3;2;0;1]) (-1) 1);
  (*2132*) Del (T 361);
  (*2133*) Assign (T 77) (Plain (Zeros [6;5;5;7]));
  (*2134*) AddTo (T 77) (Plain (Einsum [(n_v'aabb'vvvo,[0;1;2;3])] [3;0;1;2]));
  (*2135*) AddTo (T 77) (Plain (Einsum [(n_t1'bb,[0;1]); (n_v'aabb'vvvv,[2;3;4;1])] [0;2;3;4]));
  (*2136*) AddTo n_l1new_aa (Plain (Einsum [(n_l2'abab,[0;1;2;3]); (T 77,[3;0;4;1])] [4;2]));
  (*2137*) Del (T 77);
  (*2138*) Assign (T 78) (Plain (Zeros [4;5]));
  (*2139*) AddTo (T 78) (Plain (Einsum [(n_s1,[0]); (n_g'aa'bvo,[0;1;2])] [2;1]));
  (*2140*) AddTo (T 117) (Plain (Einsum [(T 78,[0;1])] [0;1]));
  (*2141*) Del (T 78);
  (*2142*) Assign (T 79) (Plain (Zeros [4;5]));
  (*2143*) AddTo (T 79) (Plain (Einsum [(n_g'aa'bvv,[0;1;2]); (n_u11'aa,[0;3;2])] [3;1]));
  (*2144*) AddTo (T 117) (Plain (Einsum [(T 79,[0;1])] [0;1]));
  (*2145*) Del (T 79);
  (*2146*) Assign (T 80) (Plain (Zeros [4;5]));
  (*2147*) AddTo (T 80) (Plain (Einsum [(n_t1'bb,[0;1]); (n_v'bbaa'ovvo,[0;1;2;3])] [3;2]));
  (*2148*) AddTo (T 117) (Plain (Einsum [(T 80,[0;1])] [0;1]));
  (*2149*) Del (T 80);
  (*2150*) Assign (T 81) (Plain (Zeros [4;5]));
  (*2151*) AddTo (T 81) (Plain (Einsum [(n_t2'aaaa,[0;1;2;3]); (n_v'aaaa'ooov,[1;4;0;3])] [4;2]));
  (*2152*) AddTo (T 117) (Plain (Einsum [(T 81,[0;1])] [0;1]));
  (*2153*) Del (T 81);
  (*2154*) Assign (T 82) (Plain (Zeros [4;5]));
  (*2155*) AddTo (T 82) (Plain (Einsum [(n_t2'abab,[0;1;2;3]); (n_v'bbaa'ovvv,[1;3;4;2])] [0;4]));
  (*2156*) AddTo (T 117) (Plain (Einsum [(T 82,[0;1])] [0;1]));
  (*2157*) Del (T 82);
  (*2158*) AddTo (T 84) (Plain (Einsum [(n_v'aaaa'ooov,[0;1;2;3])] [0;2;1;3]));
  (*2159*) Assign (T 85) (Plain (Zeros [4;5]));
  (*2160*) AddTo (T 85) (Plain (Einsum [(n_t2'aaaa,[0;1;2;3]); (T 84,[0;1;4;3])] [4;2]));
  (*2161*) Del (T 84);
  (*2162*) AddTo (T 117) (Times (Einsum [(T 85,[0;1])] [0;1]) (-1) 1);
  (*2163*) Del (T 85);
  (*2164*) Assign (T 88) (Plain (Zeros [6;7]));
  (*2165*) AddTo (T 88) (Plain (Einsum [(n_s1,[0]); (n_g'bb'bov,[0;1;2])] [1;2]));
  (*2166*) Assign (T 92) (Plain (Zeros [6;7]));
  (*2167*) AddTo (T 92) (Plain (Einsum [(T 88,[0;1])] [0;1]));
  (*2168*) Assign (T 236) (Plain (Zeros [6;7]));
  (*2169*) AddTo (T 236) (Plain (Einsum [(T 88,[0;1])] [0;1]));
  (*2170*) Assign (T 385) (Plain (Zeros [6;7]));
  (*2171*) AddTo (T 385) (Plain (Einsum [(T 88,[0;1])] [0;1]));
  (*2172*) Assign (T 495) (Plain (Zeros [6;7]));
  (*2173*) AddTo (T 495) (Plain (Einsum [(T 88,[0;1])] [0;1]));
  (*2174*) Assign (T 89) (Plain (Zeros [6;7]));
  (*2175*) AddTo (T 89) (Plain (Einsum [(n_t1'aa,[0;1]); (n_v'aabb'ovov,[0;1;2;3])] [2;3]));
  (*2176*) AddTo (T 92) (Plain (Einsum [(T 89,[0;1])] [0;1]));
  (*2177*) Assign (T 242) (Plain (Zeros [6;7]));
  (*2178*) AddTo (T 242) (Plain (Einsum [(T 89,[0;1])] [0;1]));
  (*2179*) Assign (T 290) (Plain (Zeros [6;7]));
  (*2180*) AddTo (T 290) (Plain (Einsum [(T 89,[0;1])] [0;1]));
  (*2181*) Assign (T 403) (Plain (Zeros [6;7]));
  (*2182*) AddTo (T 403) (Plain (Einsum [(T 89,[0;1])] [0;1]));
  (*2183*) AddTo (T 495) (Plain (Einsum [(T 89,[0;1])] [0;1]));
  (*2184*) Del (T 89);
  (*2185*) Assign (T 90) (Plain (Zeros [6;6;7;7]));
  (*2186*) AddTo (T 90) (Plain (Einsum [(n_v'bbbb'ovov,[0;1;2;3])] [2;0;1;3]));
  (*2187*) AddTo (T 90) (Times (Einsum [(n_v'bbbb'ovov,[0;1;2;3])] [2;0;3;1]) (-1) 1);
  (*2188*) Assign (T 91) (Plain (Zeros [6;7]));
  (*2189*) AddTo (T 91) (Plain (Einsum [(n_t1'bb,[0;1]); (T 90,[0;2;1;3])] [2;3]));
  (*2190*) AddTo (T 92) (Times (Einsum [(T 91,[0;1])] [0;1]) (-1) 1);
  (*2191*) AddTo (T 242) (Times (Einsum [(T 91,[0;1])] [0;1]) (-1) 1);
  (*2192*) Assign (T 243) (Plain (Zeros [6;6;6;7]));
  (*2193*) AddTo (T 243) (Plain (Einsum [(T 242,[0;1]); (n_t2'bbbb,[2;3;1;4])] [2;3;0;4]));
  (*2194*) Assign (T 248) (Plain (Zeros [6;6;6;7]));
  (*2195*) AddTo (T 248) (Plain (Einsum [(T 243,[0;1;2;3])] [1;0;2;3]));
  (*2196*) Del (T 243);
  (*2197*) Assign (T 416) (Plain (Zeros [6;6]));
  (*2198*) AddTo (T 416) (Plain (Einsum [(n_t1'bb,[0;1]); (T 242,[2;1])] [0;2]));
  (*2199*) Assign (T 417) (Plain (Zeros [6;6]));
  (*2200*) AddTo (T 417) (Plain (Einsum [(T 416,[0;1])] [0;1]));
  (*2201*) Del (T 416);
  (*2202*) Assign (T 526) (Plain (Zeros [7;7]));
  (*2203*) AddTo (T 526) (Times (Einsum [(n_t1'bb,[0;1]); (T 242,[0;2])] [1;2]) (-1) 1);
  (*2204*) AddTo (T 290) (Times (Einsum [(T 91,[0;1])] [0;1]) (-1) 1);
  (*2205*) Del (T 91);
  (*2206*) Assign (T 275) (Plain (Zeros [3;6;7]));
  (*2207*) AddTo (T 275) (Plain (Einsum [(n_u11'bb,[0;1;2]); (T 90,[1;3;2;4])] [0;3;4]));
  (*2208*) Assign (T 276) (Plain (Zeros [3;6;7]));
  (*2209*) AddTo (T 276) (Times (Einsum [(T 275,[0;1;2])] [0;1;2]) (-1) 1);
  (*2210*) Del (T 275);
  (*2211*) Assign (T 415) (Plain (Zeros [6;6]));
  (*2212*) AddTo (T 415) (Plain (Einsum [(n_t2'bbbb,[0;1;2;3]); (T 90,[0;4;2;3])] [1;4]));
  (*2213*) AddTo (T 417) (Times (Einsum [(T 415,[0;1])] [0;1]) (-1) 1);
  (*2214*) Del (T 415);
  (*2215*) Assign (T 441) (Plain (Zeros [4;6;5;7]));
  (*2216*) AddTo (T 441) (Plain (Einsum [(n_t2'abab,[0;1;2;3]); (T 90,[1;4;3;5])] [0;4;2;5]));
  (*2217*) AddTo (T 442) (Times (Einsum [(T 441,[0;1;2;3])] [0;1;2;3]) (-1) 1);
  (*2218*) Del (T 441);
  (*2219*) Assign (T 472) (Plain (Zeros [7;7]));
  (*2220*) AddTo (T 472) (Plain (Einsum [(n_t2'bbbb,[0;1;2;3]); (T 90,[0;1;3;4])] [2;4]));
  (*2221*) Assign (T 473) (Plain (Zeros [7;7]));
  (*2222*) AddTo (T 473) (Times (Einsum [(T 472,[0;1])] [0;1]) (-1) 1);
  (*2223*) AddTo (T 526) (Times (Einsum [(T 472,[0;1])] [0;1]) (-1) 1);
  (*2224*) Del (T 472);
  (*2225*) AddTo (T 92) (Plain (Einsum [(n_f'bb'ov,[0;1])] [0;1]));
  (*2226*) Assign (T 93) (Plain (Zeros [4;5]));
  (*2227*) AddTo (T 93) (Plain (Einsum [(T 92,[0;1]); (n_t2'abab,[2;0;3;1])] [2;3]));
  (*2228*) AddTo (T 117) (Plain (Einsum [(T 93,[0;1])] [0;1]));
  (*2229*) Del (T 93);
  (*2230*) Assign (T 130) (Plain (Zeros [6;7]));
  (*2231*) AddTo (T 130) (Plain (Einsum [(T 92,[0;1]); (T 29,[0;2;1;3])] [2;3]));
  (*2232*) AddTo (T 155) (Times (Einsum [(T 130,[0;1])] [0;1]) (-1) 1);
  (*2233*) Del (T 130);
  (*2234*) Assign (T 145) (Plain (Zeros [6;6]));
  (*2235*) AddTo (T 145) (Plain (Einsum [(n_t1'bb,[0;1]); (T 92,[2;1])] [0;2]));
  (*2236*) Assign (T 146) (Plain (Zeros [6;6]));
  (*2237*) AddTo (T 146) (Plain (Einsum [(T 145,[0;1])] [1;0]));
  (*2238*) Del (T 145);
  (*2239*) Assign (T 215) (Plain (Zeros [3]));
  (*2240*) AddTo (T 215) (Plain (Einsum [(T 92,[0;1]); (n_u11'bb,[2;0;1])] [2]));
  (*2241*) AddTo (T 216) (Plain (Einsum [(T 215,[0])] [0]));
  (*2242*) Del (T 215);
  (*2243*) AddTo (T 229) (Plain (Einsum [(T 92,[0;1]); (n_t2'abab,[2;3;4;1])] [2;0;3;4]));
  (*2244*) Assign (T 277) (Plain (Zeros [3;6;6]));
  (*2245*) AddTo (T 277) (Plain (Einsum [(T 92,[0;1]); (n_u11'bb,[2;3;1])] [2;0;3]));
  (*2246*) Assign (T 483) (Plain (Zeros [4;6;5;7]));
  (*2247*) AddTo (T 483) (Plain (Einsum [(T 92,[0;1]); (T 1,[2;3;0;4])] [2;3;4;1]));
  (*2248*) AddTo n_l2new_baba (Times (Einsum [(T 483,[0;1;2;3])] [3;2;1;0]) (-1) 1);
  (*2249*) AddTo n_l2new_abab (Times (Einsum [(T 483,[0;1;2;3])] [2;3;0;1]) (-1) 1);
  (*2250*) Del (T 483);
  (*2251*) Assign n_lu11new_bb (Plain (Zeros [3;7;6]));
  (*2252*) AddTo n_lu11new_bb (Times (Einsum [(n_ls1,[0]); (T 92,[1;2])] [0;2;1]) (2) 1);
  (*2253*) Del (T 92);
  (*2254*) Assign (T 95) (Plain (Zeros [3;4;4]));
  (*2255*) AddTo (T 95) (Plain (Einsum [(n_t1'aa,[0;1]); (n_g'aa'bov,[2;3;1])] [2;3;0]));
  (*2256*) Assign (T 96) (Plain (Zeros [3;4;4]));
  (*2257*) AddTo (T 96) (Plain (Einsum [(T 95,[0;1;2])] [0;1;2]));
  (*2258*) Assign (T 522) (Plain (Zeros [3;4;4]));
  (*2259*) AddTo (T 522) (Plain (Einsum [(T 95,[0;1;2])] [0;1;2]));
  (*2260*) Del (T 95);
  (*2261*) AddTo (T 96) (Plain (Einsum [(n_g'aa'boo,[0;1;2])] [0;1;2]));
  (*2262*) Assign (T 97) (Plain (Zeros [4;5]));
  (*2263*) AddTo (T 97) (Plain (Einsum [(n_u11'aa,[0;1;2]); (T 96,[0;1;3])] [3;2]));
  (*2264*) AddTo (T 117) (Times (Einsum [(T 97,[0;1])] [0;1]) (-1) 1);
  (*2265*) Del (T 97);
  (*2266*) Assign (T 502) (Plain (Zeros [3;4;5]));
  (*2267*) AddTo (T 502) (Plain (Einsum [(n_t1'aa,[0;1]); (T 96,[2;0;3])] [2;3;1]));
  (*2268*) AddTo (T 503) (Times (Einsum [(T 502,[0;1;2])] [0;1;2]) (-1) 1);
  (*2269*) Del (T 502);
  (*2270*) Assign (T 98) (Plain (Zeros [4;4]));
  (*2271*) AddTo (T 98) (Plain (Einsum [(n_s1,[0]); (n_g'aa'boo,[0;1;2])] [1;2]));
  (*2272*) AddTo (T 106) (Plain (Einsum [(T 98,[0;1])] [0;1]));
  (*2273*) Assign (T 317) (Plain (Zeros [4;4]));
  (*2274*) AddTo (T 317) (Plain (Einsum [(T 98,[0;1])] [0;1]));
  (*2275*) Del (T 98);
  (*2276*) Assign (T 99) (Plain (Zeros [4;4]));
  (*2277*) AddTo (T 99) (Plain (Einsum [(n_g'aa'bov,[0;1;2]); (n_u11'aa,[0;3;2])] [1;3]));
  (*2278*) AddTo (T 106) (Plain (Einsum [(T 99,[0;1])] [0;1]));
  (*2279*) AddTo (T 317) (Plain (Einsum [(T 99,[0;1])] [0;1]));
  (*2280*) Del (T 99);
  (*2281*) Assign (T 100) (Plain (Zeros [4;4]));
  (*2282*) AddTo (T 100) (Plain (Einsum [(n_t1'bb,[0;1]); (n_v'aabb'ooov,[2;3;0;1])] [2;3]));
  (*2283*) AddTo (T 106) (Plain (Einsum [(T 100,[0;1])] [0;1]));
  (*2284*) Assign (T 320) (Plain (Zeros [4;4]));
  (*2285*) AddTo (T 320) (Plain (Einsum [(T 100,[0;1])] [0;1]));
  (*2286*) Del (T 100);
  (*2287*) Assign (T 101) (Plain (Zeros [4;4]));
  (*2288*) AddTo (T 101) (Plain (Einsum [(n_t2'abab,[0;1;2;3]); (n_v'aabb'ovov,[4;2;1;3])] [0;4]));
  (*2289*) AddTo (T 106) (Plain (Einsum [(T 101,[0;1])] [1;0]));
  (*2290*) AddTo (T 346) (Plain (Einsum [(T 101,[0;1])] [0;1]));
  (*2291*) Del (T 101);
  (*2292*) Assign (T 347) (Plain (Zeros [4;4;5;5]));
  (*2293*) AddTo (T 347) (Plain (Einsum [(T 346,[0;1]); (n_l2'aaaa,[2;3;0;4])] [4;1;2;3]));
  (*2294*) Del (T 346);
  (*2295*) AddTo (T 356) (Plain (Einsum [(T 347,[0;1;2;3])] [0;1;3;2]));
  (*2296*) Del (T 347);
  (*2297*) Assign (T 103) (Plain (Zeros [4;4;4;5]));
  (*2298*) AddTo (T 103) (Times (Einsum [(n_v'aaaa'ooov,[0;1;2;3])] [0;2;1;3]) (-1) 1);
  (*2299*) AddTo (T 103) (Plain (Einsum [(n_v'aaaa'ooov,[0;1;2;3])] [2;0;1;3]));
  (*2300*) Assign (T 104) (Plain (Zeros [4;4]));
  (*2301*) AddTo (T 104) (Plain (Einsum [(n_t1'aa,[0;1]); (T 103,[2;0;3;1])] [2;3]));
  (*2302*) AddTo (T 106) (Times (Einsum [(T 104,[0;1])] [0;1]) (-1) 1);
  (*2303*) Del (T 104);
  (*2304*) AddTo (T 197) (Times (Einsum [(n_u11'aa,[0;1;2]); (T 103,[3;1;4;2])] [0;3;4]) (-1) 1);
  (*2305*) Del (T 103);
  (*2306*) AddTo (T 106) (Plain (Einsum [(n_f'aa'oo,[0;1])] [0;1]));
  (*2307*) Assign (T 107) (Plain (Zeros [4;5]));
  (*2308*) AddTo (T 107) (Plain (Einsum [(n_t1'aa,[0;1]); (T 106,[0;2])] [2;1]));
  (*2309*) AddTo (T 117) (Times (Einsum [(T 107,[0;1])] [0;1]) (-1) 1);
  (*2310*) Del (T 107);
  (*2311*) Assign (T 476) (Plain (Zeros [4;6;5;7]));
  (*2312*) AddTo (T 476) (Plain (Einsum [(T 106,[0;1]); (n_l2'abab,[2;3;1;4])] [0;4;2;3]));
  (*2313*) AddTo n_l2new_baba (Times (Einsum [(T 476,[0;1;2;3])] [3;2;1;0]) (-1) 1);
  (*2314*) AddTo n_l2new_abab (Times (Einsum [(T 476,[0;1;2;3])] [2;3;0;1]) (-1) 1);
  (*2315*) Del (T 476);
  (*2316*) AddTo n_l1new_aa (Times (Einsum [(n_l1'aa,[0;1]); (T 106,[2;1])] [0;2]) (-1) 1);
  (*2317*) AddTo n_lu11new_aa (Times (Einsum [(T 106,[0;1]); (n_lu11'aa,[2;3;1])] [2;3;0]) (-1) 1);
  (*2318*) Del (T 106);
  (*2319*) Assign (T 108) (Plain (Zeros [5;5]));
  (*2320*) AddTo (T 108) (Plain (Einsum [(n_s1,[0]); (n_g'aa'bvv,[0;1;2])] [1;2]));
  (*2321*) AddTo (T 111) (Plain (Einsum [(T 108,[0;1])] [0;1]));
  (*2322*) Assign (T 310) (Plain (Zeros [5;5]));
  (*2323*) AddTo (T 310) (Plain (Einsum [(T 108,[0;1])] [0;1]));
  (*2324*) AddTo (T 470) (Plain (Einsum [(T 108,[0;1])] [0;1]));
  (*2325*) AddTo (T 518) (Plain (Einsum [(T 108,[0;1])] [0;1]));
  (*2326*) Del (T 108);
  (*2327*) Assign (T 109) (Plain (Zeros [5;5]));
  (*2328*) AddTo (T 109) (Plain (Einsum [(n_t1'bb,[0;1]); (n_v'bbaa'ovvv,[0;1;2;3])] [2;3]));
  (*2329*) AddTo (T 111) (Plain (Einsum [(T 109,[0;1])] [0;1]));
  (*2330*) Assign (T 313) (Plain (Zeros [5;5]));
  (*2331*) AddTo (T 313) (Plain (Einsum [(T 109,[0;1])] [0;1]));
  (*2332*) AddTo (T 470) (Plain (Einsum [(T 109,[0;1])] [0;1]));
  (*2333*) AddTo (T 518) (Plain (Einsum [(T 109,[0;1])] [0;1]));
  (*2334*) Del (T 109);
  (*2335*) AddTo (T 111) (Plain (Einsum [(n_f'aa'vv,[0;1])] [0;1]));
  (*2336*) Assign (T 112) (Plain (Zeros [4;5]));
  (*2337*) AddTo (T 112) (Plain (Einsum [(n_t1'aa,[0;1]); (T 111,[2;1])] [0;2]));
  (*2338*) AddTo (T 117) (Plain (Einsum [(T 112,[0;1])] [0;1]));
  (*2339*) Del (T 112);
  (*2340*) AddTo n_l1new_aa (Plain (Einsum [(n_l1'aa,[0;1]); (T 111,[0;2])] [2;1]));
  (*2341*) Del (T 111);
  (*2342*) Assign (T 113) (Plain (Zeros [3]));
  (*2343*) AddTo (T 113) (Plain (Einsum [(n_t1'aa,[0;1]); (n_g'aa'bov,[2;0;1])] [2]));
  (*2344*) Assign (T 115) (Plain (Zeros [3]));
  (*2345*) AddTo (T 115) (Plain (Einsum [(T 113,[0])] [0]));
  (*2346*) Del (T 113);
  (*2347*) Assign (T 114) (Plain (Zeros [3]));
  (*2348*) AddTo (T 114) (Plain (Einsum [(n_t1'bb,[0;1]); (n_g'bb'bov,[2;0;1])] [2]));
  (*2349*) AddTo (T 115) (Plain (Einsum [(T 114,[0])] [0]));
  (*2350*) Del (T 114);
  (*2351*) AddTo (T 115) (Plain (Einsum [(n_G,[0])] [0]));
  (*2352*) Assign (T 116) (Plain (Zeros [4;5]));
  (*2353*) AddTo (T 116) (Plain (Einsum [(T 115,[0]); (n_u11'aa,[0;1;2])] [1;2]));
  (*2354*) AddTo (T 117) (Plain (Einsum [(T 116,[0;1])] [0;1]));
  (*2355*) Del (T 116);
  (*2356*) Assign (T 154) (Plain (Zeros [6;7]));
  (*2357*) AddTo (T 154) (Plain (Einsum [(T 115,[0]); (n_u11'bb,[0;1;2])] [1;2]));
  (*2358*) Del (T 115);
  (*2359*) AddTo (T 155) (Plain (Einsum [(T 154,[0;1])] [0;1]));
  (*2360*) Del (T 154);
  (*2361*) AddTo (T 117) (Plain (Einsum [(n_f'aa'vo,[0;1])] [1;0]));
  (*2362*) AddTo n_l1new_aa (Plain (Einsum [(T 117,[0;1]); (T 42,[0;2;3;1])] [3;2]));
  (*2363*) AddTo n_l1new_bb (Plain (Einsum [(T 117,[0;1]); (n_l2'abab,[1;2;0;3])] [2;3]));
  (*2364*) Assign n_ls1new (Plain (Zeros [3]));
  (*2365*) AddTo n_ls1new (Plain (Einsum [(T 117,[0;1]); (n_lu11'aa,[2;1;0])] [2]));
  (*2366*) Del (T 117);
  (*2367*) Assign (T 120) (Plain (Zeros [6;7]));
  (*2368*) AddTo (T 120) (Plain (Einsum [(n_s1,[0]); (n_g'bb'bvo,[0;1;2])] [2;1]));
  (*2369*) AddTo (T 155) (Plain (Einsum [(T 120,[0;1])] [0;1]));
  (*2370*) Del (T 120);
  (*2371*) Assign (T 121) (Plain (Zeros [6;7]));
  (*2372*) AddTo (T 121) (Plain (Einsum [(n_g'bb'bvv,[0;1;2]); (n_u11'bb,[0;3;2])] [3;1]));
  (*2373*) AddTo (T 155) (Plain (Einsum [(T 121,[0;1])] [0;1]));
  (*2374*) Del (T 121);
  (*2375*) Assign (T 122) (Plain (Zeros [6;7]));
  (*2376*) AddTo (T 122) (Plain (Einsum [(n_t1'aa,[0;1]); (n_v'aabb'ovvo,[0;1;2;3])] [3;2]));
  (*2377*) AddTo (T 155) (Plain (Einsum [(T 122,[0;1])] [0;1]));
  (*2378*) Del (T 122);
  (*2379*) Assign (T 123) (Plain (Zeros [6;7]));
  (*2380*) AddTo (T 123) (Plain (Einsum [(n_t2'abab,[0;1;2;3]); (n_v'aabb'ovvv,[0;2;4;3])] [1;4]));
  (*2381*) AddTo (T 155) (Plain (Einsum [(T 123,[0;1])] [0;1]));
  (*2382*) Del (T 123);
  (*2383*) Assign (T 124) (Plain (Zeros [6;7]));
  (*2384*) AddTo (T 124) (Plain (Einsum [(n_t2'bbbb,[0;1;2;3]); (n_v'bbbb'ooov,[0;4;1;2])] [4;3]));
  (*2385*) AddTo (T 155) (Plain (Einsum [(T 124,[0;1])] [0;1]));
  (*2386*) Del (T 124);
  (*2387*) Assign (T 126) (Plain (Zeros [6;6;6;7]));
  (*2388*) AddTo (T 126) (Plain (Einsum [(n_t1'bb,[0;1]); (n_v'bbbb'ovov,[2;3;4;1])] [0;2;4;3]));
  (*2389*) Assign (T 127) (Plain (Zeros [6;6;6;7]));
  (*2390*) AddTo (T 127) (Times (Einsum [(T 126,[0;1;2;3])] [1;2;0;3]) (-1) 1);
  (*2391*) AddTo (T 127) (Plain (Einsum [(T 126,[0;1;2;3])] [2;1;0;3]));
  (*2392*) Assign (T 221) (Plain (Zeros [6;6;6;7]));
  (*2393*) AddTo (T 221) (Plain (Einsum [(T 126,[0;1;2;3])] [0;2;1;3]));
  (*2394*) AddTo (T 221) (Times (Einsum [(T 126,[0;1;2;3])] [0;1;2;3]) (-1) 1);
  (*2395*) Assign (T 226) (Plain (Zeros [6;6;6;7]));
  (*2396*) AddTo (T 226) (Times (Einsum [(T 126,[0;1;2;3])] [1;2;0;3]) (-1) 1);
  (*2397*) AddTo (T 226) (Plain (Einsum [(T 126,[0;1;2;3])] [2;1;0;3]));
  (*2398*) Assign (T 245) (Plain (Zeros [6;6;6;6]));
  (*2399*) AddTo (T 245) (Plain (Einsum [(n_t1'bb,[0;1]); (T 126,[2;3;4;1])] [0;2;3;4]));
  (*2400*) Assign (T 246) (Plain (Zeros [6;6;6;6]));
  (*2401*) AddTo (T 246) (Plain (Einsum [(T 245,[0;1;2;3])] [0;1;2;3]));
  (*2402*) Assign (T 407) (Plain (Zeros [6;6;6;6]));
  (*2403*) AddTo (T 407) (Plain (Einsum [(T 245,[0;1;2;3])] [0;1;2;3]));
  (*2404*) Del (T 245);
  (*2405*) Assign (T 268) (Plain (Zeros [6;6;6;7]));
  (*2406*) AddTo (T 268) (Plain (Einsum [(T 126,[0;1;2;3])] [1;2;0;3]));
  (*2407*) Assign (T 400) (Plain (Zeros [6;6;6;7]));
  (*2408*) AddTo (T 400) (Plain (Einsum [(T 126,[0;1;2;3])] [0;1;2;3]));
  (*2409*) Assign (T 411) (Plain (Zeros [6;6;6;7]));
  (*2410*) AddTo (T 411) (Times (Einsum [(T 126,[0;1;2;3])] [0;2;1;3]) (-1) 1);
  (*2411*) AddTo (T 411) (Plain (Einsum [(T 126,[0;1;2;3])] [0;1;2;3]));
  (*2412*) Del (T 126);
  (*2413*) Assign (T 464) (Plain (Zeros [4;6;5;7]));
  (*2414*) AddTo (T 464) (Plain (Einsum [(T 1,[0;1;2;3]); (T 411,[1;4;2;5])] [0;4;3;5]));
  (*2415*) AddTo n_l2new_baba (Times (Einsum [(T 464,[0;1;2;3])] [3;2;1;0]) (-1) 1);
  (*2416*) AddTo n_l2new_abab (Times (Einsum [(T 464,[0;1;2;3])] [2;3;0;1]) (-1) 1);
  (*2417*) Del (T 464);
  (*2418*) AddTo (T 127) (Plain (Einsum [(n_v'bbbb'ooov,[0;1;2;3])] [0;2;1;3]));
  (*2419*) Assign (T 128) (Plain (Zeros [6;7]));
  (*2420*) AddTo (T 128) (Plain (Einsum [(n_t2'bbbb,[0;1;2;3]); (T 127,[1;0;4;2])] [4;3]));
  (*2421*) Del (T 127);
  (*2422*) AddTo (T 155) (Times (Einsum [(T 128,[0;1])] [0;1]) (-1) 1);
  (*2423*) Del (T 128);
  (*2424*) Assign (T 132) (Plain (Zeros [6;6;7;7]));
  (*2425*) AddTo (T 132) (Plain (Einsum [(n_v'bbbb'ovvo,[0;1;2;3])] [0;3;2;1]));
  (*2426*) AddTo (T 132) (Times (Einsum [(n_v'bbbb'oovv,[0;1;2;3])] [0;1;2;3]) (-1) 1);
  (*2427*) Assign (T 133) (Plain (Zeros [6;7]));
  (*2428*) AddTo (T 133) (Plain (Einsum [(n_t1'bb,[0;1]); (T 132,[0;2;3;1])] [2;3]));
  (*2429*) AddTo (T 155) (Plain (Einsum [(T 133,[0;1])] [0;1]));
  (*2430*) Del (T 133);
  (*2431*) AddTo (T 224) (Plain (Einsum [(n_t1'bb,[0;1]); (T 132,[2;3;4;1])] [0;2;3;4]));
  (*2432*) Assign (T 134) (Plain (Zeros [3;6;6]));
  (*2433*) AddTo (T 134) (Plain (Einsum [(n_t1'bb,[0;1]); (n_g'bb'bov,[2;3;1])] [2;3;0]));
  (*2434*) Assign (T 135) (Plain (Zeros [3;6;6]));
  (*2435*) AddTo (T 135) (Plain (Einsum [(T 134,[0;1;2])] [0;1;2]));
  (*2436*) Assign (T 527) (Plain (Zeros [3;6;6]));
  (*2437*) AddTo (T 527) (Plain (Einsum [(T 134,[0;1;2])] [0;1;2]));
  (*2438*) Del (T 134);
  (*2439*) AddTo (T 135) (Plain (Einsum [(n_g'bb'boo,[0;1;2])] [0;1;2]));
  (*2440*) Assign (T 136) (Plain (Zeros [6;7]));
  (*2441*) AddTo (T 136) (Plain (Einsum [(n_u11'bb,[0;1;2]); (T 135,[0;1;3])] [3;2]));
  (*2442*) AddTo (T 155) (Times (Einsum [(T 136,[0;1])] [0;1]) (-1) 1);
  (*2443*) Del (T 136);
  (*2444*) Assign (T 511) (Plain (Zeros [3;6;7]));
  (*2445*) AddTo (T 511) (Plain (Einsum [(n_t1'bb,[0;1]); (T 135,[2;0;3])] [2;3;1]));
  (*2446*) AddTo (T 512) (Times (Einsum [(T 511,[0;1;2])] [0;1;2]) (-1) 1);
  (*2447*) Del (T 511);
  (*2448*) Assign (T 137) (Plain (Zeros [6;6]));
  (*2449*) AddTo (T 137) (Plain (Einsum [(n_s1,[0]); (n_g'bb'boo,[0;1;2])] [1;2]));
  (*2450*) AddTo (T 146) (Plain (Einsum [(T 137,[0;1])] [0;1]));
  (*2451*) Assign (T 387) (Plain (Zeros [6;6]));
  (*2452*) AddTo (T 387) (Plain (Einsum [(T 137,[0;1])] [0;1]));
  (*2453*) Del (T 137);
  (*2454*) Assign (T 138) (Plain (Zeros [6;6]));
  (*2455*) AddTo (T 138) (Plain (Einsum [(n_g'bb'bov,[0;1;2]); (n_u11'bb,[0;3;2])] [1;3]));
  (*2456*) AddTo (T 146) (Plain (Einsum [(T 138,[0;1])] [0;1]));
  (*2457*) AddTo (T 387) (Plain (Einsum [(T 138,[0;1])] [0;1]));
  (*2458*) Del (T 138);
  (*2459*) Assign (T 139) (Plain (Zeros [6;6]));
  (*2460*) AddTo (T 139) (Plain (Einsum [(n_t1'aa,[0;1]); (n_v'aabb'ovoo,[0;1;2;3])] [2;3]));
  (*2461*) AddTo (T 146) (Plain (Einsum [(T 139,[0;1])] [0;1]));
  (*2462*) Assign (T 390) (Plain (Zeros [6;6]));
  (*2463*) AddTo (T 390) (Plain (Einsum [(T 139,[0;1])] [0;1]));
  (*2464*) Del (T 139);
  (*2465*) Assign (T 140) (Plain (Zeros [6;6]));
  (*2466*) AddTo (T 140) (Plain (Einsum [(n_t2'abab,[0;1;2;3]); (n_v'aabb'ovov,[0;2;4;3])] [1;4]));
  (*2467*) AddTo (T 146) (Plain (Einsum [(T 140,[0;1])] [1;0]));
  (*2468*) AddTo (T 417) (Plain (Einsum [(T 140,[0;1])] [0;1]));
  (*2469*) Del (T 140);
  (*2470*) Assign (T 418) (Plain (Zeros [6;6;7;7]));
  (*2471*) AddTo (T 418) (Plain (Einsum [(T 417,[0;1]); (n_l2'bbbb,[2;3;0;4])] [4;1;2;3]));
  (*2472*) Del (T 417);
  (*2473*) Assign (T 427) (Plain (Zeros [6;6;7;7]));
  (*2474*) AddTo (T 427) (Plain (Einsum [(T 418,[0;1;2;3])] [0;1;3;2]));
  (*2475*) Del (T 418);
  (*2476*) Assign (T 141) (Plain (Zeros [6;6;7;7]));
  (*2477*) AddTo (T 141) (Times (Einsum [(n_v'bbbb'ovov,[0;1;2;3])] [2;0;1;3]) (-1) 1);
  (*2478*) AddTo (T 141) (Plain (Einsum [(n_v'bbbb'ovov,[0;1;2;3])] [2;0;3;1]));
  (*2479*) Assign (T 142) (Plain (Zeros [6;6]));
  (*2480*) AddTo (T 142) (Plain (Einsum [(n_t2'bbbb,[0;1;2;3]); (T 141,[0;4;3;2])] [1;4]));
  (*2481*) AddTo (T 146) (Times (Einsum [(T 142,[0;1])] [1;0]) (-1) 1);
  (*2482*) Del (T 142);
  (*2483*) Assign (T 420) (Plain (Zeros [7;7]));
  (*2484*) AddTo (T 420) (Plain (Einsum [(n_t2'bbbb,[0;1;2;3]); (T 141,[0;1;3;4])] [2;4]));
  (*2485*) Assign (T 421) (Plain (Zeros [7;7]));
  (*2486*) AddTo (T 421) (Times (Einsum [(T 420,[0;1])] [0;1]) (-1) 1);
  (*2487*) Del (T 420);
  (*2488*) Assign (T 444) (Plain (Zeros [6;6;7;7]));
  (*2489*) AddTo (T 444) (Plain (Einsum [(T 141,[0;1;2;3]); (T 52,[0;4;5;3])] [4;1;5;2]));
  (*2490*) Del (T 141);
  (*2491*) Assign (T 446) (Plain (Zeros [6;6;7;7]));
  (*2492*) AddTo (T 446) (Plain (Einsum [(T 444,[0;1;2;3])] [1;0;2;3]));
  (*2493*) Del (T 444);
  (*2494*) Assign (T 143) (Plain (Zeros [6;6;6;7]));
  (*2495*) AddTo (T 143) (Plain (Einsum [(n_v'bbbb'ooov,[0;1;2;3])] [0;2;1;3]));
  (*2496*) AddTo (T 143) (Times (Einsum [(n_v'bbbb'ooov,[0;1;2;3])] [2;0;1;3]) (-1) 1);
  (*2497*) Assign (T 144) (Plain (Zeros [6;6]));
  (*2498*) AddTo (T 144) (Plain (Einsum [(n_t1'bb,[0;1]); (T 143,[0;2;3;1])] [2;3]));
  (*2499*) AddTo (T 146) (Times (Einsum [(T 144,[0;1])] [0;1]) (-1) 1);
  (*2500*) Del (T 144);
  (*2501*) AddTo (T 277) (Times (Einsum [(n_u11'bb,[0;1;2]); (T 143,[1;3;4;2])] [0;3;4]) (-1) 1);
  (*2502*) AddTo (T 146) (Plain (Einsum [(n_f'bb'oo,[0;1])] [0;1]));
  (*2503*) Assign (T 147) (Plain (Zeros [6;7]));
  (*2504*) AddTo (T 147) (Plain (Einsum [(n_t1'bb,[0;1]); (T 146,[0;2])] [2;1]));
  (*2505*) AddTo (T 155) (Times (Einsum [(T 147,[0;1])] [0;1]) (-1) 1);
  (*2506*) Del (T 147);
  (*2507*) Assign (T 475) (Plain (Zeros [4;6;5;7]));
  (*2508*) AddTo (T 475) (Plain (Einsum [(T 146,[0;1]); (n_l2'abab,[2;3;4;1])] [4;0;2;3]));
  (*2509*) AddTo n_l2new_baba (Times (Einsum [(T 475,[0;1;2;3])] [3;2;1;0]) (-1) 1);
  (*2510*) AddTo n_l2new_abab (Times (Einsum [(T 475,[0;1;2;3])] [2;3;0;1]) (-1) 1);
  (*2511*) Del (T 475);
  (*2512*) AddTo n_l1new_bb (Times (Einsum [(n_l1'bb,[0;1]); (T 146,[2;1])] [0;2]) (-1) 1);
  (*2513*) AddTo n_lu11new_bb (Times (Einsum [(T 146,[0;1]); (n_lu11'bb,[2;3;1])] [2;3;0]) (-1) 1);
  (*2514*) Del (T 146);
  (*2515*) Assign (T 148) (Plain (Zeros [7;7]));
  (*2516*) AddTo (T 148) (Plain (Einsum [(n_s1,[0]); (n_g'bb'bvv,[0;1;2])] [1;2]));
  (*2517*) Assign (T 152) (Plain (Zeros [7;7]));
  (*2518*) AddTo (T 152) (Plain (Einsum [(T 148,[0;1])] [0;1]));
  (*2519*) Assign (T 380) (Plain (Zeros [7;7]));
  (*2520*) AddTo (T 380) (Plain (Einsum [(T 148,[0;1])] [0;1]));
  (*2521*) AddTo (T 473) (Plain (Einsum [(T 148,[0;1])] [0;1]));
  (*2522*) AddTo (T 526) (Plain (Einsum [(T 148,[0;1])] [0;1]));
  (*2523*) Del (T 148);
  (*2524*) Assign (T 149) (Plain (Zeros [7;7]));
  (*2525*) AddTo (T 149) (Plain (Einsum [(n_t1'aa,[0;1]); (n_v'aabb'ovvv,[0;1;2;3])] [2;3]));
  (*2526*) AddTo (T 152) (Plain (Einsum [(T 149,[0;1])] [0;1]));
  (*2527*) Assign (T 383) (Plain (Zeros [7;7]));
  (*2528*) AddTo (T 383) (Plain (Einsum [(T 149,[0;1])] [0;1]));
  (*2529*) AddTo (T 473) (Plain (Einsum [(T 149,[0;1])] [0;1]));
  (*2530*) AddTo (T 526) (Plain (Einsum [(T 149,[0;1])] [0;1]));
  (*2531*) Del (T 149);
  (*2532*) Assign (T 150) (Plain (Zeros [6;7;7;7]));
  (*2533*) AddTo (T 150) (Times (Einsum [(n_v'bbbb'ovvv,[0;1;2;3])] [0;2;1;3]) (-1) 1);
  (*2534*) AddTo (T 150) (Plain (Einsum [(n_v'bbbb'ovvv,[0;1;2;3])] [0;2;3;1]));
  (*2535*) Assign (T 151) (Plain (Zeros [7;7]));
  (*2536*) AddTo (T 151) (Plain (Einsum [(n_t1'bb,[0;1]); (T 150,[0;2;1;3])] [2;3]));
  (*2537*) AddTo (T 152) (Times (Einsum [(T 151,[0;1])] [0;1]) (-1) 1);
  (*2538*) AddTo (T 473) (Times (Einsum [(T 151,[0;1])] [0;1]) (-1) 1);
  (*2539*) AddTo (T 526) (Times (Einsum [(T 151,[0;1])] [0;1]) (-1) 1);
  (*2540*) Del (T 151);
  (*2541*) Assign (T 445) (Plain (Zeros [6;6;7;7]));
  (*2542*) AddTo (T 445) (Plain (Einsum [(n_t1'bb,[0;1]); (T 150,[2;3;4;1])] [0;2;3;4]));
  (*2543*) AddTo (T 446) (Times (Einsum [(T 445,[0;1;2;3])] [1;0;2;3]) (-1) 1);
  (*2544*) Del (T 445);
  (*2545*) AddTo (T 152) (Plain (Einsum [(n_f'bb'vv,[0;1])] [0;1]));
  (*2546*) Assign (T 153) (Plain (Zeros [6;7]));
  (*2547*) AddTo (T 153) (Plain (Einsum [(n_t1'bb,[0;1]); (T 152,[2;1])] [0;2]));
  (*2548*) AddTo (T 155) (Plain (Einsum [(T 153,[0;1])] [0;1]));
  (*2549*) Del (T 153);
  (*2550*) AddTo n_l1new_bb (Plain (Einsum [(n_l1'bb,[0;1]); (T 152,[0;2])] [2;1]));
  (*2551*) Del (T 152);
  (*2552*) AddTo (T 155) (Plain (Einsum [(n_f'bb'vo,[0;1])] [1;0]));
  (*2553*) AddTo n_l1new_aa (Plain (Einsum [(T 155,[0;1]); (n_l2'abab,[2;1;3;0])] [2;3]));
  (*2554*) AddTo n_ls1new (Plain (Einsum [(T 155,[0;1]); (n_lu11'bb,[2;1;0])] [2]));
  (*2555*) Assign (T 156) (Plain (Zeros [4;5]));
  (*2556*) AddTo (T 156) (Plain (Einsum [(n_ls1,[0]); (n_u11'aa,[0;1;2])] [1;2]));
  (*2557*) AddTo (T 166) (Times (Einsum [(T 156,[0;1])] [0;1]) (-1) 1);
  (*2558*) Del (T 156);
  (*2559*) Assign (T 157) (Plain (Zeros [4;5]));
  (*2560*) AddTo (T 157) (Plain (Einsum [(n_l1'bb,[0;1]); (n_t2'abab,[2;1;3;0])] [2;3]));
  (*2561*) AddTo (T 166) (Times (Einsum [(T 157,[0;1])] [0;1]) (-1) 1);
  (*2562*) Del (T 157);
  (*2563*) Assign (T 158) (Plain (Zeros [3;4;4]));
  (*2564*) AddTo (T 158) (Plain (Einsum [(n_t1'aa,[0;1]); (n_lu11'aa,[2;1;3])] [2;3;0]));
  (*2565*) Assign (T 159) (Plain (Zeros [4;5]));
  (*2566*) AddTo (T 159) (Plain (Einsum [(n_u11'aa,[0;1;2]); (T 158,[0;1;3])] [3;2]));
  (*2567*) AddTo (T 166) (Plain (Einsum [(T 159,[0;1])] [0;1]));
  (*2568*) Del (T 159);
  (*2569*) Assign (T 504) (Plain (Zeros [3;4;5]));
  (*2570*) AddTo (T 504) (Plain (Einsum [(n_t1'aa,[0;1]); (T 158,[2;0;3])] [2;3;1]));
  (*2571*) AddTo (T 507) (Times (Einsum [(T 504,[0;1;2])] [0;1;2]) (-1) 1);
  (*2572*) Del (T 504);
  (*2573*) SubFrom n_lu11new_bb (Plain (Einsum [(T 158,[0;1;2]); (n_v'aabb'ooov,[2;1;3;4])] [0;4;3]));
  (*2574*) Assign (T 163) (Plain (Zeros [4;4]));
  (*2575*) AddTo (T 163) (Plain (Einsum [(n_lu11'aa,[0;1;2]); (n_u11'aa,[0;3;1])] [2;3]));
  (*2576*) AddTo (T 164) (Plain (Einsum [(T 163,[0;1])] [0;1]));
  (*2577*) Assign (T 165) (Plain (Zeros [4;5]));
  (*2578*) AddTo (T 165) (Plain (Einsum [(n_t1'aa,[0;1]); (T 164,[0;2])] [2;1]));
  (*2579*) AddTo (T 166) (Plain (Einsum [(T 165,[0;1])] [0;1]));
  (*2580*) Del (T 165);
  (*2581*) Assign (T 482) (Plain (Zeros [4;6;5;7]));
  (*2582*) AddTo (T 482) (Plain (Einsum [(T 164,[0;1]); (n_v'aabb'ovov,[1;2;3;4])] [0;3;2;4]));
  (*2583*) AddTo n_l2new_baba (Times (Einsum [(T 482,[0;1;2;3])] [3;2;1;0]) (-1) 1);
  (*2584*) AddTo n_l2new_abab (Times (Einsum [(T 482,[0;1;2;3])] [2;3;0;1]) (-1) 1);
  (*2585*) Del (T 482);
  (*2586*) AddTo n_l1new_bb (Times (Einsum [(T 164,[0;1]); (n_v'aabb'ooov,[1;0;2;3])] [3;2]) (-1) 1);
  (*2587*) AddTo n_ls1new (Times (Einsum [(T 164,[0;1]); (n_g'aa'boo,[2;1;0])] [2]) (-1) 1);
  (*2588*) AddTo n_lu11new_aa (Times (Einsum [(T 164,[0;1]); (n_g'aa'bov,[2;1;3])] [2;3;0]) (-1) 1);
  (*2589*) AddTo (T 206) (Plain (Einsum [(T 163,[0;1])] [0;1]));
  (*2590*) Assign (T 207) (Plain (Zeros [3;4;4]));
  (*2591*) AddTo (T 207) (Plain (Einsum [(n_s1,[0]); (T 206,[1;2])] [0;1;2]));
  (*2592*) Del (T 206);
  (*2593*) AddTo (T 209) (Plain (Einsum [(T 163,[0;1])] [0;1]));
  (*2594*) AddTo (T 327) (Plain (Einsum [(T 163,[0;1])] [0;1]));
  (*2595*) Del (T 163);
  (*2596*) Assign (T 328) (Plain (Zeros [4;4;5;5]));
  (*2597*) AddTo (T 328) (Plain (Einsum [(T 327,[0;1]); (n_v'aaaa'ovov,[1;2;3;4])] [0;3;2;4]));
  (*2598*) Del (T 327);
  (*2599*) AddTo (T 334) (Plain (Einsum [(T 328,[0;1;2;3])] [0;1;3;2]));
  (*2600*) Del (T 328);
  (*2601*) AddTo (T 166) (Times (Einsum [(n_t1'aa,[0;1])] [0;1]) (-1) 1);
  (*2602*) AddTo n_l1new_aa (Times (Einsum [(T 166,[0;1]); (T 62,[0;2;3;1])] [3;2]) (-1) 1);
  (*2603*) Del (T 62);
  (*2604*) AddTo n_l1new_bb (Times (Einsum [(T 166,[0;1]); (n_v'aabb'ovov,[0;1;2;3])] [3;2]) (-1) 1);
  (*2605*) AddTo n_ls1new (Times (Einsum [(T 166,[0;1]); (n_g'aa'bov,[2;0;1])] [2]) (-1) 1);
  (*2606*) Del (T 166);
  (*2607*) Assign (T 167) (Plain (Zeros [5;5]));
  (*2608*) AddTo (T 167) (Plain (Einsum [(n_l1'aa,[0;1]); (n_t1'aa,[1;2])] [0;2]));
  (*2609*) AddTo (T 171) (Plain (Einsum [(T 167,[0;1])] [0;1]));
  (*2610*) Del (T 167);
  (*2611*) Assign (T 168) (Plain (Zeros [5;5]));
  (*2612*) AddTo (T 168) (Plain (Einsum [(n_lu11'aa,[0;1;2]); (n_u11'aa,[0;2;3])] [1;3]));
  (*2613*) AddTo (T 171) (Plain (Einsum [(T 168,[0;1])] [0;1]));
  (*2614*) Assign (T 293) (Plain (Zeros [4;4;5;5]));
  (*2615*) AddTo (T 293) (Plain (Einsum [(T 168,[0;1]); (n_v'aaaa'ovov,[2;3;4;1])] [2;4;0;3]));
  (*2616*) AddTo (T 334) (Plain (Einsum [(T 293,[0;1;2;3])] [0;1;2;3]));
  (*2617*) Del (T 293);
  (*2618*) AddTo (T 477) (Plain (Einsum [(T 168,[0;1])] [0;1]));
  (*2619*) Del (T 168);
  (*2620*) Assign (T 169) (Plain (Zeros [5;5]));
  (*2621*) AddTo (T 169) (Plain (Einsum [(n_l2'abab,[0;1;2;3]); (n_t2'abab,[2;3;4;1])] [0;4]));
  (*2622*) AddTo (T 171) (Plain (Einsum [(T 169,[0;1])] [0;1]));
  (*2623*) AddTo n_l1new_bb (Plain (Einsum [(T 171,[0;1]); (n_v'bbaa'ovvv,[2;3;0;1])] [3;2]));
  (*2624*) AddTo n_ls1new (Plain (Einsum [(T 171,[0;1]); (n_g'aa'bvv,[2;0;1])] [2]));
  (*2625*) AddTo (T 348) (Plain (Einsum [(T 169,[0;1])] [0;1]));
  (*2626*) Assign (T 349) (Plain (Zeros [4;4;5;5]));
  (*2627*) AddTo (T 349) (Plain (Einsum [(T 348,[0;1]); (n_v'aaaa'ovov,[2;1;3;4])] [2;3;0;4]));
  (*2628*) Del (T 348);
  (*2629*) AddTo (T 356) (Times (Einsum [(T 349,[0;1;2;3])] [1;0;2;3]) (-1) 1);
  (*2630*) Del (T 349);
  (*2631*) AddTo (T 477) (Plain (Einsum [(T 169,[0;1])] [0;1]));
  (*2632*) Del (T 169);
  (*2633*) Assign (T 478) (Plain (Zeros [4;6;5;7]));
  (*2634*) AddTo (T 478) (Plain (Einsum [(T 477,[0;1]); (n_v'aabb'ovov,[2;1;3;4])] [2;3;0;4]));
  (*2635*) AddTo n_l2new_baba (Times (Einsum [(T 478,[0;1;2;3])] [3;2;1;0]) (-1) 1);
  (*2636*) AddTo n_l2new_abab (Times (Einsum [(T 478,[0;1;2;3])] [2;3;0;1]) (-1) 1);
  (*2637*) Del (T 478);
  (*2638*) AddTo n_lu11new_aa (Times (Einsum [(T 477,[0;1]); (n_g'aa'bov,[2;3;1])] [2;0;3]) (-1) 1);
  (*2639*) Del (T 477);
  (*2640*) Assign (T 172) (Plain (Zeros [4;5;5;5]));
  (*2641*) AddTo (T 172) (Times (Einsum [(n_v'aaaa'ovvv,[0;1;2;3])] [0;2;1;3]) (-1) 1);
  (*2642*) AddTo (T 172) (Plain (Einsum [(n_v'aaaa'ovvv,[0;1;2;3])] [0;2;3;1]));
  (*2643*) AddTo n_l1new_aa (Times (Einsum [(T 171,[0;1]); (T 172,[2;0;3;1])] [3;2]) (-1) 1);
  (*2644*) Del (T 171);
  (*2645*) Del (T 172);
  (*2646*) Assign (T 173) (Plain (Zeros [6;7]));
  (*2647*) AddTo (T 173) (Plain (Einsum [(n_ls1,[0]); (n_u11'bb,[0;1;2])] [1;2]));
  (*2648*) AddTo (T 187) (Times (Einsum [(T 173,[0;1])] [0;1]) (-1) 1);
  (*2649*) Del (T 173);
  (*2650*) Assign (T 174) (Plain (Zeros [6;7]));
  (*2651*) AddTo (T 174) (Plain (Einsum [(n_l1'aa,[0;1]); (n_t2'abab,[1;2;0;3])] [2;3]));
  (*2652*) AddTo (T 187) (Times (Einsum [(T 174,[0;1])] [0;1]) (-1) 1);
  (*2653*) Del (T 174);
  (*2654*) Assign (T 175) (Plain (Zeros [3;6;6]));
  (*2655*) AddTo (T 175) (Plain (Einsum [(n_t1'bb,[0;1]); (n_lu11'bb,[2;1;3])] [2;3;0]));
  (*2656*) Assign (T 176) (Plain (Zeros [6;7]));
  (*2657*) AddTo (T 176) (Plain (Einsum [(n_u11'bb,[0;1;2]); (T 175,[0;1;3])] [3;2]));
  (*2658*) AddTo (T 187) (Plain (Einsum [(T 176,[0;1])] [0;1]));
  (*2659*) Del (T 176);
  (*2660*) Assign (T 514) (Plain (Zeros [3;6;7]));
  (*2661*) AddTo (T 514) (Plain (Einsum [(n_t1'bb,[0;1]); (T 175,[2;0;3])] [2;3;1]));
  (*2662*) AddTo (T 516) (Times (Einsum [(T 514,[0;1;2])] [0;1;2]) (-1) 1);
  (*2663*) Del (T 514);
  (*2664*) SubFrom n_lu11new_aa (Plain (Einsum [(T 175,[0;1;2]); (n_v'aabb'ovoo,[3;4;2;1])] [0;4;3]));
  (*2665*) Assign (T 178) (Plain (Zeros [6;6;6;7]));
  (*2666*) AddTo (T 178) (Plain (Einsum [(n_t1'bb,[0;1]); (n_l2'bbbb,[2;1;3;4])] [3;4;0;2]));
  (*2667*) Assign (T 179) (Plain (Zeros [6;7]));
  (*2668*) AddTo (T 179) (Plain (Einsum [(T 178,[0;1;2;3]); (T 52,[1;0;3;4])] [2;4]));
  (*2669*) AddTo (T 187) (Times (Einsum [(T 179,[0;1])] [0;1]) (-1) 1);
  (*2670*) Del (T 179);
  (*2671*) Assign (T 251) (Plain (Zeros [6;6;6;7]));
  (*2672*) AddTo (T 251) (Plain (Einsum [(T 178,[0;1;2;3])] [0;1;2;3]));
  (*2673*) AddTo (T 251) (Times (Einsum [(T 178,[0;1;2;3])] [1;0;2;3]) (-1) 1);
  (*2674*) AddTo (T 253) (Plain (Einsum [(T 251,[0;1;2;3]); (T 52,[1;4;5;3])] [0;4;2;5]));
  (*2675*) Del (T 52);
  (*2676*) AddTo (T 259) (Times (Einsum [(n_t2'abab,[0;1;2;3]); (T 251,[1;4;5;3])] [0;4;5;2]) (-1) 1);
  (*2677*) Assign (T 412) (Plain (Zeros [6;6;7;7]));
  (*2678*) AddTo (T 412) (Plain (Einsum [(T 251,[0;1;2;3]); (T 411,[1;4;2;5])] [0;4;3;5]));
  (*2679*) Del (T 411);
  (*2680*) AddTo (T 427) (Plain (Einsum [(T 412,[0;1;2;3])] [0;1;2;3]));
  (*2681*) Del (T 412);
  (*2682*) AddTo n_l1new_bb (Times (Einsum [(T 132,[0;1;2;3]); (T 251,[1;4;0;2])] [3;4]) (-1) 1);
  (*2683*) Del (T 132);
  (*2684*) AddTo n_l2new_baba (Plain (Einsum [(T 251,[0;1;2;3]); (T 31,[4;2;0;5])] [3;5;1;4]));
  (*2685*) Del (T 251);
  (*2686*) Assign (T 254) (Plain (Zeros [6;6;6;7]));
  (*2687*) AddTo (T 254) (Times (Einsum [(T 178,[0;1;2;3])] [0;1;2;3]) (-1) 1);
  (*2688*) AddTo (T 254) (Plain (Einsum [(T 178,[0;1;2;3])] [1;0;2;3]));
  (*2689*) Assign (T 255) (Plain (Zeros [6;6;7;7]));
  (*2690*) AddTo (T 255) (Times (Einsum [(n_t1'bb,[0;1]); (T 254,[0;2;3;4])] [2;3;4;1]) (-1) 1);
  (*2691*) AddTo n_l1new_bb (Plain (Einsum [(T 150,[0;1;2;3]); (T 255,[4;0;1;3])] [2;4]));
  (*2692*) Del (T 255);
  (*2693*) AddTo n_l2new_abab (Times (Einsum [(T 254,[0;1;2;3]); (T 31,[4;2;0;5])] [5;3;4;1]) (-1) 1);
  (*2694*) Del (T 254);
  (*2695*) Del (T 31);
  (*2696*) Assign (T 266) (Plain (Zeros [6;6;6;6]));
  (*2697*) AddTo (T 266) (Plain (Einsum [(n_t1'bb,[0;1]); (T 178,[2;3;4;1])] [3;2;4;0]));
  (*2698*) Assign (T 267) (Plain (Zeros [6;6;6;6]));
  (*2699*) AddTo (T 267) (Times (Einsum [(T 266,[0;1;2;3])] [0;1;2;3]) (-1) 1);
  (*2700*) AddTo (T 267) (Plain (Einsum [(T 266,[0;1;2;3])] [0;1;3;2]));
  (*2701*) Assign (T 406) (Plain (Zeros [6;6;7;7]));
  (*2702*) AddTo (T 406) (Plain (Einsum [(n_v'bbbb'ovov,[0;1;2;3]); (T 266,[4;5;2;0])] [5;4;1;3]));
  (*2703*) Del (T 266);
  (*2704*) Assign (T 409) (Plain (Zeros [6;6;7;7]));
  (*2705*) AddTo (T 409) (Plain (Einsum [(T 406,[0;1;2;3])] [0;1;2;3]));
  (*2706*) Del (T 406);
  (*2707*) Assign (T 367) (Plain (Zeros [6;6;7;7]));
  (*2708*) AddTo (T 367) (Plain (Einsum [(n_v'bbbb'ovvv,[0;1;2;3]); (T 178,[4;5;0;2])] [5;4;1;3]));
  (*2709*) SubFrom (T 404) (Plain (Einsum [(T 367,[0;1;2;3])] [0;1;2;3]));
  (*2710*) Del (T 367);
  (*2711*) Assign (T 376) (Plain (Zeros [6;6;6;7]));
  (*2712*) AddTo (T 376) (Plain (Einsum [(T 178,[0;1;2;3])] [0;1;2;3]));
  (*2713*) SubFrom (T 376) (Plain (Einsum [(T 178,[0;1;2;3])] [1;0;2;3]));
  (*2714*) Assign (T 426) (Plain (Zeros [6;6;7;7]));
  (*2715*) AddTo (T 426) (Plain (Einsum [(T 242,[0;1]); (T 178,[2;3;0;4])] [2;3;4;1]));
  (*2716*) Del (T 242);
  (*2717*) AddTo (T 427) (Plain (Einsum [(T 426,[0;1;2;3])] [0;1;2;3]));
  (*2718*) Del (T 426);
  (*2719*) Assign (T 181) (Plain (Zeros [6;6]));
  (*2720*) AddTo (T 181) (Plain (Einsum [(n_l1'bb,[0;1]); (n_t1'bb,[2;0])] [1;2]));
  (*2721*) AddTo (T 185) (Plain (Einsum [(T 181,[0;1])] [0;1]));
  (*2722*) Assign (T 289) (Plain (Zeros [6;6]));
  (*2723*) AddTo (T 289) (Plain (Einsum [(T 181,[0;1])] [0;1]));
  (*2724*) Assign (T 397) (Plain (Zeros [6;6]));
  (*2725*) AddTo (T 397) (Plain (Einsum [(T 181,[0;1])] [0;1]));
  (*2726*) SubFrom n_l1new_bb (Plain (Einsum [(T 181,[0;1]); (T 88,[1;2])] [2;0]));
  (*2727*) Del (T 181);
  (*2728*) Del (T 88);
  (*2729*) Assign (T 182) (Plain (Zeros [6;6]));
  (*2730*) AddTo (T 182) (Plain (Einsum [(n_lu11'bb,[0;1;2]); (n_u11'bb,[0;3;1])] [2;3]));
  (*2731*) AddTo (T 185) (Plain (Einsum [(T 182,[0;1])] [0;1]));
  (*2732*) AddTo (T 286) (Plain (Einsum [(T 182,[0;1])] [0;1]));
  (*2733*) AddTo (T 289) (Plain (Einsum [(T 182,[0;1])] [0;1]));
  (*2734*) AddTo (T 397) (Plain (Einsum [(T 182,[0;1])] [0;1]));
  (*2735*) Del (T 182);
  (*2736*) Assign (T 398) (Plain (Zeros [6;6;7;7]));
  (*2737*) AddTo (T 398) (Plain (Einsum [(T 397,[0;1]); (n_v'bbbb'ovov,[1;2;3;4])] [3;0;2;4]));
  (*2738*) Del (T 397);
  (*2739*) AddTo (T 404) (Plain (Einsum [(T 398,[0;1;2;3])] [1;0;3;2]));
  (*2740*) Del (T 398);
  (*2741*) Assign (T 183) (Plain (Zeros [6;6]));
  (*2742*) AddTo (T 183) (Plain (Einsum [(n_l2'abab,[0;1;2;3]); (n_t2'abab,[2;4;0;1])] [3;4]));
  (*2743*) AddTo (T 185) (Plain (Einsum [(T 183,[0;1])] [0;1]));
  (*2744*) Assign (T 186) (Plain (Zeros [6;7]));
  (*2745*) AddTo (T 186) (Plain (Einsum [(n_t1'bb,[0;1]); (T 185,[0;2])] [2;1]));
  (*2746*) AddTo (T 187) (Plain (Einsum [(T 186,[0;1])] [0;1]));
  (*2747*) Del (T 186);
  (*2748*) Assign (T 481) (Plain (Zeros [4;6;5;7]));
  (*2749*) AddTo (T 481) (Plain (Einsum [(T 185,[0;1]); (n_v'aabb'ovov,[2;3;1;4])] [2;0;3;4]));
  (*2750*) AddTo n_l2new_baba (Times (Einsum [(T 481,[0;1;2;3])] [3;2;1;0]) (-1) 1);
  (*2751*) AddTo n_l2new_abab (Times (Einsum [(T 481,[0;1;2;3])] [2;3;0;1]) (-1) 1);
  (*2752*) Del (T 481);
  (*2753*) AddTo n_l1new_aa (Times (Einsum [(T 185,[0;1]); (n_v'aabb'ovoo,[2;3;1;0])] [3;2]) (-1) 1);
  (*2754*) AddTo n_l1new_bb (Times (Einsum [(T 185,[0;1]); (T 143,[1;2;0;3])] [3;2]) (-1) 1);
  (*2755*) Del (T 143);
  (*2756*) AddTo n_ls1new (Times (Einsum [(T 185,[0;1]); (n_g'bb'boo,[2;1;0])] [2]) (-1) 1);
  (*2757*) AddTo n_lu11new_bb (Times (Einsum [(T 185,[0;1]); (n_g'bb'bov,[2;1;3])] [2;3;0]) (-1) 1);
  (*2758*) Del (T 185);
  (*2759*) AddTo (T 252) (Plain (Einsum [(T 183,[0;1])] [0;1]));
  (*2760*) AddTo (T 253) (Plain (Einsum [(n_t1'bb,[0;1]); (T 252,[2;3])] [2;0;3;1]));
  (*2761*) AddTo n_l1new_bb (Times (Einsum [(T 253,[0;1;2;3]); (T 90,[2;1;3;4])] [4;0]) (-1) 1);
  (*2762*) Del (T 253);
  (*2763*) AddTo (T 259) (Times (Einsum [(n_t1'aa,[0;1]); (T 252,[2;3])] [0;2;3;1]) (-1) 1);
  (*2764*) Assign (T 425) (Plain (Zeros [6;6;7;7]));
  (*2765*) AddTo (T 425) (Plain (Einsum [(T 252,[0;1]); (n_v'bbbb'ovov,[1;2;3;4])] [3;0;2;4]));
  (*2766*) AddTo (T 427) (Times (Einsum [(T 425,[0;1;2;3])] [1;0;3;2]) (-1) 1);
  (*2767*) Del (T 425);
  (*2768*) AddTo n_l1new_bb (Times (Einsum [(n_f'bb'ov,[0;1]); (T 252,[2;0])] [1;2]) (-1) 1);
  (*2769*) Del (T 252);
  (*2770*) AddTo (T 286) (Plain (Einsum [(T 183,[0;1])] [0;1]));
  (*2771*) Del (T 183);
  (*2772*) Assign (T 287) (Plain (Zeros [3;6;6]));
  (*2773*) AddTo (T 287) (Plain (Einsum [(n_s1,[0]); (T 286,[1;2])] [0;1;2]));
  (*2774*) Del (T 286);
  (*2775*) AddTo (T 187) (Times (Einsum [(n_t1'bb,[0;1])] [0;1]) (-1) 1);
  (*2776*) AddTo n_l1new_aa (Times (Einsum [(T 187,[0;1]); (n_v'aabb'ovov,[2;3;0;1])] [3;2]) (-1) 1);
  (*2777*) AddTo n_ls1new (Times (Einsum [(T 187,[0;1]); (n_g'bb'bov,[2;0;1])] [2]) (-1) 1);
  (*2778*) Assign (T 188) (Plain (Zeros [7;7]));
  (*2779*) AddTo (T 188) (Plain (Einsum [(n_l1'bb,[0;1]); (n_t1'bb,[1;2])] [0;2]));
  (*2780*) AddTo (T 192) (Plain (Einsum [(T 188,[0;1])] [0;1]));
  (*2781*) AddTo n_ls1new (Plain (Einsum [(T 188,[0;1]); (n_g'bb'bvv,[2;0;1])] [2]));
  (*2782*) Del (T 188);
  (*2783*) Assign (T 189) (Plain (Zeros [7;7]));
  (*2784*) AddTo (T 189) (Plain (Einsum [(n_lu11'bb,[0;1;2]); (n_u11'bb,[0;2;3])] [1;3]));
  (*2785*) AddTo (T 192) (Plain (Einsum [(T 189,[0;1])] [0;1]));
  (*2786*) Assign (T 364) (Plain (Zeros [6;6;7;7]));
  (*2787*) AddTo (T 364) (Plain (Einsum [(T 189,[0;1]); (n_v'bbbb'ovov,[2;3;4;1])] [2;4;0;3]));
  (*2788*) AddTo (T 404) (Plain (Einsum [(T 364,[0;1;2;3])] [0;1;2;3]));
  (*2789*) Del (T 364);
  (*2790*) AddTo (T 479) (Plain (Einsum [(T 189,[0;1])] [0;1]));
  (*2791*) Del (T 189);
  (*2792*) Assign (T 190) (Plain (Zeros [7;7]));
  (*2793*) AddTo (T 190) (Plain (Einsum [(n_l2'abab,[0;1;2;3]); (n_t2'abab,[2;3;0;4])] [1;4]));
  (*2794*) AddTo (T 192) (Plain (Einsum [(T 190,[0;1])] [0;1]));
  (*2795*) AddTo n_l1new_aa (Plain (Einsum [(T 192,[0;1]); (n_v'aabb'ovvv,[2;3;0;1])] [3;2]));
  (*2796*) AddTo n_l1new_bb (Times (Einsum [(T 192,[0;1]); (T 150,[2;0;3;1])] [3;2]) (-1) 1);
  (*2797*) Del (T 150);
  (*2798*) Del (T 192);
  (*2799*) AddTo (T 423) (Plain (Einsum [(T 190,[0;1])] [0;1]));
  (*2800*) Assign (T 424) (Plain (Zeros [6;6;7;7]));
  (*2801*) AddTo (T 424) (Plain (Einsum [(T 423,[0;1]); (n_v'bbbb'ovov,[2;1;3;4])] [2;3;4;0]));
  (*2802*) Del (T 423);
  (*2803*) AddTo (T 427) (Times (Einsum [(T 424,[0;1;2;3])] [1;0;3;2]) (-1) 1);
  (*2804*) Del (T 424);
  (*2805*) AddTo (T 479) (Plain (Einsum [(T 190,[0;1])] [0;1]));
  (*2806*) Del (T 190);
  (*2807*) Assign (T 480) (Plain (Zeros [4;6;5;7]));
  (*2808*) AddTo (T 480) (Plain (Einsum [(T 479,[0;1]); (n_v'aabb'ovov,[2;3;4;1])] [2;4;3;0]));
  (*2809*) AddTo n_l2new_baba (Times (Einsum [(T 480,[0;1;2;3])] [3;2;1;0]) (-1) 1);
  (*2810*) AddTo n_l2new_abab (Times (Einsum [(T 480,[0;1;2;3])] [2;3;0;1]) (-1) 1);
  (*2811*) Del (T 480);
  (*2812*) AddTo n_ls1new (Plain (Einsum [(T 479,[0;1]); (n_g'bb'bvv,[2;0;1])] [2]));
  (*2813*) AddTo n_lu11new_bb (Times (Einsum [(T 479,[0;1]); (n_g'bb'bov,[2;3;1])] [2;0;3]) (-1) 1);
  (*2814*) Del (T 479);
  (*2815*) Assign (T 193) (Plain (Zeros [4;4;4;5]));
  (*2816*) SubFrom (T 193) (Plain (Einsum [(n_v'aaaa'ooov,[0;1;2;3])] [0;2;1;3]));
  (*2817*) AddTo (T 193) (Plain (Einsum [(n_v'aaaa'ooov,[0;1;2;3])] [2;0;1;3]));
  (*2818*) Assign (T 308) (Plain (Zeros [4;4;5;5]));
  (*2819*) AddTo (T 308) (Plain (Einsum [(T 193,[0;1;2;3]); (T 307,[4;2;0;5])] [1;4;3;5]));
  (*2820*) Del (T 307);
  (*2821*) AddTo (T 334) (Plain (Einsum [(T 308,[0;1;2;3])] [1;0;3;2]));
  (*2822*) Del (T 308);
  (*2823*) Assign (T 319) (Plain (Zeros [4;4]));
  (*2824*) AddTo (T 319) (Plain (Einsum [(n_t1'aa,[0;1]); (T 193,[2;0;3;1])] [2;3]));
  (*2825*) SubFrom (T 320) (Plain (Einsum [(T 319,[0;1])] [0;1]));
  (*2826*) Del (T 319);
  (*2827*) Assign (T 321) (Plain (Zeros [4;4;5;5]));
  (*2828*) AddTo (T 321) (Plain (Einsum [(T 320,[0;1]); (n_l2'aaaa,[2;3;1;4])] [4;0;2;3]));
  (*2829*) Del (T 320);
  (*2830*) SubFrom (T 334) (Plain (Einsum [(T 321,[0;1;2;3])] [0;1;3;2]));
  (*2831*) Del (T 321);
  (*2832*) AddTo n_l1new_aa (Times (Einsum [(T 164,[0;1]); (T 193,[2;1;0;3])] [3;2]) (-1) 1);
  (*2833*) Del (T 164);
  (*2834*) AddTo n_l2new_abab (Plain (Einsum [(T 193,[0;1;2;3]); (T 54,[2;0;4;5])] [3;5;1;4]));
  (*2835*) Del (T 193);
  (*2836*) Assign (T 194) (Plain (Zeros [3;4;5]));
  (*2837*) AddTo (T 194) (Plain (Einsum [(n_u11'bb,[0;1;2]); (n_v'aabb'ovov,[3;4;1;2])] [0;3;4]));
  (*2838*) AddTo (T 196) (Plain (Einsum [(T 194,[0;1;2])] [0;1;2]));
  (*2839*) Assign (T 325) (Plain (Zeros [3;4;5]));
  (*2840*) AddTo (T 325) (Plain (Einsum [(T 194,[0;1;2])] [0;1;2]));
  (*2841*) Assign (T 485) (Plain (Zeros [3;4;5]));
  (*2842*) AddTo (T 485) (Plain (Einsum [(T 194,[0;1;2])] [0;1;2]));
  (*2843*) Del (T 194);
  (*2844*) AddTo (T 196) (Plain (Einsum [(n_gc'aa'bov,[0;1;2])] [0;1;2]));
  (*2845*) AddTo (T 197) (Plain (Einsum [(n_t1'aa,[0;1]); (T 196,[2;3;1])] [2;3;0]));
  (*2846*) AddTo n_l1new_aa (Times (Einsum [(T 158,[0;1;2]); (T 196,[0;2;3])] [3;1]) (-1) 1);
  (*2847*) Del (T 196);
  (*2848*) AddTo (T 197) (Plain (Einsum [(n_gc'aa'boo,[0;1;2])] [0;1;2]));
  (*2849*) AddTo (T 197) (Plain (Einsum [(n_u11'bb,[0;1;2]); (n_v'aabb'ooov,[3;4;1;2])] [0;3;4]));
  (*2850*) AddTo n_l1new_aa (Times (Einsum [(n_lu11'aa,[0;1;2]); (T 197,[0;3;2])] [1;3]) (-1) 1);
  (*2851*) Del (T 197);
  (*2852*) Assign (T 198) (Plain (Zeros [4;5;5;5]));
  (*2853*) AddTo (T 198) (Plain (Einsum [(n_v'aaaa'ovvv,[0;1;2;3])] [0;2;1;3]));
  (*2854*) SubFrom (T 198) (Plain (Einsum [(n_v'aaaa'ovvv,[0;1;2;3])] [0;2;3;1]));
  (*2855*) Assign (T 199) (Plain (Zeros [3;5;5]));
  (*2856*) SubFrom (T 199) (Plain (Einsum [(n_u11'aa,[0;1;2]); (T 198,[1;3;4;2])] [0;3;4]));
  (*2857*) Assign (T 312) (Plain (Zeros [5;5]));
  (*2858*) AddTo (T 312) (Plain (Einsum [(n_t1'aa,[0;1]); (T 198,[0;2;3;1])] [2;3]));
  (*2859*) Del (T 198);
  (*2860*) SubFrom (T 313) (Plain (Einsum [(T 312,[0;1])] [0;1]));
  (*2861*) Del (T 312);
  (*2862*) Assign (T 314) (Plain (Zeros [4;4;5;5]));
  (*2863*) AddTo (T 314) (Plain (Einsum [(T 313,[0;1]); (n_l2'aaaa,[0;2;3;4])] [3;4;2;1]));
  (*2864*) Del (T 313);
  (*2865*) AddTo (T 334) (Plain (Einsum [(T 314,[0;1;2;3])] [1;0;2;3]));
  (*2866*) Del (T 314);
  (*2867*) AddTo (T 199) (Plain (Einsum [(n_gc'aa'bvv,[0;1;2])] [0;1;2]));
  (*2868*) AddTo (T 199) (Plain (Einsum [(n_u11'bb,[0;1;2]); (n_v'bbaa'ovvv,[1;2;3;4])] [0;3;4]));
  (*2869*) AddTo n_l1new_aa (Plain (Einsum [(n_lu11'aa,[0;1;2]); (T 199,[0;1;3])] [3;2]));
  (*2870*) Del (T 199);
  (*2871*) Assign (T 200) (Plain (Zeros [3;4;5]));
  (*2872*) AddTo (T 200) (Plain (Einsum [(n_u11'bb,[0;1;2]); (n_l2'abab,[3;2;4;1])] [0;4;3]));
  (*2873*) Assign (T 203) (Plain (Zeros [3;4;5]));
  (*2874*) AddTo (T 203) (Plain (Einsum [(T 200,[0;1;2])] [0;1;2]));
  (*2875*) Assign (T 205) (Plain (Zeros [3;4;5]));
  (*2876*) AddTo (T 205) (Plain (Einsum [(T 200,[0;1;2])] [0;1;2]));
  (*2877*) Del (T 200);
  (*2878*) Assign (T 201) (Plain (Zeros [4;4;5;5]));
  (*2879*) SubFrom (T 201) (Plain (Einsum [(n_l2'aaaa,[0;1;2;3])] [3;2;0;1]));
  (*2880*) AddTo (T 201) (Plain (Einsum [(n_l2'aaaa,[0;1;2;3])] [3;2;1;0]));
  (*2881*) Assign (T 202) (Plain (Zeros [3;4;5]));
  (*2882*) AddTo (T 202) (Plain (Einsum [(n_u11'aa,[0;1;2]); (T 201,[1;3;4;2])] [0;3;4]));
  (*2883*) SubFrom (T 203) (Plain (Einsum [(T 202,[0;1;2])] [0;1;2]));
  (*2884*) Del (T 202);
  (*2885*) Assign (T 322) (Plain (Zeros [4;4;5;5]));
  (*2886*) AddTo (T 322) (Plain (Einsum [(n_g'aa'bov,[0;1;2]); (T 203,[0;3;4])] [1;3;2;4]));
  (*2887*) AddTo (T 334) (Plain (Einsum [(T 322,[0;1;2;3])] [0;1;2;3]));
  (*2888*) Del (T 322);
  (*2889*) Assign (T 489) (Plain (Zeros [4;6;5;7]));
  (*2890*) AddTo (T 489) (Plain (Einsum [(n_g'bb'bov,[0;1;2]); (T 203,[0;3;4])] [3;1;4;2]));
  (*2891*) AddTo n_l2new_baba (Plain (Einsum [(T 489,[0;1;2;3])] [3;2;1;0]));
  (*2892*) AddTo n_l2new_abab (Plain (Einsum [(T 489,[0;1;2;3])] [2;3;0;1]));
  (*2893*) Del (T 489);
  (*2894*) AddTo n_l1new_aa (Plain (Einsum [(n_g'aa'bvv,[0;1;2]); (T 203,[0;3;1])] [2;3]));
  (*2895*) AddTo n_l1new_aa (Times (Einsum [(T 203,[0;1;2]); (T 96,[0;3;1])] [2;3]) (-1) 1);
  (*2896*) Del (T 203);
  (*2897*) Del (T 96);
  (*2898*) Assign (T 204) (Plain (Zeros [4;4;5;5]));
  (*2899*) AddTo (T 204) (Times (Einsum [(n_l2'aaaa,[0;1;2;3])] [3;2;0;1]) (-1) 1);
  (*2900*) AddTo (T 204) (Plain (Einsum [(n_l2'aaaa,[0;1;2;3])] [3;2;1;0]));
  (*2901*) AddTo (T 205) (Times (Einsum [(n_u11'aa,[0;1;2]); (T 204,[1;3;4;2])] [0;3;4]) (-1) 1);
  (*2902*) AddTo (T 207) (Plain (Einsum [(n_t1'aa,[0;1]); (T 205,[2;3;1])] [2;3;0]));
  (*2903*) Del (T 205);
  (*2904*) AddTo (T 207) (Plain (Einsum [(n_l1'aa,[0;1]); (n_u11'aa,[2;3;0])] [2;1;3]));
  (*2905*) AddTo n_l1new_aa (Times (Einsum [(n_g'aa'bov,[0;1;2]); (T 207,[0;3;1])] [2;3]) (-1) 1);
  (*2906*) Del (T 207);
  (*2907*) Assign (T 208) (Plain (Zeros [4;4;5;5]));
  (*2908*) AddTo (T 208) (Plain (Einsum [(n_v'aaaa'ovvo,[0;1;2;3])] [0;3;2;1]));
  (*2909*) SubFrom (T 208) (Plain (Einsum [(n_v'aaaa'oovv,[0;1;2;3])] [0;1;2;3]));
  (*2910*) AddTo n_l1new_aa (Plain (Einsum [(n_l1'aa,[0;1]); (T 208,[2;1;0;3])] [3;2]));
  (*2911*) AddTo n_lu11new_aa (Plain (Einsum [(n_lu11'aa,[0;1;2]); (T 208,[3;2;1;4])] [0;4;3]));
  (*2912*) Del (T 208);
  (*2913*) AddTo (T 210) (Plain (Einsum [(n_f'aa'ov,[0;1])] [0;1]));
  (*2914*) AddTo n_l1new_aa (Times (Einsum [(T 209,[0;1]); (T 210,[1;2])] [2;0]) (-1) 1);
  (*2915*) Del (T 209);
  (*2916*) Del (T 210);
  (*2917*) Assign (T 211) (Plain (Zeros [3]));
  (*2918*) AddTo (T 211) (Plain (Einsum [(n_s1,[0]); (n_w,[0;1])] [1]));
  (*2919*) AddTo (T 216) (Plain (Einsum [(T 211,[0])] [0]));
  (*2920*) Del (T 211);
  (*2921*) Assign (T 212) (Plain (Zeros [3]));
  (*2922*) AddTo (T 212) (Plain (Einsum [(n_t1'aa,[0;1]); (n_gc'aa'bov,[2;0;1])] [2]));
  (*2923*) AddTo (T 216) (Plain (Einsum [(T 212,[0])] [0]));
  (*2924*) Del (T 212);
  (*2925*) Assign (T 213) (Plain (Zeros [3]));
  (*2926*) AddTo (T 213) (Plain (Einsum [(n_t1'bb,[0;1]); (n_gc'bb'bov,[2;0;1])] [2]));
  (*2927*) AddTo (T 216) (Plain (Einsum [(T 213,[0])] [0]));
  (*2928*) Del (T 213);
  (*2929*) AddTo (T 216) (Plain (Einsum [(n_G,[0])] [0]));
  (*2930*) AddTo n_l1new_aa (Plain (Einsum [(T 216,[0]); (n_lu11'aa,[0;1;2])] [1;2]));
  (*2931*) AddTo n_l1new_bb (Plain (Einsum [(T 216,[0]); (n_lu11'bb,[0;1;2])] [1;2]));
  (*2932*) Del (T 216);
  (*2933*) Assign (T 217) (Plain (Zeros [3]));
  (*2934*) AddTo (T 217) (Plain (Einsum [(n_l1'aa,[0;1]); (n_u11'aa,[2;1;0])] [2]));
  (*2935*) Assign (T 219) (Plain (Zeros [3]));
  (*2936*) AddTo (T 219) (Plain (Einsum [(T 217,[0])] [0]));
  (*2937*) Del (T 217);
  (*2938*) Assign (T 218) (Plain (Zeros [3]));
  (*2939*) AddTo (T 218) (Plain (Einsum [(n_l1'bb,[0;1]); (n_u11'bb,[2;1;0])] [2]));
  (*2940*) AddTo (T 219) (Plain (Einsum [(T 218,[0])] [0]));
  (*2941*) Del (T 218);
  (*2942*) AddTo (T 219) (Plain (Einsum [(n_s1,[0])] [0]));
  (*2943*) AddTo n_l1new_aa (Plain (Einsum [(T 219,[0]); (n_g'aa'bov,[0;1;2])] [2;1]));
  (*2944*) AddTo n_l1new_bb (Plain (Einsum [(T 219,[0]); (n_g'bb'bov,[0;1;2])] [2;1]));
  (*2945*) Del (T 219);
  (*2946*) Assign (T 220) (Plain (Zeros [6;6;5;5]));
  (*2947*) AddTo (T 220) (Plain (Einsum [(n_l2'abab,[0;1;2;3]); (n_t2'abab,[2;4;5;1])] [3;4;0;5]));
  (*2948*) AddTo n_l1new_bb (Times (Einsum [(n_v'bbaa'ovvv,[0;1;2;3]); (T 220,[4;0;2;3])] [1;4]) (-1) 1);
  (*2949*) Del (T 220);
  (*2950*) AddTo (T 221) (Times (Einsum [(n_v'bbbb'ooov,[0;1;2;3])] [1;2;0;3]) (-1) 1);
  (*2951*) AddTo (T 221) (Plain (Einsum [(n_v'bbbb'ooov,[0;1;2;3])] [1;0;2;3]));
  (*2952*) AddTo (T 224) (Plain (Einsum [(T 221,[0;1;2;3]); (T 29,[1;4;3;5])] [0;2;4;5]));
  (*2953*) Del (T 221);
  (*2954*) Assign (T 222) (Plain (Zeros [6;6;6;6]));
  (*2955*) AddTo (T 222) (Plain (Einsum [(n_t1'bb,[0;1]); (n_v'bbbb'ooov,[2;3;4;1])] [0;2;4;3]));
  (*2956*) Assign (T 223) (Plain (Zeros [6;6;6;6]));
  (*2957*) AddTo (T 223) (Times (Einsum [(T 222,[0;1;2;3])] [0;2;1;3]) (-1) 1);
  (*2958*) AddTo (T 223) (Plain (Einsum [(T 222,[0;1;2;3])] [0;1;2;3]));
  (*2959*) AddTo (T 224) (Times (Einsum [(n_t1'bb,[0;1]); (T 223,[2;0;3;4])] [2;3;4;1]) (-1) 1);
  (*2960*) Del (T 223);
  (*2961*) Assign (T 366) (Plain (Zeros [6;6;7;7]));
  (*2962*) AddTo (T 366) (Plain (Einsum [(n_l2'bbbb,[0;1;2;3]); (T 222,[3;4;5;2])] [4;5;1;0]));
  (*2963*) Del (T 222);
  (*2964*) SubFrom (T 404) (Plain (Einsum [(T 366,[0;1;2;3])] [0;1;2;3]));
  (*2965*) Del (T 366);
  (*2966*) Assign (T 225) (Plain (Zeros [6;6;7;7]));
  (*2967*) SubFrom (T 225) (Plain (Einsum [(n_l2'bbbb,[0;1;2;3])] [3;2;0;1]));
  (*2968*) AddTo (T 225) (Plain (Einsum [(n_l2'bbbb,[0;1;2;3])] [3;2;1;0]));
  (*2969*) AddTo n_l1new_bb (Plain (Einsum [(T 224,[0;1;2;3]); (T 225,[0;2;3;4])] [4;1]));
  (*2970*) Del (T 224);
  (*2971*) AddTo (T 226) (Plain (Einsum [(n_v'bbbb'ooov,[0;1;2;3])] [0;2;1;3]));
  (*2972*) AddTo (T 226) (Times (Einsum [(n_v'bbbb'ooov,[0;1;2;3])] [2;0;1;3]) (-1) 1);
  (*2973*) AddTo (T 229) (Times (Einsum [(n_t2'abab,[0;1;2;3]); (T 226,[1;4;5;3])] [0;4;5;2]) (-1) 1);
  (*2974*) Del (T 226);
  (*2975*) Assign (T 227) (Plain (Zeros [6;6;5;5]));
  (*2976*) AddTo (T 227) (Plain (Einsum [(n_t1'bb,[0;1]); (n_v'bbaa'ovvv,[2;1;3;4])] [0;2;3;4]));
  (*2977*) Assign (T 228) (Plain (Zeros [6;6;5;5]));
  (*2978*) AddTo (T 228) (Plain (Einsum [(T 227,[0;1;2;3])] [1;0;2;3]));
  (*2979*) Assign (T 457) (Plain (Zeros [6;6;5;5]));
  (*2980*) AddTo (T 457) (Plain (Einsum [(T 227,[0;1;2;3])] [1;0;2;3]));
  (*2981*) Del (T 227);
  (*2982*) AddTo (T 228) (Plain (Einsum [(n_v'bbaa'oovv,[0;1;2;3])] [0;1;2;3]));
  (*2983*) AddTo (T 229) (Plain (Einsum [(n_t1'aa,[0;1]); (T 228,[2;3;4;1])] [0;2;3;4]));
  (*2984*) Del (T 228);
  (*2985*) AddTo (T 229) (Plain (Einsum [(n_v'bbaa'oovo,[0;1;2;3])] [3;0;1;2]));
  (*2986*) AddTo (T 229) (Plain (Einsum [(n_t1'bb,[0;1]); (n_v'bbaa'ovvo,[2;1;3;4])] [4;2;0;3]));
  (*2987*) AddTo (T 229) (Plain (Einsum [(n_t2'abab,[0;1;2;3]); (n_v'bbaa'ovvv,[4;3;5;2])] [0;4;1;5]));
  (*2988*) AddTo n_l1new_bb (Times (Einsum [(n_l2'abab,[0;1;2;3]); (T 229,[2;4;3;0])] [1;4]) (-1) 1);
  (*2989*) Del (T 229);
  (*2990*) Assign (T 230) (Plain (Zeros [6;6;7;7]));
  (*2991*) AddTo (T 230) (Plain (Einsum [(n_l2'abab,[0;1;2;3]); (n_t2'abab,[2;4;0;5])] [3;4;1;5]));
  (*2992*) Assign (T 233) (Plain (Zeros [6;6;7;7]));
  (*2993*) AddTo (T 233) (Plain (Einsum [(T 230,[0;1;2;3])] [0;1;2;3]));
  (*2994*) Del (T 230);
  (*2995*) Assign (T 231) (Plain (Zeros [6;6;7;7]));
  (*2996*) AddTo (T 231) (Times (Einsum [(n_l2'bbbb,[0;1;2;3])] [3;2;0;1]) (-1) 1);
  (*2997*) AddTo (T 231) (Plain (Einsum [(n_l2'bbbb,[0;1;2;3])] [3;2;1;0]));
  (*2998*) Assign (T 232) (Plain (Zeros [6;6;7;7]));
  (*2999*) AddTo (T 232) (Plain (Einsum [(T 231,[0;1;2;3]); (T 29,[0;4;5;2])] [4;1;5;3]));
  (*3000*) Del (T 29);
  (*3001*) AddTo (T 233) (Plain (Einsum [(T 232,[0;1;2;3])] [1;0;3;2]));
  (*3002*) Del (T 232);
  (*3003*) Assign (T 410) (Plain (Zeros [6;6;7;7]));
  (*3004*) AddTo (T 410) (Plain (Einsum [(T 233,[0;1;2;3]); (T 90,[1;4;5;3])] [4;0;5;2]));
  (*3005*) AddTo (T 427) (Times (Einsum [(T 410,[0;1;2;3])] [1;0;3;2]) (-1) 1);
  (*3006*) Del (T 410);
  (*3007*) AddTo (T 250) (Times (Einsum [(n_t2'abab,[0;1;2;3]); (T 231,[1;4;3;5])] [0;4;2;5]) (-1) 1);
  (*3008*) Del (T 231);
  (*3009*) AddTo n_l1new_bb (Times (Einsum [(n_v'aabb'ovvv,[0;1;2;3]); (T 250,[0;4;1;2])] [3;4]) (-1) 1);
  (*3010*) Del (T 250);
  (*3011*) Assign (T 234) (Plain (Zeros [6;7;7;7]));
  (*3012*) AddTo (T 234) (Plain (Einsum [(n_v'bbbb'ovvv,[0;1;2;3])] [0;2;1;3]));
  (*3013*) AddTo (T 234) (Times (Einsum [(n_v'bbbb'ovvv,[0;1;2;3])] [0;2;3;1]) (-1) 1);
  (*3014*) AddTo n_l1new_bb (Times (Einsum [(T 233,[0;1;2;3]); (T 234,[1;2;4;3])] [4;0]) (-1) 1);
  (*3015*) Del (T 233);
  (*3016*) Del (T 234);
  (*3017*) Assign (T 235) (Plain (Zeros [6;6;6;7]));
  (*3018*) AddTo (T 235) (Plain (Einsum [(n_t1'bb,[0;1]); (n_v'bbbb'oooo,[2;3;0;4])] [2;3;4;1]));
  (*3019*) Assign (T 238) (Plain (Zeros [6;6;6;7]));
  (*3020*) AddTo (T 238) (Plain (Einsum [(T 235,[0;1;2;3])] [0;1;2;3]));
  (*3021*) Del (T 235);
  (*3022*) AddTo (T 236) (Plain (Einsum [(n_f'bb'ov,[0;1])] [0;1]));
  (*3023*) Assign (T 237) (Plain (Zeros [6;6;6;7]));
  (*3024*) AddTo (T 237) (Plain (Einsum [(T 236,[0;1]); (n_t2'bbbb,[2;3;1;4])] [2;3;0;4]));
  (*3025*) Del (T 236);
  (*3026*) AddTo (T 238) (Plain (Einsum [(T 237,[0;1;2;3])] [2;1;0;3]));
  (*3027*) Del (T 237);
  (*3028*) AddTo (T 238) (Times (Einsum [(n_v'bbbb'oovo,[0;1;2;3])] [0;1;3;2]) (-1) 1);
  (*3029*) Assign (T 249) (Plain (Zeros [6;6;6;7]));
  (*3030*) AddTo (T 249) (Plain (Einsum [(T 238,[0;1;2;3])] [0;2;1;3]));
  (*3031*) AddTo (T 249) (Times (Einsum [(T 238,[0;1;2;3])] [0;1;2;3]) (-1) 1);
  (*3032*) Del (T 238);
  (*3033*) Assign (T 239) (Plain (Zeros [6;6;6;7]));
  (*3034*) AddTo (T 239) (Plain (Einsum [(n_t2'bbbb,[0;1;2;3]); (n_v'bbbb'ovvv,[4;3;5;2])] [1;0;4;5]));
  (*3035*) AddTo (T 248) (Times (Einsum [(T 239,[0;1;2;3])] [0;1;2;3]) (-1) 1);
  (*3036*) Del (T 239);
  (*3037*) Assign (T 240) (Plain (Zeros [6;6;7;7]));
  (*3038*) AddTo (T 240) (Plain (Einsum [(n_t1'bb,[0;1]); (n_v'bbbb'ovvv,[2;3;4;1])] [0;2;4;3]));
  (*3039*) Assign (T 241) (Plain (Zeros [6;6;6;7]));
  (*3040*) AddTo (T 241) (Plain (Einsum [(n_t1'bb,[0;1]); (T 240,[2;3;4;1])] [0;2;3;4]));
  (*3041*) Del (T 240);
  (*3042*) AddTo (T 248) (Times (Einsum [(T 241,[0;1;2;3])] [0;1;2;3]) (-1) 1);
  (*3043*) Del (T 241);
  (*3044*) Assign (T 244) (Plain (Zeros [6;6;6;6]));
  (*3045*) AddTo (T 244) (Plain (Einsum [(n_t2'bbbb,[0;1;2;3]); (n_v'bbbb'ovov,[4;2;5;3])] [0;1;4;5]));
  (*3046*) AddTo (T 246) (Plain (Einsum [(T 244,[0;1;2;3])] [1;0;3;2]));
  (*3047*) Assign (T 247) (Plain (Zeros [6;6;6;7]));
  (*3048*) AddTo (T 247) (Plain (Einsum [(n_t1'bb,[0;1]); (T 246,[2;3;0;4])] [2;3;4;1]));
  (*3049*) Del (T 246);
  (*3050*) AddTo (T 248) (Plain (Einsum [(T 247,[0;1;2;3])] [1;0;2;3]));
  (*3051*) Del (T 247);
  (*3052*) AddTo (T 249) (Plain (Einsum [(T 248,[0;1;2;3])] [2;1;0;3]));
  (*3053*) AddTo (T 249) (Times (Einsum [(T 248,[0;1;2;3])] [2;0;1;3]) (-1) 1);
  (*3054*) Del (T 248);
  (*3055*) AddTo n_l1new_bb (Plain (Einsum [(n_l2'bbbb,[0;1;2;3]); (T 249,[4;2;3;0])] [1;4]));
  (*3056*) Del (T 249);
  (*3057*) AddTo (T 407) (Plain (Einsum [(T 244,[0;1;2;3])] [1;0;3;2]));
  (*3058*) Del (T 244);
  (*3059*) Assign (T 408) (Plain (Zeros [6;6;7;7]));
  (*3060*) AddTo (T 408) (Plain (Einsum [(n_l2'bbbb,[0;1;2;3]); (T 407,[2;3;4;5])] [4;5;0;1]));
  (*3061*) Del (T 407);
  (*3062*) AddTo (T 409) (Plain (Einsum [(T 408,[0;1;2;3])] [1;0;3;2]));
  (*3063*) Del (T 408);
  (*3064*) Assign (T 256) (Plain (Zeros [6;7;7;7]));
  (*3065*) AddTo (T 256) (Plain (Einsum [(n_t1'bb,[0;1]); (n_v'bbbb'vvvv,[2;3;4;1])] [0;2;4;3]));
  (*3066*) Assign (T 257) (Plain (Zeros [6;7;7;7]));
  (*3067*) AddTo (T 257) (Times (Einsum [(T 256,[0;1;2;3])] [0;1;2;3]) (-1) 1);
  (*3068*) Del (T 256);
  (*3069*) AddTo (T 257) (Plain (Einsum [(n_v'bbbb'vovv,[0;1;2;3])] [1;0;2;3]));
  (*3070*) Assign (T 258) (Plain (Zeros [6;7;7;7]));
  (*3071*) AddTo (T 258) (Times (Einsum [(T 257,[0;1;2;3])] [0;1;2;3]) (-1) 1);
  (*3072*) AddTo (T 258) (Plain (Einsum [(T 257,[0;1;2;3])] [0;2;1;3]));
  (*3073*) Del (T 257);
  (*3074*) AddTo n_l1new_bb (Times (Einsum [(n_l2'bbbb,[0;1;2;3]); (T 258,[2;0;1;4])] [4;3]) (-1) 1);
  (*3075*) Del (T 258);
  (*3076*) AddTo (T 259) (Times (Einsum [(n_l1'bb,[0;1]); (n_t2'abab,[2;3;4;0])] [2;1;3;4]) (-1) 1);
  (*3077*) AddTo n_l1new_bb (Plain (Einsum [(n_v'aabb'ovov,[0;1;2;3]); (T 259,[0;4;2;1])] [3;4]));
  (*3078*) Del (T 259);
  (*3079*) Assign (T 260) (Plain (Zeros [6;6;6;7]));
  (*3080*) AddTo (T 260) (Plain (Einsum [(n_l1'bb,[0;1]); (n_t2'bbbb,[2;3;4;0])] [1;2;3;4]));
  (*3081*) Assign (T 263) (Plain (Zeros [6;6;6;7]));
  (*3082*) AddTo (T 263) (Plain (Einsum [(T 260,[0;1;2;3])] [0;1;2;3]));
  (*3083*) Del (T 260);
  (*3084*) Assign (T 261) (Plain (Zeros [6;6;6;6]));
  (*3085*) AddTo (T 261) (Plain (Einsum [(n_l2'bbbb,[0;1;2;3]); (n_t2'bbbb,[4;5;1;0])] [2;3;5;4]));
  (*3086*) Assign (T 262) (Plain (Zeros [6;6;6;7]));
  (*3087*) AddTo (T 262) (Plain (Einsum [(n_t1'bb,[0;1]); (T 261,[2;0;3;4])] [2;3;4;1]));
  (*3088*) AddTo (T 263) (Plain (Einsum [(T 262,[0;1;2;3])] [0;1;2;3]));
  (*3089*) Del (T 262);
  (*3090*) Assign (T 264) (Plain (Zeros [6;6;6;7]));
  (*3091*) AddTo (T 264) (Plain (Einsum [(T 263,[0;1;2;3])] [0;2;1;3]));
  (*3092*) AddTo (T 264) (Times (Einsum [(T 263,[0;1;2;3])] [0;1;2;3]) (-1) 1);
  (*3093*) Del (T 263);
  (*3094*) AddTo n_l1new_bb (Plain (Einsum [(n_v'bbbb'ovov,[0;1;2;3]); (T 264,[4;0;2;1])] [3;4]));
  (*3095*) Del (T 264);
  (*3096*) Assign (T 272) (Plain (Zeros [6;6;6;6]));
  (*3097*) AddTo (T 272) (Times (Einsum [(T 261,[0;1;2;3])] [1;0;2;3]) (-1) 1);
  (*3098*) AddTo (T 272) (Plain (Einsum [(T 261,[0;1;2;3])] [1;0;3;2]));
  (*3099*) AddTo n_l1new_bb (Times (Einsum [(n_v'bbbb'ooov,[0;1;2;3]); (T 272,[1;4;2;0])] [3;4]) (-1) 1);
  (*3100*) Del (T 272);
  (*3101*) Assign (T 405) (Plain (Zeros [6;6;7;7]));
  (*3102*) AddTo (T 405) (Plain (Einsum [(n_v'bbbb'ovov,[0;1;2;3]); (T 261,[4;5;0;2])] [5;4;3;1]));
  (*3103*) Del (T 261);
  (*3104*) AddTo (T 409) (Plain (Einsum [(T 405,[0;1;2;3])] [0;1;2;3]));
  (*3105*) Del (T 405);
  (*3106*) Assign n_l2new_bbbb (Plain (Zeros [7;7;6;6]));
  (*3107*) AddTo n_l2new_bbbb (Plain (Einsum [(T 409,[0;1;2;3])] [2;3;0;1]));
  (*3108*) AddTo n_l2new_bbbb (Times (Einsum [(T 409,[0;1;2;3])] [3;2;0;1]) (-1) 1);
  (*3109*) Del (T 409);
  (*3110*) Assign (T 265) (Plain (Zeros [4;5;7;7]));
  (*3111*) AddTo (T 265) (Plain (Einsum [(n_v'aabb'vovv,[0;1;2;3])] [1;0;2;3]));
  (*3112*) AddTo (T 265) (Plain (Einsum [(n_t1'aa,[0;1]); (n_v'aabb'vvvv,[2;1;3;4])] [0;2;3;4]));
  (*3113*) AddTo n_l1new_bb (Plain (Einsum [(n_l2'abab,[0;1;2;3]); (T 265,[2;0;1;4])] [4;3]));
  (*3114*) Del (T 265);
  (*3115*) AddTo (T 268) (Times (Einsum [(n_v'bbbb'ooov,[0;1;2;3])] [0;2;1;3]) (-1) 1);
  (*3116*) AddTo n_l1new_bb (Times (Einsum [(T 267,[0;1;2;3]); (T 268,[2;3;1;4])] [4;0]) (-1) 1);
  (*3117*) Del (T 267);
  (*3118*) Del (T 268);
  (*3119*) Assign (T 269) (Plain (Zeros [4;6;5;7]));
  (*3120*) AddTo (T 269) (Plain (Einsum [(n_t1'aa,[0;1]); (n_v'bbaa'ovvv,[2;3;4;1])] [0;2;4;3]));
  (*3121*) Assign (T 270) (Plain (Zeros [4;6;5;7]));
  (*3122*) AddTo (T 270) (Plain (Einsum [(T 269,[0;1;2;3])] [0;1;2;3]));
  (*3123*) Assign (T 374) (Plain (Zeros [4;6;5;7]));
  (*3124*) AddTo (T 374) (Plain (Einsum [(T 269,[0;1;2;3])] [0;1;2;3]));
  (*3125*) AddTo (T 442) (Plain (Einsum [(T 269,[0;1;2;3])] [0;1;2;3]));
  (*3126*) Del (T 269);
  (*3127*) AddTo (T 270) (Plain (Einsum [(n_v'bbaa'ovvo,[0;1;2;3])] [3;0;2;1]));
  (*3128*) AddTo n_l1new_bb (Times (Einsum [(T 1,[0;1;2;3]); (T 270,[0;2;3;4])] [4;1]) (-1) 1);
  (*3129*) Del (T 270);
  (*3130*) Assign (T 271) (Plain (Zeros [6;6;7;7]));
  (*3131*) AddTo (T 271) (Plain (Einsum [(n_l2'bbbb,[0;1;2;3])] [3;2;0;1]));
  (*3132*) AddTo (T 271) (Times (Einsum [(n_l2'bbbb,[0;1;2;3])] [3;2;1;0]) (-1) 1);
  (*3133*) Assign (T 284) (Plain (Zeros [3;6;7]));
  (*3134*) AddTo (T 284) (Plain (Einsum [(n_u11'bb,[0;1;2]); (T 271,[1;3;2;4])] [0;3;4]));
  (*3135*) Assign (T 285) (Plain (Zeros [3;6;7]));
  (*3136*) AddTo (T 285) (Times (Einsum [(T 284,[0;1;2])] [0;1;2]) (-1) 1);
  (*3137*) Del (T 284);
  (*3138*) Assign (T 413) (Plain (Zeros [4;6;5;7]));
  (*3139*) AddTo (T 413) (Plain (Einsum [(n_t2'abab,[0;1;2;3]); (T 271,[1;4;3;5])] [0;4;2;5]));
  (*3140*) Assign (T 414) (Plain (Zeros [6;6;7;7]));
  (*3141*) AddTo (T 414) (Times (Einsum [(n_v'aabb'ovov,[0;1;2;3]); (T 413,[0;4;1;5])] [2;4;3;5]) (-1) 1);
  (*3142*) Del (T 413);
  (*3143*) AddTo (T 427) (Times (Einsum [(T 414,[0;1;2;3])] [1;0;3;2]) (-1) 1);
  (*3144*) Del (T 414);
  (*3145*) AddTo n_l1new_bb (Times (Einsum [(T 155,[0;1]); (T 271,[0;2;1;3])] [3;2]) (-1) 1);
  (*3146*) Del (T 155);
  (*3147*) Assign (T 273) (Plain (Zeros [6;6;7;7]));
  (*3148*) SubFrom (T 273) (Plain (Einsum [(n_v'bbbb'ovov,[0;1;2;3])] [2;0;1;3]));
  (*3149*) AddTo (T 273) (Plain (Einsum [(n_v'bbbb'ovov,[0;1;2;3])] [2;0;3;1]));
  (*3150*) AddTo n_l1new_bb (Times (Einsum [(T 187,[0;1]); (T 273,[0;2;1;3])] [3;2]) (-1) 1);
  (*3151*) Del (T 273);
  (*3152*) Del (T 187);
  (*3153*) Assign (T 274) (Plain (Zeros [3;6;7]));
  (*3154*) AddTo (T 274) (Plain (Einsum [(n_u11'aa,[0;1;2]); (n_v'aabb'ovov,[1;2;3;4])] [0;3;4]));
  (*3155*) AddTo (T 276) (Plain (Einsum [(T 274,[0;1;2])] [0;1;2]));
  (*3156*) Assign (T 395) (Plain (Zeros [3;6;7]));
  (*3157*) AddTo (T 395) (Plain (Einsum [(T 274,[0;1;2])] [0;1;2]));
  (*3158*) Assign (T 487) (Plain (Zeros [3;6;7]));
  (*3159*) AddTo (T 487) (Plain (Einsum [(T 274,[0;1;2])] [0;1;2]));
  (*3160*) Del (T 274);
  (*3161*) AddTo (T 276) (Plain (Einsum [(n_gc'bb'bov,[0;1;2])] [0;1;2]));
  (*3162*) AddTo (T 277) (Plain (Einsum [(n_t1'bb,[0;1]); (T 276,[2;3;1])] [2;3;0]));
  (*3163*) AddTo n_l1new_bb (Times (Einsum [(T 175,[0;1;2]); (T 276,[0;2;3])] [3;1]) (-1) 1);
  (*3164*) Del (T 276);
  (*3165*) AddTo (T 277) (Plain (Einsum [(n_gc'bb'boo,[0;1;2])] [0;1;2]));
  (*3166*) AddTo (T 277) (Plain (Einsum [(n_u11'aa,[0;1;2]); (n_v'aabb'ovoo,[1;2;3;4])] [0;3;4]));
  (*3167*) AddTo n_l1new_bb (Times (Einsum [(n_lu11'bb,[0;1;2]); (T 277,[0;3;2])] [1;3]) (-1) 1);
  (*3168*) Del (T 277);
  (*3169*) Assign (T 278) (Plain (Zeros [6;7;7;7]));
  (*3170*) SubFrom (T 278) (Plain (Einsum [(n_v'bbbb'ovvv,[0;1;2;3])] [0;2;1;3]));
  (*3171*) AddTo (T 278) (Plain (Einsum [(n_v'bbbb'ovvv,[0;1;2;3])] [0;2;3;1]));
  (*3172*) Assign (T 279) (Plain (Zeros [3;7;7]));
  (*3173*) SubFrom (T 279) (Plain (Einsum [(n_u11'bb,[0;1;2]); (T 278,[1;3;2;4])] [0;3;4]));
  (*3174*) Assign (T 369) (Plain (Zeros [6;6;7;7]));
  (*3175*) AddTo (T 369) (Plain (Einsum [(n_t1'bb,[0;1]); (T 278,[2;3;4;1])] [0;2;3;4]));
  (*3176*) Assign (T 370) (Plain (Zeros [6;6;7;7]));
  (*3177*) SubFrom (T 370) (Plain (Einsum [(T 369,[0;1;2;3])] [0;1;2;3]));
  (*3178*) Del (T 369);
  (*3179*) Assign (T 382) (Plain (Zeros [7;7]));
  (*3180*) AddTo (T 382) (Plain (Einsum [(n_t1'bb,[0;1]); (T 278,[0;2;1;3])] [2;3]));
  (*3181*) SubFrom (T 383) (Plain (Einsum [(T 382,[0;1])] [0;1]));
  (*3182*) Del (T 382);
  (*3183*) Assign (T 384) (Plain (Zeros [6;6;7;7]));
  (*3184*) AddTo (T 384) (Plain (Einsum [(T 383,[0;1]); (n_l2'bbbb,[0;2;3;4])] [3;4;2;1]));
  (*3185*) Del (T 383);
  (*3186*) AddTo (T 404) (Plain (Einsum [(T 384,[0;1;2;3])] [1;0;2;3]));
  (*3187*) Del (T 384);
  (*3188*) AddTo (T 279) (Plain (Einsum [(n_gc'bb'bvv,[0;1;2])] [0;1;2]));
  (*3189*) AddTo (T 279) (Plain (Einsum [(n_u11'aa,[0;1;2]); (n_v'aabb'ovvv,[1;2;3;4])] [0;3;4]));
  (*3190*) AddTo n_l1new_bb (Plain (Einsum [(n_lu11'bb,[0;1;2]); (T 279,[0;1;3])] [3;2]));
  (*3191*) Del (T 279);
  (*3192*) Assign (T 280) (Plain (Zeros [3;6;7]));
  (*3193*) AddTo (T 280) (Plain (Einsum [(n_u11'aa,[0;1;2]); (n_l2'abab,[2;3;1;4])] [0;4;3]));
  (*3194*) Assign (T 283) (Plain (Zeros [3;6;7]));
  (*3195*) AddTo (T 283) (Plain (Einsum [(T 280,[0;1;2])] [0;1;2]));
  (*3196*) AddTo (T 285) (Plain (Einsum [(T 280,[0;1;2])] [0;1;2]));
  (*3197*) Del (T 280);
  (*3198*) AddTo (T 287) (Plain (Einsum [(n_t1'bb,[0;1]); (T 285,[2;3;1])] [2;3;0]));
  (*3199*) AddTo n_l1new_bb (Times (Einsum [(T 135,[0;1;2]); (T 285,[0;2;3])] [3;1]) (-1) 1);
  (*3200*) Del (T 285);
  (*3201*) Del (T 135);
  (*3202*) Assign (T 281) (Plain (Zeros [6;6;7;7]));
  (*3203*) AddTo (T 281) (Plain (Einsum [(n_l2'bbbb,[0;1;2;3])] [3;2;0;1]));
  (*3204*) SubFrom (T 281) (Plain (Einsum [(n_l2'bbbb,[0;1;2;3])] [3;2;1;0]));
  (*3205*) Assign (T 282) (Plain (Zeros [3;6;7]));
  (*3206*) AddTo (T 282) (Plain (Einsum [(n_u11'bb,[0;1;2]); (T 281,[1;3;2;4])] [0;3;4]));
  (*3207*) Del (T 281);
  (*3208*) SubFrom (T 283) (Plain (Einsum [(T 282,[0;1;2])] [0;1;2]));
  (*3209*) Del (T 282);
  (*3210*) Assign (T 392) (Plain (Zeros [6;6;7;7]));
  (*3211*) AddTo (T 392) (Plain (Einsum [(n_g'bb'bov,[0;1;2]); (T 283,[0;3;4])] [1;3;2;4]));
  (*3212*) AddTo (T 404) (Plain (Einsum [(T 392,[0;1;2;3])] [0;1;2;3]));
  (*3213*) Del (T 392);
  (*3214*) Assign (T 490) (Plain (Zeros [4;6;5;7]));
  (*3215*) AddTo (T 490) (Plain (Einsum [(n_g'aa'bov,[0;1;2]); (T 283,[0;3;4])] [1;3;2;4]));
  (*3216*) AddTo n_l2new_baba (Plain (Einsum [(T 490,[0;1;2;3])] [3;2;1;0]));
  (*3217*) AddTo n_l2new_abab (Plain (Einsum [(T 490,[0;1;2;3])] [2;3;0;1]));
  (*3218*) Del (T 490);
  (*3219*) AddTo n_l1new_bb (Plain (Einsum [(n_g'bb'bvv,[0;1;2]); (T 283,[0;3;1])] [2;3]));
  (*3220*) Del (T 283);
  (*3221*) AddTo (T 287) (Plain (Einsum [(n_l1'bb,[0;1]); (n_u11'bb,[2;3;0])] [2;1;3]));
  (*3222*) AddTo n_l1new_bb (Times (Einsum [(n_g'bb'bov,[0;1;2]); (T 287,[0;3;1])] [2;3]) (-1) 1);
  (*3223*) Del (T 287);
  (*3224*) Assign (T 288) (Plain (Zeros [6;6;7;7]));
  (*3225*) AddTo (T 288) (Plain (Einsum [(n_v'bbbb'ovvo,[0;1;2;3])] [0;3;2;1]));
  (*3226*) SubFrom (T 288) (Plain (Einsum [(n_v'bbbb'oovv,[0;1;2;3])] [0;1;2;3]));
  (*3227*) AddTo n_l1new_bb (Plain (Einsum [(n_l1'bb,[0;1]); (T 288,[2;1;0;3])] [3;2]));
  (*3228*) AddTo n_lu11new_bb (Plain (Einsum [(n_lu11'bb,[0;1;2]); (T 288,[3;2;1;4])] [0;4;3]));
  (*3229*) Del (T 288);
  (*3230*) AddTo (T 290) (Plain (Einsum [(n_f'bb'ov,[0;1])] [0;1]));
  (*3231*) AddTo n_l1new_bb (Times (Einsum [(T 289,[0;1]); (T 290,[1;2])] [2;0]) (-1) 1);
  (*3232*) Del (T 289);
  (*3233*) Del (T 290);
  (*3234*) Assign (T 291) (Plain (Zeros [4;4;5;5]));
  (*3235*) AddTo (T 291) (Plain (Einsum [(n_gc'aa'bov,[0;1;2]); (n_lu11'aa,[0;3;4])] [1;4;2;3]));
  (*3236*) AddTo (T 334) (Plain (Einsum [(T 291,[0;1;2;3])] [0;1;2;3]));
  (*3237*) Del (T 291);
  (*3238*) Assign (T 292) (Plain (Zeros [4;4;5;5]));
  (*3239*) AddTo (T 292) (Plain (Einsum [(n_l1'aa,[0;1]); (n_v'aaaa'ovvv,[2;3;0;4])] [1;2;3;4]));
  (*3240*) SubFrom (T 334) (Plain (Einsum [(T 292,[0;1;2;3])] [0;1;2;3]));
  (*3241*) Del (T 292);
  (*3242*) Assign (T 298) (Plain (Zeros [4;4;5;5]));
  (*3243*) AddTo (T 298) (Plain (Einsum [(n_l2'aaaa,[0;1;2;3])] [3;2;0;1]));
  (*3244*) SubFrom (T 298) (Plain (Einsum [(n_l2'aaaa,[0;1;2;3])] [3;2;1;0]));
  (*3245*) Assign (T 299) (Plain (Zeros [4;5;5;5]));
  (*3246*) SubFrom (T 299) (Plain (Einsum [(n_v'aaaa'ovvv,[0;1;2;3])] [0;2;1;3]));
  (*3247*) AddTo (T 299) (Plain (Einsum [(n_v'aaaa'ovvv,[0;1;2;3])] [0;2;3;1]));
  (*3248*) Assign (T 300) (Plain (Zeros [4;4;5;5]));
  (*3249*) AddTo (T 300) (Plain (Einsum [(n_t1'aa,[0;1]); (T 299,[2;3;4;1])] [0;2;3;4]));
  (*3250*) Assign (T 301) (Plain (Zeros [4;4;5;5]));
  (*3251*) SubFrom (T 301) (Plain (Einsum [(T 300,[0;1;2;3])] [0;1;2;3]));
  (*3252*) Del (T 300);
  (*3253*) AddTo (T 301) (Plain (Einsum [(n_v'aaaa'ovvo,[0;1;2;3])] [3;0;2;1]));
  (*3254*) SubFrom (T 301) (Plain (Einsum [(n_v'aaaa'oovv,[0;1;2;3])] [1;0;2;3]));
  (*3255*) Assign (T 302) (Plain (Zeros [4;4;5;5]));
  (*3256*) AddTo (T 302) (Plain (Einsum [(T 298,[0;1;2;3]); (T 301,[0;4;3;5])] [1;4;2;5]));
  (*3257*) Del (T 298);
  (*3258*) Del (T 301);
  (*3259*) AddTo (T 334) (Plain (Einsum [(T 302,[0;1;2;3])] [0;1;2;3]));
  (*3260*) Del (T 302);
  (*3261*) Assign (T 303) (Plain (Zeros [6;6;7;7]));
  (*3262*) AddTo (T 303) (Plain (Einsum [(n_t2'bbbb,[0;1;2;3])] [1;0;2;3]));
  (*3263*) SubFrom (T 303) (Plain (Einsum [(n_t2'bbbb,[0;1;2;3])] [1;0;3;2]));
  (*3264*) Assign (T 304) (Plain (Zeros [4;6;5;7]));
  (*3265*) AddTo (T 304) (Plain (Einsum [(n_v'aabb'ovov,[0;1;2;3]); (T 303,[2;4;3;5])] [0;4;1;5]));
  (*3266*) Del (T 303);
  (*3267*) SubFrom (T 305) (Plain (Einsum [(T 304,[0;1;2;3])] [0;1;2;3]));
  (*3268*) Del (T 304);
  (*3269*) AddTo (T 305) (Plain (Einsum [(n_v'aabb'ovvo,[0;1;2;3])] [0;3;1;2]));
  (*3270*) Assign (T 306) (Plain (Zeros [4;4;5;5]));
  (*3271*) AddTo (T 306) (Plain (Einsum [(n_l2'abab,[0;1;2;3]); (T 305,[4;3;5;1])] [2;4;0;5]));
  (*3272*) Del (T 305);
  (*3273*) AddTo (T 334) (Plain (Einsum [(T 306,[0;1;2;3])] [0;1;2;3]));
  (*3274*) Del (T 306);
  (*3275*) Assign (T 309) (Plain (Zeros [5;5]));
  (*3276*) AddTo (T 309) (Plain (Einsum [(n_g'aa'bov,[0;1;2]); (n_u11'aa,[0;1;3])] [2;3]));
  (*3277*) SubFrom (T 310) (Plain (Einsum [(T 309,[0;1])] [1;0]));
  (*3278*) AddTo (T 470) (Times (Einsum [(T 309,[0;1])] [1;0]) (-1) 1);
  (*3279*) AddTo (T 518) (Times (Einsum [(T 309,[0;1])] [1;0]) (-1) 1);
  (*3280*) Del (T 309);
  (*3281*) AddTo (T 310) (Plain (Einsum [(n_f'aa'vv,[0;1])] [0;1]));
  (*3282*) Assign (T 311) (Plain (Zeros [4;4;5;5]));
  (*3283*) AddTo (T 311) (Plain (Einsum [(T 310,[0;1]); (n_l2'aaaa,[0;2;3;4])] [3;4;2;1]));
  (*3284*) Del (T 310);
  (*3285*) SubFrom (T 334) (Plain (Einsum [(T 311,[0;1;2;3])] [1;0;3;2]));
  (*3286*) Del (T 311);
  (*3287*) AddTo (T 315) (Plain (Einsum [(n_f'aa'ov,[0;1])] [0;1]));
  (*3288*) Assign (T 316) (Plain (Zeros [4;4]));
  (*3289*) AddTo (T 316) (Plain (Einsum [(n_t1'aa,[0;1]); (T 315,[2;1])] [0;2]));
  (*3290*) AddTo (T 317) (Plain (Einsum [(T 316,[0;1])] [1;0]));
  (*3291*) Del (T 316);
  (*3292*) Assign (T 329) (Plain (Zeros [4;4;5;5]));
  (*3293*) AddTo (T 329) (Plain (Einsum [(T 315,[0;1]); (T 55,[2;3;0;4])] [2;3;4;1]));
  (*3294*) Del (T 55);
  (*3295*) AddTo (T 334) (Plain (Einsum [(T 329,[0;1;2;3])] [0;1;3;2]));
  (*3296*) Del (T 329);
  (*3297*) AddTo (T 334) (Plain (Einsum [(n_l1'aa,[0;1]); (T 315,[2;3])] [2;1;3;0]));
  (*3298*) SubFrom n_lu11new_aa (Plain (Einsum [(T 315,[0;1]); (T 158,[2;3;0])] [2;1;3]));
  (*3299*) Del (T 315);
  (*3300*) AddTo (T 317) (Plain (Einsum [(n_f'aa'oo,[0;1])] [0;1]));
  (*3301*) Assign (T 318) (Plain (Zeros [4;4;5;5]));
  (*3302*) AddTo (T 318) (Plain (Einsum [(T 317,[0;1]); (n_l2'aaaa,[2;3;1;4])] [4;0;2;3]));
  (*3303*) Del (T 317);
  (*3304*) AddTo (T 334) (Plain (Einsum [(T 318,[0;1;2;3])] [1;0;3;2]));
  (*3305*) Del (T 318);
  (*3306*) Assign (T 323) (Plain (Zeros [4;4;5;5]));
  (*3307*) SubFrom (T 323) (Plain (Einsum [(n_v'aaaa'ovov,[0;1;2;3])] [2;0;1;3]));
  (*3308*) AddTo (T 323) (Plain (Einsum [(n_v'aaaa'ovov,[0;1;2;3])] [2;0;3;1]));
  (*3309*) Assign (T 324) (Plain (Zeros [3;4;5]));
  (*3310*) AddTo (T 324) (Plain (Einsum [(n_u11'aa,[0;1;2]); (T 323,[1;3;4;2])] [0;3;4]));
  (*3311*) SubFrom (T 325) (Plain (Einsum [(T 324,[0;1;2])] [0;1;2]));
  (*3312*) Assign (T 326) (Plain (Zeros [4;4;5;5]));
  (*3313*) AddTo (T 326) (Plain (Einsum [(n_lu11'aa,[0;1;2]); (T 325,[0;3;4])] [2;3;1;4]));
  (*3314*) Del (T 325);
  (*3315*) AddTo (T 334) (Plain (Einsum [(T 326,[0;1;2;3])] [0;1;2;3]));
  (*3316*) Del (T 326);
  (*3317*) SubFrom (T 485) (Plain (Einsum [(T 324,[0;1;2])] [0;1;2]));
  (*3318*) Del (T 324);
  (*3319*) Assign (T 332) (Plain (Zeros [4;5]));
  (*3320*) AddTo (T 332) (Plain (Einsum [(n_t1'aa,[0;1]); (T 323,[0;2;3;1])] [2;3]));
  (*3321*) Del (T 323);
  (*3322*) SubFrom (T 333) (Plain (Einsum [(T 332,[0;1])] [0;1]));
  (*3323*) AddTo (T 334) (Plain (Einsum [(n_l1'aa,[0;1]); (T 333,[2;3])] [1;2;0;3]));
  (*3324*) Del (T 333);
  (*3325*) SubFrom (T 496) (Plain (Einsum [(T 332,[0;1])] [0;1]));
  (*3326*) Del (T 332);
  (*3327*) SubFrom (T 330) (Plain (Einsum [(n_v'aaaa'ooov,[0;1;2;3])] [1;0;2;3]));
  (*3328*) Assign (T 331) (Plain (Zeros [4;4;5;5]));
  (*3329*) AddTo (T 331) (Plain (Einsum [(n_l1'aa,[0;1]); (T 330,[1;2;3;4])] [2;3;0;4]));
  (*3330*) Del (T 330);
  (*3331*) AddTo (T 334) (Plain (Einsum [(T 331,[0;1;2;3])] [0;1;2;3]));
  (*3332*) Del (T 331);
  (*3333*) AddTo n_l2new_aaaa (Plain (Einsum [(T 334,[0;1;2;3])] [2;3;0;1]));
  (*3334*) SubFrom n_l2new_aaaa (Plain (Einsum [(T 334,[0;1;2;3])] [3;2;0;1]));
  (*3335*) SubFrom n_l2new_aaaa (Plain (Einsum [(T 334,[0;1;2;3])] [2;3;1;0]));
  (*3336*) AddTo n_l2new_aaaa (Plain (Einsum [(T 334,[0;1;2;3])] [3;2;1;0]));
  (*3337*) Del (T 334);
  (*3338*) Assign (T 335) (Plain (Zeros [4;4;5;5]));
  (*3339*) AddTo (T 335) (Plain (Einsum [(n_l2'aaaa,[0;1;2;3]); (n_v'aaaa'oooo,[4;3;5;2])] [4;5;1;0]));
  (*3340*) Assign (T 337) (Plain (Zeros [4;4;5;5]));
  (*3341*) AddTo (T 337) (Plain (Einsum [(T 335,[0;1;2;3])] [1;0;3;2]));
  (*3342*) Del (T 335);
  (*3343*) Assign (T 336) (Plain (Zeros [4;4;5;5]));
  (*3344*) AddTo (T 336) (Plain (Einsum [(n_l2'aaaa,[0;1;2;3]); (n_v'aaaa'vvvv,[0;4;1;5])] [2;3;4;5]));
  (*3345*) AddTo (T 337) (Plain (Einsum [(T 336,[0;1;2;3])] [1;0;3;2]));
  (*3346*) Del (T 336);
  (*3347*) AddTo n_l2new_aaaa (Times (Einsum [(T 337,[0;1;2;3])] [3;2;0;1]) (-1) 1);
  (*3348*) AddTo n_l2new_aaaa (Plain (Einsum [(T 337,[0;1;2;3])] [2;3;0;1]));
  (*3349*) Del (T 337);
  (*3350*) Assign (T 338) (Plain (Zeros [4;4;5;5]));
  (*3351*) AddTo (T 338) (Plain (Einsum [(n_t2'abab,[0;1;2;3]); (n_v'aabb'ovov,[4;5;1;3])] [0;4;2;5]));
  (*3352*) AddTo (T 340) (Plain (Einsum [(T 338,[0;1;2;3])] [0;1;2;3]));
  (*3353*) Assign (T 341) (Plain (Zeros [4;4;5;5]));
  (*3354*) AddTo (T 341) (Plain (Einsum [(T 340,[0;1;2;3]); (T 42,[0;4;5;2])] [4;1;5;3]));
  (*3355*) Del (T 340);
  (*3356*) AddTo (T 356) (Times (Einsum [(T 341,[0;1;2;3])] [0;1;2;3]) (-1) 1);
  (*3357*) Del (T 341);
  (*3358*) AddTo (T 450) (Plain (Einsum [(T 338,[0;1;2;3])] [1;0;2;3]));
  (*3359*) Del (T 338);
  (*3360*) Assign (T 350) (Plain (Zeros [5;5]));
  (*3361*) AddTo (T 350) (Plain (Einsum [(n_t2'abab,[0;1;2;3]); (n_v'aabb'ovov,[0;4;1;3])] [2;4]));
  (*3362*) AddTo (T 352) (Plain (Einsum [(T 350,[0;1])] [0;1]));
  (*3363*) Assign (T 353) (Plain (Zeros [4;4;5;5]));
  (*3364*) AddTo (T 353) (Plain (Einsum [(T 352,[0;1]); (n_l2'aaaa,[0;2;3;4])] [3;4;2;1]));
  (*3365*) Del (T 352);
  (*3366*) AddTo (T 356) (Plain (Einsum [(T 353,[0;1;2;3])] [1;0;2;3]));
  (*3367*) Del (T 353);
  (*3368*) AddTo n_l2new_aaaa (Times (Einsum [(T 356,[0;1;2;3])] [2;3;0;1]) (-1) 1);
  (*3369*) AddTo n_l2new_aaaa (Plain (Einsum [(T 356,[0;1;2;3])] [3;2;0;1]));
  (*3370*) AddTo n_l2new_aaaa (Plain (Einsum [(T 356,[0;1;2;3])] [2;3;1;0]));
  (*3371*) AddTo n_l2new_aaaa (Times (Einsum [(T 356,[0;1;2;3])] [3;2;1;0]) (-1) 1);
  (*3372*) Del (T 356);
  (*3373*) AddTo (T 470) (Times (Einsum [(T 350,[0;1])] [0;1]) (-1) 1);
  (*3374*) AddTo (T 518) (Times (Einsum [(T 350,[0;1])] [0;1]) (-1) 1);
  (*3375*) Del (T 350);
  (*3376*) Assign (T 362) (Plain (Zeros [6;6;7;7]));
  (*3377*) AddTo (T 362) (Plain (Einsum [(n_gc'bb'bov,[0;1;2]); (n_lu11'bb,[0;3;4])] [1;4;2;3]));
  (*3378*) AddTo (T 404) (Plain (Einsum [(T 362,[0;1;2;3])] [0;1;2;3]));
  (*3379*) Del (T 362);
  (*3380*) Assign (T 363) (Plain (Zeros [6;6;7;7]));
  (*3381*) AddTo (T 363) (Plain (Einsum [(n_l1'bb,[0;1]); (n_v'bbbb'ovvv,[2;3;0;4])] [1;2;3;4]));
  (*3382*) SubFrom (T 404) (Plain (Einsum [(T 363,[0;1;2;3])] [0;1;2;3]));
  (*3383*) Del (T 363);
  (*3384*) AddTo (T 370) (Plain (Einsum [(n_v'bbbb'ovvo,[0;1;2;3])] [3;0;2;1]));
  (*3385*) SubFrom (T 370) (Plain (Einsum [(n_v'bbbb'oovv,[0;1;2;3])] [1;0;2;3]));
  (*3386*) Assign (T 371) (Plain (Zeros [6;6;7;7]));
  (*3387*) AddTo (T 371) (Plain (Einsum [(T 225,[0;1;2;3]); (T 370,[0;4;2;5])] [1;4;3;5]));
  (*3388*) Del (T 370);
  (*3389*) AddTo (T 404) (Plain (Einsum [(T 371,[0;1;2;3])] [0;1;2;3]));
  (*3390*) Del (T 371);
  (*3391*) Assign (T 372) (Plain (Zeros [4;4;5;5]));
  (*3392*) SubFrom (T 372) (Plain (Einsum [(n_t2'aaaa,[0;1;2;3])] [1;0;2;3]));
  (*3393*) AddTo (T 372) (Plain (Einsum [(n_t2'aaaa,[0;1;2;3])] [1;0;3;2]));
  (*3394*) Assign (T 373) (Plain (Zeros [4;6;5;7]));
  (*3395*) AddTo (T 373) (Plain (Einsum [(n_v'aabb'ovov,[0;1;2;3]); (T 372,[0;4;5;1])] [4;2;5;3]));
  (*3396*) Del (T 372);
  (*3397*) SubFrom (T 374) (Plain (Einsum [(T 373,[0;1;2;3])] [0;1;2;3]));
  (*3398*) Del (T 373);
  (*3399*) AddTo (T 374) (Plain (Einsum [(n_v'bbaa'ovvo,[0;1;2;3])] [3;0;2;1]));
  (*3400*) Assign (T 375) (Plain (Zeros [6;6;7;7]));
  (*3401*) AddTo (T 375) (Plain (Einsum [(n_l2'abab,[0;1;2;3]); (T 374,[2;4;0;5])] [3;4;1;5]));
  (*3402*) Del (T 374);
  (*3403*) AddTo (T 404) (Plain (Einsum [(T 375,[0;1;2;3])] [0;1;2;3]));
  (*3404*) Del (T 375);
  (*3405*) Assign (T 377) (Plain (Zeros [6;6;6;7]));
  (*3406*) AddTo (T 377) (Plain (Einsum [(n_v'bbbb'ooov,[0;1;2;3])] [0;2;1;3]));
  (*3407*) SubFrom (T 377) (Plain (Einsum [(n_v'bbbb'ooov,[0;1;2;3])] [2;0;1;3]));
  (*3408*) Assign (T 378) (Plain (Zeros [6;6;7;7]));
  (*3409*) AddTo (T 378) (Plain (Einsum [(T 376,[0;1;2;3]); (T 377,[4;2;1;5])] [0;4;3;5]));
  (*3410*) Del (T 376);
  (*3411*) AddTo (T 404) (Plain (Einsum [(T 378,[0;1;2;3])] [0;1;2;3]));
  (*3412*) Del (T 378);
  (*3413*) Assign (T 389) (Plain (Zeros [6;6]));
  (*3414*) AddTo (T 389) (Plain (Einsum [(n_t1'bb,[0;1]); (T 377,[0;2;3;1])] [2;3]));
  (*3415*) SubFrom (T 390) (Plain (Einsum [(T 389,[0;1])] [0;1]));
  (*3416*) Del (T 389);
  (*3417*) Assign (T 391) (Plain (Zeros [6;6;7;7]));
  (*3418*) AddTo (T 391) (Plain (Einsum [(T 390,[0;1]); (n_l2'bbbb,[2;3;1;4])] [4;0;2;3]));
  (*3419*) Del (T 390);
  (*3420*) SubFrom (T 404) (Plain (Einsum [(T 391,[0;1;2;3])] [0;1;3;2]));
  (*3421*) Del (T 391);
  (*3422*) AddTo n_l2new_baba (Plain (Einsum [(T 1,[0;1;2;3]); (T 377,[4;2;1;5])] [5;3;4;0]));
  (*3423*) Del (T 377);
  (*3424*) Assign (T 379) (Plain (Zeros [7;7]));
  (*3425*) AddTo (T 379) (Plain (Einsum [(n_g'bb'bov,[0;1;2]); (n_u11'bb,[0;1;3])] [2;3]));
  (*3426*) SubFrom (T 380) (Plain (Einsum [(T 379,[0;1])] [1;0]));
  (*3427*) AddTo (T 473) (Times (Einsum [(T 379,[0;1])] [1;0]) (-1) 1);
  (*3428*) AddTo (T 526) (Times (Einsum [(T 379,[0;1])] [1;0]) (-1) 1);
  (*3429*) Del (T 379);
  (*3430*) AddTo (T 380) (Plain (Einsum [(n_f'bb'vv,[0;1])] [0;1]));
  (*3431*) Assign (T 381) (Plain (Zeros [6;6;7;7]));
  (*3432*) AddTo (T 381) (Plain (Einsum [(T 380,[0;1]); (n_l2'bbbb,[0;2;3;4])] [3;4;2;1]));
  (*3433*) Del (T 380);
  (*3434*) SubFrom (T 404) (Plain (Einsum [(T 381,[0;1;2;3])] [1;0;3;2]));
  (*3435*) Del (T 381);
  (*3436*) AddTo (T 385) (Plain (Einsum [(n_f'bb'ov,[0;1])] [0;1]));
  (*3437*) Assign (T 386) (Plain (Zeros [6;6]));
  (*3438*) AddTo (T 386) (Plain (Einsum [(n_t1'bb,[0;1]); (T 385,[2;1])] [0;2]));
  (*3439*) AddTo (T 387) (Plain (Einsum [(T 386,[0;1])] [1;0]));
  (*3440*) Del (T 386);
  (*3441*) Assign (T 399) (Plain (Zeros [6;6;7;7]));
  (*3442*) AddTo (T 399) (Plain (Einsum [(T 385,[0;1]); (T 178,[2;3;0;4])] [2;3;4;1]));
  (*3443*) Del (T 178);
  (*3444*) AddTo (T 404) (Plain (Einsum [(T 399,[0;1;2;3])] [0;1;3;2]));
  (*3445*) Del (T 399);
  (*3446*) AddTo (T 404) (Plain (Einsum [(n_l1'bb,[0;1]); (T 385,[2;3])] [2;1;3;0]));
  (*3447*) SubFrom n_lu11new_bb (Plain (Einsum [(T 385,[0;1]); (T 175,[2;3;0])] [2;1;3]));
  (*3448*) Del (T 385);
  (*3449*) AddTo (T 387) (Plain (Einsum [(n_f'bb'oo,[0;1])] [0;1]));
  (*3450*) Assign (T 388) (Plain (Zeros [6;6;7;7]));
  (*3451*) AddTo (T 388) (Plain (Einsum [(T 387,[0;1]); (n_l2'bbbb,[2;3;1;4])] [4;0;2;3]));
  (*3452*) Del (T 387);
  (*3453*) AddTo (T 404) (Plain (Einsum [(T 388,[0;1;2;3])] [1;0;3;2]));
  (*3454*) Del (T 388);
  (*3455*) Assign (T 393) (Plain (Zeros [6;6;7;7]));
  (*3456*) AddTo (T 393) (Plain (Einsum [(n_v'bbbb'ovov,[0;1;2;3])] [2;0;1;3]));
  (*3457*) SubFrom (T 393) (Plain (Einsum [(n_v'bbbb'ovov,[0;1;2;3])] [2;0;3;1]));
  (*3458*) Assign (T 394) (Plain (Zeros [3;6;7]));
  (*3459*) AddTo (T 394) (Plain (Einsum [(n_u11'bb,[0;1;2]); (T 393,[1;3;2;4])] [0;3;4]));
  (*3460*) SubFrom (T 395) (Plain (Einsum [(T 394,[0;1;2])] [0;1;2]));
  (*3461*) Assign (T 396) (Plain (Zeros [6;6;7;7]));
  (*3462*) AddTo (T 396) (Plain (Einsum [(n_lu11'bb,[0;1;2]); (T 395,[0;3;4])] [2;3;1;4]));
  (*3463*) Del (T 395);
  (*3464*) AddTo (T 404) (Plain (Einsum [(T 396,[0;1;2;3])] [0;1;2;3]));
  (*3465*) Del (T 396);
  (*3466*) SubFrom (T 487) (Plain (Einsum [(T 394,[0;1;2])] [0;1;2]));
  (*3467*) Del (T 394);
  (*3468*) Assign (T 402) (Plain (Zeros [6;7]));
  (*3469*) AddTo (T 402) (Plain (Einsum [(n_t1'bb,[0;1]); (T 393,[0;2;1;3])] [2;3]));
  (*3470*) Del (T 393);
  (*3471*) SubFrom (T 403) (Plain (Einsum [(T 402,[0;1])] [0;1]));
  (*3472*) AddTo (T 404) (Plain (Einsum [(n_l1'bb,[0;1]); (T 403,[2;3])] [1;2;0;3]));
  (*3473*) Del (T 403);
  (*3474*) SubFrom (T 495) (Plain (Einsum [(T 402,[0;1])] [0;1]));
  (*3475*) Del (T 402);
  (*3476*) SubFrom (T 400) (Plain (Einsum [(n_v'bbbb'ooov,[0;1;2;3])] [1;0;2;3]));
  (*3477*) Assign (T 401) (Plain (Zeros [6;6;7;7]));
  (*3478*) AddTo (T 401) (Plain (Einsum [(n_l1'bb,[0;1]); (T 400,[1;2;3;4])] [2;3;0;4]));
  (*3479*) Del (T 400);
  (*3480*) AddTo (T 404) (Plain (Einsum [(T 401,[0;1;2;3])] [0;1;2;3]));
  (*3481*) Del (T 401);
  (*3482*) AddTo n_l2new_bbbb (Plain (Einsum [(T 404,[0;1;2;3])] [2;3;0;1]));
  (*3483*) SubFrom n_l2new_bbbb (Plain (Einsum [(T 404,[0;1;2;3])] [3;2;0;1]));
  (*3484*) SubFrom n_l2new_bbbb (Plain (Einsum [(T 404,[0;1;2;3])] [2;3;1;0]));
  (*3485*) AddTo n_l2new_bbbb (Plain (Einsum [(T 404,[0;1;2;3])] [3;2;1;0]));
  (*3486*) Del (T 404);
  (*3487*) Assign (T 419) (Plain (Zeros [7;7]));
  (*3488*) AddTo (T 419) (Plain (Einsum [(n_t2'abab,[0;1;2;3]); (n_v'aabb'ovov,[0;2;1;4])] [3;4]));
  (*3489*) AddTo (T 421) (Plain (Einsum [(T 419,[0;1])] [0;1]));
  (*3490*) Assign (T 422) (Plain (Zeros [6;6;7;7]));
  (*3491*) AddTo (T 422) (Plain (Einsum [(T 421,[0;1]); (n_l2'bbbb,[0;2;3;4])] [3;4;2;1]));
  (*3492*) Del (T 421);
  (*3493*) AddTo (T 427) (Plain (Einsum [(T 422,[0;1;2;3])] [1;0;2;3]));
  (*3494*) Del (T 422);
  (*3495*) AddTo n_l2new_bbbb (Times (Einsum [(T 427,[0;1;2;3])] [2;3;0;1]) (-1) 1);
  (*3496*) AddTo n_l2new_bbbb (Plain (Einsum [(T 427,[0;1;2;3])] [3;2;0;1]));
  (*3497*) AddTo n_l2new_bbbb (Plain (Einsum [(T 427,[0;1;2;3])] [2;3;1;0]));
  (*3498*) AddTo n_l2new_bbbb (Times (Einsum [(T 427,[0;1;2;3])] [3;2;1;0]) (-1) 1);
  (*3499*) Del (T 427);
  (*3500*) AddTo (T 473) (Times (Einsum [(T 419,[0;1])] [0;1]) (-1) 1);
  (*3501*) AddTo (T 526) (Times (Einsum [(T 419,[0;1])] [0;1]) (-1) 1);
  (*3502*) Del (T 419);
  (*3503*) Assign (T 428) (Plain (Zeros [6;6;7;7]));
  (*3504*) AddTo (T 428) (Plain (Einsum [(n_l2'bbbb,[0;1;2;3]); (n_v'bbbb'oooo,[4;2;5;3])] [4;5;0;1]));
  (*3505*) Assign (T 430) (Plain (Zeros [6;6;7;7]));
  (*3506*) AddTo (T 430) (Plain (Einsum [(T 428,[0;1;2;3])] [1;0;3;2]));
  (*3507*) Del (T 428);
  (*3508*) Assign (T 429) (Plain (Zeros [6;6;7;7]));
  (*3509*) AddTo (T 429) (Plain (Einsum [(n_l2'bbbb,[0;1;2;3]); (n_v'bbbb'vvvv,[0;4;1;5])] [2;3;4;5]));
  (*3510*) AddTo (T 430) (Plain (Einsum [(T 429,[0;1;2;3])] [1;0;3;2]));
  (*3511*) Del (T 429);
  (*3512*) AddTo n_l2new_bbbb (Times (Einsum [(T 430,[0;1;2;3])] [3;2;0;1]) (-1) 1);
  (*3513*) AddTo n_l2new_bbbb (Plain (Einsum [(T 430,[0;1;2;3])] [2;3;0;1]));
  (*3514*) Del (T 430);
  (*3515*) Assign (T 432) (Plain (Zeros [4;6;5;7]));
  (*3516*) AddTo (T 432) (Plain (Einsum [(n_l1'bb,[0;1]); (n_v'aabb'ovvv,[2;3;0;4])] [2;1;3;4]));
  (*3517*) AddTo n_l2new_baba (Plain (Einsum [(T 432,[0;1;2;3])] [3;2;1;0]));
  (*3518*) AddTo n_l2new_abab (Plain (Einsum [(T 432,[0;1;2;3])] [2;3;0;1]));
  (*3519*) Del (T 432);
  (*3520*) Assign (T 433) (Plain (Zeros [4;6;5;7]));
  (*3521*) AddTo (T 433) (Plain (Einsum [(n_l2'abab,[0;1;2;3]); (n_v'aabb'vvvv,[0;4;1;5])] [2;3;4;5]));
  (*3522*) AddTo n_l2new_baba (Plain (Einsum [(T 433,[0;1;2;3])] [3;2;1;0]));
  (*3523*) AddTo n_l2new_abab (Plain (Einsum [(T 433,[0;1;2;3])] [2;3;0;1]));
  (*3524*) Del (T 433);
  (*3525*) Assign (T 435) (Plain (Zeros [4;6;5;7]));
  (*3526*) AddTo (T 435) (Plain (Einsum [(n_l1'aa,[0;1]); (n_v'bbaa'ovvv,[2;3;0;4])] [1;2;4;3]));
  (*3527*) AddTo n_l2new_baba (Plain (Einsum [(T 435,[0;1;2;3])] [3;2;1;0]));
  (*3528*) AddTo n_l2new_abab (Plain (Einsum [(T 435,[0;1;2;3])] [2;3;0;1]));
  (*3529*) Del (T 435);
  (*3530*) AddTo (T 438) (Plain (Einsum [(n_v'aabb'ovvo,[0;1;2;3])] [0;3;1;2]));
  (*3531*) Assign (T 439) (Plain (Zeros [4;6;5;7]));
  (*3532*) AddTo (T 439) (Plain (Einsum [(T 271,[0;1;2;3]); (T 438,[4;0;5;2])] [4;1;5;3]));
  (*3533*) Del (T 438);
  (*3534*) Del (T 271);
  (*3535*) AddTo n_l2new_baba (Times (Einsum [(T 439,[0;1;2;3])] [3;2;1;0]) (-1) 1);
  (*3536*) AddTo n_l2new_abab (Times (Einsum [(T 439,[0;1;2;3])] [2;3;0;1]) (-1) 1);
  (*3537*) Del (T 439);
  (*3538*) AddTo (T 442) (Plain (Einsum [(n_v'bbaa'ovvo,[0;1;2;3])] [3;0;2;1]));
  (*3539*) AddTo n_l2new_baba (Times (Einsum [(T 201,[0;1;2;3]); (T 442,[0;4;3;5])] [5;2;4;1]) (-1) 1);
  (*3540*) Del (T 201);
  (*3541*) AddTo n_l2new_abab (Times (Einsum [(T 204,[0;1;2;3]); (T 442,[0;4;3;5])] [2;5;1;4]) (-1) 1);
  (*3542*) Del (T 442);
  (*3543*) Del (T 204);
  (*3544*) Assign (T 443) (Plain (Zeros [6;6;7;7]));
  (*3545*) AddTo (T 443) (Plain (Einsum [(n_t2'abab,[0;1;2;3]); (n_v'aabb'ovov,[0;2;4;5])] [1;4;3;5]));
  (*3546*) AddTo (T 446) (Plain (Einsum [(T 443,[0;1;2;3])] [1;0;2;3]));
  (*3547*) Del (T 443);
  (*3548*) AddTo (T 446) (Plain (Einsum [(n_v'bbbb'ovvo,[0;1;2;3])] [0;3;2;1]));
  (*3549*) AddTo (T 446) (Times (Einsum [(n_v'bbbb'oovv,[0;1;2;3])] [0;1;2;3]) (-1) 1);
  (*3550*) Assign (T 447) (Plain (Zeros [4;6;5;7]));
  (*3551*) AddTo (T 447) (Plain (Einsum [(n_l2'abab,[0;1;2;3]); (T 446,[4;3;1;5])] [2;4;0;5]));
  (*3552*) Del (T 446);
  (*3553*) AddTo n_l2new_baba (Plain (Einsum [(T 447,[0;1;2;3])] [3;2;1;0]));
  (*3554*) AddTo n_l2new_abab (Plain (Einsum [(T 447,[0;1;2;3])] [2;3;0;1]));
  (*3555*) Del (T 447);
  (*3556*) AddTo (T 450) (Plain (Einsum [(n_v'aaaa'ovvo,[0;1;2;3])] [0;3;2;1]));
  (*3557*) AddTo (T 450) (Times (Einsum [(n_v'aaaa'oovv,[0;1;2;3])] [0;1;2;3]) (-1) 1);
  (*3558*) Assign (T 451) (Plain (Zeros [4;6;5;7]));
  (*3559*) AddTo (T 451) (Plain (Einsum [(n_l2'abab,[0;1;2;3]); (T 450,[4;2;0;5])] [4;3;5;1]));
  (*3560*) Del (T 450);
  (*3561*) AddTo n_l2new_baba (Plain (Einsum [(T 451,[0;1;2;3])] [3;2;1;0]));
  (*3562*) AddTo n_l2new_abab (Plain (Einsum [(T 451,[0;1;2;3])] [2;3;0;1]));
  (*3563*) Del (T 451);
  (*3564*) Assign (T 452) (Plain (Zeros [4;4;7;7]));
  (*3565*) AddTo (T 452) (Plain (Einsum [(n_t1'aa,[0;1]); (n_v'aabb'ovvv,[2;1;3;4])] [0;2;3;4]));
  (*3566*) Assign (T 454) (Plain (Zeros [4;4;7;7]));
  (*3567*) AddTo (T 454) (Plain (Einsum [(T 452,[0;1;2;3])] [1;0;2;3]));
  (*3568*) Del (T 452);
  (*3569*) Assign (T 453) (Plain (Zeros [4;4;7;7]));
  (*3570*) AddTo (T 453) (Plain (Einsum [(n_t2'abab,[0;1;2;3]); (n_v'aabb'ovov,[4;2;1;5])] [0;4;3;5]));
  (*3571*) AddTo (T 454) (Times (Einsum [(T 453,[0;1;2;3])] [1;0;2;3]) (-1) 1);
  (*3572*) Del (T 453);
  (*3573*) AddTo (T 454) (Plain (Einsum [(n_v'aabb'oovv,[0;1;2;3])] [0;1;2;3]));
  (*3574*) Assign (T 455) (Plain (Zeros [4;6;5;7]));
  (*3575*) AddTo (T 455) (Plain (Einsum [(n_l2'abab,[0;1;2;3]); (T 454,[4;2;1;5])] [4;3;0;5]));
  (*3576*) Del (T 454);
  (*3577*) AddTo n_l2new_baba (Times (Einsum [(T 455,[0;1;2;3])] [3;2;1;0]) (-1) 1);
  (*3578*) AddTo n_l2new_abab (Times (Einsum [(T 455,[0;1;2;3])] [2;3;0;1]) (-1) 1);
  (*3579*) Del (T 455);
  (*3580*) Assign (T 456) (Plain (Zeros [6;6;5;5]));
  (*3581*) AddTo (T 456) (Plain (Einsum [(n_t2'abab,[0;1;2;3]); (n_v'aabb'ovov,[0;4;5;3])] [1;5;2;4]));
  (*3582*) AddTo (T 457) (Times (Einsum [(T 456,[0;1;2;3])] [1;0;2;3]) (-1) 1);
  (*3583*) Del (T 456);
  (*3584*) AddTo (T 457) (Plain (Einsum [(n_v'bbaa'oovv,[0;1;2;3])] [0;1;2;3]));
  (*3585*) Assign (T 458) (Plain (Zeros [4;6;5;7]));
  (*3586*) AddTo (T 458) (Plain (Einsum [(n_l2'abab,[0;1;2;3]); (T 457,[4;3;0;5])] [2;4;5;1]));
  (*3587*) Del (T 457);
  (*3588*) AddTo n_l2new_baba (Times (Einsum [(T 458,[0;1;2;3])] [3;2;1;0]) (-1) 1);
  (*3589*) AddTo n_l2new_abab (Times (Einsum [(T 458,[0;1;2;3])] [2;3;0;1]) (-1) 1);
  (*3590*) Del (T 458);
  (*3591*) AddTo (T 460) (Plain (Einsum [(n_v'aabb'oooo,[0;1;2;3])] [0;1;2;3]));
  (*3592*) Assign (T 461) (Plain (Zeros [4;6;5;7]));
  (*3593*) AddTo (T 461) (Plain (Einsum [(n_l2'abab,[0;1;2;3]); (T 460,[4;2;5;3])] [4;5;0;1]));
  (*3594*) Del (T 460);
  (*3595*) AddTo n_l2new_baba (Plain (Einsum [(T 461,[0;1;2;3])] [3;2;1;0]));
  (*3596*) AddTo n_l2new_abab (Plain (Einsum [(T 461,[0;1;2;3])] [2;3;0;1]));
  (*3597*) Del (T 461);
  (*3598*) Assign (T 468) (Plain (Zeros [4;4;4;5]));
  (*3599*) AddTo (T 468) (Plain (Einsum [(n_v'aaaa'ooov,[0;1;2;3])] [0;2;1;3]));
  (*3600*) SubFrom (T 468) (Plain (Einsum [(n_v'aaaa'ooov,[0;1;2;3])] [2;0;1;3]));
  (*3601*) SubFrom n_l2new_baba (Plain (Einsum [(T 468,[0;1;2;3]); (T 54,[2;0;4;5])] [5;3;4;1]));
  (*3602*) Del (T 54);
  (*3603*) SubFrom n_lu11new_aa (Plain (Einsum [(T 158,[0;1;2]); (T 468,[2;3;1;4])] [0;4;3]));
  (*3604*) Del (T 468);
  (*3605*) Del (T 158);
  (*3606*) AddTo (T 470) (Plain (Einsum [(n_f'aa'vv,[0;1])] [0;1]));
  (*3607*) Assign (T 471) (Plain (Zeros [4;6;5;7]));
  (*3608*) AddTo (T 471) (Plain (Einsum [(T 470,[0;1]); (n_l2'abab,[0;2;3;4])] [3;4;1;2]));
  (*3609*) Del (T 470);
  (*3610*) AddTo n_l2new_baba (Plain (Einsum [(T 471,[0;1;2;3])] [3;2;1;0]));
  (*3611*) AddTo n_l2new_abab (Plain (Einsum [(T 471,[0;1;2;3])] [2;3;0;1]));
  (*3612*) Del (T 471);
  (*3613*) AddTo (T 473) (Plain (Einsum [(n_f'bb'vv,[0;1])] [0;1]));
  (*3614*) Assign (T 474) (Plain (Zeros [4;6;5;7]));
  (*3615*) AddTo (T 474) (Plain (Einsum [(T 473,[0;1]); (n_l2'abab,[2;0;3;4])] [3;4;2;1]));
  (*3616*) Del (T 473);
  (*3617*) AddTo n_l2new_baba (Plain (Einsum [(T 474,[0;1;2;3])] [3;2;1;0]));
  (*3618*) AddTo n_l2new_abab (Plain (Einsum [(T 474,[0;1;2;3])] [2;3;0;1]));
  (*3619*) Del (T 474);
  (*3620*) AddTo (T 485) (Plain (Einsum [(n_gc'aa'bov,[0;1;2])] [0;1;2]));
  (*3621*) Assign (T 486) (Plain (Zeros [4;6;5;7]));
  (*3622*) AddTo (T 486) (Plain (Einsum [(n_lu11'bb,[0;1;2]); (T 485,[0;3;4])] [3;2;4;1]));
  (*3623*) Del (T 485);
  (*3624*) AddTo n_l2new_baba (Plain (Einsum [(T 486,[0;1;2;3])] [3;2;1;0]));
  (*3625*) AddTo n_l2new_abab (Plain (Einsum [(T 486,[0;1;2;3])] [2;3;0;1]));
  (*3626*) Del (T 486);
  (*3627*) AddTo (T 487) (Plain (Einsum [(n_gc'bb'bov,[0;1;2])] [0;1;2]));
  (*3628*) Assign (T 488) (Plain (Zeros [4;6;5;7]));
  (*3629*) AddTo (T 488) (Plain (Einsum [(n_lu11'aa,[0;1;2]); (T 487,[0;3;4])] [2;3;1;4]));
  (*3630*) Del (T 487);
  (*3631*) AddTo n_l2new_baba (Plain (Einsum [(T 488,[0;1;2;3])] [3;2;1;0]));
  (*3632*) AddTo n_l2new_abab (Plain (Einsum [(T 488,[0;1;2;3])] [2;3;0;1]));
  (*3633*) Del (T 488);
  (*3634*) AddTo (T 491) (Plain (Einsum [(n_v'aabb'ovoo,[0;1;2;3])] [0;2;3;1]));
  (*3635*) Assign (T 492) (Plain (Zeros [4;6;5;7]));
  (*3636*) AddTo (T 492) (Plain (Einsum [(n_l1'bb,[0;1]); (T 491,[2;3;1;4])] [2;3;4;0]));
  (*3637*) Del (T 491);
  (*3638*) SubFrom n_l2new_baba (Plain (Einsum [(T 492,[0;1;2;3])] [3;2;1;0]));
  (*3639*) SubFrom n_l2new_abab (Plain (Einsum [(T 492,[0;1;2;3])] [2;3;0;1]));
  (*3640*) Del (T 492);
  (*3641*) AddTo (T 493) (Plain (Einsum [(n_v'aabb'ooov,[0;1;2;3])] [0;1;2;3]));
  (*3642*) Assign (T 494) (Plain (Zeros [4;6;5;7]));
  (*3643*) AddTo (T 494) (Plain (Einsum [(n_l1'aa,[0;1]); (T 493,[2;1;3;4])] [2;3;0;4]));
  (*3644*) Del (T 493);
  (*3645*) SubFrom n_l2new_baba (Plain (Einsum [(T 494,[0;1;2;3])] [3;2;1;0]));
  (*3646*) SubFrom n_l2new_abab (Plain (Einsum [(T 494,[0;1;2;3])] [2;3;0;1]));
  (*3647*) Del (T 494);
  (*3648*) AddTo (T 495) (Plain (Einsum [(n_f'bb'ov,[0;1])] [0;1]));
  (*3649*) AddTo n_l2new_baba (Plain (Einsum [(n_l1'aa,[0;1]); (T 495,[2;3])] [3;0;2;1]));
  (*3650*) AddTo n_l2new_abab (Plain (Einsum [(n_l1'aa,[0;1]); (T 495,[2;3])] [0;3;1;2]));
  (*3651*) Del (T 495);
  (*3652*) AddTo (T 496) (Plain (Einsum [(n_f'aa'ov,[0;1])] [0;1]));
  (*3653*) AddTo n_l2new_baba (Plain (Einsum [(n_l1'bb,[0;1]); (T 496,[2;3])] [0;3;1;2]));
  (*3654*) AddTo n_l2new_abab (Plain (Einsum [(n_l1'bb,[0;1]); (T 496,[2;3])] [3;0;2;1]));
  (*3655*) Del (T 496);
  (*3656*) Assign (T 497) (Plain (Zeros [6;6;6;7]));
  (*3657*) SubFrom (T 497) (Plain (Einsum [(n_v'bbbb'ooov,[0;1;2;3])] [0;2;1;3]));
  (*3658*) AddTo (T 497) (Plain (Einsum [(n_v'bbbb'ooov,[0;1;2;3])] [2;0;1;3]));
  (*3659*) SubFrom n_l2new_abab (Plain (Einsum [(T 1,[0;1;2;3]); (T 497,[4;2;1;5])] [3;5;0;4]));
  (*3660*) Del (T 1);
  (*3661*) SubFrom n_lu11new_bb (Plain (Einsum [(T 175,[0;1;2]); (T 497,[3;2;1;4])] [0;4;3]));
  (*3662*) Del (T 497);
  (*3663*) Del (T 175);
  (*3664*) Assign (T 498) (Plain (Zeros [3;7;7]));
  (*3665*) AddTo (T 498) (Plain (Einsum [(n_t1'bb,[0;1]); (n_lu11'bb,[2;3;0])] [2;3;1]));
  (*3666*) AddTo n_lu11new_aa (Plain (Einsum [(T 498,[0;1;2]); (n_v'aabb'ovvv,[3;4;1;2])] [0;4;3]));
  (*3667*) SubFrom n_lu11new_bb (Plain (Einsum [(T 498,[0;1;2]); (T 278,[3;1;4;2])] [0;4;3]));
  (*3668*) Del (T 498);
  (*3669*) Del (T 278);
  (*3670*) Assign (T 499) (Plain (Zeros [3;4;5]));
  (*3671*) AddTo (T 499) (Plain (Einsum [(n_t1'aa,[0;1]); (n_g'aa'bvv,[2;3;1])] [2;0;3]));
  (*3672*) AddTo (T 503) (Plain (Einsum [(T 499,[0;1;2])] [0;1;2]));
  (*3673*) Del (T 499);
  (*3674*) Assign (T 500) (Plain (Zeros [3;4;5]));
  (*3675*) AddTo (T 500) (Plain (Einsum [(n_g'bb'bov,[0;1;2]); (n_t2'abab,[3;1;4;2])] [0;3;4]));
  (*3676*) AddTo (T 503) (Plain (Einsum [(T 500,[0;1;2])] [0;1;2]));
  (*3677*) Del (T 500);
  (*3678*) AddTo (T 503) (Plain (Einsum [(n_g'aa'bvo,[0;1;2])] [0;2;1]));
  (*3679*) AddTo n_lu11new_aa (Plain (Einsum [(T 503,[0;1;2]); (T 42,[1;3;4;2])] [0;4;3]));
  (*3680*) Del (T 42);
  (*3681*) AddTo n_lu11new_bb (Plain (Einsum [(T 503,[0;1;2]); (n_l2'abab,[2;3;1;4])] [0;3;4]));
  (*3682*) Del (T 503);
  (*3683*) Assign (T 505) (Plain (Zeros [3;4;5]));
  (*3684*) AddTo (T 505) (Plain (Einsum [(n_lu11'bb,[0;1;2]); (n_t2'abab,[3;2;4;1])] [0;3;4]));
  (*3685*) AddTo (T 507) (Plain (Einsum [(T 505,[0;1;2])] [0;1;2]));
  (*3686*) Del (T 505);
  (*3687*) AddTo n_lu11new_aa (Times (Einsum [(T 507,[0;1;2]); (T 14,[1;3;4;2])] [0;4;3]) (-1) 1);
  (*3688*) Del (T 14);
  (*3689*) AddTo n_lu11new_bb (Plain (Einsum [(T 507,[0;1;2]); (n_v'aabb'ovov,[1;2;3;4])] [0;4;3]));
  (*3690*) Del (T 507);
  (*3691*) Assign (T 508) (Plain (Zeros [3;6;7]));
  (*3692*) AddTo (T 508) (Plain (Einsum [(n_t1'bb,[0;1]); (n_g'bb'bvv,[2;3;1])] [2;0;3]));
  (*3693*) AddTo (T 512) (Plain (Einsum [(T 508,[0;1;2])] [0;1;2]));
  (*3694*) Del (T 508);
  (*3695*) Assign (T 509) (Plain (Zeros [3;6;7]));
  (*3696*) AddTo (T 509) (Plain (Einsum [(n_g'aa'bov,[0;1;2]); (n_t2'abab,[1;3;2;4])] [0;3;4]));
  (*3697*) AddTo (T 512) (Plain (Einsum [(T 509,[0;1;2])] [0;1;2]));
  (*3698*) Del (T 509);
  (*3699*) AddTo (T 512) (Plain (Einsum [(n_g'bb'bvo,[0;1;2])] [0;2;1]));
  (*3700*) AddTo n_lu11new_aa (Plain (Einsum [(T 512,[0;1;2]); (n_l2'abab,[3;2;4;1])] [0;3;4]));
  (*3701*) AddTo n_lu11new_bb (Plain (Einsum [(T 512,[0;1;2]); (T 225,[1;3;2;4])] [0;4;3]));
  (*3702*) Del (T 225);
  (*3703*) Del (T 512);
  (*3704*) Assign (T 513) (Plain (Zeros [3;6;7]));
  (*3705*) AddTo (T 513) (Plain (Einsum [(n_lu11'aa,[0;1;2]); (n_t2'abab,[2;3;1;4])] [0;3;4]));
  (*3706*) AddTo (T 516) (Plain (Einsum [(T 513,[0;1;2])] [0;1;2]));
  (*3707*) Del (T 513);
  (*3708*) AddTo n_lu11new_aa (Plain (Einsum [(T 516,[0;1;2]); (n_v'aabb'ovov,[3;4;1;2])] [0;4;3]));
  (*3709*) AddTo n_lu11new_bb (Times (Einsum [(T 516,[0;1;2]); (T 90,[1;3;2;4])] [0;4;3]) (-1) 1);
  (*3710*) Del (T 90);
  (*3711*) Del (T 516);
  (*3712*) Assign (T 517) (Plain (Zeros [3;5;5]));
  (*3713*) AddTo (T 517) (Plain (Einsum [(n_t1'aa,[0;1]); (n_lu11'aa,[2;3;0])] [2;3;1]));
  (*3714*) SubFrom n_lu11new_aa (Plain (Einsum [(T 517,[0;1;2]); (T 299,[3;1;4;2])] [0;4;3]));
  (*3715*) Del (T 299);
  (*3716*) AddTo n_lu11new_bb (Plain (Einsum [(T 517,[0;1;2]); (n_v'bbaa'ovvv,[3;4;1;2])] [0;4;3]));
  (*3717*) Del (T 517);
  (*3718*) AddTo (T 518) (Plain (Einsum [(n_f'aa'vv,[0;1])] [0;1]));
  (*3719*) AddTo n_lu11new_aa (Plain (Einsum [(T 518,[0;1]); (n_lu11'aa,[2;0;3])] [2;1;3]));
  (*3720*) Del (T 518);
  (*3721*) Assign (T 519) (Plain (Zeros [3;3]));
  (*3722*) AddTo (T 519) (Plain (Einsum [(n_g'aa'bov,[0;1;2]); (n_u11'aa,[3;1;2])] [0;3]));
  (*3723*) Assign (T 521) (Plain (Zeros [3;3]));
  (*3724*) AddTo (T 521) (Plain (Einsum [(T 519,[0;1])] [0;1]));
  (*3725*) Del (T 519);
  (*3726*) Assign (T 520) (Plain (Zeros [3;3]));
  (*3727*) AddTo (T 520) (Plain (Einsum [(n_g'bb'bov,[0;1;2]); (n_u11'bb,[3;1;2])] [0;3]));
  (*3728*) AddTo (T 521) (Plain (Einsum [(T 520,[0;1])] [0;1]));
  (*3729*) Del (T 520);
  (*3730*) AddTo (T 521) (Plain (Einsum [(n_w,[0;1])] [0;1]));
  (*3731*) AddTo n_lu11new_aa (Plain (Einsum [(T 521,[0;1]); (n_lu11'aa,[1;2;3])] [0;2;3]));
  (*3732*) AddTo n_lu11new_bb (Plain (Einsum [(T 521,[0;1]); (n_lu11'bb,[1;2;3])] [0;2;3]));
  (*3733*) Del (T 521);
  (*3734*) AddTo (T 522) (Plain (Einsum [(n_g'aa'boo,[0;1;2])] [0;1;2]));
  (*3735*) SubFrom n_lu11new_aa (Plain (Einsum [(n_l1'aa,[0;1]); (T 522,[2;3;1])] [2;0;3]));
  (*3736*) Del (T 522);
  (*3737*) Assign (T 523) (Plain (Zeros [3;3]));
  (*3738*) AddTo (T 523) (Plain (Einsum [(n_lu11'aa,[0;1;2]); (n_u11'aa,[3;2;1])] [0;3]));
  (*3739*) Assign (T 525) (Plain (Zeros [3;3]));
  (*3740*) AddTo (T 525) (Plain (Einsum [(T 523,[0;1])] [0;1]));
  (*3741*) Del (T 523);
  (*3742*) Assign (T 524) (Plain (Zeros [3;3]));
  (*3743*) AddTo (T 524) (Plain (Einsum [(n_lu11'bb,[0;1;2]); (n_u11'bb,[3;2;1])] [0;3]));
  (*3744*) AddTo (T 525) (Plain (Einsum [(T 524,[0;1])] [0;1]));
  (*3745*) Del (T 524);
  (*3746*) AddTo n_lu11new_aa (Plain (Einsum [(T 525,[0;1]); (n_g'aa'bov,[1;2;3])] [0;3;2]));
  (*3747*) AddTo n_lu11new_bb (Plain (Einsum [(T 525,[0;1]); (n_g'bb'bov,[1;2;3])] [0;3;2]));
  (*3748*) Del (T 525);
  (*3749*) AddTo (T 526) (Plain (Einsum [(n_f'bb'vv,[0;1])] [0;1]));
  (*3750*) AddTo n_lu11new_bb (Plain (Einsum [(T 526,[0;1]); (n_lu11'bb,[2;0;3])] [2;1;3]));
  (*3751*) Del (T 526);
  (*3752*) AddTo (T 527) (Plain (Einsum [(n_g'bb'boo,[0;1;2])] [0;1;2]));
  (*3753*) SubFrom n_lu11new_bb (Plain (Einsum [(n_l1'bb,[0;1]); (T 527,[2;3;1])] [2;0;3]));
  (*3754*) Del (T 527);
  (*3755*) AddTo n_l1new_aa (Plain (Einsum [(n_ls1,[0]); (n_gc'aa'bov,[0;1;2])] [2;1]));
  (*3756*) AddTo n_l1new_aa (Plain (Einsum [(n_f'aa'ov,[0;1])] [1;0]));
  (*3757*) AddTo n_l1new_aa (Plain (Einsum [(n_l1'bb,[0;1]); (n_v'aabb'ovvo,[2;3;0;1])] [3;2]));
  (*3758*) AddTo n_l1new_bb (Plain (Einsum [(n_ls1,[0]); (n_gc'bb'bov,[0;1;2])] [2;1]));
  (*3759*) AddTo n_l1new_bb (Plain (Einsum [(n_f'bb'ov,[0;1])] [1;0]));
  (*3760*) AddTo n_l1new_bb (Plain (Einsum [(n_l1'aa,[0;1]); (n_v'bbaa'ovvo,[2;3;0;1])] [3;2]));
  (*3761*) SubFrom n_l2new_aaaa (Plain (Einsum [(n_v'aaaa'ovov,[0;1;2;3])] [1;3;2;0]));
  (*3762*) AddTo n_l2new_aaaa (Plain (Einsum [(n_v'aaaa'ovov,[0;1;2;3])] [3;1;2;0]));
  (*3763*) SubFrom n_l2new_bbbb (Plain (Einsum [(n_v'bbbb'ovov,[0;1;2;3])] [1;3;2;0]));
  (*3764*) AddTo n_l2new_bbbb (Plain (Einsum [(n_v'bbbb'ovov,[0;1;2;3])] [3;1;2;0]));
  (*3765*) AddTo n_l2new_baba (Plain (Einsum [(n_v'aabb'ovov,[0;1;2;3])] [3;1;2;0]));
  (*3766*) AddTo n_l2new_abab (Plain (Einsum [(n_v'aabb'ovov,[0;1;2;3])] [1;3;0;2]));
  (*3767*) AddTo n_ls1new (Plain (Einsum [(n_ls1,[0]); (n_w,[1;0])] [1]));
  (*3768*) AddTo n_ls1new (Plain (Einsum [(n_G,[0])] [0]));
  (*3769*) AddTo n_ls1new (Plain (Einsum [(n_l1'bb,[0;1]); (n_g'bb'bvo,[2;0;1])] [2]));
  (*3770*) AddTo n_ls1new (Plain (Einsum [(n_l1'aa,[0;1]); (n_g'aa'bvo,[2;0;1])] [2]));
  (*3771*) AddTo n_lu11new_aa (Plain (Einsum [(n_g'aa'bov,[0;1;2])] [0;2;1]));
  (*3772*) AddTo n_lu11new_aa (Plain (Einsum [(n_lu11'bb,[0;1;2]); (n_v'aabb'ovvo,[3;4;1;2])] [0;4;3]));
  (*3773*) AddTo n_lu11new_aa (Plain (Einsum [(n_l1'aa,[0;1]); (n_g'aa'bvv,[2;0;3])] [2;3;1]));
  (*3774*) AddTo n_lu11new_bb (Plain (Einsum [(n_l1'bb,[0;1]); (n_g'bb'bvv,[2;0;3])] [2;3;1]));
  (*3775*) AddTo n_lu11new_bb (Plain (Einsum [(n_g'bb'bov,[0;1;2])] [0;2;1]));
  (*3776*) AddTo n_lu11new_bb (Plain (Einsum [(n_lu11'aa,[0;1;2]); (n_v'bbaa'ovvo,[3;4;1;2])] [0;4;3]));
  (*3778*) Assign n_l1new'aa (Plain (Copy n_l1new_aa));
  (*3779*) Assign n_l1new'bb (Plain (Copy n_l1new_bb));
  (*3780*) Assign n_l2new'abab (Plain (Copy n_l2new_abab));
  (*3781*) Assign n_l2new'baba (Plain (Copy n_l2new_baba));
  (*3782*) Assign n_l2new'aaaa (Plain (Copy n_l2new_aaaa));
  (*3783*) Assign n_l2new'bbbb (Plain (Copy n_l2new_bbbb));
  (*3784*) Assign n_lu11new'aa (Plain (Copy n_lu11new_aa));
  (*3785*) Assign n_lu11new'bb (Plain (Copy n_lu11new_bb))]
 [(n_l1new'aa,[5;4]); (n_l1new'bb,[7;6]); (n_l2new'abab,[5;7;4;6]); (n_l2new'baba,[7;5;6;4]); (n_l2new'aaaa,[5;5;4;4]); (n_l2new'bbbb,[7;7;6;6]); (n_ls1new,[3]); (n_lu11new'aa,[3;5;4]); (n_lu11new'bb,[3;7;6])].

(** ebcc/codegen/UCCSD_S_1_1.py:3789-3955 [make_rdm1_f]; assembly (line 3949) not translated; assembly (line 3950) not translated *)
Definition UCCSD_S_1_1_make_rdm1_f : prog := mkprog
 [(n_g'aa'boo,[3;4;4]); (n_g'aa'bvo,[3;5;4]); (n_g'aa'bov,[3;4;5]); (n_g'aa'bvv,[3;5;5]); (n_g'bb'boo,[3;6;6]); (n_g'bb'bvo,[3;7;6]); (n_g'bb'bov,[3;6;7]); (n_g'bb'bvv,[3;7;7]); (n_lu11'aa,[3;5;4]); (n_u11'aa,[3;4;5]); (n_l2'abab,[5;7;4;6]); (n_t2'abab,[4;6;5;7]); (n_l1'aa,[5;4]); (n_t1'aa,[4;5]); (n_t2'aaaa,[4;4;5;5]); (n_l2'aaaa,[5;5;4;4]); (n_lu11'bb,[3;7;6]); (n_u11'bb,[3;6;7]); (n_l1'bb,[7;6]); (n_t1'bb,[6;7]); (n_t2'bbbb,[6;6;7;7]); (n_l2'bbbb,[7;7;6;6]); (n_ls1,[3])]
 [(*3793*) Assign n_gc'aa'boo (Plain (Transpose n_g'aa'boo [0;2;1]));
  (*3793*) Assign n_gc'aa'bov (Plain (Transpose n_g'aa'bvo [0;2;1]));
  (*3793*) Assign n_gc'aa'bvo (Plain (Transpose n_g'aa'bov [0;2;1]));
  (*3793*) Assign n_gc'aa'bvv (Plain (Transpose n_g'aa'bvv [0;2;1]));
  (*3793*) Assign n_gc'bb'boo (Plain (Transpose n_g'bb'boo [0;2;1]));
  (*3793*) Assign n_gc'bb'bov (Plain (Transpose n_g'bb'bvo [0;2;1]));
  (*3793*) Assign n_gc'bb'bvo (Plain (Transpose n_g'bb'bov [0;2;1]));
  (*3793*) Assign n_gc'bb'bvv (Plain (Transpose n_g'bb'bvv [0;2;1]));
  (*3809*) Assign n_delta_oo'aa (Plain (Eye 4));
  (*3810*) Assign n_delta_oo'bb (Plain (Eye 6));
  (*3812*) Assign n_delta_vv'aa (Plain (Eye 5));
  (*3813*) Assign n_delta_vv'bb (Plain (Eye 7));
  (*3816*) Assign (T 1) (Plain (Zeros [4;4]));
  (*3817*) AddTo (T 1) (Plain (Einsum [(n_lu11'aa,[0;1;2]); (n_u11'aa,[0;3;1])] [2;3]));
  (*3818*) Assign (T 15) (Plain (Zeros [4;4]));
  (*3819*) AddTo (T 15) (Plain (Einsum [(T 1,[0;1])] [0;1]));
  (*3820*) Assign n_rdm1_f_oo_aa (Plain (Zeros [4;4]));
  (*3821*) SubFrom n_rdm1_f_oo_aa (Plain (Einsum [(T 1,[0;1])] [0;1]));
  (*3822*) Del (T 1);
  (*3823*) Assign (T 2) (Plain (Zeros [4;4]));
  (*3824*) AddTo (T 2) (Plain (Einsum [(n_l2'abab,[0;1;2;3]); (n_t2'abab,[4;3;0;1])] [2;4]));
  (*3825*) AddTo (T 15) (Plain (Einsum [(T 2,[0;1])] [0;1]));
  (*3826*) AddTo n_rdm1_f_oo_aa (Times (Einsum [(T 2,[0;1])] [0;1]) (-1) 1);
  (*3827*) Del (T 2);
  (*3828*) Assign (T 3) (Plain (Zeros [4;4]));
  (*3829*) AddTo (T 3) (Plain (Einsum [(n_l1'aa,[0;1]); (n_t1'aa,[2;0])] [1;2]));
  (*3830*) AddTo (T 15) (Plain (Einsum [(T 3,[0;1])] [0;1]));
  (*3831*) SubFrom n_rdm1_f_oo_aa (Plain (Einsum [(T 3,[0;1])] [0;1]));
  (*3832*) Del (T 3);
  (*3833*) Assign (T 4) (Plain (Zeros [4;4;5;5]));
  (*3834*) AddTo (T 4) (Plain (Einsum [(n_t2'aaaa,[0;1;2;3])] [1;0;2;3]));
  (*3835*) AddTo (T 4) (Times (Einsum [(n_t2'aaaa,[0;1;2;3])] [1;0;3;2]) (-1) 1);
  (*3836*) AddTo n_rdm1_f_oo_aa (Times (Einsum [(n_l2'aaaa,[0;1;2;3]); (T 4,[2;4;1;0])] [3;4]) (-1) 1);
  (*3837*) Del (T 4);
  (*3838*) Assign (T 5) (Plain (Zeros [6;6]));
  (*3839*) AddTo (T 5) (Plain (Einsum [(n_l2'abab,[0;1;2;3]); (n_t2'abab,[2;4;0;1])] [3;4]));
  (*3840*) Assign (T 22) (Plain (Zeros [6;6]));
  (*3841*) AddTo (T 22) (Plain (Einsum [(T 5,[0;1])] [0;1]));
  (*3842*) Assign n_rdm1_f_oo_bb (Plain (Zeros [6;6]));
  (*3843*) AddTo n_rdm1_f_oo_bb (Times (Einsum [(T 5,[0;1])] [0;1]) (-1) 1);
  (*3844*) Del (T 5);
  (*3845*) Assign (T 6) (Plain (Zeros [6;6]));
  (*3846*) AddTo (T 6) (Plain (Einsum [(n_lu11'bb,[0;1;2]); (n_u11'bb,[0;3;1])] [2;3]));
  (*3847*) AddTo (T 22) (Plain (Einsum [(T 6,[0;1])] [0;1]));
  (*3848*) SubFrom n_rdm1_f_oo_bb (Plain (Einsum [(T 6,[0;1])] [0;1]));
  (*3849*) Del (T 6);
  (*3850*) Assign (T 7) (Plain (Zeros [6;6]));
  (*3851*) AddTo (T 7) (Plain (Einsum [(n_l1'bb,[0;1]); (n_t1'bb,[2;0])] [1;2]));
  (*3852*) AddTo (T 22) (Plain (Einsum [(T 7,[0;1])] [0;1]));
  (*3853*) SubFrom n_rdm1_f_oo_bb (Plain (Einsum [(T 7,[0;1])] [0;1]));
  (*3854*) Del (T 7);
  (*3855*) Assign (T 8) (Plain (Zeros [6;6;7;7]));
  (*3856*) AddTo (T 8) (Times (Einsum [(n_t2'bbbb,[0;1;2;3])] [1;0;2;3]) (-1) 1);
  (*3857*) AddTo (T 8) (Plain (Einsum [(n_t2'bbbb,[0;1;2;3])] [1;0;3;2]));
  (*3858*) AddTo n_rdm1_f_oo_bb (Times (Einsum [(n_l2'bbbb,[0;1;2;3]); (T 8,[2;4;0;1])] [3;4]) (-1) 1);
  (*3859*) Del (T 8);
  (*3860*) Assign (T 9) (Plain (Zeros [3;4;4]));
  (*3861*) AddTo (T 9) (Plain (Einsum [(n_t1'aa,[0;1]); (n_lu11'aa,[2;1;3])] [2;3;0]));
  (*3862*) Assign n_rdm1_f_vo_aa (Plain (Zeros [5;4]));
  (*3863*) SubFrom n_rdm1_f_vo_aa (Plain (Einsum [(n_u11'aa,[0;1;2]); (T 9,[0;1;3])] [2;3]));
  (*3864*) Del (T 9);
  (*3865*) Assign (T 10) (Plain (Zeros [4;4;6;7]));
  (*3866*) AddTo (T 10) (Plain (Einsum [(n_t1'aa,[0;1]); (n_l2'abab,[1;2;3;4])] [3;0;4;2]));
  (*3867*) AddTo n_rdm1_f_vo_aa (Times (Einsum [(n_t2'abab,[0;1;2;3]); (T 10,[0;4;1;3])] [2;4]) (-1) 1);
  (*3868*) Del (T 10);
  (*3869*) Assign (T 11) (Plain (Zeros [4;4;4;5]));
  (*3870*) AddTo (T 11) (Plain (Einsum [(n_t1'aa,[0;1]); (n_l2'aaaa,[1;2;3;4])] [4;3;0;2]));
  (*3871*) Assign (T 12) (Plain (Zeros [4;4;4;5]));
  (*3872*) AddTo (T 12) (Times (Einsum [(T 11,[0;1;2;3])] [0;1;2;3]) (-1) 1);
  (*3873*) AddTo (T 12) (Plain (Einsum [(T 11,[0;1;2;3])] [1;0;2;3]));
  (*3874*) Del (T 11);
  (*3875*) AddTo n_rdm1_f_vo_aa (Times (Einsum [(n_t2'aaaa,[0;1;2;3]); (T 12,[1;0;4;2])] [3;4]) (-1) 1);
  (*3876*) Del (T 12);
  (*3877*) Assign (T 13) (Plain (Zeros [4;4;5;5]));
  (*3878*) AddTo (T 13) (Plain (Einsum [(n_t2'aaaa,[0;1;2;3])] [1;0;2;3]));
  (*3879*) SubFrom (T 13) (Plain (Einsum [(n_t2'aaaa,[0;1;2;3])] [1;0;3;2]));
  (*3880*) SubFrom n_rdm1_f_vo_aa (Plain (Einsum [(n_l1'aa,[0;1]); (T 13,[1;2;0;3])] [3;2]));
  (*3881*) Del (T 13);
  (*3882*) Assign (T 14) (Plain (Zeros [4;4;5;5]));
  (*3883*) AddTo (T 14) (Times (Einsum [(n_t2'aaaa,[0;1;2;3])] [1;0;2;3]) (-1) 1);
  (*3884*) AddTo (T 14) (Plain (Einsum [(n_t2'aaaa,[0;1;2;3])] [1;0;3;2]));
  (*3885*) AddTo (T 15) (Times (Einsum [(n_l2'aaaa,[0;1;2;3]); (T 14,[2;4;1;0])] [3;4]) (-1) 1);
  (*3886*) Del (T 14);
  (*3887*) AddTo n_rdm1_f_vo_aa (Times (Einsum [(n_t1'aa,[0;1]); (T 15,[0;2])] [1;2]) (-1) 1);
  (*3888*) Del (T 15);
  (*3889*) Assign (T 16) (Plain (Zeros [3;6;6]));
  (*3890*) AddTo (T 16) (Plain (Einsum [(n_t1'bb,[0;1]); (n_lu11'bb,[2;1;3])] [2;3;0]));
  (*3891*) Assign n_rdm1_f_vo_bb (Plain (Zeros [7;6]));
  (*3892*) SubFrom n_rdm1_f_vo_bb (Plain (Einsum [(n_u11'bb,[0;1;2]); (T 16,[0;1;3])] [2;3]));
  (*3893*) Del (T 16);
  (*3894*) Assign (T 17) (Plain (Zeros [4;6;6;5]));
  (*3895*) AddTo (T 17) (Plain (Einsum [(n_t1'bb,[0;1]); (n_l2'abab,[2;1;3;4])] [3;4;0;2]));
  (*3896*) AddTo n_rdm1_f_vo_bb (Times (Einsum [(n_t2'abab,[0;1;2;3]); (T 17,[0;1;4;2])] [3;4]) (-1) 1);
  (*3897*) Del (T 17);
  (*3898*) Assign (T 18) (Plain (Zeros [6;6;6;7]));
  (*3899*) AddTo (T 18) (Plain (Einsum [(n_t1'bb,[0;1]); (n_l2'bbbb,[2;1;3;4])] [3;4;0;2]));
  (*3900*) Assign (T 19) (Plain (Zeros [6;6;6;7]));
  (*3901*) AddTo (T 19) (Plain (Einsum [(T 18,[0;1;2;3])] [0;1;2;3]));
  (*3902*) AddTo (T 19) (Times (Einsum [(T 18,[0;1;2;3])] [1;0;2;3]) (-1) 1);
  (*3903*) Del (T 18);
  (*3904*) AddTo n_rdm1_f_vo_bb (Times (Einsum [(n_t2'bbbb,[0;1;2;3]); (T 19,[1;0;4;3])] [2;4]) (-1) 1);
  (*3905*) Del (T 19);
  (*3906*) Assign (T 20) (Plain (Zeros [6;6;7;7]));
  (*3907*) AddTo (T 20) (Plain (Einsum [(n_t2'bbbb,[0;1;2;3])] [1;0;2;3]));
  (*3908*) SubFrom (T 20) (Plain (Einsum [(n_t2'bbbb,[0;1;2;3])] [1;0;3;2]));
  (*3909*) SubFrom n_rdm1_f_vo_bb (Plain (Einsum [(n_l1'bb,[0;1]); (T 20,[1;2;0;3])] [3;2]));
  (*3910*) Del (T 20);
  (*3911*) Assign (T 21) (Plain (Zeros [6;6;7;7]));
  (*3912*) AddTo (T 21) (Plain (Einsum [(n_t2'bbbb,[0;1;2;3])] [1;0;2;3]));
  (*3913*) AddTo (T 21) (Times (Einsum [(n_t2'bbbb,[0;1;2;3])] [1;0;3;2]) (-1) 1);
  (*3914*) AddTo (T 22) (Times (Einsum [(n_l2'bbbb,[0;1;2;3]); (T 21,[2;4;0;1])] [3;4]) (-1) 1);
  (*3915*) Del (T 21);
  (*3916*) AddTo n_rdm1_f_vo_bb (Times (Einsum [(n_t1'bb,[0;1]); (T 22,[0;2])] [1;2]) (-1) 1);
  (*3917*) Del (T 22);
  (*3918*) Assign (T 23) (Plain (Zeros [4;4;5;5]));
  (*3919*) AddTo (T 23) (Times (Einsum [(n_l2'aaaa,[0;1;2;3])] [3;2;0;1]) (-1) 1);
  (*3920*) AddTo (T 23) (Plain (Einsum [(n_l2'aaaa,[0;1;2;3])] [3;2;1;0]));
  (*3921*) Assign n_rdm1_f_vv_aa (Plain (Zeros [5;5]));
  (*3922*) AddTo n_rdm1_f_vv_aa (Times (Einsum [(n_t2'aaaa,[0;1;2;3]); (T 23,[0;1;4;2])] [3;4]) (-1) 1);
  (*3923*) Del (T 23);
  (*3924*) Assign (T 24) (Plain (Zeros [6;6;7;7]));
  (*3925*) AddTo (T 24) (Times (Einsum [(n_l2'bbbb,[0;1;2;3])] [3;2;0;1]) (-1) 1);
  (*3926*) AddTo (T 24) (Plain (Einsum [(n_l2'bbbb,[0;1;2;3])] [3;2;1;0]));
  (*3927*) Assign n_rdm1_f_vv_bb (Plain (Zeros [7;7]));
  (*3928*) AddTo n_rdm1_f_vv_bb (Times (Einsum [(n_t2'bbbb,[0;1;2;3]); (T 24,[0;1;3;4])] [2;4]) (-1) 1);
  (*3929*) Del (T 24);
  (*3930*) AddTo n_rdm1_f_oo_aa (Plain (Einsum [(n_delta_oo'aa,[0;1])] [1;0]));
  (*3931*) AddTo n_rdm1_f_oo_bb (Plain (Einsum [(n_delta_oo'bb,[0;1])] [1;0]));
  (*3932*) Assign n_rdm1_f_ov_aa (Plain (Zeros [4;5]));
  (*3933*) AddTo n_rdm1_f_ov_aa (Plain (Einsum [(n_l1'aa,[0;1])] [1;0]));
  (*3934*) Assign n_rdm1_f_ov_bb (Plain (Zeros [6;7]));
  (*3935*) AddTo n_rdm1_f_ov_bb (Plain (Einsum [(n_l1'bb,[0;1])] [1;0]));
  (*3936*) AddTo n_rdm1_f_vo_aa (Plain (Einsum [(n_l1'bb,[0;1]); (n_t2'abab,[2;1;3;0])] [3;2]));
  (*3937*) AddTo n_rdm1_f_vo_aa (Plain (Einsum [(n_ls1,[0]); (n_u11'aa,[0;1;2])] [2;1]));
  (*3938*) AddTo n_rdm1_f_vo_aa (Plain (Einsum [(n_t1'aa,[0;1])] [1;0]));
  (*3939*) AddTo n_rdm1_f_vo_bb (Plain (Einsum [(n_l1'aa,[0;1]); (n_t2'abab,[1;2;0;3])] [3;2]));
  (*3940*) AddTo n_rdm1_f_vo_bb (Plain (Einsum [(n_ls1,[0]); (n_u11'bb,[0;1;2])] [2;1]));
  (*3941*) AddTo n_rdm1_f_vo_bb (Plain (Einsum [(n_t1'bb,[0;1])] [1;0]));
  (*3942*) AddTo n_rdm1_f_vv_aa (Plain (Einsum [(n_l2'abab,[0;1;2;3]); (n_t2'abab,[2;3;4;1])] [4;0]));
  (*3943*) AddTo n_rdm1_f_vv_aa (Plain (Einsum [(n_lu11'aa,[0;1;2]); (n_u11'aa,[0;2;3])] [3;1]));
  (*3944*) AddTo n_rdm1_f_vv_aa (Plain (Einsum [(n_l1'aa,[0;1]); (n_t1'aa,[1;2])] [2;0]));
  (*3945*) AddTo n_rdm1_f_vv_bb (Plain (Einsum [(n_l1'bb,[0;1]); (n_t1'bb,[1;2])] [2;0]));
  (*3946*) AddTo n_rdm1_f_vv_bb (Plain (Einsum [(n_lu11'bb,[0;1;2]); (n_u11'bb,[0;2;3])] [3;1]));
  (*3947*) AddTo n_rdm1_f_vv_bb (Plain (Einsum [(n_l2'abab,[0;1;2;3]); (n_t2'abab,[2;3;0;4])] [4;1]))]
 [(n_rdm1_f_oo_aa,[4;4]); (n_rdm1_f_ov_aa,[4;5]); (n_rdm1_f_vo_aa,[5;4]); (n_rdm1_f_vv_aa,[5;5]); (n_rdm1_f_oo_bb,[6;6]); (n_rdm1_f_ov_bb,[6;7]); (n_rdm1_f_vo_bb,[7;6]); (n_rdm1_f_vv_bb,[7;7])].

(** ebcc/codegen/UCCSD_S_1_1.py:3957-5543 [make_rdm2_f]; assembly (line 5533) not translated; assembly (line 5534) not translated; assembly (line 5535) not translated; assembly (line 5536) not translated *)
Definition UCCSD_S_1_1_make_rdm2_f : prog := mkprog
 [(n_g'aa'boo,[3;4;4]); (n_g'aa'bvo,[3;5;4]); (n_g'aa'bov,[3;4;5]); (n_g'aa'bvv,[3;5;5]); (n_g'bb'boo,[3;6;6]); (n_g'bb'bvo,[3;7;6]); (n_g'bb'bov,[3;6;7]); (n_g'bb'bvv,[3;7;7]); (n_lu11'aa,[3;5;4]); (n_u11'aa,[3;4;5]); (n_t1'aa,[4;5]); (n_t2'aaaa,[4;4;5;5]); (n_l2'aaaa,[5;5;4;4]); (n_t2'abab,[4;6;5;7]); (n_l2'abab,[5;7;4;6]); (n_l1'aa,[5;4]); (n_t1'bb,[6;7]); (n_l1'bb,[7;6]); (n_t2'bbbb,[6;6;7;7]); (n_lu11'bb,[3;7;6]); (n_u11'bb,[3;6;7]); (n_l2'bbbb,[7;7;6;6]); (n_ls1,[3])]
 [(*3961*) Assign n_gc'aa'boo (Plain (Transpose n_g'aa'boo [0;2;1]));
  (*3961*) Assign n_gc'aa'bov (Plain (Transpose n_g'aa'bvo [0;2;1]));
  (*3961*) Assign n_gc'aa'bvo (Plain (Transpose n_g'aa'bov [0;2;1]));
  (*3961*) Assign n_gc'aa'bvv (Plain (Transpose n_g'aa'bvv [0;2;1]));
  (*3961*) Assign n_gc'bb'boo (Plain (Transpose n_g'bb'boo [0;2;1]));
  (*3961*) Assign n_gc'bb'bov (Plain (Transpose n_g'bb'bvo [0;2;1]));
  (*3961*) Assign n_gc'bb'bvo (Plain (Transpose n_g'bb'bov [0;2;1]));
  (*3961*) Assign n_gc'bb'bvv (Plain (Transpose n_g'bb'bvv [0;2;1]));
  (*3977*) Assign n_delta_oo'aa (Plain (Eye 4));
  (*3978*) Assign n_delta_oo'bb (Plain (Eye 6));
  (*3980*) Assign n_delta_vv'aa (Plain (Eye 5));
  (*3981*) Assign n_delta_vv'bb (Plain (Eye 7));
  (*3984*) Assign (T 1) (Plain (Zeros [4;4]));
  (*3985*) AddTo (T 1) (Plain (Einsum [(n_lu11'aa,[0;1;2]); (n_u11'aa,[0;3;1])] [2;3]));
  (*3986*) Assign (T 19) (Plain (Zeros [4;4]));
  (*3987*) AddTo (T 19) (Plain (Einsum [(T 1,[0;1])] [0;1]));
  (*3988*) Assign (T 30) (Plain (Zeros [4;5]));
  (*3989*) AddTo (T 30) (Plain (Einsum [(n_t1'aa,[0;1]); (T 1,[0;2])] [2;1]));
  (*3990*) Assign (T 33) (Plain (Zeros [4;5]));
  (*3991*) AddTo (T 33) (Plain (Einsum [(T 30,[0;1])] [0;1]));
  (*3992*) Del (T 30);
  (*3993*) Assign (T 34) (Plain (Zeros [4;4]));
  (*3994*) AddTo (T 34) (Plain (Einsum [(T 1,[0;1])] [0;1]));
  (*3995*) Assign (T 97) (Plain (Zeros [4;4]));
  (*3996*) AddTo (T 97) (Plain (Einsum [(T 1,[0;1])] [1;0]));
  (*3997*) Assign (T 146) (Plain (Zeros [4;4;5;5]));
  (*3998*) AddTo (T 146) (Plain (Einsum [(T 1,[0;1]); (n_t2'aaaa,[2;0;3;4])] [2;1;3;4]));
  (*3999*) Assign (T 162) (Plain (Zeros [4;4;5;5]));
  (*4000*) SubFrom (T 162) (Plain (Einsum [(T 146,[0;1;2;3])] [0;1;2;3]));
  (*4001*) Del (T 146);
  (*4002*) Assign (T 249) (Plain (Zeros [4;4]));
  (*4003*) AddTo (T 249) (Plain (Einsum [(T 1,[0;1])] [0;1]));
  (*4004*) Assign n_rdm2_f_oooo_aaaa (Plain (Zeros [4;4;4;4]));
  (*4005*) SubFrom n_rdm2_f_oooo_aaaa (Plain (Einsum [(n_delta_oo'aa,[0;1]); (T 1,[2;3])] [0;1;2;3]));
  (*4006*) AddTo n_rdm2_f_oooo_aaaa (Plain (Einsum [(n_delta_oo'aa,[0;1]); (T 1,[2;3])] [0;3;2;1]));
  (*4007*) AddTo n_rdm2_f_oooo_aaaa (Plain (Einsum [(n_delta_oo'aa,[0;1]); (T 1,[2;3])] [2;0;1;3]));
  (*4008*) SubFrom n_rdm2_f_oooo_aaaa (Plain (Einsum [(n_delta_oo'aa,[0;1]); (T 1,[2;3])] [2;3;1;0]));
  (*4009*) Del (T 1);
  (*4010*) Assign (T 2) (Plain (Zeros [4;4;4;4]));
  (*4011*) AddTo (T 2) (Plain (Einsum [(n_l2'aaaa,[0;1;2;3]); (n_t2'aaaa,[4;5;1;0])] [2;3;5;4]));
  (*4012*) Assign (T 40) (Plain (Zeros [4;4;4;4]));
  (*4013*) AddTo (T 40) (Plain (Einsum [(T 2,[0;1;2;3])] [1;0;3;2]));
  (*4014*) Assign (T 175) (Plain (Zeros [4;4;5;5]));
  (*4015*) AddTo (T 175) (Plain (Einsum [(n_t2'aaaa,[0;1;2;3]); (T 2,[0;1;4;5])] [4;5;2;3]));
  (*4016*) Assign (T 179) (Plain (Zeros [4;4;5;5]));
  (*4017*) AddTo (T 179) (Plain (Einsum [(T 175,[0;1;2;3])] [0;1;2;3]));
  (*4018*) Del (T 175);
  (*4019*) Assign (T 177) (Plain (Zeros [4;4;4;5]));
  (*4020*) AddTo (T 177) (Plain (Einsum [(n_t1'aa,[0;1]); (T 2,[2;0;3;4])] [2;3;4;1]));
  (*4021*) Assign (T 178) (Plain (Zeros [4;4;5;5]));
  (*4022*) AddTo (T 178) (Plain (Einsum [(n_t1'aa,[0;1]); (T 177,[0;2;3;4])] [2;3;1;4]));
  (*4023*) Del (T 177);
  (*4024*) AddTo (T 179) (Plain (Einsum [(T 178,[0;1;2;3])] [0;1;2;3]));
  (*4025*) Del (T 178);
  (*4026*) AddTo n_rdm2_f_oooo_aaaa (Times (Einsum [(T 2,[0;1;2;3])] [1;2;0;3]) (-1) 1);
  (*4027*) AddTo n_rdm2_f_oooo_aaaa (Plain (Einsum [(T 2,[0;1;2;3])] [1;3;0;2]));
  (*4028*) Del (T 2);
  (*4029*) Assign (T 3) (Plain (Zeros [4;4;4;5]));
  (*4030*) AddTo (T 3) (Plain (Einsum [(n_t1'aa,[0;1]); (n_l2'aaaa,[1;2;3;4])] [4;3;0;2]));
  (*4031*) Assign (T 4) (Plain (Zeros [4;4;4;4]));
  (*4032*) AddTo (T 4) (Plain (Einsum [(n_t1'aa,[0;1]); (T 3,[2;3;4;1])] [2;3;0;4]));
  (*4033*) AddTo (T 40) (Plain (Einsum [(T 4,[0;1;2;3])] [0;1;2;3]));
  (*4034*) Assign (T 41) (Plain (Zeros [4;4;4;5]));
  (*4035*) AddTo (T 41) (Plain (Einsum [(n_t1'aa,[0;1]); (T 40,[0;2;3;4])] [2;3;4;1]));
  (*4036*) Del (T 40);
  (*4037*) Assign (T 47) (Plain (Zeros [4;4;4;5]));
  (*4038*) AddTo (T 47) (Plain (Einsum [(T 41,[0;1;2;3])] [0;2;1;3]));
  (*4039*) Assign (T 96) (Plain (Zeros [4;4;4;5]));
  (*4040*) AddTo (T 96) (Plain (Einsum [(T 41,[0;1;2;3])] [0;2;1;3]));
  (*4041*) Del (T 41);
  (*4042*) Assign (T 163) (Plain (Zeros [4;4;4;5]));
  (*4043*) AddTo (T 163) (Plain (Einsum [(n_t1'aa,[0;1]); (T 4,[0;2;3;4])] [2;4;3;1]));
  (*4044*) Assign (T 164) (Plain (Zeros [4;4;5;5]));
  (*4045*) AddTo (T 164) (Plain (Einsum [(n_t1'aa,[0;1]); (T 163,[0;2;3;4])] [2;3;1;4]));
  (*4046*) Del (T 163);
  (*4047*) Assign (T 170) (Plain (Zeros [4;4;5;5]));
  (*4048*) AddTo (T 170) (Plain (Einsum [(T 164,[0;1;2;3])] [0;1;2;3]));
  (*4049*) Del (T 164);
  (*4050*) Assign (T 176) (Plain (Zeros [4;4;5;5]));
  (*4051*) AddTo (T 176) (Plain (Einsum [(n_t2'aaaa,[0;1;2;3]); (T 4,[1;0;4;5])] [4;5;3;2]));
  (*4052*) AddTo (T 179) (Plain (Einsum [(T 176,[0;1;2;3])] [0;1;2;3]));
  (*4053*) Del (T 176);
  (*4054*) Assign n_rdm2_f_vovo_aaaa (Plain (Zeros [5;4;5;4]));
  (*4055*) AddTo n_rdm2_f_vovo_aaaa (Times (Einsum [(T 179,[0;1;2;3])] [2;1;3;0]) (-1) 1);
  (*4056*) AddTo n_rdm2_f_vovo_aaaa (Plain (Einsum [(T 179,[0;1;2;3])] [3;1;2;0]));
  (*4057*) Del (T 179);
  (*4058*) AddTo n_rdm2_f_oooo_aaaa (Plain (Einsum [(T 4,[0;1;2;3])] [0;2;1;3]));
  (*4059*) AddTo n_rdm2_f_oooo_aaaa (Times (Einsum [(T 4,[0;1;2;3])] [0;3;1;2]) (-1) 1);
  (*4060*) Del (T 4);
  (*4061*) Assign (T 37) (Plain (Zeros [4;4;4;5]));
  (*4062*) AddTo (T 37) (Plain (Einsum [(T 3,[0;1;2;3])] [0;1;2;3]));
  (*4063*) AddTo (T 37) (Times (Einsum [(T 3,[0;1;2;3])] [1;0;2;3]) (-1) 1);
  (*4064*) Assign (T 43) (Plain (Zeros [4;4;4;5]));
  (*4065*) AddTo (T 43) (Times (Einsum [(T 3,[0;1;2;3])] [0;1;2;3]) (-1) 1);
  (*4066*) AddTo (T 43) (Plain (Einsum [(T 3,[0;1;2;3])] [1;0;2;3]));
  (*4067*) Assign (T 44) (Plain (Zeros [4;5]));
  (*4068*) AddTo (T 44) (Plain (Einsum [(n_t2'aaaa,[0;1;2;3]); (T 43,[1;0;4;3])] [4;2]));
  (*4069*) Assign (T 46) (Plain (Zeros [4;5]));
  (*4070*) AddTo (T 46) (Times (Einsum [(T 44,[0;1])] [0;1]) (-1) 1);
  (*4071*) Assign (T 94) (Plain (Zeros [4;5]));
  (*4072*) AddTo (T 94) (Times (Einsum [(T 44,[0;1])] [0;1]) (-1) 1);
  (*4073*) Assign (T 250) (Plain (Zeros [4;5]));
  (*4074*) AddTo (T 250) (Times (Einsum [(T 44,[0;1])] [0;1]) (-1) 1);
  (*4075*) Del (T 44);
  (*4076*) Assign (T 78) (Plain (Zeros [4;4;6;7]));
  (*4077*) AddTo (T 78) (Plain (Einsum [(n_t2'abab,[0;1;2;3]); (T 43,[4;0;5;2])] [4;5;1;3]));
  (*4078*) Assign (T 235) (Plain (Zeros [4;4;6;7]));
  (*4079*) AddTo (T 235) (Times (Einsum [(T 78,[0;1;2;3])] [0;1;2;3]) (-1) 1);
  (*4080*) Assign n_rdm2_f_oovo_aabb (Plain (Zeros [4;4;7;6]));
  (*4081*) AddTo n_rdm2_f_oovo_aabb (Times (Einsum [(T 78,[0;1;2;3])] [0;1;3;2]) (-1) 1);
  (*4082*) Assign n_rdm2_f_vooo_bbaa (Plain (Zeros [7;6;4;4]));
  (*4083*) AddTo n_rdm2_f_vooo_bbaa (Times (Einsum [(T 78,[0;1;2;3])] [3;2;0;1]) (-1) 1);
  (*4084*) Del (T 78);
  (*4085*) Assign (T 252) (Plain (Zeros [4;5]));
  (*4086*) AddTo (T 252) (Times (Einsum [(n_t2'aaaa,[0;1;2;3]); (T 43,[1;0;4;3])] [4;2]) (-1) 1);
  (*4087*) Del (T 43);
  (*4088*) Assign (T 105) (Plain (Zeros [4;4;4;5]));
  (*4089*) AddTo (T 105) (Plain (Einsum [(T 3,[0;1;2;3])] [0;1;2;3]));
  (*4090*) SubFrom (T 105) (Plain (Einsum [(T 3,[0;1;2;3])] [1;0;2;3]));
  (*4091*) Assign (T 106) (Plain (Zeros [4;4;5;5]));
  (*4092*) AddTo (T 106) (Plain (Einsum [(n_t1'aa,[0;1]); (T 105,[0;2;3;4])] [2;3;1;4]));
  (*4093*) Assign n_rdm2_f_oovv_aaaa (Plain (Zeros [4;4;5;5]));
  (*4094*) SubFrom n_rdm2_f_oovv_aaaa (Plain (Einsum [(T 106,[0;1;2;3])] [0;1;2;3]));
  (*4095*) Assign n_rdm2_f_vvoo_aaaa (Plain (Zeros [5;5;4;4]));
  (*4096*) SubFrom n_rdm2_f_vvoo_aaaa (Plain (Einsum [(T 106,[0;1;2;3])] [2;3;0;1]));
  (*4097*) Del (T 106);
  (*4098*) Assign (T 131) (Plain (Zeros [4;4;4;5]));
  (*4099*) SubFrom (T 131) (Plain (Einsum [(T 3,[0;1;2;3])] [0;1;2;3]));
  (*4100*) AddTo (T 131) (Plain (Einsum [(T 3,[0;1;2;3])] [1;0;2;3]));
  (*4101*) Assign (T 132) (Plain (Zeros [4;4;5;5]));
  (*4102*) AddTo (T 132) (Plain (Einsum [(n_t1'aa,[0;1]); (T 131,[0;2;3;4])] [2;3;1;4]));
  (*4103*) Del (T 131);
  (*4104*) Assign n_rdm2_f_ovvo_aaaa (Plain (Zeros [4;5;5;4]));
  (*4105*) SubFrom n_rdm2_f_ovvo_aaaa (Plain (Einsum [(T 132,[0;1;2;3])] [0;3;2;1]));
  (*4106*) Assign n_rdm2_f_voov_aaaa (Plain (Zeros [5;4;4;5]));
  (*4107*) SubFrom n_rdm2_f_voov_aaaa (Plain (Einsum [(T 132,[0;1;2;3])] [2;1;0;3]));
  (*4108*) Del (T 132);
  (*4109*) Assign (T 262) (Plain (Zeros [4;5;5;5]));
  (*4110*) AddTo (T 262) (Plain (Einsum [(n_t2'aaaa,[0;1;2;3]); (T 3,[1;0;4;5])] [4;5;3;2]));
  (*4111*) Assign (T 267) (Plain (Zeros [4;5;5;5]));
  (*4112*) AddTo (T 267) (Plain (Einsum [(T 262,[0;1;2;3])] [0;1;2;3]));
  (*4113*) Del (T 262);
  (*4114*) Assign (T 263) (Plain (Zeros [4;4;5;5]));
  (*4115*) AddTo (T 263) (Plain (Einsum [(n_t1'aa,[0;1]); (T 3,[2;0;3;4])] [2;3;4;1]));
  (*4116*) Assign (T 265) (Plain (Zeros [4;4;5;5]));
  (*4117*) AddTo (T 265) (Times (Einsum [(T 263,[0;1;2;3])] [0;1;2;3]) (-1) 1);
  (*4118*) Del (T 263);
  (*4119*) Assign n_rdm2_f_ooov_aaaa (Plain (Zeros [4;4;4;5]));
  (*4120*) AddTo n_rdm2_f_ooov_aaaa (Plain (Einsum [(T 3,[0;1;2;3])] [0;2;1;3]));
  (*4121*) SubFrom n_rdm2_f_ooov_aaaa (Plain (Einsum [(T 3,[0;1;2;3])] [1;2;0;3]));
  (*4122*) Assign n_rdm2_f_ovoo_aaaa (Plain (Zeros [4;5;4;4]));
  (*4123*) SubFrom n_rdm2_f_ovoo_aaaa (Plain (Einsum [(T 3,[0;1;2;3])] [0;3;1;2]));
  (*4124*) AddTo n_rdm2_f_ovoo_aaaa (Plain (Einsum [(T 3,[0;1;2;3])] [1;3;0;2]));
  (*4125*) Del (T 3);
  (*4126*) Assign (T 5) (Plain (Zeros [4;4]));
  (*4127*) AddTo (T 5) (Plain (Einsum [(n_l2'abab,[0;1;2;3]); (n_t2'abab,[4;3;0;1])] [2;4]));
  (*4128*) Assign (T 8) (Plain (Zeros [4;4]));
  (*4129*) AddTo (T 8) (Plain (Einsum [(T 5,[0;1])] [0;1]));
  (*4130*) AddTo (T 19) (Plain (Einsum [(T 5,[0;1])] [0;1]));
  (*4131*) AddTo (T 97) (Plain (Einsum [(T 5,[0;1])] [1;0]));
  (*4132*) AddTo (T 249) (Plain (Einsum [(T 5,[0;1])] [0;1]));
  (*4133*) Del (T 5);
  (*4134*) Assign (T 6) (Plain (Zeros [4;4;5;5]));
  (*4135*) AddTo (T 6) (Times (Einsum [(n_t2'aaaa,[0;1;2;3])] [1;0;2;3]) (-1) 1);
  (*4136*) AddTo (T 6) (Plain (Einsum [(n_t2'aaaa,[0;1;2;3])] [1;0;3;2]));
  (*4137*) Assign (T 7) (Plain (Zeros [4;4]));
  (*4138*) AddTo (T 7) (Plain (Einsum [(n_l2'aaaa,[0;1;2;3]); (T 6,[2;4;1;0])] [3;4]));
  (*4139*) AddTo (T 8) (Times (Einsum [(T 7,[0;1])] [0;1]) (-1) 1);
  (*4140*) Assign (T 45) (Plain (Zeros [4;5]));
  (*4141*) AddTo (T 45) (Plain (Einsum [(n_t1'aa,[0;1]); (T 8,[0;2])] [2;1]));
  (*4142*) AddTo (T 46) (Plain (Einsum [(T 45,[0;1])] [0;1]));
  (*4143*) Del (T 45);
  (*4144*) AddTo (T 47) (Plain (Einsum [(n_t1'aa,[0;1]); (T 8,[2;3])] [2;0;3;1]));
  (*4145*) AddTo (T 96) (Plain (Einsum [(n_t1'aa,[0;1]); (T 8,[2;3])] [2;0;3;1]));
  (*4146*) Assign (T 173) (Plain (Zeros [4;4;5;5]));
  (*4147*) AddTo (T 173) (Plain (Einsum [(T 8,[0;1]); (n_t2'aaaa,[0;2;3;4])] [2;1;3;4]));
  (*4148*) Assign (T 174) (Plain (Zeros [4;4;5;5]));
  (*4149*) AddTo (T 174) (Plain (Einsum [(T 173,[0;1;2;3])] [0;1;3;2]));
  (*4150*) Del (T 173);
  (*4151*) AddTo n_rdm2_f_oooo_aaaa (Times (Einsum [(n_delta_oo'aa,[0;1]); (T 8,[2;3])] [1;0;2;3]) (-1) 1);
  (*4152*) AddTo n_rdm2_f_oooo_aaaa (Plain (Einsum [(n_delta_oo'aa,[0;1]); (T 8,[2;3])] [1;3;2;0]));
  (*4153*) AddTo n_rdm2_f_oooo_aaaa (Plain (Einsum [(n_delta_oo'aa,[0;1]); (T 8,[2;3])] [2;1;0;3]));
  (*4154*) AddTo n_rdm2_f_oooo_aaaa (Times (Einsum [(n_delta_oo'aa,[0;1]); (T 8,[2;3])] [2;3;0;1]) (-1) 1);
  (*4155*) Del (T 8);
  (*4156*) AddTo (T 19) (Times (Einsum [(T 7,[0;1])] [0;1]) (-1) 1);
  (*4157*) Del (T 7);
  (*4158*) Assign (T 92) (Plain (Zeros [4;5]));
  (*4159*) AddTo (T 92) (Plain (Einsum [(n_l1'aa,[0;1]); (T 6,[1;2;0;3])] [2;3]));
  (*4160*) AddTo (T 94) (Times (Einsum [(T 92,[0;1])] [0;1]) (-1) 1);
  (*4161*) AddTo (T 252) (Times (Einsum [(T 92,[0;1])] [0;1]) (-1) 1);
  (*4162*) Del (T 92);
  (*4163*) Assign (T 248) (Plain (Zeros [4;4]));
  (*4164*) AddTo (T 248) (Plain (Einsum [(n_l2'aaaa,[0;1;2;3]); (T 6,[2;4;1;0])] [3;4]));
  (*4165*) AddTo (T 249) (Times (Einsum [(T 248,[0;1])] [0;1]) (-1) 1);
  (*4166*) Del (T 248);
  (*4167*) AddTo (T 250) (Times (Einsum [(n_l1'aa,[0;1]); (T 6,[1;2;0;3])] [2;3]) (-9999999999999993) 10000000000000000);
  (*4168*) Assign (T 293) (Plain (Zeros [4;6;5;7]));
  (*4169*) AddTo (T 293) (Plain (Einsum [(n_l2'abab,[0;1;2;3]); (T 6,[2;4;0;5])] [4;3;5;1]));
  (*4170*) Assign (T 295) (Plain (Zeros [4;6;5;7]));
  (*4171*) AddTo (T 295) (Times (Einsum [(T 293,[0;1;2;3])] [0;1;2;3]) (-1) 1);
  (*4172*) Del (T 293);
  (*4173*) Assign (T 9) (Plain (Zeros [4;4]));
  (*4174*) AddTo (T 9) (Plain (Einsum [(n_l1'aa,[0;1]); (n_t1'aa,[2;0])] [1;2]));
  (*4175*) AddTo (T 19) (Plain (Einsum [(T 9,[0;1])] [0;1]));
  (*4176*) Assign (T 93) (Plain (Zeros [4;5]));
  (*4177*) AddTo (T 93) (Plain (Einsum [(n_t1'aa,[0;1]); (T 19,[0;2])] [2;1]));
  (*4178*) AddTo (T 94) (Plain (Einsum [(T 93,[0;1])] [0;1]));
  (*4179*) Del (T 93);
  (*4180*) Assign (T 241) (Plain (Zeros [4;6;5;7]));
  (*4181*) AddTo (T 241) (Plain (Einsum [(T 19,[0;1]); (n_t2'abab,[0;2;3;4])] [1;2;3;4]));
  (*4182*) Assign n_rdm2_f_vovo_bbaa (Plain (Zeros [7;6;5;4]));
  (*4183*) AddTo n_rdm2_f_vovo_bbaa (Times (Einsum [(T 241,[0;1;2;3])] [3;1;2;0]) (-1) 1);
  (*4184*) Assign n_rdm2_f_vovo_aabb (Plain (Zeros [5;4;7;6]));
  (*4185*) AddTo n_rdm2_f_vovo_aabb (Times (Einsum [(T 241,[0;1;2;3])] [2;0;3;1]) (-1) 1);
  (*4186*) Del (T 241);
  (*4187*) Assign n_rdm2_f_oooo_aabb (Plain (Zeros [4;4;6;6]));
  (*4188*) AddTo n_rdm2_f_oooo_aabb (Times (Einsum [(n_delta_oo'bb,[0;1]); (T 19,[2;3])] [2;3;1;0]) (-1) 1);
  (*4189*) Assign n_rdm2_f_oooo_bbaa (Plain (Zeros [6;6;4;4]));
  (*4190*) AddTo n_rdm2_f_oooo_bbaa (Times (Einsum [(n_delta_oo'bb,[0;1]); (T 19,[2;3])] [1;0;2;3]) (-1) 1);
  (*4191*) AddTo n_rdm2_f_oovo_aabb (Times (Einsum [(n_t1'bb,[0;1]); (T 19,[2;3])] [2;3;1;0]) (-1) 1);
  (*4192*) Del (T 19);
  (*4193*) AddTo (T 34) (Plain (Einsum [(T 9,[0;1])] [0;1]));
  (*4194*) Assign (T 35) (Plain (Zeros [4;4;4;5]));
  (*4195*) AddTo (T 35) (Plain (Einsum [(n_t1'aa,[0;1]); (T 34,[2;3])] [2;0;3;1]));
  (*4196*) Assign (T 95) (Plain (Zeros [4;4;4;5]));
  (*4197*) AddTo (T 95) (Plain (Einsum [(n_t1'aa,[0;1]); (T 34,[2;3])] [2;0;3;1]));
  (*4198*) Assign (T 180) (Plain (Zeros [4;5]));
  (*4199*) AddTo (T 180) (Plain (Einsum [(n_t1'aa,[0;1]); (T 34,[0;2])] [2;1]));
  (*4200*) Del (T 34);
  (*4201*) Assign (T 181) (Plain (Zeros [4;5]));
  (*4202*) AddTo (T 181) (Plain (Einsum [(T 180,[0;1])] [0;1]));
  (*4203*) Assign (T 182) (Plain (Zeros [4;5]));
  (*4204*) AddTo (T 182) (Plain (Einsum [(T 180,[0;1])] [0;1]));
  (*4205*) Del (T 180);
  (*4206*) Assign (T 49) (Plain (Zeros [4;5]));
  (*4207*) AddTo (T 49) (Plain (Einsum [(n_t1'aa,[0;1]); (T 9,[0;2])] [2;1]));
  (*4208*) Assign (T 50) (Plain (Zeros [4;5]));
  (*4209*) SubFrom (T 50) (Plain (Einsum [(T 49,[0;1])] [0;1]));
  (*4210*) Del (T 49);
  (*4211*) AddTo (T 97) (Plain (Einsum [(T 9,[0;1])] [1;0]));
  (*4212*) Assign (T 144) (Plain (Zeros [4;4;5;5]));
  (*4213*) AddTo (T 144) (Plain (Einsum [(T 9,[0;1]); (n_t2'aaaa,[2;0;3;4])] [1;2;3;4]));
  (*4214*) AddTo (T 162) (Plain (Einsum [(T 144,[0;1;2;3])] [0;1;2;3]));
  (*4215*) Del (T 144);
  (*4216*) AddTo (T 249) (Plain (Einsum [(T 9,[0;1])] [0;1]));
  (*4217*) AddTo (T 250) (Times (Einsum [(n_t1'aa,[0;1]); (T 249,[0;2])] [2;1]) (9999999999999993) 10000000000000000);
  (*4218*) AddTo (T 252) (Plain (Einsum [(n_t1'aa,[0;1]); (T 249,[0;2])] [2;1]));
  (*4219*) Del (T 249);
  (*4220*) SubFrom n_rdm2_f_oooo_aaaa (Plain (Einsum [(n_delta_oo'aa,[0;1]); (T 9,[2;3])] [1;0;2;3]));
  (*4221*) AddTo n_rdm2_f_oooo_aaaa (Plain (Einsum [(n_delta_oo'aa,[0;1]); (T 9,[2;3])] [2;0;1;3]));
  (*4222*) AddTo n_rdm2_f_oooo_aaaa (Plain (Einsum [(n_delta_oo'aa,[0;1]); (T 9,[2;3])] [1;3;2;0]));
  (*4223*) SubFrom n_rdm2_f_oooo_aaaa (Plain (Einsum [(n_delta_oo'aa,[0;1]); (T 9,[2;3])] [2;3;1;0]));
  (*4224*) Del (T 9);
  (*4225*) Assign (T 10) (Plain (Zeros [4;4;6;6]));
  (*4226*) AddTo (T 10) (Plain (Einsum [(n_l2'abab,[0;1;2;3]); (n_t2'abab,[4;5;0;1])] [2;4;3;5]));
  (*4227*) Assign (T 80) (Plain (Zeros [4;4;6;6]));
  (*4228*) AddTo (T 80) (Plain (Einsum [(T 10,[0;1;2;3])] [0;1;2;3]));
  (*4229*) Assign (T 227) (Plain (Zeros [4;4;6;6]));
  (*4230*) AddTo (T 227) (Plain (Einsum [(T 10,[0;1;2;3])] [0;1;2;3]));
  (*4231*) Assign (T 233) (Plain (Zeros [4;4;6;6]));
  (*4232*) AddTo (T 233) (Plain (Einsum [(T 10,[0;1;2;3])] [0;1;2;3]));
  (*4233*) AddTo n_rdm2_f_oooo_aabb (Plain (Einsum [(T 10,[0;1;2;3])] [0;1;2;3]));
  (*4234*) AddTo n_rdm2_f_oooo_bbaa (Plain (Einsum [(T 10,[0;1;2;3])] [2;3;0;1]));
  (*4235*) Del (T 10);
  (*4236*) Assign (T 11) (Plain (Zeros [4;6;6;5]));
  (*4237*) AddTo (T 11) (Plain (Einsum [(n_t1'bb,[0;1]); (n_l2'abab,[2;1;3;4])] [3;4;0;2]));
  (*4238*) Assign (T 12) (Plain (Zeros [4;4;6;6]));
  (*4239*) AddTo (T 12) (Plain (Einsum [(n_t1'aa,[0;1]); (T 11,[2;3;4;1])] [2;0;3;4]));
  (*4240*) AddTo (T 80) (Plain (Einsum [(T 12,[0;1;2;3])] [0;1;2;3]));
  (*4241*) Assign (T 81) (Plain (Zeros [4;4;6;7]));
  (*4242*) AddTo (T 81) (Plain (Einsum [(n_t1'bb,[0;1]); (T 80,[2;3;0;4])] [2;3;4;1]));
  (*4243*) AddTo n_rdm2_f_oovo_aabb (Plain (Einsum [(T 81,[0;1;2;3])] [0;1;3;2]));
  (*4244*) AddTo n_rdm2_f_vooo_bbaa (Plain (Einsum [(T 81,[0;1;2;3])] [3;2;0;1]));
  (*4245*) Del (T 81);
  (*4246*) Assign (T 91) (Plain (Zeros [4;6;6;5]));
  (*4247*) AddTo (T 91) (Plain (Einsum [(n_t1'aa,[0;1]); (T 80,[0;2;3;4])] [2;3;4;1]));
  (*4248*) Del (T 80);
  (*4249*) Assign n_rdm2_f_oovo_bbaa (Plain (Zeros [6;6;5;4]));
  (*4250*) AddTo n_rdm2_f_oovo_bbaa (Plain (Einsum [(T 91,[0;1;2;3])] [1;2;3;0]));
  (*4251*) Assign n_rdm2_f_vooo_aabb (Plain (Zeros [5;4;6;6]));
  (*4252*) AddTo n_rdm2_f_vooo_aabb (Plain (Einsum [(T 91,[0;1;2;3])] [3;0;1;2]));
  (*4253*) Del (T 91);
  (*4254*) AddTo (T 227) (Plain (Einsum [(T 12,[0;1;2;3])] [0;1;2;3]));
  (*4255*) Assign (T 228) (Plain (Zeros [4;6;5;7]));
  (*4256*) AddTo (T 228) (Plain (Einsum [(n_t2'abab,[0;1;2;3]); (T 227,[0;4;1;5])] [4;5;2;3]));
  (*4257*) Del (T 227);
  (*4258*) AddTo n_rdm2_f_vovo_bbaa (Plain (Einsum [(T 228,[0;1;2;3])] [3;1;2;0]));
  (*4259*) AddTo n_rdm2_f_vovo_aabb (Plain (Einsum [(T 228,[0;1;2;3])] [2;0;3;1]));
  (*4260*) Del (T 228);
  (*4261*) AddTo (T 233) (Times (Einsum [(T 12,[0;1;2;3])] [0;1;2;3]) (9999999999999993) 10000000000000000);
  (*4262*) Assign (T 234) (Plain (Zeros [4;4;6;7]));
  (*4263*) AddTo (T 234) (Plain (Einsum [(n_t1'bb,[0;1]); (T 233,[2;3;0;4])] [2;3;4;1]));
  (*4264*) Del (T 233);
  (*4265*) AddTo (T 235) (Plain (Einsum [(T 234,[0;1;2;3])] [0;1;2;3]));
  (*4266*) Del (T 234);
  (*4267*) AddTo n_rdm2_f_oooo_aabb (Plain (Einsum [(T 12,[0;1;2;3])] [0;1;2;3]));
  (*4268*) AddTo n_rdm2_f_oooo_bbaa (Plain (Einsum [(T 12,[0;1;2;3])] [2;3;0;1]));
  (*4269*) Del (T 12);
  (*4270*) Assign (T 64) (Plain (Zeros [6;6;6;7]));
  (*4271*) AddTo (T 64) (Plain (Einsum [(n_t2'abab,[0;1;2;3]); (T 11,[0;4;5;2])] [4;5;1;3]));
  (*4272*) Assign (T 73) (Plain (Zeros [6;6;6;7]));
  (*4273*) AddTo (T 73) (Times (Einsum [(T 64,[0;1;2;3])] [0;1;2;3]) (-1) 1);
  (*4274*) Assign (T 100) (Plain (Zeros [6;6;6;7]));
  (*4275*) AddTo (T 100) (Times (Einsum [(T 64,[0;1;2;3])] [0;1;2;3]) (-1) 1);
  (*4276*) Assign (T 191) (Plain (Zeros [6;6;6;7]));
  (*4277*) SubFrom (T 191) (Plain (Einsum [(T 64,[0;1;2;3])] [0;1;2;3]));
  (*4278*) Del (T 64);
  (*4279*) Assign (T 69) (Plain (Zeros [6;7]));
  (*4280*) AddTo (T 69) (Plain (Einsum [(n_t2'abab,[0;1;2;3]); (T 11,[0;1;4;2])] [4;3]));
  (*4281*) Assign (T 72) (Plain (Zeros [6;7]));
  (*4282*) AddTo (T 72) (Plain (Einsum [(T 69,[0;1])] [0;1]));
  (*4283*) Assign (T 85) (Plain (Zeros [6;7]));
  (*4284*) AddTo (T 85) (Plain (Einsum [(T 69,[0;1])] [0;1]));
  (*4285*) Assign (T 98) (Plain (Zeros [6;7]));
  (*4286*) AddTo (T 98) (Plain (Einsum [(T 69,[0;1])] [0;1]));
  (*4287*) Assign (T 247) (Plain (Zeros [6;7]));
  (*4288*) AddTo (T 247) (Plain (Einsum [(T 69,[0;1])] [0;1]));
  (*4289*) Assign (T 251) (Plain (Zeros [6;7]));
  (*4290*) AddTo (T 251) (Plain (Einsum [(T 69,[0;1])] [0;1]));
  (*4291*) Del (T 69);
  (*4292*) Assign (T 76) (Plain (Zeros [4;4;6;7]));
  (*4293*) AddTo (T 76) (Plain (Einsum [(n_t2'abab,[0;1;2;3]); (T 11,[4;1;5;2])] [4;0;5;3]));
  (*4294*) AddTo (T 235) (Plain (Einsum [(T 76,[0;1;2;3])] [0;1;2;3]));
  (*4295*) AddTo n_rdm2_f_oovo_aabb (Plain (Einsum [(T 76,[0;1;2;3])] [0;1;3;2]));
  (*4296*) AddTo n_rdm2_f_vooo_bbaa (Plain (Einsum [(T 76,[0;1;2;3])] [3;2;0;1]));
  (*4297*) Del (T 76);
  (*4298*) Assign (T 90) (Plain (Zeros [4;6;6;5]));
  (*4299*) AddTo (T 90) (Plain (Einsum [(T 11,[0;1;2;3]); (T 6,[0;4;3;5])] [4;1;2;5]));
  (*4300*) AddTo n_rdm2_f_oovo_bbaa (Times (Einsum [(T 90,[0;1;2;3])] [1;2;3;0]) (-1) 1);
  (*4301*) AddTo n_rdm2_f_vooo_aabb (Times (Einsum [(T 90,[0;1;2;3])] [3;0;1;2]) (-1) 1);
  (*4302*) Del (T 90);
  (*4303*) Assign (T 127) (Plain (Zeros [6;6;5;5]));
  (*4304*) AddTo (T 127) (Plain (Einsum [(n_t1'aa,[0;1]); (T 11,[0;2;3;4])] [2;3;4;1]));
  (*4305*) Assign n_rdm2_f_oovv_bbaa (Plain (Zeros [6;6;5;5]));
  (*4306*) SubFrom n_rdm2_f_oovv_bbaa (Plain (Einsum [(T 127,[0;1;2;3])] [0;1;3;2]));
  (*4307*) Assign n_rdm2_f_vvoo_aabb (Plain (Zeros [5;5;6;6]));
  (*4308*) SubFrom n_rdm2_f_vvoo_aabb (Plain (Einsum [(T 127,[0;1;2;3])] [3;2;0;1]));
  (*4309*) Del (T 127);
  (*4310*) Assign (T 133) (Plain (Zeros [4;6;5;7]));
  (*4311*) AddTo (T 133) (Plain (Einsum [(n_t1'bb,[0;1]); (T 11,[2;0;3;4])] [2;3;4;1]));
  (*4312*) Assign (T 287) (Plain (Zeros [4;6;5;7]));
  (*4313*) AddTo (T 287) (Plain (Einsum [(T 133,[0;1;2;3])] [0;1;2;3]));
  (*4314*) Assign n_rdm2_f_ovvo_aabb (Plain (Zeros [4;5;7;6]));
  (*4315*) SubFrom n_rdm2_f_ovvo_aabb (Plain (Einsum [(T 133,[0;1;2;3])] [0;2;3;1]));
  (*4316*) Assign n_rdm2_f_voov_bbaa (Plain (Zeros [7;6;4;5]));
  (*4317*) SubFrom n_rdm2_f_voov_bbaa (Plain (Einsum [(T 133,[0;1;2;3])] [3;1;0;2]));
  (*4318*) Del (T 133);
  (*4319*) Assign (T 281) (Plain (Zeros [6;5;5;7]));
  (*4320*) AddTo (T 281) (Plain (Einsum [(n_t2'abab,[0;1;2;3]); (T 11,[0;1;4;5])] [4;5;2;3]));
  (*4321*) Assign n_rdm2_f_vovv_bbaa (Plain (Zeros [7;6;5;5]));
  (*4322*) AddTo n_rdm2_f_vovv_bbaa (Times (Einsum [(T 281,[0;1;2;3])] [3;0;2;1]) (-1) 1);
  (*4323*) Assign n_rdm2_f_vvvo_aabb (Plain (Zeros [5;5;7;6]));
  (*4324*) AddTo n_rdm2_f_vvvo_aabb (Times (Einsum [(T 281,[0;1;2;3])] [2;1;3;0]) (-1) 1);
  (*4325*) Del (T 281);
  (*4326*) Assign n_rdm2_f_ooov_bbaa (Plain (Zeros [6;6;4;5]));
  (*4327*) SubFrom n_rdm2_f_ooov_bbaa (Plain (Einsum [(T 11,[0;1;2;3])] [1;2;0;3]));
  (*4328*) Assign n_rdm2_f_ovoo_aabb (Plain (Zeros [4;5;6;6]));
  (*4329*) SubFrom n_rdm2_f_ovoo_aabb (Plain (Einsum [(T 11,[0;1;2;3])] [0;3;1;2]));
  (*4330*) Assign (T 13) (Plain (Zeros [6;6]));
  (*4331*) AddTo (T 13) (Plain (Einsum [(n_l1'bb,[0;1]); (n_t1'bb,[2;0])] [1;2]));
  (*4332*) Assign (T 18) (Plain (Zeros [6;6]));
  (*4333*) AddTo (T 18) (Plain (Einsum [(T 13,[0;1])] [1;0]));
  (*4334*) Assign (T 52) (Plain (Zeros [6;7]));
  (*4335*) AddTo (T 52) (Plain (Einsum [(n_t1'bb,[0;1]); (T 13,[0;2])] [2;1]));
  (*4336*) Assign (T 74) (Plain (Zeros [6;7]));
  (*4337*) SubFrom (T 74) (Plain (Einsum [(T 52,[0;1])] [0;1]));
  (*4338*) Assign n_rdm2_f_oovo_bbbb (Plain (Zeros [6;6;7;6]));
  (*4339*) AddTo n_rdm2_f_oovo_bbbb (Plain (Einsum [(n_delta_oo'bb,[0;1]); (T 52,[2;3])] [0;2;3;1]));
  (*4340*) Assign n_rdm2_f_vooo_bbbb (Plain (Zeros [7;6;6;6]));
  (*4341*) SubFrom n_rdm2_f_vooo_bbbb (Plain (Einsum [(n_delta_oo'bb,[0;1]); (T 52,[2;3])] [3;2;1;0]));
  (*4342*) Del (T 52);
  (*4343*) Assign (T 62) (Plain (Zeros [6;6]));
  (*4344*) AddTo (T 62) (Plain (Einsum [(T 13,[0;1])] [0;1]));
  (*4345*) Assign (T 83) (Plain (Zeros [6;6]));
  (*4346*) AddTo (T 83) (Plain (Einsum [(T 13,[0;1])] [0;1]));
  (*4347*) Assign (T 183) (Plain (Zeros [6;6;7;7]));
  (*4348*) AddTo (T 183) (Plain (Einsum [(T 13,[0;1]); (n_t2'bbbb,[2;0;3;4])] [1;2;3;4]));
  (*4349*) Assign (T 200) (Plain (Zeros [6;6;7;7]));
  (*4350*) AddTo (T 200) (Plain (Einsum [(T 183,[0;1;2;3])] [0;1;2;3]));
  (*4351*) Del (T 183);
  (*4352*) Assign (T 246) (Plain (Zeros [6;6]));
  (*4353*) AddTo (T 246) (Plain (Einsum [(T 13,[0;1])] [0;1]));
  (*4354*) Assign n_rdm2_f_oooo_bbbb (Plain (Zeros [6;6;6;6]));
  (*4355*) SubFrom n_rdm2_f_oooo_bbbb (Plain (Einsum [(n_delta_oo'bb,[0;1]); (T 13,[2;3])] [1;0;2;3]));
  (*4356*) AddTo n_rdm2_f_oooo_bbbb (Plain (Einsum [(n_delta_oo'bb,[0;1]); (T 13,[2;3])] [2;0;1;3]));
  (*4357*) AddTo n_rdm2_f_oooo_bbbb (Plain (Einsum [(n_delta_oo'bb,[0;1]); (T 13,[2;3])] [1;3;2;0]));
  (*4358*) SubFrom n_rdm2_f_oooo_bbbb (Plain (Einsum [(n_delta_oo'bb,[0;1]); (T 13,[2;3])] [2;3;1;0]));
  (*4359*) Del (T 13);
  (*4360*) Assign (T 14) (Plain (Zeros [6;6]));
  (*4361*) AddTo (T 14) (Plain (Einsum [(n_lu11'bb,[0;1;2]); (n_u11'bb,[0;3;1])] [2;3]));
  (*4362*) AddTo (T 18) (Plain (Einsum [(T 14,[0;1])] [1;0]));
  (*4363*) Assign (T 58) (Plain (Zeros [6;7]));
  (*4364*) AddTo (T 58) (Plain (Einsum [(n_t1'bb,[0;1]); (T 14,[0;2])] [2;1]));
  (*4365*) Assign (T 61) (Plain (Zeros [6;7]));
  (*4366*) AddTo (T 61) (Plain (Einsum [(T 58,[0;1])] [0;1]));
  (*4367*) Del (T 58);
  (*4368*) AddTo (T 62) (Plain (Einsum [(T 14,[0;1])] [0;1]));
  (*4369*) Assign (T 63) (Plain (Zeros [6;6;6;7]));
  (*4370*) AddTo (T 63) (Plain (Einsum [(n_t1'bb,[0;1]); (T 62,[2;3])] [2;0;3;1]));
  (*4371*) Assign (T 99) (Plain (Zeros [6;6;6;7]));
  (*4372*) AddTo (T 99) (Plain (Einsum [(n_t1'bb,[0;1]); (T 62,[2;3])] [2;0;3;1]));
  (*4373*) Assign (T 218) (Plain (Zeros [6;7]));
  (*4374*) AddTo (T 218) (Plain (Einsum [(n_t1'bb,[0;1]); (T 62,[0;2])] [2;1]));
  (*4375*) Del (T 62);
  (*4376*) Assign (T 219) (Plain (Zeros [6;7]));
  (*4377*) AddTo (T 219) (Plain (Einsum [(T 218,[0;1])] [0;1]));
  (*4378*) Assign (T 220) (Plain (Zeros [6;7]));
  (*4379*) AddTo (T 220) (Plain (Einsum [(T 218,[0;1])] [0;1]));
  (*4380*) Del (T 218);
  (*4381*) AddTo (T 83) (Plain (Einsum [(T 14,[0;1])] [0;1]));
  (*4382*) Assign (T 185) (Plain (Zeros [6;6;7;7]));
  (*4383*) AddTo (T 185) (Plain (Einsum [(T 14,[0;1]); (n_t2'bbbb,[2;0;3;4])] [2;1;3;4]));
  (*4384*) SubFrom (T 200) (Plain (Einsum [(T 185,[0;1;2;3])] [0;1;2;3]));
  (*4385*) Del (T 185);
  (*4386*) AddTo (T 246) (Plain (Einsum [(T 14,[0;1])] [0;1]));
  (*4387*) SubFrom n_rdm2_f_oooo_bbbb (Plain (Einsum [(n_delta_oo'bb,[0;1]); (T 14,[2;3])] [0;1;2;3]));
  (*4388*) AddTo n_rdm2_f_oooo_bbbb (Plain (Einsum [(n_delta_oo'bb,[0;1]); (T 14,[2;3])] [0;3;2;1]));
  (*4389*) AddTo n_rdm2_f_oooo_bbbb (Plain (Einsum [(n_delta_oo'bb,[0;1]); (T 14,[2;3])] [2;0;1;3]));
  (*4390*) SubFrom n_rdm2_f_oooo_bbbb (Plain (Einsum [(n_delta_oo'bb,[0;1]); (T 14,[2;3])] [2;3;1;0]));
  (*4391*) Del (T 14);
  (*4392*) Assign (T 15) (Plain (Zeros [6;6]));
  (*4393*) AddTo (T 15) (Plain (Einsum [(n_l2'abab,[0;1;2;3]); (n_t2'abab,[2;4;0;1])] [3;4]));
  (*4394*) AddTo (T 18) (Plain (Einsum [(T 15,[0;1])] [1;0]));
  (*4395*) Assign (T 23) (Plain (Zeros [6;6]));
  (*4396*) AddTo (T 23) (Plain (Einsum [(T 15,[0;1])] [0;1]));
  (*4397*) AddTo (T 83) (Plain (Einsum [(T 15,[0;1])] [0;1]));
  (*4398*) Assign (T 208) (Plain (Zeros [6;6;7;7]));
  (*4399*) AddTo (T 208) (Plain (Einsum [(T 15,[0;1]); (n_t2'bbbb,[2;0;3;4])] [1;2;3;4]));
  (*4400*) Assign (T 212) (Plain (Zeros [6;6;7;7]));
  (*4401*) AddTo (T 212) (Times (Einsum [(T 208,[0;1;2;3])] [0;1;2;3]) (-1) 1);
  (*4402*) Del (T 208);
  (*4403*) AddTo (T 246) (Plain (Einsum [(T 15,[0;1])] [0;1]));
  (*4404*) Del (T 15);
  (*4405*) Assign (T 16) (Plain (Zeros [6;6;7;7]));
  (*4406*) AddTo (T 16) (Times (Einsum [(n_t2'bbbb,[0;1;2;3])] [1;0;2;3]) (-1) 1);
  (*4407*) AddTo (T 16) (Plain (Einsum [(n_t2'bbbb,[0;1;2;3])] [1;0;3;2]));
  (*4408*) Assign (T 17) (Plain (Zeros [6;6]));
  (*4409*) AddTo (T 17) (Plain (Einsum [(n_l2'bbbb,[0;1;2;3]); (T 16,[2;4;1;0])] [3;4]));
  (*4410*) AddTo (T 18) (Times (Einsum [(T 17,[0;1])] [1;0]) (-1) 1);
  (*4411*) AddTo (T 23) (Times (Einsum [(T 17,[0;1])] [0;1]) (-1) 1);
  (*4412*) Assign (T 71) (Plain (Zeros [6;7]));
  (*4413*) AddTo (T 71) (Plain (Einsum [(n_t1'bb,[0;1]); (T 23,[0;2])] [2;1]));
  (*4414*) AddTo (T 72) (Plain (Einsum [(T 71,[0;1])] [0;1]));
  (*4415*) Del (T 71);
  (*4416*) AddTo (T 73) (Plain (Einsum [(n_t1'bb,[0;1]); (T 23,[2;3])] [2;0;3;1]));
  (*4417*) AddTo (T 100) (Plain (Einsum [(n_t1'bb,[0;1]); (T 23,[2;3])] [2;0;3;1]));
  (*4418*) AddTo n_rdm2_f_oooo_bbbb (Times (Einsum [(n_delta_oo'bb,[0;1]); (T 23,[2;3])] [1;0;2;3]) (-1) 1);
  (*4419*) AddTo n_rdm2_f_oooo_bbbb (Plain (Einsum [(n_delta_oo'bb,[0;1]); (T 23,[2;3])] [1;3;2;0]));
  (*4420*) AddTo n_rdm2_f_oooo_bbbb (Plain (Einsum [(n_delta_oo'bb,[0;1]); (T 23,[2;3])] [2;1;0;3]));
  (*4421*) AddTo n_rdm2_f_oooo_bbbb (Times (Einsum [(n_delta_oo'bb,[0;1]); (T 23,[2;3])] [2;3;0;1]) (-1) 1);
  (*4422*) Del (T 23);
  (*4423*) AddTo (T 83) (Times (Einsum [(T 17,[0;1])] [0;1]) (-1) 1);
  (*4424*) Assign (T 84) (Plain (Zeros [6;7]));
  (*4425*) AddTo (T 84) (Plain (Einsum [(n_t1'bb,[0;1]); (T 83,[0;2])] [2;1]));
  (*4426*) AddTo (T 85) (Plain (Einsum [(T 84,[0;1])] [0;1]));
  (*4427*) AddTo (T 98) (Plain (Einsum [(T 84,[0;1])] [0;1]));
  (*4428*) Del (T 84);
  (*4429*) Assign (T 242) (Plain (Zeros [4;6;5;7]));
  (*4430*) AddTo (T 242) (Plain (Einsum [(T 83,[0;1]); (n_t2'abab,[2;0;3;4])] [2;1;3;4]));
  (*4431*) AddTo n_rdm2_f_vovo_bbaa (Times (Einsum [(T 242,[0;1;2;3])] [3;1;2;0]) (-1) 1);
  (*4432*) AddTo n_rdm2_f_vovo_aabb (Times (Einsum [(T 242,[0;1;2;3])] [2;0;3;1]) (-1) 1);
  (*4433*) Del (T 242);
  (*4434*) AddTo n_rdm2_f_oovo_bbaa (Times (Einsum [(n_t1'aa,[0;1]); (T 83,[2;3])] [2;3;1;0]) (-1) 1);
  (*4435*) AddTo n_rdm2_f_vooo_aabb (Times (Einsum [(n_t1'aa,[0;1]); (T 83,[2;3])] [1;0;2;3]) (-1) 1);
  (*4436*) Del (T 83);
  (*4437*) Assign (T 211) (Plain (Zeros [6;6;7;7]));
  (*4438*) AddTo (T 211) (Times (Einsum [(T 17,[0;1]); (n_t2'bbbb,[0;2;3;4])] [2;1;3;4]) (-1) 1);
  (*4439*) Del (T 17);
  (*4440*) AddTo (T 212) (Plain (Einsum [(T 211,[0;1;2;3])] [0;1;3;2]));
  (*4441*) Del (T 211);
  (*4442*) Assign (T 82) (Plain (Zeros [6;7]));
  (*4443*) AddTo (T 82) (Plain (Einsum [(n_l1'bb,[0;1]); (T 16,[1;2;0;3])] [2;3]));
  (*4444*) AddTo (T 85) (Times (Einsum [(T 82,[0;1])] [0;1]) (-1) 1);
  (*4445*) AddTo (T 98) (Times (Einsum [(T 82,[0;1])] [0;1]) (-1) 1);
  (*4446*) AddTo (T 247) (Times (Einsum [(T 82,[0;1])] [0;1]) (-1) 1);
  (*4447*) Del (T 82);
  (*4448*) Assign (T 245) (Plain (Zeros [6;6]));
  (*4449*) AddTo (T 245) (Plain (Einsum [(n_l2'bbbb,[0;1;2;3]); (T 16,[2;4;1;0])] [3;4]));
  (*4450*) AddTo (T 246) (Times (Einsum [(T 245,[0;1])] [0;1]) (-1) 1);
  (*4451*) Del (T 245);
  (*4452*) AddTo (T 247) (Plain (Einsum [(n_t1'bb,[0;1]); (T 246,[0;2])] [2;1]));
  (*4453*) AddTo (T 251) (Times (Einsum [(n_t1'bb,[0;1]); (T 246,[0;2])] [2;1]) (9999999999999993) 10000000000000000);
  (*4454*) Del (T 246);
  (*4455*) AddTo (T 251) (Times (Einsum [(n_l1'bb,[0;1]); (T 16,[1;2;0;3])] [2;3]) (-9999999999999993) 10000000000000000);
  (*4456*) Assign (T 286) (Plain (Zeros [4;6;5;7]));
  (*4457*) AddTo (T 286) (Plain (Einsum [(n_l2'abab,[0;1;2;3]); (T 16,[3;4;1;5])] [2;4;0;5]));
  (*4458*) AddTo (T 287) (Times (Einsum [(T 286,[0;1;2;3])] [0;1;2;3]) (-1) 1);
  (*4459*) Del (T 286);
  (*4460*) AddTo (T 18) (Times (Einsum [(n_delta_oo'bb,[0;1])] [1;0]) (-1) 1);
  (*4461*) AddTo n_rdm2_f_oooo_aabb (Times (Einsum [(n_delta_oo'aa,[0;1]); (T 18,[2;3])] [1;0;3;2]) (-1) 1);
  (*4462*) AddTo n_rdm2_f_oooo_bbaa (Times (Einsum [(n_delta_oo'aa,[0;1]); (T 18,[2;3])] [3;2;1;0]) (-1) 1);
  (*4463*) Del (T 18);
  (*4464*) Assign (T 20) (Plain (Zeros [6;6;6;6]));
  (*4465*) AddTo (T 20) (Plain (Einsum [(n_l2'bbbb,[0;1;2;3]); (n_t2'bbbb,[4;5;0;1])] [2;3;4;5]));
  (*4466*) Assign (T 67) (Plain (Zeros [6;6;6;6]));
  (*4467*) AddTo (T 67) (Plain (Einsum [(T 20,[0;1;2;3])] [1;0;3;2]));
  (*4468*) Assign (T 213) (Plain (Zeros [6;6;6;7]));
  (*4469*) AddTo (T 213) (Plain (Einsum [(n_t1'bb,[0;1]); (T 20,[2;0;3;4])] [2;3;4;1]));
  (*4470*) Assign (T 214) (Plain (Zeros [6;6;7;7]));
  (*4471*) AddTo (T 214) (Plain (Einsum [(n_t1'bb,[0;1]); (T 213,[0;2;3;4])] [3;2;4;1]));
  (*4472*) Del (T 213);
  (*4473*) Assign (T 217) (Plain (Zeros [6;6;7;7]));
  (*4474*) AddTo (T 217) (Plain (Einsum [(T 214,[0;1;2;3])] [0;1;2;3]));
  (*4475*) Del (T 214);
  (*4476*) Assign (T 215) (Plain (Zeros [6;6;6;6]));
  (*4477*) AddTo (T 215) (Plain (Einsum [(T 20,[0;1;2;3])] [1;0;3;2]));
  (*4478*) AddTo n_rdm2_f_oooo_bbbb (Times (Einsum [(T 20,[0;1;2;3])] [1;2;0;3]) (-1) 1);
  (*4479*) AddTo n_rdm2_f_oooo_bbbb (Plain (Einsum [(T 20,[0;1;2;3])] [1;3;0;2]));
  (*4480*) Del (T 20);
  (*4481*) Assign (T 21) (Plain (Zeros [6;6;6;7]));
  (*4482*) AddTo (T 21) (Plain (Einsum [(n_t1'bb,[0;1]); (n_l2'bbbb,[2;1;3;4])] [3;4;0;2]));
  (*4483*) Assign (T 22) (Plain (Zeros [6;6;6;6]));
  (*4484*) AddTo (T 22) (Plain (Einsum [(n_t1'bb,[0;1]); (T 21,[2;3;4;1])] [3;2;4;0]));
  (*4485*) AddTo (T 67) (Plain (Einsum [(T 22,[0;1;2;3])] [0;1;2;3]));
  (*4486*) Assign (T 68) (Plain (Zeros [6;6;6;7]));
  (*4487*) AddTo (T 68) (Plain (Einsum [(n_t1'bb,[0;1]); (T 67,[0;2;3;4])] [2;3;4;1]));
  (*4488*) Del (T 67);
  (*4489*) AddTo (T 73) (Plain (Einsum [(T 68,[0;1;2;3])] [0;2;1;3]));
  (*4490*) AddTo (T 100) (Plain (Einsum [(T 68,[0;1;2;3])] [0;2;1;3]));
  (*4491*) Del (T 68);
  (*4492*) Assign (T 202) (Plain (Zeros [6;6;6;7]));
  (*4493*) AddTo (T 202) (Plain (Einsum [(n_t1'bb,[0;1]); (T 22,[0;2;3;4])] [2;4;3;1]));
  (*4494*) Assign (T 203) (Plain (Zeros [6;6;7;7]));
  (*4495*) AddTo (T 203) (Plain (Einsum [(n_t1'bb,[0;1]); (T 202,[0;2;3;4])] [2;3;1;4]));
  (*4496*) Del (T 202);
  (*4497*) Assign (T 207) (Plain (Zeros [6;6;7;7]));
  (*4498*) AddTo (T 207) (Plain (Einsum [(T 203,[0;1;2;3])] [0;1;2;3]));
  (*4499*) Del (T 203);
  (*4500*) AddTo (T 215) (Plain (Einsum [(T 22,[0;1;2;3])] [0;1;2;3]));
  (*4501*) Assign (T 216) (Plain (Zeros [6;6;7;7]));
  (*4502*) AddTo (T 216) (Plain (Einsum [(n_t2'bbbb,[0;1;2;3]); (T 215,[0;1;4;5])] [4;5;2;3]));
  (*4503*) Del (T 215);
  (*4504*) AddTo (T 217) (Plain (Einsum [(T 216,[0;1;2;3])] [1;0;3;2]));
  (*4505*) Del (T 216);
  (*4506*) Assign n_rdm2_f_vovo_bbbb (Plain (Zeros [7;6;7;6]));
  (*4507*) AddTo n_rdm2_f_vovo_bbbb (Times (Einsum [(T 217,[0;1;2;3])] [2;1;3;0]) (-1) 1);
  (*4508*) AddTo n_rdm2_f_vovo_bbbb (Plain (Einsum [(T 217,[0;1;2;3])] [3;1;2;0]));
  (*4509*) Del (T 217);
  (*4510*) AddTo n_rdm2_f_oooo_bbbb (Plain (Einsum [(T 22,[0;1;2;3])] [0;2;1;3]));
  (*4511*) AddTo n_rdm2_f_oooo_bbbb (Times (Einsum [(T 22,[0;1;2;3])] [0;3;1;2]) (-1) 1);
  (*4512*) Del (T 22);
  (*4513*) Assign (T 65) (Plain (Zeros [6;6;6;7]));
  (*4514*) AddTo (T 65) (Times (Einsum [(T 21,[0;1;2;3])] [0;1;2;3]) (-1) 1);
  (*4515*) AddTo (T 65) (Plain (Einsum [(T 21,[0;1;2;3])] [1;0;2;3]));
  (*4516*) Assign (T 66) (Plain (Zeros [6;6;6;7]));
  (*4517*) AddTo (T 66) (Plain (Einsum [(T 16,[0;1;2;3]); (T 65,[0;4;5;2])] [1;4;5;3]));
  (*4518*) AddTo (T 73) (Plain (Einsum [(T 66,[0;1;2;3])] [1;2;0;3]));
  (*4519*) AddTo (T 100) (Plain (Einsum [(T 66,[0;1;2;3])] [1;2;0;3]));
  (*4520*) Del (T 66);
  (*4521*) AddTo n_rdm2_f_vooo_bbbb (Times (Einsum [(T 100,[0;1;2;3])] [3;1;0;2]) (-1) 1);
  (*4522*) AddTo n_rdm2_f_vooo_bbbb (Plain (Einsum [(T 100,[0;1;2;3])] [3;2;0;1]));
  (*4523*) Del (T 100);
  (*4524*) Assign (T 70) (Plain (Zeros [6;7]));
  (*4525*) AddTo (T 70) (Plain (Einsum [(n_t2'bbbb,[0;1;2;3]); (T 65,[0;1;4;2])] [4;3]));
  (*4526*) AddTo (T 72) (Times (Einsum [(T 70,[0;1])] [0;1]) (-1) 1);
  (*4527*) AddTo (T 73) (Times (Einsum [(n_delta_oo'bb,[0;1]); (T 72,[2;3])] [1;0;2;3]) (-1) 1);
  (*4528*) AddTo n_rdm2_f_oovo_bbbb (Plain (Einsum [(T 73,[0;1;2;3])] [0;1;3;2]));
  (*4529*) AddTo n_rdm2_f_oovo_bbbb (Times (Einsum [(T 73,[0;1;2;3])] [0;2;3;1]) (-1) 1);
  (*4530*) Del (T 73);
  (*4531*) AddTo (T 212) (Plain (Einsum [(n_t1'bb,[0;1]); (T 72,[2;3])] [0;2;1;3]));
  (*4532*) AddTo n_rdm2_f_vooo_bbbb (Plain (Einsum [(n_delta_oo'bb,[0;1]); (T 72,[2;3])] [3;1;0;2]));
  (*4533*) AddTo n_rdm2_f_vooo_bbbb (Times (Einsum [(n_delta_oo'bb,[0;1]); (T 72,[2;3])] [3;2;0;1]) (-1) 1);
  (*4534*) Del (T 72);
  (*4535*) AddTo (T 85) (Times (Einsum [(T 70,[0;1])] [0;1]) (-1) 1);
  (*4536*) AddTo (T 98) (Times (Einsum [(T 70,[0;1])] [0;1]) (-1) 1);
  (*4537*) AddTo (T 251) (Times (Einsum [(T 70,[0;1])] [0;1]) (-1) 1);
  (*4538*) Del (T 70);
  (*4539*) Assign (T 89) (Plain (Zeros [4;6;6;5]));
  (*4540*) AddTo (T 89) (Plain (Einsum [(n_t2'abab,[0;1;2;3]); (T 65,[4;1;5;3])] [0;4;5;2]));
  (*4541*) AddTo n_rdm2_f_oovo_bbaa (Times (Einsum [(T 89,[0;1;2;3])] [1;2;3;0]) (-1) 1);
  (*4542*) AddTo n_rdm2_f_vooo_aabb (Times (Einsum [(T 89,[0;1;2;3])] [3;0;1;2]) (-1) 1);
  (*4543*) Del (T 89);
  (*4544*) AddTo (T 247) (Times (Einsum [(n_t2'bbbb,[0;1;2;3]); (T 65,[0;1;4;2])] [4;3]) (-1) 1);
  (*4545*) Del (T 65);
  (*4546*) Assign (T 118) (Plain (Zeros [6;6;6;7]));
  (*4547*) AddTo (T 118) (Plain (Einsum [(T 21,[0;1;2;3])] [0;1;2;3]));
  (*4548*) SubFrom (T 118) (Plain (Einsum [(T 21,[0;1;2;3])] [1;0;2;3]));
  (*4549*) Assign (T 119) (Plain (Zeros [6;6;7;7]));
  (*4550*) AddTo (T 119) (Plain (Einsum [(n_t1'bb,[0;1]); (T 118,[0;2;3;4])] [2;3;1;4]));
  (*4551*) Assign n_rdm2_f_oovv_bbbb (Plain (Zeros [6;6;7;7]));
  (*4552*) SubFrom n_rdm2_f_oovv_bbbb (Plain (Einsum [(T 119,[0;1;2;3])] [0;1;2;3]));
  (*4553*) Assign n_rdm2_f_vvoo_bbbb (Plain (Zeros [7;7;6;6]));
  (*4554*) SubFrom n_rdm2_f_vvoo_bbbb (Plain (Einsum [(T 119,[0;1;2;3])] [2;3;0;1]));
  (*4555*) Del (T 119);
  (*4556*) Assign (T 237) (Plain (Zeros [4;6;6;5]));
  (*4557*) AddTo (T 237) (Plain (Einsum [(n_t2'abab,[0;1;2;3]); (T 118,[4;1;5;3])] [0;4;5;2]));
  (*4558*) Del (T 118);
  (*4559*) Assign (T 239) (Plain (Zeros [4;6;6;5]));
  (*4560*) SubFrom (T 239) (Plain (Einsum [(T 237,[0;1;2;3])] [0;1;2;3]));
  (*4561*) Del (T 237);
  (*4562*) Assign (T 142) (Plain (Zeros [6;6;6;7]));
  (*4563*) SubFrom (T 142) (Plain (Einsum [(T 21,[0;1;2;3])] [0;1;2;3]));
  (*4564*) AddTo (T 142) (Plain (Einsum [(T 21,[0;1;2;3])] [1;0;2;3]));
  (*4565*) Assign (T 143) (Plain (Zeros [6;6;7;7]));
  (*4566*) AddTo (T 143) (Plain (Einsum [(n_t1'bb,[0;1]); (T 142,[0;2;3;4])] [2;3;1;4]));
  (*4567*) Assign n_rdm2_f_ovvo_bbbb (Plain (Zeros [6;7;7;6]));
  (*4568*) SubFrom n_rdm2_f_ovvo_bbbb (Plain (Einsum [(T 143,[0;1;2;3])] [0;3;2;1]));
  (*4569*) Assign n_rdm2_f_voov_bbbb (Plain (Zeros [7;6;6;7]));
  (*4570*) SubFrom n_rdm2_f_voov_bbbb (Plain (Einsum [(T 143,[0;1;2;3])] [2;1;0;3]));
  (*4571*) Del (T 143);
  (*4572*) Assign (T 268) (Plain (Zeros [6;7;7;7]));
  (*4573*) AddTo (T 268) (Plain (Einsum [(n_t2'bbbb,[0;1;2;3]); (T 21,[1;0;4;5])] [4;5;3;2]));
  (*4574*) Assign (T 275) (Plain (Zeros [6;7;7;7]));
  (*4575*) AddTo (T 275) (Plain (Einsum [(T 268,[0;1;2;3])] [0;1;2;3]));
  (*4576*) Del (T 268);
  (*4577*) Assign (T 269) (Plain (Zeros [6;6;7;7]));
  (*4578*) AddTo (T 269) (Plain (Einsum [(n_t1'bb,[0;1]); (T 21,[2;0;3;4])] [2;3;4;1]));
  (*4579*) Assign (T 272) (Plain (Zeros [6;6;7;7]));
  (*4580*) AddTo (T 272) (Times (Einsum [(T 269,[0;1;2;3])] [0;1;2;3]) (-1) 1);
  (*4581*) Del (T 269);
  (*4582*) Assign n_rdm2_f_ooov_bbbb (Plain (Zeros [6;6;6;7]));
  (*4583*) AddTo n_rdm2_f_ooov_bbbb (Plain (Einsum [(T 21,[0;1;2;3])] [0;2;1;3]));
  (*4584*) SubFrom n_rdm2_f_ooov_bbbb (Plain (Einsum [(T 21,[0;1;2;3])] [1;2;0;3]));
  (*4585*) Assign n_rdm2_f_ovoo_bbbb (Plain (Zeros [6;7;6;6]));
  (*4586*) SubFrom n_rdm2_f_ovoo_bbbb (Plain (Einsum [(T 21,[0;1;2;3])] [0;3;1;2]));
  (*4587*) AddTo n_rdm2_f_ovoo_bbbb (Plain (Einsum [(T 21,[0;1;2;3])] [1;3;0;2]));
  (*4588*) Del (T 21);
  (*4589*) Assign (T 24) (Plain (Zeros [4;4;6;7]));
  (*4590*) AddTo (T 24) (Plain (Einsum [(n_t1'aa,[0;1]); (n_l2'abab,[1;2;3;4])] [3;0;4;2]));
  (*4591*) Assign (T 36) (Plain (Zeros [4;4;4;5]));
  (*4592*) AddTo (T 36) (Plain (Einsum [(n_t2'abab,[0;1;2;3]); (T 24,[4;5;1;3])] [4;5;0;2]));
  (*4593*) AddTo (T 47) (Times (Einsum [(T 36,[0;1;2;3])] [0;1;2;3]) (-1) 1);
  (*4594*) AddTo (T 96) (Times (Einsum [(T 36,[0;1;2;3])] [0;1;2;3]) (-1) 1);
  (*4595*) Assign (T 153) (Plain (Zeros [4;4;4;5]));
  (*4596*) SubFrom (T 153) (Plain (Einsum [(T 36,[0;1;2;3])] [0;1;2;3]));
  (*4597*) Del (T 36);
  (*4598*) Assign (T 42) (Plain (Zeros [4;5]));
  (*4599*) AddTo (T 42) (Plain (Einsum [(n_t2'abab,[0;1;2;3]); (T 24,[0;4;1;3])] [4;2]));
  (*4600*) AddTo (T 46) (Plain (Einsum [(T 42,[0;1])] [0;1]));
  (*4601*) AddTo (T 47) (Times (Einsum [(n_delta_oo'aa,[0;1]); (T 46,[2;3])] [1;0;2;3]) (-1) 1);
  (*4602*) AddTo (T 174) (Plain (Einsum [(n_t1'aa,[0;1]); (T 46,[2;3])] [0;2;1;3]));
  (*4603*) Assign n_rdm2_f_vooo_aaaa (Plain (Zeros [5;4;4;4]));
  (*4604*) AddTo n_rdm2_f_vooo_aaaa (Plain (Einsum [(n_delta_oo'aa,[0;1]); (T 46,[2;3])] [3;1;0;2]));
  (*4605*) AddTo n_rdm2_f_vooo_aaaa (Times (Einsum [(n_delta_oo'aa,[0;1]); (T 46,[2;3])] [3;2;0;1]) (-1) 1);
  (*4606*) Del (T 46);
  (*4607*) AddTo (T 94) (Plain (Einsum [(T 42,[0;1])] [0;1]));
  (*4608*) AddTo (T 250) (Plain (Einsum [(T 42,[0;1])] [0;1]));
  (*4609*) AddTo (T 252) (Plain (Einsum [(T 42,[0;1])] [0;1]));
  (*4610*) Del (T 42);
  (*4611*) Assign (T 79) (Plain (Zeros [4;4;6;7]));
  (*4612*) AddTo (T 79) (Plain (Einsum [(T 16,[0;1;2;3]); (T 24,[4;5;0;2])] [4;5;1;3]));
  (*4613*) Del (T 16);
  (*4614*) AddTo (T 235) (Times (Einsum [(T 79,[0;1;2;3])] [0;1;2;3]) (-1) 1);
  (*4615*) AddTo n_rdm2_f_oovo_aabb (Times (Einsum [(T 79,[0;1;2;3])] [0;1;3;2]) (-1) 1);
  (*4616*) AddTo n_rdm2_f_vooo_bbaa (Times (Einsum [(T 79,[0;1;2;3])] [3;2;0;1]) (-1) 1);
  (*4617*) Del (T 79);
  (*4618*) Assign (T 86) (Plain (Zeros [4;6;6;5]));
  (*4619*) AddTo (T 86) (Plain (Einsum [(n_t2'abab,[0;1;2;3]); (T 24,[0;4;5;3])] [4;5;1;2]));
  (*4620*) SubFrom (T 239) (Plain (Einsum [(T 86,[0;1;2;3])] [0;1;2;3]));
  (*4621*) AddTo n_rdm2_f_oovo_bbaa (Plain (Einsum [(T 86,[0;1;2;3])] [1;2;3;0]));
  (*4622*) AddTo n_rdm2_f_vooo_aabb (Plain (Einsum [(T 86,[0;1;2;3])] [3;0;1;2]));
  (*4623*) Del (T 86);
  (*4624*) Assign (T 129) (Plain (Zeros [4;4;7;7]));
  (*4625*) AddTo (T 129) (Plain (Einsum [(n_t1'bb,[0;1]); (T 24,[2;3;0;4])] [2;3;4;1]));
  (*4626*) Assign n_rdm2_f_oovv_aabb (Plain (Zeros [4;4;7;7]));
  (*4627*) SubFrom n_rdm2_f_oovv_aabb (Plain (Einsum [(T 129,[0;1;2;3])] [0;1;3;2]));
  (*4628*) Assign n_rdm2_f_vvoo_bbaa (Plain (Zeros [7;7;4;4]));
  (*4629*) SubFrom n_rdm2_f_vvoo_bbaa (Plain (Einsum [(T 129,[0;1;2;3])] [3;2;0;1]));
  (*4630*) Del (T 129);
  (*4631*) Assign (T 137) (Plain (Zeros [4;6;5;7]));
  (*4632*) AddTo (T 137) (Plain (Einsum [(n_t1'aa,[0;1]); (T 24,[0;2;3;4])] [2;3;1;4]));
  (*4633*) AddTo (T 295) (Plain (Einsum [(T 137,[0;1;2;3])] [0;1;2;3]));
  (*4634*) Assign n_rdm2_f_ovvo_bbaa (Plain (Zeros [6;7;5;4]));
  (*4635*) SubFrom n_rdm2_f_ovvo_bbaa (Plain (Einsum [(T 137,[0;1;2;3])] [1;3;2;0]));
  (*4636*) Assign n_rdm2_f_voov_aabb (Plain (Zeros [5;4;6;7]));
  (*4637*) SubFrom n_rdm2_f_voov_aabb (Plain (Einsum [(T 137,[0;1;2;3])] [2;0;1;3]));
  (*4638*) Del (T 137);
  (*4639*) Assign (T 291) (Plain (Zeros [4;5;7;7]));
  (*4640*) AddTo (T 291) (Plain (Einsum [(n_t2'abab,[0;1;2;3]); (T 24,[0;4;1;5])] [4;2;5;3]));
  (*4641*) Assign n_rdm2_f_vovv_aabb (Plain (Zeros [5;4;7;7]));
  (*4642*) AddTo n_rdm2_f_vovv_aabb (Times (Einsum [(T 291,[0;1;2;3])] [1;0;3;2]) (-1) 1);
  (*4643*) Assign n_rdm2_f_vvvo_bbaa (Plain (Zeros [7;7;5;4]));
  (*4644*) AddTo n_rdm2_f_vvvo_bbaa (Times (Einsum [(T 291,[0;1;2;3])] [3;2;1;0]) (-1) 1);
  (*4645*) Del (T 291);
  (*4646*) Assign n_rdm2_f_ooov_aabb (Plain (Zeros [4;4;6;7]));
  (*4647*) SubFrom n_rdm2_f_ooov_aabb (Plain (Einsum [(T 24,[0;1;2;3])] [0;1;2;3]));
  (*4648*) Assign n_rdm2_f_ovoo_bbaa (Plain (Zeros [6;7;4;4]));
  (*4649*) SubFrom n_rdm2_f_ovoo_bbaa (Plain (Einsum [(T 24,[0;1;2;3])] [2;3;0;1]));
  (*4650*) Del (T 24);
  (*4651*) Assign (T 25) (Plain (Zeros [4;4;4;5]));
  (*4652*) AddTo (T 25) (Plain (Einsum [(n_l1'aa,[0;1]); (n_t2'aaaa,[2;3;0;4])] [1;3;2;4]));
  (*4653*) AddTo (T 35) (Plain (Einsum [(T 25,[0;1;2;3])] [0;1;2;3]));
  (*4654*) AddTo (T 95) (Plain (Einsum [(T 25,[0;1;2;3])] [0;1;2;3]));
  (*4655*) AddTo (T 153) (Plain (Einsum [(T 25,[0;1;2;3])] [0;1;2;3]));
  (*4656*) Del (T 25);
  (*4657*) Assign (T 26) (Plain (Zeros [3;4;4]));
  (*4658*) AddTo (T 26) (Plain (Einsum [(n_t1'aa,[0;1]); (n_lu11'aa,[2;1;3])] [2;3;0]));
  (*4659*) Assign (T 27) (Plain (Zeros [4;4;4;5]));
  (*4660*) AddTo (T 27) (Plain (Einsum [(n_u11'aa,[0;1;2]); (T 26,[0;3;4])] [3;4;1;2]));
  (*4661*) SubFrom (T 35) (Plain (Einsum [(T 27,[0;1;2;3])] [0;1;2;3]));
  (*4662*) SubFrom (T 95) (Plain (Einsum [(T 27,[0;1;2;3])] [0;1;2;3]));
  (*4663*) Del (T 27);
  (*4664*) SubFrom n_rdm2_f_vooo_aaaa (Plain (Einsum [(T 95,[0;1;2;3])] [3;1;0;2]));
  (*4665*) AddTo n_rdm2_f_vooo_aaaa (Plain (Einsum [(T 95,[0;1;2;3])] [3;2;0;1]));
  (*4666*) Del (T 95);
  (*4667*) Assign (T 29) (Plain (Zeros [4;5]));
  (*4668*) AddTo (T 29) (Plain (Einsum [(n_u11'aa,[0;1;2]); (T 26,[0;1;3])] [3;2]));
  (*4669*) AddTo (T 33) (Plain (Einsum [(T 29,[0;1])] [0;1]));
  (*4670*) AddTo (T 94) (Plain (Einsum [(T 29,[0;1])] [0;1]));
  (*4671*) AddTo (T 181) (Plain (Einsum [(T 29,[0;1])] [0;1]));
  (*4672*) AddTo (T 182) (Plain (Einsum [(T 29,[0;1])] [0;1]));
  (*4673*) AddTo (T 250) (Times (Einsum [(T 29,[0;1])] [0;1]) (9999999999999993) 10000000000000000);
  (*4674*) AddTo (T 252) (Plain (Einsum [(T 29,[0;1])] [0;1]));
  (*4675*) Del (T 29);
  (*4676*) Assign (T 75) (Plain (Zeros [4;4;6;7]));
  (*4677*) AddTo (T 75) (Plain (Einsum [(n_u11'bb,[0;1;2]); (T 26,[0;3;4])] [3;4;1;2]));
  (*4678*) SubFrom n_rdm2_f_oovo_aabb (Plain (Einsum [(T 75,[0;1;2;3])] [0;1;3;2]));
  (*4679*) SubFrom n_rdm2_f_vooo_bbaa (Plain (Einsum [(T 75,[0;1;2;3])] [3;2;0;1]));
  (*4680*) Del (T 75);
  (*4681*) Assign (T 155) (Plain (Zeros [3;4;5]));
  (*4682*) AddTo (T 155) (Plain (Einsum [(n_t1'aa,[0;1]); (T 26,[2;0;3])] [2;3;1]));
  (*4683*) Del (T 26);
  (*4684*) Assign (T 158) (Plain (Zeros [3;4;5]));
  (*4685*) SubFrom (T 158) (Plain (Einsum [(T 155,[0;1;2])] [0;1;2]));
  (*4686*) Del (T 155);
  (*4687*) Assign (T 28) (Plain (Zeros [4;5]));
  (*4688*) AddTo (T 28) (Plain (Einsum [(n_l1'bb,[0;1]); (n_t2'abab,[2;1;3;0])] [2;3]));
  (*4689*) SubFrom (T 33) (Plain (Einsum [(T 28,[0;1])] [0;1]));
  (*4690*) AddTo (T 94) (Times (Einsum [(T 28,[0;1])] [0;1]) (-1) 1);
  (*4691*) Assign (T 161) (Plain (Zeros [4;5]));
  (*4692*) AddTo (T 161) (Plain (Einsum [(T 28,[0;1])] [0;1]));
  (*4693*) AddTo (T 250) (Times (Einsum [(T 28,[0;1])] [0;1]) (-9999999999999993) 10000000000000000);
  (*4694*) AddTo (T 252) (Times (Einsum [(T 28,[0;1])] [0;1]) (-1) 1);
  (*4695*) Del (T 28);
  (*4696*) Assign (T 31) (Plain (Zeros [4;4;5;5]));
  (*4697*) SubFrom (T 31) (Plain (Einsum [(n_t2'aaaa,[0;1;2;3])] [1;0;2;3]));
  (*4698*) AddTo (T 31) (Plain (Einsum [(n_t2'aaaa,[0;1;2;3])] [1;0;3;2]));
  (*4699*) Assign (T 32) (Plain (Zeros [4;5]));
  (*4700*) AddTo (T 32) (Plain (Einsum [(n_l1'aa,[0;1]); (T 31,[1;2;0;3])] [2;3]));
  (*4701*) SubFrom (T 33) (Plain (Einsum [(T 32,[0;1])] [0;1]));
  (*4702*) Del (T 32);
  (*4703*) SubFrom (T 35) (Plain (Einsum [(n_delta_oo'aa,[0;1]); (T 33,[2;3])] [1;0;2;3]));
  (*4704*) Assign n_rdm2_f_oovo_aaaa (Plain (Zeros [4;4;5;4]));
  (*4705*) AddTo n_rdm2_f_oovo_aaaa (Plain (Einsum [(T 35,[0;1;2;3])] [0;1;3;2]));
  (*4706*) SubFrom n_rdm2_f_oovo_aaaa (Plain (Einsum [(T 35,[0;1;2;3])] [0;2;3;1]));
  (*4707*) Del (T 35);
  (*4708*) AddTo n_rdm2_f_vooo_aaaa (Plain (Einsum [(n_delta_oo'aa,[0;1]); (T 33,[2;3])] [3;1;0;2]));
  (*4709*) SubFrom n_rdm2_f_vooo_aaaa (Plain (Einsum [(n_delta_oo'aa,[0;1]); (T 33,[2;3])] [3;2;0;1]));
  (*4710*) Del (T 33);
  (*4711*) Assign (T 139) (Plain (Zeros [4;6;5;7]));
  (*4712*) AddTo (T 139) (Plain (Einsum [(n_l2'abab,[0;1;2;3]); (T 31,[2;4;5;0])] [4;3;5;1]));
  (*4713*) SubFrom n_rdm2_f_ovvo_bbaa (Plain (Einsum [(T 139,[0;1;2;3])] [1;3;2;0]));
  (*4714*) SubFrom n_rdm2_f_voov_aabb (Plain (Einsum [(T 139,[0;1;2;3])] [2;0;1;3]));
  (*4715*) Del (T 139);
  (*4716*) Assign (T 157) (Plain (Zeros [3;4;5]));
  (*4717*) AddTo (T 157) (Plain (Einsum [(n_lu11'aa,[0;1;2]); (T 31,[2;3;4;1])] [0;3;4]));
  (*4718*) SubFrom (T 158) (Plain (Einsum [(T 157,[0;1;2])] [0;1;2]));
  (*4719*) Del (T 157);
  (*4720*) Assign (T 160) (Plain (Zeros [4;5]));
  (*4721*) AddTo (T 160) (Plain (Einsum [(n_l1'aa,[0;1]); (T 31,[1;2;3;0])] [2;3]));
  (*4722*) SubFrom (T 161) (Plain (Einsum [(T 160,[0;1])] [0;1]));
  (*4723*) Del (T 160);
  (*4724*) AddTo (T 162) (Plain (Einsum [(n_t1'aa,[0;1]); (T 161,[2;3])] [0;2;1;3]));
  (*4725*) Del (T 161);
  (*4726*) Assign (T 238) (Plain (Zeros [4;6;6;5]));
  (*4727*) AddTo (T 238) (Plain (Einsum [(T 11,[0;1;2;3]); (T 31,[0;4;5;3])] [4;1;2;5]));
  (*4728*) Del (T 11);
  (*4729*) SubFrom (T 239) (Plain (Einsum [(T 238,[0;1;2;3])] [0;1;2;3]));
  (*4730*) Del (T 238);
  (*4731*) Assign (T 38) (Plain (Zeros [4;4;5;5]));
  (*4732*) AddTo (T 38) (Plain (Einsum [(n_t2'aaaa,[0;1;2;3])] [1;0;2;3]));
  (*4733*) AddTo (T 38) (Times (Einsum [(n_t2'aaaa,[0;1;2;3])] [1;0;3;2]) (-1) 1);
  (*4734*) Assign (T 39) (Plain (Zeros [4;4;4;5]));
  (*4735*) AddTo (T 39) (Plain (Einsum [(T 37,[0;1;2;3]); (T 38,[1;4;5;3])] [0;2;4;5]));
  (*4736*) Del (T 37);
  (*4737*) AddTo (T 47) (Plain (Einsum [(T 39,[0;1;2;3])] [0;1;2;3]));
  (*4738*) AddTo n_rdm2_f_oovo_aaaa (Plain (Einsum [(T 47,[0;1;2;3])] [0;1;3;2]));
  (*4739*) AddTo n_rdm2_f_oovo_aaaa (Times (Einsum [(T 47,[0;1;2;3])] [0;2;3;1]) (-1) 1);
  (*4740*) Del (T 47);
  (*4741*) AddTo (T 96) (Plain (Einsum [(T 39,[0;1;2;3])] [0;1;2;3]));
  (*4742*) Del (T 39);
  (*4743*) AddTo n_rdm2_f_vooo_aaaa (Times (Einsum [(T 96,[0;1;2;3])] [3;1;0;2]) (-1) 1);
  (*4744*) AddTo n_rdm2_f_vooo_aaaa (Plain (Einsum [(T 96,[0;1;2;3])] [3;2;0;1]));
  (*4745*) Del (T 96);
  (*4746*) AddTo (T 97) (Times (Einsum [(n_l2'aaaa,[0;1;2;3]); (T 38,[2;4;0;1])] [4;3]) (-1) 1);
  (*4747*) Del (T 38);
  (*4748*) Assign (T 48) (Plain (Zeros [4;5]));
  (*4749*) AddTo (T 48) (Plain (Einsum [(n_ls1,[0]); (n_u11'aa,[0;1;2])] [1;2]));
  (*4750*) AddTo (T 50) (Plain (Einsum [(T 48,[0;1])] [0;1]));
  (*4751*) AddTo (T 94) (Times (Einsum [(T 48,[0;1])] [0;1]) (-1) 1);
  (*4752*) SubFrom (T 181) (Plain (Einsum [(T 48,[0;1])] [0;1]));
  (*4753*) SubFrom (T 182) (Plain (Einsum [(T 48,[0;1])] [0;1]));
  (*4754*) SubFrom n_rdm2_f_vovo_aaaa (Plain (Einsum [(n_t1'aa,[0;1]); (T 182,[2;3])] [3;2;1;0]));
  (*4755*) AddTo n_rdm2_f_vovo_aaaa (Plain (Einsum [(n_t1'aa,[0;1]); (T 182,[2;3])] [1;2;3;0]));
  (*4756*) Del (T 182);
  (*4757*) AddTo (T 250) (Times (Einsum [(T 48,[0;1])] [0;1]) (-9999999999999993) 10000000000000000);
  (*4758*) AddTo n_rdm2_f_vovo_bbaa (Times (Einsum [(n_t1'bb,[0;1]); (T 250,[2;3])] [1;0;3;2]) (-1) 1);
  (*4759*) Del (T 250);
  (*4760*) AddTo (T 252) (Times (Einsum [(T 48,[0;1])] [0;1]) (-1) 1);
  (*4761*) Del (T 48);
  (*4762*) AddTo n_rdm2_f_vovo_aabb (Times (Einsum [(n_t1'bb,[0;1]); (T 252,[2;3])] [3;2;1;0]) (-1) 1);
  (*4763*) Del (T 252);
  (*4764*) AddTo (T 50) (Plain (Einsum [(n_t1'aa,[0;1])] [0;1]));
  (*4765*) AddTo n_rdm2_f_oovo_aaaa (Plain (Einsum [(n_delta_oo'aa,[0;1]); (T 50,[2;3])] [1;0;3;2]));
  (*4766*) SubFrom n_rdm2_f_oovo_aaaa (Plain (Einsum [(n_delta_oo'aa,[0;1]); (T 50,[2;3])] [1;2;3;0]));
  (*4767*) SubFrom n_rdm2_f_vooo_aaaa (Plain (Einsum [(n_delta_oo'aa,[0;1]); (T 50,[2;3])] [3;0;1;2]));
  (*4768*) AddTo n_rdm2_f_vooo_aaaa (Plain (Einsum [(n_delta_oo'aa,[0;1]); (T 50,[2;3])] [3;2;1;0]));
  (*4769*) Del (T 50);
  (*4770*) Assign (T 51) (Plain (Zeros [6;7]));
  (*4771*) AddTo (T 51) (Plain (Einsum [(n_ls1,[0]); (n_u11'bb,[0;1;2])] [1;2]));
  (*4772*) AddTo (T 74) (Plain (Einsum [(T 51,[0;1])] [0;1]));
  (*4773*) AddTo (T 85) (Times (Einsum [(T 51,[0;1])] [0;1]) (-1) 1);
  (*4774*) AddTo (T 98) (Times (Einsum [(T 51,[0;1])] [0;1]) (-1) 1);
  (*4775*) SubFrom (T 219) (Plain (Einsum [(T 51,[0;1])] [0;1]));
  (*4776*) SubFrom (T 220) (Plain (Einsum [(T 51,[0;1])] [0;1]));
  (*4777*) AddTo (T 247) (Times (Einsum [(T 51,[0;1])] [0;1]) (-1) 1);
  (*4778*) AddTo (T 251) (Times (Einsum [(T 51,[0;1])] [0;1]) (-9999999999999993) 10000000000000000);
  (*4779*) SubFrom n_rdm2_f_oovo_bbbb (Plain (Einsum [(n_delta_oo'bb,[0;1]); (T 51,[2;3])] [1;2;3;0]));
  (*4780*) AddTo n_rdm2_f_vooo_bbbb (Plain (Einsum [(n_delta_oo'bb,[0;1]); (T 51,[2;3])] [3;2;1;0]));
  (*4781*) Del (T 51);
  (*4782*) Assign (T 53) (Plain (Zeros [6;6;6;7]));
  (*4783*) AddTo (T 53) (Plain (Einsum [(n_l1'bb,[0;1]); (n_t2'bbbb,[2;3;4;0])] [1;2;3;4]));
  (*4784*) AddTo (T 63) (Plain (Einsum [(T 53,[0;1;2;3])] [0;1;2;3]));
  (*4785*) AddTo (T 99) (Plain (Einsum [(T 53,[0;1;2;3])] [0;1;2;3]));
  (*4786*) AddTo (T 191) (Plain (Einsum [(T 53,[0;1;2;3])] [0;1;2;3]));
  (*4787*) Del (T 53);
  (*4788*) Assign (T 54) (Plain (Zeros [3;6;6]));
  (*4789*) AddTo (T 54) (Plain (Einsum [(n_t1'bb,[0;1]); (n_lu11'bb,[2;1;3])] [2;3;0]));
  (*4790*) Assign (T 55) (Plain (Zeros [6;6;6;7]));
  (*4791*) AddTo (T 55) (Plain (Einsum [(n_u11'bb,[0;1;2]); (T 54,[0;3;4])] [3;4;1;2]));
  (*4792*) SubFrom (T 63) (Plain (Einsum [(T 55,[0;1;2;3])] [0;1;2;3]));
  (*4793*) SubFrom (T 99) (Plain (Einsum [(T 55,[0;1;2;3])] [0;1;2;3]));
  (*4794*) Del (T 55);
  (*4795*) SubFrom n_rdm2_f_vooo_bbbb (Plain (Einsum [(T 99,[0;1;2;3])] [3;1;0;2]));
  (*4796*) AddTo n_rdm2_f_vooo_bbbb (Plain (Einsum [(T 99,[0;1;2;3])] [3;2;0;1]));
  (*4797*) Del (T 99);
  (*4798*) Assign (T 57) (Plain (Zeros [6;7]));
  (*4799*) AddTo (T 57) (Plain (Einsum [(n_u11'bb,[0;1;2]); (T 54,[0;1;3])] [3;2]));
  (*4800*) AddTo (T 61) (Plain (Einsum [(T 57,[0;1])] [0;1]));
  (*4801*) AddTo (T 85) (Plain (Einsum [(T 57,[0;1])] [0;1]));
  (*4802*) AddTo (T 98) (Plain (Einsum [(T 57,[0;1])] [0;1]));
  (*4803*) AddTo (T 219) (Plain (Einsum [(T 57,[0;1])] [0;1]));
  (*4804*) AddTo (T 220) (Plain (Einsum [(T 57,[0;1])] [0;1]));
  (*4805*) AddTo n_rdm2_f_vovo_bbbb (Plain (Einsum [(n_t1'bb,[0;1]); (T 220,[2;3])] [3;0;1;2]));
  (*4806*) SubFrom n_rdm2_f_vovo_bbbb (Plain (Einsum [(n_t1'bb,[0;1]); (T 220,[2;3])] [1;0;3;2]));
  (*4807*) Del (T 220);
  (*4808*) AddTo (T 247) (Plain (Einsum [(T 57,[0;1])] [0;1]));
  (*4809*) AddTo (T 251) (Times (Einsum [(T 57,[0;1])] [0;1]) (9999999999999993) 10000000000000000);
  (*4810*) Del (T 57);
  (*4811*) Assign (T 88) (Plain (Zeros [4;6;6;5]));
  (*4812*) AddTo (T 88) (Plain (Einsum [(n_u11'aa,[0;1;2]); (T 54,[0;3;4])] [1;3;4;2]));
  (*4813*) SubFrom n_rdm2_f_oovo_bbaa (Plain (Einsum [(T 88,[0;1;2;3])] [1;2;3;0]));
  (*4814*) SubFrom n_rdm2_f_vooo_aabb (Plain (Einsum [(T 88,[0;1;2;3])] [3;0;1;2]));
  (*4815*) Del (T 88);
  (*4816*) Assign (T 194) (Plain (Zeros [3;6;7]));
  (*4817*) AddTo (T 194) (Plain (Einsum [(n_t1'bb,[0;1]); (T 54,[2;0;3])] [2;3;1]));
  (*4818*) Del (T 54);
  (*4819*) Assign (T 196) (Plain (Zeros [3;6;7]));
  (*4820*) SubFrom (T 196) (Plain (Einsum [(T 194,[0;1;2])] [0;1;2]));
  (*4821*) Del (T 194);
  (*4822*) Assign (T 56) (Plain (Zeros [6;7]));
  (*4823*) AddTo (T 56) (Plain (Einsum [(n_l1'aa,[0;1]); (n_t2'abab,[1;2;0;3])] [2;3]));
  (*4824*) SubFrom (T 61) (Plain (Einsum [(T 56,[0;1])] [0;1]));
  (*4825*) AddTo (T 85) (Times (Einsum [(T 56,[0;1])] [0;1]) (-1) 1);
  (*4826*) AddTo (T 98) (Times (Einsum [(T 56,[0;1])] [0;1]) (-1) 1);
  (*4827*) AddTo n_rdm2_f_vooo_bbaa (Times (Einsum [(n_delta_oo'aa,[0;1]); (T 98,[2;3])] [3;2;1;0]) (-1) 1);
  (*4828*) Del (T 98);
  (*4829*) Assign (T 199) (Plain (Zeros [6;7]));
  (*4830*) AddTo (T 199) (Plain (Einsum [(T 56,[0;1])] [0;1]));
  (*4831*) AddTo (T 247) (Times (Einsum [(T 56,[0;1])] [0;1]) (-1) 1);
  (*4832*) AddTo (T 251) (Times (Einsum [(T 56,[0;1])] [0;1]) (-9999999999999993) 10000000000000000);
  (*4833*) Del (T 56);
  (*4834*) Assign (T 59) (Plain (Zeros [6;6;7;7]));
  (*4835*) SubFrom (T 59) (Plain (Einsum [(n_t2'bbbb,[0;1;2;3])] [1;0;2;3]));
  (*4836*) AddTo (T 59) (Plain (Einsum [(n_t2'bbbb,[0;1;2;3])] [1;0;3;2]));
  (*4837*) Assign (T 60) (Plain (Zeros [6;7]));
  (*4838*) AddTo (T 60) (Plain (Einsum [(n_l1'bb,[0;1]); (T 59,[1;2;0;3])] [2;3]));
  (*4839*) SubFrom (T 61) (Plain (Einsum [(T 60,[0;1])] [0;1]));
  (*4840*) Del (T 60);
  (*4841*) SubFrom (T 63) (Plain (Einsum [(n_delta_oo'bb,[0;1]); (T 61,[2;3])] [1;0;2;3]));
  (*4842*) AddTo n_rdm2_f_oovo_bbbb (Plain (Einsum [(T 63,[0;1;2;3])] [0;1;3;2]));
  (*4843*) SubFrom n_rdm2_f_oovo_bbbb (Plain (Einsum [(T 63,[0;1;2;3])] [0;2;3;1]));
  (*4844*) Del (T 63);
  (*4845*) AddTo n_rdm2_f_vooo_bbbb (Plain (Einsum [(n_delta_oo'bb,[0;1]); (T 61,[2;3])] [3;1;0;2]));
  (*4846*) SubFrom n_rdm2_f_vooo_bbbb (Plain (Einsum [(n_delta_oo'bb,[0;1]); (T 61,[2;3])] [3;2;0;1]));
  (*4847*) Del (T 61);
  (*4848*) Assign (T 190) (Plain (Zeros [6;6;6;7]));
  (*4849*) AddTo (T 190) (Plain (Einsum [(T 142,[0;1;2;3]); (T 59,[0;4;3;5])] [4;1;2;5]));
  (*4850*) Del (T 142);
  (*4851*) AddTo (T 191) (Plain (Einsum [(T 190,[0;1;2;3])] [1;2;0;3]));
  (*4852*) Del (T 190);
  (*4853*) Assign (T 192) (Plain (Zeros [6;6;7;7]));
  (*4854*) AddTo (T 192) (Plain (Einsum [(n_t1'bb,[0;1]); (T 191,[0;2;3;4])] [2;3;1;4]));
  (*4855*) Del (T 191);
  (*4856*) AddTo (T 200) (Plain (Einsum [(T 192,[0;1;2;3])] [0;1;2;3]));
  (*4857*) Del (T 192);
  (*4858*) AddTo (T 74) (Plain (Einsum [(n_t1'bb,[0;1])] [0;1]));
  (*4859*) AddTo n_rdm2_f_oovo_bbbb (Plain (Einsum [(n_delta_oo'bb,[0;1]); (T 74,[2;3])] [1;0;3;2]));
  (*4860*) SubFrom n_rdm2_f_vooo_bbbb (Plain (Einsum [(n_delta_oo'bb,[0;1]); (T 74,[2;3])] [3;0;1;2]));
  (*4861*) Del (T 74);
  (*4862*) Assign (T 77) (Plain (Zeros [4;4;6;7]));
  (*4863*) AddTo (T 77) (Plain (Einsum [(n_l1'aa,[0;1]); (n_t2'abab,[2;3;0;4])] [1;2;3;4]));
  (*4864*) AddTo (T 235) (Times (Einsum [(T 77,[0;1;2;3])] [0;1;2;3]) (-1) 1);
  (*4865*) Assign (T 236) (Plain (Zeros [4;6;5;7]));
  (*4866*) AddTo (T 236) (Plain (Einsum [(n_t1'aa,[0;1]); (T 235,[0;2;3;4])] [2;3;1;4]));
  (*4867*) Del (T 235);
  (*4868*) AddTo n_rdm2_f_vovo_bbaa (Plain (Einsum [(T 236,[0;1;2;3])] [3;1;2;0]));
  (*4869*) AddTo n_rdm2_f_vovo_aabb (Plain (Einsum [(T 236,[0;1;2;3])] [2;0;3;1]));
  (*4870*) Del (T 236);
  (*4871*) SubFrom n_rdm2_f_oovo_aabb (Plain (Einsum [(T 77,[0;1;2;3])] [0;1;3;2]));
  (*4872*) SubFrom n_rdm2_f_vooo_bbaa (Plain (Einsum [(T 77,[0;1;2;3])] [3;2;0;1]));
  (*4873*) Del (T 77);
  (*4874*) AddTo (T 85) (Times (Einsum [(n_t1'bb,[0;1])] [0;1]) (-1) 1);
  (*4875*) AddTo n_rdm2_f_oovo_aabb (Times (Einsum [(n_delta_oo'aa,[0;1]); (T 85,[2;3])] [1;0;3;2]) (-1) 1);
  (*4876*) Del (T 85);
  (*4877*) Assign (T 87) (Plain (Zeros [4;6;6;5]));
  (*4878*) AddTo (T 87) (Plain (Einsum [(n_l1'bb,[0;1]); (n_t2'abab,[2;3;4;0])] [2;1;3;4]));
  (*4879*) AddTo (T 239) (Plain (Einsum [(T 87,[0;1;2;3])] [0;1;2;3]));
  (*4880*) Assign (T 240) (Plain (Zeros [4;6;5;7]));
  (*4881*) AddTo (T 240) (Plain (Einsum [(n_t1'bb,[0;1]); (T 239,[2;0;3;4])] [2;3;4;1]));
  (*4882*) Del (T 239);
  (*4883*) SubFrom n_rdm2_f_vovo_bbaa (Plain (Einsum [(T 240,[0;1;2;3])] [3;1;2;0]));
  (*4884*) SubFrom n_rdm2_f_vovo_aabb (Plain (Einsum [(T 240,[0;1;2;3])] [2;0;3;1]));
  (*4885*) Del (T 240);
  (*4886*) SubFrom n_rdm2_f_oovo_bbaa (Plain (Einsum [(T 87,[0;1;2;3])] [1;2;3;0]));
  (*4887*) SubFrom n_rdm2_f_vooo_aabb (Plain (Einsum [(T 87,[0;1;2;3])] [3;0;1;2]));
  (*4888*) Del (T 87);
  (*4889*) AddTo (T 94) (Times (Einsum [(n_t1'aa,[0;1])] [0;1]) (-1) 1);
  (*4890*) AddTo n_rdm2_f_oovo_bbaa (Times (Einsum [(n_delta_oo'bb,[0;1]); (T 94,[2;3])] [1;0;3;2]) (-1) 1);
  (*4891*) AddTo n_rdm2_f_vooo_aabb (Times (Einsum [(n_delta_oo'bb,[0;1]); (T 94,[2;3])] [3;2;1;0]) (-1) 1);
  (*4892*) Del (T 94);
  (*4893*) AddTo (T 97) (Times (Einsum [(n_delta_oo'aa,[0;1])] [1;0]) (-1) 1);
  (*4894*) AddTo n_rdm2_f_vooo_bbaa (Times (Einsum [(n_t1'bb,[0;1]); (T 97,[2;3])] [1;0;3;2]) (-1) 1);
  (*4895*) Del (T 97);
  (*4896*) Assign (T 101) (Plain (Zeros [4;4;5;5]));
  (*4897*) AddTo (T 101) (Plain (Einsum [(n_lu11'aa,[0;1;2]); (n_u11'aa,[0;3;4])] [2;3;1;4]));
  (*4898*) SubFrom n_rdm2_f_oovv_aaaa (Plain (Einsum [(T 101,[0;1;2;3])] [0;1;3;2]));
  (*4899*) AddTo n_rdm2_f_ovvo_aaaa (Plain (Einsum [(T 101,[0;1;2;3])] [0;2;3;1]));
  (*4900*) AddTo n_rdm2_f_voov_aaaa (Plain (Einsum [(T 101,[0;1;2;3])] [3;1;0;2]));
  (*4901*) SubFrom n_rdm2_f_vvoo_aaaa (Plain (Einsum [(T 101,[0;1;2;3])] [3;2;0;1]));
  (*4902*) Del (T 101);
  (*4903*) Assign (T 102) (Plain (Zeros [4;4;5;5]));
  (*4904*) AddTo (T 102) (Plain (Einsum [(n_l2'abab,[0;1;2;3]); (n_t2'abab,[4;3;5;1])] [2;4;0;5]));
  (*4905*) Assign (T 147) (Plain (Zeros [4;4;5;5]));
  (*4906*) AddTo (T 147) (Plain (Einsum [(n_t2'aaaa,[0;1;2;3]); (T 102,[1;4;2;5])] [0;4;3;5]));
  (*4907*) SubFrom (T 162) (Plain (Einsum [(T 147,[0;1;2;3])] [0;1;2;3]));
  (*4908*) Del (T 147);
  (*4909*) Assign (T 149) (Plain (Zeros [4;4;5;5]));
  (*4910*) AddTo (T 149) (Plain (Einsum [(T 102,[0;1;2;3])] [0;1;2;3]));
  (*4911*) AddTo (T 265) (Plain (Einsum [(T 102,[0;1;2;3])] [0;1;2;3]));
  (*4912*) SubFrom n_rdm2_f_oovv_aaaa (Plain (Einsum [(T 102,[0;1;2;3])] [0;1;3;2]));
  (*4913*) AddTo n_rdm2_f_ovvo_aaaa (Plain (Einsum [(T 102,[0;1;2;3])] [0;2;3;1]));
  (*4914*) AddTo n_rdm2_f_voov_aaaa (Plain (Einsum [(T 102,[0;1;2;3])] [3;1;0;2]));
  (*4915*) SubFrom n_rdm2_f_vvoo_aaaa (Plain (Einsum [(T 102,[0;1;2;3])] [3;2;0;1]));
  (*4916*) Del (T 102);
  (*4917*) Assign (T 103) (Plain (Zeros [4;4;5;5]));
  (*4918*) SubFrom (T 103) (Plain (Einsum [(n_l2'aaaa,[0;1;2;3])] [3;2;0;1]));
  (*4919*) AddTo (T 103) (Plain (Einsum [(n_l2'aaaa,[0;1;2;3])] [3;2;1;0]));
  (*4920*) Assign (T 104) (Plain (Zeros [4;4;5;5]));
  (*4921*) AddTo (T 104) (Plain (Einsum [(T 103,[0;1;2;3]); (T 31,[0;4;3;5])] [4;1;5;2]));
  (*4922*) AddTo n_rdm2_f_oovv_aaaa (Plain (Einsum [(T 104,[0;1;2;3])] [1;0;2;3]));
  (*4923*) AddTo n_rdm2_f_vvoo_aaaa (Plain (Einsum [(T 104,[0;1;2;3])] [2;3;1;0]));
  (*4924*) Del (T 104);
  (*4925*) Assign (T 130) (Plain (Zeros [4;4;5;5]));
  (*4926*) AddTo (T 130) (Plain (Einsum [(T 103,[0;1;2;3]); (T 31,[0;4;5;3])] [4;1;5;2]));
  (*4927*) AddTo n_rdm2_f_ovvo_aaaa (Plain (Einsum [(T 130,[0;1;2;3])] [1;3;2;0]));
  (*4928*) AddTo n_rdm2_f_voov_aaaa (Plain (Einsum [(T 130,[0;1;2;3])] [2;0;1;3]));
  (*4929*) Del (T 130);
  (*4930*) Assign (T 135) (Plain (Zeros [4;6;5;7]));
  (*4931*) AddTo (T 135) (Plain (Einsum [(n_t2'abab,[0;1;2;3]); (T 103,[0;4;5;2])] [4;1;5;3]));
  (*4932*) Assign (T 201) (Plain (Zeros [6;6;7;7]));
  (*4933*) SubFrom (T 201) (Plain (Einsum [(n_t2'abab,[0;1;2;3]); (T 135,[0;4;2;5])] [1;4;3;5]));
  (*4934*) SubFrom n_rdm2_f_vovo_bbbb (Plain (Einsum [(T 201,[0;1;2;3])] [2;1;3;0]));
  (*4935*) AddTo n_rdm2_f_vovo_bbbb (Plain (Einsum [(T 201,[0;1;2;3])] [2;0;3;1]));
  (*4936*) Del (T 201);
  (*4937*) Assign (T 222) (Plain (Zeros [4;6;5;7]));
  (*4938*) SubFrom (T 222) (Plain (Einsum [(T 135,[0;1;2;3])] [0;1;2;3]));
  (*4939*) SubFrom n_rdm2_f_ovvo_aabb (Plain (Einsum [(T 135,[0;1;2;3])] [0;2;3;1]));
  (*4940*) SubFrom n_rdm2_f_voov_bbaa (Plain (Einsum [(T 135,[0;1;2;3])] [3;1;0;2]));
  (*4941*) Del (T 135);
  (*4942*) Assign (T 148) (Plain (Zeros [4;4;5;5]));
  (*4943*) AddTo (T 148) (Plain (Einsum [(n_t2'aaaa,[0;1;2;3]); (T 103,[0;4;3;5])] [1;4;2;5]));
  (*4944*) SubFrom (T 149) (Plain (Einsum [(T 148,[0;1;2;3])] [1;0;3;2]));
  (*4945*) Del (T 148);
  (*4946*) Assign (T 150) (Plain (Zeros [4;4;5;5]));
  (*4947*) AddTo (T 150) (Plain (Einsum [(n_t2'aaaa,[0;1;2;3]); (T 149,[0;4;2;5])] [1;4;3;5]));
  (*4948*) Del (T 149);
  (*4949*) AddTo (T 162) (Plain (Einsum [(T 150,[0;1;2;3])] [0;1;2;3]));
  (*4950*) Del (T 150);
  (*4951*) Assign (T 165) (Plain (Zeros [4;4;5;5]));
  (*4952*) AddTo (T 165) (Plain (Einsum [(n_t2'aaaa,[0;1;2;3]); (T 103,[0;4;5;2])] [1;4;3;5]));
  (*4953*) Assign (T 166) (Plain (Zeros [4;4;5;5]));
  (*4954*) SubFrom (T 166) (Plain (Einsum [(n_t2'aaaa,[0;1;2;3]); (T 165,[4;0;5;2])] [1;4;3;5]));
  (*4955*) Del (T 165);
  (*4956*) AddTo (T 170) (Plain (Einsum [(T 166,[0;1;2;3])] [1;0;3;2]));
  (*4957*) Del (T 166);
  (*4958*) Assign (T 167) (Plain (Zeros [4;4;5;5]));
  (*4959*) AddTo (T 167) (Plain (Einsum [(n_t2'aaaa,[0;1;2;3]); (T 103,[0;4;5;3])] [1;4;2;5]));
  (*4960*) Del (T 103);
  (*4961*) Assign (T 168) (Plain (Zeros [4;4;5;5]));
  (*4962*) SubFrom (T 168) (Plain (Einsum [(n_t2'aaaa,[0;1;2;3]); (T 167,[4;0;5;3])] [1;4;2;5]));
  (*4963*) Del (T 167);
  (*4964*) AddTo (T 170) (Plain (Einsum [(T 168,[0;1;2;3])] [0;1;2;3]));
  (*4965*) Del (T 168);
  (*4966*) Assign (T 107) (Plain (Zeros [5;5]));
  (*4967*) AddTo (T 107) (Plain (Einsum [(n_l1'aa,[0;1]); (n_t1'aa,[1;2])] [0;2]));
  (*4968*) Assign (T 112) (Plain (Zeros [5;5]));
  (*4969*) AddTo (T 112) (Plain (Einsum [(T 107,[0;1])] [0;1]));
  (*4970*) Assign (T 260) (Plain (Zeros [5;5]));
  (*4971*) AddTo (T 260) (Plain (Einsum [(T 107,[0;1])] [0;1]));
  (*4972*) Del (T 107);
  (*4973*) Assign (T 108) (Plain (Zeros [5;5]));
  (*4974*) AddTo (T 108) (Plain (Einsum [(n_lu11'aa,[0;1;2]); (n_u11'aa,[0;2;3])] [1;3]));
  (*4975*) AddTo (T 112) (Plain (Einsum [(T 108,[0;1])] [0;1]));
  (*4976*) Assign (T 145) (Plain (Zeros [4;4;5;5]));
  (*4977*) AddTo (T 145) (Plain (Einsum [(T 108,[0;1]); (n_t2'aaaa,[2;3;4;0])] [2;3;4;1]));
  (*4978*) SubFrom (T 162) (Plain (Einsum [(T 145,[0;1;2;3])] [0;1;2;3]));
  (*4979*) Del (T 145);
  (*4980*) Assign (T 231) (Plain (Zeros [5;5]));
  (*4981*) AddTo (T 231) (Plain (Einsum [(T 108,[0;1])] [0;1]));
  (*4982*) AddTo (T 260) (Plain (Einsum [(T 108,[0;1])] [0;1]));
  (*4983*) Del (T 108);
  (*4984*) Assign (T 261) (Plain (Zeros [4;5;5;5]));
  (*4985*) AddTo (T 261) (Plain (Einsum [(n_t1'aa,[0;1]); (T 260,[2;3])] [0;2;1;3]));
  (*4986*) Del (T 260);
  (*4987*) Assign (T 109) (Plain (Zeros [5;5]));
  (*4988*) AddTo (T 109) (Plain (Einsum [(n_l2'abab,[0;1;2;3]); (n_t2'abab,[2;3;4;1])] [0;4]));
  (*4989*) AddTo (T 112) (Plain (Einsum [(T 109,[0;1])] [0;1]));
  (*4990*) Assign (T 171) (Plain (Zeros [5;5]));
  (*4991*) AddTo (T 171) (Plain (Einsum [(T 109,[0;1])] [0;1]));
  (*4992*) AddTo (T 231) (Plain (Einsum [(T 109,[0;1])] [0;1]));
  (*4993*) Del (T 109);
  (*4994*) Assign (T 110) (Plain (Zeros [4;4;5;5]));
  (*4995*) AddTo (T 110) (Times (Einsum [(n_l2'aaaa,[0;1;2;3])] [3;2;0;1]) (-1) 1);
  (*4996*) AddTo (T 110) (Plain (Einsum [(n_l2'aaaa,[0;1;2;3])] [3;2;1;0]));
  (*4997*) Assign (T 111) (Plain (Zeros [5;5]));
  (*4998*) AddTo (T 111) (Plain (Einsum [(n_t2'aaaa,[0;1;2;3]); (T 110,[0;1;3;4])] [2;4]));
  (*4999*) AddTo (T 112) (Times (Einsum [(T 111,[0;1])] [1;0]) (-1) 1);
  (*5000*) AddTo n_rdm2_f_oovv_aaaa (Plain (Einsum [(n_delta_oo'aa,[0;1]); (T 112,[2;3])] [1;0;3;2]));
  (*5001*) AddTo n_rdm2_f_oovv_bbaa (Plain (Einsum [(n_delta_oo'bb,[0;1]); (T 112,[2;3])] [1;0;3;2]));
  (*5002*) AddTo n_rdm2_f_ovvo_aaaa (Times (Einsum [(n_delta_oo'aa,[0;1]); (T 112,[2;3])] [1;2;3;0]) (-1) 1);
  (*5003*) AddTo n_rdm2_f_voov_aaaa (Times (Einsum [(n_delta_oo'aa,[0;1]); (T 112,[2;3])] [3;0;1;2]) (-1) 1);
  (*5004*) AddTo n_rdm2_f_vvoo_aaaa (Plain (Einsum [(n_delta_oo'aa,[0;1]); (T 112,[2;3])] [3;2;1;0]));
  (*5005*) AddTo n_rdm2_f_vvoo_aabb (Plain (Einsum [(n_delta_oo'bb,[0;1]); (T 112,[2;3])] [3;2;1;0]));
  (*5006*) AddTo n_rdm2_f_vovv_bbaa (Plain (Einsum [(n_t1'bb,[0;1]); (T 112,[2;3])] [1;0;3;2]));
  (*5007*) AddTo n_rdm2_f_vvvo_aabb (Plain (Einsum [(n_t1'bb,[0;1]); (T 112,[2;3])] [3;2;1;0]));
  (*5008*) Del (T 112);
  (*5009*) AddTo (T 171) (Times (Einsum [(T 111,[0;1])] [1;0]) (-1) 1);
  (*5010*) Assign (T 172) (Plain (Zeros [4;4;5;5]));
  (*5011*) AddTo (T 172) (Plain (Einsum [(T 171,[0;1]); (n_t2'aaaa,[2;3;0;4])] [2;3;4;1]));
  (*5012*) AddTo (T 174) (Plain (Einsum [(T 172,[0;1;2;3])] [1;0;2;3]));
  (*5013*) Del (T 172);
  (*5014*) AddTo n_rdm2_f_vovo_aaaa (Times (Einsum [(T 174,[0;1;2;3])] [2;0;3;1]) (-1) 1);
  (*5015*) AddTo n_rdm2_f_vovo_aaaa (Plain (Einsum [(T 174,[0;1;2;3])] [3;0;2;1]));
  (*5016*) AddTo n_rdm2_f_vovo_aaaa (Plain (Einsum [(T 174,[0;1;2;3])] [2;1;3;0]));
  (*5017*) AddTo n_rdm2_f_vovo_aaaa (Times (Einsum [(T 174,[0;1;2;3])] [3;1;2;0]) (-1) 1);
  (*5018*) Del (T 174);
  (*5019*) AddTo (T 267) (Plain (Einsum [(n_t1'aa,[0;1]); (T 171,[2;3])] [0;2;1;3]));
  (*5020*) Del (T 171);
  (*5021*) AddTo (T 231) (Times (Einsum [(T 111,[0;1])] [1;0]) (-1) 1);
  (*5022*) Del (T 111);
  (*5023*) Assign (T 232) (Plain (Zeros [4;6;5;7]));
  (*5024*) AddTo (T 232) (Plain (Einsum [(T 231,[0;1]); (n_t2'abab,[2;3;0;4])] [2;3;1;4]));
  (*5025*) Del (T 231);
  (*5026*) AddTo n_rdm2_f_vovo_bbaa (Times (Einsum [(T 232,[0;1;2;3])] [3;1;2;0]) (-1) 1);
  (*5027*) AddTo n_rdm2_f_vovo_aabb (Times (Einsum [(T 232,[0;1;2;3])] [2;0;3;1]) (-1) 1);
  (*5028*) Del (T 232);
  (*5029*) Assign (T 264) (Plain (Zeros [4;4;5;5]));
  (*5030*) AddTo (T 264) (Plain (Einsum [(T 110,[0;1;2;3]); (T 6,[0;4;5;3])] [4;1;5;2]));
  (*5031*) Del (T 6);
  (*5032*) AddTo (T 265) (Plain (Einsum [(T 264,[0;1;2;3])] [1;0;3;2]));
  (*5033*) Del (T 264);
  (*5034*) Assign (T 266) (Plain (Zeros [4;5;5;5]));
  (*5035*) AddTo (T 266) (Plain (Einsum [(n_t1'aa,[0;1]); (T 265,[0;2;3;4])] [2;1;3;4]));
  (*5036*) Del (T 265);
  (*5037*) AddTo (T 267) (Times (Einsum [(T 266,[0;1;2;3])] [0;2;1;3]) (-1) 1);
  (*5038*) Del (T 266);
  (*5039*) Assign n_rdm2_f_vovv_aaaa (Plain (Zeros [5;4;5;5]));
  (*5040*) AddTo n_rdm2_f_vovv_aaaa (Plain (Einsum [(T 267,[0;1;2;3])] [2;0;3;1]));
  (*5041*) AddTo n_rdm2_f_vovv_aaaa (Times (Einsum [(T 267,[0;1;2;3])] [3;0;2;1]) (-1) 1);
  (*5042*) Assign n_rdm2_f_vvvo_aaaa (Plain (Zeros [5;5;5;4]));
  (*5043*) AddTo n_rdm2_f_vvvo_aaaa (Times (Einsum [(T 267,[0;1;2;3])] [2;1;3;0]) (-1) 1);
  (*5044*) AddTo n_rdm2_f_vvvo_aaaa (Plain (Einsum [(T 267,[0;1;2;3])] [3;1;2;0]));
  (*5045*) Del (T 267);
  (*5046*) Assign (T 285) (Plain (Zeros [4;6;5;7]));
  (*5047*) AddTo (T 285) (Plain (Einsum [(n_t2'abab,[0;1;2;3]); (T 110,[0;4;2;5])] [4;1;5;3]));
  (*5048*) Del (T 110);
  (*5049*) AddTo (T 287) (Times (Einsum [(T 285,[0;1;2;3])] [0;1;2;3]) (-1) 1);
  (*5050*) Del (T 285);
  (*5051*) Assign (T 288) (Plain (Zeros [6;5;5;7]));
  (*5052*) AddTo (T 288) (Plain (Einsum [(n_t1'aa,[0;1]); (T 287,[0;2;3;4])] [2;1;3;4]));
  (*5053*) Del (T 287);
  (*5054*) AddTo n_rdm2_f_vovv_bbaa (Times (Einsum [(T 288,[0;1;2;3])] [3;0;1;2]) (-1) 1);
  (*5055*) AddTo n_rdm2_f_vvvo_aabb (Times (Einsum [(T 288,[0;1;2;3])] [1;2;3;0]) (-1) 1);
  (*5056*) Del (T 288);
  (*5057*) Assign (T 113) (Plain (Zeros [6;6;7;7]));
  (*5058*) AddTo (T 113) (Plain (Einsum [(n_l2'abab,[0;1;2;3]); (n_t2'abab,[2;4;0;5])] [3;4;1;5]));
  (*5059*) Assign (T 225) (Plain (Zeros [6;6;7;7]));
  (*5060*) AddTo (T 225) (Plain (Einsum [(T 113,[0;1;2;3])] [0;1;2;3]));
  (*5061*) AddTo (T 272) (Plain (Einsum [(T 113,[0;1;2;3])] [0;1;2;3]));
  (*5062*) SubFrom n_rdm2_f_oovv_bbbb (Plain (Einsum [(T 113,[0;1;2;3])] [0;1;3;2]));
  (*5063*) AddTo n_rdm2_f_ovvo_bbbb (Plain (Einsum [(T 113,[0;1;2;3])] [0;2;3;1]));
  (*5064*) AddTo n_rdm2_f_voov_bbbb (Plain (Einsum [(T 113,[0;1;2;3])] [3;1;0;2]));
  (*5065*) SubFrom n_rdm2_f_vvoo_bbbb (Plain (Einsum [(T 113,[0;1;2;3])] [3;2;0;1]));
  (*5066*) Assign (T 114) (Plain (Zeros [6;6;7;7]));
  (*5067*) AddTo (T 114) (Plain (Einsum [(n_lu11'bb,[0;1;2]); (n_u11'bb,[0;3;4])] [2;3;1;4]));
  (*5068*) SubFrom n_rdm2_f_oovv_bbbb (Plain (Einsum [(T 114,[0;1;2;3])] [0;1;3;2]));
  (*5069*) AddTo n_rdm2_f_ovvo_bbbb (Plain (Einsum [(T 114,[0;1;2;3])] [0;2;3;1]));
  (*5070*) AddTo n_rdm2_f_voov_bbbb (Plain (Einsum [(T 114,[0;1;2;3])] [3;1;0;2]));
  (*5071*) SubFrom n_rdm2_f_vvoo_bbbb (Plain (Einsum [(T 114,[0;1;2;3])] [3;2;0;1]));
  (*5072*) Del (T 114);
  (*5073*) Assign (T 115) (Plain (Zeros [6;6;7;7]));
  (*5074*) AddTo (T 115) (Plain (Einsum [(n_t2'bbbb,[0;1;2;3])] [1;0;2;3]));
  (*5075*) SubFrom (T 115) (Plain (Einsum [(n_t2'bbbb,[0;1;2;3])] [1;0;3;2]));
  (*5076*) Assign (T 136) (Plain (Zeros [4;6;5;7]));
  (*5077*) AddTo (T 136) (Plain (Einsum [(n_l2'abab,[0;1;2;3]); (T 115,[3;4;1;5])] [2;4;0;5]));
  (*5078*) SubFrom (T 222) (Plain (Einsum [(T 136,[0;1;2;3])] [0;1;2;3]));
  (*5079*) Assign (T 223) (Plain (Zeros [4;6;5;7]));
  (*5080*) AddTo (T 223) (Plain (Einsum [(T 222,[0;1;2;3]); (T 31,[0;4;2;5])] [4;1;5;3]));
  (*5081*) Del (T 222);
  (*5082*) Del (T 31);
  (*5083*) AddTo n_rdm2_f_vovo_bbaa (Plain (Einsum [(T 223,[0;1;2;3])] [3;1;2;0]));
  (*5084*) AddTo n_rdm2_f_vovo_aabb (Plain (Einsum [(T 223,[0;1;2;3])] [2;0;3;1]));
  (*5085*) Del (T 223);
  (*5086*) SubFrom n_rdm2_f_ovvo_aabb (Plain (Einsum [(T 136,[0;1;2;3])] [0;2;3;1]));
  (*5087*) SubFrom n_rdm2_f_voov_bbaa (Plain (Einsum [(T 136,[0;1;2;3])] [3;1;0;2]));
  (*5088*) Del (T 136);
  (*5089*) Assign (T 189) (Plain (Zeros [6;6;7;7]));
  (*5090*) AddTo (T 189) (Plain (Einsum [(T 113,[0;1;2;3]); (T 115,[0;4;2;5])] [1;4;3;5]));
  (*5091*) Del (T 113);
  (*5092*) SubFrom (T 200) (Plain (Einsum [(T 189,[0;1;2;3])] [0;1;2;3]));
  (*5093*) Del (T 189);
  (*5094*) Assign (T 195) (Plain (Zeros [3;6;7]));
  (*5095*) AddTo (T 195) (Plain (Einsum [(n_lu11'bb,[0;1;2]); (T 115,[2;3;1;4])] [0;3;4]));
  (*5096*) SubFrom (T 196) (Plain (Einsum [(T 195,[0;1;2])] [0;1;2]));
  (*5097*) Del (T 195);
  (*5098*) Assign (T 198) (Plain (Zeros [6;7]));
  (*5099*) AddTo (T 198) (Plain (Einsum [(n_l1'bb,[0;1]); (T 115,[1;2;0;3])] [2;3]));
  (*5100*) SubFrom (T 199) (Plain (Einsum [(T 198,[0;1])] [0;1]));
  (*5101*) Del (T 198);
  (*5102*) AddTo (T 200) (Plain (Einsum [(n_t1'bb,[0;1]); (T 199,[2;3])] [0;2;1;3]));
  (*5103*) Del (T 199);
  (*5104*) Assign (T 116) (Plain (Zeros [6;6;7;7]));
  (*5105*) AddTo (T 116) (Plain (Einsum [(n_l2'bbbb,[0;1;2;3])] [3;2;0;1]));
  (*5106*) SubFrom (T 116) (Plain (Einsum [(n_l2'bbbb,[0;1;2;3])] [3;2;1;0]));
  (*5107*) Assign (T 117) (Plain (Zeros [6;6;7;7]));
  (*5108*) AddTo (T 117) (Plain (Einsum [(T 115,[0;1;2;3]); (T 116,[0;4;3;5])] [1;4;2;5]));
  (*5109*) AddTo n_rdm2_f_oovv_bbbb (Plain (Einsum [(T 117,[0;1;2;3])] [1;0;2;3]));
  (*5110*) AddTo n_rdm2_f_vvoo_bbbb (Plain (Einsum [(T 117,[0;1;2;3])] [2;3;1;0]));
  (*5111*) Del (T 117);
  (*5112*) Assign (T 140) (Plain (Zeros [4;6;5;7]));
  (*5113*) AddTo (T 140) (Plain (Einsum [(n_t2'abab,[0;1;2;3]); (T 116,[1;4;3;5])] [0;4;2;5]));
  (*5114*) Assign (T 169) (Plain (Zeros [4;4;5;5]));
  (*5115*) SubFrom (T 169) (Plain (Einsum [(n_t2'abab,[0;1;2;3]); (T 140,[4;1;5;3])] [0;4;2;5]));
  (*5116*) AddTo (T 170) (Plain (Einsum [(T 169,[0;1;2;3])] [1;0;3;2]));
  (*5117*) Del (T 169);
  (*5118*) SubFrom n_rdm2_f_ovvo_bbaa (Plain (Einsum [(T 140,[0;1;2;3])] [1;3;2;0]));
  (*5119*) SubFrom n_rdm2_f_voov_aabb (Plain (Einsum [(T 140,[0;1;2;3])] [2;0;1;3]));
  (*5120*) Del (T 140);
  (*5121*) Assign (T 141) (Plain (Zeros [6;6;7;7]));
  (*5122*) AddTo (T 141) (Plain (Einsum [(T 116,[0;1;2;3]); (T 59,[0;4;5;2])] [4;1;5;3]));
  (*5123*) Del (T 59);
  (*5124*) Del (T 116);
  (*5125*) AddTo n_rdm2_f_ovvo_bbbb (Plain (Einsum [(T 141,[0;1;2;3])] [1;3;2;0]));
  (*5126*) AddTo n_rdm2_f_voov_bbbb (Plain (Einsum [(T 141,[0;1;2;3])] [2;0;1;3]));
  (*5127*) Del (T 141);
  (*5128*) Assign (T 120) (Plain (Zeros [7;7]));
  (*5129*) AddTo (T 120) (Plain (Einsum [(n_l1'bb,[0;1]); (n_t1'bb,[1;2])] [0;2]));
  (*5130*) Assign (T 125) (Plain (Zeros [7;7]));
  (*5131*) AddTo (T 125) (Plain (Einsum [(T 120,[0;1])] [0;1]));
  (*5132*) Assign (T 279) (Plain (Zeros [7;7]));
  (*5133*) AddTo (T 279) (Plain (Einsum [(T 120,[0;1])] [0;1]));
  (*5134*) Del (T 120);
  (*5135*) Assign (T 121) (Plain (Zeros [7;7]));
  (*5136*) AddTo (T 121) (Plain (Einsum [(n_lu11'bb,[0;1;2]); (n_u11'bb,[0;2;3])] [1;3]));
  (*5137*) AddTo (T 125) (Plain (Einsum [(T 121,[0;1])] [0;1]));
  (*5138*) Assign (T 184) (Plain (Zeros [6;6;7;7]));
  (*5139*) AddTo (T 184) (Plain (Einsum [(T 121,[0;1]); (n_t2'bbbb,[2;3;0;4])] [3;2;4;1]));
  (*5140*) SubFrom (T 200) (Plain (Einsum [(T 184,[0;1;2;3])] [0;1;2;3]));
  (*5141*) Del (T 184);
  (*5142*) Assign (T 229) (Plain (Zeros [7;7]));
  (*5143*) AddTo (T 229) (Plain (Einsum [(T 121,[0;1])] [0;1]));
  (*5144*) AddTo (T 279) (Plain (Einsum [(T 121,[0;1])] [0;1]));
  (*5145*) Del (T 121);
  (*5146*) Assign (T 280) (Plain (Zeros [6;7;7;7]));
  (*5147*) AddTo (T 280) (Plain (Einsum [(n_t1'bb,[0;1]); (T 279,[2;3])] [0;2;1;3]));
  (*5148*) Del (T 279);
  (*5149*) Assign (T 122) (Plain (Zeros [7;7]));
  (*5150*) AddTo (T 122) (Plain (Einsum [(n_l2'abab,[0;1;2;3]); (n_t2'abab,[2;3;0;4])] [1;4]));
  (*5151*) AddTo (T 125) (Plain (Einsum [(T 122,[0;1])] [0;1]));
  (*5152*) Assign (T 209) (Plain (Zeros [6;6;7;7]));
  (*5153*) AddTo (T 209) (Plain (Einsum [(T 122,[0;1]); (n_t2'bbbb,[2;3;0;4])] [3;2;1;4]));
  (*5154*) AddTo (T 212) (Times (Einsum [(T 209,[0;1;2;3])] [0;1;2;3]) (-1) 1);
  (*5155*) Del (T 209);
  (*5156*) AddTo (T 229) (Plain (Einsum [(T 122,[0;1])] [0;1]));
  (*5157*) Assign (T 274) (Plain (Zeros [7;7]));
  (*5158*) AddTo (T 274) (Plain (Einsum [(T 122,[0;1])] [0;1]));
  (*5159*) Del (T 122);
  (*5160*) Assign (T 123) (Plain (Zeros [6;6;7;7]));
  (*5161*) AddTo (T 123) (Times (Einsum [(n_l2'bbbb,[0;1;2;3])] [3;2;0;1]) (-1) 1);
  (*5162*) AddTo (T 123) (Plain (Einsum [(n_l2'bbbb,[0;1;2;3])] [3;2;1;0]));
  (*5163*) Assign (T 124) (Plain (Zeros [7;7]));
  (*5164*) AddTo (T 124) (Plain (Einsum [(n_t2'bbbb,[0;1;2;3]); (T 123,[0;1;4;2])] [3;4]));
  (*5165*) AddTo (T 125) (Times (Einsum [(T 124,[0;1])] [1;0]) (-1) 1);
  (*5166*) AddTo n_rdm2_f_oovv_bbbb (Plain (Einsum [(n_delta_oo'bb,[0;1]); (T 125,[2;3])] [1;0;3;2]));
  (*5167*) AddTo n_rdm2_f_oovv_aabb (Plain (Einsum [(n_delta_oo'aa,[0;1]); (T 125,[2;3])] [1;0;3;2]));
  (*5168*) AddTo n_rdm2_f_ovvo_bbbb (Times (Einsum [(n_delta_oo'bb,[0;1]); (T 125,[2;3])] [1;2;3;0]) (-1) 1);
  (*5169*) AddTo n_rdm2_f_voov_bbbb (Times (Einsum [(n_delta_oo'bb,[0;1]); (T 125,[2;3])] [3;0;1;2]) (-1) 1);
  (*5170*) AddTo n_rdm2_f_vvoo_bbbb (Plain (Einsum [(n_delta_oo'bb,[0;1]); (T 125,[2;3])] [3;2;1;0]));
  (*5171*) AddTo n_rdm2_f_vvoo_bbaa (Plain (Einsum [(n_delta_oo'aa,[0;1]); (T 125,[2;3])] [3;2;1;0]));
  (*5172*) AddTo n_rdm2_f_vovv_aabb (Plain (Einsum [(n_t1'aa,[0;1]); (T 125,[2;3])] [1;0;3;2]));
  (*5173*) AddTo n_rdm2_f_vvvo_bbaa (Plain (Einsum [(n_t1'aa,[0;1]); (T 125,[2;3])] [3;2;1;0]));
  (*5174*) Del (T 125);
  (*5175*) Assign (T 210) (Plain (Zeros [6;6;7;7]));
  (*5176*) AddTo (T 210) (Times (Einsum [(T 124,[0;1]); (n_t2'bbbb,[2;3;1;4])] [2;3;4;0]) (-1) 1);
  (*5177*) AddTo (T 212) (Plain (Einsum [(T 210,[0;1;2;3])] [1;0;2;3]));
  (*5178*) Del (T 210);
  (*5179*) AddTo n_rdm2_f_vovo_bbbb (Times (Einsum [(T 212,[0;1;2;3])] [2;0;3;1]) (-1) 1);
  (*5180*) AddTo n_rdm2_f_vovo_bbbb (Plain (Einsum [(T 212,[0;1;2;3])] [3;0;2;1]));
  (*5181*) AddTo n_rdm2_f_vovo_bbbb (Plain (Einsum [(T 212,[0;1;2;3])] [2;1;3;0]));
  (*5182*) AddTo n_rdm2_f_vovo_bbbb (Times (Einsum [(T 212,[0;1;2;3])] [3;1;2;0]) (-1) 1);
  (*5183*) Del (T 212);
  (*5184*) AddTo (T 229) (Times (Einsum [(T 124,[0;1])] [1;0]) (-1) 1);
  (*5185*) Assign (T 230) (Plain (Zeros [4;6;5;7]));
  (*5186*) AddTo (T 230) (Plain (Einsum [(T 229,[0;1]); (n_t2'abab,[2;3;4;0])] [2;3;4;1]));
  (*5187*) Del (T 229);
  (*5188*) AddTo n_rdm2_f_vovo_bbaa (Times (Einsum [(T 230,[0;1;2;3])] [3;1;2;0]) (-1) 1);
  (*5189*) AddTo n_rdm2_f_vovo_aabb (Times (Einsum [(T 230,[0;1;2;3])] [2;0;3;1]) (-1) 1);
  (*5190*) Del (T 230);
  (*5191*) AddTo (T 274) (Times (Einsum [(T 124,[0;1])] [1;0]) (-1) 1);
  (*5192*) Del (T 124);
  (*5193*) AddTo (T 275) (Plain (Einsum [(n_t1'bb,[0;1]); (T 274,[2;3])] [0;2;1;3]));
  (*5194*) Del (T 274);
  (*5195*) Assign (T 294) (Plain (Zeros [4;6;5;7]));
  (*5196*) AddTo (T 294) (Plain (Einsum [(n_t2'abab,[0;1;2;3]); (T 123,[1;4;3;5])] [0;4;2;5]));
  (*5197*) AddTo (T 295) (Times (Einsum [(T 294,[0;1;2;3])] [0;1;2;3]) (-1) 1);
  (*5198*) Del (T 294);
  (*5199*) Assign (T 296) (Plain (Zeros [4;5;7;7]));
  (*5200*) AddTo (T 296) (Plain (Einsum [(n_t1'bb,[0;1]); (T 295,[2;0;3;4])] [2;3;1;4]));
  (*5201*) Del (T 295);
  (*5202*) AddTo n_rdm2_f_vovv_aabb (Times (Einsum [(T 296,[0;1;2;3])] [1;0;2;3]) (-1) 1);
  (*5203*) AddTo n_rdm2_f_vvvo_bbaa (Times (Einsum [(T 296,[0;1;2;3])] [2;3;1;0]) (-1) 1);
  (*5204*) Del (T 296);
  (*5205*) Assign (T 126) (Plain (Zeros [6;6;5;5]));
  (*5206*) AddTo (T 126) (Plain (Einsum [(n_l2'abab,[0;1;2;3]); (n_t2'abab,[2;4;5;1])] [3;4;0;5]));
  (*5207*) Assign (T 282) (Plain (Zeros [6;5;5;7]));
  (*5208*) AddTo (T 282) (Plain (Einsum [(n_t1'bb,[0;1]); (T 126,[0;2;3;4])] [2;3;4;1]));
  (*5209*) AddTo n_rdm2_f_vovv_bbaa (Times (Einsum [(T 282,[0;1;2;3])] [3;0;2;1]) (-1) 1);
  (*5210*) AddTo n_rdm2_f_vvvo_aabb (Times (Einsum [(T 282,[0;1;2;3])] [2;1;3;0]) (-1) 1);
  (*5211*) Del (T 282);
  (*5212*) SubFrom n_rdm2_f_oovv_bbaa (Plain (Einsum [(T 126,[0;1;2;3])] [0;1;3;2]));
  (*5213*) SubFrom n_rdm2_f_vvoo_aabb (Plain (Einsum [(T 126,[0;1;2;3])] [3;2;0;1]));
  (*5214*) Del (T 126);
  (*5215*) Assign (T 128) (Plain (Zeros [4;4;7;7]));
  (*5216*) AddTo (T 128) (Plain (Einsum [(n_l2'abab,[0;1;2;3]); (n_t2'abab,[4;3;0;5])] [2;4;1;5]));
  (*5217*) Assign (T 221) (Plain (Zeros [4;6;5;7]));
  (*5218*) AddTo (T 221) (Plain (Einsum [(n_t2'abab,[0;1;2;3]); (T 128,[0;4;3;5])] [4;1;2;5]));
  (*5219*) AddTo n_rdm2_f_vovo_bbaa (Plain (Einsum [(T 221,[0;1;2;3])] [3;1;2;0]));
  (*5220*) AddTo n_rdm2_f_vovo_aabb (Plain (Einsum [(T 221,[0;1;2;3])] [2;0;3;1]));
  (*5221*) Del (T 221);
  (*5222*) Assign (T 292) (Plain (Zeros [4;5;7;7]));
  (*5223*) AddTo (T 292) (Plain (Einsum [(n_t1'aa,[0;1]); (T 128,[0;2;3;4])] [2;1;3;4]));
  (*5224*) AddTo n_rdm2_f_vovv_aabb (Times (Einsum [(T 292,[0;1;2;3])] [1;0;3;2]) (-1) 1);
  (*5225*) AddTo n_rdm2_f_vvvo_bbaa (Times (Einsum [(T 292,[0;1;2;3])] [3;2;1;0]) (-1) 1);
  (*5226*) Del (T 292);
  (*5227*) SubFrom n_rdm2_f_oovv_aabb (Plain (Einsum [(T 128,[0;1;2;3])] [0;1;3;2]));
  (*5228*) SubFrom n_rdm2_f_vvoo_bbaa (Plain (Einsum [(T 128,[0;1;2;3])] [3;2;0;1]));
  (*5229*) Del (T 128);
  (*5230*) Assign (T 134) (Plain (Zeros [4;6;5;7]));
  (*5231*) AddTo (T 134) (Plain (Einsum [(n_lu11'aa,[0;1;2]); (n_u11'bb,[0;3;4])] [2;3;1;4]));
  (*5232*) AddTo n_rdm2_f_ovvo_aabb (Plain (Einsum [(T 134,[0;1;2;3])] [0;2;3;1]));
  (*5233*) AddTo n_rdm2_f_voov_bbaa (Plain (Einsum [(T 134,[0;1;2;3])] [3;1;0;2]));
  (*5234*) Del (T 134);
  (*5235*) Assign (T 138) (Plain (Zeros [4;6;5;7]));
  (*5236*) AddTo (T 138) (Plain (Einsum [(n_lu11'bb,[0;1;2]); (n_u11'aa,[0;3;4])] [3;2;4;1]));
  (*5237*) AddTo n_rdm2_f_ovvo_bbaa (Plain (Einsum [(T 138,[0;1;2;3])] [1;3;2;0]));
  (*5238*) AddTo n_rdm2_f_voov_aabb (Plain (Einsum [(T 138,[0;1;2;3])] [2;0;1;3]));
  (*5239*) Del (T 138);
  (*5240*) Assign (T 151) (Plain (Zeros [4;4;5;5]));
  (*5241*) AddTo (T 151) (Plain (Einsum [(n_t2'aaaa,[0;1;2;3])] [1;0;2;3]));
  (*5242*) SubFrom (T 151) (Plain (Einsum [(n_t2'aaaa,[0;1;2;3])] [1;0;3;2]));
  (*5243*) Assign (T 152) (Plain (Zeros [4;4;4;5]));
  (*5244*) AddTo (T 152) (Plain (Einsum [(T 105,[0;1;2;3]); (T 151,[1;4;5;3])] [0;2;4;5]));
  (*5245*) Del (T 105);
  (*5246*) Del (T 151);
  (*5247*) AddTo (T 153) (Plain (Einsum [(T 152,[0;1;2;3])] [0;1;2;3]));
  (*5248*) Del (T 152);
  (*5249*) Assign (T 154) (Plain (Zeros [4;4;5;5]));
  (*5250*) AddTo (T 154) (Plain (Einsum [(n_t1'aa,[0;1]); (T 153,[0;2;3;4])] [2;3;1;4]));
  (*5251*) Del (T 153);
  (*5252*) AddTo (T 162) (Plain (Einsum [(T 154,[0;1;2;3])] [0;1;2;3]));
  (*5253*) Del (T 154);
  (*5254*) Assign (T 156) (Plain (Zeros [3;4;5]));
  (*5255*) AddTo (T 156) (Plain (Einsum [(n_lu11'bb,[0;1;2]); (n_t2'abab,[3;2;4;1])] [0;3;4]));
  (*5256*) AddTo (T 158) (Plain (Einsum [(T 156,[0;1;2])] [0;1;2]));
  (*5257*) Del (T 156);
  (*5258*) Assign (T 159) (Plain (Zeros [4;4;5;5]));
  (*5259*) AddTo (T 159) (Plain (Einsum [(n_u11'aa,[0;1;2]); (T 158,[0;3;4])] [1;3;2;4]));
  (*5260*) AddTo (T 162) (Plain (Einsum [(T 159,[0;1;2;3])] [1;0;3;2]));
  (*5261*) Del (T 159);
  (*5262*) AddTo n_rdm2_f_vovo_aaaa (Plain (Einsum [(T 162,[0;1;2;3])] [2;0;3;1]));
  (*5263*) SubFrom n_rdm2_f_vovo_aaaa (Plain (Einsum [(T 162,[0;1;2;3])] [3;0;2;1]));
  (*5264*) SubFrom n_rdm2_f_vovo_aaaa (Plain (Einsum [(T 162,[0;1;2;3])] [2;1;3;0]));
  (*5265*) AddTo n_rdm2_f_vovo_aaaa (Plain (Einsum [(T 162,[0;1;2;3])] [3;1;2;0]));
  (*5266*) Del (T 162);
  (*5267*) Assign (T 244) (Plain (Zeros [4;6;5;7]));
  (*5268*) AddTo (T 244) (Plain (Einsum [(n_u11'bb,[0;1;2]); (T 158,[0;3;4])] [3;1;4;2]));
  (*5269*) Del (T 158);
  (*5270*) AddTo n_rdm2_f_vovo_bbaa (Plain (Einsum [(T 244,[0;1;2;3])] [3;1;2;0]));
  (*5271*) AddTo n_rdm2_f_vovo_aabb (Plain (Einsum [(T 244,[0;1;2;3])] [2;0;3;1]));
  (*5272*) Del (T 244);
  (*5273*) AddTo (T 170) (Plain (Einsum [(n_t2'aaaa,[0;1;2;3])] [1;0;3;2]));
  (*5274*) SubFrom n_rdm2_f_vovo_aaaa (Plain (Einsum [(T 170,[0;1;2;3])] [3;0;2;1]));
  (*5275*) AddTo n_rdm2_f_vovo_aaaa (Plain (Einsum [(T 170,[0;1;2;3])] [2;0;3;1]));
  (*5276*) Del (T 170);
  (*5277*) SubFrom (T 181) (Plain (Einsum [(n_t1'aa,[0;1])] [0;1]));
  (*5278*) SubFrom n_rdm2_f_vovo_aaaa (Plain (Einsum [(n_t1'aa,[0;1]); (T 181,[2;3])] [1;0;3;2]));
  (*5279*) AddTo n_rdm2_f_vovo_aaaa (Plain (Einsum [(n_t1'aa,[0;1]); (T 181,[2;3])] [3;0;1;2]));
  (*5280*) Del (T 181);
  (*5281*) Assign (T 186) (Plain (Zeros [6;6;7;7]));
  (*5282*) SubFrom (T 186) (Plain (Einsum [(n_l2'bbbb,[0;1;2;3])] [3;2;0;1]));
  (*5283*) AddTo (T 186) (Plain (Einsum [(n_l2'bbbb,[0;1;2;3])] [3;2;1;0]));
  (*5284*) Assign (T 187) (Plain (Zeros [6;6;7;7]));
  (*5285*) AddTo (T 187) (Plain (Einsum [(n_t2'bbbb,[0;1;2;3]); (T 186,[0;4;5;3])] [1;4;2;5]));
  (*5286*) Assign (T 188) (Plain (Zeros [6;6;7;7]));
  (*5287*) SubFrom (T 188) (Plain (Einsum [(n_t2'bbbb,[0;1;2;3]); (T 187,[4;0;5;2])] [1;4;3;5]));
  (*5288*) SubFrom (T 200) (Plain (Einsum [(T 188,[0;1;2;3])] [0;1;2;3]));
  (*5289*) Del (T 188);
  (*5290*) Assign (T 206) (Plain (Zeros [6;6;7;7]));
  (*5291*) SubFrom (T 206) (Plain (Einsum [(n_t2'bbbb,[0;1;2;3]); (T 187,[4;0;5;3])] [1;4;2;5]));
  (*5292*) Del (T 187);
  (*5293*) AddTo (T 207) (Plain (Einsum [(T 206,[0;1;2;3])] [1;0;3;2]));
  (*5294*) Del (T 206);
  (*5295*) Assign (T 204) (Plain (Zeros [6;6;7;7]));
  (*5296*) AddTo (T 204) (Plain (Einsum [(n_t2'bbbb,[0;1;2;3]); (T 186,[0;4;5;2])] [1;4;3;5]));
  (*5297*) Assign (T 205) (Plain (Zeros [6;6;7;7]));
  (*5298*) SubFrom (T 205) (Plain (Einsum [(n_t2'bbbb,[0;1;2;3]); (T 204,[4;0;5;2])] [1;4;3;5]));
  (*5299*) Del (T 204);
  (*5300*) AddTo (T 207) (Plain (Einsum [(T 205,[0;1;2;3])] [0;1;2;3]));
  (*5301*) Del (T 205);
  (*5302*) Assign (T 224) (Plain (Zeros [6;6;7;7]));
  (*5303*) AddTo (T 224) (Plain (Einsum [(T 115,[0;1;2;3]); (T 186,[0;4;5;2])] [1;4;3;5]));
  (*5304*) Del (T 186);
  (*5305*) Del (T 115);
  (*5306*) AddTo (T 225) (Plain (Einsum [(T 224,[0;1;2;3])] [1;0;3;2]));
  (*5307*) Del (T 224);
  (*5308*) Assign (T 226) (Plain (Zeros [4;6;5;7]));
  (*5309*) AddTo (T 226) (Plain (Einsum [(n_t2'abab,[0;1;2;3]); (T 225,[1;4;3;5])] [0;4;2;5]));
  (*5310*) Del (T 225);
  (*5311*) AddTo n_rdm2_f_vovo_bbaa (Plain (Einsum [(T 226,[0;1;2;3])] [3;1;2;0]));
  (*5312*) AddTo n_rdm2_f_vovo_aabb (Plain (Einsum [(T 226,[0;1;2;3])] [2;0;3;1]));
  (*5313*) Del (T 226);
  (*5314*) Assign (T 193) (Plain (Zeros [3;6;7]));
  (*5315*) AddTo (T 193) (Plain (Einsum [(n_lu11'aa,[0;1;2]); (n_t2'abab,[2;3;1;4])] [0;3;4]));
  (*5316*) AddTo (T 196) (Plain (Einsum [(T 193,[0;1;2])] [0;1;2]));
  (*5317*) Del (T 193);
  (*5318*) Assign (T 197) (Plain (Zeros [6;6;7;7]));
  (*5319*) AddTo (T 197) (Plain (Einsum [(n_u11'bb,[0;1;2]); (T 196,[0;3;4])] [1;3;2;4]));
  (*5320*) AddTo (T 200) (Plain (Einsum [(T 197,[0;1;2;3])] [1;0;3;2]));
  (*5321*) Del (T 197);
  (*5322*) AddTo n_rdm2_f_vovo_bbbb (Plain (Einsum [(T 200,[0;1;2;3])] [2;0;3;1]));
  (*5323*) SubFrom n_rdm2_f_vovo_bbbb (Plain (Einsum [(T 200,[0;1;2;3])] [3;0;2;1]));
  (*5324*) SubFrom n_rdm2_f_vovo_bbbb (Plain (Einsum [(T 200,[0;1;2;3])] [2;1;3;0]));
  (*5325*) AddTo n_rdm2_f_vovo_bbbb (Plain (Einsum [(T 200,[0;1;2;3])] [3;1;2;0]));
  (*5326*) Del (T 200);
  (*5327*) Assign (T 243) (Plain (Zeros [4;6;5;7]));
  (*5328*) AddTo (T 243) (Plain (Einsum [(n_u11'aa,[0;1;2]); (T 196,[0;3;4])] [1;3;2;4]));
  (*5329*) Del (T 196);
  (*5330*) AddTo n_rdm2_f_vovo_bbaa (Plain (Einsum [(T 243,[0;1;2;3])] [3;1;2;0]));
  (*5331*) AddTo n_rdm2_f_vovo_aabb (Plain (Einsum [(T 243,[0;1;2;3])] [2;0;3;1]));
  (*5332*) Del (T 243);
  (*5333*) AddTo (T 207) (Plain (Einsum [(n_t2'bbbb,[0;1;2;3])] [1;0;3;2]));
  (*5334*) SubFrom n_rdm2_f_vovo_bbbb (Plain (Einsum [(T 207,[0;1;2;3])] [3;0;2;1]));
  (*5335*) AddTo n_rdm2_f_vovo_bbbb (Plain (Einsum [(T 207,[0;1;2;3])] [2;0;3;1]));
  (*5336*) Del (T 207);
  (*5337*) SubFrom (T 219) (Plain (Einsum [(n_t1'bb,[0;1])] [0;1]));
  (*5338*) AddTo n_rdm2_f_vovo_bbbb (Plain (Einsum [(n_t1'bb,[0;1]); (T 219,[2;3])] [1;2;3;0]));
  (*5339*) SubFrom n_rdm2_f_vovo_bbbb (Plain (Einsum [(n_t1'bb,[0;1]); (T 219,[2;3])] [3;2;1;0]));
  (*5340*) Del (T 219);
  (*5341*) AddTo (T 247) (Times (Einsum [(n_t1'bb,[0;1])] [0;1]) (-1) 1);
  (*5342*) AddTo n_rdm2_f_vovo_bbaa (Times (Einsum [(n_t1'aa,[0;1]); (T 247,[2;3])] [3;2;1;0]) (-1) 1);
  (*5343*) Del (T 247);
  (*5344*) AddTo (T 251) (Times (Einsum [(n_t1'bb,[0;1])] [0;1]) (-9999999999999993) 10000000000000000);
  (*5345*) AddTo n_rdm2_f_vovo_aabb (Times (Einsum [(n_t1'aa,[0;1]); (T 251,[2;3])] [1;0;3;2]) (-1) 1);
  (*5346*) Del (T 251);
  (*5347*) Assign (T 253) (Plain (Zeros [4;5;5;5]));
  (*5348*) AddTo (T 253) (Plain (Einsum [(n_t1'aa,[0;1]); (n_l2'aaaa,[2;3;4;0])] [4;2;3;1]));
  (*5349*) Assign (T 298) (Plain (Zeros [5;5;5;5]));
  (*5350*) AddTo (T 298) (Plain (Einsum [(n_t1'aa,[0;1]); (T 253,[0;2;3;4])] [3;2;4;1]));
  (*5351*) Assign (T 299) (Plain (Zeros [5;5;5;5]));
  (*5352*) AddTo (T 299) (Plain (Einsum [(T 298,[0;1;2;3])] [1;0;3;2]));
  (*5353*) Del (T 298);
  (*5354*) Assign n_rdm2_f_ovvv_aaaa (Plain (Zeros [4;5;5;5]));
  (*5355*) AddTo n_rdm2_f_ovvv_aaaa (Plain (Einsum [(T 253,[0;1;2;3])] [0;1;3;2]));
  (*5356*) SubFrom n_rdm2_f_ovvv_aaaa (Plain (Einsum [(T 253,[0;1;2;3])] [0;2;3;1]));
  (*5357*) Assign n_rdm2_f_vvov_aaaa (Plain (Zeros [5;5;4;5]));
  (*5358*) SubFrom n_rdm2_f_vvov_aaaa (Plain (Einsum [(T 253,[0;1;2;3])] [3;1;0;2]));
  (*5359*) AddTo n_rdm2_f_vvov_aaaa (Plain (Einsum [(T 253,[0;1;2;3])] [3;2;0;1]));
  (*5360*) Del (T 253);
  (*5361*) Assign (T 254) (Plain (Zeros [6;7;7;7]));
  (*5362*) AddTo (T 254) (Plain (Einsum [(n_t1'bb,[0;1]); (n_l2'bbbb,[2;3;4;0])] [4;2;3;1]));
  (*5363*) Assign (T 303) (Plain (Zeros [7;7;7;7]));
  (*5364*) AddTo (T 303) (Plain (Einsum [(n_t1'bb,[0;1]); (T 254,[0;2;3;4])] [3;2;4;1]));
  (*5365*) Assign (T 304) (Plain (Zeros [7;7;7;7]));
  (*5366*) AddTo (T 304) (Plain (Einsum [(T 303,[0;1;2;3])] [1;0;3;2]));
  (*5367*) Del (T 303);
  (*5368*) Assign n_rdm2_f_ovvv_bbbb (Plain (Zeros [6;7;7;7]));
  (*5369*) AddTo n_rdm2_f_ovvv_bbbb (Plain (Einsum [(T 254,[0;1;2;3])] [0;1;3;2]));
  (*5370*) SubFrom n_rdm2_f_ovvv_bbbb (Plain (Einsum [(T 254,[0;1;2;3])] [0;2;3;1]));
  (*5371*) Assign n_rdm2_f_vvov_bbbb (Plain (Zeros [7;7;6;7]));
  (*5372*) SubFrom n_rdm2_f_vvov_bbbb (Plain (Einsum [(T 254,[0;1;2;3])] [3;1;0;2]));
  (*5373*) AddTo n_rdm2_f_vvov_bbbb (Plain (Einsum [(T 254,[0;1;2;3])] [3;2;0;1]));
  (*5374*) Del (T 254);
  (*5375*) Assign (T 255) (Plain (Zeros [6;5;5;7]));
  (*5376*) AddTo (T 255) (Plain (Einsum [(n_t1'aa,[0;1]); (n_l2'abab,[2;3;0;4])] [4;2;1;3]));
  (*5377*) Assign n_rdm2_f_ovvv_bbaa (Plain (Zeros [6;7;5;5]));
  (*5378*) AddTo n_rdm2_f_ovvv_bbaa (Plain (Einsum [(T 255,[0;1;2;3])] [0;3;2;1]));
  (*5379*) Assign n_rdm2_f_vvov_aabb (Plain (Zeros [5;5;6;7]));
  (*5380*) AddTo n_rdm2_f_vvov_aabb (Plain (Einsum [(T 255,[0;1;2;3])] [2;1;0;3]));
  (*5381*) Del (T 255);
  (*5382*) Assign (T 256) (Plain (Zeros [4;5;7;7]));
  (*5383*) AddTo (T 256) (Plain (Einsum [(n_t1'bb,[0;1]); (n_l2'abab,[2;3;4;0])] [4;2;3;1]));
  (*5384*) Assign (T 301) (Plain (Zeros [5;5;7;7]));
  (*5385*) AddTo (T 301) (Plain (Einsum [(n_t1'aa,[0;1]); (T 256,[0;2;3;4])] [2;1;3;4]));
  (*5386*) Assign n_rdm2_f_vvvv_bbaa (Plain (Zeros [7;7;5;5]));
  (*5387*) AddTo n_rdm2_f_vvvv_bbaa (Plain (Einsum [(T 301,[0;1;2;3])] [3;2;1;0]));
  (*5388*) Assign n_rdm2_f_vvvv_aabb (Plain (Zeros [5;5;7;7]));
  (*5389*) AddTo n_rdm2_f_vvvv_aabb (Plain (Einsum [(T 301,[0;1;2;3])] [1;0;3;2]));
  (*5390*) Del (T 301);
  (*5391*) Assign n_rdm2_f_ovvv_aabb (Plain (Zeros [4;5;7;7]));
  (*5392*) AddTo n_rdm2_f_ovvv_aabb (Plain (Einsum [(T 256,[0;1;2;3])] [0;1;3;2]));
  (*5393*) Assign n_rdm2_f_vvov_bbaa (Plain (Zeros [7;7;4;5]));
  (*5394*) AddTo n_rdm2_f_vvov_bbaa (Plain (Einsum [(T 256,[0;1;2;3])] [3;2;0;1]));
  (*5395*) Del (T 256);
  (*5396*) Assign (T 257) (Plain (Zeros [4;5;5;5]));
  (*5397*) AddTo (T 257) (Plain (Einsum [(n_l1'aa,[0;1]); (n_t2'aaaa,[2;1;3;4])] [2;0;3;4]));
  (*5398*) AddTo (T 261) (Plain (Einsum [(T 257,[0;1;2;3])] [0;1;2;3]));
  (*5399*) Del (T 257);
  (*5400*) Assign (T 258) (Plain (Zeros [3;5;5]));
  (*5401*) AddTo (T 258) (Plain (Einsum [(n_t1'aa,[0;1]); (n_lu11'aa,[2;3;0])] [2;3;1]));
  (*5402*) Assign (T 259) (Plain (Zeros [4;5;5;5]));
  (*5403*) AddTo (T 259) (Plain (Einsum [(n_u11'aa,[0;1;2]); (T 258,[0;3;4])] [1;3;4;2]));
  (*5404*) SubFrom (T 261) (Plain (Einsum [(T 259,[0;1;2;3])] [0;1;2;3]));
  (*5405*) Del (T 259);
  (*5406*) AddTo n_rdm2_f_vovv_aaaa (Plain (Einsum [(T 261,[0;1;2;3])] [2;0;3;1]));
  (*5407*) SubFrom n_rdm2_f_vovv_aaaa (Plain (Einsum [(T 261,[0;1;2;3])] [3;0;2;1]));
  (*5408*) SubFrom n_rdm2_f_vvvo_aaaa (Plain (Einsum [(T 261,[0;1;2;3])] [2;1;3;0]));
  (*5409*) AddTo n_rdm2_f_vvvo_aaaa (Plain (Einsum [(T 261,[0;1;2;3])] [3;1;2;0]));
  (*5410*) Del (T 261);
  (*5411*) Assign (T 283) (Plain (Zeros [6;5;5;7]));
  (*5412*) AddTo (T 283) (Plain (Einsum [(n_u11'bb,[0;1;2]); (T 258,[0;3;4])] [1;3;4;2]));
  (*5413*) Del (T 258);
  (*5414*) AddTo n_rdm2_f_vovv_bbaa (Plain (Einsum [(T 283,[0;1;2;3])] [3;0;2;1]));
  (*5415*) AddTo n_rdm2_f_vvvo_aabb (Plain (Einsum [(T 283,[0;1;2;3])] [2;1;3;0]));
  (*5416*) Del (T 283);
  (*5417*) Assign (T 270) (Plain (Zeros [6;6;7;7]));
  (*5418*) AddTo (T 270) (Plain (Einsum [(n_t2'bbbb,[0;1;2;3])] [1;0;2;3]));
  (*5419*) AddTo (T 270) (Times (Einsum [(n_t2'bbbb,[0;1;2;3])] [1;0;3;2]) (-1) 1);
  (*5420*) Assign (T 271) (Plain (Zeros [6;6;7;7]));
  (*5421*) AddTo (T 271) (Plain (Einsum [(T 123,[0;1;2;3]); (T 270,[0;4;3;5])] [1;4;2;5]));
  (*5422*) Del (T 123);
  (*5423*) Del (T 270);
  (*5424*) AddTo (T 272) (Plain (Einsum [(T 271,[0;1;2;3])] [0;1;2;3]));
  (*5425*) Del (T 271);
  (*5426*) Assign (T 273) (Plain (Zeros [6;7;7;7]));
  (*5427*) AddTo (T 273) (Plain (Einsum [(n_t1'bb,[0;1]); (T 272,[0;2;3;4])] [2;1;3;4]));
  (*5428*) Del (T 272);
  (*5429*) AddTo (T 275) (Times (Einsum [(T 273,[0;1;2;3])] [0;2;1;3]) (-1) 1);
  (*5430*) Del (T 273);
  (*5431*) Assign n_rdm2_f_vovv_bbbb (Plain (Zeros [7;6;7;7]));
  (*5432*) AddTo n_rdm2_f_vovv_bbbb (Plain (Einsum [(T 275,[0;1;2;3])] [2;0;3;1]));
  (*5433*) AddTo n_rdm2_f_vovv_bbbb (Times (Einsum [(T 275,[0;1;2;3])] [3;0;2;1]) (-1) 1);
  (*5434*) Assign n_rdm2_f_vvvo_bbbb (Plain (Zeros [7;7;7;6]));
  (*5435*) AddTo n_rdm2_f_vvvo_bbbb (Times (Einsum [(T 275,[0;1;2;3])] [2;1;3;0]) (-1) 1);
  (*5436*) AddTo n_rdm2_f_vvvo_bbbb (Plain (Einsum [(T 275,[0;1;2;3])] [3;1;2;0]));
  (*5437*) Del (T 275);
  (*5438*) Assign (T 276) (Plain (Zeros [6;7;7;7]));
  (*5439*) AddTo (T 276) (Plain (Einsum [(n_l1'bb,[0;1]); (n_t2'bbbb,[2;1;3;4])] [2;0;3;4]));
  (*5440*) AddTo (T 280) (Plain (Einsum [(T 276,[0;1;2;3])] [0;1;2;3]));
  (*5441*) Del (T 276);
  (*5442*) Assign (T 277) (Plain (Zeros [3;7;7]));
  (*5443*) AddTo (T 277) (Plain (Einsum [(n_t1'bb,[0;1]); (n_lu11'bb,[2;3;0])] [2;3;1]));
  (*5444*) Assign (T 278) (Plain (Zeros [6;7;7;7]));
  (*5445*) AddTo (T 278) (Plain (Einsum [(n_u11'bb,[0;1;2]); (T 277,[0;3;4])] [1;3;4;2]));
  (*5446*) SubFrom (T 280) (Plain (Einsum [(T 278,[0;1;2;3])] [0;1;2;3]));
  (*5447*) Del (T 278);
  (*5448*) AddTo n_rdm2_f_vovv_bbbb (Plain (Einsum [(T 280,[0;1;2;3])] [2;0;3;1]));
  (*5449*) SubFrom n_rdm2_f_vovv_bbbb (Plain (Einsum [(T 280,[0;1;2;3])] [3;0;2;1]));
  (*5450*) SubFrom n_rdm2_f_vvvo_bbbb (Plain (Einsum [(T 280,[0;1;2;3])] [2;1;3;0]));
  (*5451*) AddTo n_rdm2_f_vvvo_bbbb (Plain (Einsum [(T 280,[0;1;2;3])] [3;1;2;0]));
  (*5452*) Del (T 280);
  (*5453*) Assign (T 290) (Plain (Zeros [4;5;7;7]));
  (*5454*) AddTo (T 290) (Plain (Einsum [(n_u11'aa,[0;1;2]); (T 277,[0;3;4])] [1;2;3;4]));
  (*5455*) Del (T 277);
  (*5456*) AddTo n_rdm2_f_vovv_aabb (Plain (Einsum [(T 290,[0;1;2;3])] [1;0;3;2]));
  (*5457*) AddTo n_rdm2_f_vvvo_bbaa (Plain (Einsum [(T 290,[0;1;2;3])] [3;2;1;0]));
  (*5458*) Del (T 290);
  (*5459*) Assign (T 284) (Plain (Zeros [6;5;5;7]));
  (*5460*) AddTo (T 284) (Plain (Einsum [(n_l1'aa,[0;1]); (n_t2'abab,[1;2;3;4])] [2;0;3;4]));
  (*5461*) AddTo n_rdm2_f_vovv_bbaa (Plain (Einsum [(T 284,[0;1;2;3])] [3;0;2;1]));
  (*5462*) AddTo n_rdm2_f_vvvo_aabb (Plain (Einsum [(T 284,[0;1;2;3])] [2;1;3;0]));
  (*5463*) Del (T 284);
  (*5464*) Assign (T 289) (Plain (Zeros [4;5;7;7]));
  (*5465*) AddTo (T 289) (Plain (Einsum [(n_l1'bb,[0;1]); (n_t2'abab,[2;1;3;4])] [2;3;0;4]));
  (*5466*) AddTo n_rdm2_f_vovv_aabb (Plain (Einsum [(T 289,[0;1;2;3])] [1;0;3;2]));
  (*5467*) AddTo n_rdm2_f_vvvo_bbaa (Plain (Einsum [(T 289,[0;1;2;3])] [3;2;1;0]));
  (*5468*) Del (T 289);
  (*5469*) Assign (T 297) (Plain (Zeros [5;5;5;5]));
  (*5470*) AddTo (T 297) (Plain (Einsum [(n_l2'aaaa,[0;1;2;3]); (n_t2'aaaa,[2;3;4;5])] [0;1;4;5]));
  (*5471*) AddTo (T 299) (Plain (Einsum [(T 297,[0;1;2;3])] [1;0;3;2]));
  (*5472*) Del (T 297);
  (*5473*) Assign n_rdm2_f_vvvv_aaaa (Plain (Zeros [5;5;5;5]));
  (*5474*) AddTo n_rdm2_f_vvvv_aaaa (Times (Einsum [(T 299,[0;1;2;3])] [3;0;2;1]) (-1) 1);
  (*5475*) AddTo n_rdm2_f_vvvv_aaaa (Plain (Einsum [(T 299,[0;1;2;3])] [2;0;3;1]));
  (*5476*) Del (T 299);
  (*5477*) Assign (T 300) (Plain (Zeros [5;5;7;7]));
  (*5478*) AddTo (T 300) (Plain (Einsum [(n_l2'abab,[0;1;2;3]); (n_t2'abab,[2;3;4;5])] [0;4;1;5]));
  (*5479*) AddTo n_rdm2_f_vvvv_bbaa (Plain (Einsum [(T 300,[0;1;2;3])] [3;2;1;0]));
  (*5480*) AddTo n_rdm2_f_vvvv_aabb (Plain (Einsum [(T 300,[0;1;2;3])] [1;0;3;2]));
  (*5481*) Del (T 300);
  (*5482*) Assign (T 302) (Plain (Zeros [7;7;7;7]));
  (*5483*) AddTo (T 302) (Plain (Einsum [(n_l2'bbbb,[0;1;2;3]); (n_t2'bbbb,[2;3;4;5])] [0;1;4;5]));
  (*5484*) AddTo (T 304) (Plain (Einsum [(T 302,[0;1;2;3])] [1;0;3;2]));
  (*5485*) Del (T 302);
  (*5486*) Assign n_rdm2_f_vvvv_bbbb (Plain (Zeros [7;7;7;7]));
  (*5487*) AddTo n_rdm2_f_vvvv_bbbb (Times (Einsum [(T 304,[0;1;2;3])] [3;0;2;1]) (-1) 1);
  (*5488*) AddTo n_rdm2_f_vvvv_bbbb (Plain (Einsum [(T 304,[0;1;2;3])] [2;0;3;1]));
  (*5489*) Del (T 304);
  (*5490*) AddTo n_rdm2_f_oooo_aaaa (Plain (Einsum [(n_delta_oo'aa,[0;1]); (n_delta_oo'aa,[2;3])] [1;0;3;2]));
  (*5491*) SubFrom n_rdm2_f_oooo_aaaa (Plain (Einsum [(n_delta_oo'aa,[0;1]); (n_delta_oo'aa,[2;3])] [3;1;0;2]));
  (*5492*) AddTo n_rdm2_f_oooo_bbbb (Plain (Einsum [(n_delta_oo'bb,[0;1]); (n_delta_oo'bb,[2;3])] [1;0;3;2]));
  (*5493*) SubFrom n_rdm2_f_oooo_bbbb (Plain (Einsum [(n_delta_oo'bb,[0;1]); (n_delta_oo'bb,[2;3])] [3;1;0;2]));
  (*5494*) AddTo n_rdm2_f_ooov_aaaa (Plain (Einsum [(n_delta_oo'aa,[0;1]); (n_l1'aa,[2;3])] [1;0;3;2]));
  (*5495*) SubFrom n_rdm2_f_ooov_aaaa (Plain (Einsum [(n_delta_oo'aa,[0;1]); (n_l1'aa,[2;3])] [3;0;1;2]));
  (*5496*) AddTo n_rdm2_f_ooov_bbbb (Plain (Einsum [(n_delta_oo'bb,[0;1]); (n_l1'bb,[2;3])] [1;0;3;2]));
  (*5497*) SubFrom n_rdm2_f_ooov_bbbb (Plain (Einsum [(n_delta_oo'bb,[0;1]); (n_l1'bb,[2;3])] [3;0;1;2]));
  (*5498*) AddTo n_rdm2_f_ooov_aabb (Plain (Einsum [(n_delta_oo'aa,[0;1]); (n_l1'bb,[2;3])] [1;0;3;2]));
  (*5499*) AddTo n_rdm2_f_ooov_bbaa (Plain (Einsum [(n_delta_oo'bb,[0;1]); (n_l1'aa,[2;3])] [1;0;3;2]));
  (*5500*) SubFrom n_rdm2_f_ovoo_aaaa (Plain (Einsum [(n_delta_oo'aa,[0;1]); (n_l1'aa,[2;3])] [1;2;3;0]));
  (*5501*) AddTo n_rdm2_f_ovoo_aaaa (Plain (Einsum [(n_delta_oo'aa,[0;1]); (n_l1'aa,[2;3])] [3;2;1;0]));
  (*5502*) AddTo n_rdm2_f_ovoo_bbaa (Plain (Einsum [(n_delta_oo'aa,[0;1]); (n_l1'bb,[2;3])] [3;2;1;0]));
  (*5503*) AddTo n_rdm2_f_ovoo_aabb (Plain (Einsum [(n_delta_oo'bb,[0;1]); (n_l1'aa,[2;3])] [3;2;1;0]));
  (*5504*) SubFrom n_rdm2_f_ovoo_bbbb (Plain (Einsum [(n_delta_oo'bb,[0;1]); (n_l1'bb,[2;3])] [1;2;3;0]));
  (*5505*) AddTo n_rdm2_f_ovoo_bbbb (Plain (Einsum [(n_delta_oo'bb,[0;1]); (n_l1'bb,[2;3])] [3;2;1;0]));
  (*5506*) SubFrom n_rdm2_f_oovo_bbbb (Plain (Einsum [(n_delta_oo'bb,[0;1]); (n_t1'bb,[2;3])] [1;2;3;0]));
  (*5507*) AddTo n_rdm2_f_vooo_bbbb (Plain (Einsum [(n_delta_oo'bb,[0;1]); (n_t1'bb,[2;3])] [3;2;1;0]));
  (*5508*) Assign n_rdm2_f_ovov_aaaa (Plain (Zeros [4;5;4;5]));
  (*5509*) SubFrom n_rdm2_f_ovov_aaaa (Plain (Einsum [(n_l2'aaaa,[0;1;2;3])] [3;0;2;1]));
  (*5510*) AddTo n_rdm2_f_ovov_aaaa (Plain (Einsum [(n_l2'aaaa,[0;1;2;3])] [3;1;2;0]));
  (*5511*) Assign n_rdm2_f_ovov_bbbb (Plain (Zeros [6;7;6;7]));
  (*5512*) SubFrom n_rdm2_f_ovov_bbbb (Plain (Einsum [(n_l2'bbbb,[0;1;2;3])] [3;0;2;1]));
  (*5513*) AddTo n_rdm2_f_ovov_bbbb (Plain (Einsum [(n_l2'bbbb,[0;1;2;3])] [3;1;2;0]));
  (*5514*) Assign n_rdm2_f_ovov_bbaa (Plain (Zeros [6;7;4;5]));
  (*5515*) AddTo n_rdm2_f_ovov_bbaa (Plain (Einsum [(n_l2'abab,[0;1;2;3])] [3;1;2;0]));
  (*5516*) Assign n_rdm2_f_ovov_aabb (Plain (Zeros [4;5;6;7]));
  (*5517*) AddTo n_rdm2_f_ovov_aabb (Plain (Einsum [(n_l2'abab,[0;1;2;3])] [2;0;3;1]));
  (*5518*) SubFrom n_rdm2_f_oovv_aaaa (Plain (Einsum [(n_l1'aa,[0;1]); (n_t1'aa,[2;3])] [1;2;3;0]));
  (*5519*) SubFrom n_rdm2_f_oovv_bbbb (Plain (Einsum [(n_l1'bb,[0;1]); (n_t1'bb,[2;3])] [1;2;3;0]));
  (*5520*) AddTo n_rdm2_f_ovvo_aaaa (Plain (Einsum [(n_l1'aa,[0;1]); (n_t1'aa,[2;3])] [1;0;3;2]));
  (*5521*) AddTo n_rdm2_f_ovvo_aabb (Plain (Einsum [(n_l1'aa,[0;1]); (n_t1'bb,[2;3])] [1;0;3;2]));
  (*5522*) AddTo n_rdm2_f_ovvo_bbaa (Plain (Einsum [(n_l1'bb,[0;1]); (n_t1'aa,[2;3])] [1;0;3;2]));
  (*5523*) AddTo n_rdm2_f_ovvo_bbbb (Plain (Einsum [(n_l1'bb,[0;1]); (n_t1'bb,[2;3])] [1;0;3;2]));
  (*5524*) AddTo n_rdm2_f_voov_aaaa (Plain (Einsum [(n_l1'aa,[0;1]); (n_t1'aa,[2;3])] [3;2;1;0]));
  (*5525*) AddTo n_rdm2_f_voov_bbaa (Plain (Einsum [(n_l1'aa,[0;1]); (n_t1'bb,[2;3])] [3;2;1;0]));
  (*5526*) AddTo n_rdm2_f_voov_aabb (Plain (Einsum [(n_l1'bb,[0;1]); (n_t1'aa,[2;3])] [3;2;1;0]));
  (*5527*) AddTo n_rdm2_f_voov_bbbb (Plain (Einsum [(n_l1'bb,[0;1]); (n_t1'bb,[2;3])] [3;2;1;0]));
  (*5528*) SubFrom n_rdm2_f_vvoo_aaaa (Plain (Einsum [(n_l1'aa,[0;1]); (n_t1'aa,[2;3])] [3;0;1;2]));
  (*5529*) SubFrom n_rdm2_f_vvoo_bbbb (Plain (Einsum [(n_l1'bb,[0;1]); (n_t1'bb,[2;3])] [3;0;1;2]));
  (*5530*) AddTo n_rdm2_f_vovo_bbaa (Plain (Einsum [(n_t2'abab,[0;1;2;3])] [3;1;2;0]));
  (*5531*) AddTo n_rdm2_f_vovo_aabb (Plain (Einsum [(n_t2'abab,[0;1;2;3])] [2;0;3;1]))]
 [(n_rdm2_f_oooo_aaaa,[4;4;4;4]); (n_rdm2_f_ooov_aaaa,[4;4;4;5]); (n_rdm2_f_oovo_aaaa,[4;4;5;4]); (n_rdm2_f_ovoo_aaaa,[4;5;4;4]); (n_rdm2_f_vooo_aaaa,[5;4;4;4]); (n_rdm2_f_oovv_aaaa,[4;4;5;5]); (n_rdm2_f_ovov_aaaa,[4;5;4;5]); (n_rdm2_f_ovvo_aaaa,[4;5;5;4]); (n_rdm2_f_voov_aaaa,[5;4;4;5]); (n_rdm2_f_vovo_aaaa,[5;4;5;4]); (n_rdm2_f_vvoo_aaaa,[5;5;4;4]); (n_rdm2_f_ovvv_aaaa,[4;5;5;5]); (n_rdm2_f_vovv_aaaa,[5;4;5;5]); (n_rdm2_f_vvov_aaaa,[5;5;4;5]); (n_rdm2_f_vvvo_aaaa,[5;5;5;4]); (n_rdm2_f_vvvv_aaaa,[5;5;5;5]); (n_rdm2_f_oooo_aabb,[4;4;6;6]); (n_rdm2_f_ooov_aabb,[4;4;6;7]); (n_rdm2_f_oovo_aabb,[4;4;7;6]); (n_rdm2_f_ovoo_aabb,[4;5;6;6]); (n_rdm2_f_vooo_aabb,[5;4;6;6]); (n_rdm2_f_oovv_aabb,[4;4;7;7]); (n_rdm2_f_ovov_aabb,[4;5;6;7]); (n_rdm2_f_ovvo_aabb,[4;5;7;6]); (n_rdm2_f_voov_aabb,[5;4;6;7]); (n_rdm2_f_vovo_aabb,[5;4;7;6]); (n_rdm2_f_vvoo_aabb,[5;5;6;6]); (n_rdm2_f_ovvv_aabb,[4;5;7;7]); (n_rdm2_f_vovv_aabb,[5;4;7;7]); (n_rdm2_f_vvov_aabb,[5;5;6;7]); (n_rdm2_f_vvvo_aabb,[5;5;7;6]); (n_rdm2_f_vvvv_aabb,[5;5;7;7]); (n_rdm2_f_oooo_bbaa,[6;6;4;4]); (n_rdm2_f_ooov_bbaa,[6;6;4;5]); (n_rdm2_f_oovo_bbaa,[6;6;5;4]); (n_rdm2_f_ovoo_bbaa,[6;7;4;4]); (n_rdm2_f_vooo_bbaa,[7;6;4;4]); (n_rdm2_f_oovv_bbaa,[6;6;5;5]); (n_rdm2_f_ovov_bbaa,[6;7;4;5]); (n_rdm2_f_ovvo_bbaa,[6;7;5;4]); (n_rdm2_f_voov_bbaa,[7;6;4;5]); (n_rdm2_f_vovo_bbaa,[7;6;5;4]); (n_rdm2_f_vvoo_bbaa,[7;7;4;4]); (n_rdm2_f_ovvv_bbaa,[6;7;5;5]); (n_rdm2_f_vovv_bbaa,[7;6;5;5]); (n_rdm2_f_vvov_bbaa,[7;7;4;5]); (n_rdm2_f_vvvo_bbaa,[7;7;5;4]); (n_rdm2_f_vvvv_bbaa,[7;7;5;5]); (n_rdm2_f_oooo_bbbb,[6;6;6;6]); (n_rdm2_f_ooov_bbbb,[6;6;6;7]); (n_rdm2_f_oovo_bbbb,[6;6;7;6]); (n_rdm2_f_ovoo_bbbb,[6;7;6;6]); (n_rdm2_f_vooo_bbbb,[7;6;6;6]); (n_rdm2_f_oovv_bbbb,[6;6;7;7]); (n_rdm2_f_ovov_bbbb,[6;7;6;7]); (n_rdm2_f_ovvo_bbbb,[6;7;7;6]); (n_rdm2_f_voov_bbbb,[7;6;6;7]); (n_rdm2_f_vovo_bbbb,[7;6;7;6]); (n_rdm2_f_vvoo_bbbb,[7;7;6;6]); (n_rdm2_f_ovvv_bbbb,[6;7;7;7]); (n_rdm2_f_vovv_bbbb,[7;6;7;7]); (n_rdm2_f_vvov_bbbb,[7;7;6;7]); (n_rdm2_f_vvvo_bbbb,[7;7;7;6]); (n_rdm2_f_vvvv_bbbb,[7;7;7;7])].

(** ebcc/codegen/UCCSD_S_1_1.py:5545-5572 [make_sing_b_dm]; assembly (line 5570) not translated *)
Definition UCCSD_S_1_1_make_sing_b_dm : prog := mkprog
 [(n_g'aa'boo,[3;4;4]); (n_g'aa'bvo,[3;5;4]); (n_g'aa'bov,[3;4;5]); (n_g'aa'bvv,[3;5;5]); (n_g'bb'boo,[3;6;6]); (n_g'bb'bvo,[3;7;6]); (n_g'bb'bov,[3;6;7]); (n_g'bb'bvv,[3;7;7]); (n_ls1,[3]); (n_s1,[3]); (n_l1'aa,[5;4]); (n_u11'aa,[3;4;5]); (n_l1'bb,[7;6]); (n_u11'bb,[3;6;7])]
 [(*5547*) Assign n_gc'aa'boo (Plain (Transpose n_g'aa'boo [0;2;1]));
  (*5547*) Assign n_gc'aa'bov (Plain (Transpose n_g'aa'bvo [0;2;1]));
  (*5547*) Assign n_gc'aa'bvo (Plain (Transpose n_g'aa'bov [0;2;1]));
  (*5547*) Assign n_gc'aa'bvv (Plain (Transpose n_g'aa'bvv [0;2;1]));
  (*5547*) Assign n_gc'bb'boo (Plain (Transpose n_g'bb'boo [0;2;1]));
  (*5547*) Assign n_gc'bb'bov (Plain (Transpose n_g'bb'bvo [0;2;1]));
  (*5547*) Assign n_gc'bb'bvo (Plain (Transpose n_g'bb'bov [0;2;1]));
  (*5547*) Assign n_gc'bb'bvv (Plain (Transpose n_g'bb'bvv [0;2;1]));
  (*5563*) Assign n_dm_b_cre (Plain (Zeros [3]));
  (*5564*) AddTo n_dm_b_cre (Plain (Einsum [(n_ls1,[0])] [0]));
  (*5565*) Assign n_dm_b_des (Plain (Zeros [3]));
  (*5566*) AddTo n_dm_b_des (Plain (Einsum [(n_s1,[0])] [0]));
  (*5567*) AddTo n_dm_b_des (Plain (Einsum [(n_l1'aa,[0;1]); (n_u11'aa,[2;1;0])] [2]));
  (*5568*) AddTo n_dm_b_des (Plain (Einsum [(n_l1'bb,[0;1]); (n_u11'bb,[2;1;0])] [2]))]
 [(n_dm_b_cre,[3]); (n_dm_b_des,[3])].

(** ebcc/codegen/UCCSD_S_1_1.py:5574-5597 [make_rdm1_b] *)
Definition UCCSD_S_1_1_make_rdm1_b : prog := mkprog
 [(n_g'aa'boo,[3;4;4]); (n_g'aa'bvo,[3;5;4]); (n_g'aa'bov,[3;4;5]); (n_g'aa'bvv,[3;5;5]); (n_g'bb'boo,[3;6;6]); (n_g'bb'bvo,[3;7;6]); (n_g'bb'bov,[3;6;7]); (n_g'bb'bvv,[3;7;7]); (n_ls1,[3]); (n_s1,[3]); (n_lu11'aa,[3;5;4]); (n_u11'aa,[3;4;5]); (n_lu11'bb,[3;7;6]); (n_u11'bb,[3;6;7])]
 [(*5576*) Assign n_gc'aa'boo (Plain (Transpose n_g'aa'boo [0;2;1]));
  (*5576*) Assign n_gc'aa'bov (Plain (Transpose n_g'aa'bvo [0;2;1]));
  (*5576*) Assign n_gc'aa'bvo (Plain (Transpose n_g'aa'bov [0;2;1]));
  (*5576*) Assign n_gc'aa'bvv (Plain (Transpose n_g'aa'bvv [0;2;1]));
  (*5576*) Assign n_gc'bb'boo (Plain (Transpose n_g'bb'boo [0;2;1]));
  (*5576*) Assign n_gc'bb'bov (Plain (Transpose n_g'bb'bvo [0;2;1]));
  (*5576*) Assign n_gc'bb'bvo (Plain (Transpose n_g'bb'bov [0;2;1]));
  (*5576*) Assign n_gc'bb'bvv (Plain (Transpose n_g'bb'bvv [0;2;1]));
  (*5592*) Assign n_rdm1_b (Plain (Zeros [3;3]));
  (*5593*) AddTo n_rdm1_b (Plain (Einsum [(n_ls1,[0]); (n_s1,[1])] [0;1]));
  (*5594*) AddTo n_rdm1_b (Plain (Einsum [(n_lu11'aa,[0;1;2]); (n_u11'aa,[3;2;1])] [0;3]));
  (*5595*) AddTo n_rdm1_b (Plain (Einsum [(n_lu11'bb,[0;1;2]); (n_u11'bb,[3;2;1])] [0;3]))]
 [(n_rdm1_b,[3;3])].

(** ebcc/codegen/UCCSD_S_1_1.py:5599-5961 [make_eb_coup_rdm]; assembly (line 5949) not translated; assembly (line 5953) not translated *)
Definition UCCSD_S_1_1_make_eb_coup_rdm : prog := mkprog
 [(n_g'aa'boo,[3;4;4]); (n_g'aa'bvo,[3;5;4]); (n_g'aa'bov,[3;4;5]); (n_g'aa'bvv,[3;5;5]); (n_g'bb'boo,[3;6;6]); (n_g'bb'bvo,[3;7;6]); (n_g'bb'bov,[3;6;7]); (n_g'bb'bvv,[3;7;7]); (n_t1'aa,[4;5]); (n_lu11'aa,[3;5;4]); (n_u11'aa,[3;4;5]); (n_t1'bb,[6;7]); (n_lu11'bb,[3;7;6]); (n_u11'bb,[3;6;7]); (n_t2'aaaa,[4;4;5;5]); (n_t2'bbbb,[6;6;7;7]); (n_l1'aa,[5;4]); (n_l2'abab,[5;7;4;6]); (n_l2'aaaa,[5;5;4;4]); (n_t2'abab,[4;6;5;7]); (n_s1,[3]); (n_l1'bb,[7;6]); (n_l2'bbbb,[7;7;6;6]); (n_ls1,[3])]
 [(*5603*) Assign n_gc'aa'boo (Plain (Transpose n_g'aa'boo [0;2;1]));
  (*5603*) Assign n_gc'aa'bov (Plain (Transpose n_g'aa'bvo [0;2;1]));
  (*5603*) Assign n_gc'aa'bvo (Plain (Transpose n_g'aa'bov [0;2;1]));
  (*5603*) Assign n_gc'aa'bvv (Plain (Transpose n_g'aa'bvv [0;2;1]));
  (*5603*) Assign n_gc'bb'boo (Plain (Transpose n_g'bb'boo [0;2;1]));
  (*5603*) Assign n_gc'bb'bov (Plain (Transpose n_g'bb'bvo [0;2;1]));
  (*5603*) Assign n_gc'bb'bvo (Plain (Transpose n_g'bb'bov [0;2;1]));
  (*5603*) Assign n_gc'bb'bvv (Plain (Transpose n_g'bb'bvv [0;2;1]));
  (*5619*) Assign n_delta_oo'aa (Plain (Eye 4));
  (*5620*) Assign n_delta_oo'bb (Plain (Eye 6));
  (*5622*) Assign n_delta_vv'aa (Plain (Eye 5));
  (*5623*) Assign n_delta_vv'bb (Plain (Eye 7));
  (*5626*) Assign (T 1) (Plain (Zeros [3;4;4]));
  (*5627*) AddTo (T 1) (Plain (Einsum [(n_t1'aa,[0;1]); (n_lu11'aa,[2;1;3])] [2;3;0]));
  (*5628*) Assign (T 49) (Plain (Zeros [4;5]));
  (*5629*) AddTo (T 49) (Plain (Einsum [(n_u11'aa,[0;1;2]); (T 1,[0;1;3])] [3;2]));
  (*5630*) Assign n_rdm_eb_cre_oo_aa (Plain (Zeros [3;4;4]));
  (*5631*) SubFrom n_rdm_eb_cre_oo_aa (Plain (Einsum [(T 1,[0;1;2])] [0;2;1]));
  (*5632*) Assign n_rdm_eb_cre_ov_aa (Plain (Zeros [3;4;5]));
  (*5633*) SubFrom n_rdm_eb_cre_ov_aa (Plain (Einsum [(n_t1'aa,[0;1]); (T 1,[2;0;3])] [2;3;1]));
  (*5634*) Del (T 1);
  (*5635*) Assign (T 2) (Plain (Zeros [3;6;6]));
  (*5636*) AddTo (T 2) (Plain (Einsum [(n_t1'bb,[0;1]); (n_lu11'bb,[2;1;3])] [2;3;0]));
  (*5637*) Assign (T 61) (Plain (Zeros [6;7]));
  (*5638*) AddTo (T 61) (Plain (Einsum [(n_u11'bb,[0;1;2]); (T 2,[0;1;3])] [3;2]));
  (*5639*) Assign n_rdm_eb_cre_oo_bb (Plain (Zeros [3;6;6]));
  (*5640*) SubFrom n_rdm_eb_cre_oo_bb (Plain (Einsum [(T 2,[0;1;2])] [0;2;1]));
  (*5641*) Assign n_rdm_eb_cre_ov_bb (Plain (Zeros [3;6;7]));
  (*5642*) SubFrom n_rdm_eb_cre_ov_bb (Plain (Einsum [(n_t1'bb,[0;1]); (T 2,[2;0;3])] [2;3;1]));
  (*5643*) Del (T 2);
  (*5644*) Assign (T 3) (Plain (Zeros [4;4;5;5]));
  (*5645*) AddTo (T 3) (Plain (Einsum [(n_t2'aaaa,[0;1;2;3])] [1;0;2;3]));
  (*5646*) SubFrom (T 3) (Plain (Einsum [(n_t2'aaaa,[0;1;2;3])] [1;0;3;2]));
  (*5647*) SubFrom n_rdm_eb_cre_ov_aa (Plain (Einsum [(n_lu11'aa,[0;1;2]); (T 3,[2;3;1;4])] [0;3;4]));
  (*5648*) Assign (T 4) (Plain (Zeros [6;6;7;7]));
  (*5649*) AddTo (T 4) (Plain (Einsum [(n_t2'bbbb,[0;1;2;3])] [1;0;2;3]));
  (*5650*) SubFrom (T 4) (Plain (Einsum [(n_t2'bbbb,[0;1;2;3])] [1;0;3;2]));
  (*5651*) SubFrom n_rdm_eb_cre_ov_bb (Plain (Einsum [(n_lu11'bb,[0;1;2]); (T 4,[2;3;1;4])] [0;3;4]));
  (*5652*) Assign (T 5) (Plain (Zeros [3;4;4]));
  (*5653*) AddTo (T 5) (Plain (Einsum [(n_l1'aa,[0;1]); (n_u11'aa,[2;3;0])] [2;1;3]));
  (*5654*) Assign (T 41) (Plain (Zeros [3;4;4]));
  (*5655*) AddTo (T 41) (Plain (Einsum [(T 5,[0;1;2])] [0;1;2]));
  (*5656*) Assign n_rdm_eb_des_oo_aa (Plain (Zeros [3;4;4]));
  (*5657*) SubFrom n_rdm_eb_des_oo_aa (Plain (Einsum [(T 5,[0;1;2])] [0;2;1]));
  (*5658*) Del (T 5);
  (*5659*) Assign (T 6) (Plain (Zeros [3;4;5]));
  (*5660*) AddTo (T 6) (Plain (Einsum [(n_u11'bb,[0;1;2]); (n_l2'abab,[3;2;4;1])] [0;4;3]));
  (*5661*) Assign (T 9) (Plain (Zeros [3;4;5]));
  (*5662*) AddTo (T 9) (Plain (Einsum [(T 6,[0;1;2])] [0;1;2]));
  (*5663*) Assign (T 32) (Plain (Zeros [3;4;5]));
  (*5664*) AddTo (T 32) (Plain (Einsum [(T 6,[0;1;2])] [0;1;2]));
  (*5665*) Assign n_rdm_eb_des_vo_aa (Plain (Zeros [3;5;4]));
  (*5666*) AddTo n_rdm_eb_des_vo_aa (Plain (Einsum [(T 6,[0;1;2])] [0;2;1]));
  (*5667*) Del (T 6);
  (*5668*) Assign (T 7) (Plain (Zeros [4;4;5;5]));
  (*5669*) AddTo (T 7) (Plain (Einsum [(n_l2'aaaa,[0;1;2;3])] [3;2;0;1]));
  (*5670*) AddTo (T 7) (Times (Einsum [(n_l2'aaaa,[0;1;2;3])] [3;2;1;0]) (-1) 1);
  (*5671*) Assign (T 8) (Plain (Zeros [3;4;5]));
  (*5672*) AddTo (T 8) (Plain (Einsum [(n_u11'aa,[0;1;2]); (T 7,[1;3;2;4])] [0;3;4]));
  (*5673*) AddTo (T 9) (Times (Einsum [(T 8,[0;1;2])] [0;1;2]) (-1) 1);
  (*5674*) Del (T 8);
  (*5675*) AddTo n_rdm_eb_des_oo_aa (Times (Einsum [(n_t1'aa,[0;1]); (T 9,[2;3;1])] [2;0;3]) (-1) 1);
  (*5676*) Assign n_rdm_eb_des_vv_aa (Plain (Zeros [3;5;5]));
  (*5677*) AddTo n_rdm_eb_des_vv_aa (Plain (Einsum [(n_t1'aa,[0;1]); (T 9,[2;0;3])] [2;3;1]));
  (*5678*) Del (T 9);
  (*5679*) Assign (T 38) (Plain (Zeros [5;5]));
  (*5680*) AddTo (T 38) (Plain (Einsum [(n_t2'aaaa,[0;1;2;3]); (T 7,[0;1;2;4])] [3;4]));
  (*5681*) Del (T 7);
  (*5682*) Assign (T 39) (Plain (Zeros [5;5]));
  (*5683*) AddTo (T 39) (Times (Einsum [(T 38,[0;1])] [1;0]) (-1) 1);
  (*5684*) Assign (T 62) (Plain (Zeros [5;5]));
  (*5685*) AddTo (T 62) (Times (Einsum [(T 38,[0;1])] [1;0]) (-1) 1);
  (*5686*) Del (T 38);
  (*5687*) Assign (T 10) (Plain (Zeros [4;4]));
  (*5688*) AddTo (T 10) (Plain (Einsum [(n_l1'aa,[0;1]); (n_t1'aa,[2;0])] [1;2]));
  (*5689*) Assign (T 15) (Plain (Zeros [4;4]));
  (*5690*) AddTo (T 15) (Plain (Einsum [(T 10,[0;1])] [0;1]));
  (*5691*) Assign (T 40) (Plain (Zeros [4;4]));
  (*5692*) AddTo (T 40) (Plain (Einsum [(T 10,[0;1])] [0;1]));
  (*5693*) Assign (T 48) (Plain (Zeros [4;4]));
  (*5694*) AddTo (T 48) (Plain (Einsum [(T 10,[0;1])] [0;1]));
  (*5695*) Del (T 10);
  (*5696*) Assign (T 11) (Plain (Zeros [4;4]));
  (*5697*) AddTo (T 11) (Plain (Einsum [(n_lu11'aa,[0;1;2]); (n_u11'aa,[0;3;1])] [2;3]));
  (*5698*) AddTo (T 15) (Plain (Einsum [(T 11,[0;1])] [0;1]));
  (*5699*) AddTo (T 40) (Plain (Einsum [(T 11,[0;1])] [0;1]));
  (*5700*) AddTo (T 48) (Plain (Einsum [(T 11,[0;1])] [0;1]));
  (*5701*) Del (T 11);
  (*5702*) Assign (T 12) (Plain (Zeros [4;4]));
  (*5703*) AddTo (T 12) (Plain (Einsum [(n_l2'abab,[0;1;2;3]); (n_t2'abab,[4;3;0;1])] [2;4]));
  (*5704*) AddTo (T 15) (Plain (Einsum [(T 12,[0;1])] [0;1]));
  (*5705*) AddTo (T 40) (Plain (Einsum [(T 12,[0;1])] [0;1]));
  (*5706*) AddTo (T 48) (Plain (Einsum [(T 12,[0;1])] [0;1]));
  (*5707*) Del (T 12);
  (*5708*) Assign (T 13) (Plain (Zeros [4;4;5;5]));
  (*5709*) AddTo (T 13) (Times (Einsum [(n_t2'aaaa,[0;1;2;3])] [1;0;2;3]) (-1) 1);
  (*5710*) AddTo (T 13) (Plain (Einsum [(n_t2'aaaa,[0;1;2;3])] [1;0;3;2]));
  (*5711*) Assign (T 14) (Plain (Zeros [4;4]));
  (*5712*) AddTo (T 14) (Plain (Einsum [(n_l2'aaaa,[0;1;2;3]); (T 13,[2;4;1;0])] [3;4]));
  (*5713*) AddTo (T 15) (Times (Einsum [(T 14,[0;1])] [0;1]) (-1) 1);
  (*5714*) AddTo (T 40) (Times (Einsum [(T 14,[0;1])] [0;1]) (-1) 1);
  (*5715*) Del (T 14);
  (*5716*) Assign n_rdm_eb_des_ov_aa (Plain (Zeros [3;4;5]));
  (*5717*) AddTo n_rdm_eb_des_ov_aa (Times (Einsum [(T 40,[0;1]); (n_u11'aa,[2;0;3])] [2;1;3]) (-1) 1);
  (*5718*) Del (T 40);
  (*5719*) AddTo (T 48) (Times (Einsum [(n_l2'aaaa,[0;1;2;3]); (T 13,[2;4;1;0])] [3;4]) (-1) 1);
  (*5720*) AddTo (T 49) (Plain (Einsum [(n_t1'aa,[0;1]); (T 48,[0;2])] [2;1]));
  (*5721*) Del (T 48);
  (*5722*) AddTo (T 49) (Times (Einsum [(n_l1'aa,[0;1]); (T 13,[1;2;0;3])] [2;3]) (-1) 1);
  (*5723*) Del (T 13);
  (*5724*) AddTo (T 15) (Times (Einsum [(n_delta_oo'aa,[0;1])] [1;0]) (-1) 1);
  (*5725*) AddTo n_rdm_eb_des_oo_aa (Times (Einsum [(n_s1,[0]); (T 15,[1;2])] [0;2;1]) (-1) 1);
  (*5726*) Del (T 15);
  (*5727*) Assign (T 16) (Plain (Zeros [3]));
  (*5728*) AddTo (T 16) (Plain (Einsum [(n_l1'aa,[0;1]); (n_u11'aa,[2;1;0])] [2]));
  (*5729*) Assign (T 18) (Plain (Zeros [3]));
  (*5730*) AddTo (T 18) (Plain (Einsum [(T 16,[0])] [0]));
  (*5731*) Del (T 16);
  (*5732*) Assign (T 17) (Plain (Zeros [3]));
  (*5733*) AddTo (T 17) (Plain (Einsum [(n_l1'bb,[0;1]); (n_u11'bb,[2;1;0])] [2]));
  (*5734*) AddTo (T 18) (Plain (Einsum [(T 17,[0])] [0]));
  (*5735*) Del (T 17);
  (*5736*) AddTo n_rdm_eb_des_oo_aa (Plain (Einsum [(T 18,[0]); (n_delta_oo'aa,[1;2])] [0;2;1]));
  (*5737*) Assign n_rdm_eb_des_oo_bb (Plain (Zeros [3;6;6]));
  (*5738*) AddTo n_rdm_eb_des_oo_bb (Plain (Einsum [(T 18,[0]); (n_delta_oo'bb,[1;2])] [0;2;1]));
  (*5739*) AddTo n_rdm_eb_des_ov_aa (Plain (Einsum [(T 18,[0]); (n_t1'aa,[1;2])] [0;1;2]));
  (*5740*) Assign n_rdm_eb_des_ov_bb (Plain (Zeros [3;6;7]));
  (*5741*) AddTo n_rdm_eb_des_ov_bb (Plain (Einsum [(T 18,[0]); (n_t1'bb,[1;2])] [0;1;2]));
  (*5742*) Del (T 18);
  (*5743*) Assign (T 19) (Plain (Zeros [3;6;6]));
  (*5744*) AddTo (T 19) (Plain (Einsum [(n_l1'bb,[0;1]); (n_u11'bb,[2;3;0])] [2;1;3]));
  (*5745*) Assign (T 55) (Plain (Zeros [3;6;6]));
  (*5746*) AddTo (T 55) (Plain (Einsum [(T 19,[0;1;2])] [0;1;2]));
  (*5747*) SubFrom n_rdm_eb_des_oo_bb (Plain (Einsum [(T 19,[0;1;2])] [0;2;1]));
  (*5748*) Del (T 19);
  (*5749*) Assign (T 20) (Plain (Zeros [3;6;7]));
  (*5750*) AddTo (T 20) (Plain (Einsum [(n_u11'aa,[0;1;2]); (n_l2'abab,[2;3;1;4])] [0;4;3]));
  (*5751*) Assign (T 23) (Plain (Zeros [3;6;7]));
  (*5752*) AddTo (T 23) (Plain (Einsum [(T 20,[0;1;2])] [0;1;2]));
  (*5753*) Assign (T 35) (Plain (Zeros [3;6;7]));
  (*5754*) AddTo (T 35) (Plain (Einsum [(T 20,[0;1;2])] [0;1;2]));
  (*5755*) Assign n_rdm_eb_des_vo_bb (Plain (Zeros [3;7;6]));
  (*5756*) AddTo n_rdm_eb_des_vo_bb (Plain (Einsum [(T 20,[0;1;2])] [0;2;1]));
  (*5757*) Del (T 20);
  (*5758*) Assign (T 21) (Plain (Zeros [6;6;7;7]));
  (*5759*) AddTo (T 21) (Plain (Einsum [(n_l2'bbbb,[0;1;2;3])] [3;2;0;1]));
  (*5760*) AddTo (T 21) (Times (Einsum [(n_l2'bbbb,[0;1;2;3])] [3;2;1;0]) (-1) 1);
  (*5761*) Assign (T 22) (Plain (Zeros [3;6;7]));
  (*5762*) AddTo (T 22) (Plain (Einsum [(n_u11'bb,[0;1;2]); (T 21,[1;3;2;4])] [0;3;4]));
  (*5763*) AddTo (T 23) (Times (Einsum [(T 22,[0;1;2])] [0;1;2]) (-1) 1);
  (*5764*) Del (T 22);
  (*5765*) AddTo n_rdm_eb_des_oo_bb (Times (Einsum [(n_t1'bb,[0;1]); (T 23,[2;3;1])] [2;0;3]) (-1) 1);
  (*5766*) Assign n_rdm_eb_des_vv_bb (Plain (Zeros [3;7;7]));
  (*5767*) AddTo n_rdm_eb_des_vv_bb (Plain (Einsum [(n_t1'bb,[0;1]); (T 23,[2;0;3])] [2;3;1]));
  (*5768*) Del (T 23);
  (*5769*) Assign (T 52) (Plain (Zeros [7;7]));
  (*5770*) AddTo (T 52) (Plain (Einsum [(n_t2'bbbb,[0;1;2;3]); (T 21,[0;1;4;3])] [2;4]));
  (*5771*) Del (T 21);
  (*5772*) Assign (T 53) (Plain (Zeros [7;7]));
  (*5773*) AddTo (T 53) (Times (Einsum [(T 52,[0;1])] [1;0]) (-1) 1);
  (*5774*) Assign (T 63) (Plain (Zeros [7;7]));
  (*5775*) AddTo (T 63) (Times (Einsum [(T 52,[0;1])] [1;0]) (-1) 1);
  (*5776*) Del (T 52);
  (*5777*) Assign (T 24) (Plain (Zeros [6;6]));
  (*5778*) AddTo (T 24) (Plain (Einsum [(n_l1'bb,[0;1]); (n_t1'bb,[2;0])] [1;2]));
  (*5779*) Assign (T 29) (Plain (Zeros [6;6]));
  (*5780*) AddTo (T 29) (Plain (Einsum [(T 24,[0;1])] [0;1]));
  (*5781*) Assign (T 54) (Plain (Zeros [6;6]));
  (*5782*) AddTo (T 54) (Plain (Einsum [(T 24,[0;1])] [0;1]));
  (*5783*) Assign (T 60) (Plain (Zeros [6;6]));
  (*5784*) AddTo (T 60) (Plain (Einsum [(T 24,[0;1])] [0;1]));
  (*5785*) Del (T 24);
  (*5786*) Assign (T 25) (Plain (Zeros [6;6]));
  (*5787*) AddTo (T 25) (Plain (Einsum [(n_lu11'bb,[0;1;2]); (n_u11'bb,[0;3;1])] [2;3]));
  (*5788*) AddTo (T 29) (Plain (Einsum [(T 25,[0;1])] [0;1]));
  (*5789*) AddTo (T 54) (Plain (Einsum [(T 25,[0;1])] [0;1]));
  (*5790*) AddTo (T 60) (Plain (Einsum [(T 25,[0;1])] [0;1]));
  (*5791*) Del (T 25);
  (*5792*) Assign (T 26) (Plain (Zeros [6;6]));
  (*5793*) AddTo (T 26) (Plain (Einsum [(n_l2'abab,[0;1;2;3]); (n_t2'abab,[2;4;0;1])] [3;4]));
  (*5794*) AddTo (T 29) (Plain (Einsum [(T 26,[0;1])] [0;1]));
  (*5795*) AddTo (T 54) (Plain (Einsum [(T 26,[0;1])] [0;1]));
  (*5796*) AddTo (T 60) (Plain (Einsum [(T 26,[0;1])] [0;1]));
  (*5797*) Del (T 26);
  (*5798*) Assign (T 27) (Plain (Zeros [6;6;7;7]));
  (*5799*) AddTo (T 27) (Plain (Einsum [(n_t2'bbbb,[0;1;2;3])] [1;0;2;3]));
  (*5800*) AddTo (T 27) (Times (Einsum [(n_t2'bbbb,[0;1;2;3])] [1;0;3;2]) (-1) 1);
  (*5801*) Assign (T 28) (Plain (Zeros [6;6]));
  (*5802*) AddTo (T 28) (Plain (Einsum [(n_l2'bbbb,[0;1;2;3]); (T 27,[2;4;0;1])] [3;4]));
  (*5803*) AddTo (T 29) (Times (Einsum [(T 28,[0;1])] [0;1]) (-1) 1);
  (*5804*) AddTo (T 54) (Times (Einsum [(T 28,[0;1])] [0;1]) (-1) 1);
  (*5805*) Del (T 28);
  (*5806*) AddTo n_rdm_eb_des_ov_bb (Times (Einsum [(T 54,[0;1]); (n_u11'bb,[2;0;3])] [2;1;3]) (-1) 1);
  (*5807*) Del (T 54);
  (*5808*) AddTo (T 60) (Times (Einsum [(n_l2'bbbb,[0;1;2;3]); (T 27,[2;4;0;1])] [3;4]) (-1) 1);
  (*5809*) Del (T 27);
  (*5810*) AddTo (T 61) (Plain (Einsum [(n_t1'bb,[0;1]); (T 60,[0;2])] [2;1]));
  (*5811*) Del (T 60);
  (*5812*) AddTo (T 29) (Times (Einsum [(n_delta_oo'bb,[0;1])] [1;0]) (-1) 1);
  (*5813*) AddTo n_rdm_eb_des_oo_bb (Times (Einsum [(n_s1,[0]); (T 29,[1;2])] [0;2;1]) (-1) 1);
  (*5814*) Del (T 29);
  (*5815*) Assign (T 30) (Plain (Zeros [4;4;5;5]));
  (*5816*) AddTo (T 30) (Plain (Einsum [(n_l2'aaaa,[0;1;2;3])] [3;2;0;1]));
  (*5817*) SubFrom (T 30) (Plain (Einsum [(n_l2'aaaa,[0;1;2;3])] [3;2;1;0]));
  (*5818*) Assign (T 31) (Plain (Zeros [3;4;5]));
  (*5819*) AddTo (T 31) (Plain (Einsum [(n_u11'aa,[0;1;2]); (T 30,[1;3;2;4])] [0;3;4]));
  (*5820*) Del (T 30);
  (*5821*) SubFrom (T 32) (Plain (Einsum [(T 31,[0;1;2])] [0;1;2]));
  (*5822*) AddTo (T 41) (Plain (Einsum [(n_t1'aa,[0;1]); (T 32,[2;3;1])] [2;3;0]));
  (*5823*) SubFrom n_rdm_eb_des_ov_aa (Plain (Einsum [(n_t1'aa,[0;1]); (T 41,[2;0;3])] [2;3;1]));
  (*5824*) Del (T 41);
  (*5825*) SubFrom n_rdm_eb_des_ov_aa (Plain (Einsum [(T 32,[0;1;2]); (T 3,[1;3;2;4])] [0;3;4]));
  (*5826*) Del (T 3);
  (*5827*) AddTo n_rdm_eb_des_ov_bb (Plain (Einsum [(T 32,[0;1;2]); (n_t2'abab,[1;3;2;4])] [0;3;4]));
  (*5828*) Del (T 32);
  (*5829*) SubFrom n_rdm_eb_des_vo_aa (Plain (Einsum [(T 31,[0;1;2])] [0;2;1]));
  (*5830*) Del (T 31);
  (*5831*) Assign (T 33) (Plain (Zeros [6;6;7;7]));
  (*5832*) AddTo (T 33) (Plain (Einsum [(n_l2'bbbb,[0;1;2;3])] [3;2;0;1]));
  (*5833*) SubFrom (T 33) (Plain (Einsum [(n_l2'bbbb,[0;1;2;3])] [3;2;1;0]));
  (*5834*) Assign (T 34) (Plain (Zeros [3;6;7]));
  (*5835*) AddTo (T 34) (Plain (Einsum [(n_u11'bb,[0;1;2]); (T 33,[1;3;2;4])] [0;3;4]));
  (*5836*) Del (T 33);
  (*5837*) SubFrom (T 35) (Plain (Einsum [(T 34,[0;1;2])] [0;1;2]));
  (*5838*) AddTo (T 55) (Plain (Einsum [(n_t1'bb,[0;1]); (T 35,[2;3;1])] [2;3;0]));
  (*5839*) SubFrom n_rdm_eb_des_ov_bb (Plain (Einsum [(n_t1'bb,[0;1]); (T 55,[2;0;3])] [2;3;1]));
  (*5840*) Del (T 55);
  (*5841*) AddTo n_rdm_eb_des_ov_aa (Plain (Einsum [(T 35,[0;1;2]); (n_t2'abab,[3;1;4;2])] [0;3;4]));
  (*5842*) SubFrom n_rdm_eb_des_ov_bb (Plain (Einsum [(T 35,[0;1;2]); (T 4,[1;3;2;4])] [0;3;4]));
  (*5843*) Del (T 35);
  (*5844*) Del (T 4);
  (*5845*) SubFrom n_rdm_eb_des_vo_bb (Plain (Einsum [(T 34,[0;1;2])] [0;2;1]));
  (*5846*) Del (T 34);
  (*5847*) Assign (T 36) (Plain (Zeros [5;5]));
  (*5848*) AddTo (T 36) (Plain (Einsum [(n_lu11'aa,[0;1;2]); (n_u11'aa,[0;2;3])] [1;3]));
  (*5849*) AddTo (T 39) (Plain (Einsum [(T 36,[0;1])] [0;1]));
  (*5850*) AddTo (T 62) (Plain (Einsum [(T 36,[0;1])] [0;1]));
  (*5851*) Del (T 36);
  (*5852*) Assign (T 37) (Plain (Zeros [5;5]));
  (*5853*) AddTo (T 37) (Plain (Einsum [(n_l2'abab,[0;1;2;3]); (n_t2'abab,[2;3;4;1])] [0;4]));
  (*5854*) AddTo (T 39) (Plain (Einsum [(T 37,[0;1])] [0;1]));
  (*5855*) AddTo n_rdm_eb_des_ov_aa (Times (Einsum [(T 39,[0;1]); (n_u11'aa,[2;3;0])] [2;3;1]) (-1) 1);
  (*5856*) Del (T 39);
  (*5857*) AddTo (T 62) (Plain (Einsum [(T 37,[0;1])] [0;1]));
  (*5858*) Del (T 37);
  (*5859*) Assign (T 42) (Plain (Zeros [3;3]));
  (*5860*) AddTo (T 42) (Plain (Einsum [(n_lu11'aa,[0;1;2]); (n_u11'aa,[3;2;1])] [0;3]));
  (*5861*) Assign (T 44) (Plain (Zeros [3;3]));
  (*5862*) AddTo (T 44) (Plain (Einsum [(T 42,[0;1])] [0;1]));
  (*5863*) Del (T 42);
  (*5864*) Assign (T 43) (Plain (Zeros [3;3]));
  (*5865*) AddTo (T 43) (Plain (Einsum [(n_lu11'bb,[0;1;2]); (n_u11'bb,[3;2;1])] [0;3]));
  (*5866*) AddTo (T 44) (Plain (Einsum [(T 43,[0;1])] [0;1]));
  (*5867*) Del (T 43);
  (*5868*) AddTo n_rdm_eb_des_ov_aa (Plain (Einsum [(T 44,[0;1]); (n_u11'aa,[0;2;3])] [1;2;3]));
  (*5869*) AddTo n_rdm_eb_des_ov_bb (Plain (Einsum [(T 44,[0;1]); (n_u11'bb,[0;2;3])] [1;2;3]));
  (*5870*) Del (T 44);
  (*5871*) Assign (T 45) (Plain (Zeros [4;4;6;7]));
  (*5872*) AddTo (T 45) (Plain (Einsum [(n_t1'aa,[0;1]); (n_l2'abab,[1;2;3;4])] [3;0;4;2]));
  (*5873*) AddTo (T 49) (Plain (Einsum [(n_t2'abab,[0;1;2;3]); (T 45,[0;4;1;3])] [4;2]));
  (*5874*) Del (T 45);
  (*5875*) Assign (T 46) (Plain (Zeros [4;4;4;5]));
  (*5876*) AddTo (T 46) (Plain (Einsum [(n_t1'aa,[0;1]); (n_l2'aaaa,[2;1;3;4])] [3;4;0;2]));
  (*5877*) Assign (T 47) (Plain (Zeros [4;4;4;5]));
  (*5878*) AddTo (T 47) (Plain (Einsum [(T 46,[0;1;2;3])] [0;1;2;3]));
  (*5879*) AddTo (T 47) (Times (Einsum [(T 46,[0;1;2;3])] [1;0;2;3]) (-1) 1);
  (*5880*) Del (T 46);
  (*5881*) AddTo (T 49) (Times (Einsum [(n_t2'aaaa,[0;1;2;3]); (T 47,[1;0;4;2])] [4;3]) (-1) 1);
  (*5882*) Del (T 47);
  (*5883*) AddTo (T 49) (Times (Einsum [(n_t1'aa,[0;1])] [0;1]) (-1) 1);
  (*5884*) AddTo (T 49) (Times (Einsum [(n_ls1,[0]); (n_u11'aa,[0;1;2])] [1;2]) (-1) 1);
  (*5885*) AddTo (T 49) (Times (Einsum [(n_l1'bb,[0;1]); (n_t2'abab,[2;1;3;0])] [2;3]) (-1) 1);
  (*5886*) AddTo n_rdm_eb_des_ov_aa (Times (Einsum [(n_s1,[0]); (T 49,[1;2])] [0;1;2]) (-1) 1);
  (*5887*) Del (T 49);
  (*5888*) Assign (T 50) (Plain (Zeros [7;7]));
  (*5889*) AddTo (T 50) (Plain (Einsum [(n_lu11'bb,[0;1;2]); (n_u11'bb,[0;2;3])] [1;3]));
  (*5890*) AddTo (T 53) (Plain (Einsum [(T 50,[0;1])] [0;1]));
  (*5891*) AddTo (T 63) (Plain (Einsum [(T 50,[0;1])] [0;1]));
  (*5892*) Del (T 50);
  (*5893*) Assign (T 51) (Plain (Zeros [7;7]));
  (*5894*) AddTo (T 51) (Plain (Einsum [(n_l2'abab,[0;1;2;3]); (n_t2'abab,[2;3;0;4])] [1;4]));
  (*5895*) AddTo (T 53) (Plain (Einsum [(T 51,[0;1])] [0;1]));
  (*5896*) AddTo n_rdm_eb_des_ov_bb (Times (Einsum [(T 53,[0;1]); (n_u11'bb,[2;3;0])] [2;3;1]) (-1) 1);
  (*5897*) Del (T 53);
  (*5898*) AddTo (T 63) (Plain (Einsum [(T 51,[0;1])] [0;1]));
  (*5899*) Del (T 51);
  (*5900*) Assign (T 56) (Plain (Zeros [4;6;6;5]));
  (*5901*) AddTo (T 56) (Plain (Einsum [(n_t1'bb,[0;1]); (n_l2'abab,[2;1;3;4])] [3;4;0;2]));
  (*5902*) AddTo (T 61) (Plain (Einsum [(n_t2'abab,[0;1;2;3]); (T 56,[0;1;4;2])] [4;3]));
  (*5903*) Del (T 56);
  (*5904*) Assign (T 57) (Plain (Zeros [6;6;6;7]));
  (*5905*) AddTo (T 57) (Plain (Einsum [(n_t1'bb,[0;1]); (n_l2'bbbb,[2;1;3;4])] [3;4;0;2]));
  (*5906*) Assign (T 58) (Plain (Zeros [6;6;6;7]));
  (*5907*) AddTo (T 58) (Plain (Einsum [(T 57,[0;1;2;3])] [0;1;2;3]));
  (*5908*) AddTo (T 58) (Times (Einsum [(T 57,[0;1;2;3])] [1;0;2;3]) (-1) 1);
  (*5909*) Del (T 57);
  (*5910*) AddTo (T 61) (Times (Einsum [(n_t2'bbbb,[0;1;2;3]); (T 58,[0;1;4;3])] [4;2]) (-1) 1);
  (*5911*) Del (T 58);
  (*5912*) Assign (T 59) (Plain (Zeros [6;6;7;7]));
  (*5913*) AddTo (T 59) (Times (Einsum [(n_t2'bbbb,[0;1;2;3])] [1;0;2;3]) (-1) 1);
  (*5914*) AddTo (T 59) (Plain (Einsum [(n_t2'bbbb,[0;1;2;3])] [1;0;3;2]));
  (*5915*) AddTo (T 61) (Times (Einsum [(n_l1'bb,[0;1]); (T 59,[1;2;0;3])] [2;3]) (-1) 1);
  (*5916*) Del (T 59);
  (*5917*) AddTo (T 61) (Times (Einsum [(n_t1'bb,[0;1])] [0;1]) (-1) 1);
  (*5918*) AddTo (T 61) (Times (Einsum [(n_ls1,[0]); (n_u11'bb,[0;1;2])] [1;2]) (-1) 1);
  (*5919*) AddTo (T 61) (Times (Einsum [(n_l1'aa,[0;1]); (n_t2'abab,[1;2;0;3])] [2;3]) (-1) 1);
  (*5920*) AddTo n_rdm_eb_des_ov_bb (Times (Einsum [(n_s1,[0]); (T 61,[1;2])] [0;1;2]) (-1) 1);
  (*5921*) Del (T 61);
  (*5922*) AddTo (T 62) (Plain (Einsum [(n_l1'aa,[0;1]); (n_t1'aa,[1;2])] [0;2]));
  (*5923*) AddTo n_rdm_eb_des_vv_aa (Plain (Einsum [(n_s1,[0]); (T 62,[1;2])] [0;1;2]));
  (*5924*) Del (T 62);
  (*5925*) AddTo (T 63) (Plain (Einsum [(n_l1'bb,[0;1]); (n_t1'bb,[1;2])] [0;2]));
  (*5926*) AddTo n_rdm_eb_des_vv_bb (Plain (Einsum [(n_s1,[0]); (T 63,[1;2])] [0;1;2]));
  (*5927*) Del (T 63);
  (*5928*) AddTo n_rdm_eb_cre_oo_aa (Plain (Einsum [(n_ls1,[0]); (n_delta_oo'aa,[1;2])] [0;2;1]));
  (*5929*) AddTo n_rdm_eb_cre_oo_bb (Plain (Einsum [(n_ls1,[0]); (n_delta_oo'bb,[1;2])] [0;2;1]));
  (*5930*) AddTo n_rdm_eb_cre_ov_aa (Plain (Einsum [(n_ls1,[0]); (n_t1'aa,[1;2])] [0;1;2]));
  (*5931*) AddTo n_rdm_eb_cre_ov_aa (Plain (Einsum [(n_lu11'bb,[0;1;2]); (n_t2'abab,[3;2;4;1])] [0;3;4]));
  (*5932*) AddTo n_rdm_eb_cre_ov_bb (Plain (Einsum [(n_ls1,[0]); (n_t1'bb,[1;2])] [0;1;2]));
  (*5933*) AddTo n_rdm_eb_cre_ov_bb (Plain (Einsum [(n_lu11'aa,[0;1;2]); (n_t2'abab,[2;3;1;4])] [0;3;4]));
  (*5934*) Assign n_rdm_eb_cre_vo_aa (Plain (Zeros [3;5;4]));
  (*5935*) AddTo n_rdm_eb_cre_vo_aa (Plain (Einsum [(n_lu11'aa,[0;1;2])] [0;1;2]));
  (*5936*) Assign n_rdm_eb_cre_vo_bb (Plain (Zeros [3;7;6]));
  (*5937*) AddTo n_rdm_eb_cre_vo_bb (Plain (Einsum [(n_lu11'bb,[0;1;2])] [0;1;2]));
  (*5938*) Assign n_rdm_eb_cre_vv_aa (Plain (Zeros [3;5;5]));
  (*5939*) AddTo n_rdm_eb_cre_vv_aa (Plain (Einsum [(n_t1'aa,[0;1]); (n_lu11'aa,[2;3;0])] [2;3;1]));
  (*5940*) Assign n_rdm_eb_cre_vv_bb (Plain (Zeros [3;7;7]));
  (*5941*) AddTo n_rdm_eb_cre_vv_bb (Plain (Einsum [(n_t1'bb,[0;1]); (n_lu11'bb,[2;3;0])] [2;3;1]));
  (*5942*) AddTo n_rdm_eb_des_ov_aa (Plain (Einsum [(n_u11'aa,[0;1;2])] [0;1;2]));
  (*5943*) AddTo n_rdm_eb_des_ov_bb (Plain (Einsum [(n_u11'bb,[0;1;2])] [0;1;2]));
  (*5944*) AddTo n_rdm_eb_des_vo_aa (Plain (Einsum [(n_s1,[0]); (n_l1'aa,[1;2])] [0;1;2]));
  (*5945*) AddTo n_rdm_eb_des_vo_bb (Plain (Einsum [(n_s1,[0]); (n_l1'bb,[1;2])] [0;1;2]));
  (*5946*) AddTo n_rdm_eb_des_vv_aa (Plain (Einsum [(n_l1'aa,[0;1]); (n_u11'aa,[2;1;3])] [2;0;3]));
  (*5947*) AddTo n_rdm_eb_des_vv_bb (Plain (Einsum [(n_l1'bb,[0;1]); (n_u11'bb,[2;1;3])] [2;0;3]))]
 [(n_rdm_eb_cre_oo_aa,[3;4;4]); (n_rdm_eb_cre_ov_aa,[3;4;5]); (n_rdm_eb_cre_vo_aa,[3;5;4]); (n_rdm_eb_cre_vv_aa,[3;5;5]); (n_rdm_eb_des_oo_aa,[3;4;4]); (n_rdm_eb_des_ov_aa,[3;4;5]); (n_rdm_eb_des_vo_aa,[3;5;4]); (n_rdm_eb_des_vv_aa,[3;5;5]); (n_rdm_eb_cre_oo_bb,[3;6;6]); (n_rdm_eb_cre_ov_bb,[3;6;7]); (n_rdm_eb_cre_vo_bb,[3;7;6]); (n_rdm_eb_cre_vv_bb,[3;7;7]); (n_rdm_eb_des_oo_bb,[3;6;6]); (n_rdm_eb_des_ov_bb,[3;6;7]); (n_rdm_eb_des_vo_bb,[3;7;6]); (n_rdm_eb_des_vv_bb,[3;7;7])].

