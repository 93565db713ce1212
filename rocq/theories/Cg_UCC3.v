(** Generated by tools/translate_codegen.py from ebcc/codegen/UCC3.py; one statement per source line
    (the number in the comment before it). *)
From Coq Require Import ZArith List.
From Verif Require Import CgModel CgNames.
Import ListNotations.

(** ebcc/codegen/UCC3.py:19-59 [energy] *)
Definition UCC3_energy : prog := mkprog
 [(n_v'bbbb'ovov,[6;7;6;7]); (n_v'aaaa'ovov,[4;5;4;5]); (n_f'bb'ov,[6;7]); (n_t1'aa,[4;5]); (n_v'aabb'ovov,[4;5;6;7]); (n_t1'bb,[6;7]); (n_f'aa'ov,[4;5]); (n_t2'abab,[4;6;5;7]); (n_t2'bbbb,[6;6;7;7]); (n_t2'aaaa,[4;4;5;5])]
 [(*40*) Assign (T 1) (Plain (Transpose n_v'bbbb'ovov [0;2;3;1]));
  (*41*) AddTo (T 1) (Times (Transpose n_v'bbbb'ovov [0;2;1;3]) (-1) 1);
  (*42*) Assign (T 3) (Plain (Transpose n_v'aaaa'ovov [0;2;3;1]));
  (*43*) AddTo (T 3) (Times (Transpose n_v'aaaa'ovov [0;2;1;3]) (-1) 1);
  (*44*) Assign (T 2) (Plain (Copy n_f'bb'ov));
  (*45*) AddTo (T 2) (Plain (Einsum [(n_t1'aa,[0;1]); (n_v'aabb'ovov,[0;1;2;3])] [2;3]));
  (*46*) AddTo (T 2) (Times (Einsum [(n_t1'bb,[0;1]); (T 1,[0;2;1;3])] [2;3]) (-1) 2);
  (*47*) Del (T 1);
  (*48*) Assign (T 4) (Plain (Copy n_f'aa'ov));
  (*49*) AddTo (T 4) (Times (Einsum [(T 3,[0;1;2;3]); (n_t1'aa,[0;2])] [1;3]) (-1) 2);
  (*50*) Del (T 3);
  (*51*) Assign n_e_cc (Plain (Einsum [(n_t2'abab,[0;1;2;3]); (n_v'aabb'ovov,[0;2;1;3])] []));
  (*52*) AddTo n_e_cc (Plain (Einsum [(n_t2'bbbb,[0;1;2;3]); (n_v'bbbb'ovov,[0;2;1;3])] []));
  (*53*) AddTo n_e_cc (Times (Einsum [(n_v'aaaa'ovov,[0;1;2;3]); (n_t2'aaaa,[0;2;3;1])] []) (-1) 1);
  (*54*) AddTo n_e_cc (Plain (Einsum [(n_t1'bb,[0;1]); (T 2,[0;1])] []));
  (*55*) Del (T 2);
  (*56*) AddTo n_e_cc (Plain (Einsum [(n_t1'aa,[0;1]); (T 4,[0;1])] []));
  (*57*) Del (T 4)]
 [(n_e_cc,[])].

(** ebcc/codegen/UCC3.py:61-2450 [update_amps] *)
Definition UCC3_update_amps : prog := mkprog
 [(n_v'bbbb'ovov,[6;7;6;7]); (n_v'aaaa'ovov,[4;5;4;5]); (n_t1'bb,[6;7]); (n_v'bbbb'ooov,[6;6;6;7]); (n_v'aabb'ovov,[4;5;6;7]); (n_t1'aa,[4;5]); (n_v'aaaa'ooov,[4;4;4;5]); (n_v'bbbb'ovvv,[6;7;7;7]); (n_v'aabb'ovvv,[4;5;7;7]); (n_v'aabb'vvov,[5;5;6;7]); (n_v'aabb'ovoo,[4;5;6;6]); (n_v'aaaa'ovvv,[4;5;5;5]); (n_v'aabb'ooov,[4;4;6;7]); (n_v'bbbb'ovoo,[6;7;6;6]); (n_f'bb'ov,[6;7]); (n_f'aa'ov,[4;5]); (n_v'aaaa'ovoo,[4;5;4;4]); (n_t3'bbbbbb,[6;6;6;7;7;7]); (n_v'bbbb'oooo,[6;6;6;6]); (n_t2'bbbb,[6;6;7;7]); (n_v'bbbb'oovv,[6;6;7;7]); (n_t2'abab,[4;6;5;7]); (n_v'bbbb'vvvv,[7;7;7;7]); (n_v'aabb'oooo,[4;4;6;6]); (n_v'aabb'vvoo,[5;5;6;6]); (n_v'aaaa'vvvv,[5;5;5;5]); (n_v'aabb'oovv,[4;4;7;7]); (n_v'aaaa'oovv,[4;4;5;5]); (n_v'aaaa'oooo,[4;4;4;4]); (n_t2'aaaa,[4;4;5;5]); (n_t3'aaaaaa,[4;4;4;5;5;5]); (n_f'bb'vv,[7;7]); (n_v'aabb'vvvv,[5;5;7;7]); (n_f'aa'vv,[5;5]); (n_f'bb'oo,[6;6]); (n_f'aa'oo,[4;4]); (n_t3'babbab,[6;4;6;7;5;7]); (n_t3'abaaba,[4;6;4;5;7;5])]
 [(*91*) Assign (T 15) (Plain (Transpose n_v'bbbb'ovov [0;2;3;1]));
  (*92*) AddTo (T 15) (Times (Transpose n_v'bbbb'ovov [0;2;1;3]) (-1) 1);
  (*93*) Assign (T 8) (Plain (Transpose n_v'aaaa'ovov [0;2;3;1]));
  (*94*) AddTo (T 8) (Times (Transpose n_v'aaaa'ovov [0;2;1;3]) (-1) 1);
  (*95*) Assign (T 198) (Plain (Einsum [(n_t1'bb,[0;1]); (n_v'bbbb'ooov,[2;3;4;1])] [0;2;3;4]));
  (*96*) Assign (T 23) (Plain (Einsum [(n_t1'bb,[0;1]); (n_v'aabb'ovov,[2;3;4;1])] [2;0;4;3]));
  (*97*) Assign (T 22) (Plain (Einsum [(n_t1'bb,[0;1]); (n_v'bbbb'ovov,[2;3;4;1])] [0;2;4;3]));
  (*98*) Assign (T 3) (Plain (Einsum [(n_v'aaaa'ovov,[0;1;2;3]); (n_t1'aa,[4;3])] [4;0;2;1]));
  (*99*) Assign (T 2) (Plain (Einsum [(n_t1'aa,[0;1]); (n_v'aabb'ovov,[2;1;3;4])] [0;2;3;4]));
  (*100*) Assign (T 65) (Plain (Einsum [(n_v'aaaa'ooov,[0;1;2;3]); (n_t1'aa,[4;3])] [4;0;1;2]));
  (*101*) Assign (T 16) (Plain (Einsum [(n_t1'bb,[0;1]); (T 15,[0;2;1;3])] [2;3]));
  (*102*) Del (T 15);
  (*103*) Assign (T 14) (Plain (Einsum [(n_t1'aa,[0;1]); (n_v'aabb'ovov,[0;1;2;3])] [2;3]));
  (*104*) Assign (T 1) (Plain (Einsum [(n_t1'bb,[0;1]); (n_v'aabb'ovov,[2;3;0;1])] [2;3]));
  (*105*) Assign (T 9) (Plain (Einsum [(n_t1'aa,[0;1]); (T 8,[0;2;1;3])] [2;3]));
  (*106*) Assign (T 558) (Plain (Copy n_v'bbbb'ovvv));
  (*107*) AddTo (T 558) (Times (Transpose n_v'bbbb'ovvv [0;2;3;1]) (-1) 1);
  (*108*) Assign (T 455) (Times (Transpose (T 198) [0;2;1;3]) (-1) 1);
  (*109*) AddTo (T 455) (Plain (Transpose (T 198) [0;2;3;1]));
  (*110*) Assign (T 544) (Times (Transpose (T 198) [0;2;1;3]) (-1) 1);
  (*111*) AddTo (T 544) (Plain (Transpose (T 198) [0;3;2;1]));
  (*112*) Assign (T 165) (Plain (Copy n_v'bbbb'ovvv));
  (*113*) AddTo (T 165) (Times (Transpose n_v'bbbb'ovvv [0;2;3;1]) (-1) 1);
  (*114*) Assign (T 140) (Plain (Einsum [(T 23,[0;1;2;3]); (n_t1'bb,[2;4])] [0;1;3;4]));
  (*115*) Assign (T 141) (Plain (Einsum [(n_v'aabb'ovvv,[0;1;2;3]); (n_t1'bb,[4;3])] [0;4;1;2]));
  (*116*) Assign (T 207) (Plain (Einsum [(T 22,[0;1;2;3]); (n_t1'bb,[2;4])] [0;1;4;3]));
  (*117*) Assign (T 153) (Plain (Einsum [(n_t1'aa,[0;1]); (T 23,[2;3;4;1])] [0;2;3;4]));
  (*118*) Assign (T 142) (Plain (Einsum [(n_t1'bb,[0;1]); (n_v'aabb'vvov,[2;3;4;1])] [0;4;2;3]));
  (*119*) Assign (T 139) (Plain (Einsum [(n_v'aabb'ovoo,[0;1;2;3]); (n_t1'aa,[4;1])] [4;0;2;3]));
  (*120*) Assign (T 82) (Times (Copy n_v'aaaa'ovvv) (-1) 1);
  (*121*) AddTo (T 82) (Plain (Transpose n_v'aaaa'ovvv [0;2;1;3]));
  (*122*) Assign (T 74) (Plain (Einsum [(n_t1'aa,[0;1]); (T 3,[2;3;0;4])] [2;3;1;4]));
  (*123*) Assign (T 78) (Plain (Einsum [(n_t1'aa,[0;1]); (n_v'aabb'vvov,[2;1;3;4])] [0;3;2;4]));
  (*124*) Assign (T 79) (Plain (Einsum [(T 2,[0;1;2;3]); (n_t1'aa,[1;4])] [0;2;4;3]));
  (*125*) Assign (T 136) (Plain (Einsum [(n_t1'bb,[0;1]); (n_v'aabb'ooov,[2;3;4;1])] [2;3;0;4]));
  (*126*) Assign (T 265) (Plain (Transpose (T 65) [0;2;1;3]));
  (*127*) AddTo (T 265) (Times (Transpose (T 65) [0;3;2;1]) (-1) 1);
  (*128*) Assign (T 59) (Times (Copy n_v'aaaa'ovvv) (-1) 1);
  (*129*) AddTo (T 59) (Plain (Transpose n_v'aaaa'ovvv [0;2;1;3]));
  (*130*) Assign (T 268) (Times (Transpose (T 65) [0;2;1;3]) (-1) 1);
  (*131*) AddTo (T 268) (Plain (Transpose (T 65) [0;3;2;1]));
  (*132*) Assign (T 158) (Plain (Copy n_v'bbbb'ooov));
  (*133*) AddTo (T 158) (Times (Transpose n_v'bbbb'ovoo [0;2;3;1]) (-1) 1);
  (*134*) Assign (T 212) (Times (Copy n_v'bbbb'ovvv) (-1) 1);
  (*135*) AddTo (T 212) (Plain (Transpose n_v'bbbb'ovvv [0;2;1;3]));
  (*136*) Assign (T 214) (Plain (Copy (T 22)));
  (*137*) AddTo (T 214) (Times (Transpose (T 22) [0;2;1;3]) (-1) 1);
  (*138*) Assign (T 221) (Times (Copy n_v'bbbb'ooov) (-1) 1);
  (*139*) AddTo (T 221) (Plain (Transpose n_v'bbbb'ovoo [0;2;3;1]));
  (*140*) Assign (T 17) (Plain (Copy n_f'bb'ov));
  (*141*) AddTo (T 17) (Plain (Copy (T 14)));
  (*142*) AddTo (T 17) (Times (Copy (T 16)) (-1) 1);
  (*143*) Del (T 16);
  (*144*) Assign (T 47) (Plain (Transpose n_v'bbbb'ovov [0;2;3;1]));
  (*145*) AddTo (T 47) (Times (Transpose n_v'bbbb'ovov [0;2;1;3]) (-1) 1);
  (*146*) Assign (T 10) (Plain (Copy n_f'aa'ov));
  (*147*) AddTo (T 10) (Plain (Copy (T 1)));
  (*148*) AddTo (T 10) (Times (Copy (T 9)) (-1) 1);
  (*149*) Del (T 9);
  (*150*) Assign (T 93) (Times (Copy n_v'aaaa'ooov) (-1) 1);
  (*151*) AddTo (T 93) (Plain (Transpose n_v'aaaa'ovoo [0;2;3;1]));
  (*152*) Assign (T 84) (Plain (Copy (T 3)));
  (*153*) AddTo (T 84) (Times (Transpose (T 3) [0;2;1;3]) (-1) 1);
  (*154*) Assign (T 38) (Plain (Copy n_v'aaaa'ooov));
  (*155*) AddTo (T 38) (Times (Transpose n_v'aaaa'ovoo [0;2;3;1]) (-1) 1);
  (*156*) Assign (T 559) (Plain (Einsum [(n_t1'bb,[0;1]); (T 558,[2;1;3;4])] [2;0;3;4]));
  (*157*) Del (T 558);
  (*158*) Assign (T 525) (Plain (Transpose (T 198) [0;2;1;3]));
  (*159*) AddTo (T 525) (Times (Transpose (T 198) [0;3;2;1]) (-1) 1);
  (*160*) Assign (T 515) (Plain (Einsum [(n_t3'bbbbbb,[0;1;2;3;4;5]); (n_f'bb'ov,[6;5])] [6;0;1;2;3;4]));
  (*161*) Assign (T 514) (Plain (Einsum [(n_v'bbbb'oooo,[0;1;2;3]); (n_t2'bbbb,[4;3;5;6])] [4;0;1;2;5;6]));
  (*162*) Assign (T 317) (Plain (Einsum [(n_f'bb'ov,[0;1]); (n_t1'bb,[0;2])] [1;2]));
  (*163*) Assign (T 511) (Plain (Einsum [(n_t2'bbbb,[0;1;2;3]); (n_v'bbbb'ooov,[4;5;6;3])] [0;1;4;5;6;2]));
  (*164*) Assign (T 200) (Plain (Einsum [(n_v'bbbb'oovv,[0;1;2;3]); (n_t1'bb,[4;3])] [4;0;1;2]));
  (*165*) Assign (T 456) (Plain (Einsum [(n_t1'bb,[0;1]); (T 455,[2;3;4;0])] [2;3;4;1]));
  (*166*) Del (T 455);
  (*167*) Assign (T 128) (Plain (Einsum [(n_t1'bb,[0;1]); (n_v'bbbb'ovov,[2;3;0;4])] [2;1;3;4]));
  (*168*) Assign (T 545) (Plain (Einsum [(n_t1'bb,[0;1]); (T 544,[2;3;4;0])] [2;3;4;1]));
  (*169*) Del (T 544);
  (*170*) Assign (T 492) (Plain (Transpose (T 198) [0;2;1;3]));
  (*171*) AddTo (T 492) (Times (Transpose (T 198) [0;2;3;1]) (-1) 1);
  (*172*) Assign (T 232) (Plain (Einsum [(n_t1'bb,[0;1]); (T 22,[2;3;4;1])] [2;0;4;3]));
  (*173*) Assign (T 432) (Plain (Einsum [(n_f'bb'ov,[0;1]); (n_t2'bbbb,[2;3;4;1])] [0;2;3;4]));
  (*174*) Assign (T 177) (Plain (Einsum [(n_t1'bb,[0;1]); (n_v'bbbb'oooo,[2;3;4;0])] [2;3;4;1]));
  (*175*) Assign (T 206) (Plain (Einsum [(n_v'bbbb'ovvv,[0;1;2;3]); (n_t1'bb,[4;3])] [4;0;1;2]));
  (*176*) Assign (T 522) (Plain (Einsum [(T 22,[0;1;2;3]); (n_t2'bbbb,[4;5;6;3])] [0;4;5;2;1;6]));
  (*177*) Assign (T 166) (Plain (Einsum [(T 165,[0;1;2;3]); (n_t1'bb,[4;1])] [4;0;2;3]));
  (*178*) Del (T 165);
  (*179*) Assign (T 423) (Plain (Einsum [(n_t2'abab,[0;1;2;3]); (T 23,[4;5;6;2])] [0;4;5;1;6;3]));
  (*180*) Assign (T 169) (Plain (Copy (T 141)));
  (*181*) AddTo (T 169) (Times (Copy (T 140)) (-1) 1);
  (*182*) Assign (T 413) (Plain (Einsum [(n_t2'abab,[0;1;2;3]); (n_v'aabb'ovoo,[4;2;5;6])] [0;4;1;5;6;3]));
  (*183*) Assign (T 234) (Plain (Einsum [(n_t1'bb,[0;1]); (n_v'bbbb'vvvv,[2;3;4;1])] [0;2;3;4]));
  (*184*) Assign (T 481) (Plain (Einsum [(n_t1'bb,[0;1]); (T 207,[2;0;3;4])] [2;1;3;4]));
  (*185*) Assign (T 148) (Plain (Einsum [(n_t1'bb,[0;1]); (n_v'aabb'ooov,[2;3;0;4])] [2;3;1;4]));
  (*186*) Assign (T 254) (Plain (Einsum [(n_t1'aa,[0;1]); (n_f'aa'ov,[0;2])] [2;1]));
  (*187*) Assign (T 330) (Plain (Einsum [(n_t2'abab,[0;1;2;3]); (n_f'bb'ov,[4;3])] [0;4;1;2]));
  (*188*) Assign (T 329) (Plain (Einsum [(n_v'aabb'oooo,[0;1;2;3]); (n_t1'aa,[1;4])] [0;2;3;4]));
  (*189*) Assign (T 170) (Plain (Einsum [(n_t1'aa,[0;1]); (n_v'aabb'ovvv,[2;1;3;4])] [0;2;3;4]));
  (*190*) Assign (T 171) (Plain (Einsum [(n_t1'bb,[0;1]); (T 2,[2;3;0;4])] [2;3;1;4]));
  (*191*) Assign (T 55) (Plain (Einsum [(n_v'aabb'ovov,[0;1;2;3]); (n_t1'aa,[0;4])] [2;4;1;3]));
  (*192*) Assign (T 396) (Plain (Einsum [(T 153,[0;1;2;3]); (n_t1'aa,[1;4])] [0;2;3;4]));
  (*193*) Assign (T 150) (Plain (Einsum [(n_t1'aa,[0;1]); (T 142,[2;3;4;1])] [0;2;3;4]));
  (*194*) Assign (T 462) (Plain (Einsum [(n_t2'abab,[0;1;2;3]); (n_v'bbbb'ooov,[4;5;6;3])] [0;1;4;5;6;2]));
  (*195*) Assign (T 363) (Plain (Einsum [(T 139,[0;1;2;3]); (n_t1'aa,[1;4])] [0;3;2;4]));
  (*196*) Assign (T 137) (Plain (Einsum [(n_v'aabb'vvoo,[0;1;2;3]); (n_t1'aa,[4;1])] [4;2;3;0]));
  (*197*) Assign (T 146) (Plain (Einsum [(n_v'aabb'ovoo,[0;1;2;3]); (n_t1'aa,[0;4])] [2;3;4;1]));
  (*198*) Assign (T 400) (Plain (Einsum [(T 153,[0;1;2;3]); (n_t1'bb,[3;4])] [0;1;2;4]));
  (*199*) Assign (T 175) (Plain (Einsum [(T 141,[0;1;2;3]); (n_t1'aa,[4;2])] [4;0;1;3]));
  (*200*) Assign (T 163) (Plain (Einsum [(n_t1'aa,[0;1]); (T 82,[2;3;1;4])] [0;2;3;4]));
  (*201*) Assign (T 360) (Plain (Einsum [(n_v'aaaa'ooov,[0;1;2;3]); (n_t2'abab,[4;5;3;6])] [4;0;1;2;5;6]));
  (*202*) Assign (T 143) (Plain (Einsum [(T 23,[0;1;2;3]); (n_t1'aa,[0;4])] [1;2;4;3]));
  (*203*) Assign (T 75) (Plain (Einsum [(n_t1'aa,[0;1]); (n_v'aaaa'ovvv,[2;3;4;1])] [0;2;3;4]));
  (*204*) Assign (T 310) (Plain (Einsum [(n_t2'abab,[0;1;2;3]); (n_v'aabb'ooov,[4;5;6;3])] [0;4;5;1;6;2]));
  (*205*) Assign (T 382) (Plain (Einsum [(n_t1'aa,[0;1]); (T 74,[2;0;3;4])] [2;1;3;4]));
  (*206*) Assign (T 111) (Plain (Einsum [(n_t1'aa,[0;1]); (n_v'aaaa'vvvv,[2;3;4;1])] [0;2;3;4]));
  (*207*) Assign (T 332) (Plain (Einsum [(n_f'aa'ov,[0;1]); (n_t2'abab,[2;3;1;4])] [0;2;3;4]));
  (*208*) Assign (T 335) (Plain (Einsum [(n_v'aabb'oooo,[0;1;2;3]); (n_t1'bb,[3;4])] [0;1;2;4]));
  (*209*) Assign (T 321) (Plain (Einsum [(T 2,[0;1;2;3]); (n_t2'abab,[4;5;6;3])] [0;4;1;5;2;6]));
  (*210*) Assign (T 88) (Plain (Copy (T 78)));
  (*211*) AddTo (T 88) (Times (Copy (T 79)) (-1) 1);
  (*212*) Assign (T 107) (Plain (Einsum [(T 3,[0;1;2;3]); (n_t1'aa,[4;3])] [0;4;2;1]));
  (*213*) Assign (T 174) (Plain (Einsum [(n_v'aabb'oovv,[0;1;2;3]); (n_t1'bb,[4;3])] [0;1;4;2]));
  (*214*) Assign (T 355) (Plain (Einsum [(n_t1'bb,[0;1]); (T 136,[2;3;4;0])] [3;2;4;1]));
  (*215*) Assign (T 288) (Plain (Einsum [(n_t1'aa,[0;1]); (T 265,[2;0;3;4])] [2;3;4;1]));
  (*216*) Assign (T 67) (Plain (Einsum [(n_v'aaaa'oovv,[0;1;2;3]); (n_t1'aa,[4;3])] [4;0;1;2]));
  (*217*) Assign (T 130) (Plain (Einsum [(n_t1'bb,[0;1]); (n_v'aabb'ovov,[2;3;0;4])] [2;3;1;4]));
  (*218*) Assign (T 52) (Plain (Einsum [(n_t1'aa,[0;1]); (n_v'aaaa'ovov,[2;3;0;4])] [2;1;3;4]));
  (*219*) Assign (T 245) (Plain (Einsum [(n_t1'aa,[0;1]); (n_v'aaaa'oooo,[2;3;4;0])] [2;3;4;1]));
  (*220*) Assign (T 271) (Plain (Einsum [(n_f'aa'ov,[0;1]); (n_t2'aaaa,[2;3;4;1])] [0;2;3;4]));
  (*221*) Assign (T 262) (Plain (Einsum [(n_t2'aaaa,[0;1;2;3]); (T 3,[4;5;6;3])] [4;0;1;6;5;2]));
  (*222*) Assign (T 306) (Plain (Einsum [(n_t1'aa,[0;1]); (T 59,[2;3;1;4])] [0;2;3;4]));
  (*223*) Assign (T 250) (Plain (Einsum [(n_t2'aaaa,[0;1;2;3]); (n_v'aaaa'oooo,[4;5;6;1])] [0;4;5;6;2;3]));
  (*224*) Assign (T 251) (Plain (Einsum [(n_t3'aaaaaa,[0;1;2;3;4;5]); (n_f'aa'ov,[6;5])] [6;0;1;2;3;4]));
  (*225*) Assign (T 247) (Plain (Einsum [(n_t2'aaaa,[0;1;2;3]); (n_v'aaaa'ooov,[4;5;6;3])] [0;1;4;5;6;2]));
  (*226*) Assign (T 293) (Plain (Einsum [(T 268,[0;1;2;3]); (n_t1'aa,[3;4])] [0;1;2;4]));
  (*227*) Assign (T 181) (Plain (Einsum [(T 158,[0;1;2;3]); (n_t1'bb,[0;3])] [1;2]));
  (*228*) Assign (T 30) (Plain (Einsum [(n_t1'aa,[0;1]); (n_v'aabb'ovoo,[0;1;2;3])] [2;3]));
  (*229*) Assign (T 213) (Plain (Einsum [(n_t1'bb,[0;1]); (T 212,[2;1;3;4])] [2;0;3;4]));
  (*230*) Del (T 212);
  (*231*) Assign (T 215) (Plain (Einsum [(T 214,[0;1;2;3]); (n_t1'bb,[1;4])] [0;2;3;4]));
  (*232*) Del (T 214);
  (*233*) Assign (T 191) (Times (Copy n_v'bbbb'ovvv) (-1) 1);
  (*234*) AddTo (T 191) (Plain (Transpose n_v'bbbb'ovvv [0;2;1;3]));
  (*235*) Assign (T 31) (Plain (Copy n_v'bbbb'ooov));
  (*236*) AddTo (T 31) (Times (Transpose n_v'bbbb'ovoo [0;2;3;1]) (-1) 1);
  (*237*) Assign (T 222) (Plain (Einsum [(T 221,[0;1;2;3]); (n_t1'bb,[0;4])] [1;2;3;4]));
  (*238*) Del (T 221);
  (*239*) Assign (T 25) (Plain (Einsum [(n_v'aabb'ovov,[0;1;2;3]); (n_t2'abab,[0;4;1;3])] [4;2]));
  (*240*) Assign (T 27) (Plain (Einsum [(n_t1'bb,[0;1]); (T 17,[2;1])] [0;2]));
  (*241*) Assign (T 26) (Plain (Einsum [(n_t2'bbbb,[0;1;2;3]); (n_v'bbbb'ovov,[4;2;1;3])] [0;4]));
  (*242*) Assign (T 48) (Plain (Einsum [(n_t1'bb,[0;1]); (T 47,[0;2;1;3])] [2;3]));
  (*243*) Assign (T 7) (Plain (Einsum [(n_t2'abab,[0;1;2;3]); (n_v'aabb'ovov,[4;2;1;3])] [0;4]));
  (*244*) Assign (T 11) (Plain (Einsum [(T 10,[0;1]); (n_t1'aa,[2;1])] [2;0]));
  (*245*) Assign (T 6) (Times (Einsum [(n_v'aaaa'ovov,[0;1;2;3]); (n_t2'aaaa,[4;2;3;1])] [4;0]) (-1) 1);
  (*246*) Assign (T 94) (Plain (Einsum [(T 93,[0;1;2;3]); (n_t1'aa,[0;4])] [1;2;4;3]));
  (*247*) Del (T 93);
  (*248*) Assign (T 19) (Plain (Copy n_v'aaaa'ooov));
  (*249*) AddTo (T 19) (Times (Transpose n_v'aaaa'ovoo [0;2;3;1]) (-1) 1);
  (*250*) Assign (T 83) (Plain (Einsum [(n_t1'aa,[0;1]); (T 82,[2;1;3;4])] [0;2;3;4]));
  (*251*) Del (T 82);
  (*252*) Assign (T 85) (Plain (Einsum [(n_t1'aa,[0;1]); (T 84,[2;0;3;4])] [2;3;1;4]));
  (*253*) Del (T 84);
  (*254*) Assign (T 39) (Plain (Einsum [(n_t1'aa,[0;1]); (T 38,[0;2;3;1])] [2;3]));
  (*255*) Assign (T 18) (Plain (Einsum [(n_t1'bb,[0;1]); (n_v'aabb'ooov,[2;3;0;1])] [2;3]));
  (*256*) Assign (T 560) (Plain (Einsum [(n_t2'bbbb,[0;1;2;3]); (T 559,[4;5;6;3])] [5;4;0;1;6;2]));
  (*257*) Del (T 559);
  (*258*) Assign (T 526) (Plain (Einsum [(T 525,[0;1;2;3]); (n_t1'bb,[3;4])] [0;1;2;4]));
  (*259*) Del (T 525);
  (*260*) Assign (T 516) (Plain (Transpose (T 514) [0;2;1;3;5;4]));
  (*261*) Del (T 514);
  (*262*) AddTo (T 516) (Times (Transpose (T 515) [1;0;2;3;5;4]) (3) 1);
  (*263*) Del (T 515);
  (*264*) Assign (T 318) (Plain (Copy n_f'bb'vv));
  (*265*) AddTo (T 318) (Times (Copy (T 317)) (-1) 1);
  (*266*) Assign (T 512) (Plain (Einsum [(n_t1'bb,[0;1]); (T 511,[2;3;4;5;0;6])] [2;3;4;5;1;6]));
  (*267*) Del (T 511);
  (*268*) Assign (T 457) (Plain (Transpose (T 200) [0;2;1;3]));
  (*269*) AddTo (T 457) (Plain (Transpose (T 456) [0;2;1;3]));
  (*270*) Del (T 456);
  (*271*) Assign (T 533) (Plain (Einsum [(n_t2'bbbb,[0;1;2;3]); (n_v'bbbb'oovv,[4;5;6;3])] [0;1;4;5;2;6]));
  (*272*) Assign (T 537) (Plain (Copy n_v'bbbb'ovvv));
  (*273*) AddTo (T 537) (Times (Transpose (T 128) [0;2;3;1]) (-1) 1);
  (*274*) Assign (T 420) (Plain (Copy n_f'bb'vv));
  (*275*) AddTo (T 420) (Times (Copy (T 317)) (-1) 1);
  (*276*) Del (T 317);
  (*277*) Assign (T 554) (Plain (Transpose (T 198) [0;2;1;3]));
  (*278*) AddTo (T 554) (Times (Transpose (T 198) [0;3;2;1]) (-1) 1);
  (*279*) Assign (T 546) (Plain (Transpose (T 200) [0;2;1;3]));
  (*280*) AddTo (T 546) (Plain (Transpose (T 545) [0;2;1;3]));
  (*281*) Del (T 545);
  (*282*) Assign (T 447) (Plain (Copy n_v'bbbb'ovvv));
  (*283*) AddTo (T 447) (Times (Transpose (T 128) [0;2;3;1]) (-1) 1);
  (*284*) Assign (T 446) (Times (Transpose n_v'bbbb'ovvv [0;2;1;3]) (-1) 1);
  (*285*) AddTo (T 446) (Plain (Copy (T 128)));
  (*286*) Assign (T 324) (Plain (Einsum [(n_f'bb'ov,[0;1]); (n_t1'bb,[2;1])] [0;2]));
  (*287*) Assign (T 493) (Plain (Einsum [(n_t1'bb,[0;1]); (T 492,[2;3;4;0])] [2;3;4;1]));
  (*288*) Del (T 492);
  (*289*) Assign (T 236) (Plain (Einsum [(n_t1'bb,[0;1]); (T 232,[2;3;0;4])] [3;2;4;1]));
  (*290*) Assign (T 548) (Plain (Einsum [(n_t2'bbbb,[0;1;2;3]); (n_v'bbbb'ovov,[4;5;6;3])] [0;1;4;6;2;5]));
  (*291*) Assign (T 529) (Times (Transpose (T 177) [1;0;2;3]) (-1) 1);
  (*292*) AddTo (T 529) (Times (Transpose (T 432) [0;2;1;3]) (2) 1);
  (*293*) Assign (T 238) (Plain (Einsum [(T 206,[0;1;2;3]); (n_t1'bb,[4;2])] [4;0;1;3]));
  (*294*) Assign (T 425) (Times (Transpose (T 198) [0;2;1;3]) (-1) 1);
  (*295*) AddTo (T 425) (Plain (Transpose (T 198) [0;3;2;1]));
  (*296*) Assign (T 523) (Plain (Einsum [(n_t1'bb,[0;1]); (T 522,[2;3;4;5;0;6])] [2;3;4;5;1;6]));
  (*297*) Del (T 522);
  (*298*) Assign (T 552) (Plain (Einsum [(T 166,[0;1;2;3]); (n_t2'bbbb,[4;5;6;3])] [0;1;4;5;2;6]));
  (*299*) Assign (T 433) (Times (Transpose (T 177) [1;0;2;3]) (-1) 1);
  (*300*) AddTo (T 433) (Times (Transpose (T 432) [0;2;1;3]) (2) 1);
  (*301*) Assign (T 424) (Plain (Einsum [(n_t1'aa,[0;1]); (T 423,[2;0;3;4;5;6])] [2;3;4;5;1;6]));
  (*302*) Del (T 423);
  (*303*) Assign (T 377) (Plain (Einsum [(n_t1'aa,[0;1]); (n_v'aabb'vvvv,[2;1;3;4])] [0;2;3;4]));
  (*304*) Assign (T 460) (Plain (Einsum [(n_t2'abab,[0;1;2;3]); (n_v'bbbb'oovv,[4;5;6;3])] [0;1;4;5;2;6]));
  (*305*) Assign (T 473) (Plain (Einsum [(n_v'aabb'ovov,[0;1;2;3]); (n_t2'abab,[4;5;1;6])] [4;0;5;2;6;3]));
  (*306*) Assign (T 484) (Times (Einsum [(T 166,[0;1;2;3]); (n_t2'abab,[4;5;6;3])] [4;0;1;5;6;2]) (-1) 1);
  (*307*) Assign (T 151) (Plain (Einsum [(n_v'aabb'vvvv,[0;1;2;3]); (n_t1'bb,[4;3])] [4;0;1;2]));
  (*308*) Assign (T 477) (Plain (Einsum [(T 169,[0;1;2;3]); (n_t1'aa,[0;4])] [1;4;2;3]));
  (*309*) Assign (T 394) (Plain (Einsum [(T 139,[0;1;2;3]); (n_t1'bb,[3;4])] [0;1;2;4]));
  (*310*) Assign (T 414) (Plain (Einsum [(T 413,[0;1;2;3;4;5]); (n_t1'aa,[1;6])] [0;2;4;3;6;5]));
  (*311*) Assign (T 471) (Plain (Einsum [(n_t2'abab,[0;1;2;3]); (n_v'bbbb'ovov,[4;5;6;3])] [0;1;4;6;2;5]));
  (*312*) Assign (T 482) (Plain (Transpose (T 234) [0;2;1;3]));
  (*313*) AddTo (T 482) (Plain (Transpose (T 481) [0;3;1;2]));
  (*314*) Del (T 481);
  (*315*) Assign (T 149) (Plain (Copy n_v'aabb'oovv));
  (*316*) AddTo (T 149) (Times (Transpose (T 148) [1;0;3;2]) (-1) 1);
  (*317*) Del (T 148);
  (*318*) Assign (T 257) (Plain (Copy n_f'aa'vv));
  (*319*) AddTo (T 257) (Times (Copy (T 254)) (-1) 1);
  (*320*) Assign (T 436) (Plain (Transpose (T 329) [0;2;1;3]));
  (*321*) AddTo (T 436) (Times (Copy (T 330)) (-1) 1);
  (*322*) Assign (T 428) (Plain (Einsum [(n_t2'bbbb,[0;1;2;3]); (T 2,[4;5;6;3])] [4;5;0;1;6;2]));
  (*323*) Assign (T 479) (Plain (Transpose (T 170) [0;1;3;2]));
  (*324*) AddTo (T 479) (Times (Copy (T 171)) (-1) 1);
  (*325*) Assign (T 56) (Plain (Transpose n_v'aabb'vvov [2;0;1;3]));
  (*326*) AddTo (T 56) (Times (Transpose (T 55) [0;2;1;3]) (-1) 1);
  (*327*) Assign (T 417) (Plain (Einsum [(n_v'aabb'ooov,[0;1;2;3]); (n_t2'bbbb,[4;5;6;3])] [0;1;4;5;2;6]));
  (*328*) Assign (T 505) (Plain (Einsum [(n_t2'abab,[0;1;2;3]); (T 141,[4;5;2;6])] [0;4;5;1;3;6]));
  (*329*) Assign (T 498) (Plain (Copy (T 150)));
  (*330*) AddTo (T 498) (Times (Copy (T 396)) (-1) 1);
  (*331*) Assign (T 463) (Plain (Einsum [(T 462,[0;1;2;3;4;5]); (n_t1'bb,[4;6])] [0;1;2;3;5;6]));
  (*332*) Del (T 462);
  (*333*) Assign (T 487) (Plain (Einsum [(n_t1'bb,[0;1]); (T 142,[2;0;3;4])] [2;4;3;1]));
  (*334*) Assign (T 467) (Plain (Einsum [(n_v'aabb'vvoo,[0;1;2;3]); (n_t2'abab,[4;5;1;6])] [4;5;2;3;0;6]));
  (*335*) Assign (T 365) (Plain (Transpose (T 137) [0;2;1;3]));
  (*336*) AddTo (T 365) (Times (Transpose (T 363) [0;2;1;3]) (-1) 1);
  (*337*) Assign (T 501) (Plain (Einsum [(T 142,[0;1;2;3]); (n_t2'abab,[4;5;3;6])] [4;0;5;1;2;6]));
  (*338*) Assign (T 392) (Plain (Einsum [(n_t1'aa,[0;1]); (T 136,[2;0;3;4])] [2;3;4;1]));
  (*339*) Assign (T 438) (Plain (Einsum [(T 413,[0;1;2;3;4;5]); (n_t1'bb,[4;6])] [0;1;2;3;6;5]));
  (*340*) Del (T 413);
  (*341*) Assign (T 260) (Plain (Einsum [(n_t1'aa,[0;1]); (n_f'aa'ov,[2;1])] [2;0]));
  (*342*) Assign (T 340) (Plain (Transpose n_v'aabb'vvoo [2;3;0;1]));
  (*343*) AddTo (T 340) (Times (Transpose (T 146) [1;0;3;2]) (-1) 1);
  (*344*) Assign (T 401) (Plain (Copy (T 175)));
  (*345*) AddTo (T 401) (Times (Copy (T 400)) (-1) 1);
  (*346*) Assign (T 388) (Plain (Einsum [(n_t1'aa,[0;1]); (T 170,[2;0;3;4])] [2;1;4;3]));
  (*347*) Assign (T 367) (Plain (Einsum [(n_t2'abab,[0;1;2;3]); (n_v'aabb'oovv,[4;5;6;3])] [0;4;5;1;2;6]));
  (*348*) Assign (T 385) (Times (Einsum [(T 163,[0;1;2;3]); (n_t2'abab,[4;5;2;6])] [0;1;4;5;3;6]) (-1) 1);
  (*349*) Assign (T 361) (Plain (Einsum [(n_t1'aa,[0;1]); (T 360,[2;3;4;0;5;6])] [2;3;4;5;1;6]));
  (*350*) Del (T 360);
  (*351*) Assign (T 371) (Plain (Einsum [(n_v'aaaa'ovov,[0;1;2;3]); (n_t2'abab,[4;5;3;6])] [4;0;2;5;1;6]));
  (*352*) Assign (T 404) (Plain (Einsum [(T 170,[0;1;2;3]); (n_t2'abab,[4;5;6;3])] [0;4;1;5;6;2]));
  (*353*) Assign (T 380) (Plain (Transpose (T 142) [0;1;3;2]));
  (*354*) AddTo (T 380) (Times (Copy (T 143)) (-1) 1);
  (*355*) Assign (T 113) (Plain (Einsum [(T 75,[0;1;2;3]); (n_t1'aa,[4;2])] [4;0;1;3]));
  (*356*) Assign (T 326) (Plain (Einsum [(n_t2'aaaa,[0;1;2;3]); (T 23,[4;5;6;3])] [0;1;4;5;6;2]));
  (*357*) Assign (T 358) (Plain (Einsum [(n_v'aaaa'oovv,[0;1;2;3]); (n_t2'abab,[4;5;3;6])] [4;0;1;5;2;6]));
  (*358*) Assign (T 311) (Plain (Einsum [(n_t1'bb,[0;1]); (T 310,[2;3;4;5;0;6])] [2;4;3;5;6;1]));
  (*359*) Assign (T 383) (Plain (Transpose (T 111) [0;2;1;3]));
  (*360*) AddTo (T 383) (Plain (Transpose (T 382) [0;3;1;2]));
  (*361*) Del (T 382);
  (*362*) Assign (T 336) (Plain (Transpose (T 335) [1;0;2;3]));
  (*363*) AddTo (T 336) (Times (Copy (T 332)) (-1) 1);
  (*364*) Assign (T 338) (Plain (Einsum [(n_t1'aa,[0;1]); (T 310,[2;3;0;4;5;6])] [2;3;4;5;1;6]));
  (*365*) Del (T 310);
  (*366*) Assign (T 322) (Plain (Einsum [(T 321,[0;1;2;3;4;5]); (n_t1'bb,[4;6])] [0;1;2;3;5;6]));
  (*367*) Del (T 321);
  (*368*) Assign (T 378) (Plain (Einsum [(n_t1'bb,[0;1]); (T 88,[2;0;3;4])] [2;3;1;4]));
  (*369*) Assign (T 408) (Plain (Einsum [(T 78,[0;1;2;3]); (n_t2'abab,[4;5;6;3])] [0;4;5;1;6;2]));
  (*370*) Assign (T 109) (Plain (Einsum [(n_t1'aa,[0;1]); (T 107,[2;3;0;4])] [3;2;4;1]));
  (*371*) Assign (T 356) (Plain (Transpose (T 174) [1;0;2;3]));
  (*372*) AddTo (T 356) (Times (Copy (T 355)) (-1) 1);
  (*373*) Assign (T 289) (Plain (Transpose (T 67) [0;2;1;3]));
  (*374*) AddTo (T 289) (Plain (Transpose (T 288) [0;2;1;3]));
  (*375*) Del (T 288);
  (*376*) Assign (T 131) (Plain (Copy n_v'aabb'ovvv));
  (*377*) AddTo (T 131) (Times (Transpose (T 130) [0;1;3;2]) (-1) 1);
  (*378*) Assign (T 373) (Plain (Einsum [(n_v'aabb'ovov,[0;1;2;3]); (n_t2'abab,[4;5;6;3])] [4;0;5;2;6;1]));
  (*379*) Assign (T 314) (Plain (Einsum [(n_t2'aaaa,[0;1;2;3]); (n_v'aabb'ovoo,[4;3;5;6])] [0;1;4;5;6;2]));
  (*380*) Assign (T 291) (Times (Transpose (T 65) [0;2;1;3]) (-1) 1);
  (*381*) AddTo (T 291) (Plain (Transpose (T 65) [0;3;2;1]));
  (*382*) Assign (T 285) (Plain (Copy n_v'aaaa'ovvv));
  (*383*) AddTo (T 285) (Times (Transpose (T 52) [0;2;3;1]) (-1) 1);
  (*384*) Assign (T 277) (Plain (Einsum [(n_t2'aaaa,[0;1;2;3]); (n_v'aaaa'oovv,[4;5;6;3])] [0;1;4;5;2;6]));
  (*385*) Assign (T 272) (Times (Transpose (T 245) [1;0;2;3]) (-1) 2);
  (*386*) AddTo (T 272) (Plain (Transpose (T 271) [0;2;1;3]));
  (*387*) Assign (T 269) (Plain (Einsum [(n_t1'aa,[0;1]); (T 268,[2;0;3;4])] [2;3;4;1]));
  (*388*) Del (T 268);
  (*389*) Assign (T 255) (Plain (Copy n_f'aa'vv));
  (*390*) AddTo (T 255) (Times (Copy (T 254)) (-1) 1);
  (*391*) Del (T 254);
  (*392*) Assign (T 300) (Plain (Einsum [(n_t2'aaaa,[0;1;2;3]); (T 163,[4;5;3;6])] [4;5;0;1;6;2]));
  (*393*) Assign (T 263) (Plain (Einsum [(n_t1'aa,[0;1]); (T 262,[2;3;4;5;0;6])] [2;3;4;5;1;6]));
  (*394*) Del (T 262);
  (*395*) Assign (T 302) (Plain (Transpose (T 65) [0;2;1;3]));
  (*396*) AddTo (T 302) (Times (Transpose (T 65) [0;3;2;1]) (-1) 1);
  (*397*) Assign (T 266) (Plain (Einsum [(n_t1'aa,[0;1]); (T 265,[2;3;4;0])] [2;3;4;1]));
  (*398*) Del (T 265);
  (*399*) Assign (T 281) (Plain (Copy n_v'aaaa'ovvv));
  (*400*) AddTo (T 281) (Times (Transpose (T 52) [0;2;3;1]) (-1) 1);
  (*401*) Assign (T 307) (Plain (Einsum [(n_t2'aaaa,[0;1;2;3]); (T 306,[4;5;3;6])] [4;5;0;1;6;2]));
  (*402*) Del (T 306);
  (*403*) Assign (T 283) (Times (Transpose n_v'aaaa'ovvv [0;2;1;3]) (-1) 1);
  (*404*) AddTo (T 283) (Plain (Copy (T 52)));
  (*405*) Assign (T 274) (Times (Transpose (T 245) [1;0;2;3]) (-1) 1);
  (*406*) AddTo (T 274) (Times (Transpose (T 271) [0;2;1;3]) (2) 1);
  (*407*) Assign (T 296) (Plain (Einsum [(n_t2'aaaa,[0;1;2;3]); (n_v'aaaa'ovov,[4;5;6;3])] [0;1;4;6;2;5]));
  (*408*) Assign (T 252) (Plain (Transpose (T 250) [0;2;1;3;5;4]));
  (*409*) Del (T 250);
  (*410*) AddTo (T 252) (Times (Transpose (T 251) [1;0;2;3;5;4]) (3) 1);
  (*411*) Del (T 251);
  (*412*) Assign (T 248) (Plain (Einsum [(n_t1'aa,[0;1]); (T 247,[2;3;4;5;0;6])] [2;3;4;5;1;6]));
  (*413*) Del (T 247);
  (*414*) Assign (T 294) (Plain (Transpose (T 67) [0;2;1;3]));
  (*415*) AddTo (T 294) (Plain (Transpose (T 293) [0;2;1;3]));
  (*416*) Del (T 293);
  (*417*) Assign (T 240) (Plain (Einsum [(n_v'bbbb'ovov,[0;1;2;3]); (n_t2'bbbb,[4;5;1;3])] [4;5;0;2]));
  (*418*) Assign (T 101) (Times (Transpose n_v'bbbb'ovov [0;2;3;1]) (-1) 1);
  (*419*) AddTo (T 101) (Plain (Transpose n_v'bbbb'ovov [0;2;1;3]));
  (*420*) Assign (T 225) (Times (Copy n_v'bbbb'ooov) (-1) 1);
  (*421*) AddTo (T 225) (Plain (Transpose n_v'bbbb'ovoo [0;2;3;1]));
  (*422*) Assign (T 182) (Plain (Copy n_f'bb'oo));
  (*423*) AddTo (T 182) (Plain (Transpose (T 30) [1;0]));
  (*424*) AddTo (T 182) (Times (Transpose (T 181) [1;0]) (-1) 1);
  (*425*) Del (T 181);
  (*426*) Assign (T 202) (Plain (Einsum [(T 198,[0;1;2;3]); (n_t1'bb,[3;4])] [0;2;1;4]));
  (*427*) Assign (T 188) (Plain (Copy n_v'bbbb'ovvv));
  (*428*) AddTo (T 188) (Plain (Transpose (T 128) [0;3;2;1]));
  (*429*) Assign (T 123) (Plain (Einsum [(n_t2'abab,[0;1;2;3]); (n_v'aabb'ovov,[0;2;1;4])] [3;4]));
  (*430*) Assign (T 124) (Times (Einsum [(n_t2'bbbb,[0;1;2;3]); (n_v'bbbb'ovov,[0;3;1;4])] [2;4]) (-1) 1);
  (*431*) Assign (T 92) (Plain (Transpose n_v'aaaa'ovov [0;2;3;1]));
  (*432*) AddTo (T 92) (Times (Transpose n_v'aaaa'ovov [0;2;1;3]) (-1) 1);
  (*433*) Assign (T 145) (Plain (Einsum [(n_t1'bb,[0;1]); (n_v'aabb'ovoo,[2;3;4;0])] [2;4;3;1]));
  (*434*) Assign (T 208) (Plain (Copy (T 22)));
  (*435*) AddTo (T 208) (Times (Transpose (T 22) [0;2;1;3]) (-1) 1);
  (*436*) Assign (T 216) (Times (Transpose (T 213) [1;0;3;2]) (-1) 1);
  (*437*) Del (T 213);
  (*438*) AddTo (T 216) (Times (Transpose (T 215) [0;1;3;2]) (-1) 1);
  (*439*) Del (T 215);
  (*440*) Assign (T 192) (Plain (Einsum [(T 191,[0;1;2;3]); (n_t1'bb,[0;2])] [1;3]));
  (*441*) Assign (T 132) (Plain (Einsum [(n_v'aabb'ovvv,[0;1;2;3]); (n_t1'aa,[0;1])] [2;3]));
  (*442*) Assign (T 193) (Plain (Einsum [(n_t1'bb,[0;1]); (T 17,[0;2])] [1;2]));
  (*443*) Assign (T 32) (Plain (Einsum [(T 31,[0;1;2;3]); (n_t1'bb,[0;3])] [1;2]));
  (*444*) Del (T 31);
  (*445*) Assign (T 97) (Times (Transpose n_v'bbbb'ovov [0;2;3;1]) (-1) 1);
  (*446*) AddTo (T 97) (Plain (Transpose n_v'bbbb'ovov [0;2;1;3]));
  (*447*) Assign (T 228) (Plain (Einsum [(n_v'aabb'ovoo,[0;1;2;3]); (n_t2'abab,[0;4;1;5])] [4;2;3;5]));
  (*448*) Assign (T 230) (Plain (Copy n_v'bbbb'oovv));
  (*449*) AddTo (T 230) (Times (Transpose (T 222) [1;0;3;2]) (-1) 1);
  (*450*) Assign (T 126) (Plain (Einsum [(n_t2'bbbb,[0;1;2;3]); (n_v'aabb'ovov,[4;5;1;3])] [4;0;5;2]));
  (*451*) Assign (T 210) (Times (Copy (T 141)) (-1) 1);
  (*452*) AddTo (T 210) (Plain (Copy (T 140)));
  (*453*) Assign (T 204) (Plain (Copy (T 25)));
  (*454*) AddTo (T 204) (Times (Copy (T 26)) (2) 1);
  (*455*) AddTo (T 204) (Plain (Copy (T 27)));
  (*456*) Assign (T 161) (Plain (Transpose n_v'aabb'vvov [2;0;1;3]));
  (*457*) AddTo (T 161) (Times (Copy (T 55)) (-1) 1);
  (*458*) Assign (T 96) (Plain (Einsum [(n_v'aabb'ooov,[0;1;2;3]); (n_t1'aa,[1;4])] [0;2;4;3]));
  (*459*) Assign (T 155) (Plain (Einsum [(n_t2'aaaa,[0;1;2;3]); (n_v'aabb'ovov,[1;3;4;5])] [0;4;2;5]));
  (*460*) Assign (T 49) (Plain (Copy n_f'bb'ov));
  (*461*) AddTo (T 49) (Plain (Copy (T 14)));
  (*462*) AddTo (T 49) (Times (Copy (T 48)) (-1) 1);
  (*463*) Del (T 48);
  (*464*) Assign (T 133) (Plain (Copy n_v'bbbb'ovvv));
  (*465*) AddTo (T 133) (Times (Transpose n_v'bbbb'ovvv [0;2;1;3]) (-1) 1);
  (*466*) Assign (T 50) (Plain (Einsum [(n_t2'abab,[0;1;2;3]); (n_v'aabb'ovov,[4;5;1;3])] [0;4;2;5]));
  (*467*) Assign (T 167) (Times (Copy (T 22)) (-1) 1);
  (*468*) AddTo (T 167) (Plain (Transpose (T 22) [0;2;1;3]));
  (*469*) Assign (T 58) (Plain (Einsum [(n_t1'bb,[0;1]); (n_v'aabb'vvov,[2;3;0;1])] [2;3]));
  (*470*) Assign (T 44) (Plain (Einsum [(n_v'aabb'ovov,[0;1;2;3]); (n_t2'abab,[0;2;4;3])] [4;1]));
  (*471*) Assign (T 61) (Plain (Einsum [(T 10,[0;1]); (n_t1'aa,[0;2])] [2;1]));
  (*472*) Assign (T 60) (Plain (Einsum [(n_t1'aa,[0;1]); (T 59,[0;2;1;3])] [2;3]));
  (*473*) Assign (T 43) (Plain (Einsum [(n_t2'aaaa,[0;1;2;3]); (n_v'aaaa'ovov,[0;4;1;3])] [2;4]));
  (*474*) Assign (T 72) (Times (Copy (T 6)) (2) 1);
  (*475*) AddTo (T 72) (Plain (Copy (T 7)));
  (*476*) AddTo (T 72) (Plain (Copy (T 11)));
  (*477*) Assign (T 99) (Times (Copy n_v'aaaa'ooov) (-1) 1);
  (*478*) AddTo (T 99) (Plain (Transpose n_v'aaaa'ovoo [0;2;3;1]));
  (*479*) Assign (T 105) (Plain (Copy n_v'aaaa'oovv));
  (*480*) AddTo (T 105) (Times (Transpose (T 94) [1;0;2;3]) (-1) 1);
  (*481*) Assign (T 53) (Plain (Copy n_v'aaaa'ovvv));
  (*482*) AddTo (T 53) (Plain (Transpose (T 52) [0;3;2;1]));
  (*483*) Assign (T 70) (Plain (Einsum [(n_t1'aa,[0;1]); (T 65,[2;3;4;0])] [2;4;3;1]));
  (*484*) Assign (T 80) (Times (Copy (T 78)) (-1) 1);
  (*485*) AddTo (T 80) (Plain (Copy (T 79)));
  (*486*) Assign (T 20) (Plain (Einsum [(T 19,[0;1;2;3]); (n_t1'aa,[0;3])] [1;2]));
  (*487*) Del (T 19);
  (*488*) Assign (T 86) (Times (Transpose (T 83) [0;1;3;2]) (-1) 1);
  (*489*) Del (T 83);
  (*490*) AddTo (T 86) (Times (Copy (T 85)) (-1) 1);
  (*491*) Assign (T 115) (Plain (Einsum [(n_t2'aaaa,[0;1;2;3]); (n_v'aaaa'ovov,[4;2;5;3])] [0;1;4;5]));
  (*492*) Assign (T 103) (Plain (Einsum [(n_t2'abab,[0;1;2;3]); (n_v'aabb'ooov,[4;5;1;3])] [0;4;5;2]));
  (*493*) Assign (T 76) (Plain (Copy (T 3)));
  (*494*) AddTo (T 76) (Times (Transpose (T 3) [0;2;1;3]) (-1) 1);
  (*495*) Assign (T 40) (Plain (Copy n_f'aa'oo));
  (*496*) AddTo (T 40) (Plain (Transpose (T 18) [1;0]));
  (*497*) AddTo (T 40) (Times (Transpose (T 39) [1;0]) (-1) 1);
  (*498*) Del (T 39);
  (*499*) Assign (T 117) (Plain (Copy n_v'aaaa'ovvv));
  (*500*) AddTo (T 117) (Plain (Transpose (T 52) [0;3;1;2]));
  (*501*) Assign (T 536) (Plain (Einsum [(n_v'bbbb'ovvv,[0;1;2;3]); (n_t2'bbbb,[4;5;6;3])] [4;5;0;6;1;2]));
  (*502*) Assign (T 550) (Plain (Einsum [(T 200,[0;1;2;3]); (n_t2'bbbb,[4;2;5;6])] [0;4;1;5;6;3]));
  (*503*) Assign (T 561) (Times (Einsum [(n_t1'bb,[0;1]); (T 560,[2;0;3;4;5;6])] [2;4;3;6;5;1]) (-2) 1);
  (*504*) Del (T 560);
  (*505*) Assign (T 551) (Plain (Einsum [(T 234,[0;1;2;3]); (n_t2'bbbb,[4;5;6;2])] [0;4;5;6;3;1]));
  (*506*) Assign (T 527) (Times (Einsum [(T 526,[0;1;2;3]); (n_t2'bbbb,[4;1;5;6])] [0;2;4;3;5;6]) (-1) 1);
  (*507*) Del (T 526);
  (*508*) Assign (T 520) (Plain (Einsum [(n_t3'bbbbbb,[0;1;2;3;4;5]); (n_f'bb'vv,[6;5])] [0;1;2;6;3;4]));
  (*509*) Assign (T 535) (Plain (Einsum [(n_v'bbbb'ooov,[0;1;2;3]); (n_t2'bbbb,[4;1;5;6])] [4;0;2;5;6;3]));
  (*510*) Assign (T 517) (Plain (Einsum [(n_t1'bb,[0;1]); (T 516,[2;0;3;4;5;6])] [2;3;4;5;6;1]));
  (*511*) Del (T 516);
  (*512*) Assign (T 519) (Plain (Einsum [(T 318,[0;1]); (n_t3'bbbbbb,[2;3;4;5;6;0])] [2;3;4;1;5;6]));
  (*513*) Assign (T 513) (Plain (Einsum [(n_t1'bb,[0;1]); (T 512,[2;3;0;4;5;6])] [2;3;4;1;5;6]));
  (*514*) Del (T 512);
  (*515*) Assign (T 542) (Times (Einsum [(T 457,[0;1;2;3]); (n_t2'bbbb,[4;1;5;6])] [0;2;4;3;5;6]) (-1) 1);
  (*516*) Assign (T 541) (Plain (Einsum [(T 22,[0;1;2;3]); (n_t2'bbbb,[4;2;5;6])] [0;4;1;5;6;3]));
  (*517*) Assign (T 534) (Plain (Einsum [(n_t1'bb,[0;1]); (T 533,[2;3;0;4;5;6])] [2;3;4;1;5;6]));
  (*518*) Del (T 533);
  (*519*) Assign (T 538) (Times (Einsum [(n_t2'bbbb,[0;1;2;3]); (T 537,[4;5;3;6])] [4;0;1;5;6;2]) (-2) 1);
  (*520*) Del (T 537);
  (*521*) Assign (T 518) (Times (Einsum [(n_t3'bbbbbb,[0;1;2;3;4;5]); (T 420,[5;6])] [0;1;2;6;3;4]) (3) 1);
  (*522*) Assign (T 555) (Plain (Einsum [(n_t1'bb,[0;1]); (T 554,[2;3;4;0])] [2;4;3;1]));
  (*523*) Del (T 554);
  (*524*) Assign (T 547) (Times (Einsum [(n_t2'bbbb,[0;1;2;3]); (T 546,[4;5;1;6])] [4;5;0;6;2;3]) (-1) 1);
  (*525*) Del (T 546);
  (*526*) Assign (T 540) (Times (Einsum [(T 447,[0;1;2;3]); (n_t2'bbbb,[4;5;6;2])] [0;4;5;1;3;6]) (-1) 1);
  (*527*) Assign (T 539) (Times (Einsum [(T 446,[0;1;2;3]); (n_t2'bbbb,[4;5;6;3])] [0;4;5;1;2;6]) (-1) 1);
  (*528*) Assign (T 521) (Plain (Einsum [(T 324,[0;1]); (n_t3'bbbbbb,[2;3;0;4;5;6])] [1;2;3;4;5;6]));
  (*529*) Assign (T 528) (Times (Einsum [(T 493,[0;1;2;3]); (n_t2'bbbb,[4;2;5;6])] [0;1;4;3;5;6]) (-1) 1);
  (*530*) Assign (T 556) (Plain (Einsum [(T 236,[0;1;2;3]); (n_t2'bbbb,[4;2;5;6])] [1;0;4;3;5;6]));
  (*531*) Assign (T 549) (Plain (Einsum [(n_t1'bb,[0;1]); (T 548,[2;3;4;0;5;6])] [2;3;4;1;5;6]));
  (*532*) Del (T 548);
  (*533*) Assign (T 530) (Times (Einsum [(T 529,[0;1;2;3]); (n_t2'bbbb,[4;0;5;6])] [1;2;4;3;5;6]) (-1) 1);
  (*534*) Del (T 529);
  (*535*) Assign (T 557) (Plain (Einsum [(T 238,[0;1;2;3]); (n_t2'bbbb,[4;2;5;6])] [0;1;4;5;6;3]));
  (*536*) Assign (T 532) (Times (Einsum [(T 432,[0;1;2;3]); (n_t2'bbbb,[4;0;5;6])] [2;1;4;3;5;6]) (-1) 1);
  (*537*) Assign (T 510) (Plain (Einsum [(n_f'bb'oo,[0;1]); (n_t3'bbbbbb,[2;3;1;4;5;6])] [0;2;3;4;5;6]));
  (*538*) Assign (T 543) (Plain (Transpose (T 200) [0;2;1;3]));
  (*539*) AddTo (T 543) (Plain (Einsum [(n_t1'bb,[0;1]); (T 425,[2;3;4;0])] [2;4;3;1]));
  (*540*) Assign (T 524) (Plain (Einsum [(T 523,[0;1;2;3;4;5]); (n_t1'bb,[3;6])] [0;1;2;6;4;5]));
  (*541*) Del (T 523);
  (*542*) Assign (T 509) (Plain (Einsum [(T 177,[0;1;2;3]); (n_t2'bbbb,[4;1;5;6])] [4;2;0;3;5;6]));
  (*543*) Assign (T 553) (Times (Einsum [(n_t1'bb,[0;1]); (T 552,[2;0;3;4;5;6])] [2;4;3;6;5;1]) (-1) 1);
  (*544*) Del (T 552);
  (*545*) Assign (T 531) (Times (Einsum [(T 433,[0;1;2;3]); (n_t2'bbbb,[4;0;5;6])] [1;2;4;3;5;6]) (-1) 1);
  (*546*) Assign (T 497) (Plain (Einsum [(n_t2'abab,[0;1;2;3]); (T 238,[4;5;1;6])] [0;4;5;2;3;6]));
  (*547*) Assign (T 508) (Plain (Einsum [(n_t2'abab,[0;1;2;3]); (T 400,[4;0;5;6])] [4;5;1;2;6;3]));
  (*548*) Assign (T 453) (Plain (Einsum [(T 2,[0;1;2;3]); (n_t2'abab,[1;4;5;6])] [0;4;2;5;6;3]));
  (*549*) Assign (T 426) (Plain (Copy (T 424)));
  (*550*) AddTo (T 426) (Plain (Einsum [(n_t2'abab,[0;1;2;3]); (T 425,[4;5;6;1])] [0;4;6;5;2;3]));
  (*551*) Del (T 425);
  (*552*) Assign (T 489) (Plain (Transpose (T 377) [0;1;3;2]));
  (*553*) AddTo (T 489) (Times (Einsum [(n_t1'bb,[0;1]); (T 78,[2;0;3;4])] [2;3;4;1]) (-1) 1);
  (*554*) Assign (T 461) (Plain (Einsum [(T 460,[0;1;2;3;4;5]); (n_t1'bb,[2;6])] [0;1;3;4;6;5]));
  (*555*) Del (T 460);
  (*556*) Assign (T 445) (Plain (Einsum [(n_v'bbbb'ovvv,[0;1;2;3]); (n_t2'abab,[4;5;6;3])] [4;5;0;6;1;2]));
  (*557*) Assign (T 474) (Plain (Einsum [(T 473,[0;1;2;3;4;5]); (n_t1'aa,[1;6])] [0;2;3;6;4;5]));
  (*558*) Del (T 473);
  (*559*) Assign (T 485) (Times (Einsum [(n_t1'bb,[0;1]); (T 484,[2;3;0;4;5;6])] [2;3;4;5;6;1]) (-1) 1);
  (*560*) Del (T 484);
  (*561*) Assign (T 486) (Plain (Transpose (T 151) [0;2;1;3]));
  (*562*) AddTo (T 486) (Times (Transpose (T 477) [0;2;1;3]) (-1) 1);
  (*563*) Assign (T 465) (Times (Transpose (T 174) [1;0;2;3]) (-1) 1);
  (*564*) AddTo (T 465) (Plain (Copy (T 355)));
  (*565*) Assign (T 442) (Plain (Einsum [(n_t2'abab,[0;1;2;3]); (n_v'bbbb'ooov,[4;1;5;6])] [0;4;5;2;3;6]));
  (*566*) Assign (T 496) (Plain (Einsum [(n_t2'abab,[0;1;2;3]); (T 236,[4;5;1;6])] [0;5;4;2;6;3]));
  (*567*) Assign (T 435) (Plain (Einsum [(T 332,[0;1;2;3]); (n_t2'abab,[0;4;5;6])] [1;2;4;5;3;6]));
  (*568*) Assign (T 504) (Plain (Einsum [(n_t2'abab,[0;1;2;3]); (T 175,[4;0;5;6])] [4;5;1;2;3;6]));
  (*569*) Assign (T 466) (Plain (Einsum [(T 23,[0;1;2;3]); (n_t2'bbbb,[4;2;5;6])] [0;1;4;3;5;6]));
  (*570*) Assign (T 458) (Plain (Einsum [(n_t2'abab,[0;1;2;3]); (T 457,[4;1;5;6])] [0;4;5;2;6;3]));
  (*571*) Del (T 457);
  (*572*) Assign (T 431) (Plain (Transpose (T 335) [1;0;2;3]));
  (*573*) AddTo (T 431) (Times (Copy (T 332)) (-1) 1);
  (*574*) Assign (T 503) (Plain (Einsum [(T 78,[0;1;2;3]); (n_t2'bbbb,[4;5;6;3])] [0;4;5;1;2;6]));
  (*575*) Del (T 78);
  (*576*) Assign (T 491) (Plain (Einsum [(T 394,[0;1;2;3]); (n_t2'abab,[1;4;5;6])] [0;4;2;5;3;6]));
  (*577*) Assign (T 419) (Times (Einsum [(n_t3'babbab,[0;1;2;3;4;5]); (n_f'bb'ov,[6;5])] [1;6;0;2;4;3]) (2) 1);
  (*578*) AddTo (T 419) (Plain (Transpose (T 414) [0;3;2;1;4;5]));
  (*579*) Assign (T 472) (Plain (Einsum [(T 471,[0;1;2;3;4;5]); (n_t1'bb,[3;6])] [0;1;2;4;6;5]));
  (*580*) Del (T 471);
  (*581*) Assign (T 483) (Plain (Einsum [(T 482,[0;1;2;3]); (n_t2'abab,[4;5;6;1])] [4;0;5;6;2;3]));
  (*582*) Del (T 482);
  (*583*) Assign (T 440) (Plain (Einsum [(n_t2'bbbb,[0;1;2;3]); (T 149,[4;5;3;6])] [5;4;0;1;2;6]));
  (*584*) Assign (T 476) (Plain (Einsum [(T 174,[0;1;2;3]); (n_t2'abab,[1;4;5;6])] [0;2;4;5;6;3]));
  (*585*) Assign (T 421) (Plain (Einsum [(n_t3'babbab,[0;1;2;3;4;5]); (T 257,[4;6])] [1;0;2;6;3;5]));
  (*586*) Assign (T 454) (Plain (Einsum [(n_t2'abab,[0;1;2;3]); (T 22,[4;5;1;6])] [0;4;5;2;3;6]));
  (*587*) Assign (T 437) (Times (Einsum [(n_t2'bbbb,[0;1;2;3]); (T 436,[4;1;5;6])] [4;5;0;6;2;3]) (-1) 1);
  (*588*) Del (T 436);
  (*589*) Assign (T 429) (Times (Einsum [(T 139,[0;1;2;3]); (n_t2'abab,[1;4;5;6])] [0;4;2;3;5;6]) (-1) 1);
  (*590*) AddTo (T 429) (Times (Einsum [(n_t1'aa,[0;1]); (T 428,[2;0;3;4;5;6])] [2;4;3;5;1;6]) (2) 1);
  (*591*) Del (T 428);
  (*592*) Assign (T 449) (Plain (Copy n_v'aabb'ovvv));
  (*593*) AddTo (T 449) (Times (Transpose (T 130) [0;1;3;2]) (-1) 1);
  (*594*) Del (T 130);
  (*595*) Assign (T 480) (Plain (Transpose (T 377) [0;1;3;2]));
  (*596*) AddTo (T 480) (Times (Einsum [(T 479,[0;1;2;3]); (n_t1'aa,[1;4])] [0;4;3;2]) (-1) 1);
  (*597*) Del (T 479);
  (*598*) Assign (T 444) (Plain (Einsum [(T 56,[0;1;2;3]); (n_t2'abab,[4;5;1;6])] [4;5;0;2;6;3]));
  (*599*) Assign (T 448) (Plain (Einsum [(n_v'aabb'vvov,[0;1;2;3]); (n_t2'abab,[4;5;1;6])] [4;5;2;0;6;3]));
  (*600*) Assign (T 434) (Plain (Einsum [(n_t2'bbbb,[0;1;2;3]); (T 330,[4;1;5;6])] [4;0;5;6;2;3]));
  (*601*) Assign (T 418) (Times (Einsum [(n_v'aabb'oooo,[0;1;2;3]); (n_t2'abab,[1;4;5;6])] [0;4;2;3;5;6]) (-1) 1);
  (*602*) AddTo (T 418) (Times (Einsum [(n_t1'aa,[0;1]); (T 417,[0;2;3;4;5;6])] [2;4;3;5;1;6]) (2) 1);
  (*603*) Del (T 417);
  (*604*) Assign (T 470) (Plain (Einsum [(n_t2'abab,[0;1;2;3]); (T 200,[4;5;1;6])] [0;4;5;2;3;6]));
  (*605*) Assign (T 412) (Plain (Einsum [(n_f'bb'oo,[0;1]); (n_t3'babbab,[2;3;1;4;5;6])] [3;0;2;5;4;6]));
  (*606*) Assign (T 416) (Plain (Einsum [(n_f'aa'oo,[0;1]); (n_t3'babbab,[2;1;3;4;5;6])] [0;2;3;5;4;6]));
  (*607*) Assign (T 452) (Plain (Einsum [(T 335,[0;1;2;3]); (n_t2'abab,[1;4;5;6])] [0;4;2;5;3;6]));
  (*608*) Assign (T 441) (Plain (Einsum [(n_v'aabb'ooov,[0;1;2;3]); (n_t2'abab,[1;4;5;6])] [0;4;2;5;6;3]));
  (*609*) Assign (T 506) (Plain (Einsum [(T 505,[0;1;2;3;4;5]); (n_t1'aa,[1;6])] [0;2;3;6;4;5]));
  (*610*) Del (T 505);
  (*611*) Assign (T 499) (Times (Einsum [(T 498,[0;1;2;3]); (n_t2'bbbb,[4;2;5;6])] [0;1;4;3;5;6]) (-1) 1);
  (*612*) Del (T 498);
  (*613*) Assign (T 422) (Plain (Einsum [(T 324,[0;1]); (n_t3'babbab,[2;3;0;4;5;6])] [3;1;2;5;4;6]));
  (*614*) Assign (T 464) (Plain (Einsum [(T 463,[0;1;2;3;4;5]); (n_t1'bb,[2;6])] [0;1;3;4;6;5]));
  (*615*) Del (T 463);
  (*616*) Assign (T 415) (Plain (Einsum [(n_t2'abab,[0;1;2;3]); (n_v'bbbb'oooo,[4;5;6;1])] [0;4;5;6;2;3]));
  (*617*) AddTo (T 415) (Times (Transpose (T 414) [0;1;3;2;4;5]) (-1) 1);
  (*618*) Del (T 414);
  (*619*) Assign (T 488) (Times (Transpose (T 151) [0;2;1;3]) (-1) 1);
  (*620*) AddTo (T 488) (Plain (Transpose (T 487) [0;2;1;3]));
  (*621*) Assign (T 451) (Plain (Einsum [(n_t2'bbbb,[0;1;2;3]); (T 329,[4;5;1;6])] [4;0;5;6;2;3]));
  (*622*) Assign (T 475) (Plain (Einsum [(n_t2'bbbb,[0;1;2;3]); (n_v'aabb'oovv,[4;5;6;3])] [4;5;0;1;2;6]));
  (*623*) Assign (T 450) (Plain (Einsum [(n_t2'abab,[0;1;2;3]); (T 177,[4;1;5;6])] [0;5;4;2;6;3]));
  (*624*) Assign (T 468) (Plain (Einsum [(T 467,[0;1;2;3;4;5]); (n_t1'bb,[2;6])] [0;1;3;4;6;5]));
  (*625*) Del (T 467);
  (*626*) Assign (T 459) (Times (Einsum [(T 365,[0;1;2;3]); (n_t2'bbbb,[4;1;5;6])] [0;2;4;3;5;6]) (-1) 1);
  (*627*) Assign (T 478) (Plain (Transpose (T 151) [0;2;1;3]));
  (*628*) AddTo (T 478) (Times (Copy (T 477)) (-1) 1);
  (*629*) Del (T 477);
  (*630*) Assign (T 502) (Plain (Einsum [(T 501,[0;1;2;3;4;5]); (n_t1'bb,[3;6])] [0;1;2;4;6;5]));
  (*631*) Del (T 501);
  (*632*) Assign (T 443) (Plain (Einsum [(n_v'aabb'ovoo,[0;1;2;3]); (n_t2'bbbb,[4;3;5;6])] [0;4;2;1;5;6]));
  (*633*) Assign (T 507) (Plain (Einsum [(n_t2'bbbb,[0;1;2;3]); (T 170,[4;5;6;3])] [4;5;0;1;2;6]));
  (*634*) Assign (T 430) (Plain (Einsum [(n_t2'abab,[0;1;2;3]); (T 136,[4;0;5;6])] [4;5;1;6;2;3]));
  (*635*) AddTo (T 430) (Plain (Copy (T 424)));
  (*636*) Del (T 424);
  (*637*) Assign (T 494) (Plain (Einsum [(T 392,[0;1;2;3]); (n_t2'bbbb,[4;2;5;6])] [0;1;4;3;5;6]));
  (*638*) Assign (T 439) (Plain (Einsum [(T 438,[0;1;2;3;4;5]); (n_t1'aa,[1;6])] [0;2;3;6;4;5]));
  (*639*) Del (T 438);
  (*640*) Assign (T 495) (Times (Copy (T 175)) (-1) 1);
  (*641*) AddTo (T 495) (Plain (Copy (T 400)));
  (*642*) Assign (T 490) (Plain (Transpose (T 151) [0;2;1;3]));
  (*643*) AddTo (T 490) (Times (Transpose (T 487) [0;2;1;3]) (-1) 1);
  (*644*) Del (T 487);
  (*645*) Assign (T 427) (Plain (Einsum [(T 260,[0;1]); (n_t3'babbab,[2;0;3;4;5;6])] [1;2;3;5;4;6]));
  (*646*) Assign (T 500) (Plain (Copy (T 175)));
  (*647*) AddTo (T 500) (Times (Copy (T 400)) (-1) 1);
  (*648*) Del (T 400);
  (*649*) Assign (T 469) (Plain (Einsum [(n_v'aabb'ovov,[0;1;2;3]); (n_t2'bbbb,[4;5;6;3])] [0;4;5;2;1;6]));
  (*650*) Assign (T 341) (Plain (Einsum [(T 340,[0;1;2;3]); (n_t2'aaaa,[4;5;6;2])] [4;5;1;0;6;3]));
  (*651*) Del (T 340);
  (*652*) Assign (T 402) (Times (Einsum [(T 401,[0;1;2;3]); (n_t2'aaaa,[4;1;5;6])] [0;4;2;5;6;3]) (-1) 1);
  (*653*) Del (T 401);
  (*654*) Assign (T 376) (Plain (Einsum [(n_t2'abab,[0;1;2;3]); (T 137,[4;5;1;6])] [4;0;5;2;6;3]));
  (*655*) Assign (T 406) (Plain (Einsum [(n_t2'aaaa,[0;1;2;3]); (T 141,[4;5;3;6])] [0;1;4;5;2;6]));
  (*656*) Assign (T 319) (Plain (Einsum [(T 318,[0;1]); (n_t3'abaaba,[2;3;4;5;0;6])] [2;4;3;5;6;1]));
  (*657*) Assign (T 389) (Times (Transpose (T 377) [0;1;3;2]) (-1) 1);
  (*658*) AddTo (T 389) (Plain (Transpose (T 388) [0;1;3;2]));
  (*659*) Assign (T 403) (Plain (Copy (T 150)));
  (*660*) AddTo (T 403) (Times (Copy (T 396)) (-1) 1);
  (*661*) Assign (T 368) (Plain (Einsum [(T 367,[0;1;2;3;4;5]); (n_t1'aa,[1;6])] [0;2;3;6;4;5]));
  (*662*) Del (T 367);
  (*663*) Assign (T 386) (Times (Einsum [(n_t1'aa,[0;1]); (T 385,[2;0;3;4;5;6])] [2;3;4;5;1;6]) (-1) 1);
  (*664*) Del (T 385);
  (*665*) Assign (T 362) (Plain (Einsum [(T 361,[0;1;2;3;4;5]); (n_t1'aa,[1;6])] [0;2;3;6;4;5]));
  (*666*) Del (T 361);
  (*667*) Assign (T 372) (Plain (Einsum [(n_t1'aa,[0;1]); (T 371,[2;3;0;4;5;6])] [2;3;4;1;5;6]));
  (*668*) Del (T 371);
  (*669*) Assign (T 325) (Plain (Einsum [(n_t3'abaaba,[0;1;2;3;4;5]); (T 324,[1;6])] [0;2;6;3;5;4]));
  (*670*) Del (T 324);
  (*671*) Assign (T 320) (Plain (Einsum [(T 260,[0;1]); (n_t3'abaaba,[2;3;0;4;5;6])] [1;2;3;4;6;5]));
  (*672*) Assign (T 405) (Plain (Einsum [(n_t1'aa,[0;1]); (T 404,[2;3;0;4;5;6])] [2;3;4;1;5;6]));
  (*673*) Del (T 404);
  (*674*) Assign (T 350) (Plain (Einsum [(n_t2'aaaa,[0;1;2;3]); (T 335,[4;1;5;6])] [0;4;5;2;3;6]));
  (*675*) Del (T 335);
  (*676*) Assign (T 347) (Plain (Einsum [(n_t2'abab,[0;1;2;3]); (n_v'aabb'ovvv,[4;5;6;3])] [0;4;1;2;5;6]));
  (*677*) Assign (T 381) (Plain (Transpose (T 151) [0;2;1;3]));
  (*678*) AddTo (T 381) (Times (Einsum [(T 380,[0;1;2;3]); (n_t1'bb,[1;4])] [0;3;2;4]) (-1) 1);
  (*679*) Del (T 380);
  (*680*) Assign (T 399) (Plain (Einsum [(n_t2'abab,[0;1;2;3]); (T 113,[4;5;0;6])] [4;5;1;2;6;3]));
  (*681*) Assign (T 327) (Times (Einsum [(T 136,[0;1;2;3]); (n_t2'abab,[4;3;5;6])] [4;0;1;2;5;6]) (-1) 1);
  (*682*) AddTo (T 327) (Times (Einsum [(T 326,[0;1;2;3;4;5]); (n_t1'bb,[4;6])] [0;1;2;3;5;6]) (-2) 1);
  (*683*) Del (T 326);
  (*684*) Assign (T 397) (Times (Copy (T 150)) (-1) 1);
  (*685*) AddTo (T 397) (Plain (Copy (T 396)));
  (*686*) Assign (T 359) (Plain (Einsum [(T 358,[0;1;2;3;4;5]); (n_t1'aa,[1;6])] [0;2;3;6;4;5]));
  (*687*) Del (T 358);
  (*688*) Assign (T 312) (Plain (Einsum [(n_v'aaaa'oooo,[0;1;2;3]); (n_t2'abab,[3;4;5;6])] [0;1;2;4;5;6]));
  (*689*) AddTo (T 312) (Times (Transpose (T 311) [0;2;1;3;4;5]) (-1) 1);
  (*690*) Assign (T 384) (Plain (Einsum [(n_t2'abab,[0;1;2;3]); (T 383,[4;2;5;6])] [4;0;1;5;6;3]));
  (*691*) Del (T 383);
  (*692*) Assign (T 337) (Times (Einsum [(T 336,[0;1;2;3]); (n_t2'aaaa,[4;0;5;6])] [1;4;2;5;6;3]) (-1) 1);
  (*693*) Del (T 336);
  (*694*) Assign (T 339) (Plain (Einsum [(T 338,[0;1;2;3;4;5]); (n_t1'bb,[3;6])] [0;1;2;4;5;6]));
  (*695*) Del (T 338);
  (*696*) Assign (T 391) (Plain (Transpose (T 377) [0;1;3;2]));
  (*697*) AddTo (T 391) (Times (Transpose (T 388) [0;1;3;2]) (-1) 1);
  (*698*) Del (T 388);
  (*699*) Assign (T 331) (Plain (Transpose (T 329) [0;2;1;3]));
  (*700*) AddTo (T 331) (Times (Copy (T 330)) (-1) 1);
  (*701*) Assign (T 328) (Plain (Einsum [(n_t2'abab,[0;1;2;3]); (T 139,[4;5;6;1])] [4;0;5;6;2;3]));
  (*702*) AddTo (T 328) (Plain (Copy (T 322)));
  (*703*) Assign (T 387) (Plain (Transpose (T 377) [0;1;3;2]));
  (*704*) AddTo (T 387) (Times (Transpose (T 378) [0;1;3;2]) (-1) 1);
  (*705*) Assign (T 349) (Plain (Einsum [(T 245,[0;1;2;3]); (n_t2'abab,[1;4;5;6])] [2;0;4;3;5;6]));
  (*706*) Assign (T 352) (Plain (Einsum [(n_t2'abab,[0;1;2;3]); (T 23,[4;5;1;6])] [0;4;5;2;6;3]));
  (*707*) Assign (T 313) (Plain (Einsum [(n_f'bb'oo,[0;1]); (n_t3'abaaba,[2;1;3;4;5;6])] [2;3;0;4;6;5]));
  (*708*) Assign (T 353) (Plain (Einsum [(n_t2'abab,[0;1;2;3]); (T 3,[4;5;0;6])] [4;5;1;2;6;3]));
  (*709*) Assign (T 348) (Plain (Transpose n_v'aabb'vvov [2;0;1;3]));
  (*710*) AddTo (T 348) (Times (Transpose (T 55) [0;2;1;3]) (-1) 1);
  (*711*) Del (T 55);
  (*712*) Assign (T 407) (Plain (Einsum [(n_t2'abab,[0;1;2;3]); (T 150,[4;5;1;6])] [4;0;5;2;6;3]));
  (*713*) Assign (T 364) (Times (Transpose (T 137) [0;2;1;3]) (-1) 1);
  (*714*) AddTo (T 364) (Plain (Transpose (T 363) [0;2;1;3]));
  (*715*) Assign (T 333) (Plain (Einsum [(n_t2'aaaa,[0;1;2;3]); (T 332,[1;4;5;6])] [0;4;5;2;3;6]));
  (*716*) Del (T 332);
  (*717*) Assign (T 410) (Plain (Einsum [(n_t2'aaaa,[0;1;2;3]); (T 142,[4;5;6;3])] [0;1;4;5;2;6]));
  (*718*) Assign (T 393) (Plain (Einsum [(n_t2'abab,[0;1;2;3]); (T 392,[4;5;1;6])] [0;4;5;6;2;3]));
  (*719*) Del (T 392);
  (*720*) Assign (T 351) (Plain (Einsum [(T 329,[0;1;2;3]); (n_t2'abab,[4;2;5;6])] [4;0;1;3;5;6]));
  (*721*) Del (T 329);
  (*722*) Assign (T 346) (Plain (Einsum [(n_v'aaaa'ovvv,[0;1;2;3]); (n_t2'abab,[4;5;3;6])] [4;0;5;1;2;6]));
  (*723*) Assign (T 343) (Plain (Einsum [(n_t2'abab,[0;1;2;3]); (n_v'aaaa'ooov,[4;0;5;6])] [4;5;1;2;6;3]));
  (*724*) Assign (T 316) (Times (Einsum [(n_f'aa'ov,[0;1]); (n_t3'abaaba,[2;3;4;5;6;1])] [0;2;4;3;5;6]) (2) 1);
  (*725*) AddTo (T 316) (Plain (Transpose (T 311) [1;2;0;3;4;5]));
  (*726*) Del (T 311);
  (*727*) Assign (T 370) (Plain (Einsum [(n_t2'abab,[0;1;2;3]); (T 67,[4;5;0;6])] [4;5;1;2;6;3]));
  (*728*) Assign (T 409) (Plain (Einsum [(n_t1'bb,[0;1]); (T 408,[2;3;4;0;5;6])] [2;3;4;5;6;1]));
  (*729*) Del (T 408);
  (*730*) Assign (T 398) (Plain (Einsum [(T 109,[0;1;2;3]); (n_t2'abab,[2;4;5;6])] [1;0;4;3;5;6]));
  (*731*) Assign (T 366) (Plain (Einsum [(T 2,[0;1;2;3]); (n_t2'aaaa,[4;1;5;6])] [0;4;2;5;6;3]));
  (*732*) Assign (T 357) (Times (Einsum [(T 356,[0;1;2;3]); (n_t2'aaaa,[4;0;5;6])] [1;4;2;5;6;3]) (-1) 1);
  (*733*) Assign (T 390) (Plain (Transpose (T 151) [0;2;1;3]));
  (*734*) AddTo (T 390) (Times (Einsum [(n_t1'aa,[0;1]); (T 141,[0;2;3;4])] [2;3;1;4]) (-1) 1);
  (*735*) Assign (T 354) (Plain (Einsum [(T 289,[0;1;2;3]); (n_t2'abab,[1;4;5;6])] [0;2;4;3;5;6]));
  (*736*) Assign (T 345) (Plain (Einsum [(n_t2'abab,[0;1;2;3]); (T 131,[4;5;3;6])] [0;4;1;2;5;6]));
  (*737*) Assign (T 375) (Plain (Einsum [(n_t2'aaaa,[0;1;2;3]); (n_v'aabb'vvoo,[4;3;5;6])] [0;1;5;6;2;4]));
  (*738*) Assign (T 374) (Plain (Einsum [(n_t1'bb,[0;1]); (T 373,[2;3;4;0;5;6])] [2;3;4;5;6;1]));
  (*739*) Del (T 373);
  (*740*) Assign (T 315) (Times (Einsum [(n_t2'abab,[0;1;2;3]); (n_v'aabb'oooo,[4;5;6;1])] [0;4;5;6;2;3]) (-1) 1);
  (*741*) AddTo (T 315) (Times (Einsum [(n_t1'bb,[0;1]); (T 314,[2;3;4;0;5;6])] [2;3;4;5;6;1]) (-2) 1);
  (*742*) Del (T 314);
  (*743*) Assign (T 344) (Plain (Einsum [(n_t2'aaaa,[0;1;2;3]); (n_v'aabb'ooov,[4;1;5;6])] [0;4;5;2;3;6]));
  (*744*) Assign (T 379) (Plain (Transpose (T 377) [0;1;3;2]));
  (*745*) Del (T 377);
  (*746*) AddTo (T 379) (Times (Copy (T 378)) (-1) 1);
  (*747*) Del (T 378);
  (*748*) Assign (T 411) (Plain (Einsum [(T 396,[0;1;2;3]); (n_t2'abab,[4;2;5;6])] [0;4;1;3;5;6]));
  (*749*) Del (T 396);
  (*750*) Assign (T 342) (Plain (Einsum [(n_v'aabb'ovoo,[0;1;2;3]); (n_t2'abab,[4;3;5;6])] [4;0;2;5;1;6]));
  (*751*) Assign (T 309) (Plain (Einsum [(n_t3'abaaba,[0;1;2;3;4;5]); (n_f'aa'oo,[6;2])] [6;0;1;3;5;4]));
  (*752*) Assign (T 334) (Plain (Einsum [(T 330,[0;1;2;3]); (n_t2'abab,[4;1;5;6])] [0;4;2;3;5;6]));
  (*753*) Del (T 330);
  (*754*) Assign (T 323) (Plain (Copy (T 322)));
  (*755*) Del (T 322);
  (*756*) AddTo (T 323) (Plain (Einsum [(n_t2'abab,[0;1;2;3]); (T 291,[4;5;6;0])] [4;6;5;1;2;3]));
  (*757*) Assign (T 369) (Plain (Einsum [(n_t2'aaaa,[0;1;2;3]); (n_v'aabb'ovov,[4;3;5;6])] [0;1;4;5;2;6]));
  (*758*) Assign (T 395) (Plain (Einsum [(T 394,[0;1;2;3]); (n_t2'aaaa,[4;1;5;6])] [0;4;2;5;6;3]));
  (*759*) Del (T 394);
  (*760*) Assign (T 286) (Times (Einsum [(T 285,[0;1;2;3]); (n_t2'aaaa,[4;5;6;2])] [0;4;5;1;3;6]) (-1) 1);
  (*761*) Assign (T 278) (Plain (Einsum [(n_t1'aa,[0;1]); (T 277,[2;3;0;4;5;6])] [2;3;4;1;5;6]));
  (*762*) Del (T 277);
  (*763*) Assign (T 259) (Plain (Einsum [(n_f'aa'vv,[0;1]); (n_t3'aaaaaa,[2;3;4;5;6;1])] [2;3;4;0;5;6]));
  (*764*) Assign (T 273) (Times (Einsum [(n_t2'aaaa,[0;1;2;3]); (T 272,[1;4;5;6])] [4;5;0;6;2;3]) (-2) 1);
  (*765*) Del (T 272);
  (*766*) Assign (T 270) (Times (Einsum [(n_t2'aaaa,[0;1;2;3]); (T 269,[4;5;1;6])] [4;5;0;6;2;3]) (-1) 1);
  (*767*) Assign (T 256) (Times (Einsum [(n_t3'aaaaaa,[0;1;2;3;4;5]); (T 255,[5;6])] [0;1;2;6;3;4]) (3) 1);
  (*768*) Assign (T 301) (Times (Einsum [(n_t1'aa,[0;1]); (T 300,[2;0;3;4;5;6])] [2;4;3;6;5;1]) (-1) 1);
  (*769*) Del (T 300);
  (*770*) Assign (T 287) (Plain (Einsum [(T 3,[0;1;2;3]); (n_t2'aaaa,[4;2;5;6])] [0;4;1;5;6;3]));
  (*771*) Assign (T 264) (Plain (Einsum [(n_t1'aa,[0;1]); (T 263,[2;3;4;0;5;6])] [2;3;4;1;5;6]));
  (*772*) Del (T 263);
  (*773*) Assign (T 292) (Plain (Transpose (T 67) [0;2;1;3]));
  (*774*) AddTo (T 292) (Plain (Einsum [(n_t1'aa,[0;1]); (T 291,[2;3;4;0])] [2;4;3;1]));
  (*775*) Del (T 291);
  (*776*) Assign (T 303) (Plain (Einsum [(n_t1'aa,[0;1]); (T 302,[2;3;4;0])] [2;4;3;1]));
  (*777*) Del (T 302);
  (*778*) Assign (T 258) (Plain (Einsum [(n_t3'aaaaaa,[0;1;2;3;4;5]); (T 257,[5;6])] [0;1;2;6;3;4]));
  (*779*) Assign (T 304) (Plain (Einsum [(T 109,[0;1;2;3]); (n_t2'aaaa,[4;2;5;6])] [1;0;4;3;5;6]));
  (*780*) Assign (T 280) (Plain (Einsum [(n_v'aaaa'ovvv,[0;1;2;3]); (n_t2'aaaa,[4;5;6;3])] [4;5;0;6;1;2]));
  (*781*) Assign (T 246) (Plain (Einsum [(T 245,[0;1;2;3]); (n_t2'aaaa,[4;1;5;6])] [4;2;0;3;5;6]));
  (*782*) Del (T 245);
  (*783*) Assign (T 299) (Plain (Einsum [(T 111,[0;1;2;3]); (n_t2'aaaa,[4;5;6;2])] [0;4;5;6;3;1]));
  (*784*) Assign (T 290) (Times (Einsum [(n_t2'aaaa,[0;1;2;3]); (T 289,[4;1;5;6])] [4;5;0;6;2;3]) (-1) 1);
  (*785*) Del (T 289);
  (*786*) Assign (T 267) (Times (Einsum [(n_t2'aaaa,[0;1;2;3]); (T 266,[4;1;5;6])] [4;5;0;6;2;3]) (-1) 1);
  (*787*) Del (T 266);
  (*788*) Assign (T 244) (Plain (Einsum [(n_f'aa'oo,[0;1]); (n_t3'aaaaaa,[2;3;1;4;5;6])] [0;2;3;4;5;6]));
  (*789*) Assign (T 282) (Times (Einsum [(T 281,[0;1;2;3]); (n_t2'aaaa,[4;5;6;2])] [0;4;5;1;3;6]) (-2) 1);
  (*790*) Del (T 281);
  (*791*) Assign (T 298) (Plain (Einsum [(T 67,[0;1;2;3]); (n_t2'aaaa,[4;2;5;6])] [0;4;1;5;6;3]));
  (*792*) Assign (T 308) (Times (Einsum [(n_t1'aa,[0;1]); (T 307,[2;0;3;4;5;6])] [2;4;3;6;5;1]) (-2) 1);
  (*793*) Del (T 307);
  (*794*) Assign (T 284) (Times (Einsum [(T 283,[0;1;2;3]); (n_t2'aaaa,[4;5;6;3])] [0;4;5;1;2;6]) (-1) 1);
  (*795*) Assign (T 275) (Times (Einsum [(n_t2'aaaa,[0;1;2;3]); (T 274,[1;4;5;6])] [4;5;0;6;2;3]) (-1) 1);
  (*796*) Assign (T 305) (Plain (Einsum [(n_t2'aaaa,[0;1;2;3]); (T 113,[4;5;1;6])] [4;5;0;2;3;6]));
  (*797*) Assign (T 276) (Times (Einsum [(T 271,[0;1;2;3]); (n_t2'aaaa,[4;0;5;6])] [2;1;4;3;5;6]) (-1) 1);
  (*798*) Assign (T 297) (Plain (Einsum [(n_t1'aa,[0;1]); (T 296,[2;3;4;0;5;6])] [2;3;4;1;5;6]));
  (*799*) Del (T 296);
  (*800*) Assign (T 279) (Plain (Einsum [(n_t2'aaaa,[0;1;2;3]); (n_v'aaaa'ooov,[4;1;5;6])] [0;4;5;2;3;6]));
  (*801*) Assign (T 261) (Plain (Einsum [(T 260,[0;1]); (n_t3'aaaaaa,[2;3;0;4;5;6])] [1;2;3;4;5;6]));
  (*802*) Del (T 260);
  (*803*) Assign (T 253) (Plain (Einsum [(n_t1'aa,[0;1]); (T 252,[2;0;3;4;5;6])] [2;3;4;5;6;1]));
  (*804*) Del (T 252);
  (*805*) Assign (T 249) (Plain (Einsum [(n_t1'aa,[0;1]); (T 248,[2;3;0;4;5;6])] [2;3;4;1;5;6]));
  (*806*) Del (T 248);
  (*807*) Assign (T 295) (Times (Einsum [(n_t2'aaaa,[0;1;2;3]); (T 294,[4;5;1;6])] [4;5;0;6;2;3]) (-1) 1);
  (*808*) Del (T 294);
  (*809*) Assign (T 241) (Plain (Einsum [(n_t2'bbbb,[0;1;2;3]); (T 240,[4;5;1;0])] [5;4;2;3]));
  (*810*) Del (T 240);
  (*811*) Assign (T 226) (Plain (Copy n_v'bbbb'oovv));
  (*812*) AddTo (T 226) (Times (Einsum [(T 101,[0;1;2;3]); (n_t2'bbbb,[4;0;5;2])] [4;1;5;3]) (-2) 1);
  (*813*) AddTo (T 226) (Times (Einsum [(T 225,[0;1;2;3]); (n_t1'bb,[0;4])] [1;2;4;3]) (-1) 1);
  (*814*) Del (T 225);
  (*815*) Assign (T 183) (Times (Einsum [(n_t2'bbbb,[0;1;2;3]); (T 182,[1;4])] [0;4;2;3]) (-1) 1);
  (*816*) Del (T 182);
  (*817*) Assign (T 219) (Plain (Einsum [(n_v'bbbb'ooov,[0;1;2;3]); (n_t1'bb,[1;4])] [0;2;4;3]));
  (*818*) Assign (T 203) (Plain (Einsum [(T 202,[0;1;2;3]); (n_t1'bb,[1;4])] [0;2;4;3]));
  (*819*) Del (T 202);
  (*820*) Assign (T 187) (Plain (Einsum [(n_t2'abab,[0;1;2;3]); (n_v'aabb'ovov,[0;2;4;5])] [1;4;3;5]));
  (*821*) Assign (T 237) (Plain (Einsum [(T 236,[0;1;2;3]); (n_t1'bb,[2;4])] [0;1;4;3]));
  (*822*) Del (T 236);
  (*823*) Assign (T 199) (Plain (Einsum [(n_t2'bbbb,[0;1;2;3]); (T 198,[4;5;0;1])] [4;5;2;3]));
  (*824*) Del (T 198);
  (*825*) Assign (T 189) (Times (Einsum [(n_t3'bbbbbb,[0;1;2;3;4;5]); (T 188,[2;4;5;6])] [0;1;6;3]) (-6) 1);
  (*826*) Assign (T 125) (Times (Copy (T 123)) (1) 2);
  (*827*) AddTo (T 125) (Plain (Copy (T 124)));
  (*828*) Assign (T 178) (Plain (Einsum [(T 177,[0;1;2;3]); (n_t1'bb,[1;4])] [0;2;4;3]));
  (*829*) Del (T 177);
  (*830*) Assign (T 196) (Plain (Einsum [(T 23,[0;1;2;3]); (n_t3'babbab,[4;0;2;5;3;6])] [1;4;5;6]));
  (*831*) Assign (T 239) (Plain (Einsum [(n_t1'bb,[0;1]); (T 238,[2;3;0;4])] [2;3;1;4]));
  (*832*) Del (T 238);
  (*833*) Assign (T 224) (Plain (Copy (T 145)));
  (*834*) AddTo (T 224) (Plain (Einsum [(T 92,[0;1;2;3]); (n_t2'abab,[0;4;2;5])] [1;4;3;5]));
  (*835*) Assign (T 176) (Plain (Einsum [(n_v'bbbb'oooo,[0;1;2;3]); (n_t2'bbbb,[1;3;4;5])] [0;2;4;5]));
  (*836*) Assign (T 235) (Plain (Einsum [(T 234,[0;1;2;3]); (n_t1'bb,[4;2])] [4;0;1;3]));
  (*837*) Del (T 234);
  (*838*) Assign (T 180) (Plain (Einsum [(n_v'aabb'ovoo,[0;1;2;3]); (n_t3'babbab,[4;0;3;5;1;6])] [4;2;5;6]));
  (*839*) Assign (T 201) (Plain (Einsum [(n_t1'bb,[0;1]); (T 200,[2;3;0;4])] [2;3;1;4]));
  (*840*) Del (T 200);
  (*841*) Assign (T 179) (Plain (Einsum [(n_t3'bbbbbb,[0;1;2;3;4;5]); (n_v'bbbb'ooov,[6;1;2;5])] [0;6;3;4]));
  (*842*) Assign (T 243) (Times (Einsum [(n_t2'bbbb,[0;1;2;3]); (n_v'bbbb'ovvv,[4;3;5;2])] [0;1;4;5]) (-1) 1);
  (*843*) Assign (T 190) (Times (Einsum [(n_t3'babbab,[0;1;2;3;4;5]); (T 131,[1;4;5;6])] [0;2;3;6]) (-2) 1);
  (*844*) Assign (T 227) (Plain (Copy (T 145)));
  (*845*) AddTo (T 227) (Plain (Einsum [(n_t2'abab,[0;1;2;3]); (T 8,[0;4;2;5])] [4;1;5;3]));
  (*846*) Assign (T 209) (Times (Einsum [(n_t1'bb,[0;1]); (T 191,[2;1;3;4])] [0;2;4;3]) (-1) 1);
  (*847*) Del (T 191);
  (*848*) AddTo (T 209) (Times (Einsum [(T 208,[0;1;2;3]); (n_t1'bb,[1;4])] [0;2;4;3]) (-1) 1);
  (*849*) Del (T 208);
  (*850*) Assign (T 217) (Plain (Einsum [(n_t2'bbbb,[0;1;2;3]); (T 216,[4;1;5;3])] [4;0;5;2]));
  (*851*) Del (T 216);
  (*852*) Assign (T 194) (Times (Copy n_f'bb'vv) (-1) 1);
  (*853*) AddTo (T 194) (Times (Transpose (T 132) [1;0]) (-1) 1);
  (*854*) AddTo (T 194) (Plain (Transpose (T 123) [1;0]));
  (*855*) Del (T 123);
  (*856*) AddTo (T 194) (Times (Transpose (T 124) [1;0]) (2) 1);
  (*857*) Del (T 124);
  (*858*) AddTo (T 194) (Times (Copy (T 192)) (-1) 1);
  (*859*) AddTo (T 194) (Plain (Transpose (T 193) [1;0]));
  (*860*) Assign (T 195) (Times (Copy n_f'bb'vv) (-1) 1);
  (*861*) AddTo (T 195) (Times (Transpose (T 132) [1;0]) (-1) 1);
  (*862*) AddTo (T 195) (Times (Copy (T 192)) (-1) 1);
  (*863*) Del (T 192);
  (*864*) AddTo (T 195) (Plain (Transpose (T 193) [1;0]));
  (*865*) Del (T 193);
  (*866*) Assign (T 186) (Plain (Einsum [(n_t2'bbbb,[0;1;2;3]); (n_v'bbbb'ovov,[4;5;1;3])] [0;4;2;5]));
  (*867*) Assign (T 33) (Plain (Copy n_f'bb'oo));
  (*868*) AddTo (T 33) (Plain (Transpose (T 30) [1;0]));
  (*869*) Del (T 30);
  (*870*) AddTo (T 33) (Times (Transpose (T 32) [1;0]) (-1) 1);
  (*871*) Del (T 32);
  (*872*) Assign (T 242) (Times (Copy n_v'bbbb'vvvv) (-1) 1);
  (*873*) AddTo (T 242) (Plain (Einsum [(T 188,[0;1;2;3]); (n_t1'bb,[0;4])] [1;4;3;2]));
  (*874*) Del (T 188);
  (*875*) Assign (T 197) (Plain (Einsum [(n_t3'bbbbbb,[0;1;2;3;4;5]); (T 22,[6;2;1;5])] [6;0;3;4]));
  (*876*) Assign (T 223) (Plain (Copy n_v'bbbb'oovv));
  (*877*) AddTo (T 223) (Times (Einsum [(n_t2'bbbb,[0;1;2;3]); (T 97,[1;4;3;5])] [0;4;2;5]) (-2) 1);
  (*878*) AddTo (T 223) (Times (Transpose (T 222) [0;1;3;2]) (-1) 1);
  (*879*) Del (T 222);
  (*880*) Assign (T 218) (Plain (Einsum [(n_t2'abab,[0;1;2;3]); (T 169,[0;4;2;5])] [1;4;3;5]));
  (*881*) Assign (T 229) (Plain (Einsum [(n_t1'bb,[0;1]); (T 228,[2;3;0;4])] [2;3;1;4]));
  (*882*) Del (T 228);
  (*883*) Assign (T 184) (Times (Einsum [(T 17,[0;1]); (n_t3'bbbbbb,[2;3;0;4;5;1])] [2;3;4;5]) (3) 1);
  (*884*) Assign (T 231) (Plain (Einsum [(n_t2'bbbb,[0;1;2;3]); (T 230,[1;4;5;3])] [4;0;5;2]));
  (*885*) Del (T 230);
  (*886*) Assign (T 220) (Plain (Einsum [(n_t2'abab,[0;1;2;3]); (T 126,[0;4;2;5])] [1;4;3;5]));
  (*887*) Assign (T 211) (Plain (Einsum [(T 210,[0;1;2;3]); (n_t2'abab,[0;4;2;5])] [1;4;3;5]));
  (*888*) Del (T 210);
  (*889*) Assign (T 185) (Plain (Copy n_f'aa'ov));
  (*890*) AddTo (T 185) (Plain (Copy (T 1)));
  (*891*) AddTo (T 185) (Times (Einsum [(T 92,[0;1;2;3]); (n_t1'aa,[0;2])] [1;3]) (-1) 1);
  (*892*) Assign (T 233) (Plain (Einsum [(n_t2'bbbb,[0;1;2;3]); (T 232,[4;5;1;0])] [5;4;2;3]));
  (*893*) Del (T 232);
  (*894*) Assign (T 205) (Times (Einsum [(n_t2'bbbb,[0;1;2;3]); (T 204,[4;1])] [4;0;2;3]) (-1) 1);
  (*895*) Del (T 204);
  (*896*) Assign (T 127) (Plain (Transpose n_v'aaaa'ovvv [0;2;3;1]));
  (*897*) AddTo (T 127) (Plain (Copy (T 52)));
  (*898*) Del (T 52);
  (*899*) Assign (T 4) (Plain (Copy n_t2'abab));
  (*900*) AddTo (T 4) (Plain (Einsum [(n_t1'bb,[0;1]); (n_t1'aa,[2;3])] [2;0;3;1]));
  (*901*) Assign (T 172) (Plain (Transpose (T 170) [0;1;3;2]));
  (*902*) Del (T 170);
  (*903*) AddTo (T 172) (Times (Transpose (T 171) [0;1;3;2]) (-1) 1);
  (*904*) Del (T 171);
  (*905*) Assign (T 159) (Plain (Copy n_v'bbbb'oovv));
  (*906*) AddTo (T 159) (Plain (Einsum [(T 158,[0;1;2;3]); (n_t1'bb,[0;4])] [2;1;3;4]));
  (*907*) Del (T 158);
  (*908*) Assign (T 160) (Plain (Einsum [(n_t2'abab,[0;1;2;3]); (n_v'aabb'ovov,[4;2;5;3])] [0;4;1;5]));
  (*909*) Assign (T 121) (Plain (Copy n_t2'abab));
  (*910*) AddTo (T 121) (Times (Einsum [(n_t1'bb,[0;1]); (n_t1'aa,[2;3])] [2;0;3;1]) (2) 1);
  (*911*) Assign (T 147) (Times (Transpose n_v'aabb'vvoo [2;3;0;1]) (-1) 1);
  (*912*) AddTo (T 147) (Plain (Transpose (T 146) [1;0;3;2]));
  (*913*) Del (T 146);
  (*914*) AddTo (T 147) (Plain (Einsum [(n_v'aabb'ovov,[0;1;2;3]); (n_t2'abab,[0;4;5;3])] [2;4;1;5]));
  (*915*) Assign (T 129) (Plain (Transpose n_v'bbbb'ovvv [0;2;3;1]));
  (*916*) AddTo (T 129) (Plain (Copy (T 128)));
  (*917*) Del (T 128);
  (*918*) Assign (T 173) (Plain (Einsum [(n_t2'abab,[0;1;2;3]); (n_v'aabb'ovvv,[4;2;5;3])] [0;4;1;5]));
  (*919*) Assign (T 162) (Plain (Copy n_v'aabb'vvvv));
  (*920*) AddTo (T 162) (Times (Einsum [(T 161,[0;1;2;3]); (n_t1'bb,[0;4])] [2;1;3;4]) (-1) 1);
  (*921*) Del (T 161);
  (*922*) Assign (T 156) (Times (Copy (T 96)) (-1) 1);
  (*923*) AddTo (T 156) (Times (Copy (T 155)) (2) 1);
  (*924*) AddTo (T 156) (Times (Einsum [(n_t2'abab,[0;1;2;3]); (T 47,[1;4;3;5])] [0;4;2;5]) (-1) 1);
  (*925*) Del (T 47);
  (*926*) Assign (T 152) (Plain (Transpose n_v'aabb'vvov [2;0;1;3]));
  (*927*) AddTo (T 152) (Plain (Transpose (T 151) [0;2;1;3]));
  (*928*) Del (T 151);
  (*929*) Assign (T 134) (Plain (Copy n_f'bb'vv));
  (*930*) AddTo (T 134) (Plain (Transpose (T 132) [1;0]));
  (*931*) Del (T 132);
  (*932*) AddTo (T 134) (Times (Einsum [(T 133,[0;1;2;3]); (n_t1'bb,[0;2])] [1;3]) (-1) 1);
  (*933*) Del (T 133);
  (*934*) AddTo (T 134) (Times (Einsum [(T 49,[0;1]); (n_t1'bb,[0;2])] [1;2]) (-1) 1);
  (*935*) Assign (T 157) (Plain (Einsum [(n_v'aabb'ovoo,[0;1;2;3]); (n_t2'aaaa,[4;0;5;1])] [4;2;3;5]));
  (*936*) Assign (T 154) (Plain (Copy n_v'aaaa'oovv));
  (*937*) AddTo (T 154) (Times (Transpose (T 50) [1;0;3;2]) (-1) 1);
  (*938*) AddTo (T 154) (Times (Einsum [(n_t2'aaaa,[0;1;2;3]); (T 92,[1;4;3;5])] [4;0;5;2]) (2) 1);
  (*939*) AddTo (T 154) (Plain (Einsum [(T 38,[0;1;2;3]); (n_t1'aa,[0;4])] [2;1;3;4]));
  (*940*) Del (T 38);
  (*941*) Assign (T 28) (Plain (Transpose (T 25) [1;0]));
  (*942*) Del (T 25);
  (*943*) AddTo (T 28) (Times (Transpose (T 26) [1;0]) (2) 1);
  (*944*) Del (T 26);
  (*945*) AddTo (T 28) (Plain (Transpose (T 27) [1;0]));
  (*946*) Del (T 27);
  (*947*) Assign (T 168) (Times (Transpose (T 166) [0;1;3;2]) (-1) 1);
  (*948*) Del (T 166);
  (*949*) AddTo (T 168) (Plain (Einsum [(T 167,[0;1;2;3]); (n_t1'bb,[2;4])] [0;1;3;4]));
  (*950*) Del (T 167);
  (*951*) Assign (T 62) (Times (Copy n_f'aa'vv) (-1) 1);
  (*952*) AddTo (T 62) (Times (Transpose (T 58) [1;0]) (-1) 1);
  (*953*) AddTo (T 62) (Times (Transpose (T 43) [1;0]) (2) 1);
  (*954*) AddTo (T 62) (Plain (Transpose (T 44) [1;0]));
  (*955*) AddTo (T 62) (Times (Copy (T 60)) (-1) 1);
  (*956*) AddTo (T 62) (Plain (Transpose (T 61) [1;0]));
  (*957*) Assign (T 138) (Plain (Einsum [(T 2,[0;1;2;3]); (n_t3'babbab,[4;1;2;5;6;3])] [0;4;6;5]));
  (*958*) Assign (T 144) (Plain (Transpose (T 142) [0;1;3;2]));
  (*959*) Del (T 142);
  (*960*) AddTo (T 144) (Times (Transpose (T 143) [0;1;3;2]) (-1) 1);
  (*961*) Del (T 143);
  (*962*) Assign (T 135) (Times (Einsum [(n_t3'babbab,[0;1;2;3;4;5]); (T 22,[6;0;2;5])] [1;6;4;3]) (-1) 1);
  (*963*) Assign (T 120) (Times (Einsum [(n_t3'babbab,[0;1;2;3;4;5]); (n_v'bbbb'ooov,[6;2;0;5])] [1;6;4;3]) (-1) 1);
  (*964*) Assign (T 12) (Times (Transpose (T 6) [1;0]) (2) 1);
  (*965*) Del (T 6);
  (*966*) AddTo (T 12) (Plain (Transpose (T 7) [1;0]));
  (*967*) Del (T 7);
  (*968*) AddTo (T 12) (Plain (Transpose (T 11) [1;0]));
  (*969*) Del (T 11);
  (*970*) Assign (T 122) (Plain (Einsum [(n_v'aabb'ooov,[0;1;2;3]); (n_t3'babbab,[4;1;2;5;6;3])] [0;4;6;5]));
  (*971*) Assign (T 164) (Times (Copy (T 163)) (-1) 1);
  (*972*) Del (T 163);
  (*973*) AddTo (T 164) (Plain (Transpose (T 85) [0;1;3;2]));
  (*974*) Del (T 85);
  (*975*) Assign (T 90) (Plain (Einsum [(n_t1'aa,[0;1]); (n_v'aaaa'ooov,[2;0;3;4])] [2;3;1;4]));
  (*976*) Assign (T 95) (Plain (Copy n_v'aaaa'oovv));
  (*977*) AddTo (T 95) (Times (Einsum [(n_t2'aaaa,[0;1;2;3]); (T 92,[1;4;5;3])] [0;4;2;5]) (-2) 1);
  (*978*) Del (T 92);
  (*979*) AddTo (T 95) (Times (Copy (T 94)) (-1) 1);
  (*980*) Del (T 94);
  (*981*) Assign (T 68) (Plain (Einsum [(T 67,[0;1;2;3]); (n_t1'aa,[2;4])] [0;1;4;3]));
  (*982*) Del (T 67);
  (*983*) Assign (T 66) (Times (Einsum [(T 65,[0;1;2;3]); (n_t2'aaaa,[3;2;4;5])] [0;1;4;5]) (-1) 1);
  (*984*) Del (T 65);
  (*985*) Assign (T 35) (Plain (Einsum [(n_v'aabb'ooov,[0;1;2;3]); (n_t3'abaaba,[4;2;1;5;3;6])] [4;0;5;6]));
  (*986*) Assign (T 37) (Times (Einsum [(n_t2'aaaa,[0;1;2;3]); (n_v'aaaa'oooo,[4;1;5;0])] [4;5;2;3]) (-1) 1);
  (*987*) Assign (T 73) (Times (Einsum [(n_t2'aaaa,[0;1;2;3]); (T 72,[4;1])] [0;4;2;3]) (-1) 1);
  (*988*) Del (T 72);
  (*989*) Assign (T 100) (Times (Copy n_v'aaaa'oovv) (1) 2);
  (*990*) AddTo (T 100) (Times (Einsum [(T 8,[0;1;2;3]); (n_t2'aaaa,[4;0;5;3])] [4;1;5;2]) (-1) 1);
  (*991*) Del (T 8);
  (*992*) AddTo (T 100) (Times (Einsum [(T 99,[0;1;2;3]); (n_t1'aa,[0;4])] [1;2;4;3]) (-1) 2);
  (*993*) Del (T 99);
  (*994*) Assign (T 63) (Times (Copy n_f'aa'vv) (-1) 1);
  (*995*) AddTo (T 63) (Times (Transpose (T 58) [1;0]) (-1) 1);
  (*996*) Del (T 58);
  (*997*) AddTo (T 63) (Times (Copy (T 60)) (-1) 1);
  (*998*) Del (T 60);
  (*999*) AddTo (T 63) (Plain (Transpose (T 61) [1;0]));
  (*1000*) Del (T 61);
  (*1001*) Assign (T 69) (Plain (Einsum [(T 2,[0;1;2;3]); (n_t3'abaaba,[4;2;1;5;3;6])] [0;4;5;6]));
  (*1002*) Assign (T 36) (Plain (Copy n_t2'aaaa));
  (*1003*) AddTo (T 36) (Times (Einsum [(n_t1'aa,[0;1]); (n_t1'aa,[2;3])] [2;0;3;1]) (2) 1);
  (*1004*) Assign (T 51) (Plain (Einsum [(n_t2'aaaa,[0;1;2;3]); (n_v'aaaa'ovov,[4;5;1;3])] [0;4;2;5]));
  (*1005*) Assign (T 106) (Plain (Einsum [(n_t2'aaaa,[0;1;2;3]); (T 105,[1;4;5;3])] [0;4;2;5]));
  (*1006*) Del (T 105);
  (*1007*) Assign (T 54) (Times (Einsum [(T 53,[0;1;2;3]); (n_t3'aaaaaa,[4;5;0;6;2;1])] [4;5;6;3]) (-6) 1);
  (*1008*) Del (T 53);
  (*1009*) Assign (T 64) (Times (Einsum [(n_t3'aaaaaa,[0;1;2;3;4;5]); (T 3,[6;1;2;5])] [6;0;3;4]) (-1) 1);
  (*1010*) Assign (T 114) (Plain (Einsum [(T 113,[0;1;2;3]); (n_t1'aa,[2;4])] [0;1;4;3]));
  (*1011*) Del (T 113);
  (*1012*) Assign (T 102) (Plain (Copy (T 96)));
  (*1013*) AddTo (T 102) (Times (Einsum [(n_t2'abab,[0;1;2;3]); (T 101,[1;4;3;5])] [0;4;2;5]) (-1) 1);
  (*1014*) Del (T 101);
  (*1015*) Assign (T 71) (Plain (Einsum [(T 70,[0;1;2;3]); (n_t1'aa,[1;4])] [0;2;4;3]));
  (*1016*) Del (T 70);
  (*1017*) Assign (T 42) (Times (Einsum [(n_t3'aaaaaa,[0;1;2;3;4;5]); (T 10,[2;5])] [0;1;3;4]) (3) 1);
  (*1018*) Assign (T 110) (Plain (Einsum [(T 109,[0;1;2;3]); (n_t1'aa,[2;4])] [0;1;4;3]));
  (*1019*) Del (T 109);
  (*1020*) Assign (T 108) (Times (Einsum [(T 107,[0;1;2;3]); (n_t2'aaaa,[2;3;4;5])] [1;0;4;5]) (-1) 1);
  (*1021*) Del (T 107);
  (*1022*) Assign (T 91) (Plain (Einsum [(n_t2'aaaa,[0;1;2;3]); (T 50,[4;1;5;3])] [0;4;2;5]));
  (*1023*) Assign (T 81) (Plain (Einsum [(n_t2'abab,[0;1;2;3]); (T 80,[4;1;5;3])] [0;4;2;5]));
  (*1024*) Del (T 80);
  (*1025*) Assign (T 98) (Plain (Copy (T 96)));
  (*1026*) AddTo (T 98) (Times (Einsum [(n_t2'abab,[0;1;2;3]); (T 97,[1;4;3;5])] [0;4;2;5]) (-1) 1);
  (*1027*) Del (T 97);
  (*1028*) Assign (T 45) (Times (Copy (T 43)) (2) 1);
  (*1029*) Del (T 43);
  (*1030*) AddTo (T 45) (Plain (Copy (T 44)));
  (*1031*) Del (T 44);
  (*1032*) Assign (T 21) (Plain (Copy n_f'aa'oo));
  (*1033*) AddTo (T 21) (Plain (Transpose (T 18) [1;0]));
  (*1034*) Del (T 18);
  (*1035*) AddTo (T 21) (Times (Transpose (T 20) [1;0]) (-1) 1);
  (*1036*) Del (T 20);
  (*1037*) Assign (T 87) (Plain (Einsum [(n_t2'aaaa,[0;1;2;3]); (T 86,[4;1;5;3])] [0;4;2;5]));
  (*1038*) Del (T 86);
  (*1039*) Assign (T 116) (Plain (Einsum [(n_t2'aaaa,[0;1;2;3]); (T 115,[4;5;1;0])] [5;4;2;3]));
  (*1040*) Del (T 115);
  (*1041*) Assign (T 112) (Plain (Einsum [(n_t1'aa,[0;1]); (T 111,[2;3;1;4])] [0;2;3;4]));
  (*1042*) Del (T 111);
  (*1043*) Assign (T 34) (Times (Einsum [(n_t3'aaaaaa,[0;1;2;3;4;5]); (n_v'aaaa'ooov,[6;2;1;5])] [0;6;3;4]) (-1) 1);
  (*1044*) Assign (T 104) (Plain (Einsum [(T 103,[0;1;2;3]); (n_t1'aa,[2;4])] [0;1;4;3]));
  (*1045*) Del (T 103);
  (*1046*) Assign (T 77) (Times (Einsum [(n_t1'aa,[0;1]); (T 59,[2;1;3;4])] [0;2;4;3]) (-1) 1);
  (*1047*) Del (T 59);
  (*1048*) AddTo (T 77) (Times (Einsum [(T 76,[0;1;2;3]); (n_t1'aa,[1;4])] [0;2;4;3]) (-1) 1);
  (*1049*) Del (T 76);
  (*1050*) Assign (T 119) (Plain (Einsum [(n_v'aaaa'ovvv,[0;1;2;3]); (n_t2'aaaa,[4;5;1;3])] [4;5;0;2]));
  (*1051*) Assign (T 89) (Plain (Einsum [(T 88,[0;1;2;3]); (n_t2'abab,[4;1;5;3])] [4;0;5;2]));
  (*1052*) Assign (T 41) (Times (Einsum [(n_t2'aaaa,[0;1;2;3]); (T 40,[1;4])] [0;4;2;3]) (-1) 1);
  (*1053*) Assign (T 118) (Plain (Copy n_v'aaaa'vvvv));
  (*1054*) AddTo (T 118) (Plain (Einsum [(T 117,[0;1;2;3]); (n_t1'aa,[0;4])] [3;4;2;1]));
  (*1055*) Del (T 117);
  (*1056*) Assign (T 57) (Times (Einsum [(n_t3'abaaba,[0;1;2;3;4;5]); (T 56,[1;5;6;4])] [0;2;3;6]) (-2) 1);
  (*1057*) Assign (T 46) (Times (Einsum [(n_t1'aa,[0;1]); (n_t1'aa,[2;3])] [0;2;3;1]) (2) 1);
  (*1058*) AddTo (T 46) (Times (Copy n_t2'aaaa) (-1) 1);
  (*1059*) Assign (T 29) (Plain (Copy n_f'bb'vv));
  (*1060*) AddTo (T 29) (Plain (Einsum [(n_v'bbbb'ovvv,[0;1;2;3]); (n_t1'bb,[0;1])] [2;3]));
  (*1061*) Assign (T 24) (Times (Copy n_t2'bbbb) (2) 1);
  (*1062*) AddTo (T 24) (Plain (Einsum [(n_t1'bb,[0;1]); (n_t1'bb,[2;3])] [0;2;1;3]));
  (*1063*) Assign (T 13) (Plain (Copy n_f'aa'vv));
  (*1064*) AddTo (T 13) (Times (Einsum [(n_t1'aa,[0;1]); (n_v'aaaa'ovvv,[0;2;3;1])] [2;3]) (-1) 1);
  (*1065*) Assign (T 5) (Times (Copy n_t2'aaaa) (2) 1);
  (*1066*) AddTo (T 5) (Plain (Einsum [(n_t1'aa,[0;1]); (n_t1'aa,[2;3])] [2;0;3;1]));
  (*1067*) Assign n_t3new'bbbbbb (Times (Transpose (T 509) [1;0;2;5;4;3]) (-2) 1);
  (*1068*) AddTo n_t3new'bbbbbb (Times (Transpose (T 510) [1;2;0;4;5;3]) (-6) 1);
  (*1069*) AddTo n_t3new'bbbbbb (Times (Transpose (T 513) [0;1;2;5;3;4]) (-2) 1);
  (*1070*) AddTo n_t3new'bbbbbb (Times (Transpose (T 513) [0;1;2;5;4;3]) (2) 1);
  (*1071*) AddTo n_t3new'bbbbbb (Times (Transpose (T 509) [1;2;0;5;4;3]) (2) 1);
  (*1072*) AddTo n_t3new'bbbbbb (Times (Transpose (T 510) [1;0;2;4;5;3]) (6) 1);
  (*1073*) AddTo n_t3new'bbbbbb (Times (Transpose (T 513) [0;2;1;5;3;4]) (2) 1);
  (*1074*) AddTo n_t3new'bbbbbb (Times (Transpose (T 513) [0;2;1;5;4;3]) (-2) 1);
  (*1075*) AddTo n_t3new'bbbbbb (Times (Transpose (T 510) [0;2;1;4;5;3]) (6) 1);
  (*1076*) Del (T 510);
  (*1077*) AddTo n_t3new'bbbbbb (Times (Transpose (T 513) [2;1;0;5;3;4]) (2) 1);
  (*1078*) AddTo n_t3new'bbbbbb (Times (Transpose (T 513) [2;1;0;5;4;3]) (-2) 1);
  (*1079*) AddTo n_t3new'bbbbbb (Times (Transpose (T 517) [2;1;0;4;3;5]) (2) 1);
  (*1080*) Del (T 517);
  (*1081*) AddTo n_t3new'bbbbbb (Times (Transpose (T 518) [1;2;0;3;4;5]) (2) 1);
  (*1082*) Del (T 518);
  (*1083*) AddTo n_t3new'bbbbbb (Times (Transpose (T 519) [1;2;0;4;3;5]) (-6) 1);
  (*1084*) Del (T 519);
  (*1085*) AddTo n_t3new'bbbbbb (Times (Transpose (T 520) [0;1;2;5;4;3]) (-6) 1);
  (*1086*) Del (T 520);
  (*1087*) AddTo n_t3new'bbbbbb (Times (Transpose (T 521) [1;2;0;4;5;3]) (-6) 1);
  (*1088*) AddTo n_t3new'bbbbbb (Times (Transpose (T 524) [1;2;0;5;3;4]) (-2) 1);
  (*1089*) AddTo n_t3new'bbbbbb (Times (Transpose (T 524) [1;2;0;5;4;3]) (2) 1);
  (*1090*) AddTo n_t3new'bbbbbb (Times (Transpose (T 527) [1;2;0;5;4;3]) (-2) 1);
  (*1091*) AddTo n_t3new'bbbbbb (Times (Transpose (T 521) [1;0;2;4;5;3]) (6) 1);
  (*1092*) AddTo n_t3new'bbbbbb (Times (Transpose (T 524) [1;0;2;5;3;4]) (2) 1);
  (*1093*) AddTo n_t3new'bbbbbb (Times (Transpose (T 524) [1;0;2;5;4;3]) (-2) 1);
  (*1094*) AddTo n_t3new'bbbbbb (Times (Transpose (T 527) [1;0;2;5;4;3]) (2) 1);
  (*1095*) AddTo n_t3new'bbbbbb (Times (Transpose (T 521) [0;2;1;4;5;3]) (6) 1);
  (*1096*) Del (T 521);
  (*1097*) AddTo n_t3new'bbbbbb (Times (Transpose (T 524) [0;2;1;5;3;4]) (2) 1);
  (*1098*) AddTo n_t3new'bbbbbb (Times (Transpose (T 524) [0;2;1;5;4;3]) (-2) 1);
  (*1099*) AddTo n_t3new'bbbbbb (Times (Transpose (T 528) [0;1;2;5;4;3]) (-2) 1);
  (*1100*) AddTo n_t3new'bbbbbb (Times (Transpose (T 530) [2;0;1;3;5;4]) (-1) 1);
  (*1101*) AddTo n_t3new'bbbbbb (Times (Transpose (T 531) [2;0;1;3;5;4]) (-1) 1);
  (*1102*) AddTo n_t3new'bbbbbb (Times (Transpose (T 531) [0;2;1;3;5;4]) (2) 1);
  (*1103*) AddTo n_t3new'bbbbbb (Times (Transpose (T 531) [2;0;1;5;3;4]) (2) 1);
  (*1104*) AddTo n_t3new'bbbbbb (Times (Transpose (T 531) [0;2;1;5;3;4]) (-2) 1);
  (*1105*) AddTo n_t3new'bbbbbb (Times (Transpose (T 530) [0;1;2;3;5;4]) (-1) 1);
  (*1106*) Del (T 530);
  (*1107*) AddTo n_t3new'bbbbbb (Times (Transpose (T 531) [0;1;2;3;5;4]) (-1) 1);
  (*1108*) AddTo n_t3new'bbbbbb (Times (Transpose (T 531) [0;1;2;5;3;4]) (2) 1);
  (*1109*) Del (T 531);
  (*1110*) AddTo n_t3new'bbbbbb (Times (Transpose (T 532) [2;1;0;5;4;3]) (4) 1);
  (*1111*) AddTo n_t3new'bbbbbb (Times (Transpose (T 534) [2;1;0;5;3;4]) (2) 1);
  (*1112*) AddTo n_t3new'bbbbbb (Times (Transpose (T 513) [2;1;0;3;4;5]) (2) 1);
  (*1113*) AddTo n_t3new'bbbbbb (Times (Transpose (T 513) [2;1;0;4;3;5]) (-2) 1);
  (*1114*) AddTo n_t3new'bbbbbb (Times (Transpose (T 534) [2;1;0;3;5;4]) (-2) 1);
  (*1115*) AddTo n_t3new'bbbbbb (Times (Transpose (T 532) [0;2;1;5;4;3]) (4) 1);
  (*1116*) AddTo n_t3new'bbbbbb (Times (Transpose (T 534) [0;2;1;5;3;4]) (2) 1);
  (*1117*) AddTo n_t3new'bbbbbb (Times (Transpose (T 513) [0;2;1;3;4;5]) (2) 1);
  (*1118*) AddTo n_t3new'bbbbbb (Times (Transpose (T 513) [0;2;1;4;3;5]) (-2) 1);
  (*1119*) AddTo n_t3new'bbbbbb (Times (Transpose (T 534) [0;2;1;3;5;4]) (-2) 1);
  (*1120*) AddTo n_t3new'bbbbbb (Times (Transpose (T 532) [0;1;2;5;4;3]) (-4) 1);
  (*1121*) Del (T 532);
  (*1122*) AddTo n_t3new'bbbbbb (Times (Transpose (T 534) [0;1;2;5;3;4]) (-2) 1);
  (*1123*) AddTo n_t3new'bbbbbb (Times (Copy (T 513)) (-2) 1);
  (*1124*) AddTo n_t3new'bbbbbb (Times (Transpose (T 513) [0;1;2;4;3;5]) (2) 1);
  (*1125*) AddTo n_t3new'bbbbbb (Times (Transpose (T 534) [0;1;2;3;5;4]) (2) 1);
  (*1126*) AddTo n_t3new'bbbbbb (Times (Transpose (T 535) [0;1;2;5;4;3]) (2) 1);
  (*1127*) AddTo n_t3new'bbbbbb (Times (Transpose (T 535) [0;2;1;5;4;3]) (-2) 1);
  (*1128*) AddTo n_t3new'bbbbbb (Times (Transpose (T 535) [1;0;2;5;4;3]) (-2) 1);
  (*1129*) AddTo n_t3new'bbbbbb (Times (Transpose (T 535) [2;0;1;5;4;3]) (2) 1);
  (*1130*) AddTo n_t3new'bbbbbb (Times (Transpose (T 535) [0;1;2;4;5;3]) (-2) 1);
  (*1131*) AddTo n_t3new'bbbbbb (Times (Transpose (T 535) [0;2;1;4;5;3]) (2) 1);
  (*1132*) AddTo n_t3new'bbbbbb (Times (Transpose (T 535) [1;0;2;4;5;3]) (2) 1);
  (*1133*) AddTo n_t3new'bbbbbb (Times (Transpose (T 535) [2;0;1;4;5;3]) (-2) 1);
  (*1134*) AddTo n_t3new'bbbbbb (Times (Transpose (T 535) [1;2;0;5;4;3]) (2) 1);
  (*1135*) AddTo n_t3new'bbbbbb (Times (Transpose (T 535) [2;1;0;5;4;3]) (-2) 1);
  (*1136*) AddTo n_t3new'bbbbbb (Times (Transpose (T 535) [1;2;0;4;5;3]) (-2) 1);
  (*1137*) AddTo n_t3new'bbbbbb (Times (Transpose (T 535) [2;1;0;4;5;3]) (2) 1);
  (*1138*) AddTo n_t3new'bbbbbb (Times (Transpose (T 535) [0;1;2;4;3;5]) (2) 1);
  (*1139*) AddTo n_t3new'bbbbbb (Times (Transpose (T 535) [0;2;1;4;3;5]) (-2) 1);
  (*1140*) AddTo n_t3new'bbbbbb (Times (Transpose (T 535) [1;0;2;4;3;5]) (-2) 1);
  (*1141*) AddTo n_t3new'bbbbbb (Times (Transpose (T 535) [2;0;1;4;3;5]) (2) 1);
  (*1142*) AddTo n_t3new'bbbbbb (Times (Transpose (T 535) [1;2;0;4;3;5]) (2) 1);
  (*1143*) AddTo n_t3new'bbbbbb (Times (Transpose (T 535) [2;1;0;4;3;5]) (-2) 1);
  (*1144*) Del (T 535);
  (*1145*) AddTo n_t3new'bbbbbb (Times (Transpose (T 536) [0;1;2;5;4;3]) (2) 1);
  (*1146*) AddTo n_t3new'bbbbbb (Times (Transpose (T 538) [2;1;0;3;4;5]) (-1) 1);
  (*1147*) AddTo n_t3new'bbbbbb (Times (Transpose (T 536) [0;2;1;5;4;3]) (-2) 1);
  (*1148*) AddTo n_t3new'bbbbbb (Times (Transpose (T 539) [2;0;1;4;3;5]) (-2) 1);
  (*1149*) AddTo n_t3new'bbbbbb (Times (Transpose (T 536) [0;1;2;5;3;4]) (-2) 1);
  (*1150*) AddTo n_t3new'bbbbbb (Times (Transpose (T 540) [2;1;0;3;5;4]) (2) 1);
  (*1151*) AddTo n_t3new'bbbbbb (Times (Transpose (T 536) [0;2;1;5;3;4]) (2) 1);
  (*1152*) AddTo n_t3new'bbbbbb (Times (Transpose (T 539) [2;0;1;4;5;3]) (2) 1);
  (*1153*) AddTo n_t3new'bbbbbb (Times (Transpose (T 536) [2;1;0;5;4;3]) (-2) 1);
  (*1154*) AddTo n_t3new'bbbbbb (Times (Transpose (T 538) [0;2;1;3;4;5]) (-1) 1);
  (*1155*) Del (T 538);
  (*1156*) AddTo n_t3new'bbbbbb (Times (Transpose (T 536) [2;1;0;5;3;4]) (2) 1);
  (*1157*) AddTo n_t3new'bbbbbb (Times (Transpose (T 540) [0;2;1;3;5;4]) (2) 1);
  (*1158*) AddTo n_t3new'bbbbbb (Times (Transpose (T 536) [0;1;2;3;5;4]) (2) 1);
  (*1159*) AddTo n_t3new'bbbbbb (Times (Transpose (T 540) [2;1;0;5;3;4]) (-2) 1);
  (*1160*) AddTo n_t3new'bbbbbb (Times (Transpose (T 536) [0;2;1;3;5;4]) (-2) 1);
  (*1161*) AddTo n_t3new'bbbbbb (Times (Transpose (T 539) [2;0;1;5;4;3]) (-2) 1);
  (*1162*) Del (T 539);
  (*1163*) AddTo n_t3new'bbbbbb (Times (Transpose (T 536) [2;1;0;3;5;4]) (-2) 1);
  (*1164*) Del (T 536);
  (*1165*) AddTo n_t3new'bbbbbb (Times (Transpose (T 540) [0;2;1;5;3;4]) (-2) 1);
  (*1166*) Del (T 540);
  (*1167*) AddTo n_t3new'bbbbbb (Times (Transpose (T 509) [0;1;2;3;5;4]) (2) 1);
  (*1168*) AddTo n_t3new'bbbbbb (Times (Transpose (T 509) [1;0;2;3;5;4]) (-2) 1);
  (*1169*) AddTo n_t3new'bbbbbb (Times (Transpose (T 509) [0;1;2;5;3;4]) (-2) 1);
  (*1170*) AddTo n_t3new'bbbbbb (Times (Transpose (T 509) [1;0;2;5;3;4]) (2) 1);
  (*1171*) AddTo n_t3new'bbbbbb (Times (Transpose (T 509) [0;2;1;5;4;3]) (-2) 1);
  (*1172*) AddTo n_t3new'bbbbbb (Times (Transpose (T 509) [0;1;2;5;4;3]) (2) 1);
  (*1173*) AddTo n_t3new'bbbbbb (Times (Transpose (T 509) [2;0;1;5;4;3]) (2) 1);
  (*1174*) AddTo n_t3new'bbbbbb (Times (Transpose (T 509) [1;2;0;3;5;4]) (2) 1);
  (*1175*) AddTo n_t3new'bbbbbb (Times (Transpose (T 509) [1;2;0;5;3;4]) (-2) 1);
  (*1176*) Del (T 509);
  (*1177*) AddTo n_t3new'bbbbbb (Times (Transpose (T 541) [1;0;2;5;4;3]) (2) 1);
  (*1178*) AddTo n_t3new'bbbbbb (Times (Transpose (T 542) [2;0;1;3;5;4]) (2) 1);
  (*1179*) AddTo n_t3new'bbbbbb (Times (Transpose (T 541) [0;1;2;5;4;3]) (-2) 1);
  (*1180*) AddTo n_t3new'bbbbbb (Times (Transpose (T 542) [0;2;1;3;5;4]) (-2) 1);
  (*1181*) AddTo n_t3new'bbbbbb (Times (Transpose (T 541) [1;0;2;4;5;3]) (-2) 1);
  (*1182*) AddTo n_t3new'bbbbbb (Times (Transpose (T 542) [2;0;1;5;3;4]) (-2) 1);
  (*1183*) AddTo n_t3new'bbbbbb (Times (Transpose (T 541) [0;1;2;4;5;3]) (2) 1);
  (*1184*) AddTo n_t3new'bbbbbb (Times (Transpose (T 542) [0;2;1;5;3;4]) (2) 1);
  (*1185*) AddTo n_t3new'bbbbbb (Times (Transpose (T 534) [0;1;2;5;4;3]) (2) 1);
  (*1186*) AddTo n_t3new'bbbbbb (Times (Transpose (T 513) [0;1;2;3;5;4]) (2) 1);
  (*1187*) AddTo n_t3new'bbbbbb (Times (Transpose (T 513) [0;1;2;4;5;3]) (-2) 1);
  (*1188*) AddTo n_t3new'bbbbbb (Times (Transpose (T 534) [0;2;1;5;4;3]) (-2) 1);
  (*1189*) AddTo n_t3new'bbbbbb (Times (Transpose (T 513) [0;2;1;3;5;4]) (-2) 1);
  (*1190*) AddTo n_t3new'bbbbbb (Times (Transpose (T 513) [0;2;1;4;5;3]) (2) 1);
  (*1191*) AddTo n_t3new'bbbbbb (Times (Transpose (T 541) [1;2;0;5;4;3]) (-2) 1);
  (*1192*) AddTo n_t3new'bbbbbb (Times (Einsum [(n_t2'bbbb,[0;1;2;3]); (T 543,[4;5;1;6])] [0;5;4;6;2;3]) (-1) 1);
  (*1193*) Del (T 543);
  (*1194*) AddTo n_t3new'bbbbbb (Times (Transpose (T 547) [2;1;0;3;5;4]) (-1) 1);
  (*1195*) AddTo n_t3new'bbbbbb (Times (Transpose (T 541) [0;2;1;5;4;3]) (2) 1);
  (*1196*) AddTo n_t3new'bbbbbb (Times (Transpose (T 542) [0;1;2;3;5;4]) (2) 1);
  (*1197*) AddTo n_t3new'bbbbbb (Times (Transpose (T 541) [1;2;0;4;5;3]) (2) 1);
  (*1198*) AddTo n_t3new'bbbbbb (Times (Transpose (T 547) [2;1;0;5;3;4]) (2) 1);
  (*1199*) AddTo n_t3new'bbbbbb (Times (Transpose (T 541) [0;2;1;4;5;3]) (-2) 1);
  (*1200*) AddTo n_t3new'bbbbbb (Times (Transpose (T 542) [0;1;2;5;3;4]) (-2) 1);
  (*1201*) Del (T 542);
  (*1202*) AddTo n_t3new'bbbbbb (Times (Transpose (T 541) [2;1;0;5;4;3]) (2) 1);
  (*1203*) AddTo n_t3new'bbbbbb (Times (Transpose (T 547) [1;2;0;3;5;4]) (2) 1);
  (*1204*) AddTo n_t3new'bbbbbb (Times (Transpose (T 541) [2;0;1;5;4;3]) (-2) 1);
  (*1205*) AddTo n_t3new'bbbbbb (Times (Transpose (T 547) [1;0;2;3;5;4]) (-2) 1);
  (*1206*) AddTo n_t3new'bbbbbb (Times (Transpose (T 541) [2;1;0;4;5;3]) (-2) 1);
  (*1207*) AddTo n_t3new'bbbbbb (Times (Transpose (T 547) [1;2;0;5;3;4]) (-2) 1);
  (*1208*) AddTo n_t3new'bbbbbb (Times (Transpose (T 541) [2;0;1;4;5;3]) (2) 1);
  (*1209*) AddTo n_t3new'bbbbbb (Times (Transpose (T 547) [1;0;2;5;3;4]) (2) 1);
  (*1210*) Del (T 547);
  (*1211*) AddTo n_t3new'bbbbbb (Times (Transpose (T 534) [2;1;0;5;4;3]) (-2) 1);
  (*1212*) AddTo n_t3new'bbbbbb (Times (Transpose (T 513) [2;1;0;3;5;4]) (-2) 1);
  (*1213*) AddTo n_t3new'bbbbbb (Times (Transpose (T 513) [2;1;0;4;5;3]) (2) 1);
  (*1214*) Del (T 513);
  (*1215*) AddTo n_t3new'bbbbbb (Times (Transpose (T 549) [0;1;2;3;5;4]) (-2) 1);
  (*1216*) AddTo n_t3new'bbbbbb (Times (Transpose (T 549) [0;2;1;3;5;4]) (2) 1);
  (*1217*) AddTo n_t3new'bbbbbb (Times (Transpose (T 534) [0;1;2;4;5;3]) (-2) 1);
  (*1218*) AddTo n_t3new'bbbbbb (Times (Transpose (T 534) [0;2;1;4;5;3]) (2) 1);
  (*1219*) AddTo n_t3new'bbbbbb (Times (Transpose (T 549) [2;1;0;3;5;4]) (2) 1);
  (*1220*) AddTo n_t3new'bbbbbb (Times (Transpose (T 534) [2;1;0;4;5;3]) (2) 1);
  (*1221*) AddTo n_t3new'bbbbbb (Times (Transpose (T 541) [1;0;2;4;3;5]) (2) 1);
  (*1222*) AddTo n_t3new'bbbbbb (Times (Transpose (T 550) [1;0;2;4;3;5]) (-2) 1);
  (*1223*) AddTo n_t3new'bbbbbb (Times (Transpose (T 541) [0;1;2;4;3;5]) (-2) 1);
  (*1224*) AddTo n_t3new'bbbbbb (Times (Transpose (T 550) [0;1;2;4;3;5]) (2) 1);
  (*1225*) AddTo n_t3new'bbbbbb (Times (Copy (T 549)) (2) 1);
  (*1226*) AddTo n_t3new'bbbbbb (Times (Copy (T 534)) (-2) 1);
  (*1227*) AddTo n_t3new'bbbbbb (Times (Transpose (T 549) [0;2;1;3;4;5]) (-2) 1);
  (*1228*) AddTo n_t3new'bbbbbb (Times (Transpose (T 534) [0;2;1;3;4;5]) (2) 1);
  (*1229*) AddTo n_t3new'bbbbbb (Times (Transpose (T 549) [0;1;2;4;3;5]) (-2) 1);
  (*1230*) AddTo n_t3new'bbbbbb (Times (Transpose (T 534) [0;1;2;4;3;5]) (2) 1);
  (*1231*) AddTo n_t3new'bbbbbb (Times (Transpose (T 549) [0;2;1;4;3;5]) (2) 1);
  (*1232*) AddTo n_t3new'bbbbbb (Times (Transpose (T 534) [0;2;1;4;3;5]) (-2) 1);
  (*1233*) AddTo n_t3new'bbbbbb (Times (Transpose (T 541) [1;2;0;4;3;5]) (-2) 1);
  (*1234*) AddTo n_t3new'bbbbbb (Times (Transpose (T 550) [1;2;0;4;3;5]) (2) 1);
  (*1235*) AddTo n_t3new'bbbbbb (Times (Transpose (T 541) [0;2;1;4;3;5]) (2) 1);
  (*1236*) AddTo n_t3new'bbbbbb (Times (Transpose (T 550) [0;2;1;4;3;5]) (-2) 1);
  (*1237*) AddTo n_t3new'bbbbbb (Times (Transpose (T 541) [2;1;0;4;3;5]) (2) 1);
  (*1238*) AddTo n_t3new'bbbbbb (Times (Transpose (T 550) [2;1;0;4;3;5]) (-2) 1);
  (*1239*) AddTo n_t3new'bbbbbb (Times (Transpose (T 541) [2;0;1;4;3;5]) (-2) 1);
  (*1240*) Del (T 541);
  (*1241*) AddTo n_t3new'bbbbbb (Times (Transpose (T 550) [2;0;1;4;3;5]) (2) 1);
  (*1242*) Del (T 550);
  (*1243*) AddTo n_t3new'bbbbbb (Times (Transpose (T 549) [2;1;0;3;4;5]) (-2) 1);
  (*1244*) AddTo n_t3new'bbbbbb (Times (Transpose (T 534) [2;1;0;3;4;5]) (2) 1);
  (*1245*) AddTo n_t3new'bbbbbb (Times (Transpose (T 549) [2;1;0;4;3;5]) (2) 1);
  (*1246*) Del (T 549);
  (*1247*) AddTo n_t3new'bbbbbb (Times (Transpose (T 534) [2;1;0;4;3;5]) (-2) 1);
  (*1248*) Del (T 534);
  (*1249*) AddTo n_t3new'bbbbbb (Times (Transpose (T 524) [1;2;0;3;4;5]) (-2) 1);
  (*1250*) AddTo n_t3new'bbbbbb (Times (Transpose (T 524) [1;2;0;4;3;5]) (2) 1);
  (*1251*) AddTo n_t3new'bbbbbb (Times (Transpose (T 551) [1;2;0;4;5;3]) (-2) 1);
  (*1252*) AddTo n_t3new'bbbbbb (Times (Transpose (T 551) [1;2;0;5;4;3]) (2) 1);
  (*1253*) AddTo n_t3new'bbbbbb (Times (Transpose (T 553) [1;2;0;4;5;3]) (-2) 1);
  (*1254*) AddTo n_t3new'bbbbbb (Times (Transpose (T 524) [1;0;2;3;4;5]) (2) 1);
  (*1255*) AddTo n_t3new'bbbbbb (Times (Transpose (T 524) [1;0;2;4;3;5]) (-2) 1);
  (*1256*) AddTo n_t3new'bbbbbb (Times (Transpose (T 551) [1;0;2;4;5;3]) (2) 1);
  (*1257*) AddTo n_t3new'bbbbbb (Times (Transpose (T 551) [1;0;2;5;4;3]) (-2) 1);
  (*1258*) AddTo n_t3new'bbbbbb (Times (Transpose (T 553) [1;0;2;4;5;3]) (2) 1);
  (*1259*) AddTo n_t3new'bbbbbb (Times (Transpose (T 524) [1;2;0;3;5;4]) (2) 1);
  (*1260*) AddTo n_t3new'bbbbbb (Times (Transpose (T 524) [1;2;0;4;5;3]) (-2) 1);
  (*1261*) AddTo n_t3new'bbbbbb (Times (Transpose (T 551) [1;2;0;4;3;5]) (2) 1);
  (*1262*) AddTo n_t3new'bbbbbb (Times (Transpose (T 551) [1;2;0;5;3;4]) (-2) 1);
  (*1263*) AddTo n_t3new'bbbbbb (Times (Transpose (T 553) [1;2;0;4;3;5]) (2) 1);
  (*1264*) AddTo n_t3new'bbbbbb (Times (Transpose (T 524) [1;0;2;3;5;4]) (-2) 1);
  (*1265*) AddTo n_t3new'bbbbbb (Times (Transpose (T 524) [1;0;2;4;5;3]) (2) 1);
  (*1266*) AddTo n_t3new'bbbbbb (Times (Transpose (T 551) [1;0;2;4;3;5]) (-2) 1);
  (*1267*) AddTo n_t3new'bbbbbb (Times (Transpose (T 551) [1;0;2;5;3;4]) (2) 1);
  (*1268*) AddTo n_t3new'bbbbbb (Times (Transpose (T 553) [1;0;2;4;3;5]) (-2) 1);
  (*1269*) AddTo n_t3new'bbbbbb (Times (Transpose (T 524) [0;2;1;3;4;5]) (2) 1);
  (*1270*) AddTo n_t3new'bbbbbb (Times (Transpose (T 524) [0;2;1;4;3;5]) (-2) 1);
  (*1271*) AddTo n_t3new'bbbbbb (Times (Transpose (T 551) [0;2;1;4;5;3]) (2) 1);
  (*1272*) AddTo n_t3new'bbbbbb (Times (Transpose (T 551) [0;2;1;5;4;3]) (-2) 1);
  (*1273*) AddTo n_t3new'bbbbbb (Times (Transpose (T 553) [0;2;1;4;5;3]) (2) 1);
  (*1274*) AddTo n_t3new'bbbbbb (Times (Transpose (T 524) [0;2;1;3;5;4]) (-2) 1);
  (*1275*) AddTo n_t3new'bbbbbb (Times (Transpose (T 524) [0;2;1;4;5;3]) (2) 1);
  (*1276*) Del (T 524);
  (*1277*) AddTo n_t3new'bbbbbb (Times (Transpose (T 551) [0;2;1;4;3;5]) (-2) 1);
  (*1278*) AddTo n_t3new'bbbbbb (Times (Transpose (T 551) [0;2;1;5;3;4]) (2) 1);
  (*1279*) AddTo n_t3new'bbbbbb (Times (Transpose (T 553) [0;2;1;4;3;5]) (-2) 1);
  (*1280*) AddTo n_t3new'bbbbbb (Times (Transpose (T 551) [1;2;0;3;4;5]) (-2) 1);
  (*1281*) AddTo n_t3new'bbbbbb (Times (Transpose (T 551) [1;2;0;3;5;4]) (2) 1);
  (*1282*) AddTo n_t3new'bbbbbb (Times (Transpose (T 553) [1;2;0;3;4;5]) (-2) 1);
  (*1283*) AddTo n_t3new'bbbbbb (Times (Transpose (T 551) [1;0;2;3;4;5]) (2) 1);
  (*1284*) AddTo n_t3new'bbbbbb (Times (Transpose (T 551) [1;0;2;3;5;4]) (-2) 1);
  (*1285*) AddTo n_t3new'bbbbbb (Times (Transpose (T 553) [1;0;2;3;4;5]) (2) 1);
  (*1286*) AddTo n_t3new'bbbbbb (Times (Transpose (T 551) [0;2;1;3;4;5]) (2) 1);
  (*1287*) AddTo n_t3new'bbbbbb (Times (Transpose (T 551) [0;2;1;3;5;4]) (-2) 1);
  (*1288*) Del (T 551);
  (*1289*) AddTo n_t3new'bbbbbb (Times (Transpose (T 553) [0;2;1;3;4;5]) (2) 1);
  (*1290*) AddTo n_t3new'bbbbbb (Times (Transpose (T 528) [2;0;1;5;4;3]) (-2) 1);
  (*1291*) AddTo n_t3new'bbbbbb (Times (Transpose (T 528) [0;2;1;5;4;3]) (2) 1);
  (*1292*) Del (T 528);
  (*1293*) AddTo n_t3new'bbbbbb (Plain (Einsum [(n_t2'bbbb,[0;1;2;3]); (T 555,[4;5;1;6])] [0;5;4;2;3;6]));
  (*1294*) Del (T 555);
  (*1295*) AddTo n_t3new'bbbbbb (Plain (Transpose (T 527) [2;1;0;5;4;3]));
  (*1296*) Del (T 527);
  (*1297*) AddTo n_t3new'bbbbbb (Times (Transpose (T 556) [2;0;1;3;5;4]) (2) 1);
  (*1298*) AddTo n_t3new'bbbbbb (Times (Transpose (T 556) [2;1;0;3;5;4]) (-2) 1);
  (*1299*) AddTo n_t3new'bbbbbb (Times (Transpose (T 557) [2;0;1;5;4;3]) (2) 1);
  (*1300*) AddTo n_t3new'bbbbbb (Times (Transpose (T 557) [2;1;0;5;4;3]) (-2) 1);
  (*1301*) AddTo n_t3new'bbbbbb (Times (Transpose (T 556) [0;2;1;3;5;4]) (-2) 1);
  (*1302*) AddTo n_t3new'bbbbbb (Times (Transpose (T 556) [1;2;0;3;5;4]) (2) 1);
  (*1303*) AddTo n_t3new'bbbbbb (Times (Transpose (T 557) [0;2;1;5;4;3]) (-2) 1);
  (*1304*) AddTo n_t3new'bbbbbb (Times (Transpose (T 557) [1;2;0;5;4;3]) (2) 1);
  (*1305*) AddTo n_t3new'bbbbbb (Times (Transpose (T 556) [2;0;1;5;3;4]) (-2) 1);
  (*1306*) AddTo n_t3new'bbbbbb (Times (Transpose (T 556) [2;1;0;5;3;4]) (2) 1);
  (*1307*) AddTo n_t3new'bbbbbb (Times (Transpose (T 557) [2;0;1;4;5;3]) (-2) 1);
  (*1308*) AddTo n_t3new'bbbbbb (Times (Transpose (T 557) [2;1;0;4;5;3]) (2) 1);
  (*1309*) AddTo n_t3new'bbbbbb (Times (Transpose (T 556) [0;2;1;5;3;4]) (2) 1);
  (*1310*) AddTo n_t3new'bbbbbb (Times (Transpose (T 556) [1;2;0;5;3;4]) (-2) 1);
  (*1311*) AddTo n_t3new'bbbbbb (Times (Transpose (T 557) [0;2;1;4;5;3]) (2) 1);
  (*1312*) AddTo n_t3new'bbbbbb (Times (Transpose (T 557) [1;2;0;4;5;3]) (-2) 1);
  (*1313*) AddTo n_t3new'bbbbbb (Times (Transpose (T 556) [0;1;2;3;5;4]) (2) 1);
  (*1314*) AddTo n_t3new'bbbbbb (Times (Transpose (T 556) [1;0;2;3;5;4]) (-2) 1);
  (*1315*) AddTo n_t3new'bbbbbb (Times (Transpose (T 557) [0;1;2;5;4;3]) (2) 1);
  (*1316*) AddTo n_t3new'bbbbbb (Times (Transpose (T 557) [1;0;2;5;4;3]) (-2) 1);
  (*1317*) AddTo n_t3new'bbbbbb (Times (Transpose (T 556) [0;1;2;5;3;4]) (-2) 1);
  (*1318*) AddTo n_t3new'bbbbbb (Times (Transpose (T 556) [1;0;2;5;3;4]) (2) 1);
  (*1319*) AddTo n_t3new'bbbbbb (Times (Transpose (T 557) [0;1;2;4;5;3]) (-2) 1);
  (*1320*) AddTo n_t3new'bbbbbb (Times (Transpose (T 557) [1;0;2;4;5;3]) (2) 1);
  (*1321*) AddTo n_t3new'bbbbbb (Plain (Transpose (T 561) [1;2;0;5;4;3]));
  (*1322*) AddTo n_t3new'bbbbbb (Times (Transpose (T 553) [1;0;2;5;4;3]) (-2) 1);
  (*1323*) AddTo n_t3new'bbbbbb (Times (Transpose (T 561) [0;2;1;5;4;3]) (-1) 1);
  (*1324*) Del (T 561);
  (*1325*) AddTo n_t3new'bbbbbb (Times (Transpose (T 557) [2;0;1;4;3;5]) (2) 1);
  (*1326*) AddTo n_t3new'bbbbbb (Times (Transpose (T 557) [2;1;0;4;3;5]) (-2) 1);
  (*1327*) AddTo n_t3new'bbbbbb (Times (Transpose (T 557) [0;2;1;4;3;5]) (-2) 1);
  (*1328*) AddTo n_t3new'bbbbbb (Times (Transpose (T 557) [1;2;0;4;3;5]) (2) 1);
  (*1329*) AddTo n_t3new'bbbbbb (Times (Transpose (T 553) [1;2;0;5;3;4]) (-2) 1);
  (*1330*) AddTo n_t3new'bbbbbb (Times (Transpose (T 553) [1;0;2;5;3;4]) (2) 1);
  (*1331*) AddTo n_t3new'bbbbbb (Times (Transpose (T 553) [1;2;0;3;5;4]) (2) 1);
  (*1332*) AddTo n_t3new'bbbbbb (Times (Transpose (T 553) [1;0;2;3;5;4]) (-2) 1);
  (*1333*) AddTo n_t3new'bbbbbb (Times (Transpose (T 557) [0;1;2;4;3;5]) (2) 1);
  (*1334*) AddTo n_t3new'bbbbbb (Times (Transpose (T 557) [1;0;2;4;3;5]) (-2) 1);
  (*1335*) Del (T 557);
  (*1336*) AddTo n_t3new'bbbbbb (Times (Transpose (T 553) [0;2;1;5;3;4]) (2) 1);
  (*1337*) AddTo n_t3new'bbbbbb (Times (Transpose (T 553) [0;2;1;3;5;4]) (-2) 1);
  (*1338*) Del (T 553);
  (*1339*) AddTo n_t3new'bbbbbb (Times (Transpose (T 556) [2;0;1;5;4;3]) (2) 1);
  (*1340*) AddTo n_t3new'bbbbbb (Times (Transpose (T 556) [2;1;0;5;4;3]) (-2) 1);
  (*1341*) AddTo n_t3new'bbbbbb (Times (Transpose (T 556) [0;2;1;5;4;3]) (-2) 1);
  (*1342*) AddTo n_t3new'bbbbbb (Times (Transpose (T 556) [1;2;0;5;4;3]) (2) 1);
  (*1343*) AddTo n_t3new'bbbbbb (Times (Transpose (T 556) [0;1;2;5;4;3]) (2) 1);
  (*1344*) AddTo n_t3new'bbbbbb (Times (Transpose (T 556) [1;0;2;5;4;3]) (-2) 1);
  (*1345*) Del (T 556);
  (*1346*) Assign n_t3new'babbab (Times (Transpose (T 412) [2;0;1;5;3;4]) (2) 1);
  (*1347*) AddTo n_t3new'babbab (Times (Einsum [(T 415,[0;1;2;3;4;5]); (n_t1'bb,[2;6])] [1;0;3;5;4;6]) (-1) 1);
  (*1348*) Del (T 415);
  (*1349*) AddTo n_t3new'babbab (Times (Transpose (T 416) [1;0;2;5;3;4]) (2) 1);
  (*1350*) Del (T 416);
  (*1351*) AddTo n_t3new'babbab (Plain (Einsum [(T 418,[0;1;2;3;4;5]); (n_t1'bb,[3;6])] [2;0;1;5;4;6]));
  (*1352*) Del (T 418);
  (*1353*) AddTo n_t3new'babbab (Times (Transpose (T 412) [1;0;2;5;3;4]) (-2) 1);
  (*1354*) Del (T 412);
  (*1355*) AddTo n_t3new'babbab (Times (Einsum [(T 419,[0;1;2;3;4;5]); (n_t1'bb,[1;6])] [2;0;3;5;4;6]) (-1) 1);
  (*1356*) Del (T 419);
  (*1357*) AddTo n_t3new'babbab (Times (Einsum [(n_t3'babbab,[0;1;2;3;4;5]); (T 420,[5;6])] [0;1;2;6;4;3]) (-1) 1);
  (*1358*) Del (T 420);
  (*1359*) AddTo n_t3new'babbab (Times (Einsum [(T 318,[0;1]); (n_t3'babbab,[2;3;4;5;6;0])] [2;3;4;1;6;5]) (-1) 1);
  (*1360*) Del (T 318);
  (*1361*) AddTo n_t3new'babbab (Times (Transpose (T 421) [2;0;1;5;3;4]) (2) 1);
  (*1362*) Del (T 421);
  (*1363*) AddTo n_t3new'babbab (Times (Einsum [(n_t3'babbab,[0;1;2;3;4;5]); (n_f'bb'vv,[6;5])] [0;1;2;3;4;6]) (2) 1);
  (*1364*) AddTo n_t3new'babbab (Times (Transpose (T 422) [2;0;1;5;3;4]) (2) 1);
  (*1365*) AddTo n_t3new'babbab (Plain (Einsum [(T 426,[0;1;2;3;4;5]); (n_t1'bb,[3;6])] [2;0;1;5;4;6]));
  (*1366*) Del (T 426);
  (*1367*) AddTo n_t3new'babbab (Times (Transpose (T 427) [1;0;2;5;3;4]) (2) 1);
  (*1368*) Del (T 427);
  (*1369*) AddTo n_t3new'babbab (Plain (Einsum [(n_t1'bb,[0;1]); (T 429,[2;3;4;0;5;6])] [4;2;3;6;5;1]));
  (*1370*) Del (T 429);
  (*1371*) AddTo n_t3new'babbab (Times (Transpose (T 422) [1;0;2;5;3;4]) (-2) 1);
  (*1372*) Del (T 422);
  (*1373*) AddTo n_t3new'babbab (Times (Einsum [(n_t1'bb,[0;1]); (T 430,[2;3;4;0;5;6])] [3;2;4;6;5;1]) (-1) 1);
  (*1374*) Del (T 430);
  (*1375*) AddTo n_t3new'babbab (Times (Einsum [(T 431,[0;1;2;3]); (n_t2'abab,[0;4;5;6])] [4;1;2;3;5;6]) (-1) 1);
  (*1376*) Del (T 431);
  (*1377*) AddTo n_t3new'babbab (Plain (Einsum [(n_t2'abab,[0;1;2;3]); (T 433,[1;4;5;6])] [4;0;5;6;2;3]));
  (*1378*) Del (T 433);
  (*1379*) AddTo n_t3new'babbab (Times (Transpose (T 434) [1;0;2;5;3;4]) (2) 1);
  (*1380*) Del (T 434);
  (*1381*) AddTo n_t3new'babbab (Times (Transpose (T 435) [1;0;2;4;3;5]) (-1) 1);
  (*1382*) AddTo n_t3new'babbab (Times (Transpose (T 437) [1;0;2;5;3;4]) (-2) 1);
  (*1383*) Del (T 437);
  (*1384*) AddTo n_t3new'babbab (Times (Transpose (T 435) [2;0;1;5;3;4]) (-1) 1);
  (*1385*) AddTo n_t3new'babbab (Plain (Transpose (T 439) [2;0;1;4;3;5]));
  (*1386*) AddTo n_t3new'babbab (Times (Einsum [(n_t2'abab,[0;1;2;3]); (T 432,[1;4;5;6])] [5;0;4;3;2;6]) (-2) 1);
  (*1387*) Del (T 432);
  (*1388*) AddTo n_t3new'babbab (Times (Einsum [(n_t1'aa,[0;1]); (T 440,[0;2;3;4;5;6])] [3;2;4;6;1;5]) (2) 1);
  (*1389*) Del (T 440);
  (*1390*) AddTo n_t3new'babbab (Plain (Transpose (T 435) [1;0;2;5;3;4]));
  (*1391*) Del (T 435);
  (*1392*) AddTo n_t3new'babbab (Times (Transpose (T 439) [1;0;2;4;3;5]) (-1) 1);
  (*1393*) Del (T 439);
  (*1394*) AddTo n_t3new'babbab (Plain (Transpose (T 441) [1;0;2;5;3;4]));
  (*1395*) AddTo n_t3new'babbab (Plain (Transpose (T 442) [1;0;2;5;3;4]));
  (*1396*) AddTo n_t3new'babbab (Times (Transpose (T 442) [2;0;1;5;3;4]) (-1) 1);
  (*1397*) AddTo n_t3new'babbab (Times (Transpose (T 443) [1;0;2;5;3;4]) (2) 1);
  (*1398*) AddTo n_t3new'babbab (Times (Transpose (T 441) [2;0;1;5;3;4]) (-1) 1);
  (*1399*) AddTo n_t3new'babbab (Times (Transpose (T 443) [2;0;1;5;3;4]) (-2) 1);
  (*1400*) Del (T 443);
  (*1401*) AddTo n_t3new'babbab (Times (Transpose (T 441) [1;0;2;4;3;5]) (-1) 1);
  (*1402*) AddTo n_t3new'babbab (Times (Transpose (T 442) [1;0;2;4;3;5]) (-1) 1);
  (*1403*) AddTo n_t3new'babbab (Plain (Transpose (T 442) [2;0;1;4;3;5]));
  (*1404*) Del (T 442);
  (*1405*) AddTo n_t3new'babbab (Plain (Transpose (T 441) [2;0;1;4;3;5]));
  (*1406*) Del (T 441);
  (*1407*) AddTo n_t3new'babbab (Times (Transpose (T 444) [1;0;2;5;3;4]) (-1) 1);
  (*1408*) AddTo n_t3new'babbab (Times (Einsum [(n_v'aabb'ovvv,[0;1;2;3]); (n_t2'bbbb,[4;5;6;3])] [4;0;5;2;1;6]) (-2) 1);
  (*1409*) AddTo n_t3new'babbab (Plain (Transpose (T 445) [1;0;2;5;3;4]));
  (*1410*) AddTo n_t3new'babbab (Plain (Einsum [(T 446,[0;1;2;3]); (n_t2'abab,[4;5;6;3])] [5;4;0;2;6;1]));
  (*1411*) Del (T 446);
  (*1412*) AddTo n_t3new'babbab (Plain (Transpose (T 444) [2;0;1;5;3;4]));
  (*1413*) Del (T 444);
  (*1414*) AddTo n_t3new'babbab (Times (Transpose (T 445) [2;0;1;5;3;4]) (-1) 1);
  (*1415*) Del (T 445);
  (*1416*) AddTo n_t3new'babbab (Plain (Einsum [(T 447,[0;1;2;3]); (n_t2'abab,[4;5;6;2])] [0;4;5;1;6;3]));
  (*1417*) Del (T 447);
  (*1418*) AddTo n_t3new'babbab (Plain (Transpose (T 448) [1;0;2;4;3;5]));
  (*1419*) AddTo n_t3new'babbab (Times (Einsum [(T 449,[0;1;2;3]); (n_t2'bbbb,[4;5;6;2])] [4;0;5;6;1;3]) (2) 1);
  (*1420*) Del (T 449);
  (*1421*) AddTo n_t3new'babbab (Times (Transpose (T 448) [2;0;1;4;3;5]) (-1) 1);
  (*1422*) Del (T 448);
  (*1423*) AddTo n_t3new'babbab (Plain (Transpose (T 450) [1;0;2;4;3;5]));
  (*1424*) AddTo n_t3new'babbab (Times (Transpose (T 451) [1;0;2;5;3;4]) (-2) 1);
  (*1425*) Del (T 451);
  (*1426*) AddTo n_t3new'babbab (Plain (Transpose (T 452) [1;0;2;5;3;4]));
  (*1427*) AddTo n_t3new'babbab (Plain (Transpose (T 450) [2;0;1;5;3;4]));
  (*1428*) Del (T 450);
  (*1429*) AddTo n_t3new'babbab (Plain (Transpose (T 452) [2;0;1;4;3;5]));
  (*1430*) Del (T 452);
  (*1431*) AddTo n_t3new'babbab (Plain (Transpose (T 453) [1;0;2;5;3;4]));
  (*1432*) AddTo n_t3new'babbab (Plain (Transpose (T 454) [1;0;2;5;3;4]));
  (*1433*) AddTo n_t3new'babbab (Times (Transpose (T 458) [1;0;2;4;3;5]) (-1) 1);
  (*1434*) AddTo n_t3new'babbab (Times (Transpose (T 459) [2;0;1;5;3;4]) (-2) 1);
  (*1435*) AddTo n_t3new'babbab (Times (Transpose (T 461) [1;0;2;5;3;4]) (-1) 1);
  (*1436*) AddTo n_t3new'babbab (Times (Transpose (T 464) [1;0;2;4;3;5]) (-1) 1);
  (*1437*) AddTo n_t3new'babbab (Plain (Transpose (T 464) [1;0;2;5;3;4]));
  (*1438*) AddTo n_t3new'babbab (Times (Einsum [(T 465,[0;1;2;3]); (n_t2'abab,[1;4;5;6])] [4;0;2;3;5;6]) (-1) 1);
  (*1439*) Del (T 465);
  (*1440*) AddTo n_t3new'babbab (Times (Einsum [(T 356,[0;1;2;3]); (n_t2'abab,[0;4;5;6])] [2;1;4;3;5;6]) (-1) 1);
  (*1441*) Del (T 356);
  (*1442*) AddTo n_t3new'babbab (Times (Transpose (T 466) [2;0;1;5;3;4]) (2) 1);
  (*1443*) AddTo n_t3new'babbab (Times (Transpose (T 466) [1;0;2;5;3;4]) (-2) 1);
  (*1444*) Del (T 466);
  (*1445*) AddTo n_t3new'babbab (Times (Transpose (T 454) [2;0;1;5;3;4]) (-1) 1);
  (*1446*) AddTo n_t3new'babbab (Plain (Transpose (T 458) [2;0;1;4;3;5]));
  (*1447*) Del (T 458);
  (*1448*) AddTo n_t3new'babbab (Times (Transpose (T 453) [2;0;1;5;3;4]) (-1) 1);
  (*1449*) AddTo n_t3new'babbab (Times (Transpose (T 459) [1;0;2;5;3;4]) (2) 1);
  (*1450*) Del (T 459);
  (*1451*) AddTo n_t3new'babbab (Plain (Transpose (T 461) [2;0;1;5;3;4]));
  (*1452*) AddTo n_t3new'babbab (Plain (Transpose (T 464) [2;0;1;4;3;5]));
  (*1453*) AddTo n_t3new'babbab (Times (Transpose (T 464) [2;0;1;5;3;4]) (-1) 1);
  (*1454*) Del (T 464);
  (*1455*) AddTo n_t3new'babbab (Plain (Transpose (T 468) [1;0;2;4;3;5]));
  (*1456*) AddTo n_t3new'babbab (Times (Einsum [(T 469,[0;1;2;3;4;5]); (n_t1'bb,[3;6])] [1;0;2;6;4;5]) (2) 1);
  (*1457*) Del (T 469);
  (*1458*) AddTo n_t3new'babbab (Times (Transpose (T 468) [1;0;2;5;3;4]) (-1) 1);
  (*1459*) AddTo n_t3new'babbab (Times (Transpose (T 468) [2;0;1;4;3;5]) (-1) 1);
  (*1460*) AddTo n_t3new'babbab (Plain (Transpose (T 468) [2;0;1;5;3;4]));
  (*1461*) Del (T 468);
  (*1462*) AddTo n_t3new'babbab (Times (Transpose (T 453) [1;0;2;4;3;5]) (-1) 1);
  (*1463*) AddTo n_t3new'babbab (Times (Transpose (T 454) [1;0;2;4;3;5]) (-1) 1);
  (*1464*) AddTo n_t3new'babbab (Plain (Transpose (T 470) [1;0;2;4;3;5]));
  (*1465*) AddTo n_t3new'babbab (Times (Transpose (T 472) [1;0;2;4;3;5]) (-1) 1);
  (*1466*) AddTo n_t3new'babbab (Plain (Transpose (T 461) [1;0;2;4;3;5]));
  (*1467*) AddTo n_t3new'babbab (Times (Transpose (T 474) [1;0;2;4;3;5]) (-1) 1);
  (*1468*) AddTo n_t3new'babbab (Times (Einsum [(n_t1'aa,[0;1]); (T 475,[0;2;3;4;5;6])] [3;2;4;5;1;6]) (-2) 1);
  (*1469*) Del (T 475);
  (*1470*) AddTo n_t3new'babbab (Times (Transpose (T 476) [2;0;1;4;3;5]) (-1) 1);
  (*1471*) AddTo n_t3new'babbab (Plain (Transpose (T 476) [1;0;2;4;3;5]));
  (*1472*) Del (T 476);
  (*1473*) AddTo n_t3new'babbab (Plain (Transpose (T 454) [2;0;1;4;3;5]));
  (*1474*) Del (T 454);
  (*1475*) AddTo n_t3new'babbab (Times (Transpose (T 470) [2;0;1;4;3;5]) (-1) 1);
  (*1476*) Del (T 470);
  (*1477*) AddTo n_t3new'babbab (Plain (Transpose (T 453) [2;0;1;4;3;5]));
  (*1478*) Del (T 453);
  (*1479*) AddTo n_t3new'babbab (Plain (Transpose (T 472) [2;0;1;4;3;5]));
  (*1480*) Del (T 472);
  (*1481*) AddTo n_t3new'babbab (Times (Transpose (T 461) [2;0;1;4;3;5]) (-1) 1);
  (*1482*) Del (T 461);
  (*1483*) AddTo n_t3new'babbab (Plain (Transpose (T 474) [2;0;1;4;3;5]));
  (*1484*) Del (T 474);
  (*1485*) AddTo n_t3new'babbab (Times (Einsum [(n_t2'abab,[0;1;2;3]); (T 478,[4;5;2;6])] [1;0;4;6;5;3]) (-1) 1);
  (*1486*) Del (T 478);
  (*1487*) AddTo n_t3new'babbab (Times (Einsum [(n_t2'bbbb,[0;1;2;3]); (T 480,[4;5;3;6])] [0;4;1;6;5;2]) (-2) 1);
  (*1488*) Del (T 480);
  (*1489*) AddTo n_t3new'babbab (Times (Transpose (T 483) [2;0;1;5;3;4]) (-1) 1);
  (*1490*) AddTo n_t3new'babbab (Plain (Transpose (T 483) [2;0;1;4;3;5]));
  (*1491*) AddTo n_t3new'babbab (Times (Transpose (T 485) [2;0;1;4;3;5]) (-1) 1);
  (*1492*) AddTo n_t3new'babbab (Plain (Einsum [(n_t2'abab,[0;1;2;3]); (T 486,[4;2;5;6])] [4;0;1;6;5;3]));
  (*1493*) Del (T 486);
  (*1494*) AddTo n_t3new'babbab (Plain (Transpose (T 483) [1;0;2;5;3;4]));
  (*1495*) AddTo n_t3new'babbab (Times (Transpose (T 483) [1;0;2;4;3;5]) (-1) 1);
  (*1496*) Del (T 483);
  (*1497*) AddTo n_t3new'babbab (Plain (Transpose (T 485) [1;0;2;4;3;5]));
  (*1498*) AddTo n_t3new'babbab (Times (Einsum [(T 488,[0;1;2;3]); (n_t2'abab,[4;5;1;6])] [5;4;0;6;2;3]) (-1) 1);
  (*1499*) Del (T 488);
  (*1500*) AddTo n_t3new'babbab (Times (Einsum [(n_t2'bbbb,[0;1;2;3]); (T 489,[4;5;3;6])] [0;4;1;2;5;6]) (2) 1);
  (*1501*) Del (T 489);
  (*1502*) AddTo n_t3new'babbab (Times (Einsum [(T 490,[0;1;2;3]); (n_t2'abab,[4;5;1;6])] [0;4;5;6;2;3]) (-1) 1);
  (*1503*) Del (T 490);
  (*1504*) AddTo n_t3new'babbab (Times (Transpose (T 491) [1;0;2;4;3;5]) (-1) 1);
  (*1505*) AddTo n_t3new'babbab (Plain (Transpose (T 491) [1;0;2;5;3;4]));
  (*1506*) AddTo n_t3new'babbab (Times (Einsum [(n_t2'abab,[0;1;2;3]); (T 493,[4;5;1;6])] [4;0;5;3;2;6]) (-1) 1);
  (*1507*) Del (T 493);
  (*1508*) AddTo n_t3new'babbab (Times (Transpose (T 494) [2;0;1;5;3;4]) (-2) 1);
  (*1509*) AddTo n_t3new'babbab (Times (Transpose (T 494) [1;0;2;5;3;4]) (2) 1);
  (*1510*) Del (T 494);
  (*1511*) AddTo n_t3new'babbab (Plain (Einsum [(T 355,[0;1;2;3]); (n_t2'abab,[0;4;5;6])] [4;1;2;6;5;3]));
  (*1512*) Del (T 355);
  (*1513*) AddTo n_t3new'babbab (Plain (Transpose (T 491) [2;0;1;4;3;5]));
  (*1514*) Del (T 491);
  (*1515*) AddTo n_t3new'babbab (Times (Einsum [(T 495,[0;1;2;3]); (n_t2'abab,[1;4;5;6])] [4;0;2;3;5;6]) (-1) 1);
  (*1516*) Del (T 495);
  (*1517*) AddTo n_t3new'babbab (Plain (Transpose (T 496) [1;0;2;4;3;5]));
  (*1518*) AddTo n_t3new'babbab (Times (Transpose (T 496) [2;0;1;4;3;5]) (-1) 1);
  (*1519*) AddTo n_t3new'babbab (Plain (Transpose (T 497) [1;0;2;5;3;4]));
  (*1520*) AddTo n_t3new'babbab (Times (Transpose (T 497) [2;0;1;5;3;4]) (-1) 1);
  (*1521*) AddTo n_t3new'babbab (Times (Transpose (T 499) [2;0;1;5;3;4]) (-2) 1);
  (*1522*) AddTo n_t3new'babbab (Times (Einsum [(T 500,[0;1;2;3]); (n_t2'abab,[1;4;5;6])] [2;0;4;3;5;6]) (-1) 1);
  (*1523*) Del (T 500);
  (*1524*) AddTo n_t3new'babbab (Times (Transpose (T 499) [1;0;2;5;3;4]) (2) 1);
  (*1525*) Del (T 499);
  (*1526*) AddTo n_t3new'babbab (Plain (Transpose (T 502) [2;0;1;4;3;5]));
  (*1527*) AddTo n_t3new'babbab (Times (Einsum [(T 503,[0;1;2;3;4;5]); (n_t1'bb,[3;6])] [1;0;2;6;4;5]) (2) 1);
  (*1528*) Del (T 503);
  (*1529*) AddTo n_t3new'babbab (Times (Transpose (T 502) [1;0;2;4;3;5]) (-1) 1);
  (*1530*) Del (T 502);
  (*1531*) AddTo n_t3new'babbab (Times (Transpose (T 504) [2;0;1;4;3;5]) (-1) 1);
  (*1532*) AddTo n_t3new'babbab (Times (Transpose (T 497) [1;0;2;4;3;5]) (-1) 1);
  (*1533*) AddTo n_t3new'babbab (Plain (Transpose (T 497) [2;0;1;4;3;5]));
  (*1534*) Del (T 497);
  (*1535*) AddTo n_t3new'babbab (Plain (Transpose (T 485) [2;0;1;5;3;4]));
  (*1536*) AddTo n_t3new'babbab (Times (Transpose (T 506) [2;0;1;4;3;5]) (-1) 1);
  (*1537*) AddTo n_t3new'babbab (Times (Einsum [(T 507,[0;1;2;3;4;5]); (n_t1'aa,[1;6])] [2;0;3;4;6;5]) (-2) 1);
  (*1538*) Del (T 507);
  (*1539*) AddTo n_t3new'babbab (Plain (Transpose (T 504) [1;0;2;4;3;5]));
  (*1540*) Del (T 504);
  (*1541*) AddTo n_t3new'babbab (Times (Transpose (T 485) [1;0;2;5;3;4]) (-1) 1);
  (*1542*) Del (T 485);
  (*1543*) AddTo n_t3new'babbab (Plain (Transpose (T 506) [1;0;2;4;3;5]));
  (*1544*) Del (T 506);
  (*1545*) AddTo n_t3new'babbab (Plain (Transpose (T 508) [2;0;1;5;3;4]));
  (*1546*) AddTo n_t3new'babbab (Times (Transpose (T 496) [1;0;2;5;3;4]) (-1) 1);
  (*1547*) AddTo n_t3new'babbab (Plain (Transpose (T 496) [2;0;1;5;3;4]));
  (*1548*) Del (T 496);
  (*1549*) AddTo n_t3new'babbab (Times (Transpose (T 508) [1;0;2;5;3;4]) (-1) 1);
  (*1550*) Del (T 508);
  (*1551*) Assign n_t3new'abaaba (Times (Transpose (T 309) [1;2;0;4;5;3]) (2) 1);
  (*1552*) AddTo n_t3new'abaaba (Times (Einsum [(n_t1'aa,[0;1]); (T 312,[2;0;3;4;5;6])] [2;4;3;5;6;1]) (-1) 1);
  (*1553*) Del (T 312);
  (*1554*) AddTo n_t3new'abaaba (Times (Transpose (T 313) [0;2;1;4;5;3]) (2) 1);
  (*1555*) Del (T 313);
  (*1556*) AddTo n_t3new'abaaba (Plain (Einsum [(T 315,[0;1;2;3;4;5]); (n_t1'aa,[2;6])] [1;3;0;4;5;6]));
  (*1557*) Del (T 315);
  (*1558*) AddTo n_t3new'abaaba (Times (Transpose (T 309) [0;2;1;4;5;3]) (-2) 1);
  (*1559*) Del (T 309);
  (*1560*) AddTo n_t3new'abaaba (Times (Einsum [(n_t1'aa,[0;1]); (T 316,[0;2;3;4;5;6])] [2;4;3;5;6;1]) (-1) 1);
  (*1561*) Del (T 316);
  (*1562*) AddTo n_t3new'abaaba (Times (Einsum [(T 255,[0;1]); (n_t3'abaaba,[2;3;4;5;6;0])] [2;3;4;1;6;5]) (-1) 1);
  (*1563*) Del (T 255);
  (*1564*) AddTo n_t3new'abaaba (Times (Einsum [(T 257,[0;1]); (n_t3'abaaba,[2;3;4;5;6;0])] [2;3;4;1;6;5]) (-1) 1);
  (*1565*) Del (T 257);
  (*1566*) AddTo n_t3new'abaaba (Times (Transpose (T 319) [1;2;0;4;5;3]) (2) 1);
  (*1567*) Del (T 319);
  (*1568*) AddTo n_t3new'abaaba (Times (Einsum [(n_f'aa'vv,[0;1]); (n_t3'abaaba,[2;3;4;5;6;1])] [2;3;4;5;6;0]) (2) 1);
  (*1569*) AddTo n_t3new'abaaba (Times (Transpose (T 320) [1;2;0;4;5;3]) (2) 1);
  (*1570*) AddTo n_t3new'abaaba (Plain (Einsum [(T 323,[0;1;2;3;4;5]); (n_t1'aa,[2;6])] [1;3;0;4;5;6]));
  (*1571*) Del (T 323);
  (*1572*) AddTo n_t3new'abaaba (Times (Transpose (T 325) [0;2;1;4;5;3]) (2) 1);
  (*1573*) Del (T 325);
  (*1574*) AddTo n_t3new'abaaba (Plain (Einsum [(T 327,[0;1;2;3;4;5]); (n_t1'aa,[2;6])] [1;3;0;4;5;6]));
  (*1575*) Del (T 327);
  (*1576*) AddTo n_t3new'abaaba (Times (Transpose (T 320) [0;2;1;4;5;3]) (-2) 1);
  (*1577*) Del (T 320);
  (*1578*) AddTo n_t3new'abaaba (Times (Einsum [(n_t1'aa,[0;1]); (T 328,[2;3;0;4;5;6])] [2;4;3;5;6;1]) (-1) 1);
  (*1579*) Del (T 328);
  (*1580*) AddTo n_t3new'abaaba (Times (Einsum [(T 331,[0;1;2;3]); (n_t2'abab,[4;1;5;6])] [4;2;0;3;6;5]) (-1) 1);
  (*1581*) Del (T 331);
  (*1582*) AddTo n_t3new'abaaba (Plain (Einsum [(T 274,[0;1;2;3]); (n_t2'abab,[0;4;5;6])] [1;4;2;3;6;5]));
  (*1583*) Del (T 274);
  (*1584*) AddTo n_t3new'abaaba (Times (Transpose (T 333) [0;2;1;4;5;3]) (2) 1);
  (*1585*) Del (T 333);
  (*1586*) AddTo n_t3new'abaaba (Times (Transpose (T 334) [0;2;1;3;5;4]) (-1) 1);
  (*1587*) AddTo n_t3new'abaaba (Times (Transpose (T 337) [0;2;1;4;5;3]) (-2) 1);
  (*1588*) Del (T 337);
  (*1589*) AddTo n_t3new'abaaba (Plain (Transpose (T 339) [1;2;0;3;5;4]));
  (*1590*) AddTo n_t3new'abaaba (Times (Transpose (T 334) [1;2;0;4;5;3]) (-1) 1);
  (*1591*) AddTo n_t3new'abaaba (Times (Einsum [(n_t2'abab,[0;1;2;3]); (T 271,[0;4;5;6])] [5;1;4;2;3;6]) (-2) 1);
  (*1592*) Del (T 271);
  (*1593*) AddTo n_t3new'abaaba (Times (Einsum [(T 341,[0;1;2;3;4;5]); (n_t1'bb,[2;6])] [0;3;1;5;6;4]) (2) 1);
  (*1594*) Del (T 341);
  (*1595*) AddTo n_t3new'abaaba (Times (Transpose (T 339) [0;2;1;3;5;4]) (-1) 1);
  (*1596*) Del (T 339);
  (*1597*) AddTo n_t3new'abaaba (Plain (Transpose (T 334) [0;2;1;4;5;3]));
  (*1598*) Del (T 334);
  (*1599*) AddTo n_t3new'abaaba (Plain (Transpose (T 342) [0;2;1;4;5;3]));
  (*1600*) AddTo n_t3new'abaaba (Plain (Transpose (T 343) [0;2;1;4;5;3]));
  (*1601*) AddTo n_t3new'abaaba (Times (Transpose (T 343) [1;2;0;4;5;3]) (-1) 1);
  (*1602*) AddTo n_t3new'abaaba (Times (Transpose (T 344) [0;2;1;4;5;3]) (2) 1);
  (*1603*) AddTo n_t3new'abaaba (Times (Transpose (T 342) [1;2;0;4;5;3]) (-1) 1);
  (*1604*) AddTo n_t3new'abaaba (Times (Transpose (T 344) [1;2;0;4;5;3]) (-2) 1);
  (*1605*) Del (T 344);
  (*1606*) AddTo n_t3new'abaaba (Times (Transpose (T 342) [0;2;1;3;5;4]) (-1) 1);
  (*1607*) AddTo n_t3new'abaaba (Times (Transpose (T 343) [0;2;1;3;5;4]) (-1) 1);
  (*1608*) AddTo n_t3new'abaaba (Plain (Transpose (T 343) [1;2;0;3;5;4]));
  (*1609*) Del (T 343);
  (*1610*) AddTo n_t3new'abaaba (Plain (Transpose (T 342) [1;2;0;3;5;4]));
  (*1611*) Del (T 342);
  (*1612*) AddTo n_t3new'abaaba (Times (Transpose (T 345) [0;2;1;4;5;3]) (-1) 1);
  (*1613*) AddTo n_t3new'abaaba (Times (Einsum [(n_t2'aaaa,[0;1;2;3]); (n_v'aabb'vvov,[4;3;5;6])] [0;5;1;4;6;2]) (-2) 1);
  (*1614*) AddTo n_t3new'abaaba (Plain (Transpose (T 346) [0;2;1;4;5;3]));
  (*1615*) AddTo n_t3new'abaaba (Plain (Einsum [(T 283,[0;1;2;3]); (n_t2'abab,[4;5;3;6])] [4;5;0;2;6;1]));
  (*1616*) Del (T 283);
  (*1617*) AddTo n_t3new'abaaba (Plain (Transpose (T 345) [1;2;0;4;5;3]));
  (*1618*) Del (T 345);
  (*1619*) AddTo n_t3new'abaaba (Times (Transpose (T 346) [1;2;0;4;5;3]) (-1) 1);
  (*1620*) Del (T 346);
  (*1621*) AddTo n_t3new'abaaba (Plain (Einsum [(T 285,[0;1;2;3]); (n_t2'abab,[4;5;2;6])] [0;5;4;1;6;3]));
  (*1622*) Del (T 285);
  (*1623*) AddTo n_t3new'abaaba (Plain (Transpose (T 347) [0;2;1;3;5;4]));
  (*1624*) AddTo n_t3new'abaaba (Times (Einsum [(T 348,[0;1;2;3]); (n_t2'aaaa,[4;5;6;1])] [4;0;5;6;3;2]) (2) 1);
  (*1625*) Del (T 348);
  (*1626*) AddTo n_t3new'abaaba (Times (Transpose (T 347) [1;2;0;3;5;4]) (-1) 1);
  (*1627*) Del (T 347);
  (*1628*) AddTo n_t3new'abaaba (Plain (Transpose (T 349) [0;2;1;3;5;4]));
  (*1629*) AddTo n_t3new'abaaba (Times (Transpose (T 350) [0;2;1;4;5;3]) (-2) 1);
  (*1630*) Del (T 350);
  (*1631*) AddTo n_t3new'abaaba (Plain (Transpose (T 351) [0;2;1;4;5;3]));
  (*1632*) AddTo n_t3new'abaaba (Plain (Transpose (T 349) [1;2;0;4;5;3]));
  (*1633*) Del (T 349);
  (*1634*) AddTo n_t3new'abaaba (Plain (Transpose (T 351) [1;2;0;3;5;4]));
  (*1635*) Del (T 351);
  (*1636*) AddTo n_t3new'abaaba (Plain (Transpose (T 352) [0;2;1;4;5;3]));
  (*1637*) AddTo n_t3new'abaaba (Plain (Transpose (T 353) [0;2;1;4;5;3]));
  (*1638*) AddTo n_t3new'abaaba (Times (Transpose (T 354) [0;2;1;3;5;4]) (-1) 1);
  (*1639*) AddTo n_t3new'abaaba (Times (Transpose (T 357) [1;2;0;4;5;3]) (-2) 1);
  (*1640*) AddTo n_t3new'abaaba (Times (Transpose (T 359) [0;2;1;4;5;3]) (-1) 1);
  (*1641*) AddTo n_t3new'abaaba (Times (Transpose (T 362) [0;2;1;3;5;4]) (-1) 1);
  (*1642*) AddTo n_t3new'abaaba (Plain (Transpose (T 362) [0;2;1;4;5;3]));
  (*1643*) AddTo n_t3new'abaaba (Times (Einsum [(n_t2'abab,[0;1;2;3]); (T 364,[4;5;1;6])] [0;5;4;6;3;2]) (-1) 1);
  (*1644*) Del (T 364);
  (*1645*) AddTo n_t3new'abaaba (Times (Einsum [(T 365,[0;1;2;3]); (n_t2'abab,[4;1;5;6])] [0;2;4;3;6;5]) (-1) 1);
  (*1646*) Del (T 365);
  (*1647*) AddTo n_t3new'abaaba (Times (Transpose (T 366) [1;2;0;4;5;3]) (2) 1);
  (*1648*) AddTo n_t3new'abaaba (Times (Transpose (T 366) [0;2;1;4;5;3]) (-2) 1);
  (*1649*) Del (T 366);
  (*1650*) AddTo n_t3new'abaaba (Times (Transpose (T 353) [1;2;0;4;5;3]) (-1) 1);
  (*1651*) AddTo n_t3new'abaaba (Plain (Transpose (T 354) [1;2;0;3;5;4]));
  (*1652*) Del (T 354);
  (*1653*) AddTo n_t3new'abaaba (Times (Transpose (T 352) [1;2;0;4;5;3]) (-1) 1);
  (*1654*) AddTo n_t3new'abaaba (Times (Transpose (T 357) [0;2;1;4;5;3]) (2) 1);
  (*1655*) Del (T 357);
  (*1656*) AddTo n_t3new'abaaba (Plain (Transpose (T 359) [1;2;0;4;5;3]));
  (*1657*) AddTo n_t3new'abaaba (Plain (Transpose (T 362) [1;2;0;3;5;4]));
  (*1658*) AddTo n_t3new'abaaba (Times (Transpose (T 362) [1;2;0;4;5;3]) (-1) 1);
  (*1659*) Del (T 362);
  (*1660*) AddTo n_t3new'abaaba (Plain (Transpose (T 368) [0;2;1;3;5;4]));
  (*1661*) AddTo n_t3new'abaaba (Times (Einsum [(T 369,[0;1;2;3;4;5]); (n_t1'aa,[2;6])] [0;3;1;6;5;4]) (2) 1);
  (*1662*) Del (T 369);
  (*1663*) AddTo n_t3new'abaaba (Times (Transpose (T 368) [0;2;1;4;5;3]) (-1) 1);
  (*1664*) AddTo n_t3new'abaaba (Times (Transpose (T 368) [1;2;0;3;5;4]) (-1) 1);
  (*1665*) AddTo n_t3new'abaaba (Plain (Transpose (T 368) [1;2;0;4;5;3]));
  (*1666*) Del (T 368);
  (*1667*) AddTo n_t3new'abaaba (Times (Transpose (T 352) [0;2;1;3;5;4]) (-1) 1);
  (*1668*) AddTo n_t3new'abaaba (Times (Transpose (T 353) [0;2;1;3;5;4]) (-1) 1);
  (*1669*) AddTo n_t3new'abaaba (Plain (Transpose (T 370) [0;2;1;3;5;4]));
  (*1670*) AddTo n_t3new'abaaba (Times (Transpose (T 372) [0;2;1;3;5;4]) (-1) 1);
  (*1671*) AddTo n_t3new'abaaba (Plain (Transpose (T 359) [0;2;1;3;5;4]));
  (*1672*) AddTo n_t3new'abaaba (Times (Transpose (T 374) [0;2;1;3;5;4]) (-1) 1);
  (*1673*) AddTo n_t3new'abaaba (Times (Einsum [(T 375,[0;1;2;3;4;5]); (n_t1'bb,[2;6])] [0;3;1;4;6;5]) (-2) 1);
  (*1674*) Del (T 375);
  (*1675*) AddTo n_t3new'abaaba (Times (Transpose (T 376) [1;2;0;3;5;4]) (-1) 1);
  (*1676*) AddTo n_t3new'abaaba (Plain (Transpose (T 376) [0;2;1;3;5;4]));
  (*1677*) Del (T 376);
  (*1678*) AddTo n_t3new'abaaba (Plain (Transpose (T 353) [1;2;0;3;5;4]));
  (*1679*) Del (T 353);
  (*1680*) AddTo n_t3new'abaaba (Times (Transpose (T 370) [1;2;0;3;5;4]) (-1) 1);
  (*1681*) Del (T 370);
  (*1682*) AddTo n_t3new'abaaba (Plain (Transpose (T 352) [1;2;0;3;5;4]));
  (*1683*) Del (T 352);
  (*1684*) AddTo n_t3new'abaaba (Plain (Transpose (T 372) [1;2;0;3;5;4]));
  (*1685*) Del (T 372);
  (*1686*) AddTo n_t3new'abaaba (Times (Transpose (T 359) [1;2;0;3;5;4]) (-1) 1);
  (*1687*) Del (T 359);
  (*1688*) AddTo n_t3new'abaaba (Plain (Transpose (T 374) [1;2;0;3;5;4]));
  (*1689*) Del (T 374);
  (*1690*) AddTo n_t3new'abaaba (Times (Einsum [(T 379,[0;1;2;3]); (n_t2'abab,[4;5;6;3])] [4;5;0;1;2;6]) (-1) 1);
  (*1691*) Del (T 379);
  (*1692*) AddTo n_t3new'abaaba (Times (Einsum [(T 381,[0;1;2;3]); (n_t2'aaaa,[4;5;6;1])] [4;0;5;2;3;6]) (-2) 1);
  (*1693*) Del (T 381);
  (*1694*) AddTo n_t3new'abaaba (Times (Transpose (T 384) [1;2;0;4;5;3]) (-1) 1);
  (*1695*) AddTo n_t3new'abaaba (Plain (Transpose (T 384) [1;2;0;3;5;4]));
  (*1696*) AddTo n_t3new'abaaba (Times (Transpose (T 386) [1;2;0;3;5;4]) (-1) 1);
  (*1697*) AddTo n_t3new'abaaba (Plain (Einsum [(T 387,[0;1;2;3]); (n_t2'abab,[4;5;6;2])] [0;5;4;1;3;6]));
  (*1698*) Del (T 387);
  (*1699*) AddTo n_t3new'abaaba (Plain (Transpose (T 384) [0;2;1;4;5;3]));
  (*1700*) AddTo n_t3new'abaaba (Times (Transpose (T 384) [0;2;1;3;5;4]) (-1) 1);
  (*1701*) Del (T 384);
  (*1702*) AddTo n_t3new'abaaba (Plain (Transpose (T 386) [0;2;1;3;5;4]));
  (*1703*) AddTo n_t3new'abaaba (Times (Einsum [(n_t2'abab,[0;1;2;3]); (T 389,[4;5;3;6])] [0;1;4;2;6;5]) (-1) 1);
  (*1704*) Del (T 389);
  (*1705*) AddTo n_t3new'abaaba (Times (Einsum [(T 390,[0;1;2;3]); (n_t2'aaaa,[4;5;6;1])] [4;0;5;6;3;2]) (2) 1);
  (*1706*) Del (T 390);
  (*1707*) AddTo n_t3new'abaaba (Times (Einsum [(T 391,[0;1;2;3]); (n_t2'abab,[4;5;6;2])] [0;5;4;6;3;1]) (-1) 1);
  (*1708*) Del (T 391);
  (*1709*) AddTo n_t3new'abaaba (Times (Transpose (T 393) [0;2;1;3;5;4]) (-1) 1);
  (*1710*) AddTo n_t3new'abaaba (Plain (Transpose (T 393) [0;2;1;4;5;3]));
  (*1711*) AddTo n_t3new'abaaba (Times (Einsum [(n_t2'abab,[0;1;2;3]); (T 269,[4;5;0;6])] [4;1;5;2;3;6]) (-1) 1);
  (*1712*) Del (T 269);
  (*1713*) AddTo n_t3new'abaaba (Times (Transpose (T 395) [1;2;0;4;5;3]) (-2) 1);
  (*1714*) AddTo n_t3new'abaaba (Times (Transpose (T 395) [0;2;1;4;5;3]) (2) 1);
  (*1715*) Del (T 395);
  (*1716*) AddTo n_t3new'abaaba (Plain (Einsum [(n_t2'abab,[0;1;2;3]); (T 363,[4;1;5;6])] [0;5;4;2;3;6]));
  (*1717*) Del (T 363);
  (*1718*) AddTo n_t3new'abaaba (Plain (Transpose (T 393) [1;2;0;3;5;4]));
  (*1719*) Del (T 393);
  (*1720*) AddTo n_t3new'abaaba (Times (Einsum [(T 397,[0;1;2;3]); (n_t2'abab,[4;2;5;6])] [4;1;0;3;6;5]) (-1) 1);
  (*1721*) Del (T 397);
  (*1722*) AddTo n_t3new'abaaba (Plain (Transpose (T 398) [0;2;1;3;5;4]));
  (*1723*) AddTo n_t3new'abaaba (Times (Transpose (T 398) [1;2;0;3;5;4]) (-1) 1);
  (*1724*) AddTo n_t3new'abaaba (Plain (Transpose (T 399) [0;2;1;4;5;3]));
  (*1725*) AddTo n_t3new'abaaba (Times (Transpose (T 399) [1;2;0;4;5;3]) (-1) 1);
  (*1726*) AddTo n_t3new'abaaba (Times (Transpose (T 402) [1;2;0;4;5;3]) (-2) 1);
  (*1727*) AddTo n_t3new'abaaba (Times (Einsum [(n_t2'abab,[0;1;2;3]); (T 403,[4;5;1;6])] [4;5;0;6;3;2]) (-1) 1);
  (*1728*) Del (T 403);
  (*1729*) AddTo n_t3new'abaaba (Times (Transpose (T 402) [0;2;1;4;5;3]) (2) 1);
  (*1730*) Del (T 402);
  (*1731*) AddTo n_t3new'abaaba (Plain (Transpose (T 405) [1;2;0;3;5;4]));
  (*1732*) AddTo n_t3new'abaaba (Times (Einsum [(n_t1'aa,[0;1]); (T 406,[2;3;0;4;5;6])] [2;4;3;1;6;5]) (2) 1);
  (*1733*) Del (T 406);
  (*1734*) AddTo n_t3new'abaaba (Times (Transpose (T 405) [0;2;1;3;5;4]) (-1) 1);
  (*1735*) Del (T 405);
  (*1736*) AddTo n_t3new'abaaba (Times (Transpose (T 407) [1;2;0;3;5;4]) (-1) 1);
  (*1737*) AddTo n_t3new'abaaba (Times (Transpose (T 399) [0;2;1;3;5;4]) (-1) 1);
  (*1738*) AddTo n_t3new'abaaba (Plain (Transpose (T 399) [1;2;0;3;5;4]));
  (*1739*) Del (T 399);
  (*1740*) AddTo n_t3new'abaaba (Plain (Transpose (T 386) [1;2;0;4;5;3]));
  (*1741*) AddTo n_t3new'abaaba (Times (Transpose (T 409) [1;2;0;3;5;4]) (-1) 1);
  (*1742*) AddTo n_t3new'abaaba (Times (Einsum [(T 410,[0;1;2;3;4;5]); (n_t1'bb,[3;6])] [0;2;1;4;6;5]) (-2) 1);
  (*1743*) Del (T 410);
  (*1744*) AddTo n_t3new'abaaba (Plain (Transpose (T 407) [0;2;1;3;5;4]));
  (*1745*) Del (T 407);
  (*1746*) AddTo n_t3new'abaaba (Times (Transpose (T 386) [0;2;1;4;5;3]) (-1) 1);
  (*1747*) Del (T 386);
  (*1748*) AddTo n_t3new'abaaba (Plain (Transpose (T 409) [0;2;1;3;5;4]));
  (*1749*) Del (T 409);
  (*1750*) AddTo n_t3new'abaaba (Plain (Transpose (T 411) [1;2;0;4;5;3]));
  (*1751*) AddTo n_t3new'abaaba (Times (Transpose (T 398) [0;2;1;4;5;3]) (-1) 1);
  (*1752*) AddTo n_t3new'abaaba (Plain (Transpose (T 398) [1;2;0;4;5;3]));
  (*1753*) Del (T 398);
  (*1754*) AddTo n_t3new'abaaba (Times (Transpose (T 411) [0;2;1;4;5;3]) (-1) 1);
  (*1755*) Del (T 411);
  (*1756*) Assign n_t3new'aaaaaa (Times (Transpose (T 244) [1;2;0;4;5;3]) (-6) 1);
  (*1757*) AddTo n_t3new'aaaaaa (Times (Transpose (T 246) [1;0;2;5;4;3]) (-2) 1);
  (*1758*) AddTo n_t3new'aaaaaa (Times (Transpose (T 249) [0;1;2;5;3;4]) (-2) 1);
  (*1759*) AddTo n_t3new'aaaaaa (Times (Transpose (T 249) [0;1;2;5;4;3]) (2) 1);
  (*1760*) AddTo n_t3new'aaaaaa (Times (Transpose (T 244) [1;0;2;4;5;3]) (6) 1);
  (*1761*) AddTo n_t3new'aaaaaa (Times (Transpose (T 246) [1;2;0;5;4;3]) (2) 1);
  (*1762*) AddTo n_t3new'aaaaaa (Times (Transpose (T 249) [0;2;1;5;3;4]) (2) 1);
  (*1763*) AddTo n_t3new'aaaaaa (Times (Transpose (T 249) [0;2;1;5;4;3]) (-2) 1);
  (*1764*) AddTo n_t3new'aaaaaa (Times (Transpose (T 244) [0;2;1;4;5;3]) (6) 1);
  (*1765*) Del (T 244);
  (*1766*) AddTo n_t3new'aaaaaa (Times (Transpose (T 249) [2;1;0;5;3;4]) (2) 1);
  (*1767*) AddTo n_t3new'aaaaaa (Times (Transpose (T 249) [2;1;0;5;4;3]) (-2) 1);
  (*1768*) AddTo n_t3new'aaaaaa (Times (Transpose (T 253) [2;1;0;4;3;5]) (2) 1);
  (*1769*) Del (T 253);
  (*1770*) AddTo n_t3new'aaaaaa (Times (Transpose (T 256) [1;2;0;3;4;5]) (2) 1);
  (*1771*) Del (T 256);
  (*1772*) AddTo n_t3new'aaaaaa (Times (Transpose (T 258) [1;2;0;4;3;5]) (-6) 1);
  (*1773*) Del (T 258);
  (*1774*) AddTo n_t3new'aaaaaa (Times (Transpose (T 259) [0;1;2;5;4;3]) (-6) 1);
  (*1775*) Del (T 259);
  (*1776*) AddTo n_t3new'aaaaaa (Times (Transpose (T 261) [1;2;0;4;5;3]) (-6) 1);
  (*1777*) AddTo n_t3new'aaaaaa (Times (Transpose (T 264) [1;2;0;5;3;4]) (-2) 1);
  (*1778*) AddTo n_t3new'aaaaaa (Times (Transpose (T 264) [1;2;0;5;4;3]) (2) 1);
  (*1779*) AddTo n_t3new'aaaaaa (Times (Transpose (T 267) [1;2;0;5;4;3]) (-2) 1);
  (*1780*) AddTo n_t3new'aaaaaa (Times (Transpose (T 261) [1;0;2;4;5;3]) (6) 1);
  (*1781*) AddTo n_t3new'aaaaaa (Times (Transpose (T 264) [1;0;2;5;3;4]) (2) 1);
  (*1782*) AddTo n_t3new'aaaaaa (Times (Transpose (T 264) [1;0;2;5;4;3]) (-2) 1);
  (*1783*) AddTo n_t3new'aaaaaa (Times (Transpose (T 267) [1;0;2;5;4;3]) (2) 1);
  (*1784*) AddTo n_t3new'aaaaaa (Times (Transpose (T 261) [0;2;1;4;5;3]) (6) 1);
  (*1785*) Del (T 261);
  (*1786*) AddTo n_t3new'aaaaaa (Times (Transpose (T 264) [0;2;1;5;3;4]) (2) 1);
  (*1787*) AddTo n_t3new'aaaaaa (Times (Transpose (T 264) [0;2;1;5;4;3]) (-2) 1);
  (*1788*) AddTo n_t3new'aaaaaa (Times (Transpose (T 270) [0;1;2;5;4;3]) (-2) 1);
  (*1789*) AddTo n_t3new'aaaaaa (Times (Transpose (T 273) [2;0;1;3;5;4]) (-1) 1);
  (*1790*) AddTo n_t3new'aaaaaa (Times (Transpose (T 275) [2;0;1;3;5;4]) (-1) 1);
  (*1791*) AddTo n_t3new'aaaaaa (Times (Transpose (T 275) [0;2;1;3;5;4]) (2) 1);
  (*1792*) AddTo n_t3new'aaaaaa (Times (Transpose (T 275) [2;0;1;5;3;4]) (2) 1);
  (*1793*) AddTo n_t3new'aaaaaa (Times (Transpose (T 275) [0;2;1;5;3;4]) (-2) 1);
  (*1794*) AddTo n_t3new'aaaaaa (Times (Transpose (T 273) [0;1;2;3;5;4]) (-1) 1);
  (*1795*) Del (T 273);
  (*1796*) AddTo n_t3new'aaaaaa (Times (Transpose (T 275) [0;1;2;3;5;4]) (-1) 1);
  (*1797*) AddTo n_t3new'aaaaaa (Times (Transpose (T 275) [0;1;2;5;3;4]) (2) 1);
  (*1798*) Del (T 275);
  (*1799*) AddTo n_t3new'aaaaaa (Times (Transpose (T 276) [2;1;0;5;4;3]) (4) 1);
  (*1800*) AddTo n_t3new'aaaaaa (Times (Transpose (T 278) [2;1;0;5;3;4]) (2) 1);
  (*1801*) AddTo n_t3new'aaaaaa (Times (Transpose (T 249) [2;1;0;3;4;5]) (2) 1);
  (*1802*) AddTo n_t3new'aaaaaa (Times (Transpose (T 249) [2;1;0;4;3;5]) (-2) 1);
  (*1803*) AddTo n_t3new'aaaaaa (Times (Transpose (T 278) [2;1;0;3;5;4]) (-2) 1);
  (*1804*) AddTo n_t3new'aaaaaa (Times (Transpose (T 276) [0;2;1;5;4;3]) (4) 1);
  (*1805*) AddTo n_t3new'aaaaaa (Times (Transpose (T 278) [0;2;1;5;3;4]) (2) 1);
  (*1806*) AddTo n_t3new'aaaaaa (Times (Transpose (T 249) [0;2;1;3;4;5]) (2) 1);
  (*1807*) AddTo n_t3new'aaaaaa (Times (Transpose (T 249) [0;2;1;4;3;5]) (-2) 1);
  (*1808*) AddTo n_t3new'aaaaaa (Times (Transpose (T 278) [0;2;1;3;5;4]) (-2) 1);
  (*1809*) AddTo n_t3new'aaaaaa (Times (Transpose (T 276) [0;1;2;5;4;3]) (-4) 1);
  (*1810*) Del (T 276);
  (*1811*) AddTo n_t3new'aaaaaa (Times (Transpose (T 278) [0;1;2;5;3;4]) (-2) 1);
  (*1812*) AddTo n_t3new'aaaaaa (Times (Copy (T 249)) (-2) 1);
  (*1813*) AddTo n_t3new'aaaaaa (Times (Transpose (T 249) [0;1;2;4;3;5]) (2) 1);
  (*1814*) AddTo n_t3new'aaaaaa (Times (Transpose (T 278) [0;1;2;3;5;4]) (2) 1);
  (*1815*) AddTo n_t3new'aaaaaa (Times (Transpose (T 279) [0;1;2;5;4;3]) (2) 1);
  (*1816*) AddTo n_t3new'aaaaaa (Times (Transpose (T 279) [0;2;1;5;4;3]) (-2) 1);
  (*1817*) AddTo n_t3new'aaaaaa (Times (Transpose (T 279) [1;0;2;5;4;3]) (-2) 1);
  (*1818*) AddTo n_t3new'aaaaaa (Times (Transpose (T 279) [2;0;1;5;4;3]) (2) 1);
  (*1819*) AddTo n_t3new'aaaaaa (Times (Transpose (T 279) [0;1;2;4;5;3]) (-2) 1);
  (*1820*) AddTo n_t3new'aaaaaa (Times (Transpose (T 279) [0;2;1;4;5;3]) (2) 1);
  (*1821*) AddTo n_t3new'aaaaaa (Times (Transpose (T 279) [1;0;2;4;5;3]) (2) 1);
  (*1822*) AddTo n_t3new'aaaaaa (Times (Transpose (T 279) [2;0;1;4;5;3]) (-2) 1);
  (*1823*) AddTo n_t3new'aaaaaa (Times (Transpose (T 279) [1;2;0;5;4;3]) (2) 1);
  (*1824*) AddTo n_t3new'aaaaaa (Times (Transpose (T 279) [2;1;0;5;4;3]) (-2) 1);
  (*1825*) AddTo n_t3new'aaaaaa (Times (Transpose (T 279) [1;2;0;4;5;3]) (-2) 1);
  (*1826*) AddTo n_t3new'aaaaaa (Times (Transpose (T 279) [2;1;0;4;5;3]) (2) 1);
  (*1827*) AddTo n_t3new'aaaaaa (Times (Transpose (T 279) [0;1;2;4;3;5]) (2) 1);
  (*1828*) AddTo n_t3new'aaaaaa (Times (Transpose (T 279) [0;2;1;4;3;5]) (-2) 1);
  (*1829*) AddTo n_t3new'aaaaaa (Times (Transpose (T 279) [1;0;2;4;3;5]) (-2) 1);
  (*1830*) AddTo n_t3new'aaaaaa (Times (Transpose (T 279) [2;0;1;4;3;5]) (2) 1);
  (*1831*) AddTo n_t3new'aaaaaa (Times (Transpose (T 279) [1;2;0;4;3;5]) (2) 1);
  (*1832*) AddTo n_t3new'aaaaaa (Times (Transpose (T 279) [2;1;0;4;3;5]) (-2) 1);
  (*1833*) Del (T 279);
  (*1834*) AddTo n_t3new'aaaaaa (Times (Transpose (T 280) [0;1;2;5;4;3]) (2) 1);
  (*1835*) AddTo n_t3new'aaaaaa (Times (Transpose (T 282) [2;1;0;3;4;5]) (-1) 1);
  (*1836*) AddTo n_t3new'aaaaaa (Times (Transpose (T 280) [0;2;1;5;4;3]) (-2) 1);
  (*1837*) AddTo n_t3new'aaaaaa (Times (Transpose (T 284) [2;0;1;4;3;5]) (-2) 1);
  (*1838*) AddTo n_t3new'aaaaaa (Times (Transpose (T 280) [0;1;2;5;3;4]) (-2) 1);
  (*1839*) AddTo n_t3new'aaaaaa (Times (Transpose (T 286) [2;1;0;3;5;4]) (2) 1);
  (*1840*) AddTo n_t3new'aaaaaa (Times (Transpose (T 280) [0;2;1;5;3;4]) (2) 1);
  (*1841*) AddTo n_t3new'aaaaaa (Times (Transpose (T 284) [2;0;1;4;5;3]) (2) 1);
  (*1842*) AddTo n_t3new'aaaaaa (Times (Transpose (T 280) [2;1;0;5;4;3]) (-2) 1);
  (*1843*) AddTo n_t3new'aaaaaa (Times (Transpose (T 282) [0;2;1;3;4;5]) (-1) 1);
  (*1844*) Del (T 282);
  (*1845*) AddTo n_t3new'aaaaaa (Times (Transpose (T 280) [2;1;0;5;3;4]) (2) 1);
  (*1846*) AddTo n_t3new'aaaaaa (Times (Transpose (T 286) [0;2;1;3;5;4]) (2) 1);
  (*1847*) AddTo n_t3new'aaaaaa (Times (Transpose (T 280) [0;1;2;3;5;4]) (2) 1);
  (*1848*) AddTo n_t3new'aaaaaa (Times (Transpose (T 286) [2;1;0;5;3;4]) (-2) 1);
  (*1849*) AddTo n_t3new'aaaaaa (Times (Transpose (T 280) [0;2;1;3;5;4]) (-2) 1);
  (*1850*) AddTo n_t3new'aaaaaa (Times (Transpose (T 284) [2;0;1;5;4;3]) (-2) 1);
  (*1851*) Del (T 284);
  (*1852*) AddTo n_t3new'aaaaaa (Times (Transpose (T 280) [2;1;0;3;5;4]) (-2) 1);
  (*1853*) Del (T 280);
  (*1854*) AddTo n_t3new'aaaaaa (Times (Transpose (T 286) [0;2;1;5;3;4]) (-2) 1);
  (*1855*) Del (T 286);
  (*1856*) AddTo n_t3new'aaaaaa (Times (Transpose (T 246) [0;1;2;3;5;4]) (2) 1);
  (*1857*) AddTo n_t3new'aaaaaa (Times (Transpose (T 246) [1;0;2;3;5;4]) (-2) 1);
  (*1858*) AddTo n_t3new'aaaaaa (Times (Transpose (T 246) [0;1;2;5;3;4]) (-2) 1);
  (*1859*) AddTo n_t3new'aaaaaa (Times (Transpose (T 246) [1;0;2;5;3;4]) (2) 1);
  (*1860*) AddTo n_t3new'aaaaaa (Times (Transpose (T 246) [0;2;1;5;4;3]) (-2) 1);
  (*1861*) AddTo n_t3new'aaaaaa (Times (Transpose (T 246) [0;1;2;5;4;3]) (2) 1);
  (*1862*) AddTo n_t3new'aaaaaa (Times (Transpose (T 246) [2;0;1;5;4;3]) (2) 1);
  (*1863*) AddTo n_t3new'aaaaaa (Times (Transpose (T 246) [1;2;0;3;5;4]) (2) 1);
  (*1864*) AddTo n_t3new'aaaaaa (Times (Transpose (T 246) [1;2;0;5;3;4]) (-2) 1);
  (*1865*) Del (T 246);
  (*1866*) AddTo n_t3new'aaaaaa (Times (Transpose (T 287) [1;0;2;5;4;3]) (2) 1);
  (*1867*) AddTo n_t3new'aaaaaa (Times (Transpose (T 290) [2;0;1;3;5;4]) (2) 1);
  (*1868*) AddTo n_t3new'aaaaaa (Times (Transpose (T 287) [0;1;2;5;4;3]) (-2) 1);
  (*1869*) AddTo n_t3new'aaaaaa (Times (Transpose (T 290) [0;2;1;3;5;4]) (-2) 1);
  (*1870*) AddTo n_t3new'aaaaaa (Times (Transpose (T 287) [1;0;2;4;5;3]) (-2) 1);
  (*1871*) AddTo n_t3new'aaaaaa (Times (Transpose (T 290) [2;0;1;5;3;4]) (-2) 1);
  (*1872*) AddTo n_t3new'aaaaaa (Times (Transpose (T 287) [0;1;2;4;5;3]) (2) 1);
  (*1873*) AddTo n_t3new'aaaaaa (Times (Transpose (T 290) [0;2;1;5;3;4]) (2) 1);
  (*1874*) AddTo n_t3new'aaaaaa (Times (Transpose (T 278) [0;1;2;5;4;3]) (2) 1);
  (*1875*) AddTo n_t3new'aaaaaa (Times (Transpose (T 249) [0;1;2;3;5;4]) (2) 1);
  (*1876*) AddTo n_t3new'aaaaaa (Times (Transpose (T 249) [0;1;2;4;5;3]) (-2) 1);
  (*1877*) AddTo n_t3new'aaaaaa (Times (Transpose (T 278) [0;2;1;5;4;3]) (-2) 1);
  (*1878*) AddTo n_t3new'aaaaaa (Times (Transpose (T 249) [0;2;1;3;5;4]) (-2) 1);
  (*1879*) AddTo n_t3new'aaaaaa (Times (Transpose (T 249) [0;2;1;4;5;3]) (2) 1);
  (*1880*) AddTo n_t3new'aaaaaa (Times (Transpose (T 287) [1;2;0;5;4;3]) (-2) 1);
  (*1881*) AddTo n_t3new'aaaaaa (Times (Einsum [(T 292,[0;1;2;3]); (n_t2'aaaa,[4;2;5;6])] [4;1;0;3;5;6]) (-1) 1);
  (*1882*) Del (T 292);
  (*1883*) AddTo n_t3new'aaaaaa (Times (Transpose (T 295) [2;1;0;3;5;4]) (-1) 1);
  (*1884*) AddTo n_t3new'aaaaaa (Times (Transpose (T 287) [0;2;1;5;4;3]) (2) 1);
  (*1885*) AddTo n_t3new'aaaaaa (Times (Transpose (T 290) [0;1;2;3;5;4]) (2) 1);
  (*1886*) AddTo n_t3new'aaaaaa (Times (Transpose (T 287) [1;2;0;4;5;3]) (2) 1);
  (*1887*) AddTo n_t3new'aaaaaa (Times (Transpose (T 295) [2;1;0;5;3;4]) (2) 1);
  (*1888*) AddTo n_t3new'aaaaaa (Times (Transpose (T 287) [0;2;1;4;5;3]) (-2) 1);
  (*1889*) AddTo n_t3new'aaaaaa (Times (Transpose (T 290) [0;1;2;5;3;4]) (-2) 1);
  (*1890*) Del (T 290);
  (*1891*) AddTo n_t3new'aaaaaa (Times (Transpose (T 287) [2;1;0;5;4;3]) (2) 1);
  (*1892*) AddTo n_t3new'aaaaaa (Times (Transpose (T 295) [1;2;0;3;5;4]) (2) 1);
  (*1893*) AddTo n_t3new'aaaaaa (Times (Transpose (T 287) [2;0;1;5;4;3]) (-2) 1);
  (*1894*) AddTo n_t3new'aaaaaa (Times (Transpose (T 295) [1;0;2;3;5;4]) (-2) 1);
  (*1895*) AddTo n_t3new'aaaaaa (Times (Transpose (T 287) [2;1;0;4;5;3]) (-2) 1);
  (*1896*) AddTo n_t3new'aaaaaa (Times (Transpose (T 295) [1;2;0;5;3;4]) (-2) 1);
  (*1897*) AddTo n_t3new'aaaaaa (Times (Transpose (T 287) [2;0;1;4;5;3]) (2) 1);
  (*1898*) AddTo n_t3new'aaaaaa (Times (Transpose (T 295) [1;0;2;5;3;4]) (2) 1);
  (*1899*) Del (T 295);
  (*1900*) AddTo n_t3new'aaaaaa (Times (Transpose (T 278) [2;1;0;5;4;3]) (-2) 1);
  (*1901*) AddTo n_t3new'aaaaaa (Times (Transpose (T 249) [2;1;0;3;5;4]) (-2) 1);
  (*1902*) AddTo n_t3new'aaaaaa (Times (Transpose (T 249) [2;1;0;4;5;3]) (2) 1);
  (*1903*) Del (T 249);
  (*1904*) AddTo n_t3new'aaaaaa (Times (Transpose (T 297) [0;1;2;3;5;4]) (-2) 1);
  (*1905*) AddTo n_t3new'aaaaaa (Times (Transpose (T 297) [0;2;1;3;5;4]) (2) 1);
  (*1906*) AddTo n_t3new'aaaaaa (Times (Transpose (T 278) [0;1;2;4;5;3]) (-2) 1);
  (*1907*) AddTo n_t3new'aaaaaa (Times (Transpose (T 278) [0;2;1;4;5;3]) (2) 1);
  (*1908*) AddTo n_t3new'aaaaaa (Times (Transpose (T 297) [2;1;0;3;5;4]) (2) 1);
  (*1909*) AddTo n_t3new'aaaaaa (Times (Transpose (T 278) [2;1;0;4;5;3]) (2) 1);
  (*1910*) AddTo n_t3new'aaaaaa (Times (Transpose (T 287) [1;0;2;4;3;5]) (2) 1);
  (*1911*) AddTo n_t3new'aaaaaa (Times (Transpose (T 298) [1;0;2;4;3;5]) (-2) 1);
  (*1912*) AddTo n_t3new'aaaaaa (Times (Transpose (T 287) [0;1;2;4;3;5]) (-2) 1);
  (*1913*) AddTo n_t3new'aaaaaa (Times (Transpose (T 298) [0;1;2;4;3;5]) (2) 1);
  (*1914*) AddTo n_t3new'aaaaaa (Times (Copy (T 297)) (2) 1);
  (*1915*) AddTo n_t3new'aaaaaa (Times (Copy (T 278)) (-2) 1);
  (*1916*) AddTo n_t3new'aaaaaa (Times (Transpose (T 297) [0;2;1;3;4;5]) (-2) 1);
  (*1917*) AddTo n_t3new'aaaaaa (Times (Transpose (T 278) [0;2;1;3;4;5]) (2) 1);
  (*1918*) AddTo n_t3new'aaaaaa (Times (Transpose (T 297) [0;1;2;4;3;5]) (-2) 1);
  (*1919*) AddTo n_t3new'aaaaaa (Times (Transpose (T 278) [0;1;2;4;3;5]) (2) 1);
  (*1920*) AddTo n_t3new'aaaaaa (Times (Transpose (T 297) [0;2;1;4;3;5]) (2) 1);
  (*1921*) AddTo n_t3new'aaaaaa (Times (Transpose (T 278) [0;2;1;4;3;5]) (-2) 1);
  (*1922*) AddTo n_t3new'aaaaaa (Times (Transpose (T 287) [1;2;0;4;3;5]) (-2) 1);
  (*1923*) AddTo n_t3new'aaaaaa (Times (Transpose (T 298) [1;2;0;4;3;5]) (2) 1);
  (*1924*) AddTo n_t3new'aaaaaa (Times (Transpose (T 287) [0;2;1;4;3;5]) (2) 1);
  (*1925*) AddTo n_t3new'aaaaaa (Times (Transpose (T 298) [0;2;1;4;3;5]) (-2) 1);
  (*1926*) AddTo n_t3new'aaaaaa (Times (Transpose (T 287) [2;1;0;4;3;5]) (2) 1);
  (*1927*) AddTo n_t3new'aaaaaa (Times (Transpose (T 298) [2;1;0;4;3;5]) (-2) 1);
  (*1928*) AddTo n_t3new'aaaaaa (Times (Transpose (T 287) [2;0;1;4;3;5]) (-2) 1);
  (*1929*) Del (T 287);
  (*1930*) AddTo n_t3new'aaaaaa (Times (Transpose (T 298) [2;0;1;4;3;5]) (2) 1);
  (*1931*) Del (T 298);
  (*1932*) AddTo n_t3new'aaaaaa (Times (Transpose (T 297) [2;1;0;3;4;5]) (-2) 1);
  (*1933*) AddTo n_t3new'aaaaaa (Times (Transpose (T 278) [2;1;0;3;4;5]) (2) 1);
  (*1934*) AddTo n_t3new'aaaaaa (Times (Transpose (T 297) [2;1;0;4;3;5]) (2) 1);
  (*1935*) Del (T 297);
  (*1936*) AddTo n_t3new'aaaaaa (Times (Transpose (T 278) [2;1;0;4;3;5]) (-2) 1);
  (*1937*) Del (T 278);
  (*1938*) AddTo n_t3new'aaaaaa (Times (Transpose (T 264) [1;2;0;3;4;5]) (-2) 1);
  (*1939*) AddTo n_t3new'aaaaaa (Times (Transpose (T 264) [1;2;0;4;3;5]) (2) 1);
  (*1940*) AddTo n_t3new'aaaaaa (Times (Transpose (T 299) [1;2;0;4;5;3]) (-2) 1);
  (*1941*) AddTo n_t3new'aaaaaa (Times (Transpose (T 299) [1;2;0;5;4;3]) (2) 1);
  (*1942*) AddTo n_t3new'aaaaaa (Times (Transpose (T 301) [1;2;0;4;5;3]) (-2) 1);
  (*1943*) AddTo n_t3new'aaaaaa (Times (Transpose (T 264) [1;0;2;3;4;5]) (2) 1);
  (*1944*) AddTo n_t3new'aaaaaa (Times (Transpose (T 264) [1;0;2;4;3;5]) (-2) 1);
  (*1945*) AddTo n_t3new'aaaaaa (Times (Transpose (T 299) [1;0;2;4;5;3]) (2) 1);
  (*1946*) AddTo n_t3new'aaaaaa (Times (Transpose (T 299) [1;0;2;5;4;3]) (-2) 1);
  (*1947*) AddTo n_t3new'aaaaaa (Times (Transpose (T 301) [1;0;2;4;5;3]) (2) 1);
  (*1948*) AddTo n_t3new'aaaaaa (Times (Transpose (T 264) [1;2;0;3;5;4]) (2) 1);
  (*1949*) AddTo n_t3new'aaaaaa (Times (Transpose (T 264) [1;2;0;4;5;3]) (-2) 1);
  (*1950*) AddTo n_t3new'aaaaaa (Times (Transpose (T 299) [1;2;0;4;3;5]) (2) 1);
  (*1951*) AddTo n_t3new'aaaaaa (Times (Transpose (T 299) [1;2;0;5;3;4]) (-2) 1);
  (*1952*) AddTo n_t3new'aaaaaa (Times (Transpose (T 301) [1;2;0;4;3;5]) (2) 1);
  (*1953*) AddTo n_t3new'aaaaaa (Times (Transpose (T 264) [1;0;2;3;5;4]) (-2) 1);
  (*1954*) AddTo n_t3new'aaaaaa (Times (Transpose (T 264) [1;0;2;4;5;3]) (2) 1);
  (*1955*) AddTo n_t3new'aaaaaa (Times (Transpose (T 299) [1;0;2;4;3;5]) (-2) 1);
  (*1956*) AddTo n_t3new'aaaaaa (Times (Transpose (T 299) [1;0;2;5;3;4]) (2) 1);
  (*1957*) AddTo n_t3new'aaaaaa (Times (Transpose (T 301) [1;0;2;4;3;5]) (-2) 1);
  (*1958*) AddTo n_t3new'aaaaaa (Times (Transpose (T 264) [0;2;1;3;4;5]) (2) 1);
  (*1959*) AddTo n_t3new'aaaaaa (Times (Transpose (T 264) [0;2;1;4;3;5]) (-2) 1);
  (*1960*) AddTo n_t3new'aaaaaa (Times (Transpose (T 299) [0;2;1;4;5;3]) (2) 1);
  (*1961*) AddTo n_t3new'aaaaaa (Times (Transpose (T 299) [0;2;1;5;4;3]) (-2) 1);
  (*1962*) AddTo n_t3new'aaaaaa (Times (Transpose (T 301) [0;2;1;4;5;3]) (2) 1);
  (*1963*) AddTo n_t3new'aaaaaa (Times (Transpose (T 264) [0;2;1;3;5;4]) (-2) 1);
  (*1964*) AddTo n_t3new'aaaaaa (Times (Transpose (T 264) [0;2;1;4;5;3]) (2) 1);
  (*1965*) Del (T 264);
  (*1966*) AddTo n_t3new'aaaaaa (Times (Transpose (T 299) [0;2;1;4;3;5]) (-2) 1);
  (*1967*) AddTo n_t3new'aaaaaa (Times (Transpose (T 299) [0;2;1;5;3;4]) (2) 1);
  (*1968*) AddTo n_t3new'aaaaaa (Times (Transpose (T 301) [0;2;1;4;3;5]) (-2) 1);
  (*1969*) AddTo n_t3new'aaaaaa (Times (Transpose (T 299) [1;2;0;3;4;5]) (-2) 1);
  (*1970*) AddTo n_t3new'aaaaaa (Times (Transpose (T 299) [1;2;0;3;5;4]) (2) 1);
  (*1971*) AddTo n_t3new'aaaaaa (Times (Transpose (T 301) [1;2;0;3;4;5]) (-2) 1);
  (*1972*) AddTo n_t3new'aaaaaa (Times (Transpose (T 299) [1;0;2;3;4;5]) (2) 1);
  (*1973*) AddTo n_t3new'aaaaaa (Times (Transpose (T 299) [1;0;2;3;5;4]) (-2) 1);
  (*1974*) AddTo n_t3new'aaaaaa (Times (Transpose (T 301) [1;0;2;3;4;5]) (2) 1);
  (*1975*) AddTo n_t3new'aaaaaa (Times (Transpose (T 299) [0;2;1;3;4;5]) (2) 1);
  (*1976*) AddTo n_t3new'aaaaaa (Times (Transpose (T 299) [0;2;1;3;5;4]) (-2) 1);
  (*1977*) Del (T 299);
  (*1978*) AddTo n_t3new'aaaaaa (Times (Transpose (T 301) [0;2;1;3;4;5]) (2) 1);
  (*1979*) AddTo n_t3new'aaaaaa (Times (Transpose (T 270) [2;0;1;5;4;3]) (-2) 1);
  (*1980*) AddTo n_t3new'aaaaaa (Times (Transpose (T 270) [0;2;1;5;4;3]) (2) 1);
  (*1981*) Del (T 270);
  (*1982*) AddTo n_t3new'aaaaaa (Plain (Einsum [(n_t2'aaaa,[0;1;2;3]); (T 303,[4;5;1;6])] [0;5;4;2;3;6]));
  (*1983*) Del (T 303);
  (*1984*) AddTo n_t3new'aaaaaa (Plain (Transpose (T 267) [2;1;0;5;4;3]));
  (*1985*) Del (T 267);
  (*1986*) AddTo n_t3new'aaaaaa (Times (Transpose (T 304) [2;0;1;3;5;4]) (2) 1);
  (*1987*) AddTo n_t3new'aaaaaa (Times (Transpose (T 304) [2;1;0;3;5;4]) (-2) 1);
  (*1988*) AddTo n_t3new'aaaaaa (Times (Transpose (T 305) [2;0;1;5;4;3]) (2) 1);
  (*1989*) AddTo n_t3new'aaaaaa (Times (Transpose (T 305) [2;1;0;5;4;3]) (-2) 1);
  (*1990*) AddTo n_t3new'aaaaaa (Times (Transpose (T 304) [0;2;1;3;5;4]) (-2) 1);
  (*1991*) AddTo n_t3new'aaaaaa (Times (Transpose (T 304) [1;2;0;3;5;4]) (2) 1);
  (*1992*) AddTo n_t3new'aaaaaa (Times (Transpose (T 305) [0;2;1;5;4;3]) (-2) 1);
  (*1993*) AddTo n_t3new'aaaaaa (Times (Transpose (T 305) [1;2;0;5;4;3]) (2) 1);
  (*1994*) AddTo n_t3new'aaaaaa (Times (Transpose (T 304) [2;0;1;5;3;4]) (-2) 1);
  (*1995*) AddTo n_t3new'aaaaaa (Times (Transpose (T 304) [2;1;0;5;3;4]) (2) 1);
  (*1996*) AddTo n_t3new'aaaaaa (Times (Transpose (T 305) [2;0;1;4;5;3]) (-2) 1);
  (*1997*) AddTo n_t3new'aaaaaa (Times (Transpose (T 305) [2;1;0;4;5;3]) (2) 1);
  (*1998*) AddTo n_t3new'aaaaaa (Times (Transpose (T 304) [0;2;1;5;3;4]) (2) 1);
  (*1999*) AddTo n_t3new'aaaaaa (Times (Transpose (T 304) [1;2;0;5;3;4]) (-2) 1);
  (*2000*) AddTo n_t3new'aaaaaa (Times (Transpose (T 305) [0;2;1;4;5;3]) (2) 1);
  (*2001*) AddTo n_t3new'aaaaaa (Times (Transpose (T 305) [1;2;0;4;5;3]) (-2) 1);
  (*2002*) AddTo n_t3new'aaaaaa (Times (Transpose (T 304) [0;1;2;3;5;4]) (2) 1);
  (*2003*) AddTo n_t3new'aaaaaa (Times (Transpose (T 304) [1;0;2;3;5;4]) (-2) 1);
  (*2004*) AddTo n_t3new'aaaaaa (Times (Transpose (T 305) [0;1;2;5;4;3]) (2) 1);
  (*2005*) AddTo n_t3new'aaaaaa (Times (Transpose (T 305) [1;0;2;5;4;3]) (-2) 1);
  (*2006*) AddTo n_t3new'aaaaaa (Times (Transpose (T 304) [0;1;2;5;3;4]) (-2) 1);
  (*2007*) AddTo n_t3new'aaaaaa (Times (Transpose (T 304) [1;0;2;5;3;4]) (2) 1);
  (*2008*) AddTo n_t3new'aaaaaa (Times (Transpose (T 305) [0;1;2;4;5;3]) (-2) 1);
  (*2009*) AddTo n_t3new'aaaaaa (Times (Transpose (T 305) [1;0;2;4;5;3]) (2) 1);
  (*2010*) AddTo n_t3new'aaaaaa (Plain (Transpose (T 308) [1;2;0;5;4;3]));
  (*2011*) AddTo n_t3new'aaaaaa (Times (Transpose (T 301) [1;0;2;5;4;3]) (-2) 1);
  (*2012*) AddTo n_t3new'aaaaaa (Times (Transpose (T 308) [0;2;1;5;4;3]) (-1) 1);
  (*2013*) Del (T 308);
  (*2014*) AddTo n_t3new'aaaaaa (Times (Transpose (T 305) [2;0;1;4;3;5]) (2) 1);
  (*2015*) AddTo n_t3new'aaaaaa (Times (Transpose (T 305) [2;1;0;4;3;5]) (-2) 1);
  (*2016*) AddTo n_t3new'aaaaaa (Times (Transpose (T 305) [0;2;1;4;3;5]) (-2) 1);
  (*2017*) AddTo n_t3new'aaaaaa (Times (Transpose (T 305) [1;2;0;4;3;5]) (2) 1);
  (*2018*) AddTo n_t3new'aaaaaa (Times (Transpose (T 301) [1;2;0;5;3;4]) (-2) 1);
  (*2019*) AddTo n_t3new'aaaaaa (Times (Transpose (T 301) [1;0;2;5;3;4]) (2) 1);
  (*2020*) AddTo n_t3new'aaaaaa (Times (Transpose (T 301) [1;2;0;3;5;4]) (2) 1);
  (*2021*) AddTo n_t3new'aaaaaa (Times (Transpose (T 301) [1;0;2;3;5;4]) (-2) 1);
  (*2022*) AddTo n_t3new'aaaaaa (Times (Transpose (T 305) [0;1;2;4;3;5]) (2) 1);
  (*2023*) AddTo n_t3new'aaaaaa (Times (Transpose (T 305) [1;0;2;4;3;5]) (-2) 1);
  (*2024*) Del (T 305);
  (*2025*) AddTo n_t3new'aaaaaa (Times (Transpose (T 301) [0;2;1;5;3;4]) (2) 1);
  (*2026*) AddTo n_t3new'aaaaaa (Times (Transpose (T 301) [0;2;1;3;5;4]) (-2) 1);
  (*2027*) Del (T 301);
  (*2028*) AddTo n_t3new'aaaaaa (Times (Transpose (T 304) [2;0;1;5;4;3]) (2) 1);
  (*2029*) AddTo n_t3new'aaaaaa (Times (Transpose (T 304) [2;1;0;5;4;3]) (-2) 1);
  (*2030*) AddTo n_t3new'aaaaaa (Times (Transpose (T 304) [0;2;1;5;4;3]) (-2) 1);
  (*2031*) AddTo n_t3new'aaaaaa (Times (Transpose (T 304) [1;2;0;5;4;3]) (2) 1);
  (*2032*) AddTo n_t3new'aaaaaa (Times (Transpose (T 304) [0;1;2;5;4;3]) (2) 1);
  (*2033*) AddTo n_t3new'aaaaaa (Times (Transpose (T 304) [1;0;2;5;4;3]) (-2) 1);
  (*2034*) Del (T 304);
  (*2035*) Assign n_t2new'bbbb (Times (Transpose (T 176) [1;0;3;2]) (2) 1);
  (*2036*) Del (T 176);
  (*2037*) AddTo n_t2new'bbbb (Plain (Copy (T 178)));
  (*2038*) AddTo n_t2new'bbbb (Times (Transpose (T 179) [0;1;3;2]) (6) 1);
  (*2039*) AddTo n_t2new'bbbb (Times (Transpose (T 180) [0;1;3;2]) (2) 1);
  (*2040*) AddTo n_t2new'bbbb (Times (Einsum [(n_t2'bbbb,[0;1;2;3]); (T 33,[1;4])] [0;4;2;3]) (-1) 1);
  (*2041*) AddTo n_t2new'bbbb (Times (Transpose (T 183) [0;1;3;2]) (-1) 1);
  (*2042*) AddTo n_t2new'bbbb (Times (Transpose (T 178) [0;1;3;2]) (-1) 1);
  (*2043*) Del (T 178);
  (*2044*) AddTo n_t2new'bbbb (Times (Transpose (T 179) [1;0;3;2]) (-6) 1);
  (*2045*) Del (T 179);
  (*2046*) AddTo n_t2new'bbbb (Times (Transpose (T 180) [1;0;3;2]) (-2) 1);
  (*2047*) Del (T 180);
  (*2048*) AddTo n_t2new'bbbb (Times (Copy (T 184)) (2) 1);
  (*2049*) Del (T 184);
  (*2050*) AddTo n_t2new'bbbb (Plain (Einsum [(T 10,[0;1]); (n_t3'babbab,[2;0;3;4;1;5])] [2;3;4;5]));
  (*2051*) AddTo n_t2new'bbbb (Times (Einsum [(n_t2'bbbb,[0;1;2;3]); (T 125,[4;3])] [0;1;2;4]) (-4) 1);
  (*2052*) AddTo n_t2new'bbbb (Times (Transpose (T 183) [1;0;3;2]) (2) 1);
  (*2053*) Del (T 183);
  (*2054*) AddTo n_t2new'bbbb (Plain (Einsum [(T 185,[0;1]); (n_t3'babbab,[2;0;3;4;1;5])] [2;3;4;5]));
  (*2055*) Del (T 185);
  (*2056*) AddTo n_t2new'bbbb (Times (Transpose (T 186) [1;0;3;2]) (2) 1);
  (*2057*) AddTo n_t2new'bbbb (Plain (Transpose (T 187) [1;0;3;2]));
  (*2058*) AddTo n_t2new'bbbb (Times (Copy (T 189)) (-1) 1);
  (*2059*) AddTo n_t2new'bbbb (Times (Transpose (T 190) [1;0;3;2]) (-1) 1);
  (*2060*) AddTo n_t2new'bbbb (Times (Einsum [(n_t2'bbbb,[0;1;2;3]); (T 194,[3;4])] [0;1;4;2]) (2) 1);
  (*2061*) Del (T 194);
  (*2062*) AddTo n_t2new'bbbb (Times (Transpose (T 186) [1;0;2;3]) (-2) 1);
  (*2063*) AddTo n_t2new'bbbb (Times (Transpose (T 187) [1;0;2;3]) (-1) 1);
  (*2064*) AddTo n_t2new'bbbb (Plain (Transpose (T 189) [0;1;3;2]));
  (*2065*) Del (T 189);
  (*2066*) AddTo n_t2new'bbbb (Plain (Transpose (T 190) [1;0;2;3]));
  (*2067*) Del (T 190);
  (*2068*) AddTo n_t2new'bbbb (Times (Einsum [(n_t2'bbbb,[0;1;2;3]); (T 195,[3;4])] [0;1;2;4]) (-2) 1);
  (*2069*) Del (T 195);
  (*2070*) AddTo n_t2new'bbbb (Times (Transpose (T 196) [1;0;3;2]) (2) 1);
  (*2071*) AddTo n_t2new'bbbb (Times (Transpose (T 197) [1;0;3;2]) (6) 1);
  (*2072*) AddTo n_t2new'bbbb (Times (Transpose (T 199) [1;0;3;2]) (-2) 1);
  (*2073*) AddTo n_t2new'bbbb (Plain (Transpose (T 201) [1;0;3;2]));
  (*2074*) AddTo n_t2new'bbbb (Plain (Transpose (T 203) [1;0;2;3]));
  (*2075*) AddTo n_t2new'bbbb (Times (Transpose (T 203) [1;0;3;2]) (-1) 1);
  (*2076*) AddTo n_t2new'bbbb (Times (Transpose (T 205) [1;0;3;2]) (-2) 1);
  (*2077*) AddTo n_t2new'bbbb (Times (Transpose (T 201) [1;0;2;3]) (-1) 1);
  (*2078*) AddTo n_t2new'bbbb (Times (Transpose (T 196) [0;1;3;2]) (-2) 1);
  (*2079*) Del (T 196);
  (*2080*) AddTo n_t2new'bbbb (Times (Transpose (T 197) [0;1;3;2]) (-6) 1);
  (*2081*) Del (T 197);
  (*2082*) AddTo n_t2new'bbbb (Times (Transpose (T 199) [0;1;3;2]) (2) 1);
  (*2083*) Del (T 199);
  (*2084*) AddTo n_t2new'bbbb (Times (Transpose (T 201) [0;1;3;2]) (-1) 1);
  (*2085*) AddTo n_t2new'bbbb (Times (Copy (T 203)) (-1) 1);
  (*2086*) AddTo n_t2new'bbbb (Plain (Transpose (T 203) [0;1;3;2]));
  (*2087*) Del (T 203);
  (*2088*) AddTo n_t2new'bbbb (Times (Transpose (T 205) [0;1;3;2]) (2) 1);
  (*2089*) Del (T 205);
  (*2090*) AddTo n_t2new'bbbb (Plain (Copy (T 201)));
  (*2091*) Del (T 201);
  (*2092*) AddTo n_t2new'bbbb (Plain (Transpose (T 206) [1;0;2;3]));
  (*2093*) AddTo n_t2new'bbbb (Times (Transpose (T 207) [1;0;3;2]) (-1) 1);
  (*2094*) AddTo n_t2new'bbbb (Plain (Transpose n_v'bbbb'ovov [0;2;1;3]));
  (*2095*) AddTo n_t2new'bbbb (Times (Einsum [(n_t2'bbbb,[0;1;2;3]); (T 209,[4;1;5;3])] [0;4;5;2]) (2) 1);
  (*2096*) Del (T 209);
  (*2097*) AddTo n_t2new'bbbb (Plain (Transpose (T 211) [1;0;2;3]));
  (*2098*) AddTo n_t2new'bbbb (Times (Copy (T 206)) (-1) 1);
  (*2099*) AddTo n_t2new'bbbb (Plain (Transpose (T 207) [0;1;3;2]));
  (*2100*) AddTo n_t2new'bbbb (Times (Transpose n_v'bbbb'ovov [0;2;3;1]) (-1) 1);
  (*2101*) AddTo n_t2new'bbbb (Times (Copy (T 217)) (-2) 1);
  (*2102*) AddTo n_t2new'bbbb (Plain (Transpose (T 218) [1;0;3;2]));
  (*2103*) AddTo n_t2new'bbbb (Plain (Transpose (T 219) [0;1;3;2]));
  (*2104*) AddTo n_t2new'bbbb (Times (Copy (T 220)) (2) 1);
  (*2105*) AddTo n_t2new'bbbb (Times (Transpose (T 220) [1;0;3;2]) (2) 1);
  (*2106*) AddTo n_t2new'bbbb (Times (Einsum [(T 223,[0;1;2;3]); (n_t2'bbbb,[4;1;5;3])] [0;4;2;5]) (-2) 1);
  (*2107*) Del (T 223);
  (*2108*) AddTo n_t2new'bbbb (Times (Einsum [(T 224,[0;1;2;3]); (n_t2'abab,[0;4;2;5])] [1;4;3;5]) (-1) 1);
  (*2109*) Del (T 224);
  (*2110*) AddTo n_t2new'bbbb (Times (Transpose (T 219) [1;0;3;2]) (-1) 1);
  (*2111*) AddTo n_t2new'bbbb (Times (Transpose (T 220) [0;1;3;2]) (-2) 1);
  (*2112*) AddTo n_t2new'bbbb (Times (Transpose (T 220) [1;0;2;3]) (-2) 1);
  (*2113*) Del (T 220);
  (*2114*) AddTo n_t2new'bbbb (Times (Einsum [(n_t2'bbbb,[0;1;2;3]); (T 226,[4;1;5;3])] [0;4;5;2]) (2) 1);
  (*2115*) Del (T 226);
  (*2116*) AddTo n_t2new'bbbb (Plain (Einsum [(n_t2'abab,[0;1;2;3]); (T 227,[0;4;2;5])] [1;4;5;3]));
  (*2117*) Del (T 227);
  (*2118*) AddTo n_t2new'bbbb (Times (Copy (T 219)) (-1) 1);
  (*2119*) AddTo n_t2new'bbbb (Plain (Transpose (T 229) [1;0;3;2]));
  (*2120*) AddTo n_t2new'bbbb (Times (Transpose (T 231) [0;1;3;2]) (2) 1);
  (*2121*) AddTo n_t2new'bbbb (Plain (Transpose (T 219) [1;0;2;3]));
  (*2122*) Del (T 219);
  (*2123*) AddTo n_t2new'bbbb (Times (Transpose (T 229) [0;1;3;2]) (-1) 1);
  (*2124*) Del (T 229);
  (*2125*) AddTo n_t2new'bbbb (Times (Transpose (T 231) [1;0;3;2]) (-2) 1);
  (*2126*) Del (T 231);
  (*2127*) AddTo n_t2new'bbbb (Times (Transpose (T 233) [0;1;3;2]) (-2) 1);
  (*2128*) Del (T 233);
  (*2129*) AddTo n_t2new'bbbb (Plain (Transpose (T 206) [0;1;3;2]));
  (*2130*) AddTo n_t2new'bbbb (Plain (Copy (T 235)));
  (*2131*) AddTo n_t2new'bbbb (Times (Transpose (T 235) [0;1;3;2]) (-1) 1);
  (*2132*) Del (T 235);
  (*2133*) AddTo n_t2new'bbbb (Plain (Copy (T 237)));
  (*2134*) AddTo n_t2new'bbbb (Times (Transpose (T 237) [0;1;3;2]) (-1) 1);
  (*2135*) Del (T 237);
  (*2136*) AddTo n_t2new'bbbb (Plain (Transpose (T 239) [0;1;3;2]));
  (*2137*) AddTo n_t2new'bbbb (Times (Transpose (T 239) [1;0;3;2]) (-1) 1);
  (*2138*) AddTo n_t2new'bbbb (Times (Transpose (T 241) [0;1;3;2]) (-2) 1);
  (*2139*) Del (T 241);
  (*2140*) AddTo n_t2new'bbbb (Times (Transpose (T 206) [1;0;3;2]) (-1) 1);
  (*2141*) Del (T 206);
  (*2142*) AddTo n_t2new'bbbb (Times (Einsum [(n_t2'bbbb,[0;1;2;3]); (T 242,[2;4;5;3])] [0;1;5;4]) (2) 1);
  (*2143*) Del (T 242);
  (*2144*) AddTo n_t2new'bbbb (Times (Transpose (T 187) [0;1;3;2]) (-1) 1);
  (*2145*) AddTo n_t2new'bbbb (Times (Transpose (T 186) [0;1;3;2]) (-2) 1);
  (*2146*) AddTo n_t2new'bbbb (Plain (Copy (T 187)));
  (*2147*) Del (T 187);
  (*2148*) AddTo n_t2new'bbbb (Times (Copy (T 186)) (2) 1);
  (*2149*) Del (T 186);
  (*2150*) AddTo n_t2new'bbbb (Plain (Transpose (T 207) [1;0;2;3]));
  (*2151*) AddTo n_t2new'bbbb (Times (Transpose (T 217) [1;0;3;2]) (-2) 1);
  (*2152*) AddTo n_t2new'bbbb (Times (Transpose (T 211) [1;0;3;2]) (-1) 1);
  (*2153*) Del (T 211);
  (*2154*) AddTo n_t2new'bbbb (Times (Copy (T 207)) (-1) 1);
  (*2155*) Del (T 207);
  (*2156*) AddTo n_t2new'bbbb (Times (Transpose (T 217) [0;1;3;2]) (2) 1);
  (*2157*) Del (T 217);
  (*2158*) AddTo n_t2new'bbbb (Times (Transpose (T 218) [1;0;2;3]) (-1) 1);
  (*2159*) Del (T 218);
  (*2160*) AddTo n_t2new'bbbb (Times (Einsum [(n_t1'bb,[0;1]); (T 243,[2;3;0;4])] [2;3;1;4]) (-2) 1);
  (*2161*) Del (T 243);
  (*2162*) AddTo n_t2new'bbbb (Times (Copy (T 239)) (-1) 1);
  (*2163*) AddTo n_t2new'bbbb (Plain (Transpose (T 239) [1;0;2;3]));
  (*2164*) Del (T 239);
  (*2165*) Assign n_t2new'abab (Times (Einsum [(n_v'aabb'ovoo,[0;1;2;3]); (n_t3'abaaba,[4;3;0;5;6;1])] [4;2;5;6]) (-2) 1);
  (*2166*) AddTo n_t2new'abab (Times (Copy (T 120)) (-2) 1);
  (*2167*) Del (T 120);
  (*2168*) AddTo n_t2new'abab (Times (Einsum [(n_t2'abab,[0;1;2;3]); (T 33,[1;4])] [0;4;2;3]) (-1) 1);
  (*2169*) AddTo n_t2new'abab (Times (Einsum [(n_v'aabb'oooo,[0;1;2;3]); (T 121,[1;3;4;5])] [0;2;4;5]) (1) 2);
  (*2170*) Del (T 121);
  (*2171*) AddTo n_t2new'abab (Times (Copy (T 122)) (-2) 1);
  (*2172*) Del (T 122);
  (*2173*) AddTo n_t2new'abab (Times (Einsum [(n_v'aaaa'ooov,[0;1;2;3]); (n_t3'abaaba,[1;4;2;5;6;3])] [0;4;5;6]) (-2) 1);
  (*2174*) AddTo n_t2new'abab (Times (Einsum [(n_v'aabb'oooo,[0;1;2;3]); (n_t2'abab,[1;3;4;5])] [0;2;4;5]) (1) 2);
  (*2175*) AddTo n_t2new'abab (Plain (Einsum [(n_t3'babbab,[0;1;2;3;4;5]); (T 17,[2;5])] [1;0;4;3]));
  (*2176*) AddTo n_t2new'abab (Times (Einsum [(T 10,[0;1]); (n_t3'abaaba,[2;3;0;4;5;1])] [2;3;4;5]) (2) 1);
  (*2177*) AddTo n_t2new'abab (Times (Einsum [(T 125,[0;1]); (n_t2'abab,[2;3;4;1])] [2;3;4;0]) (-2) 1);
  (*2178*) Del (T 125);
  (*2179*) AddTo n_t2new'abab (Times (Einsum [(T 40,[0;1]); (n_t2'abab,[0;2;3;4])] [1;2;3;4]) (-1) 1);
  (*2180*) Del (T 40);
  (*2181*) AddTo n_t2new'abab (Times (Copy (T 126)) (2) 1);
  (*2182*) Del (T 126);
  (*2183*) AddTo n_t2new'abab (Plain (Einsum [(n_v'aaaa'ovov,[0;1;2;3]); (n_t2'abab,[2;4;3;5])] [0;4;1;5]));
  (*2184*) AddTo n_t2new'abab (Times (Einsum [(n_t3'abaaba,[0;1;2;3;4;5]); (T 127,[2;6;5;3])] [0;1;6;4]) (-2) 1);
  (*2185*) Del (T 127);
  (*2186*) AddTo n_t2new'abab (Times (Einsum [(T 56,[0;1;2;3]); (n_t3'babbab,[4;5;0;6;1;3])] [5;4;2;6]) (2) 1);
  (*2187*) Del (T 56);
  (*2188*) AddTo n_t2new'abab (Times (Einsum [(T 62,[0;1]); (n_t2'abab,[2;3;0;4])] [2;3;1;4]) (-1) 1);
  (*2189*) AddTo n_t2new'abab (Times (Einsum [(n_t3'babbab,[0;1;2;3;4;5]); (T 129,[2;6;3;5])] [1;0;4;6]) (2) 1);
  (*2190*) Del (T 129);
  (*2191*) AddTo n_t2new'abab (Times (Einsum [(n_t3'abaaba,[0;1;2;3;4;5]); (T 131,[2;5;4;6])] [0;1;3;6]) (2) 1);
  (*2192*) Del (T 131);
  (*2193*) AddTo n_t2new'abab (Plain (Einsum [(n_t2'abab,[0;1;2;3]); (T 134,[3;4])] [0;1;2;4]));
  (*2194*) Del (T 134);
  (*2195*) AddTo n_t2new'abab (Plain (Einsum [(T 49,[0;1]); (n_t3'babbab,[2;3;0;4;5;1])] [3;2;5;4]));
  (*2196*) AddTo n_t2new'abab (Times (Copy (T 135)) (-2) 1);
  (*2197*) Del (T 135);
  (*2198*) AddTo n_t2new'abab (Times (Einsum [(T 23,[0;1;2;3]); (n_t3'abaaba,[4;2;0;5;6;3])] [4;1;5;6]) (-2) 1);
  (*2199*) AddTo n_t2new'abab (Times (Einsum [(n_t2'abab,[0;1;2;3]); (T 28,[1;4])] [0;4;2;3]) (-1) 1);
  (*2200*) AddTo n_t2new'abab (Plain (Einsum [(T 4,[0;1;2;3]); (T 136,[0;4;5;1])] [4;5;2;3]));
  (*2201*) Del (T 136);
  (*2202*) AddTo n_t2new'abab (Times (Einsum [(T 3,[0;1;2;3]); (n_t3'abaaba,[2;4;1;5;6;3])] [0;4;5;6]) (-2) 1);
  (*2203*) AddTo n_t2new'abab (Times (Einsum [(n_t1'bb,[0;1]); (T 137,[2;3;0;4])] [2;3;4;1]) (-1) 1);
  (*2204*) Del (T 137);
  (*2205*) AddTo n_t2new'abab (Times (Copy (T 138)) (-2) 1);
  (*2206*) Del (T 138);
  (*2207*) AddTo n_t2new'abab (Times (Einsum [(T 12,[0;1]); (n_t2'abab,[0;2;3;4])] [1;2;3;4]) (-1) 1);
  (*2208*) AddTo n_t2new'abab (Plain (Einsum [(T 4,[0;1;2;3]); (T 139,[4;0;1;5])] [4;5;2;3]));
  (*2209*) Del (T 139);
  (*2210*) AddTo n_t2new'abab (Times (Copy (T 140)) (-1) 1);
  (*2211*) Del (T 140);
  (*2212*) AddTo n_t2new'abab (Plain (Copy (T 141)));
  (*2213*) Del (T 141);
  (*2214*) AddTo n_t2new'abab (Plain (Transpose n_v'aabb'ovov [0;2;1;3]));
  (*2215*) AddTo n_t2new'abab (Times (Einsum [(T 144,[0;1;2;3]); (n_t2'abab,[4;1;2;5])] [4;0;3;5]) (-1) 1);
  (*2216*) Del (T 144);
  (*2217*) AddTo n_t2new'abab (Times (Copy (T 145)) (-1) 1);
  (*2218*) Del (T 145);
  (*2219*) AddTo n_t2new'abab (Plain (Einsum [(T 147,[0;1;2;3]); (n_t2'abab,[4;0;2;5])] [4;1;3;5]));
  (*2220*) Del (T 147);
  (*2221*) AddTo n_t2new'abab (Times (Copy (T 96)) (-1) 1);
  (*2222*) Del (T 96);
  (*2223*) AddTo n_t2new'abab (Times (Einsum [(T 149,[0;1;2;3]); (n_t2'abab,[0;4;5;2])] [1;4;5;3]) (-1) 1);
  (*2224*) Del (T 149);
  (*2225*) AddTo n_t2new'abab (Times (Einsum [(n_t1'bb,[0;1]); (T 150,[2;3;0;4])] [2;3;4;1]) (-1) 1);
  (*2226*) Del (T 150);
  (*2227*) AddTo n_t2new'abab (Plain (Einsum [(T 152,[0;1;2;3]); (n_t1'aa,[4;1])] [4;0;2;3]));
  (*2228*) Del (T 152);
  (*2229*) AddTo n_t2new'abab (Plain (Einsum [(T 4,[0;1;2;3]); (T 153,[4;0;5;1])] [4;5;2;3]));
  (*2230*) Del (T 153);
  (*2231*) AddTo n_t2new'abab (Times (Einsum [(T 154,[0;1;2;3]); (n_t2'abab,[0;4;2;5])] [1;4;3;5]) (-1) 1);
  (*2232*) Del (T 154);
  (*2233*) AddTo n_t2new'abab (Times (Einsum [(T 156,[0;1;2;3]); (n_t2'bbbb,[4;1;5;3])] [0;4;2;5]) (2) 1);
  (*2234*) Del (T 156);
  (*2235*) AddTo n_t2new'abab (Times (Copy (T 155)) (2) 1);
  (*2236*) Del (T 155);
  (*2237*) AddTo n_t2new'abab (Plain (Einsum [(n_t2'abab,[0;1;2;3]); (n_v'bbbb'ovov,[4;5;1;3])] [0;4;2;5]));
  (*2238*) AddTo n_t2new'abab (Times (Einsum [(n_t1'bb,[0;1]); (T 157,[2;3;0;4])] [2;3;4;1]) (-2) 1);
  (*2239*) Del (T 157);
  (*2240*) AddTo n_t2new'abab (Times (Einsum [(T 159,[0;1;2;3]); (n_t2'abab,[4;0;5;2])] [4;1;5;3]) (-1) 1);
  (*2241*) Del (T 159);
  (*2242*) AddTo n_t2new'abab (Plain (Einsum [(n_t2'abab,[0;1;2;3]); (T 160,[4;0;5;1])] [4;5;2;3]));
  (*2243*) Del (T 160);
  (*2244*) AddTo n_t2new'abab (Plain (Einsum [(T 162,[0;1;2;3]); (n_t2'abab,[4;5;0;2])] [4;5;1;3]));
  (*2245*) Del (T 162);
  (*2246*) AddTo n_t2new'abab (Plain (Einsum [(T 164,[0;1;2;3]); (n_t2'abab,[1;4;2;5])] [0;4;3;5]));
  (*2247*) Del (T 164);
  (*2248*) AddTo n_t2new'abab (Times (Einsum [(T 88,[0;1;2;3]); (n_t2'bbbb,[4;1;5;3])] [0;4;2;5]) (2) 1);
  (*2249*) Del (T 88);
  (*2250*) AddTo n_t2new'abab (Plain (Einsum [(n_t2'abab,[0;1;2;3]); (T 168,[4;1;3;5])] [0;4;2;5]));
  (*2251*) Del (T 168);
  (*2252*) AddTo n_t2new'abab (Times (Einsum [(n_t2'aaaa,[0;1;2;3]); (T 169,[1;4;3;5])] [0;4;2;5]) (2) 1);
  (*2253*) Del (T 169);
  (*2254*) AddTo n_t2new'abab (Times (Copy (T 79)) (-1) 1);
  (*2255*) Del (T 79);
  (*2256*) AddTo n_t2new'abab (Times (Einsum [(T 172,[0;1;2;3]); (n_t2'abab,[1;4;5;2])] [0;4;5;3]) (-1) 1);
  (*2257*) Del (T 172);
  (*2258*) AddTo n_t2new'abab (Times (Einsum [(T 173,[0;1;2;3]); (n_t1'aa,[1;4])] [0;2;4;3]) (-1) 1);
  (*2259*) Del (T 173);
  (*2260*) AddTo n_t2new'abab (Times (Einsum [(T 174,[0;1;2;3]); (n_t1'aa,[1;4])] [0;2;4;3]) (-1) 1);
  (*2261*) Del (T 174);
  (*2262*) AddTo n_t2new'abab (Times (Einsum [(n_t1'aa,[0;1]); (T 175,[2;0;3;4])] [2;3;1;4]) (-1) 1);
  (*2263*) Del (T 175);
  (*2264*) Assign n_t2new'aaaa (Times (Transpose (T 34) [0;1;3;2]) (6) 1);
  (*2265*) AddTo n_t2new'aaaa (Times (Transpose (T 35) [0;1;3;2]) (2) 1);
  (*2266*) AddTo n_t2new'aaaa (Times (Einsum [(T 21,[0;1]); (n_t2'aaaa,[2;0;3;4])] [2;1;3;4]) (-1) 1);
  (*2267*) AddTo n_t2new'aaaa (Times (Einsum [(T 36,[0;1;2;3]); (n_v'aaaa'oooo,[4;1;5;0])] [4;5;3;2]) (1) 2);
  (*2268*) Del (T 36);
  (*2269*) AddTo n_t2new'aaaa (Plain (Transpose (T 37) [1;0;3;2]));
  (*2270*) Del (T 37);
  (*2271*) AddTo n_t2new'aaaa (Times (Transpose (T 41) [0;1;3;2]) (-1) 1);
  (*2272*) AddTo n_t2new'aaaa (Times (Transpose (T 34) [1;0;3;2]) (-6) 1);
  (*2273*) Del (T 34);
  (*2274*) AddTo n_t2new'aaaa (Times (Transpose (T 35) [1;0;3;2]) (-2) 1);
  (*2275*) Del (T 35);
  (*2276*) AddTo n_t2new'aaaa (Plain (Einsum [(T 17,[0;1]); (n_t3'abaaba,[2;0;3;4;1;5])] [2;3;4;5]));
  (*2277*) AddTo n_t2new'aaaa (Times (Copy (T 42)) (2) 1);
  (*2278*) Del (T 42);
  (*2279*) AddTo n_t2new'aaaa (Times (Einsum [(n_t2'aaaa,[0;1;2;3]); (T 45,[4;3])] [0;1;2;4]) (-2) 1);
  (*2280*) Del (T 45);
  (*2281*) AddTo n_t2new'aaaa (Times (Transpose (T 41) [1;0;3;2]) (2) 1);
  (*2282*) Del (T 41);
  (*2283*) AddTo n_t2new'aaaa (Times (Einsum [(n_v'aaaa'oooo,[0;1;2;3]); (T 46,[3;1;4;5])] [0;2;5;4]) (-1) 2);
  (*2284*) Del (T 46);
  (*2285*) AddTo n_t2new'aaaa (Plain (Einsum [(T 49,[0;1]); (n_t3'abaaba,[2;0;3;4;1;5])] [2;3;4;5]));
  (*2286*) Del (T 49);
  (*2287*) AddTo n_t2new'aaaa (Plain (Transpose (T 50) [1;0;3;2]));
  (*2288*) AddTo n_t2new'aaaa (Times (Transpose (T 51) [1;0;3;2]) (2) 1);
  (*2289*) AddTo n_t2new'aaaa (Plain (Transpose (T 54) [0;1;3;2]));
  (*2290*) AddTo n_t2new'aaaa (Times (Transpose (T 57) [1;0;3;2]) (-1) 1);
  (*2291*) AddTo n_t2new'aaaa (Times (Einsum [(T 62,[0;1]); (n_t2'aaaa,[2;3;4;0])] [2;3;1;4]) (2) 1);
  (*2292*) Del (T 62);
  (*2293*) AddTo n_t2new'aaaa (Times (Transpose (T 50) [1;0;2;3]) (-1) 1);
  (*2294*) AddTo n_t2new'aaaa (Times (Transpose (T 51) [1;0;2;3]) (-2) 1);
  (*2295*) AddTo n_t2new'aaaa (Times (Copy (T 54)) (-1) 1);
  (*2296*) Del (T 54);
  (*2297*) AddTo n_t2new'aaaa (Plain (Transpose (T 57) [1;0;2;3]));
  (*2298*) Del (T 57);
  (*2299*) AddTo n_t2new'aaaa (Times (Einsum [(T 63,[0;1]); (n_t2'aaaa,[2;3;4;0])] [2;3;4;1]) (-2) 1);
  (*2300*) Del (T 63);
  (*2301*) AddTo n_t2new'aaaa (Times (Transpose (T 64) [1;0;3;2]) (6) 1);
  (*2302*) AddTo n_t2new'aaaa (Times (Transpose (T 66) [1;0;3;2]) (-2) 1);
  (*2303*) AddTo n_t2new'aaaa (Plain (Transpose (T 68) [1;0;3;2]));
  (*2304*) AddTo n_t2new'aaaa (Times (Transpose (T 69) [1;0;3;2]) (2) 1);
  (*2305*) AddTo n_t2new'aaaa (Plain (Transpose (T 71) [1;0;2;3]));
  (*2306*) AddTo n_t2new'aaaa (Times (Transpose (T 71) [1;0;3;2]) (-1) 1);
  (*2307*) AddTo n_t2new'aaaa (Times (Transpose (T 73) [0;1;3;2]) (-2) 1);
  (*2308*) AddTo n_t2new'aaaa (Times (Transpose (T 68) [1;0;2;3]) (-1) 1);
  (*2309*) AddTo n_t2new'aaaa (Times (Transpose (T 64) [0;1;3;2]) (-6) 1);
  (*2310*) Del (T 64);
  (*2311*) AddTo n_t2new'aaaa (Times (Transpose (T 66) [0;1;3;2]) (2) 1);
  (*2312*) Del (T 66);
  (*2313*) AddTo n_t2new'aaaa (Times (Transpose (T 68) [0;1;3;2]) (-1) 1);
  (*2314*) AddTo n_t2new'aaaa (Times (Transpose (T 69) [0;1;3;2]) (-2) 1);
  (*2315*) Del (T 69);
  (*2316*) AddTo n_t2new'aaaa (Times (Copy (T 71)) (-1) 1);
  (*2317*) AddTo n_t2new'aaaa (Plain (Transpose (T 71) [0;1;3;2]));
  (*2318*) Del (T 71);
  (*2319*) AddTo n_t2new'aaaa (Times (Transpose (T 73) [1;0;3;2]) (2) 1);
  (*2320*) Del (T 73);
  (*2321*) AddTo n_t2new'aaaa (Plain (Copy (T 68)));
  (*2322*) Del (T 68);
  (*2323*) AddTo n_t2new'aaaa (Times (Transpose (T 74) [1;0;3;2]) (-1) 1);
  (*2324*) AddTo n_t2new'aaaa (Plain (Transpose n_v'aaaa'ovov [0;2;1;3]));
  (*2325*) AddTo n_t2new'aaaa (Plain (Transpose (T 75) [1;0;2;3]));
  (*2326*) AddTo n_t2new'aaaa (Times (Einsum [(n_t2'aaaa,[0;1;2;3]); (T 77,[4;1;5;3])] [0;4;5;2]) (2) 1);
  (*2327*) Del (T 77);
  (*2328*) AddTo n_t2new'aaaa (Plain (Transpose (T 81) [0;1;3;2]));
  (*2329*) AddTo n_t2new'aaaa (Plain (Transpose (T 74) [0;1;3;2]));
  (*2330*) AddTo n_t2new'aaaa (Times (Transpose n_v'aaaa'ovov [0;2;3;1]) (-1) 1);
  (*2331*) AddTo n_t2new'aaaa (Times (Copy (T 75)) (-1) 1);
  (*2332*) AddTo n_t2new'aaaa (Times (Transpose (T 87) [1;0;3;2]) (-2) 1);
  (*2333*) AddTo n_t2new'aaaa (Plain (Transpose (T 89) [1;0;3;2]));
  (*2334*) AddTo n_t2new'aaaa (Plain (Transpose (T 90) [0;1;3;2]));
  (*2335*) AddTo n_t2new'aaaa (Times (Copy (T 91)) (2) 1);
  (*2336*) AddTo n_t2new'aaaa (Times (Transpose (T 91) [1;0;3;2]) (2) 1);
  (*2337*) AddTo n_t2new'aaaa (Times (Einsum [(n_t2'aaaa,[0;1;2;3]); (T 95,[4;1;5;3])] [4;0;5;2]) (-2) 1);
  (*2338*) Del (T 95);
  (*2339*) AddTo n_t2new'aaaa (Times (Einsum [(n_t2'abab,[0;1;2;3]); (T 98,[4;1;5;3])] [4;0;5;2]) (-1) 1);
  (*2340*) Del (T 98);
  (*2341*) AddTo n_t2new'aaaa (Times (Transpose (T 90) [1;0;3;2]) (-1) 1);
  (*2342*) AddTo n_t2new'aaaa (Times (Transpose (T 91) [0;1;3;2]) (-2) 1);
  (*2343*) AddTo n_t2new'aaaa (Times (Transpose (T 91) [1;0;2;3]) (-2) 1);
  (*2344*) Del (T 91);
  (*2345*) AddTo n_t2new'aaaa (Times (Einsum [(n_t2'aaaa,[0;1;2;3]); (T 100,[4;1;5;3])] [0;4;5;2]) (4) 1);
  (*2346*) Del (T 100);
  (*2347*) AddTo n_t2new'aaaa (Plain (Einsum [(T 102,[0;1;2;3]); (n_t2'abab,[4;1;5;3])] [4;0;2;5]));
  (*2348*) Del (T 102);
  (*2349*) AddTo n_t2new'aaaa (Times (Copy (T 90)) (-1) 1);
  (*2350*) AddTo n_t2new'aaaa (Plain (Transpose (T 104) [1;0;3;2]));
  (*2351*) AddTo n_t2new'aaaa (Times (Transpose (T 106) [1;0;2;3]) (2) 1);
  (*2352*) AddTo n_t2new'aaaa (Plain (Transpose (T 90) [1;0;2;3]));
  (*2353*) Del (T 90);
  (*2354*) AddTo n_t2new'aaaa (Times (Transpose (T 104) [0;1;3;2]) (-1) 1);
  (*2355*) Del (T 104);
  (*2356*) AddTo n_t2new'aaaa (Times (Copy (T 106)) (-2) 1);
  (*2357*) Del (T 106);
  (*2358*) AddTo n_t2new'aaaa (Times (Transpose (T 108) [0;1;3;2]) (-2) 1);
  (*2359*) Del (T 108);
  (*2360*) AddTo n_t2new'aaaa (Plain (Transpose (T 75) [0;1;3;2]));
  (*2361*) AddTo n_t2new'aaaa (Plain (Copy (T 110)));
  (*2362*) AddTo n_t2new'aaaa (Times (Transpose (T 110) [0;1;3;2]) (-1) 1);
  (*2363*) Del (T 110);
  (*2364*) AddTo n_t2new'aaaa (Plain (Copy (T 112)));
  (*2365*) AddTo n_t2new'aaaa (Times (Transpose (T 112) [0;1;3;2]) (-1) 1);
  (*2366*) Del (T 112);
  (*2367*) AddTo n_t2new'aaaa (Plain (Transpose (T 114) [0;1;3;2]));
  (*2368*) AddTo n_t2new'aaaa (Times (Transpose (T 114) [1;0;3;2]) (-1) 1);
  (*2369*) AddTo n_t2new'aaaa (Times (Transpose (T 116) [0;1;3;2]) (-2) 1);
  (*2370*) Del (T 116);
  (*2371*) AddTo n_t2new'aaaa (Times (Transpose (T 75) [1;0;3;2]) (-1) 1);
  (*2372*) Del (T 75);
  (*2373*) AddTo n_t2new'aaaa (Times (Einsum [(n_t2'aaaa,[0;1;2;3]); (T 118,[2;4;5;3])] [0;1;5;4]) (-2) 1);
  (*2374*) Del (T 118);
  (*2375*) AddTo n_t2new'aaaa (Times (Transpose (T 50) [0;1;3;2]) (-1) 1);
  (*2376*) AddTo n_t2new'aaaa (Times (Transpose (T 51) [0;1;3;2]) (-2) 1);
  (*2377*) AddTo n_t2new'aaaa (Plain (Copy (T 50)));
  (*2378*) Del (T 50);
  (*2379*) AddTo n_t2new'aaaa (Times (Copy (T 51)) (2) 1);
  (*2380*) Del (T 51);
  (*2381*) AddTo n_t2new'aaaa (Plain (Transpose (T 74) [1;0;2;3]));
  (*2382*) AddTo n_t2new'aaaa (Times (Copy (T 87)) (-2) 1);
  (*2383*) AddTo n_t2new'aaaa (Times (Copy (T 81)) (-1) 1);
  (*2384*) Del (T 81);
  (*2385*) AddTo n_t2new'aaaa (Times (Copy (T 74)) (-1) 1);
  (*2386*) Del (T 74);
  (*2387*) AddTo n_t2new'aaaa (Times (Transpose (T 87) [1;0;2;3]) (2) 1);
  (*2388*) Del (T 87);
  (*2389*) AddTo n_t2new'aaaa (Times (Transpose (T 89) [1;0;2;3]) (-1) 1);
  (*2390*) Del (T 89);
  (*2391*) AddTo n_t2new'aaaa (Times (Einsum [(T 119,[0;1;2;3]); (n_t1'aa,[2;4])] [0;1;4;3]) (-2) 1);
  (*2392*) Del (T 119);
  (*2393*) AddTo n_t2new'aaaa (Times (Copy (T 114)) (-1) 1);
  (*2394*) AddTo n_t2new'aaaa (Plain (Transpose (T 114) [1;0;2;3]));
  (*2395*) Del (T 114);
  (*2396*) Assign n_t1new'bb (Plain (Einsum [(n_t1'bb,[0;1]); (n_v'bbbb'ovov,[2;3;0;1])] [2;3]));
  (*2397*) AddTo n_t1new'bb (Times (Einsum [(T 22,[0;1;2;3]); (n_t2'bbbb,[1;2;4;3])] [0;4]) (2) 1);
  (*2398*) Del (T 22);
  (*2399*) AddTo n_t1new'bb (Plain (Copy n_f'bb'ov));
  (*2400*) AddTo n_t1new'bb (Plain (Copy (T 14)));
  (*2401*) Del (T 14);
  (*2402*) AddTo n_t1new'bb (Times (Einsum [(n_t2'abab,[0;1;2;3]); (T 23,[0;4;1;2])] [4;3]) (-1) 1);
  (*2403*) Del (T 23);
  (*2404*) AddTo n_t1new'bb (Times (Einsum [(n_v'bbbb'ovvv,[0;1;2;3]); (T 24,[0;4;3;1])] [4;2]) (-1) 1);
  (*2405*) Del (T 24);
  (*2406*) AddTo n_t1new'bb (Plain (Einsum [(n_v'aabb'ovvv,[0;1;2;3]); (T 4,[0;4;1;3])] [4;2]));
  (*2407*) AddTo n_t1new'bb (Times (Einsum [(n_t1'bb,[0;1]); (T 28,[0;2])] [2;1]) (-1) 1);
  (*2408*) Del (T 28);
  (*2409*) AddTo n_t1new'bb (Plain (Einsum [(T 29,[0;1]); (n_t1'bb,[2;0])] [2;1]));
  (*2410*) Del (T 29);
  (*2411*) AddTo n_t1new'bb (Times (Einsum [(n_t2'abab,[0;1;2;3]); (n_v'aabb'ovoo,[0;2;4;1])] [4;3]) (-1) 1);
  (*2412*) AddTo n_t1new'bb (Times (Einsum [(n_t1'bb,[0;1]); (n_v'bbbb'oovv,[2;0;3;1])] [2;3]) (-1) 1);
  (*2413*) AddTo n_t1new'bb (Times (Einsum [(n_t3'bbbbbb,[0;1;2;3;4;5]); (n_v'bbbb'ovov,[1;5;2;4])] [0;3]) (-3) 1);
  (*2414*) AddTo n_t1new'bb (Times (Einsum [(n_v'aaaa'ovov,[0;1;2;3]); (n_t3'abaaba,[0;4;2;3;5;1])] [4;5]) (-1) 1);
  (*2415*) AddTo n_t1new'bb (Times (Einsum [(n_v'bbbb'ooov,[0;1;2;3]); (n_t2'bbbb,[2;1;4;3])] [0;4]) (2) 1);
  (*2416*) AddTo n_t1new'bb (Times (Einsum [(n_t3'babbab,[0;1;2;3;4;5]); (n_v'aabb'ovov,[1;4;2;5])] [0;3]) (2) 1);
  (*2417*) AddTo n_t1new'bb (Plain (Einsum [(n_t2'abab,[0;1;2;3]); (T 10,[0;2])] [1;3]));
  (*2418*) AddTo n_t1new'bb (Times (Einsum [(n_t2'bbbb,[0;1;2;3]); (T 17,[1;3])] [0;2]) (2) 1);
  (*2419*) AddTo n_t1new'bb (Times (Einsum [(n_t1'bb,[0;1]); (T 33,[0;2])] [2;1]) (-1) 1);
  (*2420*) Del (T 33);
  (*2421*) Assign n_t1new'aa (Plain (Copy (T 1)));
  (*2422*) Del (T 1);
  (*2423*) AddTo n_t1new'aa (Times (Einsum [(T 2,[0;1;2;3]); (n_t2'abab,[1;2;4;3])] [0;4]) (-1) 1);
  (*2424*) Del (T 2);
  (*2425*) AddTo n_t1new'aa (Times (Einsum [(T 3,[0;1;2;3]); (n_t2'aaaa,[2;1;4;3])] [0;4]) (-2) 1);
  (*2426*) Del (T 3);
  (*2427*) AddTo n_t1new'aa (Plain (Copy n_f'aa'ov));
  (*2428*) AddTo n_t1new'aa (Plain (Einsum [(n_v'aaaa'ovov,[0;1;2;3]); (n_t1'aa,[2;3])] [0;1]));
  (*2429*) AddTo n_t1new'aa (Plain (Einsum [(T 4,[0;1;2;3]); (n_v'aabb'vvov,[4;2;1;3])] [0;4]));
  (*2430*) Del (T 4);
  (*2431*) AddTo n_t1new'aa (Plain (Einsum [(T 5,[0;1;2;3]); (n_v'aaaa'ovvv,[0;2;4;3])] [1;4]));
  (*2432*) Del (T 5);
  (*2433*) AddTo n_t1new'aa (Times (Einsum [(T 12,[0;1]); (n_t1'aa,[0;2])] [1;2]) (-1) 1);
  (*2434*) Del (T 12);
  (*2435*) AddTo n_t1new'aa (Plain (Einsum [(T 13,[0;1]); (n_t1'aa,[2;0])] [2;1]));
  (*2436*) Del (T 13);
  (*2437*) AddTo n_t1new'aa (Times (Einsum [(n_t3'abaaba,[0;1;2;3;4;5]); (n_v'aabb'ovov,[2;5;1;4])] [0;3]) (2) 1);
  (*2438*) AddTo n_t1new'aa (Times (Einsum [(n_v'aabb'ooov,[0;1;2;3]); (n_t2'abab,[1;2;4;3])] [0;4]) (-1) 1);
  (*2439*) AddTo n_t1new'aa (Times (Einsum [(n_t3'aaaaaa,[0;1;2;3;4;5]); (n_v'aaaa'ovov,[1;5;2;4])] [0;3]) (-3) 1);
  (*2440*) AddTo n_t1new'aa (Times (Einsum [(n_v'aaaa'ooov,[0;1;2;3]); (n_t2'aaaa,[1;2;4;3])] [0;4]) (-2) 1);
  (*2441*) AddTo n_t1new'aa (Plain (Einsum [(n_t3'babbab,[0;1;2;3;4;5]); (n_v'bbbb'ovov,[0;3;2;5])] [1;4]));
  (*2442*) AddTo n_t1new'aa (Times (Einsum [(n_v'aaaa'oovv,[0;1;2;3]); (n_t1'aa,[1;3])] [0;2]) (-1) 1);
  (*2443*) AddTo n_t1new'aa (Plain (Einsum [(n_t2'abab,[0;1;2;3]); (T 17,[1;3])] [0;2]));
  (*2444*) Del (T 17);
  (*2445*) AddTo n_t1new'aa (Times (Einsum [(T 10,[0;1]); (n_t2'aaaa,[2;0;3;1])] [2;3]) (2) 1);
  (*2446*) Del (T 10);
  (*2447*) AddTo n_t1new'aa (Times (Einsum [(T 21,[0;1]); (n_t1'aa,[0;2])] [1;2]) (-1) 1);
  (*2448*) Del (T 21)]
 [(n_t1new'bb,[6;7]); (n_t1new'aa,[4;5]); (n_t2new'bbbb,[6;6;7;7]); (n_t2new'abab,[4;6;5;7]); (n_t2new'aaaa,[4;4;5;5]); (n_t3new'bbbbbb,[6;6;6;7;7;7]); (n_t3new'babbab,[6;4;6;7;5;7]); (n_t3new'abaaba,[4;6;4;5;7;5]); (n_t3new'aaaaaa,[4;4;4;5;5;5])].

