(** Generated by tools/translate_codegen.py from ebcc/codegen/UDCSD.py; one statement per source line
    (the number in the comment before it). *)
From Coq Require Import ZArith List.
From Verif Require Import CgModel CgNames.
Import ListNotations.

(** ebcc/codegen/UDCSD.py:19-59 [energy] *)
Definition UDCSD_energy : prog := mkprog
 [(n_v'bbbb'ovov,[6;7;6;7]); (n_v'aaaa'ovov,[4;5;4;5]); (n_f'bb'ov,[6;7]); (n_t1'aa,[4;5]); (n_v'aabb'ovov,[4;5;6;7]); (n_t1'bb,[6;7]); (n_f'aa'ov,[4;5]); (n_t2'bbbb,[6;6;7;7]); (n_t2'abab,[4;6;5;7]); (n_t2'aaaa,[4;4;5;5])]
 [(*40*) Assign (T 1) (Plain (Transpose n_v'bbbb'ovov [0;2;3;1]));
  (*41*) AddTo (T 1) (Times (Transpose n_v'bbbb'ovov [0;2;1;3]) (-1) 1);
  (*42*) Assign (T 3) (Times (Transpose n_v'aaaa'ovov [0;2;3;1]) (-1) 1);
  (*43*) AddTo (T 3) (Plain (Transpose n_v'aaaa'ovov [0;2;1;3]));
  (*44*) Assign (T 2) (Plain (Copy n_f'bb'ov));
  (*45*) AddTo (T 2) (Plain (Einsum [(n_t1'aa,[0;1]); (n_v'aabb'ovov,[0;1;2;3])] [2;3]));
  (*46*) AddTo (T 2) (Times (Einsum [(T 1,[0;1;2;3]); (n_t1'bb,[0;2])] [1;3]) (-1) 2);
  (*47*) Del (T 1);
  (*48*) Assign (T 4) (Times (Copy n_f'aa'ov) (2) 1);
  (*49*) AddTo (T 4) (Times (Einsum [(T 3,[0;1;2;3]); (n_t1'aa,[0;3])] [1;2]) (-1) 1);
  (*50*) Del (T 3);
  (*51*) Assign n_e_cc (Plain (Einsum [(n_t2'bbbb,[0;1;2;3]); (n_v'bbbb'ovov,[0;2;1;3])] []));
  (*52*) AddTo n_e_cc (Plain (Einsum [(n_t2'abab,[0;1;2;3]); (n_v'aabb'ovov,[0;2;1;3])] []));
  (*53*) AddTo n_e_cc (Times (Einsum [(n_v'aaaa'ovov,[0;1;2;3]); (n_t2'aaaa,[0;2;3;1])] []) (-1) 1);
  (*54*) AddTo n_e_cc (Plain (Einsum [(T 2,[0;1]); (n_t1'bb,[0;1])] []));
  (*55*) Del (T 2);
  (*56*) AddTo n_e_cc (Times (Einsum [(n_t1'aa,[0;1]); (T 4,[0;1])] []) (1) 2);
  (*57*) Del (T 4)]
 [(n_e_cc,[])].

(** ebcc/codegen/UDCSD.py:61-784 [update_amps] *)
Definition UDCSD_update_amps : prog := mkprog
 [(n_v'bbbb'ovov,[6;7;6;7]); (n_v'aaaa'ovov,[4;5;4;5]); (n_t1'bb,[6;7]); (n_t1'aa,[4;5]); (n_v'aabb'ovov,[4;5;6;7]); (n_v'bbbb'ooov,[6;6;6;7]); (n_v'bbbb'ovoo,[6;7;6;6]); (n_v'bbbb'ovvv,[6;7;7;7]); (n_f'bb'ov,[6;7]); (n_v'aaaa'ooov,[4;4;4;5]); (n_v'aaaa'ovoo,[4;5;4;4]); (n_v'aaaa'ovvv,[4;5;5;5]); (n_f'aa'ov,[4;5]); (n_t2'bbbb,[6;6;7;7]); (n_v'aabb'ovvv,[4;5;7;7]); (n_v'aabb'ovoo,[4;5;6;6]); (n_t2'abab,[4;6;5;7]); (n_t2'aaaa,[4;4;5;5]); (n_v'aabb'ooov,[4;4;6;7]); (n_v'aabb'vvov,[5;5;6;7]); (n_v'bbbb'oovv,[6;6;7;7]); (n_v'bbbb'vvvv,[7;7;7;7]); (n_f'bb'vv,[7;7]); (n_f'bb'oo,[6;6]); (n_f'aa'oo,[4;4]); (n_f'aa'vv,[5;5]); (n_v'aaaa'oooo,[4;4;4;4]); (n_v'aaaa'vvvv,[5;5;5;5]); (n_v'aaaa'oovv,[4;4;5;5]); (n_v'bbbb'oooo,[6;6;6;6]); (n_v'aabb'vvoo,[5;5;6;6]); (n_v'aabb'oovv,[4;4;7;7]); (n_v'aabb'vvvv,[5;5;7;7]); (n_v'aabb'oooo,[4;4;6;6])]
 [(*86*) Assign (T 15) (Plain (Transpose n_v'bbbb'ovov [0;2;3;1]));
  (*87*) AddTo (T 15) (Times (Transpose n_v'bbbb'ovov [0;2;1;3]) (-1) 1);
  (*88*) Assign (T 8) (Times (Transpose n_v'aaaa'ovov [0;2;3;1]) (-1) 1);
  (*89*) AddTo (T 8) (Plain (Transpose n_v'aaaa'ovov [0;2;1;3]));
  (*90*) Assign (T 23) (Plain (Einsum [(n_t1'bb,[0;1]); (n_v'bbbb'ovov,[2;3;4;1])] [0;2;4;3]));
  (*91*) Assign (T 16) (Plain (Einsum [(T 15,[0;1;2;3]); (n_t1'bb,[0;2])] [1;3]));
  (*92*) Del (T 15);
  (*93*) Assign (T 14) (Plain (Einsum [(n_t1'aa,[0;1]); (n_v'aabb'ovov,[0;1;2;3])] [2;3]));
  (*94*) Assign (T 153) (Plain (Transpose n_v'bbbb'ovov [0;2;3;1]));
  (*95*) AddTo (T 153) (Times (Transpose n_v'bbbb'ovov [0;2;1;3]) (-1) 1);
  (*96*) Assign (T 9) (Plain (Einsum [(T 8,[0;1;2;3]); (n_t1'aa,[0;3])] [1;2]));
  (*97*) Del (T 8);
  (*98*) Assign (T 3) (Plain (Einsum [(n_v'aabb'ovov,[0;1;2;3]); (n_t1'bb,[2;3])] [0;1]));
  (*99*) Assign (T 1) (Plain (Einsum [(n_t1'aa,[0;1]); (n_v'aaaa'ovov,[2;3;4;1])] [0;2;4;3]));
  (*100*) Assign (T 54) (Times (Transpose n_v'aaaa'ovov [0;2;3;1]) (-1) 1);
  (*101*) AddTo (T 54) (Plain (Transpose n_v'aaaa'ovov [0;2;1;3]));
  (*102*) Assign (T 174) (Plain (Copy n_v'bbbb'ooov));
  (*103*) AddTo (T 174) (Times (Transpose n_v'bbbb'ovoo [0;2;3;1]) (-1) 1);
  (*104*) Assign (T 22) (Plain (Einsum [(n_v'aabb'ovov,[0;1;2;3]); (n_t1'bb,[4;3])] [0;4;2;1]));
  (*105*) Assign (T 165) (Plain (Copy n_v'bbbb'ovvv));
  (*106*) AddTo (T 165) (Times (Transpose n_v'bbbb'ovvv [0;2;1;3]) (-1) 1);
  (*107*) Assign (T 167) (Times (Copy (T 23)) (-1) 1);
  (*108*) AddTo (T 167) (Plain (Transpose (T 23) [0;2;1;3]));
  (*109*) Assign (T 104) (Plain (Copy n_v'bbbb'ovvv));
  (*110*) AddTo (T 104) (Times (Transpose n_v'bbbb'ovvv [0;2;3;1]) (-1) 1);
  (*111*) Assign (T 17) (Plain (Copy n_f'bb'ov));
  (*112*) AddTo (T 17) (Plain (Copy (T 14)));
  (*113*) AddTo (T 17) (Times (Copy (T 16)) (-1) 1);
  (*114*) Del (T 16);
  (*115*) Assign (T 154) (Plain (Einsum [(T 153,[0;1;2;3]); (n_t1'bb,[0;2])] [1;3]));
  (*116*) Del (T 153);
  (*117*) Assign (T 30) (Times (Copy n_v'bbbb'ooov) (-1) 1);
  (*118*) AddTo (T 30) (Plain (Transpose n_v'bbbb'ooov [0;2;1;3]));
  (*119*) Assign (T 19) (Plain (Copy n_v'aaaa'ooov));
  (*120*) AddTo (T 19) (Times (Transpose n_v'aaaa'ovoo [0;2;3;1]) (-1) 1);
  (*121*) Assign (T 43) (Plain (Copy n_v'aaaa'ovvv));
  (*122*) AddTo (T 43) (Times (Transpose n_v'aaaa'ovvv [0;2;3;1]) (-1) 1);
  (*123*) Assign (T 10) (Plain (Copy n_f'aa'ov));
  (*124*) AddTo (T 10) (Plain (Copy (T 3)));
  (*125*) AddTo (T 10) (Times (Copy (T 9)) (-1) 1);
  (*126*) Del (T 9);
  (*127*) Assign (T 70) (Plain (Copy (T 1)));
  (*128*) AddTo (T 70) (Times (Transpose (T 1) [0;2;1;3]) (-1) 1);
  (*129*) Assign (T 68) (Times (Copy n_v'aaaa'ovvv) (-1) 1);
  (*130*) AddTo (T 68) (Plain (Transpose n_v'aaaa'ovvv [0;2;1;3]));
  (*131*) Assign (T 2) (Plain (Einsum [(n_t1'aa,[0;1]); (n_v'aabb'ovov,[2;1;3;4])] [0;2;3;4]));
  (*132*) Assign (T 55) (Plain (Einsum [(n_t1'aa,[0;1]); (T 54,[0;2;3;1])] [2;3]));
  (*133*) Del (T 54);
  (*134*) Assign (T 127) (Plain (Einsum [(n_t2'bbbb,[0;1;2;3]); (n_v'bbbb'ovov,[4;5;1;3])] [0;4;2;5]));
  (*135*) Assign (T 175) (Plain (Einsum [(T 174,[0;1;2;3]); (n_t1'bb,[0;4])] [1;2;4;3]));
  (*136*) Del (T 174);
  (*137*) Assign (T 112) (Plain (Einsum [(n_v'aabb'ovvv,[0;1;2;3]); (n_t1'bb,[4;3])] [0;4;1;2]));
  (*138*) Assign (T 113) (Plain (Einsum [(T 22,[0;1;2;3]); (n_t1'bb,[2;4])] [0;1;3;4]));
  (*139*) Assign (T 166) (Plain (Einsum [(T 165,[0;1;2;3]); (n_t1'bb,[4;2])] [4;0;1;3]));
  (*140*) Del (T 165);
  (*141*) Assign (T 168) (Plain (Einsum [(T 167,[0;1;2;3]); (n_t1'bb,[2;4])] [0;1;4;3]));
  (*142*) Del (T 167);
  (*143*) Assign (T 116) (Plain (Einsum [(n_v'aabb'ovoo,[0;1;2;3]); (n_t1'bb,[3;4])] [0;2;1;4]));
  (*144*) Assign (T 99) (Plain (Einsum [(n_t2'abab,[0;1;2;3]); (n_v'aaaa'ovov,[4;5;0;2])] [4;1;5;3]));
  (*145*) Assign (T 105) (Plain (Einsum [(T 104,[0;1;2;3]); (n_t1'bb,[0;1])] [2;3]));
  (*146*) Del (T 104);
  (*147*) Assign (T 106) (Plain (Einsum [(T 17,[0;1]); (n_t1'bb,[0;2])] [2;1]));
  (*148*) Assign (T 103) (Plain (Einsum [(n_t2'bbbb,[0;1;2;3]); (n_v'bbbb'ovov,[0;4;1;3])] [2;4]));
  (*149*) Assign (T 102) (Plain (Einsum [(n_t2'abab,[0;1;2;3]); (n_v'aabb'ovov,[0;2;1;4])] [3;4]));
  (*150*) Assign (T 101) (Plain (Einsum [(n_t1'aa,[0;1]); (n_v'aabb'ovvv,[0;1;2;3])] [2;3]));
  (*151*) Assign (T 180) (Plain (Einsum [(T 23,[0;1;2;3]); (n_t1'bb,[4;3])] [0;4;2;1]));
  (*152*) Assign (T 155) (Plain (Copy n_f'bb'ov));
  (*153*) AddTo (T 155) (Plain (Copy (T 14)));
  (*154*) AddTo (T 155) (Times (Copy (T 154)) (-1) 1);
  (*155*) Del (T 154);
  (*156*) Assign (T 158) (Plain (Einsum [(n_v'bbbb'ovvv,[0;1;2;3]); (n_t1'bb,[4;3])] [4;0;1;2]));
  (*157*) Assign (T 31) (Plain (Einsum [(n_t1'bb,[0;1]); (T 30,[2;3;0;1])] [2;3]));
  (*158*) Del (T 30);
  (*159*) Assign (T 29) (Plain (Einsum [(n_t1'aa,[0;1]); (n_v'aabb'ovoo,[0;1;2;3])] [2;3]));
  (*160*) Assign (T 26) (Times (Einsum [(n_t2'bbbb,[0;1;2;3]); (n_v'bbbb'ovov,[4;3;1;2])] [0;4]) (-1) 1);
  (*161*) Assign (T 25) (Plain (Einsum [(n_t2'abab,[0;1;2;3]); (n_v'aabb'ovov,[0;2;4;3])] [1;4]));
  (*162*) Assign (T 149) (Plain (Einsum [(n_v'bbbb'ooov,[0;1;2;3]); (n_t1'bb,[4;3])] [4;0;1;2]));
  (*163*) Assign (T 7) (Plain (Einsum [(n_t2'abab,[0;1;2;3]); (n_v'aabb'ovov,[4;2;1;3])] [0;4]));
  (*164*) Assign (T 6) (Times (Einsum [(n_t2'aaaa,[0;1;2;3]); (n_v'aaaa'ovov,[4;3;1;2])] [0;4]) (-1) 1);
  (*165*) Assign (T 20) (Plain (Einsum [(n_t1'aa,[0;1]); (T 19,[0;2;3;1])] [2;3]));
  (*166*) Assign (T 18) (Plain (Einsum [(n_v'aabb'ooov,[0;1;2;3]); (n_t1'bb,[2;3])] [0;1]));
  (*167*) Assign (T 41) (Plain (Einsum [(n_v'aaaa'ovov,[0;1;2;3]); (n_t2'aaaa,[0;2;4;3])] [4;1]));
  (*168*) Assign (T 40) (Plain (Einsum [(n_v'aabb'vvov,[0;1;2;3]); (n_t1'bb,[2;3])] [0;1]));
  (*169*) Assign (T 44) (Plain (Einsum [(n_t1'aa,[0;1]); (T 43,[0;1;2;3])] [2;3]));
  (*170*) Del (T 43);
  (*171*) Assign (T 42) (Plain (Einsum [(n_t2'abab,[0;1;2;3]); (n_v'aabb'ovov,[0;4;1;3])] [2;4]));
  (*172*) Assign (T 45) (Plain (Einsum [(n_t1'aa,[0;1]); (T 10,[0;2])] [1;2]));
  (*173*) Assign (T 71) (Plain (Einsum [(n_t1'aa,[0;1]); (T 70,[2;0;3;4])] [2;3;1;4]));
  (*174*) Del (T 70);
  (*175*) Assign (T 69) (Plain (Einsum [(T 68,[0;1;2;3]); (n_t1'aa,[4;1])] [4;0;2;3]));
  (*176*) Assign (T 82) (Plain (Einsum [(n_t2'abab,[0;1;2;3]); (n_v'bbbb'ovov,[4;5;1;3])] [0;4;2;5]));
  (*177*) Assign (T 81) (Plain (Einsum [(n_v'aabb'ooov,[0;1;2;3]); (n_t1'aa,[1;4])] [0;2;4;3]));
  (*178*) Assign (T 50) (Plain (Einsum [(n_t1'aa,[0;1]); (n_v'aaaa'ooov,[2;3;4;1])] [0;2;3;4]));
  (*179*) Assign (T 64) (Plain (Einsum [(n_v'aabb'vvov,[0;1;2;3]); (n_t1'aa,[4;1])] [4;2;0;3]));
  (*180*) Assign (T 65) (Plain (Einsum [(T 2,[0;1;2;3]); (n_t1'aa,[1;4])] [0;2;4;3]));
  (*181*) Assign (T 56) (Plain (Copy n_f'aa'ov));
  (*182*) AddTo (T 56) (Plain (Copy (T 3)));
  (*183*) AddTo (T 56) (Times (Copy (T 55)) (-1) 1);
  (*184*) Del (T 55);
  (*185*) Assign (T 86) (Plain (Einsum [(T 1,[0;1;2;3]); (n_t1'aa,[4;3])] [0;4;2;1]));
  (*186*) Assign (T 59) (Plain (Einsum [(n_t1'aa,[0;1]); (n_v'aaaa'ovvv,[2;3;4;1])] [0;2;3;4]));
  (*187*) Assign (T 78) (Plain (Einsum [(T 19,[0;1;2;3]); (n_t1'aa,[0;4])] [1;2;4;3]));
  (*188*) Del (T 19);
  (*189*) Assign (T 38) (Plain (Einsum [(n_v'aaaa'ovov,[0;1;2;3]); (n_t2'aaaa,[4;2;5;3])] [4;0;5;1]));
  (*190*) Assign (T 176) (Times (Copy n_v'bbbb'oovv) (-1) 1);
  (*191*) AddTo (T 176) (Plain (Copy (T 127)));
  (*192*) AddTo (T 176) (Times (Copy (T 175)) (-1) 1);
  (*193*) Del (T 175);
  (*194*) Assign (T 182) (Plain (Einsum [(n_t1'bb,[0;1]); (n_v'bbbb'vvvv,[2;3;4;1])] [0;2;3;4]));
  (*195*) Assign (T 160) (Plain (Copy n_v'bbbb'ovvv));
  (*196*) AddTo (T 160) (Times (Transpose n_v'bbbb'ovvv [0;2;1;3]) (-1) 1);
  (*197*) Assign (T 161) (Times (Copy (T 23)) (-1) 1);
  (*198*) AddTo (T 161) (Plain (Transpose (T 23) [0;2;1;3]));
  (*199*) Assign (T 137) (Plain (Copy (T 112)));
  (*200*) AddTo (T 137) (Times (Copy (T 113)) (-1) 1);
  (*201*) Assign (T 188) (Plain (Copy n_v'bbbb'ovvv));
  (*202*) AddTo (T 188) (Plain (Einsum [(n_v'bbbb'ovov,[0;1;2;3]); (n_t1'bb,[2;4])] [0;3;1;4]));
  (*203*) Assign (T 169) (Times (Transpose (T 166) [0;1;3;2]) (-1) 1);
  (*204*) Del (T 166);
  (*205*) AddTo (T 169) (Times (Copy (T 168)) (-1) 1);
  (*206*) Del (T 168);
  (*207*) Assign (T 178) (Plain (Copy (T 116)));
  (*208*) AddTo (T 178) (Times (Copy (T 99)) (-1) 2);
  (*209*) Assign (T 107) (Times (Copy n_f'bb'vv) (-1) 1);
  (*210*) AddTo (T 107) (Times (Transpose (T 101) [1;0]) (-1) 1);
  (*211*) Del (T 101);
  (*212*) AddTo (T 107) (Times (Transpose (T 102) [1;0]) (1) 2);
  (*213*) Del (T 102);
  (*214*) AddTo (T 107) (Plain (Transpose (T 103) [1;0]));
  (*215*) Del (T 103);
  (*216*) AddTo (T 107) (Times (Transpose (T 105) [1;0]) (-1) 1);
  (*217*) Del (T 105);
  (*218*) AddTo (T 107) (Plain (Transpose (T 106) [1;0]));
  (*219*) Del (T 106);
  (*220*) Assign (T 163) (Times (Copy (T 112)) (-1) 1);
  (*221*) AddTo (T 163) (Plain (Copy (T 113)));
  (*222*) Assign (T 184) (Plain (Einsum [(n_t1'bb,[0;1]); (T 180,[2;3;0;4])] [3;2;4;1]));
  (*223*) Assign (T 147) (Plain (Einsum [(n_v'bbbb'oovv,[0;1;2;3]); (n_t1'bb,[4;3])] [4;0;1;2]));
  (*224*) Assign (T 156) (Plain (Einsum [(T 155,[0;1]); (n_t1'bb,[2;1])] [2;0]));
  (*225*) Del (T 155);
  (*226*) Assign (T 186) (Plain (Einsum [(T 158,[0;1;2;3]); (n_t1'bb,[4;2])] [4;0;1;3]));
  (*227*) Assign (T 97) (Plain (Copy n_f'bb'oo));
  (*228*) AddTo (T 97) (Plain (Transpose (T 29) [1;0]));
  (*229*) AddTo (T 97) (Times (Transpose (T 25) [1;0]) (1) 2);
  (*230*) AddTo (T 97) (Plain (Transpose (T 26) [1;0]));
  (*231*) AddTo (T 97) (Times (Transpose (T 31) [1;0]) (-1) 1);
  (*232*) Assign (T 100) (Plain (Einsum [(n_v'aabb'ovov,[0;1;2;3]); (n_t2'bbbb,[4;2;5;3])] [0;4;1;5]));
  (*233*) Assign (T 151) (Plain (Einsum [(n_t1'bb,[0;1]); (T 149,[2;3;4;0])] [2;4;3;1]));
  (*234*) Assign (T 124) (Plain (Einsum [(n_t2'aaaa,[0;1;2;3]); (n_v'aabb'ovov,[1;3;4;5])] [0;4;2;5]));
  (*235*) Assign (T 114) (Plain (Einsum [(n_v'aabb'vvov,[0;1;2;3]); (n_t1'bb,[4;3])] [4;2;0;1]));
  (*236*) Assign (T 122) (Plain (Copy n_v'aaaa'ooov));
  (*237*) AddTo (T 122) (Times (Transpose n_v'aaaa'ooov [0;2;1;3]) (-1) 1);
  (*238*) Assign (T 39) (Plain (Einsum [(n_t2'abab,[0;1;2;3]); (n_v'aabb'ovov,[4;5;1;3])] [0;4;2;5]));
  (*239*) Assign (T 131) (Plain (Transpose n_v'aabb'vvov [2;0;1;3]));
  (*240*) AddTo (T 131) (Times (Einsum [(n_t1'aa,[0;1]); (n_v'aabb'ovov,[0;2;3;4])] [3;1;2;4]) (-1) 1);
  (*241*) Assign (T 128) (Plain (Copy n_v'bbbb'ooov));
  (*242*) AddTo (T 128) (Times (Transpose n_v'bbbb'ooov [0;2;1;3]) (-1) 1);
  (*243*) Assign (T 126) (Plain (Einsum [(n_t2'abab,[0;1;2;3]); (n_v'aabb'ovov,[0;2;4;5])] [1;4;3;5]));
  (*244*) Assign (T 134) (Times (Copy n_v'bbbb'ovvv) (-1) 1);
  (*245*) AddTo (T 134) (Plain (Transpose n_v'bbbb'ovvv [0;2;1;3]));
  (*246*) Assign (T 135) (Plain (Copy (T 23)));
  (*247*) AddTo (T 135) (Times (Transpose (T 23) [0;2;1;3]) (-1) 1);
  (*248*) Assign (T 36) (Plain (Copy n_f'aa'oo));
  (*249*) AddTo (T 36) (Plain (Transpose (T 18) [1;0]));
  (*250*) AddTo (T 36) (Plain (Transpose (T 6) [1;0]));
  (*251*) AddTo (T 36) (Times (Transpose (T 7) [1;0]) (1) 2);
  (*252*) AddTo (T 36) (Times (Transpose (T 20) [1;0]) (-1) 1);
  (*253*) Assign (T 46) (Times (Copy n_f'aa'vv) (-1) 1);
  (*254*) AddTo (T 46) (Times (Transpose (T 40) [1;0]) (-1) 1);
  (*255*) Del (T 40);
  (*256*) AddTo (T 46) (Plain (Transpose (T 41) [1;0]));
  (*257*) Del (T 41);
  (*258*) AddTo (T 46) (Times (Transpose (T 42) [1;0]) (1) 2);
  (*259*) Del (T 42);
  (*260*) AddTo (T 46) (Times (Transpose (T 44) [1;0]) (-1) 1);
  (*261*) Del (T 44);
  (*262*) AddTo (T 46) (Plain (Transpose (T 45) [1;0]));
  (*263*) Del (T 45);
  (*264*) Assign (T 72) (Times (Transpose (T 69) [0;1;3;2]) (-1) 1);
  (*265*) Del (T 69);
  (*266*) AddTo (T 72) (Times (Copy (T 71)) (-1) 1);
  (*267*) Assign (T 84) (Times (Copy (T 81)) (2) 1);
  (*268*) AddTo (T 84) (Times (Copy (T 82)) (-1) 1);
  (*269*) Assign (T 34) (Plain (Einsum [(n_v'aaaa'oooo,[0;1;2;3]); (n_t1'aa,[3;4])] [0;1;2;4]));
  (*270*) Assign (T 52) (Plain (Einsum [(n_t1'aa,[0;1]); (T 50,[2;3;4;0])] [2;4;3;1]));
  (*271*) Assign (T 94) (Plain (Copy n_v'aaaa'ovvv));
  (*272*) AddTo (T 94) (Plain (Einsum [(n_t1'aa,[0;1]); (n_v'aaaa'ovov,[2;3;0;4])] [2;4;1;3]));
  (*273*) Assign (T 74) (Plain (Copy (T 64)));
  (*274*) AddTo (T 74) (Times (Copy (T 65)) (-1) 1);
  (*275*) Assign (T 57) (Plain (Einsum [(n_t1'aa,[0;1]); (T 56,[2;1])] [0;2]));
  (*276*) Del (T 56);
  (*277*) Assign (T 88) (Plain (Einsum [(T 86,[0;1;2;3]); (n_t1'aa,[2;4])] [1;0;3;4]));
  (*278*) Assign (T 90) (Plain (Einsum [(n_t1'aa,[0;1]); (T 59,[2;3;1;4])] [0;2;3;4]));
  (*279*) Assign (T 92) (Plain (Einsum [(n_v'aaaa'vvvv,[0;1;2;3]); (n_t1'aa,[4;3])] [4;0;1;2]));
  (*280*) Assign (T 61) (Times (Copy n_v'aaaa'ovvv) (-1) 1);
  (*281*) AddTo (T 61) (Plain (Transpose n_v'aaaa'ovvv [0;2;1;3]));
  (*282*) Assign (T 62) (Plain (Copy (T 1)));
  (*283*) AddTo (T 62) (Times (Transpose (T 1) [0;2;1;3]) (-1) 1);
  (*284*) Assign (T 48) (Plain (Einsum [(n_t1'aa,[0;1]); (n_v'aaaa'oovv,[2;3;4;1])] [0;2;3;4]));
  (*285*) Assign (T 79) (Times (Copy n_v'aaaa'oovv) (-1) 1);
  (*286*) AddTo (T 79) (Plain (Copy (T 38)));
  (*287*) AddTo (T 79) (Times (Copy (T 78)) (-1) 1);
  (*288*) Del (T 78);
  (*289*) Assign (T 66) (Times (Copy (T 64)) (-1) 1);
  (*290*) Del (T 64);
  (*291*) AddTo (T 66) (Plain (Copy (T 65)));
  (*292*) Assign (T 11) (Plain (Einsum [(n_t1'aa,[0;1]); (T 10,[2;1])] [0;2]));
  (*293*) Assign (T 177) (Times (Einsum [(T 176,[0;1;2;3]); (n_t2'bbbb,[4;1;5;3])] [4;0;5;2]) (2) 1);
  (*294*) Del (T 176);
  (*295*) Assign (T 183) (Plain (Einsum [(T 182,[0;1;2;3]); (n_t1'bb,[4;2])] [4;0;1;3]));
  (*296*) Del (T 182);
  (*297*) Assign (T 162) (Times (Einsum [(T 160,[0;1;2;3]); (n_t1'bb,[4;2])] [4;0;3;1]) (-1) 1);
  (*298*) Del (T 160);
  (*299*) AddTo (T 162) (Times (Einsum [(T 161,[0;1;2;3]); (n_t1'bb,[2;4])] [0;1;4;3]) (-1) 1);
  (*300*) Del (T 161);
  (*301*) Assign (T 171) (Plain (Einsum [(n_t2'abab,[0;1;2;3]); (T 137,[0;4;2;5])] [1;4;3;5]));
  (*302*) Assign (T 189) (Times (Copy n_v'bbbb'vvvv) (-1) 1);
  (*303*) AddTo (T 189) (Plain (Einsum [(n_t1'bb,[0;1]); (T 188,[0;2;3;4])] [2;1;4;3]));
  (*304*) Del (T 188);
  (*305*) Assign (T 159) (Plain (Einsum [(T 23,[0;1;2;3]); (n_t1'bb,[2;4])] [0;1;4;3]));
  (*306*) Assign (T 172) (Plain (Einsum [(n_t1'bb,[0;1]); (n_v'bbbb'ooov,[2;0;3;4])] [2;3;1;4]));
  (*307*) Assign (T 170) (Plain (Einsum [(T 169,[0;1;2;3]); (n_t2'bbbb,[4;1;5;3])] [4;0;5;2]));
  (*308*) Del (T 169);
  (*309*) Assign (T 179) (Plain (Einsum [(n_t2'abab,[0;1;2;3]); (T 178,[0;4;2;5])] [1;4;3;5]));
  (*310*) Del (T 178);
  (*311*) Assign (T 146) (Times (Einsum [(n_t2'bbbb,[0;1;2;3]); (T 107,[3;4])] [0;1;2;4]) (-2) 1);
  (*312*) Assign (T 144) (Times (Einsum [(n_v'bbbb'oooo,[0;1;2;3]); (n_t2'bbbb,[3;1;4;5])] [0;2;4;5]) (-1) 1);
  (*313*) Assign (T 181) (Times (Einsum [(T 180,[0;1;2;3]); (n_t2'bbbb,[2;3;4;5])] [1;0;4;5]) (-1) 1);
  (*314*) Del (T 180);
  (*315*) Assign (T 164) (Plain (Einsum [(n_t2'abab,[0;1;2;3]); (T 163,[0;4;2;5])] [1;4;3;5]));
  (*316*) Del (T 163);
  (*317*) Assign (T 185) (Plain (Einsum [(n_t1'bb,[0;1]); (T 184,[2;3;0;4])] [2;3;1;4]));
  (*318*) Del (T 184);
  (*319*) Assign (T 148) (Plain (Einsum [(T 147,[0;1;2;3]); (n_t1'bb,[2;4])] [0;1;4;3]));
  (*320*) Del (T 147);
  (*321*) Assign (T 157) (Times (Einsum [(n_t2'bbbb,[0;1;2;3]); (T 156,[4;1])] [0;4;2;3]) (-1) 1);
  (*322*) Del (T 156);
  (*323*) Assign (T 150) (Times (Einsum [(T 149,[0;1;2;3]); (n_t2'bbbb,[3;2;4;5])] [0;1;4;5]) (-1) 1);
  (*324*) Del (T 149);
  (*325*) Assign (T 143) (Plain (Copy n_t2'bbbb));
  (*326*) AddTo (T 143) (Times (Einsum [(n_t1'bb,[0;1]); (n_t1'bb,[2;3])] [2;0;3;1]) (2) 1);
  (*327*) Assign (T 145) (Times (Einsum [(n_t1'bb,[0;1]); (n_t1'bb,[2;3])] [0;2;3;1]) (2) 1);
  (*328*) AddTo (T 145) (Times (Copy n_t2'bbbb) (-1) 1);
  (*329*) Assign (T 187) (Plain (Einsum [(n_t1'bb,[0;1]); (T 186,[2;3;0;4])] [2;3;1;4]));
  (*330*) Del (T 186);
  (*331*) Assign (T 190) (Times (Einsum [(n_v'bbbb'ovvv,[0;1;2;3]); (n_t2'bbbb,[4;5;3;1])] [4;5;0;2]) (-1) 1);
  (*332*) Assign (T 108) (Plain (Einsum [(T 17,[0;1]); (n_t1'bb,[2;1])] [2;0]));
  (*333*) Assign (T 142) (Times (Einsum [(n_t2'bbbb,[0;1;2;3]); (T 97,[1;4])] [0;4;2;3]) (-1) 1);
  (*334*) Assign (T 173) (Plain (Einsum [(n_t2'abab,[0;1;2;3]); (T 100,[0;4;2;5])] [1;4;3;5]));
  (*335*) Assign (T 152) (Plain (Einsum [(T 151,[0;1;2;3]); (n_t1'bb,[1;4])] [0;2;4;3]));
  (*336*) Del (T 151);
  (*337*) Assign (T 125) (Times (Copy (T 81)) (-1) 1);
  (*338*) AddTo (T 125) (Plain (Copy (T 124)));
  (*339*) AddTo (T 125) (Times (Copy (T 82)) (1) 2);
  (*340*) Assign (T 130) (Times (Copy (T 116)) (-1) 1);
  (*341*) AddTo (T 130) (Times (Copy (T 99)) (1) 2);
  (*342*) AddTo (T 130) (Plain (Copy (T 100)));
  (*343*) Assign (T 119) (Plain (Einsum [(n_t1'aa,[0;1]); (T 114,[2;3;4;1])] [0;2;3;4]));
  (*344*) Assign (T 115) (Plain (Transpose (T 114) [0;1;3;2]));
  (*345*) Del (T 114);
  (*346*) AddTo (T 115) (Times (Einsum [(T 22,[0;1;2;3]); (n_t1'aa,[0;4])] [1;2;3;4]) (-1) 1);
  (*347*) Assign (T 133) (Times (Einsum [(T 68,[0;1;2;3]); (n_t1'aa,[4;2])] [4;0;1;3]) (-1) 1);
  (*348*) Del (T 68);
  (*349*) AddTo (T 133) (Plain (Transpose (T 71) [0;1;3;2]));
  (*350*) Del (T 71);
  (*351*) Assign (T 98) (Plain (Copy n_t2'abab));
  (*352*) AddTo (T 98) (Times (Einsum [(n_t1'aa,[0;1]); (n_t1'bb,[2;3])] [0;2;1;3]) (2) 1);
  (*353*) Assign (T 4) (Plain (Copy n_t2'abab));
  (*354*) AddTo (T 4) (Plain (Einsum [(n_t1'aa,[0;1]); (n_t1'bb,[2;3])] [0;2;1;3]));
  (*355*) Assign (T 123) (Times (Copy n_v'aaaa'oovv) (-1) 1);
  (*356*) AddTo (T 123) (Plain (Transpose (T 38) [1;0;3;2]));
  (*357*) AddTo (T 123) (Times (Transpose (T 39) [1;0;3;2]) (1) 2);
  (*358*) AddTo (T 123) (Plain (Einsum [(T 122,[0;1;2;3]); (n_t1'aa,[2;4])] [1;0;3;4]));
  (*359*) Del (T 122);
  (*360*) Assign (T 121) (Plain (Einsum [(n_t1'aa,[0;1]); (T 22,[2;3;4;1])] [0;2;3;4]));
  (*361*) Assign (T 110) (Plain (Einsum [(n_t1'aa,[0;1]); (n_v'aabb'vvoo,[2;1;3;4])] [0;3;4;2]));
  (*362*) Assign (T 138) (Plain (Einsum [(n_t1'aa,[0;1]); (n_v'aabb'ovvv,[2;1;3;4])] [0;2;3;4]));
  (*363*) AddTo (T 138) (Times (Einsum [(T 2,[0;1;2;3]); (n_t1'bb,[2;4])] [0;1;3;4]) (-1) 1);
  (*364*) Assign (T 140) (Plain (Einsum [(n_v'aabb'oovv,[0;1;2;3]); (n_t1'bb,[4;3])] [0;1;4;2]));
  (*365*) Assign (T 132) (Plain (Copy n_v'aabb'vvvv));
  (*366*) AddTo (T 132) (Times (Einsum [(T 131,[0;1;2;3]); (n_t1'bb,[0;4])] [2;1;3;4]) (-1) 1);
  (*367*) Del (T 131);
  (*368*) Assign (T 109) (Plain (Einsum [(n_v'aabb'ooov,[0;1;2;3]); (n_t1'bb,[4;3])] [0;1;4;2]));
  (*369*) Assign (T 118) (Plain (Copy n_v'aabb'oovv));
  (*370*) AddTo (T 118) (Times (Einsum [(n_t1'bb,[0;1]); (n_v'aabb'ooov,[2;3;0;4])] [2;3;4;1]) (-1) 1);
  (*371*) Assign (T 120) (Plain (Transpose n_v'aabb'vvov [2;0;1;3]));
  (*372*) AddTo (T 120) (Plain (Einsum [(n_t1'bb,[0;1]); (n_v'aabb'vvvv,[2;3;4;1])] [0;2;3;4]));
  (*373*) Assign (T 129) (Times (Copy n_v'bbbb'oovv) (-2) 1);
  (*374*) AddTo (T 129) (Plain (Transpose (T 126) [1;0;3;2]));
  (*375*) AddTo (T 129) (Times (Transpose (T 127) [1;0;3;2]) (2) 1);
  (*376*) AddTo (T 129) (Times (Einsum [(T 128,[0;1;2;3]); (n_t1'bb,[2;4])] [1;0;3;4]) (2) 1);
  (*377*) Del (T 128);
  (*378*) Assign (T 141) (Plain (Einsum [(n_t1'aa,[0;1]); (T 112,[2;3;1;4])] [0;2;3;4]));
  (*379*) Assign (T 139) (Plain (Einsum [(n_v'aabb'ovvv,[0;1;2;3]); (n_t2'abab,[4;5;1;3])] [4;0;5;2]));
  (*380*) Assign (T 117) (Plain (Transpose n_v'aabb'vvoo [2;3;0;1]));
  (*381*) AddTo (T 117) (Times (Einsum [(n_v'aabb'ovoo,[0;1;2;3]); (n_t1'aa,[0;4])] [2;3;1;4]) (-1) 1);
  (*382*) Assign (T 111) (Plain (Einsum [(n_t1'aa,[0;1]); (n_v'aabb'ovoo,[2;1;3;4])] [0;2;3;4]));
  (*383*) Assign (T 136) (Times (Einsum [(T 134,[0;1;2;3]); (n_t1'bb,[4;2])] [4;0;1;3]) (-1) 1);
  (*384*) Del (T 134);
  (*385*) AddTo (T 136) (Plain (Einsum [(T 135,[0;1;2;3]); (n_t1'bb,[1;4])] [0;2;3;4]));
  (*386*) Del (T 135);
  (*387*) Assign (T 37) (Times (Einsum [(T 36,[0;1]); (n_t2'aaaa,[2;0;3;4])] [2;1;3;4]) (-1) 1);
  (*388*) Assign (T 47) (Times (Einsum [(n_t2'aaaa,[0;1;2;3]); (T 46,[3;4])] [0;1;2;4]) (-2) 1);
  (*389*) Assign (T 77) (Plain (Einsum [(n_t2'aaaa,[0;1;2;3]); (T 39,[4;1;5;3])] [0;4;2;5]));
  (*390*) Assign (T 73) (Plain (Einsum [(n_t2'aaaa,[0;1;2;3]); (T 72,[4;1;5;3])] [0;4;2;5]));
  (*391*) Del (T 72);
  (*392*) Assign (T 85) (Times (Einsum [(n_t2'abab,[0;1;2;3]); (T 84,[4;1;5;3])] [0;4;2;5]) (1) 2);
  (*393*) Del (T 84);
  (*394*) Assign (T 35) (Plain (Einsum [(T 34,[0;1;2;3]); (n_t1'aa,[1;4])] [0;2;4;3]));
  (*395*) Del (T 34);
  (*396*) Assign (T 83) (Plain (Copy (T 81)));
  (*397*) AddTo (T 83) (Times (Copy (T 82)) (-1) 2);
  (*398*) Assign (T 76) (Plain (Einsum [(n_t1'aa,[0;1]); (n_v'aaaa'ooov,[2;0;3;4])] [2;3;1;4]));
  (*399*) Assign (T 53) (Plain (Einsum [(T 52,[0;1;2;3]); (n_t1'aa,[1;4])] [0;2;4;3]));
  (*400*) Del (T 52);
  (*401*) Assign (T 51) (Plain (Einsum [(n_t2'aaaa,[0;1;2;3]); (T 50,[4;5;0;1])] [4;5;2;3]));
  (*402*) Del (T 50);
  (*403*) Assign (T 33) (Plain (Einsum [(n_t2'aaaa,[0;1;2;3]); (n_v'aaaa'oooo,[4;0;5;1])] [4;5;2;3]));
  (*404*) Assign (T 96) (Plain (Einsum [(n_v'aaaa'ovvv,[0;1;2;3]); (n_t2'aaaa,[4;5;1;3])] [4;5;0;2]));
  (*405*) Assign (T 95) (Plain (Copy n_v'aaaa'vvvv));
  (*406*) AddTo (T 95) (Plain (Einsum [(T 94,[0;1;2;3]); (n_t1'aa,[0;4])] [3;4;2;1]));
  (*407*) Del (T 94);
  (*408*) Assign (T 87) (Plain (Einsum [(n_t2'aaaa,[0;1;2;3]); (T 86,[4;5;1;0])] [5;4;2;3]));
  (*409*) Del (T 86);
  (*410*) Assign (T 75) (Plain (Einsum [(n_t2'abab,[0;1;2;3]); (T 74,[4;1;5;3])] [0;4;2;5]));
  (*411*) Assign (T 58) (Times (Einsum [(n_t2'aaaa,[0;1;2;3]); (T 57,[4;1])] [0;4;2;3]) (-1) 1);
  (*412*) Assign (T 89) (Plain (Einsum [(T 88,[0;1;2;3]); (n_t1'aa,[2;4])] [0;1;4;3]));
  (*413*) Del (T 88);
  (*414*) Assign (T 91) (Plain (Einsum [(n_t1'aa,[0;1]); (T 90,[2;3;0;4])] [2;3;1;4]));
  (*415*) Del (T 90);
  (*416*) Assign (T 93) (Plain (Einsum [(n_t1'aa,[0;1]); (T 92,[2;3;1;4])] [0;2;3;4]));
  (*417*) Del (T 92);
  (*418*) Assign (T 63) (Times (Einsum [(n_t1'aa,[0;1]); (T 61,[2;1;3;4])] [0;2;4;3]) (-1) 1);
  (*419*) Del (T 61);
  (*420*) AddTo (T 63) (Times (Einsum [(T 62,[0;1;2;3]); (n_t1'aa,[1;4])] [0;2;4;3]) (-1) 1);
  (*421*) Del (T 62);
  (*422*) Assign (T 60) (Plain (Einsum [(n_t1'aa,[0;1]); (T 1,[2;3;0;4])] [2;3;1;4]));
  (*423*) Assign (T 49) (Plain (Einsum [(n_t1'aa,[0;1]); (T 48,[2;3;0;4])] [2;3;1;4]));
  (*424*) Del (T 48);
  (*425*) Assign (T 80) (Times (Einsum [(n_t2'aaaa,[0;1;2;3]); (T 79,[4;1;5;3])] [0;4;2;5]) (2) 1);
  (*426*) Del (T 79);
  (*427*) Assign (T 67) (Plain (Einsum [(n_t2'abab,[0;1;2;3]); (T 66,[4;1;5;3])] [0;4;2;5]));
  (*428*) Del (T 66);
  (*429*) Assign (T 24) (Times (Copy n_t2'bbbb) (2) 1);
  (*430*) AddTo (T 24) (Plain (Einsum [(n_t1'bb,[0;1]); (n_t1'bb,[2;3])] [2;0;3;1]));
  (*431*) Assign (T 28) (Plain (Copy n_f'bb'vv));
  (*432*) AddTo (T 28) (Times (Einsum [(n_v'bbbb'ovvv,[0;1;2;3]); (n_t1'bb,[0;3])] [1;2]) (-1) 1);
  (*433*) Assign (T 27) (Times (Transpose (T 25) [1;0]) (1) 2);
  (*434*) Del (T 25);
  (*435*) AddTo (T 27) (Plain (Transpose (T 26) [1;0]));
  (*436*) Del (T 26);
  (*437*) AddTo (T 27) (Times (Einsum [(T 17,[0;1]); (n_t1'bb,[2;1])] [0;2]) (1) 2);
  (*438*) Assign (T 32) (Plain (Copy n_f'bb'oo));
  (*439*) AddTo (T 32) (Plain (Transpose (T 29) [1;0]));
  (*440*) Del (T 29);
  (*441*) AddTo (T 32) (Times (Transpose (T 31) [1;0]) (-1) 1);
  (*442*) Del (T 31);
  (*443*) Assign (T 13) (Plain (Copy n_f'aa'vv));
  (*444*) AddTo (T 13) (Times (Einsum [(n_t1'aa,[0;1]); (n_v'aaaa'ovvv,[0;2;3;1])] [2;3]) (-1) 1);
  (*445*) Assign (T 12) (Times (Transpose (T 6) [1;0]) (2) 1);
  (*446*) Del (T 6);
  (*447*) AddTo (T 12) (Plain (Transpose (T 7) [1;0]));
  (*448*) Del (T 7);
  (*449*) AddTo (T 12) (Plain (Transpose (T 11) [1;0]));
  (*450*) Assign (T 21) (Plain (Copy n_f'aa'oo));
  (*451*) AddTo (T 21) (Plain (Transpose (T 18) [1;0]));
  (*452*) Del (T 18);
  (*453*) AddTo (T 21) (Times (Transpose (T 20) [1;0]) (-1) 1);
  (*454*) Del (T 20);
  (*455*) Assign (T 5) (Times (Copy n_t2'aaaa) (2) 1);
  (*456*) AddTo (T 5) (Plain (Einsum [(n_t1'aa,[0;1]); (n_t1'aa,[2;3])] [0;2;1;3]));
  (*457*) Assign n_t2new'bbbb (Times (Transpose (T 142) [0;1;3;2]) (-2) 1);
  (*458*) AddTo n_t2new'bbbb (Times (Einsum [(n_v'bbbb'oooo,[0;1;2;3]); (T 143,[3;1;4;5])] [0;2;5;4]) (1) 2);
  (*459*) Del (T 143);
  (*460*) AddTo n_t2new'bbbb (Plain (Transpose (T 144) [1;0;3;2]));
  (*461*) Del (T 144);
  (*462*) AddTo n_t2new'bbbb (Times (Transpose (T 142) [1;0;3;2]) (2) 1);
  (*463*) Del (T 142);
  (*464*) AddTo n_t2new'bbbb (Times (Einsum [(n_v'bbbb'oooo,[0;1;2;3]); (T 145,[3;1;4;5])] [0;2;5;4]) (-1) 2);
  (*465*) Del (T 145);
  (*466*) AddTo n_t2new'bbbb (Times (Transpose (T 127) [1;0;3;2]) (2) 1);
  (*467*) AddTo n_t2new'bbbb (Plain (Transpose (T 126) [1;0;3;2]));
  (*468*) AddTo n_t2new'bbbb (Plain (Transpose (T 146) [1;0;3;2]));
  (*469*) AddTo n_t2new'bbbb (Times (Transpose (T 127) [1;0;2;3]) (-2) 1);
  (*470*) AddTo n_t2new'bbbb (Times (Transpose (T 126) [1;0;2;3]) (-1) 1);
  (*471*) AddTo n_t2new'bbbb (Times (Transpose (T 146) [1;0;2;3]) (-1) 1);
  (*472*) Del (T 146);
  (*473*) AddTo n_t2new'bbbb (Plain (Transpose (T 148) [1;0;3;2]));
  (*474*) AddTo n_t2new'bbbb (Times (Transpose (T 150) [1;0;3;2]) (-2) 1);
  (*475*) AddTo n_t2new'bbbb (Plain (Transpose (T 152) [1;0;2;3]));
  (*476*) AddTo n_t2new'bbbb (Times (Transpose (T 152) [1;0;3;2]) (-1) 1);
  (*477*) AddTo n_t2new'bbbb (Times (Einsum [(n_t2'bbbb,[0;1;2;3]); (T 108,[4;1])] [0;4;2;3]) (-1) 1);
  (*478*) AddTo n_t2new'bbbb (Times (Transpose (T 148) [1;0;2;3]) (-1) 1);
  (*479*) AddTo n_t2new'bbbb (Times (Transpose (T 157) [0;1;3;2]) (-1) 1);
  (*480*) AddTo n_t2new'bbbb (Times (Transpose (T 148) [0;1;3;2]) (-1) 1);
  (*481*) AddTo n_t2new'bbbb (Times (Transpose (T 150) [0;1;3;2]) (2) 1);
  (*482*) Del (T 150);
  (*483*) AddTo n_t2new'bbbb (Times (Copy (T 152)) (-1) 1);
  (*484*) AddTo n_t2new'bbbb (Plain (Transpose (T 152) [0;1;3;2]));
  (*485*) Del (T 152);
  (*486*) AddTo n_t2new'bbbb (Times (Transpose (T 157) [1;0;3;2]) (2) 1);
  (*487*) Del (T 157);
  (*488*) AddTo n_t2new'bbbb (Plain (Copy (T 148)));
  (*489*) Del (T 148);
  (*490*) AddTo n_t2new'bbbb (Plain (Transpose n_v'bbbb'ovov [0;2;1;3]));
  (*491*) AddTo n_t2new'bbbb (Plain (Transpose (T 158) [1;0;2;3]));
  (*492*) AddTo n_t2new'bbbb (Times (Transpose (T 159) [1;0;3;2]) (-1) 1);
  (*493*) AddTo n_t2new'bbbb (Times (Einsum [(T 162,[0;1;2;3]); (n_t2'bbbb,[4;1;5;3])] [4;0;2;5]) (2) 1);
  (*494*) Del (T 162);
  (*495*) AddTo n_t2new'bbbb (Plain (Transpose (T 164) [0;1;3;2]));
  (*496*) AddTo n_t2new'bbbb (Times (Transpose n_v'bbbb'ovov [0;2;3;1]) (-1) 1);
  (*497*) AddTo n_t2new'bbbb (Times (Copy (T 158)) (-1) 1);
  (*498*) AddTo n_t2new'bbbb (Plain (Transpose (T 159) [0;1;3;2]));
  (*499*) AddTo n_t2new'bbbb (Times (Transpose (T 170) [1;0;3;2]) (-2) 1);
  (*500*) AddTo n_t2new'bbbb (Plain (Transpose (T 171) [1;0;3;2]));
  (*501*) AddTo n_t2new'bbbb (Plain (Transpose (T 172) [0;1;3;2]));
  (*502*) AddTo n_t2new'bbbb (Times (Copy (T 173)) (2) 1);
  (*503*) AddTo n_t2new'bbbb (Times (Transpose (T 173) [1;0;3;2]) (2) 1);
  (*504*) AddTo n_t2new'bbbb (Plain (Transpose (T 177) [1;0;3;2]));
  (*505*) AddTo n_t2new'bbbb (Times (Transpose (T 179) [1;0;3;2]) (-1) 1);
  (*506*) AddTo n_t2new'bbbb (Times (Transpose (T 172) [1;0;3;2]) (-1) 1);
  (*507*) AddTo n_t2new'bbbb (Times (Transpose (T 173) [0;1;3;2]) (-2) 1);
  (*508*) AddTo n_t2new'bbbb (Times (Transpose (T 173) [1;0;2;3]) (-2) 1);
  (*509*) Del (T 173);
  (*510*) AddTo n_t2new'bbbb (Times (Transpose (T 177) [0;1;3;2]) (-1) 1);
  (*511*) AddTo n_t2new'bbbb (Plain (Transpose (T 179) [0;1;3;2]));
  (*512*) AddTo n_t2new'bbbb (Times (Copy (T 172)) (-1) 1);
  (*513*) AddTo n_t2new'bbbb (Times (Transpose (T 177) [1;0;2;3]) (-1) 1);
  (*514*) AddTo n_t2new'bbbb (Plain (Transpose (T 179) [1;0;2;3]));
  (*515*) AddTo n_t2new'bbbb (Plain (Transpose (T 172) [1;0;2;3]));
  (*516*) Del (T 172);
  (*517*) AddTo n_t2new'bbbb (Plain (Copy (T 177)));
  (*518*) Del (T 177);
  (*519*) AddTo n_t2new'bbbb (Times (Copy (T 179)) (-1) 1);
  (*520*) Del (T 179);
  (*521*) AddTo n_t2new'bbbb (Plain (Transpose (T 158) [0;1;3;2]));
  (*522*) AddTo n_t2new'bbbb (Times (Transpose (T 181) [0;1;3;2]) (-2) 1);
  (*523*) Del (T 181);
  (*524*) AddTo n_t2new'bbbb (Plain (Copy (T 183)));
  (*525*) AddTo n_t2new'bbbb (Times (Transpose (T 183) [0;1;3;2]) (-1) 1);
  (*526*) Del (T 183);
  (*527*) AddTo n_t2new'bbbb (Plain (Copy (T 185)));
  (*528*) AddTo n_t2new'bbbb (Times (Transpose (T 185) [0;1;3;2]) (-1) 1);
  (*529*) Del (T 185);
  (*530*) AddTo n_t2new'bbbb (Plain (Transpose (T 187) [0;1;3;2]));
  (*531*) AddTo n_t2new'bbbb (Times (Transpose (T 187) [1;0;3;2]) (-1) 1);
  (*532*) AddTo n_t2new'bbbb (Times (Transpose (T 158) [1;0;3;2]) (-1) 1);
  (*533*) Del (T 158);
  (*534*) AddTo n_t2new'bbbb (Times (Einsum [(T 189,[0;1;2;3]); (n_t2'bbbb,[4;5;0;3])] [4;5;2;1]) (2) 1);
  (*535*) Del (T 189);
  (*536*) AddTo n_t2new'bbbb (Times (Transpose (T 127) [0;1;3;2]) (-2) 1);
  (*537*) AddTo n_t2new'bbbb (Times (Transpose (T 126) [0;1;3;2]) (-1) 1);
  (*538*) AddTo n_t2new'bbbb (Times (Copy (T 127)) (2) 1);
  (*539*) Del (T 127);
  (*540*) AddTo n_t2new'bbbb (Plain (Copy (T 126)));
  (*541*) Del (T 126);
  (*542*) AddTo n_t2new'bbbb (Plain (Transpose (T 159) [1;0;2;3]));
  (*543*) AddTo n_t2new'bbbb (Times (Copy (T 170)) (-2) 1);
  (*544*) AddTo n_t2new'bbbb (Times (Copy (T 164)) (-1) 1);
  (*545*) Del (T 164);
  (*546*) AddTo n_t2new'bbbb (Times (Copy (T 159)) (-1) 1);
  (*547*) Del (T 159);
  (*548*) AddTo n_t2new'bbbb (Times (Transpose (T 170) [1;0;2;3]) (2) 1);
  (*549*) Del (T 170);
  (*550*) AddTo n_t2new'bbbb (Times (Transpose (T 171) [1;0;2;3]) (-1) 1);
  (*551*) Del (T 171);
  (*552*) AddTo n_t2new'bbbb (Times (Einsum [(n_t1'bb,[0;1]); (T 190,[2;3;0;4])] [2;3;1;4]) (-2) 1);
  (*553*) Del (T 190);
  (*554*) AddTo n_t2new'bbbb (Times (Copy (T 187)) (-1) 1);
  (*555*) AddTo n_t2new'bbbb (Plain (Transpose (T 187) [1;0;2;3]));
  (*556*) Del (T 187);
  (*557*) Assign n_t2new'abab (Times (Einsum [(n_t2'abab,[0;1;2;3]); (T 97,[1;4])] [0;4;2;3]) (-1) 1);
  (*558*) Del (T 97);
  (*559*) AddTo n_t2new'abab (Times (Einsum [(T 98,[0;1;2;3]); (n_v'aabb'oooo,[4;0;5;1])] [4;5;2;3]) (1) 2);
  (*560*) Del (T 98);
  (*561*) AddTo n_t2new'abab (Times (Einsum [(n_t2'abab,[0;1;2;3]); (n_v'aabb'oooo,[4;0;5;1])] [4;5;2;3]) (1) 2);
  (*562*) AddTo n_t2new'abab (Times (Einsum [(n_t2'abab,[0;1;2;3]); (T 36,[0;4])] [4;1;2;3]) (-1) 1);
  (*563*) Del (T 36);
  (*564*) AddTo n_t2new'abab (Plain (Copy (T 99)));
  (*565*) Del (T 99);
  (*566*) AddTo n_t2new'abab (Times (Copy (T 100)) (2) 1);
  (*567*) Del (T 100);
  (*568*) AddTo n_t2new'abab (Times (Einsum [(n_t2'abab,[0;1;2;3]); (T 46,[2;4])] [0;1;4;3]) (-1) 1);
  (*569*) Del (T 46);
  (*570*) AddTo n_t2new'abab (Times (Einsum [(T 107,[0;1]); (n_t2'abab,[2;3;4;0])] [2;3;4;1]) (-1) 1);
  (*571*) Del (T 107);
  (*572*) AddTo n_t2new'abab (Times (Einsum [(n_t2'abab,[0;1;2;3]); (T 108,[4;1])] [0;4;2;3]) (-1) 1);
  (*573*) Del (T 108);
  (*574*) AddTo n_t2new'abab (Plain (Einsum [(T 4,[0;1;2;3]); (T 109,[0;4;5;1])] [4;5;2;3]));
  (*575*) Del (T 109);
  (*576*) AddTo n_t2new'abab (Times (Einsum [(n_t1'bb,[0;1]); (T 110,[2;3;0;4])] [2;3;4;1]) (-1) 1);
  (*577*) Del (T 110);
  (*578*) AddTo n_t2new'abab (Times (Einsum [(T 57,[0;1]); (n_t2'abab,[1;2;3;4])] [0;2;3;4]) (-1) 1);
  (*579*) Del (T 57);
  (*580*) AddTo n_t2new'abab (Plain (Einsum [(T 4,[0;1;2;3]); (T 111,[4;0;1;5])] [4;5;2;3]));
  (*581*) Del (T 111);
  (*582*) AddTo n_t2new'abab (Plain (Copy (T 112)));
  (*583*) Del (T 112);
  (*584*) AddTo n_t2new'abab (Times (Copy (T 113)) (-1) 1);
  (*585*) Del (T 113);
  (*586*) AddTo n_t2new'abab (Plain (Transpose n_v'aabb'ovov [0;2;1;3]));
  (*587*) AddTo n_t2new'abab (Times (Einsum [(n_t2'abab,[0;1;2;3]); (T 115,[4;1;2;5])] [0;4;5;3]) (-1) 1);
  (*588*) Del (T 115);
  (*589*) AddTo n_t2new'abab (Times (Copy (T 116)) (-1) 1);
  (*590*) Del (T 116);
  (*591*) AddTo n_t2new'abab (Times (Einsum [(n_t2'abab,[0;1;2;3]); (T 117,[1;4;2;5])] [0;4;5;3]) (-1) 1);
  (*592*) Del (T 117);
  (*593*) AddTo n_t2new'abab (Times (Copy (T 81)) (-1) 1);
  (*594*) Del (T 81);
  (*595*) AddTo n_t2new'abab (Times (Einsum [(n_t2'abab,[0;1;2;3]); (T 118,[0;4;3;5])] [4;1;2;5]) (-1) 1);
  (*596*) Del (T 118);
  (*597*) AddTo n_t2new'abab (Times (Einsum [(n_t1'bb,[0;1]); (T 119,[2;3;0;4])] [2;3;4;1]) (-1) 1);
  (*598*) Del (T 119);
  (*599*) AddTo n_t2new'abab (Plain (Einsum [(n_t1'aa,[0;1]); (T 120,[2;1;3;4])] [0;2;3;4]));
  (*600*) Del (T 120);
  (*601*) AddTo n_t2new'abab (Plain (Einsum [(T 121,[0;1;2;3]); (T 4,[1;3;4;5])] [0;2;4;5]));
  (*602*) Del (T 121);
  (*603*) AddTo n_t2new'abab (Plain (Einsum [(n_t2'abab,[0;1;2;3]); (T 123,[0;4;2;5])] [4;1;5;3]));
  (*604*) Del (T 123);
  (*605*) AddTo n_t2new'abab (Times (Einsum [(n_t2'bbbb,[0;1;2;3]); (T 125,[4;1;5;3])] [4;0;5;2]) (2) 1);
  (*606*) Del (T 125);
  (*607*) AddTo n_t2new'abab (Plain (Copy (T 82)));
  (*608*) Del (T 82);
  (*609*) AddTo n_t2new'abab (Times (Copy (T 124)) (2) 1);
  (*610*) Del (T 124);
  (*611*) AddTo n_t2new'abab (Times (Einsum [(n_t2'abab,[0;1;2;3]); (T 129,[1;4;3;5])] [0;4;2;5]) (1) 2);
  (*612*) Del (T 129);
  (*613*) AddTo n_t2new'abab (Times (Einsum [(T 130,[0;1;2;3]); (n_t2'aaaa,[4;0;5;2])] [4;1;5;3]) (2) 1);
  (*614*) Del (T 130);
  (*615*) AddTo n_t2new'abab (Plain (Einsum [(T 132,[0;1;2;3]); (n_t2'abab,[4;5;0;2])] [4;5;1;3]));
  (*616*) Del (T 132);
  (*617*) AddTo n_t2new'abab (Plain (Einsum [(n_t2'abab,[0;1;2;3]); (T 133,[4;0;2;5])] [4;1;5;3]));
  (*618*) Del (T 133);
  (*619*) AddTo n_t2new'abab (Times (Einsum [(n_t2'bbbb,[0;1;2;3]); (T 74,[4;1;5;3])] [4;0;5;2]) (2) 1);
  (*620*) Del (T 74);
  (*621*) AddTo n_t2new'abab (Plain (Einsum [(n_t2'abab,[0;1;2;3]); (T 136,[4;1;3;5])] [0;4;2;5]));
  (*622*) Del (T 136);
  (*623*) AddTo n_t2new'abab (Times (Einsum [(T 137,[0;1;2;3]); (n_t2'aaaa,[4;0;5;2])] [4;1;5;3]) (2) 1);
  (*624*) Del (T 137);
  (*625*) AddTo n_t2new'abab (Times (Copy (T 65)) (-1) 1);
  (*626*) Del (T 65);
  (*627*) AddTo n_t2new'abab (Times (Einsum [(T 138,[0;1;2;3]); (n_t2'abab,[1;4;5;2])] [0;4;5;3]) (-1) 1);
  (*628*) Del (T 138);
  (*629*) AddTo n_t2new'abab (Times (Einsum [(T 139,[0;1;2;3]); (n_t1'aa,[1;4])] [0;2;4;3]) (-1) 1);
  (*630*) Del (T 139);
  (*631*) AddTo n_t2new'abab (Times (Einsum [(n_t1'aa,[0;1]); (T 140,[2;0;3;4])] [2;3;1;4]) (-1) 1);
  (*632*) Del (T 140);
  (*633*) AddTo n_t2new'abab (Times (Einsum [(n_t1'aa,[0;1]); (T 141,[2;0;3;4])] [2;3;1;4]) (-1) 1);
  (*634*) Del (T 141);
  (*635*) Assign n_t2new'aaaa (Times (Transpose (T 33) [1;0;3;2]) (2) 1);
  (*636*) Del (T 33);
  (*637*) AddTo n_t2new'aaaa (Plain (Copy (T 35)));
  (*638*) AddTo n_t2new'aaaa (Times (Transpose (T 37) [0;1;3;2]) (-2) 1);
  (*639*) AddTo n_t2new'aaaa (Times (Transpose (T 35) [0;1;3;2]) (-1) 1);
  (*640*) Del (T 35);
  (*641*) AddTo n_t2new'aaaa (Times (Transpose (T 37) [1;0;3;2]) (2) 1);
  (*642*) Del (T 37);
  (*643*) AddTo n_t2new'aaaa (Times (Transpose (T 38) [1;0;3;2]) (2) 1);
  (*644*) AddTo n_t2new'aaaa (Plain (Transpose (T 39) [1;0;3;2]));
  (*645*) AddTo n_t2new'aaaa (Plain (Transpose (T 47) [1;0;3;2]));
  (*646*) AddTo n_t2new'aaaa (Times (Transpose (T 38) [1;0;2;3]) (-2) 1);
  (*647*) AddTo n_t2new'aaaa (Times (Transpose (T 39) [1;0;2;3]) (-1) 1);
  (*648*) AddTo n_t2new'aaaa (Times (Transpose (T 47) [1;0;2;3]) (-1) 1);
  (*649*) Del (T 47);
  (*650*) AddTo n_t2new'aaaa (Plain (Transpose (T 49) [1;0;3;2]));
  (*651*) AddTo n_t2new'aaaa (Times (Transpose (T 51) [1;0;3;2]) (-2) 1);
  (*652*) AddTo n_t2new'aaaa (Plain (Transpose (T 53) [1;0;2;3]));
  (*653*) AddTo n_t2new'aaaa (Times (Transpose (T 53) [1;0;3;2]) (-1) 1);
  (*654*) AddTo n_t2new'aaaa (Times (Einsum [(n_t2'aaaa,[0;1;2;3]); (T 11,[4;1])] [0;4;2;3]) (-1) 1);
  (*655*) Del (T 11);
  (*656*) AddTo n_t2new'aaaa (Times (Transpose (T 49) [1;0;2;3]) (-1) 1);
  (*657*) AddTo n_t2new'aaaa (Times (Transpose (T 58) [0;1;3;2]) (-1) 1);
  (*658*) AddTo n_t2new'aaaa (Times (Transpose (T 49) [0;1;3;2]) (-1) 1);
  (*659*) AddTo n_t2new'aaaa (Times (Transpose (T 51) [0;1;3;2]) (2) 1);
  (*660*) Del (T 51);
  (*661*) AddTo n_t2new'aaaa (Times (Copy (T 53)) (-1) 1);
  (*662*) AddTo n_t2new'aaaa (Plain (Transpose (T 53) [0;1;3;2]));
  (*663*) Del (T 53);
  (*664*) AddTo n_t2new'aaaa (Times (Transpose (T 58) [1;0;3;2]) (2) 1);
  (*665*) Del (T 58);
  (*666*) AddTo n_t2new'aaaa (Plain (Copy (T 49)));
  (*667*) Del (T 49);
  (*668*) AddTo n_t2new'aaaa (Plain (Transpose (T 59) [1;0;2;3]));
  (*669*) AddTo n_t2new'aaaa (Times (Transpose (T 60) [1;0;3;2]) (-1) 1);
  (*670*) AddTo n_t2new'aaaa (Plain (Transpose n_v'aaaa'ovov [0;2;1;3]));
  (*671*) AddTo n_t2new'aaaa (Times (Einsum [(T 63,[0;1;2;3]); (n_t2'aaaa,[4;1;5;3])] [4;0;2;5]) (2) 1);
  (*672*) Del (T 63);
  (*673*) AddTo n_t2new'aaaa (Plain (Transpose (T 67) [0;1;3;2]));
  (*674*) AddTo n_t2new'aaaa (Times (Copy (T 59)) (-1) 1);
  (*675*) AddTo n_t2new'aaaa (Plain (Transpose (T 60) [0;1;3;2]));
  (*676*) AddTo n_t2new'aaaa (Times (Transpose n_v'aaaa'ovov [0;2;3;1]) (-1) 1);
  (*677*) AddTo n_t2new'aaaa (Times (Transpose (T 73) [1;0;3;2]) (-2) 1);
  (*678*) AddTo n_t2new'aaaa (Plain (Transpose (T 75) [1;0;3;2]));
  (*679*) AddTo n_t2new'aaaa (Plain (Transpose (T 76) [0;1;3;2]));
  (*680*) AddTo n_t2new'aaaa (Times (Copy (T 77)) (2) 1);
  (*681*) AddTo n_t2new'aaaa (Times (Transpose (T 77) [1;0;3;2]) (2) 1);
  (*682*) AddTo n_t2new'aaaa (Plain (Transpose (T 80) [1;0;3;2]));
  (*683*) AddTo n_t2new'aaaa (Times (Einsum [(T 83,[0;1;2;3]); (n_t2'abab,[4;1;5;3])] [0;4;2;5]) (-1) 1);
  (*684*) Del (T 83);
  (*685*) AddTo n_t2new'aaaa (Times (Transpose (T 76) [1;0;3;2]) (-1) 1);
  (*686*) AddTo n_t2new'aaaa (Times (Transpose (T 77) [0;1;3;2]) (-2) 1);
  (*687*) AddTo n_t2new'aaaa (Times (Transpose (T 77) [1;0;2;3]) (-2) 1);
  (*688*) Del (T 77);
  (*689*) AddTo n_t2new'aaaa (Times (Transpose (T 80) [0;1;3;2]) (-1) 1);
  (*690*) AddTo n_t2new'aaaa (Plain (Transpose (T 85) [0;1;3;2]));
  (*691*) AddTo n_t2new'aaaa (Times (Copy (T 76)) (-1) 1);
  (*692*) AddTo n_t2new'aaaa (Times (Transpose (T 80) [1;0;2;3]) (-1) 1);
  (*693*) AddTo n_t2new'aaaa (Plain (Transpose (T 85) [1;0;2;3]));
  (*694*) AddTo n_t2new'aaaa (Plain (Transpose (T 76) [1;0;2;3]));
  (*695*) Del (T 76);
  (*696*) AddTo n_t2new'aaaa (Plain (Copy (T 80)));
  (*697*) Del (T 80);
  (*698*) AddTo n_t2new'aaaa (Times (Copy (T 85)) (-1) 1);
  (*699*) Del (T 85);
  (*700*) AddTo n_t2new'aaaa (Times (Transpose (T 87) [0;1;3;2]) (-2) 1);
  (*701*) Del (T 87);
  (*702*) AddTo n_t2new'aaaa (Plain (Transpose (T 59) [0;1;3;2]));
  (*703*) AddTo n_t2new'aaaa (Plain (Copy (T 89)));
  (*704*) AddTo n_t2new'aaaa (Times (Transpose (T 89) [0;1;3;2]) (-1) 1);
  (*705*) Del (T 89);
  (*706*) AddTo n_t2new'aaaa (Plain (Transpose (T 91) [0;1;3;2]));
  (*707*) AddTo n_t2new'aaaa (Times (Transpose (T 91) [1;0;3;2]) (-1) 1);
  (*708*) AddTo n_t2new'aaaa (Plain (Copy (T 93)));
  (*709*) AddTo n_t2new'aaaa (Times (Transpose (T 93) [0;1;3;2]) (-1) 1);
  (*710*) Del (T 93);
  (*711*) AddTo n_t2new'aaaa (Times (Transpose (T 59) [1;0;3;2]) (-1) 1);
  (*712*) Del (T 59);
  (*713*) AddTo n_t2new'aaaa (Times (Einsum [(n_t2'aaaa,[0;1;2;3]); (T 95,[2;4;5;3])] [0;1;5;4]) (-2) 1);
  (*714*) Del (T 95);
  (*715*) AddTo n_t2new'aaaa (Times (Transpose (T 39) [0;1;3;2]) (-1) 1);
  (*716*) AddTo n_t2new'aaaa (Times (Transpose (T 38) [0;1;3;2]) (-2) 1);
  (*717*) AddTo n_t2new'aaaa (Plain (Copy (T 39)));
  (*718*) Del (T 39);
  (*719*) AddTo n_t2new'aaaa (Times (Copy (T 38)) (2) 1);
  (*720*) Del (T 38);
  (*721*) AddTo n_t2new'aaaa (Plain (Transpose (T 60) [1;0;2;3]));
  (*722*) AddTo n_t2new'aaaa (Times (Copy (T 73)) (-2) 1);
  (*723*) AddTo n_t2new'aaaa (Times (Copy (T 67)) (-1) 1);
  (*724*) Del (T 67);
  (*725*) AddTo n_t2new'aaaa (Times (Copy (T 60)) (-1) 1);
  (*726*) Del (T 60);
  (*727*) AddTo n_t2new'aaaa (Times (Transpose (T 73) [1;0;2;3]) (2) 1);
  (*728*) Del (T 73);
  (*729*) AddTo n_t2new'aaaa (Times (Transpose (T 75) [1;0;2;3]) (-1) 1);
  (*730*) Del (T 75);
  (*731*) AddTo n_t2new'aaaa (Times (Einsum [(T 96,[0;1;2;3]); (n_t1'aa,[2;4])] [0;1;4;3]) (-2) 1);
  (*732*) Del (T 96);
  (*733*) AddTo n_t2new'aaaa (Times (Copy (T 91)) (-1) 1);
  (*734*) AddTo n_t2new'aaaa (Plain (Transpose (T 91) [1;0;2;3]));
  (*735*) Del (T 91);
  (*736*) Assign n_t1new'bb (Times (Einsum [(T 22,[0;1;2;3]); (n_t2'abab,[0;2;3;4])] [1;4]) (-1) 1);
  (*737*) Del (T 22);
  (*738*) AddTo n_t1new'bb (Plain (Einsum [(n_v'bbbb'ovov,[0;1;2;3]); (n_t1'bb,[2;3])] [0;1]));
  (*739*) AddTo n_t1new'bb (Plain (Copy n_f'bb'ov));
  (*740*) AddTo n_t1new'bb (Times (Einsum [(n_t2'bbbb,[0;1;2;3]); (T 23,[4;1;0;3])] [4;2]) (-2) 1);
  (*741*) Del (T 23);
  (*742*) AddTo n_t1new'bb (Plain (Copy (T 14)));
  (*743*) Del (T 14);
  (*744*) AddTo n_t1new'bb (Plain (Einsum [(n_v'aabb'ovvv,[0;1;2;3]); (T 4,[0;4;1;3])] [4;2]));
  (*745*) AddTo n_t1new'bb (Plain (Einsum [(n_v'bbbb'ovvv,[0;1;2;3]); (T 24,[0;4;1;3])] [4;2]));
  (*746*) Del (T 24);
  (*747*) AddTo n_t1new'bb (Times (Einsum [(n_t1'bb,[0;1]); (T 27,[0;2])] [2;1]) (-2) 1);
  (*748*) Del (T 27);
  (*749*) AddTo n_t1new'bb (Plain (Einsum [(n_t1'bb,[0;1]); (T 28,[1;2])] [0;2]));
  (*750*) Del (T 28);
  (*751*) AddTo n_t1new'bb (Times (Einsum [(n_v'bbbb'oovv,[0;1;2;3]); (n_t1'bb,[1;3])] [0;2]) (-1) 1);
  (*752*) AddTo n_t1new'bb (Times (Einsum [(n_t2'bbbb,[0;1;2;3]); (n_v'bbbb'ooov,[4;0;1;3])] [4;2]) (-2) 1);
  (*753*) AddTo n_t1new'bb (Times (Einsum [(n_v'aabb'ovoo,[0;1;2;3]); (n_t2'abab,[0;3;1;4])] [2;4]) (-1) 1);
  (*754*) AddTo n_t1new'bb (Plain (Einsum [(n_t2'abab,[0;1;2;3]); (T 10,[0;2])] [1;3]));
  (*755*) AddTo n_t1new'bb (Times (Einsum [(n_t2'bbbb,[0;1;2;3]); (T 17,[1;3])] [0;2]) (2) 1);
  (*756*) AddTo n_t1new'bb (Times (Einsum [(n_t1'bb,[0;1]); (T 32,[0;2])] [2;1]) (-1) 1);
  (*757*) Del (T 32);
  (*758*) Assign n_t1new'aa (Plain (Einsum [(n_v'aaaa'ovov,[0;1;2;3]); (n_t1'aa,[2;3])] [0;1]));
  (*759*) AddTo n_t1new'aa (Times (Einsum [(n_t2'aaaa,[0;1;2;3]); (T 1,[4;1;0;3])] [4;2]) (-2) 1);
  (*760*) Del (T 1);
  (*761*) AddTo n_t1new'aa (Plain (Copy n_f'aa'ov));
  (*762*) AddTo n_t1new'aa (Times (Einsum [(T 2,[0;1;2;3]); (n_t2'abab,[1;2;4;3])] [0;4]) (-1) 1);
  (*763*) Del (T 2);
  (*764*) AddTo n_t1new'aa (Plain (Copy (T 3)));
  (*765*) Del (T 3);
  (*766*) AddTo n_t1new'aa (Plain (Einsum [(n_v'aabb'vvov,[0;1;2;3]); (T 4,[4;2;1;3])] [4;0]));
  (*767*) Del (T 4);
  (*768*) AddTo n_t1new'aa (Plain (Einsum [(n_v'aaaa'ovvv,[0;1;2;3]); (T 5,[0;4;1;3])] [4;2]));
  (*769*) Del (T 5);
  (*770*) AddTo n_t1new'aa (Times (Einsum [(n_t1'aa,[0;1]); (T 12,[0;2])] [2;1]) (-1) 1);
  (*771*) Del (T 12);
  (*772*) AddTo n_t1new'aa (Plain (Einsum [(T 13,[0;1]); (n_t1'aa,[2;0])] [2;1]));
  (*773*) Del (T 13);
  (*774*) AddTo n_t1new'aa (Times (Einsum [(n_v'aaaa'oovv,[0;1;2;3]); (n_t1'aa,[1;3])] [0;2]) (-1) 1);
  (*775*) AddTo n_t1new'aa (Times (Einsum [(n_v'aabb'ooov,[0;1;2;3]); (n_t2'abab,[1;2;4;3])] [0;4]) (-1) 1);
  (*776*) AddTo n_t1new'aa (Times (Einsum [(n_t2'aaaa,[0;1;2;3]); (n_v'aaaa'ooov,[4;0;1;3])] [4;2]) (-2) 1);
  (*777*) AddTo n_t1new'aa (Times (Einsum [(n_t2'aaaa,[0;1;2;3]); (T 10,[1;3])] [0;2]) (2) 1);
  (*778*) Del (T 10);
  (*779*) AddTo n_t1new'aa (Plain (Einsum [(T 17,[0;1]); (n_t2'abab,[2;0;3;1])] [2;3]));
  (*780*) Del (T 17);
  (*781*) AddTo n_t1new'aa (Times (Einsum [(T 21,[0;1]); (n_t1'aa,[0;2])] [1;2]) (-1) 1);
  (*782*) Del (T 21)]
 [(n_t1new'bb,[6;7]); (n_t1new'aa,[4;5]); (n_t2new'bbbb,[6;6;7;7]); (n_t2new'abab,[4;6;5;7]); (n_t2new'aaaa,[4;4;5;5])].

