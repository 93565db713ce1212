(** Generated by tools/translate_codegen.py from ebcc/codegen/UCCSD.py; one statement per source line
    (the number in the comment before it). *)
From Coq Require Import ZArith List.
From Verif Require Import CgModel CgNames.
Import ListNotations.

(** ebcc/codegen/UCCSD.py:19-59 [energy] *)
Definition UCCSD_energy : prog := mkprog
 [(n_v'bbbb'ovov,[6;7;6;7]); (n_v'aaaa'ovov,[4;5;4;5]); (n_f'bb'ov,[6;7]); (n_v'aabb'ovov,[4;5;6;7]); (n_t1'aa,[4;5]); (n_t1'bb,[6;7]); (n_f'aa'ov,[4;5]); (n_t2'bbbb,[6;6;7;7]); (n_t2'aaaa,[4;4;5;5]); (n_t2'abab,[4;6;5;7])]
 [(*40*) Assign (T 1) (Plain (Transpose n_v'bbbb'ovov [0;2;3;1]));
  (*41*) AddTo (T 1) (Times (Transpose n_v'bbbb'ovov [0;2;1;3]) (-1) 1);
  (*42*) Assign (T 3) (Times (Transpose n_v'aaaa'ovov [0;2;3;1]) (-1) 1);
  (*43*) AddTo (T 3) (Plain (Transpose n_v'aaaa'ovov [0;2;1;3]));
  (*44*) Assign (T 2) (Times (Copy n_f'bb'ov) (2) 1);
  (*45*) AddTo (T 2) (Times (Einsum [(n_v'aabb'ovov,[0;1;2;3]); (n_t1'aa,[0;1])] [2;3]) (2) 1);
  (*46*) AddTo (T 2) (Times (Einsum [(T 1,[0;1;2;3]); (n_t1'bb,[0;2])] [1;3]) (-1) 1);
  (*47*) Del (T 1);
  (*48*) Assign (T 4) (Plain (Copy n_f'aa'ov));
  (*49*) AddTo (T 4) (Times (Einsum [(n_t1'aa,[0;1]); (T 3,[0;2;3;1])] [2;3]) (-1) 2);
  (*50*) Del (T 3);
  (*51*) Assign n_e_cc (Plain (Einsum [(n_v'bbbb'ovov,[0;1;2;3]); (n_t2'bbbb,[0;2;1;3])] []));
  (*52*) AddTo n_e_cc (Times (Einsum [(n_v'aaaa'ovov,[0;1;2;3]); (n_t2'aaaa,[0;2;3;1])] []) (-1) 1);
  (*53*) AddTo n_e_cc (Plain (Einsum [(n_v'aabb'ovov,[0;1;2;3]); (n_t2'abab,[0;2;1;3])] []));
  (*54*) AddTo n_e_cc (Times (Einsum [(T 2,[0;1]); (n_t1'bb,[0;1])] []) (1) 2);
  (*55*) Del (T 2);
  (*56*) AddTo n_e_cc (Plain (Einsum [(T 4,[0;1]); (n_t1'aa,[0;1])] []));
  (*57*) Del (T 4)]
 [(n_e_cc,[])].

(** ebcc/codegen/UCCSD.py:61-866 [update_amps] *)
Definition UCCSD_update_amps : prog := mkprog
 [(n_v'bbbb'ovov,[6;7;6;7]); (n_v'aaaa'ovov,[4;5;4;5]); (n_v'aabb'ovov,[4;5;6;7]); (n_t1'aa,[4;5]); (n_t1'bb,[6;7]); (n_v'bbbb'ooov,[6;6;6;7]); (n_f'bb'ov,[6;7]); (n_v'bbbb'ovvv,[6;7;7;7]); (n_v'bbbb'ovoo,[6;7;6;6]); (n_v'aaaa'ovvv,[4;5;5;5]); (n_v'aaaa'ooov,[4;4;4;5]); (n_v'aaaa'ovoo,[4;5;4;4]); (n_f'aa'ov,[4;5]); (n_v'aabb'ovvv,[4;5;7;7]); (n_t2'abab,[4;6;5;7]); (n_t2'bbbb,[6;6;7;7]); (n_v'aabb'ovoo,[4;5;6;6]); (n_v'aabb'vvov,[5;5;6;7]); (n_v'aabb'ooov,[4;4;6;7]); (n_t2'aaaa,[4;4;5;5]); (n_v'bbbb'vvvv,[7;7;7;7]); (n_v'bbbb'oovv,[6;6;7;7]); (n_f'bb'oo,[6;6]); (n_v'aaaa'vvvv,[5;5;5;5]); (n_v'aaaa'oovv,[4;4;5;5]); (n_f'aa'oo,[4;4]); (n_v'bbbb'oooo,[6;6;6;6]); (n_f'bb'vv,[7;7]); (n_v'aabb'vvvv,[5;5;7;7]); (n_f'aa'vv,[5;5]); (n_v'aabb'vvoo,[5;5;6;6]); (n_v'aabb'oovv,[4;4;7;7]); (n_v'aaaa'oooo,[4;4;4;4]); (n_v'aabb'oooo,[4;4;6;6])]
 [(*86*) Assign (T 15) (Plain (Transpose n_v'bbbb'ovov [0;2;3;1]));
  (*87*) AddTo (T 15) (Times (Transpose n_v'bbbb'ovov [0;2;1;3]) (-1) 1);
  (*88*) Assign (T 8) (Times (Transpose n_v'aaaa'ovov [0;2;3;1]) (-1) 1);
  (*89*) AddTo (T 8) (Plain (Transpose n_v'aaaa'ovov [0;2;1;3]));
  (*90*) Assign (T 118) (Plain (Transpose n_v'bbbb'ovov [0;2;3;1]));
  (*91*) AddTo (T 118) (Times (Transpose n_v'bbbb'ovov [0;2;1;3]) (-1) 1);
  (*92*) Assign (T 14) (Plain (Einsum [(n_v'aabb'ovov,[0;1;2;3]); (n_t1'aa,[0;1])] [2;3]));
  (*93*) Assign (T 16) (Plain (Einsum [(T 15,[0;1;2;3]); (n_t1'bb,[0;2])] [1;3]));
  (*94*) Assign (T 23) (Plain (Einsum [(n_v'bbbb'ovov,[0;1;2;3]); (n_t1'bb,[4;3])] [4;0;2;1]));
  (*95*) Assign (T 2) (Plain (Einsum [(n_v'aaaa'ovov,[0;1;2;3]); (n_t1'aa,[4;3])] [4;0;2;1]));
  (*96*) Assign (T 9) (Plain (Einsum [(n_t1'aa,[0;1]); (T 8,[0;2;3;1])] [2;3]));
  (*97*) Assign (T 3) (Plain (Einsum [(n_v'aabb'ovov,[0;1;2;3]); (n_t1'bb,[2;3])] [0;1]));
  (*98*) Assign (T 22) (Plain (Einsum [(n_t1'bb,[0;1]); (n_v'aabb'ovov,[2;3;4;1])] [2;0;4;3]));
  (*99*) Assign (T 119) (Plain (Einsum [(T 118,[0;1;2;3]); (n_t1'bb,[0;2])] [1;3]));
  (*100*) Assign (T 198) (Plain (Copy n_v'bbbb'ooov));
  (*101*) AddTo (T 198) (Times (Transpose n_v'bbbb'ooov [0;2;1;3]) (-1) 1);
  (*102*) Assign (T 17) (Plain (Copy n_f'bb'ov));
  (*103*) AddTo (T 17) (Plain (Copy (T 14)));
  (*104*) AddTo (T 17) (Times (Copy (T 16)) (-1) 1);
  (*105*) Del (T 16);
  (*106*) Assign (T 185) (Plain (Copy (T 23)));
  (*107*) AddTo (T 185) (Times (Transpose (T 23) [0;2;1;3]) (-1) 1);
  (*108*) Assign (T 150) (Times (Copy n_v'bbbb'ovvv) (-1) 1);
  (*109*) AddTo (T 150) (Plain (Transpose n_v'bbbb'ovvv [0;2;1;3]));
  (*110*) Assign (T 142) (Plain (Copy n_v'bbbb'ooov));
  (*111*) AddTo (T 142) (Times (Transpose n_v'bbbb'ovoo [0;2;3;1]) (-1) 1);
  (*112*) Assign (T 1) (Plain (Einsum [(n_t1'aa,[0;1]); (n_v'aabb'ovov,[2;1;3;4])] [0;2;3;4]));
  (*113*) Assign (T 72) (Plain (Copy n_v'aaaa'ovvv));
  (*114*) AddTo (T 72) (Times (Transpose n_v'aaaa'ovvv [0;2;1;3]) (-1) 1);
  (*115*) Assign (T 74) (Times (Copy (T 2)) (-1) 1);
  (*116*) AddTo (T 74) (Plain (Transpose (T 2) [0;2;1;3]));
  (*117*) Assign (T 83) (Times (Copy n_v'aaaa'ooov) (-1) 1);
  (*118*) AddTo (T 83) (Plain (Transpose n_v'aaaa'ovoo [0;2;3;1]));
  (*119*) Assign (T 35) (Plain (Copy n_v'aaaa'ooov));
  (*120*) AddTo (T 35) (Times (Transpose n_v'aaaa'ovoo [0;2;3;1]) (-1) 1);
  (*121*) Assign (T 10) (Plain (Copy n_f'aa'ov));
  (*122*) AddTo (T 10) (Plain (Copy (T 3)));
  (*123*) AddTo (T 10) (Times (Copy (T 9)) (-1) 1);
  (*124*) Del (T 9);
  (*125*) Assign (T 128) (Plain (Einsum [(n_t1'bb,[0;1]); (T 22,[2;3;0;4])] [2;3;4;1]));
  (*126*) Assign (T 129) (Plain (Einsum [(n_v'aabb'ovvv,[0;1;2;3]); (n_t1'bb,[4;3])] [0;4;1;2]));
  (*127*) Assign (T 30) (Plain (Copy n_v'bbbb'ooov));
  (*128*) AddTo (T 30) (Times (Transpose n_v'bbbb'ovoo [0;2;3;1]) (-1) 1);
  (*129*) Assign (T 179) (Plain (Einsum [(n_t1'bb,[0;1]); (n_v'bbbb'ovvv,[2;3;4;1])] [0;2;3;4]));
  (*130*) Assign (T 172) (Plain (Einsum [(n_v'bbbb'ooov,[0;1;2;3]); (n_t1'bb,[4;3])] [4;0;1;2]));
  (*131*) Assign (T 120) (Plain (Copy n_f'bb'ov));
  (*132*) AddTo (T 120) (Plain (Copy (T 14)));
  (*133*) AddTo (T 120) (Times (Copy (T 119)) (-1) 1);
  (*134*) Del (T 119);
  (*135*) Assign (T 202) (Plain (Einsum [(n_t1'bb,[0;1]); (T 23,[2;3;4;1])] [2;0;4;3]));
  (*136*) Assign (T 199) (Plain (Einsum [(n_t1'bb,[0;1]); (T 198,[2;3;0;4])] [2;3;1;4]));
  (*137*) Del (T 198);
  (*138*) Assign (T 25) (Plain (Einsum [(n_v'aabb'ovov,[0;1;2;3]); (n_t2'abab,[0;4;1;3])] [4;2]));
  (*139*) Assign (T 123) (Plain (Einsum [(n_t1'bb,[0;1]); (T 17,[2;1])] [0;2]));
  (*140*) Assign (T 26) (Times (Einsum [(n_t2'bbbb,[0;1;2;3]); (n_v'bbbb'ovov,[4;3;1;2])] [0;4]) (-1) 1);
  (*141*) Assign (T 186) (Plain (Einsum [(n_t1'bb,[0;1]); (T 185,[2;0;3;4])] [2;3;1;4]));
  (*142*) Del (T 185);
  (*143*) Assign (T 184) (Plain (Einsum [(n_t1'bb,[0;1]); (T 150,[2;1;3;4])] [0;2;3;4]));
  (*144*) Assign (T 29) (Plain (Einsum [(n_v'aabb'ovoo,[0;1;2;3]); (n_t1'aa,[0;1])] [2;3]));
  (*145*) Assign (T 160) (Plain (Einsum [(n_t1'bb,[0;1]); (T 142,[0;2;3;1])] [2;3]));
  (*146*) Assign (T 46) (Plain (Copy n_v'aaaa'ovvv));
  (*147*) AddTo (T 46) (Times (Transpose n_v'aaaa'ovvv [0;2;3;1]) (-1) 1);
  (*148*) Assign (T 98) (Plain (Einsum [(T 2,[0;1;2;3]); (n_t1'aa,[4;3])] [0;4;2;1]));
  (*149*) Assign (T 54) (Plain (Einsum [(n_v'aaaa'ooov,[0;1;2;3]); (n_t1'aa,[4;3])] [4;0;1;2]));
  (*150*) Assign (T 69) (Plain (Einsum [(n_t1'aa,[0;1]); (T 1,[2;0;3;4])] [2;3;1;4]));
  (*151*) Assign (T 68) (Plain (Einsum [(n_t1'aa,[0;1]); (n_v'aabb'vvov,[2;1;3;4])] [0;3;2;4]));
  (*152*) Assign (T 73) (Plain (Einsum [(T 72,[0;1;2;3]); (n_t1'aa,[4;2])] [4;0;1;3]));
  (*153*) Del (T 72);
  (*154*) Assign (T 75) (Plain (Einsum [(n_t1'aa,[0;1]); (T 74,[2;3;0;4])] [2;3;1;4]));
  (*155*) Del (T 74);
  (*156*) Assign (T 51) (Times (Transpose n_v'aaaa'ovov [0;2;3;1]) (-1) 1);
  (*157*) AddTo (T 51) (Plain (Transpose n_v'aaaa'ovov [0;2;1;3]));
  (*158*) Assign (T 84) (Plain (Einsum [(n_t1'aa,[0;1]); (T 83,[0;2;3;4])] [2;3;1;4]));
  (*159*) Del (T 83);
  (*160*) Assign (T 63) (Plain (Einsum [(n_v'aaaa'ovvv,[0;1;2;3]); (n_t1'aa,[4;3])] [4;0;1;2]));
  (*161*) Assign (T 18) (Plain (Einsum [(n_t1'bb,[0;1]); (n_v'aabb'ooov,[2;3;0;1])] [2;3]));
  (*162*) Assign (T 36) (Plain (Einsum [(n_t1'aa,[0;1]); (T 35,[0;2;3;1])] [2;3]));
  (*163*) Assign (T 7) (Plain (Einsum [(n_v'aabb'ovov,[0;1;2;3]); (n_t2'abab,[4;2;1;3])] [4;0]));
  (*164*) Assign (T 6) (Plain (Einsum [(n_v'aaaa'ovov,[0;1;2;3]); (n_t2'aaaa,[4;2;1;3])] [4;0]));
  (*165*) Assign (T 60) (Times (Einsum [(T 10,[0;1]); (n_t1'aa,[2;1])] [2;0]) (1) 2);
  (*166*) Assign (T 19) (Plain (Copy n_v'aaaa'ooov));
  (*167*) AddTo (T 19) (Times (Transpose n_v'aaaa'ovoo [0;2;3;1]) (-1) 1);
  (*168*) Assign (T 132) (Plain (Einsum [(n_t1'bb,[0;1]); (n_v'aabb'ovoo,[2;3;4;0])] [2;4;3;1]));
  (*169*) Assign (T 182) (Times (Copy (T 129)) (-1) 1);
  (*170*) AddTo (T 182) (Plain (Copy (T 128)));
  (*171*) Assign (T 115) (Plain (Einsum [(n_v'aabb'ovov,[0;1;2;3]); (n_t2'bbbb,[4;2;5;3])] [0;4;1;5]));
  (*172*) Assign (T 31) (Plain (Einsum [(n_t1'bb,[0;1]); (T 30,[0;2;3;1])] [2;3]));
  (*173*) Assign (T 206) (Plain (Einsum [(T 179,[0;1;2;3]); (n_t1'bb,[4;2])] [4;0;1;3]));
  (*174*) Assign (T 212) (Plain (Copy n_v'bbbb'ovvv));
  (*175*) AddTo (T 212) (Plain (Einsum [(n_v'bbbb'ovov,[0;1;2;3]); (n_t1'bb,[2;4])] [0;3;4;1]));
  (*176*) Assign (T 196) (Plain (Einsum [(n_v'aabb'ovoo,[0;1;2;3]); (n_t2'abab,[0;4;1;5])] [4;2;3;5]));
  (*177*) Assign (T 174) (Plain (Einsum [(n_t1'bb,[0;1]); (T 172,[2;3;4;0])] [2;4;3;1]));
  (*178*) Assign (T 121) (Plain (Einsum [(n_t1'bb,[0;1]); (T 120,[0;2])] [1;2]));
  (*179*) Del (T 120);
  (*180*) Assign (T 116) (Plain (Einsum [(n_v'aabb'ovvv,[0;1;2;3]); (n_t1'aa,[0;1])] [2;3]));
  (*181*) Assign (T 204) (Plain (Einsum [(n_t1'bb,[0;1]); (T 202,[2;3;0;4])] [3;2;4;1]));
  (*182*) Assign (T 113) (Plain (Einsum [(n_v'bbbb'ovov,[0;1;2;3]); (n_t2'bbbb,[0;2;4;3])] [4;1]));
  (*183*) Assign (T 112) (Plain (Einsum [(n_v'aabb'ovov,[0;1;2;3]); (n_t2'abab,[0;2;1;4])] [4;3]));
  (*184*) Assign (T 208) (Plain (Einsum [(n_v'bbbb'vvvv,[0;1;2;3]); (n_t1'bb,[4;3])] [4;0;1;2]));
  (*185*) Assign (T 153) (Plain (Copy (T 129)));
  (*186*) AddTo (T 153) (Times (Copy (T 128)) (-1) 1);
  (*187*) Assign (T 200) (Plain (Copy n_v'bbbb'oovv));
  (*188*) AddTo (T 200) (Times (Transpose (T 199) [1;0;2;3]) (-1) 1);
  (*189*) Del (T 199);
  (*190*) Assign (T 176) (Plain (Copy (T 25)));
  (*191*) AddTo (T 176) (Times (Copy (T 26)) (2) 1);
  (*192*) AddTo (T 176) (Plain (Copy (T 123)));
  (*193*) Assign (T 187) (Times (Transpose (T 184) [0;1;3;2]) (-1) 1);
  (*194*) Del (T 184);
  (*195*) AddTo (T 187) (Times (Copy (T 186)) (-1) 1);
  (*196*) Del (T 186);
  (*197*) Assign (T 180) (Plain (Copy (T 23)));
  (*198*) AddTo (T 180) (Times (Transpose (T 23) [0;2;1;3]) (-1) 1);
  (*199*) Assign (T 167) (Times (Copy n_v'bbbb'ovvv) (-1) 1);
  (*200*) AddTo (T 167) (Plain (Transpose n_v'bbbb'ovvv [0;2;1;3]));
  (*201*) Assign (T 161) (Plain (Copy n_f'bb'oo));
  (*202*) AddTo (T 161) (Plain (Transpose (T 29) [1;0]));
  (*203*) AddTo (T 161) (Times (Transpose (T 160) [1;0]) (-1) 1);
  (*204*) Del (T 160);
  (*205*) Assign (T 170) (Plain (Einsum [(n_t1'bb,[0;1]); (n_v'bbbb'oovv,[2;3;4;1])] [0;2;3;4]));
  (*206*) Assign (T 210) (Plain (Einsum [(n_t2'bbbb,[0;1;2;3]); (n_v'bbbb'ovov,[4;2;5;3])] [0;1;4;5]));
  (*207*) Assign (T 117) (Times (Copy n_v'bbbb'ovvv) (-1) 1);
  (*208*) AddTo (T 117) (Plain (Transpose n_v'bbbb'ovvv [0;2;3;1]));
  (*209*) Assign (T 47) (Plain (Einsum [(T 46,[0;1;2;3]); (n_t1'aa,[0;1])] [2;3]));
  (*210*) Del (T 46);
  (*211*) Assign (T 40) (Plain (Einsum [(n_v'aabb'ovov,[0;1;2;3]); (n_t2'abab,[0;2;4;3])] [4;1]));
  (*212*) Assign (T 39) (Plain (Einsum [(n_t2'aaaa,[0;1;2;3]); (n_v'aaaa'ovov,[0;4;1;3])] [2;4]));
  (*213*) Assign (T 45) (Plain (Einsum [(n_v'aabb'vvov,[0;1;2;3]); (n_t1'bb,[2;3])] [0;1]));
  (*214*) Assign (T 48) (Plain (Einsum [(n_t1'aa,[0;1]); (T 10,[0;2])] [1;2]));
  (*215*) Assign (T 130) (Plain (Einsum [(n_v'aabb'vvov,[0;1;2;3]); (n_t1'bb,[4;3])] [4;2;0;1]));
  (*216*) Assign (T 145) (Plain (Transpose n_v'aabb'vvov [2;0;1;3]));
  (*217*) AddTo (T 145) (Times (Einsum [(n_v'aabb'ovov,[0;1;2;3]); (n_t1'aa,[0;4])] [2;4;1;3]) (-1) 1);
  (*218*) Assign (T 139) (Plain (Einsum [(n_t2'aaaa,[0;1;2;3]); (n_v'aabb'ovov,[1;3;4;5])] [0;4;2;5]));
  (*219*) Assign (T 86) (Plain (Einsum [(n_t1'aa,[0;1]); (n_v'aabb'ooov,[2;0;3;4])] [2;3;1;4]));
  (*220*) Assign (T 148) (Plain (Copy (T 2)));
  (*221*) AddTo (T 148) (Times (Transpose (T 2) [0;2;1;3]) (-1) 1);
  (*222*) Assign (T 147) (Times (Copy n_v'aaaa'ovvv) (-1) 1);
  (*223*) AddTo (T 147) (Plain (Transpose n_v'aaaa'ovvv [0;2;1;3]));
  (*224*) Assign (T 43) (Plain (Einsum [(n_v'aabb'ovov,[0;1;2;3]); (n_t2'abab,[4;2;5;3])] [4;0;5;1]));
  (*225*) Assign (T 82) (Plain (Transpose n_v'aaaa'ovov [0;2;3;1]));
  (*226*) AddTo (T 82) (Times (Transpose n_v'aaaa'ovov [0;2;1;3]) (-1) 1);
  (*227*) Assign (T 11) (Plain (Einsum [(T 10,[0;1]); (n_t1'aa,[2;1])] [2;0]));
  (*228*) Assign (T 151) (Times (Copy (T 23)) (-1) 1);
  (*229*) AddTo (T 151) (Plain (Transpose (T 23) [0;2;1;3]));
  (*230*) Assign (T 108) (Plain (Copy n_v'aaaa'ovvv));
  (*231*) AddTo (T 108) (Plain (Einsum [(n_v'aaaa'ovov,[0;1;2;3]); (n_t1'aa,[2;4])] [0;3;1;4]));
  (*232*) Assign (T 102) (Plain (Einsum [(n_t1'aa,[0;1]); (T 98,[2;3;0;4])] [3;2;4;1]));
  (*233*) Assign (T 65) (Plain (Copy n_v'aaaa'ovvv));
  (*234*) AddTo (T 65) (Times (Transpose n_v'aaaa'ovvv [0;2;1;3]) (-1) 1);
  (*235*) Assign (T 66) (Times (Copy (T 2)) (-1) 1);
  (*236*) AddTo (T 66) (Plain (Transpose (T 2) [0;2;1;3]));
  (*237*) Assign (T 58) (Plain (Einsum [(n_t1'aa,[0;1]); (T 54,[2;3;4;0])] [2;4;3;1]));
  (*238*) Assign (T 70) (Times (Copy (T 68)) (-1) 1);
  (*239*) AddTo (T 70) (Plain (Copy (T 69)));
  (*240*) Assign (T 76) (Times (Transpose (T 73) [0;1;3;2]) (-1) 1);
  (*241*) Del (T 73);
  (*242*) AddTo (T 76) (Times (Copy (T 75)) (-1) 1);
  (*243*) Del (T 75);
  (*244*) Assign (T 104) (Plain (Einsum [(n_t1'aa,[0;1]); (n_v'aaaa'vvvv,[2;3;4;1])] [0;2;3;4]));
  (*245*) Assign (T 92) (Times (Transpose n_v'bbbb'ovov [0;2;3;1]) (-1) 1);
  (*246*) AddTo (T 92) (Plain (Transpose n_v'bbbb'ovov [0;2;1;3]));
  (*247*) Assign (T 52) (Plain (Copy n_f'aa'ov));
  (*248*) AddTo (T 52) (Plain (Copy (T 3)));
  (*249*) AddTo (T 52) (Times (Einsum [(T 51,[0;1;2;3]); (n_t1'aa,[0;3])] [1;2]) (-1) 1);
  (*250*) Assign (T 50) (Plain (Copy n_v'aaaa'ovvv));
  (*251*) AddTo (T 50) (Times (Transpose n_v'aaaa'ovvv [0;2;3;1]) (-1) 1);
  (*252*) Assign (T 96) (Plain (Copy n_v'aaaa'oovv));
  (*253*) AddTo (T 96) (Times (Transpose (T 84) [1;0;2;3]) (-1) 1);
  (*254*) Assign (T 89) (Plain (Transpose n_v'aaaa'ovov [0;2;3;1]));
  (*255*) AddTo (T 89) (Times (Transpose n_v'aaaa'ovov [0;2;1;3]) (-1) 1);
  (*256*) Assign (T 90) (Times (Copy n_v'aaaa'ooov) (-1) 1);
  (*257*) AddTo (T 90) (Plain (Transpose n_v'aaaa'ovoo [0;2;3;1]));
  (*258*) Assign (T 106) (Times (Einsum [(n_t2'aaaa,[0;1;2;3]); (n_v'aaaa'ovov,[4;3;5;2])] [0;1;4;5]) (-1) 1);
  (*259*) Assign (T 78) (Plain (Copy (T 68)));
  (*260*) Del (T 68);
  (*261*) AddTo (T 78) (Times (Copy (T 69)) (-1) 1);
  (*262*) Assign (T 100) (Plain (Einsum [(n_t1'aa,[0;1]); (T 63,[2;3;1;4])] [0;2;3;4]));
  (*263*) Assign (T 37) (Plain (Copy n_f'aa'oo));
  (*264*) AddTo (T 37) (Plain (Transpose (T 18) [1;0]));
  (*265*) AddTo (T 37) (Times (Transpose (T 36) [1;0]) (-1) 1);
  (*266*) Del (T 36);
  (*267*) Assign (T 94) (Plain (Einsum [(n_v'aabb'ooov,[0;1;2;3]); (n_t2'abab,[4;2;5;3])] [4;0;1;5]));
  (*268*) Assign (T 61) (Plain (Copy (T 6)));
  (*269*) AddTo (T 61) (Times (Copy (T 7)) (1) 2);
  (*270*) AddTo (T 61) (Plain (Copy (T 60)));
  (*271*) Del (T 60);
  (*272*) Assign (T 20) (Plain (Einsum [(T 19,[0;1;2;3]); (n_t1'aa,[0;3])] [1;2]));
  (*273*) Del (T 19);
  (*274*) Assign (T 87) (Times (Transpose n_v'bbbb'ovov [0;2;3;1]) (-1) 1);
  (*275*) AddTo (T 87) (Plain (Transpose n_v'bbbb'ovov [0;2;1;3]));
  (*276*) Assign (T 56) (Plain (Einsum [(n_t1'aa,[0;1]); (n_v'aaaa'oovv,[2;3;4;1])] [0;2;3;4]));
  (*277*) Assign (T 193) (Plain (Copy (T 132)));
  (*278*) AddTo (T 193) (Plain (Einsum [(T 51,[0;1;2;3]); (n_t2'abab,[0;4;3;5])] [1;4;2;5]));
  (*279*) Del (T 51);
  (*280*) Assign (T 183) (Plain (Einsum [(T 182,[0;1;2;3]); (n_t2'abab,[0;4;2;5])] [4;1;5;3]));
  (*281*) Del (T 182);
  (*282*) Assign (T 165) (Plain (Einsum [(n_t2'bbbb,[0;1;2;3]); (n_v'bbbb'ovov,[4;5;1;3])] [0;4;2;5]));
  (*283*) Assign (T 191) (Plain (Einsum [(T 115,[0;1;2;3]); (n_t2'abab,[0;4;2;5])] [4;1;5;3]));
  (*284*) Assign (T 32) (Plain (Copy n_f'bb'oo));
  (*285*) AddTo (T 32) (Plain (Transpose (T 29) [1;0]));
  (*286*) Del (T 29);
  (*287*) AddTo (T 32) (Times (Transpose (T 31) [1;0]) (-1) 1);
  (*288*) Del (T 31);
  (*289*) Assign (T 166) (Plain (Einsum [(n_v'aabb'ovov,[0;1;2;3]); (n_t2'abab,[0;4;1;5])] [4;2;5;3]));
  (*290*) Assign (T 207) (Plain (Einsum [(n_t1'bb,[0;1]); (T 206,[2;3;0;4])] [2;3;1;4]));
  (*291*) Del (T 206);
  (*292*) Assign (T 159) (Times (Einsum [(n_t2'bbbb,[0;1;2;3]); (n_v'bbbb'oooo,[4;1;5;0])] [4;5;2;3]) (-1) 1);
  (*293*) Assign (T 213) (Times (Copy n_v'bbbb'vvvv) (-1) 1);
  (*294*) AddTo (T 213) (Plain (Einsum [(T 212,[0;1;2;3]); (n_t1'bb,[0;4])] [3;2;1;4]));
  (*295*) Del (T 212);
  (*296*) Assign (T 178) (Plain (Einsum [(n_t1'bb,[0;1]); (T 23,[2;3;0;4])] [2;3;1;4]));
  (*297*) Assign (T 214) (Plain (Einsum [(n_v'bbbb'ovvv,[0;1;2;3]); (n_t2'bbbb,[4;5;1;3])] [4;5;0;2]));
  (*298*) Assign (T 197) (Plain (Einsum [(n_t1'bb,[0;1]); (T 196,[2;3;0;4])] [2;3;1;4]));
  (*299*) Del (T 196);
  (*300*) Assign (T 158) (Plain (Copy n_t2'bbbb));
  (*301*) AddTo (T 158) (Times (Einsum [(n_t1'bb,[0;1]); (n_t1'bb,[2;3])] [0;2;1;3]) (2) 1);
  (*302*) Assign (T 175) (Plain (Einsum [(n_t1'bb,[0;1]); (T 174,[2;0;3;4])] [2;3;1;4]));
  (*303*) Del (T 174);
  (*304*) Assign (T 169) (Times (Copy n_f'bb'vv) (-1) 1);
  (*305*) AddTo (T 169) (Times (Transpose (T 116) [1;0]) (-1) 1);
  (*306*) AddTo (T 169) (Times (Einsum [(T 150,[0;1;2;3]); (n_t1'bb,[0;2])] [1;3]) (-1) 1);
  (*307*) AddTo (T 169) (Plain (Transpose (T 121) [1;0]));
  (*308*) Assign (T 205) (Plain (Einsum [(n_t1'bb,[0;1]); (T 204,[2;3;0;4])] [2;3;1;4]));
  (*309*) Del (T 204);
  (*310*) Assign (T 173) (Times (Einsum [(n_t2'bbbb,[0;1;2;3]); (T 172,[4;5;1;0])] [4;5;2;3]) (-1) 1);
  (*311*) Del (T 172);
  (*312*) Assign (T 163) (Times (Copy (T 112)) (1) 2);
  (*313*) AddTo (T 163) (Plain (Copy (T 113)));
  (*314*) Assign (T 209) (Plain (Einsum [(T 208,[0;1;2;3]); (n_t1'bb,[4;2])] [4;0;1;3]));
  (*315*) Del (T 208);
  (*316*) Assign (T 203) (Times (Einsum [(n_t2'bbbb,[0;1;2;3]); (T 202,[4;5;0;1])] [5;4;2;3]) (-1) 1);
  (*317*) Del (T 202);
  (*318*) Assign (T 189) (Plain (Einsum [(T 153,[0;1;2;3]); (n_t2'abab,[0;4;2;5])] [4;1;5;3]));
  (*319*) Assign (T 201) (Plain (Einsum [(n_t2'bbbb,[0;1;2;3]); (T 200,[1;4;5;3])] [0;4;2;5]));
  (*320*) Del (T 200);
  (*321*) Assign (T 177) (Times (Einsum [(n_t2'bbbb,[0;1;2;3]); (T 176,[4;1])] [0;4;2;3]) (-1) 1);
  (*322*) Del (T 176);
  (*323*) Assign (T 188) (Plain (Einsum [(n_t2'bbbb,[0;1;2;3]); (T 187,[4;1;5;3])] [0;4;2;5]));
  (*324*) Del (T 187);
  (*325*) Assign (T 181) (Times (Einsum [(T 167,[0;1;2;3]); (n_t1'bb,[4;1])] [4;0;3;2]) (-1) 1);
  (*326*) AddTo (T 181) (Times (Einsum [(n_t1'bb,[0;1]); (T 180,[2;0;3;4])] [2;3;1;4]) (-1) 1);
  (*327*) Del (T 180);
  (*328*) Assign (T 168) (Times (Copy n_f'bb'vv) (-1) 1);
  (*329*) AddTo (T 168) (Times (Transpose (T 116) [1;0]) (-1) 1);
  (*330*) AddTo (T 168) (Plain (Transpose (T 112) [1;0]));
  (*331*) AddTo (T 168) (Times (Transpose (T 113) [1;0]) (2) 1);
  (*332*) AddTo (T 168) (Times (Einsum [(T 167,[0;1;2;3]); (n_t1'bb,[0;2])] [1;3]) (-1) 1);
  (*333*) Del (T 167);
  (*334*) AddTo (T 168) (Plain (Einsum [(T 17,[0;1]); (n_t1'bb,[0;2])] [1;2]));
  (*335*) Assign (T 194) (Plain (Copy n_v'bbbb'oovv));
  (*336*) AddTo (T 194) (Times (Einsum [(n_t2'bbbb,[0;1;2;3]); (T 15,[1;4;5;3])] [0;4;2;5]) (-2) 1);
  (*337*) Del (T 15);
  (*338*) AddTo (T 194) (Times (Einsum [(n_t1'bb,[0;1]); (T 30,[2;3;0;4])] [3;2;1;4]) (-1) 1);
  (*339*) Del (T 30);
  (*340*) Assign (T 162) (Times (Einsum [(T 161,[0;1]); (n_t2'bbbb,[2;0;3;4])] [2;1;3;4]) (-1) 1);
  (*341*) Del (T 161);
  (*342*) Assign (T 192) (Plain (Copy n_v'bbbb'oovv));
  (*343*) AddTo (T 192) (Times (Einsum [(n_t2'bbbb,[0;1;2;3]); (T 118,[1;4;5;3])] [0;4;2;5]) (-2) 1);
  (*344*) AddTo (T 192) (Times (Einsum [(n_t1'bb,[0;1]); (T 142,[2;3;0;4])] [3;2;1;4]) (-1) 1);
  (*345*) Assign (T 171) (Plain (Einsum [(n_t1'bb,[0;1]); (T 170,[2;3;0;4])] [2;3;1;4]));
  (*346*) Del (T 170);
  (*347*) Assign (T 211) (Plain (Einsum [(n_t2'bbbb,[0;1;2;3]); (T 210,[4;5;1;0])] [5;4;2;3]));
  (*348*) Del (T 210);
  (*349*) Assign (T 190) (Plain (Einsum [(n_t1'bb,[0;1]); (n_v'bbbb'ooov,[2;0;3;4])] [2;3;1;4]));
  (*350*) Assign (T 164) (Times (Einsum [(n_t1'bb,[0;1]); (n_t1'bb,[2;3])] [2;0;1;3]) (2) 1);
  (*351*) AddTo (T 164) (Times (Copy n_t2'bbbb) (-1) 1);
  (*352*) Assign (T 195) (Plain (Copy (T 132)));
  (*353*) AddTo (T 195) (Plain (Einsum [(T 8,[0;1;2;3]); (n_t2'abab,[0;4;3;5])] [1;4;2;5]));
  (*354*) Del (T 8);
  (*355*) Assign (T 122) (Plain (Copy n_f'bb'vv));
  (*356*) AddTo (T 122) (Plain (Transpose (T 116) [1;0]));
  (*357*) Del (T 116);
  (*358*) AddTo (T 122) (Times (Einsum [(T 117,[0;1;2;3]); (n_t1'bb,[0;1])] [3;2]) (-1) 1);
  (*359*) Del (T 117);
  (*360*) AddTo (T 122) (Times (Transpose (T 121) [1;0]) (-1) 1);
  (*361*) Del (T 121);
  (*362*) Assign (T 136) (Plain (Transpose n_v'aabb'vvov [2;0;1;3]));
  (*363*) AddTo (T 136) (Plain (Einsum [(n_v'aabb'vvvv,[0;1;2;3]); (n_t1'bb,[4;3])] [4;0;1;2]));
  (*364*) Assign (T 141) (Plain (Einsum [(n_t2'aaaa,[0;1;2;3]); (n_v'aabb'ovoo,[1;3;4;5])] [0;4;5;2]));
  (*365*) Assign (T 4) (Plain (Copy n_t2'abab));
  (*366*) AddTo (T 4) (Plain (Einsum [(n_t1'aa,[0;1]); (n_t1'bb,[2;3])] [0;2;1;3]));
  (*367*) Assign (T 49) (Times (Copy n_f'aa'vv) (-1) 1);
  (*368*) AddTo (T 49) (Times (Transpose (T 45) [1;0]) (-1) 1);
  (*369*) AddTo (T 49) (Times (Transpose (T 39) [1;0]) (2) 1);
  (*370*) AddTo (T 49) (Plain (Transpose (T 40) [1;0]));
  (*371*) AddTo (T 49) (Times (Transpose (T 47) [1;0]) (-1) 1);
  (*372*) Del (T 47);
  (*373*) AddTo (T 49) (Plain (Transpose (T 48) [1;0]));
  (*374*) Del (T 48);
  (*375*) Assign (T 127) (Plain (Einsum [(n_t1'aa,[0;1]); (n_v'aabb'ovoo,[2;1;3;4])] [0;2;3;4]));
  (*376*) Assign (T 135) (Plain (Einsum [(n_t1'aa,[0;1]); (T 130,[2;3;4;1])] [0;2;3;4]));
  (*377*) Assign (T 146) (Plain (Copy n_v'aabb'vvvv));
  (*378*) AddTo (T 146) (Times (Einsum [(T 145,[0;1;2;3]); (n_t1'bb,[0;4])] [2;1;3;4]) (-1) 1);
  (*379*) Del (T 145);
  (*380*) Assign (T 125) (Plain (Einsum [(n_v'aabb'ooov,[0;1;2;3]); (n_t1'bb,[4;3])] [0;1;4;2]));
  (*381*) Assign (T 126) (Plain (Einsum [(n_t1'aa,[0;1]); (n_v'aabb'vvoo,[2;1;3;4])] [0;3;4;2]));
  (*382*) Assign (T 143) (Plain (Copy n_v'bbbb'oovv));
  (*383*) AddTo (T 143) (Plain (Einsum [(n_t1'bb,[0;1]); (T 142,[0;2;3;4])] [3;2;4;1]));
  (*384*) Del (T 142);
  (*385*) Assign (T 144) (Plain (Einsum [(n_v'aabb'ovov,[0;1;2;3]); (n_t2'abab,[4;5;1;3])] [4;0;5;2]));
  (*386*) Assign (T 155) (Plain (Einsum [(n_v'aabb'ovvv,[0;1;2;3]); (n_t2'abab,[4;5;1;3])] [4;0;5;2]));
  (*387*) Assign (T 137) (Plain (Einsum [(T 22,[0;1;2;3]); (n_t1'aa,[4;3])] [4;0;1;2]));
  (*388*) Assign (T 133) (Times (Transpose n_v'aabb'vvoo [2;3;0;1]) (-1) 1);
  (*389*) AddTo (T 133) (Plain (Einsum [(n_t1'aa,[0;1]); (n_v'aabb'ovoo,[0;2;3;4])] [3;4;2;1]));
  (*390*) AddTo (T 133) (Plain (Einsum [(n_v'aabb'ovov,[0;1;2;3]); (n_t2'abab,[0;4;5;3])] [2;4;1;5]));
  (*391*) Assign (T 111) (Plain (Copy n_t2'abab));
  (*392*) AddTo (T 111) (Times (Einsum [(n_t1'aa,[0;1]); (n_t1'bb,[2;3])] [0;2;1;3]) (2) 1);
  (*393*) Assign (T 140) (Times (Copy (T 86)) (-1) 1);
  (*394*) AddTo (T 140) (Times (Copy (T 139)) (2) 1);
  (*395*) AddTo (T 140) (Times (Einsum [(T 118,[0;1;2;3]); (n_t2'abab,[4;0;5;2])] [4;1;5;3]) (-1) 1);
  (*396*) Del (T 118);
  (*397*) Assign (T 124) (Plain (Transpose (T 25) [1;0]));
  (*398*) AddTo (T 124) (Times (Transpose (T 26) [1;0]) (2) 1);
  (*399*) AddTo (T 124) (Plain (Transpose (T 123) [1;0]));
  (*400*) Del (T 123);
  (*401*) Assign (T 114) (Plain (Copy (T 112)));
  (*402*) Del (T 112);
  (*403*) AddTo (T 114) (Times (Copy (T 113)) (2) 1);
  (*404*) Del (T 113);
  (*405*) Assign (T 156) (Plain (Einsum [(n_v'aabb'oovv,[0;1;2;3]); (n_t1'bb,[4;3])] [0;1;4;2]));
  (*406*) Assign (T 149) (Times (Einsum [(T 147,[0;1;2;3]); (n_t1'aa,[4;2])] [4;0;1;3]) (-1) 1);
  (*407*) Del (T 147);
  (*408*) AddTo (T 149) (Plain (Einsum [(n_t1'aa,[0;1]); (T 148,[2;0;3;4])] [2;3;4;1]));
  (*409*) Del (T 148);
  (*410*) Assign (T 138) (Plain (Copy n_v'aaaa'oovv));
  (*411*) AddTo (T 138) (Times (Transpose (T 43) [1;0;3;2]) (-1) 1);
  (*412*) AddTo (T 138) (Times (Einsum [(T 82,[0;1;2;3]); (n_t2'aaaa,[4;0;5;2])] [1;4;3;5]) (2) 1);
  (*413*) AddTo (T 138) (Plain (Einsum [(n_t1'aa,[0;1]); (T 35,[0;2;3;4])] [3;2;4;1]));
  (*414*) Del (T 35);
  (*415*) Assign (T 12) (Times (Transpose (T 6) [1;0]) (2) 1);
  (*416*) Del (T 6);
  (*417*) AddTo (T 12) (Plain (Transpose (T 7) [1;0]));
  (*418*) Del (T 7);
  (*419*) AddTo (T 12) (Plain (Transpose (T 11) [1;0]));
  (*420*) Del (T 11);
  (*421*) Assign (T 152) (Times (Einsum [(T 150,[0;1;2;3]); (n_t1'bb,[4;2])] [4;0;1;3]) (-1) 1);
  (*422*) Del (T 150);
  (*423*) AddTo (T 152) (Plain (Einsum [(n_t1'bb,[0;1]); (T 151,[2;3;0;4])] [2;3;4;1]));
  (*424*) Del (T 151);
  (*425*) Assign (T 157) (Plain (Einsum [(T 129,[0;1;2;3]); (n_t1'aa,[4;2])] [4;0;1;3]));
  (*426*) Assign (T 131) (Plain (Transpose (T 130) [0;1;3;2]));
  (*427*) Del (T 130);
  (*428*) AddTo (T 131) (Times (Einsum [(n_t1'aa,[0;1]); (T 22,[0;2;3;4])] [2;3;4;1]) (-1) 1);
  (*429*) Assign (T 154) (Plain (Einsum [(n_t1'aa,[0;1]); (n_v'aabb'ovvv,[2;1;3;4])] [0;2;3;4]));
  (*430*) AddTo (T 154) (Times (Einsum [(n_t1'bb,[0;1]); (T 1,[2;3;0;4])] [2;3;4;1]) (-1) 1);
  (*431*) Assign (T 134) (Plain (Copy n_v'aabb'oovv));
  (*432*) AddTo (T 134) (Times (Einsum [(n_v'aabb'ooov,[0;1;2;3]); (n_t1'bb,[2;4])] [0;1;3;4]) (-1) 1);
  (*433*) Assign (T 42) (Times (Einsum [(n_t1'aa,[0;1]); (n_t1'aa,[2;3])] [0;2;3;1]) (2) 1);
  (*434*) AddTo (T 42) (Times (Copy n_t2'aaaa) (-1) 1);
  (*435*) Assign (T 34) (Times (Einsum [(n_t2'aaaa,[0;1;2;3]); (n_v'aaaa'oooo,[4;1;5;0])] [4;5;2;3]) (-1) 1);
  (*436*) Assign (T 109) (Plain (Copy n_v'aaaa'vvvv));
  (*437*) AddTo (T 109) (Plain (Einsum [(T 108,[0;1;2;3]); (n_t1'aa,[0;4])] [1;3;2;4]));
  (*438*) Del (T 108);
  (*439*) Assign (T 81) (Plain (Einsum [(n_t2'aaaa,[0;1;2;3]); (T 43,[4;1;5;3])] [0;4;2;5]));
  (*440*) Assign (T 103) (Plain (Einsum [(T 102,[0;1;2;3]); (n_t1'aa,[2;4])] [0;1;4;3]));
  (*441*) Del (T 102);
  (*442*) Assign (T 67) (Times (Einsum [(T 65,[0;1;2;3]); (n_t1'aa,[4;2])] [4;0;3;1]) (-1) 1);
  (*443*) Del (T 65);
  (*444*) AddTo (T 67) (Times (Einsum [(T 66,[0;1;2;3]); (n_t1'aa,[2;4])] [0;1;4;3]) (-1) 1);
  (*445*) Del (T 66);
  (*446*) Assign (T 59) (Plain (Einsum [(T 58,[0;1;2;3]); (n_t1'aa,[1;4])] [0;2;4;3]));
  (*447*) Del (T 58);
  (*448*) Assign (T 71) (Plain (Einsum [(T 70,[0;1;2;3]); (n_t2'abab,[4;1;5;3])] [4;0;5;2]));
  (*449*) Del (T 70);
  (*450*) Assign (T 77) (Plain (Einsum [(T 76,[0;1;2;3]); (n_t2'aaaa,[4;1;5;3])] [4;0;5;2]));
  (*451*) Del (T 76);
  (*452*) Assign (T 105) (Plain (Einsum [(T 104,[0;1;2;3]); (n_t1'aa,[4;2])] [4;0;1;3]));
  (*453*) Del (T 104);
  (*454*) Assign (T 93) (Plain (Copy (T 86)));
  (*455*) AddTo (T 93) (Times (Einsum [(T 92,[0;1;2;3]); (n_t2'abab,[4;0;5;2])] [4;1;5;3]) (-1) 1);
  (*456*) Del (T 92);
  (*457*) Assign (T 41) (Times (Copy (T 39)) (2) 1);
  (*458*) Del (T 39);
  (*459*) AddTo (T 41) (Plain (Copy (T 40)));
  (*460*) Del (T 40);
  (*461*) Assign (T 55) (Times (Einsum [(n_t2'aaaa,[0;1;2;3]); (T 54,[4;5;1;0])] [4;5;2;3]) (-1) 1);
  (*462*) Del (T 54);
  (*463*) Assign (T 53) (Times (Copy n_f'aa'vv) (-1) 1);
  (*464*) AddTo (T 53) (Times (Transpose (T 45) [1;0]) (-1) 1);
  (*465*) Del (T 45);
  (*466*) AddTo (T 53) (Times (Einsum [(T 50,[0;1;2;3]); (n_t1'aa,[0;1])] [3;2]) (-1) 1);
  (*467*) Del (T 50);
  (*468*) AddTo (T 53) (Plain (Einsum [(n_t1'aa,[0;1]); (T 52,[0;2])] [2;1]));
  (*469*) Del (T 52);
  (*470*) Assign (T 97) (Plain (Einsum [(T 96,[0;1;2;3]); (n_t2'aaaa,[4;0;5;3])] [4;1;5;2]));
  (*471*) Del (T 96);
  (*472*) Assign (T 110) (Times (Einsum [(n_v'aaaa'ovvv,[0;1;2;3]); (n_t2'aaaa,[4;5;3;1])] [4;5;0;2]) (-1) 1);
  (*473*) Assign (T 91) (Plain (Copy n_v'aaaa'oovv));
  (*474*) AddTo (T 91) (Times (Einsum [(T 89,[0;1;2;3]); (n_t2'aaaa,[4;0;5;3])] [4;1;5;2]) (-2) 1);
  (*475*) Del (T 89);
  (*476*) AddTo (T 91) (Times (Einsum [(T 90,[0;1;2;3]); (n_t1'aa,[0;4])] [1;2;4;3]) (-1) 1);
  (*477*) Del (T 90);
  (*478*) Assign (T 99) (Times (Einsum [(n_t2'aaaa,[0;1;2;3]); (T 98,[4;5;0;1])] [5;4;2;3]) (-1) 1);
  (*479*) Del (T 98);
  (*480*) Assign (T 107) (Plain (Einsum [(n_t2'aaaa,[0;1;2;3]); (T 106,[4;5;1;0])] [5;4;2;3]));
  (*481*) Del (T 106);
  (*482*) Assign (T 85) (Plain (Copy n_v'aaaa'oovv));
  (*483*) AddTo (T 85) (Times (Einsum [(T 82,[0;1;2;3]); (n_t2'aaaa,[4;0;5;3])] [4;1;5;2]) (-2) 1);
  (*484*) Del (T 82);
  (*485*) AddTo (T 85) (Times (Copy (T 84)) (-1) 1);
  (*486*) Del (T 84);
  (*487*) Assign (T 79) (Plain (Einsum [(T 78,[0;1;2;3]); (n_t2'abab,[4;1;5;3])] [4;0;5;2]));
  (*488*) Assign (T 101) (Plain (Einsum [(T 100,[0;1;2;3]); (n_t1'aa,[2;4])] [0;1;4;3]));
  (*489*) Del (T 100);
  (*490*) Assign (T 38) (Times (Einsum [(n_t2'aaaa,[0;1;2;3]); (T 37,[1;4])] [0;4;2;3]) (-1) 1);
  (*491*) Assign (T 95) (Plain (Einsum [(T 94,[0;1;2;3]); (n_t1'aa,[2;4])] [0;1;4;3]));
  (*492*) Del (T 94);
  (*493*) Assign (T 33) (Plain (Copy n_t2'aaaa));
  (*494*) AddTo (T 33) (Times (Einsum [(n_t1'aa,[0;1]); (n_t1'aa,[2;3])] [2;0;3;1]) (2) 1);
  (*495*) Assign (T 80) (Plain (Einsum [(n_t1'aa,[0;1]); (n_v'aaaa'ooov,[2;0;3;4])] [2;3;1;4]));
  (*496*) Assign (T 44) (Plain (Einsum [(n_v'aaaa'ovov,[0;1;2;3]); (n_t2'aaaa,[4;2;5;3])] [4;0;5;1]));
  (*497*) Assign (T 64) (Plain (Einsum [(n_t1'aa,[0;1]); (T 2,[2;3;0;4])] [2;3;1;4]));
  (*498*) Assign (T 62) (Times (Einsum [(n_t2'aaaa,[0;1;2;3]); (T 61,[4;1])] [0;4;2;3]) (-2) 1);
  (*499*) Del (T 61);
  (*500*) Assign (T 21) (Plain (Copy n_f'aa'oo));
  (*501*) AddTo (T 21) (Plain (Transpose (T 18) [1;0]));
  (*502*) Del (T 18);
  (*503*) AddTo (T 21) (Times (Transpose (T 20) [1;0]) (-1) 1);
  (*504*) Del (T 20);
  (*505*) Assign (T 88) (Plain (Copy (T 86)));
  (*506*) AddTo (T 88) (Times (Einsum [(T 87,[0;1;2;3]); (n_t2'abab,[4;0;5;2])] [4;1;5;3]) (-1) 1);
  (*507*) Del (T 87);
  (*508*) Assign (T 57) (Plain (Einsum [(n_t1'aa,[0;1]); (T 56,[2;3;0;4])] [2;3;1;4]));
  (*509*) Del (T 56);
  (*510*) Assign (T 27) (Times (Transpose (T 25) [1;0]) (1) 2);
  (*511*) Del (T 25);
  (*512*) AddTo (T 27) (Plain (Transpose (T 26) [1;0]));
  (*513*) Del (T 26);
  (*514*) AddTo (T 27) (Times (Einsum [(n_t1'bb,[0;1]); (T 17,[2;1])] [2;0]) (1) 2);
  (*515*) Assign (T 24) (Times (Copy n_t2'bbbb) (2) 1);
  (*516*) AddTo (T 24) (Plain (Einsum [(n_t1'bb,[0;1]); (n_t1'bb,[2;3])] [0;2;1;3]));
  (*517*) Assign (T 28) (Plain (Copy n_f'bb'vv));
  (*518*) AddTo (T 28) (Times (Einsum [(n_v'bbbb'ovvv,[0;1;2;3]); (n_t1'bb,[0;3])] [1;2]) (-1) 1);
  (*519*) Assign (T 5) (Times (Copy n_t2'aaaa) (2) 1);
  (*520*) AddTo (T 5) (Plain (Einsum [(n_t1'aa,[0;1]); (n_t1'aa,[2;3])] [2;0;3;1]));
  (*521*) Assign (T 13) (Plain (Copy n_f'aa'vv));
  (*522*) AddTo (T 13) (Plain (Einsum [(n_v'aaaa'ovvv,[0;1;2;3]); (n_t1'aa,[0;1])] [2;3]));
  (*523*) Assign n_t2new'bbbb (Times (Einsum [(n_t2'bbbb,[0;1;2;3]); (T 32,[1;4])] [0;4;2;3]) (-1) 1);
  (*524*) AddTo n_t2new'bbbb (Times (Einsum [(n_v'bbbb'oooo,[0;1;2;3]); (T 158,[3;1;4;5])] [0;2;5;4]) (1) 2);
  (*525*) Del (T 158);
  (*526*) AddTo n_t2new'bbbb (Plain (Transpose (T 159) [1;0;3;2]));
  (*527*) Del (T 159);
  (*528*) AddTo n_t2new'bbbb (Times (Transpose (T 162) [0;1;3;2]) (-1) 1);
  (*529*) AddTo n_t2new'bbbb (Times (Einsum [(T 163,[0;1]); (n_t2'bbbb,[2;3;4;1])] [2;3;4;0]) (-4) 1);
  (*530*) Del (T 163);
  (*531*) AddTo n_t2new'bbbb (Times (Transpose (T 162) [1;0;3;2]) (2) 1);
  (*532*) Del (T 162);
  (*533*) AddTo n_t2new'bbbb (Times (Einsum [(n_v'bbbb'oooo,[0;1;2;3]); (T 164,[3;1;4;5])] [0;2;5;4]) (-1) 2);
  (*534*) Del (T 164);
  (*535*) AddTo n_t2new'bbbb (Times (Transpose (T 165) [1;0;3;2]) (2) 1);
  (*536*) AddTo n_t2new'bbbb (Plain (Transpose (T 166) [1;0;3;2]));
  (*537*) AddTo n_t2new'bbbb (Times (Einsum [(T 168,[0;1]); (n_t2'bbbb,[2;3;4;0])] [2;3;1;4]) (2) 1);
  (*538*) Del (T 168);
  (*539*) AddTo n_t2new'bbbb (Times (Transpose (T 165) [1;0;2;3]) (-2) 1);
  (*540*) AddTo n_t2new'bbbb (Times (Transpose (T 166) [1;0;2;3]) (-1) 1);
  (*541*) AddTo n_t2new'bbbb (Times (Einsum [(n_t2'bbbb,[0;1;2;3]); (T 169,[3;4])] [0;1;2;4]) (-2) 1);
  (*542*) Del (T 169);
  (*543*) AddTo n_t2new'bbbb (Plain (Transpose (T 171) [1;0;3;2]));
  (*544*) AddTo n_t2new'bbbb (Times (Transpose (T 173) [1;0;3;2]) (-2) 1);
  (*545*) AddTo n_t2new'bbbb (Plain (Transpose (T 175) [1;0;2;3]));
  (*546*) AddTo n_t2new'bbbb (Times (Transpose (T 175) [1;0;3;2]) (-1) 1);
  (*547*) AddTo n_t2new'bbbb (Times (Transpose (T 177) [0;1;3;2]) (-2) 1);
  (*548*) AddTo n_t2new'bbbb (Times (Transpose (T 171) [1;0;2;3]) (-1) 1);
  (*549*) AddTo n_t2new'bbbb (Times (Transpose (T 171) [0;1;3;2]) (-1) 1);
  (*550*) AddTo n_t2new'bbbb (Times (Transpose (T 173) [0;1;3;2]) (2) 1);
  (*551*) Del (T 173);
  (*552*) AddTo n_t2new'bbbb (Times (Copy (T 175)) (-1) 1);
  (*553*) AddTo n_t2new'bbbb (Plain (Transpose (T 175) [0;1;3;2]));
  (*554*) Del (T 175);
  (*555*) AddTo n_t2new'bbbb (Times (Transpose (T 177) [1;0;3;2]) (2) 1);
  (*556*) Del (T 177);
  (*557*) AddTo n_t2new'bbbb (Plain (Copy (T 171)));
  (*558*) Del (T 171);
  (*559*) AddTo n_t2new'bbbb (Times (Transpose (T 178) [1;0;3;2]) (-1) 1);
  (*560*) AddTo n_t2new'bbbb (Plain (Transpose (T 179) [1;0;2;3]));
  (*561*) AddTo n_t2new'bbbb (Plain (Transpose n_v'bbbb'ovov [0;2;1;3]));
  (*562*) AddTo n_t2new'bbbb (Times (Einsum [(T 181,[0;1;2;3]); (n_t2'bbbb,[4;1;5;3])] [4;0;2;5]) (2) 1);
  (*563*) Del (T 181);
  (*564*) AddTo n_t2new'bbbb (Plain (Transpose (T 183) [0;1;3;2]));
  (*565*) AddTo n_t2new'bbbb (Plain (Transpose (T 178) [0;1;3;2]));
  (*566*) AddTo n_t2new'bbbb (Times (Copy (T 179)) (-1) 1);
  (*567*) AddTo n_t2new'bbbb (Times (Transpose n_v'bbbb'ovov [0;2;3;1]) (-1) 1);
  (*568*) AddTo n_t2new'bbbb (Times (Transpose (T 188) [1;0;3;2]) (-2) 1);
  (*569*) AddTo n_t2new'bbbb (Plain (Transpose (T 189) [1;0;3;2]));
  (*570*) AddTo n_t2new'bbbb (Plain (Transpose (T 190) [0;1;3;2]));
  (*571*) AddTo n_t2new'bbbb (Times (Copy (T 191)) (2) 1);
  (*572*) AddTo n_t2new'bbbb (Times (Transpose (T 191) [1;0;3;2]) (2) 1);
  (*573*) AddTo n_t2new'bbbb (Times (Einsum [(T 192,[0;1;2;3]); (n_t2'bbbb,[4;1;5;3])] [0;4;2;5]) (-2) 1);
  (*574*) Del (T 192);
  (*575*) AddTo n_t2new'bbbb (Times (Einsum [(T 193,[0;1;2;3]); (n_t2'abab,[0;4;2;5])] [1;4;3;5]) (-1) 1);
  (*576*) Del (T 193);
  (*577*) AddTo n_t2new'bbbb (Times (Transpose (T 190) [1;0;3;2]) (-1) 1);
  (*578*) AddTo n_t2new'bbbb (Times (Transpose (T 191) [0;1;3;2]) (-2) 1);
  (*579*) AddTo n_t2new'bbbb (Times (Transpose (T 191) [1;0;2;3]) (-2) 1);
  (*580*) Del (T 191);
  (*581*) AddTo n_t2new'bbbb (Times (Einsum [(n_t2'bbbb,[0;1;2;3]); (T 194,[4;1;5;3])] [0;4;5;2]) (2) 1);
  (*582*) Del (T 194);
  (*583*) AddTo n_t2new'bbbb (Plain (Einsum [(T 195,[0;1;2;3]); (n_t2'abab,[0;4;2;5])] [4;1;3;5]));
  (*584*) Del (T 195);
  (*585*) AddTo n_t2new'bbbb (Plain (Transpose (T 197) [1;0;3;2]));
  (*586*) AddTo n_t2new'bbbb (Times (Copy (T 190)) (-1) 1);
  (*587*) AddTo n_t2new'bbbb (Times (Transpose (T 201) [1;0;2;3]) (2) 1);
  (*588*) AddTo n_t2new'bbbb (Times (Transpose (T 197) [0;1;3;2]) (-1) 1);
  (*589*) Del (T 197);
  (*590*) AddTo n_t2new'bbbb (Plain (Transpose (T 190) [1;0;2;3]));
  (*591*) Del (T 190);
  (*592*) AddTo n_t2new'bbbb (Times (Copy (T 201)) (-2) 1);
  (*593*) Del (T 201);
  (*594*) AddTo n_t2new'bbbb (Times (Transpose (T 203) [0;1;3;2]) (-2) 1);
  (*595*) Del (T 203);
  (*596*) AddTo n_t2new'bbbb (Plain (Transpose (T 179) [0;1;3;2]));
  (*597*) AddTo n_t2new'bbbb (Plain (Copy (T 205)));
  (*598*) AddTo n_t2new'bbbb (Times (Transpose (T 205) [0;1;3;2]) (-1) 1);
  (*599*) Del (T 205);
  (*600*) AddTo n_t2new'bbbb (Plain (Transpose (T 207) [0;1;3;2]));
  (*601*) AddTo n_t2new'bbbb (Times (Transpose (T 207) [1;0;3;2]) (-1) 1);
  (*602*) AddTo n_t2new'bbbb (Plain (Copy (T 209)));
  (*603*) AddTo n_t2new'bbbb (Times (Transpose (T 209) [0;1;3;2]) (-1) 1);
  (*604*) Del (T 209);
  (*605*) AddTo n_t2new'bbbb (Times (Transpose (T 211) [0;1;3;2]) (-2) 1);
  (*606*) Del (T 211);
  (*607*) AddTo n_t2new'bbbb (Times (Transpose (T 179) [1;0;3;2]) (-1) 1);
  (*608*) Del (T 179);
  (*609*) AddTo n_t2new'bbbb (Times (Einsum [(T 213,[0;1;2;3]); (n_t2'bbbb,[4;5;0;2])] [4;5;1;3]) (-2) 1);
  (*610*) Del (T 213);
  (*611*) AddTo n_t2new'bbbb (Times (Transpose (T 165) [0;1;3;2]) (-2) 1);
  (*612*) AddTo n_t2new'bbbb (Times (Transpose (T 166) [0;1;3;2]) (-1) 1);
  (*613*) AddTo n_t2new'bbbb (Times (Copy (T 165)) (2) 1);
  (*614*) Del (T 165);
  (*615*) AddTo n_t2new'bbbb (Plain (Copy (T 166)));
  (*616*) Del (T 166);
  (*617*) AddTo n_t2new'bbbb (Plain (Transpose (T 178) [1;0;2;3]));
  (*618*) AddTo n_t2new'bbbb (Times (Copy (T 188)) (-2) 1);
  (*619*) AddTo n_t2new'bbbb (Times (Copy (T 183)) (-1) 1);
  (*620*) Del (T 183);
  (*621*) AddTo n_t2new'bbbb (Times (Copy (T 178)) (-1) 1);
  (*622*) Del (T 178);
  (*623*) AddTo n_t2new'bbbb (Times (Transpose (T 188) [1;0;2;3]) (2) 1);
  (*624*) Del (T 188);
  (*625*) AddTo n_t2new'bbbb (Times (Transpose (T 189) [1;0;2;3]) (-1) 1);
  (*626*) Del (T 189);
  (*627*) AddTo n_t2new'bbbb (Times (Einsum [(n_t1'bb,[0;1]); (T 214,[2;3;0;4])] [2;3;1;4]) (-2) 1);
  (*628*) Del (T 214);
  (*629*) AddTo n_t2new'bbbb (Times (Copy (T 207)) (-1) 1);
  (*630*) AddTo n_t2new'bbbb (Plain (Transpose (T 207) [1;0;2;3]));
  (*631*) Del (T 207);
  (*632*) Assign n_t2new'abab (Times (Einsum [(T 32,[0;1]); (n_t2'abab,[2;0;3;4])] [2;1;3;4]) (-1) 1);
  (*633*) AddTo n_t2new'abab (Times (Einsum [(T 111,[0;1;2;3]); (n_v'aabb'oooo,[4;0;5;1])] [4;5;2;3]) (1) 2);
  (*634*) Del (T 111);
  (*635*) AddTo n_t2new'abab (Times (Einsum [(n_t2'abab,[0;1;2;3]); (n_v'aabb'oooo,[4;0;5;1])] [4;5;2;3]) (1) 2);
  (*636*) AddTo n_t2new'abab (Times (Einsum [(T 114,[0;1]); (n_t2'abab,[2;3;4;1])] [2;3;4;0]) (-1) 1);
  (*637*) Del (T 114);
  (*638*) AddTo n_t2new'abab (Times (Einsum [(n_t2'abab,[0;1;2;3]); (T 37,[0;4])] [4;1;2;3]) (-1) 1);
  (*639*) Del (T 37);
  (*640*) AddTo n_t2new'abab (Times (Copy (T 115)) (2) 1);
  (*641*) Del (T 115);
  (*642*) AddTo n_t2new'abab (Plain (Einsum [(n_v'aaaa'ovov,[0;1;2;3]); (n_t2'abab,[2;4;3;5])] [0;4;1;5]));
  (*643*) AddTo n_t2new'abab (Times (Einsum [(T 49,[0;1]); (n_t2'abab,[2;3;0;4])] [2;3;1;4]) (-1) 1);
  (*644*) AddTo n_t2new'abab (Plain (Einsum [(T 122,[0;1]); (n_t2'abab,[2;3;4;0])] [2;3;4;1]));
  (*645*) Del (T 122);
  (*646*) AddTo n_t2new'abab (Times (Einsum [(n_t2'abab,[0;1;2;3]); (T 124,[1;4])] [0;4;2;3]) (-1) 1);
  (*647*) Del (T 124);
  (*648*) AddTo n_t2new'abab (Plain (Einsum [(T 125,[0;1;2;3]); (T 4,[0;3;4;5])] [1;2;4;5]));
  (*649*) Del (T 125);
  (*650*) AddTo n_t2new'abab (Times (Einsum [(n_t1'bb,[0;1]); (T 126,[2;3;0;4])] [2;3;4;1]) (-1) 1);
  (*651*) Del (T 126);
  (*652*) AddTo n_t2new'abab (Times (Einsum [(T 12,[0;1]); (n_t2'abab,[0;2;3;4])] [1;2;3;4]) (-1) 1);
  (*653*) AddTo n_t2new'abab (Plain (Einsum [(T 127,[0;1;2;3]); (T 4,[1;2;4;5])] [0;3;4;5]));
  (*654*) Del (T 127);
  (*655*) AddTo n_t2new'abab (Plain (Transpose n_v'aabb'ovov [0;2;1;3]));
  (*656*) AddTo n_t2new'abab (Times (Copy (T 128)) (-1) 1);
  (*657*) Del (T 128);
  (*658*) AddTo n_t2new'abab (Plain (Copy (T 129)));
  (*659*) Del (T 129);
  (*660*) AddTo n_t2new'abab (Times (Einsum [(n_t2'abab,[0;1;2;3]); (T 131,[4;1;2;5])] [0;4;5;3]) (-1) 1);
  (*661*) Del (T 131);
  (*662*) AddTo n_t2new'abab (Times (Copy (T 132)) (-1) 1);
  (*663*) Del (T 132);
  (*664*) AddTo n_t2new'abab (Plain (Einsum [(n_t2'abab,[0;1;2;3]); (T 133,[1;4;2;5])] [0;4;5;3]));
  (*665*) Del (T 133);
  (*666*) AddTo n_t2new'abab (Times (Copy (T 86)) (-1) 1);
  (*667*) Del (T 86);
  (*668*) AddTo n_t2new'abab (Times (Einsum [(T 134,[0;1;2;3]); (n_t2'abab,[0;4;5;2])] [1;4;5;3]) (-1) 1);
  (*669*) Del (T 134);
  (*670*) AddTo n_t2new'abab (Times (Einsum [(n_t1'bb,[0;1]); (T 135,[2;3;0;4])] [2;3;4;1]) (-1) 1);
  (*671*) Del (T 135);
  (*672*) AddTo n_t2new'abab (Plain (Einsum [(n_t1'aa,[0;1]); (T 136,[2;1;3;4])] [0;2;3;4]));
  (*673*) Del (T 136);
  (*674*) AddTo n_t2new'abab (Plain (Einsum [(T 137,[0;1;2;3]); (T 4,[1;3;4;5])] [0;2;4;5]));
  (*675*) Del (T 137);
  (*676*) AddTo n_t2new'abab (Times (Einsum [(T 138,[0;1;2;3]); (n_t2'abab,[0;4;2;5])] [1;4;3;5]) (-1) 1);
  (*677*) Del (T 138);
  (*678*) AddTo n_t2new'abab (Times (Einsum [(T 140,[0;1;2;3]); (n_t2'bbbb,[4;1;5;3])] [0;4;2;5]) (2) 1);
  (*679*) Del (T 140);
  (*680*) AddTo n_t2new'abab (Plain (Einsum [(n_v'bbbb'ovov,[0;1;2;3]); (n_t2'abab,[4;2;5;3])] [4;0;5;1]));
  (*681*) AddTo n_t2new'abab (Times (Copy (T 139)) (2) 1);
  (*682*) Del (T 139);
  (*683*) AddTo n_t2new'abab (Times (Einsum [(n_t1'bb,[0;1]); (T 141,[2;3;0;4])] [2;3;4;1]) (-2) 1);
  (*684*) Del (T 141);
  (*685*) AddTo n_t2new'abab (Times (Einsum [(T 143,[0;1;2;3]); (n_t2'abab,[4;0;5;2])] [4;1;5;3]) (-1) 1);
  (*686*) Del (T 143);
  (*687*) AddTo n_t2new'abab (Plain (Einsum [(T 144,[0;1;2;3]); (n_t2'abab,[1;3;4;5])] [0;2;4;5]));
  (*688*) Del (T 144);
  (*689*) AddTo n_t2new'abab (Plain (Einsum [(n_t2'abab,[0;1;2;3]); (T 146,[2;4;3;5])] [0;1;4;5]));
  (*690*) Del (T 146);
  (*691*) AddTo n_t2new'abab (Plain (Einsum [(T 149,[0;1;2;3]); (n_t2'abab,[1;4;2;5])] [0;4;3;5]));
  (*692*) Del (T 149);
  (*693*) AddTo n_t2new'abab (Times (Einsum [(n_t2'bbbb,[0;1;2;3]); (T 78,[4;1;5;3])] [4;0;5;2]) (2) 1);
  (*694*) Del (T 78);
  (*695*) AddTo n_t2new'abab (Plain (Einsum [(T 152,[0;1;2;3]); (n_t2'abab,[4;1;5;2])] [4;0;5;3]));
  (*696*) Del (T 152);
  (*697*) AddTo n_t2new'abab (Times (Einsum [(T 153,[0;1;2;3]); (n_t2'aaaa,[4;0;5;2])] [4;1;5;3]) (2) 1);
  (*698*) Del (T 153);
  (*699*) AddTo n_t2new'abab (Times (Copy (T 69)) (-1) 1);
  (*700*) Del (T 69);
  (*701*) AddTo n_t2new'abab (Times (Einsum [(T 154,[0;1;2;3]); (n_t2'abab,[1;4;5;2])] [0;4;5;3]) (-1) 1);
  (*702*) Del (T 154);
  (*703*) AddTo n_t2new'abab (Times (Einsum [(n_t1'aa,[0;1]); (T 155,[2;0;3;4])] [2;3;1;4]) (-1) 1);
  (*704*) Del (T 155);
  (*705*) AddTo n_t2new'abab (Times (Einsum [(n_t1'aa,[0;1]); (T 156,[2;0;3;4])] [2;3;1;4]) (-1) 1);
  (*706*) Del (T 156);
  (*707*) AddTo n_t2new'abab (Times (Einsum [(n_t1'aa,[0;1]); (T 157,[2;0;3;4])] [2;3;1;4]) (-1) 1);
  (*708*) Del (T 157);
  (*709*) Assign n_t2new'aaaa (Times (Einsum [(n_t2'aaaa,[0;1;2;3]); (T 21,[1;4])] [0;4;2;3]) (-1) 1);
  (*710*) AddTo n_t2new'aaaa (Times (Einsum [(T 33,[0;1;2;3]); (n_v'aaaa'oooo,[4;1;5;0])] [4;5;3;2]) (1) 2);
  (*711*) Del (T 33);
  (*712*) AddTo n_t2new'aaaa (Plain (Transpose (T 34) [1;0;3;2]));
  (*713*) Del (T 34);
  (*714*) AddTo n_t2new'aaaa (Times (Transpose (T 38) [0;1;3;2]) (-1) 1);
  (*715*) AddTo n_t2new'aaaa (Times (Einsum [(T 41,[0;1]); (n_t2'aaaa,[2;3;4;1])] [2;3;4;0]) (-2) 1);
  (*716*) Del (T 41);
  (*717*) AddTo n_t2new'aaaa (Times (Transpose (T 38) [1;0;3;2]) (2) 1);
  (*718*) Del (T 38);
  (*719*) AddTo n_t2new'aaaa (Times (Einsum [(n_v'aaaa'oooo,[0;1;2;3]); (T 42,[3;1;4;5])] [0;2;5;4]) (-1) 2);
  (*720*) Del (T 42);
  (*721*) AddTo n_t2new'aaaa (Plain (Transpose (T 43) [1;0;3;2]));
  (*722*) AddTo n_t2new'aaaa (Times (Transpose (T 44) [1;0;3;2]) (2) 1);
  (*723*) AddTo n_t2new'aaaa (Times (Einsum [(n_t2'aaaa,[0;1;2;3]); (T 49,[3;4])] [0;1;4;2]) (2) 1);
  (*724*) Del (T 49);
  (*725*) AddTo n_t2new'aaaa (Times (Transpose (T 43) [1;0;2;3]) (-1) 1);
  (*726*) AddTo n_t2new'aaaa (Times (Transpose (T 44) [1;0;2;3]) (-2) 1);
  (*727*) AddTo n_t2new'aaaa (Times (Einsum [(T 53,[0;1]); (n_t2'aaaa,[2;3;4;0])] [2;3;4;1]) (-2) 1);
  (*728*) Del (T 53);
  (*729*) AddTo n_t2new'aaaa (Times (Transpose (T 55) [1;0;3;2]) (-2) 1);
  (*730*) AddTo n_t2new'aaaa (Plain (Transpose (T 57) [1;0;3;2]));
  (*731*) AddTo n_t2new'aaaa (Plain (Transpose (T 59) [1;0;2;3]));
  (*732*) AddTo n_t2new'aaaa (Times (Transpose (T 59) [1;0;3;2]) (-1) 1);
  (*733*) AddTo n_t2new'aaaa (Times (Transpose (T 62) [0;1;3;2]) (-2) 1);
  (*734*) AddTo n_t2new'aaaa (Times (Transpose (T 57) [1;0;2;3]) (-1) 1);
  (*735*) AddTo n_t2new'aaaa (Times (Transpose (T 55) [0;1;3;2]) (2) 1);
  (*736*) Del (T 55);
  (*737*) AddTo n_t2new'aaaa (Times (Transpose (T 57) [0;1;3;2]) (-1) 1);
  (*738*) AddTo n_t2new'aaaa (Times (Copy (T 59)) (-1) 1);
  (*739*) AddTo n_t2new'aaaa (Plain (Transpose (T 59) [0;1;3;2]));
  (*740*) Del (T 59);
  (*741*) AddTo n_t2new'aaaa (Times (Transpose (T 62) [1;0;3;2]) (2) 1);
  (*742*) Del (T 62);
  (*743*) AddTo n_t2new'aaaa (Plain (Copy (T 57)));
  (*744*) Del (T 57);
  (*745*) AddTo n_t2new'aaaa (Plain (Transpose (T 63) [1;0;2;3]));
  (*746*) AddTo n_t2new'aaaa (Plain (Transpose n_v'aaaa'ovov [0;2;1;3]));
  (*747*) AddTo n_t2new'aaaa (Times (Transpose (T 64) [1;0;3;2]) (-1) 1);
  (*748*) AddTo n_t2new'aaaa (Times (Einsum [(T 67,[0;1;2;3]); (n_t2'aaaa,[4;1;5;3])] [4;0;2;5]) (2) 1);
  (*749*) Del (T 67);
  (*750*) AddTo n_t2new'aaaa (Plain (Transpose (T 71) [0;1;3;2]));
  (*751*) AddTo n_t2new'aaaa (Times (Copy (T 63)) (-1) 1);
  (*752*) AddTo n_t2new'aaaa (Times (Transpose n_v'aaaa'ovov [0;2;3;1]) (-1) 1);
  (*753*) AddTo n_t2new'aaaa (Plain (Transpose (T 64) [0;1;3;2]));
  (*754*) AddTo n_t2new'aaaa (Times (Transpose (T 77) [1;0;3;2]) (-2) 1);
  (*755*) AddTo n_t2new'aaaa (Plain (Transpose (T 79) [1;0;3;2]));
  (*756*) AddTo n_t2new'aaaa (Plain (Transpose (T 80) [0;1;3;2]));
  (*757*) AddTo n_t2new'aaaa (Times (Copy (T 81)) (2) 1);
  (*758*) AddTo n_t2new'aaaa (Times (Transpose (T 81) [1;0;3;2]) (2) 1);
  (*759*) AddTo n_t2new'aaaa (Times (Einsum [(T 85,[0;1;2;3]); (n_t2'aaaa,[4;1;5;3])] [0;4;2;5]) (-2) 1);
  (*760*) Del (T 85);
  (*761*) AddTo n_t2new'aaaa (Times (Einsum [(T 88,[0;1;2;3]); (n_t2'abab,[4;1;5;3])] [0;4;2;5]) (-1) 1);
  (*762*) Del (T 88);
  (*763*) AddTo n_t2new'aaaa (Times (Transpose (T 80) [1;0;3;2]) (-1) 1);
  (*764*) AddTo n_t2new'aaaa (Times (Transpose (T 81) [0;1;3;2]) (-2) 1);
  (*765*) AddTo n_t2new'aaaa (Times (Transpose (T 81) [1;0;2;3]) (-2) 1);
  (*766*) Del (T 81);
  (*767*) AddTo n_t2new'aaaa (Times (Einsum [(T 91,[0;1;2;3]); (n_t2'aaaa,[4;1;5;3])] [4;0;2;5]) (2) 1);
  (*768*) Del (T 91);
  (*769*) AddTo n_t2new'aaaa (Plain (Einsum [(n_t2'abab,[0;1;2;3]); (T 93,[4;1;5;3])] [0;4;5;2]));
  (*770*) Del (T 93);
  (*771*) AddTo n_t2new'aaaa (Times (Copy (T 80)) (-1) 1);
  (*772*) AddTo n_t2new'aaaa (Plain (Transpose (T 95) [1;0;3;2]));
  (*773*) AddTo n_t2new'aaaa (Times (Transpose (T 97) [1;0;2;3]) (2) 1);
  (*774*) AddTo n_t2new'aaaa (Plain (Transpose (T 80) [1;0;2;3]));
  (*775*) Del (T 80);
  (*776*) AddTo n_t2new'aaaa (Times (Transpose (T 95) [0;1;3;2]) (-1) 1);
  (*777*) Del (T 95);
  (*778*) AddTo n_t2new'aaaa (Times (Copy (T 97)) (-2) 1);
  (*779*) Del (T 97);
  (*780*) AddTo n_t2new'aaaa (Plain (Transpose (T 63) [0;1;3;2]));
  (*781*) AddTo n_t2new'aaaa (Times (Transpose (T 99) [0;1;3;2]) (-2) 1);
  (*782*) Del (T 99);
  (*783*) AddTo n_t2new'aaaa (Plain (Transpose (T 101) [0;1;3;2]));
  (*784*) AddTo n_t2new'aaaa (Times (Transpose (T 101) [1;0;3;2]) (-1) 1);
  (*785*) AddTo n_t2new'aaaa (Plain (Copy (T 103)));
  (*786*) AddTo n_t2new'aaaa (Times (Transpose (T 103) [0;1;3;2]) (-1) 1);
  (*787*) Del (T 103);
  (*788*) AddTo n_t2new'aaaa (Plain (Copy (T 105)));
  (*789*) AddTo n_t2new'aaaa (Times (Transpose (T 105) [0;1;3;2]) (-1) 1);
  (*790*) Del (T 105);
  (*791*) AddTo n_t2new'aaaa (Times (Transpose (T 63) [1;0;3;2]) (-1) 1);
  (*792*) Del (T 63);
  (*793*) AddTo n_t2new'aaaa (Times (Transpose (T 107) [0;1;3;2]) (-2) 1);
  (*794*) Del (T 107);
  (*795*) AddTo n_t2new'aaaa (Times (Einsum [(n_t2'aaaa,[0;1;2;3]); (T 109,[2;4;3;5])] [0;1;4;5]) (2) 1);
  (*796*) Del (T 109);
  (*797*) AddTo n_t2new'aaaa (Times (Transpose (T 43) [0;1;3;2]) (-1) 1);
  (*798*) AddTo n_t2new'aaaa (Times (Transpose (T 44) [0;1;3;2]) (-2) 1);
  (*799*) AddTo n_t2new'aaaa (Plain (Copy (T 43)));
  (*800*) Del (T 43);
  (*801*) AddTo n_t2new'aaaa (Times (Copy (T 44)) (2) 1);
  (*802*) Del (T 44);
  (*803*) AddTo n_t2new'aaaa (Plain (Transpose (T 64) [1;0;2;3]));
  (*804*) AddTo n_t2new'aaaa (Times (Copy (T 77)) (-2) 1);
  (*805*) AddTo n_t2new'aaaa (Times (Copy (T 71)) (-1) 1);
  (*806*) Del (T 71);
  (*807*) AddTo n_t2new'aaaa (Times (Copy (T 64)) (-1) 1);
  (*808*) Del (T 64);
  (*809*) AddTo n_t2new'aaaa (Times (Transpose (T 77) [1;0;2;3]) (2) 1);
  (*810*) Del (T 77);
  (*811*) AddTo n_t2new'aaaa (Times (Transpose (T 79) [1;0;2;3]) (-1) 1);
  (*812*) Del (T 79);
  (*813*) AddTo n_t2new'aaaa (Times (Einsum [(T 110,[0;1;2;3]); (n_t1'aa,[2;4])] [0;1;4;3]) (-2) 1);
  (*814*) Del (T 110);
  (*815*) AddTo n_t2new'aaaa (Times (Copy (T 101)) (-1) 1);
  (*816*) AddTo n_t2new'aaaa (Plain (Transpose (T 101) [1;0;2;3]));
  (*817*) Del (T 101);
  (*818*) Assign n_t1new'bb (Times (Einsum [(T 22,[0;1;2;3]); (n_t2'abab,[0;2;3;4])] [1;4]) (-1) 1);
  (*819*) Del (T 22);
  (*820*) AddTo n_t1new'bb (Plain (Copy n_f'bb'ov));
  (*821*) AddTo n_t1new'bb (Plain (Copy (T 14)));
  (*822*) Del (T 14);
  (*823*) AddTo n_t1new'bb (Plain (Einsum [(n_v'bbbb'ovov,[0;1;2;3]); (n_t1'bb,[2;3])] [0;1]));
  (*824*) AddTo n_t1new'bb (Times (Einsum [(n_t2'bbbb,[0;1;2;3]); (T 23,[4;1;0;3])] [4;2]) (-2) 1);
  (*825*) Del (T 23);
  (*826*) AddTo n_t1new'bb (Plain (Einsum [(T 4,[0;1;2;3]); (n_v'aabb'ovvv,[0;2;4;3])] [1;4]));
  (*827*) AddTo n_t1new'bb (Plain (Einsum [(n_v'bbbb'ovvv,[0;1;2;3]); (T 24,[0;4;1;3])] [4;2]));
  (*828*) Del (T 24);
  (*829*) AddTo n_t1new'bb (Times (Einsum [(n_t1'bb,[0;1]); (T 27,[0;2])] [2;1]) (-2) 1);
  (*830*) Del (T 27);
  (*831*) AddTo n_t1new'bb (Plain (Einsum [(n_t1'bb,[0;1]); (T 28,[1;2])] [0;2]));
  (*832*) Del (T 28);
  (*833*) AddTo n_t1new'bb (Times (Einsum [(n_t2'bbbb,[0;1;2;3]); (n_v'bbbb'ooov,[4;0;1;3])] [4;2]) (-2) 1);
  (*834*) AddTo n_t1new'bb (Times (Einsum [(n_v'aabb'ovoo,[0;1;2;3]); (n_t2'abab,[0;3;1;4])] [2;4]) (-1) 1);
  (*835*) AddTo n_t1new'bb (Times (Einsum [(n_v'bbbb'oovv,[0;1;2;3]); (n_t1'bb,[1;3])] [0;2]) (-1) 1);
  (*836*) AddTo n_t1new'bb (Plain (Einsum [(T 10,[0;1]); (n_t2'abab,[0;2;1;3])] [2;3]));
  (*837*) AddTo n_t1new'bb (Times (Einsum [(n_t2'bbbb,[0;1;2;3]); (T 17,[1;3])] [0;2]) (2) 1);
  (*838*) AddTo n_t1new'bb (Times (Einsum [(n_t1'bb,[0;1]); (T 32,[0;2])] [2;1]) (-1) 1);
  (*839*) Del (T 32);
  (*840*) Assign n_t1new'aa (Times (Einsum [(n_t2'abab,[0;1;2;3]); (T 1,[4;0;1;3])] [4;2]) (-1) 1);
  (*841*) Del (T 1);
  (*842*) AddTo n_t1new'aa (Times (Einsum [(T 2,[0;1;2;3]); (n_t2'aaaa,[2;1;4;3])] [0;4]) (-2) 1);
  (*843*) Del (T 2);
  (*844*) AddTo n_t1new'aa (Plain (Copy (T 3)));
  (*845*) Del (T 3);
  (*846*) AddTo n_t1new'aa (Plain (Copy n_f'aa'ov));
  (*847*) AddTo n_t1new'aa (Plain (Einsum [(n_t1'aa,[0;1]); (n_v'aaaa'ovov,[2;3;0;1])] [2;3]));
  (*848*) AddTo n_t1new'aa (Plain (Einsum [(T 4,[0;1;2;3]); (n_v'aabb'vvov,[4;2;1;3])] [0;4]));
  (*849*) Del (T 4);
  (*850*) AddTo n_t1new'aa (Times (Einsum [(n_v'aaaa'ovvv,[0;1;2;3]); (T 5,[0;4;3;1])] [4;2]) (-1) 1);
  (*851*) Del (T 5);
  (*852*) AddTo n_t1new'aa (Times (Einsum [(T 12,[0;1]); (n_t1'aa,[0;2])] [1;2]) (-1) 1);
  (*853*) Del (T 12);
  (*854*) AddTo n_t1new'aa (Plain (Einsum [(n_t1'aa,[0;1]); (T 13,[1;2])] [0;2]));
  (*855*) Del (T 13);
  (*856*) AddTo n_t1new'aa (Times (Einsum [(n_t2'aaaa,[0;1;2;3]); (n_v'aaaa'ooov,[4;0;1;3])] [4;2]) (-2) 1);
  (*857*) AddTo n_t1new'aa (Times (Einsum [(n_t1'aa,[0;1]); (n_v'aaaa'oovv,[2;0;3;1])] [2;3]) (-1) 1);
  (*858*) AddTo n_t1new'aa (Times (Einsum [(n_t2'abab,[0;1;2;3]); (n_v'aabb'ooov,[4;0;1;3])] [4;2]) (-1) 1);
  (*859*) AddTo n_t1new'aa (Plain (Einsum [(T 17,[0;1]); (n_t2'abab,[2;0;3;1])] [2;3]));
  (*860*) Del (T 17);
  (*861*) AddTo n_t1new'aa (Times (Einsum [(n_t2'aaaa,[0;1;2;3]); (T 10,[1;3])] [0;2]) (2) 1);
  (*862*) Del (T 10);
  (*863*) AddTo n_t1new'aa (Times (Einsum [(n_t1'aa,[0;1]); (T 21,[0;2])] [2;1]) (-1) 1);
  (*864*) Del (T 21)]
 [(n_t1new'bb,[6;7]); (n_t1new'aa,[4;5]); (n_t2new'bbbb,[6;6;7;7]); (n_t2new'abab,[4;6;5;7]); (n_t2new'aaaa,[4;4;5;5])].

(** ebcc/codegen/UCCSD.py:868-1920 [update_lams] *)
Definition UCCSD_update_lams : prog := mkprog
 [(n_v'bbbb'ovov,[6;7;6;7]); (n_v'aaaa'ovov,[4;5;4;5]); (n_v'aabb'ovov,[4;5;6;7]); (n_t1'aa,[4;5]); (n_t1'bb,[6;7]); (n_f'bb'ov,[6;7]); (n_v'bbbb'ooov,[6;6;6;7]); (n_v'bbbb'ovoo,[6;7;6;6]); (n_v'bbbb'ovvv,[6;7;7;7]); (n_l2'bbbb,[7;7;6;6]); (n_l2'abab,[5;7;4;6]); (n_v'aaaa'ovvv,[4;5;5;5]); (n_l2'aaaa,[5;5;4;4]); (n_v'aaaa'ooov,[4;4;4;5]); (n_v'aaaa'ovoo,[4;5;4;4]); (n_f'aa'ov,[4;5]); (n_v'aabb'ovoo,[4;5;6;6]); (n_t2'abab,[4;6;5;7]); (n_t2'bbbb,[6;6;7;7]); (n_l1'bb,[7;6]); (n_t2'aaaa,[4;4;5;5]); (n_l1'aa,[5;4]); (n_v'aabb'ovvv,[4;5;7;7]); (n_v'aabb'vvov,[5;5;6;7]); (n_v'aabb'ooov,[4;4;6;7]); (n_f'bb'oo,[6;6]); (n_f'bb'vv,[7;7]); (n_v'bbbb'oovv,[6;6;7;7]); (n_f'aa'vv,[5;5]); (n_v'aaaa'oovv,[4;4;5;5]); (n_f'aa'oo,[4;4]); (n_v'aabb'vvoo,[5;5;6;6]); (n_v'aabb'oooo,[4;4;6;6]); (n_v'bbbb'oooo,[6;6;6;6]); (n_v'aaaa'oooo,[4;4;4;4]); (n_v'bbbb'vvvv,[7;7;7;7]); (n_v'aabb'oovv,[4;4;7;7]); (n_v'aabb'vvvv,[5;5;7;7]); (n_v'aaaa'vvvv,[5;5;5;5])]
 [(*897*) Assign (T 99) (Plain (Transpose n_v'bbbb'ovov [0;2;3;1]));
  (*898*) AddTo (T 99) (Times (Transpose n_v'bbbb'ovov [0;2;1;3]) (-1) 1);
  (*899*) Assign (T 8) (Times (Transpose n_v'aaaa'ovov [0;2;3;1]) (-1) 1);
  (*900*) AddTo (T 8) (Plain (Transpose n_v'aaaa'ovov [0;2;1;3]));
  (*901*) Assign (T 98) (Plain (Einsum [(n_v'aabb'ovov,[0;1;2;3]); (n_t1'aa,[0;1])] [2;3]));
  (*902*) Assign (T 100) (Plain (Einsum [(T 99,[0;1;2;3]); (n_t1'bb,[0;2])] [1;3]));
  (*903*) Del (T 99);
  (*904*) Assign (T 9) (Plain (Einsum [(n_t1'aa,[0;1]); (T 8,[0;2;3;1])] [2;3]));
  (*905*) Del (T 8);
  (*906*) Assign (T 7) (Plain (Einsum [(n_v'aabb'ovov,[0;1;2;3]); (n_t1'bb,[2;3])] [0;1]));
  (*907*) Assign (T 3) (Plain (Einsum [(n_t1'bb,[0;1]); (n_v'aabb'ovov,[2;3;4;1])] [2;0;4;3]));
  (*908*) Assign (T 101) (Plain (Copy n_f'bb'ov));
  (*909*) AddTo (T 101) (Plain (Copy (T 98)));
  (*910*) AddTo (T 101) (Times (Copy (T 100)) (-1) 1);
  (*911*) Del (T 100);
  (*912*) Assign (T 118) (Plain (Copy n_v'bbbb'ooov));
  (*913*) AddTo (T 118) (Times (Transpose n_v'bbbb'ovoo [0;2;3;1]) (-1) 1);
  (*914*) Assign (T 112) (Times (Copy n_v'bbbb'ovvv) (-1) 1);
  (*915*) AddTo (T 112) (Plain (Transpose n_v'bbbb'ovvv [0;2;1;3]));
  (*916*) Assign (T 53) (Plain (Einsum [(n_t1'bb,[0;1]); (n_l2'bbbb,[2;1;3;4])] [3;4;0;2]));
  (*917*) Assign (T 197) (Plain (Copy n_v'bbbb'ovvv));
  (*918*) AddTo (T 197) (Times (Transpose n_v'bbbb'ovvv [0;2;1;3]) (-1) 1);
  (*919*) Assign (T 213) (Plain (Transpose n_v'bbbb'ovov [0;2;3;1]));
  (*920*) AddTo (T 213) (Times (Transpose n_v'bbbb'ovov [0;2;1;3]) (-1) 1);
  (*921*) Assign (T 51) (Plain (Einsum [(n_t1'bb,[0;1]); (n_l2'abab,[2;1;3;4])] [3;4;0;2]));
  (*922*) Assign (T 32) (Plain (Copy n_v'aaaa'ovvv));
  (*923*) AddTo (T 32) (Times (Transpose n_v'aaaa'ovvv [0;2;3;1]) (-1) 1);
  (*924*) Assign (T 39) (Plain (Einsum [(n_l2'aaaa,[0;1;2;3]); (n_t1'aa,[4;1])] [2;3;4;0]));
  (*925*) Assign (T 181) (Times (Transpose n_v'aaaa'ovov [0;2;3;1]) (-1) 1);
  (*926*) AddTo (T 181) (Plain (Transpose n_v'aaaa'ovov [0;2;1;3]));
  (*927*) Assign (T 165) (Times (Copy n_v'aaaa'ovvv) (-1) 1);
  (*928*) AddTo (T 165) (Plain (Transpose n_v'aaaa'ovvv [0;2;1;3]));
  (*929*) Assign (T 64) (Times (Copy n_v'aaaa'ooov) (-1) 1);
  (*930*) AddTo (T 64) (Plain (Transpose n_v'aaaa'ovoo [0;2;3;1]));
  (*931*) Assign (T 10) (Plain (Copy n_f'aa'ov));
  (*932*) AddTo (T 10) (Plain (Copy (T 7)));
  (*933*) AddTo (T 10) (Times (Copy (T 9)) (-1) 1);
  (*934*) Del (T 9);
  (*935*) Assign (T 15) (Plain (Transpose n_v'aabb'ovoo [0;2;3;1]));
  (*936*) AddTo (T 15) (Plain (Copy (T 3)));
  (*937*) Assign (T 96) (Plain (Einsum [(n_v'bbbb'ovov,[0;1;2;3]); (n_t1'bb,[4;3])] [4;0;2;1]));
  (*938*) Assign (T 56) (Plain (Einsum [(n_l2'abab,[0;1;2;3]); (n_t2'abab,[2;4;0;1])] [3;4]));
  (*939*) Assign (T 57) (Plain (Einsum [(n_l2'bbbb,[0;1;2;3]); (n_t2'bbbb,[4;3;0;1])] [2;4]));
  (*940*) Assign (T 55) (Plain (Einsum [(n_t1'bb,[0;1]); (n_l1'bb,[1;2])] [2;0]));
  (*941*) Assign (T 1) (Plain (Einsum [(n_v'aaaa'ovov,[0;1;2;3]); (n_t1'aa,[4;3])] [4;0;2;1]));
  (*942*) Assign (T 44) (Plain (Einsum [(n_l2'aaaa,[0;1;2;3]); (n_t2'aaaa,[4;3;0;1])] [2;4]));
  (*943*) Assign (T 43) (Plain (Einsum [(n_l1'aa,[0;1]); (n_t1'aa,[2;0])] [1;2]));
  (*944*) Assign (T 45) (Plain (Einsum [(n_l2'abab,[0;1;2;3]); (n_t2'abab,[4;3;0;1])] [2;4]));
  (*945*) Assign (T 116) (Plain (Einsum [(n_v'aabb'ovov,[0;1;2;3]); (n_t2'abab,[0;4;1;3])] [4;2]));
  (*946*) Assign (T 115) (Plain (Einsum [(n_v'aabb'ovoo,[0;1;2;3]); (n_t1'aa,[0;1])] [2;3]));
  (*947*) Assign (T 117) (Times (Einsum [(n_v'bbbb'ovov,[0;1;2;3]); (n_t2'bbbb,[4;2;3;1])] [4;0]) (-1) 1);
  (*948*) Assign (T 120) (Plain (Einsum [(T 101,[0;1]); (n_t1'bb,[2;1])] [2;0]));
  (*949*) Assign (T 119) (Plain (Einsum [(n_t1'bb,[0;1]); (T 118,[0;2;3;1])] [2;3]));
  (*950*) Del (T 118);
  (*951*) Assign (T 126) (Plain (Einsum [(n_l2'abab,[0;1;2;3]); (n_t2'abab,[2;4;0;5])] [3;4;1;5]));
  (*952*) Assign (T 127) (Plain (Einsum [(n_t2'bbbb,[0;1;2;3]); (n_l2'bbbb,[4;3;5;1])] [5;0;4;2]));
  (*953*) Assign (T 143) (Plain (Einsum [(n_v'aabb'ovvv,[0;1;2;3]); (n_t1'aa,[0;1])] [2;3]));
  (*954*) Assign (T 211) (Plain (Einsum [(n_t2'bbbb,[0;1;2;3]); (n_v'bbbb'ovov,[0;4;1;3])] [2;4]));
  (*955*) Assign (T 246) (Plain (Einsum [(n_t1'bb,[0;1]); (T 112,[0;2;1;3])] [2;3]));
  (*956*) Assign (T 210) (Plain (Einsum [(n_v'aabb'ovov,[0;1;2;3]); (n_t2'abab,[0;2;1;4])] [4;3]));
  (*957*) Assign (T 138) (Plain (Einsum [(n_l2'bbbb,[0;1;2;3]); (n_t2'bbbb,[4;5;0;1])] [2;3;4;5]));
  (*958*) Assign (T 136) (Plain (Einsum [(n_t1'bb,[0;1]); (T 53,[2;3;4;1])] [2;3;0;4]));
  (*959*) Assign (T 34) (Plain (Einsum [(n_l2'abab,[0;1;2;3]); (n_t2'abab,[2;3;0;4])] [1;4]));
  (*960*) Assign (T 35) (Plain (Einsum [(n_l2'bbbb,[0;1;2;3]); (n_t2'bbbb,[2;3;4;1])] [0;4]));
  (*961*) Assign (T 198) (Plain (Einsum [(n_t1'bb,[0;1]); (T 197,[2;1;3;4])] [2;0;3;4]));
  (*962*) Del (T 197);
  (*963*) Assign (T 196) (Plain (Einsum [(n_t2'bbbb,[0;1;2;3]); (n_v'bbbb'ovov,[4;5;1;3])] [0;4;2;5]));
  (*964*) Assign (T 195) (Plain (Einsum [(n_v'aabb'ovov,[0;1;2;3]); (n_t2'abab,[0;4;1;5])] [4;2;5;3]));
  (*965*) Assign (T 202) (Plain (Einsum [(n_v'bbbb'ovov,[0;1;2;3]); (n_t2'abab,[4;2;5;3])] [4;0;5;1]));
  (*966*) Assign (T 200) (Plain (Einsum [(n_t1'aa,[0;1]); (n_v'aabb'vvov,[2;1;3;4])] [0;3;2;4]));
  (*967*) Assign (T 201) (Plain (Einsum [(n_t2'aaaa,[0;1;2;3]); (n_v'aabb'ovov,[1;3;4;5])] [0;4;2;5]));
  (*968*) Assign (T 214) (Plain (Einsum [(T 213,[0;1;2;3]); (n_t1'bb,[0;2])] [1;3]));
  (*969*) Del (T 213);
  (*970*) Assign (T 78) (Plain (Einsum [(n_t1'aa,[0;1]); (T 51,[2;3;4;1])] [2;0;3;4]));
  (*971*) Assign (T 77) (Plain (Einsum [(n_l2'abab,[0;1;2;3]); (n_t2'abab,[4;5;0;1])] [2;4;3;5]));
  (*972*) Assign (T 29) (Plain (Einsum [(n_l2'aaaa,[0;1;2;3]); (n_t2'aaaa,[2;3;4;1])] [0;4]));
  (*973*) Assign (T 30) (Plain (Einsum [(n_l2'abab,[0;1;2;3]); (n_t2'abab,[2;3;4;1])] [0;4]));
  (*974*) Assign (T 177) (Plain (Einsum [(n_v'aabb'ovov,[0;1;2;3]); (n_t2'abab,[0;2;4;3])] [4;1]));
  (*975*) Assign (T 178) (Plain (Einsum [(T 32,[0;1;2;3]); (n_t1'aa,[0;1])] [2;3]));
  (*976*) Assign (T 92) (Plain (Einsum [(n_v'aabb'vvov,[0;1;2;3]); (n_t1'bb,[2;3])] [0;1]));
  (*977*) Assign (T 176) (Plain (Einsum [(n_t2'aaaa,[0;1;2;3]); (n_v'aaaa'ovov,[0;4;1;3])] [2;4]));
  (*978*) Assign (T 84) (Plain (Einsum [(n_t1'aa,[0;1]); (T 39,[2;3;4;1])] [3;2;4;0]));
  (*979*) Assign (T 87) (Plain (Einsum [(n_t2'aaaa,[0;1;2;3]); (n_l2'aaaa,[2;3;4;5])] [4;5;0;1]));
  (*980*) Assign (T 182) (Plain (Einsum [(n_t1'aa,[0;1]); (T 181,[0;2;3;1])] [2;3]));
  (*981*) Del (T 181);
  (*982*) Assign (T 11) (Plain (Einsum [(n_v'aabb'ovvv,[0;1;2;3]); (n_t1'bb,[4;3])] [0;4;1;2]));
  (*983*) Assign (T 159) (Plain (Einsum [(n_v'aaaa'ovov,[0;1;2;3]); (n_t2'abab,[2;4;3;5])] [0;4;1;5]));
  (*984*) Assign (T 160) (Plain (Einsum [(n_t2'bbbb,[0;1;2;3]); (n_v'aabb'ovov,[4;5;1;3])] [4;0;5;2]));
  (*985*) Assign (T 157) (Plain (Einsum [(n_v'aabb'ovov,[0;1;2;3]); (n_t2'abab,[4;2;5;3])] [4;0;5;1]));
  (*986*) Assign (T 156) (Plain (Einsum [(n_v'aaaa'ovov,[0;1;2;3]); (n_t2'aaaa,[4;2;5;3])] [4;0;5;1]));
  (*987*) Assign (T 166) (Plain (Einsum [(T 165,[0;1;2;3]); (n_t1'aa,[4;2])] [0;4;1;3]));
  (*988*) Del (T 165);
  (*989*) Assign (T 63) (Plain (Einsum [(n_v'aabb'ovov,[0;1;2;3]); (n_t2'abab,[4;2;1;3])] [4;0]));
  (*990*) Assign (T 62) (Plain (Einsum [(n_v'aaaa'ovov,[0;1;2;3]); (n_t2'aaaa,[4;2;1;3])] [4;0]));
  (*991*) Assign (T 65) (Plain (Einsum [(T 64,[0;1;2;3]); (n_t1'aa,[2;3])] [0;1]));
  (*992*) Del (T 64);
  (*993*) Assign (T 61) (Plain (Einsum [(n_t1'bb,[0;1]); (n_v'aabb'ooov,[2;3;0;1])] [2;3]));
  (*994*) Assign (T 66) (Plain (Einsum [(T 10,[0;1]); (n_t1'aa,[2;1])] [2;0]));
  (*995*) Assign (T 74) (Plain (Einsum [(n_t2'aaaa,[0;1;2;3]); (n_l2'aaaa,[4;3;5;1])] [5;0;4;2]));
  (*996*) Assign (T 75) (Plain (Einsum [(n_l2'abab,[0;1;2;3]); (n_t2'abab,[4;3;5;1])] [2;4;0;5]));
  (*997*) Assign (T 102) (Plain (Einsum [(n_v'aabb'vvov,[0;1;2;3]); (n_t1'bb,[4;3])] [4;2;0;1]));
  (*998*) Assign (T 14) (Plain (Einsum [(n_v'aabb'ovov,[0;1;2;3]); (n_t2'abab,[4;5;1;3])] [4;0;5;2]));
  (*999*) Assign (T 13) (Plain (Einsum [(n_v'aabb'ooov,[0;1;2;3]); (n_t1'bb,[4;3])] [0;1;4;2]));
  (*1000*) Assign (T 16) (Plain (Einsum [(T 15,[0;1;2;3]); (n_t1'aa,[4;3])] [4;0;1;2]));
  (*1001*) Assign (T 5) (Plain (Einsum [(n_t1'aa,[0;1]); (n_v'aabb'ovov,[2;1;3;4])] [0;2;3;4]));
  (*1002*) Assign (T 108) (Plain (Einsum [(n_t1'bb,[0;1]); (T 96,[2;3;4;1])] [0;2;3;4]));
  (*1003*) Assign (T 109) (Plain (Einsum [(n_v'bbbb'ooov,[0;1;2;3]); (n_t1'bb,[4;3])] [4;0;1;2]));
  (*1004*) Assign (T 107) (Plain (Einsum [(n_t2'bbbb,[0;1;2;3]); (n_v'bbbb'ovov,[4;2;5;3])] [0;1;4;5]));
  (*1005*) Assign (T 41) (Plain (Einsum [(n_l2'abab,[0;1;2;3]); (n_t1'aa,[4;0])] [2;4;3;1]));
  (*1006*) Assign (T 58) (Plain (Copy (T 55)));
  (*1007*) AddTo (T 58) (Plain (Copy (T 56)));
  (*1008*) AddTo (T 58) (Times (Copy (T 57)) (2) 1);
  (*1009*) Assign (T 25) (Plain (Einsum [(n_v'aaaa'ooov,[0;1;2;3]); (n_t1'aa,[4;3])] [4;0;1;2]));
  (*1010*) Assign (T 24) (Plain (Einsum [(n_t1'aa,[0;1]); (T 1,[2;3;4;1])] [0;2;3;4]));
  (*1011*) Assign (T 23) (Times (Einsum [(n_t2'aaaa,[0;1;2;3]); (n_v'aaaa'ovov,[4;3;5;2])] [0;1;4;5]) (-1) 1);
  (*1012*) Assign (T 21) (Plain (Einsum [(n_v'aaaa'ovvv,[0;1;2;3]); (n_t1'aa,[4;3])] [4;0;1;2]));
  (*1013*) Assign (T 46) (Times (Copy (T 43)) (1) 2);
  (*1014*) AddTo (T 46) (Plain (Copy (T 44)));
  (*1015*) AddTo (T 46) (Times (Copy (T 45)) (1) 2);
  (*1016*) Assign (T 121) (Plain (Copy n_f'bb'oo));
  (*1017*) AddTo (T 121) (Plain (Transpose (T 115) [1;0]));
  (*1018*) Del (T 115);
  (*1019*) AddTo (T 121) (Plain (Copy (T 116)));
  (*1020*) Del (T 116);
  (*1021*) AddTo (T 121) (Times (Copy (T 117)) (2) 1);
  (*1022*) Del (T 117);
  (*1023*) AddTo (T 121) (Times (Copy (T 119)) (-1) 1);
  (*1024*) Del (T 119);
  (*1025*) AddTo (T 121) (Plain (Copy (T 120)));
  (*1026*) Del (T 120);
  (*1027*) Assign (T 229) (Plain (Transpose n_v'bbbb'ooov [0;2;1;3]));
  (*1028*) AddTo (T 229) (Plain (Copy (T 96)));
  (*1029*) Assign (T 256) (Plain (Copy (T 126)));
  (*1030*) AddTo (T 256) (Times (Copy (T 127)) (4) 1);
  (*1031*) Assign (T 204) (Plain (Einsum [(n_v'bbbb'ovov,[0;1;2;3]); (n_t1'bb,[2;3])] [0;1]));
  (*1032*) Assign (T 247) (Times (Copy n_f'bb'vv) (-1) 1);
  (*1033*) AddTo (T 247) (Times (Transpose (T 143) [1;0]) (-1) 1);
  (*1034*) AddTo (T 247) (Plain (Transpose (T 210) [1;0]));
  (*1035*) AddTo (T 247) (Times (Transpose (T 211) [1;0]) (2) 1);
  (*1036*) AddTo (T 247) (Times (Copy (T 246)) (-1) 1);
  (*1037*) Del (T 246);
  (*1038*) Assign (T 244) (Plain (Transpose (T 138) [1;0;3;2]));
  (*1039*) AddTo (T 244) (Times (Transpose (T 136) [0;1;3;2]) (-1) 1);
  (*1040*) Assign (T 226) (Plain (Copy (T 34)));
  (*1041*) AddTo (T 226) (Times (Copy (T 35)) (2) 1);
  (*1042*) Assign (T 199) (Plain (Transpose n_v'bbbb'ovov [0;2;1;3]));
  (*1043*) AddTo (T 199) (Times (Copy n_v'bbbb'oovv) (-1) 1);
  (*1044*) AddTo (T 199) (Plain (Copy (T 195)));
  (*1045*) AddTo (T 199) (Times (Copy (T 196)) (2) 1);
  (*1046*) AddTo (T 199) (Times (Transpose (T 198) [1;0;3;2]) (-1) 1);
  (*1047*) Del (T 198);
  (*1048*) Assign (T 203) (Plain (Transpose n_v'aabb'ovov [0;2;1;3]));
  (*1049*) AddTo (T 203) (Plain (Copy (T 200)));
  (*1050*) AddTo (T 203) (Times (Copy (T 201)) (2) 1);
  (*1051*) AddTo (T 203) (Plain (Copy (T 202)));
  (*1052*) Assign (T 222) (Times (Copy (T 55)) (1) 2);
  (*1053*) Del (T 55);
  (*1054*) AddTo (T 222) (Times (Copy (T 56)) (1) 2);
  (*1055*) Del (T 56);
  (*1056*) AddTo (T 222) (Plain (Copy (T 57)));
  (*1057*) Del (T 57);
  (*1058*) Assign (T 215) (Plain (Copy n_f'bb'ov));
  (*1059*) AddTo (T 215) (Plain (Copy (T 98)));
  (*1060*) AddTo (T 215) (Times (Copy (T 214)) (-1) 1);
  (*1061*) Del (T 214);
  (*1062*) Assign (T 144) (Plain (Copy n_v'bbbb'ovvv));
  (*1063*) AddTo (T 144) (Times (Transpose n_v'bbbb'ovvv [0;2;1;3]) (-1) 1);
  (*1064*) Assign (T 71) (Plain (Einsum [(n_t2'bbbb,[0;1;2;3]); (n_l2'abab,[4;3;5;1])] [5;0;4;2]));
  (*1065*) Assign (T 70) (Plain (Einsum [(n_l2'aaaa,[0;1;2;3]); (n_t2'abab,[3;4;1;5])] [2;4;0;5]));
  (*1066*) Assign (T 79) (Plain (Copy (T 77)));
  (*1067*) AddTo (T 79) (Plain (Copy (T 78)));
  (*1068*) Assign (T 73) (Plain (Copy n_v'aaaa'ovvv));
  (*1069*) AddTo (T 73) (Times (Transpose n_v'aaaa'ovvv [0;2;1;3]) (-1) 1);
  (*1070*) Assign (T 124) (Plain (Einsum [(n_t2'abab,[0;1;2;3]); (n_l2'bbbb,[4;3;5;1])] [0;5;2;4]));
  (*1071*) Assign (T 123) (Plain (Einsum [(n_l2'abab,[0;1;2;3]); (n_t2'aaaa,[4;2;5;0])] [4;3;5;1]));
  (*1072*) Assign (T 163) (Plain (Einsum [(n_t1'aa,[0;1]); (n_v'aaaa'ovov,[2;3;0;1])] [2;3]));
  (*1073*) Assign (T 4) (Plain (Transpose n_v'aabb'ovoo [0;2;3;1]));
  (*1074*) AddTo (T 4) (Plain (Transpose (T 3) [0;2;1;3]));
  (*1075*) Assign (T 95) (Plain (Copy (T 43)));
  (*1076*) Del (T 43);
  (*1077*) AddTo (T 95) (Times (Copy (T 44)) (2) 1);
  (*1078*) Del (T 44);
  (*1079*) AddTo (T 95) (Plain (Copy (T 45)));
  (*1080*) Del (T 45);
  (*1081*) Assign (T 146) (Plain (Copy (T 29)));
  (*1082*) AddTo (T 146) (Times (Copy (T 30)) (1) 2);
  (*1083*) Assign (T 179) (Times (Copy n_f'aa'vv) (-1) 1);
  (*1084*) AddTo (T 179) (Times (Transpose (T 92) [1;0]) (-1) 1);
  (*1085*) AddTo (T 179) (Times (Transpose (T 176) [1;0]) (2) 1);
  (*1086*) AddTo (T 179) (Plain (Transpose (T 177) [1;0]));
  (*1087*) AddTo (T 179) (Times (Transpose (T 178) [1;0]) (-1) 1);
  (*1088*) Del (T 178);
  (*1089*) Assign (T 93) (Times (Copy n_v'aaaa'ovvv) (-1) 1);
  (*1090*) AddTo (T 93) (Plain (Transpose n_v'aaaa'ovvv [0;2;1;3]));
  (*1091*) Assign (T 174) (Plain (Transpose (T 87) [1;0;3;2]));
  (*1092*) AddTo (T 174) (Times (Transpose (T 84) [0;1;3;2]) (-1) 1);
  (*1093*) Assign (T 183) (Plain (Copy n_f'aa'ov));
  (*1094*) AddTo (T 183) (Plain (Copy (T 7)));
  (*1095*) AddTo (T 183) (Times (Copy (T 182)) (-1) 1);
  (*1096*) Del (T 182);
  (*1097*) Assign (T 149) (Plain (Transpose n_v'aaaa'ooov [0;2;1;3]));
  (*1098*) AddTo (T 149) (Plain (Copy (T 1)));
  (*1099*) Assign (T 169) (Plain (Transpose n_v'aabb'ovov [0;2;1;3]));
  (*1100*) AddTo (T 169) (Plain (Copy (T 11)));
  (*1101*) AddTo (T 169) (Plain (Copy (T 159)));
  (*1102*) AddTo (T 169) (Times (Copy (T 160)) (2) 1);
  (*1103*) Assign (T 167) (Plain (Transpose n_v'aaaa'ovov [0;2;1;3]));
  (*1104*) AddTo (T 167) (Times (Copy n_v'aaaa'oovv) (-1) 1);
  (*1105*) AddTo (T 167) (Times (Copy (T 156)) (2) 1);
  (*1106*) AddTo (T 167) (Plain (Copy (T 157)));
  (*1107*) AddTo (T 167) (Times (Transpose (T 166) [1;0;3;2]) (-1) 1);
  (*1108*) Del (T 166);
  (*1109*) Assign (T 67) (Plain (Copy n_f'aa'oo));
  (*1110*) AddTo (T 67) (Plain (Transpose (T 61) [1;0]));
  (*1111*) Del (T 61);
  (*1112*) AddTo (T 67) (Times (Copy (T 62)) (2) 1);
  (*1113*) Del (T 62);
  (*1114*) AddTo (T 67) (Plain (Copy (T 63)));
  (*1115*) Del (T 63);
  (*1116*) AddTo (T 67) (Times (Transpose (T 65) [1;0]) (-1) 1);
  (*1117*) Del (T 65);
  (*1118*) AddTo (T 67) (Plain (Copy (T 66)));
  (*1119*) Del (T 66);
  (*1120*) Assign (T 76) (Times (Copy (T 74)) (4) 1);
  (*1121*) Del (T 74);
  (*1122*) AddTo (T 76) (Plain (Copy (T 75)));
  (*1123*) Del (T 75);
  (*1124*) Assign (T 52) (Plain (Einsum [(T 51,[0;1;2;3]); (n_t2'abab,[0;1;3;4])] [2;4]));
  (*1125*) Assign (T 50) (Plain (Einsum [(n_l1'bb,[0;1]); (n_t2'bbbb,[2;1;3;0])] [2;3]));
  (*1126*) Assign (T 54) (Plain (Einsum [(T 53,[0;1;2;3]); (n_t2'bbbb,[1;0;4;3])] [2;4]));
  (*1127*) Assign (T 49) (Plain (Einsum [(n_l1'aa,[0;1]); (n_t2'abab,[1;2;0;3])] [2;3]));
  (*1128*) Assign (T 28) (Plain (Einsum [(n_l1'aa,[0;1]); (n_t1'aa,[1;2])] [0;2]));
  (*1129*) Assign (T 103) (Plain (Transpose n_v'aabb'vvoo [2;3;0;1]));
  (*1130*) AddTo (T 103) (Plain (Transpose (T 102) [1;0;3;2]));
  (*1131*) Assign (T 97) (Times (Copy n_v'bbbb'ooov) (-1) 1);
  (*1132*) AddTo (T 97) (Plain (Transpose n_v'bbbb'ovoo [0;2;3;1]));
  (*1133*) AddTo (T 97) (Plain (Transpose (T 96) [1;0;2;3]));
  (*1134*) AddTo (T 97) (Times (Transpose (T 96) [2;0;1;3]) (-1) 1);
  (*1135*) Assign (T 17) (Plain (Copy n_v'aabb'oooo));
  (*1136*) AddTo (T 17) (Plain (Transpose (T 13) [1;0;3;2]));
  (*1137*) AddTo (T 17) (Plain (Transpose (T 14) [1;0;3;2]));
  (*1138*) AddTo (T 17) (Plain (Transpose (T 16) [1;0;3;2]));
  (*1139*) Del (T 16);
  (*1140*) Assign (T 6) (Plain (Copy n_v'aabb'ooov));
  (*1141*) AddTo (T 6) (Plain (Transpose (T 5) [1;0;2;3]));
  (*1142*) Assign (T 33) (Plain (Einsum [(n_l1'bb,[0;1]); (n_t1'bb,[1;2])] [0;2]));
  (*1143*) Assign (T 134) (Plain (Einsum [(n_t2'abab,[0;1;2;3]); (T 51,[0;4;5;2])] [4;5;1;3]));
  (*1144*) Assign (T 135) (Times (Einsum [(n_t2'bbbb,[0;1;2;3]); (T 53,[4;1;5;3])] [4;5;0;2]) (-1) 1);
  (*1145*) Assign (T 106) (Plain (Transpose n_v'bbbb'ovov [0;2;1;3]));
  (*1146*) AddTo (T 106) (Times (Copy n_v'bbbb'oovv) (-1) 1);
  (*1147*) AddTo (T 106) (Plain (Einsum [(n_v'bbbb'ovvv,[0;1;2;3]); (n_t1'bb,[4;3])] [4;0;2;1]));
  (*1148*) Assign (T 105) (Times (Copy n_v'bbbb'ooov) (-1) 1);
  (*1149*) AddTo (T 105) (Plain (Transpose n_v'bbbb'ooov [0;2;1;3]));
  (*1150*) AddTo (T 105) (Plain (Copy (T 96)));
  (*1151*) AddTo (T 105) (Times (Transpose (T 96) [0;2;1;3]) (-1) 1);
  (*1152*) Assign (T 110) (Plain (Copy n_v'bbbb'oooo));
  (*1153*) AddTo (T 110) (Plain (Transpose (T 107) [3;1;2;0]));
  (*1154*) AddTo (T 110) (Plain (Transpose (T 108) [3;1;2;0]));
  (*1155*) AddTo (T 110) (Plain (Transpose (T 109) [2;1;3;0]));
  (*1156*) AddTo (T 110) (Times (Transpose (T 109) [3;2;1;0]) (-1) 1);
  (*1157*) Assign (T 38) (Plain (Einsum [(n_l1'bb,[0;1]); (n_t2'abab,[2;1;3;0])] [2;3]));
  (*1158*) Assign (T 42) (Plain (Einsum [(T 41,[0;1;2;3]); (n_t2'abab,[0;2;4;3])] [1;4]));
  (*1159*) Assign (T 40) (Plain (Einsum [(n_t2'aaaa,[0;1;2;3]); (T 39,[1;0;4;3])] [4;2]));
  (*1160*) Assign (T 37) (Plain (Einsum [(n_l1'aa,[0;1]); (n_t2'aaaa,[2;1;3;0])] [2;3]));
  (*1161*) Assign (T 59) (Plain (Einsum [(n_t1'bb,[0;1]); (T 58,[0;2])] [2;1]));
  (*1162*) Assign (T 83) (Times (Einsum [(T 39,[0;1;2;3]); (n_t2'aaaa,[4;1;5;3])] [0;2;4;5]) (-1) 1);
  (*1163*) Assign (T 85) (Plain (Einsum [(T 41,[0;1;2;3]); (n_t2'abab,[4;2;5;3])] [0;1;4;5]));
  (*1164*) Assign (T 26) (Plain (Copy n_v'aaaa'oooo));
  (*1165*) AddTo (T 26) (Plain (Transpose (T 23) [3;1;2;0]));
  (*1166*) AddTo (T 26) (Plain (Transpose (T 24) [3;1;2;0]));
  (*1167*) AddTo (T 26) (Plain (Transpose (T 25) [2;1;3;0]));
  (*1168*) AddTo (T 26) (Times (Transpose (T 25) [3;2;1;0]) (-1) 1);
  (*1169*) Assign (T 22) (Plain (Transpose n_v'aaaa'ovov [0;2;1;3]));
  (*1170*) AddTo (T 22) (Times (Copy n_v'aaaa'oovv) (-1) 1);
  (*1171*) AddTo (T 22) (Plain (Transpose (T 21) [0;1;3;2]));
  (*1172*) Assign (T 19) (Times (Copy n_v'aaaa'ooov) (-1) 1);
  (*1173*) AddTo (T 19) (Plain (Transpose n_v'aaaa'ooov [0;2;1;3]));
  (*1174*) AddTo (T 19) (Plain (Copy (T 1)));
  (*1175*) AddTo (T 19) (Times (Transpose (T 1) [0;2;1;3]) (-1) 1);
  (*1176*) Assign (T 20) (Plain (Copy n_v'aabb'ooov));
  (*1177*) AddTo (T 20) (Plain (Copy (T 5)));
  (*1178*) Assign (T 47) (Plain (Einsum [(T 46,[0;1]); (n_t1'aa,[0;2])] [1;2]));
  (*1179*) Assign (T 12) (Plain (Transpose n_v'aabb'ovov [0;2;1;3]));
  (*1180*) AddTo (T 12) (Plain (Copy (T 11)));
  (*1181*) Assign (T 2) (Times (Copy n_v'aaaa'ooov) (-1) 1);
  (*1182*) AddTo (T 2) (Plain (Transpose n_v'aaaa'ovoo [0;2;3;1]));
  (*1183*) AddTo (T 2) (Plain (Transpose (T 1) [1;0;2;3]));
  (*1184*) AddTo (T 2) (Times (Transpose (T 1) [2;0;1;3]) (-1) 1);
  (*1185*) Assign (T 242) (Times (Einsum [(n_v'bbbb'vvvv,[0;1;2;3]); (n_l2'bbbb,[3;1;4;5])] [4;5;0;2]) (-1) 1);
  (*1186*) Assign (T 235) (Plain (Einsum [(T 41,[0;1;2;3]); (n_v'aabb'ooov,[1;0;4;5])] [2;4;3;5]));
  (*1187*) Assign (T 250) (Plain (Einsum [(T 109,[0;1;2;3]); (n_l2'bbbb,[4;5;0;1])] [2;3;4;5]));
  (*1188*) Del (T 109);
  (*1189*) Assign (T 224) (Plain (Einsum [(n_v'bbbb'ovov,[0;1;2;3]); (n_t1'bb,[2;1])] [0;3]));
  (*1190*) Assign (T 237) (Plain (Transpose n_v'aabb'ovov [0;2;1;3]));
  (*1191*) AddTo (T 237) (Plain (Copy (T 200)));
  (*1192*) Del (T 200);
  (*1193*) AddTo (T 237) (Times (Copy (T 201)) (2) 1);
  (*1194*) Del (T 201);
  (*1195*) AddTo (T 237) (Plain (Copy (T 202)));
  (*1196*) Del (T 202);
  (*1197*) Assign (T 232) (Times (Einsum [(T 96,[0;1;2;3]); (T 53,[0;4;2;5])] [4;1;5;3]) (-1) 1);
  (*1198*) Assign (T 238) (Times (Einsum [(T 121,[0;1]); (n_l2'bbbb,[2;3;4;0])] [4;1;2;3]) (-2) 1);
  (*1199*) Assign (T 230) (Plain (Einsum [(n_l1'bb,[0;1]); (T 229,[1;2;3;4])] [2;3;4;0]));
  (*1200*) Del (T 229);
  (*1201*) Assign (T 234) (Plain (Einsum [(T 41,[0;1;2;3]); (T 5,[0;1;4;5])] [2;4;3;5]));
  (*1202*) Assign (T 257) (Plain (Einsum [(n_v'bbbb'ovov,[0;1;2;3]); (T 256,[4;2;5;1])] [4;0;5;3]));
  (*1203*) Del (T 256);
  (*1204*) Assign (T 239) (Plain (Copy n_f'bb'ov));
  (*1205*) AddTo (T 239) (Plain (Copy (T 98)));
  (*1206*) AddTo (T 239) (Plain (Copy (T 204)));
  (*1207*) Assign (T 205) (Plain (Copy n_f'bb'ov));
  (*1208*) AddTo (T 205) (Plain (Copy (T 98)));
  (*1209*) Del (T 98);
  (*1210*) AddTo (T 205) (Plain (Copy (T 204)));
  (*1211*) Del (T 204);
  (*1212*) Assign (T 248) (Times (Einsum [(n_l2'bbbb,[0;1;2;3]); (T 247,[4;1])] [2;3;4;0]) (-1) 1);
  (*1213*) Del (T 247);
  (*1214*) Assign (T 245) (Times (Einsum [(T 244,[0;1;2;3]); (n_v'bbbb'ovov,[2;4;3;5])] [0;1;4;5]) (1) 2);
  (*1215*) Del (T 244);
  (*1216*) Assign (T 227) (Plain (Einsum [(n_v'bbbb'ovov,[0;1;2;3]); (T 226,[4;1])] [0;2;4;3]));
  (*1217*) Assign (T 252) (Plain (Einsum [(T 226,[0;1]); (n_v'bbbb'ovov,[2;3;4;1])] [2;4;0;3]));
  (*1218*) Del (T 226);
  (*1219*) Assign (T 240) (Plain (Einsum [(n_l2'bbbb,[0;1;2;3]); (T 199,[3;4;1;5])] [4;2;5;0]));
  (*1220*) Assign (T 241) (Plain (Einsum [(T 203,[0;1;2;3]); (n_l2'abab,[2;4;0;5])] [1;5;3;4]));
  (*1221*) Assign (T 254) (Plain (Einsum [(T 53,[0;1;2;3]); (T 96,[1;2;4;5])] [0;4;3;5]));
  (*1222*) Assign (T 259) (Times (Einsum [(T 222,[0;1]); (n_v'bbbb'ovov,[2;3;1;4])] [0;2;4;3]) (2) 1);
  (*1223*) Assign (T 231) (Plain (Einsum [(n_v'bbbb'ovvv,[0;1;2;3]); (n_l1'bb,[3;4])] [4;0;1;2]));
  (*1224*) Assign (T 243) (Plain (Einsum [(n_v'bbbb'ovvv,[0;1;2;3]); (T 53,[4;5;0;3])] [5;4;1;2]));
  (*1225*) Assign (T 249) (Plain (Einsum [(T 215,[0;1]); (T 53,[2;3;0;4])] [2;3;1;4]));
  (*1226*) Assign (T 233) (Times (Einsum [(n_v'bbbb'ovoo,[0;1;2;3]); (T 53,[3;4;2;5])] [4;0;5;1]) (-1) 1);
  (*1227*) Assign (T 255) (Times (Einsum [(n_v'bbbb'ooov,[0;1;2;3]); (T 53,[1;4;2;5])] [4;0;5;3]) (-1) 1);
  (*1228*) Assign (T 236) (Plain (Transpose n_v'bbbb'ovov [0;2;1;3]));
  (*1229*) AddTo (T 236) (Times (Copy n_v'bbbb'oovv) (-1) 1);
  (*1230*) AddTo (T 236) (Plain (Copy (T 195)));
  (*1231*) Del (T 195);
  (*1232*) AddTo (T 236) (Times (Copy (T 196)) (2) 1);
  (*1233*) Del (T 196);
  (*1234*) AddTo (T 236) (Times (Einsum [(T 144,[0;1;2;3]); (n_t1'bb,[4;1])] [4;0;3;2]) (-1) 1);
  (*1235*) Assign (T 228) (Plain (Copy n_v'bbbb'ooov));
  (*1236*) AddTo (T 228) (Plain (Transpose (T 96) [0;2;1;3]));
  (*1237*) Assign (T 253) (Plain (Copy n_v'bbbb'ooov));
  (*1238*) AddTo (T 253) (Plain (Transpose (T 96) [0;2;1;3]));
  (*1239*) Assign (T 251) (Times (Copy n_v'bbbb'oooo) (-1) 1);
  (*1240*) AddTo (T 251) (Times (Transpose (T 107) [1;3;0;2]) (-1) 1);
  (*1241*) Del (T 107);
  (*1242*) AddTo (T 251) (Plain (Transpose (T 108) [0;3;1;2]));
  (*1243*) Del (T 108);
  (*1244*) Assign (T 258) (Plain (Einsum [(T 58,[0;1]); (n_v'bbbb'ovov,[2;3;1;4])] [2;0;4;3]));
  (*1245*) Assign (T 219) (Plain (Copy n_v'aabb'oovv));
  (*1246*) AddTo (T 219) (Plain (Einsum [(n_t1'aa,[0;1]); (n_v'aabb'ovvv,[2;1;3;4])] [0;2;3;4]));
  (*1247*) Assign (T 217) (Plain (Copy n_v'aabb'ooov));
  (*1248*) AddTo (T 217) (Plain (Copy (T 5)));
  (*1249*) Assign (T 207) (Plain (Einsum [(n_l2'abab,[0;1;2;3]); (n_v'aabb'vvvv,[4;0;5;1])] [2;3;4;5]));
  (*1250*) Assign (T 225) (Plain (Copy (T 70)));
  (*1251*) AddTo (T 225) (Plain (Copy (T 71)));
  (*1252*) Assign (T 220) (Plain (Einsum [(n_v'aabb'ovov,[0;1;2;3]); (n_t2'abab,[0;4;5;3])] [4;2;5;1]));
  (*1253*) Assign (T 206) (Plain (Transpose n_v'aabb'vvoo [2;3;0;1]));
  (*1254*) AddTo (T 206) (Plain (Transpose (T 102) [0;1;3;2]));
  (*1255*) Del (T 102);
  (*1256*) Assign (T 208) (Times (Einsum [(n_v'aabb'ovov,[0;1;2;3]); (T 79,[4;0;5;2])] [4;5;1;3]) (1) 2);
  (*1257*) Assign (T 209) (Times (Copy n_f'aa'vv) (-1) 1);
  (*1258*) AddTo (T 209) (Times (Transpose (T 92) [1;0]) (-1) 1);
  (*1259*) AddTo (T 209) (Times (Copy (T 176)) (2) 1);
  (*1260*) Del (T 176);
  (*1261*) AddTo (T 209) (Plain (Copy (T 177)));
  (*1262*) Del (T 177);
  (*1263*) AddTo (T 209) (Times (Einsum [(T 73,[0;1;2;3]); (n_t1'aa,[0;1])] [3;2]) (-1) 1);
  (*1264*) Assign (T 223) (Plain (Copy (T 123)));
  (*1265*) AddTo (T 223) (Plain (Copy (T 124)));
  (*1266*) Assign (T 194) (Times (Copy (T 34)) (1) 2);
  (*1267*) AddTo (T 194) (Plain (Copy (T 35)));
  (*1268*) Assign (T 212) (Times (Copy n_f'bb'vv) (-1) 2);
  (*1269*) AddTo (T 212) (Times (Transpose (T 143) [1;0]) (-1) 2);
  (*1270*) AddTo (T 212) (Times (Copy (T 210)) (1) 2);
  (*1271*) Del (T 210);
  (*1272*) AddTo (T 212) (Plain (Copy (T 211)));
  (*1273*) Del (T 211);
  (*1274*) AddTo (T 212) (Times (Einsum [(T 112,[0;1;2;3]); (n_t1'bb,[0;2])] [3;1]) (-1) 2);
  (*1275*) Assign (T 171) (Plain (Copy n_f'aa'ov));
  (*1276*) AddTo (T 171) (Plain (Copy (T 163)));
  (*1277*) AddTo (T 171) (Plain (Copy (T 7)));
  (*1278*) Assign (T 218) (Plain (Copy n_v'aabb'oooo));
  (*1279*) AddTo (T 218) (Plain (Transpose (T 13) [1;0;2;3]));
  (*1280*) Del (T 13);
  (*1281*) AddTo (T 218) (Plain (Copy (T 14)));
  (*1282*) Del (T 14);
  (*1283*) AddTo (T 218) (Plain (Einsum [(T 4,[0;1;2;3]); (n_t1'aa,[4;3])] [4;0;2;1]));
  (*1284*) Assign (T 190) (Plain (Einsum [(n_t1'aa,[0;1]); (n_v'aaaa'ovov,[2;1;0;3])] [2;3]));
  (*1285*) Assign (T 221) (Plain (Einsum [(n_v'aabb'ovov,[0;1;2;3]); (n_t2'abab,[4;2;1;5])] [4;0;5;3]));
  (*1286*) Assign (T 216) (Times (Copy (T 29)) (2) 1);
  (*1287*) AddTo (T 216) (Plain (Copy (T 30)));
  (*1288*) Assign (T 193) (Plain (Einsum [(n_v'aaaa'ovov,[0;1;2;3]); (T 95,[4;2])] [0;4;3;1]));
  (*1289*) Assign (T 187) (Times (Einsum [(T 146,[0;1]); (n_v'aaaa'ovov,[2;3;4;1])] [2;4;0;3]) (2) 1);
  (*1290*) Assign (T 147) (Times (Einsum [(T 146,[0;1]); (n_v'aaaa'ovov,[2;1;3;4])] [2;3;0;4]) (2) 1);
  (*1291*) Del (T 146);
  (*1292*) Assign (T 185) (Plain (Einsum [(n_l2'aaaa,[0;1;2;3]); (T 25,[2;3;4;5])] [4;5;0;1]));
  (*1293*) Del (T 25);
  (*1294*) Assign (T 172) (Plain (Einsum [(n_l2'aaaa,[0;1;2;3]); (n_v'aaaa'vvvv,[4;0;5;1])] [2;3;4;5]));
  (*1295*) Assign (T 186) (Times (Copy n_v'aaaa'oooo) (-1) 1);
  (*1296*) AddTo (T 186) (Times (Transpose (T 23) [1;3;0;2]) (-1) 1);
  (*1297*) Del (T 23);
  (*1298*) AddTo (T 186) (Plain (Transpose (T 24) [0;3;1;2]));
  (*1299*) Del (T 24);
  (*1300*) Assign (T 191) (Plain (Einsum [(T 1,[0;1;2;3]); (T 39,[4;0;1;5])] [4;2;5;3]));
  (*1301*) Assign (T 180) (Times (Einsum [(n_l2'aaaa,[0;1;2;3]); (T 179,[4;1])] [2;3;4;0]) (-1) 1);
  (*1302*) Del (T 179);
  (*1303*) Assign (T 151) (Plain (Einsum [(n_l1'aa,[0;1]); (n_v'aaaa'ovvv,[2;3;4;0])] [1;2;3;4]));
  (*1304*) Assign (T 153) (Plain (Einsum [(T 51,[0;1;2;3]); (n_v'aabb'ovoo,[4;5;2;1])] [0;4;3;5]));
  (*1305*) Assign (T 158) (Plain (Transpose n_v'aaaa'ovov [0;2;1;3]));
  (*1306*) AddTo (T 158) (Times (Copy n_v'aaaa'oovv) (-1) 1);
  (*1307*) AddTo (T 158) (Times (Copy (T 156)) (2) 1);
  (*1308*) Del (T 156);
  (*1309*) AddTo (T 158) (Plain (Copy (T 157)));
  (*1310*) Del (T 157);
  (*1311*) AddTo (T 158) (Times (Einsum [(T 93,[0;1;2;3]); (n_t1'aa,[4;2])] [4;0;3;1]) (-1) 1);
  (*1312*) Assign (T 175) (Times (Einsum [(T 174,[0;1;2;3]); (n_v'aaaa'ovov,[2;4;3;5])] [0;1;4;5]) (1) 2);
  (*1313*) Del (T 174);
  (*1314*) Assign (T 161) (Plain (Transpose n_v'aabb'ovov [0;2;1;3]));
  (*1315*) AddTo (T 161) (Plain (Copy (T 11)));
  (*1316*) Del (T 11);
  (*1317*) AddTo (T 161) (Plain (Copy (T 159)));
  (*1318*) Del (T 159);
  (*1319*) AddTo (T 161) (Times (Copy (T 160)) (2) 1);
  (*1320*) Del (T 160);
  (*1321*) Assign (T 184) (Plain (Einsum [(T 39,[0;1;2;3]); (T 183,[2;4])] [0;1;4;3]));
  (*1322*) Assign (T 155) (Times (Einsum [(T 39,[0;1;2;3]); (n_v'aaaa'ovoo,[4;5;2;0])] [1;4;3;5]) (-1) 1);
  (*1323*) Assign (T 173) (Plain (Einsum [(n_v'aaaa'ovvv,[0;1;2;3]); (T 39,[4;5;0;3])] [5;4;1;2]));
  (*1324*) Assign (T 189) (Times (Einsum [(T 39,[0;1;2;3]); (n_v'aaaa'ooov,[4;0;2;5])] [1;4;3;5]) (-1) 1);
  (*1325*) Assign (T 150) (Plain (Einsum [(n_l1'aa,[0;1]); (T 149,[1;2;3;4])] [2;3;4;0]));
  (*1326*) Del (T 149);
  (*1327*) Assign (T 152) (Plain (Einsum [(T 3,[0;1;2;3]); (T 51,[4;1;2;5])] [4;0;5;3]));
  (*1328*) Assign (T 188) (Plain (Copy n_v'aaaa'ooov));
  (*1329*) AddTo (T 188) (Plain (Transpose (T 1) [0;2;1;3]));
  (*1330*) Assign (T 170) (Plain (Einsum [(n_l2'abab,[0;1;2;3]); (T 169,[4;3;5;1])] [4;2;5;0]));
  (*1331*) Assign (T 168) (Plain (Einsum [(n_l2'aaaa,[0;1;2;3]); (T 167,[3;4;1;5])] [4;2;5;0]));
  (*1332*) Assign (T 148) (Plain (Copy n_v'aaaa'ooov));
  (*1333*) AddTo (T 148) (Plain (Transpose (T 1) [0;2;1;3]));
  (*1334*) Assign (T 162) (Times (Einsum [(T 67,[0;1]); (n_l2'aaaa,[2;3;4;0])] [4;1;2;3]) (-2) 1);
  (*1335*) Assign (T 192) (Plain (Einsum [(n_v'aaaa'ovov,[0;1;2;3]); (T 76,[4;2;5;1])] [0;4;3;5]));
  (*1336*) Assign (T 154) (Times (Einsum [(T 1,[0;1;2;3]); (T 39,[0;4;2;5])] [4;1;5;3]) (-1) 1);
  (*1337*) Assign (T 164) (Plain (Copy n_f'aa'ov));
  (*1338*) AddTo (T 164) (Plain (Copy (T 163)));
  (*1339*) Del (T 163);
  (*1340*) AddTo (T 164) (Plain (Copy (T 7)));
  (*1341*) Del (T 7);
  (*1342*) Assign (T 122) (Plain (Einsum [(n_t1'aa,[0;1]); (n_v'aabb'vvvv,[2;1;3;4])] [0;2;3;4]));
  (*1343*) Assign (T 129) (Plain (Einsum [(n_l1'bb,[0;1]); (n_t2'abab,[2;3;4;0])] [2;1;3;4]));
  (*1344*) AddTo (T 129) (Plain (Copy (T 51)));
  (*1345*) AddTo (T 129) (Times (Einsum [(n_t2'aaaa,[0;1;2;3]); (T 51,[1;4;5;3])] [0;4;5;2]) (2) 1);
  (*1346*) AddTo (T 129) (Times (Einsum [(T 41,[0;1;2;3]); (n_t2'abab,[0;4;5;3])] [1;2;4;5]) (-1) 1);
  (*1347*) AddTo (T 129) (Times (Einsum [(T 53,[0;1;2;3]); (n_t2'abab,[4;1;5;3])] [4;0;2;5]) (-2) 1);
  (*1348*) AddTo (T 129) (Times (Einsum [(n_t1'aa,[0;1]); (T 79,[0;2;3;4])] [2;3;4;1]) (-1) 1);
  (*1349*) Assign (T 142) (Times (Copy n_t1'bb) (-1) 2);
  (*1350*) AddTo (T 142) (Times (Copy (T 49)) (-1) 2);
  (*1351*) AddTo (T 142) (Times (Copy (T 50)) (-1) 1);
  (*1352*) AddTo (T 142) (Times (Copy (T 52)) (1) 2);
  (*1353*) AddTo (T 142) (Plain (Copy (T 54)));
  (*1354*) AddTo (T 142) (Times (Einsum [(n_t1'bb,[0;1]); (T 58,[0;2])] [2;1]) (1) 2);
  (*1355*) Assign (T 113) (Times (Copy (T 28)) (1) 2);
  (*1356*) AddTo (T 113) (Plain (Copy (T 29)));
  (*1357*) AddTo (T 113) (Times (Copy (T 30)) (1) 2);
  (*1358*) Assign (T 141) (Plain (Copy (T 77)));
  (*1359*) AddTo (T 141) (Plain (Transpose (T 78) [1;0;2;3]));
  (*1360*) Assign (T 125) (Plain (Transpose n_l2'abab [2;3;0;1]));
  (*1361*) AddTo (T 125) (Times (Copy (T 123)) (2) 1);
  (*1362*) Del (T 123);
  (*1363*) AddTo (T 125) (Times (Einsum [(T 41,[0;1;2;3]); (n_t1'aa,[0;4])] [1;2;4;3]) (-1) 1);
  (*1364*) AddTo (T 125) (Times (Copy (T 124)) (2) 1);
  (*1365*) Del (T 124);
  (*1366*) Assign (T 104) (Plain (Transpose n_v'aabb'ovoo [0;2;3;1]));
  (*1367*) AddTo (T 104) (Plain (Copy (T 3)));
  (*1368*) AddTo (T 104) (Plain (Einsum [(n_t2'abab,[0;1;2;3]); (n_v'aabb'vvov,[4;2;5;3])] [0;1;5;4]));
  (*1369*) AddTo (T 104) (Plain (Einsum [(T 97,[0;1;2;3]); (n_t2'abab,[4;0;5;3])] [4;1;2;5]));
  (*1370*) Del (T 97);
  (*1371*) AddTo (T 104) (Times (Einsum [(T 4,[0;1;2;3]); (n_t2'aaaa,[4;0;5;3])] [4;2;1;5]) (2) 1);
  (*1372*) AddTo (T 104) (Times (Einsum [(T 6,[0;1;2;3]); (n_t2'abab,[0;4;5;3])] [1;4;2;5]) (-1) 1);
  (*1373*) AddTo (T 104) (Plain (Einsum [(T 101,[0;1]); (n_t2'abab,[2;3;4;1])] [2;3;0;4]));
  (*1374*) AddTo (T 104) (Plain (Einsum [(T 103,[0;1;2;3]); (n_t1'aa,[4;2])] [4;1;0;3]));
  (*1375*) Del (T 103);
  (*1376*) AddTo (T 104) (Times (Einsum [(n_t1'aa,[0;1]); (T 17,[0;2;3;4])] [2;4;3;1]) (-1) 1);
  (*1377*) Assign (T 145) (Plain (Copy n_f'bb'vv));
  (*1378*) AddTo (T 145) (Plain (Transpose (T 143) [1;0]));
  (*1379*) Del (T 143);
  (*1380*) AddTo (T 145) (Times (Einsum [(T 144,[0;1;2;3]); (n_t1'bb,[0;2])] [3;1]) (-1) 1);
  (*1381*) Del (T 144);
  (*1382*) Assign (T 36) (Plain (Copy (T 33)));
  (*1383*) Del (T 33);
  (*1384*) AddTo (T 36) (Plain (Copy (T 34)));
  (*1385*) Del (T 34);
  (*1386*) AddTo (T 36) (Times (Copy (T 35)) (2) 1);
  (*1387*) Del (T 35);
  (*1388*) Assign (T 137) (Times (Einsum [(n_t2'bbbb,[0;1;2;3]); (n_l1'bb,[3;4])] [4;0;1;2]) (1) 2);
  (*1389*) AddTo (T 137) (Times (Transpose (T 53) [1;0;2;3]) (1) 2);
  (*1390*) AddTo (T 137) (Times (Transpose (T 134) [0;2;1;3]) (1) 4);
  (*1391*) AddTo (T 137) (Plain (Transpose (T 135) [0;2;1;3]));
  (*1392*) AddTo (T 137) (Times (Einsum [(n_t1'bb,[0;1]); (T 136,[0;2;3;4])] [2;3;4;1]) (-1) 2);
  (*1393*) Assign (T 133) (Plain (Einsum [(n_t1'bb,[0;1]); (T 53,[2;0;3;4])] [2;3;4;1]));
  (*1394*) Assign (T 111) (Times (Transpose n_v'bbbb'ooov [0;2;1;3]) (1) 2);
  (*1395*) AddTo (T 111) (Times (Einsum [(n_v'bbbb'ovvv,[0;1;2;3]); (n_t2'bbbb,[4;5;1;3])] [0;4;5;2]) (-1) 2);
  (*1396*) AddTo (T 111) (Plain (Einsum [(T 105,[0;1;2;3]); (n_t2'bbbb,[4;1;5;3])] [2;4;0;5]));
  (*1397*) Del (T 105);
  (*1398*) AddTo (T 111) (Times (Einsum [(T 15,[0;1;2;3]); (n_t2'abab,[0;4;3;5])] [2;4;1;5]) (1) 2);
  (*1399*) AddTo (T 111) (Times (Einsum [(T 101,[0;1]); (n_t2'bbbb,[2;3;4;1])] [0;2;3;4]) (1) 2);
  (*1400*) AddTo (T 111) (Times (Einsum [(n_t1'bb,[0;1]); (T 106,[2;3;4;1])] [3;2;0;4]) (1) 2);
  (*1401*) Del (T 106);
  (*1402*) AddTo (T 111) (Times (Einsum [(T 110,[0;1;2;3]); (n_t1'bb,[0;4])] [2;1;3;4]) (-1) 2);
  (*1403*) Del (T 110);
  (*1404*) Assign (T 130) (Plain (Einsum [(n_l2'abab,[0;1;2;3]); (n_t2'abab,[2;4;5;1])] [3;4;0;5]));
  (*1405*) AddTo (T 130) (Plain (Einsum [(n_t1'aa,[0;1]); (T 51,[0;2;3;4])] [2;3;1;4]));
  (*1406*) Assign (T 140) (Plain (Transpose (T 138) [1;0;3;2]));
  (*1407*) AddTo (T 140) (Plain (Transpose (T 136) [2;1;0;3]));
  (*1408*) Del (T 136);
  (*1409*) Assign (T 114) (Times (Transpose n_l1'aa [1;0]) (-1) 1);
  (*1410*) AddTo (T 114) (Times (Copy n_t1'aa) (-1) 1);
  (*1411*) AddTo (T 114) (Times (Copy (T 37)) (-2) 1);
  (*1412*) AddTo (T 114) (Times (Copy (T 38)) (-1) 1);
  (*1413*) AddTo (T 114) (Times (Copy (T 40)) (2) 1);
  (*1414*) AddTo (T 114) (Plain (Copy (T 42)));
  (*1415*) AddTo (T 114) (Times (Einsum [(T 46,[0;1]); (n_t1'aa,[0;2])] [1;2]) (2) 1);
  (*1416*) Assign (T 128) (Plain (Copy (T 126)));
  (*1417*) Del (T 126);
  (*1418*) AddTo (T 128) (Times (Copy (T 127)) (4) 1);
  (*1419*) Del (T 127);
  (*1420*) Assign (T 132) (Times (Copy n_v'bbbb'ovvv) (-1) 1);
  (*1421*) AddTo (T 132) (Plain (Transpose n_v'bbbb'ovvv [0;2;3;1]));
  (*1422*) Assign (T 131) (Plain (Copy n_v'bbbb'ovvv));
  (*1423*) AddTo (T 131) (Times (Einsum [(n_v'bbbb'vvvv,[0;1;2;3]); (n_t1'bb,[4;3])] [4;0;2;1]) (-1) 1);
  (*1424*) Assign (T 139) (Times (Copy (T 134)) (1) 4);
  (*1425*) Del (T 134);
  (*1426*) AddTo (T 139) (Plain (Copy (T 135)));
  (*1427*) Del (T 135);
  (*1428*) AddTo (T 139) (Times (Einsum [(T 138,[0;1;2;3]); (n_t1'bb,[1;4])] [0;3;2;4]) (1) 2);
  (*1429*) Del (T 138);
  (*1430*) Assign (T 60) (Times (Transpose n_l1'bb [1;0]) (-1) 1);
  (*1431*) AddTo (T 60) (Times (Copy n_t1'bb) (-1) 1);
  (*1432*) AddTo (T 60) (Times (Copy (T 49)) (-1) 1);
  (*1433*) Del (T 49);
  (*1434*) AddTo (T 60) (Times (Copy (T 50)) (-2) 1);
  (*1435*) Del (T 50);
  (*1436*) AddTo (T 60) (Plain (Copy (T 52)));
  (*1437*) Del (T 52);
  (*1438*) AddTo (T 60) (Times (Copy (T 54)) (2) 1);
  (*1439*) Del (T 54);
  (*1440*) AddTo (T 60) (Plain (Copy (T 59)));
  (*1441*) Del (T 59);
  (*1442*) Assign (T 94) (Plain (Copy n_f'aa'vv));
  (*1443*) AddTo (T 94) (Plain (Transpose (T 92) [1;0]));
  (*1444*) Del (T 92);
  (*1445*) AddTo (T 94) (Times (Einsum [(T 93,[0;1;2;3]); (n_t1'aa,[0;1])] [3;2]) (-1) 1);
  (*1446*) Del (T 93);
  (*1447*) Assign (T 81) (Plain (Einsum [(n_l2'abab,[0;1;2;3]); (n_t2'abab,[4;3;0;5])] [2;4;1;5]));
  (*1448*) AddTo (T 81) (Plain (Einsum [(T 41,[0;1;2;3]); (n_t1'bb,[2;4])] [0;1;4;3]));
  (*1449*) Assign (T 86) (Times (Einsum [(n_t2'aaaa,[0;1;2;3]); (n_l1'aa,[3;4])] [4;0;1;2]) (2) 1);
  (*1450*) AddTo (T 86) (Times (Transpose (T 39) [1;0;2;3]) (2) 1);
  (*1451*) AddTo (T 86) (Times (Transpose (T 83) [0;2;1;3]) (4) 1);
  (*1452*) AddTo (T 86) (Times (Einsum [(n_t1'aa,[0;1]); (T 84,[0;2;3;4])] [2;3;4;1]) (-2) 1);
  (*1453*) AddTo (T 86) (Plain (Transpose (T 85) [0;2;1;3]));
  (*1454*) Assign (T 72) (Plain (Transpose n_l2'abab [2;3;0;1]));
  (*1455*) AddTo (T 72) (Times (Copy (T 70)) (2) 1);
  (*1456*) Del (T 70);
  (*1457*) AddTo (T 72) (Times (Copy (T 71)) (2) 1);
  (*1458*) Del (T 71);
  (*1459*) AddTo (T 72) (Times (Einsum [(n_t1'bb,[0;1]); (T 51,[2;0;3;4])] [2;3;4;1]) (-1) 1);
  (*1460*) Assign (T 31) (Plain (Copy (T 28)));
  (*1461*) Del (T 28);
  (*1462*) AddTo (T 31) (Times (Copy (T 29)) (2) 1);
  (*1463*) Del (T 29);
  (*1464*) AddTo (T 31) (Plain (Copy (T 30)));
  (*1465*) Del (T 30);
  (*1466*) Assign (T 82) (Times (Transpose n_l2'aaaa [2;3;0;1]) (-1) 1);
  (*1467*) AddTo (T 82) (Times (Einsum [(T 39,[0;1;2;3]); (n_t1'aa,[0;4])] [1;2;3;4]) (-1) 1);
  (*1468*) Assign (T 27) (Plain (Transpose n_v'aaaa'ooov [0;2;1;3]));
  (*1469*) AddTo (T 27) (Plain (Einsum [(n_v'aaaa'ovvv,[0;1;2;3]); (n_t2'aaaa,[4;5;3;1])] [0;4;5;2]));
  (*1470*) AddTo (T 27) (Times (Einsum [(n_t2'aaaa,[0;1;2;3]); (T 19,[4;1;5;3])] [5;0;4;2]) (2) 1);
  (*1471*) Del (T 19);
  (*1472*) AddTo (T 27) (Plain (Einsum [(n_t2'abab,[0;1;2;3]); (T 20,[4;5;1;3])] [5;0;4;2]));
  (*1473*) Del (T 20);
  (*1474*) AddTo (T 27) (Plain (Einsum [(n_t2'aaaa,[0;1;2;3]); (T 10,[4;3])] [4;0;1;2]));
  (*1475*) AddTo (T 27) (Plain (Einsum [(T 22,[0;1;2;3]); (n_t1'aa,[4;3])] [1;0;4;2]));
  (*1476*) Del (T 22);
  (*1477*) AddTo (T 27) (Times (Einsum [(n_t1'aa,[0;1]); (T 26,[0;2;3;4])] [3;2;4;1]) (-1) 1);
  (*1478*) Del (T 26);
  (*1479*) Assign (T 90) (Plain (Copy (T 77)));
  (*1480*) Del (T 77);
  (*1481*) AddTo (T 90) (Plain (Transpose (T 78) [0;1;3;2]));
  (*1482*) Del (T 78);
  (*1483*) Assign (T 91) (Times (Copy n_t1'aa) (-1) 2);
  (*1484*) AddTo (T 91) (Times (Copy (T 37)) (-1) 1);
  (*1485*) AddTo (T 91) (Times (Copy (T 38)) (-1) 2);
  (*1486*) AddTo (T 91) (Plain (Copy (T 40)));
  (*1487*) AddTo (T 91) (Times (Copy (T 42)) (1) 2);
  (*1488*) AddTo (T 91) (Plain (Copy (T 47)));
  (*1489*) Assign (T 89) (Plain (Transpose (T 87) [1;0;3;2]));
  (*1490*) AddTo (T 89) (Plain (Transpose (T 84) [2;1;0;3]));
  (*1491*) Del (T 84);
  (*1492*) Assign (T 18) (Plain (Copy n_v'aabb'ooov));
  (*1493*) AddTo (T 18) (Plain (Einsum [(n_v'aabb'oovv,[0;1;2;3]); (n_t1'bb,[4;3])] [0;1;4;2]));
  (*1494*) AddTo (T 18) (Plain (Einsum [(n_v'aabb'ovvv,[0;1;2;3]); (n_t2'abab,[4;5;1;3])] [4;0;5;2]));
  (*1495*) AddTo (T 18) (Plain (Einsum [(T 2,[0;1;2;3]); (n_t2'abab,[0;4;3;5])] [1;2;4;5]));
  (*1496*) Del (T 2);
  (*1497*) AddTo (T 18) (Times (Einsum [(T 4,[0;1;2;3]); (n_t2'abab,[4;1;3;5])] [4;0;2;5]) (-1) 1);
  (*1498*) Del (T 4);
  (*1499*) AddTo (T 18) (Times (Einsum [(n_t2'bbbb,[0;1;2;3]); (T 6,[4;5;1;3])] [5;4;0;2]) (2) 1);
  (*1500*) Del (T 6);
  (*1501*) AddTo (T 18) (Plain (Einsum [(T 10,[0;1]); (n_t2'abab,[2;3;1;4])] [2;0;3;4]));
  (*1502*) AddTo (T 18) (Plain (Einsum [(n_t1'aa,[0;1]); (T 12,[2;3;1;4])] [0;2;3;4]));
  (*1503*) Del (T 12);
  (*1504*) AddTo (T 18) (Times (Einsum [(n_t1'bb,[0;1]); (T 17,[2;3;0;4])] [3;2;4;1]) (-1) 1);
  (*1505*) Del (T 17);
  (*1506*) Assign (T 48) (Times (Transpose n_l1'aa [1;0]) (-1) 2);
  (*1507*) AddTo (T 48) (Times (Copy n_t1'aa) (-1) 2);
  (*1508*) AddTo (T 48) (Times (Copy (T 37)) (-1) 1);
  (*1509*) Del (T 37);
  (*1510*) AddTo (T 48) (Times (Copy (T 38)) (-1) 2);
  (*1511*) Del (T 38);
  (*1512*) AddTo (T 48) (Plain (Copy (T 40)));
  (*1513*) Del (T 40);
  (*1514*) AddTo (T 48) (Times (Copy (T 42)) (1) 2);
  (*1515*) Del (T 42);
  (*1516*) AddTo (T 48) (Plain (Copy (T 47)));
  (*1517*) Del (T 47);
  (*1518*) Assign (T 69) (Plain (Einsum [(n_t1'aa,[0;1]); (n_v'aaaa'vvvv,[2;3;4;1])] [0;2;3;4]));
  (*1519*) Assign (T 80) (Times (Einsum [(n_l1'aa,[0;1]); (n_t2'abab,[2;3;0;4])] [1;2;3;4]) (1) 2);
  (*1520*) AddTo (T 80) (Times (Copy (T 41)) (1) 2);
  (*1521*) AddTo (T 80) (Times (Einsum [(T 39,[0;1;2;3]); (n_t2'abab,[1;4;3;5])] [0;2;4;5]) (-1) 1);
  (*1522*) AddTo (T 80) (Plain (Einsum [(T 41,[0;1;2;3]); (n_t2'bbbb,[4;2;5;3])] [0;1;4;5]));
  (*1523*) AddTo (T 80) (Times (Einsum [(T 51,[0;1;2;3]); (n_t2'abab,[4;1;3;5])] [0;4;2;5]) (-1) 2);
  (*1524*) AddTo (T 80) (Times (Einsum [(n_t1'bb,[0;1]); (T 79,[2;3;0;4])] [2;3;4;1]) (-1) 2);
  (*1525*) Del (T 79);
  (*1526*) Assign (T 68) (Plain (Einsum [(n_t1'bb,[0;1]); (n_v'aabb'vvvv,[2;3;4;1])] [0;2;3;4]));
  (*1527*) Assign (T 88) (Times (Copy (T 83)) (4) 1);
  (*1528*) Del (T 83);
  (*1529*) AddTo (T 88) (Times (Einsum [(n_t1'aa,[0;1]); (T 87,[2;0;3;4])] [2;4;3;1]) (2) 1);
  (*1530*) Del (T 87);
  (*1531*) AddTo (T 88) (Plain (Copy (T 85)));
  (*1532*) Del (T 85);
  (*1533*) Assign n_l2new'bbbb (Plain (Transpose n_v'bbbb'ovov [1;3;0;2]));
  (*1534*) AddTo n_l2new'bbbb (Times (Transpose (T 227) [3;2;1;0]) (-1) 1);
  (*1535*) AddTo n_l2new'bbbb (Times (Einsum [(n_l1'bb,[0;1]); (T 228,[1;2;3;4])] [4;0;3;2]) (-1) 1);
  (*1536*) Del (T 228);
  (*1537*) AddTo n_l2new'bbbb (Times (Transpose n_v'bbbb'ovov [3;1;0;2]) (-1) 1);
  (*1538*) AddTo n_l2new'bbbb (Plain (Transpose (T 227) [2;3;1;0]));
  (*1539*) Del (T 227);
  (*1540*) AddTo n_l2new'bbbb (Plain (Transpose (T 230) [3;2;0;1]));
  (*1541*) AddTo n_l2new'bbbb (Times (Transpose (T 231) [2;3;0;1]) (-1) 1);
  (*1542*) AddTo n_l2new'bbbb (Times (Transpose (T 232) [3;2;0;1]) (2) 1);
  (*1543*) AddTo n_l2new'bbbb (Times (Transpose (T 233) [3;2;0;1]) (2) 1);
  (*1544*) AddTo n_l2new'bbbb (Plain (Transpose (T 234) [3;2;0;1]));
  (*1545*) AddTo n_l2new'bbbb (Plain (Transpose (T 235) [3;2;0;1]));
  (*1546*) AddTo n_l2new'bbbb (Times (Einsum [(n_l2'bbbb,[0;1;2;3]); (T 236,[3;4;1;5])] [5;0;2;4]) (-2) 1);
  (*1547*) Del (T 236);
  (*1548*) AddTo n_l2new'bbbb (Times (Einsum [(T 237,[0;1;2;3]); (n_l2'abab,[2;4;0;5])] [3;4;5;1]) (-1) 1);
  (*1549*) Del (T 237);
  (*1550*) AddTo n_l2new'bbbb (Times (Transpose (T 238) [3;2;0;1]) (-1) 1);
  (*1551*) AddTo n_l2new'bbbb (Times (Einsum [(T 239,[0;1]); (n_l1'bb,[2;3])] [1;2;3;0]) (-1) 1);
  (*1552*) Del (T 239);
  (*1553*) AddTo n_l2new'bbbb (Plain (Transpose (T 231) [2;3;1;0]));
  (*1554*) AddTo n_l2new'bbbb (Times (Transpose (T 232) [3;2;1;0]) (-2) 1);
  (*1555*) AddTo n_l2new'bbbb (Times (Transpose (T 233) [3;2;1;0]) (-2) 1);
  (*1556*) AddTo n_l2new'bbbb (Times (Transpose (T 234) [3;2;1;0]) (-1) 1);
  (*1557*) AddTo n_l2new'bbbb (Times (Transpose (T 235) [3;2;1;0]) (-1) 1);
  (*1558*) AddTo n_l2new'bbbb (Times (Transpose (T 240) [2;3;0;1]) (2) 1);
  (*1559*) AddTo n_l2new'bbbb (Plain (Transpose (T 241) [2;3;0;1]));
  (*1560*) AddTo n_l2new'bbbb (Plain (Transpose (T 238) [3;2;1;0]));
  (*1561*) Del (T 238);
  (*1562*) AddTo n_l2new'bbbb (Plain (Einsum [(n_l1'bb,[0;1]); (T 205,[2;3])] [3;0;2;1]));
  (*1563*) AddTo n_l2new'bbbb (Plain (Transpose (T 231) [3;2;0;1]));
  (*1564*) AddTo n_l2new'bbbb (Times (Transpose (T 232) [2;3;0;1]) (-2) 1);
  (*1565*) AddTo n_l2new'bbbb (Times (Transpose (T 233) [2;3;0;1]) (-2) 1);
  (*1566*) AddTo n_l2new'bbbb (Times (Transpose (T 234) [2;3;0;1]) (-1) 1);
  (*1567*) AddTo n_l2new'bbbb (Times (Transpose (T 235) [2;3;0;1]) (-1) 1);
  (*1568*) AddTo n_l2new'bbbb (Times (Transpose (T 240) [3;2;1;0]) (2) 1);
  (*1569*) AddTo n_l2new'bbbb (Plain (Transpose (T 241) [3;2;1;0]));
  (*1570*) AddTo n_l2new'bbbb (Plain (Einsum [(n_l1'bb,[0;1]); (T 205,[2;3])] [0;3;1;2]));
  (*1571*) AddTo n_l2new'bbbb (Times (Transpose (T 231) [3;2;1;0]) (-1) 1);
  (*1572*) Del (T 231);
  (*1573*) AddTo n_l2new'bbbb (Times (Transpose (T 232) [2;3;1;0]) (2) 1);
  (*1574*) Del (T 232);
  (*1575*) AddTo n_l2new'bbbb (Times (Transpose (T 233) [2;3;1;0]) (2) 1);
  (*1576*) Del (T 233);
  (*1577*) AddTo n_l2new'bbbb (Plain (Transpose (T 234) [2;3;1;0]));
  (*1578*) Del (T 234);
  (*1579*) AddTo n_l2new'bbbb (Plain (Transpose (T 235) [2;3;1;0]));
  (*1580*) Del (T 235);
  (*1581*) AddTo n_l2new'bbbb (Times (Transpose (T 240) [3;2;0;1]) (-2) 1);
  (*1582*) Del (T 240);
  (*1583*) AddTo n_l2new'bbbb (Times (Transpose (T 241) [3;2;0;1]) (-1) 1);
  (*1584*) Del (T 241);
  (*1585*) AddTo n_l2new'bbbb (Times (Einsum [(n_l1'bb,[0;1]); (T 205,[2;3])] [0;3;2;1]) (-1) 1);
  (*1586*) AddTo n_l2new'bbbb (Times (Transpose (T 242) [3;2;1;0]) (2) 1);
  (*1587*) Del (T 242);
  (*1588*) AddTo n_l2new'bbbb (Times (Transpose (T 243) [2;3;1;0]) (2) 1);
  (*1589*) AddTo n_l2new'bbbb (Times (Transpose (T 245) [3;2;1;0]) (4) 1);
  (*1590*) Del (T 245);
  (*1591*) AddTo n_l2new'bbbb (Times (Transpose (T 248) [2;3;1;0]) (2) 1);
  (*1592*) AddTo n_l2new'bbbb (Times (Transpose (T 249) [2;3;1;0]) (-2) 1);
  (*1593*) AddTo n_l2new'bbbb (Times (Transpose (T 243) [3;2;1;0]) (-2) 1);
  (*1594*) Del (T 243);
  (*1595*) AddTo n_l2new'bbbb (Times (Transpose (T 248) [3;2;1;0]) (-2) 1);
  (*1596*) Del (T 248);
  (*1597*) AddTo n_l2new'bbbb (Times (Transpose (T 249) [3;2;1;0]) (2) 1);
  (*1598*) Del (T 249);
  (*1599*) AddTo n_l2new'bbbb (Times (Transpose (T 250) [2;3;0;1]) (-2) 1);
  (*1600*) AddTo n_l2new'bbbb (Times (Transpose (T 250) [2;3;1;0]) (2) 1);
  (*1601*) Del (T 250);
  (*1602*) AddTo n_l2new'bbbb (Times (Einsum [(n_l2'bbbb,[0;1;2;3]); (T 251,[2;4;3;5])] [0;1;4;5]) (-2) 1);
  (*1603*) Del (T 251);
  (*1604*) AddTo n_l2new'bbbb (Plain (Transpose (T 252) [3;2;1;0]));
  (*1605*) AddTo n_l2new'bbbb (Plain (Einsum [(n_l1'bb,[0;1]); (T 253,[1;2;3;4])] [4;0;2;3]));
  (*1606*) Del (T 253);
  (*1607*) AddTo n_l2new'bbbb (Times (Transpose (T 252) [2;3;1;0]) (-1) 1);
  (*1608*) Del (T 252);
  (*1609*) AddTo n_l2new'bbbb (Times (Transpose (T 230) [3;2;1;0]) (-1) 1);
  (*1610*) Del (T 230);
  (*1611*) AddTo n_l2new'bbbb (Times (Transpose (T 254) [3;2;0;1]) (-2) 1);
  (*1612*) AddTo n_l2new'bbbb (Plain (Einsum [(T 224,[0;1]); (n_l1'bb,[2;3])] [1;2;3;0]));
  (*1613*) AddTo n_l2new'bbbb (Times (Transpose (T 255) [3;2;0;1]) (-2) 1);
  (*1614*) AddTo n_l2new'bbbb (Plain (Transpose (T 257) [3;2;0;1]));
  (*1615*) AddTo n_l2new'bbbb (Times (Transpose (T 258) [2;3;1;0]) (-1) 1);
  (*1616*) AddTo n_l2new'bbbb (Times (Transpose (T 254) [2;3;0;1]) (2) 1);
  (*1617*) AddTo n_l2new'bbbb (Times (Einsum [(n_l1'bb,[0;1]); (T 224,[2;3])] [0;3;1;2]) (-1) 1);
  (*1618*) AddTo n_l2new'bbbb (Times (Transpose (T 255) [2;3;0;1]) (2) 1);
  (*1619*) AddTo n_l2new'bbbb (Times (Transpose (T 257) [2;3;0;1]) (-1) 1);
  (*1620*) AddTo n_l2new'bbbb (Plain (Transpose (T 258) [3;2;1;0]));
  (*1621*) Del (T 258);
  (*1622*) AddTo n_l2new'bbbb (Times (Transpose (T 254) [3;2;1;0]) (2) 1);
  (*1623*) AddTo n_l2new'bbbb (Times (Einsum [(n_l1'bb,[0;1]); (T 224,[2;3])] [3;0;2;1]) (-1) 1);
  (*1624*) AddTo n_l2new'bbbb (Times (Transpose (T 255) [3;2;1;0]) (2) 1);
  (*1625*) AddTo n_l2new'bbbb (Times (Transpose (T 257) [3;2;1;0]) (-1) 1);
  (*1626*) AddTo n_l2new'bbbb (Plain (Transpose (T 259) [2;3;1;0]));
  (*1627*) AddTo n_l2new'bbbb (Times (Transpose (T 254) [2;3;1;0]) (-2) 1);
  (*1628*) Del (T 254);
  (*1629*) AddTo n_l2new'bbbb (Plain (Einsum [(n_l1'bb,[0;1]); (T 224,[2;3])] [0;3;2;1]));
  (*1630*) AddTo n_l2new'bbbb (Times (Transpose (T 255) [2;3;1;0]) (-2) 1);
  (*1631*) Del (T 255);
  (*1632*) AddTo n_l2new'bbbb (Plain (Transpose (T 257) [2;3;1;0]));
  (*1633*) Del (T 257);
  (*1634*) AddTo n_l2new'bbbb (Times (Transpose (T 259) [3;2;1;0]) (-1) 1);
  (*1635*) Del (T 259);
  (*1636*) Assign n_l2new'abab (Plain (Transpose n_v'aabb'ovov [1;3;0;2]));
  (*1637*) AddTo n_l2new'abab (Times (Einsum [(n_v'aabb'ovov,[0;1;2;3]); (T 194,[4;3])] [1;4;0;2]) (-2) 1);
  (*1638*) Del (T 194);
  (*1639*) AddTo n_l2new'abab (Times (Einsum [(T 15,[0;1;2;3]); (n_l1'bb,[4;1])] [3;4;0;2]) (-1) 1);
  (*1640*) AddTo n_l2new'abab (Plain (Einsum [(n_v'aabb'ovvv,[0;1;2;3]); (n_l1'bb,[3;4])] [1;2;0;4]));
  (*1641*) AddTo n_l2new'abab (Times (Einsum [(T 41,[0;1;2;3]); (n_v'aaaa'ovoo,[4;5;1;0])] [5;3;4;2]) (-1) 1);
  (*1642*) AddTo n_l2new'abab (Times (Einsum [(T 41,[0;1;2;3]); (T 1,[0;4;1;5])] [5;3;4;2]) (-1) 1);
  (*1643*) AddTo n_l2new'abab (Times (Einsum [(T 3,[0;1;2;3]); (T 53,[4;1;2;5])] [3;5;0;4]) (-2) 1);
  (*1644*) Del (T 3);
  (*1645*) AddTo n_l2new'abab (Times (Einsum [(T 53,[0;1;2;3]); (n_v'aabb'ovoo,[4;5;2;1])] [5;3;4;0]) (-2) 1);
  (*1646*) AddTo n_l2new'abab (Plain (Einsum [(n_l2'abab,[0;1;2;3]); (T 167,[2;4;0;5])] [5;1;4;3]));
  (*1647*) Del (T 167);
  (*1648*) AddTo n_l2new'abab (Times (Einsum [(n_l2'bbbb,[0;1;2;3]); (T 169,[4;3;5;1])] [5;0;4;2]) (2) 1);
  (*1649*) Del (T 169);
  (*1650*) AddTo n_l2new'abab (Times (Einsum [(n_l2'abab,[0;1;2;3]); (T 67,[2;4])] [0;1;4;3]) (-1) 1);
  (*1651*) AddTo n_l2new'abab (Plain (Einsum [(n_l1'bb,[0;1]); (T 171,[2;3])] [3;0;2;1]));
  (*1652*) AddTo n_l2new'abab (Times (Einsum [(T 39,[0;1;2;3]); (n_v'aabb'ooov,[2;1;4;5])] [3;5;0;4]) (-2) 1);
  (*1653*) AddTo n_l2new'abab (Times (Einsum [(T 5,[0;1;2;3]); (T 39,[4;0;1;5])] [5;3;4;2]) (-2) 1);
  (*1654*) Del (T 5);
  (*1655*) AddTo n_l2new'abab (Times (Einsum [(T 51,[0;1;2;3]); (T 96,[1;4;2;5])] [3;5;0;4]) (-1) 1);
  (*1656*) AddTo n_l2new'abab (Plain (Einsum [(n_v'aabb'vvov,[0;1;2;3]); (n_l1'aa,[1;4])] [0;3;4;2]));
  (*1657*) AddTo n_l2new'abab (Times (Einsum [(T 51,[0;1;2;3]); (n_v'bbbb'ovoo,[4;5;2;1])] [3;5;0;4]) (-1) 1);
  (*1658*) AddTo n_l2new'abab (Plain (Einsum [(T 199,[0;1;2;3]); (n_l2'abab,[4;2;5;0])] [4;3;5;1]));
  (*1659*) Del (T 199);
  (*1660*) AddTo n_l2new'abab (Times (Einsum [(T 203,[0;1;2;3]); (n_l2'aaaa,[4;2;5;0])] [4;3;5;1]) (2) 1);
  (*1661*) Del (T 203);
  (*1662*) AddTo n_l2new'abab (Plain (Einsum [(n_l1'aa,[0;1]); (T 205,[2;3])] [0;3;1;2]));
  (*1663*) Del (T 205);
  (*1664*) AddTo n_l2new'abab (Times (Einsum [(n_l2'abab,[0;1;2;3]); (T 206,[3;4;0;5])] [5;1;2;4]) (-1) 1);
  (*1665*) Del (T 206);
  (*1666*) AddTo n_l2new'abab (Times (Einsum [(T 121,[0;1]); (n_l2'abab,[2;3;4;0])] [2;3;4;1]) (-1) 1);
  (*1667*) AddTo n_l2new'abab (Plain (Transpose (T 207) [2;3;0;1]));
  (*1668*) Del (T 207);
  (*1669*) AddTo n_l2new'abab (Times (Einsum [(T 41,[0;1;2;3]); (n_v'aabb'ovvv,[1;4;5;3])] [4;5;0;2]) (-1) 1);
  (*1670*) AddTo n_l2new'abab (Times (Transpose (T 208) [2;3;0;1]) (2) 1);
  (*1671*) Del (T 208);
  (*1672*) AddTo n_l2new'abab (Times (Einsum [(n_l2'abab,[0;1;2;3]); (T 209,[0;4])] [4;1;2;3]) (-1) 1);
  (*1673*) Del (T 209);
  (*1674*) AddTo n_l2new'abab (Times (Einsum [(T 183,[0;1]); (T 41,[2;0;3;4])] [1;4;2;3]) (-1) 1);
  (*1675*) Del (T 183);
  (*1676*) AddTo n_l2new'abab (Times (Einsum [(n_v'aabb'vvov,[0;1;2;3]); (T 51,[4;5;2;1])] [0;3;4;5]) (-1) 1);
  (*1677*) AddTo n_l2new'abab (Times (Einsum [(n_l2'abab,[0;1;2;3]); (T 212,[1;4])] [0;4;2;3]) (-2) 1);
  (*1678*) Del (T 212);
  (*1679*) AddTo n_l2new'abab (Times (Einsum [(T 215,[0;1]); (T 51,[2;3;0;4])] [4;1;2;3]) (-1) 1);
  (*1680*) Del (T 215);
  (*1681*) AddTo n_l2new'abab (Times (Einsum [(n_v'aabb'ovov,[0;1;2;3]); (T 216,[4;1])] [4;3;0;2]) (-1) 1);
  (*1682*) Del (T 216);
  (*1683*) AddTo n_l2new'abab (Times (Einsum [(T 217,[0;1;2;3]); (n_l1'aa,[4;0])] [4;3;1;2]) (-1) 1);
  (*1684*) AddTo n_l2new'abab (Plain (Einsum [(T 218,[0;1;2;3]); (n_l2'abab,[4;5;0;2])] [4;5;1;3]));
  (*1685*) Del (T 218);
  (*1686*) AddTo n_l2new'abab (Times (Einsum [(n_l2'abab,[0;1;2;3]); (T 219,[2;4;1;5])] [0;5;4;3]) (-1) 1);
  (*1687*) Del (T 219);
  (*1688*) AddTo n_l2new'abab (Plain (Einsum [(T 220,[0;1;2;3]); (n_l2'abab,[2;4;5;0])] [3;4;5;1]));
  (*1689*) Del (T 220);
  (*1690*) AddTo n_l2new'abab (Plain (Einsum [(T 15,[0;1;2;3]); (T 41,[4;0;1;5])] [3;5;4;2]));
  (*1691*) Del (T 15);
  (*1692*) AddTo n_l2new'abab (Times (Einsum [(T 95,[0;1]); (n_v'aabb'ovov,[1;2;3;4])] [2;4;0;3]) (-1) 1);
  (*1693*) AddTo n_l2new'abab (Plain (Einsum [(T 221,[0;1;2;3]); (n_l2'abab,[4;2;0;5])] [4;3;1;5]));
  (*1694*) Del (T 221);
  (*1695*) AddTo n_l2new'abab (Plain (Einsum [(T 217,[0;1;2;3]); (T 51,[0;4;2;5])] [5;3;1;4]));
  (*1696*) Del (T 217);
  (*1697*) AddTo n_l2new'abab (Times (Einsum [(T 222,[0;1]); (n_v'aabb'ovov,[2;3;1;4])] [3;4;2;0]) (-2) 1);
  (*1698*) Del (T 222);
  (*1699*) AddTo n_l2new'abab (Plain (Einsum [(T 41,[0;1;2;3]); (T 1,[0;1;4;5])] [5;3;4;2]));
  (*1700*) Del (T 1);
  (*1701*) AddTo n_l2new'abab (Plain (Einsum [(T 41,[0;1;2;3]); (n_v'aaaa'ooov,[4;0;1;5])] [5;3;4;2]));
  (*1702*) AddTo n_l2new'abab (Times (Einsum [(n_l1'bb,[0;1]); (T 190,[2;3])] [3;0;2;1]) (-1) 1);
  (*1703*) AddTo n_l2new'abab (Times (Einsum [(n_v'aaaa'ovov,[0;1;2;3]); (T 223,[2;4;1;5])] [3;5;0;4]) (-2) 1);
  (*1704*) Del (T 223);
  (*1705*) AddTo n_l2new'abab (Plain (Einsum [(T 51,[0;1;2;3]); (n_v'bbbb'ooov,[4;1;2;5])] [3;5;0;4]));
  (*1706*) AddTo n_l2new'abab (Plain (Einsum [(T 51,[0;1;2;3]); (T 96,[1;2;4;5])] [3;5;0;4]));
  (*1707*) Del (T 96);
  (*1708*) AddTo n_l2new'abab (Times (Einsum [(n_l1'aa,[0;1]); (T 224,[2;3])] [0;3;1;2]) (-1) 1);
  (*1709*) Del (T 224);
  (*1710*) AddTo n_l2new'abab (Times (Einsum [(n_v'bbbb'ovov,[0;1;2;3]); (T 225,[4;2;5;1])] [5;3;4;0]) (-2) 1);
  (*1711*) Del (T 225);
  (*1712*) Assign n_l2new'aaaa (Plain (Transpose n_v'aaaa'ovov [1;3;0;2]));
  (*1713*) AddTo n_l2new'aaaa (Times (Transpose (T 147) [3;2;1;0]) (-1) 1);
  (*1714*) AddTo n_l2new'aaaa (Times (Einsum [(n_l1'aa,[0;1]); (T 148,[1;2;3;4])] [4;0;3;2]) (-1) 1);
  (*1715*) Del (T 148);
  (*1716*) AddTo n_l2new'aaaa (Times (Transpose n_v'aaaa'ovov [3;1;0;2]) (-1) 1);
  (*1717*) AddTo n_l2new'aaaa (Plain (Transpose (T 147) [2;3;1;0]));
  (*1718*) Del (T 147);
  (*1719*) AddTo n_l2new'aaaa (Plain (Transpose (T 150) [3;2;0;1]));
  (*1720*) AddTo n_l2new'aaaa (Times (Transpose (T 151) [2;3;0;1]) (-1) 1);
  (*1721*) AddTo n_l2new'aaaa (Plain (Transpose (T 152) [3;2;0;1]));
  (*1722*) AddTo n_l2new'aaaa (Plain (Transpose (T 153) [3;2;0;1]));
  (*1723*) AddTo n_l2new'aaaa (Times (Transpose (T 154) [3;2;0;1]) (2) 1);
  (*1724*) AddTo n_l2new'aaaa (Times (Transpose (T 155) [3;2;0;1]) (2) 1);
  (*1725*) AddTo n_l2new'aaaa (Times (Einsum [(n_l2'aaaa,[0;1;2;3]); (T 158,[3;4;1;5])] [5;0;2;4]) (-2) 1);
  (*1726*) Del (T 158);
  (*1727*) AddTo n_l2new'aaaa (Times (Einsum [(n_l2'abab,[0;1;2;3]); (T 161,[4;3;5;1])] [5;0;2;4]) (-1) 1);
  (*1728*) Del (T 161);
  (*1729*) AddTo n_l2new'aaaa (Times (Transpose (T 162) [3;2;0;1]) (-1) 1);
  (*1730*) AddTo n_l2new'aaaa (Times (Einsum [(T 164,[0;1]); (n_l1'aa,[2;3])] [1;2;3;0]) (-1) 1);
  (*1731*) Del (T 164);
  (*1732*) AddTo n_l2new'aaaa (Plain (Transpose (T 151) [2;3;1;0]));
  (*1733*) AddTo n_l2new'aaaa (Times (Transpose (T 152) [3;2;1;0]) (-1) 1);
  (*1734*) AddTo n_l2new'aaaa (Times (Transpose (T 153) [3;2;1;0]) (-1) 1);
  (*1735*) AddTo n_l2new'aaaa (Times (Transpose (T 154) [3;2;1;0]) (-2) 1);
  (*1736*) AddTo n_l2new'aaaa (Times (Transpose (T 155) [3;2;1;0]) (-2) 1);
  (*1737*) AddTo n_l2new'aaaa (Times (Transpose (T 168) [2;3;0;1]) (2) 1);
  (*1738*) AddTo n_l2new'aaaa (Plain (Transpose (T 170) [2;3;0;1]));
  (*1739*) AddTo n_l2new'aaaa (Plain (Transpose (T 162) [3;2;1;0]));
  (*1740*) Del (T 162);
  (*1741*) AddTo n_l2new'aaaa (Plain (Einsum [(n_l1'aa,[0;1]); (T 171,[2;3])] [3;0;2;1]));
  (*1742*) AddTo n_l2new'aaaa (Plain (Transpose (T 151) [3;2;0;1]));
  (*1743*) AddTo n_l2new'aaaa (Times (Transpose (T 152) [2;3;0;1]) (-1) 1);
  (*1744*) AddTo n_l2new'aaaa (Times (Transpose (T 153) [2;3;0;1]) (-1) 1);
  (*1745*) AddTo n_l2new'aaaa (Times (Transpose (T 154) [2;3;0;1]) (-2) 1);
  (*1746*) AddTo n_l2new'aaaa (Times (Transpose (T 155) [2;3;0;1]) (-2) 1);
  (*1747*) AddTo n_l2new'aaaa (Times (Transpose (T 168) [3;2;1;0]) (2) 1);
  (*1748*) AddTo n_l2new'aaaa (Plain (Transpose (T 170) [3;2;1;0]));
  (*1749*) AddTo n_l2new'aaaa (Plain (Einsum [(n_l1'aa,[0;1]); (T 171,[2;3])] [0;3;1;2]));
  (*1750*) AddTo n_l2new'aaaa (Times (Transpose (T 151) [3;2;1;0]) (-1) 1);
  (*1751*) Del (T 151);
  (*1752*) AddTo n_l2new'aaaa (Plain (Transpose (T 152) [2;3;1;0]));
  (*1753*) Del (T 152);
  (*1754*) AddTo n_l2new'aaaa (Plain (Transpose (T 153) [2;3;1;0]));
  (*1755*) Del (T 153);
  (*1756*) AddTo n_l2new'aaaa (Times (Transpose (T 154) [2;3;1;0]) (2) 1);
  (*1757*) Del (T 154);
  (*1758*) AddTo n_l2new'aaaa (Times (Transpose (T 155) [2;3;1;0]) (2) 1);
  (*1759*) Del (T 155);
  (*1760*) AddTo n_l2new'aaaa (Times (Transpose (T 168) [3;2;0;1]) (-2) 1);
  (*1761*) Del (T 168);
  (*1762*) AddTo n_l2new'aaaa (Times (Transpose (T 170) [3;2;0;1]) (-1) 1);
  (*1763*) Del (T 170);
  (*1764*) AddTo n_l2new'aaaa (Times (Einsum [(n_l1'aa,[0;1]); (T 171,[2;3])] [0;3;2;1]) (-1) 1);
  (*1765*) Del (T 171);
  (*1766*) AddTo n_l2new'aaaa (Times (Transpose (T 172) [3;2;1;0]) (2) 1);
  (*1767*) Del (T 172);
  (*1768*) AddTo n_l2new'aaaa (Times (Transpose (T 173) [2;3;1;0]) (2) 1);
  (*1769*) AddTo n_l2new'aaaa (Times (Transpose (T 175) [3;2;1;0]) (4) 1);
  (*1770*) Del (T 175);
  (*1771*) AddTo n_l2new'aaaa (Times (Transpose (T 180) [2;3;1;0]) (2) 1);
  (*1772*) AddTo n_l2new'aaaa (Times (Transpose (T 184) [2;3;1;0]) (-2) 1);
  (*1773*) AddTo n_l2new'aaaa (Times (Transpose (T 173) [3;2;1;0]) (-2) 1);
  (*1774*) Del (T 173);
  (*1775*) AddTo n_l2new'aaaa (Times (Transpose (T 180) [3;2;1;0]) (-2) 1);
  (*1776*) Del (T 180);
  (*1777*) AddTo n_l2new'aaaa (Times (Transpose (T 184) [3;2;1;0]) (2) 1);
  (*1778*) Del (T 184);
  (*1779*) AddTo n_l2new'aaaa (Times (Transpose (T 185) [2;3;0;1]) (-2) 1);
  (*1780*) AddTo n_l2new'aaaa (Times (Transpose (T 185) [2;3;1;0]) (2) 1);
  (*1781*) Del (T 185);
  (*1782*) AddTo n_l2new'aaaa (Times (Einsum [(n_l2'aaaa,[0;1;2;3]); (T 186,[2;4;3;5])] [0;1;4;5]) (-2) 1);
  (*1783*) Del (T 186);
  (*1784*) AddTo n_l2new'aaaa (Plain (Transpose (T 187) [3;2;1;0]));
  (*1785*) AddTo n_l2new'aaaa (Plain (Einsum [(n_l1'aa,[0;1]); (T 188,[1;2;3;4])] [4;0;2;3]));
  (*1786*) Del (T 188);
  (*1787*) AddTo n_l2new'aaaa (Times (Transpose (T 187) [2;3;1;0]) (-1) 1);
  (*1788*) Del (T 187);
  (*1789*) AddTo n_l2new'aaaa (Times (Transpose (T 150) [3;2;1;0]) (-1) 1);
  (*1790*) Del (T 150);
  (*1791*) AddTo n_l2new'aaaa (Times (Transpose (T 189) [3;2;0;1]) (-2) 1);
  (*1792*) AddTo n_l2new'aaaa (Plain (Einsum [(T 190,[0;1]); (n_l1'aa,[2;3])] [1;2;3;0]));
  (*1793*) AddTo n_l2new'aaaa (Times (Transpose (T 191) [3;2;0;1]) (-2) 1);
  (*1794*) AddTo n_l2new'aaaa (Plain (Transpose (T 192) [2;3;1;0]));
  (*1795*) AddTo n_l2new'aaaa (Times (Transpose (T 193) [2;3;1;0]) (-1) 1);
  (*1796*) AddTo n_l2new'aaaa (Times (Transpose (T 189) [2;3;0;1]) (2) 1);
  (*1797*) AddTo n_l2new'aaaa (Times (Einsum [(n_l1'aa,[0;1]); (T 190,[2;3])] [0;3;1;2]) (-1) 1);
  (*1798*) AddTo n_l2new'aaaa (Times (Transpose (T 191) [2;3;0;1]) (2) 1);
  (*1799*) AddTo n_l2new'aaaa (Times (Transpose (T 192) [3;2;1;0]) (-1) 1);
  (*1800*) AddTo n_l2new'aaaa (Plain (Transpose (T 193) [3;2;1;0]));
  (*1801*) AddTo n_l2new'aaaa (Times (Transpose (T 189) [3;2;1;0]) (2) 1);
  (*1802*) AddTo n_l2new'aaaa (Times (Einsum [(n_l1'aa,[0;1]); (T 190,[2;3])] [3;0;2;1]) (-1) 1);
  (*1803*) AddTo n_l2new'aaaa (Times (Transpose (T 191) [3;2;1;0]) (2) 1);
  (*1804*) AddTo n_l2new'aaaa (Times (Transpose (T 192) [2;3;0;1]) (-1) 1);
  (*1805*) AddTo n_l2new'aaaa (Plain (Transpose (T 193) [2;3;0;1]));
  (*1806*) AddTo n_l2new'aaaa (Times (Transpose (T 189) [2;3;1;0]) (-2) 1);
  (*1807*) Del (T 189);
  (*1808*) AddTo n_l2new'aaaa (Plain (Einsum [(T 190,[0;1]); (n_l1'aa,[2;3])] [2;1;0;3]));
  (*1809*) Del (T 190);
  (*1810*) AddTo n_l2new'aaaa (Times (Transpose (T 191) [2;3;1;0]) (-2) 1);
  (*1811*) Del (T 191);
  (*1812*) AddTo n_l2new'aaaa (Plain (Transpose (T 192) [3;2;0;1]));
  (*1813*) Del (T 192);
  (*1814*) AddTo n_l2new'aaaa (Times (Transpose (T 193) [3;2;0;1]) (-1) 1);
  (*1815*) Del (T 193);
  (*1816*) Assign n_l1new'bb (Times (Einsum [(n_v'bbbb'oovv,[0;1;2;3]); (n_l1'bb,[3;1])] [2;0]) (-1) 1);
  (*1817*) AddTo n_l1new'bb (Plain (Transpose n_f'bb'ov [1;0]));
  (*1818*) AddTo n_l1new'bb (Times (Einsum [(n_l2'abab,[0;1;2;3]); (T 104,[2;3;4;0])] [1;4]) (-1) 1);
  (*1819*) Del (T 104);
  (*1820*) AddTo n_l1new'bb (Times (Einsum [(T 111,[0;1;2;3]); (n_l2'bbbb,[4;3;1;2])] [4;0]) (4) 1);
  (*1821*) Del (T 111);
  (*1822*) AddTo n_l1new'bb (Times (Einsum [(T 112,[0;1;2;3]); (T 36,[3;2])] [1;0]) (-1) 1);
  (*1823*) AddTo n_l1new'bb (Times (Einsum [(n_v'aabb'vvov,[0;1;2;3]); (T 113,[1;0])] [3;2]) (2) 1);
  (*1824*) Del (T 113);
  (*1825*) AddTo n_l1new'bb (Times (Einsum [(n_v'bbbb'ovov,[0;1;2;3]); (T 60,[2;3])] [1;0]) (-1) 1);
  (*1826*) AddTo n_l1new'bb (Times (Einsum [(n_v'aabb'ovov,[0;1;2;3]); (T 114,[0;1])] [3;2]) (-1) 1);
  (*1827*) Del (T 114);
  (*1828*) AddTo n_l1new'bb (Times (Einsum [(T 58,[0;1]); (n_v'bbbb'ovoo,[2;3;0;1])] [3;2]) (-1) 1);
  (*1829*) AddTo n_l1new'bb (Times (Einsum [(T 46,[0;1]); (n_v'aabb'ooov,[1;0;2;3])] [3;2]) (-2) 1);
  (*1830*) AddTo n_l1new'bb (Times (Einsum [(n_l1'bb,[0;1]); (T 121,[1;2])] [0;2]) (-1) 1);
  (*1831*) Del (T 121);
  (*1832*) AddTo n_l1new'bb (Plain (Einsum [(T 122,[0;1;2;3]); (n_l2'abab,[1;3;0;4])] [2;4]));
  (*1833*) Del (T 122);
  (*1834*) AddTo n_l1new'bb (Times (Einsum [(T 53,[0;1;2;3]); (n_v'bbbb'oovv,[2;1;4;3])] [4;0]) (-2) 1);
  (*1835*) Del (T 53);
  (*1836*) AddTo n_l1new'bb (Times (Einsum [(T 41,[0;1;2;3]); (n_v'aabb'oovv,[1;0;4;3])] [4;2]) (-1) 1);
  (*1837*) Del (T 41);
  (*1838*) AddTo n_l1new'bb (Plain (Einsum [(n_v'aabb'ovvv,[0;1;2;3]); (T 125,[0;4;1;3])] [2;4]));
  (*1839*) Del (T 125);
  (*1840*) AddTo n_l1new'bb (Plain (Einsum [(T 112,[0;1;2;3]); (T 128,[4;0;3;2])] [1;4]));
  (*1841*) Del (T 112);
  (*1841*) Del (T 128);
  (*1842*) AddTo n_l1new'bb (Times (Einsum [(T 129,[0;1;2;3]); (n_v'aabb'ovov,[0;3;2;4])] [4;1]) (-1) 1);
  (*1843*) Del (T 129);
  (*1844*) AddTo n_l1new'bb (Times (Einsum [(T 130,[0;1;2;3]); (n_v'aabb'vvov,[2;3;1;4])] [4;0]) (-1) 1);
  (*1845*) Del (T 130);
  (*1846*) AddTo n_l1new'bb (Times (Einsum [(n_l2'bbbb,[0;1;2;3]); (T 131,[3;0;1;4])] [4;2]) (-2) 1);
  (*1847*) Del (T 131);
  (*1848*) AddTo n_l1new'bb (Times (Einsum [(T 133,[0;1;2;3]); (T 132,[1;4;2;3])] [4;0]) (-2) 1);
  (*1849*) Del (T 133);
  (*1849*) Del (T 132);
  (*1850*) AddTo n_l1new'bb (Times (Einsum [(n_v'bbbb'ovov,[0;1;2;3]); (T 137,[4;0;2;1])] [3;4]) (-4) 1);
  (*1851*) Del (T 137);
  (*1852*) AddTo n_l1new'bb (Times (Einsum [(T 139,[0;1;2;3]); (n_v'bbbb'ovov,[1;3;2;4])] [4;0]) (4) 1);
  (*1853*) Del (T 139);
  (*1854*) AddTo n_l1new'bb (Times (Einsum [(T 140,[0;1;2;3]); (n_v'bbbb'ooov,[0;2;3;4])] [4;1]) (2) 1);
  (*1855*) Del (T 140);
  (*1856*) AddTo n_l1new'bb (Plain (Einsum [(n_v'aabb'ooov,[0;1;2;3]); (T 141,[0;1;4;2])] [3;4]));
  (*1857*) Del (T 141);
  (*1858*) AddTo n_l1new'bb (Times (Einsum [(n_v'bbbb'ovov,[0;1;2;3]); (T 142,[2;1])] [3;0]) (2) 1);
  (*1859*) Del (T 142);
  (*1860*) AddTo n_l1new'bb (Plain (Einsum [(T 58,[0;1]); (n_v'bbbb'ooov,[2;0;1;3])] [3;2]));
  (*1861*) AddTo n_l1new'bb (Plain (Einsum [(T 145,[0;1]); (n_l1'bb,[0;2])] [1;2]));
  (*1862*) Del (T 145);
  (*1863*) AddTo n_l1new'bb (Times (Einsum [(T 101,[0;1]); (T 58,[2;0])] [1;2]) (-1) 1);
  (*1864*) Del (T 101);
  (*1865*) Assign n_l1new'aa (Times (Einsum [(n_l1'aa,[0;1]); (n_v'aaaa'oovv,[2;1;3;0])] [3;2]) (-1) 1);
  (*1866*) AddTo n_l1new'aa (Plain (Transpose n_f'aa'ov [1;0]));
  (*1867*) AddTo n_l1new'aa (Times (Einsum [(n_l2'abab,[0;1;2;3]); (T 18,[2;4;3;1])] [0;4]) (-1) 1);
  (*1868*) Del (T 18);
  (*1869*) AddTo n_l1new'aa (Times (Einsum [(T 27,[0;1;2;3]); (n_l2'aaaa,[4;3;1;2])] [4;0]) (2) 1);
  (*1870*) Del (T 27);
  (*1871*) AddTo n_l1new'aa (Times (Einsum [(T 31,[0;1]); (T 32,[2;1;0;3])] [3;2]) (-1) 1);
  (*1872*) Del (T 32);
  (*1872*) Del (T 31);
  (*1873*) AddTo n_l1new'aa (Plain (Einsum [(n_v'aabb'ovvv,[0;1;2;3]); (T 36,[3;2])] [1;0]));
  (*1874*) Del (T 36);
  (*1875*) AddTo n_l1new'aa (Times (Einsum [(T 48,[0;1]); (n_v'aaaa'ovov,[2;3;0;1])] [3;2]) (-2) 1);
  (*1876*) Del (T 48);
  (*1877*) AddTo n_l1new'aa (Times (Einsum [(T 60,[0;1]); (n_v'aabb'ovov,[2;3;0;1])] [3;2]) (-1) 1);
  (*1878*) Del (T 60);
  (*1879*) AddTo n_l1new'aa (Times (Einsum [(n_v'aabb'ovoo,[0;1;2;3]); (T 58,[3;2])] [1;0]) (-1) 1);
  (*1880*) Del (T 58);
  (*1881*) AddTo n_l1new'aa (Times (Einsum [(T 46,[0;1]); (n_v'aaaa'ovoo,[2;3;1;0])] [3;2]) (-2) 1);
  (*1882*) AddTo n_l1new'aa (Times (Einsum [(T 67,[0;1]); (n_l1'aa,[2;0])] [2;1]) (-1) 1);
  (*1883*) Del (T 67);
  (*1884*) AddTo n_l1new'aa (Times (Einsum [(n_v'aabb'vvoo,[0;1;2;3]); (T 51,[4;3;2;1])] [0;4]) (-1) 1);
  (*1885*) Del (T 51);
  (*1886*) AddTo n_l1new'aa (Plain (Einsum [(n_l2'abab,[0;1;2;3]); (T 68,[3;4;0;1])] [4;2]));
  (*1887*) Del (T 68);
  (*1888*) AddTo n_l1new'aa (Times (Einsum [(n_l2'aaaa,[0;1;2;3]); (T 69,[3;4;0;1])] [4;2]) (2) 1);
  (*1889*) Del (T 69);
  (*1890*) AddTo n_l1new'aa (Times (Einsum [(n_v'aaaa'oovv,[0;1;2;3]); (T 39,[4;1;0;3])] [2;4]) (-2) 1);
  (*1891*) AddTo n_l1new'aa (Times (Einsum [(T 21,[0;1;2;3]); (T 39,[4;0;1;3])] [2;4]) (2) 1);
  (*1892*) Del (T 39);
  (*1892*) Del (T 21);
  (*1893*) AddTo n_l1new'aa (Plain (Einsum [(n_v'aabb'vvov,[0;1;2;3]); (T 72,[4;2;1;3])] [0;4]));
  (*1894*) Del (T 72);
  (*1895*) AddTo n_l1new'aa (Times (Einsum [(T 76,[0;1;2;3]); (T 73,[1;4;3;2])] [4;0]) (-1) 1);
  (*1896*) Del (T 73);
  (*1896*) Del (T 76);
  (*1897*) AddTo n_l1new'aa (Times (Einsum [(T 80,[0;1;2;3]); (n_v'aabb'ovov,[1;4;2;3])] [4;0]) (-2) 1);
  (*1898*) Del (T 80);
  (*1899*) AddTo n_l1new'aa (Times (Einsum [(T 81,[0;1;2;3]); (n_v'aabb'ovvv,[1;4;3;2])] [4;0]) (-1) 1);
  (*1900*) Del (T 81);
  (*1901*) AddTo n_l1new'aa (Times (Einsum [(n_v'aaaa'ovvv,[0;1;2;3]); (T 82,[4;0;3;1])] [2;4]) (-2) 1);
  (*1902*) Del (T 82);
  (*1903*) AddTo n_l1new'aa (Times (Einsum [(T 86,[0;1;2;3]); (n_v'aaaa'ovov,[1;3;2;4])] [4;0]) (-1) 1);
  (*1904*) Del (T 86);
  (*1905*) AddTo n_l1new'aa (Plain (Einsum [(n_v'aaaa'ovov,[0;1;2;3]); (T 88,[4;2;0;3])] [1;4]));
  (*1906*) Del (T 88);
  (*1907*) AddTo n_l1new'aa (Times (Einsum [(n_v'aaaa'ooov,[0;1;2;3]); (T 89,[1;4;0;2])] [3;4]) (2) 1);
  (*1908*) Del (T 89);
  (*1909*) AddTo n_l1new'aa (Plain (Einsum [(T 90,[0;1;2;3]); (n_v'aabb'ovoo,[1;4;3;2])] [4;0]));
  (*1910*) Del (T 90);
  (*1911*) AddTo n_l1new'aa (Times (Einsum [(T 91,[0;1]); (n_v'aaaa'ovov,[2;1;0;3])] [3;2]) (2) 1);
  (*1912*) Del (T 91);
  (*1913*) AddTo n_l1new'aa (Times (Einsum [(T 46,[0;1]); (n_v'aaaa'ooov,[2;0;1;3])] [3;2]) (2) 1);
  (*1914*) Del (T 46);
  (*1915*) AddTo n_l1new'aa (Plain (Einsum [(T 94,[0;1]); (n_l1'aa,[0;2])] [1;2]));
  (*1916*) Del (T 94);
  (*1917*) AddTo n_l1new'aa (Times (Einsum [(T 10,[0;1]); (T 95,[2;0])] [1;2]) (-1) 1);
  (*1918*) Del (T 10);
  (*1918*) Del (T 95)]
 [(n_l1new'bb,[7;6]); (n_l1new'aa,[5;4]); (n_l2new'bbbb,[7;7;6;6]); (n_l2new'abab,[5;7;4;6]); (n_l2new'aaaa,[5;5;4;4])].

(** ebcc/codegen/UCCSD.py:1922-2010 [make_rdm1_f]; assembly (line 2007) not translated; assembly (line 2008) not translated *)
Definition UCCSD_make_rdm1_f : prog := mkprog
 [(n_t2'aaaa,[4;4;5;5]); (n_t2'bbbb,[6;6;7;7]); (n_l2'bbbb,[7;7;6;6]); (n_l2'abab,[5;7;4;6]); (n_t2'abab,[4;6;5;7]); (n_t1'bb,[6;7]); (n_l1'bb,[7;6]); (n_l1'aa,[5;4]); (n_t1'aa,[4;5]); (n_l2'aaaa,[5;5;4;4])]
 [(*1946*) Assign n_delta'aa'oo (Plain (Eye 4));
  (*1946*) Assign n_delta'aa'vv (Plain (Eye 5));
  (*1946*) Assign n_delta'bb'oo (Plain (Eye 6));
  (*1946*) Assign n_delta'bb'vv (Plain (Eye 7));
  (*1950*) Assign (T 5) (Plain (Einsum [(n_t2'bbbb,[0;1;2;3]); (n_l2'bbbb,[2;3;4;1])] [4;0]));
  (*1951*) Assign (T 4) (Plain (Einsum [(n_l2'abab,[0;1;2;3]); (n_t2'abab,[2;4;0;1])] [3;4]));
  (*1952*) Assign (T 6) (Plain (Einsum [(n_t1'bb,[0;1]); (n_l1'bb,[1;2])] [2;0]));
  (*1953*) Assign (T 1) (Plain (Einsum [(n_l2'abab,[0;1;2;3]); (n_t2'abab,[4;3;0;1])] [2;4]));
  (*1954*) Assign (T 3) (Plain (Einsum [(n_l1'aa,[0;1]); (n_t1'aa,[2;0])] [1;2]));
  (*1955*) Assign (T 2) (Plain (Einsum [(n_l2'aaaa,[0;1;2;3]); (n_t2'aaaa,[4;3;0;1])] [2;4]));
  (*1956*) Assign (T 12) (Times (Copy (T 6)) (1) 2);
  (*1957*) AddTo (T 12) (Times (Copy (T 4)) (1) 2);
  (*1958*) AddTo (T 12) (Plain (Copy (T 5)));
  (*1959*) Assign (T 11) (Plain (Einsum [(n_t1'bb,[0;1]); (n_l2'bbbb,[2;1;3;4])] [3;4;0;2]));
  (*1960*) Assign (T 10) (Plain (Einsum [(n_t1'bb,[0;1]); (n_l2'abab,[2;1;3;4])] [3;4;0;2]));
  (*1961*) Assign (T 9) (Plain (Copy (T 3)));
  (*1962*) AddTo (T 9) (Times (Copy (T 2)) (2) 1);
  (*1963*) AddTo (T 9) (Plain (Copy (T 1)));
  (*1964*) Assign (T 7) (Plain (Einsum [(n_l2'aaaa,[0;1;2;3]); (n_t1'aa,[4;1])] [2;3;4;0]));
  (*1965*) Assign (T 8) (Plain (Einsum [(n_l2'abab,[0;1;2;3]); (n_t1'aa,[4;0])] [2;4;3;1]));
  (*1966*) Assign n_rdm1'bb'vv (Plain (Einsum [(n_l2'abab,[0;1;2;3]); (n_t2'abab,[2;3;0;4])] [1;4]));
  (*1967*) AddTo n_rdm1'bb'vv (Plain (Einsum [(n_l1'bb,[0;1]); (n_t1'bb,[1;2])] [0;2]));
  (*1968*) AddTo n_rdm1'bb'vv (Times (Einsum [(n_l2'bbbb,[0;1;2;3]); (n_t2'bbbb,[2;3;4;1])] [0;4]) (2) 1);
  (*1969*) Assign n_rdm1'aa'vv (Times (Einsum [(n_l2'aaaa,[0;1;2;3]); (n_t2'aaaa,[2;3;4;1])] [0;4]) (2) 1);
  (*1970*) AddTo n_rdm1'aa'vv (Plain (Einsum [(n_l1'aa,[0;1]); (n_t1'aa,[1;2])] [0;2]));
  (*1971*) AddTo n_rdm1'aa'vv (Plain (Einsum [(n_l2'abab,[0;1;2;3]); (n_t2'abab,[2;3;4;1])] [0;4]));
  (*1972*) Assign n_rdm1'bb'vo (Plain (Copy n_l1'bb));
  (*1973*) Assign n_rdm1'aa'vo (Plain (Copy n_l1'aa));
  (*1974*) Assign n_rdm1'bb'ov (Times (Einsum [(n_l1'bb,[0;1]); (n_t2'bbbb,[2;1;3;0])] [2;3]) (2) 1);
  (*1975*) AddTo n_rdm1'bb'ov (Plain (Copy n_t1'bb));
  (*1976*) AddTo n_rdm1'bb'ov (Plain (Einsum [(n_l1'aa,[0;1]); (n_t2'abab,[1;2;0;3])] [2;3]));
  (*1977*) AddTo n_rdm1'bb'ov (Times (Einsum [(T 10,[0;1;2;3]); (n_t2'abab,[0;1;3;4])] [2;4]) (-1) 1);
  (*1978*) Del (T 10);
  (*1979*) AddTo n_rdm1'bb'ov (Times (Einsum [(n_t2'bbbb,[0;1;2;3]); (T 11,[1;0;4;3])] [4;2]) (-2) 1);
  (*1980*) Del (T 11);
  (*1981*) AddTo n_rdm1'bb'ov (Times (Einsum [(n_t1'bb,[0;1]); (T 12,[0;2])] [2;1]) (-2) 1);
  (*1982*) Del (T 12);
  (*1983*) Assign n_rdm1'aa'ov (Plain (Einsum [(n_l1'bb,[0;1]); (n_t2'abab,[2;1;3;0])] [2;3]));
  (*1984*) AddTo n_rdm1'aa'ov (Plain (Copy n_t1'aa));
  (*1985*) AddTo n_rdm1'aa'ov (Times (Einsum [(n_l1'aa,[0;1]); (n_t2'aaaa,[2;1;3;0])] [2;3]) (2) 1);
  (*1986*) AddTo n_rdm1'aa'ov (Times (Einsum [(n_t2'aaaa,[0;1;2;3]); (T 7,[1;0;4;3])] [4;2]) (-2) 1);
  (*1987*) Del (T 7);
  (*1988*) AddTo n_rdm1'aa'ov (Times (Einsum [(T 8,[0;1;2;3]); (n_t2'abab,[0;2;4;3])] [1;4]) (-1) 1);
  (*1989*) Del (T 8);
  (*1990*) AddTo n_rdm1'aa'ov (Times (Einsum [(n_t1'aa,[0;1]); (T 9,[0;2])] [2;1]) (-1) 1);
  (*1991*) Del (T 9);
  (*1992*) Assign n_rdm1'bb'oo (Times (Transpose (T 4) [1;0]) (-1) 1);
  (*1993*) Del (T 4);
  (*1994*) AddTo n_rdm1'bb'oo (Times (Transpose (T 5) [1;0]) (-2) 1);
  (*1995*) Del (T 5);
  (*1996*) AddTo n_rdm1'bb'oo (Plain (Copy n_delta'bb'oo));
  (*1997*) AddTo n_rdm1'bb'oo (Times (Transpose (T 6) [1;0]) (-1) 1);
  (*1998*) Del (T 6);
  (*1999*) Assign n_rdm1'aa'oo (Times (Transpose (T 1) [1;0]) (-1) 1);
  (*2000*) Del (T 1);
  (*2001*) AddTo n_rdm1'aa'oo (Plain (Copy n_delta'aa'oo));
  (*2002*) Del n_delta'aa'oo;
  (*2002*) Del n_delta'aa'vv;
  (*2002*) Del n_delta'bb'oo;
  (*2002*) Del n_delta'bb'vv;
  (*2003*) AddTo n_rdm1'aa'oo (Times (Transpose (T 2) [1;0]) (-2) 1);
  (*2004*) Del (T 2);
  (*2005*) AddTo n_rdm1'aa'oo (Times (Transpose (T 3) [1;0]) (-1) 1);
  (*2006*) Del (T 3)]
 [(n_rdm1'aa'oo,[4;4]); (n_rdm1'aa'ov,[4;5]); (n_rdm1'aa'vo,[5;4]); (n_rdm1'aa'vv,[5;5]); (n_rdm1'bb'oo,[6;6]); (n_rdm1'bb'ov,[6;7]); (n_rdm1'bb'vo,[7;6]); (n_rdm1'bb'vv,[7;7])].

(** ebcc/codegen/UCCSD.py:2012-2665 [make_rdm2_f]; assembly (line 2656) not translated; assembly (line 2657) not translated; assembly (line 2658) not translated *)
Definition UCCSD_make_rdm2_f : prog := mkprog
 [(n_t2'aaaa,[4;4;5;5]); (n_t2'bbbb,[6;6;7;7]); (n_l2'bbbb,[7;7;6;6]); (n_t1'bb,[6;7]); (n_l1'bb,[7;6]); (n_l2'abab,[5;7;4;6]); (n_t2'abab,[4;6;5;7]); (n_l2'aaaa,[5;5;4;4]); (n_l1'aa,[5;4]); (n_t1'aa,[4;5])]
 [(*2037*) Assign n_delta'aa'oo (Plain (Eye 4));
  (*2037*) Assign n_delta'aa'vv (Plain (Eye 5));
  (*2037*) Assign n_delta'bb'oo (Plain (Eye 6));
  (*2037*) Assign n_delta'bb'vv (Plain (Eye 7));
  (*2041*) Assign (T 11) (Plain (Einsum [(n_t2'bbbb,[0;1;2;3]); (n_l2'bbbb,[2;3;4;1])] [4;0]));
  (*2042*) Assign (T 9) (Plain (Einsum [(n_t1'bb,[0;1]); (n_l1'bb,[1;2])] [2;0]));
  (*2043*) Assign (T 10) (Plain (Einsum [(n_l2'abab,[0;1;2;3]); (n_t2'abab,[2;4;0;1])] [3;4]));
  (*2044*) Assign (T 19) (Plain (Einsum [(n_t1'bb,[0;1]); (n_l2'bbbb,[2;1;3;4])] [3;4;0;2]));
  (*2045*) Assign (T 14) (Plain (Einsum [(n_t1'bb,[0;1]); (n_l2'abab,[2;1;3;4])] [3;4;0;2]));
  (*2046*) Assign (T 3) (Plain (Einsum [(n_l2'abab,[0;1;2;3]); (n_t2'abab,[4;3;0;1])] [2;4]));
  (*2047*) Assign (T 2) (Plain (Einsum [(n_l2'aaaa,[0;1;2;3]); (n_t2'aaaa,[4;3;0;1])] [2;4]));
  (*2048*) Assign (T 1) (Plain (Einsum [(n_l1'aa,[0;1]); (n_t1'aa,[2;0])] [1;2]));
  (*2049*) Assign (T 7) (Plain (Einsum [(n_l2'aaaa,[0;1;2;3]); (n_t1'aa,[4;1])] [2;3;4;0]));
  (*2050*) Assign (T 27) (Plain (Einsum [(n_l2'abab,[0;1;2;3]); (n_t1'aa,[4;0])] [2;4;3;1]));
  (*2051*) Assign (T 96) (Plain (Einsum [(n_l2'abab,[0;1;2;3]); (n_t2'abab,[2;4;0;5])] [3;4;1;5]));
  (*2052*) Assign (T 92) (Plain (Einsum [(n_l2'bbbb,[0;1;2;3]); (n_t2'bbbb,[4;3;5;1])] [2;4;0;5]));
  (*2053*) Assign (T 69) (Plain (Einsum [(n_t2'aaaa,[0;1;2;3]); (n_l2'aaaa,[4;3;5;1])] [5;0;4;2]));
  (*2054*) Assign (T 71) (Plain (Einsum [(n_l2'abab,[0;1;2;3]); (n_t2'abab,[4;3;5;1])] [2;4;0;5]));
  (*2055*) Assign (T 42) (Plain (Copy (T 9)));
  (*2056*) AddTo (T 42) (Plain (Copy (T 10)));
  (*2057*) AddTo (T 42) (Times (Copy (T 11)) (2) 1);
  (*2058*) Assign (T 52) (Times (Einsum [(n_t2'bbbb,[0;1;2;3]); (T 19,[4;1;5;3])] [4;5;0;2]) (-1) 1);
  (*2059*) Assign (T 53) (Plain (Einsum [(T 14,[0;1;2;3]); (n_t2'abab,[0;4;3;5])] [1;2;4;5]));
  (*2060*) Assign (T 18) (Plain (Einsum [(n_l2'bbbb,[0;1;2;3]); (n_t2'bbbb,[4;5;0;1])] [2;3;4;5]));
  (*2061*) Assign (T 20) (Plain (Einsum [(n_t1'bb,[0;1]); (T 19,[2;3;4;1])] [2;3;0;4]));
  (*2062*) Assign (T 29) (Times (Copy (T 1)) (1) 2);
  (*2063*) AddTo (T 29) (Plain (Copy (T 2)));
  (*2064*) AddTo (T 29) (Times (Copy (T 3)) (1) 2);
  (*2065*) Assign (T 15) (Plain (Einsum [(n_t1'aa,[0;1]); (T 14,[2;3;4;1])] [2;0;3;4]));
  (*2066*) Assign (T 13) (Plain (Einsum [(n_l2'abab,[0;1;2;3]); (n_t2'abab,[4;5;0;1])] [2;4;3;5]));
  (*2067*) Assign (T 6) (Plain (Einsum [(n_t2'aaaa,[0;1;2;3]); (n_l2'aaaa,[2;3;4;5])] [4;5;0;1]));
  (*2068*) Assign (T 8) (Plain (Einsum [(T 7,[0;1;2;3]); (n_t1'aa,[4;3])] [0;1;4;2]));
  (*2069*) Assign (T 33) (Plain (Einsum [(T 27,[0;1;2;3]); (n_t2'abab,[4;2;5;3])] [0;1;4;5]));
  (*2070*) Assign (T 32) (Times (Einsum [(T 7,[0;1;2;3]); (n_t2'aaaa,[4;1;5;3])] [0;2;4;5]) (-1) 1);
  (*2071*) Assign (T 112) (Plain (Einsum [(n_t1'bb,[0;1]); (T 19,[2;0;3;4])] [2;3;4;1]));
  (*2072*) Assign (T 125) (Plain (Copy (T 96)));
  (*2073*) AddTo (T 125) (Times (Copy (T 92)) (4) 1);
  (*2074*) Assign (T 81) (Plain (Einsum [(n_l2'abab,[0;1;2;3]); (n_t2'abab,[2;3;0;4])] [1;4]));
  (*2075*) Assign (T 109) (Plain (Einsum [(n_l1'bb,[0;1]); (n_t1'bb,[1;2])] [0;2]));
  (*2076*) Assign (T 82) (Plain (Einsum [(n_l2'bbbb,[0;1;2;3]); (n_t2'bbbb,[2;3;4;1])] [0;4]));
  (*2077*) Assign (T 65) (Plain (Einsum [(n_l2'abab,[0;1;2;3]); (n_t2'abab,[2;3;4;1])] [0;4]));
  (*2078*) Assign (T 64) (Plain (Einsum [(n_l2'aaaa,[0;1;2;3]); (n_t2'aaaa,[2;3;4;1])] [0;4]));
  (*2079*) Assign (T 106) (Plain (Einsum [(n_l1'aa,[0;1]); (n_t1'aa,[1;2])] [0;2]));
  (*2080*) Assign (T 94) (Plain (Einsum [(n_t2'abab,[0;1;2;3]); (n_l2'aaaa,[4;2;5;0])] [5;1;4;3]));
  (*2081*) Assign (T 114) (Plain (Einsum [(n_t2'bbbb,[0;1;2;3]); (n_l2'abab,[4;3;5;1])] [5;0;4;2]));
  (*2082*) Assign (T 108) (Plain (Einsum [(T 7,[0;1;2;3]); (n_t1'aa,[1;4])] [0;2;3;4]));
  (*2083*) Assign (T 84) (Times (Copy (T 69)) (4) 1);
  (*2084*) AddTo (T 84) (Plain (Copy (T 71)));
  (*2085*) Assign (T 67) (Plain (Einsum [(n_l2'bbbb,[0;1;2;3]); (n_t2'abab,[4;3;5;1])] [4;2;5;0]));
  (*2086*) Assign (T 85) (Plain (Einsum [(n_l2'abab,[0;1;2;3]); (n_t2'aaaa,[4;2;5;0])] [4;3;5;1]));
  (*2087*) Assign (T 37) (Plain (Einsum [(n_l1'bb,[0;1]); (n_t2'bbbb,[2;1;3;0])] [2;3]));
  (*2088*) Assign (T 36) (Plain (Einsum [(n_l1'aa,[0;1]); (n_t2'abab,[1;2;0;3])] [2;3]));
  (*2089*) Assign (T 51) (Plain (Einsum [(n_l1'bb,[0;1]); (n_t2'bbbb,[2;3;4;0])] [1;2;3;4]));
  (*2090*) Assign (T 41) (Plain (Einsum [(n_t2'bbbb,[0;1;2;3]); (T 19,[1;0;4;3])] [4;2]));
  (*2091*) Assign (T 43) (Plain (Einsum [(n_t1'bb,[0;1]); (T 42,[0;2])] [2;1]));
  (*2092*) Assign (T 40) (Plain (Einsum [(T 14,[0;1;2;3]); (n_t2'abab,[0;1;3;4])] [2;4]));
  (*2093*) Assign (T 104) (Plain (Copy (T 53)));
  (*2094*) AddTo (T 104) (Times (Copy (T 52)) (4) 1);
  (*2095*) Assign (T 54) (Plain (Transpose (T 18) [1;0;3;2]));
  (*2096*) AddTo (T 54) (Times (Transpose (T 20) [0;1;3;2]) (-1) 1);
  (*2097*) Assign (T 87) (Times (Einsum [(n_t1'bb,[0;1]); (T 42,[0;2])] [2;1]) (1) 2);
  (*2098*) Assign (T 28) (Plain (Einsum [(T 27,[0;1;2;3]); (n_t2'abab,[0;2;4;3])] [1;4]));
  (*2099*) Assign (T 30) (Times (Einsum [(T 29,[0;1]); (n_t1'aa,[0;2])] [1;2]) (2) 1);
  (*2100*) Assign (T 26) (Plain (Einsum [(n_t2'aaaa,[0;1;2;3]); (T 7,[1;0;4;3])] [4;2]));
  (*2101*) Assign (T 46) (Plain (Einsum [(T 27,[0;1;2;3]); (n_t2'bbbb,[4;2;5;3])] [0;1;4;5]));
  (*2102*) Assign (T 45) (Times (Einsum [(T 7,[0;1;2;3]); (n_t2'abab,[1;4;3;5])] [0;2;4;5]) (-1) 1);
  (*2103*) Assign (T 61) (Plain (Einsum [(T 14,[0;1;2;3]); (n_t2'aaaa,[4;0;5;3])] [4;1;2;5]));
  (*2104*) Assign (T 60) (Times (Einsum [(T 19,[0;1;2;3]); (n_t2'abab,[4;1;5;3])] [4;0;2;5]) (-1) 1);
  (*2105*) Assign (T 47) (Plain (Copy (T 13)));
  (*2106*) AddTo (T 47) (Plain (Copy (T 15)));
  (*2107*) Assign (T 22) (Plain (Einsum [(n_l1'bb,[0;1]); (n_t2'abab,[2;1;3;0])] [2;3]));
  (*2108*) Assign (T 21) (Plain (Einsum [(n_l1'aa,[0;1]); (n_t2'aaaa,[2;1;3;0])] [2;3]));
  (*2109*) Assign (T 34) (Plain (Transpose (T 6) [1;0;3;2]));
  (*2110*) AddTo (T 34) (Times (Transpose (T 8) [0;1;3;2]) (-1) 1);
  (*2111*) Assign (T 25) (Plain (Einsum [(n_t2'aaaa,[0;1;2;3]); (n_l1'aa,[3;4])] [4;0;1;2]));
  (*2112*) Assign (T 79) (Times (Copy (T 32)) (4) 1);
  (*2113*) AddTo (T 79) (Plain (Copy (T 33)));
  (*2114*) Assign (T 57) (Plain (Einsum [(T 29,[0;1]); (n_t1'aa,[0;2])] [1;2]));
  (*2115*) Assign (T 5) (Plain (Copy (T 1)));
  (*2116*) AddTo (T 5) (Times (Copy (T 2)) (2) 1);
  (*2117*) AddTo (T 5) (Plain (Copy (T 3)));
  (*2118*) Assign (T 132) (Plain (Einsum [(n_t1'bb,[0;1]); (n_l2'bbbb,[2;3;4;0])] [4;2;3;1]));
  (*2119*) Assign (T 134) (Plain (Einsum [(n_t2'bbbb,[0;1;2;3]); (n_l2'bbbb,[4;5;0;1])] [4;5;2;3]));
  (*2120*) Assign (T 131) (Plain (Einsum [(n_l2'abab,[0;1;2;3]); (n_t1'bb,[3;4])] [2;0;1;4]));
  (*2121*) Assign (T 133) (Plain (Einsum [(n_l2'aaaa,[0;1;2;3]); (n_t2'aaaa,[2;3;4;5])] [0;1;4;5]));
  (*2122*) Assign (T 130) (Plain (Einsum [(n_l2'aaaa,[0;1;2;3]); (n_t1'aa,[3;4])] [2;0;1;4]));
  (*2123*) Assign (T 123) (Plain (Einsum [(n_t2'bbbb,[0;1;2;3]); (n_l1'bb,[4;1])] [0;4;2;3]));
  (*2124*) Assign (T 128) (Times (Einsum [(n_t1'bb,[0;1]); (T 112,[0;2;3;4])] [2;3;4;1]) (-1) 1);
  (*2125*) Assign (T 126) (Plain (Einsum [(n_t1'bb,[0;1]); (T 125,[0;2;3;4])] [2;1;3;4]));
  (*2126*) Del (T 125);
  (*2127*) Assign (T 110) (Plain (Copy (T 109)));
  (*2128*) AddTo (T 110) (Plain (Copy (T 81)));
  (*2129*) AddTo (T 110) (Times (Copy (T 82)) (2) 1);
  (*2130*) Assign (T 127) (Times (Einsum [(T 19,[0;1;2;3]); (n_t2'bbbb,[1;0;4;5])] [2;3;4;5]) (-1) 1);
  (*2131*) Assign (T 107) (Plain (Copy (T 106)));
  (*2132*) AddTo (T 107) (Times (Copy (T 64)) (2) 1);
  (*2133*) AddTo (T 107) (Plain (Copy (T 65)));
  (*2134*) Assign (T 116) (Plain (Einsum [(n_l2'abab,[0;1;2;3]); (n_t2'abab,[2;4;5;1])] [3;4;0;5]));
  (*2135*) Assign (T 129) (Plain (Copy (T 94)));
  (*2136*) AddTo (T 129) (Plain (Copy (T 114)));
  (*2137*) Assign (T 115) (Plain (Einsum [(n_t1'bb,[0;1]); (T 14,[2;0;3;4])] [2;3;4;1]));
  (*2138*) Assign (T 121) (Times (Einsum [(n_t2'aaaa,[0;1;2;3]); (T 7,[1;0;4;5])] [4;5;2;3]) (-1) 1);
  (*2139*) Assign (T 118) (Times (Copy (T 106)) (1) 2);
  (*2140*) Del (T 106);
  (*2141*) AddTo (T 118) (Plain (Copy (T 64)));
  (*2142*) AddTo (T 118) (Times (Copy (T 65)) (1) 2);
  (*2143*) Assign (T 117) (Plain (Einsum [(n_t2'aaaa,[0;1;2;3]); (n_l1'aa,[4;1])] [0;4;2;3]));
  (*2144*) Assign (T 122) (Times (Einsum [(T 108,[0;1;2;3]); (n_t1'aa,[0;4])] [1;2;3;4]) (-1) 1);
  (*2145*) Assign (T 120) (Plain (Einsum [(T 84,[0;1;2;3]); (n_t1'aa,[0;4])] [1;4;2;3]));
  (*2146*) Assign (T 124) (Plain (Copy (T 96)));
  (*2147*) AddTo (T 124) (Times (Copy (T 92)) (4) 1);
  (*2148*) Assign (T 89) (Plain (Einsum [(n_l2'abab,[0;1;2;3]); (n_t2'abab,[4;3;0;5])] [2;4;1;5]));
  (*2149*) Assign (T 113) (Plain (Einsum [(T 27,[0;1;2;3]); (n_t1'aa,[0;4])] [1;2;4;3]));
  (*2150*) Assign (T 86) (Plain (Copy (T 85)));
  (*2151*) AddTo (T 86) (Plain (Copy (T 67)));
  (*2152*) Assign (T 119) (Plain (Copy (T 69)));
  (*2153*) AddTo (T 119) (Times (Copy (T 71)) (1) 4);
  (*2154*) Assign (T 111) (Times (Copy (T 109)) (1) 2);
  (*2155*) Del (T 109);
  (*2156*) AddTo (T 111) (Times (Copy (T 81)) (1) 2);
  (*2157*) AddTo (T 111) (Plain (Copy (T 82)));
  (*2158*) Assign (T 38) (Plain (Copy n_t1'bb));
  (*2159*) AddTo (T 38) (Plain (Copy (T 36)));
  (*2160*) AddTo (T 38) (Times (Copy (T 37)) (2) 1);
  (*2161*) Assign (T 99) (Plain (Einsum [(n_t1'bb,[0;1]); (T 51,[0;2;3;4])] [2;3;1;4]));
  (*2162*) Assign (T 95) (Plain (Einsum [(T 94,[0;1;2;3]); (n_t2'abab,[0;4;2;5])] [1;4;3;5]));
  (*2163*) Assign (T 50) (Times (Copy n_t1'bb) (1) 2);
  (*2164*) AddTo (T 50) (Times (Copy (T 36)) (1) 2);
  (*2165*) AddTo (T 50) (Plain (Copy (T 37)));
  (*2166*) Assign (T 44) (Plain (Copy (T 40)));
  (*2167*) AddTo (T 44) (Times (Copy (T 41)) (2) 1);
  (*2168*) AddTo (T 44) (Plain (Copy (T 43)));
  (*2169*) Del (T 43);
  (*2170*) Assign (T 83) (Times (Copy (T 81)) (1) 2);
  (*2171*) AddTo (T 83) (Plain (Copy (T 82)));
  (*2172*) Assign (T 105) (Plain (Einsum [(n_t1'bb,[0;1]); (T 104,[0;2;3;4])] [2;3;1;4]));
  (*2173*) Del (T 104);
  (*2174*) Assign (T 93) (Plain (Einsum [(T 92,[0;1;2;3]); (n_t2'bbbb,[4;0;5;2])] [1;4;3;5]));
  (*2175*) Assign (T 102) (Plain (Einsum [(n_t2'bbbb,[0;1;2;3]); (T 54,[0;1;4;5])] [4;5;2;3]));
  (*2176*) Assign (T 101) (Times (Einsum [(n_t2'bbbb,[0;1;2;3]); (T 42,[1;4])] [0;4;2;3]) (-1) 1);
  (*2177*) Assign (T 98) (Plain (Copy (T 36)));
  (*2178*) AddTo (T 98) (Times (Copy (T 37)) (2) 1);
  (*2179*) Assign (T 103) (Plain (Einsum [(n_t1'bb,[0;1]); (T 54,[0;2;3;4])] [2;4;3;1]));
  (*2180*) Assign (T 97) (Plain (Einsum [(T 96,[0;1;2;3]); (n_t2'bbbb,[4;0;5;2])] [1;4;3;5]));
  (*2181*) Assign (T 100) (Plain (Copy (T 81)));
  (*2182*) Del (T 81);
  (*2183*) AddTo (T 100) (Times (Copy (T 82)) (2) 1);
  (*2184*) Del (T 82);
  (*2185*) Assign (T 88) (Times (Copy (T 40)) (1) 2);
  (*2186*) Del (T 40);
  (*2187*) AddTo (T 88) (Plain (Copy (T 41)));
  (*2188*) Del (T 41);
  (*2189*) AddTo (T 88) (Plain (Copy (T 87)));
  (*2190*) Del (T 87);
  (*2191*) Assign (T 39) (Plain (Einsum [(n_l1'aa,[0;1]); (n_t2'abab,[2;3;0;4])] [1;2;3;4]));
  (*2192*) Assign (T 31) (Times (Copy (T 26)) (2) 1);
  (*2193*) AddTo (T 31) (Plain (Copy (T 28)));
  (*2194*) AddTo (T 31) (Plain (Copy (T 30)));
  (*2195*) Del (T 30);
  (*2196*) Assign (T 49) (Plain (Einsum [(n_t2'abab,[0;1;2;3]); (T 14,[4;1;5;2])] [4;0;5;3]));
  (*2197*) Assign (T 59) (Plain (Einsum [(n_l1'bb,[0;1]); (n_t2'abab,[2;3;4;0])] [2;1;3;4]));
  (*2198*) Assign (T 90) (Plain (Copy (T 45)));
  (*2199*) AddTo (T 90) (Plain (Copy (T 46)));
  (*2200*) Assign (T 91) (Plain (Copy (T 61)));
  (*2201*) AddTo (T 91) (Plain (Copy (T 60)));
  (*2202*) Assign (T 66) (Times (Copy (T 64)) (2) 1);
  (*2203*) AddTo (T 66) (Plain (Copy (T 65)));
  (*2204*) Assign (T 48) (Plain (Einsum [(n_t1'bb,[0;1]); (T 47,[2;3;0;4])] [2;3;4;1]));
  (*2205*) Assign (T 73) (Times (Copy (T 21)) (2) 1);
  (*2206*) AddTo (T 73) (Plain (Copy (T 22)));
  (*2207*) Assign (T 62) (Plain (Einsum [(T 27,[0;1;2;3]); (n_t2'abab,[0;4;5;3])] [1;2;4;5]));
  (*2208*) Assign (T 78) (Plain (Einsum [(T 34,[0;1;2;3]); (n_t1'aa,[0;4])] [1;3;2;4]));
  (*2209*) Assign (T 77) (Plain (Einsum [(T 34,[0;1;2;3]); (n_t2'aaaa,[0;1;4;5])] [2;3;4;5]));
  (*2210*) Assign (T 74) (Plain (Einsum [(n_t1'aa,[0;1]); (T 25,[0;2;3;4])] [2;3;1;4]));
  (*2211*) Assign (T 80) (Plain (Einsum [(T 79,[0;1;2;3]); (n_t1'aa,[0;4])] [1;2;4;3]));
  (*2212*) Del (T 79);
  (*2213*) Assign (T 24) (Plain (Copy n_t1'aa));
  (*2214*) AddTo (T 24) (Times (Copy (T 21)) (2) 1);
  (*2215*) AddTo (T 24) (Plain (Copy (T 22)));
  (*2216*) Assign (T 68) (Plain (Einsum [(T 67,[0;1;2;3]); (n_t2'abab,[4;1;5;3])] [4;0;5;2]));
  (*2217*) Assign (T 56) (Plain (Copy n_t1'aa));
  (*2218*) AddTo (T 56) (Times (Copy (T 21)) (2) 1);
  (*2219*) AddTo (T 56) (Plain (Copy (T 22)));
  (*2220*) Assign (T 72) (Plain (Einsum [(n_t2'aaaa,[0;1;2;3]); (T 71,[1;4;3;5])] [0;4;2;5]));
  (*2221*) Assign (T 75) (Plain (Copy (T 64)));
  (*2222*) Del (T 64);
  (*2223*) AddTo (T 75) (Times (Copy (T 65)) (1) 2);
  (*2224*) Del (T 65);
  (*2225*) Assign (T 58) (Plain (Copy (T 26)));
  (*2226*) Del (T 26);
  (*2227*) AddTo (T 58) (Times (Copy (T 28)) (1) 2);
  (*2228*) Del (T 28);
  (*2229*) AddTo (T 58) (Plain (Copy (T 57)));
  (*2230*) Del (T 57);
  (*2231*) Assign (T 76) (Times (Einsum [(n_t2'aaaa,[0;1;2;3]); (T 5,[1;4])] [4;0;2;3]) (-1) 1);
  (*2232*) Assign (T 70) (Plain (Einsum [(n_t2'aaaa,[0;1;2;3]); (T 69,[1;4;3;5])] [0;4;2;5]));
  (*2233*) Assign (T 55) (Times (Einsum [(n_t1'bb,[0;1]); (T 54,[0;2;3;4])] [2;3;4;1]) (2) 1);
  (*2234*) Del (T 54);
  (*2235*) Assign (T 63) (Plain (Copy n_t1'bb));
  (*2236*) AddTo (T 63) (Plain (Copy (T 36)));
  (*2237*) Del (T 36);
  (*2238*) AddTo (T 63) (Times (Copy (T 37)) (2) 1);
  (*2239*) Del (T 37);
  (*2240*) Assign (T 17) (Times (Copy (T 9)) (1) 2);
  (*2241*) AddTo (T 17) (Times (Copy (T 10)) (1) 2);
  (*2242*) AddTo (T 17) (Plain (Copy (T 11)));
  (*2243*) Assign (T 35) (Times (Einsum [(T 34,[0;1;2;3]); (n_t1'aa,[0;4])] [1;2;3;4]) (2) 1);
  (*2244*) Del (T 34);
  (*2245*) Assign (T 23) (Times (Copy n_t1'aa) (1) 2);
  (*2246*) AddTo (T 23) (Plain (Copy (T 21)));
  (*2247*) Del (T 21);
  (*2248*) AddTo (T 23) (Times (Copy (T 22)) (1) 2);
  (*2249*) Del (T 22);
  (*2250*) Assign (T 16) (Times (Copy n_delta'bb'oo) (-1) 1);
  (*2251*) AddTo (T 16) (Plain (Copy (T 9)));
  (*2252*) AddTo (T 16) (Plain (Copy (T 10)));
  (*2253*) AddTo (T 16) (Times (Copy (T 11)) (2) 1);
  (*2254*) Assign (T 12) (Times (Copy n_delta'bb'oo) (-1) 2);
  (*2255*) AddTo (T 12) (Times (Copy (T 9)) (1) 2);
  (*2256*) Del (T 9);
  (*2257*) AddTo (T 12) (Times (Copy (T 10)) (1) 2);
  (*2258*) Del (T 10);
  (*2259*) AddTo (T 12) (Plain (Copy (T 11)));
  (*2260*) Del (T 11);
  (*2261*) Assign (T 4) (Times (Copy n_delta'aa'oo) (-1) 1);
  (*2262*) AddTo (T 4) (Plain (Copy (T 1)));
  (*2263*) Del (T 1);
  (*2264*) AddTo (T 4) (Times (Copy (T 2)) (2) 1);
  (*2265*) Del (T 2);
  (*2266*) AddTo (T 4) (Plain (Copy (T 3)));
  (*2267*) Del (T 3);
  (*2268*) Assign n_rdm2'bbbb'vvvv (Times (Transpose (T 134) [1;0;3;2]) (2) 1);
  (*2269*) Del (T 134);
  (*2270*) AddTo n_rdm2'bbbb'vvvv (Times (Einsum [(T 132,[0;1;2;3]); (n_t1'bb,[0;4])] [1;2;4;3]) (2) 1);
  (*2271*) Assign n_rdm2'abab'vvvv (Plain (Einsum [(n_l2'abab,[0;1;2;3]); (n_t2'abab,[2;3;4;5])] [0;1;4;5]));
  (*2272*) AddTo n_rdm2'abab'vvvv (Plain (Einsum [(n_t1'aa,[0;1]); (T 131,[0;2;3;4])] [2;3;1;4]));
  (*2273*) Assign n_rdm2'aaaa'vvvv (Times (Transpose (T 133) [1;0;3;2]) (2) 1);
  (*2274*) Del (T 133);
  (*2275*) AddTo n_rdm2'aaaa'vvvv (Times (Einsum [(T 130,[0;1;2;3]); (n_t1'aa,[0;4])] [1;2;4;3]) (2) 1);
  (*2276*) Assign n_rdm2'bbbb'vvvo (Times (Transpose (T 132) [2;1;3;0]) (2) 1);
  (*2277*) Assign n_rdm2'abab'vvvo (Plain (Einsum [(n_t1'aa,[0;1]); (n_l2'abab,[2;3;0;4])] [2;3;1;4]));
  (*2278*) Assign n_rdm2'aaaa'vvvo (Times (Transpose (T 130) [2;1;3;0]) (2) 1);
  (*2279*) Assign n_rdm2'bbbb'vvov (Times (Transpose (T 132) [2;1;0;3]) (-2) 1);
  (*2280*) Del (T 132);
  (*2281*) Assign n_rdm2'abab'vvov (Plain (Transpose (T 131) [1;2;0;3]));
  (*2282*) Del (T 131);
  (*2283*) Assign n_rdm2'aaaa'vvov (Times (Transpose (T 130) [2;1;0;3]) (-2) 1);
  (*2284*) Del (T 130);
  (*2285*) Assign n_rdm2'bbbb'vovv (Times (Transpose (T 123) [1;0;3;2]) (2) 1);
  (*2286*) AddTo n_rdm2'bbbb'vovv (Times (Einsum [(n_t1'bb,[0;1]); (T 110,[2;3])] [2;0;1;3]) (-1) 1);
  (*2287*) AddTo n_rdm2'bbbb'vovv (Plain (Einsum [(T 110,[0;1]); (n_t1'bb,[2;3])] [0;2;1;3]));
  (*2288*) AddTo n_rdm2'bbbb'vovv (Plain (Transpose (T 126) [2;0;1;3]));
  (*2289*) AddTo n_rdm2'bbbb'vovv (Times (Transpose (T 126) [2;0;3;1]) (-1) 1);
  (*2290*) AddTo n_rdm2'bbbb'vovv (Times (Transpose (T 127) [1;0;3;2]) (2) 1);
  (*2291*) AddTo n_rdm2'bbbb'vovv (Times (Transpose (T 128) [1;0;3;2]) (2) 1);
  (*2292*) Assign n_rdm2'abab'vovv (Plain (Einsum [(n_l1'aa,[0;1]); (n_t2'abab,[1;2;3;4])] [0;2;3;4]));
  (*2293*) AddTo n_rdm2'abab'vovv (Plain (Einsum [(T 107,[0;1]); (n_t1'bb,[2;3])] [0;2;1;3]));
  (*2294*) AddTo n_rdm2'abab'vovv (Times (Einsum [(n_t1'aa,[0;1]); (T 129,[0;2;3;4])] [3;2;1;4]) (2) 1);
  (*2295*) Del (T 129);
  (*2296*) AddTo n_rdm2'abab'vovv (Times (Einsum [(n_t1'bb,[0;1]); (T 116,[0;2;3;4])] [3;2;4;1]) (-1) 1);
  (*2297*) AddTo n_rdm2'abab'vovv (Times (Einsum [(n_t2'abab,[0;1;2;3]); (T 14,[0;1;4;5])] [5;4;2;3]) (-1) 1);
  (*2298*) AddTo n_rdm2'abab'vovv (Times (Einsum [(n_t1'aa,[0;1]); (T 115,[0;2;3;4])] [3;2;1;4]) (-1) 1);
  (*2299*) Assign n_rdm2'aaaa'vovv (Times (Transpose (T 117) [1;0;3;2]) (2) 1);
  (*2300*) AddTo n_rdm2'aaaa'vovv (Times (Einsum [(n_t1'aa,[0;1]); (T 118,[2;3])] [2;0;1;3]) (-2) 1);
  (*2301*) AddTo n_rdm2'aaaa'vovv (Plain (Einsum [(T 107,[0;1]); (n_t1'aa,[2;3])] [0;2;1;3]));
  (*2302*) AddTo n_rdm2'aaaa'vovv (Plain (Transpose (T 120) [2;0;1;3]));
  (*2303*) AddTo n_rdm2'aaaa'vovv (Times (Transpose (T 120) [2;0;3;1]) (-1) 1);
  (*2304*) AddTo n_rdm2'aaaa'vovv (Times (Transpose (T 121) [1;0;3;2]) (2) 1);
  (*2305*) AddTo n_rdm2'aaaa'vovv (Times (Transpose (T 122) [1;0;3;2]) (2) 1);
  (*2306*) Assign n_rdm2'bbbb'ovvv (Times (Transpose (T 123) [0;1;3;2]) (-2) 1);
  (*2307*) Del (T 123);
  (*2308*) AddTo n_rdm2'bbbb'ovvv (Plain (Einsum [(n_t1'bb,[0;1]); (T 110,[2;3])] [0;2;1;3]));
  (*2309*) AddTo n_rdm2'bbbb'ovvv (Times (Einsum [(T 110,[0;1]); (n_t1'bb,[2;3])] [2;0;1;3]) (-1) 1);
  (*2310*) AddTo n_rdm2'bbbb'ovvv (Times (Einsum [(T 124,[0;1;2;3]); (n_t1'bb,[0;4])] [1;2;4;3]) (-1) 1);
  (*2311*) Del (T 124);
  (*2312*) AddTo n_rdm2'bbbb'ovvv (Plain (Transpose (T 126) [0;2;3;1]));
  (*2313*) Del (T 126);
  (*2314*) AddTo n_rdm2'bbbb'ovvv (Times (Transpose (T 127) [0;1;3;2]) (-2) 1);
  (*2315*) Del (T 127);
  (*2316*) AddTo n_rdm2'bbbb'ovvv (Times (Transpose (T 128) [0;1;3;2]) (-2) 1);
  (*2317*) Del (T 128);
  (*2318*) Assign n_rdm2'abab'ovvv (Plain (Einsum [(n_l1'bb,[0;1]); (n_t2'abab,[2;1;3;4])] [2;0;3;4]));
  (*2319*) AddTo n_rdm2'abab'ovvv (Plain (Einsum [(n_t1'aa,[0;1]); (T 110,[2;3])] [0;2;1;3]));
  (*2320*) AddTo n_rdm2'abab'ovvv (Times (Einsum [(n_t1'aa,[0;1]); (T 89,[0;2;3;4])] [2;3;1;4]) (-1) 1);
  (*2321*) AddTo n_rdm2'abab'ovvv (Times (Einsum [(n_t1'bb,[0;1]); (T 86,[2;0;3;4])] [2;4;3;1]) (2) 1);
  (*2322*) AddTo n_rdm2'abab'ovvv (Times (Einsum [(T 27,[0;1;2;3]); (n_t2'abab,[0;2;4;5])] [1;3;4;5]) (-1) 1);
  (*2323*) AddTo n_rdm2'abab'ovvv (Times (Einsum [(T 113,[0;1;2;3]); (n_t1'bb,[1;4])] [0;3;2;4]) (-1) 1);
  (*2324*) Assign n_rdm2'aaaa'ovvv (Times (Transpose (T 117) [0;1;3;2]) (-2) 1);
  (*2325*) Del (T 117);
  (*2326*) AddTo n_rdm2'aaaa'ovvv (Times (Einsum [(n_t1'aa,[0;1]); (T 118,[2;3])] [0;2;1;3]) (2) 1);
  (*2327*) Del (T 118);
  (*2328*) AddTo n_rdm2'aaaa'ovvv (Times (Einsum [(T 107,[0;1]); (n_t1'aa,[2;3])] [2;0;1;3]) (-1) 1);
  (*2329*) AddTo n_rdm2'aaaa'ovvv (Times (Einsum [(n_t1'aa,[0;1]); (T 119,[0;2;3;4])] [2;3;1;4]) (-4) 1);
  (*2330*) Del (T 119);
  (*2331*) AddTo n_rdm2'aaaa'ovvv (Plain (Transpose (T 120) [0;2;3;1]));
  (*2332*) Del (T 120);
  (*2333*) AddTo n_rdm2'aaaa'ovvv (Times (Transpose (T 121) [0;1;3;2]) (-2) 1);
  (*2334*) Del (T 121);
  (*2335*) AddTo n_rdm2'aaaa'ovvv (Times (Transpose (T 122) [0;1;3;2]) (-2) 1);
  (*2336*) Del (T 122);
  (*2337*) Assign n_rdm2'bbbb'vvoo (Times (Copy n_l2'bbbb) (2) 1);
  (*2338*) Assign n_rdm2'abab'vvoo (Plain (Copy n_l2'abab));
  (*2339*) Assign n_rdm2'aaaa'vvoo (Times (Copy n_l2'aaaa) (2) 1);
  (*2340*) Assign n_rdm2'bbbb'vovo (Plain (Einsum [(T 110,[0;1]); (n_delta'bb'oo,[2;3])] [0;2;1;3]));
  (*2341*) AddTo n_rdm2'bbbb'vovo (Times (Transpose (T 92) [2;1;3;0]) (-4) 1);
  (*2342*) AddTo n_rdm2'bbbb'vovo (Times (Einsum [(n_l1'bb,[0;1]); (n_t1'bb,[2;3])] [0;2;3;1]) (-1) 1);
  (*2343*) AddTo n_rdm2'bbbb'vovo (Times (Transpose (T 96) [2;1;3;0]) (-1) 1);
  (*2344*) AddTo n_rdm2'bbbb'vovo (Times (Transpose (T 112) [2;1;3;0]) (2) 1);
  (*2345*) Assign n_rdm2'abab'vovo (Plain (Einsum [(T 107,[0;1]); (n_delta'bb'oo,[2;3])] [0;2;1;3]));
  (*2346*) AddTo n_rdm2'abab'vovo (Times (Transpose (T 116) [2;1;3;0]) (-1) 1);
  (*2347*) Del (T 116);
  (*2348*) AddTo n_rdm2'abab'vovo (Times (Einsum [(n_t1'aa,[0;1]); (T 14,[0;2;3;4])] [4;3;1;2]) (-1) 1);
  (*2349*) Assign n_rdm2'aaaa'vovo (Plain (Einsum [(T 107,[0;1]); (n_delta'aa'oo,[2;3])] [0;2;1;3]));
  (*2350*) AddTo n_rdm2'aaaa'vovo (Times (Transpose (T 71) [2;1;3;0]) (-1) 1);
  (*2351*) AddTo n_rdm2'aaaa'vovo (Times (Einsum [(n_t1'aa,[0;1]); (n_l1'aa,[2;3])] [2;0;1;3]) (-1) 1);
  (*2352*) AddTo n_rdm2'aaaa'vovo (Times (Transpose (T 69) [2;1;3;0]) (-4) 1);
  (*2353*) AddTo n_rdm2'aaaa'vovo (Times (Transpose (T 108) [2;1;3;0]) (2) 1);
  (*2354*) Assign n_rdm2'bbbb'voov (Times (Einsum [(T 111,[0;1]); (n_delta'bb'oo,[2;3])] [0;2;3;1]) (-2) 1);
  (*2355*) AddTo n_rdm2'bbbb'voov (Times (Transpose (T 92) [2;1;0;3]) (4) 1);
  (*2356*) AddTo n_rdm2'bbbb'voov (Plain (Einsum [(n_l1'bb,[0;1]); (n_t1'bb,[2;3])] [0;2;1;3]));
  (*2357*) AddTo n_rdm2'bbbb'voov (Plain (Transpose (T 96) [2;1;0;3]));
  (*2358*) AddTo n_rdm2'bbbb'voov (Times (Transpose (T 112) [2;1;0;3]) (-2) 1);
  (*2359*) Assign n_rdm2'abab'voov (Plain (Einsum [(n_l1'aa,[0;1]); (n_t1'bb,[2;3])] [0;2;1;3]));
  (*2360*) AddTo n_rdm2'abab'voov (Times (Transpose (T 114) [2;1;0;3]) (2) 1);
  (*2361*) Del (T 114);
  (*2362*) AddTo n_rdm2'abab'voov (Times (Transpose (T 94) [2;1;0;3]) (2) 1);
  (*2363*) Del (T 94);
  (*2364*) AddTo n_rdm2'abab'voov (Times (Transpose (T 115) [2;1;0;3]) (-1) 1);
  (*2365*) Del (T 115);
  (*2366*) Assign n_rdm2'aaaa'voov (Times (Einsum [(T 107,[0;1]); (n_delta'aa'oo,[2;3])] [0;2;3;1]) (-1) 1);
  (*2367*) AddTo n_rdm2'aaaa'voov (Plain (Transpose (T 71) [2;1;0;3]));
  (*2368*) AddTo n_rdm2'aaaa'voov (Plain (Einsum [(n_t1'aa,[0;1]); (n_l1'aa,[2;3])] [2;0;3;1]));
  (*2369*) AddTo n_rdm2'aaaa'voov (Times (Transpose (T 69) [2;1;0;3]) (4) 1);
  (*2370*) AddTo n_rdm2'aaaa'voov (Times (Transpose (T 108) [2;1;0;3]) (-2) 1);
  (*2371*) Assign n_rdm2'bbbb'ovvo (Times (Einsum [(T 110,[0;1]); (n_delta'bb'oo,[2;3])] [2;0;1;3]) (-1) 1);
  (*2372*) AddTo n_rdm2'bbbb'ovvo (Times (Transpose (T 92) [1;2;3;0]) (4) 1);
  (*2373*) AddTo n_rdm2'bbbb'ovvo (Plain (Einsum [(n_l1'bb,[0;1]); (n_t1'bb,[2;3])] [2;0;3;1]));
  (*2374*) AddTo n_rdm2'bbbb'ovvo (Plain (Transpose (T 96) [1;2;3;0]));
  (*2375*) AddTo n_rdm2'bbbb'ovvo (Times (Transpose (T 112) [1;2;3;0]) (-2) 1);
  (*2376*) Assign n_rdm2'abab'ovvo (Times (Transpose (T 67) [0;3;2;1]) (2) 1);
  (*2377*) Del (T 67);
  (*2378*) AddTo n_rdm2'abab'ovvo (Plain (Einsum [(n_l1'bb,[0;1]); (n_t1'aa,[2;3])] [2;0;3;1]));
  (*2379*) AddTo n_rdm2'abab'ovvo (Times (Transpose (T 85) [0;3;2;1]) (2) 1);
  (*2380*) Del (T 85);
  (*2381*) AddTo n_rdm2'abab'ovvo (Times (Transpose (T 113) [0;3;2;1]) (-1) 1);
  (*2382*) Del (T 113);
  (*2383*) Assign n_rdm2'aaaa'ovvo (Times (Einsum [(T 107,[0;1]); (n_delta'aa'oo,[2;3])] [2;0;1;3]) (-1) 1);
  (*2384*) AddTo n_rdm2'aaaa'ovvo (Plain (Transpose (T 71) [1;2;3;0]));
  (*2385*) AddTo n_rdm2'aaaa'ovvo (Plain (Einsum [(n_t1'aa,[0;1]); (n_l1'aa,[2;3])] [0;2;1;3]));
  (*2386*) AddTo n_rdm2'aaaa'ovvo (Times (Transpose (T 69) [1;2;3;0]) (4) 1);
  (*2387*) AddTo n_rdm2'aaaa'ovvo (Times (Transpose (T 108) [1;2;3;0]) (-2) 1);
  (*2388*) Assign n_rdm2'bbbb'ovov (Times (Einsum [(T 111,[0;1]); (n_delta'bb'oo,[2;3])] [2;0;3;1]) (2) 1);
  (*2389*) Del (T 111);
  (*2390*) AddTo n_rdm2'bbbb'ovov (Times (Transpose (T 92) [1;2;0;3]) (-4) 1);
  (*2391*) Del (T 92);
  (*2392*) AddTo n_rdm2'bbbb'ovov (Times (Einsum [(n_l1'bb,[0;1]); (n_t1'bb,[2;3])] [2;0;1;3]) (-1) 1);
  (*2393*) AddTo n_rdm2'bbbb'ovov (Times (Transpose (T 96) [1;2;0;3]) (-1) 1);
  (*2394*) Del (T 96);
  (*2395*) AddTo n_rdm2'bbbb'ovov (Times (Transpose (T 112) [1;2;0;3]) (2) 1);
  (*2396*) Del (T 112);
  (*2397*) Assign n_rdm2'abab'ovov (Plain (Einsum [(T 110,[0;1]); (n_delta'aa'oo,[2;3])] [2;0;3;1]));
  (*2398*) Del (T 110);
  (*2399*) AddTo n_rdm2'abab'ovov (Times (Transpose (T 89) [1;2;0;3]) (-1) 1);
  (*2400*) AddTo n_rdm2'abab'ovov (Times (Einsum [(T 27,[0;1;2;3]); (n_t1'bb,[2;4])] [1;3;0;4]) (-1) 1);
  (*2401*) Assign n_rdm2'aaaa'ovov (Plain (Einsum [(T 107,[0;1]); (n_delta'aa'oo,[2;3])] [2;0;3;1]));
  (*2402*) Del (T 107);
  (*2403*) AddTo n_rdm2'aaaa'ovov (Times (Transpose (T 71) [1;2;0;3]) (-1) 1);
  (*2404*) Del (T 71);
  (*2405*) AddTo n_rdm2'aaaa'ovov (Times (Einsum [(n_t1'aa,[0;1]); (n_l1'aa,[2;3])] [0;2;3;1]) (-1) 1);
  (*2406*) AddTo n_rdm2'aaaa'ovov (Times (Transpose (T 69) [1;2;0;3]) (-4) 1);
  (*2407*) Del (T 69);
  (*2408*) AddTo n_rdm2'aaaa'ovov (Times (Transpose (T 108) [1;2;0;3]) (2) 1);
  (*2409*) Del (T 108);
  (*2410*) Assign n_rdm2'bbbb'oovv (Times (Copy n_t2'bbbb) (2) 1);
  (*2411*) AddTo n_rdm2'bbbb'oovv (Times (Einsum [(T 83,[0;1]); (n_t2'bbbb,[2;3;4;0])] [2;3;4;1]) (-4) 1);
  (*2412*) AddTo n_rdm2'bbbb'oovv (Times (Transpose (T 93) [0;1;3;2]) (-8) 1);
  (*2413*) AddTo n_rdm2'bbbb'oovv (Times (Transpose (T 95) [0;1;3;2]) (-2) 1);
  (*2414*) AddTo n_rdm2'bbbb'oovv (Times (Transpose (T 97) [0;1;3;2]) (-2) 1);
  (*2415*) AddTo n_rdm2'bbbb'oovv (Times (Transpose (T 97) [1;0;2;3]) (-2) 1);
  (*2416*) AddTo n_rdm2'bbbb'oovv (Times (Einsum [(n_t1'bb,[0;1]); (T 50,[2;3])] [2;0;1;3]) (-2) 1);
  (*2417*) AddTo n_rdm2'bbbb'oovv (Times (Copy (T 93)) (8) 1);
  (*2418*) Del (T 93);
  (*2419*) AddTo n_rdm2'bbbb'oovv (Times (Transpose (T 95) [1;0;3;2]) (2) 1);
  (*2420*) Del (T 95);
  (*2421*) AddTo n_rdm2'bbbb'oovv (Times (Copy (T 97)) (2) 1);
  (*2422*) AddTo n_rdm2'bbbb'oovv (Times (Transpose (T 97) [1;0;3;2]) (2) 1);
  (*2423*) Del (T 97);
  (*2424*) AddTo n_rdm2'bbbb'oovv (Plain (Einsum [(T 38,[0;1]); (n_t1'bb,[2;3])] [2;0;3;1]));
  (*2425*) AddTo n_rdm2'bbbb'oovv (Plain (Einsum [(T 98,[0;1]); (n_t1'bb,[2;3])] [0;2;1;3]));
  (*2426*) AddTo n_rdm2'bbbb'oovv (Times (Einsum [(n_t1'bb,[0;1]); (T 98,[2;3])] [0;2;3;1]) (-1) 1);
  (*2427*) Del (T 98);
  (*2428*) AddTo n_rdm2'bbbb'oovv (Times (Copy (T 99)) (2) 1);
  (*2429*) AddTo n_rdm2'bbbb'oovv (Times (Einsum [(T 100,[0;1]); (n_t2'bbbb,[2;3;4;0])] [2;3;1;4]) (2) 1);
  (*2430*) Del (T 100);
  (*2431*) AddTo n_rdm2'bbbb'oovv (Times (Transpose (T 99) [0;1;3;2]) (-2) 1);
  (*2432*) Del (T 99);
  (*2433*) AddTo n_rdm2'bbbb'oovv (Times (Transpose (T 101) [0;1;3;2]) (-2) 1);
  (*2434*) AddTo n_rdm2'bbbb'oovv (Times (Einsum [(T 88,[0;1]); (n_t1'bb,[2;3])] [2;0;3;1]) (-2) 1);
  (*2435*) AddTo n_rdm2'bbbb'oovv (Plain (Einsum [(n_t1'bb,[0;1]); (T 44,[2;3])] [0;2;3;1]));
  (*2436*) AddTo n_rdm2'bbbb'oovv (Times (Transpose (T 101) [1;0;3;2]) (2) 1);
  (*2437*) Del (T 101);
  (*2438*) AddTo n_rdm2'bbbb'oovv (Times (Einsum [(n_t1'bb,[0;1]); (T 88,[2;3])] [2;0;1;3]) (2) 1);
  (*2439*) AddTo n_rdm2'bbbb'oovv (Times (Einsum [(T 44,[0;1]); (n_t1'bb,[2;3])] [0;2;1;3]) (-1) 1);
  (*2440*) AddTo n_rdm2'bbbb'oovv (Times (Transpose (T 102) [1;0;3;2]) (2) 1);
  (*2441*) Del (T 102);
  (*2442*) AddTo n_rdm2'bbbb'oovv (Times (Einsum [(n_t1'bb,[0;1]); (T 103,[0;2;3;4])] [2;3;1;4]) (2) 1);
  (*2443*) Del (T 103);
  (*2444*) AddTo n_rdm2'bbbb'oovv (Plain (Transpose (T 105) [1;0;2;3]));
  (*2445*) AddTo n_rdm2'bbbb'oovv (Times (Copy (T 105)) (-1) 1);
  (*2446*) AddTo n_rdm2'bbbb'oovv (Times (Transpose (T 105) [1;0;3;2]) (-1) 1);
  (*2447*) AddTo n_rdm2'bbbb'oovv (Plain (Transpose (T 105) [0;1;3;2]));
  (*2448*) Del (T 105);
  (*2449*) Assign n_rdm2'abab'oovv (Plain (Copy n_t2'abab));
  (*2450*) AddTo n_rdm2'abab'oovv (Times (Einsum [(T 83,[0;1]); (n_t2'abab,[2;3;4;0])] [2;3;4;1]) (-2) 1);
  (*2451*) Del (T 83);
  (*2452*) AddTo n_rdm2'abab'oovv (Plain (Einsum [(T 84,[0;1;2;3]); (n_t2'abab,[0;4;2;5])] [1;4;3;5]));
  (*2453*) Del (T 84);
  (*2454*) AddTo n_rdm2'abab'oovv (Times (Einsum [(n_t2'bbbb,[0;1;2;3]); (T 86,[4;1;5;3])] [4;0;5;2]) (4) 1);
  (*2455*) Del (T 86);
  (*2456*) AddTo n_rdm2'abab'oovv (Plain (Einsum [(n_t1'aa,[0;1]); (T 38,[2;3])] [0;2;1;3]));
  (*2457*) AddTo n_rdm2'abab'oovv (Plain (Einsum [(T 73,[0;1]); (n_t1'bb,[2;3])] [0;2;1;3]));
  (*2458*) AddTo n_rdm2'abab'oovv (Times (Einsum [(n_t1'aa,[0;1]); (T 39,[0;2;3;4])] [2;3;1;4]) (-1) 1);
  (*2459*) AddTo n_rdm2'abab'oovv (Times (Einsum [(T 66,[0;1]); (n_t2'abab,[2;3;0;4])] [2;3;1;4]) (-1) 1);
  (*2460*) AddTo n_rdm2'abab'oovv (Times (Einsum [(n_t1'bb,[0;1]); (T 59,[2;0;3;4])] [2;3;4;1]) (-1) 1);
  (*2461*) AddTo n_rdm2'abab'oovv (Times (Einsum [(T 42,[0;1]); (n_t2'abab,[2;0;3;4])] [2;1;3;4]) (-1) 1);
  (*2462*) AddTo n_rdm2'abab'oovv (Times (Einsum [(n_t1'aa,[0;1]); (T 88,[2;3])] [0;2;1;3]) (-2) 1);
  (*2463*) Del (T 88);
  (*2464*) AddTo n_rdm2'abab'oovv (Times (Einsum [(n_t2'abab,[0;1;2;3]); (T 5,[0;4])] [4;1;2;3]) (-1) 1);
  (*2465*) AddTo n_rdm2'abab'oovv (Plain (Einsum [(T 47,[0;1;2;3]); (n_t2'abab,[0;2;4;5])] [1;3;4;5]));
  (*2466*) AddTo n_rdm2'abab'oovv (Plain (Einsum [(T 48,[0;1;2;3]); (n_t1'aa,[0;4])] [1;2;4;3]));
  (*2467*) AddTo n_rdm2'abab'oovv (Plain (Einsum [(n_t2'abab,[0;1;2;3]); (T 89,[0;4;3;5])] [4;1;2;5]));
  (*2468*) Del (T 89);
  (*2469*) AddTo n_rdm2'abab'oovv (Times (Einsum [(n_t1'bb,[0;1]); (T 31,[2;3])] [2;0;3;1]) (-1) 1);
  (*2470*) AddTo n_rdm2'abab'oovv (Plain (Einsum [(T 49,[0;1;2;3]); (n_t1'aa,[0;4])] [1;2;4;3]));
  (*2471*) AddTo n_rdm2'abab'oovv (Times (Einsum [(T 90,[0;1;2;3]); (n_t1'aa,[0;4])] [1;2;4;3]) (-2) 1);
  (*2472*) Del (T 90);
  (*2473*) AddTo n_rdm2'abab'oovv (Times (Einsum [(n_t1'bb,[0;1]); (T 91,[2;0;3;4])] [2;3;4;1]) (-2) 1);
  (*2474*) Del (T 91);
  (*2475*) AddTo n_rdm2'abab'oovv (Plain (Einsum [(n_t1'bb,[0;1]); (T 62,[2;0;3;4])] [2;3;4;1]));
  (*2476*) Assign n_rdm2'aaaa'oovv (Times (Copy n_t2'aaaa) (2) 1);
  (*2477*) AddTo n_rdm2'aaaa'oovv (Times (Einsum [(T 66,[0;1]); (n_t2'aaaa,[2;3;4;0])] [2;3;4;1]) (-2) 1);
  (*2478*) Del (T 66);
  (*2479*) AddTo n_rdm2'aaaa'oovv (Times (Transpose (T 68) [0;1;3;2]) (-2) 1);
  (*2480*) AddTo n_rdm2'aaaa'oovv (Times (Transpose (T 70) [0;1;3;2]) (-8) 1);
  (*2481*) AddTo n_rdm2'aaaa'oovv (Times (Transpose (T 72) [0;1;3;2]) (-2) 1);
  (*2482*) AddTo n_rdm2'aaaa'oovv (Times (Transpose (T 72) [1;0;2;3]) (-2) 1);
  (*2483*) AddTo n_rdm2'aaaa'oovv (Times (Einsum [(T 56,[0;1]); (n_t1'aa,[2;3])] [0;2;3;1]) (-1) 1);
  (*2484*) AddTo n_rdm2'aaaa'oovv (Times (Copy (T 68)) (2) 1);
  (*2485*) Del (T 68);
  (*2486*) AddTo n_rdm2'aaaa'oovv (Times (Copy (T 70)) (8) 1);
  (*2487*) Del (T 70);
  (*2488*) AddTo n_rdm2'aaaa'oovv (Times (Copy (T 72)) (2) 1);
  (*2489*) AddTo n_rdm2'aaaa'oovv (Times (Transpose (T 72) [1;0;3;2]) (2) 1);
  (*2490*) Del (T 72);
  (*2491*) AddTo n_rdm2'aaaa'oovv (Plain (Einsum [(n_t1'aa,[0;1]); (T 24,[2;3])] [0;2;1;3]));
  (*2492*) AddTo n_rdm2'aaaa'oovv (Plain (Einsum [(T 73,[0;1]); (n_t1'aa,[2;3])] [0;2;1;3]));
  (*2493*) AddTo n_rdm2'aaaa'oovv (Times (Einsum [(T 73,[0;1]); (n_t1'aa,[2;3])] [2;0;1;3]) (-1) 1);
  (*2494*) Del (T 73);
  (*2495*) AddTo n_rdm2'aaaa'oovv (Times (Copy (T 74)) (2) 1);
  (*2496*) AddTo n_rdm2'aaaa'oovv (Times (Einsum [(n_t2'aaaa,[0;1;2;3]); (T 75,[3;4])] [0;1;4;2]) (4) 1);
  (*2497*) Del (T 75);
  (*2498*) AddTo n_rdm2'aaaa'oovv (Times (Transpose (T 74) [0;1;3;2]) (-2) 1);
  (*2499*) Del (T 74);
  (*2500*) AddTo n_rdm2'aaaa'oovv (Times (Transpose (T 76) [1;0;3;2]) (-2) 1);
  (*2501*) AddTo n_rdm2'aaaa'oovv (Times (Einsum [(n_t1'aa,[0;1]); (T 31,[2;3])] [0;2;1;3]) (-1) 1);
  (*2502*) AddTo n_rdm2'aaaa'oovv (Times (Einsum [(T 58,[0;1]); (n_t1'aa,[2;3])] [2;0;1;3]) (2) 1);
  (*2503*) AddTo n_rdm2'aaaa'oovv (Times (Transpose (T 76) [0;1;3;2]) (2) 1);
  (*2504*) Del (T 76);
  (*2505*) AddTo n_rdm2'aaaa'oovv (Plain (Einsum [(n_t1'aa,[0;1]); (T 31,[2;3])] [2;0;1;3]));
  (*2506*) AddTo n_rdm2'aaaa'oovv (Times (Einsum [(n_t1'aa,[0;1]); (T 58,[2;3])] [2;0;3;1]) (-2) 1);
  (*2507*) AddTo n_rdm2'aaaa'oovv (Times (Transpose (T 77) [1;0;3;2]) (2) 1);
  (*2508*) Del (T 77);
  (*2509*) AddTo n_rdm2'aaaa'oovv (Times (Einsum [(n_t1'aa,[0;1]); (T 78,[0;2;3;4])] [2;3;1;4]) (2) 1);
  (*2510*) Del (T 78);
  (*2511*) AddTo n_rdm2'aaaa'oovv (Plain (Transpose (T 80) [1;0;2;3]));
  (*2512*) AddTo n_rdm2'aaaa'oovv (Times (Copy (T 80)) (-1) 1);
  (*2513*) AddTo n_rdm2'aaaa'oovv (Times (Transpose (T 80) [1;0;3;2]) (-1) 1);
  (*2514*) AddTo n_rdm2'aaaa'oovv (Plain (Transpose (T 80) [0;1;3;2]));
  (*2515*) Del (T 80);
  (*2516*) Assign n_rdm2'bbbb'vooo (Plain (Einsum [(n_delta'bb'oo,[0;1]); (n_l1'bb,[2;3])] [2;0;3;1]));
  (*2517*) AddTo n_rdm2'bbbb'vooo (Times (Einsum [(n_l1'bb,[0;1]); (n_delta'bb'oo,[2;3])] [0;2;3;1]) (-1) 1);
  (*2518*) AddTo n_rdm2'bbbb'vooo (Times (Transpose (T 19) [3;2;1;0]) (2) 1);
  (*2519*) Assign n_rdm2'abab'vooo (Plain (Einsum [(n_l1'aa,[0;1]); (n_delta'bb'oo,[2;3])] [0;2;1;3]));
  (*2520*) AddTo n_rdm2'abab'vooo (Times (Transpose (T 14) [3;2;0;1]) (-1) 1);
  (*2521*) Del (T 14);
  (*2522*) Assign n_rdm2'aaaa'vooo (Plain (Einsum [(n_delta'aa'oo,[0;1]); (n_l1'aa,[2;3])] [2;0;3;1]));
  (*2523*) AddTo n_rdm2'aaaa'vooo (Times (Einsum [(n_delta'aa'oo,[0;1]); (n_l1'aa,[2;3])] [2;0;1;3]) (-1) 1);
  (*2524*) AddTo n_rdm2'aaaa'vooo (Times (Transpose (T 7) [3;2;1;0]) (2) 1);
  (*2525*) Assign n_rdm2'bbbb'ovoo (Times (Einsum [(n_delta'bb'oo,[0;1]); (n_l1'bb,[2;3])] [0;2;3;1]) (-1) 1);
  (*2526*) AddTo n_rdm2'bbbb'ovoo (Plain (Einsum [(n_l1'bb,[0;1]); (n_delta'bb'oo,[2;3])] [2;0;3;1]));
  (*2527*) AddTo n_rdm2'bbbb'ovoo (Times (Transpose (T 19) [2;3;1;0]) (-2) 1);
  (*2528*) Del (T 19);
  (*2529*) Assign n_rdm2'abab'ovoo (Plain (Einsum [(n_l1'bb,[0;1]); (n_delta'aa'oo,[2;3])] [2;0;3;1]));
  (*2530*) AddTo n_rdm2'abab'ovoo (Times (Transpose (T 27) [1;3;0;2]) (-1) 1);
  (*2531*) Del (T 27);
  (*2532*) Assign n_rdm2'aaaa'ovoo (Times (Einsum [(n_delta'aa'oo,[0;1]); (n_l1'aa,[2;3])] [0;2;3;1]) (-1) 1);
  (*2533*) AddTo n_rdm2'aaaa'ovoo (Plain (Einsum [(n_delta'aa'oo,[0;1]); (n_l1'aa,[2;3])] [0;2;1;3]));
  (*2534*) AddTo n_rdm2'aaaa'ovoo (Times (Transpose (T 7) [2;3;1;0]) (-2) 1);
  (*2535*) Del (T 7);
  (*2536*) Assign n_rdm2'bbbb'oovo (Plain (Einsum [(n_delta'bb'oo,[0;1]); (T 63,[2;3])] [2;0;3;1]));
  (*2537*) Del (T 63);
  (*2538*) AddTo n_rdm2'bbbb'oovo (Times (Einsum [(n_delta'bb'oo,[0;1]); (T 38,[2;3])] [0;2;3;1]) (-1) 1);
  (*2539*) AddTo n_rdm2'bbbb'oovo (Times (Transpose (T 51) [2;1;3;0]) (2) 1);
  (*2540*) AddTo n_rdm2'bbbb'oovo (Times (Einsum [(T 44,[0;1]); (n_delta'bb'oo,[2;3])] [0;2;1;3]) (-1) 1);
  (*2541*) AddTo n_rdm2'bbbb'oovo (Plain (Einsum [(n_delta'bb'oo,[0;1]); (T 44,[2;3])] [0;2;3;1]));
  (*2542*) AddTo n_rdm2'bbbb'oovo (Times (Transpose (T 52) [1;2;3;0]) (4) 1);
  (*2543*) AddTo n_rdm2'bbbb'oovo (Plain (Transpose (T 53) [1;2;3;0]));
  (*2544*) AddTo n_rdm2'bbbb'oovo (Times (Einsum [(n_t1'bb,[0;1]); (T 17,[2;3])] [3;0;1;2]) (2) 1);
  (*2545*) AddTo n_rdm2'bbbb'oovo (Times (Transpose (T 52) [2;1;3;0]) (-4) 1);
  (*2546*) AddTo n_rdm2'bbbb'oovo (Times (Transpose (T 53) [2;1;3;0]) (-1) 1);
  (*2547*) AddTo n_rdm2'bbbb'oovo (Times (Einsum [(T 17,[0;1]); (n_t1'bb,[2;3])] [2;1;3;0]) (-2) 1);
  (*2548*) AddTo n_rdm2'bbbb'oovo (Times (Transpose (T 55) [2;1;3;0]) (-1) 1);
  (*2549*) Assign n_rdm2'abab'oovo (Plain (Einsum [(T 56,[0;1]); (n_delta'bb'oo,[2;3])] [0;2;1;3]));
  (*2550*) AddTo n_rdm2'abab'oovo (Times (Transpose (T 59) [0;2;3;1]) (-1) 1);
  (*2551*) Del (T 59);
  (*2552*) AddTo n_rdm2'abab'oovo (Times (Einsum [(T 31,[0;1]); (n_delta'bb'oo,[2;3])] [0;2;1;3]) (-1) 1);
  (*2553*) AddTo n_rdm2'abab'oovo (Times (Transpose (T 60) [0;2;3;1]) (-2) 1);
  (*2554*) Del (T 60);
  (*2555*) AddTo n_rdm2'abab'oovo (Times (Transpose (T 61) [0;2;3;1]) (-2) 1);
  (*2556*) Del (T 61);
  (*2557*) AddTo n_rdm2'abab'oovo (Times (Einsum [(n_t1'aa,[0;1]); (T 17,[2;3])] [0;3;1;2]) (-2) 1);
  (*2558*) AddTo n_rdm2'abab'oovo (Plain (Einsum [(n_t1'aa,[0;1]); (T 47,[0;2;3;4])] [2;4;1;3]));
  (*2559*) Del (T 47);
  (*2560*) AddTo n_rdm2'abab'oovo (Plain (Transpose (T 62) [0;2;3;1]));
  (*2561*) Del (T 62);
  (*2562*) Assign n_rdm2'aaaa'oovo (Plain (Einsum [(T 56,[0;1]); (n_delta'aa'oo,[2;3])] [0;2;1;3]));
  (*2563*) Del (T 56);
  (*2564*) AddTo n_rdm2'aaaa'oovo (Times (Einsum [(T 24,[0;1]); (n_delta'aa'oo,[2;3])] [2;0;1;3]) (-1) 1);
  (*2565*) AddTo n_rdm2'aaaa'oovo (Times (Transpose (T 25) [2;1;3;0]) (2) 1);
  (*2566*) AddTo n_rdm2'aaaa'oovo (Times (Einsum [(T 31,[0;1]); (n_delta'aa'oo,[2;3])] [0;2;1;3]) (-1) 1);
  (*2567*) AddTo n_rdm2'aaaa'oovo (Times (Einsum [(T 58,[0;1]); (n_delta'aa'oo,[2;3])] [2;0;1;3]) (2) 1);
  (*2568*) Del (T 58);
  (*2569*) AddTo n_rdm2'aaaa'oovo (Times (Transpose (T 32) [1;2;3;0]) (4) 1);
  (*2570*) AddTo n_rdm2'aaaa'oovo (Plain (Transpose (T 33) [1;2;3;0]));
  (*2571*) AddTo n_rdm2'aaaa'oovo (Times (Einsum [(n_t1'aa,[0;1]); (T 29,[2;3])] [3;0;1;2]) (2) 1);
  (*2572*) AddTo n_rdm2'aaaa'oovo (Times (Transpose (T 32) [2;1;3;0]) (-4) 1);
  (*2573*) AddTo n_rdm2'aaaa'oovo (Times (Transpose (T 33) [2;1;3;0]) (-1) 1);
  (*2574*) AddTo n_rdm2'aaaa'oovo (Times (Einsum [(n_t1'aa,[0;1]); (T 29,[2;3])] [0;3;1;2]) (-2) 1);
  (*2575*) Del (T 29);
  (*2576*) AddTo n_rdm2'aaaa'oovo (Times (Transpose (T 35) [2;1;3;0]) (-1) 1);
  (*2577*) Assign n_rdm2'bbbb'ooov (Times (Einsum [(T 50,[0;1]); (n_delta'bb'oo,[2;3])] [0;2;3;1]) (-2) 1);
  (*2578*) Del (T 50);
  (*2579*) AddTo n_rdm2'bbbb'ooov (Plain (Einsum [(n_delta'bb'oo,[0;1]); (T 38,[2;3])] [0;2;1;3]));
  (*2580*) AddTo n_rdm2'bbbb'ooov (Times (Transpose (T 51) [2;1;0;3]) (-2) 1);
  (*2581*) Del (T 51);
  (*2582*) AddTo n_rdm2'bbbb'ooov (Plain (Einsum [(T 44,[0;1]); (n_delta'bb'oo,[2;3])] [0;2;3;1]));
  (*2583*) AddTo n_rdm2'bbbb'ooov (Times (Einsum [(n_delta'bb'oo,[0;1]); (T 44,[2;3])] [0;2;1;3]) (-1) 1);
  (*2584*) AddTo n_rdm2'bbbb'ooov (Times (Transpose (T 52) [1;2;0;3]) (-4) 1);
  (*2585*) AddTo n_rdm2'bbbb'ooov (Times (Transpose (T 53) [1;2;0;3]) (-1) 1);
  (*2586*) AddTo n_rdm2'bbbb'ooov (Times (Einsum [(n_t1'bb,[0;1]); (T 42,[2;3])] [3;0;2;1]) (-1) 1);
  (*2587*) AddTo n_rdm2'bbbb'ooov (Times (Transpose (T 52) [2;1;0;3]) (4) 1);
  (*2588*) Del (T 52);
  (*2589*) AddTo n_rdm2'bbbb'ooov (Plain (Transpose (T 53) [2;1;0;3]));
  (*2590*) Del (T 53);
  (*2591*) AddTo n_rdm2'bbbb'ooov (Plain (Einsum [(n_t1'bb,[0;1]); (T 42,[2;3])] [0;3;2;1]));
  (*2592*) Del (T 42);
  (*2593*) AddTo n_rdm2'bbbb'ooov (Plain (Transpose (T 55) [2;1;0;3]));
  (*2594*) Del (T 55);
  (*2595*) Assign n_rdm2'abab'ooov (Plain (Einsum [(T 38,[0;1]); (n_delta'aa'oo,[2;3])] [2;0;3;1]));
  (*2596*) Del (T 38);
  (*2597*) AddTo n_rdm2'abab'ooov (Times (Transpose (T 39) [1;2;0;3]) (-1) 1);
  (*2598*) Del (T 39);
  (*2599*) AddTo n_rdm2'abab'ooov (Times (Einsum [(T 44,[0;1]); (n_delta'aa'oo,[2;3])] [2;0;3;1]) (-1) 1);
  (*2600*) Del (T 44);
  (*2601*) AddTo n_rdm2'abab'ooov (Times (Transpose (T 45) [1;2;0;3]) (-2) 1);
  (*2602*) Del (T 45);
  (*2603*) AddTo n_rdm2'abab'ooov (Times (Transpose (T 46) [1;2;0;3]) (-2) 1);
  (*2604*) Del (T 46);
  (*2605*) AddTo n_rdm2'abab'ooov (Times (Einsum [(T 5,[0;1]); (n_t1'bb,[2;3])] [1;2;0;3]) (-1) 1);
  (*2606*) AddTo n_rdm2'abab'ooov (Plain (Transpose (T 48) [1;2;0;3]));
  (*2607*) Del (T 48);
  (*2608*) AddTo n_rdm2'abab'ooov (Plain (Transpose (T 49) [1;2;0;3]));
  (*2609*) Del (T 49);
  (*2610*) Assign n_rdm2'aaaa'ooov (Times (Einsum [(n_delta'aa'oo,[0;1]); (T 23,[2;3])] [2;0;1;3]) (-2) 1);
  (*2611*) Del (T 23);
  (*2612*) AddTo n_rdm2'aaaa'ooov (Plain (Einsum [(T 24,[0;1]); (n_delta'aa'oo,[2;3])] [2;0;3;1]));
  (*2613*) Del (T 24);
  (*2614*) AddTo n_rdm2'aaaa'ooov (Times (Transpose (T 25) [2;1;0;3]) (-2) 1);
  (*2615*) Del (T 25);
  (*2616*) AddTo n_rdm2'aaaa'ooov (Plain (Einsum [(T 31,[0;1]); (n_delta'aa'oo,[2;3])] [0;2;3;1]));
  (*2617*) AddTo n_rdm2'aaaa'ooov (Times (Einsum [(n_delta'aa'oo,[0;1]); (T 31,[2;3])] [0;2;1;3]) (-1) 1);
  (*2618*) Del (T 31);
  (*2619*) AddTo n_rdm2'aaaa'ooov (Times (Transpose (T 32) [1;2;0;3]) (-4) 1);
  (*2620*) AddTo n_rdm2'aaaa'ooov (Times (Transpose (T 33) [1;2;0;3]) (-1) 1);
  (*2621*) AddTo n_rdm2'aaaa'ooov (Times (Einsum [(n_t1'aa,[0;1]); (T 5,[2;3])] [3;0;2;1]) (-1) 1);
  (*2622*) AddTo n_rdm2'aaaa'ooov (Times (Transpose (T 32) [2;1;0;3]) (4) 1);
  (*2623*) Del (T 32);
  (*2624*) AddTo n_rdm2'aaaa'ooov (Plain (Transpose (T 33) [2;1;0;3]));
  (*2625*) Del (T 33);
  (*2626*) AddTo n_rdm2'aaaa'ooov (Plain (Einsum [(T 5,[0;1]); (n_t1'aa,[2;3])] [2;1;0;3]));
  (*2627*) AddTo n_rdm2'aaaa'ooov (Plain (Transpose (T 35) [2;1;0;3]));
  (*2628*) Del (T 35);
  (*2629*) Assign n_rdm2'bbbb'oooo (Times (Einsum [(T 16,[0;1]); (n_delta'bb'oo,[2;3])] [2;1;3;0]) (-1) 1);
  (*2630*) AddTo n_rdm2'bbbb'oooo (Plain (Einsum [(T 16,[0;1]); (n_delta'bb'oo,[2;3])] [1;2;3;0]));
  (*2631*) Del (T 16);
  (*2632*) AddTo n_rdm2'bbbb'oooo (Times (Einsum [(T 17,[0;1]); (n_delta'bb'oo,[2;3])] [1;2;0;3]) (-2) 1);
  (*2633*) AddTo n_rdm2'bbbb'oooo (Times (Einsum [(T 17,[0;1]); (n_delta'bb'oo,[2;3])] [2;1;0;3]) (2) 1);
  (*2634*) Del (T 17);
  (*2635*) AddTo n_rdm2'bbbb'oooo (Times (Transpose (T 18) [3;2;1;0]) (2) 1);
  (*2636*) Del (T 18);
  (*2637*) AddTo n_rdm2'bbbb'oooo (Times (Transpose (T 20) [2;3;1;0]) (-2) 1);
  (*2638*) Del (T 20);
  (*2639*) Assign n_rdm2'abab'oooo (Times (Einsum [(T 12,[0;1]); (n_delta'aa'oo,[2;3])] [2;1;3;0]) (-2) 1);
  (*2640*) Del (T 12);
  (*2641*) AddTo n_rdm2'abab'oooo (Times (Einsum [(T 5,[0;1]); (n_delta'bb'oo,[2;3])] [1;2;0;3]) (-1) 1);
  (*2642*) AddTo n_rdm2'abab'oooo (Plain (Transpose (T 13) [1;3;0;2]));
  (*2643*) Del (T 13);
  (*2644*) AddTo n_rdm2'abab'oooo (Plain (Transpose (T 15) [1;3;0;2]));
  (*2645*) Del (T 15);
  (*2646*) Assign n_rdm2'aaaa'oooo (Times (Einsum [(n_delta'aa'oo,[0;1]); (T 4,[2;3])] [0;3;1;2]) (-1) 1);
  (*2647*) AddTo n_rdm2'aaaa'oooo (Plain (Einsum [(n_delta'aa'oo,[0;1]); (T 4,[2;3])] [3;0;1;2]));
  (*2648*) Del (T 4);
  (*2649*) AddTo n_rdm2'aaaa'oooo (Times (Einsum [(n_delta'aa'oo,[0;1]); (T 5,[2;3])] [3;0;2;1]) (-1) 1);
  (*2650*) AddTo n_rdm2'aaaa'oooo (Plain (Einsum [(T 5,[0;1]); (n_delta'aa'oo,[2;3])] [2;1;0;3]));
  (*2651*) Del (T 5);
  (*2651*) Del n_delta'aa'oo;
  (*2651*) Del n_delta'aa'vv;
  (*2651*) Del n_delta'bb'oo;
  (*2651*) Del n_delta'bb'vv;
  (*2652*) AddTo n_rdm2'aaaa'oooo (Times (Transpose (T 6) [3;2;1;0]) (2) 1);
  (*2653*) Del (T 6);
  (*2654*) AddTo n_rdm2'aaaa'oooo (Times (Transpose (T 8) [2;3;1;0]) (-2) 1);
  (*2655*) Del (T 8)]
 [(n_rdm2'aaaa'oooo,[4;4;4;4]); (n_rdm2'aaaa'ooov,[4;4;4;5]); (n_rdm2'aaaa'oovo,[4;4;5;4]); (n_rdm2'aaaa'ovoo,[4;5;4;4]); (n_rdm2'aaaa'vooo,[5;4;4;4]); (n_rdm2'aaaa'oovv,[4;4;5;5]); (n_rdm2'aaaa'ovov,[4;5;4;5]); (n_rdm2'aaaa'ovvo,[4;5;5;4]); (n_rdm2'aaaa'voov,[5;4;4;5]); (n_rdm2'aaaa'vovo,[5;4;5;4]); (n_rdm2'aaaa'vvoo,[5;5;4;4]); (n_rdm2'aaaa'ovvv,[4;5;5;5]); (n_rdm2'aaaa'vovv,[5;4;5;5]); (n_rdm2'aaaa'vvov,[5;5;4;5]); (n_rdm2'aaaa'vvvo,[5;5;5;4]); (n_rdm2'aaaa'vvvv,[5;5;5;5]); (n_rdm2'abab'oooo,[4;6;4;6]); (n_rdm2'abab'ooov,[4;6;4;7]); (n_rdm2'abab'oovo,[4;6;5;6]); (n_rdm2'abab'ovoo,[4;7;4;6]); (n_rdm2'abab'vooo,[5;6;4;6]); (n_rdm2'abab'oovv,[4;6;5;7]); (n_rdm2'abab'ovov,[4;7;4;7]); (n_rdm2'abab'ovvo,[4;7;5;6]); (n_rdm2'abab'voov,[5;6;4;7]); (n_rdm2'abab'vovo,[5;6;5;6]); (n_rdm2'abab'vvoo,[5;7;4;6]); (n_rdm2'abab'ovvv,[4;7;5;7]); (n_rdm2'abab'vovv,[5;6;5;7]); (n_rdm2'abab'vvov,[5;7;4;7]); (n_rdm2'abab'vvvo,[5;7;5;6]); (n_rdm2'abab'vvvv,[5;7;5;7]); (n_rdm2'bbbb'oooo,[6;6;6;6]); (n_rdm2'bbbb'ooov,[6;6;6;7]); (n_rdm2'bbbb'oovo,[6;6;7;6]); (n_rdm2'bbbb'ovoo,[6;7;6;6]); (n_rdm2'bbbb'vooo,[7;6;6;6]); (n_rdm2'bbbb'oovv,[6;6;7;7]); (n_rdm2'bbbb'ovov,[6;7;6;7]); (n_rdm2'bbbb'ovvo,[6;7;7;6]); (n_rdm2'bbbb'voov,[7;6;6;7]); (n_rdm2'bbbb'vovo,[7;6;7;6]); (n_rdm2'bbbb'vvoo,[7;7;6;6]); (n_rdm2'bbbb'ovvv,[6;7;7;7]); (n_rdm2'bbbb'vovv,[7;6;7;7]); (n_rdm2'bbbb'vvov,[7;7;6;7]); (n_rdm2'bbbb'vvvo,[7;7;7;6]); (n_rdm2'bbbb'vvvv,[7;7;7;7])].

(** ebcc/codegen/UCCSD.py:2667-3095 [hbar_matvec_ip_intermediates] *)
Definition UCCSD_hbar_matvec_ip_intermediates : prog := mkprog
 [(n_v'bbbb'ovov,[6;7;6;7]); (n_t1'bb,[6;7]); (n_v'aabb'ovov,[4;5;6;7]); (n_t1'aa,[4;5]); (n_v'aaaa'ovov,[4;5;4;5]); (n_v'bbbb'ooov,[6;6;6;7]); (n_t2'bbbb,[6;6;7;7]); (n_v'bbbb'ovvv,[6;7;7;7]); (n_v'aabb'ooov,[4;4;6;7]); (n_t2'abab,[4;6;5;7]); (n_f'bb'ov,[6;7]); (n_v'aabb'ovoo,[4;5;6;6]); (n_v'aabb'ovvv,[4;5;7;7]); (n_v'aabb'vvov,[5;5;6;7]); (n_v'aaaa'ooov,[4;4;4;5]); (n_t2'aaaa,[4;4;5;5]); (n_f'aa'ov,[4;5]); (n_v'aaaa'ovvv,[4;5;5;5]); (n_v'bbbb'oovv,[6;6;7;7]); (n_v'bbbb'oooo,[6;6;6;6]); (n_v'aabb'oovv,[4;4;7;7]); (n_f'bb'vv,[7;7]); (n_f'bb'oo,[6;6]); (n_v'aabb'oooo,[4;4;6;6]); (n_v'aabb'vvoo,[5;5;6;6]); (n_v'aaaa'oovv,[4;4;5;5]); (n_v'aaaa'oooo,[4;4;4;4]); (n_f'aa'oo,[4;4]); (n_f'aa'vv,[5;5])]
 [(*2890*) Assign (T 38) (Plain (Einsum [(n_v'bbbb'ovov,[0;1;2;3]); (n_t1'bb,[4;3])] [4;0;2;1]));
  (*2891*) Assign (T 16) (Plain (Einsum [(n_v'aabb'ovov,[0;1;2;3]); (n_t1'aa,[0;1])] [2;3]));
  (*2892*) Assign (T 13) (Plain (Einsum [(n_v'bbbb'ovov,[0;1;2;3]); (n_t1'bb,[2;3])] [0;1]));
  (*2893*) Assign (T 12) (Plain (Einsum [(n_v'bbbb'ovov,[0;1;2;3]); (n_t1'bb,[2;1])] [0;3]));
  (*2894*) Assign (T 40) (Plain (Einsum [(n_t1'bb,[0;1]); (n_v'aabb'ovov,[2;3;4;1])] [2;0;4;3]));
  (*2895*) Assign (T 14) (Plain (Einsum [(n_v'aabb'ovov,[0;1;2;3]); (n_t1'bb,[2;3])] [0;1]));
  (*2896*) Assign (T 10) (Plain (Einsum [(n_t1'aa,[0;1]); (n_v'aaaa'ovov,[2;3;0;1])] [2;3]));
  (*2897*) Assign (T 8) (Plain (Einsum [(n_t1'aa,[0;1]); (n_v'aaaa'ovov,[2;1;0;3])] [2;3]));
  (*2898*) Assign (T 17) (Plain (Einsum [(n_t1'aa,[0;1]); (n_v'aaaa'ovov,[2;3;4;1])] [0;2;4;3]));
  (*2899*) Assign (T 430) (Plain (Einsum [(n_v'bbbb'ooov,[0;1;2;3]); (n_t1'bb,[4;3])] [4;0;1;2]));
  (*2900*) Assign (T 376) (Times (Einsum [(n_t2'bbbb,[0;1;2;3]); (n_v'bbbb'ovov,[4;3;5;2])] [0;1;4;5]) (-1) 1);
  (*2901*) Assign (T 370) (Plain (Einsum [(n_t1'bb,[0;1]); (T 38,[2;3;4;1])] [2;0;4;3]));
  (*2902*) Assign (T 319) (Plain (Einsum [(n_t1'bb,[0;1]); (n_v'bbbb'ovvv,[2;3;4;1])] [0;2;3;4]));
  (*2903*) Assign (T 48) (Plain (Einsum [(T 16,[0;1]); (n_t1'bb,[2;1])] [2;0]));
  (*2904*) Assign (T 47) (Plain (Einsum [(T 13,[0;1]); (n_t1'bb,[2;1])] [2;0]));
  (*2905*) Assign (T 46) (Plain (Einsum [(n_t1'bb,[0;1]); (T 12,[2;1])] [0;2]));
  (*2906*) Assign (T 234) (Plain (Einsum [(n_v'aabb'ooov,[0;1;2;3]); (n_t1'bb,[4;3])] [0;1;4;2]));
  (*2907*) Assign (T 44) (Plain (Einsum [(n_v'aabb'ovov,[0;1;2;3]); (n_t2'abab,[0;4;1;3])] [4;2]));
  (*2908*) Assign (T 42) (Times (Einsum [(n_t2'bbbb,[0;1;2;3]); (n_v'bbbb'ovov,[4;3;1;2])] [0;4]) (-1) 1);
  (*2909*) Assign (T 29) (Plain (Einsum [(n_t1'bb,[0;1]); (n_f'bb'ov,[2;1])] [2;0]));
  (*2910*) Assign (T 245) (Plain (Einsum [(n_t1'aa,[0;1]); (n_v'aabb'ovoo,[2;1;3;4])] [0;2;3;4]));
  (*2911*) Assign (T 19) (Plain (Einsum [(n_t1'aa,[0;1]); (n_v'aabb'ovov,[2;1;3;4])] [0;2;3;4]));
  (*2912*) Assign (T 231) (Plain (Einsum [(T 40,[0;1;2;3]); (n_t1'aa,[4;3])] [4;0;1;2]));
  (*2913*) Assign (T 320) (Plain (Einsum [(n_v'aabb'ovvv,[0;1;2;3]); (n_t1'bb,[4;3])] [0;4;1;2]));
  (*2914*) Assign (T 258) (Plain (Einsum [(n_v'aabb'ovvv,[0;1;2;3]); (n_t1'aa,[0;1])] [2;3]));
  (*2915*) Assign (T 257) (Plain (Einsum [(n_v'bbbb'ovvv,[0;1;2;3]); (n_t1'bb,[0;3])] [1;2]));
  (*2916*) Assign (T 256) (Plain (Einsum [(n_v'bbbb'ovvv,[0;1;2;3]); (n_t1'bb,[0;1])] [2;3]));
  (*2917*) Assign (T 34) (Plain (Einsum [(n_v'aabb'ovoo,[0;1;2;3]); (n_t1'aa,[0;1])] [2;3]));
  (*2918*) Assign (T 33) (Plain (Einsum [(n_t1'bb,[0;1]); (n_v'bbbb'ooov,[2;3;0;1])] [2;3]));
  (*2919*) Assign (T 32) (Plain (Einsum [(n_t1'bb,[0;1]); (n_v'bbbb'ooov,[2;0;3;1])] [2;3]));
  (*2920*) Assign (T 193) (Plain (Einsum [(n_v'aabb'ovov,[0;1;2;3]); (n_t2'abab,[4;5;1;3])] [4;0;5;2]));
  (*2921*) Assign (T 190) (Plain (Einsum [(n_v'aabb'vvov,[0;1;2;3]); (n_t1'bb,[4;3])] [4;2;0;1]));
  (*2922*) Assign (T 27) (Plain (Einsum [(n_t1'aa,[0;1]); (T 14,[2;1])] [0;2]));
  (*2923*) Assign (T 26) (Plain (Einsum [(T 10,[0;1]); (n_t1'aa,[2;1])] [2;0]));
  (*2924*) Assign (T 25) (Plain (Einsum [(T 8,[0;1]); (n_t1'aa,[2;1])] [2;0]));
  (*2925*) Assign (T 159) (Plain (Einsum [(n_v'aaaa'ooov,[0;1;2;3]); (n_t1'aa,[4;3])] [4;0;1;2]));
  (*2926*) Assign (T 23) (Plain (Einsum [(n_v'aabb'ovov,[0;1;2;3]); (n_t2'abab,[4;2;1;3])] [4;0]));
  (*2927*) Assign (T 21) (Plain (Einsum [(n_v'aaaa'ovov,[0;1;2;3]); (n_t2'aaaa,[4;2;1;3])] [4;0]));
  (*2928*) Assign (T 2) (Plain (Einsum [(n_t1'aa,[0;1]); (n_f'aa'ov,[2;1])] [2;0]));
  (*2929*) Assign (T 7) (Plain (Einsum [(n_t1'bb,[0;1]); (n_v'aabb'ooov,[2;3;0;1])] [2;3]));
  (*2930*) Assign (T 6) (Plain (Einsum [(n_v'aaaa'ooov,[0;1;2;3]); (n_t1'aa,[2;3])] [0;1]));
  (*2931*) Assign (T 5) (Plain (Einsum [(n_t1'aa,[0;1]); (n_v'aaaa'ooov,[2;0;3;1])] [2;3]));
  (*2932*) Assign (T 79) (Plain (Einsum [(n_t2'aaaa,[0;1;2;3]); (n_v'aaaa'ovov,[4;2;5;3])] [0;1;4;5]));
  (*2933*) Assign (T 73) (Plain (Einsum [(n_t1'aa,[0;1]); (T 17,[2;3;4;1])] [2;0;4;3]));
  (*2934*) Assign (T 62) (Plain (Einsum [(n_v'aaaa'ovvv,[0;1;2;3]); (n_t1'aa,[4;3])] [4;0;1;2]));
  (*2935*) Assign (T 58) (Plain (Einsum [(n_v'aabb'vvov,[0;1;2;3]); (n_t1'bb,[2;3])] [0;1]));
  (*2936*) Assign (T 56) (Plain (Einsum [(n_v'aaaa'ovvv,[0;1;2;3]); (n_t1'aa,[0;3])] [1;2]));
  (*2937*) Assign (T 54) (Plain (Einsum [(n_v'aaaa'ovvv,[0;1;2;3]); (n_t1'aa,[0;1])] [2;3]));
  (*2938*) Assign (T 442) (Plain (Einsum [(T 430,[0;1;2;3]); (n_t1'bb,[3;4])] [0;2;1;4]));
  (*2939*) Assign (T 440) (Plain (Einsum [(n_t1'bb,[0;1]); (T 430,[2;3;0;4])] [2;3;4;1]));
  (*2940*) Assign (T 438) (Plain (Einsum [(T 40,[0;1;2;3]); (n_t2'abab,[0;4;3;5])] [1;4;2;5]));
  (*2941*) Assign (T 436) (Plain (Einsum [(T 38,[0;1;2;3]); (n_t2'bbbb,[4;2;5;3])] [0;4;1;5]));
  (*2942*) Assign (T 434) (Plain (Einsum [(n_t2'bbbb,[0;1;2;3]); (T 38,[4;1;5;3])] [4;0;5;2]));
  (*2943*) Assign (T 428) (Plain (Einsum [(n_t1'bb,[0;1]); (n_v'bbbb'oovv,[2;3;4;1])] [0;2;3;4]));
  (*2944*) Assign (T 423) (Plain (Einsum [(T 16,[0;1]); (n_t2'bbbb,[2;3;4;1])] [2;3;0;4]));
  (*2945*) Assign (T 421) (Plain (Einsum [(T 13,[0;1]); (n_t2'bbbb,[2;3;4;1])] [2;3;0;4]));
  (*2946*) Assign (T 419) (Plain (Einsum [(T 12,[0;1]); (n_t2'bbbb,[2;3;4;1])] [2;3;0;4]));
  (*2947*) Assign (T 415) (Plain (Einsum [(n_f'bb'ov,[0;1]); (n_t2'bbbb,[2;3;4;1])] [0;2;3;4]));
  (*2948*) Assign (T 399) (Plain (Einsum [(n_v'aabb'ovoo,[0;1;2;3]); (n_t2'abab,[0;4;1;5])] [4;2;3;5]));
  (*2949*) Assign (T 397) (Plain (Einsum [(n_t2'bbbb,[0;1;2;3]); (n_v'bbbb'ooov,[4;5;1;3])] [0;4;5;2]));
  (*2950*) Assign (T 395) (Plain (Einsum [(n_t2'bbbb,[0;1;2;3]); (n_v'bbbb'ooov,[4;1;5;3])] [0;4;5;2]));
  (*2951*) Assign (T 384) (Plain (Einsum [(n_t1'bb,[0;1]); (n_v'bbbb'oooo,[2;3;4;0])] [2;3;4;1]));
  (*2952*) Assign (T 378) (Times (Einsum [(n_t1'bb,[0;1]); (T 376,[2;3;0;4])] [2;3;4;1]) (-1) 1);
  (*2953*) Assign (T 374) (Times (Einsum [(n_v'bbbb'ovvv,[0;1;2;3]); (n_t2'bbbb,[4;5;3;1])] [4;5;0;2]) (-1) 1);
  (*2954*) Assign (T 372) (Plain (Einsum [(n_t1'bb,[0;1]); (T 370,[2;3;0;4])] [3;2;4;1]));
  (*2955*) Assign (T 368) (Plain (Einsum [(n_t1'bb,[0;1]); (T 319,[2;3;1;4])] [0;2;3;4]));
  (*2956*) Assign (T 357) (Plain (Einsum [(n_t1'bb,[0;1]); (T 48,[2;0])] [2;1]));
  (*2957*) Assign (T 356) (Plain (Einsum [(n_t1'bb,[0;1]); (T 47,[2;0])] [2;1]));
  (*2958*) Assign (T 355) (Plain (Einsum [(n_t1'bb,[0;1]); (T 46,[2;0])] [2;1]));
  (*2959*) Assign (T 350) (Plain (Einsum [(n_t1'bb,[0;1]); (T 234,[2;3;4;0])] [3;2;4;1]));
  (*2960*) Assign (T 349) (Plain (Einsum [(n_t1'bb,[0;1]); (T 44,[2;0])] [2;1]));
  (*2961*) Assign (T 348) (Plain (Einsum [(n_t1'bb,[0;1]); (T 42,[2;0])] [2;1]));
  (*2962*) Assign (T 347) (Plain (Einsum [(T 40,[0;1;2;3]); (n_t2'abab,[4;2;3;5])] [4;0;1;5]));
  (*2963*) Assign (T 346) (Plain (Einsum [(T 40,[0;1;2;3]); (n_t2'abab,[0;2;3;4])] [1;4]));
  (*2964*) Assign (T 345) (Plain (Einsum [(n_t2'bbbb,[0;1;2;3]); (T 38,[4;1;0;3])] [4;2]));
  (*2965*) Assign (T 341) (Plain (Einsum [(n_v'aabb'oovv,[0;1;2;3]); (n_t1'bb,[4;3])] [0;1;4;2]));
  (*2966*) Assign (T 340) (Plain (Einsum [(n_t1'bb,[0;1]); (T 29,[0;2])] [2;1]));
  (*2967*) Assign (T 338) (Plain (Einsum [(n_t1'bb,[0;1]); (T 245,[2;3;4;0])] [2;3;4;1]));
  (*2968*) Assign (T 336) (Plain (Einsum [(T 19,[0;1;2;3]); (n_t2'bbbb,[4;2;5;3])] [0;1;4;5]));
  (*2969*) Assign (T 335) (Plain (Einsum [(n_t2'abab,[0;1;2;3]); (T 17,[4;5;0;2])] [4;5;1;3]));
  (*2970*) Assign (T 334) (Plain (Einsum [(n_t2'abab,[0;1;2;3]); (T 17,[4;0;5;2])] [4;5;1;3]));
  (*2971*) Assign (T 330) (Plain (Einsum [(n_v'bbbb'oovv,[0;1;2;3]); (n_t1'bb,[1;3])] [0;2]));
  (*2972*) Assign (T 329) (Plain (Einsum [(n_t1'bb,[0;1]); (T 231,[2;3;4;0])] [2;3;4;1]));
  (*2973*) Assign (T 327) (Plain (Einsum [(n_t1'aa,[0;1]); (T 320,[2;3;1;4])] [0;2;3;4]));
  (*2974*) Assign (T 326) (Plain (Einsum [(T 258,[0;1]); (n_t1'bb,[2;1])] [2;0]));
  (*2975*) Assign (T 325) (Plain (Einsum [(n_t1'bb,[0;1]); (T 257,[1;2])] [0;2]));
  (*2976*) Assign (T 324) (Plain (Einsum [(T 256,[0;1]); (n_t1'bb,[2;1])] [2;0]));
  (*2977*) Assign (T 323) (Plain (Einsum [(n_v'aabb'ovvv,[0;1;2;3]); (n_t2'abab,[0;4;1;3])] [4;2]));
  (*2978*) Assign (T 322) (Times (Einsum [(n_v'bbbb'ovvv,[0;1;2;3]); (n_t2'bbbb,[4;0;3;1])] [4;2]) (-1) 1);
  (*2979*) Assign (T 318) (Plain (Einsum [(n_t1'bb,[0;1]); (n_v'bbbb'ovvv,[2;1;3;4])] [0;2;3;4]));
  (*2980*) Assign (T 317) (Plain (Einsum [(n_t1'bb,[0;1]); (n_f'bb'vv,[2;1])] [0;2]));
  (*2981*) Assign (T 313) (Plain (Einsum [(n_t1'bb,[0;1]); (T 34,[2;0])] [2;1]));
  (*2982*) Assign (T 312) (Plain (Einsum [(n_t1'bb,[0;1]); (T 33,[2;0])] [2;1]));
  (*2983*) Assign (T 311) (Plain (Einsum [(n_t1'bb,[0;1]); (T 32,[2;0])] [2;1]));
  (*2984*) Assign (T 310) (Plain (Einsum [(T 14,[0;1]); (n_t2'abab,[2;3;1;4])] [2;0;3;4]));
  (*2985*) Assign (T 309) (Plain (Einsum [(T 10,[0;1]); (n_t2'abab,[2;3;1;4])] [2;0;3;4]));
  (*2986*) Assign (T 308) (Plain (Einsum [(T 8,[0;1]); (n_t2'abab,[2;3;1;4])] [2;0;3;4]));
  (*2987*) Assign (T 305) (Plain (Einsum [(n_v'aabb'ovov,[0;1;2;3]); (n_t2'abab,[4;2;1;5])] [4;0;5;3]));
  (*2988*) Assign (T 303) (Plain (Einsum [(n_v'aabb'ovov,[0;1;2;3]); (n_t2'abab,[0;2;1;4])] [4;3]));
  (*2989*) Assign (T 301) (Plain (Einsum [(n_v'bbbb'ovov,[0;1;2;3]); (n_t2'bbbb,[0;2;4;3])] [4;1]));
  (*2990*) Assign (T 300) (Plain (Einsum [(n_v'aabb'ovoo,[0;1;2;3]); (n_t2'abab,[4;3;1;5])] [4;0;2;5]));
  (*2991*) Assign (T 299) (Plain (Einsum [(n_v'aabb'ovoo,[0;1;2;3]); (n_t2'abab,[0;3;1;4])] [2;4]));
  (*2992*) Assign (T 298) (Plain (Einsum [(n_t2'bbbb,[0;1;2;3]); (n_v'bbbb'ooov,[4;0;1;3])] [4;2]));
  (*2993*) Assign (T 293) (Plain (Einsum [(n_t2'abab,[0;1;2;3]); (n_f'aa'ov,[4;2])] [4;0;1;3]));
  (*2994*) Assign (T 291) (Plain (Einsum [(n_t1'bb,[0;1]); (n_f'bb'oo,[2;0])] [2;1]));
  (*2995*) Assign (T 290) (Plain (Einsum [(T 16,[0;1]); (n_t2'bbbb,[2;0;3;1])] [2;3]));
  (*2996*) Assign (T 289) (Plain (Einsum [(T 14,[0;1]); (n_t2'abab,[0;2;1;3])] [2;3]));
  (*2997*) Assign (T 288) (Plain (Einsum [(T 13,[0;1]); (n_t2'bbbb,[2;0;3;1])] [2;3]));
  (*2998*) Assign (T 287) (Plain (Einsum [(T 12,[0;1]); (n_t2'bbbb,[2;0;3;1])] [2;3]));
  (*2999*) Assign (T 286) (Plain (Einsum [(T 10,[0;1]); (n_t2'abab,[0;2;1;3])] [2;3]));
  (*3000*) Assign (T 285) (Plain (Einsum [(T 8,[0;1]); (n_t2'abab,[0;2;1;3])] [2;3]));
  (*3001*) Assign (T 284) (Plain (Einsum [(n_v'aabb'ovov,[0;1;2;3]); (n_t2'abab,[0;4;1;5])] [4;2;5;3]));
  (*3002*) Assign (T 282) (Plain (Einsum [(n_v'aabb'ovov,[0;1;2;3]); (n_t2'bbbb,[4;2;5;3])] [0;4;1;5]));
  (*3003*) Assign (T 280) (Plain (Einsum [(n_t2'bbbb,[0;1;2;3]); (n_v'bbbb'ovov,[4;5;1;3])] [0;4;2;5]));
  (*3004*) Assign (T 278) (Plain (Einsum [(n_t2'bbbb,[0;1;2;3]); (n_v'bbbb'ovov,[4;3;1;5])] [0;4;2;5]));
  (*3005*) Assign (T 276) (Plain (Einsum [(n_v'aaaa'ovov,[0;1;2;3]); (n_t2'abab,[2;4;3;5])] [0;4;1;5]));
  (*3006*) Assign (T 274) (Plain (Einsum [(n_v'aaaa'ovov,[0;1;2;3]); (n_t2'abab,[2;4;1;5])] [0;4;3;5]));
  (*3007*) Assign (T 272) (Plain (Einsum [(n_v'aabb'ooov,[0;1;2;3]); (n_t2'bbbb,[4;2;5;3])] [0;1;4;5]));
  (*3008*) Assign (T 271) (Plain (Einsum [(n_v'aaaa'ooov,[0;1;2;3]); (n_t2'abab,[2;4;3;5])] [0;1;4;5]));
  (*3009*) Assign (T 270) (Plain (Einsum [(n_t2'abab,[0;1;2;3]); (n_v'aaaa'ooov,[4;0;5;2])] [4;5;1;3]));
  (*3010*) Assign (T 268) (Plain (Einsum [(n_t1'bb,[0;1]); (n_v'aabb'oooo,[2;3;4;0])] [2;3;4;1]));
  (*3011*) Assign (T 266) (Plain (Einsum [(n_f'bb'ov,[0;1]); (n_t2'bbbb,[2;0;3;1])] [2;3]));
  (*3012*) Assign (T 265) (Plain (Einsum [(n_f'aa'ov,[0;1]); (n_t2'abab,[0;2;1;3])] [2;3]));
  (*3013*) Assign (T 263) (Plain (Einsum [(n_t1'bb,[0;1]); (T 193,[2;3;4;0])] [2;3;4;1]));
  (*3014*) Assign (T 260) (Plain (Einsum [(n_v'aabb'ovvv,[0;1;2;3]); (n_t2'abab,[4;5;1;3])] [4;0;5;2]));
  (*3015*) Assign (T 259) (Plain (Einsum [(n_t1'aa,[0;1]); (n_v'aabb'ovvv,[2;1;3;4])] [0;2;3;4]));
  (*3016*) Assign (T 250) (Plain (Einsum [(n_t1'aa,[0;1]); (T 245,[2;0;3;4])] [2;4;3;1]));
  (*3017*) Assign (T 249) (Plain (Einsum [(n_t2'abab,[0;1;2;3]); (T 19,[4;0;5;3])] [4;1;5;2]));
  (*3018*) Assign (T 244) (Plain (Einsum [(n_t1'aa,[0;1]); (n_v'aabb'vvoo,[2;1;3;4])] [0;3;4;2]));
  (*3019*) Assign (T 242) (Plain (Einsum [(n_t1'aa,[0;1]); (T 234,[2;0;3;4])] [2;3;4;1]));
  (*3020*) Assign (T 240) (Plain (Einsum [(T 40,[0;1;2;3]); (n_t2'aaaa,[4;0;5;3])] [4;1;2;5]));
  (*3021*) Assign (T 239) (Plain (Einsum [(T 38,[0;1;2;3]); (n_t2'abab,[4;2;5;3])] [4;0;1;5]));
  (*3022*) Assign (T 238) (Plain (Einsum [(n_t2'abab,[0;1;2;3]); (T 38,[4;1;5;3])] [0;4;5;2]));
  (*3023*) Assign (T 233) (Plain (Einsum [(n_t1'aa,[0;1]); (T 231,[2;0;3;4])] [2;3;4;1]));
  (*3024*) Assign (T 230) (Plain (Einsum [(n_t1'aa,[0;1]); (T 190,[2;3;4;1])] [0;2;3;4]));
  (*3025*) Assign (T 225) (Plain (Einsum [(T 16,[0;1]); (n_t2'abab,[2;3;4;1])] [2;3;0;4]));
  (*3026*) Assign (T 224) (Plain (Einsum [(T 13,[0;1]); (n_t2'abab,[2;3;4;1])] [2;3;0;4]));
  (*3027*) Assign (T 223) (Plain (Einsum [(T 12,[0;1]); (n_t2'abab,[2;3;4;1])] [2;3;0;4]));
  (*3028*) Assign (T 218) (Plain (Einsum [(n_v'aabb'ovov,[0;1;2;3]); (n_t2'abab,[0;4;5;3])] [4;2;5;1]));
  (*3029*) Assign (T 215) (Plain (Einsum [(n_v'aabb'ooov,[0;1;2;3]); (n_t2'abab,[1;4;5;3])] [0;4;2;5]));
  (*3030*) Assign (T 210) (Plain (Einsum [(n_f'bb'ov,[0;1]); (n_t2'abab,[2;3;4;1])] [2;0;3;4]));
  (*3031*) Assign (T 202) (Plain (Einsum [(n_t2'aaaa,[0;1;2;3]); (n_v'aabb'ovoo,[1;3;4;5])] [0;4;5;2]));
  (*3032*) Assign (T 201) (Plain (Einsum [(n_t2'abab,[0;1;2;3]); (n_v'bbbb'ooov,[4;5;1;3])] [0;4;5;2]));
  (*3033*) Assign (T 200) (Plain (Einsum [(n_t2'abab,[0;1;2;3]); (n_v'bbbb'ooov,[4;1;5;3])] [0;4;5;2]));
  (*3034*) Assign (T 198) (Plain (Einsum [(n_t1'aa,[0;1]); (n_v'aabb'oooo,[2;0;3;4])] [2;3;4;1]));
  (*3035*) Assign (T 195) (Plain (Einsum [(n_t1'aa,[0;1]); (T 193,[2;0;3;4])] [2;3;4;1]));
  (*3036*) Assign (T 191) (Plain (Einsum [(n_v'aabb'vvov,[0;1;2;3]); (n_t2'abab,[4;5;1;3])] [4;5;2;0]));
  (*3037*) Assign (T 188) (Plain (Einsum [(n_t1'aa,[0;1]); (T 27,[2;0])] [2;1]));
  (*3038*) Assign (T 187) (Plain (Einsum [(T 26,[0;1]); (n_t1'aa,[1;2])] [0;2]));
  (*3039*) Assign (T 186) (Plain (Einsum [(n_t1'aa,[0;1]); (T 25,[2;0])] [2;1]));
  (*3040*) Assign (T 175) (Plain (Einsum [(n_t1'aa,[0;1]); (T 159,[2;3;4;0])] [2;4;3;1]));
  (*3041*) Assign (T 173) (Plain (Einsum [(n_t1'aa,[0;1]); (T 159,[2;3;0;4])] [2;3;4;1]));
  (*3042*) Assign (T 172) (Plain (Einsum [(n_t1'aa,[0;1]); (T 23,[2;0])] [2;1]));
  (*3043*) Assign (T 171) (Plain (Einsum [(n_t1'aa,[0;1]); (T 21,[2;0])] [2;1]));
  (*3044*) Assign (T 169) (Plain (Einsum [(T 19,[0;1;2;3]); (n_t2'abab,[4;2;5;3])] [0;4;1;5]));
  (*3045*) Assign (T 167) (Plain (Einsum [(n_t2'aaaa,[0;1;2;3]); (T 17,[4;5;1;3])] [4;0;5;2]));
  (*3046*) Assign (T 165) (Plain (Einsum [(n_t2'aaaa,[0;1;2;3]); (T 17,[4;1;5;3])] [4;0;5;2]));
  (*3047*) Assign (T 164) (Plain (Einsum [(n_t2'abab,[0;1;2;3]); (T 19,[4;0;1;3])] [4;2]));
  (*3048*) Assign (T 163) (Times (Einsum [(n_t2'aaaa,[0;1;2;3]); (T 17,[4;0;1;3])] [4;2]) (-1) 1);
  (*3049*) Assign (T 157) (Plain (Einsum [(n_t1'aa,[0;1]); (n_v'aaaa'oovv,[2;3;4;1])] [0;2;3;4]));
  (*3050*) Assign (T 156) (Plain (Einsum [(n_t1'aa,[0;1]); (n_v'aaaa'oovv,[2;0;3;1])] [2;3]));
  (*3051*) Assign (T 153) (Plain (Einsum [(n_t1'aa,[0;1]); (T 2,[0;2])] [2;1]));
  (*3052*) Assign (T 150) (Plain (Einsum [(T 14,[0;1]); (n_t2'aaaa,[2;3;4;1])] [2;3;0;4]));
  (*3053*) Assign (T 148) (Plain (Einsum [(T 10,[0;1]); (n_t2'aaaa,[2;3;4;1])] [2;3;0;4]));
  (*3054*) Assign (T 146) (Plain (Einsum [(T 8,[0;1]); (n_t2'aaaa,[2;3;4;1])] [2;3;0;4]));
  (*3055*) Assign (T 140) (Plain (Einsum [(n_f'aa'ov,[0;1]); (n_t2'aaaa,[2;3;4;1])] [0;2;3;4]));
  (*3056*) Assign (T 133) (Plain (Einsum [(n_t1'aa,[0;1]); (T 7,[2;0])] [2;1]));
  (*3057*) Assign (T 132) (Plain (Einsum [(n_t1'aa,[0;1]); (T 6,[2;0])] [2;1]));
  (*3058*) Assign (T 131) (Plain (Einsum [(n_t1'aa,[0;1]); (T 5,[2;0])] [2;1]));
  (*3059*) Assign (T 130) (Plain (Einsum [(T 16,[0;1]); (n_t2'abab,[2;0;3;1])] [2;3]));
  (*3060*) Assign (T 129) (Plain (Einsum [(T 14,[0;1]); (n_t2'aaaa,[2;0;3;1])] [2;3]));
  (*3061*) Assign (T 128) (Plain (Einsum [(T 13,[0;1]); (n_t2'abab,[2;0;3;1])] [2;3]));
  (*3062*) Assign (T 127) (Plain (Einsum [(T 12,[0;1]); (n_t2'abab,[2;0;3;1])] [2;3]));
  (*3063*) Assign (T 126) (Plain (Einsum [(n_t2'aaaa,[0;1;2;3]); (T 10,[1;3])] [0;2]));
  (*3064*) Assign (T 125) (Plain (Einsum [(T 8,[0;1]); (n_t2'aaaa,[2;0;3;1])] [2;3]));
  (*3065*) Assign (T 123) (Plain (Einsum [(n_t2'aaaa,[0;1;2;3]); (n_v'aabb'ovov,[1;3;4;5])] [0;4;2;5]));
  (*3066*) Assign (T 121) (Plain (Einsum [(n_v'aabb'ovov,[0;1;2;3]); (n_t2'abab,[4;2;5;3])] [4;0;5;1]));
  (*3067*) Assign (T 119) (Plain (Einsum [(n_v'bbbb'ovov,[0;1;2;3]); (n_t2'abab,[4;2;5;3])] [4;0;5;1]));
  (*3068*) Assign (T 117) (Plain (Einsum [(n_v'bbbb'ovov,[0;1;2;3]); (n_t2'abab,[4;2;5;1])] [4;0;5;3]));
  (*3069*) Assign (T 115) (Plain (Einsum [(n_v'aaaa'ovov,[0;1;2;3]); (n_t2'aaaa,[4;2;5;3])] [4;0;5;1]));
  (*3070*) Assign (T 113) (Plain (Einsum [(n_v'aaaa'ovov,[0;1;2;3]); (n_t2'aaaa,[4;2;5;1])] [4;0;5;3]));
  (*3071*) Assign (T 111) (Plain (Einsum [(n_v'aabb'ovov,[0;1;2;3]); (n_t2'abab,[0;2;4;3])] [4;1]));
  (*3072*) Assign (T 109) (Times (Einsum [(n_t2'aaaa,[0;1;2;3]); (n_v'aaaa'ovov,[0;3;1;4])] [2;4]) (-1) 1);
  (*3073*) Assign (T 107) (Plain (Einsum [(n_v'aabb'ooov,[0;1;2;3]); (n_t2'abab,[4;2;5;3])] [4;0;1;5]));
  (*3074*) Assign (T 105) (Plain (Einsum [(n_v'aaaa'ooov,[0;1;2;3]); (n_t2'aaaa,[4;2;5;3])] [4;0;1;5]));
  (*3075*) Assign (T 103) (Plain (Einsum [(n_v'aaaa'ooov,[0;1;2;3]); (n_t2'aaaa,[4;1;5;3])] [4;0;2;5]));
  (*3076*) Assign (T 102) (Plain (Einsum [(n_t2'abab,[0;1;2;3]); (n_v'aabb'ooov,[4;0;1;3])] [4;2]));
  (*3077*) Assign (T 101) (Times (Einsum [(n_t2'aaaa,[0;1;2;3]); (n_v'aaaa'ooov,[4;1;0;3])] [4;2]) (-1) 1);
  (*3078*) Assign (T 90) (Plain (Einsum [(n_t1'aa,[0;1]); (n_v'aaaa'oooo,[2;3;4;0])] [2;3;4;1]));
  (*3079*) Assign (T 88) (Plain (Einsum [(n_f'bb'ov,[0;1]); (n_t2'abab,[2;0;3;1])] [2;3]));
  (*3080*) Assign (T 87) (Plain (Einsum [(n_f'aa'ov,[0;1]); (n_t2'aaaa,[2;0;3;1])] [2;3]));
  (*3081*) Assign (T 84) (Plain (Einsum [(n_t1'aa,[0;1]); (n_f'aa'oo,[2;0])] [2;1]));
  (*3082*) Assign (T 81) (Times (Einsum [(n_t1'aa,[0;1]); (T 79,[2;3;0;4])] [2;3;4;1]) (-1) 1);
  (*3083*) Assign (T 77) (Plain (Einsum [(n_v'aaaa'ovvv,[0;1;2;3]); (n_t2'aaaa,[4;5;1;3])] [4;5;0;2]));
  (*3084*) Assign (T 75) (Plain (Einsum [(T 73,[0;1;2;3]); (n_t1'aa,[2;4])] [1;0;3;4]));
  (*3085*) Assign (T 71) (Plain (Einsum [(n_t1'aa,[0;1]); (T 62,[2;3;1;4])] [0;2;3;4]));
  (*3086*) Assign (T 70) (Plain (Einsum [(n_t1'aa,[0;1]); (T 58,[2;1])] [0;2]));
  (*3087*) Assign (T 69) (Plain (Einsum [(T 56,[0;1]); (n_t1'aa,[2;0])] [2;1]));
  (*3088*) Assign (T 68) (Plain (Einsum [(n_t1'aa,[0;1]); (T 54,[2;1])] [0;2]));
  (*3089*) Assign (T 67) (Plain (Einsum [(n_t2'abab,[0;1;2;3]); (n_v'aabb'vvov,[4;2;1;3])] [0;4]));
  (*3090*) Assign (T 66) (Plain (Einsum [(n_v'aaaa'ovvv,[0;1;2;3]); (n_t2'aaaa,[4;0;1;3])] [4;2]));
  (*3091*) Assign (T 64) (Plain (Einsum [(n_t1'aa,[0;1]); (n_v'aabb'vvov,[2;1;3;4])] [0;3;2;4]));
  (*3092*) Assign (T 60) (Plain (Einsum [(n_v'aaaa'ovvv,[0;1;2;3]); (n_t1'aa,[4;1])] [4;0;2;3]));
  (*3093*) Assign (T 50) (Plain (Einsum [(n_t1'aa,[0;1]); (n_f'aa'vv,[2;1])] [0;2]))]
 [(T 2,[4;4]); (T 101,[4;5]); (T 102,[4;5]); (T 103,[4;4;4;5]); (T 105,[4;4;4;5]); (T 107,[4;4;4;5]); (T 109,[5;5]); (T 12,[6;7]); (T 111,[5;5]); (T 113,[4;4;5;5]); (T 115,[4;4;5;5]); (T 117,[4;6;5;7]); (T 119,[4;6;5;7]); (T 13,[6;7]); (T 121,[4;4;5;5]); (T 123,[4;6;5;7]); (T 125,[4;5]); (T 126,[4;5]); (T 127,[4;5]); (T 128,[4;5]); (T 129,[4;5]); (T 130,[4;5]); (T 14,[4;5]); (T 131,[4;5]); (T 132,[4;5]); (T 133,[4;5]); (T 140,[4;4;4;5]); (T 146,[4;4;4;5]); (T 148,[4;4;4;5]); (T 150,[4;4;4;5]); (T 16,[6;7]); (T 153,[4;5]); (T 156,[4;5]); (T 157,[4;4;4;5]); (T 159,[4;4;4;4]); (T 17,[4;4;4;5]); (T 163,[4;5]); (T 164,[4;5]); (T 165,[4;4;4;5]); (T 167,[4;4;4;5]); (T 169,[4;4;4;5]); (T 171,[4;5]); (T 172,[4;5]); (T 173,[4;4;4;5]); (T 175,[4;4;4;5]); (T 19,[4;4;6;7]); (T 186,[4;5]); (T 187,[4;5]); (T 188,[4;5]); (T 190,[6;6;5;5]); (T 191,[4;6;6;5]); (T 193,[4;4;6;6]); (T 195,[4;6;6;5]); (T 198,[4;6;6;5]); (T 200,[4;6;6;5]); (T 21,[4;4]); (T 201,[4;6;6;5]); (T 202,[4;6;6;5]); (T 210,[4;6;6;5]); (T 215,[4;6;6;5]); (T 218,[6;6;5;5]); (T 23,[4;4]); (T 223,[4;6;6;5]); (T 224,[4;6;6;5]); (T 225,[4;6;6;5]); (T 230,[4;6;6;5]); (T 231,[4;4;6;6]); (T 233,[4;6;6;5]); (T 234,[4;4;6;6]); (T 238,[4;6;6;5]); (T 239,[4;6;6;5]); (T 240,[4;6;6;5]); (T 25,[4;4]); (T 242,[4;6;6;5]); (T 244,[4;6;6;5]); (T 245,[4;4;6;6]); (T 249,[4;6;6;5]); (T 250,[4;6;6;5]); (T 26,[4;4]); (T 256,[7;7]); (T 257,[7;7]); (T 258,[7;7]); (T 259,[4;4;7;7]); (T 260,[4;4;6;7]); (T 27,[4;4]); (T 263,[4;4;6;7]); (T 265,[6;7]); (T 266,[6;7]); (T 268,[4;4;6;7]); (T 270,[4;4;6;7]); (T 271,[4;4;6;7]); (T 272,[4;4;6;7]); (T 274,[4;6;5;7]); (T 276,[4;6;5;7]); (T 278,[6;6;7;7]); (T 280,[6;6;7;7]); (T 29,[6;6]); (T 282,[4;6;5;7]); (T 284,[6;6;7;7]); (T 285,[6;7]); (T 286,[6;7]); (T 287,[6;7]); (T 288,[6;7]); (T 289,[6;7]); (T 290,[6;7]); (T 291,[6;7]); (T 293,[4;4;6;7]); (T 298,[6;7]); (T 299,[6;7]); (T 300,[4;4;6;7]); (T 301,[7;7]); (T 303,[7;7]); (T 305,[4;4;7;7]); (T 308,[4;4;6;7]); (T 309,[4;4;6;7]); (T 310,[4;4;6;7]); (T 32,[6;6]); (T 311,[6;7]); (T 312,[6;7]); (T 313,[6;7]); (T 317,[6;7]); (T 318,[6;6;7;7]); (T 319,[6;6;7;7]); (T 320,[4;6;5;7]); (T 33,[6;6]); (T 322,[6;7]); (T 323,[6;7]); (T 324,[6;7]); (T 325,[6;7]); (T 326,[6;7]); (T 327,[4;4;6;7]); (T 329,[4;4;6;7]); (T 330,[6;7]); (T 34,[6;6]); (T 334,[4;4;6;7]); (T 335,[4;4;6;7]); (T 336,[4;4;6;7]); (T 338,[4;4;6;7]); (T 340,[6;7]); (T 341,[4;4;6;7]); (T 345,[6;7]); (T 346,[6;7]); (T 347,[4;4;6;7]); (T 348,[6;7]); (T 349,[6;7]); (T 350,[4;4;6;7]); (T 355,[6;7]); (T 356,[6;7]); (T 357,[6;7]); (T 368,[6;6;6;7]); (T 370,[6;6;6;6]); (T 38,[6;6;6;7]); (T 372,[6;6;6;7]); (T 374,[6;6;6;7]); (T 376,[6;6;6;6]); (T 378,[6;6;6;7]); (T 384,[6;6;6;7]); (T 40,[4;6;6;5]); (T 395,[6;6;6;7]); (T 397,[6;6;6;7]); (T 399,[6;6;6;7]); (T 5,[4;4]); (T 42,[6;6]); (T 415,[6;6;6;7]); (T 419,[6;6;6;7]); (T 421,[6;6;6;7]); (T 423,[6;6;6;7]); (T 428,[6;6;6;7]); (T 430,[6;6;6;6]); (T 44,[6;6]); (T 434,[6;6;6;7]); (T 436,[6;6;6;7]); (T 438,[6;6;6;7]); (T 440,[6;6;6;7]); (T 442,[6;6;6;7]); (T 46,[6;6]); (T 47,[6;6]); (T 48,[6;6]); (T 50,[4;5]); (T 6,[4;4]); (T 54,[5;5]); (T 56,[5;5]); (T 58,[5;5]); (T 60,[4;4;5;5]); (T 7,[4;4]); (T 62,[4;4;5;5]); (T 64,[4;6;5;7]); (T 66,[4;5]); (T 67,[4;5]); (T 68,[4;5]); (T 69,[4;5]); (T 70,[4;5]); (T 8,[4;5]); (T 71,[4;4;4;5]); (T 73,[4;4;4;4]); (T 75,[4;4;4;5]); (T 77,[4;4;4;5]); (T 79,[4;4;4;4]); (T 81,[4;4;4;5]); (T 84,[4;5]); (T 87,[4;5]); (T 88,[4;5]); (T 90,[4;4;4;5]); (T 10,[4;5])].

(** ebcc/codegen/UCCSD.py:3097-3662 [hbar_matvec_ip] *)
Definition UCCSD_hbar_matvec_ip : prog := mkprog
 [(IT 38,[6;6;6;7]); (n_v'bbbb'ooov,[6;6;6;7]); (n_v'bbbb'ovoo,[6;7;6;6]); (IT 17,[4;4;4;5]); (n_v'aaaa'ooov,[4;4;4;5]); (n_r2'aba,[4;6;5]); (IT 40,[4;6;6;5]); (n_v'aabb'ovoo,[4;5;6;6]); (n_r2'bbb,[6;6;7]); (n_r2'aaa,[4;4;5]); (n_v'aabb'ooov,[4;4;6;7]); (n_r2'bab,[6;4;7]); (IT 19,[4;4;6;7]); (n_f'bb'ov,[6;7]); (IT 13,[6;7]); (IT 16,[6;7]); (IT 12,[6;7]); (IT 368,[6;6;6;7]); (IT 395,[6;6;6;7]); (IT 434,[6;6;6;7]); (IT 438,[6;6;6;7]); (IT 442,[6;6;6;7]); (IT 42,[6;6]); (IT 44,[6;6]); (IT 32,[6;6]); (IT 46,[6;6]); (IT 280,[6;6;7;7]); (IT 284,[6;6;7;7]); (IT 319,[6;6;7;7]); (IT 372,[6;6;6;7]); (IT 384,[6;6;6;7]); (IT 399,[6;6;6;7]); (IT 428,[6;6;6;7]); (IT 440,[6;6;6;7]); (IT 397,[6;6;6;7]); (IT 436,[6;6;6;7]); (IT 276,[4;6;5;7]); (IT 320,[4;6;5;7]); (IT 282,[4;6;5;7]); (n_f'bb'oo,[6;6]); (IT 29,[6;6]); (IT 33,[6;6]); (IT 34,[6;6]); (IT 47,[6;6]); (IT 48,[6;6]); (IT 318,[6;6;7;7]); (IT 278,[6;6;7;7]); (n_f'aa'ov,[4;5]); (IT 14,[4;5]); (IT 10,[4;5]); (IT 8,[4;5]); (n_f'aa'oo,[4;4]); (IT 2,[4;4]); (IT 26,[4;4]); (IT 27,[4;4]); (IT 6,[4;4]); (IT 7,[4;4]); (IT 60,[4;4;5;5]); (IT 113,[4;4;5;5]); (IT 107,[4;4;4;5]); (IT 157,[4;4;4;5]); (IT 173,[4;4;4;5]); (IT 75,[4;4;4;5]); (IT 90,[4;4;4;5]); (IT 105,[4;4;4;5]); (IT 167,[4;4;4;5]); (IT 115,[4;4;5;5]); (IT 121,[4;4;5;5]); (IT 62,[4;4;5;5]); (IT 119,[4;6;5;7]); (IT 123,[4;6;5;7]); (IT 64,[4;6;5;7]); (IT 21,[4;4]); (IT 23,[4;4]); (IT 25,[4;4]); (IT 5,[4;4]); (IT 103,[4;4;4;5]); (IT 165,[4;4;4;5]); (IT 169,[4;4;4;5]); (IT 175,[4;4;4;5]); (IT 71,[4;4;4;5]); (n_t1'bb,[6;7]); (n_v'aabb'ovov,[4;5;6;7]); (n_v'bbbb'oovv,[6;6;7;7]); (n_r1'b,[6]); (IT 274,[4;6;5;7]); (IT 430,[6;6;6;6]); (n_v'bbbb'ovov,[6;7;6;7]); (n_v'aaaa'ovov,[4;5;4;5]); (n_t1'aa,[4;5]); (IT 117,[4;6;5;7]); (n_r1'a,[4]); (IT 159,[4;4;4;4]); (n_v'aaaa'oovv,[4;4;5;5]); (IT 378,[6;6;6;7]); (IT 415,[6;6;6;7]); (IT 421,[6;6;6;7]); (IT 423,[6;6;6;7]); (IT 374,[6;6;6;7]); (IT 419,[6;6;6;7]); (IT 257,[7;7]); (IT 301,[7;7]); (IT 303,[7;7]); (n_f'bb'vv,[7;7]); (IT 256,[7;7]); (IT 258,[7;7]); (IT 370,[6;6;6;6]); (IT 376,[6;6;6;6]); (n_v'bbbb'oooo,[6;6;6;6]); (IT 285,[6;7]); (IT 287,[6;7]); (IT 291,[6;7]); (IT 298,[6;7]); (IT 299,[6;7]); (IT 312,[6;7]); (IT 313,[6;7]); (IT 322,[6;7]); (IT 325,[6;7]); (IT 330,[6;7]); (IT 340,[6;7]); (IT 345,[6;7]); (IT 346,[6;7]); (IT 348,[6;7]); (IT 349,[6;7]); (IT 356,[6;7]); (IT 357,[6;7]); (IT 265,[6;7]); (IT 266,[6;7]); (IT 286,[6;7]); (IT 288,[6;7]); (IT 289,[6;7]); (IT 290,[6;7]); (IT 311,[6;7]); (IT 317,[6;7]); (IT 323,[6;7]); (IT 324,[6;7]); (IT 326,[6;7]); (IT 355,[6;7]); (IT 259,[4;4;7;7]); (n_v'aabb'oovv,[4;4;7;7]); (IT 305,[4;4;7;7]); (IT 260,[4;4;6;7]); (IT 271,[4;4;6;7]); (IT 272,[4;4;6;7]); (IT 293,[4;4;6;7]); (IT 309,[4;4;6;7]); (IT 310,[4;4;6;7]); (IT 327,[4;4;6;7]); (IT 334,[4;4;6;7]); (IT 336,[4;4;6;7]); (IT 341,[4;4;6;7]); (IT 263,[4;4;6;7]); (IT 268,[4;4;6;7]); (IT 270,[4;4;6;7]); (IT 300,[4;4;6;7]); (IT 308,[4;4;6;7]); (IT 329,[4;4;6;7]); (IT 335,[4;4;6;7]); (IT 338,[4;4;6;7]); (IT 347,[4;4;6;7]); (IT 350,[4;4;6;7]); (IT 193,[4;4;6;6]); (IT 231,[4;4;6;6]); (IT 234,[4;4;6;6]); (IT 245,[4;4;6;6]); (n_v'aabb'oooo,[4;4;6;6]); (IT 109,[5;5]); (IT 111,[5;5]); (IT 56,[5;5]); (n_f'aa'vv,[5;5]); (IT 54,[5;5]); (IT 58,[5;5]); (IT 101,[4;5]); (IT 102,[4;5]); (IT 125,[4;5]); (IT 127,[4;5]); (IT 132,[4;5]); (IT 133,[4;5]); (IT 153,[4;5]); (IT 156,[4;5]); (IT 163,[4;5]); (IT 164,[4;5]); (IT 171,[4;5]); (IT 172,[4;5]); (IT 187,[4;5]); (IT 188,[4;5]); (IT 66,[4;5]); (IT 69,[4;5]); (IT 84,[4;5]); (IT 126,[4;5]); (IT 128,[4;5]); (IT 129,[4;5]); (IT 130,[4;5]); (IT 131,[4;5]); (IT 186,[4;5]); (IT 50,[4;5]); (IT 67,[4;5]); (IT 68,[4;5]); (IT 70,[4;5]); (IT 87,[4;5]); (IT 88,[4;5]); (IT 191,[4;6;6;5]); (IT 201,[4;6;6;5]); (IT 202,[4;6;6;5]); (IT 210,[4;6;6;5]); (IT 224,[4;6;6;5]); (IT 225,[4;6;6;5]); (IT 230,[4;6;6;5]); (IT 238,[4;6;6;5]); (IT 240,[4;6;6;5]); (IT 244,[4;6;6;5]); (IT 195,[4;6;6;5]); (IT 198,[4;6;6;5]); (IT 200,[4;6;6;5]); (IT 215,[4;6;6;5]); (IT 223,[4;6;6;5]); (IT 233,[4;6;6;5]); (IT 239,[4;6;6;5]); (IT 242,[4;6;6;5]); (IT 249,[4;6;6;5]); (IT 250,[4;6;6;5]); (IT 190,[6;6;5;5]); (n_v'aabb'vvoo,[5;5;6;6]); (IT 218,[6;6;5;5]); (IT 73,[4;4;4;4]); (IT 79,[4;4;4;4]); (n_v'aaaa'oooo,[4;4;4;4]); (IT 140,[4;4;4;5]); (IT 148,[4;4;4;5]); (IT 150,[4;4;4;5]); (IT 81,[4;4;4;5]); (IT 146,[4;4;4;5]); (IT 77,[4;4;4;5]); (n_t2'bbbb,[6;6;7;7]); (n_t2'abab,[4;6;5;7]); (n_t2'aaaa,[4;4;5;5])]
 [(*3127*) Assign (T 76) (Plain (Copy (IT 38)));
  (*3128*) AddTo (T 76) (Times (Transpose (IT 38) [0;2;1;3]) (-1) 1);
  (*3129*) Assign (T 78) (Plain (Copy n_v'bbbb'ooov));
  (*3130*) AddTo (T 78) (Times (Transpose n_v'bbbb'ovoo [0;2;3;1]) (-1) 1);
  (*3131*) Assign (T 17) (Plain (Copy (IT 17)));
  (*3132*) AddTo (T 17) (Times (Transpose (IT 17) [0;2;1;3]) (-1) 1);
  (*3133*) Assign (T 19) (Times (Copy n_v'aaaa'ooov) (-1) 1);
  (*3134*) AddTo (T 19) (Plain (Transpose n_v'aaaa'ooov [0;2;1;3]));
  (*3135*) Assign (T 74) (Plain (Einsum [(n_r2'aba,[0;1;2]); (IT 40,[0;3;4;2])] [3;4;1]));
  (*3136*) Assign (T 75) (Plain (Einsum [(n_v'aabb'ovoo,[0;1;2;3]); (n_r2'aba,[0;4;1])] [4;2;3]));
  (*3137*) Assign (T 77) (Times (Einsum [(T 76,[0;1;2;3]); (n_r2'bbb,[4;2;3])] [4;0;1]) (-1) 1);
  (*3138*) Del (T 76);
  (*3139*) Assign (T 79) (Times (Einsum [(n_r2'bbb,[0;1;2]); (T 78,[1;3;4;2])] [0;3;4]) (-1) 1);
  (*3140*) Del (T 78);
  (*3141*) Assign (T 18) (Times (Einsum [(T 17,[0;1;2;3]); (n_r2'aaa,[4;2;3])] [4;0;1]) (-1) 1);
  (*3142*) Del (T 17);
  (*3143*) Assign (T 15) (Times (Einsum [(n_v'aabb'ooov,[0;1;2;3]); (n_r2'bab,[2;4;3])] [4;0;1]) (-1) 1);
  (*3144*) Assign (T 16) (Times (Einsum [(IT 19,[0;1;2;3]); (n_r2'bab,[2;4;3])] [0;1;4]) (-1) 1);
  (*3145*) Assign (T 20) (Times (Einsum [(n_r2'aaa,[0;1;2]); (T 19,[3;4;1;2])] [0;3;4]) (-1) 1);
  (*3146*) Del (T 19);
  (*3147*) Assign (T 3) (Plain (Copy n_f'bb'ov));
  (*3148*) AddTo (T 3) (Plain (Copy (IT 13)));
  (*3149*) AddTo (T 3) (Plain (Copy (IT 16)));
  (*3150*) AddTo (T 3) (Times (Copy (IT 12)) (-1) 1);
  (*3151*) Assign (T 82) (Plain (Copy (IT 368)));
  (*3152*) AddTo (T 82) (Plain (Copy (IT 38)));
  (*3153*) AddTo (T 82) (Times (Copy (IT 395)) (2) 1);
  (*3154*) AddTo (T 82) (Times (Copy (IT 434)) (2) 1);
  (*3155*) AddTo (T 82) (Plain (Copy (IT 438)));
  (*3156*) AddTo (T 82) (Plain (Transpose (IT 442) [0;2;1;3]));
  (*3157*) AddTo (T 82) (Plain (Transpose n_v'bbbb'ooov [0;2;1;3]));
  (*3158*) Assign (T 80) (Times (Copy (T 74)) (1) 2);
  (*3159*) Del (T 74);
  (*3160*) AddTo (T 80) (Times (Transpose (T 75) [0;2;1]) (-1) 2);
  (*3161*) Del (T 75);
  (*3162*) AddTo (T 80) (Times (Transpose (T 77) [1;2;0]) (-1) 1);
  (*3163*) Del (T 77);
  (*3164*) AddTo (T 80) (Plain (Transpose (T 79) [0;2;1]));
  (*3165*) Del (T 79);
  (*3166*) Assign (T 84) (Times (Copy (IT 42)) (2) 1);
  (*3167*) AddTo (T 84) (Plain (Copy (IT 44)));
  (*3168*) AddTo (T 84) (Times (Copy (IT 32)) (-1) 1);
  (*3169*) AddTo (T 84) (Times (Copy (IT 46)) (-1) 1);
  (*3170*) Assign (T 72) (Plain (Copy (IT 280)));
  (*3171*) AddTo (T 72) (Times (Copy (IT 284)) (1) 2);
  (*3172*) AddTo (T 72) (Times (Transpose (IT 319) [0;1;3;2]) (1) 2);
  (*3173*) Assign (T 94) (Plain (Copy (IT 372)));
  (*3174*) AddTo (T 94) (Plain (Transpose (IT 384) [0;2;1;3]));
  (*3175*) AddTo (T 94) (Plain (Copy (IT 399)));
  (*3176*) AddTo (T 94) (Plain (Copy (IT 428)));
  (*3177*) AddTo (T 94) (Plain (Copy (IT 440)));
  (*3178*) AddTo (T 94) (Times (Copy (IT 397)) (2) 1);
  (*3179*) AddTo (T 94) (Times (Copy (IT 436)) (2) 1);
  (*3180*) Assign (T 88) (Plain (Copy (IT 276)));
  (*3181*) AddTo (T 88) (Plain (Copy (IT 320)));
  (*3182*) AddTo (T 88) (Times (Copy (IT 282)) (2) 1);
  (*3183*) Assign (T 92) (Plain (Copy n_f'bb'oo));
  (*3184*) AddTo (T 92) (Plain (Copy (IT 29)));
  (*3185*) AddTo (T 92) (Plain (Transpose (IT 33) [1;0]));
  (*3186*) AddTo (T 92) (Plain (Transpose (IT 34) [1;0]));
  (*3187*) AddTo (T 92) (Plain (Transpose (IT 47) [1;0]));
  (*3188*) AddTo (T 92) (Plain (Transpose (IT 48) [1;0]));
  (*3189*) Assign (T 90) (Plain (Copy (IT 318)));
  (*3190*) AddTo (T 90) (Times (Copy (IT 278)) (2) 1);
  (*3191*) Assign (T 4) (Plain (Copy n_f'aa'ov));
  (*3192*) AddTo (T 4) (Plain (Copy (IT 14)));
  (*3193*) AddTo (T 4) (Plain (Copy (IT 10)));
  (*3194*) AddTo (T 4) (Times (Copy (IT 8)) (-1) 1);
  (*3195*) Assign (T 33) (Plain (Copy n_f'aa'oo));
  (*3196*) AddTo (T 33) (Plain (Copy (IT 2)));
  (*3197*) AddTo (T 33) (Plain (Transpose (IT 26) [1;0]));
  (*3198*) AddTo (T 33) (Plain (Transpose (IT 27) [1;0]));
  (*3199*) AddTo (T 33) (Plain (Transpose (IT 6) [1;0]));
  (*3200*) AddTo (T 33) (Plain (Transpose (IT 7) [1;0]));
  (*3201*) Assign (T 31) (Plain (Copy (IT 60)));
  (*3202*) AddTo (T 31) (Times (Copy (IT 113)) (2) 1);
  (*3203*) Assign (T 35) (Plain (Copy (IT 107)));
  (*3204*) AddTo (T 35) (Plain (Copy (IT 157)));
  (*3205*) AddTo (T 35) (Plain (Copy (IT 173)));
  (*3206*) AddTo (T 35) (Plain (Copy (IT 75)));
  (*3207*) AddTo (T 35) (Plain (Transpose (IT 90) [0;2;1;3]));
  (*3208*) AddTo (T 35) (Times (Copy (IT 105)) (2) 1);
  (*3209*) AddTo (T 35) (Times (Copy (IT 167)) (2) 1);
  (*3210*) Assign (T 11) (Plain (Copy (IT 115)));
  (*3211*) AddTo (T 11) (Times (Copy (IT 121)) (1) 2);
  (*3212*) AddTo (T 11) (Times (Transpose (IT 62) [0;1;3;2]) (1) 2);
  (*3213*) Assign (T 13) (Plain (Copy (IT 119)));
  (*3214*) AddTo (T 13) (Times (Copy (IT 123)) (2) 1);
  (*3215*) AddTo (T 13) (Plain (Copy (IT 64)));
  (*3216*) Assign (T 25) (Times (Copy (IT 21)) (2) 1);
  (*3217*) AddTo (T 25) (Plain (Copy (IT 23)));
  (*3218*) AddTo (T 25) (Times (Copy (IT 25)) (-1) 1);
  (*3219*) AddTo (T 25) (Times (Copy (IT 5)) (-1) 1);
  (*3220*) Assign (T 21) (Times (Transpose (T 15) [0;2;1]) (1) 2);
  (*3221*) Del (T 15);
  (*3222*) AddTo (T 21) (Times (Copy (T 16)) (-1) 2);
  (*3223*) Del (T 16);
  (*3224*) AddTo (T 21) (Times (Transpose (T 18) [1;2;0]) (-1) 1);
  (*3225*) Del (T 18);
  (*3226*) AddTo (T 21) (Plain (Transpose (T 20) [0;2;1]));
  (*3227*) Del (T 20);
  (*3228*) Assign (T 23) (Plain (Copy (IT 103)));
  (*3229*) AddTo (T 23) (Plain (Copy (IT 165)));
  (*3230*) AddTo (T 23) (Times (Copy (IT 169)) (1) 2);
  (*3231*) AddTo (T 23) (Times (Copy (IT 17)) (1) 2);
  (*3232*) AddTo (T 23) (Times (Transpose (IT 175) [0;2;1;3]) (1) 2);
  (*3233*) AddTo (T 23) (Times (Copy (IT 71)) (1) 2);
  (*3234*) AddTo (T 23) (Times (Transpose n_v'aaaa'ooov [0;2;1;3]) (1) 2);
  (*3235*) Assign (T 61) (Plain (Einsum [(n_t1'bb,[0;1]); (T 3,[0;2])] [2;1]));
  (*3236*) Assign (T 69) (Plain (Einsum [(n_r2'aba,[0;1;2]); (n_v'aabb'ovov,[0;2;3;4])] [1;3;4]));
  (*3237*) Assign (T 71) (Plain (Einsum [(n_r2'bbb,[0;1;2]); (n_v'bbbb'oovv,[3;1;4;2])] [0;3;4]));
  (*3238*) Assign (T 83) (Plain (Einsum [(n_r1'b,[0]); (T 82,[1;2;0;3])] [1;2;3]));
  (*3239*) Del (T 82);
  (*3240*) Assign (T 81) (Times (Einsum [(n_t1'bb,[0;1]); (T 80,[2;0;3])] [2;3;1]) (2) 1);
  (*3241*) Del (T 80);
  (*3242*) Assign (T 85) (Times (Einsum [(T 84,[0;1]); (n_r2'bbb,[2;1;3])] [2;0;3]) (-2) 1);
  (*3243*) Del (T 84);
  (*3244*) Assign (T 68) (Plain (Einsum [(IT 274,[0;1;2;3]); (n_r2'aba,[0;4;2])] [1;4;3]));
  (*3245*) Assign (T 73) (Times (Einsum [(T 72,[0;1;2;3]); (n_r2'bbb,[4;1;3])] [4;0;2]) (-4) 1);
  (*3246*) Del (T 72);
  (*3247*) Assign (T 70) (Times (Einsum [(IT 430,[0;1;2;3]); (n_r2'bbb,[3;2;4])] [0;1;4]) (-1) 1);
  (*3248*) Assign (T 54) (Plain (Einsum [(n_v'aabb'ovov,[0;1;2;3]); (n_r2'aba,[0;2;1])] [3]));
  (*3249*) Assign (T 55) (Times (Einsum [(n_v'bbbb'ovov,[0;1;2;3]); (n_r2'bbb,[0;2;1])] [3]) (-1) 1);
  (*3250*) Assign (T 95) (Plain (Einsum [(T 94,[0;1;2;3]); (n_r1'b,[2])] [0;1;3]));
  (*3251*) Del (T 94);
  (*3252*) Assign (T 89) (Plain (Einsum [(n_r2'aba,[0;1;2]); (T 88,[0;3;2;4])] [1;3;4]));
  (*3253*) Del (T 88);
  (*3254*) Assign (T 93) (Times (Einsum [(T 92,[0;1]); (n_r2'bbb,[2;0;3])] [2;1;3]) (-1) 1);
  (*3255*) Del (T 92);
  (*3256*) Assign (T 87) (Plain (Einsum [(n_v'bbbb'ovov,[0;1;2;3]); (n_r2'bbb,[4;2;3])] [4;0;1]));
  (*3257*) Assign (T 91) (Times (Einsum [(n_r2'bbb,[0;1;2]); (T 90,[3;1;4;2])] [0;3;4]) (-1) 1);
  (*3258*) Del (T 90);
  (*3259*) Assign (T 52) (Plain (Copy (IT 40)));
  (*3260*) AddTo (T 52) (Plain (Transpose n_v'aabb'ovoo [0;2;3;1]));
  (*3261*) Assign (T 2) (Plain (Copy (IT 19)));
  (*3262*) AddTo (T 2) (Plain (Copy n_v'aabb'ooov));
  (*3263*) Assign (T 64) (Plain (Copy (IT 38)));
  (*3264*) AddTo (T 64) (Times (Transpose (IT 38) [0;2;1;3]) (-1) 1);
  (*3265*) AddTo (T 64) (Times (Copy n_v'bbbb'ooov) (-1) 1);
  (*3266*) AddTo (T 64) (Plain (Transpose n_v'bbbb'ooov [0;2;1;3]));
  (*3267*) Assign (T 42) (Times (Einsum [(n_v'aabb'ovov,[0;1;2;3]); (n_r2'bab,[2;0;3])] [1]) (-1) 1);
  (*3268*) Assign (T 41) (Times (Einsum [(n_r2'aaa,[0;1;2]); (n_v'aaaa'ovov,[0;2;1;3])] [3]) (-1) 1);
  (*3269*) Assign (T 39) (Plain (Einsum [(T 4,[0;1]); (n_t1'aa,[0;2])] [1;2]));
  (*3270*) Assign (T 51) (Plain (Copy (IT 17)));
  (*3271*) AddTo (T 51) (Times (Transpose (IT 17) [0;2;1;3]) (-1) 1);
  (*3272*) AddTo (T 51) (Times (Copy n_v'aaaa'ooov) (-1) 1);
  (*3273*) AddTo (T 51) (Plain (Transpose n_v'aaaa'ooov [0;2;1;3]));
  (*3274*) Assign (T 34) (Times (Einsum [(T 33,[0;1]); (n_r2'aaa,[2;0;3])] [2;1;3]) (-1) 1);
  (*3275*) Del (T 33);
  (*3276*) Assign (T 30) (Times (Einsum [(n_r2'bab,[0;1;2]); (n_v'aabb'ovov,[3;4;0;2])] [1;3;4]) (-1) 1);
  (*3277*) Assign (T 29) (Times (Einsum [(IT 117,[0;1;2;3]); (n_r2'bab,[1;4;3])] [0;4;2]) (-1) 1);
  (*3278*) Assign (T 32) (Times (Einsum [(n_r2'aaa,[0;1;2]); (T 31,[3;1;4;2])] [0;3;4]) (-1) 1);
  (*3279*) Del (T 31);
  (*3280*) Assign (T 36) (Plain (Einsum [(T 35,[0;1;2;3]); (n_r1'a,[2])] [0;1;3]));
  (*3281*) Del (T 35);
  (*3282*) Assign (T 28) (Plain (Einsum [(n_v'aaaa'ovov,[0;1;2;3]); (n_r2'aaa,[4;2;3])] [4;0;1]));
  (*3283*) Assign (T 12) (Times (Einsum [(n_r2'aaa,[0;1;2]); (T 11,[3;1;4;2])] [0;3;4]) (-4) 1);
  (*3284*) Del (T 11);
  (*3285*) Assign (T 14) (Times (Einsum [(T 13,[0;1;2;3]); (n_r2'bab,[1;4;3])] [4;0;2]) (-1) 1);
  (*3286*) Del (T 13);
  (*3287*) Assign (T 26) (Times (Einsum [(T 25,[0;1]); (n_r2'aaa,[2;1;3])] [2;0;3]) (-2) 1);
  (*3288*) Del (T 25);
  (*3289*) Assign (T 22) (Times (Einsum [(T 21,[0;1;2]); (n_t1'aa,[1;3])] [0;2;3]) (2) 1);
  (*3290*) Del (T 21);
  (*3291*) Assign (T 9) (Plain (Einsum [(IT 159,[0;1;2;3]); (n_r2'aaa,[2;3;4])] [0;1;4]));
  (*3292*) Assign (T 24) (Times (Einsum [(n_r1'a,[0]); (T 23,[1;2;0;3])] [1;2;3]) (2) 1);
  (*3293*) Del (T 23);
  (*3294*) Assign (T 10) (Plain (Einsum [(n_r2'aaa,[0;1;2]); (n_v'aaaa'oovv,[3;1;4;2])] [0;3;4]));
  (*3295*) Assign (T 98) (Plain (Copy (IT 378)));
  (*3296*) AddTo (T 98) (Plain (Transpose (IT 415) [1;2;0;3]));
  (*3297*) AddTo (T 98) (Plain (Copy (IT 421)));
  (*3298*) AddTo (T 98) (Plain (Copy (IT 423)));
  (*3299*) AddTo (T 98) (Times (Copy (IT 374)) (-1) 1);
  (*3300*) AddTo (T 98) (Times (Copy (IT 419)) (-1) 1);
  (*3301*) Assign (T 62) (Plain (Copy (IT 257)));
  (*3302*) AddTo (T 62) (Times (Transpose (IT 301) [1;0]) (2) 1);
  (*3303*) AddTo (T 62) (Plain (Transpose (IT 303) [1;0]));
  (*3304*) AddTo (T 62) (Times (Copy n_f'bb'vv) (-1) 1);
  (*3305*) AddTo (T 62) (Times (Transpose (IT 256) [1;0]) (-1) 1);
  (*3306*) AddTo (T 62) (Times (Transpose (IT 258) [1;0]) (-1) 1);
  (*3307*) AddTo (T 62) (Plain (Copy (T 61)));
  (*3308*) Del (T 61);
  (*3309*) Assign (T 86) (Plain (Copy (T 68)));
  (*3310*) Del (T 68);
  (*3311*) AddTo (T 86) (Plain (Copy (T 69)));
  (*3312*) Del (T 69);
  (*3313*) AddTo (T 86) (Times (Copy (T 70)) (2) 1);
  (*3314*) Del (T 70);
  (*3315*) AddTo (T 86) (Times (Copy (T 71)) (2) 1);
  (*3316*) Del (T 71);
  (*3317*) AddTo (T 86) (Times (Transpose (T 73) [1;0;2]) (-1) 1);
  (*3318*) Del (T 73);
  (*3319*) AddTo (T 86) (Plain (Copy (T 81)));
  (*3320*) Del (T 81);
  (*3321*) AddTo (T 86) (Plain (Copy (T 83)));
  (*3322*) Del (T 83);
  (*3323*) AddTo (T 86) (Plain (Transpose (T 85) [1;0;2]));
  (*3324*) Del (T 85);
  (*3325*) Assign (T 56) (Times (Copy (T 54)) (-1) 2);
  (*3326*) Del (T 54);
  (*3327*) AddTo (T 56) (Plain (Copy (T 55)));
  (*3328*) Del (T 55);
  (*3329*) Assign (T 97) (Plain (Copy (IT 370)));
  (*3330*) AddTo (T 97) (Plain (Copy (IT 376)));
  (*3331*) AddTo (T 97) (Times (Transpose n_v'bbbb'oooo [0;2;3;1]) (-1) 1);
  (*3332*) Assign (T 67) (Plain (Copy (IT 285)));
  (*3333*) AddTo (T 67) (Times (Copy (IT 287)) (2) 1);
  (*3334*) AddTo (T 67) (Plain (Copy (IT 291)));
  (*3335*) AddTo (T 67) (Times (Copy (IT 298)) (2) 1);
  (*3336*) AddTo (T 67) (Plain (Copy (IT 299)));
  (*3337*) AddTo (T 67) (Plain (Copy (IT 312)));
  (*3338*) AddTo (T 67) (Plain (Copy (IT 313)));
  (*3339*) AddTo (T 67) (Times (Copy (IT 322)) (2) 1);
  (*3340*) AddTo (T 67) (Plain (Copy (IT 325)));
  (*3341*) AddTo (T 67) (Plain (Copy (IT 330)));
  (*3342*) AddTo (T 67) (Plain (Copy (IT 340)));
  (*3343*) AddTo (T 67) (Times (Copy (IT 345)) (2) 1);
  (*3344*) AddTo (T 67) (Plain (Copy (IT 346)));
  (*3345*) AddTo (T 67) (Times (Copy (IT 348)) (2) 1);
  (*3346*) AddTo (T 67) (Plain (Copy (IT 349)));
  (*3347*) AddTo (T 67) (Plain (Copy (IT 356)));
  (*3348*) AddTo (T 67) (Plain (Copy (IT 357)));
  (*3349*) AddTo (T 67) (Times (Copy n_f'bb'ov) (-1) 1);
  (*3350*) AddTo (T 67) (Times (Copy (IT 13)) (-1) 1);
  (*3351*) AddTo (T 67) (Times (Copy (IT 16)) (-1) 1);
  (*3352*) AddTo (T 67) (Times (Copy (IT 265)) (-1) 1);
  (*3353*) AddTo (T 67) (Times (Copy (IT 266)) (-2) 1);
  (*3354*) AddTo (T 67) (Times (Copy (IT 286)) (-1) 1);
  (*3355*) AddTo (T 67) (Times (Copy (IT 288)) (-2) 1);
  (*3356*) AddTo (T 67) (Times (Copy (IT 289)) (-1) 1);
  (*3357*) AddTo (T 67) (Times (Copy (IT 290)) (-2) 1);
  (*3358*) AddTo (T 67) (Times (Copy (IT 311)) (-1) 1);
  (*3359*) AddTo (T 67) (Times (Copy (IT 317)) (-1) 1);
  (*3360*) AddTo (T 67) (Times (Copy (IT 323)) (-1) 1);
  (*3361*) AddTo (T 67) (Times (Copy (IT 324)) (-1) 1);
  (*3362*) AddTo (T 67) (Times (Copy (IT 326)) (-1) 1);
  (*3363*) AddTo (T 67) (Times (Copy (IT 355)) (-1) 1);
  (*3364*) Assign (T 96) (Times (Copy (T 87)) (2) 1);
  (*3365*) Del (T 87);
  (*3366*) AddTo (T 96) (Plain (Transpose (T 89) [1;0;2]));
  (*3367*) Del (T 89);
  (*3368*) AddTo (T 96) (Times (Transpose (T 91) [1;0;2]) (-2) 1);
  (*3369*) Del (T 91);
  (*3370*) AddTo (T 96) (Times (Transpose (T 93) [1;0;2]) (-2) 1);
  (*3371*) Del (T 93);
  (*3372*) AddTo (T 96) (Plain (Copy (T 95)));
  (*3373*) Del (T 95);
  (*3374*) Assign (T 59) (Plain (Copy (IT 259)));
  (*3375*) AddTo (T 59) (Plain (Copy n_v'aabb'oovv));
  (*3376*) AddTo (T 59) (Times (Copy (IT 305)) (-1) 1);
  (*3377*) Assign (T 5) (Plain (Copy n_f'aa'oo));
  (*3378*) AddTo (T 5) (Plain (Copy (IT 2)));
  (*3379*) AddTo (T 5) (Times (Transpose (IT 21) [1;0]) (2) 1);
  (*3380*) AddTo (T 5) (Plain (Transpose (IT 23) [1;0]));
  (*3381*) AddTo (T 5) (Plain (Transpose (IT 26) [1;0]));
  (*3382*) AddTo (T 5) (Plain (Transpose (IT 27) [1;0]));
  (*3383*) AddTo (T 5) (Plain (Transpose (IT 6) [1;0]));
  (*3384*) AddTo (T 5) (Plain (Transpose (IT 7) [1;0]));
  (*3385*) AddTo (T 5) (Times (Transpose (IT 25) [1;0]) (-1) 1);
  (*3386*) AddTo (T 5) (Times (Transpose (IT 5) [1;0]) (-1) 1);
  (*3387*) Assign (T 63) (Plain (Copy (IT 19)));
  (*3388*) AddTo (T 63) (Plain (Copy (IT 260)));
  (*3389*) AddTo (T 63) (Plain (Copy (IT 271)));
  (*3390*) AddTo (T 63) (Times (Copy (IT 272)) (2) 1);
  (*3391*) AddTo (T 63) (Plain (Transpose (IT 293) [1;0;2;3]));
  (*3392*) AddTo (T 63) (Plain (Copy (IT 309)));
  (*3393*) AddTo (T 63) (Plain (Copy (IT 310)));
  (*3394*) AddTo (T 63) (Plain (Copy (IT 327)));
  (*3395*) AddTo (T 63) (Plain (Copy (IT 334)));
  (*3396*) AddTo (T 63) (Times (Copy (IT 336)) (2) 1);
  (*3397*) AddTo (T 63) (Plain (Copy (IT 341)));
  (*3398*) AddTo (T 63) (Plain (Copy n_v'aabb'ooov));
  (*3399*) AddTo (T 63) (Times (Copy (IT 263)) (-1) 1);
  (*3400*) AddTo (T 63) (Times (Copy (IT 268)) (-1) 1);
  (*3401*) AddTo (T 63) (Times (Copy (IT 270)) (-1) 1);
  (*3402*) AddTo (T 63) (Times (Copy (IT 300)) (-1) 1);
  (*3403*) AddTo (T 63) (Times (Copy (IT 308)) (-1) 1);
  (*3404*) AddTo (T 63) (Times (Copy (IT 329)) (-1) 1);
  (*3405*) AddTo (T 63) (Times (Copy (IT 335)) (-1) 1);
  (*3406*) AddTo (T 63) (Times (Copy (IT 338)) (-1) 1);
  (*3407*) AddTo (T 63) (Times (Copy (IT 347)) (-1) 1);
  (*3408*) AddTo (T 63) (Times (Transpose (IT 350) [1;0;2;3]) (-1) 1);
  (*3409*) Assign (T 65) (Plain (Einsum [(n_r2'bab,[0;1;2]); (T 64,[3;4;0;2])] [1;3;4]));
  (*3410*) Del (T 64);
  (*3411*) AddTo (T 65) (Times (Einsum [(T 52,[0;1;2;3]); (n_r2'aaa,[4;0;3])] [4;1;2]) (2) 1);
  (*3412*) AddTo (T 65) (Plain (Einsum [(n_r2'bab,[0;1;2]); (T 2,[3;1;4;2])] [3;0;4]));
  (*3413*) Assign (T 60) (Plain (Copy (IT 193)));
  (*3414*) AddTo (T 60) (Plain (Copy (IT 231)));
  (*3415*) AddTo (T 60) (Plain (Copy (IT 234)));
  (*3416*) AddTo (T 60) (Plain (Copy (IT 245)));
  (*3417*) AddTo (T 60) (Plain (Copy n_v'aabb'oooo));
  (*3418*) Assign (T 58) (Plain (Copy (IT 276)));
  (*3419*) AddTo (T 58) (Times (Copy (IT 282)) (2) 1);
  (*3420*) AddTo (T 58) (Plain (Copy (IT 320)));
  (*3421*) AddTo (T 58) (Plain (Transpose n_v'aabb'ovov [0;2;1;3]));
  (*3422*) AddTo (T 58) (Times (Copy (IT 274)) (-1) 1);
  (*3423*) Assign (T 57) (Times (Copy (IT 280)) (2) 1);
  (*3424*) AddTo (T 57) (Plain (Copy (IT 284)));
  (*3425*) AddTo (T 57) (Plain (Transpose (IT 319) [0;1;3;2]));
  (*3426*) AddTo (T 57) (Plain (Transpose n_v'bbbb'ovov [0;2;1;3]));
  (*3427*) AddTo (T 57) (Times (Copy (IT 278)) (-2) 1);
  (*3428*) AddTo (T 57) (Times (Copy (IT 318)) (-1) 1);
  (*3429*) AddTo (T 57) (Times (Copy n_v'bbbb'oovv) (-1) 1);
  (*3430*) Assign (T 66) (Plain (Copy (T 41)));
  (*3431*) AddTo (T 66) (Times (Copy (T 42)) (1) 2);
  (*3432*) Assign (T 8) (Plain (Copy n_f'bb'oo));
  (*3433*) AddTo (T 8) (Plain (Copy (IT 29)));
  (*3434*) AddTo (T 8) (Plain (Transpose (IT 33) [1;0]));
  (*3435*) AddTo (T 8) (Plain (Transpose (IT 34) [1;0]));
  (*3436*) AddTo (T 8) (Times (Transpose (IT 42) [1;0]) (2) 1);
  (*3437*) AddTo (T 8) (Plain (Transpose (IT 44) [1;0]));
  (*3438*) AddTo (T 8) (Plain (Transpose (IT 47) [1;0]));
  (*3439*) AddTo (T 8) (Plain (Transpose (IT 48) [1;0]));
  (*3440*) AddTo (T 8) (Times (Transpose (IT 32) [1;0]) (-1) 1);
  (*3441*) AddTo (T 8) (Times (Transpose (IT 46) [1;0]) (-1) 1);
  (*3442*) Assign (T 47) (Plain (Copy (IT 119)));
  (*3443*) AddTo (T 47) (Times (Copy (IT 123)) (2) 1);
  (*3444*) AddTo (T 47) (Plain (Copy (IT 64)));
  (*3445*) AddTo (T 47) (Plain (Transpose n_v'aabb'ovov [0;2;1;3]));
  (*3446*) AddTo (T 47) (Times (Copy (IT 117)) (-1) 1);
  (*3447*) Assign (T 40) (Times (Transpose (IT 109) [1;0]) (2) 1);
  (*3448*) AddTo (T 40) (Plain (Transpose (IT 111) [1;0]));
  (*3449*) AddTo (T 40) (Plain (Copy (IT 56)));
  (*3450*) AddTo (T 40) (Times (Copy n_f'aa'vv) (-1) 1);
  (*3451*) AddTo (T 40) (Times (Transpose (IT 54) [1;0]) (-1) 1);
  (*3452*) AddTo (T 40) (Times (Transpose (IT 58) [1;0]) (-1) 1);
  (*3453*) AddTo (T 40) (Plain (Copy (T 39)));
  (*3454*) Del (T 39);
  (*3455*) Assign (T 46) (Times (Copy (IT 115)) (2) 1);
  (*3456*) AddTo (T 46) (Plain (Copy (IT 121)));
  (*3457*) AddTo (T 46) (Plain (Transpose (IT 62) [0;1;3;2]));
  (*3458*) AddTo (T 46) (Plain (Transpose n_v'aaaa'ovov [0;2;1;3]));
  (*3459*) AddTo (T 46) (Times (Copy (IT 113)) (-2) 1);
  (*3460*) AddTo (T 46) (Times (Copy (IT 60)) (-1) 1);
  (*3461*) AddTo (T 46) (Times (Copy n_v'aaaa'oovv) (-1) 1);
  (*3462*) Assign (T 45) (Times (Copy (IT 101)) (2) 1);
  (*3463*) AddTo (T 45) (Plain (Copy (IT 102)));
  (*3464*) AddTo (T 45) (Times (Copy (IT 125)) (2) 1);
  (*3465*) AddTo (T 45) (Plain (Copy (IT 127)));
  (*3466*) AddTo (T 45) (Plain (Copy (IT 132)));
  (*3467*) AddTo (T 45) (Plain (Copy (IT 133)));
  (*3468*) AddTo (T 45) (Plain (Copy (IT 153)));
  (*3469*) AddTo (T 45) (Plain (Copy (IT 156)));
  (*3470*) AddTo (T 45) (Times (Copy (IT 163)) (2) 1);
  (*3471*) AddTo (T 45) (Plain (Copy (IT 164)));
  (*3472*) AddTo (T 45) (Times (Copy (IT 171)) (2) 1);
  (*3473*) AddTo (T 45) (Plain (Copy (IT 172)));
  (*3474*) AddTo (T 45) (Plain (Copy (IT 187)));
  (*3475*) AddTo (T 45) (Plain (Copy (IT 188)));
  (*3476*) AddTo (T 45) (Times (Copy (IT 66)) (2) 1);
  (*3477*) AddTo (T 45) (Plain (Copy (IT 69)));
  (*3478*) AddTo (T 45) (Plain (Copy (IT 84)));
  (*3479*) AddTo (T 45) (Times (Copy n_f'aa'ov) (-1) 1);
  (*3480*) AddTo (T 45) (Times (Copy (IT 126)) (-2) 1);
  (*3481*) AddTo (T 45) (Times (Copy (IT 128)) (-1) 1);
  (*3482*) AddTo (T 45) (Times (Copy (IT 129)) (-2) 1);
  (*3483*) AddTo (T 45) (Times (Copy (IT 130)) (-1) 1);
  (*3484*) AddTo (T 45) (Times (Copy (IT 131)) (-1) 1);
  (*3485*) AddTo (T 45) (Times (Copy (IT 14)) (-1) 1);
  (*3486*) AddTo (T 45) (Times (Copy (IT 186)) (-1) 1);
  (*3487*) AddTo (T 45) (Times (Copy (IT 50)) (-1) 1);
  (*3488*) AddTo (T 45) (Times (Copy (IT 67)) (-1) 1);
  (*3489*) AddTo (T 45) (Times (Copy (IT 68)) (-1) 1);
  (*3490*) AddTo (T 45) (Times (Copy (IT 70)) (-1) 1);
  (*3491*) AddTo (T 45) (Times (Copy (IT 87)) (-2) 1);
  (*3492*) AddTo (T 45) (Times (Copy (IT 88)) (-1) 1);
  (*3493*) AddTo (T 45) (Times (Copy (IT 10)) (-1) 1);
  (*3494*) Assign (T 53) (Times (Einsum [(T 51,[0;1;2;3]); (n_r2'aba,[1;4;3])] [0;2;4]) (-1) 1);
  (*3495*) Del (T 51);
  (*3496*) AddTo (T 53) (Plain (Einsum [(T 52,[0;1;2;3]); (n_r2'aba,[4;2;3])] [4;0;1]));
  (*3497*) Del (T 52);
  (*3498*) AddTo (T 53) (Times (Einsum [(n_r2'bbb,[0;1;2]); (T 2,[3;4;1;2])] [3;4;0]) (2) 1);
  (*3499*) Assign (T 50) (Plain (Copy (IT 191)));
  (*3500*) AddTo (T 50) (Plain (Copy (IT 201)));
  (*3501*) AddTo (T 50) (Times (Copy (IT 202)) (2) 1);
  (*3502*) AddTo (T 50) (Plain (Transpose (IT 210) [0;2;1;3]));
  (*3503*) AddTo (T 50) (Plain (Copy (IT 224)));
  (*3504*) AddTo (T 50) (Plain (Copy (IT 225)));
  (*3505*) AddTo (T 50) (Plain (Copy (IT 230)));
  (*3506*) AddTo (T 50) (Plain (Copy (IT 238)));
  (*3507*) AddTo (T 50) (Times (Copy (IT 240)) (2) 1);
  (*3508*) AddTo (T 50) (Plain (Copy (IT 244)));
  (*3509*) AddTo (T 50) (Plain (Copy (IT 40)));
  (*3510*) AddTo (T 50) (Plain (Transpose n_v'aabb'ovoo [0;2;3;1]));
  (*3511*) AddTo (T 50) (Times (Copy (IT 195)) (-1) 1);
  (*3512*) AddTo (T 50) (Times (Copy (IT 198)) (-1) 1);
  (*3513*) AddTo (T 50) (Times (Copy (IT 200)) (-1) 1);
  (*3514*) AddTo (T 50) (Times (Copy (IT 215)) (-1) 1);
  (*3515*) AddTo (T 50) (Times (Copy (IT 223)) (-1) 1);
  (*3516*) AddTo (T 50) (Times (Copy (IT 233)) (-1) 1);
  (*3517*) AddTo (T 50) (Times (Copy (IT 239)) (-1) 1);
  (*3518*) AddTo (T 50) (Times (Copy (IT 242)) (-1) 1);
  (*3519*) AddTo (T 50) (Times (Copy (IT 249)) (-1) 1);
  (*3520*) AddTo (T 50) (Times (Transpose (IT 250) [0;2;1;3]) (-1) 1);
  (*3521*) Assign (T 48) (Plain (Copy (IT 190)));
  (*3522*) AddTo (T 48) (Plain (Transpose n_v'aabb'vvoo [2;3;0;1]));
  (*3523*) AddTo (T 48) (Times (Copy (IT 218)) (-1) 1);
  (*3524*) Assign (T 49) (Plain (Copy (IT 193)));
  (*3525*) AddTo (T 49) (Plain (Copy (IT 231)));
  (*3526*) AddTo (T 49) (Plain (Copy (IT 234)));
  (*3527*) AddTo (T 49) (Plain (Copy (IT 245)));
  (*3528*) AddTo (T 49) (Plain (Copy n_v'aabb'oooo));
  (*3529*) Assign (T 38) (Plain (Copy (IT 73)));
  (*3530*) AddTo (T 38) (Plain (Copy (IT 79)));
  (*3531*) AddTo (T 38) (Times (Transpose n_v'aaaa'oooo [0;2;3;1]) (-1) 1);
  (*3532*) Assign (T 44) (Plain (Copy (IT 140)));
  (*3533*) AddTo (T 44) (Plain (Transpose (IT 148) [2;0;1;3]));
  (*3534*) AddTo (T 44) (Plain (Transpose (IT 150) [2;0;1;3]));
  (*3535*) AddTo (T 44) (Plain (Transpose (IT 81) [2;0;1;3]));
  (*3536*) AddTo (T 44) (Times (Transpose (IT 146) [2;0;1;3]) (-1) 1);
  (*3537*) AddTo (T 44) (Times (Transpose (IT 77) [2;0;1;3]) (-1) 1);
  (*3538*) Assign (T 37) (Times (Copy (T 28)) (2) 1);
  (*3539*) Del (T 28);
  (*3540*) AddTo (T 37) (Plain (Copy (T 29)));
  (*3541*) Del (T 29);
  (*3542*) AddTo (T 37) (Plain (Copy (T 30)));
  (*3543*) Del (T 30);
  (*3544*) AddTo (T 37) (Times (Transpose (T 32) [1;0;2]) (-2) 1);
  (*3545*) Del (T 32);
  (*3546*) AddTo (T 37) (Times (Transpose (T 34) [1;0;2]) (-2) 1);
  (*3547*) Del (T 34);
  (*3548*) AddTo (T 37) (Plain (Copy (T 36)));
  (*3549*) Del (T 36);
  (*3550*) Assign (T 43) (Times (Copy (T 41)) (2) 1);
  (*3551*) Del (T 41);
  (*3552*) AddTo (T 43) (Plain (Copy (T 42)));
  (*3553*) Del (T 42);
  (*3554*) Assign (T 27) (Times (Copy (T 9)) (2) 1);
  (*3555*) Del (T 9);
  (*3556*) AddTo (T 27) (Times (Copy (T 10)) (2) 1);
  (*3557*) Del (T 10);
  (*3558*) AddTo (T 27) (Times (Transpose (T 12) [1;0;2]) (-1) 1);
  (*3559*) Del (T 12);
  (*3560*) AddTo (T 27) (Plain (Transpose (T 14) [1;0;2]));
  (*3561*) Del (T 14);
  (*3562*) AddTo (T 27) (Plain (Copy (T 22)));
  (*3563*) Del (T 22);
  (*3564*) AddTo (T 27) (Plain (Copy (T 24)));
  (*3565*) Del (T 24);
  (*3566*) AddTo (T 27) (Plain (Transpose (T 26) [1;0;2]));
  (*3567*) Del (T 26);
  (*3568*) Assign (T 7) (Plain (Copy (IT 38)));
  (*3569*) AddTo (T 7) (Times (Copy n_v'bbbb'ooov) (-1) 1);
  (*3570*) Assign (T 6) (Plain (Copy (IT 40)));
  (*3571*) AddTo (T 6) (Plain (Transpose n_v'aabb'ovoo [0;2;3;1]));
  (*3572*) Assign (T 1) (Plain (Copy (IT 17)));
  (*3573*) AddTo (T 1) (Times (Copy n_v'aaaa'ooov) (-1) 1);
  (*3574*) Assign n_r2new'bbb (Times (Copy (T 86)) (-1) 1);
  (*3575*) AddTo n_r2new'bbb (Plain (Transpose (T 86) [1;0;2]));
  (*3576*) Del (T 86);
  (*3577*) AddTo n_r2new'bbb (Plain (Copy (T 96)));
  (*3578*) AddTo n_r2new'bbb (Times (Transpose (T 96) [1;0;2]) (-1) 1);
  (*3579*) Del (T 96);
  (*3580*) AddTo n_r2new'bbb (Times (Einsum [(n_r2'bbb,[0;1;2]); (T 97,[3;4;0;1])] [3;4;2]) (2) 1);
  (*3581*) Del (T 97);
  (*3582*) AddTo n_r2new'bbb (Times (Einsum [(T 62,[0;1]); (n_r2'bbb,[2;3;0])] [2;3;1]) (-2) 1);
  (*3583*) AddTo n_r2new'bbb (Times (Einsum [(T 56,[0]); (n_t2'bbbb,[1;2;3;0])] [1;2;3]) (4) 1);
  (*3584*) AddTo n_r2new'bbb (Times (Einsum [(n_r1'b,[0]); (T 98,[1;2;0;3])] [2;1;3]) (-2) 1);
  (*3585*) Del (T 98);
  (*3586*) AddTo n_r2new'bbb (Times (Einsum [(T 67,[0;1]); (n_r1'b,[2])] [2;0;1]) (-1) 1);
  (*3587*) AddTo n_r2new'bbb (Plain (Einsum [(n_r1'b,[0]); (T 67,[1;2])] [1;0;2]));
  (*3588*) Assign n_r2new'bab (Plain (Einsum [(T 57,[0;1;2;3]); (n_r2'bab,[1;4;3])] [0;4;2]));
  (*3589*) Del (T 57);
  (*3590*) AddTo n_r2new'bab (Times (Einsum [(n_r2'aaa,[0;1;2]); (T 58,[1;3;2;4])] [3;0;4]) (-2) 1);
  (*3591*) Del (T 58);
  (*3592*) AddTo n_r2new'bab (Times (Einsum [(n_r2'bab,[0;1;2]); (T 59,[3;1;4;2])] [0;3;4]) (-1) 1);
  (*3593*) Del (T 59);
  (*3594*) AddTo n_r2new'bab (Plain (Einsum [(T 60,[0;1;2;3]); (n_r2'bab,[3;1;4])] [2;0;4]));
  (*3595*) Del (T 60);
  (*3596*) AddTo n_r2new'bab (Times (Einsum [(n_r2'bab,[0;1;2]); (T 62,[2;3])] [0;1;3]) (-1) 1);
  (*3597*) Del (T 62);
  (*3598*) AddTo n_r2new'bab (Plain (Einsum [(n_r1'a,[0]); (T 63,[1;0;2;3])] [2;1;3]));
  (*3599*) Del (T 63);
  (*3600*) AddTo n_r2new'bab (Times (Einsum [(T 8,[0;1]); (n_r2'bab,[0;2;3])] [1;2;3]) (-1) 1);
  (*3601*) AddTo n_r2new'bab (Times (Einsum [(T 5,[0;1]); (n_r2'bab,[2;0;3])] [2;1;3]) (-1) 1);
  (*3602*) AddTo n_r2new'bab (Plain (Einsum [(n_t1'bb,[0;1]); (T 65,[2;3;0])] [3;2;1]));
  (*3603*) Del (T 65);
  (*3604*) AddTo n_r2new'bab (Times (Einsum [(T 66,[0]); (n_t2'abab,[1;2;0;3])] [2;1;3]) (2) 1);
  (*3605*) Del (T 66);
  (*3606*) AddTo n_r2new'bab (Plain (Einsum [(T 67,[0;1]); (n_r1'a,[2])] [0;2;1]));
  (*3607*) Del (T 67);
  (*3608*) Assign n_r2new'aba (Plain (Einsum [(T 46,[0;1;2;3]); (n_r2'aba,[1;4;3])] [0;4;2]));
  (*3609*) Del (T 46);
  (*3610*) AddTo n_r2new'aba (Times (Einsum [(T 47,[0;1;2;3]); (n_r2'bbb,[4;1;3])] [0;4;2]) (-2) 1);
  (*3611*) Del (T 47);
  (*3612*) AddTo n_r2new'aba (Times (Einsum [(n_r2'aba,[0;1;2]); (T 48,[3;1;4;2])] [0;3;4]) (-1) 1);
  (*3613*) Del (T 48);
  (*3614*) AddTo n_r2new'aba (Plain (Einsum [(T 49,[0;1;2;3]); (n_r2'aba,[1;3;4])] [0;2;4]));
  (*3615*) Del (T 49);
  (*3616*) AddTo n_r2new'aba (Times (Einsum [(n_r2'aba,[0;1;2]); (T 40,[2;3])] [0;1;3]) (-1) 1);
  (*3617*) AddTo n_r2new'aba (Plain (Einsum [(n_r1'b,[0]); (T 50,[1;2;0;3])] [1;2;3]));
  (*3618*) Del (T 50);
  (*3619*) AddTo n_r2new'aba (Times (Einsum [(T 8,[0;1]); (n_r2'aba,[2;0;3])] [2;1;3]) (-1) 1);
  (*3620*) AddTo n_r2new'aba (Times (Einsum [(T 5,[0;1]); (n_r2'aba,[0;2;3])] [1;2;3]) (-1) 1);
  (*3621*) AddTo n_r2new'aba (Plain (Einsum [(T 53,[0;1;2]); (n_t1'aa,[1;3])] [0;2;3]));
  (*3622*) Del (T 53);
  (*3623*) AddTo n_r2new'aba (Times (Einsum [(T 56,[0]); (n_t2'abab,[1;2;3;0])] [1;2;3]) (2) 1);
  (*3624*) Del (T 56);
  (*3625*) AddTo n_r2new'aba (Plain (Einsum [(T 45,[0;1]); (n_r1'b,[2])] [0;2;1]));
  (*3626*) Assign n_r2new'aaa (Times (Copy (T 27)) (-1) 1);
  (*3627*) AddTo n_r2new'aaa (Plain (Transpose (T 27) [1;0;2]));
  (*3628*) Del (T 27);
  (*3629*) AddTo n_r2new'aaa (Plain (Copy (T 37)));
  (*3630*) AddTo n_r2new'aaa (Times (Transpose (T 37) [1;0;2]) (-1) 1);
  (*3631*) Del (T 37);
  (*3632*) AddTo n_r2new'aaa (Times (Einsum [(T 38,[0;1;2;3]); (n_r2'aaa,[3;2;4])] [0;1;4]) (-2) 1);
  (*3633*) Del (T 38);
  (*3634*) AddTo n_r2new'aaa (Times (Einsum [(n_r2'aaa,[0;1;2]); (T 40,[2;3])] [0;1;3]) (-2) 1);
  (*3635*) Del (T 40);
  (*3636*) AddTo n_r2new'aaa (Times (Einsum [(T 43,[0]); (n_t2'aaaa,[1;2;3;0])] [1;2;3]) (2) 1);
  (*3637*) Del (T 43);
  (*3638*) AddTo n_r2new'aaa (Times (Einsum [(n_r1'a,[0]); (T 44,[0;1;2;3])] [2;1;3]) (-2) 1);
  (*3639*) Del (T 44);
  (*3640*) AddTo n_r2new'aaa (Times (Einsum [(T 45,[0;1]); (n_r1'a,[2])] [2;0;1]) (-1) 1);
  (*3641*) AddTo n_r2new'aaa (Plain (Einsum [(n_r1'a,[0]); (T 45,[1;2])] [1;0;2]));
  (*3642*) Del (T 45);
  (*3643*) Assign n_r1new'b (Plain (Einsum [(T 6,[0;1;2;3]); (n_r2'aba,[0;2;3])] [1]));
  (*3644*) Del (T 6);
  (*3645*) AddTo n_r1new'b (Times (Einsum [(n_r2'bbb,[0;1;2]); (T 7,[3;1;0;2])] [3]) (-2) 1);
  (*3646*) Del (T 7);
  (*3647*) AddTo n_r1new'b (Times (Einsum [(T 4,[0;1]); (n_r2'aba,[0;2;1])] [2]) (-1) 1);
  (*3648*) AddTo n_r1new'b (Times (Einsum [(T 3,[0;1]); (n_r2'bbb,[2;0;1])] [2]) (2) 1);
  (*3649*) AddTo n_r1new'b (Times (Einsum [(n_r1'b,[0]); (T 8,[0;1])] [1]) (-1) 1);
  (*3650*) Del (T 8);
  (*3651*) Assign n_r1new'a (Times (Einsum [(T 1,[0;1;2;3]); (n_r2'aaa,[2;1;3])] [0]) (-2) 1);
  (*3652*) Del (T 1);
  (*3653*) AddTo n_r1new'a (Plain (Einsum [(n_r2'bab,[0;1;2]); (T 2,[3;1;0;2])] [3]));
  (*3654*) Del (T 2);
  (*3655*) AddTo n_r1new'a (Times (Einsum [(n_r2'bab,[0;1;2]); (T 3,[0;2])] [1]) (-1) 1);
  (*3656*) Del (T 3);
  (*3657*) AddTo n_r1new'a (Times (Einsum [(T 4,[0;1]); (n_r2'aaa,[2;0;1])] [2]) (2) 1);
  (*3658*) Del (T 4);
  (*3659*) AddTo n_r1new'a (Times (Einsum [(n_r1'a,[0]); (T 5,[0;1])] [1]) (-1) 1);
  (*3660*) Del (T 5)]
 [(n_r1new'b,[6]); (n_r1new'a,[4]); (n_r2new'bbb,[6;6;7]); (n_r2new'bab,[6;4;7]); (n_r2new'aba,[4;6;5]); (n_r2new'aaa,[4;4;5])].

(** ebcc/codegen/UCCSD.py:3664-3972 [hbar_matvec_ea_intermediates] *)
Definition UCCSD_hbar_matvec_ea_intermediates : prog := mkprog
 [(n_v'aabb'ovov,[4;5;6;7]); (n_t1'aa,[4;5]); (n_v'bbbb'ovov,[6;7;6;7]); (n_t1'bb,[6;7]); (n_v'aaaa'ovov,[4;5;4;5]); (n_v'aabb'ovoo,[4;5;6;6]); (n_v'bbbb'ooov,[6;6;6;7]); (n_t2'abab,[4;6;5;7]); (n_t2'bbbb,[6;6;7;7]); (n_f'bb'ov,[6;7]); (n_v'aabb'ovvv,[4;5;7;7]); (n_v'bbbb'ovvv,[6;7;7;7]); (n_v'aabb'vvov,[5;5;6;7]); (n_v'aaaa'ovvv,[4;5;5;5]); (n_t2'aaaa,[4;4;5;5]); (n_f'aa'ov,[4;5]); (n_v'aabb'ooov,[4;4;6;7]); (n_v'aaaa'ooov,[4;4;4;5]); (n_v'bbbb'vvvv,[7;7;7;7]); (n_f'bb'oo,[6;6]); (n_v'aabb'vvvv,[5;5;7;7]); (n_f'bb'vv,[7;7]); (n_v'bbbb'oovv,[6;6;7;7]); (n_v'aaaa'vvvv,[5;5;5;5]); (n_f'aa'vv,[5;5]); (n_v'aaaa'oovv,[4;4;5;5]); (n_f'aa'oo,[4;4])]
 [(*3827*) Assign (T 16) (Plain (Einsum [(n_v'aabb'ovov,[0;1;2;3]); (n_t1'aa,[0;1])] [2;3]));
  (*3828*) Assign (T 13) (Plain (Einsum [(n_v'bbbb'ovov,[0;1;2;3]); (n_t1'bb,[2;3])] [0;1]));
  (*3829*) Assign (T 12) (Plain (Einsum [(n_v'bbbb'ovov,[0;1;2;3]); (n_t1'bb,[2;1])] [0;3]));
  (*3830*) Assign (T 14) (Plain (Einsum [(n_v'aabb'ovov,[0;1;2;3]); (n_t1'bb,[2;3])] [0;1]));
  (*3831*) Assign (T 10) (Plain (Einsum [(n_t1'aa,[0;1]); (n_v'aaaa'ovov,[2;3;0;1])] [2;3]));
  (*3832*) Assign (T 8) (Plain (Einsum [(n_t1'aa,[0;1]); (n_v'aaaa'ovov,[2;1;0;3])] [2;3]));
  (*3833*) Assign (T 316) (Plain (Einsum [(n_v'bbbb'ovov,[0;1;2;3]); (n_t1'bb,[4;3])] [4;0;2;1]));
  (*3834*) Assign (T 275) (Plain (Einsum [(n_v'aabb'ovoo,[0;1;2;3]); (n_t1'aa,[0;1])] [2;3]));
  (*3835*) Assign (T 274) (Plain (Einsum [(n_t1'bb,[0;1]); (n_v'bbbb'ooov,[2;3;0;1])] [2;3]));
  (*3836*) Assign (T 273) (Plain (Einsum [(n_t1'bb,[0;1]); (n_v'bbbb'ooov,[2;0;3;1])] [2;3]));
  (*3837*) Assign (T 310) (Plain (Einsum [(T 16,[0;1]); (n_t1'bb,[2;1])] [2;0]));
  (*3838*) Assign (T 309) (Plain (Einsum [(T 13,[0;1]); (n_t1'bb,[2;1])] [2;0]));
  (*3839*) Assign (T 308) (Plain (Einsum [(n_t1'bb,[0;1]); (T 12,[2;1])] [0;2]));
  (*3840*) Assign (T 299) (Plain (Einsum [(n_v'aabb'ovov,[0;1;2;3]); (n_t2'abab,[0;4;1;3])] [4;2]));
  (*3841*) Assign (T 297) (Times (Einsum [(n_t2'bbbb,[0;1;2;3]); (n_v'bbbb'ovov,[4;3;1;2])] [0;4]) (-1) 1);
  (*3842*) Assign (T 301) (Plain (Einsum [(n_t1'bb,[0;1]); (n_v'aabb'ovov,[2;3;4;1])] [2;0;4;3]));
  (*3843*) Assign (T 288) (Plain (Einsum [(n_t1'bb,[0;1]); (n_f'bb'ov,[2;1])] [2;0]));
  (*3844*) Assign (T 34) (Plain (Einsum [(n_v'aabb'ovvv,[0;1;2;3]); (n_t1'aa,[0;1])] [2;3]));
  (*3845*) Assign (T 33) (Plain (Einsum [(n_v'bbbb'ovvv,[0;1;2;3]); (n_t1'bb,[0;3])] [1;2]));
  (*3846*) Assign (T 32) (Plain (Einsum [(n_v'bbbb'ovvv,[0;1;2;3]); (n_t1'bb,[0;1])] [2;3]));
  (*3847*) Assign (T 161) (Plain (Einsum [(n_t1'aa,[0;1]); (n_v'aabb'ovov,[2;1;3;4])] [0;2;3;4]));
  (*3848*) Assign (T 178) (Plain (Einsum [(n_t1'aa,[0;1]); (T 14,[2;1])] [0;2]));
  (*3849*) Assign (T 176) (Plain (Einsum [(T 10,[0;1]); (n_t1'aa,[2;1])] [2;0]));
  (*3850*) Assign (T 174) (Plain (Einsum [(T 8,[0;1]); (n_t1'aa,[2;1])] [2;0]));
  (*3851*) Assign (T 7) (Plain (Einsum [(n_v'aabb'vvov,[0;1;2;3]); (n_t1'bb,[2;3])] [0;1]));
  (*3852*) Assign (T 6) (Plain (Einsum [(n_v'aaaa'ovvv,[0;1;2;3]); (n_t1'aa,[0;3])] [1;2]));
  (*3853*) Assign (T 5) (Plain (Einsum [(n_v'aaaa'ovvv,[0;1;2;3]); (n_t1'aa,[0;1])] [2;3]));
  (*3854*) Assign (T 157) (Plain (Einsum [(n_v'aabb'ovov,[0;1;2;3]); (n_t2'abab,[4;2;1;3])] [4;0]));
  (*3855*) Assign (T 155) (Times (Einsum [(n_v'aaaa'ovov,[0;1;2;3]); (n_t2'aaaa,[4;2;3;1])] [4;0]) (-1) 1);
  (*3856*) Assign (T 159) (Plain (Einsum [(n_v'aaaa'ovov,[0;1;2;3]); (n_t1'aa,[4;3])] [4;0;2;1]));
  (*3857*) Assign (T 138) (Plain (Einsum [(n_t1'aa,[0;1]); (n_f'aa'ov,[2;1])] [2;0]));
  (*3858*) Assign (T 109) (Plain (Einsum [(n_t1'bb,[0;1]); (n_v'aabb'ooov,[2;3;0;1])] [2;3]));
  (*3859*) Assign (T 107) (Plain (Einsum [(n_v'aaaa'ooov,[0;1;2;3]); (n_t1'aa,[2;3])] [0;1]));
  (*3860*) Assign (T 105) (Plain (Einsum [(n_t1'aa,[0;1]); (n_v'aaaa'ooov,[2;0;3;1])] [2;3]));
  (*3861*) Assign (T 451) (Plain (Einsum [(n_t2'bbbb,[0;1;2;3]); (T 316,[4;0;1;5])] [4;2;3;5]));
  (*3862*) Assign (T 441) (Plain (Einsum [(n_v'bbbb'vvvv,[0;1;2;3]); (n_t1'bb,[4;3])] [4;0;1;2]));
  (*3863*) Assign (T 424) (Plain (Einsum [(n_t2'bbbb,[0;1;2;3]); (n_v'bbbb'ooov,[4;0;1;5])] [4;2;3;5]));
  (*3864*) Assign (T 388) (Plain (Einsum [(n_v'aabb'ovvv,[0;1;2;3]); (n_t2'abab,[0;4;1;5])] [4;5;2;3]));
  (*3865*) Assign (T 386) (Plain (Einsum [(n_t2'bbbb,[0;1;2;3]); (n_v'bbbb'ovvv,[1;4;5;3])] [0;2;4;5]));
  (*3866*) Assign (T 384) (Plain (Einsum [(n_t2'bbbb,[0;1;2;3]); (n_v'bbbb'ovvv,[1;3;4;5])] [0;2;4;5]));
  (*3867*) Assign (T 367) (Plain (Einsum [(T 16,[0;1]); (n_t2'bbbb,[2;0;3;1])] [2;3]));
  (*3868*) Assign (T 366) (Plain (Einsum [(T 14,[0;1]); (n_t2'abab,[0;2;1;3])] [2;3]));
  (*3869*) Assign (T 365) (Plain (Einsum [(T 13,[0;1]); (n_t2'bbbb,[2;0;3;1])] [2;3]));
  (*3870*) Assign (T 364) (Plain (Einsum [(T 12,[0;1]); (n_t2'bbbb,[2;0;3;1])] [2;3]));
  (*3871*) Assign (T 363) (Plain (Einsum [(T 10,[0;1]); (n_t2'abab,[0;2;1;3])] [2;3]));
  (*3872*) Assign (T 362) (Plain (Einsum [(T 8,[0;1]); (n_t2'abab,[0;2;1;3])] [2;3]));
  (*3873*) Assign (T 361) (Plain (Einsum [(n_v'aabb'ovov,[0;1;2;3]); (n_t2'abab,[0;4;1;5])] [4;2;5;3]));
  (*3874*) Assign (T 359) (Plain (Einsum [(n_v'aabb'ovov,[0;1;2;3]); (n_t2'bbbb,[4;2;5;3])] [0;4;1;5]));
  (*3875*) Assign (T 357) (Plain (Einsum [(n_t2'bbbb,[0;1;2;3]); (n_v'bbbb'ovov,[4;5;1;3])] [0;4;2;5]));
  (*3876*) Assign (T 355) (Plain (Einsum [(n_t2'bbbb,[0;1;2;3]); (n_v'bbbb'ovov,[4;3;1;5])] [0;4;2;5]));
  (*3877*) Assign (T 353) (Plain (Einsum [(n_v'aaaa'ovov,[0;1;2;3]); (n_t2'abab,[2;4;3;5])] [0;4;1;5]));
  (*3878*) Assign (T 351) (Plain (Einsum [(n_v'aaaa'ovov,[0;1;2;3]); (n_t2'abab,[2;4;1;5])] [0;4;3;5]));
  (*3879*) Assign (T 347) (Plain (Einsum [(n_v'aabb'vvov,[0;1;2;3]); (n_t2'bbbb,[4;2;5;3])] [4;0;1;5]));
  (*3880*) Assign (T 346) (Plain (Einsum [(n_t2'abab,[0;1;2;3]); (n_v'aaaa'ovvv,[0;4;5;2])] [1;4;5;3]));
  (*3881*) Assign (T 345) (Plain (Einsum [(n_t2'abab,[0;1;2;3]); (n_v'aaaa'ovvv,[0;2;4;5])] [1;4;5;3]));
  (*3882*) Assign (T 342) (Plain (Einsum [(n_f'bb'ov,[0;1]); (n_t2'bbbb,[2;0;3;1])] [2;3]));
  (*3883*) Assign (T 341) (Plain (Einsum [(n_f'aa'ov,[0;1]); (n_t2'abab,[0;2;1;3])] [2;3]));
  (*3884*) Assign (T 339) (Plain (Einsum [(n_t1'bb,[0;1]); (T 275,[2;0])] [2;1]));
  (*3885*) Assign (T 338) (Plain (Einsum [(n_t1'bb,[0;1]); (T 274,[2;0])] [2;1]));
  (*3886*) Assign (T 337) (Plain (Einsum [(n_t1'bb,[0;1]); (T 273,[2;0])] [2;1]));
  (*3887*) Assign (T 336) (Plain (Einsum [(n_v'aabb'ovoo,[0;1;2;3]); (n_t2'abab,[0;3;1;4])] [2;4]));
  (*3888*) Assign (T 335) (Plain (Einsum [(n_t2'bbbb,[0;1;2;3]); (n_v'bbbb'ooov,[4;0;1;3])] [4;2]));
  (*3889*) Assign (T 329) (Plain (Einsum [(n_t1'bb,[0;1]); (n_f'bb'oo,[2;0])] [2;1]));
  (*3890*) Assign (T 328) (Plain (Einsum [(n_t1'bb,[0;1]); (T 310,[2;0])] [2;1]));
  (*3891*) Assign (T 327) (Plain (Einsum [(n_t1'bb,[0;1]); (T 309,[2;0])] [2;1]));
  (*3892*) Assign (T 326) (Plain (Einsum [(n_t1'bb,[0;1]); (T 308,[2;0])] [2;1]));
  (*3893*) Assign (T 320) (Plain (Einsum [(n_t1'bb,[0;1]); (T 299,[2;0])] [2;1]));
  (*3894*) Assign (T 319) (Plain (Einsum [(n_t1'bb,[0;1]); (T 297,[2;0])] [2;1]));
  (*3895*) Assign (T 318) (Plain (Einsum [(T 301,[0;1;2;3]); (n_t2'abab,[0;2;3;4])] [1;4]));
  (*3896*) Assign (T 317) (Plain (Einsum [(n_t2'bbbb,[0;1;2;3]); (T 316,[4;1;0;3])] [4;2]));
  (*3897*) Assign (T 315) (Plain (Einsum [(n_v'aabb'vvov,[0;1;2;3]); (n_t1'bb,[4;3])] [4;2;0;1]));
  (*3898*) Assign (T 314) (Plain (Einsum [(n_t1'bb,[0;1]); (T 288,[0;2])] [2;1]));
  (*3899*) Assign (T 306) (Plain (Einsum [(T 34,[0;1]); (n_t1'bb,[2;1])] [2;0]));
  (*3900*) Assign (T 305) (Plain (Einsum [(n_t1'bb,[0;1]); (T 33,[1;2])] [0;2]));
  (*3901*) Assign (T 304) (Plain (Einsum [(n_t1'bb,[0;1]); (T 32,[2;1])] [0;2]));
  (*3902*) Assign (T 302) (Plain (Einsum [(T 301,[0;1;2;3]); (n_t2'abab,[0;2;4;5])] [1;4;3;5]));
  (*3903*) Assign (T 296) (Plain (Einsum [(n_v'aabb'ovvv,[0;1;2;3]); (n_t2'abab,[0;4;1;3])] [4;2]));
  (*3904*) Assign (T 295) (Times (Einsum [(n_v'bbbb'ovvv,[0;1;2;3]); (n_t2'bbbb,[4;0;3;1])] [4;2]) (-1) 1);
  (*3905*) Assign (T 293) (Plain (Einsum [(n_v'aabb'ovvv,[0;1;2;3]); (n_t1'bb,[4;3])] [0;4;1;2]));
  (*3906*) Assign (T 292) (Plain (Einsum [(n_t1'bb,[0;1]); (n_v'bbbb'ovvv,[2;3;4;1])] [0;2;3;4]));
  (*3907*) Assign (T 291) (Plain (Einsum [(n_t1'bb,[0;1]); (n_v'bbbb'ovvv,[2;1;3;4])] [0;2;3;4]));
  (*3908*) Assign (T 290) (Plain (Einsum [(n_t1'bb,[0;1]); (n_v'aabb'vvvv,[2;3;4;1])] [0;2;3;4]));
  (*3909*) Assign (T 287) (Plain (Einsum [(n_t1'bb,[0;1]); (n_f'bb'vv,[2;1])] [0;2]));
  (*3910*) Assign (T 277) (Plain (Einsum [(n_v'aabb'ovoo,[0;1;2;3]); (n_t2'abab,[0;3;4;5])] [2;4;1;5]));
  (*3911*) Assign (T 272) (Plain (Einsum [(n_v'bbbb'oovv,[0;1;2;3]); (n_t1'bb,[1;3])] [0;2]));
  (*3912*) Assign (T 267) (Plain (Einsum [(n_v'aabb'ovov,[0;1;2;3]); (n_t2'abab,[0;4;5;3])] [4;2;5;1]));
  (*3913*) Assign (T 264) (Plain (Einsum [(n_v'aabb'ovvv,[0;1;2;3]); (n_t2'abab,[0;4;5;3])] [4;5;1;2]));
  (*3914*) Assign (T 243) (Plain (Einsum [(n_v'aabb'ovvv,[0;1;2;3]); (n_t2'aaaa,[4;0;5;1])] [4;5;2;3]));
  (*3915*) Assign (T 242) (Plain (Einsum [(n_t2'abab,[0;1;2;3]); (n_v'bbbb'ovvv,[1;4;5;3])] [0;2;4;5]));
  (*3916*) Assign (T 241) (Plain (Einsum [(n_t2'abab,[0;1;2;3]); (n_v'bbbb'ovvv,[1;3;4;5])] [0;2;4;5]));
  (*3917*) Assign (T 227) (Plain (Einsum [(n_t1'aa,[0;1]); (n_v'aabb'ovvv,[2;1;3;4])] [0;2;3;4]));
  (*3918*) Assign (T 221) (Plain (Einsum [(n_t2'abab,[0;1;2;3]); (T 161,[4;0;1;5])] [4;2;3;5]));
  (*3919*) Assign (T 217) (Plain (Einsum [(n_t1'aa,[0;1]); (n_v'aabb'vvvv,[2;1;3;4])] [0;2;3;4]));
  (*3920*) Assign (T 206) (Plain (Einsum [(n_t2'abab,[0;1;2;3]); (n_v'aabb'ooov,[4;0;1;5])] [4;2;3;5]));
  (*3921*) Assign (T 200) (Plain (Einsum [(n_v'aabb'ovov,[0;1;2;3]); (n_t2'abab,[4;2;1;5])] [4;0;5;3]));
  (*3922*) Assign (T 197) (Plain (Einsum [(n_v'aabb'vvov,[0;1;2;3]); (n_t2'abab,[4;2;1;5])] [4;0;5;3]));
  (*3923*) Assign (T 188) (Plain (Einsum [(n_t1'aa,[0;1]); (T 178,[2;0])] [2;1]));
  (*3924*) Assign (T 187) (Plain (Einsum [(n_t1'aa,[0;1]); (T 176,[2;0])] [2;1]));
  (*3925*) Assign (T 186) (Plain (Einsum [(T 174,[0;1]); (n_t1'aa,[1;2])] [0;2]));
  (*3926*) Assign (T 169) (Plain (Einsum [(T 7,[0;1]); (n_t1'aa,[2;1])] [2;0]));
  (*3927*) Assign (T 168) (Plain (Einsum [(n_t1'aa,[0;1]); (T 6,[1;2])] [0;2]));
  (*3928*) Assign (T 167) (Plain (Einsum [(n_t1'aa,[0;1]); (T 5,[2;1])] [0;2]));
  (*3929*) Assign (T 166) (Plain (Einsum [(n_t1'aa,[0;1]); (T 157,[2;0])] [2;1]));
  (*3930*) Assign (T 165) (Plain (Einsum [(n_t1'aa,[0;1]); (T 155,[2;0])] [2;1]));
  (*3931*) Assign (T 163) (Plain (Einsum [(n_t2'aaaa,[0;1;2;3]); (T 159,[4;0;1;5])] [4;2;3;5]));
  (*3932*) Assign (T 162) (Plain (Einsum [(n_t2'abab,[0;1;2;3]); (T 161,[4;0;1;3])] [4;2]));
  (*3933*) Assign (T 160) (Plain (Einsum [(T 159,[0;1;2;3]); (n_t2'aaaa,[2;1;4;3])] [0;4]));
  (*3934*) Assign (T 154) (Plain (Einsum [(n_t2'abab,[0;1;2;3]); (n_v'aabb'vvov,[4;2;1;3])] [0;4]));
  (*3935*) Assign (T 153) (Times (Einsum [(n_v'aaaa'ovvv,[0;1;2;3]); (n_t2'aaaa,[4;0;3;1])] [4;2]) (-1) 1);
  (*3936*) Assign (T 151) (Plain (Einsum [(n_t1'aa,[0;1]); (n_v'aabb'vvov,[2;1;3;4])] [0;3;2;4]));
  (*3937*) Assign (T 149) (Plain (Einsum [(n_v'aaaa'ovvv,[0;1;2;3]); (n_t1'aa,[4;3])] [4;0;1;2]));
  (*3938*) Assign (T 147) (Plain (Einsum [(n_v'aaaa'ovvv,[0;1;2;3]); (n_t1'aa,[4;1])] [4;0;2;3]));
  (*3939*) Assign (T 142) (Plain (Einsum [(n_t1'aa,[0;1]); (n_v'aaaa'vvvv,[2;3;4;1])] [0;2;3;4]));
  (*3940*) Assign (T 140) (Plain (Einsum [(n_t1'aa,[0;1]); (T 138,[0;2])] [2;1]));
  (*3941*) Assign (T 137) (Plain (Einsum [(n_t1'aa,[0;1]); (n_f'aa'vv,[2;1])] [0;2]));
  (*3942*) Assign (T 130) (Plain (Einsum [(T 109,[0;1]); (n_t1'aa,[1;2])] [0;2]));
  (*3943*) Assign (T 129) (Plain (Einsum [(n_t1'aa,[0;1]); (T 107,[2;0])] [2;1]));
  (*3944*) Assign (T 128) (Plain (Einsum [(n_t1'aa,[0;1]); (T 105,[2;0])] [2;1]));
  (*3945*) Assign (T 119) (Plain (Einsum [(n_t2'aaaa,[0;1;2;3]); (n_v'aaaa'ooov,[4;0;1;5])] [4;2;3;5]));
  (*3946*) Assign (T 118) (Plain (Einsum [(n_t2'abab,[0;1;2;3]); (n_v'aabb'ooov,[4;0;1;3])] [4;2]));
  (*3947*) Assign (T 117) (Plain (Einsum [(n_t2'aaaa,[0;1;2;3]); (n_v'aaaa'ooov,[4;0;1;3])] [4;2]));
  (*3948*) Assign (T 102) (Plain (Einsum [(n_t1'aa,[0;1]); (n_v'aaaa'oovv,[2;0;3;1])] [2;3]));
  (*3949*) Assign (T 99) (Plain (Einsum [(n_t1'aa,[0;1]); (n_f'aa'oo,[2;0])] [2;1]));
  (*3950*) Assign (T 85) (Plain (Einsum [(T 16,[0;1]); (n_t2'abab,[2;0;3;1])] [2;3]));
  (*3951*) Assign (T 84) (Plain (Einsum [(T 14,[0;1]); (n_t2'aaaa,[2;0;3;1])] [2;3]));
  (*3952*) Assign (T 83) (Plain (Einsum [(T 13,[0;1]); (n_t2'abab,[2;0;3;1])] [2;3]));
  (*3953*) Assign (T 82) (Plain (Einsum [(T 12,[0;1]); (n_t2'abab,[2;0;3;1])] [2;3]));
  (*3954*) Assign (T 81) (Plain (Einsum [(n_t2'aaaa,[0;1;2;3]); (T 10,[1;3])] [0;2]));
  (*3955*) Assign (T 80) (Plain (Einsum [(T 8,[0;1]); (n_t2'aaaa,[2;0;3;1])] [2;3]));
  (*3956*) Assign (T 78) (Plain (Einsum [(n_t2'aaaa,[0;1;2;3]); (n_v'aabb'ovov,[1;3;4;5])] [0;4;2;5]));
  (*3957*) Assign (T 76) (Plain (Einsum [(n_v'aabb'ovov,[0;1;2;3]); (n_t2'abab,[4;2;5;3])] [4;0;5;1]));
  (*3958*) Assign (T 74) (Plain (Einsum [(n_v'bbbb'ovov,[0;1;2;3]); (n_t2'abab,[4;2;5;3])] [4;0;5;1]));
  (*3959*) Assign (T 72) (Plain (Einsum [(n_v'bbbb'ovov,[0;1;2;3]); (n_t2'abab,[4;2;5;1])] [4;0;5;3]));
  (*3960*) Assign (T 70) (Plain (Einsum [(n_v'aaaa'ovov,[0;1;2;3]); (n_t2'aaaa,[4;2;5;3])] [4;0;5;1]));
  (*3961*) Assign (T 68) (Plain (Einsum [(n_v'aaaa'ovov,[0;1;2;3]); (n_t2'aaaa,[4;2;5;1])] [4;0;5;3]));
  (*3962*) Assign (T 64) (Plain (Einsum [(n_v'aabb'vvov,[0;1;2;3]); (n_t2'abab,[4;2;5;3])] [4;5;0;1]));
  (*3963*) Assign (T 62) (Plain (Einsum [(n_v'aaaa'ovvv,[0;1;2;3]); (n_t2'aaaa,[4;0;5;3])] [4;5;1;2]));
  (*3964*) Assign (T 60) (Plain (Einsum [(n_v'aaaa'ovvv,[0;1;2;3]); (n_t2'aaaa,[4;0;5;1])] [4;5;2;3]));
  (*3965*) Assign (T 52) (Plain (Einsum [(n_f'bb'ov,[0;1]); (n_t2'abab,[2;0;3;1])] [2;3]));
  (*3966*) Assign (T 51) (Plain (Einsum [(n_f'aa'ov,[0;1]); (n_t2'aaaa,[2;0;3;1])] [2;3]));
  (*3967*) Assign (T 44) (Plain (Einsum [(n_v'aabb'ovov,[0;1;2;3]); (n_t2'abab,[0;2;1;4])] [4;3]));
  (*3968*) Assign (T 42) (Times (Einsum [(n_v'bbbb'ovov,[0;1;2;3]); (n_t2'bbbb,[0;2;4;1])] [4;3]) (-1) 1);
  (*3969*) Assign (T 23) (Plain (Einsum [(n_v'aabb'ovov,[0;1;2;3]); (n_t2'abab,[0;2;4;3])] [4;1]));
  (*3970*) Assign (T 21) (Times (Einsum [(n_t2'aaaa,[0;1;2;3]); (n_v'aaaa'ovov,[0;3;1;4])] [2;4]) (-1) 1)]
 [(T 102,[4;5]); (T 105,[4;4]); (T 107,[4;4]); (T 109,[4;4]); (T 12,[6;7]); (T 117,[4;5]); (T 118,[4;5]); (T 119,[4;5;5;5]); (T 13,[6;7]); (T 128,[4;5]); (T 129,[4;5]); (T 130,[4;5]); (T 14,[4;5]); (T 137,[4;5]); (T 138,[4;4]); (T 140,[4;5]); (T 142,[4;5;5;5]); (T 147,[4;4;5;5]); (T 149,[4;4;5;5]); (T 16,[6;7]); (T 151,[4;6;5;7]); (T 153,[4;5]); (T 154,[4;5]); (T 155,[4;4]); (T 157,[4;4]); (T 159,[4;4;4;5]); (T 160,[4;5]); (T 161,[4;4;6;7]); (T 162,[4;5]); (T 163,[4;5;5;5]); (T 165,[4;5]); (T 166,[4;5]); (T 167,[4;5]); (T 168,[4;5]); (T 169,[4;5]); (T 174,[4;4]); (T 176,[4;4]); (T 178,[4;4]); (T 186,[4;5]); (T 187,[4;5]); (T 188,[4;5]); (T 197,[4;5;7;7]); (T 200,[4;4;7;7]); (T 21,[5;5]); (T 206,[4;5;7;7]); (T 217,[4;5;7;7]); (T 23,[5;5]); (T 221,[4;5;7;7]); (T 227,[4;4;7;7]); (T 241,[4;5;7;7]); (T 242,[4;5;7;7]); (T 243,[4;5;7;7]); (T 264,[6;5;5;7]); (T 267,[6;6;5;5]); (T 272,[6;7]); (T 273,[6;6]); (T 274,[6;6]); (T 275,[6;6]); (T 277,[6;5;5;7]); (T 287,[6;7]); (T 288,[6;6]); (T 290,[6;5;5;7]); (T 291,[6;6;7;7]); (T 292,[6;6;7;7]); (T 293,[4;6;5;7]); (T 295,[6;7]); (T 296,[6;7]); (T 297,[6;6]); (T 299,[6;6]); (T 301,[4;6;6;5]); (T 302,[6;5;5;7]); (T 304,[6;7]); (T 305,[6;7]); (T 306,[6;7]); (T 308,[6;6]); (T 309,[6;6]); (T 310,[6;6]); (T 32,[7;7]); (T 314,[6;7]); (T 315,[6;6;5;5]); (T 316,[6;6;6;7]); (T 317,[6;7]); (T 318,[6;7]); (T 319,[6;7]); (T 320,[6;7]); (T 33,[7;7]); (T 326,[6;7]); (T 327,[6;7]); (T 328,[6;7]); (T 329,[6;7]); (T 34,[7;7]); (T 335,[6;7]); (T 336,[6;7]); (T 337,[6;7]); (T 338,[6;7]); (T 339,[6;7]); (T 341,[6;7]); (T 342,[6;7]); (T 345,[6;5;5;7]); (T 346,[6;5;5;7]); (T 347,[6;5;5;7]); (T 351,[4;6;5;7]); (T 353,[4;6;5;7]); (T 355,[6;6;7;7]); (T 357,[6;6;7;7]); (T 359,[4;6;5;7]); (T 361,[6;6;7;7]); (T 362,[6;7]); (T 363,[6;7]); (T 364,[6;7]); (T 365,[6;7]); (T 366,[6;7]); (T 367,[6;7]); (T 384,[6;7;7;7]); (T 386,[6;7;7;7]); (T 388,[6;7;7;7]); (T 5,[5;5]); (T 42,[7;7]); (T 424,[6;7;7;7]); (T 44,[7;7]); (T 441,[6;7;7;7]); (T 451,[6;7;7;7]); (T 6,[5;5]); (T 51,[4;5]); (T 52,[4;5]); (T 60,[4;5;5;5]); (T 7,[5;5]); (T 62,[4;5;5;5]); (T 64,[4;5;5;5]); (T 68,[4;4;5;5]); (T 70,[4;4;5;5]); (T 8,[4;5]); (T 72,[4;6;5;7]); (T 74,[4;6;5;7]); (T 76,[4;4;5;5]); (T 78,[4;6;5;7]); (T 80,[4;5]); (T 81,[4;5]); (T 82,[4;5]); (T 83,[4;5]); (T 84,[4;5]); (T 85,[4;5]); (T 10,[4;5]); (T 99,[4;5])].

(** ebcc/codegen/UCCSD.py:3974-4600 [hbar_matvec_ea] *)
Definition UCCSD_hbar_matvec_ea : prog := mkprog
 [(IT 292,[6;6;7;7]); (IT 361,[6;6;7;7]); (IT 357,[6;6;7;7]); (IT 316,[6;6;6;7]); (n_v'bbbb'ooov,[6;6;6;7]); (n_r1'b,[7]); (n_f'bb'ov,[6;7]); (IT 13,[6;7]); (IT 16,[6;7]); (IT 291,[6;6;7;7]); (IT 355,[6;6;7;7]); (IT 301,[4;6;6;5]); (n_v'aabb'ovoo,[4;5;6;6]); (IT 149,[4;4;5;5]); (IT 76,[4;4;5;5]); (IT 70,[4;4;5;5]); (IT 159,[4;4;4;5]); (n_v'aaaa'ooov,[4;4;4;5]); (n_r1'a,[5]); (n_f'aa'ov,[4;5]); (IT 14,[4;5]); (IT 10,[4;5]); (IT 161,[4;4;6;7]); (n_v'aabb'ooov,[4;4;6;7]); (IT 147,[4;4;5;5]); (IT 68,[4;4;5;5]); (n_r2'bbb,[7;7;6]); (IT 12,[6;7]); (n_t1'bb,[6;7]); (n_v'bbbb'ovov,[6;7;6;7]); (n_v'bbbb'ovvv,[6;7;7;7]); (n_r2'aba,[5;7;4]); (n_r2'aaa,[5;5;4]); (IT 8,[4;5]); (n_t1'aa,[4;5]); (n_r2'bab,[7;5;6]); (n_v'aaaa'ovov,[4;5;4;5]); (n_v'aaaa'ovvv,[4;5;5;5]); (n_v'bbbb'oovv,[6;6;7;7]); (IT 441,[6;7;7;7]); (IT 386,[6;7;7;7]); (IT 293,[4;6;5;7]); (IT 353,[4;6;5;7]); (IT 359,[4;6;5;7]); (n_f'bb'vv,[7;7]); (IT 32,[7;7]); (IT 34,[7;7]); (IT 42,[7;7]); (IT 44,[7;7]); (IT 384,[6;7;7;7]); (IT 388,[6;7;7;7]); (n_v'aaaa'oovv,[4;4;5;5]); (IT 142,[4;5;5;5]); (IT 62,[4;5;5;5]); (n_f'aa'vv,[5;5]); (IT 5,[5;5]); (IT 7,[5;5]); (IT 21,[5;5]); (IT 23,[5;5]); (IT 151,[4;6;5;7]); (IT 74,[4;6;5;7]); (IT 78,[4;6;5;7]); (IT 60,[4;5;5;5]); (IT 64,[4;5;5;5]); (n_v'aabb'ovov,[4;5;6;7]); (IT 33,[7;7]); (IT 351,[4;6;5;7]); (IT 72,[4;6;5;7]); (IT 6,[5;5]); (IT 424,[6;7;7;7]); (IT 451,[6;7;7;7]); (IT 272,[6;7]); (IT 295,[6;7]); (IT 305,[6;7]); (IT 314,[6;7]); (IT 317,[6;7]); (IT 318,[6;7]); (IT 319,[6;7]); (IT 320,[6;7]); (IT 327,[6;7]); (IT 328,[6;7]); (IT 329,[6;7]); (IT 335,[6;7]); (IT 336,[6;7]); (IT 338,[6;7]); (IT 339,[6;7]); (IT 362,[6;7]); (IT 364,[6;7]); (IT 287,[6;7]); (IT 296,[6;7]); (IT 304,[6;7]); (IT 306,[6;7]); (IT 326,[6;7]); (IT 337,[6;7]); (IT 341,[6;7]); (IT 342,[6;7]); (IT 363,[6;7]); (IT 365,[6;7]); (IT 366,[6;7]); (IT 367,[6;7]); (n_t2'bbbb,[6;6;7;7]); (n_f'bb'oo,[6;6]); (IT 274,[6;6]); (IT 275,[6;6]); (IT 288,[6;6]); (IT 297,[6;6]); (IT 299,[6;6]); (IT 309,[6;6]); (IT 310,[6;6]); (IT 273,[6;6]); (IT 308,[6;6]); (IT 277,[6;5;5;7]); (IT 290,[6;5;5;7]); (IT 302,[6;5;5;7]); (IT 345,[6;5;5;7]); (IT 347,[6;5;5;7]); (n_v'aabb'vvov,[5;5;6;7]); (IT 264,[6;5;5;7]); (IT 346,[6;5;5;7]); (IT 315,[6;6;5;5]); (n_v'aabb'vvoo,[5;5;6;6]); (IT 267,[6;6;5;5]); (n_v'aabb'ovvv,[4;5;7;7]); (IT 206,[4;5;7;7]); (IT 217,[4;5;7;7]); (IT 221,[4;5;7;7]); (IT 241,[4;5;7;7]); (IT 243,[4;5;7;7]); (IT 197,[4;5;7;7]); (IT 242,[4;5;7;7]); (IT 102,[4;5]); (IT 117,[4;5]); (IT 118,[4;5]); (IT 129,[4;5]); (IT 130,[4;5]); (IT 140,[4;5]); (IT 153,[4;5]); (IT 160,[4;5]); (IT 162,[4;5]); (IT 165,[4;5]); (IT 166,[4;5]); (IT 168,[4;5]); (IT 187,[4;5]); (IT 188,[4;5]); (IT 80,[4;5]); (IT 82,[4;5]); (IT 99,[4;5]); (IT 128,[4;5]); (IT 137,[4;5]); (IT 154,[4;5]); (IT 167,[4;5]); (IT 169,[4;5]); (IT 186,[4;5]); (IT 51,[4;5]); (IT 52,[4;5]); (IT 81,[4;5]); (IT 83,[4;5]); (IT 84,[4;5]); (IT 85,[4;5]); (IT 227,[4;4;7;7]); (n_v'aabb'oovv,[4;4;7;7]); (IT 200,[4;4;7;7]); (n_f'aa'oo,[4;4]); (IT 107,[4;4]); (IT 109,[4;4]); (IT 138,[4;4]); (IT 155,[4;4]); (IT 157,[4;4]); (IT 176,[4;4]); (IT 178,[4;4]); (IT 105,[4;4]); (IT 174,[4;4]); (n_t2'aaaa,[4;4;5;5]); (IT 119,[4;5;5;5]); (IT 163,[4;5;5;5]); (n_v'bbbb'vvvv,[7;7;7;7]); (n_v'aabb'vvvv,[5;5;7;7]); (n_t2'abab,[4;6;5;7]); (n_v'aaaa'vvvv,[5;5;5;5])]
 [(*4004*) Assign (T 131) (Plain (Copy (IT 292)));
  (*4005*) AddTo (T 131) (Plain (Transpose (IT 361) [0;1;3;2]));
  (*4006*) AddTo (T 131) (Times (Transpose (IT 357) [0;1;3;2]) (2) 1);
  (*4007*) Assign (T 129) (Plain (Copy (IT 316)));
  (*4008*) AddTo (T 129) (Plain (Transpose n_v'bbbb'ooov [0;2;1;3]));
  (*4009*) Assign (T 127) (Plain (Einsum [(n_r1'b,[0]); (IT 316,[1;2;3;0])] [1;2;3]));
  (*4010*) Assign (T 105) (Plain (Copy n_f'bb'ov));
  (*4011*) AddTo (T 105) (Plain (Copy (IT 13)));
  (*4012*) AddTo (T 105) (Plain (Copy (IT 16)));
  (*4013*) Assign (T 107) (Plain (Copy (IT 291)));
  (*4014*) AddTo (T 107) (Times (Copy (IT 355)) (2) 1);
  (*4015*) Assign (T 89) (Plain (Copy (IT 301)));
  (*4016*) AddTo (T 89) (Plain (Transpose n_v'aabb'ovoo [0;2;3;1]));
  (*4017*) Assign (T 100) (Plain (Einsum [(n_r1'b,[0]); (n_v'bbbb'ooov,[1;2;3;0])] [1;2;3]));
  (*4018*) Assign (T 103) (Plain (Copy (IT 316)));
  (*4019*) AddTo (T 103) (Plain (Transpose n_v'bbbb'ooov [0;2;1;3]));
  (*4020*) Assign (T 26) (Plain (Copy (IT 149)));
  (*4021*) AddTo (T 26) (Plain (Transpose (IT 76) [0;1;3;2]));
  (*4022*) AddTo (T 26) (Times (Transpose (IT 70) [0;1;3;2]) (2) 1);
  (*4023*) Assign (T 24) (Plain (Copy (IT 159)));
  (*4024*) AddTo (T 24) (Plain (Transpose n_v'aaaa'ooov [0;2;1;3]));
  (*4025*) Assign (T 22) (Plain (Einsum [(n_r1'a,[0]); (IT 159,[1;2;3;0])] [1;2;3]));
  (*4026*) Assign (T 46) (Plain (Copy n_f'aa'ov));
  (*4027*) AddTo (T 46) (Plain (Copy (IT 14)));
  (*4028*) AddTo (T 46) (Plain (Copy (IT 10)));
  (*4029*) Assign (T 42) (Plain (Copy (IT 159)));
  (*4030*) AddTo (T 42) (Plain (Transpose n_v'aaaa'ooov [0;2;1;3]));
  (*4031*) Assign (T 44) (Plain (Copy (IT 161)));
  (*4032*) AddTo (T 44) (Plain (Copy n_v'aabb'ooov));
  (*4033*) Assign (T 40) (Plain (Einsum [(n_v'aaaa'ooov,[0;1;2;3]); (n_r1'a,[3])] [0;1;2]));
  (*4034*) Assign (T 48) (Plain (Copy (IT 147)));
  (*4035*) AddTo (T 48) (Times (Copy (IT 68)) (2) 1);
  (*4036*) Assign (T 126) (Plain (Einsum [(n_r2'bbb,[0;1;2]); (IT 12,[3;1])] [3;2;0]));
  (*4037*) Assign (T 132) (Plain (Einsum [(n_r1'b,[0]); (T 131,[1;2;0;3])] [1;2;3]));
  (*4038*) Del (T 131);
  (*4039*) Assign (T 130) (Times (Einsum [(n_r2'bbb,[0;1;2]); (T 129,[3;4;2;1])] [3;4;0]) (-1) 1);
  (*4040*) Del (T 129);
  (*4041*) Assign (T 128) (Plain (Einsum [(n_t1'bb,[0;1]); (T 127,[2;0;3])] [2;3;1]));
  (*4042*) Del (T 127);
  (*4043*) Assign (T 113) (Plain (Einsum [(n_r1'b,[0]); (n_v'bbbb'ovov,[1;2;3;0])] [1;3;2]));
  (*4044*) Assign (T 114) (Plain (Einsum [(n_r2'bbb,[0;1;2]); (n_v'bbbb'ovvv,[3;0;4;1])] [2;3;4]));
  (*4045*) Assign (T 106) (Times (Einsum [(T 105,[0;1]); (n_r2'bbb,[2;1;3])] [0;3;2]) (-2) 1);
  (*4046*) Del (T 105);
  (*4047*) Assign (T 108) (Plain (Einsum [(n_r1'b,[0]); (T 107,[1;2;3;0])] [1;2;3]));
  (*4048*) Del (T 107);
  (*4049*) Assign (T 102) (Plain (Einsum [(T 89,[0;1;2;3]); (n_r2'aba,[3;4;0])] [1;2;4]));
  (*4050*) Assign (T 101) (Plain (Einsum [(n_t1'bb,[0;1]); (T 100,[2;0;3])] [2;3;1]));
  (*4051*) Del (T 100);
  (*4052*) Assign (T 104) (Times (Einsum [(n_r2'bbb,[0;1;2]); (T 103,[3;2;4;1])] [3;4;0]) (-2) 1);
  (*4053*) Del (T 103);
  (*4054*) Assign (T 27) (Plain (Einsum [(n_r1'a,[0]); (T 26,[1;2;0;3])] [1;2;3]));
  (*4055*) Del (T 26);
  (*4056*) Assign (T 25) (Times (Einsum [(T 24,[0;1;2;3]); (n_r2'aaa,[4;3;2])] [0;1;4]) (-1) 1);
  (*4057*) Del (T 24);
  (*4058*) Assign (T 21) (Plain (Einsum [(n_r2'aaa,[0;1;2]); (IT 8,[3;1])] [3;2;0]));
  (*4059*) Assign (T 23) (Plain (Einsum [(T 22,[0;1;2]); (n_t1'aa,[1;3])] [0;2;3]));
  (*4060*) Del (T 22);
  (*4061*) Assign (T 47) (Times (Einsum [(n_r2'aaa,[0;1;2]); (T 46,[3;1])] [2;3;0]) (-1) 1);
  (*4062*) Del (T 46);
  (*4063*) Assign (T 43) (Times (Einsum [(n_r2'aaa,[0;1;2]); (T 42,[3;2;4;1])] [3;4;0]) (-1) 1);
  (*4064*) Del (T 42);
  (*4065*) Assign (T 45) (Times (Einsum [(T 44,[0;1;2;3]); (n_r2'bab,[3;4;2])] [0;1;4]) (-1) 2);
  (*4066*) Assign (T 41) (Plain (Einsum [(T 40,[0;1;2]); (n_t1'aa,[1;3])] [0;2;3]));
  (*4067*) Del (T 40);
  (*4068*) Assign (T 49) (Times (Einsum [(n_r1'a,[0]); (T 48,[1;2;3;0])] [1;2;3]) (1) 2);
  (*4069*) Del (T 48);
  (*4070*) Assign (T 54) (Plain (Einsum [(n_r1'a,[0]); (n_v'aaaa'ovov,[1;2;3;0])] [1;3;2]));
  (*4071*) Assign (T 55) (Times (Einsum [(n_v'aaaa'ovvv,[0;1;2;3]); (n_r2'aaa,[3;1;4])] [4;0;2]) (-1) 1);
  (*4072*) Assign (T 1) (Plain (Copy n_f'bb'ov));
  (*4073*) AddTo (T 1) (Plain (Copy (IT 13)));
  (*4074*) AddTo (T 1) (Plain (Copy (IT 16)));
  (*4075*) AddTo (T 1) (Times (Copy (IT 12)) (-1) 1);
  (*4076*) Assign (T 120) (Plain (Einsum [(n_v'bbbb'oovv,[0;1;2;3]); (n_r1'b,[3])] [0;1;2]));
  (*4077*) Assign (T 135) (Plain (Copy (IT 441)));
  (*4078*) AddTo (T 135) (Times (Copy (IT 386)) (2) 1);
  (*4079*) Assign (T 124) (Plain (Copy (IT 291)));
  (*4080*) AddTo (T 124) (Times (Copy (IT 355)) (2) 1);
  (*4081*) Assign (T 122) (Plain (Copy (IT 293)));
  (*4082*) AddTo (T 122) (Plain (Copy (IT 353)));
  (*4083*) AddTo (T 122) (Times (Copy (IT 359)) (2) 1);
  (*4084*) Assign (T 133) (Times (Copy (T 126)) (2) 1);
  (*4085*) Del (T 126);
  (*4086*) AddTo (T 133) (Plain (Transpose (T 128) [1;0;2]));
  (*4087*) Del (T 128);
  (*4088*) AddTo (T 133) (Times (Transpose (T 130) [1;0;2]) (-2) 1);
  (*4089*) Del (T 130);
  (*4090*) AddTo (T 133) (Plain (Transpose (T 132) [1;0;2]));
  (*4091*) Del (T 132);
  (*4092*) Assign (T 98) (Times (Copy n_f'bb'vv) (1) 2);
  (*4093*) AddTo (T 98) (Times (Transpose (IT 32) [1;0]) (1) 2);
  (*4094*) AddTo (T 98) (Times (Transpose (IT 34) [1;0]) (1) 2);
  (*4095*) AddTo (T 98) (Times (Transpose (IT 42) [1;0]) (-1) 1);
  (*4096*) AddTo (T 98) (Times (Transpose (IT 44) [1;0]) (-1) 2);
  (*4097*) Assign (T 115) (Plain (Copy (T 113)));
  (*4098*) Del (T 113);
  (*4099*) AddTo (T 115) (Times (Copy (T 114)) (2) 1);
  (*4100*) Del (T 114);
  (*4101*) Assign (T 111) (Plain (Copy (IT 384)));
  (*4102*) AddTo (T 111) (Times (Copy (IT 388)) (1) 2);
  (*4103*) AddTo (T 111) (Times (Copy n_v'bbbb'ovvv) (1) 2);
  (*4104*) Assign (T 96) (Plain (Copy (IT 292)));
  (*4105*) AddTo (T 96) (Times (Transpose (IT 357) [0;1;3;2]) (2) 1);
  (*4106*) AddTo (T 96) (Plain (Transpose (IT 361) [0;1;3;2]));
  (*4107*) Assign (T 109) (Plain (Transpose (T 101) [1;0;2]));
  (*4108*) Del (T 101);
  (*4109*) AddTo (T 109) (Times (Transpose (T 102) [1;0;2]) (-1) 1);
  (*4110*) Del (T 102);
  (*4111*) AddTo (T 109) (Times (Transpose (T 104) [1;0;2]) (-1) 1);
  (*4112*) Del (T 104);
  (*4113*) AddTo (T 109) (Times (Copy (T 106)) (-1) 1);
  (*4114*) Del (T 106);
  (*4115*) AddTo (T 109) (Plain (Transpose (T 108) [1;0;2]));
  (*4116*) Del (T 108);
  (*4117*) Assign (T 2) (Plain (Copy n_f'aa'ov));
  (*4118*) AddTo (T 2) (Plain (Copy (IT 14)));
  (*4119*) AddTo (T 2) (Plain (Copy (IT 10)));
  (*4120*) AddTo (T 2) (Times (Copy (IT 8)) (-1) 1);
  (*4121*) Assign (T 15) (Plain (Einsum [(n_r1'a,[0]); (n_v'aaaa'oovv,[1;2;3;0])] [1;2;3]));
  (*4122*) Assign (T 28) (Times (Transpose (T 21) [1;0;2]) (2) 1);
  (*4123*) Del (T 21);
  (*4124*) AddTo (T 28) (Plain (Copy (T 23)));
  (*4125*) Del (T 23);
  (*4126*) AddTo (T 28) (Times (Copy (T 25)) (-2) 1);
  (*4127*) Del (T 25);
  (*4128*) AddTo (T 28) (Plain (Copy (T 27)));
  (*4129*) Del (T 27);
  (*4130*) Assign (T 30) (Plain (Copy (IT 142)));
  (*4131*) AddTo (T 30) (Times (Copy (IT 62)) (2) 1);
  (*4132*) Assign (T 19) (Plain (Copy (IT 147)));
  (*4133*) AddTo (T 19) (Times (Copy (IT 68)) (2) 1);
  (*4134*) Assign (T 38) (Times (Copy n_f'aa'vv) (1) 2);
  (*4135*) AddTo (T 38) (Times (Transpose (IT 5) [1;0]) (1) 2);
  (*4136*) AddTo (T 38) (Times (Transpose (IT 7) [1;0]) (1) 2);
  (*4137*) AddTo (T 38) (Times (Transpose (IT 21) [1;0]) (-1) 1);
  (*4138*) AddTo (T 38) (Times (Transpose (IT 23) [1;0]) (-1) 2);
  (*4139*) Assign (T 36) (Plain (Copy (IT 151)));
  (*4140*) AddTo (T 36) (Plain (Copy (IT 74)));
  (*4141*) AddTo (T 36) (Times (Copy (IT 78)) (2) 1);
  (*4142*) Assign (T 50) (Times (Transpose (T 41) [1;0;2]) (1) 2);
  (*4143*) Del (T 41);
  (*4144*) AddTo (T 50) (Times (Transpose (T 43) [1;0;2]) (-1) 1);
  (*4145*) Del (T 43);
  (*4146*) AddTo (T 50) (Plain (Transpose (T 45) [1;0;2]));
  (*4147*) Del (T 45);
  (*4148*) AddTo (T 50) (Times (Transpose (T 47) [1;0;2]) (-1) 1);
  (*4149*) Del (T 47);
  (*4150*) AddTo (T 50) (Plain (Transpose (T 49) [1;0;2]));
  (*4151*) Del (T 49);
  (*4152*) Assign (T 34) (Plain (Copy (IT 149)));
  (*4153*) AddTo (T 34) (Times (Transpose (IT 70) [0;1;3;2]) (2) 1);
  (*4154*) AddTo (T 34) (Plain (Transpose (IT 76) [0;1;3;2]));
  (*4155*) Assign (T 52) (Plain (Copy (IT 60)));
  (*4156*) AddTo (T 52) (Times (Copy (IT 64)) (1) 2);
  (*4157*) AddTo (T 52) (Times (Copy n_v'aaaa'ovvv) (1) 2);
  (*4158*) Assign (T 56) (Plain (Copy (T 54)));
  (*4159*) Del (T 54);
  (*4160*) AddTo (T 56) (Times (Copy (T 55)) (2) 1);
  (*4161*) Del (T 55);
  (*4162*) Assign (T 11) (Plain (Einsum [(n_r1'b,[0]); (T 1,[1;0])] [1]));
  (*4163*) Assign (T 9) (Plain (Einsum [(n_v'aabb'ovov,[0;1;2;3]); (n_r2'aba,[1;3;0])] [2]));
  (*4164*) Assign (T 10) (Plain (Einsum [(n_v'bbbb'ovov,[0;1;2;3]); (n_r2'bbb,[1;3;2])] [0]));
  (*4165*) Assign (T 121) (Plain (Einsum [(n_t1'bb,[0;1]); (T 120,[2;0;3])] [2;1;3]));
  (*4166*) Del (T 120);
  (*4167*) Assign (T 136) (Plain (Einsum [(n_r1'b,[0]); (T 135,[1;2;0;3])] [1;2;3]));
  (*4168*) Del (T 135);
  (*4169*) Assign (T 118) (Plain (Einsum [(n_r2'bbb,[0;1;2]); (IT 33,[1;3])] [2;3;0]));
  (*4170*) Assign (T 125) (Times (Einsum [(T 124,[0;1;2;3]); (n_r2'bbb,[4;3;1])] [0;2;4]) (-1) 1);
  (*4171*) Del (T 124);
  (*4172*) Assign (T 123) (Plain (Einsum [(T 122,[0;1;2;3]); (n_r2'aba,[2;4;0])] [1;3;4]));
  (*4173*) Del (T 122);
  (*4174*) Assign (T 134) (Plain (Einsum [(T 133,[0;1;2]); (n_t1'bb,[0;3])] [1;2;3]));
  (*4175*) Del (T 133);
  (*4176*) Assign (T 119) (Plain (Einsum [(n_r2'bbb,[0;1;2]); (n_v'bbbb'ovov,[3;4;2;1])] [3;0;4]));
  (*4177*) Assign (T 94) (Plain (Einsum [(n_v'aabb'ovov,[0;1;2;3]); (n_r2'aba,[1;4;0])] [2;4;3]));
  (*4178*) Assign (T 99) (Times (Einsum [(n_r2'bbb,[0;1;2]); (T 98,[1;3])] [2;3;0]) (-4) 1);
  (*4179*) Del (T 98);
  (*4180*) Assign (T 95) (Plain (Einsum [(n_v'bbbb'oovv,[0;1;2;3]); (n_r2'bbb,[4;3;1])] [0;4;2]));
  (*4181*) Assign (T 116) (Plain (Einsum [(T 115,[0;1;2]); (n_t1'bb,[1;3])] [0;2;3]));
  (*4182*) Del (T 115);
  (*4183*) Assign (T 112) (Times (Einsum [(n_r1'b,[0]); (T 111,[1;2;3;0])] [1;2;3]) (2) 1);
  (*4184*) Del (T 111);
  (*4185*) Assign (T 93) (Plain (Einsum [(IT 351,[0;1;2;3]); (n_r2'aba,[2;4;0])] [1;3;4]));
  (*4186*) Assign (T 97) (Times (Einsum [(T 96,[0;1;2;3]); (n_r2'bbb,[4;2;1])] [0;3;4]) (-2) 1);
  (*4187*) Del (T 96);
  (*4188*) Assign (T 110) (Plain (Einsum [(T 109,[0;1;2]); (n_t1'bb,[0;3])] [1;2;3]));
  (*4189*) Del (T 109);
  (*4190*) Assign (T 78) (Times (Einsum [(n_r2'bab,[0;1;2]); (n_v'aabb'ovov,[3;1;4;0])] [3;2;4]) (-1) 1);
  (*4191*) Assign (T 88) (Plain (Transpose n_r2'aaa [2;0;1]));
  (*4192*) AddTo (T 88) (Times (Einsum [(n_t1'aa,[0;1]); (n_r1'a,[2])] [0;2;1]) (1) 2);
  (*4193*) Assign (T 72) (Plain (Einsum [(T 2,[0;1]); (n_t1'aa,[0;2])] [2;1]));
  (*4194*) Assign (T 79) (Times (Copy (IT 316)) (-1) 1);
  (*4195*) AddTo (T 79) (Plain (Transpose (IT 316) [0;2;1;3]));
  (*4196*) AddTo (T 79) (Plain (Copy n_v'bbbb'ooov));
  (*4197*) AddTo (T 79) (Times (Transpose n_v'bbbb'ooov [0;2;1;3]) (-1) 1);
  (*4198*) Assign (T 5) (Times (Einsum [(n_v'aabb'ovov,[0;1;2;3]); (n_r2'bab,[3;1;2])] [0]) (-1) 1);
  (*4199*) Assign (T 4) (Plain (Einsum [(n_v'aaaa'ovov,[0;1;2;3]); (n_r2'aaa,[1;3;2])] [0]));
  (*4200*) Assign (T 6) (Plain (Einsum [(T 2,[0;1]); (n_r1'a,[1])] [0]));
  (*4201*) Assign (T 64) (Plain (Einsum [(n_v'aabb'ovov,[0;1;2;3]); (n_r2'aba,[1;3;4])] [4;0;2]));
  (*4202*) Assign (T 75) (Plain (Transpose n_r2'bbb [2;0;1]));
  (*4203*) AddTo (T 75) (Times (Einsum [(n_r1'b,[0]); (n_t1'bb,[1;2])] [1;0;2]) (1) 2);
  (*4204*) Assign (T 65) (Plain (Copy (IT 159)));
  (*4205*) AddTo (T 65) (Times (Transpose (IT 159) [0;2;1;3]) (-1) 1);
  (*4206*) AddTo (T 65) (Times (Copy n_v'aaaa'ooov) (-1) 1);
  (*4207*) AddTo (T 65) (Plain (Transpose n_v'aaaa'ooov [0;2;1;3]));
  (*4208*) Assign (T 14) (Plain (Einsum [(n_v'aaaa'ovov,[0;1;2;3]); (n_r2'aaa,[4;3;2])] [0;4;1]));
  (*4209*) Assign (T 16) (Plain (Einsum [(n_t1'aa,[0;1]); (T 15,[2;0;3])] [2;1;3]));
  (*4210*) Del (T 15);
  (*4211*) Assign (T 29) (Plain (Einsum [(n_t1'aa,[0;1]); (T 28,[2;0;3])] [2;1;3]));
  (*4212*) Del (T 28);
  (*4213*) Assign (T 31) (Plain (Einsum [(T 30,[0;1;2;3]); (n_r1'a,[2])] [0;1;3]));
  (*4214*) Del (T 30);
  (*4215*) Assign (T 20) (Times (Einsum [(T 19,[0;1;2;3]); (n_r2'aaa,[4;3;1])] [0;4;2]) (-1) 1);
  (*4216*) Del (T 19);
  (*4217*) Assign (T 18) (Times (Einsum [(n_v'aabb'ovov,[0;1;2;3]); (n_r2'bab,[3;4;2])] [0;4;1]) (-1) 1);
  (*4218*) Assign (T 17) (Times (Einsum [(IT 72,[0;1;2;3]); (n_r2'bab,[3;4;1])] [0;2;4]) (-1) 1);
  (*4219*) Assign (T 13) (Plain (Einsum [(IT 6,[0;1]); (n_r2'aaa,[2;0;3])] [3;1;2]));
  (*4220*) Assign (T 33) (Plain (Einsum [(n_v'aaaa'oovv,[0;1;2;3]); (n_r2'aaa,[4;3;1])] [0;4;2]));
  (*4221*) Assign (T 39) (Times (Einsum [(T 38,[0;1]); (n_r2'aaa,[2;0;3])] [3;2;1]) (-4) 1);
  (*4222*) Del (T 38);
  (*4223*) Assign (T 37) (Times (Einsum [(n_r2'bab,[0;1;2]); (T 36,[3;2;4;0])] [3;1;4]) (-1) 1);
  (*4224*) Del (T 36);
  (*4225*) Assign (T 51) (Times (Einsum [(n_t1'aa,[0;1]); (T 50,[0;2;3])] [2;1;3]) (2) 1);
  (*4226*) Del (T 50);
  (*4227*) Assign (T 35) (Times (Einsum [(T 34,[0;1;2;3]); (n_r2'aaa,[4;2;1])] [0;4;3]) (-2) 1);
  (*4228*) Del (T 34);
  (*4229*) Assign (T 53) (Times (Einsum [(T 52,[0;1;2;3]); (n_r1'a,[3])] [0;1;2]) (2) 1);
  (*4230*) Del (T 52);
  (*4231*) Assign (T 57) (Plain (Einsum [(T 56,[0;1;2]); (n_t1'aa,[1;3])] [0;3;2]));
  (*4232*) Del (T 56);
  (*4233*) Assign (T 138) (Plain (Copy (IT 424)));
  (*4234*) AddTo (T 138) (Times (Copy (IT 451)) (-1) 1);
  (*4235*) Assign (T 12) (Times (Copy (T 9)) (-1) 1);
  (*4236*) Del (T 9);
  (*4237*) AddTo (T 12) (Times (Copy (T 10)) (2) 1);
  (*4238*) Del (T 10);
  (*4239*) AddTo (T 12) (Plain (Copy (T 11)));
  (*4240*) Del (T 11);
  (*4241*) Assign (T 137) (Times (Copy (T 118)) (2) 1);
  (*4242*) Del (T 118);
  (*4243*) AddTo (T 137) (Times (Copy (T 119)) (2) 1);
  (*4244*) Del (T 119);
  (*4245*) AddTo (T 137) (Plain (Copy (T 121)));
  (*4246*) Del (T 121);
  (*4247*) AddTo (T 137) (Plain (Copy (T 123)));
  (*4248*) Del (T 123);
  (*4249*) AddTo (T 137) (Times (Copy (T 125)) (-2) 1);
  (*4250*) Del (T 125);
  (*4251*) AddTo (T 137) (Plain (Copy (T 134)));
  (*4252*) Del (T 134);
  (*4253*) AddTo (T 137) (Plain (Copy (T 136)));
  (*4254*) Del (T 136);
  (*4255*) Assign (T 92) (Plain (Copy (IT 272)));
  (*4256*) AddTo (T 92) (Times (Copy (IT 295)) (2) 1);
  (*4257*) AddTo (T 92) (Plain (Copy (IT 305)));
  (*4258*) AddTo (T 92) (Plain (Copy (IT 314)));
  (*4259*) AddTo (T 92) (Times (Copy (IT 317)) (2) 1);
  (*4260*) AddTo (T 92) (Plain (Copy (IT 318)));
  (*4261*) AddTo (T 92) (Times (Copy (IT 319)) (2) 1);
  (*4262*) AddTo (T 92) (Plain (Copy (IT 320)));
  (*4263*) AddTo (T 92) (Plain (Copy (IT 327)));
  (*4264*) AddTo (T 92) (Plain (Copy (IT 328)));
  (*4265*) AddTo (T 92) (Plain (Copy (IT 329)));
  (*4266*) AddTo (T 92) (Times (Copy (IT 335)) (2) 1);
  (*4267*) AddTo (T 92) (Plain (Copy (IT 336)));
  (*4268*) AddTo (T 92) (Plain (Copy (IT 338)));
  (*4269*) AddTo (T 92) (Plain (Copy (IT 339)));
  (*4270*) AddTo (T 92) (Plain (Copy (IT 362)));
  (*4271*) AddTo (T 92) (Times (Copy (IT 364)) (2) 1);
  (*4272*) AddTo (T 92) (Times (Copy n_f'bb'ov) (-1) 1);
  (*4273*) AddTo (T 92) (Times (Copy (IT 13)) (-1) 1);
  (*4274*) AddTo (T 92) (Times (Copy (IT 16)) (-1) 1);
  (*4275*) AddTo (T 92) (Times (Copy (IT 287)) (-1) 1);
  (*4276*) AddTo (T 92) (Times (Copy (IT 296)) (-1) 1);
  (*4277*) AddTo (T 92) (Times (Copy (IT 304)) (-1) 1);
  (*4278*) AddTo (T 92) (Times (Copy (IT 306)) (-1) 1);
  (*4279*) AddTo (T 92) (Times (Copy (IT 326)) (-1) 1);
  (*4280*) AddTo (T 92) (Times (Copy (IT 337)) (-1) 1);
  (*4281*) AddTo (T 92) (Times (Copy (IT 341)) (-1) 1);
  (*4282*) AddTo (T 92) (Times (Copy (IT 342)) (-2) 1);
  (*4283*) AddTo (T 92) (Times (Copy (IT 363)) (-1) 1);
  (*4284*) AddTo (T 92) (Times (Copy (IT 365)) (-2) 1);
  (*4285*) AddTo (T 92) (Times (Copy (IT 366)) (-1) 1);
  (*4286*) AddTo (T 92) (Times (Copy (IT 367)) (-2) 1);
  (*4287*) Assign (T 139) (Times (Einsum [(n_r2'bbb,[0;1;2]); (n_v'bbbb'ovov,[3;1;4;0])] [2;3;4]) (-1) 1);
  (*4288*) Assign (T 140) (Plain (Copy n_t2'bbbb));
  (*4289*) AddTo (T 140) (Plain (Einsum [(n_t1'bb,[0;1]); (n_t1'bb,[2;3])] [0;2;1;3]));
  (*4290*) Assign (T 117) (Plain (Copy (T 93)));
  (*4291*) Del (T 93);
  (*4292*) AddTo (T 117) (Plain (Copy (T 94)));
  (*4293*) Del (T 94);
  (*4294*) AddTo (T 117) (Times (Copy (T 95)) (2) 1);
  (*4295*) Del (T 95);
  (*4296*) AddTo (T 117) (Times (Copy (T 97)) (-1) 1);
  (*4297*) Del (T 97);
  (*4298*) AddTo (T 117) (Times (Copy (T 99)) (-1) 1);
  (*4299*) Del (T 99);
  (*4300*) AddTo (T 117) (Plain (Copy (T 110)));
  (*4301*) Del (T 110);
  (*4302*) AddTo (T 117) (Plain (Copy (T 112)));
  (*4303*) Del (T 112);
  (*4304*) AddTo (T 117) (Plain (Transpose (T 116) [0;2;1]));
  (*4305*) Del (T 116);
  (*4306*) Assign (T 87) (Plain (Copy n_f'bb'oo));
  (*4307*) AddTo (T 87) (Plain (Transpose (IT 274) [1;0]));
  (*4308*) AddTo (T 87) (Plain (Transpose (IT 275) [1;0]));
  (*4309*) AddTo (T 87) (Plain (Copy (IT 288)));
  (*4310*) AddTo (T 87) (Times (Transpose (IT 297) [1;0]) (2) 1);
  (*4311*) AddTo (T 87) (Plain (Transpose (IT 299) [1;0]));
  (*4312*) AddTo (T 87) (Plain (Transpose (IT 309) [1;0]));
  (*4313*) AddTo (T 87) (Plain (Transpose (IT 310) [1;0]));
  (*4314*) AddTo (T 87) (Times (Transpose (IT 273) [1;0]) (-1) 1);
  (*4315*) AddTo (T 87) (Times (Transpose (IT 308) [1;0]) (-1) 1);
  (*4316*) Assign (T 83) (Times (Transpose n_r2'bab [2;1;0]) (-1) 1);
  (*4317*) AddTo (T 83) (Plain (Einsum [(n_r1'a,[0]); (n_t1'bb,[1;2])] [1;0;2]));
  (*4318*) Assign (T 81) (Times (Transpose n_r2'aaa [2;0;1]) (2) 1);
  (*4319*) AddTo (T 81) (Plain (Einsum [(n_t1'aa,[0;1]); (n_r1'a,[2])] [0;2;1]));
  (*4320*) Assign (T 86) (Plain (Copy (IT 277)));
  (*4321*) AddTo (T 86) (Plain (Copy (IT 290)));
  (*4322*) AddTo (T 86) (Plain (Copy (IT 302)));
  (*4323*) AddTo (T 86) (Plain (Copy (IT 345)));
  (*4324*) AddTo (T 86) (Times (Copy (IT 347)) (2) 1);
  (*4325*) AddTo (T 86) (Plain (Transpose n_v'aabb'vvov [2;0;1;3]));
  (*4326*) AddTo (T 86) (Times (Copy (IT 264)) (-1) 1);
  (*4327*) AddTo (T 86) (Times (Transpose (IT 346) [0;2;1;3]) (-1) 1);
  (*4328*) Assign (T 82) (Plain (Copy (IT 293)));
  (*4329*) AddTo (T 82) (Plain (Copy (IT 353)));
  (*4330*) AddTo (T 82) (Times (Copy (IT 359)) (2) 1);
  (*4331*) AddTo (T 82) (Plain (Transpose n_v'aabb'ovov [0;2;1;3]));
  (*4332*) AddTo (T 82) (Times (Copy (IT 351)) (-1) 1);
  (*4333*) Assign (T 90) (Times (Einsum [(n_v'aabb'vvov,[0;1;2;3]); (n_r2'bab,[3;1;4])] [4;2;0]) (-1) 1);
  (*4334*) AddTo (T 90) (Times (Einsum [(T 78,[0;1;2]); (n_t1'aa,[0;3])] [1;2;3]) (-1) 1);
  (*4335*) AddTo (T 90) (Times (Einsum [(T 89,[0;1;2;3]); (T 88,[0;3;4])] [1;2;4]) (-2) 1);
  (*4336*) Del (T 88);
  (*4337*) Assign (T 84) (Plain (Copy (IT 315)));
  (*4338*) AddTo (T 84) (Plain (Transpose n_v'aabb'vvoo [2;3;0;1]));
  (*4339*) AddTo (T 84) (Times (Copy (IT 267)) (-1) 1);
  (*4340*) Assign (T 91) (Plain (Einsum [(n_v'aabb'ovvv,[0;1;2;3]); (n_r2'bab,[3;1;4])] [0;4;2]));
  (*4341*) AddTo (T 91) (Times (Einsum [(n_r2'bab,[0;1;2]); (T 89,[3;4;2;1])] [3;4;0]) (-1) 1);
  (*4342*) Del (T 89);
  (*4343*) Assign (T 85) (Times (Copy (IT 33)) (1) 2);
  (*4344*) AddTo (T 85) (Plain (Transpose (IT 42) [1;0]));
  (*4345*) AddTo (T 85) (Times (Transpose (IT 44) [1;0]) (1) 2);
  (*4346*) AddTo (T 85) (Times (Copy n_f'bb'vv) (-1) 2);
  (*4347*) AddTo (T 85) (Times (Transpose (IT 32) [1;0]) (-1) 2);
  (*4348*) AddTo (T 85) (Times (Transpose (IT 34) [1;0]) (-1) 2);
  (*4349*) AddTo (T 85) (Times (Einsum [(T 1,[0;1]); (n_t1'bb,[0;2])] [1;2]) (1) 2);
  (*4350*) Assign (T 73) (Times (Transpose (IT 21) [1;0]) (2) 1);
  (*4351*) AddTo (T 73) (Plain (Transpose (IT 23) [1;0]));
  (*4352*) AddTo (T 73) (Plain (Copy (IT 6)));
  (*4353*) AddTo (T 73) (Times (Copy n_f'aa'vv) (-1) 1);
  (*4354*) AddTo (T 73) (Times (Transpose (IT 5) [1;0]) (-1) 1);
  (*4355*) AddTo (T 73) (Times (Transpose (IT 7) [1;0]) (-1) 1);
  (*4356*) AddTo (T 73) (Plain (Transpose (T 72) [1;0]));
  (*4357*) Del (T 72);
  (*4358*) Assign (T 80) (Plain (Transpose (IT 292) [0;1;3;2]));
  (*4359*) AddTo (T 80) (Times (Copy (IT 357)) (2) 1);
  (*4360*) AddTo (T 80) (Plain (Copy (IT 361)));
  (*4361*) AddTo (T 80) (Plain (Transpose n_v'bbbb'ovov [0;2;1;3]));
  (*4362*) AddTo (T 80) (Times (Copy (IT 291)) (-1) 1);
  (*4363*) AddTo (T 80) (Times (Copy (IT 355)) (-2) 1);
  (*4364*) AddTo (T 80) (Times (Copy n_v'bbbb'oovv) (-1) 1);
  (*4365*) AddTo (T 80) (Times (Einsum [(n_t1'bb,[0;1]); (T 79,[2;0;3;4])] [2;3;1;4]) (-1) 1);
  (*4366*) Del (T 79);
  (*4367*) Assign (T 7) (Times (Copy (T 4)) (2) 1);
  (*4368*) Del (T 4);
  (*4369*) AddTo (T 7) (Plain (Copy (T 5)));
  (*4370*) Del (T 5);
  (*4371*) AddTo (T 7) (Plain (Copy (T 6)));
  (*4372*) Del (T 6);
  (*4373*) Assign (T 74) (Plain (Copy (IT 206)));
  (*4374*) AddTo (T 74) (Plain (Copy (IT 217)));
  (*4375*) AddTo (T 74) (Plain (Copy (IT 221)));
  (*4376*) AddTo (T 74) (Plain (Copy (IT 241)));
  (*4377*) AddTo (T 74) (Times (Copy (IT 243)) (2) 1);
  (*4378*) AddTo (T 74) (Plain (Copy n_v'aabb'ovvv));
  (*4379*) AddTo (T 74) (Times (Copy (IT 197)) (-1) 1);
  (*4380*) AddTo (T 74) (Times (Transpose (IT 242) [0;1;3;2]) (-1) 1);
  (*4381*) Assign (T 63) (Plain (Copy (IT 102)));
  (*4382*) AddTo (T 63) (Times (Copy (IT 117)) (2) 1);
  (*4383*) AddTo (T 63) (Plain (Copy (IT 118)));
  (*4384*) AddTo (T 63) (Plain (Copy (IT 129)));
  (*4385*) AddTo (T 63) (Plain (Copy (IT 130)));
  (*4386*) AddTo (T 63) (Plain (Copy (IT 140)));
  (*4387*) AddTo (T 63) (Times (Copy (IT 153)) (2) 1);
  (*4388*) AddTo (T 63) (Times (Copy (IT 160)) (2) 1);
  (*4389*) AddTo (T 63) (Plain (Copy (IT 162)));
  (*4390*) AddTo (T 63) (Times (Copy (IT 165)) (2) 1);
  (*4391*) AddTo (T 63) (Plain (Copy (IT 166)));
  (*4392*) AddTo (T 63) (Plain (Copy (IT 168)));
  (*4393*) AddTo (T 63) (Plain (Copy (IT 187)));
  (*4394*) AddTo (T 63) (Plain (Copy (IT 188)));
  (*4395*) AddTo (T 63) (Times (Copy (IT 80)) (2) 1);
  (*4396*) AddTo (T 63) (Plain (Copy (IT 82)));
  (*4397*) AddTo (T 63) (Plain (Copy (IT 99)));
  (*4398*) AddTo (T 63) (Times (Copy n_f'aa'ov) (-1) 1);
  (*4399*) AddTo (T 63) (Times (Copy (IT 128)) (-1) 1);
  (*4400*) AddTo (T 63) (Times (Copy (IT 137)) (-1) 1);
  (*4401*) AddTo (T 63) (Times (Copy (IT 14)) (-1) 1);
  (*4402*) AddTo (T 63) (Times (Copy (IT 154)) (-1) 1);
  (*4403*) AddTo (T 63) (Times (Copy (IT 167)) (-1) 1);
  (*4404*) AddTo (T 63) (Times (Copy (IT 169)) (-1) 1);
  (*4405*) AddTo (T 63) (Times (Copy (IT 186)) (-1) 1);
  (*4406*) AddTo (T 63) (Times (Copy (IT 51)) (-2) 1);
  (*4407*) AddTo (T 63) (Times (Copy (IT 52)) (-1) 1);
  (*4408*) AddTo (T 63) (Times (Copy (IT 81)) (-2) 1);
  (*4409*) AddTo (T 63) (Times (Copy (IT 83)) (-1) 1);
  (*4410*) AddTo (T 63) (Times (Copy (IT 84)) (-2) 1);
  (*4411*) AddTo (T 63) (Times (Copy (IT 85)) (-1) 1);
  (*4412*) AddTo (T 63) (Times (Copy (IT 10)) (-1) 1);
  (*4413*) Assign (T 67) (Times (Transpose n_r2'bbb [2;0;1]) (2) 1);
  (*4414*) AddTo (T 67) (Plain (Einsum [(n_r1'b,[0]); (n_t1'bb,[1;2])] [1;0;2]));
  (*4415*) Assign (T 70) (Plain (Copy (IT 227)));
  (*4416*) AddTo (T 70) (Plain (Copy n_v'aabb'oovv));
  (*4417*) AddTo (T 70) (Times (Copy (IT 200)) (-1) 1);
  (*4418*) Assign (T 59) (Plain (Copy n_f'aa'oo));
  (*4419*) AddTo (T 59) (Plain (Transpose (IT 107) [1;0]));
  (*4420*) AddTo (T 59) (Plain (Transpose (IT 109) [1;0]));
  (*4421*) AddTo (T 59) (Plain (Copy (IT 138)));
  (*4422*) AddTo (T 59) (Times (Transpose (IT 155) [1;0]) (2) 1);
  (*4423*) AddTo (T 59) (Plain (Transpose (IT 157) [1;0]));
  (*4424*) AddTo (T 59) (Plain (Transpose (IT 176) [1;0]));
  (*4425*) AddTo (T 59) (Plain (Transpose (IT 178) [1;0]));
  (*4426*) AddTo (T 59) (Times (Transpose (IT 105) [1;0]) (-1) 1);
  (*4427*) AddTo (T 59) (Times (Transpose (IT 174) [1;0]) (-1) 1);
  (*4428*) Assign (T 71) (Plain (Copy (IT 33)));
  (*4429*) AddTo (T 71) (Times (Transpose (IT 42) [1;0]) (2) 1);
  (*4430*) AddTo (T 71) (Plain (Transpose (IT 44) [1;0]));
  (*4431*) AddTo (T 71) (Times (Copy n_f'bb'vv) (-1) 1);
  (*4432*) AddTo (T 71) (Times (Transpose (IT 32) [1;0]) (-1) 1);
  (*4433*) AddTo (T 71) (Times (Transpose (IT 34) [1;0]) (-1) 1);
  (*4434*) AddTo (T 71) (Plain (Einsum [(T 1,[0;1]); (n_t1'bb,[0;2])] [1;2]));
  (*4435*) Assign (T 77) (Times (Einsum [(n_r2'aba,[0;1;2]); (n_v'aabb'vvov,[3;0;4;1])] [2;4;3]) (-1) 1);
  (*4436*) AddTo (T 77) (Plain (Einsum [(T 44,[0;1;2;3]); (n_r2'aba,[4;3;1])] [0;2;4]));
  (*4437*) Assign (T 76) (Times (Einsum [(n_r2'aba,[0;1;2]); (n_v'aabb'ovvv,[3;0;4;1])] [2;3;4]) (-1) 2);
  (*4438*) AddTo (T 76) (Times (Einsum [(T 64,[0;1;2]); (n_t1'bb,[2;3])] [0;1;3]) (1) 2);
  (*4439*) AddTo (T 76) (Times (Einsum [(T 44,[0;1;2;3]); (T 75,[2;3;4])] [0;1;4]) (-1) 1);
  (*4440*) Del (T 44);
  (*4440*) Del (T 75);
  (*4441*) Assign (T 66) (Plain (Transpose (IT 149) [0;1;3;2]));
  (*4442*) AddTo (T 66) (Times (Copy (IT 70)) (2) 1);
  (*4443*) AddTo (T 66) (Plain (Copy (IT 76)));
  (*4444*) AddTo (T 66) (Plain (Transpose n_v'aaaa'ovov [0;2;1;3]));
  (*4445*) AddTo (T 66) (Times (Copy (IT 147)) (-1) 1);
  (*4446*) AddTo (T 66) (Times (Copy (IT 68)) (-2) 1);
  (*4447*) AddTo (T 66) (Times (Copy n_v'aaaa'oovv) (-1) 1);
  (*4448*) AddTo (T 66) (Times (Einsum [(T 65,[0;1;2;3]); (n_t1'aa,[2;4])] [0;1;4;3]) (-1) 1);
  (*4449*) Del (T 65);
  (*4450*) Assign (T 69) (Plain (Transpose n_r2'aba [2;0;1]));
  (*4451*) AddTo (T 69) (Times (Einsum [(n_r1'b,[0]); (n_t1'aa,[1;2])] [1;2;0]) (-1) 1);
  (*4452*) Assign (T 68) (Plain (Copy (IT 151)));
  (*4453*) AddTo (T 68) (Plain (Copy (IT 74)));
  (*4454*) AddTo (T 68) (Times (Copy (IT 78)) (2) 1);
  (*4455*) AddTo (T 68) (Plain (Transpose n_v'aabb'ovov [0;2;1;3]));
  (*4456*) AddTo (T 68) (Times (Copy (IT 72)) (-1) 1);
  (*4457*) Assign (T 62) (Plain (Copy n_t2'aaaa));
  (*4458*) AddTo (T 62) (Plain (Einsum [(n_t1'aa,[0;1]); (n_t1'aa,[2;3])] [2;0;3;1]));
  (*4459*) Assign (T 32) (Times (Copy (T 13)) (2) 1);
  (*4460*) Del (T 13);
  (*4461*) AddTo (T 32) (Times (Copy (T 14)) (2) 1);
  (*4462*) Del (T 14);
  (*4463*) AddTo (T 32) (Plain (Copy (T 16)));
  (*4464*) Del (T 16);
  (*4465*) AddTo (T 32) (Plain (Copy (T 17)));
  (*4466*) Del (T 17);
  (*4467*) AddTo (T 32) (Plain (Copy (T 18)));
  (*4468*) Del (T 18);
  (*4469*) AddTo (T 32) (Times (Transpose (T 20) [0;2;1]) (-2) 1);
  (*4470*) Del (T 20);
  (*4471*) AddTo (T 32) (Plain (Transpose (T 29) [0;2;1]));
  (*4472*) Del (T 29);
  (*4473*) AddTo (T 32) (Plain (Copy (T 31)));
  (*4474*) Del (T 31);
  (*4475*) Assign (T 60) (Plain (Copy (IT 119)));
  (*4476*) AddTo (T 60) (Times (Copy (IT 163)) (-1) 1);
  (*4477*) Assign (T 58) (Times (Copy (T 33)) (2) 1);
  (*4478*) Del (T 33);
  (*4479*) AddTo (T 58) (Times (Transpose (T 35) [0;2;1]) (-1) 1);
  (*4480*) Del (T 35);
  (*4481*) AddTo (T 58) (Plain (Transpose (T 37) [0;2;1]));
  (*4482*) Del (T 37);
  (*4483*) AddTo (T 58) (Times (Transpose (T 39) [0;2;1]) (-1) 1);
  (*4484*) Del (T 39);
  (*4485*) AddTo (T 58) (Plain (Transpose (T 51) [0;2;1]));
  (*4486*) Del (T 51);
  (*4487*) AddTo (T 58) (Plain (Copy (T 53)));
  (*4488*) Del (T 53);
  (*4489*) AddTo (T 58) (Plain (Copy (T 57)));
  (*4490*) Del (T 57);
  (*4491*) Assign (T 61) (Plain (Einsum [(n_v'aaaa'ovov,[0;1;2;3]); (n_r2'aaa,[1;3;4])] [4;0;2]));
  (*4492*) Assign (T 8) (Plain (Copy (IT 33)));
  (*4493*) AddTo (T 8) (Times (Transpose (IT 42) [1;0]) (2) 1);
  (*4494*) AddTo (T 8) (Plain (Transpose (IT 44) [1;0]));
  (*4495*) AddTo (T 8) (Times (Copy n_f'bb'vv) (-1) 1);
  (*4496*) AddTo (T 8) (Times (Transpose (IT 32) [1;0]) (-1) 1);
  (*4497*) AddTo (T 8) (Times (Transpose (IT 34) [1;0]) (-1) 1);
  (*4498*) Assign (T 3) (Times (Transpose (IT 21) [1;0]) (2) 1);
  (*4499*) AddTo (T 3) (Plain (Transpose (IT 23) [1;0]));
  (*4500*) AddTo (T 3) (Plain (Copy (IT 6)));
  (*4501*) AddTo (T 3) (Times (Copy n_f'aa'vv) (-1) 1);
  (*4502*) AddTo (T 3) (Times (Transpose (IT 5) [1;0]) (-1) 1);
  (*4503*) AddTo (T 3) (Times (Transpose (IT 7) [1;0]) (-1) 1);
  (*4504*) Assign n_r2new'bbb (Times (Einsum [(n_v'bbbb'vvvv,[0;1;2;3]); (n_r2'bbb,[3;1;4])] [0;2;4]) (-2) 1);
  (*4505*) AddTo n_r2new'bbb (Times (Transpose (T 117) [1;2;0]) (-1) 1);
  (*4506*) AddTo n_r2new'bbb (Plain (Transpose (T 117) [2;1;0]));
  (*4507*) Del (T 117);
  (*4508*) AddTo n_r2new'bbb (Plain (Transpose (T 137) [1;2;0]));
  (*4509*) AddTo n_r2new'bbb (Times (Transpose (T 137) [2;1;0]) (-1) 1);
  (*4510*) Del (T 137);
  (*4511*) AddTo n_r2new'bbb (Times (Einsum [(n_r2'bbb,[0;1;2]); (T 87,[2;3])] [0;1;3]) (-2) 1);
  (*4512*) AddTo n_r2new'bbb (Times (Einsum [(n_t2'bbbb,[0;1;2;3]); (T 12,[1])] [2;3;0]) (2) 1);
  (*4513*) AddTo n_r2new'bbb (Times (Einsum [(T 138,[0;1;2;3]); (n_r1'b,[3])] [2;1;0]) (2) 1);
  (*4514*) Del (T 138);
  (*4515*) AddTo n_r2new'bbb (Times (Einsum [(T 140,[0;1;2;3]); (T 139,[4;0;1])] [3;2;4]) (-2) 1);
  (*4516*) Del (T 140);
  (*4516*) Del (T 139);
  (*4517*) AddTo n_r2new'bbb (Times (Einsum [(n_r1'b,[0]); (T 92,[1;2])] [0;2;1]) (-1) 1);
  (*4518*) AddTo n_r2new'bbb (Plain (Einsum [(n_r1'b,[0]); (T 92,[1;2])] [2;0;1]));
  (*4519*) Assign n_r2new'bab (Plain (Einsum [(n_r2'bab,[0;1;2]); (n_v'aabb'vvvv,[3;1;4;0])] [4;3;2]));
  (*4520*) AddTo n_r2new'bab (Times (Einsum [(T 78,[0;1;2]); (n_t2'abab,[0;2;3;4])] [4;3;1]) (-1) 1);
  (*4521*) Del (T 78);
  (*4522*) AddTo n_r2new'bab (Plain (Einsum [(T 80,[0;1;2;3]); (n_r2'bab,[3;4;1])] [2;4;0]));
  (*4523*) Del (T 80);
  (*4524*) AddTo n_r2new'bab (Plain (Einsum [(T 81,[0;1;2]); (T 82,[0;3;1;4])] [4;2;3]));
  (*4525*) Del (T 81);
  (*4525*) Del (T 82);
  (*4526*) AddTo n_r2new'bab (Plain (Einsum [(T 84,[0;1;2;3]); (T 83,[1;3;4])] [4;2;0]));
  (*4527*) Del (T 84);
  (*4527*) Del (T 83);
  (*4528*) AddTo n_r2new'bab (Times (Einsum [(T 73,[0;1]); (n_r2'bab,[2;0;3])] [2;1;3]) (-1) 1);
  (*4529*) AddTo n_r2new'bab (Times (Einsum [(n_r2'bab,[0;1;2]); (T 85,[0;3])] [3;1;2]) (-2) 1);
  (*4530*) Del (T 85);
  (*4531*) AddTo n_r2new'bab (Times (Einsum [(n_r1'a,[0]); (T 86,[1;2;0;3])] [3;2;1]) (-1) 1);
  (*4532*) Del (T 86);
  (*4533*) AddTo n_r2new'bab (Times (Einsum [(n_r2'bab,[0;1;2]); (T 87,[2;3])] [0;1;3]) (-1) 1);
  (*4534*) Del (T 87);
  (*4535*) AddTo n_r2new'bab (Plain (Einsum [(T 7,[0]); (n_t2'abab,[0;1;2;3])] [3;2;1]));
  (*4536*) AddTo n_r2new'bab (Plain (Einsum [(n_t1'bb,[0;1]); (T 90,[2;0;3])] [1;3;2]));
  (*4537*) Del (T 90);
  (*4538*) AddTo n_r2new'bab (Times (Einsum [(n_t1'aa,[0;1]); (T 91,[0;2;3])] [3;1;2]) (-1) 1);
  (*4539*) Del (T 91);
  (*4540*) AddTo n_r2new'bab (Plain (Einsum [(n_r1'a,[0]); (T 92,[1;2])] [2;0;1]));
  (*4541*) Del (T 92);
  (*4542*) Assign n_r2new'aba (Plain (Einsum [(n_r2'aba,[0;1;2]); (n_v'aabb'vvvv,[3;0;4;1])] [3;4;2]));
  (*4543*) AddTo n_r2new'aba (Plain (Einsum [(T 64,[0;1;2]); (n_t2'abab,[1;2;3;4])] [3;4;0]));
  (*4544*) Del (T 64);
  (*4545*) AddTo n_r2new'aba (Plain (Einsum [(T 66,[0;1;2;3]); (n_r2'aba,[3;4;1])] [2;4;0]));
  (*4546*) Del (T 66);
  (*4547*) AddTo n_r2new'aba (Plain (Einsum [(T 67,[0;1;2]); (T 68,[3;0;4;1])] [4;2;3]));
  (*4548*) Del (T 67);
  (*4548*) Del (T 68);
  (*4549*) AddTo n_r2new'aba (Times (Einsum [(T 69,[0;1;2]); (T 70,[3;0;4;2])] [1;4;3]) (-1) 1);
  (*4550*) Del (T 69);
  (*4550*) Del (T 70);
  (*4551*) AddTo n_r2new'aba (Times (Einsum [(n_r2'aba,[0;1;2]); (T 71,[1;3])] [0;3;2]) (-1) 1);
  (*4552*) Del (T 71);
  (*4553*) AddTo n_r2new'aba (Times (Einsum [(T 73,[0;1]); (n_r2'aba,[0;2;3])] [1;2;3]) (-1) 1);
  (*4554*) Del (T 73);
  (*4555*) AddTo n_r2new'aba (Times (Einsum [(n_r1'b,[0]); (T 74,[1;2;3;0])] [2;3;1]) (-1) 1);
  (*4556*) Del (T 74);
  (*4557*) AddTo n_r2new'aba (Times (Einsum [(n_r2'aba,[0;1;2]); (T 59,[2;3])] [0;1;3]) (-1) 1);
  (*4558*) AddTo n_r2new'aba (Plain (Einsum [(T 12,[0]); (n_t2'abab,[1;0;2;3])] [2;3;1]));
  (*4559*) AddTo n_r2new'aba (Times (Einsum [(n_t1'aa,[0;1]); (T 76,[2;0;3])] [1;3;2]) (2) 1);
  (*4560*) Del (T 76);
  (*4561*) AddTo n_r2new'aba (Plain (Einsum [(n_t1'bb,[0;1]); (T 77,[2;0;3])] [3;1;2]));
  (*4562*) Del (T 77);
  (*4563*) AddTo n_r2new'aba (Plain (Einsum [(T 63,[0;1]); (n_r1'b,[2])] [1;2;0]));
  (*4564*) Assign n_r2new'aaa (Times (Einsum [(n_r2'aaa,[0;1;2]); (n_v'aaaa'vvvv,[3;1;4;0])] [3;4;2]) (-2) 1);
  (*4565*) AddTo n_r2new'aaa (Plain (Transpose (T 32) [1;2;0]));
  (*4566*) AddTo n_r2new'aaa (Times (Transpose (T 32) [2;1;0]) (-1) 1);
  (*4567*) Del (T 32);
  (*4568*) AddTo n_r2new'aaa (Times (Transpose (T 58) [1;2;0]) (-1) 1);
  (*4569*) AddTo n_r2new'aaa (Plain (Transpose (T 58) [2;1;0]));
  (*4570*) Del (T 58);
  (*4571*) AddTo n_r2new'aaa (Times (Einsum [(T 59,[0;1]); (n_r2'aaa,[2;3;0])] [2;3;1]) (-2) 1);
  (*4572*) Del (T 59);
  (*4573*) AddTo n_r2new'aaa (Times (Einsum [(n_t2'aaaa,[0;1;2;3]); (T 7,[1])] [2;3;0]) (2) 1);
  (*4574*) AddTo n_r2new'aaa (Times (Einsum [(T 60,[0;1;2;3]); (n_r1'a,[3])] [2;1;0]) (2) 1);
  (*4575*) Del (T 60);
  (*4576*) AddTo n_r2new'aaa (Times (Einsum [(T 62,[0;1;2;3]); (T 61,[4;0;1])] [3;2;4]) (-2) 1);
  (*4577*) Del (T 62);
  (*4577*) Del (T 61);
  (*4578*) AddTo n_r2new'aaa (Times (Einsum [(n_r1'a,[0]); (T 63,[1;2])] [0;2;1]) (-1) 1);
  (*4579*) AddTo n_r2new'aaa (Plain (Einsum [(n_r1'a,[0]); (T 63,[1;2])] [2;0;1]));
  (*4580*) Del (T 63);
  (*4581*) Assign n_r1new'b (Times (Einsum [(n_r2'bbb,[0;1;2]); (n_v'bbbb'ovvv,[2;1;3;0])] [3]) (2) 1);
  (*4582*) AddTo n_r1new'b (Times (Einsum [(n_v'aabb'ovvv,[0;1;2;3]); (n_r2'aba,[1;3;0])] [2]) (-1) 1);
  (*4583*) AddTo n_r1new'b (Times (Einsum [(T 2,[0;1]); (n_r2'aba,[1;2;0])] [2]) (-1) 1);
  (*4584*) AddTo n_r1new'b (Times (Einsum [(n_r2'bbb,[0;1;2]); (T 1,[2;1])] [0]) (2) 1);
  (*4585*) AddTo n_r1new'b (Times (Einsum [(n_r1'b,[0]); (T 8,[0;1])] [1]) (-1) 1);
  (*4586*) Del (T 8);
  (*4587*) AddTo n_r1new'b (Times (Einsum [(n_t1'bb,[0;1]); (T 12,[0])] [1]) (-1) 1);
  (*4588*) Del (T 12);
  (*4589*) Assign n_r1new'a (Times (Einsum [(n_v'aaaa'ovvv,[0;1;2;3]); (n_r2'aaa,[3;1;0])] [2]) (2) 1);
  (*4590*) AddTo n_r1new'a (Times (Einsum [(n_v'aabb'vvov,[0;1;2;3]); (n_r2'bab,[3;1;2])] [0]) (-1) 1);
  (*4591*) AddTo n_r1new'a (Times (Einsum [(T 1,[0;1]); (n_r2'bab,[1;2;0])] [2]) (-1) 1);
  (*4592*) Del (T 1);
  (*4593*) AddTo n_r1new'a (Times (Einsum [(T 2,[0;1]); (n_r2'aaa,[2;1;0])] [2]) (2) 1);
  (*4594*) Del (T 2);
  (*4595*) AddTo n_r1new'a (Times (Einsum [(n_r1'a,[0]); (T 3,[0;1])] [1]) (-1) 1);
  (*4596*) Del (T 3);
  (*4597*) AddTo n_r1new'a (Times (Einsum [(n_t1'aa,[0;1]); (T 7,[0])] [1]) (-1) 1);
  (*4598*) Del (T 7)]
 [(n_r1new'b,[7]); (n_r1new'a,[5]); (n_r2new'bbb,[7;7;6]); (n_r2new'bab,[7;5;6]); (n_r2new'aba,[5;7;4]); (n_r2new'aaa,[5;5;4])].

(** ebcc/codegen/UCCSD.py:4602-5030 [hbar_lmatvec_ip_intermediates] *)
Definition UCCSD_hbar_lmatvec_ip_intermediates : prog := mkprog
 [(n_t1'aa,[4;5]); (n_v'aabb'ovov,[4;5;6;7]); (n_v'bbbb'ovov,[6;7;6;7]); (n_t1'bb,[6;7]); (n_v'aaaa'ovov,[4;5;4;5]); (n_v'aabb'vvov,[5;5;6;7]); (n_v'bbbb'ovvv,[6;7;7;7]); (n_v'aabb'ovoo,[4;5;6;6]); (n_v'aabb'ooov,[4;4;6;7]); (n_v'bbbb'ooov,[6;6;6;7]); (n_t2'abab,[4;6;5;7]); (n_t2'bbbb,[6;6;7;7]); (n_v'aabb'ovvv,[4;5;7;7]); (n_v'aaaa'ovvv,[4;5;5;5]); (n_v'aaaa'ooov,[4;4;4;5]); (n_t2'aaaa,[4;4;5;5]); (n_f'bb'ov,[6;7]); (n_f'aa'ov,[4;5]); (n_v'aabb'vvoo,[5;5;6;6]); (n_v'bbbb'oovv,[6;6;7;7]); (n_v'aabb'oooo,[4;4;6;6]); (n_v'bbbb'oooo,[6;6;6;6]); (n_v'aabb'oovv,[4;4;7;7]); (n_v'aaaa'oovv,[4;4;5;5]); (n_v'aaaa'oooo,[4;4;4;4]); (n_f'bb'vv,[7;7]); (n_f'aa'vv,[5;5]); (n_f'bb'oo,[6;6]); (n_f'aa'oo,[4;4])]
 [(*4825*) Assign (T 46) (Plain (Einsum [(n_t1'aa,[0;1]); (n_v'aabb'ovov,[2;1;3;4])] [0;2;3;4]));
  (*4826*) Assign (T 120) (Plain (Einsum [(n_v'bbbb'ovov,[0;1;2;3]); (n_t1'bb,[4;3])] [4;0;2;1]));
  (*4827*) Assign (T 42) (Plain (Einsum [(n_t1'aa,[0;1]); (n_v'aaaa'ovov,[2;3;4;1])] [0;2;4;3]));
  (*4828*) Assign (T 39) (Plain (Einsum [(n_v'aabb'ovov,[0;1;2;3]); (n_t1'aa,[0;1])] [2;3]));
  (*4829*) Assign (T 40) (Plain (Einsum [(n_v'aabb'ovov,[0;1;2;3]); (n_t1'bb,[2;3])] [0;1]));
  (*4830*) Assign (T 37) (Plain (Einsum [(n_v'bbbb'ovov,[0;1;2;3]); (n_t1'bb,[2;3])] [0;1]));
  (*4831*) Assign (T 90) (Plain (Einsum [(n_v'bbbb'ovov,[0;1;2;3]); (n_t1'bb,[2;1])] [0;3]));
  (*4832*) Assign (T 33) (Plain (Einsum [(n_t1'aa,[0;1]); (n_v'aaaa'ovov,[2;3;0;1])] [2;3]));
  (*4833*) Assign (T 83) (Plain (Einsum [(n_t1'aa,[0;1]); (n_v'aaaa'ovov,[2;1;0;3])] [2;3]));
  (*4834*) Assign (T 215) (Plain (Einsum [(T 46,[0;1;2;3]); (n_t1'bb,[4;3])] [0;1;4;2]));
  (*4835*) Assign (T 334) (Plain (Einsum [(n_t1'bb,[0;1]); (T 120,[2;3;4;1])] [0;2;3;4]));
  (*4836*) Assign (T 328) (Plain (Einsum [(n_v'aabb'vvov,[0;1;2;3]); (n_t1'bb,[4;3])] [4;2;0;1]));
  (*4837*) Assign (T 325) (Plain (Einsum [(n_t1'bb,[0;1]); (n_v'bbbb'ovvv,[2;3;4;1])] [0;2;3;4]));
  (*4838*) Assign (T 175) (Plain (Einsum [(n_t1'aa,[0;1]); (n_v'aabb'ovoo,[2;1;3;4])] [0;2;3;4]));
  (*4839*) Assign (T 177) (Plain (Einsum [(n_v'aabb'ooov,[0;1;2;3]); (n_t1'bb,[4;3])] [0;1;4;2]));
  (*4840*) Assign (T 315) (Plain (Einsum [(n_v'bbbb'ooov,[0;1;2;3]); (n_t1'bb,[4;3])] [4;0;1;2]));
  (*4841*) Assign (T 152) (Plain (Einsum [(n_v'aabb'ovov,[0;1;2;3]); (n_t2'abab,[4;5;1;3])] [4;0;5;2]));
  (*4842*) Assign (T 307) (Times (Einsum [(n_t2'bbbb,[0;1;2;3]); (n_v'bbbb'ovov,[4;3;5;2])] [0;1;4;5]) (-1) 1);
  (*4843*) Assign (T 125) (Plain (Einsum [(n_t1'bb,[0;1]); (n_v'aabb'ovov,[2;3;4;1])] [2;0;4;3]));
  (*4844*) Assign (T 212) (Plain (Einsum [(T 42,[0;1;2;3]); (n_t1'aa,[4;3])] [4;0;1;2]));
  (*4845*) Assign (T 210) (Plain (Einsum [(T 39,[0;1]); (n_t1'bb,[2;1])] [2;0]));
  (*4846*) Assign (T 157) (Plain (Einsum [(T 40,[0;1]); (n_t1'aa,[2;1])] [2;0]));
  (*4847*) Assign (T 206) (Plain (Einsum [(n_t1'bb,[0;1]); (T 37,[2;1])] [0;2]));
  (*4848*) Assign (T 204) (Plain (Einsum [(T 90,[0;1]); (n_t1'bb,[2;1])] [2;0]));
  (*4849*) Assign (T 156) (Plain (Einsum [(n_t1'aa,[0;1]); (T 33,[2;1])] [0;2]));
  (*4850*) Assign (T 155) (Plain (Einsum [(T 83,[0;1]); (n_t1'aa,[2;1])] [2;0]));
  (*4851*) Assign (T 197) (Plain (Einsum [(n_t1'aa,[0;1]); (n_v'aabb'ovvv,[2;1;3;4])] [0;2;3;4]));
  (*4852*) Assign (T 194) (Plain (Einsum [(n_v'aaaa'ovvv,[0;1;2;3]); (n_t1'aa,[4;3])] [4;0;1;2]));
  (*4853*) Assign (T 191) (Plain (Einsum [(n_v'aabb'vvov,[0;1;2;3]); (n_t1'bb,[2;3])] [0;1]));
  (*4854*) Assign (T 189) (Plain (Einsum [(n_v'aabb'ovvv,[0;1;2;3]); (n_t1'aa,[0;1])] [2;3]));
  (*4855*) Assign (T 187) (Plain (Einsum [(n_t1'bb,[0;1]); (n_v'bbbb'ovvv,[0;2;3;1])] [2;3]));
  (*4856*) Assign (T 185) (Plain (Einsum [(n_v'bbbb'ovvv,[0;1;2;3]); (n_t1'bb,[0;1])] [2;3]));
  (*4857*) Assign (T 182) (Plain (Einsum [(n_v'aaaa'ovvv,[0;1;2;3]); (n_t1'aa,[0;3])] [1;2]));
  (*4858*) Assign (T 179) (Plain (Einsum [(n_v'aaaa'ovvv,[0;1;2;3]); (n_t1'aa,[0;1])] [2;3]));
  (*4859*) Assign (T 170) (Plain (Einsum [(n_v'aaaa'ooov,[0;1;2;3]); (n_t1'aa,[4;3])] [4;0;1;2]));
  (*4860*) Assign (T 168) (Plain (Einsum [(n_v'aabb'ovoo,[0;1;2;3]); (n_t1'aa,[0;1])] [2;3]));
  (*4861*) Assign (T 28) (Plain (Einsum [(n_t1'bb,[0;1]); (n_v'aabb'ooov,[2;3;0;1])] [2;3]));
  (*4862*) Assign (T 164) (Plain (Einsum [(n_t1'bb,[0;1]); (n_v'bbbb'ooov,[2;3;0;1])] [2;3]));
  (*4863*) Assign (T 162) (Plain (Einsum [(n_t1'bb,[0;1]); (n_v'bbbb'ooov,[2;0;3;1])] [2;3]));
  (*4864*) Assign (T 27) (Plain (Einsum [(n_v'aaaa'ooov,[0;1;2;3]); (n_t1'aa,[2;3])] [0;1]));
  (*4865*) Assign (T 26) (Plain (Einsum [(n_v'aaaa'ooov,[0;1;2;3]); (n_t1'aa,[1;3])] [0;2]));
  (*4866*) Assign (T 149) (Plain (Einsum [(n_t2'aaaa,[0;1;2;3]); (n_v'aaaa'ovov,[4;2;5;3])] [0;1;4;5]));
  (*4867*) Assign (T 50) (Plain (Einsum [(n_v'aabb'ovov,[0;1;2;3]); (n_t2'abab,[4;2;1;3])] [4;0]));
  (*4868*) Assign (T 144) (Plain (Einsum [(n_v'aabb'ovov,[0;1;2;3]); (n_t2'abab,[0;4;1;3])] [4;2]));
  (*4869*) Assign (T 141) (Times (Einsum [(n_t2'bbbb,[0;1;2;3]); (n_v'bbbb'ovov,[4;3;1;2])] [0;4]) (-1) 1);
  (*4870*) Assign (T 48) (Plain (Einsum [(n_v'aaaa'ovov,[0;1;2;3]); (n_t2'aaaa,[4;2;1;3])] [4;0]));
  (*4871*) Assign (T 22) (Plain (Einsum [(n_t1'bb,[0;1]); (n_f'bb'ov,[2;1])] [2;0]));
  (*4872*) Assign (T 2) (Plain (Einsum [(n_t1'aa,[0;1]); (n_f'aa'ov,[2;1])] [2;0]));
  (*4873*) Assign (T 454) (Plain (Einsum [(n_v'aabb'ovov,[0;1;2;3]); (n_t2'abab,[4;2;1;5])] [4;0;5;3]));
  (*4874*) Assign (T 452) (Plain (Einsum [(n_v'aabb'ovov,[0;1;2;3]); (n_t2'abab,[0;2;1;4])] [4;3]));
  (*4875*) Assign (T 450) (Plain (Einsum [(n_t2'bbbb,[0;1;2;3]); (n_v'bbbb'ovov,[0;4;1;3])] [2;4]));
  (*4876*) Assign (T 439) (Plain (Einsum [(n_v'aabb'ovov,[0;1;2;3]); (n_t2'abab,[0;4;1;5])] [4;2;5;3]));
  (*4877*) Assign (T 437) (Plain (Einsum [(n_t2'aaaa,[0;1;2;3]); (n_v'aabb'ovov,[1;3;4;5])] [0;4;2;5]));
  (*4878*) Assign (T 435) (Plain (Einsum [(n_t2'bbbb,[0;1;2;3]); (n_v'bbbb'ovov,[4;5;1;3])] [0;4;2;5]));
  (*4879*) Assign (T 433) (Plain (Einsum [(n_v'bbbb'ovov,[0;1;2;3]); (n_t2'abab,[4;2;5;3])] [4;0;5;1]));
  (*4880*) Assign (T 431) (Plain (Einsum [(n_t2'bbbb,[0;1;2;3]); (n_v'bbbb'ovov,[4;3;1;5])] [0;4;2;5]));
  (*4881*) Assign (T 429) (Plain (Einsum [(n_v'bbbb'ovov,[0;1;2;3]); (n_t2'abab,[4;2;5;1])] [4;0;5;3]));
  (*4882*) Assign (T 427) (Plain (Einsum [(n_t1'aa,[0;1]); (n_v'aabb'vvov,[2;1;3;4])] [0;3;2;4]));
  (*4883*) Assign (T 426) (Plain (Einsum [(n_t1'bb,[0;1]); (n_v'bbbb'ovvv,[2;1;3;4])] [0;2;3;4]));
  (*4884*) Assign (T 423) (Plain (Einsum [(n_v'aabb'ovov,[0;1;2;3]); (n_t2'abab,[0;4;5;3])] [4;2;5;1]));
  (*4885*) Assign (T 394) (Plain (Einsum [(n_v'aabb'ovov,[0;1;2;3]); (n_t2'abab,[0;2;4;3])] [4;1]));
  (*4886*) Assign (T 392) (Times (Einsum [(n_t2'aaaa,[0;1;2;3]); (n_v'aaaa'ovov,[0;3;1;4])] [2;4]) (-1) 1);
  (*4887*) Assign (T 362) (Plain (Einsum [(n_t2'bbbb,[0;1;2;3]); (n_v'aabb'ovov,[4;5;1;3])] [4;0;5;2]));
  (*4888*) Assign (T 360) (Plain (Einsum [(n_v'aabb'ovov,[0;1;2;3]); (n_t2'abab,[4;2;5;3])] [4;0;5;1]));
  (*4889*) Assign (T 358) (Plain (Einsum [(n_v'aaaa'ovov,[0;1;2;3]); (n_t2'abab,[2;4;3;5])] [0;4;1;5]));
  (*4890*) Assign (T 356) (Plain (Einsum [(n_v'aaaa'ovov,[0;1;2;3]); (n_t2'aaaa,[4;2;5;3])] [4;0;5;1]));
  (*4891*) Assign (T 354) (Plain (Einsum [(n_v'aaaa'ovov,[0;1;2;3]); (n_t2'abab,[2;4;1;5])] [0;4;3;5]));
  (*4892*) Assign (T 352) (Plain (Einsum [(n_v'aaaa'ovov,[0;1;2;3]); (n_t2'aaaa,[4;2;5;1])] [4;0;5;3]));
  (*4893*) Assign (T 350) (Plain (Einsum [(n_v'aabb'ovvv,[0;1;2;3]); (n_t1'bb,[4;3])] [0;4;1;2]));
  (*4894*) Assign (T 347) (Plain (Einsum [(n_v'aaaa'ovvv,[0;1;2;3]); (n_t1'aa,[4;1])] [4;0;2;3]));
  (*4895*) Assign (T 337) (Plain (Einsum [(T 215,[0;1;2;3]); (n_t1'aa,[1;4])] [0;2;3;4]));
  (*4896*) Assign (T 335) (Plain (Einsum [(T 334,[0;1;2;3]); (n_t1'bb,[3;4])] [0;1;2;4]));
  (*4897*) Assign (T 329) (Plain (Einsum [(n_t1'aa,[0;1]); (T 328,[2;3;4;1])] [0;2;3;4]));
  (*4898*) Assign (T 326) (Plain (Einsum [(T 325,[0;1;2;3]); (n_t1'bb,[4;2])] [4;0;1;3]));
  (*4899*) Assign (T 321) (Plain (Einsum [(n_t1'aa,[0;1]); (T 175,[2;0;3;4])] [2;3;4;1]));
  (*4900*) Assign (T 320) (Plain (Einsum [(n_t1'aa,[0;1]); (T 177,[2;0;3;4])] [2;3;4;1]));
  (*4901*) Assign (T 318) (Plain (Einsum [(T 315,[0;1;2;3]); (n_t1'bb,[3;4])] [0;1;2;4]));
  (*4902*) Assign (T 316) (Plain (Einsum [(n_t1'bb,[0;1]); (T 315,[2;3;0;4])] [2;3;4;1]));
  (*4903*) Assign (T 310) (Plain (Einsum [(n_t1'aa,[0;1]); (T 152,[2;0;3;4])] [2;3;4;1]));
  (*4904*) Assign (T 308) (Plain (Einsum [(n_t1'bb,[0;1]); (T 307,[2;3;4;0])] [2;3;4;1]));
  (*4905*) Assign (T 302) (Plain (Einsum [(n_t2'abab,[0;1;2;3]); (T 46,[4;0;5;3])] [4;1;5;2]));
  (*4906*) Assign (T 300) (Plain (Einsum [(T 125,[0;1;2;3]); (n_t2'abab,[0;4;3;5])] [1;4;2;5]));
  (*4907*) Assign (T 298) (Plain (Einsum [(T 125,[0;1;2;3]); (n_t2'aaaa,[4;0;5;3])] [4;1;2;5]));
  (*4908*) Assign (T 296) (Plain (Einsum [(T 120,[0;1;2;3]); (n_t2'bbbb,[4;2;5;3])] [0;4;1;5]));
  (*4909*) Assign (T 295) (Plain (Einsum [(T 120,[0;1;2;3]); (n_t2'abab,[4;2;5;3])] [4;0;1;5]));
  (*4910*) Assign (T 293) (Plain (Einsum [(n_t2'bbbb,[0;1;2;3]); (T 120,[4;1;5;3])] [4;0;5;2]));
  (*4911*) Assign (T 292) (Plain (Einsum [(n_t2'abab,[0;1;2;3]); (T 120,[4;1;5;3])] [0;4;5;2]));
  (*4912*) Assign (T 286) (Plain (Einsum [(T 39,[0;1]); (n_t2'bbbb,[2;3;4;1])] [2;3;0;4]));
  (*4913*) Assign (T 284) (Plain (Einsum [(T 39,[0;1]); (n_t2'abab,[2;3;4;1])] [2;3;0;4]));
  (*4914*) Assign (T 282) (Plain (Einsum [(T 37,[0;1]); (n_t2'bbbb,[2;3;4;1])] [2;3;0;4]));
  (*4915*) Assign (T 280) (Plain (Einsum [(n_t2'abab,[0;1;2;3]); (T 37,[4;3])] [0;1;4;2]));
  (*4916*) Assign (T 278) (Plain (Einsum [(T 90,[0;1]); (n_t2'bbbb,[2;3;4;1])] [2;3;0;4]));
  (*4917*) Assign (T 276) (Plain (Einsum [(T 90,[0;1]); (n_t2'abab,[2;3;4;1])] [2;3;0;4]));
  (*4918*) Assign (T 265) (Plain (Einsum [(n_t2'abab,[0;1;2;3]); (n_v'aabb'vvov,[4;2;5;3])] [0;1;5;4]));
  (*4919*) Assign (T 263) (Times (Einsum [(n_v'bbbb'ovvv,[0;1;2;3]); (n_t2'bbbb,[4;5;3;1])] [4;5;0;2]) (-1) 1);
  (*4920*) Assign (T 257) (Plain (Einsum [(n_v'aabb'ovoo,[0;1;2;3]); (n_t2'abab,[0;4;1;5])] [4;2;3;5]));
  (*4921*) Assign (T 255) (Plain (Einsum [(n_t2'aaaa,[0;1;2;3]); (n_v'aabb'ovoo,[1;3;4;5])] [0;4;5;2]));
  (*4922*) Assign (T 254) (Plain (Einsum [(n_t2'abab,[0;1;2;3]); (n_v'aabb'ooov,[4;0;5;3])] [4;1;5;2]));
  (*4923*) Assign (T 252) (Plain (Einsum [(n_v'bbbb'ooov,[0;1;2;3]); (n_t2'bbbb,[4;2;5;3])] [4;0;1;5]));
  (*4924*) Assign (T 251) (Plain (Einsum [(n_t2'abab,[0;1;2;3]); (n_v'bbbb'ooov,[4;5;1;3])] [0;4;5;2]));
  (*4925*) Assign (T 249) (Plain (Einsum [(n_t2'bbbb,[0;1;2;3]); (n_v'bbbb'ooov,[4;1;5;3])] [0;4;5;2]));
  (*4926*) Assign (T 248) (Plain (Einsum [(n_t2'abab,[0;1;2;3]); (n_v'bbbb'ooov,[4;1;5;3])] [0;4;5;2]));
  (*4927*) Assign (T 241) (Plain (Einsum [(n_t1'aa,[0;1]); (n_v'aabb'vvoo,[2;1;3;4])] [0;3;4;2]));
  (*4928*) Assign (T 239) (Plain (Einsum [(n_t1'bb,[0;1]); (n_v'bbbb'oovv,[2;3;4;1])] [0;2;3;4]));
  (*4929*) Assign (T 233) (Plain (Einsum [(n_t1'aa,[0;1]); (n_v'aabb'oooo,[2;0;3;4])] [2;3;4;1]));
  (*4930*) Assign (T 231) (Plain (Einsum [(n_t1'bb,[0;1]); (n_v'bbbb'oooo,[2;3;4;0])] [2;3;4;1]));
  (*4931*) Assign (T 226) (Plain (Einsum [(n_f'bb'ov,[0;1]); (n_t2'bbbb,[2;3;4;1])] [0;2;3;4]));
  (*4932*) Assign (T 224) (Plain (Einsum [(n_f'bb'ov,[0;1]); (n_t2'abab,[2;3;4;1])] [2;0;3;4]));
  (*4933*) Assign (T 216) (Plain (Einsum [(n_t1'bb,[0;1]); (T 215,[2;3;4;0])] [2;3;4;1]));
  (*4934*) Assign (T 213) (Plain (Einsum [(n_t1'aa,[0;1]); (T 212,[2;3;4;0])] [2;3;4;1]));
  (*4935*) Assign (T 211) (Plain (Einsum [(n_t1'bb,[0;1]); (T 210,[2;0])] [2;1]));
  (*4936*) Assign (T 208) (Plain (Einsum [(n_t1'aa,[0;1]); (T 157,[2;0])] [2;1]));
  (*4937*) Assign (T 207) (Plain (Einsum [(n_t1'bb,[0;1]); (T 206,[2;0])] [2;1]));
  (*4938*) Assign (T 205) (Plain (Einsum [(n_t1'bb,[0;1]); (T 204,[2;0])] [2;1]));
  (*4939*) Assign (T 202) (Plain (Einsum [(n_t1'aa,[0;1]); (T 156,[2;0])] [2;1]));
  (*4940*) Assign (T 200) (Plain (Einsum [(n_t1'aa,[0;1]); (T 155,[2;0])] [2;1]));
  (*4941*) Assign (T 198) (Plain (Einsum [(T 197,[0;1;2;3]); (n_t1'bb,[4;3])] [0;1;4;2]));
  (*4942*) Assign (T 195) (Plain (Einsum [(n_t1'aa,[0;1]); (T 194,[2;3;1;4])] [0;2;3;4]));
  (*4943*) Assign (T 192) (Plain (Einsum [(n_t1'aa,[0;1]); (T 191,[2;1])] [0;2]));
  (*4944*) Assign (T 190) (Plain (Einsum [(T 189,[0;1]); (n_t1'bb,[2;1])] [2;0]));
  (*4945*) Assign (T 188) (Plain (Einsum [(T 187,[0;1]); (n_t1'bb,[2;0])] [2;1]));
  (*4946*) Assign (T 186) (Plain (Einsum [(T 185,[0;1]); (n_t1'bb,[2;1])] [2;0]));
  (*4947*) Assign (T 183) (Plain (Einsum [(T 182,[0;1]); (n_t1'aa,[2;0])] [2;1]));
  (*4948*) Assign (T 180) (Plain (Einsum [(n_t1'aa,[0;1]); (T 179,[2;1])] [0;2]));
  (*4949*) Assign (T 178) (Plain (Einsum [(n_t1'bb,[0;1]); (T 177,[2;3;4;0])] [2;3;4;1]));
  (*4950*) Assign (T 176) (Plain (Einsum [(n_t1'bb,[0;1]); (T 175,[2;3;4;0])] [2;3;4;1]));
  (*4951*) Assign (T 173) (Plain (Einsum [(n_t1'aa,[0;1]); (T 170,[2;3;4;0])] [2;3;4;1]));
  (*4952*) Assign (T 171) (Plain (Einsum [(T 170,[0;1;2;3]); (n_t1'aa,[2;4])] [0;1;3;4]));
  (*4953*) Assign (T 169) (Plain (Einsum [(n_t1'bb,[0;1]); (T 168,[2;0])] [2;1]));
  (*4954*) Assign (T 166) (Plain (Einsum [(n_t1'aa,[0;1]); (T 28,[2;0])] [2;1]));
  (*4955*) Assign (T 165) (Plain (Einsum [(n_t1'bb,[0;1]); (T 164,[2;0])] [2;1]));
  (*4956*) Assign (T 163) (Plain (Einsum [(n_t1'bb,[0;1]); (T 162,[2;0])] [2;1]));
  (*4957*) Assign (T 160) (Plain (Einsum [(n_t1'aa,[0;1]); (T 27,[2;0])] [2;1]));
  (*4958*) Assign (T 158) (Plain (Einsum [(T 26,[0;1]); (n_t1'aa,[1;2])] [0;2]));
  (*4959*) Assign (T 153) (Plain (Einsum [(n_t1'bb,[0;1]); (T 152,[2;3;4;0])] [2;3;4;1]));
  (*4960*) Assign (T 150) (Plain (Einsum [(n_t1'aa,[0;1]); (T 149,[2;3;4;0])] [2;3;4;1]));
  (*4961*) Assign (T 147) (Plain (Einsum [(n_t1'aa,[0;1]); (T 50,[2;0])] [2;1]));
  (*4962*) Assign (T 145) (Plain (Einsum [(n_t1'bb,[0;1]); (T 144,[2;0])] [2;1]));
  (*4963*) Assign (T 142) (Plain (Einsum [(n_t1'bb,[0;1]); (T 141,[2;0])] [2;1]));
  (*4964*) Assign (T 139) (Plain (Einsum [(n_t1'aa,[0;1]); (T 48,[2;0])] [2;1]));
  (*4965*) Assign (T 138) (Plain (Einsum [(T 125,[0;1;2;3]); (n_t2'abab,[4;2;3;5])] [4;0;1;5]));
  (*4966*) Assign (T 136) (Plain (Einsum [(T 46,[0;1;2;3]); (n_t2'bbbb,[4;2;5;3])] [0;1;4;5]));
  (*4967*) Assign (T 134) (Plain (Einsum [(T 46,[0;1;2;3]); (n_t2'abab,[4;2;5;3])] [0;4;1;5]));
  (*4968*) Assign (T 133) (Plain (Einsum [(T 42,[0;1;2;3]); (n_t2'abab,[2;4;3;5])] [0;1;4;5]));
  (*4969*) Assign (T 131) (Plain (Einsum [(n_t2'aaaa,[0;1;2;3]); (T 42,[4;5;1;3])] [4;0;5;2]));
  (*4970*) Assign (T 130) (Plain (Einsum [(n_t2'abab,[0;1;2;3]); (T 42,[4;0;5;2])] [4;5;1;3]));
  (*4971*) Assign (T 128) (Plain (Einsum [(n_t2'aaaa,[0;1;2;3]); (T 42,[4;1;5;3])] [4;0;5;2]));
  (*4972*) Assign (T 126) (Plain (Einsum [(T 125,[0;1;2;3]); (n_t2'abab,[0;2;3;4])] [1;4]));
  (*4973*) Assign (T 123) (Plain (Einsum [(n_t2'abab,[0;1;2;3]); (T 46,[4;0;1;3])] [4;2]));
  (*4974*) Assign (T 121) (Plain (Einsum [(T 120,[0;1;2;3]); (n_t2'bbbb,[2;1;4;3])] [0;4]));
  (*4975*) Assign (T 118) (Times (Einsum [(T 42,[0;1;2;3]); (n_t2'aaaa,[1;2;4;3])] [0;4]) (-1) 1);
  (*4976*) Assign (T 116) (Plain (Einsum [(T 40,[0;1]); (n_t2'abab,[2;3;1;4])] [2;0;3;4]));
  (*4977*) Assign (T 114) (Plain (Einsum [(T 40,[0;1]); (n_t2'aaaa,[2;3;4;1])] [2;3;0;4]));
  (*4978*) Assign (T 112) (Plain (Einsum [(T 33,[0;1]); (n_t2'abab,[2;3;1;4])] [2;0;3;4]));
  (*4979*) Assign (T 110) (Plain (Einsum [(T 33,[0;1]); (n_t2'aaaa,[2;3;4;1])] [2;3;0;4]));
  (*4980*) Assign (T 108) (Plain (Einsum [(T 83,[0;1]); (n_t2'abab,[2;3;1;4])] [2;0;3;4]));
  (*4981*) Assign (T 106) (Plain (Einsum [(T 83,[0;1]); (n_t2'aaaa,[2;3;4;1])] [2;3;0;4]));
  (*4982*) Assign (T 104) (Plain (Einsum [(T 39,[0;1]); (n_t2'bbbb,[2;0;3;1])] [2;3]));
  (*4983*) Assign (T 102) (Plain (Einsum [(T 39,[0;1]); (n_t2'abab,[2;0;3;1])] [2;3]));
  (*4984*) Assign (T 101) (Plain (Einsum [(n_t2'abab,[0;1;2;3]); (T 40,[0;2])] [1;3]));
  (*4985*) Assign (T 99) (Plain (Einsum [(n_t2'aaaa,[0;1;2;3]); (T 40,[1;3])] [0;2]));
  (*4986*) Assign (T 97) (Plain (Einsum [(T 37,[0;1]); (n_t2'bbbb,[2;0;3;1])] [2;3]));
  (*4987*) Assign (T 95) (Plain (Einsum [(T 37,[0;1]); (n_t2'abab,[2;0;3;1])] [2;3]));
  (*4988*) Assign (T 93) (Plain (Einsum [(T 90,[0;1]); (n_t2'bbbb,[2;0;3;1])] [2;3]));
  (*4989*) Assign (T 91) (Plain (Einsum [(n_t2'abab,[0;1;2;3]); (T 90,[1;3])] [0;2]));
  (*4990*) Assign (T 89) (Plain (Einsum [(T 33,[0;1]); (n_t2'abab,[0;2;1;3])] [2;3]));
  (*4991*) Assign (T 87) (Plain (Einsum [(T 33,[0;1]); (n_t2'aaaa,[2;0;3;1])] [2;3]));
  (*4992*) Assign (T 86) (Plain (Einsum [(T 83,[0;1]); (n_t2'abab,[0;2;1;3])] [2;3]));
  (*4993*) Assign (T 84) (Plain (Einsum [(n_t2'aaaa,[0;1;2;3]); (T 83,[1;3])] [0;2]));
  (*4994*) Assign (T 81) (Plain (Einsum [(n_v'aabb'ovvv,[0;1;2;3]); (n_t2'abab,[4;5;1;3])] [4;0;5;2]));
  (*4995*) Assign (T 79) (Plain (Einsum [(n_v'aaaa'ovvv,[0;1;2;3]); (n_t2'aaaa,[4;5;1;3])] [4;5;0;2]));
  (*4996*) Assign (T 77) (Plain (Einsum [(n_t2'abab,[0;1;2;3]); (n_v'aabb'vvov,[4;2;1;3])] [0;4]));
  (*4997*) Assign (T 75) (Plain (Einsum [(n_v'aabb'ovvv,[0;1;2;3]); (n_t2'abab,[0;4;1;3])] [4;2]));
  (*4998*) Assign (T 73) (Times (Einsum [(n_v'bbbb'ovvv,[0;1;2;3]); (n_t2'bbbb,[4;0;3;1])] [4;2]) (-1) 1);
  (*4999*) Assign (T 71) (Plain (Einsum [(n_v'aaaa'ovvv,[0;1;2;3]); (n_t2'aaaa,[4;0;1;3])] [4;2]));
  (*5000*) Assign (T 69) (Plain (Einsum [(n_v'aabb'ooov,[0;1;2;3]); (n_t2'bbbb,[4;2;5;3])] [0;1;4;5]));
  (*5001*) Assign (T 67) (Plain (Einsum [(n_v'aabb'ooov,[0;1;2;3]); (n_t2'abab,[4;2;5;3])] [4;0;1;5]));
  (*5002*) Assign (T 66) (Plain (Einsum [(n_v'aabb'ovoo,[0;1;2;3]); (n_t2'abab,[4;3;1;5])] [4;0;2;5]));
  (*5003*) Assign (T 65) (Plain (Einsum [(n_v'aaaa'ooov,[0;1;2;3]); (n_t2'abab,[2;4;3;5])] [0;1;4;5]));
  (*5004*) Assign (T 63) (Plain (Einsum [(n_t2'aaaa,[0;1;2;3]); (n_v'aaaa'ooov,[4;5;1;3])] [0;4;5;2]));
  (*5005*) Assign (T 62) (Plain (Einsum [(n_v'aaaa'ooov,[0;1;2;3]); (n_t2'abab,[1;4;3;5])] [0;2;4;5]));
  (*5006*) Assign (T 60) (Plain (Einsum [(n_t2'aaaa,[0;1;2;3]); (n_v'aaaa'ooov,[4;1;5;3])] [0;4;5;2]));
  (*5007*) Assign (T 58) (Plain (Einsum [(n_v'aabb'ooov,[0;1;2;3]); (n_t2'abab,[1;2;4;3])] [0;4]));
  (*5008*) Assign (T 56) (Plain (Einsum [(n_v'aabb'ovoo,[0;1;2;3]); (n_t2'abab,[0;3;1;4])] [2;4]));
  (*5009*) Assign (T 54) (Plain (Einsum [(n_v'bbbb'ooov,[0;1;2;3]); (n_t2'bbbb,[1;2;4;3])] [0;4]));
  (*5010*) Assign (T 52) (Times (Einsum [(n_v'aaaa'ooov,[0;1;2;3]); (n_t2'aaaa,[2;1;4;3])] [0;4]) (-1) 1);
  (*5011*) Assign (T 47) (Plain (Einsum [(n_v'aabb'oovv,[0;1;2;3]); (n_t1'bb,[4;3])] [0;1;4;2]));
  (*5012*) Assign (T 44) (Plain (Einsum [(n_t1'aa,[0;1]); (n_v'aaaa'oovv,[2;3;4;1])] [0;2;3;4]));
  (*5013*) Assign (T 38) (Plain (Einsum [(n_v'bbbb'oovv,[0;1;2;3]); (n_t1'bb,[1;3])] [0;2]));
  (*5014*) Assign (T 35) (Plain (Einsum [(n_t1'aa,[0;1]); (n_v'aaaa'oovv,[2;0;3;1])] [2;3]));
  (*5015*) Assign (T 31) (Plain (Einsum [(n_t1'bb,[0;1]); (n_v'aabb'oooo,[2;3;4;0])] [2;3;4;1]));
  (*5016*) Assign (T 29) (Plain (Einsum [(n_t1'aa,[0;1]); (n_v'aaaa'oooo,[2;3;4;0])] [2;3;4;1]));
  (*5017*) Assign (T 23) (Plain (Einsum [(n_t1'bb,[0;1]); (T 22,[0;2])] [2;1]));
  (*5018*) Assign (T 20) (Plain (Einsum [(n_t1'aa,[0;1]); (T 2,[0;2])] [2;1]));
  (*5019*) Assign (T 18) (Plain (Einsum [(n_t2'abab,[0;1;2;3]); (n_f'aa'ov,[4;2])] [4;0;1;3]));
  (*5020*) Assign (T 16) (Plain (Einsum [(n_f'aa'ov,[0;1]); (n_t2'aaaa,[2;3;4;1])] [0;2;3;4]));
  (*5021*) Assign (T 14) (Plain (Einsum [(n_f'bb'ov,[0;1]); (n_t2'bbbb,[2;0;3;1])] [2;3]));
  (*5022*) Assign (T 12) (Plain (Einsum [(n_f'bb'ov,[0;1]); (n_t2'abab,[2;0;3;1])] [2;3]));
  (*5023*) Assign (T 11) (Plain (Einsum [(n_f'aa'ov,[0;1]); (n_t2'abab,[0;2;1;3])] [2;3]));
  (*5024*) Assign (T 9) (Plain (Einsum [(n_f'aa'ov,[0;1]); (n_t2'aaaa,[2;0;3;1])] [2;3]));
  (*5025*) Assign (T 8) (Plain (Einsum [(n_f'bb'vv,[0;1]); (n_t1'bb,[2;1])] [2;0]));
  (*5026*) Assign (T 6) (Plain (Einsum [(n_t1'aa,[0;1]); (n_f'aa'vv,[2;1])] [0;2]));
  (*5027*) Assign (T 5) (Plain (Einsum [(n_t1'bb,[0;1]); (n_f'bb'oo,[2;0])] [2;1]));
  (*5028*) Assign (T 3) (Plain (Einsum [(n_f'aa'oo,[0;1]); (n_t1'aa,[1;2])] [0;2]))]
 [(T 2,[4;4]); (T 11,[6;7]); (T 101,[6;7]); (T 102,[4;5]); (T 104,[6;7]); (T 106,[4;4;4;5]); (T 108,[4;4;6;7]); (T 110,[4;4;4;5]); (T 12,[4;5]); (T 112,[4;4;6;7]); (T 114,[4;4;4;5]); (T 116,[4;4;6;7]); (T 118,[4;5]); (T 120,[6;6;6;7]); (T 121,[6;7]); (T 123,[4;5]); (T 125,[4;6;6;5]); (T 126,[6;7]); (T 128,[4;4;4;5]); (T 130,[4;4;6;7]); (T 14,[6;7]); (T 131,[4;4;4;5]); (T 133,[4;4;6;7]); (T 134,[4;4;4;5]); (T 136,[4;4;6;7]); (T 138,[4;4;6;7]); (T 139,[4;5]); (T 141,[6;6]); (T 142,[6;7]); (T 144,[6;6]); (T 145,[6;7]); (T 147,[4;5]); (T 149,[4;4;4;4]); (T 150,[4;4;4;5]); (T 16,[4;4;4;5]); (T 152,[4;4;6;6]); (T 153,[4;4;6;7]); (T 155,[4;4]); (T 156,[4;4]); (T 157,[4;4]); (T 158,[4;5]); (T 160,[4;5]); (T 162,[6;6]); (T 163,[6;7]); (T 164,[6;6]); (T 165,[6;7]); (T 166,[4;5]); (T 168,[6;6]); (T 169,[6;7]); (T 170,[4;4;4;4]); (T 18,[4;4;6;7]); (T 171,[4;4;4;5]); (T 173,[4;4;4;5]); (T 175,[4;4;6;6]); (T 176,[4;4;6;7]); (T 177,[4;4;6;6]); (T 178,[4;4;6;7]); (T 179,[5;5]); (T 180,[4;5]); (T 182,[5;5]); (T 183,[4;5]); (T 185,[7;7]); (T 186,[6;7]); (T 187,[7;7]); (T 188,[6;7]); (T 189,[7;7]); (T 190,[6;7]); (T 20,[4;5]); (T 191,[5;5]); (T 192,[4;5]); (T 194,[4;4;5;5]); (T 195,[4;4;4;5]); (T 197,[4;4;7;7]); (T 198,[4;4;6;7]); (T 200,[4;5]); (T 3,[4;5]); (T 202,[4;5]); (T 204,[6;6]); (T 205,[6;7]); (T 206,[6;6]); (T 207,[6;7]); (T 208,[4;5]); (T 210,[6;6]); (T 22,[6;6]); (T 211,[6;7]); (T 212,[4;4;4;4]); (T 213,[4;4;4;5]); (T 215,[4;4;6;6]); (T 216,[4;4;6;7]); (T 23,[6;7]); (T 224,[4;6;6;5]); (T 226,[6;6;6;7]); (T 231,[6;6;6;7]); (T 233,[4;6;6;5]); (T 239,[6;6;6;7]); (T 241,[4;6;6;5]); (T 248,[4;6;6;5]); (T 249,[6;6;6;7]); (T 26,[4;4]); (T 251,[4;6;6;5]); (T 252,[6;6;6;7]); (T 254,[4;6;6;5]); (T 255,[4;6;6;5]); (T 257,[6;6;6;7]); (T 27,[4;4]); (T 263,[6;6;6;7]); (T 265,[4;6;6;5]); (T 28,[4;4]); (T 276,[4;6;6;5]); (T 278,[6;6;6;7]); (T 280,[4;6;6;5]); (T 29,[4;4;4;5]); (T 282,[6;6;6;7]); (T 284,[4;6;6;5]); (T 286,[6;6;6;7]); (T 292,[4;6;6;5]); (T 293,[6;6;6;7]); (T 295,[4;6;6;5]); (T 296,[6;6;6;7]); (T 298,[4;6;6;5]); (T 300,[6;6;6;7]); (T 31,[4;4;6;7]); (T 302,[4;6;6;5]); (T 307,[6;6;6;6]); (T 308,[6;6;6;7]); (T 310,[4;6;6;5]); (T 315,[6;6;6;6]); (T 316,[6;6;6;7]); (T 318,[6;6;6;7]); (T 320,[4;6;6;5]); (T 33,[4;5]); (T 321,[4;6;6;5]); (T 325,[6;6;7;7]); (T 326,[6;6;6;7]); (T 328,[6;6;5;5]); (T 329,[4;6;6;5]); (T 334,[6;6;6;6]); (T 335,[6;6;6;7]); (T 337,[4;6;6;5]); (T 35,[4;5]); (T 347,[4;4;5;5]); (T 350,[4;6;5;7]); (T 352,[4;4;5;5]); (T 354,[4;6;5;7]); (T 356,[4;4;5;5]); (T 358,[4;6;5;7]); (T 360,[4;4;5;5]); (T 37,[6;7]); (T 362,[4;6;5;7]); (T 38,[6;7]); (T 39,[6;7]); (T 40,[4;5]); (T 392,[5;5]); (T 394,[5;5]); (T 5,[6;7]); (T 42,[4;4;4;5]); (T 423,[6;6;5;5]); (T 426,[6;6;7;7]); (T 427,[4;6;5;7]); (T 429,[4;6;5;7]); (T 44,[4;4;4;5]); (T 431,[6;6;7;7]); (T 433,[4;6;5;7]); (T 435,[6;6;7;7]); (T 437,[4;6;5;7]); (T 439,[6;6;7;7]); (T 450,[7;7]); (T 46,[4;4;6;7]); (T 452,[7;7]); (T 454,[4;4;7;7]); (T 47,[4;4;6;7]); (T 48,[4;4]); (T 50,[4;4]); (T 6,[4;5]); (T 52,[4;5]); (T 54,[6;7]); (T 56,[6;7]); (T 58,[4;5]); (T 60,[4;4;4;5]); (T 62,[4;4;6;7]); (T 63,[4;4;4;5]); (T 65,[4;4;6;7]); (T 66,[4;4;6;7]); (T 67,[4;4;4;5]); (T 69,[4;4;6;7]); (T 8,[6;7]); (T 71,[4;5]); (T 73,[6;7]); (T 75,[6;7]); (T 77,[4;5]); (T 79,[4;4;4;5]); (T 9,[4;5]); (T 81,[4;4;6;7]); (T 83,[4;5]); (T 84,[4;5]); (T 86,[6;7]); (T 87,[4;5]); (T 89,[6;7]); (T 90,[6;7]); (T 91,[4;5]); (T 93,[6;7]); (T 95,[4;5]); (T 97,[6;7]); (T 99,[4;5])].

(** ebcc/codegen/UCCSD.py:5032-5606 [hbar_lmatvec_ip] *)
Definition UCCSD_hbar_lmatvec_ip : prog := mkprog
 [(n_t2'bbbb,[6;6;7;7]); (n_r2'bbb,[6;6;7]); (n_r2'aba,[4;6;5]); (n_t2'abab,[4;6;5;7]); (n_f'bb'oo,[6;6]); (IT 164,[6;6]); (IT 168,[6;6]); (IT 206,[6;6]); (IT 210,[6;6]); (IT 22,[6;6]); (IT 426,[6;6;7;7]); (IT 431,[6;6;7;7]); (IT 427,[4;6;5;7]); (IT 433,[4;6;5;7]); (IT 437,[4;6;5;7]); (n_f'bb'ov,[6;7]); (IT 37,[6;7]); (IT 39,[6;7]); (IT 90,[6;7]); (IT 120,[6;6;6;7]); (n_t1'bb,[6;7]); (n_v'bbbb'ooov,[6;6;6;7]); (n_t1'aa,[4;5]); (IT 141,[6;6]); (IT 144,[6;6]); (IT 162,[6;6]); (IT 204,[6;6]); (IT 325,[6;6;7;7]); (IT 435,[6;6;7;7]); (IT 439,[6;6;7;7]); (n_f'aa'ov,[4;5]); (IT 33,[4;5]); (IT 40,[4;5]); (IT 83,[4;5]); (IT 48,[4;4]); (IT 50,[4;4]); (IT 155,[4;4]); (IT 26,[4;4]); (n_r2'bab,[6;4;7]); (IT 194,[4;4;5;5]); (IT 356,[4;4;5;5]); (IT 360,[4;4;5;5]); (n_v'aaaa'ooov,[4;4;4;5]); (n_r2'aaa,[4;4;5]); (IT 350,[4;6;5;7]); (IT 358,[4;6;5;7]); (IT 362,[4;6;5;7]); (n_t2'aaaa,[4;4;5;5]); (IT 42,[4;4;4;5]); (IT 347,[4;4;5;5]); (IT 352,[4;4;5;5]); (n_f'aa'oo,[4;4]); (IT 156,[4;4]); (IT 157,[4;4]); (IT 2,[4;4]); (IT 27,[4;4]); (IT 28,[4;4]); (n_r1'b,[6]); (n_v'bbbb'ovov,[6;7;6;7]); (IT 429,[4;6;5;7]); (IT 315,[6;6;6;6]); (n_v'aabb'ooov,[4;4;6;7]); (n_v'bbbb'oovv,[6;6;7;7]); (IT 46,[4;4;6;7]); (n_v'aabb'ovov,[4;5;6;7]); (IT 170,[4;4;4;4]); (n_v'aaaa'oovv,[4;4;5;5]); (IT 125,[4;6;6;5]); (n_v'aabb'ovoo,[4;5;6;6]); (n_r1'a,[4]); (n_v'aaaa'ovov,[4;5;4;5]); (IT 354,[4;6;5;7]); (IT 307,[6;6;6;6]); (IT 334,[6;6;6;6]); (n_v'bbbb'oooo,[6;6;6;6]); (IT 187,[7;7]); (IT 450,[7;7]); (IT 452,[7;7]); (n_f'bb'vv,[7;7]); (IT 185,[7;7]); (IT 189,[7;7]); (IT 152,[4;4;6;6]); (IT 175,[4;4;6;6]); (IT 177,[4;4;6;6]); (IT 215,[4;4;6;6]); (n_v'aabb'oooo,[4;4;6;6]); (IT 197,[4;4;7;7]); (n_v'aabb'oovv,[4;4;7;7]); (IT 454,[4;4;7;7]); (IT 182,[5;5]); (IT 392,[5;5]); (IT 394,[5;5]); (n_f'aa'vv,[5;5]); (IT 179,[5;5]); (IT 191,[5;5]); (IT 328,[6;6;5;5]); (n_v'aabb'vvoo,[5;5;6;6]); (IT 423,[6;6;5;5]); (IT 149,[4;4;4;4]); (IT 212,[4;4;4;4]); (n_v'aaaa'oooo,[4;4;4;4]); (IT 121,[6;7]); (IT 126,[6;7]); (IT 142,[6;7]); (IT 145,[6;7]); (IT 165,[6;7]); (IT 169,[6;7]); (IT 188,[6;7]); (IT 207,[6;7]); (IT 211,[6;7]); (IT 23,[6;7]); (IT 38,[6;7]); (IT 5,[6;7]); (IT 54,[6;7]); (IT 56,[6;7]); (IT 73,[6;7]); (IT 86,[6;7]); (IT 93,[6;7]); (IT 101,[6;7]); (IT 104,[6;7]); (IT 11,[6;7]); (IT 14,[6;7]); (IT 163,[6;7]); (IT 186,[6;7]); (IT 190,[6;7]); (IT 205,[6;7]); (IT 75,[6;7]); (IT 8,[6;7]); (IT 89,[6;7]); (IT 97,[6;7]); (IT 118,[4;5]); (IT 123,[4;5]); (IT 139,[4;5]); (IT 147,[4;5]); (IT 160,[4;5]); (IT 166,[4;5]); (IT 183,[4;5]); (IT 20,[4;5]); (IT 202,[4;5]); (IT 208,[4;5]); (IT 3,[4;5]); (IT 35,[4;5]); (IT 52,[4;5]); (IT 58,[4;5]); (IT 71,[4;5]); (IT 84,[4;5]); (IT 91,[4;5]); (IT 102,[4;5]); (IT 12,[4;5]); (IT 158,[4;5]); (IT 180,[4;5]); (IT 192,[4;5]); (IT 200,[4;5]); (IT 6,[4;5]); (IT 77,[4;5]); (IT 87,[4;5]); (IT 9,[4;5]); (IT 95,[4;5]); (IT 99,[4;5]); (IT 226,[6;6;6;7]); (IT 231,[6;6;6;7]); (IT 239,[6;6;6;7]); (IT 252,[6;6;6;7]); (IT 257,[6;6;6;7]); (IT 282,[6;6;6;7]); (IT 286,[6;6;6;7]); (IT 296,[6;6;6;7]); (IT 308,[6;6;6;7]); (IT 316,[6;6;6;7]); (IT 335,[6;6;6;7]); (IT 249,[6;6;6;7]); (IT 263,[6;6;6;7]); (IT 278,[6;6;6;7]); (IT 293,[6;6;6;7]); (IT 300,[6;6;6;7]); (IT 318,[6;6;6;7]); (IT 326,[6;6;6;7]); (IT 224,[4;6;6;5]); (IT 241,[4;6;6;5]); (IT 251,[4;6;6;5]); (IT 255,[4;6;6;5]); (IT 265,[4;6;6;5]); (IT 280,[4;6;6;5]); (IT 284,[4;6;6;5]); (IT 292,[4;6;6;5]); (IT 298,[4;6;6;5]); (IT 329,[4;6;6;5]); (IT 233,[4;6;6;5]); (IT 248,[4;6;6;5]); (IT 254,[4;6;6;5]); (IT 276,[4;6;6;5]); (IT 295,[4;6;6;5]); (IT 302,[4;6;6;5]); (IT 310,[4;6;6;5]); (IT 320,[4;6;6;5]); (IT 321,[4;6;6;5]); (IT 337,[4;6;6;5]); (IT 112,[4;4;6;7]); (IT 116,[4;4;6;7]); (IT 130,[4;4;6;7]); (IT 136,[4;4;6;7]); (IT 18,[4;4;6;7]); (IT 198,[4;4;6;7]); (IT 47,[4;4;6;7]); (IT 65,[4;4;6;7]); (IT 69,[4;4;6;7]); (IT 81,[4;4;6;7]); (IT 108,[4;4;6;7]); (IT 133,[4;4;6;7]); (IT 138,[4;4;6;7]); (IT 153,[4;4;6;7]); (IT 176,[4;4;6;7]); (IT 178,[4;4;6;7]); (IT 216,[4;4;6;7]); (IT 31,[4;4;6;7]); (IT 62,[4;4;6;7]); (IT 66,[4;4;6;7]); (IT 110,[4;4;4;5]); (IT 114,[4;4;4;5]); (IT 131,[4;4;4;5]); (IT 150,[4;4;4;5]); (IT 16,[4;4;4;5]); (IT 171,[4;4;4;5]); (IT 213,[4;4;4;5]); (IT 29,[4;4;4;5]); (IT 44,[4;4;4;5]); (IT 63,[4;4;4;5]); (IT 67,[4;4;4;5]); (IT 106,[4;4;4;5]); (IT 128,[4;4;4;5]); (IT 134,[4;4;4;5]); (IT 173,[4;4;4;5]); (IT 195,[4;4;4;5]); (IT 60,[4;4;4;5]); (IT 79,[4;4;4;5])]
 [(*5062*) Assign (T 54) (Plain (Einsum [(n_t2'bbbb,[0;1;2;3]); (n_r2'bbb,[0;1;3])] [2]));
  (*5063*) Assign (T 53) (Plain (Einsum [(n_r2'aba,[0;1;2]); (n_t2'abab,[0;1;2;3])] [3]));
  (*5064*) Assign (T 91) (Plain (Copy n_f'bb'oo));
  (*5065*) AddTo (T 91) (Plain (Copy (IT 164)));
  (*5066*) AddTo (T 91) (Plain (Copy (IT 168)));
  (*5067*) AddTo (T 91) (Plain (Copy (IT 206)));
  (*5068*) AddTo (T 91) (Plain (Copy (IT 210)));
  (*5069*) AddTo (T 91) (Plain (Transpose (IT 22) [1;0]));
  (*5070*) Assign (T 89) (Plain (Copy (IT 426)));
  (*5071*) AddTo (T 89) (Times (Transpose (IT 431) [0;1;3;2]) (2) 1);
  (*5072*) Assign (T 87) (Plain (Copy (IT 427)));
  (*5073*) AddTo (T 87) (Plain (Copy (IT 433)));
  (*5074*) AddTo (T 87) (Times (Copy (IT 437)) (2) 1);
  (*5075*) Assign (T 63) (Plain (Copy n_f'bb'ov));
  (*5076*) AddTo (T 63) (Plain (Copy (IT 37)));
  (*5077*) AddTo (T 63) (Plain (Copy (IT 39)));
  (*5078*) AddTo (T 63) (Times (Copy (IT 90)) (-1) 1);
  (*5079*) Assign (T 77) (Plain (Copy (IT 120)));
  (*5080*) AddTo (T 77) (Times (Transpose (IT 120) [0;2;1;3]) (-1) 1);
  (*5081*) Assign (T 50) (Plain (Einsum [(n_t1'bb,[0;1]); (n_r2'bbb,[2;3;1])] [2;3;0]));
  (*5082*) Assign (T 79) (Plain (Copy n_v'bbbb'ooov));
  (*5083*) AddTo (T 79) (Times (Transpose n_v'bbbb'ooov [0;2;1;3]) (-1) 1);
  (*5084*) Assign (T 48) (Plain (Einsum [(n_t1'aa,[0;1]); (n_r2'aba,[2;3;1])] [2;0;3]));
  (*5085*) Assign (T 82) (Times (Copy (IT 141)) (2) 1);
  (*5086*) AddTo (T 82) (Plain (Copy (IT 144)));
  (*5087*) AddTo (T 82) (Times (Copy (IT 162)) (-1) 1);
  (*5088*) AddTo (T 82) (Times (Copy (IT 204)) (-1) 1);
  (*5089*) Assign (T 55) (Times (Copy (T 53)) (-1) 2);
  (*5090*) Del (T 53);
  (*5091*) AddTo (T 55) (Plain (Copy (T 54)));
  (*5092*) Del (T 54);
  (*5093*) Assign (T 75) (Plain (Copy (IT 325)));
  (*5094*) AddTo (T 75) (Times (Transpose (IT 435) [0;1;3;2]) (2) 1);
  (*5095*) AddTo (T 75) (Plain (Transpose (IT 439) [0;1;3;2]));
  (*5096*) Assign (T 41) (Plain (Copy n_f'aa'ov));
  (*5097*) AddTo (T 41) (Plain (Copy (IT 33)));
  (*5098*) AddTo (T 41) (Plain (Copy (IT 40)));
  (*5099*) AddTo (T 41) (Times (Copy (IT 83)) (-1) 1);
  (*5100*) Assign (T 37) (Times (Copy (IT 48)) (2) 1);
  (*5101*) AddTo (T 37) (Plain (Copy (IT 50)));
  (*5102*) AddTo (T 37) (Times (Copy (IT 155)) (-1) 1);
  (*5103*) AddTo (T 37) (Times (Copy (IT 26)) (-1) 1);
  (*5104*) Assign (T 23) (Times (Einsum [(n_t1'bb,[0;1]); (n_r2'bab,[2;3;1])] [3;2;0]) (-1) 1);
  (*5105*) Assign (T 28) (Plain (Copy (IT 194)));
  (*5106*) AddTo (T 28) (Times (Transpose (IT 356) [0;1;3;2]) (2) 1);
  (*5107*) AddTo (T 28) (Plain (Transpose (IT 360) [0;1;3;2]));
  (*5108*) Assign (T 35) (Plain (Copy n_v'aaaa'ooov));
  (*5109*) AddTo (T 35) (Times (Transpose n_v'aaaa'ooov [0;2;1;3]) (-1) 1);
  (*5110*) Assign (T 32) (Plain (Einsum [(n_r2'aaa,[0;1;2]); (n_t1'aa,[3;2])] [0;1;3]));
  (*5111*) Assign (T 30) (Plain (Copy (IT 350)));
  (*5112*) AddTo (T 30) (Plain (Copy (IT 358)));
  (*5113*) AddTo (T 30) (Times (Copy (IT 362)) (2) 1);
  (*5114*) Assign (T 26) (Plain (Einsum [(n_r2'aaa,[0;1;2]); (n_t2'aaaa,[0;1;3;2])] [3]));
  (*5115*) Assign (T 33) (Times (Copy (IT 42)) (-1) 1);
  (*5116*) AddTo (T 33) (Plain (Transpose (IT 42) [0;2;1;3]));
  (*5117*) Assign (T 13) (Times (Einsum [(n_r2'bab,[0;1;2]); (n_t2'abab,[1;0;3;2])] [3]) (-1) 1);
  (*5118*) Assign (T 15) (Plain (Copy (IT 347)));
  (*5119*) AddTo (T 15) (Times (Transpose (IT 352) [0;1;3;2]) (2) 1);
  (*5120*) Assign (T 17) (Plain (Copy n_f'aa'oo));
  (*5121*) AddTo (T 17) (Plain (Copy (IT 156)));
  (*5122*) AddTo (T 17) (Plain (Copy (IT 157)));
  (*5123*) AddTo (T 17) (Plain (Transpose (IT 2) [1;0]));
  (*5124*) AddTo (T 17) (Plain (Copy (IT 27)));
  (*5125*) AddTo (T 17) (Plain (Copy (IT 28)));
  (*5126*) Assign (T 85) (Plain (Einsum [(IT 120,[0;1;2;3]); (n_r1'b,[0])] [1;2;3]));
  (*5127*) Assign (T 92) (Times (Einsum [(T 91,[0;1]); (n_r2'bbb,[2;0;3])] [2;1;3]) (-1) 1);
  (*5128*) Del (T 91);
  (*5129*) Assign (T 86) (Plain (Einsum [(n_v'bbbb'ovov,[0;1;2;3]); (n_r2'bbb,[4;2;3])] [4;0;1]));
  (*5130*) Assign (T 90) (Times (Einsum [(T 89,[0;1;2;3]); (n_r2'bbb,[4;0;3])] [4;1;2]) (-1) 1);
  (*5131*) Del (T 89);
  (*5132*) Assign (T 88) (Plain (Einsum [(T 87,[0;1;2;3]); (n_r2'aba,[0;4;2])] [4;1;3]));
  (*5133*) Del (T 87);
  (*5134*) Assign (T 64) (Plain (Einsum [(n_t1'bb,[0;1]); (T 63,[0;2])] [1;2]));
  (*5135*) Assign (T 69) (Plain (Einsum [(IT 429,[0;1;2;3]); (n_r2'aba,[0;4;2])] [1;4;3]));
  (*5136*) Assign (T 78) (Times (Einsum [(T 50,[0;1;2]); (T 77,[0;3;2;4])] [1;3;4]) (2) 1);
  (*5137*) Del (T 77);
  (*5138*) Assign (T 71) (Times (Einsum [(IT 315,[0;1;2;3]); (n_r2'bbb,[1;0;4])] [2;3;4]) (-1) 1);
  (*5139*) Assign (T 80) (Times (Einsum [(T 79,[0;1;2;3]); (T 50,[0;4;2])] [4;1;3]) (2) 1);
  (*5140*) Del (T 79);
  (*5141*) Assign (T 74) (Plain (Einsum [(T 48,[0;1;2]); (n_v'aabb'ooov,[1;0;3;4])] [2;3;4]));
  (*5142*) Assign (T 83) (Times (Einsum [(n_r2'bbb,[0;1;2]); (T 82,[1;3])] [0;3;2]) (-2) 1);
  (*5143*) Del (T 82);
  (*5144*) Assign (T 81) (Times (Einsum [(T 55,[0]); (n_v'bbbb'ovov,[1;0;2;3])] [1;2;3]) (2) 1);
  (*5145*) Assign (T 68) (Plain (Einsum [(n_r1'b,[0]); (n_v'bbbb'ooov,[1;0;2;3])] [1;2;3]));
  (*5146*) Assign (T 72) (Plain (Einsum [(n_r2'bbb,[0;1;2]); (n_v'bbbb'oovv,[3;1;4;2])] [0;3;4]));
  (*5147*) Assign (T 73) (Plain (Einsum [(T 48,[0;1;2]); (IT 46,[0;1;3;4])] [3;2;4]));
  (*5148*) Assign (T 76) (Times (Einsum [(T 75,[0;1;2;3]); (n_r2'bbb,[4;0;3])] [4;1;2]) (-2) 1);
  (*5149*) Del (T 75);
  (*5150*) Assign (T 70) (Plain (Einsum [(n_r2'aba,[0;1;2]); (n_v'aabb'ovov,[0;2;3;4])] [1;3;4]));
  (*5151*) Assign (T 42) (Plain (Einsum [(n_t1'aa,[0;1]); (T 41,[0;2])] [1;2]));
  (*5152*) Assign (T 38) (Times (Einsum [(T 37,[0;1]); (n_r2'aaa,[2;0;3])] [2;1;3]) (-2) 1);
  (*5153*) Del (T 37);
  (*5154*) Assign (T 21) (Plain (Einsum [(IT 170,[0;1;2;3]); (n_r2'aaa,[0;1;4])] [2;3;4]));
  (*5155*) Assign (T 22) (Plain (Einsum [(n_r2'aaa,[0;1;2]); (n_v'aaaa'oovv,[3;1;4;2])] [0;3;4]));
  (*5156*) Assign (T 25) (Plain (Einsum [(T 23,[0;1;2]); (IT 125,[3;1;2;4])] [3;0;4]));
  (*5157*) Assign (T 24) (Plain (Einsum [(n_v'aabb'ovoo,[0;1;2;3]); (T 23,[4;3;2])] [4;0;1]));
  (*5158*) Assign (T 29) (Times (Einsum [(T 28,[0;1;2;3]); (n_r2'aaa,[4;0;3])] [4;1;2]) (-2) 1);
  (*5159*) Del (T 28);
  (*5160*) Assign (T 36) (Times (Einsum [(T 32,[0;1;2]); (T 35,[0;3;2;4])] [1;3;4]) (2) 1);
  (*5161*) Del (T 35);
  (*5162*) Assign (T 31) (Times (Einsum [(T 30,[0;1;2;3]); (n_r2'bab,[1;4;3])] [4;0;2]) (-1) 1);
  (*5163*) Del (T 30);
  (*5164*) Assign (T 20) (Plain (Einsum [(n_r1'a,[0]); (n_v'aaaa'ooov,[1;0;2;3])] [1;2;3]));
  (*5165*) Assign (T 27) (Times (Einsum [(T 26,[0]); (n_v'aaaa'ovov,[1;2;3;0])] [1;3;2]) (-1) 1);
  (*5166*) Assign (T 34) (Times (Einsum [(T 33,[0;1;2;3]); (T 32,[0;4;1])] [4;2;3]) (2) 1);
  (*5167*) Del (T 33);
  (*5168*) Assign (T 12) (Times (Einsum [(n_r2'bab,[0;1;2]); (n_v'aabb'ovov,[3;4;0;2])] [1;3;4]) (-1) 1);
  (*5169*) Assign (T 14) (Plain (Einsum [(T 13,[0]); (n_v'aaaa'ovov,[1;2;3;0])] [1;3;2]));
  (*5170*) Assign (T 9) (Plain (Einsum [(n_r1'a,[0]); (IT 42,[0;1;2;3])] [1;2;3]));
  (*5171*) Assign (T 16) (Times (Einsum [(n_r2'aaa,[0;1;2]); (T 15,[1;3;4;2])] [0;3;4]) (-1) 1);
  (*5172*) Del (T 15);
  (*5173*) Assign (T 11) (Times (Einsum [(n_r2'bab,[0;1;2]); (IT 354,[3;0;4;2])] [3;1;4]) (-1) 1);
  (*5174*) Assign (T 18) (Times (Einsum [(n_r2'aaa,[0;1;2]); (T 17,[1;3])] [0;3;2]) (-1) 1);
  (*5175*) Del (T 17);
  (*5176*) Assign (T 10) (Plain (Einsum [(n_v'aaaa'ovov,[0;1;2;3]); (n_r2'aaa,[4;2;3])] [4;0;1]));
  (*5177*) Assign (T 94) (Plain (Copy (IT 307)));
  (*5178*) AddTo (T 94) (Plain (Copy (IT 334)));
  (*5179*) AddTo (T 94) (Times (Transpose n_v'bbbb'oooo [0;2;3;1]) (-1) 1);
  (*5180*) Assign (T 93) (Plain (Copy (T 85)));
  (*5181*) Del (T 85);
  (*5182*) AddTo (T 93) (Times (Copy (T 86)) (2) 1);
  (*5183*) Del (T 86);
  (*5184*) AddTo (T 93) (Plain (Transpose (T 88) [1;0;2]));
  (*5185*) Del (T 88);
  (*5186*) AddTo (T 93) (Times (Transpose (T 90) [1;0;2]) (-2) 1);
  (*5187*) Del (T 90);
  (*5188*) AddTo (T 93) (Times (Transpose (T 92) [1;0;2]) (-2) 1);
  (*5189*) Del (T 92);
  (*5190*) Assign (T 65) (Plain (Transpose (IT 187) [1;0]));
  (*5191*) AddTo (T 65) (Times (Copy (IT 450)) (2) 1);
  (*5192*) AddTo (T 65) (Plain (Copy (IT 452)));
  (*5193*) AddTo (T 65) (Times (Copy n_f'bb'vv) (-1) 1);
  (*5194*) AddTo (T 65) (Times (Copy (IT 185)) (-1) 1);
  (*5195*) AddTo (T 65) (Times (Copy (IT 189)) (-1) 1);
  (*5196*) AddTo (T 65) (Plain (Copy (T 64)));
  (*5197*) Del (T 64);
  (*5198*) Assign (T 84) (Plain (Copy (T 68)));
  (*5199*) Del (T 68);
  (*5200*) AddTo (T 84) (Plain (Copy (T 69)));
  (*5201*) Del (T 69);
  (*5202*) AddTo (T 84) (Plain (Copy (T 70)));
  (*5203*) Del (T 70);
  (*5204*) AddTo (T 84) (Times (Copy (T 71)) (2) 1);
  (*5205*) Del (T 71);
  (*5206*) AddTo (T 84) (Times (Copy (T 72)) (2) 1);
  (*5207*) Del (T 72);
  (*5208*) AddTo (T 84) (Plain (Copy (T 73)));
  (*5209*) Del (T 73);
  (*5210*) AddTo (T 84) (Times (Copy (T 74)) (-1) 1);
  (*5211*) Del (T 74);
  (*5212*) AddTo (T 84) (Times (Transpose (T 76) [1;0;2]) (-1) 1);
  (*5213*) Del (T 76);
  (*5214*) AddTo (T 84) (Plain (Transpose (T 78) [1;0;2]));
  (*5215*) Del (T 78);
  (*5216*) AddTo (T 84) (Plain (Copy (T 80)));
  (*5217*) Del (T 80);
  (*5218*) AddTo (T 84) (Times (Transpose (T 81) [1;0;2]) (-1) 1);
  (*5219*) Del (T 81);
  (*5220*) AddTo (T 84) (Plain (Transpose (T 83) [1;0;2]));
  (*5221*) Del (T 83);
  (*5222*) Assign (T 59) (Plain (Copy (IT 152)));
  (*5223*) AddTo (T 59) (Plain (Copy (IT 175)));
  (*5224*) AddTo (T 59) (Plain (Transpose (IT 177) [1;0;2;3]));
  (*5225*) AddTo (T 59) (Plain (Copy (IT 215)));
  (*5226*) AddTo (T 59) (Plain (Copy n_v'aabb'oooo));
  (*5227*) Assign (T 5) (Plain (Copy n_f'aa'oo));
  (*5228*) AddTo (T 5) (Plain (Copy (IT 156)));
  (*5229*) AddTo (T 5) (Plain (Copy (IT 157)));
  (*5230*) AddTo (T 5) (Plain (Transpose (IT 2) [1;0]));
  (*5231*) AddTo (T 5) (Plain (Transpose (IT 27) [1;0]));
  (*5232*) AddTo (T 5) (Plain (Transpose (IT 28) [1;0]));
  (*5233*) AddTo (T 5) (Times (Copy (IT 48)) (2) 1);
  (*5234*) AddTo (T 5) (Plain (Copy (IT 50)));
  (*5235*) AddTo (T 5) (Times (Copy (IT 155)) (-1) 1);
  (*5236*) AddTo (T 5) (Times (Copy (IT 26)) (-1) 1);
  (*5237*) Assign (T 62) (Plain (Copy (IT 46)));
  (*5238*) AddTo (T 62) (Plain (Copy n_v'aabb'ooov));
  (*5239*) Assign (T 56) (Plain (Copy (IT 325)));
  (*5240*) AddTo (T 56) (Times (Transpose (IT 435) [0;1;3;2]) (2) 1);
  (*5241*) AddTo (T 56) (Plain (Transpose (IT 439) [0;1;3;2]));
  (*5242*) AddTo (T 56) (Plain (Transpose n_v'bbbb'ovov [0;2;3;1]));
  (*5243*) AddTo (T 56) (Times (Copy (IT 426)) (-1) 1);
  (*5244*) AddTo (T 56) (Times (Transpose (IT 431) [0;1;3;2]) (-2) 1);
  (*5245*) AddTo (T 56) (Times (Copy n_v'bbbb'oovv) (-1) 1);
  (*5246*) Assign (T 67) (Plain (Copy (T 26)));
  (*5247*) Del (T 26);
  (*5248*) AddTo (T 67) (Times (Copy (T 13)) (1) 2);
  (*5249*) Del (T 13);
  (*5250*) Assign (T 60) (Plain (Copy (IT 120)));
  (*5251*) AddTo (T 60) (Times (Transpose (IT 120) [0;2;1;3]) (-1) 1);
  (*5252*) AddTo (T 60) (Times (Copy n_v'bbbb'ooov) (-1) 1);
  (*5253*) AddTo (T 60) (Plain (Transpose n_v'bbbb'ooov [0;2;1;3]));
  (*5254*) Assign (T 58) (Plain (Copy (IT 197)));
  (*5255*) AddTo (T 58) (Plain (Copy n_v'aabb'oovv));
  (*5256*) AddTo (T 58) (Times (Copy (IT 454)) (-1) 1);
  (*5257*) Assign (T 61) (Plain (Copy (IT 46)));
  (*5258*) AddTo (T 61) (Plain (Copy n_v'aabb'ooov));
  (*5259*) Assign (T 57) (Plain (Copy (IT 427)));
  (*5260*) AddTo (T 57) (Plain (Copy (IT 433)));
  (*5261*) AddTo (T 57) (Times (Copy (IT 437)) (2) 1);
  (*5262*) AddTo (T 57) (Plain (Transpose n_v'aabb'ovov [0;2;1;3]));
  (*5263*) AddTo (T 57) (Times (Copy (IT 429)) (-1) 1);
  (*5264*) Assign (T 66) (Plain (Copy n_f'bb'oo));
  (*5265*) AddTo (T 66) (Times (Copy (IT 141)) (2) 1);
  (*5266*) AddTo (T 66) (Plain (Copy (IT 144)));
  (*5267*) AddTo (T 66) (Plain (Copy (IT 164)));
  (*5268*) AddTo (T 66) (Plain (Copy (IT 168)));
  (*5269*) AddTo (T 66) (Plain (Copy (IT 206)));
  (*5270*) AddTo (T 66) (Plain (Copy (IT 210)));
  (*5271*) AddTo (T 66) (Plain (Transpose (IT 22) [1;0]));
  (*5272*) AddTo (T 66) (Times (Copy (IT 162)) (-1) 1);
  (*5273*) AddTo (T 66) (Times (Copy (IT 204)) (-1) 1);
  (*5274*) Assign (T 52) (Plain (Copy n_f'aa'oo));
  (*5275*) AddTo (T 52) (Plain (Copy (IT 156)));
  (*5276*) AddTo (T 52) (Plain (Copy (IT 157)));
  (*5277*) AddTo (T 52) (Plain (Transpose (IT 2) [1;0]));
  (*5278*) AddTo (T 52) (Plain (Copy (IT 27)));
  (*5279*) AddTo (T 52) (Plain (Copy (IT 28)));
  (*5280*) AddTo (T 52) (Times (Copy (IT 48)) (2) 1);
  (*5281*) AddTo (T 52) (Plain (Copy (IT 50)));
  (*5282*) AddTo (T 52) (Times (Copy (IT 155)) (-1) 1);
  (*5283*) AddTo (T 52) (Times (Copy (IT 26)) (-1) 1);
  (*5284*) Assign (T 47) (Plain (Copy (IT 152)));
  (*5285*) AddTo (T 47) (Plain (Transpose (IT 175) [0;1;3;2]));
  (*5286*) AddTo (T 47) (Plain (Copy (IT 177)));
  (*5287*) AddTo (T 47) (Plain (Copy (IT 215)));
  (*5288*) AddTo (T 47) (Plain (Copy n_v'aabb'oooo));
  (*5289*) Assign (T 43) (Plain (Transpose (IT 182) [1;0]));
  (*5290*) AddTo (T 43) (Times (Copy (IT 392)) (2) 1);
  (*5291*) AddTo (T 43) (Plain (Copy (IT 394)));
  (*5292*) AddTo (T 43) (Times (Copy n_f'aa'vv) (-1) 1);
  (*5293*) AddTo (T 43) (Times (Copy (IT 179)) (-1) 1);
  (*5294*) AddTo (T 43) (Times (Copy (IT 191)) (-1) 1);
  (*5295*) AddTo (T 43) (Plain (Copy (T 42)));
  (*5296*) Del (T 42);
  (*5297*) Assign (T 44) (Plain (Copy (IT 194)));
  (*5298*) AddTo (T 44) (Times (Transpose (IT 356) [0;1;3;2]) (2) 1);
  (*5299*) AddTo (T 44) (Plain (Transpose (IT 360) [0;1;3;2]));
  (*5300*) AddTo (T 44) (Plain (Transpose n_v'aaaa'ovov [0;2;3;1]));
  (*5301*) AddTo (T 44) (Times (Copy (IT 347)) (-1) 1);
  (*5302*) AddTo (T 44) (Times (Transpose (IT 352) [0;1;3;2]) (-2) 1);
  (*5303*) AddTo (T 44) (Times (Copy n_v'aaaa'oovv) (-1) 1);
  (*5304*) Assign (T 46) (Plain (Copy (IT 328)));
  (*5305*) AddTo (T 46) (Plain (Transpose n_v'aabb'vvoo [2;3;0;1]));
  (*5306*) AddTo (T 46) (Times (Copy (IT 423)) (-1) 1);
  (*5307*) Assign (T 51) (Plain (Copy (IT 125)));
  (*5308*) AddTo (T 51) (Plain (Transpose n_v'aabb'ovoo [0;2;3;1]));
  (*5309*) Assign (T 45) (Plain (Copy (IT 350)));
  (*5310*) AddTo (T 45) (Plain (Copy (IT 358)));
  (*5311*) AddTo (T 45) (Times (Copy (IT 362)) (2) 1);
  (*5312*) AddTo (T 45) (Plain (Transpose n_v'aabb'ovov [0;2;1;3]));
  (*5313*) AddTo (T 45) (Times (Copy (IT 354)) (-1) 1);
  (*5314*) Assign (T 49) (Times (Copy (IT 42)) (-1) 1);
  (*5315*) AddTo (T 49) (Plain (Transpose (IT 42) [0;2;1;3]));
  (*5316*) AddTo (T 49) (Plain (Copy n_v'aaaa'ooov));
  (*5317*) AddTo (T 49) (Times (Transpose n_v'aaaa'ooov [0;2;1;3]) (-1) 1);
  (*5318*) Assign (T 8) (Plain (Copy n_f'bb'oo));
  (*5319*) AddTo (T 8) (Times (Copy (IT 141)) (2) 1);
  (*5320*) AddTo (T 8) (Plain (Copy (IT 144)));
  (*5321*) AddTo (T 8) (Plain (Transpose (IT 164) [1;0]));
  (*5322*) AddTo (T 8) (Plain (Transpose (IT 168) [1;0]));
  (*5323*) AddTo (T 8) (Plain (Copy (IT 206)));
  (*5324*) AddTo (T 8) (Plain (Copy (IT 210)));
  (*5325*) AddTo (T 8) (Plain (Transpose (IT 22) [1;0]));
  (*5326*) AddTo (T 8) (Times (Copy (IT 162)) (-1) 1);
  (*5327*) AddTo (T 8) (Times (Copy (IT 204)) (-1) 1);
  (*5328*) Assign (T 40) (Plain (Copy (IT 149)));
  (*5329*) AddTo (T 40) (Plain (Copy (IT 212)));
  (*5330*) AddTo (T 40) (Times (Transpose n_v'aaaa'oooo [0;2;3;1]) (-1) 1);
  (*5331*) Assign (T 39) (Plain (Copy (T 20)));
  (*5332*) Del (T 20);
  (*5333*) AddTo (T 39) (Times (Copy (T 21)) (2) 1);
  (*5334*) Del (T 21);
  (*5335*) AddTo (T 39) (Times (Copy (T 22)) (2) 1);
  (*5336*) Del (T 22);
  (*5337*) AddTo (T 39) (Plain (Copy (T 24)));
  (*5338*) Del (T 24);
  (*5339*) AddTo (T 39) (Times (Copy (T 25)) (-1) 1);
  (*5340*) Del (T 25);
  (*5341*) AddTo (T 39) (Times (Copy (T 27)) (2) 1);
  (*5342*) Del (T 27);
  (*5343*) AddTo (T 39) (Times (Transpose (T 29) [1;0;2]) (-1) 1);
  (*5344*) Del (T 29);
  (*5345*) AddTo (T 39) (Plain (Transpose (T 31) [1;0;2]));
  (*5346*) Del (T 31);
  (*5347*) AddTo (T 39) (Plain (Transpose (T 34) [1;0;2]));
  (*5348*) Del (T 34);
  (*5349*) AddTo (T 39) (Plain (Copy (T 36)));
  (*5350*) Del (T 36);
  (*5351*) AddTo (T 39) (Plain (Transpose (T 38) [1;0;2]));
  (*5352*) Del (T 38);
  (*5353*) Assign (T 19) (Plain (Copy (T 9)));
  (*5354*) Del (T 9);
  (*5355*) AddTo (T 19) (Times (Copy (T 10)) (2) 1);
  (*5356*) Del (T 10);
  (*5357*) AddTo (T 19) (Plain (Copy (T 11)));
  (*5358*) Del (T 11);
  (*5359*) AddTo (T 19) (Plain (Copy (T 12)));
  (*5360*) Del (T 12);
  (*5361*) AddTo (T 19) (Plain (Copy (T 14)));
  (*5362*) Del (T 14);
  (*5363*) AddTo (T 19) (Times (Transpose (T 16) [1;0;2]) (-2) 1);
  (*5364*) Del (T 16);
  (*5365*) AddTo (T 19) (Times (Transpose (T 18) [1;0;2]) (-2) 1);
  (*5366*) Del (T 18);
  (*5367*) Assign (T 3) (Plain (Copy (IT 121)));
  (*5368*) AddTo (T 3) (Times (Copy (IT 126)) (1) 2);
  (*5369*) AddTo (T 3) (Plain (Copy (IT 142)));
  (*5370*) AddTo (T 3) (Times (Copy (IT 145)) (1) 2);
  (*5371*) AddTo (T 3) (Times (Copy (IT 165)) (1) 2);
  (*5372*) AddTo (T 3) (Times (Copy (IT 169)) (1) 2);
  (*5373*) AddTo (T 3) (Times (Copy (IT 188)) (1) 2);
  (*5374*) AddTo (T 3) (Times (Copy (IT 207)) (1) 2);
  (*5375*) AddTo (T 3) (Times (Copy (IT 211)) (1) 2);
  (*5376*) AddTo (T 3) (Times (Copy (IT 23)) (1) 2);
  (*5377*) AddTo (T 3) (Times (Copy (IT 38)) (1) 2);
  (*5378*) AddTo (T 3) (Times (Copy (IT 5)) (1) 2);
  (*5379*) AddTo (T 3) (Plain (Copy (IT 54)));
  (*5380*) AddTo (T 3) (Times (Copy (IT 56)) (1) 2);
  (*5381*) AddTo (T 3) (Plain (Copy (IT 73)));
  (*5382*) AddTo (T 3) (Times (Copy (IT 86)) (1) 2);
  (*5383*) AddTo (T 3) (Plain (Copy (IT 93)));
  (*5384*) AddTo (T 3) (Times (Copy n_f'bb'ov) (-1) 2);
  (*5385*) AddTo (T 3) (Times (Copy (IT 101)) (-1) 2);
  (*5386*) AddTo (T 3) (Times (Copy (IT 104)) (-1) 1);
  (*5387*) AddTo (T 3) (Times (Copy (IT 11)) (-1) 2);
  (*5388*) AddTo (T 3) (Times (Copy (IT 14)) (-1) 1);
  (*5389*) AddTo (T 3) (Times (Copy (IT 163)) (-1) 2);
  (*5390*) AddTo (T 3) (Times (Copy (IT 186)) (-1) 2);
  (*5391*) AddTo (T 3) (Times (Copy (IT 190)) (-1) 2);
  (*5392*) AddTo (T 3) (Times (Copy (IT 205)) (-1) 2);
  (*5393*) AddTo (T 3) (Times (Copy (IT 37)) (-1) 2);
  (*5394*) AddTo (T 3) (Times (Copy (IT 39)) (-1) 2);
  (*5395*) AddTo (T 3) (Times (Copy (IT 75)) (-1) 2);
  (*5396*) AddTo (T 3) (Times (Copy (IT 8)) (-1) 2);
  (*5397*) AddTo (T 3) (Times (Copy (IT 89)) (-1) 2);
  (*5398*) AddTo (T 3) (Times (Copy (IT 97)) (-1) 1);
  (*5399*) Assign (T 4) (Plain (Copy (IT 118)));
  (*5400*) AddTo (T 4) (Times (Copy (IT 123)) (1) 2);
  (*5401*) AddTo (T 4) (Plain (Copy (IT 139)));
  (*5402*) AddTo (T 4) (Times (Copy (IT 147)) (1) 2);
  (*5403*) AddTo (T 4) (Times (Copy (IT 160)) (1) 2);
  (*5404*) AddTo (T 4) (Times (Copy (IT 166)) (1) 2);
  (*5405*) AddTo (T 4) (Times (Copy (IT 183)) (1) 2);
  (*5406*) AddTo (T 4) (Times (Copy (IT 20)) (1) 2);
  (*5407*) AddTo (T 4) (Times (Copy (IT 202)) (1) 2);
  (*5408*) AddTo (T 4) (Times (Copy (IT 208)) (1) 2);
  (*5409*) AddTo (T 4) (Times (Copy (IT 3)) (1) 2);
  (*5410*) AddTo (T 4) (Times (Copy (IT 35)) (1) 2);
  (*5411*) AddTo (T 4) (Plain (Copy (IT 52)));
  (*5412*) AddTo (T 4) (Times (Copy (IT 58)) (1) 2);
  (*5413*) AddTo (T 4) (Plain (Copy (IT 71)));
  (*5414*) AddTo (T 4) (Plain (Copy (IT 84)));
  (*5415*) AddTo (T 4) (Times (Copy (IT 91)) (1) 2);
  (*5416*) AddTo (T 4) (Times (Copy n_f'aa'ov) (-1) 2);
  (*5417*) AddTo (T 4) (Times (Copy (IT 102)) (-1) 2);
  (*5418*) AddTo (T 4) (Times (Copy (IT 12)) (-1) 2);
  (*5419*) AddTo (T 4) (Times (Copy (IT 158)) (-1) 2);
  (*5420*) AddTo (T 4) (Times (Copy (IT 180)) (-1) 2);
  (*5421*) AddTo (T 4) (Times (Copy (IT 192)) (-1) 2);
  (*5422*) AddTo (T 4) (Times (Copy (IT 200)) (-1) 2);
  (*5423*) AddTo (T 4) (Times (Copy (IT 33)) (-1) 2);
  (*5424*) AddTo (T 4) (Times (Copy (IT 40)) (-1) 2);
  (*5425*) AddTo (T 4) (Times (Copy (IT 6)) (-1) 2);
  (*5426*) AddTo (T 4) (Times (Copy (IT 77)) (-1) 2);
  (*5427*) AddTo (T 4) (Times (Copy (IT 87)) (-1) 1);
  (*5428*) AddTo (T 4) (Times (Copy (IT 9)) (-1) 1);
  (*5429*) AddTo (T 4) (Times (Copy (IT 95)) (-1) 2);
  (*5430*) AddTo (T 4) (Times (Copy (IT 99)) (-1) 1);
  (*5431*) Assign (T 7) (Plain (Transpose (IT 226) [1;2;0;3]));
  (*5432*) AddTo (T 7) (Plain (Transpose (IT 231) [1;2;0;3]));
  (*5433*) AddTo (T 7) (Plain (Transpose (IT 239) [0;2;1;3]));
  (*5434*) AddTo (T 7) (Times (Transpose (IT 252) [0;2;1;3]) (2) 1);
  (*5435*) AddTo (T 7) (Plain (Transpose (IT 257) [0;2;1;3]));
  (*5436*) AddTo (T 7) (Plain (Copy (IT 282)));
  (*5437*) AddTo (T 7) (Plain (Copy (IT 286)));
  (*5438*) AddTo (T 7) (Times (Copy (IT 296)) (2) 1);
  (*5439*) AddTo (T 7) (Plain (Copy (IT 308)));
  (*5440*) AddTo (T 7) (Plain (Copy (IT 316)));
  (*5441*) AddTo (T 7) (Plain (Copy (IT 335)));
  (*5442*) AddTo (T 7) (Times (Copy (IT 120)) (-1) 1);
  (*5443*) AddTo (T 7) (Times (Copy (IT 249)) (-2) 1);
  (*5444*) AddTo (T 7) (Times (Copy (IT 263)) (-1) 1);
  (*5445*) AddTo (T 7) (Times (Copy (IT 278)) (-1) 1);
  (*5446*) AddTo (T 7) (Times (Copy (IT 293)) (-2) 1);
  (*5447*) AddTo (T 7) (Times (Copy (IT 300)) (-1) 1);
  (*5448*) AddTo (T 7) (Times (Transpose (IT 318) [0;2;1;3]) (-1) 1);
  (*5449*) AddTo (T 7) (Times (Copy (IT 326)) (-1) 1);
  (*5450*) AddTo (T 7) (Times (Transpose n_v'bbbb'ooov [0;2;1;3]) (-1) 1);
  (*5451*) Assign (T 6) (Plain (Copy (IT 125)));
  (*5452*) AddTo (T 6) (Plain (Transpose (IT 224) [0;2;1;3]));
  (*5453*) AddTo (T 6) (Plain (Transpose (IT 241) [0;2;1;3]));
  (*5454*) AddTo (T 6) (Plain (Transpose (IT 251) [0;2;1;3]));
  (*5455*) AddTo (T 6) (Times (Transpose (IT 255) [0;2;1;3]) (2) 1);
  (*5456*) AddTo (T 6) (Plain (Copy (IT 265)));
  (*5457*) AddTo (T 6) (Plain (Copy (IT 280)));
  (*5458*) AddTo (T 6) (Plain (Copy (IT 284)));
  (*5459*) AddTo (T 6) (Plain (Copy (IT 292)));
  (*5460*) AddTo (T 6) (Times (Copy (IT 298)) (2) 1);
  (*5461*) AddTo (T 6) (Plain (Copy (IT 329)));
  (*5462*) AddTo (T 6) (Plain (Transpose n_v'aabb'ovoo [0;2;3;1]));
  (*5463*) AddTo (T 6) (Times (Transpose (IT 233) [0;2;1;3]) (-1) 1);
  (*5464*) AddTo (T 6) (Times (Copy (IT 248)) (-1) 1);
  (*5465*) AddTo (T 6) (Times (Copy (IT 254)) (-1) 1);
  (*5466*) AddTo (T 6) (Times (Copy (IT 276)) (-1) 1);
  (*5467*) AddTo (T 6) (Times (Copy (IT 295)) (-1) 1);
  (*5468*) AddTo (T 6) (Times (Copy (IT 302)) (-1) 1);
  (*5469*) AddTo (T 6) (Times (Copy (IT 310)) (-1) 1);
  (*5470*) AddTo (T 6) (Times (Copy (IT 320)) (-1) 1);
  (*5471*) AddTo (T 6) (Times (Transpose (IT 321) [0;2;1;3]) (-1) 1);
  (*5472*) AddTo (T 6) (Times (Copy (IT 337)) (-1) 1);
  (*5473*) Assign (T 1) (Plain (Copy (IT 112)));
  (*5474*) AddTo (T 1) (Plain (Copy (IT 116)));
  (*5475*) AddTo (T 1) (Plain (Copy (IT 130)));
  (*5476*) AddTo (T 1) (Times (Copy (IT 136)) (2) 1);
  (*5477*) AddTo (T 1) (Plain (Transpose (IT 18) [1;0;2;3]));
  (*5478*) AddTo (T 1) (Plain (Copy (IT 198)));
  (*5479*) AddTo (T 1) (Plain (Copy (IT 46)));
  (*5480*) AddTo (T 1) (Plain (Transpose (IT 47) [1;0;2;3]));
  (*5481*) AddTo (T 1) (Plain (Transpose (IT 65) [1;0;2;3]));
  (*5482*) AddTo (T 1) (Times (Transpose (IT 69) [1;0;2;3]) (2) 1);
  (*5483*) AddTo (T 1) (Plain (Copy (IT 81)));
  (*5484*) AddTo (T 1) (Plain (Copy n_v'aabb'ooov));
  (*5485*) AddTo (T 1) (Times (Copy (IT 108)) (-1) 1);
  (*5486*) AddTo (T 1) (Times (Copy (IT 133)) (-1) 1);
  (*5487*) AddTo (T 1) (Times (Copy (IT 138)) (-1) 1);
  (*5488*) AddTo (T 1) (Times (Copy (IT 153)) (-1) 1);
  (*5489*) AddTo (T 1) (Times (Copy (IT 176)) (-1) 1);
  (*5490*) AddTo (T 1) (Times (Transpose (IT 178) [1;0;2;3]) (-1) 1);
  (*5491*) AddTo (T 1) (Times (Copy (IT 216)) (-1) 1);
  (*5492*) AddTo (T 1) (Times (Transpose (IT 31) [1;0;2;3]) (-1) 1);
  (*5493*) AddTo (T 1) (Times (Copy (IT 62)) (-1) 1);
  (*5494*) AddTo (T 1) (Times (Copy (IT 66)) (-1) 1);
  (*5495*) Assign (T 2) (Plain (Copy (IT 110)));
  (*5496*) AddTo (T 2) (Plain (Copy (IT 114)));
  (*5497*) AddTo (T 2) (Times (Copy (IT 131)) (2) 1);
  (*5498*) AddTo (T 2) (Plain (Copy (IT 150)));
  (*5499*) AddTo (T 2) (Plain (Transpose (IT 16) [1;2;0;3]));
  (*5500*) AddTo (T 2) (Plain (Copy (IT 171)));
  (*5501*) AddTo (T 2) (Plain (Copy (IT 213)));
  (*5502*) AddTo (T 2) (Plain (Transpose (IT 29) [1;2;0;3]));
  (*5503*) AddTo (T 2) (Plain (Transpose (IT 44) [0;2;1;3]));
  (*5504*) AddTo (T 2) (Times (Transpose (IT 63) [0;2;1;3]) (2) 1);
  (*5505*) AddTo (T 2) (Plain (Transpose (IT 67) [0;2;1;3]));
  (*5506*) AddTo (T 2) (Times (Copy (IT 106)) (-1) 1);
  (*5507*) AddTo (T 2) (Times (Copy (IT 128)) (-2) 1);
  (*5508*) AddTo (T 2) (Times (Copy (IT 134)) (-1) 1);
  (*5509*) AddTo (T 2) (Times (Transpose (IT 173) [0;2;1;3]) (-1) 1);
  (*5510*) AddTo (T 2) (Times (Copy (IT 195)) (-1) 1);
  (*5511*) AddTo (T 2) (Times (Copy (IT 42)) (-1) 1);
  (*5512*) AddTo (T 2) (Times (Copy (IT 60)) (-2) 1);
  (*5513*) AddTo (T 2) (Times (Copy (IT 79)) (-1) 1);
  (*5514*) AddTo (T 2) (Times (Transpose n_v'aaaa'ooov [0;2;1;3]) (-1) 1);
  (*5515*) Assign n_r2new'bbb (Times (Copy (T 84)) (-1) 1);
  (*5516*) AddTo n_r2new'bbb (Plain (Transpose (T 84) [1;0;2]));
  (*5517*) Del (T 84);
  (*5518*) AddTo n_r2new'bbb (Plain (Copy (T 93)));
  (*5519*) AddTo n_r2new'bbb (Times (Transpose (T 93) [1;0;2]) (-1) 1);
  (*5520*) Del (T 93);
  (*5521*) AddTo n_r2new'bbb (Times (Einsum [(n_r2'bbb,[0;1;2]); (T 94,[0;1;3;4])] [3;4;2]) (2) 1);
  (*5522*) Del (T 94);
  (*5523*) AddTo n_r2new'bbb (Times (Einsum [(T 65,[0;1]); (n_r2'bbb,[2;3;0])] [2;3;1]) (-2) 1);
  (*5524*) AddTo n_r2new'bbb (Plain (Einsum [(T 63,[0;1]); (n_r1'b,[2])] [2;0;1]));
  (*5525*) AddTo n_r2new'bbb (Times (Einsum [(n_r1'b,[0]); (T 63,[1;2])] [1;0;2]) (-1) 1);
  (*5526*) Assign n_r2new'bab (Plain (Einsum [(n_r2'bab,[0;1;2]); (T 56,[0;3;4;2])] [3;1;4]));
  (*5527*) Del (T 56);
  (*5528*) AddTo n_r2new'bab (Times (Einsum [(n_r2'aaa,[0;1;2]); (T 57,[1;3;2;4])] [3;0;4]) (-2) 1);
  (*5529*) Del (T 57);
  (*5530*) AddTo n_r2new'bab (Times (Einsum [(T 58,[0;1;2;3]); (n_r2'bab,[4;0;2])] [4;1;3]) (-1) 1);
  (*5531*) Del (T 58);
  (*5532*) AddTo n_r2new'bab (Plain (Einsum [(T 59,[0;1;2;3]); (n_r2'bab,[2;0;4])] [3;1;4]));
  (*5533*) Del (T 59);
  (*5534*) AddTo n_r2new'bab (Plain (Einsum [(T 23,[0;1;2]); (T 60,[1;3;2;4])] [3;0;4]));
  (*5535*) Del (T 60);
  (*5536*) AddTo n_r2new'bab (Times (Einsum [(T 61,[0;1;2;3]); (T 23,[0;4;2])] [4;1;3]) (-1) 1);
  (*5537*) Del (T 23);
  (*5537*) Del (T 61);
  (*5538*) AddTo n_r2new'bab (Times (Einsum [(T 32,[0;1;2]); (T 62,[0;2;3;4])] [3;1;4]) (-2) 1);
  (*5539*) Del (T 32);
  (*5540*) AddTo n_r2new'bab (Times (Einsum [(T 65,[0;1]); (n_r2'bab,[2;3;0])] [2;3;1]) (-1) 1);
  (*5541*) Del (T 65);
  (*5542*) AddTo n_r2new'bab (Times (Einsum [(T 66,[0;1]); (n_r2'bab,[0;2;3])] [1;2;3]) (-1) 1);
  (*5543*) Del (T 66);
  (*5544*) AddTo n_r2new'bab (Times (Einsum [(T 5,[0;1]); (n_r2'bab,[2;0;3])] [2;1;3]) (-1) 1);
  (*5545*) AddTo n_r2new'bab (Times (Einsum [(n_v'aabb'ovov,[0;1;2;3]); (T 67,[1])] [2;0;3]) (2) 1);
  (*5546*) Del (T 67);
  (*5547*) AddTo n_r2new'bab (Plain (Einsum [(n_r1'a,[0]); (T 62,[0;1;2;3])] [2;1;3]));
  (*5548*) Del (T 62);
  (*5549*) AddTo n_r2new'bab (Times (Einsum [(n_r1'a,[0]); (T 63,[1;2])] [1;0;2]) (-1) 1);
  (*5550*) Del (T 63);
  (*5551*) Assign n_r2new'aba (Plain (Einsum [(T 44,[0;1;2;3]); (n_r2'aba,[0;4;3])] [1;4;2]));
  (*5552*) Del (T 44);
  (*5553*) AddTo n_r2new'aba (Times (Einsum [(T 45,[0;1;2;3]); (n_r2'bbb,[4;1;3])] [0;4;2]) (-2) 1);
  (*5554*) Del (T 45);
  (*5555*) AddTo n_r2new'aba (Times (Einsum [(T 46,[0;1;2;3]); (n_r2'aba,[4;0;2])] [4;1;3]) (-1) 1);
  (*5556*) Del (T 46);
  (*5557*) AddTo n_r2new'aba (Plain (Einsum [(T 47,[0;1;2;3]); (n_r2'aba,[0;2;4])] [1;3;4]));
  (*5558*) Del (T 47);
  (*5559*) AddTo n_r2new'aba (Times (Einsum [(T 48,[0;1;2]); (T 49,[0;1;3;4])] [3;2;4]) (-1) 1);
  (*5560*) Del (T 49);
  (*5561*) AddTo n_r2new'aba (Times (Einsum [(T 51,[0;1;2;3]); (T 50,[1;4;2])] [0;4;3]) (-2) 1);
  (*5562*) Del (T 50);
  (*5563*) AddTo n_r2new'aba (Plain (Einsum [(T 51,[0;1;2;3]); (T 48,[4;0;1])] [4;2;3]));
  (*5564*) Del (T 48);
  (*5565*) AddTo n_r2new'aba (Times (Einsum [(n_r2'aba,[0;1;2]); (T 43,[2;3])] [0;1;3]) (-1) 1);
  (*5566*) AddTo n_r2new'aba (Times (Einsum [(T 8,[0;1]); (n_r2'aba,[2;0;3])] [2;1;3]) (-1) 1);
  (*5567*) AddTo n_r2new'aba (Times (Einsum [(T 52,[0;1]); (n_r2'aba,[0;2;3])] [1;2;3]) (-1) 1);
  (*5568*) Del (T 52);
  (*5569*) AddTo n_r2new'aba (Times (Einsum [(T 55,[0]); (n_v'aabb'ovov,[1;2;3;0])] [1;3;2]) (2) 1);
  (*5570*) Del (T 55);
  (*5571*) AddTo n_r2new'aba (Plain (Einsum [(n_r1'b,[0]); (T 51,[1;0;2;3])] [1;2;3]));
  (*5572*) Del (T 51);
  (*5573*) AddTo n_r2new'aba (Times (Einsum [(T 41,[0;1]); (n_r1'b,[2])] [0;2;1]) (-1) 1);
  (*5574*) Assign n_r2new'aaa (Plain (Copy (T 19)));
  (*5575*) AddTo n_r2new'aaa (Times (Transpose (T 19) [1;0;2]) (-1) 1);
  (*5576*) Del (T 19);
  (*5577*) AddTo n_r2new'aaa (Times (Copy (T 39)) (-1) 1);
  (*5578*) AddTo n_r2new'aaa (Plain (Transpose (T 39) [1;0;2]));
  (*5579*) Del (T 39);
  (*5580*) AddTo n_r2new'aaa (Times (Einsum [(T 40,[0;1;2;3]); (n_r2'aaa,[1;0;4])] [2;3;4]) (-2) 1);
  (*5581*) Del (T 40);
  (*5582*) AddTo n_r2new'aaa (Times (Einsum [(n_r2'aaa,[0;1;2]); (T 43,[2;3])] [0;1;3]) (-2) 1);
  (*5583*) Del (T 43);
  (*5584*) AddTo n_r2new'aaa (Plain (Einsum [(n_r1'a,[0]); (T 41,[1;2])] [0;1;2]));
  (*5585*) AddTo n_r2new'aaa (Times (Einsum [(n_r1'a,[0]); (T 41,[1;2])] [1;0;2]) (-1) 1);
  (*5586*) Del (T 41);
  (*5587*) Assign n_r1new'b (Plain (Einsum [(T 6,[0;1;2;3]); (n_r2'aba,[0;1;3])] [2]));
  (*5588*) Del (T 6);
  (*5589*) AddTo n_r1new'b (Times (Einsum [(n_r2'bbb,[0;1;2]); (T 7,[1;0;3;2])] [3]) (-2) 1);
  (*5590*) Del (T 7);
  (*5591*) AddTo n_r1new'b (Times (Einsum [(T 4,[0;1]); (n_r2'aba,[0;2;1])] [2]) (2) 1);
  (*5592*) AddTo n_r1new'b (Times (Einsum [(T 3,[0;1]); (n_r2'bbb,[2;0;1])] [2]) (-4) 1);
  (*5593*) AddTo n_r1new'b (Times (Einsum [(n_r1'b,[0]); (T 8,[0;1])] [1]) (-1) 1);
  (*5594*) Del (T 8);
  (*5595*) Assign n_r1new'a (Plain (Einsum [(n_r2'bab,[0;1;2]); (T 1,[1;3;0;2])] [3]));
  (*5596*) Del (T 1);
  (*5597*) AddTo n_r1new'a (Times (Einsum [(T 2,[0;1;2;3]); (n_r2'aaa,[1;0;3])] [2]) (-2) 1);
  (*5598*) Del (T 2);
  (*5599*) AddTo n_r1new'a (Times (Einsum [(n_r2'bab,[0;1;2]); (T 3,[0;2])] [1]) (2) 1);
  (*5600*) Del (T 3);
  (*5601*) AddTo n_r1new'a (Times (Einsum [(T 4,[0;1]); (n_r2'aaa,[2;0;1])] [2]) (-4) 1);
  (*5602*) Del (T 4);
  (*5603*) AddTo n_r1new'a (Times (Einsum [(n_r1'a,[0]); (T 5,[0;1])] [1]) (-1) 1);
  (*5604*) Del (T 5)]
 [(n_r1new'b,[6]); (n_r1new'a,[4]); (n_r2new'bbb,[6;6;7]); (n_r2new'bab,[6;4;7]); (n_r2new'aba,[4;6;5]); (n_r2new'aaa,[4;4;5])].

(** ebcc/codegen/UCCSD.py:5608-5916 [hbar_lmatvec_ea_intermediates] *)
Definition UCCSD_hbar_lmatvec_ea_intermediates : prog := mkprog
 [(n_v'aabb'ovov,[4;5;6;7]); (n_t1'aa,[4;5]); (n_t1'bb,[6;7]); (n_v'bbbb'ovov,[6;7;6;7]); (n_v'aaaa'ovov,[4;5;4;5]); (n_v'aabb'vvov,[5;5;6;7]); (n_v'aabb'ovvv,[4;5;7;7]); (n_v'bbbb'ovvv,[6;7;7;7]); (n_v'aaaa'ovvv,[4;5;5;5]); (n_v'aabb'ovoo,[4;5;6;6]); (n_v'aabb'ooov,[4;4;6;7]); (n_v'bbbb'ooov,[6;6;6;7]); (n_v'aaaa'ooov,[4;4;4;5]); (n_t2'abab,[4;6;5;7]); (n_t2'bbbb,[6;6;7;7]); (n_t2'aaaa,[4;4;5;5]); (n_f'bb'ov,[6;7]); (n_f'aa'ov,[4;5]); (n_v'aabb'vvvv,[5;5;7;7]); (n_v'bbbb'vvvv,[7;7;7;7]); (n_v'aaaa'vvvv,[5;5;5;5]); (n_v'bbbb'oovv,[6;6;7;7]); (n_v'aaaa'oovv,[4;4;5;5]); (n_f'bb'vv,[7;7]); (n_f'aa'vv,[5;5]); (n_f'bb'oo,[6;6]); (n_f'aa'oo,[4;4])]
 [(*5771*) Assign (T 36) (Plain (Einsum [(n_v'aabb'ovov,[0;1;2;3]); (n_t1'aa,[0;1])] [2;3]));
  (*5772*) Assign (T 37) (Plain (Einsum [(n_v'aabb'ovov,[0;1;2;3]); (n_t1'bb,[2;3])] [0;1]));
  (*5773*) Assign (T 34) (Plain (Einsum [(n_v'bbbb'ovov,[0;1;2;3]); (n_t1'bb,[2;3])] [0;1]));
  (*5774*) Assign (T 90) (Plain (Einsum [(n_v'bbbb'ovov,[0;1;2;3]); (n_t1'bb,[2;1])] [0;3]));
  (*5775*) Assign (T 30) (Plain (Einsum [(n_t1'aa,[0;1]); (n_v'aaaa'ovov,[2;3;0;1])] [2;3]));
  (*5776*) Assign (T 83) (Plain (Einsum [(n_t1'aa,[0;1]); (n_v'aaaa'ovov,[2;1;0;3])] [2;3]));
  (*5777*) Assign (T 118) (Plain (Einsum [(n_t1'aa,[0;1]); (n_v'aabb'ovov,[2;1;3;4])] [0;2;3;4]));
  (*5778*) Assign (T 115) (Plain (Einsum [(n_v'bbbb'ovov,[0;1;2;3]); (n_t1'bb,[4;3])] [4;0;2;1]));
  (*5779*) Assign (T 201) (Plain (Einsum [(n_t1'bb,[0;1]); (T 36,[2;1])] [0;2]));
  (*5780*) Assign (T 198) (Plain (Einsum [(n_t1'aa,[0;1]); (T 37,[2;1])] [0;2]));
  (*5781*) Assign (T 196) (Plain (Einsum [(n_t1'bb,[0;1]); (T 34,[2;1])] [0;2]));
  (*5782*) Assign (T 194) (Plain (Einsum [(T 90,[0;1]); (n_t1'bb,[2;1])] [2;0]));
  (*5783*) Assign (T 191) (Plain (Einsum [(n_t1'aa,[0;1]); (T 30,[2;1])] [0;2]));
  (*5784*) Assign (T 188) (Plain (Einsum [(T 83,[0;1]); (n_t1'aa,[2;1])] [2;0]));
  (*5785*) Assign (T 29) (Plain (Einsum [(n_v'aabb'vvov,[0;1;2;3]); (n_t1'bb,[2;3])] [0;1]));
  (*5786*) Assign (T 178) (Plain (Einsum [(n_v'aabb'ovvv,[0;1;2;3]); (n_t1'aa,[0;1])] [2;3]));
  (*5787*) Assign (T 176) (Plain (Einsum [(n_t1'bb,[0;1]); (n_v'bbbb'ovvv,[0;2;3;1])] [2;3]));
  (*5788*) Assign (T 174) (Plain (Einsum [(n_v'bbbb'ovvv,[0;1;2;3]); (n_t1'bb,[0;1])] [2;3]));
  (*5789*) Assign (T 28) (Plain (Einsum [(n_v'aaaa'ovvv,[0;1;2;3]); (n_t1'aa,[0;3])] [1;2]));
  (*5790*) Assign (T 27) (Plain (Einsum [(n_v'aaaa'ovvv,[0;1;2;3]); (n_t1'aa,[0;1])] [2;3]));
  (*5791*) Assign (T 164) (Plain (Einsum [(n_v'aabb'ovoo,[0;1;2;3]); (n_t1'aa,[0;1])] [2;3]));
  (*5792*) Assign (T 161) (Plain (Einsum [(n_t1'bb,[0;1]); (n_v'aabb'ooov,[2;3;0;1])] [2;3]));
  (*5793*) Assign (T 159) (Plain (Einsum [(n_t1'bb,[0;1]); (n_v'bbbb'ooov,[2;3;0;1])] [2;3]));
  (*5794*) Assign (T 157) (Plain (Einsum [(n_t1'bb,[0;1]); (n_v'bbbb'ooov,[2;0;3;1])] [2;3]));
  (*5795*) Assign (T 154) (Plain (Einsum [(n_v'aaaa'ooov,[0;1;2;3]); (n_t1'aa,[2;3])] [0;1]));
  (*5796*) Assign (T 151) (Plain (Einsum [(n_v'aaaa'ooov,[0;1;2;3]); (n_t1'aa,[1;3])] [0;2]));
  (*5797*) Assign (T 137) (Plain (Einsum [(n_v'aabb'ovov,[0;1;2;3]); (n_t2'abab,[4;2;1;3])] [4;0]));
  (*5798*) Assign (T 134) (Plain (Einsum [(n_v'aabb'ovov,[0;1;2;3]); (n_t2'abab,[0;4;1;3])] [4;2]));
  (*5799*) Assign (T 131) (Times (Einsum [(n_t2'bbbb,[0;1;2;3]); (n_v'bbbb'ovov,[4;3;1;2])] [0;4]) (-1) 1);
  (*5800*) Assign (T 128) (Times (Einsum [(n_t2'aaaa,[0;1;2;3]); (n_v'aaaa'ovov,[4;3;1;2])] [0;4]) (-1) 1);
  (*5801*) Assign (T 121) (Plain (Einsum [(n_t1'bb,[0;1]); (n_v'aabb'ovov,[2;3;4;1])] [2;0;4;3]));
  (*5802*) Assign (T 112) (Plain (Einsum [(n_v'aaaa'ovov,[0;1;2;3]); (n_t1'aa,[4;3])] [4;0;2;1]));
  (*5803*) Assign (T 23) (Plain (Einsum [(n_t1'bb,[0;1]); (n_f'bb'ov,[2;1])] [2;0]));
  (*5804*) Assign (T 20) (Plain (Einsum [(n_t1'aa,[0;1]); (n_f'aa'ov,[2;1])] [2;0]));
  (*5805*) Assign (T 311) (Plain (Einsum [(n_t1'aa,[0;1]); (n_v'aabb'vvov,[2;1;3;4])] [0;3;2;4]));
  (*5806*) Assign (T 310) (Plain (Einsum [(n_t1'aa,[0;1]); (n_v'aabb'ovvv,[2;1;3;4])] [0;2;3;4]));
  (*5807*) Assign (T 308) (Plain (Einsum [(n_t1'bb,[0;1]); (n_v'bbbb'ovvv,[2;3;4;1])] [0;2;3;4]));
  (*5808*) Assign (T 306) (Plain (Einsum [(n_t1'bb,[0;1]); (n_v'bbbb'ovvv,[2;1;3;4])] [0;2;3;4]));
  (*5809*) Assign (T 295) (Plain (Einsum [(n_v'aabb'ovov,[0;1;2;3]); (n_t2'abab,[4;2;1;5])] [4;0;5;3]));
  (*5810*) Assign (T 293) (Plain (Einsum [(n_v'aabb'ovov,[0;1;2;3]); (n_t2'abab,[0;4;1;5])] [4;2;5;3]));
  (*5811*) Assign (T 291) (Plain (Einsum [(n_t2'aaaa,[0;1;2;3]); (n_v'aabb'ovov,[1;3;4;5])] [0;4;2;5]));
  (*5812*) Assign (T 289) (Plain (Einsum [(n_t2'bbbb,[0;1;2;3]); (n_v'bbbb'ovov,[4;3;1;5])] [0;4;2;5]));
  (*5813*) Assign (T 288) (Plain (Einsum [(n_v'bbbb'ovov,[0;1;2;3]); (n_t2'abab,[4;2;5;1])] [4;0;5;3]));
  (*5814*) Assign (T 286) (Plain (Einsum [(n_t2'bbbb,[0;1;2;3]); (n_v'bbbb'ovov,[4;5;1;3])] [0;4;2;5]));
  (*5815*) Assign (T 285) (Plain (Einsum [(n_v'bbbb'ovov,[0;1;2;3]); (n_t2'abab,[4;2;5;3])] [4;0;5;1]));
  (*5816*) Assign (T 279) (Plain (Einsum [(T 118,[0;1;2;3]); (n_t2'abab,[1;2;4;5])] [0;4;5;3]));
  (*5817*) Assign (T 277) (Plain (Einsum [(n_t2'bbbb,[0;1;2;3]); (T 115,[4;0;1;5])] [4;2;3;5]));
  (*5818*) Assign (T 257) (Plain (Einsum [(n_t2'abab,[0;1;2;3]); (n_v'aabb'vvov,[4;2;1;5])] [0;4;3;5]));
  (*5819*) Assign (T 255) (Plain (Einsum [(n_v'aabb'ovvv,[0;1;2;3]); (n_t2'abab,[0;4;1;5])] [4;5;2;3]));
  (*5820*) Assign (T 253) (Plain (Einsum [(n_v'aabb'ovvv,[0;1;2;3]); (n_t2'aaaa,[4;0;5;1])] [4;5;2;3]));
  (*5821*) Assign (T 251) (Plain (Einsum [(n_t2'bbbb,[0;1;2;3]); (n_v'bbbb'ovvv,[1;4;5;3])] [0;2;4;5]));
  (*5822*) Assign (T 250) (Plain (Einsum [(n_t2'abab,[0;1;2;3]); (n_v'bbbb'ovvv,[1;4;5;3])] [0;2;4;5]));
  (*5823*) Assign (T 248) (Plain (Einsum [(n_t2'bbbb,[0;1;2;3]); (n_v'bbbb'ovvv,[1;3;4;5])] [0;2;4;5]));
  (*5824*) Assign (T 247) (Plain (Einsum [(n_t2'abab,[0;1;2;3]); (n_v'bbbb'ovvv,[1;3;4;5])] [0;2;4;5]));
  (*5825*) Assign (T 241) (Plain (Einsum [(n_v'aabb'ooov,[0;1;2;3]); (n_t2'abab,[1;2;4;5])] [0;4;5;3]));
  (*5826*) Assign (T 239) (Plain (Einsum [(n_t2'bbbb,[0;1;2;3]); (n_v'bbbb'ooov,[4;0;1;5])] [4;2;3;5]));
  (*5827*) Assign (T 233) (Plain (Einsum [(n_v'aabb'ovov,[0;1;2;3]); (n_t2'abab,[0;2;1;4])] [4;3]));
  (*5828*) Assign (T 231) (Plain (Einsum [(n_t2'bbbb,[0;1;2;3]); (n_v'bbbb'ovov,[0;4;1;3])] [2;4]));
  (*5829*) Assign (T 229) (Plain (Einsum [(n_t1'aa,[0;1]); (n_v'aabb'vvvv,[2;1;3;4])] [0;2;3;4]));
  (*5830*) Assign (T 227) (Plain (Einsum [(n_v'bbbb'vvvv,[0;1;2;3]); (n_t1'bb,[4;3])] [4;0;1;2]));
  (*5831*) Assign (T 202) (Plain (Einsum [(n_t1'bb,[0;1]); (T 201,[2;0])] [2;1]));
  (*5832*) Assign (T 199) (Plain (Einsum [(n_t1'aa,[0;1]); (T 198,[2;0])] [2;1]));
  (*5833*) Assign (T 197) (Plain (Einsum [(n_t1'bb,[0;1]); (T 196,[2;0])] [2;1]));
  (*5834*) Assign (T 195) (Plain (Einsum [(n_t1'bb,[0;1]); (T 194,[2;0])] [2;1]));
  (*5835*) Assign (T 192) (Plain (Einsum [(T 191,[0;1]); (n_t1'aa,[1;2])] [0;2]));
  (*5836*) Assign (T 189) (Plain (Einsum [(n_t1'aa,[0;1]); (T 188,[2;0])] [2;1]));
  (*5837*) Assign (T 187) (Plain (Einsum [(n_v'aabb'ovvv,[0;1;2;3]); (n_t1'bb,[4;3])] [0;4;1;2]));
  (*5838*) Assign (T 186) (Plain (Einsum [(n_v'aabb'vvov,[0;1;2;3]); (n_t1'bb,[4;3])] [4;2;0;1]));
  (*5839*) Assign (T 184) (Plain (Einsum [(n_v'aaaa'ovvv,[0;1;2;3]); (n_t1'aa,[4;3])] [4;0;1;2]));
  (*5840*) Assign (T 182) (Plain (Einsum [(n_v'aaaa'ovvv,[0;1;2;3]); (n_t1'aa,[4;1])] [4;0;2;3]));
  (*5841*) Assign (T 180) (Plain (Einsum [(n_t1'aa,[0;1]); (T 29,[2;1])] [0;2]));
  (*5842*) Assign (T 179) (Plain (Einsum [(T 178,[0;1]); (n_t1'bb,[2;1])] [2;0]));
  (*5843*) Assign (T 177) (Plain (Einsum [(n_t1'bb,[0;1]); (T 176,[1;2])] [0;2]));
  (*5844*) Assign (T 175) (Plain (Einsum [(T 174,[0;1]); (n_t1'bb,[2;1])] [2;0]));
  (*5845*) Assign (T 172) (Plain (Einsum [(n_t1'aa,[0;1]); (T 28,[1;2])] [0;2]));
  (*5846*) Assign (T 170) (Plain (Einsum [(n_t1'aa,[0;1]); (T 27,[2;1])] [0;2]));
  (*5847*) Assign (T 165) (Plain (Einsum [(n_t1'bb,[0;1]); (T 164,[2;0])] [2;1]));
  (*5848*) Assign (T 162) (Plain (Einsum [(T 161,[0;1]); (n_t1'aa,[1;2])] [0;2]));
  (*5849*) Assign (T 160) (Plain (Einsum [(n_t1'bb,[0;1]); (T 159,[2;0])] [2;1]));
  (*5850*) Assign (T 158) (Plain (Einsum [(n_t1'bb,[0;1]); (T 157,[2;0])] [2;1]));
  (*5851*) Assign (T 155) (Plain (Einsum [(T 154,[0;1]); (n_t1'aa,[1;2])] [0;2]));
  (*5852*) Assign (T 152) (Plain (Einsum [(T 151,[0;1]); (n_t1'aa,[1;2])] [0;2]));
  (*5853*) Assign (T 150) (Plain (Einsum [(n_v'aabb'ovov,[0;1;2;3]); (n_t2'abab,[0;4;5;3])] [4;2;5;1]));
  (*5854*) Assign (T 148) (Plain (Einsum [(n_t2'bbbb,[0;1;2;3]); (n_v'aabb'ovov,[4;5;1;3])] [4;0;5;2]));
  (*5855*) Assign (T 146) (Plain (Einsum [(n_v'aabb'ovov,[0;1;2;3]); (n_t2'abab,[4;2;5;3])] [4;0;5;1]));
  (*5856*) Assign (T 145) (Plain (Einsum [(n_v'aaaa'ovov,[0;1;2;3]); (n_t2'abab,[2;4;1;5])] [0;4;3;5]));
  (*5857*) Assign (T 143) (Plain (Einsum [(n_v'aaaa'ovov,[0;1;2;3]); (n_t2'aaaa,[4;2;5;1])] [4;0;5;3]));
  (*5858*) Assign (T 142) (Plain (Einsum [(n_v'aaaa'ovov,[0;1;2;3]); (n_t2'abab,[2;4;3;5])] [0;4;1;5]));
  (*5859*) Assign (T 140) (Plain (Einsum [(n_v'aaaa'ovov,[0;1;2;3]); (n_t2'aaaa,[4;2;5;3])] [4;0;5;1]));
  (*5860*) Assign (T 138) (Plain (Einsum [(n_t1'aa,[0;1]); (T 137,[2;0])] [2;1]));
  (*5861*) Assign (T 135) (Plain (Einsum [(n_t1'bb,[0;1]); (T 134,[2;0])] [2;1]));
  (*5862*) Assign (T 132) (Plain (Einsum [(n_t1'bb,[0;1]); (T 131,[2;0])] [2;1]));
  (*5863*) Assign (T 129) (Plain (Einsum [(T 128,[0;1]); (n_t1'aa,[1;2])] [0;2]));
  (*5864*) Assign (T 126) (Plain (Einsum [(T 121,[0;1;2;3]); (n_t2'abab,[0;2;4;5])] [1;4;3;5]));
  (*5865*) Assign (T 124) (Plain (Einsum [(n_t2'aaaa,[0;1;2;3]); (T 112,[4;0;1;5])] [4;2;3;5]));
  (*5866*) Assign (T 122) (Plain (Einsum [(T 121,[0;1;2;3]); (n_t2'abab,[0;2;3;4])] [1;4]));
  (*5867*) Assign (T 119) (Plain (Einsum [(T 118,[0;1;2;3]); (n_t2'abab,[1;2;4;3])] [0;4]));
  (*5868*) Assign (T 116) (Plain (Einsum [(T 115,[0;1;2;3]); (n_t2'bbbb,[2;1;4;3])] [0;4]));
  (*5869*) Assign (T 113) (Plain (Einsum [(n_t2'aaaa,[0;1;2;3]); (T 112,[4;1;0;3])] [4;2]));
  (*5870*) Assign (T 104) (Plain (Einsum [(n_t2'bbbb,[0;1;2;3]); (T 36,[1;3])] [0;2]));
  (*5871*) Assign (T 102) (Plain (Einsum [(n_t2'abab,[0;1;2;3]); (T 36,[1;3])] [0;2]));
  (*5872*) Assign (T 101) (Plain (Einsum [(T 37,[0;1]); (n_t2'abab,[0;2;1;3])] [2;3]));
  (*5873*) Assign (T 99) (Plain (Einsum [(T 37,[0;1]); (n_t2'aaaa,[2;0;3;1])] [2;3]));
  (*5874*) Assign (T 97) (Plain (Einsum [(n_t2'bbbb,[0;1;2;3]); (T 34,[1;3])] [0;2]));
  (*5875*) Assign (T 95) (Plain (Einsum [(T 34,[0;1]); (n_t2'abab,[2;0;3;1])] [2;3]));
  (*5876*) Assign (T 93) (Plain (Einsum [(T 90,[0;1]); (n_t2'bbbb,[2;0;3;1])] [2;3]));
  (*5877*) Assign (T 91) (Plain (Einsum [(n_t2'abab,[0;1;2;3]); (T 90,[1;3])] [0;2]));
  (*5878*) Assign (T 89) (Plain (Einsum [(T 30,[0;1]); (n_t2'abab,[0;2;1;3])] [2;3]));
  (*5879*) Assign (T 87) (Plain (Einsum [(T 30,[0;1]); (n_t2'aaaa,[2;0;3;1])] [2;3]));
  (*5880*) Assign (T 86) (Plain (Einsum [(T 83,[0;1]); (n_t2'abab,[0;2;1;3])] [2;3]));
  (*5881*) Assign (T 84) (Plain (Einsum [(n_t2'aaaa,[0;1;2;3]); (T 83,[1;3])] [0;2]));
  (*5882*) Assign (T 82) (Plain (Einsum [(n_t2'abab,[0;1;2;3]); (n_v'aabb'ovvv,[0;4;5;3])] [1;2;4;5]));
  (*5883*) Assign (T 80) (Plain (Einsum [(n_t2'bbbb,[0;1;2;3]); (n_v'aabb'vvov,[4;5;1;3])] [0;4;5;2]));
  (*5884*) Assign (T 78) (Plain (Einsum [(n_v'aabb'vvov,[0;1;2;3]); (n_t2'abab,[4;2;5;3])] [4;5;0;1]));
  (*5885*) Assign (T 77) (Plain (Einsum [(n_t2'abab,[0;1;2;3]); (n_v'aaaa'ovvv,[0;4;5;2])] [1;4;5;3]));
  (*5886*) Assign (T 75) (Plain (Einsum [(n_v'aaaa'ovvv,[0;1;2;3]); (n_t2'aaaa,[4;0;5;3])] [4;5;1;2]));
  (*5887*) Assign (T 74) (Plain (Einsum [(n_t2'abab,[0;1;2;3]); (n_v'aaaa'ovvv,[0;2;4;5])] [1;4;5;3]));
  (*5888*) Assign (T 72) (Plain (Einsum [(n_v'aaaa'ovvv,[0;1;2;3]); (n_t2'aaaa,[4;0;5;1])] [4;5;2;3]));
  (*5889*) Assign (T 70) (Plain (Einsum [(n_t2'abab,[0;1;2;3]); (n_v'aabb'vvov,[4;2;1;3])] [0;4]));
  (*5890*) Assign (T 68) (Plain (Einsum [(n_v'aabb'ovvv,[0;1;2;3]); (n_t2'abab,[0;4;1;3])] [4;2]));
  (*5891*) Assign (T 66) (Times (Einsum [(n_v'bbbb'ovvv,[0;1;2;3]); (n_t2'bbbb,[4;0;3;1])] [4;2]) (-1) 1);
  (*5892*) Assign (T 64) (Times (Einsum [(n_v'aaaa'ovvv,[0;1;2;3]); (n_t2'aaaa,[4;0;3;1])] [4;2]) (-1) 1);
  (*5893*) Assign (T 62) (Plain (Einsum [(n_v'aabb'ovoo,[0;1;2;3]); (n_t2'abab,[0;3;4;5])] [2;4;1;5]));
  (*5894*) Assign (T 60) (Plain (Einsum [(n_v'aaaa'ooov,[0;1;2;3]); (n_t2'aaaa,[1;2;4;5])] [0;4;5;3]));
  (*5895*) Assign (T 58) (Plain (Einsum [(n_v'aabb'ooov,[0;1;2;3]); (n_t2'abab,[1;2;4;3])] [0;4]));
  (*5896*) Assign (T 56) (Plain (Einsum [(n_v'aabb'ovoo,[0;1;2;3]); (n_t2'abab,[0;3;1;4])] [2;4]));
  (*5897*) Assign (T 54) (Plain (Einsum [(n_v'bbbb'ooov,[0;1;2;3]); (n_t2'bbbb,[1;2;4;3])] [0;4]));
  (*5898*) Assign (T 52) (Plain (Einsum [(n_v'aaaa'ooov,[0;1;2;3]); (n_t2'aaaa,[1;2;4;3])] [0;4]));
  (*5899*) Assign (T 50) (Plain (Einsum [(n_v'aabb'ovov,[0;1;2;3]); (n_t2'abab,[0;2;4;3])] [4;1]));
  (*5900*) Assign (T 48) (Times (Einsum [(n_t2'aaaa,[0;1;2;3]); (n_v'aaaa'ovov,[0;3;1;4])] [2;4]) (-1) 1);
  (*5901*) Assign (T 46) (Plain (Einsum [(n_t1'bb,[0;1]); (n_v'aabb'vvvv,[2;3;4;1])] [0;2;3;4]));
  (*5902*) Assign (T 44) (Plain (Einsum [(n_t1'aa,[0;1]); (n_v'aaaa'vvvv,[2;3;4;1])] [0;2;3;4]));
  (*5903*) Assign (T 35) (Plain (Einsum [(n_v'bbbb'oovv,[0;1;2;3]); (n_t1'bb,[1;3])] [0;2]));
  (*5904*) Assign (T 32) (Plain (Einsum [(n_t1'aa,[0;1]); (n_v'aaaa'oovv,[2;0;3;1])] [2;3]));
  (*5905*) Assign (T 24) (Plain (Einsum [(n_t1'bb,[0;1]); (T 23,[0;2])] [2;1]));
  (*5906*) Assign (T 21) (Plain (Einsum [(n_t1'aa,[0;1]); (T 20,[0;2])] [2;1]));
  (*5907*) Assign (T 14) (Plain (Einsum [(n_f'bb'ov,[0;1]); (n_t2'bbbb,[2;0;3;1])] [2;3]));
  (*5908*) Assign (T 12) (Plain (Einsum [(n_f'bb'ov,[0;1]); (n_t2'abab,[2;0;3;1])] [2;3]));
  (*5909*) Assign (T 11) (Plain (Einsum [(n_f'aa'ov,[0;1]); (n_t2'abab,[0;2;1;3])] [2;3]));
  (*5910*) Assign (T 9) (Plain (Einsum [(n_f'aa'ov,[0;1]); (n_t2'aaaa,[2;0;3;1])] [2;3]));
  (*5911*) Assign (T 8) (Plain (Einsum [(n_f'bb'vv,[0;1]); (n_t1'bb,[2;1])] [2;0]));
  (*5912*) Assign (T 6) (Plain (Einsum [(n_t1'aa,[0;1]); (n_f'aa'vv,[2;1])] [0;2]));
  (*5913*) Assign (T 5) (Plain (Einsum [(n_t1'bb,[0;1]); (n_f'bb'oo,[2;0])] [2;1]));
  (*5914*) Assign (T 3) (Plain (Einsum [(n_f'aa'oo,[0;1]); (n_t1'aa,[1;2])] [0;2]))]
 [(T 11,[6;7]); (T 101,[6;7]); (T 102,[4;5]); (T 104,[6;7]); (T 12,[4;5]); (T 112,[4;4;4;5]); (T 113,[4;5]); (T 115,[6;6;6;7]); (T 116,[6;7]); (T 118,[4;4;6;7]); (T 119,[4;5]); (T 121,[4;6;6;5]); (T 122,[6;7]); (T 124,[4;5;5;5]); (T 126,[6;5;5;7]); (T 128,[4;4]); (T 129,[4;5]); (T 14,[6;7]); (T 131,[6;6]); (T 132,[6;7]); (T 134,[6;6]); (T 135,[6;7]); (T 137,[4;4]); (T 138,[4;5]); (T 140,[4;4;5;5]); (T 142,[4;6;5;7]); (T 143,[4;4;5;5]); (T 145,[4;6;5;7]); (T 146,[4;4;5;5]); (T 148,[4;6;5;7]); (T 150,[6;6;5;5]); (T 151,[4;4]); (T 152,[4;5]); (T 154,[4;4]); (T 155,[4;5]); (T 157,[6;6]); (T 158,[6;7]); (T 159,[6;6]); (T 160,[6;7]); (T 161,[4;4]); (T 162,[4;5]); (T 164,[6;6]); (T 165,[6;7]); (T 170,[4;5]); (T 172,[4;5]); (T 174,[7;7]); (T 175,[6;7]); (T 176,[7;7]); (T 177,[6;7]); (T 178,[7;7]); (T 179,[6;7]); (T 180,[4;5]); (T 182,[4;4;5;5]); (T 184,[4;4;5;5]); (T 186,[6;6;5;5]); (T 187,[4;6;5;7]); (T 188,[4;4]); (T 189,[4;5]); (T 20,[4;4]); (T 191,[4;4]); (T 192,[4;5]); (T 194,[6;6]); (T 195,[6;7]); (T 196,[6;6]); (T 197,[6;7]); (T 198,[4;4]); (T 199,[4;5]); (T 3,[4;5]); (T 21,[4;5]); (T 201,[6;6]); (T 202,[6;7]); (T 23,[6;6]); (T 227,[6;7;7;7]); (T 229,[4;5;7;7]); (T 24,[6;7]); (T 231,[7;7]); (T 233,[7;7]); (T 239,[6;7;7;7]); (T 241,[4;5;7;7]); (T 247,[4;5;7;7]); (T 248,[6;7;7;7]); (T 250,[4;5;7;7]); (T 251,[6;7;7;7]); (T 253,[4;5;7;7]); (T 255,[6;7;7;7]); (T 257,[4;5;7;7]); (T 27,[5;5]); (T 28,[5;5]); (T 277,[6;7;7;7]); (T 279,[4;5;7;7]); (T 29,[5;5]); (T 285,[4;6;5;7]); (T 286,[6;6;7;7]); (T 288,[4;6;5;7]); (T 289,[6;6;7;7]); (T 30,[4;5]); (T 291,[4;6;5;7]); (T 293,[6;6;7;7]); (T 295,[4;4;7;7]); (T 306,[6;6;7;7]); (T 308,[6;6;7;7]); (T 310,[4;4;7;7]); (T 32,[4;5]); (T 311,[4;6;5;7]); (T 34,[6;7]); (T 35,[6;7]); (T 36,[6;7]); (T 37,[4;5]); (T 5,[6;7]); (T 44,[4;5;5;5]); (T 46,[6;5;5;7]); (T 48,[5;5]); (T 50,[5;5]); (T 6,[4;5]); (T 52,[4;5]); (T 54,[6;7]); (T 56,[6;7]); (T 58,[4;5]); (T 60,[4;5;5;5]); (T 62,[6;5;5;7]); (T 64,[4;5]); (T 66,[6;7]); (T 68,[6;7]); (T 70,[4;5]); (T 8,[6;7]); (T 72,[4;5;5;5]); (T 74,[6;5;5;7]); (T 75,[4;5;5;5]); (T 77,[6;5;5;7]); (T 78,[4;5;5;5]); (T 80,[6;5;5;7]); (T 9,[4;5]); (T 82,[6;5;5;7]); (T 83,[4;5]); (T 84,[4;5]); (T 86,[6;7]); (T 87,[4;5]); (T 89,[6;7]); (T 90,[6;7]); (T 91,[4;5]); (T 93,[6;7]); (T 95,[4;5]); (T 97,[6;7]); (T 99,[4;5])].

(** ebcc/codegen/UCCSD.py:5918-6565 [hbar_lmatvec_ea] *)
Definition UCCSD_hbar_lmatvec_ea : prog := mkprog
 [(IT 115,[6;6;6;7]); (n_f'bb'ov,[6;7]); (IT 34,[6;7]); (IT 36,[6;7]); (n_f'aa'ov,[4;5]); (IT 30,[4;5]); (IT 37,[4;5]); (IT 112,[4;4;4;5]); (n_t1'aa,[4;5]); (IT 118,[4;4;6;7]); (n_t2'bbbb,[6;6;7;7]); (n_r2'bbb,[7;7;6]); (n_t2'abab,[4;6;5;7]); (n_r2'aba,[5;7;4]); (n_v'aabb'ooov,[4;4;6;7]); (n_t1'bb,[6;7]); (IT 90,[6;7]); (n_r2'bab,[7;5;6]); (n_r1'a,[5]); (IT 121,[4;6;6;5]); (IT 83,[4;5]); (IT 288,[4;6;5;7]); (n_v'aabb'ovov,[4;5;6;7]); (IT 286,[6;6;7;7]); (IT 293,[6;6;7;7]); (IT 308,[6;6;7;7]); (n_f'bb'vv,[7;7]); (IT 174,[7;7]); (IT 178,[7;7]); (IT 231,[7;7]); (IT 233,[7;7]); (n_v'bbbb'ooov,[6;6;6;7]); (IT 176,[7;7]); (IT 306,[6;6;7;7]); (IT 289,[6;6;7;7]); (IT 285,[4;6;5;7]); (IT 311,[4;6;5;7]); (IT 291,[4;6;5;7]); (n_r1'b,[7]); (IT 182,[4;4;5;5]); (IT 143,[4;4;5;5]); (IT 28,[5;5]); (n_r2'aaa,[5;5;4]); (n_t2'aaaa,[4;4;5;5]); (IT 142,[4;6;5;7]); (IT 148,[4;6;5;7]); (IT 187,[4;6;5;7]); (n_f'aa'vv,[5;5]); (IT 27,[5;5]); (IT 29,[5;5]); (IT 48,[5;5]); (IT 50,[5;5]); (n_v'aaaa'ooov,[4;4;4;5]); (IT 140,[4;4;5;5]); (IT 146,[4;4;5;5]); (IT 184,[4;4;5;5]); (n_v'bbbb'ovvv,[6;7;7;7]); (n_v'bbbb'ovov,[6;7;6;7]); (n_v'bbbb'oovv,[6;6;7;7]); (n_v'aabb'ovoo,[4;5;6;6]); (IT 145,[4;6;5;7]); (n_v'aaaa'ovov,[4;5;4;5]); (n_v'aaaa'ovvv,[4;5;5;5]); (n_v'aaaa'oovv,[4;4;5;5]); (n_f'bb'oo,[6;6]); (IT 131,[6;6]); (IT 134,[6;6]); (IT 159,[6;6]); (IT 164,[6;6]); (IT 196,[6;6]); (IT 201,[6;6]); (IT 23,[6;6]); (IT 157,[6;6]); (IT 194,[6;6]); (IT 150,[6;6;5;5]); (IT 186,[6;6;5;5]); (n_v'aabb'vvoo,[5;5;6;6]); (IT 295,[4;4;7;7]); (IT 310,[4;4;7;7]); (n_v'aabb'oovv,[4;4;7;7]); (n_f'aa'oo,[4;4]); (IT 128,[4;4]); (IT 137,[4;4]); (IT 154,[4;4]); (IT 161,[4;4]); (IT 191,[4;4]); (IT 198,[4;4]); (IT 20,[4;4]); (IT 151,[4;4]); (IT 188,[4;4]); (IT 113,[4;5]); (IT 119,[4;5]); (IT 129,[4;5]); (IT 138,[4;5]); (IT 155,[4;5]); (IT 162,[4;5]); (IT 172,[4;5]); (IT 192,[4;5]); (IT 199,[4;5]); (IT 21,[4;5]); (IT 3,[4;5]); (IT 32,[4;5]); (IT 52,[4;5]); (IT 58,[4;5]); (IT 64,[4;5]); (IT 84,[4;5]); (IT 91,[4;5]); (IT 102,[4;5]); (IT 12,[4;5]); (IT 152,[4;5]); (IT 170,[4;5]); (IT 180,[4;5]); (IT 189,[4;5]); (IT 6,[4;5]); (IT 70,[4;5]); (IT 87,[4;5]); (IT 9,[4;5]); (IT 95,[4;5]); (IT 99,[4;5]); (IT 116,[6;7]); (IT 122,[6;7]); (IT 132,[6;7]); (IT 135,[6;7]); (IT 160,[6;7]); (IT 165,[6;7]); (IT 177,[6;7]); (IT 197,[6;7]); (IT 202,[6;7]); (IT 24,[6;7]); (IT 35,[6;7]); (IT 5,[6;7]); (IT 54,[6;7]); (IT 56,[6;7]); (IT 66,[6;7]); (IT 86,[6;7]); (IT 93,[6;7]); (IT 101,[6;7]); (IT 104,[6;7]); (IT 11,[6;7]); (IT 14,[6;7]); (IT 158,[6;7]); (IT 175,[6;7]); (IT 179,[6;7]); (IT 195,[6;7]); (IT 68,[6;7]); (IT 8,[6;7]); (IT 89,[6;7]); (IT 97,[6;7]); (IT 239,[6;7;7;7]); (IT 248,[6;7;7;7]); (IT 255,[6;7;7;7]); (IT 227,[6;7;7;7]); (IT 251,[6;7;7;7]); (IT 277,[6;7;7;7]); (IT 229,[4;5;7;7]); (IT 241,[4;5;7;7]); (IT 247,[4;5;7;7]); (IT 253,[4;5;7;7]); (IT 279,[4;5;7;7]); (n_v'aabb'ovvv,[4;5;7;7]); (IT 250,[4;5;7;7]); (IT 257,[4;5;7;7]); (IT 126,[6;5;5;7]); (IT 46,[6;5;5;7]); (IT 62,[6;5;5;7]); (IT 74,[6;5;5;7]); (IT 80,[6;5;5;7]); (n_v'aabb'vvov,[5;5;6;7]); (IT 77,[6;5;5;7]); (IT 82,[6;5;5;7]); (IT 60,[4;5;5;5]); (IT 72,[4;5;5;5]); (IT 78,[4;5;5;5]); (IT 124,[4;5;5;5]); (IT 44,[4;5;5;5]); (IT 75,[4;5;5;5]); (n_v'bbbb'vvvv,[7;7;7;7]); (n_v'aabb'vvvv,[5;5;7;7]); (n_v'aaaa'vvvv,[5;5;5;5])]
 [(*5948*) Assign (T 95) (Times (Copy (IT 115)) (-1) 1);
  (*5949*) AddTo (T 95) (Plain (Transpose (IT 115) [0;2;1;3]));
  (*5950*) Assign (T 119) (Plain (Copy n_f'bb'ov));
  (*5951*) AddTo (T 119) (Plain (Copy (IT 34)));
  (*5952*) AddTo (T 119) (Plain (Copy (IT 36)));
  (*5953*) Assign (T 63) (Plain (Copy n_f'aa'ov));
  (*5954*) AddTo (T 63) (Plain (Copy (IT 30)));
  (*5955*) AddTo (T 63) (Plain (Copy (IT 37)));
  (*5956*) Assign (T 45) (Plain (Copy (IT 112)));
  (*5957*) AddTo (T 45) (Times (Transpose (IT 112) [0;2;1;3]) (-1) 1);
  (*5958*) Assign (T 106) (Plain (Einsum [(n_t1'aa,[0;1]); (IT 118,[2;0;3;4])] [2;3;1;4]));
  (*5959*) Assign (T 37) (Plain (Einsum [(n_t2'bbbb,[0;1;2;3]); (n_r2'bbb,[2;3;1])] [0]));
  (*5960*) Assign (T 36) (Plain (Einsum [(n_t2'abab,[0;1;2;3]); (n_r2'aba,[2;3;0])] [1]));
  (*5961*) Assign (T 109) (Plain (Einsum [(n_t1'aa,[0;1]); (n_v'aabb'ooov,[2;0;3;4])] [2;3;1;4]));
  (*5962*) Assign (T 96) (Plain (Einsum [(n_t1'bb,[0;1]); (T 95,[2;0;3;4])] [2;3;1;4]));
  (*5963*) Del (T 95);
  (*5964*) Assign (T 101) (Plain (Einsum [(IT 90,[0;1]); (n_t1'bb,[0;2])] [1;2]));
  (*5965*) Assign (T 120) (Plain (Einsum [(T 119,[0;1]); (n_t1'bb,[0;2])] [2;1]));
  (*5966*) Del (T 119);
  (*5967*) Assign (T 18) (Times (Einsum [(n_r2'bab,[0;1;2]); (n_t2'abab,[3;2;1;0])] [3]) (-1) 1);
  (*5968*) Assign (T 16) (Plain (Einsum [(n_t1'aa,[0;1]); (n_r1'a,[1])] [0]));
  (*5969*) Assign (T 64) (Plain (Einsum [(n_t1'aa,[0;1]); (T 63,[0;2])] [1;2]));
  (*5970*) Del (T 63);
  (*5971*) Assign (T 49) (Plain (Einsum [(n_t1'bb,[0;1]); (IT 121,[2;3;0;4])] [2;3;4;1]));
  (*5972*) Assign (T 54) (Plain (Einsum [(IT 83,[0;1]); (n_t1'aa,[0;2])] [1;2]));
  (*5973*) Assign (T 46) (Plain (Einsum [(n_t1'aa,[0;1]); (T 45,[2;3;0;4])] [2;3;1;4]));
  (*5974*) Del (T 45);
  (*5975*) Assign (T 23) (Plain (Einsum [(n_r2'bbb,[0;1;2]); (n_t1'bb,[3;1])] [2;3;0]));
  (*5976*) Assign (T 107) (Plain (Copy (IT 288)));
  (*5977*) AddTo (T 107) (Plain (Copy (T 106)));
  (*5978*) Del (T 106);
  (*5979*) Assign (T 104) (Times (Copy (T 36)) (-1) 2);
  (*5980*) AddTo (T 104) (Plain (Copy (T 37)));
  (*5981*) Assign (T 110) (Plain (Transpose n_v'aabb'ovov [0;2;1;3]));
  (*5982*) AddTo (T 110) (Times (Copy (T 109)) (-1) 1);
  (*5983*) Del (T 109);
  (*5984*) Assign (T 97) (Times (Copy (IT 286)) (2) 1);
  (*5985*) AddTo (T 97) (Plain (Copy (IT 293)));
  (*5986*) AddTo (T 97) (Plain (Transpose (IT 308) [0;1;3;2]));
  (*5987*) AddTo (T 97) (Times (Copy (T 96)) (-1) 1);
  (*5988*) Del (T 96);
  (*5989*) Assign (T 102) (Times (Copy n_f'bb'vv) (1) 2);
  (*5990*) AddTo (T 102) (Times (Copy (IT 174)) (1) 2);
  (*5991*) AddTo (T 102) (Times (Copy (IT 178)) (1) 2);
  (*5992*) AddTo (T 102) (Times (Copy (IT 231)) (-1) 1);
  (*5993*) AddTo (T 102) (Times (Copy (IT 233)) (-1) 2);
  (*5994*) AddTo (T 102) (Times (Transpose (T 101) [1;0]) (1) 2);
  (*5995*) Del (T 101);
  (*5996*) Assign (T 99) (Plain (Copy n_v'bbbb'ooov));
  (*5997*) AddTo (T 99) (Times (Transpose n_v'bbbb'ooov [0;2;1;3]) (-1) 1);
  (*5998*) Assign (T 121) (Plain (Copy (IT 176)));
  (*5999*) AddTo (T 121) (Plain (Transpose (T 120) [1;0]));
  (*6000*) Del (T 120);
  (*6001*) Assign (T 117) (Plain (Transpose (IT 306) [0;1;3;2]));
  (*6002*) AddTo (T 117) (Times (Copy (IT 289)) (2) 1);
  (*6003*) Assign (T 115) (Plain (Copy (IT 285)));
  (*6004*) AddTo (T 115) (Plain (Copy (IT 311)));
  (*6005*) AddTo (T 115) (Times (Copy (IT 291)) (2) 1);
  (*6006*) Assign (T 35) (Plain (Einsum [(n_r1'b,[0]); (n_t1'bb,[1;0])] [1]));
  (*6007*) Assign (T 20) (Plain (Copy n_f'aa'ov));
  (*6008*) AddTo (T 20) (Plain (Copy (IT 30)));
  (*6009*) AddTo (T 20) (Plain (Copy (IT 37)));
  (*6010*) AddTo (T 20) (Times (Copy (IT 83)) (-1) 1);
  (*6011*) Assign (T 67) (Plain (Copy (T 16)));
  (*6012*) AddTo (T 67) (Plain (Copy (T 18)));
  (*6013*) Assign (T 61) (Plain (Transpose (IT 182) [0;1;3;2]));
  (*6014*) AddTo (T 61) (Times (Copy (IT 143)) (2) 1);
  (*6015*) Assign (T 65) (Plain (Copy (IT 28)));
  (*6016*) AddTo (T 65) (Plain (Transpose (T 64) [1;0]));
  (*6017*) Del (T 64);
  (*6018*) Assign (T 3) (Plain (Einsum [(n_t1'aa,[0;1]); (n_r2'aaa,[2;1;3])] [3;0;2]));
  (*6019*) Assign (T 17) (Plain (Einsum [(n_t2'aaaa,[0;1;2;3]); (n_r2'aaa,[2;3;1])] [0]));
  (*6020*) Assign (T 7) (Times (Einsum [(n_t1'bb,[0;1]); (n_r2'bab,[1;2;3])] [3;0;2]) (-1) 1);
  (*6021*) Assign (T 50) (Times (Copy (IT 142)) (1) 2);
  (*6022*) AddTo (T 50) (Plain (Copy (IT 148)));
  (*6023*) AddTo (T 50) (Times (Copy (IT 187)) (1) 2);
  (*6024*) AddTo (T 50) (Times (Copy (T 49)) (-1) 2);
  (*6025*) Del (T 49);
  (*6026*) Assign (T 55) (Times (Copy n_f'aa'vv) (1) 2);
  (*6027*) AddTo (T 55) (Times (Copy (IT 27)) (1) 2);
  (*6028*) AddTo (T 55) (Times (Copy (IT 29)) (1) 2);
  (*6029*) AddTo (T 55) (Times (Copy (IT 48)) (-1) 1);
  (*6030*) AddTo (T 55) (Times (Copy (IT 50)) (-1) 2);
  (*6031*) AddTo (T 55) (Times (Transpose (T 54) [1;0]) (1) 2);
  (*6032*) Del (T 54);
  (*6033*) Assign (T 52) (Times (Copy n_v'aaaa'ooov) (-1) 1);
  (*6034*) AddTo (T 52) (Plain (Transpose n_v'aaaa'ooov [0;2;1;3]));
  (*6035*) Assign (T 47) (Times (Copy (IT 140)) (2) 1);
  (*6036*) AddTo (T 47) (Plain (Copy (IT 146)));
  (*6037*) AddTo (T 47) (Plain (Transpose (IT 184) [0;1;3;2]));
  (*6038*) AddTo (T 47) (Times (Copy (T 46)) (-1) 1);
  (*6039*) Del (T 46);
  (*6040*) Assign (T 94) (Times (Einsum [(T 23,[0;1;2]); (n_v'bbbb'ovvv,[1;3;4;2])] [0;3;4]) (-1) 1);
  (*6041*) Assign (T 108) (Plain (Einsum [(T 107,[0;1;2;3]); (n_r2'aba,[2;4;0])] [1;4;3]));
  (*6042*) Del (T 107);
  (*6043*) Assign (T 105) (Times (Einsum [(T 104,[0]); (n_v'bbbb'ovov,[1;2;0;3])] [1;3;2]) (2) 1);
  (*6044*) Del (T 104);
  (*6045*) Assign (T 111) (Plain (Einsum [(T 110,[0;1;2;3]); (n_r2'aba,[2;4;0])] [1;4;3]));
  (*6046*) Del (T 110);
  (*6047*) Assign (T 93) (Plain (Einsum [(n_r2'bbb,[0;1;2]); (n_v'bbbb'oovv,[3;2;4;1])] [3;0;4]));
  (*6048*) Assign (T 92) (Plain (Einsum [(n_v'bbbb'ovvv,[0;1;2;3]); (n_r1'b,[3])] [0;1;2]));
  (*6049*) Assign (T 98) (Times (Einsum [(n_r2'bbb,[0;1;2]); (T 97,[2;3;1;4])] [3;0;4]) (-2) 1);
  (*6050*) Del (T 97);
  (*6051*) Assign (T 103) (Times (Einsum [(n_r2'bbb,[0;1;2]); (T 102,[1;3])] [2;0;3]) (-4) 1);
  (*6052*) Del (T 102);
  (*6053*) Assign (T 100) (Times (Einsum [(T 23,[0;1;2]); (T 99,[0;3;1;4])] [3;2;4]) (2) 1);
  (*6054*) Del (T 99);
  (*6055*) Assign (T 124) (Plain (Copy n_t2'bbbb));
  (*6056*) AddTo (T 124) (Plain (Einsum [(n_t1'bb,[0;1]); (n_t1'bb,[2;3])] [0;2;1;3]));
  (*6057*) Assign (T 122) (Times (Einsum [(T 121,[0;1]); (n_r2'bbb,[2;1;3])] [3;2;0]) (-1) 1);
  (*6058*) Del (T 121);
  (*6059*) Assign (T 118) (Times (Einsum [(n_r2'bbb,[0;1;2]); (T 117,[2;3;1;4])] [3;0;4]) (-1) 1);
  (*6060*) Del (T 117);
  (*6061*) Assign (T 116) (Plain (Einsum [(T 115,[0;1;2;3]); (n_r2'aba,[2;4;0])] [1;4;3]));
  (*6062*) Del (T 115);
  (*6063*) Assign (T 113) (Plain (Einsum [(n_r2'bbb,[0;1;2]); (n_v'bbbb'ovov,[3;4;2;1])] [3;0;4]));
  (*6064*) Assign (T 114) (Plain (Einsum [(T 35,[0]); (n_v'bbbb'ovov,[1;2;0;3])] [1;2;3]));
  (*6065*) Assign (T 81) (Plain (Einsum [(T 20,[0;1]); (n_t1'aa,[0;2])] [2;1]));
  (*6066*) Assign (T 31) (Plain (Copy (IT 118)));
  (*6067*) AddTo (T 31) (Plain (Copy n_v'aabb'ooov));
  (*6068*) Assign (T 75) (Plain (Copy (IT 121)));
  (*6069*) AddTo (T 75) (Plain (Transpose n_v'aabb'ovoo [0;2;3;1]));
  (*6070*) Assign (T 39) (Plain (Copy n_f'bb'ov));
  (*6071*) AddTo (T 39) (Plain (Copy (IT 34)));
  (*6072*) AddTo (T 39) (Plain (Copy (IT 36)));
  (*6073*) AddTo (T 39) (Times (Copy (IT 90)) (-1) 1);
  (*6074*) Assign (T 83) (Times (Copy (IT 115)) (-1) 1);
  (*6075*) AddTo (T 83) (Plain (Transpose (IT 115) [0;2;1;3]));
  (*6076*) AddTo (T 83) (Plain (Copy n_v'bbbb'ooov));
  (*6077*) AddTo (T 83) (Times (Transpose n_v'bbbb'ooov [0;2;1;3]) (-1) 1);
  (*6078*) Assign (T 87) (Plain (Copy n_t2'abab));
  (*6079*) AddTo (T 87) (Plain (Einsum [(n_t1'aa,[0;1]); (n_t1'bb,[2;3])] [0;2;1;3]));
  (*6080*) Assign (T 73) (Plain (Copy (IT 112)));
  (*6081*) AddTo (T 73) (Times (Transpose (IT 112) [0;2;1;3]) (-1) 1);
  (*6082*) AddTo (T 73) (Times (Copy n_v'aaaa'ooov) (-1) 1);
  (*6083*) AddTo (T 73) (Plain (Transpose n_v'aaaa'ooov [0;2;1;3]));
  (*6084*) Assign (T 78) (Plain (Copy n_t2'abab));
  (*6085*) AddTo (T 78) (Plain (Einsum [(n_t1'aa,[0;1]); (n_t1'bb,[2;3])] [0;2;1;3]));
  (*6086*) Assign (T 59) (Times (Einsum [(n_r2'bab,[0;1;2]); (IT 145,[3;2;4;0])] [3;4;1]) (-1) 1);
  (*6087*) Assign (T 68) (Plain (Einsum [(T 67,[0]); (n_v'aaaa'ovov,[1;2;0;3])] [1;3;2]));
  (*6088*) Del (T 67);
  (*6089*) Assign (T 62) (Times (Einsum [(T 61,[0;1;2;3]); (n_r2'aaa,[4;2;0])] [1;4;3]) (-1) 1);
  (*6090*) Del (T 61);
  (*6091*) Assign (T 60) (Times (Einsum [(n_v'aabb'ovov,[0;1;2;3]); (n_r2'bab,[3;4;2])] [0;4;1]) (-1) 1);
  (*6092*) Assign (T 58) (Plain (Einsum [(n_r2'aaa,[0;1;2]); (n_v'aaaa'ovov,[3;4;2;1])] [3;0;4]));
  (*6093*) Assign (T 66) (Times (Einsum [(n_r2'aaa,[0;1;2]); (T 65,[3;1])] [2;0;3]) (-1) 1);
  (*6094*) Del (T 65);
  (*6095*) Assign (T 70) (Plain (Copy n_t2'aaaa));
  (*6096*) AddTo (T 70) (Plain (Einsum [(n_t1'aa,[0;1]); (n_t1'aa,[2;3])] [2;0;3;1]));
  (*6097*) Assign (T 42) (Times (Einsum [(n_v'aaaa'ovvv,[0;1;2;3]); (T 3,[4;0;3])] [4;1;2]) (-1) 1);
  (*6098*) Assign (T 40) (Plain (Einsum [(n_v'aaaa'ovvv,[0;1;2;3]); (n_r1'a,[3])] [0;1;2]));
  (*6099*) Assign (T 44) (Times (Einsum [(T 17,[0]); (n_v'aaaa'ovov,[1;2;0;3])] [1;2;3]) (-1) 1);
  (*6100*) Assign (T 43) (Plain (Einsum [(T 7,[0;1;2]); (n_v'aabb'ovoo,[3;4;1;0])] [3;2;4]));
  (*6101*) Assign (T 51) (Times (Einsum [(n_r2'bab,[0;1;2]); (T 50,[3;2;4;0])] [3;1;4]) (-2) 1);
  (*6102*) Del (T 50);
  (*6103*) Assign (T 41) (Plain (Einsum [(n_v'aaaa'oovv,[0;1;2;3]); (n_r2'aaa,[4;3;1])] [0;4;2]));
  (*6104*) Assign (T 56) (Times (Einsum [(n_r2'aaa,[0;1;2]); (T 55,[1;3])] [2;0;3]) (-4) 1);
  (*6105*) Del (T 55);
  (*6106*) Assign (T 53) (Times (Einsum [(T 3,[0;1;2]); (T 52,[0;1;3;4])] [3;2;4]) (2) 1);
  (*6107*) Del (T 52);
  (*6108*) Assign (T 48) (Times (Einsum [(T 47,[0;1;2;3]); (n_r2'aaa,[4;2;0])] [1;4;3]) (-2) 1);
  (*6109*) Del (T 47);
  (*6110*) Assign (T 27) (Plain (Einsum [(n_t1'aa,[0;1]); (n_r2'aba,[1;2;3])] [3;0;2]));
  (*6111*) Assign (T 112) (Plain (Copy (T 92)));
  (*6112*) Del (T 92);
  (*6113*) AddTo (T 112) (Times (Copy (T 93)) (2) 1);
  (*6114*) Del (T 93);
  (*6115*) AddTo (T 112) (Times (Copy (T 94)) (2) 1);
  (*6116*) Del (T 94);
  (*6117*) AddTo (T 112) (Times (Transpose (T 98) [0;2;1]) (-1) 1);
  (*6118*) Del (T 98);
  (*6119*) AddTo (T 112) (Times (Copy (T 100)) (-1) 1);
  (*6120*) Del (T 100);
  (*6121*) AddTo (T 112) (Times (Transpose (T 103) [0;2;1]) (-1) 1);
  (*6122*) Del (T 103);
  (*6123*) AddTo (T 112) (Times (Transpose (T 105) [0;2;1]) (-1) 1);
  (*6124*) Del (T 105);
  (*6125*) AddTo (T 112) (Plain (Transpose (T 108) [0;2;1]));
  (*6126*) Del (T 108);
  (*6127*) AddTo (T 112) (Plain (Copy (T 111)));
  (*6128*) Del (T 111);
  (*6129*) Assign (T 125) (Times (Einsum [(T 124,[0;1;2;3]); (n_r2'bbb,[2;3;4])] [4;1;0]) (-1) 1);
  (*6130*) Del (T 124);
  (*6131*) Assign (T 123) (Times (Copy (T 113)) (2) 1);
  (*6132*) Del (T 113);
  (*6133*) AddTo (T 123) (Plain (Copy (T 114)));
  (*6134*) Del (T 114);
  (*6135*) AddTo (T 123) (Plain (Transpose (T 116) [0;2;1]));
  (*6136*) Del (T 116);
  (*6137*) AddTo (T 123) (Times (Transpose (T 118) [0;2;1]) (-2) 1);
  (*6138*) Del (T 118);
  (*6139*) AddTo (T 123) (Times (Transpose (T 122) [0;2;1]) (-2) 1);
  (*6140*) Del (T 122);
  (*6141*) Assign (T 91) (Plain (Copy n_f'bb'oo));
  (*6142*) AddTo (T 91) (Times (Copy (IT 131)) (2) 1);
  (*6143*) AddTo (T 91) (Plain (Copy (IT 134)));
  (*6144*) AddTo (T 91) (Plain (Copy (IT 159)));
  (*6145*) AddTo (T 91) (Plain (Copy (IT 164)));
  (*6146*) AddTo (T 91) (Plain (Copy (IT 196)));
  (*6147*) AddTo (T 91) (Plain (Copy (IT 201)));
  (*6148*) AddTo (T 91) (Plain (Transpose (IT 23) [1;0]));
  (*6149*) AddTo (T 91) (Times (Copy (IT 157)) (-1) 1);
  (*6150*) AddTo (T 91) (Times (Copy (IT 194)) (-1) 1);
  (*6151*) Assign (T 89) (Plain (Transpose (IT 28) [1;0]));
  (*6152*) AddTo (T 89) (Times (Copy (IT 48)) (2) 1);
  (*6153*) AddTo (T 89) (Plain (Copy (IT 50)));
  (*6154*) AddTo (T 89) (Times (Copy n_f'aa'vv) (-1) 1);
  (*6155*) AddTo (T 89) (Times (Transpose (IT 27) [1;0]) (-1) 1);
  (*6156*) AddTo (T 89) (Times (Transpose (IT 29) [1;0]) (-1) 1);
  (*6157*) AddTo (T 89) (Plain (Copy (T 81)));
  (*6158*) Assign (T 5) (Times (Einsum [(n_r2'bab,[0;1;2]); (n_t1'aa,[3;1])] [3;2;0]) (-1) 1);
  (*6159*) Assign (T 19) (Times (Copy (T 16)) (1) 2);
  (*6160*) Del (T 16);
  (*6161*) AddTo (T 19) (Plain (Copy (T 17)));
  (*6162*) Del (T 17);
  (*6163*) AddTo (T 19) (Times (Copy (T 18)) (1) 2);
  (*6164*) Del (T 18);
  (*6165*) Assign (T 85) (Plain (Copy (IT 285)));
  (*6166*) AddTo (T 85) (Times (Copy (IT 291)) (2) 1);
  (*6167*) AddTo (T 85) (Plain (Copy (IT 311)));
  (*6168*) AddTo (T 85) (Plain (Transpose n_v'aabb'ovov [0;2;1;3]));
  (*6169*) AddTo (T 85) (Times (Copy (IT 288)) (-1) 1);
  (*6170*) AddTo (T 85) (Times (Einsum [(n_t1'aa,[0;1]); (T 31,[2;0;3;4])] [2;3;1;4]) (-1) 1);
  (*6171*) Assign (T 86) (Plain (Copy (IT 150)));
  (*6172*) AddTo (T 86) (Times (Transpose (IT 186) [0;1;3;2]) (-1) 1);
  (*6173*) AddTo (T 86) (Times (Transpose n_v'aabb'vvoo [2;3;0;1]) (-1) 1);
  (*6174*) AddTo (T 86) (Plain (Einsum [(T 75,[0;1;2;3]); (n_t1'aa,[0;4])] [1;2;4;3]));
  (*6175*) Assign (T 90) (Times (Transpose (IT 176) [1;0]) (1) 2);
  (*6176*) AddTo (T 90) (Plain (Copy (IT 231)));
  (*6177*) AddTo (T 90) (Times (Copy (IT 233)) (1) 2);
  (*6178*) AddTo (T 90) (Times (Copy n_f'bb'vv) (-1) 2);
  (*6179*) AddTo (T 90) (Times (Copy (IT 174)) (-1) 2);
  (*6180*) AddTo (T 90) (Times (Copy (IT 178)) (-1) 2);
  (*6181*) AddTo (T 90) (Times (Einsum [(n_t1'bb,[0;1]); (T 39,[0;2])] [1;2]) (1) 2);
  (*6182*) Assign (T 84) (Times (Copy (IT 286)) (2) 1);
  (*6183*) AddTo (T 84) (Plain (Copy (IT 293)));
  (*6184*) AddTo (T 84) (Plain (Transpose (IT 308) [0;1;3;2]));
  (*6185*) AddTo (T 84) (Plain (Transpose n_v'bbbb'ovov [0;2;1;3]));
  (*6186*) AddTo (T 84) (Times (Copy (IT 289)) (-2) 1);
  (*6187*) AddTo (T 84) (Times (Transpose (IT 306) [0;1;3;2]) (-1) 1);
  (*6188*) AddTo (T 84) (Times (Copy n_v'bbbb'oovv) (-1) 1);
  (*6189*) AddTo (T 84) (Times (Einsum [(n_t1'bb,[0;1]); (T 83,[2;0;3;4])] [2;3;1;4]) (-1) 1);
  (*6190*) Del (T 83);
  (*6191*) Assign (T 88) (Times (Einsum [(T 87,[0;1;2;3]); (n_r2'bab,[3;2;4])] [0;4;1]) (-1) 1);
  (*6192*) Del (T 87);
  (*6193*) Assign (T 38) (Plain (Copy (T 35)));
  (*6194*) Del (T 35);
  (*6195*) AddTo (T 38) (Times (Copy (T 36)) (-1) 1);
  (*6196*) Del (T 36);
  (*6197*) AddTo (T 38) (Times (Copy (T 37)) (2) 1);
  (*6198*) Del (T 37);
  (*6199*) Assign (T 77) (Plain (Copy (IT 295)));
  (*6200*) AddTo (T 77) (Times (Transpose (IT 310) [0;1;3;2]) (-1) 1);
  (*6201*) AddTo (T 77) (Times (Copy n_v'aabb'oovv) (-1) 1);
  (*6202*) AddTo (T 77) (Plain (Einsum [(n_t1'bb,[0;1]); (T 31,[2;3;0;4])] [2;3;1;4]));
  (*6203*) Assign (T 74) (Times (Copy (IT 140)) (2) 1);
  (*6204*) AddTo (T 74) (Plain (Copy (IT 146)));
  (*6205*) AddTo (T 74) (Plain (Transpose (IT 184) [0;1;3;2]));
  (*6206*) AddTo (T 74) (Plain (Transpose n_v'aaaa'ovov [0;2;1;3]));
  (*6207*) AddTo (T 74) (Times (Copy (IT 143)) (-2) 1);
  (*6208*) AddTo (T 74) (Times (Transpose (IT 182) [0;1;3;2]) (-1) 1);
  (*6209*) AddTo (T 74) (Times (Copy n_v'aaaa'oovv) (-1) 1);
  (*6210*) AddTo (T 74) (Times (Einsum [(T 73,[0;1;2;3]); (n_t1'aa,[2;4])] [0;1;4;3]) (-1) 1);
  (*6211*) Del (T 73);
  (*6212*) Assign (T 25) (Plain (Einsum [(n_t1'bb,[0;1]); (n_r2'aba,[2;1;3])] [3;0;2]));
  (*6213*) Assign (T 80) (Plain (Transpose (IT 176) [1;0]));
  (*6214*) AddTo (T 80) (Times (Copy (IT 231)) (2) 1);
  (*6215*) AddTo (T 80) (Plain (Copy (IT 233)));
  (*6216*) AddTo (T 80) (Times (Copy n_f'bb'vv) (-1) 1);
  (*6217*) AddTo (T 80) (Times (Transpose (IT 174) [1;0]) (-1) 1);
  (*6218*) AddTo (T 80) (Times (Transpose (IT 178) [1;0]) (-1) 1);
  (*6219*) AddTo (T 80) (Plain (Einsum [(n_t1'bb,[0;1]); (T 39,[0;2])] [1;2]));
  (*6220*) Assign (T 82) (Plain (Transpose (IT 28) [1;0]));
  (*6221*) AddTo (T 82) (Times (Copy (IT 48)) (2) 1);
  (*6222*) AddTo (T 82) (Plain (Copy (IT 50)));
  (*6223*) AddTo (T 82) (Times (Copy n_f'aa'vv) (-1) 1);
  (*6224*) AddTo (T 82) (Times (Copy (IT 27)) (-1) 1);
  (*6225*) AddTo (T 82) (Times (Copy (IT 29)) (-1) 1);
  (*6226*) AddTo (T 82) (Plain (Copy (T 81)));
  (*6227*) Del (T 81);
  (*6228*) Assign (T 79) (Plain (Einsum [(T 78,[0;1;2;3]); (n_r2'aba,[2;3;4])] [4;0;1]));
  (*6229*) Del (T 78);
  (*6230*) Assign (T 72) (Plain (Copy n_f'aa'oo));
  (*6231*) AddTo (T 72) (Times (Copy (IT 128)) (2) 1);
  (*6232*) AddTo (T 72) (Plain (Copy (IT 137)));
  (*6233*) AddTo (T 72) (Plain (Copy (IT 154)));
  (*6234*) AddTo (T 72) (Plain (Copy (IT 161)));
  (*6235*) AddTo (T 72) (Plain (Copy (IT 191)));
  (*6236*) AddTo (T 72) (Plain (Copy (IT 198)));
  (*6237*) AddTo (T 72) (Plain (Transpose (IT 20) [1;0]));
  (*6238*) AddTo (T 72) (Times (Copy (IT 151)) (-1) 1);
  (*6239*) AddTo (T 72) (Times (Copy (IT 188)) (-1) 1);
  (*6240*) Assign (T 76) (Plain (Copy (IT 142)));
  (*6241*) AddTo (T 76) (Times (Copy (IT 148)) (2) 1);
  (*6242*) AddTo (T 76) (Plain (Copy (IT 187)));
  (*6243*) AddTo (T 76) (Plain (Transpose n_v'aabb'ovov [0;2;1;3]));
  (*6244*) AddTo (T 76) (Times (Copy (IT 145)) (-1) 1);
  (*6245*) AddTo (T 76) (Times (Einsum [(n_t1'bb,[0;1]); (T 75,[2;3;0;4])] [2;3;4;1]) (-1) 1);
  (*6246*) Del (T 75);
  (*6247*) Assign (T 69) (Times (Copy (T 58)) (2) 1);
  (*6248*) Del (T 58);
  (*6249*) AddTo (T 69) (Plain (Copy (T 59)));
  (*6250*) Del (T 59);
  (*6251*) AddTo (T 69) (Plain (Copy (T 60)));
  (*6252*) Del (T 60);
  (*6253*) AddTo (T 69) (Times (Transpose (T 62) [0;2;1]) (-2) 1);
  (*6254*) Del (T 62);
  (*6255*) AddTo (T 69) (Times (Transpose (T 66) [0;2;1]) (-2) 1);
  (*6256*) Del (T 66);
  (*6257*) AddTo (T 69) (Plain (Transpose (T 68) [0;2;1]));
  (*6258*) Del (T 68);
  (*6259*) Assign (T 71) (Times (Einsum [(T 70,[0;1;2;3]); (n_r2'aaa,[2;3;4])] [4;1;0]) (-1) 1);
  (*6260*) Del (T 70);
  (*6261*) Assign (T 57) (Plain (Copy (T 40)));
  (*6262*) Del (T 40);
  (*6263*) AddTo (T 57) (Times (Copy (T 41)) (2) 1);
  (*6264*) Del (T 41);
  (*6265*) AddTo (T 57) (Times (Copy (T 42)) (2) 1);
  (*6266*) Del (T 42);
  (*6267*) AddTo (T 57) (Plain (Copy (T 43)));
  (*6268*) Del (T 43);
  (*6269*) AddTo (T 57) (Times (Copy (T 44)) (2) 1);
  (*6270*) Del (T 44);
  (*6271*) AddTo (T 57) (Times (Transpose (T 48) [0;2;1]) (-1) 1);
  (*6272*) Del (T 48);
  (*6273*) AddTo (T 57) (Plain (Transpose (T 51) [0;2;1]));
  (*6274*) Del (T 51);
  (*6275*) AddTo (T 57) (Times (Copy (T 53)) (-1) 1);
  (*6276*) Del (T 53);
  (*6277*) AddTo (T 57) (Times (Transpose (T 56) [0;2;1]) (-1) 1);
  (*6278*) Del (T 56);
  (*6279*) Assign (T 34) (Plain (Transpose (IT 176) [1;0]));
  (*6280*) AddTo (T 34) (Times (Copy (IT 231)) (2) 1);
  (*6281*) AddTo (T 34) (Plain (Copy (IT 233)));
  (*6282*) AddTo (T 34) (Times (Copy n_f'bb'vv) (-1) 1);
  (*6283*) AddTo (T 34) (Times (Transpose (IT 174) [1;0]) (-1) 1);
  (*6284*) AddTo (T 34) (Times (Transpose (IT 178) [1;0]) (-1) 1);
  (*6285*) Assign (T 32) (Times (Einsum [(n_t1'bb,[0;1]); (T 23,[2;3;1])] [2;3;0]) (-1) 1);
  (*6286*) Assign (T 30) (Plain (Einsum [(T 27,[0;1;2]); (n_t1'bb,[3;2])] [0;1;3]));
  (*6287*) Assign (T 29) (Plain (Copy (IT 113)));
  (*6288*) AddTo (T 29) (Times (Copy (IT 119)) (1) 2);
  (*6289*) AddTo (T 29) (Plain (Copy (IT 129)));
  (*6290*) AddTo (T 29) (Times (Copy (IT 138)) (1) 2);
  (*6291*) AddTo (T 29) (Times (Copy (IT 155)) (1) 2);
  (*6292*) AddTo (T 29) (Times (Copy (IT 162)) (1) 2);
  (*6293*) AddTo (T 29) (Times (Copy (IT 172)) (1) 2);
  (*6294*) AddTo (T 29) (Times (Copy (IT 192)) (1) 2);
  (*6295*) AddTo (T 29) (Times (Copy (IT 199)) (1) 2);
  (*6296*) AddTo (T 29) (Times (Copy (IT 21)) (1) 2);
  (*6297*) AddTo (T 29) (Times (Copy (IT 3)) (1) 2);
  (*6298*) AddTo (T 29) (Times (Copy (IT 32)) (1) 2);
  (*6299*) AddTo (T 29) (Plain (Copy (IT 52)));
  (*6300*) AddTo (T 29) (Times (Copy (IT 58)) (1) 2);
  (*6301*) AddTo (T 29) (Plain (Copy (IT 64)));
  (*6302*) AddTo (T 29) (Plain (Copy (IT 84)));
  (*6303*) AddTo (T 29) (Times (Copy (IT 91)) (1) 2);
  (*6304*) AddTo (T 29) (Times (Copy n_f'aa'ov) (-1) 2);
  (*6305*) AddTo (T 29) (Times (Copy (IT 102)) (-1) 2);
  (*6306*) AddTo (T 29) (Times (Copy (IT 12)) (-1) 2);
  (*6307*) AddTo (T 29) (Times (Copy (IT 152)) (-1) 2);
  (*6308*) AddTo (T 29) (Times (Copy (IT 170)) (-1) 2);
  (*6309*) AddTo (T 29) (Times (Copy (IT 180)) (-1) 2);
  (*6310*) AddTo (T 29) (Times (Copy (IT 189)) (-1) 2);
  (*6311*) AddTo (T 29) (Times (Copy (IT 30)) (-1) 2);
  (*6312*) AddTo (T 29) (Times (Copy (IT 37)) (-1) 2);
  (*6313*) AddTo (T 29) (Times (Copy (IT 6)) (-1) 2);
  (*6314*) AddTo (T 29) (Times (Copy (IT 70)) (-1) 2);
  (*6315*) AddTo (T 29) (Times (Copy (IT 87)) (-1) 1);
  (*6316*) AddTo (T 29) (Times (Copy (IT 9)) (-1) 1);
  (*6317*) AddTo (T 29) (Times (Copy (IT 95)) (-1) 2);
  (*6318*) AddTo (T 29) (Times (Copy (IT 99)) (-1) 1);
  (*6319*) Assign (T 10) (Times (Copy (IT 116)) (2) 1);
  (*6320*) AddTo (T 10) (Plain (Copy (IT 122)));
  (*6321*) AddTo (T 10) (Times (Copy (IT 132)) (2) 1);
  (*6322*) AddTo (T 10) (Plain (Copy (IT 135)));
  (*6323*) AddTo (T 10) (Plain (Copy (IT 160)));
  (*6324*) AddTo (T 10) (Plain (Copy (IT 165)));
  (*6325*) AddTo (T 10) (Plain (Copy (IT 177)));
  (*6326*) AddTo (T 10) (Plain (Copy (IT 197)));
  (*6327*) AddTo (T 10) (Plain (Copy (IT 202)));
  (*6328*) AddTo (T 10) (Plain (Copy (IT 24)));
  (*6329*) AddTo (T 10) (Plain (Copy (IT 35)));
  (*6330*) AddTo (T 10) (Plain (Copy (IT 5)));
  (*6331*) AddTo (T 10) (Times (Copy (IT 54)) (2) 1);
  (*6332*) AddTo (T 10) (Plain (Copy (IT 56)));
  (*6333*) AddTo (T 10) (Times (Copy (IT 66)) (2) 1);
  (*6334*) AddTo (T 10) (Plain (Copy (IT 86)));
  (*6335*) AddTo (T 10) (Times (Copy (IT 93)) (2) 1);
  (*6336*) AddTo (T 10) (Times (Copy n_f'bb'ov) (-1) 1);
  (*6337*) AddTo (T 10) (Times (Copy (IT 101)) (-1) 1);
  (*6338*) AddTo (T 10) (Times (Copy (IT 104)) (-2) 1);
  (*6339*) AddTo (T 10) (Times (Copy (IT 11)) (-1) 1);
  (*6340*) AddTo (T 10) (Times (Copy (IT 14)) (-2) 1);
  (*6341*) AddTo (T 10) (Times (Copy (IT 158)) (-1) 1);
  (*6342*) AddTo (T 10) (Times (Copy (IT 175)) (-1) 1);
  (*6343*) AddTo (T 10) (Times (Copy (IT 179)) (-1) 1);
  (*6344*) AddTo (T 10) (Times (Copy (IT 195)) (-1) 1);
  (*6345*) AddTo (T 10) (Times (Copy (IT 34)) (-1) 1);
  (*6346*) AddTo (T 10) (Times (Copy (IT 36)) (-1) 1);
  (*6347*) AddTo (T 10) (Times (Copy (IT 68)) (-1) 1);
  (*6348*) AddTo (T 10) (Times (Copy (IT 8)) (-1) 1);
  (*6349*) AddTo (T 10) (Times (Copy (IT 89)) (-1) 1);
  (*6350*) AddTo (T 10) (Times (Copy (IT 97)) (-2) 1);
  (*6351*) Assign (T 26) (Plain (Copy (IT 285)));
  (*6352*) AddTo (T 26) (Times (Copy (IT 291)) (2) 1);
  (*6353*) AddTo (T 26) (Plain (Copy (IT 311)));
  (*6354*) AddTo (T 26) (Plain (Transpose n_v'aabb'ovov [0;2;1;3]));
  (*6355*) AddTo (T 26) (Times (Copy (IT 288)) (-1) 1);
  (*6356*) Assign (T 24) (Times (Copy (IT 286)) (2) 1);
  (*6357*) AddTo (T 24) (Plain (Copy (IT 293)));
  (*6358*) AddTo (T 24) (Plain (Transpose (IT 308) [0;1;3;2]));
  (*6359*) AddTo (T 24) (Plain (Transpose n_v'bbbb'ovov [0;2;1;3]));
  (*6360*) AddTo (T 24) (Times (Copy (IT 289)) (-2) 1);
  (*6361*) AddTo (T 24) (Times (Transpose (IT 306) [0;1;3;2]) (-1) 1);
  (*6362*) AddTo (T 24) (Times (Copy n_v'bbbb'oovv) (-1) 1);
  (*6363*) Assign (T 28) (Plain (Transpose (IT 310) [0;1;3;2]));
  (*6364*) AddTo (T 28) (Plain (Copy n_v'aabb'oovv));
  (*6365*) AddTo (T 28) (Times (Copy (IT 295)) (-1) 1);
  (*6366*) Assign (T 33) (Plain (Copy (IT 115)));
  (*6367*) AddTo (T 33) (Times (Copy n_v'bbbb'ooov) (-1) 1);
  (*6368*) Assign (T 22) (Times (Transpose (IT 239) [0;3;1;2]) (1) 2);
  (*6369*) AddTo (T 22) (Plain (Transpose (IT 248) [0;2;1;3]));
  (*6370*) AddTo (T 22) (Times (Transpose (IT 255) [0;2;1;3]) (1) 2);
  (*6371*) AddTo (T 22) (Times (Transpose n_v'bbbb'ovvv [0;2;1;3]) (1) 2);
  (*6372*) AddTo (T 22) (Times (Copy (IT 227)) (-1) 2);
  (*6373*) AddTo (T 22) (Times (Transpose (IT 251) [0;2;1;3]) (-1) 1);
  (*6374*) AddTo (T 22) (Times (Transpose (IT 277) [0;3;1;2]) (-1) 2);
  (*6375*) Assign (T 21) (Plain (Copy (IT 229)));
  (*6376*) AddTo (T 21) (Plain (Transpose (IT 241) [0;1;3;2]));
  (*6377*) AddTo (T 21) (Plain (Copy (IT 247)));
  (*6378*) AddTo (T 21) (Times (Copy (IT 253)) (2) 1);
  (*6379*) AddTo (T 21) (Plain (Transpose (IT 279) [0;1;3;2]));
  (*6380*) AddTo (T 21) (Plain (Copy n_v'aabb'ovvv));
  (*6381*) AddTo (T 21) (Times (Copy (IT 250)) (-1) 1);
  (*6382*) AddTo (T 21) (Times (Transpose (IT 257) [0;1;3;2]) (-1) 1);
  (*6383*) Assign (T 4) (Times (Copy (IT 140)) (2) 1);
  (*6384*) AddTo (T 4) (Plain (Copy (IT 146)));
  (*6385*) AddTo (T 4) (Plain (Transpose (IT 184) [0;1;3;2]));
  (*6386*) AddTo (T 4) (Plain (Transpose n_v'aaaa'ovov [0;2;1;3]));
  (*6387*) AddTo (T 4) (Times (Copy (IT 143)) (-2) 1);
  (*6388*) AddTo (T 4) (Times (Transpose (IT 182) [0;1;3;2]) (-1) 1);
  (*6389*) AddTo (T 4) (Times (Copy n_v'aaaa'oovv) (-1) 1);
  (*6390*) Assign (T 8) (Plain (Transpose (IT 186) [0;1;3;2]));
  (*6391*) AddTo (T 8) (Plain (Transpose n_v'aabb'vvoo [2;3;0;1]));
  (*6392*) AddTo (T 8) (Times (Copy (IT 150)) (-1) 1);
  (*6393*) Assign (T 1) (Plain (Copy (IT 126)));
  (*6394*) AddTo (T 1) (Plain (Transpose (IT 46) [0;2;1;3]));
  (*6395*) AddTo (T 1) (Plain (Copy (IT 62)));
  (*6396*) AddTo (T 1) (Plain (Transpose (IT 74) [0;2;1;3]));
  (*6397*) AddTo (T 1) (Times (Transpose (IT 80) [0;2;1;3]) (2) 1);
  (*6398*) AddTo (T 1) (Plain (Transpose n_v'aabb'vvov [2;0;1;3]));
  (*6399*) AddTo (T 1) (Times (Transpose (IT 77) [0;2;1;3]) (-1) 1);
  (*6400*) AddTo (T 1) (Times (Copy (IT 82)) (-1) 1);
  (*6401*) Assign (T 13) (Times (Einsum [(T 3,[0;1;2]); (n_t1'aa,[3;2])] [0;1;3]) (-1) 1);
  (*6402*) Assign (T 6) (Plain (Copy (IT 142)));
  (*6403*) AddTo (T 6) (Times (Copy (IT 148)) (2) 1);
  (*6404*) AddTo (T 6) (Plain (Copy (IT 187)));
  (*6405*) AddTo (T 6) (Plain (Transpose n_v'aabb'ovov [0;2;1;3]));
  (*6406*) AddTo (T 6) (Times (Copy (IT 145)) (-1) 1);
  (*6407*) Assign (T 14) (Plain (Copy (IT 112)));
  (*6408*) AddTo (T 14) (Times (Copy n_v'aaaa'ooov) (-1) 1);
  (*6409*) Assign (T 9) (Times (Copy (IT 113)) (2) 1);
  (*6410*) AddTo (T 9) (Plain (Copy (IT 119)));
  (*6411*) AddTo (T 9) (Times (Copy (IT 129)) (2) 1);
  (*6412*) AddTo (T 9) (Plain (Copy (IT 138)));
  (*6413*) AddTo (T 9) (Plain (Copy (IT 155)));
  (*6414*) AddTo (T 9) (Plain (Copy (IT 162)));
  (*6415*) AddTo (T 9) (Plain (Copy (IT 172)));
  (*6416*) AddTo (T 9) (Plain (Copy (IT 192)));
  (*6417*) AddTo (T 9) (Plain (Copy (IT 199)));
  (*6418*) AddTo (T 9) (Plain (Copy (IT 21)));
  (*6419*) AddTo (T 9) (Plain (Copy (IT 3)));
  (*6420*) AddTo (T 9) (Plain (Copy (IT 32)));
  (*6421*) AddTo (T 9) (Times (Copy (IT 52)) (2) 1);
  (*6422*) AddTo (T 9) (Plain (Copy (IT 58)));
  (*6423*) AddTo (T 9) (Times (Copy (IT 64)) (2) 1);
  (*6424*) AddTo (T 9) (Times (Copy (IT 84)) (2) 1);
  (*6425*) AddTo (T 9) (Plain (Copy (IT 91)));
  (*6426*) AddTo (T 9) (Times (Copy n_f'aa'ov) (-1) 1);
  (*6427*) AddTo (T 9) (Times (Copy (IT 102)) (-1) 1);
  (*6428*) AddTo (T 9) (Times (Copy (IT 12)) (-1) 1);
  (*6429*) AddTo (T 9) (Times (Copy (IT 152)) (-1) 1);
  (*6430*) AddTo (T 9) (Times (Copy (IT 170)) (-1) 1);
  (*6431*) AddTo (T 9) (Times (Copy (IT 180)) (-1) 1);
  (*6432*) AddTo (T 9) (Times (Copy (IT 189)) (-1) 1);
  (*6433*) AddTo (T 9) (Times (Copy (IT 30)) (-1) 1);
  (*6434*) AddTo (T 9) (Times (Copy (IT 37)) (-1) 1);
  (*6435*) AddTo (T 9) (Times (Copy (IT 6)) (-1) 1);
  (*6436*) AddTo (T 9) (Times (Copy (IT 70)) (-1) 1);
  (*6437*) AddTo (T 9) (Times (Copy (IT 87)) (-2) 1);
  (*6438*) AddTo (T 9) (Times (Copy (IT 9)) (-2) 1);
  (*6439*) AddTo (T 9) (Times (Copy (IT 95)) (-1) 1);
  (*6440*) AddTo (T 9) (Times (Copy (IT 99)) (-2) 1);
  (*6441*) Assign (T 12) (Plain (Copy (IT 121)));
  (*6442*) AddTo (T 12) (Plain (Transpose n_v'aabb'ovoo [0;2;3;1]));
  (*6443*) Assign (T 2) (Times (Copy (IT 60)) (1) 2);
  (*6444*) AddTo (T 2) (Plain (Transpose (IT 72) [0;1;3;2]));
  (*6445*) AddTo (T 2) (Times (Transpose (IT 78) [0;1;3;2]) (1) 2);
  (*6446*) AddTo (T 2) (Times (Copy n_v'aaaa'ovvv) (1) 2);
  (*6447*) AddTo (T 2) (Times (Copy (IT 124)) (-1) 2);
  (*6448*) AddTo (T 2) (Times (Transpose (IT 44) [0;2;3;1]) (-1) 2);
  (*6449*) AddTo (T 2) (Times (Transpose (IT 75) [0;1;3;2]) (-1) 1);
  (*6450*) Assign (T 11) (Plain (Einsum [(T 7,[0;1;2]); (n_t1'aa,[3;2])] [3;0;1]));
  (*6451*) Assign (T 15) (Plain (Transpose (IT 28) [1;0]));
  (*6452*) AddTo (T 15) (Times (Copy (IT 48)) (2) 1);
  (*6453*) AddTo (T 15) (Plain (Copy (IT 50)));
  (*6454*) AddTo (T 15) (Times (Copy n_f'aa'vv) (-1) 1);
  (*6455*) AddTo (T 15) (Times (Transpose (IT 27) [1;0]) (-1) 1);
  (*6456*) AddTo (T 15) (Times (Transpose (IT 29) [1;0]) (-1) 1);
  (*6457*) Assign n_r2new'bbb (Times (Einsum [(n_v'bbbb'vvvv,[0;1;2;3]); (n_r2'bbb,[3;1;4])] [0;2;4]) (-2) 1);
  (*6458*) AddTo n_r2new'bbb (Times (Transpose (T 112) [1;2;0]) (-1) 1);
  (*6459*) AddTo n_r2new'bbb (Plain (Transpose (T 112) [2;1;0]));
  (*6460*) Del (T 112);
  (*6461*) AddTo n_r2new'bbb (Plain (Transpose (T 123) [1;2;0]));
  (*6462*) AddTo n_r2new'bbb (Times (Transpose (T 123) [2;1;0]) (-1) 1);
  (*6463*) Del (T 123);
  (*6464*) AddTo n_r2new'bbb (Times (Einsum [(n_v'bbbb'ovov,[0;1;2;3]); (T 125,[4;0;2])] [3;1;4]) (-2) 1);
  (*6465*) Del (T 125);
  (*6466*) AddTo n_r2new'bbb (Times (Einsum [(n_r2'bbb,[0;1;2]); (T 91,[2;3])] [0;1;3]) (-2) 1);
  (*6467*) AddTo n_r2new'bbb (Plain (Einsum [(n_r1'b,[0]); (T 39,[1;2])] [0;2;1]));
  (*6468*) AddTo n_r2new'bbb (Times (Einsum [(n_r1'b,[0]); (T 39,[1;2])] [2;0;1]) (-1) 1);
  (*6469*) Assign n_r2new'bab (Plain (Einsum [(n_r2'bab,[0;1;2]); (n_v'aabb'vvvv,[3;1;4;0])] [4;3;2]));
  (*6470*) AddTo n_r2new'bab (Plain (Einsum [(T 7,[0;1;2]); (n_v'aabb'vvov,[3;2;1;4])] [4;3;0]));
  (*6471*) AddTo n_r2new'bab (Plain (Einsum [(n_v'aabb'ovvv,[0;1;2;3]); (T 5,[0;4;3])] [2;1;4]));
  (*6472*) AddTo n_r2new'bab (Times (Einsum [(n_r1'a,[0]); (n_v'aabb'vvov,[1;0;2;3])] [3;1;2]) (-1) 1);
  (*6473*) AddTo n_r2new'bab (Plain (Einsum [(n_r2'bab,[0;1;2]); (T 84,[2;3;0;4])] [4;1;3]));
  (*6474*) Del (T 84);
  (*6475*) AddTo n_r2new'bab (Times (Einsum [(n_r2'aaa,[0;1;2]); (T 85,[2;3;1;4])] [4;0;3]) (-2) 1);
  (*6476*) Del (T 85);
  (*6477*) AddTo n_r2new'bab (Plain (Einsum [(T 86,[0;1;2;3]); (n_r2'bab,[4;2;0])] [4;3;1]));
  (*6478*) Del (T 86);
  (*6479*) AddTo n_r2new'bab (Times (Einsum [(T 88,[0;1;2]); (n_v'aabb'ovov,[0;3;2;4])] [4;3;1]) (-1) 1);
  (*6480*) Del (T 88);
  (*6481*) AddTo n_r2new'bab (Times (Einsum [(n_r2'bab,[0;1;2]); (T 89,[1;3])] [0;3;2]) (-1) 1);
  (*6482*) Del (T 89);
  (*6483*) AddTo n_r2new'bab (Times (Einsum [(T 90,[0;1]); (n_r2'bab,[0;2;3])] [1;2;3]) (-2) 1);
  (*6484*) Del (T 90);
  (*6485*) AddTo n_r2new'bab (Times (Einsum [(n_r2'bab,[0;1;2]); (T 91,[2;3])] [0;1;3]) (-1) 1);
  (*6486*) Del (T 91);
  (*6487*) AddTo n_r2new'bab (Times (Einsum [(n_v'aabb'ovov,[0;1;2;3]); (T 19,[0])] [3;1;2]) (2) 1);
  (*6488*) AddTo n_r2new'bab (Times (Einsum [(n_r1'a,[0]); (T 39,[1;2])] [2;0;1]) (-1) 1);
  (*6489*) Assign n_r2new'aba (Plain (Einsum [(n_r2'aba,[0;1;2]); (n_v'aabb'vvvv,[3;0;4;1])] [3;4;2]));
  (*6490*) AddTo n_r2new'aba (Times (Einsum [(T 25,[0;1;2]); (n_v'aabb'vvov,[3;2;1;4])] [3;4;0]) (-1) 1);
  (*6491*) AddTo n_r2new'aba (Times (Einsum [(n_r1'b,[0]); (n_v'aabb'ovvv,[1;2;3;0])] [2;3;1]) (-1) 1);
  (*6492*) AddTo n_r2new'aba (Times (Einsum [(T 27,[0;1;2]); (n_v'aabb'ovvv,[1;3;4;2])] [3;4;0]) (-1) 1);
  (*6493*) AddTo n_r2new'aba (Plain (Einsum [(T 74,[0;1;2;3]); (n_r2'aba,[2;4;0])] [3;4;1]));
  (*6494*) Del (T 74);
  (*6495*) AddTo n_r2new'aba (Times (Einsum [(n_r2'bbb,[0;1;2]); (T 76,[3;2;4;1])] [4;0;3]) (-2) 1);
  (*6496*) Del (T 76);
  (*6497*) AddTo n_r2new'aba (Plain (Einsum [(n_r2'aba,[0;1;2]); (T 77,[2;3;1;4])] [0;4;3]));
  (*6498*) Del (T 77);
  (*6499*) AddTo n_r2new'aba (Plain (Einsum [(T 79,[0;1;2]); (n_v'aabb'ovov,[1;3;2;4])] [3;4;0]));
  (*6500*) Del (T 79);
  (*6501*) AddTo n_r2new'aba (Times (Einsum [(n_r2'aba,[0;1;2]); (T 80,[1;3])] [0;3;2]) (-1) 1);
  (*6502*) Del (T 80);
  (*6503*) AddTo n_r2new'aba (Times (Einsum [(T 82,[0;1]); (n_r2'aba,[0;2;3])] [1;2;3]) (-1) 1);
  (*6504*) Del (T 82);
  (*6505*) AddTo n_r2new'aba (Times (Einsum [(n_r2'aba,[0;1;2]); (T 72,[2;3])] [0;1;3]) (-1) 1);
  (*6506*) AddTo n_r2new'aba (Plain (Einsum [(n_v'aabb'ovov,[0;1;2;3]); (T 38,[2])] [1;3;0]));
  (*6507*) AddTo n_r2new'aba (Times (Einsum [(T 20,[0;1]); (n_r1'b,[2])] [1;2;0]) (-1) 1);
  (*6508*) Assign n_r2new'aaa (Times (Einsum [(n_r2'aaa,[0;1;2]); (n_v'aaaa'vvvv,[3;1;4;0])] [3;4;2]) (-2) 1);
  (*6509*) AddTo n_r2new'aaa (Times (Transpose (T 57) [1;2;0]) (-1) 1);
  (*6510*) AddTo n_r2new'aaa (Plain (Transpose (T 57) [2;1;0]));
  (*6511*) Del (T 57);
  (*6512*) AddTo n_r2new'aaa (Plain (Transpose (T 69) [1;2;0]));
  (*6513*) AddTo n_r2new'aaa (Times (Transpose (T 69) [2;1;0]) (-1) 1);
  (*6514*) Del (T 69);
  (*6515*) AddTo n_r2new'aaa (Times (Einsum [(n_v'aaaa'ovov,[0;1;2;3]); (T 71,[4;0;2])] [3;1;4]) (-2) 1);
  (*6516*) Del (T 71);
  (*6517*) AddTo n_r2new'aaa (Times (Einsum [(n_r2'aaa,[0;1;2]); (T 72,[2;3])] [0;1;3]) (-2) 1);
  (*6518*) Del (T 72);
  (*6519*) AddTo n_r2new'aaa (Plain (Einsum [(T 20,[0;1]); (n_r1'a,[2])] [2;1;0]));
  (*6520*) AddTo n_r2new'aaa (Times (Einsum [(n_r1'a,[0]); (T 20,[1;2])] [2;0;1]) (-1) 1);
  (*6521*) Assign n_r1new'b (Times (Einsum [(n_r2'aba,[0;1;2]); (T 21,[2;0;3;1])] [3]) (-1) 1);
  (*6522*) Del (T 21);
  (*6523*) AddTo n_r1new'b (Times (Einsum [(n_r2'bbb,[0;1;2]); (T 22,[2;3;0;1])] [3]) (-4) 1);
  (*6524*) Del (T 22);
  (*6525*) AddTo n_r1new'b (Times (Einsum [(T 24,[0;1;2;3]); (T 23,[0;1;2])] [3]) (2) 1);
  (*6526*) Del (T 23);
  (*6526*) Del (T 24);
  (*6527*) AddTo n_r1new'b (Plain (Einsum [(T 26,[0;1;2;3]); (T 25,[0;1;2])] [3]));
  (*6528*) Del (T 25);
  (*6528*) Del (T 26);
  (*6529*) AddTo n_r1new'b (Plain (Einsum [(T 28,[0;1;2;3]); (T 27,[0;1;2])] [3]));
  (*6530*) Del (T 27);
  (*6530*) Del (T 28);
  (*6531*) AddTo n_r1new'b (Times (Einsum [(T 10,[0;1]); (n_r2'bbb,[2;1;0])] [2]) (-2) 1);
  (*6532*) AddTo n_r1new'b (Times (Einsum [(T 29,[0;1]); (n_r2'aba,[1;2;0])] [2]) (2) 1);
  (*6533*) Del (T 29);
  (*6534*) AddTo n_r1new'b (Times (Einsum [(T 30,[0;1;2]); (T 31,[0;1;2;3])] [3]) (-1) 1);
  (*6535*) Del (T 31);
  (*6535*) Del (T 30);
  (*6536*) AddTo n_r1new'b (Times (Einsum [(T 33,[0;1;2;3]); (T 32,[0;2;1])] [3]) (-2) 1);
  (*6537*) Del (T 33);
  (*6537*) Del (T 32);
  (*6538*) AddTo n_r1new'b (Times (Einsum [(n_r1'b,[0]); (T 34,[0;1])] [1]) (-1) 1);
  (*6539*) Del (T 34);
  (*6540*) AddTo n_r1new'b (Times (Einsum [(T 39,[0;1]); (T 38,[0])] [1]) (-1) 1);
  (*6541*) Del (T 39);
  (*6541*) Del (T 38);
  (*6542*) Assign n_r1new'a (Times (Einsum [(T 1,[0;1;2;3]); (n_r2'bab,[3;1;0])] [2]) (-1) 1);
  (*6543*) Del (T 1);
  (*6544*) AddTo n_r1new'a (Times (Einsum [(T 2,[0;1;2;3]); (n_r2'aaa,[1;2;0])] [3]) (-4) 1);
  (*6545*) Del (T 2);
  (*6546*) AddTo n_r1new'a (Times (Einsum [(T 4,[0;1;2;3]); (T 3,[0;1;2])] [3]) (2) 1);
  (*6547*) Del (T 3);
  (*6547*) Del (T 4);
  (*6548*) AddTo n_r1new'a (Times (Einsum [(T 6,[0;1;2;3]); (T 5,[0;1;3])] [2]) (-1) 1);
  (*6549*) Del (T 5);
  (*6549*) Del (T 6);
  (*6550*) AddTo n_r1new'a (Times (Einsum [(T 7,[0;1;2]); (T 8,[0;1;2;3])] [3]) (-1) 1);
  (*6551*) Del (T 7);
  (*6551*) Del (T 8);
  (*6552*) AddTo n_r1new'a (Times (Einsum [(n_r2'aaa,[0;1;2]); (T 9,[2;1])] [0]) (-2) 1);
  (*6553*) Del (T 9);
  (*6554*) AddTo n_r1new'a (Plain (Einsum [(T 10,[0;1]); (n_r2'bab,[1;2;0])] [2]));
  (*6555*) Del (T 10);
  (*6556*) AddTo n_r1new'a (Plain (Einsum [(T 12,[0;1;2;3]); (T 11,[0;1;2])] [3]));
  (*6557*) Del (T 12);
  (*6557*) Del (T 11);
  (*6558*) AddTo n_r1new'a (Times (Einsum [(T 14,[0;1;2;3]); (T 13,[0;2;1])] [3]) (-2) 1);
  (*6559*) Del (T 14);
  (*6559*) Del (T 13);
  (*6560*) AddTo n_r1new'a (Times (Einsum [(n_r1'a,[0]); (T 15,[0;1])] [1]) (-1) 1);
  (*6561*) Del (T 15);
  (*6562*) AddTo n_r1new'a (Times (Einsum [(T 20,[0;1]); (T 19,[0])] [1]) (-2) 1);
  (*6563*) Del (T 20);
  (*6563*) Del (T 19)]
 [(n_r1new'b,[7]); (n_r1new'a,[5]); (n_r2new'bbb,[7;7;6]); (n_r2new'bab,[7;5;6]); (n_r2new'aba,[5;7;4]); (n_r2new'aaa,[5;5;4])].

