(** Generated by tools/translate_codegen.py from ebcc/codegen/UDFCCSD.py; one statement per source line
    (the number in the comment before it). *)
From Coq Require Import ZArith List.
From Verif Require Import CgModel CgNames.
Import ListNotations.

(** ebcc/codegen/UDFCCSD.py:19-67 [energy] *)
Definition UDFCCSD_energy : prog := mkprog
 [(n_v'bbb'xov,[2;6;7]); (n_t1'bb,[6;7]); (n_v'baa'xov,[2;4;5]); (n_t1'aa,[4;5]); (n_t2'aaaa,[4;4;5;5]); (n_t2'abab,[4;6;5;7]); (n_f'aa'ov,[4;5]); (n_f'bb'ov,[6;7]); (n_t2'bbbb,[6;6;7;7])]
 [(*40*) Assign (T 1) (Plain (Einsum [(n_v'bbb'xov,[0;1;2]); (n_t1'bb,[1;2])] [0]));
  (*41*) Assign (T 2) (Times (Einsum [(n_v'baa'xov,[0;1;2]); (n_t1'aa,[1;2])] [0]) (1) 2);
  (*42*) AddTo (T 2) (Plain (Copy (T 1)));
  (*43*) Assign (T 4) (Plain (Einsum [(n_v'baa'xov,[0;1;2]); (n_t1'aa,[3;2])] [0;3;1]));
  (*44*) Assign (T 6) (Plain (Einsum [(n_v'bbb'xov,[0;1;2]); (n_t1'bb,[3;2])] [0;3;1]));
  (*45*) Assign (T 3) (Plain (Einsum [(n_v'baa'xov,[0;1;2]); (n_t2'aaaa,[3;1;4;2])] [0;3;4]));
  (*46*) AddTo (T 3) (Plain (Einsum [(n_t2'abab,[0;1;2;3]); (n_v'bbb'xov,[4;1;3])] [4;0;2]));
  (*47*) AddTo (T 3) (Plain (Einsum [(n_t1'aa,[0;1]); (T 2,[2])] [2;0;1]));
  (*48*) Del (T 2);
  (*49*) Assign (T 5) (Plain (Copy n_f'aa'ov));
  (*50*) AddTo (T 5) (Times (Einsum [(n_v'baa'xov,[0;1;2]); (T 4,[0;1;3])] [3;2]) (-1) 2);
  (*51*) Del (T 4);
  (*52*) Assign (T 7) (Times (Copy n_f'bb'ov) (2) 1);
  (*53*) AddTo (T 7) (Times (Einsum [(n_v'bbb'xov,[0;1;2]); (T 6,[0;1;3])] [3;2]) (-1) 1);
  (*54*) Del (T 6);
  (*55*) Assign (T 8) (Plain (Einsum [(n_v'bbb'xov,[0;1;2]); (n_t2'bbbb,[3;1;4;2])] [0;3;4]));
  (*56*) AddTo (T 8) (Times (Einsum [(T 1,[0]); (n_t1'bb,[1;2])] [0;1;2]) (1) 2);
  (*57*) Del (T 1);
  (*58*) Assign n_e_cc (Plain (Einsum [(T 3,[0;1;2]); (n_v'baa'xov,[0;1;2])] []));
  (*59*) Del (T 3);
  (*60*) AddTo n_e_cc (Plain (Einsum [(T 5,[0;1]); (n_t1'aa,[0;1])] []));
  (*61*) Del (T 5);
  (*62*) AddTo n_e_cc (Times (Einsum [(n_t1'bb,[0;1]); (T 7,[0;1])] []) (1) 2);
  (*63*) Del (T 7);
  (*64*) AddTo n_e_cc (Plain (Einsum [(n_v'bbb'xov,[0;1;2]); (T 8,[0;1;2])] []));
  (*65*) Del (T 8)]
 [(n_e_cc,[])].

(** ebcc/codegen/UDFCCSD.py:69-883 [update_amps] *)
Definition UDFCCSD_update_amps : prog := mkprog
 [(n_v'bbb'xov,[2;6;7]); (n_t1'bb,[6;7]); (n_v'baa'xov,[2;4;5]); (n_t1'aa,[4;5]); (n_v'bbb'xvv,[2;7;7]); (n_t2'bbbb,[6;6;7;7]); (n_t2'abab,[4;6;5;7]); (n_t2'aaaa,[4;4;5;5]); (n_v'baa'xvv,[2;5;5]); (n_v'bbb'xoo,[2;6;6]); (n_f'bb'ov,[6;7]); (n_v'baa'xoo,[2;4;4]); (n_f'aa'ov,[4;5]); (n_f'bb'oo,[6;6]); (n_f'aa'oo,[4;4]); (n_f'bb'vv,[7;7]); (n_f'aa'vv,[5;5])]
 [(*94*) Assign (T 7) (Plain (Einsum [(n_v'bbb'xov,[0;1;2]); (n_t1'bb,[1;2])] [0]));
  (*95*) Assign (T 6) (Plain (Einsum [(n_v'baa'xov,[0;1;2]); (n_t1'aa,[1;2])] [0]));
  (*96*) Assign (T 22) (Plain (Einsum [(n_v'bbb'xov,[0;1;2]); (n_t1'bb,[3;2])] [0;3;1]));
  (*97*) Assign (T 1) (Plain (Einsum [(n_v'baa'xov,[0;1;2]); (n_t1'aa,[3;2])] [0;3;1]));
  (*98*) Assign (T 10) (Plain (Copy (T 6)));
  (*99*) AddTo (T 10) (Plain (Copy (T 7)));
  (*100*) Assign (T 45) (Plain (Einsum [(n_v'bbb'xvv,[0;1;2]); (n_t1'bb,[3;2])] [0;3;1]));
  (*101*) Assign (T 144) (Plain (Einsum [(T 22,[0;1;2]); (n_t1'bb,[2;3])] [0;1;3]));
  (*102*) Assign (T 150) (Plain (Einsum [(n_v'bbb'xov,[0;1;2]); (n_t1'bb,[1;3])] [0;3;2]));
  (*103*) Assign (T 37) (Plain (Einsum [(n_v'bbb'xov,[0;1;2]); (n_t2'bbbb,[3;1;4;2])] [0;3;4]));
  (*104*) Assign (T 33) (Plain (Einsum [(n_t2'abab,[0;1;2;3]); (n_v'baa'xov,[4;0;2])] [4;1;3]));
  (*105*) Assign (T 8) (Plain (Copy (T 6)));
  (*106*) Del (T 6);
  (*107*) AddTo (T 8) (Plain (Copy (T 7)));
  (*108*) Del (T 7);
  (*109*) Assign (T 23) (Plain (Einsum [(n_v'bbb'xov,[0;1;2]); (T 22,[0;1;3])] [3;2]));
  (*110*) Assign (T 81) (Plain (Einsum [(n_v'baa'xov,[0;1;2]); (n_t1'aa,[1;3])] [0;3;2]));
  (*111*) Assign (T 12) (Plain (Einsum [(n_v'baa'xov,[0;1;2]); (n_t2'aaaa,[3;1;4;2])] [0;3;4]));
  (*112*) Assign (T 4) (Plain (Einsum [(n_t2'abab,[0;1;2;3]); (n_v'bbb'xov,[4;1;3])] [4;0;2]));
  (*113*) Assign (T 15) (Plain (Einsum [(T 1,[0;1;2]); (n_v'baa'xov,[0;1;3])] [2;3]));
  (*114*) Assign (T 21) (Plain (Einsum [(n_v'baa'xvv,[0;1;2]); (n_t1'aa,[3;2])] [0;3;1]));
  (*115*) Assign (T 79) (Plain (Einsum [(T 1,[0;1;2]); (n_t1'aa,[2;3])] [0;1;3]));
  (*116*) Assign (T 36) (Plain (Einsum [(n_v'bbb'xov,[0;1;2]); (T 10,[0])] [1;2]));
  (*117*) Assign (T 167) (Plain (Copy (T 45)));
  (*118*) AddTo (T 167) (Times (Copy (T 144)) (-1) 1);
  (*119*) Assign (T 203) (Plain (Copy n_v'bbb'xvv));
  (*120*) AddTo (T 203) (Times (Transpose (T 150) [0;2;1]) (-1) 1);
  (*121*) Assign (T 43) (Plain (Einsum [(n_v'bbb'xoo,[0;1;2]); (n_v'bbb'xov,[0;3;4])] [1;2;3;4]));
  (*122*) Assign (T 38) (Plain (Copy (T 33)));
  (*123*) AddTo (T 38) (Times (Copy (T 37)) (2) 1);
  (*124*) AddTo (T 38) (Plain (Einsum [(T 8,[0]); (n_t1'bb,[1;2])] [0;1;2]));
  (*125*) Assign (T 193) (Times (Copy n_f'bb'ov) (-1) 1);
  (*126*) AddTo (T 193) (Plain (Copy (T 23)));
  (*127*) Assign (T 20) (Plain (Einsum [(n_v'baa'xoo,[0;1;2]); (n_v'baa'xov,[0;3;4])] [1;2;3;4]));
  (*128*) Assign (T 90) (Plain (Copy n_v'baa'xvv));
  (*129*) AddTo (T 90) (Times (Transpose (T 81) [0;2;1]) (-1) 1);
  (*130*) Assign (T 73) (Times (Copy (T 12)) (2) 1);
  (*131*) AddTo (T 73) (Plain (Copy (T 4)));
  (*132*) AddTo (T 73) (Plain (Einsum [(T 8,[0]); (n_t1'aa,[1;2])] [0;1;2]));
  (*133*) Assign (T 75) (Times (Copy n_f'aa'ov) (-1) 1);
  (*134*) AddTo (T 75) (Plain (Copy (T 15)));
  (*135*) Assign (T 88) (Plain (Copy (T 21)));
  (*136*) AddTo (T 88) (Times (Copy (T 79)) (-1) 1);
  (*137*) Assign (T 198) (Plain (Copy n_v'bbb'xvv));
  (*138*) AddTo (T 198) (Times (Transpose (T 150) [0;2;1]) (-1) 1);
  (*139*) Assign (T 44) (Plain (Einsum [(n_v'bbb'xoo,[0;1;2]); (n_v'baa'xov,[0;3;4])] [3;1;2;4]));
  (*140*) Assign (T 97) (Plain (Einsum [(n_v'baa'xov,[0;1;2]); (n_v'baa'xov,[0;3;4])] [3;1;4;2]));
  (*141*) Assign (T 102) (Plain (Einsum [(n_v'bbb'xov,[0;1;2]); (n_v'bbb'xov,[0;3;4])] [1;3;2;4]));
  (*142*) Assign (T 135) (Plain (Copy n_f'bb'ov));
  (*143*) AddTo (T 135) (Times (Copy (T 23)) (-1) 1);
  (*144*) AddTo (T 135) (Plain (Copy (T 36)));
  (*145*) Assign (T 223) (Plain (Einsum [(T 22,[0;1;2]); (T 22,[0;3;4])] [3;1;4;2]));
  (*146*) Assign (T 168) (Plain (Einsum [(T 167,[0;1;2]); (n_v'bbb'xov,[0;3;4])] [3;1;4;2]));
  (*147*) Assign (T 204) (Plain (Einsum [(T 22,[0;1;2]); (T 203,[0;3;4])] [1;2;3;4]));
  (*148*) Assign (T 210) (Plain (Einsum [(n_v'bbb'xoo,[0;1;2]); (T 203,[0;3;4])] [1;2;3;4]));
  (*149*) Del (T 203);
  (*150*) Assign (T 160) (Plain (Einsum [(n_t1'bb,[0;1]); (T 43,[2;0;3;4])] [2;3;1;4]));
  (*151*) Assign (T 192) (Plain (Einsum [(n_v'bbb'xov,[0;1;2]); (T 38,[0;3;2])] [1;3]));
  (*152*) Assign (T 194) (Plain (Einsum [(T 193,[0;1]); (n_t1'bb,[2;1])] [0;2]));
  (*153*) Del (T 193);
  (*154*) Assign (T 178) (Plain (Einsum [(n_v'bbb'xoo,[0;1;2]); (T 10,[0])] [1;2]));
  (*155*) Assign (T 46) (Plain (Einsum [(n_v'bbb'xoo,[0;1;2]); (T 22,[0;2;3])] [1;3]));
  (*156*) Assign (T 188) (Plain (Einsum [(T 22,[0;1;2]); (n_v'bbb'xoo,[0;3;4])] [1;3;4;2]));
  (*157*) Assign (T 147) (Plain (Einsum [(n_v'bbb'xov,[0;1;2]); (n_v'baa'xov,[0;3;4])] [3;1;4;2]));
  (*158*) Assign (T 16) (Plain (Copy n_f'aa'ov));
  (*159*) AddTo (T 16) (Times (Copy (T 15)) (-1) 1);
  (*160*) Assign (T 13) (Plain (Copy (T 12)));
  (*161*) AddTo (T 13) (Times (Copy (T 4)) (1) 2);
  (*162*) AddTo (T 13) (Times (Einsum [(T 8,[0]); (n_t1'aa,[1;2])] [0;1;2]) (1) 2);
  (*163*) Assign (T 155) (Plain (Einsum [(n_t1'aa,[0;1]); (n_v'baa'xoo,[2;3;0])] [2;3;1]));
  (*164*) Assign (T 40) (Plain (Copy n_f'bb'ov));
  (*165*) AddTo (T 40) (Times (Copy (T 23)) (-1) 1);
  (*166*) Assign (T 58) (Plain (Copy (T 21)));
  (*167*) AddTo (T 58) (Times (Copy (T 12)) (2) 1);
  (*168*) AddTo (T 58) (Plain (Copy (T 4)));
  (*169*) AddTo (T 58) (Plain (Einsum [(T 8,[0]); (n_t1'aa,[1;2])] [0;1;2]));
  (*170*) Assign (T 11) (Plain (Einsum [(n_v'baa'xov,[0;1;2]); (T 10,[0])] [1;2]));
  (*171*) Assign (T 95) (Plain (Einsum [(n_t1'aa,[0;1]); (T 20,[2;0;3;4])] [2;3;1;4]));
  (*172*) Assign (T 99) (Plain (Einsum [(T 90,[0;1;2]); (n_v'baa'xoo,[0;3;4])] [3;4;1;2]));
  (*173*) Assign (T 19) (Plain (Einsum [(n_v'bbb'xov,[0;1;2]); (n_v'baa'xoo,[0;3;4])] [3;4;1;2]));
  (*174*) Assign (T 74) (Plain (Einsum [(T 73,[0;1;2]); (n_v'baa'xov,[0;3;2])] [3;1]));
  (*175*) Del (T 73);
  (*176*) Assign (T 76) (Plain (Einsum [(T 75,[0;1]); (n_t1'aa,[2;1])] [2;0]));
  (*177*) Del (T 75);
  (*178*) Assign (T 114) (Plain (Einsum [(T 1,[0;1;2]); (T 1,[0;3;4])] [1;3;2;4]));
  (*179*) Assign (T 82) (Plain (Copy n_v'baa'xvv));
  (*180*) AddTo (T 82) (Times (Transpose (T 81) [0;2;1]) (-1) 1);
  (*181*) Assign (T 52) (Plain (Einsum [(n_v'baa'xoo,[0;1;2]); (T 10,[0])] [1;2]));
  (*182*) Assign (T 28) (Plain (Einsum [(n_v'baa'xoo,[0;1;2]); (T 1,[0;2;3])] [1;3]));
  (*183*) Assign (T 89) (Plain (Einsum [(T 88,[0;1;2]); (n_v'baa'xov,[0;3;4])] [3;1;4;2]));
  (*184*) Assign (T 91) (Plain (Einsum [(T 1,[0;1;2]); (T 90,[0;3;4])] [1;2;3;4]));
  (*185*) Del (T 90);
  (*186*) Assign (T 69) (Plain (Einsum [(n_v'baa'xoo,[0;1;2]); (T 1,[0;3;4])] [3;1;2;4]));
  (*187*) Assign (T 201) (Times (Copy (T 45)) (-1) 1);
  (*188*) AddTo (T 201) (Plain (Copy (T 144)));
  (*189*) Assign (T 232) (Plain (Einsum [(n_v'bbb'xov,[0;1;2]); (T 198,[0;3;4])] [1;4;3;2]));
  (*190*) Assign (T 197) (Plain (Copy (T 45)));
  (*191*) AddTo (T 197) (Times (Copy (T 144)) (-1) 1);
  (*192*) Assign (T 183) (Plain (Copy (T 45)));
  (*193*) AddTo (T 183) (Plain (Copy (T 33)));
  (*194*) AddTo (T 183) (Times (Copy (T 37)) (2) 1);
  (*195*) AddTo (T 183) (Plain (Einsum [(T 8,[0]); (n_t1'bb,[1;2])] [0;1;2]));
  (*196*) Assign (T 146) (Plain (Einsum [(T 44,[0;1;2;3]); (n_t1'bb,[2;4])] [0;1;3;4]));
  (*197*) Assign (T 216) (Plain (Transpose (T 97) [1;0;2;3]));
  (*198*) AddTo (T 216) (Times (Transpose (T 97) [1;0;3;2]) (-1) 1);
  (*199*) Assign (T 209) (Plain (Transpose (T 102) [1;0;2;3]));
  (*200*) AddTo (T 209) (Times (Transpose (T 102) [1;0;3;2]) (-1) 1);
  (*201*) Assign (T 175) (Plain (Einsum [(n_v'bbb'xoo,[0;1;2]); (n_v'bbb'xoo,[0;3;4])] [1;3;4;2]));
  (*202*) Assign (T 130) (Times (Copy (T 33)) (1) 2);
  (*203*) AddTo (T 130) (Plain (Copy (T 37)));
  (*204*) Assign (T 186) (Plain (Einsum [(n_v'bbb'xoo,[0;1;2]); (T 45,[0;3;4])] [3;1;2;4]));
  (*205*) Assign (T 32) (Plain (Einsum [(n_v'bbb'xov,[0;1;2]); (T 22,[0;3;4])] [3;1;4;2]));
  (*206*) Assign (T 47) (Plain (Einsum [(T 8,[0]); (n_v'bbb'xoo,[0;1;2])] [1;2]));
  (*207*) Assign (T 230) (Plain (Einsum [(T 102,[0;1;2;3]); (n_t2'bbbb,[4;5;3;2])] [4;5;1;0]));
  (*208*) Assign (T 218) (Plain (Einsum [(n_v'bbb'xoo,[0;1;2]); (T 33,[0;3;4])] [3;1;2;4]));
  (*209*) Assign (T 136) (Plain (Einsum [(T 135,[0;1]); (n_t1'bb,[0;2])] [2;1]));
  (*210*) Del (T 135);
  (*211*) Assign (T 134) (Plain (Einsum [(n_v'bbb'xvv,[0;1;2]); (T 10,[0])] [1;2]));
  (*212*) Assign (T 133) (Plain (Einsum [(T 45,[0;1;2]); (n_v'bbb'xov,[0;1;3])] [3;2]));
  (*213*) Assign (T 132) (Plain (Copy (T 33)));
  (*214*) AddTo (T 132) (Times (Copy (T 37)) (2) 1);
  (*215*) Assign (T 228) (Plain (Einsum [(T 223,[0;1;2;3]); (n_t1'bb,[2;4])] [1;0;3;4]));
  (*216*) Assign (T 225) (Plain (Einsum [(T 22,[0;1;2]); (T 45,[0;3;4])] [1;3;2;4]));
  (*217*) Assign (T 214) (Plain (Transpose (T 102) [1;0;2;3]));
  (*218*) AddTo (T 214) (Times (Transpose (T 102) [1;0;3;2]) (-1) 1);
  (*219*) Assign (T 205) (Times (Transpose (T 168) [1;0;3;2]) (-1) 1);
  (*220*) AddTo (T 205) (Plain (Transpose (T 204) [0;1;3;2]));
  (*221*) Del (T 204);
  (*222*) Assign (T 145) (Plain (Copy n_v'bbb'xov));
  (*223*) AddTo (T 145) (Plain (Copy (T 45)));
  (*224*) AddTo (T 145) (Times (Copy (T 144)) (-1) 1);
  (*225*) Assign (T 220) (Plain (Copy (T 160)));
  (*226*) AddTo (T 220) (Plain (Transpose (T 210) [1;0;3;2]));
  (*227*) Assign (T 212) (Plain (Transpose (T 97) [1;0;2;3]));
  (*228*) AddTo (T 212) (Times (Transpose (T 97) [1;0;3;2]) (-1) 1);
  (*229*) Assign (T 195) (Plain (Transpose (T 192) [1;0]));
  (*230*) Del (T 192);
  (*231*) AddTo (T 195) (Times (Transpose (T 194) [1;0]) (-1) 1);
  (*232*) Del (T 194);
  (*233*) Assign (T 235) (Plain (Einsum [(n_v'bbb'xov,[0;1;2]); (n_v'bbb'xvv,[0;3;4])] [1;3;4;2]));
  (*234*) Assign (T 179) (Plain (Copy n_f'bb'oo));
  (*235*) AddTo (T 179) (Times (Transpose (T 46) [1;0]) (-1) 1);
  (*236*) AddTo (T 179) (Plain (Transpose (T 178) [1;0]));
  (*237*) Del (T 178);
  (*238*) Assign (T 190) (Plain (Einsum [(T 188,[0;1;2;3]); (n_t1'bb,[3;4])] [0;1;2;4]));
  (*239*) Assign (T 151) (Plain (Copy n_v'bbb'xvv));
  (*240*) AddTo (T 151) (Times (Copy (T 150)) (-1) 1);
  (*241*) Assign (T 142) (Plain (Copy n_v'baa'xvv));
  (*242*) AddTo (T 142) (Times (Copy (T 81)) (-1) 1);
  (*243*) Assign (T 163) (Plain (Einsum [(n_t1'bb,[0;1]); (T 147,[2;0;3;4])] [2;3;1;4]));
  (*244*) Assign (T 164) (Plain (Copy n_v'bbb'xvv));
  (*245*) AddTo (T 164) (Times (Copy (T 150)) (-1) 1);
  (*246*) Del (T 150);
  (*247*) Assign (T 17) (Times (Einsum [(T 16,[0;1]); (n_t1'aa,[2;1])] [2;0]) (1) 2);
  (*248*) Assign (T 14) (Plain (Einsum [(T 13,[0;1;2]); (n_v'baa'xov,[0;3;2])] [3;1]));
  (*249*) Del (T 13);
  (*250*) Assign (T 148) (Plain (Copy n_v'baa'xvv));
  (*251*) AddTo (T 148) (Times (Copy (T 81)) (-1) 1);
  (*252*) Del (T 81);
  (*253*) Assign (T 171) (Plain (Einsum [(n_v'bbb'xvv,[0;1;2]); (n_v'baa'xov,[0;3;4])] [3;4;1;2]));
  (*254*) Assign (T 156) (Times (Copy (T 155)) (-1) 1);
  (*255*) Del (T 155);
  (*256*) AddTo (T 156) (Times (Copy (T 12)) (2) 1);
  (*257*) AddTo (T 156) (Plain (Copy (T 4)));
  (*258*) Assign (T 41) (Times (Einsum [(T 40,[0;1]); (n_t1'bb,[2;1])] [2;0]) (1) 2);
  (*259*) Assign (T 39) (Times (Einsum [(n_v'bbb'xov,[0;1;2]); (T 38,[0;3;2])] [1;3]) (1) 2);
  (*260*) Del (T 38);
  (*261*) Assign (T 61) (Plain (Einsum [(T 16,[0;1]); (n_t1'aa,[0;2])] [2;1]));
  (*262*) Del (T 16);
  (*263*) Assign (T 60) (Plain (Einsum [(n_v'baa'xvv,[0;1;2]); (T 8,[0])] [1;2]));
  (*264*) Assign (T 59) (Plain (Einsum [(T 58,[0;1;2]); (n_v'baa'xov,[0;1;3])] [3;2]));
  (*265*) Del (T 58);
  (*266*) Assign (T 98) (Times (Transpose (T 97) [1;0;2;3]) (-1) 1);
  (*267*) AddTo (T 98) (Plain (Transpose (T 97) [1;0;3;2]));
  (*268*) Assign (T 65) (Plain (Copy n_f'aa'ov));
  (*269*) AddTo (T 65) (Times (Copy (T 15)) (-1) 1);
  (*270*) AddTo (T 65) (Plain (Copy (T 11)));
  (*271*) Assign (T 111) (Plain (Copy (T 95)));
  (*272*) AddTo (T 111) (Plain (Transpose (T 99) [1;0;3;2]));
  (*273*) Assign (T 29) (Plain (Einsum [(T 8,[0]); (n_v'baa'xoo,[0;1;2])] [1;2]));
  (*274*) Assign (T 103) (Times (Transpose (T 102) [1;0;2;3]) (-1) 1);
  (*275*) AddTo (T 103) (Plain (Transpose (T 102) [1;0;3;2]));
  (*276*) Assign (T 101) (Plain (Einsum [(n_t1'aa,[0;1]); (T 19,[2;0;3;4])] [2;3;1;4]));
  (*277*) Assign (T 121) (Plain (Einsum [(n_t2'aaaa,[0;1;2;3]); (T 97,[4;5;3;2])] [0;1;5;4]));
  (*278*) Assign (T 107) (Times (Transpose (T 102) [1;0;2;3]) (-1) 1);
  (*279*) AddTo (T 107) (Plain (Transpose (T 102) [1;0;3;2]));
  (*280*) Assign (T 84) (Plain (Copy n_v'baa'xov));
  (*281*) AddTo (T 84) (Plain (Copy (T 21)));
  (*282*) AddTo (T 84) (Times (Copy (T 79)) (-1) 1);
  (*283*) Assign (T 80) (Plain (Copy (T 21)));
  (*284*) AddTo (T 80) (Times (Copy (T 79)) (-1) 1);
  (*285*) Assign (T 3) (Plain (Einsum [(n_v'baa'xov,[0;1;2]); (T 1,[0;3;4])] [3;1;4;2]));
  (*286*) Assign (T 49) (Plain (Einsum [(n_v'baa'xoo,[0;1;2]); (n_v'baa'xoo,[0;3;4])] [3;1;2;4]));
  (*287*) Assign (T 77) (Plain (Transpose (T 74) [1;0]));
  (*288*) Del (T 74);
  (*289*) AddTo (T 77) (Times (Copy (T 76)) (-1) 1);
  (*290*) Del (T 76);
  (*291*) Assign (T 63) (Times (Copy (T 12)) (2) 1);
  (*292*) AddTo (T 63) (Plain (Copy (T 4)));
  (*293*) Assign (T 126) (Plain (Einsum [(n_v'baa'xvv,[0;1;2]); (n_v'baa'xov,[0;3;4])] [3;1;2;4]));
  (*294*) Assign (T 105) (Times (Transpose (T 97) [1;0;2;3]) (-1) 1);
  (*295*) AddTo (T 105) (Plain (Transpose (T 97) [1;0;3;2]));
  (*296*) Assign (T 118) (Plain (Einsum [(T 114,[0;1;2;3]); (n_t1'aa,[2;4])] [1;0;3;4]));
  (*297*) Assign (T 123) (Plain (Einsum [(n_v'baa'xov,[0;1;2]); (T 82,[0;3;4])] [1;4;3;2]));
  (*298*) Assign (T 67) (Plain (Einsum [(n_v'baa'xoo,[0;1;2]); (T 21,[0;3;4])] [3;1;2;4]));
  (*299*) Assign (T 53) (Plain (Copy n_f'aa'oo));
  (*300*) AddTo (T 53) (Times (Transpose (T 28) [1;0]) (-1) 1);
  (*301*) AddTo (T 53) (Plain (Transpose (T 52) [1;0]));
  (*302*) Del (T 52);
  (*303*) Assign (T 92) (Times (Transpose (T 89) [1;0;3;2]) (-1) 1);
  (*304*) AddTo (T 92) (Plain (Transpose (T 91) [0;1;3;2]));
  (*305*) Del (T 91);
  (*306*) Assign (T 116) (Plain (Einsum [(T 21,[0;1;2]); (T 1,[0;3;4])] [3;1;4;2]));
  (*307*) Assign (T 86) (Times (Copy (T 21)) (-1) 1);
  (*308*) AddTo (T 86) (Plain (Copy (T 79)));
  (*309*) Del (T 79);
  (*310*) Assign (T 71) (Plain (Einsum [(T 69,[0;1;2;3]); (n_t1'aa,[3;4])] [0;1;2;4]));
  (*311*) Assign (T 109) (Plain (Einsum [(T 4,[0;1;2]); (n_v'baa'xoo,[0;3;4])] [1;3;4;2]));
  (*312*) Assign (T 55) (Times (Copy (T 12)) (2) 1);
  (*313*) AddTo (T 55) (Plain (Copy (T 4)));
  (*314*) Assign (T 26) (Plain (Einsum [(T 8,[0]); (n_v'baa'xov,[0;1;2])] [1;2]));
  (*315*) Assign (T 34) (Plain (Copy n_t2'bbbb));
  (*316*) AddTo (T 34) (Times (Einsum [(n_t1'bb,[0;1]); (n_t1'bb,[2;3])] [2;0;1;3]) (-1) 2);
  (*317*) Assign (T 24) (Plain (Einsum [(T 8,[0]); (n_v'bbb'xov,[0;1;2])] [1;2]));
  (*318*) Assign (T 5) (Plain (Copy n_t2'aaaa));
  (*319*) AddTo (T 5) (Times (Einsum [(n_t1'aa,[0;1]); (n_t1'aa,[2;3])] [2;0;1;3]) (-1) 2);
  (*320*) Assign (T 222) (Plain (Einsum [(T 45,[0;1;2]); (n_v'bbb'xov,[0;3;4])] [1;3;4;2]));
  (*321*) Assign (T 202) (Plain (Einsum [(T 33,[0;1;2]); (T 201,[0;3;4])] [3;1;4;2]));
  (*322*) Del (T 201);
  (*323*) Assign (T 233) (Plain (Einsum [(n_v'bbb'xvv,[0;1;2]); (n_v'bbb'xvv,[0;3;4])] [1;3;4;2]));
  (*324*) AddTo (T 233) (Plain (Einsum [(T 232,[0;1;2;3]); (n_t1'bb,[0;4])] [3;2;4;1]));
  (*325*) Del (T 232);
  (*326*) Assign (T 199) (Times (Einsum [(n_v'bbb'xov,[0;1;2]); (T 197,[0;3;4])] [3;1;4;2]) (-1) 1);
  (*327*) Del (T 197);
  (*328*) AddTo (T 199) (Plain (Einsum [(T 198,[0;1;2]); (T 22,[0;3;4])] [3;4;2;1]));
  (*329*) Assign (T 184) (Times (Copy n_f'bb'vv) (-1) 1);
  (*330*) AddTo (T 184) (Plain (Einsum [(n_v'bbb'xov,[0;1;2]); (T 183,[0;1;3])] [2;3]));
  (*331*) Del (T 183);
  (*332*) AddTo (T 184) (Times (Einsum [(T 8,[0]); (n_v'bbb'xvv,[0;1;2])] [1;2]) (-1) 1);
  (*333*) AddTo (T 184) (Plain (Einsum [(T 40,[0;1]); (n_t1'bb,[0;2])] [1;2]));
  (*334*) Del (T 40);
  (*335*) Assign (T 217) (Plain (Copy (T 146)));
  (*336*) AddTo (T 217) (Plain (Einsum [(T 216,[0;1;2;3]); (n_t2'abab,[0;4;2;5])] [1;4;3;5]));
  (*337*) Del (T 216);
  (*338*) Assign (T 176) (Plain (Copy n_t2'bbbb));
  (*339*) AddTo (T 176) (Times (Einsum [(n_t1'bb,[0;1]); (n_t1'bb,[2;3])] [2;0;3;1]) (2) 1);
  (*340*) Assign (T 207) (Plain (Einsum [(T 167,[0;1;2]); (T 33,[0;3;4])] [3;1;4;2]));
  (*341*) Assign (T 211) (Plain (Copy (T 160)));
  (*342*) AddTo (T 211) (Times (Einsum [(n_t2'bbbb,[0;1;2;3]); (T 209,[1;4;5;3])] [0;4;2;5]) (-2) 1);
  (*343*) Del (T 209);
  (*344*) AddTo (T 211) (Plain (Transpose (T 210) [1;0;3;2]));
  (*345*) Del (T 210);
  (*346*) Assign (T 177) (Plain (Einsum [(n_t2'bbbb,[0;1;2;3]); (T 175,[4;0;5;1])] [5;4;2;3]));
  (*347*) Assign (T 181) (Plain (Einsum [(T 130,[0;1;2]); (n_v'bbb'xov,[0;1;3])] [2;3]));
  (*348*) Assign (T 187) (Plain (Einsum [(n_t1'bb,[0;1]); (T 186,[2;0;3;4])] [2;3;1;4]));
  (*349*) Del (T 186);
  (*350*) Assign (T 234) (Plain (Einsum [(n_t1'bb,[0;1]); (T 32,[2;3;0;4])] [2;3;1;4]));
  (*351*) Assign (T 224) (Plain (Einsum [(T 223,[0;1;2;3]); (n_t2'bbbb,[3;2;4;5])] [1;0;4;5]));
  (*352*) Del (T 223);
  (*353*) Assign (T 182) (Times (Einsum [(n_t1'bb,[0;1]); (n_t1'bb,[2;3])] [2;0;1;3]) (2) 1);
  (*354*) AddTo (T 182) (Times (Copy n_t2'bbbb) (-1) 1);
  (*355*) Assign (T 48) (Plain (Copy n_f'bb'oo));
  (*356*) AddTo (T 48) (Times (Transpose (T 46) [1;0]) (-1) 1);
  (*357*) Del (T 46);
  (*358*) AddTo (T 48) (Plain (Transpose (T 47) [1;0]));
  (*359*) Del (T 47);
  (*360*) Assign (T 231) (Times (Einsum [(T 230,[0;1;2;3]); (n_t2'bbbb,[2;3;4;5])] [1;0;4;5]) (-1) 1);
  (*361*) Del (T 230);
  (*362*) Assign (T 219) (Plain (Einsum [(n_t1'bb,[0;1]); (T 218,[2;0;3;4])] [2;3;1;4]));
  (*363*) Del (T 218);
  (*364*) Assign (T 208) (Plain (Einsum [(T 37,[0;1;2]); (T 33,[0;3;4])] [3;1;4;2]));
  (*365*) Assign (T 137) (Plain (Copy n_f'bb'vv));
  (*366*) AddTo (T 137) (Times (Copy (T 133)) (-1) 1);
  (*367*) Del (T 133);
  (*368*) AddTo (T 137) (Plain (Transpose (T 134) [1;0]));
  (*369*) Del (T 134);
  (*370*) AddTo (T 137) (Times (Transpose (T 136) [1;0]) (-1) 1);
  (*371*) Del (T 136);
  (*372*) Assign (T 185) (Plain (Einsum [(T 132,[0;1;2]); (n_v'bbb'xov,[0;3;4])] [3;1;4;2]));
  (*373*) Assign (T 229) (Plain (Einsum [(T 228,[0;1;2;3]); (n_t1'bb,[2;4])] [0;1;4;3]));
  (*374*) Del (T 228);
  (*375*) Assign (T 226) (Plain (Einsum [(n_t1'bb,[0;1]); (T 225,[2;3;0;4])] [2;3;1;4]));
  (*376*) Del (T 225);
  (*377*) Assign (T 215) (Times (Copy (T 160)) (1) 2);
  (*378*) AddTo (T 215) (Times (Einsum [(n_t2'bbbb,[0;1;2;3]); (T 214,[1;4;5;3])] [0;4;2;5]) (-1) 1);
  (*379*) Del (T 214);
  (*380*) AddTo (T 215) (Times (Einsum [(n_v'bbb'xoo,[0;1;2]); (T 198,[0;3;4])] [1;2;4;3]) (1) 2);
  (*381*) Del (T 198);
  (*382*) Assign (T 206) (Plain (Einsum [(T 205,[0;1;2;3]); (n_t2'bbbb,[4;1;5;3])] [0;4;2;5]));
  (*383*) Del (T 205);
  (*384*) Assign (T 200) (Plain (Einsum [(n_v'bbb'xov,[0;1;2]); (T 145,[0;3;4])] [1;3;2;4]));
  (*385*) Assign (T 221) (Plain (Einsum [(T 220,[0;1;2;3]); (n_t2'bbbb,[4;1;5;3])] [0;4;2;5]));
  (*386*) Del (T 220);
  (*387*) Assign (T 213) (Plain (Copy (T 146)));
  (*388*) AddTo (T 213) (Plain (Einsum [(T 212,[0;1;2;3]); (n_t2'abab,[0;4;2;5])] [1;4;3;5]));
  (*389*) Del (T 212);
  (*390*) Assign (T 189) (Plain (Einsum [(n_t2'bbbb,[0;1;2;3]); (T 188,[4;0;5;1])] [4;5;2;3]));
  (*391*) Del (T 188);
  (*392*) Assign (T 196) (Times (Einsum [(n_t2'bbbb,[0;1;2;3]); (T 195,[4;1])] [4;0;2;3]) (-1) 1);
  (*393*) Del (T 195);
  (*394*) Assign (T 227) (Plain (Einsum [(T 45,[0;1;2]); (T 45,[0;3;4])] [3;1;4;2]));
  (*395*) Assign (T 236) (Times (Einsum [(T 235,[0;1;2;3]); (n_t2'bbbb,[4;5;2;3])] [4;5;0;1]) (-1) 1);
  (*396*) Del (T 235);
  (*397*) Assign (T 180) (Times (Einsum [(n_t2'bbbb,[0;1;2;3]); (T 179,[1;4])] [4;0;2;3]) (-1) 1);
  (*398*) Del (T 179);
  (*399*) Assign (T 191) (Plain (Einsum [(n_t1'bb,[0;1]); (T 190,[2;0;3;4])] [2;3;1;4]));
  (*400*) Del (T 190);
  (*401*) Assign (T 152) (Plain (Einsum [(n_v'baa'xoo,[0;1;2]); (T 151,[0;3;4])] [1;2;4;3]));
  (*402*) Assign (T 143) (Plain (Einsum [(T 142,[0;1;2]); (T 22,[0;3;4])] [3;4;2;1]));
  (*403*) Del (T 142);
  (*404*) Assign (T 140) (Plain (Einsum [(n_v'bbb'xoo,[0;1;2]); (T 21,[0;3;4])] [3;1;2;4]));
  (*405*) Assign (T 161) (Plain (Transpose (T 160) [1;0;3;2]));
  (*406*) AddTo (T 161) (Plain (Einsum [(n_v'bbb'xoo,[0;1;2]); (T 151,[0;3;4])] [1;2;4;3]));
  (*407*) Assign (T 131) (Times (Einsum [(T 130,[0;1;2]); (n_v'bbb'xov,[0;1;3])] [2;3]) (2) 1);
  (*408*) Del (T 130);
  (*409*) Assign (T 153) (Plain (Copy n_v'bbb'xov));
  (*410*) AddTo (T 153) (Plain (Copy (T 45)));
  (*411*) AddTo (T 153) (Times (Copy (T 144)) (-1) 1);
  (*412*) Del (T 144);
  (*413*) Assign (T 169) (Times (Transpose (T 168) [1;0;2;3]) (-1) 1);
  (*414*) Del (T 168);
  (*415*) AddTo (T 169) (Plain (Einsum [(T 22,[0;1;2]); (T 151,[0;3;4])] [1;2;4;3]));
  (*416*) Assign (T 165) (Plain (Einsum [(n_t1'aa,[0;1]); (T 163,[0;2;3;4])] [2;1;4;3]));
  (*417*) Del (T 163);
  (*418*) AddTo (T 165) (Plain (Einsum [(T 164,[0;1;2]); (n_v'baa'xvv,[0;3;4])] [3;4;2;1]));
  (*419*) Del (T 164);
  (*420*) Assign (T 138) (Plain (Einsum [(n_v'baa'xoo,[0;1;2]); (T 22,[0;3;4])] [1;2;3;4]));
  (*421*) Assign (T 141) (Plain (Einsum [(T 1,[0;1;2]); (n_v'bbb'xoo,[0;3;4])] [1;2;3;4]));
  (*422*) Assign (T 18) (Plain (Copy (T 14)));
  (*423*) Del (T 14);
  (*424*) AddTo (T 18) (Plain (Transpose (T 17) [1;0]));
  (*425*) Del (T 17);
  (*426*) Assign (T 139) (Plain (Copy n_t2'abab));
  (*427*) AddTo (T 139) (Plain (Einsum [(n_t1'bb,[0;1]); (n_t1'aa,[2;3])] [2;0;3;1]));
  (*428*) Assign (T 128) (Plain (Einsum [(n_v'bbb'xoo,[0;1;2]); (n_v'baa'xoo,[0;3;4])] [3;4;1;2]));
  (*429*) Assign (T 166) (Times (Transpose (T 89) [1;0;2;3]) (-1) 1);
  (*430*) Del (T 89);
  (*431*) AddTo (T 166) (Plain (Einsum [(T 1,[0;1;2]); (T 148,[0;3;4])] [1;2;4;3]));
  (*432*) Assign (T 174) (Plain (Einsum [(T 1,[0;1;2]); (T 45,[0;3;4])] [1;2;3;4]));
  (*433*) Assign (T 149) (Plain (Einsum [(T 147,[0;1;2;3]); (n_t2'abab,[0;4;5;3])] [1;4;2;5]));
  (*434*) AddTo (T 149) (Times (Einsum [(n_v'bbb'xoo,[0;1;2]); (T 148,[0;3;4])] [1;2;4;3]) (-1) 1);
  (*435*) Assign (T 173) (Plain (Einsum [(n_v'baa'xoo,[0;1;2]); (T 45,[0;3;4])] [1;2;3;4]));
  (*436*) Assign (T 154) (Plain (Einsum [(T 1,[0;1;2]); (T 22,[0;3;4])] [1;2;3;4]));
  (*437*) Assign (T 172) (Plain (Einsum [(T 171,[0;1;2;3]); (n_t2'abab,[4;5;1;3])] [4;0;5;2]));
  (*438*) Del (T 171);
  (*439*) Assign (T 2) (Plain (Einsum [(T 1,[0;1;2]); (n_v'bbb'xov,[0;3;4])] [1;2;3;4]));
  (*440*) Assign (T 158) (Times (Einsum [(n_t2'abab,[0;1;2;3]); (T 102,[1;4;5;3])] [0;4;2;5]) (-1) 1);
  (*441*) Del (T 102);
  (*442*) AddTo (T 158) (Plain (Einsum [(n_v'bbb'xov,[0;1;2]); (T 156,[0;3;4])] [3;1;4;2]));
  (*443*) Assign (T 170) (Plain (Einsum [(T 1,[0;1;2]); (T 151,[0;3;4])] [1;2;4;3]));
  (*444*) Del (T 151);
  (*445*) Assign (T 157) (Times (Einsum [(n_t2'aaaa,[0;1;2;3]); (T 97,[1;4;5;3])] [4;0;5;2]) (2) 1);
  (*446*) Del (T 97);
  (*447*) AddTo (T 157) (Times (Einsum [(T 156,[0;1;2]); (n_v'baa'xov,[0;3;4])] [3;1;4;2]) (-1) 1);
  (*448*) Del (T 156);
  (*449*) AddTo (T 157) (Plain (Einsum [(n_v'baa'xoo,[0;1;2]); (T 148,[0;3;4])] [1;2;4;3]));
  (*450*) Del (T 148);
  (*451*) Assign (T 42) (Plain (Copy (T 39)));
  (*452*) Del (T 39);
  (*453*) AddTo (T 42) (Plain (Transpose (T 41) [1;0]));
  (*454*) Del (T 41);
  (*455*) Assign (T 129) (Plain (Copy n_t2'abab));
  (*456*) AddTo (T 129) (Times (Einsum [(n_t1'bb,[0;1]); (n_t1'aa,[2;3])] [2;0;3;1]) (2) 1);
  (*457*) Assign (T 162) (Plain (Einsum [(n_t2'abab,[0;1;2;3]); (T 147,[4;5;2;3])] [0;4;1;5]));
  (*458*) Del (T 147);
  (*459*) Assign (T 62) (Times (Copy n_f'aa'vv) (-1) 1);
  (*460*) AddTo (T 62) (Plain (Copy (T 59)));
  (*461*) Del (T 59);
  (*462*) AddTo (T 62) (Times (Transpose (T 60) [1;0]) (-1) 1);
  (*463*) Del (T 60);
  (*464*) AddTo (T 62) (Plain (Transpose (T 61) [1;0]));
  (*465*) Del (T 61);
  (*466*) Assign (T 159) (Plain (Einsum [(n_v'bbb'xoo,[0;1;2]); (T 12,[0;3;4])] [3;1;2;4]));
  (*467*) Assign (T 100) (Plain (Copy (T 95)));
  (*468*) AddTo (T 100) (Times (Einsum [(T 98,[0;1;2;3]); (n_t2'aaaa,[4;0;5;2])] [4;1;5;3]) (-2) 1);
  (*469*) Del (T 98);
  (*470*) AddTo (T 100) (Plain (Transpose (T 99) [1;0;3;2]));
  (*471*) Del (T 99);
  (*472*) Assign (T 66) (Plain (Copy n_f'aa'vv));
  (*473*) AddTo (T 66) (Times (Einsum [(T 21,[0;1;2]); (n_v'baa'xov,[0;1;3])] [3;2]) (-1) 1);
  (*474*) AddTo (T 66) (Plain (Einsum [(n_v'baa'xvv,[0;1;2]); (T 10,[0])] [1;2]));
  (*475*) Del (T 10);
  (*476*) AddTo (T 66) (Times (Einsum [(n_t1'aa,[0;1]); (T 65,[0;2])] [2;1]) (-1) 1);
  (*477*) Del (T 65);
  (*478*) Assign (T 112) (Plain (Einsum [(n_t2'aaaa,[0;1;2;3]); (T 111,[4;1;5;3])] [0;4;2;5]));
  (*479*) Del (T 111);
  (*480*) Assign (T 120) (Plain (Einsum [(T 21,[0;1;2]); (T 21,[0;3;4])] [1;3;2;4]));
  (*481*) Assign (T 30) (Plain (Copy n_f'aa'oo));
  (*482*) AddTo (T 30) (Times (Transpose (T 28) [1;0]) (-1) 1);
  (*483*) Del (T 28);
  (*484*) AddTo (T 30) (Plain (Transpose (T 29) [1;0]));
  (*485*) Del (T 29);
  (*486*) Assign (T 104) (Plain (Copy (T 101)));
  (*487*) AddTo (T 104) (Times (Einsum [(n_t2'abab,[0;1;2;3]); (T 103,[1;4;3;5])] [0;4;2;5]) (-1) 1);
  (*488*) Del (T 103);
  (*489*) Assign (T 122) (Times (Einsum [(n_t2'aaaa,[0;1;2;3]); (T 121,[4;5;0;1])] [5;4;2;3]) (-1) 1);
  (*490*) Del (T 121);
  (*491*) Assign (T 108) (Plain (Copy (T 101)));
  (*492*) AddTo (T 108) (Times (Einsum [(n_t2'abab,[0;1;2;3]); (T 107,[1;4;3;5])] [0;4;2;5]) (-1) 1);
  (*493*) Del (T 107);
  (*494*) Assign (T 85) (Plain (Einsum [(T 84,[0;1;2]); (n_v'baa'xov,[0;3;4])] [3;1;4;2]));
  (*495*) Del (T 84);
  (*496*) Assign (T 83) (Times (Einsum [(n_v'baa'xov,[0;1;2]); (T 80,[0;3;4])] [3;1;4;2]) (-1) 1);
  (*497*) Del (T 80);
  (*498*) AddTo (T 83) (Plain (Einsum [(T 1,[0;1;2]); (T 82,[0;3;4])] [1;2;4;3]));
  (*499*) Del (T 1);
  (*500*) Assign (T 125) (Plain (Einsum [(T 3,[0;1;2;3]); (n_t1'aa,[2;4])] [0;1;4;3]));
  (*501*) Assign (T 51) (Plain (Einsum [(n_t2'aaaa,[0;1;2;3]); (T 49,[4;0;5;1])] [5;4;2;3]));
  (*502*) Assign (T 70) (Plain (Einsum [(T 69,[0;1;2;3]); (n_t2'aaaa,[1;3;4;5])] [0;2;4;5]));
  (*503*) Del (T 69);
  (*504*) Assign (T 78) (Times (Einsum [(n_t2'aaaa,[0;1;2;3]); (T 77,[4;1])] [0;4;2;3]) (-1) 1);
  (*505*) Del (T 77);
  (*506*) Assign (T 64) (Plain (Einsum [(T 63,[0;1;2]); (n_v'baa'xov,[0;3;4])] [3;1;4;2]));
  (*507*) Assign (T 127) (Times (Einsum [(n_t2'aaaa,[0;1;2;3]); (T 126,[4;5;2;3])] [0;1;4;5]) (-1) 1);
  (*508*) Del (T 126);
  (*509*) Assign (T 106) (Times (Copy (T 95)) (1) 2);
  (*510*) AddTo (T 106) (Times (Einsum [(n_t2'aaaa,[0;1;2;3]); (T 105,[1;4;3;5])] [0;4;2;5]) (-1) 1);
  (*511*) Del (T 105);
  (*512*) AddTo (T 106) (Times (Einsum [(n_v'baa'xoo,[0;1;2]); (T 82,[0;3;4])] [1;2;4;3]) (1) 2);
  (*513*) Del (T 82);
  (*514*) Assign (T 94) (Plain (Einsum [(T 4,[0;1;2]); (T 88,[0;3;4])] [1;3;2;4]));
  (*515*) Assign (T 119) (Plain (Einsum [(n_t1'aa,[0;1]); (T 118,[2;3;0;4])] [2;3;1;4]));
  (*516*) Del (T 118);
  (*517*) Assign (T 50) (Plain (Copy n_t2'aaaa));
  (*518*) AddTo (T 50) (Times (Einsum [(n_t1'aa,[0;1]); (n_t1'aa,[2;3])] [2;0;3;1]) (2) 1);
  (*519*) Assign (T 115) (Plain (Einsum [(n_t2'aaaa,[0;1;2;3]); (T 114,[4;5;1;0])] [5;4;2;3]));
  (*520*) Del (T 114);
  (*521*) Assign (T 124) (Plain (Einsum [(n_v'baa'xvv,[0;1;2]); (n_v'baa'xvv,[0;3;4])] [1;3;4;2]));
  (*522*) AddTo (T 124) (Plain (Einsum [(T 123,[0;1;2;3]); (n_t1'aa,[0;4])] [3;2;4;1]));
  (*523*) Del (T 123);
  (*524*) Assign (T 68) (Plain (Einsum [(T 67,[0;1;2;3]); (n_t1'aa,[1;4])] [0;2;4;3]));
  (*525*) Del (T 67);
  (*526*) Assign (T 54) (Times (Einsum [(n_t2'aaaa,[0;1;2;3]); (T 53,[1;4])] [0;4;2;3]) (-1) 1);
  (*527*) Assign (T 93) (Plain (Einsum [(T 92,[0;1;2;3]); (n_t2'aaaa,[4;1;5;3])] [4;0;5;2]));
  (*528*) Del (T 92);
  (*529*) Assign (T 117) (Plain (Einsum [(T 116,[0;1;2;3]); (n_t1'aa,[2;4])] [0;1;4;3]));
  (*530*) Del (T 116);
  (*531*) Assign (T 87) (Plain (Einsum [(T 86,[0;1;2]); (T 4,[0;3;4])] [3;1;4;2]));
  (*532*) Del (T 86);
  (*533*) Assign (T 72) (Plain (Einsum [(T 71,[0;1;2;3]); (n_t1'aa,[1;4])] [0;2;4;3]));
  (*534*) Del (T 71);
  (*535*) Assign (T 110) (Plain (Einsum [(T 109,[0;1;2;3]); (n_t1'aa,[1;4])] [0;2;4;3]));
  (*536*) Del (T 109);
  (*537*) Assign (T 96) (Plain (Einsum [(T 4,[0;1;2]); (T 12,[0;3;4])] [3;1;4;2]));
  (*538*) Assign (T 56) (Plain (Einsum [(T 55,[0;1;2]); (n_v'baa'xov,[0;1;3])] [2;3]));
  (*539*) Del (T 55);
  (*540*) Assign (T 113) (Plain (Einsum [(T 21,[0;1;2]); (n_v'baa'xov,[0;3;4])] [1;3;4;2]));
  (*541*) Assign (T 57) (Times (Einsum [(n_t1'aa,[0;1]); (n_t1'aa,[2;3])] [2;0;1;3]) (2) 1);
  (*542*) AddTo (T 57) (Times (Copy n_t2'aaaa) (-1) 1);
  (*543*) Assign (T 27) (Plain (Copy n_f'aa'ov));
  (*544*) AddTo (T 27) (Times (Copy (T 15)) (-1) 1);
  (*545*) Del (T 15);
  (*546*) AddTo (T 27) (Plain (Copy (T 26)));
  (*547*) Del (T 26);
  (*548*) Assign (T 31) (Plain (Einsum [(T 22,[0;1;2]); (n_v'baa'xov,[0;3;4])] [3;1;2;4]));
  (*549*) Del (T 22);
  (*550*) Assign (T 35) (Plain (Copy (T 33)));
  (*551*) Del (T 33);
  (*552*) AddTo (T 35) (Times (Einsum [(T 34,[0;1;2;3]); (n_v'bbb'xov,[4;0;2])] [4;1;3]) (2) 1);
  (*553*) Del (T 34);
  (*554*) AddTo (T 35) (Plain (Einsum [(T 8,[0]); (n_t1'bb,[1;2])] [0;1;2]));
  (*555*) Assign (T 25) (Plain (Copy n_f'bb'ov));
  (*556*) AddTo (T 25) (Times (Copy (T 23)) (-1) 1);
  (*557*) Del (T 23);
  (*558*) AddTo (T 25) (Plain (Copy (T 24)));
  (*559*) Del (T 24);
  (*560*) Assign (T 9) (Plain (Copy (T 4)));
  (*561*) Del (T 4);
  (*562*) AddTo (T 9) (Times (Einsum [(n_v'baa'xov,[0;1;2]); (T 5,[1;3;2;4])] [0;3;4]) (2) 1);
  (*563*) Del (T 5);
  (*564*) AddTo (T 9) (Plain (Einsum [(T 8,[0]); (n_t1'aa,[1;2])] [0;1;2]));
  (*565*) Del (T 8);
  (*566*) Assign n_t2new'bbbb (Times (Einsum [(n_t2'bbbb,[0;1;2;3]); (T 48,[1;4])] [0;4;2;3]) (-1) 1);
  (*567*) AddTo n_t2new'bbbb (Times (Einsum [(T 175,[0;1;2;3]); (T 176,[0;2;4;5])] [1;3;5;4]) (1) 2);
  (*568*) Del (T 176);
  (*569*) AddTo n_t2new'bbbb (Times (Transpose (T 177) [0;1;3;2]) (-1) 1);
  (*570*) Del (T 177);
  (*571*) AddTo n_t2new'bbbb (Times (Transpose (T 180) [1;0;3;2]) (-1) 1);
  (*572*) AddTo n_t2new'bbbb (Times (Einsum [(T 181,[0;1]); (n_t2'bbbb,[2;3;4;1])] [2;3;4;0]) (-4) 1);
  (*573*) Del (T 181);
  (*574*) AddTo n_t2new'bbbb (Times (Transpose (T 180) [0;1;3;2]) (2) 1);
  (*575*) Del (T 180);
  (*576*) AddTo n_t2new'bbbb (Times (Einsum [(T 175,[0;1;2;3]); (T 182,[0;2;4;5])] [1;3;5;4]) (-1) 2);
  (*577*) Del (T 175);
  (*577*) Del (T 182);
  (*578*) AddTo n_t2new'bbbb (Times (Einsum [(n_t2'bbbb,[0;1;2;3]); (T 184,[3;4])] [0;1;4;2]) (2) 1);
  (*579*) Del (T 184);
  (*580*) AddTo n_t2new'bbbb (Plain (Copy (T 185)));
  (*581*) AddTo n_t2new'bbbb (Times (Einsum [(T 137,[0;1]); (n_t2'bbbb,[2;3;4;0])] [2;3;4;1]) (2) 1);
  (*582*) AddTo n_t2new'bbbb (Times (Transpose (T 185) [0;1;3;2]) (-1) 1);
  (*583*) AddTo n_t2new'bbbb (Plain (Transpose (T 187) [1;0;3;2]));
  (*584*) AddTo n_t2new'bbbb (Times (Transpose (T 189) [1;0;3;2]) (-2) 1);
  (*585*) AddTo n_t2new'bbbb (Plain (Transpose (T 191) [1;0;2;3]));
  (*586*) AddTo n_t2new'bbbb (Times (Transpose (T 191) [1;0;3;2]) (-1) 1);
  (*587*) AddTo n_t2new'bbbb (Times (Transpose (T 196) [1;0;3;2]) (-2) 1);
  (*588*) AddTo n_t2new'bbbb (Times (Transpose (T 187) [1;0;2;3]) (-1) 1);
  (*589*) AddTo n_t2new'bbbb (Times (Transpose (T 187) [0;1;3;2]) (-1) 1);
  (*590*) AddTo n_t2new'bbbb (Times (Transpose (T 189) [0;1;3;2]) (2) 1);
  (*591*) Del (T 189);
  (*592*) AddTo n_t2new'bbbb (Times (Copy (T 191)) (-1) 1);
  (*593*) AddTo n_t2new'bbbb (Plain (Transpose (T 191) [0;1;3;2]));
  (*594*) Del (T 191);
  (*595*) AddTo n_t2new'bbbb (Times (Transpose (T 196) [0;1;3;2]) (2) 1);
  (*596*) Del (T 196);
  (*597*) AddTo n_t2new'bbbb (Plain (Copy (T 187)));
  (*598*) Del (T 187);
  (*599*) AddTo n_t2new'bbbb (Times (Einsum [(n_t2'bbbb,[0;1;2;3]); (T 199,[4;1;5;3])] [0;4;5;2]) (2) 1);
  (*600*) Del (T 199);
  (*601*) AddTo n_t2new'bbbb (Plain (Copy (T 200)));
  (*602*) AddTo n_t2new'bbbb (Plain (Transpose (T 202) [1;0;2;3]));
  (*603*) AddTo n_t2new'bbbb (Times (Copy (T 206)) (-2) 1);
  (*604*) AddTo n_t2new'bbbb (Times (Transpose (T 200) [1;0;2;3]) (-1) 1);
  (*605*) Del (T 200);
  (*606*) AddTo n_t2new'bbbb (Plain (Transpose (T 207) [1;0;3;2]));
  (*607*) AddTo n_t2new'bbbb (Plain (Transpose (T 160) [0;1;3;2]));
  (*608*) AddTo n_t2new'bbbb (Times (Copy (T 208)) (2) 1);
  (*609*) AddTo n_t2new'bbbb (Times (Transpose (T 208) [1;0;3;2]) (2) 1);
  (*610*) AddTo n_t2new'bbbb (Times (Einsum [(T 211,[0;1;2;3]); (n_t2'bbbb,[4;1;5;3])] [0;4;2;5]) (-2) 1);
  (*611*) Del (T 211);
  (*612*) AddTo n_t2new'bbbb (Times (Einsum [(T 213,[0;1;2;3]); (n_t2'abab,[0;4;2;5])] [1;4;3;5]) (-1) 1);
  (*613*) Del (T 213);
  (*614*) AddTo n_t2new'bbbb (Times (Transpose (T 160) [1;0;3;2]) (-1) 1);
  (*615*) AddTo n_t2new'bbbb (Times (Transpose (T 208) [0;1;3;2]) (-2) 1);
  (*616*) AddTo n_t2new'bbbb (Times (Transpose (T 208) [1;0;2;3]) (-2) 1);
  (*617*) Del (T 208);
  (*618*) AddTo n_t2new'bbbb (Times (Einsum [(T 215,[0;1;2;3]); (n_t2'bbbb,[4;1;5;3])] [4;0;2;5]) (4) 1);
  (*619*) Del (T 215);
  (*620*) AddTo n_t2new'bbbb (Plain (Einsum [(n_t2'abab,[0;1;2;3]); (T 217,[0;4;2;5])] [1;4;5;3]));
  (*621*) Del (T 217);
  (*622*) AddTo n_t2new'bbbb (Plain (Transpose (T 219) [1;0;3;2]));
  (*623*) AddTo n_t2new'bbbb (Times (Copy (T 160)) (-1) 1);
  (*624*) AddTo n_t2new'bbbb (Times (Transpose (T 221) [0;1;3;2]) (2) 1);
  (*625*) AddTo n_t2new'bbbb (Times (Transpose (T 219) [0;1;3;2]) (-1) 1);
  (*626*) Del (T 219);
  (*627*) AddTo n_t2new'bbbb (Plain (Transpose (T 160) [1;0;2;3]));
  (*628*) Del (T 160);
  (*629*) AddTo n_t2new'bbbb (Times (Transpose (T 221) [1;0;3;2]) (-2) 1);
  (*630*) Del (T 221);
  (*631*) AddTo n_t2new'bbbb (Plain (Transpose (T 222) [0;1;3;2]));
  (*632*) AddTo n_t2new'bbbb (Times (Transpose (T 224) [0;1;3;2]) (-2) 1);
  (*633*) Del (T 224);
  (*634*) AddTo n_t2new'bbbb (Plain (Transpose (T 226) [0;1;3;2]));
  (*635*) AddTo n_t2new'bbbb (Times (Transpose (T 226) [1;0;3;2]) (-1) 1);
  (*636*) AddTo n_t2new'bbbb (Plain (Copy (T 227)));
  (*637*) AddTo n_t2new'bbbb (Times (Transpose (T 227) [0;1;3;2]) (-1) 1);
  (*638*) Del (T 227);
  (*639*) AddTo n_t2new'bbbb (Plain (Copy (T 229)));
  (*640*) AddTo n_t2new'bbbb (Times (Transpose (T 229) [0;1;3;2]) (-1) 1);
  (*641*) Del (T 229);
  (*642*) AddTo n_t2new'bbbb (Times (Transpose (T 222) [1;0;3;2]) (-1) 1);
  (*643*) Del (T 222);
  (*644*) AddTo n_t2new'bbbb (Times (Copy (T 231)) (2) 1);
  (*645*) Del (T 231);
  (*646*) AddTo n_t2new'bbbb (Times (Einsum [(T 233,[0;1;2;3]); (n_t2'bbbb,[4;5;0;1])] [4;5;3;2]) (2) 1);
  (*647*) Del (T 233);
  (*648*) AddTo n_t2new'bbbb (Times (Transpose (T 185) [1;0;2;3]) (-1) 1);
  (*649*) AddTo n_t2new'bbbb (Plain (Transpose (T 185) [1;0;3;2]));
  (*650*) Del (T 185);
  (*651*) AddTo n_t2new'bbbb (Plain (Transpose (T 234) [1;0;2;3]));
  (*652*) AddTo n_t2new'bbbb (Times (Transpose (T 206) [1;0;3;2]) (-2) 1);
  (*653*) AddTo n_t2new'bbbb (Times (Transpose (T 202) [1;0;3;2]) (-1) 1);
  (*654*) Del (T 202);
  (*655*) AddTo n_t2new'bbbb (Times (Copy (T 234)) (-1) 1);
  (*656*) Del (T 234);
  (*657*) AddTo n_t2new'bbbb (Times (Transpose (T 206) [0;1;3;2]) (2) 1);
  (*658*) Del (T 206);
  (*659*) AddTo n_t2new'bbbb (Times (Transpose (T 207) [1;0;2;3]) (-1) 1);
  (*660*) Del (T 207);
  (*661*) AddTo n_t2new'bbbb (Times (Einsum [(n_t1'bb,[0;1]); (T 236,[2;3;0;4])] [2;3;1;4]) (-2) 1);
  (*662*) Del (T 236);
  (*663*) AddTo n_t2new'bbbb (Times (Copy (T 226)) (-1) 1);
  (*664*) AddTo n_t2new'bbbb (Plain (Transpose (T 226) [1;0;2;3]));
  (*665*) Del (T 226);
  (*666*) Assign n_t2new'abab (Times (Einsum [(n_t2'abab,[0;1;2;3]); (T 48,[1;4])] [0;4;2;3]) (-1) 1);
  (*667*) AddTo n_t2new'abab (Times (Einsum [(T 128,[0;1;2;3]); (T 129,[0;2;4;5])] [1;3;4;5]) (1) 2);
  (*668*) Del (T 129);
  (*669*) AddTo n_t2new'abab (Times (Einsum [(T 128,[0;1;2;3]); (n_t2'abab,[1;3;4;5])] [0;2;4;5]) (1) 2);
  (*670*) Del (T 128);
  (*671*) AddTo n_t2new'abab (Times (Einsum [(T 131,[0;1]); (n_t2'abab,[2;3;4;1])] [2;3;4;0]) (-1) 1);
  (*672*) Del (T 131);
  (*673*) AddTo n_t2new'abab (Times (Einsum [(n_t2'abab,[0;1;2;3]); (T 53,[0;4])] [4;1;2;3]) (-1) 1);
  (*674*) Del (T 53);
  (*675*) AddTo n_t2new'abab (Times (Einsum [(n_t2'abab,[0;1;2;3]); (T 62,[2;4])] [0;1;4;3]) (-1) 1);
  (*676*) AddTo n_t2new'abab (Plain (Einsum [(T 132,[0;1;2]); (n_v'baa'xov,[0;3;4])] [3;1;4;2]));
  (*677*) Del (T 132);
  (*678*) AddTo n_t2new'abab (Plain (Einsum [(n_t2'abab,[0;1;2;3]); (T 137,[3;4])] [0;1;2;4]));
  (*679*) Del (T 137);
  (*680*) AddTo n_t2new'abab (Times (Einsum [(n_t2'abab,[0;1;2;3]); (T 42,[1;4])] [0;4;2;3]) (-2) 1);
  (*681*) AddTo n_t2new'abab (Plain (Einsum [(T 139,[0;1;2;3]); (T 138,[4;0;5;1])] [4;5;2;3]));
  (*682*) Del (T 138);
  (*683*) AddTo n_t2new'abab (Times (Einsum [(T 140,[0;1;2;3]); (n_t1'bb,[1;4])] [0;2;3;4]) (-1) 1);
  (*684*) Del (T 140);
  (*685*) AddTo n_t2new'abab (Times (Einsum [(n_t2'abab,[0;1;2;3]); (T 18,[0;4])] [4;1;2;3]) (-2) 1);
  (*686*) AddTo n_t2new'abab (Plain (Einsum [(T 139,[0;1;2;3]); (T 141,[4;0;1;5])] [4;5;2;3]));
  (*687*) Del (T 141);
  (*688*) AddTo n_t2new'abab (Times (Einsum [(T 143,[0;1;2;3]); (n_t2'abab,[4;1;2;5])] [4;0;3;5]) (-1) 1);
  (*689*) Del (T 143);
  (*690*) AddTo n_t2new'abab (Plain (Einsum [(n_v'baa'xov,[0;1;2]); (T 145,[0;3;4])] [1;3;2;4]));
  (*691*) Del (T 145);
  (*692*) AddTo n_t2new'abab (Times (Copy (T 146)) (-1) 1);
  (*693*) Del (T 146);
  (*694*) AddTo n_t2new'abab (Plain (Einsum [(T 149,[0;1;2;3]); (n_t2'abab,[4;0;2;5])] [4;1;3;5]));
  (*695*) Del (T 149);
  (*696*) AddTo n_t2new'abab (Times (Copy (T 101)) (-1) 1);
  (*697*) Del (T 101);
  (*698*) AddTo n_t2new'abab (Times (Einsum [(T 152,[0;1;2;3]); (n_t2'abab,[0;4;5;2])] [1;4;5;3]) (-1) 1);
  (*699*) Del (T 152);
  (*700*) AddTo n_t2new'abab (Plain (Einsum [(T 153,[0;1;2]); (T 21,[0;3;4])] [3;1;4;2]));
  (*701*) Del (T 153);
  (*702*) AddTo n_t2new'abab (Plain (Einsum [(T 139,[0;1;2;3]); (T 154,[4;0;5;1])] [4;5;2;3]));
  (*703*) Del (T 139);
  (*703*) Del (T 154);
  (*704*) AddTo n_t2new'abab (Times (Einsum [(T 157,[0;1;2;3]); (n_t2'abab,[0;4;2;5])] [1;4;3;5]) (-1) 1);
  (*705*) Del (T 157);
  (*706*) AddTo n_t2new'abab (Times (Einsum [(T 158,[0;1;2;3]); (n_t2'bbbb,[4;1;5;3])] [0;4;2;5]) (2) 1);
  (*707*) Del (T 158);
  (*708*) AddTo n_t2new'abab (Plain (Einsum [(n_v'bbb'xov,[0;1;2]); (T 63,[0;3;4])] [3;1;4;2]));
  (*709*) Del (T 63);
  (*710*) AddTo n_t2new'abab (Times (Einsum [(T 159,[0;1;2;3]); (n_t1'bb,[1;4])] [0;2;3;4]) (-2) 1);
  (*711*) Del (T 159);
  (*712*) AddTo n_t2new'abab (Times (Einsum [(n_t2'abab,[0;1;2;3]); (T 161,[1;4;3;5])] [0;4;2;5]) (-1) 1);
  (*713*) Del (T 161);
  (*714*) AddTo n_t2new'abab (Plain (Einsum [(T 162,[0;1;2;3]); (n_t2'abab,[1;3;4;5])] [0;2;4;5]));
  (*715*) Del (T 162);
  (*716*) AddTo n_t2new'abab (Plain (Einsum [(n_t2'abab,[0;1;2;3]); (T 165,[2;4;3;5])] [0;1;4;5]));
  (*717*) Del (T 165);
  (*718*) AddTo n_t2new'abab (Times (Einsum [(T 166,[0;1;2;3]); (n_t2'abab,[1;4;2;5])] [0;4;3;5]) (-1) 1);
  (*719*) Del (T 166);
  (*720*) AddTo n_t2new'abab (Times (Einsum [(T 88,[0;1;2]); (T 37,[0;3;4])] [1;3;2;4]) (2) 1);
  (*721*) Del (T 37);
  (*721*) Del (T 88);
  (*722*) AddTo n_t2new'abab (Times (Einsum [(n_t2'abab,[0;1;2;3]); (T 169,[4;1;3;5])] [0;4;2;5]) (-1) 1);
  (*723*) Del (T 169);
  (*724*) AddTo n_t2new'abab (Times (Einsum [(T 167,[0;1;2]); (T 12,[0;3;4])] [3;1;4;2]) (2) 1);
  (*725*) Del (T 12);
  (*725*) Del (T 167);
  (*726*) AddTo n_t2new'abab (Times (Einsum [(n_t1'aa,[0;1]); (T 2,[2;0;3;4])] [2;3;1;4]) (-1) 1);
  (*727*) AddTo n_t2new'abab (Times (Einsum [(T 170,[0;1;2;3]); (n_t2'abab,[1;4;5;2])] [0;4;5;3]) (-1) 1);
  (*728*) Del (T 170);
  (*729*) AddTo n_t2new'abab (Times (Einsum [(T 172,[0;1;2;3]); (n_t1'aa,[1;4])] [0;2;4;3]) (-1) 1);
  (*730*) Del (T 172);
  (*731*) AddTo n_t2new'abab (Times (Einsum [(T 173,[0;1;2;3]); (n_t1'aa,[0;4])] [1;2;4;3]) (-1) 1);
  (*732*) Del (T 173);
  (*733*) AddTo n_t2new'abab (Times (Einsum [(T 174,[0;1;2;3]); (n_t1'aa,[1;4])] [0;2;4;3]) (-1) 1);
  (*734*) Del (T 174);
  (*735*) Assign n_t2new'aaaa (Times (Einsum [(n_t2'aaaa,[0;1;2;3]); (T 30,[1;4])] [0;4;2;3]) (-1) 1);
  (*736*) AddTo n_t2new'aaaa (Times (Einsum [(T 49,[0;1;2;3]); (T 50,[0;2;4;5])] [1;3;5;4]) (1) 2);
  (*737*) Del (T 50);
  (*738*) AddTo n_t2new'aaaa (Times (Transpose (T 51) [0;1;3;2]) (-1) 1);
  (*739*) Del (T 51);
  (*740*) AddTo n_t2new'aaaa (Times (Transpose (T 54) [0;1;3;2]) (-1) 1);
  (*741*) AddTo n_t2new'aaaa (Times (Einsum [(n_t2'aaaa,[0;1;2;3]); (T 56,[4;3])] [0;1;2;4]) (-2) 1);
  (*742*) Del (T 56);
  (*743*) AddTo n_t2new'aaaa (Times (Transpose (T 54) [1;0;3;2]) (2) 1);
  (*744*) Del (T 54);
  (*745*) AddTo n_t2new'aaaa (Times (Einsum [(T 49,[0;1;2;3]); (T 57,[0;2;4;5])] [1;3;5;4]) (-1) 2);
  (*746*) Del (T 49);
  (*746*) Del (T 57);
  (*747*) AddTo n_t2new'aaaa (Times (Einsum [(T 62,[0;1]); (n_t2'aaaa,[2;3;4;0])] [2;3;1;4]) (2) 1);
  (*748*) Del (T 62);
  (*749*) AddTo n_t2new'aaaa (Plain (Copy (T 64)));
  (*750*) AddTo n_t2new'aaaa (Times (Einsum [(n_t2'aaaa,[0;1;2;3]); (T 66,[3;4])] [0;1;2;4]) (2) 1);
  (*751*) Del (T 66);
  (*752*) AddTo n_t2new'aaaa (Times (Transpose (T 64) [0;1;3;2]) (-1) 1);
  (*753*) AddTo n_t2new'aaaa (Plain (Transpose (T 68) [1;0;3;2]));
  (*754*) AddTo n_t2new'aaaa (Times (Transpose (T 70) [1;0;3;2]) (-2) 1);
  (*755*) AddTo n_t2new'aaaa (Plain (Transpose (T 72) [1;0;2;3]));
  (*756*) AddTo n_t2new'aaaa (Times (Transpose (T 72) [1;0;3;2]) (-1) 1);
  (*757*) AddTo n_t2new'aaaa (Times (Transpose (T 78) [0;1;3;2]) (-2) 1);
  (*758*) AddTo n_t2new'aaaa (Times (Transpose (T 68) [1;0;2;3]) (-1) 1);
  (*759*) AddTo n_t2new'aaaa (Times (Transpose (T 68) [0;1;3;2]) (-1) 1);
  (*760*) AddTo n_t2new'aaaa (Times (Transpose (T 70) [0;1;3;2]) (2) 1);
  (*761*) Del (T 70);
  (*762*) AddTo n_t2new'aaaa (Times (Copy (T 72)) (-1) 1);
  (*763*) AddTo n_t2new'aaaa (Plain (Transpose (T 72) [0;1;3;2]));
  (*764*) Del (T 72);
  (*765*) AddTo n_t2new'aaaa (Times (Transpose (T 78) [1;0;3;2]) (2) 1);
  (*766*) Del (T 78);
  (*767*) AddTo n_t2new'aaaa (Plain (Copy (T 68)));
  (*768*) Del (T 68);
  (*769*) AddTo n_t2new'aaaa (Times (Einsum [(T 83,[0;1;2;3]); (n_t2'aaaa,[4;1;5;3])] [4;0;2;5]) (2) 1);
  (*770*) Del (T 83);
  (*771*) AddTo n_t2new'aaaa (Plain (Copy (T 85)));
  (*772*) AddTo n_t2new'aaaa (Plain (Transpose (T 87) [0;1;3;2]));
  (*773*) AddTo n_t2new'aaaa (Times (Transpose (T 93) [1;0;3;2]) (-2) 1);
  (*774*) AddTo n_t2new'aaaa (Times (Transpose (T 85) [1;0;2;3]) (-1) 1);
  (*775*) Del (T 85);
  (*776*) AddTo n_t2new'aaaa (Plain (Transpose (T 94) [1;0;3;2]));
  (*777*) AddTo n_t2new'aaaa (Plain (Transpose (T 95) [0;1;3;2]));
  (*778*) AddTo n_t2new'aaaa (Times (Copy (T 96)) (2) 1);
  (*779*) AddTo n_t2new'aaaa (Times (Transpose (T 96) [1;0;3;2]) (2) 1);
  (*780*) AddTo n_t2new'aaaa (Times (Einsum [(T 100,[0;1;2;3]); (n_t2'aaaa,[4;1;5;3])] [0;4;2;5]) (-2) 1);
  (*781*) Del (T 100);
  (*782*) AddTo n_t2new'aaaa (Times (Einsum [(T 104,[0;1;2;3]); (n_t2'abab,[4;1;5;3])] [0;4;2;5]) (-1) 1);
  (*783*) Del (T 104);
  (*784*) AddTo n_t2new'aaaa (Times (Transpose (T 95) [1;0;3;2]) (-1) 1);
  (*785*) AddTo n_t2new'aaaa (Times (Transpose (T 96) [0;1;3;2]) (-2) 1);
  (*786*) AddTo n_t2new'aaaa (Times (Transpose (T 96) [1;0;2;3]) (-2) 1);
  (*787*) Del (T 96);
  (*788*) AddTo n_t2new'aaaa (Times (Einsum [(n_t2'aaaa,[0;1;2;3]); (T 106,[4;1;5;3])] [0;4;5;2]) (4) 1);
  (*789*) Del (T 106);
  (*790*) AddTo n_t2new'aaaa (Plain (Einsum [(n_t2'abab,[0;1;2;3]); (T 108,[4;1;5;3])] [0;4;5;2]));
  (*791*) Del (T 108);
  (*792*) AddTo n_t2new'aaaa (Plain (Transpose (T 110) [1;0;3;2]));
  (*793*) AddTo n_t2new'aaaa (Times (Copy (T 95)) (-1) 1);
  (*794*) AddTo n_t2new'aaaa (Times (Transpose (T 112) [1;0;2;3]) (2) 1);
  (*795*) AddTo n_t2new'aaaa (Times (Transpose (T 110) [0;1;3;2]) (-1) 1);
  (*796*) Del (T 110);
  (*797*) AddTo n_t2new'aaaa (Plain (Transpose (T 95) [1;0;2;3]));
  (*798*) Del (T 95);
  (*799*) AddTo n_t2new'aaaa (Times (Copy (T 112)) (-2) 1);
  (*800*) Del (T 112);
  (*801*) AddTo n_t2new'aaaa (Plain (Transpose (T 113) [0;1;3;2]));
  (*802*) AddTo n_t2new'aaaa (Times (Transpose (T 115) [0;1;3;2]) (-2) 1);
  (*803*) Del (T 115);
  (*804*) AddTo n_t2new'aaaa (Plain (Transpose (T 117) [0;1;3;2]));
  (*805*) AddTo n_t2new'aaaa (Times (Transpose (T 117) [1;0;3;2]) (-1) 1);
  (*806*) AddTo n_t2new'aaaa (Plain (Copy (T 119)));
  (*807*) AddTo n_t2new'aaaa (Times (Transpose (T 119) [0;1;3;2]) (-1) 1);
  (*808*) Del (T 119);
  (*809*) AddTo n_t2new'aaaa (Plain (Copy (T 120)));
  (*810*) AddTo n_t2new'aaaa (Times (Transpose (T 120) [0;1;3;2]) (-1) 1);
  (*811*) Del (T 120);
  (*812*) AddTo n_t2new'aaaa (Times (Transpose (T 113) [1;0;3;2]) (-1) 1);
  (*813*) Del (T 113);
  (*814*) AddTo n_t2new'aaaa (Times (Copy (T 122)) (2) 1);
  (*815*) Del (T 122);
  (*816*) AddTo n_t2new'aaaa (Times (Einsum [(T 124,[0;1;2;3]); (n_t2'aaaa,[4;5;0;1])] [4;5;3;2]) (2) 1);
  (*817*) Del (T 124);
  (*818*) AddTo n_t2new'aaaa (Times (Transpose (T 64) [1;0;2;3]) (-1) 1);
  (*819*) AddTo n_t2new'aaaa (Plain (Transpose (T 64) [1;0;3;2]));
  (*820*) Del (T 64);
  (*821*) AddTo n_t2new'aaaa (Plain (Transpose (T 125) [1;0;2;3]));
  (*822*) AddTo n_t2new'aaaa (Times (Copy (T 93)) (-2) 1);
  (*823*) AddTo n_t2new'aaaa (Times (Copy (T 87)) (-1) 1);
  (*824*) Del (T 87);
  (*825*) AddTo n_t2new'aaaa (Times (Copy (T 125)) (-1) 1);
  (*826*) Del (T 125);
  (*827*) AddTo n_t2new'aaaa (Times (Transpose (T 93) [1;0;2;3]) (2) 1);
  (*828*) Del (T 93);
  (*829*) AddTo n_t2new'aaaa (Times (Transpose (T 94) [1;0;2;3]) (-1) 1);
  (*830*) Del (T 94);
  (*831*) AddTo n_t2new'aaaa (Times (Einsum [(T 127,[0;1;2;3]); (n_t1'aa,[2;4])] [0;1;4;3]) (-2) 1);
  (*832*) Del (T 127);
  (*833*) AddTo n_t2new'aaaa (Times (Copy (T 117)) (-1) 1);
  (*834*) AddTo n_t2new'aaaa (Plain (Transpose (T 117) [1;0;2;3]));
  (*835*) Del (T 117);
  (*836*) Assign n_t1new'bb (Plain (Copy n_f'bb'ov));
  (*837*) AddTo n_t1new'bb (Times (Einsum [(T 31,[0;1;2;3]); (n_t2'abab,[0;2;3;4])] [1;4]) (-1) 1);
  (*838*) Del (T 31);
  (*839*) AddTo n_t1new'bb (Plain (Einsum [(n_f'bb'vv,[0;1]); (n_t1'bb,[2;1])] [2;0]));
  (*840*) AddTo n_t1new'bb (Times (Einsum [(n_t2'bbbb,[0;1;2;3]); (T 32,[4;1;0;3])] [4;2]) (-2) 1);
  (*841*) Del (T 32);
  (*842*) AddTo n_t1new'bb (Plain (Einsum [(T 35,[0;1;2]); (n_v'bbb'xvv,[0;3;2])] [1;3]));
  (*843*) Del (T 35);
  (*844*) AddTo n_t1new'bb (Plain (Copy (T 36)));
  (*845*) Del (T 36);
  (*846*) AddTo n_t1new'bb (Times (Einsum [(T 42,[0;1]); (n_t1'bb,[0;2])] [1;2]) (-2) 1);
  (*847*) Del (T 42);
  (*848*) AddTo n_t1new'bb (Times (Einsum [(T 43,[0;1;2;3]); (n_t2'bbbb,[1;2;4;3])] [0;4]) (-2) 1);
  (*849*) Del (T 43);
  (*850*) AddTo n_t1new'bb (Times (Einsum [(T 44,[0;1;2;3]); (n_t2'abab,[0;2;3;4])] [1;4]) (-1) 1);
  (*851*) Del (T 44);
  (*852*) AddTo n_t1new'bb (Times (Einsum [(n_v'bbb'xoo,[0;1;2]); (T 45,[0;2;3])] [1;3]) (-1) 1);
  (*853*) Del (T 45);
  (*854*) AddTo n_t1new'bb (Plain (Einsum [(n_t2'abab,[0;1;2;3]); (T 27,[0;2])] [1;3]));
  (*855*) AddTo n_t1new'bb (Times (Einsum [(n_t2'bbbb,[0;1;2;3]); (T 25,[1;3])] [0;2]) (2) 1);
  (*856*) AddTo n_t1new'bb (Times (Einsum [(T 48,[0;1]); (n_t1'bb,[0;2])] [1;2]) (-1) 1);
  (*857*) Del (T 48);
  (*858*) Assign n_t1new'aa (Plain (Copy n_f'aa'ov));
  (*859*) AddTo n_t1new'aa (Plain (Einsum [(n_t1'aa,[0;1]); (n_f'aa'vv,[2;1])] [0;2]));
  (*860*) AddTo n_t1new'aa (Times (Einsum [(n_t2'abab,[0;1;2;3]); (T 2,[4;0;1;3])] [4;2]) (-1) 1);
  (*861*) Del (T 2);
  (*862*) AddTo n_t1new'aa (Times (Einsum [(n_t2'aaaa,[0;1;2;3]); (T 3,[4;1;0;3])] [4;2]) (-2) 1);
  (*863*) Del (T 3);
  (*864*) AddTo n_t1new'aa (Plain (Einsum [(T 9,[0;1;2]); (n_v'baa'xvv,[0;3;2])] [1;3]));
  (*865*) Del (T 9);
  (*866*) AddTo n_t1new'aa (Plain (Copy (T 11)));
  (*867*) Del (T 11);
  (*868*) AddTo n_t1new'aa (Times (Einsum [(n_t1'aa,[0;1]); (T 18,[0;2])] [2;1]) (-2) 1);
  (*869*) Del (T 18);
  (*870*) AddTo n_t1new'aa (Times (Einsum [(n_t2'abab,[0;1;2;3]); (T 19,[4;0;1;3])] [4;2]) (-1) 1);
  (*871*) Del (T 19);
  (*872*) AddTo n_t1new'aa (Times (Einsum [(n_t2'aaaa,[0;1;2;3]); (T 20,[4;0;1;3])] [4;2]) (-2) 1);
  (*873*) Del (T 20);
  (*874*) AddTo n_t1new'aa (Times (Einsum [(T 21,[0;1;2]); (n_v'baa'xoo,[0;3;1])] [3;2]) (-1) 1);
  (*875*) Del (T 21);
  (*876*) AddTo n_t1new'aa (Plain (Einsum [(n_t2'abab,[0;1;2;3]); (T 25,[1;3])] [0;2]));
  (*877*) Del (T 25);
  (*878*) AddTo n_t1new'aa (Times (Einsum [(n_t2'aaaa,[0;1;2;3]); (T 27,[1;3])] [0;2]) (2) 1);
  (*879*) Del (T 27);
  (*880*) AddTo n_t1new'aa (Times (Einsum [(n_t1'aa,[0;1]); (T 30,[0;2])] [2;1]) (-1) 1);
  (*881*) Del (T 30)]
 [(n_t1new'bb,[6;7]); (n_t1new'aa,[4;5]); (n_t2new'bbbb,[6;6;7;7]); (n_t2new'abab,[4;6;5;7]); (n_t2new'aaaa,[4;4;5;5])].

(** ebcc/codegen/UDFCCSD.py:885-1772 [update_lams] *)
Definition UDFCCSD_update_lams : prog := mkprog
 [(n_v'baa'xov,[2;4;5]); (n_t1'aa,[4;5]); (n_v'bbb'xov,[2;6;7]); (n_t1'bb,[6;7]); (n_l2'abab,[5;7;4;6]); (n_t2'abab,[4;6;5;7]); (n_t2'bbbb,[6;6;7;7]); (n_l2'bbbb,[7;7;6;6]); (n_v'bbb'xvv,[2;7;7]); (n_t2'aaaa,[4;4;5;5]); (n_v'baa'xvv,[2;5;5]); (n_l2'aaaa,[5;5;4;4]); (n_l1'bb,[7;6]); (n_l1'aa,[5;4]); (n_f'bb'ov,[6;7]); (n_f'aa'ov,[4;5]); (n_v'bbb'xoo,[2;6;6]); (n_v'baa'xoo,[2;4;4]); (n_f'bb'vv,[7;7]); (n_f'bb'oo,[6;6]); (n_f'aa'vv,[5;5]); (n_f'aa'oo,[4;4])]
 [(*914*) Assign (T 13) (Plain (Einsum [(n_v'baa'xov,[0;1;2]); (n_t1'aa,[1;2])] [0]));
  (*915*) Assign (T 14) (Plain (Einsum [(n_v'bbb'xov,[0;1;2]); (n_t1'bb,[1;2])] [0]));
  (*916*) Assign (T 5) (Plain (Einsum [(n_v'bbb'xov,[0;1;2]); (n_t1'bb,[3;2])] [0;3;1]));
  (*917*) Assign (T 15) (Plain (Copy (T 13)));
  (*918*) AddTo (T 15) (Plain (Copy (T 14)));
  (*919*) Assign (T 2) (Plain (Einsum [(n_v'baa'xov,[0;1;2]); (n_t1'aa,[3;2])] [0;3;1]));
  (*920*) Assign (T 44) (Plain (Einsum [(n_l2'abab,[0;1;2;3]); (n_t2'abab,[2;3;0;4])] [1;4]));
  (*921*) Assign (T 45) (Plain (Einsum [(n_t2'bbbb,[0;1;2;3]); (n_l2'bbbb,[4;3;0;1])] [4;2]));
  (*922*) Assign (T 9) (Plain (Einsum [(n_t2'abab,[0;1;2;3]); (n_v'baa'xov,[4;0;2])] [4;1;3]));
  (*923*) Assign (T 10) (Plain (Einsum [(n_v'bbb'xov,[0;1;2]); (n_t2'bbbb,[3;1;4;2])] [0;3;4]));
  (*924*) Assign (T 8) (Plain (Einsum [(n_v'bbb'xvv,[0;1;2]); (n_t1'bb,[3;2])] [0;3;1]));
  (*925*) Assign (T 26) (Plain (Einsum [(n_t2'abab,[0;1;2;3]); (n_v'bbb'xov,[4;1;3])] [4;0;2]));
  (*926*) Assign (T 25) (Plain (Einsum [(n_v'baa'xov,[0;1;2]); (n_t2'aaaa,[3;1;4;2])] [0;3;4]));
  (*927*) Assign (T 28) (Plain (Einsum [(n_v'baa'xvv,[0;1;2]); (n_t1'aa,[3;2])] [0;3;1]));
  (*928*) Assign (T 104) (Plain (Einsum [(n_v'bbb'xov,[0;1;2]); (T 5,[0;1;3])] [3;2]));
  (*929*) Assign (T 105) (Plain (Einsum [(n_v'bbb'xov,[0;1;2]); (T 15,[0])] [1;2]));
  (*930*) Assign (T 16) (Plain (Einsum [(n_v'baa'xov,[0;1;2]); (T 15,[0])] [1;2]));
  (*931*) Assign (T 12) (Plain (Einsum [(n_v'baa'xov,[0;1;2]); (T 2,[0;1;3])] [3;2]));
  (*932*) Assign (T 36) (Plain (Einsum [(n_t2'aaaa,[0;1;2;3]); (n_l2'aaaa,[4;3;0;1])] [4;2]));
  (*933*) Assign (T 37) (Plain (Einsum [(n_l2'abab,[0;1;2;3]); (n_t2'abab,[2;3;4;1])] [0;4]));
  (*934*) Assign (T 65) (Plain (Einsum [(n_l1'bb,[0;1]); (n_t1'bb,[2;0])] [1;2]));
  (*935*) Assign (T 67) (Plain (Einsum [(n_t2'bbbb,[0;1;2;3]); (n_l2'bbbb,[2;3;4;1])] [4;0]));
  (*936*) Assign (T 66) (Plain (Einsum [(n_l2'abab,[0;1;2;3]); (n_t2'abab,[2;4;0;1])] [3;4]));
  (*937*) Assign (T 55) (Plain (Einsum [(n_l2'abab,[0;1;2;3]); (n_t2'abab,[4;3;0;1])] [2;4]));
  (*938*) Assign (T 54) (Plain (Einsum [(n_t2'aaaa,[0;1;2;3]); (n_l2'aaaa,[2;3;4;1])] [4;0]));
  (*939*) Assign (T 53) (Plain (Einsum [(n_t1'aa,[0;1]); (n_l1'aa,[1;2])] [2;0]));
  (*940*) Assign (T 119) (Plain (Copy (T 44)));
  (*941*) AddTo (T 119) (Times (Copy (T 45)) (2) 1);
  (*942*) Assign (T 207) (Plain (Copy (T 8)));
  (*943*) AddTo (T 207) (Plain (Copy (T 9)));
  (*944*) AddTo (T 207) (Times (Copy (T 10)) (2) 1);
  (*945*) Assign (T 162) (Plain (Copy n_v'bbb'xov));
  (*946*) AddTo (T 162) (Plain (Copy (T 8)));
  (*947*) AddTo (T 162) (Plain (Copy (T 9)));
  (*948*) AddTo (T 162) (Times (Copy (T 10)) (2) 1);
  (*949*) Assign (T 51) (Plain (Einsum [(n_l2'abab,[0;1;2;3]); (n_t1'aa,[4;0])] [2;4;3;1]));
  (*950*) Assign (T 63) (Plain (Einsum [(n_t1'bb,[0;1]); (n_l2'bbbb,[2;1;3;4])] [3;4;0;2]));
  (*951*) Assign (T 160) (Plain (Copy n_v'baa'xov));
  (*952*) AddTo (T 160) (Plain (Copy (T 28)));
  (*953*) AddTo (T 160) (Times (Copy (T 25)) (2) 1);
  (*954*) AddTo (T 160) (Plain (Copy (T 26)));
  (*955*) Assign (T 99) (Plain (Copy (T 13)));
  (*956*) Del (T 13);
  (*957*) AddTo (T 99) (Plain (Copy (T 14)));
  (*958*) Del (T 14);
  (*959*) Assign (T 106) (Plain (Copy n_f'bb'ov));
  (*960*) AddTo (T 106) (Times (Copy (T 104)) (-1) 1);
  (*961*) AddTo (T 106) (Plain (Copy (T 105)));
  (*962*) Assign (T 124) (Times (Copy (T 9)) (1) 2);
  (*963*) AddTo (T 124) (Plain (Copy (T 10)));
  (*964*) Assign (T 61) (Plain (Einsum [(n_l2'abab,[0;1;2;3]); (n_t1'bb,[4;1])] [2;3;4;0]));
  (*965*) Assign (T 173) (Times (Copy (T 28)) (1) 2);
  (*966*) AddTo (T 173) (Plain (Copy (T 25)));
  (*967*) AddTo (T 173) (Times (Copy (T 26)) (1) 2);
  (*968*) Assign (T 75) (Times (Copy (T 25)) (2) 1);
  (*969*) AddTo (T 75) (Plain (Copy (T 26)));
  (*970*) Assign (T 17) (Plain (Copy n_f'aa'ov));
  (*971*) AddTo (T 17) (Times (Copy (T 12)) (-1) 1);
  (*972*) AddTo (T 17) (Plain (Copy (T 16)));
  (*973*) Assign (T 49) (Plain (Einsum [(n_t1'aa,[0;1]); (n_l2'aaaa,[2;1;3;4])] [3;4;0;2]));
  (*974*) Assign (T 38) (Plain (Copy (T 36)));
  (*975*) AddTo (T 38) (Times (Copy (T 37)) (1) 2);
  (*976*) Assign (T 68) (Plain (Copy (T 65)));
  (*977*) AddTo (T 68) (Plain (Copy (T 66)));
  (*978*) AddTo (T 68) (Times (Copy (T 67)) (2) 1);
  (*979*) Assign (T 56) (Times (Copy (T 53)) (1) 2);
  (*980*) AddTo (T 56) (Plain (Copy (T 54)));
  (*981*) AddTo (T 56) (Times (Copy (T 55)) (1) 2);
  (*982*) Assign (T 18) (Plain (Einsum [(n_v'bbb'xov,[0;1;2]); (n_v'baa'xov,[0;3;4])] [3;1;4;2]));
  (*983*) Assign (T 113) (Plain (Einsum [(n_v'bbb'xov,[0;1;2]); (n_v'bbb'xov,[0;3;4])] [1;3;2;4]));
  (*984*) Assign (T 30) (Plain (Einsum [(n_v'baa'xov,[0;1;2]); (n_v'baa'xov,[0;3;4])] [3;1;4;2]));
  (*985*) Assign (T 120) (Plain (Einsum [(n_v'bbb'xov,[0;1;2]); (T 119,[3;2])] [0;1;3]));
  (*986*) Assign (T 198) (Plain (Copy n_v'bbb'xoo));
  (*987*) AddTo (T 198) (Plain (Transpose (T 5) [0;2;1]));
  (*988*) Assign (T 209) (Plain (Einsum [(n_v'bbb'xvv,[0;1;2]); (T 15,[0])] [1;2]));
  (*989*) Assign (T 208) (Plain (Einsum [(n_v'bbb'xov,[0;1;2]); (T 207,[0;1;3])] [3;2]));
  (*990*) Del (T 207);
  (*991*) Assign (T 195) (Plain (Einsum [(n_l2'bbbb,[0;1;2;3]); (T 162,[4;3;1])] [4;2;0]));
  (*992*) Assign (T 131) (Plain (Einsum [(T 51,[0;1;2;3]); (T 2,[4;0;1])] [4;2;3]));
  (*993*) Assign (T 132) (Plain (Einsum [(T 63,[0;1;2;3]); (T 5,[4;1;2])] [4;0;3]));
  (*994*) Assign (T 129) (Plain (Einsum [(T 51,[0;1;2;3]); (n_v'baa'xoo,[4;1;0])] [4;2;3]));
  (*995*) Assign (T 130) (Times (Einsum [(T 63,[0;1;2;3]); (n_v'bbb'xoo,[4;2;0])] [4;1;3]) (-1) 1);
  (*996*) Assign (T 194) (Plain (Einsum [(n_l2'abab,[0;1;2;3]); (T 160,[4;2;0])] [4;3;1]));
  (*997*) Assign (T 193) (Plain (Einsum [(n_l1'bb,[0;1]); (n_v'bbb'xvv,[2;3;0])] [2;1;3]));
  (*998*) Assign (T 142) (Plain (Einsum [(n_t1'bb,[0;1]); (T 63,[2;3;4;1])] [2;3;0;4]));
  (*999*) Assign (T 141) (Plain (Einsum [(n_l2'bbbb,[0;1;2;3]); (n_t2'bbbb,[4;5;0;1])] [2;3;4;5]));
  (*1000*) Assign (T 200) (Plain (Einsum [(T 99,[0]); (n_v'bbb'xov,[0;1;2])] [1;2]));
  (*1001*) Assign (T 136) (Plain (Einsum [(n_l2'bbbb,[0;1;2;3]); (n_t2'bbbb,[4;3;5;1])] [2;4;0;5]));
  (*1002*) Assign (T 135) (Plain (Einsum [(n_l2'abab,[0;1;2;3]); (n_t2'abab,[2;4;0;5])] [3;4;1;5]));
  (*1003*) Assign (T 127) (Plain (Einsum [(T 106,[0;1]); (n_t1'bb,[2;1])] [0;2]));
  (*1004*) Assign (T 125) (Times (Einsum [(n_v'bbb'xov,[0;1;2]); (T 124,[0;3;2])] [3;1]) (2) 1);
  (*1005*) Del (T 124);
  (*1006*) Assign (T 126) (Plain (Einsum [(n_v'bbb'xoo,[0;1;2]); (T 15,[0])] [1;2]));
  (*1007*) Assign (T 123) (Plain (Einsum [(T 5,[0;1;2]); (n_v'bbb'xoo,[0;3;1])] [3;2]));
  (*1008*) Assign (T 87) (Plain (Einsum [(T 61,[0;1;2;3]); (n_t1'aa,[4;3])] [0;4;1;2]));
  (*1009*) Assign (T 96) (Plain (Einsum [(n_l2'abab,[0;1;2;3]); (n_t2'abab,[4;5;0;1])] [2;4;3;5]));
  (*1010*) Assign (T 150) (Plain (Copy n_v'baa'xoo));
  (*1011*) AddTo (T 150) (Plain (Transpose (T 2) [0;2;1]));
  (*1012*) Assign (T 174) (Plain (Einsum [(T 173,[0;1;2]); (n_v'baa'xov,[0;1;3])] [2;3]));
  (*1013*) Assign (T 175) (Times (Einsum [(n_v'baa'xvv,[0;1;2]); (T 15,[0])] [1;2]) (1) 2);
  (*1014*) Assign (T 166) (Plain (Einsum [(T 99,[0]); (n_v'baa'xov,[0;1;2])] [1;2]));
  (*1015*) Assign (T 74) (Plain (Einsum [(n_v'baa'xoo,[0;1;2]); (T 2,[0;2;3])] [1;3]));
  (*1016*) Assign (T 76) (Plain (Einsum [(T 75,[0;1;2]); (n_v'baa'xov,[0;3;2])] [3;1]));
  (*1017*) Assign (T 78) (Plain (Einsum [(T 17,[0;1]); (n_t1'aa,[2;1])] [2;0]));
  (*1018*) Assign (T 77) (Plain (Einsum [(n_v'baa'xoo,[0;1;2]); (T 15,[0])] [1;2]));
  (*1019*) Assign (T 82) (Times (Einsum [(T 49,[0;1;2;3]); (T 2,[4;0;2])] [4;1;3]) (-1) 1);
  (*1020*) Assign (T 161) (Plain (Einsum [(T 160,[0;1;2]); (n_l2'aaaa,[3;2;4;1])] [0;4;3]));
  (*1021*) Del (T 160);
  (*1022*) Assign (T 163) (Plain (Einsum [(n_l2'abab,[0;1;2;3]); (T 162,[4;3;1])] [4;2;0]));
  (*1023*) Del (T 162);
  (*1024*) Assign (T 154) (Plain (Einsum [(n_v'baa'xvv,[0;1;2]); (n_l1'aa,[2;3])] [0;3;1]));
  (*1025*) Assign (T 83) (Plain (Einsum [(T 61,[0;1;2;3]); (T 5,[4;1;2])] [4;0;3]));
  (*1026*) Assign (T 81) (Plain (Einsum [(n_v'bbb'xoo,[0;1;2]); (T 61,[3;2;1;4])] [0;3;4]));
  (*1027*) Assign (T 80) (Times (Einsum [(n_v'baa'xoo,[0;1;2]); (T 49,[2;3;1;4])] [0;3;4]) (-1) 1);
  (*1028*) Assign (T 89) (Plain (Einsum [(n_t2'aaaa,[0;1;2;3]); (n_l2'aaaa,[4;3;5;1])] [5;0;4;2]));
  (*1029*) Assign (T 90) (Plain (Einsum [(n_l2'abab,[0;1;2;3]); (n_t2'abab,[4;3;5;1])] [2;4;0;5]));
  (*1030*) Assign (T 147) (Times (Einsum [(T 38,[0;1]); (n_v'baa'xov,[2;3;1])] [2;3;0]) (2) 1);
  (*1031*) Assign (T 94) (Plain (Einsum [(n_t2'aaaa,[0;1;2;3]); (n_l2'aaaa,[2;3;4;5])] [4;5;0;1]));
  (*1032*) Assign (T 86) (Plain (Einsum [(T 49,[0;1;2;3]); (n_t1'aa,[4;3])] [1;0;2;4]));
  (*1033*) Assign (T 62) (Plain (Einsum [(T 61,[0;1;2;3]); (n_t2'abab,[0;1;3;4])] [2;4]));
  (*1034*) Assign (T 69) (Plain (Einsum [(T 68,[0;1]); (n_t1'bb,[0;2])] [1;2]));
  (*1035*) Assign (T 60) (Plain (Einsum [(n_l1'bb,[0;1]); (n_t2'bbbb,[2;1;3;0])] [2;3]));
  (*1036*) Assign (T 64) (Plain (Einsum [(T 63,[0;1;2;3]); (n_t2'bbbb,[1;0;4;3])] [2;4]));
  (*1037*) Assign (T 59) (Plain (Einsum [(n_t2'abab,[0;1;2;3]); (n_l1'aa,[2;0])] [1;3]));
  (*1038*) Assign (T 41) (Plain (Einsum [(n_t1'aa,[0;1]); (n_l1'aa,[2;0])] [2;1]));
  (*1039*) Assign (T 43) (Plain (Einsum [(n_l1'bb,[0;1]); (n_t1'bb,[1;2])] [0;2]));
  (*1040*) Assign (T 47) (Plain (Einsum [(n_l1'aa,[0;1]); (n_t2'aaaa,[2;1;3;0])] [2;3]));
  (*1041*) Assign (T 52) (Plain (Einsum [(T 51,[0;1;2;3]); (n_t2'abab,[0;2;4;3])] [1;4]));
  (*1042*) Assign (T 48) (Plain (Einsum [(n_t2'abab,[0;1;2;3]); (n_l1'bb,[3;1])] [0;2]));
  (*1043*) Assign (T 50) (Plain (Einsum [(n_t2'aaaa,[0;1;2;3]); (T 49,[1;0;4;3])] [4;2]));
  (*1044*) Assign (T 57) (Plain (Einsum [(n_t1'aa,[0;1]); (T 56,[0;2])] [2;1]));
  (*1045*) Assign (T 95) (Plain (Copy n_v'bbb'xoo));
  (*1046*) AddTo (T 95) (Plain (Transpose (T 5) [0;2;1]));
  (*1047*) Assign (T 19) (Plain (Einsum [(n_t2'abab,[0;1;2;3]); (T 18,[4;5;2;3])] [0;4;1;5]));
  (*1048*) Assign (T 3) (Plain (Copy n_v'baa'xoo));
  (*1049*) AddTo (T 3) (Plain (Copy (T 2)));
  (*1050*) Assign (T 6) (Plain (Copy n_v'bbb'xoo));
  (*1051*) AddTo (T 6) (Plain (Copy (T 5)));
  (*1052*) Assign (T 112) (Plain (Einsum [(n_v'bbb'xoo,[0;1;2]); (n_v'bbb'xoo,[0;3;4])] [1;3;4;2]));
  (*1053*) Assign (T 114) (Times (Einsum [(T 113,[0;1;2;3]); (n_t2'bbbb,[4;5;2;3])] [4;5;1;0]) (-1) 1);
  (*1054*) Assign (T 116) (Plain (Einsum [(n_v'bbb'xoo,[0;1;2]); (T 5,[0;3;4])] [3;1;2;4]));
  (*1055*) Assign (T 115) (Plain (Einsum [(T 5,[0;1;2]); (T 5,[0;3;4])] [1;3;2;4]));
  (*1056*) Assign (T 20) (Plain (Copy n_v'baa'xoo));
  (*1057*) AddTo (T 20) (Plain (Transpose (T 2) [0;2;1]));
  (*1058*) Assign (T 32) (Plain (Einsum [(T 2,[0;1;2]); (T 2,[0;3;4])] [3;1;4;2]));
  (*1059*) Assign (T 31) (Times (Einsum [(n_t2'aaaa,[0;1;2;3]); (T 30,[4;5;2;3])] [0;1;5;4]) (-1) 1);
  (*1060*) Assign (T 33) (Plain (Einsum [(T 2,[0;1;2]); (n_v'baa'xoo,[0;3;4])] [1;3;4;2]));
  (*1061*) Assign (T 29) (Plain (Einsum [(n_v'baa'xoo,[0;1;2]); (n_v'baa'xoo,[0;3;4])] [3;1;2;4]));
  (*1062*) Assign (T 191) (Plain (Copy n_v'bbb'xov));
  (*1063*) AddTo (T 191) (Times (Copy (T 120)) (-1) 1);
  (*1064*) Assign (T 221) (Plain (Einsum [(T 198,[0;1;2]); (n_v'bbb'xov,[0;3;4])] [1;2;3;4]));
  (*1065*) Assign (T 210) (Times (Copy n_f'bb'vv) (-1) 1);
  (*1066*) AddTo (T 210) (Plain (Copy (T 208)));
  (*1067*) Del (T 208);
  (*1068*) AddTo (T 210) (Times (Transpose (T 209) [1;0]) (-1) 1);
  (*1069*) Del (T 209);
  (*1070*) Assign (T 196) (Plain (Copy (T 193)));
  (*1071*) AddTo (T 196) (Times (Copy (T 129)) (-1) 1);
  (*1072*) AddTo (T 196) (Times (Copy (T 130)) (-2) 1);
  (*1073*) AddTo (T 196) (Times (Copy (T 131)) (-1) 1);
  (*1074*) AddTo (T 196) (Times (Copy (T 132)) (-2) 1);
  (*1075*) AddTo (T 196) (Plain (Copy (T 194)));
  (*1076*) Del (T 194);
  (*1077*) AddTo (T 196) (Times (Copy (T 195)) (2) 1);
  (*1078*) Del (T 195);
  (*1079*) Assign (T 143) (Plain (Transpose (T 141) [1;0;3;2]));
  (*1080*) Del (T 141);
  (*1081*) AddTo (T 143) (Times (Transpose (T 142) [0;1;3;2]) (-1) 1);
  (*1082*) Del (T 142);
  (*1083*) Assign (T 211) (Plain (Copy n_f'bb'ov));
  (*1084*) AddTo (T 211) (Times (Copy (T 104)) (-1) 1);
  (*1085*) AddTo (T 211) (Plain (Copy (T 200)));
  (*1086*) Assign (T 84) (Plain (Copy n_v'baa'xov));
  (*1087*) AddTo (T 84) (Plain (Copy (T 28)));
  (*1088*) AddTo (T 84) (Times (Copy (T 25)) (2) 1);
  (*1089*) AddTo (T 84) (Plain (Copy (T 26)));
  (*1090*) Assign (T 11) (Plain (Copy n_v'bbb'xov));
  (*1091*) AddTo (T 11) (Plain (Copy (T 8)));
  (*1092*) AddTo (T 11) (Plain (Copy (T 9)));
  (*1093*) AddTo (T 11) (Times (Copy (T 10)) (2) 1);
  (*1094*) Assign (T 240) (Plain (Copy (T 135)));
  (*1095*) AddTo (T 240) (Times (Copy (T 136)) (4) 1);
  (*1096*) Assign (T 218) (Plain (Einsum [(n_v'bbb'xoo,[0;1;2]); (n_v'bbb'xov,[0;3;4])] [1;2;3;4]));
  (*1097*) Assign (T 109) (Plain (Einsum [(n_v'bbb'xov,[0;1;2]); (n_v'bbb'xvv,[0;3;4])] [1;3;4;2]));
  (*1098*) Assign (T 217) (Plain (Einsum [(n_v'bbb'xov,[0;1;2]); (T 5,[0;3;4])] [3;1;4;2]));
  (*1099*) Assign (T 229) (Plain (Einsum [(n_v'bbb'xvv,[0;1;2]); (n_v'bbb'xvv,[0;3;4])] [3;1;2;4]));
  (*1100*) Assign (T 199) (Plain (Einsum [(T 198,[0;1;2]); (n_v'bbb'xvv,[0;3;4])] [1;2;3;4]));
  (*1101*) Assign (T 128) (Plain (Copy n_f'bb'oo));
  (*1102*) AddTo (T 128) (Times (Copy (T 123)) (-1) 1);
  (*1103*) Del (T 123);
  (*1104*) AddTo (T 128) (Plain (Copy (T 125)));
  (*1105*) Del (T 125);
  (*1106*) AddTo (T 128) (Plain (Transpose (T 126) [1;0]));
  (*1107*) Del (T 126);
  (*1108*) AddTo (T 128) (Plain (Transpose (T 127) [1;0]));
  (*1109*) Del (T 127);
  (*1110*) Assign (T 215) (Plain (Einsum [(n_v'bbb'xov,[0;1;2]); (T 68,[3;1])] [0;3;2]));
  (*1111*) Assign (T 140) (Plain (Copy (T 96)));
  (*1112*) AddTo (T 140) (Plain (Copy (T 87)));
  (*1113*) Assign (T 203) (Plain (Einsum [(n_v'baa'xvv,[0;1;2]); (n_v'bbb'xvv,[0;3;4])] [1;2;3;4]));
  (*1114*) Assign (T 151) (Plain (Einsum [(T 150,[0;1;2]); (n_v'baa'xov,[0;3;4])] [1;2;3;4]));
  (*1115*) Assign (T 189) (Times (Einsum [(n_v'baa'xov,[0;1;2]); (T 56,[3;1])] [0;3;2]) (2) 1);
  (*1116*) Assign (T 183) (Plain (Einsum [(n_v'baa'xoo,[0;1;2]); (n_v'baa'xov,[0;3;4])] [1;2;3;4]));
  (*1117*) Assign (T 176) (Times (Copy n_f'aa'vv) (-1) 2);
  (*1118*) AddTo (T 176) (Plain (Copy (T 174)));
  (*1119*) Del (T 174);
  (*1120*) AddTo (T 176) (Times (Transpose (T 175) [1;0]) (-1) 1);
  (*1121*) Del (T 175);
  (*1122*) Assign (T 178) (Plain (Copy n_f'aa'ov));
  (*1123*) AddTo (T 178) (Times (Copy (T 12)) (-1) 1);
  (*1124*) AddTo (T 178) (Plain (Copy (T 166)));
  (*1125*) Assign (T 39) (Plain (Einsum [(T 38,[0;1]); (n_v'baa'xov,[2;3;1])] [2;3;0]));
  (*1126*) Del (T 38);
  (*1127*) Assign (T 168) (Plain (Einsum [(n_v'baa'xvv,[0;1;2]); (n_v'baa'xvv,[0;3;4])] [3;1;2;4]));
  (*1128*) Assign (T 79) (Plain (Copy n_f'aa'oo));
  (*1129*) AddTo (T 79) (Times (Copy (T 74)) (-1) 1);
  (*1130*) AddTo (T 79) (Plain (Transpose (T 76) [1;0]));
  (*1131*) Del (T 76);
  (*1132*) AddTo (T 79) (Plain (Transpose (T 77) [1;0]));
  (*1133*) Del (T 77);
  (*1134*) AddTo (T 79) (Plain (Copy (T 78)));
  (*1135*) Del (T 78);
  (*1136*) Assign (T 164) (Plain (Copy (T 154)));
  (*1137*) AddTo (T 164) (Times (Copy (T 80)) (-2) 1);
  (*1138*) AddTo (T 164) (Times (Copy (T 81)) (-1) 1);
  (*1139*) AddTo (T 164) (Times (Copy (T 82)) (-2) 1);
  (*1140*) AddTo (T 164) (Times (Copy (T 83)) (-1) 1);
  (*1141*) AddTo (T 164) (Times (Copy (T 161)) (2) 1);
  (*1142*) Del (T 161);
  (*1143*) AddTo (T 164) (Plain (Copy (T 163)));
  (*1144*) Del (T 163);
  (*1145*) Assign (T 187) (Times (Copy (T 89)) (4) 1);
  (*1146*) AddTo (T 187) (Plain (Copy (T 90)));
  (*1147*) Assign (T 148) (Plain (Copy n_v'baa'xov));
  (*1148*) AddTo (T 148) (Times (Copy (T 147)) (-1) 1);
  (*1149*) Del (T 147);
  (*1150*) Assign (T 171) (Plain (Transpose (T 94) [1;0;3;2]));
  (*1151*) AddTo (T 171) (Times (Transpose (T 86) [0;1;3;2]) (-1) 1);
  (*1152*) Assign (T 23) (Plain (Einsum [(n_v'baa'xvv,[0;1;2]); (n_v'baa'xov,[0;3;4])] [3;1;2;4]));
  (*1153*) Assign (T 158) (Plain (Einsum [(n_v'baa'xvv,[0;1;2]); (T 150,[0;3;4])] [3;4;1;2]));
  (*1154*) Assign (T 185) (Plain (Einsum [(n_v'baa'xov,[0;1;2]); (T 2,[0;3;4])] [3;1;4;2]));
  (*1155*) Assign (T 144) (Times (Copy n_t1'bb) (-1) 1);
  (*1156*) AddTo (T 144) (Times (Copy (T 59)) (-1) 1);
  (*1157*) AddTo (T 144) (Times (Copy (T 60)) (-2) 1);
  (*1158*) AddTo (T 144) (Plain (Copy (T 62)));
  (*1159*) AddTo (T 144) (Times (Copy (T 64)) (2) 1);
  (*1160*) AddTo (T 144) (Plain (Copy (T 69)));
  (*1161*) Assign (T 138) (Times (Einsum [(n_l1'bb,[0;1]); (n_t2'bbbb,[2;3;4;0])] [1;2;3;4]) (-1) 1);
  (*1162*) AddTo (T 138) (Times (Einsum [(n_t2'abab,[0;1;2;3]); (T 61,[0;4;5;2])] [4;5;1;3]) (1) 2);
  (*1163*) AddTo (T 138) (Times (Einsum [(n_t2'bbbb,[0;1;2;3]); (T 63,[4;1;5;3])] [4;5;0;2]) (-2) 1);
  (*1164*) Assign (T 139) (Plain (Einsum [(n_t2'abab,[0;1;2;3]); (n_l1'bb,[3;4])] [0;4;1;2]));
  (*1165*) AddTo (T 139) (Times (Einsum [(T 51,[0;1;2;3]); (n_t2'abab,[0;4;5;3])] [1;2;4;5]) (-1) 1);
  (*1166*) Assign (T 137) (Plain (Copy (T 135)));
  (*1167*) Del (T 135);
  (*1168*) AddTo (T 137) (Times (Transpose (T 136) [0;1;3;2]) (4) 1);
  (*1169*) Del (T 136);
  (*1170*) Assign (T 134) (Plain (Einsum [(n_l2'abab,[0;1;2;3]); (n_t2'abab,[2;4;5;1])] [3;4;0;5]));
  (*1171*) Assign (T 42) (Times (Copy (T 41)) (1) 2);
  (*1172*) Del (T 41);
  (*1173*) AddTo (T 42) (Plain (Copy (T 36)));
  (*1174*) Del (T 36);
  (*1175*) AddTo (T 42) (Times (Transpose (T 37) [1;0]) (1) 2);
  (*1176*) Del (T 37);
  (*1177*) Assign (T 71) (Times (Copy (T 53)) (1) 2);
  (*1178*) Del (T 53);
  (*1179*) AddTo (T 71) (Plain (Transpose (T 54) [1;0]));
  (*1180*) Del (T 54);
  (*1181*) AddTo (T 71) (Times (Copy (T 55)) (1) 2);
  (*1182*) Del (T 55);
  (*1183*) Assign (T 70) (Times (Transpose n_l1'bb [1;0]) (-1) 1);
  (*1184*) AddTo (T 70) (Times (Copy n_t1'bb) (-1) 1);
  (*1185*) AddTo (T 70) (Times (Copy (T 59)) (-1) 1);
  (*1186*) Del (T 59);
  (*1187*) AddTo (T 70) (Times (Copy (T 60)) (-2) 1);
  (*1188*) Del (T 60);
  (*1189*) AddTo (T 70) (Plain (Copy (T 62)));
  (*1190*) Del (T 62);
  (*1191*) AddTo (T 70) (Times (Copy (T 64)) (2) 1);
  (*1192*) Del (T 64);
  (*1193*) AddTo (T 70) (Plain (Copy (T 69)));
  (*1194*) Del (T 69);
  (*1195*) Assign (T 72) (Plain (Copy (T 65)));
  (*1196*) Del (T 65);
  (*1197*) AddTo (T 72) (Plain (Copy (T 66)));
  (*1198*) Del (T 66);
  (*1199*) AddTo (T 72) (Times (Transpose (T 67) [1;0]) (2) 1);
  (*1200*) Del (T 67);
  (*1201*) Assign (T 46) (Plain (Copy (T 43)));
  (*1202*) Del (T 43);
  (*1203*) AddTo (T 46) (Plain (Copy (T 44)));
  (*1204*) Del (T 44);
  (*1205*) AddTo (T 46) (Times (Transpose (T 45) [1;0]) (2) 1);
  (*1206*) Del (T 45);
  (*1207*) Assign (T 58) (Times (Transpose n_l1'aa [1;0]) (-1) 2);
  (*1208*) AddTo (T 58) (Times (Copy n_t1'aa) (-1) 2);
  (*1209*) AddTo (T 58) (Times (Copy (T 47)) (-1) 1);
  (*1210*) AddTo (T 58) (Times (Copy (T 48)) (-1) 2);
  (*1211*) AddTo (T 58) (Plain (Copy (T 50)));
  (*1212*) AddTo (T 58) (Times (Copy (T 52)) (1) 2);
  (*1213*) AddTo (T 58) (Plain (Copy (T 57)));
  (*1214*) Assign (T 107) (Plain (Transpose (T 19) [1;0;2;3]));
  (*1215*) AddTo (T 107) (Plain (Einsum [(T 95,[0;1;2]); (T 3,[0;3;4])] [4;3;2;1]));
  (*1216*) Assign (T 101) (Plain (Einsum [(n_v'baa'xvv,[0;1;2]); (n_v'bbb'xov,[0;3;4])] [3;1;2;4]));
  (*1217*) Assign (T 102) (Plain (Einsum [(n_v'bbb'xov,[0;1;2]); (T 3,[0;3;4])] [4;3;1;2]));
  (*1218*) Assign (T 103) (Plain (Einsum [(T 6,[0;1;2]); (n_v'bbb'xov,[0;3;4])] [2;1;3;4]));
  (*1219*) Assign (T 117) (Plain (Transpose (T 112) [3;2;1;0]));
  (*1220*) AddTo (T 117) (Plain (Transpose (T 114) [2;3;1;0]));
  (*1221*) AddTo (T 117) (Plain (Transpose (T 115) [2;3;1;0]));
  (*1222*) AddTo (T 117) (Plain (Transpose (T 116) [1;3;0;2]));
  (*1223*) AddTo (T 117) (Times (Transpose (T 116) [3;2;0;1]) (-1) 1);
  (*1224*) Assign (T 110) (Plain (Einsum [(T 95,[0;1;2]); (n_v'bbb'xov,[0;3;4])] [1;2;3;4]));
  (*1225*) Assign (T 111) (Plain (Copy n_v'bbb'xov));
  (*1226*) AddTo (T 111) (Plain (Copy (T 9)));
  (*1227*) Del (T 9);
  (*1228*) AddTo (T 111) (Times (Copy (T 10)) (2) 1);
  (*1229*) Del (T 10);
  (*1230*) Assign (T 1) (Plain (Einsum [(n_v'bbb'xvv,[0;1;2]); (n_v'baa'xov,[0;3;4])] [3;4;1;2]));
  (*1231*) Assign (T 7) (Plain (Einsum [(T 6,[0;1;2]); (n_v'baa'xov,[0;3;4])] [3;2;1;4]));
  (*1232*) Assign (T 21) (Plain (Transpose (T 19) [0;1;3;2]));
  (*1233*) AddTo (T 21) (Plain (Einsum [(T 20,[0;1;2]); (T 6,[0;3;4])] [2;1;4;3]));
  (*1234*) Assign (T 4) (Plain (Einsum [(T 3,[0;1;2]); (n_v'baa'xov,[0;3;4])] [2;1;3;4]));
  (*1235*) Assign (T 92) (Times (Einsum [(n_t2'aaaa,[0;1;2;3]); (n_l1'aa,[3;4])] [4;0;1;2]) (-1) 1);
  (*1236*) AddTo (T 92) (Times (Einsum [(n_t2'aaaa,[0;1;2;3]); (T 49,[4;1;5;3])] [4;5;0;2]) (-2) 1);
  (*1237*) AddTo (T 92) (Times (Einsum [(n_t2'abab,[0;1;2;3]); (T 51,[4;5;1;3])] [4;5;0;2]) (1) 2);
  (*1238*) Assign (T 91) (Plain (Copy (T 89)));
  (*1239*) Del (T 89);
  (*1240*) AddTo (T 91) (Times (Transpose (T 90) [0;1;3;2]) (1) 4);
  (*1241*) Del (T 90);
  (*1242*) Assign (T 88) (Plain (Einsum [(n_l2'abab,[0;1;2;3]); (n_t2'abab,[4;3;0;5])] [2;4;1;5]));
  (*1243*) Assign (T 93) (Plain (Einsum [(n_t2'abab,[0;1;2;3]); (n_l1'aa,[2;4])] [4;0;1;3]));
  (*1244*) AddTo (T 93) (Times (Einsum [(T 61,[0;1;2;3]); (n_t2'abab,[4;1;3;5])] [0;4;2;5]) (-1) 1);
  (*1245*) Assign (T 97) (Times (Copy n_t1'aa) (-1) 2);
  (*1246*) AddTo (T 97) (Times (Copy (T 47)) (-1) 1);
  (*1247*) Del (T 47);
  (*1248*) AddTo (T 97) (Times (Copy (T 48)) (-1) 2);
  (*1249*) Del (T 48);
  (*1250*) AddTo (T 97) (Plain (Copy (T 50)));
  (*1251*) Del (T 50);
  (*1252*) AddTo (T 97) (Times (Copy (T 52)) (1) 2);
  (*1253*) Del (T 52);
  (*1254*) AddTo (T 97) (Plain (Copy (T 57)));
  (*1255*) Del (T 57);
  (*1256*) Assign (T 27) (Plain (Copy n_v'baa'xov));
  (*1257*) AddTo (T 27) (Times (Copy (T 25)) (2) 1);
  (*1258*) Del (T 25);
  (*1259*) AddTo (T 27) (Plain (Copy (T 26)));
  (*1260*) Del (T 26);
  (*1261*) Assign (T 24) (Plain (Einsum [(T 20,[0;1;2]); (n_v'baa'xov,[0;3;4])] [3;1;2;4]));
  (*1262*) Assign (T 34) (Plain (Transpose (T 29) [3;2;1;0]));
  (*1263*) AddTo (T 34) (Plain (Transpose (T 31) [2;3;1;0]));
  (*1264*) AddTo (T 34) (Plain (Transpose (T 32) [2;3;1;0]));
  (*1265*) AddTo (T 34) (Plain (Transpose (T 33) [1;3;0;2]));
  (*1266*) AddTo (T 34) (Times (Transpose (T 33) [3;2;0;1]) (-1) 1);
  (*1267*) Assign (T 220) (Plain (Einsum [(T 191,[0;1;2]); (n_v'bbb'xov,[0;3;4])] [1;3;2;4]));
  (*1268*) Assign (T 222) (Plain (Einsum [(T 221,[0;1;2;3]); (n_l1'bb,[4;1])] [2;0;3;4]));
  (*1269*) Assign (T 233) (Times (Einsum [(n_l2'bbbb,[0;1;2;3]); (T 210,[1;4])] [2;3;4;0]) (-1) 1);
  (*1270*) Assign (T 228) (Plain (Einsum [(T 196,[0;1;2]); (n_v'bbb'xov,[0;3;4])] [1;3;2;4]));
  (*1271*) Assign (T 232) (Times (Einsum [(T 113,[0;1;2;3]); (T 143,[4;5;0;1])] [4;5;2;3]) (1) 2);
  (*1272*) Assign (T 235) (Plain (Einsum [(T 116,[0;1;2;3]); (n_l2'bbbb,[4;5;0;1])] [2;3;4;5]));
  (*1273*) Del (T 116);
  (*1274*) Assign (T 234) (Plain (Einsum [(T 63,[0;1;2;3]); (T 211,[2;4])] [0;1;4;3]));
  (*1275*) Assign (T 224) (Plain (Copy (T 193)));
  (*1276*) Del (T 193);
  (*1277*) AddTo (T 224) (Times (Copy (T 129)) (-1) 1);
  (*1278*) AddTo (T 224) (Times (Copy (T 130)) (-2) 1);
  (*1279*) AddTo (T 224) (Times (Copy (T 131)) (-1) 1);
  (*1280*) AddTo (T 224) (Times (Copy (T 132)) (-2) 1);
  (*1281*) AddTo (T 224) (Plain (Einsum [(n_l2'abab,[0;1;2;3]); (T 84,[4;2;0])] [4;3;1]));
  (*1282*) AddTo (T 224) (Times (Einsum [(T 11,[0;1;2]); (n_l2'bbbb,[3;2;4;1])] [0;4;3]) (2) 1);
  (*1283*) Assign (T 241) (Plain (Einsum [(T 113,[0;1;2;3]); (T 240,[4;0;5;3])] [4;1;5;2]));
  (*1284*) Del (T 240);
  (*1285*) Assign (T 238) (Times (Einsum [(T 63,[0;1;2;3]); (T 218,[4;0;2;5])] [1;4;3;5]) (-1) 1);
  (*1286*) Assign (T 231) (Plain (Einsum [(T 63,[0;1;2;3]); (T 109,[2;4;3;5])] [1;0;5;4]));
  (*1287*) Assign (T 226) (Plain (Copy n_f'bb'ov));
  (*1288*) AddTo (T 226) (Plain (Copy (T 105)));
  (*1289*) Del (T 105);
  (*1290*) Assign (T 239) (Plain (Einsum [(T 217,[0;1;2;3]); (T 63,[4;0;1;5])] [4;2;5;3]));
  (*1291*) Assign (T 230) (Plain (Einsum [(T 229,[0;1;2;3]); (n_l2'bbbb,[3;2;4;5])] [4;5;0;1]));
  (*1292*) Del (T 229);
  (*1293*) Assign (T 223) (Plain (Einsum [(T 95,[0;1;2]); (n_v'bbb'xvv,[0;3;4])] [2;1;3;4]));
  (*1294*) Assign (T 201) (Plain (Copy n_f'bb'ov));
  (*1295*) AddTo (T 201) (Plain (Copy (T 200)));
  (*1296*) Del (T 200);
  (*1297*) Assign (T 227) (Plain (Einsum [(n_l2'bbbb,[0;1;2;3]); (T 199,[4;3;1;5])] [4;2;5;0]));
  (*1298*) Assign (T 225) (Times (Einsum [(n_l2'bbbb,[0;1;2;3]); (T 128,[3;4])] [4;2;0;1]) (-2) 1);
  (*1299*) Assign (T 237) (Times (Einsum [(n_v'bbb'xov,[0;1;2]); (T 119,[3;2])] [0;1;3]) (-1) 2);
  (*1300*) Del (T 119);
  (*1301*) Assign (T 242) (Plain (Einsum [(T 215,[0;1;2]); (n_v'bbb'xov,[0;3;4])] [1;3;2;4]));
  (*1302*) Assign (T 236) (Plain (Transpose (T 112) [3;2;1;0]));
  (*1303*) Del (T 112);
  (*1304*) AddTo (T 236) (Plain (Transpose (T 114) [0;3;1;2]));
  (*1305*) Del (T 114);
  (*1306*) AddTo (T 236) (Plain (Transpose (T 115) [0;3;1;2]));
  (*1307*) Del (T 115);
  (*1308*) Assign (T 167) (Plain (Copy n_f'aa'ov));
  (*1309*) AddTo (T 167) (Plain (Copy (T 166)));
  (*1310*) Del (T 166);
  (*1311*) Assign (T 212) (Plain (Einsum [(n_v'bbb'xov,[0;1;2]); (T 150,[0;3;4])] [3;4;1;2]));
  (*1312*) Assign (T 202) (Plain (Einsum [(n_v'baa'xvv,[0;1;2]); (T 198,[0;3;4])] [4;3;1;2]));
  (*1313*) Del (T 198);
  (*1314*) Assign (T 197) (Times (Copy n_f'aa'oo) (1) 2);
  (*1315*) AddTo (T 197) (Times (Copy (T 74)) (-1) 2);
  (*1316*) Del (T 74);
  (*1317*) AddTo (T 197) (Times (Einsum [(n_v'baa'xov,[0;1;2]); (T 75,[0;3;2])] [3;1]) (1) 2);
  (*1318*) Del (T 75);
  (*1319*) AddTo (T 197) (Times (Einsum [(n_v'baa'xoo,[0;1;2]); (T 15,[0])] [1;2]) (1) 2);
  (*1320*) AddTo (T 197) (Times (Einsum [(T 17,[0;1]); (n_t1'aa,[2;1])] [2;0]) (1) 2);
  (*1321*) Assign (T 205) (Times (Einsum [(T 18,[0;1;2;3]); (T 140,[4;0;5;1])] [4;5;2;3]) (1) 2);
  (*1322*) Assign (T 219) (Plain (Einsum [(n_l2'aaaa,[0;1;2;3]); (n_t2'abab,[3;4;1;5])] [2;4;0;5]));
  (*1323*) AddTo (T 219) (Plain (Einsum [(n_l2'abab,[0;1;2;3]); (n_t2'bbbb,[4;3;5;1])] [2;4;0;5]));
  (*1324*) Assign (T 206) (Times (Copy n_f'aa'vv) (-1) 1);
  (*1325*) AddTo (T 206) (Times (Einsum [(T 173,[0;1;2]); (n_v'baa'xov,[0;1;3])] [2;3]) (2) 1);
  (*1326*) Del (T 173);
  (*1327*) AddTo (T 206) (Times (Einsum [(n_v'baa'xvv,[0;1;2]); (T 15,[0])] [1;2]) (-1) 1);
  (*1328*) Del (T 15);
  (*1329*) Assign (T 216) (Plain (Einsum [(n_t2'aaaa,[0;1;2;3]); (n_l2'abab,[3;4;1;5])] [0;5;2;4]));
  (*1330*) AddTo (T 216) (Plain (Einsum [(n_t2'abab,[0;1;2;3]); (n_l2'bbbb,[4;3;5;1])] [0;5;2;4]));
  (*1331*) Assign (T 213) (Plain (Copy (T 19)));
  (*1332*) Del (T 19);
  (*1333*) AddTo (T 213) (Plain (Einsum [(T 20,[0;1;2]); (T 95,[0;3;4])] [2;1;4;3]));
  (*1334*) Assign (T 192) (Plain (Einsum [(T 95,[0;1;2]); (n_v'baa'xov,[0;3;4])] [3;1;2;4]));
  (*1335*) Assign (T 214) (Plain (Einsum [(T 150,[0;1;2]); (n_v'bbb'xvv,[0;3;4])] [2;1;3;4]));
  (*1336*) Del (T 150);
  (*1337*) Assign (T 204) (Plain (Einsum [(T 203,[0;1;2;3]); (n_l2'abab,[1;2;4;5])] [4;5;0;3]));
  (*1338*) Del (T 203);
  (*1339*) Assign (T 152) (Plain (Einsum [(T 151,[0;1;2;3]); (n_l1'aa,[4;1])] [2;0;3;4]));
  (*1340*) Assign (T 190) (Plain (Einsum [(n_v'baa'xov,[0;1;2]); (T 189,[0;3;4])] [3;1;4;2]));
  (*1341*) Assign (T 184) (Times (Einsum [(T 183,[0;1;2;3]); (T 49,[1;4;2;5])] [4;0;5;3]) (-1) 1);
  (*1342*) Assign (T 181) (Plain (Transpose (T 29) [3;2;1;0]));
  (*1343*) Del (T 29);
  (*1344*) AddTo (T 181) (Plain (Transpose (T 31) [0;3;1;2]));
  (*1345*) Del (T 31);
  (*1346*) AddTo (T 181) (Plain (Transpose (T 32) [0;3;1;2]));
  (*1347*) Del (T 32);
  (*1348*) Assign (T 177) (Times (Einsum [(n_l2'aaaa,[0;1;2;3]); (T 176,[1;4])] [2;3;4;0]) (-2) 1);
  (*1349*) Del (T 176);
  (*1350*) Assign (T 179) (Plain (Einsum [(T 49,[0;1;2;3]); (T 178,[2;4])] [0;1;4;3]));
  (*1351*) Assign (T 153) (Plain (Einsum [(T 20,[0;1;2]); (n_v'baa'xvv,[0;3;4])] [2;1;3;4]));
  (*1352*) Assign (T 182) (Times (Einsum [(n_v'baa'xov,[0;1;2]); (T 39,[0;3;4])] [3;1;4;2]) (-2) 1);
  (*1353*) Assign (T 155) (Times (Copy (T 154)) (1) 2);
  (*1354*) Del (T 154);
  (*1355*) AddTo (T 155) (Times (Copy (T 80)) (-1) 1);
  (*1356*) AddTo (T 155) (Times (Copy (T 81)) (-1) 2);
  (*1357*) AddTo (T 155) (Times (Copy (T 82)) (-1) 1);
  (*1358*) AddTo (T 155) (Times (Copy (T 83)) (-1) 2);
  (*1359*) AddTo (T 155) (Plain (Einsum [(n_l2'aaaa,[0;1;2;3]); (T 84,[4;3;1])] [4;2;0]));
  (*1360*) AddTo (T 155) (Times (Einsum [(n_l2'abab,[0;1;2;3]); (T 11,[4;3;1])] [4;2;0]) (1) 2);
  (*1361*) Assign (T 169) (Plain (Einsum [(T 168,[0;1;2;3]); (n_l2'aaaa,[3;2;4;5])] [4;5;0;1]));
  (*1362*) Del (T 168);
  (*1363*) Assign (T 156) (Times (Einsum [(n_l2'aaaa,[0;1;2;3]); (T 79,[3;4])] [2;4;0;1]) (-2) 1);
  (*1364*) Assign (T 165) (Plain (Einsum [(n_v'baa'xov,[0;1;2]); (T 164,[0;3;4])] [3;1;4;2]));
  (*1365*) Assign (T 188) (Plain (Einsum [(T 187,[0;1;2;3]); (T 30,[1;4;5;3])] [0;4;2;5]));
  (*1366*) Del (T 187);
  (*1367*) Assign (T 149) (Plain (Einsum [(n_v'baa'xov,[0;1;2]); (T 148,[0;3;4])] [3;1;4;2]));
  (*1368*) Del (T 148);
  (*1369*) Assign (T 172) (Times (Einsum [(T 30,[0;1;2;3]); (T 171,[4;5;0;1])] [4;5;2;3]) (1) 2);
  (*1370*) Del (T 171);
  (*1371*) Assign (T 170) (Plain (Einsum [(T 49,[0;1;2;3]); (T 23,[2;4;3;5])] [1;0;5;4]));
  (*1372*) Assign (T 157) (Plain (Copy n_f'aa'ov));
  (*1373*) AddTo (T 157) (Plain (Copy (T 16)));
  (*1374*) Del (T 16);
  (*1375*) Assign (T 180) (Plain (Einsum [(n_l2'aaaa,[0;1;2;3]); (T 33,[2;3;4;5])] [4;5;0;1]));
  (*1376*) Del (T 33);
  (*1377*) Assign (T 159) (Plain (Einsum [(T 158,[0;1;2;3]); (n_l2'aaaa,[4;2;5;1])] [0;5;3;4]));
  (*1378*) Assign (T 186) (Plain (Einsum [(T 185,[0;1;2;3]); (T 49,[4;0;1;5])] [4;2;5;3]));
  (*1379*) Assign (T 133) (Times (Copy (T 129)) (-1) 2);
  (*1380*) Del (T 129);
  (*1381*) AddTo (T 133) (Times (Copy (T 130)) (-1) 1);
  (*1382*) Del (T 130);
  (*1383*) AddTo (T 133) (Times (Copy (T 131)) (-1) 2);
  (*1384*) Del (T 131);
  (*1385*) AddTo (T 133) (Times (Copy (T 132)) (-1) 1);
  (*1386*) Del (T 132);
  (*1387*) AddTo (T 133) (Times (Einsum [(n_l2'abab,[0;1;2;3]); (T 84,[4;2;0])] [4;3;1]) (1) 2);
  (*1388*) AddTo (T 133) (Plain (Einsum [(T 11,[0;1;2]); (n_l2'bbbb,[3;2;4;1])] [0;4;3]));
  (*1389*) Assign (T 145) (Plain (Einsum [(T 8,[0;1;2]); (n_l1'bb,[2;3])] [0;1;3]));
  (*1390*) AddTo (T 145) (Plain (Einsum [(T 134,[0;1;2;3]); (n_v'baa'xvv,[4;3;2])] [4;1;0]));
  (*1391*) AddTo (T 145) (Plain (Einsum [(n_v'bbb'xvv,[0;1;2]); (T 137,[3;4;1;2])] [0;4;3]));
  (*1392*) Del (T 137);
  (*1393*) AddTo (T 145) (Plain (Einsum [(T 61,[0;1;2;3]); (T 84,[4;0;3])] [4;2;1]));
  (*1394*) AddTo (T 145) (Times (Einsum [(T 11,[0;1;2]); (T 63,[1;3;4;2])] [0;4;3]) (2) 1);
  (*1395*) Del (T 63);
  (*1396*) AddTo (T 145) (Times (Einsum [(T 138,[0;1;2;3]); (n_v'bbb'xov,[4;1;3])] [4;2;0]) (-2) 1);
  (*1397*) Del (T 138);
  (*1398*) AddTo (T 145) (Plain (Einsum [(T 139,[0;1;2;3]); (n_v'baa'xov,[4;0;3])] [4;2;1]));
  (*1399*) Del (T 139);
  (*1400*) AddTo (T 145) (Times (Einsum [(T 140,[0;1;2;3]); (T 2,[4;0;1])] [4;3;2]) (-1) 1);
  (*1401*) AddTo (T 145) (Times (Einsum [(T 140,[0;1;2;3]); (n_v'baa'xoo,[4;0;1])] [4;3;2]) (-1) 1);
  (*1402*) Del (T 140);
  (*1403*) AddTo (T 145) (Times (Einsum [(T 5,[0;1;2]); (T 143,[1;3;2;4])] [0;4;3]) (-2) 1);
  (*1404*) AddTo (T 145) (Times (Einsum [(T 143,[0;1;2;3]); (n_v'bbb'xoo,[4;0;2])] [4;3;1]) (-2) 1);
  (*1405*) Del (T 143);
  (*1406*) AddTo (T 145) (Times (Einsum [(n_v'bbb'xov,[0;1;2]); (T 144,[3;2])] [0;3;1]) (-1) 1);
  (*1407*) Del (T 144);
  (*1408*) AddTo (T 145) (Times (Einsum [(T 68,[0;1]); (n_v'bbb'xoo,[2;3;0])] [2;1;3]) (-1) 1);
  (*1409*) Assign (T 122) (Plain (Einsum [(T 42,[0;1]); (n_v'baa'xvv,[2;1;0])] [2]));
  (*1410*) AddTo (T 122) (Times (Einsum [(T 46,[0;1]); (n_v'bbb'xvv,[2;1;0])] [2]) (1) 2);
  (*1411*) AddTo (T 122) (Times (Einsum [(T 58,[0;1]); (n_v'baa'xov,[2;0;1])] [2]) (-1) 1);
  (*1412*) AddTo (T 122) (Times (Einsum [(T 70,[0;1]); (n_v'bbb'xov,[2;0;1])] [2]) (-1) 2);
  (*1413*) AddTo (T 122) (Times (Einsum [(T 71,[0;1]); (n_v'baa'xoo,[2;1;0])] [2]) (-1) 1);
  (*1414*) AddTo (T 122) (Times (Einsum [(T 72,[0;1]); (n_v'bbb'xoo,[2;1;0])] [2]) (-1) 2);
  (*1415*) Assign (T 108) (Times (Einsum [(T 101,[0;1;2;3]); (n_t2'abab,[4;5;2;3])] [4;0;5;1]) (1) 2);
  (*1416*) AddTo (T 108) (Times (Einsum [(T 102,[0;1;2;3]); (n_t2'abab,[0;4;5;3])] [1;2;4;5]) (-1) 2);
  (*1417*) Del (T 102);
  (*1418*) AddTo (T 108) (Times (Einsum [(n_t2'abab,[0;1;2;3]); (T 103,[1;4;5;3])] [0;5;4;2]) (-1) 2);
  (*1419*) Del (T 103);
  (*1420*) AddTo (T 108) (Times (Einsum [(T 6,[0;1;2]); (T 84,[0;3;4])] [3;2;1;4]) (1) 2);
  (*1421*) AddTo (T 108) (Times (Einsum [(n_t2'abab,[0;1;2;3]); (T 106,[4;3])] [0;4;1;2]) (1) 2);
  (*1422*) AddTo (T 108) (Times (Einsum [(n_t1'aa,[0;1]); (T 107,[0;2;3;4])] [2;4;3;1]) (-1) 2);
  (*1423*) Del (T 107);
  (*1424*) Assign (T 146) (Plain (Copy n_f'bb'vv));
  (*1425*) AddTo (T 146) (Plain (Einsum [(T 99,[0]); (n_v'bbb'xvv,[0;1;2])] [1;2]));
  (*1426*) Assign (T 118) (Plain (Einsum [(T 109,[0;1;2;3]); (n_t2'bbbb,[4;5;2;3])] [0;4;5;1]));
  (*1427*) Del (T 109);
  (*1428*) AddTo (T 118) (Times (Einsum [(T 110,[0;1;2;3]); (n_t2'bbbb,[4;0;5;3])] [2;4;1;5]) (-2) 1);
  (*1429*) AddTo (T 118) (Plain (Einsum [(T 6,[0;1;2]); (T 111,[0;3;4])] [2;3;1;4]));
  (*1430*) Del (T 111);
  (*1431*) AddTo (T 118) (Plain (Einsum [(T 106,[0;1]); (n_t2'bbbb,[2;3;4;1])] [0;2;3;4]));
  (*1432*) AddTo (T 118) (Times (Einsum [(T 8,[0;1;2]); (T 6,[0;3;4])] [4;3;1;2]) (-1) 1);
  (*1433*) Del (T 8);
  (*1434*) AddTo (T 118) (Times (Einsum [(T 117,[0;1;2;3]); (n_t1'bb,[0;4])] [1;3;2;4]) (-1) 1);
  (*1435*) Del (T 117);
  (*1436*) Assign (T 121) (Plain (Copy (T 120)));
  (*1437*) AddTo (T 121) (Plain (Einsum [(T 6,[0;1;2]); (n_l1'bb,[3;1])] [0;2;3]));
  (*1438*) Del (T 6);
  (*1439*) Assign (T 100) (Plain (Copy n_f'aa'vv));
  (*1440*) AddTo (T 100) (Plain (Einsum [(T 99,[0]); (n_v'baa'xvv,[0;1;2])] [1;2]));
  (*1441*) Del (T 99);
  (*1442*) Assign (T 22) (Plain (Einsum [(T 1,[0;1;2;3]); (n_t2'abab,[4;5;1;2])] [0;4;5;3]));
  (*1443*) AddTo (T 22) (Times (Einsum [(n_t2'abab,[0;1;2;3]); (T 4,[0;4;5;2])] [5;4;1;3]) (-1) 1);
  (*1444*) Del (T 4);
  (*1445*) AddTo (T 22) (Times (Einsum [(T 7,[0;1;2;3]); (n_t2'abab,[4;1;3;5])] [0;4;2;5]) (-1) 1);
  (*1446*) Del (T 7);
  (*1447*) AddTo (T 22) (Plain (Einsum [(T 3,[0;1;2]); (T 11,[0;3;4])] [2;1;3;4]));
  (*1448*) AddTo (T 22) (Plain (Einsum [(n_t2'abab,[0;1;2;3]); (T 17,[4;2])] [4;0;1;3]));
  (*1449*) AddTo (T 22) (Times (Einsum [(T 21,[0;1;2;3]); (n_t1'bb,[2;4])] [1;0;3;4]) (-1) 1);
  (*1450*) Del (T 21);
  (*1451*) Assign (T 73) (Times (Einsum [(T 42,[0;1]); (n_v'baa'xvv,[2;1;0])] [2]) (2) 1);
  (*1452*) Del (T 42);
  (*1453*) AddTo (T 73) (Plain (Einsum [(T 46,[0;1]); (n_v'bbb'xvv,[2;1;0])] [2]));
  (*1454*) Del (T 46);
  (*1455*) AddTo (T 73) (Times (Einsum [(T 58,[0;1]); (n_v'baa'xov,[2;0;1])] [2]) (-2) 1);
  (*1456*) Del (T 58);
  (*1457*) AddTo (T 73) (Times (Einsum [(T 70,[0;1]); (n_v'bbb'xov,[2;0;1])] [2]) (-1) 1);
  (*1458*) Del (T 70);
  (*1459*) AddTo (T 73) (Times (Einsum [(T 71,[0;1]); (n_v'baa'xoo,[2;1;0])] [2]) (-2) 1);
  (*1460*) Del (T 71);
  (*1461*) AddTo (T 73) (Times (Einsum [(T 72,[0;1]); (n_v'bbb'xoo,[2;1;0])] [2]) (-1) 1);
  (*1462*) Del (T 72);
  (*1463*) Assign (T 98) (Times (Einsum [(n_l1'aa,[0;1]); (T 28,[2;3;0])] [2;3;1]) (1) 4);
  (*1464*) AddTo (T 98) (Times (Einsum [(T 86,[0;1;2;3]); (n_v'baa'xoo,[4;2;1])] [4;3;0]) (1) 2);
  (*1465*) AddTo (T 98) (Times (Einsum [(n_v'bbb'xoo,[0;1;2]); (T 87,[3;4;2;1])] [0;4;3]) (-1) 4);
  (*1466*) AddTo (T 98) (Times (Einsum [(T 88,[0;1;2;3]); (n_v'bbb'xvv,[4;2;3])] [4;1;0]) (1) 4);
  (*1467*) AddTo (T 98) (Times (Einsum [(T 2,[0;1;2]); (T 86,[1;3;2;4])] [0;4;3]) (-1) 2);
  (*1468*) Del (T 2);
  (*1468*) Del (T 86);
  (*1469*) AddTo (T 98) (Times (Einsum [(T 87,[0;1;2;3]); (T 5,[4;2;3])] [4;1;0]) (-1) 4);
  (*1470*) Del (T 5);
  (*1470*) Del (T 87);
  (*1471*) AddTo (T 98) (Plain (Einsum [(T 91,[0;1;2;3]); (n_v'baa'xvv,[4;2;3])] [4;1;0]));
  (*1472*) Del (T 91);
  (*1473*) AddTo (T 98) (Times (Einsum [(T 84,[0;1;2]); (T 49,[1;3;4;2])] [0;4;3]) (1) 2);
  (*1474*) Del (T 49);
  (*1475*) AddTo (T 98) (Times (Einsum [(T 51,[0;1;2;3]); (T 11,[4;2;3])] [4;1;0]) (1) 4);
  (*1476*) AddTo (T 98) (Times (Einsum [(T 92,[0;1;2;3]); (n_v'baa'xov,[4;1;3])] [4;2;0]) (-1) 2);
  (*1477*) Del (T 92);
  (*1478*) AddTo (T 98) (Times (Einsum [(T 93,[0;1;2;3]); (n_v'bbb'xov,[4;2;3])] [4;1;0]) (1) 4);
  (*1479*) Del (T 93);
  (*1480*) AddTo (T 98) (Times (Einsum [(T 20,[0;1;2]); (T 94,[2;3;1;4])] [0;4;3]) (-1) 2);
  (*1481*) Del (T 94);
  (*1481*) Del (T 20);
  (*1482*) AddTo (T 98) (Times (Einsum [(T 96,[0;1;2;3]); (T 95,[4;3;2])] [4;1;0]) (-1) 4);
  (*1483*) Del (T 96);
  (*1483*) Del (T 95);
  (*1484*) AddTo (T 98) (Times (Einsum [(n_v'baa'xov,[0;1;2]); (T 97,[3;2])] [0;3;1]) (-1) 2);
  (*1485*) Del (T 97);
  (*1486*) AddTo (T 98) (Times (Einsum [(T 56,[0;1]); (n_v'baa'xoo,[2;3;0])] [2;1;3]) (-1) 2);
  (*1487*) Assign (T 40) (Plain (Copy (T 39)));
  (*1488*) AddTo (T 40) (Times (Einsum [(n_l1'aa,[0;1]); (T 3,[2;1;3])] [2;3;0]) (1) 2);
  (*1489*) Assign (T 35) (Times (Einsum [(n_t2'aaaa,[0;1;2;3]); (T 23,[4;5;2;3])] [4;0;1;5]) (1) 2);
  (*1490*) Del (T 23);
  (*1491*) AddTo (T 35) (Times (Einsum [(T 24,[0;1;2;3]); (n_t2'aaaa,[4;1;5;3])] [0;4;2;5]) (-1) 1);
  (*1492*) AddTo (T 35) (Times (Einsum [(T 3,[0;1;2]); (T 27,[0;3;4])] [2;3;1;4]) (1) 2);
  (*1493*) Del (T 27);
  (*1494*) AddTo (T 35) (Times (Einsum [(n_t2'aaaa,[0;1;2;3]); (T 17,[4;3])] [4;0;1;2]) (1) 2);
  (*1495*) AddTo (T 35) (Times (Einsum [(T 28,[0;1;2]); (T 3,[0;3;4])] [4;3;1;2]) (-1) 2);
  (*1496*) Del (T 28);
  (*1496*) Del (T 3);
  (*1497*) AddTo (T 35) (Times (Einsum [(T 34,[0;1;2;3]); (n_t1'aa,[0;4])] [1;3;2;4]) (-1) 2);
  (*1498*) Del (T 34);
  (*1499*) Assign (T 85) (Times (Copy (T 80)) (-1) 2);
  (*1500*) Del (T 80);
  (*1501*) AddTo (T 85) (Times (Copy (T 81)) (-1) 4);
  (*1502*) Del (T 81);
  (*1503*) AddTo (T 85) (Times (Copy (T 82)) (-1) 2);
  (*1504*) Del (T 82);
  (*1505*) AddTo (T 85) (Times (Copy (T 83)) (-1) 4);
  (*1506*) Del (T 83);
  (*1507*) AddTo (T 85) (Times (Einsum [(n_l2'aaaa,[0;1;2;3]); (T 84,[4;3;1])] [4;2;0]) (1) 2);
  (*1508*) Del (T 84);
  (*1509*) AddTo (T 85) (Times (Einsum [(n_l2'abab,[0;1;2;3]); (T 11,[4;3;1])] [4;2;0]) (1) 4);
  (*1510*) Del (T 11);
  (*1511*) Assign n_l2new'bbbb (Plain (Transpose (T 220) [3;2;1;0]));
  (*1512*) AddTo n_l2new'bbbb (Times (Einsum [(T 110,[0;1;2;3]); (n_l1'bb,[4;1])] [3;4;2;0]) (-1) 1);
  (*1513*) Del (T 110);
  (*1514*) AddTo n_l2new'bbbb (Times (Transpose (T 220) [2;3;1;0]) (-1) 1);
  (*1515*) Del (T 220);
  (*1516*) AddTo n_l2new'bbbb (Plain (Transpose (T 222) [3;2;0;1]));
  (*1517*) AddTo n_l2new'bbbb (Times (Einsum [(T 223,[0;1;2;3]); (n_l2'bbbb,[4;3;5;0])] [2;4;5;1]) (2) 1);
  (*1518*) Del (T 223);
  (*1519*) AddTo n_l2new'bbbb (Times (Einsum [(T 224,[0;1;2]); (n_v'bbb'xov,[0;3;4])] [4;2;1;3]) (-1) 1);
  (*1520*) Del (T 224);
  (*1521*) AddTo n_l2new'bbbb (Times (Transpose (T 225) [3;2;1;0]) (-1) 1);
  (*1522*) AddTo n_l2new'bbbb (Times (Einsum [(n_l1'bb,[0;1]); (T 226,[2;3])] [3;0;1;2]) (-1) 1);
  (*1523*) Del (T 226);
  (*1524*) AddTo n_l2new'bbbb (Times (Transpose (T 227) [2;3;0;1]) (-2) 1);
  (*1525*) AddTo n_l2new'bbbb (Plain (Transpose (T 228) [3;2;1;0]));
  (*1526*) AddTo n_l2new'bbbb (Plain (Transpose (T 225) [3;2;0;1]));
  (*1527*) Del (T 225);
  (*1528*) AddTo n_l2new'bbbb (Plain (Einsum [(n_l1'bb,[0;1]); (T 201,[2;3])] [3;0;2;1]));
  (*1529*) AddTo n_l2new'bbbb (Times (Transpose (T 227) [3;2;1;0]) (-2) 1);
  (*1530*) AddTo n_l2new'bbbb (Plain (Transpose (T 228) [2;3;0;1]));
  (*1531*) AddTo n_l2new'bbbb (Plain (Einsum [(n_l1'bb,[0;1]); (T 201,[2;3])] [0;3;1;2]));
  (*1532*) AddTo n_l2new'bbbb (Times (Transpose (T 227) [3;2;0;1]) (2) 1);
  (*1533*) Del (T 227);
  (*1534*) AddTo n_l2new'bbbb (Times (Transpose (T 228) [2;3;1;0]) (-1) 1);
  (*1535*) Del (T 228);
  (*1536*) AddTo n_l2new'bbbb (Times (Einsum [(T 201,[0;1]); (n_l1'bb,[2;3])] [2;1;0;3]) (-1) 1);
  (*1537*) AddTo n_l2new'bbbb (Times (Transpose (T 230) [2;3;1;0]) (-2) 1);
  (*1538*) Del (T 230);
  (*1539*) AddTo n_l2new'bbbb (Times (Transpose (T 231) [2;3;1;0]) (2) 1);
  (*1540*) AddTo n_l2new'bbbb (Times (Transpose (T 232) [3;2;1;0]) (4) 1);
  (*1541*) Del (T 232);
  (*1542*) AddTo n_l2new'bbbb (Times (Transpose (T 233) [2;3;1;0]) (2) 1);
  (*1543*) AddTo n_l2new'bbbb (Times (Transpose (T 234) [2;3;1;0]) (-2) 1);
  (*1544*) AddTo n_l2new'bbbb (Times (Transpose (T 231) [3;2;1;0]) (-2) 1);
  (*1545*) Del (T 231);
  (*1546*) AddTo n_l2new'bbbb (Times (Transpose (T 233) [3;2;1;0]) (-2) 1);
  (*1547*) Del (T 233);
  (*1548*) AddTo n_l2new'bbbb (Times (Transpose (T 234) [3;2;1;0]) (2) 1);
  (*1549*) Del (T 234);
  (*1550*) AddTo n_l2new'bbbb (Times (Transpose (T 235) [2;3;0;1]) (-2) 1);
  (*1551*) AddTo n_l2new'bbbb (Times (Transpose (T 235) [2;3;1;0]) (2) 1);
  (*1552*) Del (T 235);
  (*1553*) AddTo n_l2new'bbbb (Times (Einsum [(n_l2'bbbb,[0;1;2;3]); (T 236,[2;4;3;5])] [0;1;4;5]) (-2) 1);
  (*1554*) Del (T 236);
  (*1555*) AddTo n_l2new'bbbb (Plain (Einsum [(n_v'bbb'xov,[0;1;2]); (T 120,[0;3;4])] [2;4;3;1]));
  (*1556*) Del (T 120);
  (*1557*) AddTo n_l2new'bbbb (Plain (Einsum [(n_l1'bb,[0;1]); (T 221,[2;1;3;4])] [4;0;2;3]));
  (*1558*) Del (T 221);
  (*1559*) AddTo n_l2new'bbbb (Times (Einsum [(T 237,[0;1;2]); (n_v'bbb'xov,[0;3;4])] [2;4;1;3]) (2) 1);
  (*1560*) Del (T 237);
  (*1561*) AddTo n_l2new'bbbb (Times (Transpose (T 222) [3;2;1;0]) (-1) 1);
  (*1562*) Del (T 222);
  (*1563*) AddTo n_l2new'bbbb (Plain (Einsum [(n_l1'bb,[0;1]); (T 104,[2;3])] [3;0;1;2]));
  (*1564*) AddTo n_l2new'bbbb (Times (Transpose (T 238) [3;2;0;1]) (-2) 1);
  (*1565*) AddTo n_l2new'bbbb (Times (Transpose (T 239) [3;2;0;1]) (-2) 1);
  (*1566*) AddTo n_l2new'bbbb (Plain (Transpose (T 241) [3;2;0;1]));
  (*1567*) AddTo n_l2new'bbbb (Times (Transpose (T 242) [2;3;0;1]) (-1) 1);
  (*1568*) AddTo n_l2new'bbbb (Times (Einsum [(T 104,[0;1]); (n_l1'bb,[2;3])] [2;1;3;0]) (-1) 1);
  (*1569*) AddTo n_l2new'bbbb (Times (Transpose (T 238) [2;3;0;1]) (2) 1);
  (*1570*) AddTo n_l2new'bbbb (Times (Transpose (T 239) [2;3;0;1]) (2) 1);
  (*1571*) AddTo n_l2new'bbbb (Times (Transpose (T 241) [2;3;0;1]) (-1) 1);
  (*1572*) AddTo n_l2new'bbbb (Plain (Transpose (T 242) [3;2;0;1]));
  (*1573*) AddTo n_l2new'bbbb (Times (Einsum [(n_l1'bb,[0;1]); (T 104,[2;3])] [3;0;2;1]) (-1) 1);
  (*1574*) AddTo n_l2new'bbbb (Times (Transpose (T 238) [3;2;1;0]) (2) 1);
  (*1575*) AddTo n_l2new'bbbb (Times (Transpose (T 239) [3;2;1;0]) (2) 1);
  (*1576*) AddTo n_l2new'bbbb (Times (Transpose (T 241) [3;2;1;0]) (-1) 1);
  (*1577*) AddTo n_l2new'bbbb (Plain (Transpose (T 242) [2;3;1;0]));
  (*1578*) AddTo n_l2new'bbbb (Plain (Einsum [(T 104,[0;1]); (n_l1'bb,[2;3])] [2;1;0;3]));
  (*1579*) AddTo n_l2new'bbbb (Times (Transpose (T 238) [2;3;1;0]) (-2) 1);
  (*1580*) Del (T 238);
  (*1581*) AddTo n_l2new'bbbb (Times (Transpose (T 239) [2;3;1;0]) (-2) 1);
  (*1582*) Del (T 239);
  (*1583*) AddTo n_l2new'bbbb (Plain (Transpose (T 241) [2;3;1;0]));
  (*1584*) Del (T 241);
  (*1585*) AddTo n_l2new'bbbb (Times (Transpose (T 242) [3;2;1;0]) (-1) 1);
  (*1586*) Del (T 242);
  (*1587*) Assign n_l2new'abab (Plain (Einsum [(T 191,[0;1;2]); (n_v'baa'xov,[0;3;4])] [4;2;3;1]));
  (*1588*) Del (T 191);
  (*1589*) AddTo n_l2new'abab (Times (Einsum [(T 192,[0;1;2;3]); (n_l1'bb,[4;2])] [3;4;0;1]) (-1) 1);
  (*1590*) AddTo n_l2new'abab (Times (Einsum [(T 158,[0;1;2;3]); (n_l2'abab,[3;4;1;5])] [2;4;0;5]) (-1) 1);
  (*1591*) Del (T 158);
  (*1592*) AddTo n_l2new'abab (Plain (Einsum [(T 196,[0;1;2]); (n_v'baa'xov,[0;3;4])] [4;2;3;1]));
  (*1593*) Del (T 196);
  (*1594*) AddTo n_l2new'abab (Times (Einsum [(T 197,[0;1]); (n_l2'abab,[2;3;0;4])] [2;3;1;4]) (-2) 1);
  (*1595*) Del (T 197);
  (*1596*) AddTo n_l2new'abab (Plain (Einsum [(T 167,[0;1]); (n_l1'bb,[2;3])] [1;2;0;3]));
  (*1597*) AddTo n_l2new'abab (Times (Einsum [(T 199,[0;1;2;3]); (n_l2'abab,[4;3;5;1])] [4;2;5;0]) (-1) 1);
  (*1598*) Del (T 199);
  (*1599*) AddTo n_l2new'abab (Plain (Einsum [(T 164,[0;1;2]); (n_v'bbb'xov,[0;3;4])] [2;4;1;3]));
  (*1600*) Del (T 164);
  (*1601*) AddTo n_l2new'abab (Plain (Einsum [(T 201,[0;1]); (n_l1'aa,[2;3])] [2;1;3;0]));
  (*1602*) Del (T 201);
  (*1603*) AddTo n_l2new'abab (Times (Einsum [(n_l2'abab,[0;1;2;3]); (T 202,[3;4;0;5])] [5;1;2;4]) (-1) 1);
  (*1604*) Del (T 202);
  (*1605*) AddTo n_l2new'abab (Times (Einsum [(T 128,[0;1]); (n_l2'abab,[2;3;4;0])] [2;3;4;1]) (-1) 1);
  (*1606*) AddTo n_l2new'abab (Times (Einsum [(T 51,[0;1;2;3]); (T 1,[1;4;3;5])] [4;5;0;2]) (-1) 1);
  (*1607*) Del (T 1);
  (*1608*) AddTo n_l2new'abab (Plain (Transpose (T 204) [2;3;0;1]));
  (*1609*) Del (T 204);
  (*1610*) AddTo n_l2new'abab (Times (Transpose (T 205) [2;3;0;1]) (2) 1);
  (*1611*) Del (T 205);
  (*1612*) AddTo n_l2new'abab (Times (Einsum [(T 206,[0;1]); (n_l2'abab,[0;2;3;4])] [1;2;3;4]) (-1) 1);
  (*1613*) Del (T 206);
  (*1614*) AddTo n_l2new'abab (Times (Einsum [(T 51,[0;1;2;3]); (T 178,[1;4])] [4;3;0;2]) (-1) 1);
  (*1615*) Del (T 178);
  (*1616*) AddTo n_l2new'abab (Times (Einsum [(T 61,[0;1;2;3]); (T 101,[2;4;3;5])] [4;5;0;1]) (-1) 1);
  (*1617*) Del (T 101);
  (*1618*) AddTo n_l2new'abab (Times (Einsum [(n_l2'abab,[0;1;2;3]); (T 210,[1;4])] [0;4;2;3]) (-1) 1);
  (*1619*) Del (T 210);
  (*1620*) AddTo n_l2new'abab (Times (Einsum [(T 61,[0;1;2;3]); (T 211,[2;4])] [3;4;0;1]) (-1) 1);
  (*1621*) Del (T 211);
  (*1622*) AddTo n_l2new'abab (Times (Einsum [(n_v'bbb'xov,[0;1;2]); (T 39,[0;3;4])] [4;2;3;1]) (-2) 1);
  (*1623*) Del (T 39);
  (*1624*) AddTo n_l2new'abab (Times (Einsum [(n_l1'aa,[0;1]); (T 212,[2;1;3;4])] [0;4;2;3]) (-1) 1);
  (*1625*) AddTo n_l2new'abab (Plain (Einsum [(T 213,[0;1;2;3]); (n_l2'abab,[4;5;0;2])] [4;5;1;3]));
  (*1626*) Del (T 213);
  (*1627*) AddTo n_l2new'abab (Times (Einsum [(T 214,[0;1;2;3]); (n_l2'abab,[4;2;0;5])] [4;3;1;5]) (-1) 1);
  (*1628*) Del (T 214);
  (*1629*) AddTo n_l2new'abab (Plain (Einsum [(T 88,[0;1;2;3]); (T 18,[1;4;5;3])] [5;2;0;4]));
  (*1630*) Del (T 88);
  (*1631*) AddTo n_l2new'abab (Plain (Einsum [(T 51,[0;1;2;3]); (T 192,[1;4;2;5])] [5;3;0;4]));
  (*1632*) Del (T 192);
  (*1633*) AddTo n_l2new'abab (Times (Einsum [(T 189,[0;1;2]); (n_v'bbb'xov,[0;3;4])] [2;4;1;3]) (-1) 1);
  (*1634*) Del (T 189);
  (*1635*) AddTo n_l2new'abab (Plain (Einsum [(T 134,[0;1;2;3]); (T 18,[4;1;3;5])] [2;5;4;0]));
  (*1636*) Del (T 18);
  (*1636*) Del (T 134);
  (*1637*) AddTo n_l2new'abab (Plain (Einsum [(T 61,[0;1;2;3]); (T 212,[4;0;2;5])] [3;5;4;1]));
  (*1638*) Del (T 212);
  (*1639*) AddTo n_l2new'abab (Times (Einsum [(T 215,[0;1;2]); (n_v'baa'xov,[0;3;4])] [4;2;3;1]) (-1) 1);
  (*1640*) Del (T 215);
  (*1641*) AddTo n_l2new'abab (Plain (Einsum [(T 183,[0;1;2;3]); (T 51,[1;2;4;5])] [3;5;0;4]));
  (*1642*) Del (T 183);
  (*1643*) AddTo n_l2new'abab (Times (Einsum [(n_l1'bb,[0;1]); (T 12,[2;3])] [3;0;2;1]) (-1) 1);
  (*1644*) AddTo n_l2new'abab (Plain (Einsum [(T 51,[0;1;2;3]); (T 185,[0;1;4;5])] [5;3;4;2]));
  (*1645*) Del (T 51);
  (*1645*) Del (T 185);
  (*1646*) AddTo n_l2new'abab (Times (Einsum [(T 216,[0;1;2;3]); (T 30,[0;4;5;2])] [5;3;4;1]) (-2) 1);
  (*1647*) Del (T 30);
  (*1647*) Del (T 216);
  (*1648*) AddTo n_l2new'abab (Times (Einsum [(n_l1'aa,[0;1]); (T 104,[2;3])] [0;3;1;2]) (-1) 1);
  (*1649*) Del (T 104);
  (*1650*) AddTo n_l2new'abab (Plain (Einsum [(T 217,[0;1;2;3]); (T 61,[4;0;1;5])] [5;3;4;2]));
  (*1651*) Del (T 217);
  (*1652*) AddTo n_l2new'abab (Plain (Einsum [(T 218,[0;1;2;3]); (T 61,[4;1;2;5])] [5;3;4;0]));
  (*1653*) Del (T 61);
  (*1653*) Del (T 218);
  (*1654*) AddTo n_l2new'abab (Times (Einsum [(T 219,[0;1;2;3]); (T 113,[1;4;5;3])] [2;5;0;4]) (-2) 1);
  (*1655*) Del (T 113);
  (*1655*) Del (T 219);
  (*1656*) Assign n_l2new'aaaa (Plain (Transpose (T 149) [3;2;1;0]));
  (*1657*) AddTo n_l2new'aaaa (Times (Einsum [(n_l1'aa,[0;1]); (T 24,[2;3;1;4])] [4;0;2;3]) (-1) 1);
  (*1658*) Del (T 24);
  (*1659*) AddTo n_l2new'aaaa (Times (Transpose (T 149) [2;3;1;0]) (-1) 1);
  (*1660*) Del (T 149);
  (*1661*) AddTo n_l2new'aaaa (Plain (Transpose (T 152) [3;2;0;1]));
  (*1662*) AddTo n_l2new'aaaa (Times (Einsum [(T 153,[0;1;2;3]); (n_l2'aaaa,[4;3;5;0])] [2;4;5;1]) (2) 1);
  (*1663*) Del (T 153);
  (*1664*) AddTo n_l2new'aaaa (Times (Einsum [(n_v'baa'xov,[0;1;2]); (T 155,[0;3;4])] [2;4;3;1]) (-2) 1);
  (*1665*) Del (T 155);
  (*1666*) AddTo n_l2new'aaaa (Times (Transpose (T 156) [3;2;0;1]) (-1) 1);
  (*1667*) AddTo n_l2new'aaaa (Times (Einsum [(T 157,[0;1]); (n_l1'aa,[2;3])] [1;2;3;0]) (-1) 1);
  (*1668*) Del (T 157);
  (*1669*) AddTo n_l2new'aaaa (Times (Transpose (T 159) [2;3;0;1]) (-2) 1);
  (*1670*) AddTo n_l2new'aaaa (Plain (Transpose (T 165) [3;2;1;0]));
  (*1671*) AddTo n_l2new'aaaa (Plain (Transpose (T 156) [3;2;1;0]));
  (*1672*) Del (T 156);
  (*1673*) AddTo n_l2new'aaaa (Plain (Einsum [(n_l1'aa,[0;1]); (T 167,[2;3])] [3;0;2;1]));
  (*1674*) AddTo n_l2new'aaaa (Times (Transpose (T 159) [3;2;1;0]) (-2) 1);
  (*1675*) AddTo n_l2new'aaaa (Plain (Transpose (T 165) [2;3;0;1]));
  (*1676*) AddTo n_l2new'aaaa (Plain (Einsum [(T 167,[0;1]); (n_l1'aa,[2;3])] [2;1;3;0]));
  (*1677*) AddTo n_l2new'aaaa (Times (Transpose (T 159) [3;2;0;1]) (2) 1);
  (*1678*) Del (T 159);
  (*1679*) AddTo n_l2new'aaaa (Times (Transpose (T 165) [2;3;1;0]) (-1) 1);
  (*1680*) Del (T 165);
  (*1681*) AddTo n_l2new'aaaa (Times (Einsum [(T 167,[0;1]); (n_l1'aa,[2;3])] [2;1;0;3]) (-1) 1);
  (*1682*) Del (T 167);
  (*1683*) AddTo n_l2new'aaaa (Times (Transpose (T 169) [2;3;1;0]) (-2) 1);
  (*1684*) Del (T 169);
  (*1685*) AddTo n_l2new'aaaa (Times (Transpose (T 170) [2;3;1;0]) (2) 1);
  (*1686*) AddTo n_l2new'aaaa (Times (Transpose (T 172) [3;2;1;0]) (4) 1);
  (*1687*) Del (T 172);
  (*1688*) AddTo n_l2new'aaaa (Times (Transpose (T 177) [2;3;1;0]) (2) 1);
  (*1689*) AddTo n_l2new'aaaa (Times (Transpose (T 179) [2;3;1;0]) (-2) 1);
  (*1690*) AddTo n_l2new'aaaa (Times (Transpose (T 170) [3;2;1;0]) (-2) 1);
  (*1691*) Del (T 170);
  (*1692*) AddTo n_l2new'aaaa (Times (Transpose (T 177) [3;2;1;0]) (-2) 1);
  (*1693*) Del (T 177);
  (*1694*) AddTo n_l2new'aaaa (Times (Transpose (T 179) [3;2;1;0]) (2) 1);
  (*1695*) Del (T 179);
  (*1696*) AddTo n_l2new'aaaa (Times (Transpose (T 180) [2;3;0;1]) (-2) 1);
  (*1697*) AddTo n_l2new'aaaa (Times (Transpose (T 180) [2;3;1;0]) (2) 1);
  (*1698*) Del (T 180);
  (*1699*) AddTo n_l2new'aaaa (Times (Einsum [(T 181,[0;1;2;3]); (n_l2'aaaa,[4;5;0;2])] [4;5;1;3]) (-2) 1);
  (*1700*) Del (T 181);
  (*1701*) AddTo n_l2new'aaaa (Times (Transpose (T 182) [3;2;0;1]) (-1) 1);
  (*1702*) AddTo n_l2new'aaaa (Plain (Einsum [(T 151,[0;1;2;3]); (n_l1'aa,[4;1])] [3;4;0;2]));
  (*1703*) Del (T 151);
  (*1704*) AddTo n_l2new'aaaa (Plain (Transpose (T 182) [2;3;0;1]));
  (*1705*) Del (T 182);
  (*1706*) AddTo n_l2new'aaaa (Times (Transpose (T 152) [3;2;1;0]) (-1) 1);
  (*1707*) Del (T 152);
  (*1708*) AddTo n_l2new'aaaa (Times (Transpose (T 184) [3;2;0;1]) (-2) 1);
  (*1709*) AddTo n_l2new'aaaa (Plain (Einsum [(T 12,[0;1]); (n_l1'aa,[2;3])] [1;2;3;0]));
  (*1710*) AddTo n_l2new'aaaa (Times (Transpose (T 186) [3;2;0;1]) (-2) 1);
  (*1711*) AddTo n_l2new'aaaa (Plain (Transpose (T 188) [3;2;0;1]));
  (*1712*) AddTo n_l2new'aaaa (Times (Transpose (T 190) [2;3;0;1]) (-1) 1);
  (*1713*) AddTo n_l2new'aaaa (Times (Transpose (T 184) [2;3;0;1]) (2) 1);
  (*1714*) AddTo n_l2new'aaaa (Times (Einsum [(n_l1'aa,[0;1]); (T 12,[2;3])] [0;3;1;2]) (-1) 1);
  (*1715*) AddTo n_l2new'aaaa (Times (Transpose (T 186) [2;3;0;1]) (2) 1);
  (*1716*) AddTo n_l2new'aaaa (Times (Transpose (T 188) [2;3;0;1]) (-1) 1);
  (*1717*) AddTo n_l2new'aaaa (Plain (Transpose (T 190) [3;2;0;1]));
  (*1718*) AddTo n_l2new'aaaa (Times (Transpose (T 184) [3;2;1;0]) (2) 1);
  (*1719*) AddTo n_l2new'aaaa (Times (Einsum [(n_l1'aa,[0;1]); (T 12,[2;3])] [3;0;2;1]) (-1) 1);
  (*1720*) AddTo n_l2new'aaaa (Times (Transpose (T 186) [3;2;1;0]) (2) 1);
  (*1721*) AddTo n_l2new'aaaa (Times (Transpose (T 188) [3;2;1;0]) (-1) 1);
  (*1722*) AddTo n_l2new'aaaa (Plain (Transpose (T 190) [2;3;1;0]));
  (*1723*) AddTo n_l2new'aaaa (Times (Transpose (T 184) [2;3;1;0]) (-2) 1);
  (*1724*) Del (T 184);
  (*1725*) AddTo n_l2new'aaaa (Plain (Einsum [(n_l1'aa,[0;1]); (T 12,[2;3])] [0;3;2;1]));
  (*1726*) Del (T 12);
  (*1727*) AddTo n_l2new'aaaa (Times (Transpose (T 186) [2;3;1;0]) (-2) 1);
  (*1728*) Del (T 186);
  (*1729*) AddTo n_l2new'aaaa (Plain (Transpose (T 188) [2;3;1;0]));
  (*1730*) Del (T 188);
  (*1731*) AddTo n_l2new'aaaa (Times (Transpose (T 190) [3;2;1;0]) (-1) 1);
  (*1732*) Del (T 190);
  (*1733*) Assign n_l1new'bb (Plain (Transpose n_f'bb'ov [1;0]));
  (*1734*) AddTo n_l1new'bb (Times (Einsum [(n_l2'abab,[0;1;2;3]); (T 108,[2;4;3;0])] [1;4]) (-2) 1);
  (*1735*) Del (T 108);
  (*1736*) AddTo n_l1new'bb (Times (Einsum [(T 118,[0;1;2;3]); (n_l2'bbbb,[4;3;1;2])] [4;0]) (2) 1);
  (*1737*) Del (T 118);
  (*1738*) AddTo n_l1new'bb (Times (Einsum [(T 121,[0;1;2]); (n_v'bbb'xvv,[0;3;2])] [3;1]) (-1) 1);
  (*1739*) Del (T 121);
  (*1740*) AddTo n_l1new'bb (Times (Einsum [(T 122,[0]); (n_v'bbb'xov,[0;1;2])] [2;1]) (2) 1);
  (*1741*) Del (T 122);
  (*1742*) AddTo n_l1new'bb (Times (Einsum [(T 128,[0;1]); (n_l1'bb,[2;0])] [2;1]) (-1) 1);
  (*1743*) Del (T 128);
  (*1744*) AddTo n_l1new'bb (Times (Einsum [(T 133,[0;1;2]); (n_v'bbb'xvv,[0;3;2])] [3;1]) (2) 1);
  (*1745*) Del (T 133);
  (*1746*) AddTo n_l1new'bb (Times (Einsum [(n_v'bbb'xov,[0;1;2]); (T 145,[0;1;3])] [2;3]) (-1) 1);
  (*1747*) Del (T 145);
  (*1748*) AddTo n_l1new'bb (Times (Einsum [(T 68,[0;1]); (T 106,[1;2])] [2;0]) (-1) 1);
  (*1749*) Del (T 106);
  (*1749*) Del (T 68);
  (*1750*) AddTo n_l1new'bb (Plain (Einsum [(n_l1'bb,[0;1]); (T 146,[0;2])] [2;1]));
  (*1751*) Del (T 146);
  (*1752*) Assign n_l1new'aa (Plain (Transpose n_f'aa'ov [1;0]));
  (*1753*) AddTo n_l1new'aa (Times (Einsum [(T 22,[0;1;2;3]); (n_l2'abab,[4;3;1;2])] [4;0]) (-1) 1);
  (*1754*) Del (T 22);
  (*1755*) AddTo n_l1new'aa (Times (Einsum [(n_l2'aaaa,[0;1;2;3]); (T 35,[4;2;3;1])] [0;4]) (4) 1);
  (*1756*) Del (T 35);
  (*1757*) AddTo n_l1new'aa (Times (Einsum [(n_v'baa'xvv,[0;1;2]); (T 40,[0;3;2])] [1;3]) (-2) 1);
  (*1758*) Del (T 40);
  (*1759*) AddTo n_l1new'aa (Plain (Einsum [(T 73,[0]); (n_v'baa'xov,[0;1;2])] [2;1]));
  (*1760*) Del (T 73);
  (*1761*) AddTo n_l1new'aa (Times (Einsum [(n_l1'aa,[0;1]); (T 79,[1;2])] [0;2]) (-1) 1);
  (*1762*) Del (T 79);
  (*1763*) AddTo n_l1new'aa (Times (Einsum [(T 85,[0;1;2]); (n_v'baa'xvv,[0;3;2])] [3;1]) (4) 1);
  (*1764*) Del (T 85);
  (*1765*) AddTo n_l1new'aa (Times (Einsum [(n_v'baa'xov,[0;1;2]); (T 98,[0;1;3])] [2;3]) (-4) 1);
  (*1766*) Del (T 98);
  (*1767*) AddTo n_l1new'aa (Times (Einsum [(T 17,[0;1]); (T 56,[2;0])] [1;2]) (-2) 1);
  (*1768*) Del (T 17);
  (*1768*) Del (T 56);
  (*1769*) AddTo n_l1new'aa (Plain (Einsum [(T 100,[0;1]); (n_l1'aa,[0;2])] [1;2]));
  (*1770*) Del (T 100)]
 [(n_l1new'bb,[7;6]); (n_l1new'aa,[5;4]); (n_l2new'bbbb,[7;7;6;6]); (n_l2new'abab,[5;7;4;6]); (n_l2new'aaaa,[5;5;4;4])].

(** ebcc/codegen/UDFCCSD.py:1774-1862 [make_rdm1_f]; assembly (line 1859) not translated; assembly (line 1860) not translated *)
Definition UDFCCSD_make_rdm1_f : prog := mkprog
 [(n_t2'aaaa,[4;4;5;5]); (n_t2'bbbb,[6;6;7;7]); (n_l1'bb,[7;6]); (n_t1'bb,[6;7]); (n_l2'abab,[5;7;4;6]); (n_t2'abab,[4;6;5;7]); (n_l2'bbbb,[7;7;6;6]); (n_l2'aaaa,[5;5;4;4]); (n_t1'aa,[4;5]); (n_l1'aa,[5;4])]
 [(*1798*) Assign n_delta'aa'oo (Plain (Eye 4));
  (*1798*) Assign n_delta'aa'vv (Plain (Eye 5));
  (*1798*) Assign n_delta'bb'oo (Plain (Eye 6));
  (*1798*) Assign n_delta'bb'vv (Plain (Eye 7));
  (*1802*) Assign (T 5) (Plain (Einsum [(n_l1'bb,[0;1]); (n_t1'bb,[2;0])] [1;2]));
  (*1803*) Assign (T 6) (Plain (Einsum [(n_l2'abab,[0;1;2;3]); (n_t2'abab,[2;4;0;1])] [3;4]));
  (*1804*) Assign (T 4) (Plain (Einsum [(n_t2'bbbb,[0;1;2;3]); (n_l2'bbbb,[2;3;4;1])] [4;0]));
  (*1805*) Assign (T 1) (Plain (Einsum [(n_l2'abab,[0;1;2;3]); (n_t2'abab,[4;3;0;1])] [2;4]));
  (*1806*) Assign (T 2) (Plain (Einsum [(n_l2'aaaa,[0;1;2;3]); (n_t2'aaaa,[4;3;0;1])] [2;4]));
  (*1807*) Assign (T 3) (Plain (Einsum [(n_t1'aa,[0;1]); (n_l1'aa,[1;2])] [2;0]));
  (*1808*) Assign (T 11) (Plain (Einsum [(n_l2'abab,[0;1;2;3]); (n_t1'bb,[4;1])] [2;3;4;0]));
  (*1809*) Assign (T 12) (Times (Copy (T 5)) (1) 2);
  (*1810*) AddTo (T 12) (Times (Copy (T 6)) (1) 2);
  (*1811*) AddTo (T 12) (Plain (Copy (T 4)));
  (*1812*) Assign (T 10) (Plain (Einsum [(n_t1'bb,[0;1]); (n_l2'bbbb,[2;1;3;4])] [3;4;0;2]));
  (*1813*) Assign (T 9) (Times (Copy (T 3)) (1) 2);
  (*1814*) AddTo (T 9) (Plain (Copy (T 2)));
  (*1815*) AddTo (T 9) (Times (Copy (T 1)) (1) 2);
  (*1816*) Assign (T 7) (Plain (Einsum [(n_l2'abab,[0;1;2;3]); (n_t1'aa,[4;0])] [2;4;3;1]));
  (*1817*) Assign (T 8) (Plain (Einsum [(n_t1'aa,[0;1]); (n_l2'aaaa,[2;1;3;4])] [3;4;0;2]));
  (*1818*) Assign n_rdm1'bb'vv (Plain (Einsum [(n_l1'bb,[0;1]); (n_t1'bb,[1;2])] [0;2]));
  (*1819*) AddTo n_rdm1'bb'vv (Times (Einsum [(n_t2'bbbb,[0;1;2;3]); (n_l2'bbbb,[4;3;0;1])] [4;2]) (2) 1);
  (*1820*) AddTo n_rdm1'bb'vv (Plain (Einsum [(n_l2'abab,[0;1;2;3]); (n_t2'abab,[2;3;0;4])] [1;4]));
  (*1821*) Assign n_rdm1'aa'vv (Plain (Einsum [(n_t1'aa,[0;1]); (n_l1'aa,[2;0])] [2;1]));
  (*1822*) AddTo n_rdm1'aa'vv (Plain (Einsum [(n_l2'abab,[0;1;2;3]); (n_t2'abab,[2;3;4;1])] [0;4]));
  (*1823*) AddTo n_rdm1'aa'vv (Times (Einsum [(n_t2'aaaa,[0;1;2;3]); (n_l2'aaaa,[4;3;0;1])] [4;2]) (2) 1);
  (*1824*) Assign n_rdm1'bb'vo (Plain (Copy n_l1'bb));
  (*1825*) Assign n_rdm1'aa'vo (Plain (Copy n_l1'aa));
  (*1826*) Assign n_rdm1'bb'ov (Times (Einsum [(n_l1'bb,[0;1]); (n_t2'bbbb,[2;1;3;0])] [2;3]) (2) 1);
  (*1827*) AddTo n_rdm1'bb'ov (Plain (Copy n_t1'bb));
  (*1828*) AddTo n_rdm1'bb'ov (Plain (Einsum [(n_t2'abab,[0;1;2;3]); (n_l1'aa,[2;0])] [1;3]));
  (*1829*) AddTo n_rdm1'bb'ov (Times (Einsum [(n_t2'bbbb,[0;1;2;3]); (T 10,[1;0;4;3])] [4;2]) (-2) 1);
  (*1830*) Del (T 10);
  (*1831*) AddTo n_rdm1'bb'ov (Times (Einsum [(n_t2'abab,[0;1;2;3]); (T 11,[0;1;4;2])] [4;3]) (-1) 1);
  (*1832*) Del (T 11);
  (*1833*) AddTo n_rdm1'bb'ov (Times (Einsum [(n_t1'bb,[0;1]); (T 12,[0;2])] [2;1]) (-2) 1);
  (*1834*) Del (T 12);
  (*1835*) Assign n_rdm1'aa'ov (Plain (Copy n_t1'aa));
  (*1836*) AddTo n_rdm1'aa'ov (Plain (Einsum [(n_t2'abab,[0;1;2;3]); (n_l1'bb,[3;1])] [0;2]));
  (*1837*) AddTo n_rdm1'aa'ov (Times (Einsum [(n_l1'aa,[0;1]); (n_t2'aaaa,[2;1;3;0])] [2;3]) (2) 1);
  (*1838*) AddTo n_rdm1'aa'ov (Times (Einsum [(n_t2'abab,[0;1;2;3]); (T 7,[0;4;1;3])] [4;2]) (-1) 1);
  (*1839*) Del (T 7);
  (*1840*) AddTo n_rdm1'aa'ov (Times (Einsum [(n_t2'aaaa,[0;1;2;3]); (T 8,[1;0;4;3])] [4;2]) (-2) 1);
  (*1841*) Del (T 8);
  (*1842*) AddTo n_rdm1'aa'ov (Times (Einsum [(T 9,[0;1]); (n_t1'aa,[0;2])] [1;2]) (-2) 1);
  (*1843*) Del (T 9);
  (*1844*) Assign n_rdm1'bb'oo (Times (Transpose (T 4) [1;0]) (-2) 1);
  (*1845*) Del (T 4);
  (*1846*) AddTo n_rdm1'bb'oo (Times (Transpose (T 5) [1;0]) (-1) 1);
  (*1847*) Del (T 5);
  (*1848*) AddTo n_rdm1'bb'oo (Plain (Copy n_delta'bb'oo));
  (*1849*) AddTo n_rdm1'bb'oo (Times (Transpose (T 6) [1;0]) (-1) 1);
  (*1850*) Del (T 6);
  (*1851*) Assign n_rdm1'aa'oo (Times (Transpose (T 1) [1;0]) (-1) 1);
  (*1852*) Del (T 1);
  (*1853*) AddTo n_rdm1'aa'oo (Times (Transpose (T 2) [1;0]) (-2) 1);
  (*1854*) Del (T 2);
  (*1855*) AddTo n_rdm1'aa'oo (Times (Transpose (T 3) [1;0]) (-1) 1);
  (*1856*) Del (T 3);
  (*1857*) AddTo n_rdm1'aa'oo (Plain (Copy n_delta'aa'oo));
  (*1858*) Del n_delta'aa'oo;
  (*1858*) Del n_delta'aa'vv;
  (*1858*) Del n_delta'bb'oo;
  (*1858*) Del n_delta'bb'vv]
 [(n_rdm1'aa'oo,[4;4]); (n_rdm1'aa'ov,[4;5]); (n_rdm1'aa'vo,[5;4]); (n_rdm1'aa'vv,[5;5]); (n_rdm1'bb'oo,[6;6]); (n_rdm1'bb'ov,[6;7]); (n_rdm1'bb'vo,[7;6]); (n_rdm1'bb'vv,[7;7])].

(** ebcc/codegen/UDFCCSD.py:1864-2517 [make_rdm2_f]; assembly (line 2508) not translated; assembly (line 2509) not translated; assembly (line 2510) not translated *)
Definition UDFCCSD_make_rdm2_f : prog := mkprog
 [(n_t2'aaaa,[4;4;5;5]); (n_t2'bbbb,[6;6;7;7]); (n_l2'abab,[5;7;4;6]); (n_t2'abab,[4;6;5;7]); (n_l1'bb,[7;6]); (n_t1'bb,[6;7]); (n_l2'bbbb,[7;7;6;6]); (n_t1'aa,[4;5]); (n_l1'aa,[5;4]); (n_l2'aaaa,[5;5;4;4])]
 [(*1889*) Assign n_delta'aa'oo (Plain (Eye 4));
  (*1889*) Assign n_delta'aa'vv (Plain (Eye 5));
  (*1889*) Assign n_delta'bb'oo (Plain (Eye 6));
  (*1889*) Assign n_delta'bb'vv (Plain (Eye 7));
  (*1893*) Assign (T 10) (Plain (Einsum [(n_l2'abab,[0;1;2;3]); (n_t2'abab,[2;4;0;1])] [3;4]));
  (*1894*) Assign (T 9) (Plain (Einsum [(n_l1'bb,[0;1]); (n_t1'bb,[2;0])] [1;2]));
  (*1895*) Assign (T 11) (Plain (Einsum [(n_t2'bbbb,[0;1;2;3]); (n_l2'bbbb,[2;3;4;1])] [4;0]));
  (*1896*) Assign (T 20) (Plain (Einsum [(n_t1'bb,[0;1]); (n_l2'bbbb,[2;1;3;4])] [3;4;0;2]));
  (*1897*) Assign (T 14) (Plain (Einsum [(n_l2'abab,[0;1;2;3]); (n_t1'bb,[4;1])] [2;3;4;0]));
  (*1898*) Assign (T 1) (Plain (Einsum [(n_t1'aa,[0;1]); (n_l1'aa,[1;2])] [2;0]));
  (*1899*) Assign (T 2) (Plain (Einsum [(n_l2'aaaa,[0;1;2;3]); (n_t2'aaaa,[4;3;0;1])] [2;4]));
  (*1900*) Assign (T 3) (Plain (Einsum [(n_l2'abab,[0;1;2;3]); (n_t2'abab,[4;3;0;1])] [2;4]));
  (*1901*) Assign (T 7) (Plain (Einsum [(n_t1'aa,[0;1]); (n_l2'aaaa,[2;1;3;4])] [3;4;0;2]));
  (*1902*) Assign (T 28) (Plain (Einsum [(n_l2'abab,[0;1;2;3]); (n_t1'aa,[4;0])] [2;4;3;1]));
  (*1903*) Assign (T 89) (Plain (Einsum [(n_l2'abab,[0;1;2;3]); (n_t2'abab,[2;4;0;5])] [3;4;1;5]));
  (*1904*) Assign (T 90) (Plain (Einsum [(n_l2'bbbb,[0;1;2;3]); (n_t2'bbbb,[4;3;5;1])] [2;4;0;5]));
  (*1905*) Assign (T 71) (Plain (Einsum [(n_l2'aaaa,[0;1;2;3]); (n_t2'aaaa,[4;3;5;1])] [2;4;0;5]));
  (*1906*) Assign (T 73) (Plain (Einsum [(n_l2'abab,[0;1;2;3]); (n_t2'abab,[4;3;5;1])] [2;4;0;5]));
  (*1907*) Assign (T 18) (Plain (Copy (T 9)));
  (*1908*) AddTo (T 18) (Plain (Copy (T 10)));
  (*1909*) AddTo (T 18) (Times (Copy (T 11)) (2) 1);
  (*1910*) Assign (T 19) (Plain (Einsum [(n_l2'bbbb,[0;1;2;3]); (n_t2'bbbb,[4;5;0;1])] [2;3;4;5]));
  (*1911*) Assign (T 21) (Plain (Einsum [(n_t1'bb,[0;1]); (T 20,[2;3;4;1])] [2;3;0;4]));
  (*1912*) Assign (T 54) (Plain (Einsum [(n_t2'abab,[0;1;2;3]); (T 14,[0;4;5;2])] [4;5;1;3]));
  (*1913*) Assign (T 55) (Times (Einsum [(n_t2'bbbb,[0;1;2;3]); (T 20,[4;1;5;3])] [4;5;0;2]) (-1) 1);
  (*1914*) Assign (T 30) (Times (Copy (T 1)) (1) 2);
  (*1915*) AddTo (T 30) (Plain (Copy (T 2)));
  (*1916*) AddTo (T 30) (Times (Copy (T 3)) (1) 2);
  (*1917*) Assign (T 15) (Plain (Einsum [(n_t1'aa,[0;1]); (T 14,[2;3;4;1])] [2;0;3;4]));
  (*1918*) Assign (T 13) (Plain (Einsum [(n_l2'abab,[0;1;2;3]); (n_t2'abab,[4;5;0;1])] [2;4;3;5]));
  (*1919*) Assign (T 6) (Plain (Einsum [(n_t2'aaaa,[0;1;2;3]); (n_l2'aaaa,[2;3;4;5])] [4;5;0;1]));
  (*1920*) Assign (T 8) (Plain (Einsum [(n_t1'aa,[0;1]); (T 7,[2;3;4;1])] [2;3;0;4]));
  (*1921*) Assign (T 33) (Plain (Einsum [(n_t2'abab,[0;1;2;3]); (T 28,[4;5;1;3])] [4;5;0;2]));
  (*1922*) Assign (T 34) (Times (Einsum [(T 7,[0;1;2;3]); (n_t2'aaaa,[4;1;5;3])] [0;2;4;5]) (-1) 1);
  (*1923*) Assign (T 91) (Plain (Copy (T 89)));
  (*1924*) AddTo (T 91) (Times (Copy (T 90)) (4) 1);
  (*1925*) Assign (T 112) (Plain (Einsum [(T 20,[0;1;2;3]); (n_t1'bb,[1;4])] [0;2;3;4]));
  (*1926*) Assign (T 84) (Plain (Einsum [(n_t2'bbbb,[0;1;2;3]); (n_l2'bbbb,[4;3;0;1])] [4;2]));
  (*1927*) Assign (T 109) (Plain (Einsum [(n_l1'bb,[0;1]); (n_t1'bb,[1;2])] [0;2]));
  (*1928*) Assign (T 83) (Plain (Einsum [(n_l2'abab,[0;1;2;3]); (n_t2'abab,[2;3;0;4])] [1;4]));
  (*1929*) Assign (T 87) (Plain (Einsum [(n_l2'abab,[0;1;2;3]); (n_t2'bbbb,[4;3;5;1])] [2;4;0;5]));
  (*1930*) Assign (T 86) (Plain (Einsum [(n_l2'aaaa,[0;1;2;3]); (n_t2'abab,[3;4;1;5])] [2;4;0;5]));
  (*1931*) Assign (T 67) (Plain (Einsum [(n_l2'abab,[0;1;2;3]); (n_t2'abab,[2;3;4;1])] [0;4]));
  (*1932*) Assign (T 106) (Plain (Einsum [(n_t1'aa,[0;1]); (n_l1'aa,[2;0])] [2;1]));
  (*1933*) Assign (T 66) (Plain (Einsum [(n_t2'aaaa,[0;1;2;3]); (n_l2'aaaa,[4;3;0;1])] [4;2]));
  (*1934*) Assign (T 119) (Times (Copy (T 71)) (4) 1);
  (*1935*) AddTo (T 119) (Plain (Copy (T 73)));
  (*1936*) Assign (T 108) (Plain (Einsum [(n_t1'aa,[0;1]); (T 7,[2;0;3;4])] [2;3;4;1]));
  (*1937*) Assign (T 114) (Plain (Einsum [(n_t2'aaaa,[0;1;2;3]); (n_l2'abab,[3;4;1;5])] [0;5;2;4]));
  (*1938*) Assign (T 69) (Plain (Einsum [(n_l2'bbbb,[0;1;2;3]); (n_t2'abab,[4;3;5;1])] [4;2;5;0]));
  (*1939*) Assign (T 41) (Plain (Einsum [(n_t2'abab,[0;1;2;3]); (T 14,[0;1;4;2])] [4;3]));
  (*1940*) Assign (T 43) (Plain (Einsum [(T 18,[0;1]); (n_t1'bb,[0;2])] [1;2]));
  (*1941*) Assign (T 42) (Plain (Einsum [(n_t2'bbbb,[0;1;2;3]); (T 20,[1;0;4;3])] [4;2]));
  (*1942*) Assign (T 17) (Times (Copy (T 9)) (1) 2);
  (*1943*) AddTo (T 17) (Times (Copy (T 10)) (1) 2);
  (*1944*) AddTo (T 17) (Plain (Copy (T 11)));
  (*1945*) Assign (T 56) (Plain (Transpose (T 19) [1;0;3;2]));
  (*1946*) AddTo (T 56) (Times (Transpose (T 21) [0;1;3;2]) (-1) 1);
  (*1947*) Assign (T 37) (Plain (Einsum [(n_t2'abab,[0;1;2;3]); (n_l1'aa,[2;0])] [1;3]));
  (*1948*) Assign (T 38) (Plain (Einsum [(n_l1'bb,[0;1]); (n_t2'bbbb,[2;1;3;0])] [2;3]));
  (*1949*) Assign (T 104) (Plain (Copy (T 54)));
  (*1950*) AddTo (T 104) (Times (Copy (T 55)) (4) 1);
  (*1951*) Assign (T 51) (Plain (Einsum [(n_l1'bb,[0;1]); (n_t2'bbbb,[2;3;4;0])] [1;2;3;4]));
  (*1952*) Assign (T 31) (Times (Einsum [(n_t1'aa,[0;1]); (T 30,[0;2])] [2;1]) (2) 1);
  (*1953*) Assign (T 27) (Plain (Einsum [(n_t2'aaaa,[0;1;2;3]); (T 7,[1;0;4;3])] [4;2]));
  (*1954*) Assign (T 29) (Plain (Einsum [(n_t2'abab,[0;1;2;3]); (T 28,[0;4;1;3])] [4;2]));
  (*1955*) Assign (T 47) (Plain (Copy (T 13)));
  (*1956*) AddTo (T 47) (Plain (Copy (T 15)));
  (*1957*) Assign (T 62) (Times (Einsum [(n_t2'abab,[0;1;2;3]); (T 20,[4;1;5;3])] [0;4;5;2]) (-1) 1);
  (*1958*) Assign (T 63) (Plain (Einsum [(T 14,[0;1;2;3]); (n_t2'aaaa,[4;0;5;3])] [4;1;2;5]));
  (*1959*) Assign (T 45) (Times (Einsum [(n_t2'abab,[0;1;2;3]); (T 7,[4;0;5;2])] [4;5;1;3]) (-1) 1);
  (*1960*) Assign (T 46) (Plain (Einsum [(n_t2'bbbb,[0;1;2;3]); (T 28,[4;5;1;3])] [4;5;0;2]));
  (*1961*) Assign (T 23) (Plain (Einsum [(n_t2'abab,[0;1;2;3]); (n_l1'bb,[3;1])] [0;2]));
  (*1962*) Assign (T 22) (Plain (Einsum [(n_l1'aa,[0;1]); (n_t2'aaaa,[2;1;3;0])] [2;3]));
  (*1963*) Assign (T 35) (Plain (Transpose (T 6) [1;0;3;2]));
  (*1964*) AddTo (T 35) (Times (Transpose (T 8) [0;1;3;2]) (-1) 1);
  (*1965*) Assign (T 81) (Times (Copy (T 34)) (4) 1);
  (*1966*) AddTo (T 81) (Plain (Copy (T 33)));
  (*1967*) Assign (T 26) (Plain (Einsum [(n_t2'aaaa,[0;1;2;3]); (n_l1'aa,[3;4])] [4;0;1;2]));
  (*1968*) Assign (T 58) (Plain (Einsum [(n_t1'aa,[0;1]); (T 30,[0;2])] [2;1]));
  (*1969*) Assign (T 52) (Times (Einsum [(T 18,[0;1]); (n_t1'bb,[0;2])] [1;2]) (1) 2);
  (*1970*) Assign (T 132) (Plain (Einsum [(n_l2'bbbb,[0;1;2;3]); (n_t1'bb,[3;4])] [2;0;1;4]));
  (*1971*) Assign (T 134) (Plain (Einsum [(n_t2'bbbb,[0;1;2;3]); (n_l2'bbbb,[4;5;0;1])] [4;5;2;3]));
  (*1972*) Assign (T 131) (Plain (Einsum [(n_l2'abab,[0;1;2;3]); (n_t1'bb,[3;4])] [2;0;1;4]));
  (*1973*) Assign (T 130) (Plain (Einsum [(n_l2'aaaa,[0;1;2;3]); (n_t1'aa,[3;4])] [2;0;1;4]));
  (*1974*) Assign (T 133) (Plain (Einsum [(n_l2'aaaa,[0;1;2;3]); (n_t2'aaaa,[2;3;4;5])] [0;1;4;5]));
  (*1975*) Assign (T 127) (Plain (Einsum [(T 91,[0;1;2;3]); (n_t1'bb,[0;4])] [1;4;2;3]));
  (*1976*) Assign (T 125) (Plain (Einsum [(n_t2'bbbb,[0;1;2;3]); (n_l1'bb,[4;1])] [0;4;2;3]));
  (*1977*) Assign (T 129) (Times (Einsum [(T 112,[0;1;2;3]); (n_t1'bb,[0;4])] [1;2;3;4]) (-1) 1);
  (*1978*) Assign (T 110) (Plain (Copy (T 109)));
  (*1979*) AddTo (T 110) (Plain (Copy (T 83)));
  (*1980*) AddTo (T 110) (Times (Copy (T 84)) (2) 1);
  (*1981*) Assign (T 123) (Times (Copy (T 109)) (1) 2);
  (*1982*) Del (T 109);
  (*1983*) AddTo (T 123) (Times (Copy (T 83)) (1) 2);
  (*1984*) AddTo (T 123) (Plain (Copy (T 84)));
  (*1985*) Assign (T 128) (Times (Einsum [(T 20,[0;1;2;3]); (n_t2'bbbb,[1;0;4;5])] [2;3;4;5]) (-1) 1);
  (*1986*) Assign (T 88) (Plain (Copy (T 86)));
  (*1987*) AddTo (T 88) (Plain (Copy (T 87)));
  (*1988*) Assign (T 116) (Plain (Einsum [(T 14,[0;1;2;3]); (n_t1'bb,[1;4])] [0;2;3;4]));
  (*1989*) Assign (T 92) (Plain (Einsum [(n_l2'abab,[0;1;2;3]); (n_t2'abab,[2;4;5;1])] [3;4;0;5]));
  (*1990*) Assign (T 113) (Times (Copy (T 106)) (1) 2);
  (*1991*) AddTo (T 113) (Plain (Copy (T 66)));
  (*1992*) AddTo (T 113) (Times (Copy (T 67)) (1) 2);
  (*1993*) Assign (T 117) (Plain (Einsum [(n_l1'aa,[0;1]); (n_t2'aaaa,[2;1;3;4])] [2;0;3;4]));
  (*1994*) Assign (T 107) (Plain (Copy (T 106)));
  (*1995*) Del (T 106);
  (*1996*) AddTo (T 107) (Times (Copy (T 66)) (2) 1);
  (*1997*) AddTo (T 107) (Plain (Copy (T 67)));
  (*1998*) Assign (T 120) (Plain (Einsum [(n_t1'aa,[0;1]); (T 119,[0;2;3;4])] [2;1;3;4]));
  (*1999*) Del (T 119);
  (*2000*) Assign (T 122) (Times (Einsum [(T 108,[0;1;2;3]); (n_t1'aa,[0;4])] [1;2;3;4]) (-1) 1);
  (*2001*) Assign (T 121) (Times (Einsum [(T 7,[0;1;2;3]); (n_t2'aaaa,[1;0;4;5])] [2;3;4;5]) (-1) 1);
  (*2002*) Assign (T 126) (Times (Copy (T 89)) (1) 4);
  (*2003*) AddTo (T 126) (Plain (Copy (T 90)));
  (*2004*) Assign (T 115) (Plain (Einsum [(n_t1'aa,[0;1]); (T 28,[0;2;3;4])] [2;3;1;4]));
  (*2005*) Assign (T 111) (Plain (Einsum [(n_l2'abab,[0;1;2;3]); (n_t2'abab,[4;3;0;5])] [2;4;1;5]));
  (*2006*) Assign (T 124) (Plain (Copy (T 114)));
  (*2007*) AddTo (T 124) (Plain (Copy (T 69)));
  (*2008*) Assign (T 118) (Times (Copy (T 71)) (4) 1);
  (*2009*) AddTo (T 118) (Plain (Copy (T 73)));
  (*2010*) Assign (T 100) (Plain (Copy (T 83)));
  (*2011*) AddTo (T 100) (Times (Copy (T 84)) (2) 1);
  (*2012*) Assign (T 44) (Plain (Copy (T 41)));
  (*2013*) AddTo (T 44) (Times (Copy (T 42)) (2) 1);
  (*2014*) AddTo (T 44) (Plain (Copy (T 43)));
  (*2015*) Del (T 43);
  (*2016*) Assign (T 101) (Times (Einsum [(n_t2'bbbb,[0;1;2;3]); (T 17,[1;4])] [0;4;2;3]) (-2) 1);
  (*2017*) Assign (T 95) (Plain (Einsum [(n_t2'abab,[0;1;2;3]); (T 86,[0;4;2;5])] [4;1;5;3]));
  (*2018*) Assign (T 102) (Plain (Einsum [(n_t2'bbbb,[0;1;2;3]); (T 56,[0;1;4;5])] [4;5;2;3]));
  (*2019*) Assign (T 39) (Plain (Copy n_t1'bb));
  (*2020*) AddTo (T 39) (Plain (Copy (T 37)));
  (*2021*) AddTo (T 39) (Times (Copy (T 38)) (2) 1);
  (*2022*) Assign (T 65) (Plain (Copy n_t1'bb));
  (*2023*) AddTo (T 65) (Plain (Copy (T 37)));
  (*2024*) AddTo (T 65) (Times (Copy (T 38)) (2) 1);
  (*2025*) Assign (T 98) (Plain (Copy (T 37)));
  (*2026*) AddTo (T 98) (Times (Copy (T 38)) (2) 1);
  (*2027*) Assign (T 96) (Plain (Einsum [(n_t2'bbbb,[0;1;2;3]); (T 90,[1;4;3;5])] [4;0;5;2]));
  (*2028*) Assign (T 103) (Plain (Einsum [(T 56,[0;1;2;3]); (n_t1'bb,[0;4])] [1;3;2;4]));
  (*2029*) Assign (T 105) (Plain (Einsum [(n_t1'bb,[0;1]); (T 104,[0;2;3;4])] [2;3;1;4]));
  (*2030*) Del (T 104);
  (*2031*) Assign (T 85) (Times (Copy (T 83)) (1) 2);
  (*2032*) Del (T 83);
  (*2033*) AddTo (T 85) (Plain (Copy (T 84)));
  (*2034*) Del (T 84);
  (*2035*) Assign (T 97) (Plain (Einsum [(T 89,[0;1;2;3]); (n_t2'bbbb,[4;0;5;2])] [1;4;3;5]));
  (*2036*) Assign (T 99) (Plain (Einsum [(n_t1'bb,[0;1]); (T 51,[0;2;3;4])] [2;3;1;4]));
  (*2037*) Assign (T 40) (Plain (Einsum [(n_t2'abab,[0;1;2;3]); (n_l1'aa,[2;4])] [4;0;1;3]));
  (*2038*) Assign (T 32) (Times (Copy (T 27)) (2) 1);
  (*2039*) AddTo (T 32) (Plain (Copy (T 29)));
  (*2040*) AddTo (T 32) (Plain (Copy (T 31)));
  (*2041*) Del (T 31);
  (*2042*) Assign (T 5) (Plain (Copy (T 1)));
  (*2043*) AddTo (T 5) (Times (Copy (T 2)) (2) 1);
  (*2044*) AddTo (T 5) (Plain (Copy (T 3)));
  (*2045*) Assign (T 48) (Plain (Einsum [(n_t1'bb,[0;1]); (T 47,[2;3;0;4])] [2;3;4;1]));
  (*2046*) Assign (T 64) (Plain (Einsum [(T 28,[0;1;2;3]); (n_t2'abab,[0;4;5;3])] [1;2;4;5]));
  (*2047*) Assign (T 77) (Times (Copy (T 66)) (2) 1);
  (*2048*) AddTo (T 77) (Plain (Copy (T 67)));
  (*2049*) Assign (T 94) (Plain (Copy (T 63)));
  (*2050*) AddTo (T 94) (Plain (Copy (T 62)));
  (*2051*) Assign (T 61) (Plain (Einsum [(n_t2'abab,[0;1;2;3]); (n_l1'bb,[3;4])] [0;4;1;2]));
  (*2052*) Assign (T 93) (Plain (Copy (T 45)));
  (*2053*) AddTo (T 93) (Plain (Copy (T 46)));
  (*2054*) Assign (T 75) (Times (Copy (T 22)) (2) 1);
  (*2055*) AddTo (T 75) (Plain (Copy (T 23)));
  (*2056*) Assign (T 49) (Plain (Einsum [(T 14,[0;1;2;3]); (n_t2'abab,[4;1;3;5])] [0;4;2;5]));
  (*2057*) Assign (T 80) (Plain (Einsum [(T 35,[0;1;2;3]); (n_t1'aa,[0;4])] [1;3;2;4]));
  (*2058*) Assign (T 74) (Plain (Einsum [(n_t2'aaaa,[0;1;2;3]); (T 73,[1;4;3;5])] [0;4;2;5]));
  (*2059*) Assign (T 82) (Plain (Einsum [(n_t1'aa,[0;1]); (T 81,[0;2;3;4])] [2;3;1;4]));
  (*2060*) Del (T 81);
  (*2061*) Assign (T 79) (Plain (Einsum [(n_t2'aaaa,[0;1;2;3]); (T 35,[0;1;4;5])] [4;5;2;3]));
  (*2062*) Assign (T 76) (Plain (Einsum [(T 26,[0;1;2;3]); (n_t1'aa,[0;4])] [1;2;4;3]));
  (*2063*) Assign (T 70) (Plain (Einsum [(n_t2'abab,[0;1;2;3]); (T 69,[4;1;5;3])] [0;4;2;5]));
  (*2064*) Assign (T 60) (Times (Copy n_t1'aa) (1) 2);
  (*2065*) AddTo (T 60) (Plain (Copy (T 22)));
  (*2066*) AddTo (T 60) (Times (Copy (T 23)) (1) 2);
  (*2067*) Assign (T 72) (Plain (Einsum [(n_t2'aaaa,[0;1;2;3]); (T 71,[1;4;3;5])] [4;0;5;2]));
  (*2068*) Assign (T 78) (Times (Einsum [(T 30,[0;1]); (n_t2'aaaa,[2;0;3;4])] [1;2;3;4]) (-2) 1);
  (*2069*) Assign (T 68) (Plain (Copy (T 66)));
  (*2070*) Del (T 66);
  (*2071*) AddTo (T 68) (Times (Copy (T 67)) (1) 2);
  (*2072*) Del (T 67);
  (*2073*) Assign (T 25) (Plain (Copy n_t1'aa));
  (*2074*) AddTo (T 25) (Times (Copy (T 22)) (2) 1);
  (*2075*) AddTo (T 25) (Plain (Copy (T 23)));
  (*2076*) Assign (T 57) (Times (Einsum [(T 56,[0;1;2;3]); (n_t1'bb,[0;4])] [1;2;3;4]) (2) 1);
  (*2077*) Del (T 56);
  (*2078*) Assign (T 59) (Plain (Copy (T 27)));
  (*2079*) Del (T 27);
  (*2080*) AddTo (T 59) (Times (Copy (T 29)) (1) 2);
  (*2081*) Del (T 29);
  (*2082*) AddTo (T 59) (Plain (Copy (T 58)));
  (*2083*) Del (T 58);
  (*2084*) Assign (T 36) (Times (Einsum [(T 35,[0;1;2;3]); (n_t1'aa,[0;4])] [1;2;3;4]) (2) 1);
  (*2085*) Del (T 35);
  (*2086*) Assign (T 24) (Plain (Copy n_t1'aa));
  (*2087*) AddTo (T 24) (Times (Copy (T 22)) (2) 1);
  (*2088*) Del (T 22);
  (*2089*) AddTo (T 24) (Plain (Copy (T 23)));
  (*2090*) Del (T 23);
  (*2091*) Assign (T 53) (Times (Copy (T 41)) (1) 2);
  (*2092*) Del (T 41);
  (*2093*) AddTo (T 53) (Plain (Copy (T 42)));
  (*2094*) Del (T 42);
  (*2095*) AddTo (T 53) (Plain (Copy (T 52)));
  (*2096*) Del (T 52);
  (*2097*) Assign (T 50) (Times (Copy n_t1'bb) (1) 2);
  (*2098*) AddTo (T 50) (Times (Copy (T 37)) (1) 2);
  (*2099*) Del (T 37);
  (*2100*) AddTo (T 50) (Plain (Copy (T 38)));
  (*2101*) Del (T 38);
  (*2102*) Assign (T 16) (Times (Copy n_delta'bb'oo) (-1) 1);
  (*2103*) AddTo (T 16) (Plain (Copy (T 9)));
  (*2104*) AddTo (T 16) (Plain (Copy (T 10)));
  (*2105*) AddTo (T 16) (Times (Copy (T 11)) (2) 1);
  (*2106*) Assign (T 12) (Times (Copy n_delta'bb'oo) (-1) 2);
  (*2107*) AddTo (T 12) (Times (Copy (T 9)) (1) 2);
  (*2108*) Del (T 9);
  (*2109*) AddTo (T 12) (Times (Copy (T 10)) (1) 2);
  (*2110*) Del (T 10);
  (*2111*) AddTo (T 12) (Plain (Copy (T 11)));
  (*2112*) Del (T 11);
  (*2113*) Assign (T 4) (Times (Copy n_delta'aa'oo) (-1) 1);
  (*2114*) AddTo (T 4) (Plain (Copy (T 1)));
  (*2115*) Del (T 1);
  (*2116*) AddTo (T 4) (Times (Copy (T 2)) (2) 1);
  (*2117*) Del (T 2);
  (*2118*) AddTo (T 4) (Plain (Copy (T 3)));
  (*2119*) Del (T 3);
  (*2120*) Assign n_rdm2'bbbb'vvvv (Times (Transpose (T 134) [1;0;3;2]) (2) 1);
  (*2121*) Del (T 134);
  (*2122*) AddTo n_rdm2'bbbb'vvvv (Times (Einsum [(T 132,[0;1;2;3]); (n_t1'bb,[0;4])] [1;2;4;3]) (2) 1);
  (*2123*) Assign n_rdm2'abab'vvvv (Plain (Einsum [(n_l2'abab,[0;1;2;3]); (n_t2'abab,[2;3;4;5])] [0;1;4;5]));
  (*2124*) AddTo n_rdm2'abab'vvvv (Plain (Einsum [(n_t1'aa,[0;1]); (T 131,[0;2;3;4])] [2;3;1;4]));
  (*2125*) Assign n_rdm2'aaaa'vvvv (Times (Transpose (T 133) [1;0;3;2]) (2) 1);
  (*2126*) Del (T 133);
  (*2127*) AddTo n_rdm2'aaaa'vvvv (Times (Einsum [(T 130,[0;1;2;3]); (n_t1'aa,[0;4])] [1;2;4;3]) (2) 1);
  (*2128*) Assign n_rdm2'bbbb'vvvo (Times (Transpose (T 132) [2;1;3;0]) (2) 1);
  (*2129*) Assign n_rdm2'abab'vvvo (Plain (Einsum [(n_l2'abab,[0;1;2;3]); (n_t1'aa,[2;4])] [0;1;4;3]));
  (*2130*) Assign n_rdm2'aaaa'vvvo (Times (Transpose (T 130) [2;1;3;0]) (2) 1);
  (*2131*) Assign n_rdm2'bbbb'vvov (Times (Transpose (T 132) [2;1;0;3]) (-2) 1);
  (*2132*) Del (T 132);
  (*2133*) Assign n_rdm2'abab'vvov (Plain (Transpose (T 131) [1;2;0;3]));
  (*2134*) Del (T 131);
  (*2135*) Assign n_rdm2'aaaa'vvov (Times (Transpose (T 130) [2;1;0;3]) (-2) 1);
  (*2136*) Del (T 130);
  (*2137*) Assign n_rdm2'bbbb'vovv (Times (Transpose (T 125) [1;0;3;2]) (2) 1);
  (*2138*) AddTo n_rdm2'bbbb'vovv (Times (Einsum [(T 123,[0;1]); (n_t1'bb,[2;3])] [0;2;3;1]) (-2) 1);
  (*2139*) AddTo n_rdm2'bbbb'vovv (Plain (Einsum [(n_t1'bb,[0;1]); (T 110,[2;3])] [2;0;3;1]));
  (*2140*) AddTo n_rdm2'bbbb'vovv (Plain (Transpose (T 127) [2;0;1;3]));
  (*2141*) AddTo n_rdm2'bbbb'vovv (Times (Transpose (T 127) [2;0;3;1]) (-1) 1);
  (*2142*) AddTo n_rdm2'bbbb'vovv (Times (Transpose (T 128) [1;0;3;2]) (2) 1);
  (*2143*) AddTo n_rdm2'bbbb'vovv (Times (Transpose (T 129) [1;0;3;2]) (2) 1);
  (*2144*) Assign n_rdm2'abab'vovv (Plain (Einsum [(n_t2'abab,[0;1;2;3]); (n_l1'aa,[4;0])] [4;1;2;3]));
  (*2145*) AddTo n_rdm2'abab'vovv (Times (Einsum [(T 113,[0;1]); (n_t1'bb,[2;3])] [0;2;1;3]) (2) 1);
  (*2146*) AddTo n_rdm2'abab'vovv (Times (Einsum [(n_t1'aa,[0;1]); (T 88,[0;2;3;4])] [3;2;1;4]) (2) 1);
  (*2147*) AddTo n_rdm2'abab'vovv (Times (Einsum [(T 92,[0;1;2;3]); (n_t1'bb,[0;4])] [2;1;3;4]) (-1) 1);
  (*2148*) AddTo n_rdm2'abab'vovv (Times (Einsum [(T 14,[0;1;2;3]); (n_t2'abab,[0;1;4;5])] [3;2;4;5]) (-1) 1);
  (*2149*) AddTo n_rdm2'abab'vovv (Times (Einsum [(n_t1'aa,[0;1]); (T 116,[0;2;3;4])] [3;2;1;4]) (-1) 1);
  (*2150*) Assign n_rdm2'aaaa'vovv (Times (Transpose (T 117) [1;0;3;2]) (2) 1);
  (*2151*) AddTo n_rdm2'aaaa'vovv (Times (Einsum [(n_t1'aa,[0;1]); (T 107,[2;3])] [2;0;1;3]) (-1) 1);
  (*2152*) AddTo n_rdm2'aaaa'vovv (Times (Einsum [(T 113,[0;1]); (n_t1'aa,[2;3])] [0;2;1;3]) (2) 1);
  (*2153*) AddTo n_rdm2'aaaa'vovv (Plain (Transpose (T 120) [2;0;1;3]));
  (*2154*) AddTo n_rdm2'aaaa'vovv (Times (Transpose (T 120) [2;0;3;1]) (-1) 1);
  (*2155*) AddTo n_rdm2'aaaa'vovv (Times (Transpose (T 121) [1;0;3;2]) (2) 1);
  (*2156*) AddTo n_rdm2'aaaa'vovv (Times (Transpose (T 122) [1;0;3;2]) (2) 1);
  (*2157*) Assign n_rdm2'bbbb'ovvv (Times (Transpose (T 125) [0;1;3;2]) (-2) 1);
  (*2158*) Del (T 125);
  (*2159*) AddTo n_rdm2'bbbb'ovvv (Times (Einsum [(T 123,[0;1]); (n_t1'bb,[2;3])] [2;0;3;1]) (2) 1);
  (*2160*) AddTo n_rdm2'bbbb'ovvv (Times (Einsum [(n_t1'bb,[0;1]); (T 110,[2;3])] [0;2;3;1]) (-1) 1);
  (*2161*) AddTo n_rdm2'bbbb'ovvv (Times (Einsum [(n_t1'bb,[0;1]); (T 126,[0;2;3;4])] [2;3;1;4]) (-4) 1);
  (*2162*) Del (T 126);
  (*2163*) AddTo n_rdm2'bbbb'ovvv (Plain (Transpose (T 127) [0;2;3;1]));
  (*2164*) Del (T 127);
  (*2165*) AddTo n_rdm2'bbbb'ovvv (Times (Transpose (T 128) [0;1;3;2]) (-2) 1);
  (*2166*) Del (T 128);
  (*2167*) AddTo n_rdm2'bbbb'ovvv (Times (Transpose (T 129) [0;1;3;2]) (-2) 1);
  (*2168*) Del (T 129);
  (*2169*) Assign n_rdm2'abab'ovvv (Plain (Einsum [(n_t2'abab,[0;1;2;3]); (n_l1'bb,[4;1])] [0;4;2;3]));
  (*2170*) AddTo n_rdm2'abab'ovvv (Times (Einsum [(T 123,[0;1]); (n_t1'aa,[2;3])] [2;0;3;1]) (2) 1);
  (*2171*) Del (T 123);
  (*2172*) AddTo n_rdm2'abab'ovvv (Times (Einsum [(T 111,[0;1;2;3]); (n_t1'aa,[0;4])] [1;2;4;3]) (-1) 1);
  (*2173*) AddTo n_rdm2'abab'ovvv (Times (Einsum [(T 124,[0;1;2;3]); (n_t1'bb,[1;4])] [0;3;2;4]) (2) 1);
  (*2174*) Del (T 124);
  (*2175*) AddTo n_rdm2'abab'ovvv (Times (Einsum [(T 28,[0;1;2;3]); (n_t2'abab,[0;2;4;5])] [1;3;4;5]) (-1) 1);
  (*2176*) AddTo n_rdm2'abab'ovvv (Times (Einsum [(T 115,[0;1;2;3]); (n_t1'bb,[1;4])] [0;3;2;4]) (-1) 1);
  (*2177*) Assign n_rdm2'aaaa'ovvv (Times (Transpose (T 117) [0;1;3;2]) (-2) 1);
  (*2178*) Del (T 117);
  (*2179*) AddTo n_rdm2'aaaa'ovvv (Plain (Einsum [(n_t1'aa,[0;1]); (T 107,[2;3])] [0;2;1;3]));
  (*2180*) AddTo n_rdm2'aaaa'ovvv (Times (Einsum [(T 113,[0;1]); (n_t1'aa,[2;3])] [2;0;1;3]) (-2) 1);
  (*2181*) AddTo n_rdm2'aaaa'ovvv (Times (Einsum [(T 118,[0;1;2;3]); (n_t1'aa,[0;4])] [1;2;4;3]) (-1) 1);
  (*2182*) Del (T 118);
  (*2183*) AddTo n_rdm2'aaaa'ovvv (Plain (Transpose (T 120) [0;2;3;1]));
  (*2184*) Del (T 120);
  (*2185*) AddTo n_rdm2'aaaa'ovvv (Times (Transpose (T 121) [0;1;3;2]) (-2) 1);
  (*2186*) Del (T 121);
  (*2187*) AddTo n_rdm2'aaaa'ovvv (Times (Transpose (T 122) [0;1;3;2]) (-2) 1);
  (*2188*) Del (T 122);
  (*2189*) Assign n_rdm2'bbbb'vvoo (Times (Copy n_l2'bbbb) (2) 1);
  (*2190*) Assign n_rdm2'abab'vvoo (Plain (Copy n_l2'abab));
  (*2191*) Assign n_rdm2'aaaa'vvoo (Times (Copy n_l2'aaaa) (2) 1);
  (*2192*) Assign n_rdm2'bbbb'vovo (Plain (Einsum [(n_delta'bb'oo,[0;1]); (T 110,[2;3])] [2;0;3;1]));
  (*2193*) AddTo n_rdm2'bbbb'vovo (Times (Transpose (T 90) [2;1;3;0]) (-4) 1);
  (*2194*) AddTo n_rdm2'bbbb'vovo (Times (Einsum [(n_t1'bb,[0;1]); (n_l1'bb,[2;3])] [2;0;1;3]) (-1) 1);
  (*2195*) AddTo n_rdm2'bbbb'vovo (Times (Transpose (T 89) [2;1;3;0]) (-1) 1);
  (*2196*) AddTo n_rdm2'bbbb'vovo (Times (Transpose (T 112) [2;1;3;0]) (2) 1);
  (*2197*) Assign n_rdm2'abab'vovo (Times (Einsum [(T 113,[0;1]); (n_delta'bb'oo,[2;3])] [0;2;1;3]) (2) 1);
  (*2198*) AddTo n_rdm2'abab'vovo (Times (Transpose (T 92) [2;1;3;0]) (-1) 1);
  (*2199*) AddTo n_rdm2'abab'vovo (Times (Einsum [(T 14,[0;1;2;3]); (n_t1'aa,[0;4])] [3;2;4;1]) (-1) 1);
  (*2200*) Assign n_rdm2'aaaa'vovo (Times (Einsum [(T 113,[0;1]); (n_delta'aa'oo,[2;3])] [0;2;1;3]) (2) 1);
  (*2201*) AddTo n_rdm2'aaaa'vovo (Times (Transpose (T 71) [2;1;3;0]) (-4) 1);
  (*2202*) AddTo n_rdm2'aaaa'vovo (Times (Einsum [(n_l1'aa,[0;1]); (n_t1'aa,[2;3])] [0;2;3;1]) (-1) 1);
  (*2203*) AddTo n_rdm2'aaaa'vovo (Times (Transpose (T 73) [2;1;3;0]) (-1) 1);
  (*2204*) AddTo n_rdm2'aaaa'vovo (Times (Transpose (T 108) [2;1;3;0]) (2) 1);
  (*2205*) Assign n_rdm2'bbbb'voov (Times (Einsum [(n_delta'bb'oo,[0;1]); (T 110,[2;3])] [2;0;1;3]) (-1) 1);
  (*2206*) AddTo n_rdm2'bbbb'voov (Times (Transpose (T 90) [2;1;0;3]) (4) 1);
  (*2207*) AddTo n_rdm2'bbbb'voov (Plain (Einsum [(n_t1'bb,[0;1]); (n_l1'bb,[2;3])] [2;0;3;1]));
  (*2208*) AddTo n_rdm2'bbbb'voov (Plain (Transpose (T 89) [2;1;0;3]));
  (*2209*) AddTo n_rdm2'bbbb'voov (Times (Transpose (T 112) [2;1;0;3]) (-2) 1);
  (*2210*) Assign n_rdm2'abab'voov (Times (Transpose (T 87) [2;1;0;3]) (2) 1);
  (*2211*) Del (T 87);
  (*2212*) AddTo n_rdm2'abab'voov (Plain (Einsum [(n_l1'aa,[0;1]); (n_t1'bb,[2;3])] [0;2;1;3]));
  (*2213*) AddTo n_rdm2'abab'voov (Times (Transpose (T 86) [2;1;0;3]) (2) 1);
  (*2214*) Del (T 86);
  (*2215*) AddTo n_rdm2'abab'voov (Times (Transpose (T 116) [2;1;0;3]) (-1) 1);
  (*2216*) Del (T 116);
  (*2217*) Assign n_rdm2'aaaa'voov (Times (Einsum [(T 107,[0;1]); (n_delta'aa'oo,[2;3])] [0;2;3;1]) (-1) 1);
  (*2218*) AddTo n_rdm2'aaaa'voov (Times (Transpose (T 71) [2;1;0;3]) (4) 1);
  (*2219*) AddTo n_rdm2'aaaa'voov (Plain (Einsum [(n_l1'aa,[0;1]); (n_t1'aa,[2;3])] [0;2;1;3]));
  (*2220*) AddTo n_rdm2'aaaa'voov (Plain (Transpose (T 73) [2;1;0;3]));
  (*2221*) AddTo n_rdm2'aaaa'voov (Times (Transpose (T 108) [2;1;0;3]) (-2) 1);
  (*2222*) Assign n_rdm2'bbbb'ovvo (Times (Einsum [(n_delta'bb'oo,[0;1]); (T 110,[2;3])] [0;2;3;1]) (-1) 1);
  (*2223*) AddTo n_rdm2'bbbb'ovvo (Times (Transpose (T 90) [1;2;3;0]) (4) 1);
  (*2224*) AddTo n_rdm2'bbbb'ovvo (Plain (Einsum [(n_t1'bb,[0;1]); (n_l1'bb,[2;3])] [0;2;1;3]));
  (*2225*) AddTo n_rdm2'bbbb'ovvo (Plain (Transpose (T 89) [1;2;3;0]));
  (*2226*) AddTo n_rdm2'bbbb'ovvo (Times (Transpose (T 112) [1;2;3;0]) (-2) 1);
  (*2227*) Assign n_rdm2'abab'ovvo (Times (Transpose (T 69) [0;3;2;1]) (2) 1);
  (*2228*) Del (T 69);
  (*2229*) AddTo n_rdm2'abab'ovvo (Plain (Einsum [(n_l1'bb,[0;1]); (n_t1'aa,[2;3])] [2;0;3;1]));
  (*2230*) AddTo n_rdm2'abab'ovvo (Times (Transpose (T 114) [0;3;2;1]) (2) 1);
  (*2231*) Del (T 114);
  (*2232*) AddTo n_rdm2'abab'ovvo (Times (Transpose (T 115) [0;3;2;1]) (-1) 1);
  (*2233*) Del (T 115);
  (*2234*) Assign n_rdm2'aaaa'ovvo (Times (Einsum [(T 113,[0;1]); (n_delta'aa'oo,[2;3])] [2;0;1;3]) (-2) 1);
  (*2235*) Del (T 113);
  (*2236*) AddTo n_rdm2'aaaa'ovvo (Times (Transpose (T 71) [1;2;3;0]) (4) 1);
  (*2237*) AddTo n_rdm2'aaaa'ovvo (Plain (Einsum [(n_l1'aa,[0;1]); (n_t1'aa,[2;3])] [2;0;3;1]));
  (*2238*) AddTo n_rdm2'aaaa'ovvo (Plain (Transpose (T 73) [1;2;3;0]));
  (*2239*) AddTo n_rdm2'aaaa'ovvo (Times (Transpose (T 108) [1;2;3;0]) (-2) 1);
  (*2240*) Assign n_rdm2'bbbb'ovov (Plain (Einsum [(n_delta'bb'oo,[0;1]); (T 110,[2;3])] [0;2;1;3]));
  (*2241*) AddTo n_rdm2'bbbb'ovov (Times (Transpose (T 90) [1;2;0;3]) (-4) 1);
  (*2242*) Del (T 90);
  (*2243*) AddTo n_rdm2'bbbb'ovov (Times (Einsum [(n_t1'bb,[0;1]); (n_l1'bb,[2;3])] [0;2;3;1]) (-1) 1);
  (*2244*) AddTo n_rdm2'bbbb'ovov (Times (Transpose (T 89) [1;2;0;3]) (-1) 1);
  (*2245*) Del (T 89);
  (*2246*) AddTo n_rdm2'bbbb'ovov (Times (Transpose (T 112) [1;2;0;3]) (2) 1);
  (*2247*) Del (T 112);
  (*2248*) Assign n_rdm2'abab'ovov (Plain (Einsum [(n_delta'aa'oo,[0;1]); (T 110,[2;3])] [0;2;1;3]));
  (*2249*) Del (T 110);
  (*2250*) AddTo n_rdm2'abab'ovov (Times (Transpose (T 111) [1;2;0;3]) (-1) 1);
  (*2251*) Del (T 111);
  (*2252*) AddTo n_rdm2'abab'ovov (Times (Einsum [(T 28,[0;1;2;3]); (n_t1'bb,[2;4])] [1;3;0;4]) (-1) 1);
  (*2253*) Assign n_rdm2'aaaa'ovov (Plain (Einsum [(T 107,[0;1]); (n_delta'aa'oo,[2;3])] [2;0;3;1]));
  (*2254*) Del (T 107);
  (*2255*) AddTo n_rdm2'aaaa'ovov (Times (Transpose (T 71) [1;2;0;3]) (-4) 1);
  (*2256*) Del (T 71);
  (*2257*) AddTo n_rdm2'aaaa'ovov (Times (Einsum [(n_l1'aa,[0;1]); (n_t1'aa,[2;3])] [2;0;1;3]) (-1) 1);
  (*2258*) AddTo n_rdm2'aaaa'ovov (Times (Transpose (T 73) [1;2;0;3]) (-1) 1);
  (*2259*) Del (T 73);
  (*2260*) AddTo n_rdm2'aaaa'ovov (Times (Transpose (T 108) [1;2;0;3]) (2) 1);
  (*2261*) Del (T 108);
  (*2262*) Assign n_rdm2'bbbb'oovv (Times (Copy n_t2'bbbb) (2) 1);
  (*2263*) AddTo n_rdm2'bbbb'oovv (Times (Einsum [(T 85,[0;1]); (n_t2'bbbb,[2;3;4;0])] [2;3;4;1]) (-4) 1);
  (*2264*) AddTo n_rdm2'bbbb'oovv (Times (Transpose (T 95) [0;1;3;2]) (-2) 1);
  (*2265*) AddTo n_rdm2'bbbb'oovv (Times (Transpose (T 96) [0;1;3;2]) (-8) 1);
  (*2266*) AddTo n_rdm2'bbbb'oovv (Times (Transpose (T 97) [0;1;3;2]) (-2) 1);
  (*2267*) AddTo n_rdm2'bbbb'oovv (Times (Transpose (T 97) [1;0;2;3]) (-2) 1);
  (*2268*) AddTo n_rdm2'bbbb'oovv (Times (Einsum [(T 65,[0;1]); (n_t1'bb,[2;3])] [0;2;3;1]) (-1) 1);
  (*2269*) AddTo n_rdm2'bbbb'oovv (Times (Transpose (T 95) [1;0;3;2]) (2) 1);
  (*2270*) Del (T 95);
  (*2271*) AddTo n_rdm2'bbbb'oovv (Times (Copy (T 96)) (8) 1);
  (*2272*) Del (T 96);
  (*2273*) AddTo n_rdm2'bbbb'oovv (Times (Copy (T 97)) (2) 1);
  (*2274*) AddTo n_rdm2'bbbb'oovv (Times (Transpose (T 97) [1;0;3;2]) (2) 1);
  (*2275*) Del (T 97);
  (*2276*) AddTo n_rdm2'bbbb'oovv (Plain (Einsum [(T 39,[0;1]); (n_t1'bb,[2;3])] [2;0;3;1]));
  (*2277*) AddTo n_rdm2'bbbb'oovv (Plain (Einsum [(n_t1'bb,[0;1]); (T 98,[2;3])] [2;0;3;1]));
  (*2278*) AddTo n_rdm2'bbbb'oovv (Times (Einsum [(T 98,[0;1]); (n_t1'bb,[2;3])] [2;0;1;3]) (-1) 1);
  (*2279*) Del (T 98);
  (*2280*) AddTo n_rdm2'bbbb'oovv (Times (Copy (T 99)) (2) 1);
  (*2281*) AddTo n_rdm2'bbbb'oovv (Times (Einsum [(T 100,[0;1]); (n_t2'bbbb,[2;3;4;0])] [2;3;1;4]) (2) 1);
  (*2282*) Del (T 100);
  (*2283*) AddTo n_rdm2'bbbb'oovv (Times (Transpose (T 99) [0;1;3;2]) (-2) 1);
  (*2284*) Del (T 99);
  (*2285*) AddTo n_rdm2'bbbb'oovv (Times (Transpose (T 101) [0;1;3;2]) (-2) 1);
  (*2286*) AddTo n_rdm2'bbbb'oovv (Times (Einsum [(n_t1'bb,[0;1]); (T 44,[2;3])] [0;2;1;3]) (-1) 1);
  (*2287*) AddTo n_rdm2'bbbb'oovv (Plain (Einsum [(T 44,[0;1]); (n_t1'bb,[2;3])] [2;0;1;3]));
  (*2288*) AddTo n_rdm2'bbbb'oovv (Times (Transpose (T 101) [1;0;3;2]) (2) 1);
  (*2289*) Del (T 101);
  (*2290*) AddTo n_rdm2'bbbb'oovv (Plain (Einsum [(T 44,[0;1]); (n_t1'bb,[2;3])] [0;2;3;1]));
  (*2291*) AddTo n_rdm2'bbbb'oovv (Times (Einsum [(n_t1'bb,[0;1]); (T 44,[2;3])] [2;0;3;1]) (-1) 1);
  (*2292*) AddTo n_rdm2'bbbb'oovv (Times (Transpose (T 102) [1;0;3;2]) (2) 1);
  (*2293*) Del (T 102);
  (*2294*) AddTo n_rdm2'bbbb'oovv (Times (Einsum [(n_t1'bb,[0;1]); (T 103,[0;2;3;4])] [2;3;1;4]) (2) 1);
  (*2295*) Del (T 103);
  (*2296*) AddTo n_rdm2'bbbb'oovv (Plain (Transpose (T 105) [1;0;2;3]));
  (*2297*) AddTo n_rdm2'bbbb'oovv (Times (Copy (T 105)) (-1) 1);
  (*2298*) AddTo n_rdm2'bbbb'oovv (Times (Transpose (T 105) [1;0;3;2]) (-1) 1);
  (*2299*) AddTo n_rdm2'bbbb'oovv (Plain (Transpose (T 105) [0;1;3;2]));
  (*2300*) Del (T 105);
  (*2301*) Assign n_rdm2'abab'oovv (Plain (Copy n_t2'abab));
  (*2302*) AddTo n_rdm2'abab'oovv (Times (Einsum [(n_t2'abab,[0;1;2;3]); (T 85,[3;4])] [0;1;2;4]) (-2) 1);
  (*2303*) Del (T 85);
  (*2304*) AddTo n_rdm2'abab'oovv (Times (Einsum [(n_t2'aaaa,[0;1;2;3]); (T 88,[1;4;3;5])] [0;4;2;5]) (4) 1);
  (*2305*) Del (T 88);
  (*2306*) AddTo n_rdm2'abab'oovv (Plain (Einsum [(T 91,[0;1;2;3]); (n_t2'abab,[4;0;5;2])] [4;1;5;3]));
  (*2307*) Del (T 91);
  (*2308*) AddTo n_rdm2'abab'oovv (Plain (Einsum [(T 39,[0;1]); (n_t1'aa,[2;3])] [2;0;3;1]));
  (*2309*) AddTo n_rdm2'abab'oovv (Plain (Einsum [(T 75,[0;1]); (n_t1'bb,[2;3])] [0;2;1;3]));
  (*2310*) AddTo n_rdm2'abab'oovv (Times (Einsum [(n_t1'aa,[0;1]); (T 40,[0;2;3;4])] [2;3;1;4]) (-1) 1);
  (*2311*) AddTo n_rdm2'abab'oovv (Times (Einsum [(n_t2'abab,[0;1;2;3]); (T 77,[2;4])] [0;1;4;3]) (-1) 1);
  (*2312*) AddTo n_rdm2'abab'oovv (Times (Einsum [(T 61,[0;1;2;3]); (n_t1'bb,[1;4])] [0;2;3;4]) (-1) 1);
  (*2313*) AddTo n_rdm2'abab'oovv (Times (Einsum [(n_t2'abab,[0;1;2;3]); (T 17,[1;4])] [0;4;2;3]) (-2) 1);
  (*2314*) AddTo n_rdm2'abab'oovv (Times (Einsum [(T 44,[0;1]); (n_t1'aa,[2;3])] [2;0;3;1]) (-1) 1);
  (*2315*) AddTo n_rdm2'abab'oovv (Times (Einsum [(T 5,[0;1]); (n_t2'abab,[0;2;3;4])] [1;2;3;4]) (-1) 1);
  (*2316*) AddTo n_rdm2'abab'oovv (Plain (Einsum [(T 47,[0;1;2;3]); (n_t2'abab,[0;2;4;5])] [1;3;4;5]));
  (*2317*) AddTo n_rdm2'abab'oovv (Plain (Einsum [(n_t1'aa,[0;1]); (T 48,[0;2;3;4])] [2;3;1;4]));
  (*2318*) AddTo n_rdm2'abab'oovv (Plain (Einsum [(T 92,[0;1;2;3]); (n_t2'abab,[4;0;2;5])] [4;1;3;5]));
  (*2319*) Del (T 92);
  (*2320*) AddTo n_rdm2'abab'oovv (Times (Einsum [(T 32,[0;1]); (n_t1'bb,[2;3])] [0;2;1;3]) (-1) 1);
  (*2321*) AddTo n_rdm2'abab'oovv (Plain (Einsum [(n_t1'aa,[0;1]); (T 49,[0;2;3;4])] [2;3;1;4]));
  (*2322*) AddTo n_rdm2'abab'oovv (Times (Einsum [(T 93,[0;1;2;3]); (n_t1'aa,[0;4])] [1;2;4;3]) (-2) 1);
  (*2323*) Del (T 93);
  (*2324*) AddTo n_rdm2'abab'oovv (Times (Einsum [(T 94,[0;1;2;3]); (n_t1'bb,[1;4])] [0;2;3;4]) (-2) 1);
  (*2325*) Del (T 94);
  (*2326*) AddTo n_rdm2'abab'oovv (Plain (Einsum [(T 64,[0;1;2;3]); (n_t1'bb,[1;4])] [0;2;3;4]));
  (*2327*) Assign n_rdm2'aaaa'oovv (Times (Copy n_t2'aaaa) (2) 1);
  (*2328*) AddTo n_rdm2'aaaa'oovv (Times (Einsum [(n_t2'aaaa,[0;1;2;3]); (T 68,[3;4])] [0;1;2;4]) (-4) 1);
  (*2329*) Del (T 68);
  (*2330*) AddTo n_rdm2'aaaa'oovv (Times (Transpose (T 70) [0;1;3;2]) (-2) 1);
  (*2331*) AddTo n_rdm2'aaaa'oovv (Times (Transpose (T 72) [0;1;3;2]) (-8) 1);
  (*2332*) AddTo n_rdm2'aaaa'oovv (Times (Transpose (T 74) [0;1;3;2]) (-2) 1);
  (*2333*) AddTo n_rdm2'aaaa'oovv (Times (Transpose (T 74) [1;0;2;3]) (-2) 1);
  (*2334*) AddTo n_rdm2'aaaa'oovv (Times (Einsum [(n_t1'aa,[0;1]); (T 60,[2;3])] [2;0;1;3]) (-2) 1);
  (*2335*) AddTo n_rdm2'aaaa'oovv (Times (Copy (T 70)) (2) 1);
  (*2336*) Del (T 70);
  (*2337*) AddTo n_rdm2'aaaa'oovv (Times (Copy (T 72)) (8) 1);
  (*2338*) Del (T 72);
  (*2339*) AddTo n_rdm2'aaaa'oovv (Times (Copy (T 74)) (2) 1);
  (*2340*) AddTo n_rdm2'aaaa'oovv (Times (Transpose (T 74) [1;0;3;2]) (2) 1);
  (*2341*) Del (T 74);
  (*2342*) AddTo n_rdm2'aaaa'oovv (Plain (Einsum [(T 25,[0;1]); (n_t1'aa,[2;3])] [2;0;3;1]));
  (*2343*) AddTo n_rdm2'aaaa'oovv (Plain (Einsum [(T 75,[0;1]); (n_t1'aa,[2;3])] [0;2;1;3]));
  (*2344*) AddTo n_rdm2'aaaa'oovv (Times (Einsum [(n_t1'aa,[0;1]); (T 75,[2;3])] [0;2;3;1]) (-1) 1);
  (*2345*) Del (T 75);
  (*2346*) AddTo n_rdm2'aaaa'oovv (Times (Copy (T 76)) (2) 1);
  (*2347*) AddTo n_rdm2'aaaa'oovv (Times (Einsum [(n_t2'aaaa,[0;1;2;3]); (T 77,[3;4])] [0;1;4;2]) (2) 1);
  (*2348*) Del (T 77);
  (*2349*) AddTo n_rdm2'aaaa'oovv (Times (Transpose (T 76) [0;1;3;2]) (-2) 1);
  (*2350*) Del (T 76);
  (*2351*) AddTo n_rdm2'aaaa'oovv (Times (Transpose (T 78) [1;0;3;2]) (-2) 1);
  (*2352*) AddTo n_rdm2'aaaa'oovv (Times (Einsum [(T 32,[0;1]); (n_t1'aa,[2;3])] [2;0;3;1]) (-1) 1);
  (*2353*) AddTo n_rdm2'aaaa'oovv (Plain (Einsum [(n_t1'aa,[0;1]); (T 32,[2;3])] [0;2;3;1]));
  (*2354*) AddTo n_rdm2'aaaa'oovv (Times (Transpose (T 78) [0;1;3;2]) (2) 1);
  (*2355*) Del (T 78);
  (*2356*) AddTo n_rdm2'aaaa'oovv (Plain (Einsum [(n_t1'aa,[0;1]); (T 32,[2;3])] [2;0;1;3]));
  (*2357*) AddTo n_rdm2'aaaa'oovv (Times (Einsum [(T 32,[0;1]); (n_t1'aa,[2;3])] [0;2;1;3]) (-1) 1);
  (*2358*) AddTo n_rdm2'aaaa'oovv (Times (Transpose (T 79) [1;0;3;2]) (2) 1);
  (*2359*) Del (T 79);
  (*2360*) AddTo n_rdm2'aaaa'oovv (Times (Einsum [(T 80,[0;1;2;3]); (n_t1'aa,[0;4])] [1;2;4;3]) (2) 1);
  (*2361*) Del (T 80);
  (*2362*) AddTo n_rdm2'aaaa'oovv (Plain (Transpose (T 82) [1;0;2;3]));
  (*2363*) AddTo n_rdm2'aaaa'oovv (Times (Copy (T 82)) (-1) 1);
  (*2364*) AddTo n_rdm2'aaaa'oovv (Times (Transpose (T 82) [1;0;3;2]) (-1) 1);
  (*2365*) AddTo n_rdm2'aaaa'oovv (Plain (Transpose (T 82) [0;1;3;2]));
  (*2366*) Del (T 82);
  (*2367*) Assign n_rdm2'bbbb'vooo (Plain (Einsum [(n_delta'bb'oo,[0;1]); (n_l1'bb,[2;3])] [2;0;3;1]));
  (*2368*) AddTo n_rdm2'bbbb'vooo (Times (Einsum [(n_l1'bb,[0;1]); (n_delta'bb'oo,[2;3])] [0;2;3;1]) (-1) 1);
  (*2369*) AddTo n_rdm2'bbbb'vooo (Times (Transpose (T 20) [3;2;1;0]) (2) 1);
  (*2370*) Assign n_rdm2'abab'vooo (Plain (Einsum [(n_l1'aa,[0;1]); (n_delta'bb'oo,[2;3])] [0;2;1;3]));
  (*2371*) AddTo n_rdm2'abab'vooo (Times (Transpose (T 14) [3;2;0;1]) (-1) 1);
  (*2372*) Del (T 14);
  (*2373*) Assign n_rdm2'aaaa'vooo (Plain (Einsum [(n_l1'aa,[0;1]); (n_delta'aa'oo,[2;3])] [0;2;1;3]));
  (*2374*) AddTo n_rdm2'aaaa'vooo (Times (Einsum [(n_delta'aa'oo,[0;1]); (n_l1'aa,[2;3])] [2;0;1;3]) (-1) 1);
  (*2375*) AddTo n_rdm2'aaaa'vooo (Times (Transpose (T 7) [3;2;1;0]) (2) 1);
  (*2376*) Assign n_rdm2'bbbb'ovoo (Times (Einsum [(n_delta'bb'oo,[0;1]); (n_l1'bb,[2;3])] [0;2;3;1]) (-1) 1);
  (*2377*) AddTo n_rdm2'bbbb'ovoo (Plain (Einsum [(n_l1'bb,[0;1]); (n_delta'bb'oo,[2;3])] [2;0;3;1]));
  (*2378*) AddTo n_rdm2'bbbb'ovoo (Times (Transpose (T 20) [2;3;1;0]) (-2) 1);
  (*2379*) Del (T 20);
  (*2380*) Assign n_rdm2'abab'ovoo (Plain (Einsum [(n_l1'bb,[0;1]); (n_delta'aa'oo,[2;3])] [2;0;3;1]));
  (*2381*) AddTo n_rdm2'abab'ovoo (Times (Transpose (T 28) [1;3;0;2]) (-1) 1);
  (*2382*) Del (T 28);
  (*2383*) Assign n_rdm2'aaaa'ovoo (Times (Einsum [(n_l1'aa,[0;1]); (n_delta'aa'oo,[2;3])] [2;0;1;3]) (-1) 1);
  (*2384*) AddTo n_rdm2'aaaa'ovoo (Plain (Einsum [(n_delta'aa'oo,[0;1]); (n_l1'aa,[2;3])] [0;2;1;3]));
  (*2385*) AddTo n_rdm2'aaaa'ovoo (Times (Transpose (T 7) [2;3;1;0]) (-2) 1);
  (*2386*) Del (T 7);
  (*2387*) Assign n_rdm2'bbbb'oovo (Plain (Einsum [(T 65,[0;1]); (n_delta'bb'oo,[2;3])] [0;2;1;3]));
  (*2388*) Del (T 65);
  (*2389*) AddTo n_rdm2'bbbb'oovo (Times (Einsum [(T 39,[0;1]); (n_delta'bb'oo,[2;3])] [2;0;1;3]) (-1) 1);
  (*2390*) AddTo n_rdm2'bbbb'oovo (Times (Transpose (T 51) [2;1;3;0]) (2) 1);
  (*2391*) AddTo n_rdm2'bbbb'oovo (Times (Einsum [(n_delta'bb'oo,[0;1]); (T 44,[2;3])] [2;0;3;1]) (-1) 1);
  (*2392*) AddTo n_rdm2'bbbb'oovo (Plain (Einsum [(n_delta'bb'oo,[0;1]); (T 44,[2;3])] [0;2;3;1]));
  (*2393*) AddTo n_rdm2'bbbb'oovo (Plain (Transpose (T 54) [1;2;3;0]));
  (*2394*) AddTo n_rdm2'bbbb'oovo (Times (Transpose (T 55) [1;2;3;0]) (4) 1);
  (*2395*) AddTo n_rdm2'bbbb'oovo (Plain (Einsum [(T 18,[0;1]); (n_t1'bb,[2;3])] [1;2;3;0]));
  (*2396*) AddTo n_rdm2'bbbb'oovo (Times (Transpose (T 54) [2;1;3;0]) (-1) 1);
  (*2397*) AddTo n_rdm2'bbbb'oovo (Times (Transpose (T 55) [2;1;3;0]) (-4) 1);
  (*2398*) AddTo n_rdm2'bbbb'oovo (Times (Einsum [(T 18,[0;1]); (n_t1'bb,[2;3])] [2;1;3;0]) (-1) 1);
  (*2399*) AddTo n_rdm2'bbbb'oovo (Times (Transpose (T 57) [2;1;3;0]) (-1) 1);
  (*2400*) Assign n_rdm2'abab'oovo (Times (Einsum [(T 60,[0;1]); (n_delta'bb'oo,[2;3])] [0;2;1;3]) (2) 1);
  (*2401*) Del (T 60);
  (*2402*) AddTo n_rdm2'abab'oovo (Times (Transpose (T 61) [0;2;3;1]) (-1) 1);
  (*2403*) Del (T 61);
  (*2404*) AddTo n_rdm2'abab'oovo (Times (Einsum [(T 59,[0;1]); (n_delta'bb'oo,[2;3])] [0;2;1;3]) (-2) 1);
  (*2405*) AddTo n_rdm2'abab'oovo (Times (Transpose (T 62) [0;2;3;1]) (-2) 1);
  (*2406*) Del (T 62);
  (*2407*) AddTo n_rdm2'abab'oovo (Times (Transpose (T 63) [0;2;3;1]) (-2) 1);
  (*2408*) Del (T 63);
  (*2409*) AddTo n_rdm2'abab'oovo (Times (Einsum [(T 17,[0;1]); (n_t1'aa,[2;3])] [2;1;3;0]) (-2) 1);
  (*2410*) AddTo n_rdm2'abab'oovo (Plain (Einsum [(n_t1'aa,[0;1]); (T 47,[0;2;3;4])] [2;4;1;3]));
  (*2411*) Del (T 47);
  (*2412*) AddTo n_rdm2'abab'oovo (Plain (Transpose (T 64) [0;2;3;1]));
  (*2413*) Del (T 64);
  (*2414*) Assign n_rdm2'aaaa'oovo (Plain (Einsum [(n_delta'aa'oo,[0;1]); (T 24,[2;3])] [2;0;3;1]));
  (*2415*) AddTo n_rdm2'aaaa'oovo (Times (Einsum [(n_delta'aa'oo,[0;1]); (T 25,[2;3])] [0;2;3;1]) (-1) 1);
  (*2416*) AddTo n_rdm2'aaaa'oovo (Times (Transpose (T 26) [2;1;3;0]) (2) 1);
  (*2417*) AddTo n_rdm2'aaaa'oovo (Times (Einsum [(n_delta'aa'oo,[0;1]); (T 59,[2;3])] [2;0;3;1]) (-2) 1);
  (*2418*) AddTo n_rdm2'aaaa'oovo (Times (Einsum [(n_delta'aa'oo,[0;1]); (T 59,[2;3])] [0;2;3;1]) (2) 1);
  (*2419*) Del (T 59);
  (*2420*) AddTo n_rdm2'aaaa'oovo (Plain (Transpose (T 33) [1;2;3;0]));
  (*2421*) AddTo n_rdm2'aaaa'oovo (Times (Transpose (T 34) [1;2;3;0]) (4) 1);
  (*2422*) AddTo n_rdm2'aaaa'oovo (Plain (Einsum [(n_t1'aa,[0;1]); (T 5,[2;3])] [3;0;1;2]));
  (*2423*) AddTo n_rdm2'aaaa'oovo (Times (Transpose (T 33) [2;1;3;0]) (-1) 1);
  (*2424*) AddTo n_rdm2'aaaa'oovo (Times (Transpose (T 34) [2;1;3;0]) (-4) 1);
  (*2425*) AddTo n_rdm2'aaaa'oovo (Times (Einsum [(T 5,[0;1]); (n_t1'aa,[2;3])] [2;1;3;0]) (-1) 1);
  (*2426*) AddTo n_rdm2'aaaa'oovo (Times (Transpose (T 36) [2;1;3;0]) (-1) 1);
  (*2427*) Assign n_rdm2'bbbb'ooov (Times (Einsum [(T 50,[0;1]); (n_delta'bb'oo,[2;3])] [0;2;3;1]) (-2) 1);
  (*2428*) Del (T 50);
  (*2429*) AddTo n_rdm2'bbbb'ooov (Plain (Einsum [(T 39,[0;1]); (n_delta'bb'oo,[2;3])] [2;0;3;1]));
  (*2430*) AddTo n_rdm2'bbbb'ooov (Times (Transpose (T 51) [2;1;0;3]) (-2) 1);
  (*2431*) Del (T 51);
  (*2432*) AddTo n_rdm2'bbbb'ooov (Times (Einsum [(T 53,[0;1]); (n_delta'bb'oo,[2;3])] [0;2;3;1]) (2) 1);
  (*2433*) AddTo n_rdm2'bbbb'ooov (Times (Einsum [(n_delta'bb'oo,[0;1]); (T 53,[2;3])] [0;2;1;3]) (-2) 1);
  (*2434*) Del (T 53);
  (*2435*) AddTo n_rdm2'bbbb'ooov (Times (Transpose (T 54) [1;2;0;3]) (-1) 1);
  (*2436*) AddTo n_rdm2'bbbb'ooov (Times (Transpose (T 55) [1;2;0;3]) (-4) 1);
  (*2437*) AddTo n_rdm2'bbbb'ooov (Times (Einsum [(T 18,[0;1]); (n_t1'bb,[2;3])] [1;2;0;3]) (-1) 1);
  (*2438*) AddTo n_rdm2'bbbb'ooov (Plain (Transpose (T 54) [2;1;0;3]));
  (*2439*) Del (T 54);
  (*2440*) AddTo n_rdm2'bbbb'ooov (Times (Transpose (T 55) [2;1;0;3]) (4) 1);
  (*2441*) Del (T 55);
  (*2442*) AddTo n_rdm2'bbbb'ooov (Plain (Einsum [(T 18,[0;1]); (n_t1'bb,[2;3])] [2;1;0;3]));
  (*2443*) AddTo n_rdm2'bbbb'ooov (Plain (Transpose (T 57) [2;1;0;3]));
  (*2444*) Del (T 57);
  (*2445*) Assign n_rdm2'abab'ooov (Plain (Einsum [(T 39,[0;1]); (n_delta'aa'oo,[2;3])] [2;0;3;1]));
  (*2446*) Del (T 39);
  (*2447*) AddTo n_rdm2'abab'ooov (Times (Transpose (T 40) [1;2;0;3]) (-1) 1);
  (*2448*) Del (T 40);
  (*2449*) AddTo n_rdm2'abab'ooov (Times (Einsum [(n_delta'aa'oo,[0;1]); (T 44,[2;3])] [0;2;1;3]) (-1) 1);
  (*2450*) Del (T 44);
  (*2451*) AddTo n_rdm2'abab'ooov (Times (Transpose (T 45) [1;2;0;3]) (-2) 1);
  (*2452*) Del (T 45);
  (*2453*) AddTo n_rdm2'abab'ooov (Times (Transpose (T 46) [1;2;0;3]) (-2) 1);
  (*2454*) Del (T 46);
  (*2455*) AddTo n_rdm2'abab'ooov (Times (Einsum [(T 5,[0;1]); (n_t1'bb,[2;3])] [1;2;0;3]) (-1) 1);
  (*2456*) AddTo n_rdm2'abab'ooov (Plain (Transpose (T 48) [1;2;0;3]));
  (*2457*) Del (T 48);
  (*2458*) AddTo n_rdm2'abab'ooov (Plain (Transpose (T 49) [1;2;0;3]));
  (*2459*) Del (T 49);
  (*2460*) Assign n_rdm2'aaaa'ooov (Times (Einsum [(n_delta'aa'oo,[0;1]); (T 24,[2;3])] [2;0;1;3]) (-1) 1);
  (*2461*) Del (T 24);
  (*2462*) AddTo n_rdm2'aaaa'ooov (Plain (Einsum [(n_delta'aa'oo,[0;1]); (T 25,[2;3])] [0;2;1;3]));
  (*2463*) Del (T 25);
  (*2464*) AddTo n_rdm2'aaaa'ooov (Times (Transpose (T 26) [2;1;0;3]) (-2) 1);
  (*2465*) Del (T 26);
  (*2466*) AddTo n_rdm2'aaaa'ooov (Plain (Einsum [(T 32,[0;1]); (n_delta'aa'oo,[2;3])] [0;2;3;1]));
  (*2467*) AddTo n_rdm2'aaaa'ooov (Times (Einsum [(n_delta'aa'oo,[0;1]); (T 32,[2;3])] [0;2;1;3]) (-1) 1);
  (*2468*) Del (T 32);
  (*2469*) AddTo n_rdm2'aaaa'ooov (Times (Transpose (T 33) [1;2;0;3]) (-1) 1);
  (*2470*) AddTo n_rdm2'aaaa'ooov (Times (Transpose (T 34) [1;2;0;3]) (-4) 1);
  (*2471*) AddTo n_rdm2'aaaa'ooov (Times (Einsum [(T 30,[0;1]); (n_t1'aa,[2;3])] [1;2;0;3]) (-2) 1);
  (*2472*) AddTo n_rdm2'aaaa'ooov (Plain (Transpose (T 33) [2;1;0;3]));
  (*2473*) Del (T 33);
  (*2474*) AddTo n_rdm2'aaaa'ooov (Times (Transpose (T 34) [2;1;0;3]) (4) 1);
  (*2475*) Del (T 34);
  (*2476*) AddTo n_rdm2'aaaa'ooov (Times (Einsum [(T 30,[0;1]); (n_t1'aa,[2;3])] [2;1;0;3]) (2) 1);
  (*2477*) Del (T 30);
  (*2478*) AddTo n_rdm2'aaaa'ooov (Plain (Transpose (T 36) [2;1;0;3]));
  (*2479*) Del (T 36);
  (*2480*) Assign n_rdm2'bbbb'oooo (Times (Einsum [(n_delta'bb'oo,[0;1]); (T 16,[2;3])] [0;3;1;2]) (-1) 1);
  (*2481*) AddTo n_rdm2'bbbb'oooo (Plain (Einsum [(n_delta'bb'oo,[0;1]); (T 16,[2;3])] [3;0;1;2]));
  (*2482*) Del (T 16);
  (*2483*) AddTo n_rdm2'bbbb'oooo (Times (Einsum [(n_delta'bb'oo,[0;1]); (T 17,[2;3])] [3;0;2;1]) (-2) 1);
  (*2484*) Del (T 17);
  (*2485*) AddTo n_rdm2'bbbb'oooo (Plain (Einsum [(T 18,[0;1]); (n_delta'bb'oo,[2;3])] [2;1;0;3]));
  (*2486*) Del (T 18);
  (*2487*) AddTo n_rdm2'bbbb'oooo (Times (Transpose (T 19) [3;2;1;0]) (2) 1);
  (*2488*) Del (T 19);
  (*2489*) AddTo n_rdm2'bbbb'oooo (Times (Transpose (T 21) [2;3;1;0]) (-2) 1);
  (*2490*) Del (T 21);
  (*2491*) Assign n_rdm2'abab'oooo (Times (Einsum [(n_delta'aa'oo,[0;1]); (T 12,[2;3])] [0;3;1;2]) (-2) 1);
  (*2492*) Del (T 12);
  (*2493*) AddTo n_rdm2'abab'oooo (Times (Einsum [(T 5,[0;1]); (n_delta'bb'oo,[2;3])] [1;2;0;3]) (-1) 1);
  (*2494*) AddTo n_rdm2'abab'oooo (Plain (Transpose (T 13) [1;3;0;2]));
  (*2495*) Del (T 13);
  (*2496*) AddTo n_rdm2'abab'oooo (Plain (Transpose (T 15) [1;3;0;2]));
  (*2497*) Del (T 15);
  (*2498*) Assign n_rdm2'aaaa'oooo (Times (Einsum [(n_delta'aa'oo,[0;1]); (T 4,[2;3])] [0;3;1;2]) (-1) 1);
  (*2499*) AddTo n_rdm2'aaaa'oooo (Plain (Einsum [(n_delta'aa'oo,[0;1]); (T 4,[2;3])] [3;0;1;2]));
  (*2500*) Del (T 4);
  (*2501*) AddTo n_rdm2'aaaa'oooo (Times (Einsum [(n_delta'aa'oo,[0;1]); (T 5,[2;3])] [3;0;2;1]) (-1) 1);
  (*2502*) AddTo n_rdm2'aaaa'oooo (Plain (Einsum [(T 5,[0;1]); (n_delta'aa'oo,[2;3])] [2;1;0;3]));
  (*2503*) Del n_delta'aa'oo;
  (*2503*) Del n_delta'aa'vv;
  (*2503*) Del n_delta'bb'oo;
  (*2503*) Del n_delta'bb'vv;
  (*2503*) Del (T 5);
  (*2504*) AddTo n_rdm2'aaaa'oooo (Times (Transpose (T 6) [3;2;1;0]) (2) 1);
  (*2505*) Del (T 6);
  (*2506*) AddTo n_rdm2'aaaa'oooo (Times (Transpose (T 8) [2;3;1;0]) (-2) 1);
  (*2507*) Del (T 8)]
 [(n_rdm2'aaaa'oooo,[4;4;4;4]); (n_rdm2'aaaa'ooov,[4;4;4;5]); (n_rdm2'aaaa'oovo,[4;4;5;4]); (n_rdm2'aaaa'ovoo,[4;5;4;4]); (n_rdm2'aaaa'vooo,[5;4;4;4]); (n_rdm2'aaaa'oovv,[4;4;5;5]); (n_rdm2'aaaa'ovov,[4;5;4;5]); (n_rdm2'aaaa'ovvo,[4;5;5;4]); (n_rdm2'aaaa'voov,[5;4;4;5]); (n_rdm2'aaaa'vovo,[5;4;5;4]); (n_rdm2'aaaa'vvoo,[5;5;4;4]); (n_rdm2'aaaa'ovvv,[4;5;5;5]); (n_rdm2'aaaa'vovv,[5;4;5;5]); (n_rdm2'aaaa'vvov,[5;5;4;5]); (n_rdm2'aaaa'vvvo,[5;5;5;4]); (n_rdm2'aaaa'vvvv,[5;5;5;5]); (n_rdm2'abab'oooo,[4;6;4;6]); (n_rdm2'abab'ooov,[4;6;4;7]); (n_rdm2'abab'oovo,[4;6;5;6]); (n_rdm2'abab'ovoo,[4;7;4;6]); (n_rdm2'abab'vooo,[5;6;4;6]); (n_rdm2'abab'oovv,[4;6;5;7]); (n_rdm2'abab'ovov,[4;7;4;7]); (n_rdm2'abab'ovvo,[4;7;5;6]); (n_rdm2'abab'voov,[5;6;4;7]); (n_rdm2'abab'vovo,[5;6;5;6]); (n_rdm2'abab'vvoo,[5;7;4;6]); (n_rdm2'abab'ovvv,[4;7;5;7]); (n_rdm2'abab'vovv,[5;6;5;7]); (n_rdm2'abab'vvov,[5;7;4;7]); (n_rdm2'abab'vvvo,[5;7;5;6]); (n_rdm2'abab'vvvv,[5;7;5;7]); (n_rdm2'bbbb'oooo,[6;6;6;6]); (n_rdm2'bbbb'ooov,[6;6;6;7]); (n_rdm2'bbbb'oovo,[6;6;7;6]); (n_rdm2'bbbb'ovoo,[6;7;6;6]); (n_rdm2'bbbb'vooo,[7;6;6;6]); (n_rdm2'bbbb'oovv,[6;6;7;7]); (n_rdm2'bbbb'ovov,[6;7;6;7]); (n_rdm2'bbbb'ovvo,[6;7;7;6]); (n_rdm2'bbbb'voov,[7;6;6;7]); (n_rdm2'bbbb'vovo,[7;6;7;6]); (n_rdm2'bbbb'vvoo,[7;7;6;6]); (n_rdm2'bbbb'ovvv,[6;7;7;7]); (n_rdm2'bbbb'vovv,[7;6;7;7]); (n_rdm2'bbbb'vvov,[7;7;6;7]); (n_rdm2'bbbb'vvvo,[7;7;7;6]); (n_rdm2'bbbb'vvvv,[7;7;7;7])].

(** ebcc/codegen/UDFCCSD.py:2519-2979 [hbar_matvec_ip_intermediates] *)
Definition UDFCCSD_hbar_matvec_ip_intermediates : prog := mkprog
 [(n_v'baa'xov,[2;4;5]); (n_t1'aa,[4;5]); (n_v'bbb'xov,[2;6;7]); (n_t1'bb,[6;7]); (n_t2'abab,[4;6;5;7]); (n_t2'bbbb,[6;6;7;7]); (n_t2'aaaa,[4;4;5;5]); (n_v'bbb'xoo,[2;6;6]); (n_v'bbb'xvv,[2;7;7]); (n_v'baa'xoo,[2;4;4]); (n_f'bb'ov,[6;7]); (n_v'baa'xvv,[2;5;5]); (n_f'aa'ov,[4;5]); (n_f'bb'vv,[7;7]); (n_f'bb'oo,[6;6]); (n_f'aa'oo,[4;4]); (n_f'aa'vv,[5;5])]
 [(*2752*) Assign (T 9) (Plain (Einsum [(n_v'baa'xov,[0;1;2]); (n_t1'aa,[1;2])] [0]));
  (*2753*) Assign (T 11) (Plain (Einsum [(n_v'bbb'xov,[0;1;2]); (n_t1'bb,[1;2])] [0]));
  (*2754*) Assign (T 17) (Plain (Einsum [(n_v'bbb'xov,[0;1;2]); (n_t1'bb,[3;2])] [0;3;1]));
  (*2755*) Assign (T 7) (Plain (Einsum [(n_v'baa'xov,[0;1;2]); (n_t1'aa,[3;2])] [0;3;1]));
  (*2756*) Assign (T 132) (Plain (Einsum [(n_v'bbb'xov,[0;1;2]); (n_v'bbb'xov,[0;3;4])] [1;3;2;4]));
  (*2757*) Assign (T 22) (Plain (Einsum [(T 9,[0]); (n_v'bbb'xov,[0;1;2])] [1;2]));
  (*2758*) Assign (T 19) (Plain (Einsum [(n_v'bbb'xov,[0;1;2]); (T 11,[0])] [1;2]));
  (*2759*) Assign (T 18) (Plain (Einsum [(T 17,[0;1;2]); (n_v'bbb'xov,[0;1;3])] [2;3]));
  (*2760*) Assign (T 55) (Plain (Einsum [(n_t2'abab,[0;1;2;3]); (n_v'baa'xov,[4;0;2])] [4;1;3]));
  (*2761*) Assign (T 52) (Plain (Einsum [(n_v'bbb'xov,[0;1;2]); (n_t2'bbbb,[3;1;4;2])] [0;3;4]));
  (*2762*) Assign (T 157) (Plain (Einsum [(n_v'bbb'xov,[0;1;2]); (n_v'baa'xov,[0;3;4])] [3;1;4;2]));
  (*2763*) Assign (T 20) (Plain (Einsum [(T 11,[0]); (n_v'baa'xov,[0;1;2])] [1;2]));
  (*2764*) Assign (T 15) (Plain (Einsum [(T 9,[0]); (n_v'baa'xov,[0;1;2])] [1;2]));
  (*2765*) Assign (T 13) (Plain (Einsum [(n_v'baa'xov,[0;1;2]); (T 7,[0;1;3])] [3;2]));
  (*2766*) Assign (T 30) (Plain (Einsum [(n_t2'abab,[0;1;2;3]); (n_v'bbb'xov,[4;1;3])] [4;0;2]));
  (*2767*) Assign (T 27) (Plain (Einsum [(n_v'baa'xov,[0;1;2]); (n_t2'aaaa,[3;1;4;2])] [0;3;4]));
  (*2768*) Assign (T 93) (Plain (Einsum [(n_v'baa'xov,[0;1;2]); (n_v'baa'xov,[0;3;4])] [3;1;4;2]));
  (*2769*) Assign (T 450) (Plain (Einsum [(T 17,[0;1;2]); (n_v'bbb'xoo,[0;3;4])] [1;3;4;2]));
  (*2770*) Assign (T 48) (Plain (Einsum [(n_v'bbb'xov,[0;1;2]); (T 17,[0;3;4])] [3;1;4;2]));
  (*2771*) Assign (T 277) (Plain (Einsum [(n_v'bbb'xvv,[0;1;2]); (n_t1'bb,[3;2])] [0;3;1]));
  (*2772*) Assign (T 38) (Plain (Einsum [(n_v'bbb'xoo,[0;1;2]); (n_v'bbb'xov,[0;3;4])] [1;2;3;4]));
  (*2773*) Assign (T 402) (Plain (Einsum [(n_v'bbb'xoo,[0;1;2]); (n_v'bbb'xoo,[0;3;4])] [1;3;4;2]));
  (*2774*) Assign (T 395) (Plain (Einsum [(n_t2'bbbb,[0;1;2;3]); (T 132,[4;5;3;2])] [0;1;5;4]));
  (*2775*) Assign (T 392) (Plain (Einsum [(n_v'bbb'xov,[0;1;2]); (n_v'bbb'xvv,[0;3;4])] [1;3;4;2]));
  (*2776*) Assign (T 388) (Plain (Einsum [(T 17,[0;1;2]); (T 17,[0;3;4])] [3;1;4;2]));
  (*2777*) Assign (T 60) (Plain (Einsum [(T 22,[0;1]); (n_t1'bb,[2;1])] [2;0]));
  (*2778*) Assign (T 59) (Plain (Einsum [(T 19,[0;1]); (n_t1'bb,[2;1])] [2;0]));
  (*2779*) Assign (T 58) (Plain (Einsum [(T 18,[0;1]); (n_t1'bb,[2;1])] [2;0]));
  (*2780*) Assign (T 253) (Plain (Einsum [(n_v'baa'xoo,[0;1;2]); (T 17,[0;3;4])] [1;2;3;4]));
  (*2781*) Assign (T 56) (Plain (Einsum [(n_v'bbb'xov,[0;1;2]); (T 55,[0;3;2])] [3;1]));
  (*2782*) Assign (T 53) (Plain (Einsum [(n_v'bbb'xov,[0;1;2]); (T 52,[0;3;2])] [3;1]));
  (*2783*) Assign (T 50) (Plain (Einsum [(T 17,[0;1;2]); (n_v'baa'xov,[0;3;4])] [3;1;2;4]));
  (*2784*) Assign (T 37) (Plain (Einsum [(n_f'bb'ov,[0;1]); (n_t1'bb,[2;1])] [0;2]));
  (*2785*) Assign (T 265) (Plain (Einsum [(n_v'bbb'xoo,[0;1;2]); (T 7,[0;3;4])] [3;4;1;2]));
  (*2786*) Assign (T 23) (Plain (Einsum [(T 7,[0;1;2]); (n_v'baa'xov,[0;3;4])] [1;3;2;4]));
  (*2787*) Assign (T 250) (Plain (Einsum [(T 7,[0;1;2]); (T 17,[0;3;4])] [1;2;3;4]));
  (*2788*) Assign (T 279) (Plain (Einsum [(T 9,[0]); (n_v'bbb'xvv,[0;1;2])] [1;2]));
  (*2789*) Assign (T 276) (Plain (Einsum [(T 11,[0]); (n_v'bbb'xvv,[0;1;2])] [1;2]));
  (*2790*) Assign (T 44) (Plain (Einsum [(T 9,[0]); (n_v'bbb'xoo,[0;1;2])] [1;2]));
  (*2791*) Assign (T 43) (Plain (Einsum [(n_v'bbb'xoo,[0;1;2]); (T 11,[0])] [1;2]));
  (*2792*) Assign (T 42) (Plain (Einsum [(T 17,[0;1;2]); (n_v'bbb'xoo,[0;3;1])] [3;2]));
  (*2793*) Assign (T 40) (Plain (Einsum [(n_v'bbb'xoo,[0;1;2]); (n_v'baa'xov,[0;3;4])] [3;1;2;4]));
  (*2794*) Assign (T 3) (Plain (Einsum [(n_v'baa'xoo,[0;1;2]); (n_v'baa'xov,[0;3;4])] [1;2;3;4]));
  (*2795*) Assign (T 215) (Plain (Einsum [(n_v'bbb'xoo,[0;1;2]); (n_v'baa'xoo,[0;3;4])] [3;4;1;2]));
  (*2796*) Assign (T 211) (Plain (Einsum [(n_t2'abab,[0;1;2;3]); (T 157,[4;5;2;3])] [0;4;1;5]));
  (*2797*) Assign (T 281) (Plain (Einsum [(n_v'bbb'xvv,[0;1;2]); (n_v'baa'xov,[0;3;4])] [3;4;1;2]));
  (*2798*) Assign (T 25) (Plain (Einsum [(n_v'bbb'xov,[0;1;2]); (T 7,[0;3;4])] [3;4;1;2]));
  (*2799*) Assign (T 70) (Plain (Einsum [(n_v'baa'xvv,[0;1;2]); (n_t1'aa,[3;2])] [0;3;1]));
  (*2800*) Assign (T 5) (Plain (Einsum [(n_v'bbb'xov,[0;1;2]); (n_v'baa'xoo,[0;3;4])] [3;4;1;2]));
  (*2801*) Assign (T 208) (Plain (Einsum [(n_v'baa'xvv,[0;1;2]); (n_v'bbb'xov,[0;3;4])] [3;1;2;4]));
  (*2802*) Assign (T 35) (Plain (Einsum [(T 20,[0;1]); (n_t1'aa,[2;1])] [2;0]));
  (*2803*) Assign (T 34) (Plain (Einsum [(T 15,[0;1]); (n_t1'aa,[2;1])] [2;0]));
  (*2804*) Assign (T 33) (Plain (Einsum [(T 13,[0;1]); (n_t1'aa,[2;1])] [2;0]));
  (*2805*) Assign (T 174) (Plain (Einsum [(n_v'baa'xoo,[0;1;2]); (T 7,[0;3;4])] [3;1;2;4]));
  (*2806*) Assign (T 31) (Plain (Einsum [(T 30,[0;1;2]); (n_v'baa'xov,[0;3;2])] [1;3]));
  (*2807*) Assign (T 28) (Plain (Einsum [(T 27,[0;1;2]); (n_v'baa'xov,[0;3;2])] [1;3]));
  (*2808*) Assign (T 2) (Plain (Einsum [(n_t1'aa,[0;1]); (n_f'aa'ov,[2;1])] [2;0]));
  (*2809*) Assign (T 12) (Plain (Einsum [(T 11,[0]); (n_v'baa'xoo,[0;1;2])] [1;2]));
  (*2810*) Assign (T 10) (Plain (Einsum [(T 9,[0]); (n_v'baa'xoo,[0;1;2])] [1;2]));
  (*2811*) Assign (T 8) (Plain (Einsum [(n_v'baa'xoo,[0;1;2]); (T 7,[0;2;3])] [1;3]));
  (*2812*) Assign (T 104) (Plain (Einsum [(n_v'baa'xoo,[0;1;2]); (n_v'baa'xoo,[0;3;4])] [3;1;2;4]));
  (*2813*) Assign (T 94) (Plain (Einsum [(n_t2'aaaa,[0;1;2;3]); (T 93,[4;5;3;2])] [0;1;5;4]));
  (*2814*) Assign (T 90) (Plain (Einsum [(n_v'baa'xvv,[0;1;2]); (n_v'baa'xov,[0;3;4])] [3;1;2;4]));
  (*2815*) Assign (T 86) (Plain (Einsum [(T 7,[0;1;2]); (T 7,[0;3;4])] [1;3;2;4]));
  (*2816*) Assign (T 73) (Plain (Einsum [(n_v'baa'xvv,[0;1;2]); (T 11,[0])] [1;2]));
  (*2817*) Del (T 11);
  (*2818*) Assign (T 68) (Plain (Einsum [(n_v'baa'xvv,[0;1;2]); (T 9,[0])] [1;2]));
  (*2819*) Del (T 9);
  (*2820*) Assign (T 462) (Plain (Einsum [(T 450,[0;1;2;3]); (n_t1'bb,[3;4])] [0;1;2;4]));
  (*2821*) Assign (T 460) (Plain (Einsum [(T 450,[0;1;2;3]); (n_t1'bb,[2;4])] [0;1;3;4]));
  (*2822*) Assign (T 458) (Plain (Einsum [(T 17,[0;1;2]); (T 55,[0;3;4])] [1;3;2;4]));
  (*2823*) Assign (T 456) (Plain (Einsum [(T 48,[0;1;2;3]); (n_t2'bbbb,[4;2;5;3])] [0;4;1;5]));
  (*2824*) Assign (T 454) (Plain (Einsum [(T 17,[0;1;2]); (T 52,[0;3;4])] [1;3;2;4]));
  (*2825*) Assign (T 448) (Plain (Einsum [(n_v'bbb'xoo,[0;1;2]); (T 277,[0;3;4])] [3;1;2;4]));
  (*2826*) Assign (T 443) (Plain (Einsum [(T 22,[0;1]); (n_t2'bbbb,[2;3;4;1])] [2;3;0;4]));
  (*2827*) Assign (T 441) (Plain (Einsum [(T 19,[0;1]); (n_t2'bbbb,[2;3;4;1])] [2;3;0;4]));
  (*2828*) Assign (T 439) (Plain (Einsum [(n_t2'bbbb,[0;1;2;3]); (T 18,[4;3])] [0;1;4;2]));
  (*2829*) Assign (T 435) (Plain (Einsum [(n_f'bb'ov,[0;1]); (n_t2'bbbb,[2;3;4;1])] [0;2;3;4]));
  (*2830*) Assign (T 419) (Plain (Einsum [(T 55,[0;1;2]); (n_v'bbb'xoo,[0;3;4])] [1;3;4;2]));
  (*2831*) Assign (T 417) (Plain (Einsum [(T 52,[0;1;2]); (n_v'bbb'xoo,[0;3;4])] [1;3;4;2]));
  (*2832*) Assign (T 415) (Plain (Einsum [(n_t2'bbbb,[0;1;2;3]); (T 38,[4;1;5;3])] [0;4;5;2]));
  (*2833*) Assign (T 404) (Plain (Einsum [(T 402,[0;1;2;3]); (n_t1'bb,[3;4])] [1;2;0;4]));
  (*2834*) Assign (T 397) (Plain (Einsum [(T 395,[0;1;2;3]); (n_t1'bb,[3;4])] [0;1;2;4]));
  (*2835*) Assign (T 393) (Times (Einsum [(T 392,[0;1;2;3]); (n_t2'bbbb,[4;5;2;3])] [4;5;0;1]) (-1) 1);
  (*2836*) Del (T 392);
  (*2837*) Assign (T 390) (Plain (Einsum [(T 388,[0;1;2;3]); (n_t1'bb,[2;4])] [1;0;3;4]));
  (*2838*) Assign (T 386) (Plain (Einsum [(T 17,[0;1;2]); (T 277,[0;3;4])] [1;3;2;4]));
  (*2839*) Assign (T 375) (Plain (Einsum [(T 60,[0;1]); (n_t1'bb,[1;2])] [0;2]));
  (*2840*) Assign (T 374) (Plain (Einsum [(T 59,[0;1]); (n_t1'bb,[1;2])] [0;2]));
  (*2841*) Assign (T 373) (Plain (Einsum [(T 58,[0;1]); (n_t1'bb,[1;2])] [0;2]));
  (*2842*) Assign (T 368) (Plain (Einsum [(T 253,[0;1;2;3]); (n_t1'bb,[3;4])] [0;1;2;4]));
  (*2843*) Assign (T 367) (Plain (Einsum [(T 56,[0;1]); (n_t1'bb,[1;2])] [0;2]));
  (*2844*) Assign (T 366) (Plain (Einsum [(T 53,[0;1]); (n_t1'bb,[1;2])] [0;2]));
  (*2845*) Assign (T 365) (Plain (Einsum [(n_t2'abab,[0;1;2;3]); (T 50,[4;5;1;2])] [0;4;5;3]));
  (*2846*) Assign (T 364) (Plain (Einsum [(n_t2'abab,[0;1;2;3]); (T 50,[0;4;1;2])] [4;3]));
  (*2847*) Assign (T 363) (Plain (Einsum [(T 48,[0;1;2;3]); (n_t2'bbbb,[2;1;4;3])] [0;4]));
  (*2848*) Assign (T 359) (Plain (Einsum [(n_v'baa'xoo,[0;1;2]); (T 277,[0;3;4])] [1;2;3;4]));
  (*2849*) Assign (T 358) (Plain (Einsum [(n_v'baa'xoo,[0;1;2]); (n_v'bbb'xvv,[0;3;4])] [1;2;3;4]));
  (*2850*) Assign (T 357) (Plain (Einsum [(T 37,[0;1]); (n_t1'bb,[0;2])] [1;2]));
  (*2851*) Assign (T 355) (Plain (Einsum [(T 265,[0;1;2;3]); (n_t1'bb,[3;4])] [0;1;2;4]));
  (*2852*) Assign (T 353) (Plain (Einsum [(T 7,[0;1;2]); (T 52,[0;3;4])] [1;2;3;4]));
  (*2853*) Assign (T 352) (Plain (Einsum [(n_t2'abab,[0;1;2;3]); (T 23,[4;5;0;2])] [4;5;1;3]));
  (*2854*) Assign (T 351) (Plain (Einsum [(T 7,[0;1;2]); (T 55,[0;3;4])] [1;2;3;4]));
  (*2855*) Assign (T 347) (Plain (Einsum [(n_v'bbb'xoo,[0;1;2]); (T 277,[0;2;3])] [1;3]));
  (*2856*) Assign (T 346) (Plain (Einsum [(n_v'bbb'xoo,[0;1;2]); (n_v'bbb'xvv,[0;3;4])] [1;2;3;4]));
  (*2857*) Assign (T 345) (Plain (Einsum [(T 250,[0;1;2;3]); (n_t1'bb,[3;4])] [0;1;2;4]));
  (*2858*) Assign (T 343) (Plain (Einsum [(T 7,[0;1;2]); (T 277,[0;3;4])] [1;2;3;4]));
  (*2859*) Assign (T 342) (Plain (Einsum [(T 279,[0;1]); (n_t1'bb,[2;1])] [2;0]));
  (*2860*) Assign (T 341) (Plain (Einsum [(T 277,[0;1;2]); (T 17,[0;3;1])] [3;2]));
  (*2861*) Assign (T 340) (Plain (Einsum [(T 276,[0;1]); (n_t1'bb,[2;1])] [2;0]));
  (*2862*) Assign (T 339) (Plain (Einsum [(T 55,[0;1;2]); (n_v'bbb'xvv,[0;3;2])] [1;3]));
  (*2863*) Assign (T 338) (Times (Einsum [(T 52,[0;1;2]); (n_v'bbb'xvv,[0;3;2])] [1;3]) (-1) 1);
  (*2864*) Assign (T 336) (Plain (Einsum [(T 17,[0;1;2]); (n_v'bbb'xvv,[0;3;4])] [1;2;3;4]));
  (*2865*) Assign (T 335) (Plain (Einsum [(n_f'bb'vv,[0;1]); (n_t1'bb,[2;1])] [2;0]));
  (*2866*) Assign (T 331) (Plain (Einsum [(n_t1'bb,[0;1]); (T 44,[2;0])] [2;1]));
  (*2867*) Assign (T 330) (Plain (Einsum [(T 43,[0;1]); (n_t1'bb,[1;2])] [0;2]));
  (*2868*) Assign (T 329) (Plain (Einsum [(T 42,[0;1]); (n_t1'bb,[1;2])] [0;2]));
  (*2869*) Assign (T 328) (Plain (Einsum [(T 20,[0;1]); (n_t2'abab,[2;3;1;4])] [2;0;3;4]));
  (*2870*) Assign (T 327) (Plain (Einsum [(T 15,[0;1]); (n_t2'abab,[2;3;1;4])] [2;0;3;4]));
  (*2871*) Assign (T 326) (Plain (Einsum [(n_t2'abab,[0;1;2;3]); (T 13,[4;2])] [0;4;1;3]));
  (*2872*) Assign (T 323) (Plain (Einsum [(n_t2'abab,[0;1;2;3]); (T 157,[4;1;2;5])] [0;4;3;5]));
  (*2873*) Assign (T 321) (Plain (Einsum [(n_v'bbb'xov,[0;1;2]); (T 55,[0;1;3])] [3;2]));
  (*2874*) Assign (T 319) (Plain (Einsum [(n_v'bbb'xov,[0;1;2]); (T 52,[0;1;3])] [3;2]));
  (*2875*) Assign (T 318) (Plain (Einsum [(n_t2'abab,[0;1;2;3]); (T 40,[4;5;1;2])] [0;4;5;3]));
  (*2876*) Assign (T 317) (Plain (Einsum [(n_t2'abab,[0;1;2;3]); (T 40,[0;4;1;2])] [4;3]));
  (*2877*) Assign (T 316) (Plain (Einsum [(n_t2'bbbb,[0;1;2;3]); (T 38,[4;0;1;3])] [4;2]));
  (*2878*) Assign (T 311) (Plain (Einsum [(n_t2'abab,[0;1;2;3]); (n_f'aa'ov,[4;2])] [4;0;1;3]));
  (*2879*) Assign (T 309) (Plain (Einsum [(n_t1'bb,[0;1]); (n_f'bb'oo,[2;0])] [2;1]));
  (*2880*) Assign (T 308) (Plain (Einsum [(n_t2'bbbb,[0;1;2;3]); (T 22,[1;3])] [0;2]));
  (*2881*) Assign (T 307) (Plain (Einsum [(T 20,[0;1]); (n_t2'abab,[0;2;1;3])] [2;3]));
  (*2882*) Assign (T 306) (Plain (Einsum [(n_t2'bbbb,[0;1;2;3]); (T 19,[1;3])] [0;2]));
  (*2883*) Assign (T 305) (Plain (Einsum [(n_t2'bbbb,[0;1;2;3]); (T 18,[1;3])] [0;2]));
  (*2884*) Assign (T 304) (Plain (Einsum [(n_t2'abab,[0;1;2;3]); (T 15,[0;2])] [1;3]));
  (*2885*) Assign (T 303) (Plain (Einsum [(n_t2'abab,[0;1;2;3]); (T 13,[0;2])] [1;3]));
  (*2886*) Assign (T 299) (Plain (Einsum [(n_t2'bbbb,[0;1;2;3]); (T 132,[1;4;5;3])] [0;4;2;5]));
  (*2887*) Assign (T 296) (Plain (Einsum [(n_t2'abab,[0;1;2;3]); (T 93,[0;4;5;2])] [4;1;5;3]));
  (*2888*) Assign (T 294) (Plain (Einsum [(n_v'baa'xoo,[0;1;2]); (T 52,[0;3;4])] [1;2;3;4]));
  (*2889*) Assign (T 293) (Plain (Einsum [(n_v'baa'xoo,[0;1;2]); (T 55,[0;3;4])] [1;2;3;4]));
  (*2890*) Assign (T 292) (Plain (Einsum [(n_t2'abab,[0;1;2;3]); (T 3,[4;0;5;2])] [4;5;1;3]));
  (*2891*) Assign (T 290) (Plain (Einsum [(n_t1'bb,[0;1]); (T 215,[2;3;4;0])] [3;2;4;1]));
  (*2892*) Assign (T 288) (Plain (Einsum [(n_t2'bbbb,[0;1;2;3]); (n_f'bb'ov,[1;3])] [0;2]));
  (*2893*) Assign (T 287) (Plain (Einsum [(n_t2'abab,[0;1;2;3]); (n_f'aa'ov,[0;2])] [1;3]));
  (*2894*) Assign (T 285) (Plain (Einsum [(T 211,[0;1;2;3]); (n_t1'bb,[3;4])] [0;1;2;4]));
  (*2895*) Assign (T 282) (Plain (Einsum [(T 281,[0;1;2;3]); (n_t2'abab,[4;5;1;3])] [4;0;5;2]));
  (*2896*) Del (T 281);
  (*2897*) Assign (T 280) (Plain (Einsum [(T 7,[0;1;2]); (n_v'bbb'xvv,[0;3;4])] [1;2;3;4]));
  (*2898*) Assign (T 278) (Plain (Einsum [(T 277,[0;1;2]); (n_v'bbb'xov,[0;1;3])] [3;2]));
  (*2899*) Assign (T 270) (Plain (Einsum [(n_t1'aa,[0;1]); (T 265,[2;0;3;4])] [2;3;4;1]));
  (*2900*) Assign (T 269) (Plain (Einsum [(T 25,[0;1;2;3]); (n_t2'abab,[1;4;5;3])] [0;4;2;5]));
  (*2901*) Assign (T 264) (Plain (Einsum [(n_v'bbb'xoo,[0;1;2]); (T 70,[0;3;4])] [3;1;2;4]));
  (*2902*) Assign (T 263) (Plain (Einsum [(n_v'baa'xvv,[0;1;2]); (n_v'bbb'xoo,[0;3;4])] [3;4;1;2]));
  (*2903*) Assign (T 261) (Plain (Einsum [(n_t1'aa,[0;1]); (T 253,[2;0;3;4])] [2;3;4;1]));
  (*2904*) Assign (T 259) (Plain (Einsum [(T 27,[0;1;2]); (T 17,[0;3;4])] [1;3;4;2]));
  (*2905*) Assign (T 258) (Plain (Einsum [(n_t2'abab,[0;1;2;3]); (T 48,[4;5;1;3])] [0;4;5;2]));
  (*2906*) Assign (T 257) (Plain (Einsum [(T 30,[0;1;2]); (T 17,[0;3;4])] [1;3;4;2]));
  (*2907*) Assign (T 252) (Plain (Einsum [(n_t1'aa,[0;1]); (T 250,[2;0;3;4])] [2;3;4;1]));
  (*2908*) Assign (T 249) (Plain (Einsum [(T 70,[0;1;2]); (T 17,[0;3;4])] [1;3;4;2]));
  (*2909*) Assign (T 244) (Plain (Einsum [(n_t2'abab,[0;1;2;3]); (T 22,[4;3])] [0;1;4;2]));
  (*2910*) Assign (T 243) (Plain (Einsum [(n_t2'abab,[0;1;2;3]); (T 19,[4;3])] [0;1;4;2]));
  (*2911*) Assign (T 242) (Plain (Einsum [(n_t2'abab,[0;1;2;3]); (T 18,[4;3])] [0;1;4;2]));
  (*2912*) Assign (T 237) (Plain (Einsum [(T 157,[0;1;2;3]); (n_t2'abab,[0;4;5;3])] [4;1;5;2]));
  (*2913*) Assign (T 234) (Plain (Einsum [(n_t2'abab,[0;1;2;3]); (T 5,[4;0;5;3])] [4;1;5;2]));
  (*2914*) Assign (T 229) (Plain (Einsum [(n_t2'abab,[0;1;2;3]); (n_f'bb'ov,[4;3])] [0;4;1;2]));
  (*2915*) Assign (T 221) (Plain (Einsum [(n_v'bbb'xoo,[0;1;2]); (T 27,[0;3;4])] [3;1;2;4]));
  (*2916*) Assign (T 220) (Plain (Einsum [(n_v'bbb'xoo,[0;1;2]); (T 30,[0;3;4])] [3;1;2;4]));
  (*2917*) Assign (T 219) (Plain (Einsum [(n_t2'abab,[0;1;2;3]); (T 38,[4;1;5;3])] [0;4;5;2]));
  (*2918*) Assign (T 217) (Plain (Einsum [(n_t1'aa,[0;1]); (T 215,[2;0;3;4])] [2;4;3;1]));
  (*2919*) Assign (T 213) (Plain (Einsum [(n_t1'aa,[0;1]); (T 211,[2;0;3;4])] [2;3;4;1]));
  (*2920*) Assign (T 209) (Plain (Einsum [(n_t2'abab,[0;1;2;3]); (T 208,[4;5;2;3])] [0;1;4;5]));
  (*2921*) Del (T 208);
  (*2922*) Assign (T 207) (Plain (Einsum [(n_v'baa'xvv,[0;1;2]); (T 17,[0;3;4])] [3;4;1;2]));
  (*2923*) Assign (T 203) (Plain (Einsum [(n_t1'aa,[0;1]); (T 35,[2;0])] [2;1]));
  (*2924*) Assign (T 202) (Plain (Einsum [(T 34,[0;1]); (n_t1'aa,[1;2])] [0;2]));
  (*2925*) Assign (T 201) (Plain (Einsum [(T 33,[0;1]); (n_t1'aa,[1;2])] [0;2]));
  (*2926*) Assign (T 190) (Plain (Einsum [(T 174,[0;1;2;3]); (n_t1'aa,[3;4])] [0;1;2;4]));
  (*2927*) Assign (T 188) (Plain (Einsum [(T 174,[0;1;2;3]); (n_t1'aa,[2;4])] [0;1;3;4]));
  (*2928*) Assign (T 187) (Plain (Einsum [(T 31,[0;1]); (n_t1'aa,[1;2])] [0;2]));
  (*2929*) Assign (T 186) (Plain (Einsum [(n_t1'aa,[0;1]); (T 28,[2;0])] [2;1]));
  (*2930*) Assign (T 184) (Plain (Einsum [(T 7,[0;1;2]); (T 30,[0;3;4])] [1;3;2;4]));
  (*2931*) Assign (T 182) (Plain (Einsum [(T 23,[0;1;2;3]); (n_t2'aaaa,[4;2;5;3])] [0;4;1;5]));
  (*2932*) Assign (T 180) (Plain (Einsum [(T 7,[0;1;2]); (T 27,[0;3;4])] [1;3;2;4]));
  (*2933*) Assign (T 179) (Plain (Einsum [(n_t2'abab,[0;1;2;3]); (T 25,[4;0;1;3])] [4;2]));
  (*2934*) Assign (T 178) (Plain (Einsum [(n_t2'aaaa,[0;1;2;3]); (T 23,[4;1;0;3])] [4;2]));
  (*2935*) Assign (T 172) (Plain (Einsum [(n_v'baa'xoo,[0;1;2]); (T 70,[0;3;4])] [3;1;2;4]));
  (*2936*) Assign (T 171) (Plain (Einsum [(T 70,[0;1;2]); (n_v'baa'xoo,[0;3;1])] [3;2]));
  (*2937*) Assign (T 169) (Plain (Einsum [(n_v'baa'xvv,[0;1;2]); (n_v'baa'xoo,[0;3;4])] [3;4;1;2]));
  (*2938*) Assign (T 167) (Plain (Einsum [(n_t1'aa,[0;1]); (T 2,[0;2])] [2;1]));
  (*2939*) Assign (T 164) (Plain (Einsum [(n_t2'aaaa,[0;1;2;3]); (T 20,[4;3])] [0;1;4;2]));
  (*2940*) Assign (T 162) (Plain (Einsum [(n_t2'aaaa,[0;1;2;3]); (T 15,[4;3])] [0;1;4;2]));
  (*2941*) Assign (T 160) (Plain (Einsum [(n_t2'aaaa,[0;1;2;3]); (T 13,[4;3])] [0;1;4;2]));
  (*2942*) Assign (T 153) (Plain (Einsum [(n_t2'aaaa,[0;1;2;3]); (n_f'aa'ov,[4;3])] [4;0;1;2]));
  (*2943*) Assign (T 146) (Plain (Einsum [(T 12,[0;1]); (n_t1'aa,[1;2])] [0;2]));
  (*2944*) Assign (T 145) (Plain (Einsum [(n_t1'aa,[0;1]); (T 10,[2;0])] [2;1]));
  (*2945*) Assign (T 144) (Plain (Einsum [(n_t1'aa,[0;1]); (T 8,[2;0])] [2;1]));
  (*2946*) Assign (T 143) (Plain (Einsum [(n_t2'abab,[0;1;2;3]); (T 22,[1;3])] [0;2]));
  (*2947*) Assign (T 142) (Plain (Einsum [(n_t2'aaaa,[0;1;2;3]); (T 20,[1;3])] [0;2]));
  (*2948*) Assign (T 141) (Plain (Einsum [(T 19,[0;1]); (n_t2'abab,[2;0;3;1])] [2;3]));
  (*2949*) Assign (T 140) (Plain (Einsum [(n_t2'abab,[0;1;2;3]); (T 18,[1;3])] [0;2]));
  (*2950*) Assign (T 139) (Plain (Einsum [(n_t2'aaaa,[0;1;2;3]); (T 15,[1;3])] [0;2]));
  (*2951*) Assign (T 138) (Plain (Einsum [(T 13,[0;1]); (n_t2'aaaa,[2;0;3;1])] [2;3]));
  (*2952*) Assign (T 133) (Plain (Einsum [(n_t2'abab,[0;1;2;3]); (T 132,[1;4;5;3])] [0;4;2;5]));
  (*2953*) Assign (T 129) (Plain (Einsum [(n_t2'aaaa,[0;1;2;3]); (T 93,[1;4;5;3])] [0;4;2;5]));
  (*2954*) Assign (T 127) (Plain (Einsum [(T 30,[0;1;2]); (n_v'baa'xov,[0;1;3])] [2;3]));
  (*2955*) Assign (T 125) (Plain (Einsum [(T 27,[0;1;2]); (n_v'baa'xov,[0;1;3])] [2;3]));
  (*2956*) Assign (T 123) (Plain (Einsum [(T 30,[0;1;2]); (n_v'baa'xoo,[0;3;4])] [1;3;4;2]));
  (*2957*) Assign (T 121) (Plain (Einsum [(T 27,[0;1;2]); (n_v'baa'xoo,[0;3;4])] [1;3;4;2]));
  (*2958*) Assign (T 119) (Plain (Einsum [(n_t2'aaaa,[0;1;2;3]); (T 3,[4;1;5;3])] [0;4;5;2]));
  (*2959*) Assign (T 118) (Plain (Einsum [(T 5,[0;1;2;3]); (n_t2'abab,[1;2;4;3])] [0;4]));
  (*2960*) Assign (T 117) (Plain (Einsum [(n_t2'aaaa,[0;1;2;3]); (T 3,[4;0;1;3])] [4;2]));
  (*2961*) Assign (T 106) (Plain (Einsum [(T 104,[0;1;2;3]); (n_t1'aa,[3;4])] [1;2;0;4]));
  (*2962*) Assign (T 103) (Plain (Einsum [(n_t2'abab,[0;1;2;3]); (n_f'bb'ov,[1;3])] [0;2]));
  (*2963*) Assign (T 102) (Plain (Einsum [(n_f'aa'ov,[0;1]); (n_t2'aaaa,[2;0;3;1])] [2;3]));
  (*2964*) Assign (T 99) (Plain (Einsum [(n_f'aa'oo,[0;1]); (n_t1'aa,[1;2])] [0;2]));
  (*2965*) Assign (T 96) (Plain (Einsum [(T 94,[0;1;2;3]); (n_t1'aa,[3;4])] [0;1;2;4]));
  (*2966*) Assign (T 91) (Times (Einsum [(n_t2'aaaa,[0;1;2;3]); (T 90,[4;5;2;3])] [0;1;4;5]) (-1) 1);
  (*2967*) Del (T 90);
  (*2968*) Assign (T 88) (Plain (Einsum [(T 86,[0;1;2;3]); (n_t1'aa,[2;4])] [1;0;3;4]));
  (*2969*) Assign (T 84) (Plain (Einsum [(T 7,[0;1;2]); (T 70,[0;3;4])] [1;3;2;4]));
  (*2970*) Assign (T 83) (Plain (Einsum [(n_t1'aa,[0;1]); (T 73,[2;1])] [0;2]));
  (*2971*) Assign (T 82) (Plain (Einsum [(T 70,[0;1;2]); (T 7,[0;3;1])] [3;2]));
  (*2972*) Assign (T 81) (Plain (Einsum [(n_t1'aa,[0;1]); (T 68,[2;1])] [0;2]));
  (*2973*) Assign (T 80) (Plain (Einsum [(n_v'baa'xvv,[0;1;2]); (T 30,[0;3;2])] [3;1]));
  (*2974*) Assign (T 79) (Times (Einsum [(n_v'baa'xvv,[0;1;2]); (T 27,[0;3;2])] [3;1]) (-1) 1);
  (*2975*) Assign (T 75) (Plain (Einsum [(n_v'baa'xvv,[0;1;2]); (T 7,[0;3;4])] [3;4;1;2]));
  (*2976*) Assign (T 71) (Plain (Einsum [(T 70,[0;1;2]); (n_v'baa'xov,[0;1;3])] [3;2]));
  (*2977*) Assign (T 62) (Plain (Einsum [(n_t1'aa,[0;1]); (n_f'aa'vv,[2;1])] [0;2]))]
 [(T 2,[4;4]); (T 102,[4;5]); (T 103,[4;5]); (T 104,[4;4;4;4]); (T 106,[4;4;4;5]); (T 12,[4;4]); (T 117,[4;5]); (T 118,[4;5]); (T 119,[4;4;4;5]); (T 13,[4;5]); (T 121,[4;4;4;5]); (T 123,[4;4;4;5]); (T 125,[5;5]); (T 127,[5;5]); (T 129,[4;4;5;5]); (T 132,[6;6;7;7]); (T 133,[4;6;5;7]); (T 138,[4;5]); (T 139,[4;5]); (T 140,[4;5]); (T 15,[4;5]); (T 141,[4;5]); (T 142,[4;5]); (T 143,[4;5]); (T 144,[4;5]); (T 145,[4;5]); (T 146,[4;5]); (T 153,[4;4;4;5]); (T 157,[4;6;5;7]); (T 160,[4;4;4;5]); (T 17,[2;6;6]); (T 162,[4;4;4;5]); (T 164,[4;4;4;5]); (T 167,[4;5]); (T 169,[4;4;5;5]); (T 18,[6;7]); (T 171,[4;5]); (T 172,[4;4;4;5]); (T 174,[4;4;4;4]); (T 178,[4;5]); (T 179,[4;5]); (T 180,[4;4;4;5]); (T 19,[6;7]); (T 182,[4;4;4;5]); (T 184,[4;4;4;5]); (T 186,[4;5]); (T 187,[4;5]); (T 188,[4;4;4;5]); (T 190,[4;4;4;5]); (T 20,[4;5]); (T 3,[4;4;4;5]); (T 201,[4;5]); (T 202,[4;5]); (T 203,[4;5]); (T 207,[6;6;5;5]); (T 209,[4;6;6;5]); (T 22,[6;7]); (T 211,[4;4;6;6]); (T 213,[4;6;6;5]); (T 215,[4;4;6;6]); (T 217,[4;6;6;5]); (T 219,[4;6;6;5]); (T 220,[4;6;6;5]); (T 23,[4;4;4;5]); (T 221,[4;6;6;5]); (T 229,[4;6;6;5]); (T 234,[4;6;6;5]); (T 237,[6;6;5;5]); (T 25,[4;4;6;7]); (T 242,[4;6;6;5]); (T 243,[4;6;6;5]); (T 244,[4;6;6;5]); (T 249,[4;6;6;5]); (T 250,[4;4;6;6]); (T 252,[4;6;6;5]); (T 253,[4;4;6;6]); (T 257,[4;6;6;5]); (T 258,[4;6;6;5]); (T 259,[4;6;6;5]); (T 27,[2;4;5]); (T 261,[4;6;6;5]); (T 263,[6;6;5;5]); (T 264,[4;6;6;5]); (T 265,[4;4;6;6]); (T 269,[4;6;6;5]); (T 270,[4;6;6;5]); (T 28,[4;4]); (T 276,[7;7]); (T 277,[2;6;7]); (T 278,[7;7]); (T 279,[7;7]); (T 280,[4;4;7;7]); (T 282,[4;4;6;7]); (T 285,[4;4;6;7]); (T 287,[6;7]); (T 288,[6;7]); (T 290,[4;4;6;7]); (T 30,[2;4;5]); (T 292,[4;4;6;7]); (T 293,[4;4;6;7]); (T 294,[4;4;6;7]); (T 296,[4;6;5;7]); (T 299,[6;6;7;7]); (T 31,[4;4]); (T 303,[6;7]); (T 304,[6;7]); (T 305,[6;7]); (T 306,[6;7]); (T 307,[6;7]); (T 308,[6;7]); (T 309,[6;7]); (T 311,[4;4;6;7]); (T 316,[6;7]); (T 317,[6;7]); (T 318,[4;4;6;7]); (T 319,[7;7]); (T 33,[4;4]); (T 321,[7;7]); (T 323,[4;4;7;7]); (T 326,[4;4;6;7]); (T 327,[4;4;6;7]); (T 328,[4;4;6;7]); (T 329,[6;7]); (T 330,[6;7]); (T 34,[4;4]); (T 331,[6;7]); (T 335,[6;7]); (T 336,[6;6;7;7]); (T 338,[6;7]); (T 339,[6;7]); (T 340,[6;7]); (T 35,[4;4]); (T 341,[6;7]); (T 342,[6;7]); (T 343,[4;4;6;7]); (T 345,[4;4;6;7]); (T 346,[6;6;7;7]); (T 347,[6;7]); (T 351,[4;4;6;7]); (T 352,[4;4;6;7]); (T 353,[4;4;6;7]); (T 355,[4;4;6;7]); (T 357,[6;7]); (T 358,[4;4;7;7]); (T 359,[4;4;6;7]); (T 37,[6;6]); (T 363,[6;7]); (T 364,[6;7]); (T 365,[4;4;6;7]); (T 366,[6;7]); (T 367,[6;7]); (T 368,[4;4;6;7]); (T 38,[6;6;6;7]); (T 373,[6;7]); (T 374,[6;7]); (T 375,[6;7]); (T 386,[6;6;6;7]); (T 388,[6;6;6;6]); (T 390,[6;6;6;7]); (T 40,[4;6;6;5]); (T 393,[6;6;6;7]); (T 395,[6;6;6;6]); (T 397,[6;6;6;7]); (T 5,[4;4;6;7]); (T 402,[6;6;6;6]); (T 404,[6;6;6;7]); (T 42,[6;6]); (T 415,[6;6;6;7]); (T 417,[6;6;6;7]); (T 419,[6;6;6;7]); (T 43,[6;6]); (T 44,[6;6]); (T 435,[6;6;6;7]); (T 439,[6;6;6;7]); (T 441,[6;6;6;7]); (T 443,[6;6;6;7]); (T 448,[6;6;6;7]); (T 450,[6;6;6;6]); (T 454,[6;6;6;7]); (T 456,[6;6;6;7]); (T 458,[6;6;6;7]); (T 460,[6;6;6;7]); (T 462,[6;6;6;7]); (T 48,[6;6;6;7]); (T 50,[4;6;6;5]); (T 52,[2;6;7]); (T 53,[6;6]); (T 55,[2;6;7]); (T 56,[6;6]); (T 58,[6;6]); (T 59,[6;6]); (T 60,[6;6]); (T 7,[2;4;4]); (T 62,[4;5]); (T 68,[5;5]); (T 70,[2;4;5]); (T 8,[4;4]); (T 71,[5;5]); (T 73,[5;5]); (T 75,[4;4;5;5]); (T 79,[4;5]); (T 80,[4;5]); (T 81,[4;5]); (T 82,[4;5]); (T 83,[4;5]); (T 84,[4;4;4;5]); (T 86,[4;4;4;4]); (T 88,[4;4;4;5]); (T 10,[4;4]); (T 91,[4;4;4;5]); (T 93,[4;4;5;5]); (T 94,[4;4;4;4]); (T 96,[4;4;4;5]); (T 99,[4;5])].

(** ebcc/codegen/UDFCCSD.py:2981-3740 [hbar_matvec_ip] *)
Definition UDFCCSD_hbar_matvec_ip : prog := mkprog
 [(n_r2'aba,[4;6;5]); (n_v'baa'xov,[2;4;5]); (n_r2'bbb,[6;6;7]); (n_v'bbb'xov,[2;6;7]); (n_r2'aaa,[4;4;5]); (n_r2'bab,[6;4;7]); (IT 38,[6;6;6;7]); (IT 48,[6;6;6;7]); (IT 23,[4;4;4;5]); (IT 3,[4;4;4;5]); (n_v'bbb'xoo,[2;6;6]); (IT 17,[2;6;6]); (IT 7,[2;4;4]); (n_v'baa'xoo,[2;4;4]); (IT 390,[6;6;6;7]); (IT 404,[6;6;6;7]); (IT 419,[6;6;6;7]); (IT 448,[6;6;6;7]); (IT 460,[6;6;6;7]); (IT 417,[6;6;6;7]); (IT 456,[6;6;6;7]); (IT 277,[2;6;7]); (IT 55,[2;6;7]); (IT 52,[2;6;7]); (IT 336,[6;6;7;7]); (IT 346,[6;6;7;7]); (IT 299,[6;6;7;7]); (n_f'bb'oo,[6;6]); (IT 37,[6;6]); (IT 43,[6;6]); (IT 44,[6;6]); (IT 59,[6;6]); (IT 60,[6;6]); (IT 53,[6;6]); (IT 56,[6;6]); (IT 42,[6;6]); (IT 58,[6;6]); (IT 386,[6;6;6;7]); (IT 415,[6;6;6;7]); (IT 454,[6;6;6;7]); (IT 458,[6;6;6;7]); (IT 462,[6;6;6;7]); (n_f'bb'ov,[6;7]); (IT 19,[6;7]); (IT 22,[6;7]); (IT 18,[6;7]); (n_f'aa'ov,[4;5]); (IT 15,[4;5]); (IT 20,[4;5]); (IT 13,[4;5]); (n_f'aa'oo,[4;4]); (IT 12,[4;4]); (IT 2,[4;4]); (IT 34,[4;4]); (IT 35,[4;4]); (IT 10,[4;4]); (IT 106,[4;4;4;5]); (IT 123,[4;4;4;5]); (IT 172,[4;4;4;5]); (IT 188,[4;4;4;5]); (IT 88,[4;4;4;5]); (IT 121,[4;4;4;5]); (IT 182,[4;4;4;5]); (IT 169,[4;4;5;5]); (IT 75,[4;4;5;5]); (IT 129,[4;4;5;5]); (IT 119,[4;4;4;5]); (IT 180,[4;4;4;5]); (IT 184,[4;4;4;5]); (IT 190,[4;4;4;5]); (IT 84,[4;4;4;5]); (IT 28,[4;4]); (IT 31,[4;4]); (IT 33,[4;4]); (IT 8,[4;4]); (IT 27,[2;4;5]); (IT 30,[2;4;5]); (IT 70,[2;4;5]); (n_r1'b,[6]); (IT 450,[6;6;6;6]); (IT 296,[4;6;5;7]); (n_t1'bb,[6;7]); (IT 157,[4;6;5;7]); (IT 132,[6;6;7;7]); (IT 93,[4;4;5;5]); (IT 25,[4;4;6;7]); (IT 5,[4;4;6;7]); (n_t1'aa,[4;5]); (IT 40,[4;6;6;5]); (IT 50,[4;6;6;5]); (IT 133,[4;6;5;7]); (n_r1'a,[4]); (IT 174,[4;4;4;4]); (IT 303,[6;7]); (IT 305,[6;7]); (IT 309,[6;7]); (IT 316,[6;7]); (IT 317,[6;7]); (IT 330,[6;7]); (IT 331,[6;7]); (IT 338,[6;7]); (IT 341,[6;7]); (IT 347,[6;7]); (IT 357,[6;7]); (IT 363,[6;7]); (IT 364,[6;7]); (IT 366,[6;7]); (IT 367,[6;7]); (IT 374,[6;7]); (IT 375,[6;7]); (IT 287,[6;7]); (IT 288,[6;7]); (IT 304,[6;7]); (IT 306,[6;7]); (IT 307,[6;7]); (IT 308,[6;7]); (IT 329,[6;7]); (IT 335,[6;7]); (IT 339,[6;7]); (IT 340,[6;7]); (IT 342,[6;7]); (IT 373,[6;7]); (IT 278,[7;7]); (IT 319,[7;7]); (IT 321,[7;7]); (n_f'bb'vv,[7;7]); (IT 276,[7;7]); (IT 279,[7;7]); (IT 397,[6;6;6;7]); (IT 435,[6;6;6;7]); (IT 441,[6;6;6;7]); (IT 443,[6;6;6;7]); (IT 393,[6;6;6;7]); (IT 439,[6;6;6;7]); (IT 388,[6;6;6;6]); (IT 395,[6;6;6;6]); (IT 402,[6;6;6;6]); (IT 211,[4;4;6;6]); (IT 215,[4;4;6;6]); (IT 250,[4;4;6;6]); (IT 253,[4;4;6;6]); (IT 265,[4;4;6;6]); (IT 282,[4;4;6;7]); (IT 293,[4;4;6;7]); (IT 294,[4;4;6;7]); (IT 311,[4;4;6;7]); (IT 327,[4;4;6;7]); (IT 328,[4;4;6;7]); (IT 343,[4;4;6;7]); (IT 351,[4;4;6;7]); (IT 353,[4;4;6;7]); (IT 359,[4;4;6;7]); (IT 285,[4;4;6;7]); (IT 290,[4;4;6;7]); (IT 292,[4;4;6;7]); (IT 318,[4;4;6;7]); (IT 326,[4;4;6;7]); (IT 345,[4;4;6;7]); (IT 352,[4;4;6;7]); (IT 355,[4;4;6;7]); (IT 365,[4;4;6;7]); (IT 368,[4;4;6;7]); (IT 280,[4;4;7;7]); (IT 358,[4;4;7;7]); (IT 323,[4;4;7;7]); (IT 117,[4;5]); (IT 118,[4;5]); (IT 138,[4;5]); (IT 140,[4;5]); (IT 145,[4;5]); (IT 146,[4;5]); (IT 167,[4;5]); (IT 171,[4;5]); (IT 178,[4;5]); (IT 179,[4;5]); (IT 186,[4;5]); (IT 187,[4;5]); (IT 202,[4;5]); (IT 203,[4;5]); (IT 79,[4;5]); (IT 82,[4;5]); (IT 99,[4;5]); (IT 102,[4;5]); (IT 103,[4;5]); (IT 139,[4;5]); (IT 141,[4;5]); (IT 142,[4;5]); (IT 143,[4;5]); (IT 144,[4;5]); (IT 201,[4;5]); (IT 62,[4;5]); (IT 80,[4;5]); (IT 81,[4;5]); (IT 83,[4;5]); (IT 209,[4;6;6;5]); (IT 220,[4;6;6;5]); (IT 221,[4;6;6;5]); (IT 229,[4;6;6;5]); (IT 243,[4;6;6;5]); (IT 244,[4;6;6;5]); (IT 249,[4;6;6;5]); (IT 257,[4;6;6;5]); (IT 259,[4;6;6;5]); (IT 264,[4;6;6;5]); (IT 213,[4;6;6;5]); (IT 217,[4;6;6;5]); (IT 219,[4;6;6;5]); (IT 234,[4;6;6;5]); (IT 242,[4;6;6;5]); (IT 252,[4;6;6;5]); (IT 258,[4;6;6;5]); (IT 261,[4;6;6;5]); (IT 269,[4;6;6;5]); (IT 270,[4;6;6;5]); (IT 125,[5;5]); (IT 127,[5;5]); (IT 71,[5;5]); (n_f'aa'vv,[5;5]); (IT 68,[5;5]); (IT 73,[5;5]); (IT 207,[6;6;5;5]); (IT 263,[6;6;5;5]); (IT 237,[6;6;5;5]); (IT 86,[4;4;4;4]); (IT 94,[4;4;4;4]); (IT 104,[4;4;4;4]); (IT 153,[4;4;4;5]); (IT 162,[4;4;4;5]); (IT 164,[4;4;4;5]); (IT 96,[4;4;4;5]); (IT 160,[4;4;4;5]); (IT 91,[4;4;4;5]); (n_t2'bbbb,[6;6;7;7]); (n_t2'abab,[4;6;5;7]); (n_t2'aaaa,[4;4;5;5])]
 [(*3011*) Assign (T 48) (Plain (Einsum [(n_r2'aba,[0;1;2]); (n_v'baa'xov,[3;0;2])] [3;1]));
  (*3012*) Assign (T 49) (Plain (Einsum [(n_r2'bbb,[0;1;2]); (n_v'bbb'xov,[3;1;2])] [3;0]));
  (*3013*) Assign (T 10) (Plain (Einsum [(n_v'baa'xov,[0;1;2]); (n_r2'aaa,[3;1;2])] [0;3]));
  (*3014*) Assign (T 11) (Times (Einsum [(n_r2'bab,[0;1;2]); (n_v'bbb'xov,[3;0;2])] [3;1]) (-1) 1);
  (*3015*) Assign (T 50) (Times (Copy (T 48)) (-1) 2);
  (*3016*) AddTo (T 50) (Plain (Copy (T 49)));
  (*3017*) Assign (T 67) (Plain (Copy (IT 38)));
  (*3018*) AddTo (T 67) (Plain (Transpose (IT 48) [0;2;1;3]));
  (*3019*) Assign (T 54) (Times (Copy (T 48)) (-1) 1);
  (*3020*) AddTo (T 54) (Times (Copy (T 49)) (2) 1);
  (*3021*) Assign (T 18) (Plain (Copy (T 10)));
  (*3022*) AddTo (T 18) (Times (Copy (T 11)) (1) 2);
  (*3023*) Assign (T 15) (Plain (Copy (IT 23)));
  (*3024*) AddTo (T 15) (Plain (Transpose (IT 3) [0;2;1;3]));
  (*3025*) Assign (T 12) (Times (Copy (T 10)) (2) 1);
  (*3026*) AddTo (T 12) (Plain (Copy (T 11)));
  (*3027*) Assign (T 79) (Times (Einsum [(n_v'bbb'xoo,[0;1;2]); (T 50,[0;3])] [3;1;2]) (2) 1);
  (*3028*) Assign (T 77) (Times (Einsum [(T 67,[0;1;2;3]); (n_r2'bbb,[4;1;3])] [4;0;2]) (-2) 1);
  (*3029*) Assign (T 78) (Plain (Einsum [(IT 17,[0;1;2]); (T 54,[0;3])] [3;1;2]));
  (*3030*) Assign (T 19) (Plain (Einsum [(IT 7,[0;1;2]); (T 18,[0;3])] [1;2;3]));
  (*3031*) Del (T 18);
  (*3032*) Assign (T 16) (Times (Einsum [(T 15,[0;1;2;3]); (n_r2'aaa,[4;2;3])] [4;0;1]) (-1) 1);
  (*3033*) Assign (T 17) (Times (Einsum [(T 12,[0;1]); (n_v'baa'xoo,[0;2;3])] [2;3;1]) (1) 2);
  (*3034*) Assign (T 93) (Plain (Copy (IT 390)));
  (*3035*) Del (IT 390);
  (*3036*) AddTo (T 93) (Plain (Transpose (IT 404) [1;2;0;3]));
  (*3037*) Del (IT 404);
  (*3038*) AddTo (T 93) (Plain (Transpose (IT 419) [0;2;1;3]));
  (*3039*) Del (IT 419);
  (*3040*) AddTo (T 93) (Plain (Transpose (IT 448) [0;2;1;3]));
  (*3041*) Del (IT 448);
  (*3042*) AddTo (T 93) (Plain (Copy (IT 460)));
  (*3043*) Del (IT 460);
  (*3044*) AddTo (T 93) (Times (Transpose (IT 417) [0;2;1;3]) (2) 1);
  (*3045*) Del (IT 417);
  (*3046*) AddTo (T 93) (Times (Copy (IT 456)) (2) 1);
  (*3047*) Del (IT 456);
  (*3048*) Assign (T 89) (Plain (Copy (IT 277)));
  (*3049*) AddTo (T 89) (Plain (Copy (IT 55)));
  (*3050*) AddTo (T 89) (Times (Copy (IT 52)) (2) 1);
  (*3051*) Assign (T 60) (Plain (Copy (IT 336)));
  (*3052*) Del (IT 336);
  (*3053*) AddTo (T 60) (Plain (Copy (IT 346)));
  (*3054*) Del (IT 346);
  (*3055*) AddTo (T 60) (Times (Copy (IT 299)) (2) 1);
  (*3056*) Del (IT 299);
  (*3057*) Assign (T 91) (Plain (Copy n_f'bb'oo));
  (*3058*) AddTo (T 91) (Plain (Copy (IT 37)));
  (*3059*) AddTo (T 91) (Plain (Transpose (IT 43) [1;0]));
  (*3060*) AddTo (T 91) (Plain (Transpose (IT 44) [1;0]));
  (*3061*) AddTo (T 91) (Plain (Transpose (IT 59) [1;0]));
  (*3062*) AddTo (T 91) (Plain (Transpose (IT 60) [1;0]));
  (*3063*) Assign (T 75) (Plain (Copy (IT 277)));
  (*3064*) AddTo (T 75) (Times (Copy (IT 52)) (2) 1);
  (*3065*) AddTo (T 75) (Plain (Copy (IT 55)));
  (*3066*) Assign (T 84) (Times (Copy (IT 53)) (2) 1);
  (*3067*) AddTo (T 84) (Plain (Copy (IT 56)));
  (*3068*) AddTo (T 84) (Times (Copy (IT 42)) (-1) 1);
  (*3069*) AddTo (T 84) (Times (Copy (IT 58)) (-1) 1);
  (*3070*) Assign (T 82) (Plain (Copy (IT 38)));
  (*3071*) AddTo (T 82) (Plain (Transpose (IT 386) [0;2;1;3]));
  (*3072*) Del (IT 386);
  (*3073*) AddTo (T 82) (Times (Transpose (IT 415) [0;2;1;3]) (2) 1);
  (*3074*) Del (IT 415);
  (*3075*) AddTo (T 82) (Times (Transpose (IT 454) [0;2;1;3]) (2) 1);
  (*3076*) Del (IT 454);
  (*3077*) AddTo (T 82) (Plain (Transpose (IT 458) [0;2;1;3]));
  (*3078*) Del (IT 458);
  (*3079*) AddTo (T 82) (Plain (Copy (IT 462)));
  (*3080*) Del (IT 462);
  (*3081*) AddTo (T 82) (Plain (Transpose (IT 48) [0;2;1;3]));
  (*3082*) Assign (T 80) (Times (Transpose (T 77) [1;2;0]) (-1) 1);
  (*3083*) Del (T 77);
  (*3084*) AddTo (T 80) (Times (Transpose (T 78) [1;2;0]) (-1) 1);
  (*3085*) Del (T 78);
  (*3086*) AddTo (T 80) (Plain (Transpose (T 79) [0;2;1]));
  (*3087*) Del (T 79);
  (*3088*) Assign (T 3) (Plain (Copy n_f'bb'ov));
  (*3089*) AddTo (T 3) (Plain (Copy (IT 19)));
  (*3090*) AddTo (T 3) (Plain (Copy (IT 22)));
  (*3091*) AddTo (T 3) (Times (Copy (IT 18)) (-1) 1);
  (*3092*) Del (IT 18);
  (*3093*) Assign (T 4) (Plain (Copy n_f'aa'ov));
  (*3094*) AddTo (T 4) (Plain (Copy (IT 15)));
  (*3095*) AddTo (T 4) (Plain (Copy (IT 20)));
  (*3096*) AddTo (T 4) (Times (Copy (IT 13)) (-1) 1);
  (*3097*) Del (IT 13);
  (*3098*) Assign (T 30) (Times (Copy (T 10)) (2) 1);
  (*3099*) Del (T 10);
  (*3100*) AddTo (T 30) (Plain (Copy (T 11)));
  (*3101*) Del (T 11);
  (*3102*) Assign (T 32) (Plain (Copy n_f'aa'oo));
  (*3103*) AddTo (T 32) (Plain (Transpose (IT 12) [1;0]));
  (*3104*) AddTo (T 32) (Plain (Copy (IT 2)));
  (*3105*) AddTo (T 32) (Plain (Transpose (IT 34) [1;0]));
  (*3106*) AddTo (T 32) (Plain (Transpose (IT 35) [1;0]));
  (*3107*) AddTo (T 32) (Plain (Transpose (IT 10) [1;0]));
  (*3108*) Assign (T 34) (Plain (Copy (IT 106)));
  (*3109*) Del (IT 106);
  (*3110*) AddTo (T 34) (Plain (Transpose (IT 123) [1;0;2;3]));
  (*3111*) Del (IT 123);
  (*3112*) AddTo (T 34) (Plain (Transpose (IT 172) [1;0;2;3]));
  (*3113*) Del (IT 172);
  (*3114*) AddTo (T 34) (Plain (Transpose (IT 188) [2;0;1;3]));
  (*3115*) Del (IT 188);
  (*3116*) AddTo (T 34) (Plain (Transpose (IT 88) [2;0;1;3]));
  (*3117*) Del (IT 88);
  (*3118*) AddTo (T 34) (Times (Transpose (IT 121) [1;0;2;3]) (2) 1);
  (*3119*) Del (IT 121);
  (*3120*) AddTo (T 34) (Times (Transpose (IT 182) [2;0;1;3]) (2) 1);
  (*3121*) Del (IT 182);
  (*3122*) Assign (T 28) (Plain (Copy (IT 169)));
  (*3123*) AddTo (T 28) (Plain (Copy (IT 75)));
  (*3124*) AddTo (T 28) (Times (Copy (IT 129)) (2) 1);
  (*3125*) Assign (T 22) (Plain (Copy (IT 119)));
  (*3126*) Del (IT 119);
  (*3127*) AddTo (T 22) (Plain (Copy (IT 180)));
  (*3128*) Del (IT 180);
  (*3129*) AddTo (T 22) (Times (Copy (IT 184)) (1) 2);
  (*3130*) Del (IT 184);
  (*3131*) AddTo (T 22) (Times (Transpose (IT 190) [0;2;1;3]) (1) 2);
  (*3132*) Del (IT 190);
  (*3133*) AddTo (T 22) (Times (Copy (IT 23)) (1) 2);
  (*3134*) AddTo (T 22) (Times (Transpose (IT 3) [0;2;1;3]) (1) 2);
  (*3135*) AddTo (T 22) (Times (Copy (IT 84)) (1) 2);
  (*3136*) Del (IT 84);
  (*3137*) Assign (T 20) (Times (Transpose (T 16) [1;2;0]) (-1) 1);
  (*3138*) Del (T 16);
  (*3139*) AddTo (T 20) (Plain (Transpose (T 17) [2;1;0]));
  (*3140*) Del (T 17);
  (*3141*) AddTo (T 20) (Times (Copy (T 19)) (-1) 1);
  (*3142*) Del (T 19);
  (*3143*) Assign (T 24) (Times (Copy (IT 28)) (2) 1);
  (*3144*) AddTo (T 24) (Plain (Copy (IT 31)));
  (*3145*) AddTo (T 24) (Times (Copy (IT 33)) (-1) 1);
  (*3146*) AddTo (T 24) (Times (Copy (IT 8)) (-1) 1);
  (*3147*) Assign (T 13) (Plain (Copy (IT 27)));
  (*3148*) AddTo (T 13) (Times (Copy (IT 30)) (1) 2);
  (*3149*) AddTo (T 13) (Times (Copy (IT 70)) (1) 2);
  (*3150*) Assign (T 87) (Plain (Einsum [(n_v'bbb'xov,[0;1;2]); (T 49,[0;3])] [3;1;2]));
  (*3151*) Assign (T 94) (Plain (Einsum [(n_r1'b,[0]); (T 93,[1;2;0;3])] [1;2;3]));
  (*3152*) Del (T 93);
  (*3153*) Assign (T 90) (Plain (Einsum [(T 89,[0;1;2]); (T 48,[0;3])] [1;3;2]));
  (*3154*) Del (T 89);
  (*3155*) Assign (T 88) (Times (Einsum [(n_r2'bbb,[0;1;2]); (T 60,[3;1;4;2])] [0;3;4]) (-1) 1);
  (*3156*) Assign (T 92) (Times (Einsum [(T 91,[0;1]); (n_r2'bbb,[2;0;3])] [1;2;3]) (-1) 1);
  (*3157*) Del (T 91);
  (*3158*) Assign (T 74) (Plain (Einsum [(T 48,[0;1]); (n_v'bbb'xov,[0;2;3])] [1;2;3]));
  (*3159*) Del (T 48);
  (*3160*) Assign (T 73) (Times (Einsum [(IT 450,[0;1;2;3]); (n_r2'bbb,[3;1;4])] [0;2;4]) (-1) 1);
  (*3161*) Del (IT 450);
  (*3162*) Assign (T 76) (Times (Einsum [(T 75,[0;1;2]); (T 49,[0;3])] [1;3;2]) (2) 1);
  (*3163*) Del (T 49);
  (*3163*) Del (T 75);
  (*3164*) Assign (T 72) (Plain (Einsum [(n_r2'aba,[0;1;2]); (IT 296,[0;3;2;4])] [3;1;4]));
  (*3165*) Assign (T 85) (Times (Einsum [(T 84,[0;1]); (n_r2'bbb,[2;1;3])] [0;2;3]) (-2) 1);
  (*3166*) Del (T 84);
  (*3167*) Assign (T 83) (Plain (Einsum [(n_r1'b,[0]); (T 82,[1;0;2;3])] [1;2;3]));
  (*3168*) Del (T 82);
  (*3169*) Assign (T 81) (Plain (Einsum [(n_t1'bb,[0;1]); (T 80,[2;0;3])] [2;3;1]));
  (*3170*) Del (T 80);
  (*3171*) Assign (T 64) (Plain (Einsum [(T 3,[0;1]); (n_t1'bb,[0;2])] [1;2]));
  (*3172*) Assign (T 57) (Plain (Einsum [(n_r2'aba,[0;1;2]); (IT 157,[0;1;2;3])] [3]));
  (*3173*) Assign (T 58) (Times (Einsum [(IT 132,[0;1;2;3]); (n_r2'bbb,[1;0;2])] [3]) (-1) 1);
  (*3174*) Del (IT 132);
  (*3175*) Assign (T 41) (Times (Einsum [(n_r2'bab,[0;1;2]); (IT 157,[1;0;3;2])] [3]) (-1) 1);
  (*3176*) Del (IT 157);
  (*3177*) Assign (T 40) (Times (Einsum [(IT 93,[0;1;2;3]); (n_r2'aaa,[1;0;2])] [3]) (-1) 1);
  (*3178*) Del (IT 93);
  (*3179*) Assign (T 1) (Plain (Copy (IT 25)));
  (*3180*) AddTo (T 1) (Plain (Copy (IT 5)));
  (*3181*) Assign (T 68) (Plain (Copy (IT 17)));
  (*3182*) Del (IT 17);
  (*3183*) AddTo (T 68) (Plain (Copy n_v'bbb'xoo));
  (*3184*) Assign (T 38) (Plain (Einsum [(n_t1'aa,[0;1]); (T 4,[0;2])] [2;1]));
  (*3185*) Assign (T 55) (Plain (Copy (IT 7)));
  (*3186*) Del (IT 7);
  (*3187*) AddTo (T 55) (Plain (Copy n_v'baa'xoo));
  (*3188*) Assign (T 53) (Plain (Copy (IT 40)));
  (*3189*) AddTo (T 53) (Plain (Copy (IT 50)));
  (*3190*) Assign (T 27) (Times (Einsum [(n_r2'bab,[0;1;2]); (IT 133,[3;0;4;2])] [3;1;4]) (-1) 1);
  (*3191*) Assign (T 31) (Plain (Einsum [(T 30,[0;1]); (n_v'baa'xov,[0;2;3])] [2;1;3]));
  (*3192*) Del (T 30);
  (*3193*) Assign (T 33) (Times (Einsum [(T 32,[0;1]); (n_r2'aaa,[2;0;3])] [2;1;3]) (-1) 1);
  (*3194*) Del (T 32);
  (*3195*) Assign (T 35) (Plain (Einsum [(T 34,[0;1;2;3]); (n_r1'a,[0])] [1;2;3]));
  (*3196*) Del (T 34);
  (*3197*) Assign (T 29) (Times (Einsum [(n_r2'aaa,[0;1;2]); (T 28,[3;1;4;2])] [0;3;4]) (-1) 1);
  (*3198*) Del (T 28);
  (*3199*) Assign (T 9) (Times (Einsum [(n_r2'aaa,[0;1;2]); (IT 174,[3;1;4;0])] [3;4;2]) (-1) 1);
  (*3200*) Del (IT 174);
  (*3201*) Assign (T 23) (Times (Einsum [(T 22,[0;1;2;3]); (n_r1'a,[2])] [0;1;3]) (2) 1);
  (*3202*) Del (T 22);
  (*3203*) Assign (T 21) (Times (Einsum [(T 20,[0;1;2]); (n_t1'aa,[1;3])] [0;2;3]) (2) 1);
  (*3204*) Del (T 20);
  (*3205*) Assign (T 25) (Times (Einsum [(T 24,[0;1]); (n_r2'aaa,[2;1;3])] [2;0;3]) (-2) 1);
  (*3206*) Del (T 24);
  (*3207*) Assign (T 14) (Times (Einsum [(T 13,[0;1;2]); (T 12,[0;3])] [3;1;2]) (2) 1);
  (*3208*) Del (T 13);
  (*3209*) Assign (T 95) (Times (Copy (T 87)) (2) 1);
  (*3210*) Del (T 87);
  (*3211*) AddTo (T 95) (Times (Transpose (T 88) [1;0;2]) (-2) 1);
  (*3212*) Del (T 88);
  (*3213*) AddTo (T 95) (Plain (Copy (T 90)));
  (*3214*) Del (T 90);
  (*3215*) AddTo (T 95) (Times (Copy (T 92)) (-2) 1);
  (*3216*) Del (T 92);
  (*3217*) AddTo (T 95) (Plain (Copy (T 94)));
  (*3218*) Del (T 94);
  (*3219*) Assign (T 71) (Plain (Copy (IT 303)));
  (*3220*) Del (IT 303);
  (*3221*) AddTo (T 71) (Times (Copy (IT 305)) (2) 1);
  (*3222*) Del (IT 305);
  (*3223*) AddTo (T 71) (Plain (Copy (IT 309)));
  (*3224*) Del (IT 309);
  (*3225*) AddTo (T 71) (Times (Copy (IT 316)) (2) 1);
  (*3226*) Del (IT 316);
  (*3227*) AddTo (T 71) (Plain (Copy (IT 317)));
  (*3228*) Del (IT 317);
  (*3229*) AddTo (T 71) (Plain (Copy (IT 330)));
  (*3230*) Del (IT 330);
  (*3231*) AddTo (T 71) (Plain (Copy (IT 331)));
  (*3232*) Del (IT 331);
  (*3233*) AddTo (T 71) (Times (Copy (IT 338)) (2) 1);
  (*3234*) Del (IT 338);
  (*3235*) AddTo (T 71) (Plain (Copy (IT 341)));
  (*3236*) Del (IT 341);
  (*3237*) AddTo (T 71) (Plain (Copy (IT 347)));
  (*3238*) Del (IT 347);
  (*3239*) AddTo (T 71) (Plain (Copy (IT 357)));
  (*3240*) Del (IT 357);
  (*3241*) AddTo (T 71) (Times (Copy (IT 363)) (2) 1);
  (*3242*) Del (IT 363);
  (*3243*) AddTo (T 71) (Plain (Copy (IT 364)));
  (*3244*) Del (IT 364);
  (*3245*) AddTo (T 71) (Times (Copy (IT 366)) (2) 1);
  (*3246*) Del (IT 366);
  (*3247*) AddTo (T 71) (Plain (Copy (IT 367)));
  (*3248*) Del (IT 367);
  (*3249*) AddTo (T 71) (Plain (Copy (IT 374)));
  (*3250*) Del (IT 374);
  (*3251*) AddTo (T 71) (Plain (Copy (IT 375)));
  (*3252*) Del (IT 375);
  (*3253*) AddTo (T 71) (Times (Copy n_f'bb'ov) (-1) 1);
  (*3254*) AddTo (T 71) (Times (Copy (IT 19)) (-1) 1);
  (*3255*) Del (IT 19);
  (*3256*) AddTo (T 71) (Times (Copy (IT 22)) (-1) 1);
  (*3257*) Del (IT 22);
  (*3258*) AddTo (T 71) (Times (Copy (IT 287)) (-1) 1);
  (*3259*) Del (IT 287);
  (*3260*) AddTo (T 71) (Times (Copy (IT 288)) (-2) 1);
  (*3261*) Del (IT 288);
  (*3262*) AddTo (T 71) (Times (Copy (IT 304)) (-1) 1);
  (*3263*) Del (IT 304);
  (*3264*) AddTo (T 71) (Times (Copy (IT 306)) (-2) 1);
  (*3265*) Del (IT 306);
  (*3266*) AddTo (T 71) (Times (Copy (IT 307)) (-1) 1);
  (*3267*) Del (IT 307);
  (*3268*) AddTo (T 71) (Times (Copy (IT 308)) (-2) 1);
  (*3269*) Del (IT 308);
  (*3270*) AddTo (T 71) (Times (Copy (IT 329)) (-1) 1);
  (*3271*) Del (IT 329);
  (*3272*) AddTo (T 71) (Times (Copy (IT 335)) (-1) 1);
  (*3273*) Del (IT 335);
  (*3274*) AddTo (T 71) (Times (Copy (IT 339)) (-1) 1);
  (*3275*) Del (IT 339);
  (*3276*) AddTo (T 71) (Times (Copy (IT 340)) (-1) 1);
  (*3277*) Del (IT 340);
  (*3278*) AddTo (T 71) (Times (Copy (IT 342)) (-1) 1);
  (*3279*) Del (IT 342);
  (*3280*) AddTo (T 71) (Times (Copy (IT 373)) (-1) 1);
  (*3281*) Del (IT 373);
  (*3282*) Assign (T 86) (Plain (Copy (T 72)));
  (*3283*) Del (T 72);
  (*3284*) AddTo (T 86) (Times (Copy (T 73)) (2) 1);
  (*3285*) Del (T 73);
  (*3286*) AddTo (T 86) (Plain (Copy (T 74)));
  (*3287*) Del (T 74);
  (*3288*) AddTo (T 86) (Plain (Copy (T 76)));
  (*3289*) Del (T 76);
  (*3290*) AddTo (T 86) (Plain (Copy (T 81)));
  (*3291*) Del (T 81);
  (*3292*) AddTo (T 86) (Plain (Copy (T 83)));
  (*3293*) Del (T 83);
  (*3294*) AddTo (T 86) (Plain (Copy (T 85)));
  (*3295*) Del (T 85);
  (*3296*) Assign (T 65) (Plain (Copy (IT 278)));
  (*3297*) Del (IT 278);
  (*3298*) AddTo (T 65) (Times (Transpose (IT 319) [1;0]) (2) 1);
  (*3299*) Del (IT 319);
  (*3300*) AddTo (T 65) (Plain (Transpose (IT 321) [1;0]));
  (*3301*) Del (IT 321);
  (*3302*) AddTo (T 65) (Times (Copy n_f'bb'vv) (-1) 1);
  (*3303*) AddTo (T 65) (Times (Transpose (IT 276) [1;0]) (-1) 1);
  (*3304*) Del (IT 276);
  (*3305*) AddTo (T 65) (Times (Transpose (IT 279) [1;0]) (-1) 1);
  (*3306*) Del (IT 279);
  (*3307*) AddTo (T 65) (Plain (Copy (T 64)));
  (*3308*) Del (T 64);
  (*3309*) Assign (T 98) (Plain (Copy (IT 397)));
  (*3310*) Del (IT 397);
  (*3311*) AddTo (T 98) (Plain (Transpose (IT 435) [1;2;0;3]));
  (*3312*) Del (IT 435);
  (*3313*) AddTo (T 98) (Plain (Copy (IT 441)));
  (*3314*) Del (IT 441);
  (*3315*) AddTo (T 98) (Plain (Copy (IT 443)));
  (*3316*) Del (IT 443);
  (*3317*) AddTo (T 98) (Times (Copy (IT 393)) (-1) 1);
  (*3318*) Del (IT 393);
  (*3319*) AddTo (T 98) (Times (Copy (IT 439)) (-1) 1);
  (*3320*) Del (IT 439);
  (*3321*) Assign (T 96) (Plain (Copy (IT 388)));
  (*3322*) Del (IT 388);
  (*3323*) AddTo (T 96) (Plain (Copy (IT 395)));
  (*3324*) Del (IT 395);
  (*3325*) AddTo (T 96) (Times (Transpose (IT 402) [0;2;1;3]) (-1) 1);
  (*3326*) Del (IT 402);
  (*3327*) Assign (T 97) (Times (Copy (T 57)) (1) 2);
  (*3328*) AddTo (T 97) (Plain (Copy (T 58)));
  (*3329*) Assign (T 70) (Times (Copy (T 40)) (2) 1);
  (*3330*) AddTo (T 70) (Times (Copy (T 41)) (-1) 1);
  (*3331*) Assign (T 63) (Plain (Copy (IT 277)));
  (*3332*) Del (IT 277);
  (*3333*) AddTo (T 63) (Times (Copy (IT 52)) (2) 1);
  (*3334*) Del (IT 52);
  (*3335*) AddTo (T 63) (Plain (Copy (IT 55)));
  (*3336*) Del (IT 55);
  (*3337*) AddTo (T 63) (Plain (Copy n_v'bbb'xov));
  (*3338*) Assign (T 5) (Plain (Copy n_f'aa'oo));
  (*3339*) AddTo (T 5) (Plain (Transpose (IT 12) [1;0]));
  (*3340*) Del (IT 12);
  (*3341*) AddTo (T 5) (Plain (Copy (IT 2)));
  (*3342*) Del (IT 2);
  (*3343*) AddTo (T 5) (Times (Transpose (IT 28) [1;0]) (2) 1);
  (*3344*) Del (IT 28);
  (*3345*) AddTo (T 5) (Plain (Transpose (IT 31) [1;0]));
  (*3346*) Del (IT 31);
  (*3347*) AddTo (T 5) (Plain (Transpose (IT 34) [1;0]));
  (*3348*) Del (IT 34);
  (*3349*) AddTo (T 5) (Plain (Transpose (IT 35) [1;0]));
  (*3350*) Del (IT 35);
  (*3351*) AddTo (T 5) (Plain (Transpose (IT 10) [1;0]));
  (*3352*) Del (IT 10);
  (*3353*) AddTo (T 5) (Times (Transpose (IT 33) [1;0]) (-1) 1);
  (*3354*) Del (IT 33);
  (*3355*) AddTo (T 5) (Times (Transpose (IT 8) [1;0]) (-1) 1);
  (*3356*) Del (IT 8);
  (*3357*) Assign (T 69) (Times (Einsum [(T 1,[0;1;2;3]); (n_r2'bab,[4;1;3])] [0;2;4]) (1) 2);
  (*3358*) AddTo (T 69) (Times (Einsum [(n_r2'bab,[0;1;2]); (T 67,[3;0;4;2])] [1;4;3]) (1) 2);
  (*3359*) Del (T 67);
  (*3360*) AddTo (T 69) (Times (Einsum [(T 68,[0;1;2]); (T 12,[0;3])] [3;2;1]) (1) 2);
  (*3361*) Del (T 68);
  (*3362*) Assign (T 62) (Plain (Copy (IT 211)));
  (*3363*) AddTo (T 62) (Plain (Copy (IT 215)));
  (*3364*) AddTo (T 62) (Plain (Copy (IT 250)));
  (*3365*) AddTo (T 62) (Plain (Transpose (IT 253) [1;0;2;3]));
  (*3366*) AddTo (T 62) (Plain (Transpose (IT 265) [0;1;3;2]));
  (*3367*) Assign (T 66) (Plain (Copy (IT 25)));
  (*3368*) Del (IT 25);
  (*3369*) AddTo (T 66) (Plain (Copy (IT 282)));
  (*3370*) Del (IT 282);
  (*3371*) AddTo (T 66) (Plain (Transpose (IT 293) [1;0;2;3]));
  (*3372*) Del (IT 293);
  (*3373*) AddTo (T 66) (Times (Transpose (IT 294) [1;0;2;3]) (2) 1);
  (*3374*) Del (IT 294);
  (*3375*) AddTo (T 66) (Plain (Transpose (IT 311) [1;0;2;3]));
  (*3376*) Del (IT 311);
  (*3377*) AddTo (T 66) (Plain (Copy (IT 327)));
  (*3378*) Del (IT 327);
  (*3379*) AddTo (T 66) (Plain (Copy (IT 328)));
  (*3380*) Del (IT 328);
  (*3381*) AddTo (T 66) (Plain (Copy (IT 343)));
  (*3382*) Del (IT 343);
  (*3383*) AddTo (T 66) (Plain (Copy (IT 351)));
  (*3384*) Del (IT 351);
  (*3385*) AddTo (T 66) (Times (Copy (IT 353)) (2) 1);
  (*3386*) Del (IT 353);
  (*3387*) AddTo (T 66) (Plain (Transpose (IT 359) [1;0;2;3]));
  (*3388*) Del (IT 359);
  (*3389*) AddTo (T 66) (Plain (Copy (IT 5)));
  (*3390*) Del (IT 5);
  (*3391*) AddTo (T 66) (Times (Copy (IT 285)) (-1) 1);
  (*3392*) Del (IT 285);
  (*3393*) AddTo (T 66) (Times (Transpose (IT 290) [1;0;2;3]) (-1) 1);
  (*3394*) Del (IT 290);
  (*3395*) AddTo (T 66) (Times (Copy (IT 292)) (-1) 1);
  (*3396*) Del (IT 292);
  (*3397*) AddTo (T 66) (Times (Copy (IT 318)) (-1) 1);
  (*3398*) Del (IT 318);
  (*3399*) AddTo (T 66) (Times (Copy (IT 326)) (-1) 1);
  (*3400*) Del (IT 326);
  (*3401*) AddTo (T 66) (Times (Copy (IT 345)) (-1) 1);
  (*3402*) Del (IT 345);
  (*3403*) AddTo (T 66) (Times (Copy (IT 352)) (-1) 1);
  (*3404*) Del (IT 352);
  (*3405*) AddTo (T 66) (Times (Copy (IT 355)) (-1) 1);
  (*3406*) Del (IT 355);
  (*3407*) AddTo (T 66) (Times (Copy (IT 365)) (-1) 1);
  (*3408*) Del (IT 365);
  (*3409*) AddTo (T 66) (Times (Transpose (IT 368) [1;0;2;3]) (-1) 1);
  (*3410*) Del (IT 368);
  (*3411*) Assign (T 61) (Plain (Copy (IT 280)));
  (*3412*) Del (IT 280);
  (*3413*) AddTo (T 61) (Plain (Copy (IT 358)));
  (*3414*) Del (IT 358);
  (*3415*) AddTo (T 61) (Times (Copy (IT 323)) (-1) 1);
  (*3416*) Del (IT 323);
  (*3417*) Assign (T 8) (Plain (Copy n_f'bb'oo));
  (*3418*) AddTo (T 8) (Plain (Copy (IT 37)));
  (*3419*) Del (IT 37);
  (*3420*) AddTo (T 8) (Plain (Transpose (IT 43) [1;0]));
  (*3421*) Del (IT 43);
  (*3422*) AddTo (T 8) (Plain (Transpose (IT 44) [1;0]));
  (*3423*) Del (IT 44);
  (*3424*) AddTo (T 8) (Times (Transpose (IT 53) [1;0]) (2) 1);
  (*3425*) Del (IT 53);
  (*3426*) AddTo (T 8) (Plain (Transpose (IT 56) [1;0]));
  (*3427*) Del (IT 56);
  (*3428*) AddTo (T 8) (Plain (Transpose (IT 59) [1;0]));
  (*3429*) Del (IT 59);
  (*3430*) AddTo (T 8) (Plain (Transpose (IT 60) [1;0]));
  (*3431*) Del (IT 60);
  (*3432*) AddTo (T 8) (Times (Transpose (IT 42) [1;0]) (-1) 1);
  (*3433*) Del (IT 42);
  (*3434*) AddTo (T 8) (Times (Transpose (IT 58) [1;0]) (-1) 1);
  (*3435*) Del (IT 58);
  (*3436*) Assign (T 44) (Times (Copy (IT 117)) (2) 1);
  (*3437*) Del (IT 117);
  (*3438*) AddTo (T 44) (Plain (Copy (IT 118)));
  (*3439*) Del (IT 118);
  (*3440*) AddTo (T 44) (Times (Copy (IT 138)) (2) 1);
  (*3441*) Del (IT 138);
  (*3442*) AddTo (T 44) (Plain (Copy (IT 140)));
  (*3443*) Del (IT 140);
  (*3444*) AddTo (T 44) (Plain (Copy (IT 145)));
  (*3445*) Del (IT 145);
  (*3446*) AddTo (T 44) (Plain (Copy (IT 146)));
  (*3447*) Del (IT 146);
  (*3448*) AddTo (T 44) (Plain (Copy (IT 167)));
  (*3449*) Del (IT 167);
  (*3450*) AddTo (T 44) (Plain (Copy (IT 171)));
  (*3451*) Del (IT 171);
  (*3452*) AddTo (T 44) (Times (Copy (IT 178)) (2) 1);
  (*3453*) Del (IT 178);
  (*3454*) AddTo (T 44) (Plain (Copy (IT 179)));
  (*3455*) Del (IT 179);
  (*3456*) AddTo (T 44) (Times (Copy (IT 186)) (2) 1);
  (*3457*) Del (IT 186);
  (*3458*) AddTo (T 44) (Plain (Copy (IT 187)));
  (*3459*) Del (IT 187);
  (*3460*) AddTo (T 44) (Plain (Copy (IT 202)));
  (*3461*) Del (IT 202);
  (*3462*) AddTo (T 44) (Plain (Copy (IT 203)));
  (*3463*) Del (IT 203);
  (*3464*) AddTo (T 44) (Times (Copy (IT 79)) (2) 1);
  (*3465*) Del (IT 79);
  (*3466*) AddTo (T 44) (Plain (Copy (IT 82)));
  (*3467*) Del (IT 82);
  (*3468*) AddTo (T 44) (Plain (Copy (IT 99)));
  (*3469*) Del (IT 99);
  (*3470*) AddTo (T 44) (Times (Copy n_f'aa'ov) (-1) 1);
  (*3471*) AddTo (T 44) (Times (Copy (IT 102)) (-2) 1);
  (*3472*) Del (IT 102);
  (*3473*) AddTo (T 44) (Times (Copy (IT 103)) (-1) 1);
  (*3474*) Del (IT 103);
  (*3475*) AddTo (T 44) (Times (Copy (IT 139)) (-2) 1);
  (*3476*) Del (IT 139);
  (*3477*) AddTo (T 44) (Times (Copy (IT 141)) (-1) 1);
  (*3478*) Del (IT 141);
  (*3479*) AddTo (T 44) (Times (Copy (IT 142)) (-2) 1);
  (*3480*) Del (IT 142);
  (*3481*) AddTo (T 44) (Times (Copy (IT 143)) (-1) 1);
  (*3482*) Del (IT 143);
  (*3483*) AddTo (T 44) (Times (Copy (IT 144)) (-1) 1);
  (*3484*) Del (IT 144);
  (*3485*) AddTo (T 44) (Times (Copy (IT 15)) (-1) 1);
  (*3486*) Del (IT 15);
  (*3487*) AddTo (T 44) (Times (Copy (IT 20)) (-1) 1);
  (*3488*) Del (IT 20);
  (*3489*) AddTo (T 44) (Times (Copy (IT 201)) (-1) 1);
  (*3490*) Del (IT 201);
  (*3491*) AddTo (T 44) (Times (Copy (IT 62)) (-1) 1);
  (*3492*) Del (IT 62);
  (*3493*) AddTo (T 44) (Times (Copy (IT 80)) (-1) 1);
  (*3494*) Del (IT 80);
  (*3495*) AddTo (T 44) (Times (Copy (IT 81)) (-1) 1);
  (*3496*) Del (IT 81);
  (*3497*) AddTo (T 44) (Times (Copy (IT 83)) (-1) 1);
  (*3498*) Del (IT 83);
  (*3499*) Assign (T 51) (Times (Copy (IT 27)) (2) 1);
  (*3500*) Del (IT 27);
  (*3501*) AddTo (T 51) (Plain (Copy (IT 30)));
  (*3502*) Del (IT 30);
  (*3503*) AddTo (T 51) (Plain (Copy (IT 70)));
  (*3504*) Del (IT 70);
  (*3505*) AddTo (T 51) (Plain (Copy n_v'baa'xov));
  (*3506*) Assign (T 47) (Plain (Copy (IT 211)));
  (*3507*) Del (IT 211);
  (*3508*) AddTo (T 47) (Plain (Copy (IT 215)));
  (*3509*) Del (IT 215);
  (*3510*) AddTo (T 47) (Plain (Copy (IT 250)));
  (*3511*) Del (IT 250);
  (*3512*) AddTo (T 47) (Plain (Transpose (IT 253) [1;0;2;3]));
  (*3513*) Del (IT 253);
  (*3514*) AddTo (T 47) (Plain (Transpose (IT 265) [0;1;3;2]));
  (*3515*) Del (IT 265);
  (*3516*) Assign (T 52) (Plain (Copy (IT 209)));
  (*3517*) Del (IT 209);
  (*3518*) AddTo (T 52) (Plain (Transpose (IT 220) [0;2;1;3]));
  (*3519*) Del (IT 220);
  (*3520*) AddTo (T 52) (Times (Transpose (IT 221) [0;2;1;3]) (2) 1);
  (*3521*) Del (IT 221);
  (*3522*) AddTo (T 52) (Plain (Transpose (IT 229) [0;2;1;3]));
  (*3523*) Del (IT 229);
  (*3524*) AddTo (T 52) (Plain (Copy (IT 243)));
  (*3525*) Del (IT 243);
  (*3526*) AddTo (T 52) (Plain (Copy (IT 244)));
  (*3527*) Del (IT 244);
  (*3528*) AddTo (T 52) (Plain (Copy (IT 249)));
  (*3529*) Del (IT 249);
  (*3530*) AddTo (T 52) (Plain (Copy (IT 257)));
  (*3531*) Del (IT 257);
  (*3532*) AddTo (T 52) (Times (Copy (IT 259)) (2) 1);
  (*3533*) Del (IT 259);
  (*3534*) AddTo (T 52) (Plain (Transpose (IT 264) [0;2;1;3]));
  (*3535*) Del (IT 264);
  (*3536*) AddTo (T 52) (Plain (Copy (IT 40)));
  (*3537*) AddTo (T 52) (Plain (Copy (IT 50)));
  (*3538*) AddTo (T 52) (Times (Copy (IT 213)) (-1) 1);
  (*3539*) Del (IT 213);
  (*3540*) AddTo (T 52) (Times (Transpose (IT 217) [0;2;1;3]) (-1) 1);
  (*3541*) Del (IT 217);
  (*3542*) AddTo (T 52) (Times (Copy (IT 219)) (-1) 1);
  (*3543*) Del (IT 219);
  (*3544*) AddTo (T 52) (Times (Copy (IT 234)) (-1) 1);
  (*3545*) Del (IT 234);
  (*3546*) AddTo (T 52) (Times (Copy (IT 242)) (-1) 1);
  (*3547*) Del (IT 242);
  (*3548*) AddTo (T 52) (Times (Copy (IT 252)) (-1) 1);
  (*3549*) Del (IT 252);
  (*3550*) AddTo (T 52) (Times (Copy (IT 258)) (-1) 1);
  (*3551*) Del (IT 258);
  (*3552*) AddTo (T 52) (Times (Copy (IT 261)) (-1) 1);
  (*3553*) Del (IT 261);
  (*3554*) AddTo (T 52) (Times (Copy (IT 269)) (-1) 1);
  (*3555*) Del (IT 269);
  (*3556*) AddTo (T 52) (Times (Transpose (IT 270) [0;2;1;3]) (-1) 1);
  (*3557*) Del (IT 270);
  (*3558*) Assign (T 39) (Times (Transpose (IT 125) [1;0]) (2) 1);
  (*3559*) Del (IT 125);
  (*3560*) AddTo (T 39) (Plain (Transpose (IT 127) [1;0]));
  (*3561*) Del (IT 127);
  (*3562*) AddTo (T 39) (Plain (Copy (IT 71)));
  (*3563*) Del (IT 71);
  (*3564*) AddTo (T 39) (Times (Copy n_f'aa'vv) (-1) 1);
  (*3565*) AddTo (T 39) (Times (Transpose (IT 68) [1;0]) (-1) 1);
  (*3566*) Del (IT 68);
  (*3567*) AddTo (T 39) (Times (Transpose (IT 73) [1;0]) (-1) 1);
  (*3568*) Del (IT 73);
  (*3569*) AddTo (T 39) (Plain (Copy (T 38)));
  (*3570*) Del (T 38);
  (*3571*) Assign (T 46) (Plain (Copy (IT 207)));
  (*3572*) Del (IT 207);
  (*3573*) AddTo (T 46) (Plain (Copy (IT 263)));
  (*3574*) Del (IT 263);
  (*3575*) AddTo (T 46) (Times (Copy (IT 237)) (-1) 1);
  (*3576*) Del (IT 237);
  (*3577*) Assign (T 56) (Plain (Einsum [(T 15,[0;1;2;3]); (n_r2'aba,[2;4;3])] [0;1;4]));
  (*3578*) Del (T 15);
  (*3579*) AddTo (T 56) (Plain (Einsum [(n_r2'aba,[0;1;2]); (T 53,[3;4;1;2])] [0;3;4]));
  (*3580*) Del (T 53);
  (*3581*) AddTo (T 56) (Plain (Einsum [(T 54,[0;1]); (T 55,[0;2;3])] [2;3;1]));
  (*3582*) Del (T 54);
  (*3582*) Del (T 55);
  (*3583*) Assign (T 45) (Times (Copy (IT 129)) (2) 1);
  (*3584*) Del (IT 129);
  (*3585*) AddTo (T 45) (Plain (Copy (IT 169)));
  (*3586*) Del (IT 169);
  (*3587*) AddTo (T 45) (Plain (Copy (IT 75)));
  (*3588*) Del (IT 75);
  (*3589*) Assign (T 59) (Plain (Copy (T 57)));
  (*3590*) Del (T 57);
  (*3591*) AddTo (T 59) (Times (Copy (T 58)) (2) 1);
  (*3592*) Del (T 58);
  (*3593*) Assign (T 36) (Plain (Copy (T 27)));
  (*3594*) Del (T 27);
  (*3595*) AddTo (T 36) (Times (Transpose (T 29) [1;0;2]) (-2) 1);
  (*3596*) Del (T 29);
  (*3597*) AddTo (T 36) (Plain (Transpose (T 31) [1;0;2]));
  (*3598*) Del (T 31);
  (*3599*) AddTo (T 36) (Times (Transpose (T 33) [1;0;2]) (-2) 1);
  (*3600*) Del (T 33);
  (*3601*) AddTo (T 36) (Plain (Copy (T 35)));
  (*3602*) Del (T 35);
  (*3603*) Assign (T 37) (Plain (Transpose (IT 86) [0;2;1;3]));
  (*3604*) Del (IT 86);
  (*3605*) AddTo (T 37) (Plain (Transpose (IT 94) [0;2;1;3]));
  (*3606*) Del (IT 94);
  (*3607*) AddTo (T 37) (Times (Copy (IT 104)) (-1) 1);
  (*3608*) Del (IT 104);
  (*3609*) Assign (T 42) (Plain (Copy (T 40)));
  (*3610*) Del (T 40);
  (*3611*) AddTo (T 42) (Times (Copy (T 41)) (-1) 2);
  (*3612*) Del (T 41);
  (*3613*) Assign (T 26) (Times (Copy (T 9)) (2) 1);
  (*3614*) Del (T 9);
  (*3615*) AddTo (T 26) (Plain (Transpose (T 14) [1;0;2]));
  (*3616*) Del (T 14);
  (*3617*) AddTo (T 26) (Plain (Copy (T 21)));
  (*3618*) Del (T 21);
  (*3619*) AddTo (T 26) (Plain (Copy (T 23)));
  (*3620*) Del (T 23);
  (*3621*) AddTo (T 26) (Plain (Transpose (T 25) [1;0;2]));
  (*3622*) Del (T 25);
  (*3623*) Assign (T 43) (Plain (Copy (IT 153)));
  (*3624*) Del (IT 153);
  (*3625*) AddTo (T 43) (Plain (Transpose (IT 162) [2;0;1;3]));
  (*3626*) Del (IT 162);
  (*3627*) AddTo (T 43) (Plain (Transpose (IT 164) [2;0;1;3]));
  (*3628*) Del (IT 164);
  (*3629*) AddTo (T 43) (Plain (Transpose (IT 96) [2;0;1;3]));
  (*3630*) Del (IT 96);
  (*3631*) AddTo (T 43) (Times (Transpose (IT 160) [2;0;1;3]) (-1) 1);
  (*3632*) Del (IT 160);
  (*3633*) AddTo (T 43) (Times (Transpose (IT 91) [2;0;1;3]) (-1) 1);
  (*3634*) Del (IT 91);
  (*3635*) Assign (T 6) (Plain (Copy (IT 40)));
  (*3636*) Del (IT 40);
  (*3637*) AddTo (T 6) (Plain (Copy (IT 50)));
  (*3638*) Del (IT 50);
  (*3639*) Assign (T 7) (Plain (Copy (IT 38)));
  (*3640*) Del (IT 38);
  (*3641*) AddTo (T 7) (Times (Copy (IT 48)) (-1) 1);
  (*3642*) Del (IT 48);
  (*3643*) Assign (T 2) (Plain (Copy (IT 23)));
  (*3644*) Del (IT 23);
  (*3645*) AddTo (T 2) (Times (Copy (IT 3)) (-1) 1);
  (*3646*) Del (IT 3);
  (*3647*) Assign n_r2new'bbb (Times (Copy (T 86)) (-1) 1);
  (*3648*) AddTo n_r2new'bbb (Plain (Transpose (T 86) [1;0;2]));
  (*3649*) Del (T 86);
  (*3650*) AddTo n_r2new'bbb (Plain (Copy (T 95)));
  (*3651*) AddTo n_r2new'bbb (Times (Transpose (T 95) [1;0;2]) (-1) 1);
  (*3652*) Del (T 95);
  (*3653*) AddTo n_r2new'bbb (Times (Einsum [(T 96,[0;1;2;3]); (n_r2'bbb,[2;3;4])] [0;1;4]) (2) 1);
  (*3654*) Del (T 96);
  (*3655*) AddTo n_r2new'bbb (Times (Einsum [(T 65,[0;1]); (n_r2'bbb,[2;3;0])] [2;3;1]) (-2) 1);
  (*3656*) AddTo n_r2new'bbb (Times (Einsum [(T 97,[0]); (n_t2'bbbb,[1;2;3;0])] [1;2;3]) (-4) 1);
  (*3657*) Del (T 97);
  (*3658*) AddTo n_r2new'bbb (Times (Einsum [(n_r1'b,[0]); (T 98,[1;2;0;3])] [2;1;3]) (-2) 1);
  (*3659*) Del (T 98);
  (*3660*) AddTo n_r2new'bbb (Times (Einsum [(T 71,[0;1]); (n_r1'b,[2])] [2;0;1]) (-1) 1);
  (*3661*) AddTo n_r2new'bbb (Plain (Einsum [(n_r1'b,[0]); (T 71,[1;2])] [1;0;2]));
  (*3662*) Assign n_r2new'bab (Times (Einsum [(n_r2'aaa,[0;1;2]); (IT 296,[1;3;2;4])] [3;0;4]) (2) 1);
  (*3663*) Del (IT 296);
  (*3664*) AddTo n_r2new'bab (Times (Einsum [(n_r2'bab,[0;1;2]); (T 60,[3;0;4;2])] [3;1;4]) (-1) 1);
  (*3665*) Del (T 60);
  (*3666*) AddTo n_r2new'bab (Times (Einsum [(n_r2'bab,[0;1;2]); (T 61,[3;1;4;2])] [0;3;4]) (-1) 1);
  (*3667*) Del (T 61);
  (*3668*) AddTo n_r2new'bab (Plain (Einsum [(n_r2'bab,[0;1;2]); (T 62,[3;1;4;0])] [4;3;2]));
  (*3669*) Del (T 62);
  (*3670*) AddTo n_r2new'bab (Times (Einsum [(T 63,[0;1;2]); (T 12,[0;3])] [1;3;2]) (-1) 1);
  (*3671*) Del (T 12);
  (*3671*) Del (T 63);
  (*3672*) AddTo n_r2new'bab (Times (Einsum [(n_r2'bab,[0;1;2]); (T 65,[2;3])] [0;1;3]) (-1) 1);
  (*3673*) Del (T 65);
  (*3674*) AddTo n_r2new'bab (Plain (Einsum [(T 66,[0;1;2;3]); (n_r1'a,[1])] [2;0;3]));
  (*3675*) Del (T 66);
  (*3676*) AddTo n_r2new'bab (Times (Einsum [(n_r2'bab,[0;1;2]); (T 5,[1;3])] [0;3;2]) (-1) 1);
  (*3677*) AddTo n_r2new'bab (Times (Einsum [(n_r2'bab,[0;1;2]); (T 8,[0;3])] [3;1;2]) (-1) 1);
  (*3678*) AddTo n_r2new'bab (Times (Einsum [(T 69,[0;1;2]); (n_t1'bb,[1;3])] [2;0;3]) (2) 1);
  (*3679*) Del (T 69);
  (*3680*) AddTo n_r2new'bab (Times (Einsum [(n_t2'abab,[0;1;2;3]); (T 70,[2])] [1;0;3]) (-1) 1);
  (*3681*) Del (T 70);
  (*3682*) AddTo n_r2new'bab (Plain (Einsum [(n_r1'a,[0]); (T 71,[1;2])] [1;0;2]));
  (*3683*) Del (T 71);
  (*3684*) Assign n_r2new'aba (Times (Einsum [(n_r2'bbb,[0;1;2]); (IT 133,[3;1;4;2])] [3;0;4]) (2) 1);
  (*3685*) Del (IT 133);
  (*3686*) AddTo n_r2new'aba (Times (Einsum [(n_r2'aba,[0;1;2]); (T 45,[3;0;4;2])] [3;1;4]) (-1) 1);
  (*3687*) Del (T 45);
  (*3688*) AddTo n_r2new'aba (Times (Einsum [(n_r2'aba,[0;1;2]); (T 46,[3;1;4;2])] [0;3;4]) (-1) 1);
  (*3689*) Del (T 46);
  (*3690*) AddTo n_r2new'aba (Plain (Einsum [(T 47,[0;1;2;3]); (n_r2'aba,[1;3;4])] [0;2;4]));
  (*3691*) Del (T 47);
  (*3692*) AddTo n_r2new'aba (Times (Einsum [(T 51,[0;1;2]); (T 50,[0;3])] [1;3;2]) (-2) 1);
  (*3693*) Del (T 50);
  (*3693*) Del (T 51);
  (*3694*) AddTo n_r2new'aba (Times (Einsum [(n_r2'aba,[0;1;2]); (T 39,[2;3])] [0;1;3]) (-1) 1);
  (*3695*) AddTo n_r2new'aba (Plain (Einsum [(T 52,[0;1;2;3]); (n_r1'b,[2])] [0;1;3]));
  (*3696*) Del (T 52);
  (*3697*) AddTo n_r2new'aba (Times (Einsum [(T 5,[0;1]); (n_r2'aba,[0;2;3])] [1;2;3]) (-1) 1);
  (*3698*) AddTo n_r2new'aba (Times (Einsum [(n_r2'aba,[0;1;2]); (T 8,[1;3])] [0;3;2]) (-1) 1);
  (*3699*) AddTo n_r2new'aba (Plain (Einsum [(n_t1'aa,[0;1]); (T 56,[2;0;3])] [2;3;1]));
  (*3700*) Del (T 56);
  (*3701*) AddTo n_r2new'aba (Times (Einsum [(T 59,[0]); (n_t2'abab,[1;2;3;0])] [1;2;3]) (-1) 1);
  (*3702*) Del (T 59);
  (*3703*) AddTo n_r2new'aba (Plain (Einsum [(T 44,[0;1]); (n_r1'b,[2])] [0;2;1]));
  (*3704*) Assign n_r2new'aaa (Times (Copy (T 26)) (-1) 1);
  (*3705*) AddTo n_r2new'aaa (Plain (Transpose (T 26) [1;0;2]));
  (*3706*) Del (T 26);
  (*3707*) AddTo n_r2new'aaa (Plain (Copy (T 36)));
  (*3708*) AddTo n_r2new'aaa (Times (Transpose (T 36) [1;0;2]) (-1) 1);
  (*3709*) Del (T 36);
  (*3710*) AddTo n_r2new'aaa (Times (Einsum [(T 37,[0;1;2;3]); (n_r2'aaa,[1;3;4])] [0;2;4]) (2) 1);
  (*3711*) Del (T 37);
  (*3712*) AddTo n_r2new'aaa (Times (Einsum [(T 39,[0;1]); (n_r2'aaa,[2;3;0])] [2;3;1]) (-2) 1);
  (*3713*) Del (T 39);
  (*3714*) AddTo n_r2new'aaa (Times (Einsum [(n_t2'aaaa,[0;1;2;3]); (T 42,[3])] [0;1;2]) (-4) 1);
  (*3715*) Del (T 42);
  (*3716*) AddTo n_r2new'aaa (Times (Einsum [(T 43,[0;1;2;3]); (n_r1'a,[0])] [2;1;3]) (-2) 1);
  (*3717*) Del (T 43);
  (*3718*) AddTo n_r2new'aaa (Times (Einsum [(T 44,[0;1]); (n_r1'a,[2])] [2;0;1]) (-1) 1);
  (*3719*) AddTo n_r2new'aaa (Plain (Einsum [(n_r1'a,[0]); (T 44,[1;2])] [1;0;2]));
  (*3720*) Del (T 44);
  (*3721*) Assign n_r1new'b (Plain (Einsum [(n_r2'aba,[0;1;2]); (T 6,[0;3;1;2])] [3]));
  (*3722*) Del (T 6);
  (*3723*) AddTo n_r1new'b (Times (Einsum [(n_r2'bbb,[0;1;2]); (T 7,[3;0;1;2])] [3]) (-2) 1);
  (*3724*) Del (T 7);
  (*3725*) AddTo n_r1new'b (Times (Einsum [(T 3,[0;1]); (n_r2'bbb,[2;0;1])] [2]) (2) 1);
  (*3726*) AddTo n_r1new'b (Times (Einsum [(n_r2'aba,[0;1;2]); (T 4,[0;2])] [1]) (-1) 1);
  (*3727*) AddTo n_r1new'b (Times (Einsum [(n_r1'b,[0]); (T 8,[0;1])] [1]) (-1) 1);
  (*3728*) Del (T 8);
  (*3729*) Assign n_r1new'a (Plain (Einsum [(n_r2'bab,[0;1;2]); (T 1,[3;1;0;2])] [3]));
  (*3730*) Del (T 1);
  (*3731*) AddTo n_r1new'a (Times (Einsum [(T 2,[0;1;2;3]); (n_r2'aaa,[2;1;3])] [0]) (-2) 1);
  (*3732*) Del (T 2);
  (*3733*) AddTo n_r1new'a (Times (Einsum [(n_r2'bab,[0;1;2]); (T 3,[0;2])] [1]) (-1) 1);
  (*3734*) Del (T 3);
  (*3735*) AddTo n_r1new'a (Times (Einsum [(n_r2'aaa,[0;1;2]); (T 4,[1;2])] [0]) (2) 1);
  (*3736*) Del (T 4);
  (*3737*) AddTo n_r1new'a (Times (Einsum [(n_r1'a,[0]); (T 5,[0;1])] [1]) (-1) 1);
  (*3738*) Del (T 5)]
 [(n_r1new'b,[6]); (n_r1new'a,[4]); (n_r2new'bbb,[6;6;7]); (n_r2new'bab,[6;4;7]); (n_r2new'aba,[4;6;5]); (n_r2new'aaa,[4;4;5])].

(** ebcc/codegen/UDFCCSD.py:3742-4106 [hbar_matvec_ea_intermediates] *)
Definition UDFCCSD_hbar_matvec_ea_intermediates : prog := mkprog
 [(n_v'baa'xov,[2;4;5]); (n_t1'aa,[4;5]); (n_v'bbb'xov,[2;6;7]); (n_t1'bb,[6;7]); (n_t2'abab,[4;6;5;7]); (n_t2'bbbb,[6;6;7;7]); (n_t2'aaaa,[4;4;5;5]); (n_v'bbb'xvv,[2;7;7]); (n_v'bbb'xoo,[2;6;6]); (n_v'baa'xvv,[2;5;5]); (n_f'bb'ov,[6;7]); (n_v'baa'xoo,[2;4;4]); (n_f'aa'ov,[4;5]); (n_f'bb'oo,[6;6]); (n_f'bb'vv,[7;7]); (n_f'aa'vv,[5;5]); (n_f'aa'oo,[4;4])]
 [(*3931*) Assign (T 7) (Plain (Einsum [(n_v'baa'xov,[0;1;2]); (n_t1'aa,[1;2])] [0]));
  (*3932*) Assign (T 11) (Plain (Einsum [(n_v'bbb'xov,[0;1;2]); (n_t1'bb,[1;2])] [0]));
  (*3933*) Assign (T 18) (Plain (Einsum [(n_v'bbb'xov,[0;1;2]); (n_t1'bb,[3;2])] [0;3;1]));
  (*3934*) Assign (T 13) (Plain (Einsum [(n_v'baa'xov,[0;1;2]); (n_t1'aa,[3;2])] [0;3;1]));
  (*3935*) Assign (T 23) (Plain (Einsum [(n_v'bbb'xov,[0;1;2]); (T 7,[0])] [1;2]));
  (*3936*) Assign (T 20) (Plain (Einsum [(n_v'bbb'xov,[0;1;2]); (T 11,[0])] [1;2]));
  (*3937*) Assign (T 19) (Plain (Einsum [(n_v'bbb'xov,[0;1;2]); (T 18,[0;1;3])] [3;2]));
  (*3938*) Assign (T 60) (Plain (Einsum [(n_t2'abab,[0;1;2;3]); (n_v'baa'xov,[4;0;2])] [4;1;3]));
  (*3939*) Assign (T 57) (Plain (Einsum [(n_v'bbb'xov,[0;1;2]); (n_t2'bbbb,[3;1;4;2])] [0;3;4]));
  (*3940*) Assign (T 21) (Plain (Einsum [(T 11,[0]); (n_v'baa'xov,[0;1;2])] [1;2]));
  (*3941*) Assign (T 16) (Plain (Einsum [(n_v'baa'xov,[0;1;2]); (T 7,[0])] [1;2]));
  (*3942*) Assign (T 14) (Plain (Einsum [(T 13,[0;1;2]); (n_v'baa'xov,[0;1;3])] [2;3]));
  (*3943*) Assign (T 33) (Plain (Einsum [(n_t2'abab,[0;1;2;3]); (n_v'bbb'xov,[4;1;3])] [4;0;2]));
  (*3944*) Assign (T 30) (Plain (Einsum [(n_v'baa'xov,[0;1;2]); (n_t2'aaaa,[3;1;4;2])] [0;3;4]));
  (*3945*) Assign (T 46) (Plain (Einsum [(n_v'bbb'xvv,[0;1;2]); (n_t1'bb,[3;2])] [0;3;1]));
  (*3946*) Assign (T 344) (Plain (Einsum [(n_v'bbb'xov,[0;1;2]); (T 18,[0;3;4])] [3;1;4;2]));
  (*3947*) Assign (T 361) (Plain (Einsum [(n_v'bbb'xoo,[0;1;2]); (n_v'bbb'xov,[0;3;4])] [1;2;3;4]));
  (*3948*) Assign (T 41) (Plain (Einsum [(n_v'bbb'xov,[0;1;2]); (n_v'bbb'xvv,[0;3;4])] [1;3;4;2]));
  (*3949*) Assign (T 52) (Plain (Einsum [(n_v'bbb'xov,[0;1;2]); (n_v'bbb'xov,[0;3;4])] [1;3;2;4]));
  (*3950*) Assign (T 24) (Plain (Einsum [(n_v'baa'xov,[0;1;2]); (n_v'baa'xov,[0;3;4])] [3;1;4;2]));
  (*3951*) Assign (T 3) (Plain (Einsum [(n_v'baa'xvv,[0;1;2]); (n_v'baa'xov,[0;3;4])] [3;1;2;4]));
  (*3952*) Assign (T 303) (Plain (Einsum [(n_v'bbb'xoo,[0;1;2]); (T 7,[0])] [1;2]));
  (*3953*) Assign (T 302) (Plain (Einsum [(n_v'bbb'xoo,[0;1;2]); (T 11,[0])] [1;2]));
  (*3954*) Assign (T 301) (Plain (Einsum [(T 18,[0;1;2]); (n_v'bbb'xoo,[0;3;1])] [3;2]));
  (*3955*) Assign (T 304) (Plain (Einsum [(n_v'bbb'xoo,[0;1;2]); (n_v'baa'xov,[0;3;4])] [3;1;2;4]));
  (*3956*) Assign (T 338) (Plain (Einsum [(T 23,[0;1]); (n_t1'bb,[2;1])] [2;0]));
  (*3957*) Assign (T 337) (Plain (Einsum [(T 20,[0;1]); (n_t1'bb,[2;1])] [2;0]));
  (*3958*) Assign (T 336) (Plain (Einsum [(T 19,[0;1]); (n_t1'bb,[2;1])] [2;0]));
  (*3959*) Assign (T 326) (Plain (Einsum [(n_v'bbb'xov,[0;1;2]); (T 60,[0;3;2])] [3;1]));
  (*3960*) Assign (T 324) (Plain (Einsum [(n_v'bbb'xov,[0;1;2]); (T 57,[0;3;2])] [3;1]));
  (*3961*) Assign (T 328) (Plain (Einsum [(T 18,[0;1;2]); (n_v'baa'xov,[0;3;4])] [3;1;2;4]));
  (*3962*) Assign (T 317) (Plain (Einsum [(n_f'bb'ov,[0;1]); (n_t1'bb,[2;1])] [0;2]));
  (*3963*) Assign (T 48) (Plain (Einsum [(n_v'bbb'xvv,[0;1;2]); (T 7,[0])] [1;2]));
  (*3964*) Assign (T 45) (Plain (Einsum [(T 11,[0]); (n_v'bbb'xvv,[0;1;2])] [1;2]));
  (*3965*) Assign (T 27) (Plain (Einsum [(n_v'bbb'xov,[0;1;2]); (n_v'baa'xov,[0;3;4])] [3;1;4;2]));
  (*3966*) Assign (T 43) (Plain (Einsum [(n_v'bbb'xvv,[0;1;2]); (n_v'baa'xov,[0;3;4])] [3;4;1;2]));
  (*3967*) Assign (T 9) (Plain (Einsum [(n_v'baa'xvv,[0;1;2]); (n_t1'aa,[3;2])] [0;3;1]));
  (*3968*) Assign (T 180) (Plain (Einsum [(T 13,[0;1;2]); (n_v'bbb'xov,[0;3;4])] [1;2;3;4]));
  (*3969*) Assign (T 137) (Plain (Einsum [(n_v'bbb'xov,[0;1;2]); (n_v'baa'xoo,[0;3;4])] [3;4;1;2]));
  (*3970*) Assign (T 5) (Plain (Einsum [(n_v'baa'xvv,[0;1;2]); (n_v'bbb'xov,[0;3;4])] [3;1;2;4]));
  (*3971*) Assign (T 198) (Plain (Einsum [(T 21,[0;1]); (n_t1'aa,[2;1])] [2;0]));
  (*3972*) Assign (T 196) (Plain (Einsum [(T 16,[0;1]); (n_t1'aa,[2;1])] [2;0]));
  (*3973*) Assign (T 194) (Plain (Einsum [(T 14,[0;1]); (n_t1'aa,[2;1])] [2;0]));
  (*3974*) Assign (T 12) (Plain (Einsum [(n_v'baa'xvv,[0;1;2]); (T 11,[0])] [1;2]));
  (*3975*) Assign (T 8) (Plain (Einsum [(n_v'baa'xvv,[0;1;2]); (T 7,[0])] [1;2]));
  (*3976*) Assign (T 176) (Plain (Einsum [(T 33,[0;1;2]); (n_v'baa'xov,[0;3;2])] [1;3]));
  (*3977*) Assign (T 174) (Plain (Einsum [(T 30,[0;1;2]); (n_v'baa'xov,[0;3;2])] [1;3]));
  (*3978*) Assign (T 178) (Plain (Einsum [(n_v'baa'xov,[0;1;2]); (T 13,[0;3;4])] [3;1;4;2]));
  (*3979*) Assign (T 158) (Plain (Einsum [(n_t1'aa,[0;1]); (n_f'aa'ov,[2;1])] [2;0]));
  (*3980*) Assign (T 127) (Plain (Einsum [(T 11,[0]); (n_v'baa'xoo,[0;1;2])] [1;2]));
  (*3981*) Del (T 11);
  (*3982*) Assign (T 125) (Plain (Einsum [(n_v'baa'xoo,[0;1;2]); (T 7,[0])] [1;2]));
  (*3983*) Del (T 7);
  (*3984*) Assign (T 123) (Plain (Einsum [(n_v'baa'xoo,[0;1;2]); (T 13,[0;2;3])] [1;3]));
  (*3985*) Assign (T 131) (Plain (Einsum [(n_v'baa'xoo,[0;1;2]); (n_v'baa'xov,[0;3;4])] [1;2;3;4]));
  (*3986*) Assign (T 486) (Plain (Einsum [(n_v'bbb'xov,[0;1;2]); (T 46,[0;3;4])] [3;1;2;4]));
  (*3987*) Assign (T 482) (Plain (Einsum [(n_t2'bbbb,[0;1;2;3]); (T 344,[4;0;1;5])] [4;2;3;5]));
  (*3988*) Assign (T 472) (Plain (Einsum [(n_v'bbb'xvv,[0;1;2]); (T 46,[0;3;4])] [3;1;2;4]));
  (*3989*) Assign (T 470) (Plain (Einsum [(n_v'bbb'xvv,[0;1;2]); (n_v'bbb'xvv,[0;3;4])] [3;1;2;4]));
  (*3990*) Assign (T 454) (Plain (Einsum [(T 361,[0;1;2;3]); (n_t2'bbbb,[1;2;4;5])] [0;4;5;3]));
  (*3991*) Assign (T 431) (Plain (Einsum [(n_v'bbb'xov,[0;1;2]); (T 60,[0;3;4])] [3;1;4;2]));
  (*3992*) Assign (T 426) (Plain (Einsum [(n_v'bbb'xov,[0;1;2]); (T 57,[0;3;4])] [3;1;4;2]));
  (*3993*) Assign (T 416) (Plain (Einsum [(n_v'bbb'xvv,[0;1;2]); (T 60,[0;3;4])] [3;4;1;2]));
  (*3994*) Assign (T 414) (Plain (Einsum [(n_t2'bbbb,[0;1;2;3]); (T 41,[1;4;3;5])] [0;2;5;4]));
  (*3995*) Assign (T 412) (Plain (Einsum [(n_v'bbb'xvv,[0;1;2]); (T 57,[0;3;4])] [3;4;1;2]));
  (*3996*) Assign (T 397) (Plain (Einsum [(T 57,[0;1;2]); (n_v'baa'xov,[0;3;4])] [3;1;4;2]));
  (*3997*) Assign (T 394) (Plain (Einsum [(T 60,[0;1;2]); (n_v'baa'xov,[0;3;4])] [3;1;4;2]));
  (*3998*) Assign (T 393) (Plain (Einsum [(T 23,[0;1]); (n_t2'bbbb,[2;0;3;1])] [2;3]));
  (*3999*) Assign (T 392) (Plain (Einsum [(T 21,[0;1]); (n_t2'abab,[0;2;1;3])] [2;3]));
  (*4000*) Assign (T 391) (Plain (Einsum [(T 20,[0;1]); (n_t2'bbbb,[2;0;3;1])] [2;3]));
  (*4001*) Assign (T 390) (Plain (Einsum [(n_t2'bbbb,[0;1;2;3]); (T 19,[1;3])] [0;2]));
  (*4002*) Assign (T 389) (Plain (Einsum [(n_t2'abab,[0;1;2;3]); (T 16,[0;2])] [1;3]));
  (*4003*) Assign (T 388) (Plain (Einsum [(n_t2'abab,[0;1;2;3]); (T 14,[0;2])] [1;3]));
  (*4004*) Assign (T 384) (Plain (Einsum [(n_t2'bbbb,[0;1;2;3]); (T 52,[1;4;5;3])] [0;4;2;5]));
  (*4005*) Assign (T 381) (Plain (Einsum [(T 24,[0;1;2;3]); (n_t2'abab,[0;4;3;5])] [1;4;2;5]));
  (*4006*) Assign (T 377) (Plain (Einsum [(n_v'baa'xvv,[0;1;2]); (T 57,[0;3;4])] [3;1;2;4]));
  (*4007*) Assign (T 376) (Plain (Einsum [(n_t2'abab,[0;1;2;3]); (T 3,[0;4;2;5])] [1;5;4;3]));
  (*4008*) Assign (T 375) (Plain (Einsum [(n_v'baa'xvv,[0;1;2]); (T 60,[0;3;4])] [3;1;2;4]));
  (*4009*) Assign (T 372) (Plain (Einsum [(n_t2'bbbb,[0;1;2;3]); (n_f'bb'ov,[1;3])] [0;2]));
  (*4010*) Assign (T 371) (Plain (Einsum [(n_t2'abab,[0;1;2;3]); (n_f'aa'ov,[0;2])] [1;3]));
  (*4011*) Assign (T 369) (Plain (Einsum [(T 303,[0;1]); (n_t1'bb,[1;2])] [0;2]));
  (*4012*) Assign (T 368) (Plain (Einsum [(T 302,[0;1]); (n_t1'bb,[1;2])] [0;2]));
  (*4013*) Assign (T 367) (Plain (Einsum [(T 301,[0;1]); (n_t1'bb,[1;2])] [0;2]));
  (*4014*) Assign (T 366) (Plain (Einsum [(n_t2'abab,[0;1;2;3]); (T 304,[0;4;1;2])] [4;3]));
  (*4015*) Assign (T 365) (Plain (Einsum [(n_t2'bbbb,[0;1;2;3]); (T 361,[4;0;1;3])] [4;2]));
  (*4016*) Assign (T 358) (Plain (Einsum [(n_v'baa'xvv,[0;1;2]); (n_v'bbb'xoo,[0;3;4])] [3;4;1;2]));
  (*4017*) Assign (T 357) (Plain (Einsum [(n_t1'bb,[0;1]); (n_f'bb'oo,[2;0])] [2;1]));
  (*4018*) Assign (T 356) (Plain (Einsum [(T 338,[0;1]); (n_t1'bb,[1;2])] [0;2]));
  (*4019*) Assign (T 355) (Plain (Einsum [(T 337,[0;1]); (n_t1'bb,[1;2])] [0;2]));
  (*4020*) Assign (T 354) (Plain (Einsum [(n_t1'bb,[0;1]); (T 336,[2;0])] [2;1]));
  (*4021*) Assign (T 348) (Plain (Einsum [(n_t1'bb,[0;1]); (T 326,[2;0])] [2;1]));
  (*4022*) Assign (T 347) (Plain (Einsum [(T 324,[0;1]); (n_t1'bb,[1;2])] [0;2]));
  (*4023*) Assign (T 346) (Plain (Einsum [(n_t2'abab,[0;1;2;3]); (T 328,[0;4;1;2])] [4;3]));
  (*4024*) Assign (T 345) (Plain (Einsum [(n_t2'bbbb,[0;1;2;3]); (T 344,[4;1;0;3])] [4;2]));
  (*4025*) Assign (T 343) (Plain (Einsum [(n_v'baa'xvv,[0;1;2]); (T 18,[0;3;4])] [3;4;1;2]));
  (*4026*) Assign (T 342) (Plain (Einsum [(T 317,[0;1]); (n_t1'bb,[0;2])] [1;2]));
  (*4027*) Assign (T 334) (Plain (Einsum [(T 46,[0;1;2]); (n_v'baa'xov,[0;3;4])] [3;1;4;2]));
  (*4028*) Assign (T 333) (Plain (Einsum [(T 48,[0;1]); (n_t1'bb,[2;1])] [2;0]));
  (*4029*) Assign (T 332) (Plain (Einsum [(T 46,[0;1;2]); (T 18,[0;3;1])] [3;2]));
  (*4030*) Assign (T 331) (Plain (Einsum [(T 45,[0;1]); (n_t1'bb,[2;1])] [2;0]));
  (*4031*) Assign (T 329) (Plain (Einsum [(n_t2'abab,[0;1;2;3]); (T 328,[0;4;1;5])] [4;2;5;3]));
  (*4032*) Assign (T 323) (Plain (Einsum [(n_v'bbb'xvv,[0;1;2]); (T 60,[0;3;2])] [3;1]));
  (*4033*) Assign (T 322) (Times (Einsum [(T 57,[0;1;2]); (n_v'bbb'xvv,[0;3;2])] [1;3]) (-1) 1);
  (*4034*) Assign (T 320) (Plain (Einsum [(n_v'bbb'xvv,[0;1;2]); (T 18,[0;3;4])] [3;4;1;2]));
  (*4035*) Assign (T 319) (Plain (Einsum [(n_v'baa'xvv,[0;1;2]); (T 46,[0;3;4])] [3;1;2;4]));
  (*4036*) Assign (T 316) (Plain (Einsum [(n_f'bb'vv,[0;1]); (n_t1'bb,[2;1])] [2;0]));
  (*4037*) Assign (T 306) (Plain (Einsum [(n_t2'abab,[0;1;2;3]); (T 304,[0;4;1;5])] [4;2;5;3]));
  (*4038*) Assign (T 300) (Plain (Einsum [(T 46,[0;1;2]); (n_v'bbb'xoo,[0;3;1])] [3;2]));
  (*4039*) Assign (T 299) (Plain (Einsum [(n_v'bbb'xoo,[0;1;2]); (n_v'bbb'xvv,[0;3;4])] [1;2;3;4]));
  (*4040*) Assign (T 294) (Plain (Einsum [(n_t2'abab,[0;1;2;3]); (T 27,[0;4;5;3])] [1;4;2;5]));
  (*4041*) Assign (T 291) (Plain (Einsum [(n_t2'abab,[0;1;2;3]); (T 43,[0;4;5;3])] [1;2;4;5]));
  (*4042*) Assign (T 280) (Plain (Einsum [(T 30,[0;1;2]); (n_v'bbb'xov,[0;3;4])] [1;3;2;4]));
  (*4043*) Assign (T 277) (Plain (Einsum [(n_v'bbb'xov,[0;1;2]); (T 33,[0;3;4])] [3;1;4;2]));
  (*4044*) Assign (T 268) (Plain (Einsum [(T 30,[0;1;2]); (n_v'bbb'xvv,[0;3;4])] [1;2;3;4]));
  (*4045*) Assign (T 267) (Plain (Einsum [(T 41,[0;1;2;3]); (n_t2'abab,[4;0;5;2])] [4;5;3;1]));
  (*4046*) Assign (T 266) (Plain (Einsum [(T 33,[0;1;2]); (n_v'bbb'xvv,[0;3;4])] [1;2;3;4]));
  (*4047*) Assign (T 257) (Plain (Einsum [(n_v'baa'xoo,[0;1;2]); (n_v'bbb'xvv,[0;3;4])] [1;2;3;4]));
  (*4048*) Assign (T 251) (Plain (Einsum [(T 13,[0;1;2]); (n_v'bbb'xvv,[0;3;4])] [1;2;3;4]));
  (*4049*) Assign (T 246) (Plain (Einsum [(n_v'bbb'xov,[0;1;2]); (T 9,[0;3;4])] [3;1;4;2]));
  (*4050*) Assign (T 244) (Plain (Einsum [(n_t2'abab,[0;1;2;3]); (T 180,[4;0;1;5])] [4;2;3;5]));
  (*4051*) Assign (T 240) (Plain (Einsum [(n_v'bbb'xvv,[0;1;2]); (T 9,[0;3;4])] [3;4;1;2]));
  (*4052*) Assign (T 238) (Plain (Einsum [(n_v'baa'xvv,[0;1;2]); (n_v'bbb'xvv,[0;3;4])] [1;2;3;4]));
  (*4053*) Assign (T 228) (Plain (Einsum [(n_t2'abab,[0;1;2;3]); (T 137,[4;0;1;5])] [4;2;3;5]));
  (*4054*) Assign (T 222) (Plain (Einsum [(n_t2'abab,[0;1;2;3]); (T 27,[4;1;2;5])] [0;4;3;5]));
  (*4055*) Assign (T 219) (Plain (Einsum [(n_t2'abab,[0;1;2;3]); (T 5,[1;4;2;5])] [0;4;3;5]));
  (*4056*) Assign (T 208) (Plain (Einsum [(n_t1'aa,[0;1]); (T 198,[2;0])] [2;1]));
  (*4057*) Assign (T 207) (Plain (Einsum [(T 196,[0;1]); (n_t1'aa,[1;2])] [0;2]));
  (*4058*) Assign (T 206) (Plain (Einsum [(n_t1'aa,[0;1]); (T 194,[2;0])] [2;1]));
  (*4059*) Assign (T 191) (Plain (Einsum [(T 9,[0;1;2]); (n_v'baa'xov,[0;3;4])] [1;3;4;2]));
  (*4060*) Assign (T 188) (Plain (Einsum [(T 12,[0;1]); (n_t1'aa,[2;1])] [2;0]));
  (*4061*) Assign (T 187) (Plain (Einsum [(T 13,[0;1;2]); (T 9,[0;2;3])] [1;3]));
  (*4062*) Assign (T 186) (Plain (Einsum [(n_t1'aa,[0;1]); (T 8,[2;1])] [0;2]));
  (*4063*) Assign (T 185) (Plain (Einsum [(n_t1'aa,[0;1]); (T 176,[2;0])] [2;1]));
  (*4064*) Assign (T 184) (Plain (Einsum [(n_t1'aa,[0;1]); (T 174,[2;0])] [2;1]));
  (*4065*) Assign (T 182) (Plain (Einsum [(n_t2'aaaa,[0;1;2;3]); (T 178,[4;0;1;5])] [4;2;3;5]));
  (*4066*) Assign (T 181) (Plain (Einsum [(n_t2'abab,[0;1;2;3]); (T 180,[4;0;1;3])] [4;2]));
  (*4067*) Assign (T 179) (Plain (Einsum [(n_t2'aaaa,[0;1;2;3]); (T 178,[4;1;0;3])] [4;2]));
  (*4068*) Assign (T 173) (Plain (Einsum [(T 33,[0;1;2]); (n_v'baa'xvv,[0;3;2])] [1;3]));
  (*4069*) Assign (T 172) (Times (Einsum [(n_v'baa'xvv,[0;1;2]); (T 30,[0;3;2])] [3;1]) (-1) 1);
  (*4070*) Assign (T 168) (Plain (Einsum [(T 13,[0;1;2]); (n_v'baa'xvv,[0;3;4])] [1;2;3;4]));
  (*4071*) Assign (T 163) (Plain (Einsum [(T 9,[0;1;2]); (n_v'baa'xvv,[0;3;4])] [1;3;4;2]));
  (*4072*) Assign (T 161) (Plain (Einsum [(n_v'baa'xvv,[0;1;2]); (n_v'baa'xvv,[0;3;4])] [3;1;2;4]));
  (*4073*) Assign (T 160) (Plain (Einsum [(n_t1'aa,[0;1]); (T 158,[0;2])] [2;1]));
  (*4074*) Assign (T 157) (Plain (Einsum [(n_t1'aa,[0;1]); (n_f'aa'vv,[2;1])] [0;2]));
  (*4075*) Assign (T 150) (Plain (Einsum [(n_t1'aa,[0;1]); (T 127,[2;0])] [2;1]));
  (*4076*) Assign (T 149) (Plain (Einsum [(T 125,[0;1]); (n_t1'aa,[1;2])] [0;2]));
  (*4077*) Assign (T 148) (Plain (Einsum [(T 123,[0;1]); (n_t1'aa,[1;2])] [0;2]));
  (*4078*) Assign (T 139) (Plain (Einsum [(n_t2'aaaa,[0;1;2;3]); (T 131,[4;0;1;5])] [4;2;3;5]));
  (*4079*) Assign (T 138) (Plain (Einsum [(n_t2'abab,[0;1;2;3]); (T 137,[4;0;1;3])] [4;2]));
  (*4080*) Assign (T 136) (Plain (Einsum [(n_t2'aaaa,[0;1;2;3]); (T 131,[4;0;1;3])] [4;2]));
  (*4081*) Assign (T 120) (Plain (Einsum [(T 9,[0;1;2]); (n_v'baa'xoo,[0;3;1])] [3;2]));
  (*4082*) Assign (T 118) (Plain (Einsum [(n_v'baa'xvv,[0;1;2]); (n_v'baa'xoo,[0;3;4])] [3;4;1;2]));
  (*4083*) Assign (T 116) (Plain (Einsum [(n_f'aa'oo,[0;1]); (n_t1'aa,[1;2])] [0;2]));
  (*4084*) Assign (T 106) (Plain (Einsum [(n_v'baa'xov,[0;1;2]); (T 33,[0;3;4])] [3;1;4;2]));
  (*4085*) Assign (T 101) (Plain (Einsum [(n_v'baa'xov,[0;1;2]); (T 30,[0;3;4])] [3;1;4;2]));
  (*4086*) Assign (T 100) (Plain (Einsum [(n_t2'abab,[0;1;2;3]); (T 23,[1;3])] [0;2]));
  (*4087*) Assign (T 99) (Plain (Einsum [(n_t2'aaaa,[0;1;2;3]); (T 21,[1;3])] [0;2]));
  (*4088*) Assign (T 98) (Plain (Einsum [(T 20,[0;1]); (n_t2'abab,[2;0;3;1])] [2;3]));
  (*4089*) Assign (T 97) (Plain (Einsum [(T 19,[0;1]); (n_t2'abab,[2;0;3;1])] [2;3]));
  (*4090*) Assign (T 96) (Plain (Einsum [(n_t2'aaaa,[0;1;2;3]); (T 16,[1;3])] [0;2]));
  (*4091*) Assign (T 95) (Plain (Einsum [(n_t2'aaaa,[0;1;2;3]); (T 14,[1;3])] [0;2]));
  (*4092*) Assign (T 90) (Plain (Einsum [(n_t2'abab,[0;1;2;3]); (T 52,[1;4;5;3])] [0;4;2;5]));
  (*4093*) Assign (T 87) (Plain (Einsum [(T 24,[0;1;2;3]); (n_t2'aaaa,[4;0;5;3])] [4;1;5;2]));
  (*4094*) Assign (T 83) (Plain (Einsum [(n_v'baa'xvv,[0;1;2]); (T 33,[0;3;4])] [3;4;1;2]));
  (*4095*) Assign (T 81) (Plain (Einsum [(n_t2'aaaa,[0;1;2;3]); (T 3,[1;4;3;5])] [0;2;5;4]));
  (*4096*) Assign (T 79) (Plain (Einsum [(T 30,[0;1;2]); (n_v'baa'xvv,[0;3;4])] [1;2;3;4]));
  (*4097*) Assign (T 69) (Plain (Einsum [(n_t2'abab,[0;1;2;3]); (n_f'bb'ov,[1;3])] [0;2]));
  (*4098*) Assign (T 68) (Plain (Einsum [(n_f'aa'ov,[0;1]); (n_t2'aaaa,[2;0;3;1])] [2;3]));
  (*4099*) Assign (T 61) (Plain (Einsum [(n_v'bbb'xov,[0;1;2]); (T 60,[0;1;3])] [3;2]));
  (*4100*) Assign (T 58) (Plain (Einsum [(n_v'bbb'xov,[0;1;2]); (T 57,[0;1;3])] [3;2]));
  (*4101*) Assign (T 47) (Plain (Einsum [(n_v'bbb'xov,[0;1;2]); (T 46,[0;1;3])] [2;3]));
  (*4102*) Assign (T 34) (Plain (Einsum [(T 33,[0;1;2]); (n_v'baa'xov,[0;1;3])] [2;3]));
  (*4103*) Assign (T 31) (Plain (Einsum [(T 30,[0;1;2]); (n_v'baa'xov,[0;1;3])] [2;3]));
  (*4104*) Assign (T 10) (Plain (Einsum [(T 9,[0;1;2]); (n_v'baa'xov,[0;1;3])] [3;2]))]
 [(T 101,[4;4;5;5]); (T 106,[4;4;5;5]); (T 12,[5;5]); (T 116,[4;5]); (T 118,[4;4;5;5]); (T 120,[4;5]); (T 13,[2;4;4]); (T 123,[4;4]); (T 125,[4;4]); (T 127,[4;4]); (T 14,[4;5]); (T 131,[4;4;4;5]); (T 136,[4;5]); (T 137,[4;4;6;7]); (T 138,[4;5]); (T 139,[4;5;5;5]); (T 148,[4;5]); (T 149,[4;5]); (T 150,[4;5]); (T 16,[4;5]); (T 157,[4;5]); (T 158,[4;4]); (T 160,[4;5]); (T 161,[5;5;5;5]); (T 163,[4;5;5;5]); (T 168,[4;4;5;5]); (T 18,[2;6;6]); (T 172,[4;5]); (T 173,[4;5]); (T 174,[4;4]); (T 176,[4;4]); (T 178,[4;4;4;5]); (T 179,[4;5]); (T 180,[4;4;6;7]); (T 19,[6;7]); (T 181,[4;5]); (T 182,[4;5;5;5]); (T 184,[4;5]); (T 185,[4;5]); (T 186,[4;5]); (T 187,[4;5]); (T 188,[4;5]); (T 20,[6;7]); (T 191,[4;4;5;5]); (T 194,[4;4]); (T 196,[4;4]); (T 198,[4;4]); (T 3,[4;5;5;5]); (T 21,[4;5]); (T 206,[4;5]); (T 207,[4;5]); (T 208,[4;5]); (T 219,[4;5;7;7]); (T 23,[6;7]); (T 222,[4;4;7;7]); (T 228,[4;5;7;7]); (T 24,[4;4;5;5]); (T 238,[5;5;7;7]); (T 240,[4;5;7;7]); (T 244,[4;5;7;7]); (T 246,[4;6;5;7]); (T 251,[4;4;7;7]); (T 257,[4;4;7;7]); (T 27,[4;6;5;7]); (T 266,[4;5;7;7]); (T 267,[4;5;7;7]); (T 268,[4;5;7;7]); (T 277,[4;6;5;7]); (T 280,[4;6;5;7]); (T 30,[2;4;5]); (T 291,[6;5;5;7]); (T 294,[6;6;5;5]); (T 299,[6;6;7;7]); (T 300,[6;7]); (T 31,[5;5]); (T 301,[6;6]); (T 302,[6;6]); (T 303,[6;6]); (T 304,[4;6;6;5]); (T 306,[6;5;5;7]); (T 316,[6;7]); (T 317,[6;6]); (T 319,[6;5;5;7]); (T 320,[6;6;7;7]); (T 33,[2;4;5]); (T 322,[6;7]); (T 323,[6;7]); (T 324,[6;6]); (T 326,[6;6]); (T 328,[4;6;6;5]); (T 329,[6;5;5;7]); (T 34,[5;5]); (T 331,[6;7]); (T 332,[6;7]); (T 333,[6;7]); (T 334,[4;6;5;7]); (T 336,[6;6]); (T 337,[6;6]); (T 338,[6;6]); (T 342,[6;7]); (T 343,[6;6;5;5]); (T 344,[6;6;6;7]); (T 345,[6;7]); (T 346,[6;7]); (T 347,[6;7]); (T 348,[6;7]); (T 354,[6;7]); (T 355,[6;7]); (T 356,[6;7]); (T 357,[6;7]); (T 358,[6;6;5;5]); (T 361,[6;6;6;7]); (T 365,[6;7]); (T 366,[6;7]); (T 367,[6;7]); (T 368,[6;7]); (T 369,[6;7]); (T 371,[6;7]); (T 372,[6;7]); (T 375,[6;5;5;7]); (T 376,[6;5;5;7]); (T 377,[6;5;5;7]); (T 381,[4;6;5;7]); (T 384,[6;6;7;7]); (T 388,[6;7]); (T 389,[6;7]); (T 390,[6;7]); (T 391,[6;7]); (T 392,[6;7]); (T 393,[6;7]); (T 394,[4;6;5;7]); (T 397,[4;6;5;7]); (T 5,[6;5;5;7]); (T 41,[6;7;7;7]); (T 412,[6;7;7;7]); (T 414,[6;7;7;7]); (T 416,[6;7;7;7]); (T 43,[4;5;7;7]); (T 426,[6;6;7;7]); (T 431,[6;6;7;7]); (T 45,[7;7]); (T 46,[2;6;7]); (T 454,[6;7;7;7]); (T 47,[7;7]); (T 470,[7;7;7;7]); (T 48,[7;7]); (T 472,[6;7;7;7]); (T 482,[6;7;7;7]); (T 486,[6;6;7;7]); (T 52,[6;6;7;7]); (T 57,[2;6;7]); (T 58,[7;7]); (T 60,[2;6;7]); (T 61,[7;7]); (T 68,[4;5]); (T 69,[4;5]); (T 8,[5;5]); (T 79,[4;5;5;5]); (T 9,[2;4;5]); (T 81,[4;5;5;5]); (T 83,[4;5;5;5]); (T 87,[4;4;5;5]); (T 90,[4;6;5;7]); (T 10,[5;5]); (T 95,[4;5]); (T 96,[4;5]); (T 97,[4;5]); (T 98,[4;5]); (T 99,[4;5]); (T 100,[4;5])].

(** ebcc/codegen/UDFCCSD.py:4108-4879 [hbar_matvec_ea] *)
Definition UDFCCSD_hbar_matvec_ea : prog := mkprog
 [(n_v'bbb'xov,[2;6;7]); (n_r2'bbb,[7;7;6]); (n_r2'aba,[5;7;4]); (n_v'baa'xov,[2;4;5]); (n_r2'aaa,[5;5;4]); (n_r2'bab,[7;5;6]); (IT 18,[2;6;6]); (n_v'bbb'xoo,[2;6;6]); (n_f'bb'ov,[6;7]); (IT 20,[6;7]); (IT 23,[6;7]); (n_r1'b,[7]); (IT 361,[6;6;6;7]); (IT 299,[6;6;7;7]); (IT 320,[6;6;7;7]); (IT 384,[6;6;7;7]); (IT 431,[6;6;7;7]); (IT 486,[6;6;7;7]); (IT 52,[6;6;7;7]); (IT 426,[6;6;7;7]); (IT 344,[6;6;6;7]); (n_r1'a,[5]); (IT 178,[4;4;4;5]); (IT 131,[4;4;4;5]); (IT 106,[4;4;5;5]); (IT 191,[4;4;5;5]); (IT 24,[4;4;5;5]); (IT 101,[4;4;5;5]); (IT 118,[4;4;5;5]); (IT 168,[4;4;5;5]); (IT 87,[4;4;5;5]); (IT 13,[2;4;4]); (n_v'baa'xoo,[2;4;4]); (n_f'aa'ov,[4;5]); (IT 16,[4;5]); (IT 21,[4;5]); (IT 41,[6;7;7;7]); (n_t1'bb,[6;7]); (IT 19,[6;7]); (n_t1'aa,[4;5]); (IT 14,[4;5]); (IT 3,[4;5;5;5]); (IT 46,[2;6;7]); (IT 57,[2;6;7]); (IT 60,[2;6;7]); (IT 412,[6;7;7;7]); (IT 416,[6;7;7;7]); (n_f'bb'vv,[7;7]); (IT 45,[7;7]); (IT 48,[7;7]); (IT 58,[7;7]); (IT 61,[7;7]); (IT 472,[6;7;7;7]); (IT 414,[6;7;7;7]); (IT 27,[4;6;5;7]); (IT 137,[4;4;6;7]); (IT 180,[4;4;6;7]); (IT 163,[4;5;5;5]); (IT 81,[4;5;5;5]); (IT 79,[4;5;5;5]); (IT 83,[4;5;5;5]); (IT 30,[2;4;5]); (IT 33,[2;4;5]); (IT 9,[2;4;5]); (n_f'aa'vv,[5;5]); (IT 12,[5;5]); (IT 8,[5;5]); (IT 31,[5;5]); (IT 34,[5;5]); (IT 381,[4;6;5;7]); (IT 47,[7;7]); (IT 334,[4;6;5;7]); (IT 394,[4;6;5;7]); (IT 397,[4;6;5;7]); (IT 304,[4;6;6;5]); (IT 328,[4;6;6;5]); (IT 246,[4;6;5;7]); (IT 277,[4;6;5;7]); (IT 280,[4;6;5;7]); (IT 90,[4;6;5;7]); (IT 10,[5;5]); (IT 300,[6;7]); (IT 322,[6;7]); (IT 332,[6;7]); (IT 342,[6;7]); (IT 345,[6;7]); (IT 346,[6;7]); (IT 347,[6;7]); (IT 348,[6;7]); (IT 355,[6;7]); (IT 356,[6;7]); (IT 357,[6;7]); (IT 365,[6;7]); (IT 366,[6;7]); (IT 368,[6;7]); (IT 369,[6;7]); (IT 388,[6;7]); (IT 390,[6;7]); (IT 316,[6;7]); (IT 323,[6;7]); (IT 331,[6;7]); (IT 333,[6;7]); (IT 354,[6;7]); (IT 367,[6;7]); (IT 371,[6;7]); (IT 372,[6;7]); (IT 389,[6;7]); (IT 391,[6;7]); (IT 392,[6;7]); (IT 393,[6;7]); (n_f'bb'oo,[6;6]); (IT 302,[6;6]); (IT 303,[6;6]); (IT 317,[6;6]); (IT 324,[6;6]); (IT 326,[6;6]); (IT 337,[6;6]); (IT 338,[6;6]); (IT 301,[6;6]); (IT 336,[6;6]); (IT 454,[6;7;7;7]); (IT 482,[6;7;7;7]); (IT 306,[6;5;5;7]); (IT 319,[6;5;5;7]); (IT 329,[6;5;5;7]); (IT 375,[6;5;5;7]); (IT 377,[6;5;5;7]); (IT 5,[6;5;5;7]); (IT 291,[6;5;5;7]); (IT 376,[6;5;5;7]); (IT 43,[4;5;7;7]); (IT 343,[6;6;5;5]); (IT 358,[6;6;5;5]); (IT 294,[6;6;5;5]); (IT 228,[4;5;7;7]); (IT 240,[4;5;7;7]); (IT 244,[4;5;7;7]); (IT 266,[4;5;7;7]); (IT 268,[4;5;7;7]); (IT 219,[4;5;7;7]); (IT 267,[4;5;7;7]); (n_f'aa'oo,[4;4]); (IT 125,[4;4]); (IT 127,[4;4]); (IT 158,[4;4]); (IT 174,[4;4]); (IT 176,[4;4]); (IT 196,[4;4]); (IT 198,[4;4]); (IT 123,[4;4]); (IT 194,[4;4]); (IT 251,[4;4;7;7]); (IT 257,[4;4;7;7]); (IT 222,[4;4;7;7]); (IT 116,[4;5]); (IT 120,[4;5]); (IT 136,[4;5]); (IT 138,[4;5]); (IT 149,[4;5]); (IT 150,[4;5]); (IT 160,[4;5]); (IT 172,[4;5]); (IT 179,[4;5]); (IT 181,[4;5]); (IT 184,[4;5]); (IT 185,[4;5]); (IT 187,[4;5]); (IT 207,[4;5]); (IT 208,[4;5]); (IT 95,[4;5]); (IT 97,[4;5]); (IT 148,[4;5]); (IT 157,[4;5]); (IT 173,[4;5]); (IT 186,[4;5]); (IT 188,[4;5]); (IT 206,[4;5]); (IT 68,[4;5]); (IT 69,[4;5]); (IT 96,[4;5]); (IT 98,[4;5]); (IT 99,[4;5]); (IT 100,[4;5]); (IT 139,[4;5;5;5]); (IT 182,[4;5;5;5]); (IT 470,[7;7;7;7]); (n_t2'bbbb,[6;6;7;7]); (IT 238,[5;5;7;7]); (n_t2'abab,[4;6;5;7]); (IT 161,[5;5;5;5]); (n_t2'aaaa,[4;4;5;5])]
 [(*4138*) Assign (T 64) (Plain (Einsum [(n_v'bbb'xov,[0;1;2]); (n_r2'bbb,[3;2;1])] [0;3]));
  (*4139*) Assign (T 63) (Plain (Einsum [(n_r2'aba,[0;1;2]); (n_v'baa'xov,[3;2;0])] [3;1]));
  (*4140*) Assign (T 15) (Plain (Einsum [(n_r2'aaa,[0;1;2]); (n_v'baa'xov,[3;2;1])] [3;0]));
  (*4141*) Assign (T 16) (Times (Einsum [(n_r2'bab,[0;1;2]); (n_v'bbb'xov,[3;2;0])] [3;1]) (-1) 1);
  (*4142*) Assign (T 82) (Plain (Copy (IT 18)));
  (*4143*) Del (IT 18);
  (*4144*) AddTo (T 82) (Plain (Copy n_v'bbb'xoo));
  (*4145*) Assign (T 65) (Times (Copy (T 63)) (-1) 1);
  (*4146*) AddTo (T 65) (Times (Copy (T 64)) (2) 1);
  (*4147*) Assign (T 121) (Plain (Copy n_f'bb'ov));
  (*4148*) AddTo (T 121) (Plain (Copy (IT 20)));
  (*4149*) AddTo (T 121) (Plain (Copy (IT 23)));
  (*4150*) Assign (T 117) (Plain (Einsum [(n_r1'b,[0]); (IT 361,[1;2;3;0])] [1;2;3]));
  (*4151*) Assign (T 123) (Plain (Copy (IT 299)));
  (*4152*) AddTo (T 123) (Plain (Copy (IT 320)));
  (*4153*) AddTo (T 123) (Times (Copy (IT 384)) (2) 1);
  (*4154*) Assign (T 104) (Plain (Copy (IT 431)));
  (*4155*) Del (IT 431);
  (*4156*) AddTo (T 104) (Plain (Transpose (IT 486) [0;1;3;2]));
  (*4157*) Del (IT 486);
  (*4158*) AddTo (T 104) (Plain (Copy (IT 52)));
  (*4159*) AddTo (T 104) (Times (Copy (IT 426)) (2) 1);
  (*4160*) Del (IT 426);
  (*4161*) Assign (T 102) (Plain (Copy (IT 344)));
  (*4162*) AddTo (T 102) (Plain (Transpose (IT 361) [0;2;1;3]));
  (*4163*) Assign (T 100) (Plain (Einsum [(n_r1'b,[0]); (IT 344,[1;2;3;0])] [1;2;3]));
  (*4164*) Assign (T 43) (Plain (Einsum [(n_r1'a,[0]); (IT 178,[1;2;3;0])] [1;2;3]));
  (*4165*) Assign (T 45) (Plain (Copy (IT 131)));
  (*4166*) AddTo (T 45) (Plain (Transpose (IT 178) [0;2;1;3]));
  (*4167*) Assign (T 47) (Plain (Copy (IT 106)));
  (*4168*) Del (IT 106);
  (*4169*) AddTo (T 47) (Plain (Transpose (IT 191) [0;1;3;2]));
  (*4170*) Del (IT 191);
  (*4171*) AddTo (T 47) (Plain (Copy (IT 24)));
  (*4172*) AddTo (T 47) (Times (Copy (IT 101)) (2) 1);
  (*4173*) Del (IT 101);
  (*4174*) Assign (T 22) (Plain (Einsum [(IT 131,[0;1;2;3]); (n_r1'a,[3])] [0;1;2]));
  (*4175*) Assign (T 29) (Plain (Copy (IT 118)));
  (*4176*) AddTo (T 29) (Plain (Copy (IT 168)));
  (*4177*) AddTo (T 29) (Times (Copy (IT 87)) (2) 1);
  (*4178*) Assign (T 17) (Plain (Copy (T 15)));
  (*4179*) AddTo (T 17) (Times (Copy (T 16)) (1) 2);
  (*4180*) Assign (T 25) (Plain (Copy (IT 13)));
  (*4181*) Del (IT 13);
  (*4182*) AddTo (T 25) (Plain (Copy n_v'baa'xoo));
  (*4183*) Assign (T 27) (Plain (Copy n_f'aa'ov));
  (*4184*) AddTo (T 27) (Plain (Copy (IT 16)));
  (*4185*) AddTo (T 27) (Plain (Copy (IT 21)));
  (*4186*) Assign (T 120) (Plain (Einsum [(T 82,[0;1;2]); (T 65,[0;3])] [1;2;3]));
  (*4187*) Assign (T 119) (Plain (Einsum [(IT 41,[0;1;2;3]); (n_r2'bbb,[2;3;4])] [0;4;1]));
  (*4188*) Assign (T 122) (Times (Einsum [(n_r2'bbb,[0;1;2]); (T 121,[3;1])] [3;2;0]) (-2) 1);
  (*4189*) Del (T 121);
  (*4190*) Assign (T 118) (Plain (Einsum [(n_t1'bb,[0;1]); (T 117,[2;0;3])] [2;3;1]));
  (*4191*) Del (T 117);
  (*4192*) Assign (T 124) (Plain (Einsum [(n_r1'b,[0]); (T 123,[1;2;3;0])] [1;2;3]));
  (*4193*) Del (T 123);
  (*4194*) Assign (T 99) (Plain (Einsum [(IT 19,[0;1]); (n_r2'bbb,[2;1;3])] [0;3;2]));
  (*4195*) Assign (T 105) (Plain (Einsum [(T 104,[0;1;2;3]); (n_r1'b,[3])] [0;1;2]));
  (*4196*) Del (T 104);
  (*4197*) Assign (T 103) (Times (Einsum [(n_r2'bbb,[0;1;2]); (T 102,[3;4;2;1])] [3;4;0]) (-1) 1);
  (*4198*) Del (T 102);
  (*4199*) Assign (T 101) (Plain (Einsum [(n_t1'bb,[0;1]); (T 100,[2;0;3])] [2;3;1]));
  (*4200*) Del (T 100);
  (*4201*) Assign (T 44) (Plain (Einsum [(n_t1'aa,[0;1]); (T 43,[2;0;3])] [2;3;1]));
  (*4202*) Del (T 43);
  (*4203*) Assign (T 46) (Times (Einsum [(T 45,[0;1;2;3]); (n_r2'aaa,[4;3;1])] [0;2;4]) (-1) 1);
  (*4204*) Del (T 45);
  (*4205*) Assign (T 42) (Plain (Einsum [(IT 14,[0;1]); (n_r2'aaa,[2;1;3])] [0;3;2]));
  (*4206*) Assign (T 48) (Plain (Einsum [(n_r1'a,[0]); (T 47,[1;2;3;0])] [1;2;3]));
  (*4207*) Del (T 47);
  (*4208*) Assign (T 23) (Plain (Einsum [(T 22,[0;1;2]); (n_t1'aa,[1;3])] [0;2;3]));
  (*4209*) Del (T 22);
  (*4210*) Assign (T 30) (Plain (Einsum [(n_r1'a,[0]); (T 29,[1;2;3;0])] [1;2;3]));
  (*4211*) Del (T 29);
  (*4212*) Assign (T 26) (Times (Einsum [(T 25,[0;1;2]); (T 17,[0;3])] [1;2;3]) (2) 1);
  (*4213*) Assign (T 24) (Times (Einsum [(IT 3,[0;1;2;3]); (n_r2'aaa,[3;2;4])] [0;4;1]) (-1) 1);
  (*4214*) Assign (T 28) (Times (Einsum [(n_r2'aaa,[0;1;2]); (T 27,[3;1])] [2;3;0]) (-2) 1);
  (*4215*) Del (T 27);
  (*4216*) Assign (T 1) (Plain (Copy n_f'bb'ov));
  (*4217*) AddTo (T 1) (Plain (Copy (IT 20)));
  (*4218*) AddTo (T 1) (Plain (Copy (IT 23)));
  (*4219*) AddTo (T 1) (Times (Copy (IT 19)) (-1) 1);
  (*4220*) Del (IT 19);
  (*4221*) Assign (T 113) (Times (Copy (IT 46)) (1) 2);
  (*4222*) AddTo (T 113) (Plain (Copy (IT 57)));
  (*4223*) AddTo (T 113) (Times (Copy (IT 60)) (1) 2);
  (*4224*) Assign (T 125) (Plain (Transpose (T 118) [1;0;2]));
  (*4225*) Del (T 118);
  (*4226*) AddTo (T 125) (Times (Copy (T 119)) (2) 1);
  (*4227*) Del (T 119);
  (*4228*) AddTo (T 125) (Plain (Transpose (T 120) [1;0;2]));
  (*4229*) Del (T 120);
  (*4230*) AddTo (T 125) (Times (Copy (T 122)) (-1) 1);
  (*4231*) Del (T 122);
  (*4232*) AddTo (T 125) (Plain (Transpose (T 124) [1;0;2]));
  (*4233*) Del (T 124);
  (*4234*) Assign (T 127) (Plain (Copy (IT 412)));
  (*4235*) Del (IT 412);
  (*4236*) AddTo (T 127) (Times (Copy (IT 416)) (1) 2);
  (*4237*) Del (IT 416);
  (*4238*) Assign (T 115) (Times (Copy n_f'bb'vv) (1) 2);
  (*4239*) AddTo (T 115) (Times (Transpose (IT 45) [1;0]) (1) 2);
  (*4240*) AddTo (T 115) (Times (Transpose (IT 48) [1;0]) (1) 2);
  (*4241*) AddTo (T 115) (Times (Transpose (IT 58) [1;0]) (-1) 1);
  (*4242*) AddTo (T 115) (Times (Transpose (IT 61) [1;0]) (-1) 2);
  (*4243*) Assign (T 106) (Times (Copy (T 99)) (2) 1);
  (*4244*) Del (T 99);
  (*4245*) AddTo (T 106) (Plain (Transpose (T 101) [1;0;2]));
  (*4246*) Del (T 101);
  (*4247*) AddTo (T 106) (Times (Transpose (T 103) [1;0;2]) (-2) 1);
  (*4248*) Del (T 103);
  (*4249*) AddTo (T 106) (Plain (Transpose (T 105) [1;0;2]));
  (*4250*) Del (T 105);
  (*4251*) Assign (T 108) (Plain (Copy (IT 41)));
  (*4252*) AddTo (T 108) (Plain (Transpose (IT 472) [0;2;1;3]));
  (*4253*) Del (IT 472);
  (*4254*) AddTo (T 108) (Times (Copy (IT 414)) (2) 1);
  (*4255*) Del (IT 414);
  (*4256*) Assign (T 97) (Plain (Copy (IT 46)));
  (*4257*) AddTo (T 97) (Plain (Copy (IT 60)));
  (*4258*) AddTo (T 97) (Times (Copy (IT 57)) (2) 1);
  (*4259*) Assign (T 95) (Plain (Copy (IT 299)));
  (*4260*) AddTo (T 95) (Plain (Copy (IT 320)));
  (*4261*) AddTo (T 95) (Times (Copy (IT 384)) (2) 1);
  (*4262*) Assign (T 2) (Plain (Copy n_f'aa'ov));
  (*4263*) AddTo (T 2) (Plain (Copy (IT 16)));
  (*4264*) AddTo (T 2) (Plain (Copy (IT 21)));
  (*4265*) AddTo (T 2) (Times (Copy (IT 14)) (-1) 1);
  (*4266*) Del (IT 14);
  (*4267*) Assign (T 57) (Plain (Einsum [(n_r2'aba,[0;1;2]); (IT 27,[3;4;0;1])] [3;2;4]));
  (*4268*) Assign (T 73) (Plain (Copy (IT 137)));
  (*4269*) AddTo (T 73) (Plain (Transpose (IT 180) [1;0;2;3]));
  (*4270*) Assign (T 40) (Times (Copy (T 15)) (2) 1);
  (*4271*) Del (T 15);
  (*4272*) AddTo (T 40) (Plain (Copy (T 16)));
  (*4273*) Del (T 16);
  (*4274*) Assign (T 51) (Plain (Copy (IT 163)));
  (*4275*) Del (IT 163);
  (*4276*) AddTo (T 51) (Plain (Transpose (IT 3) [0;2;1;3]));
  (*4277*) AddTo (T 51) (Times (Transpose (IT 81) [0;2;1;3]) (2) 1);
  (*4278*) Del (IT 81);
  (*4279*) Assign (T 38) (Plain (Copy (IT 118)));
  (*4280*) AddTo (T 38) (Plain (Copy (IT 168)));
  (*4281*) AddTo (T 38) (Times (Copy (IT 87)) (2) 1);
  (*4282*) Assign (T 49) (Times (Transpose (T 42) [1;0;2]) (2) 1);
  (*4283*) Del (T 42);
  (*4284*) AddTo (T 49) (Plain (Copy (T 44)));
  (*4285*) Del (T 44);
  (*4286*) AddTo (T 49) (Times (Copy (T 46)) (-2) 1);
  (*4287*) Del (T 46);
  (*4288*) AddTo (T 49) (Plain (Copy (T 48)));
  (*4289*) Del (T 48);
  (*4290*) Assign (T 33) (Plain (Copy (IT 79)));
  (*4291*) Del (IT 79);
  (*4292*) AddTo (T 33) (Times (Copy (IT 83)) (1) 2);
  (*4293*) Del (IT 83);
  (*4294*) Assign (T 18) (Times (Copy (IT 30)) (2) 1);
  (*4295*) AddTo (T 18) (Plain (Copy (IT 33)));
  (*4296*) AddTo (T 18) (Plain (Copy (IT 9)));
  (*4297*) Assign (T 31) (Plain (Transpose (T 23) [1;0;2]));
  (*4298*) Del (T 23);
  (*4299*) AddTo (T 31) (Times (Copy (T 24)) (2) 1);
  (*4300*) Del (T 24);
  (*4301*) AddTo (T 31) (Plain (Transpose (T 26) [1;0;2]));
  (*4302*) Del (T 26);
  (*4303*) AddTo (T 31) (Times (Transpose (T 28) [1;0;2]) (-1) 1);
  (*4304*) Del (T 28);
  (*4305*) AddTo (T 31) (Plain (Transpose (T 30) [1;0;2]));
  (*4306*) Del (T 30);
  (*4307*) Assign (T 20) (Times (Copy n_f'aa'vv) (1) 2);
  (*4308*) AddTo (T 20) (Times (Transpose (IT 12) [1;0]) (1) 2);
  (*4309*) AddTo (T 20) (Times (Transpose (IT 8) [1;0]) (1) 2);
  (*4310*) AddTo (T 20) (Times (Transpose (IT 31) [1;0]) (-1) 1);
  (*4311*) AddTo (T 20) (Times (Transpose (IT 34) [1;0]) (-1) 2);
  (*4312*) Assign (T 10) (Times (Einsum [(n_r2'bbb,[0;1;2]); (IT 52,[2;3;1;0])] [3]) (-1) 1);
  (*4313*) Assign (T 9) (Plain (Einsum [(n_r2'aba,[0;1;2]); (IT 27,[2;3;0;1])] [3]));
  (*4314*) Assign (T 11) (Plain (Einsum [(n_r1'b,[0]); (T 1,[1;0])] [1]));
  (*4315*) Assign (T 114) (Times (Einsum [(T 113,[0;1;2]); (T 64,[0;3])] [1;2;3]) (4) 1);
  (*4316*) Del (T 113);
  (*4317*) Assign (T 112) (Plain (Einsum [(T 63,[0;1]); (n_v'bbb'xov,[0;2;3])] [2;1;3]));
  (*4318*) Assign (T 126) (Plain (Einsum [(n_t1'bb,[0;1]); (T 125,[0;2;3])] [2;3;1]));
  (*4319*) Del (T 125);
  (*4320*) Assign (T 111) (Plain (Einsum [(n_r2'aba,[0;1;2]); (IT 381,[2;3;0;4])] [3;4;1]));
  (*4321*) Assign (T 128) (Times (Einsum [(n_r1'b,[0]); (T 127,[1;2;0;3])] [1;2;3]) (2) 1);
  (*4322*) Del (T 127);
  (*4323*) Assign (T 116) (Times (Einsum [(T 115,[0;1]); (n_r2'bbb,[2;0;3])] [3;1;2]) (-4) 1);
  (*4324*) Del (T 115);
  (*4325*) Assign (T 93) (Plain (Einsum [(IT 47,[0;1]); (n_r2'bbb,[2;0;3])] [3;1;2]));
  (*4326*) Assign (T 107) (Plain (Einsum [(n_t1'bb,[0;1]); (T 106,[0;2;3])] [2;3;1]));
  (*4327*) Del (T 106);
  (*4328*) Assign (T 109) (Plain (Einsum [(n_r1'b,[0]); (T 108,[1;2;0;3])] [1;2;3]));
  (*4329*) Del (T 108);
  (*4330*) Assign (T 94) (Plain (Einsum [(n_v'bbb'xov,[0;1;2]); (T 64,[0;3])] [1;3;2]));
  (*4331*) Del (T 64);
  (*4332*) Assign (T 98) (Plain (Einsum [(T 63,[0;1]); (T 97,[0;2;3])] [2;3;1]));
  (*4333*) Del (T 63);
  (*4333*) Del (T 97);
  (*4334*) Assign (T 96) (Times (Einsum [(n_r2'bbb,[0;1;2]); (T 95,[3;2;4;1])] [3;4;0]) (-1) 1);
  (*4335*) Del (T 95);
  (*4336*) Assign (T 91) (Plain (Einsum [(n_r2'bbb,[0;1;2]); (IT 52,[3;4;0;1])] [3;4;2]));
  (*4337*) Del (IT 52);
  (*4338*) Assign (T 5) (Times (Einsum [(n_r2'bab,[0;1;2]); (IT 27,[3;2;1;0])] [3]) (-1) 1);
  (*4339*) Assign (T 6) (Plain (Einsum [(T 2,[0;1]); (n_r1'a,[1])] [0]));
  (*4340*) Assign (T 4) (Times (Einsum [(n_r2'aaa,[0;1;2]); (IT 24,[2;3;1;0])] [3]) (-1) 1);
  (*4341*) Assign (T 87) (Plain (Copy (IT 27)));
  (*4342*) AddTo (T 87) (Plain (Copy (IT 334)));
  (*4343*) Del (IT 334);
  (*4344*) AddTo (T 87) (Plain (Copy (IT 394)));
  (*4345*) Del (IT 394);
  (*4346*) AddTo (T 87) (Times (Copy (IT 397)) (2) 1);
  (*4347*) Del (IT 397);
  (*4348*) AddTo (T 87) (Times (Copy (IT 381)) (-1) 1);
  (*4349*) Assign (T 86) (Plain (Copy (IT 304)));
  (*4350*) Del (IT 304);
  (*4351*) AddTo (T 86) (Plain (Copy (IT 328)));
  (*4352*) Del (IT 328);
  (*4353*) Assign (T 76) (Times (Einsum [(n_r2'bab,[0;1;2]); (IT 27,[3;4;1;0])] [3;4;2]) (-1) 1);
  (*4354*) Assign (T 78) (Times (Transpose n_r2'bab [2;1;0]) (-1) 1);
  (*4355*) AddTo (T 78) (Plain (Einsum [(n_r1'a,[0]); (n_t1'bb,[1;2])] [1;0;2]));
  (*4356*) Assign (T 67) (Plain (Einsum [(T 2,[0;1]); (n_t1'aa,[0;2])] [2;1]));
  (*4357*) Assign (T 80) (Plain (Copy (IT 344)));
  (*4358*) Del (IT 344);
  (*4359*) AddTo (T 80) (Plain (Transpose (IT 361) [0;2;1;3]));
  (*4360*) Del (IT 361);
  (*4361*) Assign (T 71) (Plain (Copy (IT 137)));
  (*4362*) Del (IT 137);
  (*4363*) AddTo (T 71) (Plain (Copy (IT 180)));
  (*4364*) Del (IT 180);
  (*4365*) Assign (T 72) (Plain (Copy (IT 246)));
  (*4366*) Del (IT 246);
  (*4367*) AddTo (T 72) (Plain (Copy (IT 27)));
  (*4368*) Del (IT 27);
  (*4369*) AddTo (T 72) (Plain (Copy (IT 277)));
  (*4370*) Del (IT 277);
  (*4371*) AddTo (T 72) (Times (Copy (IT 280)) (2) 1);
  (*4372*) Del (IT 280);
  (*4373*) AddTo (T 72) (Times (Copy (IT 90)) (-1) 1);
  (*4374*) Assign (T 74) (Times (Copy (T 57)) (-1) 1);
  (*4375*) AddTo (T 74) (Plain (Einsum [(n_r1'b,[0]); (T 73,[1;2;3;0])] [1;2;3]));
  (*4376*) Del (T 73);
  (*4377*) Assign (T 61) (Plain (Copy (IT 131)));
  (*4378*) Del (IT 131);
  (*4379*) AddTo (T 61) (Plain (Transpose (IT 178) [0;2;1;3]));
  (*4380*) Del (IT 178);
  (*4381*) Assign (T 36) (Plain (Einsum [(IT 10,[0;1]); (n_r2'aaa,[2;0;3])] [3;1;2]));
  (*4382*) Assign (T 41) (Plain (Einsum [(T 40,[0;1]); (n_v'baa'xov,[0;2;3])] [2;3;1]));
  (*4383*) Del (T 40);
  (*4384*) Assign (T 37) (Times (Einsum [(IT 90,[0;1;2;3]); (n_r2'bab,[3;4;1])] [0;2;4]) (-1) 1);
  (*4385*) Assign (T 52) (Plain (Einsum [(T 51,[0;1;2;3]); (n_r1'a,[1])] [0;2;3]));
  (*4386*) Del (T 51);
  (*4387*) Assign (T 39) (Times (Einsum [(T 38,[0;1;2;3]); (n_r2'aaa,[4;3;1])] [0;4;2]) (-1) 1);
  (*4388*) Del (T 38);
  (*4389*) Assign (T 50) (Plain (Einsum [(n_t1'aa,[0;1]); (T 49,[2;0;3])] [2;1;3]));
  (*4390*) Del (T 49);
  (*4391*) Assign (T 34) (Times (Einsum [(T 33,[0;1;2;3]); (n_r1'a,[2])] [0;1;3]) (2) 1);
  (*4392*) Del (T 33);
  (*4393*) Assign (T 19) (Times (Einsum [(T 17,[0;1]); (T 18,[0;2;3])] [2;3;1]) (2) 1);
  (*4394*) Del (T 18);
  (*4395*) Assign (T 32) (Plain (Einsum [(n_t1'aa,[0;1]); (T 31,[0;2;3])] [2;1;3]));
  (*4396*) Del (T 31);
  (*4397*) Assign (T 21) (Times (Einsum [(T 20,[0;1]); (n_r2'aaa,[2;0;3])] [3;2;1]) (-4) 1);
  (*4398*) Del (T 20);
  (*4399*) Assign (T 13) (Times (Einsum [(IT 24,[0;1;2;3]); (n_r2'aaa,[3;2;4])] [0;1;4]) (-1) 1);
  (*4400*) Del (IT 24);
  (*4401*) Assign (T 90) (Plain (Copy (IT 300)));
  (*4402*) Del (IT 300);
  (*4403*) AddTo (T 90) (Times (Copy (IT 322)) (2) 1);
  (*4404*) Del (IT 322);
  (*4405*) AddTo (T 90) (Plain (Copy (IT 332)));
  (*4406*) Del (IT 332);
  (*4407*) AddTo (T 90) (Plain (Copy (IT 342)));
  (*4408*) Del (IT 342);
  (*4409*) AddTo (T 90) (Times (Copy (IT 345)) (2) 1);
  (*4410*) Del (IT 345);
  (*4411*) AddTo (T 90) (Plain (Copy (IT 346)));
  (*4412*) Del (IT 346);
  (*4413*) AddTo (T 90) (Times (Copy (IT 347)) (2) 1);
  (*4414*) Del (IT 347);
  (*4415*) AddTo (T 90) (Plain (Copy (IT 348)));
  (*4416*) Del (IT 348);
  (*4417*) AddTo (T 90) (Plain (Copy (IT 355)));
  (*4418*) Del (IT 355);
  (*4419*) AddTo (T 90) (Plain (Copy (IT 356)));
  (*4420*) Del (IT 356);
  (*4421*) AddTo (T 90) (Plain (Copy (IT 357)));
  (*4422*) Del (IT 357);
  (*4423*) AddTo (T 90) (Times (Copy (IT 365)) (2) 1);
  (*4424*) Del (IT 365);
  (*4425*) AddTo (T 90) (Plain (Copy (IT 366)));
  (*4426*) Del (IT 366);
  (*4427*) AddTo (T 90) (Plain (Copy (IT 368)));
  (*4428*) Del (IT 368);
  (*4429*) AddTo (T 90) (Plain (Copy (IT 369)));
  (*4430*) Del (IT 369);
  (*4431*) AddTo (T 90) (Plain (Copy (IT 388)));
  (*4432*) Del (IT 388);
  (*4433*) AddTo (T 90) (Times (Copy (IT 390)) (2) 1);
  (*4434*) Del (IT 390);
  (*4435*) AddTo (T 90) (Times (Copy n_f'bb'ov) (-1) 1);
  (*4436*) AddTo (T 90) (Times (Copy (IT 20)) (-1) 1);
  (*4437*) Del (IT 20);
  (*4438*) AddTo (T 90) (Times (Copy (IT 23)) (-1) 1);
  (*4439*) Del (IT 23);
  (*4440*) AddTo (T 90) (Times (Copy (IT 316)) (-1) 1);
  (*4441*) Del (IT 316);
  (*4442*) AddTo (T 90) (Times (Copy (IT 323)) (-1) 1);
  (*4443*) Del (IT 323);
  (*4444*) AddTo (T 90) (Times (Copy (IT 331)) (-1) 1);
  (*4445*) Del (IT 331);
  (*4446*) AddTo (T 90) (Times (Copy (IT 333)) (-1) 1);
  (*4447*) Del (IT 333);
  (*4448*) AddTo (T 90) (Times (Copy (IT 354)) (-1) 1);
  (*4449*) Del (IT 354);
  (*4450*) AddTo (T 90) (Times (Copy (IT 367)) (-1) 1);
  (*4451*) Del (IT 367);
  (*4452*) AddTo (T 90) (Times (Copy (IT 371)) (-1) 1);
  (*4453*) Del (IT 371);
  (*4454*) AddTo (T 90) (Times (Copy (IT 372)) (-2) 1);
  (*4455*) Del (IT 372);
  (*4456*) AddTo (T 90) (Times (Copy (IT 389)) (-1) 1);
  (*4457*) Del (IT 389);
  (*4458*) AddTo (T 90) (Times (Copy (IT 391)) (-2) 1);
  (*4459*) Del (IT 391);
  (*4460*) AddTo (T 90) (Times (Copy (IT 392)) (-1) 1);
  (*4461*) Del (IT 392);
  (*4462*) AddTo (T 90) (Times (Copy (IT 393)) (-2) 1);
  (*4463*) Del (IT 393);
  (*4464*) Assign (T 12) (Plain (Copy (T 9)));
  (*4465*) Del (T 9);
  (*4466*) AddTo (T 12) (Times (Copy (T 10)) (2) 1);
  (*4467*) Del (T 10);
  (*4468*) AddTo (T 12) (Times (Copy (T 11)) (-1) 1);
  (*4469*) Del (T 11);
  (*4470*) Assign (T 129) (Plain (Copy (T 111)));
  (*4471*) Del (T 111);
  (*4472*) AddTo (T 129) (Plain (Copy (T 112)));
  (*4473*) Del (T 112);
  (*4474*) AddTo (T 129) (Plain (Copy (T 114)));
  (*4475*) Del (T 114);
  (*4476*) AddTo (T 129) (Times (Copy (T 116)) (-1) 1);
  (*4477*) Del (T 116);
  (*4478*) AddTo (T 129) (Plain (Copy (T 126)));
  (*4479*) Del (T 126);
  (*4480*) AddTo (T 129) (Plain (Copy (T 128)));
  (*4481*) Del (T 128);
  (*4482*) Assign (T 89) (Plain (Copy n_f'bb'oo));
  (*4483*) AddTo (T 89) (Plain (Transpose (IT 302) [1;0]));
  (*4484*) Del (IT 302);
  (*4485*) AddTo (T 89) (Plain (Transpose (IT 303) [1;0]));
  (*4486*) Del (IT 303);
  (*4487*) AddTo (T 89) (Plain (Copy (IT 317)));
  (*4488*) Del (IT 317);
  (*4489*) AddTo (T 89) (Times (Transpose (IT 324) [1;0]) (2) 1);
  (*4490*) Del (IT 324);
  (*4491*) AddTo (T 89) (Plain (Transpose (IT 326) [1;0]));
  (*4492*) Del (IT 326);
  (*4493*) AddTo (T 89) (Plain (Transpose (IT 337) [1;0]));
  (*4494*) Del (IT 337);
  (*4495*) AddTo (T 89) (Plain (Transpose (IT 338) [1;0]));
  (*4496*) Del (IT 338);
  (*4497*) AddTo (T 89) (Times (Transpose (IT 301) [1;0]) (-1) 1);
  (*4498*) Del (IT 301);
  (*4499*) AddTo (T 89) (Times (Transpose (IT 336) [1;0]) (-1) 1);
  (*4500*) Del (IT 336);
  (*4501*) Assign (T 130) (Plain (Copy (IT 454)));
  (*4502*) Del (IT 454);
  (*4503*) AddTo (T 130) (Times (Copy (IT 482)) (-1) 1);
  (*4504*) Del (IT 482);
  (*4505*) Assign (T 110) (Times (Copy (T 93)) (2) 1);
  (*4506*) Del (T 93);
  (*4507*) AddTo (T 110) (Times (Copy (T 94)) (2) 1);
  (*4508*) Del (T 94);
  (*4509*) AddTo (T 110) (Times (Copy (T 96)) (-2) 1);
  (*4510*) Del (T 96);
  (*4511*) AddTo (T 110) (Plain (Copy (T 98)));
  (*4512*) Del (T 98);
  (*4513*) AddTo (T 110) (Plain (Copy (T 107)));
  (*4514*) Del (T 107);
  (*4515*) AddTo (T 110) (Plain (Copy (T 109)));
  (*4516*) Del (T 109);
  (*4517*) Assign (T 92) (Plain (Einsum [(n_t1'bb,[0;1]); (T 91,[2;0;3])] [2;3;1]));
  (*4518*) Assign (T 84) (Times (Copy (IT 47)) (1) 2);
  (*4519*) AddTo (T 84) (Plain (Transpose (IT 58) [1;0]));
  (*4520*) AddTo (T 84) (Times (Transpose (IT 61) [1;0]) (1) 2);
  (*4521*) AddTo (T 84) (Times (Copy n_f'bb'vv) (-1) 2);
  (*4522*) AddTo (T 84) (Times (Transpose (IT 45) [1;0]) (-1) 2);
  (*4523*) AddTo (T 84) (Times (Transpose (IT 48) [1;0]) (-1) 2);
  (*4524*) AddTo (T 84) (Times (Einsum [(T 1,[0;1]); (n_t1'bb,[0;2])] [1;2]) (1) 2);
  (*4525*) Assign (T 7) (Times (Copy (T 4)) (-2) 1);
  (*4526*) Del (T 4);
  (*4527*) AddTo (T 7) (Plain (Copy (T 5)));
  (*4528*) Del (T 5);
  (*4529*) AddTo (T 7) (Plain (Copy (T 6)));
  (*4530*) Del (T 6);
  (*4531*) Assign (T 85) (Plain (Copy (IT 306)));
  (*4532*) Del (IT 306);
  (*4533*) AddTo (T 85) (Plain (Transpose (IT 319) [0;2;1;3]));
  (*4534*) Del (IT 319);
  (*4535*) AddTo (T 85) (Plain (Copy (IT 329)));
  (*4536*) Del (IT 329);
  (*4537*) AddTo (T 85) (Plain (Transpose (IT 375) [0;2;1;3]));
  (*4538*) Del (IT 375);
  (*4539*) AddTo (T 85) (Times (Transpose (IT 377) [0;2;1;3]) (2) 1);
  (*4540*) Del (IT 377);
  (*4541*) AddTo (T 85) (Plain (Copy (IT 5)));
  (*4542*) AddTo (T 85) (Times (Copy (IT 291)) (-1) 1);
  (*4543*) Del (IT 291);
  (*4544*) AddTo (T 85) (Times (Transpose (IT 376) [0;2;1;3]) (-1) 1);
  (*4545*) Del (IT 376);
  (*4546*) Assign (T 83) (Plain (Copy (IT 46)));
  (*4547*) Del (IT 46);
  (*4548*) AddTo (T 83) (Times (Copy (IT 57)) (2) 1);
  (*4549*) Del (IT 57);
  (*4550*) AddTo (T 83) (Plain (Copy (IT 60)));
  (*4551*) Del (IT 60);
  (*4552*) AddTo (T 83) (Plain (Copy n_v'bbb'xov));
  (*4553*) AddTo (T 83) (Times (Einsum [(T 82,[0;1;2]); (n_t1'bb,[2;3])] [0;1;3]) (-1) 1);
  (*4554*) Del (T 82);
  (*4555*) Assign (T 77) (Times (Einsum [(IT 5,[0;1;2;3]); (n_r2'bab,[3;2;4])] [0;4;1]) (-1) 1);
  (*4556*) Assign (T 88) (Plain (Einsum [(IT 43,[0;1;2;3]); (n_r2'bab,[3;1;4])] [0;4;2]));
  (*4557*) AddTo (T 88) (Plain (Einsum [(T 76,[0;1;2]); (n_t1'bb,[1;3])] [0;2;3]));
  (*4558*) AddTo (T 88) (Plain (Einsum [(T 78,[0;1;2]); (T 86,[3;4;0;1])] [3;4;2]));
  (*4559*) Del (T 86);
  (*4560*) AddTo (T 88) (Times (Einsum [(n_r1'a,[0]); (T 87,[1;2;0;3])] [1;2;3]) (-1) 1);
  (*4561*) Del (T 87);
  (*4562*) Assign (T 79) (Plain (Copy (IT 343)));
  (*4563*) Del (IT 343);
  (*4564*) AddTo (T 79) (Plain (Copy (IT 358)));
  (*4565*) Del (IT 358);
  (*4566*) AddTo (T 79) (Times (Copy (IT 294)) (-1) 1);
  (*4567*) Del (IT 294);
  (*4568*) Assign (T 68) (Times (Transpose (IT 31) [1;0]) (2) 1);
  (*4569*) AddTo (T 68) (Plain (Transpose (IT 34) [1;0]));
  (*4570*) AddTo (T 68) (Plain (Copy (IT 10)));
  (*4571*) AddTo (T 68) (Times (Copy n_f'aa'vv) (-1) 1);
  (*4572*) AddTo (T 68) (Times (Transpose (IT 12) [1;0]) (-1) 1);
  (*4573*) AddTo (T 68) (Times (Transpose (IT 8) [1;0]) (-1) 1);
  (*4574*) AddTo (T 68) (Plain (Transpose (T 67) [1;0]));
  (*4575*) Del (T 67);
  (*4576*) Assign (T 81) (Plain (Copy (IT 299)));
  (*4577*) Del (IT 299);
  (*4578*) AddTo (T 81) (Plain (Copy (IT 320)));
  (*4579*) Del (IT 320);
  (*4580*) AddTo (T 81) (Times (Copy (IT 384)) (2) 1);
  (*4581*) Del (IT 384);
  (*4582*) AddTo (T 81) (Times (Einsum [(n_t1'bb,[0;1]); (T 80,[2;0;3;4])] [2;3;1;4]) (-1) 1);
  (*4583*) Del (T 80);
  (*4584*) Assign (T 66) (Times (Copy (IT 30)) (2) 1);
  (*4585*) Del (IT 30);
  (*4586*) AddTo (T 66) (Plain (Copy (IT 33)));
  (*4587*) Del (IT 33);
  (*4588*) AddTo (T 66) (Plain (Copy (IT 9)));
  (*4589*) Del (IT 9);
  (*4590*) AddTo (T 66) (Plain (Copy n_v'baa'xov));
  (*4591*) AddTo (T 66) (Times (Einsum [(T 25,[0;1;2]); (n_t1'aa,[2;3])] [0;1;3]) (-1) 1);
  (*4592*) Del (T 25);
  (*4593*) Assign (T 59) (Plain (Transpose n_r2'aba [2;0;1]));
  (*4594*) AddTo (T 59) (Times (Einsum [(n_r1'b,[0]); (n_t1'aa,[1;2])] [1;2;0]) (-1) 1);
  (*4595*) Assign (T 70) (Plain (Copy (IT 228)));
  (*4596*) Del (IT 228);
  (*4597*) AddTo (T 70) (Plain (Transpose (IT 240) [0;1;3;2]));
  (*4598*) Del (IT 240);
  (*4599*) AddTo (T 70) (Plain (Copy (IT 244)));
  (*4600*) Del (IT 244);
  (*4601*) AddTo (T 70) (Plain (Transpose (IT 266) [0;1;3;2]));
  (*4602*) Del (IT 266);
  (*4603*) AddTo (T 70) (Times (Transpose (IT 268) [0;1;3;2]) (2) 1);
  (*4604*) Del (IT 268);
  (*4605*) AddTo (T 70) (Plain (Copy (IT 43)));
  (*4606*) AddTo (T 70) (Times (Copy (IT 219)) (-1) 1);
  (*4607*) Del (IT 219);
  (*4608*) AddTo (T 70) (Times (Transpose (IT 267) [0;1;3;2]) (-1) 1);
  (*4609*) Del (IT 267);
  (*4610*) Assign (T 69) (Plain (Copy (IT 47)));
  (*4611*) AddTo (T 69) (Times (Transpose (IT 58) [1;0]) (2) 1);
  (*4612*) AddTo (T 69) (Plain (Transpose (IT 61) [1;0]));
  (*4613*) AddTo (T 69) (Times (Copy n_f'bb'vv) (-1) 1);
  (*4614*) AddTo (T 69) (Times (Transpose (IT 45) [1;0]) (-1) 1);
  (*4615*) AddTo (T 69) (Times (Transpose (IT 48) [1;0]) (-1) 1);
  (*4616*) AddTo (T 69) (Plain (Einsum [(T 1,[0;1]); (n_t1'bb,[0;2])] [1;2]));
  (*4617*) Assign (T 54) (Plain (Copy n_f'aa'oo));
  (*4618*) AddTo (T 54) (Plain (Transpose (IT 125) [1;0]));
  (*4619*) Del (IT 125);
  (*4620*) AddTo (T 54) (Plain (Transpose (IT 127) [1;0]));
  (*4621*) Del (IT 127);
  (*4622*) AddTo (T 54) (Plain (Copy (IT 158)));
  (*4623*) Del (IT 158);
  (*4624*) AddTo (T 54) (Times (Transpose (IT 174) [1;0]) (2) 1);
  (*4625*) Del (IT 174);
  (*4626*) AddTo (T 54) (Plain (Transpose (IT 176) [1;0]));
  (*4627*) Del (IT 176);
  (*4628*) AddTo (T 54) (Plain (Transpose (IT 196) [1;0]));
  (*4629*) Del (IT 196);
  (*4630*) AddTo (T 54) (Plain (Transpose (IT 198) [1;0]));
  (*4631*) Del (IT 198);
  (*4632*) AddTo (T 54) (Times (Transpose (IT 123) [1;0]) (-1) 1);
  (*4633*) Del (IT 123);
  (*4634*) AddTo (T 54) (Times (Transpose (IT 194) [1;0]) (-1) 1);
  (*4635*) Del (IT 194);
  (*4636*) Assign (T 75) (Times (Einsum [(n_r2'aba,[0;1;2]); (IT 5,[3;4;0;1])] [2;3;4]) (-1) 1);
  (*4637*) AddTo (T 75) (Plain (Einsum [(T 71,[0;1;2;3]); (n_r2'aba,[4;3;1])] [0;2;4]));
  (*4638*) Del (T 71);
  (*4639*) AddTo (T 75) (Plain (Einsum [(T 72,[0;1;2;3]); (n_r1'b,[3])] [0;1;2]));
  (*4640*) Del (T 72);
  (*4641*) AddTo (T 75) (Times (Einsum [(n_t1'aa,[0;1]); (T 74,[0;2;3])] [2;3;1]) (-1) 1);
  (*4642*) Del (T 74);
  (*4643*) Assign (T 62) (Plain (Copy (IT 118)));
  (*4644*) Del (IT 118);
  (*4645*) AddTo (T 62) (Plain (Copy (IT 168)));
  (*4646*) Del (IT 168);
  (*4647*) AddTo (T 62) (Times (Copy (IT 87)) (2) 1);
  (*4648*) Del (IT 87);
  (*4649*) AddTo (T 62) (Times (Einsum [(T 61,[0;1;2;3]); (n_t1'aa,[2;4])] [0;1;4;3]) (-1) 1);
  (*4650*) Del (T 61);
  (*4651*) Assign (T 60) (Plain (Copy (IT 251)));
  (*4652*) Del (IT 251);
  (*4653*) AddTo (T 60) (Plain (Copy (IT 257)));
  (*4654*) Del (IT 257);
  (*4655*) AddTo (T 60) (Times (Copy (IT 222)) (-1) 1);
  (*4656*) Del (IT 222);
  (*4657*) Assign (T 58) (Plain (Einsum [(IT 43,[0;1;2;3]); (n_r2'aba,[1;3;4])] [0;4;2]));
  (*4658*) Assign (T 56) (Plain (Copy (IT 116)));
  (*4659*) Del (IT 116);
  (*4660*) AddTo (T 56) (Plain (Copy (IT 120)));
  (*4661*) Del (IT 120);
  (*4662*) AddTo (T 56) (Times (Copy (IT 136)) (2) 1);
  (*4663*) Del (IT 136);
  (*4664*) AddTo (T 56) (Plain (Copy (IT 138)));
  (*4665*) Del (IT 138);
  (*4666*) AddTo (T 56) (Plain (Copy (IT 149)));
  (*4667*) Del (IT 149);
  (*4668*) AddTo (T 56) (Plain (Copy (IT 150)));
  (*4669*) Del (IT 150);
  (*4670*) AddTo (T 56) (Plain (Copy (IT 160)));
  (*4671*) Del (IT 160);
  (*4672*) AddTo (T 56) (Times (Copy (IT 172)) (2) 1);
  (*4673*) Del (IT 172);
  (*4674*) AddTo (T 56) (Times (Copy (IT 179)) (2) 1);
  (*4675*) Del (IT 179);
  (*4676*) AddTo (T 56) (Plain (Copy (IT 181)));
  (*4677*) Del (IT 181);
  (*4678*) AddTo (T 56) (Times (Copy (IT 184)) (2) 1);
  (*4679*) Del (IT 184);
  (*4680*) AddTo (T 56) (Plain (Copy (IT 185)));
  (*4681*) Del (IT 185);
  (*4682*) AddTo (T 56) (Plain (Copy (IT 187)));
  (*4683*) Del (IT 187);
  (*4684*) AddTo (T 56) (Plain (Copy (IT 207)));
  (*4685*) Del (IT 207);
  (*4686*) AddTo (T 56) (Plain (Copy (IT 208)));
  (*4687*) Del (IT 208);
  (*4688*) AddTo (T 56) (Times (Copy (IT 95)) (2) 1);
  (*4689*) Del (IT 95);
  (*4690*) AddTo (T 56) (Plain (Copy (IT 97)));
  (*4691*) Del (IT 97);
  (*4692*) AddTo (T 56) (Times (Copy n_f'aa'ov) (-1) 1);
  (*4693*) AddTo (T 56) (Times (Copy (IT 148)) (-1) 1);
  (*4694*) Del (IT 148);
  (*4695*) AddTo (T 56) (Times (Copy (IT 157)) (-1) 1);
  (*4696*) Del (IT 157);
  (*4697*) AddTo (T 56) (Times (Copy (IT 16)) (-1) 1);
  (*4698*) Del (IT 16);
  (*4699*) AddTo (T 56) (Times (Copy (IT 173)) (-1) 1);
  (*4700*) Del (IT 173);
  (*4701*) AddTo (T 56) (Times (Copy (IT 186)) (-1) 1);
  (*4702*) Del (IT 186);
  (*4703*) AddTo (T 56) (Times (Copy (IT 188)) (-1) 1);
  (*4704*) Del (IT 188);
  (*4705*) AddTo (T 56) (Times (Copy (IT 206)) (-1) 1);
  (*4706*) Del (IT 206);
  (*4707*) AddTo (T 56) (Times (Copy (IT 21)) (-1) 1);
  (*4708*) Del (IT 21);
  (*4709*) AddTo (T 56) (Times (Copy (IT 68)) (-2) 1);
  (*4710*) Del (IT 68);
  (*4711*) AddTo (T 56) (Times (Copy (IT 69)) (-1) 1);
  (*4712*) Del (IT 69);
  (*4713*) AddTo (T 56) (Times (Copy (IT 96)) (-2) 1);
  (*4714*) Del (IT 96);
  (*4715*) AddTo (T 56) (Times (Copy (IT 98)) (-1) 1);
  (*4716*) Del (IT 98);
  (*4717*) AddTo (T 56) (Times (Copy (IT 99)) (-2) 1);
  (*4718*) Del (IT 99);
  (*4719*) AddTo (T 56) (Times (Copy (IT 100)) (-1) 1);
  (*4720*) Del (IT 100);
  (*4721*) Assign (T 53) (Times (Copy (T 36)) (2) 1);
  (*4722*) Del (T 36);
  (*4723*) AddTo (T 53) (Plain (Copy (T 37)));
  (*4724*) Del (T 37);
  (*4725*) AddTo (T 53) (Times (Transpose (T 39) [0;2;1]) (-2) 1);
  (*4726*) Del (T 39);
  (*4727*) AddTo (T 53) (Plain (Transpose (T 41) [0;2;1]));
  (*4728*) Del (T 41);
  (*4729*) AddTo (T 53) (Plain (Transpose (T 50) [0;2;1]));
  (*4730*) Del (T 50);
  (*4731*) AddTo (T 53) (Plain (Copy (T 52)));
  (*4732*) Del (T 52);
  (*4733*) Assign (T 55) (Plain (Copy (IT 139)));
  (*4734*) Del (IT 139);
  (*4735*) AddTo (T 55) (Times (Copy (IT 182)) (-1) 1);
  (*4736*) Del (IT 182);
  (*4737*) Assign (T 35) (Plain (Copy (T 19)));
  (*4738*) Del (T 19);
  (*4739*) AddTo (T 35) (Times (Transpose (T 21) [0;2;1]) (-1) 1);
  (*4740*) Del (T 21);
  (*4741*) AddTo (T 35) (Plain (Transpose (T 32) [0;2;1]));
  (*4742*) Del (T 32);
  (*4743*) AddTo (T 35) (Plain (Copy (T 34)));
  (*4744*) Del (T 34);
  (*4745*) Assign (T 14) (Plain (Einsum [(n_t1'aa,[0;1]); (T 13,[2;0;3])] [2;3;1]));
  (*4746*) Assign (T 8) (Plain (Copy (IT 47)));
  (*4747*) Del (IT 47);
  (*4748*) AddTo (T 8) (Times (Transpose (IT 58) [1;0]) (2) 1);
  (*4749*) Del (IT 58);
  (*4750*) AddTo (T 8) (Plain (Transpose (IT 61) [1;0]));
  (*4751*) Del (IT 61);
  (*4752*) AddTo (T 8) (Times (Copy n_f'bb'vv) (-1) 1);
  (*4753*) AddTo (T 8) (Times (Transpose (IT 45) [1;0]) (-1) 1);
  (*4754*) Del (IT 45);
  (*4755*) AddTo (T 8) (Times (Transpose (IT 48) [1;0]) (-1) 1);
  (*4756*) Del (IT 48);
  (*4757*) Assign (T 3) (Times (Transpose (IT 31) [1;0]) (2) 1);
  (*4758*) Del (IT 31);
  (*4759*) AddTo (T 3) (Plain (Transpose (IT 34) [1;0]));
  (*4760*) Del (IT 34);
  (*4761*) AddTo (T 3) (Plain (Copy (IT 10)));
  (*4762*) Del (IT 10);
  (*4763*) AddTo (T 3) (Times (Copy n_f'aa'vv) (-1) 1);
  (*4764*) AddTo (T 3) (Times (Transpose (IT 12) [1;0]) (-1) 1);
  (*4765*) Del (IT 12);
  (*4766*) AddTo (T 3) (Times (Transpose (IT 8) [1;0]) (-1) 1);
  (*4767*) Del (IT 8);
  (*4768*) Assign n_r2new'bbb (Times (Einsum [(n_r2'bbb,[0;1;2]); (IT 470,[3;0;4;1])] [3;4;2]) (-2) 1);
  (*4769*) Del (IT 470);
  (*4770*) AddTo n_r2new'bbb (Times (Einsum [(T 91,[0;1;2]); (n_t2'bbbb,[1;0;3;4])] [3;4;2]) (-2) 1);
  (*4771*) Del (T 91);
  (*4772*) AddTo n_r2new'bbb (Times (Einsum [(n_t1'bb,[0;1]); (T 92,[0;2;3])] [3;1;2]) (-2) 1);
  (*4773*) Del (T 92);
  (*4774*) AddTo n_r2new'bbb (Plain (Transpose (T 110) [1;2;0]));
  (*4775*) AddTo n_r2new'bbb (Times (Transpose (T 110) [2;1;0]) (-1) 1);
  (*4776*) Del (T 110);
  (*4777*) AddTo n_r2new'bbb (Times (Transpose (T 129) [1;2;0]) (-1) 1);
  (*4778*) AddTo n_r2new'bbb (Plain (Transpose (T 129) [2;1;0]));
  (*4779*) Del (T 129);
  (*4780*) AddTo n_r2new'bbb (Times (Einsum [(n_r2'bbb,[0;1;2]); (T 89,[2;3])] [0;1;3]) (-2) 1);
  (*4781*) AddTo n_r2new'bbb (Times (Einsum [(n_t2'bbbb,[0;1;2;3]); (T 12,[1])] [2;3;0]) (-2) 1);
  (*4782*) AddTo n_r2new'bbb (Times (Einsum [(n_r1'b,[0]); (T 130,[1;2;3;0])] [3;2;1]) (2) 1);
  (*4783*) Del (T 130);
  (*4784*) AddTo n_r2new'bbb (Times (Einsum [(n_r1'b,[0]); (T 90,[1;2])] [0;2;1]) (-1) 1);
  (*4785*) AddTo n_r2new'bbb (Plain (Einsum [(n_r1'b,[0]); (T 90,[1;2])] [2;0;1]));
  (*4786*) Assign n_r2new'bab (Plain (Einsum [(IT 238,[0;1;2;3]); (n_r2'bab,[3;1;4])] [2;0;4]));
  (*4787*) AddTo n_r2new'bab (Times (Einsum [(n_t2'abab,[0;1;2;3]); (T 76,[0;1;4])] [3;2;4]) (-1) 1);
  (*4788*) Del (T 76);
  (*4789*) AddTo n_r2new'bab (Plain (Einsum [(T 77,[0;1;2]); (n_t1'bb,[0;3])] [3;2;1]));
  (*4790*) Del (T 77);
  (*4791*) AddTo n_r2new'bab (Times (Einsum [(n_r2'aaa,[0;1;2]); (IT 381,[2;3;1;4])] [4;0;3]) (2) 1);
  (*4792*) Del (IT 381);
  (*4793*) AddTo n_r2new'bab (Plain (Einsum [(T 79,[0;1;2;3]); (T 78,[1;3;4])] [4;2;0]));
  (*4794*) Del (T 78);
  (*4794*) Del (T 79);
  (*4795*) AddTo n_r2new'bab (Times (Einsum [(n_r2'bab,[0;1;2]); (T 81,[3;2;4;0])] [4;1;3]) (-1) 1);
  (*4796*) Del (T 81);
  (*4797*) AddTo n_r2new'bab (Times (Einsum [(T 17,[0;1]); (T 83,[0;2;3])] [3;1;2]) (-2) 1);
  (*4798*) Del (T 17);
  (*4798*) Del (T 83);
  (*4799*) AddTo n_r2new'bab (Times (Einsum [(n_r2'bab,[0;1;2]); (T 68,[1;3])] [0;3;2]) (-1) 1);
  (*4800*) AddTo n_r2new'bab (Times (Einsum [(T 84,[0;1]); (n_r2'bab,[0;2;3])] [1;2;3]) (-2) 1);
  (*4801*) Del (T 84);
  (*4802*) AddTo n_r2new'bab (Times (Einsum [(n_r1'a,[0]); (T 85,[1;2;0;3])] [3;2;1]) (-1) 1);
  (*4803*) Del (T 85);
  (*4804*) AddTo n_r2new'bab (Times (Einsum [(T 88,[0;1;2]); (n_t1'aa,[0;3])] [2;3;1]) (-1) 1);
  (*4805*) Del (T 88);
  (*4806*) AddTo n_r2new'bab (Times (Einsum [(n_r2'bab,[0;1;2]); (T 89,[2;3])] [0;1;3]) (-1) 1);
  (*4807*) Del (T 89);
  (*4808*) AddTo n_r2new'bab (Plain (Einsum [(n_t2'abab,[0;1;2;3]); (T 7,[0])] [3;2;1]));
  (*4809*) AddTo n_r2new'bab (Plain (Einsum [(n_r1'a,[0]); (T 90,[1;2])] [2;0;1]));
  (*4810*) Del (T 90);
  (*4811*) Assign n_r2new'aba (Plain (Einsum [(IT 238,[0;1;2;3]); (n_r2'aba,[1;3;4])] [0;2;4]));
  (*4812*) Del (IT 238);
  (*4813*) AddTo n_r2new'aba (Plain (Einsum [(n_t2'abab,[0;1;2;3]); (T 57,[0;4;1])] [2;3;4]));
  (*4814*) Del (T 57);
  (*4815*) AddTo n_r2new'aba (Times (Einsum [(T 58,[0;1;2]); (n_t1'aa,[0;3])] [3;2;1]) (-1) 1);
  (*4816*) Del (T 58);
  (*4817*) AddTo n_r2new'aba (Times (Einsum [(IT 90,[0;1;2;3]); (n_r2'bbb,[4;3;1])] [2;4;0]) (2) 1);
  (*4818*) Del (IT 90);
  (*4819*) AddTo n_r2new'aba (Times (Einsum [(T 59,[0;1;2]); (T 60,[3;0;4;2])] [1;4;3]) (-1) 1);
  (*4820*) Del (T 59);
  (*4820*) Del (T 60);
  (*4821*) AddTo n_r2new'aba (Times (Einsum [(T 62,[0;1;2;3]); (n_r2'aba,[3;4;1])] [2;4;0]) (-1) 1);
  (*4822*) Del (T 62);
  (*4823*) AddTo n_r2new'aba (Times (Einsum [(T 66,[0;1;2]); (T 65,[0;3])] [2;3;1]) (-1) 1);
  (*4824*) Del (T 65);
  (*4824*) Del (T 66);
  (*4825*) AddTo n_r2new'aba (Times (Einsum [(n_r2'aba,[0;1;2]); (T 68,[0;3])] [3;1;2]) (-1) 1);
  (*4826*) Del (T 68);
  (*4827*) AddTo n_r2new'aba (Times (Einsum [(n_r2'aba,[0;1;2]); (T 69,[1;3])] [0;3;2]) (-1) 1);
  (*4828*) Del (T 69);
  (*4829*) AddTo n_r2new'aba (Times (Einsum [(T 70,[0;1;2;3]); (n_r1'b,[3])] [1;2;0]) (-1) 1);
  (*4830*) Del (T 70);
  (*4831*) AddTo n_r2new'aba (Plain (Einsum [(T 75,[0;1;2]); (n_t1'bb,[1;3])] [2;3;0]));
  (*4832*) Del (T 75);
  (*4833*) AddTo n_r2new'aba (Times (Einsum [(T 54,[0;1]); (n_r2'aba,[2;3;0])] [2;3;1]) (-1) 1);
  (*4834*) AddTo n_r2new'aba (Times (Einsum [(n_t2'abab,[0;1;2;3]); (T 12,[1])] [2;3;0]) (-1) 1);
  (*4835*) AddTo n_r2new'aba (Plain (Einsum [(T 56,[0;1]); (n_r1'b,[2])] [1;2;0]));
  (*4836*) Assign n_r2new'aaa (Times (Einsum [(IT 161,[0;1;2;3]); (n_r2'aaa,[3;1;4])] [0;2;4]) (2) 1);
  (*4837*) Del (IT 161);
  (*4838*) AddTo n_r2new'aaa (Times (Einsum [(n_t2'aaaa,[0;1;2;3]); (T 13,[1;0;4])] [2;3;4]) (-2) 1);
  (*4839*) Del (T 13);
  (*4840*) AddTo n_r2new'aaa (Times (Einsum [(T 14,[0;1;2]); (n_t1'aa,[0;3])] [2;3;1]) (-2) 1);
  (*4841*) Del (T 14);
  (*4842*) AddTo n_r2new'aaa (Times (Transpose (T 35) [1;2;0]) (-1) 1);
  (*4843*) AddTo n_r2new'aaa (Plain (Transpose (T 35) [2;1;0]));
  (*4844*) Del (T 35);
  (*4845*) AddTo n_r2new'aaa (Plain (Transpose (T 53) [1;2;0]));
  (*4846*) AddTo n_r2new'aaa (Times (Transpose (T 53) [2;1;0]) (-1) 1);
  (*4847*) Del (T 53);
  (*4848*) AddTo n_r2new'aaa (Times (Einsum [(n_r2'aaa,[0;1;2]); (T 54,[2;3])] [0;1;3]) (-2) 1);
  (*4849*) Del (T 54);
  (*4850*) AddTo n_r2new'aaa (Times (Einsum [(n_t2'aaaa,[0;1;2;3]); (T 7,[1])] [2;3;0]) (2) 1);
  (*4851*) AddTo n_r2new'aaa (Times (Einsum [(T 55,[0;1;2;3]); (n_r1'a,[3])] [2;1;0]) (2) 1);
  (*4852*) Del (T 55);
  (*4853*) AddTo n_r2new'aaa (Times (Einsum [(n_r1'a,[0]); (T 56,[1;2])] [0;2;1]) (-1) 1);
  (*4854*) AddTo n_r2new'aaa (Plain (Einsum [(n_r1'a,[0]); (T 56,[1;2])] [2;0;1]));
  (*4855*) Del (T 56);
  (*4856*) Assign n_r1new'b (Times (Einsum [(IT 43,[0;1;2;3]); (n_r2'aba,[1;3;0])] [2]) (-1) 1);
  (*4857*) Del (IT 43);
  (*4858*) AddTo n_r1new'b (Times (Einsum [(n_r2'bbb,[0;1;2]); (IT 41,[2;3;1;0])] [3]) (-2) 1);
  (*4859*) Del (IT 41);
  (*4860*) AddTo n_r1new'b (Times (Einsum [(T 2,[0;1]); (n_r2'aba,[1;2;0])] [2]) (-1) 1);
  (*4861*) AddTo n_r1new'b (Times (Einsum [(T 1,[0;1]); (n_r2'bbb,[2;1;0])] [2]) (2) 1);
  (*4862*) AddTo n_r1new'b (Times (Einsum [(n_r1'b,[0]); (T 8,[0;1])] [1]) (-1) 1);
  (*4863*) Del (T 8);
  (*4864*) AddTo n_r1new'b (Plain (Einsum [(n_t1'bb,[0;1]); (T 12,[0])] [1]));
  (*4865*) Del (T 12);
  (*4866*) Assign n_r1new'a (Times (Einsum [(IT 5,[0;1;2;3]); (n_r2'bab,[3;2;0])] [1]) (-1) 1);
  (*4867*) Del (IT 5);
  (*4868*) AddTo n_r1new'a (Times (Einsum [(IT 3,[0;1;2;3]); (n_r2'aaa,[3;2;0])] [1]) (-2) 1);
  (*4869*) Del (IT 3);
  (*4870*) AddTo n_r1new'a (Times (Einsum [(n_r2'bab,[0;1;2]); (T 1,[2;0])] [1]) (-1) 1);
  (*4871*) Del (T 1);
  (*4872*) AddTo n_r1new'a (Times (Einsum [(n_r2'aaa,[0;1;2]); (T 2,[2;1])] [0]) (2) 1);
  (*4873*) Del (T 2);
  (*4874*) AddTo n_r1new'a (Times (Einsum [(n_r1'a,[0]); (T 3,[0;1])] [1]) (-1) 1);
  (*4875*) Del (T 3);
  (*4876*) AddTo n_r1new'a (Times (Einsum [(T 7,[0]); (n_t1'aa,[0;1])] [1]) (-1) 1);
  (*4877*) Del (T 7)]
 [(n_r1new'b,[7]); (n_r1new'a,[5]); (n_r2new'bbb,[7;7;6]); (n_r2new'bab,[7;5;6]); (n_r2new'aba,[5;7;4]); (n_r2new'aaa,[5;5;4])].

(** ebcc/codegen/UDFCCSD.py:4881-5341 [hbar_lmatvec_ip_intermediates] *)
Definition UDFCCSD_hbar_lmatvec_ip_intermediates : prog := mkprog
 [(n_v'baa'xov,[2;4;5]); (n_t1'aa,[4;5]); (n_v'bbb'xov,[2;6;7]); (n_t1'bb,[6;7]); (n_t2'abab,[4;6;5;7]); (n_t2'bbbb,[6;6;7;7]); (n_t2'aaaa,[4;4;5;5]); (n_v'bbb'xvv,[2;7;7]); (n_v'baa'xvv,[2;5;5]); (n_v'bbb'xoo,[2;6;6]); (n_v'baa'xoo,[2;4;4]); (n_f'bb'ov,[6;7]); (n_f'aa'ov,[4;5]); (n_f'bb'vv,[7;7]); (n_f'aa'vv,[5;5]); (n_f'bb'oo,[6;6]); (n_f'aa'oo,[4;4])]
 [(*5114*) Assign (T 30) (Plain (Einsum [(n_v'baa'xov,[0;1;2]); (n_t1'aa,[1;2])] [0]));
  (*5115*) Assign (T 32) (Plain (Einsum [(n_v'bbb'xov,[0;1;2]); (n_t1'bb,[1;2])] [0]));
  (*5116*) Assign (T 107) (Plain (Einsum [(n_v'bbb'xov,[0;1;2]); (n_t1'bb,[3;2])] [0;3;1]));
  (*5117*) Assign (T 28) (Plain (Einsum [(n_v'baa'xov,[0;1;2]); (n_t1'aa,[3;2])] [0;3;1]));
  (*5118*) Assign (T 171) (Plain (Einsum [(n_v'bbb'xov,[0;1;2]); (n_v'baa'xov,[0;3;4])] [3;1;4;2]));
  (*5119*) Assign (T 326) (Plain (Einsum [(n_v'bbb'xov,[0;1;2]); (n_v'bbb'xov,[0;3;4])] [1;3;2;4]));
  (*5120*) Assign (T 48) (Plain (Einsum [(T 30,[0]); (n_v'bbb'xov,[0;1;2])] [1;2]));
  (*5121*) Assign (T 49) (Plain (Einsum [(T 32,[0]); (n_v'baa'xov,[0;1;2])] [1;2]));
  (*5122*) Assign (T 45) (Plain (Einsum [(n_v'bbb'xov,[0;1;2]); (T 32,[0])] [1;2]));
  (*5123*) Assign (T 108) (Plain (Einsum [(n_v'bbb'xov,[0;1;2]); (T 107,[0;1;3])] [3;2]));
  (*5124*) Assign (T 40) (Plain (Einsum [(T 30,[0]); (n_v'baa'xov,[0;1;2])] [1;2]));
  (*5125*) Assign (T 100) (Plain (Einsum [(T 28,[0;1;2]); (n_v'baa'xov,[0;1;3])] [2;3]));
  (*5126*) Assign (T 167) (Plain (Einsum [(n_v'baa'xov,[0;1;2]); (n_v'baa'xov,[0;3;4])] [3;1;4;2]));
  (*5127*) Assign (T 60) (Plain (Einsum [(n_t2'abab,[0;1;2;3]); (n_v'bbb'xov,[4;1;3])] [4;0;2]));
  (*5128*) Assign (T 78) (Plain (Einsum [(n_t2'abab,[0;1;2;3]); (n_v'baa'xov,[4;0;2])] [4;1;3]));
  (*5129*) Assign (T 83) (Plain (Einsum [(n_v'bbb'xov,[0;1;2]); (n_t2'bbbb,[3;1;4;2])] [0;3;4]));
  (*5130*) Assign (T 57) (Plain (Einsum [(n_v'baa'xov,[0;1;2]); (n_t2'aaaa,[3;1;4;2])] [0;3;4]));
  (*5131*) Assign (T 46) (Plain (Einsum [(n_v'bbb'xvv,[0;1;2]); (n_t1'bb,[3;2])] [0;3;1]));
  (*5132*) Assign (T 42) (Plain (Einsum [(n_v'baa'xvv,[0;1;2]); (n_t1'aa,[3;2])] [0;3;1]));
  (*5133*) Assign (T 231) (Plain (Einsum [(T 28,[0;1;2]); (T 107,[0;3;4])] [1;2;3;4]));
  (*5134*) Assign (T 352) (Plain (Einsum [(T 107,[0;1;2]); (T 107,[0;3;4])] [3;1;4;2]));
  (*5135*) Assign (T 195) (Plain (Einsum [(T 28,[0;1;2]); (n_v'bbb'xoo,[0;3;4])] [1;2;3;4]));
  (*5136*) Assign (T 197) (Plain (Einsum [(n_v'baa'xoo,[0;1;2]); (T 107,[0;3;4])] [1;2;3;4]));
  (*5137*) Assign (T 335) (Plain (Einsum [(n_v'bbb'xoo,[0;1;2]); (T 107,[0;3;4])] [3;1;2;4]));
  (*5138*) Assign (T 172) (Plain (Einsum [(T 171,[0;1;2;3]); (n_t2'abab,[4;5;2;3])] [4;0;5;1]));
  (*5139*) Assign (T 327) (Times (Einsum [(n_t2'bbbb,[0;1;2;3]); (T 326,[4;5;2;3])] [0;1;5;4]) (-1) 1);
  (*5140*) Assign (T 55) (Plain (Einsum [(T 28,[0;1;2]); (n_v'bbb'xov,[0;3;4])] [1;2;3;4]));
  (*5141*) Assign (T 138) (Plain (Einsum [(n_v'bbb'xov,[0;1;2]); (T 107,[0;3;4])] [3;1;4;2]));
  (*5142*) Assign (T 283) (Plain (Einsum [(n_v'baa'xvv,[0;1;2]); (n_v'bbb'xov,[0;3;4])] [3;1;2;4]));
  (*5143*) Assign (T 280) (Plain (Einsum [(n_v'bbb'xov,[0;1;2]); (n_v'bbb'xvv,[0;3;4])] [1;3;4;2]));
  (*5144*) Assign (T 26) (Plain (Einsum [(n_v'bbb'xov,[0;1;2]); (n_v'baa'xoo,[0;3;4])] [3;4;1;2]));
  (*5145*) Assign (T 65) (Plain (Einsum [(n_v'bbb'xoo,[0;1;2]); (n_v'bbb'xov,[0;3;4])] [1;2;3;4]));
  (*5146*) Assign (T 37) (Plain (Einsum [(n_v'bbb'xoo,[0;1;2]); (n_v'baa'xoo,[0;3;4])] [3;4;1;2]));
  (*5147*) Assign (T 247) (Plain (Einsum [(n_v'bbb'xoo,[0;1;2]); (n_v'bbb'xoo,[0;3;4])] [1;3;4;2]));
  (*5148*) Assign (T 228) (Plain (Einsum [(T 28,[0;1;2]); (T 28,[0;3;4])] [3;1;4;2]));
  (*5149*) Assign (T 226) (Plain (Einsum [(T 48,[0;1]); (n_t1'bb,[2;1])] [2;0]));
  (*5150*) Assign (T 177) (Plain (Einsum [(T 49,[0;1]); (n_t1'aa,[2;1])] [2;0]));
  (*5151*) Assign (T 222) (Plain (Einsum [(n_t1'bb,[0;1]); (T 45,[2;1])] [0;2]));
  (*5152*) Assign (T 220) (Plain (Einsum [(T 108,[0;1]); (n_t1'bb,[2;1])] [2;0]));
  (*5153*) Assign (T 176) (Plain (Einsum [(T 40,[0;1]); (n_t1'aa,[2;1])] [2;0]));
  (*5154*) Assign (T 175) (Plain (Einsum [(T 100,[0;1]); (n_t1'aa,[2;1])] [2;0]));
  (*5155*) Assign (T 209) (Plain (Einsum [(n_v'baa'xvv,[0;1;2]); (T 32,[0])] [1;2]));
  (*5156*) Assign (T 207) (Plain (Einsum [(T 30,[0]); (n_v'bbb'xvv,[0;1;2])] [1;2]));
  (*5157*) Assign (T 204) (Plain (Einsum [(T 32,[0]); (n_v'bbb'xvv,[0;1;2])] [1;2]));
  (*5158*) Assign (T 199) (Plain (Einsum [(T 30,[0]); (n_v'baa'xvv,[0;1;2])] [1;2]));
  (*5159*) Assign (T 190) (Plain (Einsum [(T 28,[0;1;2]); (n_v'baa'xoo,[0;3;4])] [1;3;4;2]));
  (*5160*) Assign (T 188) (Plain (Einsum [(T 30,[0]); (n_v'bbb'xoo,[0;1;2])] [1;2]));
  (*5161*) Assign (T 33) (Plain (Einsum [(n_v'baa'xoo,[0;1;2]); (T 32,[0])] [1;2]));
  (*5162*) Assign (T 184) (Plain (Einsum [(n_v'bbb'xoo,[0;1;2]); (T 32,[0])] [1;2]));
  (*5163*) Del (T 32);
  (*5164*) Assign (T 182) (Plain (Einsum [(T 107,[0;1;2]); (n_v'bbb'xoo,[0;3;1])] [3;2]));
  (*5165*) Assign (T 31) (Plain (Einsum [(T 30,[0]); (n_v'baa'xoo,[0;1;2])] [1;2]));
  (*5166*) Del (T 30);
  (*5167*) Assign (T 29) (Plain (Einsum [(n_v'baa'xoo,[0;1;2]); (T 28,[0;2;3])] [1;3]));
  (*5168*) Assign (T 168) (Times (Einsum [(n_t2'aaaa,[0;1;2;3]); (T 167,[4;5;2;3])] [0;1;5;4]) (-1) 1);
  (*5169*) Assign (T 61) (Plain (Einsum [(T 60,[0;1;2]); (n_v'baa'xov,[0;3;2])] [1;3]));
  (*5170*) Assign (T 162) (Plain (Einsum [(n_v'bbb'xov,[0;1;2]); (T 78,[0;3;2])] [3;1]));
  (*5171*) Assign (T 159) (Plain (Einsum [(n_v'bbb'xov,[0;1;2]); (T 83,[0;3;2])] [3;1]));
  (*5172*) Assign (T 58) (Plain (Einsum [(n_v'baa'xov,[0;1;2]); (T 57,[0;3;2])] [3;1]));
  (*5173*) Assign (T 143) (Plain (Einsum [(T 107,[0;1;2]); (n_v'baa'xov,[0;3;4])] [3;1;2;4]));
  (*5174*) Assign (T 51) (Plain (Einsum [(n_v'baa'xov,[0;1;2]); (T 28,[0;3;4])] [3;1;4;2]));
  (*5175*) Assign (T 97) (Plain (Einsum [(n_v'bbb'xvv,[0;1;2]); (n_v'baa'xov,[0;3;4])] [3;4;1;2]));
  (*5176*) Assign (T 94) (Plain (Einsum [(n_v'baa'xvv,[0;1;2]); (n_v'baa'xov,[0;3;4])] [3;1;2;4]));
  (*5177*) Assign (T 68) (Plain (Einsum [(n_v'bbb'xoo,[0;1;2]); (n_v'baa'xov,[0;3;4])] [3;1;2;4]));
  (*5178*) Assign (T 24) (Plain (Einsum [(n_v'baa'xoo,[0;1;2]); (n_v'baa'xov,[0;3;4])] [1;2;3;4]));
  (*5179*) Assign (T 34) (Plain (Einsum [(n_v'baa'xoo,[0;1;2]); (n_v'baa'xoo,[0;3;4])] [3;1;2;4]));
  (*5180*) Assign (T 22) (Plain (Einsum [(n_f'bb'ov,[0;1]); (n_t1'bb,[2;1])] [0;2]));
  (*5181*) Assign (T 2) (Plain (Einsum [(n_t1'aa,[0;1]); (n_f'aa'ov,[2;1])] [2;0]));
  (*5182*) Assign (T 494) (Plain (Einsum [(n_t2'abab,[0;1;2;3]); (T 171,[4;1;2;5])] [0;4;3;5]));
  (*5183*) Assign (T 493) (Plain (Einsum [(T 28,[0;1;2]); (n_v'bbb'xvv,[0;3;4])] [1;2;3;4]));
  (*5184*) Assign (T 492) (Plain (Einsum [(n_v'baa'xoo,[0;1;2]); (n_v'bbb'xvv,[0;3;4])] [1;2;3;4]));
  (*5185*) Assign (T 490) (Plain (Einsum [(n_v'bbb'xov,[0;1;2]); (T 78,[0;1;3])] [3;2]));
  (*5186*) Assign (T 488) (Plain (Einsum [(n_v'bbb'xov,[0;1;2]); (T 83,[0;1;3])] [3;2]));
  (*5187*) Assign (T 487) (Plain (Einsum [(n_v'bbb'xov,[0;1;2]); (T 46,[0;1;3])] [2;3]));
  (*5188*) Assign (T 472) (Plain (Einsum [(n_t2'bbbb,[0;1;2;3]); (T 326,[1;4;5;3])] [0;4;2;5]));
  (*5189*) Assign (T 470) (Plain (Einsum [(n_t2'abab,[0;1;2;3]); (T 326,[1;4;5;3])] [0;4;2;5]));
  (*5190*) Assign (T 468) (Plain (Einsum [(n_v'bbb'xvv,[0;1;2]); (T 107,[0;3;4])] [3;4;1;2]));
  (*5191*) Assign (T 465) (Plain (Einsum [(n_v'bbb'xoo,[0;1;2]); (n_v'bbb'xvv,[0;3;4])] [1;2;3;4]));
  (*5192*) Assign (T 464) (Plain (Einsum [(n_t2'abab,[0;1;2;3]); (T 171,[0;4;5;3])] [1;4;2;5]));
  (*5193*) Assign (T 463) (Plain (Einsum [(n_v'baa'xvv,[0;1;2]); (T 107,[0;3;4])] [3;4;1;2]));
  (*5194*) Assign (T 462) (Plain (Einsum [(n_v'baa'xvv,[0;1;2]); (n_v'bbb'xoo,[0;3;4])] [3;4;1;2]));
  (*5195*) Assign (T 421) (Plain (Einsum [(T 60,[0;1;2]); (n_v'baa'xov,[0;1;3])] [2;3]));
  (*5196*) Assign (T 419) (Plain (Einsum [(n_v'baa'xov,[0;1;2]); (T 57,[0;1;3])] [3;2]));
  (*5197*) Assign (T 416) (Plain (Einsum [(T 42,[0;1;2]); (n_v'baa'xov,[0;1;3])] [3;2]));
  (*5198*) Assign (T 378) (Plain (Einsum [(T 167,[0;1;2;3]); (n_t2'abab,[0;4;3;5])] [1;4;2;5]));
  (*5199*) Assign (T 376) (Plain (Einsum [(n_t2'aaaa,[0;1;2;3]); (T 167,[1;4;5;3])] [0;4;2;5]));
  (*5200*) Assign (T 370) (Plain (Einsum [(T 28,[0;1;2]); (n_v'baa'xvv,[0;3;4])] [1;2;3;4]));
  (*5201*) Assign (T 359) (Plain (Einsum [(n_v'baa'xvv,[0;1;2]); (n_v'baa'xoo,[0;3;4])] [3;4;1;2]));
  (*5202*) Assign (T 355) (Plain (Einsum [(T 231,[0;1;2;3]); (n_t1'aa,[1;4])] [0;2;3;4]));
  (*5203*) Assign (T 353) (Plain (Einsum [(T 352,[0;1;2;3]); (n_t1'bb,[3;4])] [0;1;2;4]));
  (*5204*) Assign (T 347) (Plain (Einsum [(T 107,[0;1;2]); (T 42,[0;3;4])] [3;1;2;4]));
  (*5205*) Assign (T 345) (Plain (Einsum [(T 46,[0;1;2]); (T 107,[0;3;4])] [3;1;4;2]));
  (*5206*) Assign (T 341) (Plain (Einsum [(n_t1'aa,[0;1]); (T 195,[2;0;3;4])] [2;3;4;1]));
  (*5207*) Assign (T 340) (Plain (Einsum [(n_t1'aa,[0;1]); (T 197,[0;2;3;4])] [2;3;4;1]));
  (*5208*) Assign (T 338) (Plain (Einsum [(T 335,[0;1;2;3]); (n_t1'bb,[3;4])] [0;1;2;4]));
  (*5209*) Assign (T 336) (Plain (Einsum [(T 335,[0;1;2;3]); (n_t1'bb,[2;4])] [0;1;3;4]));
  (*5210*) Assign (T 330) (Plain (Einsum [(n_t1'aa,[0;1]); (T 172,[2;0;3;4])] [2;3;4;1]));
  (*5211*) Assign (T 328) (Times (Einsum [(T 327,[0;1;2;3]); (n_t1'bb,[2;4])] [0;1;3;4]) (-1) 1);
  (*5212*) Assign (T 321) (Plain (Einsum [(n_t2'abab,[0;1;2;3]); (T 55,[4;0;5;3])] [4;1;5;2]));
  (*5213*) Assign (T 319) (Plain (Einsum [(T 107,[0;1;2]); (T 78,[0;3;4])] [1;3;2;4]));
  (*5214*) Assign (T 317) (Plain (Einsum [(T 107,[0;1;2]); (T 57,[0;3;4])] [3;1;2;4]));
  (*5215*) Assign (T 315) (Plain (Einsum [(T 138,[0;1;2;3]); (n_t2'bbbb,[4;2;5;3])] [0;4;1;5]));
  (*5216*) Assign (T 314) (Plain (Einsum [(n_t2'abab,[0;1;2;3]); (T 138,[4;5;1;3])] [0;4;5;2]));
  (*5217*) Assign (T 312) (Plain (Einsum [(T 107,[0;1;2]); (T 83,[0;3;4])] [1;3;2;4]));
  (*5218*) Assign (T 311) (Plain (Einsum [(T 60,[0;1;2]); (T 107,[0;3;4])] [1;3;4;2]));
  (*5219*) Assign (T 305) (Plain (Einsum [(n_t2'bbbb,[0;1;2;3]); (T 48,[4;3])] [0;1;4;2]));
  (*5220*) Assign (T 303) (Plain (Einsum [(n_t2'abab,[0;1;2;3]); (T 48,[4;3])] [0;1;4;2]));
  (*5221*) Assign (T 301) (Plain (Einsum [(n_t2'bbbb,[0;1;2;3]); (T 45,[4;3])] [0;1;4;2]));
  (*5222*) Assign (T 299) (Plain (Einsum [(n_t2'abab,[0;1;2;3]); (T 45,[4;3])] [0;1;4;2]));
  (*5223*) Assign (T 297) (Plain (Einsum [(T 108,[0;1]); (n_t2'bbbb,[2;3;4;1])] [2;3;0;4]));
  (*5224*) Assign (T 295) (Plain (Einsum [(n_t2'abab,[0;1;2;3]); (T 108,[4;3])] [0;1;4;2]));
  (*5225*) Assign (T 284) (Plain (Einsum [(n_t2'abab,[0;1;2;3]); (T 283,[4;5;2;3])] [0;1;4;5]));
  (*5226*) Del (T 283);
  (*5227*) Assign (T 281) (Times (Einsum [(T 280,[0;1;2;3]); (n_t2'bbbb,[4;5;1;3])] [4;5;0;2]) (-1) 1);
  (*5228*) Del (T 280);
  (*5229*) Assign (T 274) (Plain (Einsum [(T 78,[0;1;2]); (n_v'bbb'xoo,[0;3;4])] [1;3;4;2]));
  (*5230*) Assign (T 272) (Plain (Einsum [(n_v'bbb'xoo,[0;1;2]); (T 57,[0;3;4])] [3;1;2;4]));
  (*5231*) Assign (T 271) (Plain (Einsum [(n_t2'abab,[0;1;2;3]); (T 26,[4;0;5;3])] [4;1;5;2]));
  (*5232*) Assign (T 269) (Plain (Einsum [(n_v'bbb'xoo,[0;1;2]); (T 83,[0;3;4])] [3;1;2;4]));
  (*5233*) Assign (T 268) (Plain (Einsum [(n_v'bbb'xoo,[0;1;2]); (T 60,[0;3;4])] [3;1;2;4]));
  (*5234*) Assign (T 266) (Plain (Einsum [(n_t2'bbbb,[0;1;2;3]); (T 65,[4;1;5;3])] [0;4;5;2]));
  (*5235*) Assign (T 265) (Plain (Einsum [(n_t2'abab,[0;1;2;3]); (T 65,[4;1;5;3])] [0;4;5;2]));
  (*5236*) Assign (T 258) (Plain (Einsum [(n_v'bbb'xoo,[0;1;2]); (T 42,[0;3;4])] [3;1;2;4]));
  (*5237*) Assign (T 256) (Plain (Einsum [(n_v'bbb'xoo,[0;1;2]); (T 46,[0;3;4])] [3;1;2;4]));
  (*5238*) Assign (T 250) (Plain (Einsum [(n_t1'aa,[0;1]); (T 37,[2;0;3;4])] [2;3;4;1]));
  (*5239*) Assign (T 248) (Plain (Einsum [(T 247,[0;1;2;3]); (n_t1'bb,[1;4])] [3;0;2;4]));
  (*5240*) Assign (T 242) (Plain (Einsum [(n_f'bb'ov,[0;1]); (n_t2'bbbb,[2;3;4;1])] [0;2;3;4]));
  (*5241*) Assign (T 240) (Plain (Einsum [(n_t2'abab,[0;1;2;3]); (n_f'bb'ov,[4;3])] [0;4;1;2]));
  (*5242*) Assign (T 232) (Plain (Einsum [(T 231,[0;1;2;3]); (n_t1'bb,[3;4])] [0;1;2;4]));
  (*5243*) Assign (T 229) (Plain (Einsum [(T 228,[0;1;2;3]); (n_t1'aa,[3;4])] [0;1;2;4]));
  (*5244*) Assign (T 227) (Plain (Einsum [(n_t1'bb,[0;1]); (T 226,[2;0])] [2;1]));
  (*5245*) Assign (T 224) (Plain (Einsum [(n_t1'aa,[0;1]); (T 177,[2;0])] [2;1]));
  (*5246*) Assign (T 223) (Plain (Einsum [(T 222,[0;1]); (n_t1'bb,[1;2])] [0;2]));
  (*5247*) Assign (T 221) (Plain (Einsum [(T 220,[0;1]); (n_t1'bb,[1;2])] [0;2]));
  (*5248*) Assign (T 218) (Plain (Einsum [(n_t1'aa,[0;1]); (T 176,[2;0])] [2;1]));
  (*5249*) Assign (T 216) (Plain (Einsum [(n_t1'aa,[0;1]); (T 175,[2;0])] [2;1]));
  (*5250*) Assign (T 214) (Plain (Einsum [(T 28,[0;1;2]); (T 46,[0;3;4])] [1;2;3;4]));
  (*5251*) Assign (T 212) (Plain (Einsum [(T 28,[0;1;2]); (T 42,[0;3;4])] [1;3;2;4]));
  (*5252*) Assign (T 210) (Plain (Einsum [(n_t1'aa,[0;1]); (T 209,[2;1])] [0;2]));
  (*5253*) Assign (T 208) (Plain (Einsum [(T 207,[0;1]); (n_t1'bb,[2;1])] [2;0]));
  (*5254*) Assign (T 206) (Plain (Einsum [(T 46,[0;1;2]); (T 107,[0;3;1])] [3;2]));
  (*5255*) Assign (T 205) (Plain (Einsum [(T 204,[0;1]); (n_t1'bb,[2;1])] [2;0]));
  (*5256*) Assign (T 202) (Plain (Einsum [(T 28,[0;1;2]); (T 42,[0;2;3])] [1;3]));
  (*5257*) Assign (T 200) (Plain (Einsum [(T 199,[0;1]); (n_t1'aa,[2;1])] [2;0]));
  (*5258*) Assign (T 198) (Plain (Einsum [(T 197,[0;1;2;3]); (n_t1'bb,[3;4])] [0;1;2;4]));
  (*5259*) Assign (T 196) (Plain (Einsum [(n_t1'bb,[0;1]); (T 195,[2;3;4;0])] [2;3;4;1]));
  (*5260*) Assign (T 193) (Plain (Einsum [(T 190,[0;1;2;3]); (n_t1'aa,[3;4])] [0;1;2;4]));
  (*5261*) Assign (T 191) (Plain (Einsum [(T 190,[0;1;2;3]); (n_t1'aa,[2;4])] [0;1;3;4]));
  (*5262*) Assign (T 189) (Plain (Einsum [(T 188,[0;1]); (n_t1'bb,[1;2])] [0;2]));
  (*5263*) Assign (T 186) (Plain (Einsum [(T 33,[0;1]); (n_t1'aa,[1;2])] [0;2]));
  (*5264*) Assign (T 185) (Plain (Einsum [(T 184,[0;1]); (n_t1'bb,[1;2])] [0;2]));
  (*5265*) Assign (T 183) (Plain (Einsum [(T 182,[0;1]); (n_t1'bb,[1;2])] [0;2]));
  (*5266*) Assign (T 180) (Plain (Einsum [(T 31,[0;1]); (n_t1'aa,[1;2])] [0;2]));
  (*5267*) Assign (T 178) (Plain (Einsum [(T 29,[0;1]); (n_t1'aa,[1;2])] [0;2]));
  (*5268*) Assign (T 173) (Plain (Einsum [(T 172,[0;1;2;3]); (n_t1'bb,[3;4])] [0;1;2;4]));
  (*5269*) Assign (T 169) (Times (Einsum [(T 168,[0;1;2;3]); (n_t1'aa,[2;4])] [0;1;3;4]) (-1) 1);
  (*5270*) Assign (T 165) (Plain (Einsum [(T 61,[0;1]); (n_t1'aa,[1;2])] [0;2]));
  (*5271*) Assign (T 163) (Plain (Einsum [(T 162,[0;1]); (n_t1'bb,[1;2])] [0;2]));
  (*5272*) Assign (T 160) (Plain (Einsum [(T 159,[0;1]); (n_t1'bb,[1;2])] [0;2]));
  (*5273*) Assign (T 157) (Plain (Einsum [(n_t1'aa,[0;1]); (T 58,[2;0])] [2;1]));
  (*5274*) Assign (T 156) (Plain (Einsum [(n_t2'abab,[0;1;2;3]); (T 143,[4;5;1;2])] [0;4;5;3]));
  (*5275*) Assign (T 154) (Plain (Einsum [(T 28,[0;1;2]); (T 83,[0;3;4])] [1;2;3;4]));
  (*5276*) Assign (T 152) (Plain (Einsum [(T 60,[0;1;2]); (T 28,[0;3;4])] [3;1;4;2]));
  (*5277*) Assign (T 151) (Plain (Einsum [(n_t2'abab,[0;1;2;3]); (T 51,[4;5;0;2])] [4;5;1;3]));
  (*5278*) Assign (T 149) (Plain (Einsum [(T 51,[0;1;2;3]); (n_t2'aaaa,[4;2;5;3])] [0;4;1;5]));
  (*5279*) Assign (T 148) (Plain (Einsum [(T 28,[0;1;2]); (T 78,[0;3;4])] [1;2;3;4]));
  (*5280*) Assign (T 146) (Plain (Einsum [(T 57,[0;1;2]); (T 28,[0;3;4])] [3;1;4;2]));
  (*5281*) Assign (T 144) (Plain (Einsum [(n_t2'abab,[0;1;2;3]); (T 143,[0;4;1;2])] [4;3]));
  (*5282*) Assign (T 141) (Plain (Einsum [(n_t2'abab,[0;1;2;3]); (T 55,[4;0;1;3])] [4;2]));
  (*5283*) Assign (T 139) (Plain (Einsum [(n_t2'bbbb,[0;1;2;3]); (T 138,[4;1;0;3])] [4;2]));
  (*5284*) Assign (T 136) (Plain (Einsum [(n_t2'aaaa,[0;1;2;3]); (T 51,[4;1;0;3])] [4;2]));
  (*5285*) Assign (T 134) (Plain (Einsum [(n_t2'abab,[0;1;2;3]); (T 49,[4;2])] [0;4;1;3]));
  (*5286*) Assign (T 132) (Plain (Einsum [(n_t2'aaaa,[0;1;2;3]); (T 49,[4;3])] [0;1;4;2]));
  (*5287*) Assign (T 130) (Plain (Einsum [(n_t2'abab,[0;1;2;3]); (T 40,[4;2])] [0;4;1;3]));
  (*5288*) Assign (T 128) (Plain (Einsum [(n_t2'aaaa,[0;1;2;3]); (T 40,[4;3])] [0;1;4;2]));
  (*5289*) Assign (T 126) (Plain (Einsum [(n_t2'abab,[0;1;2;3]); (T 100,[4;2])] [0;4;1;3]));
  (*5290*) Assign (T 124) (Plain (Einsum [(n_t2'aaaa,[0;1;2;3]); (T 100,[4;3])] [0;1;4;2]));
  (*5291*) Assign (T 122) (Plain (Einsum [(T 48,[0;1]); (n_t2'bbbb,[2;0;3;1])] [2;3]));
  (*5292*) Assign (T 120) (Plain (Einsum [(n_t2'abab,[0;1;2;3]); (T 48,[1;3])] [0;2]));
  (*5293*) Assign (T 119) (Plain (Einsum [(T 49,[0;1]); (n_t2'abab,[0;2;1;3])] [2;3]));
  (*5294*) Assign (T 117) (Plain (Einsum [(T 49,[0;1]); (n_t2'aaaa,[2;0;3;1])] [2;3]));
  (*5295*) Assign (T 115) (Plain (Einsum [(T 45,[0;1]); (n_t2'bbbb,[2;0;3;1])] [2;3]));
  (*5296*) Assign (T 113) (Plain (Einsum [(T 45,[0;1]); (n_t2'abab,[2;0;3;1])] [2;3]));
  (*5297*) Assign (T 111) (Plain (Einsum [(T 108,[0;1]); (n_t2'bbbb,[2;0;3;1])] [2;3]));
  (*5298*) Assign (T 109) (Plain (Einsum [(T 108,[0;1]); (n_t2'abab,[2;0;3;1])] [2;3]));
  (*5299*) Assign (T 106) (Plain (Einsum [(n_t2'abab,[0;1;2;3]); (T 40,[0;2])] [1;3]));
  (*5300*) Assign (T 104) (Plain (Einsum [(T 40,[0;1]); (n_t2'aaaa,[2;0;3;1])] [2;3]));
  (*5301*) Assign (T 103) (Plain (Einsum [(n_t2'abab,[0;1;2;3]); (T 100,[0;2])] [1;3]));
  (*5302*) Assign (T 101) (Plain (Einsum [(T 100,[0;1]); (n_t2'aaaa,[2;0;3;1])] [2;3]));
  (*5303*) Assign (T 98) (Plain (Einsum [(T 97,[0;1;2;3]); (n_t2'abab,[4;5;1;2])] [4;0;5;3]));
  (*5304*) Del (T 97);
  (*5305*) Assign (T 95) (Times (Einsum [(n_t2'aaaa,[0;1;2;3]); (T 94,[4;5;2;3])] [0;1;4;5]) (-1) 1);
  (*5306*) Del (T 94);
  (*5307*) Assign (T 92) (Plain (Einsum [(n_v'baa'xvv,[0;1;2]); (T 60,[0;3;2])] [3;1]));
  (*5308*) Assign (T 90) (Plain (Einsum [(n_v'bbb'xvv,[0;1;2]); (T 78,[0;3;2])] [3;1]));
  (*5309*) Assign (T 88) (Times (Einsum [(n_v'bbb'xvv,[0;1;2]); (T 83,[0;3;2])] [3;1]) (-1) 1);
  (*5310*) Assign (T 86) (Times (Einsum [(n_v'baa'xvv,[0;1;2]); (T 57,[0;3;2])] [3;1]) (-1) 1);
  (*5311*) Assign (T 84) (Plain (Einsum [(n_v'baa'xoo,[0;1;2]); (T 83,[0;3;4])] [1;2;3;4]));
  (*5312*) Assign (T 81) (Plain (Einsum [(T 60,[0;1;2]); (n_v'baa'xoo,[0;3;4])] [1;3;4;2]));
  (*5313*) Assign (T 80) (Plain (Einsum [(n_t2'abab,[0;1;2;3]); (T 68,[4;1;5;2])] [0;4;5;3]));
  (*5314*) Assign (T 79) (Plain (Einsum [(n_v'baa'xoo,[0;1;2]); (T 78,[0;3;4])] [1;2;3;4]));
  (*5315*) Assign (T 76) (Plain (Einsum [(n_v'baa'xoo,[0;1;2]); (T 57,[0;3;4])] [3;1;2;4]));
  (*5316*) Assign (T 75) (Plain (Einsum [(n_t2'abab,[0;1;2;3]); (T 24,[0;4;5;2])] [4;5;1;3]));
  (*5317*) Assign (T 73) (Plain (Einsum [(n_t2'aaaa,[0;1;2;3]); (T 24,[4;1;5;3])] [0;4;5;2]));
  (*5318*) Assign (T 71) (Plain (Einsum [(T 26,[0;1;2;3]); (n_t2'abab,[0;2;4;3])] [1;4]));
  (*5319*) Assign (T 69) (Plain (Einsum [(T 68,[0;1;2;3]); (n_t2'abab,[0;1;3;4])] [2;4]));
  (*5320*) Assign (T 66) (Plain (Einsum [(T 65,[0;1;2;3]); (n_t2'bbbb,[0;2;4;3])] [1;4]));
  (*5321*) Assign (T 63) (Plain (Einsum [(n_t2'aaaa,[0;1;2;3]); (T 24,[0;4;1;3])] [4;2]));
  (*5322*) Assign (T 56) (Plain (Einsum [(n_v'baa'xoo,[0;1;2]); (T 46,[0;3;4])] [1;2;3;4]));
  (*5323*) Assign (T 53) (Plain (Einsum [(n_v'baa'xoo,[0;1;2]); (T 42,[0;3;4])] [3;1;2;4]));
  (*5324*) Assign (T 47) (Plain (Einsum [(T 46,[0;1;2]); (n_v'bbb'xoo,[0;3;1])] [3;2]));
  (*5325*) Assign (T 43) (Plain (Einsum [(n_v'baa'xoo,[0;1;2]); (T 42,[0;2;3])] [1;3]));
  (*5326*) Assign (T 38) (Plain (Einsum [(T 37,[0;1;2;3]); (n_t1'bb,[3;4])] [1;0;2;4]));
  (*5327*) Assign (T 35) (Plain (Einsum [(T 34,[0;1;2;3]); (n_t1'aa,[1;4])] [3;0;2;4]));
  (*5328*) Assign (T 23) (Plain (Einsum [(T 22,[0;1]); (n_t1'bb,[0;2])] [1;2]));
  (*5329*) Assign (T 20) (Plain (Einsum [(n_t1'aa,[0;1]); (T 2,[0;2])] [2;1]));
  (*5330*) Assign (T 18) (Plain (Einsum [(n_t2'abab,[0;1;2;3]); (n_f'aa'ov,[4;2])] [4;0;1;3]));
  (*5331*) Assign (T 16) (Plain (Einsum [(n_t2'aaaa,[0;1;2;3]); (n_f'aa'ov,[4;3])] [4;0;1;2]));
  (*5332*) Assign (T 14) (Plain (Einsum [(n_t2'bbbb,[0;1;2;3]); (n_f'bb'ov,[1;3])] [0;2]));
  (*5333*) Assign (T 12) (Plain (Einsum [(n_t2'abab,[0;1;2;3]); (n_f'bb'ov,[1;3])] [0;2]));
  (*5334*) Assign (T 11) (Plain (Einsum [(n_t2'abab,[0;1;2;3]); (n_f'aa'ov,[0;2])] [1;3]));
  (*5335*) Assign (T 9) (Plain (Einsum [(n_f'aa'ov,[0;1]); (n_t2'aaaa,[2;0;3;1])] [2;3]));
  (*5336*) Assign (T 8) (Plain (Einsum [(n_f'bb'vv,[0;1]); (n_t1'bb,[2;1])] [2;0]));
  (*5337*) Assign (T 6) (Plain (Einsum [(n_t1'aa,[0;1]); (n_f'aa'vv,[2;1])] [0;2]));
  (*5338*) Assign (T 5) (Plain (Einsum [(n_t1'bb,[0;1]); (n_f'bb'oo,[2;0])] [2;1]));
  (*5339*) Assign (T 3) (Plain (Einsum [(n_t1'aa,[0;1]); (n_f'aa'oo,[2;0])] [2;1]))]
 [(T 2,[4;4]); (T 11,[6;7]); (T 101,[4;5]); (T 103,[6;7]); (T 104,[4;5]); (T 106,[6;7]); (T 107,[2;6;6]); (T 108,[6;7]); (T 109,[4;5]); (T 12,[4;5]); (T 111,[6;7]); (T 113,[4;5]); (T 115,[6;7]); (T 117,[4;5]); (T 119,[6;7]); (T 120,[4;5]); (T 122,[6;7]); (T 124,[4;4;4;5]); (T 126,[4;4;6;7]); (T 128,[4;4;4;5]); (T 130,[4;4;6;7]); (T 14,[6;7]); (T 132,[4;4;4;5]); (T 134,[4;4;6;7]); (T 136,[4;5]); (T 138,[6;6;6;7]); (T 139,[6;7]); (T 141,[4;5]); (T 143,[4;6;6;5]); (T 144,[6;7]); (T 146,[4;4;4;5]); (T 148,[4;4;6;7]); (T 149,[4;4;4;5]); (T 16,[4;4;4;5]); (T 151,[4;4;6;7]); (T 152,[4;4;4;5]); (T 154,[4;4;6;7]); (T 156,[4;4;6;7]); (T 157,[4;5]); (T 159,[6;6]); (T 160,[6;7]); (T 162,[6;6]); (T 163,[6;7]); (T 165,[4;5]); (T 167,[4;4;5;5]); (T 168,[4;4;4;4]); (T 169,[4;4;4;5]); (T 18,[4;4;6;7]); (T 171,[4;6;5;7]); (T 172,[4;4;6;6]); (T 173,[4;4;6;7]); (T 175,[4;4]); (T 176,[4;4]); (T 177,[4;4]); (T 178,[4;5]); (T 180,[4;5]); (T 182,[6;6]); (T 183,[6;7]); (T 184,[6;6]); (T 185,[6;7]); (T 186,[4;5]); (T 188,[6;6]); (T 189,[6;7]); (T 190,[4;4;4;4]); (T 20,[4;5]); (T 191,[4;4;4;5]); (T 193,[4;4;4;5]); (T 195,[4;4;6;6]); (T 196,[4;4;6;7]); (T 197,[4;4;6;6]); (T 198,[4;4;6;7]); (T 199,[5;5]); (T 200,[4;5]); (T 3,[4;5]); (T 202,[4;5]); (T 204,[7;7]); (T 205,[6;7]); (T 206,[6;7]); (T 207,[7;7]); (T 208,[6;7]); (T 209,[5;5]); (T 210,[4;5]); (T 22,[6;6]); (T 212,[4;4;4;5]); (T 214,[4;4;6;7]); (T 216,[4;5]); (T 218,[4;5]); (T 220,[6;6]); (T 23,[6;7]); (T 221,[6;7]); (T 222,[6;6]); (T 223,[6;7]); (T 224,[4;5]); (T 226,[6;6]); (T 227,[6;7]); (T 228,[4;4;4;4]); (T 229,[4;4;4;5]); (T 24,[4;4;4;5]); (T 231,[4;4;6;6]); (T 232,[4;4;6;7]); (T 240,[4;6;6;5]); (T 242,[6;6;6;7]); (T 247,[6;6;6;6]); (T 248,[6;6;6;7]); (T 250,[4;6;6;5]); (T 26,[4;4;6;7]); (T 256,[6;6;6;7]); (T 258,[4;6;6;5]); (T 265,[4;6;6;5]); (T 266,[6;6;6;7]); (T 268,[4;6;6;5]); (T 269,[6;6;6;7]); (T 28,[2;4;4]); (T 271,[4;6;6;5]); (T 272,[4;6;6;5]); (T 274,[6;6;6;7]); (T 29,[4;4]); (T 281,[6;6;6;7]); (T 284,[4;6;6;5]); (T 295,[4;6;6;5]); (T 297,[6;6;6;7]); (T 299,[4;6;6;5]); (T 31,[4;4]); (T 301,[6;6;6;7]); (T 303,[4;6;6;5]); (T 305,[6;6;6;7]); (T 311,[4;6;6;5]); (T 312,[6;6;6;7]); (T 314,[4;6;6;5]); (T 315,[6;6;6;7]); (T 317,[4;6;6;5]); (T 319,[6;6;6;7]); (T 33,[4;4]); (T 321,[4;6;6;5]); (T 326,[6;6;7;7]); (T 327,[6;6;6;6]); (T 328,[6;6;6;7]); (T 330,[4;6;6;5]); (T 34,[4;4;4;4]); (T 335,[6;6;6;6]); (T 336,[6;6;6;7]); (T 338,[6;6;6;7]); (T 340,[4;6;6;5]); (T 35,[4;4;4;5]); (T 341,[4;6;6;5]); (T 345,[6;6;6;7]); (T 347,[4;6;6;5]); (T 352,[6;6;6;6]); (T 353,[6;6;6;7]); (T 355,[4;6;6;5]); (T 359,[4;4;5;5]); (T 37,[4;4;6;6]); (T 370,[4;4;5;5]); (T 38,[4;4;6;7]); (T 376,[4;4;5;5]); (T 378,[4;6;5;7]); (T 40,[4;5]); (T 5,[6;7]); (T 42,[2;4;5]); (T 416,[5;5]); (T 419,[5;5]); (T 43,[4;5]); (T 421,[5;5]); (T 45,[6;7]); (T 46,[2;6;7]); (T 47,[6;7]); (T 462,[6;6;5;5]); (T 463,[6;6;5;5]); (T 464,[6;6;5;5]); (T 465,[6;6;7;7]); (T 468,[6;6;7;7]); (T 470,[4;6;5;7]); (T 48,[6;7]); (T 472,[6;6;7;7]); (T 49,[4;5]); (T 487,[7;7]); (T 488,[7;7]); (T 490,[7;7]); (T 492,[4;4;7;7]); (T 493,[4;4;7;7]); (T 494,[4;4;7;7]); (T 6,[4;5]); (T 51,[4;4;4;5]); (T 53,[4;4;4;5]); (T 55,[4;4;6;7]); (T 56,[4;4;6;7]); (T 57,[2;4;5]); (T 58,[4;4]); (T 60,[2;4;5]); (T 61,[4;4]); (T 63,[4;5]); (T 65,[6;6;6;7]); (T 66,[6;7]); (T 68,[4;6;6;5]); (T 69,[6;7]); (T 8,[6;7]); (T 71,[4;5]); (T 73,[4;4;4;5]); (T 75,[4;4;6;7]); (T 76,[4;4;4;5]); (T 78,[2;6;7]); (T 79,[4;4;6;7]); (T 80,[4;4;6;7]); (T 9,[4;5]); (T 81,[4;4;4;5]); (T 83,[2;6;7]); (T 84,[4;4;6;7]); (T 86,[4;5]); (T 88,[6;7]); (T 90,[6;7]); (T 92,[4;5]); (T 95,[4;4;4;5]); (T 98,[4;4;6;7]); (T 100,[4;5])].

(** ebcc/codegen/UDFCCSD.py:5343-6106 [hbar_lmatvec_ip] *)
Definition UDFCCSD_hbar_lmatvec_ip : prog := mkprog
 [(IT 42,[2;4;5]); (IT 57,[2;4;5]); (IT 60,[2;4;5]); (n_v'baa'xov,[2;4;5]); (n_t1'aa,[4;5]); (n_r2'aba,[4;6;5]); (IT 28,[2;4;4]); (n_v'baa'xoo,[2;4;4]); (IT 107,[2;6;6]); (n_v'bbb'xoo,[2;6;6]); (n_r2'bbb,[6;6;7]); (n_t1'bb,[6;7]); (IT 46,[2;6;7]); (IT 78,[2;6;7]); (n_v'bbb'xov,[2;6;7]); (IT 83,[2;6;7]); (n_r2'aaa,[4;4;5]); (n_r2'bab,[6;4;7]); (n_t2'abab,[4;6;5;7]); (n_t2'bbbb,[6;6;7;7]); (n_f'bb'ov,[6;7]); (IT 45,[6;7]); (IT 48,[6;7]); (IT 108,[6;7]); (n_f'bb'oo,[6;6]); (IT 184,[6;6]); (IT 188,[6;6]); (IT 22,[6;6]); (IT 222,[6;6]); (IT 226,[6;6]); (IT 465,[6;6;7;7]); (IT 468,[6;6;7;7]); (IT 472,[6;6;7;7]); (IT 138,[6;6;6;7]); (IT 65,[6;6;6;7]); (IT 159,[6;6]); (IT 162,[6;6]); (IT 182,[6;6]); (IT 220,[6;6]); (n_f'aa'ov,[4;5]); (IT 40,[4;5]); (IT 49,[4;5]); (IT 100,[4;5]); (n_f'aa'oo,[4;4]); (IT 176,[4;4]); (IT 177,[4;4]); (IT 2,[4;4]); (IT 31,[4;4]); (IT 33,[4;4]); (IT 359,[4;4;5;5]); (IT 370,[4;4;5;5]); (IT 376,[4;4;5;5]); (n_t2'aaaa,[4;4;5;5]); (IT 24,[4;4;4;5]); (IT 51,[4;4;4;5]); (IT 58,[4;4]); (IT 61,[4;4]); (IT 175,[4;4]); (IT 29,[4;4]); (n_r1'b,[6]); (IT 335,[6;6;6;6]); (IT 470,[4;6;5;7]); (IT 326,[6;6;7;7]); (n_r1'a,[4]); (IT 378,[4;6;5;7]); (IT 167,[4;4;5;5]); (IT 190,[4;4;4;4]); (IT 487,[7;7]); (IT 488,[7;7]); (IT 490,[7;7]); (n_f'bb'vv,[7;7]); (IT 204,[7;7]); (IT 207,[7;7]); (IT 327,[6;6;6;6]); (IT 352,[6;6;6;6]); (IT 247,[6;6;6;6]); (IT 26,[4;4;6;7]); (IT 55,[4;4;6;7]); (IT 172,[4;4;6;6]); (IT 195,[4;4;6;6]); (IT 197,[4;4;6;6]); (IT 231,[4;4;6;6]); (IT 37,[4;4;6;6]); (IT 492,[4;4;7;7]); (IT 493,[4;4;7;7]); (IT 494,[4;4;7;7]); (IT 416,[5;5]); (IT 419,[5;5]); (IT 421,[5;5]); (n_f'aa'vv,[5;5]); (IT 199,[5;5]); (IT 209,[5;5]); (IT 143,[4;6;6;5]); (IT 68,[4;6;6;5]); (IT 462,[6;6;5;5]); (IT 463,[6;6;5;5]); (IT 464,[6;6;5;5]); (IT 168,[4;4;4;4]); (IT 228,[4;4;4;4]); (IT 34,[4;4;4;4]); (IT 240,[4;6;6;5]); (IT 258,[4;6;6;5]); (IT 268,[4;6;6;5]); (IT 272,[4;6;6;5]); (IT 284,[4;6;6;5]); (IT 299,[4;6;6;5]); (IT 303,[4;6;6;5]); (IT 311,[4;6;6;5]); (IT 317,[4;6;6;5]); (IT 347,[4;6;6;5]); (IT 250,[4;6;6;5]); (IT 265,[4;6;6;5]); (IT 271,[4;6;6;5]); (IT 295,[4;6;6;5]); (IT 314,[4;6;6;5]); (IT 321,[4;6;6;5]); (IT 330,[4;6;6;5]); (IT 340,[4;6;6;5]); (IT 341,[4;6;6;5]); (IT 355,[4;6;6;5]); (IT 103,[6;7]); (IT 111,[6;7]); (IT 139,[6;7]); (IT 144,[6;7]); (IT 160,[6;7]); (IT 163,[6;7]); (IT 185,[6;7]); (IT 189,[6;7]); (IT 206,[6;7]); (IT 223,[6;7]); (IT 227,[6;7]); (IT 23,[6;7]); (IT 47,[6;7]); (IT 5,[6;7]); (IT 66,[6;7]); (IT 69,[6;7]); (IT 88,[6;7]); (IT 106,[6;7]); (IT 11,[6;7]); (IT 115,[6;7]); (IT 119,[6;7]); (IT 122,[6;7]); (IT 14,[6;7]); (IT 183,[6;7]); (IT 205,[6;7]); (IT 208,[6;7]); (IT 221,[6;7]); (IT 8,[6;7]); (IT 90,[6;7]); (IT 242,[6;6;6;7]); (IT 248,[6;6;6;7]); (IT 256,[6;6;6;7]); (IT 269,[6;6;6;7]); (IT 274,[6;6;6;7]); (IT 301,[6;6;6;7]); (IT 305,[6;6;6;7]); (IT 315,[6;6;6;7]); (IT 328,[6;6;6;7]); (IT 336,[6;6;6;7]); (IT 353,[6;6;6;7]); (IT 266,[6;6;6;7]); (IT 281,[6;6;6;7]); (IT 297,[6;6;6;7]); (IT 312,[6;6;6;7]); (IT 319,[6;6;6;7]); (IT 338,[6;6;6;7]); (IT 345,[6;6;6;7]); (IT 101,[4;5]); (IT 109,[4;5]); (IT 136,[4;5]); (IT 141,[4;5]); (IT 157,[4;5]); (IT 165,[4;5]); (IT 180,[4;5]); (IT 186,[4;5]); (IT 20,[4;5]); (IT 202,[4;5]); (IT 218,[4;5]); (IT 224,[4;5]); (IT 3,[4;5]); (IT 43,[4;5]); (IT 63,[4;5]); (IT 71,[4;5]); (IT 86,[4;5]); (IT 104,[4;5]); (IT 113,[4;5]); (IT 117,[4;5]); (IT 120,[4;5]); (IT 12,[4;5]); (IT 178,[4;5]); (IT 200,[4;5]); (IT 210,[4;5]); (IT 216,[4;5]); (IT 6,[4;5]); (IT 9,[4;5]); (IT 92,[4;5]); (IT 130,[4;4;6;7]); (IT 134,[4;4;6;7]); (IT 148,[4;4;6;7]); (IT 154,[4;4;6;7]); (IT 18,[4;4;6;7]); (IT 214,[4;4;6;7]); (IT 56,[4;4;6;7]); (IT 79,[4;4;6;7]); (IT 84,[4;4;6;7]); (IT 98,[4;4;6;7]); (IT 126,[4;4;6;7]); (IT 151,[4;4;6;7]); (IT 156,[4;4;6;7]); (IT 173,[4;4;6;7]); (IT 196,[4;4;6;7]); (IT 198,[4;4;6;7]); (IT 232,[4;4;6;7]); (IT 38,[4;4;6;7]); (IT 75,[4;4;6;7]); (IT 80,[4;4;6;7]); (IT 128,[4;4;4;5]); (IT 132,[4;4;4;5]); (IT 149,[4;4;4;5]); (IT 16,[4;4;4;5]); (IT 169,[4;4;4;5]); (IT 191,[4;4;4;5]); (IT 229,[4;4;4;5]); (IT 35,[4;4;4;5]); (IT 53,[4;4;4;5]); (IT 76,[4;4;4;5]); (IT 81,[4;4;4;5]); (IT 124,[4;4;4;5]); (IT 146,[4;4;4;5]); (IT 152,[4;4;4;5]); (IT 193,[4;4;4;5]); (IT 212,[4;4;4;5]); (IT 73,[4;4;4;5]); (IT 95,[4;4;4;5]); (IT 171,[4;6;5;7])]
 [(*5373*) Assign (T 51) (Plain (Copy (IT 42)));
  (*5374*) AddTo (T 51) (Times (Copy (IT 57)) (2) 1);
  (*5375*) AddTo (T 51) (Plain (Copy (IT 60)));
  (*5376*) AddTo (T 51) (Plain (Copy n_v'baa'xov));
  (*5377*) Assign (T 48) (Plain (Einsum [(n_t1'aa,[0;1]); (n_r2'aba,[2;3;1])] [2;0;3]));
  (*5378*) Assign (T 31) (Plain (Copy (IT 28)));
  (*5379*) Del (IT 28);
  (*5380*) AddTo (T 31) (Plain (Copy n_v'baa'xoo));
  (*5381*) Assign (T 34) (Plain (Copy (IT 107)));
  (*5382*) Del (IT 107);
  (*5383*) AddTo (T 34) (Plain (Copy n_v'bbb'xoo));
  (*5384*) Assign (T 53) (Plain (Einsum [(n_r2'bbb,[0;1;2]); (n_t1'bb,[3;2])] [0;1;3]));
  (*5385*) Assign (T 17) (Plain (Copy (IT 46)));
  (*5386*) AddTo (T 17) (Plain (Copy (IT 78)));
  (*5387*) AddTo (T 17) (Plain (Copy n_v'bbb'xov));
  (*5388*) AddTo (T 17) (Times (Copy (IT 83)) (2) 1);
  (*5389*) Assign (T 15) (Plain (Copy (IT 42)));
  (*5390*) Del (IT 42);
  (*5391*) AddTo (T 15) (Plain (Copy (IT 60)));
  (*5392*) Del (IT 60);
  (*5393*) AddTo (T 15) (Plain (Copy n_v'baa'xov));
  (*5394*) AddTo (T 15) (Times (Copy (IT 57)) (2) 1);
  (*5395*) Del (IT 57);
  (*5396*) Assign (T 28) (Plain (Einsum [(n_t1'aa,[0;1]); (n_r2'aaa,[2;3;1])] [2;3;0]));
  (*5397*) Assign (T 33) (Times (Einsum [(n_r2'bab,[0;1;2]); (n_t1'bb,[3;2])] [1;0;3]) (-1) 1);
  (*5398*) Assign (T 75) (Times (Einsum [(T 51,[0;1;2]); (n_r2'aba,[1;3;2])] [0;3]) (1) 2);
  (*5399*) Assign (T 76) (Times (Einsum [(T 31,[0;1;2]); (T 48,[1;2;3])] [0;3]) (1) 2);
  (*5400*) Assign (T 77) (Plain (Einsum [(T 53,[0;1;2]); (T 34,[3;0;2])] [3;1]));
  (*5401*) Assign (T 56) (Plain (Einsum [(n_t2'abab,[0;1;2;3]); (n_r2'aba,[0;1;2])] [3]));
  (*5402*) Assign (T 57) (Plain (Einsum [(n_t2'bbbb,[0;1;2;3]); (n_r2'bbb,[0;1;3])] [2]));
  (*5403*) Assign (T 18) (Times (Einsum [(n_r2'bab,[0;1;2]); (T 17,[3;0;2])] [3;1]) (-1) 1);
  (*5404*) Assign (T 16) (Times (Einsum [(n_r2'aaa,[0;1;2]); (T 15,[3;1;2])] [3;0]) (-1) 1);
  (*5405*) Del (T 15);
  (*5406*) Assign (T 32) (Plain (Einsum [(T 31,[0;1;2]); (T 28,[1;3;2])] [0;3]));
  (*5407*) Assign (T 35) (Times (Einsum [(T 33,[0;1;2]); (T 34,[3;1;2])] [3;0]) (1) 2);
  (*5408*) Assign (T 65) (Plain (Copy n_f'bb'ov));
  (*5409*) AddTo (T 65) (Plain (Copy (IT 45)));
  (*5410*) AddTo (T 65) (Plain (Copy (IT 48)));
  (*5411*) AddTo (T 65) (Times (Copy (IT 108)) (-1) 1);
  (*5412*) Del (IT 108);
  (*5413*) Assign (T 89) (Plain (Copy n_f'bb'oo));
  (*5414*) AddTo (T 89) (Plain (Copy (IT 184)));
  (*5415*) AddTo (T 89) (Plain (Copy (IT 188)));
  (*5416*) AddTo (T 89) (Plain (Transpose (IT 22) [1;0]));
  (*5417*) AddTo (T 89) (Plain (Copy (IT 222)));
  (*5418*) AddTo (T 89) (Plain (Copy (IT 226)));
  (*5419*) Assign (T 59) (Plain (Copy (IT 465)));
  (*5420*) Del (IT 465);
  (*5421*) AddTo (T 59) (Plain (Copy (IT 468)));
  (*5422*) Del (IT 468);
  (*5423*) AddTo (T 59) (Times (Copy (IT 472)) (2) 1);
  (*5424*) Del (IT 472);
  (*5425*) Assign (T 87) (Times (Einsum [(T 17,[0;1;2]); (n_r2'bbb,[3;1;2])] [0;3]) (-1) 1);
  (*5426*) Del (T 17);
  (*5427*) Assign (T 63) (Plain (Copy (IT 138)));
  (*5428*) AddTo (T 63) (Plain (Transpose (IT 65) [0;2;1;3]));
  (*5429*) Assign (T 78) (Plain (Copy (T 75)));
  (*5430*) Del (T 75);
  (*5431*) AddTo (T 78) (Times (Copy (T 76)) (-1) 1);
  (*5432*) Del (T 76);
  (*5433*) AddTo (T 78) (Times (Copy (T 77)) (-1) 1);
  (*5434*) Del (T 77);
  (*5435*) Assign (T 82) (Times (Copy (IT 159)) (2) 1);
  (*5436*) AddTo (T 82) (Plain (Copy (IT 162)));
  (*5437*) AddTo (T 82) (Times (Copy (IT 182)) (-1) 1);
  (*5438*) AddTo (T 82) (Times (Copy (IT 220)) (-1) 1);
  (*5439*) Assign (T 80) (Times (Copy (T 56)) (-1) 2);
  (*5440*) AddTo (T 80) (Plain (Copy (T 57)));
  (*5441*) Assign (T 42) (Plain (Copy n_f'aa'ov));
  (*5442*) AddTo (T 42) (Plain (Copy (IT 40)));
  (*5443*) AddTo (T 42) (Plain (Copy (IT 49)));
  (*5444*) AddTo (T 42) (Times (Copy (IT 100)) (-1) 1);
  (*5445*) Del (IT 100);
  (*5446*) Assign (T 19) (Times (Copy (T 16)) (-2) 1);
  (*5447*) Del (T 16);
  (*5448*) AddTo (T 19) (Plain (Copy (T 18)));
  (*5449*) Del (T 18);
  (*5450*) Assign (T 21) (Plain (Copy n_f'aa'oo));
  (*5451*) AddTo (T 21) (Plain (Copy (IT 176)));
  (*5452*) AddTo (T 21) (Plain (Copy (IT 177)));
  (*5453*) AddTo (T 21) (Plain (Transpose (IT 2) [1;0]));
  (*5454*) AddTo (T 21) (Plain (Copy (IT 31)));
  (*5455*) AddTo (T 21) (Plain (Copy (IT 33)));
  (*5456*) Assign (T 11) (Times (Einsum [(n_t2'abab,[0;1;2;3]); (n_r2'bab,[1;0;3])] [2]) (-1) 1);
  (*5457*) Assign (T 13) (Plain (Copy (IT 359)));
  (*5458*) AddTo (T 13) (Plain (Copy (IT 370)));
  (*5459*) AddTo (T 13) (Times (Copy (IT 376)) (2) 1);
  (*5460*) Assign (T 26) (Plain (Einsum [(n_t2'aaaa,[0;1;2;3]); (n_r2'aaa,[0;1;3])] [2]));
  (*5461*) Assign (T 36) (Times (Copy (T 32)) (-1) 1);
  (*5462*) Del (T 32);
  (*5463*) AddTo (T 36) (Plain (Copy (T 35)));
  (*5464*) Del (T 35);
  (*5465*) Assign (T 29) (Plain (Copy (IT 24)));
  (*5466*) AddTo (T 29) (Plain (Transpose (IT 51) [0;2;1;3]));
  (*5467*) Assign (T 38) (Times (Copy (IT 58)) (2) 1);
  (*5468*) AddTo (T 38) (Plain (Copy (IT 61)));
  (*5469*) AddTo (T 38) (Times (Copy (IT 175)) (-1) 1);
  (*5470*) AddTo (T 38) (Times (Copy (IT 29)) (-1) 1);
  (*5471*) Assign (T 66) (Plain (Einsum [(T 65,[0;1]); (n_t1'bb,[0;2])] [2;1]));
  (*5472*) Assign (T 85) (Plain (Einsum [(n_r1'b,[0]); (IT 138,[0;1;2;3])] [1;2;3]));
  (*5473*) Assign (T 90) (Times (Einsum [(n_r2'bbb,[0;1;2]); (T 89,[1;3])] [0;3;2]) (-1) 1);
  (*5474*) Del (T 89);
  (*5475*) Assign (T 86) (Times (Einsum [(T 59,[0;1;2;3]); (n_r2'bbb,[4;0;2])] [4;1;3]) (-1) 1);
  (*5476*) Assign (T 88) (Times (Einsum [(n_v'bbb'xov,[0;1;2]); (T 87,[0;3])] [1;3;2]) (-1) 1);
  (*5477*) Del (T 87);
  (*5478*) Assign (T 74) (Times (Einsum [(T 53,[0;1;2]); (T 63,[0;2;3;4])] [1;3;4]) (2) 1);
  (*5479*) Assign (T 71) (Plain (Einsum [(n_r1'b,[0]); (IT 65,[1;0;2;3])] [1;2;3]));
  (*5480*) Assign (T 79) (Times (Einsum [(n_v'bbb'xov,[0;1;2]); (T 78,[0;3])] [1;3;2]) (2) 1);
  (*5481*) Del (T 78);
  (*5482*) Assign (T 73) (Times (Einsum [(IT 335,[0;1;2;3]); (n_r2'bbb,[1;0;4])] [2;3;4]) (-1) 1);
  (*5483*) Del (IT 335);
  (*5484*) Assign (T 72) (Plain (Einsum [(IT 470,[0;1;2;3]); (n_r2'aba,[0;4;2])] [1;4;3]));
  (*5485*) Assign (T 83) (Times (Einsum [(n_r2'bbb,[0;1;2]); (T 82,[1;3])] [0;3;2]) (-2) 1);
  (*5486*) Del (T 82);
  (*5487*) Assign (T 81) (Times (Einsum [(IT 326,[0;1;2;3]); (T 80,[3])] [0;1;2]) (2) 1);
  (*5488*) Del (IT 326);
  (*5488*) Del (T 80);
  (*5489*) Assign (T 52) (Plain (Copy (IT 46)));
  (*5490*) Del (IT 46);
  (*5491*) AddTo (T 52) (Plain (Copy (IT 78)));
  (*5492*) Del (IT 78);
  (*5493*) AddTo (T 52) (Times (Copy (IT 83)) (2) 1);
  (*5494*) Del (IT 83);
  (*5495*) AddTo (T 52) (Plain (Copy n_v'bbb'xov));
  (*5496*) Assign (T 43) (Plain (Einsum [(T 42,[0;1]); (n_t1'aa,[0;2])] [2;1]));
  (*5497*) Assign (T 9) (Plain (Einsum [(IT 51,[0;1;2;3]); (n_r1'a,[0])] [1;2;3]));
  (*5498*) Assign (T 20) (Plain (Einsum [(T 19,[0;1]); (n_v'baa'xov,[0;2;3])] [2;1;3]));
  (*5499*) Del (T 19);
  (*5500*) Assign (T 22) (Times (Einsum [(T 21,[0;1]); (n_r2'aaa,[2;0;3])] [2;1;3]) (-1) 1);
  (*5501*) Del (T 21);
  (*5502*) Assign (T 10) (Times (Einsum [(n_r2'bab,[0;1;2]); (IT 378,[3;0;4;2])] [3;1;4]) (-1) 1);
  (*5503*) Assign (T 12) (Plain (Einsum [(T 11,[0]); (IT 167,[1;2;3;0])] [1;2;3]));
  (*5504*) Assign (T 14) (Times (Einsum [(T 13,[0;1;2;3]); (n_r2'aaa,[4;0;2])] [4;1;3]) (-1) 1);
  (*5505*) Del (T 13);
  (*5506*) Assign (T 27) (Plain (Einsum [(T 26,[0]); (IT 167,[1;2;3;0])] [1;2;3]));
  (*5507*) Del (IT 167);
  (*5508*) Assign (T 37) (Times (Einsum [(T 36,[0;1]); (n_v'baa'xov,[0;2;3])] [2;1;3]) (2) 1);
  (*5509*) Del (T 36);
  (*5510*) Assign (T 30) (Times (Einsum [(T 29,[0;1;2;3]); (T 28,[0;4;2])] [4;1;3]) (2) 1);
  (*5511*) Del (T 29);
  (*5512*) Assign (T 39) (Times (Einsum [(T 38,[0;1]); (n_r2'aaa,[2;0;3])] [2;1;3]) (-2) 1);
  (*5513*) Del (T 38);
  (*5514*) Assign (T 24) (Plain (Einsum [(IT 24,[0;1;2;3]); (n_r1'a,[1])] [0;2;3]));
  (*5515*) Assign (T 25) (Times (Einsum [(n_r2'aaa,[0;1;2]); (IT 190,[1;0;3;4])] [3;4;2]) (-1) 1);
  (*5516*) Del (IT 190);
  (*5517*) Assign (T 67) (Plain (Transpose (IT 487) [1;0]));
  (*5518*) Del (IT 487);
  (*5519*) AddTo (T 67) (Times (Copy (IT 488)) (2) 1);
  (*5520*) Del (IT 488);
  (*5521*) AddTo (T 67) (Plain (Copy (IT 490)));
  (*5522*) Del (IT 490);
  (*5523*) AddTo (T 67) (Times (Copy n_f'bb'vv) (-1) 1);
  (*5524*) AddTo (T 67) (Times (Copy (IT 204)) (-1) 1);
  (*5525*) Del (IT 204);
  (*5526*) AddTo (T 67) (Times (Copy (IT 207)) (-1) 1);
  (*5527*) Del (IT 207);
  (*5528*) AddTo (T 67) (Plain (Copy (T 66)));
  (*5529*) Del (T 66);
  (*5530*) Assign (T 91) (Plain (Copy (T 85)));
  (*5531*) Del (T 85);
  (*5532*) AddTo (T 91) (Times (Transpose (T 86) [1;0;2]) (-2) 1);
  (*5533*) Del (T 86);
  (*5534*) AddTo (T 91) (Times (Transpose (T 88) [1;0;2]) (2) 1);
  (*5535*) Del (T 88);
  (*5536*) AddTo (T 91) (Times (Transpose (T 90) [1;0;2]) (-2) 1);
  (*5537*) Del (T 90);
  (*5538*) Assign (T 84) (Plain (Copy (T 71)));
  (*5539*) Del (T 71);
  (*5540*) AddTo (T 84) (Plain (Copy (T 72)));
  (*5541*) Del (T 72);
  (*5542*) AddTo (T 84) (Times (Copy (T 73)) (2) 1);
  (*5543*) Del (T 73);
  (*5544*) AddTo (T 84) (Times (Transpose (T 74) [1;0;2]) (-1) 1);
  (*5545*) Del (T 74);
  (*5546*) AddTo (T 84) (Plain (Transpose (T 79) [1;0;2]));
  (*5547*) Del (T 79);
  (*5548*) AddTo (T 84) (Times (Copy (T 81)) (-1) 1);
  (*5549*) Del (T 81);
  (*5550*) AddTo (T 84) (Plain (Transpose (T 83) [1;0;2]));
  (*5551*) Del (T 83);
  (*5552*) Assign (T 92) (Plain (Transpose (IT 327) [2;3;0;1]));
  (*5553*) Del (IT 327);
  (*5554*) AddTo (T 92) (Plain (Transpose (IT 352) [2;3;0;1]));
  (*5555*) Del (IT 352);
  (*5556*) AddTo (T 92) (Times (Copy (IT 247)) (-1) 1);
  (*5557*) Del (IT 247);
  (*5558*) Assign (T 5) (Plain (Copy n_f'aa'oo));
  (*5559*) AddTo (T 5) (Plain (Copy (IT 176)));
  (*5560*) AddTo (T 5) (Plain (Copy (IT 177)));
  (*5561*) AddTo (T 5) (Plain (Transpose (IT 2) [1;0]));
  (*5562*) AddTo (T 5) (Plain (Transpose (IT 31) [1;0]));
  (*5563*) AddTo (T 5) (Plain (Transpose (IT 33) [1;0]));
  (*5564*) AddTo (T 5) (Times (Copy (IT 58)) (2) 1);
  (*5565*) AddTo (T 5) (Plain (Copy (IT 61)));
  (*5566*) AddTo (T 5) (Times (Copy (IT 175)) (-1) 1);
  (*5567*) AddTo (T 5) (Times (Copy (IT 29)) (-1) 1);
  (*5568*) Assign (T 70) (Plain (Copy (IT 26)));
  (*5569*) AddTo (T 70) (Plain (Transpose (IT 55) [1;0;2;3]));
  (*5570*) Assign (T 69) (Times (Copy (T 26)) (2) 1);
  (*5571*) Del (T 26);
  (*5572*) AddTo (T 69) (Plain (Copy (T 11)));
  (*5573*) Del (T 11);
  (*5574*) Assign (T 64) (Times (Einsum [(n_r2'aaa,[0;1;2]); (T 51,[3;1;2])] [3;0]) (2) 1);
  (*5575*) AddTo (T 64) (Times (Einsum [(n_r2'bab,[0;1;2]); (T 52,[3;0;2])] [3;1]) (-1) 1);
  (*5576*) AddTo (T 64) (Times (Einsum [(T 31,[0;1;2]); (T 28,[1;3;2])] [0;3]) (2) 1);
  (*5577*) Del (T 28);
  (*5578*) AddTo (T 64) (Times (Einsum [(T 33,[0;1;2]); (T 34,[3;1;2])] [3;0]) (-1) 1);
  (*5579*) Assign (T 61) (Plain (Copy (IT 172)));
  (*5580*) AddTo (T 61) (Plain (Copy (IT 195)));
  (*5581*) AddTo (T 61) (Plain (Transpose (IT 197) [1;0;2;3]));
  (*5582*) AddTo (T 61) (Plain (Copy (IT 231)));
  (*5583*) AddTo (T 61) (Plain (Transpose (IT 37) [1;0;2;3]));
  (*5584*) Assign (T 68) (Plain (Copy n_f'bb'oo));
  (*5585*) AddTo (T 68) (Times (Copy (IT 159)) (2) 1);
  (*5586*) AddTo (T 68) (Plain (Copy (IT 162)));
  (*5587*) AddTo (T 68) (Plain (Copy (IT 184)));
  (*5588*) AddTo (T 68) (Plain (Copy (IT 188)));
  (*5589*) AddTo (T 68) (Plain (Transpose (IT 22) [1;0]));
  (*5590*) AddTo (T 68) (Plain (Copy (IT 222)));
  (*5591*) AddTo (T 68) (Plain (Copy (IT 226)));
  (*5592*) AddTo (T 68) (Times (Copy (IT 182)) (-1) 1);
  (*5593*) AddTo (T 68) (Times (Copy (IT 220)) (-1) 1);
  (*5594*) Assign (T 62) (Plain (Copy (IT 26)));
  (*5595*) AddTo (T 62) (Plain (Transpose (IT 55) [1;0;2;3]));
  (*5596*) Assign (T 60) (Plain (Copy (IT 492)));
  (*5597*) Del (IT 492);
  (*5598*) AddTo (T 60) (Plain (Transpose (IT 493) [1;0;2;3]));
  (*5599*) Del (IT 493);
  (*5600*) AddTo (T 60) (Times (Transpose (IT 494) [1;0;2;3]) (-1) 1);
  (*5601*) Del (IT 494);
  (*5602*) Assign (T 55) (Plain (Copy n_f'aa'oo));
  (*5603*) AddTo (T 55) (Plain (Copy (IT 176)));
  (*5604*) Del (IT 176);
  (*5605*) AddTo (T 55) (Plain (Copy (IT 177)));
  (*5606*) Del (IT 177);
  (*5607*) AddTo (T 55) (Plain (Transpose (IT 2) [1;0]));
  (*5608*) Del (IT 2);
  (*5609*) AddTo (T 55) (Plain (Copy (IT 31)));
  (*5610*) Del (IT 31);
  (*5611*) AddTo (T 55) (Plain (Copy (IT 33)));
  (*5612*) Del (IT 33);
  (*5613*) AddTo (T 55) (Times (Copy (IT 58)) (2) 1);
  (*5614*) Del (IT 58);
  (*5615*) AddTo (T 55) (Plain (Copy (IT 61)));
  (*5616*) Del (IT 61);
  (*5617*) AddTo (T 55) (Times (Copy (IT 175)) (-1) 1);
  (*5618*) Del (IT 175);
  (*5619*) AddTo (T 55) (Times (Copy (IT 29)) (-1) 1);
  (*5620*) Del (IT 29);
  (*5621*) Assign (T 49) (Plain (Copy (IT 24)));
  (*5622*) AddTo (T 49) (Plain (Transpose (IT 51) [0;2;1;3]));
  (*5623*) Assign (T 44) (Plain (Transpose (IT 416) [1;0]));
  (*5624*) Del (IT 416);
  (*5625*) AddTo (T 44) (Times (Copy (IT 419)) (2) 1);
  (*5626*) Del (IT 419);
  (*5627*) AddTo (T 44) (Plain (Copy (IT 421)));
  (*5628*) Del (IT 421);
  (*5629*) AddTo (T 44) (Times (Copy n_f'aa'vv) (-1) 1);
  (*5630*) AddTo (T 44) (Times (Copy (IT 199)) (-1) 1);
  (*5631*) Del (IT 199);
  (*5632*) AddTo (T 44) (Times (Copy (IT 209)) (-1) 1);
  (*5633*) Del (IT 209);
  (*5634*) AddTo (T 44) (Plain (Copy (T 43)));
  (*5635*) Del (T 43);
  (*5636*) Assign (T 47) (Plain (Copy (IT 172)));
  (*5637*) Del (IT 172);
  (*5638*) AddTo (T 47) (Plain (Transpose (IT 195) [0;1;3;2]));
  (*5639*) Del (IT 195);
  (*5640*) AddTo (T 47) (Plain (Transpose (IT 197) [1;0;2;3]));
  (*5641*) Del (IT 197);
  (*5642*) AddTo (T 47) (Plain (Copy (IT 231)));
  (*5643*) Del (IT 231);
  (*5644*) AddTo (T 47) (Plain (Transpose (IT 37) [0;1;3;2]));
  (*5645*) Del (IT 37);
  (*5646*) Assign (T 50) (Plain (Copy (IT 143)));
  (*5647*) AddTo (T 50) (Plain (Transpose (IT 68) [0;2;1;3]));
  (*5648*) Assign (T 8) (Plain (Copy n_f'bb'oo));
  (*5649*) AddTo (T 8) (Times (Copy (IT 159)) (2) 1);
  (*5650*) Del (IT 159);
  (*5651*) AddTo (T 8) (Plain (Copy (IT 162)));
  (*5652*) Del (IT 162);
  (*5653*) AddTo (T 8) (Plain (Transpose (IT 184) [1;0]));
  (*5654*) Del (IT 184);
  (*5655*) AddTo (T 8) (Plain (Transpose (IT 188) [1;0]));
  (*5656*) Del (IT 188);
  (*5657*) AddTo (T 8) (Plain (Transpose (IT 22) [1;0]));
  (*5658*) Del (IT 22);
  (*5659*) AddTo (T 8) (Plain (Copy (IT 222)));
  (*5660*) Del (IT 222);
  (*5661*) AddTo (T 8) (Plain (Copy (IT 226)));
  (*5662*) Del (IT 226);
  (*5663*) AddTo (T 8) (Times (Copy (IT 182)) (-1) 1);
  (*5664*) Del (IT 182);
  (*5665*) AddTo (T 8) (Times (Copy (IT 220)) (-1) 1);
  (*5666*) Del (IT 220);
  (*5667*) Assign (T 46) (Plain (Copy (IT 462)));
  (*5668*) Del (IT 462);
  (*5669*) AddTo (T 46) (Plain (Transpose (IT 463) [1;0;2;3]));
  (*5670*) Del (IT 463);
  (*5671*) AddTo (T 46) (Times (Transpose (IT 464) [1;0;2;3]) (-1) 1);
  (*5672*) Del (IT 464);
  (*5673*) Assign (T 58) (Times (Copy (T 56)) (-1) 1);
  (*5674*) Del (T 56);
  (*5675*) AddTo (T 58) (Times (Copy (T 57)) (2) 1);
  (*5676*) Del (T 57);
  (*5677*) Assign (T 45) (Plain (Copy (IT 359)));
  (*5678*) Del (IT 359);
  (*5679*) AddTo (T 45) (Plain (Copy (IT 370)));
  (*5680*) Del (IT 370);
  (*5681*) AddTo (T 45) (Times (Copy (IT 376)) (2) 1);
  (*5682*) Del (IT 376);
  (*5683*) Assign (T 54) (Times (Einsum [(T 51,[0;1;2]); (n_r2'aba,[1;3;2])] [0;3]) (-1) 1);
  (*5684*) Del (T 51);
  (*5685*) AddTo (T 54) (Times (Einsum [(T 52,[0;1;2]); (n_r2'bbb,[3;1;2])] [0;3]) (2) 1);
  (*5686*) Del (T 52);
  (*5687*) AddTo (T 54) (Plain (Einsum [(T 31,[0;1;2]); (T 48,[1;2;3])] [0;3]));
  (*5688*) Del (T 31);
  (*5689*) AddTo (T 54) (Times (Einsum [(T 53,[0;1;2]); (T 34,[3;0;2])] [3;1]) (2) 1);
  (*5690*) Del (T 53);
  (*5690*) Del (T 34);
  (*5691*) Assign (T 41) (Plain (Copy (IT 168)));
  (*5692*) Del (IT 168);
  (*5693*) AddTo (T 41) (Plain (Copy (IT 228)));
  (*5694*) Del (IT 228);
  (*5695*) AddTo (T 41) (Times (Transpose (IT 34) [2;3;0;1]) (-1) 1);
  (*5696*) Del (IT 34);
  (*5697*) Assign (T 23) (Plain (Copy (T 9)));
  (*5698*) Del (T 9);
  (*5699*) AddTo (T 23) (Plain (Copy (T 10)));
  (*5700*) Del (T 10);
  (*5701*) AddTo (T 23) (Plain (Copy (T 12)));
  (*5702*) Del (T 12);
  (*5703*) AddTo (T 23) (Times (Transpose (T 14) [1;0;2]) (-2) 1);
  (*5704*) Del (T 14);
  (*5705*) AddTo (T 23) (Plain (Transpose (T 20) [1;0;2]));
  (*5706*) Del (T 20);
  (*5707*) AddTo (T 23) (Times (Transpose (T 22) [1;0;2]) (-2) 1);
  (*5708*) Del (T 22);
  (*5709*) Assign (T 40) (Plain (Copy (T 24)));
  (*5710*) Del (T 24);
  (*5711*) AddTo (T 40) (Times (Copy (T 25)) (2) 1);
  (*5712*) Del (T 25);
  (*5713*) AddTo (T 40) (Times (Copy (T 27)) (-2) 1);
  (*5714*) Del (T 27);
  (*5715*) AddTo (T 40) (Times (Transpose (T 30) [1;0;2]) (-1) 1);
  (*5716*) Del (T 30);
  (*5717*) AddTo (T 40) (Plain (Transpose (T 37) [1;0;2]));
  (*5718*) Del (T 37);
  (*5719*) AddTo (T 40) (Plain (Transpose (T 39) [1;0;2]));
  (*5720*) Del (T 39);
  (*5721*) Assign (T 6) (Plain (Copy (IT 143)));
  (*5722*) Del (IT 143);
  (*5723*) AddTo (T 6) (Plain (Transpose (IT 240) [0;2;1;3]));
  (*5724*) Del (IT 240);
  (*5725*) AddTo (T 6) (Plain (Transpose (IT 258) [0;2;1;3]));
  (*5726*) Del (IT 258);
  (*5727*) AddTo (T 6) (Plain (Copy (IT 268)));
  (*5728*) Del (IT 268);
  (*5729*) AddTo (T 6) (Times (Copy (IT 272)) (2) 1);
  (*5730*) Del (IT 272);
  (*5731*) AddTo (T 6) (Plain (Copy (IT 284)));
  (*5732*) Del (IT 284);
  (*5733*) AddTo (T 6) (Plain (Copy (IT 299)));
  (*5734*) Del (IT 299);
  (*5735*) AddTo (T 6) (Plain (Copy (IT 303)));
  (*5736*) Del (IT 303);
  (*5737*) AddTo (T 6) (Plain (Copy (IT 311)));
  (*5738*) Del (IT 311);
  (*5739*) AddTo (T 6) (Times (Copy (IT 317)) (2) 1);
  (*5740*) Del (IT 317);
  (*5741*) AddTo (T 6) (Plain (Copy (IT 347)));
  (*5742*) Del (IT 347);
  (*5743*) AddTo (T 6) (Plain (Transpose (IT 68) [0;2;1;3]));
  (*5744*) Del (IT 68);
  (*5745*) AddTo (T 6) (Times (Transpose (IT 250) [0;2;1;3]) (-1) 1);
  (*5746*) Del (IT 250);
  (*5747*) AddTo (T 6) (Times (Copy (IT 265)) (-1) 1);
  (*5748*) Del (IT 265);
  (*5749*) AddTo (T 6) (Times (Copy (IT 271)) (-1) 1);
  (*5750*) Del (IT 271);
  (*5751*) AddTo (T 6) (Times (Copy (IT 295)) (-1) 1);
  (*5752*) Del (IT 295);
  (*5753*) AddTo (T 6) (Times (Copy (IT 314)) (-1) 1);
  (*5754*) Del (IT 314);
  (*5755*) AddTo (T 6) (Times (Copy (IT 321)) (-1) 1);
  (*5756*) Del (IT 321);
  (*5757*) AddTo (T 6) (Times (Copy (IT 330)) (-1) 1);
  (*5758*) Del (IT 330);
  (*5759*) AddTo (T 6) (Times (Copy (IT 340)) (-1) 1);
  (*5760*) Del (IT 340);
  (*5761*) AddTo (T 6) (Times (Transpose (IT 341) [0;2;1;3]) (-1) 1);
  (*5762*) Del (IT 341);
  (*5763*) AddTo (T 6) (Times (Copy (IT 355)) (-1) 1);
  (*5764*) Del (IT 355);
  (*5765*) Assign (T 3) (Times (Copy (IT 103)) (1) 2);
  (*5766*) Del (IT 103);
  (*5767*) AddTo (T 3) (Plain (Copy (IT 111)));
  (*5768*) Del (IT 111);
  (*5769*) AddTo (T 3) (Plain (Copy (IT 139)));
  (*5770*) Del (IT 139);
  (*5771*) AddTo (T 3) (Times (Copy (IT 144)) (1) 2);
  (*5772*) Del (IT 144);
  (*5773*) AddTo (T 3) (Plain (Copy (IT 160)));
  (*5774*) Del (IT 160);
  (*5775*) AddTo (T 3) (Times (Copy (IT 163)) (1) 2);
  (*5776*) Del (IT 163);
  (*5777*) AddTo (T 3) (Times (Copy (IT 185)) (1) 2);
  (*5778*) Del (IT 185);
  (*5779*) AddTo (T 3) (Times (Copy (IT 189)) (1) 2);
  (*5780*) Del (IT 189);
  (*5781*) AddTo (T 3) (Times (Copy (IT 206)) (1) 2);
  (*5782*) Del (IT 206);
  (*5783*) AddTo (T 3) (Times (Copy (IT 223)) (1) 2);
  (*5784*) Del (IT 223);
  (*5785*) AddTo (T 3) (Times (Copy (IT 227)) (1) 2);
  (*5786*) Del (IT 227);
  (*5787*) AddTo (T 3) (Times (Copy (IT 23)) (1) 2);
  (*5788*) Del (IT 23);
  (*5789*) AddTo (T 3) (Times (Copy (IT 47)) (1) 2);
  (*5790*) Del (IT 47);
  (*5791*) AddTo (T 3) (Times (Copy (IT 5)) (1) 2);
  (*5792*) Del (IT 5);
  (*5793*) AddTo (T 3) (Plain (Copy (IT 66)));
  (*5794*) Del (IT 66);
  (*5795*) AddTo (T 3) (Times (Copy (IT 69)) (1) 2);
  (*5796*) Del (IT 69);
  (*5797*) AddTo (T 3) (Plain (Copy (IT 88)));
  (*5798*) Del (IT 88);
  (*5799*) AddTo (T 3) (Times (Copy n_f'bb'ov) (-1) 2);
  (*5800*) AddTo (T 3) (Times (Copy (IT 106)) (-1) 2);
  (*5801*) Del (IT 106);
  (*5802*) AddTo (T 3) (Times (Copy (IT 11)) (-1) 2);
  (*5803*) Del (IT 11);
  (*5804*) AddTo (T 3) (Times (Copy (IT 115)) (-1) 1);
  (*5805*) Del (IT 115);
  (*5806*) AddTo (T 3) (Times (Copy (IT 119)) (-1) 2);
  (*5807*) Del (IT 119);
  (*5808*) AddTo (T 3) (Times (Copy (IT 122)) (-1) 1);
  (*5809*) Del (IT 122);
  (*5810*) AddTo (T 3) (Times (Copy (IT 14)) (-1) 1);
  (*5811*) Del (IT 14);
  (*5812*) AddTo (T 3) (Times (Copy (IT 183)) (-1) 2);
  (*5813*) Del (IT 183);
  (*5814*) AddTo (T 3) (Times (Copy (IT 205)) (-1) 2);
  (*5815*) Del (IT 205);
  (*5816*) AddTo (T 3) (Times (Copy (IT 208)) (-1) 2);
  (*5817*) Del (IT 208);
  (*5818*) AddTo (T 3) (Times (Copy (IT 221)) (-1) 2);
  (*5819*) Del (IT 221);
  (*5820*) AddTo (T 3) (Times (Copy (IT 45)) (-1) 2);
  (*5821*) Del (IT 45);
  (*5822*) AddTo (T 3) (Times (Copy (IT 48)) (-1) 2);
  (*5823*) Del (IT 48);
  (*5824*) AddTo (T 3) (Times (Copy (IT 8)) (-1) 2);
  (*5825*) Del (IT 8);
  (*5826*) AddTo (T 3) (Times (Copy (IT 90)) (-1) 2);
  (*5827*) Del (IT 90);
  (*5828*) Assign (T 7) (Plain (Transpose (IT 242) [1;2;0;3]));
  (*5829*) Del (IT 242);
  (*5830*) AddTo (T 7) (Plain (Transpose (IT 248) [0;2;1;3]));
  (*5831*) Del (IT 248);
  (*5832*) AddTo (T 7) (Plain (Transpose (IT 256) [0;2;1;3]));
  (*5833*) Del (IT 256);
  (*5834*) AddTo (T 7) (Times (Copy (IT 269)) (2) 1);
  (*5835*) Del (IT 269);
  (*5836*) AddTo (T 7) (Plain (Copy (IT 274)));
  (*5837*) Del (IT 274);
  (*5838*) AddTo (T 7) (Plain (Copy (IT 301)));
  (*5839*) Del (IT 301);
  (*5840*) AddTo (T 7) (Plain (Copy (IT 305)));
  (*5841*) Del (IT 305);
  (*5842*) AddTo (T 7) (Times (Copy (IT 315)) (2) 1);
  (*5843*) Del (IT 315);
  (*5844*) AddTo (T 7) (Plain (Copy (IT 328)));
  (*5845*) Del (IT 328);
  (*5846*) AddTo (T 7) (Plain (Copy (IT 336)));
  (*5847*) Del (IT 336);
  (*5848*) AddTo (T 7) (Plain (Copy (IT 353)));
  (*5849*) Del (IT 353);
  (*5850*) AddTo (T 7) (Times (Copy (IT 138)) (-1) 1);
  (*5851*) Del (IT 138);
  (*5852*) AddTo (T 7) (Times (Copy (IT 266)) (-2) 1);
  (*5853*) Del (IT 266);
  (*5854*) AddTo (T 7) (Times (Copy (IT 281)) (-1) 1);
  (*5855*) Del (IT 281);
  (*5856*) AddTo (T 7) (Times (Copy (IT 297)) (-1) 1);
  (*5857*) Del (IT 297);
  (*5858*) AddTo (T 7) (Times (Copy (IT 312)) (-2) 1);
  (*5859*) Del (IT 312);
  (*5860*) AddTo (T 7) (Times (Copy (IT 319)) (-1) 1);
  (*5861*) Del (IT 319);
  (*5862*) AddTo (T 7) (Times (Transpose (IT 338) [0;2;1;3]) (-1) 1);
  (*5863*) Del (IT 338);
  (*5864*) AddTo (T 7) (Times (Copy (IT 345)) (-1) 1);
  (*5865*) Del (IT 345);
  (*5866*) AddTo (T 7) (Times (Transpose (IT 65) [1;2;0;3]) (-1) 1);
  (*5867*) Del (IT 65);
  (*5868*) Assign (T 4) (Plain (Copy (IT 101)));
  (*5869*) Del (IT 101);
  (*5870*) AddTo (T 4) (Times (Copy (IT 109)) (1) 2);
  (*5871*) Del (IT 109);
  (*5872*) AddTo (T 4) (Plain (Copy (IT 136)));
  (*5873*) Del (IT 136);
  (*5874*) AddTo (T 4) (Times (Copy (IT 141)) (1) 2);
  (*5875*) Del (IT 141);
  (*5876*) AddTo (T 4) (Plain (Copy (IT 157)));
  (*5877*) Del (IT 157);
  (*5878*) AddTo (T 4) (Times (Copy (IT 165)) (1) 2);
  (*5879*) Del (IT 165);
  (*5880*) AddTo (T 4) (Times (Copy (IT 180)) (1) 2);
  (*5881*) Del (IT 180);
  (*5882*) AddTo (T 4) (Times (Copy (IT 186)) (1) 2);
  (*5883*) Del (IT 186);
  (*5884*) AddTo (T 4) (Times (Copy (IT 20)) (1) 2);
  (*5885*) Del (IT 20);
  (*5886*) AddTo (T 4) (Times (Copy (IT 202)) (1) 2);
  (*5887*) Del (IT 202);
  (*5888*) AddTo (T 4) (Times (Copy (IT 218)) (1) 2);
  (*5889*) Del (IT 218);
  (*5890*) AddTo (T 4) (Times (Copy (IT 224)) (1) 2);
  (*5891*) Del (IT 224);
  (*5892*) AddTo (T 4) (Times (Copy (IT 3)) (1) 2);
  (*5893*) Del (IT 3);
  (*5894*) AddTo (T 4) (Times (Copy (IT 43)) (1) 2);
  (*5895*) Del (IT 43);
  (*5896*) AddTo (T 4) (Plain (Copy (IT 63)));
  (*5897*) Del (IT 63);
  (*5898*) AddTo (T 4) (Times (Copy (IT 71)) (1) 2);
  (*5899*) Del (IT 71);
  (*5900*) AddTo (T 4) (Plain (Copy (IT 86)));
  (*5901*) Del (IT 86);
  (*5902*) AddTo (T 4) (Times (Copy n_f'aa'ov) (-1) 2);
  (*5903*) AddTo (T 4) (Times (Copy (IT 104)) (-1) 1);
  (*5904*) Del (IT 104);
  (*5905*) AddTo (T 4) (Times (Copy (IT 113)) (-1) 2);
  (*5906*) Del (IT 113);
  (*5907*) AddTo (T 4) (Times (Copy (IT 117)) (-1) 1);
  (*5908*) Del (IT 117);
  (*5909*) AddTo (T 4) (Times (Copy (IT 120)) (-1) 2);
  (*5910*) Del (IT 120);
  (*5911*) AddTo (T 4) (Times (Copy (IT 12)) (-1) 2);
  (*5912*) Del (IT 12);
  (*5913*) AddTo (T 4) (Times (Copy (IT 178)) (-1) 2);
  (*5914*) Del (IT 178);
  (*5915*) AddTo (T 4) (Times (Copy (IT 200)) (-1) 2);
  (*5916*) Del (IT 200);
  (*5917*) AddTo (T 4) (Times (Copy (IT 210)) (-1) 2);
  (*5918*) Del (IT 210);
  (*5919*) AddTo (T 4) (Times (Copy (IT 216)) (-1) 2);
  (*5920*) Del (IT 216);
  (*5921*) AddTo (T 4) (Times (Copy (IT 40)) (-1) 2);
  (*5922*) Del (IT 40);
  (*5923*) AddTo (T 4) (Times (Copy (IT 49)) (-1) 2);
  (*5924*) Del (IT 49);
  (*5925*) AddTo (T 4) (Times (Copy (IT 6)) (-1) 2);
  (*5926*) Del (IT 6);
  (*5927*) AddTo (T 4) (Times (Copy (IT 9)) (-1) 1);
  (*5928*) Del (IT 9);
  (*5929*) AddTo (T 4) (Times (Copy (IT 92)) (-1) 2);
  (*5930*) Del (IT 92);
  (*5931*) Assign (T 1) (Plain (Copy (IT 130)));
  (*5932*) Del (IT 130);
  (*5933*) AddTo (T 1) (Plain (Copy (IT 134)));
  (*5934*) Del (IT 134);
  (*5935*) AddTo (T 1) (Plain (Copy (IT 148)));
  (*5936*) Del (IT 148);
  (*5937*) AddTo (T 1) (Times (Copy (IT 154)) (2) 1);
  (*5938*) Del (IT 154);
  (*5939*) AddTo (T 1) (Plain (Transpose (IT 18) [1;0;2;3]));
  (*5940*) Del (IT 18);
  (*5941*) AddTo (T 1) (Plain (Copy (IT 214)));
  (*5942*) Del (IT 214);
  (*5943*) AddTo (T 1) (Plain (Transpose (IT 26) [1;0;2;3]));
  (*5944*) Del (IT 26);
  (*5945*) AddTo (T 1) (Plain (Copy (IT 55)));
  (*5946*) Del (IT 55);
  (*5947*) AddTo (T 1) (Plain (Transpose (IT 56) [1;0;2;3]));
  (*5948*) Del (IT 56);
  (*5949*) AddTo (T 1) (Plain (Copy (IT 79)));
  (*5950*) Del (IT 79);
  (*5951*) AddTo (T 1) (Times (Copy (IT 84)) (2) 1);
  (*5952*) Del (IT 84);
  (*5953*) AddTo (T 1) (Plain (Copy (IT 98)));
  (*5954*) Del (IT 98);
  (*5955*) AddTo (T 1) (Times (Copy (IT 126)) (-1) 1);
  (*5956*) Del (IT 126);
  (*5957*) AddTo (T 1) (Times (Copy (IT 151)) (-1) 1);
  (*5958*) Del (IT 151);
  (*5959*) AddTo (T 1) (Times (Copy (IT 156)) (-1) 1);
  (*5960*) Del (IT 156);
  (*5961*) AddTo (T 1) (Times (Copy (IT 173)) (-1) 1);
  (*5962*) Del (IT 173);
  (*5963*) AddTo (T 1) (Times (Copy (IT 196)) (-1) 1);
  (*5964*) Del (IT 196);
  (*5965*) AddTo (T 1) (Times (Transpose (IT 198) [1;0;2;3]) (-1) 1);
  (*5966*) Del (IT 198);
  (*5967*) AddTo (T 1) (Times (Copy (IT 232)) (-1) 1);
  (*5968*) Del (IT 232);
  (*5969*) AddTo (T 1) (Times (Copy (IT 38)) (-1) 1);
  (*5970*) Del (IT 38);
  (*5971*) AddTo (T 1) (Times (Copy (IT 75)) (-1) 1);
  (*5972*) Del (IT 75);
  (*5973*) AddTo (T 1) (Times (Copy (IT 80)) (-1) 1);
  (*5974*) Del (IT 80);
  (*5975*) Assign (T 2) (Plain (Copy (IT 128)));
  (*5976*) Del (IT 128);
  (*5977*) AddTo (T 2) (Plain (Copy (IT 132)));
  (*5978*) Del (IT 132);
  (*5979*) AddTo (T 2) (Times (Copy (IT 149)) (2) 1);
  (*5980*) Del (IT 149);
  (*5981*) AddTo (T 2) (Plain (Transpose (IT 16) [1;2;0;3]));
  (*5982*) Del (IT 16);
  (*5983*) AddTo (T 2) (Plain (Copy (IT 169)));
  (*5984*) Del (IT 169);
  (*5985*) AddTo (T 2) (Plain (Copy (IT 191)));
  (*5986*) Del (IT 191);
  (*5987*) AddTo (T 2) (Plain (Copy (IT 229)));
  (*5988*) Del (IT 229);
  (*5989*) AddTo (T 2) (Plain (Transpose (IT 35) [0;2;1;3]));
  (*5990*) Del (IT 35);
  (*5991*) AddTo (T 2) (Plain (Transpose (IT 53) [0;2;1;3]));
  (*5992*) Del (IT 53);
  (*5993*) AddTo (T 2) (Times (Copy (IT 76)) (2) 1);
  (*5994*) Del (IT 76);
  (*5995*) AddTo (T 2) (Plain (Copy (IT 81)));
  (*5996*) Del (IT 81);
  (*5997*) AddTo (T 2) (Times (Copy (IT 124)) (-1) 1);
  (*5998*) Del (IT 124);
  (*5999*) AddTo (T 2) (Times (Copy (IT 146)) (-2) 1);
  (*6000*) Del (IT 146);
  (*6001*) AddTo (T 2) (Times (Copy (IT 152)) (-1) 1);
  (*6002*) Del (IT 152);
  (*6003*) AddTo (T 2) (Times (Transpose (IT 193) [0;2;1;3]) (-1) 1);
  (*6004*) Del (IT 193);
  (*6005*) AddTo (T 2) (Times (Copy (IT 212)) (-1) 1);
  (*6006*) Del (IT 212);
  (*6007*) AddTo (T 2) (Times (Transpose (IT 24) [1;2;0;3]) (-1) 1);
  (*6008*) Del (IT 24);
  (*6009*) AddTo (T 2) (Times (Copy (IT 51)) (-1) 1);
  (*6010*) Del (IT 51);
  (*6011*) AddTo (T 2) (Times (Copy (IT 73)) (-2) 1);
  (*6012*) Del (IT 73);
  (*6013*) AddTo (T 2) (Times (Copy (IT 95)) (-1) 1);
  (*6014*) Del (IT 95);
  (*6015*) Assign n_r2new'bbb (Times (Copy (T 84)) (-1) 1);
  (*6016*) AddTo n_r2new'bbb (Plain (Transpose (T 84) [1;0;2]));
  (*6017*) Del (T 84);
  (*6018*) AddTo n_r2new'bbb (Plain (Copy (T 91)));
  (*6019*) AddTo n_r2new'bbb (Times (Transpose (T 91) [1;0;2]) (-1) 1);
  (*6020*) Del (T 91);
  (*6021*) AddTo n_r2new'bbb (Times (Einsum [(T 92,[0;1;2;3]); (n_r2'bbb,[2;3;4])] [0;1;4]) (2) 1);
  (*6022*) Del (T 92);
  (*6023*) AddTo n_r2new'bbb (Times (Einsum [(T 67,[0;1]); (n_r2'bbb,[2;3;0])] [2;3;1]) (-2) 1);
  (*6024*) AddTo n_r2new'bbb (Plain (Einsum [(n_r1'b,[0]); (T 65,[1;2])] [0;1;2]));
  (*6025*) AddTo n_r2new'bbb (Times (Einsum [(T 65,[0;1]); (n_r1'b,[2])] [0;2;1]) (-1) 1);
  (*6026*) Assign n_r2new'bab (Times (Einsum [(IT 470,[0;1;2;3]); (n_r2'aaa,[4;0;2])] [1;4;3]) (2) 1);
  (*6027*) Del (IT 470);
  (*6028*) AddTo n_r2new'bab (Times (Einsum [(n_r2'bab,[0;1;2]); (T 59,[0;3;2;4])] [3;1;4]) (-1) 1);
  (*6029*) Del (T 59);
  (*6030*) AddTo n_r2new'bab (Times (Einsum [(n_r2'bab,[0;1;2]); (T 60,[3;1;2;4])] [0;3;4]) (-1) 1);
  (*6031*) Del (T 60);
  (*6032*) AddTo n_r2new'bab (Plain (Einsum [(n_r2'bab,[0;1;2]); (T 61,[1;3;0;4])] [4;3;2]));
  (*6033*) Del (T 61);
  (*6034*) AddTo n_r2new'bab (Times (Einsum [(T 33,[0;1;2]); (T 62,[3;0;2;4])] [1;3;4]) (-1) 1);
  (*6035*) Del (T 62);
  (*6036*) AddTo n_r2new'bab (Times (Einsum [(T 63,[0;1;2;3]); (T 33,[4;0;1])] [2;4;3]) (-1) 1);
  (*6037*) Del (T 33);
  (*6037*) Del (T 63);
  (*6038*) AddTo n_r2new'bab (Times (Einsum [(n_v'bbb'xov,[0;1;2]); (T 64,[0;3])] [1;3;2]) (-1) 1);
  (*6039*) Del (T 64);
  (*6040*) AddTo n_r2new'bab (Times (Einsum [(n_r2'bab,[0;1;2]); (T 67,[2;3])] [0;1;3]) (-1) 1);
  (*6041*) Del (T 67);
  (*6042*) AddTo n_r2new'bab (Times (Einsum [(n_r2'bab,[0;1;2]); (T 5,[1;3])] [0;3;2]) (-1) 1);
  (*6043*) AddTo n_r2new'bab (Times (Einsum [(n_r2'bab,[0;1;2]); (T 68,[0;3])] [3;1;2]) (-1) 1);
  (*6044*) Del (T 68);
  (*6045*) AddTo n_r2new'bab (Plain (Einsum [(T 69,[0]); (IT 171,[1;2;0;3])] [2;1;3]));
  (*6046*) Del (T 69);
  (*6047*) AddTo n_r2new'bab (Plain (Einsum [(n_r1'a,[0]); (T 70,[1;0;2;3])] [2;1;3]));
  (*6048*) Del (T 70);
  (*6049*) AddTo n_r2new'bab (Times (Einsum [(T 65,[0;1]); (n_r1'a,[2])] [0;2;1]) (-1) 1);
  (*6050*) Del (T 65);
  (*6051*) Assign n_r2new'aba (Times (Einsum [(n_r2'bbb,[0;1;2]); (IT 378,[3;1;4;2])] [3;0;4]) (2) 1);
  (*6052*) Del (IT 378);
  (*6053*) AddTo n_r2new'aba (Times (Einsum [(n_r2'aba,[0;1;2]); (T 45,[0;3;2;4])] [3;1;4]) (-1) 1);
  (*6054*) Del (T 45);
  (*6055*) AddTo n_r2new'aba (Times (Einsum [(n_r2'aba,[0;1;2]); (T 46,[3;1;2;4])] [0;3;4]) (-1) 1);
  (*6056*) Del (T 46);
  (*6057*) AddTo n_r2new'aba (Plain (Einsum [(n_r2'aba,[0;1;2]); (T 47,[0;3;1;4])] [3;4;2]));
  (*6058*) Del (T 47);
  (*6059*) AddTo n_r2new'aba (Plain (Einsum [(T 48,[0;1;2]); (T 49,[0;3;1;4])] [3;2;4]));
  (*6060*) Del (T 49);
  (*6061*) AddTo n_r2new'aba (Plain (Einsum [(T 48,[0;1;2]); (T 50,[1;2;3;4])] [0;3;4]));
  (*6062*) Del (T 48);
  (*6063*) AddTo n_r2new'aba (Times (Einsum [(T 54,[0;1]); (n_v'baa'xov,[0;2;3])] [2;1;3]) (-1) 1);
  (*6064*) Del (T 54);
  (*6065*) AddTo n_r2new'aba (Times (Einsum [(n_r2'aba,[0;1;2]); (T 44,[2;3])] [0;1;3]) (-1) 1);
  (*6066*) AddTo n_r2new'aba (Times (Einsum [(n_r2'aba,[0;1;2]); (T 55,[0;3])] [3;1;2]) (-1) 1);
  (*6067*) Del (T 55);
  (*6068*) AddTo n_r2new'aba (Times (Einsum [(n_r2'aba,[0;1;2]); (T 8,[1;3])] [0;3;2]) (-1) 1);
  (*6069*) AddTo n_r2new'aba (Plain (Einsum [(IT 171,[0;1;2;3]); (T 58,[3])] [0;1;2]));
  (*6070*) Del (IT 171);
  (*6070*) Del (T 58);
  (*6071*) AddTo n_r2new'aba (Plain (Einsum [(n_r1'b,[0]); (T 50,[1;0;2;3])] [1;2;3]));
  (*6072*) Del (T 50);
  (*6073*) AddTo n_r2new'aba (Times (Einsum [(n_r1'b,[0]); (T 42,[1;2])] [1;0;2]) (-1) 1);
  (*6074*) Assign n_r2new'aaa (Plain (Copy (T 23)));
  (*6075*) AddTo n_r2new'aaa (Times (Transpose (T 23) [1;0;2]) (-1) 1);
  (*6076*) Del (T 23);
  (*6077*) AddTo n_r2new'aaa (Times (Copy (T 40)) (-1) 1);
  (*6078*) AddTo n_r2new'aaa (Plain (Transpose (T 40) [1;0;2]));
  (*6079*) Del (T 40);
  (*6080*) AddTo n_r2new'aaa (Times (Einsum [(T 41,[0;1;2;3]); (n_r2'aaa,[0;1;4])] [2;3;4]) (2) 1);
  (*6081*) Del (T 41);
  (*6082*) AddTo n_r2new'aaa (Times (Einsum [(T 44,[0;1]); (n_r2'aaa,[2;3;0])] [2;3;1]) (-2) 1);
  (*6083*) Del (T 44);
  (*6084*) AddTo n_r2new'aaa (Plain (Einsum [(n_r1'a,[0]); (T 42,[1;2])] [0;1;2]));
  (*6085*) AddTo n_r2new'aaa (Times (Einsum [(n_r1'a,[0]); (T 42,[1;2])] [1;0;2]) (-1) 1);
  (*6086*) Del (T 42);
  (*6087*) Assign n_r1new'b (Plain (Einsum [(n_r2'aba,[0;1;2]); (T 6,[0;1;3;2])] [3]));
  (*6088*) Del (T 6);
  (*6089*) AddTo n_r1new'b (Times (Einsum [(n_r2'bbb,[0;1;2]); (T 7,[0;1;3;2])] [3]) (2) 1);
  (*6090*) Del (T 7);
  (*6091*) AddTo n_r1new'b (Times (Einsum [(T 3,[0;1]); (n_r2'bbb,[2;0;1])] [2]) (-4) 1);
  (*6092*) AddTo n_r1new'b (Times (Einsum [(n_r2'aba,[0;1;2]); (T 4,[0;2])] [1]) (2) 1);
  (*6093*) AddTo n_r1new'b (Times (Einsum [(n_r1'b,[0]); (T 8,[0;1])] [1]) (-1) 1);
  (*6094*) Del (T 8);
  (*6095*) Assign n_r1new'a (Plain (Einsum [(n_r2'bab,[0;1;2]); (T 1,[1;3;0;2])] [3]));
  (*6096*) Del (T 1);
  (*6097*) AddTo n_r1new'a (Times (Einsum [(T 2,[0;1;2;3]); (n_r2'aaa,[1;0;3])] [2]) (-2) 1);
  (*6098*) Del (T 2);
  (*6099*) AddTo n_r1new'a (Times (Einsum [(n_r2'bab,[0;1;2]); (T 3,[0;2])] [1]) (2) 1);
  (*6100*) Del (T 3);
  (*6101*) AddTo n_r1new'a (Times (Einsum [(n_r2'aaa,[0;1;2]); (T 4,[1;2])] [0]) (-4) 1);
  (*6102*) Del (T 4);
  (*6103*) AddTo n_r1new'a (Times (Einsum [(n_r1'a,[0]); (T 5,[0;1])] [1]) (-1) 1);
  (*6104*) Del (T 5)]
 [(n_r1new'b,[6]); (n_r1new'a,[4]); (n_r2new'bbb,[6;6;7]); (n_r2new'bab,[6;4;7]); (n_r2new'aba,[4;6;5]); (n_r2new'aaa,[4;4;5])].

(** ebcc/codegen/UDFCCSD.py:6108-6472 [hbar_lmatvec_ea_intermediates] *)
Definition UDFCCSD_hbar_lmatvec_ea_intermediates : prog := mkprog
 [(n_v'baa'xov,[2;4;5]); (n_t1'aa,[4;5]); (n_v'bbb'xov,[2;6;7]); (n_t1'bb,[6;7]); (n_t2'abab,[4;6;5;7]); (n_t2'bbbb,[6;6;7;7]); (n_t2'aaaa,[4;4;5;5]); (n_v'baa'xvv,[2;5;5]); (n_v'bbb'xvv,[2;7;7]); (n_v'baa'xoo,[2;4;4]); (n_v'bbb'xoo,[2;6;6]); (n_f'bb'ov,[6;7]); (n_f'aa'ov,[4;5]); (n_f'bb'vv,[7;7]); (n_f'aa'vv,[5;5]); (n_f'bb'oo,[6;6]); (n_f'aa'oo,[4;4])]
 [(*6297*) Assign (T 29) (Plain (Einsum [(n_v'baa'xov,[0;1;2]); (n_t1'aa,[1;2])] [0]));
  (*6298*) Assign (T 33) (Plain (Einsum [(n_v'bbb'xov,[0;1;2]); (n_t1'bb,[1;2])] [0]));
  (*6299*) Assign (T 110) (Plain (Einsum [(n_v'bbb'xov,[0;1;2]); (n_t1'bb,[3;2])] [0;3;1]));
  (*6300*) Assign (T 102) (Plain (Einsum [(n_v'baa'xov,[0;1;2]); (n_t1'aa,[3;2])] [0;3;1]));
  (*6301*) Assign (T 42) (Plain (Einsum [(T 29,[0]); (n_v'bbb'xov,[0;1;2])] [1;2]));
  (*6302*) Assign (T 43) (Plain (Einsum [(T 33,[0]); (n_v'baa'xov,[0;1;2])] [1;2]));
  (*6303*) Assign (T 39) (Plain (Einsum [(T 33,[0]); (n_v'bbb'xov,[0;1;2])] [1;2]));
  (*6304*) Assign (T 111) (Plain (Einsum [(n_v'bbb'xov,[0;1;2]); (T 110,[0;1;3])] [3;2]));
  (*6305*) Assign (T 35) (Plain (Einsum [(T 29,[0]); (n_v'baa'xov,[0;1;2])] [1;2]));
  (*6306*) Assign (T 103) (Plain (Einsum [(T 102,[0;1;2]); (n_v'baa'xov,[0;1;3])] [2;3]));
  (*6307*) Assign (T 61) (Plain (Einsum [(n_t2'abab,[0;1;2;3]); (n_v'bbb'xov,[4;1;3])] [4;0;2]));
  (*6308*) Assign (T 85) (Plain (Einsum [(n_t2'abab,[0;1;2;3]); (n_v'baa'xov,[4;0;2])] [4;1;3]));
  (*6309*) Assign (T 82) (Plain (Einsum [(n_v'bbb'xov,[0;1;2]); (n_t2'bbbb,[3;1;4;2])] [0;3;4]));
  (*6310*) Assign (T 58) (Plain (Einsum [(n_v'baa'xov,[0;1;2]); (n_t2'aaaa,[3;1;4;2])] [0;3;4]));
  (*6311*) Assign (T 31) (Plain (Einsum [(n_t1'aa,[0;1]); (n_v'baa'xvv,[2;3;1])] [2;0;3]));
  (*6312*) Assign (T 40) (Plain (Einsum [(n_v'bbb'xvv,[0;1;2]); (n_t1'bb,[3;2])] [0;3;1]));
  (*6313*) Assign (T 50) (Plain (Einsum [(n_v'bbb'xov,[0;1;2]); (n_v'baa'xov,[0;3;4])] [3;1;4;2]));
  (*6314*) Assign (T 244) (Plain (Einsum [(n_v'bbb'xov,[0;1;2]); (n_v'bbb'xov,[0;3;4])] [1;3;2;4]));
  (*6315*) Assign (T 139) (Plain (Einsum [(T 102,[0;1;2]); (n_v'bbb'xov,[0;3;4])] [1;2;3;4]));
  (*6316*) Assign (T 136) (Plain (Einsum [(T 110,[0;1;2]); (n_v'bbb'xov,[0;3;4])] [1;3;2;4]));
  (*6317*) Assign (T 27) (Plain (Einsum [(n_v'baa'xvv,[0;1;2]); (n_v'bbb'xov,[0;3;4])] [3;1;2;4]));
  (*6318*) Assign (T 237) (Plain (Einsum [(n_v'bbb'xov,[0;1;2]); (n_v'bbb'xvv,[0;3;4])] [1;3;4;2]));
  (*6319*) Assign (T 73) (Plain (Einsum [(n_v'bbb'xov,[0;1;2]); (n_v'baa'xoo,[0;3;4])] [3;4;1;2]));
  (*6320*) Assign (T 67) (Plain (Einsum [(n_v'bbb'xoo,[0;1;2]); (n_v'bbb'xov,[0;3;4])] [1;2;3;4]));
  (*6321*) Assign (T 221) (Plain (Einsum [(T 42,[0;1]); (n_t1'bb,[2;1])] [2;0]));
  (*6322*) Assign (T 218) (Plain (Einsum [(T 43,[0;1]); (n_t1'aa,[2;1])] [2;0]));
  (*6323*) Assign (T 216) (Plain (Einsum [(T 39,[0;1]); (n_t1'bb,[2;1])] [2;0]));
  (*6324*) Assign (T 214) (Plain (Einsum [(T 111,[0;1]); (n_t1'bb,[2;1])] [2;0]));
  (*6325*) Assign (T 211) (Plain (Einsum [(T 35,[0;1]); (n_t1'aa,[2;1])] [2;0]));
  (*6326*) Assign (T 208) (Plain (Einsum [(T 103,[0;1]); (n_t1'aa,[2;1])] [2;0]));
  (*6327*) Assign (T 34) (Plain (Einsum [(T 33,[0]); (n_v'baa'xvv,[0;1;2])] [1;2]));
  (*6328*) Assign (T 198) (Plain (Einsum [(T 29,[0]); (n_v'bbb'xvv,[0;1;2])] [1;2]));
  (*6329*) Assign (T 195) (Plain (Einsum [(T 33,[0]); (n_v'bbb'xvv,[0;1;2])] [1;2]));
  (*6330*) Assign (T 30) (Plain (Einsum [(T 29,[0]); (n_v'baa'xvv,[0;1;2])] [1;2]));
  (*6331*) Assign (T 185) (Plain (Einsum [(T 29,[0]); (n_v'bbb'xoo,[0;1;2])] [1;2]));
  (*6332*) Assign (T 182) (Plain (Einsum [(T 33,[0]); (n_v'baa'xoo,[0;1;2])] [1;2]));
  (*6333*) Assign (T 180) (Plain (Einsum [(T 33,[0]); (n_v'bbb'xoo,[0;1;2])] [1;2]));
  (*6334*) Del (T 33);
  (*6335*) Assign (T 178) (Plain (Einsum [(n_v'bbb'xoo,[0;1;2]); (T 110,[0;2;3])] [1;3]));
  (*6336*) Assign (T 175) (Plain (Einsum [(T 29,[0]); (n_v'baa'xoo,[0;1;2])] [1;2]));
  (*6337*) Del (T 29);
  (*6338*) Assign (T 172) (Plain (Einsum [(n_v'baa'xoo,[0;1;2]); (T 102,[0;2;3])] [1;3]));
  (*6339*) Assign (T 45) (Plain (Einsum [(n_v'baa'xov,[0;1;2]); (n_v'baa'xov,[0;3;4])] [3;1;4;2]));
  (*6340*) Assign (T 158) (Plain (Einsum [(T 61,[0;1;2]); (n_v'baa'xov,[0;3;2])] [1;3]));
  (*6341*) Assign (T 155) (Plain (Einsum [(n_v'bbb'xov,[0;1;2]); (T 85,[0;3;2])] [3;1]));
  (*6342*) Assign (T 152) (Plain (Einsum [(T 82,[0;1;2]); (n_v'bbb'xov,[0;3;2])] [1;3]));
  (*6343*) Assign (T 149) (Plain (Einsum [(n_v'baa'xov,[0;1;2]); (T 58,[0;3;2])] [3;1]));
  (*6344*) Assign (T 142) (Plain (Einsum [(T 110,[0;1;2]); (n_v'baa'xov,[0;3;4])] [3;1;2;4]));
  (*6345*) Assign (T 133) (Plain (Einsum [(n_v'baa'xov,[0;1;2]); (T 102,[0;3;4])] [3;1;4;2]));
  (*6346*) Assign (T 100) (Plain (Einsum [(n_v'bbb'xvv,[0;1;2]); (n_v'baa'xov,[0;3;4])] [3;4;1;2]));
  (*6347*) Assign (T 25) (Plain (Einsum [(n_v'baa'xvv,[0;1;2]); (n_v'baa'xov,[0;3;4])] [3;1;2;4]));
  (*6348*) Assign (T 70) (Plain (Einsum [(n_v'bbb'xoo,[0;1;2]); (n_v'baa'xov,[0;3;4])] [3;1;2;4]));
  (*6349*) Assign (T 64) (Plain (Einsum [(n_v'baa'xoo,[0;1;2]); (n_v'baa'xov,[0;3;4])] [1;2;3;4]));
  (*6350*) Assign (T 23) (Plain (Einsum [(n_f'bb'ov,[0;1]); (n_t1'bb,[2;1])] [0;2]));
  (*6351*) Assign (T 20) (Plain (Einsum [(n_t1'aa,[0;1]); (n_f'aa'ov,[2;1])] [2;0]));
  (*6352*) Assign (T 491) (Plain (Einsum [(n_v'bbb'xvv,[0;1;2]); (n_v'bbb'xvv,[0;3;4])] [3;1;2;4]));
  (*6353*) Assign (T 427) (Plain (Einsum [(n_v'baa'xvv,[0;1;2]); (n_v'bbb'xvv,[0;3;4])] [1;2;3;4]));
  (*6354*) Assign (T 388) (Plain (Einsum [(n_v'baa'xvv,[0;1;2]); (n_v'baa'xvv,[0;3;4])] [3;1;2;4]));
  (*6355*) Assign (T 336) (Plain (Einsum [(n_v'bbb'xov,[0;1;2]); (T 31,[0;3;4])] [3;1;4;2]));
  (*6356*) Assign (T 335) (Plain (Einsum [(T 102,[0;1;2]); (n_v'bbb'xvv,[0;3;4])] [1;2;3;4]));
  (*6357*) Assign (T 333) (Plain (Einsum [(n_v'bbb'xov,[0;1;2]); (T 40,[0;3;4])] [3;1;2;4]));
  (*6358*) Assign (T 331) (Plain (Einsum [(T 110,[0;1;2]); (n_v'bbb'xvv,[0;3;4])] [1;2;3;4]));
  (*6359*) Assign (T 320) (Plain (Einsum [(n_t2'abab,[0;1;2;3]); (T 50,[4;1;2;5])] [0;4;3;5]));
  (*6360*) Assign (T 318) (Plain (Einsum [(n_v'bbb'xov,[0;1;2]); (T 85,[0;3;4])] [3;1;4;2]));
  (*6361*) Assign (T 316) (Plain (Einsum [(n_v'bbb'xov,[0;1;2]); (T 58,[0;3;4])] [3;1;4;2]));
  (*6362*) Assign (T 314) (Plain (Einsum [(n_t2'bbbb,[0;1;2;3]); (T 244,[1;4;5;3])] [0;4;2;5]));
  (*6363*) Assign (T 313) (Plain (Einsum [(n_t2'abab,[0;1;2;3]); (T 244,[1;4;5;3])] [0;4;2;5]));
  (*6364*) Assign (T 311) (Plain (Einsum [(T 82,[0;1;2]); (n_v'bbb'xov,[0;3;4])] [1;3;2;4]));
  (*6365*) Assign (T 310) (Plain (Einsum [(T 61,[0;1;2]); (n_v'bbb'xov,[0;3;4])] [1;3;2;4]));
  (*6366*) Assign (T 304) (Plain (Einsum [(T 139,[0;1;2;3]); (n_t2'abab,[1;2;4;5])] [0;4;5;3]));
  (*6367*) Assign (T 302) (Plain (Einsum [(n_t2'bbbb,[0;1;2;3]); (T 136,[4;0;1;5])] [4;2;3;5]));
  (*6368*) Assign (T 282) (Plain (Einsum [(n_t2'abab,[0;1;2;3]); (T 27,[1;4;2;5])] [0;4;3;5]));
  (*6369*) Assign (T 280) (Plain (Einsum [(n_v'bbb'xvv,[0;1;2]); (T 85,[0;3;4])] [3;4;1;2]));
  (*6370*) Assign (T 278) (Plain (Einsum [(n_v'bbb'xvv,[0;1;2]); (T 58,[0;3;4])] [3;4;1;2]));
  (*6371*) Assign (T 276) (Plain (Einsum [(T 237,[0;1;2;3]); (n_t2'bbbb,[4;0;5;1])] [4;5;3;2]));
  (*6372*) Assign (T 275) (Plain (Einsum [(n_t2'abab,[0;1;2;3]); (T 237,[1;4;3;5])] [0;2;5;4]));
  (*6373*) Assign (T 273) (Plain (Einsum [(T 82,[0;1;2]); (n_v'bbb'xvv,[0;3;4])] [1;2;3;4]));
  (*6374*) Assign (T 272) (Plain (Einsum [(T 61,[0;1;2]); (n_v'bbb'xvv,[0;3;4])] [1;2;3;4]));
  (*6375*) Assign (T 266) (Plain (Einsum [(n_t2'abab,[0;1;2;3]); (T 73,[4;0;1;5])] [4;2;3;5]));
  (*6376*) Assign (T 264) (Plain (Einsum [(n_t2'bbbb,[0;1;2;3]); (T 67,[0;4;1;5])] [4;2;3;5]));
  (*6377*) Assign (T 258) (Plain (Einsum [(n_v'bbb'xov,[0;1;2]); (T 85,[0;1;3])] [3;2]));
  (*6378*) Assign (T 256) (Plain (Einsum [(T 82,[0;1;2]); (n_v'bbb'xov,[0;1;3])] [2;3]));
  (*6379*) Assign (T 254) (Plain (Einsum [(T 31,[0;1;2]); (n_v'bbb'xvv,[0;3;4])] [1;2;3;4]));
  (*6380*) Assign (T 252) (Plain (Einsum [(T 40,[0;1;2]); (n_v'bbb'xvv,[0;3;4])] [1;3;4;2]));
  (*6381*) Assign (T 251) (Plain (Einsum [(n_v'baa'xoo,[0;1;2]); (n_v'bbb'xvv,[0;3;4])] [1;2;3;4]));
  (*6382*) Assign (T 247) (Plain (Einsum [(n_v'bbb'xoo,[0;1;2]); (n_v'bbb'xvv,[0;3;4])] [1;2;3;4]));
  (*6383*) Assign (T 240) (Plain (Einsum [(T 40,[0;1;2]); (n_v'bbb'xov,[0;1;3])] [3;2]));
  (*6384*) Assign (T 222) (Plain (Einsum [(n_t1'bb,[0;1]); (T 221,[2;0])] [2;1]));
  (*6385*) Assign (T 219) (Plain (Einsum [(n_t1'aa,[0;1]); (T 218,[2;0])] [2;1]));
  (*6386*) Assign (T 217) (Plain (Einsum [(T 216,[0;1]); (n_t1'bb,[1;2])] [0;2]));
  (*6387*) Assign (T 215) (Plain (Einsum [(T 214,[0;1]); (n_t1'bb,[1;2])] [0;2]));
  (*6388*) Assign (T 212) (Plain (Einsum [(n_t1'aa,[0;1]); (T 211,[2;0])] [2;1]));
  (*6389*) Assign (T 209) (Plain (Einsum [(n_t1'aa,[0;1]); (T 208,[2;0])] [2;1]));
  (*6390*) Assign (T 207) (Plain (Einsum [(T 40,[0;1;2]); (n_v'baa'xov,[0;3;4])] [3;1;4;2]));
  (*6391*) Assign (T 206) (Plain (Einsum [(n_v'baa'xvv,[0;1;2]); (T 110,[0;3;4])] [3;4;1;2]));
  (*6392*) Assign (T 204) (Plain (Einsum [(T 31,[0;1;2]); (n_v'baa'xov,[0;3;4])] [1;3;4;2]));
  (*6393*) Assign (T 202) (Plain (Einsum [(T 102,[0;1;2]); (n_v'baa'xvv,[0;3;4])] [1;2;3;4]));
  (*6394*) Assign (T 200) (Plain (Einsum [(n_t1'aa,[0;1]); (T 34,[2;1])] [0;2]));
  (*6395*) Assign (T 199) (Plain (Einsum [(T 198,[0;1]); (n_t1'bb,[2;1])] [2;0]));
  (*6396*) Assign (T 197) (Plain (Einsum [(T 40,[0;1;2]); (T 110,[0;3;1])] [3;2]));
  (*6397*) Assign (T 196) (Plain (Einsum [(T 195,[0;1]); (n_t1'bb,[2;1])] [2;0]));
  (*6398*) Assign (T 193) (Plain (Einsum [(T 102,[0;1;2]); (T 31,[0;2;3])] [1;3]));
  (*6399*) Assign (T 191) (Plain (Einsum [(n_t1'aa,[0;1]); (T 30,[2;1])] [0;2]));
  (*6400*) Assign (T 186) (Plain (Einsum [(T 185,[0;1]); (n_t1'bb,[1;2])] [0;2]));
  (*6401*) Assign (T 183) (Plain (Einsum [(n_t1'aa,[0;1]); (T 182,[2;0])] [2;1]));
  (*6402*) Assign (T 181) (Plain (Einsum [(n_t1'bb,[0;1]); (T 180,[2;0])] [2;1]));
  (*6403*) Assign (T 179) (Plain (Einsum [(T 178,[0;1]); (n_t1'bb,[1;2])] [0;2]));
  (*6404*) Assign (T 176) (Plain (Einsum [(n_t1'aa,[0;1]); (T 175,[2;0])] [2;1]));
  (*6405*) Assign (T 173) (Plain (Einsum [(n_t1'aa,[0;1]); (T 172,[2;0])] [2;1]));
  (*6406*) Assign (T 171) (Plain (Einsum [(n_t2'abab,[0;1;2;3]); (T 50,[0;4;5;3])] [1;4;2;5]));
  (*6407*) Assign (T 169) (Plain (Einsum [(T 82,[0;1;2]); (n_v'baa'xov,[0;3;4])] [3;1;4;2]));
  (*6408*) Assign (T 167) (Plain (Einsum [(n_v'baa'xov,[0;1;2]); (T 61,[0;3;4])] [3;1;4;2]));
  (*6409*) Assign (T 166) (Plain (Einsum [(T 45,[0;1;2;3]); (n_t2'abab,[0;4;3;5])] [1;4;2;5]));
  (*6410*) Assign (T 164) (Plain (Einsum [(T 45,[0;1;2;3]); (n_t2'aaaa,[4;0;5;3])] [4;1;5;2]));
  (*6411*) Assign (T 163) (Plain (Einsum [(T 85,[0;1;2]); (n_v'baa'xov,[0;3;4])] [3;1;4;2]));
  (*6412*) Assign (T 161) (Plain (Einsum [(n_v'baa'xov,[0;1;2]); (T 58,[0;3;4])] [3;1;4;2]));
  (*6413*) Assign (T 159) (Plain (Einsum [(n_t1'aa,[0;1]); (T 158,[2;0])] [2;1]));
  (*6414*) Assign (T 156) (Plain (Einsum [(T 155,[0;1]); (n_t1'bb,[1;2])] [0;2]));
  (*6415*) Assign (T 153) (Plain (Einsum [(T 152,[0;1]); (n_t1'bb,[1;2])] [0;2]));
  (*6416*) Assign (T 150) (Plain (Einsum [(n_t1'aa,[0;1]); (T 149,[2;0])] [2;1]));
  (*6417*) Assign (T 147) (Plain (Einsum [(n_t2'abab,[0;1;2;3]); (T 142,[0;4;1;5])] [4;2;5;3]));
  (*6418*) Assign (T 145) (Plain (Einsum [(n_t2'aaaa,[0;1;2;3]); (T 133,[4;0;1;5])] [4;2;3;5]));
  (*6419*) Assign (T 143) (Plain (Einsum [(n_t2'abab,[0;1;2;3]); (T 142,[0;4;1;2])] [4;3]));
  (*6420*) Assign (T 140) (Plain (Einsum [(n_t2'abab,[0;1;2;3]); (T 139,[4;0;1;3])] [4;2]));
  (*6421*) Assign (T 137) (Plain (Einsum [(T 136,[0;1;2;3]); (n_t2'bbbb,[2;1;4;3])] [0;4]));
  (*6422*) Assign (T 134) (Plain (Einsum [(n_t2'aaaa,[0;1;2;3]); (T 133,[4;1;0;3])] [4;2]));
  (*6423*) Assign (T 125) (Plain (Einsum [(T 42,[0;1]); (n_t2'bbbb,[2;0;3;1])] [2;3]));
  (*6424*) Assign (T 123) (Plain (Einsum [(n_t2'abab,[0;1;2;3]); (T 42,[1;3])] [0;2]));
  (*6425*) Assign (T 122) (Plain (Einsum [(n_t2'abab,[0;1;2;3]); (T 43,[0;2])] [1;3]));
  (*6426*) Assign (T 120) (Plain (Einsum [(T 43,[0;1]); (n_t2'aaaa,[2;0;3;1])] [2;3]));
  (*6427*) Assign (T 118) (Plain (Einsum [(T 39,[0;1]); (n_t2'bbbb,[2;0;3;1])] [2;3]));
  (*6428*) Assign (T 116) (Plain (Einsum [(T 39,[0;1]); (n_t2'abab,[2;0;3;1])] [2;3]));
  (*6429*) Assign (T 114) (Plain (Einsum [(T 111,[0;1]); (n_t2'bbbb,[2;0;3;1])] [2;3]));
  (*6430*) Assign (T 112) (Plain (Einsum [(n_t2'abab,[0;1;2;3]); (T 111,[1;3])] [0;2]));
  (*6431*) Assign (T 109) (Plain (Einsum [(n_t2'abab,[0;1;2;3]); (T 35,[0;2])] [1;3]));
  (*6432*) Assign (T 107) (Plain (Einsum [(T 35,[0;1]); (n_t2'aaaa,[2;0;3;1])] [2;3]));
  (*6433*) Assign (T 106) (Plain (Einsum [(n_t2'abab,[0;1;2;3]); (T 103,[0;2])] [1;3]));
  (*6434*) Assign (T 104) (Plain (Einsum [(T 103,[0;1]); (n_t2'aaaa,[2;0;3;1])] [2;3]));
  (*6435*) Assign (T 101) (Plain (Einsum [(n_t2'abab,[0;1;2;3]); (T 100,[0;4;3;5])] [1;2;4;5]));
  (*6436*) Assign (T 98) (Plain (Einsum [(T 82,[0;1;2]); (n_v'baa'xvv,[0;3;4])] [1;3;4;2]));
  (*6437*) Assign (T 96) (Plain (Einsum [(T 61,[0;1;2]); (n_v'baa'xvv,[0;3;4])] [1;2;3;4]));
  (*6438*) Assign (T 95) (Plain (Einsum [(n_t2'abab,[0;1;2;3]); (T 25,[0;4;2;5])] [1;5;4;3]));
  (*6439*) Assign (T 93) (Plain (Einsum [(n_t2'aaaa,[0;1;2;3]); (T 25,[1;3;4;5])] [0;2;5;4]));
  (*6440*) Assign (T 92) (Plain (Einsum [(n_v'baa'xvv,[0;1;2]); (T 85,[0;3;4])] [3;1;2;4]));
  (*6441*) Assign (T 90) (Plain (Einsum [(n_v'baa'xvv,[0;1;2]); (T 58,[0;3;4])] [3;4;1;2]));
  (*6442*) Assign (T 88) (Plain (Einsum [(n_v'baa'xvv,[0;1;2]); (T 61,[0;3;2])] [3;1]));
  (*6443*) Assign (T 86) (Plain (Einsum [(n_v'bbb'xvv,[0;1;2]); (T 85,[0;3;2])] [3;1]));
  (*6444*) Assign (T 83) (Times (Einsum [(T 82,[0;1;2]); (n_v'bbb'xvv,[0;3;2])] [1;3]) (-1) 1);
  (*6445*) Assign (T 80) (Times (Einsum [(n_v'baa'xvv,[0;1;2]); (T 58,[0;3;2])] [3;1]) (-1) 1);
  (*6446*) Assign (T 78) (Plain (Einsum [(n_t2'abab,[0;1;2;3]); (T 70,[0;1;4;5])] [4;2;5;3]));
  (*6447*) Assign (T 76) (Plain (Einsum [(n_t2'aaaa,[0;1;2;3]); (T 64,[4;0;1;5])] [4;2;3;5]));
  (*6448*) Assign (T 74) (Plain (Einsum [(n_t2'abab,[0;1;2;3]); (T 73,[4;0;1;3])] [4;2]));
  (*6449*) Assign (T 71) (Plain (Einsum [(n_t2'abab,[0;1;2;3]); (T 70,[0;1;4;2])] [4;3]));
  (*6450*) Assign (T 68) (Plain (Einsum [(T 67,[0;1;2;3]); (n_t2'bbbb,[0;2;4;3])] [1;4]));
  (*6451*) Assign (T 65) (Plain (Einsum [(T 64,[0;1;2;3]); (n_t2'aaaa,[1;2;4;3])] [0;4]));
  (*6452*) Assign (T 62) (Plain (Einsum [(T 61,[0;1;2]); (n_v'baa'xov,[0;1;3])] [2;3]));
  (*6453*) Assign (T 59) (Plain (Einsum [(n_v'baa'xov,[0;1;2]); (T 58,[0;1;3])] [3;2]));
  (*6454*) Assign (T 56) (Plain (Einsum [(T 40,[0;1;2]); (n_v'baa'xvv,[0;3;4])] [1;3;4;2]));
  (*6455*) Assign (T 54) (Plain (Einsum [(n_v'baa'xvv,[0;1;2]); (T 31,[0;3;4])] [3;1;2;4]));
  (*6456*) Assign (T 53) (Plain (Einsum [(n_v'baa'xvv,[0;1;2]); (n_v'bbb'xoo,[0;3;4])] [3;4;1;2]));
  (*6457*) Assign (T 48) (Plain (Einsum [(n_v'baa'xvv,[0;1;2]); (n_v'baa'xoo,[0;3;4])] [3;4;1;2]));
  (*6458*) Assign (T 41) (Plain (Einsum [(T 40,[0;1;2]); (n_v'bbb'xoo,[0;3;1])] [3;2]));
  (*6459*) Assign (T 37) (Plain (Einsum [(T 31,[0;1;2]); (n_v'baa'xoo,[0;3;1])] [3;2]));
  (*6460*) Assign (T 32) (Plain (Einsum [(T 31,[0;1;2]); (n_v'baa'xov,[0;1;3])] [3;2]));
  (*6461*) Assign (T 24) (Plain (Einsum [(T 23,[0;1]); (n_t1'bb,[0;2])] [1;2]));
  (*6462*) Assign (T 21) (Plain (Einsum [(T 20,[0;1]); (n_t1'aa,[0;2])] [1;2]));
  (*6463*) Assign (T 14) (Plain (Einsum [(n_t2'bbbb,[0;1;2;3]); (n_f'bb'ov,[1;3])] [0;2]));
  (*6464*) Assign (T 12) (Plain (Einsum [(n_t2'abab,[0;1;2;3]); (n_f'bb'ov,[1;3])] [0;2]));
  (*6465*) Assign (T 11) (Plain (Einsum [(n_t2'abab,[0;1;2;3]); (n_f'aa'ov,[0;2])] [1;3]));
  (*6466*) Assign (T 9) (Plain (Einsum [(n_f'aa'ov,[0;1]); (n_t2'aaaa,[2;0;3;1])] [2;3]));
  (*6467*) Assign (T 8) (Plain (Einsum [(n_f'bb'vv,[0;1]); (n_t1'bb,[2;1])] [2;0]));
  (*6468*) Assign (T 6) (Plain (Einsum [(n_t1'aa,[0;1]); (n_f'aa'vv,[2;1])] [0;2]));
  (*6469*) Assign (T 5) (Plain (Einsum [(n_t1'bb,[0;1]); (n_f'bb'oo,[2;0])] [2;1]));
  (*6470*) Assign (T 3) (Plain (Einsum [(n_f'aa'oo,[0;1]); (n_t1'aa,[1;2])] [0;2]))]
 [(T 11,[6;7]); (T 101,[6;5;5;7]); (T 102,[2;4;4]); (T 103,[4;5]); (T 104,[4;5]); (T 106,[6;7]); (T 107,[4;5]); (T 109,[6;7]); (T 110,[2;6;6]); (T 12,[4;5]); (T 111,[6;7]); (T 112,[4;5]); (T 114,[6;7]); (T 116,[4;5]); (T 118,[6;7]); (T 120,[4;5]); (T 122,[6;7]); (T 123,[4;5]); (T 125,[6;7]); (T 14,[6;7]); (T 133,[4;4;4;5]); (T 134,[4;5]); (T 136,[6;6;6;7]); (T 137,[6;7]); (T 139,[4;4;6;7]); (T 140,[4;5]); (T 142,[4;6;6;5]); (T 143,[6;7]); (T 145,[4;5;5;5]); (T 147,[6;5;5;7]); (T 149,[4;4]); (T 150,[4;5]); (T 152,[6;6]); (T 153,[6;7]); (T 155,[6;6]); (T 156,[6;7]); (T 158,[4;4]); (T 159,[4;5]); (T 161,[4;4;5;5]); (T 163,[4;6;5;7]); (T 164,[4;4;5;5]); (T 166,[4;6;5;7]); (T 167,[4;4;5;5]); (T 169,[4;6;5;7]); (T 171,[6;6;5;5]); (T 172,[4;4]); (T 173,[4;5]); (T 175,[4;4]); (T 176,[4;5]); (T 178,[6;6]); (T 179,[6;7]); (T 180,[6;6]); (T 181,[6;7]); (T 182,[4;4]); (T 183,[4;5]); (T 185,[6;6]); (T 186,[6;7]); (T 20,[4;4]); (T 191,[4;5]); (T 193,[4;5]); (T 195,[7;7]); (T 196,[6;7]); (T 197,[6;7]); (T 198,[7;7]); (T 199,[6;7]); (T 200,[4;5]); (T 3,[4;5]); (T 21,[4;5]); (T 202,[4;4;5;5]); (T 204,[4;4;5;5]); (T 206,[6;6;5;5]); (T 207,[4;6;5;7]); (T 208,[4;4]); (T 209,[4;5]); (T 211,[4;4]); (T 212,[4;5]); (T 214,[6;6]); (T 215,[6;7]); (T 216,[6;6]); (T 217,[6;7]); (T 218,[4;4]); (T 219,[4;5]); (T 23,[6;6]); (T 221,[6;6]); (T 222,[6;7]); (T 24,[6;7]); (T 237,[6;7;7;7]); (T 240,[7;7]); (T 25,[4;5;5;5]); (T 244,[6;6;7;7]); (T 247,[6;6;7;7]); (T 251,[4;4;7;7]); (T 252,[6;7;7;7]); (T 254,[4;5;7;7]); (T 256,[7;7]); (T 258,[7;7]); (T 27,[6;5;5;7]); (T 264,[6;7;7;7]); (T 266,[4;5;7;7]); (T 272,[4;5;7;7]); (T 273,[6;7;7;7]); (T 275,[4;5;7;7]); (T 276,[6;7;7;7]); (T 278,[4;5;7;7]); (T 280,[6;7;7;7]); (T 282,[4;5;7;7]); (T 30,[5;5]); (T 31,[2;4;5]); (T 302,[6;7;7;7]); (T 304,[4;5;7;7]); (T 310,[4;6;5;7]); (T 32,[5;5]); (T 311,[6;6;7;7]); (T 313,[4;6;5;7]); (T 314,[6;6;7;7]); (T 316,[4;6;5;7]); (T 318,[6;6;7;7]); (T 320,[4;4;7;7]); (T 34,[5;5]); (T 331,[6;6;7;7]); (T 333,[6;6;7;7]); (T 335,[4;4;7;7]); (T 336,[4;6;5;7]); (T 35,[4;5]); (T 37,[4;5]); (T 39,[6;7]); (T 388,[5;5;5;5]); (T 40,[2;6;7]); (T 5,[6;7]); (T 41,[6;7]); (T 42,[6;7]); (T 43,[4;5]); (T 427,[5;5;7;7]); (T 45,[4;4;5;5]); (T 48,[4;4;5;5]); (T 50,[4;6;5;7]); (T 491,[7;7;7;7]); (T 6,[4;5]); (T 53,[6;6;5;5]); (T 54,[4;5;5;5]); (T 56,[6;5;5;7]); (T 58,[2;4;5]); (T 59,[5;5]); (T 61,[2;4;5]); (T 62,[5;5]); (T 64,[4;4;4;5]); (T 65,[4;5]); (T 67,[6;6;6;7]); (T 68,[6;7]); (T 70,[4;6;6;5]); (T 8,[6;7]); (T 71,[6;7]); (T 73,[4;4;6;7]); (T 74,[4;5]); (T 76,[4;5;5;5]); (T 78,[6;5;5;7]); (T 80,[4;5]); (T 9,[4;5]); (T 82,[2;6;7]); (T 83,[6;7]); (T 85,[2;6;7]); (T 86,[6;7]); (T 88,[4;5]); (T 90,[4;5;5;5]); (T 92,[6;5;5;7]); (T 93,[4;5;5;5]); (T 95,[6;5;5;7]); (T 96,[4;5;5;5]); (T 98,[6;5;5;7]); (T 100,[4;5;7;7])].

(** ebcc/codegen/UDFCCSD.py:6474-7259 [hbar_lmatvec_ea] *)
Definition UDFCCSD_hbar_lmatvec_ea : prog := mkprog
 [(IT 102,[2;4;4]); (n_v'baa'xoo,[2;4;4]); (n_t1'aa,[4;5]); (n_f'bb'ov,[6;7]); (IT 39,[6;7]); (IT 42,[6;7]); (IT 110,[2;6;6]); (n_v'bbb'xoo,[2;6;6]); (n_t1'bb,[6;7]); (n_r2'bbb,[7;7;6]); (IT 31,[2;4;5]); (IT 58,[2;4;5]); (IT 61,[2;4;5]); (n_v'baa'xov,[2;4;5]); (IT 40,[2;6;7]); (IT 85,[2;6;7]); (n_v'bbb'xov,[2;6;7]); (IT 82,[2;6;7]); (n_f'aa'ov,[4;5]); (IT 35,[4;5]); (IT 43,[4;5]); (n_r2'aaa,[5;5;4]); (n_r2'bab,[7;5;6]); (n_t2'bbbb,[6;6;7;7]); (n_r1'b,[7]); (n_r2'aba,[5;7;4]); (IT 111,[6;7]); (IT 103,[4;5]); (n_t2'abab,[4;6;5;7]); (n_r1'a,[5]); (n_t2'aaaa,[4;4;5;5]); (IT 247,[6;6;7;7]); (IT 331,[6;6;7;7]); (IT 314,[6;6;7;7]); (IT 240,[7;7]); (IT 136,[6;6;6;7]); (IT 67,[6;6;6;7]); (n_f'bb'vv,[7;7]); (IT 195,[7;7]); (IT 198,[7;7]); (IT 256,[7;7]); (IT 258,[7;7]); (IT 202,[4;4;5;5]); (IT 48,[4;4;5;5]); (IT 164,[4;4;5;5]); (IT 32,[5;5]); (n_f'aa'vv,[5;5]); (IT 30,[5;5]); (IT 34,[5;5]); (IT 59,[5;5]); (IT 62,[5;5]); (IT 133,[4;4;4;5]); (IT 64,[4;4;4;5]); (IT 237,[6;7;7;7]); (IT 244,[6;6;7;7]); (IT 313,[4;6;5;7]); (IT 142,[4;6;6;5]); (IT 70,[4;6;6;5]); (IT 139,[4;4;6;7]); (IT 73,[4;4;6;7]); (IT 166,[4;6;5;7]); (IT 25,[4;5;5;5]); (IT 45,[4;4;5;5]); (n_f'bb'oo,[6;6]); (IT 152,[6;6]); (IT 155,[6;6]); (IT 180,[6;6]); (IT 185,[6;6]); (IT 216,[6;6]); (IT 221,[6;6]); (IT 23,[6;6]); (IT 178,[6;6]); (IT 214,[6;6]); (IT 171,[6;6;5;5]); (IT 206,[6;6;5;5]); (IT 53,[6;6;5;5]); (n_f'aa'oo,[4;4]); (IT 149,[4;4]); (IT 158,[4;4]); (IT 175,[4;4]); (IT 182,[4;4]); (IT 20,[4;4]); (IT 211,[4;4]); (IT 218,[4;4]); (IT 172,[4;4]); (IT 208,[4;4]); (IT 320,[4;4;7;7]); (IT 251,[4;4;7;7]); (IT 335,[4;4;7;7]); (IT 311,[6;6;7;7]); (IT 318,[6;6;7;7]); (IT 333,[6;6;7;7]); (IT 254,[4;5;7;7]); (IT 266,[4;5;7;7]); (IT 272,[4;5;7;7]); (IT 278,[4;5;7;7]); (IT 304,[4;5;7;7]); (IT 100,[4;5;7;7]); (IT 275,[4;5;7;7]); (IT 282,[4;5;7;7]); (IT 106,[6;7]); (IT 114,[6;7]); (IT 137,[6;7]); (IT 143,[6;7]); (IT 153,[6;7]); (IT 156,[6;7]); (IT 181,[6;7]); (IT 186,[6;7]); (IT 197,[6;7]); (IT 217,[6;7]); (IT 222,[6;7]); (IT 24,[6;7]); (IT 41,[6;7]); (IT 5,[6;7]); (IT 68,[6;7]); (IT 71,[6;7]); (IT 83,[6;7]); (IT 109,[6;7]); (IT 11,[6;7]); (IT 118,[6;7]); (IT 122,[6;7]); (IT 125,[6;7]); (IT 14,[6;7]); (IT 179,[6;7]); (IT 196,[6;7]); (IT 199,[6;7]); (IT 215,[6;7]); (IT 8,[6;7]); (IT 86,[6;7]); (IT 252,[6;7;7;7]); (IT 276,[6;7;7;7]); (IT 302,[6;7;7;7]); (IT 264,[6;7;7;7]); (IT 273,[6;7;7;7]); (IT 280,[6;7;7;7]); (IT 310,[4;6;5;7]); (IT 316,[4;6;5;7]); (IT 336,[4;6;5;7]); (IT 50,[4;6;5;7]); (IT 104,[4;5]); (IT 112,[4;5]); (IT 134,[4;5]); (IT 140,[4;5]); (IT 150,[4;5]); (IT 159,[4;5]); (IT 176,[4;5]); (IT 183,[4;5]); (IT 193,[4;5]); (IT 21,[4;5]); (IT 212,[4;5]); (IT 219,[4;5]); (IT 3,[4;5]); (IT 37,[4;5]); (IT 65,[4;5]); (IT 74,[4;5]); (IT 80,[4;5]); (IT 107,[4;5]); (IT 116,[4;5]); (IT 120,[4;5]); (IT 12,[4;5]); (IT 123,[4;5]); (IT 173,[4;5]); (IT 191,[4;5]); (IT 200,[4;5]); (IT 209,[4;5]); (IT 6,[4;5]); (IT 88,[4;5]); (IT 9,[4;5]); (IT 161,[4;4;5;5]); (IT 167,[4;4;5;5]); (IT 204,[4;4;5;5]); (IT 147,[6;5;5;7]); (IT 27,[6;5;5;7]); (IT 56,[6;5;5;7]); (IT 78,[6;5;5;7]); (IT 92,[6;5;5;7]); (IT 98,[6;5;5;7]); (IT 101,[6;5;5;7]); (IT 95,[6;5;5;7]); (IT 145,[4;5;5;5]); (IT 54,[4;5;5;5]); (IT 93,[4;5;5;5]); (IT 76,[4;5;5;5]); (IT 90,[4;5;5;5]); (IT 96,[4;5;5;5]); (IT 163,[4;6;5;7]); (IT 169,[4;6;5;7]); (IT 207,[4;6;5;7]); (IT 491,[7;7;7;7]); (IT 427,[5;5;7;7]); (IT 388,[5;5;5;5])]
 [(*6504*) Assign (T 59) (Plain (Copy (IT 102)));
  (*6505*) Del (IT 102);
  (*6506*) AddTo (T 59) (Plain (Copy n_v'baa'xoo));
  (*6507*) Assign (T 76) (Plain (Einsum [(n_t1'aa,[0;1]); (T 59,[2;3;0])] [2;3;1]));
  (*6508*) Assign (T 102) (Plain (Copy n_f'bb'ov));
  (*6509*) AddTo (T 102) (Plain (Copy (IT 39)));
  (*6510*) AddTo (T 102) (Plain (Copy (IT 42)));
  (*6511*) Assign (T 61) (Plain (Copy (IT 110)));
  (*6512*) Del (IT 110);
  (*6513*) AddTo (T 61) (Plain (Copy n_v'bbb'xoo));
  (*6514*) Assign (T 23) (Plain (Einsum [(n_t1'bb,[0;1]); (n_r2'bbb,[2;1;3])] [3;0;2]));
  (*6515*) Assign (T 77) (Plain (Copy (IT 31)));
  (*6516*) AddTo (T 77) (Times (Copy (IT 58)) (2) 1);
  (*6517*) AddTo (T 77) (Plain (Copy (IT 61)));
  (*6518*) AddTo (T 77) (Plain (Copy n_v'baa'xov));
  (*6519*) AddTo (T 77) (Times (Copy (T 76)) (-1) 1);
  (*6520*) Del (T 76);
  (*6521*) Assign (T 47) (Plain (Copy (IT 40)));
  (*6522*) AddTo (T 47) (Plain (Copy (IT 85)));
  (*6523*) AddTo (T 47) (Plain (Copy n_v'bbb'xov));
  (*6524*) AddTo (T 47) (Times (Copy (IT 82)) (2) 1);
  (*6525*) Assign (T 45) (Plain (Copy (IT 31)));
  (*6526*) Del (IT 31);
  (*6527*) AddTo (T 45) (Plain (Copy (IT 61)));
  (*6528*) Del (IT 61);
  (*6529*) AddTo (T 45) (Plain (Copy n_v'baa'xov));
  (*6530*) AddTo (T 45) (Times (Copy (IT 58)) (2) 1);
  (*6531*) Del (IT 58);
  (*6532*) Assign (T 51) (Plain (Copy n_f'aa'ov));
  (*6533*) AddTo (T 51) (Plain (Copy (IT 35)));
  (*6534*) AddTo (T 51) (Plain (Copy (IT 43)));
  (*6535*) Assign (T 3) (Plain (Einsum [(n_r2'aaa,[0;1;2]); (n_t1'aa,[3;1])] [2;3;0]));
  (*6536*) Assign (T 7) (Times (Einsum [(n_r2'bab,[0;1;2]); (n_t1'bb,[3;0])] [2;3;1]) (-1) 1);
  (*6537*) Assign (T 103) (Plain (Einsum [(T 102,[0;1]); (n_t1'bb,[0;2])] [1;2]));
  (*6538*) Del (T 102);
  (*6539*) Assign (T 37) (Plain (Einsum [(n_r2'bbb,[0;1;2]); (n_t2'bbbb,[3;2;0;1])] [3]));
  (*6540*) Assign (T 35) (Plain (Einsum [(n_r1'b,[0]); (n_t1'bb,[1;0])] [1]));
  (*6541*) Assign (T 111) (Plain (Einsum [(T 61,[0;1;2]); (T 23,[1;2;3])] [0;3]));
  (*6542*) Assign (T 110) (Times (Einsum [(T 77,[0;1;2]); (n_r2'aba,[2;3;1])] [0;3]) (1) 2);
  (*6543*) Assign (T 114) (Plain (Einsum [(IT 111,[0;1]); (n_t1'bb,[0;2])] [1;2]));
  (*6544*) Assign (T 48) (Times (Einsum [(n_r2'bab,[0;1;2]); (T 47,[3;2;0])] [3;1]) (-1) 1);
  (*6545*) Assign (T 46) (Times (Einsum [(T 45,[0;1;2]); (n_r2'aaa,[3;2;1])] [0;3]) (-1) 1);
  (*6546*) Del (T 45);
  (*6547*) Assign (T 52) (Plain (Einsum [(T 51,[0;1]); (n_t1'aa,[0;2])] [2;1]));
  (*6548*) Del (T 51);
  (*6549*) Assign (T 65) (Plain (Einsum [(IT 103,[0;1]); (n_t1'aa,[0;2])] [1;2]));
  (*6550*) Assign (T 18) (Times (Einsum [(n_t2'abab,[0;1;2;3]); (n_r2'bab,[3;2;1])] [0]) (-1) 1);
  (*6551*) Assign (T 16) (Plain (Einsum [(n_r1'a,[0]); (n_t1'aa,[1;0])] [1]));
  (*6552*) Assign (T 17) (Plain (Einsum [(n_t2'aaaa,[0;1;2;3]); (n_r2'aaa,[2;3;1])] [0]));
  (*6553*) Assign (T 60) (Plain (Einsum [(T 3,[0;1;2]); (T 59,[3;0;1])] [3;2]));
  (*6554*) Del (T 59);
  (*6555*) Assign (T 62) (Times (Einsum [(T 7,[0;1;2]); (T 61,[3;0;1])] [3;2]) (1) 2);
  (*6556*) Assign (T 100) (Times (Einsum [(n_r2'bbb,[0;1;2]); (T 47,[3;2;1])] [3;0]) (-1) 1);
  (*6557*) Del (T 47);
  (*6558*) Assign (T 98) (Plain (Copy (IT 247)));
  (*6559*) AddTo (T 98) (Plain (Copy (IT 331)));
  (*6560*) AddTo (T 98) (Times (Copy (IT 314)) (2) 1);
  (*6561*) Assign (T 104) (Plain (Copy (IT 240)));
  (*6562*) AddTo (T 104) (Plain (Copy (T 103)));
  (*6563*) Del (T 103);
  (*6564*) Assign (T 36) (Plain (Einsum [(n_t2'abab,[0;1;2;3]); (n_r2'aba,[2;3;0])] [1]));
  (*6565*) Assign (T 87) (Plain (Copy (IT 136)));
  (*6566*) AddTo (T 87) (Plain (Transpose (IT 67) [0;2;1;3]));
  (*6567*) Assign (T 117) (Times (Copy (T 35)) (1) 2);
  (*6568*) AddTo (T 117) (Plain (Copy (T 37)));
  (*6569*) Assign (T 112) (Plain (Copy (T 110)));
  (*6570*) Del (T 110);
  (*6571*) AddTo (T 112) (Plain (Copy (T 111)));
  (*6572*) Del (T 111);
  (*6573*) Assign (T 115) (Times (Copy n_f'bb'vv) (1) 2);
  (*6574*) AddTo (T 115) (Times (Copy (IT 195)) (1) 2);
  (*6575*) AddTo (T 115) (Times (Copy (IT 198)) (1) 2);
  (*6576*) AddTo (T 115) (Times (Copy (IT 256)) (-1) 1);
  (*6577*) AddTo (T 115) (Times (Copy (IT 258)) (-1) 2);
  (*6578*) AddTo (T 115) (Times (Transpose (T 114) [1;0]) (1) 2);
  (*6579*) Del (T 114);
  (*6580*) Assign (T 20) (Plain (Copy n_f'aa'ov));
  (*6581*) AddTo (T 20) (Plain (Copy (IT 35)));
  (*6582*) AddTo (T 20) (Plain (Copy (IT 43)));
  (*6583*) AddTo (T 20) (Times (Copy (IT 103)) (-1) 1);
  (*6584*) Del (IT 103);
  (*6585*) Assign (T 78) (Plain (Einsum [(T 61,[0;1;2]); (n_t1'bb,[2;3])] [0;1;3]));
  (*6586*) Del (T 61);
  (*6587*) Assign (T 43) (Plain (Copy (IT 202)));
  (*6588*) AddTo (T 43) (Plain (Copy (IT 48)));
  (*6589*) AddTo (T 43) (Times (Copy (IT 164)) (2) 1);
  (*6590*) Assign (T 49) (Times (Copy (T 46)) (-2) 1);
  (*6591*) Del (T 46);
  (*6592*) AddTo (T 49) (Plain (Copy (T 48)));
  (*6593*) Del (T 48);
  (*6594*) Assign (T 53) (Plain (Copy (IT 32)));
  (*6595*) AddTo (T 53) (Plain (Transpose (T 52) [1;0]));
  (*6596*) Del (T 52);
  (*6597*) Assign (T 66) (Times (Copy n_f'aa'vv) (1) 2);
  (*6598*) AddTo (T 66) (Times (Copy (IT 30)) (1) 2);
  (*6599*) AddTo (T 66) (Times (Copy (IT 34)) (1) 2);
  (*6600*) AddTo (T 66) (Times (Copy (IT 59)) (-1) 1);
  (*6601*) AddTo (T 66) (Times (Copy (IT 62)) (-1) 2);
  (*6602*) AddTo (T 66) (Times (Transpose (T 65) [1;0]) (1) 2);
  (*6603*) Del (T 65);
  (*6604*) Assign (T 68) (Times (Copy (T 16)) (1) 2);
  (*6605*) AddTo (T 68) (Plain (Copy (T 17)));
  (*6606*) AddTo (T 68) (Times (Copy (T 18)) (1) 2);
  (*6607*) Assign (T 57) (Plain (Copy (IT 133)));
  (*6608*) AddTo (T 57) (Plain (Transpose (IT 64) [0;2;1;3]));
  (*6609*) Assign (T 63) (Plain (Copy (T 60)));
  (*6610*) Del (T 60);
  (*6611*) AddTo (T 63) (Plain (Copy (T 62)));
  (*6612*) Del (T 62);
  (*6613*) Assign (T 101) (Times (Einsum [(T 100,[0;1]); (n_v'bbb'xov,[0;2;3])] [2;1;3]) (-1) 1);
  (*6614*) Del (T 100);
  (*6615*) Assign (T 99) (Times (Einsum [(n_r2'bbb,[0;1;2]); (T 98,[2;3;1;4])] [3;4;0]) (-1) 1);
  (*6616*) Del (T 98);
  (*6617*) Assign (T 96) (Plain (Einsum [(n_r1'b,[0]); (IT 237,[1;2;0;3])] [1;2;3]));
  (*6618*) Assign (T 105) (Times (Einsum [(n_r2'bbb,[0;1;2]); (T 104,[3;1])] [2;3;0]) (-1) 1);
  (*6619*) Del (T 104);
  (*6620*) Assign (T 97) (Plain (Einsum [(T 36,[0]); (IT 244,[0;1;2;3])] [1;2;3]));
  (*6621*) Assign (T 107) (Plain (Einsum [(n_r2'aba,[0;1;2]); (IT 313,[2;3;0;4])] [3;4;1]));
  (*6622*) Assign (T 109) (Times (Einsum [(T 23,[0;1;2]); (T 87,[0;1;3;4])] [3;4;2]) (2) 1);
  (*6623*) Assign (T 108) (Plain (Einsum [(IT 237,[0;1;2;3]); (T 23,[4;0;2])] [4;1;3]));
  (*6624*) Assign (T 118) (Times (Einsum [(T 117,[0]); (IT 244,[0;1;2;3])] [1;2;3]) (2) 1);
  (*6625*) Del (T 117);
  (*6626*) Assign (T 113) (Times (Einsum [(n_v'bbb'xov,[0;1;2]); (T 112,[0;3])] [1;3;2]) (2) 1);
  (*6627*) Del (T 112);
  (*6628*) Assign (T 116) (Times (Einsum [(T 115,[0;1]); (n_r2'bbb,[2;0;3])] [3;1;2]) (-4) 1);
  (*6629*) Del (T 115);
  (*6630*) Assign (T 85) (Plain (Copy (IT 142)));
  (*6631*) AddTo (T 85) (Plain (Copy (IT 70)));
  (*6632*) Assign (T 81) (Plain (Einsum [(T 20,[0;1]); (n_t1'aa,[0;2])] [2;1]));
  (*6633*) Assign (T 89) (Plain (Copy n_t2'abab));
  (*6634*) AddTo (T 89) (Plain (Einsum [(n_t1'bb,[0;1]); (n_t1'aa,[2;3])] [2;0;3;1]));
  (*6635*) Assign (T 79) (Plain (Copy (IT 40)));
  (*6636*) Del (IT 40);
  (*6637*) AddTo (T 79) (Times (Copy (IT 82)) (2) 1);
  (*6638*) Del (IT 82);
  (*6639*) AddTo (T 79) (Plain (Copy (IT 85)));
  (*6640*) Del (IT 85);
  (*6641*) AddTo (T 79) (Plain (Copy n_v'bbb'xov));
  (*6642*) AddTo (T 79) (Times (Copy (T 78)) (-1) 1);
  (*6643*) Del (T 78);
  (*6644*) Assign (T 39) (Plain (Copy n_f'bb'ov));
  (*6645*) AddTo (T 39) (Plain (Copy (IT 39)));
  (*6646*) AddTo (T 39) (Plain (Copy (IT 42)));
  (*6647*) AddTo (T 39) (Times (Copy (IT 111)) (-1) 1);
  (*6648*) Del (IT 111);
  (*6649*) Assign (T 31) (Plain (Copy (IT 139)));
  (*6650*) Del (IT 139);
  (*6651*) AddTo (T 31) (Plain (Copy (IT 73)));
  (*6652*) Del (IT 73);
  (*6653*) Assign (T 74) (Plain (Copy n_t2'abab));
  (*6654*) AddTo (T 74) (Plain (Einsum [(n_t1'bb,[0;1]); (n_t1'aa,[2;3])] [2;0;3;1]));
  (*6655*) Assign (T 44) (Times (Einsum [(n_r2'aaa,[0;1;2]); (T 43,[2;3;1;4])] [3;0;4]) (-1) 1);
  (*6656*) Del (T 43);
  (*6657*) Assign (T 42) (Times (Einsum [(IT 166,[0;1;2;3]); (n_r2'bab,[3;4;1])] [0;2;4]) (-1) 1);
  (*6658*) Assign (T 41) (Plain (Einsum [(IT 25,[0;1;2;3]); (n_r1'a,[2])] [0;1;3]));
  (*6659*) Assign (T 50) (Plain (Einsum [(T 49,[0;1]); (n_v'baa'xov,[0;2;3])] [2;3;1]));
  (*6660*) Del (T 49);
  (*6661*) Assign (T 54) (Times (Einsum [(T 53,[0;1]); (n_r2'aaa,[2;1;3])] [3;2;0]) (-1) 1);
  (*6662*) Del (T 53);
  (*6663*) Assign (T 67) (Times (Einsum [(n_r2'aaa,[0;1;2]); (T 66,[1;3])] [2;0;3]) (-4) 1);
  (*6664*) Del (T 66);
  (*6665*) Assign (T 69) (Times (Einsum [(IT 45,[0;1;2;3]); (T 68,[0])] [1;2;3]) (2) 1);
  (*6666*) Assign (T 58) (Times (Einsum [(T 57,[0;1;2;3]); (T 3,[0;1;4])] [2;4;3]) (2) 1);
  (*6667*) Assign (T 64) (Times (Einsum [(n_v'baa'xov,[0;1;2]); (T 63,[0;3])] [1;2;3]) (2) 1);
  (*6668*) Del (T 63);
  (*6669*) Assign (T 56) (Plain (Einsum [(IT 25,[0;1;2;3]); (T 3,[4;0;2])] [4;1;3]));
  (*6670*) Assign (T 27) (Plain (Einsum [(n_t1'aa,[0;1]); (n_r2'aba,[1;2;3])] [3;0;2]));
  (*6671*) Assign (T 32) (Times (Einsum [(n_t1'bb,[0;1]); (T 23,[2;3;1])] [2;3;0]) (-1) 1);
  (*6672*) Assign (T 106) (Plain (Copy (T 96)));
  (*6673*) Del (T 96);
  (*6674*) AddTo (T 106) (Plain (Copy (T 97)));
  (*6675*) Del (T 97);
  (*6676*) AddTo (T 106) (Times (Copy (T 99)) (-2) 1);
  (*6677*) Del (T 99);
  (*6678*) AddTo (T 106) (Times (Copy (T 101)) (2) 1);
  (*6679*) Del (T 101);
  (*6680*) AddTo (T 106) (Times (Copy (T 105)) (-2) 1);
  (*6681*) Del (T 105);
  (*6682*) Assign (T 95) (Plain (Einsum [(n_r2'bbb,[0;1;2]); (n_t2'bbbb,[3;4;0;1])] [2;3;4]));
  (*6683*) Assign (T 94) (Plain (Copy n_f'bb'oo));
  (*6684*) AddTo (T 94) (Times (Copy (IT 152)) (2) 1);
  (*6685*) Del (IT 152);
  (*6686*) AddTo (T 94) (Plain (Copy (IT 155)));
  (*6687*) Del (IT 155);
  (*6688*) AddTo (T 94) (Plain (Copy (IT 180)));
  (*6689*) Del (IT 180);
  (*6690*) AddTo (T 94) (Plain (Copy (IT 185)));
  (*6691*) Del (IT 185);
  (*6692*) AddTo (T 94) (Plain (Copy (IT 216)));
  (*6693*) Del (IT 216);
  (*6694*) AddTo (T 94) (Plain (Copy (IT 221)));
  (*6695*) Del (IT 221);
  (*6696*) AddTo (T 94) (Plain (Transpose (IT 23) [1;0]));
  (*6697*) Del (IT 23);
  (*6698*) AddTo (T 94) (Times (Copy (IT 178)) (-1) 1);
  (*6699*) Del (IT 178);
  (*6700*) AddTo (T 94) (Times (Copy (IT 214)) (-1) 1);
  (*6701*) Del (IT 214);
  (*6702*) Assign (T 119) (Plain (Copy (T 107)));
  (*6703*) Del (T 107);
  (*6704*) AddTo (T 119) (Times (Copy (T 108)) (2) 1);
  (*6705*) Del (T 108);
  (*6706*) AddTo (T 119) (Plain (Copy (T 109)));
  (*6707*) Del (T 109);
  (*6708*) AddTo (T 119) (Plain (Copy (T 113)));
  (*6709*) Del (T 113);
  (*6710*) AddTo (T 119) (Times (Copy (T 116)) (-1) 1);
  (*6711*) Del (T 116);
  (*6712*) AddTo (T 119) (Plain (Copy (T 118)));
  (*6713*) Del (T 118);
  (*6714*) Assign (T 5) (Times (Einsum [(n_r2'bab,[0;1;2]); (n_t1'aa,[3;1])] [3;2;0]) (-1) 1);
  (*6715*) Assign (T 86) (Plain (Copy (IT 171)));
  (*6716*) AddTo (T 86) (Times (Transpose (IT 206) [0;1;3;2]) (-1) 1);
  (*6717*) AddTo (T 86) (Times (Transpose (IT 53) [0;1;3;2]) (-1) 1);
  (*6718*) AddTo (T 86) (Plain (Einsum [(T 85,[0;1;2;3]); (n_t1'aa,[0;4])] [1;2;4;3]));
  (*6719*) Del (T 85);
  (*6720*) Assign (T 92) (Plain (Transpose (IT 32) [1;0]));
  (*6721*) AddTo (T 92) (Times (Copy (IT 59)) (2) 1);
  (*6722*) AddTo (T 92) (Plain (Copy (IT 62)));
  (*6723*) AddTo (T 92) (Times (Copy n_f'aa'vv) (-1) 1);
  (*6724*) AddTo (T 92) (Times (Transpose (IT 30) [1;0]) (-1) 1);
  (*6725*) AddTo (T 92) (Times (Transpose (IT 34) [1;0]) (-1) 1);
  (*6726*) AddTo (T 92) (Plain (Copy (T 81)));
  (*6727*) Assign (T 90) (Times (Einsum [(n_r2'bab,[0;1;2]); (T 89,[3;4;1;0])] [3;2;4]) (-1) 1);
  (*6728*) Del (T 89);
  (*6729*) Assign (T 91) (Times (Einsum [(n_r2'aaa,[0;1;2]); (T 77,[3;2;1])] [3;0]) (2) 1);
  (*6730*) AddTo (T 91) (Times (Einsum [(n_r2'bab,[0;1;2]); (T 79,[3;2;0])] [3;1]) (-1) 1);
  (*6731*) Assign (T 88) (Plain (Copy (IT 247)));
  (*6732*) AddTo (T 88) (Times (Copy (IT 314)) (2) 1);
  (*6733*) AddTo (T 88) (Plain (Copy (IT 331)));
  (*6734*) AddTo (T 88) (Times (Einsum [(n_t1'bb,[0;1]); (T 87,[2;0;3;4])] [2;3;1;4]) (-1) 1);
  (*6735*) Del (T 87);
  (*6736*) Assign (T 93) (Times (Transpose (IT 240) [1;0]) (1) 2);
  (*6737*) AddTo (T 93) (Plain (Copy (IT 256)));
  (*6738*) AddTo (T 93) (Times (Copy (IT 258)) (1) 2);
  (*6739*) AddTo (T 93) (Times (Copy n_f'bb'vv) (-1) 2);
  (*6740*) AddTo (T 93) (Times (Copy (IT 195)) (-1) 2);
  (*6741*) AddTo (T 93) (Times (Copy (IT 198)) (-1) 2);
  (*6742*) AddTo (T 93) (Times (Einsum [(T 39,[0;1]); (n_t1'bb,[0;2])] [2;1]) (1) 2);
  (*6743*) Assign (T 84) (Times (Copy (T 35)) (1) 2);
  (*6744*) AddTo (T 84) (Times (Copy (T 36)) (-1) 2);
  (*6745*) AddTo (T 84) (Plain (Copy (T 37)));
  (*6746*) Assign (T 83) (Plain (Transpose (IT 240) [1;0]));
  (*6747*) AddTo (T 83) (Times (Copy (IT 256)) (2) 1);
  (*6748*) AddTo (T 83) (Plain (Copy (IT 258)));
  (*6749*) AddTo (T 83) (Times (Copy n_f'bb'vv) (-1) 1);
  (*6750*) AddTo (T 83) (Times (Transpose (IT 195) [1;0]) (-1) 1);
  (*6751*) AddTo (T 83) (Times (Transpose (IT 198) [1;0]) (-1) 1);
  (*6752*) AddTo (T 83) (Plain (Einsum [(T 39,[0;1]); (n_t1'bb,[0;2])] [2;1]));
  (*6753*) Assign (T 71) (Plain (Copy n_f'aa'oo));
  (*6754*) AddTo (T 71) (Times (Copy (IT 149)) (2) 1);
  (*6755*) Del (IT 149);
  (*6756*) AddTo (T 71) (Plain (Copy (IT 158)));
  (*6757*) Del (IT 158);
  (*6758*) AddTo (T 71) (Plain (Copy (IT 175)));
  (*6759*) Del (IT 175);
  (*6760*) AddTo (T 71) (Plain (Copy (IT 182)));
  (*6761*) Del (IT 182);
  (*6762*) AddTo (T 71) (Plain (Transpose (IT 20) [1;0]));
  (*6763*) Del (IT 20);
  (*6764*) AddTo (T 71) (Plain (Copy (IT 211)));
  (*6765*) Del (IT 211);
  (*6766*) AddTo (T 71) (Plain (Copy (IT 218)));
  (*6767*) Del (IT 218);
  (*6768*) AddTo (T 71) (Times (Copy (IT 172)) (-1) 1);
  (*6769*) Del (IT 172);
  (*6770*) AddTo (T 71) (Times (Copy (IT 208)) (-1) 1);
  (*6771*) Del (IT 208);
  (*6772*) Assign (T 73) (Plain (Transpose (IT 320) [0;1;3;2]));
  (*6773*) AddTo (T 73) (Times (Copy (IT 251)) (-1) 1);
  (*6774*) AddTo (T 73) (Times (Copy (IT 335)) (-1) 1);
  (*6775*) AddTo (T 73) (Plain (Einsum [(T 31,[0;1;2;3]); (n_t1'bb,[2;4])] [0;1;3;4]));
  (*6776*) Assign (T 80) (Times (Einsum [(T 77,[0;1;2]); (n_r2'aba,[2;3;1])] [0;3]) (-1) 1);
  (*6777*) Del (T 77);
  (*6778*) AddTo (T 80) (Times (Einsum [(n_r2'bbb,[0;1;2]); (T 79,[3;2;1])] [3;0]) (2) 1);
  (*6779*) Del (T 79);
  (*6780*) Assign (T 82) (Plain (Transpose (IT 32) [1;0]));
  (*6781*) AddTo (T 82) (Times (Copy (IT 59)) (2) 1);
  (*6782*) AddTo (T 82) (Plain (Copy (IT 62)));
  (*6783*) AddTo (T 82) (Times (Copy n_f'aa'vv) (-1) 1);
  (*6784*) AddTo (T 82) (Times (Copy (IT 30)) (-1) 1);
  (*6785*) AddTo (T 82) (Times (Copy (IT 34)) (-1) 1);
  (*6786*) AddTo (T 82) (Plain (Copy (T 81)));
  (*6787*) Del (T 81);
  (*6788*) Assign (T 75) (Plain (Einsum [(T 74,[0;1;2;3]); (n_r2'aba,[2;3;4])] [4;0;1]));
  (*6789*) Del (T 74);
  (*6790*) Assign (T 72) (Times (Copy (IT 164)) (2) 1);
  (*6791*) AddTo (T 72) (Plain (Copy (IT 202)));
  (*6792*) AddTo (T 72) (Plain (Copy (IT 48)));
  (*6793*) AddTo (T 72) (Times (Einsum [(T 57,[0;1;2;3]); (n_t1'aa,[1;4])] [0;2;4;3]) (-1) 1);
  (*6794*) Del (T 57);
  (*6795*) Assign (T 25) (Plain (Einsum [(n_r2'aba,[0;1;2]); (n_t1'bb,[3;1])] [2;3;0]));
  (*6796*) Assign (T 55) (Plain (Copy (T 41)));
  (*6797*) Del (T 41);
  (*6798*) AddTo (T 55) (Plain (Copy (T 42)));
  (*6799*) Del (T 42);
  (*6800*) AddTo (T 55) (Times (Transpose (T 44) [0;2;1]) (-2) 1);
  (*6801*) Del (T 44);
  (*6802*) AddTo (T 55) (Plain (Transpose (T 50) [0;2;1]));
  (*6803*) Del (T 50);
  (*6804*) AddTo (T 55) (Times (Transpose (T 54) [0;2;1]) (-2) 1);
  (*6805*) Del (T 54);
  (*6806*) Assign (T 70) (Times (Copy (T 56)) (2) 1);
  (*6807*) Del (T 56);
  (*6808*) AddTo (T 70) (Plain (Transpose (T 58) [0;2;1]));
  (*6809*) Del (T 58);
  (*6810*) AddTo (T 70) (Plain (Transpose (T 64) [0;2;1]));
  (*6811*) Del (T 64);
  (*6812*) AddTo (T 70) (Times (Transpose (T 67) [0;2;1]) (-1) 1);
  (*6813*) Del (T 67);
  (*6814*) AddTo (T 70) (Plain (Copy (T 69)));
  (*6815*) Del (T 69);
  (*6816*) Assign (T 40) (Plain (Einsum [(n_t2'aaaa,[0;1;2;3]); (n_r2'aaa,[2;3;4])] [4;0;1]));
  (*6817*) Assign (T 13) (Times (Einsum [(T 3,[0;1;2]); (n_t1'aa,[3;2])] [0;1;3]) (-1) 1);
  (*6818*) Assign (T 30) (Plain (Einsum [(T 27,[0;1;2]); (n_t1'bb,[3;2])] [0;1;3]));
  (*6819*) Assign (T 24) (Plain (Copy (IT 244)));
  (*6820*) AddTo (T 24) (Times (Copy (IT 311)) (2) 1);
  (*6821*) Del (IT 311);
  (*6822*) AddTo (T 24) (Plain (Copy (IT 318)));
  (*6823*) Del (IT 318);
  (*6824*) AddTo (T 24) (Plain (Transpose (IT 333) [0;1;3;2]));
  (*6825*) Del (IT 333);
  (*6826*) AddTo (T 24) (Times (Transpose (IT 247) [0;1;3;2]) (-1) 1);
  (*6827*) Del (IT 247);
  (*6828*) AddTo (T 24) (Times (Copy (IT 314)) (-2) 1);
  (*6829*) Del (IT 314);
  (*6830*) AddTo (T 24) (Times (Transpose (IT 331) [0;1;3;2]) (-1) 1);
  (*6831*) Del (IT 331);
  (*6832*) Assign (T 21) (Plain (Copy (IT 254)));
  (*6833*) Del (IT 254);
  (*6834*) AddTo (T 21) (Plain (Transpose (IT 266) [0;1;3;2]));
  (*6835*) Del (IT 266);
  (*6836*) AddTo (T 21) (Plain (Transpose (IT 272) [0;1;3;2]));
  (*6837*) Del (IT 272);
  (*6838*) AddTo (T 21) (Times (Transpose (IT 278) [0;1;3;2]) (2) 1);
  (*6839*) Del (IT 278);
  (*6840*) AddTo (T 21) (Plain (Transpose (IT 304) [0;1;3;2]));
  (*6841*) Del (IT 304);
  (*6842*) AddTo (T 21) (Plain (Copy (IT 100)));
  (*6843*) AddTo (T 21) (Times (Copy (IT 275)) (-1) 1);
  (*6844*) Del (IT 275);
  (*6845*) AddTo (T 21) (Times (Transpose (IT 282) [0;1;3;2]) (-1) 1);
  (*6846*) Del (IT 282);
  (*6847*) Assign (T 9) (Plain (Copy (IT 106)));
  (*6848*) Del (IT 106);
  (*6849*) AddTo (T 9) (Times (Copy (IT 114)) (2) 1);
  (*6850*) Del (IT 114);
  (*6851*) AddTo (T 9) (Times (Copy (IT 137)) (2) 1);
  (*6852*) Del (IT 137);
  (*6853*) AddTo (T 9) (Plain (Copy (IT 143)));
  (*6854*) Del (IT 143);
  (*6855*) AddTo (T 9) (Times (Copy (IT 153)) (2) 1);
  (*6856*) Del (IT 153);
  (*6857*) AddTo (T 9) (Plain (Copy (IT 156)));
  (*6858*) Del (IT 156);
  (*6859*) AddTo (T 9) (Plain (Copy (IT 181)));
  (*6860*) Del (IT 181);
  (*6861*) AddTo (T 9) (Plain (Copy (IT 186)));
  (*6862*) Del (IT 186);
  (*6863*) AddTo (T 9) (Plain (Copy (IT 197)));
  (*6864*) Del (IT 197);
  (*6865*) AddTo (T 9) (Plain (Copy (IT 217)));
  (*6866*) Del (IT 217);
  (*6867*) AddTo (T 9) (Plain (Copy (IT 222)));
  (*6868*) Del (IT 222);
  (*6869*) AddTo (T 9) (Plain (Copy (IT 24)));
  (*6870*) Del (IT 24);
  (*6871*) AddTo (T 9) (Plain (Copy (IT 41)));
  (*6872*) Del (IT 41);
  (*6873*) AddTo (T 9) (Plain (Copy (IT 5)));
  (*6874*) Del (IT 5);
  (*6875*) AddTo (T 9) (Times (Copy (IT 68)) (2) 1);
  (*6876*) Del (IT 68);
  (*6877*) AddTo (T 9) (Plain (Copy (IT 71)));
  (*6878*) Del (IT 71);
  (*6879*) AddTo (T 9) (Times (Copy (IT 83)) (2) 1);
  (*6880*) Del (IT 83);
  (*6881*) AddTo (T 9) (Times (Copy n_f'bb'ov) (-1) 1);
  (*6882*) AddTo (T 9) (Times (Copy (IT 109)) (-1) 1);
  (*6883*) Del (IT 109);
  (*6884*) AddTo (T 9) (Times (Copy (IT 11)) (-1) 1);
  (*6885*) Del (IT 11);
  (*6886*) AddTo (T 9) (Times (Copy (IT 118)) (-2) 1);
  (*6887*) Del (IT 118);
  (*6888*) AddTo (T 9) (Times (Copy (IT 122)) (-1) 1);
  (*6889*) Del (IT 122);
  (*6890*) AddTo (T 9) (Times (Copy (IT 125)) (-2) 1);
  (*6891*) Del (IT 125);
  (*6892*) AddTo (T 9) (Times (Copy (IT 14)) (-2) 1);
  (*6893*) Del (IT 14);
  (*6894*) AddTo (T 9) (Times (Copy (IT 179)) (-1) 1);
  (*6895*) Del (IT 179);
  (*6896*) AddTo (T 9) (Times (Copy (IT 196)) (-1) 1);
  (*6897*) Del (IT 196);
  (*6898*) AddTo (T 9) (Times (Copy (IT 199)) (-1) 1);
  (*6899*) Del (IT 199);
  (*6900*) AddTo (T 9) (Times (Copy (IT 215)) (-1) 1);
  (*6901*) Del (IT 215);
  (*6902*) AddTo (T 9) (Times (Copy (IT 39)) (-1) 1);
  (*6903*) Del (IT 39);
  (*6904*) AddTo (T 9) (Times (Copy (IT 42)) (-1) 1);
  (*6905*) Del (IT 42);
  (*6906*) AddTo (T 9) (Times (Copy (IT 8)) (-1) 1);
  (*6907*) Del (IT 8);
  (*6908*) AddTo (T 9) (Times (Copy (IT 86)) (-1) 1);
  (*6909*) Del (IT 86);
  (*6910*) Assign (T 33) (Plain (Copy (IT 136)));
  (*6911*) Del (IT 136);
  (*6912*) AddTo (T 33) (Times (Copy (IT 67)) (-1) 1);
  (*6913*) Del (IT 67);
  (*6914*) Assign (T 22) (Times (Copy (IT 237)) (1) 2);
  (*6915*) Del (IT 237);
  (*6916*) AddTo (T 22) (Times (Copy (IT 252)) (1) 2);
  (*6917*) Del (IT 252);
  (*6918*) AddTo (T 22) (Plain (Transpose (IT 276) [0;2;1;3]));
  (*6919*) Del (IT 276);
  (*6920*) AddTo (T 22) (Times (Transpose (IT 302) [0;3;1;2]) (1) 2);
  (*6921*) Del (IT 302);
  (*6922*) AddTo (T 22) (Times (Transpose (IT 264) [0;3;1;2]) (-1) 2);
  (*6923*) Del (IT 264);
  (*6924*) AddTo (T 22) (Times (Transpose (IT 273) [0;3;1;2]) (-1) 1);
  (*6925*) Del (IT 273);
  (*6926*) AddTo (T 22) (Times (Transpose (IT 280) [0;3;1;2]) (-1) 2);
  (*6927*) Del (IT 280);
  (*6928*) Assign (T 26) (Plain (Copy (IT 310)));
  (*6929*) Del (IT 310);
  (*6930*) AddTo (T 26) (Times (Copy (IT 316)) (2) 1);
  (*6931*) Del (IT 316);
  (*6932*) AddTo (T 26) (Plain (Copy (IT 336)));
  (*6933*) Del (IT 336);
  (*6934*) AddTo (T 26) (Plain (Copy (IT 50)));
  (*6935*) AddTo (T 26) (Times (Copy (IT 313)) (-1) 1);
  (*6936*) Assign (T 28) (Plain (Copy (IT 251)));
  (*6937*) Del (IT 251);
  (*6938*) AddTo (T 28) (Plain (Copy (IT 335)));
  (*6939*) Del (IT 335);
  (*6940*) AddTo (T 28) (Times (Transpose (IT 320) [0;1;3;2]) (-1) 1);
  (*6941*) Del (IT 320);
  (*6942*) Assign (T 29) (Plain (Copy (IT 104)));
  (*6943*) AddTo (T 29) (Times (Copy (IT 112)) (1) 2);
  (*6944*) AddTo (T 29) (Plain (Copy (IT 134)));
  (*6945*) AddTo (T 29) (Times (Copy (IT 140)) (1) 2);
  (*6946*) AddTo (T 29) (Plain (Copy (IT 150)));
  (*6947*) AddTo (T 29) (Times (Copy (IT 159)) (1) 2);
  (*6948*) AddTo (T 29) (Times (Copy (IT 176)) (1) 2);
  (*6949*) AddTo (T 29) (Times (Copy (IT 183)) (1) 2);
  (*6950*) AddTo (T 29) (Times (Copy (IT 193)) (1) 2);
  (*6951*) AddTo (T 29) (Times (Copy (IT 21)) (1) 2);
  (*6952*) AddTo (T 29) (Times (Copy (IT 212)) (1) 2);
  (*6953*) AddTo (T 29) (Times (Copy (IT 219)) (1) 2);
  (*6954*) AddTo (T 29) (Times (Copy (IT 3)) (1) 2);
  (*6955*) AddTo (T 29) (Times (Copy (IT 37)) (1) 2);
  (*6956*) AddTo (T 29) (Plain (Copy (IT 65)));
  (*6957*) AddTo (T 29) (Times (Copy (IT 74)) (1) 2);
  (*6958*) AddTo (T 29) (Plain (Copy (IT 80)));
  (*6959*) AddTo (T 29) (Times (Copy n_f'aa'ov) (-1) 2);
  (*6960*) AddTo (T 29) (Times (Copy (IT 107)) (-1) 1);
  (*6961*) AddTo (T 29) (Times (Copy (IT 116)) (-1) 2);
  (*6962*) AddTo (T 29) (Times (Copy (IT 120)) (-1) 1);
  (*6963*) AddTo (T 29) (Times (Copy (IT 12)) (-1) 2);
  (*6964*) AddTo (T 29) (Times (Copy (IT 123)) (-1) 2);
  (*6965*) AddTo (T 29) (Times (Copy (IT 173)) (-1) 2);
  (*6966*) AddTo (T 29) (Times (Copy (IT 191)) (-1) 2);
  (*6967*) AddTo (T 29) (Times (Copy (IT 200)) (-1) 2);
  (*6968*) AddTo (T 29) (Times (Copy (IT 209)) (-1) 2);
  (*6969*) AddTo (T 29) (Times (Copy (IT 35)) (-1) 2);
  (*6970*) AddTo (T 29) (Times (Copy (IT 43)) (-1) 2);
  (*6971*) AddTo (T 29) (Times (Copy (IT 6)) (-1) 2);
  (*6972*) AddTo (T 29) (Times (Copy (IT 88)) (-1) 2);
  (*6973*) AddTo (T 29) (Times (Copy (IT 9)) (-1) 1);
  (*6974*) Assign (T 34) (Plain (Transpose (IT 240) [1;0]));
  (*6975*) Del (IT 240);
  (*6976*) AddTo (T 34) (Times (Copy (IT 256)) (2) 1);
  (*6977*) Del (IT 256);
  (*6978*) AddTo (T 34) (Plain (Copy (IT 258)));
  (*6979*) Del (IT 258);
  (*6980*) AddTo (T 34) (Times (Copy n_f'bb'vv) (-1) 1);
  (*6981*) AddTo (T 34) (Times (Transpose (IT 195) [1;0]) (-1) 1);
  (*6982*) Del (IT 195);
  (*6983*) AddTo (T 34) (Times (Transpose (IT 198) [1;0]) (-1) 1);
  (*6984*) Del (IT 198);
  (*6985*) Assign (T 38) (Plain (Copy (T 35)));
  (*6986*) Del (T 35);
  (*6987*) AddTo (T 38) (Times (Copy (T 36)) (-1) 1);
  (*6988*) Del (T 36);
  (*6989*) AddTo (T 38) (Times (Copy (T 37)) (2) 1);
  (*6990*) Del (T 37);
  (*6991*) Assign (T 4) (Times (Copy (IT 161)) (2) 1);
  (*6992*) Del (IT 161);
  (*6993*) AddTo (T 4) (Plain (Copy (IT 167)));
  (*6994*) Del (IT 167);
  (*6995*) AddTo (T 4) (Plain (Transpose (IT 204) [0;1;3;2]));
  (*6996*) Del (IT 204);
  (*6997*) AddTo (T 4) (Plain (Copy (IT 45)));
  (*6998*) AddTo (T 4) (Times (Copy (IT 164)) (-2) 1);
  (*6999*) Del (IT 164);
  (*7000*) AddTo (T 4) (Times (Transpose (IT 202) [0;1;3;2]) (-1) 1);
  (*7001*) Del (IT 202);
  (*7002*) AddTo (T 4) (Times (Transpose (IT 48) [0;1;3;2]) (-1) 1);
  (*7003*) Del (IT 48);
  (*7004*) Assign (T 15) (Plain (Transpose (IT 32) [1;0]));
  (*7005*) Del (IT 32);
  (*7006*) AddTo (T 15) (Times (Copy (IT 59)) (2) 1);
  (*7007*) Del (IT 59);
  (*7008*) AddTo (T 15) (Plain (Copy (IT 62)));
  (*7009*) Del (IT 62);
  (*7010*) AddTo (T 15) (Times (Copy n_f'aa'vv) (-1) 1);
  (*7011*) AddTo (T 15) (Times (Transpose (IT 30) [1;0]) (-1) 1);
  (*7012*) Del (IT 30);
  (*7013*) AddTo (T 15) (Times (Transpose (IT 34) [1;0]) (-1) 1);
  (*7014*) Del (IT 34);
  (*7015*) Assign (T 14) (Plain (Copy (IT 133)));
  (*7016*) Del (IT 133);
  (*7017*) AddTo (T 14) (Times (Copy (IT 64)) (-1) 1);
  (*7018*) Del (IT 64);
  (*7019*) Assign (T 11) (Plain (Einsum [(T 7,[0;1;2]); (n_t1'aa,[3;2])] [3;0;1]));
  (*7020*) Assign (T 1) (Plain (Copy (IT 147)));
  (*7021*) Del (IT 147);
  (*7022*) AddTo (T 1) (Plain (Transpose (IT 27) [0;2;1;3]));
  (*7023*) AddTo (T 1) (Plain (Transpose (IT 56) [0;2;1;3]));
  (*7024*) Del (IT 56);
  (*7025*) AddTo (T 1) (Plain (Copy (IT 78)));
  (*7026*) Del (IT 78);
  (*7027*) AddTo (T 1) (Plain (Copy (IT 92)));
  (*7028*) Del (IT 92);
  (*7029*) AddTo (T 1) (Times (Copy (IT 98)) (2) 1);
  (*7030*) Del (IT 98);
  (*7031*) AddTo (T 1) (Times (Copy (IT 101)) (-1) 1);
  (*7032*) Del (IT 101);
  (*7033*) AddTo (T 1) (Times (Transpose (IT 95) [0;2;1;3]) (-1) 1);
  (*7034*) Del (IT 95);
  (*7035*) Assign (T 8) (Plain (Transpose (IT 206) [0;1;3;2]));
  (*7036*) Del (IT 206);
  (*7037*) AddTo (T 8) (Plain (Transpose (IT 53) [0;1;3;2]));
  (*7038*) Del (IT 53);
  (*7039*) AddTo (T 8) (Times (Copy (IT 171)) (-1) 1);
  (*7040*) Del (IT 171);
  (*7041*) Assign (T 2) (Times (Copy (IT 145)) (1) 2);
  (*7042*) Del (IT 145);
  (*7043*) AddTo (T 2) (Times (Transpose (IT 25) [0;2;3;1]) (1) 2);
  (*7044*) Del (IT 25);
  (*7045*) AddTo (T 2) (Times (Transpose (IT 54) [0;2;3;1]) (1) 2);
  (*7046*) Del (IT 54);
  (*7047*) AddTo (T 2) (Plain (Transpose (IT 93) [0;1;3;2]));
  (*7048*) Del (IT 93);
  (*7049*) AddTo (T 2) (Times (Copy (IT 76)) (-1) 2);
  (*7050*) Del (IT 76);
  (*7051*) AddTo (T 2) (Times (Copy (IT 90)) (-1) 1);
  (*7052*) Del (IT 90);
  (*7053*) AddTo (T 2) (Times (Copy (IT 96)) (-1) 2);
  (*7054*) Del (IT 96);
  (*7055*) Assign (T 6) (Plain (Copy (IT 163)));
  (*7056*) Del (IT 163);
  (*7057*) AddTo (T 6) (Times (Copy (IT 169)) (2) 1);
  (*7058*) Del (IT 169);
  (*7059*) AddTo (T 6) (Plain (Copy (IT 207)));
  (*7060*) Del (IT 207);
  (*7061*) AddTo (T 6) (Plain (Copy (IT 50)));
  (*7062*) AddTo (T 6) (Times (Copy (IT 166)) (-1) 1);
  (*7063*) Assign (T 12) (Plain (Copy (IT 142)));
  (*7064*) Del (IT 142);
  (*7065*) AddTo (T 12) (Plain (Copy (IT 70)));
  (*7066*) Del (IT 70);
  (*7067*) Assign (T 10) (Times (Copy (IT 104)) (2) 1);
  (*7068*) Del (IT 104);
  (*7069*) AddTo (T 10) (Plain (Copy (IT 112)));
  (*7070*) Del (IT 112);
  (*7071*) AddTo (T 10) (Times (Copy (IT 134)) (2) 1);
  (*7072*) Del (IT 134);
  (*7073*) AddTo (T 10) (Plain (Copy (IT 140)));
  (*7074*) Del (IT 140);
  (*7075*) AddTo (T 10) (Times (Copy (IT 150)) (2) 1);
  (*7076*) Del (IT 150);
  (*7077*) AddTo (T 10) (Plain (Copy (IT 159)));
  (*7078*) Del (IT 159);
  (*7079*) AddTo (T 10) (Plain (Copy (IT 176)));
  (*7080*) Del (IT 176);
  (*7081*) AddTo (T 10) (Plain (Copy (IT 183)));
  (*7082*) Del (IT 183);
  (*7083*) AddTo (T 10) (Plain (Copy (IT 193)));
  (*7084*) Del (IT 193);
  (*7085*) AddTo (T 10) (Plain (Copy (IT 21)));
  (*7086*) Del (IT 21);
  (*7087*) AddTo (T 10) (Plain (Copy (IT 212)));
  (*7088*) Del (IT 212);
  (*7089*) AddTo (T 10) (Plain (Copy (IT 219)));
  (*7090*) Del (IT 219);
  (*7091*) AddTo (T 10) (Plain (Copy (IT 3)));
  (*7092*) Del (IT 3);
  (*7093*) AddTo (T 10) (Plain (Copy (IT 37)));
  (*7094*) Del (IT 37);
  (*7095*) AddTo (T 10) (Times (Copy (IT 65)) (2) 1);
  (*7096*) Del (IT 65);
  (*7097*) AddTo (T 10) (Plain (Copy (IT 74)));
  (*7098*) Del (IT 74);
  (*7099*) AddTo (T 10) (Times (Copy (IT 80)) (2) 1);
  (*7100*) Del (IT 80);
  (*7101*) AddTo (T 10) (Times (Copy n_f'aa'ov) (-1) 1);
  (*7102*) AddTo (T 10) (Times (Copy (IT 107)) (-2) 1);
  (*7103*) Del (IT 107);
  (*7104*) AddTo (T 10) (Times (Copy (IT 116)) (-1) 1);
  (*7105*) Del (IT 116);
  (*7106*) AddTo (T 10) (Times (Copy (IT 120)) (-2) 1);
  (*7107*) Del (IT 120);
  (*7108*) AddTo (T 10) (Times (Copy (IT 12)) (-1) 1);
  (*7109*) Del (IT 12);
  (*7110*) AddTo (T 10) (Times (Copy (IT 123)) (-1) 1);
  (*7111*) Del (IT 123);
  (*7112*) AddTo (T 10) (Times (Copy (IT 173)) (-1) 1);
  (*7113*) Del (IT 173);
  (*7114*) AddTo (T 10) (Times (Copy (IT 191)) (-1) 1);
  (*7115*) Del (IT 191);
  (*7116*) AddTo (T 10) (Times (Copy (IT 200)) (-1) 1);
  (*7117*) Del (IT 200);
  (*7118*) AddTo (T 10) (Times (Copy (IT 209)) (-1) 1);
  (*7119*) Del (IT 209);
  (*7120*) AddTo (T 10) (Times (Copy (IT 35)) (-1) 1);
  (*7121*) Del (IT 35);
  (*7122*) AddTo (T 10) (Times (Copy (IT 43)) (-1) 1);
  (*7123*) Del (IT 43);
  (*7124*) AddTo (T 10) (Times (Copy (IT 6)) (-1) 1);
  (*7125*) Del (IT 6);
  (*7126*) AddTo (T 10) (Times (Copy (IT 88)) (-1) 1);
  (*7127*) Del (IT 88);
  (*7128*) AddTo (T 10) (Times (Copy (IT 9)) (-2) 1);
  (*7129*) Del (IT 9);
  (*7130*) Assign (T 19) (Plain (Copy (T 16)));
  (*7131*) Del (T 16);
  (*7132*) AddTo (T 19) (Times (Copy (T 17)) (2) 1);
  (*7133*) Del (T 17);
  (*7134*) AddTo (T 19) (Plain (Copy (T 18)));
  (*7135*) Del (T 18);
  (*7136*) Assign n_r2new'bbb (Times (Einsum [(n_r2'bbb,[0;1;2]); (IT 491,[3;4;0;1])] [4;3;2]) (2) 1);
  (*7137*) Del (IT 491);
  (*7138*) AddTo n_r2new'bbb (Times (Einsum [(IT 244,[0;1;2;3]); (T 95,[4;0;1])] [3;2;4]) (-2) 1);
  (*7139*) Del (T 95);
  (*7140*) AddTo n_r2new'bbb (Times (Einsum [(T 32,[0;1;2]); (IT 244,[2;1;3;4])] [4;3;0]) (2) 1);
  (*7141*) Del (IT 244);
  (*7142*) AddTo n_r2new'bbb (Plain (Transpose (T 106) [1;2;0]));
  (*7143*) AddTo n_r2new'bbb (Times (Transpose (T 106) [2;1;0]) (-1) 1);
  (*7144*) Del (T 106);
  (*7145*) AddTo n_r2new'bbb (Times (Transpose (T 119) [1;2;0]) (-1) 1);
  (*7146*) AddTo n_r2new'bbb (Plain (Transpose (T 119) [2;1;0]));
  (*7147*) Del (T 119);
  (*7148*) AddTo n_r2new'bbb (Times (Einsum [(T 94,[0;1]); (n_r2'bbb,[2;3;0])] [2;3;1]) (-2) 1);
  (*7149*) AddTo n_r2new'bbb (Plain (Einsum [(T 39,[0;1]); (n_r1'b,[2])] [2;1;0]));
  (*7150*) AddTo n_r2new'bbb (Times (Einsum [(T 39,[0;1]); (n_r1'b,[2])] [1;2;0]) (-1) 1);
  (*7151*) Assign n_r2new'bab (Plain (Einsum [(IT 427,[0;1;2;3]); (n_r2'bab,[2;1;4])] [3;0;4]));
  (*7152*) AddTo n_r2new'bab (Plain (Einsum [(IT 100,[0;1;2;3]); (T 5,[0;4;2])] [3;1;4]));
  (*7153*) AddTo n_r2new'bab (Plain (Einsum [(IT 27,[0;1;2;3]); (T 7,[4;0;2])] [3;1;4]));
  (*7154*) AddTo n_r2new'bab (Times (Einsum [(IT 27,[0;1;2;3]); (n_r1'a,[2])] [3;1;0]) (-1) 1);
  (*7155*) AddTo n_r2new'bab (Times (Einsum [(n_r2'aaa,[0;1;2]); (IT 313,[2;3;1;4])] [4;0;3]) (2) 1);
  (*7156*) Del (IT 313);
  (*7157*) AddTo n_r2new'bab (Plain (Einsum [(n_r2'bab,[0;1;2]); (T 86,[2;3;1;4])] [0;4;3]));
  (*7158*) Del (T 86);
  (*7159*) AddTo n_r2new'bab (Times (Einsum [(n_r2'bab,[0;1;2]); (T 88,[2;3;0;4])] [4;1;3]) (-1) 1);
  (*7160*) Del (T 88);
  (*7161*) AddTo n_r2new'bab (Times (Einsum [(T 90,[0;1;2]); (IT 50,[0;2;3;4])] [4;3;1]) (-1) 1);
  (*7162*) Del (T 90);
  (*7163*) AddTo n_r2new'bab (Times (Einsum [(n_v'bbb'xov,[0;1;2]); (T 91,[0;3])] [2;3;1]) (-1) 1);
  (*7164*) Del (T 91);
  (*7165*) AddTo n_r2new'bab (Times (Einsum [(T 92,[0;1]); (n_r2'bab,[2;0;3])] [2;1;3]) (-1) 1);
  (*7166*) Del (T 92);
  (*7167*) AddTo n_r2new'bab (Times (Einsum [(n_r2'bab,[0;1;2]); (T 93,[0;3])] [3;1;2]) (-2) 1);
  (*7168*) Del (T 93);
  (*7169*) AddTo n_r2new'bab (Times (Einsum [(T 94,[0;1]); (n_r2'bab,[2;3;0])] [2;3;1]) (-1) 1);
  (*7170*) Del (T 94);
  (*7171*) AddTo n_r2new'bab (Times (Einsum [(T 68,[0]); (IT 50,[0;1;2;3])] [3;2;1]) (2) 1);
  (*7172*) Del (T 68);
  (*7173*) AddTo n_r2new'bab (Times (Einsum [(T 39,[0;1]); (n_r1'a,[2])] [1;2;0]) (-1) 1);
  (*7174*) Assign n_r2new'aba (Plain (Einsum [(IT 427,[0;1;2;3]); (n_r2'aba,[0;3;4])] [1;2;4]));
  (*7175*) Del (IT 427);
  (*7176*) AddTo n_r2new'aba (Times (Einsum [(IT 27,[0;1;2;3]); (T 25,[4;0;1])] [2;3;4]) (-1) 1);
  (*7177*) Del (IT 27);
  (*7178*) AddTo n_r2new'aba (Times (Einsum [(T 27,[0;1;2]); (IT 100,[1;3;4;2])] [3;4;0]) (-1) 1);
  (*7179*) AddTo n_r2new'aba (Times (Einsum [(IT 100,[0;1;2;3]); (n_r1'b,[3])] [1;2;0]) (-1) 1);
  (*7180*) Del (IT 100);
  (*7181*) AddTo n_r2new'aba (Times (Einsum [(IT 166,[0;1;2;3]); (n_r2'bbb,[4;3;1])] [2;4;0]) (2) 1);
  (*7182*) Del (IT 166);
  (*7183*) AddTo n_r2new'aba (Times (Einsum [(T 72,[0;1;2;3]); (n_r2'aba,[2;4;0])] [3;4;1]) (-1) 1);
  (*7184*) Del (T 72);
  (*7185*) AddTo n_r2new'aba (Plain (Einsum [(T 73,[0;1;2;3]); (n_r2'aba,[4;3;0])] [4;2;1]));
  (*7186*) Del (T 73);
  (*7187*) AddTo n_r2new'aba (Plain (Einsum [(T 75,[0;1;2]); (IT 50,[1;2;3;4])] [3;4;0]));
  (*7188*) Del (T 75);
  (*7189*) AddTo n_r2new'aba (Times (Einsum [(T 80,[0;1]); (n_v'baa'xov,[0;2;3])] [3;1;2]) (-1) 1);
  (*7190*) Del (T 80);
  (*7191*) AddTo n_r2new'aba (Times (Einsum [(n_r2'aba,[0;1;2]); (T 82,[0;3])] [3;1;2]) (-1) 1);
  (*7192*) Del (T 82);
  (*7193*) AddTo n_r2new'aba (Times (Einsum [(T 83,[0;1]); (n_r2'aba,[2;0;3])] [2;1;3]) (-1) 1);
  (*7194*) Del (T 83);
  (*7195*) AddTo n_r2new'aba (Times (Einsum [(T 71,[0;1]); (n_r2'aba,[2;3;0])] [2;3;1]) (-1) 1);
  (*7196*) AddTo n_r2new'aba (Times (Einsum [(T 84,[0]); (IT 50,[1;0;2;3])] [2;3;1]) (2) 1);
  (*7197*) Del (IT 50);
  (*7197*) Del (T 84);
  (*7198*) AddTo n_r2new'aba (Times (Einsum [(T 20,[0;1]); (n_r1'b,[2])] [1;2;0]) (-1) 1);
  (*7199*) Assign n_r2new'aaa (Times (Einsum [(n_r2'aaa,[0;1;2]); (IT 388,[3;4;1;0])] [4;3;2]) (-2) 1);
  (*7200*) Del (IT 388);
  (*7201*) AddTo n_r2new'aaa (Times (Einsum [(IT 45,[0;1;2;3]); (T 40,[4;0;1])] [3;2;4]) (-2) 1);
  (*7202*) Del (T 40);
  (*7203*) AddTo n_r2new'aaa (Times (Einsum [(IT 45,[0;1;2;3]); (T 13,[4;1;0])] [3;2;4]) (2) 1);
  (*7204*) Del (IT 45);
  (*7205*) AddTo n_r2new'aaa (Plain (Transpose (T 55) [1;2;0]));
  (*7206*) AddTo n_r2new'aaa (Times (Transpose (T 55) [2;1;0]) (-1) 1);
  (*7207*) Del (T 55);
  (*7208*) AddTo n_r2new'aaa (Times (Transpose (T 70) [1;2;0]) (-1) 1);
  (*7209*) AddTo n_r2new'aaa (Plain (Transpose (T 70) [2;1;0]));
  (*7210*) Del (T 70);
  (*7211*) AddTo n_r2new'aaa (Times (Einsum [(T 71,[0;1]); (n_r2'aaa,[2;3;0])] [2;3;1]) (-2) 1);
  (*7212*) Del (T 71);
  (*7213*) AddTo n_r2new'aaa (Plain (Einsum [(n_r1'a,[0]); (T 20,[1;2])] [0;2;1]));
  (*7214*) AddTo n_r2new'aaa (Times (Einsum [(T 20,[0;1]); (n_r1'a,[2])] [1;2;0]) (-1) 1);
  (*7215*) Assign n_r1new'b (Times (Einsum [(n_r2'aba,[0;1;2]); (T 21,[2;0;3;1])] [3]) (-1) 1);
  (*7216*) Del (T 21);
  (*7217*) AddTo n_r1new'b (Times (Einsum [(T 22,[0;1;2;3]); (n_r2'bbb,[2;3;0])] [1]) (4) 1);
  (*7218*) Del (T 22);
  (*7219*) AddTo n_r1new'b (Times (Einsum [(T 24,[0;1;2;3]); (T 23,[0;1;2])] [3]) (2) 1);
  (*7220*) Del (T 23);
  (*7220*) Del (T 24);
  (*7221*) AddTo n_r1new'b (Plain (Einsum [(T 26,[0;1;2;3]); (T 25,[0;1;2])] [3]));
  (*7222*) Del (T 25);
  (*7222*) Del (T 26);
  (*7223*) AddTo n_r1new'b (Plain (Einsum [(T 27,[0;1;2]); (T 28,[0;1;3;2])] [3]));
  (*7224*) Del (T 27);
  (*7224*) Del (T 28);
  (*7225*) AddTo n_r1new'b (Times (Einsum [(T 29,[0;1]); (n_r2'aba,[1;2;0])] [2]) (2) 1);
  (*7226*) Del (T 29);
  (*7227*) AddTo n_r1new'b (Times (Einsum [(T 9,[0;1]); (n_r2'bbb,[2;1;0])] [2]) (-2) 1);
  (*7228*) AddTo n_r1new'b (Times (Einsum [(T 31,[0;1;2;3]); (T 30,[0;1;2])] [3]) (-1) 1);
  (*7229*) Del (T 31);
  (*7229*) Del (T 30);
  (*7230*) AddTo n_r1new'b (Times (Einsum [(T 32,[0;1;2]); (T 33,[0;2;1;3])] [3]) (-2) 1);
  (*7231*) Del (T 32);
  (*7231*) Del (T 33);
  (*7232*) AddTo n_r1new'b (Times (Einsum [(n_r1'b,[0]); (T 34,[0;1])] [1]) (-1) 1);
  (*7233*) Del (T 34);
  (*7234*) AddTo n_r1new'b (Times (Einsum [(T 39,[0;1]); (T 38,[0])] [1]) (-1) 1);
  (*7235*) Del (T 39);
  (*7235*) Del (T 38);
  (*7236*) Assign n_r1new'a (Times (Einsum [(T 1,[0;1;2;3]); (n_r2'bab,[3;1;0])] [2]) (-1) 1);
  (*7237*) Del (T 1);
  (*7238*) AddTo n_r1new'a (Times (Einsum [(T 2,[0;1;2;3]); (n_r2'aaa,[1;2;0])] [3]) (4) 1);
  (*7239*) Del (T 2);
  (*7240*) AddTo n_r1new'a (Times (Einsum [(T 4,[0;1;2;3]); (T 3,[0;1;2])] [3]) (2) 1);
  (*7241*) Del (T 3);
  (*7241*) Del (T 4);
  (*7242*) AddTo n_r1new'a (Times (Einsum [(T 6,[0;1;2;3]); (T 5,[0;1;3])] [2]) (-1) 1);
  (*7243*) Del (T 5);
  (*7243*) Del (T 6);
  (*7244*) AddTo n_r1new'a (Times (Einsum [(T 7,[0;1;2]); (T 8,[0;1;2;3])] [3]) (-1) 1);
  (*7245*) Del (T 7);
  (*7245*) Del (T 8);
  (*7246*) AddTo n_r1new'a (Plain (Einsum [(T 9,[0;1]); (n_r2'bab,[1;2;0])] [2]));
  (*7247*) Del (T 9);
  (*7248*) AddTo n_r1new'a (Times (Einsum [(T 10,[0;1]); (n_r2'aaa,[2;1;0])] [2]) (-2) 1);
  (*7249*) Del (T 10);
  (*7250*) AddTo n_r1new'a (Plain (Einsum [(T 12,[0;1;2;3]); (T 11,[0;1;2])] [3]));
  (*7251*) Del (T 12);
  (*7251*) Del (T 11);
  (*7252*) AddTo n_r1new'a (Times (Einsum [(T 14,[0;1;2;3]); (T 13,[0;2;1])] [3]) (-2) 1);
  (*7253*) Del (T 13);
  (*7253*) Del (T 14);
  (*7254*) AddTo n_r1new'a (Times (Einsum [(n_r1'a,[0]); (T 15,[0;1])] [1]) (-1) 1);
  (*7255*) Del (T 15);
  (*7256*) AddTo n_r1new'a (Times (Einsum [(T 20,[0;1]); (T 19,[0])] [1]) (-1) 1);
  (*7257*) Del (T 20);
  (*7257*) Del (T 19)]
 [(n_r1new'b,[7]); (n_r1new'a,[5]); (n_r2new'bbb,[7;7;6]); (n_r2new'bab,[7;5;6]); (n_r2new'aba,[5;7;4]); (n_r2new'aaa,[5;5;4])].

