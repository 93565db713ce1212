(** Generated by tools/translate_codegen.py from ebcc/codegen/UDFCC2.py; one statement per source line
    (the number in the comment before it). *)
From Coq Require Import ZArith List.
From Verif Require Import CgModel CgNames.
Import ListNotations.

(** ebcc/codegen/UDFCC2.py:19-67 [energy] *)
Definition UDFCC2_energy : prog := mkprog
 [(n_t1'bb,[6;7]); (n_v'bbb'xov,[2;6;7]); (n_t1'aa,[4;5]); (n_v'baa'xov,[2;4;5]); (n_t2'bbbb,[6;6;7;7]); (n_f'aa'ov,[4;5]); (n_t2'aaaa,[4;4;5;5]); (n_t2'abab,[4;6;5;7]); (n_f'bb'ov,[6;7])]
 [(*40*) Assign (T 1) (Plain (Einsum [(n_t1'bb,[0;1]); (n_v'bbb'xov,[2;0;1])] [2]));
  (*41*) Assign (T 4) (Plain (Einsum [(n_t1'aa,[0;1]); (n_v'baa'xov,[2;3;1])] [2;0;3]));
  (*42*) Assign (T 2) (Times (Einsum [(n_v'baa'xov,[0;1;2]); (n_t1'aa,[1;2])] [0]) (1) 2);
  (*43*) AddTo (T 2) (Plain (Copy (T 1)));
  (*44*) Assign (T 6) (Plain (Einsum [(n_t1'bb,[0;1]); (n_v'bbb'xov,[2;3;1])] [2;0;3]));
  (*45*) Assign (T 8) (Plain (Einsum [(n_v'bbb'xov,[0;1;2]); (n_t2'bbbb,[3;1;4;2])] [0;3;4]));
  (*46*) AddTo (T 8) (Times (Einsum [(n_t1'bb,[0;1]); (T 1,[2])] [2;0;1]) (1) 2);
  (*47*) Del (T 1);
  (*48*) Assign (T 5) (Times (Copy n_f'aa'ov) (2) 1);
  (*49*) AddTo (T 5) (Times (Einsum [(n_v'baa'xov,[0;1;2]); (T 4,[0;1;3])] [3;2]) (-1) 1);
  (*50*) Del (T 4);
  (*51*) Assign (T 3) (Plain (Einsum [(n_v'baa'xov,[0;1;2]); (n_t2'aaaa,[3;1;4;2])] [0;3;4]));
  (*52*) AddTo (T 3) (Plain (Einsum [(n_t2'abab,[0;1;2;3]); (n_v'bbb'xov,[4;1;3])] [4;0;2]));
  (*53*) AddTo (T 3) (Plain (Einsum [(n_t1'aa,[0;1]); (T 2,[2])] [2;0;1]));
  (*54*) Del (T 2);
  (*55*) Assign (T 7) (Plain (Copy n_f'bb'ov));
  (*56*) AddTo (T 7) (Times (Einsum [(n_v'bbb'xov,[0;1;2]); (T 6,[0;1;3])] [3;2]) (-1) 2);
  (*57*) Del (T 6);
  (*58*) Assign n_e_cc (Plain (Einsum [(n_v'baa'xov,[0;1;2]); (T 3,[0;1;2])] []));
  (*59*) Del (T 3);
  (*60*) AddTo n_e_cc (Times (Einsum [(n_t1'aa,[0;1]); (T 5,[0;1])] []) (1) 2);
  (*61*) Del (T 5);
  (*62*) AddTo n_e_cc (Plain (Einsum [(T 7,[0;1]); (n_t1'bb,[0;1])] []));
  (*63*) Del (T 7);
  (*64*) AddTo n_e_cc (Plain (Einsum [(T 8,[0;1;2]); (n_v'bbb'xov,[0;1;2])] []));
  (*65*) Del (T 8)]
 [(n_e_cc,[])].

(** ebcc/codegen/UDFCC2.py:69-439 [update_amps] *)
Definition UDFCC2_update_amps : prog := mkprog
 [(n_t1'bb,[6;7]); (n_v'bbb'xov,[2;6;7]); (n_t1'aa,[4;5]); (n_v'baa'xov,[2;4;5]); (n_v'bbb'xvv,[2;7;7]); (n_v'bbb'xoo,[2;6;6]); (n_v'baa'xvv,[2;5;5]); (n_v'baa'xoo,[2;4;4]); (n_t2'abab,[4;6;5;7]); (n_f'bb'ov,[6;7]); (n_f'aa'ov,[4;5]); (n_t2'bbbb,[6;6;7;7]); (n_t2'aaaa,[4;4;5;5]); (n_f'bb'oo,[6;6]); (n_f'bb'vv,[7;7]); (n_f'aa'vv,[5;5]); (n_f'aa'oo,[4;4])]
 [(*94*) Assign (T 18) (Plain (Einsum [(n_t1'bb,[0;1]); (n_v'bbb'xov,[2;3;1])] [2;0;3]));
  (*95*) Assign (T 1) (Plain (Einsum [(n_t1'aa,[0;1]); (n_v'baa'xov,[2;3;1])] [2;0;3]));
  (*96*) Assign (T 7) (Plain (Einsum [(n_t1'bb,[0;1]); (n_v'bbb'xov,[2;0;1])] [2]));
  (*97*) Assign (T 6) (Plain (Einsum [(n_v'baa'xov,[0;1;2]); (n_t1'aa,[1;2])] [0]));
  (*98*) Assign (T 35) (Plain (Einsum [(n_t1'bb,[0;1]); (n_v'bbb'xvv,[2;3;1])] [2;0;3]));
  (*99*) Assign (T 87) (Plain (Einsum [(T 18,[0;1;2]); (n_v'bbb'xoo,[0;3;4])] [1;3;4;2]));
  (*100*) Assign (T 93) (Plain (Einsum [(T 18,[0;1;2]); (T 18,[0;3;4])] [1;3;2;4]));
  (*101*) Assign (T 72) (Plain (Einsum [(n_t1'bb,[0;1]); (T 18,[2;3;0])] [2;3;1]));
  (*102*) Assign (T 80) (Plain (Einsum [(n_v'bbb'xoo,[0;1;2]); (n_v'bbb'xoo,[0;3;4])] [1;3;4;2]));
  (*103*) Assign (T 17) (Plain (Einsum [(n_v'baa'xvv,[0;1;2]); (n_t1'aa,[3;2])] [0;3;1]));
  (*104*) Assign (T 51) (Plain (Einsum [(T 1,[0;1;2]); (n_t1'aa,[2;3])] [0;1;3]));
  (*105*) Assign (T 37) (Plain (Einsum [(n_v'baa'xoo,[0;1;2]); (n_v'baa'xoo,[0;3;4])] [1;3;4;2]));
  (*106*) Assign (T 48) (Plain (Einsum [(T 1,[0;1;2]); (n_v'baa'xoo,[0;3;4])] [1;3;4;2]));
  (*107*) Assign (T 59) (Plain (Einsum [(T 1,[0;1;2]); (T 1,[0;3;4])] [1;3;2;4]));
  (*108*) Assign (T 8) (Plain (Copy (T 6)));
  (*109*) AddTo (T 8) (Plain (Copy (T 7)));
  (*110*) Assign (T 19) (Plain (Einsum [(T 18,[0;1;2]); (n_v'bbb'xov,[0;1;3])] [2;3]));
  (*111*) Assign (T 27) (Plain (Einsum [(n_t2'abab,[0;1;2;3]); (n_v'baa'xov,[4;0;2])] [4;1;3]));
  (*112*) Assign (T 12) (Plain (Einsum [(T 1,[0;1;2]); (n_v'baa'xov,[0;1;3])] [2;3]));
  (*113*) Assign (T 4) (Plain (Einsum [(n_t2'abab,[0;1;2;3]); (n_v'bbb'xov,[4;1;3])] [4;0;2]));
  (*114*) Assign (T 33) (Plain (Einsum [(n_v'bbb'xoo,[0;1;2]); (n_v'bbb'xov,[0;3;4])] [1;2;3;4]));
  (*115*) Assign (T 84) (Plain (Einsum [(T 35,[0;1;2]); (n_v'bbb'xoo,[0;3;4])] [1;3;4;2]));
  (*116*) Assign (T 88) (Plain (Einsum [(T 87,[0;1;2;3]); (n_t1'bb,[3;4])] [0;1;2;4]));
  (*117*) Del (T 87);
  (*118*) Assign (T 25) (Plain (Einsum [(T 18,[0;1;2]); (n_v'bbb'xov,[0;3;4])] [1;3;2;4]));
  (*119*) Assign (T 65) (Plain (Einsum [(n_t1'bb,[0;1]); (n_f'bb'ov,[0;2])] [2;1]));
  (*120*) Assign (T 94) (Plain (Einsum [(T 93,[0;1;2;3]); (n_t1'bb,[2;4])] [1;0;3;4]));
  (*121*) Del (T 93);
  (*122*) Assign (T 69) (Plain (Einsum [(n_t1'bb,[0;1]); (n_f'bb'ov,[2;1])] [2;0]));
  (*123*) Assign (T 73) (Plain (Copy n_v'bbb'xov));
  (*124*) AddTo (T 73) (Plain (Copy (T 35)));
  (*125*) AddTo (T 73) (Times (Copy (T 72)) (-1) 1);
  (*126*) Assign (T 81) (Plain (Einsum [(T 80,[0;1;2;3]); (n_t1'bb,[3;4])] [1;2;0;4]));
  (*127*) Del (T 80);
  (*128*) Assign (T 97) (Plain (Einsum [(T 18,[0;1;2]); (T 35,[0;3;4])] [1;3;2;4]));
  (*129*) Assign (T 70) (Plain (Copy (T 17)));
  (*130*) AddTo (T 70) (Times (Copy (T 51)) (-1) 1);
  (*131*) Assign (T 41) (Plain (Einsum [(n_f'aa'ov,[0;1]); (n_t1'aa,[0;2])] [1;2]));
  (*132*) Assign (T 67) (Plain (Einsum [(n_v'baa'xoo,[0;1;2]); (T 18,[0;3;4])] [1;2;3;4]));
  (*133*) Assign (T 74) (Plain (Einsum [(T 1,[0;1;2]); (T 18,[0;3;4])] [1;2;3;4]));
  (*134*) Assign (T 63) (Plain (Einsum [(n_v'bbb'xoo,[0;1;2]); (n_v'baa'xoo,[0;3;4])] [3;4;1;2]));
  (*135*) Assign (T 38) (Plain (Einsum [(T 37,[0;1;2;3]); (n_t1'aa,[3;4])] [1;2;0;4]));
  (*136*) Del (T 37);
  (*137*) Assign (T 2) (Plain (Einsum [(T 1,[0;1;2]); (n_v'baa'xov,[0;3;4])] [1;3;2;4]));
  (*138*) Assign (T 49) (Plain (Einsum [(T 48,[0;1;2;3]); (n_t1'aa,[3;4])] [0;1;2;4]));
  (*139*) Del (T 48);
  (*140*) Assign (T 60) (Plain (Einsum [(T 59,[0;1;2;3]); (n_t1'aa,[2;4])] [1;0;3;4]));
  (*141*) Del (T 59);
  (*142*) Assign (T 16) (Plain (Einsum [(n_v'baa'xov,[0;1;2]); (n_v'baa'xoo,[0;3;4])] [3;4;1;2]));
  (*143*) Assign (T 52) (Plain (Copy n_v'baa'xov));
  (*144*) AddTo (T 52) (Plain (Copy (T 17)));
  (*145*) AddTo (T 52) (Times (Copy (T 51)) (-1) 1);
  (*146*) Del (T 51);
  (*147*) Assign (T 46) (Plain (Einsum [(n_v'baa'xoo,[0;1;2]); (T 17,[0;3;4])] [3;1;2;4]));
  (*148*) Assign (T 56) (Plain (Einsum [(T 1,[0;1;2]); (T 17,[0;3;4])] [1;3;2;4]));
  (*149*) Assign (T 44) (Plain (Einsum [(n_f'aa'ov,[0;1]); (n_t1'aa,[2;1])] [0;2]));
  (*150*) Assign (T 22) (Plain (Einsum [(T 8,[0]); (n_v'baa'xov,[0;1;2])] [1;2]));
  (*151*) Assign (T 20) (Plain (Einsum [(T 8,[0]); (n_v'bbb'xov,[0;1;2])] [1;2]));
  (*152*) Assign (T 28) (Plain (Copy n_t2'bbbb));
  (*153*) AddTo (T 28) (Times (Einsum [(n_t1'bb,[0;1]); (n_t1'bb,[2;3])] [2;0;1;3]) (-1) 2);
  (*154*) Assign (T 31) (Plain (Copy n_f'bb'ov));
  (*155*) AddTo (T 31) (Times (Copy (T 19)) (-1) 1);
  (*156*) Assign (T 30) (Plain (Copy (T 27)));
  (*157*) AddTo (T 30) (Times (Einsum [(n_v'bbb'xov,[0;1;2]); (n_t2'bbbb,[3;1;4;2])] [0;3;4]) (2) 1);
  (*158*) AddTo (T 30) (Plain (Einsum [(T 8,[0]); (n_t1'bb,[1;2])] [0;1;2]));
  (*159*) Assign (T 13) (Plain (Copy n_f'aa'ov));
  (*160*) AddTo (T 13) (Times (Copy (T 12)) (-1) 1);
  (*161*) Assign (T 11) (Plain (Einsum [(n_v'baa'xov,[0;1;2]); (n_t2'aaaa,[3;1;4;2])] [0;3;4]));
  (*162*) AddTo (T 11) (Times (Copy (T 4)) (1) 2);
  (*163*) AddTo (T 11) (Times (Einsum [(T 8,[0]); (n_t1'aa,[1;2])] [0;1;2]) (1) 2);
  (*164*) Assign (T 5) (Plain (Copy n_t2'aaaa));
  (*165*) AddTo (T 5) (Times (Einsum [(n_t1'aa,[0;1]); (n_t1'aa,[2;3])] [0;2;3;1]) (-1) 2);
  (*166*) Assign (T 91) (Plain (Einsum [(T 33,[0;1;2;3]); (n_t1'bb,[1;4])] [0;2;4;3]));
  (*167*) Assign (T 96) (Plain (Einsum [(T 35,[0;1;2]); (T 35,[0;3;4])] [1;3;2;4]));
  (*168*) Assign (T 92) (Plain (Einsum [(n_v'bbb'xov,[0;1;2]); (T 35,[0;3;4])] [3;1;2;4]));
  (*169*) Assign (T 85) (Plain (Einsum [(n_t1'bb,[0;1]); (T 84,[2;0;3;4])] [2;3;1;4]));
  (*170*) Del (T 84);
  (*171*) Assign (T 89) (Plain (Einsum [(T 88,[0;1;2;3]); (n_t1'bb,[1;4])] [0;2;4;3]));
  (*172*) Del (T 88);
  (*173*) Assign (T 99) (Plain (Einsum [(T 25,[0;1;2;3]); (n_t1'bb,[2;4])] [0;1;4;3]));
  (*174*) Assign (T 79) (Plain (Einsum [(n_f'bb'oo,[0;1]); (n_t2'bbbb,[2;1;3;4])] [0;2;3;4]));
  (*175*) Assign (T 83) (Plain (Copy n_f'bb'vv));
  (*176*) AddTo (T 83) (Times (Copy (T 65)) (-1) 1);
  (*177*) Assign (T 95) (Plain (Einsum [(n_t1'bb,[0;1]); (T 94,[2;3;0;4])] [2;3;1;4]));
  (*178*) Del (T 94);
  (*179*) Assign (T 66) (Plain (Copy n_f'bb'vv));
  (*180*) AddTo (T 66) (Times (Copy (T 65)) (-1) 1);
  (*181*) Del (T 65);
  (*182*) Assign (T 86) (Plain (Einsum [(T 69,[0;1]); (n_t2'bbbb,[2;0;3;4])] [1;2;3;4]));
  (*183*) Assign (T 90) (Plain (Einsum [(T 73,[0;1;2]); (n_v'bbb'xov,[0;3;4])] [3;1;4;2]));
  (*184*) Assign (T 82) (Plain (Einsum [(T 81,[0;1;2;3]); (n_t1'bb,[0;4])] [1;2;4;3]));
  (*185*) Del (T 81);
  (*186*) Assign (T 98) (Plain (Einsum [(T 97,[0;1;2;3]); (n_t1'bb,[2;4])] [0;1;4;3]));
  (*187*) Del (T 97);
  (*188*) Assign (T 78) (Plain (Einsum [(T 35,[0;1;2]); (T 1,[0;3;4])] [3;4;1;2]));
  (*189*) Assign (T 76) (Plain (Copy n_v'bbb'xov));
  (*190*) AddTo (T 76) (Plain (Copy (T 35)));
  (*191*) AddTo (T 76) (Times (Copy (T 72)) (-1) 1);
  (*192*) Del (T 72);
  (*193*) Assign (T 71) (Plain (Einsum [(T 70,[0;1;2]); (n_v'bbb'xoo,[0;3;4])] [1;3;4;2]));
  (*194*) Del (T 70);
  (*195*) Assign (T 77) (Plain (Einsum [(T 35,[0;1;2]); (n_v'baa'xoo,[0;3;4])] [3;4;1;2]));
  (*196*) Assign (T 15) (Plain (Einsum [(n_v'bbb'xov,[0;1;2]); (n_v'baa'xoo,[0;3;4])] [3;4;1;2]));
  (*197*) Assign (T 3) (Plain (Einsum [(n_v'bbb'xov,[0;1;2]); (T 1,[0;3;4])] [3;4;1;2]));
  (*198*) Assign (T 42) (Plain (Copy n_f'aa'vv));
  (*199*) AddTo (T 42) (Times (Copy (T 41)) (-1) 1);
  (*200*) Assign (T 68) (Plain (Einsum [(n_t1'bb,[0;1]); (T 67,[2;3;4;0])] [2;3;4;1]));
  (*201*) Del (T 67);
  (*202*) Assign (T 75) (Plain (Einsum [(n_t1'bb,[0;1]); (T 74,[2;3;4;0])] [2;3;4;1]));
  (*203*) Del (T 74);
  (*204*) Assign (T 64) (Plain (Einsum [(n_t1'bb,[0;1]); (T 63,[2;3;4;0])] [3;2;4;1]));
  (*205*) Del (T 63);
  (*206*) Assign (T 34) (Plain (Einsum [(n_v'bbb'xoo,[0;1;2]); (n_v'baa'xov,[0;3;4])] [3;1;2;4]));
  (*207*) Assign (T 39) (Plain (Einsum [(T 38,[0;1;2;3]); (n_t1'aa,[0;4])] [1;2;4;3]));
  (*208*) Del (T 38);
  (*209*) Assign (T 62) (Plain (Einsum [(T 2,[0;1;2;3]); (n_t1'aa,[2;4])] [0;1;4;3]));
  (*210*) Assign (T 50) (Plain (Einsum [(T 49,[0;1;2;3]); (n_t1'aa,[1;4])] [0;2;4;3]));
  (*211*) Del (T 49);
  (*212*) Assign (T 43) (Plain (Copy n_f'aa'vv));
  (*213*) AddTo (T 43) (Times (Copy (T 41)) (-1) 1);
  (*214*) Del (T 41);
  (*215*) Assign (T 61) (Plain (Einsum [(T 60,[0;1;2;3]); (n_t1'aa,[2;4])] [0;1;4;3]));
  (*216*) Del (T 60);
  (*217*) Assign (T 55) (Plain (Einsum [(T 17,[0;1;2]); (n_v'baa'xov,[0;3;4])] [1;3;4;2]));
  (*218*) Assign (T 54) (Plain (Einsum [(T 16,[0;1;2;3]); (n_t1'aa,[1;4])] [0;2;4;3]));
  (*219*) Assign (T 58) (Plain (Einsum [(T 17,[0;1;2]); (T 17,[0;3;4])] [3;1;4;2]));
  (*220*) Assign (T 53) (Plain (Einsum [(n_v'baa'xov,[0;1;2]); (T 52,[0;3;4])] [1;3;2;4]));
  (*221*) Del (T 52);
  (*222*) Assign (T 47) (Plain (Einsum [(T 46,[0;1;2;3]); (n_t1'aa,[1;4])] [0;2;4;3]));
  (*223*) Del (T 46);
  (*224*) Assign (T 57) (Plain (Einsum [(T 56,[0;1;2;3]); (n_t1'aa,[2;4])] [0;1;4;3]));
  (*225*) Del (T 56);
  (*226*) Assign (T 40) (Plain (Einsum [(n_t2'aaaa,[0;1;2;3]); (n_f'aa'oo,[4;1])] [4;0;2;3]));
  (*227*) Assign (T 45) (Plain (Einsum [(n_t2'aaaa,[0;1;2;3]); (T 44,[1;4])] [4;0;2;3]));
  (*228*) Assign (T 23) (Plain (Copy n_f'aa'ov));
  (*229*) AddTo (T 23) (Times (Copy (T 12)) (-1) 1);
  (*230*) Del (T 12);
  (*231*) AddTo (T 23) (Plain (Copy (T 22)));
  (*232*) Del (T 22);
  (*233*) Assign (T 21) (Plain (Copy n_f'bb'ov));
  (*234*) AddTo (T 21) (Times (Copy (T 19)) (-1) 1);
  (*235*) Del (T 19);
  (*236*) AddTo (T 21) (Plain (Copy (T 20)));
  (*237*) Del (T 20);
  (*238*) Assign (T 26) (Plain (Einsum [(n_v'baa'xov,[0;1;2]); (T 18,[0;3;4])] [1;3;4;2]));
  (*239*) Assign (T 36) (Plain (Copy n_f'bb'oo));
  (*240*) AddTo (T 36) (Times (Einsum [(n_v'bbb'xoo,[0;1;2]); (T 18,[0;2;3])] [3;1]) (-1) 1);
  (*241*) Del (T 18);
  (*242*) AddTo (T 36) (Plain (Einsum [(T 8,[0]); (n_v'bbb'xoo,[0;1;2])] [1;2]));
  (*243*) Assign (T 10) (Plain (Copy (T 6)));
  (*244*) Del (T 6);
  (*245*) AddTo (T 10) (Plain (Copy (T 7)));
  (*246*) Del (T 7);
  (*247*) Assign (T 29) (Times (Copy (T 27)) (1) 2);
  (*248*) Del (T 27);
  (*249*) AddTo (T 29) (Plain (Einsum [(n_v'bbb'xov,[0;1;2]); (T 28,[1;3;2;4])] [0;3;4]));
  (*250*) Del (T 28);
  (*251*) AddTo (T 29) (Times (Einsum [(T 8,[0]); (n_t1'bb,[1;2])] [0;1;2]) (1) 2);
  (*252*) Assign (T 32) (Plain (Einsum [(T 30,[0;1;2]); (n_v'bbb'xov,[0;3;2])] [3;1]));
  (*253*) Del (T 30);
  (*254*) AddTo (T 32) (Plain (Einsum [(T 31,[0;1]); (n_t1'bb,[2;1])] [0;2]));
  (*255*) Del (T 31);
  (*256*) Assign (T 24) (Plain (Copy n_f'aa'oo));
  (*257*) AddTo (T 24) (Times (Einsum [(T 1,[0;1;2]); (n_v'baa'xoo,[0;3;1])] [2;3]) (-1) 1);
  (*258*) Del (T 1);
  (*259*) AddTo (T 24) (Plain (Einsum [(T 8,[0]); (n_v'baa'xoo,[0;1;2])] [1;2]));
  (*260*) Assign (T 14) (Times (Einsum [(T 11,[0;1;2]); (n_v'baa'xov,[0;3;2])] [3;1]) (2) 1);
  (*261*) Del (T 11);
  (*262*) AddTo (T 14) (Plain (Einsum [(T 13,[0;1]); (n_t1'aa,[2;1])] [0;2]));
  (*263*) Del (T 13);
  (*264*) Assign (T 9) (Times (Copy (T 4)) (1) 2);
  (*265*) Del (T 4);
  (*266*) AddTo (T 9) (Plain (Einsum [(n_v'baa'xov,[0;1;2]); (T 5,[1;3;2;4])] [0;3;4]));
  (*267*) Del (T 5);
  (*268*) AddTo (T 9) (Times (Einsum [(T 8,[0]); (n_t1'aa,[1;2])] [0;1;2]) (1) 2);
  (*269*) Del (T 8);
  (*270*) Assign n_t2new'bbbb (Times (Transpose (T 79) [1;0;3;2]) (2) 1);
  (*271*) AddTo n_t2new'bbbb (Plain (Copy (T 82)));
  (*272*) AddTo n_t2new'bbbb (Times (Transpose (T 79) [0;1;3;2]) (-2) 1);
  (*273*) Del (T 79);
  (*274*) AddTo n_t2new'bbbb (Times (Transpose (T 82) [0;1;3;2]) (-1) 1);
  (*275*) Del (T 82);
  (*276*) AddTo n_t2new'bbbb (Times (Einsum [(n_t2'bbbb,[0;1;2;3]); (T 83,[3;4])] [0;1;4;2]) (-2) 1);
  (*277*) Del (T 83);
  (*278*) AddTo n_t2new'bbbb (Times (Einsum [(T 66,[0;1]); (n_t2'bbbb,[2;3;4;0])] [2;3;4;1]) (2) 1);
  (*279*) AddTo n_t2new'bbbb (Plain (Transpose (T 85) [1;0;3;2]));
  (*280*) AddTo n_t2new'bbbb (Times (Transpose (T 86) [1;0;3;2]) (2) 1);
  (*281*) AddTo n_t2new'bbbb (Plain (Transpose (T 89) [1;0;2;3]));
  (*282*) AddTo n_t2new'bbbb (Times (Transpose (T 89) [1;0;3;2]) (-1) 1);
  (*283*) AddTo n_t2new'bbbb (Times (Transpose (T 85) [1;0;2;3]) (-1) 1);
  (*284*) AddTo n_t2new'bbbb (Times (Transpose (T 85) [0;1;3;2]) (-1) 1);
  (*285*) AddTo n_t2new'bbbb (Times (Transpose (T 86) [0;1;3;2]) (-2) 1);
  (*286*) Del (T 86);
  (*287*) AddTo n_t2new'bbbb (Times (Copy (T 89)) (-1) 1);
  (*288*) AddTo n_t2new'bbbb (Plain (Transpose (T 89) [0;1;3;2]));
  (*289*) Del (T 89);
  (*290*) AddTo n_t2new'bbbb (Plain (Copy (T 85)));
  (*291*) Del (T 85);
  (*292*) AddTo n_t2new'bbbb (Plain (Copy (T 90)));
  (*293*) AddTo n_t2new'bbbb (Times (Transpose (T 90) [1;0;2;3]) (-1) 1);
  (*294*) Del (T 90);
  (*295*) AddTo n_t2new'bbbb (Plain (Transpose (T 91) [0;1;3;2]));
  (*296*) AddTo n_t2new'bbbb (Times (Transpose (T 91) [1;0;3;2]) (-1) 1);
  (*297*) AddTo n_t2new'bbbb (Times (Copy (T 91)) (-1) 1);
  (*298*) AddTo n_t2new'bbbb (Plain (Transpose (T 91) [1;0;2;3]));
  (*299*) Del (T 91);
  (*300*) AddTo n_t2new'bbbb (Plain (Transpose (T 92) [0;1;3;2]));
  (*301*) AddTo n_t2new'bbbb (Plain (Copy (T 95)));
  (*302*) AddTo n_t2new'bbbb (Times (Transpose (T 95) [0;1;3;2]) (-1) 1);
  (*303*) Del (T 95);
  (*304*) AddTo n_t2new'bbbb (Plain (Copy (T 96)));
  (*305*) AddTo n_t2new'bbbb (Times (Transpose (T 96) [0;1;3;2]) (-1) 1);
  (*306*) Del (T 96);
  (*307*) AddTo n_t2new'bbbb (Plain (Transpose (T 98) [0;1;3;2]));
  (*308*) AddTo n_t2new'bbbb (Times (Transpose (T 98) [1;0;3;2]) (-1) 1);
  (*309*) AddTo n_t2new'bbbb (Times (Transpose (T 92) [1;0;3;2]) (-1) 1);
  (*310*) Del (T 92);
  (*311*) AddTo n_t2new'bbbb (Times (Copy (T 99)) (-1) 1);
  (*312*) AddTo n_t2new'bbbb (Plain (Transpose (T 99) [1;0;2;3]));
  (*313*) Del (T 99);
  (*314*) AddTo n_t2new'bbbb (Times (Copy (T 98)) (-1) 1);
  (*315*) AddTo n_t2new'bbbb (Plain (Transpose (T 98) [1;0;2;3]));
  (*316*) Del (T 98);
  (*317*) Assign n_t2new'abab (Plain (Einsum [(T 64,[0;1;2;3]); (n_t1'aa,[0;4])] [1;2;4;3]));
  (*318*) Del (T 64);
  (*319*) AddTo n_t2new'abab (Times (Einsum [(n_t2'abab,[0;1;2;3]); (n_f'bb'oo,[4;1])] [0;4;2;3]) (-1) 1);
  (*320*) AddTo n_t2new'abab (Times (Einsum [(n_f'aa'oo,[0;1]); (n_t2'abab,[1;2;3;4])] [0;2;3;4]) (-1) 1);
  (*321*) AddTo n_t2new'abab (Plain (Einsum [(T 42,[0;1]); (n_t2'abab,[2;3;0;4])] [2;3;1;4]));
  (*322*) AddTo n_t2new'abab (Plain (Einsum [(n_t2'abab,[0;1;2;3]); (T 66,[3;4])] [0;1;2;4]));
  (*323*) Del (T 66);
  (*324*) AddTo n_t2new'abab (Plain (Einsum [(T 68,[0;1;2;3]); (n_t1'aa,[0;4])] [1;2;4;3]));
  (*325*) Del (T 68);
  (*326*) AddTo n_t2new'abab (Times (Einsum [(n_t2'abab,[0;1;2;3]); (T 69,[1;4])] [0;4;2;3]) (-1) 1);
  (*327*) Del (T 69);
  (*328*) AddTo n_t2new'abab (Times (Einsum [(T 44,[0;1]); (n_t2'abab,[0;2;3;4])] [1;2;3;4]) (-1) 1);
  (*329*) Del (T 44);
  (*330*) AddTo n_t2new'abab (Times (Einsum [(T 71,[0;1;2;3]); (n_t1'bb,[1;4])] [0;2;3;4]) (-1) 1);
  (*331*) Del (T 71);
  (*332*) AddTo n_t2new'abab (Plain (Einsum [(n_v'baa'xov,[0;1;2]); (T 73,[0;3;4])] [1;3;2;4]));
  (*333*) Del (T 73);
  (*334*) AddTo n_t2new'abab (Times (Einsum [(T 34,[0;1;2;3]); (n_t1'bb,[2;4])] [0;1;3;4]) (-1) 1);
  (*335*) AddTo n_t2new'abab (Times (Einsum [(T 15,[0;1;2;3]); (n_t1'aa,[1;4])] [0;2;4;3]) (-1) 1);
  (*336*) AddTo n_t2new'abab (Plain (Einsum [(T 75,[0;1;2;3]); (n_t1'aa,[1;4])] [0;2;4;3]));
  (*337*) Del (T 75);
  (*338*) AddTo n_t2new'abab (Plain (Einsum [(T 76,[0;1;2]); (T 17,[0;3;4])] [3;1;4;2]));
  (*339*) Del (T 76);
  (*340*) AddTo n_t2new'abab (Times (Einsum [(T 3,[0;1;2;3]); (n_t1'aa,[1;4])] [0;2;4;3]) (-1) 1);
  (*341*) AddTo n_t2new'abab (Times (Einsum [(T 77,[0;1;2;3]); (n_t1'aa,[0;4])] [1;2;4;3]) (-1) 1);
  (*342*) Del (T 77);
  (*343*) AddTo n_t2new'abab (Times (Einsum [(T 78,[0;1;2;3]); (n_t1'aa,[1;4])] [0;2;4;3]) (-1) 1);
  (*344*) Del (T 78);
  (*345*) Assign n_t2new'aaaa (Plain (Copy (T 39)));
  (*346*) AddTo n_t2new'aaaa (Times (Transpose (T 40) [1;0;3;2]) (2) 1);
  (*347*) AddTo n_t2new'aaaa (Times (Transpose (T 39) [0;1;3;2]) (-1) 1);
  (*348*) Del (T 39);
  (*349*) AddTo n_t2new'aaaa (Times (Transpose (T 40) [0;1;3;2]) (-2) 1);
  (*350*) Del (T 40);
  (*351*) AddTo n_t2new'aaaa (Times (Einsum [(T 42,[0;1]); (n_t2'aaaa,[2;3;4;0])] [2;3;1;4]) (-2) 1);
  (*352*) Del (T 42);
  (*353*) AddTo n_t2new'aaaa (Times (Einsum [(T 43,[0;1]); (n_t2'aaaa,[2;3;4;0])] [2;3;4;1]) (2) 1);
  (*354*) Del (T 43);
  (*355*) AddTo n_t2new'aaaa (Times (Transpose (T 45) [1;0;3;2]) (2) 1);
  (*356*) AddTo n_t2new'aaaa (Plain (Transpose (T 47) [1;0;3;2]));
  (*357*) AddTo n_t2new'aaaa (Plain (Transpose (T 50) [1;0;2;3]));
  (*358*) AddTo n_t2new'aaaa (Times (Transpose (T 50) [1;0;3;2]) (-1) 1);
  (*359*) AddTo n_t2new'aaaa (Times (Transpose (T 47) [1;0;2;3]) (-1) 1);
  (*360*) AddTo n_t2new'aaaa (Times (Transpose (T 45) [0;1;3;2]) (-2) 1);
  (*361*) Del (T 45);
  (*362*) AddTo n_t2new'aaaa (Times (Transpose (T 47) [0;1;3;2]) (-1) 1);
  (*363*) AddTo n_t2new'aaaa (Times (Copy (T 50)) (-1) 1);
  (*364*) AddTo n_t2new'aaaa (Plain (Transpose (T 50) [0;1;3;2]));
  (*365*) Del (T 50);
  (*366*) AddTo n_t2new'aaaa (Plain (Copy (T 47)));
  (*367*) Del (T 47);
  (*368*) AddTo n_t2new'aaaa (Plain (Copy (T 53)));
  (*369*) AddTo n_t2new'aaaa (Times (Transpose (T 53) [1;0;2;3]) (-1) 1);
  (*370*) Del (T 53);
  (*371*) AddTo n_t2new'aaaa (Plain (Transpose (T 54) [0;1;3;2]));
  (*372*) AddTo n_t2new'aaaa (Times (Transpose (T 54) [1;0;3;2]) (-1) 1);
  (*373*) AddTo n_t2new'aaaa (Times (Copy (T 54)) (-1) 1);
  (*374*) AddTo n_t2new'aaaa (Plain (Transpose (T 54) [1;0;2;3]));
  (*375*) Del (T 54);
  (*376*) AddTo n_t2new'aaaa (Plain (Transpose (T 55) [0;1;3;2]));
  (*377*) AddTo n_t2new'aaaa (Plain (Transpose (T 57) [0;1;3;2]));
  (*378*) AddTo n_t2new'aaaa (Times (Transpose (T 57) [1;0;3;2]) (-1) 1);
  (*379*) AddTo n_t2new'aaaa (Plain (Copy (T 58)));
  (*380*) AddTo n_t2new'aaaa (Times (Transpose (T 58) [0;1;3;2]) (-1) 1);
  (*381*) Del (T 58);
  (*382*) AddTo n_t2new'aaaa (Plain (Copy (T 61)));
  (*383*) AddTo n_t2new'aaaa (Times (Transpose (T 61) [0;1;3;2]) (-1) 1);
  (*384*) Del (T 61);
  (*385*) AddTo n_t2new'aaaa (Times (Transpose (T 55) [1;0;3;2]) (-1) 1);
  (*386*) Del (T 55);
  (*387*) AddTo n_t2new'aaaa (Times (Copy (T 62)) (-1) 1);
  (*388*) AddTo n_t2new'aaaa (Plain (Transpose (T 62) [1;0;2;3]));
  (*389*) Del (T 62);
  (*390*) AddTo n_t2new'aaaa (Times (Copy (T 57)) (-1) 1);
  (*391*) AddTo n_t2new'aaaa (Plain (Transpose (T 57) [1;0;2;3]));
  (*392*) Del (T 57);
  (*393*) Assign n_t1new'bb (Times (Einsum [(n_t2'bbbb,[0;1;2;3]); (T 25,[4;1;0;3])] [4;2]) (-2) 1);
  (*394*) Del (T 25);
  (*395*) AddTo n_t1new'bb (Plain (Copy n_f'bb'ov));
  (*396*) AddTo n_t1new'bb (Plain (Einsum [(n_f'bb'vv,[0;1]); (n_t1'bb,[2;1])] [2;0]));
  (*397*) AddTo n_t1new'bb (Times (Einsum [(n_t2'abab,[0;1;2;3]); (T 26,[0;4;1;2])] [4;3]) (-1) 1);
  (*398*) Del (T 26);
  (*399*) AddTo n_t1new'bb (Times (Einsum [(n_v'bbb'xvv,[0;1;2]); (T 29,[0;3;2])] [3;1]) (2) 1);
  (*400*) Del (T 29);
  (*401*) AddTo n_t1new'bb (Plain (Einsum [(T 10,[0]); (n_v'bbb'xov,[0;1;2])] [1;2]));
  (*402*) AddTo n_t1new'bb (Times (Einsum [(T 32,[0;1]); (n_t1'bb,[0;2])] [1;2]) (-1) 1);
  (*403*) Del (T 32);
  (*404*) AddTo n_t1new'bb (Times (Einsum [(T 33,[0;1;2;3]); (n_t2'bbbb,[1;2;4;3])] [0;4]) (-2) 1);
  (*405*) Del (T 33);
  (*406*) AddTo n_t1new'bb (Times (Einsum [(n_t2'abab,[0;1;2;3]); (T 34,[0;4;1;2])] [4;3]) (-1) 1);
  (*407*) Del (T 34);
  (*408*) AddTo n_t1new'bb (Times (Einsum [(n_v'bbb'xoo,[0;1;2]); (T 35,[0;2;3])] [1;3]) (-1) 1);
  (*409*) Del (T 35);
  (*410*) AddTo n_t1new'bb (Times (Einsum [(n_t2'bbbb,[0;1;2;3]); (T 21,[1;3])] [0;2]) (2) 1);
  (*411*) AddTo n_t1new'bb (Plain (Einsum [(n_t2'abab,[0;1;2;3]); (T 23,[0;2])] [1;3]));
  (*412*) AddTo n_t1new'bb (Times (Einsum [(n_t1'bb,[0;1]); (T 36,[0;2])] [2;1]) (-1) 1);
  (*413*) Del (T 36);
  (*414*) Assign n_t1new'aa (Times (Einsum [(n_t2'aaaa,[0;1;2;3]); (T 2,[4;1;0;3])] [4;2]) (-2) 1);
  (*415*) Del (T 2);
  (*416*) AddTo n_t1new'aa (Plain (Copy n_f'aa'ov));
  (*417*) AddTo n_t1new'aa (Times (Einsum [(T 3,[0;1;2;3]); (n_t2'abab,[1;2;4;3])] [0;4]) (-1) 1);
  (*418*) Del (T 3);
  (*419*) AddTo n_t1new'aa (Plain (Einsum [(n_f'aa'vv,[0;1]); (n_t1'aa,[2;1])] [2;0]));
  (*420*) AddTo n_t1new'aa (Times (Einsum [(n_v'baa'xvv,[0;1;2]); (T 9,[0;3;2])] [3;1]) (2) 1);
  (*421*) Del (T 9);
  (*422*) AddTo n_t1new'aa (Plain (Einsum [(T 10,[0]); (n_v'baa'xov,[0;1;2])] [1;2]));
  (*423*) Del (T 10);
  (*424*) AddTo n_t1new'aa (Times (Einsum [(T 14,[0;1]); (n_t1'aa,[0;2])] [1;2]) (-1) 1);
  (*425*) Del (T 14);
  (*426*) AddTo n_t1new'aa (Times (Einsum [(T 15,[0;1;2;3]); (n_t2'abab,[1;2;4;3])] [0;4]) (-1) 1);
  (*427*) Del (T 15);
  (*428*) AddTo n_t1new'aa (Times (Einsum [(n_t2'aaaa,[0;1;2;3]); (T 16,[4;0;1;3])] [4;2]) (-2) 1);
  (*429*) Del (T 16);
  (*430*) AddTo n_t1new'aa (Times (Einsum [(n_v'baa'xoo,[0;1;2]); (T 17,[0;2;3])] [1;3]) (-1) 1);
  (*431*) Del (T 17);
  (*432*) AddTo n_t1new'aa (Plain (Einsum [(n_t2'abab,[0;1;2;3]); (T 21,[1;3])] [0;2]));
  (*433*) Del (T 21);
  (*434*) AddTo n_t1new'aa (Times (Einsum [(T 23,[0;1]); (n_t2'aaaa,[2;0;3;1])] [2;3]) (2) 1);
  (*435*) Del (T 23);
  (*436*) AddTo n_t1new'aa (Times (Einsum [(T 24,[0;1]); (n_t1'aa,[0;2])] [1;2]) (-1) 1);
  (*437*) Del (T 24)]
 [(n_t1new'bb,[6;7]); (n_t1new'aa,[4;5]); (n_t2new'bbbb,[6;6;7;7]); (n_t2new'abab,[4;6;5;7]); (n_t2new'aaaa,[4;4;5;5])].

(** ebcc/codegen/UDFCC2.py:441-1290 [update_lams] *)
Definition UDFCC2_update_lams : prog := mkprog
 [(n_t1'bb,[6;7]); (n_v'bbb'xov,[2;6;7]); (n_v'baa'xov,[2;4;5]); (n_t1'aa,[4;5]); (n_l2'abab,[5;7;4;6]); (n_t2'abab,[4;6;5;7]); (n_l1'aa,[5;4]); (n_l2'aaaa,[5;5;4;4]); (n_t2'aaaa,[4;4;5;5]); (n_l1'bb,[7;6]); (n_t2'bbbb,[6;6;7;7]); (n_l2'bbbb,[7;7;6;6]); (n_v'baa'xvv,[2;5;5]); (n_v'bbb'xvv,[2;7;7]); (n_v'baa'xoo,[2;4;4]); (n_v'bbb'xoo,[2;6;6]); (n_f'bb'ov,[6;7]); (n_f'aa'ov,[4;5]); (n_f'bb'vv,[7;7]); (n_f'aa'vv,[5;5]); (n_f'bb'oo,[6;6]); (n_f'aa'oo,[4;4])]
 [(*470*) Assign (T 14) (Plain (Einsum [(n_t1'bb,[0;1]); (n_v'bbb'xov,[2;0;1])] [2]));
  (*471*) Assign (T 13) (Plain (Einsum [(n_v'baa'xov,[0;1;2]); (n_t1'aa,[1;2])] [0]));
  (*472*) Assign (T 55) (Plain (Einsum [(n_l2'abab,[0;1;2;3]); (n_t2'abab,[4;3;0;1])] [2;4]));
  (*473*) Assign (T 53) (Plain (Einsum [(n_l1'aa,[0;1]); (n_t1'aa,[2;0])] [1;2]));
  (*474*) Assign (T 54) (Plain (Einsum [(n_l2'aaaa,[0;1;2;3]); (n_t2'aaaa,[4;3;0;1])] [2;4]));
  (*475*) Assign (T 66) (Plain (Einsum [(n_t1'bb,[0;1]); (n_l1'bb,[1;2])] [2;0]));
  (*476*) Assign (T 68) (Plain (Einsum [(n_t2'bbbb,[0;1;2;3]); (n_l2'bbbb,[2;3;4;1])] [4;0]));
  (*477*) Assign (T 67) (Plain (Einsum [(n_l2'abab,[0;1;2;3]); (n_t2'abab,[2;4;0;1])] [3;4]));
  (*478*) Assign (T 28) (Plain (Einsum [(n_v'baa'xvv,[0;1;2]); (n_t1'aa,[3;2])] [0;3;1]));
  (*479*) Assign (T 8) (Plain (Einsum [(n_t1'bb,[0;1]); (n_v'bbb'xvv,[2;3;1])] [2;0;3]));
  (*480*) Assign (T 5) (Plain (Einsum [(n_t1'bb,[0;1]); (n_v'bbb'xov,[2;3;1])] [2;0;3]));
  (*481*) Assign (T 15) (Plain (Copy (T 13)));
  (*482*) AddTo (T 15) (Plain (Copy (T 14)));
  (*483*) Assign (T 2) (Plain (Einsum [(n_t1'aa,[0;1]); (n_v'baa'xov,[2;3;1])] [2;0;3]));
  (*484*) Assign (T 102) (Plain (Copy (T 13)));
  (*485*) Del (T 13);
  (*486*) AddTo (T 102) (Plain (Copy (T 14)));
  (*487*) Del (T 14);
  (*488*) Assign (T 49) (Plain (Einsum [(n_t1'aa,[0;1]); (n_l2'aaaa,[2;1;3;4])] [3;4;0;2]));
  (*489*) Assign (T 51) (Plain (Einsum [(n_l2'abab,[0;1;2;3]); (n_t1'aa,[4;0])] [2;4;3;1]));
  (*490*) Assign (T 56) (Times (Copy (T 53)) (1) 2);
  (*491*) AddTo (T 56) (Plain (Copy (T 54)));
  (*492*) AddTo (T 56) (Times (Copy (T 55)) (1) 2);
  (*493*) Assign (T 64) (Plain (Einsum [(n_t1'bb,[0;1]); (n_l2'bbbb,[2;1;3;4])] [3;4;0;2]));
  (*494*) Assign (T 69) (Plain (Copy (T 66)));
  (*495*) AddTo (T 69) (Plain (Copy (T 67)));
  (*496*) AddTo (T 69) (Times (Copy (T 68)) (2) 1);
  (*497*) Assign (T 62) (Plain (Einsum [(n_l2'abab,[0;1;2;3]); (n_t1'bb,[4;1])] [2;3;4;0]));
  (*498*) Assign (T 159) (Plain (Copy n_v'baa'xov));
  (*499*) AddTo (T 159) (Plain (Copy (T 28)));
  (*500*) Assign (T 161) (Plain (Copy n_v'bbb'xov));
  (*501*) AddTo (T 161) (Plain (Copy (T 8)));
  (*502*) Assign (T 108) (Plain (Einsum [(n_v'bbb'xov,[0;1;2]); (T 5,[0;1;3])] [3;2]));
  (*503*) Assign (T 109) (Plain (Einsum [(n_v'bbb'xov,[0;1;2]); (T 15,[0])] [1;2]));
  (*504*) Assign (T 12) (Plain (Einsum [(n_v'baa'xov,[0;1;2]); (T 2,[0;1;3])] [3;2]));
  (*505*) Assign (T 166) (Plain (Einsum [(n_v'baa'xov,[0;1;2]); (T 102,[0])] [1;2]));
  (*506*) Assign (T 16) (Plain (Einsum [(n_v'baa'xov,[0;1;2]); (T 15,[0])] [1;2]));
  (*507*) Assign (T 18) (Plain (Einsum [(n_v'baa'xov,[0;1;2]); (n_v'bbb'xov,[0;3;4])] [1;3;2;4]));
  (*508*) Assign (T 50) (Plain (Einsum [(T 49,[0;1;2;3]); (n_t2'aaaa,[1;0;4;3])] [2;4]));
  (*509*) Assign (T 52) (Plain (Einsum [(T 51,[0;1;2;3]); (n_t2'abab,[0;2;4;3])] [1;4]));
  (*510*) Assign (T 47) (Plain (Einsum [(n_l1'aa,[0;1]); (n_t2'aaaa,[2;1;3;0])] [2;3]));
  (*511*) Assign (T 57) (Plain (Einsum [(T 56,[0;1]); (n_t1'aa,[0;2])] [1;2]));
  (*512*) Assign (T 48) (Plain (Einsum [(n_t2'abab,[0;1;2;3]); (n_l1'bb,[3;1])] [0;2]));
  (*513*) Assign (T 43) (Plain (Einsum [(n_l2'abab,[0;1;2;3]); (n_t2'abab,[2;3;0;4])] [1;4]));
  (*514*) Assign (T 44) (Plain (Einsum [(n_l2'bbbb,[0;1;2;3]); (n_t2'bbbb,[2;3;4;1])] [0;4]));
  (*515*) Assign (T 42) (Plain (Einsum [(n_t1'bb,[0;1]); (n_l1'bb,[2;0])] [2;1]));
  (*516*) Assign (T 39) (Plain (Einsum [(n_t1'aa,[0;1]); (n_l1'aa,[2;0])] [2;1]));
  (*517*) Assign (T 36) (Plain (Einsum [(n_l2'abab,[0;1;2;3]); (n_t2'abab,[2;3;4;1])] [0;4]));
  (*518*) Assign (T 35) (Plain (Einsum [(n_l2'aaaa,[0;1;2;3]); (n_t2'aaaa,[2;3;4;1])] [0;4]));
  (*519*) Assign (T 60) (Plain (Einsum [(n_t2'abab,[0;1;2;3]); (n_l1'aa,[2;0])] [1;3]));
  (*520*) Assign (T 61) (Plain (Einsum [(n_l1'bb,[0;1]); (n_t2'bbbb,[2;1;3;0])] [2;3]));
  (*521*) Assign (T 65) (Plain (Einsum [(n_t2'bbbb,[0;1;2;3]); (T 64,[1;0;4;3])] [4;2]));
  (*522*) Assign (T 70) (Plain (Einsum [(T 69,[0;1]); (n_t1'bb,[0;2])] [1;2]));
  (*523*) Assign (T 63) (Plain (Einsum [(n_t2'abab,[0;1;2;3]); (T 62,[0;1;4;2])] [4;3]));
  (*524*) Assign (T 145) (Plain (Einsum [(T 102,[0]); (n_v'bbb'xvv,[0;1;2])] [1;2]));
  (*525*) Assign (T 203) (Plain (Einsum [(T 8,[0;1;2]); (n_v'bbb'xov,[0;1;3])] [3;2]));
  (*526*) Assign (T 196) (Plain (Einsum [(n_v'bbb'xov,[0;1;2]); (T 102,[0])] [1;2]));
  (*527*) Assign (T 191) (Plain (Einsum [(n_l2'abab,[0;1;2;3]); (T 159,[4;2;0])] [4;3;1]));
  (*528*) Assign (T 190) (Plain (Einsum [(n_v'bbb'xvv,[0;1;2]); (n_l1'bb,[2;3])] [0;3;1]));
  (*529*) Assign (T 132) (Plain (Einsum [(T 51,[0;1;2;3]); (T 2,[4;0;1])] [4;2;3]));
  (*530*) Assign (T 130) (Plain (Einsum [(n_v'baa'xoo,[0;1;2]); (T 51,[2;1;3;4])] [0;3;4]));
  (*531*) Assign (T 192) (Plain (Einsum [(T 161,[0;1;2]); (n_l2'bbbb,[3;2;4;1])] [0;4;3]));
  (*532*) Assign (T 133) (Times (Einsum [(T 64,[0;1;2;3]); (T 5,[4;0;2])] [4;1;3]) (-1) 1);
  (*533*) Assign (T 131) (Times (Einsum [(n_v'bbb'xoo,[0;1;2]); (T 64,[2;3;1;4])] [0;3;4]) (-1) 1);
  (*534*) Assign (T 110) (Plain (Copy n_f'bb'ov));
  (*535*) AddTo (T 110) (Times (Copy (T 108)) (-1) 1);
  (*536*) AddTo (T 110) (Plain (Copy (T 109)));
  (*537*) Assign (T 194) (Plain (Copy n_v'bbb'xoo));
  (*538*) AddTo (T 194) (Plain (Transpose (T 5) [0;2;1]));
  (*539*) Assign (T 167) (Plain (Copy n_f'aa'ov));
  (*540*) AddTo (T 167) (Times (Copy (T 12)) (-1) 1);
  (*541*) AddTo (T 167) (Plain (Copy (T 166)));
  (*542*) Assign (T 147) (Plain (Copy n_v'baa'xoo));
  (*543*) AddTo (T 147) (Plain (Transpose (T 2) [0;2;1]));
  (*544*) Assign (T 162) (Plain (Einsum [(n_l2'abab,[0;1;2;3]); (T 161,[4;3;1])] [4;2;0]));
  (*545*) Del (T 161);
  (*546*) Assign (T 160) (Plain (Einsum [(n_l2'aaaa,[0;1;2;3]); (T 159,[4;3;1])] [4;2;0]));
  (*547*) Del (T 159);
  (*548*) Assign (T 151) (Plain (Einsum [(n_l1'aa,[0;1]); (n_v'baa'xvv,[2;3;0])] [2;1;3]));
  (*549*) Assign (T 84) (Plain (Einsum [(T 62,[0;1;2;3]); (n_v'bbb'xoo,[4;2;1])] [4;0;3]));
  (*550*) Assign (T 85) (Plain (Einsum [(T 2,[0;1;2]); (T 49,[3;1;2;4])] [0;3;4]));
  (*551*) Assign (T 83) (Times (Einsum [(n_v'baa'xoo,[0;1;2]); (T 49,[2;3;1;4])] [0;3;4]) (-1) 1);
  (*552*) Assign (T 86) (Plain (Einsum [(T 62,[0;1;2;3]); (T 5,[4;1;2])] [4;0;3]));
  (*553*) Assign (T 17) (Plain (Copy n_f'aa'ov));
  (*554*) AddTo (T 17) (Times (Copy (T 12)) (-1) 1);
  (*555*) AddTo (T 17) (Plain (Copy (T 16)));
  (*556*) Assign (T 103) (Plain (Einsum [(n_v'baa'xvv,[0;1;2]); (T 102,[0])] [1;2]));
  (*557*) Assign (T 175) (Plain (Einsum [(T 28,[0;1;2]); (n_v'baa'xov,[0;1;3])] [3;2]));
  (*558*) Assign (T 6) (Plain (Copy n_v'bbb'xoo));
  (*559*) AddTo (T 6) (Plain (Copy (T 5)));
  (*560*) Assign (T 26) (Plain (Einsum [(n_t2'abab,[0;1;2;3]); (n_v'bbb'xov,[4;1;3])] [4;0;2]));
  (*561*) Assign (T 25) (Plain (Einsum [(n_v'baa'xov,[0;1;2]); (n_t2'aaaa,[3;1;4;2])] [0;3;4]));
  (*562*) Assign (T 3) (Plain (Copy n_v'baa'xoo));
  (*563*) AddTo (T 3) (Plain (Copy (T 2)));
  (*564*) Assign (T 19) (Plain (Einsum [(T 18,[0;1;2;3]); (n_t2'abab,[4;5;2;3])] [4;0;5;1]));
  (*565*) Assign (T 111) (Plain (Copy n_v'bbb'xoo));
  (*566*) AddTo (T 111) (Plain (Transpose (T 5) [0;2;1]));
  (*567*) Assign (T 96) (Plain (Einsum [(n_l2'abab,[0;1;2;3]); (n_t2'abab,[4;5;0;1])] [2;4;3;5]));
  (*568*) Assign (T 97) (Plain (Einsum [(T 62,[0;1;2;3]); (n_t1'aa,[4;3])] [0;4;1;2]));
  (*569*) Assign (T 140) (Plain (Einsum [(T 64,[0;1;2;3]); (n_t1'bb,[4;3])] [1;0;2;4]));
  (*570*) Assign (T 139) (Plain (Einsum [(n_l2'bbbb,[0;1;2;3]); (n_t2'bbbb,[4;5;0;1])] [2;3;4;5]));
  (*571*) Assign (T 9) (Plain (Einsum [(n_t2'abab,[0;1;2;3]); (n_v'baa'xov,[4;0;2])] [4;1;3]));
  (*572*) Assign (T 10) (Plain (Einsum [(n_v'bbb'xov,[0;1;2]); (n_t2'bbbb,[3;1;4;2])] [0;3;4]));
  (*573*) Assign (T 117) (Plain (Einsum [(n_v'bbb'xoo,[0;1;2]); (n_v'bbb'xoo,[0;3;4])] [1;3;4;2]));
  (*574*) Assign (T 119) (Plain (Einsum [(T 5,[0;1;2]); (T 5,[0;3;4])] [1;3;2;4]));
  (*575*) Assign (T 118) (Plain (Einsum [(n_v'bbb'xov,[0;1;2]); (n_v'bbb'xov,[0;3;4])] [3;1;4;2]));
  (*576*) Assign (T 120) (Plain (Einsum [(T 5,[0;1;2]); (n_v'bbb'xoo,[0;3;4])] [1;3;4;2]));
  (*577*) Assign (T 58) (Times (Transpose n_l1'aa [1;0]) (-1) 2);
  (*578*) AddTo (T 58) (Times (Copy n_t1'aa) (-1) 2);
  (*579*) AddTo (T 58) (Times (Copy (T 47)) (-1) 1);
  (*580*) AddTo (T 58) (Times (Copy (T 48)) (-1) 2);
  (*581*) AddTo (T 58) (Plain (Copy (T 50)));
  (*582*) AddTo (T 58) (Times (Copy (T 52)) (1) 2);
  (*583*) AddTo (T 58) (Plain (Copy (T 57)));
  (*584*) Assign (T 75) (Plain (Copy (T 66)));
  (*585*) AddTo (T 75) (Plain (Transpose (T 67) [1;0]));
  (*586*) AddTo (T 75) (Times (Transpose (T 68) [1;0]) (2) 1);
  (*587*) Assign (T 45) (Plain (Copy (T 42)));
  (*588*) Del (T 42);
  (*589*) AddTo (T 45) (Plain (Transpose (T 43) [1;0]));
  (*590*) AddTo (T 45) (Times (Copy (T 44)) (2) 1);
  (*591*) Assign (T 40) (Times (Copy (T 39)) (1) 2);
  (*592*) Del (T 39);
  (*593*) AddTo (T 40) (Plain (Transpose (T 35) [1;0]));
  (*594*) AddTo (T 40) (Times (Copy (T 36)) (1) 2);
  (*595*) Assign (T 71) (Times (Transpose n_l1'bb [1;0]) (-1) 1);
  (*596*) AddTo (T 71) (Times (Copy n_t1'bb) (-1) 1);
  (*597*) AddTo (T 71) (Times (Copy (T 60)) (-1) 1);
  (*598*) AddTo (T 71) (Times (Copy (T 61)) (-2) 1);
  (*599*) AddTo (T 71) (Plain (Copy (T 63)));
  (*600*) AddTo (T 71) (Times (Copy (T 65)) (2) 1);
  (*601*) AddTo (T 71) (Plain (Copy (T 70)));
  (*602*) Assign (T 73) (Times (Copy (T 53)) (1) 2);
  (*603*) AddTo (T 73) (Plain (Copy (T 54)));
  (*604*) AddTo (T 73) (Times (Transpose (T 55) [1;0]) (1) 2);
  (*605*) Assign (T 94) (Plain (Einsum [(T 49,[0;1;2;3]); (n_t1'aa,[4;3])] [0;1;4;2]));
  (*606*) Assign (T 93) (Plain (Einsum [(n_l2'aaaa,[0;1;2;3]); (n_t2'aaaa,[4;5;0;1])] [2;3;4;5]));
  (*607*) Assign (T 20) (Plain (Copy n_v'baa'xoo));
  (*608*) AddTo (T 20) (Plain (Transpose (T 2) [0;2;1]));
  (*609*) Assign (T 30) (Plain (Einsum [(n_v'baa'xov,[0;1;2]); (n_v'baa'xov,[0;3;4])] [3;1;4;2]));
  (*610*) Assign (T 31) (Plain (Einsum [(T 2,[0;1;2]); (T 2,[0;3;4])] [1;3;2;4]));
  (*611*) Assign (T 29) (Plain (Einsum [(n_v'baa'xoo,[0;1;2]); (n_v'baa'xoo,[0;3;4])] [1;3;4;2]));
  (*612*) Assign (T 32) (Plain (Einsum [(T 2,[0;1;2]); (n_v'baa'xoo,[0;3;4])] [1;3;4;2]));
  (*613*) Assign (T 204) (Plain (Copy n_f'bb'vv));
  (*614*) AddTo (T 204) (Times (Transpose (T 203) [1;0]) (-1) 1);
  (*615*) AddTo (T 204) (Plain (Transpose (T 145) [1;0]));
  (*616*) Assign (T 205) (Plain (Copy n_f'bb'ov));
  (*617*) AddTo (T 205) (Times (Copy (T 108)) (-1) 1);
  (*618*) AddTo (T 205) (Plain (Copy (T 196)));
  (*619*) Assign (T 193) (Plain (Copy (T 190)));
  (*620*) AddTo (T 193) (Times (Copy (T 130)) (-1) 1);
  (*621*) AddTo (T 193) (Times (Copy (T 131)) (-2) 1);
  (*622*) AddTo (T 193) (Times (Copy (T 132)) (-1) 1);
  (*623*) AddTo (T 193) (Times (Copy (T 133)) (-2) 1);
  (*624*) AddTo (T 193) (Plain (Copy (T 191)));
  (*625*) Del (T 191);
  (*626*) AddTo (T 193) (Times (Copy (T 192)) (2) 1);
  (*627*) Del (T 192);
  (*628*) Assign (T 211) (Plain (Einsum [(n_v'bbb'xoo,[0;1;2]); (n_v'bbb'xov,[0;3;4])] [1;2;3;4]));
  (*629*) Assign (T 128) (Plain (Einsum [(T 110,[0;1]); (n_t1'bb,[2;1])] [0;2]));
  (*630*) Assign (T 125) (Plain (Einsum [(n_v'bbb'xoo,[0;1;2]); (T 5,[0;2;3])] [1;3]));
  (*631*) Assign (T 127) (Plain (Einsum [(n_v'bbb'xoo,[0;1;2]); (T 15,[0])] [1;2]));
  (*632*) Assign (T 114) (Plain (Einsum [(n_v'bbb'xov,[0;1;2]); (n_v'bbb'xvv,[0;3;4])] [1;3;4;2]));
  (*633*) Assign (T 221) (Plain (Einsum [(n_v'bbb'xvv,[0;1;2]); (n_v'bbb'xvv,[0;3;4])] [3;1;2;4]));
  (*634*) Assign (T 210) (Plain (Einsum [(T 5,[0;1;2]); (n_v'bbb'xov,[0;3;4])] [1;3;2;4]));
  (*635*) Assign (T 209) (Plain (Einsum [(n_v'bbb'xov,[0;1;2]); (T 66,[3;1])] [0;3;2]));
  (*636*) Assign (T 212) (Plain (Einsum [(T 194,[0;1;2]); (n_v'bbb'xov,[0;3;4])] [1;2;3;4]));
  (*637*) Assign (T 195) (Plain (Einsum [(T 194,[0;1;2]); (n_v'bbb'xvv,[0;3;4])] [1;2;3;4]));
  (*638*) Assign (T 153) (Plain (Copy n_v'bbb'xov));
  (*639*) AddTo (T 153) (Plain (Copy (T 8)));
  (*640*) Assign (T 152) (Plain (Copy n_v'baa'xov));
  (*641*) AddTo (T 152) (Plain (Copy (T 28)));
  (*642*) Assign (T 176) (Plain (Einsum [(n_v'baa'xvv,[0;1;2]); (T 15,[0])] [1;2]));
  (*643*) Assign (T 200) (Plain (Einsum [(n_v'baa'xvv,[0;1;2]); (n_v'bbb'xvv,[0;3;4])] [1;2;3;4]));
  (*644*) Assign (T 78) (Plain (Einsum [(T 2,[0;1;2]); (n_v'baa'xoo,[0;3;1])] [3;2]));
  (*645*) Assign (T 165) (Plain (Einsum [(T 102,[0]); (n_v'baa'xoo,[0;1;2])] [1;2]));
  (*646*) Assign (T 168) (Plain (Einsum [(T 167,[0;1]); (n_t1'aa,[2;1])] [0;2]));
  (*647*) Assign (T 157) (Plain (Einsum [(T 147,[0;1;2]); (n_v'baa'xvv,[0;3;4])] [1;2;3;4]));
  (*648*) Assign (T 148) (Plain (Einsum [(T 147,[0;1;2]); (n_v'baa'xov,[0;3;4])] [1;2;3;4]));
  (*649*) Assign (T 187) (Plain (Einsum [(T 2,[0;1;2]); (n_v'baa'xov,[0;3;4])] [1;3;2;4]));
  (*650*) Assign (T 185) (Plain (Einsum [(n_v'baa'xov,[0;1;2]); (n_v'baa'xoo,[0;3;4])] [3;4;1;2]));
  (*651*) Assign (T 163) (Plain (Copy (T 151)));
  (*652*) AddTo (T 163) (Times (Copy (T 83)) (-2) 1);
  (*653*) AddTo (T 163) (Times (Copy (T 84)) (-1) 1);
  (*654*) AddTo (T 163) (Times (Copy (T 85)) (-2) 1);
  (*655*) AddTo (T 163) (Times (Copy (T 86)) (-1) 1);
  (*656*) AddTo (T 163) (Times (Copy (T 160)) (2) 1);
  (*657*) Del (T 160);
  (*658*) AddTo (T 163) (Plain (Copy (T 162)));
  (*659*) Del (T 162);
  (*660*) Assign (T 183) (Plain (Einsum [(T 53,[0;1]); (n_v'baa'xov,[2;1;3])] [2;0;3]));
  (*661*) Assign (T 23) (Plain (Einsum [(n_v'baa'xvv,[0;1;2]); (n_v'baa'xov,[0;3;4])] [3;1;2;4]));
  (*662*) Assign (T 80) (Plain (Einsum [(T 15,[0]); (n_v'baa'xoo,[0;1;2])] [1;2]));
  (*663*) Assign (T 81) (Plain (Einsum [(n_t1'aa,[0;1]); (T 17,[2;1])] [0;2]));
  (*664*) Assign (T 179) (Plain (Copy n_f'aa'vv));
  (*665*) AddTo (T 179) (Times (Transpose (T 175) [1;0]) (-1) 1);
  (*666*) AddTo (T 179) (Plain (Transpose (T 103) [1;0]));
  (*667*) Assign (T 172) (Plain (Einsum [(n_v'baa'xvv,[0;1;2]); (n_v'baa'xvv,[0;3;4])] [1;3;4;2]));
  (*668*) Assign (T 123) (Plain (Copy (T 43)));
  (*669*) Del (T 43);
  (*670*) AddTo (T 123) (Times (Copy (T 44)) (2) 1);
  (*671*) Del (T 44);
  (*672*) Assign (T 107) (Plain (Einsum [(n_v'bbb'xov,[0;1;2]); (T 6,[0;3;4])] [4;3;1;2]));
  (*673*) Assign (T 87) (Plain (Copy n_v'baa'xov));
  (*674*) AddTo (T 87) (Plain (Copy (T 28)));
  (*675*) AddTo (T 87) (Times (Copy (T 25)) (2) 1);
  (*676*) AddTo (T 87) (Plain (Copy (T 26)));
  (*677*) Assign (T 106) (Plain (Einsum [(T 3,[0;1;2]); (n_v'bbb'xov,[0;3;4])] [2;1;3;4]));
  (*678*) Assign (T 112) (Plain (Transpose (T 19) [1;0;2;3]));
  (*679*) AddTo (T 112) (Plain (Einsum [(T 111,[0;1;2]); (T 3,[0;3;4])] [4;3;2;1]));
  (*680*) Assign (T 105) (Plain (Einsum [(n_v'baa'xvv,[0;1;2]); (n_v'bbb'xov,[0;3;4])] [3;1;2;4]));
  (*681*) Assign (T 98) (Plain (Copy (T 96)));
  (*682*) Del (T 96);
  (*683*) AddTo (T 98) (Plain (Copy (T 97)));
  (*684*) Assign (T 137) (Times (Einsum [(n_t2'bbbb,[0;1;2;3]); (n_l1'bb,[3;4])] [4;0;1;2]) (-1) 1);
  (*685*) AddTo (T 137) (Times (Einsum [(n_t2'abab,[0;1;2;3]); (T 62,[0;4;5;2])] [4;5;1;3]) (1) 2);
  (*686*) AddTo (T 137) (Times (Einsum [(n_t2'bbbb,[0;1;2;3]); (T 64,[4;1;5;3])] [4;5;0;2]) (-2) 1);
  (*687*) Assign (T 136) (Plain (Einsum [(n_l2'abab,[0;1;2;3]); (n_t2'abab,[2;4;0;5])] [3;4;1;5]));
  (*688*) AddTo (T 136) (Times (Einsum [(n_t2'bbbb,[0;1;2;3]); (n_l2'bbbb,[4;3;5;1])] [5;0;2;4]) (4) 1);
  (*689*) Assign (T 135) (Plain (Einsum [(n_l2'abab,[0;1;2;3]); (n_t2'abab,[2;4;5;1])] [3;4;0;5]));
  (*690*) Assign (T 142) (Times (Copy n_t1'bb) (-1) 1);
  (*691*) AddTo (T 142) (Times (Copy (T 60)) (-1) 1);
  (*692*) Del (T 60);
  (*693*) AddTo (T 142) (Times (Copy (T 61)) (-2) 1);
  (*694*) Del (T 61);
  (*695*) AddTo (T 142) (Plain (Copy (T 63)));
  (*696*) Del (T 63);
  (*697*) AddTo (T 142) (Times (Copy (T 65)) (2) 1);
  (*698*) Del (T 65);
  (*699*) AddTo (T 142) (Plain (Copy (T 70)));
  (*700*) Del (T 70);
  (*701*) Assign (T 141) (Plain (Transpose (T 139) [1;0;3;2]));
  (*702*) Del (T 139);
  (*703*) AddTo (T 141) (Times (Transpose (T 140) [0;1;3;2]) (-1) 1);
  (*704*) Assign (T 138) (Plain (Einsum [(n_t2'abab,[0;1;2;3]); (n_l1'bb,[3;4])] [0;4;1;2]));
  (*705*) AddTo (T 138) (Times (Einsum [(n_t2'abab,[0;1;2;3]); (T 51,[0;4;5;3])] [4;5;1;2]) (-1) 1);
  (*706*) Assign (T 11) (Plain (Copy n_v'bbb'xov));
  (*707*) AddTo (T 11) (Plain (Copy (T 8)));
  (*708*) AddTo (T 11) (Plain (Copy (T 9)));
  (*709*) AddTo (T 11) (Times (Copy (T 10)) (2) 1);
  (*710*) Assign (T 126) (Times (Copy (T 9)) (1) 2);
  (*711*) AddTo (T 126) (Plain (Copy (T 10)));
  (*712*) Assign (T 115) (Plain (Einsum [(T 111,[0;1;2]); (n_v'bbb'xov,[0;3;4])] [1;2;3;4]));
  (*713*) Assign (T 121) (Plain (Transpose (T 117) [3;2;1;0]));
  (*714*) AddTo (T 121) (Plain (Einsum [(n_t2'bbbb,[0;1;2;3]); (T 118,[4;5;2;3])] [5;4;0;1]));
  (*715*) AddTo (T 121) (Plain (Transpose (T 119) [2;3;1;0]));
  (*716*) AddTo (T 121) (Plain (Transpose (T 120) [1;3;0;2]));
  (*717*) AddTo (T 121) (Times (Transpose (T 120) [3;2;0;1]) (-1) 1);
  (*718*) Assign (T 116) (Plain (Copy n_v'bbb'xov));
  (*719*) AddTo (T 116) (Plain (Copy (T 9)));
  (*720*) Del (T 9);
  (*721*) AddTo (T 116) (Times (Copy (T 10)) (2) 1);
  (*722*) Del (T 10);
  (*723*) Assign (T 59) (Times (Einsum [(n_v'baa'xov,[0;1;2]); (T 58,[1;2])] [0]) (2) 1);
  (*724*) Del (T 58);
  (*725*) Assign (T 76) (Plain (Einsum [(n_v'bbb'xoo,[0;1;2]); (T 75,[2;1])] [0]));
  (*726*) Del (T 75);
  (*727*) Assign (T 46) (Plain (Einsum [(T 45,[0;1]); (n_v'bbb'xvv,[2;1;0])] [2]));
  (*728*) Del (T 45);
  (*729*) Assign (T 41) (Times (Einsum [(T 40,[0;1]); (n_v'baa'xvv,[2;1;0])] [2]) (2) 1);
  (*730*) Del (T 40);
  (*731*) Assign (T 72) (Plain (Einsum [(n_v'bbb'xov,[0;1;2]); (T 71,[1;2])] [0]));
  (*732*) Del (T 71);
  (*733*) Assign (T 74) (Times (Einsum [(T 73,[0;1]); (n_v'baa'xoo,[2;1;0])] [2]) (2) 1);
  (*734*) Del (T 73);
  (*735*) Assign (T 89) (Plain (Einsum [(n_l2'abab,[0;1;2;3]); (n_t2'abab,[4;3;0;5])] [2;4;1;5]));
  (*736*) Assign (T 99) (Times (Copy n_t1'aa) (-1) 2);
  (*737*) AddTo (T 99) (Times (Copy (T 47)) (-1) 1);
  (*738*) Del (T 47);
  (*739*) AddTo (T 99) (Times (Copy (T 48)) (-1) 2);
  (*740*) Del (T 48);
  (*741*) AddTo (T 99) (Plain (Copy (T 50)));
  (*742*) Del (T 50);
  (*743*) AddTo (T 99) (Times (Copy (T 52)) (1) 2);
  (*744*) Del (T 52);
  (*745*) AddTo (T 99) (Plain (Copy (T 57)));
  (*746*) Del (T 57);
  (*747*) Assign (T 95) (Plain (Transpose (T 93) [1;0;3;2]));
  (*748*) Del (T 93);
  (*749*) AddTo (T 95) (Times (Transpose (T 94) [0;1;3;2]) (-1) 1);
  (*750*) Assign (T 90) (Plain (Einsum [(n_l2'aaaa,[0;1;2;3]); (n_t2'aaaa,[4;3;5;1])] [2;4;0;5]));
  (*751*) AddTo (T 90) (Times (Einsum [(n_l2'abab,[0;1;2;3]); (n_t2'abab,[4;3;5;1])] [2;4;5;0]) (1) 4);
  (*752*) Assign (T 91) (Times (Einsum [(n_l1'aa,[0;1]); (n_t2'aaaa,[2;3;4;0])] [1;2;3;4]) (-1) 1);
  (*753*) AddTo (T 91) (Times (Einsum [(n_t2'aaaa,[0;1;2;3]); (T 49,[4;1;5;3])] [4;5;0;2]) (-2) 1);
  (*754*) AddTo (T 91) (Times (Einsum [(n_t2'abab,[0;1;2;3]); (T 51,[4;5;1;3])] [4;5;0;2]) (1) 2);
  (*755*) Assign (T 92) (Plain (Einsum [(n_l1'aa,[0;1]); (n_t2'abab,[2;3;0;4])] [1;2;3;4]));
  (*756*) AddTo (T 92) (Times (Einsum [(T 62,[0;1;2;3]); (n_t2'abab,[4;1;3;5])] [0;4;2;5]) (-1) 1);
  (*757*) Assign (T 4) (Plain (Einsum [(T 3,[0;1;2]); (n_v'baa'xov,[0;3;4])] [2;1;3;4]));
  (*758*) Assign (T 21) (Plain (Transpose (T 19) [0;1;3;2]));
  (*759*) Del (T 19);
  (*760*) AddTo (T 21) (Plain (Einsum [(T 20,[0;1;2]); (T 6,[0;3;4])] [2;1;4;3]));
  (*761*) Assign (T 7) (Plain (Einsum [(n_v'baa'xov,[0;1;2]); (T 6,[0;3;4])] [1;4;3;2]));
  (*762*) Assign (T 1) (Plain (Einsum [(n_v'baa'xov,[0;1;2]); (n_v'bbb'xvv,[0;3;4])] [1;2;3;4]));
  (*763*) Assign (T 27) (Plain (Copy n_v'baa'xov));
  (*764*) AddTo (T 27) (Times (Copy (T 25)) (2) 1);
  (*765*) AddTo (T 27) (Plain (Copy (T 26)));
  (*766*) Assign (T 33) (Plain (Transpose (T 29) [3;2;1;0]));
  (*767*) AddTo (T 33) (Plain (Einsum [(T 30,[0;1;2;3]); (n_t2'aaaa,[4;5;2;3])] [1;0;4;5]));
  (*768*) AddTo (T 33) (Plain (Transpose (T 31) [2;3;1;0]));
  (*769*) AddTo (T 33) (Plain (Transpose (T 32) [1;3;0;2]));
  (*770*) AddTo (T 33) (Times (Transpose (T 32) [3;2;0;1]) (-1) 1);
  (*771*) Assign (T 24) (Plain (Einsum [(T 20,[0;1;2]); (n_v'baa'xov,[0;3;4])] [3;1;2;4]));
  (*772*) Assign (T 79) (Times (Copy (T 25)) (2) 1);
  (*773*) Del (T 25);
  (*774*) AddTo (T 79) (Plain (Copy (T 26)));
  (*775*) Del (T 26);
  (*776*) Assign (T 37) (Plain (Copy (T 35)));
  (*777*) Del (T 35);
  (*778*) AddTo (T 37) (Times (Copy (T 36)) (1) 2);
  (*779*) Del (T 36);
  (*780*) Assign (T 226) (Times (Einsum [(n_l2'bbbb,[0;1;2;3]); (T 204,[1;4])] [2;3;4;0]) (-1) 1);
  (*781*) Assign (T 224) (Plain (Copy n_f'bb'vv));
  (*782*) AddTo (T 224) (Times (Transpose (T 203) [1;0]) (-1) 1);
  (*783*) Del (T 203);
  (*784*) AddTo (T 224) (Plain (Einsum [(n_v'bbb'xvv,[0;1;2]); (T 15,[0])] [1;2]));
  (*785*) Del (T 15);
  (*786*) Assign (T 197) (Plain (Copy n_f'bb'ov));
  (*787*) AddTo (T 197) (Plain (Copy (T 196)));
  (*788*) Del (T 196);
  (*789*) Assign (T 225) (Plain (Einsum [(T 64,[0;1;2;3]); (T 205,[2;4])] [0;1;4;3]));
  (*790*) Assign (T 220) (Plain (Einsum [(T 118,[0;1;2;3]); (T 140,[4;5;0;1])] [4;5;2;3]));
  (*791*) Del (T 140);
  (*792*) Assign (T 218) (Plain (Einsum [(T 193,[0;1;2]); (n_v'bbb'xov,[0;3;4])] [1;3;2;4]));
  (*793*) Assign (T 231) (Times (Einsum [(T 211,[0;1;2;3]); (T 64,[1;4;2;5])] [4;0;5;3]) (-1) 1);
  (*794*) Assign (T 199) (Plain (Copy n_f'bb'oo));
  (*795*) AddTo (T 199) (Times (Copy (T 125)) (-1) 1);
  (*796*) AddTo (T 199) (Plain (Transpose (T 127) [1;0]));
  (*797*) AddTo (T 199) (Plain (Transpose (T 128) [1;0]));
  (*798*) Assign (T 223) (Plain (Einsum [(T 114,[0;1;2;3]); (T 64,[4;5;0;2])] [5;4;3;1]));
  (*799*) Assign (T 228) (Plain (Transpose (T 117) [3;2;1;0]));
  (*800*) Del (T 117);
  (*801*) AddTo (T 228) (Plain (Transpose (T 119) [0;3;1;2]));
  (*802*) Del (T 119);
  (*803*) Assign (T 219) (Plain (Copy n_f'bb'oo));
  (*804*) AddTo (T 219) (Times (Copy (T 125)) (-1) 1);
  (*805*) AddTo (T 219) (Plain (Einsum [(n_v'bbb'xoo,[0;1;2]); (T 102,[0])] [1;2]));
  (*806*) Del (T 102);
  (*807*) AddTo (T 219) (Plain (Einsum [(T 205,[0;1]); (n_t1'bb,[2;1])] [2;0]));
  (*808*) Assign (T 227) (Plain (Einsum [(n_l2'bbbb,[0;1;2;3]); (T 120,[2;3;4;5])] [4;5;0;1]));
  (*809*) Del (T 120);
  (*810*) Assign (T 222) (Plain (Einsum [(T 221,[0;1;2;3]); (n_l2'bbbb,[3;2;4;5])] [4;5;0;1]));
  (*811*) Del (T 221);
  (*812*) Assign (T 230) (Plain (Einsum [(T 64,[0;1;2;3]); (T 210,[1;2;4;5])] [0;4;3;5]));
  (*813*) Assign (T 229) (Plain (Einsum [(T 209,[0;1;2]); (n_v'bbb'xov,[0;3;4])] [1;3;4;2]));
  (*814*) Assign (T 213) (Plain (Einsum [(T 212,[0;1;2;3]); (n_l1'bb,[4;1])] [2;0;3;4]));
  (*815*) Assign (T 217) (Plain (Einsum [(n_l2'bbbb,[0;1;2;3]); (T 195,[4;3;1;5])] [4;2;5;0]));
  (*816*) Assign (T 216) (Plain (Copy n_f'bb'ov));
  (*817*) AddTo (T 216) (Plain (Copy (T 109)));
  (*818*) Del (T 109);
  (*819*) Assign (T 214) (Plain (Einsum [(T 111,[0;1;2]); (n_v'bbb'xvv,[0;3;4])] [2;1;3;4]));
  (*820*) Assign (T 215) (Plain (Copy (T 190)));
  (*821*) Del (T 190);
  (*822*) AddTo (T 215) (Times (Copy (T 130)) (-1) 1);
  (*823*) AddTo (T 215) (Times (Copy (T 131)) (-2) 1);
  (*824*) AddTo (T 215) (Times (Copy (T 132)) (-1) 1);
  (*825*) AddTo (T 215) (Times (Copy (T 133)) (-2) 1);
  (*826*) AddTo (T 215) (Plain (Einsum [(n_l2'abab,[0;1;2;3]); (T 152,[4;2;0])] [4;3;1]));
  (*827*) AddTo (T 215) (Times (Einsum [(T 153,[0;1;2]); (n_l2'bbbb,[3;2;4;1])] [0;4;3]) (2) 1);
  (*828*) Assign (T 177) (Plain (Copy n_f'aa'vv));
  (*829*) AddTo (T 177) (Times (Transpose (T 175) [1;0]) (-1) 1);
  (*830*) Del (T 175);
  (*831*) AddTo (T 177) (Plain (Transpose (T 176) [1;0]));
  (*832*) Del (T 176);
  (*833*) Assign (T 202) (Plain (Einsum [(T 18,[0;1;2;3]); (T 97,[4;0;5;1])] [4;5;2;3]));
  (*834*) Del (T 97);
  (*835*) Assign (T 201) (Plain (Einsum [(n_l2'abab,[0;1;2;3]); (T 200,[4;0;1;5])] [2;3;4;5]));
  (*836*) Del (T 200);
  (*837*) Assign (T 207) (Plain (Einsum [(T 111,[0;1;2]); (T 20,[0;3;4])] [4;3;2;1]));
  (*838*) Assign (T 208) (Plain (Einsum [(n_v'bbb'xvv,[0;1;2]); (T 147,[0;3;4])] [4;3;1;2]));
  (*839*) Assign (T 169) (Plain (Copy n_f'aa'oo));
  (*840*) AddTo (T 169) (Times (Copy (T 78)) (-1) 1);
  (*841*) AddTo (T 169) (Plain (Transpose (T 165) [1;0]));
  (*842*) Del (T 165);
  (*843*) AddTo (T 169) (Plain (Transpose (T 168) [1;0]));
  (*844*) Del (T 168);
  (*845*) Assign (T 198) (Plain (Einsum [(T 194,[0;1;2]); (n_v'baa'xvv,[0;3;4])] [2;1;3;4]));
  (*846*) Del (T 194);
  (*847*) Assign (T 206) (Plain (Einsum [(T 147,[0;1;2]); (n_v'bbb'xov,[0;3;4])] [1;2;3;4]));
  (*848*) Del (T 147);
  (*849*) Assign (T 170) (Plain (Copy n_f'aa'ov));
  (*850*) AddTo (T 170) (Plain (Copy (T 166)));
  (*851*) Del (T 166);
  (*852*) Assign (T 189) (Plain (Einsum [(n_v'baa'xov,[0;1;2]); (T 111,[0;3;4])] [1;3;4;2]));
  (*853*) Del (T 111);
  (*854*) Assign (T 158) (Plain (Einsum [(T 157,[0;1;2;3]); (n_l2'aaaa,[4;2;5;1])] [0;5;3;4]));
  (*855*) Assign (T 149) (Plain (Einsum [(T 148,[0;1;2;3]); (n_l1'aa,[4;1])] [2;0;3;4]));
  (*856*) Assign (T 188) (Plain (Einsum [(T 49,[0;1;2;3]); (T 187,[1;2;4;5])] [0;4;3;5]));
  (*857*) Assign (T 182) (Plain (Transpose (T 29) [3;2;1;0]));
  (*858*) Del (T 29);
  (*859*) AddTo (T 182) (Plain (Transpose (T 31) [0;3;1;2]));
  (*860*) Del (T 31);
  (*861*) Assign (T 181) (Plain (Einsum [(n_l2'aaaa,[0;1;2;3]); (T 32,[2;3;4;5])] [4;5;0;1]));
  (*862*) Del (T 32);
  (*863*) Assign (T 186) (Times (Einsum [(T 49,[0;1;2;3]); (T 185,[4;0;2;5])] [1;4;3;5]) (-1) 1);
  (*864*) Assign (T 164) (Plain (Einsum [(n_v'baa'xov,[0;1;2]); (T 163,[0;3;4])] [3;1;4;2]));
  (*865*) Assign (T 184) (Plain (Einsum [(n_v'baa'xov,[0;1;2]); (T 183,[0;3;4])] [3;1;2;4]));
  (*866*) Assign (T 174) (Plain (Einsum [(T 30,[0;1;2;3]); (T 94,[4;5;0;1])] [4;5;2;3]));
  (*867*) Del (T 94);
  (*868*) Assign (T 156) (Plain (Copy n_f'aa'ov));
  (*869*) AddTo (T 156) (Plain (Copy (T 16)));
  (*870*) Del (T 16);
  (*871*) Assign (T 154) (Plain (Copy (T 151)));
  (*872*) Del (T 151);
  (*873*) AddTo (T 154) (Times (Copy (T 83)) (-2) 1);
  (*874*) AddTo (T 154) (Times (Copy (T 84)) (-1) 1);
  (*875*) AddTo (T 154) (Times (Copy (T 85)) (-2) 1);
  (*876*) AddTo (T 154) (Times (Copy (T 86)) (-1) 1);
  (*877*) AddTo (T 154) (Times (Einsum [(n_l2'aaaa,[0;1;2;3]); (T 152,[4;3;1])] [4;2;0]) (2) 1);
  (*878*) Del (T 152);
  (*879*) AddTo (T 154) (Plain (Einsum [(n_l2'abab,[0;1;2;3]); (T 153,[4;3;1])] [4;2;0]));
  (*880*) Del (T 153);
  (*881*) Assign (T 178) (Plain (Einsum [(T 49,[0;1;2;3]); (T 167,[2;4])] [0;1;4;3]));
  (*882*) Assign (T 171) (Plain (Einsum [(T 49,[0;1;2;3]); (T 23,[2;4;3;5])] [1;0;5;4]));
  (*883*) Assign (T 155) (Plain (Copy n_f'aa'oo));
  (*884*) AddTo (T 155) (Times (Copy (T 78)) (-1) 1);
  (*885*) AddTo (T 155) (Plain (Transpose (T 80) [1;0]));
  (*886*) AddTo (T 155) (Plain (Copy (T 81)));
  (*887*) Assign (T 180) (Times (Einsum [(n_l2'aaaa,[0;1;2;3]); (T 179,[1;4])] [2;3;4;0]) (-1) 1);
  (*888*) Del (T 179);
  (*889*) Assign (T 173) (Plain (Einsum [(T 172,[0;1;2;3]); (n_l2'aaaa,[3;2;4;5])] [4;5;0;1]));
  (*890*) Del (T 172);
  (*891*) Assign (T 150) (Plain (Einsum [(n_v'baa'xvv,[0;1;2]); (T 20,[0;3;4])] [4;3;1;2]));
  (*892*) Del (T 20);
  (*893*) Assign (T 124) (Times (Einsum [(n_v'bbb'xov,[0;1;2]); (T 123,[3;2])] [0;1;3]) (1) 2);
  (*894*) Del (T 123);
  (*895*) AddTo (T 124) (Times (Einsum [(n_l1'bb,[0;1]); (T 6,[2;1;3])] [2;3;0]) (1) 2);
  (*896*) Assign (T 113) (Times (Einsum [(n_t2'abab,[0;1;2;3]); (T 105,[4;2;5;3])] [0;4;1;5]) (1) 2);
  (*897*) AddTo (T 113) (Times (Einsum [(n_t2'abab,[0;1;2;3]); (T 106,[0;4;5;3])] [4;5;1;2]) (-1) 2);
  (*898*) Del (T 106);
  (*899*) AddTo (T 113) (Times (Einsum [(T 107,[0;1;2;3]); (n_t2'abab,[4;0;5;3])] [4;2;1;5]) (-1) 2);
  (*900*) Del (T 107);
  (*901*) AddTo (T 113) (Times (Einsum [(T 87,[0;1;2]); (T 6,[0;3;4])] [1;4;3;2]) (1) 2);
  (*902*) AddTo (T 113) (Times (Einsum [(n_t2'abab,[0;1;2;3]); (T 110,[4;3])] [0;4;1;2]) (1) 2);
  (*903*) AddTo (T 113) (Times (Einsum [(T 112,[0;1;2;3]); (n_t1'aa,[0;4])] [1;3;2;4]) (-1) 2);
  (*904*) Del (T 112);
  (*905*) Assign (T 146) (Plain (Copy n_f'bb'vv));
  (*906*) AddTo (T 146) (Plain (Transpose (T 145) [1;0]));
  (*907*) Del (T 145);
  (*908*) Assign (T 143) (Times (Einsum [(n_l1'bb,[0;1]); (T 8,[2;3;0])] [2;3;1]) (1) 4);
  (*909*) AddTo (T 143) (Times (Einsum [(n_v'baa'xvv,[0;1;2]); (T 135,[3;4;1;2])] [0;4;3]) (1) 4);
  (*910*) Del (T 135);
  (*911*) AddTo (T 143) (Times (Einsum [(n_v'bbb'xvv,[0;1;2]); (T 136,[3;4;1;2])] [0;4;3]) (1) 4);
  (*912*) Del (T 136);
  (*913*) AddTo (T 143) (Times (Einsum [(T 62,[0;1;2;3]); (T 87,[4;0;3])] [4;2;1]) (1) 4);
  (*914*) AddTo (T 143) (Times (Einsum [(T 64,[0;1;2;3]); (T 11,[4;0;3])] [4;2;1]) (1) 2);
  (*915*) Del (T 64);
  (*916*) AddTo (T 143) (Times (Einsum [(T 137,[0;1;2;3]); (n_v'bbb'xov,[4;1;3])] [4;2;0]) (-1) 2);
  (*917*) Del (T 137);
  (*918*) AddTo (T 143) (Times (Einsum [(T 138,[0;1;2;3]); (n_v'baa'xov,[4;0;3])] [4;2;1]) (1) 4);
  (*919*) Del (T 138);
  (*920*) AddTo (T 143) (Times (Einsum [(T 98,[0;1;2;3]); (T 2,[4;0;1])] [4;3;2]) (-1) 4);
  (*921*) AddTo (T 143) (Times (Einsum [(T 98,[0;1;2;3]); (n_v'baa'xoo,[4;0;1])] [4;3;2]) (-1) 4);
  (*922*) AddTo (T 143) (Times (Einsum [(T 141,[0;1;2;3]); (T 5,[4;0;2])] [4;3;1]) (-1) 2);
  (*923*) AddTo (T 143) (Times (Einsum [(T 141,[0;1;2;3]); (n_v'bbb'xoo,[4;0;2])] [4;3;1]) (-1) 2);
  (*924*) Del (T 141);
  (*925*) AddTo (T 143) (Times (Einsum [(T 142,[0;1]); (n_v'bbb'xov,[2;3;1])] [2;0;3]) (-1) 4);
  (*926*) Del (T 142);
  (*927*) AddTo (T 143) (Times (Einsum [(T 69,[0;1]); (n_v'bbb'xoo,[2;3;0])] [2;1;3]) (-1) 4);
  (*928*) Del (T 69);
  (*929*) Assign (T 129) (Plain (Copy n_f'bb'oo));
  (*930*) AddTo (T 129) (Times (Copy (T 125)) (-1) 1);
  (*931*) Del (T 125);
  (*932*) AddTo (T 129) (Times (Einsum [(T 126,[0;1;2]); (n_v'bbb'xov,[0;3;2])] [1;3]) (2) 1);
  (*933*) Del (T 126);
  (*934*) AddTo (T 129) (Plain (Transpose (T 127) [1;0]));
  (*935*) Del (T 127);
  (*936*) AddTo (T 129) (Plain (Transpose (T 128) [1;0]));
  (*937*) Del (T 128);
  (*938*) Assign (T 144) (Times (Copy (T 66)) (1) 2);
  (*939*) Del (T 66);
  (*940*) AddTo (T 144) (Times (Copy (T 67)) (1) 2);
  (*941*) Del (T 67);
  (*942*) AddTo (T 144) (Plain (Copy (T 68)));
  (*943*) Del (T 68);
  (*944*) Assign (T 134) (Times (Copy (T 130)) (-1) 4);
  (*945*) Del (T 130);
  (*946*) AddTo (T 134) (Times (Copy (T 131)) (-1) 2);
  (*947*) Del (T 131);
  (*948*) AddTo (T 134) (Times (Copy (T 132)) (-1) 4);
  (*949*) Del (T 132);
  (*950*) AddTo (T 134) (Times (Copy (T 133)) (-1) 2);
  (*951*) Del (T 133);
  (*952*) AddTo (T 134) (Times (Einsum [(n_l2'abab,[0;1;2;3]); (T 87,[4;2;0])] [4;3;1]) (1) 4);
  (*953*) AddTo (T 134) (Times (Einsum [(T 11,[0;1;2]); (n_l2'bbbb,[3;2;4;1])] [0;4;3]) (1) 2);
  (*954*) Assign (T 122) (Plain (Einsum [(n_t2'bbbb,[0;1;2;3]); (T 114,[4;2;5;3])] [4;0;1;5]));
  (*955*) Del (T 114);
  (*956*) AddTo (T 122) (Times (Einsum [(n_t2'bbbb,[0;1;2;3]); (T 115,[1;4;5;3])] [5;0;4;2]) (-2) 1);
  (*957*) AddTo (T 122) (Plain (Einsum [(T 116,[0;1;2]); (T 6,[0;3;4])] [4;1;3;2]));
  (*958*) Del (T 116);
  (*959*) AddTo (T 122) (Plain (Einsum [(n_t2'bbbb,[0;1;2;3]); (T 110,[4;3])] [4;0;1;2]));
  (*960*) AddTo (T 122) (Times (Einsum [(T 8,[0;1;2]); (T 6,[0;3;4])] [4;3;1;2]) (-1) 1);
  (*961*) Del (T 8);
  (*961*) Del (T 6);
  (*962*) AddTo (T 122) (Times (Einsum [(T 121,[0;1;2;3]); (n_t1'bb,[0;4])] [1;3;2;4]) (-1) 1);
  (*963*) Del (T 121);
  (*964*) Assign (T 77) (Plain (Copy (T 41)));
  (*965*) Del (T 41);
  (*966*) AddTo (T 77) (Plain (Copy (T 46)));
  (*967*) Del (T 46);
  (*968*) AddTo (T 77) (Times (Copy (T 59)) (-1) 1);
  (*969*) Del (T 59);
  (*970*) AddTo (T 77) (Times (Copy (T 72)) (-1) 1);
  (*971*) Del (T 72);
  (*972*) AddTo (T 77) (Times (Copy (T 74)) (-1) 1);
  (*973*) Del (T 74);
  (*974*) AddTo (T 77) (Times (Copy (T 76)) (-1) 1);
  (*975*) Del (T 76);
  (*976*) Assign (T 100) (Plain (Einsum [(n_l1'aa,[0;1]); (T 28,[2;3;0])] [2;3;1]));
  (*977*) AddTo (T 100) (Plain (Einsum [(n_v'bbb'xvv,[0;1;2]); (T 89,[3;4;2;1])] [0;4;3]));
  (*978*) Del (T 89);
  (*979*) AddTo (T 100) (Times (Einsum [(n_v'baa'xvv,[0;1;2]); (T 90,[3;4;1;2])] [0;4;3]) (4) 1);
  (*980*) Del (T 90);
  (*981*) AddTo (T 100) (Times (Einsum [(T 87,[0;1;2]); (T 49,[1;3;4;2])] [0;4;3]) (2) 1);
  (*982*) Del (T 49);
  (*983*) AddTo (T 100) (Plain (Einsum [(T 11,[0;1;2]); (T 51,[3;4;1;2])] [0;4;3]));
  (*984*) AddTo (T 100) (Times (Einsum [(T 91,[0;1;2;3]); (n_v'baa'xov,[4;1;3])] [4;2;0]) (-2) 1);
  (*985*) Del (T 91);
  (*986*) AddTo (T 100) (Plain (Einsum [(T 92,[0;1;2;3]); (n_v'bbb'xov,[4;2;3])] [4;1;0]));
  (*987*) Del (T 92);
  (*988*) AddTo (T 100) (Times (Einsum [(T 2,[0;1;2]); (T 95,[1;3;2;4])] [0;4;3]) (-2) 1);
  (*989*) Del (T 2);
  (*990*) AddTo (T 100) (Times (Einsum [(n_v'baa'xoo,[0;1;2]); (T 95,[1;3;2;4])] [0;4;3]) (-2) 1);
  (*991*) Del (T 95);
  (*992*) AddTo (T 100) (Times (Einsum [(T 98,[0;1;2;3]); (T 5,[4;2;3])] [4;1;0]) (-1) 1);
  (*993*) Del (T 5);
  (*994*) AddTo (T 100) (Times (Einsum [(n_v'bbb'xoo,[0;1;2]); (T 98,[3;4;1;2])] [0;4;3]) (-1) 1);
  (*995*) Del (T 98);
  (*996*) AddTo (T 100) (Times (Einsum [(T 99,[0;1]); (n_v'baa'xov,[2;3;1])] [2;0;3]) (-2) 1);
  (*997*) Del (T 99);
  (*998*) AddTo (T 100) (Times (Einsum [(T 56,[0;1]); (n_v'baa'xoo,[2;3;0])] [2;1;3]) (-2) 1);
  (*999*) Del (T 56);
  (*1000*) Assign (T 88) (Times (Copy (T 83)) (-1) 1);
  (*1001*) Del (T 83);
  (*1002*) AddTo (T 88) (Times (Copy (T 84)) (-1) 2);
  (*1003*) Del (T 84);
  (*1004*) AddTo (T 88) (Times (Copy (T 85)) (-1) 1);
  (*1005*) Del (T 85);
  (*1006*) AddTo (T 88) (Times (Copy (T 86)) (-1) 2);
  (*1007*) Del (T 86);
  (*1008*) AddTo (T 88) (Plain (Einsum [(n_l2'aaaa,[0;1;2;3]); (T 87,[4;3;1])] [4;2;0]));
  (*1009*) Del (T 87);
  (*1010*) AddTo (T 88) (Times (Einsum [(T 11,[0;1;2]); (n_l2'abab,[3;2;4;1])] [0;4;3]) (1) 2);
  (*1011*) Assign (T 22) (Plain (Einsum [(T 1,[0;1;2;3]); (n_t2'abab,[4;5;1;3])] [0;4;5;2]));
  (*1012*) AddTo (T 22) (Times (Einsum [(n_t2'abab,[0;1;2;3]); (T 4,[0;4;5;2])] [5;4;1;3]) (-1) 1);
  (*1013*) Del (T 4);
  (*1014*) AddTo (T 22) (Times (Einsum [(T 7,[0;1;2;3]); (n_t2'abab,[4;1;3;5])] [0;4;2;5]) (-1) 1);
  (*1015*) Del (T 7);
  (*1016*) AddTo (T 22) (Plain (Einsum [(T 11,[0;1;2]); (T 3,[0;3;4])] [4;3;1;2]));
  (*1017*) Del (T 11);
  (*1018*) AddTo (T 22) (Plain (Einsum [(n_t2'abab,[0;1;2;3]); (T 17,[4;2])] [4;0;1;3]));
  (*1019*) AddTo (T 22) (Times (Einsum [(T 21,[0;1;2;3]); (n_t1'bb,[2;4])] [1;0;3;4]) (-1) 1);
  (*1020*) Del (T 21);
  (*1021*) Assign (T 34) (Times (Einsum [(T 23,[0;1;2;3]); (n_t2'aaaa,[4;5;1;3])] [0;4;5;2]) (1) 2);
  (*1022*) Del (T 23);
  (*1023*) AddTo (T 34) (Times (Einsum [(n_t2'aaaa,[0;1;2;3]); (T 24,[4;1;5;3])] [4;0;5;2]) (-1) 1);
  (*1024*) AddTo (T 34) (Times (Einsum [(T 3,[0;1;2]); (T 27,[0;3;4])] [2;3;1;4]) (1) 2);
  (*1025*) Del (T 27);
  (*1026*) AddTo (T 34) (Times (Einsum [(T 17,[0;1]); (n_t2'aaaa,[2;3;4;1])] [0;2;3;4]) (1) 2);
  (*1027*) AddTo (T 34) (Times (Einsum [(T 3,[0;1;2]); (T 28,[0;3;4])] [2;1;3;4]) (-1) 2);
  (*1028*) Del (T 28);
  (*1029*) AddTo (T 34) (Times (Einsum [(T 33,[0;1;2;3]); (n_t1'aa,[0;4])] [1;3;2;4]) (-1) 2);
  (*1030*) Del (T 33);
  (*1031*) Assign (T 101) (Plain (Copy (T 53)));
  (*1032*) Del (T 53);
  (*1033*) AddTo (T 101) (Times (Copy (T 54)) (2) 1);
  (*1034*) Del (T 54);
  (*1035*) AddTo (T 101) (Plain (Copy (T 55)));
  (*1036*) Del (T 55);
  (*1037*) Assign (T 104) (Plain (Copy n_f'aa'vv));
  (*1038*) AddTo (T 104) (Plain (Transpose (T 103) [1;0]));
  (*1039*) Del (T 103);
  (*1040*) Assign (T 82) (Plain (Copy n_f'aa'oo));
  (*1041*) AddTo (T 82) (Times (Copy (T 78)) (-1) 1);
  (*1042*) Del (T 78);
  (*1043*) AddTo (T 82) (Plain (Einsum [(n_v'baa'xov,[0;1;2]); (T 79,[0;3;2])] [3;1]));
  (*1044*) Del (T 79);
  (*1045*) AddTo (T 82) (Plain (Transpose (T 80) [1;0]));
  (*1046*) Del (T 80);
  (*1047*) AddTo (T 82) (Plain (Copy (T 81)));
  (*1048*) Del (T 81);
  (*1049*) Assign (T 38) (Times (Einsum [(n_v'baa'xov,[0;1;2]); (T 37,[3;2])] [0;1;3]) (2) 1);
  (*1050*) Del (T 37);
  (*1051*) AddTo (T 38) (Plain (Einsum [(T 3,[0;1;2]); (n_l1'aa,[3;1])] [0;2;3]));
  (*1052*) Del (T 3);
  (*1053*) Assign n_l2new'bbbb (Plain (Transpose (T 118) [3;2;1;0]));
  (*1054*) AddTo n_l2new'bbbb (Times (Einsum [(T 115,[0;1;2;3]); (n_l1'bb,[4;1])] [3;4;2;0]) (-1) 1);
  (*1055*) Del (T 115);
  (*1056*) AddTo n_l2new'bbbb (Times (Transpose (T 118) [2;3;1;0]) (-1) 1);
  (*1057*) Del (T 118);
  (*1058*) AddTo n_l2new'bbbb (Plain (Transpose (T 213) [3;2;0;1]));
  (*1059*) AddTo n_l2new'bbbb (Times (Einsum [(n_l2'bbbb,[0;1;2;3]); (T 214,[3;4;5;1])] [5;0;2;4]) (2) 1);
  (*1060*) Del (T 214);
  (*1061*) AddTo n_l2new'bbbb (Times (Einsum [(n_v'bbb'xov,[0;1;2]); (T 215,[0;3;4])] [2;4;3;1]) (-1) 1);
  (*1062*) Del (T 215);
  (*1063*) AddTo n_l2new'bbbb (Times (Einsum [(n_l2'bbbb,[0;1;2;3]); (T 199,[3;4])] [0;1;2;4]) (-2) 1);
  (*1064*) AddTo n_l2new'bbbb (Times (Einsum [(T 216,[0;1]); (n_l1'bb,[2;3])] [1;2;3;0]) (-1) 1);
  (*1065*) Del (T 216);
  (*1066*) AddTo n_l2new'bbbb (Times (Transpose (T 217) [2;3;0;1]) (-2) 1);
  (*1067*) AddTo n_l2new'bbbb (Plain (Transpose (T 218) [3;2;1;0]));
  (*1068*) AddTo n_l2new'bbbb (Times (Einsum [(n_l2'bbbb,[0;1;2;3]); (T 219,[3;4])] [0;1;4;2]) (2) 1);
  (*1069*) Del (T 219);
  (*1070*) AddTo n_l2new'bbbb (Plain (Einsum [(n_l1'bb,[0;1]); (T 197,[2;3])] [3;0;2;1]));
  (*1071*) AddTo n_l2new'bbbb (Times (Transpose (T 217) [3;2;1;0]) (-2) 1);
  (*1072*) AddTo n_l2new'bbbb (Plain (Transpose (T 218) [2;3;0;1]));
  (*1073*) AddTo n_l2new'bbbb (Plain (Einsum [(n_l1'bb,[0;1]); (T 197,[2;3])] [0;3;1;2]));
  (*1074*) AddTo n_l2new'bbbb (Times (Transpose (T 217) [3;2;0;1]) (2) 1);
  (*1075*) Del (T 217);
  (*1076*) AddTo n_l2new'bbbb (Times (Transpose (T 218) [2;3;1;0]) (-1) 1);
  (*1077*) Del (T 218);
  (*1078*) AddTo n_l2new'bbbb (Times (Einsum [(n_l1'bb,[0;1]); (T 197,[2;3])] [0;3;2;1]) (-1) 1);
  (*1079*) AddTo n_l2new'bbbb (Times (Transpose (T 220) [3;2;1;0]) (2) 1);
  (*1080*) Del (T 220);
  (*1081*) AddTo n_l2new'bbbb (Times (Transpose (T 222) [2;3;1;0]) (-2) 1);
  (*1082*) Del (T 222);
  (*1083*) AddTo n_l2new'bbbb (Times (Transpose (T 223) [2;3;1;0]) (2) 1);
  (*1084*) AddTo n_l2new'bbbb (Times (Einsum [(T 224,[0;1]); (n_l2'bbbb,[2;0;3;4])] [1;2;3;4]) (-1) 1);
  (*1085*) Del (T 224);
  (*1086*) AddTo n_l2new'bbbb (Times (Transpose (T 225) [2;3;1;0]) (-2) 1);
  (*1087*) AddTo n_l2new'bbbb (Times (Transpose (T 226) [2;3;1;0]) (-1) 1);
  (*1088*) AddTo n_l2new'bbbb (Times (Transpose (T 223) [3;2;1;0]) (-2) 1);
  (*1089*) Del (T 223);
  (*1090*) AddTo n_l2new'bbbb (Times (Transpose (T 226) [3;2;1;0]) (2) 1);
  (*1091*) Del (T 226);
  (*1092*) AddTo n_l2new'bbbb (Times (Transpose (T 225) [3;2;1;0]) (2) 1);
  (*1093*) Del (T 225);
  (*1094*) AddTo n_l2new'bbbb (Times (Transpose (T 227) [2;3;0;1]) (-2) 1);
  (*1095*) AddTo n_l2new'bbbb (Times (Transpose (T 227) [2;3;1;0]) (2) 1);
  (*1096*) Del (T 227);
  (*1097*) AddTo n_l2new'bbbb (Times (Einsum [(T 228,[0;1;2;3]); (n_l2'bbbb,[4;5;0;2])] [4;5;1;3]) (-2) 1);
  (*1098*) Del (T 228);
  (*1099*) AddTo n_l2new'bbbb (Plain (Einsum [(T 212,[0;1;2;3]); (n_l1'bb,[4;1])] [3;4;0;2]));
  (*1100*) Del (T 212);
  (*1101*) AddTo n_l2new'bbbb (Times (Transpose (T 213) [3;2;1;0]) (-1) 1);
  (*1102*) Del (T 213);
  (*1103*) AddTo n_l2new'bbbb (Plain (Einsum [(T 108,[0;1]); (n_l1'bb,[2;3])] [1;2;3;0]));
  (*1104*) AddTo n_l2new'bbbb (Times (Transpose (T 229) [3;2;0;1]) (-1) 1);
  (*1105*) AddTo n_l2new'bbbb (Times (Transpose (T 230) [3;2;0;1]) (-2) 1);
  (*1106*) AddTo n_l2new'bbbb (Times (Transpose (T 231) [3;2;0;1]) (-2) 1);
  (*1107*) AddTo n_l2new'bbbb (Plain (Transpose (T 229) [2;3;0;1]));
  (*1108*) AddTo n_l2new'bbbb (Times (Einsum [(n_l1'bb,[0;1]); (T 108,[2;3])] [0;3;1;2]) (-1) 1);
  (*1109*) AddTo n_l2new'bbbb (Times (Transpose (T 230) [2;3;0;1]) (2) 1);
  (*1110*) AddTo n_l2new'bbbb (Times (Transpose (T 231) [2;3;0;1]) (2) 1);
  (*1111*) AddTo n_l2new'bbbb (Plain (Transpose (T 229) [3;2;1;0]));
  (*1112*) AddTo n_l2new'bbbb (Times (Einsum [(T 108,[0;1]); (n_l1'bb,[2;3])] [1;2;0;3]) (-1) 1);
  (*1113*) AddTo n_l2new'bbbb (Times (Transpose (T 230) [3;2;1;0]) (2) 1);
  (*1114*) AddTo n_l2new'bbbb (Times (Transpose (T 231) [3;2;1;0]) (2) 1);
  (*1115*) AddTo n_l2new'bbbb (Plain (Einsum [(n_l1'bb,[0;1]); (T 108,[2;3])] [0;3;2;1]));
  (*1116*) AddTo n_l2new'bbbb (Times (Transpose (T 229) [2;3;1;0]) (-1) 1);
  (*1117*) Del (T 229);
  (*1118*) AddTo n_l2new'bbbb (Times (Transpose (T 230) [2;3;1;0]) (-2) 1);
  (*1119*) Del (T 230);
  (*1120*) AddTo n_l2new'bbbb (Times (Transpose (T 231) [2;3;1;0]) (-2) 1);
  (*1121*) Del (T 231);
  (*1122*) Assign n_l2new'abab (Plain (Transpose (T 18) [2;3;0;1]));
  (*1123*) Del (T 18);
  (*1124*) AddTo n_l2new'abab (Times (Einsum [(n_l1'bb,[0;1]); (T 189,[2;3;1;4])] [4;0;2;3]) (-1) 1);
  (*1125*) AddTo n_l2new'abab (Times (Einsum [(n_l2'abab,[0;1;2;3]); (T 157,[4;2;5;0])] [5;1;4;3]) (-1) 1);
  (*1126*) Del (T 157);
  (*1127*) AddTo n_l2new'abab (Plain (Einsum [(T 193,[0;1;2]); (n_v'baa'xov,[0;3;4])] [4;2;3;1]));
  (*1128*) Del (T 193);
  (*1129*) AddTo n_l2new'abab (Times (Einsum [(n_l2'abab,[0;1;2;3]); (T 169,[2;4])] [0;1;4;3]) (-1) 1);
  (*1130*) AddTo n_l2new'abab (Plain (Einsum [(T 170,[0;1]); (n_l1'bb,[2;3])] [1;2;0;3]));
  (*1131*) AddTo n_l2new'abab (Times (Einsum [(n_l2'abab,[0;1;2;3]); (T 195,[4;3;5;1])] [0;5;2;4]) (-1) 1);
  (*1132*) Del (T 195);
  (*1133*) AddTo n_l2new'abab (Plain (Einsum [(n_v'bbb'xov,[0;1;2]); (T 163,[0;3;4])] [4;2;3;1]));
  (*1134*) Del (T 163);
  (*1135*) AddTo n_l2new'abab (Plain (Einsum [(n_l1'aa,[0;1]); (T 197,[2;3])] [0;3;1;2]));
  (*1136*) Del (T 197);
  (*1137*) AddTo n_l2new'abab (Times (Einsum [(n_l2'abab,[0;1;2;3]); (T 198,[3;4;0;5])] [5;1;2;4]) (-1) 1);
  (*1138*) Del (T 198);
  (*1139*) AddTo n_l2new'abab (Times (Einsum [(T 199,[0;1]); (n_l2'abab,[2;3;4;0])] [2;3;4;1]) (-1) 1);
  (*1140*) Del (T 199);
  (*1141*) AddTo n_l2new'abab (Times (Einsum [(T 51,[0;1;2;3]); (T 1,[1;4;3;5])] [4;5;0;2]) (-1) 1);
  (*1142*) Del (T 1);
  (*1143*) AddTo n_l2new'abab (Plain (Transpose (T 201) [2;3;0;1]));
  (*1144*) Del (T 201);
  (*1145*) AddTo n_l2new'abab (Plain (Transpose (T 202) [2;3;0;1]));
  (*1146*) Del (T 202);
  (*1147*) AddTo n_l2new'abab (Plain (Einsum [(T 177,[0;1]); (n_l2'abab,[0;2;3;4])] [1;2;3;4]));
  (*1148*) AddTo n_l2new'abab (Times (Einsum [(T 167,[0;1]); (T 51,[2;0;3;4])] [1;4;2;3]) (-1) 1);
  (*1149*) Del (T 167);
  (*1150*) AddTo n_l2new'abab (Times (Einsum [(T 105,[0;1;2;3]); (T 62,[4;5;0;2])] [1;3;4;5]) (-1) 1);
  (*1151*) Del (T 105);
  (*1152*) AddTo n_l2new'abab (Plain (Einsum [(T 204,[0;1]); (n_l2'abab,[2;0;3;4])] [2;1;3;4]));
  (*1153*) Del (T 204);
  (*1154*) AddTo n_l2new'abab (Times (Einsum [(T 205,[0;1]); (T 62,[2;3;0;4])] [4;1;2;3]) (-1) 1);
  (*1155*) Del (T 205);
  (*1156*) AddTo n_l2new'abab (Times (Einsum [(T 206,[0;1;2;3]); (n_l1'aa,[4;1])] [4;3;0;2]) (-1) 1);
  (*1157*) AddTo n_l2new'abab (Plain (Einsum [(T 207,[0;1;2;3]); (n_l2'abab,[4;5;0;2])] [4;5;1;3]));
  (*1158*) Del (T 207);
  (*1159*) AddTo n_l2new'abab (Times (Einsum [(n_l2'abab,[0;1;2;3]); (T 208,[2;4;1;5])] [0;5;4;3]) (-1) 1);
  (*1160*) Del (T 208);
  (*1161*) AddTo n_l2new'abab (Times (Einsum [(T 183,[0;1;2]); (n_v'bbb'xov,[0;3;4])] [2;4;1;3]) (-1) 1);
  (*1162*) Del (T 183);
  (*1163*) AddTo n_l2new'abab (Plain (Einsum [(T 51,[0;1;2;3]); (T 189,[1;4;2;5])] [5;3;0;4]));
  (*1164*) Del (T 189);
  (*1165*) AddTo n_l2new'abab (Times (Einsum [(T 209,[0;1;2]); (n_v'baa'xov,[0;3;4])] [4;2;3;1]) (-1) 1);
  (*1166*) Del (T 209);
  (*1167*) AddTo n_l2new'abab (Plain (Einsum [(T 206,[0;1;2;3]); (T 62,[1;4;2;5])] [5;3;0;4]));
  (*1168*) Del (T 206);
  (*1169*) AddTo n_l2new'abab (Times (Einsum [(T 12,[0;1]); (n_l1'bb,[2;3])] [1;2;0;3]) (-1) 1);
  (*1170*) AddTo n_l2new'abab (Plain (Einsum [(T 51,[0;1;2;3]); (T 185,[4;0;1;5])] [5;3;4;2]));
  (*1171*) Del (T 185);
  (*1172*) AddTo n_l2new'abab (Plain (Einsum [(T 51,[0;1;2;3]); (T 187,[0;1;4;5])] [5;3;4;2]));
  (*1173*) Del (T 51);
  (*1173*) Del (T 187);
  (*1174*) AddTo n_l2new'abab (Plain (Einsum [(T 62,[0;1;2;3]); (T 210,[1;2;4;5])] [3;5;0;4]));
  (*1175*) Del (T 210);
  (*1176*) AddTo n_l2new'abab (Plain (Einsum [(T 211,[0;1;2;3]); (T 62,[4;1;2;5])] [5;3;4;0]));
  (*1177*) Del (T 62);
  (*1177*) Del (T 211);
  (*1178*) AddTo n_l2new'abab (Times (Einsum [(T 108,[0;1]); (n_l1'aa,[2;3])] [2;1;3;0]) (-1) 1);
  (*1179*) Del (T 108);
  (*1180*) Assign n_l2new'aaaa (Plain (Transpose (T 30) [3;2;1;0]));
  (*1181*) AddTo n_l2new'aaaa (Times (Einsum [(T 24,[0;1;2;3]); (n_l1'aa,[4;2])] [3;4;0;1]) (-1) 1);
  (*1182*) Del (T 24);
  (*1183*) AddTo n_l2new'aaaa (Times (Transpose (T 30) [2;3;1;0]) (-1) 1);
  (*1184*) Del (T 30);
  (*1185*) AddTo n_l2new'aaaa (Plain (Transpose (T 149) [3;2;0;1]));
  (*1186*) AddTo n_l2new'aaaa (Times (Einsum [(n_l2'aaaa,[0;1;2;3]); (T 150,[3;4;5;1])] [5;0;2;4]) (2) 1);
  (*1187*) Del (T 150);
  (*1188*) AddTo n_l2new'aaaa (Times (Einsum [(n_v'baa'xov,[0;1;2]); (T 154,[0;3;4])] [2;4;3;1]) (-1) 1);
  (*1189*) Del (T 154);
  (*1190*) AddTo n_l2new'aaaa (Times (Einsum [(n_l2'aaaa,[0;1;2;3]); (T 155,[3;4])] [0;1;2;4]) (-2) 1);
  (*1191*) Del (T 155);
  (*1192*) AddTo n_l2new'aaaa (Times (Einsum [(n_l1'aa,[0;1]); (T 156,[2;3])] [3;0;1;2]) (-1) 1);
  (*1193*) Del (T 156);
  (*1194*) AddTo n_l2new'aaaa (Times (Transpose (T 158) [2;3;0;1]) (-2) 1);
  (*1195*) AddTo n_l2new'aaaa (Plain (Transpose (T 164) [3;2;1;0]));
  (*1196*) AddTo n_l2new'aaaa (Times (Einsum [(T 169,[0;1]); (n_l2'aaaa,[2;3;4;0])] [2;3;1;4]) (2) 1);
  (*1197*) Del (T 169);
  (*1198*) AddTo n_l2new'aaaa (Plain (Einsum [(T 170,[0;1]); (n_l1'aa,[2;3])] [1;2;0;3]));
  (*1199*) AddTo n_l2new'aaaa (Times (Transpose (T 158) [3;2;1;0]) (-2) 1);
  (*1200*) AddTo n_l2new'aaaa (Plain (Transpose (T 164) [2;3;0;1]));
  (*1201*) AddTo n_l2new'aaaa (Plain (Einsum [(T 170,[0;1]); (n_l1'aa,[2;3])] [2;1;3;0]));
  (*1202*) AddTo n_l2new'aaaa (Times (Transpose (T 158) [3;2;0;1]) (2) 1);
  (*1203*) Del (T 158);
  (*1204*) AddTo n_l2new'aaaa (Times (Transpose (T 164) [2;3;1;0]) (-1) 1);
  (*1205*) Del (T 164);
  (*1206*) AddTo n_l2new'aaaa (Times (Einsum [(T 170,[0;1]); (n_l1'aa,[2;3])] [2;1;0;3]) (-1) 1);
  (*1207*) Del (T 170);
  (*1208*) AddTo n_l2new'aaaa (Times (Transpose (T 171) [2;3;1;0]) (2) 1);
  (*1209*) AddTo n_l2new'aaaa (Times (Transpose (T 173) [2;3;1;0]) (-2) 1);
  (*1210*) Del (T 173);
  (*1211*) AddTo n_l2new'aaaa (Times (Transpose (T 174) [3;2;1;0]) (2) 1);
  (*1212*) Del (T 174);
  (*1213*) AddTo n_l2new'aaaa (Times (Einsum [(n_l2'aaaa,[0;1;2;3]); (T 177,[1;4])] [4;0;2;3]) (-1) 1);
  (*1214*) Del (T 177);
  (*1215*) AddTo n_l2new'aaaa (Times (Transpose (T 178) [2;3;1;0]) (-2) 1);
  (*1216*) AddTo n_l2new'aaaa (Times (Transpose (T 180) [2;3;1;0]) (-1) 1);
  (*1217*) AddTo n_l2new'aaaa (Times (Transpose (T 171) [3;2;1;0]) (-2) 1);
  (*1218*) Del (T 171);
  (*1219*) AddTo n_l2new'aaaa (Times (Transpose (T 180) [3;2;1;0]) (2) 1);
  (*1220*) Del (T 180);
  (*1221*) AddTo n_l2new'aaaa (Times (Transpose (T 178) [3;2;1;0]) (2) 1);
  (*1222*) Del (T 178);
  (*1223*) AddTo n_l2new'aaaa (Times (Transpose (T 181) [2;3;0;1]) (-2) 1);
  (*1224*) AddTo n_l2new'aaaa (Times (Transpose (T 181) [2;3;1;0]) (2) 1);
  (*1225*) Del (T 181);
  (*1226*) AddTo n_l2new'aaaa (Times (Einsum [(n_l2'aaaa,[0;1;2;3]); (T 182,[2;4;3;5])] [0;1;4;5]) (-2) 1);
  (*1227*) Del (T 182);
  (*1228*) AddTo n_l2new'aaaa (Plain (Einsum [(n_l1'aa,[0;1]); (T 148,[2;1;3;4])] [4;0;2;3]));
  (*1229*) Del (T 148);
  (*1230*) AddTo n_l2new'aaaa (Times (Transpose (T 149) [3;2;1;0]) (-1) 1);
  (*1231*) Del (T 149);
  (*1232*) AddTo n_l2new'aaaa (Plain (Einsum [(T 12,[0;1]); (n_l1'aa,[2;3])] [1;2;3;0]));
  (*1233*) AddTo n_l2new'aaaa (Times (Transpose (T 184) [3;2;0;1]) (-1) 1);
  (*1234*) AddTo n_l2new'aaaa (Times (Transpose (T 186) [3;2;0;1]) (-2) 1);
  (*1235*) AddTo n_l2new'aaaa (Times (Transpose (T 188) [3;2;0;1]) (-2) 1);
  (*1236*) AddTo n_l2new'aaaa (Plain (Transpose (T 184) [2;3;0;1]));
  (*1237*) AddTo n_l2new'aaaa (Times (Einsum [(T 12,[0;1]); (n_l1'aa,[2;3])] [2;1;3;0]) (-1) 1);
  (*1238*) AddTo n_l2new'aaaa (Times (Transpose (T 186) [2;3;0;1]) (2) 1);
  (*1239*) AddTo n_l2new'aaaa (Times (Transpose (T 188) [2;3;0;1]) (2) 1);
  (*1240*) AddTo n_l2new'aaaa (Plain (Transpose (T 184) [3;2;1;0]));
  (*1241*) AddTo n_l2new'aaaa (Times (Einsum [(n_l1'aa,[0;1]); (T 12,[2;3])] [3;0;2;1]) (-1) 1);
  (*1242*) AddTo n_l2new'aaaa (Times (Transpose (T 186) [3;2;1;0]) (2) 1);
  (*1243*) AddTo n_l2new'aaaa (Times (Transpose (T 188) [3;2;1;0]) (2) 1);
  (*1244*) AddTo n_l2new'aaaa (Plain (Einsum [(n_l1'aa,[0;1]); (T 12,[2;3])] [0;3;2;1]));
  (*1245*) Del (T 12);
  (*1246*) AddTo n_l2new'aaaa (Times (Transpose (T 184) [2;3;1;0]) (-1) 1);
  (*1247*) Del (T 184);
  (*1248*) AddTo n_l2new'aaaa (Times (Transpose (T 186) [2;3;1;0]) (-2) 1);
  (*1249*) Del (T 186);
  (*1250*) AddTo n_l2new'aaaa (Times (Transpose (T 188) [2;3;1;0]) (-2) 1);
  (*1251*) Del (T 188);
  (*1252*) Assign n_l1new'bb (Plain (Transpose n_f'bb'ov [1;0]));
  (*1253*) AddTo n_l1new'bb (Times (Einsum [(T 113,[0;1;2;3]); (n_l2'abab,[3;4;0;2])] [4;1]) (-2) 1);
  (*1254*) Del (T 113);
  (*1255*) AddTo n_l1new'bb (Times (Einsum [(T 122,[0;1;2;3]); (n_l2'bbbb,[4;3;1;2])] [4;0]) (2) 1);
  (*1256*) Del (T 122);
  (*1257*) AddTo n_l1new'bb (Times (Einsum [(n_v'bbb'xvv,[0;1;2]); (T 124,[0;3;2])] [1;3]) (-2) 1);
  (*1258*) Del (T 124);
  (*1259*) AddTo n_l1new'bb (Plain (Einsum [(T 77,[0]); (n_v'bbb'xov,[0;1;2])] [2;1]));
  (*1260*) AddTo n_l1new'bb (Times (Einsum [(n_l1'bb,[0;1]); (T 129,[1;2])] [0;2]) (-1) 1);
  (*1261*) Del (T 129);
  (*1262*) AddTo n_l1new'bb (Times (Einsum [(n_v'bbb'xvv,[0;1;2]); (T 134,[0;3;2])] [1;3]) (4) 1);
  (*1263*) Del (T 134);
  (*1264*) AddTo n_l1new'bb (Times (Einsum [(n_v'bbb'xov,[0;1;2]); (T 143,[0;1;3])] [2;3]) (-4) 1);
  (*1265*) Del (T 143);
  (*1266*) AddTo n_l1new'bb (Times (Einsum [(T 110,[0;1]); (T 144,[2;0])] [1;2]) (-2) 1);
  (*1267*) Del (T 110);
  (*1267*) Del (T 144);
  (*1268*) AddTo n_l1new'bb (Plain (Einsum [(T 146,[0;1]); (n_l1'bb,[0;2])] [1;2]));
  (*1269*) Del (T 146);
  (*1270*) Assign n_l1new'aa (Plain (Transpose n_f'aa'ov [1;0]));
  (*1271*) AddTo n_l1new'aa (Times (Einsum [(n_l2'abab,[0;1;2;3]); (T 22,[4;2;3;1])] [0;4]) (-1) 1);
  (*1272*) Del (T 22);
  (*1273*) AddTo n_l1new'aa (Times (Einsum [(T 34,[0;1;2;3]); (n_l2'aaaa,[4;3;1;2])] [4;0]) (4) 1);
  (*1274*) Del (T 34);
  (*1275*) AddTo n_l1new'aa (Times (Einsum [(T 38,[0;1;2]); (n_v'baa'xvv,[0;3;2])] [3;1]) (-1) 1);
  (*1276*) Del (T 38);
  (*1277*) AddTo n_l1new'aa (Plain (Einsum [(T 77,[0]); (n_v'baa'xov,[0;1;2])] [2;1]));
  (*1278*) Del (T 77);
  (*1279*) AddTo n_l1new'aa (Times (Einsum [(T 82,[0;1]); (n_l1'aa,[2;0])] [2;1]) (-1) 1);
  (*1280*) Del (T 82);
  (*1281*) AddTo n_l1new'aa (Times (Einsum [(n_v'baa'xvv,[0;1;2]); (T 88,[0;3;2])] [1;3]) (2) 1);
  (*1282*) Del (T 88);
  (*1283*) AddTo n_l1new'aa (Times (Einsum [(T 100,[0;1;2]); (n_v'baa'xov,[0;1;3])] [3;2]) (-1) 1);
  (*1284*) Del (T 100);
  (*1285*) AddTo n_l1new'aa (Times (Einsum [(T 17,[0;1]); (T 101,[2;0])] [1;2]) (-1) 1);
  (*1286*) Del (T 17);
  (*1286*) Del (T 101);
  (*1287*) AddTo n_l1new'aa (Plain (Einsum [(n_l1'aa,[0;1]); (T 104,[0;2])] [2;1]));
  (*1288*) Del (T 104)]
 [(n_l1new'bb,[7;6]); (n_l1new'aa,[5;4]); (n_l2new'bbbb,[7;7;6;6]); (n_l2new'abab,[5;7;4;6]); (n_l2new'aaaa,[5;5;4;4])].

(** ebcc/codegen/UDFCC2.py:1292-1380 [make_rdm1_f]; assembly (line 1377) not translated; assembly (line 1378) not translated *)
Definition UDFCC2_make_rdm1_f : prog := mkprog
 [(n_t2'aaaa,[4;4;5;5]); (n_t2'bbbb,[6;6;7;7]); (n_t1'bb,[6;7]); (n_l1'bb,[7;6]); (n_l2'abab,[5;7;4;6]); (n_t2'abab,[4;6;5;7]); (n_l2'bbbb,[7;7;6;6]); (n_l2'aaaa,[5;5;4;4]); (n_l1'aa,[5;4]); (n_t1'aa,[4;5])]
 [(*1316*) Assign n_delta'aa'oo (Plain (Eye 4));
  (*1316*) Assign n_delta'aa'vv (Plain (Eye 5));
  (*1316*) Assign n_delta'bb'oo (Plain (Eye 6));
  (*1316*) Assign n_delta'bb'vv (Plain (Eye 7));
  (*1320*) Assign (T 4) (Plain (Einsum [(n_t1'bb,[0;1]); (n_l1'bb,[1;2])] [2;0]));
  (*1321*) Assign (T 5) (Plain (Einsum [(n_l2'abab,[0;1;2;3]); (n_t2'abab,[2;4;0;1])] [3;4]));
  (*1322*) Assign (T 6) (Plain (Einsum [(n_t2'bbbb,[0;1;2;3]); (n_l2'bbbb,[2;3;4;1])] [4;0]));
  (*1323*) Assign (T 2) (Plain (Einsum [(n_t2'aaaa,[0;1;2;3]); (n_l2'aaaa,[2;3;4;1])] [4;0]));
  (*1324*) Assign (T 1) (Plain (Einsum [(n_l2'abab,[0;1;2;3]); (n_t2'abab,[4;3;0;1])] [2;4]));
  (*1325*) Assign (T 3) (Plain (Einsum [(n_l1'aa,[0;1]); (n_t1'aa,[2;0])] [1;2]));
  (*1326*) Assign (T 12) (Plain (Copy (T 4)));
  (*1327*) AddTo (T 12) (Plain (Copy (T 5)));
  (*1328*) AddTo (T 12) (Times (Copy (T 6)) (2) 1);
  (*1329*) Assign (T 10) (Plain (Einsum [(n_l2'abab,[0;1;2;3]); (n_t1'bb,[4;1])] [2;3;4;0]));
  (*1330*) Assign (T 11) (Plain (Einsum [(n_t1'bb,[0;1]); (n_l2'bbbb,[2;1;3;4])] [3;4;0;2]));
  (*1331*) Assign (T 8) (Plain (Einsum [(n_t1'aa,[0;1]); (n_l2'aaaa,[2;1;3;4])] [3;4;0;2]));
  (*1332*) Assign (T 9) (Times (Copy (T 3)) (1) 2);
  (*1333*) AddTo (T 9) (Plain (Copy (T 2)));
  (*1334*) AddTo (T 9) (Times (Copy (T 1)) (1) 2);
  (*1335*) Assign (T 7) (Plain (Einsum [(n_l2'abab,[0;1;2;3]); (n_t1'aa,[4;0])] [2;4;3;1]));
  (*1336*) Assign n_rdm1'bb'vv (Times (Einsum [(n_l2'bbbb,[0;1;2;3]); (n_t2'bbbb,[2;3;4;1])] [0;4]) (2) 1);
  (*1337*) AddTo n_rdm1'bb'vv (Plain (Einsum [(n_t1'bb,[0;1]); (n_l1'bb,[2;0])] [2;1]));
  (*1338*) AddTo n_rdm1'bb'vv (Plain (Einsum [(n_l2'abab,[0;1;2;3]); (n_t2'abab,[2;3;0;4])] [1;4]));
  (*1339*) Assign n_rdm1'aa'vv (Plain (Einsum [(n_l2'abab,[0;1;2;3]); (n_t2'abab,[2;3;4;1])] [0;4]));
  (*1340*) AddTo n_rdm1'aa'vv (Times (Einsum [(n_l2'aaaa,[0;1;2;3]); (n_t2'aaaa,[2;3;4;1])] [0;4]) (2) 1);
  (*1341*) AddTo n_rdm1'aa'vv (Plain (Einsum [(n_t1'aa,[0;1]); (n_l1'aa,[2;0])] [2;1]));
  (*1342*) Assign n_rdm1'bb'vo (Plain (Copy n_l1'bb));
  (*1343*) Assign n_rdm1'aa'vo (Plain (Copy n_l1'aa));
  (*1344*) Assign n_rdm1'bb'ov (Plain (Einsum [(n_t2'abab,[0;1;2;3]); (n_l1'aa,[2;0])] [1;3]));
  (*1345*) AddTo n_rdm1'bb'ov (Plain (Copy n_t1'bb));
  (*1346*) AddTo n_rdm1'bb'ov (Times (Einsum [(n_l1'bb,[0;1]); (n_t2'bbbb,[2;1;3;0])] [2;3]) (2) 1);
  (*1347*) AddTo n_rdm1'bb'ov (Times (Einsum [(n_t2'abab,[0;1;2;3]); (T 10,[0;1;4;2])] [4;3]) (-1) 1);
  (*1348*) Del (T 10);
  (*1349*) AddTo n_rdm1'bb'ov (Times (Einsum [(T 11,[0;1;2;3]); (n_t2'bbbb,[1;0;4;3])] [2;4]) (-2) 1);
  (*1350*) Del (T 11);
  (*1351*) AddTo n_rdm1'bb'ov (Times (Einsum [(n_t1'bb,[0;1]); (T 12,[0;2])] [2;1]) (-1) 1);
  (*1352*) Del (T 12);
  (*1353*) Assign n_rdm1'aa'ov (Plain (Copy n_t1'aa));
  (*1354*) AddTo n_rdm1'aa'ov (Plain (Einsum [(n_t2'abab,[0;1;2;3]); (n_l1'bb,[3;1])] [0;2]));
  (*1355*) AddTo n_rdm1'aa'ov (Times (Einsum [(n_l1'aa,[0;1]); (n_t2'aaaa,[2;1;3;0])] [2;3]) (2) 1);
  (*1356*) AddTo n_rdm1'aa'ov (Times (Einsum [(T 7,[0;1;2;3]); (n_t2'abab,[0;2;4;3])] [1;4]) (-1) 1);
  (*1357*) Del (T 7);
  (*1358*) AddTo n_rdm1'aa'ov (Times (Einsum [(n_t2'aaaa,[0;1;2;3]); (T 8,[1;0;4;3])] [4;2]) (-2) 1);
  (*1359*) Del (T 8);
  (*1360*) AddTo n_rdm1'aa'ov (Times (Einsum [(T 9,[0;1]); (n_t1'aa,[0;2])] [1;2]) (-2) 1);
  (*1361*) Del (T 9);
  (*1362*) Assign n_rdm1'bb'oo (Times (Transpose (T 4) [1;0]) (-1) 1);
  (*1363*) Del (T 4);
  (*1364*) AddTo n_rdm1'bb'oo (Plain (Copy n_delta'bb'oo));
  (*1365*) AddTo n_rdm1'bb'oo (Times (Transpose (T 5) [1;0]) (-1) 1);
  (*1366*) Del (T 5);
  (*1367*) AddTo n_rdm1'bb'oo (Times (Transpose (T 6) [1;0]) (-2) 1);
  (*1368*) Del (T 6);
  (*1369*) Assign n_rdm1'aa'oo (Plain (Copy n_delta'aa'oo));
  (*1370*) Del n_delta'aa'oo;
  (*1370*) Del n_delta'aa'vv;
  (*1370*) Del n_delta'bb'oo;
  (*1370*) Del n_delta'bb'vv;
  (*1371*) AddTo n_rdm1'aa'oo (Times (Transpose (T 1) [1;0]) (-1) 1);
  (*1372*) Del (T 1);
  (*1373*) AddTo n_rdm1'aa'oo (Times (Transpose (T 2) [1;0]) (-2) 1);
  (*1374*) Del (T 2);
  (*1375*) AddTo n_rdm1'aa'oo (Times (Transpose (T 3) [1;0]) (-1) 1);
  (*1376*) Del (T 3)]
 [(n_rdm1'aa'oo,[4;4]); (n_rdm1'aa'ov,[4;5]); (n_rdm1'aa'vo,[5;4]); (n_rdm1'aa'vv,[5;5]); (n_rdm1'bb'oo,[6;6]); (n_rdm1'bb'ov,[6;7]); (n_rdm1'bb'vo,[7;6]); (n_rdm1'bb'vv,[7;7])].

(** ebcc/codegen/UDFCC2.py:1382-2026 [make_rdm2_f]; assembly (line 2017) not translated; assembly (line 2018) not translated; assembly (line 2019) not translated *)
Definition UDFCC2_make_rdm2_f : prog := mkprog
 [(n_t2'aaaa,[4;4;5;5]); (n_t2'bbbb,[6;6;7;7]); (n_t1'bb,[6;7]); (n_l2'bbbb,[7;7;6;6]); (n_l2'abab,[5;7;4;6]); (n_l1'bb,[7;6]); (n_t2'abab,[4;6;5;7]); (n_l2'aaaa,[5;5;4;4]); (n_l1'aa,[5;4]); (n_t1'aa,[4;5])]
 [(*1407*) Assign n_delta'aa'oo (Plain (Eye 4));
  (*1407*) Assign n_delta'aa'vv (Plain (Eye 5));
  (*1407*) Assign n_delta'bb'oo (Plain (Eye 6));
  (*1407*) Assign n_delta'bb'vv (Plain (Eye 7));
  (*1411*) Assign (T 19) (Plain (Einsum [(n_t1'bb,[0;1]); (n_l2'bbbb,[2;1;3;4])] [3;4;0;2]));
  (*1412*) Assign (T 15) (Plain (Einsum [(n_l2'abab,[0;1;2;3]); (n_t1'bb,[4;1])] [2;3;4;0]));
  (*1413*) Assign (T 9) (Plain (Einsum [(n_t1'bb,[0;1]); (n_l1'bb,[1;2])] [2;0]));
  (*1414*) Assign (T 10) (Plain (Einsum [(n_l2'abab,[0;1;2;3]); (n_t2'abab,[2;4;0;1])] [3;4]));
  (*1415*) Assign (T 11) (Plain (Einsum [(n_t2'bbbb,[0;1;2;3]); (n_l2'bbbb,[2;3;4;1])] [4;0]));
  (*1416*) Assign (T 2) (Plain (Einsum [(n_t2'aaaa,[0;1;2;3]); (n_l2'aaaa,[2;3;4;1])] [4;0]));
  (*1417*) Assign (T 1) (Plain (Einsum [(n_l1'aa,[0;1]); (n_t1'aa,[2;0])] [1;2]));
  (*1418*) Assign (T 3) (Plain (Einsum [(n_l2'abab,[0;1;2;3]); (n_t2'abab,[4;3;0;1])] [2;4]));
  (*1419*) Assign (T 7) (Plain (Einsum [(n_t1'aa,[0;1]); (n_l2'aaaa,[2;1;3;4])] [3;4;0;2]));
  (*1420*) Assign (T 27) (Plain (Einsum [(n_l2'abab,[0;1;2;3]); (n_t1'aa,[4;0])] [2;4;3;1]));
  (*1421*) Assign (T 91) (Plain (Einsum [(n_t2'bbbb,[0;1;2;3]); (n_l2'bbbb,[4;3;5;1])] [5;0;4;2]));
  (*1422*) Assign (T 93) (Plain (Einsum [(n_l2'abab,[0;1;2;3]); (n_t2'abab,[2;4;0;5])] [3;4;1;5]));
  (*1423*) Assign (T 70) (Plain (Einsum [(n_l2'abab,[0;1;2;3]); (n_t2'abab,[4;3;5;1])] [2;4;0;5]));
  (*1424*) Assign (T 68) (Plain (Einsum [(n_l2'aaaa,[0;1;2;3]); (n_t2'aaaa,[4;3;5;1])] [2;4;0;5]));
  (*1425*) Assign (T 20) (Plain (Einsum [(n_t1'bb,[0;1]); (T 19,[2;3;4;1])] [2;3;0;4]));
  (*1426*) Assign (T 18) (Plain (Einsum [(n_l2'bbbb,[0;1;2;3]); (n_t2'bbbb,[4;5;0;1])] [2;3;4;5]));
  (*1427*) Assign (T 53) (Plain (Einsum [(n_t2'abab,[0;1;2;3]); (T 15,[0;4;5;2])] [4;5;1;3]));
  (*1428*) Assign (T 52) (Times (Einsum [(T 19,[0;1;2;3]); (n_t2'bbbb,[4;1;5;3])] [0;2;4;5]) (-1) 1);
  (*1429*) Assign (T 17) (Plain (Copy (T 9)));
  (*1430*) AddTo (T 17) (Plain (Copy (T 10)));
  (*1431*) AddTo (T 17) (Times (Copy (T 11)) (2) 1);
  (*1432*) Assign (T 14) (Plain (Einsum [(n_l2'abab,[0;1;2;3]); (n_t2'abab,[4;5;0;1])] [2;4;3;5]));
  (*1433*) Assign (T 16) (Plain (Einsum [(T 15,[0;1;2;3]); (n_t1'aa,[4;3])] [0;4;1;2]));
  (*1434*) Assign (T 13) (Times (Copy (T 1)) (1) 2);
  (*1435*) AddTo (T 13) (Plain (Copy (T 2)));
  (*1436*) AddTo (T 13) (Times (Copy (T 3)) (1) 2);
  (*1437*) Assign (T 8) (Plain (Einsum [(T 7,[0;1;2;3]); (n_t1'aa,[4;3])] [0;1;4;2]));
  (*1438*) Assign (T 6) (Plain (Einsum [(n_l2'aaaa,[0;1;2;3]); (n_t2'aaaa,[4;5;0;1])] [2;3;4;5]));
  (*1439*) Assign (T 31) (Times (Einsum [(T 7,[0;1;2;3]); (n_t2'aaaa,[4;1;5;3])] [0;2;4;5]) (-1) 1);
  (*1440*) Assign (T 32) (Plain (Einsum [(n_t2'abab,[0;1;2;3]); (T 27,[4;5;1;3])] [4;5;0;2]));
  (*1441*) Assign (T 123) (Plain (Copy (T 93)));
  (*1442*) AddTo (T 123) (Times (Copy (T 91)) (4) 1);
  (*1443*) Assign (T 80) (Plain (Einsum [(n_l2'abab,[0;1;2;3]); (n_t2'abab,[2;3;0;4])] [1;4]));
  (*1444*) Assign (T 107) (Plain (Einsum [(n_t1'bb,[0;1]); (n_l1'bb,[2;0])] [2;1]));
  (*1445*) Assign (T 81) (Plain (Einsum [(n_l2'bbbb,[0;1;2;3]); (n_t2'bbbb,[2;3;4;1])] [0;4]));
  (*1446*) Assign (T 110) (Plain (Einsum [(n_t1'bb,[0;1]); (T 19,[2;0;3;4])] [2;3;4;1]));
  (*1447*) Assign (T 113) (Plain (Einsum [(n_l2'abab,[0;1;2;3]); (n_t2'bbbb,[4;3;5;1])] [2;4;0;5]));
  (*1448*) Assign (T 89) (Plain (Einsum [(n_l2'aaaa,[0;1;2;3]); (n_t2'abab,[3;4;1;5])] [2;4;0;5]));
  (*1449*) Assign (T 64) (Plain (Einsum [(n_l2'abab,[0;1;2;3]); (n_t2'abab,[2;3;4;1])] [0;4]));
  (*1450*) Assign (T 63) (Plain (Einsum [(n_l2'aaaa,[0;1;2;3]); (n_t2'aaaa,[2;3;4;1])] [0;4]));
  (*1451*) Assign (T 104) (Plain (Einsum [(n_t1'aa,[0;1]); (n_l1'aa,[2;0])] [2;1]));
  (*1452*) Assign (T 85) (Times (Copy (T 68)) (4) 1);
  (*1453*) AddTo (T 85) (Plain (Copy (T 70)));
  (*1454*) Assign (T 106) (Plain (Einsum [(n_t1'aa,[0;1]); (T 7,[2;0;3;4])] [2;3;4;1]));
  (*1455*) Assign (T 83) (Plain (Einsum [(n_l2'abab,[0;1;2;3]); (n_t2'aaaa,[4;2;5;0])] [4;3;5;1]));
  (*1456*) Assign (T 66) (Plain (Einsum [(n_l2'bbbb,[0;1;2;3]); (n_t2'abab,[4;3;5;1])] [4;2;5;0]));
  (*1457*) Assign (T 49) (Plain (Einsum [(n_t2'bbbb,[0;1;2;3]); (n_l1'bb,[3;4])] [4;0;1;2]));
  (*1458*) Assign (T 55) (Plain (Transpose (T 18) [1;0;3;2]));
  (*1459*) AddTo (T 55) (Times (Transpose (T 20) [0;1;3;2]) (-1) 1);
  (*1460*) Assign (T 102) (Plain (Copy (T 53)));
  (*1461*) AddTo (T 102) (Times (Copy (T 52)) (4) 1);
  (*1462*) Assign (T 36) (Plain (Einsum [(n_l1'bb,[0;1]); (n_t2'bbbb,[2;1;3;0])] [2;3]));
  (*1463*) Assign (T 35) (Plain (Einsum [(n_t2'abab,[0;1;2;3]); (n_l1'aa,[2;0])] [1;3]));
  (*1464*) Assign (T 39) (Plain (Einsum [(n_t2'abab,[0;1;2;3]); (T 15,[0;1;4;2])] [4;3]));
  (*1465*) Assign (T 40) (Plain (Einsum [(n_t2'bbbb,[0;1;2;3]); (T 19,[1;0;4;3])] [4;2]));
  (*1466*) Assign (T 50) (Times (Einsum [(T 17,[0;1]); (n_t1'bb,[0;2])] [1;2]) (1) 2);
  (*1467*) Assign (T 54) (Times (Copy (T 9)) (1) 2);
  (*1468*) AddTo (T 54) (Times (Copy (T 10)) (1) 2);
  (*1469*) AddTo (T 54) (Plain (Copy (T 11)));
  (*1470*) Assign (T 41) (Plain (Einsum [(T 17,[0;1]); (n_t1'bb,[0;2])] [1;2]));
  (*1471*) Assign (T 60) (Times (Einsum [(n_t2'abab,[0;1;2;3]); (T 19,[4;1;5;3])] [0;4;5;2]) (-1) 1);
  (*1472*) Assign (T 61) (Plain (Einsum [(T 15,[0;1;2;3]); (n_t2'aaaa,[4;0;5;3])] [4;1;2;5]));
  (*1473*) Assign (T 45) (Plain (Copy (T 14)));
  (*1474*) AddTo (T 45) (Plain (Copy (T 16)));
  (*1475*) Assign (T 26) (Plain (Einsum [(T 7,[0;1;2;3]); (n_t2'aaaa,[1;0;4;3])] [2;4]));
  (*1476*) Assign (T 28) (Plain (Einsum [(T 27,[0;1;2;3]); (n_t2'abab,[0;2;4;3])] [1;4]));
  (*1477*) Assign (T 29) (Plain (Einsum [(T 13,[0;1]); (n_t1'aa,[0;2])] [1;2]));
  (*1478*) Assign (T 43) (Plain (Einsum [(T 27,[0;1;2;3]); (n_t2'bbbb,[4;2;5;3])] [0;1;4;5]));
  (*1479*) Assign (T 44) (Times (Einsum [(n_t2'abab,[0;1;2;3]); (T 7,[4;0;5;2])] [4;5;1;3]) (-1) 1);
  (*1480*) Assign (T 21) (Plain (Einsum [(n_l1'aa,[0;1]); (n_t2'aaaa,[2;1;3;0])] [2;3]));
  (*1481*) Assign (T 22) (Plain (Einsum [(n_t2'abab,[0;1;2;3]); (n_l1'bb,[3;1])] [0;2]));
  (*1482*) Assign (T 25) (Plain (Einsum [(n_t2'aaaa,[0;1;2;3]); (n_l1'aa,[3;4])] [4;0;1;2]));
  (*1483*) Assign (T 5) (Plain (Copy (T 1)));
  (*1484*) AddTo (T 5) (Times (Copy (T 2)) (2) 1);
  (*1485*) AddTo (T 5) (Plain (Copy (T 3)));
  (*1486*) Assign (T 33) (Plain (Transpose (T 6) [1;0;3;2]));
  (*1487*) AddTo (T 33) (Times (Transpose (T 8) [0;1;3;2]) (-1) 1);
  (*1488*) Assign (T 78) (Times (Copy (T 31)) (4) 1);
  (*1489*) AddTo (T 78) (Plain (Copy (T 32)));
  (*1490*) Assign (T 57) (Times (Einsum [(T 13,[0;1]); (n_t1'aa,[0;2])] [1;2]) (2) 1);
  (*1491*) Assign (T 132) (Plain (Einsum [(n_t2'bbbb,[0;1;2;3]); (n_l2'bbbb,[4;5;0;1])] [4;5;2;3]));
  (*1492*) Assign (T 130) (Plain (Einsum [(n_t1'bb,[0;1]); (n_l2'bbbb,[2;3;4;0])] [4;2;3;1]));
  (*1493*) Assign (T 129) (Plain (Einsum [(n_l2'abab,[0;1;2;3]); (n_t1'bb,[3;4])] [2;0;1;4]));
  (*1494*) Assign (T 131) (Plain (Einsum [(n_l2'aaaa,[0;1;2;3]); (n_t2'aaaa,[2;3;4;5])] [0;1;4;5]));
  (*1495*) Assign (T 128) (Plain (Einsum [(n_l2'aaaa,[0;1;2;3]); (n_t1'aa,[3;4])] [2;0;1;4]));
  (*1496*) Assign (T 124) (Plain (Einsum [(n_t1'bb,[0;1]); (T 123,[0;2;3;4])] [2;1;3;4]));
  (*1497*) Del (T 123);
  (*1498*) Assign (T 115) (Times (Copy (T 107)) (1) 2);
  (*1499*) AddTo (T 115) (Times (Copy (T 80)) (1) 2);
  (*1500*) AddTo (T 115) (Plain (Copy (T 81)));
  (*1501*) Assign (T 126) (Times (Einsum [(n_t1'bb,[0;1]); (T 110,[0;2;3;4])] [2;3;4;1]) (-1) 1);
  (*1502*) Assign (T 108) (Plain (Copy (T 107)));
  (*1503*) Del (T 107);
  (*1504*) AddTo (T 108) (Plain (Copy (T 80)));
  (*1505*) AddTo (T 108) (Times (Copy (T 81)) (2) 1);
  (*1506*) Assign (T 125) (Times (Einsum [(n_t2'bbbb,[0;1;2;3]); (T 19,[1;0;4;5])] [4;5;2;3]) (-1) 1);
  (*1507*) Assign (T 121) (Plain (Einsum [(n_l1'bb,[0;1]); (n_t2'bbbb,[2;1;3;4])] [2;0;3;4]));
  (*1508*) Assign (T 127) (Plain (Copy (T 89)));
  (*1509*) AddTo (T 127) (Plain (Copy (T 113)));
  (*1510*) Assign (T 86) (Plain (Einsum [(n_l2'abab,[0;1;2;3]); (n_t2'abab,[2;4;5;1])] [3;4;0;5]));
  (*1511*) Assign (T 114) (Plain (Einsum [(T 15,[0;1;2;3]); (n_t1'bb,[1;4])] [0;2;3;4]));
  (*1512*) Assign (T 111) (Plain (Copy (T 104)));
  (*1513*) AddTo (T 111) (Times (Copy (T 63)) (2) 1);
  (*1514*) AddTo (T 111) (Plain (Copy (T 64)));
  (*1515*) Assign (T 119) (Times (Einsum [(n_t2'aaaa,[0;1;2;3]); (T 7,[1;0;4;5])] [4;5;2;3]) (-1) 1);
  (*1516*) Assign (T 118) (Plain (Einsum [(T 85,[0;1;2;3]); (n_t1'aa,[0;4])] [1;4;2;3]));
  (*1517*) Assign (T 120) (Times (Einsum [(T 106,[0;1;2;3]); (n_t1'aa,[0;4])] [1;2;3;4]) (-1) 1);
  (*1518*) Assign (T 116) (Plain (Einsum [(n_t2'aaaa,[0;1;2;3]); (n_l1'aa,[4;1])] [0;4;2;3]));
  (*1519*) Assign (T 122) (Plain (Copy (T 93)));
  (*1520*) AddTo (T 122) (Times (Copy (T 91)) (4) 1);
  (*1521*) Assign (T 84) (Plain (Copy (T 83)));
  (*1522*) AddTo (T 84) (Plain (Copy (T 66)));
  (*1523*) Assign (T 109) (Plain (Einsum [(n_l2'abab,[0;1;2;3]); (n_t2'abab,[4;3;0;5])] [2;4;1;5]));
  (*1524*) Assign (T 112) (Plain (Einsum [(T 27,[0;1;2;3]); (n_t1'aa,[0;4])] [1;2;4;3]));
  (*1525*) Assign (T 117) (Times (Copy (T 68)) (4) 1);
  (*1526*) AddTo (T 117) (Plain (Copy (T 70)));
  (*1527*) Assign (T 105) (Times (Copy (T 104)) (1) 2);
  (*1528*) Del (T 104);
  (*1529*) AddTo (T 105) (Plain (Copy (T 63)));
  (*1530*) AddTo (T 105) (Times (Copy (T 64)) (1) 2);
  (*1531*) Assign (T 96) (Plain (Einsum [(n_t1'bb,[0;1]); (T 49,[0;2;3;4])] [2;3;1;4]));
  (*1532*) Assign (T 92) (Plain (Einsum [(T 91,[0;1;2;3]); (n_t2'bbbb,[4;0;5;2])] [1;4;3;5]));
  (*1533*) Assign (T 100) (Plain (Einsum [(T 55,[0;1;2;3]); (n_t2'bbbb,[0;1;4;5])] [2;3;4;5]));
  (*1534*) Assign (T 103) (Plain (Einsum [(T 102,[0;1;2;3]); (n_t1'bb,[0;4])] [1;2;4;3]));
  (*1535*) Del (T 102);
  (*1536*) Assign (T 37) (Plain (Copy n_t1'bb));
  (*1537*) AddTo (T 37) (Plain (Copy (T 35)));
  (*1538*) AddTo (T 37) (Times (Copy (T 36)) (2) 1);
  (*1539*) Assign (T 99) (Times (Einsum [(T 17,[0;1]); (n_t2'bbbb,[2;0;3;4])] [2;1;3;4]) (-1) 1);
  (*1540*) Assign (T 101) (Plain (Einsum [(T 55,[0;1;2;3]); (n_t1'bb,[0;4])] [1;3;2;4]));
  (*1541*) Assign (T 95) (Plain (Copy (T 35)));
  (*1542*) AddTo (T 95) (Times (Copy (T 36)) (2) 1);
  (*1543*) Assign (T 51) (Times (Copy (T 39)) (1) 2);
  (*1544*) AddTo (T 51) (Plain (Copy (T 40)));
  (*1545*) AddTo (T 51) (Plain (Copy (T 50)));
  (*1546*) Del (T 50);
  (*1547*) Assign (T 98) (Times (Einsum [(T 54,[0;1]); (n_t2'bbbb,[2;0;3;4])] [2;1;3;4]) (-2) 1);
  (*1548*) Assign (T 82) (Plain (Copy (T 80)));
  (*1549*) AddTo (T 82) (Times (Copy (T 81)) (2) 1);
  (*1550*) Assign (T 90) (Plain (Einsum [(T 89,[0;1;2;3]); (n_t2'abab,[0;4;2;5])] [1;4;3;5]));
  (*1551*) Assign (T 97) (Times (Copy (T 80)) (1) 2);
  (*1552*) Del (T 80);
  (*1553*) AddTo (T 97) (Plain (Copy (T 81)));
  (*1554*) Del (T 81);
  (*1555*) Assign (T 94) (Plain (Einsum [(n_t2'bbbb,[0;1;2;3]); (T 93,[1;4;3;5])] [4;0;5;2]));
  (*1556*) Assign (T 48) (Plain (Copy n_t1'bb));
  (*1557*) AddTo (T 48) (Plain (Copy (T 35)));
  (*1558*) Del (T 35);
  (*1559*) AddTo (T 48) (Times (Copy (T 36)) (2) 1);
  (*1560*) Del (T 36);
  (*1561*) Assign (T 42) (Plain (Copy (T 39)));
  (*1562*) Del (T 39);
  (*1563*) AddTo (T 42) (Times (Copy (T 40)) (2) 1);
  (*1564*) Del (T 40);
  (*1565*) AddTo (T 42) (Plain (Copy (T 41)));
  (*1566*) Del (T 41);
  (*1567*) Assign (T 59) (Plain (Einsum [(n_t2'abab,[0;1;2;3]); (n_l1'bb,[3;4])] [0;4;1;2]));
  (*1568*) Assign (T 62) (Plain (Einsum [(n_t2'abab,[0;1;2;3]); (T 27,[0;4;5;3])] [4;5;1;2]));
  (*1569*) Assign (T 88) (Plain (Copy (T 61)));
  (*1570*) AddTo (T 88) (Plain (Copy (T 60)));
  (*1571*) Assign (T 46) (Plain (Einsum [(T 45,[0;1;2;3]); (n_t1'bb,[2;4])] [0;1;3;4]));
  (*1572*) Assign (T 38) (Plain (Einsum [(n_l1'aa,[0;1]); (n_t2'abab,[2;3;0;4])] [1;2;3;4]));
  (*1573*) Assign (T 74) (Plain (Copy (T 63)));
  (*1574*) AddTo (T 74) (Times (Copy (T 64)) (1) 2);
  (*1575*) Assign (T 47) (Plain (Einsum [(T 15,[0;1;2;3]); (n_t2'abab,[4;1;3;5])] [0;4;2;5]));
  (*1576*) Assign (T 30) (Plain (Copy (T 26)));
  (*1577*) AddTo (T 30) (Times (Copy (T 28)) (1) 2);
  (*1578*) AddTo (T 30) (Plain (Copy (T 29)));
  (*1579*) Del (T 29);
  (*1580*) Assign (T 87) (Plain (Copy (T 44)));
  (*1581*) AddTo (T 87) (Plain (Copy (T 43)));
  (*1582*) Assign (T 72) (Times (Copy (T 21)) (2) 1);
  (*1583*) AddTo (T 72) (Plain (Copy (T 22)));
  (*1584*) Assign (T 73) (Plain (Einsum [(T 25,[0;1;2;3]); (n_t1'aa,[0;4])] [1;2;4;3]));
  (*1585*) Assign (T 75) (Times (Einsum [(n_t2'aaaa,[0;1;2;3]); (T 5,[1;4])] [4;0;2;3]) (-1) 1);
  (*1586*) Assign (T 23) (Plain (Copy n_t1'aa));
  (*1587*) AddTo (T 23) (Times (Copy (T 21)) (2) 1);
  (*1588*) AddTo (T 23) (Plain (Copy (T 22)));
  (*1589*) Assign (T 76) (Plain (Einsum [(T 33,[0;1;2;3]); (n_t2'aaaa,[0;1;4;5])] [2;3;4;5]));
  (*1590*) Assign (T 69) (Plain (Einsum [(n_t2'aaaa,[0;1;2;3]); (T 68,[1;4;3;5])] [4;0;5;2]));
  (*1591*) Assign (T 79) (Plain (Einsum [(T 78,[0;1;2;3]); (n_t1'aa,[0;4])] [1;2;4;3]));
  (*1592*) Del (T 78);
  (*1593*) Assign (T 65) (Times (Copy (T 63)) (2) 1);
  (*1594*) Del (T 63);
  (*1595*) AddTo (T 65) (Plain (Copy (T 64)));
  (*1596*) Del (T 64);
  (*1597*) Assign (T 58) (Times (Copy (T 26)) (2) 1);
  (*1598*) Del (T 26);
  (*1599*) AddTo (T 58) (Plain (Copy (T 28)));
  (*1600*) Del (T 28);
  (*1601*) AddTo (T 58) (Plain (Copy (T 57)));
  (*1602*) Del (T 57);
  (*1603*) Assign (T 67) (Plain (Einsum [(n_t2'abab,[0;1;2;3]); (T 66,[4;1;5;3])] [0;4;2;5]));
  (*1604*) Assign (T 71) (Plain (Einsum [(T 70,[0;1;2;3]); (n_t2'aaaa,[4;0;5;2])] [4;1;5;3]));
  (*1605*) Assign (T 24) (Plain (Copy n_t1'aa));
  (*1606*) AddTo (T 24) (Times (Copy (T 21)) (2) 1);
  (*1607*) Del (T 21);
  (*1608*) AddTo (T 24) (Plain (Copy (T 22)));
  (*1609*) Del (T 22);
  (*1610*) Assign (T 77) (Plain (Einsum [(T 33,[0;1;2;3]); (n_t1'aa,[0;4])] [1;3;2;4]));
  (*1611*) Assign (T 56) (Times (Einsum [(T 55,[0;1;2;3]); (n_t1'bb,[0;4])] [1;2;3;4]) (2) 1);
  (*1612*) Del (T 55);
  (*1613*) Assign (T 34) (Times (Einsum [(T 33,[0;1;2;3]); (n_t1'aa,[0;4])] [1;2;3;4]) (2) 1);
  (*1614*) Del (T 33);
  (*1615*) Assign (T 12) (Times (Copy n_delta'bb'oo) (-1) 1);
  (*1616*) AddTo (T 12) (Plain (Copy (T 9)));
  (*1617*) Del (T 9);
  (*1618*) AddTo (T 12) (Plain (Copy (T 10)));
  (*1619*) Del (T 10);
  (*1620*) AddTo (T 12) (Times (Copy (T 11)) (2) 1);
  (*1621*) Del (T 11);
  (*1622*) Assign (T 4) (Times (Copy n_delta'aa'oo) (-1) 1);
  (*1623*) AddTo (T 4) (Plain (Copy (T 1)));
  (*1624*) Del (T 1);
  (*1625*) AddTo (T 4) (Times (Copy (T 2)) (2) 1);
  (*1626*) Del (T 2);
  (*1627*) AddTo (T 4) (Plain (Copy (T 3)));
  (*1628*) Del (T 3);
  (*1629*) Assign n_rdm2'bbbb'vvvv (Times (Transpose (T 132) [1;0;3;2]) (2) 1);
  (*1630*) Del (T 132);
  (*1631*) AddTo n_rdm2'bbbb'vvvv (Times (Einsum [(T 130,[0;1;2;3]); (n_t1'bb,[0;4])] [1;2;4;3]) (2) 1);
  (*1632*) Assign n_rdm2'abab'vvvv (Plain (Einsum [(n_l2'abab,[0;1;2;3]); (n_t2'abab,[2;3;4;5])] [0;1;4;5]));
  (*1633*) AddTo n_rdm2'abab'vvvv (Plain (Einsum [(T 129,[0;1;2;3]); (n_t1'aa,[0;4])] [1;2;4;3]));
  (*1634*) Assign n_rdm2'aaaa'vvvv (Times (Transpose (T 131) [1;0;3;2]) (2) 1);
  (*1635*) Del (T 131);
  (*1636*) AddTo n_rdm2'aaaa'vvvv (Times (Einsum [(n_t1'aa,[0;1]); (T 128,[0;2;3;4])] [2;3;1;4]) (2) 1);
  (*1637*) Assign n_rdm2'bbbb'vvvo (Times (Transpose (T 130) [2;1;3;0]) (2) 1);
  (*1638*) Assign n_rdm2'abab'vvvo (Plain (Einsum [(n_l2'abab,[0;1;2;3]); (n_t1'aa,[2;4])] [0;1;4;3]));
  (*1639*) Assign n_rdm2'aaaa'vvvo (Times (Transpose (T 128) [2;1;3;0]) (2) 1);
  (*1640*) Assign n_rdm2'bbbb'vvov (Times (Transpose (T 130) [2;1;0;3]) (-2) 1);
  (*1641*) Del (T 130);
  (*1642*) Assign n_rdm2'abab'vvov (Plain (Transpose (T 129) [1;2;0;3]));
  (*1643*) Del (T 129);
  (*1644*) Assign n_rdm2'aaaa'vvov (Times (Transpose (T 128) [2;1;0;3]) (-2) 1);
  (*1645*) Del (T 128);
  (*1646*) Assign n_rdm2'bbbb'vovv (Times (Transpose (T 121) [1;0;3;2]) (2) 1);
  (*1647*) AddTo n_rdm2'bbbb'vovv (Times (Einsum [(T 108,[0;1]); (n_t1'bb,[2;3])] [0;2;3;1]) (-1) 1);
  (*1648*) AddTo n_rdm2'bbbb'vovv (Times (Einsum [(T 115,[0;1]); (n_t1'bb,[2;3])] [0;2;1;3]) (2) 1);
  (*1649*) AddTo n_rdm2'bbbb'vovv (Plain (Transpose (T 124) [2;0;1;3]));
  (*1650*) AddTo n_rdm2'bbbb'vovv (Times (Transpose (T 124) [2;0;3;1]) (-1) 1);
  (*1651*) AddTo n_rdm2'bbbb'vovv (Times (Transpose (T 125) [1;0;3;2]) (2) 1);
  (*1652*) AddTo n_rdm2'bbbb'vovv (Times (Transpose (T 126) [1;0;3;2]) (2) 1);
  (*1653*) Assign n_rdm2'abab'vovv (Plain (Einsum [(n_t2'abab,[0;1;2;3]); (n_l1'aa,[4;0])] [4;1;2;3]));
  (*1654*) AddTo n_rdm2'abab'vovv (Plain (Einsum [(T 111,[0;1]); (n_t1'bb,[2;3])] [0;2;1;3]));
  (*1655*) AddTo n_rdm2'abab'vovv (Times (Einsum [(n_t1'aa,[0;1]); (T 127,[0;2;3;4])] [3;2;1;4]) (2) 1);
  (*1656*) Del (T 127);
  (*1657*) AddTo n_rdm2'abab'vovv (Times (Einsum [(T 86,[0;1;2;3]); (n_t1'bb,[0;4])] [2;1;3;4]) (-1) 1);
  (*1658*) AddTo n_rdm2'abab'vovv (Times (Einsum [(n_t2'abab,[0;1;2;3]); (T 15,[0;1;4;5])] [5;4;2;3]) (-1) 1);
  (*1659*) AddTo n_rdm2'abab'vovv (Times (Einsum [(T 114,[0;1;2;3]); (n_t1'aa,[0;4])] [2;1;4;3]) (-1) 1);
  (*1660*) Assign n_rdm2'aaaa'vovv (Times (Transpose (T 116) [1;0;3;2]) (2) 1);
  (*1661*) AddTo n_rdm2'aaaa'vovv (Times (Einsum [(T 111,[0;1]); (n_t1'aa,[2;3])] [0;2;3;1]) (-1) 1);
  (*1662*) AddTo n_rdm2'aaaa'vovv (Plain (Einsum [(T 111,[0;1]); (n_t1'aa,[2;3])] [0;2;1;3]));
  (*1663*) AddTo n_rdm2'aaaa'vovv (Plain (Transpose (T 118) [2;0;1;3]));
  (*1664*) AddTo n_rdm2'aaaa'vovv (Times (Transpose (T 118) [2;0;3;1]) (-1) 1);
  (*1665*) AddTo n_rdm2'aaaa'vovv (Times (Transpose (T 119) [1;0;3;2]) (2) 1);
  (*1666*) AddTo n_rdm2'aaaa'vovv (Times (Transpose (T 120) [1;0;3;2]) (2) 1);
  (*1667*) Assign n_rdm2'bbbb'ovvv (Times (Transpose (T 121) [0;1;3;2]) (-2) 1);
  (*1668*) Del (T 121);
  (*1669*) AddTo n_rdm2'bbbb'ovvv (Plain (Einsum [(T 108,[0;1]); (n_t1'bb,[2;3])] [2;0;3;1]));
  (*1670*) AddTo n_rdm2'bbbb'ovvv (Times (Einsum [(T 115,[0;1]); (n_t1'bb,[2;3])] [2;0;1;3]) (-2) 1);
  (*1671*) AddTo n_rdm2'bbbb'ovvv (Times (Einsum [(T 122,[0;1;2;3]); (n_t1'bb,[0;4])] [1;2;4;3]) (-1) 1);
  (*1672*) Del (T 122);
  (*1673*) AddTo n_rdm2'bbbb'ovvv (Plain (Transpose (T 124) [0;2;3;1]));
  (*1674*) Del (T 124);
  (*1675*) AddTo n_rdm2'bbbb'ovvv (Times (Transpose (T 125) [0;1;3;2]) (-2) 1);
  (*1676*) Del (T 125);
  (*1677*) AddTo n_rdm2'bbbb'ovvv (Times (Transpose (T 126) [0;1;3;2]) (-2) 1);
  (*1678*) Del (T 126);
  (*1679*) Assign n_rdm2'abab'ovvv (Plain (Einsum [(n_t2'abab,[0;1;2;3]); (n_l1'bb,[4;1])] [0;4;2;3]));
  (*1680*) AddTo n_rdm2'abab'ovvv (Times (Einsum [(T 115,[0;1]); (n_t1'aa,[2;3])] [2;0;3;1]) (2) 1);
  (*1681*) AddTo n_rdm2'abab'ovvv (Times (Einsum [(T 109,[0;1;2;3]); (n_t1'aa,[0;4])] [1;2;4;3]) (-1) 1);
  (*1682*) AddTo n_rdm2'abab'ovvv (Times (Einsum [(T 84,[0;1;2;3]); (n_t1'bb,[1;4])] [0;3;2;4]) (2) 1);
  (*1683*) AddTo n_rdm2'abab'ovvv (Times (Einsum [(n_t2'abab,[0;1;2;3]); (T 27,[0;4;1;5])] [4;5;2;3]) (-1) 1);
  (*1684*) AddTo n_rdm2'abab'ovvv (Times (Einsum [(T 112,[0;1;2;3]); (n_t1'bb,[1;4])] [0;3;2;4]) (-1) 1);
  (*1685*) Assign n_rdm2'aaaa'ovvv (Times (Transpose (T 116) [0;1;3;2]) (-2) 1);
  (*1686*) Del (T 116);
  (*1687*) AddTo n_rdm2'aaaa'ovvv (Plain (Einsum [(T 111,[0;1]); (n_t1'aa,[2;3])] [2;0;3;1]));
  (*1688*) AddTo n_rdm2'aaaa'ovvv (Times (Einsum [(T 111,[0;1]); (n_t1'aa,[2;3])] [2;0;1;3]) (-1) 1);
  (*1689*) AddTo n_rdm2'aaaa'ovvv (Times (Einsum [(n_t1'aa,[0;1]); (T 117,[0;2;3;4])] [2;3;1;4]) (-1) 1);
  (*1690*) Del (T 117);
  (*1691*) AddTo n_rdm2'aaaa'ovvv (Plain (Transpose (T 118) [0;2;3;1]));
  (*1692*) Del (T 118);
  (*1693*) AddTo n_rdm2'aaaa'ovvv (Times (Transpose (T 119) [0;1;3;2]) (-2) 1);
  (*1694*) Del (T 119);
  (*1695*) AddTo n_rdm2'aaaa'ovvv (Times (Transpose (T 120) [0;1;3;2]) (-2) 1);
  (*1696*) Del (T 120);
  (*1697*) Assign n_rdm2'bbbb'vvoo (Times (Copy n_l2'bbbb) (2) 1);
  (*1698*) Assign n_rdm2'abab'vvoo (Plain (Copy n_l2'abab));
  (*1699*) Assign n_rdm2'aaaa'vvoo (Times (Copy n_l2'aaaa) (2) 1);
  (*1700*) Assign n_rdm2'bbbb'vovo (Times (Einsum [(T 115,[0;1]); (n_delta'bb'oo,[2;3])] [0;2;1;3]) (2) 1);
  (*1701*) AddTo n_rdm2'bbbb'vovo (Times (Transpose (T 93) [2;1;3;0]) (-1) 1);
  (*1702*) AddTo n_rdm2'bbbb'vovo (Times (Einsum [(n_l1'bb,[0;1]); (n_t1'bb,[2;3])] [0;2;3;1]) (-1) 1);
  (*1703*) AddTo n_rdm2'bbbb'vovo (Times (Transpose (T 91) [2;1;3;0]) (-4) 1);
  (*1704*) AddTo n_rdm2'bbbb'vovo (Times (Transpose (T 110) [2;1;3;0]) (2) 1);
  (*1705*) Assign n_rdm2'abab'vovo (Times (Einsum [(T 105,[0;1]); (n_delta'bb'oo,[2;3])] [0;2;1;3]) (2) 1);
  (*1706*) AddTo n_rdm2'abab'vovo (Times (Transpose (T 86) [2;1;3;0]) (-1) 1);
  (*1707*) AddTo n_rdm2'abab'vovo (Times (Einsum [(T 15,[0;1;2;3]); (n_t1'aa,[0;4])] [3;2;4;1]) (-1) 1);
  (*1708*) Assign n_rdm2'aaaa'vovo (Plain (Einsum [(T 111,[0;1]); (n_delta'aa'oo,[2;3])] [0;2;1;3]));
  (*1709*) AddTo n_rdm2'aaaa'vovo (Times (Transpose (T 68) [2;1;3;0]) (-4) 1);
  (*1710*) AddTo n_rdm2'aaaa'vovo (Times (Einsum [(n_l1'aa,[0;1]); (n_t1'aa,[2;3])] [0;2;3;1]) (-1) 1);
  (*1711*) AddTo n_rdm2'aaaa'vovo (Times (Transpose (T 70) [2;1;3;0]) (-1) 1);
  (*1712*) AddTo n_rdm2'aaaa'vovo (Times (Transpose (T 106) [2;1;3;0]) (2) 1);
  (*1713*) Assign n_rdm2'bbbb'voov (Times (Einsum [(T 115,[0;1]); (n_delta'bb'oo,[2;3])] [0;2;3;1]) (-2) 1);
  (*1714*) Del (T 115);
  (*1715*) AddTo n_rdm2'bbbb'voov (Plain (Transpose (T 93) [2;1;0;3]));
  (*1716*) AddTo n_rdm2'bbbb'voov (Plain (Einsum [(n_l1'bb,[0;1]); (n_t1'bb,[2;3])] [0;2;1;3]));
  (*1717*) AddTo n_rdm2'bbbb'voov (Times (Transpose (T 91) [2;1;0;3]) (4) 1);
  (*1718*) AddTo n_rdm2'bbbb'voov (Times (Transpose (T 110) [2;1;0;3]) (-2) 1);
  (*1719*) Assign n_rdm2'abab'voov (Plain (Einsum [(n_t1'bb,[0;1]); (n_l1'aa,[2;3])] [2;0;3;1]));
  (*1720*) AddTo n_rdm2'abab'voov (Times (Transpose (T 113) [2;1;0;3]) (2) 1);
  (*1721*) Del (T 113);
  (*1722*) AddTo n_rdm2'abab'voov (Times (Transpose (T 89) [2;1;0;3]) (2) 1);
  (*1723*) Del (T 89);
  (*1724*) AddTo n_rdm2'abab'voov (Times (Transpose (T 114) [2;1;0;3]) (-1) 1);
  (*1725*) Del (T 114);
  (*1726*) Assign n_rdm2'aaaa'voov (Times (Einsum [(n_delta'aa'oo,[0;1]); (T 105,[2;3])] [2;0;1;3]) (-2) 1);
  (*1727*) AddTo n_rdm2'aaaa'voov (Times (Transpose (T 68) [2;1;0;3]) (4) 1);
  (*1728*) AddTo n_rdm2'aaaa'voov (Plain (Einsum [(n_l1'aa,[0;1]); (n_t1'aa,[2;3])] [0;2;1;3]));
  (*1729*) AddTo n_rdm2'aaaa'voov (Plain (Transpose (T 70) [2;1;0;3]));
  (*1730*) AddTo n_rdm2'aaaa'voov (Times (Transpose (T 106) [2;1;0;3]) (-2) 1);
  (*1731*) Assign n_rdm2'bbbb'ovvo (Times (Einsum [(n_delta'bb'oo,[0;1]); (T 108,[2;3])] [0;2;3;1]) (-1) 1);
  (*1732*) AddTo n_rdm2'bbbb'ovvo (Plain (Transpose (T 93) [1;2;3;0]));
  (*1733*) AddTo n_rdm2'bbbb'ovvo (Plain (Einsum [(n_l1'bb,[0;1]); (n_t1'bb,[2;3])] [2;0;3;1]));
  (*1734*) AddTo n_rdm2'bbbb'ovvo (Times (Transpose (T 91) [1;2;3;0]) (4) 1);
  (*1735*) AddTo n_rdm2'bbbb'ovvo (Times (Transpose (T 110) [1;2;3;0]) (-2) 1);
  (*1736*) Assign n_rdm2'abab'ovvo (Plain (Einsum [(n_t1'aa,[0;1]); (n_l1'bb,[2;3])] [0;2;1;3]));
  (*1737*) AddTo n_rdm2'abab'ovvo (Times (Transpose (T 66) [0;3;2;1]) (2) 1);
  (*1738*) Del (T 66);
  (*1739*) AddTo n_rdm2'abab'ovvo (Times (Transpose (T 83) [0;3;2;1]) (2) 1);
  (*1740*) Del (T 83);
  (*1741*) AddTo n_rdm2'abab'ovvo (Times (Transpose (T 112) [0;3;2;1]) (-1) 1);
  (*1742*) Del (T 112);
  (*1743*) Assign n_rdm2'aaaa'ovvo (Times (Einsum [(T 111,[0;1]); (n_delta'aa'oo,[2;3])] [2;0;1;3]) (-1) 1);
  (*1744*) Del (T 111);
  (*1745*) AddTo n_rdm2'aaaa'ovvo (Times (Transpose (T 68) [1;2;3;0]) (4) 1);
  (*1746*) AddTo n_rdm2'aaaa'ovvo (Plain (Einsum [(n_l1'aa,[0;1]); (n_t1'aa,[2;3])] [2;0;3;1]));
  (*1747*) AddTo n_rdm2'aaaa'ovvo (Plain (Transpose (T 70) [1;2;3;0]));
  (*1748*) AddTo n_rdm2'aaaa'ovvo (Times (Transpose (T 106) [1;2;3;0]) (-2) 1);
  (*1749*) Assign n_rdm2'bbbb'ovov (Plain (Einsum [(n_delta'bb'oo,[0;1]); (T 108,[2;3])] [0;2;1;3]));
  (*1750*) AddTo n_rdm2'bbbb'ovov (Times (Transpose (T 93) [1;2;0;3]) (-1) 1);
  (*1751*) Del (T 93);
  (*1752*) AddTo n_rdm2'bbbb'ovov (Times (Einsum [(n_l1'bb,[0;1]); (n_t1'bb,[2;3])] [2;0;1;3]) (-1) 1);
  (*1753*) AddTo n_rdm2'bbbb'ovov (Times (Transpose (T 91) [1;2;0;3]) (-4) 1);
  (*1754*) Del (T 91);
  (*1755*) AddTo n_rdm2'bbbb'ovov (Times (Transpose (T 110) [1;2;0;3]) (2) 1);
  (*1756*) Del (T 110);
  (*1757*) Assign n_rdm2'abab'ovov (Plain (Einsum [(n_delta'aa'oo,[0;1]); (T 108,[2;3])] [0;2;1;3]));
  (*1758*) Del (T 108);
  (*1759*) AddTo n_rdm2'abab'ovov (Times (Transpose (T 109) [1;2;0;3]) (-1) 1);
  (*1760*) Del (T 109);
  (*1761*) AddTo n_rdm2'abab'ovov (Times (Einsum [(n_t1'bb,[0;1]); (T 27,[2;3;0;4])] [3;4;2;1]) (-1) 1);
  (*1762*) Assign n_rdm2'aaaa'ovov (Times (Einsum [(n_delta'aa'oo,[0;1]); (T 105,[2;3])] [0;2;1;3]) (2) 1);
  (*1763*) Del (T 105);
  (*1764*) AddTo n_rdm2'aaaa'ovov (Times (Transpose (T 68) [1;2;0;3]) (-4) 1);
  (*1765*) Del (T 68);
  (*1766*) AddTo n_rdm2'aaaa'ovov (Times (Einsum [(n_l1'aa,[0;1]); (n_t1'aa,[2;3])] [2;0;1;3]) (-1) 1);
  (*1767*) AddTo n_rdm2'aaaa'ovov (Times (Transpose (T 70) [1;2;0;3]) (-1) 1);
  (*1768*) Del (T 70);
  (*1769*) AddTo n_rdm2'aaaa'ovov (Times (Transpose (T 106) [1;2;0;3]) (2) 1);
  (*1770*) Del (T 106);
  (*1771*) Assign n_rdm2'bbbb'oovv (Times (Copy n_t2'bbbb) (2) 1);
  (*1772*) AddTo n_rdm2'bbbb'oovv (Times (Einsum [(T 82,[0;1]); (n_t2'bbbb,[2;3;4;0])] [2;3;4;1]) (-2) 1);
  (*1773*) AddTo n_rdm2'bbbb'oovv (Times (Transpose (T 90) [0;1;3;2]) (-2) 1);
  (*1774*) AddTo n_rdm2'bbbb'oovv (Times (Transpose (T 92) [0;1;3;2]) (-8) 1);
  (*1775*) AddTo n_rdm2'bbbb'oovv (Times (Transpose (T 94) [0;1;3;2]) (-2) 1);
  (*1776*) AddTo n_rdm2'bbbb'oovv (Times (Transpose (T 94) [1;0;2;3]) (-2) 1);
  (*1777*) AddTo n_rdm2'bbbb'oovv (Times (Einsum [(T 48,[0;1]); (n_t1'bb,[2;3])] [0;2;3;1]) (-1) 1);
  (*1778*) AddTo n_rdm2'bbbb'oovv (Times (Transpose (T 90) [1;0;3;2]) (2) 1);
  (*1779*) Del (T 90);
  (*1780*) AddTo n_rdm2'bbbb'oovv (Times (Copy (T 92)) (8) 1);
  (*1781*) Del (T 92);
  (*1782*) AddTo n_rdm2'bbbb'oovv (Times (Copy (T 94)) (2) 1);
  (*1783*) AddTo n_rdm2'bbbb'oovv (Times (Transpose (T 94) [1;0;3;2]) (2) 1);
  (*1784*) Del (T 94);
  (*1785*) AddTo n_rdm2'bbbb'oovv (Plain (Einsum [(n_t1'bb,[0;1]); (T 37,[2;3])] [0;2;1;3]));
  (*1786*) AddTo n_rdm2'bbbb'oovv (Plain (Einsum [(n_t1'bb,[0;1]); (T 95,[2;3])] [2;0;3;1]));
  (*1787*) AddTo n_rdm2'bbbb'oovv (Times (Einsum [(T 95,[0;1]); (n_t1'bb,[2;3])] [2;0;1;3]) (-1) 1);
  (*1788*) Del (T 95);
  (*1789*) AddTo n_rdm2'bbbb'oovv (Times (Copy (T 96)) (2) 1);
  (*1790*) AddTo n_rdm2'bbbb'oovv (Times (Einsum [(n_t2'bbbb,[0;1;2;3]); (T 97,[3;4])] [0;1;4;2]) (4) 1);
  (*1791*) Del (T 97);
  (*1792*) AddTo n_rdm2'bbbb'oovv (Times (Transpose (T 96) [0;1;3;2]) (-2) 1);
  (*1793*) Del (T 96);
  (*1794*) AddTo n_rdm2'bbbb'oovv (Times (Transpose (T 98) [0;1;3;2]) (-1) 1);
  (*1795*) AddTo n_rdm2'bbbb'oovv (Times (Einsum [(n_t1'bb,[0;1]); (T 42,[2;3])] [0;2;1;3]) (-1) 1);
  (*1796*) AddTo n_rdm2'bbbb'oovv (Times (Transpose (T 99) [0;1;3;2]) (-1) 1);
  (*1797*) AddTo n_rdm2'bbbb'oovv (Plain (Einsum [(T 42,[0;1]); (n_t1'bb,[2;3])] [2;0;1;3]));
  (*1798*) AddTo n_rdm2'bbbb'oovv (Plain (Transpose (T 99) [1;0;3;2]));
  (*1799*) Del (T 99);
  (*1800*) AddTo n_rdm2'bbbb'oovv (Times (Einsum [(T 51,[0;1]); (n_t1'bb,[2;3])] [0;2;3;1]) (2) 1);
  (*1801*) AddTo n_rdm2'bbbb'oovv (Plain (Transpose (T 98) [1;0;3;2]));
  (*1802*) Del (T 98);
  (*1803*) AddTo n_rdm2'bbbb'oovv (Times (Einsum [(T 51,[0;1]); (n_t1'bb,[2;3])] [0;2;1;3]) (-2) 1);
  (*1804*) AddTo n_rdm2'bbbb'oovv (Times (Transpose (T 100) [1;0;3;2]) (2) 1);
  (*1805*) Del (T 100);
  (*1806*) AddTo n_rdm2'bbbb'oovv (Times (Einsum [(T 101,[0;1;2;3]); (n_t1'bb,[0;4])] [1;2;4;3]) (2) 1);
  (*1807*) Del (T 101);
  (*1808*) AddTo n_rdm2'bbbb'oovv (Plain (Transpose (T 103) [1;0;2;3]));
  (*1809*) AddTo n_rdm2'bbbb'oovv (Times (Copy (T 103)) (-1) 1);
  (*1810*) AddTo n_rdm2'bbbb'oovv (Times (Transpose (T 103) [1;0;3;2]) (-1) 1);
  (*1811*) AddTo n_rdm2'bbbb'oovv (Plain (Transpose (T 103) [0;1;3;2]));
  (*1812*) Del (T 103);
  (*1813*) Assign n_rdm2'abab'oovv (Plain (Copy n_t2'abab));
  (*1814*) AddTo n_rdm2'abab'oovv (Times (Einsum [(T 82,[0;1]); (n_t2'abab,[2;3;4;0])] [2;3;4;1]) (-1) 1);
  (*1815*) Del (T 82);
  (*1816*) AddTo n_rdm2'abab'oovv (Times (Einsum [(T 84,[0;1;2;3]); (n_t2'bbbb,[4;1;5;3])] [0;4;2;5]) (4) 1);
  (*1817*) Del (T 84);
  (*1818*) AddTo n_rdm2'abab'oovv (Plain (Einsum [(T 85,[0;1;2;3]); (n_t2'abab,[0;4;2;5])] [1;4;3;5]));
  (*1819*) Del (T 85);
  (*1820*) AddTo n_rdm2'abab'oovv (Plain (Einsum [(n_t1'aa,[0;1]); (T 37,[2;3])] [0;2;1;3]));
  (*1821*) AddTo n_rdm2'abab'oovv (Plain (Einsum [(T 72,[0;1]); (n_t1'bb,[2;3])] [0;2;1;3]));
  (*1822*) AddTo n_rdm2'abab'oovv (Times (Einsum [(T 38,[0;1;2;3]); (n_t1'aa,[0;4])] [1;2;4;3]) (-1) 1);
  (*1823*) AddTo n_rdm2'abab'oovv (Times (Einsum [(n_t2'abab,[0;1;2;3]); (T 74,[2;4])] [0;1;4;3]) (-2) 1);
  (*1824*) AddTo n_rdm2'abab'oovv (Times (Einsum [(n_t1'bb,[0;1]); (T 59,[2;0;3;4])] [2;3;4;1]) (-1) 1);
  (*1825*) AddTo n_rdm2'abab'oovv (Times (Einsum [(n_t2'abab,[0;1;2;3]); (T 17,[1;4])] [0;4;2;3]) (-1) 1);
  (*1826*) AddTo n_rdm2'abab'oovv (Times (Einsum [(n_t1'aa,[0;1]); (T 42,[2;3])] [0;2;1;3]) (-1) 1);
  (*1827*) AddTo n_rdm2'abab'oovv (Times (Einsum [(T 13,[0;1]); (n_t2'abab,[0;2;3;4])] [1;2;3;4]) (-2) 1);
  (*1828*) AddTo n_rdm2'abab'oovv (Plain (Einsum [(n_t2'abab,[0;1;2;3]); (T 45,[0;4;1;5])] [4;5;2;3]));
  (*1829*) AddTo n_rdm2'abab'oovv (Plain (Einsum [(T 46,[0;1;2;3]); (n_t1'aa,[0;4])] [1;2;4;3]));
  (*1830*) AddTo n_rdm2'abab'oovv (Plain (Einsum [(T 86,[0;1;2;3]); (n_t2'abab,[4;0;2;5])] [4;1;3;5]));
  (*1831*) Del (T 86);
  (*1832*) AddTo n_rdm2'abab'oovv (Times (Einsum [(T 30,[0;1]); (n_t1'bb,[2;3])] [0;2;1;3]) (-2) 1);
  (*1833*) AddTo n_rdm2'abab'oovv (Plain (Einsum [(T 47,[0;1;2;3]); (n_t1'aa,[0;4])] [1;2;4;3]));
  (*1834*) AddTo n_rdm2'abab'oovv (Times (Einsum [(T 87,[0;1;2;3]); (n_t1'aa,[0;4])] [1;2;4;3]) (-2) 1);
  (*1835*) Del (T 87);
  (*1836*) AddTo n_rdm2'abab'oovv (Times (Einsum [(T 88,[0;1;2;3]); (n_t1'bb,[1;4])] [0;2;3;4]) (-2) 1);
  (*1837*) Del (T 88);
  (*1838*) AddTo n_rdm2'abab'oovv (Plain (Einsum [(T 62,[0;1;2;3]); (n_t1'bb,[1;4])] [0;2;3;4]));
  (*1839*) Assign n_rdm2'aaaa'oovv (Times (Copy n_t2'aaaa) (2) 1);
  (*1840*) AddTo n_rdm2'aaaa'oovv (Times (Einsum [(T 65,[0;1]); (n_t2'aaaa,[2;3;4;0])] [2;3;4;1]) (-2) 1);
  (*1841*) Del (T 65);
  (*1842*) AddTo n_rdm2'aaaa'oovv (Times (Transpose (T 67) [0;1;3;2]) (-2) 1);
  (*1843*) AddTo n_rdm2'aaaa'oovv (Times (Transpose (T 69) [0;1;3;2]) (-8) 1);
  (*1844*) AddTo n_rdm2'aaaa'oovv (Times (Transpose (T 71) [0;1;3;2]) (-2) 1);
  (*1845*) AddTo n_rdm2'aaaa'oovv (Times (Transpose (T 71) [1;0;2;3]) (-2) 1);
  (*1846*) AddTo n_rdm2'aaaa'oovv (Times (Einsum [(T 23,[0;1]); (n_t1'aa,[2;3])] [0;2;3;1]) (-1) 1);
  (*1847*) AddTo n_rdm2'aaaa'oovv (Times (Copy (T 67)) (2) 1);
  (*1848*) Del (T 67);
  (*1849*) AddTo n_rdm2'aaaa'oovv (Times (Copy (T 69)) (8) 1);
  (*1850*) Del (T 69);
  (*1851*) AddTo n_rdm2'aaaa'oovv (Times (Copy (T 71)) (2) 1);
  (*1852*) AddTo n_rdm2'aaaa'oovv (Times (Transpose (T 71) [1;0;3;2]) (2) 1);
  (*1853*) Del (T 71);
  (*1854*) AddTo n_rdm2'aaaa'oovv (Plain (Einsum [(n_t1'aa,[0;1]); (T 24,[2;3])] [0;2;1;3]));
  (*1855*) AddTo n_rdm2'aaaa'oovv (Plain (Einsum [(n_t1'aa,[0;1]); (T 72,[2;3])] [2;0;3;1]));
  (*1856*) AddTo n_rdm2'aaaa'oovv (Times (Einsum [(T 72,[0;1]); (n_t1'aa,[2;3])] [2;0;1;3]) (-1) 1);
  (*1857*) Del (T 72);
  (*1858*) AddTo n_rdm2'aaaa'oovv (Times (Copy (T 73)) (2) 1);
  (*1859*) AddTo n_rdm2'aaaa'oovv (Times (Einsum [(n_t2'aaaa,[0;1;2;3]); (T 74,[3;4])] [0;1;4;2]) (4) 1);
  (*1860*) Del (T 74);
  (*1861*) AddTo n_rdm2'aaaa'oovv (Times (Transpose (T 73) [0;1;3;2]) (-2) 1);
  (*1862*) Del (T 73);
  (*1863*) AddTo n_rdm2'aaaa'oovv (Times (Transpose (T 75) [1;0;3;2]) (-2) 1);
  (*1864*) AddTo n_rdm2'aaaa'oovv (Times (Einsum [(n_t1'aa,[0;1]); (T 58,[2;3])] [0;2;1;3]) (-1) 1);
  (*1865*) AddTo n_rdm2'aaaa'oovv (Times (Einsum [(T 30,[0;1]); (n_t1'aa,[2;3])] [2;0;1;3]) (2) 1);
  (*1866*) AddTo n_rdm2'aaaa'oovv (Times (Transpose (T 75) [0;1;3;2]) (2) 1);
  (*1867*) Del (T 75);
  (*1868*) AddTo n_rdm2'aaaa'oovv (Plain (Einsum [(T 58,[0;1]); (n_t1'aa,[2;3])] [0;2;3;1]));
  (*1869*) AddTo n_rdm2'aaaa'oovv (Times (Einsum [(n_t1'aa,[0;1]); (T 30,[2;3])] [2;0;3;1]) (-2) 1);
  (*1870*) AddTo n_rdm2'aaaa'oovv (Times (Transpose (T 76) [1;0;3;2]) (2) 1);
  (*1871*) Del (T 76);
  (*1872*) AddTo n_rdm2'aaaa'oovv (Times (Einsum [(T 77,[0;1;2;3]); (n_t1'aa,[0;4])] [1;2;4;3]) (2) 1);
  (*1873*) Del (T 77);
  (*1874*) AddTo n_rdm2'aaaa'oovv (Plain (Transpose (T 79) [1;0;2;3]));
  (*1875*) AddTo n_rdm2'aaaa'oovv (Times (Copy (T 79)) (-1) 1);
  (*1876*) AddTo n_rdm2'aaaa'oovv (Times (Transpose (T 79) [1;0;3;2]) (-1) 1);
  (*1877*) AddTo n_rdm2'aaaa'oovv (Plain (Transpose (T 79) [0;1;3;2]));
  (*1878*) Del (T 79);
  (*1879*) Assign n_rdm2'bbbb'vooo (Plain (Einsum [(n_l1'bb,[0;1]); (n_delta'bb'oo,[2;3])] [0;2;1;3]));
  (*1880*) AddTo n_rdm2'bbbb'vooo (Times (Einsum [(n_l1'bb,[0;1]); (n_delta'bb'oo,[2;3])] [0;2;3;1]) (-1) 1);
  (*1881*) AddTo n_rdm2'bbbb'vooo (Times (Transpose (T 19) [3;2;1;0]) (2) 1);
  (*1882*) Assign n_rdm2'abab'vooo (Plain (Einsum [(n_l1'aa,[0;1]); (n_delta'bb'oo,[2;3])] [0;2;1;3]));
  (*1883*) AddTo n_rdm2'abab'vooo (Times (Transpose (T 15) [3;2;0;1]) (-1) 1);
  (*1884*) Del (T 15);
  (*1885*) Assign n_rdm2'aaaa'vooo (Plain (Einsum [(n_l1'aa,[0;1]); (n_delta'aa'oo,[2;3])] [0;2;1;3]));
  (*1886*) AddTo n_rdm2'aaaa'vooo (Times (Einsum [(n_delta'aa'oo,[0;1]); (n_l1'aa,[2;3])] [2;0;1;3]) (-1) 1);
  (*1887*) AddTo n_rdm2'aaaa'vooo (Times (Transpose (T 7) [3;2;1;0]) (2) 1);
  (*1888*) Assign n_rdm2'bbbb'ovoo (Times (Einsum [(n_l1'bb,[0;1]); (n_delta'bb'oo,[2;3])] [2;0;1;3]) (-1) 1);
  (*1889*) AddTo n_rdm2'bbbb'ovoo (Plain (Einsum [(n_l1'bb,[0;1]); (n_delta'bb'oo,[2;3])] [2;0;3;1]));
  (*1890*) AddTo n_rdm2'bbbb'ovoo (Times (Transpose (T 19) [2;3;1;0]) (-2) 1);
  (*1891*) Del (T 19);
  (*1892*) Assign n_rdm2'abab'ovoo (Plain (Einsum [(n_delta'aa'oo,[0;1]); (n_l1'bb,[2;3])] [0;2;1;3]));
  (*1893*) AddTo n_rdm2'abab'ovoo (Times (Transpose (T 27) [1;3;0;2]) (-1) 1);
  (*1894*) Del (T 27);
  (*1895*) Assign n_rdm2'aaaa'ovoo (Times (Einsum [(n_l1'aa,[0;1]); (n_delta'aa'oo,[2;3])] [2;0;1;3]) (-1) 1);
  (*1896*) AddTo n_rdm2'aaaa'ovoo (Plain (Einsum [(n_delta'aa'oo,[0;1]); (n_l1'aa,[2;3])] [0;2;1;3]));
  (*1897*) AddTo n_rdm2'aaaa'ovoo (Times (Transpose (T 7) [2;3;1;0]) (-2) 1);
  (*1898*) Del (T 7);
  (*1899*) Assign n_rdm2'bbbb'oovo (Plain (Einsum [(n_delta'bb'oo,[0;1]); (T 48,[2;3])] [2;0;3;1]));
  (*1900*) AddTo n_rdm2'bbbb'oovo (Times (Einsum [(T 37,[0;1]); (n_delta'bb'oo,[2;3])] [2;0;1;3]) (-1) 1);
  (*1901*) AddTo n_rdm2'bbbb'oovo (Times (Transpose (T 49) [2;1;3;0]) (2) 1);
  (*1902*) AddTo n_rdm2'bbbb'oovo (Times (Einsum [(n_delta'bb'oo,[0;1]); (T 42,[2;3])] [2;0;3;1]) (-1) 1);
  (*1903*) AddTo n_rdm2'bbbb'oovo (Plain (Einsum [(T 42,[0;1]); (n_delta'bb'oo,[2;3])] [2;0;1;3]));
  (*1904*) AddTo n_rdm2'bbbb'oovo (Times (Transpose (T 52) [1;2;3;0]) (4) 1);
  (*1905*) AddTo n_rdm2'bbbb'oovo (Plain (Transpose (T 53) [1;2;3;0]));
  (*1906*) AddTo n_rdm2'bbbb'oovo (Plain (Einsum [(T 17,[0;1]); (n_t1'bb,[2;3])] [1;2;3;0]));
  (*1907*) AddTo n_rdm2'bbbb'oovo (Times (Transpose (T 52) [2;1;3;0]) (-4) 1);
  (*1908*) AddTo n_rdm2'bbbb'oovo (Times (Transpose (T 53) [2;1;3;0]) (-1) 1);
  (*1909*) AddTo n_rdm2'bbbb'oovo (Times (Einsum [(n_t1'bb,[0;1]); (T 17,[2;3])] [0;3;1;2]) (-1) 1);
  (*1910*) AddTo n_rdm2'bbbb'oovo (Times (Transpose (T 56) [2;1;3;0]) (-1) 1);
  (*1911*) Assign n_rdm2'abab'oovo (Plain (Einsum [(n_delta'bb'oo,[0;1]); (T 23,[2;3])] [2;0;3;1]));
  (*1912*) AddTo n_rdm2'abab'oovo (Times (Transpose (T 59) [0;2;3;1]) (-1) 1);
  (*1913*) Del (T 59);
  (*1914*) AddTo n_rdm2'abab'oovo (Times (Einsum [(T 30,[0;1]); (n_delta'bb'oo,[2;3])] [0;2;1;3]) (-2) 1);
  (*1915*) AddTo n_rdm2'abab'oovo (Times (Transpose (T 60) [0;2;3;1]) (-2) 1);
  (*1916*) Del (T 60);
  (*1917*) AddTo n_rdm2'abab'oovo (Times (Transpose (T 61) [0;2;3;1]) (-2) 1);
  (*1918*) Del (T 61);
  (*1919*) AddTo n_rdm2'abab'oovo (Times (Einsum [(T 54,[0;1]); (n_t1'aa,[2;3])] [2;1;3;0]) (-2) 1);
  (*1920*) AddTo n_rdm2'abab'oovo (Plain (Einsum [(T 45,[0;1;2;3]); (n_t1'aa,[0;4])] [1;3;4;2]));
  (*1921*) Del (T 45);
  (*1922*) AddTo n_rdm2'abab'oovo (Plain (Transpose (T 62) [0;2;3;1]));
  (*1923*) Del (T 62);
  (*1924*) Assign n_rdm2'aaaa'oovo (Plain (Einsum [(n_delta'aa'oo,[0;1]); (T 23,[2;3])] [2;0;3;1]));
  (*1925*) AddTo n_rdm2'aaaa'oovo (Times (Einsum [(n_delta'aa'oo,[0;1]); (T 24,[2;3])] [0;2;3;1]) (-1) 1);
  (*1926*) AddTo n_rdm2'aaaa'oovo (Times (Transpose (T 25) [2;1;3;0]) (2) 1);
  (*1927*) AddTo n_rdm2'aaaa'oovo (Times (Einsum [(n_delta'aa'oo,[0;1]); (T 58,[2;3])] [2;0;3;1]) (-1) 1);
  (*1928*) AddTo n_rdm2'aaaa'oovo (Plain (Einsum [(T 58,[0;1]); (n_delta'aa'oo,[2;3])] [2;0;1;3]));
  (*1929*) Del (T 58);
  (*1930*) AddTo n_rdm2'aaaa'oovo (Times (Transpose (T 31) [1;2;3;0]) (4) 1);
  (*1931*) AddTo n_rdm2'aaaa'oovo (Plain (Transpose (T 32) [1;2;3;0]));
  (*1932*) AddTo n_rdm2'aaaa'oovo (Plain (Einsum [(T 5,[0;1]); (n_t1'aa,[2;3])] [1;2;3;0]));
  (*1933*) AddTo n_rdm2'aaaa'oovo (Times (Transpose (T 31) [2;1;3;0]) (-4) 1);
  (*1934*) AddTo n_rdm2'aaaa'oovo (Times (Transpose (T 32) [2;1;3;0]) (-1) 1);
  (*1935*) AddTo n_rdm2'aaaa'oovo (Times (Einsum [(n_t1'aa,[0;1]); (T 5,[2;3])] [0;3;1;2]) (-1) 1);
  (*1936*) AddTo n_rdm2'aaaa'oovo (Times (Transpose (T 34) [2;1;3;0]) (-1) 1);
  (*1937*) Assign n_rdm2'bbbb'ooov (Times (Einsum [(n_delta'bb'oo,[0;1]); (T 48,[2;3])] [2;0;1;3]) (-1) 1);
  (*1938*) Del (T 48);
  (*1939*) AddTo n_rdm2'bbbb'ooov (Plain (Einsum [(T 37,[0;1]); (n_delta'bb'oo,[2;3])] [2;0;3;1]));
  (*1940*) AddTo n_rdm2'bbbb'ooov (Times (Transpose (T 49) [2;1;0;3]) (-2) 1);
  (*1941*) Del (T 49);
  (*1942*) AddTo n_rdm2'bbbb'ooov (Times (Einsum [(n_delta'bb'oo,[0;1]); (T 51,[2;3])] [2;0;1;3]) (2) 1);
  (*1943*) AddTo n_rdm2'bbbb'ooov (Times (Einsum [(T 51,[0;1]); (n_delta'bb'oo,[2;3])] [2;0;3;1]) (-2) 1);
  (*1944*) Del (T 51);
  (*1945*) AddTo n_rdm2'bbbb'ooov (Times (Transpose (T 52) [1;2;0;3]) (-4) 1);
  (*1946*) AddTo n_rdm2'bbbb'ooov (Times (Transpose (T 53) [1;2;0;3]) (-1) 1);
  (*1947*) AddTo n_rdm2'bbbb'ooov (Times (Einsum [(T 54,[0;1]); (n_t1'bb,[2;3])] [1;2;0;3]) (-2) 1);
  (*1948*) AddTo n_rdm2'bbbb'ooov (Times (Transpose (T 52) [2;1;0;3]) (4) 1);
  (*1949*) Del (T 52);
  (*1950*) AddTo n_rdm2'bbbb'ooov (Plain (Transpose (T 53) [2;1;0;3]));
  (*1951*) Del (T 53);
  (*1952*) AddTo n_rdm2'bbbb'ooov (Times (Einsum [(n_t1'bb,[0;1]); (T 54,[2;3])] [0;3;2;1]) (2) 1);
  (*1953*) Del (T 54);
  (*1954*) AddTo n_rdm2'bbbb'ooov (Plain (Transpose (T 56) [2;1;0;3]));
  (*1955*) Del (T 56);
  (*1956*) Assign n_rdm2'abab'ooov (Plain (Einsum [(n_delta'aa'oo,[0;1]); (T 37,[2;3])] [0;2;1;3]));
  (*1957*) Del (T 37);
  (*1958*) AddTo n_rdm2'abab'ooov (Times (Transpose (T 38) [1;2;0;3]) (-1) 1);
  (*1959*) Del (T 38);
  (*1960*) AddTo n_rdm2'abab'ooov (Times (Einsum [(n_delta'aa'oo,[0;1]); (T 42,[2;3])] [0;2;1;3]) (-1) 1);
  (*1961*) Del (T 42);
  (*1962*) AddTo n_rdm2'abab'ooov (Times (Transpose (T 43) [1;2;0;3]) (-2) 1);
  (*1963*) Del (T 43);
  (*1964*) AddTo n_rdm2'abab'ooov (Times (Transpose (T 44) [1;2;0;3]) (-2) 1);
  (*1965*) Del (T 44);
  (*1966*) AddTo n_rdm2'abab'ooov (Times (Einsum [(T 13,[0;1]); (n_t1'bb,[2;3])] [1;2;0;3]) (-2) 1);
  (*1967*) AddTo n_rdm2'abab'ooov (Plain (Transpose (T 46) [1;2;0;3]));
  (*1968*) Del (T 46);
  (*1969*) AddTo n_rdm2'abab'ooov (Plain (Transpose (T 47) [1;2;0;3]));
  (*1970*) Del (T 47);
  (*1971*) Assign n_rdm2'aaaa'ooov (Times (Einsum [(n_delta'aa'oo,[0;1]); (T 23,[2;3])] [2;0;1;3]) (-1) 1);
  (*1972*) Del (T 23);
  (*1973*) AddTo n_rdm2'aaaa'ooov (Plain (Einsum [(n_delta'aa'oo,[0;1]); (T 24,[2;3])] [0;2;1;3]));
  (*1974*) Del (T 24);
  (*1975*) AddTo n_rdm2'aaaa'ooov (Times (Transpose (T 25) [2;1;0;3]) (-2) 1);
  (*1976*) Del (T 25);
  (*1977*) AddTo n_rdm2'aaaa'ooov (Times (Einsum [(T 30,[0;1]); (n_delta'aa'oo,[2;3])] [0;2;3;1]) (2) 1);
  (*1978*) AddTo n_rdm2'aaaa'ooov (Times (Einsum [(T 30,[0;1]); (n_delta'aa'oo,[2;3])] [2;0;3;1]) (-2) 1);
  (*1979*) Del (T 30);
  (*1980*) AddTo n_rdm2'aaaa'ooov (Times (Transpose (T 31) [1;2;0;3]) (-4) 1);
  (*1981*) AddTo n_rdm2'aaaa'ooov (Times (Transpose (T 32) [1;2;0;3]) (-1) 1);
  (*1982*) AddTo n_rdm2'aaaa'ooov (Times (Einsum [(T 13,[0;1]); (n_t1'aa,[2;3])] [1;2;0;3]) (-2) 1);
  (*1983*) AddTo n_rdm2'aaaa'ooov (Times (Transpose (T 31) [2;1;0;3]) (4) 1);
  (*1984*) Del (T 31);
  (*1985*) AddTo n_rdm2'aaaa'ooov (Plain (Transpose (T 32) [2;1;0;3]));
  (*1986*) Del (T 32);
  (*1987*) AddTo n_rdm2'aaaa'ooov (Times (Einsum [(n_t1'aa,[0;1]); (T 13,[2;3])] [0;3;2;1]) (2) 1);
  (*1988*) AddTo n_rdm2'aaaa'ooov (Plain (Transpose (T 34) [2;1;0;3]));
  (*1989*) Del (T 34);
  (*1990*) Assign n_rdm2'bbbb'oooo (Times (Einsum [(T 12,[0;1]); (n_delta'bb'oo,[2;3])] [2;1;3;0]) (-1) 1);
  (*1991*) AddTo n_rdm2'bbbb'oooo (Plain (Einsum [(n_delta'bb'oo,[0;1]); (T 12,[2;3])] [3;0;1;2]));
  (*1992*) AddTo n_rdm2'bbbb'oooo (Times (Einsum [(n_delta'bb'oo,[0;1]); (T 17,[2;3])] [3;0;2;1]) (-1) 1);
  (*1993*) AddTo n_rdm2'bbbb'oooo (Plain (Einsum [(n_delta'bb'oo,[0;1]); (T 17,[2;3])] [0;3;2;1]));
  (*1994*) Del (T 17);
  (*1995*) AddTo n_rdm2'bbbb'oooo (Times (Transpose (T 18) [3;2;1;0]) (2) 1);
  (*1996*) Del (T 18);
  (*1997*) AddTo n_rdm2'bbbb'oooo (Times (Transpose (T 20) [2;3;1;0]) (-2) 1);
  (*1998*) Del (T 20);
  (*1999*) Assign n_rdm2'abab'oooo (Times (Einsum [(n_delta'aa'oo,[0;1]); (T 12,[2;3])] [0;3;1;2]) (-1) 1);
  (*2000*) Del (T 12);
  (*2001*) AddTo n_rdm2'abab'oooo (Times (Einsum [(T 13,[0;1]); (n_delta'bb'oo,[2;3])] [1;2;0;3]) (-2) 1);
  (*2002*) Del (T 13);
  (*2003*) AddTo n_rdm2'abab'oooo (Plain (Transpose (T 14) [1;3;0;2]));
  (*2004*) Del (T 14);
  (*2005*) AddTo n_rdm2'abab'oooo (Plain (Transpose (T 16) [1;3;0;2]));
  (*2006*) Del (T 16);
  (*2007*) Assign n_rdm2'aaaa'oooo (Times (Einsum [(n_delta'aa'oo,[0;1]); (T 4,[2;3])] [0;3;1;2]) (-1) 1);
  (*2008*) AddTo n_rdm2'aaaa'oooo (Plain (Einsum [(T 4,[0;1]); (n_delta'aa'oo,[2;3])] [1;2;3;0]));
  (*2009*) Del (T 4);
  (*2010*) AddTo n_rdm2'aaaa'oooo (Times (Einsum [(n_delta'aa'oo,[0;1]); (T 5,[2;3])] [3;0;2;1]) (-1) 1);
  (*2011*) AddTo n_rdm2'aaaa'oooo (Plain (Einsum [(n_delta'aa'oo,[0;1]); (T 5,[2;3])] [0;3;2;1]));
  (*2012*) Del (T 5);
  (*2012*) Del n_delta'aa'oo;
  (*2012*) Del n_delta'aa'vv;
  (*2012*) Del n_delta'bb'oo;
  (*2012*) Del n_delta'bb'vv;
  (*2013*) AddTo n_rdm2'aaaa'oooo (Times (Transpose (T 6) [3;2;1;0]) (2) 1);
  (*2014*) Del (T 6);
  (*2015*) AddTo n_rdm2'aaaa'oooo (Times (Transpose (T 8) [2;3;1;0]) (-2) 1);
  (*2016*) Del (T 8)]
 [(n_rdm2'aaaa'oooo,[4;4;4;4]); (n_rdm2'aaaa'ooov,[4;4;4;5]); (n_rdm2'aaaa'oovo,[4;4;5;4]); (n_rdm2'aaaa'ovoo,[4;5;4;4]); (n_rdm2'aaaa'vooo,[5;4;4;4]); (n_rdm2'aaaa'oovv,[4;4;5;5]); (n_rdm2'aaaa'ovov,[4;5;4;5]); (n_rdm2'aaaa'ovvo,[4;5;5;4]); (n_rdm2'aaaa'voov,[5;4;4;5]); (n_rdm2'aaaa'vovo,[5;4;5;4]); (n_rdm2'aaaa'vvoo,[5;5;4;4]); (n_rdm2'aaaa'ovvv,[4;5;5;5]); (n_rdm2'aaaa'vovv,[5;4;5;5]); (n_rdm2'aaaa'vvov,[5;5;4;5]); (n_rdm2'aaaa'vvvo,[5;5;5;4]); (n_rdm2'aaaa'vvvv,[5;5;5;5]); (n_rdm2'abab'oooo,[4;6;4;6]); (n_rdm2'abab'ooov,[4;6;4;7]); (n_rdm2'abab'oovo,[4;6;5;6]); (n_rdm2'abab'ovoo,[4;7;4;6]); (n_rdm2'abab'vooo,[5;6;4;6]); (n_rdm2'abab'oovv,[4;6;5;7]); (n_rdm2'abab'ovov,[4;7;4;7]); (n_rdm2'abab'ovvo,[4;7;5;6]); (n_rdm2'abab'voov,[5;6;4;7]); (n_rdm2'abab'vovo,[5;6;5;6]); (n_rdm2'abab'vvoo,[5;7;4;6]); (n_rdm2'abab'ovvv,[4;7;5;7]); (n_rdm2'abab'vovv,[5;6;5;7]); (n_rdm2'abab'vvov,[5;7;4;7]); (n_rdm2'abab'vvvo,[5;7;5;6]); (n_rdm2'abab'vvvv,[5;7;5;7]); (n_rdm2'bbbb'oooo,[6;6;6;6]); (n_rdm2'bbbb'ooov,[6;6;6;7]); (n_rdm2'bbbb'oovo,[6;6;7;6]); (n_rdm2'bbbb'ovoo,[6;7;6;6]); (n_rdm2'bbbb'vooo,[7;6;6;6]); (n_rdm2'bbbb'oovv,[6;6;7;7]); (n_rdm2'bbbb'ovov,[6;7;6;7]); (n_rdm2'bbbb'ovvo,[6;7;7;6]); (n_rdm2'bbbb'voov,[7;6;6;7]); (n_rdm2'bbbb'vovo,[7;6;7;6]); (n_rdm2'bbbb'vvoo,[7;7;6;6]); (n_rdm2'bbbb'ovvv,[6;7;7;7]); (n_rdm2'bbbb'vovv,[7;6;7;7]); (n_rdm2'bbbb'vvov,[7;7;6;7]); (n_rdm2'bbbb'vvvo,[7;7;7;6]); (n_rdm2'bbbb'vvvv,[7;7;7;7])].

(** ebcc/codegen/UDFCC2.py:2028-2262 [hbar_matvec_ip_intermediates] *)
Definition UDFCC2_hbar_matvec_ip_intermediates : prog := mkprog
 [(n_v'baa'xov,[2;4;5]); (n_t1'aa,[4;5]); (n_t1'bb,[6;7]); (n_v'bbb'xov,[2;6;7]); (n_t2'abab,[4;6;5;7]); (n_t2'bbbb,[6;6;7;7]); (n_v'bbb'xoo,[2;6;6]); (n_v'bbb'xvv,[2;7;7]); (n_f'bb'ov,[6;7]); (n_v'baa'xoo,[2;4;4]); (n_t2'aaaa,[4;4;5;5]); (n_v'baa'xvv,[2;5;5]); (n_f'aa'ov,[4;5]); (n_f'bb'vv,[7;7]); (n_f'bb'oo,[6;6]); (n_f'aa'oo,[4;4]); (n_f'aa'vv,[5;5])]
 [(*2146*) Assign (T 9) (Plain (Einsum [(n_v'baa'xov,[0;1;2]); (n_t1'aa,[1;2])] [0]));
  (*2147*) Assign (T 11) (Plain (Einsum [(n_t1'bb,[0;1]); (n_v'bbb'xov,[2;0;1])] [2]));
  (*2148*) Assign (T 17) (Plain (Einsum [(n_t1'bb,[0;1]); (n_v'bbb'xov,[2;3;1])] [2;0;3]));
  (*2149*) Assign (T 7) (Plain (Einsum [(n_t1'aa,[0;1]); (n_v'baa'xov,[2;3;1])] [2;0;3]));
  (*2150*) Assign (T 55) (Plain (Einsum [(n_t2'abab,[0;1;2;3]); (n_v'baa'xov,[4;0;2])] [4;1;3]));
  (*2151*) Assign (T 52) (Plain (Einsum [(n_v'bbb'xov,[0;1;2]); (n_t2'bbbb,[3;1;4;2])] [0;3;4]));
  (*2152*) Assign (T 38) (Plain (Einsum [(n_v'bbb'xoo,[0;1;2]); (n_v'bbb'xov,[0;3;4])] [1;2;3;4]));
  (*2153*) Assign (T 98) (Plain (Einsum [(n_v'bbb'xov,[0;1;2]); (n_v'bbb'xov,[0;3;4])] [3;1;4;2]));
  (*2154*) Assign (T 197) (Plain (Einsum [(n_v'bbb'xov,[0;1;2]); (n_v'bbb'xvv,[0;3;4])] [1;3;4;2]));
  (*2155*) Assign (T 37) (Plain (Einsum [(n_t1'bb,[0;1]); (n_f'bb'ov,[2;1])] [2;0]));
  (*2156*) Assign (T 108) (Plain (Einsum [(n_v'baa'xov,[0;1;2]); (n_v'bbb'xov,[0;3;4])] [1;3;2;4]));
  (*2157*) Assign (T 40) (Plain (Einsum [(n_v'bbb'xoo,[0;1;2]); (n_v'baa'xov,[0;3;4])] [3;1;2;4]));
  (*2158*) Assign (T 72) (Plain (Einsum [(n_v'baa'xov,[0;1;2]); (n_v'baa'xov,[0;3;4])] [3;1;4;2]));
  (*2159*) Assign (T 3) (Plain (Einsum [(n_v'baa'xov,[0;1;2]); (n_v'baa'xoo,[0;3;4])] [3;4;1;2]));
  (*2160*) Assign (T 153) (Plain (Einsum [(n_v'baa'xov,[0;1;2]); (n_v'bbb'xvv,[0;3;4])] [1;2;3;4]));
  (*2161*) Assign (T 5) (Plain (Einsum [(n_v'bbb'xov,[0;1;2]); (n_v'baa'xoo,[0;3;4])] [3;4;1;2]));
  (*2162*) Assign (T 27) (Plain (Einsum [(n_v'baa'xov,[0;1;2]); (n_t2'aaaa,[3;1;4;2])] [0;3;4]));
  (*2163*) Assign (T 30) (Plain (Einsum [(n_t2'abab,[0;1;2;3]); (n_v'bbb'xov,[4;1;3])] [4;0;2]));
  (*2164*) Assign (T 121) (Plain (Einsum [(n_v'baa'xvv,[0;1;2]); (n_v'bbb'xov,[0;3;4])] [3;1;2;4]));
  (*2165*) Assign (T 2) (Plain (Einsum [(n_f'aa'ov,[0;1]); (n_t1'aa,[2;1])] [0;2]));
  (*2166*) Assign (T 69) (Plain (Einsum [(n_v'baa'xvv,[0;1;2]); (n_v'baa'xov,[0;3;4])] [3;1;2;4]));
  (*2167*) Assign (T 22) (Plain (Einsum [(n_v'bbb'xov,[0;1;2]); (T 9,[0])] [1;2]));
  (*2168*) Assign (T 19) (Plain (Einsum [(n_v'bbb'xov,[0;1;2]); (T 11,[0])] [1;2]));
  (*2169*) Assign (T 18) (Plain (Einsum [(T 17,[0;1;2]); (n_v'bbb'xov,[0;1;3])] [2;3]));
  (*2170*) Assign (T 20) (Plain (Einsum [(n_v'baa'xov,[0;1;2]); (T 11,[0])] [1;2]));
  (*2171*) Assign (T 15) (Plain (Einsum [(n_v'baa'xov,[0;1;2]); (T 9,[0])] [1;2]));
  (*2172*) Assign (T 13) (Plain (Einsum [(n_v'baa'xov,[0;1;2]); (T 7,[0;1;3])] [3;2]));
  (*2173*) Assign (T 221) (Plain (Einsum [(n_t2'bbbb,[0;1;2;3]); (n_f'bb'ov,[4;3])] [4;0;1;2]));
  (*2174*) Assign (T 211) (Plain (Einsum [(n_v'bbb'xoo,[0;1;2]); (T 55,[0;3;4])] [3;1;2;4]));
  (*2175*) Assign (T 209) (Plain (Einsum [(n_v'bbb'xoo,[0;1;2]); (T 52,[0;3;4])] [3;1;2;4]));
  (*2176*) Assign (T 207) (Plain (Einsum [(n_t2'bbbb,[0;1;2;3]); (T 38,[4;1;5;3])] [0;4;5;2]));
  (*2177*) Assign (T 205) (Plain (Einsum [(n_v'bbb'xoo,[0;1;2]); (n_v'bbb'xoo,[0;3;4])] [1;3;4;2]));
  (*2178*) Assign (T 200) (Plain (Einsum [(n_t2'bbbb,[0;1;2;3]); (T 98,[4;5;3;2])] [0;1;5;4]));
  (*2179*) Assign (T 198) (Times (Einsum [(n_t2'bbbb,[0;1;2;3]); (T 197,[4;5;2;3])] [0;1;4;5]) (-1) 1);
  (*2180*) Del (T 197);
  (*2181*) Assign (T 191) (Plain (Einsum [(n_v'bbb'xvv,[0;1;2]); (n_v'baa'xoo,[0;3;4])] [3;4;1;2]));
  (*2182*) Assign (T 190) (Plain (Einsum [(T 37,[0;1]); (n_t1'bb,[0;2])] [1;2]));
  (*2183*) Assign (T 187) (Plain (Einsum [(n_v'bbb'xoo,[0;1;2]); (n_v'bbb'xvv,[0;3;4])] [1;2;3;4]));
  (*2184*) Assign (T 186) (Plain (Einsum [(T 55,[0;1;2]); (n_v'bbb'xvv,[0;3;2])] [1;3]));
  (*2185*) Assign (T 185) (Times (Einsum [(T 52,[0;1;2]); (n_v'bbb'xvv,[0;3;2])] [1;3]) (-1) 1);
  (*2186*) Assign (T 184) (Plain (Einsum [(n_f'bb'vv,[0;1]); (n_t1'bb,[2;1])] [2;0]));
  (*2187*) Assign (T 181) (Plain (Einsum [(n_t2'abab,[0;1;2;3]); (T 108,[4;1;2;5])] [0;4;3;5]));
  (*2188*) Assign (T 179) (Plain (Einsum [(n_v'bbb'xov,[0;1;2]); (T 55,[0;1;3])] [3;2]));
  (*2189*) Assign (T 177) (Plain (Einsum [(n_v'bbb'xov,[0;1;2]); (T 52,[0;1;3])] [3;2]));
  (*2190*) Assign (T 176) (Plain (Einsum [(n_t2'abab,[0;1;2;3]); (T 40,[4;5;1;2])] [0;4;5;3]));
  (*2191*) Assign (T 175) (Plain (Einsum [(n_t2'abab,[0;1;2;3]); (T 40,[0;4;1;2])] [4;3]));
  (*2192*) Assign (T 174) (Plain (Einsum [(n_t2'bbbb,[0;1;2;3]); (T 38,[4;0;1;3])] [4;2]));
  (*2193*) Assign (T 173) (Plain (Einsum [(n_f'aa'ov,[0;1]); (n_t2'abab,[2;3;1;4])] [0;2;3;4]));
  (*2194*) Assign (T 171) (Plain (Einsum [(n_t1'bb,[0;1]); (n_f'bb'oo,[2;0])] [2;1]));
  (*2195*) Assign (T 167) (Plain (Einsum [(n_t2'bbbb,[0;1;2;3]); (T 98,[1;4;5;3])] [0;4;2;5]));
  (*2196*) Assign (T 164) (Plain (Einsum [(T 72,[0;1;2;3]); (n_t2'abab,[0;4;3;5])] [1;4;2;5]));
  (*2197*) Assign (T 162) (Plain (Einsum [(n_v'baa'xoo,[0;1;2]); (T 52,[0;3;4])] [1;2;3;4]));
  (*2198*) Assign (T 161) (Plain (Einsum [(n_v'baa'xoo,[0;1;2]); (T 55,[0;3;4])] [1;2;3;4]));
  (*2199*) Assign (T 160) (Plain (Einsum [(n_t2'abab,[0;1;2;3]); (T 3,[4;0;5;2])] [4;5;1;3]));
  (*2200*) Assign (T 158) (Plain (Einsum [(n_f'bb'ov,[0;1]); (n_t2'bbbb,[2;0;3;1])] [2;3]));
  (*2201*) Assign (T 157) (Plain (Einsum [(n_t2'abab,[0;1;2;3]); (n_f'aa'ov,[0;2])] [1;3]));
  (*2202*) Assign (T 154) (Plain (Einsum [(n_t2'abab,[0;1;2;3]); (T 153,[4;2;5;3])] [0;4;1;5]));
  (*2203*) Del (T 153);
  (*2204*) Assign (T 149) (Plain (Einsum [(n_v'bbb'xoo,[0;1;2]); (n_v'baa'xvv,[0;3;4])] [1;2;3;4]));
  (*2205*) Assign (T 142) (Plain (Einsum [(T 108,[0;1;2;3]); (n_t2'abab,[0;4;5;3])] [4;1;5;2]));
  (*2206*) Assign (T 139) (Plain (Einsum [(T 5,[0;1;2;3]); (n_t2'abab,[1;4;5;3])] [0;4;2;5]));
  (*2207*) Assign (T 138) (Plain (Einsum [(n_t2'abab,[0;1;2;3]); (n_f'bb'ov,[4;3])] [0;4;1;2]));
  (*2208*) Assign (T 130) (Plain (Einsum [(T 27,[0;1;2]); (n_v'bbb'xoo,[0;3;4])] [1;3;4;2]));
  (*2209*) Assign (T 129) (Plain (Einsum [(T 30,[0;1;2]); (n_v'bbb'xoo,[0;3;4])] [1;3;4;2]));
  (*2210*) Assign (T 128) (Plain (Einsum [(T 38,[0;1;2;3]); (n_t2'abab,[4;1;5;3])] [4;0;2;5]));
  (*2211*) Assign (T 126) (Plain (Einsum [(n_v'bbb'xoo,[0;1;2]); (n_v'baa'xoo,[0;3;4])] [3;4;1;2]));
  (*2212*) Assign (T 124) (Plain (Einsum [(n_t2'abab,[0;1;2;3]); (T 108,[4;5;2;3])] [0;4;1;5]));
  (*2213*) Assign (T 122) (Plain (Einsum [(n_t2'abab,[0;1;2;3]); (T 121,[4;5;2;3])] [0;1;4;5]));
  (*2214*) Del (T 121);
  (*2215*) Assign (T 114) (Plain (Einsum [(n_v'baa'xvv,[0;1;2]); (n_v'baa'xoo,[0;3;4])] [3;4;1;2]));
  (*2216*) Assign (T 112) (Plain (Einsum [(T 2,[0;1]); (n_t1'aa,[0;2])] [1;2]));
  (*2217*) Assign (T 104) (Plain (Einsum [(n_t2'aaaa,[0;1;2;3]); (n_f'aa'ov,[4;3])] [4;0;1;2]));
  (*2218*) Assign (T 99) (Plain (Einsum [(T 98,[0;1;2;3]); (n_t2'abab,[4;0;5;3])] [4;1;5;2]));
  (*2219*) Assign (T 95) (Plain (Einsum [(n_t2'aaaa,[0;1;2;3]); (T 72,[1;4;5;3])] [0;4;2;5]));
  (*2220*) Assign (T 93) (Plain (Einsum [(T 30,[0;1;2]); (n_v'baa'xov,[0;1;3])] [2;3]));
  (*2221*) Assign (T 91) (Plain (Einsum [(T 27,[0;1;2]); (n_v'baa'xov,[0;1;3])] [2;3]));
  (*2222*) Assign (T 89) (Plain (Einsum [(T 30,[0;1;2]); (n_v'baa'xoo,[0;3;4])] [1;3;4;2]));
  (*2223*) Assign (T 87) (Plain (Einsum [(T 27,[0;1;2]); (n_v'baa'xoo,[0;3;4])] [1;3;4;2]));
  (*2224*) Assign (T 85) (Plain (Einsum [(n_t2'aaaa,[0;1;2;3]); (T 3,[4;1;5;3])] [0;4;5;2]));
  (*2225*) Assign (T 84) (Plain (Einsum [(T 5,[0;1;2;3]); (n_t2'abab,[1;2;4;3])] [0;4]));
  (*2226*) Assign (T 83) (Plain (Einsum [(n_t2'aaaa,[0;1;2;3]); (T 3,[4;0;1;3])] [4;2]));
  (*2227*) Assign (T 81) (Plain (Einsum [(n_v'baa'xoo,[0;1;2]); (n_v'baa'xoo,[0;3;4])] [1;3;4;2]));
  (*2228*) Assign (T 80) (Plain (Einsum [(n_t2'abab,[0;1;2;3]); (n_f'bb'ov,[1;3])] [0;2]));
  (*2229*) Assign (T 79) (Plain (Einsum [(n_f'aa'ov,[0;1]); (n_t2'aaaa,[2;0;3;1])] [2;3]));
  (*2230*) Assign (T 76) (Plain (Einsum [(n_f'aa'oo,[0;1]); (n_t1'aa,[1;2])] [0;2]));
  (*2231*) Assign (T 73) (Plain (Einsum [(n_t2'aaaa,[0;1;2;3]); (T 72,[4;5;3;2])] [0;1;5;4]));
  (*2232*) Assign (T 70) (Times (Einsum [(T 69,[0;1;2;3]); (n_t2'aaaa,[4;5;2;3])] [4;5;0;1]) (-1) 1);
  (*2233*) Del (T 69);
  (*2234*) Assign (T 68) (Plain (Einsum [(T 30,[0;1;2]); (n_v'baa'xvv,[0;3;2])] [1;3]));
  (*2235*) Assign (T 67) (Times (Einsum [(T 27,[0;1;2]); (n_v'baa'xvv,[0;3;2])] [1;3]) (-1) 1);
  (*2236*) Assign (T 62) (Plain (Einsum [(n_f'aa'vv,[0;1]); (n_t1'aa,[2;1])] [2;0]));
  (*2237*) Assign (T 60) (Plain (Einsum [(n_t1'bb,[0;1]); (T 22,[2;1])] [0;2]));
  (*2238*) Assign (T 59) (Plain (Einsum [(T 19,[0;1]); (n_t1'bb,[2;1])] [2;0]));
  (*2239*) Assign (T 58) (Plain (Einsum [(n_t1'bb,[0;1]); (T 18,[2;1])] [0;2]));
  (*2240*) Assign (T 56) (Plain (Einsum [(n_v'bbb'xov,[0;1;2]); (T 55,[0;3;2])] [3;1]));
  (*2241*) Assign (T 53) (Plain (Einsum [(n_v'bbb'xov,[0;1;2]); (T 52,[0;3;2])] [3;1]));
  (*2242*) Assign (T 50) (Plain (Einsum [(n_v'baa'xov,[0;1;2]); (T 17,[0;3;4])] [1;3;4;2]));
  (*2243*) Assign (T 48) (Plain (Einsum [(n_v'bbb'xov,[0;1;2]); (T 17,[0;3;4])] [3;1;4;2]));
  (*2244*) Assign (T 44) (Plain (Einsum [(n_v'bbb'xoo,[0;1;2]); (T 9,[0])] [1;2]));
  (*2245*) Assign (T 43) (Plain (Einsum [(n_v'bbb'xoo,[0;1;2]); (T 11,[0])] [1;2]));
  (*2246*) Assign (T 42) (Plain (Einsum [(T 17,[0;1;2]); (n_v'bbb'xoo,[0;3;1])] [3;2]));
  (*2247*) Del (T 17);
  (*2248*) Assign (T 35) (Plain (Einsum [(n_t1'aa,[0;1]); (T 20,[2;1])] [0;2]));
  (*2249*) Assign (T 34) (Plain (Einsum [(T 15,[0;1]); (n_t1'aa,[2;1])] [2;0]));
  (*2250*) Assign (T 33) (Plain (Einsum [(n_t1'aa,[0;1]); (T 13,[2;1])] [0;2]));
  (*2251*) Assign (T 31) (Plain (Einsum [(T 30,[0;1;2]); (n_v'baa'xov,[0;3;2])] [1;3]));
  (*2252*) Assign (T 28) (Plain (Einsum [(T 27,[0;1;2]); (n_v'baa'xov,[0;3;2])] [1;3]));
  (*2253*) Assign (T 25) (Plain (Einsum [(T 7,[0;1;2]); (n_v'bbb'xov,[0;3;4])] [1;2;3;4]));
  (*2254*) Assign (T 23) (Plain (Einsum [(T 7,[0;1;2]); (n_v'baa'xov,[0;3;4])] [1;3;2;4]));
  (*2255*) Assign (T 12) (Plain (Einsum [(T 11,[0]); (n_v'baa'xoo,[0;1;2])] [1;2]));
  (*2256*) Del (T 11);
  (*2257*) Assign (T 10) (Plain (Einsum [(T 9,[0]); (n_v'baa'xoo,[0;1;2])] [1;2]));
  (*2258*) Del (T 9);
  (*2259*) Assign (T 8) (Plain (Einsum [(n_v'baa'xoo,[0;1;2]); (T 7,[0;2;3])] [1;3]));
  (*2260*) Del (T 7)]
 [(T 2,[4;4]); (T 104,[4;4;4;5]); (T 108,[4;6;5;7]); (T 12,[4;4]); (T 112,[4;5]); (T 114,[4;4;5;5]); (T 13,[4;5]); (T 122,[4;6;6;5]); (T 124,[4;4;6;6]); (T 126,[4;4;6;6]); (T 128,[4;6;6;5]); (T 129,[4;6;6;5]); (T 130,[4;6;6;5]); (T 138,[4;6;6;5]); (T 139,[4;6;6;5]); (T 15,[4;5]); (T 142,[6;6;5;5]); (T 149,[6;6;5;5]); (T 154,[4;4;6;7]); (T 157,[6;7]); (T 158,[6;7]); (T 160,[4;4;6;7]); (T 161,[4;4;6;7]); (T 162,[4;4;6;7]); (T 164,[4;6;5;7]); (T 167,[6;6;7;7]); (T 18,[6;7]); (T 171,[6;7]); (T 173,[4;4;6;7]); (T 174,[6;7]); (T 175,[6;7]); (T 176,[4;4;6;7]); (T 177,[7;7]); (T 179,[7;7]); (T 19,[6;7]); (T 181,[4;4;7;7]); (T 184,[6;7]); (T 185,[6;7]); (T 186,[6;7]); (T 187,[6;6;7;7]); (T 190,[6;7]); (T 20,[4;5]); (T 191,[4;4;7;7]); (T 198,[6;6;6;7]); (T 200,[6;6;6;6]); (T 3,[4;4;4;5]); (T 205,[6;6;6;6]); (T 207,[6;6;6;7]); (T 209,[6;6;6;7]); (T 22,[6;7]); (T 211,[6;6;6;7]); (T 23,[4;4;4;5]); (T 221,[6;6;6;7]); (T 25,[4;4;6;7]); (T 27,[2;4;5]); (T 28,[4;4]); (T 30,[2;4;5]); (T 31,[4;4]); (T 33,[4;4]); (T 34,[4;4]); (T 35,[4;4]); (T 37,[6;6]); (T 38,[6;6;6;7]); (T 40,[4;6;6;5]); (T 5,[4;4;6;7]); (T 42,[6;6]); (T 43,[6;6]); (T 44,[6;6]); (T 48,[6;6;6;7]); (T 50,[4;6;6;5]); (T 52,[2;6;7]); (T 53,[6;6]); (T 55,[2;6;7]); (T 56,[6;6]); (T 58,[6;6]); (T 59,[6;6]); (T 60,[6;6]); (T 62,[4;5]); (T 67,[4;5]); (T 68,[4;5]); (T 70,[4;4;4;5]); (T 8,[4;4]); (T 72,[4;4;5;5]); (T 73,[4;4;4;4]); (T 76,[4;5]); (T 79,[4;5]); (T 80,[4;5]); (T 81,[4;4;4;4]); (T 83,[4;5]); (T 84,[4;5]); (T 85,[4;4;4;5]); (T 87,[4;4;4;5]); (T 89,[4;4;4;5]); (T 10,[4;4]); (T 91,[5;5]); (T 93,[5;5]); (T 95,[4;4;5;5]); (T 98,[6;6;7;7]); (T 99,[4;6;5;7])].

(** ebcc/codegen/UDFCC2.py:2264-2713 [hbar_matvec_ip] *)
Definition UDFCC2_hbar_matvec_ip : prog := mkprog
 [(n_r2'aaa,[4;4;5]); (n_v'baa'xov,[2;4;5]); (n_v'bbb'xov,[2;6;7]); (n_r2'bab,[6;4;7]); (n_r2'aba,[4;6;5]); (IT 53,[6;6]); (IT 56,[6;6]); (IT 207,[6;6;6;7]); (IT 38,[6;6;6;7]); (n_r2'bbb,[6;6;7]); (IT 52,[2;6;7]); (IT 55,[2;6;7]); (IT 187,[6;6;7;7]); (IT 167,[6;6;7;7]); (IT 211,[6;6;6;7]); (IT 209,[6;6;6;7]); (n_f'bb'oo,[6;6]); (IT 37,[6;6]); (IT 89,[4;4;4;5]); (IT 87,[4;4;4;5]); (IT 114,[4;4;5;5]); (IT 95,[4;4;5;5]); (n_f'aa'oo,[4;4]); (IT 2,[4;4]); (IT 3,[4;4;4;5]); (IT 85,[4;4;4;5]); (IT 28,[4;4]); (IT 31,[4;4]); (IT 27,[2;4;5]); (IT 30,[2;4;5]); (IT 164,[4;6;5;7]); (n_r1'b,[6]); (IT 108,[4;6;5;7]); (IT 98,[6;6;7;7]); (n_t1'bb,[6;7]); (n_f'bb'ov,[6;7]); (IT 72,[4;4;5;5]); (n_f'aa'ov,[4;5]); (n_t1'aa,[4;5]); (n_r1'a,[4]); (IT 99,[4;6;5;7]); (IT 200,[6;6;6;6]); (IT 205,[6;6;6;6]); (IT 177,[7;7]); (IT 179,[7;7]); (n_f'bb'vv,[7;7]); (IT 171,[6;7]); (IT 174,[6;7]); (IT 175,[6;7]); (IT 185,[6;7]); (IT 190,[6;7]); (IT 157,[6;7]); (IT 158,[6;7]); (IT 184,[6;7]); (IT 186,[6;7]); (IT 198,[6;6;6;7]); (IT 221,[6;6;6;7]); (IT 154,[4;4;6;7]); (IT 161,[4;4;6;7]); (IT 162,[4;4;6;7]); (IT 173,[4;4;6;7]); (IT 5,[4;4;6;7]); (IT 160,[4;4;6;7]); (IT 176,[4;4;6;7]); (IT 124,[4;4;6;6]); (IT 126,[4;4;6;6]); (IT 181,[4;4;7;7]); (IT 191,[4;4;7;7]); (IT 112,[4;5]); (IT 67,[4;5]); (IT 76,[4;5]); (IT 83,[4;5]); (IT 84,[4;5]); (IT 62,[4;5]); (IT 68,[4;5]); (IT 79,[4;5]); (IT 80,[4;5]); (IT 91,[5;5]); (IT 93,[5;5]); (n_f'aa'vv,[5;5]); (IT 122,[4;6;6;5]); (IT 129,[4;6;6;5]); (IT 130,[4;6;6;5]); (IT 138,[4;6;6;5]); (IT 40,[4;6;6;5]); (IT 128,[4;6;6;5]); (IT 139,[4;6;6;5]); (IT 142,[6;6;5;5]); (IT 149,[6;6;5;5]); (IT 73,[4;4;4;4]); (IT 81,[4;4;4;4]); (IT 104,[4;4;4;5]); (IT 70,[4;4;4;5]); (IT 15,[4;5]); (IT 20,[4;5]); (IT 13,[4;5]); (IT 43,[6;6]); (IT 44,[6;6]); (IT 59,[6;6]); (IT 60,[6;6]); (IT 42,[6;6]); (IT 58,[6;6]); (IT 48,[6;6;6;7]); (IT 19,[6;7]); (IT 22,[6;7]); (IT 18,[6;7]); (IT 50,[4;6;6;5]); (IT 12,[4;4]); (IT 34,[4;4]); (IT 35,[4;4]); (IT 10,[4;4]); (IT 33,[4;4]); (IT 8,[4;4]); (IT 25,[4;4;6;7]); (IT 23,[4;4;4;5]); (n_t2'bbbb,[6;6;7;7]); (n_t2'abab,[4;6;5;7]); (n_t2'aaaa,[4;4;5;5])]
 [(*2294*) Assign (T 9) (Plain (Einsum [(n_r2'aaa,[0;1;2]); (n_v'baa'xov,[3;1;2])] [3;0]));
  (*2295*) Assign (T 10) (Times (Einsum [(n_v'bbb'xov,[0;1;2]); (n_r2'bab,[1;3;2])] [0;3]) (-1) 1);
  (*2296*) Assign (T 40) (Plain (Einsum [(n_v'baa'xov,[0;1;2]); (n_r2'aba,[1;3;2])] [0;3]));
  (*2297*) Assign (T 71) (Times (Copy (IT 53)) (2) 1);
  (*2298*) AddTo (T 71) (Plain (Copy (IT 56)));
  (*2299*) Assign (T 73) (Plain (Copy (IT 207)));
  (*2300*) Del (IT 207);
  (*2301*) AddTo (T 73) (Times (Transpose (IT 38) [0;2;1;3]) (1) 2);
  (*2302*) Assign (T 41) (Plain (Einsum [(n_v'bbb'xov,[0;1;2]); (n_r2'bbb,[3;1;2])] [0;3]));
  (*2303*) Assign (T 69) (Plain (Copy (IT 52)));
  (*2304*) AddTo (T 69) (Times (Copy (IT 55)) (1) 2);
  (*2305*) Assign (T 50) (Plain (Copy (IT 187)));
  (*2306*) Del (IT 187);
  (*2307*) AddTo (T 50) (Times (Copy (IT 167)) (2) 1);
  (*2308*) Del (IT 167);
  (*2309*) Assign (T 60) (Plain (Copy (IT 55)));
  (*2310*) AddTo (T 60) (Times (Copy (IT 52)) (2) 1);
  (*2311*) Assign (T 64) (Plain (Copy (IT 211)));
  (*2312*) Del (IT 211);
  (*2313*) AddTo (T 64) (Times (Copy (IT 209)) (2) 1);
  (*2314*) Del (IT 209);
  (*2315*) Assign (T 62) (Plain (Copy n_f'bb'oo));
  (*2316*) AddTo (T 62) (Plain (Copy (IT 37)));
  (*2317*) Assign (T 26) (Plain (Copy (IT 89)));
  (*2318*) Del (IT 89);
  (*2319*) AddTo (T 26) (Times (Copy (IT 87)) (2) 1);
  (*2320*) Del (IT 87);
  (*2321*) Assign (T 22) (Times (Copy (T 9)) (2) 1);
  (*2322*) AddTo (T 22) (Plain (Copy (T 10)));
  (*2323*) Assign (T 20) (Plain (Copy (IT 114)));
  (*2324*) AddTo (T 20) (Times (Copy (IT 95)) (2) 1);
  (*2325*) Assign (T 24) (Plain (Copy n_f'aa'oo));
  (*2326*) AddTo (T 24) (Plain (Copy (IT 2)));
  (*2327*) Assign (T 16) (Plain (Copy (IT 3)));
  (*2328*) AddTo (T 16) (Times (Transpose (IT 85) [0;2;1;3]) (2) 1);
  (*2329*) Del (IT 85);
  (*2330*) Assign (T 14) (Times (Copy (IT 28)) (2) 1);
  (*2331*) AddTo (T 14) (Plain (Copy (IT 31)));
  (*2332*) Assign (T 12) (Plain (Copy (IT 27)));
  (*2333*) AddTo (T 12) (Times (Copy (IT 30)) (1) 2);
  (*2334*) Assign (T 11) (Times (Copy (T 9)) (2) 1);
  (*2335*) Del (T 9);
  (*2336*) AddTo (T 11) (Plain (Copy (T 10)));
  (*2337*) Del (T 10);
  (*2338*) Assign (T 68) (Plain (Einsum [(T 40,[0;1]); (n_v'bbb'xov,[0;2;3])] [1;2;3]));
  (*2339*) Assign (T 72) (Times (Einsum [(n_r2'bbb,[0;1;2]); (T 71,[3;1])] [0;3;2]) (-2) 1);
  (*2340*) Del (T 71);
  (*2341*) Assign (T 67) (Plain (Einsum [(n_r2'aba,[0;1;2]); (IT 164,[0;3;2;4])] [3;1;4]));
  (*2342*) Assign (T 74) (Times (Einsum [(T 73,[0;1;2;3]); (n_r1'b,[2])] [0;1;3]) (2) 1);
  (*2343*) Del (T 73);
  (*2344*) Assign (T 70) (Times (Einsum [(T 69,[0;1;2]); (T 41,[0;3])] [3;1;2]) (4) 1);
  (*2345*) Del (T 69);
  (*2346*) Assign (T 44) (Plain (Einsum [(IT 108,[0;1;2;3]); (n_r2'aba,[0;1;2])] [3]));
  (*2347*) Assign (T 45) (Times (Einsum [(IT 98,[0;1;2;3]); (n_r2'bbb,[1;0;2])] [3]) (-1) 1);
  (*2348*) Del (IT 98);
  (*2349*) Assign (T 54) (Plain (Einsum [(n_t1'bb,[0;1]); (n_f'bb'ov,[0;2])] [2;1]));
  (*2350*) Assign (T 59) (Times (Einsum [(T 50,[0;1;2;3]); (n_r2'bbb,[4;1;3])] [4;0;2]) (-1) 1);
  (*2351*) Assign (T 61) (Plain (Einsum [(T 40,[0;1]); (T 60,[0;2;3])] [1;2;3]));
  (*2352*) Del (T 60);
  (*2353*) Assign (T 65) (Plain (Einsum [(n_r1'b,[0]); (T 64,[1;0;2;3])] [1;2;3]));
  (*2354*) Del (T 64);
  (*2355*) Assign (T 58) (Plain (Einsum [(T 41,[0;1]); (n_v'bbb'xov,[0;2;3])] [1;2;3]));
  (*2356*) Assign (T 63) (Times (Einsum [(T 62,[0;1]); (n_r2'bbb,[2;0;3])] [2;1;3]) (-1) 1);
  (*2357*) Del (T 62);
  (*2358*) Assign (T 32) (Times (Einsum [(IT 72,[0;1;2;3]); (n_r2'aaa,[1;0;2])] [3]) (-1) 1);
  (*2359*) Del (IT 72);
  (*2360*) Assign (T 33) (Times (Einsum [(IT 108,[0;1;2;3]); (n_r2'bab,[1;0;3])] [2]) (-1) 1);
  (*2361*) Del (IT 108);
  (*2362*) Assign (T 30) (Plain (Einsum [(n_f'aa'ov,[0;1]); (n_t1'aa,[0;2])] [1;2]));
  (*2363*) Assign (T 27) (Plain (Einsum [(T 26,[0;1;2;3]); (n_r1'a,[1])] [0;2;3]));
  (*2364*) Del (T 26);
  (*2365*) Assign (T 23) (Plain (Einsum [(n_v'baa'xov,[0;1;2]); (T 22,[0;3])] [1;3;2]));
  (*2366*) Del (T 22);
  (*2367*) Assign (T 19) (Times (Einsum [(IT 99,[0;1;2;3]); (n_r2'bab,[1;4;3])] [0;4;2]) (-1) 1);
  (*2368*) Assign (T 21) (Times (Einsum [(n_r2'aaa,[0;1;2]); (T 20,[3;1;4;2])] [0;3;4]) (-1) 1);
  (*2369*) Del (T 20);
  (*2370*) Assign (T 25) (Times (Einsum [(n_r2'aaa,[0;1;2]); (T 24,[1;3])] [0;3;2]) (-1) 1);
  (*2371*) Del (T 24);
  (*2372*) Assign (T 17) (Plain (Einsum [(n_r1'a,[0]); (T 16,[1;0;2;3])] [1;2;3]));
  (*2373*) Del (T 16);
  (*2374*) Assign (T 15) (Times (Einsum [(n_r2'aaa,[0;1;2]); (T 14,[3;1])] [0;3;2]) (-2) 1);
  (*2375*) Del (T 14);
  (*2376*) Assign (T 13) (Times (Einsum [(T 12,[0;1;2]); (T 11,[0;3])] [3;1;2]) (2) 1);
  (*2377*) Del (T 12);
  (*2378*) Assign (T 75) (Plain (Copy (T 67)));
  (*2379*) Del (T 67);
  (*2380*) AddTo (T 75) (Plain (Copy (T 68)));
  (*2381*) Del (T 68);
  (*2382*) AddTo (T 75) (Plain (Transpose (T 70) [1;0;2]));
  (*2383*) Del (T 70);
  (*2384*) AddTo (T 75) (Plain (Transpose (T 72) [1;0;2]));
  (*2385*) Del (T 72);
  (*2386*) AddTo (T 75) (Plain (Copy (T 74)));
  (*2387*) Del (T 74);
  (*2388*) Assign (T 76) (Plain (Copy (IT 200)));
  (*2389*) Del (IT 200);
  (*2390*) AddTo (T 76) (Times (Transpose (IT 205) [0;2;1;3]) (-1) 1);
  (*2391*) Del (IT 205);
  (*2392*) Assign (T 46) (Times (Copy (T 44)) (1) 2);
  (*2393*) Del (T 44);
  (*2394*) AddTo (T 46) (Plain (Copy (T 45)));
  (*2395*) Del (T 45);
  (*2396*) Assign (T 55) (Times (Transpose (IT 177) [1;0]) (2) 1);
  (*2397*) Del (IT 177);
  (*2398*) AddTo (T 55) (Plain (Transpose (IT 179) [1;0]));
  (*2399*) Del (IT 179);
  (*2400*) AddTo (T 55) (Times (Copy n_f'bb'vv) (-1) 1);
  (*2401*) AddTo (T 55) (Plain (Copy (T 54)));
  (*2402*) Del (T 54);
  (*2403*) Assign (T 66) (Times (Copy (T 58)) (2) 1);
  (*2404*) Del (T 58);
  (*2405*) AddTo (T 66) (Times (Transpose (T 59) [1;0;2]) (-2) 1);
  (*2406*) Del (T 59);
  (*2407*) AddTo (T 66) (Plain (Transpose (T 61) [1;0;2]));
  (*2408*) Del (T 61);
  (*2409*) AddTo (T 66) (Times (Transpose (T 63) [1;0;2]) (-2) 1);
  (*2410*) Del (T 63);
  (*2411*) AddTo (T 66) (Plain (Copy (T 65)));
  (*2412*) Del (T 65);
  (*2413*) Assign (T 57) (Plain (Copy (IT 171)));
  (*2414*) Del (IT 171);
  (*2415*) AddTo (T 57) (Times (Copy (IT 174)) (2) 1);
  (*2416*) Del (IT 174);
  (*2417*) AddTo (T 57) (Plain (Copy (IT 175)));
  (*2418*) Del (IT 175);
  (*2419*) AddTo (T 57) (Times (Copy (IT 185)) (2) 1);
  (*2420*) Del (IT 185);
  (*2421*) AddTo (T 57) (Plain (Copy (IT 190)));
  (*2422*) Del (IT 190);
  (*2423*) AddTo (T 57) (Times (Copy n_f'bb'ov) (-1) 1);
  (*2424*) AddTo (T 57) (Times (Copy (IT 157)) (-1) 1);
  (*2425*) Del (IT 157);
  (*2426*) AddTo (T 57) (Times (Copy (IT 158)) (-2) 1);
  (*2427*) Del (IT 158);
  (*2428*) AddTo (T 57) (Times (Copy (IT 184)) (-1) 1);
  (*2429*) Del (IT 184);
  (*2430*) AddTo (T 57) (Times (Copy (IT 186)) (-1) 1);
  (*2431*) Del (IT 186);
  (*2432*) Assign (T 77) (Plain (Copy (IT 198)));
  (*2433*) Del (IT 198);
  (*2434*) AddTo (T 77) (Times (Transpose (IT 221) [1;2;0;3]) (-1) 1);
  (*2435*) Del (IT 221);
  (*2436*) Assign (T 56) (Plain (Copy (IT 154)));
  (*2437*) Del (IT 154);
  (*2438*) AddTo (T 56) (Plain (Transpose (IT 161) [1;0;2;3]));
  (*2439*) Del (IT 161);
  (*2440*) AddTo (T 56) (Times (Transpose (IT 162) [1;0;2;3]) (2) 1);
  (*2441*) Del (IT 162);
  (*2442*) AddTo (T 56) (Plain (Transpose (IT 173) [1;0;2;3]));
  (*2443*) Del (IT 173);
  (*2444*) AddTo (T 56) (Plain (Copy (IT 5)));
  (*2445*) AddTo (T 56) (Times (Copy (IT 160)) (-1) 1);
  (*2446*) Del (IT 160);
  (*2447*) AddTo (T 56) (Times (Copy (IT 176)) (-1) 1);
  (*2448*) Del (IT 176);
  (*2449*) Assign (T 52) (Plain (Copy (IT 124)));
  (*2450*) AddTo (T 52) (Plain (Copy (IT 126)));
  (*2451*) Assign (T 34) (Plain (Copy (T 32)));
  (*2452*) Del (T 32);
  (*2453*) AddTo (T 34) (Times (Copy (T 33)) (-1) 2);
  (*2454*) Del (T 33);
  (*2455*) Assign (T 51) (Plain (Copy (IT 181)));
  (*2456*) Del (IT 181);
  (*2457*) AddTo (T 51) (Times (Copy (IT 191)) (-1) 1);
  (*2458*) Del (IT 191);
  (*2459*) Assign (T 53) (Times (Copy (IT 52)) (2) 1);
  (*2460*) Del (IT 52);
  (*2461*) AddTo (T 53) (Plain (Copy (IT 55)));
  (*2462*) Del (IT 55);
  (*2463*) AddTo (T 53) (Plain (Copy n_v'bbb'xov));
  (*2464*) Assign (T 48) (Plain (Copy n_f'bb'oo));
  (*2465*) AddTo (T 48) (Plain (Copy (IT 37)));
  (*2466*) AddTo (T 48) (Times (Transpose (IT 53) [1;0]) (2) 1);
  (*2467*) AddTo (T 48) (Plain (Transpose (IT 56) [1;0]));
  (*2468*) Assign (T 49) (Plain (Copy n_f'aa'oo));
  (*2469*) AddTo (T 49) (Plain (Copy (IT 2)));
  (*2470*) AddTo (T 49) (Times (Transpose (IT 28) [1;0]) (2) 1);
  (*2471*) AddTo (T 49) (Plain (Transpose (IT 31) [1;0]));
  (*2472*) Assign (T 39) (Plain (Copy (IT 124)));
  (*2473*) Del (IT 124);
  (*2474*) AddTo (T 39) (Plain (Copy (IT 126)));
  (*2475*) Del (IT 126);
  (*2476*) Assign (T 37) (Plain (Copy (IT 114)));
  (*2477*) Del (IT 114);
  (*2478*) AddTo (T 37) (Times (Copy (IT 95)) (2) 1);
  (*2479*) Del (IT 95);
  (*2480*) Assign (T 36) (Plain (Copy (IT 112)));
  (*2481*) Del (IT 112);
  (*2482*) AddTo (T 36) (Times (Copy (IT 67)) (2) 1);
  (*2483*) Del (IT 67);
  (*2484*) AddTo (T 36) (Plain (Copy (IT 76)));
  (*2485*) Del (IT 76);
  (*2486*) AddTo (T 36) (Times (Copy (IT 83)) (2) 1);
  (*2487*) Del (IT 83);
  (*2488*) AddTo (T 36) (Plain (Copy (IT 84)));
  (*2489*) Del (IT 84);
  (*2490*) AddTo (T 36) (Times (Copy n_f'aa'ov) (-1) 1);
  (*2491*) AddTo (T 36) (Times (Copy (IT 62)) (-1) 1);
  (*2492*) Del (IT 62);
  (*2493*) AddTo (T 36) (Times (Copy (IT 68)) (-1) 1);
  (*2494*) Del (IT 68);
  (*2495*) AddTo (T 36) (Times (Copy (IT 79)) (-2) 1);
  (*2496*) Del (IT 79);
  (*2497*) AddTo (T 36) (Times (Copy (IT 80)) (-1) 1);
  (*2498*) Del (IT 80);
  (*2499*) Assign (T 31) (Times (Transpose (IT 91) [1;0]) (2) 1);
  (*2500*) Del (IT 91);
  (*2501*) AddTo (T 31) (Plain (Transpose (IT 93) [1;0]));
  (*2502*) Del (IT 93);
  (*2503*) AddTo (T 31) (Times (Copy n_f'aa'vv) (-1) 1);
  (*2504*) AddTo (T 31) (Plain (Copy (T 30)));
  (*2505*) Del (T 30);
  (*2506*) Assign (T 43) (Times (Copy (IT 27)) (2) 1);
  (*2507*) Del (IT 27);
  (*2508*) AddTo (T 43) (Plain (Copy (IT 30)));
  (*2509*) Del (IT 30);
  (*2510*) AddTo (T 43) (Plain (Copy n_v'baa'xov));
  (*2511*) Assign (T 47) (Plain (Copy (IT 122)));
  (*2512*) Del (IT 122);
  (*2513*) AddTo (T 47) (Plain (Transpose (IT 129) [0;2;1;3]));
  (*2514*) Del (IT 129);
  (*2515*) AddTo (T 47) (Times (Transpose (IT 130) [0;2;1;3]) (2) 1);
  (*2516*) Del (IT 130);
  (*2517*) AddTo (T 47) (Plain (Transpose (IT 138) [0;2;1;3]));
  (*2518*) Del (IT 138);
  (*2519*) AddTo (T 47) (Plain (Copy (IT 40)));
  (*2520*) AddTo (T 47) (Times (Copy (IT 128)) (-1) 1);
  (*2521*) Del (IT 128);
  (*2522*) AddTo (T 47) (Times (Copy (IT 139)) (-1) 1);
  (*2523*) Del (IT 139);
  (*2524*) Assign (T 38) (Plain (Copy (IT 142)));
  (*2525*) Del (IT 142);
  (*2526*) AddTo (T 38) (Times (Copy (IT 149)) (-1) 1);
  (*2527*) Del (IT 149);
  (*2528*) Assign (T 42) (Times (Copy (T 40)) (-1) 2);
  (*2529*) Del (T 40);
  (*2530*) AddTo (T 42) (Plain (Copy (T 41)));
  (*2531*) Del (T 41);
  (*2532*) Assign (T 28) (Plain (Copy (T 19)));
  (*2533*) Del (T 19);
  (*2534*) AddTo (T 28) (Times (Transpose (T 21) [1;0;2]) (-2) 1);
  (*2535*) Del (T 21);
  (*2536*) AddTo (T 28) (Plain (Transpose (T 23) [1;0;2]));
  (*2537*) Del (T 23);
  (*2538*) AddTo (T 28) (Times (Transpose (T 25) [1;0;2]) (-2) 1);
  (*2539*) Del (T 25);
  (*2540*) AddTo (T 28) (Plain (Copy (T 27)));
  (*2541*) Del (T 27);
  (*2542*) Assign (T 18) (Plain (Transpose (T 13) [1;0;2]));
  (*2543*) Del (T 13);
  (*2544*) AddTo (T 18) (Plain (Transpose (T 15) [1;0;2]));
  (*2545*) Del (T 15);
  (*2546*) AddTo (T 18) (Plain (Copy (T 17)));
  (*2547*) Del (T 17);
  (*2548*) Assign (T 29) (Plain (Copy (IT 73)));
  (*2549*) Del (IT 73);
  (*2550*) AddTo (T 29) (Times (Transpose (IT 81) [0;2;1;3]) (-1) 1);
  (*2551*) Del (IT 81);
  (*2552*) Assign (T 35) (Plain (Copy (IT 104)));
  (*2553*) Del (IT 104);
  (*2554*) AddTo (T 35) (Times (Transpose (IT 70) [2;0;1;3]) (-1) 1);
  (*2555*) Del (IT 70);
  (*2556*) Assign (T 4) (Plain (Copy n_f'aa'ov));
  (*2557*) AddTo (T 4) (Plain (Copy (IT 15)));
  (*2558*) Del (IT 15);
  (*2559*) AddTo (T 4) (Plain (Copy (IT 20)));
  (*2560*) Del (IT 20);
  (*2561*) AddTo (T 4) (Times (Copy (IT 13)) (-1) 1);
  (*2562*) Del (IT 13);
  (*2563*) Assign (T 8) (Plain (Copy n_f'bb'oo));
  (*2564*) AddTo (T 8) (Plain (Copy (IT 37)));
  (*2565*) Del (IT 37);
  (*2566*) AddTo (T 8) (Plain (Transpose (IT 43) [1;0]));
  (*2567*) Del (IT 43);
  (*2568*) AddTo (T 8) (Plain (Transpose (IT 44) [1;0]));
  (*2569*) Del (IT 44);
  (*2570*) AddTo (T 8) (Times (Transpose (IT 53) [1;0]) (2) 1);
  (*2571*) Del (IT 53);
  (*2572*) AddTo (T 8) (Plain (Transpose (IT 56) [1;0]));
  (*2573*) Del (IT 56);
  (*2574*) AddTo (T 8) (Plain (Transpose (IT 59) [1;0]));
  (*2575*) Del (IT 59);
  (*2576*) AddTo (T 8) (Plain (Transpose (IT 60) [1;0]));
  (*2577*) Del (IT 60);
  (*2578*) AddTo (T 8) (Times (Transpose (IT 42) [1;0]) (-1) 1);
  (*2579*) Del (IT 42);
  (*2580*) AddTo (T 8) (Times (Transpose (IT 58) [1;0]) (-1) 1);
  (*2581*) Del (IT 58);
  (*2582*) Assign (T 6) (Plain (Copy (IT 38)));
  (*2583*) Del (IT 38);
  (*2584*) AddTo (T 6) (Times (Copy (IT 48)) (-1) 1);
  (*2585*) Del (IT 48);
  (*2586*) Assign (T 3) (Plain (Copy n_f'bb'ov));
  (*2587*) AddTo (T 3) (Plain (Copy (IT 19)));
  (*2588*) Del (IT 19);
  (*2589*) AddTo (T 3) (Plain (Copy (IT 22)));
  (*2590*) Del (IT 22);
  (*2591*) AddTo (T 3) (Times (Copy (IT 18)) (-1) 1);
  (*2592*) Del (IT 18);
  (*2593*) Assign (T 7) (Plain (Copy (IT 40)));
  (*2594*) Del (IT 40);
  (*2595*) AddTo (T 7) (Plain (Copy (IT 50)));
  (*2596*) Del (IT 50);
  (*2597*) Assign (T 5) (Plain (Copy n_f'aa'oo));
  (*2598*) AddTo (T 5) (Plain (Transpose (IT 12) [1;0]));
  (*2599*) Del (IT 12);
  (*2600*) AddTo (T 5) (Plain (Copy (IT 2)));
  (*2601*) Del (IT 2);
  (*2602*) AddTo (T 5) (Times (Transpose (IT 28) [1;0]) (2) 1);
  (*2603*) Del (IT 28);
  (*2604*) AddTo (T 5) (Plain (Transpose (IT 31) [1;0]));
  (*2605*) Del (IT 31);
  (*2606*) AddTo (T 5) (Plain (Transpose (IT 34) [1;0]));
  (*2607*) Del (IT 34);
  (*2608*) AddTo (T 5) (Plain (Transpose (IT 35) [1;0]));
  (*2609*) Del (IT 35);
  (*2610*) AddTo (T 5) (Plain (Transpose (IT 10) [1;0]));
  (*2611*) Del (IT 10);
  (*2612*) AddTo (T 5) (Times (Transpose (IT 33) [1;0]) (-1) 1);
  (*2613*) Del (IT 33);
  (*2614*) AddTo (T 5) (Times (Transpose (IT 8) [1;0]) (-1) 1);
  (*2615*) Del (IT 8);
  (*2616*) Assign (T 2) (Plain (Copy (IT 25)));
  (*2617*) Del (IT 25);
  (*2618*) AddTo (T 2) (Plain (Copy (IT 5)));
  (*2619*) Del (IT 5);
  (*2620*) Assign (T 1) (Plain (Copy (IT 23)));
  (*2621*) Del (IT 23);
  (*2622*) AddTo (T 1) (Times (Copy (IT 3)) (-1) 1);
  (*2623*) Del (IT 3);
  (*2624*) Assign n_r2new'bbb (Plain (Copy (T 66)));
  (*2625*) AddTo n_r2new'bbb (Times (Transpose (T 66) [1;0;2]) (-1) 1);
  (*2626*) Del (T 66);
  (*2627*) AddTo n_r2new'bbb (Times (Copy (T 75)) (-1) 1);
  (*2628*) AddTo n_r2new'bbb (Plain (Transpose (T 75) [1;0;2]));
  (*2629*) Del (T 75);
  (*2630*) AddTo n_r2new'bbb (Times (Einsum [(n_r2'bbb,[0;1;2]); (T 76,[3;4;1;0])] [3;4;2]) (-2) 1);
  (*2631*) Del (T 76);
  (*2632*) AddTo n_r2new'bbb (Times (Einsum [(n_r2'bbb,[0;1;2]); (T 55,[2;3])] [0;1;3]) (-2) 1);
  (*2633*) AddTo n_r2new'bbb (Times (Einsum [(T 46,[0]); (n_t2'bbbb,[1;2;3;0])] [1;2;3]) (-4) 1);
  (*2634*) AddTo n_r2new'bbb (Times (Einsum [(T 77,[0;1;2;3]); (n_r1'b,[2])] [1;0;3]) (2) 1);
  (*2635*) Del (T 77);
  (*2636*) AddTo n_r2new'bbb (Times (Einsum [(T 57,[0;1]); (n_r1'b,[2])] [2;0;1]) (-1) 1);
  (*2637*) AddTo n_r2new'bbb (Plain (Einsum [(T 57,[0;1]); (n_r1'b,[2])] [0;2;1]));
  (*2638*) Assign n_r2new'bab (Times (Einsum [(n_r2'aaa,[0;1;2]); (IT 164,[1;3;2;4])] [3;0;4]) (2) 1);
  (*2639*) Del (IT 164);
  (*2640*) AddTo n_r2new'bab (Times (Einsum [(n_r2'bab,[0;1;2]); (T 50,[3;0;4;2])] [3;1;4]) (-1) 1);
  (*2641*) Del (T 50);
  (*2642*) AddTo n_r2new'bab (Plain (Einsum [(T 51,[0;1;2;3]); (n_r2'bab,[4;1;3])] [4;0;2]));
  (*2643*) Del (T 51);
  (*2644*) AddTo n_r2new'bab (Plain (Einsum [(n_r2'bab,[0;1;2]); (T 52,[3;1;4;0])] [4;3;2]));
  (*2645*) Del (T 52);
  (*2646*) AddTo n_r2new'bab (Times (Einsum [(T 53,[0;1;2]); (T 11,[0;3])] [1;3;2]) (-1) 1);
  (*2647*) Del (T 11);
  (*2647*) Del (T 53);
  (*2648*) AddTo n_r2new'bab (Times (Einsum [(n_r2'bab,[0;1;2]); (T 55,[2;3])] [0;1;3]) (-1) 1);
  (*2649*) Del (T 55);
  (*2650*) AddTo n_r2new'bab (Times (Einsum [(n_t2'abab,[0;1;2;3]); (T 34,[2])] [1;0;3]) (-2) 1);
  (*2651*) AddTo n_r2new'bab (Plain (Einsum [(T 56,[0;1;2;3]); (n_r1'a,[1])] [2;0;3]));
  (*2652*) Del (T 56);
  (*2653*) AddTo n_r2new'bab (Times (Einsum [(n_r2'bab,[0;1;2]); (T 48,[0;3])] [3;1;2]) (-1) 1);
  (*2654*) AddTo n_r2new'bab (Times (Einsum [(T 49,[0;1]); (n_r2'bab,[2;0;3])] [2;1;3]) (-1) 1);
  (*2655*) AddTo n_r2new'bab (Plain (Einsum [(T 57,[0;1]); (n_r1'a,[2])] [0;2;1]));
  (*2656*) Del (T 57);
  (*2657*) Assign n_r2new'aba (Times (Einsum [(IT 99,[0;1;2;3]); (n_r2'bbb,[4;1;3])] [0;4;2]) (2) 1);
  (*2658*) Del (IT 99);
  (*2659*) AddTo n_r2new'aba (Times (Einsum [(T 37,[0;1;2;3]); (n_r2'aba,[1;4;3])] [0;4;2]) (-1) 1);
  (*2660*) Del (T 37);
  (*2661*) AddTo n_r2new'aba (Plain (Einsum [(n_r2'aba,[0;1;2]); (T 38,[3;1;4;2])] [0;3;4]));
  (*2662*) Del (T 38);
  (*2663*) AddTo n_r2new'aba (Plain (Einsum [(T 39,[0;1;2;3]); (n_r2'aba,[1;3;4])] [0;2;4]));
  (*2664*) Del (T 39);
  (*2665*) AddTo n_r2new'aba (Times (Einsum [(T 42,[0;1]); (T 43,[0;2;3])] [2;1;3]) (-2) 1);
  (*2666*) Del (T 42);
  (*2666*) Del (T 43);
  (*2667*) AddTo n_r2new'aba (Times (Einsum [(T 31,[0;1]); (n_r2'aba,[2;3;0])] [2;3;1]) (-1) 1);
  (*2668*) AddTo n_r2new'aba (Times (Einsum [(n_t2'abab,[0;1;2;3]); (T 46,[3])] [0;1;2]) (-2) 1);
  (*2669*) Del (T 46);
  (*2670*) AddTo n_r2new'aba (Plain (Einsum [(T 47,[0;1;2;3]); (n_r1'b,[2])] [0;1;3]));
  (*2671*) Del (T 47);
  (*2672*) AddTo n_r2new'aba (Times (Einsum [(n_r2'aba,[0;1;2]); (T 48,[1;3])] [0;3;2]) (-1) 1);
  (*2673*) Del (T 48);
  (*2674*) AddTo n_r2new'aba (Times (Einsum [(T 49,[0;1]); (n_r2'aba,[0;2;3])] [1;2;3]) (-1) 1);
  (*2675*) Del (T 49);
  (*2676*) AddTo n_r2new'aba (Plain (Einsum [(n_r1'b,[0]); (T 36,[1;2])] [1;0;2]));
  (*2677*) Assign n_r2new'aaa (Times (Copy (T 18)) (-1) 1);
  (*2678*) AddTo n_r2new'aaa (Plain (Transpose (T 18) [1;0;2]));
  (*2679*) Del (T 18);
  (*2680*) AddTo n_r2new'aaa (Plain (Copy (T 28)));
  (*2681*) AddTo n_r2new'aaa (Times (Transpose (T 28) [1;0;2]) (-1) 1);
  (*2682*) Del (T 28);
  (*2683*) AddTo n_r2new'aaa (Times (Einsum [(T 29,[0;1;2;3]); (n_r2'aaa,[2;3;4])] [0;1;4]) (2) 1);
  (*2684*) Del (T 29);
  (*2685*) AddTo n_r2new'aaa (Times (Einsum [(T 31,[0;1]); (n_r2'aaa,[2;3;0])] [2;3;1]) (-2) 1);
  (*2686*) Del (T 31);
  (*2687*) AddTo n_r2new'aaa (Times (Einsum [(n_t2'aaaa,[0;1;2;3]); (T 34,[3])] [0;1;2]) (-4) 1);
  (*2688*) Del (T 34);
  (*2689*) AddTo n_r2new'aaa (Times (Einsum [(T 35,[0;1;2;3]); (n_r1'a,[0])] [2;1;3]) (-2) 1);
  (*2690*) Del (T 35);
  (*2691*) AddTo n_r2new'aaa (Times (Einsum [(T 36,[0;1]); (n_r1'a,[2])] [2;0;1]) (-1) 1);
  (*2692*) AddTo n_r2new'aaa (Plain (Einsum [(T 36,[0;1]); (n_r1'a,[2])] [0;2;1]));
  (*2693*) Del (T 36);
  (*2694*) Assign n_r1new'b (Times (Einsum [(T 6,[0;1;2;3]); (n_r2'bbb,[1;2;3])] [0]) (-2) 1);
  (*2695*) Del (T 6);
  (*2696*) AddTo n_r1new'b (Plain (Einsum [(n_r2'aba,[0;1;2]); (T 7,[0;3;1;2])] [3]));
  (*2697*) Del (T 7);
  (*2698*) AddTo n_r1new'b (Times (Einsum [(T 4,[0;1]); (n_r2'aba,[0;2;1])] [2]) (-1) 1);
  (*2699*) AddTo n_r1new'b (Times (Einsum [(n_r2'bbb,[0;1;2]); (T 3,[1;2])] [0]) (2) 1);
  (*2700*) AddTo n_r1new'b (Times (Einsum [(T 8,[0;1]); (n_r1'b,[0])] [1]) (-1) 1);
  (*2701*) Del (T 8);
  (*2702*) Assign n_r1new'a (Times (Einsum [(T 1,[0;1;2;3]); (n_r2'aaa,[1;2;3])] [0]) (2) 1);
  (*2703*) Del (T 1);
  (*2704*) AddTo n_r1new'a (Plain (Einsum [(T 2,[0;1;2;3]); (n_r2'bab,[2;1;3])] [0]));
  (*2705*) Del (T 2);
  (*2706*) AddTo n_r1new'a (Times (Einsum [(T 3,[0;1]); (n_r2'bab,[0;2;1])] [2]) (-1) 1);
  (*2707*) Del (T 3);
  (*2708*) AddTo n_r1new'a (Times (Einsum [(T 4,[0;1]); (n_r2'aaa,[2;0;1])] [2]) (2) 1);
  (*2709*) Del (T 4);
  (*2710*) AddTo n_r1new'a (Times (Einsum [(n_r1'a,[0]); (T 5,[0;1])] [1]) (-1) 1);
  (*2711*) Del (T 5)]
 [(n_r1new'b,[6]); (n_r1new'a,[4]); (n_r2new'bbb,[6;6;7]); (n_r2new'bab,[6;4;7]); (n_r2new'aba,[4;6;5]); (n_r2new'aaa,[4;4;5])].

(** ebcc/codegen/UDFCC2.py:2715-2919 [hbar_matvec_ea_intermediates] *)
Definition UDFCC2_hbar_matvec_ea_intermediates : prog := mkprog
 [(n_v'bbb'xoo,[2;6;6]); (n_v'bbb'xov,[2;6;7]); (n_t2'abab,[4;6;5;7]); (n_v'baa'xov,[2;4;5]); (n_v'bbb'xvv,[2;7;7]); (n_t2'bbbb,[6;6;7;7]); (n_v'baa'xvv,[2;5;5]); (n_t1'bb,[6;7]); (n_f'bb'ov,[6;7]); (n_t2'aaaa,[4;4;5;5]); (n_v'baa'xoo,[2;4;4]); (n_f'aa'ov,[4;5]); (n_t1'aa,[4;5]); (n_f'bb'oo,[6;6]); (n_f'bb'vv,[7;7]); (n_f'aa'vv,[5;5]); (n_f'aa'oo,[4;4])]
 [(*2816*) Assign (T 176) (Plain (Einsum [(n_v'bbb'xoo,[0;1;2]); (n_v'bbb'xov,[0;3;4])] [1;2;3;4]));
  (*2817*) Assign (T 60) (Plain (Einsum [(n_t2'abab,[0;1;2;3]); (n_v'baa'xov,[4;0;2])] [4;1;3]));
  (*2818*) Assign (T 41) (Plain (Einsum [(n_v'bbb'xov,[0;1;2]); (n_v'bbb'xvv,[0;3;4])] [1;3;4;2]));
  (*2819*) Assign (T 57) (Plain (Einsum [(n_v'bbb'xov,[0;1;2]); (n_t2'bbbb,[3;1;4;2])] [0;3;4]));
  (*2820*) Assign (T 52) (Plain (Einsum [(n_v'bbb'xov,[0;1;2]); (n_v'bbb'xov,[0;3;4])] [3;1;4;2]));
  (*2821*) Assign (T 24) (Plain (Einsum [(n_v'baa'xov,[0;1;2]); (n_v'baa'xov,[0;3;4])] [3;1;4;2]));
  (*2822*) Assign (T 3) (Plain (Einsum [(n_v'baa'xvv,[0;1;2]); (n_v'baa'xov,[0;3;4])] [3;1;2;4]));
  (*2823*) Assign (T 157) (Plain (Einsum [(n_v'bbb'xoo,[0;1;2]); (n_v'baa'xov,[0;3;4])] [3;1;2;4]));
  (*2824*) Assign (T 165) (Plain (Einsum [(n_t1'bb,[0;1]); (n_f'bb'ov,[2;1])] [2;0]));
  (*2825*) Assign (T 27) (Plain (Einsum [(n_v'baa'xov,[0;1;2]); (n_v'bbb'xov,[0;3;4])] [1;3;2;4]));
  (*2826*) Assign (T 43) (Plain (Einsum [(n_v'baa'xov,[0;1;2]); (n_v'bbb'xvv,[0;3;4])] [1;2;3;4]));
  (*2827*) Assign (T 30) (Plain (Einsum [(n_v'baa'xov,[0;1;2]); (n_t2'aaaa,[3;1;4;2])] [0;3;4]));
  (*2828*) Assign (T 33) (Plain (Einsum [(n_t2'abab,[0;1;2;3]); (n_v'bbb'xov,[4;1;3])] [4;0;2]));
  (*2829*) Assign (T 98) (Plain (Einsum [(n_v'bbb'xov,[0;1;2]); (n_v'baa'xoo,[0;3;4])] [3;4;1;2]));
  (*2830*) Assign (T 5) (Plain (Einsum [(n_v'baa'xvv,[0;1;2]); (n_v'bbb'xov,[0;3;4])] [3;1;2;4]));
  (*2831*) Assign (T 108) (Plain (Einsum [(n_f'aa'ov,[0;1]); (n_t1'aa,[2;1])] [0;2]));
  (*2832*) Assign (T 96) (Plain (Einsum [(n_v'baa'xov,[0;1;2]); (n_v'baa'xoo,[0;3;4])] [3;4;1;2]));
  (*2833*) Assign (T 7) (Plain (Einsum [(n_v'baa'xov,[0;1;2]); (n_t1'aa,[1;2])] [0]));
  (*2834*) Assign (T 46) (Plain (Einsum [(n_t1'bb,[0;1]); (n_v'bbb'xvv,[2;3;1])] [2;0;3]));
  (*2835*) Assign (T 11) (Plain (Einsum [(n_t1'bb,[0;1]); (n_v'bbb'xov,[2;0;1])] [2]));
  (*2836*) Assign (T 18) (Plain (Einsum [(n_t1'bb,[0;1]); (n_v'bbb'xov,[2;3;1])] [2;0;3]));
  (*2837*) Assign (T 13) (Plain (Einsum [(n_t1'aa,[0;1]); (n_v'baa'xov,[2;3;1])] [2;0;3]));
  (*2838*) Assign (T 9) (Plain (Einsum [(n_v'baa'xvv,[0;1;2]); (n_t1'aa,[3;2])] [0;3;1]));
  (*2839*) Assign (T 225) (Plain (Einsum [(n_v'bbb'xvv,[0;1;2]); (n_v'bbb'xvv,[0;3;4])] [3;1;2;4]));
  (*2840*) Assign (T 217) (Plain (Einsum [(n_t2'bbbb,[0;1;2;3]); (T 176,[4;0;1;5])] [4;2;3;5]));
  (*2841*) Assign (T 204) (Plain (Einsum [(n_v'bbb'xvv,[0;1;2]); (T 60,[0;3;4])] [3;4;1;2]));
  (*2842*) Assign (T 202) (Plain (Einsum [(T 41,[0;1;2;3]); (n_t2'bbbb,[4;0;5;2])] [4;5;3;1]));
  (*2843*) Assign (T 200) (Plain (Einsum [(T 57,[0;1;2]); (n_v'bbb'xvv,[0;3;4])] [1;2;3;4]));
  (*2844*) Assign (T 191) (Plain (Einsum [(n_t2'bbbb,[0;1;2;3]); (T 52,[1;4;5;3])] [0;4;2;5]));
  (*2845*) Assign (T 188) (Plain (Einsum [(n_t2'abab,[0;1;2;3]); (T 24,[0;4;5;2])] [4;1;5;3]));
  (*2846*) Assign (T 184) (Plain (Einsum [(T 57,[0;1;2]); (n_v'baa'xvv,[0;3;4])] [1;3;4;2]));
  (*2847*) Assign (T 183) (Plain (Einsum [(n_t2'abab,[0;1;2;3]); (T 3,[0;4;2;5])] [1;5;4;3]));
  (*2848*) Assign (T 182) (Plain (Einsum [(n_v'baa'xvv,[0;1;2]); (T 60,[0;3;4])] [3;1;2;4]));
  (*2849*) Assign (T 181) (Plain (Einsum [(n_f'bb'ov,[0;1]); (n_t2'bbbb,[2;0;3;1])] [2;3]));
  (*2850*) Assign (T 180) (Plain (Einsum [(n_t2'abab,[0;1;2;3]); (n_f'aa'ov,[0;2])] [1;3]));
  (*2851*) Assign (T 178) (Plain (Einsum [(n_t2'abab,[0;1;2;3]); (T 157,[0;4;1;2])] [4;3]));
  (*2852*) Assign (T 177) (Plain (Einsum [(n_t2'bbbb,[0;1;2;3]); (T 176,[4;0;1;3])] [4;2]));
  (*2853*) Del (T 176);
  (*2854*) Assign (T 175) (Plain (Einsum [(n_v'bbb'xoo,[0;1;2]); (n_v'baa'xvv,[0;3;4])] [1;2;3;4]));
  (*2855*) Assign (T 174) (Plain (Einsum [(n_t1'bb,[0;1]); (n_f'bb'oo,[2;0])] [2;1]));
  (*2856*) Assign (T 173) (Plain (Einsum [(n_t1'bb,[0;1]); (T 165,[0;2])] [2;1]));
  (*2857*) Assign (T 171) (Plain (Einsum [(T 60,[0;1;2]); (n_v'bbb'xov,[0;3;2])] [1;3]));
  (*2858*) Assign (T 169) (Plain (Einsum [(T 57,[0;1;2]); (n_v'bbb'xov,[0;3;2])] [1;3]));
  (*2859*) Assign (T 168) (Plain (Einsum [(T 60,[0;1;2]); (n_v'bbb'xvv,[0;3;2])] [1;3]));
  (*2860*) Assign (T 167) (Times (Einsum [(T 57,[0;1;2]); (n_v'bbb'xvv,[0;3;2])] [1;3]) (-1) 1);
  (*2861*) Assign (T 164) (Plain (Einsum [(n_f'bb'vv,[0;1]); (n_t1'bb,[2;1])] [2;0]));
  (*2862*) Assign (T 158) (Plain (Einsum [(n_t2'abab,[0;1;2;3]); (T 157,[0;4;1;5])] [4;2;5;3]));
  (*2863*) Del (T 157);
  (*2864*) Assign (T 156) (Plain (Einsum [(n_v'bbb'xoo,[0;1;2]); (n_v'bbb'xvv,[0;3;4])] [1;2;3;4]));
  (*2865*) Assign (T 155) (Plain (Einsum [(n_t2'abab,[0;1;2;3]); (T 27,[0;4;5;3])] [1;4;2;5]));
  (*2866*) Assign (T 152) (Plain (Einsum [(n_t2'abab,[0;1;2;3]); (T 43,[0;4;5;3])] [1;2;4;5]));
  (*2867*) Assign (T 141) (Plain (Einsum [(n_v'bbb'xvv,[0;1;2]); (T 30,[0;3;4])] [3;4;1;2]));
  (*2868*) Assign (T 140) (Plain (Einsum [(T 41,[0;1;2;3]); (n_t2'abab,[4;0;5;2])] [4;5;3;1]));
  (*2869*) Assign (T 139) (Plain (Einsum [(n_v'bbb'xvv,[0;1;2]); (T 33,[0;3;4])] [3;4;1;2]));
  (*2870*) Assign (T 137) (Plain (Einsum [(n_v'bbb'xvv,[0;1;2]); (n_v'baa'xoo,[0;3;4])] [3;4;1;2]));
  (*2871*) Assign (T 133) (Plain (Einsum [(n_v'baa'xvv,[0;1;2]); (n_v'bbb'xvv,[0;3;4])] [1;2;3;4]));
  (*2872*) Assign (T 127) (Plain (Einsum [(T 98,[0;1;2;3]); (n_t2'abab,[1;2;4;5])] [0;4;5;3]));
  (*2873*) Assign (T 126) (Plain (Einsum [(n_t2'abab,[0;1;2;3]); (T 27,[4;1;2;5])] [0;4;3;5]));
  (*2874*) Assign (T 123) (Plain (Einsum [(T 5,[0;1;2;3]); (n_t2'abab,[4;0;2;5])] [4;1;5;3]));
  (*2875*) Assign (T 117) (Plain (Einsum [(T 33,[0;1;2]); (n_v'baa'xov,[0;3;2])] [1;3]));
  (*2876*) Assign (T 115) (Plain (Einsum [(T 30,[0;1;2]); (n_v'baa'xov,[0;3;2])] [1;3]));
  (*2877*) Assign (T 114) (Plain (Einsum [(n_v'baa'xvv,[0;1;2]); (T 33,[0;3;2])] [3;1]));
  (*2878*) Assign (T 113) (Times (Einsum [(T 30,[0;1;2]); (n_v'baa'xvv,[0;3;2])] [1;3]) (-1) 1);
  (*2879*) Assign (T 111) (Plain (Einsum [(n_v'baa'xvv,[0;1;2]); (n_v'baa'xvv,[0;3;4])] [1;3;4;2]));
  (*2880*) Assign (T 110) (Plain (Einsum [(T 108,[0;1]); (n_t1'aa,[0;2])] [1;2]));
  (*2881*) Assign (T 107) (Plain (Einsum [(n_f'aa'vv,[0;1]); (n_t1'aa,[2;1])] [2;0]));
  (*2882*) Assign (T 100) (Plain (Einsum [(n_t2'aaaa,[0;1;2;3]); (T 96,[4;0;1;5])] [4;2;3;5]));
  (*2883*) Assign (T 99) (Plain (Einsum [(T 98,[0;1;2;3]); (n_t2'abab,[1;2;4;3])] [0;4]));
  (*2884*) Del (T 98);
  (*2885*) Assign (T 97) (Plain (Einsum [(T 96,[0;1;2;3]); (n_t2'aaaa,[1;2;4;3])] [0;4]));
  (*2886*) Del (T 96);
  (*2887*) Assign (T 94) (Plain (Einsum [(n_v'baa'xvv,[0;1;2]); (n_v'baa'xoo,[0;3;4])] [3;4;1;2]));
  (*2888*) Assign (T 92) (Plain (Einsum [(n_f'aa'oo,[0;1]); (n_t1'aa,[1;2])] [0;2]));
  (*2889*) Assign (T 86) (Plain (Einsum [(n_t2'abab,[0;1;2;3]); (T 52,[1;4;5;3])] [0;4;2;5]));
  (*2890*) Assign (T 83) (Plain (Einsum [(T 24,[0;1;2;3]); (n_t2'aaaa,[4;0;5;3])] [4;1;5;2]));
  (*2891*) Assign (T 79) (Plain (Einsum [(T 33,[0;1;2]); (n_v'baa'xvv,[0;3;4])] [1;2;3;4]));
  (*2892*) Assign (T 77) (Plain (Einsum [(n_t2'aaaa,[0;1;2;3]); (T 3,[1;4;3;5])] [0;2;5;4]));
  (*2893*) Assign (T 75) (Plain (Einsum [(T 30,[0;1;2]); (n_v'baa'xvv,[0;3;4])] [1;2;3;4]));
  (*2894*) Assign (T 69) (Plain (Einsum [(n_t2'abab,[0;1;2;3]); (n_f'bb'ov,[1;3])] [0;2]));
  (*2895*) Assign (T 68) (Plain (Einsum [(n_f'aa'ov,[0;1]); (n_t2'aaaa,[2;0;3;1])] [2;3]));
  (*2896*) Assign (T 61) (Plain (Einsum [(n_v'bbb'xov,[0;1;2]); (T 60,[0;1;3])] [3;2]));
  (*2897*) Assign (T 58) (Plain (Einsum [(T 57,[0;1;2]); (n_v'bbb'xov,[0;1;3])] [2;3]));
  (*2898*) Assign (T 48) (Plain (Einsum [(T 7,[0]); (n_v'bbb'xvv,[0;1;2])] [1;2]));
  (*2899*) Assign (T 47) (Plain (Einsum [(n_v'bbb'xov,[0;1;2]); (T 46,[0;1;3])] [2;3]));
  (*2900*) Del (T 46);
  (*2901*) Assign (T 45) (Plain (Einsum [(T 11,[0]); (n_v'bbb'xvv,[0;1;2])] [1;2]));
  (*2902*) Assign (T 34) (Plain (Einsum [(n_v'baa'xov,[0;1;2]); (T 33,[0;1;3])] [3;2]));
  (*2903*) Assign (T 31) (Plain (Einsum [(T 30,[0;1;2]); (n_v'baa'xov,[0;1;3])] [2;3]));
  (*2904*) Assign (T 23) (Plain (Einsum [(T 7,[0]); (n_v'bbb'xov,[0;1;2])] [1;2]));
  (*2905*) Assign (T 21) (Plain (Einsum [(n_v'baa'xov,[0;1;2]); (T 11,[0])] [1;2]));
  (*2906*) Assign (T 20) (Plain (Einsum [(n_v'bbb'xov,[0;1;2]); (T 11,[0])] [1;2]));
  (*2907*) Assign (T 19) (Plain (Einsum [(T 18,[0;1;2]); (n_v'bbb'xov,[0;1;3])] [2;3]));
  (*2908*) Del (T 18);
  (*2909*) Assign (T 16) (Plain (Einsum [(T 7,[0]); (n_v'baa'xov,[0;1;2])] [1;2]));
  (*2910*) Assign (T 14) (Plain (Einsum [(n_v'baa'xov,[0;1;2]); (T 13,[0;1;3])] [3;2]));
  (*2911*) Del (T 13);
  (*2912*) Assign (T 12) (Plain (Einsum [(n_v'baa'xvv,[0;1;2]); (T 11,[0])] [1;2]));
  (*2913*) Del (T 11);
  (*2914*) Assign (T 10) (Plain (Einsum [(n_v'baa'xov,[0;1;2]); (T 9,[0;1;3])] [2;3]));
  (*2915*) Del (T 9);
  (*2916*) Assign (T 8) (Plain (Einsum [(T 7,[0]); (n_v'baa'xvv,[0;1;2])] [1;2]));
  (*2917*) Del (T 7)]
 [(T 107,[4;5]); (T 108,[4;4]); (T 110,[4;5]); (T 12,[5;5]); (T 111,[5;5;5;5]); (T 113,[4;5]); (T 114,[4;5]); (T 115,[4;4]); (T 117,[4;4]); (T 123,[4;5;7;7]); (T 126,[4;4;7;7]); (T 127,[4;5;7;7]); (T 14,[4;5]); (T 133,[5;5;7;7]); (T 137,[4;4;7;7]); (T 139,[4;5;7;7]); (T 140,[4;5;7;7]); (T 141,[4;5;7;7]); (T 16,[4;5]); (T 152,[6;5;5;7]); (T 155,[6;6;5;5]); (T 156,[6;6;7;7]); (T 158,[6;5;5;7]); (T 164,[6;7]); (T 165,[6;6]); (T 167,[6;7]); (T 168,[6;7]); (T 169,[6;6]); (T 171,[6;6]); (T 173,[6;7]); (T 174,[6;7]); (T 175,[6;6;5;5]); (T 177,[6;7]); (T 178,[6;7]); (T 180,[6;7]); (T 19,[6;7]); (T 181,[6;7]); (T 182,[6;5;5;7]); (T 183,[6;5;5;7]); (T 184,[6;5;5;7]); (T 188,[4;6;5;7]); (T 20,[6;7]); (T 191,[6;6;7;7]); (T 200,[6;7;7;7]); (T 3,[4;5;5;5]); (T 21,[4;5]); (T 202,[6;7;7;7]); (T 204,[6;7;7;7]); (T 217,[6;7;7;7]); (T 23,[6;7]); (T 225,[7;7;7;7]); (T 24,[4;4;5;5]); (T 27,[4;6;5;7]); (T 30,[2;4;5]); (T 31,[5;5]); (T 33,[2;4;5]); (T 34,[5;5]); (T 5,[6;5;5;7]); (T 41,[6;7;7;7]); (T 43,[4;5;7;7]); (T 45,[7;7]); (T 47,[7;7]); (T 48,[7;7]); (T 52,[6;6;7;7]); (T 57,[2;6;7]); (T 58,[7;7]); (T 60,[2;6;7]); (T 61,[7;7]); (T 68,[4;5]); (T 69,[4;5]); (T 8,[5;5]); (T 75,[4;5;5;5]); (T 77,[4;5;5;5]); (T 79,[4;5;5;5]); (T 83,[4;4;5;5]); (T 86,[4;6;5;7]); (T 10,[5;5]); (T 92,[4;5]); (T 94,[4;4;5;5]); (T 97,[4;5]); (T 99,[4;5]); (T 100,[4;5;5;5])].

(** ebcc/codegen/UDFCC2.py:2921-3347 [hbar_matvec_ea] *)
Definition UDFCC2_hbar_matvec_ea : prog := mkprog
 [(n_r2'aaa,[5;5;4]); (n_v'baa'xov,[2;4;5]); (n_r2'bab,[7;5;6]); (n_v'bbb'xov,[2;6;7]); (IT 156,[6;6;7;7]); (IT 191,[6;6;7;7]); (n_r2'bbb,[7;7;6]); (n_r2'aba,[5;7;4]); (IT 60,[2;6;7]); (IT 57,[2;6;7]); (IT 41,[6;7;7;7]); (IT 202,[6;7;7;7]); (IT 200,[6;7;7;7]); (IT 204,[6;7;7;7]); (n_f'bb'ov,[6;7]); (IT 58,[7;7]); (IT 61,[7;7]); (n_f'bb'vv,[7;7]); (IT 94,[4;4;5;5]); (IT 83,[4;4;5;5]); (IT 3,[4;5;5;5]); (IT 77,[4;5;5;5]); (IT 31,[5;5]); (IT 34,[5;5]); (n_f'aa'vv,[5;5]); (IT 30,[2;4;5]); (IT 33,[2;4;5]); (n_f'aa'ov,[4;5]); (IT 75,[4;5;5;5]); (IT 79,[4;5;5;5]); (n_r1'b,[7]); (IT 188,[4;6;5;7]); (n_t1'bb,[6;7]); (IT 52,[6;6;7;7]); (IT 27,[4;6;5;7]); (IT 24,[4;4;5;5]); (n_r1'a,[5]); (n_t1'aa,[4;5]); (IT 86,[4;6;5;7]); (IT 20,[6;7]); (IT 23,[6;7]); (IT 19,[6;7]); (IT 16,[4;5]); (IT 21,[4;5]); (IT 14,[4;5]); (n_f'bb'oo,[6;6]); (IT 165,[6;6]); (IT 169,[6;6]); (IT 171,[6;6]); (IT 167,[6;7]); (IT 173,[6;7]); (IT 174,[6;7]); (IT 177,[6;7]); (IT 178,[6;7]); (IT 164,[6;7]); (IT 168,[6;7]); (IT 180,[6;7]); (IT 181,[6;7]); (IT 155,[6;6;5;5]); (IT 175,[6;6;5;5]); (IT 158,[6;5;5;7]); (IT 182,[6;5;5;7]); (IT 184,[6;5;5;7]); (IT 5,[6;5;5;7]); (IT 152,[6;5;5;7]); (IT 183,[6;5;5;7]); (IT 127,[4;5;7;7]); (IT 139,[4;5;7;7]); (IT 141,[4;5;7;7]); (IT 43,[4;5;7;7]); (IT 123,[4;5;7;7]); (IT 140,[4;5;7;7]); (IT 110,[4;5]); (IT 113,[4;5]); (IT 92,[4;5]); (IT 97,[4;5]); (IT 99,[4;5]); (IT 107,[4;5]); (IT 114,[4;5]); (IT 68,[4;5]); (IT 69,[4;5]); (n_f'aa'oo,[4;4]); (IT 108,[4;4]); (IT 115,[4;4]); (IT 117,[4;4]); (IT 126,[4;4;7;7]); (IT 137,[4;4;7;7]); (IT 47,[7;7]); (IT 45,[7;7]); (IT 48,[7;7]); (IT 10,[5;5]); (IT 12,[5;5]); (IT 8,[5;5]); (IT 225,[7;7;7;7]); (IT 217,[6;7;7;7]); (n_t2'bbbb,[6;6;7;7]); (IT 133,[5;5;7;7]); (n_t2'abab,[4;6;5;7]); (IT 100,[4;5;5;5]); (n_t2'aaaa,[4;4;5;5]); (IT 111,[5;5;5;5])]
 [(*2951*) Assign (T 14) (Plain (Einsum [(n_r2'aaa,[0;1;2]); (n_v'baa'xov,[3;2;1])] [3;0]));
  (*2952*) Assign (T 15) (Times (Einsum [(n_r2'bab,[0;1;2]); (n_v'bbb'xov,[3;2;0])] [3;1]) (-1) 1);
  (*2953*) Assign (T 51) (Plain (Copy (IT 156)));
  (*2954*) Del (IT 156);
  (*2955*) AddTo (T 51) (Times (Copy (IT 191)) (2) 1);
  (*2956*) Del (IT 191);
  (*2957*) Assign (T 40) (Plain (Einsum [(n_v'bbb'xov,[0;1;2]); (n_r2'bbb,[3;2;1])] [0;3]));
  (*2958*) Assign (T 39) (Plain (Einsum [(n_v'baa'xov,[0;1;2]); (n_r2'aba,[2;3;1])] [0;3]));
  (*2959*) Assign (T 72) (Plain (Copy (IT 60)));
  (*2960*) AddTo (T 72) (Times (Copy (IT 57)) (2) 1);
  (*2961*) Assign (T 74) (Plain (Copy (IT 41)));
  (*2962*) AddTo (T 74) (Times (Copy (IT 202)) (2) 1);
  (*2963*) Del (IT 202);
  (*2964*) Assign (T 63) (Times (Copy (IT 57)) (2) 1);
  (*2965*) AddTo (T 63) (Plain (Copy (IT 60)));
  (*2966*) Assign (T 67) (Plain (Copy (IT 200)));
  (*2967*) Del (IT 200);
  (*2968*) AddTo (T 67) (Times (Copy (IT 204)) (1) 2);
  (*2969*) Del (IT 204);
  (*2970*) Assign (T 60) (Plain (Einsum [(n_f'bb'ov,[0;1]); (n_r2'bbb,[2;1;3])] [0;3;2]));
  (*2971*) Assign (T 65) (Plain (Transpose (IT 58) [1;0]));
  (*2972*) AddTo (T 65) (Times (Transpose (IT 61) [1;0]) (1) 2);
  (*2973*) AddTo (T 65) (Times (Copy n_f'bb'vv) (-1) 2);
  (*2974*) Assign (T 25) (Plain (Copy (IT 94)));
  (*2975*) AddTo (T 25) (Times (Copy (IT 83)) (2) 1);
  (*2976*) Assign (T 29) (Plain (Copy (IT 3)));
  (*2977*) AddTo (T 29) (Times (Copy (IT 77)) (2) 1);
  (*2978*) Del (IT 77);
  (*2979*) Assign (T 27) (Times (Copy (T 14)) (2) 1);
  (*2980*) AddTo (T 27) (Plain (Copy (T 15)));
  (*2981*) Assign (T 19) (Plain (Transpose (IT 31) [1;0]));
  (*2982*) AddTo (T 19) (Times (Transpose (IT 34) [1;0]) (1) 2);
  (*2983*) AddTo (T 19) (Times (Copy n_f'aa'vv) (-1) 2);
  (*2984*) Assign (T 17) (Times (Copy (IT 30)) (2) 1);
  (*2985*) AddTo (T 17) (Plain (Copy (IT 33)));
  (*2986*) Assign (T 16) (Plain (Copy (T 14)));
  (*2987*) AddTo (T 16) (Times (Copy (T 15)) (1) 2);
  (*2988*) Assign (T 12) (Plain (Einsum [(n_r2'aaa,[0;1;2]); (n_f'aa'ov,[3;1])] [3;2;0]));
  (*2989*) Assign (T 21) (Plain (Copy (IT 75)));
  (*2990*) Del (IT 75);
  (*2991*) AddTo (T 21) (Times (Copy (IT 79)) (1) 2);
  (*2992*) Del (IT 79);
  (*2993*) Assign (T 71) (Times (Einsum [(n_r2'bbb,[0;1;2]); (T 51,[3;2;4;1])] [3;0;4]) (-1) 1);
  (*2994*) Assign (T 70) (Plain (Einsum [(n_v'bbb'xov,[0;1;2]); (T 40,[0;3])] [1;3;2]));
  (*2995*) Assign (T 73) (Plain (Einsum [(T 39,[0;1]); (T 72,[0;2;3])] [2;1;3]));
  (*2996*) Del (T 72);
  (*2997*) Assign (T 75) (Plain (Einsum [(n_r1'b,[0]); (T 74,[1;2;0;3])] [1;2;3]));
  (*2998*) Del (T 74);
  (*2999*) Assign (T 64) (Times (Einsum [(T 63,[0;1;2]); (T 40,[0;3])] [1;3;2]) (2) 1);
  (*3000*) Del (T 63);
  (*3001*) Assign (T 59) (Plain (Einsum [(n_r2'aba,[0;1;2]); (IT 188,[2;3;0;4])] [3;4;1]));
  (*3002*) Assign (T 62) (Plain (Einsum [(n_v'bbb'xov,[0;1;2]); (T 39,[0;3])] [1;3;2]));
  (*3003*) Assign (T 68) (Times (Einsum [(n_r1'b,[0]); (T 67,[1;2;0;3])] [1;2;3]) (2) 1);
  (*3004*) Del (T 67);
  (*3005*) Assign (T 61) (Plain (Einsum [(n_t1'bb,[0;1]); (T 60,[0;2;3])] [2;3;1]));
  (*3006*) Del (T 60);
  (*3007*) Assign (T 66) (Times (Einsum [(n_r2'bbb,[0;1;2]); (T 65,[1;3])] [2;0;3]) (-4) 1);
  (*3008*) Del (T 65);
  (*3009*) Assign (T 9) (Plain (Einsum [(IT 52,[0;1;2;3]); (n_r2'bbb,[2;3;0])] [1]));
  (*3010*) Assign (T 8) (Plain (Einsum [(n_r2'aba,[0;1;2]); (IT 27,[2;3;0;1])] [3]));
  (*3011*) Assign (T 48) (Plain (Einsum [(n_r1'b,[0]); (n_f'bb'ov,[1;0])] [1]));
  (*3012*) Assign (T 4) (Times (Einsum [(n_r2'aaa,[0;1;2]); (IT 24,[2;3;1;0])] [3]) (-1) 1);
  (*3013*) Assign (T 5) (Times (Einsum [(n_r2'bab,[0;1;2]); (IT 27,[3;2;1;0])] [3]) (-1) 1);
  (*3014*) Assign (T 33) (Plain (Einsum [(n_f'aa'ov,[0;1]); (n_r1'a,[1])] [0]));
  (*3015*) Assign (T 46) (Plain (Einsum [(n_t1'bb,[0;1]); (n_f'bb'ov,[0;2])] [2;1]));
  (*3016*) Assign (T 44) (Plain (Einsum [(n_f'aa'ov,[0;1]); (n_t1'aa,[0;2])] [1;2]));
  (*3017*) Assign (T 26) (Times (Einsum [(T 25,[0;1;2;3]); (n_r2'aaa,[4;3;1])] [0;4;2]) (-1) 1);
  (*3018*) Del (T 25);
  (*3019*) Assign (T 24) (Times (Einsum [(n_r2'bab,[0;1;2]); (IT 86,[3;2;4;0])] [3;4;1]) (-1) 1);
  (*3020*) Assign (T 30) (Plain (Einsum [(n_r1'a,[0]); (T 29,[1;2;0;3])] [1;2;3]));
  (*3021*) Del (T 29);
  (*3022*) Assign (T 28) (Plain (Einsum [(T 27,[0;1]); (n_v'baa'xov,[0;2;3])] [2;3;1]));
  (*3023*) Del (T 27);
  (*3024*) Assign (T 20) (Times (Einsum [(n_r2'aaa,[0;1;2]); (T 19,[1;3])] [2;0;3]) (-4) 1);
  (*3025*) Del (T 19);
  (*3026*) Assign (T 18) (Times (Einsum [(T 17,[0;1;2]); (T 16,[0;3])] [1;2;3]) (2) 1);
  (*3027*) Del (T 17);
  (*3027*) Del (T 16);
  (*3028*) Assign (T 13) (Plain (Einsum [(n_t1'aa,[0;1]); (T 12,[0;2;3])] [2;3;1]));
  (*3029*) Del (T 12);
  (*3030*) Assign (T 22) (Times (Einsum [(n_r1'a,[0]); (T 21,[1;2;0;3])] [1;2;3]) (2) 1);
  (*3031*) Del (T 21);
  (*3032*) Assign (T 1) (Plain (Copy n_f'bb'ov));
  (*3033*) AddTo (T 1) (Plain (Copy (IT 20)));
  (*3034*) Del (IT 20);
  (*3035*) AddTo (T 1) (Plain (Copy (IT 23)));
  (*3036*) Del (IT 23);
  (*3037*) AddTo (T 1) (Times (Copy (IT 19)) (-1) 1);
  (*3038*) Del (IT 19);
  (*3039*) Assign (T 2) (Plain (Copy n_f'aa'ov));
  (*3040*) AddTo (T 2) (Plain (Copy (IT 16)));
  (*3041*) Del (IT 16);
  (*3042*) AddTo (T 2) (Plain (Copy (IT 21)));
  (*3043*) Del (IT 21);
  (*3044*) AddTo (T 2) (Times (Copy (IT 14)) (-1) 1);
  (*3045*) Del (IT 14);
  (*3046*) Assign (T 56) (Plain (Copy n_f'bb'oo));
  (*3047*) AddTo (T 56) (Plain (Copy (IT 165)));
  (*3048*) Del (IT 165);
  (*3049*) AddTo (T 56) (Times (Transpose (IT 169) [1;0]) (2) 1);
  (*3050*) Del (IT 169);
  (*3051*) AddTo (T 56) (Plain (Transpose (IT 171) [1;0]));
  (*3052*) Del (IT 171);
  (*3053*) Assign (T 76) (Times (Copy (T 70)) (2) 1);
  (*3054*) Del (T 70);
  (*3055*) AddTo (T 76) (Times (Transpose (T 71) [0;2;1]) (-2) 1);
  (*3056*) Del (T 71);
  (*3057*) AddTo (T 76) (Plain (Transpose (T 73) [0;2;1]));
  (*3058*) Del (T 73);
  (*3059*) AddTo (T 76) (Plain (Copy (T 75)));
  (*3060*) Del (T 75);
  (*3061*) Assign (T 69) (Plain (Copy (T 59)));
  (*3062*) Del (T 59);
  (*3063*) AddTo (T 69) (Times (Copy (T 61)) (2) 1);
  (*3064*) Del (T 61);
  (*3065*) AddTo (T 69) (Plain (Copy (T 62)));
  (*3066*) Del (T 62);
  (*3067*) AddTo (T 69) (Plain (Transpose (T 64) [0;2;1]));
  (*3068*) Del (T 64);
  (*3069*) AddTo (T 69) (Plain (Transpose (T 66) [0;2;1]));
  (*3070*) Del (T 66);
  (*3071*) AddTo (T 69) (Plain (Copy (T 68)));
  (*3072*) Del (T 68);
  (*3073*) Assign (T 58) (Times (Einsum [(IT 52,[0;1;2;3]); (n_r2'bbb,[3;2;4])] [0;1;4]) (-1) 1);
  (*3074*) Del (IT 52);
  (*3075*) Assign (T 57) (Times (Copy (IT 167)) (2) 1);
  (*3076*) Del (IT 167);
  (*3077*) AddTo (T 57) (Plain (Copy (IT 173)));
  (*3078*) Del (IT 173);
  (*3079*) AddTo (T 57) (Plain (Copy (IT 174)));
  (*3080*) Del (IT 174);
  (*3081*) AddTo (T 57) (Times (Copy (IT 177)) (2) 1);
  (*3082*) Del (IT 177);
  (*3083*) AddTo (T 57) (Plain (Copy (IT 178)));
  (*3084*) Del (IT 178);
  (*3085*) AddTo (T 57) (Times (Copy n_f'bb'ov) (-1) 1);
  (*3086*) AddTo (T 57) (Times (Copy (IT 164)) (-1) 1);
  (*3087*) Del (IT 164);
  (*3088*) AddTo (T 57) (Times (Copy (IT 168)) (-1) 1);
  (*3089*) Del (IT 168);
  (*3090*) AddTo (T 57) (Times (Copy (IT 180)) (-1) 1);
  (*3091*) Del (IT 180);
  (*3092*) AddTo (T 57) (Times (Copy (IT 181)) (-2) 1);
  (*3093*) Del (IT 181);
  (*3094*) Assign (T 77) (Times (Copy (T 48)) (-1) 1);
  (*3095*) AddTo (T 77) (Plain (Copy (T 8)));
  (*3096*) AddTo (T 77) (Times (Copy (T 9)) (2) 1);
  (*3097*) Assign (T 52) (Plain (Copy (IT 155)));
  (*3098*) Del (IT 155);
  (*3099*) AddTo (T 52) (Times (Copy (IT 175)) (-1) 1);
  (*3100*) Del (IT 175);
  (*3101*) Assign (T 50) (Times (Einsum [(IT 27,[0;1;2;3]); (n_r2'bab,[3;2;4])] [0;1;4]) (-1) 1);
  (*3102*) Assign (T 34) (Times (Copy (T 33)) (1) 2);
  (*3103*) Del (T 33);
  (*3104*) AddTo (T 34) (Times (Copy (T 4)) (-1) 1);
  (*3105*) AddTo (T 34) (Times (Copy (T 5)) (1) 2);
  (*3106*) Assign (T 55) (Plain (Copy (IT 158)));
  (*3107*) Del (IT 158);
  (*3108*) AddTo (T 55) (Plain (Transpose (IT 182) [0;2;1;3]));
  (*3109*) Del (IT 182);
  (*3110*) AddTo (T 55) (Times (Transpose (IT 184) [0;2;1;3]) (2) 1);
  (*3111*) Del (IT 184);
  (*3112*) AddTo (T 55) (Plain (Copy (IT 5)));
  (*3113*) AddTo (T 55) (Times (Copy (IT 152)) (-1) 1);
  (*3114*) Del (IT 152);
  (*3115*) AddTo (T 55) (Times (Transpose (IT 183) [0;2;1;3]) (-1) 1);
  (*3116*) Del (IT 183);
  (*3117*) Assign (T 54) (Times (Copy (IT 57)) (2) 1);
  (*3118*) Del (IT 57);
  (*3119*) AddTo (T 54) (Plain (Copy (IT 60)));
  (*3120*) Del (IT 60);
  (*3121*) AddTo (T 54) (Plain (Copy n_v'bbb'xov));
  (*3122*) Assign (T 47) (Times (Transpose (IT 58) [1;0]) (2) 1);
  (*3123*) AddTo (T 47) (Plain (Transpose (IT 61) [1;0]));
  (*3124*) AddTo (T 47) (Times (Copy n_f'bb'vv) (-1) 1);
  (*3125*) AddTo (T 47) (Plain (Copy (T 46)));
  (*3126*) Del (T 46);
  (*3127*) Assign (T 53) (Times (Copy (T 14)) (2) 1);
  (*3128*) Del (T 14);
  (*3129*) AddTo (T 53) (Plain (Copy (T 15)));
  (*3130*) Del (T 15);
  (*3131*) Assign (T 45) (Times (Transpose (IT 31) [1;0]) (2) 1);
  (*3132*) AddTo (T 45) (Plain (Transpose (IT 34) [1;0]));
  (*3133*) AddTo (T 45) (Times (Copy n_f'aa'vv) (-1) 1);
  (*3134*) AddTo (T 45) (Plain (Copy (T 44)));
  (*3135*) Del (T 44);
  (*3136*) Assign (T 37) (Times (Copy (IT 83)) (2) 1);
  (*3137*) Del (IT 83);
  (*3138*) AddTo (T 37) (Plain (Copy (IT 94)));
  (*3139*) Del (IT 94);
  (*3140*) Assign (T 36) (Plain (Einsum [(n_r2'aba,[0;1;2]); (IT 27,[3;4;0;1])] [3;2;4]));
  (*3141*) Del (IT 27);
  (*3142*) Assign (T 43) (Plain (Copy (IT 127)));
  (*3143*) Del (IT 127);
  (*3144*) AddTo (T 43) (Plain (Transpose (IT 139) [0;1;3;2]));
  (*3145*) Del (IT 139);
  (*3146*) AddTo (T 43) (Times (Transpose (IT 141) [0;1;3;2]) (2) 1);
  (*3147*) Del (IT 141);
  (*3148*) AddTo (T 43) (Plain (Copy (IT 43)));
  (*3149*) AddTo (T 43) (Times (Copy (IT 123)) (-1) 1);
  (*3150*) Del (IT 123);
  (*3151*) AddTo (T 43) (Times (Transpose (IT 140) [0;1;3;2]) (-1) 1);
  (*3152*) Del (IT 140);
  (*3153*) Assign (T 41) (Times (Copy (T 39)) (-1) 1);
  (*3154*) Del (T 39);
  (*3155*) AddTo (T 41) (Times (Copy (T 40)) (2) 1);
  (*3156*) Del (T 40);
  (*3157*) Assign (T 35) (Plain (Copy (IT 110)));
  (*3158*) Del (IT 110);
  (*3159*) AddTo (T 35) (Times (Copy (IT 113)) (2) 1);
  (*3160*) Del (IT 113);
  (*3161*) AddTo (T 35) (Plain (Copy (IT 92)));
  (*3162*) Del (IT 92);
  (*3163*) AddTo (T 35) (Times (Copy (IT 97)) (2) 1);
  (*3164*) Del (IT 97);
  (*3165*) AddTo (T 35) (Plain (Copy (IT 99)));
  (*3166*) Del (IT 99);
  (*3167*) AddTo (T 35) (Times (Copy n_f'aa'ov) (-1) 1);
  (*3168*) AddTo (T 35) (Times (Copy (IT 107)) (-1) 1);
  (*3169*) Del (IT 107);
  (*3170*) AddTo (T 35) (Times (Copy (IT 114)) (-1) 1);
  (*3171*) Del (IT 114);
  (*3172*) AddTo (T 35) (Times (Copy (IT 68)) (-2) 1);
  (*3173*) Del (IT 68);
  (*3174*) AddTo (T 35) (Times (Copy (IT 69)) (-1) 1);
  (*3175*) Del (IT 69);
  (*3176*) Assign (T 32) (Plain (Copy n_f'aa'oo));
  (*3177*) AddTo (T 32) (Plain (Copy (IT 108)));
  (*3178*) Del (IT 108);
  (*3179*) AddTo (T 32) (Times (Transpose (IT 115) [1;0]) (2) 1);
  (*3180*) Del (IT 115);
  (*3181*) AddTo (T 32) (Plain (Transpose (IT 117) [1;0]));
  (*3182*) Del (IT 117);
  (*3183*) Assign (T 38) (Plain (Copy (IT 126)));
  (*3184*) Del (IT 126);
  (*3185*) AddTo (T 38) (Times (Copy (IT 137)) (-1) 1);
  (*3186*) Del (IT 137);
  (*3187*) Assign (T 42) (Plain (Copy (IT 33)));
  (*3188*) Del (IT 33);
  (*3189*) AddTo (T 42) (Plain (Copy n_v'baa'xov));
  (*3190*) AddTo (T 42) (Times (Copy (IT 30)) (2) 1);
  (*3191*) Del (IT 30);
  (*3192*) Assign (T 49) (Times (Copy (T 48)) (-1) 2);
  (*3193*) Del (T 48);
  (*3194*) AddTo (T 49) (Times (Copy (T 8)) (1) 2);
  (*3195*) AddTo (T 49) (Plain (Copy (T 9)));
  (*3196*) Assign (T 31) (Plain (Copy (T 24)));
  (*3197*) Del (T 24);
  (*3198*) AddTo (T 31) (Times (Transpose (T 26) [0;2;1]) (-2) 1);
  (*3199*) Del (T 26);
  (*3200*) AddTo (T 31) (Plain (Transpose (T 28) [0;2;1]));
  (*3201*) Del (T 28);
  (*3202*) AddTo (T 31) (Plain (Copy (T 30)));
  (*3203*) Del (T 30);
  (*3204*) Assign (T 23) (Times (Copy (T 13)) (2) 1);
  (*3205*) Del (T 13);
  (*3206*) AddTo (T 23) (Plain (Copy (T 18)));
  (*3207*) Del (T 18);
  (*3208*) AddTo (T 23) (Plain (Transpose (T 20) [0;2;1]));
  (*3209*) Del (T 20);
  (*3210*) AddTo (T 23) (Plain (Copy (T 22)));
  (*3211*) Del (T 22);
  (*3212*) Assign (T 11) (Plain (Einsum [(IT 24,[0;1;2;3]); (n_r2'aaa,[2;3;4])] [0;1;4]));
  (*3213*) Del (IT 24);
  (*3214*) Assign (T 10) (Plain (Copy (T 8)));
  (*3215*) Del (T 8);
  (*3216*) AddTo (T 10) (Times (Copy (T 9)) (2) 1);
  (*3217*) Del (T 9);
  (*3218*) AddTo (T 10) (Times (Einsum [(n_r1'b,[0]); (T 1,[1;0])] [1]) (-1) 1);
  (*3219*) Assign (T 7) (Plain (Copy (IT 47)));
  (*3220*) Del (IT 47);
  (*3221*) AddTo (T 7) (Times (Transpose (IT 58) [1;0]) (2) 1);
  (*3222*) Del (IT 58);
  (*3223*) AddTo (T 7) (Plain (Transpose (IT 61) [1;0]));
  (*3224*) Del (IT 61);
  (*3225*) AddTo (T 7) (Times (Copy n_f'bb'vv) (-1) 1);
  (*3226*) AddTo (T 7) (Times (Transpose (IT 45) [1;0]) (-1) 1);
  (*3227*) Del (IT 45);
  (*3228*) AddTo (T 7) (Times (Transpose (IT 48) [1;0]) (-1) 1);
  (*3229*) Del (IT 48);
  (*3230*) Assign (T 6) (Times (Copy (T 4)) (-2) 1);
  (*3231*) Del (T 4);
  (*3232*) AddTo (T 6) (Plain (Copy (T 5)));
  (*3233*) Del (T 5);
  (*3234*) AddTo (T 6) (Plain (Einsum [(T 2,[0;1]); (n_r1'a,[1])] [0]));
  (*3235*) Assign (T 3) (Times (Transpose (IT 31) [1;0]) (2) 1);
  (*3236*) Del (IT 31);
  (*3237*) AddTo (T 3) (Plain (Transpose (IT 34) [1;0]));
  (*3238*) Del (IT 34);
  (*3239*) AddTo (T 3) (Plain (Copy (IT 10)));
  (*3240*) Del (IT 10);
  (*3241*) AddTo (T 3) (Times (Copy n_f'aa'vv) (-1) 1);
  (*3242*) AddTo (T 3) (Times (Transpose (IT 12) [1;0]) (-1) 1);
  (*3243*) Del (IT 12);
  (*3244*) AddTo (T 3) (Times (Transpose (IT 8) [1;0]) (-1) 1);
  (*3245*) Del (IT 8);
  (*3246*) Assign n_r2new'bbb (Times (Einsum [(IT 225,[0;1;2;3]); (n_r2'bbb,[3;1;4])] [0;2;4]) (2) 1);
  (*3247*) Del (IT 225);
  (*3248*) AddTo n_r2new'bbb (Times (Einsum [(n_r1'b,[0]); (IT 217,[1;2;3;0])] [3;2;1]) (2) 1);
  (*3249*) Del (IT 217);
  (*3250*) AddTo n_r2new'bbb (Times (Einsum [(T 58,[0;1;2]); (n_t2'bbbb,[0;1;3;4])] [3;4;2]) (2) 1);
  (*3251*) Del (T 58);
  (*3252*) AddTo n_r2new'bbb (Times (Transpose (T 69) [1;2;0]) (-1) 1);
  (*3253*) AddTo n_r2new'bbb (Plain (Transpose (T 69) [2;1;0]));
  (*3254*) Del (T 69);
  (*3255*) AddTo n_r2new'bbb (Plain (Transpose (T 76) [1;2;0]));
  (*3256*) AddTo n_r2new'bbb (Times (Transpose (T 76) [2;1;0]) (-1) 1);
  (*3257*) Del (T 76);
  (*3258*) AddTo n_r2new'bbb (Times (Einsum [(T 56,[0;1]); (n_r2'bbb,[2;3;0])] [2;3;1]) (-2) 1);
  (*3259*) AddTo n_r2new'bbb (Times (Einsum [(n_t2'bbbb,[0;1;2;3]); (T 77,[1])] [2;3;0]) (-2) 1);
  (*3260*) Del (T 77);
  (*3261*) AddTo n_r2new'bbb (Times (Einsum [(n_r1'b,[0]); (T 57,[1;2])] [0;2;1]) (-1) 1);
  (*3262*) AddTo n_r2new'bbb (Plain (Einsum [(T 57,[0;1]); (n_r1'b,[2])] [1;2;0]));
  (*3263*) Assign n_r2new'bab (Times (Einsum [(IT 188,[0;1;2;3]); (n_r2'aaa,[4;2;0])] [3;4;1]) (2) 1);
  (*3264*) Del (IT 188);
  (*3265*) AddTo n_r2new'bab (Plain (Einsum [(n_r2'bab,[0;1;2]); (IT 133,[3;1;4;0])] [4;3;2]));
  (*3266*) AddTo n_r2new'bab (Times (Einsum [(n_t2'abab,[0;1;2;3]); (T 50,[0;1;4])] [3;2;4]) (-1) 1);
  (*3267*) Del (T 50);
  (*3268*) AddTo n_r2new'bab (Times (Einsum [(T 51,[0;1;2;3]); (n_r2'bab,[3;4;1])] [2;4;0]) (-1) 1);
  (*3269*) Del (T 51);
  (*3270*) AddTo n_r2new'bab (Plain (Einsum [(T 52,[0;1;2;3]); (n_r2'bab,[4;3;1])] [4;2;0]));
  (*3271*) Del (T 52);
  (*3272*) AddTo n_r2new'bab (Times (Einsum [(T 53,[0;1]); (T 54,[0;2;3])] [3;1;2]) (-1) 1);
  (*3273*) Del (T 53);
  (*3273*) Del (T 54);
  (*3274*) AddTo n_r2new'bab (Times (Einsum [(n_r1'a,[0]); (T 55,[1;2;0;3])] [3;2;1]) (-1) 1);
  (*3275*) Del (T 55);
  (*3276*) AddTo n_r2new'bab (Times (Einsum [(T 47,[0;1]); (n_r2'bab,[0;2;3])] [1;2;3]) (-1) 1);
  (*3277*) AddTo n_r2new'bab (Times (Einsum [(n_r2'bab,[0;1;2]); (T 45,[1;3])] [0;3;2]) (-1) 1);
  (*3278*) AddTo n_r2new'bab (Times (Einsum [(T 56,[0;1]); (n_r2'bab,[2;3;0])] [2;3;1]) (-1) 1);
  (*3279*) Del (T 56);
  (*3280*) AddTo n_r2new'bab (Times (Einsum [(n_t2'abab,[0;1;2;3]); (T 34,[0])] [3;2;1]) (2) 1);
  (*3281*) AddTo n_r2new'bab (Plain (Einsum [(T 57,[0;1]); (n_r1'a,[2])] [1;2;0]));
  (*3282*) Del (T 57);
  (*3283*) Assign n_r2new'aba (Plain (Einsum [(n_t2'abab,[0;1;2;3]); (T 36,[0;4;1])] [2;3;4]));
  (*3284*) Del (T 36);
  (*3285*) AddTo n_r2new'aba (Plain (Einsum [(n_r2'aba,[0;1;2]); (IT 133,[3;0;4;1])] [3;4;2]));
  (*3286*) Del (IT 133);
  (*3287*) AddTo n_r2new'aba (Times (Einsum [(n_r2'bbb,[0;1;2]); (IT 86,[3;2;4;1])] [4;0;3]) (2) 1);
  (*3288*) Del (IT 86);
  (*3289*) AddTo n_r2new'aba (Times (Einsum [(T 37,[0;1;2;3]); (n_r2'aba,[3;4;1])] [2;4;0]) (-1) 1);
  (*3290*) Del (T 37);
  (*3291*) AddTo n_r2new'aba (Plain (Einsum [(n_r2'aba,[0;1;2]); (T 38,[3;2;4;1])] [0;4;3]));
  (*3292*) Del (T 38);
  (*3293*) AddTo n_r2new'aba (Times (Einsum [(T 42,[0;1;2]); (T 41,[0;3])] [2;3;1]) (-1) 1);
  (*3294*) Del (T 42);
  (*3294*) Del (T 41);
  (*3295*) AddTo n_r2new'aba (Times (Einsum [(T 43,[0;1;2;3]); (n_r1'b,[3])] [1;2;0]) (-1) 1);
  (*3296*) Del (T 43);
  (*3297*) AddTo n_r2new'aba (Times (Einsum [(n_r2'aba,[0;1;2]); (T 45,[0;3])] [3;1;2]) (-1) 1);
  (*3298*) Del (T 45);
  (*3299*) AddTo n_r2new'aba (Times (Einsum [(n_r2'aba,[0;1;2]); (T 47,[1;3])] [0;3;2]) (-1) 1);
  (*3300*) Del (T 47);
  (*3301*) AddTo n_r2new'aba (Times (Einsum [(T 32,[0;1]); (n_r2'aba,[2;3;0])] [2;3;1]) (-1) 1);
  (*3302*) AddTo n_r2new'aba (Times (Einsum [(n_t2'abab,[0;1;2;3]); (T 49,[1])] [2;3;0]) (-2) 1);
  (*3303*) Del (T 49);
  (*3304*) AddTo n_r2new'aba (Plain (Einsum [(n_r1'b,[0]); (T 35,[1;2])] [2;0;1]));
  (*3305*) Assign n_r2new'aaa (Times (Einsum [(IT 100,[0;1;2;3]); (n_r1'a,[3])] [2;1;0]) (2) 1);
  (*3306*) Del (IT 100);
  (*3307*) AddTo n_r2new'aaa (Times (Einsum [(T 11,[0;1;2]); (n_t2'aaaa,[0;1;3;4])] [3;4;2]) (2) 1);
  (*3308*) Del (T 11);
  (*3309*) AddTo n_r2new'aaa (Times (Einsum [(n_r2'aaa,[0;1;2]); (IT 111,[3;0;4;1])] [3;4;2]) (-2) 1);
  (*3310*) Del (IT 111);
  (*3311*) AddTo n_r2new'aaa (Times (Transpose (T 23) [1;2;0]) (-1) 1);
  (*3312*) AddTo n_r2new'aaa (Plain (Transpose (T 23) [2;1;0]));
  (*3313*) Del (T 23);
  (*3314*) AddTo n_r2new'aaa (Plain (Transpose (T 31) [1;2;0]));
  (*3315*) AddTo n_r2new'aaa (Times (Transpose (T 31) [2;1;0]) (-1) 1);
  (*3316*) Del (T 31);
  (*3317*) AddTo n_r2new'aaa (Times (Einsum [(n_r2'aaa,[0;1;2]); (T 32,[2;3])] [0;1;3]) (-2) 1);
  (*3318*) Del (T 32);
  (*3319*) AddTo n_r2new'aaa (Times (Einsum [(T 34,[0]); (n_t2'aaaa,[1;0;2;3])] [2;3;1]) (4) 1);
  (*3320*) Del (T 34);
  (*3321*) AddTo n_r2new'aaa (Times (Einsum [(T 35,[0;1]); (n_r1'a,[2])] [2;1;0]) (-1) 1);
  (*3322*) AddTo n_r2new'aaa (Plain (Einsum [(n_r1'a,[0]); (T 35,[1;2])] [2;0;1]));
  (*3323*) Del (T 35);
  (*3324*) Assign n_r1new'b (Times (Einsum [(n_r2'bbb,[0;1;2]); (IT 41,[2;3;0;1])] [3]) (2) 1);
  (*3325*) Del (IT 41);
  (*3326*) AddTo n_r1new'b (Times (Einsum [(n_r2'aba,[0;1;2]); (IT 43,[2;0;3;1])] [3]) (-1) 1);
  (*3327*) Del (IT 43);
  (*3328*) AddTo n_r1new'b (Times (Einsum [(n_r2'aba,[0;1;2]); (T 2,[2;0])] [1]) (-1) 1);
  (*3329*) AddTo n_r1new'b (Times (Einsum [(n_r2'bbb,[0;1;2]); (T 1,[2;1])] [0]) (2) 1);
  (*3330*) AddTo n_r1new'b (Times (Einsum [(T 7,[0;1]); (n_r1'b,[0])] [1]) (-1) 1);
  (*3331*) Del (T 7);
  (*3332*) AddTo n_r1new'b (Plain (Einsum [(n_t1'bb,[0;1]); (T 10,[0])] [1]));
  (*3333*) Del (T 10);
  (*3334*) Assign n_r1new'a (Times (Einsum [(n_r2'aaa,[0;1;2]); (IT 3,[2;3;1;0])] [3]) (-2) 1);
  (*3335*) Del (IT 3);
  (*3336*) AddTo n_r1new'a (Times (Einsum [(n_r2'bab,[0;1;2]); (IT 5,[2;3;1;0])] [3]) (-1) 1);
  (*3337*) Del (IT 5);
  (*3338*) AddTo n_r1new'a (Times (Einsum [(n_r2'bab,[0;1;2]); (T 1,[2;0])] [1]) (-1) 1);
  (*3339*) Del (T 1);
  (*3340*) AddTo n_r1new'a (Times (Einsum [(n_r2'aaa,[0;1;2]); (T 2,[2;1])] [0]) (2) 1);
  (*3341*) Del (T 2);
  (*3342*) AddTo n_r1new'a (Times (Einsum [(T 3,[0;1]); (n_r1'a,[0])] [1]) (-1) 1);
  (*3343*) Del (T 3);
  (*3344*) AddTo n_r1new'a (Times (Einsum [(n_t1'aa,[0;1]); (T 6,[0])] [1]) (-1) 1);
  (*3345*) Del (T 6)]
 [(n_r1new'b,[7]); (n_r1new'a,[5]); (n_r2new'bbb,[7;7;6]); (n_r2new'bab,[7;5;6]); (n_r2new'aba,[5;7;4]); (n_r2new'aaa,[5;5;4])].

(** ebcc/codegen/UDFCC2.py:3349-3797 [hbar_lmatvec_ip_intermediates] *)
Definition UDFCC2_hbar_lmatvec_ip_intermediates : prog := mkprog
 [(n_v'baa'xov,[2;4;5]); (n_t1'aa,[4;5]); (n_t1'bb,[6;7]); (n_v'bbb'xov,[2;6;7]); (n_t2'abab,[4;6;5;7]); (n_t2'bbbb,[6;6;7;7]); (n_t2'aaaa,[4;4;5;5]); (n_v'baa'xvv,[2;5;5]); (n_v'bbb'xvv,[2;7;7]); (n_v'bbb'xoo,[2;6;6]); (n_v'baa'xoo,[2;4;4]); (n_f'bb'ov,[6;7]); (n_f'aa'ov,[4;5]); (n_f'bb'vv,[7;7]); (n_f'aa'vv,[5;5]); (n_f'bb'oo,[6;6]); (n_f'aa'oo,[4;4])]
 [(*3559*) Assign (T 30) (Plain (Einsum [(n_v'baa'xov,[0;1;2]); (n_t1'aa,[1;2])] [0]));
  (*3560*) Assign (T 32) (Plain (Einsum [(n_t1'bb,[0;1]); (n_v'bbb'xov,[2;0;1])] [2]));
  (*3561*) Assign (T 107) (Plain (Einsum [(n_t1'bb,[0;1]); (n_v'bbb'xov,[2;3;1])] [2;0;3]));
  (*3562*) Assign (T 28) (Plain (Einsum [(n_t1'aa,[0;1]); (n_v'baa'xov,[2;3;1])] [2;0;3]));
  (*3563*) Assign (T 171) (Plain (Einsum [(n_v'baa'xov,[0;1;2]); (n_v'bbb'xov,[0;3;4])] [1;3;2;4]));
  (*3564*) Assign (T 326) (Plain (Einsum [(n_v'bbb'xov,[0;1;2]); (n_v'bbb'xov,[0;3;4])] [3;1;4;2]));
  (*3565*) Assign (T 48) (Plain (Einsum [(n_v'bbb'xov,[0;1;2]); (T 30,[0])] [1;2]));
  (*3566*) Assign (T 49) (Plain (Einsum [(T 32,[0]); (n_v'baa'xov,[0;1;2])] [1;2]));
  (*3567*) Assign (T 45) (Plain (Einsum [(T 32,[0]); (n_v'bbb'xov,[0;1;2])] [1;2]));
  (*3568*) Assign (T 108) (Plain (Einsum [(T 107,[0;1;2]); (n_v'bbb'xov,[0;1;3])] [2;3]));
  (*3569*) Assign (T 40) (Plain (Einsum [(n_v'baa'xov,[0;1;2]); (T 30,[0])] [1;2]));
  (*3570*) Assign (T 100) (Plain (Einsum [(n_v'baa'xov,[0;1;2]); (T 28,[0;1;3])] [3;2]));
  (*3571*) Assign (T 167) (Plain (Einsum [(n_v'baa'xov,[0;1;2]); (n_v'baa'xov,[0;3;4])] [3;1;4;2]));
  (*3572*) Assign (T 60) (Plain (Einsum [(n_t2'abab,[0;1;2;3]); (n_v'bbb'xov,[4;1;3])] [4;0;2]));
  (*3573*) Assign (T 78) (Plain (Einsum [(n_t2'abab,[0;1;2;3]); (n_v'baa'xov,[4;0;2])] [4;1;3]));
  (*3574*) Assign (T 83) (Plain (Einsum [(n_v'bbb'xov,[0;1;2]); (n_t2'bbbb,[3;1;4;2])] [0;3;4]));
  (*3575*) Assign (T 57) (Plain (Einsum [(n_v'baa'xov,[0;1;2]); (n_t2'aaaa,[3;1;4;2])] [0;3;4]));
  (*3576*) Assign (T 231) (Plain (Einsum [(T 107,[0;1;2]); (T 28,[0;3;4])] [3;4;1;2]));
  (*3577*) Assign (T 352) (Plain (Einsum [(T 107,[0;1;2]); (T 107,[0;3;4])] [1;3;2;4]));
  (*3578*) Assign (T 42) (Plain (Einsum [(n_v'baa'xvv,[0;1;2]); (n_t1'aa,[3;2])] [0;3;1]));
  (*3579*) Assign (T 46) (Plain (Einsum [(n_t1'bb,[0;1]); (n_v'bbb'xvv,[2;3;1])] [2;0;3]));
  (*3580*) Assign (T 195) (Plain (Einsum [(n_v'bbb'xoo,[0;1;2]); (T 28,[0;3;4])] [3;4;1;2]));
  (*3581*) Assign (T 197) (Plain (Einsum [(T 107,[0;1;2]); (n_v'baa'xoo,[0;3;4])] [3;4;1;2]));
  (*3582*) Assign (T 335) (Plain (Einsum [(T 107,[0;1;2]); (n_v'bbb'xoo,[0;3;4])] [1;3;4;2]));
  (*3583*) Assign (T 172) (Plain (Einsum [(n_t2'abab,[0;1;2;3]); (T 171,[4;5;2;3])] [0;4;1;5]));
  (*3584*) Assign (T 327) (Times (Einsum [(n_t2'bbbb,[0;1;2;3]); (T 326,[4;5;2;3])] [0;1;5;4]) (-1) 1);
  (*3585*) Assign (T 55) (Plain (Einsum [(T 28,[0;1;2]); (n_v'bbb'xov,[0;3;4])] [1;2;3;4]));
  (*3586*) Assign (T 138) (Plain (Einsum [(n_v'bbb'xov,[0;1;2]); (T 107,[0;3;4])] [3;1;4;2]));
  (*3587*) Assign (T 283) (Plain (Einsum [(n_v'baa'xvv,[0;1;2]); (n_v'bbb'xov,[0;3;4])] [3;1;2;4]));
  (*3588*) Assign (T 280) (Plain (Einsum [(n_v'bbb'xov,[0;1;2]); (n_v'bbb'xvv,[0;3;4])] [1;3;4;2]));
  (*3589*) Assign (T 26) (Plain (Einsum [(n_v'bbb'xov,[0;1;2]); (n_v'baa'xoo,[0;3;4])] [3;4;1;2]));
  (*3590*) Assign (T 65) (Plain (Einsum [(n_v'bbb'xoo,[0;1;2]); (n_v'bbb'xov,[0;3;4])] [1;2;3;4]));
  (*3591*) Assign (T 37) (Plain (Einsum [(n_v'bbb'xoo,[0;1;2]); (n_v'baa'xoo,[0;3;4])] [3;4;1;2]));
  (*3592*) Assign (T 247) (Plain (Einsum [(n_v'bbb'xoo,[0;1;2]); (n_v'bbb'xoo,[0;3;4])] [1;3;4;2]));
  (*3593*) Assign (T 228) (Plain (Einsum [(T 28,[0;1;2]); (T 28,[0;3;4])] [1;3;2;4]));
  (*3594*) Assign (T 226) (Plain (Einsum [(n_t1'bb,[0;1]); (T 48,[2;1])] [0;2]));
  (*3595*) Assign (T 177) (Plain (Einsum [(n_t1'aa,[0;1]); (T 49,[2;1])] [0;2]));
  (*3596*) Assign (T 222) (Plain (Einsum [(n_t1'bb,[0;1]); (T 45,[2;1])] [0;2]));
  (*3597*) Assign (T 220) (Plain (Einsum [(T 108,[0;1]); (n_t1'bb,[2;1])] [2;0]));
  (*3598*) Assign (T 176) (Plain (Einsum [(n_t1'aa,[0;1]); (T 40,[2;1])] [0;2]));
  (*3599*) Assign (T 175) (Plain (Einsum [(n_t1'aa,[0;1]); (T 100,[2;1])] [0;2]));
  (*3600*) Assign (T 209) (Plain (Einsum [(T 32,[0]); (n_v'baa'xvv,[0;1;2])] [1;2]));
  (*3601*) Assign (T 207) (Plain (Einsum [(T 30,[0]); (n_v'bbb'xvv,[0;1;2])] [1;2]));
  (*3602*) Assign (T 204) (Plain (Einsum [(T 32,[0]); (n_v'bbb'xvv,[0;1;2])] [1;2]));
  (*3603*) Assign (T 199) (Plain (Einsum [(n_v'baa'xvv,[0;1;2]); (T 30,[0])] [1;2]));
  (*3604*) Assign (T 190) (Plain (Einsum [(T 28,[0;1;2]); (n_v'baa'xoo,[0;3;4])] [1;3;4;2]));
  (*3605*) Assign (T 188) (Plain (Einsum [(n_v'bbb'xoo,[0;1;2]); (T 30,[0])] [1;2]));
  (*3606*) Assign (T 33) (Plain (Einsum [(T 32,[0]); (n_v'baa'xoo,[0;1;2])] [1;2]));
  (*3607*) Assign (T 184) (Plain (Einsum [(T 32,[0]); (n_v'bbb'xoo,[0;1;2])] [1;2]));
  (*3608*) Del (T 32);
  (*3609*) Assign (T 182) (Plain (Einsum [(T 107,[0;1;2]); (n_v'bbb'xoo,[0;3;1])] [3;2]));
  (*3610*) Assign (T 31) (Plain (Einsum [(T 30,[0]); (n_v'baa'xoo,[0;1;2])] [1;2]));
  (*3611*) Del (T 30);
  (*3612*) Assign (T 29) (Plain (Einsum [(T 28,[0;1;2]); (n_v'baa'xoo,[0;3;1])] [3;2]));
  (*3613*) Assign (T 168) (Times (Einsum [(n_t2'aaaa,[0;1;2;3]); (T 167,[4;5;2;3])] [0;1;5;4]) (-1) 1);
  (*3614*) Assign (T 61) (Plain (Einsum [(n_v'baa'xov,[0;1;2]); (T 60,[0;3;2])] [3;1]));
  (*3615*) Assign (T 162) (Plain (Einsum [(n_v'bbb'xov,[0;1;2]); (T 78,[0;3;2])] [3;1]));
  (*3616*) Assign (T 159) (Plain (Einsum [(T 83,[0;1;2]); (n_v'bbb'xov,[0;3;2])] [1;3]));
  (*3617*) Assign (T 58) (Plain (Einsum [(T 57,[0;1;2]); (n_v'baa'xov,[0;3;2])] [1;3]));
  (*3618*) Assign (T 143) (Plain (Einsum [(T 107,[0;1;2]); (n_v'baa'xov,[0;3;4])] [3;1;2;4]));
  (*3619*) Assign (T 51) (Plain (Einsum [(T 28,[0;1;2]); (n_v'baa'xov,[0;3;4])] [1;3;2;4]));
  (*3620*) Assign (T 97) (Plain (Einsum [(n_v'baa'xov,[0;1;2]); (n_v'bbb'xvv,[0;3;4])] [1;2;3;4]));
  (*3621*) Assign (T 94) (Plain (Einsum [(n_v'baa'xvv,[0;1;2]); (n_v'baa'xov,[0;3;4])] [3;1;2;4]));
  (*3622*) Assign (T 68) (Plain (Einsum [(n_v'bbb'xoo,[0;1;2]); (n_v'baa'xov,[0;3;4])] [3;1;2;4]));
  (*3623*) Assign (T 24) (Plain (Einsum [(n_v'baa'xov,[0;1;2]); (n_v'baa'xoo,[0;3;4])] [3;4;1;2]));
  (*3624*) Assign (T 34) (Plain (Einsum [(n_v'baa'xoo,[0;1;2]); (n_v'baa'xoo,[0;3;4])] [1;3;4;2]));
  (*3625*) Assign (T 22) (Plain (Einsum [(n_t1'bb,[0;1]); (n_f'bb'ov,[2;1])] [2;0]));
  (*3626*) Assign (T 2) (Plain (Einsum [(n_f'aa'ov,[0;1]); (n_t1'aa,[2;1])] [0;2]));
  (*3627*) Assign (T 443) (Plain (Einsum [(n_t2'abab,[0;1;2;3]); (T 171,[4;1;2;5])] [0;4;3;5]));
  (*3628*) Assign (T 442) (Plain (Einsum [(n_v'bbb'xvv,[0;1;2]); (n_v'baa'xoo,[0;3;4])] [3;4;1;2]));
  (*3629*) Assign (T 440) (Plain (Einsum [(n_v'bbb'xov,[0;1;2]); (T 78,[0;1;3])] [3;2]));
  (*3630*) Assign (T 438) (Plain (Einsum [(T 83,[0;1;2]); (n_v'bbb'xov,[0;1;3])] [2;3]));
  (*3631*) Assign (T 424) (Plain (Einsum [(n_t2'bbbb,[0;1;2;3]); (T 326,[1;4;5;3])] [0;4;2;5]));
  (*3632*) Assign (T 422) (Plain (Einsum [(n_t2'abab,[0;1;2;3]); (T 326,[1;4;5;3])] [0;4;2;5]));
  (*3633*) Assign (T 420) (Plain (Einsum [(n_v'bbb'xoo,[0;1;2]); (n_v'bbb'xvv,[0;3;4])] [1;2;3;4]));
  (*3634*) Assign (T 419) (Plain (Einsum [(n_t2'abab,[0;1;2;3]); (T 171,[0;4;5;3])] [1;4;2;5]));
  (*3635*) Assign (T 418) (Plain (Einsum [(n_v'bbb'xoo,[0;1;2]); (n_v'baa'xvv,[0;3;4])] [1;2;3;4]));
  (*3636*) Assign (T 391) (Plain (Einsum [(n_v'baa'xov,[0;1;2]); (T 60,[0;1;3])] [3;2]));
  (*3637*) Assign (T 389) (Plain (Einsum [(T 57,[0;1;2]); (n_v'baa'xov,[0;1;3])] [2;3]));
  (*3638*) Assign (T 365) (Plain (Einsum [(n_t2'abab,[0;1;2;3]); (T 167,[0;4;5;2])] [4;1;5;3]));
  (*3639*) Assign (T 363) (Plain (Einsum [(T 167,[0;1;2;3]); (n_t2'aaaa,[4;0;5;3])] [4;1;5;2]));
  (*3640*) Assign (T 359) (Plain (Einsum [(n_v'baa'xvv,[0;1;2]); (n_v'baa'xoo,[0;3;4])] [3;4;1;2]));
  (*3641*) Assign (T 355) (Plain (Einsum [(T 231,[0;1;2;3]); (n_t1'aa,[1;4])] [0;2;3;4]));
  (*3642*) Assign (T 353) (Plain (Einsum [(T 352,[0;1;2;3]); (n_t1'bb,[3;4])] [0;1;2;4]));
  (*3643*) Del (T 352);
  (*3644*) Assign (T 347) (Plain (Einsum [(T 42,[0;1;2]); (T 107,[0;3;4])] [1;3;4;2]));
  (*3645*) Assign (T 345) (Plain (Einsum [(T 107,[0;1;2]); (T 46,[0;3;4])] [1;3;2;4]));
  (*3646*) Assign (T 341) (Plain (Einsum [(T 195,[0;1;2;3]); (n_t1'aa,[1;4])] [0;2;3;4]));
  (*3647*) Assign (T 340) (Plain (Einsum [(T 197,[0;1;2;3]); (n_t1'aa,[0;4])] [1;2;3;4]));
  (*3648*) Assign (T 338) (Plain (Einsum [(n_t1'bb,[0;1]); (T 335,[2;3;4;0])] [2;3;4;1]));
  (*3649*) Assign (T 336) (Plain (Einsum [(T 335,[0;1;2;3]); (n_t1'bb,[2;4])] [0;1;3;4]));
  (*3650*) Del (T 335);
  (*3651*) Assign (T 330) (Plain (Einsum [(T 172,[0;1;2;3]); (n_t1'aa,[1;4])] [0;2;3;4]));
  (*3652*) Assign (T 328) (Times (Einsum [(T 327,[0;1;2;3]); (n_t1'bb,[2;4])] [0;1;3;4]) (-1) 1);
  (*3653*) Assign (T 321) (Plain (Einsum [(T 55,[0;1;2;3]); (n_t2'abab,[1;4;5;3])] [0;4;2;5]));
  (*3654*) Assign (T 319) (Plain (Einsum [(T 107,[0;1;2]); (T 78,[0;3;4])] [1;3;2;4]));
  (*3655*) Assign (T 317) (Plain (Einsum [(T 57,[0;1;2]); (T 107,[0;3;4])] [1;3;4;2]));
  (*3656*) Assign (T 315) (Plain (Einsum [(n_t2'bbbb,[0;1;2;3]); (T 138,[4;5;1;3])] [4;0;5;2]));
  (*3657*) Assign (T 314) (Plain (Einsum [(T 138,[0;1;2;3]); (n_t2'abab,[4;2;5;3])] [4;0;1;5]));
  (*3658*) Assign (T 312) (Plain (Einsum [(T 107,[0;1;2]); (T 83,[0;3;4])] [1;3;2;4]));
  (*3659*) Assign (T 311) (Plain (Einsum [(T 107,[0;1;2]); (T 60,[0;3;4])] [3;1;2;4]));
  (*3660*) Assign (T 305) (Plain (Einsum [(n_t2'bbbb,[0;1;2;3]); (T 48,[4;3])] [0;1;4;2]));
  (*3661*) Assign (T 303) (Plain (Einsum [(n_t2'abab,[0;1;2;3]); (T 48,[4;3])] [0;1;4;2]));
  (*3662*) Assign (T 301) (Plain (Einsum [(T 45,[0;1]); (n_t2'bbbb,[2;3;4;1])] [2;3;0;4]));
  (*3663*) Assign (T 299) (Plain (Einsum [(n_t2'abab,[0;1;2;3]); (T 45,[4;3])] [0;1;4;2]));
  (*3664*) Assign (T 297) (Plain (Einsum [(T 108,[0;1]); (n_t2'bbbb,[2;3;4;1])] [2;3;0;4]));
  (*3665*) Assign (T 295) (Plain (Einsum [(T 108,[0;1]); (n_t2'abab,[2;3;4;1])] [2;3;0;4]));
  (*3666*) Assign (T 284) (Plain (Einsum [(n_t2'abab,[0;1;2;3]); (T 283,[4;2;5;3])] [0;1;4;5]));
  (*3667*) Del (T 283);
  (*3668*) Assign (T 281) (Times (Einsum [(n_t2'bbbb,[0;1;2;3]); (T 280,[4;5;2;3])] [0;1;4;5]) (-1) 1);
  (*3669*) Del (T 280);
  (*3670*) Assign (T 274) (Plain (Einsum [(n_v'bbb'xoo,[0;1;2]); (T 78,[0;3;4])] [3;1;2;4]));
  (*3671*) Assign (T 272) (Plain (Einsum [(T 57,[0;1;2]); (n_v'bbb'xoo,[0;3;4])] [1;3;4;2]));
  (*3672*) Assign (T 271) (Plain (Einsum [(T 26,[0;1;2;3]); (n_t2'abab,[1;4;5;3])] [0;4;2;5]));
  (*3673*) Assign (T 269) (Plain (Einsum [(T 83,[0;1;2]); (n_v'bbb'xoo,[0;3;4])] [1;3;4;2]));
  (*3674*) Assign (T 268) (Plain (Einsum [(T 60,[0;1;2]); (n_v'bbb'xoo,[0;3;4])] [1;3;4;2]));
  (*3675*) Assign (T 266) (Plain (Einsum [(T 65,[0;1;2;3]); (n_t2'bbbb,[4;0;5;3])] [4;1;2;5]));
  (*3676*) Assign (T 265) (Plain (Einsum [(n_t2'abab,[0;1;2;3]); (T 65,[4;1;5;3])] [0;4;5;2]));
  (*3677*) Assign (T 258) (Plain (Einsum [(T 42,[0;1;2]); (n_v'bbb'xoo,[0;3;4])] [1;3;4;2]));
  (*3678*) Assign (T 256) (Plain (Einsum [(T 46,[0;1;2]); (n_v'bbb'xoo,[0;3;4])] [1;3;4;2]));
  (*3679*) Assign (T 250) (Plain (Einsum [(T 37,[0;1;2;3]); (n_t1'aa,[1;4])] [0;2;3;4]));
  (*3680*) Assign (T 248) (Plain (Einsum [(T 247,[0;1;2;3]); (n_t1'bb,[1;4])] [3;0;2;4]));
  (*3681*) Assign (T 242) (Plain (Einsum [(n_t2'bbbb,[0;1;2;3]); (n_f'bb'ov,[4;3])] [4;0;1;2]));
  (*3682*) Assign (T 240) (Plain (Einsum [(n_t2'abab,[0;1;2;3]); (n_f'bb'ov,[4;3])] [0;4;1;2]));
  (*3683*) Assign (T 232) (Plain (Einsum [(T 231,[0;1;2;3]); (n_t1'bb,[3;4])] [0;1;2;4]));
  (*3684*) Del (T 231);
  (*3685*) Assign (T 229) (Plain (Einsum [(n_t1'aa,[0;1]); (T 228,[2;3;4;0])] [2;3;4;1]));
  (*3686*) Del (T 228);
  (*3687*) Assign (T 227) (Plain (Einsum [(T 226,[0;1]); (n_t1'bb,[1;2])] [0;2]));
  (*3688*) Assign (T 224) (Plain (Einsum [(T 177,[0;1]); (n_t1'aa,[1;2])] [0;2]));
  (*3689*) Assign (T 223) (Plain (Einsum [(n_t1'bb,[0;1]); (T 222,[2;0])] [2;1]));
  (*3690*) Assign (T 221) (Plain (Einsum [(T 220,[0;1]); (n_t1'bb,[1;2])] [0;2]));
  (*3691*) Assign (T 218) (Plain (Einsum [(T 176,[0;1]); (n_t1'aa,[1;2])] [0;2]));
  (*3692*) Assign (T 216) (Plain (Einsum [(T 175,[0;1]); (n_t1'aa,[1;2])] [0;2]));
  (*3693*) Assign (T 214) (Plain (Einsum [(T 46,[0;1;2]); (T 28,[0;3;4])] [3;4;1;2]));
  (*3694*) Assign (T 212) (Plain (Einsum [(T 28,[0;1;2]); (T 42,[0;3;4])] [1;3;2;4]));
  (*3695*) Assign (T 210) (Plain (Einsum [(n_t1'aa,[0;1]); (T 209,[2;1])] [0;2]));
  (*3696*) Del (T 209);
  (*3697*) Assign (T 208) (Plain (Einsum [(T 207,[0;1]); (n_t1'bb,[2;1])] [2;0]));
  (*3698*) Del (T 207);
  (*3699*) Assign (T 206) (Plain (Einsum [(T 107,[0;1;2]); (T 46,[0;2;3])] [1;3]));
  (*3700*) Del (T 107);
  (*3701*) Assign (T 205) (Plain (Einsum [(n_t1'bb,[0;1]); (T 204,[2;1])] [0;2]));
  (*3702*) Del (T 204);
  (*3703*) Assign (T 202) (Plain (Einsum [(T 42,[0;1;2]); (T 28,[0;3;1])] [3;2]));
  (*3704*) Assign (T 200) (Plain (Einsum [(T 199,[0;1]); (n_t1'aa,[2;1])] [2;0]));
  (*3705*) Del (T 199);
  (*3706*) Assign (T 198) (Plain (Einsum [(T 197,[0;1;2;3]); (n_t1'bb,[3;4])] [0;1;2;4]));
  (*3707*) Del (T 197);
  (*3708*) Assign (T 196) (Plain (Einsum [(T 195,[0;1;2;3]); (n_t1'bb,[3;4])] [0;1;2;4]));
  (*3709*) Del (T 195);
  (*3710*) Assign (T 193) (Plain (Einsum [(T 190,[0;1;2;3]); (n_t1'aa,[3;4])] [0;1;2;4]));
  (*3711*) Assign (T 191) (Plain (Einsum [(T 190,[0;1;2;3]); (n_t1'aa,[2;4])] [0;1;3;4]));
  (*3712*) Del (T 190);
  (*3713*) Assign (T 189) (Plain (Einsum [(T 188,[0;1]); (n_t1'bb,[1;2])] [0;2]));
  (*3714*) Assign (T 186) (Plain (Einsum [(T 33,[0;1]); (n_t1'aa,[1;2])] [0;2]));
  (*3715*) Assign (T 185) (Plain (Einsum [(T 184,[0;1]); (n_t1'bb,[1;2])] [0;2]));
  (*3716*) Assign (T 183) (Plain (Einsum [(T 182,[0;1]); (n_t1'bb,[1;2])] [0;2]));
  (*3717*) Assign (T 180) (Plain (Einsum [(T 31,[0;1]); (n_t1'aa,[1;2])] [0;2]));
  (*3718*) Assign (T 178) (Plain (Einsum [(T 29,[0;1]); (n_t1'aa,[1;2])] [0;2]));
  (*3719*) Assign (T 173) (Plain (Einsum [(n_t1'bb,[0;1]); (T 172,[2;3;4;0])] [2;3;4;1]));
  (*3720*) Assign (T 169) (Times (Einsum [(n_t1'aa,[0;1]); (T 168,[2;3;0;4])] [2;3;4;1]) (-1) 1);
  (*3721*) Assign (T 165) (Plain (Einsum [(T 61,[0;1]); (n_t1'aa,[1;2])] [0;2]));
  (*3722*) Assign (T 163) (Plain (Einsum [(n_t1'bb,[0;1]); (T 162,[2;0])] [2;1]));
  (*3723*) Assign (T 160) (Plain (Einsum [(T 159,[0;1]); (n_t1'bb,[1;2])] [0;2]));
  (*3724*) Assign (T 157) (Plain (Einsum [(T 58,[0;1]); (n_t1'aa,[1;2])] [0;2]));
  (*3725*) Assign (T 156) (Plain (Einsum [(n_t2'abab,[0;1;2;3]); (T 143,[4;5;1;2])] [0;4;5;3]));
  (*3726*) Assign (T 154) (Plain (Einsum [(T 83,[0;1;2]); (T 28,[0;3;4])] [3;4;1;2]));
  (*3727*) Assign (T 152) (Plain (Einsum [(T 28,[0;1;2]); (T 60,[0;3;4])] [1;3;2;4]));
  (*3728*) Assign (T 151) (Plain (Einsum [(n_t2'abab,[0;1;2;3]); (T 51,[4;5;0;2])] [4;5;1;3]));
  (*3729*) Assign (T 149) (Plain (Einsum [(T 51,[0;1;2;3]); (n_t2'aaaa,[4;2;5;3])] [0;4;1;5]));
  (*3730*) Assign (T 148) (Plain (Einsum [(T 28,[0;1;2]); (T 78,[0;3;4])] [1;2;3;4]));
  (*3731*) Assign (T 146) (Plain (Einsum [(T 28,[0;1;2]); (T 57,[0;3;4])] [1;3;2;4]));
  (*3732*) Del (T 28);
  (*3733*) Assign (T 144) (Plain (Einsum [(n_t2'abab,[0;1;2;3]); (T 143,[0;4;1;2])] [4;3]));
  (*3734*) Assign (T 141) (Plain (Einsum [(T 55,[0;1;2;3]); (n_t2'abab,[1;2;4;3])] [0;4]));
  (*3735*) Assign (T 139) (Plain (Einsum [(n_t2'bbbb,[0;1;2;3]); (T 138,[4;1;0;3])] [4;2]));
  (*3736*) Assign (T 136) (Plain (Einsum [(T 51,[0;1;2;3]); (n_t2'aaaa,[2;1;4;3])] [0;4]));
  (*3737*) Assign (T 134) (Plain (Einsum [(n_t2'abab,[0;1;2;3]); (T 49,[4;2])] [0;4;1;3]));
  (*3738*) Assign (T 132) (Plain (Einsum [(T 49,[0;1]); (n_t2'aaaa,[2;3;4;1])] [2;3;0;4]));
  (*3739*) Assign (T 130) (Plain (Einsum [(n_t2'abab,[0;1;2;3]); (T 40,[4;2])] [0;4;1;3]));
  (*3740*) Assign (T 128) (Plain (Einsum [(T 40,[0;1]); (n_t2'aaaa,[2;3;4;1])] [2;3;0;4]));
  (*3741*) Assign (T 126) (Plain (Einsum [(n_t2'abab,[0;1;2;3]); (T 100,[4;2])] [0;4;1;3]));
  (*3742*) Assign (T 124) (Plain (Einsum [(n_t2'aaaa,[0;1;2;3]); (T 100,[4;3])] [0;1;4;2]));
  (*3743*) Assign (T 122) (Plain (Einsum [(n_t2'bbbb,[0;1;2;3]); (T 48,[1;3])] [0;2]));
  (*3744*) Assign (T 120) (Plain (Einsum [(n_t2'abab,[0;1;2;3]); (T 48,[1;3])] [0;2]));
  (*3745*) Assign (T 119) (Plain (Einsum [(n_t2'abab,[0;1;2;3]); (T 49,[0;2])] [1;3]));
  (*3746*) Assign (T 117) (Plain (Einsum [(T 49,[0;1]); (n_t2'aaaa,[2;0;3;1])] [2;3]));
  (*3747*) Assign (T 115) (Plain (Einsum [(n_t2'bbbb,[0;1;2;3]); (T 45,[1;3])] [0;2]));
  (*3748*) Assign (T 113) (Plain (Einsum [(T 45,[0;1]); (n_t2'abab,[2;0;3;1])] [2;3]));
  (*3749*) Assign (T 111) (Plain (Einsum [(n_t2'bbbb,[0;1;2;3]); (T 108,[1;3])] [0;2]));
  (*3750*) Assign (T 109) (Plain (Einsum [(n_t2'abab,[0;1;2;3]); (T 108,[1;3])] [0;2]));
  (*3751*) Del (T 108);
  (*3752*) Assign (T 106) (Plain (Einsum [(n_t2'abab,[0;1;2;3]); (T 40,[0;2])] [1;3]));
  (*3753*) Assign (T 104) (Plain (Einsum [(n_t2'aaaa,[0;1;2;3]); (T 40,[1;3])] [0;2]));
  (*3754*) Assign (T 103) (Plain (Einsum [(n_t2'abab,[0;1;2;3]); (T 100,[0;2])] [1;3]));
  (*3755*) Assign (T 101) (Plain (Einsum [(T 100,[0;1]); (n_t2'aaaa,[2;0;3;1])] [2;3]));
  (*3756*) Del (T 100);
  (*3757*) Assign (T 98) (Plain (Einsum [(n_t2'abab,[0;1;2;3]); (T 97,[4;2;5;3])] [0;4;1;5]));
  (*3758*) Del (T 97);
  (*3759*) Assign (T 95) (Times (Einsum [(n_t2'aaaa,[0;1;2;3]); (T 94,[4;2;5;3])] [0;1;4;5]) (-1) 1);
  (*3760*) Del (T 94);
  (*3761*) Assign (T 92) (Plain (Einsum [(T 60,[0;1;2]); (n_v'baa'xvv,[0;3;2])] [1;3]));
  (*3762*) Assign (T 90) (Plain (Einsum [(T 78,[0;1;2]); (n_v'bbb'xvv,[0;3;2])] [1;3]));
  (*3763*) Assign (T 88) (Times (Einsum [(n_v'bbb'xvv,[0;1;2]); (T 83,[0;3;2])] [3;1]) (-1) 1);
  (*3764*) Assign (T 86) (Times (Einsum [(n_v'baa'xvv,[0;1;2]); (T 57,[0;3;2])] [3;1]) (-1) 1);
  (*3765*) Assign (T 84) (Plain (Einsum [(T 83,[0;1;2]); (n_v'baa'xoo,[0;3;4])] [3;4;1;2]));
  (*3766*) Assign (T 81) (Plain (Einsum [(n_v'baa'xoo,[0;1;2]); (T 60,[0;3;4])] [3;1;2;4]));
  (*3767*) Assign (T 80) (Plain (Einsum [(n_t2'abab,[0;1;2;3]); (T 68,[4;5;1;2])] [0;4;5;3]));
  (*3768*) Assign (T 79) (Plain (Einsum [(n_v'baa'xoo,[0;1;2]); (T 78,[0;3;4])] [1;2;3;4]));
  (*3769*) Assign (T 76) (Plain (Einsum [(T 57,[0;1;2]); (n_v'baa'xoo,[0;3;4])] [1;3;4;2]));
  (*3770*) Assign (T 75) (Plain (Einsum [(n_t2'abab,[0;1;2;3]); (T 24,[4;0;5;2])] [4;5;1;3]));
  (*3771*) Assign (T 73) (Plain (Einsum [(n_t2'aaaa,[0;1;2;3]); (T 24,[1;4;5;3])] [0;4;5;2]));
  (*3772*) Assign (T 71) (Plain (Einsum [(T 26,[0;1;2;3]); (n_t2'abab,[1;2;4;3])] [0;4]));
  (*3773*) Assign (T 69) (Plain (Einsum [(n_t2'abab,[0;1;2;3]); (T 68,[0;4;1;2])] [4;3]));
  (*3774*) Assign (T 66) (Plain (Einsum [(T 65,[0;1;2;3]); (n_t2'bbbb,[1;2;4;3])] [0;4]));
  (*3775*) Assign (T 63) (Plain (Einsum [(T 24,[0;1;2;3]); (n_t2'aaaa,[1;2;4;3])] [0;4]));
  (*3776*) Assign (T 56) (Plain (Einsum [(T 46,[0;1;2]); (n_v'baa'xoo,[0;3;4])] [3;4;1;2]));
  (*3777*) Assign (T 53) (Plain (Einsum [(T 42,[0;1;2]); (n_v'baa'xoo,[0;3;4])] [1;3;4;2]));
  (*3778*) Assign (T 47) (Plain (Einsum [(n_v'bbb'xoo,[0;1;2]); (T 46,[0;2;3])] [1;3]));
  (*3779*) Del (T 46);
  (*3780*) Assign (T 43) (Plain (Einsum [(T 42,[0;1;2]); (n_v'baa'xoo,[0;3;1])] [3;2]));
  (*3781*) Del (T 42);
  (*3782*) Assign (T 38) (Plain (Einsum [(T 37,[0;1;2;3]); (n_t1'bb,[3;4])] [1;0;2;4]));
  (*3783*) Assign (T 35) (Plain (Einsum [(T 34,[0;1;2;3]); (n_t1'aa,[1;4])] [3;0;2;4]));
  (*3784*) Assign (T 23) (Plain (Einsum [(T 22,[0;1]); (n_t1'bb,[0;2])] [1;2]));
  (*3785*) Assign (T 20) (Plain (Einsum [(T 2,[0;1]); (n_t1'aa,[0;2])] [1;2]));
  (*3786*) Assign (T 18) (Plain (Einsum [(n_f'aa'ov,[0;1]); (n_t2'abab,[2;3;1;4])] [0;2;3;4]));
  (*3787*) Assign (T 16) (Plain (Einsum [(n_t2'aaaa,[0;1;2;3]); (n_f'aa'ov,[4;3])] [4;0;1;2]));
  (*3788*) Assign (T 14) (Plain (Einsum [(n_f'bb'ov,[0;1]); (n_t2'bbbb,[2;0;3;1])] [2;3]));
  (*3789*) Assign (T 12) (Plain (Einsum [(n_t2'abab,[0;1;2;3]); (n_f'bb'ov,[1;3])] [0;2]));
  (*3790*) Assign (T 11) (Plain (Einsum [(n_t2'abab,[0;1;2;3]); (n_f'aa'ov,[0;2])] [1;3]));
  (*3791*) Assign (T 9) (Plain (Einsum [(n_f'aa'ov,[0;1]); (n_t2'aaaa,[2;0;3;1])] [2;3]));
  (*3792*) Assign (T 8) (Plain (Einsum [(n_f'bb'vv,[0;1]); (n_t1'bb,[2;1])] [2;0]));
  (*3793*) Assign (T 6) (Plain (Einsum [(n_t1'aa,[0;1]); (n_f'aa'vv,[2;1])] [0;2]));
  (*3794*) Assign (T 5) (Plain (Einsum [(n_t1'bb,[0;1]); (n_f'bb'oo,[2;0])] [2;1]));
  (*3795*) Assign (T 3) (Plain (Einsum [(n_f'aa'oo,[0;1]); (n_t1'aa,[1;2])] [0;2]))]
 [(T 2,[4;4]); (T 11,[6;7]); (T 101,[4;5]); (T 103,[6;7]); (T 104,[4;5]); (T 106,[6;7]); (T 109,[4;5]); (T 12,[4;5]); (T 111,[6;7]); (T 113,[4;5]); (T 115,[6;7]); (T 117,[4;5]); (T 119,[6;7]); (T 120,[4;5]); (T 122,[6;7]); (T 124,[4;4;4;5]); (T 126,[4;4;6;7]); (T 128,[4;4;4;5]); (T 130,[4;4;6;7]); (T 14,[6;7]); (T 132,[4;4;4;5]); (T 134,[4;4;6;7]); (T 136,[4;5]); (T 138,[6;6;6;7]); (T 139,[6;7]); (T 141,[4;5]); (T 143,[4;6;6;5]); (T 144,[6;7]); (T 146,[4;4;4;5]); (T 148,[4;4;6;7]); (T 149,[4;4;4;5]); (T 16,[4;4;4;5]); (T 151,[4;4;6;7]); (T 152,[4;4;4;5]); (T 154,[4;4;6;7]); (T 156,[4;4;6;7]); (T 157,[4;5]); (T 159,[6;6]); (T 160,[6;7]); (T 162,[6;6]); (T 163,[6;7]); (T 165,[4;5]); (T 167,[4;4;5;5]); (T 168,[4;4;4;4]); (T 169,[4;4;4;5]); (T 18,[4;4;6;7]); (T 171,[4;6;5;7]); (T 172,[4;4;6;6]); (T 173,[4;4;6;7]); (T 175,[4;4]); (T 176,[4;4]); (T 177,[4;4]); (T 178,[4;5]); (T 180,[4;5]); (T 182,[6;6]); (T 183,[6;7]); (T 184,[6;6]); (T 185,[6;7]); (T 186,[4;5]); (T 188,[6;6]); (T 189,[6;7]); (T 20,[4;5]); (T 191,[4;4;4;5]); (T 193,[4;4;4;5]); (T 196,[4;4;6;7]); (T 198,[4;4;6;7]); (T 200,[4;5]); (T 3,[4;5]); (T 202,[4;5]); (T 205,[6;7]); (T 206,[6;7]); (T 208,[6;7]); (T 210,[4;5]); (T 22,[6;6]); (T 212,[4;4;4;5]); (T 214,[4;4;6;7]); (T 216,[4;5]); (T 218,[4;5]); (T 220,[6;6]); (T 23,[6;7]); (T 221,[6;7]); (T 222,[6;6]); (T 223,[6;7]); (T 224,[4;5]); (T 226,[6;6]); (T 227,[6;7]); (T 229,[4;4;4;5]); (T 24,[4;4;4;5]); (T 232,[4;4;6;7]); (T 240,[4;6;6;5]); (T 242,[6;6;6;7]); (T 247,[6;6;6;6]); (T 248,[6;6;6;7]); (T 250,[4;6;6;5]); (T 26,[4;4;6;7]); (T 256,[6;6;6;7]); (T 258,[4;6;6;5]); (T 265,[4;6;6;5]); (T 266,[6;6;6;7]); (T 268,[4;6;6;5]); (T 269,[6;6;6;7]); (T 271,[4;6;6;5]); (T 272,[4;6;6;5]); (T 274,[6;6;6;7]); (T 29,[4;4]); (T 281,[6;6;6;7]); (T 284,[4;6;6;5]); (T 295,[4;6;6;5]); (T 297,[6;6;6;7]); (T 299,[4;6;6;5]); (T 31,[4;4]); (T 301,[6;6;6;7]); (T 303,[4;6;6;5]); (T 305,[6;6;6;7]); (T 311,[4;6;6;5]); (T 312,[6;6;6;7]); (T 314,[4;6;6;5]); (T 315,[6;6;6;7]); (T 317,[4;6;6;5]); (T 319,[6;6;6;7]); (T 33,[4;4]); (T 321,[4;6;6;5]); (T 326,[6;6;7;7]); (T 327,[6;6;6;6]); (T 328,[6;6;6;7]); (T 330,[4;6;6;5]); (T 34,[4;4;4;4]); (T 336,[6;6;6;7]); (T 338,[6;6;6;7]); (T 340,[4;6;6;5]); (T 35,[4;4;4;5]); (T 341,[4;6;6;5]); (T 345,[6;6;6;7]); (T 347,[4;6;6;5]); (T 353,[6;6;6;7]); (T 355,[4;6;6;5]); (T 359,[4;4;5;5]); (T 37,[4;4;6;6]); (T 363,[4;4;5;5]); (T 365,[4;6;5;7]); (T 38,[4;4;6;7]); (T 389,[5;5]); (T 40,[4;5]); (T 391,[5;5]); (T 5,[6;7]); (T 418,[6;6;5;5]); (T 419,[6;6;5;5]); (T 420,[6;6;7;7]); (T 43,[4;5]); (T 422,[4;6;5;7]); (T 424,[6;6;7;7]); (T 438,[7;7]); (T 440,[7;7]); (T 45,[6;7]); (T 442,[4;4;7;7]); (T 443,[4;4;7;7]); (T 47,[6;7]); (T 48,[6;7]); (T 49,[4;5]); (T 6,[4;5]); (T 51,[4;4;4;5]); (T 53,[4;4;4;5]); (T 55,[4;4;6;7]); (T 56,[4;4;6;7]); (T 57,[2;4;5]); (T 58,[4;4]); (T 60,[2;4;5]); (T 61,[4;4]); (T 63,[4;5]); (T 65,[6;6;6;7]); (T 66,[6;7]); (T 68,[4;6;6;5]); (T 69,[6;7]); (T 8,[6;7]); (T 71,[4;5]); (T 73,[4;4;4;5]); (T 75,[4;4;6;7]); (T 76,[4;4;4;5]); (T 78,[2;6;7]); (T 79,[4;4;6;7]); (T 80,[4;4;6;7]); (T 9,[4;5]); (T 81,[4;4;4;5]); (T 83,[2;6;7]); (T 84,[4;4;6;7]); (T 86,[4;5]); (T 88,[6;7]); (T 90,[6;7]); (T 92,[4;5]); (T 95,[4;4;4;5]); (T 98,[4;4;6;7])].

(** ebcc/codegen/UDFCC2.py:3799-4404 [hbar_lmatvec_ip] *)
Definition UDFCC2_hbar_lmatvec_ip : prog := mkprog
 [(IT 78,[2;6;7]); (n_v'bbb'xov,[2;6;7]); (IT 83,[2;6;7]); (IT 60,[2;4;5]); (n_v'baa'xov,[2;4;5]); (IT 57,[2;4;5]); (n_r2'bbb,[6;6;7]); (n_t2'bbbb,[6;6;7;7]); (n_t2'abab,[4;6;5;7]); (n_r2'aba,[4;6;5]); (n_r2'bab,[6;4;7]); (n_r2'aaa,[4;4;5]); (n_f'bb'oo,[6;6]); (IT 22,[6;6]); (IT 420,[6;6;7;7]); (IT 424,[6;6;7;7]); (IT 159,[6;6]); (IT 162,[6;6]); (IT 58,[4;4]); (IT 61,[4;4]); (n_t2'aaaa,[4;4;5;5]); (n_f'aa'oo,[4;4]); (IT 2,[4;4]); (IT 359,[4;4;5;5]); (IT 363,[4;4;5;5]); (n_t1'bb,[6;7]); (n_f'bb'ov,[6;7]); (n_r1'b,[6]); (IT 65,[6;6;6;7]); (IT 326,[6;6;7;7]); (IT 422,[4;6;5;7]); (n_f'aa'ov,[4;5]); (n_t1'aa,[4;5]); (IT 24,[4;4;4;5]); (n_r1'a,[4]); (IT 167,[4;4;5;5]); (IT 365,[4;6;5;7]); (IT 247,[6;6;6;6]); (IT 327,[6;6;6;6]); (IT 438,[7;7]); (IT 440,[7;7]); (n_f'bb'vv,[7;7]); (IT 442,[4;4;7;7]); (IT 443,[4;4;7;7]); (IT 172,[4;4;6;6]); (IT 37,[4;4;6;6]); (IT 418,[6;6;5;5]); (IT 419,[6;6;5;5]); (IT 389,[5;5]); (IT 391,[5;5]); (n_f'aa'vv,[5;5]); (IT 168,[4;4;4;4]); (IT 34,[4;4;4;4]); (IT 101,[4;5]); (IT 109,[4;5]); (IT 136,[4;5]); (IT 141,[4;5]); (IT 157,[4;5]); (IT 165,[4;5]); (IT 180,[4;5]); (IT 186,[4;5]); (IT 20,[4;5]); (IT 202,[4;5]); (IT 218,[4;5]); (IT 224,[4;5]); (IT 3,[4;5]); (IT 43,[4;5]); (IT 63,[4;5]); (IT 71,[4;5]); (IT 86,[4;5]); (IT 104,[4;5]); (IT 113,[4;5]); (IT 117,[4;5]); (IT 120,[4;5]); (IT 12,[4;5]); (IT 178,[4;5]); (IT 200,[4;5]); (IT 210,[4;5]); (IT 216,[4;5]); (IT 40,[4;5]); (IT 49,[4;5]); (IT 6,[4;5]); (IT 9,[4;5]); (IT 92,[4;5]); (IT 184,[6;6]); (IT 188,[6;6]); (IT 222,[6;6]); (IT 226,[6;6]); (IT 182,[6;6]); (IT 220,[6;6]); (IT 143,[4;6;6;5]); (IT 240,[4;6;6;5]); (IT 258,[4;6;6;5]); (IT 268,[4;6;6;5]); (IT 272,[4;6;6;5]); (IT 284,[4;6;6;5]); (IT 299,[4;6;6;5]); (IT 303,[4;6;6;5]); (IT 311,[4;6;6;5]); (IT 317,[4;6;6;5]); (IT 347,[4;6;6;5]); (IT 68,[4;6;6;5]); (IT 250,[4;6;6;5]); (IT 265,[4;6;6;5]); (IT 271,[4;6;6;5]); (IT 295,[4;6;6;5]); (IT 314,[4;6;6;5]); (IT 321,[4;6;6;5]); (IT 330,[4;6;6;5]); (IT 340,[4;6;6;5]); (IT 341,[4;6;6;5]); (IT 355,[4;6;6;5]); (IT 103,[6;7]); (IT 111,[6;7]); (IT 139,[6;7]); (IT 144,[6;7]); (IT 160,[6;7]); (IT 163,[6;7]); (IT 185,[6;7]); (IT 189,[6;7]); (IT 206,[6;7]); (IT 223,[6;7]); (IT 227,[6;7]); (IT 23,[6;7]); (IT 47,[6;7]); (IT 5,[6;7]); (IT 66,[6;7]); (IT 69,[6;7]); (IT 88,[6;7]); (IT 106,[6;7]); (IT 11,[6;7]); (IT 115,[6;7]); (IT 119,[6;7]); (IT 122,[6;7]); (IT 14,[6;7]); (IT 183,[6;7]); (IT 205,[6;7]); (IT 208,[6;7]); (IT 221,[6;7]); (IT 45,[6;7]); (IT 48,[6;7]); (IT 8,[6;7]); (IT 90,[6;7]); (IT 242,[6;6;6;7]); (IT 248,[6;6;6;7]); (IT 256,[6;6;6;7]); (IT 269,[6;6;6;7]); (IT 274,[6;6;6;7]); (IT 301,[6;6;6;7]); (IT 305,[6;6;6;7]); (IT 315,[6;6;6;7]); (IT 328,[6;6;6;7]); (IT 336,[6;6;6;7]); (IT 353,[6;6;6;7]); (IT 138,[6;6;6;7]); (IT 266,[6;6;6;7]); (IT 281,[6;6;6;7]); (IT 297,[6;6;6;7]); (IT 312,[6;6;6;7]); (IT 319,[6;6;6;7]); (IT 338,[6;6;6;7]); (IT 345,[6;6;6;7]); (IT 176,[4;4]); (IT 177,[4;4]); (IT 31,[4;4]); (IT 33,[4;4]); (IT 175,[4;4]); (IT 29,[4;4]); (IT 128,[4;4;4;5]); (IT 132,[4;4;4;5]); (IT 149,[4;4;4;5]); (IT 16,[4;4;4;5]); (IT 169,[4;4;4;5]); (IT 191,[4;4;4;5]); (IT 229,[4;4;4;5]); (IT 35,[4;4;4;5]); (IT 53,[4;4;4;5]); (IT 76,[4;4;4;5]); (IT 81,[4;4;4;5]); (IT 124,[4;4;4;5]); (IT 146,[4;4;4;5]); (IT 152,[4;4;4;5]); (IT 193,[4;4;4;5]); (IT 212,[4;4;4;5]); (IT 51,[4;4;4;5]); (IT 73,[4;4;4;5]); (IT 95,[4;4;4;5]); (IT 130,[4;4;6;7]); (IT 134,[4;4;6;7]); (IT 148,[4;4;6;7]); (IT 154,[4;4;6;7]); (IT 18,[4;4;6;7]); (IT 214,[4;4;6;7]); (IT 26,[4;4;6;7]); (IT 55,[4;4;6;7]); (IT 56,[4;4;6;7]); (IT 79,[4;4;6;7]); (IT 84,[4;4;6;7]); (IT 98,[4;4;6;7]); (IT 126,[4;4;6;7]); (IT 151,[4;4;6;7]); (IT 156,[4;4;6;7]); (IT 173,[4;4;6;7]); (IT 196,[4;4;6;7]); (IT 198,[4;4;6;7]); (IT 232,[4;4;6;7]); (IT 38,[4;4;6;7]); (IT 75,[4;4;6;7]); (IT 80,[4;4;6;7]); (IT 171,[4;6;5;7])]
 [(*3829*) Assign (T 16) (Plain (Copy (IT 78)));
  (*3830*) AddTo (T 16) (Plain (Copy n_v'bbb'xov));
  (*3831*) AddTo (T 16) (Times (Copy (IT 83)) (2) 1);
  (*3832*) Assign (T 14) (Plain (Copy (IT 60)));
  (*3833*) AddTo (T 14) (Plain (Copy n_v'baa'xov));
  (*3834*) AddTo (T 14) (Times (Copy (IT 57)) (2) 1);
  (*3835*) Assign (T 39) (Plain (Einsum [(n_r2'bbb,[0;1;2]); (n_t2'bbbb,[0;1;3;2])] [3]));
  (*3836*) Assign (T 38) (Plain (Einsum [(n_t2'abab,[0;1;2;3]); (n_r2'aba,[0;1;2])] [3]));
  (*3837*) Assign (T 35) (Times (Copy (IT 57)) (2) 1);
  (*3838*) Del (IT 57);
  (*3839*) AddTo (T 35) (Plain (Copy (IT 60)));
  (*3840*) Del (IT 60);
  (*3841*) AddTo (T 35) (Plain (Copy n_v'baa'xov));
  (*3842*) Assign (T 17) (Times (Einsum [(T 16,[0;1;2]); (n_r2'bab,[1;3;2])] [0;3]) (-1) 1);
  (*3843*) Assign (T 15) (Times (Einsum [(T 14,[0;1;2]); (n_r2'aaa,[3;1;2])] [0;3]) (-1) 1);
  (*3844*) Del (T 14);
  (*3845*) Assign (T 59) (Times (Einsum [(T 16,[0;1;2]); (n_r2'bbb,[3;1;2])] [0;3]) (-1) 1);
  (*3846*) Del (T 16);
  (*3847*) Assign (T 61) (Plain (Copy n_f'bb'oo));
  (*3848*) AddTo (T 61) (Plain (Transpose (IT 22) [1;0]));
  (*3849*) Assign (T 43) (Plain (Copy (IT 420)));
  (*3850*) Del (IT 420);
  (*3851*) AddTo (T 43) (Times (Copy (IT 424)) (2) 1);
  (*3852*) Del (IT 424);
  (*3853*) Assign (T 55) (Times (Copy (IT 159)) (2) 1);
  (*3854*) AddTo (T 55) (Plain (Copy (IT 162)));
  (*3855*) Assign (T 40) (Times (Copy (T 38)) (-1) 2);
  (*3856*) Del (T 38);
  (*3857*) AddTo (T 40) (Plain (Copy (T 39)));
  (*3858*) Del (T 39);
  (*3859*) Assign (T 52) (Plain (Einsum [(T 35,[0;1;2]); (n_r2'aba,[1;3;2])] [0;3]));
  (*3860*) Assign (T 26) (Times (Copy (IT 58)) (2) 1);
  (*3861*) AddTo (T 26) (Plain (Copy (IT 61)));
  (*3862*) Assign (T 24) (Plain (Einsum [(n_t2'aaaa,[0;1;2;3]); (n_r2'aaa,[0;1;3])] [2]));
  (*3863*) Assign (T 18) (Times (Copy (T 15)) (-2) 1);
  (*3864*) Del (T 15);
  (*3865*) AddTo (T 18) (Plain (Copy (T 17)));
  (*3866*) Del (T 17);
  (*3867*) Assign (T 20) (Plain (Copy n_f'aa'oo));
  (*3868*) AddTo (T 20) (Plain (Transpose (IT 2) [1;0]));
  (*3869*) Assign (T 10) (Times (Einsum [(n_t2'abab,[0;1;2;3]); (n_r2'bab,[1;0;3])] [2]) (-1) 1);
  (*3870*) Assign (T 12) (Plain (Copy (IT 359)));
  (*3871*) AddTo (T 12) (Times (Copy (IT 363)) (2) 1);
  (*3872*) Assign (T 60) (Times (Einsum [(T 59,[0;1]); (n_v'bbb'xov,[0;2;3])] [2;1;3]) (-1) 1);
  (*3873*) Del (T 59);
  (*3874*) Assign (T 62) (Times (Einsum [(n_r2'bbb,[0;1;2]); (T 61,[1;3])] [0;3;2]) (-1) 1);
  (*3875*) Del (T 61);
  (*3876*) Assign (T 58) (Times (Einsum [(T 43,[0;1;2;3]); (n_r2'bbb,[4;0;2])] [4;1;3]) (-1) 1);
  (*3877*) Assign (T 47) (Plain (Einsum [(n_t1'bb,[0;1]); (n_f'bb'ov,[0;2])] [2;1]));
  (*3878*) Assign (T 50) (Plain (Einsum [(n_r1'b,[0]); (IT 65,[1;0;2;3])] [1;2;3]));
  (*3879*) Assign (T 56) (Times (Einsum [(T 55,[0;1]); (n_r2'bbb,[2;0;3])] [2;1;3]) (-2) 1);
  (*3880*) Del (T 55);
  (*3881*) Assign (T 54) (Times (Einsum [(T 40,[0]); (IT 326,[1;2;3;0])] [1;2;3]) (2) 1);
  (*3882*) Del (IT 326);
  (*3883*) Assign (T 51) (Plain (Einsum [(IT 422,[0;1;2;3]); (n_r2'aba,[0;4;2])] [1;4;3]));
  (*3884*) Assign (T 53) (Plain (Einsum [(T 52,[0;1]); (n_v'bbb'xov,[0;2;3])] [2;1;3]));
  (*3885*) Del (T 52);
  (*3886*) Assign (T 36) (Times (Copy (IT 78)) (1) 2);
  (*3887*) Del (IT 78);
  (*3888*) AddTo (T 36) (Plain (Copy (IT 83)));
  (*3889*) Del (IT 83);
  (*3890*) AddTo (T 36) (Times (Copy n_v'bbb'xov) (1) 2);
  (*3891*) Assign (T 30) (Plain (Einsum [(n_f'aa'ov,[0;1]); (n_t1'aa,[0;2])] [1;2]));
  (*3892*) Assign (T 27) (Times (Einsum [(n_r2'aaa,[0;1;2]); (T 26,[1;3])] [0;3;2]) (-2) 1);
  (*3893*) Del (T 26);
  (*3894*) Assign (T 23) (Plain (Einsum [(IT 24,[0;1;2;3]); (n_r1'a,[1])] [0;2;3]));
  (*3895*) Assign (T 25) (Plain (Einsum [(IT 167,[0;1;2;3]); (T 24,[3])] [0;1;2]));
  (*3896*) Assign (T 19) (Plain (Einsum [(T 18,[0;1]); (n_v'baa'xov,[0;2;3])] [2;1;3]));
  (*3897*) Del (T 18);
  (*3898*) Assign (T 21) (Times (Einsum [(n_r2'aaa,[0;1;2]); (T 20,[1;3])] [0;3;2]) (-1) 1);
  (*3899*) Del (T 20);
  (*3900*) Assign (T 11) (Plain (Einsum [(T 10,[0]); (IT 167,[1;2;3;0])] [1;2;3]));
  (*3901*) Del (IT 167);
  (*3902*) Assign (T 9) (Times (Einsum [(IT 365,[0;1;2;3]); (n_r2'bab,[1;4;3])] [0;4;2]) (-1) 1);
  (*3903*) Assign (T 13) (Times (Einsum [(n_r2'aaa,[0;1;2]); (T 12,[1;3;2;4])] [0;3;4]) (-1) 1);
  (*3904*) Del (T 12);
  (*3905*) Assign (T 64) (Plain (Copy (IT 247)));
  (*3906*) Del (IT 247);
  (*3907*) AddTo (T 64) (Times (Transpose (IT 327) [2;3;0;1]) (-1) 1);
  (*3908*) Del (IT 327);
  (*3909*) Assign (T 63) (Times (Transpose (T 58) [1;0;2]) (-1) 1);
  (*3910*) Del (T 58);
  (*3911*) AddTo (T 63) (Plain (Transpose (T 60) [1;0;2]));
  (*3912*) Del (T 60);
  (*3913*) AddTo (T 63) (Times (Transpose (T 62) [1;0;2]) (-1) 1);
  (*3914*) Del (T 62);
  (*3915*) Assign (T 48) (Times (Copy (IT 438)) (2) 1);
  (*3916*) Del (IT 438);
  (*3917*) AddTo (T 48) (Plain (Copy (IT 440)));
  (*3918*) Del (IT 440);
  (*3919*) AddTo (T 48) (Times (Copy n_f'bb'vv) (-1) 1);
  (*3920*) AddTo (T 48) (Plain (Transpose (T 47) [1;0]));
  (*3921*) Del (T 47);
  (*3922*) Assign (T 57) (Plain (Einsum [(n_f'bb'ov,[0;1]); (n_r1'b,[2])] [0;2;1]));
  (*3923*) AddTo (T 57) (Plain (Copy (T 50)));
  (*3924*) Del (T 50);
  (*3925*) AddTo (T 57) (Plain (Copy (T 51)));
  (*3926*) Del (T 51);
  (*3927*) AddTo (T 57) (Plain (Transpose (T 53) [1;0;2]));
  (*3928*) Del (T 53);
  (*3929*) AddTo (T 57) (Times (Copy (T 54)) (-1) 1);
  (*3930*) Del (T 54);
  (*3931*) AddTo (T 57) (Plain (Transpose (T 56) [1;0;2]));
  (*3932*) Del (T 56);
  (*3933*) Assign (T 46) (Times (Einsum [(T 35,[0;1;2]); (n_r2'aaa,[3;1;2])] [0;3]) (2) 1);
  (*3934*) AddTo (T 46) (Times (Einsum [(T 36,[0;1;2]); (n_r2'bab,[1;3;2])] [0;3]) (-2) 1);
  (*3935*) Assign (T 44) (Plain (Copy (IT 442)));
  (*3936*) Del (IT 442);
  (*3937*) AddTo (T 44) (Times (Transpose (IT 443) [1;0;2;3]) (-1) 1);
  (*3938*) Del (IT 443);
  (*3939*) Assign (T 41) (Plain (Copy n_f'bb'oo));
  (*3940*) AddTo (T 41) (Times (Copy (IT 159)) (2) 1);
  (*3941*) AddTo (T 41) (Plain (Copy (IT 162)));
  (*3942*) AddTo (T 41) (Plain (Transpose (IT 22) [1;0]));
  (*3943*) Assign (T 45) (Plain (Copy (IT 172)));
  (*3944*) AddTo (T 45) (Plain (Transpose (IT 37) [1;0;2;3]));
  (*3945*) Assign (T 42) (Plain (Copy n_f'aa'oo));
  (*3946*) AddTo (T 42) (Plain (Transpose (IT 2) [1;0]));
  (*3947*) AddTo (T 42) (Times (Copy (IT 58)) (2) 1);
  (*3948*) AddTo (T 42) (Plain (Copy (IT 61)));
  (*3949*) Assign (T 49) (Plain (Copy (T 24)));
  (*3950*) Del (T 24);
  (*3951*) AddTo (T 49) (Times (Copy (T 10)) (1) 2);
  (*3952*) Del (T 10);
  (*3953*) Assign (T 37) (Times (Einsum [(T 35,[0;1;2]); (n_r2'aba,[1;3;2])] [0;3]) (-1) 2);
  (*3954*) Del (T 35);
  (*3955*) AddTo (T 37) (Times (Einsum [(T 36,[0;1;2]); (n_r2'bbb,[3;1;2])] [0;3]) (2) 1);
  (*3956*) Del (T 36);
  (*3957*) Assign (T 33) (Plain (Copy (IT 418)));
  (*3958*) Del (IT 418);
  (*3959*) AddTo (T 33) (Times (Transpose (IT 419) [1;0;2;3]) (-1) 1);
  (*3960*) Del (IT 419);
  (*3961*) Assign (T 31) (Times (Copy (IT 389)) (2) 1);
  (*3962*) Del (IT 389);
  (*3963*) AddTo (T 31) (Plain (Copy (IT 391)));
  (*3964*) Del (IT 391);
  (*3965*) AddTo (T 31) (Times (Copy n_f'aa'vv) (-1) 1);
  (*3966*) AddTo (T 31) (Plain (Transpose (T 30) [1;0]));
  (*3967*) Del (T 30);
  (*3968*) Assign (T 34) (Plain (Copy (IT 172)));
  (*3969*) Del (IT 172);
  (*3970*) AddTo (T 34) (Plain (Transpose (IT 37) [0;1;3;2]));
  (*3971*) Del (IT 37);
  (*3972*) Assign (T 32) (Plain (Copy (IT 359)));
  (*3973*) Del (IT 359);
  (*3974*) AddTo (T 32) (Times (Copy (IT 363)) (2) 1);
  (*3975*) Del (IT 363);
  (*3976*) Assign (T 28) (Times (Einsum [(n_f'aa'ov,[0;1]); (n_r1'a,[2])] [0;2;1]) (-1) 1);
  (*3977*) AddTo (T 28) (Times (Copy (T 23)) (-1) 1);
  (*3978*) Del (T 23);
  (*3979*) AddTo (T 28) (Times (Copy (T 25)) (2) 1);
  (*3980*) Del (T 25);
  (*3981*) AddTo (T 28) (Times (Transpose (T 27) [1;0;2]) (-1) 1);
  (*3982*) Del (T 27);
  (*3983*) Assign (T 22) (Plain (Copy (T 9)));
  (*3984*) Del (T 9);
  (*3985*) AddTo (T 22) (Plain (Copy (T 11)));
  (*3986*) Del (T 11);
  (*3987*) AddTo (T 22) (Times (Transpose (T 13) [1;0;2]) (-2) 1);
  (*3988*) Del (T 13);
  (*3989*) AddTo (T 22) (Plain (Transpose (T 19) [1;0;2]));
  (*3990*) Del (T 19);
  (*3991*) AddTo (T 22) (Times (Transpose (T 21) [1;0;2]) (-2) 1);
  (*3992*) Del (T 21);
  (*3993*) Assign (T 29) (Plain (Copy (IT 168)));
  (*3994*) Del (IT 168);
  (*3995*) AddTo (T 29) (Times (Transpose (IT 34) [2;3;0;1]) (-1) 1);
  (*3996*) Del (IT 34);
  (*3997*) Assign (T 4) (Plain (Copy (IT 101)));
  (*3998*) Del (IT 101);
  (*3999*) AddTo (T 4) (Times (Copy (IT 109)) (1) 2);
  (*4000*) Del (IT 109);
  (*4001*) AddTo (T 4) (Plain (Copy (IT 136)));
  (*4002*) Del (IT 136);
  (*4003*) AddTo (T 4) (Times (Copy (IT 141)) (1) 2);
  (*4004*) Del (IT 141);
  (*4005*) AddTo (T 4) (Plain (Copy (IT 157)));
  (*4006*) Del (IT 157);
  (*4007*) AddTo (T 4) (Times (Copy (IT 165)) (1) 2);
  (*4008*) Del (IT 165);
  (*4009*) AddTo (T 4) (Times (Copy (IT 180)) (1) 2);
  (*4010*) Del (IT 180);
  (*4011*) AddTo (T 4) (Times (Copy (IT 186)) (1) 2);
  (*4012*) Del (IT 186);
  (*4013*) AddTo (T 4) (Times (Copy (IT 20)) (1) 2);
  (*4014*) Del (IT 20);
  (*4015*) AddTo (T 4) (Times (Copy (IT 202)) (1) 2);
  (*4016*) Del (IT 202);
  (*4017*) AddTo (T 4) (Times (Copy (IT 218)) (1) 2);
  (*4018*) Del (IT 218);
  (*4019*) AddTo (T 4) (Times (Copy (IT 224)) (1) 2);
  (*4020*) Del (IT 224);
  (*4021*) AddTo (T 4) (Times (Copy (IT 3)) (1) 2);
  (*4022*) Del (IT 3);
  (*4023*) AddTo (T 4) (Times (Copy (IT 43)) (1) 2);
  (*4024*) Del (IT 43);
  (*4025*) AddTo (T 4) (Plain (Copy (IT 63)));
  (*4026*) Del (IT 63);
  (*4027*) AddTo (T 4) (Times (Copy (IT 71)) (1) 2);
  (*4028*) Del (IT 71);
  (*4029*) AddTo (T 4) (Plain (Copy (IT 86)));
  (*4030*) Del (IT 86);
  (*4031*) AddTo (T 4) (Times (Copy n_f'aa'ov) (-1) 2);
  (*4032*) AddTo (T 4) (Times (Copy (IT 104)) (-1) 1);
  (*4033*) Del (IT 104);
  (*4034*) AddTo (T 4) (Times (Copy (IT 113)) (-1) 2);
  (*4035*) Del (IT 113);
  (*4036*) AddTo (T 4) (Times (Copy (IT 117)) (-1) 1);
  (*4037*) Del (IT 117);
  (*4038*) AddTo (T 4) (Times (Copy (IT 120)) (-1) 2);
  (*4039*) Del (IT 120);
  (*4040*) AddTo (T 4) (Times (Copy (IT 12)) (-1) 2);
  (*4041*) Del (IT 12);
  (*4042*) AddTo (T 4) (Times (Copy (IT 178)) (-1) 2);
  (*4043*) Del (IT 178);
  (*4044*) AddTo (T 4) (Times (Copy (IT 200)) (-1) 2);
  (*4045*) Del (IT 200);
  (*4046*) AddTo (T 4) (Times (Copy (IT 210)) (-1) 2);
  (*4047*) Del (IT 210);
  (*4048*) AddTo (T 4) (Times (Copy (IT 216)) (-1) 2);
  (*4049*) Del (IT 216);
  (*4050*) AddTo (T 4) (Times (Copy (IT 40)) (-1) 2);
  (*4051*) Del (IT 40);
  (*4052*) AddTo (T 4) (Times (Copy (IT 49)) (-1) 2);
  (*4053*) Del (IT 49);
  (*4054*) AddTo (T 4) (Times (Copy (IT 6)) (-1) 2);
  (*4055*) Del (IT 6);
  (*4056*) AddTo (T 4) (Times (Copy (IT 9)) (-1) 1);
  (*4057*) Del (IT 9);
  (*4058*) AddTo (T 4) (Times (Copy (IT 92)) (-1) 2);
  (*4059*) Del (IT 92);
  (*4060*) Assign (T 8) (Plain (Copy n_f'bb'oo));
  (*4061*) AddTo (T 8) (Times (Copy (IT 159)) (2) 1);
  (*4062*) Del (IT 159);
  (*4063*) AddTo (T 8) (Plain (Copy (IT 162)));
  (*4064*) Del (IT 162);
  (*4065*) AddTo (T 8) (Plain (Transpose (IT 184) [1;0]));
  (*4066*) Del (IT 184);
  (*4067*) AddTo (T 8) (Plain (Transpose (IT 188) [1;0]));
  (*4068*) Del (IT 188);
  (*4069*) AddTo (T 8) (Plain (Transpose (IT 22) [1;0]));
  (*4070*) Del (IT 22);
  (*4071*) AddTo (T 8) (Plain (Copy (IT 222)));
  (*4072*) Del (IT 222);
  (*4073*) AddTo (T 8) (Plain (Copy (IT 226)));
  (*4074*) Del (IT 226);
  (*4075*) AddTo (T 8) (Times (Copy (IT 182)) (-1) 1);
  (*4076*) Del (IT 182);
  (*4077*) AddTo (T 8) (Times (Copy (IT 220)) (-1) 1);
  (*4078*) Del (IT 220);
  (*4079*) Assign (T 6) (Plain (Copy (IT 143)));
  (*4080*) Del (IT 143);
  (*4081*) AddTo (T 6) (Plain (Transpose (IT 240) [0;2;1;3]));
  (*4082*) Del (IT 240);
  (*4083*) AddTo (T 6) (Plain (Transpose (IT 258) [0;2;1;3]));
  (*4084*) Del (IT 258);
  (*4085*) AddTo (T 6) (Plain (Copy (IT 268)));
  (*4086*) Del (IT 268);
  (*4087*) AddTo (T 6) (Times (Copy (IT 272)) (2) 1);
  (*4088*) Del (IT 272);
  (*4089*) AddTo (T 6) (Plain (Copy (IT 284)));
  (*4090*) Del (IT 284);
  (*4091*) AddTo (T 6) (Plain (Copy (IT 299)));
  (*4092*) Del (IT 299);
  (*4093*) AddTo (T 6) (Plain (Copy (IT 303)));
  (*4094*) Del (IT 303);
  (*4095*) AddTo (T 6) (Plain (Copy (IT 311)));
  (*4096*) Del (IT 311);
  (*4097*) AddTo (T 6) (Times (Copy (IT 317)) (2) 1);
  (*4098*) Del (IT 317);
  (*4099*) AddTo (T 6) (Plain (Copy (IT 347)));
  (*4100*) Del (IT 347);
  (*4101*) AddTo (T 6) (Plain (Transpose (IT 68) [0;2;1;3]));
  (*4102*) AddTo (T 6) (Times (Transpose (IT 250) [0;2;1;3]) (-1) 1);
  (*4103*) Del (IT 250);
  (*4104*) AddTo (T 6) (Times (Copy (IT 265)) (-1) 1);
  (*4105*) Del (IT 265);
  (*4106*) AddTo (T 6) (Times (Copy (IT 271)) (-1) 1);
  (*4107*) Del (IT 271);
  (*4108*) AddTo (T 6) (Times (Copy (IT 295)) (-1) 1);
  (*4109*) Del (IT 295);
  (*4110*) AddTo (T 6) (Times (Copy (IT 314)) (-1) 1);
  (*4111*) Del (IT 314);
  (*4112*) AddTo (T 6) (Times (Copy (IT 321)) (-1) 1);
  (*4113*) Del (IT 321);
  (*4114*) AddTo (T 6) (Times (Copy (IT 330)) (-1) 1);
  (*4115*) Del (IT 330);
  (*4116*) AddTo (T 6) (Times (Copy (IT 340)) (-1) 1);
  (*4117*) Del (IT 340);
  (*4118*) AddTo (T 6) (Times (Transpose (IT 341) [0;2;1;3]) (-1) 1);
  (*4119*) Del (IT 341);
  (*4120*) AddTo (T 6) (Times (Copy (IT 355)) (-1) 1);
  (*4121*) Del (IT 355);
  (*4122*) Assign (T 3) (Times (Copy (IT 103)) (1) 2);
  (*4123*) Del (IT 103);
  (*4124*) AddTo (T 3) (Plain (Copy (IT 111)));
  (*4125*) Del (IT 111);
  (*4126*) AddTo (T 3) (Plain (Copy (IT 139)));
  (*4127*) Del (IT 139);
  (*4128*) AddTo (T 3) (Times (Copy (IT 144)) (1) 2);
  (*4129*) Del (IT 144);
  (*4130*) AddTo (T 3) (Plain (Copy (IT 160)));
  (*4131*) Del (IT 160);
  (*4132*) AddTo (T 3) (Times (Copy (IT 163)) (1) 2);
  (*4133*) Del (IT 163);
  (*4134*) AddTo (T 3) (Times (Copy (IT 185)) (1) 2);
  (*4135*) Del (IT 185);
  (*4136*) AddTo (T 3) (Times (Copy (IT 189)) (1) 2);
  (*4137*) Del (IT 189);
  (*4138*) AddTo (T 3) (Times (Copy (IT 206)) (1) 2);
  (*4139*) Del (IT 206);
  (*4140*) AddTo (T 3) (Times (Copy (IT 223)) (1) 2);
  (*4141*) Del (IT 223);
  (*4142*) AddTo (T 3) (Times (Copy (IT 227)) (1) 2);
  (*4143*) Del (IT 227);
  (*4144*) AddTo (T 3) (Times (Copy (IT 23)) (1) 2);
  (*4145*) Del (IT 23);
  (*4146*) AddTo (T 3) (Times (Copy (IT 47)) (1) 2);
  (*4147*) Del (IT 47);
  (*4148*) AddTo (T 3) (Times (Copy (IT 5)) (1) 2);
  (*4149*) Del (IT 5);
  (*4150*) AddTo (T 3) (Plain (Copy (IT 66)));
  (*4151*) Del (IT 66);
  (*4152*) AddTo (T 3) (Times (Copy (IT 69)) (1) 2);
  (*4153*) Del (IT 69);
  (*4154*) AddTo (T 3) (Plain (Copy (IT 88)));
  (*4155*) Del (IT 88);
  (*4156*) AddTo (T 3) (Times (Copy n_f'bb'ov) (-1) 2);
  (*4157*) AddTo (T 3) (Times (Copy (IT 106)) (-1) 2);
  (*4158*) Del (IT 106);
  (*4159*) AddTo (T 3) (Times (Copy (IT 11)) (-1) 2);
  (*4160*) Del (IT 11);
  (*4161*) AddTo (T 3) (Times (Copy (IT 115)) (-1) 1);
  (*4162*) Del (IT 115);
  (*4163*) AddTo (T 3) (Times (Copy (IT 119)) (-1) 2);
  (*4164*) Del (IT 119);
  (*4165*) AddTo (T 3) (Times (Copy (IT 122)) (-1) 1);
  (*4166*) Del (IT 122);
  (*4167*) AddTo (T 3) (Times (Copy (IT 14)) (-1) 1);
  (*4168*) Del (IT 14);
  (*4169*) AddTo (T 3) (Times (Copy (IT 183)) (-1) 2);
  (*4170*) Del (IT 183);
  (*4171*) AddTo (T 3) (Times (Copy (IT 205)) (-1) 2);
  (*4172*) Del (IT 205);
  (*4173*) AddTo (T 3) (Times (Copy (IT 208)) (-1) 2);
  (*4174*) Del (IT 208);
  (*4175*) AddTo (T 3) (Times (Copy (IT 221)) (-1) 2);
  (*4176*) Del (IT 221);
  (*4177*) AddTo (T 3) (Times (Copy (IT 45)) (-1) 2);
  (*4178*) Del (IT 45);
  (*4179*) AddTo (T 3) (Times (Copy (IT 48)) (-1) 2);
  (*4180*) Del (IT 48);
  (*4181*) AddTo (T 3) (Times (Copy (IT 8)) (-1) 2);
  (*4182*) Del (IT 8);
  (*4183*) AddTo (T 3) (Times (Copy (IT 90)) (-1) 2);
  (*4184*) Del (IT 90);
  (*4185*) Assign (T 7) (Plain (Transpose (IT 242) [1;2;0;3]));
  (*4186*) Del (IT 242);
  (*4187*) AddTo (T 7) (Plain (Transpose (IT 248) [0;2;1;3]));
  (*4188*) Del (IT 248);
  (*4189*) AddTo (T 7) (Plain (Transpose (IT 256) [0;2;1;3]));
  (*4190*) Del (IT 256);
  (*4191*) AddTo (T 7) (Times (Copy (IT 269)) (2) 1);
  (*4192*) Del (IT 269);
  (*4193*) AddTo (T 7) (Plain (Copy (IT 274)));
  (*4194*) Del (IT 274);
  (*4195*) AddTo (T 7) (Plain (Copy (IT 301)));
  (*4196*) Del (IT 301);
  (*4197*) AddTo (T 7) (Plain (Copy (IT 305)));
  (*4198*) Del (IT 305);
  (*4199*) AddTo (T 7) (Times (Copy (IT 315)) (2) 1);
  (*4200*) Del (IT 315);
  (*4201*) AddTo (T 7) (Plain (Copy (IT 328)));
  (*4202*) Del (IT 328);
  (*4203*) AddTo (T 7) (Plain (Copy (IT 336)));
  (*4204*) Del (IT 336);
  (*4205*) AddTo (T 7) (Plain (Copy (IT 353)));
  (*4206*) Del (IT 353);
  (*4207*) AddTo (T 7) (Times (Copy (IT 138)) (-1) 1);
  (*4208*) Del (IT 138);
  (*4209*) AddTo (T 7) (Times (Copy (IT 266)) (-2) 1);
  (*4210*) Del (IT 266);
  (*4211*) AddTo (T 7) (Times (Copy (IT 281)) (-1) 1);
  (*4212*) Del (IT 281);
  (*4213*) AddTo (T 7) (Times (Copy (IT 297)) (-1) 1);
  (*4214*) Del (IT 297);
  (*4215*) AddTo (T 7) (Times (Copy (IT 312)) (-2) 1);
  (*4216*) Del (IT 312);
  (*4217*) AddTo (T 7) (Times (Copy (IT 319)) (-1) 1);
  (*4218*) Del (IT 319);
  (*4219*) AddTo (T 7) (Times (Transpose (IT 338) [0;2;1;3]) (-1) 1);
  (*4220*) Del (IT 338);
  (*4221*) AddTo (T 7) (Times (Copy (IT 345)) (-1) 1);
  (*4222*) Del (IT 345);
  (*4223*) AddTo (T 7) (Times (Transpose (IT 65) [1;2;0;3]) (-1) 1);
  (*4224*) Del (IT 65);
  (*4225*) Assign (T 5) (Plain (Copy n_f'aa'oo));
  (*4226*) AddTo (T 5) (Plain (Copy (IT 176)));
  (*4227*) Del (IT 176);
  (*4228*) AddTo (T 5) (Plain (Copy (IT 177)));
  (*4229*) Del (IT 177);
  (*4230*) AddTo (T 5) (Plain (Transpose (IT 2) [1;0]));
  (*4231*) Del (IT 2);
  (*4232*) AddTo (T 5) (Plain (Transpose (IT 31) [1;0]));
  (*4233*) Del (IT 31);
  (*4234*) AddTo (T 5) (Plain (Transpose (IT 33) [1;0]));
  (*4235*) Del (IT 33);
  (*4236*) AddTo (T 5) (Times (Copy (IT 58)) (2) 1);
  (*4237*) Del (IT 58);
  (*4238*) AddTo (T 5) (Plain (Copy (IT 61)));
  (*4239*) Del (IT 61);
  (*4240*) AddTo (T 5) (Times (Copy (IT 175)) (-1) 1);
  (*4241*) Del (IT 175);
  (*4242*) AddTo (T 5) (Times (Copy (IT 29)) (-1) 1);
  (*4243*) Del (IT 29);
  (*4244*) Assign (T 2) (Plain (Copy (IT 128)));
  (*4245*) Del (IT 128);
  (*4246*) AddTo (T 2) (Plain (Copy (IT 132)));
  (*4247*) Del (IT 132);
  (*4248*) AddTo (T 2) (Times (Copy (IT 149)) (2) 1);
  (*4249*) Del (IT 149);
  (*4250*) AddTo (T 2) (Plain (Transpose (IT 16) [1;2;0;3]));
  (*4251*) Del (IT 16);
  (*4252*) AddTo (T 2) (Plain (Copy (IT 169)));
  (*4253*) Del (IT 169);
  (*4254*) AddTo (T 2) (Plain (Copy (IT 191)));
  (*4255*) Del (IT 191);
  (*4256*) AddTo (T 2) (Plain (Copy (IT 229)));
  (*4257*) Del (IT 229);
  (*4258*) AddTo (T 2) (Plain (Transpose (IT 35) [0;2;1;3]));
  (*4259*) Del (IT 35);
  (*4260*) AddTo (T 2) (Plain (Transpose (IT 53) [0;2;1;3]));
  (*4261*) Del (IT 53);
  (*4262*) AddTo (T 2) (Times (Copy (IT 76)) (2) 1);
  (*4263*) Del (IT 76);
  (*4264*) AddTo (T 2) (Plain (Copy (IT 81)));
  (*4265*) Del (IT 81);
  (*4266*) AddTo (T 2) (Times (Copy (IT 124)) (-1) 1);
  (*4267*) Del (IT 124);
  (*4268*) AddTo (T 2) (Times (Copy (IT 146)) (-2) 1);
  (*4269*) Del (IT 146);
  (*4270*) AddTo (T 2) (Times (Copy (IT 152)) (-1) 1);
  (*4271*) Del (IT 152);
  (*4272*) AddTo (T 2) (Times (Transpose (IT 193) [0;2;1;3]) (-1) 1);
  (*4273*) Del (IT 193);
  (*4274*) AddTo (T 2) (Times (Copy (IT 212)) (-1) 1);
  (*4275*) Del (IT 212);
  (*4276*) AddTo (T 2) (Times (Transpose (IT 24) [1;2;0;3]) (-1) 1);
  (*4277*) Del (IT 24);
  (*4278*) AddTo (T 2) (Times (Copy (IT 51)) (-1) 1);
  (*4279*) Del (IT 51);
  (*4280*) AddTo (T 2) (Times (Copy (IT 73)) (-2) 1);
  (*4281*) Del (IT 73);
  (*4282*) AddTo (T 2) (Times (Copy (IT 95)) (-1) 1);
  (*4283*) Del (IT 95);
  (*4284*) Assign (T 1) (Plain (Copy (IT 130)));
  (*4285*) Del (IT 130);
  (*4286*) AddTo (T 1) (Plain (Copy (IT 134)));
  (*4287*) Del (IT 134);
  (*4288*) AddTo (T 1) (Plain (Copy (IT 148)));
  (*4289*) Del (IT 148);
  (*4290*) AddTo (T 1) (Times (Copy (IT 154)) (2) 1);
  (*4291*) Del (IT 154);
  (*4292*) AddTo (T 1) (Plain (Transpose (IT 18) [1;0;2;3]));
  (*4293*) Del (IT 18);
  (*4294*) AddTo (T 1) (Plain (Copy (IT 214)));
  (*4295*) Del (IT 214);
  (*4296*) AddTo (T 1) (Plain (Transpose (IT 26) [1;0;2;3]));
  (*4297*) AddTo (T 1) (Plain (Copy (IT 55)));
  (*4298*) Del (IT 55);
  (*4299*) AddTo (T 1) (Plain (Transpose (IT 56) [1;0;2;3]));
  (*4300*) Del (IT 56);
  (*4301*) AddTo (T 1) (Plain (Copy (IT 79)));
  (*4302*) Del (IT 79);
  (*4303*) AddTo (T 1) (Times (Copy (IT 84)) (2) 1);
  (*4304*) Del (IT 84);
  (*4305*) AddTo (T 1) (Plain (Copy (IT 98)));
  (*4306*) Del (IT 98);
  (*4307*) AddTo (T 1) (Times (Copy (IT 126)) (-1) 1);
  (*4308*) Del (IT 126);
  (*4309*) AddTo (T 1) (Times (Copy (IT 151)) (-1) 1);
  (*4310*) Del (IT 151);
  (*4311*) AddTo (T 1) (Times (Copy (IT 156)) (-1) 1);
  (*4312*) Del (IT 156);
  (*4313*) AddTo (T 1) (Times (Copy (IT 173)) (-1) 1);
  (*4314*) Del (IT 173);
  (*4315*) AddTo (T 1) (Times (Copy (IT 196)) (-1) 1);
  (*4316*) Del (IT 196);
  (*4317*) AddTo (T 1) (Times (Transpose (IT 198) [1;0;2;3]) (-1) 1);
  (*4318*) Del (IT 198);
  (*4319*) AddTo (T 1) (Times (Copy (IT 232)) (-1) 1);
  (*4320*) Del (IT 232);
  (*4321*) AddTo (T 1) (Times (Copy (IT 38)) (-1) 1);
  (*4322*) Del (IT 38);
  (*4323*) AddTo (T 1) (Times (Copy (IT 75)) (-1) 1);
  (*4324*) Del (IT 75);
  (*4325*) AddTo (T 1) (Times (Copy (IT 80)) (-1) 1);
  (*4326*) Del (IT 80);
  (*4327*) Assign n_r2new'bbb (Times (Copy (T 57)) (-1) 1);
  (*4328*) AddTo n_r2new'bbb (Plain (Transpose (T 57) [1;0;2]));
  (*4329*) Del (T 57);
  (*4330*) AddTo n_r2new'bbb (Times (Copy (T 63)) (2) 1);
  (*4331*) AddTo n_r2new'bbb (Times (Transpose (T 63) [1;0;2]) (-2) 1);
  (*4332*) Del (T 63);
  (*4333*) AddTo n_r2new'bbb (Times (Einsum [(n_r2'bbb,[0;1;2]); (T 64,[3;4;1;0])] [3;4;2]) (2) 1);
  (*4334*) Del (T 64);
  (*4335*) AddTo n_r2new'bbb (Times (Einsum [(n_r2'bbb,[0;1;2]); (T 48,[2;3])] [0;1;3]) (-2) 1);
  (*4336*) Assign n_r2new'bab (Times (Einsum [(n_r1'a,[0]); (n_f'bb'ov,[1;2])] [1;0;2]) (-1) 1);
  (*4337*) AddTo n_r2new'bab (Plain (Einsum [(IT 26,[0;1;2;3]); (n_r1'a,[1])] [2;0;3]));
  (*4338*) Del (IT 26);
  (*4339*) AddTo n_r2new'bab (Times (Einsum [(n_r2'aaa,[0;1;2]); (IT 422,[1;3;2;4])] [3;0;4]) (2) 1);
  (*4340*) Del (IT 422);
  (*4341*) AddTo n_r2new'bab (Times (Einsum [(n_r2'bab,[0;1;2]); (T 43,[0;3;2;4])] [3;1;4]) (-1) 1);
  (*4342*) Del (T 43);
  (*4343*) AddTo n_r2new'bab (Times (Einsum [(n_r2'bab,[0;1;2]); (T 44,[3;1;2;4])] [0;3;4]) (-1) 1);
  (*4344*) Del (T 44);
  (*4345*) AddTo n_r2new'bab (Plain (Einsum [(n_r2'bab,[0;1;2]); (T 45,[1;3;0;4])] [4;3;2]));
  (*4346*) Del (T 45);
  (*4347*) AddTo n_r2new'bab (Times (Einsum [(T 46,[0;1]); (n_v'bbb'xov,[0;2;3])] [2;1;3]) (-1) 1);
  (*4348*) Del (T 46);
  (*4349*) AddTo n_r2new'bab (Times (Einsum [(n_r2'bab,[0;1;2]); (T 48,[2;3])] [0;1;3]) (-1) 1);
  (*4350*) Del (T 48);
  (*4351*) AddTo n_r2new'bab (Times (Einsum [(T 49,[0]); (IT 171,[1;2;0;3])] [2;1;3]) (2) 1);
  (*4352*) Del (T 49);
  (*4353*) AddTo n_r2new'bab (Times (Einsum [(n_r2'bab,[0;1;2]); (T 41,[0;3])] [3;1;2]) (-1) 1);
  (*4354*) AddTo n_r2new'bab (Times (Einsum [(T 42,[0;1]); (n_r2'bab,[2;0;3])] [2;1;3]) (-1) 1);
  (*4355*) Assign n_r2new'aba (Times (Einsum [(n_f'aa'ov,[0;1]); (n_r1'b,[2])] [0;2;1]) (-1) 1);
  (*4356*) AddTo n_r2new'aba (Plain (Einsum [(IT 68,[0;1;2;3]); (n_r1'b,[2])] [0;1;3]));
  (*4357*) Del (IT 68);
  (*4358*) AddTo n_r2new'aba (Times (Einsum [(n_r2'bbb,[0;1;2]); (IT 365,[3;1;4;2])] [3;0;4]) (2) 1);
  (*4359*) Del (IT 365);
  (*4360*) AddTo n_r2new'aba (Times (Einsum [(T 32,[0;1;2;3]); (n_r2'aba,[0;4;2])] [1;4;3]) (-1) 1);
  (*4361*) Del (T 32);
  (*4362*) AddTo n_r2new'aba (Times (Einsum [(n_r2'aba,[0;1;2]); (T 33,[3;1;2;4])] [0;3;4]) (-1) 1);
  (*4363*) Del (T 33);
  (*4364*) AddTo n_r2new'aba (Plain (Einsum [(T 34,[0;1;2;3]); (n_r2'aba,[0;2;4])] [1;3;4]));
  (*4365*) Del (T 34);
  (*4366*) AddTo n_r2new'aba (Times (Einsum [(n_v'baa'xov,[0;1;2]); (T 37,[0;3])] [1;3;2]) (-2) 1);
  (*4367*) Del (T 37);
  (*4368*) AddTo n_r2new'aba (Times (Einsum [(T 31,[0;1]); (n_r2'aba,[2;3;0])] [2;3;1]) (-1) 1);
  (*4369*) AddTo n_r2new'aba (Times (Einsum [(T 40,[0]); (IT 171,[1;2;3;0])] [1;2;3]) (2) 1);
  (*4370*) Del (T 40);
  (*4370*) Del (IT 171);
  (*4371*) AddTo n_r2new'aba (Times (Einsum [(n_r2'aba,[0;1;2]); (T 41,[1;3])] [0;3;2]) (-1) 1);
  (*4372*) Del (T 41);
  (*4373*) AddTo n_r2new'aba (Times (Einsum [(T 42,[0;1]); (n_r2'aba,[0;2;3])] [1;2;3]) (-1) 1);
  (*4374*) Del (T 42);
  (*4375*) Assign n_r2new'aaa (Plain (Copy (T 22)));
  (*4376*) AddTo n_r2new'aaa (Times (Transpose (T 22) [1;0;2]) (-1) 1);
  (*4377*) Del (T 22);
  (*4378*) AddTo n_r2new'aaa (Plain (Copy (T 28)));
  (*4379*) AddTo n_r2new'aaa (Times (Transpose (T 28) [1;0;2]) (-1) 1);
  (*4380*) Del (T 28);
  (*4381*) AddTo n_r2new'aaa (Times (Einsum [(n_r2'aaa,[0;1;2]); (T 29,[0;1;3;4])] [3;4;2]) (2) 1);
  (*4382*) Del (T 29);
  (*4383*) AddTo n_r2new'aaa (Times (Einsum [(T 31,[0;1]); (n_r2'aaa,[2;3;0])] [2;3;1]) (-2) 1);
  (*4384*) Del (T 31);
  (*4385*) Assign n_r1new'b (Plain (Einsum [(n_r2'aba,[0;1;2]); (T 6,[0;1;3;2])] [3]));
  (*4386*) Del (T 6);
  (*4387*) AddTo n_r1new'b (Times (Einsum [(T 7,[0;1;2;3]); (n_r2'bbb,[0;1;3])] [2]) (2) 1);
  (*4388*) Del (T 7);
  (*4389*) AddTo n_r1new'b (Times (Einsum [(T 4,[0;1]); (n_r2'aba,[0;2;1])] [2]) (2) 1);
  (*4390*) AddTo n_r1new'b (Times (Einsum [(n_r2'bbb,[0;1;2]); (T 3,[1;2])] [0]) (-4) 1);
  (*4391*) AddTo n_r1new'b (Times (Einsum [(T 8,[0;1]); (n_r1'b,[0])] [1]) (-1) 1);
  (*4392*) Del (T 8);
  (*4393*) Assign n_r1new'a (Plain (Einsum [(n_r2'bab,[0;1;2]); (T 1,[1;3;0;2])] [3]));
  (*4394*) Del (T 1);
  (*4395*) AddTo n_r1new'a (Times (Einsum [(T 2,[0;1;2;3]); (n_r2'aaa,[0;1;3])] [2]) (2) 1);
  (*4396*) Del (T 2);
  (*4397*) AddTo n_r1new'a (Times (Einsum [(T 3,[0;1]); (n_r2'bab,[0;2;1])] [2]) (2) 1);
  (*4398*) Del (T 3);
  (*4399*) AddTo n_r1new'a (Times (Einsum [(T 4,[0;1]); (n_r2'aaa,[2;0;1])] [2]) (-4) 1);
  (*4400*) Del (T 4);
  (*4401*) AddTo n_r1new'a (Times (Einsum [(n_r1'a,[0]); (T 5,[0;1])] [1]) (-1) 1);
  (*4402*) Del (T 5)]
 [(n_r1new'b,[6]); (n_r1new'a,[4]); (n_r2new'bbb,[6;6;7]); (n_r2new'bab,[6;4;7]); (n_r2new'aba,[4;6;5]); (n_r2new'aaa,[4;4;5])].

(** ebcc/codegen/UDFCC2.py:4406-4770 [hbar_lmatvec_ea_intermediates] *)
Definition UDFCC2_hbar_lmatvec_ea_intermediates : prog := mkprog
 [(n_v'baa'xov,[2;4;5]); (n_t1'aa,[4;5]); (n_t1'bb,[6;7]); (n_v'bbb'xov,[2;6;7]); (n_t2'abab,[4;6;5;7]); (n_t2'bbbb,[6;6;7;7]); (n_t2'aaaa,[4;4;5;5]); (n_v'baa'xvv,[2;5;5]); (n_v'bbb'xvv,[2;7;7]); (n_v'baa'xoo,[2;4;4]); (n_v'bbb'xoo,[2;6;6]); (n_f'bb'ov,[6;7]); (n_f'aa'ov,[4;5]); (n_f'bb'vv,[7;7]); (n_f'aa'vv,[5;5]); (n_f'bb'oo,[6;6]); (n_f'aa'oo,[4;4])]
 [(*4579*) Assign (T 29) (Plain (Einsum [(n_v'baa'xov,[0;1;2]); (n_t1'aa,[1;2])] [0]));
  (*4580*) Assign (T 33) (Plain (Einsum [(n_t1'bb,[0;1]); (n_v'bbb'xov,[2;0;1])] [2]));
  (*4581*) Assign (T 110) (Plain (Einsum [(n_t1'bb,[0;1]); (n_v'bbb'xov,[2;3;1])] [2;0;3]));
  (*4582*) Assign (T 102) (Plain (Einsum [(n_t1'aa,[0;1]); (n_v'baa'xov,[2;3;1])] [2;0;3]));
  (*4583*) Assign (T 42) (Plain (Einsum [(n_v'bbb'xov,[0;1;2]); (T 29,[0])] [1;2]));
  (*4584*) Assign (T 43) (Plain (Einsum [(n_v'baa'xov,[0;1;2]); (T 33,[0])] [1;2]));
  (*4585*) Assign (T 39) (Plain (Einsum [(n_v'bbb'xov,[0;1;2]); (T 33,[0])] [1;2]));
  (*4586*) Assign (T 111) (Plain (Einsum [(T 110,[0;1;2]); (n_v'bbb'xov,[0;1;3])] [2;3]));
  (*4587*) Assign (T 35) (Plain (Einsum [(n_v'baa'xov,[0;1;2]); (T 29,[0])] [1;2]));
  (*4588*) Assign (T 103) (Plain (Einsum [(T 102,[0;1;2]); (n_v'baa'xov,[0;1;3])] [2;3]));
  (*4589*) Assign (T 61) (Plain (Einsum [(n_t2'abab,[0;1;2;3]); (n_v'bbb'xov,[4;1;3])] [4;0;2]));
  (*4590*) Assign (T 85) (Plain (Einsum [(n_t2'abab,[0;1;2;3]); (n_v'baa'xov,[4;0;2])] [4;1;3]));
  (*4591*) Assign (T 82) (Plain (Einsum [(n_v'bbb'xov,[0;1;2]); (n_t2'bbbb,[3;1;4;2])] [0;3;4]));
  (*4592*) Assign (T 58) (Plain (Einsum [(n_v'baa'xov,[0;1;2]); (n_t2'aaaa,[3;1;4;2])] [0;3;4]));
  (*4593*) Assign (T 31) (Plain (Einsum [(n_v'baa'xvv,[0;1;2]); (n_t1'aa,[3;2])] [0;3;1]));
  (*4594*) Assign (T 40) (Plain (Einsum [(n_t1'bb,[0;1]); (n_v'bbb'xvv,[2;3;1])] [2;0;3]));
  (*4595*) Assign (T 50) (Plain (Einsum [(n_v'baa'xov,[0;1;2]); (n_v'bbb'xov,[0;3;4])] [1;3;2;4]));
  (*4596*) Assign (T 244) (Plain (Einsum [(n_v'bbb'xov,[0;1;2]); (n_v'bbb'xov,[0;3;4])] [3;1;4;2]));
  (*4597*) Assign (T 139) (Plain (Einsum [(T 102,[0;1;2]); (n_v'bbb'xov,[0;3;4])] [1;2;3;4]));
  (*4598*) Assign (T 136) (Plain (Einsum [(T 110,[0;1;2]); (n_v'bbb'xov,[0;3;4])] [1;3;2;4]));
  (*4599*) Assign (T 27) (Plain (Einsum [(n_v'baa'xvv,[0;1;2]); (n_v'bbb'xov,[0;3;4])] [3;1;2;4]));
  (*4600*) Assign (T 237) (Plain (Einsum [(n_v'bbb'xov,[0;1;2]); (n_v'bbb'xvv,[0;3;4])] [1;3;4;2]));
  (*4601*) Assign (T 73) (Plain (Einsum [(n_v'bbb'xov,[0;1;2]); (n_v'baa'xoo,[0;3;4])] [3;4;1;2]));
  (*4602*) Assign (T 67) (Plain (Einsum [(n_v'bbb'xoo,[0;1;2]); (n_v'bbb'xov,[0;3;4])] [1;2;3;4]));
  (*4603*) Assign (T 221) (Plain (Einsum [(n_t1'bb,[0;1]); (T 42,[2;1])] [0;2]));
  (*4604*) Assign (T 218) (Plain (Einsum [(n_t1'aa,[0;1]); (T 43,[2;1])] [0;2]));
  (*4605*) Assign (T 216) (Plain (Einsum [(n_t1'bb,[0;1]); (T 39,[2;1])] [0;2]));
  (*4606*) Assign (T 214) (Plain (Einsum [(n_t1'bb,[0;1]); (T 111,[2;1])] [0;2]));
  (*4607*) Assign (T 211) (Plain (Einsum [(n_t1'aa,[0;1]); (T 35,[2;1])] [0;2]));
  (*4608*) Assign (T 208) (Plain (Einsum [(n_t1'aa,[0;1]); (T 103,[2;1])] [0;2]));
  (*4609*) Assign (T 34) (Plain (Einsum [(n_v'baa'xvv,[0;1;2]); (T 33,[0])] [1;2]));
  (*4610*) Assign (T 198) (Plain (Einsum [(T 29,[0]); (n_v'bbb'xvv,[0;1;2])] [1;2]));
  (*4611*) Assign (T 195) (Plain (Einsum [(n_v'bbb'xvv,[0;1;2]); (T 33,[0])] [1;2]));
  (*4612*) Assign (T 30) (Plain (Einsum [(n_v'baa'xvv,[0;1;2]); (T 29,[0])] [1;2]));
  (*4613*) Assign (T 185) (Plain (Einsum [(n_v'bbb'xoo,[0;1;2]); (T 29,[0])] [1;2]));
  (*4614*) Assign (T 182) (Plain (Einsum [(T 33,[0]); (n_v'baa'xoo,[0;1;2])] [1;2]));
  (*4615*) Assign (T 180) (Plain (Einsum [(n_v'bbb'xoo,[0;1;2]); (T 33,[0])] [1;2]));
  (*4616*) Del (T 33);
  (*4617*) Assign (T 178) (Plain (Einsum [(T 110,[0;1;2]); (n_v'bbb'xoo,[0;3;1])] [3;2]));
  (*4618*) Assign (T 175) (Plain (Einsum [(T 29,[0]); (n_v'baa'xoo,[0;1;2])] [1;2]));
  (*4619*) Del (T 29);
  (*4620*) Assign (T 172) (Plain (Einsum [(n_v'baa'xoo,[0;1;2]); (T 102,[0;2;3])] [1;3]));
  (*4621*) Assign (T 45) (Plain (Einsum [(n_v'baa'xov,[0;1;2]); (n_v'baa'xov,[0;3;4])] [3;1;4;2]));
  (*4622*) Assign (T 158) (Plain (Einsum [(n_v'baa'xov,[0;1;2]); (T 61,[0;3;2])] [3;1]));
  (*4623*) Assign (T 155) (Plain (Einsum [(T 85,[0;1;2]); (n_v'bbb'xov,[0;3;2])] [1;3]));
  (*4624*) Assign (T 152) (Plain (Einsum [(T 82,[0;1;2]); (n_v'bbb'xov,[0;3;2])] [1;3]));
  (*4625*) Assign (T 149) (Plain (Einsum [(T 58,[0;1;2]); (n_v'baa'xov,[0;3;2])] [1;3]));
  (*4626*) Assign (T 142) (Plain (Einsum [(T 110,[0;1;2]); (n_v'baa'xov,[0;3;4])] [3;1;2;4]));
  (*4627*) Assign (T 133) (Plain (Einsum [(n_v'baa'xov,[0;1;2]); (T 102,[0;3;4])] [3;1;4;2]));
  (*4628*) Assign (T 100) (Plain (Einsum [(n_v'baa'xov,[0;1;2]); (n_v'bbb'xvv,[0;3;4])] [1;2;3;4]));
  (*4629*) Assign (T 25) (Plain (Einsum [(n_v'baa'xvv,[0;1;2]); (n_v'baa'xov,[0;3;4])] [3;1;2;4]));
  (*4630*) Assign (T 70) (Plain (Einsum [(n_v'bbb'xoo,[0;1;2]); (n_v'baa'xov,[0;3;4])] [3;1;2;4]));
  (*4631*) Assign (T 64) (Plain (Einsum [(n_v'baa'xov,[0;1;2]); (n_v'baa'xoo,[0;3;4])] [3;4;1;2]));
  (*4632*) Assign (T 23) (Plain (Einsum [(n_t1'bb,[0;1]); (n_f'bb'ov,[2;1])] [2;0]));
  (*4633*) Assign (T 20) (Plain (Einsum [(n_f'aa'ov,[0;1]); (n_t1'aa,[2;1])] [0;2]));
  (*4634*) Assign (T 431) (Plain (Einsum [(n_v'bbb'xvv,[0;1;2]); (n_v'bbb'xvv,[0;3;4])] [3;1;2;4]));
  (*4635*) Assign (T 388) (Plain (Einsum [(n_v'baa'xvv,[0;1;2]); (n_v'bbb'xvv,[0;3;4])] [1;2;3;4]));
  (*4636*) Assign (T 366) (Plain (Einsum [(n_v'baa'xvv,[0;1;2]); (n_v'baa'xvv,[0;3;4])] [1;3;4;2]));
  (*4637*) Assign (T 336) (Plain (Einsum [(T 31,[0;1;2]); (n_v'bbb'xov,[0;3;4])] [1;3;2;4]));
  (*4638*) Assign (T 335) (Plain (Einsum [(T 102,[0;1;2]); (n_v'bbb'xvv,[0;3;4])] [1;2;3;4]));
  (*4639*) Assign (T 333) (Plain (Einsum [(T 40,[0;1;2]); (n_v'bbb'xov,[0;3;4])] [1;3;4;2]));
  (*4640*) Assign (T 331) (Plain (Einsum [(T 110,[0;1;2]); (n_v'bbb'xvv,[0;3;4])] [1;2;3;4]));
  (*4641*) Assign (T 320) (Plain (Einsum [(n_t2'abab,[0;1;2;3]); (T 50,[4;1;2;5])] [0;4;3;5]));
  (*4642*) Assign (T 318) (Plain (Einsum [(n_v'bbb'xov,[0;1;2]); (T 85,[0;3;4])] [3;1;4;2]));
  (*4643*) Assign (T 316) (Plain (Einsum [(T 58,[0;1;2]); (n_v'bbb'xov,[0;3;4])] [1;3;2;4]));
  (*4644*) Assign (T 314) (Plain (Einsum [(n_t2'bbbb,[0;1;2;3]); (T 244,[1;4;5;3])] [0;4;2;5]));
  (*4645*) Assign (T 313) (Plain (Einsum [(n_t2'abab,[0;1;2;3]); (T 244,[1;4;5;3])] [0;4;2;5]));
  (*4646*) Assign (T 311) (Plain (Einsum [(T 82,[0;1;2]); (n_v'bbb'xov,[0;3;4])] [1;3;2;4]));
  (*4647*) Assign (T 310) (Plain (Einsum [(n_v'bbb'xov,[0;1;2]); (T 61,[0;3;4])] [3;1;4;2]));
  (*4648*) Assign (T 304) (Plain (Einsum [(T 139,[0;1;2;3]); (n_t2'abab,[1;2;4;5])] [0;4;5;3]));
  (*4649*) Assign (T 302) (Plain (Einsum [(n_t2'bbbb,[0;1;2;3]); (T 136,[4;0;1;5])] [4;2;3;5]));
  (*4650*) Assign (T 282) (Plain (Einsum [(n_t2'abab,[0;1;2;3]); (T 27,[1;2;4;5])] [0;4;3;5]));
  (*4651*) Assign (T 280) (Plain (Einsum [(T 85,[0;1;2]); (n_v'bbb'xvv,[0;3;4])] [1;2;3;4]));
  (*4652*) Assign (T 278) (Plain (Einsum [(n_v'bbb'xvv,[0;1;2]); (T 58,[0;3;4])] [3;4;1;2]));
  (*4653*) Assign (T 276) (Plain (Einsum [(T 237,[0;1;2;3]); (n_t2'bbbb,[4;0;5;2])] [4;5;3;1]));
  (*4654*) Assign (T 275) (Plain (Einsum [(T 237,[0;1;2;3]); (n_t2'abab,[4;0;5;1])] [4;5;3;2]));
  (*4655*) Assign (T 273) (Plain (Einsum [(T 82,[0;1;2]); (n_v'bbb'xvv,[0;3;4])] [1;2;3;4]));
  (*4656*) Assign (T 272) (Plain (Einsum [(n_v'bbb'xvv,[0;1;2]); (T 61,[0;3;4])] [3;4;1;2]));
  (*4657*) Assign (T 266) (Plain (Einsum [(T 73,[0;1;2;3]); (n_t2'abab,[1;2;4;5])] [0;4;5;3]));
  (*4658*) Assign (T 264) (Plain (Einsum [(n_t2'bbbb,[0;1;2;3]); (T 67,[4;0;1;5])] [4;2;3;5]));
  (*4659*) Assign (T 258) (Plain (Einsum [(n_v'bbb'xov,[0;1;2]); (T 85,[0;1;3])] [3;2]));
  (*4660*) Assign (T 256) (Plain (Einsum [(T 82,[0;1;2]); (n_v'bbb'xov,[0;1;3])] [2;3]));
  (*4661*) Assign (T 254) (Plain (Einsum [(T 31,[0;1;2]); (n_v'bbb'xvv,[0;3;4])] [1;2;3;4]));
  (*4662*) Assign (T 252) (Plain (Einsum [(T 40,[0;1;2]); (n_v'bbb'xvv,[0;3;4])] [1;3;4;2]));
  (*4663*) Assign (T 251) (Plain (Einsum [(n_v'bbb'xvv,[0;1;2]); (n_v'baa'xoo,[0;3;4])] [3;4;1;2]));
  (*4664*) Assign (T 247) (Plain (Einsum [(n_v'bbb'xoo,[0;1;2]); (n_v'bbb'xvv,[0;3;4])] [1;2;3;4]));
  (*4665*) Assign (T 240) (Plain (Einsum [(T 40,[0;1;2]); (n_v'bbb'xov,[0;1;3])] [3;2]));
  (*4666*) Assign (T 222) (Plain (Einsum [(T 221,[0;1]); (n_t1'bb,[1;2])] [0;2]));
  (*4667*) Del (T 221);
  (*4668*) Assign (T 219) (Plain (Einsum [(T 218,[0;1]); (n_t1'aa,[1;2])] [0;2]));
  (*4669*) Del (T 218);
  (*4670*) Assign (T 217) (Plain (Einsum [(T 216,[0;1]); (n_t1'bb,[1;2])] [0;2]));
  (*4671*) Del (T 216);
  (*4672*) Assign (T 215) (Plain (Einsum [(T 214,[0;1]); (n_t1'bb,[1;2])] [0;2]));
  (*4673*) Del (T 214);
  (*4674*) Assign (T 212) (Plain (Einsum [(T 211,[0;1]); (n_t1'aa,[1;2])] [0;2]));
  (*4675*) Del (T 211);
  (*4676*) Assign (T 209) (Plain (Einsum [(T 208,[0;1]); (n_t1'aa,[1;2])] [0;2]));
  (*4677*) Del (T 208);
  (*4678*) Assign (T 207) (Plain (Einsum [(n_v'baa'xov,[0;1;2]); (T 40,[0;3;4])] [1;3;2;4]));
  (*4679*) Assign (T 206) (Plain (Einsum [(T 110,[0;1;2]); (n_v'baa'xvv,[0;3;4])] [1;2;3;4]));
  (*4680*) Assign (T 204) (Plain (Einsum [(T 31,[0;1;2]); (n_v'baa'xov,[0;3;4])] [1;3;4;2]));
  (*4681*) Assign (T 202) (Plain (Einsum [(T 102,[0;1;2]); (n_v'baa'xvv,[0;3;4])] [1;2;3;4]));
  (*4682*) Assign (T 200) (Plain (Einsum [(T 34,[0;1]); (n_t1'aa,[2;1])] [2;0]));
  (*4683*) Assign (T 199) (Plain (Einsum [(T 198,[0;1]); (n_t1'bb,[2;1])] [2;0]));
  (*4684*) Assign (T 197) (Plain (Einsum [(T 110,[0;1;2]); (T 40,[0;2;3])] [1;3]));
  (*4685*) Del (T 110);
  (*4686*) Assign (T 196) (Plain (Einsum [(T 195,[0;1]); (n_t1'bb,[2;1])] [2;0]));
  (*4687*) Assign (T 193) (Plain (Einsum [(T 31,[0;1;2]); (T 102,[0;3;1])] [3;2]));
  (*4688*) Del (T 102);
  (*4689*) Assign (T 191) (Plain (Einsum [(n_t1'aa,[0;1]); (T 30,[2;1])] [0;2]));
  (*4690*) Assign (T 186) (Plain (Einsum [(T 185,[0;1]); (n_t1'bb,[1;2])] [0;2]));
  (*4691*) Del (T 185);
  (*4692*) Assign (T 183) (Plain (Einsum [(T 182,[0;1]); (n_t1'aa,[1;2])] [0;2]));
  (*4693*) Del (T 182);
  (*4694*) Assign (T 181) (Plain (Einsum [(n_t1'bb,[0;1]); (T 180,[2;0])] [2;1]));
  (*4695*) Del (T 180);
  (*4696*) Assign (T 179) (Plain (Einsum [(T 178,[0;1]); (n_t1'bb,[1;2])] [0;2]));
  (*4697*) Del (T 178);
  (*4698*) Assign (T 176) (Plain (Einsum [(T 175,[0;1]); (n_t1'aa,[1;2])] [0;2]));
  (*4699*) Del (T 175);
  (*4700*) Assign (T 173) (Plain (Einsum [(T 172,[0;1]); (n_t1'aa,[1;2])] [0;2]));
  (*4701*) Del (T 172);
  (*4702*) Assign (T 171) (Plain (Einsum [(n_t2'abab,[0;1;2;3]); (T 50,[0;4;5;3])] [1;4;2;5]));
  (*4703*) Assign (T 169) (Plain (Einsum [(T 82,[0;1;2]); (n_v'baa'xov,[0;3;4])] [3;1;4;2]));
  (*4704*) Assign (T 167) (Plain (Einsum [(n_v'baa'xov,[0;1;2]); (T 61,[0;3;4])] [3;1;4;2]));
  (*4705*) Assign (T 166) (Plain (Einsum [(T 45,[0;1;2;3]); (n_t2'abab,[0;4;3;5])] [1;4;2;5]));
  (*4706*) Assign (T 164) (Plain (Einsum [(T 45,[0;1;2;3]); (n_t2'aaaa,[4;0;5;3])] [4;1;5;2]));
  (*4707*) Assign (T 163) (Plain (Einsum [(T 85,[0;1;2]); (n_v'baa'xov,[0;3;4])] [3;1;4;2]));
  (*4708*) Assign (T 161) (Plain (Einsum [(n_v'baa'xov,[0;1;2]); (T 58,[0;3;4])] [3;1;4;2]));
  (*4709*) Assign (T 159) (Plain (Einsum [(T 158,[0;1]); (n_t1'aa,[1;2])] [0;2]));
  (*4710*) Assign (T 156) (Plain (Einsum [(T 155,[0;1]); (n_t1'bb,[1;2])] [0;2]));
  (*4711*) Assign (T 153) (Plain (Einsum [(n_t1'bb,[0;1]); (T 152,[2;0])] [2;1]));
  (*4712*) Assign (T 150) (Plain (Einsum [(T 149,[0;1]); (n_t1'aa,[1;2])] [0;2]));
  (*4713*) Assign (T 147) (Plain (Einsum [(n_t2'abab,[0;1;2;3]); (T 142,[0;4;1;5])] [4;2;5;3]));
  (*4714*) Assign (T 145) (Plain (Einsum [(T 133,[0;1;2;3]); (n_t2'aaaa,[1;2;4;5])] [0;4;5;3]));
  (*4715*) Assign (T 143) (Plain (Einsum [(n_t2'abab,[0;1;2;3]); (T 142,[0;4;1;2])] [4;3]));
  (*4716*) Assign (T 140) (Plain (Einsum [(T 139,[0;1;2;3]); (n_t2'abab,[1;2;4;3])] [0;4]));
  (*4717*) Assign (T 137) (Plain (Einsum [(n_t2'bbbb,[0;1;2;3]); (T 136,[4;1;0;3])] [4;2]));
  (*4718*) Assign (T 134) (Plain (Einsum [(T 133,[0;1;2;3]); (n_t2'aaaa,[2;1;4;3])] [0;4]));
  (*4719*) Assign (T 125) (Plain (Einsum [(n_t2'bbbb,[0;1;2;3]); (T 42,[1;3])] [0;2]));
  (*4720*) Assign (T 123) (Plain (Einsum [(n_t2'abab,[0;1;2;3]); (T 42,[1;3])] [0;2]));
  (*4721*) Assign (T 122) (Plain (Einsum [(n_t2'abab,[0;1;2;3]); (T 43,[0;2])] [1;3]));
  (*4722*) Assign (T 120) (Plain (Einsum [(T 43,[0;1]); (n_t2'aaaa,[2;0;3;1])] [2;3]));
  (*4723*) Assign (T 118) (Plain (Einsum [(n_t2'bbbb,[0;1;2;3]); (T 39,[1;3])] [0;2]));
  (*4724*) Assign (T 116) (Plain (Einsum [(n_t2'abab,[0;1;2;3]); (T 39,[1;3])] [0;2]));
  (*4725*) Assign (T 114) (Plain (Einsum [(T 111,[0;1]); (n_t2'bbbb,[2;0;3;1])] [2;3]));
  (*4726*) Assign (T 112) (Plain (Einsum [(n_t2'abab,[0;1;2;3]); (T 111,[1;3])] [0;2]));
  (*4727*) Assign (T 109) (Plain (Einsum [(n_t2'abab,[0;1;2;3]); (T 35,[0;2])] [1;3]));
  (*4728*) Assign (T 107) (Plain (Einsum [(n_t2'aaaa,[0;1;2;3]); (T 35,[1;3])] [0;2]));
  (*4729*) Assign (T 106) (Plain (Einsum [(n_t2'abab,[0;1;2;3]); (T 103,[0;2])] [1;3]));
  (*4730*) Assign (T 104) (Plain (Einsum [(T 103,[0;1]); (n_t2'aaaa,[2;0;3;1])] [2;3]));
  (*4731*) Assign (T 101) (Plain (Einsum [(T 100,[0;1;2;3]); (n_t2'abab,[0;4;5;3])] [4;5;1;2]));
  (*4732*) Assign (T 98) (Plain (Einsum [(T 82,[0;1;2]); (n_v'baa'xvv,[0;3;4])] [1;3;4;2]));
  (*4733*) Assign (T 96) (Plain (Einsum [(n_v'baa'xvv,[0;1;2]); (T 61,[0;3;4])] [3;4;1;2]));
  (*4734*) Assign (T 95) (Plain (Einsum [(n_t2'abab,[0;1;2;3]); (T 25,[0;2;4;5])] [1;5;4;3]));
  (*4735*) Assign (T 93) (Plain (Einsum [(n_t2'aaaa,[0;1;2;3]); (T 25,[1;4;3;5])] [0;2;5;4]));
  (*4736*) Assign (T 92) (Plain (Einsum [(T 85,[0;1;2]); (n_v'baa'xvv,[0;3;4])] [1;3;4;2]));
  (*4737*) Assign (T 90) (Plain (Einsum [(T 58,[0;1;2]); (n_v'baa'xvv,[0;3;4])] [1;2;3;4]));
  (*4738*) Assign (T 88) (Plain (Einsum [(n_v'baa'xvv,[0;1;2]); (T 61,[0;3;2])] [3;1]));
  (*4739*) Assign (T 86) (Plain (Einsum [(n_v'bbb'xvv,[0;1;2]); (T 85,[0;3;2])] [3;1]));
  (*4740*) Assign (T 83) (Times (Einsum [(T 82,[0;1;2]); (n_v'bbb'xvv,[0;3;2])] [1;3]) (-1) 1);
  (*4741*) Assign (T 80) (Times (Einsum [(n_v'baa'xvv,[0;1;2]); (T 58,[0;3;2])] [3;1]) (-1) 1);
  (*4742*) Assign (T 78) (Plain (Einsum [(n_t2'abab,[0;1;2;3]); (T 70,[0;4;1;5])] [4;2;5;3]));
  (*4743*) Assign (T 76) (Plain (Einsum [(T 64,[0;1;2;3]); (n_t2'aaaa,[1;2;4;5])] [0;4;5;3]));
  (*4744*) Assign (T 74) (Plain (Einsum [(T 73,[0;1;2;3]); (n_t2'abab,[1;2;4;3])] [0;4]));
  (*4745*) Assign (T 71) (Plain (Einsum [(n_t2'abab,[0;1;2;3]); (T 70,[0;4;1;2])] [4;3]));
  (*4746*) Assign (T 68) (Plain (Einsum [(n_t2'bbbb,[0;1;2;3]); (T 67,[4;0;1;3])] [4;2]));
  (*4747*) Assign (T 65) (Plain (Einsum [(T 64,[0;1;2;3]); (n_t2'aaaa,[1;2;4;3])] [0;4]));
  (*4748*) Assign (T 62) (Plain (Einsum [(n_v'baa'xov,[0;1;2]); (T 61,[0;1;3])] [3;2]));
  (*4749*) Assign (T 59) (Plain (Einsum [(T 58,[0;1;2]); (n_v'baa'xov,[0;1;3])] [2;3]));
  (*4750*) Assign (T 56) (Plain (Einsum [(n_v'baa'xvv,[0;1;2]); (T 40,[0;3;4])] [3;1;2;4]));
  (*4751*) Assign (T 54) (Plain (Einsum [(T 31,[0;1;2]); (n_v'baa'xvv,[0;3;4])] [1;3;4;2]));
  (*4752*) Assign (T 53) (Plain (Einsum [(n_v'bbb'xoo,[0;1;2]); (n_v'baa'xvv,[0;3;4])] [1;2;3;4]));
  (*4753*) Assign (T 48) (Plain (Einsum [(n_v'baa'xvv,[0;1;2]); (n_v'baa'xoo,[0;3;4])] [3;4;1;2]));
  (*4754*) Assign (T 41) (Plain (Einsum [(n_v'bbb'xoo,[0;1;2]); (T 40,[0;2;3])] [1;3]));
  (*4755*) Del (T 40);
  (*4756*) Assign (T 37) (Plain (Einsum [(T 31,[0;1;2]); (n_v'baa'xoo,[0;3;1])] [3;2]));
  (*4757*) Assign (T 32) (Plain (Einsum [(n_v'baa'xov,[0;1;2]); (T 31,[0;1;3])] [2;3]));
  (*4758*) Del (T 31);
  (*4759*) Assign (T 24) (Plain (Einsum [(T 23,[0;1]); (n_t1'bb,[0;2])] [1;2]));
  (*4760*) Assign (T 21) (Plain (Einsum [(T 20,[0;1]); (n_t1'aa,[0;2])] [1;2]));
  (*4761*) Assign (T 14) (Plain (Einsum [(n_f'bb'ov,[0;1]); (n_t2'bbbb,[2;0;3;1])] [2;3]));
  (*4762*) Assign (T 12) (Plain (Einsum [(n_t2'abab,[0;1;2;3]); (n_f'bb'ov,[1;3])] [0;2]));
  (*4763*) Assign (T 11) (Plain (Einsum [(n_t2'abab,[0;1;2;3]); (n_f'aa'ov,[0;2])] [1;3]));
  (*4764*) Assign (T 9) (Plain (Einsum [(n_f'aa'ov,[0;1]); (n_t2'aaaa,[2;0;3;1])] [2;3]));
  (*4765*) Assign (T 8) (Plain (Einsum [(n_f'bb'vv,[0;1]); (n_t1'bb,[2;1])] [2;0]));
  (*4766*) Assign (T 6) (Plain (Einsum [(n_f'aa'vv,[0;1]); (n_t1'aa,[2;1])] [2;0]));
  (*4767*) Assign (T 5) (Plain (Einsum [(n_t1'bb,[0;1]); (n_f'bb'oo,[2;0])] [2;1]));
  (*4768*) Assign (T 3) (Plain (Einsum [(n_f'aa'oo,[0;1]); (n_t1'aa,[1;2])] [0;2]))]
 [(T 11,[6;7]); (T 101,[6;5;5;7]); (T 103,[4;5]); (T 104,[4;5]); (T 106,[6;7]); (T 107,[4;5]); (T 109,[6;7]); (T 12,[4;5]); (T 111,[6;7]); (T 112,[4;5]); (T 114,[6;7]); (T 116,[4;5]); (T 118,[6;7]); (T 120,[4;5]); (T 122,[6;7]); (T 123,[4;5]); (T 125,[6;7]); (T 14,[6;7]); (T 133,[4;4;4;5]); (T 134,[4;5]); (T 136,[6;6;6;7]); (T 137,[6;7]); (T 139,[4;4;6;7]); (T 140,[4;5]); (T 142,[4;6;6;5]); (T 143,[6;7]); (T 145,[4;5;5;5]); (T 147,[6;5;5;7]); (T 149,[4;4]); (T 150,[4;5]); (T 152,[6;6]); (T 153,[6;7]); (T 155,[6;6]); (T 156,[6;7]); (T 158,[4;4]); (T 159,[4;5]); (T 161,[4;4;5;5]); (T 163,[4;6;5;7]); (T 164,[4;4;5;5]); (T 166,[4;6;5;7]); (T 167,[4;4;5;5]); (T 169,[4;6;5;7]); (T 171,[6;6;5;5]); (T 173,[4;5]); (T 176,[4;5]); (T 179,[6;7]); (T 181,[6;7]); (T 183,[4;5]); (T 186,[6;7]); (T 20,[4;4]); (T 191,[4;5]); (T 193,[4;5]); (T 195,[7;7]); (T 196,[6;7]); (T 197,[6;7]); (T 198,[7;7]); (T 199,[6;7]); (T 200,[4;5]); (T 3,[4;5]); (T 21,[4;5]); (T 202,[4;4;5;5]); (T 204,[4;4;5;5]); (T 206,[6;6;5;5]); (T 207,[4;6;5;7]); (T 209,[4;5]); (T 212,[4;5]); (T 215,[6;7]); (T 217,[6;7]); (T 219,[4;5]); (T 23,[6;6]); (T 222,[6;7]); (T 24,[6;7]); (T 237,[6;7;7;7]); (T 240,[7;7]); (T 25,[4;5;5;5]); (T 244,[6;6;7;7]); (T 247,[6;6;7;7]); (T 251,[4;4;7;7]); (T 252,[6;7;7;7]); (T 254,[4;5;7;7]); (T 256,[7;7]); (T 258,[7;7]); (T 27,[6;5;5;7]); (T 264,[6;7;7;7]); (T 266,[4;5;7;7]); (T 272,[4;5;7;7]); (T 273,[6;7;7;7]); (T 275,[4;5;7;7]); (T 276,[6;7;7;7]); (T 278,[4;5;7;7]); (T 280,[6;7;7;7]); (T 282,[4;5;7;7]); (T 30,[5;5]); (T 302,[6;7;7;7]); (T 304,[4;5;7;7]); (T 310,[4;6;5;7]); (T 32,[5;5]); (T 311,[6;6;7;7]); (T 313,[4;6;5;7]); (T 314,[6;6;7;7]); (T 316,[4;6;5;7]); (T 318,[6;6;7;7]); (T 320,[4;4;7;7]); (T 34,[5;5]); (T 331,[6;6;7;7]); (T 333,[6;6;7;7]); (T 335,[4;4;7;7]); (T 336,[4;6;5;7]); (T 35,[4;5]); (T 37,[4;5]); (T 366,[5;5;5;5]); (T 39,[6;7]); (T 388,[5;5;7;7]); (T 5,[6;7]); (T 41,[6;7]); (T 42,[6;7]); (T 43,[4;5]); (T 431,[7;7;7;7]); (T 45,[4;4;5;5]); (T 48,[4;4;5;5]); (T 50,[4;6;5;7]); (T 6,[4;5]); (T 53,[6;6;5;5]); (T 54,[4;5;5;5]); (T 56,[6;5;5;7]); (T 58,[2;4;5]); (T 59,[5;5]); (T 61,[2;4;5]); (T 62,[5;5]); (T 64,[4;4;4;5]); (T 65,[4;5]); (T 67,[6;6;6;7]); (T 68,[6;7]); (T 70,[4;6;6;5]); (T 8,[6;7]); (T 71,[6;7]); (T 73,[4;4;6;7]); (T 74,[4;5]); (T 76,[4;5;5;5]); (T 78,[6;5;5;7]); (T 80,[4;5]); (T 9,[4;5]); (T 82,[2;6;7]); (T 83,[6;7]); (T 85,[2;6;7]); (T 86,[6;7]); (T 88,[4;5]); (T 90,[4;5;5;5]); (T 92,[6;5;5;7]); (T 93,[4;5;5;5]); (T 95,[6;5;5;7]); (T 96,[4;5;5;5]); (T 98,[6;5;5;7]); (T 100,[4;5;7;7])].

(** ebcc/codegen/UDFCC2.py:4772-5424 [hbar_lmatvec_ea] *)
Definition UDFCC2_hbar_lmatvec_ea : prog := mkprog
 [(IT 85,[2;6;7]); (n_v'bbb'xov,[2;6;7]); (IT 82,[2;6;7]); (IT 61,[2;4;5]); (n_v'baa'xov,[2;4;5]); (IT 58,[2;4;5]); (n_t2'abab,[4;6;5;7]); (n_r2'bab,[7;5;6]); (n_r2'aaa,[5;5;4]); (n_t2'aaaa,[4;4;5;5]); (IT 247,[6;6;7;7]); (IT 314,[6;6;7;7]); (n_r2'aba,[5;7;4]); (n_r2'bbb,[7;7;6]); (n_t1'bb,[6;7]); (IT 256,[7;7]); (IT 258,[7;7]); (n_f'bb'vv,[7;7]); (n_t2'bbbb,[6;6;7;7]); (IT 59,[5;5]); (IT 62,[5;5]); (n_f'aa'vv,[5;5]); (IT 48,[4;4;5;5]); (IT 164,[4;4;5;5]); (n_t1'aa,[4;5]); (IT 244,[6;6;7;7]); (n_f'bb'ov,[6;7]); (n_r1'b,[7]); (IT 237,[6;7;7;7]); (IT 313,[4;6;5;7]); (n_f'aa'ov,[4;5]); (IT 45,[4;4;5;5]); (n_r1'a,[5]); (IT 25,[4;5;5;5]); (IT 166,[4;6;5;7]); (n_f'bb'oo,[6;6]); (IT 152,[6;6]); (IT 155,[6;6]); (IT 23,[6;6]); (IT 171,[6;6;5;5]); (IT 53,[6;6;5;5]); (IT 251,[4;4;7;7]); (IT 320,[4;4;7;7]); (n_f'aa'oo,[4;4]); (IT 149,[4;4]); (IT 158,[4;4]); (IT 20,[4;4]); (IT 136,[6;6;6;7]); (IT 67,[6;6;6;7]); (IT 104,[4;5]); (IT 112,[4;5]); (IT 134,[4;5]); (IT 140,[4;5]); (IT 150,[4;5]); (IT 159,[4;5]); (IT 176,[4;5]); (IT 183,[4;5]); (IT 193,[4;5]); (IT 21,[4;5]); (IT 212,[4;5]); (IT 219,[4;5]); (IT 3,[4;5]); (IT 37,[4;5]); (IT 65,[4;5]); (IT 74,[4;5]); (IT 80,[4;5]); (IT 107,[4;5]); (IT 116,[4;5]); (IT 120,[4;5]); (IT 12,[4;5]); (IT 123,[4;5]); (IT 173,[4;5]); (IT 191,[4;5]); (IT 200,[4;5]); (IT 209,[4;5]); (IT 35,[4;5]); (IT 43,[4;5]); (IT 6,[4;5]); (IT 88,[4;5]); (IT 9,[4;5]); (IT 311,[6;6;7;7]); (IT 318,[6;6;7;7]); (IT 333,[6;6;7;7]); (IT 331,[6;6;7;7]); (IT 254,[4;5;7;7]); (IT 266,[4;5;7;7]); (IT 272,[4;5;7;7]); (IT 278,[4;5;7;7]); (IT 304,[4;5;7;7]); (IT 100,[4;5;7;7]); (IT 275,[4;5;7;7]); (IT 282,[4;5;7;7]); (IT 252,[6;7;7;7]); (IT 276,[6;7;7;7]); (IT 302,[6;7;7;7]); (IT 264,[6;7;7;7]); (IT 273,[6;7;7;7]); (IT 280,[6;7;7;7]); (IT 39,[6;7]); (IT 42,[6;7]); (IT 111,[6;7]); (IT 310,[4;6;5;7]); (IT 316,[4;6;5;7]); (IT 336,[4;6;5;7]); (IT 50,[4;6;5;7]); (IT 335,[4;4;7;7]); (IT 139,[4;4;6;7]); (IT 73,[4;4;6;7]); (IT 240,[7;7]); (IT 195,[7;7]); (IT 198,[7;7]); (IT 106,[6;7]); (IT 114,[6;7]); (IT 137,[6;7]); (IT 143,[6;7]); (IT 153,[6;7]); (IT 156,[6;7]); (IT 181,[6;7]); (IT 186,[6;7]); (IT 197,[6;7]); (IT 217,[6;7]); (IT 222,[6;7]); (IT 24,[6;7]); (IT 41,[6;7]); (IT 5,[6;7]); (IT 68,[6;7]); (IT 71,[6;7]); (IT 83,[6;7]); (IT 109,[6;7]); (IT 11,[6;7]); (IT 118,[6;7]); (IT 122,[6;7]); (IT 125,[6;7]); (IT 14,[6;7]); (IT 179,[6;7]); (IT 196,[6;7]); (IT 199,[6;7]); (IT 215,[6;7]); (IT 8,[6;7]); (IT 86,[6;7]); (IT 147,[6;5;5;7]); (IT 27,[6;5;5;7]); (IT 56,[6;5;5;7]); (IT 78,[6;5;5;7]); (IT 92,[6;5;5;7]); (IT 98,[6;5;5;7]); (IT 101,[6;5;5;7]); (IT 95,[6;5;5;7]); (IT 32,[5;5]); (IT 30,[5;5]); (IT 34,[5;5]); (IT 133,[4;4;4;5]); (IT 64,[4;4;4;5]); (IT 206,[6;6;5;5]); (IT 163,[4;6;5;7]); (IT 169,[4;6;5;7]); (IT 207,[4;6;5;7]); (IT 103,[4;5]); (IT 161,[4;4;5;5]); (IT 167,[4;4;5;5]); (IT 204,[4;4;5;5]); (IT 202,[4;4;5;5]); (IT 142,[4;6;6;5]); (IT 70,[4;6;6;5]); (IT 145,[4;5;5;5]); (IT 54,[4;5;5;5]); (IT 93,[4;5;5;5]); (IT 76,[4;5;5;5]); (IT 90,[4;5;5;5]); (IT 96,[4;5;5;5]); (IT 431,[7;7;7;7]); (IT 388,[5;5;7;7]); (IT 366,[5;5;5;5])]
 [(*4802*) Assign (T 47) (Plain (Copy (IT 85)));
  (*4803*) AddTo (T 47) (Plain (Copy n_v'bbb'xov));
  (*4804*) AddTo (T 47) (Times (Copy (IT 82)) (2) 1);
  (*4805*) Assign (T 45) (Plain (Copy (IT 61)));
  (*4806*) AddTo (T 45) (Plain (Copy n_v'baa'xov));
  (*4807*) AddTo (T 45) (Times (Copy (IT 58)) (2) 1);
  (*4808*) Assign (T 61) (Times (Copy (IT 58)) (2) 1);
  (*4809*) Del (IT 58);
  (*4810*) AddTo (T 61) (Plain (Copy (IT 61)));
  (*4811*) Del (IT 61);
  (*4812*) AddTo (T 61) (Plain (Copy n_v'baa'xov));
  (*4813*) Assign (T 17) (Times (Einsum [(n_t2'abab,[0;1;2;3]); (n_r2'bab,[3;2;1])] [0]) (-1) 1);
  (*4814*) Assign (T 16) (Plain (Einsum [(n_r2'aaa,[0;1;2]); (n_t2'aaaa,[3;2;0;1])] [3]));
  (*4815*) Assign (T 48) (Times (Einsum [(n_r2'bab,[0;1;2]); (T 47,[3;2;0])] [3;1]) (-1) 1);
  (*4816*) Assign (T 46) (Times (Einsum [(n_r2'aaa,[0;1;2]); (T 45,[3;2;1])] [3;0]) (-1) 1);
  (*4817*) Del (T 45);
  (*4818*) Assign (T 71) (Plain (Copy (IT 247)));
  (*4819*) AddTo (T 71) (Times (Copy (IT 314)) (2) 1);
  (*4820*) Assign (T 35) (Plain (Einsum [(n_t2'abab,[0;1;2;3]); (n_r2'aba,[2;3;0])] [1]));
  (*4821*) Assign (T 86) (Times (Einsum [(T 47,[0;1;2]); (n_r2'bbb,[3;2;1])] [0;3]) (-1) 1);
  (*4822*) Del (T 47);
  (*4823*) Assign (T 22) (Plain (Einsum [(n_t1'bb,[0;1]); (n_r2'bbb,[2;1;3])] [3;0;2]));
  (*4824*) Assign (T 79) (Plain (Copy (IT 256)));
  (*4825*) AddTo (T 79) (Times (Copy (IT 258)) (1) 2);
  (*4826*) AddTo (T 79) (Times (Copy n_f'bb'vv) (-1) 2);
  (*4827*) Assign (T 62) (Plain (Einsum [(n_r2'aba,[0;1;2]); (T 61,[3;2;0])] [3;1]));
  (*4828*) Assign (T 36) (Plain (Einsum [(n_t2'bbbb,[0;1;2;3]); (n_r2'bbb,[2;3;1])] [0]));
  (*4829*) Assign (T 52) (Plain (Copy (IT 59)));
  (*4830*) AddTo (T 52) (Times (Copy (IT 62)) (1) 2);
  (*4831*) AddTo (T 52) (Times (Copy n_f'aa'vv) (-1) 2);
  (*4832*) Assign (T 54) (Times (Copy (T 16)) (2) 1);
  (*4833*) AddTo (T 54) (Plain (Copy (T 17)));
  (*4834*) Assign (T 43) (Plain (Copy (IT 48)));
  (*4835*) AddTo (T 43) (Times (Copy (IT 164)) (2) 1);
  (*4836*) Assign (T 49) (Times (Copy (T 46)) (-2) 1);
  (*4837*) Del (T 46);
  (*4838*) AddTo (T 49) (Plain (Copy (T 48)));
  (*4839*) Del (T 48);
  (*4840*) Assign (T 3) (Plain (Einsum [(n_t1'aa,[0;1]); (n_r2'aaa,[2;1;3])] [3;0;2]));
  (*4841*) Assign (T 85) (Times (Einsum [(T 71,[0;1;2;3]); (n_r2'bbb,[4;2;0])] [1;4;3]) (-1) 1);
  (*4842*) Assign (T 84) (Plain (Einsum [(T 35,[0]); (IT 244,[0;1;2;3])] [1;2;3]));
  (*4843*) Assign (T 87) (Times (Einsum [(T 86,[0;1]); (n_v'bbb'xov,[0;2;3])] [2;3;1]) (-1) 1);
  (*4844*) Del (T 86);
  (*4845*) Assign (T 83) (Plain (Einsum [(n_f'bb'ov,[0;1]); (T 22,[2;0;3])] [2;1;3]));
  (*4846*) Assign (T 82) (Plain (Einsum [(n_r1'b,[0]); (IT 237,[1;2;0;3])] [1;2;3]));
  (*4847*) Assign (T 80) (Times (Einsum [(n_r2'bbb,[0;1;2]); (T 79,[1;3])] [2;0;3]) (-4) 1);
  (*4848*) Del (T 79);
  (*4849*) Assign (T 78) (Plain (Einsum [(T 62,[0;1]); (n_v'bbb'xov,[0;2;3])] [2;3;1]));
  (*4850*) Assign (T 76) (Plain (Einsum [(n_r2'aba,[0;1;2]); (IT 313,[2;3;0;4])] [3;4;1]));
  (*4851*) Assign (T 77) (Plain (Einsum [(IT 244,[0;1;2;3]); (T 36,[0])] [1;2;3]));
  (*4852*) Assign (T 67) (Plain (Einsum [(n_t1'bb,[0;1]); (n_f'bb'ov,[0;2])] [2;1]));
  (*4853*) Assign (T 63) (Times (Copy (IT 82)) (2) 1);
  (*4854*) Del (IT 82);
  (*4855*) AddTo (T 63) (Plain (Copy (IT 85)));
  (*4856*) Del (IT 85);
  (*4857*) AddTo (T 63) (Plain (Copy n_v'bbb'xov));
  (*4858*) Assign (T 65) (Plain (Einsum [(n_f'aa'ov,[0;1]); (n_t1'aa,[0;2])] [1;2]));
  (*4859*) Assign (T 53) (Times (Einsum [(T 52,[0;1]); (n_r2'aaa,[2;0;3])] [3;2;1]) (-4) 1);
  (*4860*) Del (T 52);
  (*4861*) Assign (T 55) (Plain (Einsum [(IT 45,[0;1;2;3]); (T 54,[0])] [1;2;3]));
  (*4862*) Assign (T 44) (Times (Einsum [(T 43,[0;1;2;3]); (n_r2'aaa,[4;2;0])] [1;4;3]) (-1) 1);
  (*4863*) Del (T 43);
  (*4864*) Assign (T 50) (Plain (Einsum [(n_v'baa'xov,[0;1;2]); (T 49,[0;3])] [1;2;3]));
  (*4865*) Del (T 49);
  (*4866*) Assign (T 41) (Plain (Einsum [(n_f'aa'ov,[0;1]); (T 3,[2;0;3])] [2;1;3]));
  (*4867*) Assign (T 40) (Plain (Einsum [(n_r1'a,[0]); (IT 25,[1;2;0;3])] [1;2;3]));
  (*4868*) Assign (T 42) (Times (Einsum [(n_r2'bab,[0;1;2]); (IT 166,[3;2;4;0])] [3;4;1]) (-1) 1);
  (*4869*) Assign (T 26) (Plain (Einsum [(n_r2'aba,[0;1;2]); (n_t1'aa,[3;0])] [2;3;1]));
  (*4870*) Assign (T 7) (Times (Einsum [(n_r2'bab,[0;1;2]); (n_t1'bb,[3;0])] [2;3;1]) (-1) 1);
  (*4871*) Assign (T 75) (Plain (Einsum [(n_r2'bbb,[0;1;2]); (n_t2'bbbb,[3;4;0;1])] [2;3;4]));
  (*4872*) Assign (T 88) (Plain (Copy (T 82)));
  (*4873*) Del (T 82);
  (*4874*) AddTo (T 88) (Times (Copy (T 83)) (2) 1);
  (*4875*) Del (T 83);
  (*4876*) AddTo (T 88) (Plain (Copy (T 84)));
  (*4877*) Del (T 84);
  (*4878*) AddTo (T 88) (Times (Transpose (T 85) [0;2;1]) (-2) 1);
  (*4879*) Del (T 85);
  (*4880*) AddTo (T 88) (Times (Transpose (T 87) [0;2;1]) (2) 1);
  (*4881*) Del (T 87);
  (*4882*) Assign (T 81) (Plain (Einsum [(n_f'bb'ov,[0;1]); (n_r1'b,[2])] [0;1;2]));
  (*4883*) AddTo (T 81) (Plain (Copy (T 76)));
  (*4884*) Del (T 76);
  (*4885*) AddTo (T 81) (Times (Copy (T 77)) (2) 1);
  (*4886*) Del (T 77);
  (*4887*) AddTo (T 81) (Plain (Transpose (T 78) [0;2;1]));
  (*4888*) Del (T 78);
  (*4889*) AddTo (T 81) (Plain (Transpose (T 80) [0;2;1]));
  (*4890*) Del (T 80);
  (*4891*) Assign (T 74) (Plain (Copy n_f'bb'oo));
  (*4892*) AddTo (T 74) (Times (Copy (IT 152)) (2) 1);
  (*4893*) Del (IT 152);
  (*4894*) AddTo (T 74) (Plain (Copy (IT 155)));
  (*4895*) Del (IT 155);
  (*4896*) AddTo (T 74) (Plain (Transpose (IT 23) [1;0]));
  (*4897*) Del (IT 23);
  (*4898*) Assign (T 68) (Times (Copy (IT 256)) (2) 1);
  (*4899*) AddTo (T 68) (Plain (Copy (IT 258)));
  (*4900*) AddTo (T 68) (Times (Copy n_f'bb'vv) (-1) 1);
  (*4901*) AddTo (T 68) (Plain (Transpose (T 67) [1;0]));
  (*4902*) Del (T 67);
  (*4903*) Assign (T 73) (Times (Einsum [(n_r2'aaa,[0;1;2]); (T 61,[3;2;1])] [3;0]) (2) 1);
  (*4904*) Del (T 61);
  (*4905*) AddTo (T 73) (Times (Einsum [(T 63,[0;1;2]); (n_r2'bab,[2;3;1])] [0;3]) (-1) 1);
  (*4906*) Assign (T 66) (Times (Copy (IT 59)) (2) 1);
  (*4907*) AddTo (T 66) (Plain (Copy (IT 62)));
  (*4908*) AddTo (T 66) (Times (Copy n_f'aa'vv) (-1) 1);
  (*4909*) AddTo (T 66) (Plain (Transpose (T 65) [1;0]));
  (*4910*) Del (T 65);
  (*4911*) Assign (T 72) (Plain (Copy (IT 171)));
  (*4912*) AddTo (T 72) (Times (Transpose (IT 53) [0;1;3;2]) (-1) 1);
  (*4913*) Assign (T 70) (Times (Einsum [(n_t2'abab,[0;1;2;3]); (n_r2'bab,[3;2;4])] [0;4;1]) (-1) 1);
  (*4914*) Assign (T 64) (Times (Copy (T 62)) (-1) 1);
  (*4915*) Del (T 62);
  (*4916*) AddTo (T 64) (Times (Einsum [(n_r2'bbb,[0;1;2]); (T 63,[3;2;1])] [3;0]) (2) 1);
  (*4917*) Del (T 63);
  (*4918*) Assign (T 59) (Times (Copy (IT 164)) (2) 1);
  (*4919*) AddTo (T 59) (Plain (Copy (IT 48)));
  (*4920*) Assign (T 69) (Times (Copy (T 35)) (-1) 2);
  (*4921*) AddTo (T 69) (Plain (Copy (T 36)));
  (*4922*) Assign (T 60) (Plain (Copy (IT 251)));
  (*4923*) AddTo (T 60) (Times (Transpose (IT 320) [0;1;3;2]) (-1) 1);
  (*4924*) Assign (T 58) (Plain (Einsum [(n_r2'aba,[0;1;2]); (n_t2'abab,[3;4;0;1])] [2;3;4]));
  (*4925*) Assign (T 57) (Plain (Copy n_f'aa'oo));
  (*4926*) AddTo (T 57) (Times (Copy (IT 149)) (2) 1);
  (*4927*) Del (IT 149);
  (*4928*) AddTo (T 57) (Plain (Copy (IT 158)));
  (*4929*) Del (IT 158);
  (*4930*) AddTo (T 57) (Plain (Transpose (IT 20) [1;0]));
  (*4931*) Del (IT 20);
  (*4932*) Assign (T 56) (Plain (Einsum [(n_f'aa'ov,[0;1]); (n_r1'a,[2])] [0;1;2]));
  (*4933*) AddTo (T 56) (Plain (Transpose (T 53) [0;2;1]));
  (*4934*) Del (T 53);
  (*4935*) AddTo (T 56) (Plain (Copy (T 55)));
  (*4936*) Del (T 55);
  (*4937*) Assign (T 39) (Plain (Einsum [(n_r2'aaa,[0;1;2]); (n_t2'aaaa,[3;4;0;1])] [2;3;4]));
  (*4938*) Assign (T 51) (Plain (Copy (T 40)));
  (*4939*) Del (T 40);
  (*4940*) AddTo (T 51) (Times (Copy (T 41)) (2) 1);
  (*4941*) Del (T 41);
  (*4942*) AddTo (T 51) (Plain (Copy (T 42)));
  (*4943*) Del (T 42);
  (*4944*) AddTo (T 51) (Times (Transpose (T 44) [0;2;1]) (-2) 1);
  (*4945*) Del (T 44);
  (*4946*) AddTo (T 51) (Plain (Transpose (T 50) [0;2;1]));
  (*4947*) Del (T 50);
  (*4948*) Assign (T 37) (Plain (Einsum [(n_r1'b,[0]); (n_t1'bb,[1;0])] [1]));
  (*4949*) AddTo (T 37) (Times (Copy (T 35)) (-1) 1);
  (*4950*) Del (T 35);
  (*4951*) AddTo (T 37) (Times (Copy (T 36)) (2) 1);
  (*4952*) Del (T 36);
  (*4953*) Assign (T 31) (Plain (Copy (IT 136)));
  (*4954*) Del (IT 136);
  (*4955*) AddTo (T 31) (Times (Copy (IT 67)) (-1) 1);
  (*4956*) Del (IT 67);
  (*4957*) Assign (T 28) (Plain (Copy (IT 104)));
  (*4958*) AddTo (T 28) (Times (Copy (IT 112)) (1) 2);
  (*4959*) AddTo (T 28) (Plain (Copy (IT 134)));
  (*4960*) AddTo (T 28) (Times (Copy (IT 140)) (1) 2);
  (*4961*) AddTo (T 28) (Plain (Copy (IT 150)));
  (*4962*) AddTo (T 28) (Times (Copy (IT 159)) (1) 2);
  (*4963*) AddTo (T 28) (Times (Copy (IT 176)) (1) 2);
  (*4964*) AddTo (T 28) (Times (Copy (IT 183)) (1) 2);
  (*4965*) AddTo (T 28) (Times (Copy (IT 193)) (1) 2);
  (*4966*) AddTo (T 28) (Times (Copy (IT 21)) (1) 2);
  (*4967*) AddTo (T 28) (Times (Copy (IT 212)) (1) 2);
  (*4968*) AddTo (T 28) (Times (Copy (IT 219)) (1) 2);
  (*4969*) AddTo (T 28) (Times (Copy (IT 3)) (1) 2);
  (*4970*) AddTo (T 28) (Times (Copy (IT 37)) (1) 2);
  (*4971*) AddTo (T 28) (Plain (Copy (IT 65)));
  (*4972*) AddTo (T 28) (Times (Copy (IT 74)) (1) 2);
  (*4973*) AddTo (T 28) (Plain (Copy (IT 80)));
  (*4974*) AddTo (T 28) (Times (Copy n_f'aa'ov) (-1) 2);
  (*4975*) AddTo (T 28) (Times (Copy (IT 107)) (-1) 1);
  (*4976*) AddTo (T 28) (Times (Copy (IT 116)) (-1) 2);
  (*4977*) AddTo (T 28) (Times (Copy (IT 120)) (-1) 1);
  (*4978*) AddTo (T 28) (Times (Copy (IT 12)) (-1) 2);
  (*4979*) AddTo (T 28) (Times (Copy (IT 123)) (-1) 2);
  (*4980*) AddTo (T 28) (Times (Copy (IT 173)) (-1) 2);
  (*4981*) AddTo (T 28) (Times (Copy (IT 191)) (-1) 2);
  (*4982*) AddTo (T 28) (Times (Copy (IT 200)) (-1) 2);
  (*4983*) AddTo (T 28) (Times (Copy (IT 209)) (-1) 2);
  (*4984*) AddTo (T 28) (Times (Copy (IT 35)) (-1) 2);
  (*4985*) AddTo (T 28) (Times (Copy (IT 43)) (-1) 2);
  (*4986*) AddTo (T 28) (Times (Copy (IT 6)) (-1) 2);
  (*4987*) AddTo (T 28) (Times (Copy (IT 88)) (-1) 2);
  (*4988*) AddTo (T 28) (Times (Copy (IT 9)) (-1) 1);
  (*4989*) Assign (T 23) (Plain (Copy (IT 244)));
  (*4990*) AddTo (T 23) (Times (Copy (IT 311)) (2) 1);
  (*4991*) Del (IT 311);
  (*4992*) AddTo (T 23) (Plain (Copy (IT 318)));
  (*4993*) Del (IT 318);
  (*4994*) AddTo (T 23) (Plain (Transpose (IT 333) [0;1;3;2]));
  (*4995*) Del (IT 333);
  (*4996*) AddTo (T 23) (Times (Transpose (IT 247) [0;1;3;2]) (-1) 1);
  (*4997*) Del (IT 247);
  (*4998*) AddTo (T 23) (Times (Copy (IT 314)) (-2) 1);
  (*4999*) Del (IT 314);
  (*5000*) AddTo (T 23) (Times (Transpose (IT 331) [0;1;3;2]) (-1) 1);
  (*5001*) Del (IT 331);
  (*5002*) Assign (T 20) (Plain (Copy (IT 254)));
  (*5003*) Del (IT 254);
  (*5004*) AddTo (T 20) (Plain (Transpose (IT 266) [0;1;3;2]));
  (*5005*) Del (IT 266);
  (*5006*) AddTo (T 20) (Plain (Transpose (IT 272) [0;1;3;2]));
  (*5007*) Del (IT 272);
  (*5008*) AddTo (T 20) (Times (Transpose (IT 278) [0;1;3;2]) (2) 1);
  (*5009*) Del (IT 278);
  (*5010*) AddTo (T 20) (Plain (Transpose (IT 304) [0;1;3;2]));
  (*5011*) Del (IT 304);
  (*5012*) AddTo (T 20) (Plain (Copy (IT 100)));
  (*5013*) AddTo (T 20) (Times (Copy (IT 275)) (-1) 1);
  (*5014*) Del (IT 275);
  (*5015*) AddTo (T 20) (Times (Transpose (IT 282) [0;1;3;2]) (-1) 1);
  (*5016*) Del (IT 282);
  (*5017*) Assign (T 21) (Times (Copy (IT 237)) (1) 2);
  (*5018*) Del (IT 237);
  (*5019*) AddTo (T 21) (Times (Copy (IT 252)) (1) 2);
  (*5020*) Del (IT 252);
  (*5021*) AddTo (T 21) (Plain (Transpose (IT 276) [0;2;1;3]));
  (*5022*) Del (IT 276);
  (*5023*) AddTo (T 21) (Times (Transpose (IT 302) [0;3;1;2]) (1) 2);
  (*5024*) Del (IT 302);
  (*5025*) AddTo (T 21) (Times (Transpose (IT 264) [0;3;1;2]) (-1) 2);
  (*5026*) Del (IT 264);
  (*5027*) AddTo (T 21) (Times (Transpose (IT 273) [0;3;1;2]) (-1) 1);
  (*5028*) Del (IT 273);
  (*5029*) AddTo (T 21) (Times (Transpose (IT 280) [0;3;1;2]) (-1) 2);
  (*5030*) Del (IT 280);
  (*5031*) Assign (T 38) (Plain (Copy n_f'bb'ov));
  (*5032*) AddTo (T 38) (Plain (Copy (IT 39)));
  (*5033*) AddTo (T 38) (Plain (Copy (IT 42)));
  (*5034*) AddTo (T 38) (Times (Copy (IT 111)) (-1) 1);
  (*5035*) Del (IT 111);
  (*5036*) Assign (T 25) (Plain (Copy (IT 310)));
  (*5037*) Del (IT 310);
  (*5038*) AddTo (T 25) (Times (Copy (IT 316)) (2) 1);
  (*5039*) Del (IT 316);
  (*5040*) AddTo (T 25) (Plain (Copy (IT 336)));
  (*5041*) Del (IT 336);
  (*5042*) AddTo (T 25) (Plain (Copy (IT 50)));
  (*5043*) AddTo (T 25) (Times (Copy (IT 313)) (-1) 1);
  (*5044*) Assign (T 27) (Plain (Copy (IT 251)));
  (*5045*) Del (IT 251);
  (*5046*) AddTo (T 27) (Plain (Copy (IT 335)));
  (*5047*) Del (IT 335);
  (*5048*) AddTo (T 27) (Times (Transpose (IT 320) [0;1;3;2]) (-1) 1);
  (*5049*) Del (IT 320);
  (*5050*) Assign (T 24) (Plain (Einsum [(n_t1'bb,[0;1]); (n_r2'aba,[2;1;3])] [3;0;2]));
  (*5051*) Assign (T 30) (Times (Einsum [(T 22,[0;1;2]); (n_t1'bb,[3;2])] [0;1;3]) (-1) 1);
  (*5052*) Assign (T 33) (Plain (Copy (IT 139)));
  (*5053*) Del (IT 139);
  (*5054*) AddTo (T 33) (Plain (Copy (IT 73)));
  (*5055*) Del (IT 73);
  (*5056*) Assign (T 34) (Plain (Transpose (IT 240) [1;0]));
  (*5057*) Del (IT 240);
  (*5058*) AddTo (T 34) (Times (Copy (IT 256)) (2) 1);
  (*5059*) Del (IT 256);
  (*5060*) AddTo (T 34) (Plain (Copy (IT 258)));
  (*5061*) Del (IT 258);
  (*5062*) AddTo (T 34) (Times (Copy n_f'bb'vv) (-1) 1);
  (*5063*) AddTo (T 34) (Times (Transpose (IT 195) [1;0]) (-1) 1);
  (*5064*) Del (IT 195);
  (*5065*) AddTo (T 34) (Times (Transpose (IT 198) [1;0]) (-1) 1);
  (*5066*) Del (IT 198);
  (*5067*) Assign (T 29) (Plain (Copy (IT 106)));
  (*5068*) AddTo (T 29) (Times (Copy (IT 114)) (2) 1);
  (*5069*) AddTo (T 29) (Times (Copy (IT 137)) (2) 1);
  (*5070*) AddTo (T 29) (Plain (Copy (IT 143)));
  (*5071*) AddTo (T 29) (Times (Copy (IT 153)) (2) 1);
  (*5072*) AddTo (T 29) (Plain (Copy (IT 156)));
  (*5073*) AddTo (T 29) (Plain (Copy (IT 181)));
  (*5074*) AddTo (T 29) (Plain (Copy (IT 186)));
  (*5075*) AddTo (T 29) (Plain (Copy (IT 197)));
  (*5076*) AddTo (T 29) (Plain (Copy (IT 217)));
  (*5077*) AddTo (T 29) (Plain (Copy (IT 222)));
  (*5078*) AddTo (T 29) (Plain (Copy (IT 24)));
  (*5079*) AddTo (T 29) (Plain (Copy (IT 41)));
  (*5080*) AddTo (T 29) (Plain (Copy (IT 5)));
  (*5081*) AddTo (T 29) (Times (Copy (IT 68)) (2) 1);
  (*5082*) AddTo (T 29) (Plain (Copy (IT 71)));
  (*5083*) AddTo (T 29) (Times (Copy (IT 83)) (2) 1);
  (*5084*) AddTo (T 29) (Times (Copy n_f'bb'ov) (-1) 1);
  (*5085*) AddTo (T 29) (Times (Copy (IT 109)) (-1) 1);
  (*5086*) AddTo (T 29) (Times (Copy (IT 11)) (-1) 1);
  (*5087*) AddTo (T 29) (Times (Copy (IT 118)) (-2) 1);
  (*5088*) AddTo (T 29) (Times (Copy (IT 122)) (-1) 1);
  (*5089*) AddTo (T 29) (Times (Copy (IT 125)) (-2) 1);
  (*5090*) AddTo (T 29) (Times (Copy (IT 14)) (-2) 1);
  (*5091*) AddTo (T 29) (Times (Copy (IT 179)) (-1) 1);
  (*5092*) AddTo (T 29) (Times (Copy (IT 196)) (-1) 1);
  (*5093*) AddTo (T 29) (Times (Copy (IT 199)) (-1) 1);
  (*5094*) AddTo (T 29) (Times (Copy (IT 215)) (-1) 1);
  (*5095*) AddTo (T 29) (Times (Copy (IT 39)) (-1) 1);
  (*5096*) AddTo (T 29) (Times (Copy (IT 42)) (-1) 1);
  (*5097*) AddTo (T 29) (Times (Copy (IT 8)) (-1) 1);
  (*5098*) AddTo (T 29) (Times (Copy (IT 86)) (-1) 1);
  (*5099*) Assign (T 32) (Plain (Einsum [(n_t1'bb,[0;1]); (T 26,[2;3;1])] [2;3;0]));
  (*5100*) Assign (T 1) (Plain (Copy (IT 147)));
  (*5101*) Del (IT 147);
  (*5102*) AddTo (T 1) (Plain (Transpose (IT 27) [0;2;1;3]));
  (*5103*) AddTo (T 1) (Plain (Transpose (IT 56) [0;2;1;3]));
  (*5104*) Del (IT 56);
  (*5105*) AddTo (T 1) (Plain (Copy (IT 78)));
  (*5106*) Del (IT 78);
  (*5107*) AddTo (T 1) (Plain (Copy (IT 92)));
  (*5108*) Del (IT 92);
  (*5109*) AddTo (T 1) (Times (Copy (IT 98)) (2) 1);
  (*5110*) Del (IT 98);
  (*5111*) AddTo (T 1) (Times (Copy (IT 101)) (-1) 1);
  (*5112*) Del (IT 101);
  (*5113*) AddTo (T 1) (Times (Transpose (IT 95) [0;2;1;3]) (-1) 1);
  (*5114*) Del (IT 95);
  (*5115*) Assign (T 15) (Plain (Transpose (IT 32) [1;0]));
  (*5116*) Del (IT 32);
  (*5117*) AddTo (T 15) (Times (Copy (IT 59)) (2) 1);
  (*5118*) Del (IT 59);
  (*5119*) AddTo (T 15) (Plain (Copy (IT 62)));
  (*5120*) Del (IT 62);
  (*5121*) AddTo (T 15) (Times (Copy n_f'aa'vv) (-1) 1);
  (*5122*) AddTo (T 15) (Times (Transpose (IT 30) [1;0]) (-1) 1);
  (*5123*) Del (IT 30);
  (*5124*) AddTo (T 15) (Times (Transpose (IT 34) [1;0]) (-1) 1);
  (*5125*) Del (IT 34);
  (*5126*) Assign (T 12) (Plain (Copy (IT 133)));
  (*5127*) Del (IT 133);
  (*5128*) AddTo (T 12) (Times (Copy (IT 64)) (-1) 1);
  (*5129*) Del (IT 64);
  (*5130*) Assign (T 8) (Plain (Transpose (IT 206) [0;1;3;2]));
  (*5131*) Del (IT 206);
  (*5132*) AddTo (T 8) (Plain (Transpose (IT 53) [0;1;3;2]));
  (*5133*) Del (IT 53);
  (*5134*) AddTo (T 8) (Times (Copy (IT 171)) (-1) 1);
  (*5135*) Del (IT 171);
  (*5136*) Assign (T 6) (Plain (Copy (IT 163)));
  (*5137*) Del (IT 163);
  (*5138*) AddTo (T 6) (Times (Copy (IT 169)) (2) 1);
  (*5139*) Del (IT 169);
  (*5140*) AddTo (T 6) (Plain (Copy (IT 207)));
  (*5141*) Del (IT 207);
  (*5142*) AddTo (T 6) (Plain (Copy (IT 50)));
  (*5143*) AddTo (T 6) (Times (Copy (IT 166)) (-1) 1);
  (*5144*) Assign (T 19) (Plain (Copy n_f'aa'ov));
  (*5145*) AddTo (T 19) (Plain (Copy (IT 35)));
  (*5146*) AddTo (T 19) (Plain (Copy (IT 43)));
  (*5147*) AddTo (T 19) (Times (Copy (IT 103)) (-1) 1);
  (*5148*) Del (IT 103);
  (*5149*) Assign (T 18) (Times (Einsum [(n_t1'aa,[0;1]); (n_r1'a,[1])] [0]) (1) 2);
  (*5150*) AddTo (T 18) (Plain (Copy (T 16)));
  (*5151*) Del (T 16);
  (*5152*) AddTo (T 18) (Times (Copy (T 17)) (1) 2);
  (*5153*) Del (T 17);
  (*5154*) Assign (T 4) (Times (Copy (IT 161)) (2) 1);
  (*5155*) Del (IT 161);
  (*5156*) AddTo (T 4) (Plain (Copy (IT 167)));
  (*5157*) Del (IT 167);
  (*5158*) AddTo (T 4) (Plain (Transpose (IT 204) [0;1;3;2]));
  (*5159*) Del (IT 204);
  (*5160*) AddTo (T 4) (Plain (Copy (IT 45)));
  (*5161*) AddTo (T 4) (Times (Copy (IT 164)) (-2) 1);
  (*5162*) Del (IT 164);
  (*5163*) AddTo (T 4) (Times (Transpose (IT 202) [0;1;3;2]) (-1) 1);
  (*5164*) Del (IT 202);
  (*5165*) AddTo (T 4) (Times (Transpose (IT 48) [0;1;3;2]) (-1) 1);
  (*5166*) Del (IT 48);
  (*5167*) Assign (T 10) (Times (Copy (IT 106)) (1) 2);
  (*5168*) Del (IT 106);
  (*5169*) AddTo (T 10) (Plain (Copy (IT 114)));
  (*5170*) Del (IT 114);
  (*5171*) AddTo (T 10) (Plain (Copy (IT 137)));
  (*5172*) Del (IT 137);
  (*5173*) AddTo (T 10) (Times (Copy (IT 143)) (1) 2);
  (*5174*) Del (IT 143);
  (*5175*) AddTo (T 10) (Plain (Copy (IT 153)));
  (*5176*) Del (IT 153);
  (*5177*) AddTo (T 10) (Times (Copy (IT 156)) (1) 2);
  (*5178*) Del (IT 156);
  (*5179*) AddTo (T 10) (Times (Copy (IT 181)) (1) 2);
  (*5180*) Del (IT 181);
  (*5181*) AddTo (T 10) (Times (Copy (IT 186)) (1) 2);
  (*5182*) Del (IT 186);
  (*5183*) AddTo (T 10) (Times (Copy (IT 197)) (1) 2);
  (*5184*) Del (IT 197);
  (*5185*) AddTo (T 10) (Times (Copy (IT 217)) (1) 2);
  (*5186*) Del (IT 217);
  (*5187*) AddTo (T 10) (Times (Copy (IT 222)) (1) 2);
  (*5188*) Del (IT 222);
  (*5189*) AddTo (T 10) (Times (Copy (IT 24)) (1) 2);
  (*5190*) Del (IT 24);
  (*5191*) AddTo (T 10) (Times (Copy (IT 41)) (1) 2);
  (*5192*) Del (IT 41);
  (*5193*) AddTo (T 10) (Times (Copy (IT 5)) (1) 2);
  (*5194*) Del (IT 5);
  (*5195*) AddTo (T 10) (Plain (Copy (IT 68)));
  (*5196*) Del (IT 68);
  (*5197*) AddTo (T 10) (Times (Copy (IT 71)) (1) 2);
  (*5198*) Del (IT 71);
  (*5199*) AddTo (T 10) (Plain (Copy (IT 83)));
  (*5200*) Del (IT 83);
  (*5201*) AddTo (T 10) (Times (Copy n_f'bb'ov) (-1) 2);
  (*5202*) AddTo (T 10) (Times (Copy (IT 109)) (-1) 2);
  (*5203*) Del (IT 109);
  (*5204*) AddTo (T 10) (Times (Copy (IT 11)) (-1) 2);
  (*5205*) Del (IT 11);
  (*5206*) AddTo (T 10) (Times (Copy (IT 118)) (-1) 1);
  (*5207*) Del (IT 118);
  (*5208*) AddTo (T 10) (Times (Copy (IT 122)) (-1) 2);
  (*5209*) Del (IT 122);
  (*5210*) AddTo (T 10) (Times (Copy (IT 125)) (-1) 1);
  (*5211*) Del (IT 125);
  (*5212*) AddTo (T 10) (Times (Copy (IT 14)) (-1) 1);
  (*5213*) Del (IT 14);
  (*5214*) AddTo (T 10) (Times (Copy (IT 179)) (-1) 2);
  (*5215*) Del (IT 179);
  (*5216*) AddTo (T 10) (Times (Copy (IT 196)) (-1) 2);
  (*5217*) Del (IT 196);
  (*5218*) AddTo (T 10) (Times (Copy (IT 199)) (-1) 2);
  (*5219*) Del (IT 199);
  (*5220*) AddTo (T 10) (Times (Copy (IT 215)) (-1) 2);
  (*5221*) Del (IT 215);
  (*5222*) AddTo (T 10) (Times (Copy (IT 39)) (-1) 2);
  (*5223*) Del (IT 39);
  (*5224*) AddTo (T 10) (Times (Copy (IT 42)) (-1) 2);
  (*5225*) Del (IT 42);
  (*5226*) AddTo (T 10) (Times (Copy (IT 8)) (-1) 2);
  (*5227*) Del (IT 8);
  (*5228*) AddTo (T 10) (Times (Copy (IT 86)) (-1) 2);
  (*5229*) Del (IT 86);
  (*5230*) Assign (T 5) (Times (Einsum [(n_r2'bab,[0;1;2]); (n_t1'aa,[3;1])] [3;2;0]) (-1) 1);
  (*5231*) Assign (T 14) (Plain (Copy (IT 142)));
  (*5232*) Del (IT 142);
  (*5233*) AddTo (T 14) (Plain (Copy (IT 70)));
  (*5234*) Del (IT 70);
  (*5235*) Assign (T 11) (Times (Einsum [(T 3,[0;1;2]); (n_t1'aa,[3;2])] [0;1;3]) (-1) 1);
  (*5236*) Assign (T 9) (Times (Copy (IT 104)) (2) 1);
  (*5237*) Del (IT 104);
  (*5238*) AddTo (T 9) (Plain (Copy (IT 112)));
  (*5239*) Del (IT 112);
  (*5240*) AddTo (T 9) (Times (Copy (IT 134)) (2) 1);
  (*5241*) Del (IT 134);
  (*5242*) AddTo (T 9) (Plain (Copy (IT 140)));
  (*5243*) Del (IT 140);
  (*5244*) AddTo (T 9) (Times (Copy (IT 150)) (2) 1);
  (*5245*) Del (IT 150);
  (*5246*) AddTo (T 9) (Plain (Copy (IT 159)));
  (*5247*) Del (IT 159);
  (*5248*) AddTo (T 9) (Plain (Copy (IT 176)));
  (*5249*) Del (IT 176);
  (*5250*) AddTo (T 9) (Plain (Copy (IT 183)));
  (*5251*) Del (IT 183);
  (*5252*) AddTo (T 9) (Plain (Copy (IT 193)));
  (*5253*) Del (IT 193);
  (*5254*) AddTo (T 9) (Plain (Copy (IT 21)));
  (*5255*) Del (IT 21);
  (*5256*) AddTo (T 9) (Plain (Copy (IT 212)));
  (*5257*) Del (IT 212);
  (*5258*) AddTo (T 9) (Plain (Copy (IT 219)));
  (*5259*) Del (IT 219);
  (*5260*) AddTo (T 9) (Plain (Copy (IT 3)));
  (*5261*) Del (IT 3);
  (*5262*) AddTo (T 9) (Plain (Copy (IT 37)));
  (*5263*) Del (IT 37);
  (*5264*) AddTo (T 9) (Times (Copy (IT 65)) (2) 1);
  (*5265*) Del (IT 65);
  (*5266*) AddTo (T 9) (Plain (Copy (IT 74)));
  (*5267*) Del (IT 74);
  (*5268*) AddTo (T 9) (Times (Copy (IT 80)) (2) 1);
  (*5269*) Del (IT 80);
  (*5270*) AddTo (T 9) (Times (Copy n_f'aa'ov) (-1) 1);
  (*5271*) AddTo (T 9) (Times (Copy (IT 107)) (-2) 1);
  (*5272*) Del (IT 107);
  (*5273*) AddTo (T 9) (Times (Copy (IT 116)) (-1) 1);
  (*5274*) Del (IT 116);
  (*5275*) AddTo (T 9) (Times (Copy (IT 120)) (-2) 1);
  (*5276*) Del (IT 120);
  (*5277*) AddTo (T 9) (Times (Copy (IT 12)) (-1) 1);
  (*5278*) Del (IT 12);
  (*5279*) AddTo (T 9) (Times (Copy (IT 123)) (-1) 1);
  (*5280*) Del (IT 123);
  (*5281*) AddTo (T 9) (Times (Copy (IT 173)) (-1) 1);
  (*5282*) Del (IT 173);
  (*5283*) AddTo (T 9) (Times (Copy (IT 191)) (-1) 1);
  (*5284*) Del (IT 191);
  (*5285*) AddTo (T 9) (Times (Copy (IT 200)) (-1) 1);
  (*5286*) Del (IT 200);
  (*5287*) AddTo (T 9) (Times (Copy (IT 209)) (-1) 1);
  (*5288*) Del (IT 209);
  (*5289*) AddTo (T 9) (Times (Copy (IT 35)) (-1) 1);
  (*5290*) Del (IT 35);
  (*5291*) AddTo (T 9) (Times (Copy (IT 43)) (-1) 1);
  (*5292*) Del (IT 43);
  (*5293*) AddTo (T 9) (Times (Copy (IT 6)) (-1) 1);
  (*5294*) Del (IT 6);
  (*5295*) AddTo (T 9) (Times (Copy (IT 88)) (-1) 1);
  (*5296*) Del (IT 88);
  (*5297*) AddTo (T 9) (Times (Copy (IT 9)) (-2) 1);
  (*5298*) Del (IT 9);
  (*5299*) Assign (T 2) (Times (Copy (IT 145)) (1) 2);
  (*5300*) Del (IT 145);
  (*5301*) AddTo (T 2) (Times (Transpose (IT 25) [0;2;3;1]) (1) 2);
  (*5302*) Del (IT 25);
  (*5303*) AddTo (T 2) (Times (Transpose (IT 54) [0;2;3;1]) (1) 2);
  (*5304*) Del (IT 54);
  (*5305*) AddTo (T 2) (Plain (Transpose (IT 93) [0;1;3;2]));
  (*5306*) Del (IT 93);
  (*5307*) AddTo (T 2) (Times (Copy (IT 76)) (-1) 2);
  (*5308*) Del (IT 76);
  (*5309*) AddTo (T 2) (Times (Copy (IT 90)) (-1) 1);
  (*5310*) Del (IT 90);
  (*5311*) AddTo (T 2) (Times (Copy (IT 96)) (-1) 2);
  (*5312*) Del (IT 96);
  (*5313*) Assign (T 13) (Plain (Einsum [(n_t1'aa,[0;1]); (T 7,[2;3;1])] [0;2;3]));
  (*5314*) Assign n_r2new'bbb (Times (Einsum [(IT 431,[0;1;2;3]); (n_r2'bbb,[3;2;4])] [1;0;4]) (-2) 1);
  (*5315*) Del (IT 431);
  (*5316*) AddTo n_r2new'bbb (Times (Einsum [(IT 244,[0;1;2;3]); (T 75,[4;1;0])] [3;2;4]) (2) 1);
  (*5317*) Del (IT 244);
  (*5317*) Del (T 75);
  (*5318*) AddTo n_r2new'bbb (Times (Transpose (T 81) [1;2;0]) (-1) 1);
  (*5319*) AddTo n_r2new'bbb (Plain (Transpose (T 81) [2;1;0]));
  (*5320*) Del (T 81);
  (*5321*) AddTo n_r2new'bbb (Plain (Transpose (T 88) [1;2;0]));
  (*5322*) AddTo n_r2new'bbb (Times (Transpose (T 88) [2;1;0]) (-1) 1);
  (*5323*) Del (T 88);
  (*5324*) AddTo n_r2new'bbb (Times (Einsum [(n_r2'bbb,[0;1;2]); (T 74,[2;3])] [0;1;3]) (-2) 1);
  (*5325*) Assign n_r2new'bab (Times (Einsum [(n_r1'a,[0]); (n_f'bb'ov,[1;2])] [2;0;1]) (-1) 1);
  (*5326*) AddTo n_r2new'bab (Times (Einsum [(n_r1'a,[0]); (IT 27,[1;2;0;3])] [3;2;1]) (-1) 1);
  (*5327*) Del (IT 27);
  (*5328*) AddTo n_r2new'bab (Times (Einsum [(n_r2'aaa,[0;1;2]); (IT 313,[2;3;1;4])] [4;0;3]) (2) 1);
  (*5329*) Del (IT 313);
  (*5330*) AddTo n_r2new'bab (Plain (Einsum [(n_r2'bab,[0;1;2]); (IT 388,[3;1;0;4])] [4;3;2]));
  (*5331*) AddTo n_r2new'bab (Times (Einsum [(IT 50,[0;1;2;3]); (T 70,[0;4;1])] [3;2;4]) (-1) 1);
  (*5332*) Del (T 70);
  (*5333*) AddTo n_r2new'bab (Times (Einsum [(n_r2'bab,[0;1;2]); (T 71,[2;3;0;4])] [4;1;3]) (-1) 1);
  (*5334*) Del (T 71);
  (*5335*) AddTo n_r2new'bab (Plain (Einsum [(T 72,[0;1;2;3]); (n_r2'bab,[4;2;0])] [4;3;1]));
  (*5336*) Del (T 72);
  (*5337*) AddTo n_r2new'bab (Times (Einsum [(T 73,[0;1]); (n_v'bbb'xov,[0;2;3])] [3;1;2]) (-1) 1);
  (*5338*) Del (T 73);
  (*5339*) AddTo n_r2new'bab (Times (Einsum [(n_r2'bab,[0;1;2]); (T 68,[0;3])] [3;1;2]) (-1) 1);
  (*5340*) AddTo n_r2new'bab (Times (Einsum [(n_r2'bab,[0;1;2]); (T 66,[1;3])] [0;3;2]) (-1) 1);
  (*5341*) AddTo n_r2new'bab (Times (Einsum [(n_r2'bab,[0;1;2]); (T 74,[2;3])] [0;1;3]) (-1) 1);
  (*5342*) Del (T 74);
  (*5343*) AddTo n_r2new'bab (Plain (Einsum [(T 54,[0]); (IT 50,[0;1;2;3])] [3;2;1]));
  (*5344*) Del (T 54);
  (*5345*) Assign n_r2new'aba (Plain (Einsum [(IT 50,[0;1;2;3]); (T 58,[4;0;1])] [2;3;4]));
  (*5346*) Del (T 58);
  (*5347*) AddTo n_r2new'aba (Times (Einsum [(n_f'aa'ov,[0;1]); (n_r1'b,[2])] [1;2;0]) (-1) 1);
  (*5348*) AddTo n_r2new'aba (Times (Einsum [(n_r2'bbb,[0;1;2]); (IT 166,[3;2;4;1])] [4;0;3]) (2) 1);
  (*5349*) Del (IT 166);
  (*5350*) AddTo n_r2new'aba (Plain (Einsum [(n_r2'aba,[0;1;2]); (IT 388,[0;3;4;1])] [3;4;2]));
  (*5351*) Del (IT 388);
  (*5352*) AddTo n_r2new'aba (Times (Einsum [(IT 100,[0;1;2;3]); (n_r1'b,[3])] [1;2;0]) (-1) 1);
  (*5353*) Del (IT 100);
  (*5354*) AddTo n_r2new'aba (Times (Einsum [(T 59,[0;1;2;3]); (n_r2'aba,[2;4;0])] [3;4;1]) (-1) 1);
  (*5355*) Del (T 59);
  (*5356*) AddTo n_r2new'aba (Times (Einsum [(n_r2'aba,[0;1;2]); (T 60,[2;3;4;1])] [0;4;3]) (-1) 1);
  (*5357*) Del (T 60);
  (*5358*) AddTo n_r2new'aba (Times (Einsum [(T 64,[0;1]); (n_v'baa'xov,[0;2;3])] [3;1;2]) (-1) 1);
  (*5359*) Del (T 64);
  (*5360*) AddTo n_r2new'aba (Times (Einsum [(T 66,[0;1]); (n_r2'aba,[0;2;3])] [1;2;3]) (-1) 1);
  (*5361*) Del (T 66);
  (*5362*) AddTo n_r2new'aba (Times (Einsum [(n_r2'aba,[0;1;2]); (T 68,[1;3])] [0;3;2]) (-1) 1);
  (*5363*) Del (T 68);
  (*5364*) AddTo n_r2new'aba (Times (Einsum [(n_r2'aba,[0;1;2]); (T 57,[2;3])] [0;1;3]) (-1) 1);
  (*5365*) AddTo n_r2new'aba (Times (Einsum [(T 69,[0]); (IT 50,[1;0;2;3])] [2;3;1]) (2) 1);
  (*5366*) Del (IT 50);
  (*5366*) Del (T 69);
  (*5367*) Assign n_r2new'aaa (Times (Einsum [(T 39,[0;1;2]); (IT 45,[2;1;3;4])] [4;3;0]) (2) 1);
  (*5368*) Del (IT 45);
  (*5368*) Del (T 39);
  (*5369*) AddTo n_r2new'aaa (Times (Einsum [(IT 366,[0;1;2;3]); (n_r2'aaa,[2;3;4])] [1;0;4]) (2) 1);
  (*5370*) Del (IT 366);
  (*5371*) AddTo n_r2new'aaa (Plain (Transpose (T 51) [1;2;0]));
  (*5372*) AddTo n_r2new'aaa (Times (Transpose (T 51) [2;1;0]) (-1) 1);
  (*5373*) Del (T 51);
  (*5374*) AddTo n_r2new'aaa (Times (Transpose (T 56) [1;2;0]) (-1) 1);
  (*5375*) AddTo n_r2new'aaa (Plain (Transpose (T 56) [2;1;0]));
  (*5376*) Del (T 56);
  (*5377*) AddTo n_r2new'aaa (Times (Einsum [(n_r2'aaa,[0;1;2]); (T 57,[2;3])] [0;1;3]) (-2) 1);
  (*5378*) Del (T 57);
  (*5379*) Assign n_r1new'b (Times (Einsum [(n_r2'aba,[0;1;2]); (T 20,[2;0;3;1])] [3]) (-1) 1);
  (*5380*) Del (T 20);
  (*5381*) AddTo n_r1new'b (Times (Einsum [(n_r2'bbb,[0;1;2]); (T 21,[2;3;1;0])] [3]) (-4) 1);
  (*5382*) Del (T 21);
  (*5383*) AddTo n_r1new'b (Times (Einsum [(T 23,[0;1;2;3]); (T 22,[0;1;2])] [3]) (2) 1);
  (*5384*) Del (T 22);
  (*5384*) Del (T 23);
  (*5385*) AddTo n_r1new'b (Plain (Einsum [(T 24,[0;1;2]); (T 25,[0;1;2;3])] [3]));
  (*5386*) Del (T 24);
  (*5386*) Del (T 25);
  (*5387*) AddTo n_r1new'b (Plain (Einsum [(T 27,[0;1;2;3]); (T 26,[0;1;3])] [2]));
  (*5388*) Del (T 26);
  (*5388*) Del (T 27);
  (*5389*) AddTo n_r1new'b (Times (Einsum [(n_r2'aba,[0;1;2]); (T 28,[2;0])] [1]) (2) 1);
  (*5390*) Del (T 28);
  (*5391*) AddTo n_r1new'b (Times (Einsum [(n_r2'bbb,[0;1;2]); (T 29,[2;1])] [0]) (-2) 1);
  (*5392*) Del (T 29);
  (*5393*) AddTo n_r1new'b (Times (Einsum [(T 30,[0;1;2]); (T 31,[0;2;1;3])] [3]) (-2) 1);
  (*5394*) Del (T 30);
  (*5394*) Del (T 31);
  (*5395*) AddTo n_r1new'b (Times (Einsum [(T 33,[0;1;2;3]); (T 32,[0;1;2])] [3]) (-1) 1);
  (*5396*) Del (T 33);
  (*5396*) Del (T 32);
  (*5397*) AddTo n_r1new'b (Times (Einsum [(T 34,[0;1]); (n_r1'b,[0])] [1]) (-1) 1);
  (*5398*) Del (T 34);
  (*5399*) AddTo n_r1new'b (Times (Einsum [(T 37,[0]); (T 38,[0;1])] [1]) (-1) 1);
  (*5400*) Del (T 37);
  (*5400*) Del (T 38);
  (*5401*) Assign n_r1new'a (Times (Einsum [(T 1,[0;1;2;3]); (n_r2'bab,[3;1;0])] [2]) (-1) 1);
  (*5402*) Del (T 1);
  (*5403*) AddTo n_r1new'a (Times (Einsum [(n_r2'aaa,[0;1;2]); (T 2,[2;0;1;3])] [3]) (4) 1);
  (*5404*) Del (T 2);
  (*5405*) AddTo n_r1new'a (Times (Einsum [(T 3,[0;1;2]); (T 4,[0;1;2;3])] [3]) (2) 1);
  (*5406*) Del (T 3);
  (*5406*) Del (T 4);
  (*5407*) AddTo n_r1new'a (Times (Einsum [(T 6,[0;1;2;3]); (T 5,[0;1;3])] [2]) (-1) 1);
  (*5408*) Del (T 6);
  (*5408*) Del (T 5);
  (*5409*) AddTo n_r1new'a (Times (Einsum [(T 7,[0;1;2]); (T 8,[0;1;2;3])] [3]) (-1) 1);
  (*5410*) Del (T 7);
  (*5410*) Del (T 8);
  (*5411*) AddTo n_r1new'a (Times (Einsum [(n_r2'aaa,[0;1;2]); (T 9,[2;1])] [0]) (-2) 1);
  (*5412*) Del (T 9);
  (*5413*) AddTo n_r1new'a (Times (Einsum [(n_r2'bab,[0;1;2]); (T 10,[2;0])] [1]) (2) 1);
  (*5414*) Del (T 10);
  (*5415*) AddTo n_r1new'a (Times (Einsum [(T 11,[0;1;2]); (T 12,[0;2;1;3])] [3]) (-2) 1);
  (*5416*) Del (T 11);
  (*5416*) Del (T 12);
  (*5417*) AddTo n_r1new'a (Plain (Einsum [(T 13,[0;1;2]); (T 14,[0;1;2;3])] [3]));
  (*5418*) Del (T 13);
  (*5418*) Del (T 14);
  (*5419*) AddTo n_r1new'a (Times (Einsum [(n_r1'a,[0]); (T 15,[0;1])] [1]) (-1) 1);
  (*5420*) Del (T 15);
  (*5421*) AddTo n_r1new'a (Times (Einsum [(T 19,[0;1]); (T 18,[0])] [1]) (-2) 1);
  (*5422*) Del (T 19);
  (*5422*) Del (T 18)]
 [(n_r1new'b,[7]); (n_r1new'a,[5]); (n_r2new'bbb,[7;7;6]); (n_r2new'bab,[7;5;6]); (n_r2new'aba,[5;7;4]); (n_r2new'aaa,[5;5;4])].

