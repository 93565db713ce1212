(** Generated by tools/translate_codegen.py from ebcc/codegen/RDFCCSD.py; one statement per source line
    (the number in the comment before it). *)
From Coq Require Import ZArith List.
From Verif Require Import CgModel CgNames.
Import ListNotations.

(** ebcc/codegen/RDFCCSD.py:19-56 [energy] *)
Definition RDFCCSD_energy : prog := mkprog
 [(n_v'xov,[2;0;1]); (n_t1,[0;1]); (n_t2,[0;0;1;1]); (n_f'ov,[0;1])]
 [(*40*) Assign (T 4) (Plain (Einsum [(n_v'xov,[0;1;2]); (n_t1,[3;2])] [3;1;0]));
  (*41*) Assign (T 1) (Plain (Einsum [(n_t1,[0;1]); (n_v'xov,[2;0;1])] [2]));
  (*42*) Assign (T 2) (Times (Transpose n_t2 [0;1;3;2]) (2) 1);
  (*43*) AddTo (T 2) (Times (Copy n_t2) (-1) 1);
  (*44*) Assign (T 5) (Times (Copy n_f'ov) (2) 1);
  (*45*) AddTo (T 5) (Times (Einsum [(n_v'xov,[0;1;2]); (T 4,[1;3;0])] [3;2]) (-1) 1);
  (*46*) Del (T 4);
  (*47*) Assign (T 3) (Plain (Einsum [(T 1,[0]); (n_t1,[1;2])] [1;2;0]));
  (*48*) Del (T 1);
  (*49*) AddTo (T 3) (Times (Einsum [(T 2,[0;1;2;3]); (n_v'xov,[4;0;3])] [1;2;4]) (1) 2);
  (*50*) Del (T 2);
  (*51*) Assign n_e_cc (Times (Einsum [(T 3,[0;1;2]); (n_v'xov,[2;0;1])] []) (2) 1);
  (*52*) Del (T 3);
  (*53*) AddTo n_e_cc (Plain (Einsum [(T 5,[0;1]); (n_t1,[0;1])] []));
  (*54*) Del (T 5)]
 [(n_e_cc,[])].

(** ebcc/codegen/RDFCCSD.py:58-338 [update_amps] *)
Definition RDFCCSD_update_amps : prog := mkprog
 [(n_v'xov,[2;0;1]); (n_t1,[0;1]); (n_t2,[0;0;1;1]); (n_v'xoo,[2;0;0]); (n_v'xvv,[2;1;1]); (n_f'ov,[0;1]); (n_f'vv,[1;1]); (n_f'oo,[0;0])]
 [(*81*) Assign (T 3) (Plain (Einsum [(n_v'xov,[0;1;2]); (n_t1,[3;2])] [3;1;0]));
  (*82*) Assign (T 1) (Plain (Einsum [(n_t1,[0;1]); (n_v'xov,[2;0;1])] [2]));
  (*83*) Assign (T 18) (Plain (Einsum [(n_t2,[0;1;2;3]); (n_v'xov,[4;1;2])] [0;3;4]));
  (*84*) Assign (T 38) (Plain (Einsum [(n_v'xov,[0;1;2]); (T 3,[3;4;0])] [3;1;4;2]));
  (*85*) Assign (T 45) (Plain (Copy n_t2));
  (*86*) AddTo (T 45) (Plain (Einsum [(n_t1,[0;1]); (n_t1,[2;3])] [2;0;3;1]));
  (*87*) Assign (T 10) (Plain (Einsum [(n_v'xov,[0;1;2]); (T 3,[1;3;0])] [3;2]));
  (*88*) Assign (T 2) (Plain (Einsum [(T 1,[0]); (n_v'xov,[0;1;2])] [1;2]));
  (*89*) Assign (T 40) (Plain (Einsum [(n_v'xov,[0;1;2]); (n_v'xoo,[0;3;4])] [3;4;1;2]));
  (*90*) Assign (T 19) (Plain (Einsum [(n_v'xov,[0;1;2]); (n_v'xov,[0;3;4])] [3;1;4;2]));
  (*91*) Assign (T 53) (Plain (Transpose n_v'xov [1;2;0]));
  (*92*) AddTo (T 53) (Times (Copy (T 18)) (-1) 1);
  (*93*) Assign (T 22) (Plain (Einsum [(n_t1,[0;1]); (n_v'xvv,[2;3;1])] [0;3;2]));
  (*94*) Assign (T 65) (Times (Copy (T 38)) (2) 1);
  (*95*) AddTo (T 65) (Times (Transpose (T 38) [0;2;1;3]) (-1) 1);
  (*96*) Assign (T 6) (Times (Transpose n_t2 [0;1;3;2]) (2) 1);
  (*97*) AddTo (T 6) (Times (Copy n_t2) (-1) 1);
  (*98*) Assign (T 46) (Plain (Einsum [(T 45,[0;1;2;3]); (n_v'xov,[4;0;3])] [1;2;4]));
  (*99*) Del (T 45);
  (*100*) Assign (T 43) (Times (Copy (T 2)) (2) 1);
  (*101*) AddTo (T 43) (Times (Copy (T 10)) (-1) 1);
  (*102*) Assign (T 41) (Times (Transpose (T 40) [1;0;2;3]) (2) 1);
  (*103*) AddTo (T 41) (Times (Transpose (T 40) [1;2;0;3]) (-1) 1);
  (*104*) Assign (T 12) (Times (Transpose n_t2 [0;1;3;2]) (2) 1);
  (*105*) AddTo (T 12) (Times (Copy n_t2) (-1) 1);
  (*106*) Assign (T 31) (Plain (Einsum [(n_v'xvv,[0;1;2]); (n_v'xoo,[0;3;4])] [3;4;1;2]));
  (*107*) Assign (T 20) (Plain (Einsum [(T 19,[0;1;2;3]); (n_t2,[4;0;3;5])] [4;1;5;2]));
  (*108*) Assign (T 54) (Plain (Einsum [(T 53,[0;1;2]); (n_v'xov,[2;3;4])] [0;3;1;4]));
  (*109*) Del (T 53);
  (*110*) Assign (T 59) (Plain (Einsum [(T 1,[0]); (n_v'xvv,[0;1;2])] [1;2]));
  (*111*) Assign (T 60) (Plain (Einsum [(T 22,[0;1;2]); (n_v'xov,[2;0;3])] [3;1]));
  (*112*) Assign (T 69) (Plain (Einsum [(n_v'xoo,[0;1;2]); (T 3,[2;3;0])] [1;3]));
  (*113*) Assign (T 13) (Plain (Einsum [(T 1,[0]); (n_v'xoo,[0;1;2])] [1;2]));
  (*114*) Assign (T 64) (Plain (Einsum [(T 18,[0;1;2]); (T 3,[3;4;2])] [3;0;4;1]));
  (*115*) Assign (T 66) (Plain (Einsum [(n_t2,[0;1;2;3]); (T 65,[4;1;5;3])] [4;5;0;2]));
  (*116*) Del (T 65);
  (*117*) Assign (T 63) (Plain (Einsum [(T 40,[0;1;2;3]); (n_t2,[4;1;3;5])] [4;0;2;5]));
  (*118*) Del (T 40);
  (*119*) Assign (T 7) (Plain (Einsum [(n_v'xoo,[0;1;2]); (n_t1,[2;3])] [1;3;0]));
  (*120*) Assign (T 73) (Plain (Einsum [(n_v'xov,[0;1;2]); (n_v'xvv,[0;3;4])] [1;3;4;2]));
  (*121*) Assign (T 14) (Plain (Einsum [(T 6,[0;1;2;3]); (n_v'xov,[4;0;3])] [1;2;4]));
  (*122*) Assign (T 39) (Plain (Einsum [(T 38,[0;1;2;3]); (n_t2,[4;2;3;5])] [0;4;1;5]));
  (*123*) Del (T 38);
  (*124*) Assign (T 47) (Plain (Einsum [(T 46,[0;1;2]); (n_v'xoo,[2;3;4])] [0;3;4;1]));
  (*125*) Assign (T 44) (Plain (Einsum [(n_t2,[0;1;2;3]); (T 43,[4;2])] [4;0;1;3]));
  (*126*) Assign (T 42) (Plain (Einsum [(T 41,[0;1;2;3]); (n_t2,[4;2;5;3])] [0;1;4;5]));
  (*127*) Del (T 41);
  (*128*) Assign (T 35) (Plain (Einsum [(n_v'xov,[0;1;2]); (T 12,[1;3;4;2])] [3;4;0]));
  (*129*) Assign (T 55) (Plain (Transpose (T 31) [1;0;3;2]));
  (*130*) AddTo (T 55) (Times (Copy (T 20)) (-1) 1);
  (*131*) AddTo (T 55) (Times (Copy (T 54)) (-2) 1);
  (*132*) Del (T 54);
  (*133*) Assign (T 61) (Times (Transpose (T 59) [1;0]) (2) 1);
  (*134*) Del (T 59);
  (*135*) AddTo (T 61) (Times (Copy (T 60)) (-1) 1);
  (*136*) Del (T 60);
  (*137*) Assign (T 70) (Times (Transpose (T 69) [1;0]) (-1) 1);
  (*138*) Del (T 69);
  (*139*) AddTo (T 70) (Times (Transpose (T 13) [1;0]) (2) 1);
  (*140*) Assign (T 67) (Plain (Copy (T 63)));
  (*141*) Del (T 63);
  (*142*) AddTo (T 67) (Plain (Copy (T 64)));
  (*143*) Del (T 64);
  (*144*) AddTo (T 67) (Times (Transpose (T 66) [0;2;1;3]) (-1) 1);
  (*145*) Del (T 66);
  (*146*) Assign (T 57) (Plain (Copy (T 7)));
  (*147*) AddTo (T 57) (Plain (Copy (T 46)));
  (*148*) Del (T 46);
  (*149*) Assign (T 74) (Plain (Einsum [(T 73,[0;1;2;3]); (n_t2,[4;5;3;2])] [4;5;0;1]));
  (*150*) Del (T 73);
  (*151*) Assign (T 78) (Plain (Einsum [(n_v'xov,[0;1;2]); (T 14,[3;2;0])] [3;1]));
  (*152*) Assign (T 76) (Times (Einsum [(n_v'xov,[0;1;2]); (T 14,[1;3;0])] [3;2]) (1) 2);
  (*153*) Assign (T 48) (Plain (Transpose (T 39) [0;2;1;3]));
  (*154*) Del (T 39);
  (*155*) AddTo (T 48) (Times (Transpose (T 42) [2;1;0;3]) (-1) 1);
  (*156*) Del (T 42);
  (*157*) AddTo (T 48) (Times (Transpose (T 44) [2;0;1;3]) (-1) 1);
  (*158*) Del (T 44);
  (*159*) AddTo (T 48) (Plain (Transpose (T 47) [0;2;1;3]));
  (*160*) Del (T 47);
  (*161*) Assign (T 36) (Plain (Transpose n_v'xov [1;2;0]));
  (*162*) AddTo (T 36) (Times (Copy (T 7)) (-1) 1);
  (*163*) AddTo (T 36) (Plain (Copy (T 35)));
  (*164*) Del (T 35);
  (*165*) Assign (T 33) (Plain (Einsum [(n_v'xvv,[0;1;2]); (T 3,[3;4;0])] [3;4;1;2]));
  (*166*) Assign (T 50) (Plain (Einsum [(T 43,[0;1]); (n_t1,[2;1])] [0;2]));
  (*167*) Del (T 43);
  (*168*) Assign (T 83) (Plain (Einsum [(T 22,[0;1;2]); (T 3,[3;4;2])] [3;0;4;1]));
  (*169*) Assign (T 27) (Plain (Einsum [(n_v'xoo,[0;1;2]); (T 3,[3;4;0])] [3;1;2;4]));
  (*170*) Assign (T 23) (Plain (Einsum [(n_t1,[0;1]); (n_f'ov,[2;1])] [2;0]));
  (*171*) Assign (T 25) (Plain (Einsum [(n_f'ov,[0;1]); (n_t2,[2;3;4;1])] [0;2;3;4]));
  (*172*) Assign (T 56) (Plain (Einsum [(T 55,[0;1;2;3]); (n_t2,[4;1;5;3])] [0;4;2;5]));
  (*173*) Del (T 55);
  (*174*) Assign (T 62) (Plain (Einsum [(n_t2,[0;1;2;3]); (T 61,[2;4])] [0;1;4;3]));
  (*175*) Del (T 61);
  (*176*) Assign (T 71) (Plain (Einsum [(n_t2,[0;1;2;3]); (T 70,[1;4])] [4;0;3;2]));
  (*177*) Del (T 70);
  (*178*) Assign (T 68) (Plain (Einsum [(T 67,[0;1;2;3]); (n_t1,[2;4])] [0;1;3;4]));
  (*179*) Del (T 67);
  (*180*) Assign (T 58) (Plain (Einsum [(T 57,[0;1;2]); (n_v'xov,[2;3;4])] [0;3;1;4]));
  (*181*) Del (T 57);
  (*182*) Assign (T 75) (Plain (Einsum [(n_t1,[0;1]); (T 74,[2;3;0;4])] [2;3;1;4]));
  (*183*) Del (T 74);
  (*184*) Assign (T 79) (Plain (Einsum [(T 78,[0;1]); (n_t2,[2;1;3;4])] [0;2;4;3]));
  (*185*) Del (T 78);
  (*186*) Assign (T 77) (Times (Einsum [(T 76,[0;1]); (n_t2,[2;3;1;4])] [2;3;0;4]) (2) 1);
  (*187*) Del (T 76);
  (*188*) Assign (T 49) (Plain (Einsum [(T 48,[0;1;2;3]); (n_t1,[1;4])] [0;2;3;4]));
  (*189*) Del (T 48);
  (*190*) Assign (T 37) (Plain (Einsum [(T 22,[0;1;2]); (T 36,[3;4;2])] [0;3;1;4]));
  (*191*) Del (T 36);
  (*192*) Assign (T 34) (Plain (Einsum [(n_t2,[0;1;2;3]); (T 33,[4;1;5;3])] [4;0;2;5]));
  (*193*) Assign (T 30) (Plain (Einsum [(n_f'vv,[0;1]); (n_t2,[2;3;4;1])] [2;3;0;4]));
  (*194*) Assign (T 51) (Plain (Einsum [(n_t2,[0;1;2;3]); (T 50,[1;4])] [4;0;3;2]));
  (*195*) Del (T 50);
  (*196*) Assign (T 32) (Plain (Einsum [(T 31,[0;1;2;3]); (n_t2,[4;1;3;5])] [4;0;5;2]));
  (*197*) Del (T 31);
  (*198*) Assign (T 82) (Plain (Einsum [(T 33,[0;1;2;3]); (n_t2,[4;1;3;5])] [0;4;5;2]));
  (*199*) Del (T 33);
  (*200*) Assign (T 84) (Plain (Einsum [(n_t1,[0;1]); (T 83,[2;3;0;4])] [2;3;1;4]));
  (*201*) Del (T 83);
  (*202*) Assign (T 28) (Plain (Einsum [(T 27,[0;1;2;3]); (n_t2,[1;3;4;5])] [0;2;4;5]));
  (*203*) Del (T 27);
  (*204*) Assign (T 24) (Plain (Einsum [(n_t2,[0;1;2;3]); (T 23,[1;4])] [4;0;2;3]));
  (*205*) Del (T 23);
  (*206*) Assign (T 26) (Plain (Einsum [(n_t1,[0;1]); (T 25,[0;2;3;4])] [2;3;1;4]));
  (*207*) Del (T 25);
  (*208*) Assign (T 88) (Plain (Einsum [(T 19,[0;1;2;3]); (n_t1,[1;4])] [0;4;2;3]));
  (*209*) Assign (T 90) (Times (Transpose (T 19) [1;0;2;3]) (-1) 1);
  (*210*) AddTo (T 90) (Times (Transpose (T 19) [1;0;3;2]) (2) 1);
  (*211*) Assign (T 4) (Plain (Transpose n_v'xoo [1;2;0]));
  (*212*) AddTo (T 4) (Plain (Transpose (T 3) [1;0;2]));
  (*213*) Assign (T 8) (Times (Einsum [(n_t1,[0;1]); (n_t1,[2;3])] [2;0;3;1]) (1) 2);
  (*214*) AddTo (T 8) (Times (Transpose n_t2 [0;1;3;2]) (-1) 1);
  (*215*) AddTo (T 8) (Times (Copy n_t2) (1) 2);
  (*216*) Assign (T 16) (Plain (Copy n_f'ov));
  (*217*) AddTo (T 16) (Times (Copy (T 10)) (-1) 1);
  (*218*) Assign (T 15) (Times (Copy (T 7)) (-1) 1);
  (*219*) AddTo (T 15) (Times (Einsum [(T 1,[0]); (n_t1,[1;2])] [1;2;0]) (2) 1);
  (*220*) AddTo (T 15) (Plain (Copy (T 14)));
  (*221*) Del (T 14);
  (*222*) Assign (T 72) (Plain (Transpose (T 56) [1;0;3;2]));
  (*223*) Del (T 56);
  (*224*) AddTo (T 72) (Plain (Copy (T 58)));
  (*225*) Del (T 58);
  (*226*) AddTo (T 72) (Times (Transpose (T 62) [1;0;3;2]) (-1) 1);
  (*227*) Del (T 62);
  (*228*) AddTo (T 72) (Times (Transpose (T 68) [0;1;3;2]) (-1) 1);
  (*229*) Del (T 68);
  (*230*) AddTo (T 72) (Plain (Transpose (T 71) [1;0;3;2]));
  (*231*) Del (T 71);
  (*232*) Assign (T 80) (Plain (Copy (T 75)));
  (*233*) Del (T 75);
  (*234*) AddTo (T 80) (Plain (Transpose (T 77) [1;0;3;2]));
  (*235*) Del (T 77);
  (*236*) AddTo (T 80) (Plain (Transpose (T 79) [1;0;3;2]));
  (*237*) Del (T 79);
  (*238*) Assign (T 52) (Plain (Copy (T 30)));
  (*239*) Del (T 30);
  (*240*) AddTo (T 52) (Times (Copy (T 32)) (-1) 1);
  (*241*) Del (T 32);
  (*242*) AddTo (T 52) (Times (Copy (T 34)) (-1) 1);
  (*243*) Del (T 34);
  (*244*) AddTo (T 52) (Plain (Transpose (T 37) [0;1;3;2]));
  (*245*) Del (T 37);
  (*246*) AddTo (T 52) (Plain (Transpose (T 49) [0;1;3;2]));
  (*247*) Del (T 49);
  (*248*) AddTo (T 52) (Times (Transpose (T 51) [0;1;3;2]) (-1) 1);
  (*249*) Del (T 51);
  (*250*) Assign (T 85) (Plain (Copy (T 82)));
  (*251*) Del (T 82);
  (*252*) AddTo (T 85) (Plain (Copy (T 84)));
  (*253*) Del (T 84);
  (*254*) Assign (T 29) (Plain (Copy (T 24)));
  (*255*) Del (T 24);
  (*256*) AddTo (T 29) (Plain (Copy (T 26)));
  (*257*) Del (T 26);
  (*258*) AddTo (T 29) (Times (Copy (T 28)) (-1) 1);
  (*259*) Del (T 28);
  (*260*) Assign (T 89) (Plain (Einsum [(n_v'xvv,[0;1;2]); (n_v'xvv,[0;3;4])] [3;1;2;4]));
  (*261*) AddTo (T 89) (Plain (Einsum [(n_t1,[0;1]); (T 88,[0;2;3;4])] [4;1;3;2]));
  (*262*) Del (T 88);
  (*263*) Assign (T 91) (Plain (Einsum [(n_t2,[0;1;2;3]); (T 90,[1;4;3;5])] [0;4;2;5]));
  (*264*) Del (T 90);
  (*265*) Assign (T 81) (Plain (Einsum [(n_t2,[0;1;2;3]); (n_f'oo,[4;1])] [4;0;2;3]));
  (*266*) Assign (T 21) (Plain (Einsum [(n_t2,[0;1;2;3]); (T 19,[4;5;3;2])] [0;1;5;4]));
  (*267*) Assign (T 87) (Plain (Copy n_t2));
  (*268*) AddTo (T 87) (Plain (Einsum [(n_t1,[0;1]); (n_t1,[2;3])] [2;0;3;1]));
  (*269*) Assign (T 86) (Plain (Einsum [(n_v'xoo,[0;1;2]); (n_v'xoo,[0;3;4])] [1;3;4;2]));
  (*270*) AddTo (T 86) (Plain (Einsum [(T 3,[0;1;2]); (T 3,[3;4;2])] [4;0;1;3]));
  (*271*) Del (T 3);
  (*272*) Assign (T 5) (Plain (Einsum [(n_v'xov,[0;1;2]); (T 4,[3;4;0])] [4;1;3;2]));
  (*273*) Del (T 4);
  (*274*) Assign (T 11) (Plain (Copy n_f'ov));
  (*275*) AddTo (T 11) (Times (Copy (T 2)) (2) 1);
  (*276*) AddTo (T 11) (Times (Copy (T 10)) (-1) 1);
  (*277*) Del (T 10);
  (*278*) Assign (T 9) (Plain (Copy (T 7)));
  (*279*) Del (T 7);
  (*280*) AddTo (T 9) (Times (Einsum [(T 1,[0]); (n_t1,[1;2])] [1;2;0]) (-2) 1);
  (*281*) Del (T 1);
  (*282*) AddTo (T 9) (Times (Einsum [(n_v'xov,[0;1;2]); (T 8,[1;3;4;2])] [3;4;0]) (2) 1);
  (*283*) Del (T 8);
  (*284*) Assign (T 17) (Plain (Copy n_f'oo));
  (*285*) AddTo (T 17) (Times (Transpose (T 13) [1;0]) (2) 1);
  (*286*) Del (T 13);
  (*287*) AddTo (T 17) (Plain (Einsum [(T 15,[0;1;2]); (n_v'xov,[2;3;1])] [3;0]));
  (*288*) Del (T 15);
  (*289*) AddTo (T 17) (Plain (Einsum [(T 16,[0;1]); (n_t1,[2;1])] [0;2]));
  (*290*) Del (T 16);
  (*291*) Assign n_t2new (Plain (Einsum [(T 18,[0;1;2]); (T 18,[3;4;2])] [0;3;1;4]));
  (*292*) Del (T 18);
  (*293*) AddTo n_t2new (Plain (Einsum [(T 20,[0;1;2;3]); (n_t2,[4;1;3;5])] [4;0;2;5]));
  (*294*) Del (T 20);
  (*295*) AddTo n_t2new (Plain (Einsum [(n_t2,[0;1;2;3]); (T 21,[4;5;0;1])] [5;4;3;2]));
  (*296*) Del (T 21);
  (*297*) AddTo n_t2new (Plain (Transpose (T 19) [1;0;3;2]));
  (*298*) Del (T 19);
  (*299*) AddTo n_t2new (Plain (Einsum [(T 22,[0;1;2]); (T 22,[3;4;2])] [0;3;1;4]));
  (*300*) Del (T 22);
  (*301*) AddTo n_t2new (Times (Transpose (T 29) [0;1;3;2]) (-1) 1);
  (*302*) AddTo n_t2new (Times (Transpose (T 29) [1;0;2;3]) (-1) 1);
  (*303*) Del (T 29);
  (*304*) AddTo n_t2new (Plain (Transpose (T 52) [0;1;3;2]));
  (*305*) AddTo n_t2new (Plain (Transpose (T 52) [1;0;2;3]));
  (*306*) Del (T 52);
  (*307*) AddTo n_t2new (Times (Copy (T 72)) (-1) 1);
  (*308*) AddTo n_t2new (Times (Transpose (T 72) [1;0;3;2]) (-1) 1);
  (*309*) Del (T 72);
  (*310*) AddTo n_t2new (Times (Copy (T 80)) (-1) 1);
  (*311*) AddTo n_t2new (Times (Transpose (T 80) [1;0;3;2]) (-1) 1);
  (*312*) Del (T 80);
  (*313*) AddTo n_t2new (Times (Transpose (T 81) [0;1;3;2]) (-1) 1);
  (*314*) AddTo n_t2new (Times (Transpose (T 81) [1;0;2;3]) (-1) 1);
  (*315*) Del (T 81);
  (*316*) AddTo n_t2new (Times (Copy (T 85)) (-1) 1);
  (*317*) AddTo n_t2new (Times (Transpose (T 85) [1;0;3;2]) (-1) 1);
  (*318*) Del (T 85);
  (*319*) AddTo n_t2new (Plain (Einsum [(T 86,[0;1;2;3]); (T 87,[0;2;4;5])] [1;3;5;4]));
  (*320*) Del (T 86);
  (*320*) Del (T 87);
  (*321*) AddTo n_t2new (Plain (Einsum [(T 89,[0;1;2;3]); (n_t2,[4;5;2;0])] [4;5;1;3]));
  (*322*) Del (T 89);
  (*323*) AddTo n_t2new (Times (Einsum [(T 91,[0;1;2;3]); (n_t2,[4;1;5;3])] [0;4;2;5]) (2) 1);
  (*324*) Del (T 91);
  (*325*) Assign n_t1new (Plain (Copy n_f'ov));
  (*326*) AddTo n_t1new (Times (Copy (T 2)) (2) 1);
  (*327*) Del (T 2);
  (*328*) AddTo n_t1new (Plain (Einsum [(n_t1,[0;1]); (n_f'vv,[2;1])] [0;2]));
  (*329*) AddTo n_t1new (Times (Einsum [(T 5,[0;1;2;3]); (T 6,[1;2;4;3])] [0;4]) (-1) 1);
  (*330*) Del (T 6);
  (*330*) Del (T 5);
  (*331*) AddTo n_t1new (Times (Einsum [(n_v'xvv,[0;1;2]); (T 9,[3;2;0])] [3;1]) (-1) 1);
  (*332*) Del (T 9);
  (*333*) AddTo n_t1new (Plain (Einsum [(T 11,[0;1]); (T 12,[0;2;3;1])] [2;3]));
  (*334*) Del (T 12);
  (*334*) Del (T 11);
  (*335*) AddTo n_t1new (Times (Einsum [(T 17,[0;1]); (n_t1,[0;2])] [1;2]) (-1) 1);
  (*336*) Del (T 17)]
 [(n_t1new,[0;1]); (n_t2new,[0;0;1;1])].

(** ebcc/codegen/RDFCCSD.py:340-754 [update_lams] *)
Definition RDFCCSD_update_lams : prog := mkprog
 [(n_t1,[0;1]); (n_v'xov,[2;0;1]); (n_t2,[0;0;1;1]); (n_l2,[1;1;0;0]); (n_v'xvv,[2;1;1]); (n_v'xoo,[2;0;0]); (n_l1,[1;0]); (n_f'ov,[0;1]); (n_f'vv,[1;1]); (n_f'oo,[0;0])]
 [(*367*) Assign (T 10) (Plain (Einsum [(n_t1,[0;1]); (n_v'xov,[2;0;1])] [2]));
  (*368*) Assign (T 12) (Plain (Einsum [(n_v'xov,[0;1;2]); (n_t1,[3;2])] [3;1;0]));
  (*369*) Assign (T 90) (Times (Transpose n_t2 [0;1;3;2]) (2) 1);
  (*370*) AddTo (T 90) (Times (Copy n_t2) (-1) 1);
  (*371*) Assign (T 18) (Times (Transpose n_t2 [0;1;3;2]) (-1) 2);
  (*372*) AddTo (T 18) (Plain (Copy n_t2));
  (*373*) Assign (T 11) (Plain (Einsum [(T 10,[0]); (n_v'xov,[0;1;2])] [1;2]));
  (*374*) Assign (T 13) (Plain (Einsum [(T 12,[0;1;2]); (n_v'xov,[2;0;3])] [1;3]));
  (*375*) Assign (T 35) (Plain (Einsum [(n_l2,[0;1;2;3]); (n_t1,[4;1])] [2;3;4;0]));
  (*376*) Assign (T 94) (Plain (Einsum [(T 90,[0;1;2;3]); (n_v'xov,[4;0;3])] [1;2;4]));
  (*377*) Assign (T 1) (Plain (Einsum [(n_t1,[0;1]); (n_v'xvv,[2;3;1])] [0;3;2]));
  (*378*) Assign (T 19) (Times (Transpose n_t2 [0;1;3;2]) (2) 1);
  (*379*) AddTo (T 19) (Times (Copy n_t2) (-1) 1);
  (*380*) Assign (T 6) (Plain (Einsum [(n_v'xov,[0;1;2]); (n_v'xov,[0;3;4])] [3;1;4;2]));
  (*381*) Assign (T 79) (Plain (Transpose n_v'xoo [1;2;0]));
  (*382*) AddTo (T 79) (Plain (Transpose (T 12) [1;0;2]));
  (*383*) Assign (T 49) (Plain (Einsum [(n_l1,[0;1]); (n_t1,[2;0])] [1;2]));
  (*384*) Assign (T 50) (Plain (Einsum [(T 18,[0;1;2;3]); (n_l2,[2;3;0;4])] [4;1]));
  (*385*) Assign (T 104) (Times (Copy (T 11)) (2) 1);
  (*386*) AddTo (T 104) (Times (Copy (T 13)) (-1) 1);
  (*387*) Assign (T 98) (Times (Copy (T 35)) (-1) 1);
  (*388*) AddTo (T 98) (Times (Transpose (T 35) [1;0;2;3]) (2) 1);
  (*389*) Assign (T 100) (Times (Copy (T 35)) (2) 1);
  (*390*) AddTo (T 100) (Times (Transpose (T 35) [1;0;2;3]) (-1) 1);
  (*391*) Assign (T 96) (Times (Transpose n_l2 [3;2;0;1]) (2) 1);
  (*392*) AddTo (T 96) (Times (Transpose n_l2 [2;3;0;1]) (-1) 1);
  (*393*) Assign (T 95) (Plain (Transpose n_v'xov [1;2;0]));
  (*394*) AddTo (T 95) (Plain (Copy (T 1)));
  (*395*) AddTo (T 95) (Plain (Copy (T 94)));
  (*396*) Del (T 94);
  (*397*) Assign (T 20) (Plain (Einsum [(n_v'xov,[0;1;2]); (T 19,[1;3;4;2])] [3;4;0]));
  (*398*) Assign (T 78) (Plain (Einsum [(T 6,[0;1;2;3]); (n_t2,[4;1;2;5])] [4;0;5;3]));
  (*399*) Assign (T 80) (Plain (Einsum [(T 79,[0;1;2]); (n_v'xvv,[2;3;4])] [0;1;3;4]));
  (*400*) Del (T 79);
  (*401*) Assign (T 38) (Times (Einsum [(T 18,[0;1;2;3]); (n_l2,[4;2;1;0])] [4;3]) (2) 1);
  (*402*) Assign (T 51) (Times (Copy (T 49)) (1) 2);
  (*403*) AddTo (T 51) (Plain (Copy (T 50)));
  (*404*) Del (T 50);
  (*405*) Assign (T 91) (Plain (Einsum [(T 6,[0;1;2;3]); (T 90,[0;4;5;3])] [1;4;2;5]));
  (*406*) Del (T 90);
  (*407*) Assign (T 62) (Plain (Einsum [(n_v'xoo,[0;1;2]); (T 12,[2;3;0])] [1;3]));
  (*408*) Assign (T 105) (Plain (Einsum [(n_t1,[0;1]); (T 104,[2;1])] [0;2]));
  (*409*) Assign (T 99) (Plain (Einsum [(n_v'xoo,[0;1;2]); (T 98,[1;3;2;4])] [3;4;0]));
  (*410*) Del (T 98);
  (*411*) Assign (T 101) (Plain (Einsum [(T 100,[0;1;2;3]); (T 12,[1;2;4])] [0;3;4]));
  (*412*) Del (T 100);
  (*413*) Assign (T 97) (Plain (Einsum [(T 95,[0;1;2]); (T 96,[0;3;4;1])] [3;4;2]));
  (*414*) Del (T 95);
  (*414*) Del (T 96);
  (*415*) Assign (T 61) (Plain (Einsum [(T 10,[0]); (n_v'xoo,[0;1;2])] [1;2]));
  (*416*) Assign (T 118) (Times (Einsum [(T 20,[0;1;2]); (n_v'xov,[2;3;1])] [3;0]) (1) 2);
  (*417*) Assign (T 7) (Plain (Einsum [(T 6,[0;1;2;3]); (n_t2,[4;5;2;3])] [4;5;0;1]));
  (*418*) Assign (T 4) (Plain (Einsum [(n_v'xov,[0;1;2]); (n_v'xvv,[0;3;4])] [1;3;4;2]));
  (*419*) Assign (T 27) (Plain (Einsum [(T 12,[0;1;2]); (T 12,[3;4;2])] [0;3;1;4]));
  (*420*) Assign (T 74) (Plain (Einsum [(n_v'xov,[0;1;2]); (n_v'xoo,[0;3;4])] [3;4;1;2]));
  (*421*) Assign (T 124) (Plain (Einsum [(T 1,[0;1;2]); (n_v'xov,[2;0;3])] [3;1]));
  (*422*) Assign (T 71) (Plain (Einsum [(n_v'xvv,[0;1;2]); (n_l1,[2;3])] [3;1;0]));
  (*423*) Assign (T 76) (Plain (Einsum [(n_v'xov,[0;1;2]); (T 12,[3;4;0])] [3;1;4;2]));
  (*424*) Assign (T 68) (Plain (Einsum [(n_t1,[0;1]); (n_f'ov,[2;1])] [2;0]));
  (*425*) Assign (T 81) (Times (Copy (T 78)) (-1) 1);
  (*426*) Del (T 78);
  (*427*) AddTo (T 81) (Plain (Transpose (T 80) [1;0;3;2]));
  (*428*) Assign (T 23) (Plain (Einsum [(n_v'xoo,[0;1;2]); (T 12,[3;4;0])] [3;1;2;4]));
  (*429*) Assign (T 113) (Times (Einsum [(n_v'xov,[0;1;2]); (T 38,[3;2])] [1;3;0]) (1) 2);
  (*430*) Assign (T 111) (Times (Einsum [(T 51,[0;1]); (n_v'xov,[2;1;3])] [0;3;2]) (2) 1);
  (*431*) Assign (T 92) (Plain (Transpose (T 91) [1;0;3;2]));
  (*432*) Del (T 91);
  (*433*) AddTo (T 92) (Plain (Transpose (T 80) [1;0;3;2]));
  (*434*) Del (T 80);
  (*435*) Assign (T 106) (Plain (Copy (T 62)));
  (*436*) AddTo (T 106) (Times (Copy (T 105)) (-1) 1);
  (*437*) Del (T 105);
  (*438*) Assign (T 64) (Plain (Einsum [(T 10,[0]); (n_v'xvv,[0;1;2])] [1;2]));
  (*439*) Del (T 10);
  (*440*) Assign (T 87) (Plain (Einsum [(n_t2,[0;1;2;3]); (n_l2,[4;3;1;5])] [5;0;4;2]));
  (*441*) Assign (T 102) (Times (Copy (T 97)) (-1) 1);
  (*442*) Del (T 97);
  (*443*) AddTo (T 102) (Plain (Copy (T 99)));
  (*444*) Del (T 99);
  (*445*) AddTo (T 102) (Plain (Copy (T 101)));
  (*446*) Del (T 101);
  (*447*) Assign (T 119) (Plain (Transpose (T 61) [1;0]));
  (*448*) AddTo (T 119) (Plain (Transpose (T 118) [1;0]));
  (*449*) Del (T 118);
  (*450*) Assign (T 116) (Times (Einsum [(T 20,[0;1;2]); (n_v'xov,[2;0;3])] [3;1]) (1) 2);
  (*451*) Assign (T 8) (Plain (Einsum [(n_t1,[0;1]); (T 7,[2;3;4;0])] [2;3;4;1]));
  (*452*) Assign (T 5) (Plain (Einsum [(n_t2,[0;1;2;3]); (T 4,[4;3;5;2])] [0;1;4;5]));
  (*453*) Assign (T 14) (Times (Copy (T 11)) (2) 1);
  (*454*) AddTo (T 14) (Times (Copy (T 13)) (-1) 1);
  (*455*) Assign (T 22) (Plain (Einsum [(n_v'xoo,[0;1;2]); (n_v'xoo,[0;3;4])] [3;1;2;4]));
  (*456*) Assign (T 16) (Plain (Transpose n_v'xoo [1;2;0]));
  (*457*) AddTo (T 16) (Plain (Transpose (T 12) [1;0;2]));
  (*458*) Assign (T 56) (Plain (Copy (T 49)));
  (*459*) AddTo (T 56) (Times (Einsum [(T 18,[0;1;2;3]); (n_l2,[2;3;0;4])] [4;1]) (2) 1);
  (*460*) Assign (T 55) (Times (Transpose n_t2 [0;1;3;2]) (-1) 1);
  (*461*) AddTo (T 55) (Times (Copy n_t2) (2) 1);
  (*462*) Assign (T 30) (Plain (Transpose n_t2 [0;1;3;2]));
  (*463*) AddTo (T 30) (Times (Copy n_t2) (-1) 2);
  (*464*) Assign (T 46) (Plain (Einsum [(n_l2,[0;1;2;3]); (n_t2,[4;5;0;1])] [2;3;4;5]));
  (*465*) Assign (T 47) (Plain (Einsum [(T 35,[0;1;2;3]); (n_t1,[4;3])] [1;0;2;4]));
  (*466*) Assign (T 44) (Times (Copy (T 35)) (2) 1);
  (*467*) AddTo (T 44) (Times (Transpose (T 35) [1;0;2;3]) (-1) 1);
  (*468*) Assign (T 42) (Times (Copy (T 35)) (-1) 2);
  (*469*) AddTo (T 42) (Plain (Transpose (T 35) [1;0;2;3]));
  (*470*) Assign (T 43) (Plain (Einsum [(n_t2,[0;1;2;3]); (n_l1,[3;4])] [4;0;1;2]));
  (*471*) Assign (T 28) (Plain (Einsum [(n_t1,[0;1]); (T 27,[2;3;4;0])] [2;3;4;1]));
  (*472*) Assign (T 26) (Plain (Einsum [(T 1,[0;1;2]); (T 12,[3;4;2])] [3;0;4;1]));
  (*473*) Assign (T 123) (Plain (Einsum [(T 74,[0;1;2;3]); (n_l1,[4;1])] [0;2;4;3]));
  (*474*) Assign (T 125) (Plain (Einsum [(T 124,[0;1]); (n_l2,[2;1;3;4])] [3;4;2;0]));
  (*475*) Del (T 124);
  (*476*) Assign (T 75) (Plain (Einsum [(T 35,[0;1;2;3]); (T 74,[4;0;2;5])] [1;4;3;5]));
  (*477*) Assign (T 72) (Plain (Einsum [(n_v'xov,[0;1;2]); (T 71,[3;4;0])] [3;1;2;4]));
  (*478*) Del (T 71);
  (*479*) Assign (T 67) (Plain (Einsum [(n_f'vv,[0;1]); (n_l2,[2;1;3;4])] [3;4;0;2]));
  (*480*) Assign (T 77) (Plain (Einsum [(T 76,[0;1;2;3]); (T 35,[0;4;1;5])] [4;2;5;3]));
  (*481*) Assign (T 69) (Plain (Einsum [(n_l2,[0;1;2;3]); (T 68,[4;3])] [4;2;0;1]));
  (*482*) Del (T 68);
  (*483*) Assign (T 82) (Plain (Einsum [(T 81,[0;1;2;3]); (n_l2,[4;2;0;5])] [5;1;4;3]));
  (*484*) Del (T 81);
  (*485*) Assign (T 73) (Plain (Einsum [(n_l2,[0;1;2;3]); (T 23,[2;3;4;5])] [4;5;0;1]));
  (*486*) Assign (T 70) (Plain (Einsum [(T 35,[0;1;2;3]); (n_f'ov,[2;4])] [0;1;4;3]));
  (*487*) Assign (T 114) (Times (Einsum [(n_v'xov,[0;1;2]); (T 113,[3;4;0])] [1;3;2;4]) (2) 1);
  (*488*) Del (T 113);
  (*489*) Assign (T 110) (Plain (Einsum [(n_l1,[0;1]); (T 76,[1;2;3;4])] [2;3;0;4]));
  (*490*) Assign (T 112) (Plain (Einsum [(T 111,[0;1;2]); (n_v'xov,[2;3;4])] [3;0;4;1]));
  (*491*) Del (T 111);
  (*492*) Assign (T 108) (Plain (Einsum [(T 35,[0;1;2;3]); (T 104,[2;4])] [0;1;3;4]));
  (*493*) Assign (T 86) (Plain (Einsum [(T 35,[0;1;2;3]); (T 4,[2;4;3;5])] [1;0;5;4]));
  (*494*) Del (T 4);
  (*495*) Assign (T 93) (Plain (Einsum [(n_l2,[0;1;2;3]); (T 92,[3;4;1;5])] [2;4;0;5]));
  (*496*) Del (T 92);
  (*497*) Assign (T 107) (Plain (Einsum [(n_l2,[0;1;2;3]); (T 106,[2;4])] [3;4;0;1]));
  (*498*) Del (T 106);
  (*499*) Assign (T 89) (Plain (Einsum [(T 35,[0;1;2;3]); (T 76,[1;2;4;5])] [0;4;3;5]));
  (*500*) Del (T 76);
  (*501*) Assign (T 85) (Plain (Einsum [(n_l2,[0;1;2;3]); (T 64,[4;1])] [2;3;0;4]));
  (*502*) Assign (T 88) (Plain (Einsum [(T 6,[0;1;2;3]); (T 87,[4;0;5;3])] [4;1;5;2]));
  (*503*) Del (T 87);
  (*504*) Assign (T 103) (Plain (Einsum [(T 102,[0;1;2]); (n_v'xov,[2;3;4])] [3;0;4;1]));
  (*505*) Del (T 102);
  (*506*) Assign (T 84) (Plain (Einsum [(T 35,[0;1;2;3]); (T 74,[4;1;2;5])] [0;4;3;5]));
  (*507*) Del (T 74);
  (*508*) Assign (T 120) (Times (Einsum [(n_l2,[0;1;2;3]); (T 119,[2;4])] [3;4;0;1]) (2) 1);
  (*509*) Del (T 119);
  (*510*) Assign (T 117) (Times (Einsum [(n_l2,[0;1;2;3]); (T 116,[4;1])] [3;2;0;4]) (2) 1);
  (*511*) Del (T 116);
  (*512*) Assign (T 60) (Plain (Copy n_f'ov));
  (*513*) AddTo (T 60) (Times (Copy (T 11)) (2) 1);
  (*514*) Del (T 11);
  (*515*) AddTo (T 60) (Times (Copy (T 13)) (-1) 1);
  (*516*) Del (T 13);
  (*517*) Assign (T 36) (Times (Copy (T 35)) (-1) 1);
  (*518*) AddTo (T 36) (Times (Transpose (T 35) [1;0;2;3]) (2) 1);
  (*519*) Assign (T 33) (Plain (Transpose n_v'xov [1;2;0]));
  (*520*) AddTo (T 33) (Plain (Copy (T 1)));
  (*521*) AddTo (T 33) (Plain (Copy (T 20)));
  (*522*) Assign (T 37) (Plain (Copy (T 35)));
  (*523*) AddTo (T 37) (Times (Transpose (T 35) [1;0;2;3]) (-1) 2);
  (*524*) Assign (T 34) (Plain (Transpose n_l2 [3;2;0;1]));
  (*525*) AddTo (T 34) (Times (Transpose n_l2 [2;3;0;1]) (-1) 2);
  (*526*) Assign (T 39) (Plain (Transpose n_v'xoo [1;2;0]));
  (*527*) AddTo (T 39) (Plain (Copy (T 12)));
  (*528*) Assign (T 9) (Plain (Copy (T 5)));
  (*529*) Del (T 5);
  (*530*) AddTo (T 9) (Times (Copy (T 8)) (-1) 1);
  (*531*) Del (T 8);
  (*532*) Assign (T 3) (Plain (Einsum [(n_f'ov,[0;1]); (n_t2,[2;3;4;1])] [0;2;3;4]));
  (*533*) Assign (T 2) (Plain (Einsum [(n_v'xoo,[0;1;2]); (T 1,[3;4;0])] [3;1;2;4]));
  (*534*) Assign (T 15) (Times (Einsum [(n_t2,[0;1;2;3]); (T 14,[4;2])] [0;1;4;3]) (2) 1);
  (*535*) Del (T 14);
  (*536*) Assign (T 24) (Plain (Transpose (T 22) [3;2;1;0]));
  (*537*) AddTo (T 24) (Plain (Transpose (T 23) [1;0;3;2]));
  (*538*) AddTo (T 24) (Times (Transpose (T 23) [3;0;2;1]) (-2) 1);
  (*539*) Assign (T 21) (Plain (Transpose n_v'xov [1;2;0]));
  (*540*) AddTo (T 21) (Plain (Copy (T 20)));
  (*541*) Assign (T 17) (Plain (Einsum [(T 16,[0;1;2]); (n_v'xov,[2;3;4])] [3;0;1;4]));
  (*542*) Assign (T 57) (Plain (Transpose n_l1 [1;0]));
  (*543*) AddTo (T 57) (Plain (Copy n_t1));
  (*544*) AddTo (T 57) (Times (Einsum [(T 55,[0;1;2;3]); (T 35,[1;0;4;3])] [4;2]) (-1) 1);
  (*545*) AddTo (T 57) (Times (Einsum [(n_l1,[0;1]); (T 30,[1;2;3;0])] [2;3]) (2) 1);
  (*546*) AddTo (T 57) (Times (Einsum [(T 56,[0;1]); (n_t1,[0;2])] [1;2]) (-1) 1);
  (*547*) Del (T 56);
  (*548*) Assign (T 58) (Plain (Copy (T 49)));
  (*549*) Del (T 49);
  (*550*) AddTo (T 58) (Plain (Einsum [(n_l2,[0;1;2;3]); (T 55,[2;4;0;1])] [4;3]));
  (*551*) Del (T 55);
  (*552*) Assign (T 54) (Times (Einsum [(n_t1,[0;1]); (n_l1,[2;0])] [2;1]) (1) 2);
  (*553*) AddTo (T 54) (Plain (Einsum [(T 18,[0;1;2;3]); (n_l2,[4;2;1;0])] [4;3]));
  (*554*) Assign (T 48) (Times (Transpose (T 46) [1;0;2;3]) (2) 1);
  (*555*) AddTo (T 48) (Times (Transpose (T 46) [1;0;3;2]) (-1) 1);
  (*556*) AddTo (T 48) (Times (Copy (T 47)) (-1) 1);
  (*557*) AddTo (T 48) (Times (Transpose (T 47) [0;1;3;2]) (2) 1);
  (*558*) Assign (T 52) (Times (Copy n_t1) (-1) 2);
  (*559*) AddTo (T 52) (Plain (Einsum [(T 18,[0;1;2;3]); (T 35,[1;0;4;3])] [4;2]));
  (*560*) Del (T 35);
  (*561*) AddTo (T 52) (Times (Einsum [(n_l1,[0;1]); (T 19,[1;2;3;0])] [2;3]) (-1) 2);
  (*562*) AddTo (T 52) (Plain (Einsum [(n_t1,[0;1]); (T 51,[0;2])] [2;1]));
  (*563*) Assign (T 45) (Times (Copy (T 43)) (-1) 1);
  (*564*) AddTo (T 45) (Times (Transpose (T 43) [0;2;1;3]) (1) 2);
  (*565*) Del (T 43);
  (*566*) AddTo (T 45) (Times (Einsum [(n_t2,[0;1;2;3]); (T 44,[1;4;5;3])] [4;5;0;2]) (1) 2);
  (*567*) Del (T 44);
  (*568*) AddTo (T 45) (Plain (Einsum [(n_t2,[0;1;2;3]); (T 42,[1;4;5;2])] [4;5;0;3]));
  (*569*) Assign (T 41) (Plain (Einsum [(T 19,[0;1;2;3]); (n_l2,[4;2;0;5])] [5;1;4;3]));
  (*570*) Del (T 19);
  (*571*) AddTo (T 41) (Times (Einsum [(n_l2,[0;1;2;3]); (T 18,[3;4;1;5])] [2;4;0;5]) (2) 1);
  (*572*) Assign (T 31) (Plain (Transpose (T 22) [3;2;1;0]));
  (*573*) AddTo (T 31) (Plain (Transpose (T 23) [1;0;3;2]));
  (*574*) AddTo (T 31) (Times (Transpose (T 23) [3;0;2;1]) (-1) 2);
  (*575*) Del (T 23);
  (*576*) Assign (T 29) (Times (Copy (T 26)) (2) 1);
  (*577*) Del (T 26);
  (*578*) AddTo (T 29) (Times (Copy (T 28)) (-2) 1);
  (*579*) Del (T 28);
  (*580*) Assign (T 127) (Plain (Transpose (T 22) [3;2;1;0]));
  (*581*) Del (T 22);
  (*582*) AddTo (T 127) (Plain (Transpose (T 7) [0;3;1;2]));
  (*583*) Del (T 7);
  (*584*) AddTo (T 127) (Plain (Transpose (T 27) [0;3;1;2]));
  (*585*) Del (T 27);
  (*586*) Assign (T 126) (Plain (Copy (T 123)));
  (*587*) Del (T 123);
  (*588*) AddTo (T 126) (Plain (Copy (T 125)));
  (*589*) Del (T 125);
  (*590*) Assign (T 128) (Plain (Transpose (T 46) [1;0;3;2]));
  (*591*) Del (T 46);
  (*592*) AddTo (T 128) (Plain (Copy (T 47)));
  (*593*) Del (T 47);
  (*594*) Assign (T 83) (Plain (Copy (T 67)));
  (*595*) Del (T 67);
  (*596*) AddTo (T 83) (Times (Copy (T 69)) (-1) 1);
  (*597*) Del (T 69);
  (*598*) AddTo (T 83) (Times (Copy (T 70)) (-1) 1);
  (*599*) Del (T 70);
  (*600*) AddTo (T 83) (Plain (Copy (T 72)));
  (*601*) Del (T 72);
  (*602*) AddTo (T 83) (Plain (Copy (T 73)));
  (*603*) Del (T 73);
  (*604*) AddTo (T 83) (Plain (Copy (T 75)));
  (*605*) Del (T 75);
  (*606*) AddTo (T 83) (Plain (Copy (T 77)));
  (*607*) Del (T 77);
  (*608*) AddTo (T 83) (Times (Copy (T 82)) (-1) 1);
  (*609*) Del (T 82);
  (*610*) Assign (T 115) (Plain (Copy (T 110)));
  (*611*) Del (T 110);
  (*612*) AddTo (T 115) (Plain (Transpose (T 112) [1;0;2;3]));
  (*613*) Del (T 112);
  (*614*) AddTo (T 115) (Plain (Transpose (T 114) [0;1;3;2]));
  (*615*) Del (T 114);
  (*616*) Assign (T 109) (Plain (Einsum [(n_l1,[0;1]); (n_f'ov,[2;3])] [2;1;3;0]));
  (*617*) AddTo (T 109) (Plain (Copy (T 84)));
  (*618*) Del (T 84);
  (*619*) AddTo (T 109) (Times (Copy (T 85)) (2) 1);
  (*620*) Del (T 85);
  (*621*) AddTo (T 109) (Times (Copy (T 86)) (-1) 1);
  (*622*) Del (T 86);
  (*623*) AddTo (T 109) (Plain (Copy (T 88)));
  (*624*) Del (T 88);
  (*625*) AddTo (T 109) (Plain (Copy (T 89)));
  (*626*) Del (T 89);
  (*627*) AddTo (T 109) (Times (Copy (T 93)) (-1) 1);
  (*628*) Del (T 93);
  (*629*) AddTo (T 109) (Times (Transpose (T 103) [1;0;3;2]) (-1) 1);
  (*630*) Del (T 103);
  (*631*) AddTo (T 109) (Plain (Transpose (T 107) [0;1;3;2]));
  (*632*) Del (T 107);
  (*633*) AddTo (T 109) (Times (Copy (T 108)) (-1) 1);
  (*634*) Del (T 108);
  (*635*) AddTo (T 109) (Plain (Einsum [(n_l1,[0;1]); (T 104,[2;3])] [1;2;0;3]));
  (*636*) Del (T 104);
  (*637*) Assign (T 66) (Plain (Einsum [(n_v'xvv,[0;1;2]); (n_v'xvv,[0;3;4])] [1;3;4;2]));
  (*638*) Assign (T 122) (Plain (Einsum [(n_l2,[0;1;2;3]); (n_f'oo,[4;3])] [4;2;0;1]));
  (*639*) Assign (T 121) (Plain (Transpose (T 117) [1;0;2;3]));
  (*640*) Del (T 117);
  (*641*) AddTo (T 121) (Plain (Transpose (T 120) [0;1;3;2]));
  (*642*) Del (T 120);
  (*643*) Assign (T 63) (Plain (Copy n_f'oo));
  (*644*) AddTo (T 63) (Times (Transpose (T 61) [1;0]) (2) 1);
  (*645*) Del (T 61);
  (*646*) AddTo (T 63) (Times (Copy (T 62)) (-1) 1);
  (*647*) Del (T 62);
  (*648*) AddTo (T 63) (Plain (Einsum [(n_v'xov,[0;1;2]); (T 20,[3;2;0])] [3;1]));
  (*649*) Del (T 20);
  (*650*) AddTo (T 63) (Plain (Einsum [(T 60,[0;1]); (n_t1,[2;1])] [2;0]));
  (*651*) Assign (T 40) (Times (Einsum [(T 33,[0;1;2]); (T 34,[0;3;4;1])] [3;4;2]) (-2) 1);
  (*652*) Del (T 34);
  (*653*) AddTo (T 40) (Plain (Einsum [(T 36,[0;1;2;3]); (n_v'xoo,[4;0;2])] [1;3;4]));
  (*654*) Del (T 36);
  (*655*) AddTo (T 40) (Times (Einsum [(T 37,[0;1;2;3]); (T 12,[1;2;4])] [0;3;4]) (2) 1);
  (*656*) Del (T 37);
  (*657*) AddTo (T 40) (Plain (Einsum [(n_v'xov,[0;1;2]); (T 38,[3;2])] [1;3;0]));
  (*658*) Del (T 38);
  (*659*) AddTo (T 40) (Plain (Einsum [(T 39,[0;1;2]); (n_l1,[3;0])] [1;3;2]));
  (*660*) Del (T 39);
  (*661*) Assign (T 25) (Times (Transpose (T 2) [0;2;1;3]) (-2) 1);
  (*662*) AddTo (T 25) (Times (Transpose (T 3) [1;0;2;3]) (-2) 1);
  (*663*) AddTo (T 25) (Plain (Transpose (T 3) [2;0;1;3]));
  (*664*) Del (T 3);
  (*665*) AddTo (T 25) (Plain (Transpose (T 9) [0;2;1;3]));
  (*666*) AddTo (T 25) (Times (Transpose (T 9) [1;2;0;3]) (-2) 1);
  (*667*) Del (T 9);
  (*668*) AddTo (T 25) (Times (Transpose (T 15) [1;2;0;3]) (-1) 1);
  (*669*) AddTo (T 25) (Times (Transpose (T 15) [0;2;1;3]) (1) 2);
  (*670*) Del (T 15);
  (*671*) AddTo (T 25) (Times (Einsum [(T 18,[0;1;2;3]); (T 17,[4;0;5;3])] [5;4;1;2]) (2) 1);
  (*672*) Del (T 18);
  (*673*) AddTo (T 25) (Plain (Einsum [(T 16,[0;1;2]); (T 21,[3;4;2])] [1;0;3;4]));
  (*674*) AddTo (T 25) (Times (Einsum [(n_t1,[0;1]); (T 24,[0;2;3;4])] [2;3;4;1]) (-1) 1);
  (*675*) Del (T 24);
  (*676*) Assign (T 65) (Plain (Copy n_f'vv));
  (*677*) AddTo (T 65) (Times (Transpose (T 64) [1;0]) (2) 1);
  (*678*) Del (T 64);
  (*679*) Assign (T 59) (Times (Einsum [(T 54,[0;1]); (n_v'xvv,[2;1;0])] [2]) (2) 1);
  (*680*) Del (T 54);
  (*681*) AddTo (T 59) (Plain (Einsum [(T 57,[0;1]); (n_v'xov,[2;0;1])] [2]));
  (*682*) Del (T 57);
  (*683*) AddTo (T 59) (Times (Einsum [(T 58,[0;1]); (n_v'xoo,[2;1;0])] [2]) (-1) 1);
  (*684*) Del (T 58);
  (*685*) Assign (T 53) (Times (Einsum [(T 1,[0;1;2]); (n_l1,[1;3])] [0;3;2]) (-1) 1);
  (*686*) Del (T 1);
  (*687*) AddTo (T 53) (Times (Einsum [(n_v'xvv,[0;1;2]); (T 41,[3;4;2;1])] [4;3;0]) (-1) 1);
  (*688*) Del (T 41);
  (*689*) AddTo (T 53) (Times (Einsum [(T 33,[0;1;2]); (T 42,[3;0;4;1])] [4;3;2]) (-2) 1);
  (*690*) Del (T 42);
  (*690*) Del (T 33);
  (*691*) AddTo (T 53) (Times (Einsum [(T 45,[0;1;2;3]); (n_v'xov,[4;1;3])] [2;0;4]) (2) 1);
  (*692*) Del (T 45);
  (*693*) AddTo (T 53) (Plain (Einsum [(T 48,[0;1;2;3]); (T 12,[0;3;4])] [2;1;4]));
  (*694*) Del (T 12);
  (*695*) AddTo (T 53) (Plain (Einsum [(T 48,[0;1;2;3]); (n_v'xoo,[4;0;3])] [2;1;4]));
  (*696*) Del (T 48);
  (*697*) AddTo (T 53) (Times (Einsum [(n_v'xov,[0;1;2]); (T 52,[3;2])] [3;1;0]) (2) 1);
  (*698*) Del (T 52);
  (*699*) AddTo (T 53) (Times (Einsum [(T 51,[0;1]); (n_v'xoo,[2;3;0])] [1;3;2]) (2) 1);
  (*700*) Assign (T 32) (Plain (Transpose (T 2) [0;2;1;3]));
  (*701*) Del (T 2);
  (*702*) AddTo (T 32) (Times (Transpose (T 29) [0;2;1;3]) (-1) 1);
  (*703*) AddTo (T 32) (Times (Transpose (T 29) [1;2;0;3]) (1) 2);
  (*704*) Del (T 29);
  (*705*) AddTo (T 32) (Times (Einsum [(T 17,[0;1;2;3]); (T 30,[1;4;5;3])] [2;0;4;5]) (2) 1);
  (*706*) Del (T 30);
  (*706*) Del (T 17);
  (*707*) AddTo (T 32) (Times (Einsum [(T 16,[0;1;2]); (T 21,[3;4;2])] [1;0;3;4]) (-2) 1);
  (*708*) Del (T 16);
  (*708*) Del (T 21);
  (*709*) AddTo (T 32) (Times (Einsum [(n_t1,[0;1]); (T 31,[0;2;3;4])] [2;3;4;1]) (2) 1);
  (*710*) Del (T 31);
  (*711*) Assign n_l2new (Plain (Transpose (T 6) [3;2;1;0]));
  (*712*) AddTo n_l2new (Plain (Einsum [(T 66,[0;1;2;3]); (n_l2,[3;2;4;5])] [0;1;4;5]));
  (*713*) Del (T 66);
  (*714*) AddTo n_l2new (Plain (Transpose (T 83) [3;2;0;1]));
  (*715*) AddTo n_l2new (Plain (Transpose (T 83) [2;3;1;0]));
  (*716*) Del (T 83);
  (*717*) AddTo n_l2new (Plain (Transpose (T 109) [2;3;0;1]));
  (*718*) AddTo n_l2new (Plain (Transpose (T 109) [3;2;1;0]));
  (*719*) Del (T 109);
  (*720*) AddTo n_l2new (Times (Transpose (T 115) [3;2;0;1]) (-1) 1);
  (*721*) AddTo n_l2new (Times (Transpose (T 115) [2;3;1;0]) (-1) 1);
  (*722*) Del (T 115);
  (*723*) AddTo n_l2new (Times (Transpose (T 121) [2;3;0;1]) (-1) 1);
  (*724*) AddTo n_l2new (Times (Transpose (T 121) [3;2;1;0]) (-1) 1);
  (*725*) Del (T 121);
  (*726*) AddTo n_l2new (Times (Transpose (T 122) [3;2;0;1]) (-1) 1);
  (*727*) AddTo n_l2new (Times (Transpose (T 122) [2;3;1;0]) (-1) 1);
  (*728*) Del (T 122);
  (*729*) AddTo n_l2new (Times (Transpose (T 126) [2;3;0;1]) (-1) 1);
  (*730*) AddTo n_l2new (Times (Transpose (T 126) [3;2;1;0]) (-1) 1);
  (*731*) Del (T 126);
  (*732*) AddTo n_l2new (Plain (Einsum [(T 127,[0;1;2;3]); (n_l2,[4;5;2;0])] [4;5;1;3]));
  (*733*) Del (T 127);
  (*734*) AddTo n_l2new (Plain (Einsum [(T 6,[0;1;2;3]); (T 128,[4;5;0;1])] [3;2;5;4]));
  (*735*) Del (T 6);
  (*735*) Del (T 128);
  (*736*) Assign n_l1new (Plain (Transpose n_f'ov [1;0]));
  (*737*) AddTo n_l1new (Plain (Einsum [(n_l2,[0;1;2;3]); (T 25,[3;4;2;1])] [0;4]));
  (*738*) Del (T 25);
  (*739*) AddTo n_l1new (Plain (Einsum [(n_l2,[0;1;2;3]); (T 32,[2;4;3;1])] [0;4]));
  (*740*) Del (T 32);
  (*741*) AddTo n_l1new (Times (Einsum [(n_v'xvv,[0;1;2]); (T 40,[3;2;0])] [1;3]) (-1) 1);
  (*742*) Del (T 40);
  (*743*) AddTo n_l1new (Plain (Einsum [(T 53,[0;1;2]); (n_v'xov,[2;0;3])] [3;1]));
  (*744*) Del (T 53);
  (*745*) AddTo n_l1new (Times (Einsum [(T 59,[0]); (n_v'xov,[0;1;2])] [2;1]) (2) 1);
  (*746*) Del (T 59);
  (*747*) AddTo n_l1new (Times (Einsum [(T 60,[0;1]); (T 51,[2;0])] [1;2]) (-2) 1);
  (*748*) Del (T 51);
  (*748*) Del (T 60);
  (*749*) AddTo n_l1new (Times (Einsum [(T 63,[0;1]); (n_l1,[2;0])] [2;1]) (-1) 1);
  (*750*) Del (T 63);
  (*751*) AddTo n_l1new (Plain (Einsum [(T 65,[0;1]); (n_l1,[0;2])] [1;2]));
  (*752*) Del (T 65)]
 [(n_l1new,[1;0]); (n_l2new,[1;1;0;0])].

(** ebcc/codegen/RDFCCSD.py:756-814 [make_rdm1_f]; assembly (line 812) not translated *)
Definition RDFCCSD_make_rdm1_f : prog := mkprog
 [(n_t2,[0;0;1;1]); (n_l2,[1;1;0;0]); (n_t1,[0;1]); (n_l1,[1;0])]
 [(*778*) Assign n_delta'oo (Plain (Eye 0));
  (*778*) Assign n_delta'vv (Plain (Eye 1));
  (*782*) Assign (T 3) (Plain (Einsum [(n_l2,[0;1;2;3]); (n_t1,[4;1])] [2;3;4;0]));
  (*783*) Assign (T 1) (Plain (Einsum [(n_l1,[0;1]); (n_t1,[2;0])] [1;2]));
  (*784*) Assign (T 2) (Times (Transpose n_t2 [0;1;3;2]) (-1) 2);
  (*785*) AddTo (T 2) (Plain (Copy n_t2));
  (*786*) Assign (T 7) (Times (Transpose n_l2 [3;2;0;1]) (-1) 1);
  (*787*) AddTo (T 7) (Times (Transpose n_l2 [2;3;0;1]) (2) 1);
  (*788*) Assign (T 5) (Times (Transpose n_t2 [0;1;3;2]) (2) 1);
  (*789*) AddTo (T 5) (Times (Copy n_t2) (-1) 1);
  (*790*) Assign (T 4) (Plain (Copy (T 3)));
  (*791*) AddTo (T 4) (Times (Transpose (T 3) [1;0;2;3]) (-1) 2);
  (*792*) Del (T 3);
  (*793*) Assign (T 6) (Plain (Copy (T 1)));
  (*794*) AddTo (T 6) (Times (Einsum [(n_l2,[0;1;2;3]); (T 2,[2;4;0;1])] [3;4]) (2) 1);
  (*795*) Assign n_rdm1'vv (Times (Einsum [(n_t1,[0;1]); (n_l1,[2;0])] [2;1]) (2) 1);
  (*796*) AddTo n_rdm1'vv (Times (Einsum [(T 7,[0;1;2;3]); (n_t2,[0;1;4;3])] [2;4]) (2) 1);
  (*797*) Del (T 7);
  (*798*) Assign n_rdm1'vo (Times (Copy n_l1) (2) 1);
  (*799*) Assign n_rdm1'ov (Times (Copy n_t1) (2) 1);
  (*800*) AddTo n_rdm1'ov (Times (Einsum [(n_t2,[0;1;2;3]); (T 4,[1;0;4;3])] [4;2]) (-4) 1);
  (*801*) Del (T 4);
  (*802*) AddTo n_rdm1'ov (Times (Einsum [(T 5,[0;1;2;3]); (n_l1,[3;0])] [1;2]) (2) 1);
  (*803*) Del (T 5);
  (*804*) AddTo n_rdm1'ov (Times (Einsum [(T 6,[0;1]); (n_t1,[0;2])] [1;2]) (-2) 1);
  (*805*) Del (T 6);
  (*806*) Assign n_rdm1'oo (Times (Copy n_delta'oo) (2) 1);
  (*807*) Del n_delta'oo;
  (*807*) Del n_delta'vv;
  (*808*) AddTo n_rdm1'oo (Times (Transpose (T 1) [1;0]) (-2) 1);
  (*809*) Del (T 1);
  (*810*) AddTo n_rdm1'oo (Times (Einsum [(n_l2,[0;1;2;3]); (T 2,[2;4;0;1])] [4;3]) (-4) 1);
  (*811*) Del (T 2)]
 [(n_rdm1'oo,[0;0]); (n_rdm1'ov,[0;1]); (n_rdm1'vo,[1;0]); (n_rdm1'vv,[1;1])].

(** ebcc/codegen/RDFCCSD.py:816-1274 [make_rdm2_f]; assembly (line 1271) not translated *)
Definition RDFCCSD_make_rdm2_f : prog := mkprog
 [(n_t2,[0;0;1;1]); (n_l2,[1;1;0;0]); (n_t1,[0;1]); (n_l1,[1;0])]
 [(*838*) Assign n_delta'oo (Plain (Eye 0));
  (*838*) Assign n_delta'vv (Plain (Eye 1));
  (*842*) Assign (T 2) (Plain (Einsum [(n_l2,[0;1;2;3]); (n_t1,[4;1])] [2;3;4;0]));
  (*843*) Assign (T 14) (Times (Transpose n_t2 [0;1;3;2]) (2) 1);
  (*844*) AddTo (T 14) (Times (Copy n_t2) (-1) 1);
  (*845*) Assign (T 76) (Plain (Transpose n_t2 [0;1;3;2]));
  (*846*) AddTo (T 76) (Times (Copy n_t2) (-1) 1);
  (*847*) Assign (T 5) (Times (Transpose n_t2 [0;1;3;2]) (-1) 2);
  (*848*) AddTo (T 5) (Plain (Copy n_t2));
  (*849*) Assign (T 21) (Times (Copy (T 2)) (2) 1);
  (*850*) AddTo (T 21) (Times (Transpose (T 2) [1;0;2;3]) (-1) 1);
  (*851*) Assign (T 19) (Plain (Copy (T 2)));
  (*852*) AddTo (T 19) (Times (Transpose (T 2) [1;0;2;3]) (-1) 1);
  (*853*) Assign (T 43) (Times (Transpose n_l2 [3;2;0;1]) (2) 1);
  (*854*) AddTo (T 43) (Times (Transpose n_l2 [2;3;0;1]) (-1) 1);
  (*855*) Assign (T 59) (Times (Transpose n_l2 [3;2;0;1]) (-1) 1);
  (*856*) AddTo (T 59) (Times (Transpose n_l2 [2;3;0;1]) (2) 1);
  (*857*) Assign (T 78) (Plain (Einsum [(n_l2,[0;1;2;3]); (T 14,[3;4;5;1])] [4;2;5;0]));
  (*858*) Assign (T 84) (Plain (Einsum [(T 2,[0;1;2;3]); (n_t1,[1;4])] [0;2;3;4]));
  (*859*) Assign (T 77) (Plain (Einsum [(T 76,[0;1;2;3]); (n_l2,[4;3;0;5])] [1;5;2;4]));
  (*860*) Del (T 76);
  (*861*) Assign (T 97) (Times (Transpose n_l2 [3;2;0;1]) (2) 1);
  (*862*) AddTo (T 97) (Times (Transpose n_l2 [2;3;0;1]) (-1) 1);
  (*863*) Assign (T 1) (Plain (Einsum [(n_t2,[0;1;2;3]); (n_l2,[3;2;4;5])] [5;4;0;1]));
  (*864*) Assign (T 3) (Plain (Einsum [(n_t1,[0;1]); (T 2,[2;3;4;1])] [2;3;0;4]));
  (*865*) Assign (T 46) (Plain (Transpose n_l2 [3;2;0;1]));
  (*866*) AddTo (T 46) (Times (Transpose n_l2 [2;3;0;1]) (-1) 1);
  (*867*) Assign (T 6) (Times (Einsum [(T 5,[0;1;2;3]); (n_l2,[2;3;0;4])] [4;1]) (2) 1);
  (*868*) Assign (T 9) (Times (Copy (T 2)) (2) 1);
  (*869*) AddTo (T 9) (Times (Transpose (T 2) [1;0;2;3]) (-1) 1);
  (*870*) Assign (T 27) (Plain (Einsum [(T 2,[0;1;2;3]); (n_t2,[4;1;3;5])] [0;2;4;5]));
  (*871*) Assign (T 17) (Plain (Einsum [(n_t2,[0;1;2;3]); (n_l1,[3;4])] [4;0;1;2]));
  (*872*) Assign (T 22) (Plain (Einsum [(n_t2,[0;1;2;3]); (T 21,[1;4;5;3])] [4;5;0;2]));
  (*873*) Del (T 21);
  (*874*) Assign (T 26) (Plain (Einsum [(T 2,[0;1;2;3]); (n_t2,[4;0;3;5])] [1;2;4;5]));
  (*875*) Assign (T 7) (Plain (Einsum [(n_l1,[0;1]); (n_t1,[2;0])] [1;2]));
  (*876*) Assign (T 20) (Plain (Einsum [(T 19,[0;1;2;3]); (n_t2,[4;0;3;5])] [1;2;4;5]));
  (*877*) Assign (T 34) (Plain (Einsum [(T 5,[0;1;2;3]); (n_l2,[2;3;0;4])] [4;1]));
  (*878*) Del (T 5);
  (*879*) Assign (T 107) (Plain (Einsum [(n_t1,[0;1]); (n_l2,[2;3;4;0])] [4;2;3;1]));
  (*880*) Assign (T 44) (Plain (Einsum [(n_t2,[0;1;2;3]); (T 43,[1;4;5;3])] [4;0;5;2]));
  (*881*) Del (T 43);
  (*882*) Assign (T 64) (Plain (Einsum [(n_l2,[0;1;2;3]); (n_t2,[4;3;1;5])] [2;4;0;5]));
  (*883*) Assign (T 81) (Plain (Einsum [(T 59,[0;1;2;3]); (n_t2,[0;1;4;3])] [2;4]));
  (*884*) Assign (T 80) (Plain (Einsum [(n_t1,[0;1]); (n_l1,[2;0])] [2;1]));
  (*885*) Assign (T 101) (Plain (Copy (T 84)));
  (*886*) AddTo (T 101) (Plain (Transpose (T 77) [1;0;3;2]));
  (*887*) AddTo (T 101) (Times (Transpose (T 78) [1;0;3;2]) (-1) 1);
  (*888*) Assign (T 98) (Plain (Einsum [(T 97,[0;1;2;3]); (n_t2,[4;0;5;3])] [1;4;2;5]));
  (*889*) Del (T 97);
  (*890*) Assign (T 90) (Plain (Transpose (T 78) [1;0;3;2]));
  (*891*) AddTo (T 90) (Times (Transpose (T 77) [1;0;3;2]) (-1) 1);
  (*892*) Assign (T 4) (Plain (Transpose (T 1) [1;0;3;2]));
  (*893*) AddTo (T 4) (Plain (Copy (T 3)));
  (*894*) Assign (T 47) (Plain (Einsum [(T 46,[0;1;2;3]); (n_t2,[4;0;3;5])] [1;4;2;5]));
  (*895*) Del (T 46);
  (*896*) Assign (T 18) (Plain (Einsum [(T 3,[0;1;2;3]); (n_t1,[0;4])] [1;3;2;4]));
  (*897*) Assign (T 60) (Times (Einsum [(T 59,[0;1;2;3]); (n_t2,[0;1;4;3])] [2;4]) (1) 2);
  (*898*) Del (T 59);
  (*899*) Assign (T 11) (Times (Einsum [(T 6,[0;1]); (n_t1,[0;2])] [1;2]) (1) 2);
  (*900*) Assign (T 10) (Times (Einsum [(T 9,[0;1;2;3]); (n_t2,[0;1;3;4])] [2;4]) (1) 2);
  (*901*) Assign (T 71) (Plain (Copy (T 17)));
  (*902*) AddTo (T 71) (Times (Copy (T 27)) (-1) 1);
  (*903*) Assign (T 24) (Plain (Einsum [(T 1,[0;1;2;3]); (n_t1,[1;4])] [0;2;3;4]));
  (*904*) Assign (T 68) (Plain (Copy (T 26)));
  (*905*) AddTo (T 68) (Times (Copy (T 22)) (-1) 1);
  (*906*) Assign (T 13) (Plain (Einsum [(T 7,[0;1]); (n_t1,[0;2])] [1;2]));
  (*907*) Assign (T 15) (Plain (Einsum [(T 14,[0;1;2;3]); (n_l1,[3;0])] [1;2]));
  (*908*) Del (T 14);
  (*909*) Assign (T 52) (Plain (Copy (T 17)));
  (*910*) AddTo (T 52) (Plain (Copy (T 20)));
  (*911*) AddTo (T 52) (Times (Copy (T 22)) (-1) 1);
  (*912*) Assign (T 35) (Times (Copy (T 7)) (1) 2);
  (*913*) AddTo (T 35) (Plain (Copy (T 34)));
  (*914*) Del (T 34);
  (*915*) Assign (T 32) (Times (Transpose n_t2 [0;1;3;2]) (2) 1);
  (*916*) AddTo (T 32) (Times (Copy n_t2) (-1) 1);
  (*917*) Assign (T 108) (Plain (Einsum [(n_l2,[0;1;2;3]); (n_t2,[3;2;4;5])] [0;1;5;4]));
  (*918*) Assign (T 109) (Plain (Einsum [(n_t1,[0;1]); (T 107,[0;2;3;4])] [3;2;4;1]));
  (*919*) Assign (T 105) (Plain (Copy (T 64)));
  (*920*) AddTo (T 105) (Plain (Copy (T 84)));
  (*921*) AddTo (T 105) (Times (Copy (T 44)) (-1) 1);
  (*922*) Assign (T 93) (Plain (Einsum [(T 2,[0;1;2;3]); (n_t2,[1;0;4;5])] [2;3;5;4]));
  (*923*) Assign (T 82) (Plain (Copy (T 80)));
  (*924*) AddTo (T 82) (Plain (Copy (T 81)));
  (*925*) Del (T 81);
  (*926*) Assign (T 66) (Plain (Einsum [(n_t2,[0;1;2;3]); (n_l2,[4;2;1;5])] [5;0;4;3]));
  (*927*) Assign (T 102) (Plain (Einsum [(n_t1,[0;1]); (T 101,[0;2;3;4])] [2;3;4;1]));
  (*928*) Del (T 101);
  (*929*) Assign (T 89) (Plain (Einsum [(n_t2,[0;1;2;3]); (n_l1,[4;1])] [0;4;2;3]));
  (*930*) Assign (T 99) (Plain (Copy (T 64)));
  (*931*) AddTo (T 99) (Plain (Copy (T 84)));
  (*932*) AddTo (T 99) (Times (Copy (T 98)) (-1) 1);
  (*933*) Del (T 98);
  (*934*) Assign (T 91) (Plain (Einsum [(n_t1,[0;1]); (T 90,[0;2;3;4])] [2;3;4;1]));
  (*935*) Del (T 90);
  (*936*) Assign (T 86) (Times (Transpose n_l2 [3;2;0;1]) (-1) 1);
  (*937*) AddTo (T 86) (Plain (Transpose n_l2 [2;3;0;1]));
  (*938*) Assign (T 30) (Plain (Einsum [(T 4,[0;1;2;3]); (n_t1,[0;4])] [1;2;3;4]));
  (*939*) Assign (T 48) (Plain (Einsum [(n_t2,[0;1;2;3]); (T 47,[1;4;2;5])] [4;0;5;3]));
  (*940*) Assign (T 42) (Plain (Einsum [(T 18,[0;1;2;3]); (n_t1,[0;4])] [1;2;4;3]));
  (*941*) Assign (T 45) (Plain (Einsum [(n_t2,[0;1;2;3]); (T 44,[1;4;3;5])] [4;0;5;2]));
  (*942*) Assign (T 61) (Times (Einsum [(T 60,[0;1]); (n_t2,[2;3;0;4])] [2;3;1;4]) (2) 1);
  (*943*) Assign (T 62) (Plain (Einsum [(n_t2,[0;1;2;3]); (T 6,[1;4])] [0;4;3;2]));
  (*944*) Assign (T 12) (Plain (Copy (T 10)));
  (*945*) Del (T 10);
  (*946*) AddTo (T 12) (Plain (Copy (T 11)));
  (*947*) Del (T 11);
  (*948*) Assign (T 50) (Plain (Einsum [(n_t2,[0;1;2;3]); (T 7,[1;4])] [4;0;2;3]));
  (*949*) Assign (T 72) (Plain (Einsum [(T 71,[0;1;2;3]); (n_t1,[0;4])] [1;2;3;4]));
  (*950*) Del (T 71);
  (*951*) Assign (T 57) (Plain (Einsum [(n_t1,[0;1]); (T 24,[0;2;3;4])] [2;3;1;4]));
  (*952*) Assign (T 55) (Plain (Einsum [(n_t2,[0;1;2;3]); (T 1,[1;0;4;5])] [4;5;3;2]));
  (*953*) Assign (T 56) (Plain (Einsum [(T 3,[0;1;2;3]); (n_t2,[0;1;4;5])] [2;3;4;5]));
  (*954*) Assign (T 69) (Plain (Einsum [(n_t1,[0;1]); (T 68,[0;2;3;4])] [2;3;4;1]));
  (*955*) Del (T 68);
  (*956*) Assign (T 51) (Plain (Einsum [(n_t2,[0;1;2;3]); (T 44,[1;4;2;5])] [4;0;5;3]));
  (*957*) Assign (T 16) (Plain (Copy (T 13)));
  (*958*) AddTo (T 16) (Times (Copy (T 15)) (-1) 1);
  (*959*) Assign (T 53) (Plain (Einsum [(T 52,[0;1;2;3]); (n_t1,[0;4])] [1;2;3;4]));
  (*960*) Del (T 52);
  (*961*) Assign (T 36) (Times (Einsum [(n_t1,[0;1]); (T 35,[0;2])] [2;1]) (2) 1);
  (*962*) Del (T 35);
  (*963*) Assign (T 33) (Plain (Einsum [(T 32,[0;1;2;3]); (n_l1,[3;0])] [1;2]));
  (*964*) Del (T 32);
  (*965*) Assign (T 31) (Plain (Einsum [(T 9,[0;1;2;3]); (n_t2,[0;1;3;4])] [2;4]));
  (*966*) Del (T 9);
  (*967*) Assign (T 28) (Times (Copy (T 2)) (-1) 1);
  (*968*) AddTo (T 28) (Times (Transpose (T 2) [1;0;2;3]) (2) 1);
  (*969*) Assign (T 110) (Plain (Transpose (T 108) [1;0;3;2]));
  (*970*) AddTo (T 110) (Plain (Transpose (T 109) [1;0;3;2]));
  (*971*) Assign (T 106) (Plain (Einsum [(n_t1,[0;1]); (T 105,[0;2;3;4])] [2;3;4;1]));
  (*972*) Del (T 105);
  (*973*) Assign (T 104) (Plain (Copy (T 93)));
  (*974*) AddTo (T 104) (Plain (Einsum [(n_t1,[0;1]); (T 82,[2;3])] [0;2;1;3]));
  (*975*) Assign (T 96) (Plain (Einsum [(T 66,[0;1;2;3]); (n_t1,[0;4])] [1;2;4;3]));
  (*976*) Assign (T 103) (Plain (Copy (T 89)));
  (*977*) AddTo (T 103) (Plain (Transpose (T 102) [0;1;3;2]));
  (*978*) Del (T 102);
  (*979*) Assign (T 100) (Plain (Einsum [(n_t1,[0;1]); (T 99,[0;2;3;4])] [2;3;4;1]));
  (*980*) Del (T 99);
  (*981*) Assign (T 92) (Plain (Copy (T 89)));
  (*982*) AddTo (T 92) (Plain (Einsum [(n_t1,[0;1]); (T 80,[2;3])] [0;2;1;3]));
  (*983*) AddTo (T 92) (Times (Transpose (T 91) [0;1;3;2]) (-1) 1);
  (*984*) Del (T 91);
  (*985*) Assign (T 94) (Plain (Copy (T 93)));
  (*986*) AddTo (T 94) (Times (Einsum [(n_t1,[0;1]); (T 60,[2;3])] [0;2;1;3]) (2) 1);
  (*987*) Assign (T 88) (Times (Copy (T 80)) (1) 2);
  (*988*) Del (T 80);
  (*989*) AddTo (T 88) (Plain (Copy (T 60)));
  (*990*) Del (T 60);
  (*991*) Assign (T 95) (Plain (Einsum [(T 84,[0;1;2;3]); (n_t1,[0;4])] [1;2;4;3]));
  (*992*) Assign (T 83) (Plain (Einsum [(T 2,[0;1;2;3]); (n_t1,[0;4])] [1;2;3;4]));
  (*993*) Assign (T 85) (Plain (Einsum [(T 19,[0;1;2;3]); (n_t1,[0;4])] [1;2;3;4]));
  (*994*) Assign (T 87) (Plain (Einsum [(T 86,[0;1;2;3]); (n_t2,[4;0;3;5])] [1;4;2;5]));
  (*995*) Del (T 86);
  (*996*) Assign (T 79) (Plain (Einsum [(T 19,[0;1;2;3]); (n_t1,[1;4])] [0;2;3;4]));
  (*997*) Del (T 19);
  (*998*) Assign (T 75) (Plain (Copy n_t1));
  (*999*) AddTo (T 75) (Times (Copy (T 13)) (-1) 1);
  (*1000*) Assign (T 74) (Plain (Einsum [(T 30,[0;1;2;3]); (n_t1,[0;4])] [2;1;3;4]));
  (*1001*) Assign (T 67) (Plain (Einsum [(n_t2,[0;1;2;3]); (T 66,[1;4;2;5])] [4;0;5;3]));
  (*1002*) Assign (T 49) (Plain (Copy (T 42)));
  (*1003*) Del (T 42);
  (*1004*) AddTo (T 49) (Times (Copy (T 45)) (2) 1);
  (*1005*) AddTo (T 49) (Plain (Transpose (T 48) [1;0;3;2]));
  (*1006*) Del (T 48);
  (*1007*) Assign (T 63) (Plain (Transpose (T 61) [1;0;3;2]));
  (*1008*) Del (T 61);
  (*1009*) AddTo (T 63) (Plain (Transpose (T 62) [0;1;3;2]));
  (*1010*) Del (T 62);
  (*1011*) AddTo (T 63) (Times (Einsum [(T 12,[0;1]); (n_t1,[2;3])] [2;0;3;1]) (2) 1);
  (*1012*) Assign (T 65) (Plain (Einsum [(T 64,[0;1;2;3]); (n_t2,[4;0;2;5])] [1;4;3;5]));
  (*1013*) Assign (T 73) (Plain (Copy (T 50)));
  (*1014*) AddTo (T 73) (Plain (Transpose (T 72) [0;1;3;2]));
  (*1015*) Del (T 72);
  (*1016*) Assign (T 58) (Plain (Copy (T 55)));
  (*1017*) AddTo (T 58) (Plain (Copy (T 56)));
  (*1018*) AddTo (T 58) (Plain (Copy (T 57)));
  (*1019*) Del (T 57);
  (*1020*) Assign (T 70) (Times (Copy (T 51)) (-1) 1);
  (*1021*) AddTo (T 70) (Plain (Transpose (T 69) [0;1;3;2]));
  (*1022*) Del (T 69);
  (*1023*) AddTo (T 70) (Plain (Einsum [(T 15,[0;1]); (n_t1,[2;3])] [2;0;3;1]));
  (*1024*) Assign (T 54) (Plain (Copy (T 50)));
  (*1025*) Del (T 50);
  (*1026*) AddTo (T 54) (Times (Copy (T 51)) (-1) 1);
  (*1027*) Del (T 51);
  (*1028*) AddTo (T 54) (Plain (Transpose (T 53) [0;1;3;2]));
  (*1029*) Del (T 53);
  (*1030*) AddTo (T 54) (Times (Einsum [(T 16,[0;1]); (n_t1,[2;3])] [2;0;3;1]) (-1) 1);
  (*1031*) Assign (T 41) (Plain (Einsum [(T 7,[0;1]); (n_t1,[2;3])] [0;2;1;3]));
  (*1032*) AddTo (T 41) (Plain (Copy (T 20)));
  (*1033*) AddTo (T 41) (Times (Copy (T 22)) (-1) 1);
  (*1034*) Assign (T 37) (Times (Copy n_t1) (-1) 1);
  (*1035*) AddTo (T 37) (Plain (Copy (T 31)));
  (*1036*) AddTo (T 37) (Times (Copy (T 33)) (-1) 1);
  (*1037*) Del (T 33);
  (*1038*) AddTo (T 37) (Plain (Copy (T 36)));
  (*1039*) Assign (T 40) (Plain (Copy (T 17)));
  (*1040*) AddTo (T 40) (Plain (Transpose (T 30) [0;2;1;3]));
  (*1041*) AddTo (T 40) (Plain (Einsum [(T 6,[0;1]); (n_t1,[2;3])] [0;2;1;3]));
  (*1042*) Assign (T 29) (Plain (Einsum [(n_t2,[0;1;2;3]); (T 28,[4;1;5;3])] [4;5;0;2]));
  (*1043*) Del (T 28);
  (*1044*) Assign (T 39) (Plain (Copy (T 31)));
  (*1045*) Del (T 31);
  (*1046*) AddTo (T 39) (Plain (Copy (T 36)));
  (*1047*) Del (T 36);
  (*1048*) Assign (T 38) (Plain (Copy (T 7)));
  (*1049*) AddTo (T 38) (Plain (Copy (T 6)));
  (*1050*) Assign (T 25) (Plain (Copy (T 24)));
  (*1051*) Del (T 24);
  (*1052*) AddTo (T 25) (Plain (Einsum [(T 6,[0;1]); (n_t1,[2;3])] [0;2;1;3]));
  (*1053*) Assign (T 23) (Plain (Copy (T 17)));
  (*1054*) AddTo (T 23) (Plain (Copy (T 18)));
  (*1055*) Del (T 18);
  (*1056*) AddTo (T 23) (Plain (Copy (T 20)));
  (*1057*) Del (T 20);
  (*1058*) AddTo (T 23) (Times (Copy (T 22)) (-1) 1);
  (*1059*) Del (T 22);
  (*1060*) Assign (T 8) (Plain (Copy n_delta'oo));
  (*1061*) AddTo (T 8) (Times (Copy (T 7)) (-1) 1);
  (*1062*) Assign n_rdm2'vvvv (Times (Transpose (T 110) [0;1;3;2]) (-2) 1);
  (*1063*) AddTo n_rdm2'vvvv (Times (Copy (T 110)) (2) 1);
  (*1064*) Del (T 110);
  (*1065*) AddTo n_rdm2'vvvv (Times (Transpose (T 108) [1;0;3;2]) (2) 1);
  (*1066*) Del (T 108);
  (*1067*) AddTo n_rdm2'vvvv (Times (Transpose (T 109) [1;0;3;2]) (2) 1);
  (*1068*) Del (T 109);
  (*1069*) Assign n_rdm2'vvvo (Times (Transpose (T 107) [1;2;3;0]) (-2) 1);
  (*1070*) AddTo n_rdm2'vvvo (Times (Transpose (T 107) [2;1;3;0]) (4) 1);
  (*1071*) Assign n_rdm2'vvov (Times (Transpose (T 107) [1;2;0;3]) (4) 1);
  (*1072*) AddTo n_rdm2'vvov (Times (Transpose (T 107) [2;1;0;3]) (-2) 1);
  (*1073*) Del (T 107);
  (*1074*) Assign n_rdm2'vovv (Times (Transpose (T 103) [1;0;2;3]) (-2) 1);
  (*1075*) AddTo n_rdm2'vovv (Times (Transpose (T 103) [1;0;3;2]) (2) 1);
  (*1076*) Del (T 103);
  (*1077*) AddTo n_rdm2'vovv (Times (Transpose (T 104) [1;0;2;3]) (-2) 1);
  (*1078*) AddTo n_rdm2'vovv (Times (Transpose (T 104) [1;0;3;2]) (2) 1);
  (*1079*) Del (T 104);
  (*1080*) AddTo n_rdm2'vovv (Times (Transpose (T 96) [1;0;3;2]) (-2) 1);
  (*1081*) AddTo n_rdm2'vovv (Times (Transpose (T 93) [1;0;2;3]) (-2) 1);
  (*1082*) AddTo n_rdm2'vovv (Times (Transpose (T 89) [1;0;3;2]) (2) 1);
  (*1083*) AddTo n_rdm2'vovv (Times (Transpose (T 106) [1;0;3;2]) (-2) 1);
  (*1084*) Del (T 106);
  (*1085*) AddTo n_rdm2'vovv (Times (Einsum [(T 82,[0;1]); (n_t1,[2;3])] [0;2;1;3]) (2) 1);
  (*1086*) Assign n_rdm2'ovvv (Times (Copy (T 92)) (2) 1);
  (*1087*) AddTo n_rdm2'ovvv (Times (Transpose (T 92) [0;1;3;2]) (-2) 1);
  (*1088*) Del (T 92);
  (*1089*) AddTo n_rdm2'ovvv (Times (Copy (T 94)) (2) 1);
  (*1090*) AddTo n_rdm2'ovvv (Times (Transpose (T 94) [0;1;3;2]) (-2) 1);
  (*1091*) Del (T 94);
  (*1092*) AddTo n_rdm2'ovvv (Times (Copy (T 95)) (2) 1);
  (*1093*) AddTo n_rdm2'ovvv (Times (Transpose (T 95) [0;1;3;2]) (-2) 1);
  (*1094*) Del (T 95);
  (*1095*) AddTo n_rdm2'ovvv (Times (Transpose (T 93) [0;1;3;2]) (-2) 1);
  (*1096*) Del (T 93);
  (*1097*) AddTo n_rdm2'ovvv (Times (Copy (T 96)) (-2) 1);
  (*1098*) Del (T 96);
  (*1099*) AddTo n_rdm2'ovvv (Times (Copy (T 89)) (2) 1);
  (*1100*) Del (T 89);
  (*1101*) AddTo n_rdm2'ovvv (Times (Copy (T 100)) (-2) 1);
  (*1102*) Del (T 100);
  (*1103*) AddTo n_rdm2'ovvv (Times (Einsum [(n_t1,[0;1]); (T 88,[2;3])] [0;2;1;3]) (4) 1);
  (*1104*) Assign n_rdm2'vvoo (Times (Transpose n_l2 [0;1;3;2]) (-2) 1);
  (*1105*) AddTo n_rdm2'vvoo (Times (Copy n_l2) (4) 1);
  (*1106*) Assign n_rdm2'vovo (Times (Einsum [(n_t1,[0;1]); (n_l1,[2;3])] [2;0;1;3]) (-2) 1);
  (*1107*) AddTo n_rdm2'vovo (Times (Transpose (T 44) [2;1;3;0]) (-2) 1);
  (*1108*) AddTo n_rdm2'vovo (Times (Transpose (T 87) [2;1;3;0]) (-2) 1);
  (*1109*) Del (T 87);
  (*1110*) AddTo n_rdm2'vovo (Times (Transpose (T 85) [2;1;3;0]) (-2) 1);
  (*1111*) AddTo n_rdm2'vovo (Times (Einsum [(T 88,[0;1]); (n_delta'oo,[2;3])] [0;2;1;3]) (8) 1);
  (*1112*) Del (T 88);
  (*1113*) AddTo n_rdm2'vovo (Times (Transpose (T 66) [2;1;3;0]) (-2) 1);
  (*1114*) AddTo n_rdm2'vovo (Times (Transpose (T 83) [2;1;3;0]) (-2) 1);
  (*1115*) Assign n_rdm2'voov (Times (Einsum [(n_t1,[0;1]); (n_l1,[2;3])] [2;0;3;1]) (4) 1);
  (*1116*) AddTo n_rdm2'voov (Times (Transpose (T 78) [3;0;1;2]) (2) 1);
  (*1117*) AddTo n_rdm2'voov (Times (Transpose (T 77) [3;0;1;2]) (-2) 1);
  (*1118*) AddTo n_rdm2'voov (Times (Transpose (T 85) [2;1;0;3]) (2) 1);
  (*1119*) Del (T 85);
  (*1120*) AddTo n_rdm2'voov (Times (Einsum [(n_delta'oo,[0;1]); (T 82,[2;3])] [2;0;1;3]) (-2) 1);
  (*1121*) AddTo n_rdm2'voov (Times (Transpose (T 64) [2;1;0;3]) (-2) 1);
  (*1122*) AddTo n_rdm2'voov (Times (Transpose (T 84) [2;1;0;3]) (-2) 1);
  (*1123*) AddTo n_rdm2'voov (Times (Transpose (T 44) [2;1;0;3]) (2) 1);
  (*1124*) Assign n_rdm2'ovvo (Times (Einsum [(n_t1,[0;1]); (n_l1,[2;3])] [0;2;1;3]) (4) 1);
  (*1125*) AddTo n_rdm2'ovvo (Times (Transpose (T 44) [1;2;3;0]) (4) 1);
  (*1126*) Del (T 44);
  (*1127*) AddTo n_rdm2'ovvo (Times (Transpose (T 47) [1;2;3;0]) (-2) 1);
  (*1128*) Del (T 47);
  (*1129*) AddTo n_rdm2'ovvo (Times (Transpose (T 79) [1;2;3;0]) (-2) 1);
  (*1130*) AddTo n_rdm2'ovvo (Times (Einsum [(n_delta'oo,[0;1]); (T 82,[2;3])] [0;2;3;1]) (-2) 1);
  (*1131*) AddTo n_rdm2'ovvo (Times (Transpose (T 64) [1;2;3;0]) (-2) 1);
  (*1132*) Del (T 64);
  (*1133*) AddTo n_rdm2'ovvo (Times (Transpose (T 84) [1;2;3;0]) (-2) 1);
  (*1134*) Del (T 84);
  (*1135*) Assign n_rdm2'ovov (Times (Einsum [(n_t1,[0;1]); (n_l1,[2;3])] [0;2;3;1]) (-2) 1);
  (*1136*) AddTo n_rdm2'ovov (Times (Transpose (T 77) [0;3;1;2]) (2) 1);
  (*1137*) Del (T 77);
  (*1138*) AddTo n_rdm2'ovov (Times (Transpose (T 78) [0;3;1;2]) (-2) 1);
  (*1139*) Del (T 78);
  (*1140*) AddTo n_rdm2'ovov (Times (Transpose (T 79) [1;2;0;3]) (2) 1);
  (*1141*) Del (T 79);
  (*1142*) AddTo n_rdm2'ovov (Times (Einsum [(n_delta'oo,[0;1]); (T 82,[2;3])] [0;2;1;3]) (4) 1);
  (*1143*) Del (T 82);
  (*1144*) AddTo n_rdm2'ovov (Times (Transpose (T 66) [1;2;0;3]) (-2) 1);
  (*1145*) Del (T 66);
  (*1146*) AddTo n_rdm2'ovov (Times (Transpose (T 83) [1;2;0;3]) (-2) 1);
  (*1147*) Del (T 83);
  (*1148*) Assign n_rdm2'oovv (Times (Copy (T 49)) (2) 1);
  (*1149*) AddTo n_rdm2'oovv (Times (Transpose (T 49) [0;1;3;2]) (-2) 1);
  (*1150*) Del (T 49);
  (*1151*) AddTo n_rdm2'oovv (Times (Copy (T 54)) (2) 1);
  (*1152*) AddTo n_rdm2'oovv (Times (Transpose (T 54) [0;1;3;2]) (-2) 1);
  (*1153*) AddTo n_rdm2'oovv (Times (Transpose (T 54) [1;0;2;3]) (-2) 1);
  (*1154*) AddTo n_rdm2'oovv (Times (Transpose (T 54) [1;0;3;2]) (2) 1);
  (*1155*) Del (T 54);
  (*1156*) AddTo n_rdm2'oovv (Times (Copy (T 58)) (2) 1);
  (*1157*) AddTo n_rdm2'oovv (Times (Transpose (T 58) [0;1;3;2]) (-2) 1);
  (*1158*) Del (T 58);
  (*1159*) AddTo n_rdm2'oovv (Times (Copy (T 63)) (-4) 1);
  (*1160*) AddTo n_rdm2'oovv (Times (Transpose (T 63) [0;1;3;2]) (2) 1);
  (*1161*) AddTo n_rdm2'oovv (Times (Transpose (T 63) [1;0;2;3]) (2) 1);
  (*1162*) AddTo n_rdm2'oovv (Times (Transpose (T 63) [1;0;3;2]) (-4) 1);
  (*1163*) Del (T 63);
  (*1164*) AddTo n_rdm2'oovv (Times (Transpose n_t2 [0;1;3;2]) (-2) 1);
  (*1165*) AddTo n_rdm2'oovv (Times (Copy n_t2) (4) 1);
  (*1166*) AddTo n_rdm2'oovv (Times (Einsum [(n_t1,[0;1]); (n_t1,[2;3])] [0;2;3;1]) (-2) 1);
  (*1167*) AddTo n_rdm2'oovv (Times (Einsum [(n_t1,[0;1]); (n_t1,[2;3])] [2;0;3;1]) (2) 1);
  (*1168*) AddTo n_rdm2'oovv (Times (Copy (T 65)) (2) 1);
  (*1169*) Del (T 65);
  (*1170*) AddTo n_rdm2'oovv (Times (Transpose (T 67) [0;1;3;2]) (2) 1);
  (*1171*) Del (T 67);
  (*1172*) AddTo n_rdm2'oovv (Times (Copy (T 55)) (2) 1);
  (*1173*) Del (T 55);
  (*1174*) AddTo n_rdm2'oovv (Times (Copy (T 56)) (2) 1);
  (*1175*) Del (T 56);
  (*1176*) AddTo n_rdm2'oovv (Times (Einsum [(T 13,[0;1]); (n_t1,[2;3])] [2;0;3;1]) (-2) 1);
  (*1177*) Del (T 13);
  (*1178*) AddTo n_rdm2'oovv (Times (Copy (T 70)) (2) 1);
  (*1179*) AddTo n_rdm2'oovv (Times (Transpose (T 70) [1;0;3;2]) (2) 1);
  (*1180*) Del (T 70);
  (*1181*) AddTo n_rdm2'oovv (Times (Transpose (T 73) [0;1;3;2]) (-2) 1);
  (*1182*) AddTo n_rdm2'oovv (Times (Transpose (T 73) [1;0;2;3]) (-2) 1);
  (*1183*) Del (T 73);
  (*1184*) AddTo n_rdm2'oovv (Times (Transpose (T 45) [1;0;3;2]) (4) 1);
  (*1185*) Del (T 45);
  (*1186*) AddTo n_rdm2'oovv (Times (Transpose (T 74) [0;1;3;2]) (2) 1);
  (*1187*) Del (T 74);
  (*1188*) AddTo n_rdm2'oovv (Times (Einsum [(T 75,[0;1]); (n_t1,[2;3])] [0;2;1;3]) (2) 1);
  (*1189*) Del (T 75);
  (*1190*) Assign n_rdm2'vooo (Times (Einsum [(n_delta'oo,[0;1]); (n_l1,[2;3])] [2;0;3;1]) (4) 1);
  (*1191*) AddTo n_rdm2'vooo (Times (Einsum [(n_l1,[0;1]); (n_delta'oo,[2;3])] [0;2;3;1]) (-2) 1);
  (*1192*) AddTo n_rdm2'vooo (Times (Transpose (T 2) [3;2;0;1]) (-4) 1);
  (*1193*) AddTo n_rdm2'vooo (Times (Transpose (T 2) [3;2;1;0]) (2) 1);
  (*1194*) Assign n_rdm2'ovoo (Times (Einsum [(n_delta'oo,[0;1]); (n_l1,[2;3])] [0;2;3;1]) (-2) 1);
  (*1195*) AddTo n_rdm2'ovoo (Times (Einsum [(n_l1,[0;1]); (n_delta'oo,[2;3])] [2;0;3;1]) (4) 1);
  (*1196*) AddTo n_rdm2'ovoo (Times (Transpose (T 2) [2;3;0;1]) (2) 1);
  (*1197*) AddTo n_rdm2'ovoo (Times (Transpose (T 2) [2;3;1;0]) (-4) 1);
  (*1198*) Del (T 2);
  (*1199*) Assign n_rdm2'oovo (Times (Einsum [(n_delta'oo,[0;1]); (T 39,[2;3])] [2;0;3;1]) (-2) 1);
  (*1200*) AddTo n_rdm2'oovo (Times (Einsum [(T 39,[0;1]); (n_delta'oo,[2;3])] [2;0;1;3]) (2) 1);
  (*1201*) Del (T 39);
  (*1202*) AddTo n_rdm2'oovo (Times (Einsum [(T 15,[0;1]); (n_delta'oo,[2;3])] [0;2;1;3]) (2) 1);
  (*1203*) AddTo n_rdm2'oovo (Times (Einsum [(T 15,[0;1]); (n_delta'oo,[2;3])] [2;0;1;3]) (-2) 1);
  (*1204*) Del (T 15);
  (*1205*) AddTo n_rdm2'oovo (Times (Einsum [(n_delta'oo,[0;1]); (n_t1,[2;3])] [2;0;3;1]) (2) 1);
  (*1206*) AddTo n_rdm2'oovo (Times (Einsum [(n_delta'oo,[0;1]); (n_t1,[2;3])] [0;2;3;1]) (-2) 1);
  (*1207*) AddTo n_rdm2'oovo (Times (Transpose (T 40) [1;2;3;0]) (-2) 1);
  (*1208*) AddTo n_rdm2'oovo (Times (Transpose (T 40) [2;1;3;0]) (2) 1);
  (*1209*) Del (T 40);
  (*1210*) AddTo n_rdm2'oovo (Times (Transpose (T 41) [1;2;3;0]) (-2) 1);
  (*1211*) AddTo n_rdm2'oovo (Times (Transpose (T 41) [2;1;3;0]) (2) 1);
  (*1212*) Del (T 41);
  (*1213*) AddTo n_rdm2'oovo (Times (Transpose (T 17) [1;2;3;0]) (-2) 1);
  (*1214*) AddTo n_rdm2'oovo (Times (Transpose (T 27) [1;2;3;0]) (2) 1);
  (*1215*) AddTo n_rdm2'oovo (Times (Transpose (T 26) [2;1;3;0]) (2) 1);
  (*1216*) AddTo n_rdm2'oovo (Times (Transpose (T 29) [2;1;3;0]) (-2) 1);
  (*1217*) AddTo n_rdm2'oovo (Times (Transpose (T 30) [1;2;3;0]) (2) 1);
  (*1218*) AddTo n_rdm2'oovo (Times (Einsum [(n_delta'oo,[0;1]); (T 37,[2;3])] [2;0;3;1]) (-2) 1);
  (*1219*) AddTo n_rdm2'oovo (Times (Einsum [(T 38,[0;1]); (n_t1,[2;3])] [2;1;3;0]) (-2) 1);
  (*1220*) Assign n_rdm2'ooov (Times (Einsum [(n_delta'oo,[0;1]); (T 12,[2;3])] [2;0;1;3]) (4) 1);
  (*1221*) AddTo n_rdm2'ooov (Times (Einsum [(T 12,[0;1]); (n_delta'oo,[2;3])] [2;0;3;1]) (-4) 1);
  (*1222*) Del (T 12);
  (*1223*) AddTo n_rdm2'ooov (Times (Einsum [(T 16,[0;1]); (n_delta'oo,[2;3])] [0;2;3;1]) (2) 1);
  (*1224*) AddTo n_rdm2'ooov (Times (Einsum [(T 16,[0;1]); (n_delta'oo,[2;3])] [2;0;3;1]) (-2) 1);
  (*1225*) Del (T 16);
  (*1226*) AddTo n_rdm2'ooov (Times (Einsum [(n_delta'oo,[0;1]); (n_t1,[2;3])] [2;0;1;3]) (-2) 1);
  (*1227*) AddTo n_rdm2'ooov (Times (Einsum [(n_delta'oo,[0;1]); (n_t1,[2;3])] [0;2;1;3]) (2) 1);
  (*1228*) AddTo n_rdm2'ooov (Times (Transpose (T 23) [1;2;0;3]) (2) 1);
  (*1229*) AddTo n_rdm2'ooov (Times (Transpose (T 23) [2;1;0;3]) (-2) 1);
  (*1230*) Del (T 23);
  (*1231*) AddTo n_rdm2'ooov (Times (Einsum [(T 7,[0;1]); (n_t1,[2;3])] [2;1;0;3]) (2) 1);
  (*1232*) AddTo n_rdm2'ooov (Times (Einsum [(T 7,[0;1]); (n_t1,[2;3])] [1;2;0;3]) (-2) 1);
  (*1233*) AddTo n_rdm2'ooov (Times (Transpose (T 25) [1;2;0;3]) (2) 1);
  (*1234*) AddTo n_rdm2'ooov (Times (Transpose (T 25) [2;1;0;3]) (-2) 1);
  (*1235*) Del (T 25);
  (*1236*) AddTo n_rdm2'ooov (Times (Transpose (T 17) [2;1;0;3]) (-2) 1);
  (*1237*) Del (T 17);
  (*1238*) AddTo n_rdm2'ooov (Times (Transpose (T 26) [1;2;0;3]) (2) 1);
  (*1239*) Del (T 26);
  (*1240*) AddTo n_rdm2'ooov (Times (Transpose (T 27) [2;1;0;3]) (2) 1);
  (*1241*) Del (T 27);
  (*1242*) AddTo n_rdm2'ooov (Times (Transpose (T 29) [1;2;0;3]) (-2) 1);
  (*1243*) Del (T 29);
  (*1244*) AddTo n_rdm2'ooov (Times (Transpose (T 30) [2;1;0;3]) (2) 1);
  (*1245*) Del (T 30);
  (*1246*) AddTo n_rdm2'ooov (Times (Einsum [(T 37,[0;1]); (n_delta'oo,[2;3])] [2;0;3;1]) (-2) 1);
  (*1247*) Del (T 37);
  (*1248*) AddTo n_rdm2'ooov (Times (Einsum [(T 38,[0;1]); (n_t1,[2;3])] [1;2;0;3]) (-2) 1);
  (*1249*) Del (T 38);
  (*1250*) Assign n_rdm2'oooo (Times (Transpose (T 4) [3;2;0;1]) (-2) 1);
  (*1251*) AddTo n_rdm2'oooo (Times (Transpose (T 4) [2;3;0;1]) (2) 1);
  (*1252*) Del (T 4);
  (*1253*) AddTo n_rdm2'oooo (Times (Einsum [(n_delta'oo,[0;1]); (n_delta'oo,[2;3])] [0;2;1;3]) (2) 1);
  (*1254*) AddTo n_rdm2'oooo (Times (Einsum [(n_delta'oo,[0;1]); (n_delta'oo,[2;3])] [0;2;3;1]) (-2) 1);
  (*1255*) AddTo n_rdm2'oooo (Times (Einsum [(T 6,[0;1]); (n_delta'oo,[2;3])] [1;2;0;3]) (-4) 1);
  (*1256*) AddTo n_rdm2'oooo (Times (Einsum [(n_delta'oo,[0;1]); (T 6,[2;3])] [0;3;2;1]) (2) 1);
  (*1257*) AddTo n_rdm2'oooo (Times (Einsum [(n_delta'oo,[0;1]); (T 6,[2;3])] [3;0;1;2]) (2) 1);
  (*1258*) AddTo n_rdm2'oooo (Times (Einsum [(n_delta'oo,[0;1]); (T 6,[2;3])] [0;3;1;2]) (-4) 1);
  (*1259*) Del (T 6);
  (*1260*) AddTo n_rdm2'oooo (Times (Einsum [(T 7,[0;1]); (n_delta'oo,[2;3])] [1;2;0;3]) (-2) 1);
  (*1261*) AddTo n_rdm2'oooo (Times (Einsum [(n_delta'oo,[0;1]); (T 7,[2;3])] [0;3;2;1]) (2) 1);
  (*1262*) AddTo n_rdm2'oooo (Times (Einsum [(T 7,[0;1]); (n_delta'oo,[2;3])] [1;2;3;0]) (2) 1);
  (*1263*) AddTo n_rdm2'oooo (Times (Einsum [(n_delta'oo,[0;1]); (T 7,[2;3])] [0;3;1;2]) (-4) 1);
  (*1264*) Del (T 7);
  (*1265*) AddTo n_rdm2'oooo (Times (Transpose (T 1) [3;2;1;0]) (2) 1);
  (*1266*) Del (T 1);
  (*1267*) AddTo n_rdm2'oooo (Times (Transpose (T 3) [3;2;1;0]) (2) 1);
  (*1268*) Del (T 3);
  (*1269*) AddTo n_rdm2'oooo (Times (Einsum [(T 8,[0;1]); (n_delta'oo,[2;3])] [1;2;0;3]) (2) 1);
  (*1270*) Del n_delta'oo;
  (*1270*) Del n_delta'vv;
  (*1270*) Del (T 8)]
 [(n_rdm2'oooo,[0;0;0;0]); (n_rdm2'ooov,[0;0;0;1]); (n_rdm2'oovo,[0;0;1;0]); (n_rdm2'ovoo,[0;1;0;0]); (n_rdm2'vooo,[1;0;0;0]); (n_rdm2'oovv,[0;0;1;1]); (n_rdm2'ovov,[0;1;0;1]); (n_rdm2'ovvo,[0;1;1;0]); (n_rdm2'voov,[1;0;0;1]); (n_rdm2'vovo,[1;0;1;0]); (n_rdm2'vvoo,[1;1;0;0]); (n_rdm2'ovvv,[0;1;1;1]); (n_rdm2'vovv,[1;0;1;1]); (n_rdm2'vvov,[1;1;0;1]); (n_rdm2'vvvo,[1;1;1;0]); (n_rdm2'vvvv,[1;1;1;1])].

(** ebcc/codegen/RDFCCSD.py:1276-1442 [hbar_matvec_ip_intermediates] *)
Definition RDFCCSD_hbar_matvec_ip_intermediates : prog := mkprog
 [(n_t1,[0;1]); (n_v'xov,[2;0;1]); (n_t2,[0;0;1;1]); (n_v'xoo,[2;0;0]); (n_v'xvv,[2;1;1]); (n_f'ov,[0;1]); (n_f'vv,[1;1]); (n_f'oo,[0;0])]
 [(*1366*) Assign (T 7) (Plain (Einsum [(n_t1,[0;1]); (n_v'xov,[2;0;1])] [2]));
  (*1367*) Assign (T 5) (Plain (Einsum [(n_v'xov,[0;1;2]); (n_t1,[3;2])] [3;1;0]));
  (*1368*) Assign (T 12) (Plain (Einsum [(T 7,[0]); (n_v'xov,[0;1;2])] [1;2]));
  (*1369*) Assign (T 10) (Plain (Einsum [(n_v'xov,[0;1;2]); (T 5,[1;3;0])] [3;2]));
  (*1370*) Assign (T 18) (Plain (Einsum [(n_t2,[0;1;2;3]); (n_v'xov,[4;1;2])] [0;3;4]));
  (*1371*) Assign (T 21) (Plain (Einsum [(n_t2,[0;1;2;3]); (n_v'xov,[4;1;3])] [0;2;4]));
  (*1372*) Assign (T 38) (Plain (Einsum [(n_v'xov,[0;1;2]); (n_v'xov,[0;3;4])] [3;1;4;2]));
  (*1373*) Assign (T 25) (Plain (Einsum [(T 12,[0;1]); (n_t1,[2;1])] [2;0]));
  (*1374*) Assign (T 24) (Plain (Einsum [(T 10,[0;1]); (n_t1,[2;1])] [2;0]));
  (*1375*) Assign (T 45) (Plain (Einsum [(n_v'xoo,[0;1;2]); (T 5,[3;4;0])] [3;1;2;4]));
  (*1376*) Assign (T 19) (Plain (Einsum [(n_v'xov,[0;1;2]); (T 18,[3;2;0])] [3;1]));
  (*1377*) Assign (T 22) (Plain (Einsum [(n_v'xov,[0;1;2]); (T 21,[3;2;0])] [3;1]));
  (*1378*) Assign (T 15) (Plain (Einsum [(n_v'xov,[0;1;2]); (T 5,[3;4;0])] [3;1;4;2]));
  (*1379*) Assign (T 32) (Plain (Einsum [(n_t1,[0;1]); (n_v'xvv,[2;3;1])] [0;3;2]));
  (*1380*) Assign (T 1) (Plain (Einsum [(n_t1,[0;1]); (n_f'ov,[2;1])] [2;0]));
  (*1381*) Assign (T 111) (Plain (Einsum [(T 5,[0;1;2]); (T 5,[3;4;2])] [3;0;4;1]));
  (*1382*) Assign (T 30) (Plain (Einsum [(n_v'xvv,[0;1;2]); (T 7,[0])] [1;2]));
  (*1383*) Assign (T 8) (Plain (Einsum [(T 7,[0]); (n_v'xoo,[0;1;2])] [1;2]));
  (*1384*) Del (T 7);
  (*1385*) Assign (T 6) (Plain (Einsum [(n_v'xoo,[0;1;2]); (T 5,[2;3;0])] [1;3]));
  (*1386*) Assign (T 2) (Plain (Einsum [(n_v'xov,[0;1;2]); (n_v'xoo,[0;3;4])] [3;4;1;2]));
  (*1387*) Assign (T 58) (Plain (Einsum [(n_v'xoo,[0;1;2]); (n_v'xoo,[0;3;4])] [3;1;2;4]));
  (*1388*) Assign (T 39) (Plain (Einsum [(n_t2,[0;1;2;3]); (T 38,[4;5;3;2])] [0;1;5;4]));
  (*1389*) Assign (T 35) (Plain (Einsum [(n_v'xov,[0;1;2]); (n_v'xvv,[0;3;4])] [1;3;4;2]));
  (*1390*) Assign (T 131) (Plain (Einsum [(T 25,[0;1]); (n_t1,[1;2])] [0;2]));
  (*1391*) Assign (T 130) (Plain (Einsum [(n_t1,[0;1]); (T 24,[2;0])] [2;1]));
  (*1392*) Assign (T 124) (Plain (Einsum [(n_t1,[0;1]); (T 45,[2;3;4;0])] [2;3;4;1]));
  (*1393*) Assign (T 123) (Plain (Einsum [(T 19,[0;1]); (n_t1,[1;2])] [0;2]));
  (*1394*) Assign (T 122) (Plain (Einsum [(T 22,[0;1]); (n_t1,[1;2])] [0;2]));
  (*1395*) Assign (T 121) (Plain (Einsum [(T 15,[0;1;2;3]); (n_t2,[4;2;3;5])] [0;4;1;5]));
  (*1396*) Assign (T 120) (Plain (Einsum [(T 15,[0;1;2;3]); (n_t2,[2;1;3;4])] [0;4]));
  (*1397*) Assign (T 119) (Plain (Einsum [(T 15,[0;1;2;3]); (n_t2,[2;1;4;3])] [0;4]));
  (*1398*) Assign (T 115) (Plain (Einsum [(n_v'xoo,[0;1;2]); (T 32,[3;4;0])] [3;1;2;4]));
  (*1399*) Assign (T 114) (Plain (Einsum [(T 1,[0;1]); (n_t1,[0;2])] [1;2]));
  (*1400*) Assign (T 113) (Plain (Einsum [(T 111,[0;1;2;3]); (n_t1,[2;4])] [1;0;3;4]));
  (*1401*) Assign (T 110) (Plain (Einsum [(T 5,[0;1;2]); (T 32,[3;4;2])] [0;3;1;4]));
  (*1402*) Assign (T 109) (Plain (Einsum [(T 5,[0;1;2]); (T 32,[1;3;2])] [0;3]));
  (*1403*) Assign (T 108) (Plain (Einsum [(n_t1,[0;1]); (T 30,[2;1])] [0;2]));
  (*1404*) Assign (T 107) (Plain (Einsum [(n_v'xvv,[0;1;2]); (T 18,[3;2;0])] [3;1]));
  (*1405*) Assign (T 106) (Plain (Einsum [(T 21,[0;1;2]); (n_v'xvv,[2;3;1])] [0;3]));
  (*1406*) Assign (T 104) (Plain (Einsum [(n_t1,[0;1]); (n_f'vv,[2;1])] [0;2]));
  (*1407*) Assign (T 100) (Plain (Einsum [(T 8,[0;1]); (n_t1,[1;2])] [0;2]));
  (*1408*) Assign (T 99) (Plain (Einsum [(T 6,[0;1]); (n_t1,[1;2])] [0;2]));
  (*1409*) Assign (T 97) (Plain (Einsum [(n_t2,[0;1;2;3]); (T 12,[4;3])] [0;1;4;2]));
  (*1410*) Assign (T 96) (Plain (Einsum [(T 10,[0;1]); (n_t2,[2;3;4;1])] [2;3;0;4]));
  (*1411*) Assign (T 90) (Plain (Einsum [(T 21,[0;1;2]); (n_v'xov,[2;0;3])] [1;3]));
  (*1412*) Assign (T 88) (Plain (Einsum [(T 18,[0;1;2]); (n_v'xov,[2;0;3])] [1;3]));
  (*1413*) Assign (T 87) (Plain (Einsum [(T 2,[0;1;2;3]); (n_t2,[4;1;3;5])] [4;0;2;5]));
  (*1414*) Assign (T 86) (Plain (Einsum [(n_t2,[0;1;2;3]); (T 2,[4;0;1;3])] [4;2]));
  (*1415*) Assign (T 85) (Plain (Einsum [(n_t2,[0;1;2;3]); (T 2,[4;0;1;2])] [4;3]));
  (*1416*) Assign (T 79) (Plain (Einsum [(n_f'ov,[0;1]); (n_t2,[2;3;4;1])] [0;2;3;4]));
  (*1417*) Assign (T 77) (Plain (Einsum [(n_f'oo,[0;1]); (n_t1,[1;2])] [0;2]));
  (*1418*) Assign (T 76) (Plain (Einsum [(n_t2,[0;1;2;3]); (T 12,[1;3])] [0;2]));
  (*1419*) Assign (T 75) (Plain (Einsum [(n_t2,[0;1;2;3]); (T 12,[1;2])] [0;3]));
  (*1420*) Assign (T 74) (Plain (Einsum [(n_t2,[0;1;2;3]); (T 10,[1;3])] [0;2]));
  (*1421*) Assign (T 73) (Plain (Einsum [(n_t2,[0;1;2;3]); (T 10,[1;2])] [0;3]));
  (*1422*) Assign (T 68) (Plain (Einsum [(n_t2,[0;1;2;3]); (T 38,[1;4;5;3])] [0;4;2;5]));
  (*1423*) Assign (T 67) (Plain (Einsum [(T 38,[0;1;2;3]); (n_t2,[4;0;3;5])] [4;1;5;2]));
  (*1424*) Assign (T 66) (Plain (Einsum [(n_v'xoo,[0;1;2]); (T 18,[3;4;0])] [3;1;2;4]));
  (*1425*) Assign (T 64) (Plain (Einsum [(n_v'xoo,[0;1;2]); (T 21,[3;4;0])] [3;1;2;4]));
  (*1426*) Assign (T 63) (Plain (Einsum [(n_t2,[0;1;2;3]); (T 2,[4;1;5;3])] [0;4;5;2]));
  (*1427*) Assign (T 60) (Plain (Einsum [(n_t1,[0;1]); (T 58,[2;3;4;0])] [3;4;2;1]));
  (*1428*) Assign (T 57) (Plain (Einsum [(n_f'ov,[0;1]); (n_t2,[2;0;3;1])] [2;3]));
  (*1429*) Assign (T 56) (Plain (Einsum [(n_f'ov,[0;1]); (n_t2,[2;0;1;3])] [2;3]));
  (*1430*) Assign (T 53) (Plain (Einsum [(n_t1,[0;1]); (T 45,[2;3;0;4])] [2;3;4;1]));
  (*1431*) Assign (T 52) (Plain (Einsum [(T 18,[0;1;2]); (T 5,[3;4;2])] [3;0;4;1]));
  (*1432*) Assign (T 51) (Plain (Einsum [(T 15,[0;1;2;3]); (n_t2,[4;2;5;3])] [0;4;1;5]));
  (*1433*) Assign (T 49) (Plain (Einsum [(T 21,[0;1;2]); (T 5,[3;4;2])] [3;0;4;1]));
  (*1434*) Assign (T 44) (Plain (Einsum [(n_v'xoo,[0;1;2]); (T 32,[2;3;0])] [1;3]));
  (*1435*) Assign (T 43) (Plain (Einsum [(n_v'xvv,[0;1;2]); (n_v'xoo,[0;3;4])] [3;4;1;2]));
  (*1436*) Assign (T 41) (Plain (Einsum [(n_t1,[0;1]); (T 39,[2;3;4;0])] [2;3;4;1]));
  (*1437*) Assign (T 36) (Plain (Einsum [(T 35,[0;1;2;3]); (n_t2,[4;5;3;2])] [4;5;0;1]));
  (*1438*) Del (T 35);
  (*1439*) Assign (T 34) (Plain (Einsum [(T 5,[0;1;2]); (n_v'xvv,[2;3;4])] [0;1;3;4]));
  (*1440*) Assign (T 33) (Plain (Einsum [(T 32,[0;1;2]); (n_v'xov,[2;0;3])] [3;1]))]
 [(T 1,[0;0]); (T 2,[0;0;0;1]); (T 104,[0;1]); (T 106,[0;1]); (T 107,[0;1]); (T 108,[0;1]); (T 109,[0;1]); (T 110,[0;0;0;1]); (T 12,[0;1]); (T 111,[0;0;0;0]); (T 113,[0;0;0;1]); (T 114,[0;1]); (T 115,[0;0;0;1]); (T 119,[0;1]); (T 120,[0;1]); (T 121,[0;0;0;1]); (T 122,[0;1]); (T 123,[0;1]); (T 124,[0;0;0;1]); (T 130,[0;1]); (T 131,[0;1]); (T 15,[0;0;0;1]); (T 18,[0;1;2]); (T 19,[0;0]); (T 21,[0;1;2]); (T 22,[0;0]); (T 24,[0;0]); (T 25,[0;0]); (T 30,[1;1]); (T 32,[0;1;2]); (T 33,[1;1]); (T 34,[0;0;1;1]); (T 36,[0;0;0;1]); (T 38,[0;0;1;1]); (T 39,[0;0;0;0]); (T 5,[0;0;2]); (T 41,[0;0;0;1]); (T 43,[0;0;1;1]); (T 44,[0;1]); (T 45,[0;0;0;0]); (T 49,[0;0;0;1]); (T 6,[0;0]); (T 51,[0;0;0;1]); (T 52,[0;0;0;1]); (T 53,[0;0;0;1]); (T 56,[0;1]); (T 57,[0;1]); (T 58,[0;0;0;0]); (T 60,[0;0;0;1]); (T 63,[0;0;0;1]); (T 64,[0;0;0;1]); (T 66,[0;0;0;1]); (T 67,[0;0;1;1]); (T 68,[0;0;1;1]); (T 8,[0;0]); (T 73,[0;1]); (T 74,[0;1]); (T 75,[0;1]); (T 76,[0;1]); (T 77,[0;1]); (T 79,[0;0;0;1]); (T 85,[0;1]); (T 86,[0;1]); (T 87,[0;0;0;1]); (T 88,[1;1]); (T 90,[1;1]); (T 10,[0;1]); (T 96,[0;0;0;1]); (T 97,[0;0;0;1]); (T 99,[0;1]); (T 100,[0;1])].

(** ebcc/codegen/RDFCCSD.py:1444-1679 [hbar_matvec_ip] *)
Definition RDFCCSD_hbar_matvec_ip : prog := mkprog
 [(n_r2,[0;0;1]); (n_f'ov,[0;1]); (IT 12,[0;1]); (IT 10,[0;1]); (IT 5,[0;0;2]); (n_v'xoo,[2;0;0]); (n_v'xov,[2;0;1]); (IT 15,[0;0;0;1]); (IT 2,[0;0;0;1]); (IT 111,[0;0;0;0]); (IT 45,[0;0;0;0]); (IT 113,[0;0;0;1]); (IT 121,[0;0;0;1]); (IT 124,[0;0;0;1]); (IT 41,[0;0;0;1]); (IT 51,[0;0;0;1]); (IT 52,[0;0;0;1]); (IT 53,[0;0;0;1]); (IT 60,[0;0;0;1]); (IT 63,[0;0;0;1]); (IT 66,[0;0;0;1]); (IT 87,[0;0;0;1]); (IT 96,[0;0;0;1]); (IT 110,[0;0;0;1]); (IT 115,[0;0;0;1]); (IT 36,[0;0;0;1]); (IT 49,[0;0;0;1]); (IT 64,[0;0;0;1]); (IT 79,[0;0;0;1]); (IT 97,[0;0;0;1]); (IT 21,[0;1;2]); (IT 32,[0;1;2]); (IT 18,[0;1;2]); (IT 34,[0;0;1;1]); (IT 43,[0;0;1;1]); (IT 67,[0;0;1;1]); (IT 107,[0;1]); (IT 109,[0;1]); (IT 114,[0;1]); (IT 119,[0;1]); (IT 122,[0;1]); (IT 131,[0;1]); (IT 44,[0;1]); (IT 56,[0;1]); (IT 74,[0;1]); (IT 75,[0;1]); (IT 77,[0;1]); (IT 86,[0;1]); (IT 100,[0;1]); (IT 104,[0;1]); (IT 106,[0;1]); (IT 108,[0;1]); (IT 120,[0;1]); (IT 123,[0;1]); (IT 130,[0;1]); (IT 57,[0;1]); (IT 73,[0;1]); (IT 76,[0;1]); (IT 85,[0;1]); (IT 99,[0;1]); (IT 38,[0;0;1;1]); (IT 39,[0;0;0;0]); (IT 58,[0;0;0;0]); (IT 68,[0;0;1;1]); (n_f'oo,[0;0]); (IT 1,[0;0]); (IT 22,[0;0]); (IT 25,[0;0]); (IT 8,[0;0]); (IT 19,[0;0]); (IT 24,[0;0]); (IT 6,[0;0]); (IT 33,[1;1]); (IT 90,[1;1]); (n_f'vv,[1;1]); (IT 30,[1;1]); (IT 88,[1;1]); (n_t1,[0;1]); (n_r1,[0]); (n_t2,[0;0;1;1])]
 [(*1472*) Assign (T 4) (Times (Copy n_r2) (2) 1);
  (*1473*) AddTo (T 4) (Times (Transpose n_r2 [1;0;2]) (-1) 1);
  (*1474*) Assign (T 3) (Times (Copy n_f'ov) (1) 2);
  (*1475*) AddTo (T 3) (Plain (Copy (IT 12)));
  (*1476*) AddTo (T 3) (Times (Copy (IT 10)) (-1) 2);
  (*1477*) Del (IT 10);
  (*1478*) Assign (T 16) (Plain (Copy (IT 5)));
  (*1479*) Del (IT 5);
  (*1480*) AddTo (T 16) (Plain (Transpose n_v'xoo [1;2;0]));
  (*1481*) Assign (T 10) (Times (Einsum [(n_v'xov,[0;1;2]); (T 4,[1;3;2])] [3;0]) (1) 2);
  (*1482*) Assign (T 15) (Plain (Copy (IT 15)));
  (*1483*) AddTo (T 15) (Plain (Transpose (IT 2) [0;2;1;3]));
  (*1484*) Assign (T 9) (Plain (Copy (IT 111)));
  (*1485*) Del (IT 111);
  (*1486*) AddTo (T 9) (Plain (Transpose (IT 45) [2;0;1;3]));
  (*1487*) Assign (T 13) (Plain (Copy (IT 113)));
  (*1488*) Del (IT 113);
  (*1489*) AddTo (T 13) (Plain (Transpose (IT 121) [1;0;2;3]));
  (*1490*) Del (IT 121);
  (*1491*) AddTo (T 13) (Plain (Transpose (IT 124) [2;0;1;3]));
  (*1492*) Del (IT 124);
  (*1493*) AddTo (T 13) (Plain (Copy (IT 41)));
  (*1494*) Del (IT 41);
  (*1495*) AddTo (T 13) (Plain (Copy (IT 51)));
  (*1496*) Del (IT 51);
  (*1497*) AddTo (T 13) (Plain (Copy (IT 52)));
  (*1498*) Del (IT 52);
  (*1499*) AddTo (T 13) (Plain (Copy (IT 53)));
  (*1500*) Del (IT 53);
  (*1501*) AddTo (T 13) (Plain (Transpose (IT 60) [1;2;0;3]));
  (*1502*) Del (IT 60);
  (*1503*) AddTo (T 13) (Plain (Transpose (IT 63) [1;0;2;3]));
  (*1504*) Del (IT 63);
  (*1505*) AddTo (T 13) (Plain (Transpose (IT 66) [2;0;1;3]));
  (*1506*) Del (IT 66);
  (*1507*) AddTo (T 13) (Plain (Copy (IT 87)));
  (*1508*) Del (IT 87);
  (*1509*) AddTo (T 13) (Plain (Transpose (IT 96) [1;0;2;3]));
  (*1510*) Del (IT 96);
  (*1511*) AddTo (T 13) (Times (Copy (IT 110)) (-1) 1);
  (*1512*) Del (IT 110);
  (*1513*) AddTo (T 13) (Times (Transpose (IT 115) [2;0;1;3]) (-1) 1);
  (*1514*) Del (IT 115);
  (*1515*) AddTo (T 13) (Times (Copy (IT 15)) (-1) 1);
  (*1516*) AddTo (T 13) (Times (Transpose (IT 2) [0;2;1;3]) (-1) 1);
  (*1517*) AddTo (T 13) (Times (Copy (IT 36)) (-1) 1);
  (*1518*) Del (IT 36);
  (*1519*) AddTo (T 13) (Times (Copy (IT 49)) (-2) 1);
  (*1520*) Del (IT 49);
  (*1521*) AddTo (T 13) (Times (Transpose (IT 64) [2;0;1;3]) (-2) 1);
  (*1522*) Del (IT 64);
  (*1523*) AddTo (T 13) (Times (Transpose (IT 79) [2;1;0;3]) (-1) 1);
  (*1524*) Del (IT 79);
  (*1525*) AddTo (T 13) (Times (Transpose (IT 97) [1;0;2;3]) (-2) 1);
  (*1526*) Del (IT 97);
  (*1527*) Assign (T 11) (Times (Copy (IT 21)) (2) 1);
  (*1528*) Del (IT 21);
  (*1529*) AddTo (T 11) (Plain (Copy (IT 32)));
  (*1530*) Del (IT 32);
  (*1531*) AddTo (T 11) (Plain (Transpose n_v'xov [1;2;0]));
  (*1532*) AddTo (T 11) (Times (Copy (IT 18)) (-1) 1);
  (*1533*) Del (IT 18);
  (*1534*) Assign (T 7) (Plain (Copy (IT 34)));
  (*1535*) AddTo (T 7) (Plain (Copy (IT 43)));
  (*1536*) AddTo (T 7) (Times (Copy (IT 67)) (-1) 1);
  (*1537*) Assign (T 19) (Plain (Copy (IT 107)));
  (*1538*) Del (IT 107);
  (*1539*) AddTo (T 19) (Plain (Copy (IT 109)));
  (*1540*) Del (IT 109);
  (*1541*) AddTo (T 19) (Plain (Copy (IT 114)));
  (*1542*) Del (IT 114);
  (*1543*) AddTo (T 19) (Times (Copy (IT 119)) (2) 1);
  (*1544*) Del (IT 119);
  (*1545*) AddTo (T 19) (Times (Copy (IT 122)) (2) 1);
  (*1546*) Del (IT 122);
  (*1547*) AddTo (T 19) (Times (Copy (IT 131)) (2) 1);
  (*1548*) Del (IT 131);
  (*1549*) AddTo (T 19) (Plain (Copy (IT 44)));
  (*1550*) Del (IT 44);
  (*1551*) AddTo (T 19) (Plain (Copy (IT 56)));
  (*1552*) Del (IT 56);
  (*1553*) AddTo (T 19) (Times (Copy (IT 74)) (2) 1);
  (*1554*) Del (IT 74);
  (*1555*) AddTo (T 19) (Times (Copy (IT 75)) (2) 1);
  (*1556*) Del (IT 75);
  (*1557*) AddTo (T 19) (Plain (Copy (IT 77)));
  (*1558*) Del (IT 77);
  (*1559*) AddTo (T 19) (Times (Copy (IT 86)) (2) 1);
  (*1560*) Del (IT 86);
  (*1561*) AddTo (T 19) (Times (Copy (IT 100)) (2) 1);
  (*1562*) Del (IT 100);
  (*1563*) AddTo (T 19) (Times (Copy n_f'ov) (-1) 1);
  (*1564*) AddTo (T 19) (Times (Copy (IT 104)) (-1) 1);
  (*1565*) Del (IT 104);
  (*1566*) AddTo (T 19) (Times (Copy (IT 106)) (-2) 1);
  (*1567*) Del (IT 106);
  (*1568*) AddTo (T 19) (Times (Copy (IT 108)) (-2) 1);
  (*1569*) Del (IT 108);
  (*1570*) AddTo (T 19) (Times (Copy (IT 120)) (-1) 1);
  (*1571*) Del (IT 120);
  (*1572*) AddTo (T 19) (Times (Copy (IT 12)) (-2) 1);
  (*1573*) Del (IT 12);
  (*1574*) AddTo (T 19) (Times (Copy (IT 123)) (-1) 1);
  (*1575*) Del (IT 123);
  (*1576*) AddTo (T 19) (Times (Copy (IT 130)) (-1) 1);
  (*1577*) Del (IT 130);
  (*1578*) AddTo (T 19) (Times (Copy (IT 57)) (-2) 1);
  (*1579*) Del (IT 57);
  (*1580*) AddTo (T 19) (Times (Copy (IT 73)) (-1) 1);
  (*1581*) Del (IT 73);
  (*1582*) AddTo (T 19) (Times (Copy (IT 76)) (-4) 1);
  (*1583*) Del (IT 76);
  (*1584*) AddTo (T 19) (Times (Copy (IT 85)) (-1) 1);
  (*1585*) Del (IT 85);
  (*1586*) AddTo (T 19) (Times (Copy (IT 99)) (-1) 1);
  (*1587*) Del (IT 99);
  (*1588*) Assign (T 18) (Times (Einsum [(T 4,[0;1;2]); (IT 38,[0;1;2;3])] [3]) (1) 2);
  (*1589*) Del (IT 38);
  (*1590*) Assign (T 8) (Plain (Copy (IT 39)));
  (*1591*) Del (IT 39);
  (*1592*) AddTo (T 8) (Plain (Transpose (IT 45) [2;0;1;3]));
  (*1593*) Del (IT 45);
  (*1594*) AddTo (T 8) (Plain (Transpose (IT 58) [2;0;1;3]));
  (*1595*) Del (IT 58);
  (*1596*) Assign (T 6) (Times (Copy (IT 34)) (1) 2);
  (*1597*) Del (IT 34);
  (*1598*) AddTo (T 6) (Times (Copy (IT 43)) (1) 2);
  (*1599*) Del (IT 43);
  (*1600*) AddTo (T 6) (Plain (Copy (IT 68)));
  (*1601*) AddTo (T 6) (Times (Copy (IT 67)) (-1) 2);
  (*1602*) Del (IT 67);
  (*1603*) Assign (T 14) (Times (Copy n_f'oo) (1) 2);
  (*1604*) AddTo (T 14) (Times (Copy (IT 1)) (1) 2);
  (*1605*) AddTo (T 14) (Plain (Transpose (IT 22) [1;0]));
  (*1606*) AddTo (T 14) (Plain (Transpose (IT 25) [1;0]));
  (*1607*) AddTo (T 14) (Plain (Transpose (IT 8) [1;0]));
  (*1608*) AddTo (T 14) (Times (Transpose (IT 19) [1;0]) (-1) 2);
  (*1609*) AddTo (T 14) (Times (Transpose (IT 24) [1;0]) (-1) 2);
  (*1610*) AddTo (T 14) (Times (Transpose (IT 6) [1;0]) (-1) 2);
  (*1611*) Assign (T 12) (Plain (Copy (IT 33)));
  (*1612*) Del (IT 33);
  (*1613*) AddTo (T 12) (Times (Transpose (IT 90) [1;0]) (2) 1);
  (*1614*) Del (IT 90);
  (*1615*) AddTo (T 12) (Times (Copy n_f'vv) (-1) 1);
  (*1616*) AddTo (T 12) (Times (Transpose (IT 30) [1;0]) (-2) 1);
  (*1617*) Del (IT 30);
  (*1618*) AddTo (T 12) (Times (Transpose (IT 88) [1;0]) (-1) 1);
  (*1619*) Del (IT 88);
  (*1620*) AddTo (T 12) (Times (Einsum [(n_t1,[0;1]); (T 3,[0;2])] [2;1]) (2) 1);
  (*1621*) Assign (T 17) (Plain (Einsum [(n_r2,[0;1;2]); (T 15,[3;4;1;2])] [3;4;0]));
  (*1622*) AddTo (T 17) (Plain (Einsum [(T 15,[0;1;2;3]); (n_r2,[2;4;3])] [4;1;0]));
  (*1623*) Del (T 15);
  (*1624*) AddTo (T 17) (Times (Einsum [(T 16,[0;1;2]); (T 10,[3;2])] [3;1;0]) (-2) 1);
  (*1625*) Del (T 16);
  (*1626*) Assign (T 5) (Plain (Copy n_f'oo));
  (*1627*) AddTo (T 5) (Plain (Copy (IT 1)));
  (*1628*) Del (IT 1);
  (*1629*) AddTo (T 5) (Times (Transpose (IT 22) [1;0]) (2) 1);
  (*1630*) Del (IT 22);
  (*1631*) AddTo (T 5) (Times (Transpose (IT 25) [1;0]) (2) 1);
  (*1632*) Del (IT 25);
  (*1633*) AddTo (T 5) (Times (Transpose (IT 8) [1;0]) (2) 1);
  (*1634*) Del (IT 8);
  (*1635*) AddTo (T 5) (Times (Transpose (IT 19) [1;0]) (-1) 1);
  (*1636*) Del (IT 19);
  (*1637*) AddTo (T 5) (Times (Transpose (IT 24) [1;0]) (-1) 1);
  (*1638*) Del (IT 24);
  (*1639*) AddTo (T 5) (Times (Transpose (IT 6) [1;0]) (-1) 1);
  (*1640*) Del (IT 6);
  (*1641*) Assign (T 2) (Plain (Copy n_r2));
  (*1642*) AddTo (T 2) (Times (Transpose n_r2 [1;0;2]) (-1) 2);
  (*1643*) Assign (T 1) (Times (Copy n_r2) (-1) 1);
  (*1644*) AddTo (T 1) (Times (Transpose n_r2 [1;0;2]) (2) 1);
  (*1645*) Assign n_r2new (Plain (Einsum [(IT 68,[0;1;2;3]); (n_r2,[4;1;3])] [0;4;2]));
  (*1646*) Del (IT 68);
  (*1647*) AddTo n_r2new (Times (Einsum [(n_r2,[0;1;2]); (T 6,[3;0;4;2])] [3;1;4]) (-2) 1);
  (*1648*) Del (T 6);
  (*1649*) AddTo n_r2new (Times (Einsum [(n_r2,[0;1;2]); (T 7,[3;1;4;2])] [0;3;4]) (-1) 1);
  (*1650*) Del (T 7);
  (*1651*) AddTo n_r2new (Plain (Einsum [(n_r2,[0;1;2]); (T 8,[3;4;0;1])] [3;4;2]));
  (*1652*) Del (T 8);
  (*1653*) AddTo n_r2new (Plain (Einsum [(n_r2,[0;1;2]); (T 9,[3;4;1;0])] [4;3;2]));
  (*1654*) Del (T 9);
  (*1655*) AddTo n_r2new (Times (Einsum [(T 10,[0;1]); (T 11,[2;3;1])] [2;0;3]) (2) 1);
  (*1656*) Del (T 10);
  (*1656*) Del (T 11);
  (*1657*) AddTo n_r2new (Times (Einsum [(n_r2,[0;1;2]); (T 12,[2;3])] [0;1;3]) (-1) 1);
  (*1658*) Del (T 12);
  (*1659*) AddTo n_r2new (Times (Einsum [(n_r1,[0]); (T 13,[1;2;0;3])] [2;1;3]) (-1) 1);
  (*1660*) Del (T 13);
  (*1661*) AddTo n_r2new (Times (Einsum [(T 14,[0;1]); (n_r2,[0;2;3])] [1;2;3]) (-2) 1);
  (*1662*) AddTo n_r2new (Times (Einsum [(n_r2,[0;1;2]); (T 14,[1;3])] [0;3;2]) (-2) 1);
  (*1663*) Del (T 14);
  (*1664*) AddTo n_r2new (Plain (Einsum [(n_t1,[0;1]); (T 17,[2;0;3])] [3;2;1]));
  (*1665*) Del (T 17);
  (*1666*) AddTo n_r2new (Times (Einsum [(n_t2,[0;1;2;3]); (T 18,[3])] [0;1;2]) (-2) 1);
  (*1667*) Del (T 18);
  (*1668*) AddTo n_r2new (Plain (Einsum [(n_r1,[0]); (T 19,[1;2])] [1;0;2]));
  (*1669*) Del (T 19);
  (*1670*) Assign n_r1new (Plain (Einsum [(IT 15,[0;1;2;3]); (T 1,[2;1;3])] [0]));
  (*1671*) Del (IT 15);
  (*1671*) Del (T 1);
  (*1672*) AddTo n_r1new (Times (Einsum [(T 2,[0;1;2]); (IT 2,[3;1;0;2])] [3]) (2) 1);
  (*1673*) Del (IT 2);
  (*1673*) Del (T 2);
  (*1674*) AddTo n_r1new (Times (Einsum [(T 4,[0;1;2]); (T 3,[0;2])] [1]) (-2) 1);
  (*1675*) Del (T 4);
  (*1675*) Del (T 3);
  (*1676*) AddTo n_r1new (Times (Einsum [(n_r1,[0]); (T 5,[0;1])] [1]) (-1) 1);
  (*1677*) Del (T 5)]
 [(n_r1new,[0]); (n_r2new,[0;0;1])].

(** ebcc/codegen/RDFCCSD.py:1681-1823 [hbar_matvec_ea_intermediates] *)
Definition RDFCCSD_hbar_matvec_ea_intermediates : prog := mkprog
 [(n_t1,[0;1]); (n_v'xov,[2;0;1]); (n_t2,[0;0;1;1]); (n_v'xvv,[2;1;1]); (n_v'xoo,[2;0;0]); (n_f'ov,[0;1]); (n_f'oo,[0;0]); (n_f'vv,[1;1])]
 [(*1760*) Assign (T 5) (Plain (Einsum [(n_t1,[0;1]); (n_v'xov,[2;0;1])] [2]));
  (*1761*) Assign (T 10) (Plain (Einsum [(n_v'xov,[0;1;2]); (n_t1,[3;2])] [3;1;0]));
  (*1762*) Assign (T 13) (Plain (Einsum [(T 5,[0]); (n_v'xov,[0;1;2])] [1;2]));
  (*1763*) Assign (T 11) (Plain (Einsum [(n_v'xov,[0;1;2]); (T 10,[1;3;0])] [3;2]));
  (*1764*) Assign (T 21) (Plain (Einsum [(n_t2,[0;1;2;3]); (n_v'xov,[4;1;2])] [0;3;4]));
  (*1765*) Assign (T 24) (Plain (Einsum [(n_t2,[0;1;2;3]); (n_v'xov,[4;1;3])] [0;2;4]));
  (*1766*) Assign (T 16) (Plain (Einsum [(n_v'xov,[0;1;2]); (n_v'xov,[0;3;4])] [3;1;4;2]));
  (*1767*) Assign (T 2) (Plain (Einsum [(n_v'xov,[0;1;2]); (n_v'xvv,[0;3;4])] [1;3;4;2]));
  (*1768*) Assign (T 48) (Plain (Einsum [(T 5,[0]); (n_v'xoo,[0;1;2])] [1;2]));
  (*1769*) Assign (T 47) (Plain (Einsum [(n_v'xoo,[0;1;2]); (T 10,[2;3;0])] [1;3]));
  (*1770*) Assign (T 50) (Plain (Einsum [(n_v'xov,[0;1;2]); (n_v'xoo,[0;3;4])] [3;4;1;2]));
  (*1771*) Assign (T 85) (Plain (Einsum [(T 13,[0;1]); (n_t1,[2;1])] [2;0]));
  (*1772*) Assign (T 84) (Plain (Einsum [(T 11,[0;1]); (n_t1,[2;1])] [2;0]));
  (*1773*) Assign (T 73) (Plain (Einsum [(n_v'xov,[0;1;2]); (T 21,[3;2;0])] [3;1]));
  (*1774*) Assign (T 75) (Plain (Einsum [(n_v'xov,[0;1;2]); (T 24,[3;2;0])] [3;1]));
  (*1775*) Assign (T 77) (Plain (Einsum [(n_v'xov,[0;1;2]); (T 10,[3;4;0])] [3;1;4;2]));
  (*1776*) Assign (T 64) (Plain (Einsum [(n_t1,[0;1]); (n_f'ov,[2;1])] [2;0]));
  (*1777*) Assign (T 8) (Plain (Einsum [(n_t1,[0;1]); (n_v'xvv,[2;3;1])] [0;3;2]));
  (*1778*) Assign (T 6) (Plain (Einsum [(T 5,[0]); (n_v'xvv,[0;1;2])] [1;2]));
  (*1779*) Del (T 5);
  (*1780*) Assign (T 137) (Plain (Einsum [(T 21,[0;1;2]); (n_v'xov,[2;3;4])] [0;3;1;4]));
  (*1781*) Assign (T 133) (Plain (Einsum [(T 24,[0;1;2]); (n_v'xov,[2;3;4])] [0;3;1;4]));
  (*1782*) Assign (T 132) (Plain (Einsum [(n_t2,[0;1;2;3]); (T 13,[1;3])] [0;2]));
  (*1783*) Assign (T 131) (Plain (Einsum [(n_t2,[0;1;2;3]); (T 13,[1;2])] [0;3]));
  (*1784*) Assign (T 130) (Plain (Einsum [(T 11,[0;1]); (n_t2,[2;0;3;1])] [2;3]));
  (*1785*) Assign (T 129) (Plain (Einsum [(T 11,[0;1]); (n_t2,[2;0;1;3])] [2;3]));
  (*1786*) Assign (T 124) (Plain (Einsum [(T 16,[0;1;2;3]); (n_t2,[4;0;5;3])] [4;1;5;2]));
  (*1787*) Assign (T 121) (Plain (Einsum [(T 21,[0;1;2]); (n_v'xvv,[2;3;4])] [0;1;3;4]));
  (*1788*) Assign (T 120) (Plain (Einsum [(n_t2,[0;1;2;3]); (T 2,[1;4;3;5])] [0;2;5;4]));
  (*1789*) Assign (T 118) (Plain (Einsum [(T 24,[0;1;2]); (n_v'xvv,[2;3;4])] [0;1;3;4]));
  (*1790*) Assign (T 115) (Plain (Einsum [(n_f'ov,[0;1]); (n_t2,[2;0;3;1])] [2;3]));
  (*1791*) Assign (T 114) (Plain (Einsum [(n_f'ov,[0;1]); (n_t2,[2;0;1;3])] [2;3]));
  (*1792*) Assign (T 112) (Plain (Einsum [(T 48,[0;1]); (n_t1,[1;2])] [0;2]));
  (*1793*) Assign (T 111) (Plain (Einsum [(T 47,[0;1]); (n_t1,[1;2])] [0;2]));
  (*1794*) Assign (T 110) (Plain (Einsum [(n_t2,[0;1;2;3]); (T 50,[4;0;1;3])] [4;2]));
  (*1795*) Assign (T 109) (Plain (Einsum [(n_t2,[0;1;2;3]); (T 50,[4;0;1;2])] [4;3]));
  (*1796*) Assign (T 103) (Plain (Einsum [(n_f'oo,[0;1]); (n_t1,[1;2])] [0;2]));
  (*1797*) Assign (T 102) (Plain (Einsum [(T 85,[0;1]); (n_t1,[1;2])] [0;2]));
  (*1798*) Assign (T 101) (Plain (Einsum [(T 84,[0;1]); (n_t1,[1;2])] [0;2]));
  (*1799*) Assign (T 95) (Plain (Einsum [(T 73,[0;1]); (n_t1,[1;2])] [0;2]));
  (*1800*) Assign (T 94) (Plain (Einsum [(T 75,[0;1]); (n_t1,[1;2])] [0;2]));
  (*1801*) Assign (T 93) (Plain (Einsum [(T 77,[0;1;2;3]); (n_t2,[2;1;3;4])] [0;4]));
  (*1802*) Assign (T 92) (Plain (Einsum [(T 77,[0;1;2;3]); (n_t2,[2;1;4;3])] [0;4]));
  (*1803*) Assign (T 90) (Plain (Einsum [(T 64,[0;1]); (n_t1,[0;2])] [1;2]));
  (*1804*) Assign (T 82) (Plain (Einsum [(n_v'xov,[0;1;2]); (T 8,[3;4;0])] [3;1;2;4]));
  (*1805*) Assign (T 81) (Plain (Einsum [(T 8,[0;1;2]); (T 10,[3;0;2])] [3;1]));
  (*1806*) Assign (T 80) (Plain (Einsum [(n_t1,[0;1]); (T 6,[2;1])] [0;2]));
  (*1807*) Assign (T 78) (Plain (Einsum [(T 77,[0;1;2;3]); (n_t2,[1;2;4;5])] [0;4;5;3]));
  (*1808*) Assign (T 72) (Plain (Einsum [(T 21,[0;1;2]); (n_v'xvv,[2;3;1])] [0;3]));
  (*1809*) Assign (T 71) (Plain (Einsum [(T 24,[0;1;2]); (n_v'xvv,[2;3;1])] [0;3]));
  (*1810*) Assign (T 69) (Plain (Einsum [(n_v'xvv,[0;1;2]); (T 10,[3;4;0])] [3;4;1;2]));
  (*1811*) Assign (T 67) (Plain (Einsum [(T 8,[0;1;2]); (n_v'xvv,[2;3;4])] [0;3;4;1]));
  (*1812*) Assign (T 65) (Plain (Einsum [(n_v'xvv,[0;1;2]); (n_v'xvv,[0;3;4])] [1;3;4;2]));
  (*1813*) Assign (T 63) (Plain (Einsum [(n_t1,[0;1]); (n_f'vv,[2;1])] [0;2]));
  (*1814*) Assign (T 52) (Plain (Einsum [(T 50,[0;1;2;3]); (n_t2,[1;2;4;5])] [0;4;5;3]));
  (*1815*) Assign (T 46) (Plain (Einsum [(T 8,[0;1;2]); (n_v'xoo,[2;3;0])] [3;1]));
  (*1816*) Assign (T 45) (Plain (Einsum [(n_v'xvv,[0;1;2]); (n_v'xoo,[0;3;4])] [3;4;1;2]));
  (*1817*) Assign (T 40) (Plain (Einsum [(T 16,[0;1;2;3]); (n_t2,[4;0;3;5])] [4;1;5;2]));
  (*1818*) Assign (T 37) (Plain (Einsum [(T 2,[0;1;2;3]); (n_t2,[4;0;2;5])] [4;5;3;1]));
  (*1819*) Assign (T 25) (Plain (Einsum [(T 24,[0;1;2]); (n_v'xov,[2;0;3])] [1;3]));
  (*1820*) Assign (T 22) (Plain (Einsum [(T 21,[0;1;2]); (n_v'xov,[2;0;3])] [1;3]));
  (*1821*) Assign (T 9) (Plain (Einsum [(T 8,[0;1;2]); (n_v'xov,[2;0;3])] [3;1]))]
 [(T 2,[0;1;1;1]); (T 11,[0;1]); (T 101,[0;1]); (T 102,[0;1]); (T 103,[0;1]); (T 109,[0;1]); (T 110,[0;1]); (T 111,[0;1]); (T 112,[0;1]); (T 114,[0;1]); (T 115,[0;1]); (T 118,[0;1;1;1]); (T 120,[0;1;1;1]); (T 13,[0;1]); (T 121,[0;1;1;1]); (T 124,[0;0;1;1]); (T 129,[0;1]); (T 130,[0;1]); (T 131,[0;1]); (T 132,[0;1]); (T 133,[0;0;1;1]); (T 137,[0;0;1;1]); (T 16,[0;0;1;1]); (T 21,[0;1;2]); (T 22,[1;1]); (T 24,[0;1;2]); (T 25,[1;1]); (T 37,[0;1;1;1]); (T 40,[0;0;1;1]); (T 45,[0;0;1;1]); (T 46,[0;1]); (T 47,[0;0]); (T 48,[0;0]); (T 50,[0;0;0;1]); (T 6,[1;1]); (T 52,[0;1;1;1]); (T 63,[0;1]); (T 64,[0;0]); (T 65,[1;1;1;1]); (T 67,[0;1;1;1]); (T 69,[0;0;1;1]); (T 8,[0;1;2]); (T 71,[0;1]); (T 72,[0;1]); (T 73,[0;0]); (T 75,[0;0]); (T 77,[0;0;0;1]); (T 78,[0;1;1;1]); (T 80,[0;1]); (T 9,[1;1]); (T 81,[0;1]); (T 82,[0;0;1;1]); (T 84,[0;0]); (T 85,[0;0]); (T 90,[0;1]); (T 10,[0;0;2]); (T 92,[0;1]); (T 93,[0;1]); (T 94,[0;1]); (T 95,[0;1])].

(** ebcc/codegen/RDFCCSD.py:1825-2050 [hbar_matvec_ea] *)
Definition RDFCCSD_hbar_matvec_ea : prog := mkprog
 [(n_f'ov,[0;1]); (IT 13,[0;1]); (IT 11,[0;1]); (IT 50,[0;0;0;1]); (IT 77,[0;0;0;1]); (n_r2,[1;1;0]); (IT 16,[0;0;1;1]); (IT 133,[0;0;1;1]); (IT 82,[0;0;1;1]); (IT 124,[0;0;1;1]); (IT 137,[0;0;1;1]); (n_t1,[0;1]); (n_r1,[1]); (IT 10,[0;0;2]); (n_v'xoo,[2;0;0]); (IT 118,[0;1;1;1]); (IT 2,[0;1;1;1]); (IT 52,[0;1;1;1]); (IT 67,[0;1;1;1]); (IT 78,[0;1;1;1]); (IT 120,[0;1;1;1]); (IT 121,[0;1;1;1]); (IT 37,[0;1;1;1]); (n_f'oo,[0;0]); (IT 48,[0;0]); (IT 64,[0;0]); (IT 75,[0;0]); (IT 85,[0;0]); (IT 47,[0;0]); (IT 73,[0;0]); (IT 84,[0;0]); (IT 45,[0;0;1;1]); (IT 69,[0;0;1;1]); (IT 40,[0;0;1;1]); (IT 102,[0;1]); (IT 103,[0;1]); (IT 110,[0;1]); (IT 112,[0;1]); (IT 114,[0;1]); (IT 130,[0;1]); (IT 131,[0;1]); (IT 46,[0;1]); (IT 72,[0;1]); (IT 81,[0;1]); (IT 90,[0;1]); (IT 92,[0;1]); (IT 94,[0;1]); (IT 101,[0;1]); (IT 109,[0;1]); (IT 111,[0;1]); (IT 115,[0;1]); (IT 129,[0;1]); (IT 132,[0;1]); (IT 63,[0;1]); (IT 71,[0;1]); (IT 80,[0;1]); (IT 93,[0;1]); (IT 95,[0;1]); (IT 24,[0;1;2]); (IT 8,[0;1;2]); (n_v'xov,[2;0;1]); (IT 21,[0;1;2]); (IT 25,[1;1]); (IT 9,[1;1]); (n_f'vv,[1;1]); (IT 22,[1;1]); (IT 6,[1;1]); (IT 65,[1;1;1;1]); (n_t2,[0;0;1;1])]
 [(*1853*) Assign (T 15) (Times (Copy n_f'ov) (1) 2);
  (*1854*) AddTo (T 15) (Plain (Copy (IT 13)));
  (*1855*) AddTo (T 15) (Times (Copy (IT 11)) (-1) 2);
  (*1856*) Assign (T 8) (Plain (Copy (IT 50)));
  (*1857*) Del (IT 50);
  (*1858*) AddTo (T 8) (Plain (Transpose (IT 77) [0;2;1;3]));
  (*1859*) Del (IT 77);
  (*1860*) Assign (T 1) (Plain (Transpose n_r2 [2;0;1]));
  (*1861*) AddTo (T 1) (Times (Transpose n_r2 [2;1;0]) (-1) 2);
  (*1862*) Assign (T 2) (Plain (Copy n_f'ov));
  (*1863*) AddTo (T 2) (Times (Copy (IT 13)) (2) 1);
  (*1864*) AddTo (T 2) (Times (Copy (IT 11)) (-1) 1);
  (*1865*) Del (IT 11);
  (*1866*) Assign (T 7) (Plain (Einsum [(IT 16,[0;1;2;3]); (n_r2,[3;2;4])] [0;1;4]));
  (*1867*) Assign (T 19) (Plain (Copy (IT 133)));
  (*1868*) Del (IT 133);
  (*1869*) AddTo (T 19) (Times (Copy (IT 16)) (1) 2);
  (*1870*) AddTo (T 19) (Times (Transpose (IT 82) [0;1;3;2]) (1) 2);
  (*1871*) Del (IT 82);
  (*1872*) AddTo (T 19) (Times (Copy (IT 124)) (-1) 2);
  (*1873*) AddTo (T 19) (Times (Copy (IT 137)) (-1) 2);
  (*1874*) Del (IT 137);
  (*1875*) Assign (T 10) (Plain (Transpose n_r2 [2;0;1]));
  (*1876*) AddTo (T 10) (Times (Einsum [(n_t1,[0;1]); (n_r1,[2])] [0;1;2]) (-1) 1);
  (*1877*) Assign (T 13) (Plain (Copy (IT 10)));
  (*1878*) Del (IT 10);
  (*1879*) AddTo (T 13) (Plain (Transpose n_v'xoo [1;2;0]));
  (*1880*) Assign (T 3) (Times (Transpose n_r2 [2;0;1]) (-1) 1);
  (*1881*) AddTo (T 3) (Times (Transpose n_r2 [2;1;0]) (2) 1);
  (*1882*) Assign (T 16) (Times (Einsum [(n_t1,[0;1]); (T 15,[0;2])] [1;2]) (2) 1);
  (*1883*) Del (T 15);
  (*1884*) Assign (T 18) (Times (Copy (IT 118)) (2) 1);
  (*1885*) Del (IT 118);
  (*1886*) AddTo (T 18) (Plain (Transpose (IT 2) [0;3;2;1]));
  (*1887*) AddTo (T 18) (Plain (Transpose (IT 52) [0;1;3;2]));
  (*1888*) Del (IT 52);
  (*1889*) AddTo (T 18) (Plain (Transpose (IT 67) [0;3;1;2]));
  (*1890*) Del (IT 67);
  (*1891*) AddTo (T 18) (Plain (Transpose (IT 78) [0;2;3;1]));
  (*1892*) Del (IT 78);
  (*1893*) AddTo (T 18) (Times (Copy (IT 120)) (-1) 1);
  (*1894*) Del (IT 120);
  (*1895*) AddTo (T 18) (Times (Copy (IT 121)) (-1) 1);
  (*1896*) Del (IT 121);
  (*1897*) AddTo (T 18) (Times (Transpose (IT 37) [0;3;2;1]) (-1) 1);
  (*1898*) Del (IT 37);
  (*1899*) Assign (T 6) (Plain (Einsum [(IT 2,[0;1;2;3]); (n_r2,[3;2;4])] [0;4;1]));
  (*1900*) Assign (T 21) (Plain (Copy n_f'oo));
  (*1901*) AddTo (T 21) (Times (Transpose (IT 48) [1;0]) (2) 1);
  (*1902*) Del (IT 48);
  (*1903*) AddTo (T 21) (Plain (Copy (IT 64)));
  (*1904*) Del (IT 64);
  (*1905*) AddTo (T 21) (Times (Transpose (IT 75) [1;0]) (2) 1);
  (*1906*) Del (IT 75);
  (*1907*) AddTo (T 21) (Times (Transpose (IT 85) [1;0]) (2) 1);
  (*1908*) Del (IT 85);
  (*1909*) AddTo (T 21) (Times (Transpose (IT 47) [1;0]) (-1) 1);
  (*1910*) Del (IT 47);
  (*1911*) AddTo (T 21) (Times (Transpose (IT 73) [1;0]) (-1) 1);
  (*1912*) Del (IT 73);
  (*1913*) AddTo (T 21) (Times (Transpose (IT 84) [1;0]) (-1) 1);
  (*1914*) Del (IT 84);
  (*1915*) Assign (T 9) (Plain (Copy (IT 124)));
  (*1916*) AddTo (T 9) (Times (Copy (IT 45)) (1) 2);
  (*1917*) AddTo (T 9) (Times (Copy (IT 69)) (1) 2);
  (*1918*) AddTo (T 9) (Times (Copy (IT 40)) (-1) 2);
  (*1919*) AddTo (T 9) (Times (Einsum [(T 8,[0;1;2;3]); (n_t1,[2;4])] [0;1;4;3]) (-1) 2);
  (*1920*) Assign (T 22) (Times (Einsum [(T 1,[0;1;2]); (IT 16,[0;3;1;2])] [3]) (-2) 1);
  (*1921*) AddTo (T 22) (Plain (Einsum [(n_r1,[0]); (T 2,[1;0])] [1]));
  (*1922*) Assign (T 11) (Plain (Copy (IT 45)));
  (*1923*) Del (IT 45);
  (*1924*) AddTo (T 11) (Plain (Copy (IT 69)));
  (*1925*) Del (IT 69);
  (*1926*) AddTo (T 11) (Times (Copy (IT 40)) (-1) 1);
  (*1927*) Del (IT 40);
  (*1928*) Assign (T 20) (Times (Einsum [(IT 2,[0;1;2;3]); (n_r2,[2;3;4])] [4;0;1]) (-1) 1);
  (*1929*) AddTo (T 20) (Plain (Einsum [(n_t1,[0;1]); (T 7,[2;0;3])] [3;2;1]));
  (*1930*) AddTo (T 20) (Plain (Einsum [(T 10,[0;1;2]); (T 8,[3;0;4;2])] [3;4;1]));
  (*1931*) Del (T 8);
  (*1932*) AddTo (T 20) (Times (Einsum [(T 19,[0;1;2;3]); (n_r1,[3])] [0;1;2]) (2) 1);
  (*1933*) Del (T 19);
  (*1934*) Assign (T 23) (Times (Copy (IT 102)) (2) 1);
  (*1935*) Del (IT 102);
  (*1936*) AddTo (T 23) (Plain (Copy (IT 103)));
  (*1937*) Del (IT 103);
  (*1938*) AddTo (T 23) (Times (Copy (IT 110)) (2) 1);
  (*1939*) Del (IT 110);
  (*1940*) AddTo (T 23) (Times (Copy (IT 112)) (2) 1);
  (*1941*) Del (IT 112);
  (*1942*) AddTo (T 23) (Plain (Copy (IT 114)));
  (*1943*) Del (IT 114);
  (*1944*) AddTo (T 23) (Times (Copy (IT 130)) (2) 1);
  (*1945*) Del (IT 130);
  (*1946*) AddTo (T 23) (Times (Copy (IT 131)) (2) 1);
  (*1947*) Del (IT 131);
  (*1948*) AddTo (T 23) (Plain (Copy (IT 46)));
  (*1949*) Del (IT 46);
  (*1950*) AddTo (T 23) (Plain (Copy (IT 72)));
  (*1951*) Del (IT 72);
  (*1952*) AddTo (T 23) (Plain (Copy (IT 81)));
  (*1953*) Del (IT 81);
  (*1954*) AddTo (T 23) (Plain (Copy (IT 90)));
  (*1955*) Del (IT 90);
  (*1956*) AddTo (T 23) (Times (Copy (IT 92)) (2) 1);
  (*1957*) Del (IT 92);
  (*1958*) AddTo (T 23) (Times (Copy (IT 94)) (2) 1);
  (*1959*) Del (IT 94);
  (*1960*) AddTo (T 23) (Times (Copy n_f'ov) (-1) 1);
  (*1961*) AddTo (T 23) (Times (Copy (IT 101)) (-1) 1);
  (*1962*) Del (IT 101);
  (*1963*) AddTo (T 23) (Times (Copy (IT 109)) (-1) 1);
  (*1964*) Del (IT 109);
  (*1965*) AddTo (T 23) (Times (Copy (IT 111)) (-1) 1);
  (*1966*) Del (IT 111);
  (*1967*) AddTo (T 23) (Times (Copy (IT 115)) (-2) 1);
  (*1968*) Del (IT 115);
  (*1969*) AddTo (T 23) (Times (Copy (IT 129)) (-1) 1);
  (*1970*) Del (IT 129);
  (*1971*) AddTo (T 23) (Times (Copy (IT 13)) (-2) 1);
  (*1972*) Del (IT 13);
  (*1973*) AddTo (T 23) (Times (Copy (IT 132)) (-4) 1);
  (*1974*) Del (IT 132);
  (*1975*) AddTo (T 23) (Times (Copy (IT 63)) (-1) 1);
  (*1976*) Del (IT 63);
  (*1977*) AddTo (T 23) (Times (Copy (IT 71)) (-2) 1);
  (*1978*) Del (IT 71);
  (*1979*) AddTo (T 23) (Times (Copy (IT 80)) (-2) 1);
  (*1980*) Del (IT 80);
  (*1981*) AddTo (T 23) (Times (Copy (IT 93)) (-1) 1);
  (*1982*) Del (IT 93);
  (*1983*) AddTo (T 23) (Times (Copy (IT 95)) (-1) 1);
  (*1984*) Del (IT 95);
  (*1985*) Assign (T 14) (Times (Copy (IT 24)) (2) 1);
  (*1986*) Del (IT 24);
  (*1987*) AddTo (T 14) (Plain (Copy (IT 8)));
  (*1988*) Del (IT 8);
  (*1989*) AddTo (T 14) (Plain (Transpose n_v'xov [1;2;0]));
  (*1990*) AddTo (T 14) (Times (Copy (IT 21)) (-1) 1);
  (*1991*) Del (IT 21);
  (*1992*) AddTo (T 14) (Times (Einsum [(T 13,[0;1;2]); (n_t1,[1;3])] [0;3;2]) (-1) 1);
  (*1993*) Del (T 13);
  (*1994*) Assign (T 12) (Times (Einsum [(T 3,[0;1;2]); (n_v'xov,[3;0;2])] [1;3]) (1) 2);
  (*1995*) Assign (T 17) (Times (Transpose (IT 25) [1;0]) (2) 1);
  (*1996*) AddTo (T 17) (Plain (Copy (IT 9)));
  (*1997*) AddTo (T 17) (Times (Copy n_f'vv) (-1) 1);
  (*1998*) AddTo (T 17) (Times (Transpose (IT 22) [1;0]) (-1) 1);
  (*1999*) AddTo (T 17) (Times (Transpose (IT 6) [1;0]) (-2) 1);
  (*2000*) AddTo (T 17) (Plain (Transpose (T 16) [1;0]));
  (*2001*) Del (T 16);
  (*2002*) Assign (T 5) (Times (Einsum [(T 1,[0;1;2]); (IT 16,[0;3;1;2])] [3]) (-1) 1);
  (*2003*) Del (IT 16);
  (*2004*) AddTo (T 5) (Times (Einsum [(n_r1,[0]); (T 2,[1;0])] [1]) (1) 2);
  (*2005*) Assign (T 4) (Plain (Copy n_f'vv));
  (*2006*) AddTo (T 4) (Plain (Transpose (IT 22) [1;0]));
  (*2007*) Del (IT 22);
  (*2008*) AddTo (T 4) (Times (Transpose (IT 6) [1;0]) (2) 1);
  (*2009*) Del (IT 6);
  (*2010*) AddTo (T 4) (Times (Transpose (IT 25) [1;0]) (-2) 1);
  (*2011*) Del (IT 25);
  (*2012*) AddTo (T 4) (Times (Copy (IT 9)) (-1) 1);
  (*2013*) Del (IT 9);
  (*2014*) Assign n_r2new (Plain (Einsum [(n_r2,[0;1;2]); (IT 124,[3;2;4;1])] [4;0;3]));
  (*2015*) Del (IT 124);
  (*2016*) AddTo n_r2new (Times (Einsum [(n_t1,[0;1]); (T 6,[0;2;3])] [1;3;2]) (-1) 1);
  (*2017*) Del (T 6);
  (*2018*) AddTo n_r2new (Plain (Einsum [(IT 65,[0;1;2;3]); (n_r2,[1;3;4])] [2;0;4]));
  (*2019*) Del (IT 65);
  (*2020*) AddTo n_r2new (Plain (Einsum [(T 7,[0;1;2]); (n_t2,[1;0;3;4])] [3;4;2]));
  (*2021*) Del (T 7);
  (*2022*) AddTo n_r2new (Times (Einsum [(T 9,[0;1;2;3]); (n_r2,[3;4;1])] [2;4;0]) (-2) 1);
  (*2023*) Del (T 9);
  (*2024*) AddTo n_r2new (Times (Einsum [(T 11,[0;1;2;3]); (T 10,[1;4;3])] [4;2;0]) (-1) 1);
  (*2025*) Del (T 10);
  (*2025*) Del (T 11);
  (*2026*) AddTo n_r2new (Times (Einsum [(T 12,[0;1]); (T 14,[2;3;1])] [3;0;2]) (2) 1);
  (*2027*) Del (T 12);
  (*2027*) Del (T 14);
  (*2028*) AddTo n_r2new (Times (Einsum [(n_r2,[0;1;2]); (T 17,[0;3])] [3;1;2]) (-1) 1);
  (*2029*) AddTo n_r2new (Times (Einsum [(T 17,[0;1]); (n_r2,[2;0;3])] [2;1;3]) (-1) 1);
  (*2030*) Del (T 17);
  (*2031*) AddTo n_r2new (Times (Einsum [(n_r1,[0]); (T 18,[1;2;0;3])] [2;3;1]) (-1) 1);
  (*2032*) Del (T 18);
  (*2033*) AddTo n_r2new (Plain (Einsum [(T 20,[0;1;2]); (n_t1,[1;3])] [2;3;0]));
  (*2034*) Del (T 20);
  (*2035*) AddTo n_r2new (Times (Einsum [(n_r2,[0;1;2]); (T 21,[2;3])] [0;1;3]) (-1) 1);
  (*2036*) Del (T 21);
  (*2037*) AddTo n_r2new (Plain (Einsum [(n_t2,[0;1;2;3]); (T 22,[1])] [2;3;0]));
  (*2038*) Del (T 22);
  (*2039*) AddTo n_r2new (Plain (Einsum [(T 23,[0;1]); (n_r1,[2])] [1;2;0]));
  (*2040*) Del (T 23);
  (*2041*) Assign n_r1new (Times (Einsum [(T 1,[0;1;2]); (IT 2,[0;3;2;1])] [3]) (-2) 1);
  (*2042*) Del (IT 2);
  (*2042*) Del (T 1);
  (*2043*) AddTo n_r1new (Times (Einsum [(T 2,[0;1]); (T 3,[0;2;1])] [2]) (-1) 1);
  (*2044*) Del (T 2);
  (*2044*) Del (T 3);
  (*2045*) AddTo n_r1new (Plain (Einsum [(T 4,[0;1]); (n_r1,[0])] [1]));
  (*2046*) Del (T 4);
  (*2047*) AddTo n_r1new (Times (Einsum [(T 5,[0]); (n_t1,[0;1])] [1]) (-2) 1);
  (*2048*) Del (T 5)]
 [(n_r1new,[1]); (n_r2new,[1;1;0])].

(** ebcc/codegen/RDFCCSD.py:2052-2218 [hbar_lmatvec_ip_intermediates] *)
Definition RDFCCSD_hbar_lmatvec_ip_intermediates : prog := mkprog
 [(n_t1,[0;1]); (n_v'xov,[2;0;1]); (n_t2,[0;0;1;1]); (n_v'xvv,[2;1;1]); (n_v'xoo,[2;0;0]); (n_f'ov,[0;1]); (n_f'vv,[1;1]); (n_f'oo,[0;0])]
 [(*2142*) Assign (T 16) (Plain (Einsum [(n_t1,[0;1]); (n_v'xov,[2;0;1])] [2]));
  (*2143*) Assign (T 14) (Plain (Einsum [(n_v'xov,[0;1;2]); (n_t1,[3;2])] [3;1;0]));
  (*2144*) Assign (T 23) (Plain (Einsum [(T 16,[0]); (n_v'xov,[0;1;2])] [1;2]));
  (*2145*) Assign (T 63) (Plain (Einsum [(n_v'xov,[0;1;2]); (T 14,[1;3;0])] [3;2]));
  (*2146*) Assign (T 102) (Plain (Einsum [(n_v'xov,[0;1;2]); (n_v'xov,[0;3;4])] [3;1;4;2]));
  (*2147*) Assign (T 33) (Plain (Einsum [(n_t2,[0;1;2;3]); (n_v'xov,[4;1;2])] [0;3;4]));
  (*2148*) Assign (T 36) (Plain (Einsum [(n_t2,[0;1;2;3]); (n_v'xov,[4;1;3])] [0;2;4]));
  (*2149*) Assign (T 26) (Plain (Einsum [(n_t1,[0;1]); (n_v'xvv,[2;3;1])] [0;3;2]));
  (*2150*) Assign (T 134) (Plain (Einsum [(T 14,[0;1;2]); (T 14,[3;4;2])] [0;3;1;4]));
  (*2151*) Assign (T 108) (Plain (Einsum [(T 23,[0;1]); (n_t1,[2;1])] [2;0]));
  (*2152*) Assign (T 107) (Plain (Einsum [(n_t1,[0;1]); (T 63,[2;1])] [0;2]));
  (*2153*) Assign (T 120) (Plain (Einsum [(n_v'xvv,[0;1;2]); (T 16,[0])] [1;2]));
  (*2154*) Assign (T 115) (Plain (Einsum [(n_v'xoo,[0;1;2]); (T 14,[3;4;0])] [3;1;2;4]));
  (*2155*) Assign (T 17) (Plain (Einsum [(T 16,[0]); (n_v'xoo,[0;1;2])] [1;2]));
  (*2156*) Del (T 16);
  (*2157*) Assign (T 15) (Plain (Einsum [(n_v'xoo,[0;1;2]); (T 14,[2;3;0])] [1;3]));
  (*2158*) Assign (T 103) (Plain (Einsum [(n_t2,[0;1;2;3]); (T 102,[4;5;2;3])] [0;1;4;5]));
  (*2159*) Assign (T 34) (Plain (Einsum [(T 33,[0;1;2]); (n_v'xov,[2;3;1])] [0;3]));
  (*2160*) Assign (T 37) (Plain (Einsum [(n_v'xov,[0;1;2]); (T 36,[3;2;0])] [3;1]));
  (*2161*) Assign (T 29) (Plain (Einsum [(n_v'xov,[0;1;2]); (T 14,[3;4;0])] [3;1;4;2]));
  (*2162*) Assign (T 59) (Plain (Einsum [(n_v'xov,[0;1;2]); (n_v'xvv,[0;3;4])] [1;3;4;2]));
  (*2163*) Assign (T 11) (Plain (Einsum [(n_v'xov,[0;1;2]); (n_v'xoo,[0;3;4])] [3;4;1;2]));
  (*2164*) Assign (T 19) (Plain (Einsum [(n_v'xoo,[0;1;2]); (n_v'xoo,[0;3;4])] [3;1;2;4]));
  (*2165*) Assign (T 1) (Plain (Einsum [(n_t1,[0;1]); (n_f'ov,[2;1])] [2;0]));
  (*2166*) Assign (T 181) (Plain (Einsum [(n_v'xov,[0;1;2]); (T 36,[1;3;0])] [3;2]));
  (*2167*) Assign (T 179) (Plain (Einsum [(T 33,[0;1;2]); (n_v'xov,[2;0;3])] [1;3]));
  (*2168*) Assign (T 178) (Plain (Einsum [(T 26,[0;1;2]); (n_v'xov,[2;0;3])] [3;1]));
  (*2169*) Assign (T 151) (Plain (Einsum [(T 102,[0;1;2;3]); (n_t2,[4;0;5;3])] [4;1;5;2]));
  (*2170*) Assign (T 150) (Plain (Einsum [(T 102,[0;1;2;3]); (n_t2,[4;0;3;5])] [4;1;5;2]));
  (*2171*) Assign (T 146) (Plain (Einsum [(T 14,[0;1;2]); (n_v'xvv,[2;3;4])] [0;1;3;4]));
  (*2172*) Assign (T 140) (Plain (Einsum [(n_v'xvv,[0;1;2]); (n_v'xoo,[0;3;4])] [3;4;1;2]));
  (*2173*) Assign (T 135) (Plain (Einsum [(n_t1,[0;1]); (T 134,[2;3;4;0])] [2;3;4;1]));
  (*2174*) Assign (T 131) (Plain (Einsum [(T 108,[0;1]); (n_t1,[1;2])] [0;2]));
  (*2175*) Assign (T 129) (Plain (Einsum [(n_t1,[0;1]); (T 107,[2;0])] [2;1]));
  (*2176*) Assign (T 126) (Plain (Einsum [(T 26,[0;1;2]); (T 14,[3;4;2])] [3;0;4;1]));
  (*2177*) Assign (T 124) (Plain (Einsum [(T 26,[0;1;2]); (T 14,[3;0;2])] [3;1]));
  (*2178*) Assign (T 121) (Plain (Einsum [(n_t1,[0;1]); (T 120,[2;1])] [0;2]));
  (*2179*) Assign (T 118) (Plain (Einsum [(n_t1,[0;1]); (T 115,[2;3;4;0])] [2;3;4;1]));
  (*2180*) Assign (T 116) (Plain (Einsum [(n_t1,[0;1]); (T 115,[2;3;0;4])] [2;3;4;1]));
  (*2181*) Assign (T 112) (Plain (Einsum [(T 17,[0;1]); (n_t1,[1;2])] [0;2]));
  (*2182*) Assign (T 110) (Plain (Einsum [(n_t1,[0;1]); (T 15,[2;0])] [2;1]));
  (*2183*) Assign (T 104) (Plain (Einsum [(n_t1,[0;1]); (T 103,[2;3;4;0])] [2;3;4;1]));
  (*2184*) Assign (T 99) (Plain (Einsum [(T 34,[0;1]); (n_t1,[1;2])] [0;2]));
  (*2185*) Assign (T 96) (Plain (Einsum [(T 37,[0;1]); (n_t1,[1;2])] [0;2]));
  (*2186*) Assign (T 94) (Plain (Einsum [(n_t2,[0;1;2;3]); (T 29,[4;5;1;3])] [4;0;5;2]));
  (*2187*) Assign (T 92) (Plain (Einsum [(n_t2,[0;1;2;3]); (T 29,[4;5;1;2])] [4;0;5;3]));
  (*2188*) Assign (T 89) (Plain (Einsum [(T 36,[0;1;2]); (T 14,[3;4;2])] [3;0;4;1]));
  (*2189*) Assign (T 87) (Plain (Einsum [(T 33,[0;1;2]); (T 14,[3;4;2])] [3;0;4;1]));
  (*2190*) Assign (T 84) (Plain (Einsum [(n_t2,[0;1;2;3]); (T 29,[4;1;0;2])] [4;3]));
  (*2191*) Assign (T 81) (Plain (Einsum [(n_t2,[0;1;2;3]); (T 29,[4;1;0;3])] [4;2]));
  (*2192*) Assign (T 78) (Plain (Einsum [(n_t2,[0;1;2;3]); (T 23,[4;3])] [0;1;4;2]));
  (*2193*) Assign (T 75) (Plain (Einsum [(n_t2,[0;1;2;3]); (T 63,[4;3])] [0;1;4;2]));
  (*2194*) Assign (T 72) (Plain (Einsum [(n_t2,[0;1;2;3]); (T 23,[1;3])] [0;2]));
  (*2195*) Assign (T 69) (Plain (Einsum [(T 23,[0;1]); (n_t2,[2;0;1;3])] [2;3]));
  (*2196*) Assign (T 66) (Plain (Einsum [(T 63,[0;1]); (n_t2,[2;0;3;1])] [2;3]));
  (*2197*) Assign (T 64) (Plain (Einsum [(T 63,[0;1]); (n_t2,[2;0;1;3])] [2;3]));
  (*2198*) Assign (T 60) (Plain (Einsum [(T 59,[0;1;2;3]); (n_t2,[4;5;3;1])] [4;5;0;2]));
  (*2199*) Del (T 59);
  (*2200*) Assign (T 56) (Plain (Einsum [(n_v'xvv,[0;1;2]); (T 33,[3;2;0])] [3;1]));
  (*2201*) Assign (T 53) (Plain (Einsum [(n_v'xvv,[0;1;2]); (T 36,[3;2;0])] [3;1]));
  (*2202*) Assign (T 51) (Plain (Einsum [(n_v'xoo,[0;1;2]); (T 36,[3;4;0])] [3;1;2;4]));
  (*2203*) Assign (T 49) (Plain (Einsum [(T 33,[0;1;2]); (n_v'xoo,[2;3;4])] [0;3;4;1]));
  (*2204*) Assign (T 47) (Plain (Einsum [(n_t2,[0;1;2;3]); (T 11,[4;1;5;3])] [0;4;5;2]));
  (*2205*) Assign (T 45) (Plain (Einsum [(n_t2,[0;1;2;3]); (T 11,[4;1;5;2])] [0;4;5;3]));
  (*2206*) Assign (T 42) (Plain (Einsum [(T 11,[0;1;2;3]); (n_t2,[1;2;4;3])] [0;4]));
  (*2207*) Assign (T 39) (Plain (Einsum [(T 11,[0;1;2;3]); (n_t2,[1;2;3;4])] [0;4]));
  (*2208*) Assign (T 31) (Plain (Einsum [(T 26,[0;1;2]); (n_v'xoo,[2;3;4])] [0;3;4;1]));
  (*2209*) Assign (T 27) (Plain (Einsum [(T 26,[0;1;2]); (n_v'xoo,[2;3;0])] [3;1]));
  (*2210*) Assign (T 20) (Plain (Einsum [(n_t1,[0;1]); (T 19,[2;0;3;4])] [4;2;3;1]));
  (*2211*) Assign (T 10) (Plain (Einsum [(T 1,[0;1]); (n_t1,[0;2])] [1;2]));
  (*2212*) Assign (T 7) (Plain (Einsum [(n_f'ov,[0;1]); (n_t2,[2;3;4;1])] [0;2;3;4]));
  (*2213*) Assign (T 5) (Plain (Einsum [(n_f'ov,[0;1]); (n_t2,[2;0;3;1])] [2;3]));
  (*2214*) Assign (T 4) (Plain (Einsum [(n_f'ov,[0;1]); (n_t2,[2;0;1;3])] [2;3]));
  (*2215*) Assign (T 3) (Plain (Einsum [(n_t1,[0;1]); (n_f'vv,[2;1])] [0;2]));
  (*2216*) Assign (T 2) (Plain (Einsum [(n_f'oo,[0;1]); (n_t1,[1;2])] [0;2]))]
 [(T 1,[0;0]); (T 2,[0;1]); (T 11,[0;0;0;1]); (T 102,[0;0;1;1]); (T 103,[0;0;0;0]); (T 104,[0;0;0;1]); (T 107,[0;0]); (T 108,[0;0]); (T 110,[0;1]); (T 112,[0;1]); (T 115,[0;0;0;0]); (T 116,[0;0;0;1]); (T 118,[0;0;0;1]); (T 120,[1;1]); (T 121,[0;1]); (T 124,[0;1]); (T 126,[0;0;0;1]); (T 129,[0;1]); (T 14,[0;0;2]); (T 131,[0;1]); (T 134,[0;0;0;0]); (T 135,[0;0;0;1]); (T 140,[0;0;1;1]); (T 15,[0;0]); (T 146,[0;0;1;1]); (T 150,[0;0;1;1]); (T 151,[0;0;1;1]); (T 17,[0;0]); (T 178,[1;1]); (T 179,[1;1]); (T 19,[0;0;0;0]); (T 181,[1;1]); (T 20,[0;0;0;1]); (T 3,[0;1]); (T 23,[0;1]); (T 26,[0;1;2]); (T 27,[0;1]); (T 29,[0;0;0;1]); (T 4,[0;1]); (T 31,[0;0;0;1]); (T 33,[0;1;2]); (T 34,[0;0]); (T 36,[0;1;2]); (T 37,[0;0]); (T 39,[0;1]); (T 5,[0;1]); (T 42,[0;1]); (T 45,[0;0;0;1]); (T 47,[0;0;0;1]); (T 49,[0;0;0;1]); (T 51,[0;0;0;1]); (T 53,[0;1]); (T 56,[0;1]); (T 60,[0;0;0;1]); (T 7,[0;0;0;1]); (T 63,[0;1]); (T 64,[0;1]); (T 66,[0;1]); (T 69,[0;1]); (T 72,[0;1]); (T 75,[0;0;0;1]); (T 78,[0;0;0;1]); (T 81,[0;1]); (T 84,[0;1]); (T 87,[0;0;0;1]); (T 89,[0;0;0;1]); (T 10,[0;1]); (T 92,[0;0;0;1]); (T 94,[0;0;0;1]); (T 96,[0;1]); (T 99,[0;1])].

(** ebcc/codegen/RDFCCSD.py:2220-2461 [hbar_lmatvec_ip] *)
Definition RDFCCSD_hbar_lmatvec_ip : prog := mkprog
 [(n_r2,[0;0;1]); (n_t1,[0;1]); (IT 26,[0;1;2]); (IT 36,[0;1;2]); (n_v'xov,[2;0;1]); (IT 33,[0;1;2]); (IT 14,[0;0;2]); (n_v'xoo,[2;0;0]); (n_f'ov,[0;1]); (IT 23,[0;1]); (IT 63,[0;1]); (n_t2,[0;0;1;1]); (IT 140,[0;0;1;1]); (IT 146,[0;0;1;1]); (IT 150,[0;0;1;1]); (IT 11,[0;0;0;1]); (IT 29,[0;0;0;1]); (n_f'oo,[0;0]); (IT 1,[0;0]); (IT 108,[0;0]); (IT 17,[0;0]); (IT 37,[0;0]); (IT 107,[0;0]); (IT 15,[0;0]); (IT 34,[0;0]); (IT 178,[1;1]); (IT 181,[1;1]); (n_f'vv,[1;1]); (IT 120,[1;1]); (IT 179,[1;1]); (IT 151,[0;0;1;1]); (IT 103,[0;0;0;0]); (IT 115,[0;0;0;0]); (IT 134,[0;0;0;0]); (IT 19,[0;0;0;0]); (IT 112,[0;1]); (IT 124,[0;1]); (IT 131,[0;1]); (IT 2,[0;1]); (IT 27,[0;1]); (IT 4,[0;1]); (IT 42,[0;1]); (IT 56,[0;1]); (IT 66,[0;1]); (IT 69,[0;1]); (IT 81,[0;1]); (IT 96,[0;1]); (IT 10,[0;1]); (IT 110,[0;1]); (IT 121,[0;1]); (IT 129,[0;1]); (IT 3,[0;1]); (IT 39,[0;1]); (IT 5,[0;1]); (IT 53,[0;1]); (IT 64,[0;1]); (IT 72,[0;1]); (IT 84,[0;1]); (IT 99,[0;1]); (IT 118,[0;0;0;1]); (IT 47,[0;0;0;1]); (IT 49,[0;0;0;1]); (IT 75,[0;0;0;1]); (IT 92,[0;0;0;1]); (IT 31,[0;0;0;1]); (IT 51,[0;0;0;1]); (IT 7,[0;0;0;1]); (IT 78,[0;0;0;1]); (IT 104,[0;0;0;1]); (IT 116,[0;0;0;1]); (IT 135,[0;0;0;1]); (IT 20,[0;0;0;1]); (IT 45,[0;0;0;1]); (IT 87,[0;0;0;1]); (IT 94,[0;0;0;1]); (IT 126,[0;0;0;1]); (IT 60,[0;0;0;1]); (IT 89,[0;0;0;1]); (IT 102,[0;0;1;1]); (n_r1,[0])]
 [(*2248*) Assign (T 11) (Plain (Einsum [(n_r2,[0;1;2]); (n_t1,[3;2])] [0;1;3]));
  (*2249*) Assign (T 14) (Times (Copy (T 11)) (-1) 1);
  (*2250*) AddTo (T 14) (Times (Transpose (T 11) [1;0;2]) (2) 1);
  (*2251*) Assign (T 1) (Plain (Copy n_r2));
  (*2252*) AddTo (T 1) (Times (Transpose n_r2 [1;0;2]) (-1) 2);
  (*2253*) Assign (T 13) (Plain (Copy (IT 26)));
  (*2254*) Del (IT 26);
  (*2255*) AddTo (T 13) (Times (Copy (IT 36)) (2) 1);
  (*2256*) Del (IT 36);
  (*2257*) AddTo (T 13) (Plain (Transpose n_v'xov [1;2;0]));
  (*2258*) AddTo (T 13) (Times (Copy (IT 33)) (-1) 1);
  (*2259*) Del (IT 33);
  (*2260*) Assign (T 15) (Plain (Copy (IT 14)));
  (*2261*) Del (IT 14);
  (*2262*) AddTo (T 15) (Plain (Transpose n_v'xoo [1;2;0]));
  (*2263*) Assign (T 17) (Plain (Copy n_f'ov));
  (*2264*) AddTo (T 17) (Times (Copy (IT 23)) (2) 1);
  (*2265*) AddTo (T 17) (Times (Copy (IT 63)) (-1) 1);
  (*2266*) Del (IT 63);
  (*2267*) Assign (T 20) (Plain (Transpose n_t2 [0;1;3;2]));
  (*2268*) AddTo (T 20) (Times (Copy n_t2) (-1) 2);
  (*2269*) Assign (T 9) (Plain (Copy (IT 140)));
  (*2270*) AddTo (T 9) (Plain (Copy (IT 146)));
  (*2271*) AddTo (T 9) (Times (Copy (IT 150)) (-1) 1);
  (*2272*) Assign (T 22) (Plain (Copy (IT 11)));
  (*2273*) AddTo (T 22) (Plain (Transpose (IT 29) [2;0;1;3]));
  (*2274*) Assign (T 16) (Times (Einsum [(T 13,[0;1;2]); (T 1,[0;3;1])] [3;2]) (-1) 1);
  (*2275*) Del (T 13);
  (*2276*) AddTo (T 16) (Times (Einsum [(T 14,[0;1;2]); (T 15,[1;2;3])] [0;3]) (1) 2);
  (*2277*) Del (T 14);
  (*2277*) Del (T 15);
  (*2278*) Assign (T 19) (Times (Copy n_f'oo) (1) 2);
  (*2279*) AddTo (T 19) (Times (Transpose (IT 1) [1;0]) (1) 2);
  (*2280*) AddTo (T 19) (Plain (Copy (IT 108)));
  (*2281*) AddTo (T 19) (Plain (Copy (IT 17)));
  (*2282*) AddTo (T 19) (Plain (Copy (IT 37)));
  (*2283*) AddTo (T 19) (Times (Copy (IT 107)) (-1) 2);
  (*2284*) AddTo (T 19) (Times (Copy (IT 15)) (-1) 2);
  (*2285*) AddTo (T 19) (Times (Copy (IT 34)) (-1) 2);
  (*2286*) Assign (T 18) (Plain (Transpose (IT 178) [1;0]));
  (*2287*) Del (IT 178);
  (*2288*) AddTo (T 18) (Times (Copy (IT 181)) (2) 1);
  (*2289*) Del (IT 181);
  (*2290*) AddTo (T 18) (Times (Copy n_f'vv) (-1) 1);
  (*2291*) AddTo (T 18) (Times (Copy (IT 120)) (-2) 1);
  (*2292*) Del (IT 120);
  (*2293*) AddTo (T 18) (Times (Copy (IT 179)) (-1) 1);
  (*2294*) Del (IT 179);
  (*2295*) AddTo (T 18) (Plain (Einsum [(T 17,[0;1]); (n_t1,[0;2])] [2;1]));
  (*2296*) Assign (T 8) (Times (Copy (IT 140)) (1) 2);
  (*2297*) Del (IT 140);
  (*2298*) AddTo (T 8) (Times (Copy (IT 146)) (1) 2);
  (*2299*) Del (IT 146);
  (*2300*) AddTo (T 8) (Plain (Copy (IT 151)));
  (*2301*) AddTo (T 8) (Times (Copy (IT 150)) (-1) 2);
  (*2302*) Del (IT 150);
  (*2303*) Assign (T 21) (Plain (Einsum [(n_r2,[0;1;2]); (T 20,[0;1;3;2])] [3]));
  (*2304*) Del (T 20);
  (*2305*) Assign (T 10) (Plain (Copy (IT 103)));
  (*2306*) Del (IT 103);
  (*2307*) AddTo (T 10) (Plain (Transpose (IT 115) [0;1;3;2]));
  (*2308*) AddTo (T 10) (Plain (Copy (IT 134)));
  (*2309*) Del (IT 134);
  (*2310*) AddTo (T 10) (Plain (Transpose (IT 19) [2;3;1;0]));
  (*2311*) Del (IT 19);
  (*2312*) Assign (T 12) (Plain (Copy (IT 11)));
  (*2313*) AddTo (T 12) (Plain (Transpose (IT 29) [0;2;1;3]));
  (*2314*) Assign (T 5) (Times (Copy (IT 112)) (2) 1);
  (*2315*) Del (IT 112);
  (*2316*) AddTo (T 5) (Plain (Copy (IT 124)));
  (*2317*) Del (IT 124);
  (*2318*) AddTo (T 5) (Times (Copy (IT 131)) (2) 1);
  (*2319*) Del (IT 131);
  (*2320*) AddTo (T 5) (Plain (Copy (IT 2)));
  (*2321*) Del (IT 2);
  (*2322*) AddTo (T 5) (Plain (Copy (IT 27)));
  (*2323*) Del (IT 27);
  (*2324*) AddTo (T 5) (Plain (Copy (IT 4)));
  (*2325*) Del (IT 4);
  (*2326*) AddTo (T 5) (Times (Copy (IT 42)) (2) 1);
  (*2327*) Del (IT 42);
  (*2328*) AddTo (T 5) (Plain (Copy (IT 56)));
  (*2329*) Del (IT 56);
  (*2330*) AddTo (T 5) (Times (Copy (IT 66)) (2) 1);
  (*2331*) Del (IT 66);
  (*2332*) AddTo (T 5) (Times (Copy (IT 69)) (2) 1);
  (*2333*) Del (IT 69);
  (*2334*) AddTo (T 5) (Times (Copy (IT 81)) (2) 1);
  (*2335*) Del (IT 81);
  (*2336*) AddTo (T 5) (Times (Copy (IT 96)) (2) 1);
  (*2337*) Del (IT 96);
  (*2338*) AddTo (T 5) (Plain (Copy (IT 10)));
  (*2339*) Del (IT 10);
  (*2340*) AddTo (T 5) (Times (Copy n_f'ov) (-1) 1);
  (*2341*) AddTo (T 5) (Times (Copy (IT 110)) (-1) 1);
  (*2342*) Del (IT 110);
  (*2343*) AddTo (T 5) (Times (Copy (IT 121)) (-2) 1);
  (*2344*) Del (IT 121);
  (*2345*) AddTo (T 5) (Times (Copy (IT 129)) (-1) 1);
  (*2346*) Del (IT 129);
  (*2347*) AddTo (T 5) (Times (Copy (IT 23)) (-2) 1);
  (*2348*) Del (IT 23);
  (*2349*) AddTo (T 5) (Times (Copy (IT 3)) (-1) 1);
  (*2350*) Del (IT 3);
  (*2351*) AddTo (T 5) (Times (Copy (IT 39)) (-1) 1);
  (*2352*) Del (IT 39);
  (*2353*) AddTo (T 5) (Times (Copy (IT 5)) (-2) 1);
  (*2354*) Del (IT 5);
  (*2355*) AddTo (T 5) (Times (Copy (IT 53)) (-2) 1);
  (*2356*) Del (IT 53);
  (*2357*) AddTo (T 5) (Times (Copy (IT 64)) (-1) 1);
  (*2358*) Del (IT 64);
  (*2359*) AddTo (T 5) (Times (Copy (IT 72)) (-4) 1);
  (*2360*) Del (IT 72);
  (*2361*) AddTo (T 5) (Times (Copy (IT 84)) (-1) 1);
  (*2362*) Del (IT 84);
  (*2363*) AddTo (T 5) (Times (Copy (IT 99)) (-1) 1);
  (*2364*) Del (IT 99);
  (*2365*) Assign (T 7) (Plain (Copy n_f'oo));
  (*2366*) AddTo (T 7) (Plain (Transpose (IT 1) [1;0]));
  (*2367*) Del (IT 1);
  (*2368*) AddTo (T 7) (Times (Copy (IT 108)) (2) 1);
  (*2369*) Del (IT 108);
  (*2370*) AddTo (T 7) (Times (Transpose (IT 17) [1;0]) (2) 1);
  (*2371*) Del (IT 17);
  (*2372*) AddTo (T 7) (Times (Copy (IT 37)) (2) 1);
  (*2373*) Del (IT 37);
  (*2374*) AddTo (T 7) (Times (Copy (IT 107)) (-1) 1);
  (*2375*) Del (IT 107);
  (*2376*) AddTo (T 7) (Times (Copy (IT 15)) (-1) 1);
  (*2377*) Del (IT 15);
  (*2378*) AddTo (T 7) (Times (Copy (IT 34)) (-1) 1);
  (*2379*) Del (IT 34);
  (*2380*) Assign (T 3) (Times (Copy n_r2) (-1) 1);
  (*2381*) AddTo (T 3) (Times (Transpose n_r2 [1;0;2]) (2) 1);
  (*2382*) Assign (T 4) (Plain (Copy (IT 118)));
  (*2383*) Del (IT 118);
  (*2384*) AddTo (T 4) (Plain (Transpose (IT 47) [0;2;1;3]));
  (*2385*) Del (IT 47);
  (*2386*) AddTo (T 4) (Plain (Transpose (IT 49) [0;2;1;3]));
  (*2387*) Del (IT 49);
  (*2388*) AddTo (T 4) (Plain (Transpose (IT 75) [0;2;1;3]));
  (*2389*) Del (IT 75);
  (*2390*) AddTo (T 4) (Plain (Transpose (IT 92) [0;2;1;3]));
  (*2391*) Del (IT 92);
  (*2392*) AddTo (T 4) (Times (Copy (IT 31)) (-1) 1);
  (*2393*) Del (IT 31);
  (*2394*) AddTo (T 4) (Times (Transpose (IT 51) [0;2;1;3]) (-2) 1);
  (*2395*) Del (IT 51);
  (*2396*) AddTo (T 4) (Times (Transpose (IT 7) [1;0;2;3]) (-1) 1);
  (*2397*) Del (IT 7);
  (*2398*) AddTo (T 4) (Times (Transpose (IT 78) [0;2;1;3]) (-2) 1);
  (*2399*) Del (IT 78);
  (*2400*) Assign (T 2) (Plain (Copy (IT 104)));
  (*2401*) Del (IT 104);
  (*2402*) AddTo (T 2) (Plain (Copy (IT 116)));
  (*2403*) Del (IT 116);
  (*2404*) AddTo (T 2) (Plain (Copy (IT 135)));
  (*2405*) Del (IT 135);
  (*2406*) AddTo (T 2) (Plain (Transpose (IT 20) [0;2;1;3]));
  (*2407*) Del (IT 20);
  (*2408*) AddTo (T 2) (Plain (Copy (IT 45)));
  (*2409*) Del (IT 45);
  (*2410*) AddTo (T 2) (Plain (Copy (IT 87)));
  (*2411*) Del (IT 87);
  (*2412*) AddTo (T 2) (Plain (Copy (IT 94)));
  (*2413*) Del (IT 94);
  (*2414*) AddTo (T 2) (Times (Transpose (IT 11) [1;2;0;3]) (-1) 1);
  (*2415*) Del (IT 11);
  (*2416*) AddTo (T 2) (Times (Copy (IT 126)) (-1) 1);
  (*2417*) Del (IT 126);
  (*2418*) AddTo (T 2) (Times (Copy (IT 29)) (-1) 1);
  (*2419*) Del (IT 29);
  (*2420*) AddTo (T 2) (Times (Copy (IT 60)) (-1) 1);
  (*2421*) Del (IT 60);
  (*2422*) AddTo (T 2) (Times (Copy (IT 89)) (-2) 1);
  (*2423*) Del (IT 89);
  (*2424*) Assign (T 6) (Times (Copy n_r2) (2) 1);
  (*2425*) AddTo (T 6) (Times (Transpose n_r2 [1;0;2]) (-1) 1);
  (*2426*) Assign n_r2new (Plain (Einsum [(n_r2,[0;1;2]); (IT 115,[1;0;3;4])] [3;4;2]));
  (*2427*) Del (IT 115);
  (*2428*) AddTo n_r2new (Plain (Einsum [(IT 151,[0;1;2;3]); (n_r2,[4;0;2])] [1;4;3]));
  (*2429*) Del (IT 151);
  (*2430*) AddTo n_r2new (Times (Einsum [(n_r2,[0;1;2]); (T 8,[0;3;2;4])] [3;1;4]) (-2) 1);
  (*2431*) Del (T 8);
  (*2432*) AddTo n_r2new (Times (Einsum [(n_r2,[0;1;2]); (T 9,[1;3;2;4])] [0;3;4]) (-1) 1);
  (*2433*) Del (T 9);
  (*2434*) AddTo n_r2new (Plain (Einsum [(T 10,[0;1;2;3]); (n_r2,[0;1;4])] [2;3;4]));
  (*2435*) Del (T 10);
  (*2436*) AddTo n_r2new (Plain (Einsum [(T 12,[0;1;2;3]); (T 11,[0;4;2])] [1;4;3]));
  (*2437*) AddTo n_r2new (Plain (Einsum [(T 11,[0;1;2]); (T 12,[1;3;2;4])] [0;3;4]));
  (*2438*) Del (T 11);
  (*2438*) Del (T 12);
  (*2439*) AddTo n_r2new (Times (Einsum [(T 16,[0;1]); (n_v'xov,[1;2;3])] [2;0;3]) (-2) 1);
  (*2440*) Del (T 16);
  (*2441*) AddTo n_r2new (Times (Einsum [(n_r2,[0;1;2]); (T 18,[2;3])] [0;1;3]) (-1) 1);
  (*2442*) Del (T 18);
  (*2443*) AddTo n_r2new (Times (Einsum [(T 19,[0;1]); (n_r2,[0;2;3])] [1;2;3]) (-2) 1);
  (*2444*) AddTo n_r2new (Times (Einsum [(n_r2,[0;1;2]); (T 19,[1;3])] [0;3;2]) (-2) 1);
  (*2445*) Del (T 19);
  (*2446*) AddTo n_r2new (Times (Einsum [(T 21,[0]); (IT 102,[1;2;3;0])] [1;2;3]) (-2) 1);
  (*2447*) Del (T 21);
  (*2447*) Del (IT 102);
  (*2448*) AddTo n_r2new (Plain (Einsum [(n_r1,[0]); (T 22,[1;0;2;3])] [2;1;3]));
  (*2449*) Del (T 22);
  (*2450*) AddTo n_r2new (Times (Einsum [(n_r1,[0]); (T 17,[1;2])] [1;0;2]) (-1) 1);
  (*2451*) Del (T 17);
  (*2452*) Assign n_r1new (Times (Einsum [(T 1,[0;1;2]); (T 2,[1;0;3;2])] [3]) (-2) 1);
  (*2453*) Del (T 1);
  (*2453*) Del (T 2);
  (*2454*) AddTo n_r1new (Times (Einsum [(T 3,[0;1;2]); (T 4,[1;3;0;2])] [3]) (-1) 1);
  (*2455*) Del (T 3);
  (*2455*) Del (T 4);
  (*2456*) AddTo n_r1new (Plain (Einsum [(T 5,[0;1]); (T 6,[0;2;1])] [2]));
  (*2457*) Del (T 5);
  (*2457*) Del (T 6);
  (*2458*) AddTo n_r1new (Times (Einsum [(n_r1,[0]); (T 7,[0;1])] [1]) (-1) 1);
  (*2459*) Del (T 7)]
 [(n_r1new,[0]); (n_r2new,[0;0;1])].

(** ebcc/codegen/RDFCCSD.py:2463-2605 [hbar_lmatvec_ea_intermediates] *)
Definition RDFCCSD_hbar_lmatvec_ea_intermediates : prog := mkprog
 [(n_t1,[0;1]); (n_v'xov,[2;0;1]); (n_t2,[0;0;1;1]); (n_v'xvv,[2;1;1]); (n_v'xoo,[2;0;0]); (n_f'ov,[0;1]); (n_f'vv,[1;1]); (n_f'oo,[0;0])]
 [(*2542*) Assign (T 16) (Plain (Einsum [(n_t1,[0;1]); (n_v'xov,[2;0;1])] [2]));
  (*2543*) Assign (T 66) (Plain (Einsum [(n_v'xov,[0;1;2]); (n_t1,[3;2])] [3;1;0]));
  (*2544*) Assign (T 21) (Plain (Einsum [(T 16,[0]); (n_v'xov,[0;1;2])] [1;2]));
  (*2545*) Assign (T 67) (Plain (Einsum [(T 66,[0;1;2]); (n_v'xov,[2;0;3])] [1;3]));
  (*2546*) Assign (T 35) (Plain (Einsum [(n_t2,[0;1;2;3]); (n_v'xov,[4;1;2])] [0;3;4]));
  (*2547*) Assign (T 38) (Plain (Einsum [(n_t2,[0;1;2;3]); (n_v'xov,[4;1;3])] [0;2;4]));
  (*2548*) Assign (T 133) (Plain (Einsum [(n_t1,[0;1]); (T 21,[2;1])] [0;2]));
  (*2549*) Assign (T 130) (Plain (Einsum [(n_t1,[0;1]); (T 67,[2;1])] [0;2]));
  (*2550*) Assign (T 19) (Plain (Einsum [(n_t1,[0;1]); (n_v'xvv,[2;3;1])] [0;3;2]));
  (*2551*) Assign (T 17) (Plain (Einsum [(n_v'xvv,[0;1;2]); (T 16,[0])] [1;2]));
  (*2552*) Assign (T 114) (Plain (Einsum [(T 16,[0]); (n_v'xoo,[0;1;2])] [1;2]));
  (*2553*) Del (T 16);
  (*2554*) Assign (T 111) (Plain (Einsum [(n_v'xoo,[0;1;2]); (T 66,[2;3;0])] [1;3]));
  (*2555*) Assign (T 26) (Plain (Einsum [(n_v'xov,[0;1;2]); (n_v'xov,[0;3;4])] [3;1;4;2]));
  (*2556*) Assign (T 97) (Plain (Einsum [(n_v'xov,[0;1;2]); (T 35,[3;2;0])] [3;1]));
  (*2557*) Assign (T 93) (Plain (Einsum [(n_v'xov,[0;1;2]); (T 38,[3;2;0])] [3;1]));
  (*2558*) Assign (T 83) (Plain (Einsum [(T 66,[0;1;2]); (n_v'xov,[2;3;4])] [0;3;1;4]));
  (*2559*) Assign (T 13) (Plain (Einsum [(n_v'xov,[0;1;2]); (n_v'xvv,[0;3;4])] [1;3;4;2]));
  (*2560*) Assign (T 41) (Plain (Einsum [(n_v'xov,[0;1;2]); (n_v'xoo,[0;3;4])] [3;4;1;2]));
  (*2561*) Assign (T 11) (Plain (Einsum [(n_t1,[0;1]); (n_f'ov,[2;1])] [2;0]));
  (*2562*) Assign (T 164) (Plain (Einsum [(n_v'xvv,[0;1;2]); (n_v'xvv,[0;3;4])] [1;3;4;2]));
  (*2563*) Assign (T 134) (Plain (Einsum [(T 133,[0;1]); (n_t1,[1;2])] [0;2]));
  (*2564*) Assign (T 131) (Plain (Einsum [(T 130,[0;1]); (n_t1,[1;2])] [0;2]));
  (*2565*) Assign (T 128) (Plain (Einsum [(n_v'xov,[0;1;2]); (T 19,[3;4;0])] [3;1;2;4]));
  (*2566*) Assign (T 126) (Plain (Einsum [(n_v'xvv,[0;1;2]); (T 66,[3;4;0])] [3;4;1;2]));
  (*2567*) Assign (T 124) (Plain (Einsum [(T 19,[0;1;2]); (T 66,[3;0;2])] [3;1]));
  (*2568*) Assign (T 121) (Plain (Einsum [(n_t1,[0;1]); (T 17,[2;1])] [0;2]));
  (*2569*) Assign (T 115) (Plain (Einsum [(n_t1,[0;1]); (T 114,[2;0])] [2;1]));
  (*2570*) Assign (T 112) (Plain (Einsum [(T 111,[0;1]); (n_t1,[1;2])] [0;2]));
  (*2571*) Assign (T 108) (Plain (Einsum [(n_t2,[0;1;2;3]); (T 26,[1;4;5;3])] [0;4;2;5]));
  (*2572*) Assign (T 106) (Plain (Einsum [(T 26,[0;1;2;3]); (n_t2,[4;0;3;5])] [4;1;5;2]));
  (*2573*) Assign (T 103) (Plain (Einsum [(T 38,[0;1;2]); (n_v'xov,[2;3;4])] [0;3;1;4]));
  (*2574*) Assign (T 101) (Plain (Einsum [(T 35,[0;1;2]); (n_v'xov,[2;3;4])] [0;3;1;4]));
  (*2575*) Assign (T 98) (Plain (Einsum [(T 97,[0;1]); (n_t1,[1;2])] [0;2]));
  (*2576*) Assign (T 94) (Plain (Einsum [(T 93,[0;1]); (n_t1,[1;2])] [0;2]));
  (*2577*) Assign (T 90) (Plain (Einsum [(T 83,[0;1;2;3]); (n_t2,[1;2;4;5])] [0;4;5;3]));
  (*2578*) Assign (T 87) (Plain (Einsum [(n_t2,[0;1;2;3]); (T 83,[4;1;0;2])] [4;3]));
  (*2579*) Assign (T 84) (Plain (Einsum [(n_t2,[0;1;2;3]); (T 83,[4;1;0;3])] [4;2]));
  (*2580*) Assign (T 76) (Plain (Einsum [(n_t2,[0;1;2;3]); (T 21,[1;3])] [0;2]));
  (*2581*) Assign (T 73) (Plain (Einsum [(T 21,[0;1]); (n_t2,[2;0;1;3])] [2;3]));
  (*2582*) Assign (T 70) (Plain (Einsum [(n_t2,[0;1;2;3]); (T 67,[1;3])] [0;2]));
  (*2583*) Assign (T 68) (Plain (Einsum [(T 67,[0;1]); (n_t2,[2;0;1;3])] [2;3]));
  (*2584*) Assign (T 64) (Plain (Einsum [(n_t2,[0;1;2;3]); (T 13,[1;3;4;5])] [0;2;5;4]));
  (*2585*) Assign (T 62) (Plain (Einsum [(T 13,[0;1;2;3]); (n_t2,[4;0;1;5])] [4;5;3;2]));
  (*2586*) Assign (T 59) (Plain (Einsum [(n_v'xvv,[0;1;2]); (T 38,[3;4;0])] [3;4;1;2]));
  (*2587*) Assign (T 57) (Plain (Einsum [(T 35,[0;1;2]); (n_v'xvv,[2;3;4])] [0;1;3;4]));
  (*2588*) Assign (T 54) (Plain (Einsum [(n_v'xvv,[0;1;2]); (T 35,[3;2;0])] [3;1]));
  (*2589*) Assign (T 51) (Plain (Einsum [(T 38,[0;1;2]); (n_v'xvv,[2;3;1])] [0;3]));
  (*2590*) Assign (T 48) (Plain (Einsum [(n_t2,[0;1;2;3]); (T 41,[0;4;1;5])] [4;2;3;5]));
  (*2591*) Assign (T 45) (Plain (Einsum [(T 41,[0;1;2;3]); (n_t2,[0;2;4;3])] [1;4]));
  (*2592*) Assign (T 42) (Plain (Einsum [(T 41,[0;1;2;3]); (n_t2,[0;2;3;4])] [1;4]));
  (*2593*) Assign (T 39) (Plain (Einsum [(n_v'xov,[0;1;2]); (T 38,[1;3;0])] [3;2]));
  (*2594*) Assign (T 36) (Plain (Einsum [(T 35,[0;1;2]); (n_v'xov,[2;0;3])] [1;3]));
  (*2595*) Assign (T 32) (Plain (Einsum [(T 19,[0;1;2]); (n_v'xvv,[2;3;4])] [0;3;4;1]));
  (*2596*) Assign (T 30) (Plain (Einsum [(n_v'xvv,[0;1;2]); (n_v'xoo,[0;3;4])] [3;4;1;2]));
  (*2597*) Assign (T 24) (Plain (Einsum [(T 19,[0;1;2]); (n_v'xoo,[2;3;0])] [3;1]));
  (*2598*) Assign (T 20) (Plain (Einsum [(T 19,[0;1;2]); (n_v'xov,[2;0;3])] [3;1]));
  (*2599*) Assign (T 12) (Plain (Einsum [(T 11,[0;1]); (n_t1,[0;2])] [1;2]));
  (*2600*) Assign (T 5) (Plain (Einsum [(n_f'ov,[0;1]); (n_t2,[2;0;3;1])] [2;3]));
  (*2601*) Assign (T 4) (Plain (Einsum [(n_f'ov,[0;1]); (n_t2,[2;0;1;3])] [2;3]));
  (*2602*) Assign (T 3) (Plain (Einsum [(n_t1,[0;1]); (n_f'vv,[2;1])] [0;2]));
  (*2603*) Assign (T 2) (Plain (Einsum [(n_f'oo,[0;1]); (n_t1,[1;2])] [0;2]))]
 [(T 2,[0;1]); (T 11,[0;0]); (T 101,[0;0;1;1]); (T 103,[0;0;1;1]); (T 106,[0;0;1;1]); (T 108,[0;0;1;1]); (T 12,[0;1]); (T 111,[0;0]); (T 112,[0;1]); (T 114,[0;0]); (T 115,[0;1]); (T 13,[0;1;1;1]); (T 121,[0;1]); (T 124,[0;1]); (T 126,[0;0;1;1]); (T 128,[0;0;1;1]); (T 130,[0;0]); (T 131,[0;1]); (T 133,[0;0]); (T 134,[0;1]); (T 17,[1;1]); (T 164,[1;1;1;1]); (T 19,[0;1;2]); (T 20,[1;1]); (T 3,[0;1]); (T 21,[0;1]); (T 24,[0;1]); (T 26,[0;0;1;1]); (T 30,[0;0;1;1]); (T 4,[0;1]); (T 32,[0;1;1;1]); (T 35,[0;1;2]); (T 36,[1;1]); (T 38,[0;1;2]); (T 39,[1;1]); (T 5,[0;1]); (T 41,[0;0;0;1]); (T 42,[0;1]); (T 45,[0;1]); (T 48,[0;1;1;1]); (T 51,[0;1]); (T 54,[0;1]); (T 57,[0;1;1;1]); (T 59,[0;1;1;1]); (T 62,[0;1;1;1]); (T 64,[0;1;1;1]); (T 66,[0;0;2]); (T 67,[0;1]); (T 68,[0;1]); (T 70,[0;1]); (T 73,[0;1]); (T 76,[0;1]); (T 83,[0;0;0;1]); (T 84,[0;1]); (T 87,[0;1]); (T 90,[0;1;1;1]); (T 93,[0;0]); (T 94,[0;1]); (T 97,[0;0]); (T 98,[0;1])].

(** ebcc/codegen/RDFCCSD.py:2607-2850 [hbar_lmatvec_ea] *)
Definition RDFCCSD_hbar_lmatvec_ea : prog := mkprog
 [(IT 66,[0;0;2]); (n_v'xoo,[2;0;0]); (n_t2,[0;0;1;1]); (n_f'ov,[0;1]); (IT 21,[0;1]); (IT 67,[0;1]); (n_r2,[1;1;0]); (n_t1,[0;1]); (IT 19,[0;1;2]); (IT 38,[0;1;2]); (n_v'xov,[2;0;1]); (IT 35,[0;1;2]); (IT 41,[0;0;0;1]); (IT 83,[0;0;0;1]); (n_r1,[1]); (n_f'oo,[0;0]); (IT 11,[0;0]); (IT 114,[0;0]); (IT 133,[0;0]); (IT 93,[0;0]); (IT 111,[0;0]); (IT 130,[0;0]); (IT 97,[0;0]); (IT 106,[0;0;1;1]); (IT 126,[0;0;1;1]); (IT 30,[0;0;1;1]); (IT 20,[1;1]); (IT 39,[1;1]); (n_f'vv,[1;1]); (IT 17,[1;1]); (IT 36,[1;1]); (IT 108,[0;0;1;1]); (IT 103,[0;0;1;1]); (IT 128,[0;0;1;1]); (IT 26,[0;0;1;1]); (IT 101,[0;0;1;1]); (IT 48,[0;1;1;1]); (IT 59,[0;1;1;1]); (IT 57,[0;1;1;1]); (IT 64,[0;1;1;1]); (IT 13,[0;1;1;1]); (IT 32,[0;1;1;1]); (IT 90,[0;1;1;1]); (IT 62,[0;1;1;1]); (IT 115,[0;1]); (IT 12,[0;1]); (IT 124,[0;1]); (IT 134,[0;1]); (IT 2,[0;1]); (IT 24,[0;1]); (IT 4,[0;1]); (IT 45,[0;1]); (IT 54,[0;1]); (IT 70,[0;1]); (IT 73,[0;1]); (IT 84,[0;1]); (IT 94,[0;1]); (IT 112,[0;1]); (IT 121,[0;1]); (IT 131,[0;1]); (IT 3,[0;1]); (IT 42,[0;1]); (IT 5,[0;1]); (IT 51,[0;1]); (IT 68,[0;1]); (IT 76,[0;1]); (IT 87,[0;1]); (IT 98,[0;1]); (IT 164,[1;1;1;1])]
 [(*2635*) Assign (T 26) (Plain (Copy (IT 66)));
  (*2636*) Del (IT 66);
  (*2637*) AddTo (T 26) (Plain (Transpose n_v'xoo [1;2;0]));
  (*2638*) Assign (T 17) (Times (Transpose n_t2 [0;1;3;2]) (-1) 1);
  (*2639*) AddTo (T 17) (Times (Copy n_t2) (2) 1);
  (*2640*) Assign (T 20) (Plain (Copy n_f'ov));
  (*2641*) AddTo (T 20) (Times (Copy (IT 21)) (2) 1);
  (*2642*) AddTo (T 20) (Times (Copy (IT 67)) (-1) 1);
  (*2643*) Del (IT 67);
  (*2644*) Assign (T 11) (Plain (Einsum [(n_r2,[0;1;2]); (n_t1,[3;1])] [2;3;0]));
  (*2645*) Assign (T 5) (Times (Transpose n_r2 [2;0;1]) (-1) 2);
  (*2646*) AddTo (T 5) (Plain (Transpose n_r2 [2;1;0]));
  (*2647*) Assign (T 27) (Plain (Copy (IT 19)));
  (*2648*) Del (IT 19);
  (*2649*) AddTo (T 27) (Times (Copy (IT 38)) (2) 1);
  (*2650*) Del (IT 38);
  (*2651*) AddTo (T 27) (Plain (Transpose n_v'xov [1;2;0]));
  (*2652*) AddTo (T 27) (Times (Copy (IT 35)) (-1) 1);
  (*2653*) Del (IT 35);
  (*2654*) AddTo (T 27) (Times (Einsum [(T 26,[0;1;2]); (n_t1,[1;3])] [0;3;2]) (-1) 1);
  (*2655*) Del (T 26);
  (*2656*) Assign (T 23) (Plain (Copy (IT 41)));
  (*2657*) AddTo (T 23) (Plain (Transpose (IT 83) [0;2;1;3]));
  (*2658*) Assign (T 18) (Plain (Einsum [(n_r2,[0;1;2]); (T 17,[2;3;0;1])] [3]));
  (*2659*) Del (T 17);
  (*2660*) Assign (T 16) (Plain (Einsum [(n_r1,[0]); (n_t1,[1;0])] [1]));
  (*2661*) Assign (T 29) (Plain (Einsum [(T 20,[0;1]); (n_t1,[0;2])] [2;1]));
  (*2662*) Assign (T 12) (Plain (Einsum [(T 11,[0;1;2]); (n_t1,[3;2])] [0;3;1]));
  (*2663*) Assign (T 1) (Plain (Transpose n_r2 [2;0;1]));
  (*2664*) AddTo (T 1) (Times (Transpose n_r2 [2;1;0]) (-1) 2);
  (*2665*) Assign (T 22) (Plain (Einsum [(n_t2,[0;1;2;3]); (n_r2,[2;3;4])] [4;0;1]));
  (*2666*) Assign (T 31) (Plain (Copy n_f'oo));
  (*2667*) AddTo (T 31) (Plain (Transpose (IT 11) [1;0]));
  (*2668*) Del (IT 11);
  (*2669*) AddTo (T 31) (Times (Copy (IT 114)) (2) 1);
  (*2670*) Del (IT 114);
  (*2671*) AddTo (T 31) (Times (Copy (IT 133)) (2) 1);
  (*2672*) Del (IT 133);
  (*2673*) AddTo (T 31) (Times (Copy (IT 93)) (2) 1);
  (*2674*) Del (IT 93);
  (*2675*) AddTo (T 31) (Times (Copy (IT 111)) (-1) 1);
  (*2676*) Del (IT 111);
  (*2677*) AddTo (T 31) (Times (Copy (IT 130)) (-1) 1);
  (*2678*) Del (IT 130);
  (*2679*) AddTo (T 31) (Times (Copy (IT 97)) (-1) 1);
  (*2680*) Del (IT 97);
  (*2681*) Assign (T 28) (Times (Einsum [(T 5,[0;1;2]); (T 27,[0;2;3])] [1;3]) (-1) 1);
  (*2682*) Del (T 27);
  (*2683*) Assign (T 25) (Plain (Copy (IT 106)));
  (*2684*) AddTo (T 25) (Times (Copy (IT 126)) (-1) 1);
  (*2685*) AddTo (T 25) (Times (Copy (IT 30)) (-1) 1);
  (*2686*) AddTo (T 25) (Plain (Einsum [(n_t1,[0;1]); (T 23,[2;3;0;4])] [2;3;1;4]));
  (*2687*) Assign (T 19) (Plain (Copy (T 16)));
  (*2688*) Del (T 16);
  (*2689*) AddTo (T 19) (Times (Copy (T 18)) (-1) 1);
  (*2690*) Del (T 18);
  (*2691*) Assign (T 30) (Plain (Transpose (IT 20) [1;0]));
  (*2692*) AddTo (T 30) (Times (Copy (IT 39)) (2) 1);
  (*2693*) AddTo (T 30) (Times (Copy n_f'vv) (-1) 1);
  (*2694*) AddTo (T 30) (Times (Copy (IT 17)) (-2) 1);
  (*2695*) AddTo (T 30) (Times (Copy (IT 36)) (-1) 1);
  (*2696*) AddTo (T 30) (Plain (Copy (T 29)));
  (*2697*) Del (T 29);
  (*2698*) Assign (T 24) (Plain (Copy (IT 108)));
  (*2699*) AddTo (T 24) (Times (Copy (IT 126)) (1) 2);
  (*2700*) AddTo (T 24) (Times (Copy (IT 30)) (1) 2);
  (*2701*) AddTo (T 24) (Times (Copy (IT 106)) (-1) 2);
  (*2702*) AddTo (T 24) (Times (Einsum [(n_t1,[0;1]); (T 23,[2;3;0;4])] [2;3;1;4]) (-1) 2);
  (*2703*) Del (T 23);
  (*2704*) Assign (T 21) (Plain (Einsum [(n_t1,[0;1]); (n_r2,[1;2;3])] [3;0;2]));
  (*2705*) Assign (T 9) (Times (Copy (IT 103)) (2) 1);
  (*2706*) Del (IT 103);
  (*2707*) AddTo (T 9) (Plain (Transpose (IT 128) [0;1;3;2]));
  (*2708*) Del (IT 128);
  (*2709*) AddTo (T 9) (Plain (Copy (IT 26)));
  (*2710*) AddTo (T 9) (Times (Copy (IT 101)) (-1) 1);
  (*2711*) Del (IT 101);
  (*2712*) AddTo (T 9) (Times (Copy (IT 108)) (-1) 1);
  (*2713*) Assign (T 13) (Plain (Copy (T 12)));
  (*2714*) AddTo (T 13) (Times (Transpose (T 12) [0;2;1]) (-1) 2);
  (*2715*) Assign (T 7) (Plain (Transpose (IT 126) [0;1;3;2]));
  (*2716*) Del (IT 126);
  (*2717*) AddTo (T 7) (Plain (Transpose (IT 30) [0;1;3;2]));
  (*2718*) Del (IT 30);
  (*2719*) AddTo (T 7) (Times (Copy (IT 106)) (-1) 1);
  (*2720*) Del (IT 106);
  (*2721*) Assign (T 3) (Times (Transpose n_r2 [2;0;1]) (-1) 1);
  (*2722*) AddTo (T 3) (Times (Transpose n_r2 [2;1;0]) (2) 1);
  (*2723*) Assign (T 4) (Plain (Copy (IT 48)));
  (*2724*) Del (IT 48);
  (*2725*) AddTo (T 4) (Times (Copy (IT 59)) (2) 1);
  (*2726*) Del (IT 59);
  (*2727*) AddTo (T 4) (Times (Copy (IT 57)) (-1) 1);
  (*2728*) Del (IT 57);
  (*2729*) AddTo (T 4) (Times (Transpose (IT 64) [0;1;3;2]) (-1) 1);
  (*2730*) Del (IT 64);
  (*2731*) Assign (T 2) (Plain (Copy (IT 13)));
  (*2732*) AddTo (T 2) (Plain (Copy (IT 32)));
  (*2733*) Del (IT 32);
  (*2734*) AddTo (T 2) (Plain (Transpose (IT 90) [0;3;1;2]));
  (*2735*) Del (IT 90);
  (*2736*) AddTo (T 2) (Times (Transpose (IT 62) [0;2;1;3]) (-1) 1);
  (*2737*) Del (IT 62);
  (*2738*) Assign (T 15) (Plain (Copy n_f'vv));
  (*2739*) AddTo (T 15) (Times (Transpose (IT 17) [1;0]) (2) 1);
  (*2740*) Del (IT 17);
  (*2741*) AddTo (T 15) (Plain (Copy (IT 36)));
  (*2742*) Del (IT 36);
  (*2743*) AddTo (T 15) (Times (Transpose (IT 20) [1;0]) (-1) 1);
  (*2744*) Del (IT 20);
  (*2745*) AddTo (T 15) (Times (Copy (IT 39)) (-2) 1);
  (*2746*) Del (IT 39);
  (*2747*) Assign (T 8) (Times (Einsum [(T 1,[0;1;2]); (n_t1,[3;2])] [0;3;1]) (2) 1);
  (*2748*) Assign (T 6) (Plain (Einsum [(T 5,[0;1;2]); (n_t1,[3;2])] [0;3;1]));
  (*2749*) Del (T 5);
  (*2750*) Assign (T 10) (Times (Copy (IT 115)) (2) 1);
  (*2751*) Del (IT 115);
  (*2752*) AddTo (T 10) (Plain (Copy (IT 12)));
  (*2753*) Del (IT 12);
  (*2754*) AddTo (T 10) (Plain (Copy (IT 124)));
  (*2755*) Del (IT 124);
  (*2756*) AddTo (T 10) (Times (Copy (IT 134)) (2) 1);
  (*2757*) Del (IT 134);
  (*2758*) AddTo (T 10) (Plain (Copy (IT 2)));
  (*2759*) Del (IT 2);
  (*2760*) AddTo (T 10) (Plain (Copy (IT 24)));
  (*2761*) Del (IT 24);
  (*2762*) AddTo (T 10) (Plain (Copy (IT 4)));
  (*2763*) Del (IT 4);
  (*2764*) AddTo (T 10) (Times (Copy (IT 45)) (2) 1);
  (*2765*) Del (IT 45);
  (*2766*) AddTo (T 10) (Plain (Copy (IT 54)));
  (*2767*) Del (IT 54);
  (*2768*) AddTo (T 10) (Times (Copy (IT 70)) (2) 1);
  (*2769*) Del (IT 70);
  (*2770*) AddTo (T 10) (Times (Copy (IT 73)) (2) 1);
  (*2771*) Del (IT 73);
  (*2772*) AddTo (T 10) (Times (Copy (IT 84)) (2) 1);
  (*2773*) Del (IT 84);
  (*2774*) AddTo (T 10) (Times (Copy (IT 94)) (2) 1);
  (*2775*) Del (IT 94);
  (*2776*) AddTo (T 10) (Times (Copy n_f'ov) (-1) 1);
  (*2777*) AddTo (T 10) (Times (Copy (IT 112)) (-1) 1);
  (*2778*) Del (IT 112);
  (*2779*) AddTo (T 10) (Times (Copy (IT 121)) (-2) 1);
  (*2780*) Del (IT 121);
  (*2781*) AddTo (T 10) (Times (Copy (IT 131)) (-1) 1);
  (*2782*) Del (IT 131);
  (*2783*) AddTo (T 10) (Times (Copy (IT 21)) (-2) 1);
  (*2784*) Del (IT 21);
  (*2785*) AddTo (T 10) (Times (Copy (IT 3)) (-1) 1);
  (*2786*) Del (IT 3);
  (*2787*) AddTo (T 10) (Times (Copy (IT 42)) (-1) 1);
  (*2788*) Del (IT 42);
  (*2789*) AddTo (T 10) (Times (Copy (IT 5)) (-2) 1);
  (*2790*) Del (IT 5);
  (*2791*) AddTo (T 10) (Times (Copy (IT 51)) (-2) 1);
  (*2792*) Del (IT 51);
  (*2793*) AddTo (T 10) (Times (Copy (IT 68)) (-1) 1);
  (*2794*) Del (IT 68);
  (*2795*) AddTo (T 10) (Times (Copy (IT 76)) (-4) 1);
  (*2796*) Del (IT 76);
  (*2797*) AddTo (T 10) (Times (Copy (IT 87)) (-1) 1);
  (*2798*) Del (IT 87);
  (*2799*) AddTo (T 10) (Times (Copy (IT 98)) (-1) 1);
  (*2800*) Del (IT 98);
  (*2801*) Assign (T 14) (Times (Copy (T 12)) (-1) 1);
  (*2802*) AddTo (T 14) (Times (Transpose (T 12) [0;2;1]) (2) 1);
  (*2803*) Assign n_r2new (Plain (Einsum [(IT 108,[0;1;2;3]); (n_r2,[4;2;0])] [3;4;1]));
  (*2804*) Del (IT 108);
  (*2805*) AddTo n_r2new (Times (Einsum [(T 11,[0;1;2]); (IT 13,[1;3;2;4])] [3;4;0]) (-1) 1);
  (*2806*) Del (T 11);
  (*2807*) AddTo n_r2new (Times (Einsum [(T 21,[0;1;2]); (IT 13,[1;3;2;4])] [4;3;0]) (-1) 1);
  (*2808*) Del (T 21);
  (*2809*) AddTo n_r2new (Times (Einsum [(IT 13,[0;1;2;3]); (n_r1,[2])] [3;1;0]) (-1) 1);
  (*2810*) Del (IT 13);
  (*2811*) AddTo n_r2new (Plain (Einsum [(IT 164,[0;1;2;3]); (n_r2,[2;3;4])] [1;0;4]));
  (*2812*) Del (IT 164);
  (*2813*) AddTo n_r2new (Plain (Einsum [(IT 26,[0;1;2;3]); (T 22,[4;1;0])] [3;2;4]));
  (*2814*) Del (T 22);
  (*2815*) AddTo n_r2new (Plain (Einsum [(T 12,[0;1;2]); (IT 26,[2;1;3;4])] [4;3;0]));
  (*2816*) Del (T 12);
  (*2817*) AddTo n_r2new (Times (Einsum [(n_r2,[0;1;2]); (T 24,[2;3;0;4])] [4;1;3]) (-2) 1);
  (*2818*) Del (T 24);
  (*2819*) AddTo n_r2new (Plain (Einsum [(T 25,[0;1;2;3]); (n_r2,[4;2;0])] [4;3;1]));
  (*2820*) Del (T 25);
  (*2821*) AddTo n_r2new (Times (Einsum [(n_v'xov,[0;1;2]); (T 28,[3;0])] [2;3;1]) (-2) 1);
  (*2822*) Del (T 28);
  (*2823*) AddTo n_r2new (Times (Einsum [(T 30,[0;1]); (n_r2,[0;2;3])] [1;2;3]) (-1) 1);
  (*2824*) AddTo n_r2new (Times (Einsum [(T 30,[0;1]); (n_r2,[2;0;3])] [2;1;3]) (-1) 1);
  (*2825*) Del (T 30);
  (*2826*) AddTo n_r2new (Times (Einsum [(n_r2,[0;1;2]); (T 31,[2;3])] [0;1;3]) (-1) 1);
  (*2827*) Del (T 31);
  (*2828*) AddTo n_r2new (Plain (Einsum [(T 19,[0]); (IT 26,[0;1;2;3])] [3;2;1]));
  (*2829*) Del (IT 26);
  (*2830*) AddTo n_r2new (Times (Einsum [(T 20,[0;1]); (n_r1,[2])] [1;2;0]) (-1) 1);
  (*2831*) Assign n_r1new (Times (Einsum [(T 2,[0;1;2;3]); (T 1,[0;3;2])] [1]) (-2) 1);
  (*2832*) Del (T 1);
  (*2832*) Del (T 2);
  (*2833*) AddTo n_r1new (Times (Einsum [(T 4,[0;1;2;3]); (T 3,[0;2;1])] [3]) (-1) 1);
  (*2834*) Del (T 4);
  (*2835*) AddTo n_r1new (Times (Einsum [(T 6,[0;1;2]); (T 7,[0;1;2;3])] [3]) (2) 1);
  (*2836*) Del (T 6);
  (*2836*) Del (T 7);
  (*2837*) AddTo n_r1new (Plain (Einsum [(T 8,[0;1;2]); (T 9,[0;1;2;3])] [3]));
  (*2838*) Del (T 8);
  (*2838*) Del (T 9);
  (*2839*) AddTo n_r1new (Plain (Einsum [(T 3,[0;1;2]); (T 10,[0;2])] [1]));
  (*2840*) Del (T 3);
  (*2840*) Del (T 10);
  (*2841*) AddTo n_r1new (Times (Einsum [(T 13,[0;1;2]); (IT 83,[0;2;1;3])] [3]) (-2) 1);
  (*2842*) Del (IT 83);
  (*2842*) Del (T 13);
  (*2843*) AddTo n_r1new (Times (Einsum [(T 14,[0;1;2]); (IT 41,[0;2;1;3])] [3]) (-1) 1);
  (*2844*) Del (IT 41);
  (*2844*) Del (T 14);
  (*2845*) AddTo n_r1new (Plain (Einsum [(T 15,[0;1]); (n_r1,[0])] [1]));
  (*2846*) Del (T 15);
  (*2847*) AddTo n_r1new (Times (Einsum [(T 19,[0]); (T 20,[0;1])] [1]) (-1) 1);
  (*2848*) Del (T 20);
  (*2848*) Del (T 19)]
 [(n_r1new,[1]); (n_r2new,[1;1;0])].

