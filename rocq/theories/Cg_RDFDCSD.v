(** Generated by tools/translate_codegen.py from ebcc/codegen/RDFDCSD.py; one statement per source line
    (the number in the comment before it). *)
From Coq Require Import ZArith List.
From Verif Require Import CgModel CgNames.
Import ListNotations.

(** ebcc/codegen/RDFDCSD.py:19-56 [energy] *)
Definition RDFDCSD_energy : prog := mkprog
 [(n_v'xov,[2;0;1]); (n_t1,[0;1]); (n_t2,[0;0;1;1]); (n_f'ov,[0;1])]
 [(*40*) Assign (T 4) (Plain (Einsum [(n_v'xov,[0;1;2]); (n_t1,[3;2])] [3;1;0]));
  (*41*) Assign (T 1) (Plain (Einsum [(n_t1,[0;1]); (n_v'xov,[2;0;1])] [2]));
  (*42*) Assign (T 2) (Times (Transpose n_t2 [0;1;3;2]) (-1) 1);
  (*43*) AddTo (T 2) (Times (Copy n_t2) (2) 1);
  (*44*) Assign (T 5) (Times (Copy n_f'ov) (2) 1);
  (*45*) AddTo (T 5) (Times (Einsum [(n_v'xov,[0;1;2]); (T 4,[1;3;0])] [3;2]) (-1) 1);
  (*46*) Del (T 4);
  (*47*) Assign (T 3) (Plain (Einsum [(T 1,[0]); (n_t1,[1;2])] [1;2;0]));
  (*48*) Del (T 1);
  (*49*) AddTo (T 3) (Times (Einsum [(n_v'xov,[0;1;2]); (T 2,[1;3;2;4])] [3;4;0]) (1) 2);
  (*50*) Del (T 2);
  (*51*) Assign n_e_cc (Times (Einsum [(T 3,[0;1;2]); (n_v'xov,[2;0;1])] []) (2) 1);
  (*52*) Del (T 3);
  (*53*) AddTo n_e_cc (Plain (Einsum [(n_t1,[0;1]); (T 5,[0;1])] []));
  (*54*) Del (T 5)]
 [(n_e_cc,[])].

(** ebcc/codegen/RDFDCSD.py:58-329 [update_amps] *)
Definition RDFDCSD_update_amps : prog := mkprog
 [(n_v'xov,[2;0;1]); (n_t1,[0;1]); (n_v'xoo,[2;0;0]); (n_t2,[0;0;1;1]); (n_v'xvv,[2;1;1]); (n_f'ov,[0;1]); (n_f'vv,[1;1]); (n_f'oo,[0;0])]
 [(*81*) Assign (T 3) (Plain (Einsum [(n_v'xov,[0;1;2]); (n_t1,[3;2])] [3;1;0]));
  (*82*) Assign (T 1) (Plain (Einsum [(n_t1,[0;1]); (n_v'xov,[2;0;1])] [2]));
  (*83*) Assign (T 30) (Plain (Einsum [(n_v'xov,[0;1;2]); (T 3,[3;4;0])] [3;1;4;2]));
  (*84*) Assign (T 32) (Plain (Einsum [(n_v'xoo,[0;1;2]); (n_v'xov,[0;3;4])] [1;2;3;4]));
  (*85*) Assign (T 2) (Plain (Einsum [(T 1,[0]); (n_v'xov,[0;1;2])] [1;2]));
  (*86*) Assign (T 10) (Plain (Einsum [(n_v'xov,[0;1;2]); (T 3,[1;3;0])] [3;2]));
  (*87*) Assign (T 37) (Plain (Copy n_t2));
  (*88*) AddTo (T 37) (Plain (Einsum [(n_t1,[0;1]); (n_t1,[2;3])] [0;2;1;3]));
  (*89*) Assign (T 19) (Plain (Einsum [(n_v'xov,[0;1;2]); (n_t2,[3;1;2;4])] [3;4;0]));
  (*90*) Assign (T 60) (Times (Copy (T 30)) (-1) 1);
  (*91*) AddTo (T 60) (Times (Transpose (T 30) [0;2;1;3]) (2) 1);
  (*92*) Assign (T 50) (Plain (Einsum [(n_t1,[0;1]); (n_t1,[2;3])] [0;2;1;3]));
  (*93*) AddTo (T 50) (Times (Transpose n_t2 [0;1;3;2]) (-2) 1);
  (*94*) AddTo (T 50) (Plain (Copy n_t2));
  (*95*) Assign (T 18) (Plain (Einsum [(n_t1,[0;1]); (n_v'xvv,[2;3;1])] [0;3;2]));
  (*96*) Assign (T 12) (Times (Transpose n_t2 [0;1;3;2]) (-1) 1);
  (*97*) AddTo (T 12) (Times (Copy n_t2) (2) 1);
  (*98*) Assign (T 33) (Times (Transpose (T 32) [1;0;2;3]) (-1) 1);
  (*99*) AddTo (T 33) (Times (Transpose (T 32) [2;1;0;3]) (2) 1);
  (*100*) Assign (T 35) (Times (Copy (T 2)) (2) 1);
  (*101*) AddTo (T 35) (Times (Copy (T 10)) (-1) 1);
  (*102*) Assign (T 38) (Plain (Einsum [(n_v'xov,[0;1;2]); (T 37,[1;3;4;2])] [3;4;0]));
  (*103*) Del (T 37);
  (*104*) Assign (T 6) (Times (Transpose n_t2 [0;1;3;2]) (-1) 1);
  (*105*) AddTo (T 6) (Times (Copy n_t2) (2) 1);
  (*106*) Assign (T 58) (Plain (Einsum [(n_t2,[0;1;2;3]); (T 32,[4;1;5;2])] [0;4;5;3]));
  (*107*) Del (T 32);
  (*108*) Assign (T 59) (Plain (Einsum [(T 3,[0;1;2]); (T 19,[3;4;2])] [0;3;1;4]));
  (*109*) Assign (T 61) (Plain (Einsum [(T 60,[0;1;2;3]); (n_t2,[4;2;5;3])] [0;1;4;5]));
  (*110*) Del (T 60);
  (*111*) Assign (T 51) (Plain (Einsum [(n_v'xov,[0;1;2]); (T 50,[1;3;4;2])] [3;4;0]));
  (*112*) Del (T 50);
  (*113*) Assign (T 7) (Plain (Einsum [(n_v'xoo,[0;1;2]); (n_t1,[2;3])] [1;3;0]));
  (*114*) Assign (T 13) (Plain (Einsum [(n_v'xoo,[0;1;2]); (T 1,[0])] [1;2]));
  (*115*) Assign (T 64) (Plain (Einsum [(T 3,[0;1;2]); (n_v'xoo,[2;3;0])] [3;1]));
  (*116*) Assign (T 55) (Plain (Einsum [(T 18,[0;1;2]); (n_v'xov,[2;0;3])] [3;1]));
  (*117*) Assign (T 54) (Plain (Einsum [(T 1,[0]); (n_v'xvv,[0;1;2])] [1;2]));
  (*118*) Assign (T 27) (Plain (Einsum [(n_v'xov,[0;1;2]); (T 12,[1;3;2;4])] [3;4;0]));
  (*119*) Assign (T 34) (Plain (Einsum [(n_t2,[0;1;2;3]); (T 33,[1;4;5;3])] [4;5;0;2]));
  (*120*) Del (T 33);
  (*121*) Assign (T 36) (Plain (Einsum [(n_t2,[0;1;2;3]); (T 35,[4;2])] [4;0;1;3]));
  (*122*) Assign (T 31) (Plain (Einsum [(n_t2,[0;1;2;3]); (T 30,[4;5;1;2])] [4;0;5;3]));
  (*123*) Del (T 30);
  (*124*) Assign (T 39) (Plain (Einsum [(n_v'xoo,[0;1;2]); (T 38,[3;4;0])] [1;2;3;4]));
  (*125*) Del (T 38);
  (*126*) Assign (T 68) (Plain (Einsum [(n_v'xov,[0;1;2]); (n_v'xvv,[0;3;4])] [1;3;4;2]));
  (*127*) Assign (T 14) (Plain (Einsum [(n_v'xov,[0;1;2]); (T 6,[1;3;2;4])] [3;4;0]));
  (*128*) Assign (T 23) (Plain (Einsum [(n_v'xoo,[0;1;2]); (n_v'xvv,[0;3;4])] [1;2;3;4]));
  (*129*) Assign (T 62) (Plain (Copy (T 58)));
  (*130*) Del (T 58);
  (*131*) AddTo (T 62) (Plain (Copy (T 59)));
  (*132*) Del (T 59);
  (*133*) AddTo (T 62) (Times (Transpose (T 61) [0;2;1;3]) (-1) 1);
  (*134*) Del (T 61);
  (*135*) Assign (T 52) (Plain (Copy (T 7)));
  (*136*) AddTo (T 52) (Plain (Copy (T 51)));
  (*137*) Del (T 51);
  (*138*) Assign (T 65) (Times (Transpose (T 64) [1;0]) (-1) 1);
  (*139*) Del (T 64);
  (*140*) AddTo (T 65) (Times (Transpose (T 13) [1;0]) (2) 1);
  (*141*) Assign (T 56) (Times (Transpose (T 54) [1;0]) (2) 1);
  (*142*) Del (T 54);
  (*143*) AddTo (T 56) (Times (Copy (T 55)) (-1) 1);
  (*144*) Del (T 55);
  (*145*) Assign (T 21) (Plain (Einsum [(n_v'xov,[0;1;2]); (n_v'xov,[0;3;4])] [3;1;4;2]));
  (*146*) Assign (T 46) (Plain (Einsum [(T 18,[0;1;2]); (T 3,[3;4;2])] [3;0;4;1]));
  (*147*) Assign (T 25) (Plain (Einsum [(T 3,[0;1;2]); (n_v'xvv,[2;3;4])] [0;1;3;4]));
  (*148*) Assign (T 28) (Plain (Transpose n_v'xov [1;2;0]));
  (*149*) AddTo (T 28) (Times (Copy (T 7)) (-1) 1);
  (*150*) AddTo (T 28) (Plain (Copy (T 27)));
  (*151*) Del (T 27);
  (*152*) Assign (T 42) (Plain (Einsum [(T 35,[0;1]); (n_t1,[2;1])] [0;2]));
  (*153*) Del (T 35);
  (*154*) Assign (T 40) (Plain (Transpose (T 31) [0;2;1;3]));
  (*155*) Del (T 31);
  (*156*) AddTo (T 40) (Times (Transpose (T 34) [2;1;0;3]) (-1) 1);
  (*157*) Del (T 34);
  (*158*) AddTo (T 40) (Times (Transpose (T 36) [2;0;1;3]) (-1) 1);
  (*159*) Del (T 36);
  (*160*) AddTo (T 40) (Plain (Transpose (T 39) [2;1;0;3]));
  (*161*) Del (T 39);
  (*162*) Assign (T 69) (Plain (Einsum [(n_t2,[0;1;2;3]); (T 68,[4;5;3;2])] [0;1;4;5]));
  (*163*) Del (T 68);
  (*164*) Assign (T 72) (Times (Einsum [(n_v'xov,[0;1;2]); (T 14,[1;3;0])] [3;2]) (1) 2);
  (*165*) Assign (T 74) (Plain (Einsum [(n_v'xov,[0;1;2]); (T 14,[3;2;0])] [3;1]));
  (*166*) Assign (T 20) (Plain (Einsum [(n_v'xov,[0;1;2]); (n_t2,[3;1;4;2])] [3;4;0]));
  (*167*) Assign (T 81) (Plain (Einsum [(n_v'xoo,[0;1;2]); (T 3,[3;4;0])] [3;1;2;4]));
  (*168*) Assign (T 77) (Plain (Einsum [(n_f'ov,[0;1]); (n_t1,[2;1])] [0;2]));
  (*169*) Assign (T 79) (Plain (Einsum [(n_t2,[0;1;2;3]); (n_f'ov,[4;3])] [4;0;1;2]));
  (*170*) Assign (T 49) (Plain (Einsum [(T 23,[0;1;2;3]); (n_t2,[4;1;5;3])] [4;0;5;2]));
  (*171*) Assign (T 63) (Plain (Einsum [(n_t1,[0;1]); (T 62,[2;3;0;4])] [2;3;4;1]));
  (*172*) Del (T 62);
  (*173*) Assign (T 53) (Plain (Einsum [(n_v'xov,[0;1;2]); (T 52,[3;4;0])] [3;1;4;2]));
  (*174*) Del (T 52);
  (*175*) Assign (T 66) (Plain (Einsum [(n_t2,[0;1;2;3]); (T 65,[1;4])] [4;0;3;2]));
  (*176*) Del (T 65);
  (*177*) Assign (T 57) (Plain (Einsum [(n_t2,[0;1;2;3]); (T 56,[2;4])] [0;1;4;3]));
  (*178*) Del (T 56);
  (*179*) Assign (T 87) (Plain (Einsum [(T 21,[0;1;2;3]); (n_t1,[1;4])] [0;4;2;3]));
  (*180*) Assign (T 47) (Plain (Einsum [(n_t1,[0;1]); (T 46,[2;3;0;4])] [2;3;1;4]));
  (*181*) Del (T 46);
  (*182*) Assign (T 45) (Plain (Einsum [(n_t2,[0;1;2;3]); (T 25,[4;1;5;2])] [4;0;3;5]));
  (*183*) Assign (T 29) (Plain (Einsum [(T 28,[0;1;2]); (T 18,[3;4;2])] [3;0;4;1]));
  (*184*) Del (T 28);
  (*185*) Assign (T 24) (Plain (Einsum [(n_t2,[0;1;2;3]); (T 23,[4;1;5;2])] [0;4;3;5]));
  (*186*) Del (T 23);
  (*187*) Assign (T 22) (Plain (Einsum [(n_t2,[0;1;2;3]); (n_f'vv,[4;3])] [0;1;4;2]));
  (*188*) Assign (T 43) (Plain (Einsum [(T 42,[0;1]); (n_t2,[2;0;3;4])] [1;2;4;3]));
  (*189*) Del (T 42);
  (*190*) Assign (T 41) (Plain (Einsum [(T 40,[0;1;2;3]); (n_t1,[1;4])] [0;2;3;4]));
  (*191*) Del (T 40);
  (*192*) Assign (T 26) (Plain (Einsum [(T 25,[0;1;2;3]); (n_t2,[4;1;5;3])] [0;4;5;2]));
  (*193*) Del (T 25);
  (*194*) Assign (T 70) (Plain (Einsum [(T 69,[0;1;2;3]); (n_t1,[2;4])] [0;1;4;3]));
  (*195*) Del (T 69);
  (*196*) Assign (T 73) (Plain (Einsum [(T 72,[0;1]); (n_t2,[2;3;1;4])] [2;3;0;4]));
  (*197*) Del (T 72);
  (*198*) Assign (T 75) (Times (Einsum [(n_t2,[0;1;2;3]); (T 74,[4;1])] [4;0;3;2]) (1) 2);
  (*199*) Del (T 74);
  (*200*) Assign (T 71) (Plain (Einsum [(T 19,[0;1;2]); (T 20,[3;4;2])] [3;0;4;1]));
  (*201*) Assign (T 82) (Plain (Einsum [(n_t2,[0;1;2;3]); (T 81,[4;0;5;1])] [4;5;2;3]));
  (*202*) Del (T 81);
  (*203*) Assign (T 78) (Plain (Einsum [(n_t2,[0;1;2;3]); (T 77,[1;4])] [4;0;2;3]));
  (*204*) Del (T 77);
  (*205*) Assign (T 80) (Plain (Einsum [(T 79,[0;1;2;3]); (n_t1,[0;4])] [1;2;4;3]));
  (*206*) Del (T 79);
  (*207*) Assign (T 8) (Times (Einsum [(n_t1,[0;1]); (n_t1,[2;3])] [0;2;1;3]) (1) 2);
  (*208*) AddTo (T 8) (Times (Transpose n_t2 [0;1;3;2]) (-1) 1);
  (*209*) AddTo (T 8) (Times (Copy n_t2) (1) 2);
  (*210*) Assign (T 15) (Times (Copy (T 7)) (-1) 1);
  (*211*) AddTo (T 15) (Times (Einsum [(T 1,[0]); (n_t1,[1;2])] [1;2;0]) (2) 1);
  (*212*) AddTo (T 15) (Plain (Copy (T 14)));
  (*213*) Del (T 14);
  (*214*) Assign (T 16) (Plain (Copy n_f'ov));
  (*215*) AddTo (T 16) (Times (Copy (T 10)) (-1) 1);
  (*216*) Assign (T 4) (Plain (Transpose n_v'xoo [1;2;0]));
  (*217*) AddTo (T 4) (Plain (Transpose (T 3) [1;0;2]));
  (*218*) Assign (T 85) (Plain (Einsum [(n_v'xoo,[0;1;2]); (n_v'xoo,[0;3;4])] [1;3;4;2]));
  (*219*) AddTo (T 85) (Plain (Einsum [(T 3,[0;1;2]); (T 3,[3;4;2])] [1;3;4;0]));
  (*220*) Del (T 3);
  (*221*) Assign (T 67) (Plain (Copy (T 49)));
  (*222*) Del (T 49);
  (*223*) AddTo (T 67) (Plain (Copy (T 53)));
  (*224*) Del (T 53);
  (*225*) AddTo (T 67) (Times (Transpose (T 57) [1;0;3;2]) (-1) 1);
  (*226*) Del (T 57);
  (*227*) AddTo (T 67) (Times (Transpose (T 63) [0;1;3;2]) (-1) 1);
  (*228*) Del (T 63);
  (*229*) AddTo (T 67) (Plain (Transpose (T 66) [1;0;3;2]));
  (*230*) Del (T 66);
  (*231*) Assign (T 88) (Plain (Einsum [(n_v'xvv,[0;1;2]); (n_v'xvv,[0;3;4])] [1;3;4;2]));
  (*232*) AddTo (T 88) (Plain (Einsum [(n_t1,[0;1]); (T 87,[0;2;3;4])] [4;3;1;2]));
  (*233*) Del (T 87);
  (*234*) Assign (T 86) (Plain (Copy n_t2));
  (*235*) AddTo (T 86) (Plain (Einsum [(n_t1,[0;1]); (n_t1,[2;3])] [0;2;1;3]));
  (*236*) Assign (T 48) (Plain (Copy (T 45)));
  (*237*) Del (T 45);
  (*238*) AddTo (T 48) (Plain (Copy (T 47)));
  (*239*) Del (T 47);
  (*240*) Assign (T 84) (Plain (Einsum [(n_t2,[0;1;2;3]); (n_f'oo,[4;1])] [4;0;2;3]));
  (*241*) Assign (T 44) (Plain (Copy (T 22)));
  (*242*) Del (T 22);
  (*243*) AddTo (T 44) (Times (Copy (T 24)) (-1) 1);
  (*244*) Del (T 24);
  (*245*) AddTo (T 44) (Times (Copy (T 26)) (-1) 1);
  (*246*) Del (T 26);
  (*247*) AddTo (T 44) (Plain (Transpose (T 29) [0;1;3;2]));
  (*248*) Del (T 29);
  (*249*) AddTo (T 44) (Plain (Transpose (T 41) [0;1;3;2]));
  (*250*) Del (T 41);
  (*251*) AddTo (T 44) (Times (Transpose (T 43) [0;1;3;2]) (-1) 1);
  (*252*) Del (T 43);
  (*253*) Assign (T 76) (Plain (Copy (T 70)));
  (*254*) Del (T 70);
  (*255*) AddTo (T 76) (Times (Copy (T 71)) (2) 1);
  (*256*) Del (T 71);
  (*257*) AddTo (T 76) (Plain (Transpose (T 73) [1;0;3;2]));
  (*258*) Del (T 73);
  (*259*) AddTo (T 76) (Plain (Transpose (T 75) [1;0;3;2]));
  (*260*) Del (T 75);
  (*261*) Assign (T 83) (Plain (Copy (T 78)));
  (*262*) Del (T 78);
  (*263*) AddTo (T 83) (Plain (Copy (T 80)));
  (*264*) Del (T 80);
  (*265*) AddTo (T 83) (Times (Copy (T 82)) (-1) 1);
  (*266*) Del (T 82);
  (*267*) Assign (T 9) (Times (Copy (T 7)) (1) 2);
  (*268*) Del (T 7);
  (*269*) AddTo (T 9) (Times (Einsum [(T 1,[0]); (n_t1,[1;2])] [1;2;0]) (-1) 1);
  (*270*) Del (T 1);
  (*271*) AddTo (T 9) (Plain (Einsum [(n_v'xov,[0;1;2]); (T 8,[1;3;4;2])] [3;4;0]));
  (*272*) Del (T 8);
  (*273*) Assign (T 17) (Times (Copy n_f'oo) (1) 2);
  (*274*) AddTo (T 17) (Plain (Transpose (T 13) [1;0]));
  (*275*) Del (T 13);
  (*276*) AddTo (T 17) (Times (Einsum [(T 15,[0;1;2]); (n_v'xov,[2;3;1])] [3;0]) (1) 2);
  (*277*) Del (T 15);
  (*278*) AddTo (T 17) (Times (Einsum [(T 16,[0;1]); (n_t1,[2;1])] [0;2]) (1) 2);
  (*279*) Del (T 16);
  (*280*) Assign (T 11) (Plain (Copy n_f'ov));
  (*281*) AddTo (T 11) (Times (Copy (T 2)) (2) 1);
  (*282*) AddTo (T 11) (Times (Copy (T 10)) (-1) 1);
  (*283*) Del (T 10);
  (*284*) Assign (T 5) (Plain (Einsum [(n_v'xov,[0;1;2]); (T 4,[3;4;0])] [4;1;3;2]));
  (*285*) Del (T 4);
  (*286*) Assign n_t2new (Plain (Einsum [(T 18,[0;1;2]); (T 18,[3;4;2])] [3;0;4;1]));
  (*287*) Del (T 18);
  (*288*) AddTo n_t2new (Plain (Einsum [(T 19,[0;1;2]); (T 19,[3;4;2])] [3;0;4;1]));
  (*289*) Del (T 19);
  (*290*) AddTo n_t2new (Times (Einsum [(T 20,[0;1;2]); (T 20,[3;4;2])] [3;0;4;1]) (4) 1);
  (*291*) Del (T 20);
  (*292*) AddTo n_t2new (Plain (Transpose (T 21) [1;0;3;2]));
  (*293*) Del (T 21);
  (*294*) AddTo n_t2new (Plain (Transpose (T 44) [0;1;3;2]));
  (*295*) AddTo n_t2new (Plain (Transpose (T 44) [1;0;2;3]));
  (*296*) Del (T 44);
  (*297*) AddTo n_t2new (Times (Copy (T 48)) (-1) 1);
  (*298*) AddTo n_t2new (Times (Transpose (T 48) [1;0;3;2]) (-1) 1);
  (*299*) Del (T 48);
  (*300*) AddTo n_t2new (Times (Copy (T 67)) (-1) 1);
  (*301*) AddTo n_t2new (Times (Transpose (T 67) [1;0;3;2]) (-1) 1);
  (*302*) Del (T 67);
  (*303*) AddTo n_t2new (Times (Copy (T 76)) (-1) 1);
  (*304*) AddTo n_t2new (Times (Transpose (T 76) [1;0;3;2]) (-1) 1);
  (*305*) Del (T 76);
  (*306*) AddTo n_t2new (Times (Transpose (T 83) [0;1;3;2]) (-1) 1);
  (*307*) AddTo n_t2new (Times (Transpose (T 83) [1;0;2;3]) (-1) 1);
  (*308*) Del (T 83);
  (*309*) AddTo n_t2new (Times (Transpose (T 84) [0;1;3;2]) (-1) 1);
  (*310*) AddTo n_t2new (Times (Transpose (T 84) [1;0;2;3]) (-1) 1);
  (*311*) Del (T 84);
  (*312*) AddTo n_t2new (Plain (Einsum [(T 86,[0;1;2;3]); (T 85,[0;4;1;5])] [4;5;3;2]));
  (*313*) Del (T 86);
  (*313*) Del (T 85);
  (*314*) AddTo n_t2new (Plain (Einsum [(T 88,[0;1;2;3]); (n_t2,[4;5;0;1])] [4;5;3;2]));
  (*315*) Del (T 88);
  (*316*) Assign n_t1new (Times (Copy (T 2)) (2) 1);
  (*317*) Del (T 2);
  (*318*) AddTo n_t1new (Plain (Einsum [(n_t1,[0;1]); (n_f'vv,[2;1])] [0;2]));
  (*319*) AddTo n_t1new (Plain (Copy n_f'ov));
  (*320*) AddTo n_t1new (Times (Einsum [(T 6,[0;1;2;3]); (T 5,[4;0;1;2])] [4;3]) (-1) 1);
  (*321*) Del (T 6);
  (*321*) Del (T 5);
  (*322*) AddTo n_t1new (Times (Einsum [(n_v'xvv,[0;1;2]); (T 9,[3;2;0])] [3;1]) (-2) 1);
  (*323*) Del (T 9);
  (*324*) AddTo n_t1new (Plain (Einsum [(T 12,[0;1;2;3]); (T 11,[0;2])] [1;3]));
  (*325*) Del (T 12);
  (*325*) Del (T 11);
  (*326*) AddTo n_t1new (Times (Einsum [(T 17,[0;1]); (n_t1,[0;2])] [1;2]) (-2) 1);
  (*327*) Del (T 17)]
 [(n_t1new,[0;1]); (n_t2new,[0;0;1;1])].

