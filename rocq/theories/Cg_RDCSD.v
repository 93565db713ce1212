(** Generated by tools/translate_codegen.py from ebcc/codegen/RDCSD.py; one statement per source line
    (the number in the comment before it). *)
From Coq Require Import ZArith List.
From Verif Require Import CgModel CgNames.
Import ListNotations.

(** ebcc/codegen/RDCSD.py:19-50 [energy] *)
Definition RDCSD_energy : prog := mkprog
 [(n_v'ovov,[0;1;0;1]); (n_f'ov,[0;1]); (n_t1,[0;1]); (n_t2,[0;0;1;1])]
 [(*40*) Assign (T 1) (Plain (Transpose n_v'ovov [0;2;3;1]));
  (*41*) AddTo (T 1) (Times (Transpose n_v'ovov [0;2;1;3]) (-1) 2);
  (*42*) Assign (T 2) (Plain (Copy n_f'ov));
  (*43*) AddTo (T 2) (Plain (Einsum [(n_t1,[0;1]); (T 1,[0;2;3;1])] [2;3]));
  (*44*) Del (T 1);
  (*45*) Assign n_e_cc (Times (Einsum [(n_t2,[0;1;2;3]); (n_v'ovov,[0;2;1;3])] []) (2) 1);
  (*46*) AddTo n_e_cc (Times (Einsum [(n_t2,[0;1;2;3]); (n_v'ovov,[0;3;1;2])] []) (-1) 1);
  (*47*) AddTo n_e_cc (Times (Einsum [(n_t1,[0;1]); (T 2,[0;1])] []) (2) 1);
  (*48*) Del (T 2)]
 [(n_e_cc,[])].

(** ebcc/codegen/RDCSD.py:52-302 [update_amps] *)
Definition RDCSD_update_amps : prog := mkprog
 [(n_t1,[0;1]); (n_v'ovov,[0;1;0;1]); (n_t2,[0;0;1;1]); (n_v'ovvv,[0;1;1;1]); (n_v'ooov,[0;0;0;1]); (n_f'ov,[0;1]); (n_v'oovv,[0;0;1;1]); (n_f'oo,[0;0]); (n_v'oooo,[0;0;0;0]); (n_f'vv,[1;1]); (n_v'vvvv,[1;1;1;1]); (n_v'ovoo,[0;1;0;0])]
 [(*75*) Assign (T 2) (Plain (Einsum [(n_t1,[0;1]); (n_v'ovov,[2;3;4;1])] [0;2;4;3]));
  (*76*) Assign (T 4) (Times (Transpose n_v'ovov [0;2;3;1]) (2) 1);
  (*77*) AddTo (T 4) (Times (Transpose n_v'ovov [0;2;1;3]) (-1) 1);
  (*78*) Assign (T 45) (Times (Copy (T 2)) (2) 1);
  (*79*) AddTo (T 45) (Times (Transpose (T 2) [0;2;1;3]) (-1) 1);
  (*80*) Assign (T 32) (Plain (Einsum [(n_t1,[0;1]); (n_t1,[2;3])] [2;0;3;1]));
  (*81*) AddTo (T 32) (Times (Transpose n_t2 [0;1;3;2]) (-2) 1);
  (*82*) AddTo (T 32) (Plain (Copy n_t2));
  (*83*) Assign (T 5) (Plain (Einsum [(n_t1,[0;1]); (T 4,[0;2;3;1])] [2;3]));
  (*84*) Del (T 4);
  (*85*) Assign (T 40) (Times (Copy n_v'ovvv) (2) 1);
  (*86*) AddTo (T 40) (Times (Transpose n_v'ovvv [0;2;3;1]) (-1) 1);
  (*87*) Assign (T 44) (Plain (Einsum [(n_t2,[0;1;2;3]); (T 2,[4;1;5;2])] [4;0;5;3]));
  (*88*) Assign (T 46) (Plain (Einsum [(n_t2,[0;1;2;3]); (T 45,[4;1;5;3])] [4;5;0;2]));
  (*89*) Del (T 45);
  (*90*) Assign (T 43) (Plain (Einsum [(n_t2,[0;1;2;3]); (n_v'ooov,[4;1;5;2])] [0;4;5;3]));
  (*91*) Assign (T 49) (Times (Copy n_v'ooov) (2) 1);
  (*92*) AddTo (T 49) (Times (Transpose n_v'ooov [0;2;1;3]) (-1) 1);
  (*93*) Assign (T 66) (Plain (Einsum [(n_t1,[0;1]); (n_f'ov,[2;1])] [2;0]));
  (*94*) Assign (T 56) (Times (Transpose n_v'ovov [0;2;3;1]) (-1) 2);
  (*95*) AddTo (T 56) (Plain (Transpose n_v'ovov [0;2;1;3]));
  (*96*) Assign (T 33) (Plain (Einsum [(T 32,[0;1;2;3]); (n_v'ooov,[4;5;0;3])] [4;5;1;2]));
  (*97*) Del (T 32);
  (*98*) Assign (T 31) (Plain (Einsum [(n_t2,[0;1;2;3]); (T 2,[4;5;1;2])] [4;0;5;3]));
  (*99*) Assign (T 34) (Plain (Einsum [(n_t2,[0;1;2;3]); (T 5,[4;2])] [4;0;1;3]));
  (*100*) Assign (T 29) (Plain (Einsum [(n_t1,[0;1]); (n_v'oovv,[2;3;4;1])] [0;2;3;4]));
  (*101*) Assign (T 30) (Plain (Einsum [(n_v'ooov,[0;1;2;3]); (n_t2,[4;1;5;3])] [4;0;2;5]));
  (*102*) Assign (T 17) (Plain (Einsum [(n_t1,[0;1]); (T 2,[2;3;4;1])] [2;0;4;3]));
  (*103*) Assign (T 41) (Plain (Einsum [(n_t1,[0;1]); (T 40,[0;1;2;3])] [2;3]));
  (*104*) Del (T 40);
  (*105*) Assign (T 47) (Times (Copy (T 2)) (-1) 1);
  (*106*) AddTo (T 47) (Plain (Copy (T 43)));
  (*107*) Del (T 43);
  (*108*) AddTo (T 47) (Plain (Copy (T 44)));
  (*109*) Del (T 44);
  (*110*) AddTo (T 47) (Times (Transpose (T 46) [0;2;1;3]) (-1) 1);
  (*111*) Del (T 46);
  (*112*) Assign (T 50) (Plain (Einsum [(T 49,[0;1;2;3]); (n_t1,[2;3])] [0;1]));
  (*113*) Del (T 49);
  (*114*) Assign (T 64) (Plain (Einsum [(n_t2,[0;1;2;3]); (n_f'ov,[4;3])] [4;0;1;2]));
  (*115*) Assign (T 67) (Plain (Copy n_f'oo));
  (*116*) AddTo (T 67) (Plain (Copy (T 66)));
  (*117*) Del (T 66);
  (*118*) Assign (T 18) (Plain (Einsum [(n_t2,[0;1;2;3]); (n_v'ovov,[4;5;1;2])] [0;4;3;5]));
  (*119*) Assign (T 57) (Plain (Einsum [(T 56,[0;1;2;3]); (n_t2,[0;1;4;3])] [2;4]));
  (*120*) Assign (T 59) (Times (Einsum [(n_t2,[0;1;2;3]); (T 56,[1;4;3;2])] [4;0]) (2) 1);
  (*121*) Del (T 56);
  (*122*) Assign (T 53) (Plain (Einsum [(n_v'ovvv,[0;1;2;3]); (n_t2,[4;5;1;3])] [4;5;0;2]));
  (*123*) Assign (T 37) (Plain (Einsum [(T 5,[0;1]); (n_t1,[2;1])] [0;2]));
  (*124*) Assign (T 35) (Times (Transpose (T 29) [0;2;1;3]) (-1) 1);
  (*125*) Del (T 29);
  (*126*) AddTo (T 35) (Plain (Transpose (T 30) [0;2;1;3]));
  (*127*) Del (T 30);
  (*128*) AddTo (T 35) (Plain (Transpose (T 31) [0;2;1;3]));
  (*129*) Del (T 31);
  (*130*) AddTo (T 35) (Plain (Transpose (T 33) [2;1;0;3]));
  (*131*) Del (T 33);
  (*132*) AddTo (T 35) (Times (Transpose (T 34) [2;0;1;3]) (-1) 1);
  (*133*) Del (T 34);
  (*134*) Assign (T 27) (Times (Transpose n_t2 [0;1;3;2]) (-1) 1);
  (*135*) AddTo (T 27) (Times (Copy n_t2) (2) 1);
  (*136*) Assign (T 24) (Plain (Einsum [(n_t1,[0;1]); (n_v'ovvv,[2;3;4;1])] [0;2;3;4]));
  (*137*) Assign (T 20) (Plain (Einsum [(n_t1,[0;1]); (n_v'ovvv,[2;1;3;4])] [0;2;3;4]));
  (*138*) Assign (T 13) (Plain (Transpose n_v'ovov [0;2;3;1]));
  (*139*) AddTo (T 13) (Times (Transpose n_v'ovov [0;2;1;3]) (-1) 2);
  (*140*) Assign (T 70) (Plain (Copy n_v'oooo));
  (*141*) AddTo (T 70) (Plain (Einsum [(n_v'ovov,[0;1;2;3]); (n_t2,[4;5;1;3])] [0;4;5;2]));
  (*142*) AddTo (T 70) (Plain (Transpose (T 17) [3;1;0;2]));
  (*143*) Assign (T 42) (Plain (Einsum [(T 41,[0;1]); (n_t2,[2;3;1;4])] [2;3;0;4]));
  (*144*) Del (T 41);
  (*145*) Assign (T 48) (Plain (Einsum [(T 47,[0;1;2;3]); (n_t1,[2;4])] [0;1;3;4]));
  (*146*) Del (T 47);
  (*147*) Assign (T 51) (Plain (Einsum [(T 50,[0;1]); (n_t2,[2;1;3;4])] [0;2;4;3]));
  (*148*) Del (T 50);
  (*149*) Assign (T 65) (Plain (Einsum [(n_t1,[0;1]); (T 64,[0;2;3;4])] [2;3;1;4]));
  (*150*) Del (T 64);
  (*151*) Assign (T 68) (Plain (Einsum [(n_t2,[0;1;2;3]); (T 67,[1;4])] [4;0;3;2]));
  (*152*) Del (T 67);
  (*153*) Assign (T 55) (Plain (Einsum [(T 18,[0;1;2;3]); (n_t2,[4;1;5;3])] [4;0;5;2]));
  (*154*) Assign (T 58) (Plain (Einsum [(T 57,[0;1]); (n_t2,[2;3;0;4])] [2;3;1;4]));
  (*155*) Del (T 57);
  (*156*) Assign (T 60) (Times (Einsum [(n_t2,[0;1;2;3]); (T 59,[1;4])] [4;0;3;2]) (1) 2);
  (*157*) Del (T 59);
  (*158*) Assign (T 54) (Plain (Einsum [(n_t1,[0;1]); (T 53,[2;3;0;4])] [2;3;1;4]));
  (*159*) Del (T 53);
  (*160*) Assign (T 19) (Plain (Einsum [(n_v'ovov,[0;1;2;3]); (n_t2,[4;2;5;3])] [4;0;5;1]));
  (*161*) Assign (T 62) (Plain (Einsum [(n_v'ooov,[0;1;2;3]); (n_t1,[4;3])] [4;0;1;2]));
  (*162*) Assign (T 38) (Plain (Einsum [(T 37,[0;1]); (n_t2,[2;0;3;4])] [1;2;4;3]));
  (*163*) Del (T 37);
  (*164*) Assign (T 36) (Plain (Einsum [(T 35,[0;1;2;3]); (n_t1,[1;4])] [0;2;3;4]));
  (*165*) Del (T 35);
  (*166*) Assign (T 28) (Plain (Einsum [(T 24,[0;1;2;3]); (T 27,[1;4;2;5])] [4;0;5;3]));
  (*167*) Del (T 27);
  (*168*) Assign (T 23) (Plain (Einsum [(n_f'vv,[0;1]); (n_t2,[2;3;4;1])] [2;3;0;4]));
  (*169*) Assign (T 26) (Plain (Einsum [(n_t2,[0;1;2;3]); (T 20,[4;1;5;3])] [4;0;2;5]));
  (*170*) Assign (T 25) (Plain (Einsum [(n_v'oovv,[0;1;2;3]); (n_t2,[4;1;3;5])] [4;0;5;2]));
  (*171*) Assign (T 21) (Plain (Copy n_t2));
  (*172*) AddTo (T 21) (Plain (Einsum [(n_t1,[0;1]); (n_t1,[2;3])] [2;0;3;1]));
  (*173*) Assign (T 9) (Plain (Copy n_v'ovvv));
  (*174*) AddTo (T 9) (Times (Transpose n_v'ovvv [0;2;3;1]) (-1) 2);
  (*175*) Assign (T 11) (Times (Transpose n_v'ovov [0;2;3;1]) (2) 1);
  (*176*) AddTo (T 11) (Times (Transpose n_v'ovov [0;2;1;3]) (-1) 1);
  (*177*) Assign (T 14) (Times (Copy n_f'ov) (1) 2);
  (*178*) AddTo (T 14) (Plain (Einsum [(n_t1,[0;1]); (T 13,[0;2;3;1])] [2;3]));
  (*179*) Del (T 13);
  (*180*) Assign (T 12) (Plain (Copy n_v'ooov));
  (*181*) AddTo (T 12) (Times (Transpose n_v'ooov [0;2;1;3]) (-1) 2);
  (*182*) Assign (T 16) (Plain (Einsum [(n_t1,[0;1]); (n_v'vvvv,[2;3;4;1])] [0;2;3;4]));
  (*183*) Assign (T 71) (Times (Transpose n_v'ooov [0;2;1;3]) (-1) 1);
  (*184*) AddTo (T 71) (Plain (Einsum [(T 70,[0;1;2;3]); (n_t1,[0;4])] [2;1;3;4]));
  (*185*) Del (T 70);
  (*186*) Assign (T 52) (Plain (Transpose (T 42) [1;0;3;2]));
  (*187*) Del (T 42);
  (*188*) AddTo (T 52) (Plain (Transpose (T 48) [0;1;3;2]));
  (*189*) Del (T 48);
  (*190*) AddTo (T 52) (Times (Transpose (T 51) [1;0;3;2]) (-1) 1);
  (*191*) Del (T 51);
  (*192*) Assign (T 72) (Times (Transpose n_v'ovov [0;2;1;3]) (-1) 1);
  (*193*) AddTo (T 72) (Plain (Copy (T 18)));
  (*194*) Assign (T 69) (Plain (Copy (T 65)));
  (*195*) Del (T 65);
  (*196*) AddTo (T 69) (Plain (Transpose (T 68) [0;1;3;2]));
  (*197*) Del (T 68);
  (*198*) Assign (T 61) (Plain (Copy (T 54)));
  (*199*) Del (T 54);
  (*200*) AddTo (T 61) (Times (Copy (T 55)) (2) 1);
  (*201*) Del (T 55);
  (*202*) AddTo (T 61) (Plain (Transpose (T 58) [1;0;3;2]));
  (*203*) Del (T 58);
  (*204*) AddTo (T 61) (Plain (Transpose (T 60) [1;0;3;2]));
  (*205*) Del (T 60);
  (*206*) Assign (T 73) (Times (Transpose n_v'ovov [0;2;1;3]) (1) 2);
  (*207*) AddTo (T 73) (Times (Copy n_v'oovv) (-1) 4);
  (*208*) AddTo (T 73) (Plain (Copy (T 19)));
  (*209*) Assign (T 63) (Plain (Einsum [(n_t2,[0;1;2;3]); (T 62,[4;5;0;1])] [4;5;2;3]));
  (*210*) Del (T 62);
  (*211*) Assign (T 39) (Plain (Copy (T 23)));
  (*212*) Del (T 23);
  (*213*) AddTo (T 39) (Plain (Copy (T 24)));
  (*214*) Del (T 24);
  (*215*) AddTo (T 39) (Times (Copy (T 25)) (-1) 1);
  (*216*) Del (T 25);
  (*217*) AddTo (T 39) (Times (Copy (T 26)) (-1) 1);
  (*218*) Del (T 26);
  (*219*) AddTo (T 39) (Plain (Transpose (T 28) [1;0;2;3]));
  (*220*) Del (T 28);
  (*221*) AddTo (T 39) (Plain (Transpose (T 36) [0;1;3;2]));
  (*222*) Del (T 36);
  (*223*) AddTo (T 39) (Times (Transpose (T 38) [0;1;3;2]) (-1) 1);
  (*224*) Del (T 38);
  (*225*) Assign (T 22) (Plain (Einsum [(T 21,[0;1;2;3]); (T 20,[4;0;3;5])] [4;1;5;2]));
  (*226*) Del (T 20);
  (*226*) Del (T 21);
  (*227*) Assign (T 10) (Plain (Copy n_f'vv));
  (*228*) AddTo (T 10) (Times (Einsum [(n_t1,[0;1]); (T 9,[0;1;2;3])] [3;2]) (2) 1);
  (*229*) Del (T 9);
  (*230*) Assign (T 1) (Times (Copy n_v'ovvv) (-1) 2);
  (*231*) AddTo (T 1) (Plain (Transpose n_v'ovvv [0;2;1;3]));
  (*232*) Assign (T 7) (Times (Transpose n_t2 [0;1;3;2]) (2) 1);
  (*233*) AddTo (T 7) (Times (Copy n_t2) (-1) 1);
  (*234*) Assign (T 8) (Times (Transpose n_v'ovov [0;2;1;3]) (2) 1);
  (*235*) AddTo (T 8) (Times (Copy n_v'oovv) (-1) 1);
  (*236*) Assign (T 6) (Plain (Copy n_f'ov));
  (*237*) AddTo (T 6) (Plain (Copy (T 5)));
  (*238*) Del (T 5);
  (*239*) Assign (T 15) (Plain (Copy n_f'oo));
  (*240*) AddTo (T 15) (Plain (Einsum [(T 11,[0;1;2;3]); (n_t2,[4;0;2;3])] [1;4]));
  (*241*) Del (T 11);
  (*242*) AddTo (T 15) (Times (Einsum [(n_t1,[0;1]); (T 12,[2;3;0;1])] [3;2]) (2) 1);
  (*243*) Del (T 12);
  (*244*) AddTo (T 15) (Times (Einsum [(T 14,[0;1]); (n_t1,[2;1])] [0;2]) (2) 1);
  (*245*) Del (T 14);
  (*246*) Assign (T 3) (Plain (Copy n_v'ooov));
  (*247*) AddTo (T 3) (Times (Transpose n_v'ooov [0;2;1;3]) (-1) 2);
  (*248*) AddTo (T 3) (Times (Copy (T 2)) (-1) 2);
  (*249*) AddTo (T 3) (Plain (Transpose (T 2) [0;2;1;3]));
  (*250*) Del (T 2);
  (*251*) Assign n_t2new (Plain (Einsum [(n_t2,[0;1;2;3]); (n_v'vvvv,[4;2;5;3])] [0;1;4;5]));
  (*252*) AddTo n_t2new (Plain (Einsum [(n_t1,[0;1]); (T 16,[2;3;1;4])] [0;2;3;4]));
  (*253*) Del (T 16);
  (*254*) AddTo n_t2new (Plain (Transpose n_v'ovov [0;2;1;3]));
  (*255*) AddTo n_t2new (Plain (Einsum [(n_t2,[0;1;2;3]); (n_v'oooo,[4;1;5;0])] [4;5;3;2]));
  (*256*) AddTo n_t2new (Plain (Einsum [(n_t2,[0;1;2;3]); (T 17,[4;5;1;0])] [5;4;2;3]));
  (*257*) Del (T 17);
  (*258*) AddTo n_t2new (Times (Einsum [(n_t2,[0;1;2;3]); (n_v'oovv,[4;1;5;3])] [4;0;5;2]) (-1) 1);
  (*259*) AddTo n_t2new (Times (Copy (T 18)) (-1) 1);
  (*260*) Del (T 18);
  (*261*) AddTo n_t2new (Times (Transpose (T 19) [1;0;3;2]) (2) 1);
  (*262*) Del (T 19);
  (*263*) AddTo n_t2new (Times (Einsum [(n_v'ovoo,[0;1;2;3]); (n_t1,[3;4])] [0;2;1;4]) (-1) 1);
  (*264*) AddTo n_t2new (Times (Transpose (T 22) [0;1;3;2]) (-1) 1);
  (*265*) AddTo n_t2new (Times (Transpose (T 22) [1;0;2;3]) (-1) 1);
  (*266*) Del (T 22);
  (*267*) AddTo n_t2new (Plain (Transpose (T 39) [0;1;3;2]));
  (*268*) AddTo n_t2new (Plain (Transpose (T 39) [1;0;2;3]));
  (*269*) Del (T 39);
  (*270*) AddTo n_t2new (Plain (Copy (T 52)));
  (*271*) AddTo n_t2new (Plain (Transpose (T 52) [1;0;3;2]));
  (*272*) Del (T 52);
  (*273*) AddTo n_t2new (Times (Copy (T 61)) (-1) 1);
  (*274*) AddTo n_t2new (Times (Transpose (T 61) [1;0;3;2]) (-1) 1);
  (*275*) Del (T 61);
  (*276*) AddTo n_t2new (Plain (Transpose (T 63) [0;1;3;2]));
  (*277*) AddTo n_t2new (Plain (Transpose (T 63) [1;0;2;3]));
  (*278*) Del (T 63);
  (*279*) AddTo n_t2new (Times (Transpose (T 69) [0;1;3;2]) (-1) 1);
  (*280*) AddTo n_t2new (Times (Transpose (T 69) [1;0;2;3]) (-1) 1);
  (*281*) Del (T 69);
  (*282*) AddTo n_t2new (Plain (Einsum [(n_t1,[0;1]); (T 71,[2;3;0;4])] [2;3;1;4]));
  (*283*) Del (T 71);
  (*284*) AddTo n_t2new (Plain (Einsum [(n_t2,[0;1;2;3]); (T 72,[4;1;5;2])] [4;0;5;3]));
  (*285*) Del (T 72);
  (*286*) AddTo n_t2new (Times (Einsum [(T 73,[0;1;2;3]); (n_t2,[4;1;5;3])] [4;0;5;2]) (4) 1);
  (*287*) Del (T 73);
  (*288*) Assign n_t1new (Plain (Copy n_f'ov));
  (*289*) AddTo n_t1new (Times (Einsum [(T 1,[0;1;2;3]); (n_t2,[4;0;1;2])] [4;3]) (2) 1);
  (*290*) Del (T 1);
  (*291*) AddTo n_t1new (Times (Einsum [(T 3,[0;1;2;3]); (n_t2,[1;2;4;3])] [0;4]) (-2) 1);
  (*292*) Del (T 3);
  (*293*) AddTo n_t1new (Plain (Einsum [(T 6,[0;1]); (T 7,[0;2;3;1])] [2;3]));
  (*294*) Del (T 6);
  (*294*) Del (T 7);
  (*295*) AddTo n_t1new (Plain (Einsum [(n_t1,[0;1]); (T 8,[0;2;1;3])] [2;3]));
  (*296*) Del (T 8);
  (*297*) AddTo n_t1new (Plain (Einsum [(n_t1,[0;1]); (T 10,[1;2])] [0;2]));
  (*298*) Del (T 10);
  (*299*) AddTo n_t1new (Times (Einsum [(n_t1,[0;1]); (T 15,[0;2])] [2;1]) (-1) 1);
  (*300*) Del (T 15)]
 [(n_t1new,[0;1]); (n_t2new,[0;0;1;1])].

