(** Generated by tools/translate_codegen.py from ebcc/codegen/RCCSD.py; one statement per source line
    (the number in the comment before it). *)
From Coq Require Import ZArith List.
From Verif Require Import CgModel CgNames.
Import ListNotations.

(** ebcc/codegen/RCCSD.py:19-50 [energy] *)
Definition RCCSD_energy : prog := mkprog
 [(n_v'ovov,[0;1;0;1]); (n_f'ov,[0;1]); (n_t1,[0;1]); (n_t2,[0;0;1;1])]
 [(*40*) Assign (T 1) (Times (Transpose n_v'ovov [0;2;3;1]) (-1) 2);
  (*41*) AddTo (T 1) (Plain (Transpose n_v'ovov [0;2;1;3]));
  (*42*) Assign (T 2) (Plain (Copy n_f'ov));
  (*43*) AddTo (T 2) (Plain (Einsum [(n_t1,[0;1]); (T 1,[0;2;1;3])] [2;3]));
  (*44*) Del (T 1);
  (*45*) Assign n_e_cc (Times (Einsum [(n_v'ovov,[0;1;2;3]); (n_t2,[0;2;1;3])] []) (2) 1);
  (*46*) AddTo n_e_cc (Times (Einsum [(n_v'ovov,[0;1;2;3]); (n_t2,[0;2;3;1])] []) (-1) 1);
  (*47*) AddTo n_e_cc (Times (Einsum [(n_t1,[0;1]); (T 2,[0;1])] []) (2) 1);
  (*48*) Del (T 2)]
 [(n_e_cc,[])].

(** ebcc/codegen/RCCSD.py:52-298 [update_amps] *)
Definition RCCSD_update_amps : prog := mkprog
 [(n_t1,[0;1]); (n_v'ovov,[0;1;0;1]); (n_t2,[0;0;1;1]); (n_f'ov,[0;1]); (n_v'ooov,[0;0;0;1]); (n_v'ovoo,[0;1;0;0]); (n_v'ovvv,[0;1;1;1]); (n_v'oovv,[0;0;1;1]); (n_f'oo,[0;0]); (n_f'vv,[1;1]); (n_v'vvvv,[1;1;1;1]); (n_v'oooo,[0;0;0;0])]
 [(*75*) Assign (T 3) (Plain (Einsum [(n_t1,[0;1]); (n_v'ovov,[2;3;4;1])] [0;2;4;3]));
  (*76*) Assign (T 5) (Times (Transpose n_v'ovov [0;2;3;1]) (-1) 1);
  (*77*) AddTo (T 5) (Times (Transpose n_v'ovov [0;2;1;3]) (2) 1);
  (*78*) Assign (T 44) (Times (Copy (T 3)) (-1) 1);
  (*79*) AddTo (T 44) (Times (Transpose (T 3) [0;2;1;3]) (2) 1);
  (*80*) Assign (T 6) (Plain (Einsum [(n_t1,[0;1]); (T 5,[0;2;1;3])] [2;3]));
  (*81*) Assign (T 26) (Plain (Einsum [(n_t1,[0;1]); (n_t1,[2;3])] [2;0;3;1]));
  (*82*) AddTo (T 26) (Times (Transpose n_t2 [0;1;3;2]) (-2) 1);
  (*83*) AddTo (T 26) (Plain (Copy n_t2));
  (*84*) Assign (T 10) (Plain (Einsum [(n_t1,[0;1]); (n_f'ov,[2;1])] [2;0]));
  (*85*) Assign (T 43) (Plain (Einsum [(n_v'ooov,[0;1;2;3]); (n_t2,[4;1;3;5])] [4;0;2;5]));
  (*86*) Assign (T 45) (Plain (Einsum [(n_t2,[0;1;2;3]); (T 44,[4;5;1;3])] [4;5;0;2]));
  (*87*) Del (T 44);
  (*88*) Assign (T 48) (Times (Copy n_v'ooov) (-1) 1);
  (*89*) AddTo (T 48) (Times (Transpose n_v'ovoo [0;2;3;1]) (2) 1);
  (*90*) Assign (T 37) (Plain (Einsum [(T 5,[0;1;2;3]); (n_t2,[4;0;5;2])] [1;4;3;5]));
  (*91*) Del (T 5);
  (*92*) Assign (T 36) (Plain (Einsum [(n_t1,[0;1]); (T 3,[2;3;0;4])] [2;3;1;4]));
  (*93*) Assign (T 40) (Times (Copy n_v'ovvv) (-1) 1);
  (*94*) AddTo (T 40) (Times (Transpose n_v'ovvv [0;2;1;3]) (2) 1);
  (*95*) Assign (T 23) (Plain (Einsum [(n_t1,[0;1]); (n_v'oovv,[2;3;4;1])] [0;2;3;4]));
  (*96*) Assign (T 28) (Plain (Einsum [(T 6,[0;1]); (n_t2,[2;3;1;4])] [0;2;3;4]));
  (*97*) Assign (T 27) (Plain (Einsum [(n_v'ooov,[0;1;2;3]); (T 26,[2;4;5;3])] [0;1;4;5]));
  (*98*) Del (T 26);
  (*99*) Assign (T 24) (Plain (Einsum [(n_t2,[0;1;2;3]); (n_v'ooov,[4;1;5;3])] [0;4;5;2]));
  (*100*) Assign (T 25) (Plain (Einsum [(n_t2,[0;1;2;3]); (T 3,[4;5;1;2])] [4;0;5;3]));
  (*101*) Assign (T 57) (Plain (Transpose n_v'ovov [0;2;3;1]));
  (*102*) AddTo (T 57) (Times (Transpose n_v'ovov [0;2;1;3]) (-1) 2);
  (*103*) Assign (T 54) (Times (Transpose n_v'ovov [0;2;3;1]) (-1) 2);
  (*104*) AddTo (T 54) (Plain (Transpose n_v'ovov [0;2;1;3]));
  (*105*) Assign (T 61) (Plain (Einsum [(n_f'ov,[0;1]); (n_t2,[2;3;4;1])] [0;2;3;4]));
  (*106*) Assign (T 63) (Plain (Copy n_f'oo));
  (*107*) AddTo (T 63) (Plain (Copy (T 10)));
  (*108*) Assign (T 46) (Plain (Copy (T 3)));
  (*109*) AddTo (T 46) (Times (Copy (T 43)) (-1) 1);
  (*110*) Del (T 43);
  (*111*) AddTo (T 46) (Plain (Transpose (T 45) [0;2;1;3]));
  (*112*) Del (T 45);
  (*113*) Assign (T 49) (Plain (Einsum [(T 48,[0;1;2;3]); (n_t1,[0;3])] [1;2]));
  (*114*) Del (T 48);
  (*115*) Assign (T 38) (Plain (Copy (T 36)));
  (*116*) Del (T 36);
  (*117*) AddTo (T 38) (Times (Transpose (T 37) [1;0;3;2]) (-1) 1);
  (*118*) Assign (T 41) (Plain (Einsum [(T 40,[0;1;2;3]); (n_t1,[0;2])] [1;3]));
  (*119*) Del (T 40);
  (*120*) Assign (T 29) (Times (Transpose (T 23) [0;2;1;3]) (-1) 1);
  (*121*) Del (T 23);
  (*122*) AddTo (T 29) (Plain (Transpose (T 24) [0;2;1;3]));
  (*123*) Del (T 24);
  (*124*) AddTo (T 29) (Plain (Transpose (T 25) [0;2;1;3]));
  (*125*) Del (T 25);
  (*126*) AddTo (T 29) (Plain (Transpose (T 27) [2;1;0;3]));
  (*127*) Del (T 27);
  (*128*) AddTo (T 29) (Times (Transpose (T 28) [2;0;1;3]) (-1) 1);
  (*129*) Del (T 28);
  (*130*) Assign (T 21) (Times (Transpose n_t2 [0;1;3;2]) (2) 1);
  (*131*) AddTo (T 21) (Times (Copy n_t2) (-1) 1);
  (*132*) Assign (T 18) (Plain (Einsum [(n_t1,[0;1]); (n_v'ovvv,[2;3;4;1])] [0;2;3;4]));
  (*133*) Assign (T 31) (Plain (Einsum [(n_t1,[0;1]); (T 6,[2;1])] [2;0]));
  (*134*) Assign (T 19) (Plain (Einsum [(n_t1,[0;1]); (n_v'ovvv,[2;1;3;4])] [0;2;3;4]));
  (*135*) Assign (T 58) (Times (Einsum [(T 57,[0;1;2;3]); (n_t2,[4;0;2;3])] [1;4]) (2) 1);
  (*136*) Del (T 57);
  (*137*) Assign (T 55) (Plain (Einsum [(T 54,[0;1;2;3]); (n_t2,[0;1;2;4])] [3;4]));
  (*138*) Del (T 54);
  (*139*) Assign (T 52) (Plain (Einsum [(n_t2,[0;1;2;3]); (n_v'ovvv,[4;2;5;3])] [0;1;4;5]));
  (*140*) Assign (T 66) (Plain (Einsum [(n_t1,[0;1]); (n_v'ooov,[2;3;4;1])] [0;2;3;4]));
  (*141*) Assign (T 62) (Plain (Einsum [(n_t1,[0;1]); (T 61,[0;2;3;4])] [2;3;1;4]));
  (*142*) Del (T 61);
  (*143*) Assign (T 64) (Plain (Einsum [(n_t2,[0;1;2;3]); (T 63,[1;4])] [4;0;3;2]));
  (*144*) Del (T 63);
  (*145*) Assign (T 47) (Plain (Einsum [(n_t1,[0;1]); (T 46,[2;3;0;4])] [2;3;4;1]));
  (*146*) Del (T 46);
  (*147*) Assign (T 50) (Plain (Einsum [(n_t2,[0;1;2;3]); (T 49,[4;1])] [4;0;3;2]));
  (*148*) Del (T 49);
  (*149*) Assign (T 39) (Plain (Einsum [(T 38,[0;1;2;3]); (n_t2,[4;1;3;5])] [0;4;2;5]));
  (*150*) Del (T 38);
  (*151*) Assign (T 42) (Plain (Einsum [(T 41,[0;1]); (n_t2,[2;3;0;4])] [2;3;1;4]));
  (*152*) Del (T 41);
  (*153*) Assign (T 17) (Plain (Einsum [(n_t2,[0;1;2;3]); (n_f'vv,[4;3])] [0;1;4;2]));
  (*154*) Assign (T 30) (Plain (Einsum [(n_t1,[0;1]); (T 29,[2;0;3;4])] [2;3;4;1]));
  (*155*) Del (T 29);
  (*156*) Assign (T 22) (Plain (Einsum [(T 21,[0;1;2;3]); (T 18,[4;0;3;5])] [1;4;2;5]));
  (*157*) Del (T 21);
  (*158*) Assign (T 32) (Plain (Einsum [(n_t2,[0;1;2;3]); (T 31,[1;4])] [4;0;3;2]));
  (*159*) Del (T 31);
  (*160*) Assign (T 20) (Plain (Einsum [(n_t2,[0;1;2;3]); (T 19,[4;1;5;3])] [4;0;2;5]));
  (*161*) Assign (T 15) (Plain (Einsum [(n_t1,[0;1]); (T 3,[2;3;4;1])] [2;0;4;3]));
  (*162*) Assign (T 34) (Plain (Copy n_t2));
  (*163*) AddTo (T 34) (Plain (Einsum [(n_t1,[0;1]); (n_t1,[2;3])] [2;0;3;1]));
  (*164*) Assign (T 16) (Plain (Einsum [(n_t2,[0;1;2;3]); (n_v'ovov,[4;5;1;2])] [0;4;3;5]));
  (*165*) Assign (T 59) (Plain (Einsum [(T 58,[0;1]); (n_t2,[2;0;3;4])] [1;2;4;3]));
  (*166*) Del (T 58);
  (*167*) Assign (T 56) (Times (Einsum [(T 55,[0;1]); (n_t2,[2;3;0;4])] [2;3;1;4]) (2) 1);
  (*168*) Del (T 55);
  (*169*) Assign (T 53) (Plain (Einsum [(T 52,[0;1;2;3]); (n_t1,[2;4])] [0;1;4;3]));
  (*170*) Del (T 52);
  (*171*) Assign (T 12) (Times (Copy n_v'ooov) (-1) 2);
  (*172*) AddTo (T 12) (Plain (Transpose n_v'ovoo [0;2;3;1]));
  (*173*) Assign (T 11) (Times (Transpose n_v'ovov [0;2;3;1]) (-1) 1);
  (*174*) AddTo (T 11) (Times (Transpose n_v'ovov [0;2;1;3]) (2) 1);
  (*175*) Assign (T 1) (Plain (Copy n_t2));
  (*176*) AddTo (T 1) (Plain (Einsum [(n_t1,[0;1]); (n_t1,[2;3])] [2;0;3;1]));
  (*177*) Assign (T 67) (Plain (Einsum [(n_t2,[0;1;2;3]); (T 66,[4;5;1;0])] [4;5;3;2]));
  (*178*) Del (T 66);
  (*179*) Assign (T 65) (Plain (Copy (T 62)));
  (*180*) Del (T 62);
  (*181*) AddTo (T 65) (Plain (Transpose (T 64) [0;1;3;2]));
  (*182*) Del (T 64);
  (*183*) Assign (T 14) (Plain (Einsum [(n_t1,[0;1]); (n_v'vvvv,[2;3;4;1])] [0;2;3;4]));
  (*184*) Assign (T 51) (Plain (Copy (T 39)));
  (*185*) Del (T 39);
  (*186*) AddTo (T 51) (Plain (Transpose (T 42) [1;0;3;2]));
  (*187*) Del (T 42);
  (*188*) AddTo (T 51) (Times (Transpose (T 47) [0;1;3;2]) (-1) 1);
  (*189*) Del (T 47);
  (*190*) AddTo (T 51) (Times (Transpose (T 50) [1;0;3;2]) (-1) 1);
  (*191*) Del (T 50);
  (*192*) Assign (T 68) (Times (Transpose n_v'ovov [0;2;1;3]) (2) 1);
  (*193*) AddTo (T 68) (Times (Copy n_v'oovv) (-1) 1);
  (*194*) AddTo (T 68) (Times (Transpose (T 37) [1;0;3;2]) (2) 1);
  (*195*) Del (T 37);
  (*196*) Assign (T 33) (Plain (Copy (T 17)));
  (*197*) Del (T 17);
  (*198*) AddTo (T 33) (Plain (Copy (T 18)));
  (*199*) Del (T 18);
  (*200*) AddTo (T 33) (Times (Copy (T 20)) (-1) 1);
  (*201*) Del (T 20);
  (*202*) AddTo (T 33) (Plain (Transpose (T 22) [1;0;2;3]));
  (*203*) Del (T 22);
  (*204*) AddTo (T 33) (Plain (Transpose (T 30) [0;1;3;2]));
  (*205*) Del (T 30);
  (*206*) AddTo (T 33) (Times (Transpose (T 32) [0;1;3;2]) (-1) 1);
  (*207*) Del (T 32);
  (*208*) Assign (T 70) (Times (Transpose n_v'ooov [0;2;1;3]) (-1) 1);
  (*209*) AddTo (T 70) (Plain (Einsum [(T 15,[0;1;2;3]); (n_t1,[2;4])] [1;0;3;4]));
  (*210*) Assign (T 71) (Times (Copy n_v'oovv) (-1) 1);
  (*211*) AddTo (T 71) (Plain (Einsum [(n_t2,[0;1;2;3]); (n_v'ovov,[4;2;1;5])] [0;4;3;5]));
  (*212*) Assign (T 35) (Plain (Einsum [(T 19,[0;1;2;3]); (T 34,[1;4;5;2])] [0;4;3;5]));
  (*213*) Del (T 19);
  (*213*) Del (T 34);
  (*214*) Assign (T 69) (Plain (Copy n_v'oooo));
  (*215*) AddTo (T 69) (Plain (Einsum [(n_t2,[0;1;2;3]); (n_v'ovov,[4;2;5;3])] [4;0;1;5]));
  (*216*) Assign (T 72) (Times (Transpose n_v'ovov [0;2;1;3]) (-1) 1);
  (*217*) AddTo (T 72) (Plain (Copy (T 16)));
  (*218*) Assign (T 60) (Plain (Copy (T 53)));
  (*219*) Del (T 53);
  (*220*) AddTo (T 60) (Plain (Transpose (T 56) [1;0;3;2]));
  (*221*) Del (T 56);
  (*222*) AddTo (T 60) (Plain (Transpose (T 59) [1;0;3;2]));
  (*223*) Del (T 59);
  (*224*) Assign (T 13) (Plain (Copy n_f'oo));
  (*225*) AddTo (T 13) (Plain (Copy (T 10)));
  (*226*) Del (T 10);
  (*227*) AddTo (T 13) (Plain (Einsum [(T 11,[0;1;2;3]); (T 1,[0;4;2;3])] [1;4]));
  (*228*) Del (T 11);
  (*229*) AddTo (T 13) (Times (Einsum [(T 12,[0;1;2;3]); (n_t1,[0;3])] [2;1]) (2) 1);
  (*230*) Del (T 12);
  (*231*) Assign (T 7) (Plain (Copy n_f'ov));
  (*232*) AddTo (T 7) (Plain (Copy (T 6)));
  (*233*) Del (T 6);
  (*234*) Assign (T 2) (Times (Copy n_v'ovvv) (-1) 2);
  (*235*) AddTo (T 2) (Plain (Transpose n_v'ovvv [0;2;1;3]));
  (*236*) Assign (T 4) (Times (Copy n_v'ooov) (-1) 2);
  (*237*) AddTo (T 4) (Plain (Transpose n_v'ooov [0;2;1;3]));
  (*238*) AddTo (T 4) (Plain (Copy (T 3)));
  (*239*) AddTo (T 4) (Times (Transpose (T 3) [0;2;1;3]) (-1) 2);
  (*240*) Del (T 3);
  (*241*) Assign (T 9) (Times (Transpose n_v'ovov [0;2;1;3]) (2) 1);
  (*242*) AddTo (T 9) (Times (Copy n_v'oovv) (-1) 1);
  (*243*) Assign (T 8) (Times (Transpose n_t2 [0;1;3;2]) (-1) 1);
  (*244*) AddTo (T 8) (Times (Copy n_t2) (2) 1);
  (*245*) Assign n_t2new (Plain (Einsum [(n_t2,[0;1;2;3]); (n_v'vvvv,[4;2;5;3])] [0;1;4;5]));
  (*246*) AddTo n_t2new (Plain (Einsum [(n_t1,[0;1]); (T 14,[2;3;1;4])] [0;2;3;4]));
  (*247*) Del (T 14);
  (*248*) AddTo n_t2new (Times (Einsum [(n_t1,[0;1]); (n_v'ovoo,[2;3;4;0])] [2;4;3;1]) (-1) 1);
  (*249*) AddTo n_t2new (Plain (Transpose n_v'ovov [0;2;1;3]));
  (*250*) AddTo n_t2new (Plain (Einsum [(n_t2,[0;1;2;3]); (T 15,[4;5;0;1])] [5;4;3;2]));
  (*251*) Del (T 15);
  (*252*) AddTo n_t2new (Times (Einsum [(n_t2,[0;1;2;3]); (n_v'oovv,[4;1;5;3])] [0;4;2;5]) (-1) 1);
  (*253*) AddTo n_t2new (Times (Copy (T 16)) (-1) 1);
  (*254*) Del (T 16);
  (*255*) AddTo n_t2new (Times (Einsum [(n_t2,[0;1;2;3]); (n_v'oovv,[4;1;5;2])] [4;0;3;5]) (-1) 1);
  (*256*) AddTo n_t2new (Times (Einsum [(n_v'ovov,[0;1;2;3]); (n_t2,[4;2;5;3])] [4;0;5;1]) (2) 1);
  (*257*) AddTo n_t2new (Plain (Transpose (T 33) [0;1;3;2]));
  (*258*) AddTo n_t2new (Plain (Transpose (T 33) [1;0;2;3]));
  (*259*) Del (T 33);
  (*260*) AddTo n_t2new (Times (Transpose (T 35) [0;1;3;2]) (-1) 1);
  (*261*) AddTo n_t2new (Times (Transpose (T 35) [1;0;2;3]) (-1) 1);
  (*262*) Del (T 35);
  (*263*) AddTo n_t2new (Plain (Copy (T 51)));
  (*264*) AddTo n_t2new (Plain (Transpose (T 51) [1;0;3;2]));
  (*265*) Del (T 51);
  (*266*) AddTo n_t2new (Times (Copy (T 60)) (-1) 1);
  (*267*) AddTo n_t2new (Times (Transpose (T 60) [1;0;3;2]) (-1) 1);
  (*268*) Del (T 60);
  (*269*) AddTo n_t2new (Times (Transpose (T 65) [0;1;3;2]) (-1) 1);
  (*270*) AddTo n_t2new (Times (Transpose (T 65) [1;0;2;3]) (-1) 1);
  (*271*) Del (T 65);
  (*272*) AddTo n_t2new (Plain (Transpose (T 67) [0;1;3;2]));
  (*273*) AddTo n_t2new (Plain (Transpose (T 67) [1;0;2;3]));
  (*274*) Del (T 67);
  (*275*) AddTo n_t2new (Plain (Einsum [(T 68,[0;1;2;3]); (n_t2,[4;1;5;3])] [0;4;2;5]));
  (*276*) Del (T 68);
  (*277*) AddTo n_t2new (Plain (Einsum [(T 69,[0;1;2;3]); (T 1,[0;3;4;5])] [2;1;5;4]));
  (*278*) Del (T 69);
  (*279*) AddTo n_t2new (Plain (Einsum [(n_t1,[0;1]); (T 70,[2;3;0;4])] [2;3;1;4]));
  (*280*) Del (T 70);
  (*281*) AddTo n_t2new (Plain (Einsum [(n_t2,[0;1;2;3]); (T 71,[4;1;5;2])] [0;4;5;3]));
  (*282*) Del (T 71);
  (*283*) AddTo n_t2new (Plain (Einsum [(n_t2,[0;1;2;3]); (T 72,[4;1;5;2])] [4;0;5;3]));
  (*284*) Del (T 72);
  (*285*) Assign n_t1new (Plain (Copy n_f'ov));
  (*286*) AddTo n_t1new (Plain (Einsum [(n_t1,[0;1]); (n_f'vv,[2;1])] [0;2]));
  (*287*) AddTo n_t1new (Times (Einsum [(T 1,[0;1;2;3]); (T 2,[0;3;2;4])] [1;4]) (2) 1);
  (*288*) Del (T 1);
  (*288*) Del (T 2);
  (*289*) AddTo n_t1new (Times (Einsum [(T 4,[0;1;2;3]); (n_t2,[1;2;3;4])] [0;4]) (-2) 1);
  (*290*) Del (T 4);
  (*291*) AddTo n_t1new (Plain (Einsum [(T 7,[0;1]); (T 8,[0;2;1;3])] [2;3]));
  (*292*) Del (T 7);
  (*292*) Del (T 8);
  (*293*) AddTo n_t1new (Plain (Einsum [(n_t1,[0;1]); (T 9,[0;2;1;3])] [2;3]));
  (*294*) Del (T 9);
  (*295*) AddTo n_t1new (Times (Einsum [(n_t1,[0;1]); (T 13,[0;2])] [2;1]) (-1) 1);
  (*296*) Del (T 13)]
 [(n_t1new,[0;1]); (n_t2new,[0;0;1;1])].

(** ebcc/codegen/RCCSD.py:300-692 [update_lams] *)
Definition RCCSD_update_lams : prog := mkprog
 [(n_v'ovov,[0;1;0;1]); (n_t1,[0;1]); (n_t2,[0;0;1;1]); (n_l1,[1;0]); (n_l2,[1;1;0;0]); (n_v'ooov,[0;0;0;1]); (n_v'ovvv,[0;1;1;1]); (n_v'oovv,[0;0;1;1]); (n_f'ov,[0;1]); (n_f'oo,[0;0]); (n_v'ovoo,[0;1;0;0]); (n_f'vv,[1;1]); (n_v'oooo,[0;0;0;0]); (n_v'vvvv,[1;1;1;1])]
 [(*327*) Assign (T 52) (Times (Transpose n_v'ovov [0;2;3;1]) (-1) 1);
  (*328*) AddTo (T 52) (Times (Transpose n_v'ovov [0;2;1;3]) (2) 1);
  (*329*) Assign (T 6) (Plain (Einsum [(n_t1,[0;1]); (n_v'ovov,[2;3;4;1])] [0;2;4;3]));
  (*330*) Assign (T 21) (Times (Transpose n_t2 [0;1;3;2]) (-1) 2);
  (*331*) AddTo (T 21) (Plain (Copy n_t2));
  (*332*) Assign (T 47) (Times (Transpose n_t2 [0;1;3;2]) (-1) 1);
  (*333*) AddTo (T 47) (Times (Copy n_t2) (2) 1);
  (*334*) Assign (T 83) (Times (Transpose n_t2 [0;1;3;2]) (-1) 1);
  (*335*) AddTo (T 83) (Times (Copy n_t2) (2) 1);
  (*336*) Assign (T 93) (Plain (Einsum [(n_t1,[0;1]); (T 52,[0;2;1;3])] [2;3]));
  (*337*) Assign (T 7) (Plain (Einsum [(n_t1,[0;1]); (T 6,[2;3;4;1])] [0;2;3;4]));
  (*338*) Assign (T 5) (Plain (Einsum [(n_v'ovov,[0;1;2;3]); (n_t2,[4;5;1;3])] [4;5;0;2]));
  (*339*) Assign (T 48) (Plain (Einsum [(n_t1,[0;1]); (n_l1,[1;2])] [2;0]));
  (*340*) Assign (T 58) (Times (Einsum [(T 21,[0;1;2;3]); (n_l2,[2;3;0;4])] [4;1]) (2) 1);
  (*341*) Assign (T 111) (Times (Einsum [(T 47,[0;1;2;3]); (n_v'ovov,[4;3;0;2])] [4;1]) (1) 2);
  (*342*) Assign (T 110) (Plain (Einsum [(n_t1,[0;1]); (n_v'ooov,[2;3;0;1])] [2;3]));
  (*343*) Assign (T 71) (Plain (Einsum [(n_t2,[0;1;2;3]); (n_v'ovov,[4;2;1;5])] [0;4;3;5]));
  (*344*) Assign (T 3) (Plain (Einsum [(n_t1,[0;1]); (n_v'ovvv,[2;1;3;4])] [0;2;3;4]));
  (*345*) Assign (T 22) (Plain (Einsum [(n_t1,[0;1]); (n_l2,[2;1;3;4])] [3;4;0;2]));
  (*346*) Assign (T 84) (Plain (Einsum [(T 83,[0;1;2;3]); (n_v'ovov,[4;5;0;2])] [4;1;5;3]));
  (*347*) Del (T 83);
  (*348*) Assign (T 81) (Plain (Einsum [(n_t1,[0;1]); (n_v'ovvv,[2;3;4;1])] [0;2;3;4]));
  (*349*) Assign (T 82) (Plain (Einsum [(n_v'ovov,[0;1;2;3]); (n_t2,[4;2;5;1])] [4;0;5;3]));
  (*350*) Assign (T 94) (Plain (Einsum [(n_t1,[0;1]); (T 93,[2;1])] [0;2]));
  (*351*) Assign (T 92) (Plain (Einsum [(n_t1,[0;1]); (n_v'ooov,[2;0;3;1])] [2;3]));
  (*352*) Assign (T 11) (Times (Transpose n_v'ovov [0;2;3;1]) (-1) 2);
  (*353*) AddTo (T 11) (Plain (Transpose n_v'ovov [0;2;1;3]));
  (*354*) Assign (T 8) (Plain (Transpose (T 5) [1;0;3;2]));
  (*355*) Del (T 5);
  (*356*) AddTo (T 8) (Plain (Copy (T 7)));
  (*357*) Del (T 7);
  (*358*) Assign (T 59) (Plain (Copy (T 48)));
  (*359*) AddTo (T 59) (Plain (Copy (T 58)));
  (*360*) Del (T 58);
  (*361*) Assign (T 103) (Times (Einsum [(n_l2,[0;1;2;3]); (T 21,[3;2;1;4])] [0;4]) (2) 1);
  (*362*) Assign (T 108) (Times (Einsum [(n_v'ovov,[0;1;2;3]); (T 47,[0;2;1;4])] [3;4]) (1) 2);
  (*363*) Assign (T 112) (Plain (Transpose (T 110) [1;0]));
  (*364*) Del (T 110);
  (*365*) AddTo (T 112) (Plain (Transpose (T 111) [1;0]));
  (*366*) Del (T 111);
  (*367*) Assign (T 72) (Plain (Copy n_v'oovv));
  (*368*) AddTo (T 72) (Plain (Transpose (T 3) [0;1;3;2]));
  (*369*) AddTo (T 72) (Times (Copy (T 71)) (-1) 1);
  (*370*) Del (T 71);
  (*371*) Assign (T 88) (Times (Copy (T 22)) (-1) 1);
  (*372*) AddTo (T 88) (Times (Transpose (T 22) [1;0;2;3]) (2) 1);
  (*373*) Assign (T 80) (Times (Transpose n_l2 [3;2;0;1]) (-1) 1);
  (*374*) AddTo (T 80) (Times (Transpose n_l2 [2;3;0;1]) (2) 1);
  (*375*) Assign (T 85) (Plain (Transpose n_v'ovov [0;2;1;3]));
  (*376*) AddTo (T 85) (Plain (Transpose (T 81) [0;1;3;2]));
  (*377*) Del (T 81);
  (*378*) AddTo (T 85) (Times (Copy (T 82)) (-1) 1);
  (*379*) Del (T 82);
  (*380*) AddTo (T 85) (Plain (Transpose (T 84) [1;0;3;2]));
  (*381*) Del (T 84);
  (*382*) Assign (T 76) (Plain (Einsum [(n_t1,[0;1]); (n_v'ovvv,[0;1;2;3])] [2;3]));
  (*383*) Assign (T 95) (Plain (Copy (T 92)));
  (*384*) Del (T 92);
  (*385*) AddTo (T 95) (Times (Copy (T 94)) (-1) 1);
  (*386*) Del (T 94);
  (*387*) Assign (T 90) (Times (Copy (T 6)) (-1) 1);
  (*388*) AddTo (T 90) (Times (Transpose (T 6) [0;2;1;3]) (2) 1);
  (*389*) Assign (T 65) (Plain (Einsum [(n_t1,[0;1]); (n_f'ov,[2;1])] [2;0]));
  (*390*) Assign (T 17) (Plain (Einsum [(n_t1,[0;1]); (n_v'ooov,[2;3;4;1])] [0;2;3;4]));
  (*391*) Assign (T 12) (Times (Einsum [(n_t1,[0;1]); (T 11,[0;2;1;3])] [2;3]) (2) 1);
  (*392*) Assign (T 9) (Plain (Einsum [(T 8,[0;1;2;3]); (n_t1,[2;4])] [0;1;3;4]));
  (*393*) Assign (T 2) (Plain (Einsum [(n_t2,[0;1;2;3]); (n_v'ovvv,[4;2;5;3])] [0;1;4;5]));
  (*394*) Assign (T 4) (Plain (Einsum [(n_t1,[0;1]); (T 3,[2;3;4;1])] [2;0;3;4]));
  (*395*) Del (T 3);
  (*396*) Assign (T 37) (Plain (Einsum [(T 22,[0;1;2;3]); (n_t1,[4;3])] [1;0;2;4]));
  (*397*) Assign (T 49) (Plain (Einsum [(T 21,[0;1;2;3]); (n_l2,[2;3;0;4])] [4;1]));
  (*398*) Assign (T 40) (Plain (Einsum [(n_l2,[0;1;2;3]); (n_t2,[4;5;0;1])] [2;3;4;5]));
  (*399*) Assign (T 99) (Plain (Einsum [(n_t1,[0;1]); (n_v'ovvv,[0;2;3;1])] [2;3]));
  (*400*) Assign (T 102) (Plain (Einsum [(n_l1,[0;1]); (T 6,[1;2;3;4])] [2;3;0;4]));
  (*401*) Assign (T 105) (Plain (Einsum [(n_v'ovov,[0;1;2;3]); (T 59,[4;2])] [0;4;3;1]));
  (*402*) Assign (T 104) (Plain (Einsum [(T 103,[0;1]); (n_v'ovov,[2;1;3;4])] [2;3;4;0]));
  (*403*) Del (T 103);
  (*404*) Assign (T 101) (Plain (Einsum [(n_l2,[0;1;2;3]); (n_f'oo,[4;3])] [4;2;0;1]));
  (*405*) Assign (T 109) (Times (Einsum [(T 108,[0;1]); (n_l2,[2;1;3;4])] [4;3;2;0]) (2) 1);
  (*406*) Del (T 108);
  (*407*) Assign (T 107) (Plain (Einsum [(n_v'ooov,[0;1;2;3]); (n_l1,[4;1])] [0;2;4;3]));
  (*408*) Assign (T 113) (Times (Einsum [(T 112,[0;1]); (n_l2,[2;3;0;4])] [4;1;2;3]) (2) 1);
  (*409*) Del (T 112);
  (*410*) Assign (T 75) (Plain (Einsum [(T 22,[0;1;2;3]); (n_v'ooov,[4;1;2;5])] [0;4;3;5]));
  (*411*) Assign (T 87) (Plain (Einsum [(n_l2,[0;1;2;3]); (T 72,[3;4;1;5])] [2;4;0;5]));
  (*412*) Assign (T 89) (Plain (Einsum [(n_v'ovoo,[0;1;2;3]); (T 88,[2;4;3;5])] [0;4;1;5]));
  (*413*) Del (T 88);
  (*414*) Assign (T 79) (Plain (Einsum [(T 6,[0;1;2;3]); (T 22,[0;4;2;5])] [4;1;5;3]));
  (*415*) Assign (T 86) (Plain (Einsum [(T 80,[0;1;2;3]); (T 85,[0;4;2;5])] [1;4;3;5]));
  (*416*) Del (T 80);
  (*416*) Del (T 85);
  (*417*) Assign (T 77) (Plain (Einsum [(T 76,[0;1]); (n_l2,[2;1;3;4])] [3;4;2;0]));
  (*418*) Del (T 76);
  (*419*) Assign (T 97) (Plain (Einsum [(T 93,[0;1]); (T 22,[2;3;0;4])] [2;3;4;1]));
  (*420*) Assign (T 96) (Plain (Einsum [(T 95,[0;1]); (n_l2,[2;3;0;4])] [4;1;2;3]));
  (*421*) Del (T 95);
  (*422*) Assign (T 91) (Plain (Einsum [(T 22,[0;1;2;3]); (T 90,[1;2;4;5])] [0;4;3;5]));
  (*423*) Del (T 90);
  (*424*) Assign (T 78) (Plain (Einsum [(T 22,[0;1;2;3]); (n_v'ovvv,[2;4;5;3])] [1;0;4;5]));
  (*425*) Assign (T 67) (Plain (Einsum [(T 22,[0;1;2;3]); (n_f'ov,[2;4])] [0;1;4;3]));
  (*426*) Assign (T 63) (Plain (Einsum [(n_l2,[0;1;2;3]); (n_f'vv,[4;1])] [2;3;4;0]));
  (*427*) Assign (T 64) (Plain (Einsum [(n_l1,[0;1]); (n_v'ovvv,[2;3;4;0])] [1;2;3;4]));
  (*428*) Assign (T 69) (Plain (Einsum [(n_v'ooov,[0;1;2;3]); (T 22,[1;4;2;5])] [4;0;5;3]));
  (*429*) Assign (T 66) (Plain (Einsum [(T 65,[0;1]); (n_l2,[2;3;4;1])] [0;4;2;3]));
  (*430*) Del (T 65);
  (*431*) Assign (T 73) (Plain (Einsum [(T 72,[0;1;2;3]); (n_l2,[4;2;0;5])] [5;1;4;3]));
  (*432*) Del (T 72);
  (*433*) Assign (T 68) (Plain (Einsum [(n_l2,[0;1;2;3]); (T 17,[2;3;4;5])] [4;5;0;1]));
  (*434*) Assign (T 70) (Plain (Einsum [(T 6,[0;1;2;3]); (T 22,[0;4;1;5])] [4;2;5;3]));
  (*435*) Assign (T 61) (Plain (Copy n_f'ov));
  (*436*) AddTo (T 61) (Plain (Copy (T 12)));
  (*437*) Assign (T 60) (Times (Copy n_v'ooov) (-1) 2);
  (*438*) AddTo (T 60) (Plain (Transpose n_v'ovoo [0;2;3;1]));
  (*439*) Assign (T 13) (Times (Einsum [(T 12,[0;1]); (n_t2,[2;3;1;4])] [2;3;0;4]) (1) 2);
  (*440*) Del (T 12);
  (*441*) Assign (T 10) (Plain (Copy (T 2)));
  (*442*) Del (T 2);
  (*443*) AddTo (T 10) (Plain (Copy (T 4)));
  (*444*) Del (T 4);
  (*445*) AddTo (T 10) (Times (Transpose (T 9) [1;0;2;3]) (-1) 1);
  (*446*) Del (T 9);
  (*447*) Assign (T 15) (Plain (Transpose n_t2 [0;1;3;2]));
  (*448*) AddTo (T 15) (Times (Copy n_t2) (-1) 2);
  (*449*) Assign (T 18) (Times (Transpose n_v'oooo [0;2;1;3]) (-1) 1);
  (*450*) AddTo (T 18) (Times (Copy n_v'oooo) (2) 1);
  (*451*) AddTo (T 18) (Times (Transpose (T 17) [2;1;0;3]) (2) 1);
  (*452*) AddTo (T 18) (Times (Transpose (T 17) [3;2;0;1]) (-1) 1);
  (*453*) Assign (T 1) (Plain (Einsum [(n_f'ov,[0;1]); (n_t2,[2;3;4;1])] [0;2;3;4]));
  (*454*) Assign (T 14) (Plain (Copy n_v'ooov));
  (*455*) AddTo (T 14) (Times (Transpose n_v'ooov [0;2;1;3]) (-1) 2);
  (*456*) AddTo (T 14) (Times (Copy (T 6)) (-1) 2);
  (*457*) AddTo (T 14) (Plain (Transpose (T 6) [0;2;1;3]));
  (*458*) Assign (T 16) (Times (Transpose n_v'ovov [0;2;1;3]) (2) 1);
  (*459*) AddTo (T 16) (Times (Copy n_v'oovv) (-1) 1);
  (*460*) Assign (T 27) (Times (Transpose n_l2 [3;2;0;1]) (-1) 1);
  (*461*) AddTo (T 27) (Times (Transpose n_l2 [2;3;0;1]) (2) 1);
  (*462*) Assign (T 34) (Times (Copy (T 22)) (2) 1);
  (*463*) AddTo (T 34) (Times (Transpose (T 22) [1;0;2;3]) (-1) 1);
  (*464*) Assign (T 36) (Plain (Einsum [(n_l1,[0;1]); (n_t2,[2;3;4;0])] [1;2;3;4]));
  (*465*) Assign (T 38) (Plain (Einsum [(T 37,[0;1;2;3]); (n_t1,[0;4])] [1;3;2;4]));
  (*466*) Assign (T 50) (Times (Copy (T 48)) (1) 2);
  (*467*) Del (T 48);
  (*468*) AddTo (T 50) (Plain (Copy (T 49)));
  (*469*) Del (T 49);
  (*470*) Assign (T 30) (Times (Copy n_v'ooov) (-1) 1);
  (*471*) AddTo (T 30) (Times (Transpose n_v'ooov [0;2;1;3]) (2) 1);
  (*472*) AddTo (T 30) (Times (Copy (T 6)) (2) 1);
  (*473*) AddTo (T 30) (Times (Transpose (T 6) [0;2;1;3]) (-1) 1);
  (*474*) Assign (T 29) (Times (Copy n_v'ooov) (2) 1);
  (*475*) AddTo (T 29) (Times (Transpose n_v'ooov [0;2;1;3]) (-1) 1);
  (*476*) AddTo (T 29) (Times (Copy (T 6)) (-1) 1);
  (*477*) AddTo (T 29) (Times (Transpose (T 6) [0;2;1;3]) (2) 1);
  (*478*) Del (T 6);
  (*479*) Assign (T 32) (Times (Transpose (T 17) [0;2;1;3]) (-1) 1);
  (*480*) AddTo (T 32) (Times (Transpose (T 17) [0;3;2;1]) (2) 1);
  (*481*) Del (T 17);
  (*482*) Assign (T 31) (Times (Transpose n_v'ovov [0;2;1;3]) (-1) 1);
  (*483*) AddTo (T 31) (Times (Copy n_v'oovv) (2) 1);
  (*484*) Assign (T 23) (Times (Copy (T 22)) (-1) 2);
  (*485*) AddTo (T 23) (Plain (Transpose (T 22) [1;0;2;3]));
  (*486*) Assign (T 41) (Plain (Einsum [(T 40,[0;1;2;3]); (n_t1,[1;4])] [0;2;3;4]));
  (*487*) Assign (T 20) (Times (Transpose n_t2 [0;1;3;2]) (2) 1);
  (*488*) AddTo (T 20) (Times (Copy n_t2) (-1) 1);
  (*489*) Assign (T 55) (Times (Copy n_v'ovvv) (-1) 2);
  (*490*) AddTo (T 55) (Plain (Transpose n_v'ovvv [0;2;1;3]));
  (*491*) Assign (T 100) (Plain (Einsum [(T 99,[0;1]); (n_l2,[2;1;3;4])] [3;4;2;0]));
  (*492*) Del (T 99);
  (*493*) Assign (T 106) (Plain (Copy (T 101)));
  (*494*) Del (T 101);
  (*495*) AddTo (T 106) (Plain (Copy (T 102)));
  (*496*) Del (T 102);
  (*497*) AddTo (T 106) (Plain (Transpose (T 104) [1;0;3;2]));
  (*498*) Del (T 104);
  (*499*) AddTo (T 106) (Plain (Transpose (T 105) [1;0;3;2]));
  (*500*) Del (T 105);
  (*501*) Assign (T 114) (Plain (Copy (T 107)));
  (*502*) Del (T 107);
  (*503*) AddTo (T 114) (Plain (Transpose (T 109) [1;0;2;3]));
  (*504*) Del (T 109);
  (*505*) AddTo (T 114) (Plain (Transpose (T 113) [0;1;3;2]));
  (*506*) Del (T 113);
  (*507*) Assign (T 98) (Plain (Einsum [(n_l1,[0;1]); (n_f'ov,[2;3])] [2;1;3;0]));
  (*508*) AddTo (T 98) (Plain (Copy (T 75)));
  (*509*) Del (T 75);
  (*510*) AddTo (T 98) (Times (Copy (T 77)) (2) 1);
  (*511*) Del (T 77);
  (*512*) AddTo (T 98) (Times (Copy (T 78)) (-1) 1);
  (*513*) Del (T 78);
  (*514*) AddTo (T 98) (Plain (Copy (T 79)));
  (*515*) Del (T 79);
  (*516*) AddTo (T 98) (Plain (Copy (T 86)));
  (*517*) Del (T 86);
  (*518*) AddTo (T 98) (Times (Copy (T 87)) (-1) 1);
  (*519*) Del (T 87);
  (*520*) AddTo (T 98) (Times (Transpose (T 89) [1;0;3;2]) (-1) 1);
  (*521*) Del (T 89);
  (*522*) AddTo (T 98) (Times (Copy (T 91)) (-1) 1);
  (*523*) Del (T 91);
  (*524*) AddTo (T 98) (Plain (Transpose (T 96) [0;1;3;2]));
  (*525*) Del (T 96);
  (*526*) AddTo (T 98) (Times (Copy (T 97)) (-1) 1);
  (*527*) Del (T 97);
  (*528*) AddTo (T 98) (Plain (Einsum [(n_l1,[0;1]); (T 93,[2;3])] [1;2;0;3]));
  (*529*) Del (T 93);
  (*530*) Assign (T 74) (Plain (Copy (T 63)));
  (*531*) Del (T 63);
  (*532*) AddTo (T 74) (Plain (Copy (T 64)));
  (*533*) Del (T 64);
  (*534*) AddTo (T 74) (Times (Copy (T 66)) (-1) 1);
  (*535*) Del (T 66);
  (*536*) AddTo (T 74) (Times (Copy (T 67)) (-1) 1);
  (*537*) Del (T 67);
  (*538*) AddTo (T 74) (Plain (Copy (T 68)));
  (*539*) Del (T 68);
  (*540*) AddTo (T 74) (Plain (Copy (T 69)));
  (*541*) Del (T 69);
  (*542*) AddTo (T 74) (Plain (Copy (T 70)));
  (*543*) Del (T 70);
  (*544*) AddTo (T 74) (Times (Copy (T 73)) (-1) 1);
  (*545*) Del (T 73);
  (*546*) Assign (T 46) (Times (Copy n_v'ovvv) (2) 1);
  (*547*) AddTo (T 46) (Times (Transpose n_v'ovvv [0;2;1;3]) (-1) 1);
  (*548*) Assign (T 62) (Plain (Copy n_f'oo));
  (*549*) AddTo (T 62) (Plain (Einsum [(T 47,[0;1;2;3]); (n_v'ovov,[4;3;0;2])] [1;4]));
  (*550*) AddTo (T 62) (Times (Einsum [(n_t1,[0;1]); (T 60,[0;2;3;1])] [2;3]) (2) 1);
  (*551*) Del (T 60);
  (*552*) AddTo (T 62) (Plain (Einsum [(T 61,[0;1]); (n_t1,[2;1])] [2;0]));
  (*553*) Del (T 61);
  (*554*) Assign (T 54) (Times (Transpose n_v'ovov [0;2;1;3]) (2) 1);
  (*555*) AddTo (T 54) (Times (Copy n_v'oovv) (-1) 1);
  (*556*) Assign (T 19) (Times (Transpose n_v'ooov [0;2;1;3]) (-1) 1);
  (*557*) AddTo (T 19) (Times (Transpose n_v'ovoo [0;2;3;1]) (1) 2);
  (*558*) AddTo (T 19) (Times (Transpose (T 1) [1;2;0;3]) (1) 2);
  (*559*) AddTo (T 19) (Times (Transpose (T 1) [2;1;0;3]) (-1) 1);
  (*560*) Del (T 1);
  (*561*) AddTo (T 19) (Times (Copy (T 10)) (-1) 1);
  (*562*) AddTo (T 19) (Times (Transpose (T 10) [1;0;2;3]) (1) 2);
  (*563*) Del (T 10);
  (*564*) AddTo (T 19) (Plain (Transpose (T 13) [1;0;2;3]));
  (*565*) AddTo (T 19) (Times (Copy (T 13)) (-2) 1);
  (*566*) Del (T 13);
  (*567*) AddTo (T 19) (Times (Einsum [(T 14,[0;1;2;3]); (T 15,[2;4;5;3])] [0;4;1;5]) (-2) 1);
  (*568*) Del (T 14);
  (*569*) AddTo (T 19) (Times (Einsum [(n_t1,[0;1]); (T 16,[2;3;1;4])] [0;3;2;4]) (-1) 2);
  (*570*) Del (T 16);
  (*571*) AddTo (T 19) (Times (Einsum [(T 18,[0;1;2;3]); (n_t1,[0;4])] [2;1;3;4]) (1) 2);
  (*572*) Del (T 18);
  (*573*) Assign (T 28) (Plain (Transpose n_l2 [2;3;0;1]));
  (*574*) AddTo (T 28) (Plain (Einsum [(T 27,[0;1;2;3]); (T 21,[0;4;2;5])] [1;4;3;5]));
  (*575*) Del (T 27);
  (*576*) Assign (T 39) (Times (Copy (T 36)) (-1) 2);
  (*577*) AddTo (T 39) (Plain (Transpose (T 36) [0;2;1;3]));
  (*578*) Del (T 36);
  (*579*) AddTo (T 39) (Times (Transpose (T 22) [0;2;1;3]) (-1) 2);
  (*580*) AddTo (T 39) (Plain (Transpose (T 22) [1;2;0;3]));
  (*581*) AddTo (T 39) (Times (Copy (T 38)) (-1) 1);
  (*582*) AddTo (T 39) (Times (Transpose (T 38) [0;2;1;3]) (1) 2);
  (*583*) Del (T 38);
  (*584*) AddTo (T 39) (Plain (Einsum [(T 21,[0;1;2;3]); (T 34,[0;4;5;2])] [4;5;1;3]));
  (*585*) Assign (T 43) (Times (Copy (T 22)) (2) 1);
  (*586*) AddTo (T 43) (Times (Transpose (T 22) [1;0;2;3]) (-1) 1);
  (*587*) Assign (T 51) (Times (Copy n_t1) (-1) 1);
  (*588*) AddTo (T 51) (Times (Einsum [(T 15,[0;1;2;3]); (T 22,[0;1;4;3])] [4;2]) (2) 1);
  (*589*) Del (T 22);
  (*589*) Del (T 15);
  (*590*) AddTo (T 51) (Times (Einsum [(T 47,[0;1;2;3]); (n_l1,[2;0])] [1;3]) (-1) 1);
  (*591*) Del (T 47);
  (*592*) AddTo (T 51) (Times (Einsum [(n_t1,[0;1]); (T 50,[0;2])] [2;1]) (2) 1);
  (*593*) Assign (T 53) (Plain (Copy n_v'ooov));
  (*594*) AddTo (T 53) (Times (Transpose n_v'ovoo [0;2;3;1]) (-1) 2);
  (*595*) Assign (T 33) (Plain (Einsum [(n_t2,[0;1;2;3]); (T 29,[4;5;1;3])] [4;0;5;2]));
  (*596*) Del (T 29);
  (*597*) AddTo (T 33) (Plain (Einsum [(T 30,[0;1;2;3]); (n_t2,[4;2;3;5])] [0;4;1;5]));
  (*598*) Del (T 30);
  (*599*) AddTo (T 33) (Times (Einsum [(n_t1,[0;1]); (T 31,[2;3;1;4])] [0;3;2;4]) (-1) 1);
  (*600*) Del (T 31);
  (*601*) AddTo (T 33) (Plain (Einsum [(T 32,[0;1;2;3]); (n_t1,[1;4])] [0;2;3;4]));
  (*602*) Del (T 32);
  (*603*) Assign (T 25) (Plain (Einsum [(n_t1,[0;1]); (n_l2,[2;3;4;0])] [4;2;3;1]));
  (*604*) Assign (T 44) (Plain (Transpose (T 40) [1;0;2;3]));
  (*605*) AddTo (T 44) (Times (Transpose (T 40) [1;0;3;2]) (-1) 2);
  (*606*) AddTo (T 44) (Plain (Transpose (T 37) [2;1;3;0]));
  (*607*) AddTo (T 44) (Times (Transpose (T 37) [3;1;2;0]) (-1) 2);
  (*608*) Assign (T 45) (Times (Einsum [(n_t1,[0;1]); (n_l1,[2;0])] [2;1]) (1) 2);
  (*609*) AddTo (T 45) (Plain (Einsum [(n_l2,[0;1;2;3]); (T 21,[3;2;1;4])] [0;4]));
  (*610*) Assign (T 42) (Times (Copy (T 41)) (-1) 1);
  (*611*) AddTo (T 42) (Times (Transpose (T 41) [0;2;1;3]) (2) 1);
  (*612*) Del (T 41);
  (*613*) AddTo (T 42) (Plain (Einsum [(n_t2,[0;1;2;3]); (T 34,[1;4;5;3])] [4;5;0;2]));
  (*614*) AddTo (T 42) (Times (Einsum [(n_t2,[0;1;2;3]); (T 23,[1;4;5;2])] [4;5;0;3]) (2) 1);
  (*615*) Assign (T 57) (Times (Copy n_f'ov) (1) 2);
  (*616*) AddTo (T 57) (Plain (Einsum [(n_t1,[0;1]); (T 11,[0;2;1;3])] [2;3]));
  (*617*) Del (T 11);
  (*618*) Assign (T 24) (Plain (Einsum [(T 20,[0;1;2;3]); (n_l2,[4;2;0;5])] [5;1;4;3]));
  (*619*) Del (T 20);
  (*620*) AddTo (T 24) (Times (Einsum [(n_l2,[0;1;2;3]); (T 21,[3;4;1;5])] [2;4;0;5]) (2) 1);
  (*621*) Del (T 21);
  (*622*) AddTo (T 24) (Times (Einsum [(T 23,[0;1;2;3]); (n_t1,[1;4])] [0;2;4;3]) (2) 1);
  (*623*) Del (T 23);
  (*624*) Assign (T 26) (Times (Transpose n_v'vvvv [0;2;1;3]) (-1) 1);
  (*625*) AddTo (T 26) (Times (Copy n_v'vvvv) (2) 1);
  (*626*) Assign (T 35) (Plain (Transpose n_l2 [3;2;0;1]));
  (*627*) AddTo (T 35) (Plain (Einsum [(n_t1,[0;1]); (T 34,[2;0;3;4])] [2;3;4;1]));
  (*628*) Del (T 34);
  (*629*) Assign (T 56) (Plain (Copy n_f'vv));
  (*630*) AddTo (T 56) (Times (Einsum [(n_t1,[0;1]); (T 55,[0;2;1;3])] [3;2]) (2) 1);
  (*631*) Del (T 55);
  (*632*) Assign n_l2new (Plain (Einsum [(n_v'oooo,[0;1;2;3]); (n_l2,[4;5;1;3])] [4;5;0;2]));
  (*633*) AddTo n_l2new (Plain (Einsum [(n_l2,[0;1;2;3]); (n_v'vvvv,[4;1;5;0])] [4;5;3;2]));
  (*634*) AddTo n_l2new (Plain (Transpose n_v'ovov [1;3;0;2]));
  (*635*) AddTo n_l2new (Plain (Einsum [(n_v'ovov,[0;1;2;3]); (T 40,[4;5;2;0])] [3;1;4;5]));
  (*636*) Del (T 40);
  (*637*) AddTo n_l2new (Plain (Einsum [(T 37,[0;1;2;3]); (n_v'ovov,[3;4;2;5])] [4;5;1;0]));
  (*638*) Del (T 37);
  (*639*) AddTo n_l2new (Plain (Transpose (T 74) [3;2;0;1]));
  (*640*) AddTo n_l2new (Plain (Transpose (T 74) [2;3;1;0]));
  (*641*) Del (T 74);
  (*642*) AddTo n_l2new (Plain (Transpose (T 98) [2;3;0;1]));
  (*643*) AddTo n_l2new (Plain (Transpose (T 98) [3;2;1;0]));
  (*644*) Del (T 98);
  (*645*) AddTo n_l2new (Times (Transpose (T 100) [2;3;0;1]) (-1) 1);
  (*646*) AddTo n_l2new (Times (Transpose (T 100) [3;2;1;0]) (-1) 1);
  (*647*) Del (T 100);
  (*648*) AddTo n_l2new (Times (Transpose (T 106) [3;2;0;1]) (-1) 1);
  (*649*) AddTo n_l2new (Times (Transpose (T 106) [2;3;1;0]) (-1) 1);
  (*650*) Del (T 106);
  (*651*) AddTo n_l2new (Times (Transpose (T 114) [2;3;0;1]) (-1) 1);
  (*652*) AddTo n_l2new (Times (Transpose (T 114) [3;2;1;0]) (-1) 1);
  (*653*) Del (T 114);
  (*654*) AddTo n_l2new (Plain (Einsum [(n_l2,[0;1;2;3]); (T 8,[3;2;4;5])] [0;1;5;4]));
  (*655*) Del (T 8);
  (*656*) Assign n_l1new (Plain (Transpose n_f'ov [1;0]));
  (*657*) AddTo n_l1new (Times (Einsum [(n_l2,[0;1;2;3]); (T 19,[2;3;4;1])] [0;4]) (2) 1);
  (*658*) Del (T 19);
  (*659*) AddTo n_l1new (Times (Einsum [(T 24,[0;1;2;3]); (n_v'ovvv,[1;4;3;2])] [4;0]) (-1) 1);
  (*660*) Del (T 24);
  (*661*) AddTo n_l1new (Plain (Einsum [(T 25,[0;1;2;3]); (T 26,[2;3;4;1])] [4;0]));
  (*662*) Del (T 25);
  (*662*) Del (T 26);
  (*663*) AddTo n_l1new (Times (Einsum [(n_v'ovvv,[0;1;2;3]); (T 28,[4;0;3;1])] [2;4]) (2) 1);
  (*664*) Del (T 28);
  (*665*) AddTo n_l1new (Plain (Einsum [(T 33,[0;1;2;3]); (n_l2,[4;3;1;0])] [4;2]));
  (*666*) Del (T 33);
  (*667*) AddTo n_l1new (Times (Einsum [(T 35,[0;1;2;3]); (n_v'ovvv,[1;3;4;2])] [4;0]) (-1) 1);
  (*668*) Del (T 35);
  (*669*) AddTo n_l1new (Times (Einsum [(T 39,[0;1;2;3]); (n_v'ovov,[2;3;1;4])] [4;0]) (-2) 1);
  (*670*) Del (T 39);
  (*671*) AddTo n_l1new (Plain (Einsum [(n_v'ovov,[0;1;2;3]); (T 42,[4;2;0;3])] [1;4]));
  (*672*) Del (T 42);
  (*673*) AddTo n_l1new (Times (Einsum [(T 43,[0;1;2;3]); (n_v'oovv,[1;2;4;3])] [4;0]) (-1) 1);
  (*674*) Del (T 43);
  (*675*) AddTo n_l1new (Times (Einsum [(T 44,[0;1;2;3]); (n_v'ooov,[3;0;2;4])] [4;1]) (2) 1);
  (*676*) Del (T 44);
  (*677*) AddTo n_l1new (Times (Einsum [(T 46,[0;1;2;3]); (T 45,[3;2])] [1;0]) (2) 1);
  (*678*) Del (T 46);
  (*678*) Del (T 45);
  (*679*) AddTo n_l1new (Times (Einsum [(T 51,[0;1]); (T 52,[0;2;1;3])] [3;2]) (-1) 1);
  (*680*) Del (T 52);
  (*680*) Del (T 51);
  (*681*) AddTo n_l1new (Times (Einsum [(T 53,[0;1;2;3]); (T 50,[1;0])] [3;2]) (-4) 1);
  (*682*) Del (T 50);
  (*682*) Del (T 53);
  (*683*) AddTo n_l1new (Plain (Einsum [(T 54,[0;1;2;3]); (n_l1,[2;0])] [3;1]));
  (*684*) Del (T 54);
  (*685*) AddTo n_l1new (Plain (Einsum [(n_l1,[0;1]); (T 56,[0;2])] [2;1]));
  (*686*) Del (T 56);
  (*687*) AddTo n_l1new (Times (Einsum [(T 59,[0;1]); (T 57,[1;2])] [2;0]) (-2) 1);
  (*688*) Del (T 59);
  (*688*) Del (T 57);
  (*689*) AddTo n_l1new (Times (Einsum [(T 62,[0;1]); (n_l1,[2;0])] [2;1]) (-1) 1);
  (*690*) Del (T 62)]
 [(n_l1new,[1;0]); (n_l2new,[1;1;0;0])].

(** ebcc/codegen/RCCSD.py:694-755 [make_rdm1_f]; assembly (line 753) not translated *)
Definition RCCSD_make_rdm1_f : prog := mkprog
 [(n_t2,[0;0;1;1]); (n_t1,[0;1]); (n_l1,[1;0]); (n_l2,[1;1;0;0])]
 [(*716*) Assign n_delta'oo (Plain (Eye 0));
  (*716*) Assign n_delta'vv (Plain (Eye 1));
  (*720*) Assign (T 1) (Plain (Einsum [(n_t1,[0;1]); (n_l1,[1;2])] [2;0]));
  (*721*) Assign (T 6) (Times (Transpose n_t2 [0;1;3;2]) (-1) 2);
  (*722*) AddTo (T 6) (Plain (Copy n_t2));
  (*723*) Assign (T 3) (Plain (Einsum [(n_t1,[0;1]); (n_l2,[2;1;3;4])] [3;4;0;2]));
  (*724*) Assign (T 8) (Times (Transpose n_l2 [3;2;0;1]) (-1) 1);
  (*725*) AddTo (T 8) (Times (Transpose n_l2 [2;3;0;1]) (2) 1);
  (*726*) Assign (T 7) (Plain (Copy (T 1)));
  (*727*) AddTo (T 7) (Times (Einsum [(T 6,[0;1;2;3]); (n_l2,[2;3;0;4])] [4;1]) (2) 1);
  (*728*) Del (T 6);
  (*729*) Assign (T 5) (Times (Transpose n_t2 [0;1;3;2]) (-1) 1);
  (*730*) AddTo (T 5) (Times (Copy n_t2) (2) 1);
  (*731*) Assign (T 4) (Times (Copy (T 3)) (-1) 2);
  (*732*) AddTo (T 4) (Plain (Transpose (T 3) [1;0;2;3]));
  (*733*) Del (T 3);
  (*734*) Assign (T 2) (Plain (Transpose n_t2 [0;1;3;2]));
  (*735*) AddTo (T 2) (Times (Copy n_t2) (-1) 2);
  (*736*) Assign n_rdm1'vv (Times (Einsum [(n_t1,[0;1]); (n_l1,[2;0])] [2;1]) (2) 1);
  (*737*) AddTo n_rdm1'vv (Times (Einsum [(n_t2,[0;1;2;3]); (T 8,[0;1;2;4])] [4;3]) (2) 1);
  (*738*) Del (T 8);
  (*739*) Assign n_rdm1'vo (Times (Copy n_l1) (2) 1);
  (*740*) Assign n_rdm1'ov (Times (Copy n_t1) (2) 1);
  (*741*) AddTo n_rdm1'ov (Times (Einsum [(n_t2,[0;1;2;3]); (T 4,[1;0;4;2])] [4;3]) (-4) 1);
  (*742*) Del (T 4);
  (*743*) AddTo n_rdm1'ov (Times (Einsum [(n_l1,[0;1]); (T 5,[1;2;0;3])] [2;3]) (2) 1);
  (*744*) Del (T 5);
  (*745*) AddTo n_rdm1'ov (Times (Einsum [(n_t1,[0;1]); (T 7,[0;2])] [2;1]) (-2) 1);
  (*746*) Del (T 7);
  (*747*) Assign n_rdm1'oo (Times (Copy n_delta'oo) (2) 1);
  (*748*) Del n_delta'oo;
  (*748*) Del n_delta'vv;
  (*749*) AddTo n_rdm1'oo (Times (Transpose (T 1) [1;0]) (-2) 1);
  (*750*) Del (T 1);
  (*751*) AddTo n_rdm1'oo (Times (Einsum [(T 2,[0;1;2;3]); (n_l2,[3;2;0;4])] [1;4]) (-4) 1);
  (*752*) Del (T 2)]
 [(n_rdm1'oo,[0;0]); (n_rdm1'ov,[0;1]); (n_rdm1'vo,[1;0]); (n_rdm1'vv,[1;1])].

(** ebcc/codegen/RCCSD.py:757-1244 [make_rdm2_f]; assembly (line 1241) not translated *)
Definition RCCSD_make_rdm2_f : prog := mkprog
 [(n_t2,[0;0;1;1]); (n_t1,[0;1]); (n_l2,[1;1;0;0]); (n_l1,[1;0])]
 [(*779*) Assign n_delta'oo (Plain (Eye 0));
  (*779*) Assign n_delta'vv (Plain (Eye 1));
  (*783*) Assign (T 4) (Plain (Einsum [(n_t1,[0;1]); (n_l2,[2;1;3;4])] [3;4;0;2]));
  (*784*) Assign (T 99) (Times (Transpose n_t2 [0;1;3;2]) (-1) 1);
  (*785*) AddTo (T 99) (Plain (Copy n_t2));
  (*786*) Assign (T 10) (Times (Transpose n_t2 [0;1;3;2]) (-1) 1);
  (*787*) AddTo (T 10) (Times (Copy n_t2) (2) 1);
  (*788*) Assign (T 1) (Times (Transpose n_t2 [0;1;3;2]) (-1) 2);
  (*789*) AddTo (T 1) (Plain (Copy n_t2));
  (*790*) Assign (T 21) (Times (Copy (T 4)) (2) 1);
  (*791*) AddTo (T 21) (Times (Transpose (T 4) [1;0;2;3]) (-1) 1);
  (*792*) Assign (T 19) (Plain (Copy (T 4)));
  (*793*) AddTo (T 19) (Times (Transpose (T 4) [1;0;2;3]) (-1) 1);
  (*794*) Assign (T 46) (Times (Transpose n_l2 [3;2;0;1]) (-1) 1);
  (*795*) AddTo (T 46) (Times (Transpose n_l2 [2;3;0;1]) (2) 1);
  (*796*) Assign (T 63) (Times (Transpose n_l2 [3;2;0;1]) (2) 1);
  (*797*) AddTo (T 63) (Times (Transpose n_l2 [2;3;0;1]) (-1) 1);
  (*798*) Assign (T 100) (Plain (Einsum [(n_l2,[0;1;2;3]); (T 99,[2;4;1;5])] [4;3;5;0]));
  (*799*) Del (T 99);
  (*800*) Assign (T 92) (Plain (Einsum [(T 4,[0;1;2;3]); (n_t1,[1;4])] [0;2;3;4]));
  (*801*) Assign (T 98) (Plain (Einsum [(n_l2,[0;1;2;3]); (T 10,[3;4;1;5])] [4;2;5;0]));
  (*802*) Assign (T 108) (Times (Transpose n_l2 [3;2;0;1]) (-1) 1);
  (*803*) AddTo (T 108) (Times (Transpose n_l2 [2;3;0;1]) (2) 1);
  (*804*) Assign (T 13) (Times (Copy (T 4)) (2) 1);
  (*805*) AddTo (T 13) (Times (Transpose (T 4) [1;0;2;3]) (-1) 1);
  (*806*) Assign (T 2) (Times (Einsum [(T 1,[0;1;2;3]); (n_l2,[2;3;0;4])] [4;1]) (2) 1);
  (*807*) Assign (T 22) (Plain (Einsum [(T 21,[0;1;2;3]); (n_t2,[4;0;5;3])] [1;2;4;5]));
  (*808*) Del (T 21);
  (*809*) Assign (T 26) (Plain (Einsum [(n_t2,[0;1;2;3]); (T 4,[1;4;5;2])] [4;5;0;3]));
  (*810*) Assign (T 49) (Times (Transpose n_l2 [3;2;0;1]) (-1) 1);
  (*811*) AddTo (T 49) (Plain (Transpose n_l2 [2;3;0;1]));
  (*812*) Assign (T 5) (Plain (Einsum [(n_t1,[0;1]); (T 4,[2;3;4;1])] [2;3;0;4]));
  (*813*) Assign (T 7) (Plain (Einsum [(n_t1,[0;1]); (n_l1,[1;2])] [2;0]));
  (*814*) Assign (T 17) (Plain (Einsum [(n_l1,[0;1]); (n_t2,[2;3;4;0])] [1;2;3;4]));
  (*815*) Assign (T 20) (Plain (Einsum [(n_t2,[0;1;2;3]); (T 19,[1;4;5;2])] [4;5;0;3]));
  (*816*) Assign (T 27) (Plain (Einsum [(T 4,[0;1;2;3]); (n_t2,[4;1;3;5])] [0;2;4;5]));
  (*817*) Assign (T 34) (Plain (Einsum [(T 1,[0;1;2;3]); (n_l2,[2;3;0;4])] [4;1]));
  (*818*) Del (T 1);
  (*819*) Assign (T 3) (Plain (Einsum [(n_t2,[0;1;2;3]); (n_l2,[3;2;4;5])] [5;4;0;1]));
  (*820*) Assign (T 118) (Plain (Einsum [(n_t1,[0;1]); (n_l2,[2;3;4;0])] [4;2;3;1]));
  (*821*) Assign (T 68) (Plain (Einsum [(n_t2,[0;1;2;3]); (n_l2,[4;2;5;1])] [5;0;4;3]));
  (*822*) Assign (T 47) (Plain (Einsum [(T 46,[0;1;2;3]); (n_t2,[4;0;5;2])] [1;4;3;5]));
  (*823*) Assign (T 84) (Plain (Einsum [(n_t1,[0;1]); (n_l1,[2;0])] [2;1]));
  (*824*) Assign (T 85) (Plain (Einsum [(n_t2,[0;1;2;3]); (T 63,[0;1;3;4])] [4;2]));
  (*825*) Assign (T 112) (Plain (Copy (T 92)));
  (*826*) AddTo (T 112) (Plain (Transpose (T 100) [1;0;3;2]));
  (*827*) AddTo (T 112) (Times (Transpose (T 98) [1;0;3;2]) (-1) 1);
  (*828*) Assign (T 101) (Plain (Transpose (T 98) [1;0;3;2]));
  (*829*) Del (T 98);
  (*830*) AddTo (T 101) (Times (Transpose (T 100) [1;0;3;2]) (-1) 1);
  (*831*) Del (T 100);
  (*832*) Assign (T 109) (Plain (Einsum [(T 108,[0;1;2;3]); (n_t2,[4;0;5;2])] [1;4;3;5]));
  (*833*) Del (T 108);
  (*834*) Assign (T 14) (Times (Einsum [(n_t2,[0;1;2;3]); (T 13,[0;1;4;2])] [4;3]) (1) 2);
  (*835*) Assign (T 15) (Times (Einsum [(n_t1,[0;1]); (T 2,[0;2])] [2;1]) (1) 2);
  (*836*) Assign (T 64) (Times (Einsum [(n_t2,[0;1;2;3]); (T 63,[0;1;3;4])] [4;2]) (1) 2);
  (*837*) Del (T 63);
  (*838*) Assign (T 72) (Plain (Copy (T 26)));
  (*839*) AddTo (T 72) (Times (Copy (T 22)) (-1) 1);
  (*840*) Assign (T 54) (Plain (Einsum [(T 46,[0;1;2;3]); (n_t2,[4;0;2;5])] [1;4;3;5]));
  (*841*) Del (T 46);
  (*842*) Assign (T 60) (Plain (Copy n_t2));
  (*843*) AddTo (T 60) (Plain (Einsum [(n_t1,[0;1]); (n_t1,[2;3])] [2;0;3;1]));
  (*844*) Assign (T 50) (Plain (Einsum [(n_t2,[0;1;2;3]); (T 49,[1;4;2;5])] [4;0;5;3]));
  (*845*) Assign (T 18) (Plain (Einsum [(T 5,[0;1;2;3]); (n_t1,[0;4])] [1;3;2;4]));
  (*846*) Assign (T 9) (Plain (Einsum [(n_t1,[0;1]); (T 7,[0;2])] [2;1]));
  (*847*) Assign (T 11) (Plain (Einsum [(n_l1,[0;1]); (T 10,[1;2;0;3])] [2;3]));
  (*848*) Del (T 10);
  (*849*) Assign (T 56) (Plain (Copy (T 17)));
  (*850*) AddTo (T 56) (Plain (Copy (T 20)));
  (*851*) AddTo (T 56) (Times (Copy (T 22)) (-1) 1);
  (*852*) Assign (T 75) (Plain (Copy (T 17)));
  (*853*) AddTo (T 75) (Times (Copy (T 27)) (-1) 1);
  (*854*) Assign (T 35) (Times (Copy (T 7)) (1) 2);
  (*855*) AddTo (T 35) (Plain (Copy (T 34)));
  (*856*) Del (T 34);
  (*857*) Assign (T 32) (Times (Transpose n_t2 [0;1;3;2]) (-1) 1);
  (*858*) AddTo (T 32) (Times (Copy n_t2) (2) 1);
  (*859*) Assign (T 6) (Plain (Transpose (T 3) [1;0;3;2]));
  (*860*) AddTo (T 6) (Plain (Copy (T 5)));
  (*861*) Assign (T 120) (Plain (Einsum [(T 118,[0;1;2;3]); (n_t1,[0;4])] [2;1;3;4]));
  (*862*) Assign (T 119) (Plain (Einsum [(n_l2,[0;1;2;3]); (n_t2,[3;2;4;5])] [0;1;5;4]));
  (*863*) Assign (T 70) (Plain (Einsum [(n_l2,[0;1;2;3]); (n_t2,[4;2;1;5])] [3;4;0;5]));
  (*864*) Assign (T 116) (Plain (Copy (T 68)));
  (*865*) AddTo (T 116) (Plain (Copy (T 92)));
  (*866*) AddTo (T 116) (Times (Copy (T 47)) (-1) 1);
  (*867*) Assign (T 86) (Plain (Copy (T 84)));
  (*868*) AddTo (T 86) (Plain (Copy (T 85)));
  (*869*) Del (T 85);
  (*870*) Assign (T 104) (Plain (Einsum [(T 4,[0;1;2;3]); (n_t2,[0;1;4;5])] [2;3;4;5]));
  (*871*) Assign (T 97) (Plain (Einsum [(n_t2,[0;1;2;3]); (n_l1,[4;1])] [0;4;2;3]));
  (*872*) Assign (T 113) (Plain (Einsum [(n_t1,[0;1]); (T 112,[0;2;3;4])] [2;3;4;1]));
  (*873*) Del (T 112);
  (*874*) Assign (T 102) (Plain (Einsum [(T 101,[0;1;2;3]); (n_t1,[0;4])] [1;2;3;4]));
  (*875*) Del (T 101);
  (*876*) Assign (T 110) (Plain (Copy (T 68)));
  (*877*) AddTo (T 110) (Plain (Copy (T 92)));
  (*878*) AddTo (T 110) (Times (Copy (T 109)) (-1) 1);
  (*879*) Del (T 109);
  (*880*) Assign (T 88) (Times (Transpose n_l2 [3;2;0;1]) (2) 1);
  (*881*) AddTo (T 88) (Times (Transpose n_l2 [2;3;0;1]) (-1) 1);
  (*882*) Assign (T 93) (Times (Copy (T 4)) (-1) 1);
  (*883*) AddTo (T 93) (Plain (Transpose (T 4) [1;0;2;3]));
  (*884*) Assign (T 81) (Times (Transpose n_t2 [0;1;3;2]) (2) 1);
  (*885*) AddTo (T 81) (Times (Copy n_t2) (-1) 1);
  (*886*) Assign (T 79) (Plain (Transpose n_t2 [0;1;3;2]));
  (*887*) AddTo (T 79) (Times (Copy n_t2) (-1) 1);
  (*888*) Assign (T 90) (Plain (Transpose n_l2 [3;2;0;1]));
  (*889*) AddTo (T 90) (Times (Transpose n_l2 [2;3;0;1]) (-1) 1);
  (*890*) Assign (T 66) (Plain (Einsum [(n_t2,[0;1;2;3]); (T 2,[1;4])] [0;4;3;2]));
  (*891*) Assign (T 16) (Plain (Copy (T 14)));
  (*892*) AddTo (T 16) (Plain (Copy (T 15)));
  (*893*) Del (T 15);
  (*894*) Assign (T 65) (Times (Einsum [(T 64,[0;1]); (n_t2,[2;3;0;4])] [2;3;1;4]) (2) 1);
  (*895*) Assign (T 73) (Plain (Einsum [(n_t1,[0;1]); (T 72,[0;2;3;4])] [2;3;4;1]));
  (*896*) Del (T 72);
  (*897*) Assign (T 55) (Plain (Einsum [(T 54,[0;1;2;3]); (n_t2,[4;0;5;2])] [1;4;3;5]));
  (*898*) Del (T 54);
  (*899*) Assign (T 59) (Plain (Einsum [(n_t2,[0;1;2;3]); (T 5,[0;1;4;5])] [5;4;3;2]));
  (*900*) Assign (T 61) (Plain (Einsum [(T 60,[0;1;2;3]); (T 3,[0;1;4;5])] [4;5;2;3]));
  (*901*) Del (T 60);
  (*902*) Assign (T 48) (Plain (Einsum [(T 47,[0;1;2;3]); (n_t2,[4;0;5;2])] [1;4;3;5]));
  (*903*) Del (T 47);
  (*904*) Assign (T 51) (Plain (Einsum [(n_t2,[0;1;2;3]); (T 50,[1;4;2;5])] [4;0;5;3]));
  (*905*) Del (T 50);
  (*906*) Assign (T 45) (Plain (Einsum [(T 18,[0;1;2;3]); (n_t1,[0;4])] [1;2;4;3]));
  (*907*) Assign (T 12) (Plain (Copy (T 9)));
  (*908*) AddTo (T 12) (Times (Copy (T 11)) (-1) 1);
  (*909*) Assign (T 57) (Plain (Einsum [(n_t1,[0;1]); (T 56,[0;2;3;4])] [2;3;4;1]));
  (*910*) Del (T 56);
  (*911*) Assign (T 53) (Plain (Einsum [(n_t2,[0;1;2;3]); (T 7,[1;4])] [4;0;2;3]));
  (*912*) Assign (T 76) (Plain (Einsum [(n_t1,[0;1]); (T 75,[0;2;3;4])] [2;3;4;1]));
  (*913*) Del (T 75);
  (*914*) Assign (T 43) (Plain (Einsum [(n_t1,[0;1]); (T 35,[0;2])] [2;1]));
  (*915*) Assign (T 42) (Times (Einsum [(T 32,[0;1;2;3]); (n_l1,[2;0])] [1;3]) (1) 2);
  (*916*) Assign (T 30) (Plain (Einsum [(T 6,[0;1;2;3]); (n_t1,[0;4])] [1;2;3;4]));
  (*917*) Assign (T 36) (Times (Einsum [(n_t1,[0;1]); (T 35,[0;2])] [2;1]) (2) 1);
  (*918*) Del (T 35);
  (*919*) Assign (T 31) (Plain (Einsum [(n_t2,[0;1;2;3]); (T 13,[0;1;4;2])] [4;3]));
  (*920*) Del (T 13);
  (*921*) Assign (T 28) (Times (Copy (T 4)) (-1) 1);
  (*922*) AddTo (T 28) (Times (Transpose (T 4) [1;0;2;3]) (2) 1);
  (*923*) Assign (T 33) (Plain (Einsum [(T 32,[0;1;2;3]); (n_l1,[2;0])] [1;3]));
  (*924*) Del (T 32);
  (*925*) Assign (T 24) (Plain (Einsum [(T 3,[0;1;2;3]); (n_t1,[1;4])] [0;2;3;4]));
  (*926*) Assign (T 121) (Plain (Transpose (T 119) [1;0;3;2]));
  (*927*) AddTo (T 121) (Plain (Transpose (T 120) [1;0;3;2]));
  (*928*) Assign (T 107) (Plain (Einsum [(n_t1,[0;1]); (T 70,[0;2;3;4])] [2;3;1;4]));
  (*929*) Assign (T 117) (Plain (Einsum [(n_t1,[0;1]); (T 116,[0;2;3;4])] [2;3;4;1]));
  (*930*) Del (T 116);
  (*931*) Assign (T 115) (Plain (Copy (T 104)));
  (*932*) AddTo (T 115) (Plain (Einsum [(n_t1,[0;1]); (T 86,[2;3])] [0;2;1;3]));
  (*933*) Assign (T 96) (Times (Copy (T 84)) (1) 2);
  (*934*) AddTo (T 96) (Plain (Copy (T 64)));
  (*935*) Assign (T 114) (Plain (Copy (T 97)));
  (*936*) AddTo (T 114) (Plain (Transpose (T 113) [0;1;3;2]));
  (*937*) Del (T 113);
  (*938*) Assign (T 103) (Plain (Copy (T 97)));
  (*939*) AddTo (T 103) (Plain (Einsum [(n_t1,[0;1]); (T 84,[2;3])] [0;2;1;3]));
  (*940*) Del (T 84);
  (*941*) AddTo (T 103) (Times (Transpose (T 102) [0;1;3;2]) (-1) 1);
  (*942*) Del (T 102);
  (*943*) Assign (T 105) (Plain (Copy (T 104)));
  (*944*) AddTo (T 105) (Times (Einsum [(n_t1,[0;1]); (T 64,[2;3])] [0;2;1;3]) (2) 1);
  (*945*) Del (T 64);
  (*946*) Assign (T 106) (Plain (Einsum [(n_t1,[0;1]); (T 92,[0;2;3;4])] [2;3;1;4]));
  (*947*) Assign (T 111) (Plain (Einsum [(n_t1,[0;1]); (T 110,[0;2;3;4])] [2;3;4;1]));
  (*948*) Del (T 110);
  (*949*) Assign (T 87) (Plain (Einsum [(n_t1,[0;1]); (T 4,[0;2;3;4])] [2;3;4;1]));
  (*950*) Assign (T 89) (Plain (Einsum [(T 88,[0;1;2;3]); (n_t2,[4;0;5;3])] [1;4;2;5]));
  (*951*) Del (T 88);
  (*952*) Assign (T 95) (Plain (Einsum [(T 49,[0;1;2;3]); (n_t2,[4;0;3;5])] [1;4;2;5]));
  (*953*) Del (T 49);
  (*954*) Assign (T 94) (Plain (Einsum [(n_t1,[0;1]); (T 93,[2;0;3;4])] [2;3;4;1]));
  (*955*) Del (T 93);
  (*956*) Assign (T 82) (Plain (Einsum [(n_l2,[0;1;2;3]); (T 81,[3;4;5;1])] [4;2;5;0]));
  (*957*) Del (T 81);
  (*958*) Assign (T 80) (Plain (Einsum [(n_l2,[0;1;2;3]); (T 79,[2;4;5;1])] [4;3;5;0]));
  (*959*) Del (T 79);
  (*960*) Assign (T 83) (Plain (Einsum [(T 19,[0;1;2;3]); (n_t1,[1;4])] [0;2;3;4]));
  (*961*) Del (T 19);
  (*962*) Assign (T 91) (Plain (Einsum [(T 90,[0;1;2;3]); (n_t2,[4;0;3;5])] [1;4;2;5]));
  (*963*) Del (T 90);
  (*964*) Assign (T 67) (Plain (Transpose (T 65) [1;0;3;2]));
  (*965*) Del (T 65);
  (*966*) AddTo (T 67) (Plain (Transpose (T 66) [0;1;3;2]));
  (*967*) Del (T 66);
  (*968*) AddTo (T 67) (Times (Einsum [(n_t1,[0;1]); (T 16,[2;3])] [0;2;1;3]) (2) 1);
  (*969*) Assign (T 71) (Plain (Einsum [(n_t2,[0;1;2;3]); (T 70,[1;4;2;5])] [0;4;3;5]));
  (*970*) Assign (T 74) (Times (Transpose (T 55) [1;0;3;2]) (-1) 1);
  (*971*) AddTo (T 74) (Plain (Transpose (T 73) [0;1;3;2]));
  (*972*) Del (T 73);
  (*973*) AddTo (T 74) (Plain (Einsum [(n_t1,[0;1]); (T 11,[2;3])] [0;2;1;3]));
  (*974*) Assign (T 62) (Plain (Copy (T 59)));
  (*975*) AddTo (T 62) (Plain (Transpose (T 61) [1;0;3;2]));
  (*976*) Assign (T 69) (Plain (Einsum [(n_t2,[0;1;2;3]); (T 68,[1;4;2;5])] [0;4;3;5]));
  (*977*) Assign (T 52) (Plain (Copy (T 45)));
  (*978*) AddTo (T 52) (Times (Transpose (T 48) [1;0;3;2]) (2) 1);
  (*979*) AddTo (T 52) (Plain (Copy (T 51)));
  (*980*) Del (T 51);
  (*981*) Assign (T 58) (Plain (Copy (T 53)));
  (*982*) AddTo (T 58) (Times (Transpose (T 55) [1;0;3;2]) (-1) 1);
  (*983*) Del (T 55);
  (*984*) AddTo (T 58) (Plain (Transpose (T 57) [0;1;3;2]));
  (*985*) Del (T 57);
  (*986*) AddTo (T 58) (Times (Einsum [(n_t1,[0;1]); (T 12,[2;3])] [0;2;1;3]) (-1) 1);
  (*987*) Assign (T 77) (Plain (Copy (T 53)));
  (*988*) Del (T 53);
  (*989*) AddTo (T 77) (Plain (Transpose (T 76) [0;1;3;2]));
  (*990*) Del (T 76);
  (*991*) Assign (T 78) (Plain (Copy n_t1));
  (*992*) AddTo (T 78) (Times (Copy (T 9)) (-1) 1);
  (*993*) Assign (T 44) (Times (Copy n_t1) (-1) 2);
  (*994*) AddTo (T 44) (Plain (Copy (T 14)));
  (*995*) Del (T 14);
  (*996*) AddTo (T 44) (Times (Copy (T 42)) (-1) 1);
  (*997*) Del (T 42);
  (*998*) AddTo (T 44) (Plain (Copy (T 43)));
  (*999*) Del (T 43);
  (*1000*) Assign (T 41) (Plain (Copy (T 17)));
  (*1001*) AddTo (T 41) (Plain (Transpose (T 30) [0;2;1;3]));
  (*1002*) AddTo (T 41) (Plain (Einsum [(n_t1,[0;1]); (T 2,[2;3])] [2;0;3;1]));
  (*1003*) Assign (T 40) (Plain (Einsum [(n_t1,[0;1]); (T 7,[2;3])] [2;0;3;1]));
  (*1004*) AddTo (T 40) (Plain (Copy (T 20)));
  (*1005*) AddTo (T 40) (Times (Copy (T 22)) (-1) 1);
  (*1006*) Assign (T 39) (Plain (Copy (T 31)));
  (*1007*) AddTo (T 39) (Plain (Copy (T 36)));
  (*1008*) Assign (T 38) (Plain (Copy (T 7)));
  (*1009*) AddTo (T 38) (Plain (Copy (T 2)));
  (*1010*) Assign (T 23) (Plain (Copy (T 17)));
  (*1011*) AddTo (T 23) (Plain (Copy (T 18)));
  (*1012*) Del (T 18);
  (*1013*) AddTo (T 23) (Plain (Copy (T 20)));
  (*1014*) Del (T 20);
  (*1015*) AddTo (T 23) (Times (Copy (T 22)) (-1) 1);
  (*1016*) Assign (T 29) (Plain (Einsum [(n_t2,[0;1;2;3]); (T 28,[4;1;5;3])] [4;5;0;2]));
  (*1017*) Del (T 28);
  (*1018*) Assign (T 37) (Times (Copy n_t1) (-1) 1);
  (*1019*) AddTo (T 37) (Plain (Copy (T 31)));
  (*1020*) Del (T 31);
  (*1021*) AddTo (T 37) (Times (Copy (T 33)) (-1) 1);
  (*1022*) Del (T 33);
  (*1023*) AddTo (T 37) (Plain (Copy (T 36)));
  (*1024*) Del (T 36);
  (*1025*) Assign (T 25) (Plain (Copy (T 24)));
  (*1026*) Del (T 24);
  (*1027*) AddTo (T 25) (Plain (Einsum [(n_t1,[0;1]); (T 2,[2;3])] [2;0;3;1]));
  (*1028*) Assign (T 8) (Plain (Copy n_delta'oo));
  (*1029*) AddTo (T 8) (Times (Copy (T 7)) (-1) 1);
  (*1030*) Assign n_rdm2'vvvv (Times (Transpose (T 121) [0;1;3;2]) (-2) 1);
  (*1031*) AddTo n_rdm2'vvvv (Times (Copy (T 121)) (2) 1);
  (*1032*) Del (T 121);
  (*1033*) AddTo n_rdm2'vvvv (Times (Transpose (T 119) [1;0;3;2]) (2) 1);
  (*1034*) Del (T 119);
  (*1035*) AddTo n_rdm2'vvvv (Times (Transpose (T 120) [1;0;3;2]) (2) 1);
  (*1036*) Del (T 120);
  (*1037*) Assign n_rdm2'vvvo (Times (Transpose (T 118) [1;2;3;0]) (-2) 1);
  (*1038*) AddTo n_rdm2'vvvo (Times (Transpose (T 118) [2;1;3;0]) (4) 1);
  (*1039*) Assign n_rdm2'vvov (Times (Transpose (T 118) [1;2;0;3]) (4) 1);
  (*1040*) AddTo n_rdm2'vvov (Times (Transpose (T 118) [2;1;0;3]) (-2) 1);
  (*1041*) Del (T 118);
  (*1042*) Assign n_rdm2'vovv (Times (Transpose (T 114) [1;0;2;3]) (-2) 1);
  (*1043*) AddTo n_rdm2'vovv (Times (Transpose (T 114) [1;0;3;2]) (2) 1);
  (*1044*) Del (T 114);
  (*1045*) AddTo n_rdm2'vovv (Times (Transpose (T 115) [1;0;2;3]) (-2) 1);
  (*1046*) AddTo n_rdm2'vovv (Times (Transpose (T 115) [1;0;3;2]) (2) 1);
  (*1047*) Del (T 115);
  (*1048*) AddTo n_rdm2'vovv (Times (Transpose (T 97) [1;0;3;2]) (2) 1);
  (*1049*) AddTo n_rdm2'vovv (Times (Transpose (T 107) [1;0;3;2]) (-2) 1);
  (*1050*) AddTo n_rdm2'vovv (Times (Transpose (T 104) [1;0;2;3]) (-2) 1);
  (*1051*) AddTo n_rdm2'vovv (Times (Transpose (T 117) [1;0;3;2]) (-2) 1);
  (*1052*) Del (T 117);
  (*1053*) AddTo n_rdm2'vovv (Times (Einsum [(n_t1,[0;1]); (T 96,[2;3])] [2;0;3;1]) (4) 1);
  (*1054*) Assign n_rdm2'ovvv (Times (Copy (T 103)) (2) 1);
  (*1055*) AddTo n_rdm2'ovvv (Times (Transpose (T 103) [0;1;3;2]) (-2) 1);
  (*1056*) Del (T 103);
  (*1057*) AddTo n_rdm2'ovvv (Times (Copy (T 105)) (2) 1);
  (*1058*) AddTo n_rdm2'ovvv (Times (Transpose (T 105) [0;1;3;2]) (-2) 1);
  (*1059*) Del (T 105);
  (*1060*) AddTo n_rdm2'ovvv (Times (Copy (T 106)) (2) 1);
  (*1061*) AddTo n_rdm2'ovvv (Times (Transpose (T 106) [0;1;3;2]) (-2) 1);
  (*1062*) Del (T 106);
  (*1063*) AddTo n_rdm2'ovvv (Times (Copy (T 97)) (2) 1);
  (*1064*) Del (T 97);
  (*1065*) AddTo n_rdm2'ovvv (Times (Transpose (T 104) [0;1;3;2]) (-2) 1);
  (*1066*) Del (T 104);
  (*1067*) AddTo n_rdm2'ovvv (Times (Copy (T 107)) (-2) 1);
  (*1068*) Del (T 107);
  (*1069*) AddTo n_rdm2'ovvv (Times (Copy (T 111)) (-2) 1);
  (*1070*) Del (T 111);
  (*1071*) AddTo n_rdm2'ovvv (Times (Einsum [(n_t1,[0;1]); (T 86,[2;3])] [0;2;1;3]) (2) 1);
  (*1072*) Assign n_rdm2'vvoo (Times (Transpose n_l2 [0;1;3;2]) (-2) 1);
  (*1073*) AddTo n_rdm2'vvoo (Times (Copy n_l2) (4) 1);
  (*1074*) Assign n_rdm2'vovo (Times (Einsum [(n_t1,[0;1]); (n_l1,[2;3])] [2;0;1;3]) (-2) 1);
  (*1075*) AddTo n_rdm2'vovo (Times (Transpose (T 89) [2;1;3;0]) (-2) 1);
  (*1076*) AddTo n_rdm2'vovo (Times (Transpose (T 95) [2;1;3;0]) (-2) 1);
  (*1077*) Del (T 95);
  (*1078*) AddTo n_rdm2'vovo (Times (Transpose (T 94) [2;1;3;0]) (-2) 1);
  (*1079*) AddTo n_rdm2'vovo (Times (Einsum [(n_delta'oo,[0;1]); (T 96,[2;3])] [2;0;3;1]) (8) 1);
  (*1080*) Del (T 96);
  (*1081*) AddTo n_rdm2'vovo (Times (Transpose (T 70) [2;1;3;0]) (-2) 1);
  (*1082*) AddTo n_rdm2'vovo (Times (Transpose (T 87) [2;1;3;0]) (-2) 1);
  (*1083*) Assign n_rdm2'voov (Times (Einsum [(n_t1,[0;1]); (n_l1,[2;3])] [2;0;3;1]) (4) 1);
  (*1084*) AddTo n_rdm2'voov (Times (Transpose (T 82) [3;0;1;2]) (2) 1);
  (*1085*) AddTo n_rdm2'voov (Times (Transpose (T 80) [3;0;1;2]) (-2) 1);
  (*1086*) AddTo n_rdm2'voov (Times (Transpose (T 94) [2;1;0;3]) (2) 1);
  (*1087*) Del (T 94);
  (*1088*) AddTo n_rdm2'voov (Times (Einsum [(T 86,[0;1]); (n_delta'oo,[2;3])] [0;2;3;1]) (-2) 1);
  (*1089*) AddTo n_rdm2'voov (Times (Transpose (T 68) [2;1;0;3]) (-2) 1);
  (*1090*) AddTo n_rdm2'voov (Times (Transpose (T 92) [2;1;0;3]) (-2) 1);
  (*1091*) AddTo n_rdm2'voov (Times (Transpose (T 89) [2;1;0;3]) (2) 1);
  (*1092*) Assign n_rdm2'ovvo (Times (Einsum [(n_t1,[0;1]); (n_l1,[2;3])] [0;2;1;3]) (4) 1);
  (*1093*) AddTo n_rdm2'ovvo (Times (Transpose (T 89) [1;2;3;0]) (4) 1);
  (*1094*) Del (T 89);
  (*1095*) AddTo n_rdm2'ovvo (Times (Transpose (T 91) [1;2;3;0]) (-2) 1);
  (*1096*) Del (T 91);
  (*1097*) AddTo n_rdm2'ovvo (Times (Transpose (T 83) [1;2;3;0]) (-2) 1);
  (*1098*) AddTo n_rdm2'ovvo (Times (Einsum [(T 86,[0;1]); (n_delta'oo,[2;3])] [2;0;1;3]) (-2) 1);
  (*1099*) AddTo n_rdm2'ovvo (Times (Transpose (T 68) [1;2;3;0]) (-2) 1);
  (*1100*) Del (T 68);
  (*1101*) AddTo n_rdm2'ovvo (Times (Transpose (T 92) [1;2;3;0]) (-2) 1);
  (*1102*) Del (T 92);
  (*1103*) Assign n_rdm2'ovov (Times (Einsum [(n_t1,[0;1]); (n_l1,[2;3])] [0;2;3;1]) (-2) 1);
  (*1104*) AddTo n_rdm2'ovov (Times (Transpose (T 80) [0;3;1;2]) (2) 1);
  (*1105*) Del (T 80);
  (*1106*) AddTo n_rdm2'ovov (Times (Transpose (T 82) [0;3;1;2]) (-2) 1);
  (*1107*) Del (T 82);
  (*1108*) AddTo n_rdm2'ovov (Times (Transpose (T 83) [1;2;0;3]) (2) 1);
  (*1109*) Del (T 83);
  (*1110*) AddTo n_rdm2'ovov (Times (Einsum [(T 86,[0;1]); (n_delta'oo,[2;3])] [2;0;3;1]) (4) 1);
  (*1111*) Del (T 86);
  (*1112*) AddTo n_rdm2'ovov (Times (Transpose (T 70) [1;2;0;3]) (-2) 1);
  (*1113*) Del (T 70);
  (*1114*) AddTo n_rdm2'ovov (Times (Transpose (T 87) [1;2;0;3]) (-2) 1);
  (*1115*) Del (T 87);
  (*1116*) Assign n_rdm2'oovv (Times (Transpose n_t2 [0;1;3;2]) (-2) 1);
  (*1117*) AddTo n_rdm2'oovv (Times (Copy n_t2) (4) 1);
  (*1118*) AddTo n_rdm2'oovv (Times (Einsum [(n_t1,[0;1]); (n_t1,[2;3])] [2;0;1;3]) (-2) 1);
  (*1119*) AddTo n_rdm2'oovv (Times (Einsum [(n_t1,[0;1]); (n_t1,[2;3])] [2;0;3;1]) (2) 1);
  (*1120*) AddTo n_rdm2'oovv (Times (Copy (T 52)) (2) 1);
  (*1121*) AddTo n_rdm2'oovv (Times (Transpose (T 52) [0;1;3;2]) (-2) 1);
  (*1122*) Del (T 52);
  (*1123*) AddTo n_rdm2'oovv (Times (Copy (T 58)) (2) 1);
  (*1124*) AddTo n_rdm2'oovv (Times (Transpose (T 58) [0;1;3;2]) (-2) 1);
  (*1125*) AddTo n_rdm2'oovv (Times (Transpose (T 58) [1;0;2;3]) (-2) 1);
  (*1126*) AddTo n_rdm2'oovv (Times (Transpose (T 58) [1;0;3;2]) (2) 1);
  (*1127*) Del (T 58);
  (*1128*) AddTo n_rdm2'oovv (Times (Copy (T 62)) (2) 1);
  (*1129*) AddTo n_rdm2'oovv (Times (Transpose (T 62) [0;1;3;2]) (-2) 1);
  (*1130*) Del (T 62);
  (*1131*) AddTo n_rdm2'oovv (Times (Copy (T 67)) (-4) 1);
  (*1132*) AddTo n_rdm2'oovv (Times (Transpose (T 67) [0;1;3;2]) (2) 1);
  (*1133*) AddTo n_rdm2'oovv (Times (Transpose (T 67) [1;0;2;3]) (2) 1);
  (*1134*) AddTo n_rdm2'oovv (Times (Transpose (T 67) [1;0;3;2]) (-4) 1);
  (*1135*) Del (T 67);
  (*1136*) AddTo n_rdm2'oovv (Times (Copy (T 69)) (2) 1);
  (*1137*) Del (T 69);
  (*1138*) AddTo n_rdm2'oovv (Times (Transpose (T 71) [0;1;3;2]) (2) 1);
  (*1139*) Del (T 71);
  (*1140*) AddTo n_rdm2'oovv (Times (Copy (T 59)) (2) 1);
  (*1141*) Del (T 59);
  (*1142*) AddTo n_rdm2'oovv (Times (Copy (T 45)) (2) 1);
  (*1143*) Del (T 45);
  (*1144*) AddTo n_rdm2'oovv (Times (Einsum [(n_t1,[0;1]); (T 9,[2;3])] [0;2;1;3]) (-2) 1);
  (*1145*) Del (T 9);
  (*1146*) AddTo n_rdm2'oovv (Times (Copy (T 74)) (2) 1);
  (*1147*) AddTo n_rdm2'oovv (Times (Transpose (T 74) [1;0;3;2]) (2) 1);
  (*1148*) Del (T 74);
  (*1149*) AddTo n_rdm2'oovv (Times (Transpose (T 77) [0;1;3;2]) (-2) 1);
  (*1150*) AddTo n_rdm2'oovv (Times (Transpose (T 77) [1;0;2;3]) (-2) 1);
  (*1151*) Del (T 77);
  (*1152*) AddTo n_rdm2'oovv (Times (Copy (T 48)) (4) 1);
  (*1153*) Del (T 48);
  (*1154*) AddTo n_rdm2'oovv (Times (Transpose (T 61) [1;0;3;2]) (2) 1);
  (*1155*) Del (T 61);
  (*1156*) AddTo n_rdm2'oovv (Times (Einsum [(n_t1,[0;1]); (T 78,[2;3])] [2;0;3;1]) (2) 1);
  (*1157*) Del (T 78);
  (*1158*) Assign n_rdm2'vooo (Times (Einsum [(n_delta'oo,[0;1]); (n_l1,[2;3])] [2;0;3;1]) (4) 1);
  (*1159*) AddTo n_rdm2'vooo (Times (Einsum [(n_delta'oo,[0;1]); (n_l1,[2;3])] [2;0;1;3]) (-2) 1);
  (*1160*) AddTo n_rdm2'vooo (Times (Transpose (T 4) [3;2;0;1]) (-4) 1);
  (*1161*) AddTo n_rdm2'vooo (Times (Transpose (T 4) [3;2;1;0]) (2) 1);
  (*1162*) Assign n_rdm2'ovoo (Times (Einsum [(n_delta'oo,[0;1]); (n_l1,[2;3])] [0;2;3;1]) (-2) 1);
  (*1163*) AddTo n_rdm2'ovoo (Times (Einsum [(n_delta'oo,[0;1]); (n_l1,[2;3])] [0;2;1;3]) (4) 1);
  (*1164*) AddTo n_rdm2'ovoo (Times (Transpose (T 4) [2;3;0;1]) (2) 1);
  (*1165*) AddTo n_rdm2'ovoo (Times (Transpose (T 4) [2;3;1;0]) (-4) 1);
  (*1166*) Del (T 4);
  (*1167*) Assign n_rdm2'oovo (Times (Einsum [(n_delta'oo,[0;1]); (T 11,[2;3])] [2;0;3;1]) (2) 1);
  (*1168*) AddTo n_rdm2'oovo (Times (Einsum [(n_delta'oo,[0;1]); (T 11,[2;3])] [0;2;3;1]) (-2) 1);
  (*1169*) Del (T 11);
  (*1170*) AddTo n_rdm2'oovo (Times (Einsum [(n_delta'oo,[0;1]); (T 39,[2;3])] [2;0;3;1]) (-2) 1);
  (*1171*) AddTo n_rdm2'oovo (Times (Einsum [(n_delta'oo,[0;1]); (T 39,[2;3])] [0;2;3;1]) (2) 1);
  (*1172*) Del (T 39);
  (*1173*) AddTo n_rdm2'oovo (Times (Einsum [(n_t1,[0;1]); (n_delta'oo,[2;3])] [0;2;1;3]) (2) 1);
  (*1174*) AddTo n_rdm2'oovo (Times (Einsum [(n_t1,[0;1]); (n_delta'oo,[2;3])] [2;0;1;3]) (-2) 1);
  (*1175*) AddTo n_rdm2'oovo (Times (Transpose (T 40) [1;2;3;0]) (-2) 1);
  (*1176*) AddTo n_rdm2'oovo (Times (Transpose (T 40) [2;1;3;0]) (2) 1);
  (*1177*) Del (T 40);
  (*1178*) AddTo n_rdm2'oovo (Times (Transpose (T 41) [1;2;3;0]) (-2) 1);
  (*1179*) AddTo n_rdm2'oovo (Times (Transpose (T 41) [2;1;3;0]) (2) 1);
  (*1180*) Del (T 41);
  (*1181*) AddTo n_rdm2'oovo (Times (Transpose (T 27) [1;2;3;0]) (2) 1);
  (*1182*) AddTo n_rdm2'oovo (Times (Transpose (T 26) [2;1;3;0]) (2) 1);
  (*1183*) AddTo n_rdm2'oovo (Times (Transpose (T 17) [1;2;3;0]) (-2) 1);
  (*1184*) AddTo n_rdm2'oovo (Times (Transpose (T 22) [2;1;3;0]) (-2) 1);
  (*1185*) Del (T 22);
  (*1186*) AddTo n_rdm2'oovo (Times (Transpose (T 30) [1;2;3;0]) (2) 1);
  (*1187*) AddTo n_rdm2'oovo (Times (Einsum [(T 44,[0;1]); (n_delta'oo,[2;3])] [0;2;1;3]) (-4) 1);
  (*1188*) Del (T 44);
  (*1189*) AddTo n_rdm2'oovo (Times (Einsum [(n_t1,[0;1]); (T 38,[2;3])] [0;3;1;2]) (-2) 1);
  (*1190*) Assign n_rdm2'ooov (Times (Einsum [(T 12,[0;1]); (n_delta'oo,[2;3])] [0;2;3;1]) (2) 1);
  (*1191*) AddTo n_rdm2'ooov (Times (Einsum [(n_delta'oo,[0;1]); (T 12,[2;3])] [0;2;1;3]) (-2) 1);
  (*1192*) Del (T 12);
  (*1193*) AddTo n_rdm2'ooov (Times (Einsum [(n_t1,[0;1]); (n_delta'oo,[2;3])] [0;2;3;1]) (-2) 1);
  (*1194*) AddTo n_rdm2'ooov (Times (Einsum [(n_t1,[0;1]); (n_delta'oo,[2;3])] [2;0;3;1]) (2) 1);
  (*1195*) AddTo n_rdm2'ooov (Times (Einsum [(n_delta'oo,[0;1]); (T 16,[2;3])] [2;0;1;3]) (4) 1);
  (*1196*) AddTo n_rdm2'ooov (Times (Einsum [(n_delta'oo,[0;1]); (T 16,[2;3])] [0;2;1;3]) (-4) 1);
  (*1197*) Del (T 16);
  (*1198*) AddTo n_rdm2'ooov (Times (Transpose (T 23) [1;2;0;3]) (2) 1);
  (*1199*) AddTo n_rdm2'ooov (Times (Transpose (T 23) [2;1;0;3]) (-2) 1);
  (*1200*) Del (T 23);
  (*1201*) AddTo n_rdm2'ooov (Times (Transpose (T 25) [1;2;0;3]) (2) 1);
  (*1202*) AddTo n_rdm2'ooov (Times (Transpose (T 25) [2;1;0;3]) (-2) 1);
  (*1203*) Del (T 25);
  (*1204*) AddTo n_rdm2'ooov (Times (Einsum [(T 7,[0;1]); (n_t1,[2;3])] [2;1;0;3]) (2) 1);
  (*1205*) AddTo n_rdm2'ooov (Times (Einsum [(n_t1,[0;1]); (T 7,[2;3])] [3;0;2;1]) (-2) 1);
  (*1206*) AddTo n_rdm2'ooov (Times (Transpose (T 26) [1;2;0;3]) (2) 1);
  (*1207*) Del (T 26);
  (*1208*) AddTo n_rdm2'ooov (Times (Transpose (T 27) [2;1;0;3]) (2) 1);
  (*1209*) Del (T 27);
  (*1210*) AddTo n_rdm2'ooov (Times (Transpose (T 17) [2;1;0;3]) (-2) 1);
  (*1211*) Del (T 17);
  (*1212*) AddTo n_rdm2'ooov (Times (Transpose (T 29) [1;2;0;3]) (-2) 1);
  (*1213*) Del (T 29);
  (*1214*) AddTo n_rdm2'ooov (Times (Transpose (T 30) [2;1;0;3]) (2) 1);
  (*1215*) Del (T 30);
  (*1216*) AddTo n_rdm2'ooov (Times (Einsum [(n_delta'oo,[0;1]); (T 37,[2;3])] [0;2;1;3]) (-2) 1);
  (*1217*) Del (T 37);
  (*1218*) AddTo n_rdm2'ooov (Times (Einsum [(n_t1,[0;1]); (T 38,[2;3])] [3;0;2;1]) (-2) 1);
  (*1219*) Del (T 38);
  (*1220*) Assign n_rdm2'oooo (Times (Einsum [(T 2,[0;1]); (n_delta'oo,[2;3])] [1;2;0;3]) (-4) 1);
  (*1221*) AddTo n_rdm2'oooo (Times (Einsum [(n_delta'oo,[0;1]); (T 2,[2;3])] [0;3;2;1]) (2) 1);
  (*1222*) AddTo n_rdm2'oooo (Times (Einsum [(n_delta'oo,[0;1]); (T 2,[2;3])] [3;0;1;2]) (2) 1);
  (*1223*) AddTo n_rdm2'oooo (Times (Einsum [(T 2,[0;1]); (n_delta'oo,[2;3])] [2;1;3;0]) (-4) 1);
  (*1224*) Del (T 2);
  (*1225*) AddTo n_rdm2'oooo (Times (Einsum [(n_delta'oo,[0;1]); (n_delta'oo,[2;3])] [2;0;3;1]) (2) 1);
  (*1226*) AddTo n_rdm2'oooo (Times (Einsum [(n_delta'oo,[0;1]); (n_delta'oo,[2;3])] [2;0;1;3]) (-2) 1);
  (*1227*) AddTo n_rdm2'oooo (Times (Transpose (T 6) [3;2;0;1]) (-2) 1);
  (*1228*) AddTo n_rdm2'oooo (Times (Transpose (T 6) [2;3;0;1]) (2) 1);
  (*1229*) Del (T 6);
  (*1230*) AddTo n_rdm2'oooo (Times (Einsum [(T 7,[0;1]); (n_delta'oo,[2;3])] [1;2;0;3]) (-2) 1);
  (*1231*) AddTo n_rdm2'oooo (Times (Einsum [(T 7,[0;1]); (n_delta'oo,[2;3])] [2;1;0;3]) (2) 1);
  (*1232*) AddTo n_rdm2'oooo (Times (Einsum [(T 7,[0;1]); (n_delta'oo,[2;3])] [1;2;3;0]) (2) 1);
  (*1233*) AddTo n_rdm2'oooo (Times (Einsum [(T 7,[0;1]); (n_delta'oo,[2;3])] [2;1;3;0]) (-4) 1);
  (*1234*) Del (T 7);
  (*1235*) AddTo n_rdm2'oooo (Times (Transpose (T 3) [3;2;1;0]) (2) 1);
  (*1236*) Del (T 3);
  (*1237*) AddTo n_rdm2'oooo (Times (Transpose (T 5) [3;2;1;0]) (2) 1);
  (*1238*) Del (T 5);
  (*1239*) AddTo n_rdm2'oooo (Times (Einsum [(T 8,[0;1]); (n_delta'oo,[2;3])] [1;2;0;3]) (2) 1);
  (*1240*) Del n_delta'oo;
  (*1240*) Del n_delta'vv;
  (*1240*) Del (T 8)]
 [(n_rdm2'oooo,[0;0;0;0]); (n_rdm2'ooov,[0;0;0;1]); (n_rdm2'oovo,[0;0;1;0]); (n_rdm2'ovoo,[0;1;0;0]); (n_rdm2'vooo,[1;0;0;0]); (n_rdm2'oovv,[0;0;1;1]); (n_rdm2'ovov,[0;1;0;1]); (n_rdm2'ovvo,[0;1;1;0]); (n_rdm2'voov,[1;0;0;1]); (n_rdm2'vovo,[1;0;1;0]); (n_rdm2'vvoo,[1;1;0;0]); (n_rdm2'ovvv,[0;1;1;1]); (n_rdm2'vovv,[1;0;1;1]); (n_rdm2'vvov,[1;1;0;1]); (n_rdm2'vvvo,[1;1;1;0]); (n_rdm2'vvvv,[1;1;1;1])].

(** ebcc/codegen/RCCSD.py:1246-1398 [hbar_matvec_ip_intermediates] *)
Definition RCCSD_hbar_matvec_ip_intermediates : prog := mkprog
 [(n_t1,[0;1]); (n_v'ovov,[0;1;0;1]); (n_v'ooov,[0;0;0;1]); (n_t2,[0;0;1;1]); (n_f'ov,[0;1]); (n_v'ovvv,[0;1;1;1]); (n_v'oovv,[0;0;1;1]); (n_f'vv,[1;1]); (n_f'oo,[0;0]); (n_v'oooo,[0;0;0;0])]
 [(*1331*) Assign (T 7) (Plain (Einsum [(n_t1,[0;1]); (n_v'ovov,[2;3;0;1])] [2;3]));
  (*1332*) Assign (T 6) (Plain (Einsum [(n_t1,[0;1]); (n_v'ovov,[2;1;0;3])] [2;3]));
  (*1333*) Assign (T 10) (Plain (Einsum [(n_t1,[0;1]); (n_v'ovov,[2;3;4;1])] [0;2;4;3]));
  (*1334*) Assign (T 18) (Plain (Einsum [(n_t1,[0;1]); (T 7,[2;1])] [0;2]));
  (*1335*) Assign (T 17) (Plain (Einsum [(T 6,[0;1]); (n_t1,[2;1])] [2;0]));
  (*1336*) Assign (T 31) (Plain (Einsum [(n_t1,[0;1]); (n_v'ooov,[2;3;4;1])] [0;2;3;4]));
  (*1337*) Assign (T 13) (Plain (Einsum [(n_v'ovov,[0;1;2;3]); (n_t2,[4;2;3;1])] [4;0]));
  (*1338*) Assign (T 15) (Plain (Einsum [(n_v'ovov,[0;1;2;3]); (n_t2,[4;2;1;3])] [4;0]));
  (*1339*) Assign (T 1) (Plain (Einsum [(n_t1,[0;1]); (n_f'ov,[2;1])] [2;0]));
  (*1340*) Assign (T 91) (Plain (Einsum [(n_t1,[0;1]); (T 10,[2;3;4;1])] [2;0;4;3]));
  (*1341*) Assign (T 84) (Plain (Einsum [(n_t1,[0;1]); (n_v'ovvv,[2;3;4;1])] [0;2;3;4]));
  (*1342*) Assign (T 22) (Plain (Einsum [(n_v'ovvv,[0;1;2;3]); (n_t1,[0;3])] [1;2]));
  (*1343*) Assign (T 20) (Plain (Einsum [(n_t1,[0;1]); (n_v'ovvv,[0;1;2;3])] [2;3]));
  (*1344*) Assign (T 5) (Plain (Einsum [(n_t1,[0;1]); (n_v'ooov,[2;3;0;1])] [2;3]));
  (*1345*) Assign (T 4) (Plain (Einsum [(n_v'ooov,[0;1;2;3]); (n_t1,[1;3])] [0;2]));
  (*1346*) Assign (T 26) (Plain (Einsum [(n_v'ovov,[0;1;2;3]); (n_t2,[4;5;1;3])] [4;5;0;2]));
  (*1347*) Assign (T 110) (Plain (Einsum [(n_t1,[0;1]); (T 18,[2;0])] [2;1]));
  (*1348*) Assign (T 109) (Plain (Einsum [(n_t1,[0;1]); (T 17,[2;0])] [2;1]));
  (*1349*) Assign (T 104) (Plain (Einsum [(T 31,[0;1;2;3]); (n_t1,[3;4])] [0;2;1;4]));
  (*1350*) Assign (T 103) (Plain (Einsum [(n_t1,[0;1]); (T 13,[2;0])] [2;1]));
  (*1351*) Assign (T 102) (Plain (Einsum [(n_t1,[0;1]); (T 15,[2;0])] [2;1]));
  (*1352*) Assign (T 101) (Plain (Einsum [(n_t2,[0;1;2;3]); (T 10,[4;5;1;2])] [4;0;5;3]));
  (*1353*) Assign (T 100) (Plain (Einsum [(n_t2,[0;1;2;3]); (T 10,[4;1;0;2])] [4;3]));
  (*1354*) Assign (T 99) (Plain (Einsum [(n_t2,[0;1;2;3]); (T 10,[4;0;1;2])] [4;3]));
  (*1355*) Assign (T 95) (Plain (Einsum [(n_t1,[0;1]); (n_v'oovv,[2;3;4;1])] [0;2;3;4]));
  (*1356*) Assign (T 94) (Plain (Einsum [(n_t1,[0;1]); (T 1,[0;2])] [2;1]));
  (*1357*) Assign (T 93) (Plain (Einsum [(T 91,[0;1;2;3]); (n_t1,[2;4])] [1;0;3;4]));
  (*1358*) Assign (T 90) (Plain (Einsum [(n_t1,[0;1]); (T 84,[2;3;1;4])] [0;2;3;4]));
  (*1359*) Assign (T 89) (Plain (Einsum [(n_t1,[0;1]); (T 22,[1;2])] [0;2]));
  (*1360*) Assign (T 88) (Plain (Einsum [(n_t1,[0;1]); (T 20,[2;1])] [0;2]));
  (*1361*) Assign (T 87) (Plain (Einsum [(n_t2,[0;1;2;3]); (n_v'ovvv,[1;2;4;3])] [0;4]));
  (*1362*) Assign (T 86) (Plain (Einsum [(n_t2,[0;1;2;3]); (n_v'ovvv,[1;3;4;2])] [0;4]));
  (*1363*) Assign (T 83) (Plain (Einsum [(n_t1,[0;1]); (n_f'vv,[2;1])] [0;2]));
  (*1364*) Assign (T 79) (Plain (Einsum [(n_t1,[0;1]); (T 5,[2;0])] [2;1]));
  (*1365*) Assign (T 78) (Plain (Einsum [(n_t1,[0;1]); (T 4,[2;0])] [2;1]));
  (*1366*) Assign (T 77) (Plain (Einsum [(T 7,[0;1]); (n_t2,[2;3;4;1])] [2;3;0;4]));
  (*1367*) Assign (T 76) (Plain (Einsum [(T 6,[0;1]); (n_t2,[2;3;4;1])] [2;3;0;4]));
  (*1368*) Assign (T 70) (Plain (Einsum [(n_t2,[0;1;2;3]); (n_v'ovov,[0;2;1;4])] [3;4]));
  (*1369*) Assign (T 68) (Plain (Einsum [(n_t2,[0;1;2;3]); (n_v'ovov,[0;4;1;2])] [3;4]));
  (*1370*) Assign (T 67) (Plain (Einsum [(n_v'ooov,[0;1;2;3]); (n_t2,[4;1;3;5])] [4;0;2;5]));
  (*1371*) Assign (T 66) (Plain (Einsum [(n_t2,[0;1;2;3]); (n_v'ooov,[4;1;0;2])] [4;3]));
  (*1372*) Assign (T 65) (Plain (Einsum [(n_t2,[0;1;2;3]); (n_v'ooov,[4;0;1;2])] [4;3]));
  (*1373*) Assign (T 61) (Plain (Einsum [(n_f'ov,[0;1]); (n_t2,[2;3;4;1])] [0;2;3;4]));
  (*1374*) Assign (T 59) (Plain (Einsum [(n_t1,[0;1]); (n_f'oo,[2;0])] [2;1]));
  (*1375*) Assign (T 58) (Plain (Einsum [(T 7,[0;1]); (n_t2,[2;0;3;1])] [2;3]));
  (*1376*) Assign (T 57) (Plain (Einsum [(T 7,[0;1]); (n_t2,[2;0;1;3])] [2;3]));
  (*1377*) Assign (T 56) (Plain (Einsum [(T 6,[0;1]); (n_t2,[2;0;3;1])] [2;3]));
  (*1378*) Assign (T 55) (Plain (Einsum [(T 6,[0;1]); (n_t2,[2;0;1;3])] [2;3]));
  (*1379*) Assign (T 53) (Plain (Einsum [(n_v'ovov,[0;1;2;3]); (n_t2,[4;2;5;3])] [4;0;5;1]));
  (*1380*) Assign (T 52) (Plain (Einsum [(n_t2,[0;1;2;3]); (n_v'ovov,[4;5;1;2])] [0;4;3;5]));
  (*1381*) Assign (T 51) (Plain (Einsum [(n_t2,[0;1;2;3]); (n_v'ovov,[4;3;1;5])] [0;4;2;5]));
  (*1382*) Assign (T 50) (Plain (Einsum [(n_t2,[0;1;2;3]); (n_v'ovov,[4;2;1;5])] [0;4;3;5]));
  (*1383*) Assign (T 49) (Plain (Einsum [(n_t2,[0;1;2;3]); (n_v'ooov,[4;5;1;2])] [0;4;5;3]));
  (*1384*) Assign (T 47) (Plain (Einsum [(n_t2,[0;1;2;3]); (n_v'ooov,[4;5;1;3])] [0;4;5;2]));
  (*1385*) Assign (T 46) (Plain (Einsum [(n_t2,[0;1;2;3]); (n_v'ooov,[4;1;5;3])] [0;4;5;2]));
  (*1386*) Assign (T 43) (Plain (Einsum [(n_v'oooo,[0;1;2;3]); (n_t1,[3;4])] [0;1;2;4]));
  (*1387*) Assign (T 41) (Plain (Einsum [(n_f'ov,[0;1]); (n_t2,[2;0;3;1])] [2;3]));
  (*1388*) Assign (T 40) (Plain (Einsum [(n_f'ov,[0;1]); (n_t2,[2;0;1;3])] [2;3]));
  (*1389*) Assign (T 38) (Plain (Einsum [(T 31,[0;1;2;3]); (n_t1,[2;4])] [0;1;3;4]));
  (*1390*) Assign (T 37) (Plain (Einsum [(n_t2,[0;1;2;3]); (T 10,[4;1;5;2])] [4;0;5;3]));
  (*1391*) Assign (T 36) (Plain (Einsum [(T 10,[0;1;2;3]); (n_t2,[4;2;5;3])] [0;4;1;5]));
  (*1392*) Assign (T 35) (Plain (Einsum [(n_t2,[0;1;2;3]); (T 10,[4;1;5;3])] [4;0;5;2]));
  (*1393*) Assign (T 30) (Plain (Einsum [(n_t1,[0;1]); (n_v'oovv,[2;0;3;1])] [2;3]));
  (*1394*) Assign (T 28) (Plain (Einsum [(T 26,[0;1;2;3]); (n_t1,[3;4])] [0;1;2;4]));
  (*1395*) Assign (T 24) (Plain (Einsum [(n_t2,[0;1;2;3]); (n_v'ovvv,[4;2;5;3])] [0;1;4;5]));
  (*1396*) Assign (T 23) (Plain (Einsum [(n_t1,[0;1]); (n_v'ovvv,[2;1;3;4])] [0;2;3;4]))]
 [(T 1,[0;0]); (T 101,[0;0;0;1]); (T 102,[0;1]); (T 103,[0;1]); (T 104,[0;0;0;1]); (T 109,[0;1]); (T 110,[0;1]); (T 13,[0;0]); (T 15,[0;0]); (T 17,[0;0]); (T 18,[0;0]); (T 20,[1;1]); (T 22,[1;1]); (T 23,[0;0;1;1]); (T 24,[0;0;0;1]); (T 26,[0;0;0;0]); (T 28,[0;0;0;1]); (T 30,[0;1]); (T 4,[0;0]); (T 31,[0;0;0;0]); (T 35,[0;0;0;1]); (T 36,[0;0;0;1]); (T 37,[0;0;0;1]); (T 38,[0;0;0;1]); (T 40,[0;1]); (T 5,[0;0]); (T 41,[0;1]); (T 43,[0;0;0;1]); (T 46,[0;0;0;1]); (T 47,[0;0;0;1]); (T 49,[0;0;0;1]); (T 50,[0;0;1;1]); (T 6,[0;1]); (T 51,[0;0;1;1]); (T 52,[0;0;1;1]); (T 53,[0;0;1;1]); (T 55,[0;1]); (T 56,[0;1]); (T 57,[0;1]); (T 58,[0;1]); (T 59,[0;1]); (T 7,[0;1]); (T 61,[0;0;0;1]); (T 65,[0;1]); (T 66,[0;1]); (T 67,[0;0;0;1]); (T 68,[1;1]); (T 70,[1;1]); (T 76,[0;0;0;1]); (T 77,[0;0;0;1]); (T 78,[0;1]); (T 79,[0;1]); (T 83,[0;1]); (T 84,[0;0;1;1]); (T 86,[0;1]); (T 87,[0;1]); (T 88,[0;1]); (T 89,[0;1]); (T 90,[0;0;0;1]); (T 10,[0;0;0;1]); (T 91,[0;0;0;0]); (T 93,[0;0;0;1]); (T 94,[0;1]); (T 95,[0;0;0;1]); (T 99,[0;1]); (T 100,[0;1])].

(** ebcc/codegen/RCCSD.py:1400-1560 [hbar_matvec_ip] *)
Definition RCCSD_hbar_matvec_ip : prog := mkprog
 [(n_f'ov,[0;1]); (IT 7,[0;1]); (IT 6,[0;1]); (IT 10,[0;0;0;1]); (n_v'ooov,[0;0;0;1]); (n_r2,[0;0;1]); (n_v'ovov,[0;1;0;1]); (IT 102,[0;1]); (IT 110,[0;1]); (IT 30,[0;1]); (IT 40,[0;1]); (IT 56,[0;1]); (IT 57,[0;1]); (IT 59,[0;1]); (IT 66,[0;1]); (IT 79,[0;1]); (IT 87,[0;1]); (IT 89,[0;1]); (IT 94,[0;1]); (IT 99,[0;1]); (IT 103,[0;1]); (IT 109,[0;1]); (IT 41,[0;1]); (IT 55,[0;1]); (IT 58,[0;1]); (IT 65,[0;1]); (IT 78,[0;1]); (IT 83,[0;1]); (IT 86,[0;1]); (IT 88,[0;1]); (IT 100,[0;1]); (n_f'oo,[0;0]); (IT 1,[0;0]); (IT 15,[0;0]); (IT 18,[0;0]); (IT 5,[0;0]); (IT 13,[0;0]); (IT 17,[0;0]); (IT 4,[0;0]); (IT 22,[1;1]); (IT 70,[1;1]); (n_f'vv,[1;1]); (IT 20,[1;1]); (IT 68,[1;1]); (n_t1,[0;1]); (IT 23,[0;0;1;1]); (n_v'oovv,[0;0;1;1]); (IT 50,[0;0;1;1]); (IT 101,[0;0;0;1]); (IT 104,[0;0;0;1]); (IT 28,[0;0;0;1]); (IT 36,[0;0;0;1]); (IT 37,[0;0;0;1]); (IT 38,[0;0;0;1]); (IT 43,[0;0;0;1]); (IT 46,[0;0;0;1]); (IT 49,[0;0;0;1]); (IT 67,[0;0;0;1]); (IT 76,[0;0;0;1]); (IT 93,[0;0;0;1]); (IT 24,[0;0;0;1]); (IT 35,[0;0;0;1]); (IT 47,[0;0;0;1]); (IT 61,[0;0;0;1]); (IT 77,[0;0;0;1]); (IT 90,[0;0;0;1]); (IT 95,[0;0;0;1]); (n_v'ovoo,[0;1;0;0]); (IT 31,[0;0;0;0]); (IT 91,[0;0;0;0]); (IT 53,[0;0;1;1]); (IT 84,[0;0;1;1]); (IT 51,[0;0;1;1]); (IT 52,[0;0;1;1]); (IT 26,[0;0;0;0]); (n_v'oooo,[0;0;0;0]); (n_r1,[0]); (n_t2,[0;0;1;1])]
 [(*1428*) Assign (T 2) (Times (Copy n_f'ov) (1) 2);
  (*1429*) AddTo (T 2) (Plain (Copy (IT 7)));
  (*1430*) AddTo (T 2) (Times (Copy (IT 6)) (-1) 2);
  (*1431*) Assign (T 13) (Plain (Copy (IT 10)));
  (*1432*) AddTo (T 13) (Plain (Transpose n_v'ooov [0;2;1;3]));
  (*1433*) Assign (T 3) (Times (Copy n_r2) (2) 1);
  (*1434*) AddTo (T 3) (Times (Transpose n_r2 [1;0;2]) (-1) 1);
  (*1435*) Assign (T 15) (Plain (Transpose n_v'ovov [0;2;3;1]));
  (*1436*) AddTo (T 15) (Times (Transpose n_v'ovov [0;2;1;3]) (-1) 2);
  (*1437*) Assign (T 17) (Times (Copy (IT 102)) (2) 1);
  (*1438*) AddTo (T 17) (Times (Copy (IT 110)) (2) 1);
  (*1439*) AddTo (T 17) (Plain (Copy (IT 30)));
  (*1440*) AddTo (T 17) (Plain (Copy (IT 40)));
  (*1441*) AddTo (T 17) (Times (Copy (IT 56)) (2) 1);
  (*1442*) AddTo (T 17) (Times (Copy (IT 57)) (2) 1);
  (*1443*) AddTo (T 17) (Plain (Copy (IT 59)));
  (*1444*) AddTo (T 17) (Times (Copy (IT 66)) (2) 1);
  (*1445*) AddTo (T 17) (Times (Copy (IT 79)) (2) 1);
  (*1446*) AddTo (T 17) (Plain (Copy (IT 87)));
  (*1447*) AddTo (T 17) (Plain (Copy (IT 89)));
  (*1448*) AddTo (T 17) (Plain (Copy (IT 94)));
  (*1449*) AddTo (T 17) (Times (Copy (IT 99)) (2) 1);
  (*1450*) AddTo (T 17) (Times (Copy n_f'ov) (-1) 1);
  (*1451*) AddTo (T 17) (Times (Copy (IT 103)) (-1) 1);
  (*1452*) AddTo (T 17) (Times (Copy (IT 109)) (-1) 1);
  (*1453*) AddTo (T 17) (Times (Copy (IT 41)) (-2) 1);
  (*1454*) AddTo (T 17) (Times (Copy (IT 55)) (-1) 1);
  (*1455*) AddTo (T 17) (Times (Copy (IT 58)) (-4) 1);
  (*1456*) AddTo (T 17) (Times (Copy (IT 65)) (-1) 1);
  (*1457*) AddTo (T 17) (Times (Copy (IT 7)) (-2) 1);
  (*1458*) AddTo (T 17) (Times (Copy (IT 78)) (-1) 1);
  (*1459*) AddTo (T 17) (Times (Copy (IT 83)) (-1) 1);
  (*1460*) AddTo (T 17) (Times (Copy (IT 86)) (-2) 1);
  (*1461*) AddTo (T 17) (Times (Copy (IT 88)) (-2) 1);
  (*1462*) AddTo (T 17) (Times (Copy (IT 100)) (-1) 1);
  (*1463*) Assign (T 12) (Times (Copy n_f'oo) (1) 2);
  (*1464*) AddTo (T 12) (Times (Copy (IT 1)) (1) 2);
  (*1465*) AddTo (T 12) (Plain (Transpose (IT 15) [1;0]));
  (*1466*) AddTo (T 12) (Plain (Transpose (IT 18) [1;0]));
  (*1467*) AddTo (T 12) (Plain (Transpose (IT 5) [1;0]));
  (*1468*) AddTo (T 12) (Times (Transpose (IT 13) [1;0]) (-1) 2);
  (*1469*) AddTo (T 12) (Times (Transpose (IT 17) [1;0]) (-1) 2);
  (*1470*) AddTo (T 12) (Times (Transpose (IT 4) [1;0]) (-1) 2);
  (*1471*) Assign (T 10) (Plain (Copy (IT 22)));
  (*1472*) AddTo (T 10) (Times (Transpose (IT 70) [1;0]) (2) 1);
  (*1473*) AddTo (T 10) (Times (Copy n_f'vv) (-1) 1);
  (*1474*) AddTo (T 10) (Times (Transpose (IT 20) [1;0]) (-2) 1);
  (*1475*) AddTo (T 10) (Times (Transpose (IT 68) [1;0]) (-1) 1);
  (*1476*) AddTo (T 10) (Times (Einsum [(n_t1,[0;1]); (T 2,[0;2])] [2;1]) (2) 1);
  (*1477*) Assign (T 7) (Plain (Copy (IT 23)));
  (*1478*) AddTo (T 7) (Plain (Copy n_v'oovv));
  (*1479*) AddTo (T 7) (Times (Copy (IT 50)) (-1) 1);
  (*1480*) Assign (T 11) (Plain (Copy (IT 101)));
  (*1481*) AddTo (T 11) (Plain (Transpose (IT 104) [0;2;1;3]));
  (*1482*) AddTo (T 11) (Plain (Transpose (IT 28) [1;0;2;3]));
  (*1483*) AddTo (T 11) (Plain (Transpose (IT 36) [1;0;2;3]));
  (*1484*) AddTo (T 11) (Plain (Transpose (IT 37) [1;0;2;3]));
  (*1485*) AddTo (T 11) (Plain (Transpose (IT 38) [1;0;2;3]));
  (*1486*) AddTo (T 11) (Plain (Transpose (IT 43) [2;0;1;3]));
  (*1487*) AddTo (T 11) (Plain (Copy (IT 46)));
  (*1488*) AddTo (T 11) (Plain (Copy (IT 49)));
  (*1489*) AddTo (T 11) (Plain (Transpose (IT 67) [1;0;2;3]));
  (*1490*) AddTo (T 11) (Plain (Copy (IT 76)));
  (*1491*) AddTo (T 11) (Plain (Transpose (IT 93) [1;0;2;3]));
  (*1492*) AddTo (T 11) (Times (Transpose (IT 24) [1;0;2;3]) (-1) 1);
  (*1493*) AddTo (T 11) (Times (Transpose (IT 35) [1;0;2;3]) (-2) 1);
  (*1494*) AddTo (T 11) (Times (Copy (IT 47)) (-2) 1);
  (*1495*) AddTo (T 11) (Times (Transpose (IT 61) [1;2;0;3]) (-1) 1);
  (*1496*) AddTo (T 11) (Times (Copy (IT 77)) (-2) 1);
  (*1497*) AddTo (T 11) (Times (Transpose (IT 90) [1;0;2;3]) (-1) 1);
  (*1498*) AddTo (T 11) (Times (Copy (IT 95)) (-1) 1);
  (*1499*) AddTo (T 11) (Times (Transpose (IT 10) [1;0;2;3]) (-1) 1);
  (*1500*) AddTo (T 11) (Times (Transpose n_v'ovoo [0;2;3;1]) (-1) 1);
  (*1501*) Assign (T 5) (Plain (Copy n_r2));
  (*1502*) AddTo (T 5) (Times (Transpose n_r2 [1;0;2]) (-1) 2);
  (*1503*) Assign (T 9) (Plain (Copy (IT 31)));
  (*1504*) AddTo (T 9) (Plain (Transpose (IT 91) [1;0;2;3]));
  (*1505*) Assign (T 6) (Times (Copy (IT 53)) (2) 1);
  (*1506*) AddTo (T 6) (Plain (Transpose (IT 84) [0;1;3;2]));
  (*1507*) AddTo (T 6) (Plain (Transpose n_v'ovov [0;2;1;3]));
  (*1508*) AddTo (T 6) (Times (Copy (IT 51)) (-1) 1);
  (*1509*) AddTo (T 6) (Times (Copy (IT 52)) (-1) 1);
  (*1510*) Assign (T 8) (Plain (Copy (IT 26)));
  (*1511*) AddTo (T 8) (Plain (Transpose (IT 31) [1;0;2;3]));
  (*1512*) AddTo (T 8) (Plain (Transpose n_v'oooo [0;2;1;3]));
  (*1513*) Assign (T 14) (Times (Einsum [(T 13,[0;1;2;3]); (T 3,[1;4;3])] [4;2;0]) (-1) 1);
  (*1514*) AddTo (T 14) (Plain (Einsum [(n_r2,[0;1;2]); (T 13,[3;4;1;2])] [3;4;0]));
  (*1515*) AddTo (T 14) (Plain (Einsum [(n_r2,[0;1;2]); (T 13,[3;4;0;2])] [1;4;3]));
  (*1516*) Del (T 13);
  (*1517*) Assign (T 16) (Plain (Einsum [(T 15,[0;1;2;3]); (n_r2,[1;0;2])] [3]));
  (*1518*) Del (T 15);
  (*1519*) Assign (T 4) (Plain (Copy n_f'oo));
  (*1520*) AddTo (T 4) (Plain (Copy (IT 1)));
  (*1521*) AddTo (T 4) (Times (Transpose (IT 15) [1;0]) (2) 1);
  (*1522*) AddTo (T 4) (Times (Transpose (IT 18) [1;0]) (2) 1);
  (*1523*) AddTo (T 4) (Times (Transpose (IT 5) [1;0]) (2) 1);
  (*1524*) AddTo (T 4) (Times (Transpose (IT 13) [1;0]) (-1) 1);
  (*1525*) AddTo (T 4) (Times (Transpose (IT 17) [1;0]) (-1) 1);
  (*1526*) AddTo (T 4) (Times (Transpose (IT 4) [1;0]) (-1) 1);
  (*1527*) Assign (T 1) (Plain (Copy (IT 10)));
  (*1528*) AddTo (T 1) (Times (Copy n_v'ooov) (-1) 2);
  (*1529*) AddTo (T 1) (Plain (Transpose n_v'ooov [0;2;1;3]));
  (*1530*) Assign n_r2new (Times (Einsum [(T 5,[0;1;2]); (T 6,[3;0;4;2])] [3;1;4]) (2) 1);
  (*1531*) Del (T 5);
  (*1531*) Del (T 6);
  (*1532*) AddTo n_r2new (Times (Einsum [(n_r2,[0;1;2]); (T 7,[3;1;4;2])] [0;3;4]) (-1) 1);
  (*1533*) AddTo n_r2new (Times (Einsum [(T 7,[0;1;2;3]); (n_r2,[1;4;3])] [0;4;2]) (-1) 1);
  (*1534*) Del (T 7);
  (*1535*) AddTo n_r2new (Plain (Einsum [(n_r2,[0;1;2]); (T 8,[3;4;0;1])] [3;4;2]));
  (*1536*) Del (T 8);
  (*1537*) AddTo n_r2new (Plain (Einsum [(n_r2,[0;1;2]); (T 9,[3;4;1;0])] [3;4;2]));
  (*1538*) Del (T 9);
  (*1539*) AddTo n_r2new (Times (Einsum [(T 10,[0;1]); (n_r2,[2;3;0])] [2;3;1]) (-1) 1);
  (*1540*) Del (T 10);
  (*1541*) AddTo n_r2new (Times (Einsum [(n_r1,[0]); (T 11,[1;2;0;3])] [1;2;3]) (-1) 1);
  (*1542*) Del (T 11);
  (*1543*) AddTo n_r2new (Times (Einsum [(n_r2,[0;1;2]); (T 12,[0;3])] [3;1;2]) (-2) 1);
  (*1544*) AddTo n_r2new (Times (Einsum [(n_r2,[0;1;2]); (T 12,[1;3])] [0;3;2]) (-2) 1);
  (*1545*) Del (T 12);
  (*1546*) AddTo n_r2new (Plain (Einsum [(n_t1,[0;1]); (T 14,[2;0;3])] [3;2;1]));
  (*1547*) Del (T 14);
  (*1548*) AddTo n_r2new (Times (Einsum [(T 16,[0]); (n_t2,[1;2;3;0])] [1;2;3]) (-2) 1);
  (*1549*) Del (T 16);
  (*1550*) AddTo n_r2new (Plain (Einsum [(n_r1,[0]); (T 17,[1;2])] [1;0;2]));
  (*1551*) Del (T 17);
  (*1552*) Assign n_r1new (Times (Einsum [(n_r2,[0;1;2]); (IT 10,[3;1;0;2])] [3]) (-1) 1);
  (*1553*) AddTo n_r1new (Times (Einsum [(T 1,[0;1;2;3]); (n_r2,[1;2;3])] [0]) (2) 1);
  (*1554*) Del (T 1);
  (*1555*) AddTo n_r1new (Times (Einsum [(T 2,[0;1]); (T 3,[0;2;1])] [2]) (-2) 1);
  (*1556*) Del (T 2);
  (*1556*) Del (T 3);
  (*1557*) AddTo n_r1new (Times (Einsum [(n_r1,[0]); (T 4,[0;1])] [1]) (-1) 1);
  (*1558*) Del (T 4)]
 [(n_r1new,[0]); (n_r2new,[0;0;1])].

(** ebcc/codegen/RCCSD.py:1562-1684 [hbar_matvec_ea_intermediates] *)
Definition RCCSD_hbar_matvec_ea_intermediates : prog := mkprog
 [(n_t1,[0;1]); (n_v'ovov,[0;1;0;1]); (n_v'ooov,[0;0;0;1]); (n_t2,[0;0;1;1]); (n_f'ov,[0;1]); (n_v'ovvv,[0;1;1;1]); (n_f'oo,[0;0]); (n_v'vvvv,[1;1;1;1]); (n_f'vv,[1;1]); (n_v'oovv,[0;0;1;1])]
 [(*1632*) Assign (T 8) (Plain (Einsum [(n_t1,[0;1]); (n_v'ovov,[2;3;0;1])] [2;3]));
  (*1633*) Assign (T 7) (Plain (Einsum [(n_t1,[0;1]); (n_v'ovov,[2;1;0;3])] [2;3]));
  (*1634*) Assign (T 35) (Plain (Einsum [(n_t1,[0;1]); (n_v'ooov,[2;3;0;1])] [2;3]));
  (*1635*) Assign (T 34) (Plain (Einsum [(n_v'ooov,[0;1;2;3]); (n_t1,[1;3])] [0;2]));
  (*1636*) Assign (T 68) (Plain (Einsum [(n_t1,[0;1]); (T 8,[2;1])] [0;2]));
  (*1637*) Assign (T 67) (Plain (Einsum [(n_t1,[0;1]); (T 7,[2;1])] [0;2]));
  (*1638*) Assign (T 57) (Plain (Einsum [(n_t2,[0;1;2;3]); (n_v'ovov,[4;3;1;2])] [0;4]));
  (*1639*) Assign (T 59) (Plain (Einsum [(n_t2,[0;1;2;3]); (n_v'ovov,[4;2;1;3])] [0;4]));
  (*1640*) Assign (T 61) (Plain (Einsum [(n_t1,[0;1]); (n_v'ovov,[2;3;4;1])] [0;2;4;3]));
  (*1641*) Assign (T 48) (Plain (Einsum [(n_t1,[0;1]); (n_f'ov,[2;1])] [2;0]));
  (*1642*) Assign (T 6) (Plain (Einsum [(n_v'ovvv,[0;1;2;3]); (n_t1,[0;3])] [1;2]));
  (*1643*) Assign (T 4) (Plain (Einsum [(n_t1,[0;1]); (n_v'ovvv,[0;1;2;3])] [2;3]));
  (*1644*) Assign (T 110) (Plain (Einsum [(T 8,[0;1]); (n_t2,[2;0;3;1])] [2;3]));
  (*1645*) Assign (T 109) (Plain (Einsum [(T 8,[0;1]); (n_t2,[2;0;1;3])] [2;3]));
  (*1646*) Assign (T 108) (Plain (Einsum [(T 7,[0;1]); (n_t2,[2;0;3;1])] [2;3]));
  (*1647*) Assign (T 107) (Plain (Einsum [(T 7,[0;1]); (n_t2,[2;0;1;3])] [2;3]));
  (*1648*) Assign (T 105) (Plain (Einsum [(n_v'ovov,[0;1;2;3]); (n_t2,[4;2;5;3])] [4;0;5;1]));
  (*1649*) Assign (T 104) (Plain (Einsum [(n_t2,[0;1;2;3]); (n_v'ovov,[4;5;1;2])] [0;4;3;5]));
  (*1650*) Assign (T 103) (Plain (Einsum [(n_t2,[0;1;2;3]); (n_v'ovov,[4;3;1;5])] [0;4;2;5]));
  (*1651*) Assign (T 100) (Plain (Einsum [(n_t2,[0;1;2;3]); (n_v'ovvv,[1;2;4;5])] [0;3;4;5]));
  (*1652*) Assign (T 99) (Plain (Einsum [(n_t2,[0;1;2;3]); (n_v'ovvv,[1;4;5;3])] [0;2;4;5]));
  (*1653*) Assign (T 98) (Plain (Einsum [(n_t2,[0;1;2;3]); (n_v'ovvv,[1;3;4;5])] [0;2;4;5]));
  (*1654*) Assign (T 95) (Plain (Einsum [(n_f'ov,[0;1]); (n_t2,[2;0;3;1])] [2;3]));
  (*1655*) Assign (T 94) (Plain (Einsum [(n_f'ov,[0;1]); (n_t2,[2;0;1;3])] [2;3]));
  (*1656*) Assign (T 92) (Plain (Einsum [(n_t1,[0;1]); (T 35,[2;0])] [2;1]));
  (*1657*) Assign (T 91) (Plain (Einsum [(n_t1,[0;1]); (T 34,[2;0])] [2;1]));
  (*1658*) Assign (T 90) (Plain (Einsum [(n_t2,[0;1;2;3]); (n_v'ooov,[4;0;1;3])] [4;2]));
  (*1659*) Assign (T 89) (Plain (Einsum [(n_v'ooov,[0;1;2;3]); (n_t2,[2;1;4;3])] [0;4]));
  (*1660*) Assign (T 84) (Plain (Einsum [(n_t1,[0;1]); (n_f'oo,[2;0])] [2;1]));
  (*1661*) Assign (T 83) (Plain (Einsum [(n_t1,[0;1]); (T 68,[2;0])] [2;1]));
  (*1662*) Assign (T 82) (Plain (Einsum [(n_t1,[0;1]); (T 67,[2;0])] [2;1]));
  (*1663*) Assign (T 77) (Plain (Einsum [(n_t1,[0;1]); (T 57,[2;0])] [2;1]));
  (*1664*) Assign (T 76) (Plain (Einsum [(n_t1,[0;1]); (T 59,[2;0])] [2;1]));
  (*1665*) Assign (T 75) (Plain (Einsum [(T 61,[0;1;2;3]); (n_t2,[1;2;4;3])] [0;4]));
  (*1666*) Assign (T 74) (Plain (Einsum [(n_t2,[0;1;2;3]); (T 61,[4;1;0;3])] [4;2]));
  (*1667*) Assign (T 73) (Plain (Einsum [(n_t1,[0;1]); (T 48,[0;2])] [2;1]));
  (*1668*) Assign (T 65) (Plain (Einsum [(n_t1,[0;1]); (T 6,[1;2])] [0;2]));
  (*1669*) Assign (T 64) (Plain (Einsum [(T 4,[0;1]); (n_t1,[2;1])] [2;0]));
  (*1670*) Assign (T 62) (Plain (Einsum [(T 61,[0;1;2;3]); (n_t2,[1;2;4;5])] [0;4;5;3]));
  (*1671*) Assign (T 56) (Plain (Einsum [(n_t2,[0;1;2;3]); (n_v'ovvv,[1;2;4;3])] [0;4]));
  (*1672*) Assign (T 55) (Plain (Einsum [(n_t2,[0;1;2;3]); (n_v'ovvv,[1;3;4;2])] [0;4]));
  (*1673*) Assign (T 53) (Plain (Einsum [(n_t1,[0;1]); (n_v'ovvv,[2;3;4;1])] [0;2;3;4]));
  (*1674*) Assign (T 52) (Plain (Einsum [(n_t1,[0;1]); (n_v'ovvv,[2;1;3;4])] [0;2;3;4]));
  (*1675*) Assign (T 50) (Plain (Einsum [(n_v'vvvv,[0;1;2;3]); (n_t1,[4;3])] [4;0;1;2]));
  (*1676*) Assign (T 47) (Plain (Einsum [(n_t1,[0;1]); (n_f'vv,[2;1])] [0;2]));
  (*1677*) Assign (T 37) (Plain (Einsum [(n_v'ooov,[0;1;2;3]); (n_t2,[1;2;4;5])] [0;4;5;3]));
  (*1678*) Assign (T 33) (Plain (Einsum [(n_t1,[0;1]); (n_v'oovv,[2;0;3;1])] [2;3]));
  (*1679*) Assign (T 29) (Plain (Einsum [(n_t2,[0;1;2;3]); (n_v'ovov,[4;2;1;5])] [0;4;3;5]));
  (*1680*) Assign (T 26) (Plain (Einsum [(n_t2,[0;1;2;3]); (n_v'ovvv,[1;4;5;2])] [0;3;4;5]));
  (*1681*) Assign (T 17) (Plain (Einsum [(n_t2,[0;1;2;3]); (n_v'ovov,[0;2;1;4])] [3;4]));
  (*1682*) Assign (T 15) (Plain (Einsum [(n_t2,[0;1;2;3]); (n_v'ovov,[0;4;1;2])] [3;4]))]
 [(T 103,[0;0;1;1]); (T 104,[0;0;1;1]); (T 105,[0;0;1;1]); (T 107,[0;1]); (T 108,[0;1]); (T 109,[0;1]); (T 110,[0;1]); (T 15,[1;1]); (T 17,[1;1]); (T 26,[0;1;1;1]); (T 29,[0;0;1;1]); (T 4,[1;1]); (T 33,[0;1]); (T 34,[0;0]); (T 35,[0;0]); (T 37,[0;1;1;1]); (T 47,[0;1]); (T 48,[0;0]); (T 50,[0;1;1;1]); (T 6,[1;1]); (T 52,[0;0;1;1]); (T 53,[0;0;1;1]); (T 55,[0;1]); (T 56,[0;1]); (T 57,[0;0]); (T 59,[0;0]); (T 7,[0;1]); (T 61,[0;0;0;1]); (T 62,[0;1;1;1]); (T 64,[0;1]); (T 65,[0;1]); (T 67,[0;0]); (T 68,[0;0]); (T 8,[0;1]); (T 73,[0;1]); (T 74,[0;1]); (T 75,[0;1]); (T 76,[0;1]); (T 77,[0;1]); (T 82,[0;1]); (T 83,[0;1]); (T 84,[0;1]); (T 89,[0;1]); (T 90,[0;1]); (T 91,[0;1]); (T 92,[0;1]); (T 94,[0;1]); (T 95,[0;1]); (T 98,[0;1;1;1]); (T 99,[0;1;1;1]); (T 100,[0;1;1;1])].

(** ebcc/codegen/RCCSD.py:1686-1852 [hbar_matvec_ea] *)
Definition RCCSD_hbar_matvec_ea : prog := mkprog
 [(n_f'ov,[0;1]); (IT 8,[0;1]); (IT 7,[0;1]); (n_v'ovov,[0;1;0;1]); (n_r2,[1;1;0]); (n_t1,[0;1]); (n_r1,[1]); (IT 61,[0;0;0;1]); (n_v'ooov,[0;0;0;1]); (IT 105,[0;0;1;1]); (IT 53,[0;0;1;1]); (IT 103,[0;0;1;1]); (IT 104,[0;0;1;1]); (n_v'ovvv,[0;1;1;1]); (IT 37,[0;1;1;1]); (IT 50,[0;1;1;1]); (IT 62,[0;1;1;1]); (IT 98,[0;1;1;1]); (IT 26,[0;1;1;1]); (IT 99,[0;1;1;1]); (IT 100,[0;1;1;1]); (IT 17,[1;1]); (IT 6,[1;1]); (n_f'vv,[1;1]); (IT 15,[1;1]); (IT 4,[1;1]); (IT 108,[0;1]); (IT 109,[0;1]); (IT 33,[0;1]); (IT 56,[0;1]); (IT 65,[0;1]); (IT 73,[0;1]); (IT 74,[0;1]); (IT 76,[0;1]); (IT 83,[0;1]); (IT 84,[0;1]); (IT 90,[0;1]); (IT 92,[0;1]); (IT 94,[0;1]); (IT 107,[0;1]); (IT 110,[0;1]); (IT 47,[0;1]); (IT 55,[0;1]); (IT 64,[0;1]); (IT 75,[0;1]); (IT 77,[0;1]); (IT 82,[0;1]); (IT 89,[0;1]); (IT 91,[0;1]); (IT 95,[0;1]); (n_f'oo,[0;0]); (IT 35,[0;0]); (IT 48,[0;0]); (IT 59,[0;0]); (IT 68,[0;0]); (IT 34,[0;0]); (IT 57,[0;0]); (IT 67,[0;0]); (IT 52,[0;0;1;1]); (n_v'oovv,[0;0;1;1]); (IT 29,[0;0;1;1]); (n_v'vvvv,[1;1;1;1]); (n_t2,[0;0;1;1])]
 [(*1714*) Assign (T 2) (Times (Copy n_f'ov) (1) 2);
  (*1715*) AddTo (T 2) (Plain (Copy (IT 8)));
  (*1716*) AddTo (T 2) (Times (Copy (IT 7)) (-1) 2);
  (*1717*) Assign (T 5) (Times (Transpose n_v'ovov [0;2;3;1]) (2) 1);
  (*1718*) AddTo (T 5) (Times (Transpose n_v'ovov [0;2;1;3]) (-1) 1);
  (*1719*) Assign (T 7) (Plain (Copy n_f'ov));
  (*1720*) AddTo (T 7) (Times (Copy (IT 8)) (2) 1);
  (*1721*) AddTo (T 7) (Times (Copy (IT 7)) (-1) 1);
  (*1722*) Assign (T 13) (Plain (Transpose n_r2 [2;0;1]));
  (*1723*) AddTo (T 13) (Times (Einsum [(n_t1,[0;1]); (n_r1,[2])] [0;1;2]) (-1) 1);
  (*1724*) Assign (T 10) (Plain (Einsum [(n_r2,[0;1;2]); (n_v'ovov,[3;0;4;1])] [2;3;4]));
  (*1725*) Assign (T 21) (Plain (Copy (IT 61)));
  (*1726*) AddTo (T 21) (Plain (Transpose n_v'ooov [0;2;1;3]));
  (*1727*) Assign (T 17) (Times (Einsum [(n_t1,[0;1]); (T 2,[0;2])] [1;2]) (2) 1);
  (*1728*) Assign (T 6) (Plain (Einsum [(n_r2,[0;1;2]); (T 5,[2;3;1;0])] [3]));
  (*1729*) Del (T 5);
  (*1730*) Assign (T 8) (Plain (Einsum [(T 7,[0;1]); (n_r1,[1])] [0]));
  (*1731*) Del (T 7);
  (*1732*) Assign (T 15) (Times (Copy (IT 61)) (-1) 2);
  (*1733*) AddTo (T 15) (Plain (Transpose (IT 61) [0;2;1;3]));
  (*1734*) AddTo (T 15) (Plain (Copy n_v'ooov));
  (*1735*) AddTo (T 15) (Times (Transpose n_v'ooov [0;2;1;3]) (-1) 2);
  (*1736*) Assign (T 12) (Times (Copy (IT 105)) (2) 1);
  (*1737*) AddTo (T 12) (Plain (Transpose (IT 53) [0;1;3;2]));
  (*1738*) AddTo (T 12) (Plain (Transpose n_v'ovov [0;2;1;3]));
  (*1739*) AddTo (T 12) (Times (Copy (IT 103)) (-1) 1);
  (*1740*) AddTo (T 12) (Times (Copy (IT 104)) (-1) 1);
  (*1741*) Assign (T 22) (Times (Einsum [(n_v'ovvv,[0;1;2;3]); (n_r2,[1;3;4])] [4;0;2]) (-1) 1);
  (*1742*) AddTo (T 22) (Plain (Einsum [(n_t1,[0;1]); (T 10,[2;3;0])] [2;3;1]));
  (*1743*) AddTo (T 22) (Plain (Einsum [(T 21,[0;1;2;3]); (T 13,[1;4;3])] [0;2;4]));
  (*1744*) Assign (T 11) (Times (Einsum [(n_t1,[0;1]); (n_r1,[2])] [0;2;1]) (1) 2);
  (*1745*) AddTo (T 11) (Plain (Transpose n_r2 [2;0;1]));
  (*1746*) AddTo (T 11) (Times (Transpose n_r2 [2;1;0]) (-1) 2);
  (*1747*) Assign (T 19) (Plain (Transpose (IT 37) [0;2;3;1]));
  (*1748*) AddTo (T 19) (Plain (Copy (IT 50)));
  (*1749*) AddTo (T 19) (Plain (Transpose (IT 62) [0;1;3;2]));
  (*1750*) AddTo (T 19) (Times (Transpose (IT 98) [0;2;3;1]) (2) 1);
  (*1751*) AddTo (T 19) (Plain (Transpose n_v'ovvv [0;2;3;1]));
  (*1752*) AddTo (T 19) (Times (Copy (IT 26)) (-1) 1);
  (*1753*) AddTo (T 19) (Times (Transpose (IT 99) [0;3;2;1]) (-1) 1);
  (*1754*) AddTo (T 19) (Times (Transpose (IT 100) [0;2;3;1]) (-1) 1);
  (*1755*) Assign (T 18) (Times (Transpose (IT 17) [1;0]) (2) 1);
  (*1756*) AddTo (T 18) (Plain (Copy (IT 6)));
  (*1757*) AddTo (T 18) (Times (Copy n_f'vv) (-1) 1);
  (*1758*) AddTo (T 18) (Times (Transpose (IT 15) [1;0]) (-1) 1);
  (*1759*) AddTo (T 18) (Times (Transpose (IT 4) [1;0]) (-2) 1);
  (*1760*) AddTo (T 18) (Plain (Transpose (T 17) [1;0]));
  (*1761*) Del (T 17);
  (*1762*) Assign (T 9) (Times (Copy (T 6)) (-1) 1);
  (*1763*) Del (T 6);
  (*1764*) AddTo (T 9) (Plain (Copy (T 8)));
  (*1765*) Del (T 8);
  (*1766*) Assign (T 24) (Times (Copy (IT 108)) (2) 1);
  (*1767*) AddTo (T 24) (Times (Copy (IT 109)) (2) 1);
  (*1768*) AddTo (T 24) (Plain (Copy (IT 33)));
  (*1769*) AddTo (T 24) (Plain (Copy (IT 56)));
  (*1770*) AddTo (T 24) (Plain (Copy (IT 65)));
  (*1771*) AddTo (T 24) (Plain (Copy (IT 73)));
  (*1772*) AddTo (T 24) (Times (Copy (IT 74)) (2) 1);
  (*1773*) AddTo (T 24) (Times (Copy (IT 76)) (2) 1);
  (*1774*) AddTo (T 24) (Times (Copy (IT 83)) (2) 1);
  (*1775*) AddTo (T 24) (Plain (Copy (IT 84)));
  (*1776*) AddTo (T 24) (Times (Copy (IT 90)) (2) 1);
  (*1777*) AddTo (T 24) (Times (Copy (IT 92)) (2) 1);
  (*1778*) AddTo (T 24) (Plain (Copy (IT 94)));
  (*1779*) AddTo (T 24) (Times (Copy n_f'ov) (-1) 1);
  (*1780*) AddTo (T 24) (Times (Copy (IT 107)) (-1) 1);
  (*1781*) AddTo (T 24) (Times (Copy (IT 110)) (-4) 1);
  (*1782*) AddTo (T 24) (Times (Copy (IT 47)) (-1) 1);
  (*1783*) AddTo (T 24) (Times (Copy (IT 55)) (-2) 1);
  (*1784*) AddTo (T 24) (Times (Copy (IT 64)) (-2) 1);
  (*1785*) AddTo (T 24) (Times (Copy (IT 75)) (-1) 1);
  (*1786*) AddTo (T 24) (Times (Copy (IT 77)) (-1) 1);
  (*1787*) AddTo (T 24) (Times (Copy (IT 8)) (-2) 1);
  (*1788*) AddTo (T 24) (Times (Copy (IT 82)) (-1) 1);
  (*1789*) AddTo (T 24) (Times (Copy (IT 89)) (-1) 1);
  (*1790*) AddTo (T 24) (Times (Copy (IT 91)) (-1) 1);
  (*1791*) AddTo (T 24) (Times (Copy (IT 95)) (-2) 1);
  (*1792*) Assign (T 20) (Plain (Copy n_f'oo));
  (*1793*) AddTo (T 20) (Times (Transpose (IT 35) [1;0]) (2) 1);
  (*1794*) AddTo (T 20) (Plain (Copy (IT 48)));
  (*1795*) AddTo (T 20) (Times (Transpose (IT 59) [1;0]) (2) 1);
  (*1796*) AddTo (T 20) (Times (Transpose (IT 68) [1;0]) (2) 1);
  (*1797*) AddTo (T 20) (Times (Transpose (IT 34) [1;0]) (-1) 1);
  (*1798*) AddTo (T 20) (Times (Transpose (IT 57) [1;0]) (-1) 1);
  (*1799*) AddTo (T 20) (Times (Transpose (IT 67) [1;0]) (-1) 1);
  (*1800*) Assign (T 14) (Plain (Copy (IT 52)));
  (*1801*) AddTo (T 14) (Plain (Copy n_v'oovv));
  (*1802*) AddTo (T 14) (Times (Copy (IT 29)) (-1) 1);
  (*1803*) Assign (T 23) (Times (Einsum [(n_v'ovvv,[0;1;2;3]); (n_r2,[3;1;4])] [4;0;2]) (-1) 1);
  (*1804*) AddTo (T 23) (Plain (Einsum [(n_r2,[0;1;2]); (T 21,[3;4;2;1])] [3;4;0]));
  (*1805*) Del (T 21);
  (*1806*) Assign (T 16) (Plain (Copy (IT 52)));
  (*1807*) AddTo (T 16) (Plain (Copy n_v'oovv));
  (*1808*) AddTo (T 16) (Times (Copy (IT 29)) (-1) 1);
  (*1809*) AddTo (T 16) (Times (Einsum [(n_t1,[0;1]); (T 15,[2;0;3;4])] [2;3;1;4]) (2) 1);
  (*1810*) Del (T 15);
  (*1811*) Assign (T 4) (Plain (Copy n_f'vv));
  (*1812*) AddTo (T 4) (Plain (Transpose (IT 15) [1;0]));
  (*1813*) AddTo (T 4) (Times (Transpose (IT 4) [1;0]) (2) 1);
  (*1814*) AddTo (T 4) (Times (Transpose (IT 17) [1;0]) (-2) 1);
  (*1815*) AddTo (T 4) (Times (Copy (IT 6)) (-1) 1);
  (*1816*) Assign (T 1) (Times (Copy n_v'ovvv) (2) 1);
  (*1817*) AddTo (T 1) (Times (Transpose n_v'ovvv [0;2;1;3]) (-1) 1);
  (*1818*) Assign (T 3) (Times (Transpose n_r2 [2;0;1]) (-1) 1);
  (*1819*) AddTo (T 3) (Times (Transpose n_r2 [2;1;0]) (2) 1);
  (*1820*) Assign n_r2new (Plain (Einsum [(n_r2,[0;1;2]); (n_v'vvvv,[3;0;4;1])] [3;4;2]));
  (*1821*) AddTo n_r2new (Plain (Einsum [(n_t2,[0;1;2;3]); (T 10,[4;0;1])] [2;3;4]));
  (*1822*) Del (T 10);
  (*1823*) AddTo n_r2new (Times (Einsum [(T 12,[0;1;2;3]); (T 11,[1;3;4])] [2;4;0]) (2) 1);
  (*1824*) Del (T 12);
  (*1824*) Del (T 11);
  (*1825*) AddTo n_r2new (Times (Einsum [(T 13,[0;1;2]); (T 14,[3;0;4;2])] [1;4;3]) (-1) 1);
  (*1826*) Del (T 13);
  (*1826*) Del (T 14);
  (*1827*) AddTo n_r2new (Times (Einsum [(T 16,[0;1;2;3]); (n_r2,[3;4;1])] [2;4;0]) (-1) 1);
  (*1828*) Del (T 16);
  (*1829*) AddTo n_r2new (Times (Einsum [(T 18,[0;1]); (n_r2,[0;2;3])] [1;2;3]) (-1) 1);
  (*1830*) AddTo n_r2new (Times (Einsum [(T 18,[0;1]); (n_r2,[2;0;3])] [2;1;3]) (-1) 1);
  (*1831*) Del (T 18);
  (*1832*) AddTo n_r2new (Times (Einsum [(T 19,[0;1;2;3]); (n_r1,[2])] [3;1;0]) (-1) 1);
  (*1833*) Del (T 19);
  (*1834*) AddTo n_r2new (Times (Einsum [(T 20,[0;1]); (n_r2,[2;3;0])] [2;3;1]) (-1) 1);
  (*1835*) Del (T 20);
  (*1836*) AddTo n_r2new (Plain (Einsum [(n_t1,[0;1]); (T 22,[2;0;3])] [1;3;2]));
  (*1837*) Del (T 22);
  (*1838*) AddTo n_r2new (Plain (Einsum [(T 9,[0]); (n_t2,[1;0;2;3])] [2;3;1]));
  (*1839*) AddTo n_r2new (Plain (Einsum [(n_t1,[0;1]); (T 23,[2;0;3])] [3;1;2]));
  (*1840*) Del (T 23);
  (*1841*) AddTo n_r2new (Plain (Einsum [(T 24,[0;1]); (n_r1,[2])] [1;2;0]));
  (*1842*) Del (T 24);
  (*1843*) Assign n_r1new (Times (Einsum [(n_r2,[0;1;2]); (T 1,[2;0;1;3])] [3]) (-1) 1);
  (*1844*) Del (T 1);
  (*1845*) AddTo n_r1new (Times (Einsum [(T 3,[0;1;2]); (T 2,[0;2])] [1]) (-2) 1);
  (*1846*) Del (T 2);
  (*1846*) Del (T 3);
  (*1847*) AddTo n_r1new (Plain (Einsum [(T 4,[0;1]); (n_r1,[0])] [1]));
  (*1848*) Del (T 4);
  (*1849*) AddTo n_r1new (Times (Einsum [(n_t1,[0;1]); (T 9,[0])] [1]) (-1) 1);
  (*1850*) Del (T 9)]
 [(n_r1new,[1]); (n_r2new,[1;1;0])].

(** ebcc/codegen/RCCSD.py:1854-2006 [hbar_lmatvec_ip_intermediates] *)
Definition RCCSD_hbar_lmatvec_ip_intermediates : prog := mkprog
 [(n_t1,[0;1]); (n_v'ovov,[0;1;0;1]); (n_v'ovvv,[0;1;1;1]); (n_v'ooov,[0;0;0;1]); (n_t2,[0;0;1;1]); (n_f'ov,[0;1]); (n_v'oovv,[0;0;1;1]); (n_v'oooo,[0;0;0;0]); (n_f'vv,[1;1]); (n_f'oo,[0;0])]
 [(*1939*) Assign (T 21) (Plain (Einsum [(n_t1,[0;1]); (n_v'ovov,[2;3;4;1])] [0;2;4;3]));
  (*1940*) Assign (T 18) (Plain (Einsum [(n_t1,[0;1]); (n_v'ovov,[2;3;0;1])] [2;3]));
  (*1941*) Assign (T 48) (Plain (Einsum [(n_t1,[0;1]); (n_v'ovov,[2;1;0;3])] [2;3]));
  (*1942*) Assign (T 108) (Plain (Einsum [(n_t1,[0;1]); (T 21,[2;3;4;1])] [0;2;3;4]));
  (*1943*) Assign (T 87) (Plain (Einsum [(n_t1,[0;1]); (T 18,[2;1])] [0;2]));
  (*1944*) Assign (T 86) (Plain (Einsum [(T 48,[0;1]); (n_t1,[2;1])] [2;0]));
  (*1945*) Assign (T 100) (Plain (Einsum [(n_t1,[0;1]); (n_v'ovvv,[2;3;4;1])] [0;2;3;4]));
  (*1946*) Assign (T 98) (Plain (Einsum [(n_t1,[0;1]); (n_v'ovvv,[0;2;3;1])] [2;3]));
  (*1947*) Assign (T 94) (Plain (Einsum [(n_t1,[0;1]); (n_v'ovvv,[0;1;2;3])] [2;3]));
  (*1948*) Assign (T 91) (Plain (Einsum [(n_t1,[0;1]); (n_v'ooov,[2;3;4;1])] [0;2;3;4]));
  (*1949*) Assign (T 14) (Plain (Einsum [(n_t1,[0;1]); (n_v'ooov,[2;3;0;1])] [2;3]));
  (*1950*) Assign (T 13) (Plain (Einsum [(n_t1,[0;1]); (n_v'ooov,[2;0;3;1])] [2;3]));
  (*1951*) Assign (T 82) (Plain (Einsum [(n_v'ovov,[0;1;2;3]); (n_t2,[4;5;1;3])] [4;5;0;2]));
  (*1952*) Assign (T 23) (Plain (Einsum [(n_v'ovov,[0;1;2;3]); (n_t2,[4;2;3;1])] [4;0]));
  (*1953*) Assign (T 25) (Plain (Einsum [(n_t2,[0;1;2;3]); (n_v'ovov,[4;2;1;3])] [0;4]));
  (*1954*) Assign (T 1) (Plain (Einsum [(n_t1,[0;1]); (n_f'ov,[2;1])] [2;0]));
  (*1955*) Assign (T 137) (Plain (Einsum [(n_t2,[0;1;2;3]); (n_v'ovov,[0;2;1;4])] [3;4]));
  (*1956*) Assign (T 135) (Plain (Einsum [(n_t2,[0;1;2;3]); (n_v'ovov,[0;4;1;2])] [3;4]));
  (*1957*) Assign (T 118) (Plain (Einsum [(n_v'ovov,[0;1;2;3]); (n_t2,[4;2;5;3])] [4;0;5;1]));
  (*1958*) Assign (T 117) (Plain (Einsum [(n_v'ovov,[0;1;2;3]); (n_t2,[4;2;3;5])] [4;0;5;1]));
  (*1959*) Assign (T 115) (Plain (Einsum [(n_t2,[0;1;2;3]); (n_v'ovov,[4;3;1;5])] [0;4;2;5]));
  (*1960*) Assign (T 114) (Plain (Einsum [(n_t2,[0;1;2;3]); (n_v'ovov,[4;2;1;5])] [0;4;3;5]));
  (*1961*) Assign (T 113) (Plain (Einsum [(n_t1,[0;1]); (n_v'ovvv,[2;1;3;4])] [0;2;3;4]));
  (*1962*) Assign (T 109) (Plain (Einsum [(T 108,[0;1;2;3]); (n_t1,[3;4])] [0;1;2;4]));
  (*1963*) Assign (T 105) (Plain (Einsum [(n_t1,[0;1]); (T 87,[2;0])] [2;1]));
  (*1964*) Assign (T 104) (Plain (Einsum [(n_t1,[0;1]); (T 86,[2;0])] [2;1]));
  (*1965*) Assign (T 101) (Plain (Einsum [(n_t1,[0;1]); (T 100,[2;3;1;4])] [0;2;3;4]));
  (*1966*) Assign (T 99) (Plain (Einsum [(T 98,[0;1]); (n_t1,[2;0])] [2;1]));
  (*1967*) Assign (T 95) (Plain (Einsum [(n_t1,[0;1]); (T 94,[2;1])] [0;2]));
  (*1968*) Assign (T 93) (Plain (Einsum [(T 91,[0;1;2;3]); (n_t1,[3;4])] [0;1;2;4]));
  (*1969*) Assign (T 92) (Plain (Einsum [(T 91,[0;1;2;3]); (n_t1,[2;4])] [0;1;3;4]));
  (*1970*) Assign (T 89) (Plain (Einsum [(n_t1,[0;1]); (T 14,[2;0])] [2;1]));
  (*1971*) Assign (T 88) (Plain (Einsum [(n_t1,[0;1]); (T 13,[2;0])] [2;1]));
  (*1972*) Assign (T 83) (Plain (Einsum [(T 82,[0;1;2;3]); (n_t1,[2;4])] [1;0;3;4]));
  (*1973*) Assign (T 79) (Plain (Einsum [(n_t1,[0;1]); (T 23,[2;0])] [2;1]));
  (*1974*) Assign (T 76) (Plain (Einsum [(n_t1,[0;1]); (T 25,[2;0])] [2;1]));
  (*1975*) Assign (T 74) (Plain (Einsum [(n_t2,[0;1;2;3]); (T 21,[4;5;1;3])] [4;0;5;2]));
  (*1976*) Assign (T 73) (Plain (Einsum [(n_t2,[0;1;2;3]); (T 21,[4;5;1;2])] [4;0;5;3]));
  (*1977*) Assign (T 71) (Plain (Einsum [(n_t2,[0;1;2;3]); (T 21,[4;1;5;3])] [4;0;5;2]));
  (*1978*) Assign (T 70) (Plain (Einsum [(n_t2,[0;1;2;3]); (T 21,[4;1;5;2])] [4;0;5;3]));
  (*1979*) Assign (T 67) (Plain (Einsum [(n_t2,[0;1;2;3]); (T 21,[4;1;0;2])] [4;3]));
  (*1980*) Assign (T 64) (Plain (Einsum [(n_t2,[0;1;2;3]); (T 21,[4;0;1;2])] [4;3]));
  (*1981*) Assign (T 61) (Plain (Einsum [(T 18,[0;1]); (n_t2,[2;3;4;1])] [2;3;0;4]));
  (*1982*) Assign (T 58) (Plain (Einsum [(T 48,[0;1]); (n_t2,[2;3;4;1])] [2;3;0;4]));
  (*1983*) Assign (T 55) (Plain (Einsum [(T 18,[0;1]); (n_t2,[2;0;3;1])] [2;3]));
  (*1984*) Assign (T 52) (Plain (Einsum [(T 18,[0;1]); (n_t2,[2;0;1;3])] [2;3]));
  (*1985*) Assign (T 50) (Plain (Einsum [(T 48,[0;1]); (n_t2,[2;0;3;1])] [2;3]));
  (*1986*) Assign (T 49) (Plain (Einsum [(T 48,[0;1]); (n_t2,[2;0;1;3])] [2;3]));
  (*1987*) Assign (T 45) (Plain (Einsum [(n_v'ovvv,[0;1;2;3]); (n_t2,[4;5;1;3])] [4;5;0;2]));
  (*1988*) Assign (T 42) (Plain (Einsum [(n_t2,[0;1;2;3]); (n_v'ovvv,[1;2;4;3])] [0;4]));
  (*1989*) Assign (T 39) (Plain (Einsum [(n_t2,[0;1;2;3]); (n_v'ovvv,[1;3;4;2])] [0;4]));
  (*1990*) Assign (T 37) (Plain (Einsum [(n_t2,[0;1;2;3]); (n_v'ooov,[4;5;1;3])] [0;4;5;2]));
  (*1991*) Assign (T 36) (Plain (Einsum [(n_v'ooov,[0;1;2;3]); (n_t2,[4;2;3;5])] [4;0;1;5]));
  (*1992*) Assign (T 34) (Plain (Einsum [(n_v'ooov,[0;1;2;3]); (n_t2,[4;1;5;3])] [4;0;2;5]));
  (*1993*) Assign (T 33) (Plain (Einsum [(n_v'ooov,[0;1;2;3]); (n_t2,[4;1;3;5])] [4;0;2;5]));
  (*1994*) Assign (T 30) (Plain (Einsum [(n_t2,[0;1;2;3]); (n_v'ooov,[4;1;0;2])] [4;3]));
  (*1995*) Assign (T 27) (Plain (Einsum [(n_v'ooov,[0;1;2;3]); (n_t2,[2;1;4;3])] [0;4]));
  (*1996*) Assign (T 22) (Plain (Einsum [(n_t1,[0;1]); (n_v'oovv,[2;3;4;1])] [0;2;3;4]));
  (*1997*) Assign (T 20) (Plain (Einsum [(n_t1,[0;1]); (n_v'oovv,[2;0;3;1])] [2;3]));
  (*1998*) Assign (T 15) (Plain (Einsum [(n_v'oooo,[0;1;2;3]); (n_t1,[3;4])] [0;1;2;4]));
  (*1999*) Assign (T 10) (Plain (Einsum [(n_t1,[0;1]); (T 1,[0;2])] [2;1]));
  (*2000*) Assign (T 7) (Plain (Einsum [(n_f'ov,[0;1]); (n_t2,[2;3;4;1])] [0;2;3;4]));
  (*2001*) Assign (T 5) (Plain (Einsum [(n_f'ov,[0;1]); (n_t2,[2;0;3;1])] [2;3]));
  (*2002*) Assign (T 4) (Plain (Einsum [(n_f'ov,[0;1]); (n_t2,[2;0;1;3])] [2;3]));
  (*2003*) Assign (T 3) (Plain (Einsum [(n_t1,[0;1]); (n_f'vv,[2;1])] [0;2]));
  (*2004*) Assign (T 2) (Plain (Einsum [(n_t1,[0;1]); (n_f'oo,[2;0])] [2;1]))]
 [(T 1,[0;0]); (T 2,[0;1]); (T 101,[0;0;0;1]); (T 104,[0;1]); (T 105,[0;1]); (T 108,[0;0;0;0]); (T 109,[0;0;0;1]); (T 113,[0;0;1;1]); (T 114,[0;0;1;1]); (T 115,[0;0;1;1]); (T 117,[0;0;1;1]); (T 118,[0;0;1;1]); (T 13,[0;0]); (T 14,[0;0]); (T 135,[1;1]); (T 137,[1;1]); (T 15,[0;0;0;1]); (T 18,[0;1]); (T 20,[0;1]); (T 3,[0;1]); (T 21,[0;0;0;1]); (T 22,[0;0;0;1]); (T 23,[0;0]); (T 25,[0;0]); (T 27,[0;1]); (T 30,[0;1]); (T 4,[0;1]); (T 33,[0;0;0;1]); (T 34,[0;0;0;1]); (T 36,[0;0;0;1]); (T 37,[0;0;0;1]); (T 39,[0;1]); (T 5,[0;1]); (T 42,[0;1]); (T 45,[0;0;0;1]); (T 48,[0;1]); (T 49,[0;1]); (T 50,[0;1]); (T 52,[0;1]); (T 55,[0;1]); (T 58,[0;0;0;1]); (T 7,[0;0;0;1]); (T 61,[0;0;0;1]); (T 64,[0;1]); (T 67,[0;1]); (T 70,[0;0;0;1]); (T 71,[0;0;0;1]); (T 73,[0;0;0;1]); (T 74,[0;0;0;1]); (T 76,[0;1]); (T 79,[0;1]); (T 82,[0;0;0;0]); (T 83,[0;0;0;1]); (T 86,[0;0]); (T 87,[0;0]); (T 88,[0;1]); (T 89,[0;1]); (T 10,[0;1]); (T 91,[0;0;0;0]); (T 92,[0;0;0;1]); (T 93,[0;0;0;1]); (T 94,[1;1]); (T 95,[0;1]); (T 98,[1;1]); (T 99,[0;1]); (T 100,[0;0;1;1])].

(** ebcc/codegen/RCCSD.py:2008-2175 [hbar_lmatvec_ip] *)
Definition RCCSD_hbar_lmatvec_ip : prog := mkprog
 [(n_t1,[0;1]); (n_r2,[0;0;1]); (n_f'ov,[0;1]); (IT 18,[0;1]); (IT 48,[0;1]); (n_t2,[0;0;1;1]); (IT 21,[0;0;0;1]); (n_v'ooov,[0;0;0;1]); (IT 113,[0;0;1;1]); (n_v'oovv,[0;0;1;1]); (IT 114,[0;0;1;1]); (IT 82,[0;0;0;0]); (IT 91,[0;0;0;0]); (n_f'oo,[0;0]); (IT 1,[0;0]); (IT 14,[0;0]); (IT 25,[0;0]); (IT 87,[0;0]); (IT 13,[0;0]); (IT 23,[0;0]); (IT 86,[0;0]); (IT 137,[1;1]); (IT 98,[1;1]); (n_f'vv,[1;1]); (IT 135,[1;1]); (IT 94,[1;1]); (IT 118,[0;0;1;1]); (IT 100,[0;0;1;1]); (n_v'ovov,[0;1;0;1]); (IT 115,[0;0;1;1]); (IT 117,[0;0;1;1]); (IT 108,[0;0;0;0]); (n_v'oooo,[0;0;0;0]); (IT 109,[0;0;0;1]); (IT 15,[0;0;0;1]); (IT 33,[0;0;0;1]); (IT 70,[0;0;0;1]); (IT 74,[0;0;0;1]); (IT 83,[0;0;0;1]); (IT 92,[0;0;0;1]); (IT 101,[0;0;0;1]); (IT 45,[0;0;0;1]); (IT 71,[0;0;0;1]); (n_v'ovoo,[0;1;0;0]); (IT 34,[0;0;0;1]); (IT 36,[0;0;0;1]); (IT 58,[0;0;0;1]); (IT 73,[0;0;0;1]); (IT 93,[0;0;0;1]); (IT 22,[0;0;0;1]); (IT 37,[0;0;0;1]); (IT 61,[0;0;0;1]); (IT 7,[0;0;0;1]); (IT 105,[0;1]); (IT 20,[0;1]); (IT 2,[0;1]); (IT 30,[0;1]); (IT 4,[0;1]); (IT 42,[0;1]); (IT 50,[0;1]); (IT 52,[0;1]); (IT 64,[0;1]); (IT 76,[0;1]); (IT 89,[0;1]); (IT 99,[0;1]); (IT 10,[0;1]); (IT 104,[0;1]); (IT 27,[0;1]); (IT 3,[0;1]); (IT 39,[0;1]); (IT 49,[0;1]); (IT 5,[0;1]); (IT 55,[0;1]); (IT 67,[0;1]); (IT 79,[0;1]); (IT 88,[0;1]); (IT 95,[0;1]); (n_r1,[0])]
 [(*2036*) Assign (T 11) (Plain (Einsum [(n_t1,[0;1]); (n_r2,[2;3;1])] [2;3;0]));
  (*2037*) Assign (T 17) (Plain (Copy n_f'ov));
  (*2038*) AddTo (T 17) (Times (Copy (IT 18)) (2) 1);
  (*2039*) AddTo (T 17) (Times (Copy (IT 48)) (-1) 1);
  (*2040*) Assign (T 20) (Plain (Transpose n_t2 [0;1;3;2]));
  (*2041*) AddTo (T 20) (Times (Copy n_t2) (-1) 2);
  (*2042*) Assign (T 13) (Plain (Copy (IT 21)));
  (*2043*) AddTo (T 13) (Plain (Transpose n_v'ooov [0;2;1;3]));
  (*2044*) Assign (T 12) (Plain (Copy (T 11)));
  (*2045*) AddTo (T 12) (Times (Transpose (T 11) [1;0;2]) (-1) 2);
  (*2046*) Assign (T 10) (Plain (Copy (IT 113)));
  (*2047*) AddTo (T 10) (Plain (Copy n_v'oovv));
  (*2048*) AddTo (T 10) (Times (Transpose (IT 114) [0;1;3;2]) (-1) 1);
  (*2049*) Assign (T 15) (Plain (Copy (IT 82)));
  (*2050*) AddTo (T 15) (Plain (Transpose (IT 91) [0;1;3;2]));
  (*2051*) Assign (T 19) (Times (Copy n_f'oo) (1) 2);
  (*2052*) AddTo (T 19) (Times (Transpose (IT 1) [1;0]) (1) 2);
  (*2053*) AddTo (T 19) (Plain (Copy (IT 14)));
  (*2054*) AddTo (T 19) (Plain (Copy (IT 25)));
  (*2055*) AddTo (T 19) (Plain (Copy (IT 87)));
  (*2056*) AddTo (T 19) (Times (Copy (IT 13)) (-1) 2);
  (*2057*) AddTo (T 19) (Times (Copy (IT 23)) (-1) 2);
  (*2058*) AddTo (T 19) (Times (Copy (IT 86)) (-1) 2);
  (*2059*) Assign (T 18) (Times (Copy (IT 137)) (2) 1);
  (*2060*) AddTo (T 18) (Plain (Transpose (IT 98) [1;0]));
  (*2061*) AddTo (T 18) (Times (Copy n_f'vv) (-1) 1);
  (*2062*) AddTo (T 18) (Times (Copy (IT 135)) (-1) 1);
  (*2063*) AddTo (T 18) (Times (Copy (IT 94)) (-2) 1);
  (*2064*) AddTo (T 18) (Plain (Einsum [(n_t1,[0;1]); (T 17,[0;2])] [1;2]));
  (*2065*) Assign (T 21) (Plain (Einsum [(T 20,[0;1;2;3]); (n_r2,[1;0;2])] [3]));
  (*2066*) Del (T 20);
  (*2067*) Assign (T 9) (Times (Copy (IT 118)) (2) 1);
  (*2068*) AddTo (T 9) (Plain (Transpose (IT 100) [0;1;3;2]));
  (*2069*) AddTo (T 9) (Plain (Transpose n_v'ovov [0;2;1;3]));
  (*2070*) AddTo (T 9) (Times (Copy (IT 115)) (-1) 1);
  (*2071*) AddTo (T 9) (Times (Copy (IT 117)) (-1) 1);
  (*2072*) Assign (T 8) (Plain (Copy n_r2));
  (*2073*) AddTo (T 8) (Times (Transpose n_r2 [1;0;2]) (-1) 2);
  (*2074*) Assign (T 14) (Plain (Copy (IT 108)));
  (*2075*) AddTo (T 14) (Plain (Transpose (IT 91) [0;1;3;2]));
  (*2076*) AddTo (T 14) (Plain (Transpose n_v'oooo [0;2;1;3]));
  (*2077*) Assign (T 16) (Plain (Copy (IT 21)));
  (*2078*) AddTo (T 16) (Plain (Transpose n_v'ooov [0;2;1;3]));
  (*2079*) Assign (T 7) (Plain (Copy n_f'oo));
  (*2080*) AddTo (T 7) (Plain (Transpose (IT 1) [1;0]));
  (*2081*) AddTo (T 7) (Times (Transpose (IT 14) [1;0]) (2) 1);
  (*2082*) AddTo (T 7) (Times (Copy (IT 25)) (2) 1);
  (*2083*) AddTo (T 7) (Times (Copy (IT 87)) (2) 1);
  (*2084*) AddTo (T 7) (Times (Copy (IT 13)) (-1) 1);
  (*2085*) AddTo (T 7) (Times (Copy (IT 23)) (-1) 1);
  (*2086*) AddTo (T 7) (Times (Copy (IT 86)) (-1) 1);
  (*2087*) Assign (T 2) (Plain (Copy (IT 109)));
  (*2088*) AddTo (T 2) (Plain (Transpose (IT 15) [1;2;0;3]));
  (*2089*) AddTo (T 2) (Plain (Copy (IT 33)));
  (*2090*) AddTo (T 2) (Plain (Copy (IT 70)));
  (*2091*) AddTo (T 2) (Plain (Copy (IT 74)));
  (*2092*) AddTo (T 2) (Plain (Copy (IT 83)));
  (*2093*) AddTo (T 2) (Plain (Copy (IT 92)));
  (*2094*) AddTo (T 2) (Times (Copy (IT 101)) (-1) 1);
  (*2095*) AddTo (T 2) (Times (Copy (IT 21)) (-1) 1);
  (*2096*) AddTo (T 2) (Times (Copy (IT 45)) (-1) 1);
  (*2097*) AddTo (T 2) (Times (Copy (IT 71)) (-2) 1);
  (*2098*) Assign (T 5) (Times (Copy n_v'ooov) (-1) 2);
  (*2099*) AddTo (T 5) (Plain (Transpose n_v'ovoo [0;2;3;1]));
  (*2100*) Assign (T 4) (Plain (Transpose (IT 34) [0;2;1;3]));
  (*2101*) AddTo (T 4) (Plain (Copy (IT 36)));
  (*2102*) AddTo (T 4) (Plain (Transpose (IT 58) [0;2;1;3]));
  (*2103*) AddTo (T 4) (Plain (Transpose (IT 73) [0;2;1;3]));
  (*2104*) AddTo (T 4) (Plain (Copy (IT 93)));
  (*2105*) AddTo (T 4) (Times (Copy (IT 22)) (-1) 1);
  (*2106*) AddTo (T 4) (Times (Copy (IT 37)) (-2) 1);
  (*2107*) AddTo (T 4) (Times (Transpose (IT 61) [0;2;1;3]) (-2) 1);
  (*2108*) AddTo (T 4) (Times (Transpose (IT 7) [1;0;2;3]) (-1) 1);
  (*2109*) Assign (T 1) (Times (Copy n_r2) (-1) 2);
  (*2110*) AddTo (T 1) (Plain (Transpose n_r2 [1;0;2]));
  (*2111*) Assign (T 6) (Times (Copy (IT 105)) (2) 1);
  (*2112*) AddTo (T 6) (Plain (Copy (IT 20)));
  (*2113*) AddTo (T 6) (Plain (Copy (IT 2)));
  (*2114*) AddTo (T 6) (Times (Copy (IT 30)) (2) 1);
  (*2115*) AddTo (T 6) (Plain (Copy (IT 4)));
  (*2116*) AddTo (T 6) (Plain (Copy (IT 42)));
  (*2117*) AddTo (T 6) (Times (Copy (IT 50)) (2) 1);
  (*2118*) AddTo (T 6) (Times (Copy (IT 52)) (2) 1);
  (*2119*) AddTo (T 6) (Times (Copy (IT 64)) (2) 1);
  (*2120*) AddTo (T 6) (Times (Copy (IT 76)) (2) 1);
  (*2121*) AddTo (T 6) (Times (Copy (IT 89)) (2) 1);
  (*2122*) AddTo (T 6) (Plain (Copy (IT 99)));
  (*2123*) AddTo (T 6) (Plain (Copy (IT 10)));
  (*2124*) AddTo (T 6) (Times (Copy n_f'ov) (-1) 1);
  (*2125*) AddTo (T 6) (Times (Copy (IT 104)) (-1) 1);
  (*2126*) AddTo (T 6) (Times (Copy (IT 18)) (-2) 1);
  (*2127*) AddTo (T 6) (Times (Copy (IT 27)) (-1) 1);
  (*2128*) AddTo (T 6) (Times (Copy (IT 3)) (-1) 1);
  (*2129*) AddTo (T 6) (Times (Copy (IT 39)) (-2) 1);
  (*2130*) AddTo (T 6) (Times (Copy (IT 49)) (-1) 1);
  (*2131*) AddTo (T 6) (Times (Copy (IT 5)) (-2) 1);
  (*2132*) AddTo (T 6) (Times (Copy (IT 55)) (-4) 1);
  (*2133*) AddTo (T 6) (Times (Copy (IT 67)) (-1) 1);
  (*2134*) AddTo (T 6) (Times (Copy (IT 79)) (-1) 1);
  (*2135*) AddTo (T 6) (Times (Copy (IT 88)) (-1) 1);
  (*2136*) AddTo (T 6) (Times (Copy (IT 95)) (-2) 1);
  (*2137*) Assign (T 3) (Times (Copy n_r2) (2) 1);
  (*2138*) AddTo (T 3) (Times (Transpose n_r2 [1;0;2]) (-1) 1);
  (*2139*) Assign n_r2new (Times (Einsum [(T 9,[0;1;2;3]); (T 8,[0;4;2])] [1;4;3]) (2) 1);
  (*2140*) Del (T 9);
  (*2140*) Del (T 8);
  (*2141*) AddTo n_r2new (Times (Einsum [(n_r2,[0;1;2]); (T 10,[1;3;4;2])] [0;3;4]) (-1) 1);
  (*2142*) AddTo n_r2new (Times (Einsum [(T 10,[0;1;2;3]); (n_r2,[0;4;3])] [1;4;2]) (-1) 1);
  (*2143*) Del (T 10);
  (*2144*) AddTo n_r2new (Times (Einsum [(T 13,[0;1;2;3]); (T 12,[0;4;2])] [1;4;3]) (-2) 1);
  (*2145*) Del (T 13);
  (*2145*) Del (T 12);
  (*2146*) AddTo n_r2new (Plain (Einsum [(n_r2,[0;1;2]); (T 14,[0;1;3;4])] [3;4;2]));
  (*2147*) Del (T 14);
  (*2148*) AddTo n_r2new (Plain (Einsum [(T 15,[0;1;2;3]); (n_r2,[1;0;4])] [3;2;4]));
  (*2149*) Del (T 15);
  (*2150*) AddTo n_r2new (Plain (Einsum [(T 16,[0;1;2;3]); (T 11,[4;0;1])] [4;2;3]));
  (*2151*) AddTo n_r2new (Plain (Einsum [(T 16,[0;1;2;3]); (T 11,[0;4;1])] [2;4;3]));
  (*2152*) Del (T 11);
  (*2153*) AddTo n_r2new (Times (Einsum [(T 18,[0;1]); (n_r2,[2;3;0])] [2;3;1]) (-1) 1);
  (*2154*) Del (T 18);
  (*2155*) AddTo n_r2new (Times (Einsum [(n_r2,[0;1;2]); (T 19,[0;3])] [3;1;2]) (-2) 1);
  (*2156*) AddTo n_r2new (Times (Einsum [(n_r2,[0;1;2]); (T 19,[1;3])] [0;3;2]) (-2) 1);
  (*2157*) Del (T 19);
  (*2158*) AddTo n_r2new (Times (Einsum [(T 21,[0]); (n_v'ovov,[1;2;3;0])] [1;3;2]) (-2) 1);
  (*2159*) Del (T 21);
  (*2160*) AddTo n_r2new (Plain (Einsum [(T 16,[0;1;2;3]); (n_r1,[0])] [1;2;3]));
  (*2161*) Del (T 16);
  (*2162*) AddTo n_r2new (Times (Einsum [(n_r1,[0]); (T 17,[1;2])] [1;0;2]) (-1) 1);
  (*2163*) Del (T 17);
  (*2164*) Assign n_r1new (Times (Einsum [(T 1,[0;1;2]); (T 2,[0;1;3;2])] [3]) (-2) 1);
  (*2165*) Del (T 1);
  (*2165*) Del (T 2);
  (*2166*) AddTo n_r1new (Times (Einsum [(T 3,[0;1;2]); (T 4,[0;3;1;2])] [3]) (-1) 1);
  (*2167*) Del (T 4);
  (*2168*) AddTo n_r1new (Times (Einsum [(T 5,[0;1;2;3]); (n_r2,[0;2;3])] [1]) (2) 1);
  (*2169*) Del (T 5);
  (*2170*) AddTo n_r1new (Plain (Einsum [(T 6,[0;1]); (T 3,[0;2;1])] [2]));
  (*2171*) Del (T 3);
  (*2171*) Del (T 6);
  (*2172*) AddTo n_r1new (Times (Einsum [(n_r1,[0]); (T 7,[0;1])] [1]) (-1) 1);
  (*2173*) Del (T 7)]
 [(n_r1new,[0]); (n_r2new,[0;0;1])].

(** ebcc/codegen/RCCSD.py:2177-2299 [hbar_lmatvec_ea_intermediates] *)
Definition RCCSD_hbar_lmatvec_ea_intermediates : prog := mkprog
 [(n_t1,[0;1]); (n_v'ovov,[0;1;0;1]); (n_v'ovvv,[0;1;1;1]); (n_v'ooov,[0;0;0;1]); (n_t2,[0;0;1;1]); (n_f'ov,[0;1]); (n_v'vvvv,[1;1;1;1]); (n_v'oovv,[0;0;1;1]); (n_f'vv,[1;1]); (n_f'oo,[0;0])]
 [(*2247*) Assign (T 18) (Plain (Einsum [(n_t1,[0;1]); (n_v'ovov,[2;3;0;1])] [2;3]));
  (*2248*) Assign (T 56) (Plain (Einsum [(n_t1,[0;1]); (n_v'ovov,[2;1;0;3])] [2;3]));
  (*2249*) Assign (T 113) (Plain (Einsum [(n_t1,[0;1]); (T 18,[2;1])] [0;2]));
  (*2250*) Assign (T 111) (Plain (Einsum [(T 56,[0;1]); (n_t1,[2;1])] [2;0]));
  (*2251*) Assign (T 17) (Plain (Einsum [(n_t1,[0;1]); (n_v'ovvv,[0;2;3;1])] [2;3]));
  (*2252*) Assign (T 15) (Plain (Einsum [(n_t1,[0;1]); (n_v'ovvv,[0;1;2;3])] [2;3]));
  (*2253*) Assign (T 98) (Plain (Einsum [(n_t1,[0;1]); (n_v'ooov,[2;3;0;1])] [2;3]));
  (*2254*) Assign (T 96) (Plain (Einsum [(n_t1,[0;1]); (n_v'ooov,[2;0;3;1])] [2;3]));
  (*2255*) Assign (T 84) (Plain (Einsum [(n_v'ovov,[0;1;2;3]); (n_t2,[4;2;3;1])] [4;0]));
  (*2256*) Assign (T 80) (Plain (Einsum [(n_v'ovov,[0;1;2;3]); (n_t2,[4;2;1;3])] [4;0]));
  (*2257*) Assign (T 70) (Plain (Einsum [(n_t1,[0;1]); (n_v'ovov,[2;3;4;1])] [0;2;4;3]));
  (*2258*) Assign (T 11) (Plain (Einsum [(n_t1,[0;1]); (n_f'ov,[2;1])] [2;0]));
  (*2259*) Assign (T 114) (Plain (Einsum [(n_t1,[0;1]); (T 113,[2;0])] [2;1]));
  (*2260*) Assign (T 112) (Plain (Einsum [(n_t1,[0;1]); (T 111,[2;0])] [2;1]));
  (*2261*) Assign (T 110) (Plain (Einsum [(n_t1,[0;1]); (n_v'ovvv,[2;3;4;1])] [0;2;3;4]));
  (*2262*) Assign (T 108) (Plain (Einsum [(n_t1,[0;1]); (n_v'ovvv,[2;1;3;4])] [0;2;3;4]));
  (*2263*) Assign (T 107) (Plain (Einsum [(n_t1,[0;1]); (T 17,[1;2])] [0;2]));
  (*2264*) Assign (T 104) (Plain (Einsum [(n_t1,[0;1]); (T 15,[2;1])] [0;2]));
  (*2265*) Assign (T 99) (Plain (Einsum [(n_t1,[0;1]); (T 98,[2;0])] [2;1]));
  (*2266*) Assign (T 97) (Plain (Einsum [(n_t1,[0;1]); (T 96,[2;0])] [2;1]));
  (*2267*) Assign (T 93) (Plain (Einsum [(n_t2,[0;1;2;3]); (n_v'ovov,[4;3;1;5])] [0;4;2;5]));
  (*2268*) Assign (T 91) (Plain (Einsum [(n_t2,[0;1;2;3]); (n_v'ovov,[4;2;1;5])] [0;4;3;5]));
  (*2269*) Assign (T 89) (Plain (Einsum [(n_v'ovov,[0;1;2;3]); (n_t2,[4;2;5;3])] [4;0;5;1]));
  (*2270*) Assign (T 88) (Plain (Einsum [(n_v'ovov,[0;1;2;3]); (n_t2,[4;2;3;5])] [4;0;5;1]));
  (*2271*) Assign (T 85) (Plain (Einsum [(n_t1,[0;1]); (T 84,[2;0])] [2;1]));
  (*2272*) Assign (T 81) (Plain (Einsum [(n_t1,[0;1]); (T 80,[2;0])] [2;1]));
  (*2273*) Assign (T 77) (Plain (Einsum [(T 70,[0;1;2;3]); (n_t2,[1;2;4;5])] [0;4;5;3]));
  (*2274*) Assign (T 74) (Plain (Einsum [(n_t2,[0;1;2;3]); (T 70,[4;0;1;3])] [4;2]));
  (*2275*) Assign (T 71) (Plain (Einsum [(n_t2,[0;1;2;3]); (T 70,[4;1;0;3])] [4;2]));
  (*2276*) Assign (T 63) (Plain (Einsum [(T 18,[0;1]); (n_t2,[2;0;3;1])] [2;3]));
  (*2277*) Assign (T 60) (Plain (Einsum [(T 18,[0;1]); (n_t2,[2;0;1;3])] [2;3]));
  (*2278*) Assign (T 58) (Plain (Einsum [(T 56,[0;1]); (n_t2,[2;0;3;1])] [2;3]));
  (*2279*) Assign (T 57) (Plain (Einsum [(T 56,[0;1]); (n_t2,[2;0;1;3])] [2;3]));
  (*2280*) Assign (T 54) (Plain (Einsum [(n_v'ovvv,[0;1;2;3]); (n_t2,[4;0;5;3])] [4;5;1;2]));
  (*2281*) Assign (T 52) (Plain (Einsum [(n_v'ovvv,[0;1;2;3]); (n_t2,[4;0;3;5])] [4;5;1;2]));
  (*2282*) Assign (T 49) (Plain (Einsum [(n_t2,[0;1;2;3]); (n_v'ovvv,[1;3;4;5])] [0;2;4;5]));
  (*2283*) Assign (T 47) (Plain (Einsum [(n_t2,[0;1;2;3]); (n_v'ovvv,[1;2;4;5])] [0;3;4;5]));
  (*2284*) Assign (T 44) (Plain (Einsum [(n_t2,[0;1;2;3]); (n_v'ovvv,[1;2;4;3])] [0;4]));
  (*2285*) Assign (T 41) (Plain (Einsum [(n_t2,[0;1;2;3]); (n_v'ovvv,[1;3;4;2])] [0;4]));
  (*2286*) Assign (T 38) (Plain (Einsum [(n_t2,[0;1;2;3]); (n_v'ooov,[4;0;1;5])] [4;2;3;5]));
  (*2287*) Assign (T 35) (Plain (Einsum [(n_t2,[0;1;2;3]); (n_v'ooov,[4;0;1;3])] [4;2]));
  (*2288*) Assign (T 32) (Plain (Einsum [(n_t2,[0;1;2;3]); (n_v'ooov,[4;0;1;2])] [4;3]));
  (*2289*) Assign (T 30) (Plain (Einsum [(n_t2,[0;1;2;3]); (n_v'ovov,[0;2;1;4])] [3;4]));
  (*2290*) Assign (T 28) (Plain (Einsum [(n_v'ovov,[0;1;2;3]); (n_t2,[0;2;4;1])] [4;3]));
  (*2291*) Assign (T 25) (Plain (Einsum [(n_v'vvvv,[0;1;2;3]); (n_t1,[4;3])] [4;0;1;2]));
  (*2292*) Assign (T 20) (Plain (Einsum [(n_t1,[0;1]); (n_v'oovv,[2;0;3;1])] [2;3]));
  (*2293*) Assign (T 12) (Plain (Einsum [(n_t1,[0;1]); (T 11,[0;2])] [2;1]));
  (*2294*) Assign (T 5) (Plain (Einsum [(n_f'ov,[0;1]); (n_t2,[2;0;3;1])] [2;3]));
  (*2295*) Assign (T 4) (Plain (Einsum [(n_f'ov,[0;1]); (n_t2,[2;0;1;3])] [2;3]));
  (*2296*) Assign (T 3) (Plain (Einsum [(n_t1,[0;1]); (n_f'vv,[2;1])] [0;2]));
  (*2297*) Assign (T 2) (Plain (Einsum [(n_t1,[0;1]); (n_f'oo,[2;0])] [2;1]))]
 [(T 2,[0;1]); (T 11,[0;0]); (T 104,[0;1]); (T 107,[0;1]); (T 108,[0;0;1;1]); (T 110,[0;0;1;1]); (T 12,[0;1]); (T 111,[0;0]); (T 112,[0;1]); (T 113,[0;0]); (T 114,[0;1]); (T 15,[1;1]); (T 17,[1;1]); (T 18,[0;1]); (T 20,[0;1]); (T 3,[0;1]); (T 25,[0;1;1;1]); (T 28,[1;1]); (T 30,[1;1]); (T 4,[0;1]); (T 32,[0;1]); (T 35,[0;1]); (T 38,[0;1;1;1]); (T 5,[0;1]); (T 41,[0;1]); (T 44,[0;1]); (T 47,[0;1;1;1]); (T 49,[0;1;1;1]); (T 52,[0;1;1;1]); (T 54,[0;1;1;1]); (T 56,[0;1]); (T 57,[0;1]); (T 58,[0;1]); (T 60,[0;1]); (T 63,[0;1]); (T 70,[0;0;0;1]); (T 71,[0;1]); (T 74,[0;1]); (T 77,[0;1;1;1]); (T 80,[0;0]); (T 81,[0;1]); (T 84,[0;0]); (T 85,[0;1]); (T 88,[0;0;1;1]); (T 89,[0;0;1;1]); (T 91,[0;0;1;1]); (T 93,[0;0;1;1]); (T 96,[0;0]); (T 97,[0;1]); (T 98,[0;0]); (T 99,[0;1])].

(** ebcc/codegen/RCCSD.py:2301-2485 [hbar_lmatvec_ea] *)
Definition RCCSD_hbar_lmatvec_ea : prog := mkprog
 [(n_t2,[0;0;1;1]); (n_f'ov,[0;1]); (IT 18,[0;1]); (IT 56,[0;1]); (IT 70,[0;0;0;1]); (n_v'ooov,[0;0;0;1]); (n_t1,[0;1]); (n_r2,[1;1;0]); (n_r1,[1]); (IT 88,[0;0;1;1]); (IT 93,[0;0;1;1]); (IT 110,[0;0;1;1]); (IT 89,[0;0;1;1]); (n_v'ovov,[0;1;0;1]); (n_f'oo,[0;0]); (IT 11,[0;0]); (IT 113,[0;0]); (IT 80,[0;0]); (IT 98,[0;0]); (IT 111,[0;0]); (IT 84,[0;0]); (IT 96,[0;0]); (IT 17,[1;1]); (IT 30,[1;1]); (n_f'vv,[1;1]); (IT 15,[1;1]); (IT 28,[1;1]); (IT 91,[0;0;1;1]); (IT 108,[0;0;1;1]); (n_v'oovv,[0;0;1;1]); (IT 25,[0;1;1;1]); (IT 47,[0;1;1;1]); (IT 54,[0;1;1;1]); (IT 77,[0;1;1;1]); (IT 38,[0;1;1;1]); (IT 49,[0;1;1;1]); (IT 52,[0;1;1;1]); (n_v'ovvv,[0;1;1;1]); (IT 107,[0;1]); (IT 114,[0;1]); (IT 12,[0;1]); (IT 20,[0;1]); (IT 2,[0;1]); (IT 35,[0;1]); (IT 4,[0;1]); (IT 44,[0;1]); (IT 58,[0;1]); (IT 60,[0;1]); (IT 71,[0;1]); (IT 81,[0;1]); (IT 99,[0;1]); (IT 104,[0;1]); (IT 112,[0;1]); (IT 3,[0;1]); (IT 32,[0;1]); (IT 41,[0;1]); (IT 5,[0;1]); (IT 57,[0;1]); (IT 63,[0;1]); (IT 74,[0;1]); (IT 85,[0;1]); (IT 97,[0;1]); (n_v'vvvv,[1;1;1;1])]
 [(*2329*) Assign (T 17) (Times (Transpose n_t2 [0;1;3;2]) (2) 1);
  (*2330*) AddTo (T 17) (Times (Copy n_t2) (-1) 1);
  (*2331*) Assign (T 20) (Plain (Copy n_f'ov));
  (*2332*) AddTo (T 20) (Times (Copy (IT 18)) (2) 1);
  (*2333*) AddTo (T 20) (Times (Copy (IT 56)) (-1) 1);
  (*2334*) Assign (T 22) (Plain (Copy (IT 70)));
  (*2335*) AddTo (T 22) (Plain (Transpose n_v'ooov [0;2;1;3]));
  (*2336*) Assign (T 11) (Plain (Einsum [(n_t1,[0;1]); (n_r2,[2;1;3])] [3;0;2]));
  (*2337*) Assign (T 18) (Plain (Einsum [(n_r2,[0;1;2]); (T 17,[2;3;1;0])] [3]));
  (*2338*) Del (T 17);
  (*2339*) Assign (T 16) (Plain (Einsum [(n_t1,[0;1]); (n_r1,[1])] [0]));
  (*2340*) Assign (T 27) (Plain (Einsum [(n_t1,[0;1]); (T 20,[0;2])] [1;2]));
  (*2341*) Assign (T 24) (Plain (Einsum [(n_t1,[0;1]); (T 22,[2;0;3;4])] [2;3;1;4]));
  (*2342*) Assign (T 12) (Plain (Einsum [(n_t1,[0;1]); (T 11,[2;3;1])] [2;0;3]));
  (*2343*) Assign (T 6) (Plain (Transpose n_r2 [2;0;1]));
  (*2344*) AddTo (T 6) (Times (Transpose n_r2 [2;1;0]) (-1) 2);
  (*2345*) Assign (T 3) (Times (Transpose n_r2 [2;0;1]) (-1) 2);
  (*2346*) AddTo (T 3) (Plain (Transpose n_r2 [2;1;0]));
  (*2347*) Assign (T 23) (Plain (Transpose (IT 88) [0;1;3;2]));
  (*2348*) AddTo (T 23) (Plain (Transpose (IT 93) [0;1;3;2]));
  (*2349*) AddTo (T 23) (Times (Copy (IT 110)) (-1) 1);
  (*2350*) AddTo (T 23) (Times (Transpose (IT 89) [0;1;3;2]) (-2) 1);
  (*2351*) AddTo (T 23) (Times (Transpose n_v'ovov [0;2;3;1]) (-1) 1);
  (*2352*) AddTo (T 23) (Plain (Einsum [(n_t1,[0;1]); (T 22,[2;3;0;4])] [2;3;4;1]));
  (*2353*) Del (T 22);
  (*2354*) Assign (T 29) (Plain (Copy n_f'oo));
  (*2355*) AddTo (T 29) (Plain (Transpose (IT 11) [1;0]));
  (*2356*) AddTo (T 29) (Times (Copy (IT 113)) (2) 1);
  (*2357*) AddTo (T 29) (Times (Copy (IT 80)) (2) 1);
  (*2358*) AddTo (T 29) (Times (Copy (IT 98)) (2) 1);
  (*2359*) AddTo (T 29) (Times (Copy (IT 111)) (-1) 1);
  (*2360*) AddTo (T 29) (Times (Copy (IT 84)) (-1) 1);
  (*2361*) AddTo (T 29) (Times (Copy (IT 96)) (-1) 1);
  (*2362*) Assign (T 19) (Plain (Copy (T 16)));
  (*2363*) Del (T 16);
  (*2364*) AddTo (T 19) (Times (Copy (T 18)) (-1) 1);
  (*2365*) Del (T 18);
  (*2366*) Assign (T 28) (Plain (Transpose (IT 17) [1;0]));
  (*2367*) AddTo (T 28) (Times (Copy (IT 30)) (2) 1);
  (*2368*) AddTo (T 28) (Times (Copy n_f'vv) (-1) 1);
  (*2369*) AddTo (T 28) (Times (Copy (IT 15)) (-2) 1);
  (*2370*) AddTo (T 28) (Times (Copy (IT 28)) (-1) 1);
  (*2371*) AddTo (T 28) (Plain (Copy (T 27)));
  (*2372*) Del (T 27);
  (*2373*) Assign (T 21) (Plain (Einsum [(n_t1,[0;1]); (n_r2,[1;2;3])] [3;0;2]));
  (*2374*) Assign (T 25) (Plain (Transpose (IT 91) [0;1;3;2]));
  (*2375*) AddTo (T 25) (Times (Copy (IT 108)) (-1) 1);
  (*2376*) AddTo (T 25) (Times (Copy n_v'oovv) (-1) 1);
  (*2377*) AddTo (T 25) (Plain (Transpose (T 24) [0;1;3;2]));
  (*2378*) Del (T 24);
  (*2379*) Assign (T 26) (Plain (Einsum [(n_t2,[0;1;2;3]); (n_r2,[2;3;4])] [4;0;1]));
  (*2380*) AddTo (T 26) (Plain (Copy (T 12)));
  (*2381*) Assign (T 13) (Times (Copy (T 12)) (-1) 2);
  (*2382*) AddTo (T 13) (Plain (Transpose (T 12) [0;2;1]));
  (*2383*) Assign (T 10) (Times (Transpose n_r2 [2;0;1]) (-1) 1);
  (*2384*) AddTo (T 10) (Times (Transpose n_r2 [2;1;0]) (2) 1);
  (*2385*) Assign (T 7) (Times (Einsum [(n_t1,[0;1]); (T 6,[2;3;1])] [2;0;3]) (2) 1);
  (*2386*) Assign (T 15) (Plain (Copy n_f'vv));
  (*2387*) AddTo (T 15) (Times (Transpose (IT 15) [1;0]) (2) 1);
  (*2388*) AddTo (T 15) (Plain (Copy (IT 28)));
  (*2389*) AddTo (T 15) (Times (Transpose (IT 17) [1;0]) (-1) 1);
  (*2390*) AddTo (T 15) (Times (Copy (IT 30)) (-2) 1);
  (*2391*) Assign (T 2) (Plain (Copy (IT 25)));
  (*2392*) AddTo (T 2) (Times (Transpose (IT 47) [0;2;1;3]) (1) 2);
  (*2393*) AddTo (T 2) (Times (Transpose (IT 54) [0;2;1;3]) (1) 2);
  (*2394*) AddTo (T 2) (Plain (Transpose (IT 77) [0;3;1;2]));
  (*2395*) AddTo (T 2) (Times (Transpose (IT 38) [0;3;1;2]) (-1) 2);
  (*2396*) AddTo (T 2) (Times (Transpose (IT 49) [0;2;1;3]) (-1) 1);
  (*2397*) AddTo (T 2) (Times (Transpose (IT 52) [0;2;1;3]) (-1) 1);
  (*2398*) Assign (T 5) (Plain (Copy (IT 108)));
  (*2399*) AddTo (T 5) (Plain (Copy n_v'oovv));
  (*2400*) AddTo (T 5) (Times (Transpose (IT 91) [0;1;3;2]) (-1) 1);
  (*2401*) Assign (T 4) (Plain (Einsum [(n_t1,[0;1]); (T 3,[2;3;1])] [2;0;3]));
  (*2402*) Del (T 3);
  (*2403*) Assign (T 1) (Plain (Copy (IT 25)));
  (*2404*) AddTo (T 1) (Times (Transpose (IT 47) [0;2;1;3]) (2) 1);
  (*2405*) AddTo (T 1) (Times (Transpose (IT 54) [0;2;1;3]) (2) 1);
  (*2406*) AddTo (T 1) (Plain (Transpose (IT 77) [0;3;1;2]));
  (*2407*) AddTo (T 1) (Times (Transpose (IT 38) [0;3;1;2]) (-2) 1);
  (*2408*) AddTo (T 1) (Times (Transpose (IT 49) [0;2;1;3]) (-4) 1);
  (*2409*) AddTo (T 1) (Times (Transpose (IT 52) [0;2;1;3]) (-1) 1);
  (*2410*) AddTo (T 1) (Times (Transpose n_v'ovvv [0;2;1;3]) (-2) 1);
  (*2411*) AddTo (T 1) (Plain (Transpose n_v'ovvv [0;2;3;1]));
  (*2412*) Assign (T 9) (Times (Copy (IT 107)) (1) 2);
  (*2413*) AddTo (T 9) (Plain (Copy (IT 114)));
  (*2414*) AddTo (T 9) (Times (Copy (IT 12)) (1) 2);
  (*2415*) AddTo (T 9) (Times (Copy (IT 20)) (1) 2);
  (*2416*) AddTo (T 9) (Times (Copy (IT 2)) (1) 2);
  (*2417*) AddTo (T 9) (Plain (Copy (IT 35)));
  (*2418*) AddTo (T 9) (Times (Copy (IT 4)) (1) 2);
  (*2419*) AddTo (T 9) (Times (Copy (IT 44)) (1) 2);
  (*2420*) AddTo (T 9) (Plain (Copy (IT 58)));
  (*2421*) AddTo (T 9) (Plain (Copy (IT 60)));
  (*2422*) AddTo (T 9) (Plain (Copy (IT 71)));
  (*2423*) AddTo (T 9) (Plain (Copy (IT 81)));
  (*2424*) AddTo (T 9) (Plain (Copy (IT 99)));
  (*2425*) AddTo (T 9) (Times (Copy n_f'ov) (-1) 2);
  (*2426*) AddTo (T 9) (Times (Copy (IT 104)) (-1) 1);
  (*2427*) AddTo (T 9) (Times (Copy (IT 112)) (-1) 2);
  (*2428*) AddTo (T 9) (Times (Copy (IT 18)) (-1) 1);
  (*2429*) AddTo (T 9) (Times (Copy (IT 3)) (-1) 2);
  (*2430*) AddTo (T 9) (Times (Copy (IT 32)) (-1) 2);
  (*2431*) AddTo (T 9) (Times (Copy (IT 41)) (-1) 1);
  (*2432*) AddTo (T 9) (Times (Copy (IT 5)) (-1) 1);
  (*2433*) AddTo (T 9) (Times (Copy (IT 57)) (-1) 2);
  (*2434*) AddTo (T 9) (Times (Copy (IT 63)) (-2) 1);
  (*2435*) AddTo (T 9) (Times (Copy (IT 74)) (-1) 2);
  (*2436*) AddTo (T 9) (Times (Copy (IT 85)) (-1) 2);
  (*2437*) AddTo (T 9) (Times (Copy (IT 97)) (-1) 2);
  (*2438*) Assign (T 8) (Plain (Copy (IT 110)));
  (*2439*) AddTo (T 8) (Times (Transpose (IT 89) [0;1;3;2]) (2) 1);
  (*2440*) AddTo (T 8) (Plain (Transpose n_v'ovov [0;2;3;1]));
  (*2441*) AddTo (T 8) (Times (Transpose (IT 88) [0;1;3;2]) (-1) 1);
  (*2442*) AddTo (T 8) (Times (Transpose (IT 93) [0;1;3;2]) (-1) 1);
  (*2443*) Assign (T 14) (Times (Copy (T 12)) (2) 1);
  (*2444*) AddTo (T 14) (Times (Transpose (T 12) [0;2;1]) (-1) 1);
  (*2445*) Del (T 12);
  (*2446*) Assign n_r2new (Times (Einsum [(n_v'ovvv,[0;1;2;3]); (n_r1,[3])] [1;2;0]) (-1) 1);
  (*2447*) AddTo n_r2new (Plain (Einsum [(n_r2,[0;1;2]); (n_v'vvvv,[3;0;4;1])] [3;4;2]));
  (*2448*) AddTo n_r2new (Times (Einsum [(T 21,[0;1;2]); (n_v'ovvv,[1;3;4;2])] [3;4;0]) (-1) 1);
  (*2449*) Del (T 21);
  (*2450*) AddTo n_r2new (Times (Einsum [(n_v'ovvv,[0;1;2;3]); (T 11,[4;0;3])] [2;1;4]) (-1) 1);
  (*2451*) Del (T 11);
  (*2452*) AddTo n_r2new (Times (Einsum [(T 23,[0;1;2;3]); (T 6,[0;3;4])] [2;4;1]) (-2) 1);
  (*2453*) Del (T 6);
  (*2453*) Del (T 23);
  (*2454*) AddTo n_r2new (Plain (Einsum [(n_r2,[0;1;2]); (T 25,[2;3;4;1])] [0;4;3]));
  (*2455*) AddTo n_r2new (Plain (Einsum [(T 25,[0;1;2;3]); (n_r2,[3;4;0])] [2;4;1]));
  (*2456*) Del (T 25);
  (*2457*) AddTo n_r2new (Plain (Einsum [(T 26,[0;1;2]); (n_v'ovov,[2;3;1;4])] [4;3;0]));
  (*2458*) Del (T 26);
  (*2459*) AddTo n_r2new (Times (Einsum [(T 28,[0;1]); (n_r2,[0;2;3])] [1;2;3]) (-1) 1);
  (*2460*) AddTo n_r2new (Times (Einsum [(T 28,[0;1]); (n_r2,[2;0;3])] [2;1;3]) (-1) 1);
  (*2461*) Del (T 28);
  (*2462*) AddTo n_r2new (Times (Einsum [(n_r2,[0;1;2]); (T 29,[2;3])] [0;1;3]) (-1) 1);
  (*2463*) Del (T 29);
  (*2464*) AddTo n_r2new (Plain (Einsum [(T 19,[0]); (n_v'ovov,[1;2;0;3])] [2;3;1]));
  (*2465*) AddTo n_r2new (Times (Einsum [(n_r1,[0]); (T 20,[1;2])] [2;0;1]) (-1) 1);
  (*2466*) Assign n_r1new (Plain (Einsum [(n_r2,[0;1;2]); (T 1,[2;3;0;1])] [3]));
  (*2467*) Del (T 1);
  (*2468*) AddTo n_r1new (Times (Einsum [(n_r2,[0;1;2]); (T 2,[2;3;1;0])] [3]) (-2) 1);
  (*2469*) Del (T 2);
  (*2470*) AddTo n_r1new (Times (Einsum [(T 5,[0;1;2;3]); (T 4,[0;1;3])] [2]) (2) 1);
  (*2471*) Del (T 5);
  (*2471*) Del (T 4);
  (*2472*) AddTo n_r1new (Plain (Einsum [(T 8,[0;1;2;3]); (T 7,[0;1;3])] [2]));
  (*2473*) Del (T 8);
  (*2473*) Del (T 7);
  (*2474*) AddTo n_r1new (Times (Einsum [(T 10,[0;1;2]); (T 9,[0;2])] [1]) (2) 1);
  (*2475*) Del (T 10);
  (*2475*) Del (T 9);
  (*2476*) AddTo n_r1new (Times (Einsum [(IT 70,[0;1;2;3]); (T 13,[0;1;2])] [3]) (-2) 1);
  (*2477*) Del (T 13);
  (*2478*) AddTo n_r1new (Times (Einsum [(T 14,[0;1;2]); (n_v'ooov,[0;1;2;3])] [3]) (-1) 1);
  (*2479*) Del (T 14);
  (*2480*) AddTo n_r1new (Plain (Einsum [(n_r1,[0]); (T 15,[0;1])] [1]));
  (*2481*) Del (T 15);
  (*2482*) AddTo n_r1new (Times (Einsum [(T 19,[0]); (T 20,[0;1])] [1]) (-1) 1);
  (*2483*) Del (T 20);
  (*2483*) Del (T 19)]
 [(n_r1new,[1]); (n_r2new,[1;1;0])].

