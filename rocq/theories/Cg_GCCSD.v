(** Generated by tools/translate_codegen.py from ebcc/codegen/GCCSD.py; one statement per source line
    (the number in the comment before it). *)
From Coq Require Import ZArith List.
From Verif Require Import CgModel CgNames.
Import ListNotations.

(** ebcc/codegen/GCCSD.py:19-46 [energy] *)
Definition GCCSD_energy : prog := mkprog
 [(n_t2,[0;0;1;1]); (n_t1,[0;1]); (n_f'ov,[0;1]); (n_v'oovv,[0;0;1;1])]
 [(*40*) Assign (T 1) (Plain (Copy n_t2));
  (*41*) AddTo (T 1) (Times (Einsum [(n_t1,[0;1]); (n_t1,[2;3])] [2;0;3;1]) (2) 1);
  (*42*) Assign n_e_cc (Plain (Einsum [(n_f'ov,[0;1]); (n_t1,[0;1])] []));
  (*43*) AddTo n_e_cc (Times (Einsum [(T 1,[0;1;2;3]); (n_v'oovv,[0;1;2;3])] []) (1) 4);
  (*44*) Del (T 1)]
 [(n_e_cc,[])].

(** ebcc/codegen/GCCSD.py:48-226 [update_amps] *)
Definition GCCSD_update_amps : prog := mkprog
 [(n_t1,[0;1]); (n_v'oovv,[0;0;1;1]); (n_t2,[0;0;1;1]); (n_f'ov,[0;1]); (n_v'ovvv,[0;1;1;1]); (n_v'ooov,[0;0;0;1]); (n_v'ovov,[0;1;0;1]); (n_f'vv,[1;1]); (n_f'oo,[0;0]); (n_v'oooo,[0;0;0;0]); (n_v'ovoo,[0;1;0;0]); (n_v'vvvv,[1;1;1;1])]
 [(*71*) Assign (T 4) (Plain (Einsum [(n_t1,[0;1]); (n_v'oovv,[2;0;3;1])] [2;3]));
  (*72*) Assign (T 21) (Plain (Einsum [(n_t2,[0;1;2;3]); (n_f'ov,[4;3])] [4;0;1;2]));
  (*73*) Assign (T 22) (Plain (Einsum [(n_v'ovvv,[0;1;2;3]); (n_t2,[4;5;2;3])] [4;5;0;1]));
  (*74*) Assign (T 35) (Plain (Einsum [(T 4,[0;1]); (n_t1,[2;1])] [2;0]));
  (*75*) Assign (T 7) (Plain (Einsum [(n_v'ooov,[0;1;2;3]); (n_t1,[1;3])] [0;2]));
  (*76*) Assign (T 41) (Plain (Einsum [(n_v'ooov,[0;1;2;3]); (n_t1,[4;3])] [4;0;1;2]));
  (*77*) Assign (T 8) (Plain (Copy n_t2));
  (*78*) AddTo (T 8) (Times (Einsum [(n_t1,[0;1]); (n_t1,[2;3])] [2;0;3;1]) (2) 1);
  (*79*) Assign (T 6) (Plain (Einsum [(n_f'ov,[0;1]); (n_t1,[2;1])] [0;2]));
  (*80*) Assign (T 39) (Plain (Einsum [(n_t2,[0;1;2;3]); (n_v'oovv,[4;1;2;3])] [0;4]));
  (*81*) Assign (T 1) (Plain (Einsum [(n_v'oovv,[0;1;2;3]); (n_t1,[4;3])] [4;0;1;2]));
  (*82*) Assign (T 30) (Plain (Copy n_t2));
  (*83*) AddTo (T 30) (Times (Einsum [(n_t1,[0;1]); (n_t1,[2;3])] [2;0;1;3]) (-1) 1);
  (*84*) Assign (T 28) (Plain (Einsum [(n_t2,[0;1;2;3]); (n_v'ooov,[4;1;5;3])] [0;4;5;2]));
  (*85*) Assign (T 12) (Plain (Einsum [(n_v'ovvv,[0;1;2;3]); (n_t1,[0;3])] [1;2]));
  (*86*) Assign (T 14) (Plain (Einsum [(n_v'oovv,[0;1;2;3]); (n_t2,[4;1;5;3])] [4;0;5;2]));
  (*87*) Assign (T 16) (Times (Einsum [(T 4,[0;1]); (n_t2,[2;3;4;1])] [2;3;0;4]) (-1) 1);
  (*88*) Assign (T 23) (Times (Transpose (T 21) [0;2;1;3]) (-1) 1);
  (*89*) Del (T 21);
  (*90*) AddTo (T 23) (Times (Transpose (T 22) [2;1;0;3]) (1) 2);
  (*91*) Del (T 22);
  (*92*) Assign (T 19) (Plain (Einsum [(n_t2,[0;1;2;3]); (n_v'oovv,[0;1;4;3])] [2;4]));
  (*93*) Assign (T 10) (Plain (Einsum [(n_v'ovvv,[0;1;2;3]); (n_t1,[4;3])] [4;0;1;2]));
  (*94*) Assign (T 36) (Times (Einsum [(n_t2,[0;1;2;3]); (T 35,[4;1])] [4;0;2;3]) (-1) 1);
  (*95*) Del (T 35);
  (*96*) Assign (T 34) (Times (Einsum [(T 7,[0;1]); (n_t2,[2;0;3;4])] [2;1;3;4]) (-1) 1);
  (*97*) Assign (T 33) (Plain (Einsum [(n_v'ovvv,[0;1;2;3]); (n_t1,[4;1])] [4;0;2;3]));
  (*98*) Assign (T 42) (Times (Einsum [(T 8,[0;1;2;3]); (T 41,[4;0;1;5])] [4;5;2;3]) (1) 2);
  (*99*) Del (T 41);
  (*100*) Assign (T 38) (Plain (Einsum [(n_t2,[0;1;2;3]); (T 6,[1;4])] [4;0;2;3]));
  (*101*) Assign (T 40) (Plain (Einsum [(n_t2,[0;1;2;3]); (T 39,[4;1])] [0;4;2;3]));
  (*102*) Del (T 39);
  (*103*) Assign (T 48) (Plain (Einsum [(n_t2,[0;1;2;3]); (T 1,[4;1;5;3])] [4;0;5;2]));
  (*104*) Assign (T 31) (Plain (Einsum [(T 30,[0;1;2;3]); (n_v'ovov,[4;2;0;5])] [1;4;3;5]));
  (*105*) Del (T 30);
  (*106*) Assign (T 29) (Plain (Einsum [(T 28,[0;1;2;3]); (n_t1,[1;4])] [0;2;4;3]));
  (*107*) Del (T 28);
  (*108*) Assign (T 13) (Times (Einsum [(T 12,[0;1]); (n_t2,[2;3;4;1])] [2;3;4;0]) (-1) 1);
  (*109*) Del (T 12);
  (*110*) Assign (T 15) (Plain (Einsum [(T 14,[0;1;2;3]); (n_t2,[4;1;5;3])] [4;0;5;2]));
  (*111*) Del (T 14);
  (*112*) Assign (T 17) (Plain (Einsum [(T 16,[0;1;2;3]); (n_t1,[2;4])] [0;1;4;3]));
  (*113*) Del (T 16);
  (*114*) Assign (T 24) (Plain (Einsum [(T 23,[0;1;2;3]); (n_t1,[0;4])] [1;2;3;4]));
  (*115*) Del (T 23);
  (*116*) Assign (T 20) (Plain (Einsum [(T 19,[0;1]); (n_t2,[2;3;4;1])] [2;3;4;0]));
  (*117*) Del (T 19);
  (*118*) Assign (T 26) (Times (Einsum [(T 10,[0;1;2;3]); (n_t1,[4;3])] [0;4;1;2]) (-1) 1);
  (*119*) Assign (T 45) (Plain (Einsum [(n_f'vv,[0;1]); (n_t2,[2;3;4;1])] [2;3;0;4]));
  (*120*) Assign (T 44) (Plain (Einsum [(n_v'ooov,[0;1;2;3]); (n_t1,[2;4])] [0;1;4;3]));
  (*121*) Assign (T 37) (Times (Transpose (T 33) [0;1;3;2]) (-1) 1);
  (*122*) Del (T 33);
  (*123*) AddTo (T 37) (Plain (Transpose (T 34) [0;1;3;2]));
  (*124*) Del (T 34);
  (*125*) AddTo (T 37) (Times (Transpose (T 36) [0;1;3;2]) (-1) 1);
  (*126*) Del (T 36);
  (*127*) Assign (T 43) (Plain (Transpose (T 38) [0;1;3;2]));
  (*128*) Del (T 38);
  (*129*) AddTo (T 43) (Times (Transpose (T 40) [0;1;3;2]) (-1) 2);
  (*130*) Del (T 40);
  (*131*) AddTo (T 43) (Times (Transpose (T 42) [0;1;3;2]) (-1) 1);
  (*132*) Del (T 42);
  (*133*) Assign (T 49) (Plain (Einsum [(T 48,[0;1;2;3]); (n_t1,[2;4])] [0;1;4;3]));
  (*134*) Del (T 48);
  (*135*) Assign (T 11) (Times (Einsum [(n_t2,[0;1;2;3]); (T 10,[4;1;5;3])] [4;0;2;5]) (-1) 1);
  (*136*) Del (T 10);
  (*137*) Assign (T 32) (Plain (Copy (T 29)));
  (*138*) Del (T 29);
  (*139*) AddTo (T 32) (Times (Copy (T 31)) (-1) 1);
  (*140*) Del (T 31);
  (*141*) Assign (T 18) (Plain (Copy (T 13)));
  (*142*) Del (T 13);
  (*143*) AddTo (T 18) (Plain (Copy (T 15)));
  (*144*) Del (T 15);
  (*145*) AddTo (T 18) (Times (Copy (T 17)) (-1) 1);
  (*146*) Del (T 17);
  (*147*) Assign (T 25) (Times (Copy (T 20)) (1) 2);
  (*148*) Del (T 20);
  (*149*) AddTo (T 25) (Plain (Transpose (T 24) [1;0;3;2]));
  (*150*) Del (T 24);
  (*151*) Assign (T 47) (Plain (Einsum [(n_t2,[0;1;2;3]); (n_f'oo,[4;1])] [4;0;2;3]));
  (*152*) Assign (T 27) (Times (Einsum [(T 26,[0;1;2;3]); (n_t1,[2;4])] [1;0;4;3]) (-1) 1);
  (*153*) Del (T 26);
  (*154*) Assign (T 46) (Times (Transpose (T 44) [1;0;2;3]) (-1) 1);
  (*155*) Del (T 44);
  (*156*) AddTo (T 46) (Times (Transpose (T 45) [1;0;2;3]) (-1) 1);
  (*157*) Del (T 45);
  (*158*) Assign (T 3) (Times (Copy n_t2) (1) 2);
  (*159*) AddTo (T 3) (Plain (Einsum [(n_t1,[0;1]); (n_t1,[2;3])] [2;0;3;1]));
  (*160*) Assign (T 50) (Plain (Copy n_v'oooo));
  (*161*) AddTo (T 50) (Times (Einsum [(T 8,[0;1;2;3]); (n_v'oovv,[4;5;2;3])] [4;5;1;0]) (-1) 2);
  (*162*) Assign (T 9) (Plain (Copy n_f'oo));
  (*163*) AddTo (T 9) (Plain (Copy (T 6)));
  (*164*) Del (T 6);
  (*165*) AddTo (T 9) (Plain (Copy (T 7)));
  (*166*) Del (T 7);
  (*167*) AddTo (T 9) (Times (Einsum [(T 8,[0;1;2;3]); (n_v'oovv,[4;0;2;3])] [4;1]) (-1) 2);
  (*168*) Assign (T 2) (Times (Transpose n_v'ovoo [0;2;3;1]) (-1) 1);
  (*169*) AddTo (T 2) (Times (Transpose (T 1) [0;2;1;3]) (-1) 1);
  (*170*) Del (T 1);
  (*171*) Assign (T 5) (Plain (Copy n_f'ov));
  (*172*) AddTo (T 5) (Plain (Copy (T 4)));
  (*173*) Del (T 4);
  (*174*) Assign n_t2new (Plain (Copy n_v'oovv));
  (*175*) AddTo n_t2new (Plain (Copy (T 11)));
  (*176*) AddTo n_t2new (Times (Transpose (T 11) [0;1;3;2]) (-1) 1);
  (*177*) AddTo n_t2new (Times (Transpose (T 11) [1;0;2;3]) (-1) 1);
  (*178*) AddTo n_t2new (Plain (Transpose (T 11) [1;0;3;2]));
  (*179*) Del (T 11);
  (*180*) AddTo n_t2new (Plain (Copy (T 18)));
  (*181*) AddTo n_t2new (Times (Transpose (T 18) [0;1;3;2]) (-1) 1);
  (*182*) Del (T 18);
  (*183*) AddTo n_t2new (Times (Copy (T 25)) (-1) 1);
  (*184*) AddTo n_t2new (Plain (Transpose (T 25) [0;1;3;2]));
  (*185*) Del (T 25);
  (*186*) AddTo n_t2new (Times (Copy (T 27)) (-1) 1);
  (*187*) AddTo n_t2new (Plain (Transpose (T 27) [0;1;3;2]));
  (*188*) Del (T 27);
  (*189*) AddTo n_t2new (Plain (Copy (T 32)));
  (*190*) AddTo n_t2new (Times (Transpose (T 32) [0;1;3;2]) (-1) 1);
  (*191*) AddTo n_t2new (Times (Transpose (T 32) [1;0;2;3]) (-1) 1);
  (*192*) AddTo n_t2new (Plain (Transpose (T 32) [1;0;3;2]));
  (*193*) Del (T 32);
  (*194*) AddTo n_t2new (Times (Copy (T 37)) (-1) 1);
  (*195*) AddTo n_t2new (Plain (Transpose (T 37) [1;0;2;3]));
  (*196*) Del (T 37);
  (*197*) AddTo n_t2new (Times (Copy (T 43)) (-1) 1);
  (*198*) AddTo n_t2new (Plain (Transpose (T 43) [1;0;2;3]));
  (*199*) Del (T 43);
  (*200*) AddTo n_t2new (Times (Copy (T 46)) (-1) 1);
  (*201*) AddTo n_t2new (Plain (Transpose (T 46) [0;1;3;2]));
  (*202*) Del (T 46);
  (*203*) AddTo n_t2new (Times (Transpose (T 47) [0;1;3;2]) (-1) 1);
  (*204*) AddTo n_t2new (Plain (Transpose (T 47) [1;0;3;2]));
  (*205*) Del (T 47);
  (*206*) AddTo n_t2new (Times (Copy (T 49)) (-1) 1);
  (*207*) AddTo n_t2new (Plain (Transpose (T 49) [0;1;3;2]));
  (*208*) AddTo n_t2new (Plain (Transpose (T 49) [1;0;2;3]));
  (*209*) AddTo n_t2new (Times (Transpose (T 49) [1;0;3;2]) (-1) 1);
  (*210*) Del (T 49);
  (*211*) AddTo n_t2new (Times (Einsum [(T 8,[0;1;2;3]); (T 50,[0;1;4;5])] [4;5;3;2]) (-1) 2);
  (*212*) Del (T 8);
  (*212*) Del (T 50);
  (*213*) AddTo n_t2new (Times (Einsum [(T 3,[0;1;2;3]); (n_v'vvvv,[4;5;2;3])] [1;0;4;5]) (-1) 1);
  (*214*) Assign n_t1new (Plain (Copy n_f'ov));
  (*215*) AddTo n_t1new (Plain (Einsum [(n_t1,[0;1]); (n_f'vv,[2;1])] [0;2]));
  (*216*) AddTo n_t1new (Times (Einsum [(n_t1,[0;1]); (n_v'ovov,[2;1;0;3])] [2;3]) (-1) 1);
  (*217*) AddTo n_t1new (Times (Einsum [(T 2,[0;1;2;3]); (n_t2,[1;2;4;3])] [0;4]) (1) 2);
  (*218*) Del (T 2);
  (*219*) AddTo n_t1new (Plain (Einsum [(T 3,[0;1;2;3]); (n_v'ovvv,[0;4;2;3])] [1;4]));
  (*220*) Del (T 3);
  (*221*) AddTo n_t1new (Plain (Einsum [(n_t2,[0;1;2;3]); (T 5,[1;3])] [0;2]));
  (*222*) Del (T 5);
  (*223*) AddTo n_t1new (Times (Einsum [(T 9,[0;1]); (n_t1,[0;2])] [1;2]) (-1) 1);
  (*224*) Del (T 9)]
 [(n_t1new,[0;1]); (n_t2new,[0;0;1;1])].

(** ebcc/codegen/GCCSD.py:228-460 [update_lams] *)
Definition GCCSD_update_lams : prog := mkprog
 [(n_v'oovv,[0;0;1;1]); (n_t1,[0;1]); (n_t2,[0;0;1;1]); (n_v'ovvv,[0;1;1;1]); (n_v'ooov,[0;0;0;1]); (n_l1,[1;0]); (n_l2,[1;1;0;0]); (n_v'ovoo,[0;1;0;0]); (n_v'ovov,[0;1;0;1]); (n_f'ov,[0;1]); (n_f'vv,[1;1]); (n_f'oo,[0;0]); (n_v'oooo,[0;0;0;0]); (n_v'vvvv,[1;1;1;1])]
 [(*255*) Assign (T 6) (Plain (Einsum [(n_v'oovv,[0;1;2;3]); (n_t1,[4;3])] [4;0;1;2]));
  (*256*) Assign (T 37) (Plain (Einsum [(n_v'oovv,[0;1;2;3]); (n_t2,[0;1;4;3])] [4;2]));
  (*257*) Assign (T 26) (Plain (Einsum [(n_v'ovvv,[0;1;2;3]); (n_t1,[0;3])] [1;2]));
  (*258*) Assign (T 5) (Plain (Einsum [(n_v'ovvv,[0;1;2;3]); (n_t1,[4;3])] [4;0;1;2]));
  (*259*) Assign (T 29) (Plain (Einsum [(n_v'oovv,[0;1;2;3]); (n_t2,[4;1;2;3])] [4;0]));
  (*260*) Assign (T 28) (Plain (Einsum [(n_t1,[0;1]); (n_v'ooov,[2;0;3;1])] [2;3]));
  (*261*) Assign (T 21) (Plain (Einsum [(n_t1,[0;1]); (n_l1,[1;2])] [2;0]));
  (*262*) Assign (T 22) (Plain (Einsum [(n_l2,[0;1;2;3]); (n_t2,[4;3;0;1])] [2;4]));
  (*263*) Assign (T 2) (Plain (Einsum [(n_l2,[0;1;2;3]); (n_t1,[4;1])] [2;3;4;0]));
  (*264*) Assign (T 12) (Plain (Copy n_v'ooov));
  (*265*) AddTo (T 12) (Times (Transpose (T 6) [2;1;0;3]) (1) 2);
  (*266*) Assign (T 8) (Plain (Einsum [(n_t1,[0;1]); (n_v'oovv,[2;0;3;1])] [2;3]));
  (*267*) Assign (T 19) (Plain (Einsum [(n_t2,[0;1;2;3]); (n_l2,[4;3;0;1])] [4;2]));
  (*268*) Assign (T 38) (Plain (Copy (T 26)));
  (*269*) AddTo (T 38) (Times (Copy (T 37)) (1) 2);
  (*270*) Del (T 37);
  (*271*) Assign (T 7) (Times (Transpose n_v'ovoo [0;2;3;1]) (-1) 1);
  (*272*) AddTo (T 7) (Times (Transpose (T 6) [0;2;1;3]) (-1) 1);
  (*273*) Assign (T 32) (Times (Transpose n_v'ovov [0;2;3;1]) (-1) 1);
  (*274*) AddTo (T 32) (Plain (Copy (T 5)));
  (*275*) Assign (T 42) (Plain (Einsum [(n_f'ov,[0;1]); (n_t1,[2;1])] [0;2]));
  (*276*) Assign (T 45) (Times (Copy (T 28)) (2) 1);
  (*277*) AddTo (T 45) (Plain (Transpose (T 29) [1;0]));
  (*278*) Assign (T 25) (Plain (Copy (T 21)));
  (*279*) AddTo (T 25) (Times (Copy (T 22)) (1) 2);
  (*280*) Assign (T 51) (Plain (Einsum [(n_v'oovv,[0;1;2;3]); (n_t2,[4;1;5;3])] [4;0;5;2]));
  (*281*) Assign (T 1) (Plain (Einsum [(n_l2,[0;1;2;3]); (n_t2,[4;5;0;1])] [2;3;4;5]));
  (*282*) Assign (T 3) (Plain (Einsum [(n_t1,[0;1]); (T 2,[2;3;4;1])] [3;2;4;0]));
  (*283*) Assign (T 13) (Plain (Einsum [(n_t1,[0;1]); (T 12,[2;3;4;1])] [2;3;4;0]));
  (*284*) Del (T 12);
  (*285*) Assign (T 11) (Plain (Einsum [(n_v'oovv,[0;1;2;3]); (n_t2,[4;5;2;3])] [4;5;0;1]));
  (*286*) Assign (T 57) (Plain (Einsum [(n_f'vv,[0;1]); (n_l2,[2;1;3;4])] [3;4;0;2]));
  (*287*) Assign (T 58) (Plain (Einsum [(T 8,[0;1]); (T 2,[2;3;0;4])] [2;3;4;1]));
  (*288*) Assign (T 36) (Times (Einsum [(n_v'oovv,[0;1;2;3]); (T 19,[4;3])] [0;1;4;2]) (-1) 1);
  (*289*) Assign (T 39) (Times (Einsum [(T 38,[0;1]); (n_l2,[2;0;3;4])] [3;4;1;2]) (-1) 1);
  (*290*) Del (T 38);
  (*291*) Assign (T 35) (Plain (Einsum [(T 2,[0;1;2;3]); (n_f'ov,[2;4])] [0;1;4;3]));
  (*292*) Assign (T 40) (Plain (Einsum [(n_l1,[0;1]); (T 7,[1;2;3;4])] [2;3;4;0]));
  (*293*) Assign (T 33) (Plain (Einsum [(n_l2,[0;1;2;3]); (T 32,[3;4;1;5])] [4;2;5;0]));
  (*294*) Del (T 32);
  (*295*) Assign (T 31) (Plain (Einsum [(T 2,[0;1;2;3]); (n_v'ooov,[4;2;1;5])] [0;4;3;5]));
  (*296*) Assign (T 43) (Plain (Einsum [(n_l2,[0;1;2;3]); (T 42,[4;3])] [4;2;0;1]));
  (*297*) Del (T 42);
  (*298*) Assign (T 46) (Times (Einsum [(n_l2,[0;1;2;3]); (T 45,[4;3])] [4;2;0;1]) (-1) 2);
  (*299*) Del (T 45);
  (*300*) Assign (T 44) (Times (Einsum [(n_v'oovv,[0;1;2;3]); (T 25,[4;1])] [4;0;2;3]) (-1) 1);
  (*301*) Assign (T 53) (Times (Einsum [(T 6,[0;1;2;3]); (T 2,[0;4;2;5])] [4;1;5;3]) (-1) 1);
  (*302*) Del (T 6);
  (*303*) Assign (T 52) (Plain (Einsum [(n_l2,[0;1;2;3]); (T 51,[3;4;1;5])] [2;4;0;5]));
  (*304*) Del (T 51);
  (*305*) Assign (T 55) (Plain (Einsum [(T 8,[0;1]); (n_t1,[2;1])] [2;0]));
  (*306*) Assign (T 49) (Plain (Einsum [(n_l1,[0;1]); (n_v'ovvv,[2;0;3;4])] [1;2;3;4]));
  (*307*) Assign (T 48) (Plain (Einsum [(n_l2,[0;1;2;3]); (n_f'oo,[4;3])] [4;2;0;1]));
  (*308*) Assign (T 9) (Plain (Copy n_f'ov));
  (*309*) AddTo (T 9) (Plain (Copy (T 8)));
  (*310*) Assign (T 17) (Times (Transpose (T 1) [1;0;3;2]) (-1) 2);
  (*311*) AddTo (T 17) (Plain (Transpose (T 3) [0;1;3;2]));
  (*312*) Assign (T 10) (Plain (Transpose n_v'ovov [0;2;1;3]));
  (*313*) AddTo (T 10) (Times (Transpose (T 5) [0;1;3;2]) (-1) 2);
  (*314*) Assign (T 14) (Times (Copy n_v'oooo) (-1) 2);
  (*315*) AddTo (T 14) (Times (Transpose (T 11) [3;2;1;0]) (-1) 4);
  (*316*) AddTo (T 14) (Times (Transpose (T 13) [1;0;3;2]) (-1) 1);
  (*317*) Assign (T 23) (Times (Copy (T 21)) (2) 1);
  (*318*) Del (T 21);
  (*319*) AddTo (T 23) (Plain (Copy (T 22)));
  (*320*) Del (T 22);
  (*321*) Assign (T 59) (Times (Transpose (T 57) [1;0;2;3]) (-1) 1);
  (*322*) Del (T 57);
  (*323*) AddTo (T 59) (Plain (Copy (T 58)));
  (*324*) Del (T 58);
  (*325*) Assign (T 41) (Times (Copy (T 35)) (-1) 1);
  (*326*) Del (T 35);
  (*327*) AddTo (T 41) (Times (Copy (T 36)) (1) 2);
  (*328*) Del (T 36);
  (*329*) AddTo (T 41) (Plain (Transpose (T 39) [1;0;3;2]));
  (*330*) Del (T 39);
  (*331*) AddTo (T 41) (Plain (Transpose (T 40) [1;0;3;2]));
  (*332*) Del (T 40);
  (*333*) Assign (T 60) (Times (Copy n_v'oooo) (1) 2);
  (*334*) AddTo (T 60) (Times (Transpose (T 11) [1;0;3;2]) (1) 4);
  (*335*) Del (T 11);
  (*336*) AddTo (T 60) (Times (Transpose (T 13) [2;3;1;0]) (-1) 1);
  (*337*) Del (T 13);
  (*338*) Assign (T 34) (Plain (Einsum [(T 8,[0;1]); (n_l1,[2;3])] [3;0;2;1]));
  (*339*) Del (T 8);
  (*340*) AddTo (T 34) (Plain (Copy (T 31)));
  (*341*) Del (T 31);
  (*342*) AddTo (T 34) (Plain (Transpose (T 33) [1;0;3;2]));
  (*343*) Del (T 33);
  (*344*) Assign (T 47) (Plain (Transpose (T 43) [0;1;3;2]));
  (*345*) Del (T 43);
  (*346*) AddTo (T 47) (Times (Transpose (T 44) [0;1;3;2]) (-1) 1);
  (*347*) Del (T 44);
  (*348*) AddTo (T 47) (Plain (Transpose (T 46) [1;0;3;2]));
  (*349*) Del (T 46);
  (*350*) Assign (T 61) (Times (Transpose (T 1) [1;0;3;2]) (-1) 1);
  (*351*) AddTo (T 61) (Times (Transpose (T 3) [0;1;3;2]) (2) 1);
  (*352*) Assign (T 54) (Plain (Copy (T 52)));
  (*353*) Del (T 52);
  (*354*) AddTo (T 54) (Times (Copy (T 53)) (-1) 1);
  (*355*) Del (T 53);
  (*356*) Assign (T 56) (Plain (Einsum [(T 55,[0;1]); (n_l2,[2;3;4;0])] [4;1;2;3]));
  (*357*) Del (T 55);
  (*358*) Assign (T 50) (Times (Transpose (T 48) [0;1;3;2]) (-1) 1);
  (*359*) Del (T 48);
  (*360*) AddTo (T 50) (Plain (Transpose (T 49) [0;1;3;2]));
  (*361*) Del (T 49);
  (*362*) Assign (T 30) (Plain (Copy n_f'oo));
  (*363*) AddTo (T 30) (Plain (Transpose (T 28) [1;0]));
  (*364*) Del (T 28);
  (*365*) AddTo (T 30) (Times (Copy (T 29)) (1) 2);
  (*366*) Del (T 29);
  (*367*) AddTo (T 30) (Plain (Einsum [(T 9,[0;1]); (n_t1,[2;1])] [2;0]));
  (*368*) Assign (T 18) (Times (Einsum [(n_t2,[0;1;2;3]); (n_l1,[3;4])] [4;0;1;2]) (1) 2);
  (*369*) AddTo (T 18) (Times (Einsum [(T 2,[0;1;2;3]); (n_t2,[4;1;5;3])] [0;4;2;5]) (-1) 1);
  (*370*) AddTo (T 18) (Times (Einsum [(n_t1,[0;1]); (T 17,[0;2;3;4])] [2;4;3;1]) (-1) 2);
  (*371*) Del (T 17);
  (*372*) Assign (T 4) (Plain (Einsum [(n_t2,[0;1;2;3]); (n_l2,[4;3;5;1])] [5;0;4;2]));
  (*373*) Assign (T 15) (Times (Transpose n_v'ovoo [0;2;3;1]) (-1) 2);
  (*374*) AddTo (T 15) (Times (Einsum [(n_v'ovvv,[0;1;2;3]); (n_t2,[4;5;2;3])] [0;4;5;1]) (-1) 4);
  (*375*) AddTo (T 15) (Plain (Einsum [(n_t2,[0;1;2;3]); (T 7,[4;1;5;3])] [5;0;4;2]));
  (*376*) Del (T 7);
  (*377*) AddTo (T 15) (Times (Einsum [(T 9,[0;1]); (n_t2,[2;3;4;1])] [0;2;3;4]) (1) 2);
  (*378*) AddTo (T 15) (Times (Einsum [(T 10,[0;1;2;3]); (n_t1,[4;2])] [1;0;4;3]) (-1) 1);
  (*379*) Del (T 10);
  (*380*) AddTo (T 15) (Times (Einsum [(n_t1,[0;1]); (T 14,[0;2;3;4])] [2;4;3;1]) (-1) 1);
  (*381*) Del (T 14);
  (*382*) Assign (T 16) (Plain (Copy n_v'ovvv));
  (*383*) AddTo (T 16) (Times (Einsum [(n_v'vvvv,[0;1;2;3]); (n_t1,[4;1])] [4;0;2;3]) (-1) 1);
  (*384*) Assign (T 27) (Plain (Copy n_f'vv));
  (*385*) AddTo (T 27) (Times (Copy (T 26)) (-1) 1);
  (*386*) Del (T 26);
  (*387*) Assign (T 24) (Times (Copy n_t1) (-1) 1);
  (*388*) AddTo (T 24) (Times (Einsum [(n_l1,[0;1]); (n_t2,[2;1;3;0])] [2;3]) (-1) 1);
  (*389*) AddTo (T 24) (Times (Einsum [(n_t2,[0;1;2;3]); (T 2,[1;0;4;3])] [4;2]) (1) 2);
  (*390*) AddTo (T 24) (Times (Einsum [(T 23,[0;1]); (n_t1,[0;2])] [1;2]) (1) 2);
  (*391*) Del (T 23);
  (*392*) Assign (T 20) (Times (Einsum [(n_t1,[0;1]); (n_l1,[2;0])] [2;1]) (2) 1);
  (*393*) AddTo (T 20) (Plain (Copy (T 19)));
  (*394*) Del (T 19);
  (*395*) Assign n_l2new (Plain (Einsum [(n_v'ovvv,[0;1;2;3]); (T 2,[4;5;0;1])] [2;3;4;5]));
  (*396*) AddTo n_l2new (Plain (Transpose n_v'oovv [2;3;0;1]));
  (*397*) AddTo n_l2new (Times (Einsum [(n_l2,[0;1;2;3]); (n_v'vvvv,[4;5;0;1])] [4;5;2;3]) (1) 2);
  (*398*) AddTo n_l2new (Plain (Transpose (T 34) [2;3;0;1]));
  (*399*) AddTo n_l2new (Times (Transpose (T 34) [3;2;0;1]) (-1) 1);
  (*400*) AddTo n_l2new (Times (Transpose (T 34) [2;3;1;0]) (-1) 1);
  (*401*) AddTo n_l2new (Plain (Transpose (T 34) [3;2;1;0]));
  (*402*) Del (T 34);
  (*403*) AddTo n_l2new (Times (Transpose (T 41) [2;3;0;1]) (-1) 1);
  (*404*) AddTo n_l2new (Plain (Transpose (T 41) [3;2;0;1]));
  (*405*) Del (T 41);
  (*406*) AddTo n_l2new (Plain (Transpose (T 47) [3;2;0;1]));
  (*407*) AddTo n_l2new (Times (Transpose (T 47) [3;2;1;0]) (-1) 1);
  (*408*) Del (T 47);
  (*409*) AddTo n_l2new (Plain (Transpose (T 50) [2;3;0;1]));
  (*410*) AddTo n_l2new (Times (Transpose (T 50) [2;3;1;0]) (-1) 1);
  (*411*) Del (T 50);
  (*412*) AddTo n_l2new (Plain (Einsum [(n_l1,[0;1]); (n_f'ov,[2;3])] [3;0;2;1]));
  (*413*) AddTo n_l2new (Times (Einsum [(n_f'ov,[0;1]); (n_l1,[2;3])] [2;1;0;3]) (-1) 1);
  (*414*) AddTo n_l2new (Times (Einsum [(n_f'ov,[0;1]); (n_l1,[2;3])] [1;2;3;0]) (-1) 1);
  (*415*) AddTo n_l2new (Plain (Einsum [(n_f'ov,[0;1]); (n_l1,[2;3])] [2;1;3;0]));
  (*416*) AddTo n_l2new (Plain (Transpose (T 54) [2;3;0;1]));
  (*417*) AddTo n_l2new (Times (Transpose (T 54) [3;2;0;1]) (-1) 1);
  (*418*) AddTo n_l2new (Times (Transpose (T 54) [2;3;1;0]) (-1) 1);
  (*419*) AddTo n_l2new (Plain (Transpose (T 54) [3;2;1;0]));
  (*420*) Del (T 54);
  (*421*) AddTo n_l2new (Times (Transpose (T 56) [2;3;0;1]) (-1) 1);
  (*422*) AddTo n_l2new (Plain (Transpose (T 56) [2;3;1;0]));
  (*423*) Del (T 56);
  (*424*) AddTo n_l2new (Times (Transpose (T 59) [2;3;0;1]) (-1) 1);
  (*425*) AddTo n_l2new (Plain (Transpose (T 59) [3;2;0;1]));
  (*426*) Del (T 59);
  (*427*) AddTo n_l2new (Plain (Einsum [(T 60,[0;1;2;3]); (n_l2,[4;5;0;1])] [4;5;2;3]));
  (*428*) Del (T 60);
  (*429*) AddTo n_l2new (Times (Einsum [(T 61,[0;1;2;3]); (n_v'oovv,[2;3;4;5])] [4;5;1;0]) (1) 4);
  (*430*) Del (T 61);
  (*431*) Assign n_l1new (Plain (Transpose n_f'ov [1;0]));
  (*432*) AddTo n_l1new (Times (Einsum [(n_l1,[0;1]); (n_v'ovov,[2;0;1;3])] [3;2]) (-1) 1);
  (*433*) AddTo n_l1new (Times (Einsum [(n_v'ovoo,[0;1;2;3]); (T 1,[4;0;3;2])] [1;4]) (1) 4);
  (*434*) Del (T 1);
  (*435*) AddTo n_l1new (Times (Einsum [(n_v'ooov,[0;1;2;3]); (T 3,[4;2;0;1])] [3;4]) (-1) 2);
  (*436*) Del (T 3);
  (*437*) AddTo n_l1new (Times (Einsum [(T 2,[0;1;2;3]); (n_v'ovov,[2;3;1;4])] [4;0]) (-1) 1);
  (*438*) AddTo n_l1new (Times (Einsum [(n_v'ovvv,[0;1;2;3]); (T 4,[4;0;1;3])] [2;4]) (-1) 1);
  (*439*) Del (T 4);
  (*440*) AddTo n_l1new (Plain (Einsum [(T 2,[0;1;2;3]); (T 5,[1;2;3;4])] [4;0]));
  (*441*) Del (T 5);
  (*441*) Del (T 2);
  (*442*) AddTo n_l1new (Plain (Einsum [(T 15,[0;1;2;3]); (n_l2,[4;3;1;2])] [4;0]));
  (*443*) Del (T 15);
  (*444*) AddTo n_l1new (Times (Einsum [(n_l2,[0;1;2;3]); (T 16,[3;4;0;1])] [4;2]) (-1) 2);
  (*445*) Del (T 16);
  (*446*) AddTo n_l1new (Plain (Einsum [(T 18,[0;1;2;3]); (n_v'oovv,[1;2;4;3])] [4;0]));
  (*447*) Del (T 18);
  (*448*) AddTo n_l1new (Times (Einsum [(T 20,[0;1]); (n_v'ovvv,[2;0;3;1])] [3;2]) (1) 2);
  (*449*) Del (T 20);
  (*450*) AddTo n_l1new (Times (Einsum [(n_v'oovv,[0;1;2;3]); (T 24,[1;3])] [2;0]) (-1) 1);
  (*451*) Del (T 24);
  (*452*) AddTo n_l1new (Plain (Einsum [(T 25,[0;1]); (n_v'ooov,[2;1;0;3])] [3;2]));
  (*453*) AddTo n_l1new (Plain (Einsum [(n_l1,[0;1]); (T 27,[0;2])] [2;1]));
  (*454*) Del (T 27);
  (*455*) AddTo n_l1new (Times (Einsum [(T 30,[0;1]); (n_l1,[2;0])] [2;1]) (-1) 1);
  (*456*) Del (T 30);
  (*457*) AddTo n_l1new (Times (Einsum [(T 9,[0;1]); (T 25,[2;0])] [1;2]) (-1) 1);
  (*458*) Del (T 25);
  (*458*) Del (T 9)]
 [(n_l1new,[1;0]); (n_l2new,[1;1;0;0])].

(** ebcc/codegen/GCCSD.py:462-510 [make_rdm1_f]; assembly (line 508) not translated *)
Definition GCCSD_make_rdm1_f : prog := mkprog
 [(n_t2,[0;0;1;1]); (n_t1,[0;1]); (n_l1,[1;0]); (n_l2,[1;1;0;0])]
 [(*484*) Assign n_delta'oo (Plain (Eye 0));
  (*484*) Assign n_delta'vv (Plain (Eye 1));
  (*488*) Assign (T 2) (Plain (Einsum [(n_t1,[0;1]); (n_l1,[1;2])] [2;0]));
  (*489*) Assign (T 1) (Plain (Einsum [(n_l2,[0;1;2;3]); (n_t2,[4;3;0;1])] [2;4]));
  (*490*) Assign (T 4) (Times (Copy (T 2)) (2) 1);
  (*491*) AddTo (T 4) (Plain (Copy (T 1)));
  (*492*) Assign (T 3) (Plain (Einsum [(n_l2,[0;1;2;3]); (n_t1,[4;1])] [2;3;4;0]));
  (*493*) Assign n_rdm1'vv (Plain (Einsum [(n_t1,[0;1]); (n_l1,[2;0])] [2;1]));
  (*494*) AddTo n_rdm1'vv (Times (Einsum [(n_t2,[0;1;2;3]); (n_l2,[4;3;0;1])] [4;2]) (1) 2);
  (*495*) Assign n_rdm1'vo (Plain (Copy n_l1));
  (*496*) Assign n_rdm1'ov (Plain (Einsum [(n_l1,[0;1]); (n_t2,[2;1;3;0])] [2;3]));
  (*497*) AddTo n_rdm1'ov (Plain (Copy n_t1));
  (*498*) AddTo n_rdm1'ov (Times (Einsum [(T 3,[0;1;2;3]); (n_t2,[1;0;4;3])] [2;4]) (-1) 2);
  (*499*) Del (T 3);
  (*500*) AddTo n_rdm1'ov (Times (Einsum [(T 4,[0;1]); (n_t1,[0;2])] [1;2]) (-1) 2);
  (*501*) Del (T 4);
  (*502*) Assign n_rdm1'oo (Times (Transpose (T 1) [1;0]) (-1) 2);
  (*503*) Del (T 1);
  (*504*) AddTo n_rdm1'oo (Plain (Copy n_delta'oo));
  (*505*) Del n_delta'oo;
  (*505*) Del n_delta'vv;
  (*506*) AddTo n_rdm1'oo (Times (Transpose (T 2) [1;0]) (-1) 1);
  (*507*) Del (T 2)]
 [(n_rdm1'oo,[0;0]); (n_rdm1'ov,[0;1]); (n_rdm1'vo,[1;0]); (n_rdm1'vv,[1;1])].

(** ebcc/codegen/GCCSD.py:512-731 [make_rdm2_f]; assembly (line 728) not translated *)
Definition GCCSD_make_rdm2_f : prog := mkprog
 [(n_t2,[0;0;1;1]); (n_t1,[0;1]); (n_l1,[1;0]); (n_l2,[1;1;0;0])]
 [(*534*) Assign n_delta'oo (Plain (Eye 0));
  (*534*) Assign n_delta'vv (Plain (Eye 1));
  (*538*) Assign (T 4) (Plain (Einsum [(n_t1,[0;1]); (n_l1,[1;2])] [2;0]));
  (*539*) Assign (T 2) (Plain (Einsum [(n_l2,[0;1;2;3]); (n_t1,[4;1])] [2;3;4;0]));
  (*540*) Assign (T 5) (Plain (Einsum [(n_l2,[0;1;2;3]); (n_t2,[4;3;0;1])] [2;4]));
  (*541*) Assign (T 22) (Plain (Einsum [(n_t2,[0;1;2;3]); (n_l2,[4;3;5;1])] [5;0;4;2]));
  (*542*) Assign (T 11) (Plain (Einsum [(n_l1,[0;1]); (n_t2,[2;1;3;0])] [2;3]));
  (*543*) Assign (T 12) (Plain (Einsum [(T 4,[0;1]); (n_t1,[0;2])] [1;2]));
  (*544*) Assign (T 7) (Times (Einsum [(n_t2,[0;1;2;3]); (T 2,[4;1;5;3])] [4;5;0;2]) (-1) 1);
  (*545*) Assign (T 1) (Plain (Einsum [(n_l2,[0;1;2;3]); (n_t2,[4;5;0;1])] [2;3;4;5]));
  (*546*) Assign (T 3) (Plain (Einsum [(n_t1,[0;1]); (T 2,[2;3;4;1])] [2;3;0;4]));
  (*547*) Assign (T 6) (Plain (Einsum [(n_t2,[0;1;2;3]); (n_l1,[3;4])] [4;0;1;2]));
  (*548*) Assign (T 15) (Times (Copy (T 4)) (2) 1);
  (*549*) AddTo (T 15) (Plain (Copy (T 5)));
  (*550*) Assign (T 31) (Plain (Einsum [(n_t1,[0;1]); (n_l1,[2;0])] [2;1]));
  (*551*) Assign (T 26) (Plain (Einsum [(n_t2,[0;1;2;3]); (n_l2,[4;3;0;1])] [4;2]));
  (*552*) Assign (T 30) (Plain (Einsum [(T 2,[0;1;2;3]); (n_t1,[1;4])] [0;2;3;4]));
  (*553*) Assign (T 37) (Plain (Einsum [(T 22,[0;1;2;3]); (n_t1,[0;4])] [1;2;4;3]));
  (*554*) Assign (T 13) (Plain (Copy (T 11)));
  (*555*) AddTo (T 13) (Times (Copy (T 12)) (-1) 1);
  (*556*) Del (T 12);
  (*557*) Assign (T 19) (Plain (Einsum [(T 7,[0;1;2;3]); (n_t1,[0;4])] [1;2;4;3]));
  (*558*) Assign (T 8) (Plain (Einsum [(T 2,[0;1;2;3]); (n_t2,[1;0;4;3])] [2;4]));
  (*559*) Assign (T 9) (Plain (Einsum [(n_t1,[0;1]); (T 5,[0;2])] [2;1]));
  (*560*) Assign (T 14) (Times (Transpose (T 1) [1;0;3;2]) (-1) 2);
  (*561*) AddTo (T 14) (Plain (Transpose (T 3) [0;1;3;2]));
  (*562*) Assign (T 23) (Plain (Einsum [(n_t2,[0;1;2;3]); (T 22,[1;4;3;5])] [0;4;2;5]));
  (*563*) Assign (T 21) (Plain (Einsum [(T 6,[0;1;2;3]); (n_t1,[0;4])] [1;2;4;3]));
  (*564*) Assign (T 16) (Times (Einsum [(T 15,[0;1]); (n_t1,[0;2])] [1;2]) (1) 2);
  (*565*) Del (T 15);
  (*566*) Assign (T 39) (Plain (Einsum [(n_l2,[0;1;2;3]); (n_t1,[3;4])] [2;0;1;4]));
  (*567*) Assign (T 32) (Plain (Copy (T 31)));
  (*568*) AddTo (T 32) (Times (Copy (T 26)) (1) 2);
  (*569*) Assign (T 34) (Times (Einsum [(n_t2,[0;1;2;3]); (T 2,[1;0;4;5])] [4;5;2;3]) (-1) 1);
  (*570*) Assign (T 36) (Plain (Einsum [(n_l1,[0;1]); (n_t2,[2;1;3;4])] [2;0;3;4]));
  (*571*) Assign (T 35) (Times (Einsum [(T 30,[0;1;2;3]); (n_t1,[0;4])] [1;2;3;4]) (-1) 1);
  (*572*) Assign (T 38) (Plain (Copy (T 37)));
  (*573*) AddTo (T 38) (Times (Einsum [(T 26,[0;1]); (n_t1,[2;3])] [2;0;3;1]) (-1) 2);
  (*574*) Assign (T 33) (Times (Copy (T 31)) (2) 1);
  (*575*) AddTo (T 33) (Plain (Copy (T 26)));
  (*576*) Assign (T 20) (Plain (Copy (T 19)));
  (*577*) Del (T 19);
  (*578*) AddTo (T 20) (Times (Einsum [(T 13,[0;1]); (n_t1,[2;3])] [2;0;3;1]) (-1) 1);
  (*579*) Assign (T 10) (Plain (Copy (T 8)));
  (*580*) AddTo (T 10) (Plain (Copy (T 9)));
  (*581*) Del (T 9);
  (*582*) Assign (T 29) (Times (Einsum [(n_t1,[0;1]); (T 14,[0;2;3;4])] [2;4;3;1]) (-2) 1);
  (*583*) Assign (T 28) (Plain (Einsum [(n_t2,[0;1;2;3]); (T 5,[1;4])] [0;4;2;3]));
  (*584*) Assign (T 25) (Plain (Einsum [(n_t2,[0;1;2;3]); (T 4,[1;4])] [4;0;2;3]));
  (*585*) Assign (T 27) (Plain (Einsum [(T 26,[0;1]); (n_t2,[2;3;4;0])] [2;3;4;1]));
  (*586*) Del (T 26);
  (*587*) Assign (T 24) (Plain (Copy (T 21)));
  (*588*) Del (T 21);
  (*589*) AddTo (T 24) (Plain (Copy (T 23)));
  (*590*) Del (T 23);
  (*591*) Assign (T 18) (Times (Transpose (T 1) [1;0;3;2]) (-1) 1);
  (*592*) AddTo (T 18) (Times (Transpose (T 3) [0;1;3;2]) (2) 1);
  (*593*) Assign (T 17) (Times (Copy (T 11)) (-1) 1);
  (*594*) Del (T 11);
  (*595*) AddTo (T 17) (Times (Copy (T 8)) (1) 2);
  (*596*) Del (T 8);
  (*597*) AddTo (T 17) (Plain (Copy (T 16)));
  (*598*) Del (T 16);
  (*599*) Assign n_rdm2'vvvv (Times (Einsum [(n_t2,[0;1;2;3]); (n_l2,[4;5;0;1])] [4;5;2;3]) (1) 2);
  (*600*) AddTo n_rdm2'vvvv (Plain (Einsum [(T 39,[0;1;2;3]); (n_t1,[0;4])] [1;2;4;3]));
  (*601*) Assign n_rdm2'vvvo (Plain (Transpose (T 39) [2;1;3;0]));
  (*602*) Assign n_rdm2'vvov (Times (Transpose (T 39) [2;1;0;3]) (-1) 1);
  (*603*) Del (T 39);
  (*604*) Assign n_rdm2'vovv (Times (Transpose (T 34) [1;0;3;2]) (1) 2);
  (*605*) AddTo n_rdm2'vovv (Plain (Transpose (T 35) [1;0;3;2]));
  (*606*) AddTo n_rdm2'vovv (Plain (Transpose (T 36) [1;0;3;2]));
  (*607*) AddTo n_rdm2'vovv (Plain (Transpose (T 37) [1;0;2;3]));
  (*608*) AddTo n_rdm2'vovv (Times (Transpose (T 37) [1;0;3;2]) (-1) 1);
  (*609*) Del (T 37);
  (*610*) AddTo n_rdm2'vovv (Times (Einsum [(T 32,[0;1]); (n_t1,[2;3])] [0;2;3;1]) (-1) 1);
  (*611*) AddTo n_rdm2'vovv (Plain (Einsum [(T 32,[0;1]); (n_t1,[2;3])] [0;2;1;3]));
  (*612*) Assign n_rdm2'ovvv (Times (Transpose (T 34) [0;1;3;2]) (-1) 2);
  (*613*) Del (T 34);
  (*614*) AddTo n_rdm2'ovvv (Times (Transpose (T 35) [0;1;3;2]) (-1) 1);
  (*615*) Del (T 35);
  (*616*) AddTo n_rdm2'ovvv (Times (Transpose (T 36) [0;1;3;2]) (-1) 1);
  (*617*) Del (T 36);
  (*618*) AddTo n_rdm2'ovvv (Times (Copy (T 38)) (-1) 1);
  (*619*) AddTo n_rdm2'ovvv (Plain (Transpose (T 38) [0;1;3;2]));
  (*620*) Del (T 38);
  (*621*) AddTo n_rdm2'ovvv (Plain (Einsum [(T 31,[0;1]); (n_t1,[2;3])] [2;0;3;1]));
  (*622*) AddTo n_rdm2'ovvv (Times (Einsum [(T 31,[0;1]); (n_t1,[2;3])] [2;0;1;3]) (-1) 1);
  (*623*) Del (T 31);
  (*624*) Assign n_rdm2'vvoo (Plain (Copy n_l2));
  (*625*) Assign n_rdm2'vovo (Times (Transpose (T 22) [2;1;3;0]) (-1) 1);
  (*626*) AddTo n_rdm2'vovo (Plain (Transpose (T 30) [2;1;3;0]));
  (*627*) AddTo n_rdm2'vovo (Times (Einsum [(n_l1,[0;1]); (n_t1,[2;3])] [0;2;3;1]) (-1) 1);
  (*628*) AddTo n_rdm2'vovo (Times (Einsum [(n_delta'oo,[0;1]); (T 33,[2;3])] [2;0;3;1]) (1) 2);
  (*629*) Assign n_rdm2'voov (Plain (Transpose (T 22) [2;1;0;3]));
  (*630*) AddTo n_rdm2'voov (Times (Transpose (T 30) [2;1;0;3]) (-1) 1);
  (*631*) AddTo n_rdm2'voov (Plain (Einsum [(n_l1,[0;1]); (n_t1,[2;3])] [0;2;1;3]));
  (*632*) AddTo n_rdm2'voov (Times (Einsum [(T 32,[0;1]); (n_delta'oo,[2;3])] [0;2;3;1]) (-1) 1);
  (*633*) Assign n_rdm2'ovvo (Plain (Transpose (T 22) [1;2;3;0]));
  (*634*) AddTo n_rdm2'ovvo (Times (Transpose (T 30) [1;2;3;0]) (-1) 1);
  (*635*) AddTo n_rdm2'ovvo (Plain (Einsum [(n_l1,[0;1]); (n_t1,[2;3])] [2;0;3;1]));
  (*636*) AddTo n_rdm2'ovvo (Times (Einsum [(n_delta'oo,[0;1]); (T 33,[2;3])] [0;2;3;1]) (-1) 2);
  (*637*) Del (T 33);
  (*638*) Assign n_rdm2'ovov (Times (Transpose (T 22) [1;2;0;3]) (-1) 1);
  (*639*) Del (T 22);
  (*640*) AddTo n_rdm2'ovov (Plain (Transpose (T 30) [1;2;0;3]));
  (*641*) Del (T 30);
  (*642*) AddTo n_rdm2'ovov (Times (Einsum [(n_l1,[0;1]); (n_t1,[2;3])] [2;0;1;3]) (-1) 1);
  (*643*) AddTo n_rdm2'ovov (Plain (Einsum [(T 32,[0;1]); (n_delta'oo,[2;3])] [2;0;3;1]));
  (*644*) Del (T 32);
  (*645*) Assign n_rdm2'oovv (Plain (Copy n_t2));
  (*646*) AddTo n_rdm2'oovv (Times (Copy (T 20)) (-1) 1);
  (*647*) AddTo n_rdm2'oovv (Plain (Transpose (T 20) [0;1;3;2]));
  (*648*) AddTo n_rdm2'oovv (Plain (Transpose (T 20) [1;0;2;3]));
  (*649*) AddTo n_rdm2'oovv (Times (Transpose (T 20) [1;0;3;2]) (-1) 1);
  (*650*) Del (T 20);
  (*651*) AddTo n_rdm2'oovv (Plain (Copy (T 24)));
  (*652*) AddTo n_rdm2'oovv (Times (Transpose (T 24) [0;1;3;2]) (-1) 1);
  (*653*) Del (T 24);
  (*654*) AddTo n_rdm2'oovv (Times (Transpose (T 25) [0;1;3;2]) (-1) 1);
  (*655*) AddTo n_rdm2'oovv (Plain (Transpose (T 25) [1;0;3;2]));
  (*656*) Del (T 25);
  (*657*) AddTo n_rdm2'oovv (Times (Einsum [(n_t1,[0;1]); (n_t1,[2;3])] [2;0;1;3]) (-1) 1);
  (*658*) AddTo n_rdm2'oovv (Plain (Einsum [(n_t1,[0;1]); (n_t1,[2;3])] [2;0;3;1]));
  (*659*) AddTo n_rdm2'oovv (Times (Copy (T 27)) (-1) 2);
  (*660*) AddTo n_rdm2'oovv (Times (Transpose (T 27) [0;1;3;2]) (1) 2);
  (*661*) Del (T 27);
  (*662*) AddTo n_rdm2'oovv (Times (Transpose (T 28) [0;1;3;2]) (1) 2);
  (*663*) AddTo n_rdm2'oovv (Times (Transpose (T 28) [1;0;3;2]) (-1) 2);
  (*664*) Del (T 28);
  (*665*) AddTo n_rdm2'oovv (Times (Einsum [(T 10,[0;1]); (n_t1,[2;3])] [2;0;3;1]) (-1) 2);
  (*666*) AddTo n_rdm2'oovv (Times (Einsum [(n_t1,[0;1]); (T 10,[2;3])] [0;2;3;1]) (1) 2);
  (*667*) AddTo n_rdm2'oovv (Times (Einsum [(T 10,[0;1]); (n_t1,[2;3])] [0;2;3;1]) (1) 2);
  (*668*) AddTo n_rdm2'oovv (Times (Einsum [(T 10,[0;1]); (n_t1,[2;3])] [0;2;1;3]) (-1) 2);
  (*669*) AddTo n_rdm2'oovv (Times (Einsum [(n_t2,[0;1;2;3]); (T 14,[0;1;4;5])] [5;4;2;3]) (1) 2);
  (*670*) AddTo n_rdm2'oovv (Times (Einsum [(T 29,[0;1;2;3]); (n_t1,[0;4])] [1;2;4;3]) (1) 2);
  (*671*) Del (T 29);
  (*672*) Assign n_rdm2'vooo (Plain (Transpose (T 2) [3;2;1;0]));
  (*673*) AddTo n_rdm2'vooo (Plain (Einsum [(n_l1,[0;1]); (n_delta'oo,[2;3])] [0;2;1;3]));
  (*674*) AddTo n_rdm2'vooo (Times (Einsum [(n_delta'oo,[0;1]); (n_l1,[2;3])] [2;0;1;3]) (-1) 1);
  (*675*) Assign n_rdm2'ovoo (Times (Transpose (T 2) [2;3;1;0]) (-1) 1);
  (*676*) Del (T 2);
  (*677*) AddTo n_rdm2'ovoo (Times (Einsum [(n_l1,[0;1]); (n_delta'oo,[2;3])] [2;0;1;3]) (-1) 1);
  (*678*) AddTo n_rdm2'ovoo (Plain (Einsum [(n_delta'oo,[0;1]); (n_l1,[2;3])] [0;2;1;3]));
  (*679*) Assign n_rdm2'oovo (Plain (Transpose (T 6) [2;1;3;0]));
  (*680*) AddTo n_rdm2'oovo (Plain (Transpose (T 7) [1;2;3;0]));
  (*681*) AddTo n_rdm2'oovo (Times (Transpose (T 7) [2;1;3;0]) (-1) 1);
  (*682*) AddTo n_rdm2'oovo (Times (Einsum [(T 5,[0;1]); (n_t1,[2;3])] [2;1;3;0]) (-1) 2);
  (*683*) AddTo n_rdm2'oovo (Times (Einsum [(T 5,[0;1]); (n_t1,[2;3])] [1;2;3;0]) (1) 2);
  (*684*) AddTo n_rdm2'oovo (Plain (Einsum [(n_delta'oo,[0;1]); (n_t1,[2;3])] [2;0;3;1]));
  (*685*) AddTo n_rdm2'oovo (Times (Einsum [(n_t1,[0;1]); (n_delta'oo,[2;3])] [2;0;1;3]) (-1) 1);
  (*686*) AddTo n_rdm2'oovo (Times (Einsum [(T 17,[0;1]); (n_delta'oo,[2;3])] [0;2;1;3]) (-1) 1);
  (*687*) AddTo n_rdm2'oovo (Plain (Einsum [(n_delta'oo,[0;1]); (T 17,[2;3])] [0;2;3;1]));
  (*688*) Del (T 17);
  (*689*) AddTo n_rdm2'oovo (Times (Einsum [(T 4,[0;1]); (n_t1,[2;3])] [2;1;3;0]) (-1) 1);
  (*690*) AddTo n_rdm2'oovo (Plain (Einsum [(T 4,[0;1]); (n_t1,[2;3])] [1;2;3;0]));
  (*691*) AddTo n_rdm2'oovo (Times (Einsum [(n_t1,[0;1]); (T 18,[0;2;3;4])] [4;3;1;2]) (1) 2);
  (*692*) Del (T 18);
  (*693*) Assign n_rdm2'ooov (Times (Transpose (T 6) [2;1;0;3]) (-1) 1);
  (*694*) Del (T 6);
  (*695*) AddTo n_rdm2'ooov (Times (Transpose (T 7) [1;2;0;3]) (-1) 1);
  (*696*) AddTo n_rdm2'ooov (Plain (Transpose (T 7) [2;1;0;3]));
  (*697*) Del (T 7);
  (*698*) AddTo n_rdm2'ooov (Times (Einsum [(T 5,[0;1]); (n_t1,[2;3])] [2;1;0;3]) (1) 2);
  (*699*) AddTo n_rdm2'ooov (Times (Einsum [(T 5,[0;1]); (n_t1,[2;3])] [1;2;0;3]) (-1) 2);
  (*700*) AddTo n_rdm2'ooov (Times (Einsum [(n_delta'oo,[0;1]); (n_t1,[2;3])] [2;0;1;3]) (-1) 1);
  (*701*) AddTo n_rdm2'ooov (Plain (Einsum [(n_t1,[0;1]); (n_delta'oo,[2;3])] [2;0;3;1]));
  (*702*) AddTo n_rdm2'ooov (Times (Einsum [(T 10,[0;1]); (n_delta'oo,[2;3])] [0;2;3;1]) (1) 2);
  (*703*) AddTo n_rdm2'ooov (Times (Einsum [(n_delta'oo,[0;1]); (T 10,[2;3])] [0;2;1;3]) (-1) 2);
  (*704*) Del (T 10);
  (*705*) AddTo n_rdm2'ooov (Plain (Einsum [(T 4,[0;1]); (n_t1,[2;3])] [2;1;0;3]));
  (*706*) AddTo n_rdm2'ooov (Times (Einsum [(T 4,[0;1]); (n_t1,[2;3])] [1;2;0;3]) (-1) 1);
  (*707*) AddTo n_rdm2'ooov (Times (Einsum [(T 13,[0;1]); (n_delta'oo,[2;3])] [0;2;3;1]) (-1) 1);
  (*708*) AddTo n_rdm2'ooov (Plain (Einsum [(n_delta'oo,[0;1]); (T 13,[2;3])] [0;2;1;3]));
  (*709*) Del (T 13);
  (*710*) AddTo n_rdm2'ooov (Times (Einsum [(n_t1,[0;1]); (T 14,[0;2;3;4])] [4;3;2;1]) (-1) 1);
  (*711*) Del (T 14);
  (*712*) Assign n_rdm2'oooo (Times (Transpose (T 1) [3;2;1;0]) (1) 2);
  (*713*) Del (T 1);
  (*714*) AddTo n_rdm2'oooo (Times (Transpose (T 3) [2;3;1;0]) (-1) 1);
  (*715*) Del (T 3);
  (*716*) AddTo n_rdm2'oooo (Plain (Einsum [(n_delta'oo,[0;1]); (n_delta'oo,[2;3])] [0;2;1;3]));
  (*717*) AddTo n_rdm2'oooo (Times (Einsum [(n_delta'oo,[0;1]); (n_delta'oo,[2;3])] [0;2;3;1]) (-1) 1);
  (*718*) AddTo n_rdm2'oooo (Times (Einsum [(T 4,[0;1]); (n_delta'oo,[2;3])] [1;2;0;3]) (-1) 1);
  (*719*) AddTo n_rdm2'oooo (Plain (Einsum [(T 4,[0;1]); (n_delta'oo,[2;3])] [2;1;0;3]));
  (*720*) AddTo n_rdm2'oooo (Plain (Einsum [(T 4,[0;1]); (n_delta'oo,[2;3])] [1;2;3;0]));
  (*721*) AddTo n_rdm2'oooo (Times (Einsum [(T 4,[0;1]); (n_delta'oo,[2;3])] [2;1;3;0]) (-1) 1);
  (*722*) Del (T 4);
  (*723*) AddTo n_rdm2'oooo (Times (Einsum [(T 5,[0;1]); (n_delta'oo,[2;3])] [1;2;0;3]) (-1) 2);
  (*724*) AddTo n_rdm2'oooo (Times (Einsum [(n_delta'oo,[0;1]); (T 5,[2;3])] [0;3;2;1]) (1) 2);
  (*725*) AddTo n_rdm2'oooo (Times (Einsum [(T 5,[0;1]); (n_delta'oo,[2;3])] [1;2;3;0]) (1) 2);
  (*726*) AddTo n_rdm2'oooo (Times (Einsum [(T 5,[0;1]); (n_delta'oo,[2;3])] [2;1;3;0]) (-1) 2);
  (*727*) Del (T 5);
  (*727*) Del n_delta'oo;
  (*727*) Del n_delta'vv]
 [(n_rdm2'oooo,[0;0;0;0]); (n_rdm2'ooov,[0;0;0;1]); (n_rdm2'oovo,[0;0;1;0]); (n_rdm2'ovoo,[0;1;0;0]); (n_rdm2'vooo,[1;0;0;0]); (n_rdm2'oovv,[0;0;1;1]); (n_rdm2'ovov,[0;1;0;1]); (n_rdm2'ovvo,[0;1;1;0]); (n_rdm2'voov,[1;0;0;1]); (n_rdm2'vovo,[1;0;1;0]); (n_rdm2'vvoo,[1;1;0;0]); (n_rdm2'ovvv,[0;1;1;1]); (n_rdm2'vovv,[1;0;1;1]); (n_rdm2'vvov,[1;1;0;1]); (n_rdm2'vvvo,[1;1;1;0]); (n_rdm2'vvvv,[1;1;1;1])].

(** ebcc/codegen/GCCSD.py:733-827 [hbar_matvec_ip_intermediates] *)
Definition GCCSD_hbar_matvec_ip_intermediates : prog := mkprog
 [(n_v'oovv,[0;0;1;1]); (n_t1,[0;1]); (n_v'ovvv,[0;1;1;1]); (n_v'ooov,[0;0;0;1]); (n_t2,[0;0;1;1]); (n_f'ov,[0;1]); (n_v'ovoo,[0;1;0;0]); (n_v'ovov,[0;1;0;1]); (n_v'oooo,[0;0;0;0]); (n_f'vv,[1;1]); (n_f'oo,[0;0])]
 [(*789*) Assign (T 4) (Plain (Einsum [(n_v'oovv,[0;1;2;3]); (n_t1,[4;3])] [4;0;1;2]));
  (*790*) Assign (T 3) (Plain (Einsum [(n_t1,[0;1]); (n_v'oovv,[2;0;3;1])] [2;3]));
  (*791*) Assign (T 53) (Plain (Einsum [(T 4,[0;1;2;3]); (n_t1,[4;3])] [0;4;2;1]));
  (*792*) Assign (T 6) (Plain (Einsum [(T 3,[0;1]); (n_t1,[2;1])] [2;0]));
  (*793*) Assign (T 26) (Plain (Einsum [(n_v'ovvv,[0;1;2;3]); (n_t1,[4;3])] [4;0;1;2]));
  (*794*) Assign (T 25) (Plain (Einsum [(n_v'ovvv,[0;1;2;3]); (n_t1,[0;3])] [1;2]));
  (*795*) Assign (T 21) (Plain (Einsum [(n_v'ooov,[0;1;2;3]); (n_t1,[4;3])] [4;0;1;2]));
  (*796*) Assign (T 2) (Plain (Einsum [(n_v'ooov,[0;1;2;3]); (n_t1,[1;3])] [0;2]));
  (*797*) Assign (T 34) (Plain (Einsum [(n_v'oovv,[0;1;2;3]); (n_t2,[4;5;2;3])] [4;5;0;1]));
  (*798*) Assign (T 5) (Plain (Einsum [(n_t2,[0;1;2;3]); (n_v'oovv,[4;1;2;3])] [0;4]));
  (*799*) Assign (T 1) (Plain (Einsum [(n_f'ov,[0;1]); (n_t1,[2;1])] [0;2]));
  (*800*) Assign (T 57) (Plain (Einsum [(n_t1,[0;1]); (T 53,[2;3;4;0])] [2;3;4;1]));
  (*801*) Assign (T 56) (Plain (Einsum [(n_t1,[0;1]); (T 6,[2;0])] [2;1]));
  (*802*) Assign (T 50) (Times (Einsum [(T 26,[0;1;2;3]); (n_t1,[4;3])] [0;4;1;2]) (-1) 1);
  (*803*) Assign (T 49) (Plain (Einsum [(T 25,[0;1]); (n_t1,[2;1])] [2;0]));
  (*804*) Assign (T 47) (Times (Einsum [(n_t1,[0;1]); (T 21,[2;0;3;4])] [2;3;4;1]) (-1) 1);
  (*805*) Assign (T 46) (Plain (Einsum [(T 2,[0;1]); (n_t1,[0;2])] [1;2]));
  (*806*) Assign (T 45) (Times (Einsum [(n_t1,[0;1]); (T 34,[2;3;0;4])] [2;3;4;1]) (-1) 1);
  (*807*) Assign (T 44) (Plain (Einsum [(T 5,[0;1]); (n_t1,[1;2])] [0;2]));
  (*808*) Assign (T 42) (Plain (Einsum [(T 4,[0;1;2;3]); (n_t2,[4;1;5;3])] [0;4;2;5]));
  (*809*) Assign (T 41) (Plain (Einsum [(n_t2,[0;1;2;3]); (T 4,[4;1;0;3])] [4;2]));
  (*810*) Assign (T 40) (Times (Einsum [(T 3,[0;1]); (n_t2,[2;3;4;1])] [2;3;0;4]) (-1) 1);
  (*811*) Assign (T 39) (Plain (Einsum [(T 3,[0;1]); (n_t2,[2;0;3;1])] [2;3]));
  (*812*) Assign (T 36) (Plain (Einsum [(n_v'oovv,[0;1;2;3]); (n_t2,[4;1;5;3])] [4;0;5;2]));
  (*813*) Assign (T 35) (Plain (Einsum [(n_t2,[0;1;2;3]); (n_v'oovv,[0;1;4;3])] [2;4]));
  (*814*) Assign (T 32) (Plain (Einsum [(n_v'ovvv,[0;1;2;3]); (n_t2,[4;5;2;3])] [4;5;0;1]));
  (*815*) Assign (T 31) (Plain (Einsum [(n_t2,[0;1;2;3]); (n_v'ovvv,[1;4;2;3])] [0;4]));
  (*816*) Assign (T 29) (Plain (Einsum [(n_t2,[0;1;2;3]); (n_v'ooov,[4;1;5;3])] [0;4;5;2]));
  (*817*) Assign (T 28) (Plain (Einsum [(n_t2,[0;1;2;3]); (n_v'ovoo,[4;3;0;1])] [4;2]));
  (*818*) Assign (T 18) (Plain (Einsum [(n_v'ovov,[0;1;2;3]); (n_t1,[4;3])] [4;0;2;1]));
  (*819*) Assign (T 17) (Plain (Einsum [(n_t1,[0;1]); (n_v'ovov,[2;1;0;3])] [2;3]));
  (*820*) Assign (T 16) (Plain (Einsum [(n_t1,[0;1]); (n_v'oooo,[2;3;4;0])] [2;3;4;1]));
  (*821*) Assign (T 14) (Plain (Einsum [(T 1,[0;1]); (n_t1,[0;2])] [1;2]));
  (*822*) Assign (T 13) (Plain (Einsum [(n_t2,[0;1;2;3]); (n_f'ov,[4;3])] [4;0;1;2]));
  (*823*) Assign (T 12) (Plain (Einsum [(n_f'ov,[0;1]); (n_t2,[2;0;3;1])] [2;3]));
  (*824*) Assign (T 9) (Plain (Einsum [(n_t1,[0;1]); (n_f'vv,[2;1])] [0;2]));
  (*825*) Assign (T 8) (Plain (Einsum [(n_t1,[0;1]); (n_f'oo,[2;0])] [2;1]))]
 [(T 1,[0;0]); (T 2,[0;0]); (T 12,[0;1]); (T 13,[0;0;0;1]); (T 14,[0;1]); (T 16,[0;0;0;1]); (T 17,[0;1]); (T 18,[0;0;0;1]); (T 3,[0;1]); (T 21,[0;0;0;0]); (T 25,[1;1]); (T 26,[0;0;1;1]); (T 28,[0;1]); (T 29,[0;0;0;1]); (T 4,[0;0;0;1]); (T 31,[0;1]); (T 32,[0;0;0;1]); (T 34,[0;0;0;0]); (T 35,[1;1]); (T 36,[0;0;1;1]); (T 39,[0;1]); (T 40,[0;0;0;1]); (T 5,[0;0]); (T 41,[0;1]); (T 42,[0;0;0;1]); (T 44,[0;1]); (T 45,[0;0;0;1]); (T 46,[0;1]); (T 47,[0;0;0;1]); (T 49,[0;1]); (T 50,[0;0;0;1]); (T 6,[0;0]); (T 53,[0;0;0;0]); (T 56,[0;1]); (T 57,[0;0;0;1]); (T 8,[0;1]); (T 9,[0;1])].

(** ebcc/codegen/GCCSD.py:829-968 [hbar_matvec_ip] *)
Definition GCCSD_hbar_matvec_ip : prog := mkprog
 [(IT 4,[0;0;0;1]); (n_r2,[0;0;1]); (n_v'ooov,[0;0;0;1]); (IT 18,[0;0;0;1]); (IT 29,[0;0;0;1]); (n_f'oo,[0;0]); (IT 1,[0;0]); (IT 2,[0;0]); (IT 6,[0;0]); (IT 42,[0;0;0;1]); (IT 47,[0;0;0;1]); (IT 26,[0;0;1;1]); (IT 36,[0;0;1;1]); (n_r1,[0]); (n_t1,[0;1]); (IT 21,[0;0;0;0]); (n_v'ovov,[0;1;0;1]); (IT 5,[0;0]); (n_f'ov,[0;1]); (IT 3,[0;1]); (n_v'oovv,[0;0;1;1]); (IT 14,[0;1]); (IT 17,[0;1]); (IT 28,[0;1]); (IT 31,[0;1]); (IT 41,[0;1]); (IT 44,[0;1]); (IT 46,[0;1]); (IT 49,[0;1]); (IT 56,[0;1]); (IT 8,[0;1]); (IT 12,[0;1]); (IT 39,[0;1]); (IT 9,[0;1]); (IT 13,[0;0;0;1]); (IT 16,[0;0;0;1]); (IT 45,[0;0;0;1]); (IT 50,[0;0;0;1]); (IT 32,[0;0;0;1]); (IT 40,[0;0;0;1]); (IT 57,[0;0;0;1]); (n_v'ovoo,[0;1;0;0]); (IT 34,[0;0;0;0]); (IT 53,[0;0;0;0]); (n_v'oooo,[0;0;0;0]); (IT 25,[1;1]); (IT 35,[1;1]); (n_f'vv,[1;1]); (n_t2,[0;0;1;1])]
 [(*857*) Assign (T 10) (Plain (Einsum [(IT 4,[0;1;2;3]); (n_r2,[4;1;3])] [0;2;4]));
  (*858*) Assign (T 11) (Plain (Einsum [(n_r2,[0;1;2]); (n_v'ooov,[3;1;4;2])] [0;3;4]));
  (*859*) Assign (T 19) (Plain (Copy (IT 18)));
  (*860*) AddTo (T 19) (Plain (Copy (IT 29)));
  (*861*) Assign (T 17) (Plain (Copy n_f'oo));
  (*862*) AddTo (T 17) (Plain (Copy (IT 1)));
  (*863*) AddTo (T 17) (Plain (Copy (IT 2)));
  (*864*) AddTo (T 17) (Plain (Transpose (IT 6) [1;0]));
  (*865*) Assign (T 12) (Plain (Copy (T 10)));
  (*866*) Del (T 10);
  (*867*) AddTo (T 12) (Times (Copy (T 11)) (-1) 1);
  (*868*) Del (T 11);
  (*869*) Assign (T 14) (Plain (Copy (IT 42)));
  (*870*) AddTo (T 14) (Plain (Transpose (IT 47) [0;2;1;3]));
  (*871*) Assign (T 8) (Plain (Copy (IT 26)));
  (*872*) AddTo (T 8) (Plain (Copy (IT 36)));
  (*873*) Assign (T 20) (Plain (Einsum [(n_r1,[0]); (T 19,[1;0;2;3])] [1;2;3]));
  (*874*) Del (T 19);
  (*875*) Assign (T 18) (Times (Einsum [(n_r2,[0;1;2]); (T 17,[1;3])] [3;0;2]) (-1) 1);
  (*876*) Del (T 17);
  (*877*) Assign (T 13) (Plain (Einsum [(T 12,[0;1;2]); (n_t1,[1;3])] [0;2;3]));
  (*878*) Del (T 12);
  (*879*) Assign (T 15) (Plain (Einsum [(T 14,[0;1;2;3]); (n_r1,[2])] [0;1;3]));
  (*880*) Del (T 14);
  (*881*) Assign (T 6) (Times (Einsum [(IT 21,[0;1;2;3]); (n_r2,[2;1;4])] [0;3;4]) (-1) 1);
  (*882*) Assign (T 9) (Times (Einsum [(T 8,[0;1;2;3]); (n_r2,[4;1;3])] [0;4;2]) (-1) 1);
  (*883*) Del (T 8);
  (*884*) Assign (T 7) (Plain (Einsum [(n_v'ovov,[0;1;2;3]); (n_r2,[4;2;1])] [4;0;3]));
  (*885*) Assign (T 5) (Plain (Einsum [(IT 5,[0;1]); (n_r2,[2;1;3])] [0;2;3]));
  (*886*) Assign (T 23) (Plain (Copy n_f'ov));
  (*887*) AddTo (T 23) (Plain (Copy (IT 3)));
  (*888*) Assign (T 21) (Times (Copy (T 18)) (-1) 1);
  (*889*) Del (T 18);
  (*890*) AddTo (T 21) (Plain (Copy (T 20)));
  (*891*) Del (T 20);
  (*892*) Assign (T 16) (Times (Copy (T 5)) (-1) 2);
  (*893*) Del (T 5);
  (*894*) AddTo (T 16) (Times (Copy (T 6)) (1) 2);
  (*895*) Del (T 6);
  (*896*) AddTo (T 16) (Plain (Copy (T 7)));
  (*897*) Del (T 7);
  (*898*) AddTo (T 16) (Times (Copy (T 9)) (-1) 1);
  (*899*) Del (T 9);
  (*900*) AddTo (T 16) (Times (Copy (T 13)) (-1) 1);
  (*901*) Del (T 13);
  (*902*) AddTo (T 16) (Plain (Copy (T 15)));
  (*903*) Del (T 15);
  (*904*) Assign (T 4) (Plain (Einsum [(n_r2,[0;1;2]); (n_v'oovv,[0;1;3;2])] [3]));
  (*905*) Assign (T 26) (Plain (Copy (IT 14)));
  (*906*) AddTo (T 26) (Plain (Copy (IT 17)));
  (*907*) AddTo (T 26) (Times (Copy (IT 28)) (1) 2);
  (*908*) AddTo (T 26) (Times (Copy (IT 31)) (1) 2);
  (*909*) AddTo (T 26) (Times (Copy (IT 41)) (1) 2);
  (*910*) AddTo (T 26) (Times (Copy (IT 44)) (1) 2);
  (*911*) AddTo (T 26) (Plain (Copy (IT 46)));
  (*912*) AddTo (T 26) (Plain (Copy (IT 49)));
  (*913*) AddTo (T 26) (Plain (Copy (IT 56)));
  (*914*) AddTo (T 26) (Plain (Copy (IT 8)));
  (*915*) AddTo (T 26) (Times (Copy n_f'ov) (-1) 1);
  (*916*) AddTo (T 26) (Times (Copy (IT 12)) (-1) 1);
  (*917*) AddTo (T 26) (Times (Copy (IT 39)) (-1) 1);
  (*918*) AddTo (T 26) (Times (Copy (IT 9)) (-1) 1);
  (*919*) Assign (T 25) (Plain (Copy (IT 13)));
  (*920*) AddTo (T 25) (Plain (Transpose (IT 16) [2;0;1;3]));
  (*921*) AddTo (T 25) (Times (Transpose (IT 45) [2;0;1;3]) (1) 2);
  (*922*) AddTo (T 25) (Plain (Transpose (IT 50) [2;1;0;3]));
  (*923*) AddTo (T 25) (Times (Transpose (IT 32) [2;0;1;3]) (-1) 2);
  (*924*) AddTo (T 25) (Times (Transpose (IT 40) [2;0;1;3]) (-1) 1);
  (*925*) AddTo (T 25) (Times (Transpose (IT 57) [2;1;0;3]) (-1) 1);
  (*926*) AddTo (T 25) (Times (Transpose n_v'ovoo [0;2;3;1]) (-1) 1);
  (*927*) Assign (T 22) (Times (Copy (IT 34)) (1) 2);
  (*928*) AddTo (T 22) (Plain (Copy (IT 53)));
  (*929*) AddTo (T 22) (Plain (Copy n_v'oooo));
  (*930*) Assign (T 24) (Plain (Transpose (IT 25) [1;0]));
  (*931*) AddTo (T 24) (Times (Transpose (IT 35) [1;0]) (1) 2);
  (*932*) AddTo (T 24) (Times (Copy n_f'vv) (-1) 1);
  (*933*) AddTo (T 24) (Plain (Einsum [(T 23,[0;1]); (n_t1,[0;2])] [1;2]));
  (*934*) Del (T 23);
  (*935*) Assign (T 2) (Plain (Copy n_f'ov));
  (*936*) AddTo (T 2) (Plain (Copy (IT 3)));
  (*937*) Assign (T 1) (Plain (Copy (IT 4)));
  (*938*) AddTo (T 1) (Times (Transpose n_v'ovoo [0;2;3;1]) (-1) 1);
  (*939*) Assign (T 3) (Times (Copy n_f'oo) (2) 1);
  (*940*) AddTo (T 3) (Times (Copy (IT 1)) (2) 1);
  (*941*) AddTo (T 3) (Times (Copy (IT 2)) (2) 1);
  (*942*) AddTo (T 3) (Plain (Transpose (IT 5) [1;0]));
  (*943*) AddTo (T 3) (Times (Transpose (IT 6) [1;0]) (2) 1);
  (*944*) Assign n_r2new (Times (Einsum [(T 4,[0]); (n_t2,[1;2;3;0])] [1;2;3]) (1) 2);
  (*945*) Del (T 4);
  (*946*) AddTo n_r2new (Times (Copy (T 16)) (-1) 1);
  (*947*) AddTo n_r2new (Plain (Transpose (T 16) [1;0;2]));
  (*948*) Del (T 16);
  (*949*) AddTo n_r2new (Plain (Copy (T 21)));
  (*950*) AddTo n_r2new (Times (Transpose (T 21) [1;0;2]) (-1) 1);
  (*951*) Del (T 21);
  (*952*) AddTo n_r2new (Times (Einsum [(T 22,[0;1;2;3]); (n_r2,[2;3;4])] [0;1;4]) (1) 2);
  (*953*) Del (T 22);
  (*954*) AddTo n_r2new (Times (Einsum [(n_r2,[0;1;2]); (T 24,[2;3])] [0;1;3]) (-1) 1);
  (*955*) Del (T 24);
  (*956*) AddTo n_r2new (Times (Einsum [(T 25,[0;1;2;3]); (n_r1,[0])] [2;1;3]) (-1) 1);
  (*957*) Del (T 25);
  (*958*) AddTo n_r2new (Times (Einsum [(T 26,[0;1]); (n_r1,[2])] [2;0;1]) (-1) 1);
  (*959*) AddTo n_r2new (Plain (Einsum [(T 26,[0;1]); (n_r1,[2])] [0;2;1]));
  (*960*) Del (T 26);
  (*961*) Assign n_r1new (Times (Einsum [(n_r2,[0;1;2]); (T 1,[3;0;1;2])] [3]) (1) 2);
  (*962*) Del (T 1);
  (*963*) AddTo n_r1new (Plain (Einsum [(n_r2,[0;1;2]); (T 2,[1;2])] [0]));
  (*964*) Del (T 2);
  (*965*) AddTo n_r1new (Times (Einsum [(T 3,[0;1]); (n_r1,[0])] [1]) (-1) 2);
  (*966*) Del (T 3)]
 [(n_r1new,[0]); (n_r2new,[0;0;1])].

(** ebcc/codegen/GCCSD.py:970-1044 [hbar_matvec_ea_intermediates] *)
Definition GCCSD_hbar_matvec_ea_intermediates : prog := mkprog
 [(n_t1,[0;1]); (n_v'oovv,[0;0;1;1]); (n_v'ovvv,[0;1;1;1]); (n_v'ooov,[0;0;0;1]); (n_t2,[0;0;1;1]); (n_f'ov,[0;1]); (n_v'ovoo,[0;1;0;0]); (n_v'vvvv,[1;1;1;1]); (n_v'ovov,[0;1;0;1]); (n_f'vv,[1;1]); (n_f'oo,[0;0])]
 [(*1016*) Assign (T 3) (Plain (Einsum [(n_t1,[0;1]); (n_v'oovv,[2;0;3;1])] [2;3]));
  (*1017*) Assign (T 51) (Plain (Einsum [(T 3,[0;1]); (n_t1,[2;1])] [2;0]));
  (*1018*) Assign (T 2) (Plain (Einsum [(n_v'ovvv,[0;1;2;3]); (n_t1,[0;3])] [1;2]));
  (*1019*) Assign (T 20) (Plain (Einsum [(n_v'ooov,[0;1;2;3]); (n_t1,[1;3])] [0;2]));
  (*1020*) Assign (T 33) (Plain (Einsum [(n_t2,[0;1;2;3]); (n_v'oovv,[4;1;2;3])] [0;4]));
  (*1021*) Assign (T 39) (Plain (Einsum [(n_v'oovv,[0;1;2;3]); (n_t1,[4;3])] [4;0;1;2]));
  (*1022*) Assign (T 10) (Plain (Einsum [(n_f'ov,[0;1]); (n_t1,[2;1])] [0;2]));
  (*1023*) Assign (T 57) (Plain (Einsum [(T 51,[0;1]); (n_t1,[1;2])] [0;2]));
  (*1024*) Assign (T 48) (Plain (Einsum [(T 2,[0;1]); (n_t1,[2;1])] [2;0]));
  (*1025*) Assign (T 45) (Plain (Einsum [(T 20,[0;1]); (n_t1,[0;2])] [1;2]));
  (*1026*) Assign (T 42) (Plain (Einsum [(n_t1,[0;1]); (T 33,[2;0])] [2;1]));
  (*1027*) Assign (T 41) (Times (Einsum [(n_t2,[0;1;2;3]); (T 39,[4;1;0;5])] [4;2;3;5]) (-1) 1);
  (*1028*) Assign (T 40) (Plain (Einsum [(T 39,[0;1;2;3]); (n_t2,[2;1;4;3])] [0;4]));
  (*1029*) Assign (T 38) (Plain (Einsum [(T 3,[0;1]); (n_t2,[2;0;3;1])] [2;3]));
  (*1030*) Assign (T 35) (Plain (Einsum [(n_v'oovv,[0;1;2;3]); (n_t2,[4;1;5;3])] [4;0;5;2]));
  (*1031*) Assign (T 31) (Plain (Einsum [(n_t2,[0;1;2;3]); (n_v'ovvv,[1;4;5;3])] [0;2;4;5]));
  (*1032*) Assign (T 30) (Plain (Einsum [(n_t2,[0;1;2;3]); (n_v'ovvv,[1;4;2;3])] [0;4]));
  (*1033*) Assign (T 29) (Plain (Einsum [(n_t2,[0;1;2;3]); (n_v'ovoo,[4;5;0;1])] [4;2;3;5]));
  (*1034*) Assign (T 28) (Plain (Einsum [(n_t2,[0;1;2;3]); (n_v'ovoo,[4;3;0;1])] [4;2]));
  (*1035*) Assign (T 24) (Plain (Einsum [(n_v'ovvv,[0;1;2;3]); (n_t1,[4;3])] [4;0;1;2]));
  (*1036*) Assign (T 19) (Plain (Einsum [(n_t1,[0;1]); (n_v'vvvv,[2;3;4;1])] [0;2;3;4]));
  (*1037*) Assign (T 16) (Plain (Einsum [(n_t1,[0;1]); (n_v'ovov,[2;1;0;3])] [2;3]));
  (*1038*) Assign (T 14) (Plain (Einsum [(n_t1,[0;1]); (T 10,[0;2])] [2;1]));
  (*1039*) Assign (T 13) (Plain (Einsum [(n_f'ov,[0;1]); (n_t2,[2;0;3;1])] [2;3]));
  (*1040*) Assign (T 9) (Plain (Einsum [(n_t1,[0;1]); (n_f'vv,[2;1])] [0;2]));
  (*1041*) Assign (T 8) (Plain (Einsum [(n_t1,[0;1]); (n_f'oo,[2;0])] [2;1]));
  (*1042*) Assign (T 5) (Plain (Einsum [(n_t2,[0;1;2;3]); (n_v'oovv,[0;1;4;3])] [2;4]))]
 [(T 2,[1;1]); (T 13,[0;1]); (T 14,[0;1]); (T 16,[0;1]); (T 19,[0;1;1;1]); (T 20,[0;0]); (T 3,[0;1]); (T 24,[0;0;1;1]); (T 28,[0;1]); (T 29,[0;1;1;1]); (T 30,[0;1]); (T 31,[0;1;1;1]); (T 33,[0;0]); (T 35,[0;0;1;1]); (T 38,[0;1]); (T 39,[0;0;0;1]); (T 40,[0;1]); (T 5,[1;1]); (T 41,[0;1;1;1]); (T 42,[0;1]); (T 45,[0;1]); (T 48,[0;1]); (T 51,[0;0]); (T 57,[0;1]); (T 8,[0;1]); (T 9,[0;1]); (T 10,[0;0])].

(** ebcc/codegen/GCCSD.py:1046-1182 [hbar_matvec_ea] *)
Definition GCCSD_hbar_matvec_ea : prog := mkprog
 [(IT 39,[0;0;0;1]); (n_v'ovoo,[0;1;0;0]); (n_f'ov,[0;1]); (IT 3,[0;1]); (n_r2,[1;1;0]); (n_v'oovv,[0;0;1;1]); (n_f'vv,[1;1]); (IT 5,[1;1]); (IT 24,[0;0;1;1]); (IT 35,[0;0;1;1]); (n_r1,[1]); (n_t1,[0;1]); (n_v'ovvv,[0;1;1;1]); (IT 2,[1;1]); (IT 31,[0;1;1;1]); (n_v'ovov,[0;1;0;1]); (IT 14,[0;1]); (IT 16,[0;1]); (IT 28,[0;1]); (IT 30,[0;1]); (IT 40,[0;1]); (IT 42,[0;1]); (IT 45,[0;1]); (IT 48,[0;1]); (IT 57,[0;1]); (IT 8,[0;1]); (IT 13,[0;1]); (IT 38,[0;1]); (IT 9,[0;1]); (n_f'oo,[0;0]); (IT 20,[0;0]); (IT 33,[0;0]); (IT 51,[0;0]); (IT 10,[0;0]); (IT 19,[0;1;1;1]); (IT 41,[0;1;1;1]); (IT 29,[0;1;1;1]); (n_t2,[0;0;1;1]); (n_v'vvvv,[1;1;1;1])]
 [(*1074*) Assign (T 14) (Plain (Copy (IT 39)));
  (*1075*) AddTo (T 14) (Times (Transpose n_v'ovoo [0;2;3;1]) (-1) 1);
  (*1076*) Assign (T 1) (Plain (Copy n_f'ov));
  (*1077*) AddTo (T 1) (Plain (Copy (IT 3)));
  (*1078*) Assign (T 15) (Times (Einsum [(n_r2,[0;1;2]); (T 14,[3;2;4;1])] [3;4;0]) (-1) 1);
  (*1079*) Assign (T 16) (Times (Einsum [(n_r2,[0;1;2]); (T 1,[3;1])] [2;3;0]) (-1) 1);
  (*1080*) Assign (T 6) (Plain (Einsum [(n_r2,[0;1;2]); (n_v'oovv,[3;4;0;1])] [2;3;4]));
  (*1081*) Assign (T 12) (Times (Copy n_f'vv) (2) 1);
  (*1082*) AddTo (T 12) (Times (Transpose (IT 5) [1;0]) (-1) 1);
  (*1083*) Assign (T 10) (Plain (Copy (IT 24)));
  (*1084*) AddTo (T 10) (Plain (Copy (IT 35)));
  (*1085*) Assign (T 9) (Plain (Transpose n_r2 [2;0;1]));
  (*1086*) AddTo (T 9) (Plain (Einsum [(n_r1,[0]); (n_t1,[1;2])] [1;0;2]));
  (*1087*) Assign (T 17) (Times (Transpose (T 15) [1;0;2]) (-1) 1);
  (*1088*) Del (T 15);
  (*1089*) AddTo (T 17) (Times (Transpose (T 16) [1;0;2]) (-1) 1);
  (*1090*) Del (T 16);
  (*1091*) Assign (T 7) (Plain (Einsum [(n_v'ovvv,[0;1;2;3]); (n_r2,[2;3;4])] [4;0;1]));
  (*1092*) Assign (T 21) (Plain (Einsum [(IT 2,[0;1]); (n_r2,[2;1;3])] [3;0;2]));
  (*1093*) Assign (T 22) (Plain (Einsum [(n_r1,[0]); (IT 31,[1;2;3;0])] [1;2;3]));
  (*1094*) Assign (T 26) (Times (Transpose (T 6) [0;2;1]) (-1) 2);
  (*1095*) AddTo (T 26) (Plain (Einsum [(T 14,[0;1;2;3]); (n_r1,[3])] [0;1;2]));
  (*1096*) Del (T 14);
  (*1097*) Assign (T 4) (Plain (Einsum [(n_r1,[0]); (T 1,[1;0])] [1]));
  (*1098*) Assign (T 3) (Plain (Einsum [(n_r2,[0;1;2]); (n_v'oovv,[3;2;0;1])] [3]));
  (*1099*) Assign (T 13) (Times (Einsum [(T 12,[0;1]); (n_r2,[2;0;3])] [3;1;2]) (-1) 2);
  (*1100*) Del (T 12);
  (*1101*) Assign (T 11) (Plain (Einsum [(T 9,[0;1;2]); (T 10,[3;0;4;1])] [3;4;2]));
  (*1102*) Del (T 10);
  (*1103*) Assign (T 19) (Plain (Einsum [(T 9,[0;1;2]); (n_v'ovov,[3;1;0;4])] [3;4;2]));
  (*1104*) Del (T 9);
  (*1105*) Assign (T 18) (Plain (Einsum [(T 17,[0;1;2]); (n_t1,[0;3])] [1;2;3]));
  (*1106*) Del (T 17);
  (*1107*) Assign (T 8) (Plain (Einsum [(T 7,[0;1;2]); (n_t1,[1;3])] [0;3;2]));
  (*1108*) Del (T 7);
  (*1109*) Assign (T 23) (Plain (Copy (T 21)));
  (*1110*) Del (T 21);
  (*1111*) AddTo (T 23) (Plain (Copy (T 22)));
  (*1112*) Del (T 22);
  (*1113*) Assign (T 28) (Plain (Copy (IT 14)));
  (*1114*) AddTo (T 28) (Plain (Copy (IT 16)));
  (*1115*) AddTo (T 28) (Times (Copy (IT 28)) (1) 2);
  (*1116*) AddTo (T 28) (Times (Copy (IT 30)) (1) 2);
  (*1117*) AddTo (T 28) (Times (Copy (IT 40)) (1) 2);
  (*1118*) AddTo (T 28) (Times (Copy (IT 42)) (1) 2);
  (*1119*) AddTo (T 28) (Plain (Copy (IT 45)));
  (*1120*) AddTo (T 28) (Plain (Copy (IT 48)));
  (*1121*) AddTo (T 28) (Plain (Copy (IT 57)));
  (*1122*) AddTo (T 28) (Plain (Copy (IT 8)));
  (*1123*) AddTo (T 28) (Times (Copy n_f'ov) (-1) 1);
  (*1124*) AddTo (T 28) (Times (Copy (IT 13)) (-1) 1);
  (*1125*) AddTo (T 28) (Times (Copy (IT 38)) (-1) 1);
  (*1126*) AddTo (T 28) (Times (Copy (IT 9)) (-1) 1);
  (*1127*) Assign (T 25) (Plain (Copy n_f'oo));
  (*1128*) AddTo (T 25) (Plain (Copy (IT 20)));
  (*1129*) AddTo (T 25) (Times (Transpose (IT 33) [1;0]) (1) 2);
  (*1130*) AddTo (T 25) (Plain (Transpose (IT 51) [1;0]));
  (*1131*) AddTo (T 25) (Plain (Copy (IT 10)));
  (*1132*) Assign (T 27) (Times (Einsum [(T 26,[0;1;2]); (n_t1,[1;3])] [0;2;3]) (2) 1);
  (*1133*) Del (T 26);
  (*1134*) Assign (T 24) (Plain (Copy (IT 19)));
  (*1135*) AddTo (T 24) (Times (Copy (IT 41)) (1) 2);
  (*1136*) AddTo (T 24) (Times (Copy (IT 29)) (-1) 2);
  (*1137*) AddTo (T 24) (Times (Transpose n_v'ovvv [0;2;3;1]) (-1) 1);
  (*1138*) Assign (T 5) (Times (Copy (T 3)) (1) 2);
  (*1139*) Del (T 3);
  (*1140*) AddTo (T 5) (Plain (Copy (T 4)));
  (*1141*) Del (T 4);
  (*1142*) Assign (T 20) (Times (Copy (T 8)) (1) 2);
  (*1143*) Del (T 8);
  (*1144*) AddTo (T 20) (Times (Copy (T 11)) (-1) 1);
  (*1145*) Del (T 11);
  (*1146*) AddTo (T 20) (Times (Copy (T 13)) (-1) 1);
  (*1147*) Del (T 13);
  (*1148*) AddTo (T 20) (Plain (Copy (T 18)));
  (*1149*) Del (T 18);
  (*1150*) AddTo (T 20) (Times (Transpose (T 19) [0;2;1]) (-1) 1);
  (*1151*) Del (T 19);
  (*1152*) Assign (T 2) (Plain (Transpose (IT 2) [1;0]));
  (*1153*) AddTo (T 2) (Times (Transpose (IT 5) [1;0]) (1) 2);
  (*1154*) AddTo (T 2) (Times (Copy n_f'vv) (-1) 1);
  (*1155*) Assign n_r2new (Times (Einsum [(T 6,[0;1;2]); (n_t2,[2;1;3;4])] [3;4;0]) (-1) 4);
  (*1156*) Del (T 6);
  (*1157*) AddTo n_r2new (Times (Einsum [(n_r2,[0;1;2]); (n_v'vvvv,[3;4;0;1])] [3;4;2]) (1) 2);
  (*1158*) AddTo n_r2new (Times (Transpose (T 20) [1;2;0]) (-1) 1);
  (*1159*) AddTo n_r2new (Plain (Transpose (T 20) [2;1;0]));
  (*1160*) Del (T 20);
  (*1161*) AddTo n_r2new (Plain (Transpose (T 23) [1;2;0]));
  (*1162*) AddTo n_r2new (Times (Transpose (T 23) [2;1;0]) (-1) 1);
  (*1163*) Del (T 23);
  (*1164*) AddTo n_r2new (Times (Einsum [(n_r1,[0]); (T 24,[1;2;3;0])] [3;2;1]) (-1) 1);
  (*1165*) Del (T 24);
  (*1166*) AddTo n_r2new (Times (Einsum [(T 25,[0;1]); (n_r2,[2;3;0])] [2;3;1]) (-1) 1);
  (*1167*) Del (T 25);
  (*1168*) AddTo n_r2new (Plain (Einsum [(T 5,[0]); (n_t2,[1;0;2;3])] [2;3;1]));
  (*1169*) AddTo n_r2new (Times (Einsum [(n_t1,[0;1]); (T 27,[2;0;3])] [1;3;2]) (-1) 2);
  (*1170*) Del (T 27);
  (*1171*) AddTo n_r2new (Times (Einsum [(n_r1,[0]); (T 28,[1;2])] [0;2;1]) (-1) 1);
  (*1172*) AddTo n_r2new (Plain (Einsum [(T 28,[0;1]); (n_r1,[2])] [1;2;0]));
  (*1173*) Del (T 28);
  (*1174*) Assign n_r1new (Times (Einsum [(n_v'ovvv,[0;1;2;3]); (n_r2,[2;3;0])] [1]) (-1) 2);
  (*1175*) AddTo n_r1new (Plain (Einsum [(n_r2,[0;1;2]); (T 1,[2;1])] [0]));
  (*1176*) Del (T 1);
  (*1177*) AddTo n_r1new (Times (Einsum [(T 2,[0;1]); (n_r1,[0])] [1]) (-1) 1);
  (*1178*) Del (T 2);
  (*1179*) AddTo n_r1new (Times (Einsum [(T 5,[0]); (n_t1,[0;1])] [1]) (-1) 1);
  (*1180*) Del (T 5)]
 [(n_r1new,[1]); (n_r2new,[1;1;0])].

(** ebcc/codegen/GCCSD.py:1184-1286 [hbar_matvec_ee_intermediates] *)
Definition GCCSD_hbar_matvec_ee_intermediates : prog := mkprog
 [(n_v'oovv,[0;0;1;1]); (n_t1,[0;1]); (n_v'ovvv,[0;1;1;1]); (n_v'ooov,[0;0;0;1]); (n_t2,[0;0;1;1]); (n_f'ov,[0;1]); (n_v'ovoo,[0;1;0;0]); (n_v'vvvv,[1;1;1;1]); (n_v'ovov,[0;1;0;1]); (n_v'oooo,[0;0;0;0]); (n_f'vv,[1;1]); (n_f'oo,[0;0])]
 [(*1244*) Assign (T 8) (Plain (Einsum [(n_v'oovv,[0;1;2;3]); (n_t1,[4;3])] [4;0;1;2]));
  (*1245*) Assign (T 7) (Plain (Einsum [(n_t1,[0;1]); (n_v'oovv,[2;0;3;1])] [2;3]));
  (*1246*) Assign (T 102) (Plain (Einsum [(T 8,[0;1;2;3]); (n_t1,[4;3])] [0;4;2;1]));
  (*1247*) Assign (T 13) (Plain (Einsum [(T 7,[0;1]); (n_t1,[2;1])] [2;0]));
  (*1248*) Assign (T 6) (Plain (Einsum [(n_v'ovvv,[0;1;2;3]); (n_t1,[4;3])] [4;0;1;2]));
  (*1249*) Assign (T 5) (Plain (Einsum [(n_v'ovvv,[0;1;2;3]); (n_t1,[0;3])] [1;2]));
  (*1250*) Assign (T 41) (Plain (Einsum [(n_v'ooov,[0;1;2;3]); (n_t1,[4;3])] [4;0;1;2]));
  (*1251*) Assign (T 3) (Plain (Einsum [(n_v'ooov,[0;1;2;3]); (n_t1,[1;3])] [0;2]));
  (*1252*) Assign (T 63) (Plain (Einsum [(n_v'oovv,[0;1;2;3]); (n_t2,[4;5;2;3])] [4;5;0;1]));
  (*1253*) Assign (T 10) (Plain (Einsum [(n_t2,[0;1;2;3]); (n_v'oovv,[4;1;2;3])] [0;4]));
  (*1254*) Assign (T 1) (Plain (Einsum [(n_f'ov,[0;1]); (n_t1,[2;1])] [0;2]));
  (*1255*) Assign (T 107) (Times (Einsum [(n_t1,[0;1]); (T 102,[2;3;0;4])] [2;3;4;1]) (-1) 1);
  (*1256*) Assign (T 106) (Plain (Einsum [(T 13,[0;1]); (n_t1,[1;2])] [0;2]));
  (*1257*) Assign (T 95) (Times (Einsum [(T 6,[0;1;2;3]); (n_t1,[4;3])] [0;4;1;2]) (-1) 1);
  (*1258*) Assign (T 94) (Plain (Einsum [(T 5,[0;1]); (n_t1,[2;1])] [2;0]));
  (*1259*) Assign (T 89) (Plain (Einsum [(n_t1,[0;1]); (T 41,[2;3;0;4])] [2;3;4;1]));
  (*1260*) Assign (T 88) (Plain (Einsum [(T 3,[0;1]); (n_t1,[0;2])] [1;2]));
  (*1261*) Assign (T 82) (Plain (Einsum [(n_t1,[0;1]); (T 63,[2;3;4;0])] [2;3;4;1]));
  (*1262*) Assign (T 81) (Plain (Einsum [(T 10,[0;1]); (n_t1,[1;2])] [0;2]));
  (*1263*) Assign (T 78) (Times (Einsum [(n_t2,[0;1;2;3]); (T 8,[4;1;0;5])] [4;2;3;5]) (-1) 1);
  (*1264*) Assign (T 76) (Plain (Einsum [(T 8,[0;1;2;3]); (n_t2,[4;1;5;3])] [0;4;2;5]));
  (*1265*) Assign (T 75) (Plain (Einsum [(n_t2,[0;1;2;3]); (T 8,[4;1;0;3])] [4;2]));
  (*1266*) Assign (T 72) (Times (Einsum [(n_t2,[0;1;2;3]); (T 7,[4;3])] [0;1;4;2]) (-1) 1);
  (*1267*) Assign (T 71) (Plain (Einsum [(T 7,[0;1]); (n_t2,[2;0;3;1])] [2;3]));
  (*1268*) Assign (T 65) (Plain (Einsum [(n_v'oovv,[0;1;2;3]); (n_t2,[4;1;5;3])] [4;0;5;2]));
  (*1269*) Assign (T 58) (Plain (Einsum [(n_t2,[0;1;2;3]); (n_v'ovvv,[1;4;5;3])] [0;2;4;5]));
  (*1270*) Assign (T 56) (Plain (Einsum [(n_v'ovvv,[0;1;2;3]); (n_t2,[4;5;2;3])] [4;5;0;1]));
  (*1271*) Assign (T 55) (Plain (Einsum [(n_t2,[0;1;2;3]); (n_v'ovvv,[1;4;2;3])] [0;4]));
  (*1272*) Assign (T 52) (Plain (Einsum [(n_t2,[0;1;2;3]); (n_v'ovoo,[4;5;0;1])] [4;2;3;5]));
  (*1273*) Assign (T 50) (Plain (Einsum [(n_t2,[0;1;2;3]); (n_v'ooov,[4;1;5;3])] [0;4;5;2]));
  (*1274*) Assign (T 49) (Plain (Einsum [(n_t2,[0;1;2;3]); (n_v'ovoo,[4;3;0;1])] [4;2]));
  (*1275*) Assign (T 38) (Plain (Einsum [(n_v'vvvv,[0;1;2;3]); (n_t1,[4;3])] [4;0;1;2]));
  (*1276*) Assign (T 34) (Plain (Einsum [(n_v'ovov,[0;1;2;3]); (n_t1,[4;3])] [4;0;2;1]));
  (*1277*) Assign (T 33) (Plain (Einsum [(n_t1,[0;1]); (n_v'ovov,[2;1;0;3])] [2;3]));
  (*1278*) Assign (T 31) (Plain (Einsum [(n_t1,[0;1]); (n_v'oooo,[2;3;4;0])] [2;3;4;1]));
  (*1279*) Assign (T 27) (Plain (Einsum [(T 1,[0;1]); (n_t1,[0;2])] [1;2]));
  (*1280*) Assign (T 24) (Plain (Einsum [(n_t2,[0;1;2;3]); (n_f'ov,[4;3])] [4;0;1;2]));
  (*1281*) Assign (T 23) (Plain (Einsum [(n_f'ov,[0;1]); (n_t2,[2;0;3;1])] [2;3]));
  (*1282*) Assign (T 19) (Plain (Einsum [(n_t1,[0;1]); (n_f'vv,[2;1])] [0;2]));
  (*1283*) Assign (T 18) (Plain (Einsum [(n_t1,[0;1]); (n_f'oo,[2;0])] [2;1]));
  (*1284*) Assign (T 11) (Plain (Einsum [(n_t2,[0;1;2;3]); (n_v'oovv,[0;1;4;3])] [2;4]))]
 [(T 1,[0;0]); (T 11,[1;1]); (T 102,[0;0;0;0]); (T 106,[0;1]); (T 107,[0;0;0;1]); (T 13,[0;0]); (T 18,[0;1]); (T 19,[0;1]); (T 3,[0;0]); (T 23,[0;1]); (T 24,[0;0;0;1]); (T 27,[0;1]); (T 31,[0;0;0;1]); (T 33,[0;1]); (T 34,[0;0;0;1]); (T 38,[0;1;1;1]); (T 5,[1;1]); (T 41,[0;0;0;0]); (T 49,[0;1]); (T 50,[0;0;0;1]); (T 6,[0;0;1;1]); (T 52,[0;1;1;1]); (T 55,[0;1]); (T 56,[0;0;0;1]); (T 58,[0;1;1;1]); (T 7,[0;1]); (T 63,[0;0;0;0]); (T 65,[0;0;1;1]); (T 8,[0;0;0;1]); (T 71,[0;1]); (T 72,[0;0;0;1]); (T 75,[0;1]); (T 76,[0;0;0;1]); (T 78,[0;1;1;1]); (T 81,[0;1]); (T 82,[0;0;0;1]); (T 88,[0;1]); (T 89,[0;0;0;1]); (T 10,[0;0]); (T 94,[0;1]); (T 95,[0;0;0;1])].

(** ebcc/codegen/GCCSD.py:1288-1569 [hbar_matvec_ee] *)
Definition GCCSD_hbar_matvec_ee : prog := mkprog
 [(n_r1,[0;1]); (n_v'oovv,[0;0;1;1]); (n_f'ov,[0;1]); (IT 7,[0;1]); (IT 6,[0;0;1;1]); (IT 65,[0;0;1;1]); (n_t2,[0;0;1;1]); (n_v'ovvv,[0;1;1;1]); (n_r2,[0;0;1;1]); (n_v'ooov,[0;0;0;1]); (IT 8,[0;0;0;1]); (IT 107,[0;0;0;1]); (IT 24,[0;0;0;1]); (n_t1,[0;1]); (n_f'oo,[0;0]); (IT 1,[0;0]); (IT 13,[0;0]); (IT 3,[0;0]); (IT 10,[0;0]); (IT 52,[0;1;1;1]); (IT 78,[0;1;1;1]); (IT 56,[0;0;0;1]); (IT 72,[0;0;0;1]); (IT 82,[0;0;0;1]); (IT 11,[1;1]); (IT 5,[1;1]); (n_v'ovov,[0;1;0;1]); (IT 34,[0;0;0;1]); (IT 50,[0;0;0;1]); (IT 95,[0;0;0;1]); (IT 38,[0;1;1;1]); (IT 76,[0;0;0;1]); (IT 89,[0;0;0;1]); (n_f'vv,[1;1]); (IT 31,[0;0;0;1]); (IT 58,[0;1;1;1]); (n_v'ovoo,[0;1;0;0]); (IT 106,[0;1]); (IT 18,[0;1]); (IT 27,[0;1]); (IT 33,[0;1]); (IT 49,[0;1]); (IT 55,[0;1]); (IT 75,[0;1]); (IT 81,[0;1]); (IT 88,[0;1]); (IT 94,[0;1]); (IT 19,[0;1]); (IT 23,[0;1]); (IT 71,[0;1]); (IT 102,[0;0;0;0]); (IT 63,[0;0;0;0]); (n_v'oooo,[0;0;0;0]); (IT 41,[0;0;0;0]); (n_v'vvvv,[1;1;1;1])]
 [(*1316*) Assign (T 1) (Plain (Einsum [(n_r1,[0;1]); (n_v'oovv,[2;0;3;1])] [2;3]));
  (*1317*) Assign (T 3) (Plain (Copy n_f'ov));
  (*1318*) AddTo (T 3) (Plain (Copy (IT 7)));
  (*1319*) Assign (T 41) (Plain (Copy (IT 6)));
  (*1320*) AddTo (T 41) (Plain (Copy (IT 65)));
  (*1321*) Assign (T 21) (Times (Einsum [(T 1,[0;1]); (n_t2,[2;3;4;1])] [2;3;0;4]) (-1) 1);
  (*1322*) Assign (T 20) (Plain (Einsum [(n_v'ovvv,[0;1;2;3]); (n_r2,[4;5;2;3])] [4;5;0;1]));
  (*1323*) Assign (T 27) (Plain (Einsum [(n_r1,[0;1]); (n_v'ooov,[2;3;4;1])] [0;2;3;4]));
  (*1324*) Assign (T 8) (Plain (Einsum [(T 3,[0;1]); (n_r1,[2;1])] [0;2]));
  (*1325*) Assign (T 33) (Plain (Einsum [(n_r1,[0;1]); (IT 8,[2;0;3;1])] [2;3]));
  (*1326*) Assign (T 7) (Plain (Einsum [(n_r2,[0;1;2;3]); (n_v'oovv,[4;1;2;3])] [0;4]));
  (*1327*) Assign (T 43) (Plain (Einsum [(n_v'ooov,[0;1;2;3]); (n_r2,[4;1;5;3])] [4;0;2;5]));
  (*1328*) Assign (T 45) (Plain (Einsum [(T 41,[0;1;2;3]); (n_r1,[4;3])] [0;1;4;2]));
  (*1329*) Assign (T 44) (Plain (Einsum [(IT 8,[0;1;2;3]); (n_r2,[4;1;5;3])] [0;2;4;5]));
  (*1330*) Assign (T 11) (Plain (Einsum [(n_v'ovvv,[0;1;2;3]); (n_r1,[0;3])] [1;2]));
  (*1331*) Assign (T 51) (Plain (Einsum [(n_r1,[0;1]); (IT 8,[2;3;4;1])] [2;3;4;0]));
  (*1332*) Assign (T 18) (Times (Einsum [(T 3,[0;1]); (n_r2,[2;3;4;1])] [0;2;3;4]) (-1) 1);
  (*1333*) Assign (T 14) (Plain (Einsum [(n_v'oovv,[0;1;2;3]); (n_r2,[0;1;4;3])] [4;2]));
  (*1334*) Assign (T 16) (Plain (Copy (IT 107)));
  (*1335*) AddTo (T 16) (Plain (Transpose (IT 24) [1;2;0;3]));
  (*1336*) Assign (T 22) (Plain (Transpose (T 20) [1;0;2;3]));
  (*1337*) Del (T 20);
  (*1338*) AddTo (T 22) (Times (Copy (T 21)) (-2) 1);
  (*1339*) Del (T 21);
  (*1340*) Assign (T 28) (Plain (Einsum [(n_t1,[0;1]); (T 27,[2;3;0;4])] [2;3;4;1]));
  (*1341*) Del (T 27);
  (*1342*) Assign (T 6) (Plain (Copy n_f'oo));
  (*1343*) AddTo (T 6) (Plain (Copy (IT 1)));
  (*1344*) AddTo (T 6) (Plain (Transpose (IT 13) [1;0]));
  (*1345*) AddTo (T 6) (Plain (Copy (IT 3)));
  (*1346*) AddTo (T 6) (Times (Transpose (IT 10) [1;0]) (1) 2);
  (*1347*) Assign (T 30) (Plain (Copy (IT 52)));
  (*1348*) AddTo (T 30) (Times (Copy (IT 78)) (-1) 1);
  (*1349*) Assign (T 25) (Plain (Einsum [(n_v'ooov,[0;1;2;3]); (n_r1,[1;3])] [0;2]));
  (*1350*) Assign (T 34) (Plain (Copy (T 33)));
  (*1351*) Del (T 33);
  (*1352*) AddTo (T 34) (Times (Copy (T 7)) (1) 2);
  (*1353*) AddTo (T 34) (Plain (Transpose (T 8) [1;0]));
  (*1354*) Assign (T 56) (Plain (Copy (IT 56)));
  (*1355*) AddTo (T 56) (Times (Copy (IT 72)) (2) 1);
  (*1356*) AddTo (T 56) (Times (Copy (IT 82)) (-1) 1);
  (*1357*) Assign (T 54) (Times (Copy (IT 11)) (1) 2);
  (*1358*) AddTo (T 54) (Plain (Copy (IT 5)));
  (*1359*) Assign (T 39) (Plain (Einsum [(n_r1,[0;1]); (n_v'ovov,[2;3;4;1])] [0;2;4;3]));
  (*1360*) Assign (T 48) (Plain (Copy (IT 34)));
  (*1361*) AddTo (T 48) (Plain (Copy (IT 50)));
  (*1362*) Assign (T 46) (Plain (Copy (T 43)));
  (*1363*) Del (T 43);
  (*1364*) AddTo (T 46) (Times (Copy (T 44)) (-1) 1);
  (*1365*) Del (T 44);
  (*1366*) AddTo (T 46) (Plain (Copy (T 45)));
  (*1367*) Del (T 45);
  (*1368*) Assign (T 10) (Plain (Einsum [(n_r1,[0;1]); (IT 95,[2;3;0;4])] [2;3;4;1]));
  (*1369*) Assign (T 12) (Times (Einsum [(T 11,[0;1]); (n_t2,[2;3;4;1])] [2;3;4;0]) (-1) 1);
  (*1370*) Del (T 11);
  (*1371*) Assign (T 65) (Plain (Einsum [(n_r1,[0;1]); (IT 38,[2;3;4;1])] [2;0;3;4]));
  (*1372*) Assign (T 66) (Plain (Einsum [(n_r1,[0;1]); (n_v'ovvv,[2;1;3;4])] [0;2;3;4]));
  (*1373*) Assign (T 59) (Plain (Copy (IT 76)));
  (*1374*) AddTo (T 59) (Plain (Transpose (IT 89) [0;2;1;3]));
  (*1375*) Assign (T 52) (Plain (Einsum [(n_t1,[0;1]); (T 51,[2;3;0;4])] [2;3;4;1]));
  (*1376*) Del (T 51);
  (*1377*) Assign (T 19) (Plain (Einsum [(T 18,[0;1;2;3]); (n_t1,[0;4])] [2;1;4;3]));
  (*1378*) Del (T 18);
  (*1379*) Assign (T 15) (Times (Einsum [(T 14,[0;1]); (n_t2,[2;3;4;1])] [2;3;0;4]) (-1) 1);
  (*1380*) Del (T 14);
  (*1381*) Assign (T 17) (Plain (Einsum [(n_r1,[0;1]); (T 16,[2;3;0;4])] [2;3;4;1]));
  (*1382*) Del (T 16);
  (*1383*) Assign (T 23) (Times (Einsum [(T 22,[0;1;2;3]); (n_t1,[2;4])] [0;1;4;3]) (1) 2);
  (*1384*) Del (T 22);
  (*1385*) Assign (T 29) (Times (Einsum [(n_t1,[0;1]); (T 28,[2;0;3;4])] [2;3;4;1]) (-1) 1);
  (*1386*) Del (T 28);
  (*1387*) Assign (T 32) (Times (Einsum [(n_r2,[0;1;2;3]); (T 6,[1;4])] [4;0;2;3]) (-1) 1);
  (*1388*) Assign (T 31) (Times (Einsum [(n_r1,[0;1]); (T 30,[2;3;4;1])] [2;0;3;4]) (1) 2);
  (*1389*) Del (T 30);
  (*1390*) Assign (T 26) (Times (Einsum [(T 25,[0;1]); (n_t2,[2;0;3;4])] [2;1;3;4]) (-1) 1);
  (*1391*) Del (T 25);
  (*1392*) Assign (T 35) (Times (Einsum [(n_t2,[0;1;2;3]); (T 34,[4;1])] [0;4;2;3]) (-1) 1);
  (*1393*) Del (T 34);
  (*1394*) Assign (T 63) (Plain (Einsum [(n_f'vv,[0;1]); (n_r2,[2;3;4;1])] [2;3;0;4]));
  (*1395*) Assign (T 61) (Plain (Einsum [(IT 31,[0;1;2;3]); (n_r1,[2;4])] [0;1;3;4]));
  (*1396*) Assign (T 62) (Plain (Einsum [(n_v'ooov,[0;1;2;3]); (n_r1,[2;4])] [0;1;4;3]));
  (*1397*) Assign (T 57) (Times (Einsum [(T 56,[0;1;2;3]); (n_r1,[2;4])] [0;1;3;4]) (1) 2);
  (*1398*) Del (T 56);
  (*1399*) Assign (T 55) (Times (Einsum [(T 54,[0;1]); (n_r2,[2;3;4;1])] [2;3;0;4]) (-1) 1);
  (*1400*) Del (T 54);
  (*1401*) Assign (T 37) (Plain (Einsum [(n_r1,[0;1]); (IT 58,[2;3;4;1])] [2;0;3;4]));
  (*1402*) Assign (T 40) (Plain (Einsum [(T 39,[0;1;2;3]); (n_t1,[1;4])] [0;2;4;3]));
  (*1403*) Del (T 39);
  (*1404*) Assign (T 49) (Plain (Einsum [(T 48,[0;1;2;3]); (n_r1,[1;4])] [0;2;3;4]));
  (*1405*) Del (T 48);
  (*1406*) Assign (T 42) (Plain (Einsum [(n_r2,[0;1;2;3]); (T 41,[4;1;5;3])] [4;0;5;2]));
  (*1407*) Del (T 41);
  (*1408*) Assign (T 38) (Plain (Einsum [(n_v'ovov,[0;1;2;3]); (n_r2,[4;2;5;1])] [4;0;5;3]));
  (*1409*) Assign (T 47) (Plain (Einsum [(n_t1,[0;1]); (T 46,[2;0;3;4])] [2;3;1;4]));
  (*1410*) Del (T 46);
  (*1411*) Assign (T 2) (Plain (Copy (IT 8)));
  (*1412*) AddTo (T 2) (Times (Transpose n_v'ovoo [0;2;3;1]) (-1) 1);
  (*1413*) Assign (T 13) (Plain (Copy (T 10)));
  (*1414*) Del (T 10);
  (*1415*) AddTo (T 13) (Plain (Copy (T 12)));
  (*1416*) Del (T 12);
  (*1417*) Assign (T 71) (Plain (Copy (IT 106)));
  (*1418*) AddTo (T 71) (Plain (Copy (IT 18)));
  (*1419*) AddTo (T 71) (Plain (Copy (IT 27)));
  (*1420*) AddTo (T 71) (Plain (Copy (IT 33)));
  (*1421*) AddTo (T 71) (Times (Copy (IT 49)) (1) 2);
  (*1422*) AddTo (T 71) (Times (Copy (IT 55)) (1) 2);
  (*1423*) AddTo (T 71) (Times (Copy (IT 75)) (1) 2);
  (*1424*) AddTo (T 71) (Times (Copy (IT 81)) (1) 2);
  (*1425*) AddTo (T 71) (Plain (Copy (IT 88)));
  (*1426*) AddTo (T 71) (Plain (Copy (IT 94)));
  (*1427*) AddTo (T 71) (Times (Copy n_f'ov) (-1) 1);
  (*1428*) AddTo (T 71) (Times (Copy (IT 19)) (-1) 1);
  (*1429*) AddTo (T 71) (Times (Copy (IT 23)) (-1) 1);
  (*1430*) AddTo (T 71) (Times (Copy (IT 71)) (-1) 1);
  (*1431*) Assign (T 70) (Plain (Copy n_t2));
  (*1432*) AddTo (T 70) (Times (Einsum [(n_t1,[0;1]); (n_t1,[2;3])] [2;0;3;1]) (2) 1);
  (*1433*) Assign (T 68) (Plain (Copy (IT 102)));
  (*1434*) AddTo (T 68) (Times (Copy (IT 63)) (1) 2);
  (*1435*) AddTo (T 68) (Plain (Copy n_v'oooo));
  (*1436*) AddTo (T 68) (Times (Transpose (IT 41) [0;3;1;2]) (-1) 1);
  (*1437*) AddTo (T 68) (Plain (Transpose (IT 41) [3;0;1;2]));
  (*1438*) Assign (T 67) (Plain (Copy (T 65)));
  (*1439*) Del (T 65);
  (*1440*) AddTo (T 67) (Times (Transpose (T 66) [0;1;3;2]) (-1) 1);
  (*1441*) Del (T 66);
  (*1442*) Assign (T 60) (Plain (Einsum [(T 59,[0;1;2;3]); (n_r1,[2;4])] [0;1;3;4]));
  (*1443*) Del (T 59);
  (*1444*) Assign (T 72) (Times (Copy (IT 106)) (2) 1);
  (*1445*) AddTo (T 72) (Times (Copy (IT 18)) (2) 1);
  (*1446*) AddTo (T 72) (Times (Copy (IT 27)) (2) 1);
  (*1447*) AddTo (T 72) (Times (Copy (IT 33)) (2) 1);
  (*1448*) AddTo (T 72) (Plain (Copy (IT 49)));
  (*1449*) AddTo (T 72) (Plain (Copy (IT 55)));
  (*1450*) AddTo (T 72) (Plain (Copy (IT 75)));
  (*1451*) AddTo (T 72) (Plain (Copy (IT 81)));
  (*1452*) AddTo (T 72) (Times (Copy (IT 88)) (2) 1);
  (*1453*) AddTo (T 72) (Times (Copy (IT 94)) (2) 1);
  (*1454*) AddTo (T 72) (Times (Copy n_f'ov) (-2) 1);
  (*1455*) AddTo (T 72) (Times (Copy (IT 19)) (-2) 1);
  (*1456*) AddTo (T 72) (Times (Copy (IT 23)) (-2) 1);
  (*1457*) AddTo (T 72) (Times (Copy (IT 71)) (-2) 1);
  (*1458*) Assign (T 53) (Plain (Einsum [(T 52,[0;1;2;3]); (n_t1,[1;4])] [0;2;4;3]));
  (*1459*) Del (T 52);
  (*1460*) Assign (T 24) (Times (Copy (T 15)) (1) 2);
  (*1461*) Del (T 15);
  (*1462*) AddTo (T 24) (Plain (Copy (T 17)));
  (*1463*) Del (T 17);
  (*1464*) AddTo (T 24) (Times (Transpose (T 19) [1;0;3;2]) (-1) 1);
  (*1465*) Del (T 19);
  (*1466*) AddTo (T 24) (Plain (Transpose (T 23) [1;0;2;3]));
  (*1467*) Del (T 23);
  (*1468*) Assign (T 36) (Times (Transpose (T 26) [0;1;3;2]) (-1) 1);
  (*1469*) Del (T 26);
  (*1470*) AddTo (T 36) (Plain (Transpose (T 29) [0;1;3;2]));
  (*1471*) Del (T 29);
  (*1472*) AddTo (T 36) (Times (Transpose (T 31) [0;1;3;2]) (-1) 1);
  (*1473*) Del (T 31);
  (*1474*) AddTo (T 36) (Plain (Transpose (T 32) [0;1;3;2]));
  (*1475*) Del (T 32);
  (*1476*) AddTo (T 36) (Plain (Transpose (T 35) [1;0;3;2]));
  (*1477*) Del (T 35);
  (*1478*) Assign (T 69) (Plain (Einsum [(n_v'oovv,[0;1;2;3]); (n_r2,[4;5;2;3])] [4;5;0;1]));
  (*1479*) Assign (T 64) (Times (Copy (T 61)) (-1) 1);
  (*1480*) Del (T 61);
  (*1481*) AddTo (T 64) (Plain (Transpose (T 62) [1;0;2;3]));
  (*1482*) Del (T 62);
  (*1483*) AddTo (T 64) (Plain (Transpose (T 63) [1;0;2;3]));
  (*1484*) Del (T 63);
  (*1485*) Assign (T 58) (Times (Transpose (T 55) [1;0;2;3]) (-1) 1);
  (*1486*) Del (T 55);
  (*1487*) AddTo (T 58) (Times (Copy (T 57)) (-1) 1);
  (*1488*) Del (T 57);
  (*1489*) Assign (T 50) (Plain (Copy (T 37)));
  (*1490*) Del (T 37);
  (*1491*) AddTo (T 50) (Plain (Copy (T 38)));
  (*1492*) Del (T 38);
  (*1493*) AddTo (T 50) (Times (Copy (T 40)) (-1) 1);
  (*1494*) Del (T 40);
  (*1495*) AddTo (T 50) (Times (Copy (T 42)) (-1) 1);
  (*1496*) Del (T 42);
  (*1497*) AddTo (T 50) (Plain (Transpose (T 47) [0;1;3;2]));
  (*1498*) Del (T 47);
  (*1499*) AddTo (T 50) (Plain (Copy (T 49)));
  (*1500*) Del (T 49);
  (*1501*) Assign (T 4) (Plain (Copy (IT 6)));
  (*1502*) AddTo (T 4) (Times (Transpose n_v'ovov [0;2;3;1]) (-1) 1);
  (*1503*) Assign (T 9) (Times (Transpose (T 7) [1;0]) (1) 2);
  (*1504*) Del (T 7);
  (*1505*) AddTo (T 9) (Plain (Einsum [(T 2,[0;1;2;3]); (n_r1,[1;3])] [2;0]));
  (*1506*) AddTo (T 9) (Plain (Copy (T 8)));
  (*1507*) Del (T 8);
  (*1508*) Assign (T 5) (Times (Transpose (IT 11) [1;0]) (1) 2);
  (*1509*) AddTo (T 5) (Plain (Transpose (IT 5) [1;0]));
  (*1510*) AddTo (T 5) (Times (Copy n_f'vv) (-1) 1);
  (*1511*) Assign n_r2new (Times (Einsum [(n_v'vvvv,[0;1;2;3]); (n_r2,[4;5;2;3])] [4;5;0;1]) (1) 2);
  (*1512*) AddTo n_r2new (Plain (Copy (T 13)));
  (*1513*) AddTo n_r2new (Times (Transpose (T 13) [0;1;3;2]) (-1) 1);
  (*1514*) Del (T 13);
  (*1515*) AddTo n_r2new (Times (Copy (T 24)) (-1) 1);
  (*1516*) AddTo n_r2new (Plain (Transpose (T 24) [0;1;3;2]));
  (*1517*) Del (T 24);
  (*1518*) AddTo n_r2new (Plain (Copy (T 36)));
  (*1519*) AddTo n_r2new (Times (Transpose (T 36) [1;0;2;3]) (-1) 1);
  (*1520*) Del (T 36);
  (*1521*) AddTo n_r2new (Times (Copy (T 50)) (-1) 1);
  (*1522*) AddTo n_r2new (Plain (Transpose (T 50) [0;1;3;2]));
  (*1523*) AddTo n_r2new (Plain (Transpose (T 50) [1;0;2;3]));
  (*1524*) AddTo n_r2new (Times (Transpose (T 50) [1;0;3;2]) (-1) 1);
  (*1525*) Del (T 50);
  (*1526*) AddTo n_r2new (Times (Copy (T 53)) (-1) 1);
  (*1527*) AddTo n_r2new (Plain (Transpose (T 53) [1;0;2;3]));
  (*1528*) Del (T 53);
  (*1529*) AddTo n_r2new (Plain (Transpose (T 58) [1;0;2;3]));
  (*1530*) AddTo n_r2new (Times (Transpose (T 58) [1;0;3;2]) (-1) 1);
  (*1531*) Del (T 58);
  (*1532*) AddTo n_r2new (Plain (Copy (T 60)));
  (*1533*) AddTo n_r2new (Times (Transpose (T 60) [0;1;3;2]) (-1) 1);
  (*1534*) AddTo n_r2new (Times (Transpose (T 60) [1;0;2;3]) (-1) 1);
  (*1535*) AddTo n_r2new (Plain (Transpose (T 60) [1;0;3;2]));
  (*1536*) Del (T 60);
  (*1537*) AddTo n_r2new (Times (Transpose (T 64) [1;0;2;3]) (-1) 1);
  (*1538*) AddTo n_r2new (Plain (Transpose (T 64) [1;0;3;2]));
  (*1539*) Del (T 64);
  (*1540*) AddTo n_r2new (Plain (Transpose (T 67) [0;1;3;2]));
  (*1541*) AddTo n_r2new (Times (Transpose (T 67) [1;0;3;2]) (-1) 1);
  (*1542*) Del (T 67);
  (*1543*) AddTo n_r2new (Times (Einsum [(n_r2,[0;1;2;3]); (T 68,[4;5;0;1])] [4;5;2;3]) (1) 2);
  (*1544*) Del (T 68);
  (*1545*) AddTo n_r2new (Times (Einsum [(T 70,[0;1;2;3]); (T 69,[4;5;0;1])] [5;4;3;2]) (1) 4);
  (*1546*) Del (T 70);
  (*1546*) Del (T 69);
  (*1547*) AddTo n_r2new (Times (Einsum [(n_r1,[0;1]); (T 71,[2;3])] [2;0;3;1]) (-1) 1);
  (*1548*) AddTo n_r2new (Times (Einsum [(n_r1,[0;1]); (T 71,[2;3])] [0;2;1;3]) (-1) 1);
  (*1549*) AddTo n_r2new (Times (Einsum [(n_r1,[0;1]); (T 72,[2;3])] [0;2;3;1]) (1) 2);
  (*1550*) Del (T 72);
  (*1551*) AddTo n_r2new (Plain (Einsum [(T 71,[0;1]); (n_r1,[2;3])] [0;2;3;1]));
  (*1552*) Del (T 71);
  (*1553*) Assign n_r1new (Times (Einsum [(n_v'ovvv,[0;1;2;3]); (n_r2,[4;0;2;3])] [4;1]) (-1) 2);
  (*1554*) AddTo n_r1new (Plain (Einsum [(T 1,[0;1]); (n_t2,[2;0;3;1])] [2;3]));
  (*1555*) Del (T 1);
  (*1556*) AddTo n_r1new (Times (Einsum [(T 2,[0;1;2;3]); (n_r2,[1;2;4;3])] [0;4]) (1) 2);
  (*1557*) Del (T 2);
  (*1558*) AddTo n_r1new (Plain (Einsum [(T 3,[0;1]); (n_r2,[2;0;3;1])] [2;3]));
  (*1559*) Del (T 3);
  (*1560*) AddTo n_r1new (Plain (Einsum [(n_r1,[0;1]); (T 4,[2;0;3;1])] [2;3]));
  (*1561*) Del (T 4);
  (*1562*) AddTo n_r1new (Times (Einsum [(T 5,[0;1]); (n_r1,[2;0])] [2;1]) (-1) 1);
  (*1563*) Del (T 5);
  (*1564*) AddTo n_r1new (Times (Einsum [(n_r1,[0;1]); (T 6,[0;2])] [2;1]) (-1) 1);
  (*1565*) Del (T 6);
  (*1566*) AddTo n_r1new (Times (Einsum [(T 9,[0;1]); (n_t1,[0;2])] [1;2]) (-1) 1);
  (*1567*) Del (T 9)]
 [(n_r1new,[0;1]); (n_r2new,[0;0;1;1])].

(** ebcc/codegen/GCCSD.py:1571-1665 [hbar_lmatvec_ip_intermediates] *)
Definition GCCSD_hbar_lmatvec_ip_intermediates : prog := mkprog
 [(n_v'oovv,[0;0;1;1]); (n_t1,[0;1]); (n_v'ovvv,[0;1;1;1]); (n_v'ooov,[0;0;0;1]); (n_t2,[0;0;1;1]); (n_f'ov,[0;1]); (n_v'ovoo,[0;1;0;0]); (n_v'ovov,[0;1;0;1]); (n_v'oooo,[0;0;0;0]); (n_f'vv,[1;1]); (n_f'oo,[0;0])]
 [(*1627*) Assign (T 19) (Plain (Einsum [(n_v'oovv,[0;1;2;3]); (n_t1,[4;3])] [4;0;1;2]));
  (*1628*) Assign (T 16) (Plain (Einsum [(n_t1,[0;1]); (n_v'oovv,[2;0;3;1])] [2;3]));
  (*1629*) Assign (T 34) (Plain (Einsum [(T 19,[0;1;2;3]); (n_t1,[4;3])] [4;0;1;2]));
  (*1630*) Assign (T 25) (Plain (Einsum [(T 16,[0;1]); (n_t1,[2;1])] [2;0]));
  (*1631*) Assign (T 31) (Plain (Einsum [(n_v'ovvv,[0;1;2;3]); (n_t1,[4;3])] [4;0;1;2]));
  (*1632*) Assign (T 29) (Plain (Einsum [(n_v'ovvv,[0;1;2;3]); (n_t1,[0;3])] [1;2]));
  (*1633*) Assign (T 27) (Plain (Einsum [(n_v'ooov,[0;1;2;3]); (n_t1,[4;3])] [4;0;1;2]));
  (*1634*) Assign (T 7) (Plain (Einsum [(n_t1,[0;1]); (n_v'ooov,[2;0;3;1])] [2;3]));
  (*1635*) Assign (T 23) (Plain (Einsum [(n_v'oovv,[0;1;2;3]); (n_t2,[4;5;2;3])] [4;5;0;1]));
  (*1636*) Assign (T 11) (Plain (Einsum [(n_v'oovv,[0;1;2;3]); (n_t2,[4;1;2;3])] [4;0]));
  (*1637*) Assign (T 1) (Plain (Einsum [(n_f'ov,[0;1]); (n_t1,[2;1])] [0;2]));
  (*1638*) Assign (T 45) (Plain (Einsum [(n_v'oovv,[0;1;2;3]); (n_t2,[4;1;5;3])] [4;0;5;2]));
  (*1639*) Assign (T 44) (Plain (Einsum [(n_v'oovv,[0;1;2;3]); (n_t2,[0;1;4;3])] [4;2]));
  (*1640*) Assign (T 35) (Plain (Einsum [(n_t1,[0;1]); (T 34,[2;3;4;0])] [2;3;4;1]));
  (*1641*) Assign (T 33) (Plain (Einsum [(T 25,[0;1]); (n_t1,[1;2])] [0;2]));
  (*1642*) Assign (T 32) (Plain (Einsum [(T 31,[0;1;2;3]); (n_t1,[4;3])] [4;0;1;2]));
  (*1643*) Assign (T 30) (Plain (Einsum [(T 29,[0;1]); (n_t1,[2;1])] [2;0]));
  (*1644*) Assign (T 28) (Plain (Einsum [(n_t1,[0;1]); (T 27,[2;3;0;4])] [2;3;4;1]));
  (*1645*) Assign (T 26) (Plain (Einsum [(T 7,[0;1]); (n_t1,[0;2])] [1;2]));
  (*1646*) Assign (T 24) (Plain (Einsum [(n_t1,[0;1]); (T 23,[2;3;4;0])] [2;3;4;1]));
  (*1647*) Assign (T 22) (Plain (Einsum [(n_t1,[0;1]); (T 11,[2;0])] [2;1]));
  (*1648*) Assign (T 21) (Times (Einsum [(T 19,[0;1;2;3]); (n_t2,[4;2;5;3])] [0;4;1;5]) (-1) 1);
  (*1649*) Assign (T 20) (Plain (Einsum [(n_t2,[0;1;2;3]); (T 19,[4;1;0;3])] [4;2]));
  (*1650*) Assign (T 18) (Times (Einsum [(T 16,[0;1]); (n_t2,[2;3;4;1])] [2;3;0;4]) (-1) 1);
  (*1651*) Assign (T 17) (Plain (Einsum [(T 16,[0;1]); (n_t2,[2;0;3;1])] [2;3]));
  (*1652*) Assign (T 15) (Plain (Einsum [(n_v'ovvv,[0;1;2;3]); (n_t2,[4;5;2;3])] [4;5;0;1]));
  (*1653*) Assign (T 14) (Plain (Einsum [(n_v'ovvv,[0;1;2;3]); (n_t2,[4;0;2;3])] [4;1]));
  (*1654*) Assign (T 13) (Plain (Einsum [(n_t2,[0;1;2;3]); (n_v'ooov,[4;1;5;3])] [0;4;5;2]));
  (*1655*) Assign (T 12) (Plain (Einsum [(n_t2,[0;1;2;3]); (n_v'ovoo,[4;3;0;1])] [4;2]));
  (*1656*) Assign (T 10) (Plain (Einsum [(n_v'ovov,[0;1;2;3]); (n_t1,[4;3])] [4;0;2;1]));
  (*1657*) Assign (T 9) (Plain (Einsum [(n_t1,[0;1]); (n_v'ovov,[2;1;0;3])] [2;3]));
  (*1658*) Assign (T 8) (Plain (Einsum [(n_t1,[0;1]); (n_v'oooo,[2;3;4;0])] [2;3;4;1]));
  (*1659*) Assign (T 6) (Plain (Einsum [(T 1,[0;1]); (n_t1,[0;2])] [1;2]));
  (*1660*) Assign (T 5) (Plain (Einsum [(n_t2,[0;1;2;3]); (n_f'ov,[4;3])] [4;0;1;2]));
  (*1661*) Assign (T 4) (Plain (Einsum [(n_f'ov,[0;1]); (n_t2,[2;0;3;1])] [2;3]));
  (*1662*) Assign (T 3) (Plain (Einsum [(n_t1,[0;1]); (n_f'vv,[2;1])] [0;2]));
  (*1663*) Assign (T 2) (Plain (Einsum [(n_t1,[0;1]); (n_f'oo,[2;0])] [2;1]))]
 [(T 1,[0;0]); (T 2,[0;1]); (T 11,[0;0]); (T 12,[0;1]); (T 13,[0;0;0;1]); (T 14,[0;1]); (T 15,[0;0;0;1]); (T 16,[0;1]); (T 17,[0;1]); (T 18,[0;0;0;1]); (T 19,[0;0;0;1]); (T 20,[0;1]); (T 3,[0;1]); (T 21,[0;0;0;1]); (T 22,[0;1]); (T 23,[0;0;0;0]); (T 24,[0;0;0;1]); (T 25,[0;0]); (T 26,[0;1]); (T 27,[0;0;0;0]); (T 28,[0;0;0;1]); (T 29,[1;1]); (T 30,[0;1]); (T 4,[0;1]); (T 31,[0;0;1;1]); (T 32,[0;0;0;1]); (T 33,[0;1]); (T 34,[0;0;0;0]); (T 35,[0;0;0;1]); (T 5,[0;0;0;1]); (T 44,[1;1]); (T 45,[0;0;1;1]); (T 6,[0;1]); (T 7,[0;0]); (T 8,[0;0;0;1]); (T 9,[0;1]); (T 10,[0;0;0;1])].

(** ebcc/codegen/GCCSD.py:1667-1788 [hbar_lmatvec_ip] *)
Definition GCCSD_hbar_lmatvec_ip : prog := mkprog
 [(IT 31,[0;0;1;1]); (IT 45,[0;0;1;1]); (n_r2,[0;0;1]); (n_t1,[0;1]); (n_v'ovov,[0;1;0;1]); (n_v'ooov,[0;0;0;1]); (IT 19,[0;0;0;1]); (IT 11,[0;0]); (n_f'ov,[0;1]); (IT 16,[0;1]); (n_f'oo,[0;0]); (IT 1,[0;0]); (IT 25,[0;0]); (IT 7,[0;0]); (n_r1,[0]); (n_v'ovoo,[0;1;0;0]); (IT 23,[0;0;0;0]); (IT 34,[0;0;0;0]); (n_v'oooo,[0;0;0;0]); (IT 27,[0;0;0;0]); (n_t2,[0;0;1;1]); (IT 29,[1;1]); (IT 44,[1;1]); (n_f'vv,[1;1]); (IT 12,[0;1]); (IT 14,[0;1]); (IT 20,[0;1]); (IT 2,[0;1]); (IT 22,[0;1]); (IT 26,[0;1]); (IT 30,[0;1]); (IT 33,[0;1]); (IT 6,[0;1]); (IT 9,[0;1]); (IT 17,[0;1]); (IT 3,[0;1]); (IT 4,[0;1]); (IT 13,[0;0;0;1]); (IT 24,[0;0;0;1]); (IT 35,[0;0;0;1]); (IT 5,[0;0;0;1]); (IT 8,[0;0;0;1]); (IT 10,[0;0;0;1]); (IT 15,[0;0;0;1]); (IT 18,[0;0;0;1]); (IT 21,[0;0;0;1]); (IT 28,[0;0;0;1]); (IT 32,[0;0;0;1]); (n_v'oovv,[0;0;1;1])]
 [(*1695*) Assign (T 10) (Plain (Copy (IT 31)));
  (*1696*) AddTo (T 10) (Plain (Copy (IT 45)));
  (*1697*) Assign (T 7) (Plain (Einsum [(n_r2,[0;1;2]); (n_t1,[3;2])] [0;1;3]));
  (*1698*) Assign (T 11) (Times (Einsum [(T 10,[0;1;2;3]); (n_r2,[4;0;2])] [1;4;3]) (-1) 1);
  (*1699*) Del (T 10);
  (*1700*) Assign (T 6) (Plain (Einsum [(n_v'ovov,[0;1;2;3]); (n_r2,[4;2;1])] [4;0;3]));
  (*1701*) Assign (T 9) (Plain (Einsum [(T 7,[0;1;2]); (n_v'ooov,[3;2;1;4])] [0;3;4]));
  (*1702*) Assign (T 8) (Plain (Einsum [(IT 19,[0;1;2;3]); (T 7,[4;0;2])] [1;4;3]));
  (*1703*) Del (T 7);
  (*1704*) Assign (T 5) (Plain (Einsum [(n_r2,[0;1;2]); (IT 11,[1;3])] [3;0;2]));
  (*1705*) Assign (T 12) (Plain (Copy n_f'ov));
  (*1706*) AddTo (T 12) (Plain (Copy (IT 16)));
  (*1707*) Assign (T 14) (Plain (Copy n_f'oo));
  (*1708*) AddTo (T 14) (Plain (Transpose (IT 1) [1;0]));
  (*1709*) AddTo (T 14) (Plain (Copy (IT 25)));
  (*1710*) AddTo (T 14) (Plain (Transpose (IT 7) [1;0]));
  (*1711*) Assign (T 13) (Times (Copy (T 5)) (-1) 2);
  (*1712*) Del (T 5);
  (*1713*) AddTo (T 13) (Plain (Copy (T 6)));
  (*1714*) Del (T 6);
  (*1715*) AddTo (T 13) (Times (Copy (T 8)) (-1) 1);
  (*1716*) Del (T 8);
  (*1717*) AddTo (T 13) (Times (Copy (T 9)) (-1) 1);
  (*1718*) Del (T 9);
  (*1719*) AddTo (T 13) (Times (Copy (T 11)) (-1) 1);
  (*1720*) Del (T 11);
  (*1721*) AddTo (T 13) (Plain (Einsum [(T 12,[0;1]); (n_r1,[2])] [0;2;1]));
  (*1722*) Assign (T 15) (Times (Einsum [(n_r2,[0;1;2]); (T 14,[1;3])] [3;0;2]) (-1) 1);
  (*1723*) Del (T 14);
  (*1724*) Assign (T 18) (Plain (Copy (IT 19)));
  (*1725*) AddTo (T 18) (Times (Transpose n_v'ovoo [0;2;3;1]) (-1) 1);
  (*1726*) Assign (T 16) (Plain (Copy (IT 23)));
  (*1727*) AddTo (T 16) (Times (Copy (IT 34)) (2) 1);
  (*1728*) AddTo (T 16) (Times (Copy n_v'oooo) (2) 1);
  (*1729*) AddTo (T 16) (Times (Transpose (IT 27) [0;3;1;2]) (-4) 1);
  (*1730*) Assign (T 4) (Plain (Einsum [(n_r2,[0;1;2]); (n_t2,[0;1;3;2])] [3]));
  (*1731*) Assign (T 17) (Plain (Copy (IT 29)));
  (*1732*) AddTo (T 17) (Times (Copy (IT 44)) (1) 2);
  (*1733*) AddTo (T 17) (Times (Copy n_f'vv) (-1) 1);
  (*1734*) AddTo (T 17) (Plain (Einsum [(T 12,[0;1]); (n_t1,[0;2])] [2;1]));
  (*1735*) Del (T 12);
  (*1736*) Assign (T 2) (Plain (Copy (IT 12)));
  (*1737*) AddTo (T 2) (Plain (Copy (IT 14)));
  (*1738*) AddTo (T 2) (Plain (Copy (IT 20)));
  (*1739*) AddTo (T 2) (Times (Copy (IT 2)) (2) 1);
  (*1740*) AddTo (T 2) (Plain (Copy (IT 22)));
  (*1741*) AddTo (T 2) (Times (Copy (IT 26)) (2) 1);
  (*1742*) AddTo (T 2) (Times (Copy (IT 30)) (2) 1);
  (*1743*) AddTo (T 2) (Times (Copy (IT 33)) (2) 1);
  (*1744*) AddTo (T 2) (Times (Copy (IT 6)) (2) 1);
  (*1745*) AddTo (T 2) (Times (Copy (IT 9)) (2) 1);
  (*1746*) AddTo (T 2) (Times (Copy n_f'ov) (-2) 1);
  (*1747*) AddTo (T 2) (Times (Copy (IT 17)) (-2) 1);
  (*1748*) AddTo (T 2) (Times (Copy (IT 3)) (-2) 1);
  (*1749*) AddTo (T 2) (Times (Copy (IT 4)) (-2) 1);
  (*1750*) Assign (T 1) (Plain (Copy (IT 13)));
  (*1751*) AddTo (T 1) (Times (Transpose (IT 24) [0;2;1;3]) (1) 4);
  (*1752*) AddTo (T 1) (Times (Transpose (IT 35) [0;2;1;3]) (1) 2);
  (*1753*) AddTo (T 1) (Times (Transpose (IT 5) [1;0;2;3]) (1) 2);
  (*1754*) AddTo (T 1) (Times (Transpose (IT 8) [0;2;1;3]) (1) 2);
  (*1755*) AddTo (T 1) (Plain (Copy (IT 10)));
  (*1756*) AddTo (T 1) (Times (Transpose (IT 15) [0;2;1;3]) (-1) 4);
  (*1757*) AddTo (T 1) (Times (Transpose (IT 18) [0;2;1;3]) (-1) 2);
  (*1758*) AddTo (T 1) (Times (Transpose (IT 21) [0;2;1;3]) (-1) 1);
  (*1759*) AddTo (T 1) (Times (Copy (IT 28)) (-1) 1);
  (*1760*) AddTo (T 1) (Times (Transpose (IT 32) [0;2;1;3]) (-1) 2);
  (*1761*) AddTo (T 1) (Times (Transpose n_v'ooov [0;2;1;3]) (-1) 2);
  (*1762*) Assign (T 3) (Times (Copy n_f'oo) (2) 1);
  (*1763*) AddTo (T 3) (Times (Transpose (IT 1) [1;0]) (2) 1);
  (*1764*) AddTo (T 3) (Plain (Copy (IT 11)));
  (*1765*) AddTo (T 3) (Times (Copy (IT 25)) (2) 1);
  (*1766*) AddTo (T 3) (Times (Transpose (IT 7) [1;0]) (2) 1);
  (*1767*) Assign n_r2new (Times (Einsum [(T 4,[0]); (n_v'oovv,[1;2;3;0])] [1;2;3]) (1) 2);
  (*1768*) Del (T 4);
  (*1769*) AddTo n_r2new (Times (Copy (T 13)) (-1) 1);
  (*1770*) AddTo n_r2new (Plain (Transpose (T 13) [1;0;2]));
  (*1771*) Del (T 13);
  (*1772*) AddTo n_r2new (Times (Copy (T 15)) (-1) 1);
  (*1773*) AddTo n_r2new (Plain (Transpose (T 15) [1;0;2]));
  (*1774*) Del (T 15);
  (*1775*) AddTo n_r2new (Times (Einsum [(T 16,[0;1;2;3]); (n_r2,[0;1;4])] [2;3;4]) (1) 4);
  (*1776*) Del (T 16);
  (*1777*) AddTo n_r2new (Times (Einsum [(n_r2,[0;1;2]); (T 17,[2;3])] [0;1;3]) (-1) 1);
  (*1778*) Del (T 17);
  (*1779*) AddTo n_r2new (Times (Einsum [(n_r1,[0]); (T 18,[0;1;2;3])] [2;1;3]) (-1) 1);
  (*1780*) Del (T 18);
  (*1781*) Assign n_r1new (Plain (Einsum [(n_r2,[0;1;2]); (T 1,[0;3;1;2])] [3]));
  (*1782*) Del (T 1);
  (*1783*) AddTo n_r1new (Times (Einsum [(n_r2,[0;1;2]); (T 2,[1;2])] [0]) (-1) 2);
  (*1784*) Del (T 2);
  (*1785*) AddTo n_r1new (Times (Einsum [(T 3,[0;1]); (n_r1,[0])] [1]) (-1) 2);
  (*1786*) Del (T 3)]
 [(n_r1new,[0]); (n_r2new,[0;0;1])].

(** ebcc/codegen/GCCSD.py:1790-1864 [hbar_lmatvec_ea_intermediates] *)
Definition GCCSD_hbar_lmatvec_ea_intermediates : prog := mkprog
 [(n_t1,[0;1]); (n_v'oovv,[0;0;1;1]); (n_v'ovvv,[0;1;1;1]); (n_v'ooov,[0;0;0;1]); (n_t2,[0;0;1;1]); (n_f'ov,[0;1]); (n_v'ovoo,[0;1;0;0]); (n_v'vvvv,[1;1;1;1]); (n_v'ovov,[0;1;0;1]); (n_f'vv,[1;1]); (n_f'oo,[0;0])]
 [(*1836*) Assign (T 17) (Plain (Einsum [(n_t1,[0;1]); (n_v'oovv,[2;0;3;1])] [2;3]));
  (*1837*) Assign (T 30) (Plain (Einsum [(T 17,[0;1]); (n_t1,[2;1])] [2;0]));
  (*1838*) Assign (T 8) (Plain (Einsum [(n_v'ovvv,[0;1;2;3]); (n_t1,[0;3])] [1;2]));
  (*1839*) Assign (T 25) (Plain (Einsum [(n_v'ooov,[0;1;2;3]); (n_t1,[1;3])] [0;2]));
  (*1840*) Assign (T 22) (Plain (Einsum [(n_v'oovv,[0;1;2;3]); (n_t2,[4;1;2;3])] [4;0]));
  (*1841*) Assign (T 19) (Plain (Einsum [(n_v'oovv,[0;1;2;3]); (n_t1,[4;3])] [4;0;1;2]));
  (*1842*) Assign (T 6) (Plain (Einsum [(n_f'ov,[0;1]); (n_t1,[2;1])] [0;2]));
  (*1843*) Assign (T 31) (Plain (Einsum [(n_t1,[0;1]); (T 30,[2;0])] [2;1]));
  (*1844*) Assign (T 29) (Plain (Einsum [(n_v'ovvv,[0;1;2;3]); (n_t1,[4;3])] [4;0;1;2]));
  (*1845*) Assign (T 28) (Plain (Einsum [(T 8,[0;1]); (n_t1,[2;1])] [2;0]));
  (*1846*) Assign (T 26) (Plain (Einsum [(T 25,[0;1]); (n_t1,[0;2])] [1;2]));
  (*1847*) Assign (T 24) (Plain (Einsum [(n_v'oovv,[0;1;2;3]); (n_t2,[4;1;5;3])] [4;0;5;2]));
  (*1848*) Assign (T 23) (Plain (Einsum [(T 22,[0;1]); (n_t1,[1;2])] [0;2]));
  (*1849*) Assign (T 21) (Times (Einsum [(n_t2,[0;1;2;3]); (T 19,[4;1;0;5])] [4;2;3;5]) (-1) 1);
  (*1850*) Assign (T 20) (Plain (Einsum [(n_t2,[0;1;2;3]); (T 19,[4;1;0;3])] [4;2]));
  (*1851*) Assign (T 18) (Plain (Einsum [(T 17,[0;1]); (n_t2,[2;0;3;1])] [2;3]));
  (*1852*) Assign (T 16) (Plain (Einsum [(n_t2,[0;1;2;3]); (n_v'ovvv,[1;4;5;3])] [0;2;4;5]));
  (*1853*) Assign (T 15) (Plain (Einsum [(n_v'ovvv,[0;1;2;3]); (n_t2,[4;0;2;3])] [4;1]));
  (*1854*) Assign (T 14) (Plain (Einsum [(n_t2,[0;1;2;3]); (n_v'ovoo,[4;5;0;1])] [4;2;3;5]));
  (*1855*) Assign (T 13) (Plain (Einsum [(n_t2,[0;1;2;3]); (n_v'ovoo,[4;3;0;1])] [4;2]));
  (*1856*) Assign (T 12) (Plain (Einsum [(n_v'oovv,[0;1;2;3]); (n_t2,[0;1;4;3])] [4;2]));
  (*1857*) Assign (T 11) (Plain (Einsum [(n_v'vvvv,[0;1;2;3]); (n_t1,[4;3])] [4;0;1;2]));
  (*1858*) Assign (T 9) (Plain (Einsum [(n_t1,[0;1]); (n_v'ovov,[2;1;0;3])] [2;3]));
  (*1859*) Assign (T 7) (Plain (Einsum [(n_t1,[0;1]); (T 6,[0;2])] [2;1]));
  (*1860*) Assign (T 4) (Plain (Einsum [(n_f'ov,[0;1]); (n_t2,[2;0;3;1])] [2;3]));
  (*1861*) Assign (T 3) (Plain (Einsum [(n_t1,[0;1]); (n_f'vv,[2;1])] [0;2]));
  (*1862*) Assign (T 2) (Plain (Einsum [(n_f'oo,[0;1]); (n_t1,[1;2])] [0;2]))]
 [(T 2,[0;1]); (T 11,[0;1;1;1]); (T 12,[1;1]); (T 13,[0;1]); (T 14,[0;1;1;1]); (T 15,[0;1]); (T 16,[0;1;1;1]); (T 17,[0;1]); (T 18,[0;1]); (T 19,[0;0;0;1]); (T 20,[0;1]); (T 3,[0;1]); (T 21,[0;1;1;1]); (T 22,[0;0]); (T 23,[0;1]); (T 24,[0;0;1;1]); (T 25,[0;0]); (T 26,[0;1]); (T 28,[0;1]); (T 29,[0;0;1;1]); (T 30,[0;0]); (T 4,[0;1]); (T 31,[0;1]); (T 6,[0;0]); (T 7,[0;1]); (T 8,[1;1]); (T 9,[0;1])].

(** ebcc/codegen/GCCSD.py:1866-1995 [hbar_lmatvec_ea] *)
Definition GCCSD_hbar_lmatvec_ea : prog := mkprog
 [(n_f'ov,[0;1]); (IT 17,[0;1]); (n_v'ooov,[0;0;0;1]); (n_t1,[0;1]); (IT 19,[0;0;0;1]); (n_v'ovov,[0;1;0;1]); (IT 12,[1;1]); (n_f'vv,[1;1]); (IT 24,[0;0;1;1]); (IT 29,[0;0;1;1]); (n_r1,[1]); (n_t2,[0;0;1;1]); (n_r2,[1;1;0]); (n_f'oo,[0;0]); (IT 22,[0;0]); (IT 25,[0;0]); (IT 30,[0;0]); (IT 6,[0;0]); (IT 8,[1;1]); (IT 13,[0;1]); (IT 15,[0;1]); (IT 20,[0;1]); (IT 2,[0;1]); (IT 23,[0;1]); (IT 26,[0;1]); (IT 28,[0;1]); (IT 31,[0;1]); (IT 7,[0;1]); (IT 9,[0;1]); (IT 18,[0;1]); (IT 3,[0;1]); (IT 4,[0;1]); (n_v'ovoo,[0;1;0;0]); (IT 11,[0;1;1;1]); (IT 16,[0;1;1;1]); (IT 21,[0;1;1;1]); (IT 14,[0;1;1;1]); (n_v'ovvv,[0;1;1;1]); (n_v'vvvv,[1;1;1;1]); (n_v'oovv,[0;0;1;1])]
 [(*1894*) Assign (T 11) (Plain (Copy n_f'ov));
  (*1895*) AddTo (T 11) (Plain (Copy (IT 17)));
  (*1896*) Assign (T 18) (Plain (Einsum [(n_v'ooov,[0;1;2;3]); (n_t1,[1;4])] [0;2;4;3]));
  (*1897*) Assign (T 15) (Times (Einsum [(T 11,[0;1]); (n_t1,[0;2])] [1;2]) (2) 1);
  (*1898*) Assign (T 12) (Plain (Einsum [(IT 19,[0;1;2;3]); (n_t1,[2;4])] [0;1;3;4]));
  (*1899*) Assign (T 19) (Plain (Transpose n_v'ovov [0;2;1;3]));
  (*1900*) AddTo (T 19) (Times (Transpose (T 18) [1;0;3;2]) (-1) 1);
  (*1901*) Del (T 18);
  (*1902*) Assign (T 16) (Plain (Copy (IT 12)));
  (*1903*) AddTo (T 16) (Times (Copy n_f'vv) (-2) 1);
  (*1904*) AddTo (T 16) (Plain (Transpose (T 15) [1;0]));
  (*1905*) Del (T 15);
  (*1906*) Assign (T 13) (Plain (Copy (IT 24)));
  (*1907*) AddTo (T 13) (Plain (Copy (IT 29)));
  (*1908*) AddTo (T 13) (Times (Transpose (T 12) [0;1;3;2]) (-1) 1);
  (*1909*) Del (T 12);
  (*1910*) Assign (T 8) (Plain (Einsum [(n_r1,[0]); (n_t1,[1;0])] [1]));
  (*1911*) Assign (T 9) (Plain (Einsum [(n_t2,[0;1;2;3]); (n_r2,[2;3;1])] [0]));
  (*1912*) Assign (T 20) (Times (Einsum [(n_r2,[0;1;2]); (T 19,[2;3;4;1])] [3;4;0]) (-1) 1);
  (*1913*) Del (T 19);
  (*1914*) Assign (T 17) (Times (Einsum [(T 16,[0;1]); (n_r2,[2;0;3])] [3;1;2]) (-1) 2);
  (*1915*) Del (T 16);
  (*1916*) Assign (T 14) (Times (Einsum [(n_r2,[0;1;2]); (T 13,[2;3;1;4])] [3;4;0]) (-1) 1);
  (*1917*) Del (T 13);
  (*1918*) Assign (T 23) (Plain (Copy n_t2));
  (*1919*) AddTo (T 23) (Times (Einsum [(n_t1,[0;1]); (n_t1,[2;3])] [2;0;3;1]) (2) 1);
  (*1920*) Assign (T 2) (Plain (Einsum [(n_t1,[0;1]); (n_r2,[2;1;3])] [3;0;2]));
  (*1921*) Assign (T 10) (Plain (Copy (T 8)));
  (*1922*) Del (T 8);
  (*1923*) AddTo (T 10) (Times (Copy (T 9)) (1) 2);
  (*1924*) Del (T 9);
  (*1925*) Assign (T 21) (Times (Copy (T 14)) (-1) 1);
  (*1926*) Del (T 14);
  (*1927*) AddTo (T 21) (Plain (Copy (T 17)));
  (*1928*) Del (T 17);
  (*1929*) AddTo (T 21) (Times (Transpose (T 20) [0;2;1]) (-1) 1);
  (*1930*) Del (T 20);
  (*1931*) AddTo (T 21) (Plain (Einsum [(T 11,[0;1]); (n_r1,[2])] [0;1;2]));
  (*1932*) Assign (T 25) (Plain (Copy n_f'oo));
  (*1933*) AddTo (T 25) (Times (Copy (IT 22)) (1) 2);
  (*1934*) AddTo (T 25) (Plain (Transpose (IT 25) [1;0]));
  (*1935*) AddTo (T 25) (Plain (Copy (IT 30)));
  (*1936*) AddTo (T 25) (Plain (Transpose (IT 6) [1;0]));
  (*1937*) Assign (T 22) (Plain (Einsum [(IT 8,[0;1]); (n_r2,[2;0;3])] [3;1;2]));
  (*1938*) Assign (T 24) (Times (Einsum [(T 23,[0;1;2;3]); (n_r2,[2;3;4])] [4;1;0]) (-1) 1);
  (*1939*) Del (T 23);
  (*1940*) Assign (T 6) (Times (Copy (IT 13)) (1) 2);
  (*1941*) AddTo (T 6) (Times (Copy (IT 15)) (1) 2);
  (*1942*) AddTo (T 6) (Times (Copy (IT 20)) (1) 2);
  (*1943*) AddTo (T 6) (Plain (Copy (IT 2)));
  (*1944*) AddTo (T 6) (Times (Copy (IT 23)) (1) 2);
  (*1945*) AddTo (T 6) (Plain (Copy (IT 26)));
  (*1946*) AddTo (T 6) (Plain (Copy (IT 28)));
  (*1947*) AddTo (T 6) (Plain (Copy (IT 31)));
  (*1948*) AddTo (T 6) (Plain (Copy (IT 7)));
  (*1949*) AddTo (T 6) (Plain (Copy (IT 9)));
  (*1950*) AddTo (T 6) (Times (Copy n_f'ov) (-1) 1);
  (*1951*) AddTo (T 6) (Times (Copy (IT 18)) (-1) 1);
  (*1952*) AddTo (T 6) (Times (Copy (IT 3)) (-1) 1);
  (*1953*) AddTo (T 6) (Times (Copy (IT 4)) (-1) 1);
  (*1954*) Assign (T 4) (Times (Einsum [(n_t1,[0;1]); (T 2,[2;3;1])] [2;3;0]) (-1) 1);
  (*1955*) Assign (T 7) (Times (Copy (IT 12)) (1) 2);
  (*1956*) AddTo (T 7) (Plain (Copy (IT 8)));
  (*1957*) AddTo (T 7) (Times (Copy n_f'vv) (-1) 1);
  (*1958*) Assign (T 5) (Plain (Copy (IT 19)));
  (*1959*) AddTo (T 5) (Times (Transpose n_v'ovoo [0;2;3;1]) (-1) 1);
  (*1960*) Assign (T 1) (Times (Copy (IT 11)) (1) 2);
  (*1961*) AddTo (T 1) (Plain (Copy (IT 16)));
  (*1962*) AddTo (T 1) (Times (Copy (IT 21)) (1) 4);
  (*1963*) AddTo (T 1) (Times (Copy (IT 14)) (-1) 4);
  (*1964*) AddTo (T 1) (Times (Transpose n_v'ovvv [0;2;3;1]) (-1) 2);
  (*1965*) Assign (T 3) (Plain (Copy (IT 24)));
  (*1966*) AddTo (T 3) (Plain (Copy (IT 29)));
  (*1967*) AddTo (T 3) (Times (Transpose n_v'ovov [0;2;3;1]) (-1) 1);
  (*1968*) Assign n_r2new (Plain (Einsum [(n_v'ovvv,[0;1;2;3]); (T 2,[4;0;1])] [2;3;4]));
  (*1969*) AddTo n_r2new (Times (Einsum [(n_r2,[0;1;2]); (n_v'vvvv,[3;4;0;1])] [3;4;2]) (1) 2);
  (*1970*) AddTo n_r2new (Times (Einsum [(n_r1,[0]); (n_v'ovvv,[1;0;2;3])] [2;3;1]) (-1) 1);
  (*1971*) AddTo n_r2new (Times (Transpose (T 21) [1;2;0]) (-1) 1);
  (*1972*) AddTo n_r2new (Plain (Transpose (T 21) [2;1;0]));
  (*1973*) Del (T 21);
  (*1974*) AddTo n_r2new (Plain (Transpose (T 22) [1;2;0]));
  (*1975*) AddTo n_r2new (Times (Transpose (T 22) [2;1;0]) (-1) 1);
  (*1976*) Del (T 22);
  (*1977*) AddTo n_r2new (Times (Einsum [(n_v'oovv,[0;1;2;3]); (T 24,[4;0;1])] [2;3;4]) (1) 4);
  (*1978*) Del (T 24);
  (*1979*) AddTo n_r2new (Times (Einsum [(T 25,[0;1]); (n_r2,[2;3;0])] [2;3;1]) (-1) 1);
  (*1980*) Del (T 25);
  (*1981*) AddTo n_r2new (Plain (Einsum [(n_v'oovv,[0;1;2;3]); (T 10,[1])] [2;3;0]));
  (*1982*) Assign n_r1new (Plain (Einsum [(T 1,[0;1;2;3]); (n_r2,[1;2;0])] [3]));
  (*1983*) Del (T 1);
  (*1984*) AddTo n_r1new (Plain (Einsum [(T 2,[0;1;2]); (T 3,[0;1;2;3])] [3]));
  (*1985*) Del (T 2);
  (*1985*) Del (T 3);
  (*1986*) AddTo n_r1new (Times (Einsum [(T 4,[0;1;2]); (T 5,[0;2;1;3])] [3]) (-1) 2);
  (*1987*) Del (T 4);
  (*1987*) Del (T 5);
  (*1988*) AddTo n_r1new (Times (Einsum [(n_r2,[0;1;2]); (T 6,[2;1])] [0]) (-1) 1);
  (*1989*) Del (T 6);
  (*1990*) AddTo n_r1new (Times (Einsum [(T 7,[0;1]); (n_r1,[0])] [1]) (-1) 1);
  (*1991*) Del (T 7);
  (*1992*) AddTo n_r1new (Times (Einsum [(T 10,[0]); (T 11,[0;1])] [1]) (-1) 1);
  (*1993*) Del (T 11);
  (*1993*) Del (T 10)]
 [(n_r1new,[1]); (n_r2new,[1;1;0])].

(** ebcc/codegen/GCCSD.py:1997-2099 [hbar_lmatvec_ee_intermediates] *)
Definition GCCSD_hbar_lmatvec_ee_intermediates : prog := mkprog
 [(n_v'oovv,[0;0;1;1]); (n_t1,[0;1]); (n_v'ovvv,[0;1;1;1]); (n_v'ooov,[0;0;0;1]); (n_t2,[0;0;1;1]); (n_f'ov,[0;1]); (n_v'ovoo,[0;1;0;0]); (n_v'vvvv,[1;1;1;1]); (n_v'ovov,[0;1;0;1]); (n_v'oooo,[0;0;0;0]); (n_f'vv,[1;1]); (n_f'oo,[0;0])]
 [(*2057*) Assign (T 30) (Plain (Einsum [(n_v'oovv,[0;1;2;3]); (n_t1,[4;3])] [4;0;1;2]));
  (*2058*) Assign (T 27) (Plain (Einsum [(n_t1,[0;1]); (n_v'oovv,[2;0;3;1])] [2;3]));
  (*2059*) Assign (T 47) (Plain (Einsum [(T 30,[0;1;2;3]); (n_t1,[4;3])] [4;0;1;2]));
  (*2060*) Assign (T 39) (Plain (Einsum [(T 27,[0;1]); (n_t1,[2;1])] [2;0]));
  (*2061*) Assign (T 11) (Plain (Einsum [(n_v'ovvv,[0;1;2;3]); (n_t1,[4;3])] [4;0;1;2]));
  (*2062*) Assign (T 10) (Plain (Einsum [(n_v'ovvv,[0;1;2;3]); (n_t1,[0;3])] [1;2]));
  (*2063*) Assign (T 41) (Plain (Einsum [(n_v'ooov,[0;1;2;3]); (n_t1,[4;3])] [4;0;1;2]));
  (*2064*) Assign (T 9) (Plain (Einsum [(n_t1,[0;1]); (n_v'ooov,[2;0;3;1])] [2;3]));
  (*2065*) Assign (T 35) (Plain (Einsum [(n_v'oovv,[0;1;2;3]); (n_t2,[4;5;2;3])] [4;5;0;1]));
  (*2066*) Assign (T 17) (Plain (Einsum [(n_v'oovv,[0;1;2;3]); (n_t2,[4;1;2;3])] [4;0]));
  (*2067*) Assign (T 1) (Plain (Einsum [(n_f'ov,[0;1]); (n_t1,[2;1])] [0;2]));
  (*2068*) Assign (T 48) (Plain (Einsum [(n_t1,[0;1]); (T 47,[2;3;4;0])] [2;3;4;1]));
  (*2069*) Assign (T 46) (Plain (Einsum [(T 39,[0;1]); (n_t1,[1;2])] [0;2]));
  (*2070*) Assign (T 45) (Plain (Einsum [(T 11,[0;1;2;3]); (n_t1,[4;3])] [4;0;1;2]));
  (*2071*) Assign (T 44) (Plain (Einsum [(T 10,[0;1]); (n_t1,[2;1])] [2;0]));
  (*2072*) Assign (T 42) (Plain (Einsum [(n_t1,[0;1]); (T 41,[2;3;0;4])] [2;3;4;1]));
  (*2073*) Assign (T 40) (Plain (Einsum [(T 9,[0;1]); (n_t1,[0;2])] [1;2]));
  (*2074*) Assign (T 37) (Plain (Einsum [(n_v'oovv,[0;1;2;3]); (n_t2,[4;1;5;3])] [4;0;5;2]));
  (*2075*) Assign (T 36) (Plain (Einsum [(n_t1,[0;1]); (T 35,[2;3;4;0])] [2;3;4;1]));
  (*2076*) Assign (T 34) (Plain (Einsum [(n_t1,[0;1]); (T 17,[2;0])] [2;1]));
  (*2077*) Assign (T 33) (Times (Einsum [(T 30,[0;1;2;3]); (n_t2,[2;1;4;5])] [0;4;5;3]) (-1) 1);
  (*2078*) Assign (T 32) (Times (Einsum [(n_t2,[0;1;2;3]); (T 30,[4;5;1;3])] [4;0;5;2]) (-1) 1);
  (*2079*) Assign (T 31) (Plain (Einsum [(T 30,[0;1;2;3]); (n_t2,[2;1;4;3])] [0;4]));
  (*2080*) Assign (T 29) (Times (Einsum [(T 27,[0;1]); (n_t2,[2;3;4;1])] [2;3;0;4]) (-1) 1);
  (*2081*) Assign (T 28) (Plain (Einsum [(T 27,[0;1]); (n_t2,[2;0;3;1])] [2;3]));
  (*2082*) Assign (T 25) (Plain (Einsum [(n_t2,[0;1;2;3]); (n_v'ovvv,[1;4;5;3])] [0;2;4;5]));
  (*2083*) Assign (T 24) (Plain (Einsum [(n_v'ovvv,[0;1;2;3]); (n_t2,[4;5;2;3])] [4;5;0;1]));
  (*2084*) Assign (T 23) (Plain (Einsum [(n_v'ovvv,[0;1;2;3]); (n_t2,[4;0;2;3])] [4;1]));
  (*2085*) Assign (T 22) (Plain (Einsum [(n_t2,[0;1;2;3]); (n_v'ovoo,[4;5;0;1])] [4;2;3;5]));
  (*2086*) Assign (T 21) (Plain (Einsum [(n_t2,[0;1;2;3]); (n_v'ooov,[4;1;5;3])] [0;4;5;2]));
  (*2087*) Assign (T 20) (Plain (Einsum [(n_t2,[0;1;2;3]); (n_v'ovoo,[4;3;0;1])] [4;2]));
  (*2088*) Assign (T 18) (Plain (Einsum [(n_v'oovv,[0;1;2;3]); (n_t2,[0;1;4;3])] [4;2]));
  (*2089*) Assign (T 16) (Plain (Einsum [(n_v'vvvv,[0;1;2;3]); (n_t1,[4;3])] [4;0;1;2]));
  (*2090*) Assign (T 14) (Plain (Einsum [(n_v'ovov,[0;1;2;3]); (n_t1,[4;3])] [4;0;2;1]));
  (*2091*) Assign (T 13) (Plain (Einsum [(n_t1,[0;1]); (n_v'ovov,[2;1;0;3])] [2;3]));
  (*2092*) Assign (T 12) (Plain (Einsum [(n_t1,[0;1]); (n_v'oooo,[2;3;4;0])] [2;3;4;1]));
  (*2093*) Assign (T 8) (Plain (Einsum [(T 1,[0;1]); (n_t1,[0;2])] [1;2]));
  (*2094*) Assign (T 6) (Plain (Einsum [(n_t2,[0;1;2;3]); (n_f'ov,[4;3])] [4;0;1;2]));
  (*2095*) Assign (T 5) (Plain (Einsum [(n_f'ov,[0;1]); (n_t2,[2;0;3;1])] [2;3]));
  (*2096*) Assign (T 4) (Plain (Einsum [(n_t1,[0;1]); (n_f'vv,[2;1])] [0;2]));
  (*2097*) Assign (T 3) (Plain (Einsum [(n_t1,[0;1]); (n_f'oo,[2;0])] [2;1]))]
 [(T 1,[0;0]); (T 11,[0;0;1;1]); (T 12,[0;0;0;1]); (T 13,[0;1]); (T 14,[0;0;0;1]); (T 16,[0;1;1;1]); (T 17,[0;0]); (T 18,[1;1]); (T 20,[0;1]); (T 3,[0;1]); (T 21,[0;0;0;1]); (T 22,[0;1;1;1]); (T 23,[0;1]); (T 24,[0;0;0;1]); (T 25,[0;1;1;1]); (T 27,[0;1]); (T 28,[0;1]); (T 29,[0;0;0;1]); (T 30,[0;0;0;1]); (T 4,[0;1]); (T 31,[0;1]); (T 32,[0;0;0;1]); (T 33,[0;1;1;1]); (T 34,[0;1]); (T 35,[0;0;0;0]); (T 36,[0;0;0;1]); (T 37,[0;0;1;1]); (T 39,[0;0]); (T 40,[0;1]); (T 5,[0;1]); (T 41,[0;0;0;0]); (T 42,[0;0;0;1]); (T 44,[0;1]); (T 45,[0;0;0;1]); (T 46,[0;1]); (T 47,[0;0;0;0]); (T 48,[0;0;0;1]); (T 6,[0;0;0;1]); (T 8,[0;1]); (T 9,[0;0]); (T 10,[1;1])].

(** ebcc/codegen/GCCSD.py:2101-2288 [hbar_lmatvec_ee] *)
Definition GCCSD_hbar_lmatvec_ee : prog := mkprog
 [(n_r1,[0;1]); (n_t1,[0;1]); (n_t2,[0;0;1;1]); (n_r2,[0;0;1;1]); (n_f'oo,[0;0]); (IT 1,[0;0]); (IT 17,[0;0]); (IT 39,[0;0]); (IT 9,[0;0]); (n_f'ov,[0;1]); (IT 27,[0;1]); (IT 11,[0;0;1;1]); (IT 37,[0;0;1;1]); (n_f'vv,[1;1]); (n_v'ooov,[0;0;0;1]); (IT 30,[0;0;0;1]); (n_v'oovv,[0;0;1;1]); (n_v'ovov,[0;1;0;1]); (IT 18,[1;1]); (IT 10,[1;1]); (IT 35,[0;0;0;0]); (IT 47,[0;0;0;0]); (n_v'oooo,[0;0;0;0]); (IT 41,[0;0;0;0]); (n_v'ovvv,[0;1;1;1]); (IT 16,[0;1;1;1]); (IT 25,[0;1;1;1]); (IT 33,[0;1;1;1]); (IT 22,[0;1;1;1]); (IT 13,[0;1]); (IT 20,[0;1]); (IT 23,[0;1]); (IT 3,[0;1]); (IT 31,[0;1]); (IT 34,[0;1]); (IT 40,[0;1]); (IT 44,[0;1]); (IT 46,[0;1]); (IT 8,[0;1]); (IT 28,[0;1]); (IT 4,[0;1]); (IT 5,[0;1]); (n_v'ovoo,[0;1;0;0]); (IT 12,[0;0;0;1]); (IT 14,[0;0;0;1]); (IT 21,[0;0;0;1]); (IT 36,[0;0;0;1]); (IT 48,[0;0;0;1]); (IT 6,[0;0;0;1]); (IT 24,[0;0;0;1]); (IT 29,[0;0;0;1]); (IT 32,[0;0;0;1]); (IT 42,[0;0;0;1]); (IT 45,[0;0;0;1]); (n_v'vvvv,[1;1;1;1])]
 [(*2129*) Assign (T 2) (Plain (Einsum [(n_r1,[0;1]); (n_t1,[2;1])] [0;2]));
  (*2130*) Assign (T 1) (Plain (Einsum [(n_t2,[0;1;2;3]); (n_r2,[4;1;2;3])] [4;0]));
  (*2131*) Assign (T 7) (Plain (Einsum [(n_t1,[0;1]); (n_r2,[2;3;4;1])] [2;3;0;4]));
  (*2132*) Assign (T 13) (Times (Copy (T 2)) (2) 1);
  (*2133*) AddTo (T 13) (Plain (Copy (T 1)));
  (*2134*) Assign (T 15) (Plain (Copy n_f'oo));
  (*2135*) AddTo (T 15) (Plain (Transpose (IT 1) [1;0]));
  (*2136*) AddTo (T 15) (Times (Copy (IT 17)) (1) 2);
  (*2137*) AddTo (T 15) (Plain (Copy (IT 39)));
  (*2138*) AddTo (T 15) (Plain (Transpose (IT 9) [1;0]));
  (*2139*) Assign (T 16) (Plain (Copy n_f'ov));
  (*2140*) AddTo (T 16) (Plain (Copy (IT 27)));
  (*2141*) Assign (T 3) (Plain (Einsum [(n_r2,[0;1;2;3]); (n_t2,[0;1;4;3])] [2;4]));
  (*2142*) Assign (T 20) (Plain (Copy (IT 11)));
  (*2143*) AddTo (T 20) (Plain (Copy (IT 37)));
  (*2144*) Assign (T 8) (Plain (Einsum [(T 7,[0;1;2;3]); (n_t1,[4;3])] [0;1;4;2]));
  (*2145*) Assign (T 31) (Plain (Einsum [(n_f'vv,[0;1]); (n_r2,[2;3;4;1])] [2;3;0;4]));
  (*2146*) Assign (T 30) (Plain (Einsum [(n_v'ooov,[0;1;2;3]); (n_r1,[2;4])] [0;1;4;3]));
  (*2147*) Assign (T 29) (Plain (Einsum [(IT 30,[0;1;2;3]); (n_r1,[0;4])] [1;2;3;4]));
  (*2148*) Assign (T 27) (Times (Einsum [(n_v'oovv,[0;1;2;3]); (T 13,[4;1])] [4;0;2;3]) (-1) 2);
  (*2149*) Assign (T 26) (Times (Einsum [(T 15,[0;1]); (n_r2,[2;0;3;4])] [1;2;3;4]) (-1) 1);
  (*2150*) Assign (T 24) (Plain (Einsum [(T 7,[0;1;2;3]); (T 16,[2;4])] [0;1;4;3]));
  (*2151*) Assign (T 23) (Times (Einsum [(n_v'oovv,[0;1;2;3]); (T 3,[4;3])] [0;1;4;2]) (-1) 1);
  (*2152*) Assign (T 21) (Plain (Einsum [(n_r2,[0;1;2;3]); (T 20,[1;4;3;5])] [4;0;5;2]));
  (*2153*) Del (T 20);
  (*2154*) Assign (T 19) (Plain (Einsum [(IT 30,[0;1;2;3]); (T 7,[4;0;2;5])] [1;4;3;5]));
  (*2155*) Assign (T 18) (Plain (Einsum [(T 7,[0;1;2;3]); (n_v'ooov,[4;2;1;5])] [0;4;3;5]));
  (*2156*) Assign (T 17) (Plain (Einsum [(n_r2,[0;1;2;3]); (n_v'ovov,[4;3;1;5])] [0;4;2;5]));
  (*2157*) Assign (T 34) (Times (Copy (IT 18)) (1) 2);
  (*2158*) AddTo (T 34) (Plain (Copy (IT 10)));
  (*2159*) Assign (T 37) (Times (Einsum [(n_t2,[0;1;2;3]); (n_r2,[4;5;2;3])] [4;5;0;1]) (-1) 2);
  (*2160*) AddTo (T 37) (Plain (Transpose (T 8) [0;1;3;2]));
  (*2161*) Assign (T 32) (Times (Copy (T 29)) (-1) 1);
  (*2162*) Del (T 29);
  (*2163*) AddTo (T 32) (Plain (Transpose (T 30) [1;0;2;3]));
  (*2164*) Del (T 30);
  (*2165*) AddTo (T 32) (Plain (Transpose (T 31) [1;0;2;3]));
  (*2166*) Del (T 31);
  (*2167*) Assign (T 28) (Plain (Transpose (T 26) [0;1;3;2]));
  (*2168*) Del (T 26);
  (*2169*) AddTo (T 28) (Plain (Transpose (T 27) [0;1;3;2]));
  (*2170*) Del (T 27);
  (*2171*) Assign (T 25) (Times (Copy (T 23)) (-1) 2);
  (*2172*) Del (T 23);
  (*2173*) AddTo (T 25) (Times (Transpose (T 24) [1;0;2;3]) (-1) 1);
  (*2174*) Del (T 24);
  (*2175*) Assign (T 22) (Times (Copy (T 17)) (-1) 1);
  (*2176*) Del (T 17);
  (*2177*) AddTo (T 22) (Plain (Copy (T 18)));
  (*2178*) Del (T 18);
  (*2179*) AddTo (T 22) (Times (Copy (T 19)) (-1) 1);
  (*2180*) Del (T 19);
  (*2181*) AddTo (T 22) (Plain (Copy (T 21)));
  (*2182*) Del (T 21);
  (*2183*) AddTo (T 22) (Plain (Einsum [(T 16,[0;1]); (n_r1,[2;3])] [0;2;1;3]));
  (*2184*) Assign (T 36) (Times (Copy (IT 35)) (1) 4);
  (*2185*) AddTo (T 36) (Times (Copy (IT 47)) (1) 2);
  (*2186*) AddTo (T 36) (Times (Copy n_v'oooo) (1) 2);
  (*2187*) AddTo (T 36) (Times (Transpose (IT 41) [0;3;1;2]) (-1) 1);
  (*2188*) Assign (T 35) (Times (Einsum [(T 34,[0;1]); (n_r2,[2;3;4;0])] [2;3;1;4]) (-1) 1);
  (*2189*) Del (T 34);
  (*2190*) Assign (T 33) (Plain (Einsum [(n_r1,[0;1]); (n_v'ovvv,[2;1;3;4])] [0;2;3;4]));
  (*2191*) Assign (T 4) (Times (Copy (IT 16)) (1) 2);
  (*2192*) AddTo (T 4) (Plain (Copy (IT 25)));
  (*2193*) AddTo (T 4) (Times (Copy (IT 33)) (1) 4);
  (*2194*) AddTo (T 4) (Times (Copy (IT 22)) (-1) 4);
  (*2195*) AddTo (T 4) (Times (Transpose n_v'ovvv [0;2;3;1]) (-1) 2);
  (*2196*) Assign (T 14) (Times (Copy (IT 18)) (1) 2);
  (*2197*) AddTo (T 14) (Plain (Copy (IT 10)));
  (*2198*) AddTo (T 14) (Times (Copy n_f'vv) (-1) 1);
  (*2199*) Assign (T 11) (Plain (Einsum [(n_r1,[0;1]); (n_t2,[2;0;3;1])] [2;3]));
  (*2200*) AddTo (T 11) (Times (Einsum [(n_t2,[0;1;2;3]); (T 7,[1;0;4;3])] [4;2]) (-1) 2);
  (*2201*) Assign (T 6) (Plain (Copy (IT 11)));
  (*2202*) AddTo (T 6) (Plain (Copy (IT 37)));
  (*2203*) AddTo (T 6) (Times (Transpose n_v'ovov [0;2;3;1]) (-1) 1);
  (*2204*) Assign (T 10) (Plain (Copy (IT 13)));
  (*2205*) AddTo (T 10) (Times (Copy (IT 20)) (1) 2);
  (*2206*) AddTo (T 10) (Times (Copy (IT 23)) (1) 2);
  (*2207*) AddTo (T 10) (Plain (Copy (IT 3)));
  (*2208*) AddTo (T 10) (Times (Copy (IT 31)) (1) 2);
  (*2209*) AddTo (T 10) (Times (Copy (IT 34)) (1) 2);
  (*2210*) AddTo (T 10) (Plain (Copy (IT 40)));
  (*2211*) AddTo (T 10) (Plain (Copy (IT 44)));
  (*2212*) AddTo (T 10) (Plain (Copy (IT 46)));
  (*2213*) AddTo (T 10) (Plain (Copy (IT 8)));
  (*2214*) AddTo (T 10) (Times (Copy n_f'ov) (-1) 1);
  (*2215*) AddTo (T 10) (Times (Copy (IT 28)) (-1) 1);
  (*2216*) AddTo (T 10) (Times (Copy (IT 4)) (-1) 1);
  (*2217*) AddTo (T 10) (Times (Copy (IT 5)) (-1) 1);
  (*2218*) Assign (T 9) (Plain (Copy (IT 30)));
  (*2219*) AddTo (T 9) (Times (Transpose n_v'ovoo [0;2;3;1]) (-1) 1);
  (*2220*) Assign (T 5) (Times (Copy (IT 12)) (1) 2);
  (*2221*) AddTo (T 5) (Plain (Transpose (IT 14) [0;2;1;3]));
  (*2222*) AddTo (T 5) (Plain (Transpose (IT 21) [0;2;1;3]));
  (*2223*) AddTo (T 5) (Times (Copy (IT 36)) (1) 4);
  (*2224*) AddTo (T 5) (Times (Copy (IT 48)) (1) 2);
  (*2225*) AddTo (T 5) (Times (Transpose (IT 6) [1;2;0;3]) (1) 2);
  (*2226*) AddTo (T 5) (Times (Copy (IT 24)) (-1) 4);
  (*2227*) AddTo (T 5) (Times (Copy (IT 29)) (-1) 2);
  (*2228*) AddTo (T 5) (Times (Copy (IT 32)) (-1) 1);
  (*2229*) AddTo (T 5) (Times (Transpose (IT 42) [0;2;1;3]) (-1) 1);
  (*2230*) AddTo (T 5) (Times (Copy (IT 45)) (-1) 2);
  (*2231*) AddTo (T 5) (Times (Copy n_v'ooov) (-1) 2);
  (*2232*) Assign (T 12) (Plain (Copy (IT 11)));
  (*2233*) AddTo (T 12) (Times (Transpose n_v'ovov [0;2;3;1]) (-1) 1);
  (*2234*) Assign n_r2new (Times (Einsum [(n_v'ovvv,[0;1;2;3]); (T 7,[4;5;0;1])] [5;4;2;3]) (-1) 1);
  (*2235*) AddTo n_r2new (Times (Einsum [(n_v'vvvv,[0;1;2;3]); (n_r2,[4;5;2;3])] [4;5;0;1]) (1) 2);
  (*2236*) AddTo n_r2new (Plain (Copy (T 22)));
  (*2237*) AddTo n_r2new (Times (Transpose (T 22) [0;1;3;2]) (-1) 1);
  (*2238*) AddTo n_r2new (Times (Transpose (T 22) [1;0;2;3]) (-1) 1);
  (*2239*) AddTo n_r2new (Plain (Transpose (T 22) [1;0;3;2]));
  (*2240*) Del (T 22);
  (*2241*) AddTo n_r2new (Plain (Copy (T 25)));
  (*2242*) AddTo n_r2new (Times (Transpose (T 25) [0;1;3;2]) (-1) 1);
  (*2243*) Del (T 25);
  (*2244*) AddTo n_r2new (Plain (Copy (T 28)));
  (*2245*) AddTo n_r2new (Times (Transpose (T 28) [1;0;2;3]) (-1) 1);
  (*2246*) Del (T 28);
  (*2247*) AddTo n_r2new (Times (Transpose (T 32) [1;0;2;3]) (-1) 1);
  (*2248*) AddTo n_r2new (Plain (Transpose (T 32) [1;0;3;2]));
  (*2249*) Del (T 32);
  (*2250*) AddTo n_r2new (Plain (Transpose (T 33) [0;1;3;2]));
  (*2251*) AddTo n_r2new (Times (Transpose (T 33) [1;0;3;2]) (-1) 1);
  (*2252*) Del (T 33);
  (*2253*) AddTo n_r2new (Plain (Transpose (T 35) [1;0;2;3]));
  (*2254*) AddTo n_r2new (Times (Transpose (T 35) [1;0;3;2]) (-1) 1);
  (*2255*) Del (T 35);
  (*2256*) AddTo n_r2new (Plain (Einsum [(T 36,[0;1;2;3]); (n_r2,[0;1;4;5])] [2;3;4;5]));
  (*2257*) Del (T 36);
  (*2258*) AddTo n_r2new (Times (Einsum [(n_v'oovv,[0;1;2;3]); (T 37,[4;5;0;1])] [5;4;2;3]) (1) 2);
  (*2259*) Del (T 37);
  (*2260*) Assign n_r1new (Times (Einsum [(IT 30,[0;1;2;3]); (T 1,[0;2])] [1;3]) (-1) 2);
  (*2261*) Del (T 1);
  (*2262*) AddTo n_r1new (Times (Einsum [(T 2,[0;1]); (IT 30,[0;2;1;3])] [2;3]) (-1) 1);
  (*2263*) Del (T 2);
  (*2264*) AddTo n_r1new (Times (Einsum [(n_v'ovvv,[0;1;2;3]); (T 3,[1;3])] [0;2]) (1) 2);
  (*2265*) Del (T 3);
  (*2266*) AddTo n_r1new (Plain (Einsum [(n_r2,[0;1;2;3]); (T 4,[1;2;3;4])] [0;4]));
  (*2267*) Del (T 4);
  (*2268*) AddTo n_r1new (Plain (Einsum [(T 5,[0;1;2;3]); (n_r2,[0;1;4;3])] [2;4]));
  (*2269*) Del (T 5);
  (*2270*) AddTo n_r1new (Times (Einsum [(T 6,[0;1;2;3]); (T 7,[0;4;1;2])] [4;3]) (-1) 1);
  (*2271*) Del (T 7);
  (*2271*) Del (T 6);
  (*2272*) AddTo n_r1new (Times (Einsum [(T 8,[0;1;2;3]); (T 9,[1;3;2;4])] [0;4]) (-1) 2);
  (*2273*) Del (T 8);
  (*2273*) Del (T 9);
  (*2274*) AddTo n_r1new (Times (Einsum [(n_r2,[0;1;2;3]); (T 10,[1;3])] [0;2]) (-1) 1);
  (*2275*) Del (T 10);
  (*2276*) AddTo n_r1new (Plain (Einsum [(T 11,[0;1]); (n_v'oovv,[2;0;3;1])] [2;3]));
  (*2277*) Del (T 11);
  (*2278*) AddTo n_r1new (Plain (Einsum [(T 12,[0;1;2;3]); (n_r1,[0;2])] [1;3]));
  (*2279*) Del (T 12);
  (*2280*) AddTo n_r1new (Times (Einsum [(T 13,[0;1]); (n_v'ooov,[2;1;0;3])] [2;3]) (1) 2);
  (*2281*) AddTo n_r1new (Times (Einsum [(n_r1,[0;1]); (T 14,[1;2])] [0;2]) (-1) 1);
  (*2282*) Del (T 14);
  (*2283*) AddTo n_r1new (Times (Einsum [(T 15,[0;1]); (n_r1,[0;2])] [1;2]) (-1) 1);
  (*2284*) Del (T 15);
  (*2285*) AddTo n_r1new (Times (Einsum [(T 16,[0;1]); (T 13,[2;0])] [2;1]) (-1) 2);
  (*2286*) Del (T 13);
  (*2286*) Del (T 16)]
 [(n_r1new,[0;1]); (n_r2new,[0;0;1;1])].

