(** Generated by tools/translate_codegen.py from ebcc/codegen/GCC2.py; one statement per source line
    (the number in the comment before it). *)
From Coq Require Import ZArith List.
From Verif Require Import CgModel CgNames.
Import ListNotations.

(** ebcc/codegen/GCC2.py:19-46 [energy] *)
Definition GCC2_energy : prog := mkprog
 [(n_t2,[0;0;1;1]); (n_t1,[0;1]); (n_f'ov,[0;1]); (n_v'oovv,[0;0;1;1])]
 [(*40*) Assign (T 1) (Plain (Copy n_t2));
  (*41*) AddTo (T 1) (Times (Einsum [(n_t1,[0;1]); (n_t1,[2;3])] [2;0;3;1]) (2) 1);
  (*42*) Assign n_e_cc (Plain (Einsum [(n_f'ov,[0;1]); (n_t1,[0;1])] []));
  (*43*) AddTo n_e_cc (Times (Einsum [(n_v'oovv,[0;1;2;3]); (T 1,[0;1;2;3])] []) (1) 4);
  (*44*) Del (T 1)]
 [(n_e_cc,[])].

(** ebcc/codegen/GCC2.py:48-159 [update_amps] *)
Definition GCC2_update_amps : prog := mkprog
 [(n_v'ooov,[0;0;0;1]); (n_t1,[0;1]); (n_v'oovv,[0;0;1;1]); (n_f'ov,[0;1]); (n_v'ovvv,[0;1;1;1]); (n_v'oooo,[0;0;0;0]); (n_t2,[0;0;1;1]); (n_v'ovov,[0;1;0;1]); (n_v'vvvv,[1;1;1;1]); (n_f'vv,[1;1]); (n_f'oo,[0;0]); (n_v'ovoo,[0;1;0;0])]
 [(*71*) Assign (T 17) (Plain (Einsum [(n_v'ooov,[0;1;2;3]); (n_t1,[4;3])] [4;0;1;2]));
  (*72*) Assign (T 1) (Plain (Einsum [(n_v'oovv,[0;1;2;3]); (n_t1,[4;3])] [4;0;1;2]));
  (*73*) Assign (T 18) (Times (Einsum [(T 17,[0;1;2;3]); (n_t1,[1;4])] [0;2;3;4]) (-1) 1);
  (*74*) Del (T 17);
  (*75*) Assign (T 5) (Plain (Einsum [(n_t1,[0;1]); (n_f'ov,[2;1])] [2;0]));
  (*76*) Assign (T 9) (Plain (Einsum [(n_v'ovvv,[0;1;2;3]); (n_t1,[4;3])] [4;0;1;2]));
  (*77*) Assign (T 24) (Plain (Copy n_v'oooo));
  (*78*) AddTo (T 24) (Times (Einsum [(n_t1,[0;1]); (T 1,[2;3;4;1])] [4;3;0;2]) (-1) 1);
  (*79*) Assign (T 12) (Plain (Einsum [(n_t2,[0;1;2;3]); (n_f'ov,[4;3])] [4;0;1;2]));
  (*80*) Assign (T 14) (Plain (Einsum [(n_v'ovov,[0;1;2;3]); (n_t1,[4;3])] [4;0;2;1]));
  (*81*) Assign (T 19) (Times (Einsum [(n_t1,[0;1]); (T 18,[2;0;3;4])] [2;3;4;1]) (-1) 1);
  (*82*) Del (T 18);
  (*83*) Assign (T 16) (Plain (Einsum [(n_t2,[0;1;2;3]); (T 5,[1;4])] [4;0;2;3]));
  (*84*) Assign (T 10) (Times (Einsum [(n_t1,[0;1]); (T 9,[2;3;4;1])] [2;0;3;4]) (-1) 1);
  (*85*) Del (T 9);
  (*86*) Assign (T 6) (Plain (Copy n_t2));
  (*87*) AddTo (T 6) (Times (Einsum [(n_t1,[0;1]); (n_t1,[2;3])] [2;0;3;1]) (2) 1);
  (*88*) Assign (T 25) (Times (Copy n_v'ooov) (-1) 1);
  (*89*) AddTo (T 25) (Times (Einsum [(T 24,[0;1;2;3]); (n_t1,[0;4])] [2;3;1;4]) (-1) 1);
  (*90*) Del (T 24);
  (*91*) Assign (T 22) (Plain (Einsum [(n_v'ovvv,[0;1;2;3]); (n_t1,[4;1])] [4;0;2;3]));
  (*92*) Assign (T 8) (Plain (Einsum [(n_t1,[0;1]); (n_v'vvvv,[2;3;4;1])] [0;2;3;4]));
  (*93*) Assign (T 21) (Plain (Einsum [(n_t2,[0;1;2;3]); (n_f'vv,[4;3])] [0;1;4;2]));
  (*94*) Assign (T 23) (Plain (Einsum [(n_t2,[0;1;2;3]); (n_f'oo,[4;1])] [4;0;2;3]));
  (*95*) Assign (T 13) (Plain (Einsum [(n_t1,[0;1]); (T 12,[0;2;3;4])] [2;3;1;4]));
  (*96*) Del (T 12);
  (*97*) Assign (T 15) (Plain (Einsum [(n_t1,[0;1]); (T 14,[2;0;3;4])] [2;3;1;4]));
  (*98*) Del (T 14);
  (*99*) Assign (T 20) (Times (Transpose (T 16) [0;1;3;2]) (-1) 1);
  (*100*) Del (T 16);
  (*101*) AddTo (T 20) (Plain (Transpose (T 19) [0;1;3;2]));
  (*102*) Del (T 19);
  (*103*) Assign (T 11) (Times (Einsum [(T 10,[0;1;2;3]); (n_t1,[2;4])] [1;0;4;3]) (-1) 1);
  (*104*) Del (T 10);
  (*105*) Assign (T 3) (Times (Copy n_t2) (1) 2);
  (*106*) AddTo (T 3) (Plain (Einsum [(n_t1,[0;1]); (n_t1,[2;3])] [2;0;3;1]));
  (*107*) Assign (T 4) (Plain (Copy n_f'ov));
  (*108*) AddTo (T 4) (Plain (Einsum [(n_t1,[0;1]); (n_v'oovv,[2;0;3;1])] [2;3]));
  (*109*) Assign (T 2) (Times (Transpose n_v'ovoo [0;2;3;1]) (-1) 1);
  (*110*) AddTo (T 2) (Times (Transpose (T 1) [0;2;1;3]) (-1) 1);
  (*111*) Del (T 1);
  (*112*) Assign (T 7) (Plain (Copy n_f'oo));
  (*113*) AddTo (T 7) (Plain (Copy (T 5)));
  (*114*) Del (T 5);
  (*115*) AddTo (T 7) (Plain (Einsum [(n_v'ooov,[0;1;2;3]); (n_t1,[1;3])] [0;2]));
  (*116*) AddTo (T 7) (Times (Einsum [(T 6,[0;1;2;3]); (n_v'oovv,[4;0;2;3])] [4;1]) (-1) 2);
  (*117*) Del (T 6);
  (*118*) Assign n_t2new (Times (Einsum [(T 8,[0;1;2;3]); (n_t1,[4;3])] [4;0;2;1]) (-1) 1);
  (*119*) Del (T 8);
  (*120*) AddTo n_t2new (Plain (Copy n_v'oovv));
  (*121*) AddTo n_t2new (Plain (Einsum [(n_v'ooov,[0;1;2;3]); (n_t1,[2;4])] [0;1;3;4]));
  (*122*) AddTo n_t2new (Times (Copy (T 11)) (-1) 1);
  (*123*) AddTo n_t2new (Plain (Transpose (T 11) [0;1;3;2]));
  (*124*) Del (T 11);
  (*125*) AddTo n_t2new (Plain (Copy (T 13)));
  (*126*) AddTo n_t2new (Times (Transpose (T 13) [0;1;3;2]) (-1) 1);
  (*127*) Del (T 13);
  (*128*) AddTo n_t2new (Plain (Copy (T 15)));
  (*129*) AddTo n_t2new (Times (Transpose (T 15) [0;1;3;2]) (-1) 1);
  (*130*) AddTo n_t2new (Times (Transpose (T 15) [1;0;2;3]) (-1) 1);
  (*131*) AddTo n_t2new (Plain (Transpose (T 15) [1;0;3;2]));
  (*132*) Del (T 15);
  (*133*) AddTo n_t2new (Plain (Copy (T 20)));
  (*134*) AddTo n_t2new (Times (Transpose (T 20) [1;0;2;3]) (-1) 1);
  (*135*) Del (T 20);
  (*136*) AddTo n_t2new (Plain (Transpose (T 21) [1;0;2;3]));
  (*137*) AddTo n_t2new (Times (Transpose (T 21) [1;0;3;2]) (-1) 1);
  (*138*) Del (T 21);
  (*139*) AddTo n_t2new (Plain (Transpose (T 22) [0;1;3;2]));
  (*140*) AddTo n_t2new (Times (Transpose (T 22) [1;0;3;2]) (-1) 1);
  (*141*) Del (T 22);
  (*142*) AddTo n_t2new (Times (Transpose (T 23) [0;1;3;2]) (-1) 1);
  (*143*) AddTo n_t2new (Plain (Transpose (T 23) [1;0;3;2]));
  (*144*) Del (T 23);
  (*145*) AddTo n_t2new (Plain (Einsum [(n_t1,[0;1]); (T 25,[2;3;0;4])] [2;3;1;4]));
  (*146*) Del (T 25);
  (*147*) Assign n_t1new (Plain (Copy n_f'ov));
  (*148*) AddTo n_t1new (Plain (Einsum [(n_f'vv,[0;1]); (n_t1,[2;1])] [2;0]));
  (*149*) AddTo n_t1new (Times (Einsum [(n_t1,[0;1]); (n_v'ovov,[2;1;0;3])] [2;3]) (-1) 1);
  (*150*) AddTo n_t1new (Times (Einsum [(T 2,[0;1;2;3]); (n_t2,[1;2;4;3])] [0;4]) (1) 2);
  (*151*) Del (T 2);
  (*152*) AddTo n_t1new (Plain (Einsum [(n_v'ovvv,[0;1;2;3]); (T 3,[0;4;2;3])] [4;1]));
  (*153*) Del (T 3);
  (*154*) AddTo n_t1new (Plain (Einsum [(T 4,[0;1]); (n_t2,[2;0;3;1])] [2;3]));
  (*155*) Del (T 4);
  (*156*) AddTo n_t1new (Times (Einsum [(n_t1,[0;1]); (T 7,[0;2])] [2;1]) (-1) 1);
  (*157*) Del (T 7)]
 [(n_t1new,[0;1]); (n_t2new,[0;0;1;1])].

(** ebcc/codegen/GCC2.py:161-360 [update_lams] *)
Definition GCC2_update_lams : prog := mkprog
 [(n_v'oovv,[0;0;1;1]); (n_t1,[0;1]); (n_v'ovvv,[0;1;1;1]); (n_l2,[1;1;0;0]); (n_f'ov,[0;1]); (n_v'ooov,[0;0;0;1]); (n_l1,[1;0]); (n_v'ovoo,[0;1;0;0]); (n_v'ovov,[0;1;0;1]); (n_t2,[0;0;1;1]); (n_f'oo,[0;0]); (n_f'vv,[1;1]); (n_v'oooo,[0;0;0;0]); (n_v'vvvv,[1;1;1;1])]
 [(*188*) Assign (T 6) (Plain (Einsum [(n_v'oovv,[0;1;2;3]); (n_t1,[4;3])] [4;0;1;2]));
  (*189*) Assign (T 3) (Plain (Einsum [(n_v'ovvv,[0;1;2;3]); (n_t1,[4;3])] [4;0;1;2]));
  (*190*) Assign (T 1) (Plain (Einsum [(n_t1,[0;1]); (n_l2,[2;1;3;4])] [3;4;0;2]));
  (*191*) Assign (T 34) (Plain (Einsum [(n_t1,[0;1]); (n_f'ov,[2;1])] [2;0]));
  (*192*) Assign (T 24) (Plain (Einsum [(n_v'ooov,[0;1;2;3]); (n_t1,[1;3])] [0;2]));
  (*193*) Assign (T 18) (Plain (Einsum [(n_t1,[0;1]); (n_l1,[1;2])] [2;0]));
  (*194*) Assign (T 7) (Times (Transpose n_v'ovoo [0;2;3;1]) (-1) 1);
  (*195*) AddTo (T 7) (Times (Transpose (T 6) [0;2;1;3]) (-1) 1);
  (*196*) Assign (T 22) (Plain (Einsum [(n_v'ovvv,[0;1;2;3]); (n_t1,[0;3])] [1;2]));
  (*197*) Assign (T 8) (Plain (Einsum [(n_t1,[0;1]); (n_v'oovv,[2;0;3;1])] [2;3]));
  (*198*) Assign (T 27) (Times (Transpose n_v'ovov [0;2;3;1]) (-1) 1);
  (*199*) AddTo (T 27) (Plain (Copy (T 3)));
  (*200*) Assign (T 11) (Plain (Copy n_v'ooov));
  (*201*) AddTo (T 11) (Times (Transpose (T 6) [2;1;0;3]) (1) 2);
  (*202*) Assign (T 19) (Plain (Einsum [(n_t2,[0;1;2;3]); (n_l2,[2;3;4;1])] [4;0]));
  (*203*) Assign (T 4) (Plain (Einsum [(n_t2,[0;1;2;3]); (n_l2,[2;3;4;5])] [4;5;0;1]));
  (*204*) Assign (T 5) (Plain (Einsum [(T 1,[0;1;2;3]); (n_t1,[4;3])] [1;0;2;4]));
  (*205*) Assign (T 35) (Plain (Einsum [(T 34,[0;1]); (n_l2,[2;3;4;1])] [0;4;2;3]));
  (*206*) Del (T 34);
  (*207*) Assign (T 37) (Plain (Einsum [(n_l2,[0;1;2;3]); (T 24,[4;3])] [2;4;0;1]));
  (*208*) Assign (T 36) (Plain (Einsum [(T 18,[0;1]); (n_v'oovv,[2;1;3;4])] [0;2;3;4]));
  (*209*) Assign (T 30) (Plain (Einsum [(T 1,[0;1;2;3]); (n_f'ov,[2;4])] [0;1;4;3]));
  (*210*) Assign (T 32) (Plain (Einsum [(T 7,[0;1;2;3]); (n_l1,[4;0])] [1;2;4;3]));
  (*211*) Assign (T 31) (Plain (Einsum [(T 22,[0;1]); (n_l2,[2;0;3;4])] [3;4;2;1]));
  (*212*) Assign (T 45) (Plain (Einsum [(T 8,[0;1]); (n_t1,[2;1])] [2;0]));
  (*213*) Assign (T 26) (Plain (Einsum [(T 1,[0;1;2;3]); (n_v'ooov,[4;2;1;5])] [0;4;3;5]));
  (*214*) Assign (T 28) (Plain (Einsum [(n_l2,[0;1;2;3]); (T 27,[3;4;1;5])] [4;2;5;0]));
  (*215*) Del (T 27);
  (*216*) Assign (T 43) (Plain (Einsum [(n_v'ovvv,[0;1;2;3]); (n_l1,[1;4])] [4;0;2;3]));
  (*217*) Assign (T 42) (Plain (Einsum [(n_f'oo,[0;1]); (n_l2,[2;3;4;1])] [0;4;2;3]));
  (*218*) Assign (T 40) (Plain (Einsum [(T 8,[0;1]); (T 1,[2;3;0;4])] [2;3;4;1]));
  (*219*) Assign (T 39) (Plain (Einsum [(n_l2,[0;1;2;3]); (n_f'vv,[4;1])] [2;3;4;0]));
  (*220*) Assign (T 9) (Plain (Copy n_f'ov));
  (*221*) AddTo (T 9) (Plain (Copy (T 8)));
  (*222*) Assign (T 10) (Plain (Transpose n_v'ovov [0;2;1;3]));
  (*223*) AddTo (T 10) (Times (Transpose (T 3) [0;1;3;2]) (-1) 2);
  (*224*) Assign (T 12) (Times (Copy n_v'oooo) (-1) 2);
  (*225*) AddTo (T 12) (Times (Einsum [(n_t2,[0;1;2;3]); (n_v'oovv,[4;5;2;3])] [4;5;0;1]) (-1) 4);
  (*226*) AddTo (T 12) (Times (Einsum [(n_t1,[0;1]); (T 11,[2;3;4;1])] [3;2;0;4]) (-1) 1);
  (*227*) Assign (T 20) (Times (Copy (T 18)) (2) 1);
  (*228*) Del (T 18);
  (*229*) AddTo (T 20) (Plain (Copy (T 19)));
  (*230*) Del (T 19);
  (*231*) Assign (T 15) (Times (Transpose (T 4) [1;0;3;2]) (-1) 2);
  (*232*) AddTo (T 15) (Plain (Transpose (T 5) [0;1;3;2]));
  (*233*) Assign (T 38) (Times (Transpose (T 35) [0;1;3;2]) (-1) 1);
  (*234*) Del (T 35);
  (*235*) AddTo (T 38) (Times (Transpose (T 36) [0;1;3;2]) (-1) 1);
  (*236*) Del (T 36);
  (*237*) AddTo (T 38) (Plain (Transpose (T 37) [0;1;3;2]));
  (*238*) Del (T 37);
  (*239*) Assign (T 33) (Times (Copy (T 30)) (-1) 1);
  (*240*) Del (T 30);
  (*241*) AddTo (T 33) (Plain (Copy (T 31)));
  (*242*) Del (T 31);
  (*243*) AddTo (T 33) (Plain (Transpose (T 32) [1;0;2;3]));
  (*244*) Del (T 32);
  (*245*) Assign (T 48) (Plain (Copy n_v'oooo));
  (*246*) AddTo (T 48) (Times (Einsum [(n_t1,[0;1]); (T 11,[2;3;4;1])] [4;0;3;2]) (-2) 1);
  (*247*) Del (T 11);
  (*248*) Assign (T 47) (Times (Einsum [(T 6,[0;1;2;3]); (T 1,[0;4;2;5])] [4;1;5;3]) (-1) 1);
  (*249*) Del (T 6);
  (*250*) Assign (T 46) (Plain (Einsum [(n_l2,[0;1;2;3]); (T 45,[3;4])] [2;4;0;1]));
  (*251*) Del (T 45);
  (*252*) Assign (T 29) (Plain (Einsum [(T 8,[0;1]); (n_l1,[2;3])] [3;0;2;1]));
  (*253*) Del (T 8);
  (*254*) AddTo (T 29) (Plain (Copy (T 26)));
  (*255*) Del (T 26);
  (*256*) AddTo (T 29) (Plain (Transpose (T 28) [1;0;3;2]));
  (*257*) Del (T 28);
  (*258*) Assign (T 44) (Times (Transpose (T 42) [0;1;3;2]) (-1) 1);
  (*259*) Del (T 42);
  (*260*) AddTo (T 44) (Plain (Transpose (T 43) [0;1;3;2]));
  (*261*) Del (T 43);
  (*262*) Assign (T 41) (Times (Transpose (T 39) [1;0;2;3]) (-1) 1);
  (*263*) Del (T 39);
  (*264*) AddTo (T 41) (Plain (Copy (T 40)));
  (*265*) Del (T 40);
  (*266*) Assign (T 13) (Times (Transpose n_v'ovoo [0;2;3;1]) (-1) 2);
  (*267*) AddTo (T 13) (Times (Einsum [(n_v'ovvv,[0;1;2;3]); (n_t2,[4;5;2;3])] [0;4;5;1]) (-1) 4);
  (*268*) AddTo (T 13) (Plain (Einsum [(T 7,[0;1;2;3]); (n_t2,[4;1;5;3])] [2;4;0;5]));
  (*269*) Del (T 7);
  (*270*) AddTo (T 13) (Times (Einsum [(n_t2,[0;1;2;3]); (T 9,[4;3])] [4;0;1;2]) (1) 2);
  (*271*) AddTo (T 13) (Times (Einsum [(T 10,[0;1;2;3]); (n_t1,[4;2])] [1;0;4;3]) (-1) 1);
  (*272*) Del (T 10);
  (*273*) AddTo (T 13) (Times (Einsum [(T 12,[0;1;2;3]); (n_t1,[0;4])] [1;3;2;4]) (-1) 1);
  (*274*) Del (T 12);
  (*275*) Assign (T 14) (Plain (Copy n_v'ovvv));
  (*276*) AddTo (T 14) (Times (Einsum [(n_v'vvvv,[0;1;2;3]); (n_t1,[4;1])] [4;0;2;3]) (-1) 1);
  (*277*) Assign (T 21) (Times (Copy n_t1) (-1) 1);
  (*278*) AddTo (T 21) (Times (Einsum [(n_l1,[0;1]); (n_t2,[2;1;3;0])] [2;3]) (-1) 1);
  (*279*) AddTo (T 21) (Times (Einsum [(T 1,[0;1;2;3]); (n_t2,[1;0;4;3])] [2;4]) (1) 2);
  (*280*) AddTo (T 21) (Times (Einsum [(T 20,[0;1]); (n_t1,[0;2])] [1;2]) (1) 2);
  (*281*) Assign (T 17) (Times (Einsum [(n_l1,[0;1]); (n_t1,[1;2])] [0;2]) (2) 1);
  (*282*) AddTo (T 17) (Plain (Einsum [(n_l2,[0;1;2;3]); (n_t2,[2;3;4;1])] [0;4]));
  (*283*) Assign (T 16) (Times (Einsum [(n_l1,[0;1]); (n_t2,[2;3;4;0])] [1;2;3;4]) (1) 2);
  (*284*) AddTo (T 16) (Times (Einsum [(T 1,[0;1;2;3]); (n_t2,[4;1;5;3])] [0;4;2;5]) (-1) 1);
  (*285*) AddTo (T 16) (Times (Einsum [(T 15,[0;1;2;3]); (n_t1,[0;4])] [1;3;2;4]) (-1) 2);
  (*286*) Del (T 15);
  (*287*) Assign (T 23) (Plain (Copy n_f'vv));
  (*288*) AddTo (T 23) (Times (Copy (T 22)) (-1) 1);
  (*289*) Del (T 22);
  (*290*) Assign (T 25) (Times (Copy n_f'oo) (2) 1);
  (*291*) AddTo (T 25) (Times (Transpose (T 24) [1;0]) (2) 1);
  (*292*) Del (T 24);
  (*293*) AddTo (T 25) (Plain (Einsum [(n_t2,[0;1;2;3]); (n_v'oovv,[4;1;2;3])] [0;4]));
  (*294*) AddTo (T 25) (Times (Einsum [(T 9,[0;1]); (n_t1,[2;1])] [2;0]) (2) 1);
  (*295*) Assign (T 2) (Plain (Einsum [(n_t2,[0;1;2;3]); (n_l2,[4;3;5;1])] [5;0;4;2]));
  (*296*) Assign n_l2new (Plain (Einsum [(T 1,[0;1;2;3]); (n_v'ovvv,[2;3;4;5])] [4;5;0;1]));
  (*297*) AddTo n_l2new (Times (Einsum [(n_v'vvvv,[0;1;2;3]); (n_l2,[2;3;4;5])] [0;1;4;5]) (1) 2);
  (*298*) AddTo n_l2new (Plain (Transpose n_v'oovv [2;3;0;1]));
  (*299*) AddTo n_l2new (Times (Einsum [(T 5,[0;1;2;3]); (n_v'oovv,[3;2;4;5])] [4;5;1;0]) (1) 2);
  (*300*) AddTo n_l2new (Plain (Transpose (T 29) [2;3;0;1]));
  (*301*) AddTo n_l2new (Times (Transpose (T 29) [3;2;0;1]) (-1) 1);
  (*302*) AddTo n_l2new (Times (Transpose (T 29) [2;3;1;0]) (-1) 1);
  (*303*) AddTo n_l2new (Plain (Transpose (T 29) [3;2;1;0]));
  (*304*) Del (T 29);
  (*305*) AddTo n_l2new (Times (Transpose (T 33) [2;3;0;1]) (-1) 1);
  (*306*) AddTo n_l2new (Plain (Transpose (T 33) [3;2;0;1]));
  (*307*) Del (T 33);
  (*308*) AddTo n_l2new (Times (Transpose (T 38) [3;2;0;1]) (-1) 1);
  (*309*) AddTo n_l2new (Plain (Transpose (T 38) [3;2;1;0]));
  (*310*) Del (T 38);
  (*311*) AddTo n_l2new (Plain (Einsum [(n_l1,[0;1]); (n_f'ov,[2;3])] [3;0;2;1]));
  (*312*) AddTo n_l2new (Times (Einsum [(n_l1,[0;1]); (n_f'ov,[2;3])] [0;3;2;1]) (-1) 1);
  (*313*) AddTo n_l2new (Times (Einsum [(n_f'ov,[0;1]); (n_l1,[2;3])] [1;2;3;0]) (-1) 1);
  (*314*) AddTo n_l2new (Plain (Einsum [(n_l1,[0;1]); (n_f'ov,[2;3])] [0;3;1;2]));
  (*315*) AddTo n_l2new (Times (Transpose (T 41) [2;3;0;1]) (-1) 1);
  (*316*) AddTo n_l2new (Plain (Transpose (T 41) [3;2;0;1]));
  (*317*) Del (T 41);
  (*318*) AddTo n_l2new (Plain (Transpose (T 44) [2;3;0;1]));
  (*319*) AddTo n_l2new (Times (Transpose (T 44) [2;3;1;0]) (-1) 1);
  (*320*) Del (T 44);
  (*321*) AddTo n_l2new (Times (Transpose (T 46) [2;3;0;1]) (-1) 1);
  (*322*) AddTo n_l2new (Plain (Transpose (T 46) [2;3;1;0]));
  (*323*) Del (T 46);
  (*324*) AddTo n_l2new (Times (Transpose (T 47) [2;3;0;1]) (-1) 1);
  (*325*) AddTo n_l2new (Plain (Transpose (T 47) [3;2;0;1]));
  (*326*) AddTo n_l2new (Plain (Transpose (T 47) [2;3;1;0]));
  (*327*) AddTo n_l2new (Times (Transpose (T 47) [3;2;1;0]) (-1) 1);
  (*328*) Del (T 47);
  (*329*) AddTo n_l2new (Times (Einsum [(n_l2,[0;1;2;3]); (T 48,[2;3;4;5])] [0;1;4;5]) (1) 2);
  (*330*) Del (T 48);
  (*331*) Assign n_l1new (Times (Einsum [(T 1,[0;1;2;3]); (n_v'ovov,[2;3;1;4])] [4;0]) (-1) 1);
  (*332*) AddTo n_l1new (Plain (Transpose n_f'ov [1;0]));
  (*333*) AddTo n_l1new (Times (Einsum [(n_v'ovvv,[0;1;2;3]); (T 2,[4;0;1;3])] [2;4]) (-1) 1);
  (*334*) Del (T 2);
  (*335*) AddTo n_l1new (Plain (Einsum [(T 1,[0;1;2;3]); (T 3,[1;2;3;4])] [4;0]));
  (*336*) Del (T 3);
  (*336*) Del (T 1);
  (*337*) AddTo n_l1new (Times (Einsum [(n_l1,[0;1]); (n_v'ovov,[2;0;1;3])] [3;2]) (-1) 1);
  (*338*) AddTo n_l1new (Times (Einsum [(n_v'ovoo,[0;1;2;3]); (T 4,[4;0;3;2])] [1;4]) (1) 4);
  (*339*) Del (T 4);
  (*340*) AddTo n_l1new (Times (Einsum [(n_v'ooov,[0;1;2;3]); (T 5,[4;2;0;1])] [3;4]) (-1) 2);
  (*341*) Del (T 5);
  (*342*) AddTo n_l1new (Plain (Einsum [(T 13,[0;1;2;3]); (n_l2,[4;3;1;2])] [4;0]));
  (*343*) Del (T 13);
  (*344*) AddTo n_l1new (Times (Einsum [(T 14,[0;1;2;3]); (n_l2,[2;3;4;0])] [1;4]) (-1) 2);
  (*345*) Del (T 14);
  (*346*) AddTo n_l1new (Plain (Einsum [(T 16,[0;1;2;3]); (n_v'oovv,[1;2;4;3])] [4;0]));
  (*347*) Del (T 16);
  (*348*) AddTo n_l1new (Times (Einsum [(n_v'ovvv,[0;1;2;3]); (T 17,[1;3])] [2;0]) (1) 2);
  (*349*) Del (T 17);
  (*350*) AddTo n_l1new (Times (Einsum [(T 21,[0;1]); (n_v'oovv,[2;0;3;1])] [3;2]) (-1) 1);
  (*351*) Del (T 21);
  (*352*) AddTo n_l1new (Times (Einsum [(n_v'ooov,[0;1;2;3]); (T 20,[2;1])] [3;0]) (1) 2);
  (*353*) AddTo n_l1new (Plain (Einsum [(n_l1,[0;1]); (T 23,[0;2])] [2;1]));
  (*354*) Del (T 23);
  (*355*) AddTo n_l1new (Times (Einsum [(n_l1,[0;1]); (T 25,[1;2])] [0;2]) (-1) 2);
  (*356*) Del (T 25);
  (*357*) AddTo n_l1new (Times (Einsum [(T 9,[0;1]); (T 20,[2;0])] [1;2]) (-1) 2);
  (*358*) Del (T 9);
  (*358*) Del (T 20)]
 [(n_l1new,[1;0]); (n_l2new,[1;1;0;0])].

(** ebcc/codegen/GCC2.py:362-410 [make_rdm1_f]; assembly (line 408) not translated *)
Definition GCC2_make_rdm1_f : prog := mkprog
 [(n_t2,[0;0;1;1]); (n_t1,[0;1]); (n_l1,[1;0]); (n_l2,[1;1;0;0])]
 [(*384*) Assign n_delta'oo (Plain (Eye 0));
  (*384*) Assign n_delta'vv (Plain (Eye 1));
  (*388*) Assign (T 2) (Plain (Einsum [(n_t1,[0;1]); (n_l1,[1;2])] [2;0]));
  (*389*) Assign (T 1) (Plain (Einsum [(n_l2,[0;1;2;3]); (n_t2,[4;3;0;1])] [2;4]));
  (*390*) Assign (T 3) (Plain (Einsum [(n_t1,[0;1]); (n_l2,[2;1;3;4])] [3;4;0;2]));
  (*391*) Assign (T 4) (Times (Copy (T 2)) (2) 1);
  (*392*) AddTo (T 4) (Plain (Copy (T 1)));
  (*393*) Assign n_rdm1'vv (Plain (Einsum [(n_l1,[0;1]); (n_t1,[1;2])] [0;2]));
  (*394*) AddTo n_rdm1'vv (Times (Einsum [(n_l2,[0;1;2;3]); (n_t2,[2;3;4;1])] [0;4]) (1) 2);
  (*395*) Assign n_rdm1'vo (Plain (Copy n_l1));
  (*396*) Assign n_rdm1'ov (Plain (Einsum [(n_l1,[0;1]); (n_t2,[2;1;3;0])] [2;3]));
  (*397*) AddTo n_rdm1'ov (Times (Einsum [(n_t2,[0;1;2;3]); (T 3,[1;0;4;3])] [4;2]) (-1) 2);
  (*398*) Del (T 3);
  (*399*) AddTo n_rdm1'ov (Plain (Copy n_t1));
  (*400*) AddTo n_rdm1'ov (Times (Einsum [(T 4,[0;1]); (n_t1,[0;2])] [1;2]) (-1) 2);
  (*401*) Del (T 4);
  (*402*) Assign n_rdm1'oo (Plain (Copy n_delta'oo));
  (*403*) Del n_delta'oo;
  (*403*) Del n_delta'vv;
  (*404*) AddTo n_rdm1'oo (Times (Transpose (T 1) [1;0]) (-1) 2);
  (*405*) Del (T 1);
  (*406*) AddTo n_rdm1'oo (Times (Transpose (T 2) [1;0]) (-1) 1);
  (*407*) Del (T 2)]
 [(n_rdm1'oo,[0;0]); (n_rdm1'ov,[0;1]); (n_rdm1'vo,[1;0]); (n_rdm1'vv,[1;1])].

(** ebcc/codegen/GCC2.py:412-631 [make_rdm2_f]; assembly (line 628) not translated *)
Definition GCC2_make_rdm2_f : prog := mkprog
 [(n_t2,[0;0;1;1]); (n_t1,[0;1]); (n_l2,[1;1;0;0]); (n_l1,[1;0])]
 [(*434*) Assign n_delta'oo (Plain (Eye 0));
  (*434*) Assign n_delta'vv (Plain (Eye 1));
  (*438*) Assign (T 2) (Plain (Einsum [(n_t1,[0;1]); (n_l2,[2;1;3;4])] [3;4;0;2]));
  (*439*) Assign (T 5) (Plain (Einsum [(n_t1,[0;1]); (n_l1,[1;2])] [2;0]));
  (*440*) Assign (T 4) (Plain (Einsum [(n_l2,[0;1;2;3]); (n_t2,[4;3;0;1])] [2;4]));
  (*441*) Assign (T 20) (Plain (Einsum [(n_l2,[0;1;2;3]); (n_t2,[4;3;5;1])] [2;4;0;5]));
  (*442*) Assign (T 6) (Plain (Einsum [(n_t2,[0;1;2;3]); (n_l1,[3;4])] [4;0;1;2]));
  (*443*) Assign (T 3) (Plain (Einsum [(n_t1,[0;1]); (T 2,[2;3;4;1])] [2;3;0;4]));
  (*444*) Assign (T 1) (Plain (Einsum [(n_t2,[0;1;2;3]); (n_l2,[2;3;4;5])] [4;5;0;1]));
  (*445*) Assign (T 13) (Times (Einsum [(T 2,[0;1;2;3]); (n_t2,[4;1;5;3])] [0;2;4;5]) (-1) 1);
  (*446*) Assign (T 8) (Plain (Einsum [(n_t1,[0;1]); (T 5,[0;2])] [2;1]));
  (*447*) Assign (T 7) (Plain (Einsum [(n_l1,[0;1]); (n_t2,[2;1;3;0])] [2;3]));
  (*448*) Assign (T 15) (Times (Copy (T 5)) (2) 1);
  (*449*) AddTo (T 15) (Plain (Copy (T 4)));
  (*450*) Assign (T 23) (Plain (Einsum [(n_l2,[0;1;2;3]); (n_t2,[2;3;4;1])] [0;4]));
  (*451*) Assign (T 31) (Plain (Einsum [(n_l1,[0;1]); (n_t1,[1;2])] [0;2]));
  (*452*) Assign (T 30) (Plain (Einsum [(T 2,[0;1;2;3]); (n_t1,[1;4])] [0;2;3;4]));
  (*453*) Assign (T 37) (Plain (Einsum [(n_t1,[0;1]); (T 20,[0;2;3;4])] [2;3;1;4]));
  (*454*) Assign (T 19) (Plain (Einsum [(n_t1,[0;1]); (T 6,[0;2;3;4])] [2;3;1;4]));
  (*455*) Assign (T 21) (Plain (Einsum [(n_t2,[0;1;2;3]); (T 20,[1;4;3;5])] [4;0;5;2]));
  (*456*) Assign (T 14) (Times (Transpose (T 1) [1;0;3;2]) (-1) 2);
  (*457*) AddTo (T 14) (Plain (Transpose (T 3) [0;1;3;2]));
  (*458*) Assign (T 26) (Plain (Einsum [(T 13,[0;1;2;3]); (n_t1,[0;4])] [1;2;4;3]));
  (*459*) Assign (T 9) (Plain (Copy (T 7)));
  (*460*) AddTo (T 9) (Times (Copy (T 8)) (-1) 1);
  (*461*) Del (T 8);
  (*462*) Assign (T 11) (Plain (Einsum [(T 4,[0;1]); (n_t1,[0;2])] [1;2]));
  (*463*) Assign (T 10) (Plain (Einsum [(T 2,[0;1;2;3]); (n_t2,[1;0;4;3])] [2;4]));
  (*464*) Assign (T 16) (Times (Einsum [(n_t1,[0;1]); (T 15,[0;2])] [2;1]) (1) 2);
  (*465*) Del (T 15);
  (*466*) Assign (T 39) (Plain (Einsum [(n_t1,[0;1]); (n_l2,[2;3;4;0])] [4;2;3;1]));
  (*467*) Assign (T 32) (Plain (Copy (T 31)));
  (*468*) AddTo (T 32) (Times (Copy (T 23)) (1) 2);
  (*469*) Assign (T 34) (Plain (Einsum [(n_l1,[0;1]); (n_t2,[2;1;3;4])] [2;0;3;4]));
  (*470*) Assign (T 35) (Times (Einsum [(T 2,[0;1;2;3]); (n_t2,[1;0;4;5])] [2;3;4;5]) (-1) 1);
  (*471*) Assign (T 36) (Times (Einsum [(n_t1,[0;1]); (T 30,[0;2;3;4])] [2;3;4;1]) (-1) 1);
  (*472*) Assign (T 38) (Plain (Copy (T 37)));
  (*473*) AddTo (T 38) (Times (Einsum [(T 23,[0;1]); (n_t1,[2;3])] [2;0;3;1]) (-1) 2);
  (*474*) Assign (T 33) (Times (Copy (T 31)) (2) 1);
  (*475*) AddTo (T 33) (Plain (Copy (T 23)));
  (*476*) Assign (T 25) (Plain (Einsum [(n_t2,[0;1;2;3]); (T 4,[1;4])] [0;4;2;3]));
  (*477*) Assign (T 22) (Plain (Copy (T 19)));
  (*478*) Del (T 19);
  (*479*) AddTo (T 22) (Plain (Copy (T 21)));
  (*480*) Del (T 21);
  (*481*) Assign (T 29) (Times (Einsum [(T 14,[0;1;2;3]); (n_t1,[0;4])] [1;3;2;4]) (-2) 1);
  (*482*) Assign (T 27) (Plain (Copy (T 26)));
  (*483*) Del (T 26);
  (*484*) AddTo (T 27) (Times (Einsum [(T 9,[0;1]); (n_t1,[2;3])] [2;0;3;1]) (-1) 1);
  (*485*) Assign (T 12) (Plain (Copy (T 10)));
  (*486*) AddTo (T 12) (Plain (Copy (T 11)));
  (*487*) Del (T 11);
  (*488*) Assign (T 24) (Plain (Einsum [(T 23,[0;1]); (n_t2,[2;3;4;0])] [2;3;4;1]));
  (*489*) Del (T 23);
  (*490*) Assign (T 28) (Plain (Einsum [(n_t2,[0;1;2;3]); (T 5,[1;4])] [4;0;2;3]));
  (*491*) Assign (T 18) (Times (Transpose (T 1) [1;0;3;2]) (-1) 1);
  (*492*) AddTo (T 18) (Times (Transpose (T 3) [0;1;3;2]) (2) 1);
  (*493*) Assign (T 17) (Times (Copy (T 7)) (-1) 1);
  (*494*) Del (T 7);
  (*495*) AddTo (T 17) (Times (Copy (T 10)) (1) 2);
  (*496*) Del (T 10);
  (*497*) AddTo (T 17) (Plain (Copy (T 16)));
  (*498*) Del (T 16);
  (*499*) Assign n_rdm2'vvvv (Times (Einsum [(n_t2,[0;1;2;3]); (n_l2,[4;5;0;1])] [4;5;2;3]) (1) 2);
  (*500*) AddTo n_rdm2'vvvv (Plain (Einsum [(T 39,[0;1;2;3]); (n_t1,[0;4])] [1;2;4;3]));
  (*501*) Assign n_rdm2'vvvo (Plain (Transpose (T 39) [2;1;3;0]));
  (*502*) Assign n_rdm2'vvov (Times (Transpose (T 39) [2;1;0;3]) (-1) 1);
  (*503*) Del (T 39);
  (*504*) Assign n_rdm2'vovv (Plain (Transpose (T 34) [1;0;3;2]));
  (*505*) AddTo n_rdm2'vovv (Times (Transpose (T 35) [1;0;3;2]) (1) 2);
  (*506*) AddTo n_rdm2'vovv (Plain (Transpose (T 36) [1;0;3;2]));
  (*507*) AddTo n_rdm2'vovv (Times (Einsum [(n_t1,[0;1]); (T 32,[2;3])] [2;0;1;3]) (-1) 1);
  (*508*) AddTo n_rdm2'vovv (Plain (Einsum [(T 32,[0;1]); (n_t1,[2;3])] [0;2;1;3]));
  (*509*) AddTo n_rdm2'vovv (Plain (Transpose (T 37) [1;0;2;3]));
  (*510*) AddTo n_rdm2'vovv (Times (Transpose (T 37) [1;0;3;2]) (-1) 1);
  (*511*) Del (T 37);
  (*512*) Assign n_rdm2'ovvv (Times (Transpose (T 34) [0;1;3;2]) (-1) 1);
  (*513*) Del (T 34);
  (*514*) AddTo n_rdm2'ovvv (Times (Transpose (T 35) [0;1;3;2]) (-1) 2);
  (*515*) Del (T 35);
  (*516*) AddTo n_rdm2'ovvv (Times (Transpose (T 36) [0;1;3;2]) (-1) 1);
  (*517*) Del (T 36);
  (*518*) AddTo n_rdm2'ovvv (Plain (Einsum [(T 31,[0;1]); (n_t1,[2;3])] [2;0;3;1]));
  (*519*) AddTo n_rdm2'ovvv (Times (Einsum [(T 31,[0;1]); (n_t1,[2;3])] [2;0;1;3]) (-1) 1);
  (*520*) Del (T 31);
  (*521*) AddTo n_rdm2'ovvv (Times (Copy (T 38)) (-1) 1);
  (*522*) AddTo n_rdm2'ovvv (Plain (Transpose (T 38) [0;1;3;2]));
  (*523*) Del (T 38);
  (*524*) Assign n_rdm2'vvoo (Plain (Copy n_l2));
  (*525*) Assign n_rdm2'vovo (Times (Einsum [(n_l1,[0;1]); (n_t1,[2;3])] [0;2;3;1]) (-1) 1);
  (*526*) AddTo n_rdm2'vovo (Times (Transpose (T 20) [2;1;3;0]) (-1) 1);
  (*527*) AddTo n_rdm2'vovo (Plain (Transpose (T 30) [2;1;3;0]));
  (*528*) AddTo n_rdm2'vovo (Times (Einsum [(n_delta'oo,[0;1]); (T 33,[2;3])] [2;0;3;1]) (1) 2);
  (*529*) Assign n_rdm2'voov (Plain (Einsum [(n_l1,[0;1]); (n_t1,[2;3])] [0;2;1;3]));
  (*530*) AddTo n_rdm2'voov (Plain (Transpose (T 20) [2;1;0;3]));
  (*531*) AddTo n_rdm2'voov (Times (Transpose (T 30) [2;1;0;3]) (-1) 1);
  (*532*) AddTo n_rdm2'voov (Times (Einsum [(T 32,[0;1]); (n_delta'oo,[2;3])] [0;2;3;1]) (-1) 1);
  (*533*) Assign n_rdm2'ovvo (Plain (Einsum [(n_l1,[0;1]); (n_t1,[2;3])] [2;0;3;1]));
  (*534*) AddTo n_rdm2'ovvo (Plain (Transpose (T 20) [1;2;3;0]));
  (*535*) AddTo n_rdm2'ovvo (Times (Transpose (T 30) [1;2;3;0]) (-1) 1);
  (*536*) AddTo n_rdm2'ovvo (Times (Einsum [(n_delta'oo,[0;1]); (T 33,[2;3])] [0;2;3;1]) (-1) 2);
  (*537*) Del (T 33);
  (*538*) Assign n_rdm2'ovov (Times (Einsum [(n_l1,[0;1]); (n_t1,[2;3])] [2;0;1;3]) (-1) 1);
  (*539*) AddTo n_rdm2'ovov (Times (Transpose (T 20) [1;2;0;3]) (-1) 1);
  (*540*) Del (T 20);
  (*541*) AddTo n_rdm2'ovov (Plain (Transpose (T 30) [1;2;0;3]));
  (*542*) Del (T 30);
  (*543*) AddTo n_rdm2'ovov (Plain (Einsum [(T 32,[0;1]); (n_delta'oo,[2;3])] [2;0;3;1]));
  (*544*) Del (T 32);
  (*545*) Assign n_rdm2'oovv (Plain (Copy n_t2));
  (*546*) AddTo n_rdm2'oovv (Times (Einsum [(n_t1,[0;1]); (n_t1,[2;3])] [2;0;1;3]) (-1) 1);
  (*547*) AddTo n_rdm2'oovv (Plain (Einsum [(n_t1,[0;1]); (n_t1,[2;3])] [2;0;3;1]));
  (*548*) AddTo n_rdm2'oovv (Plain (Copy (T 22)));
  (*549*) AddTo n_rdm2'oovv (Times (Transpose (T 22) [0;1;3;2]) (-1) 1);
  (*550*) Del (T 22);
  (*551*) AddTo n_rdm2'oovv (Times (Copy (T 24)) (-1) 2);
  (*552*) AddTo n_rdm2'oovv (Times (Transpose (T 24) [0;1;3;2]) (1) 2);
  (*553*) Del (T 24);
  (*554*) AddTo n_rdm2'oovv (Times (Transpose (T 25) [0;1;3;2]) (1) 2);
  (*555*) AddTo n_rdm2'oovv (Times (Transpose (T 25) [1;0;3;2]) (-1) 2);
  (*556*) Del (T 25);
  (*557*) AddTo n_rdm2'oovv (Times (Copy (T 27)) (-1) 1);
  (*558*) AddTo n_rdm2'oovv (Plain (Transpose (T 27) [0;1;3;2]));
  (*559*) AddTo n_rdm2'oovv (Plain (Transpose (T 27) [1;0;2;3]));
  (*560*) AddTo n_rdm2'oovv (Times (Transpose (T 27) [1;0;3;2]) (-1) 1);
  (*561*) Del (T 27);
  (*562*) AddTo n_rdm2'oovv (Times (Einsum [(T 12,[0;1]); (n_t1,[2;3])] [2;0;3;1]) (-1) 2);
  (*563*) AddTo n_rdm2'oovv (Times (Einsum [(T 12,[0;1]); (n_t1,[2;3])] [2;0;1;3]) (1) 2);
  (*564*) AddTo n_rdm2'oovv (Times (Einsum [(n_t1,[0;1]); (T 12,[2;3])] [2;0;1;3]) (1) 2);
  (*565*) AddTo n_rdm2'oovv (Times (Einsum [(n_t1,[0;1]); (T 12,[2;3])] [2;0;3;1]) (-1) 2);
  (*566*) AddTo n_rdm2'oovv (Times (Transpose (T 28) [0;1;3;2]) (-1) 1);
  (*567*) AddTo n_rdm2'oovv (Plain (Transpose (T 28) [1;0;3;2]));
  (*568*) Del (T 28);
  (*569*) AddTo n_rdm2'oovv (Times (Einsum [(T 14,[0;1;2;3]); (n_t2,[0;1;4;5])] [3;2;4;5]) (1) 2);
  (*570*) AddTo n_rdm2'oovv (Times (Einsum [(n_t1,[0;1]); (T 29,[0;2;3;4])] [2;3;1;4]) (1) 2);
  (*571*) Del (T 29);
  (*572*) Assign n_rdm2'vooo (Plain (Transpose (T 2) [3;2;1;0]));
  (*573*) AddTo n_rdm2'vooo (Plain (Einsum [(n_delta'oo,[0;1]); (n_l1,[2;3])] [2;0;3;1]));
  (*574*) AddTo n_rdm2'vooo (Times (Einsum [(n_l1,[0;1]); (n_delta'oo,[2;3])] [0;2;3;1]) (-1) 1);
  (*575*) Assign n_rdm2'ovoo (Times (Transpose (T 2) [2;3;1;0]) (-1) 1);
  (*576*) Del (T 2);
  (*577*) AddTo n_rdm2'ovoo (Times (Einsum [(n_delta'oo,[0;1]); (n_l1,[2;3])] [0;2;3;1]) (-1) 1);
  (*578*) AddTo n_rdm2'ovoo (Plain (Einsum [(n_l1,[0;1]); (n_delta'oo,[2;3])] [2;0;3;1]));
  (*579*) Assign n_rdm2'oovo (Plain (Transpose (T 6) [2;1;3;0]));
  (*580*) AddTo n_rdm2'oovo (Times (Einsum [(T 17,[0;1]); (n_delta'oo,[2;3])] [0;2;1;3]) (-1) 1);
  (*581*) AddTo n_rdm2'oovo (Plain (Einsum [(n_delta'oo,[0;1]); (T 17,[2;3])] [0;2;3;1]));
  (*582*) Del (T 17);
  (*583*) AddTo n_rdm2'oovo (Plain (Einsum [(n_delta'oo,[0;1]); (n_t1,[2;3])] [2;0;3;1]));
  (*584*) AddTo n_rdm2'oovo (Times (Einsum [(n_delta'oo,[0;1]); (n_t1,[2;3])] [0;2;3;1]) (-1) 1);
  (*585*) AddTo n_rdm2'oovo (Times (Einsum [(T 5,[0;1]); (n_t1,[2;3])] [2;1;3;0]) (-1) 1);
  (*586*) AddTo n_rdm2'oovo (Plain (Einsum [(n_t1,[0;1]); (T 5,[2;3])] [3;0;1;2]));
  (*587*) AddTo n_rdm2'oovo (Plain (Transpose (T 13) [1;2;3;0]));
  (*588*) AddTo n_rdm2'oovo (Times (Transpose (T 13) [2;1;3;0]) (-1) 1);
  (*589*) AddTo n_rdm2'oovo (Times (Einsum [(T 4,[0;1]); (n_t1,[2;3])] [2;1;3;0]) (-1) 2);
  (*590*) AddTo n_rdm2'oovo (Times (Einsum [(n_t1,[0;1]); (T 4,[2;3])] [3;0;1;2]) (1) 2);
  (*591*) AddTo n_rdm2'oovo (Times (Einsum [(T 18,[0;1;2;3]); (n_t1,[0;4])] [3;2;4;1]) (1) 2);
  (*592*) Del (T 18);
  (*593*) Assign n_rdm2'ooov (Times (Transpose (T 6) [2;1;0;3]) (-1) 1);
  (*594*) Del (T 6);
  (*595*) AddTo n_rdm2'ooov (Times (Einsum [(T 9,[0;1]); (n_delta'oo,[2;3])] [0;2;3;1]) (-1) 1);
  (*596*) AddTo n_rdm2'ooov (Plain (Einsum [(T 9,[0;1]); (n_delta'oo,[2;3])] [2;0;3;1]));
  (*597*) Del (T 9);
  (*598*) AddTo n_rdm2'ooov (Times (Einsum [(n_delta'oo,[0;1]); (n_t1,[2;3])] [2;0;1;3]) (-1) 1);
  (*599*) AddTo n_rdm2'ooov (Plain (Einsum [(n_delta'oo,[0;1]); (n_t1,[2;3])] [0;2;1;3]));
  (*600*) AddTo n_rdm2'ooov (Plain (Einsum [(T 5,[0;1]); (n_t1,[2;3])] [2;1;0;3]));
  (*601*) AddTo n_rdm2'ooov (Times (Einsum [(n_t1,[0;1]); (T 5,[2;3])] [3;0;2;1]) (-1) 1);
  (*602*) AddTo n_rdm2'ooov (Times (Einsum [(n_delta'oo,[0;1]); (T 12,[2;3])] [2;0;1;3]) (1) 2);
  (*603*) AddTo n_rdm2'ooov (Times (Einsum [(n_delta'oo,[0;1]); (T 12,[2;3])] [0;2;1;3]) (-1) 2);
  (*604*) Del (T 12);
  (*605*) AddTo n_rdm2'ooov (Times (Transpose (T 13) [1;2;0;3]) (-1) 1);
  (*606*) AddTo n_rdm2'ooov (Plain (Transpose (T 13) [2;1;0;3]));
  (*607*) Del (T 13);
  (*608*) AddTo n_rdm2'ooov (Times (Einsum [(T 4,[0;1]); (n_t1,[2;3])] [2;1;0;3]) (1) 2);
  (*609*) AddTo n_rdm2'ooov (Times (Einsum [(n_t1,[0;1]); (T 4,[2;3])] [3;0;2;1]) (-1) 2);
  (*610*) AddTo n_rdm2'ooov (Times (Einsum [(T 14,[0;1;2;3]); (n_t1,[0;4])] [3;2;1;4]) (-1) 1);
  (*611*) Del (T 14);
  (*612*) Assign n_rdm2'oooo (Times (Transpose (T 1) [3;2;1;0]) (1) 2);
  (*613*) Del (T 1);
  (*614*) AddTo n_rdm2'oooo (Times (Transpose (T 3) [2;3;1;0]) (-1) 1);
  (*615*) Del (T 3);
  (*616*) AddTo n_rdm2'oooo (Plain (Einsum [(n_delta'oo,[0;1]); (n_delta'oo,[2;3])] [0;2;1;3]));
  (*617*) AddTo n_rdm2'oooo (Times (Einsum [(n_delta'oo,[0;1]); (n_delta'oo,[2;3])] [0;2;3;1]) (-1) 1);
  (*618*) AddTo n_rdm2'oooo (Times (Einsum [(n_delta'oo,[0;1]); (T 4,[2;3])] [3;0;2;1]) (-1) 2);
  (*619*) AddTo n_rdm2'oooo (Times (Einsum [(T 4,[0;1]); (n_delta'oo,[2;3])] [2;1;0;3]) (1) 2);
  (*620*) AddTo n_rdm2'oooo (Times (Einsum [(n_delta'oo,[0;1]); (T 4,[2;3])] [3;0;1;2]) (1) 2);
  (*621*) AddTo n_rdm2'oooo (Times (Einsum [(n_delta'oo,[0;1]); (T 4,[2;3])] [0;3;1;2]) (-1) 2);
  (*622*) Del (T 4);
  (*623*) AddTo n_rdm2'oooo (Times (Einsum [(n_delta'oo,[0;1]); (T 5,[2;3])] [3;0;2;1]) (-1) 1);
  (*624*) AddTo n_rdm2'oooo (Plain (Einsum [(T 5,[0;1]); (n_delta'oo,[2;3])] [2;1;0;3]));
  (*625*) AddTo n_rdm2'oooo (Plain (Einsum [(T 5,[0;1]); (n_delta'oo,[2;3])] [1;2;3;0]));
  (*626*) AddTo n_rdm2'oooo (Times (Einsum [(n_delta'oo,[0;1]); (T 5,[2;3])] [0;3;1;2]) (-1) 1);
  (*627*) Del (T 5);
  (*627*) Del n_delta'oo;
  (*627*) Del n_delta'vv]
 [(n_rdm2'oooo,[0;0;0;0]); (n_rdm2'ooov,[0;0;0;1]); (n_rdm2'oovo,[0;0;1;0]); (n_rdm2'ovoo,[0;1;0;0]); (n_rdm2'vooo,[1;0;0;0]); (n_rdm2'oovv,[0;0;1;1]); (n_rdm2'ovov,[0;1;0;1]); (n_rdm2'ovvo,[0;1;1;0]); (n_rdm2'voov,[1;0;0;1]); (n_rdm2'vovo,[1;0;1;0]); (n_rdm2'vvoo,[1;1;0;0]); (n_rdm2'ovvv,[0;1;1;1]); (n_rdm2'vovv,[1;0;1;1]); (n_rdm2'vvov,[1;1;0;1]); (n_rdm2'vvvo,[1;1;1;0]); (n_rdm2'vvvv,[1;1;1;1])].

(** ebcc/codegen/GCC2.py:633-689 [hbar_matvec_ip_intermediates] *)
Definition GCC2_hbar_matvec_ip_intermediates : prog := mkprog
 [(n_t1,[0;1]); (n_f'ov,[0;1]); (n_v'oovv,[0;0;1;1]); (n_t2,[0;0;1;1]); (n_v'ovvv,[0;1;1;1]); (n_v'ooov,[0;0;0;1]); (n_v'ovoo,[0;1;0;0]); (n_f'vv,[1;1]); (n_f'oo,[0;0])]
 [(*670*) Assign (T 1) (Plain (Einsum [(n_t1,[0;1]); (n_f'ov,[2;1])] [2;0]));
  (*671*) Assign (T 3) (Plain (Einsum [(n_t1,[0;1]); (n_v'oovv,[2;0;3;1])] [2;3]));
  (*672*) Assign (T 24) (Plain (Einsum [(n_v'oovv,[0;1;2;3]); (n_t2,[4;1;5;3])] [4;0;5;2]));
  (*673*) Assign (T 23) (Plain (Einsum [(n_v'oovv,[0;1;2;3]); (n_t2,[0;1;4;3])] [4;2]));
  (*674*) Assign (T 22) (Plain (Einsum [(n_v'oovv,[0;1;2;3]); (n_t2,[4;5;2;3])] [4;5;0;1]));
  (*675*) Assign (T 20) (Plain (Einsum [(n_v'ovvv,[0;1;2;3]); (n_t2,[4;5;2;3])] [4;5;0;1]));
  (*676*) Assign (T 19) (Plain (Einsum [(n_t2,[0;1;2;3]); (n_v'ovvv,[1;4;2;3])] [0;4]));
  (*677*) Assign (T 17) (Plain (Einsum [(n_v'ooov,[0;1;2;3]); (n_t2,[4;1;5;3])] [4;0;2;5]));
  (*678*) Assign (T 16) (Plain (Einsum [(n_v'ovoo,[0;1;2;3]); (n_t2,[2;3;4;1])] [0;4]));
  (*679*) Assign (T 14) (Plain (Einsum [(n_t1,[0;1]); (T 1,[0;2])] [2;1]));
  (*680*) Assign (T 13) (Plain (Einsum [(n_t2,[0;1;2;3]); (n_f'ov,[4;3])] [4;0;1;2]));
  (*681*) Assign (T 12) (Plain (Einsum [(n_t2,[0;1;2;3]); (n_f'ov,[1;3])] [0;2]));
  (*682*) Assign (T 9) (Plain (Einsum [(n_f'vv,[0;1]); (n_t1,[2;1])] [2;0]));
  (*683*) Assign (T 8) (Plain (Einsum [(n_t1,[0;1]); (n_f'oo,[2;0])] [2;1]));
  (*684*) Assign (T 6) (Plain (Einsum [(T 3,[0;1]); (n_t1,[2;1])] [2;0]));
  (*685*) Assign (T 5) (Plain (Einsum [(n_v'oovv,[0;1;2;3]); (n_t2,[4;1;2;3])] [4;0]));
  (*686*) Assign (T 4) (Plain (Einsum [(n_v'oovv,[0;1;2;3]); (n_t1,[4;3])] [4;0;1;2]));
  (*687*) Assign (T 2) (Plain (Einsum [(n_v'ooov,[0;1;2;3]); (n_t1,[1;3])] [0;2]))]
 [(T 1,[0;0]); (T 2,[0;0]); (T 12,[0;1]); (T 13,[0;0;0;1]); (T 14,[0;1]); (T 16,[0;1]); (T 17,[0;0;0;1]); (T 19,[0;1]); (T 20,[0;0;0;1]); (T 3,[0;1]); (T 22,[0;0;0;0]); (T 23,[1;1]); (T 24,[0;0;1;1]); (T 4,[0;0;0;1]); (T 5,[0;0]); (T 6,[0;0]); (T 8,[0;1]); (T 9,[0;1])].

(** ebcc/codegen/GCC2.py:691-804 [hbar_matvec_ip] *)
Definition GCC2_hbar_matvec_ip : prog := mkprog
 [(n_f'oo,[0;0]); (IT 1,[0;0]); (n_r2,[0;0;1]); (IT 17,[0;0;0;1]); (n_r1,[0]); (IT 5,[0;0]); (n_v'ovov,[0;1;0;1]); (IT 24,[0;0;1;1]); (n_v'oovv,[0;0;1;1]); (IT 23,[1;1]); (n_f'vv,[1;1]); (n_t1,[0;1]); (n_f'ov,[0;1]); (IT 14,[0;1]); (IT 16,[0;1]); (IT 19,[0;1]); (IT 8,[0;1]); (IT 12,[0;1]); (IT 9,[0;1]); (IT 22,[0;0;0;0]); (n_v'oooo,[0;0;0;0]); (IT 20,[0;0;0;1]); (n_v'ovoo,[0;1;0;0]); (IT 13,[0;0;0;1]); (IT 2,[0;0]); (IT 6,[0;0]); (IT 4,[0;0;0;1]); (IT 3,[0;1]); (n_t2,[0;0;1;1])]
 [(*719*) Assign (T 6) (Plain (Copy n_f'oo));
  (*720*) AddTo (T 6) (Plain (Copy (IT 1)));
  (*721*) Assign (T 7) (Times (Einsum [(n_r2,[0;1;2]); (T 6,[1;3])] [0;3;2]) (-1) 1);
  (*722*) Del (T 6);
  (*723*) Assign (T 5) (Plain (Einsum [(IT 17,[0;1;2;3]); (n_r1,[1])] [0;2;3]));
  (*724*) Del (IT 17);
  (*725*) Assign (T 9) (Plain (Einsum [(IT 5,[0;1]); (n_r2,[2;1;3])] [0;2;3]));
  (*726*) Assign (T 11) (Plain (Einsum [(n_v'ovov,[0;1;2;3]); (n_r2,[4;2;1])] [4;0;3]));
  (*727*) Assign (T 10) (Plain (Einsum [(IT 24,[0;1;2;3]); (n_r2,[4;1;3])] [0;4;2]));
  (*728*) Del (IT 24);
  (*729*) Assign (T 4) (Plain (Einsum [(n_r2,[0;1;2]); (n_v'oovv,[0;1;3;2])] [3]));
  (*730*) Assign (T 8) (Plain (Copy (T 5)));
  (*731*) Del (T 5);
  (*732*) AddTo (T 8) (Times (Transpose (T 7) [1;0;2]) (-1) 1);
  (*733*) Del (T 7);
  (*734*) Assign (T 14) (Times (Transpose (IT 23) [1;0]) (1) 2);
  (*735*) Del (IT 23);
  (*736*) AddTo (T 14) (Times (Copy n_f'vv) (-1) 1);
  (*737*) AddTo (T 14) (Plain (Einsum [(n_t1,[0;1]); (n_f'ov,[0;2])] [2;1]));
  (*738*) Assign (T 12) (Times (Copy (T 9)) (-1) 2);
  (*739*) Del (T 9);
  (*740*) AddTo (T 12) (Plain (Copy (T 10)));
  (*741*) Del (T 10);
  (*742*) AddTo (T 12) (Plain (Copy (T 11)));
  (*743*) Del (T 11);
  (*744*) Assign (T 16) (Plain (Copy (IT 14)));
  (*745*) Del (IT 14);
  (*746*) AddTo (T 16) (Times (Copy (IT 16)) (1) 2);
  (*747*) Del (IT 16);
  (*748*) AddTo (T 16) (Times (Copy (IT 19)) (1) 2);
  (*749*) Del (IT 19);
  (*750*) AddTo (T 16) (Plain (Copy (IT 8)));
  (*751*) Del (IT 8);
  (*752*) AddTo (T 16) (Times (Copy n_f'ov) (-1) 1);
  (*753*) AddTo (T 16) (Times (Copy (IT 12)) (-1) 1);
  (*754*) Del (IT 12);
  (*755*) AddTo (T 16) (Times (Copy (IT 9)) (-1) 1);
  (*756*) Del (IT 9);
  (*757*) Assign (T 13) (Times (Copy (IT 22)) (-1) 2);
  (*758*) Del (IT 22);
  (*759*) AddTo (T 13) (Times (Copy n_v'oooo) (-1) 1);
  (*760*) Assign (T 15) (Times (Transpose (IT 20) [2;0;1;3]) (1) 2);
  (*761*) Del (IT 20);
  (*762*) AddTo (T 15) (Plain (Transpose n_v'ovoo [0;2;3;1]));
  (*763*) AddTo (T 15) (Times (Copy (IT 13)) (-1) 1);
  (*764*) Del (IT 13);
  (*765*) Assign (T 3) (Times (Copy n_f'oo) (2) 1);
  (*766*) AddTo (T 3) (Times (Copy (IT 1)) (2) 1);
  (*767*) Del (IT 1);
  (*768*) AddTo (T 3) (Times (Copy (IT 2)) (2) 1);
  (*769*) Del (IT 2);
  (*770*) AddTo (T 3) (Plain (Transpose (IT 5) [1;0]));
  (*771*) Del (IT 5);
  (*772*) AddTo (T 3) (Times (Transpose (IT 6) [1;0]) (2) 1);
  (*773*) Del (IT 6);
  (*774*) Assign (T 1) (Plain (Copy (IT 4)));
  (*775*) Del (IT 4);
  (*776*) AddTo (T 1) (Times (Transpose n_v'ovoo [0;2;3;1]) (-1) 1);
  (*777*) Assign (T 2) (Plain (Copy n_f'ov));
  (*778*) AddTo (T 2) (Plain (Copy (IT 3)));
  (*779*) Del (IT 3);
  (*780*) Assign n_r2new (Times (Einsum [(n_t2,[0;1;2;3]); (T 4,[3])] [0;1;2]) (1) 2);
  (*781*) Del (T 4);
  (*782*) AddTo n_r2new (Plain (Copy (T 8)));
  (*783*) AddTo n_r2new (Times (Transpose (T 8) [1;0;2]) (-1) 1);
  (*784*) Del (T 8);
  (*785*) AddTo n_r2new (Times (Copy (T 12)) (-1) 1);
  (*786*) AddTo n_r2new (Plain (Transpose (T 12) [1;0;2]));
  (*787*) Del (T 12);
  (*788*) AddTo n_r2new (Times (Einsum [(n_r2,[0;1;2]); (T 13,[3;4;1;0])] [3;4;2]) (1) 2);
  (*789*) Del (T 13);
  (*790*) AddTo n_r2new (Times (Einsum [(n_r2,[0;1;2]); (T 14,[2;3])] [0;1;3]) (-1) 1);
  (*791*) Del (T 14);
  (*792*) AddTo n_r2new (Plain (Einsum [(T 15,[0;1;2;3]); (n_r1,[0])] [2;1;3]));
  (*793*) Del (T 15);
  (*794*) AddTo n_r2new (Times (Einsum [(T 16,[0;1]); (n_r1,[2])] [2;0;1]) (-1) 1);
  (*795*) AddTo n_r2new (Plain (Einsum [(T 16,[0;1]); (n_r1,[2])] [0;2;1]));
  (*796*) Del (T 16);
  (*797*) Assign n_r1new (Times (Einsum [(n_r2,[0;1;2]); (T 1,[3;0;1;2])] [3]) (1) 2);
  (*798*) Del (T 1);
  (*799*) AddTo n_r1new (Plain (Einsum [(n_r2,[0;1;2]); (T 2,[1;2])] [0]));
  (*800*) Del (T 2);
  (*801*) AddTo n_r1new (Times (Einsum [(n_r1,[0]); (T 3,[0;1])] [1]) (-1) 2);
  (*802*) Del (T 3)]
 [(n_r1new,[0]); (n_r2new,[0;0;1])].

(** ebcc/codegen/GCC2.py:806-854 [hbar_matvec_ea_intermediates] *)
Definition GCC2_hbar_matvec_ea_intermediates : prog := mkprog
 [(n_t1,[0;1]); (n_f'ov,[0;1]); (n_v'oovv,[0;0;1;1]); (n_t2,[0;0;1;1]); (n_v'ovvv,[0;1;1;1]); (n_v'ovoo,[0;1;0;0]); (n_f'vv,[1;1]); (n_f'oo,[0;0])]
 [(*839*) Assign (T 10) (Plain (Einsum [(n_t1,[0;1]); (n_f'ov,[2;1])] [2;0]));
  (*840*) Assign (T 23) (Plain (Einsum [(n_v'oovv,[0;1;2;3]); (n_t2,[4;1;5;3])] [4;0;5;2]));
  (*841*) Assign (T 21) (Plain (Einsum [(n_v'oovv,[0;1;2;3]); (n_t2,[4;1;2;3])] [4;0]));
  (*842*) Assign (T 19) (Plain (Einsum [(n_t2,[0;1;2;3]); (n_v'ovvv,[1;4;5;3])] [0;2;4;5]));
  (*843*) Assign (T 18) (Plain (Einsum [(n_t2,[0;1;2;3]); (n_v'ovvv,[1;4;2;3])] [0;4]));
  (*844*) Assign (T 17) (Plain (Einsum [(n_v'ovoo,[0;1;2;3]); (n_t2,[2;3;4;5])] [0;4;5;1]));
  (*845*) Assign (T 16) (Plain (Einsum [(n_v'ovoo,[0;1;2;3]); (n_t2,[2;3;4;1])] [0;4]));
  (*846*) Assign (T 14) (Plain (Einsum [(T 10,[0;1]); (n_t1,[0;2])] [1;2]));
  (*847*) Assign (T 13) (Plain (Einsum [(n_t2,[0;1;2;3]); (n_f'ov,[1;3])] [0;2]));
  (*848*) Assign (T 9) (Plain (Einsum [(n_f'vv,[0;1]); (n_t1,[2;1])] [2;0]));
  (*849*) Assign (T 8) (Plain (Einsum [(n_t1,[0;1]); (n_f'oo,[2;0])] [2;1]));
  (*850*) Assign (T 5) (Plain (Einsum [(n_v'oovv,[0;1;2;3]); (n_t2,[0;1;4;3])] [4;2]));
  (*851*) Assign (T 3) (Plain (Einsum [(n_t1,[0;1]); (n_v'oovv,[2;0;3;1])] [2;3]));
  (*852*) Assign (T 2) (Plain (Einsum [(n_v'ovvv,[0;1;2;3]); (n_t1,[0;3])] [1;2]))]
 [(T 2,[1;1]); (T 13,[0;1]); (T 14,[0;1]); (T 16,[0;1]); (T 17,[0;1;1;1]); (T 18,[0;1]); (T 19,[0;1;1;1]); (T 3,[0;1]); (T 21,[0;0]); (T 23,[0;0;1;1]); (T 5,[1;1]); (T 8,[0;1]); (T 9,[0;1]); (T 10,[0;0])].

(** ebcc/codegen/GCC2.py:856-966 [hbar_matvec_ea] *)
Definition GCC2_hbar_matvec_ea : prog := mkprog
 [(n_r2,[1;1;0]); (n_f'ov,[0;1]); (n_f'vv,[1;1]); (IT 5,[1;1]); (IT 23,[0;0;1;1]); (n_t1,[0;1]); (n_v'ovov,[0;1;0;1]); (n_v'oovv,[0;0;1;1]); (IT 3,[0;1]); (IT 17,[0;1;1;1]); (n_v'ovvv,[0;1;1;1]); (n_r1,[1]); (IT 19,[0;1;1;1]); (IT 14,[0;1]); (IT 16,[0;1]); (IT 18,[0;1]); (IT 8,[0;1]); (IT 13,[0;1]); (IT 9,[0;1]); (n_f'oo,[0;0]); (IT 21,[0;0]); (IT 10,[0;0]); (IT 2,[1;1]); (n_v'vvvv,[1;1;1;1]); (n_t2,[0;0;1;1])]
 [(*884*) Assign (T 8) (Plain (Einsum [(n_r2,[0;1;2]); (n_f'ov,[3;1])] [3;2;0]));
  (*885*) Assign (T 10) (Times (Copy n_f'vv) (2) 1);
  (*886*) AddTo (T 10) (Times (Transpose (IT 5) [1;0]) (-1) 1);
  (*887*) Assign (T 6) (Plain (Einsum [(n_r2,[0;1;2]); (IT 23,[3;2;4;1])] [3;4;0]));
  (*888*) Del (IT 23);
  (*889*) Assign (T 9) (Plain (Einsum [(n_t1,[0;1]); (T 8,[0;2;3])] [2;3;1]));
  (*890*) Del (T 8);
  (*891*) Assign (T 7) (Plain (Einsum [(n_v'ovov,[0;1;2;3]); (n_r2,[4;1;2])] [0;4;3]));
  (*892*) Assign (T 11) (Times (Einsum [(T 10,[0;1]); (n_r2,[2;0;3])] [3;2;1]) (-1) 2);
  (*893*) Del (T 10);
  (*894*) Assign (T 3) (Plain (Einsum [(n_r2,[0;1;2]); (n_v'oovv,[3;2;0;1])] [3]));
  (*895*) Assign (T 1) (Plain (Copy n_f'ov));
  (*896*) AddTo (T 1) (Plain (Copy (IT 3)));
  (*897*) Del (IT 3);
  (*898*) Assign (T 14) (Times (Copy (IT 17)) (1) 2);
  (*899*) Del (IT 17);
  (*900*) AddTo (T 14) (Plain (Transpose n_v'ovvv [0;2;3;1]));
  (*901*) Assign (T 5) (Plain (Einsum [(n_r2,[0;1;2]); (n_v'oovv,[3;4;0;1])] [2;3;4]));
  (*902*) Assign (T 12) (Plain (Copy (T 6)));
  (*903*) Del (T 6);
  (*904*) AddTo (T 12) (Plain (Copy (T 7)));
  (*905*) Del (T 7);
  (*906*) AddTo (T 12) (Plain (Copy (T 9)));
  (*907*) Del (T 9);
  (*908*) AddTo (T 12) (Times (Transpose (T 11) [0;2;1]) (-1) 1);
  (*909*) Del (T 11);
  (*910*) Assign (T 16) (Times (Einsum [(n_r1,[0]); (n_f'ov,[1;0])] [1]) (2) 1);
  (*911*) AddTo (T 16) (Plain (Copy (T 3)));
  (*912*) Assign (T 13) (Plain (Einsum [(n_r1,[0]); (IT 19,[1;2;3;0])] [1;2;3]));
  (*913*) Del (IT 19);
  (*914*) Assign (T 17) (Plain (Copy (IT 14)));
  (*915*) Del (IT 14);
  (*916*) AddTo (T 17) (Times (Copy (IT 16)) (1) 2);
  (*917*) Del (IT 16);
  (*918*) AddTo (T 17) (Times (Copy (IT 18)) (1) 2);
  (*919*) Del (IT 18);
  (*920*) AddTo (T 17) (Plain (Copy (IT 8)));
  (*921*) Del (IT 8);
  (*922*) AddTo (T 17) (Times (Copy n_f'ov) (-1) 1);
  (*923*) AddTo (T 17) (Times (Copy (IT 13)) (-1) 1);
  (*924*) Del (IT 13);
  (*925*) AddTo (T 17) (Times (Copy (IT 9)) (-1) 1);
  (*926*) Del (IT 9);
  (*927*) Assign (T 15) (Plain (Copy n_f'oo));
  (*928*) AddTo (T 15) (Times (Transpose (IT 21) [1;0]) (1) 2);
  (*929*) Del (IT 21);
  (*930*) AddTo (T 15) (Plain (Copy (IT 10)));
  (*931*) Del (IT 10);
  (*932*) Assign (T 4) (Times (Copy (T 3)) (1) 2);
  (*933*) Del (T 3);
  (*934*) AddTo (T 4) (Plain (Einsum [(T 1,[0;1]); (n_r1,[1])] [0]));
  (*935*) Assign (T 2) (Plain (Transpose (IT 2) [1;0]));
  (*936*) Del (IT 2);
  (*937*) AddTo (T 2) (Times (Transpose (IT 5) [1;0]) (1) 2);
  (*938*) Del (IT 5);
  (*939*) AddTo (T 2) (Times (Copy n_f'vv) (-1) 1);
  (*940*) Assign n_r2new (Times (Einsum [(n_v'vvvv,[0;1;2;3]); (n_r2,[2;3;4])] [0;1;4]) (1) 2);
  (*941*) AddTo n_r2new (Times (Einsum [(n_t2,[0;1;2;3]); (T 5,[4;1;0])] [2;3;4]) (-1) 4);
  (*942*) Del (T 5);
  (*943*) AddTo n_r2new (Times (Transpose (T 12) [1;2;0]) (-1) 1);
  (*944*) AddTo n_r2new (Plain (Transpose (T 12) [2;1;0]));
  (*945*) Del (T 12);
  (*946*) AddTo n_r2new (Plain (Transpose (T 13) [1;2;0]));
  (*947*) AddTo n_r2new (Times (Transpose (T 13) [2;1;0]) (-1) 1);
  (*948*) Del (T 13);
  (*949*) AddTo n_r2new (Plain (Einsum [(n_r1,[0]); (T 14,[1;2;3;0])] [3;2;1]));
  (*950*) Del (T 14);
  (*951*) AddTo n_r2new (Times (Einsum [(n_r2,[0;1;2]); (T 15,[2;3])] [0;1;3]) (-1) 1);
  (*952*) Del (T 15);
  (*953*) AddTo n_r2new (Times (Einsum [(T 16,[0]); (n_t2,[1;0;2;3])] [2;3;1]) (1) 2);
  (*954*) Del (T 16);
  (*955*) AddTo n_r2new (Times (Einsum [(T 17,[0;1]); (n_r1,[2])] [2;1;0]) (-1) 1);
  (*956*) AddTo n_r2new (Plain (Einsum [(n_r1,[0]); (T 17,[1;2])] [2;0;1]));
  (*957*) Del (T 17);
  (*958*) Assign n_r1new (Times (Einsum [(n_v'ovvv,[0;1;2;3]); (n_r2,[2;3;0])] [1]) (-1) 2);
  (*959*) AddTo n_r1new (Plain (Einsum [(n_r2,[0;1;2]); (T 1,[2;1])] [0]));
  (*960*) Del (T 1);
  (*961*) AddTo n_r1new (Times (Einsum [(n_r1,[0]); (T 2,[0;1])] [1]) (-1) 1);
  (*962*) Del (T 2);
  (*963*) AddTo n_r1new (Times (Einsum [(T 4,[0]); (n_t1,[0;1])] [1]) (-1) 1);
  (*964*) Del (T 4)]
 [(n_r1new,[1]); (n_r2new,[1;1;0])].

(** ebcc/codegen/GCC2.py:968-1032 [hbar_matvec_ee_intermediates] *)
Definition GCC2_hbar_matvec_ee_intermediates : prog := mkprog
 [(n_t1,[0;1]); (n_f'ov,[0;1]); (n_v'oovv,[0;0;1;1]); (n_t2,[0;0;1;1]); (n_v'ovvv,[0;1;1;1]); (n_v'ovoo,[0;1;0;0]); (n_v'ooov,[0;0;0;1]); (n_f'vv,[1;1]); (n_f'oo,[0;0])]
 [(*1009*) Assign (T 1) (Plain (Einsum [(n_t1,[0;1]); (n_f'ov,[2;1])] [2;0]));
  (*1010*) Assign (T 7) (Plain (Einsum [(n_t1,[0;1]); (n_v'oovv,[2;0;3;1])] [2;3]));
  (*1011*) Assign (T 47) (Plain (Einsum [(n_v'oovv,[0;1;2;3]); (n_t2,[4;1;5;3])] [4;0;5;2]));
  (*1012*) Assign (T 45) (Plain (Einsum [(n_v'oovv,[0;1;2;3]); (n_t2,[4;5;2;3])] [4;5;0;1]));
  (*1013*) Assign (T 40) (Plain (Einsum [(n_t2,[0;1;2;3]); (n_v'ovvv,[1;4;5;3])] [0;2;4;5]));
  (*1014*) Assign (T 38) (Plain (Einsum [(n_v'ovvv,[0;1;2;3]); (n_t2,[4;5;2;3])] [4;5;0;1]));
  (*1015*) Assign (T 37) (Plain (Einsum [(n_t2,[0;1;2;3]); (n_v'ovvv,[1;4;2;3])] [0;4]));
  (*1016*) Assign (T 34) (Plain (Einsum [(n_v'ovoo,[0;1;2;3]); (n_t2,[2;3;4;5])] [0;4;5;1]));
  (*1017*) Assign (T 32) (Plain (Einsum [(n_v'ooov,[0;1;2;3]); (n_t2,[4;1;5;3])] [4;0;2;5]));
  (*1018*) Assign (T 31) (Plain (Einsum [(n_v'ovoo,[0;1;2;3]); (n_t2,[2;3;4;1])] [0;4]));
  (*1019*) Assign (T 27) (Plain (Einsum [(n_t1,[0;1]); (T 1,[0;2])] [2;1]));
  (*1020*) Assign (T 24) (Plain (Einsum [(n_t2,[0;1;2;3]); (n_f'ov,[4;3])] [4;0;1;2]));
  (*1021*) Assign (T 23) (Plain (Einsum [(n_t2,[0;1;2;3]); (n_f'ov,[1;3])] [0;2]));
  (*1022*) Assign (T 19) (Plain (Einsum [(n_f'vv,[0;1]); (n_t1,[2;1])] [2;0]));
  (*1023*) Assign (T 18) (Plain (Einsum [(n_t1,[0;1]); (n_f'oo,[2;0])] [2;1]));
  (*1024*) Assign (T 13) (Plain (Einsum [(T 7,[0;1]); (n_t1,[2;1])] [2;0]));
  (*1025*) Assign (T 11) (Plain (Einsum [(n_v'oovv,[0;1;2;3]); (n_t2,[0;1;4;3])] [4;2]));
  (*1026*) Assign (T 10) (Plain (Einsum [(n_v'oovv,[0;1;2;3]); (n_t2,[4;1;2;3])] [4;0]));
  (*1027*) Assign (T 8) (Plain (Einsum [(n_v'oovv,[0;1;2;3]); (n_t1,[4;3])] [4;0;1;2]));
  (*1028*) Assign (T 6) (Plain (Einsum [(n_v'ovvv,[0;1;2;3]); (n_t1,[4;3])] [4;0;1;2]));
  (*1029*) Assign (T 5) (Plain (Einsum [(n_v'ovvv,[0;1;2;3]); (n_t1,[0;3])] [1;2]));
  (*1030*) Assign (T 3) (Plain (Einsum [(n_v'ooov,[0;1;2;3]); (n_t1,[1;3])] [0;2]))]
 [(T 1,[0;0]); (T 11,[1;1]); (T 13,[0;0]); (T 18,[0;1]); (T 19,[0;1]); (T 3,[0;0]); (T 23,[0;1]); (T 24,[0;0;0;1]); (T 27,[0;1]); (T 31,[0;1]); (T 32,[0;0;0;1]); (T 34,[0;1;1;1]); (T 37,[0;1]); (T 38,[0;0;0;1]); (T 40,[0;1;1;1]); (T 5,[1;1]); (T 45,[0;0;0;0]); (T 47,[0;0;1;1]); (T 6,[0;0;1;1]); (T 7,[0;1]); (T 8,[0;0;0;1]); (T 10,[0;0])].

(** ebcc/codegen/GCC2.py:1034-1229 [hbar_matvec_ee] *)
Definition GCC2_hbar_matvec_ee : prog := mkprog
 [(n_v'oovv,[0;0;1;1]); (n_r2,[0;0;1;1]); (n_r1,[0;1]); (n_f'ov,[0;1]); (n_v'ooov,[0;0;0;1]); (n_f'oo,[0;0]); (IT 1,[0;0]); (IT 10,[0;0]); (n_v'ovvv,[0;1;1;1]); (n_t2,[0;0;1;1]); (IT 24,[0;0;0;1]); (n_t1,[0;1]); (IT 34,[0;1;1;1]); (IT 11,[1;1]); (IT 38,[0;0;0;1]); (IT 47,[0;0;1;1]); (IT 32,[0;0;0;1]); (n_v'ovov,[0;1;0;1]); (IT 40,[0;1;1;1]); (n_f'vv,[1;1]); (IT 7,[0;1]); (IT 8,[0;0;0;1]); (n_v'ovoo,[0;1;0;0]); (IT 45,[0;0;0;0]); (n_v'oooo,[0;0;0;0]); (IT 18,[0;1]); (IT 27,[0;1]); (IT 31,[0;1]); (IT 37,[0;1]); (IT 19,[0;1]); (IT 23,[0;1]); (IT 6,[0;0;1;1]); (IT 13,[0;0]); (IT 3,[0;0]); (IT 5,[1;1]); (n_v'vvvv,[1;1;1;1])]
 [(*1062*) Assign (T 6) (Plain (Einsum [(n_v'oovv,[0;1;2;3]); (n_r2,[4;1;2;3])] [4;0]));
  (*1063*) Assign (T 26) (Plain (Einsum [(n_r1,[0;1]); (n_f'ov,[2;1])] [2;0]));
  (*1064*) Assign (T 31) (Plain (Einsum [(n_r1,[0;1]); (n_v'ooov,[2;0;3;1])] [2;3]));
  (*1065*) Assign (T 18) (Plain (Einsum [(n_f'ov,[0;1]); (n_r2,[2;3;4;1])] [0;2;3;4]));
  (*1066*) Assign (T 20) (Plain (Einsum [(n_r2,[0;1;2;3]); (n_v'oovv,[0;1;4;3])] [2;4]));
  (*1067*) Assign (T 27) (Plain (Transpose (T 26) [1;0]));
  (*1068*) Del (T 26);
  (*1069*) AddTo (T 27) (Times (Copy (T 6)) (1) 2);
  (*1070*) Assign (T 24) (Plain (Copy n_f'oo));
  (*1071*) AddTo (T 24) (Plain (Copy (IT 1)));
  (*1072*) AddTo (T 24) (Times (Transpose (IT 10) [1;0]) (1) 2);
  (*1073*) Assign (T 30) (Plain (Einsum [(n_v'ovvv,[0;1;2;3]); (n_r1,[4;1])] [4;0;2;3]));
  (*1074*) Assign (T 32) (Times (Einsum [(n_t2,[0;1;2;3]); (T 31,[1;4])] [0;4;2;3]) (-1) 1);
  (*1075*) Del (T 31);
  (*1076*) Assign (T 17) (Plain (Einsum [(IT 24,[0;1;2;3]); (n_r1,[0;4])] [1;2;3;4]));
  (*1077*) Del (IT 24);
  (*1078*) Assign (T 19) (Plain (Einsum [(n_t1,[0;1]); (T 18,[0;2;3;4])] [2;3;4;1]));
  (*1079*) Del (T 18);
  (*1080*) Assign (T 21) (Times (Einsum [(T 20,[0;1]); (n_t2,[2;3;4;1])] [2;3;0;4]) (-1) 1);
  (*1081*) Del (T 20);
  (*1082*) Assign (T 28) (Times (Einsum [(n_t2,[0;1;2;3]); (T 27,[4;1])] [4;0;2;3]) (-1) 1);
  (*1083*) Del (T 27);
  (*1084*) Assign (T 25) (Times (Einsum [(T 24,[0;1]); (n_r2,[2;0;3;4])] [1;2;3;4]) (-1) 1);
  (*1085*) Del (T 24);
  (*1086*) Assign (T 23) (Plain (Einsum [(IT 34,[0;1;2;3]); (n_r1,[4;3])] [0;4;1;2]));
  (*1087*) Del (IT 34);
  (*1088*) Assign (T 38) (Plain (Einsum [(n_r2,[0;1;2;3]); (IT 11,[4;3])] [0;1;4;2]));
  (*1089*) Assign (T 37) (Plain (Einsum [(IT 38,[0;1;2;3]); (n_r1,[2;4])] [0;1;3;4]));
  (*1090*) Del (IT 38);
  (*1091*) Assign (T 15) (Plain (Einsum [(n_r2,[0;1;2;3]); (IT 47,[4;1;5;3])] [4;0;5;2]));
  (*1092*) Del (IT 47);
  (*1093*) Assign (T 12) (Plain (Einsum [(IT 32,[0;1;2;3]); (n_r1,[1;4])] [0;2;3;4]));
  (*1094*) Del (IT 32);
  (*1095*) Assign (T 14) (Plain (Einsum [(n_v'ovov,[0;1;2;3]); (n_r2,[4;2;5;1])] [4;0;5;3]));
  (*1096*) Assign (T 13) (Plain (Einsum [(IT 40,[0;1;2;3]); (n_r1,[4;3])] [0;4;1;2]));
  (*1097*) Del (IT 40);
  (*1098*) Assign (T 35) (Plain (Einsum [(n_r2,[0;1;2;3]); (n_f'vv,[4;3])] [0;1;4;2]));
  (*1099*) Assign (T 34) (Plain (Einsum [(n_r1,[0;1]); (n_v'ooov,[2;3;0;4])] [2;3;1;4]));
  (*1100*) Assign (T 10) (Plain (Einsum [(n_v'ovvv,[0;1;2;3]); (n_r1,[0;3])] [1;2]));
  (*1101*) Assign (T 3) (Plain (Copy n_f'ov));
  (*1102*) AddTo (T 3) (Plain (Copy (IT 7)));
  (*1103*) Del (IT 7);
  (*1104*) Assign (T 2) (Plain (Copy (IT 8)));
  (*1105*) Del (IT 8);
  (*1106*) AddTo (T 2) (Times (Transpose n_v'ovoo [0;2;3;1]) (-1) 1);
  (*1107*) Assign (T 33) (Times (Transpose (T 30) [0;1;3;2]) (-1) 1);
  (*1108*) Del (T 30);
  (*1109*) AddTo (T 33) (Plain (Transpose (T 32) [0;1;3;2]));
  (*1110*) Del (T 32);
  (*1111*) Assign (T 9) (Plain (Einsum [(n_v'oovv,[0;1;2;3]); (n_r2,[4;5;2;3])] [4;5;0;1]));
  (*1112*) Assign (T 22) (Plain (Copy (T 17)));
  (*1113*) Del (T 17);
  (*1114*) AddTo (T 22) (Plain (Copy (T 19)));
  (*1115*) Del (T 19);
  (*1116*) AddTo (T 22) (Times (Copy (T 21)) (1) 2);
  (*1117*) Del (T 21);
  (*1118*) Assign (T 29) (Times (Transpose (T 23) [0;1;3;2]) (-1) 2);
  (*1119*) Del (T 23);
  (*1120*) AddTo (T 29) (Plain (Transpose (T 25) [0;1;3;2]));
  (*1121*) Del (T 25);
  (*1122*) AddTo (T 29) (Plain (Transpose (T 28) [0;1;3;2]));
  (*1123*) Del (T 28);
  (*1124*) Assign (T 39) (Times (Copy (T 37)) (1) 2);
  (*1125*) Del (T 37);
  (*1126*) AddTo (T 39) (Times (Transpose (T 38) [1;0;2;3]) (-1) 2);
  (*1127*) Del (T 38);
  (*1128*) Assign (T 16) (Plain (Copy (T 12)));
  (*1129*) Del (T 12);
  (*1130*) AddTo (T 16) (Plain (Copy (T 13)));
  (*1131*) Del (T 13);
  (*1132*) AddTo (T 16) (Plain (Copy (T 14)));
  (*1133*) Del (T 14);
  (*1134*) AddTo (T 16) (Times (Copy (T 15)) (-1) 1);
  (*1135*) Del (T 15);
  (*1136*) Assign (T 40) (Times (Copy (IT 45)) (-1) 2);
  (*1137*) Del (IT 45);
  (*1138*) AddTo (T 40) (Times (Copy n_v'oooo) (-1) 1);
  (*1139*) Assign (T 41) (Plain (Copy (IT 18)));
  (*1140*) Del (IT 18);
  (*1141*) AddTo (T 41) (Plain (Copy (IT 27)));
  (*1142*) Del (IT 27);
  (*1143*) AddTo (T 41) (Times (Copy (IT 31)) (1) 2);
  (*1144*) Del (IT 31);
  (*1145*) AddTo (T 41) (Times (Copy (IT 37)) (1) 2);
  (*1146*) Del (IT 37);
  (*1147*) AddTo (T 41) (Times (Copy n_f'ov) (-1) 1);
  (*1148*) AddTo (T 41) (Times (Copy (IT 19)) (-1) 1);
  (*1149*) Del (IT 19);
  (*1150*) AddTo (T 41) (Times (Copy (IT 23)) (-1) 1);
  (*1151*) Del (IT 23);
  (*1152*) Assign (T 36) (Times (Transpose (T 34) [1;0;2;3]) (-1) 1);
  (*1153*) Del (T 34);
  (*1154*) AddTo (T 36) (Times (Transpose (T 35) [1;0;2;3]) (-1) 1);
  (*1155*) Del (T 35);
  (*1156*) Assign (T 11) (Times (Einsum [(n_t2,[0;1;2;3]); (T 10,[4;3])] [0;1;2;4]) (-1) 1);
  (*1157*) Del (T 10);
  (*1158*) Assign (T 4) (Plain (Copy (IT 6)));
  (*1159*) Del (IT 6);
  (*1160*) AddTo (T 4) (Times (Transpose n_v'ovov [0;2;3;1]) (-1) 1);
  (*1161*) Assign (T 8) (Plain (Copy n_f'oo));
  (*1162*) AddTo (T 8) (Plain (Copy (IT 1)));
  (*1163*) Del (IT 1);
  (*1164*) AddTo (T 8) (Plain (Transpose (IT 13) [1;0]));
  (*1165*) Del (IT 13);
  (*1166*) AddTo (T 8) (Plain (Copy (IT 3)));
  (*1167*) Del (IT 3);
  (*1168*) AddTo (T 8) (Times (Transpose (IT 10) [1;0]) (1) 2);
  (*1169*) Del (IT 10);
  (*1170*) Assign (T 5) (Times (Transpose (IT 11) [1;0]) (1) 2);
  (*1171*) Del (IT 11);
  (*1172*) AddTo (T 5) (Plain (Transpose (IT 5) [1;0]));
  (*1173*) Del (IT 5);
  (*1174*) AddTo (T 5) (Times (Copy n_f'vv) (-1) 1);
  (*1175*) Assign (T 1) (Plain (Einsum [(n_v'oovv,[0;1;2;3]); (n_r1,[1;3])] [0;2]));
  (*1176*) Assign (T 7) (Times (Transpose (T 6) [1;0]) (1) 2);
  (*1177*) Del (T 6);
  (*1178*) AddTo (T 7) (Plain (Einsum [(T 2,[0;1;2;3]); (n_r1,[1;3])] [2;0]));
  (*1179*) AddTo (T 7) (Plain (Einsum [(T 3,[0;1]); (n_r1,[2;1])] [0;2]));
  (*1180*) Assign n_r2new (Times (Einsum [(n_v'vvvv,[0;1;2;3]); (n_r2,[4;5;2;3])] [4;5;0;1]) (1) 2);
  (*1181*) AddTo n_r2new (Times (Einsum [(n_t2,[0;1;2;3]); (T 9,[4;5;1;0])] [5;4;2;3]) (1) 4);
  (*1182*) Del (T 9);
  (*1183*) AddTo n_r2new (Plain (Copy (T 11)));
  (*1184*) AddTo n_r2new (Times (Transpose (T 11) [0;1;3;2]) (-1) 1);
  (*1185*) Del (T 11);
  (*1186*) AddTo n_r2new (Times (Copy (T 16)) (-1) 1);
  (*1187*) AddTo n_r2new (Plain (Transpose (T 16) [0;1;3;2]));
  (*1188*) AddTo n_r2new (Plain (Transpose (T 16) [1;0;2;3]));
  (*1189*) AddTo n_r2new (Times (Transpose (T 16) [1;0;3;2]) (-1) 1);
  (*1190*) Del (T 16);
  (*1191*) AddTo n_r2new (Times (Copy (T 22)) (-1) 1);
  (*1192*) AddTo n_r2new (Plain (Transpose (T 22) [0;1;3;2]));
  (*1193*) Del (T 22);
  (*1194*) AddTo n_r2new (Plain (Copy (T 29)));
  (*1195*) AddTo n_r2new (Times (Transpose (T 29) [1;0;2;3]) (-1) 1);
  (*1196*) Del (T 29);
  (*1197*) AddTo n_r2new (Times (Copy (T 33)) (-1) 1);
  (*1198*) AddTo n_r2new (Plain (Transpose (T 33) [1;0;2;3]));
  (*1199*) Del (T 33);
  (*1200*) AddTo n_r2new (Times (Copy (T 36)) (-1) 1);
  (*1201*) AddTo n_r2new (Plain (Transpose (T 36) [0;1;3;2]));
  (*1202*) Del (T 36);
  (*1203*) AddTo n_r2new (Times (Transpose (T 39) [1;0;2;3]) (-1) 1);
  (*1204*) AddTo n_r2new (Plain (Transpose (T 39) [1;0;3;2]));
  (*1205*) Del (T 39);
  (*1206*) AddTo n_r2new (Times (Einsum [(n_r2,[0;1;2;3]); (T 40,[4;5;0;1])] [4;5;2;3]) (-1) 2);
  (*1207*) Del (T 40);
  (*1208*) AddTo n_r2new (Times (Einsum [(T 41,[0;1]); (n_r1,[2;3])] [0;2;1;3]) (-1) 1);
  (*1209*) AddTo n_r2new (Times (Einsum [(T 41,[0;1]); (n_r1,[2;3])] [2;0;3;1]) (-1) 1);
  (*1210*) AddTo n_r2new (Plain (Einsum [(n_r1,[0;1]); (T 41,[2;3])] [0;2;3;1]));
  (*1211*) AddTo n_r2new (Plain (Einsum [(T 41,[0;1]); (n_r1,[2;3])] [0;2;3;1]));
  (*1212*) Del (T 41);
  (*1213*) Assign n_r1new (Plain (Einsum [(T 1,[0;1]); (n_t2,[2;0;3;1])] [2;3]));
  (*1214*) Del (T 1);
  (*1215*) AddTo n_r1new (Times (Einsum [(n_v'ovvv,[0;1;2;3]); (n_r2,[4;0;2;3])] [4;1]) (-1) 2);
  (*1216*) AddTo n_r1new (Times (Einsum [(T 2,[0;1;2;3]); (n_r2,[1;2;4;3])] [0;4]) (1) 2);
  (*1217*) Del (T 2);
  (*1218*) AddTo n_r1new (Plain (Einsum [(n_r2,[0;1;2;3]); (T 3,[1;3])] [0;2]));
  (*1219*) Del (T 3);
  (*1220*) AddTo n_r1new (Plain (Einsum [(T 4,[0;1;2;3]); (n_r1,[1;3])] [0;2]));
  (*1221*) Del (T 4);
  (*1222*) AddTo n_r1new (Times (Einsum [(n_r1,[0;1]); (T 5,[1;2])] [0;2]) (-1) 1);
  (*1223*) Del (T 5);
  (*1224*) AddTo n_r1new (Times (Einsum [(n_t1,[0;1]); (T 7,[0;2])] [2;1]) (-1) 1);
  (*1225*) Del (T 7);
  (*1226*) AddTo n_r1new (Times (Einsum [(T 8,[0;1]); (n_r1,[0;2])] [1;2]) (-1) 1);
  (*1227*) Del (T 8)]
 [(n_r1new,[0;1]); (n_r2new,[0;0;1;1])].

(** ebcc/codegen/GCC2.py:1231-1325 [hbar_lmatvec_ip_intermediates] *)
Definition GCC2_hbar_lmatvec_ip_intermediates : prog := mkprog
 [(n_v'oovv,[0;0;1;1]); (n_t1,[0;1]); (n_v'ovvv,[0;1;1;1]); (n_v'ooov,[0;0;0;1]); (n_t2,[0;0;1;1]); (n_f'ov,[0;1]); (n_v'ovoo,[0;1;0;0]); (n_v'ovov,[0;1;0;1]); (n_v'oooo,[0;0;0;0]); (n_f'vv,[1;1]); (n_f'oo,[0;0])]
 [(*1281*) Assign (T 19) (Plain (Einsum [(n_v'oovv,[0;1;2;3]); (n_t1,[4;3])] [4;0;1;2]));
  (*1282*) Assign (T 16) (Plain (Einsum [(n_t1,[0;1]); (n_v'oovv,[2;0;3;1])] [2;3]));
  (*1283*) Assign (T 34) (Plain (Einsum [(T 19,[0;1;2;3]); (n_t1,[4;3])] [4;0;1;2]));
  (*1284*) Assign (T 25) (Plain (Einsum [(T 16,[0;1]); (n_t1,[2;1])] [2;0]));
  (*1285*) Assign (T 31) (Plain (Einsum [(n_v'ovvv,[0;1;2;3]); (n_t1,[4;3])] [4;0;1;2]));
  (*1286*) Assign (T 29) (Plain (Einsum [(n_v'ovvv,[0;1;2;3]); (n_t1,[0;3])] [1;2]));
  (*1287*) Assign (T 27) (Plain (Einsum [(n_v'ooov,[0;1;2;3]); (n_t1,[4;3])] [4;0;1;2]));
  (*1288*) Assign (T 7) (Plain (Einsum [(n_v'ooov,[0;1;2;3]); (n_t1,[1;3])] [0;2]));
  (*1289*) Assign (T 23) (Plain (Einsum [(n_v'oovv,[0;1;2;3]); (n_t2,[4;5;2;3])] [4;5;0;1]));
  (*1290*) Assign (T 11) (Plain (Einsum [(n_t2,[0;1;2;3]); (n_v'oovv,[4;1;2;3])] [0;4]));
  (*1291*) Assign (T 1) (Plain (Einsum [(n_t1,[0;1]); (n_f'ov,[2;1])] [2;0]));
  (*1292*) Assign (T 42) (Plain (Einsum [(n_v'oovv,[0;1;2;3]); (n_t2,[4;1;5;3])] [4;0;5;2]));
  (*1293*) Assign (T 41) (Plain (Einsum [(n_t2,[0;1;2;3]); (n_v'oovv,[0;1;4;3])] [2;4]));
  (*1294*) Assign (T 35) (Plain (Einsum [(T 34,[0;1;2;3]); (n_t1,[3;4])] [0;1;2;4]));
  (*1295*) Del (T 34);
  (*1296*) Assign (T 33) (Plain (Einsum [(T 25,[0;1]); (n_t1,[1;2])] [0;2]));
  (*1297*) Assign (T 32) (Plain (Einsum [(T 31,[0;1;2;3]); (n_t1,[4;3])] [4;0;1;2]));
  (*1298*) Del (T 31);
  (*1299*) Assign (T 30) (Plain (Einsum [(T 29,[0;1]); (n_t1,[2;1])] [2;0]));
  (*1300*) Del (T 29);
  (*1301*) Assign (T 28) (Plain (Einsum [(T 27,[0;1;2;3]); (n_t1,[2;4])] [0;1;3;4]));
  (*1302*) Del (T 27);
  (*1303*) Assign (T 26) (Plain (Einsum [(n_t1,[0;1]); (T 7,[0;2])] [2;1]));
  (*1304*) Assign (T 24) (Plain (Einsum [(T 23,[0;1;2;3]); (n_t1,[3;4])] [0;1;2;4]));
  (*1305*) Assign (T 22) (Plain (Einsum [(T 11,[0;1]); (n_t1,[1;2])] [0;2]));
  (*1306*) Assign (T 21) (Times (Einsum [(T 19,[0;1;2;3]); (n_t2,[4;2;5;3])] [0;4;1;5]) (-1) 1);
  (*1307*) Assign (T 20) (Plain (Einsum [(T 19,[0;1;2;3]); (n_t2,[2;1;4;3])] [0;4]));
  (*1308*) Del (T 19);
  (*1309*) Assign (T 18) (Times (Einsum [(n_t2,[0;1;2;3]); (T 16,[4;3])] [0;1;4;2]) (-1) 1);
  (*1310*) Assign (T 17) (Plain (Einsum [(T 16,[0;1]); (n_t2,[2;0;3;1])] [2;3]));
  (*1311*) Del (T 16);
  (*1312*) Assign (T 15) (Plain (Einsum [(n_v'ovvv,[0;1;2;3]); (n_t2,[4;5;2;3])] [4;5;0;1]));
  (*1313*) Assign (T 14) (Plain (Einsum [(n_v'ovvv,[0;1;2;3]); (n_t2,[4;0;2;3])] [4;1]));
  (*1314*) Assign (T 13) (Plain (Einsum [(n_v'ooov,[0;1;2;3]); (n_t2,[4;1;5;3])] [4;0;2;5]));
  (*1315*) Assign (T 12) (Plain (Einsum [(n_v'ovoo,[0;1;2;3]); (n_t2,[2;3;4;1])] [0;4]));
  (*1316*) Assign (T 10) (Plain (Einsum [(n_v'ovov,[0;1;2;3]); (n_t1,[4;3])] [4;0;2;1]));
  (*1317*) Assign (T 9) (Plain (Einsum [(n_t1,[0;1]); (n_v'ovov,[2;1;0;3])] [2;3]));
  (*1318*) Assign (T 8) (Plain (Einsum [(n_v'oooo,[0;1;2;3]); (n_t1,[3;4])] [0;1;2;4]));
  (*1319*) Assign (T 6) (Plain (Einsum [(n_t1,[0;1]); (T 1,[0;2])] [2;1]));
  (*1320*) Assign (T 5) (Plain (Einsum [(n_t2,[0;1;2;3]); (n_f'ov,[4;3])] [4;0;1;2]));
  (*1321*) Assign (T 4) (Plain (Einsum [(n_t2,[0;1;2;3]); (n_f'ov,[1;3])] [0;2]));
  (*1322*) Assign (T 3) (Plain (Einsum [(n_f'vv,[0;1]); (n_t1,[2;1])] [2;0]));
  (*1323*) Assign (T 2) (Plain (Einsum [(n_t1,[0;1]); (n_f'oo,[2;0])] [2;1]))]
 [(T 1,[0;0]); (T 2,[0;1]); (T 11,[0;0]); (T 12,[0;1]); (T 13,[0;0;0;1]); (T 14,[0;1]); (T 15,[0;0;0;1]); (T 17,[0;1]); (T 18,[0;0;0;1]); (T 20,[0;1]); (T 3,[0;1]); (T 21,[0;0;0;1]); (T 22,[0;1]); (T 23,[0;0;0;0]); (T 24,[0;0;0;1]); (T 25,[0;0]); (T 26,[0;1]); (T 28,[0;0;0;1]); (T 30,[0;1]); (T 4,[0;1]); (T 32,[0;0;0;1]); (T 33,[0;1]); (T 35,[0;0;0;1]); (T 5,[0;0;0;1]); (T 41,[1;1]); (T 42,[0;0;1;1]); (T 6,[0;1]); (T 7,[0;0]); (T 8,[0;0;0;1]); (T 9,[0;1]); (T 10,[0;0;0;1])].

(** ebcc/codegen/GCC2.py:1327-1457 [hbar_lmatvec_ip] *)
Definition GCC2_hbar_lmatvec_ip : prog := mkprog
 [(IT 42,[0;0;1;1]); (n_r2,[0;0;1]); (IT 11,[0;0]); (n_v'ovov,[0;1;0;1]); (n_f'oo,[0;0]); (IT 1,[0;0]); (n_t2,[0;0;1;1]); (n_r1,[0]); (n_f'ov,[0;1]); (IT 41,[1;1]); (n_f'vv,[1;1]); (n_t1,[0;1]); (IT 23,[0;0;0;0]); (n_v'oooo,[0;0;0;0]); (IT 25,[0;0]); (IT 7,[0;0]); (IT 13,[0;0;0;1]); (IT 24,[0;0;0;1]); (IT 35,[0;0;0;1]); (IT 5,[0;0;0;1]); (IT 8,[0;0;0;1]); (IT 10,[0;0;0;1]); (IT 15,[0;0;0;1]); (IT 18,[0;0;0;1]); (IT 21,[0;0;0;1]); (IT 28,[0;0;0;1]); (IT 32,[0;0;0;1]); (n_v'ooov,[0;0;0;1]); (IT 12,[0;1]); (IT 14,[0;1]); (IT 20,[0;1]); (IT 2,[0;1]); (IT 22,[0;1]); (IT 26,[0;1]); (IT 30,[0;1]); (IT 33,[0;1]); (IT 6,[0;1]); (IT 9,[0;1]); (IT 17,[0;1]); (IT 3,[0;1]); (IT 4,[0;1]); (n_v'oovv,[0;0;1;1])]
 [(*1355*) Assign (T 6) (Plain (Einsum [(IT 42,[0;1;2;3]); (n_r2,[4;0;2])] [1;4;3]));
  (*1356*) Del (IT 42);
  (*1357*) Assign (T 5) (Plain (Einsum [(n_r2,[0;1;2]); (IT 11,[1;3])] [3;0;2]));
  (*1358*) Assign (T 7) (Plain (Einsum [(n_v'ovov,[0;1;2;3]); (n_r2,[4;2;1])] [4;0;3]));
  (*1359*) Assign (T 9) (Plain (Copy n_f'oo));
  (*1360*) AddTo (T 9) (Plain (Transpose (IT 1) [1;0]));
  (*1361*) Assign (T 4) (Plain (Einsum [(n_r2,[0;1;2]); (n_t2,[0;1;3;2])] [3]));
  (*1362*) Assign (T 8) (Plain (Einsum [(n_r1,[0]); (n_f'ov,[1;2])] [1;0;2]));
  (*1363*) AddTo (T 8) (Times (Copy (T 5)) (-1) 2);
  (*1364*) Del (T 5);
  (*1365*) AddTo (T 8) (Plain (Copy (T 6)));
  (*1366*) Del (T 6);
  (*1367*) AddTo (T 8) (Plain (Copy (T 7)));
  (*1368*) Del (T 7);
  (*1369*) Assign (T 10) (Times (Einsum [(n_r2,[0;1;2]); (T 9,[1;3])] [3;0;2]) (-1) 1);
  (*1370*) Del (T 9);
  (*1371*) Assign (T 12) (Times (Copy (IT 41)) (1) 2);
  (*1372*) Del (IT 41);
  (*1373*) AddTo (T 12) (Times (Copy n_f'vv) (-1) 1);
  (*1374*) AddTo (T 12) (Plain (Einsum [(n_f'ov,[0;1]); (n_t1,[0;2])] [2;1]));
  (*1375*) Assign (T 11) (Times (Copy (IT 23)) (-1) 2);
  (*1376*) Del (IT 23);
  (*1377*) AddTo (T 11) (Times (Copy n_v'oooo) (-1) 1);
  (*1378*) Assign (T 3) (Times (Copy n_f'oo) (2) 1);
  (*1379*) AddTo (T 3) (Times (Transpose (IT 1) [1;0]) (2) 1);
  (*1380*) Del (IT 1);
  (*1381*) AddTo (T 3) (Plain (Copy (IT 11)));
  (*1382*) Del (IT 11);
  (*1383*) AddTo (T 3) (Times (Copy (IT 25)) (2) 1);
  (*1384*) Del (IT 25);
  (*1385*) AddTo (T 3) (Times (Transpose (IT 7) [1;0]) (2) 1);
  (*1386*) Del (IT 7);
  (*1387*) Assign (T 1) (Plain (Copy (IT 13)));
  (*1388*) Del (IT 13);
  (*1389*) AddTo (T 1) (Times (Transpose (IT 24) [0;2;1;3]) (1) 4);
  (*1390*) Del (IT 24);
  (*1391*) AddTo (T 1) (Times (Transpose (IT 35) [0;2;1;3]) (1) 2);
  (*1392*) Del (IT 35);
  (*1393*) AddTo (T 1) (Times (Transpose (IT 5) [1;0;2;3]) (1) 2);
  (*1394*) Del (IT 5);
  (*1395*) AddTo (T 1) (Times (Transpose (IT 8) [0;2;1;3]) (1) 2);
  (*1396*) Del (IT 8);
  (*1397*) AddTo (T 1) (Plain (Copy (IT 10)));
  (*1398*) Del (IT 10);
  (*1399*) AddTo (T 1) (Times (Transpose (IT 15) [0;2;1;3]) (-1) 4);
  (*1400*) Del (IT 15);
  (*1401*) AddTo (T 1) (Times (Transpose (IT 18) [0;2;1;3]) (-1) 2);
  (*1402*) Del (IT 18);
  (*1403*) AddTo (T 1) (Times (Transpose (IT 21) [0;2;1;3]) (-1) 1);
  (*1404*) Del (IT 21);
  (*1405*) AddTo (T 1) (Times (Copy (IT 28)) (-1) 1);
  (*1406*) Del (IT 28);
  (*1407*) AddTo (T 1) (Times (Transpose (IT 32) [0;2;1;3]) (-1) 2);
  (*1408*) Del (IT 32);
  (*1409*) AddTo (T 1) (Times (Transpose n_v'ooov [0;2;1;3]) (-1) 2);
  (*1410*) Assign (T 2) (Plain (Copy (IT 12)));
  (*1411*) Del (IT 12);
  (*1412*) AddTo (T 2) (Plain (Copy (IT 14)));
  (*1413*) Del (IT 14);
  (*1414*) AddTo (T 2) (Plain (Copy (IT 20)));
  (*1415*) Del (IT 20);
  (*1416*) AddTo (T 2) (Times (Copy (IT 2)) (2) 1);
  (*1417*) Del (IT 2);
  (*1418*) AddTo (T 2) (Plain (Copy (IT 22)));
  (*1419*) Del (IT 22);
  (*1420*) AddTo (T 2) (Times (Copy (IT 26)) (2) 1);
  (*1421*) Del (IT 26);
  (*1422*) AddTo (T 2) (Times (Copy (IT 30)) (2) 1);
  (*1423*) Del (IT 30);
  (*1424*) AddTo (T 2) (Times (Copy (IT 33)) (2) 1);
  (*1425*) Del (IT 33);
  (*1426*) AddTo (T 2) (Times (Copy (IT 6)) (2) 1);
  (*1427*) Del (IT 6);
  (*1428*) AddTo (T 2) (Times (Copy (IT 9)) (2) 1);
  (*1429*) Del (IT 9);
  (*1430*) AddTo (T 2) (Times (Copy n_f'ov) (-2) 1);
  (*1431*) AddTo (T 2) (Times (Copy (IT 17)) (-2) 1);
  (*1432*) Del (IT 17);
  (*1433*) AddTo (T 2) (Times (Copy (IT 3)) (-2) 1);
  (*1434*) Del (IT 3);
  (*1435*) AddTo (T 2) (Times (Copy (IT 4)) (-2) 1);
  (*1436*) Del (IT 4);
  (*1437*) Assign n_r2new (Times (Einsum [(n_v'oovv,[0;1;2;3]); (T 4,[3])] [0;1;2]) (1) 2);
  (*1438*) Del (T 4);
  (*1439*) AddTo n_r2new (Times (Einsum [(n_v'ooov,[0;1;2;3]); (n_r1,[2])] [0;1;3]) (-1) 1);
  (*1440*) AddTo n_r2new (Times (Copy (T 8)) (-1) 1);
  (*1441*) AddTo n_r2new (Plain (Transpose (T 8) [1;0;2]));
  (*1442*) Del (T 8);
  (*1443*) AddTo n_r2new (Times (Copy (T 10)) (-1) 1);
  (*1444*) AddTo n_r2new (Plain (Transpose (T 10) [1;0;2]));
  (*1445*) Del (T 10);
  (*1446*) AddTo n_r2new (Times (Einsum [(n_r2,[0;1;2]); (T 11,[1;0;3;4])] [3;4;2]) (1) 2);
  (*1447*) Del (T 11);
  (*1448*) AddTo n_r2new (Times (Einsum [(n_r2,[0;1;2]); (T 12,[2;3])] [0;1;3]) (-1) 1);
  (*1449*) Del (T 12);
  (*1450*) Assign n_r1new (Plain (Einsum [(n_r2,[0;1;2]); (T 1,[0;3;1;2])] [3]));
  (*1451*) Del (T 1);
  (*1452*) AddTo n_r1new (Times (Einsum [(n_r2,[0;1;2]); (T 2,[1;2])] [0]) (-1) 2);
  (*1453*) Del (T 2);
  (*1454*) AddTo n_r1new (Times (Einsum [(n_r1,[0]); (T 3,[0;1])] [1]) (-1) 2);
  (*1455*) Del (T 3)]
 [(n_r1new,[0]); (n_r2new,[0;0;1])].

(** ebcc/codegen/GCC2.py:1459-1533 [hbar_lmatvec_ea_intermediates] *)
Definition GCC2_hbar_lmatvec_ea_intermediates : prog := mkprog
 [(n_t1,[0;1]); (n_v'oovv,[0;0;1;1]); (n_v'ovvv,[0;1;1;1]); (n_v'ooov,[0;0;0;1]); (n_t2,[0;0;1;1]); (n_f'ov,[0;1]); (n_v'ovoo,[0;1;0;0]); (n_v'vvvv,[1;1;1;1]); (n_v'ovov,[0;1;0;1]); (n_f'vv,[1;1]); (n_f'oo,[0;0])]
 [(*1503*) Assign (T 17) (Plain (Einsum [(n_t1,[0;1]); (n_v'oovv,[2;0;3;1])] [2;3]));
  (*1504*) Assign (T 30) (Plain (Einsum [(T 17,[0;1]); (n_t1,[2;1])] [2;0]));
  (*1505*) Assign (T 8) (Plain (Einsum [(n_v'ovvv,[0;1;2;3]); (n_t1,[0;3])] [1;2]));
  (*1506*) Assign (T 25) (Plain (Einsum [(n_v'ooov,[0;1;2;3]); (n_t1,[1;3])] [0;2]));
  (*1507*) Assign (T 22) (Plain (Einsum [(n_v'oovv,[0;1;2;3]); (n_t2,[4;1;2;3])] [4;0]));
  (*1508*) Assign (T 19) (Plain (Einsum [(n_v'oovv,[0;1;2;3]); (n_t1,[4;3])] [4;0;1;2]));
  (*1509*) Assign (T 6) (Plain (Einsum [(n_t1,[0;1]); (n_f'ov,[2;1])] [2;0]));
  (*1510*) Assign (T 31) (Plain (Einsum [(n_t1,[0;1]); (T 30,[2;0])] [2;1]));
  (*1511*) Del (T 30);
  (*1512*) Assign (T 29) (Plain (Einsum [(n_v'ovvv,[0;1;2;3]); (n_t1,[4;3])] [4;0;1;2]));
  (*1513*) Assign (T 28) (Plain (Einsum [(T 8,[0;1]); (n_t1,[2;1])] [2;0]));
  (*1514*) Assign (T 26) (Plain (Einsum [(n_t1,[0;1]); (T 25,[0;2])] [2;1]));
  (*1515*) Del (T 25);
  (*1516*) Assign (T 24) (Plain (Einsum [(n_v'oovv,[0;1;2;3]); (n_t2,[4;1;5;3])] [4;0;5;2]));
  (*1517*) Assign (T 23) (Plain (Einsum [(n_t1,[0;1]); (T 22,[2;0])] [2;1]));
  (*1518*) Assign (T 21) (Times (Einsum [(T 19,[0;1;2;3]); (n_t2,[2;1;4;5])] [0;4;5;3]) (-1) 1);
  (*1519*) Assign (T 20) (Plain (Einsum [(T 19,[0;1;2;3]); (n_t2,[2;1;4;3])] [0;4]));
  (*1520*) Assign (T 18) (Plain (Einsum [(T 17,[0;1]); (n_t2,[2;0;3;1])] [2;3]));
  (*1521*) Assign (T 16) (Plain (Einsum [(n_v'ovvv,[0;1;2;3]); (n_t2,[4;0;5;3])] [4;5;1;2]));
  (*1522*) Assign (T 15) (Plain (Einsum [(n_v'ovvv,[0;1;2;3]); (n_t2,[4;0;2;3])] [4;1]));
  (*1523*) Assign (T 14) (Plain (Einsum [(n_v'ovoo,[0;1;2;3]); (n_t2,[2;3;4;5])] [0;4;5;1]));
  (*1524*) Assign (T 13) (Plain (Einsum [(n_v'ovoo,[0;1;2;3]); (n_t2,[2;3;4;1])] [0;4]));
  (*1525*) Assign (T 12) (Plain (Einsum [(n_t2,[0;1;2;3]); (n_v'oovv,[0;1;4;3])] [2;4]));
  (*1526*) Assign (T 11) (Plain (Einsum [(n_t1,[0;1]); (n_v'vvvv,[2;3;4;1])] [0;2;3;4]));
  (*1527*) Assign (T 9) (Plain (Einsum [(n_t1,[0;1]); (n_v'ovov,[2;1;0;3])] [2;3]));
  (*1528*) Assign (T 7) (Plain (Einsum [(n_t1,[0;1]); (T 6,[0;2])] [2;1]));
  (*1529*) Assign (T 4) (Plain (Einsum [(n_t2,[0;1;2;3]); (n_f'ov,[1;3])] [0;2]));
  (*1530*) Assign (T 3) (Plain (Einsum [(n_f'vv,[0;1]); (n_t1,[2;1])] [2;0]));
  (*1531*) Assign (T 2) (Plain (Einsum [(n_t1,[0;1]); (n_f'oo,[2;0])] [2;1]))]
 [(T 2,[0;1]); (T 11,[0;1;1;1]); (T 12,[1;1]); (T 13,[0;1]); (T 14,[0;1;1;1]); (T 15,[0;1]); (T 16,[0;1;1;1]); (T 17,[0;1]); (T 18,[0;1]); (T 19,[0;0;0;1]); (T 20,[0;1]); (T 3,[0;1]); (T 21,[0;1;1;1]); (T 22,[0;0]); (T 23,[0;1]); (T 24,[0;0;1;1]); (T 26,[0;1]); (T 28,[0;1]); (T 29,[0;0;1;1]); (T 4,[0;1]); (T 31,[0;1]); (T 6,[0;0]); (T 7,[0;1]); (T 8,[1;1]); (T 9,[0;1])].

(** ebcc/codegen/GCC2.py:1535-1666 [hbar_lmatvec_ea] *)
Definition GCC2_hbar_lmatvec_ea : prog := mkprog
 [(n_t1,[0;1]); (n_f'ov,[0;1]); (IT 12,[1;1]); (n_f'vv,[1;1]); (IT 24,[0;0;1;1]); (n_r2,[1;1;0]); (n_v'ovov,[0;1;0;1]); (n_t2,[0;0;1;1]); (n_f'oo,[0;0]); (IT 22,[0;0]); (IT 6,[0;0]); (n_r1,[1]); (IT 13,[0;1]); (IT 15,[0;1]); (IT 20,[0;1]); (IT 2,[0;1]); (IT 23,[0;1]); (IT 26,[0;1]); (IT 28,[0;1]); (IT 31,[0;1]); (IT 7,[0;1]); (IT 9,[0;1]); (IT 18,[0;1]); (IT 3,[0;1]); (IT 4,[0;1]); (IT 29,[0;0;1;1]); (IT 17,[0;1]); (IT 19,[0;0;0;1]); (n_v'ovoo,[0;1;0;0]); (IT 11,[0;1;1;1]); (IT 16,[0;1;1;1]); (IT 21,[0;1;1;1]); (IT 14,[0;1;1;1]); (n_v'ovvv,[0;1;1;1]); (IT 8,[1;1]); (n_v'vvvv,[1;1;1;1]); (n_v'oovv,[0;0;1;1])]
 [(*1563*) Assign (T 14) (Plain (Einsum [(n_t1,[0;1]); (n_f'ov,[0;2])] [2;1]));
  (*1564*) Assign (T 15) (Plain (Copy (IT 12)));
  (*1565*) AddTo (T 15) (Times (Copy n_f'vv) (-2) 1);
  (*1566*) AddTo (T 15) (Times (Transpose (T 14) [1;0]) (2) 1);
  (*1567*) Del (T 14);
  (*1568*) Assign (T 12) (Plain (Einsum [(IT 24,[0;1;2;3]); (n_r2,[4;2;0])] [1;3;4]));
  (*1569*) Assign (T 16) (Times (Einsum [(T 15,[0;1]); (n_r2,[2;0;3])] [3;1;2]) (-1) 2);
  (*1570*) Del (T 15);
  (*1571*) Assign (T 13) (Plain (Einsum [(n_v'ovov,[0;1;2;3]); (n_r2,[4;1;2])] [0;4;3]));
  (*1572*) Assign (T 8) (Plain (Einsum [(n_r2,[0;1;2]); (n_t2,[3;2;0;1])] [3]));
  (*1573*) Assign (T 2) (Plain (Einsum [(n_t1,[0;1]); (n_r2,[2;1;3])] [3;0;2]));
  (*1574*) Assign (T 18) (Plain (Copy n_f'oo));
  (*1575*) AddTo (T 18) (Times (Copy (IT 22)) (1) 2);
  (*1576*) Del (IT 22);
  (*1577*) AddTo (T 18) (Plain (Transpose (IT 6) [1;0]));
  (*1578*) Del (IT 6);
  (*1579*) Assign (T 17) (Plain (Einsum [(n_r1,[0]); (n_f'ov,[1;2])] [1;2;0]));
  (*1580*) AddTo (T 17) (Plain (Copy (T 12)));
  (*1581*) Del (T 12);
  (*1582*) AddTo (T 17) (Plain (Copy (T 13)));
  (*1583*) Del (T 13);
  (*1584*) AddTo (T 17) (Plain (Copy (T 16)));
  (*1585*) Del (T 16);
  (*1586*) Assign (T 11) (Plain (Einsum [(n_r2,[0;1;2]); (n_t2,[3;4;0;1])] [2;3;4]));
  (*1587*) Assign (T 6) (Times (Copy (IT 13)) (1) 2);
  (*1588*) Del (IT 13);
  (*1589*) AddTo (T 6) (Times (Copy (IT 15)) (1) 2);
  (*1590*) Del (IT 15);
  (*1591*) AddTo (T 6) (Times (Copy (IT 20)) (1) 2);
  (*1592*) Del (IT 20);
  (*1593*) AddTo (T 6) (Plain (Copy (IT 2)));
  (*1594*) Del (IT 2);
  (*1595*) AddTo (T 6) (Times (Copy (IT 23)) (1) 2);
  (*1596*) Del (IT 23);
  (*1597*) AddTo (T 6) (Plain (Copy (IT 26)));
  (*1598*) Del (IT 26);
  (*1599*) AddTo (T 6) (Plain (Copy (IT 28)));
  (*1600*) Del (IT 28);
  (*1601*) AddTo (T 6) (Plain (Copy (IT 31)));
  (*1602*) Del (IT 31);
  (*1603*) AddTo (T 6) (Plain (Copy (IT 7)));
  (*1604*) Del (IT 7);
  (*1605*) AddTo (T 6) (Plain (Copy (IT 9)));
  (*1606*) Del (IT 9);
  (*1607*) AddTo (T 6) (Times (Copy n_f'ov) (-1) 1);
  (*1608*) AddTo (T 6) (Times (Copy (IT 18)) (-1) 1);
  (*1609*) Del (IT 18);
  (*1610*) AddTo (T 6) (Times (Copy (IT 3)) (-1) 1);
  (*1611*) Del (IT 3);
  (*1612*) AddTo (T 6) (Times (Copy (IT 4)) (-1) 1);
  (*1613*) Del (IT 4);
  (*1614*) Assign (T 9) (Times (Einsum [(n_r1,[0]); (n_t1,[1;0])] [1]) (2) 1);
  (*1615*) AddTo (T 9) (Plain (Copy (T 8)));
  (*1616*) Assign (T 4) (Times (Einsum [(T 2,[0;1;2]); (n_t1,[3;2])] [0;1;3]) (-1) 1);
  (*1617*) Assign (T 3) (Plain (Copy (IT 24)));
  (*1618*) Del (IT 24);
  (*1619*) AddTo (T 3) (Plain (Copy (IT 29)));
  (*1620*) Del (IT 29);
  (*1621*) AddTo (T 3) (Times (Transpose n_v'ovov [0;2;3;1]) (-1) 1);
  (*1622*) Assign (T 10) (Plain (Copy n_f'ov));
  (*1623*) AddTo (T 10) (Plain (Copy (IT 17)));
  (*1624*) Del (IT 17);
  (*1625*) Assign (T 5) (Plain (Copy (IT 19)));
  (*1626*) Del (IT 19);
  (*1627*) AddTo (T 5) (Times (Transpose n_v'ovoo [0;2;3;1]) (-1) 1);
  (*1628*) Assign (T 1) (Times (Copy (IT 11)) (1) 2);
  (*1629*) Del (IT 11);
  (*1630*) AddTo (T 1) (Plain (Copy (IT 16)));
  (*1631*) Del (IT 16);
  (*1632*) AddTo (T 1) (Times (Copy (IT 21)) (1) 4);
  (*1633*) Del (IT 21);
  (*1634*) AddTo (T 1) (Times (Copy (IT 14)) (-1) 4);
  (*1635*) Del (IT 14);
  (*1636*) AddTo (T 1) (Times (Transpose n_v'ovvv [0;2;3;1]) (-1) 2);
  (*1637*) Assign (T 7) (Times (Copy (IT 12)) (1) 2);
  (*1638*) Del (IT 12);
  (*1639*) AddTo (T 7) (Plain (Copy (IT 8)));
  (*1640*) Del (IT 8);
  (*1641*) AddTo (T 7) (Times (Copy n_f'vv) (-1) 1);
  (*1642*) Assign n_r2new (Times (Einsum [(n_v'vvvv,[0;1;2;3]); (n_r2,[2;3;4])] [0;1;4]) (1) 2);
  (*1643*) AddTo n_r2new (Times (Einsum [(n_v'ovvv,[0;1;2;3]); (n_r1,[1])] [2;3;0]) (-1) 1);
  (*1644*) AddTo n_r2new (Times (Einsum [(n_v'oovv,[0;1;2;3]); (T 11,[4;1;0])] [2;3;4]) (-1) 4);
  (*1645*) Del (T 11);
  (*1646*) AddTo n_r2new (Times (Einsum [(T 8,[0]); (n_v'oovv,[1;0;2;3])] [2;3;1]) (1) 2);
  (*1647*) Del (T 8);
  (*1648*) AddTo n_r2new (Times (Transpose (T 17) [1;2;0]) (-1) 1);
  (*1649*) AddTo n_r2new (Plain (Transpose (T 17) [2;1;0]));
  (*1650*) Del (T 17);
  (*1651*) AddTo n_r2new (Times (Einsum [(n_r2,[0;1;2]); (T 18,[2;3])] [0;1;3]) (-1) 1);
  (*1652*) Del (T 18);
  (*1653*) Assign n_r1new (Plain (Einsum [(n_r2,[0;1;2]); (T 1,[2;0;1;3])] [3]));
  (*1654*) Del (T 1);
  (*1655*) AddTo n_r1new (Plain (Einsum [(T 2,[0;1;2]); (T 3,[0;1;2;3])] [3]));
  (*1656*) Del (T 2);
  (*1656*) Del (T 3);
  (*1657*) AddTo n_r1new (Times (Einsum [(T 4,[0;1;2]); (T 5,[0;2;1;3])] [3]) (-1) 2);
  (*1658*) Del (T 4);
  (*1658*) Del (T 5);
  (*1659*) AddTo n_r1new (Times (Einsum [(T 6,[0;1]); (n_r2,[2;1;0])] [2]) (-1) 1);
  (*1660*) Del (T 6);
  (*1661*) AddTo n_r1new (Times (Einsum [(n_r1,[0]); (T 7,[0;1])] [1]) (-1) 1);
  (*1662*) Del (T 7);
  (*1663*) AddTo n_r1new (Times (Einsum [(T 10,[0;1]); (T 9,[0])] [1]) (-1) 2);
  (*1664*) Del (T 10);
  (*1664*) Del (T 9)]
 [(n_r1new,[1]); (n_r2new,[1;1;0])].

(** ebcc/codegen/GCC2.py:1668-1770 [hbar_lmatvec_ee_intermediates] *)
Definition GCC2_hbar_lmatvec_ee_intermediates : prog := mkprog
 [(n_v'oovv,[0;0;1;1]); (n_t1,[0;1]); (n_v'ovvv,[0;1;1;1]); (n_v'ooov,[0;0;0;1]); (n_t2,[0;0;1;1]); (n_f'ov,[0;1]); (n_v'ovoo,[0;1;0;0]); (n_v'vvvv,[1;1;1;1]); (n_v'ovov,[0;1;0;1]); (n_v'oooo,[0;0;0;0]); (n_f'vv,[1;1]); (n_f'oo,[0;0])]
 [(*1726*) Assign (T 30) (Plain (Einsum [(n_v'oovv,[0;1;2;3]); (n_t1,[4;3])] [4;0;1;2]));
  (*1727*) Assign (T 27) (Plain (Einsum [(n_t1,[0;1]); (n_v'oovv,[2;0;3;1])] [2;3]));
  (*1728*) Assign (T 47) (Plain (Einsum [(T 30,[0;1;2;3]); (n_t1,[4;3])] [4;0;1;2]));
  (*1729*) Assign (T 39) (Plain (Einsum [(T 27,[0;1]); (n_t1,[2;1])] [2;0]));
  (*1730*) Assign (T 11) (Plain (Einsum [(n_v'ovvv,[0;1;2;3]); (n_t1,[4;3])] [4;0;1;2]));
  (*1731*) Assign (T 10) (Plain (Einsum [(n_v'ovvv,[0;1;2;3]); (n_t1,[0;3])] [1;2]));
  (*1732*) Assign (T 41) (Plain (Einsum [(n_v'ooov,[0;1;2;3]); (n_t1,[4;3])] [4;0;1;2]));
  (*1733*) Assign (T 9) (Plain (Einsum [(n_v'ooov,[0;1;2;3]); (n_t1,[1;3])] [0;2]));
  (*1734*) Assign (T 35) (Plain (Einsum [(n_v'oovv,[0;1;2;3]); (n_t2,[4;5;2;3])] [4;5;0;1]));
  (*1735*) Assign (T 17) (Plain (Einsum [(n_t2,[0;1;2;3]); (n_v'oovv,[4;1;2;3])] [0;4]));
  (*1736*) Assign (T 1) (Plain (Einsum [(n_t1,[0;1]); (n_f'ov,[2;1])] [2;0]));
  (*1737*) Assign (T 48) (Plain (Einsum [(T 47,[0;1;2;3]); (n_t1,[3;4])] [0;1;2;4]));
  (*1738*) Del (T 47);
  (*1739*) Assign (T 46) (Plain (Einsum [(T 39,[0;1]); (n_t1,[1;2])] [0;2]));
  (*1740*) Assign (T 45) (Plain (Einsum [(T 11,[0;1;2;3]); (n_t1,[4;3])] [4;0;1;2]));
  (*1741*) Assign (T 44) (Plain (Einsum [(T 10,[0;1]); (n_t1,[2;1])] [2;0]));
  (*1742*) Assign (T 42) (Plain (Einsum [(T 41,[0;1;2;3]); (n_t1,[2;4])] [0;1;3;4]));
  (*1743*) Del (T 41);
  (*1744*) Assign (T 40) (Plain (Einsum [(n_t1,[0;1]); (T 9,[0;2])] [2;1]));
  (*1745*) Assign (T 37) (Plain (Einsum [(n_v'oovv,[0;1;2;3]); (n_t2,[4;1;5;3])] [4;0;5;2]));
  (*1746*) Assign (T 36) (Plain (Einsum [(T 35,[0;1;2;3]); (n_t1,[3;4])] [0;1;2;4]));
  (*1747*) Assign (T 34) (Plain (Einsum [(n_t1,[0;1]); (T 17,[2;0])] [2;1]));
  (*1748*) Assign (T 33) (Times (Einsum [(T 30,[0;1;2;3]); (n_t2,[2;1;4;5])] [0;4;5;3]) (-1) 1);
  (*1749*) Assign (T 32) (Times (Einsum [(T 30,[0;1;2;3]); (n_t2,[4;2;5;3])] [0;4;1;5]) (-1) 1);
  (*1750*) Assign (T 31) (Plain (Einsum [(T 30,[0;1;2;3]); (n_t2,[2;1;4;3])] [0;4]));
  (*1751*) Assign (T 29) (Times (Einsum [(n_t2,[0;1;2;3]); (T 27,[4;3])] [0;1;4;2]) (-1) 1);
  (*1752*) Assign (T 28) (Plain (Einsum [(T 27,[0;1]); (n_t2,[2;0;3;1])] [2;3]));
  (*1753*) Assign (T 25) (Plain (Einsum [(n_t2,[0;1;2;3]); (n_v'ovvv,[1;4;5;3])] [0;2;4;5]));
  (*1754*) Assign (T 24) (Plain (Einsum [(n_v'ovvv,[0;1;2;3]); (n_t2,[4;5;2;3])] [4;5;0;1]));
  (*1755*) Assign (T 23) (Plain (Einsum [(n_v'ovvv,[0;1;2;3]); (n_t2,[4;0;2;3])] [4;1]));
  (*1756*) Assign (T 22) (Plain (Einsum [(n_v'ovoo,[0;1;2;3]); (n_t2,[2;3;4;5])] [0;4;5;1]));
  (*1757*) Assign (T 21) (Plain (Einsum [(n_v'ooov,[0;1;2;3]); (n_t2,[4;1;5;3])] [4;0;2;5]));
  (*1758*) Assign (T 20) (Plain (Einsum [(n_v'ovoo,[0;1;2;3]); (n_t2,[2;3;4;1])] [0;4]));
  (*1759*) Assign (T 18) (Plain (Einsum [(n_t2,[0;1;2;3]); (n_v'oovv,[0;1;4;3])] [2;4]));
  (*1760*) Assign (T 16) (Plain (Einsum [(n_t1,[0;1]); (n_v'vvvv,[2;3;4;1])] [0;2;3;4]));
  (*1761*) Assign (T 14) (Plain (Einsum [(n_v'ovov,[0;1;2;3]); (n_t1,[4;3])] [4;0;2;1]));
  (*1762*) Assign (T 13) (Plain (Einsum [(n_t1,[0;1]); (n_v'ovov,[2;1;0;3])] [2;3]));
  (*1763*) Assign (T 12) (Plain (Einsum [(n_v'oooo,[0;1;2;3]); (n_t1,[3;4])] [0;1;2;4]));
  (*1764*) Assign (T 8) (Plain (Einsum [(n_t1,[0;1]); (T 1,[0;2])] [2;1]));
  (*1765*) Assign (T 6) (Plain (Einsum [(n_t2,[0;1;2;3]); (n_f'ov,[4;3])] [4;0;1;2]));
  (*1766*) Assign (T 5) (Plain (Einsum [(n_t2,[0;1;2;3]); (n_f'ov,[1;3])] [0;2]));
  (*1767*) Assign (T 4) (Plain (Einsum [(n_f'vv,[0;1]); (n_t1,[2;1])] [2;0]));
  (*1768*) Assign (T 3) (Plain (Einsum [(n_t1,[0;1]); (n_f'oo,[2;0])] [2;1]))]
 [(T 1,[0;0]); (T 11,[0;0;1;1]); (T 12,[0;0;0;1]); (T 13,[0;1]); (T 14,[0;0;0;1]); (T 16,[0;1;1;1]); (T 17,[0;0]); (T 18,[1;1]); (T 20,[0;1]); (T 3,[0;1]); (T 21,[0;0;0;1]); (T 22,[0;1;1;1]); (T 23,[0;1]); (T 24,[0;0;0;1]); (T 25,[0;1;1;1]); (T 27,[0;1]); (T 28,[0;1]); (T 29,[0;0;0;1]); (T 30,[0;0;0;1]); (T 4,[0;1]); (T 31,[0;1]); (T 32,[0;0;0;1]); (T 33,[0;1;1;1]); (T 34,[0;1]); (T 35,[0;0;0;0]); (T 36,[0;0;0;1]); (T 37,[0;0;1;1]); (T 39,[0;0]); (T 40,[0;1]); (T 5,[0;1]); (T 42,[0;0;0;1]); (T 44,[0;1]); (T 45,[0;0;0;1]); (T 46,[0;1]); (T 48,[0;0;0;1]); (T 6,[0;0;0;1]); (T 8,[0;1]); (T 9,[0;0]); (T 10,[1;1])].

(** ebcc/codegen/GCC2.py:1772-1985 [hbar_lmatvec_ee] *)
Definition GCC2_hbar_lmatvec_ee : prog := mkprog
 [(n_t2,[0;0;1;1]); (n_r2,[0;0;1;1]); (n_f'oo,[0;0]); (IT 1,[0;0]); (IT 17,[0;0]); (n_t1,[0;1]); (n_v'oovv,[0;0;1;1]); (IT 37,[0;0;1;1]); (n_v'ovov,[0;1;0;1]); (n_f'ov,[0;1]); (n_r1,[0;1]); (n_v'ooov,[0;0;0;1]); (n_f'vv,[1;1]); (n_v'ovvv,[0;1;1;1]); (IT 18,[1;1]); (IT 35,[0;0;0;0]); (n_v'oooo,[0;0;0;0]); (IT 16,[0;1;1;1]); (IT 25,[0;1;1;1]); (IT 33,[0;1;1;1]); (IT 22,[0;1;1;1]); (IT 13,[0;1]); (IT 20,[0;1]); (IT 23,[0;1]); (IT 3,[0;1]); (IT 31,[0;1]); (IT 34,[0;1]); (IT 40,[0;1]); (IT 44,[0;1]); (IT 46,[0;1]); (IT 8,[0;1]); (IT 28,[0;1]); (IT 4,[0;1]); (IT 5,[0;1]); (IT 11,[0;0;1;1]); (IT 10,[1;1]); (IT 12,[0;0;0;1]); (IT 14,[0;0;0;1]); (IT 21,[0;0;0;1]); (IT 36,[0;0;0;1]); (IT 48,[0;0;0;1]); (IT 6,[0;0;0;1]); (IT 24,[0;0;0;1]); (IT 29,[0;0;0;1]); (IT 32,[0;0;0;1]); (IT 42,[0;0;0;1]); (IT 45,[0;0;0;1]); (IT 27,[0;1]); (IT 39,[0;0]); (IT 9,[0;0]); (IT 30,[0;0;0;1]); (n_v'ovoo,[0;1;0;0]); (n_v'vvvv,[1;1;1;1])]
 [(*1800*) Assign (T 3) (Plain (Einsum [(n_t2,[0;1;2;3]); (n_r2,[4;1;2;3])] [4;0]));
  (*1801*) Assign (T 31) (Plain (Copy n_f'oo));
  (*1802*) AddTo (T 31) (Plain (Transpose (IT 1) [1;0]));
  (*1803*) AddTo (T 31) (Times (Copy (IT 17)) (1) 2);
  (*1804*) Assign (T 2) (Plain (Einsum [(n_r2,[0;1;2;3]); (n_t2,[0;1;4;3])] [2;4]));
  (*1805*) Assign (T 7) (Plain (Einsum [(n_r2,[0;1;2;3]); (n_t1,[4;3])] [0;1;4;2]));
  (*1806*) Assign (T 30) (Times (Einsum [(T 3,[0;1]); (n_v'oovv,[2;1;3;4])] [0;2;3;4]) (-1) 1);
  (*1807*) Assign (T 32) (Times (Einsum [(T 31,[0;1]); (n_r2,[2;0;3;4])] [1;2;3;4]) (-1) 1);
  (*1808*) Del (T 31);
  (*1809*) Assign (T 19) (Plain (Einsum [(n_r2,[0;1;2;3]); (IT 37,[1;4;3;5])] [4;0;5;2]));
  (*1810*) Assign (T 20) (Plain (Einsum [(n_r2,[0;1;2;3]); (n_v'ovov,[4;3;1;5])] [0;4;2;5]));
  (*1811*) Assign (T 23) (Times (Einsum [(T 2,[0;1]); (n_v'oovv,[2;3;4;1])] [2;3;0;4]) (-1) 1);
  (*1812*) Assign (T 22) (Plain (Einsum [(T 7,[0;1;2;3]); (n_f'ov,[2;4])] [0;1;4;3]));
  (*1813*) Assign (T 26) (Plain (Einsum [(n_r1,[0;1]); (n_v'ooov,[2;3;0;4])] [2;3;1;4]));
  (*1814*) Assign (T 27) (Plain (Einsum [(n_r2,[0;1;2;3]); (n_f'vv,[4;3])] [0;1;4;2]));
  (*1815*) Assign (T 1) (Plain (Einsum [(n_t1,[0;1]); (n_r1,[2;1])] [2;0]));
  (*1816*) Assign (T 33) (Times (Transpose (T 30) [0;1;3;2]) (1) 2);
  (*1817*) Del (T 30);
  (*1818*) AddTo (T 33) (Plain (Transpose (T 32) [0;1;3;2]));
  (*1819*) Del (T 32);
  (*1820*) Assign (T 25) (Plain (Einsum [(n_v'ovvv,[0;1;2;3]); (n_r1,[4;1])] [4;0;2;3]));
  (*1821*) Assign (T 29) (Plain (Einsum [(IT 18,[0;1]); (n_r2,[2;3;4;0])] [2;3;1;4]));
  (*1822*) Assign (T 21) (Plain (Einsum [(n_r1,[0;1]); (n_f'ov,[2;3])] [2;0;3;1]));
  (*1823*) AddTo (T 21) (Plain (Copy (T 19)));
  (*1824*) Del (T 19);
  (*1825*) AddTo (T 21) (Times (Copy (T 20)) (-1) 1);
  (*1826*) Del (T 20);
  (*1827*) Assign (T 24) (Plain (Copy (T 22)));
  (*1828*) Del (T 22);
  (*1829*) AddTo (T 24) (Times (Copy (T 23)) (-1) 2);
  (*1830*) Del (T 23);
  (*1831*) Assign (T 18) (Plain (Einsum [(n_t2,[0;1;2;3]); (n_r2,[4;5;2;3])] [4;5;0;1]));
  (*1832*) Assign (T 34) (Times (Copy (IT 35)) (-1) 2);
  (*1833*) Del (IT 35);
  (*1834*) AddTo (T 34) (Times (Copy n_v'oooo) (-1) 1);
  (*1835*) Assign (T 28) (Times (Transpose (T 26) [1;0;2;3]) (-1) 1);
  (*1836*) Del (T 26);
  (*1837*) AddTo (T 28) (Times (Transpose (T 27) [1;0;2;3]) (-1) 1);
  (*1838*) Del (T 27);
  (*1839*) Assign (T 4) (Times (Copy (IT 16)) (1) 2);
  (*1840*) Del (IT 16);
  (*1841*) AddTo (T 4) (Plain (Copy (IT 25)));
  (*1842*) Del (IT 25);
  (*1843*) AddTo (T 4) (Times (Copy (IT 33)) (1) 4);
  (*1844*) Del (IT 33);
  (*1845*) AddTo (T 4) (Times (Copy (IT 22)) (-1) 4);
  (*1846*) Del (IT 22);
  (*1847*) AddTo (T 4) (Times (Transpose n_v'ovvv [0;2;3;1]) (-1) 2);
  (*1848*) Assign (T 10) (Plain (Copy (IT 13)));
  (*1849*) Del (IT 13);
  (*1850*) AddTo (T 10) (Times (Copy (IT 20)) (1) 2);
  (*1851*) Del (IT 20);
  (*1852*) AddTo (T 10) (Times (Copy (IT 23)) (1) 2);
  (*1853*) Del (IT 23);
  (*1854*) AddTo (T 10) (Plain (Copy (IT 3)));
  (*1855*) Del (IT 3);
  (*1856*) AddTo (T 10) (Times (Copy (IT 31)) (1) 2);
  (*1857*) Del (IT 31);
  (*1858*) AddTo (T 10) (Times (Copy (IT 34)) (1) 2);
  (*1859*) Del (IT 34);
  (*1860*) AddTo (T 10) (Plain (Copy (IT 40)));
  (*1861*) Del (IT 40);
  (*1862*) AddTo (T 10) (Plain (Copy (IT 44)));
  (*1863*) Del (IT 44);
  (*1864*) AddTo (T 10) (Plain (Copy (IT 46)));
  (*1865*) Del (IT 46);
  (*1866*) AddTo (T 10) (Plain (Copy (IT 8)));
  (*1867*) Del (IT 8);
  (*1868*) AddTo (T 10) (Times (Copy n_f'ov) (-1) 1);
  (*1869*) AddTo (T 10) (Times (Copy (IT 28)) (-1) 1);
  (*1870*) Del (IT 28);
  (*1871*) AddTo (T 10) (Times (Copy (IT 4)) (-1) 1);
  (*1872*) Del (IT 4);
  (*1873*) AddTo (T 10) (Times (Copy (IT 5)) (-1) 1);
  (*1874*) Del (IT 5);
  (*1875*) Assign (T 12) (Plain (Copy (IT 11)));
  (*1876*) AddTo (T 12) (Times (Transpose n_v'ovov [0;2;3;1]) (-1) 1);
  (*1877*) Assign (T 13) (Times (Copy (T 1)) (2) 1);
  (*1878*) AddTo (T 13) (Plain (Copy (T 3)));
  (*1879*) Assign (T 14) (Times (Copy (IT 18)) (1) 2);
  (*1880*) Del (IT 18);
  (*1881*) AddTo (T 14) (Plain (Copy (IT 10)));
  (*1882*) Del (IT 10);
  (*1883*) AddTo (T 14) (Times (Copy n_f'vv) (-1) 1);
  (*1884*) Assign (T 5) (Times (Copy (IT 12)) (1) 2);
  (*1885*) Del (IT 12);
  (*1886*) AddTo (T 5) (Plain (Transpose (IT 14) [0;2;1;3]));
  (*1887*) Del (IT 14);
  (*1888*) AddTo (T 5) (Plain (Transpose (IT 21) [0;2;1;3]));
  (*1889*) Del (IT 21);
  (*1890*) AddTo (T 5) (Times (Copy (IT 36)) (1) 4);
  (*1891*) Del (IT 36);
  (*1892*) AddTo (T 5) (Times (Copy (IT 48)) (1) 2);
  (*1893*) Del (IT 48);
  (*1894*) AddTo (T 5) (Times (Transpose (IT 6) [1;2;0;3]) (1) 2);
  (*1895*) Del (IT 6);
  (*1896*) AddTo (T 5) (Times (Copy (IT 24)) (-1) 4);
  (*1897*) Del (IT 24);
  (*1898*) AddTo (T 5) (Times (Copy (IT 29)) (-1) 2);
  (*1899*) Del (IT 29);
  (*1900*) AddTo (T 5) (Times (Copy (IT 32)) (-1) 1);
  (*1901*) Del (IT 32);
  (*1902*) AddTo (T 5) (Times (Transpose (IT 42) [0;2;1;3]) (-1) 1);
  (*1903*) Del (IT 42);
  (*1904*) AddTo (T 5) (Times (Copy (IT 45)) (-1) 2);
  (*1905*) Del (IT 45);
  (*1906*) AddTo (T 5) (Times (Copy n_v'ooov) (-1) 2);
  (*1907*) Assign (T 17) (Plain (Copy n_f'ov));
  (*1908*) AddTo (T 17) (Plain (Copy (IT 27)));
  (*1909*) Del (IT 27);
  (*1910*) Assign (T 15) (Plain (Copy n_f'oo));
  (*1911*) AddTo (T 15) (Plain (Transpose (IT 1) [1;0]));
  (*1912*) Del (IT 1);
  (*1913*) AddTo (T 15) (Times (Copy (IT 17)) (1) 2);
  (*1914*) Del (IT 17);
  (*1915*) AddTo (T 15) (Plain (Copy (IT 39)));
  (*1916*) Del (IT 39);
  (*1917*) AddTo (T 15) (Plain (Transpose (IT 9) [1;0]));
  (*1918*) Del (IT 9);
  (*1919*) Assign (T 6) (Plain (Copy (IT 11)));
  (*1920*) Del (IT 11);
  (*1921*) AddTo (T 6) (Plain (Copy (IT 37)));
  (*1922*) Del (IT 37);
  (*1923*) AddTo (T 6) (Times (Transpose n_v'ovov [0;2;3;1]) (-1) 1);
  (*1924*) Assign (T 8) (Plain (Einsum [(T 7,[0;1;2;3]); (n_t1,[4;3])] [0;1;4;2]));
  (*1925*) Assign (T 16) (Plain (Copy (T 1)));
  (*1926*) AddTo (T 16) (Times (Copy (T 3)) (1) 2);
  (*1927*) Assign (T 11) (Plain (Einsum [(n_t2,[0;1;2;3]); (n_r1,[1;3])] [0;2]));
  (*1928*) AddTo (T 11) (Times (Einsum [(T 7,[0;1;2;3]); (n_t2,[1;0;4;3])] [2;4]) (-1) 2);
  (*1929*) Assign (T 9) (Plain (Copy (IT 30)));
  (*1930*) AddTo (T 9) (Times (Transpose n_v'ovoo [0;2;3;1]) (-1) 1);
  (*1931*) Assign n_r2new (Times (Einsum [(n_v'vvvv,[0;1;2;3]); (n_r2,[4;5;2;3])] [4;5;0;1]) (1) 2);
  (*1932*) AddTo n_r2new (Times (Einsum [(n_v'oovv,[0;1;2;3]); (T 18,[4;5;1;0])] [5;4;2;3]) (1) 4);
  (*1933*) Del (T 18);
  (*1934*) AddTo n_r2new (Plain (Copy (T 21)));
  (*1935*) AddTo n_r2new (Times (Transpose (T 21) [0;1;3;2]) (-1) 1);
  (*1936*) AddTo n_r2new (Times (Transpose (T 21) [1;0;2;3]) (-1) 1);
  (*1937*) AddTo n_r2new (Plain (Transpose (T 21) [1;0;3;2]));
  (*1938*) Del (T 21);
  (*1939*) AddTo n_r2new (Plain (Copy (T 24)));
  (*1940*) AddTo n_r2new (Times (Transpose (T 24) [0;1;3;2]) (-1) 1);
  (*1941*) Del (T 24);
  (*1942*) AddTo n_r2new (Plain (Transpose (T 25) [0;1;3;2]));
  (*1943*) AddTo n_r2new (Times (Transpose (T 25) [1;0;3;2]) (-1) 1);
  (*1944*) Del (T 25);
  (*1945*) AddTo n_r2new (Times (Copy (T 28)) (-1) 1);
  (*1946*) AddTo n_r2new (Plain (Transpose (T 28) [0;1;3;2]));
  (*1947*) Del (T 28);
  (*1948*) AddTo n_r2new (Times (Transpose (T 29) [1;0;2;3]) (-1) 2);
  (*1949*) AddTo n_r2new (Times (Transpose (T 29) [1;0;3;2]) (1) 2);
  (*1950*) Del (T 29);
  (*1951*) AddTo n_r2new (Plain (Copy (T 33)));
  (*1952*) AddTo n_r2new (Times (Transpose (T 33) [1;0;2;3]) (-1) 1);
  (*1953*) Del (T 33);
  (*1954*) AddTo n_r2new (Times (Einsum [(n_r2,[0;1;2;3]); (T 34,[0;1;4;5])] [4;5;2;3]) (-1) 2);
  (*1955*) Del (T 34);
  (*1956*) Assign n_r1new (Times (Einsum [(T 1,[0;1]); (IT 30,[0;2;1;3])] [2;3]) (-1) 1);
  (*1957*) Del (T 1);
  (*1958*) AddTo n_r1new (Times (Einsum [(T 2,[0;1]); (n_v'ovvv,[2;0;3;1])] [2;3]) (1) 2);
  (*1959*) Del (T 2);
  (*1960*) AddTo n_r1new (Times (Einsum [(T 3,[0;1]); (IT 30,[0;2;1;3])] [2;3]) (-1) 2);
  (*1961*) Del (T 3);
  (*1961*) Del (IT 30);
  (*1962*) AddTo n_r1new (Plain (Einsum [(T 4,[0;1;2;3]); (n_r2,[4;0;1;2])] [4;3]));
  (*1963*) Del (T 4);
  (*1964*) AddTo n_r1new (Plain (Einsum [(T 5,[0;1;2;3]); (n_r2,[0;1;4;3])] [2;4]));
  (*1965*) Del (T 5);
  (*1966*) AddTo n_r1new (Times (Einsum [(T 7,[0;1;2;3]); (T 6,[0;2;3;4])] [1;4]) (-1) 1);
  (*1967*) Del (T 7);
  (*1967*) Del (T 6);
  (*1968*) AddTo n_r1new (Times (Einsum [(T 9,[0;1;2;3]); (T 8,[4;0;2;1])] [4;3]) (-1) 2);
  (*1969*) Del (T 9);
  (*1969*) Del (T 8);
  (*1970*) AddTo n_r1new (Times (Einsum [(n_r2,[0;1;2;3]); (T 10,[1;3])] [0;2]) (-1) 1);
  (*1971*) Del (T 10);
  (*1972*) AddTo n_r1new (Plain (Einsum [(T 11,[0;1]); (n_v'oovv,[2;0;3;1])] [2;3]));
  (*1973*) Del (T 11);
  (*1974*) AddTo n_r1new (Plain (Einsum [(T 12,[0;1;2;3]); (n_r1,[0;2])] [1;3]));
  (*1975*) Del (T 12);
  (*1976*) AddTo n_r1new (Times (Einsum [(n_v'ooov,[0;1;2;3]); (T 13,[2;1])] [0;3]) (1) 2);
  (*1977*) Del (T 13);
  (*1978*) AddTo n_r1new (Times (Einsum [(n_r1,[0;1]); (T 14,[1;2])] [0;2]) (-1) 1);
  (*1979*) Del (T 14);
  (*1980*) AddTo n_r1new (Times (Einsum [(T 15,[0;1]); (n_r1,[0;2])] [1;2]) (-1) 1);
  (*1981*) Del (T 15);
  (*1982*) AddTo n_r1new (Times (Einsum [(T 16,[0;1]); (T 17,[1;2])] [0;2]) (-1) 1);
  (*1983*) Del (T 16);
  (*1983*) Del (T 17)]
 [(n_r1new,[0;1]); (n_r2new,[0;0;1;1])].

