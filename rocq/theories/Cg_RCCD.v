(** Generated by tools/translate_codegen.py from ebcc/codegen/RCCD.py; one statement per source line
    (the number in the comment before it). *)
From Coq Require Import ZArith List.
From Verif Require Import CgModel CgNames.
Import ListNotations.

(** ebcc/codegen/RCCD.py:19-39 [energy] *)
Definition RCCD_energy : prog := mkprog
 [(n_v'ovov,[0;1;0;1]); (n_t2,[0;0;1;1])]
 [(*36*) Assign n_e_cc (Times (Einsum [(n_v'ovov,[0;1;2;3]); (n_t2,[0;2;1;3])] []) (2) 1);
  (*37*) AddTo n_e_cc (Times (Einsum [(n_v'ovov,[0;1;2;3]); (n_t2,[0;2;3;1])] []) (-1) 1)]
 [(n_e_cc,[])].

(** ebcc/codegen/RCCD.py:41-119 [update_amps] *)
Definition RCCD_update_amps : prog := mkprog
 [(n_v'ovov,[0;1;0;1]); (n_t2,[0;0;1;1]); (n_f'vv,[1;1]); (n_f'oo,[0;0]); (n_v'oovv,[0;0;1;1]); (n_v'oooo,[0;0;0;0]); (n_v'vvvv,[1;1;1;1])]
 [(*60*) Assign (T 6) (Plain (Transpose n_v'ovov [0;2;3;1]));
  (*61*) AddTo (T 6) (Times (Transpose n_v'ovov [0;2;1;3]) (-1) 2);
  (*62*) Assign (T 3) (Times (Transpose n_v'ovov [0;2;3;1]) (-1) 1);
  (*63*) AddTo (T 3) (Times (Transpose n_v'ovov [0;2;1;3]) (2) 1);
  (*64*) Assign (T 7) (Plain (Einsum [(T 6,[0;1;2;3]); (n_t2,[0;1;3;4])] [4;2]));
  (*65*) Assign (T 9) (Times (Einsum [(n_t2,[0;1;2;3]); (T 6,[1;4;2;3])] [0;4]) (2) 1);
  (*66*) Del (T 6);
  (*67*) Assign (T 4) (Plain (Einsum [(n_t2,[0;1;2;3]); (T 3,[1;4;3;5])] [0;4;2;5]));
  (*68*) Del (T 3);
  (*69*) Assign (T 1) (Plain (Einsum [(n_t2,[0;1;2;3]); (n_v'ovov,[4;5;1;2])] [0;4;3;5]));
  (*70*) Assign (T 8) (Times (Einsum [(T 7,[0;1]); (n_t2,[2;3;1;4])] [2;3;4;0]) (2) 1);
  (*71*) Del (T 7);
  (*72*) Assign (T 10) (Plain (Einsum [(n_t2,[0;1;2;3]); (T 9,[4;1])] [0;4;3;2]));
  (*73*) Del (T 9);
  (*74*) Assign (T 12) (Plain (Einsum [(n_t2,[0;1;2;3]); (n_f'vv,[4;3])] [0;1;4;2]));
  (*75*) Assign (T 5) (Plain (Einsum [(T 4,[0;1;2;3]); (n_t2,[4;1;3;5])] [4;0;5;2]));
  (*76*) Assign (T 2) (Plain (Einsum [(n_f'oo,[0;1]); (n_t2,[2;1;3;4])] [0;2;3;4]));
  (*77*) Assign (T 16) (Times (Copy n_v'oovv) (-1) 1);
  (*78*) AddTo (T 16) (Plain (Einsum [(n_v'ovov,[0;1;2;3]); (n_t2,[4;2;1;5])] [4;0;5;3]));
  (*79*) Assign (T 14) (Plain (Copy n_v'oooo));
  (*80*) AddTo (T 14) (Plain (Einsum [(n_t2,[0;1;2;3]); (n_v'ovov,[4;2;5;3])] [4;0;1;5]));
  (*81*) Assign (T 13) (Times (Transpose n_v'ovov [0;2;1;3]) (2) 1);
  (*82*) AddTo (T 13) (Times (Copy n_v'oovv) (-1) 1);
  (*83*) AddTo (T 13) (Times (Copy (T 4)) (2) 1);
  (*84*) Del (T 4);
  (*85*) Assign (T 15) (Times (Transpose n_v'ovov [0;2;1;3]) (-1) 1);
  (*86*) AddTo (T 15) (Plain (Copy (T 1)));
  (*87*) Assign (T 11) (Plain (Transpose (T 8) [1;0;2;3]));
  (*88*) Del (T 8);
  (*89*) AddTo (T 11) (Plain (Transpose (T 10) [0;1;3;2]));
  (*90*) Del (T 10);
  (*91*) Assign n_t2new (Plain (Transpose n_v'ovov [0;2;1;3]));
  (*92*) AddTo n_t2new (Plain (Einsum [(n_v'vvvv,[0;1;2;3]); (n_t2,[4;5;1;3])] [4;5;0;2]));
  (*93*) AddTo n_t2new (Times (Einsum [(n_v'oovv,[0;1;2;3]); (n_t2,[4;1;5;3])] [4;0;5;2]) (-1) 1);
  (*94*) AddTo n_t2new (Times (Copy (T 1)) (-1) 1);
  (*95*) Del (T 1);
  (*96*) AddTo n_t2new (Times (Einsum [(n_t2,[0;1;2;3]); (n_v'oovv,[4;1;5;2])] [0;4;5;3]) (-1) 1);
  (*97*) AddTo n_t2new (Times (Einsum [(n_t2,[0;1;2;3]); (n_v'ovov,[4;5;1;3])] [0;4;2;5]) (2) 1);
  (*98*) AddTo n_t2new (Times (Transpose (T 2) [0;1;3;2]) (-1) 1);
  (*99*) AddTo n_t2new (Times (Transpose (T 2) [1;0;2;3]) (-1) 1);
  (*100*) Del (T 2);
  (*101*) AddTo n_t2new (Times (Transpose (T 5) [1;0;3;2]) (-1) 1);
  (*102*) AddTo n_t2new (Times (Copy (T 5)) (-1) 1);
  (*103*) Del (T 5);
  (*104*) AddTo n_t2new (Times (Copy (T 11)) (-1) 1);
  (*105*) AddTo n_t2new (Times (Transpose (T 11) [1;0;3;2]) (-1) 1);
  (*106*) Del (T 11);
  (*107*) AddTo n_t2new (Plain (Transpose (T 12) [0;1;3;2]));
  (*108*) AddTo n_t2new (Plain (Transpose (T 12) [1;0;2;3]));
  (*109*) Del (T 12);
  (*110*) AddTo n_t2new (Plain (Einsum [(T 13,[0;1;2;3]); (n_t2,[4;1;5;3])] [0;4;2;5]));
  (*111*) Del (T 13);
  (*112*) AddTo n_t2new (Plain (Einsum [(T 14,[0;1;2;3]); (n_t2,[0;3;4;5])] [2;1;5;4]));
  (*113*) Del (T 14);
  (*114*) AddTo n_t2new (Plain (Einsum [(n_t2,[0;1;2;3]); (T 15,[4;1;5;2])] [4;0;5;3]));
  (*115*) Del (T 15);
  (*116*) AddTo n_t2new (Plain (Einsum [(T 16,[0;1;2;3]); (n_t2,[4;1;3;5])] [0;4;5;2]));
  (*117*) Del (T 16)]
 [(n_t2new,[0;0;1;1])].

(** ebcc/codegen/RCCD.py:121-235 [update_lams] *)
Definition RCCD_update_lams : prog := mkprog
 [(n_l2,[1;1;0;0]); (n_t2,[0;0;1;1]); (n_v'ovov,[0;1;0;1]); (n_v'oovv,[0;0;1;1]); (n_f'vv,[1;1]); (n_f'oo,[0;0]); (n_v'oooo,[0;0;0;0]); (n_v'vvvv,[1;1;1;1])]
 [(*142*) Assign (T 6) (Times (Transpose n_l2 [3;2;0;1]) (-1) 1);
  (*143*) AddTo (T 6) (Times (Transpose n_l2 [2;3;0;1]) (2) 1);
  (*144*) Assign (T 11) (Plain (Einsum [(n_l2,[0;1;2;3]); (n_t2,[4;2;1;5])] [3;4;0;5]));
  (*145*) Assign (T 5) (Plain (Einsum [(n_l2,[0;1;2;3]); (n_t2,[4;3;1;5])] [2;4;0;5]));
  (*146*) Assign (T 7) (Plain (Einsum [(n_t2,[0;1;2;3]); (T 6,[1;4;3;5])] [0;4;2;5]));
  (*147*) Del (T 6);
  (*148*) Assign (T 27) (Plain (Transpose n_t2 [0;1;3;2]));
  (*149*) AddTo (T 27) (Times (Copy n_t2) (-1) 2);
  (*150*) Assign (T 16) (Plain (Einsum [(n_v'ovov,[0;1;2;3]); (n_t2,[4;2;1;5])] [4;0;5;3]));
  (*151*) Assign (T 20) (Times (Transpose n_t2 [0;1;3;2]) (-1) 1);
  (*152*) AddTo (T 20) (Times (Copy n_t2) (2) 1);
  (*153*) Assign (T 23) (Times (Transpose n_t2 [0;1;3;2]) (2) 1);
  (*154*) AddTo (T 23) (Times (Copy n_t2) (-1) 1);
  (*155*) Assign (T 12) (Plain (Copy (T 11)));
  (*156*) Del (T 11);
  (*157*) AddTo (T 12) (Times (Transpose n_l2 [3;2;0;1]) (-1) 1);
  (*158*) AddTo (T 12) (Times (Transpose n_l2 [2;3;0;1]) (2) 1);
  (*159*) Assign (T 9) (Times (Transpose n_v'ovov [0;2;3;1]) (-1) 1);
  (*160*) AddTo (T 9) (Times (Transpose n_v'ovov [0;2;1;3]) (2) 1);
  (*161*) Assign (T 8) (Plain (Copy (T 5)));
  (*162*) Del (T 5);
  (*163*) AddTo (T 8) (Times (Transpose (T 7) [1;0;3;2]) (-1) 1);
  (*164*) Del (T 7);
  (*165*) Assign (T 30) (Times (Einsum [(n_l2,[0;1;2;3]); (T 27,[2;4;1;0])] [3;4]) (2) 1);
  (*166*) Assign (T 28) (Times (Einsum [(n_l2,[0;1;2;3]); (T 27,[3;2;4;1])] [0;4]) (2) 1);
  (*167*) Del (T 27);
  (*168*) Assign (T 17) (Times (Copy n_v'oovv) (-1) 1);
  (*169*) AddTo (T 17) (Plain (Copy (T 16)));
  (*170*) Del (T 16);
  (*171*) Assign (T 21) (Times (Einsum [(n_v'ovov,[0;1;2;3]); (T 20,[0;2;1;4])] [3;4]) (1) 2);
  (*172*) Del (T 20);
  (*173*) Assign (T 24) (Plain (Einsum [(T 23,[0;1;2;3]); (n_v'ovov,[4;2;0;3])] [4;1]));
  (*174*) Del (T 23);
  (*175*) Assign (T 13) (Plain (Einsum [(T 12,[0;1;2;3]); (n_v'ovov,[4;5;1;3])] [4;0;5;2]));
  (*176*) Del (T 12);
  (*177*) Assign (T 4) (Plain (Einsum [(n_v'oovv,[0;1;2;3]); (n_l2,[4;3;5;1])] [5;0;4;2]));
  (*178*) Assign (T 10) (Plain (Einsum [(T 8,[0;1;2;3]); (T 9,[1;4;3;5])] [0;4;2;5]));
  (*179*) Del (T 8);
  (*179*) Del (T 9);
  (*180*) Assign (T 31) (Plain (Einsum [(T 30,[0;1]); (n_v'ovov,[2;3;1;4])] [2;0;4;3]));
  (*181*) Del (T 30);
  (*182*) Assign (T 29) (Plain (Einsum [(T 28,[0;1]); (n_v'ovov,[2;1;3;4])] [2;3;4;0]));
  (*183*) Del (T 28);
  (*184*) Assign (T 15) (Plain (Einsum [(n_l2,[0;1;2;3]); (n_f'vv,[4;1])] [2;3;4;0]));
  (*185*) Assign (T 18) (Plain (Einsum [(T 17,[0;1;2;3]); (n_l2,[4;2;0;5])] [5;1;4;3]));
  (*186*) Del (T 17);
  (*187*) Assign (T 22) (Times (Einsum [(n_l2,[0;1;2;3]); (T 21,[4;1])] [3;2;0;4]) (2) 1);
  (*188*) Del (T 21);
  (*189*) Assign (T 25) (Plain (Einsum [(n_l2,[0;1;2;3]); (T 24,[4;2])] [3;4;0;1]));
  (*190*) Del (T 24);
  (*191*) Assign (T 14) (Plain (Copy (T 4)));
  (*192*) Del (T 4);
  (*193*) AddTo (T 14) (Plain (Copy (T 10)));
  (*194*) Del (T 10);
  (*195*) AddTo (T 14) (Times (Transpose (T 13) [1;0;3;2]) (-1) 1);
  (*196*) Del (T 13);
  (*197*) Assign (T 32) (Plain (Transpose (T 29) [1;0;3;2]));
  (*198*) Del (T 29);
  (*199*) AddTo (T 32) (Plain (Transpose (T 31) [1;0;3;2]));
  (*200*) Del (T 31);
  (*201*) Assign (T 19) (Plain (Copy (T 15)));
  (*202*) Del (T 15);
  (*203*) AddTo (T 19) (Plain (Copy (T 18)));
  (*204*) Del (T 18);
  (*205*) Assign (T 2) (Plain (Einsum [(n_t2,[0;1;2;3]); (n_l2,[3;2;4;5])] [5;4;0;1]));
  (*206*) Assign (T 26) (Plain (Transpose (T 22) [1;0;2;3]));
  (*207*) Del (T 22);
  (*208*) AddTo (T 26) (Plain (Transpose (T 25) [0;1;3;2]));
  (*209*) Del (T 25);
  (*210*) Assign (T 3) (Plain (Einsum [(n_f'oo,[0;1]); (n_l2,[2;3;4;1])] [0;4;2;3]));
  (*211*) Assign (T 1) (Plain (Einsum [(n_t2,[0;1;2;3]); (n_v'ovov,[4;2;5;3])] [0;1;4;5]));
  (*212*) Assign n_l2new (Plain (Einsum [(n_v'oooo,[0;1;2;3]); (n_l2,[4;5;1;3])] [4;5;0;2]));
  (*213*) AddTo n_l2new (Plain (Transpose n_v'ovov [1;3;0;2]));
  (*214*) AddTo n_l2new (Plain (Einsum [(n_v'vvvv,[0;1;2;3]); (n_l2,[1;3;4;5])] [0;2;4;5]));
  (*215*) AddTo n_l2new (Plain (Einsum [(n_l2,[0;1;2;3]); (T 1,[2;3;4;5])] [0;1;4;5]));
  (*216*) Del (T 1);
  (*217*) AddTo n_l2new (Plain (Einsum [(T 2,[0;1;2;3]); (n_v'ovov,[3;4;2;5])] [5;4;0;1]));
  (*218*) Del (T 2);
  (*219*) AddTo n_l2new (Times (Transpose (T 3) [3;2;0;1]) (-1) 1);
  (*220*) AddTo n_l2new (Times (Transpose (T 3) [2;3;1;0]) (-1) 1);
  (*221*) Del (T 3);
  (*222*) AddTo n_l2new (Times (Transpose (T 14) [2;3;0;1]) (-1) 1);
  (*223*) AddTo n_l2new (Times (Transpose (T 14) [3;2;1;0]) (-1) 1);
  (*224*) Del (T 14);
  (*225*) AddTo n_l2new (Plain (Transpose (T 19) [3;2;0;1]));
  (*226*) AddTo n_l2new (Plain (Transpose (T 19) [2;3;1;0]));
  (*227*) Del (T 19);
  (*228*) AddTo n_l2new (Times (Transpose (T 26) [2;3;0;1]) (-1) 1);
  (*229*) AddTo n_l2new (Times (Transpose (T 26) [3;2;1;0]) (-1) 1);
  (*230*) Del (T 26);
  (*231*) AddTo n_l2new (Times (Transpose (T 32) [3;2;0;1]) (-1) 1);
  (*232*) AddTo n_l2new (Times (Transpose (T 32) [2;3;1;0]) (-1) 1);
  (*233*) Del (T 32)]
 [(n_l2new,[1;1;0;0])].

(** ebcc/codegen/RCCD.py:237-273 [make_rdm1_f]; assembly (line 271) not translated *)
Definition RCCD_make_rdm1_f : prog := mkprog
 [(n_t2,[0;0;1;1]); (n_l2,[1;1;0;0])]
 [(*255*) Assign n_delta'oo (Plain (Eye 0));
  (*255*) Assign n_delta'vv (Plain (Eye 1));
  (*259*) Assign (T 2) (Plain (Transpose n_t2 [0;1;3;2]));
  (*260*) AddTo (T 2) (Times (Copy n_t2) (-1) 2);
  (*261*) Assign (T 1) (Times (Transpose n_t2 [0;1;3;2]) (-1) 2);
  (*262*) AddTo (T 1) (Plain (Copy n_t2));
  (*263*) Assign n_rdm1'vv (Times (Einsum [(n_l2,[0;1;2;3]); (T 2,[3;2;4;1])] [0;4]) (4) 1);
  (*264*) Del (T 2);
  (*265*) Assign n_rdm1'oo (Times (Copy n_delta'oo) (2) 1);
  (*266*) Del n_delta'oo;
  (*266*) Del n_delta'vv;
  (*267*) AddTo n_rdm1'oo (Times (Einsum [(T 1,[0;1;2;3]); (n_l2,[2;3;0;4])] [1;4]) (-4) 1);
  (*268*) Del (T 1);
  (*269*) Assign n_rdm1'ov (Plain (Zeros [0;1]));
  (*270*) Assign n_rdm1'vo (Plain (Zeros [1;0]))]
 [(n_rdm1'oo,[0;0]); (n_rdm1'ov,[0;1]); (n_rdm1'vo,[1;0]); (n_rdm1'vv,[1;1])].

(** ebcc/codegen/RCCD.py:275-421 [make_rdm2_f]; assembly (line 418) not translated *)
Definition RCCD_make_rdm2_f : prog := mkprog
 [(n_t2,[0;0;1;1]); (n_l2,[1;1;0;0])]
 [(*293*) Assign n_delta'oo (Plain (Eye 0));
  (*293*) Assign n_delta'vv (Plain (Eye 1));
  (*297*) Assign (T 13) (Times (Transpose n_l2 [3;2;0;1]) (-1) 1);
  (*298*) AddTo (T 13) (Times (Transpose n_l2 [2;3;0;1]) (2) 1);
  (*299*) Assign (T 2) (Times (Transpose n_t2 [0;1;3;2]) (-1) 2);
  (*300*) AddTo (T 2) (Plain (Copy n_t2));
  (*301*) Assign (T 7) (Times (Transpose n_l2 [3;2;0;1]) (-1) 1);
  (*302*) AddTo (T 7) (Plain (Transpose n_l2 [2;3;0;1]));
  (*303*) Assign (T 4) (Times (Transpose n_l2 [3;2;0;1]) (-1) 1);
  (*304*) AddTo (T 4) (Times (Transpose n_l2 [2;3;0;1]) (2) 1);
  (*305*) Assign (T 14) (Times (Einsum [(T 13,[0;1;2;3]); (n_t2,[0;1;2;4])] [4;3]) (1) 2);
  (*306*) Assign (T 3) (Times (Einsum [(n_l2,[0;1;2;3]); (T 2,[2;4;0;1])] [3;4]) (2) 1);
  (*307*) Del (T 2);
  (*308*) Assign (T 8) (Plain (Einsum [(n_t2,[0;1;2;3]); (T 7,[1;4;2;5])] [0;4;3;5]));
  (*309*) Del (T 7);
  (*310*) Assign (T 5) (Plain (Einsum [(T 4,[0;1;2;3]); (n_t2,[4;0;5;2])] [1;4;3;5]));
  (*311*) Del (T 4);
  (*312*) Assign (T 27) (Plain (Transpose n_l2 [3;2;0;1]));
  (*313*) AddTo (T 27) (Times (Transpose n_l2 [2;3;0;1]) (-1) 1);
  (*314*) Assign (T 22) (Plain (Transpose n_t2 [0;1;3;2]));
  (*315*) AddTo (T 22) (Times (Copy n_t2) (-1) 1);
  (*316*) Assign (T 24) (Times (Transpose n_t2 [0;1;3;2]) (2) 1);
  (*317*) AddTo (T 24) (Times (Copy n_t2) (-1) 1);
  (*318*) Assign (T 1) (Plain (Einsum [(n_l2,[0;1;2;3]); (n_t2,[4;5;0;1])] [2;3;4;5]));
  (*319*) Assign (T 18) (Plain (Einsum [(n_l2,[0;1;2;3]); (n_t2,[4;3;1;5])] [2;4;0;5]));
  (*320*) Assign (T 20) (Plain (Einsum [(n_l2,[0;1;2;3]); (n_t2,[4;2;1;5])] [3;4;0;5]));
  (*321*) Assign (T 15) (Times (Einsum [(T 14,[0;1]); (n_t2,[2;3;1;4])] [2;3;4;0]) (2) 1);
  (*322*) Assign (T 16) (Plain (Einsum [(n_t2,[0;1;2;3]); (T 3,[1;4])] [4;0;3;2]));
  (*323*) Assign (T 9) (Plain (Einsum [(n_t2,[0;1;2;3]); (T 8,[4;1;5;2])] [4;0;5;3]));
  (*324*) Assign (T 6) (Plain (Einsum [(T 5,[0;1;2;3]); (n_t2,[4;0;5;2])] [1;4;3;5]));
  (*325*) Assign (T 29) (Plain (Einsum [(n_l2,[0;1;2;3]); (n_t2,[3;2;4;5])] [0;1;5;4]));
  (*326*) Assign (T 28) (Plain (Einsum [(n_t2,[0;1;2;3]); (T 27,[1;4;2;5])] [0;4;3;5]));
  (*327*) Del (T 27);
  (*328*) Assign (T 26) (Plain (Einsum [(T 13,[0;1;2;3]); (n_t2,[0;1;2;4])] [4;3]));
  (*329*) Del (T 13);
  (*330*) Assign (T 23) (Plain (Einsum [(T 22,[0;1;2;3]); (n_l2,[4;3;0;5])] [5;1;4;2]));
  (*331*) Del (T 22);
  (*332*) Assign (T 25) (Plain (Einsum [(n_l2,[0;1;2;3]); (T 24,[3;4;5;1])] [2;4;0;5]));
  (*333*) Del (T 24);
  (*334*) Assign (T 12) (Plain (Einsum [(T 1,[0;1;2;3]); (n_t2,[1;0;4;5])] [3;2;4;5]));
  (*335*) Assign (T 19) (Plain (Einsum [(n_t2,[0;1;2;3]); (T 18,[1;4;2;5])] [0;4;3;5]));
  (*336*) Assign (T 21) (Plain (Einsum [(T 20,[0;1;2;3]); (n_t2,[4;0;2;5])] [4;1;5;3]));
  (*337*) Assign (T 11) (Plain (Einsum [(n_t2,[0;1;2;3]); (T 5,[1;4;2;5])] [4;0;5;3]));
  (*338*) Assign (T 17) (Plain (Transpose (T 15) [1;0;2;3]));
  (*339*) Del (T 15);
  (*340*) AddTo (T 17) (Plain (Transpose (T 16) [1;0;3;2]));
  (*341*) Del (T 16);
  (*342*) Assign (T 10) (Times (Transpose (T 6) [1;0;3;2]) (2) 1);
  (*343*) AddTo (T 10) (Plain (Copy (T 9)));
  (*344*) Del (T 9);
  (*345*) Assign n_rdm2'vvvv (Times (Transpose (T 29) [1;0;2;3]) (-2) 1);
  (*346*) AddTo n_rdm2'vvvv (Times (Transpose (T 29) [1;0;3;2]) (4) 1);
  (*347*) Del (T 29);
  (*348*) Assign n_rdm2'vvoo (Times (Transpose n_l2 [0;1;3;2]) (-2) 1);
  (*349*) AddTo n_rdm2'vvoo (Times (Copy n_l2) (4) 1);
  (*350*) Assign n_rdm2'vovo (Times (Transpose (T 5) [2;1;3;0]) (-2) 1);
  (*351*) AddTo n_rdm2'vovo (Times (Transpose (T 28) [3;0;2;1]) (-2) 1);
  (*352*) Del (T 28);
  (*353*) AddTo n_rdm2'vovo (Times (Einsum [(n_delta'oo,[0;1]); (T 26,[2;3])] [3;0;2;1]) (4) 1);
  (*354*) AddTo n_rdm2'vovo (Times (Transpose (T 20) [2;1;3;0]) (-2) 1);
  (*355*) Assign n_rdm2'voov (Times (Transpose (T 25) [2;1;0;3]) (2) 1);
  (*356*) AddTo n_rdm2'voov (Times (Transpose (T 23) [2;1;0;3]) (-2) 1);
  (*357*) AddTo n_rdm2'voov (Times (Einsum [(n_delta'oo,[0;1]); (T 26,[2;3])] [3;0;1;2]) (-2) 1);
  (*358*) Del (T 26);
  (*359*) AddTo n_rdm2'voov (Times (Transpose (T 18) [2;1;0;3]) (-2) 1);
  (*360*) AddTo n_rdm2'voov (Times (Transpose (T 5) [2;1;0;3]) (2) 1);
  (*361*) Assign n_rdm2'ovvo (Times (Transpose (T 5) [1;2;3;0]) (4) 1);
  (*362*) Del (T 5);
  (*363*) AddTo n_rdm2'ovvo (Times (Transpose (T 8) [0;3;2;1]) (-2) 1);
  (*364*) Del (T 8);
  (*365*) AddTo n_rdm2'ovvo (Times (Einsum [(T 14,[0;1]); (n_delta'oo,[2;3])] [2;1;0;3]) (-4) 1);
  (*366*) AddTo n_rdm2'ovvo (Times (Transpose (T 18) [1;2;3;0]) (-2) 1);
  (*367*) Del (T 18);
  (*368*) Assign n_rdm2'ovov (Times (Transpose (T 23) [1;2;0;3]) (2) 1);
  (*369*) Del (T 23);
  (*370*) AddTo n_rdm2'ovov (Times (Transpose (T 25) [1;2;0;3]) (-2) 1);
  (*371*) Del (T 25);
  (*372*) AddTo n_rdm2'ovov (Times (Einsum [(T 14,[0;1]); (n_delta'oo,[2;3])] [2;1;3;0]) (8) 1);
  (*373*) Del (T 14);
  (*374*) AddTo n_rdm2'ovov (Times (Transpose (T 20) [1;2;0;3]) (-2) 1);
  (*375*) Del (T 20);
  (*376*) Assign n_rdm2'oovv (Times (Transpose n_t2 [0;1;3;2]) (-2) 1);
  (*377*) AddTo n_rdm2'oovv (Times (Copy n_t2) (4) 1);
  (*378*) AddTo n_rdm2'oovv (Times (Copy (T 10)) (2) 1);
  (*379*) AddTo n_rdm2'oovv (Times (Transpose (T 10) [0;1;3;2]) (-2) 1);
  (*380*) Del (T 10);
  (*381*) AddTo n_rdm2'oovv (Times (Copy (T 11)) (-4) 1);
  (*382*) AddTo n_rdm2'oovv (Times (Transpose (T 11) [0;1;3;2]) (2) 1);
  (*383*) AddTo n_rdm2'oovv (Times (Transpose (T 11) [1;0;2;3]) (2) 1);
  (*384*) AddTo n_rdm2'oovv (Times (Transpose (T 11) [1;0;3;2]) (-4) 1);
  (*385*) Del (T 11);
  (*386*) AddTo n_rdm2'oovv (Times (Copy (T 12)) (4) 1);
  (*387*) AddTo n_rdm2'oovv (Times (Transpose (T 12) [0;1;3;2]) (-2) 1);
  (*388*) Del (T 12);
  (*389*) AddTo n_rdm2'oovv (Times (Copy (T 17)) (-4) 1);
  (*390*) AddTo n_rdm2'oovv (Times (Transpose (T 17) [0;1;3;2]) (2) 1);
  (*391*) AddTo n_rdm2'oovv (Times (Transpose (T 17) [1;0;2;3]) (2) 1);
  (*392*) AddTo n_rdm2'oovv (Times (Transpose (T 17) [1;0;3;2]) (-4) 1);
  (*393*) Del (T 17);
  (*394*) AddTo n_rdm2'oovv (Times (Copy (T 19)) (2) 1);
  (*395*) Del (T 19);
  (*396*) AddTo n_rdm2'oovv (Times (Transpose (T 21) [0;1;3;2]) (2) 1);
  (*397*) Del (T 21);
  (*398*) AddTo n_rdm2'oovv (Times (Transpose (T 6) [1;0;3;2]) (4) 1);
  (*399*) Del (T 6);
  (*400*) Assign n_rdm2'oooo (Times (Transpose (T 1) [2;3;1;0]) (-2) 1);
  (*401*) AddTo n_rdm2'oooo (Times (Transpose (T 1) [3;2;1;0]) (4) 1);
  (*402*) Del (T 1);
  (*403*) AddTo n_rdm2'oooo (Times (Einsum [(n_delta'oo,[0;1]); (n_delta'oo,[2;3])] [2;0;3;1]) (4) 1);
  (*404*) AddTo n_rdm2'oooo (Times (Einsum [(n_delta'oo,[0;1]); (n_delta'oo,[2;3])] [2;0;1;3]) (-2) 1);
  (*405*) AddTo n_rdm2'oooo (Times (Einsum [(n_delta'oo,[0;1]); (T 3,[2;3])] [3;0;2;1]) (-4) 1);
  (*406*) AddTo n_rdm2'oooo (Times (Einsum [(T 3,[0;1]); (n_delta'oo,[2;3])] [2;1;0;3]) (2) 1);
  (*407*) AddTo n_rdm2'oooo (Times (Einsum [(T 3,[0;1]); (n_delta'oo,[2;3])] [1;2;3;0]) (2) 1);
  (*408*) AddTo n_rdm2'oooo (Times (Einsum [(T 3,[0;1]); (n_delta'oo,[2;3])] [2;1;3;0]) (-4) 1);
  (*409*) Del (T 3);
  (*409*) Del n_delta'oo;
  (*409*) Del n_delta'vv;
  (*410*) Assign n_rdm2'ooov (Plain (Zeros [0;0;0;1]));
  (*411*) Assign n_rdm2'oovo (Plain (Zeros [0;0;1;0]));
  (*412*) Assign n_rdm2'ovoo (Plain (Zeros [0;1;0;0]));
  (*413*) Assign n_rdm2'vooo (Plain (Zeros [1;0;0;0]));
  (*414*) Assign n_rdm2'ovvv (Plain (Zeros [0;1;1;1]));
  (*415*) Assign n_rdm2'vovv (Plain (Zeros [1;0;1;1]));
  (*416*) Assign n_rdm2'vvov (Plain (Zeros [1;1;0;1]));
  (*417*) Assign n_rdm2'vvvo (Plain (Zeros [1;1;1;0]))]
 [(n_rdm2'oooo,[0;0;0;0]); (n_rdm2'ooov,[0;0;0;1]); (n_rdm2'oovo,[0;0;1;0]); (n_rdm2'ovoo,[0;1;0;0]); (n_rdm2'vooo,[1;0;0;0]); (n_rdm2'oovv,[0;0;1;1]); (n_rdm2'ovov,[0;1;0;1]); (n_rdm2'ovvo,[0;1;1;0]); (n_rdm2'voov,[1;0;0;1]); (n_rdm2'vovo,[1;0;1;0]); (n_rdm2'vvoo,[1;1;0;0]); (n_rdm2'ovvv,[0;1;1;1]); (n_rdm2'vovv,[1;0;1;1]); (n_rdm2'vvov,[1;1;0;1]); (n_rdm2'vvvo,[1;1;1;0]); (n_rdm2'vvvv,[1;1;1;1])].

(** ebcc/codegen/RCCD.py:423-483 [hbar_matvec_ip_intermediates] *)
Definition RCCD_hbar_matvec_ip_intermediates : prog := mkprog
 [(n_t2,[0;0;1;1]); (n_v'ovvv,[0;1;1;1]); (n_v'ovov,[0;1;0;1]); (n_v'ooov,[0;0;0;1]); (n_f'ov,[0;1])]
 [(*461*) Assign (T 40) (Plain (Einsum [(n_t2,[0;1;2;3]); (n_v'ovvv,[1;2;4;3])] [0;4]));
  (*462*) Assign (T 39) (Plain (Einsum [(n_t2,[0;1;2;3]); (n_v'ovvv,[1;3;4;2])] [0;4]));
  (*463*) Assign (T 33) (Plain (Einsum [(n_v'ovov,[0;1;2;3]); (n_t2,[0;2;4;3])] [4;1]));
  (*464*) Assign (T 31) (Plain (Einsum [(n_v'ovov,[0;1;2;3]); (n_t2,[0;2;4;1])] [4;3]));
  (*465*) Assign (T 30) (Plain (Einsum [(n_t2,[0;1;2;3]); (n_v'ooov,[4;1;5;2])] [0;4;5;3]));
  (*466*) Assign (T 29) (Plain (Einsum [(n_t2,[0;1;2;3]); (n_v'ooov,[4;0;1;3])] [4;2]));
  (*467*) Assign (T 28) (Plain (Einsum [(n_t2,[0;1;2;3]); (n_v'ooov,[4;1;0;3])] [4;2]));
  (*468*) Assign (T 27) (Plain (Einsum [(n_t2,[0;1;2;3]); (n_f'ov,[4;3])] [4;0;1;2]));
  (*469*) Assign (T 25) (Plain (Einsum [(n_v'ovov,[0;1;2;3]); (n_t2,[4;2;5;3])] [4;0;5;1]));
  (*470*) Assign (T 24) (Plain (Einsum [(n_t2,[0;1;2;3]); (n_v'ovov,[4;5;1;2])] [0;4;3;5]));
  (*471*) Assign (T 23) (Plain (Einsum [(n_v'ovov,[0;1;2;3]); (n_t2,[4;2;5;1])] [4;0;5;3]));
  (*472*) Assign (T 22) (Plain (Einsum [(n_v'ovov,[0;1;2;3]); (n_t2,[4;2;1;5])] [4;0;5;3]));
  (*473*) Assign (T 21) (Plain (Einsum [(n_t2,[0;1;2;3]); (n_v'ooov,[4;5;1;2])] [0;4;5;3]));
  (*474*) Assign (T 19) (Plain (Einsum [(n_t2,[0;1;2;3]); (n_v'ooov,[4;5;1;3])] [0;4;5;2]));
  (*475*) Assign (T 18) (Plain (Einsum [(n_v'ooov,[0;1;2;3]); (n_t2,[4;1;5;3])] [4;0;2;5]));
  (*476*) Assign (T 16) (Plain (Einsum [(n_t2,[0;1;2;3]); (n_f'ov,[1;3])] [0;2]));
  (*477*) Assign (T 15) (Plain (Einsum [(n_t2,[0;1;2;3]); (n_f'ov,[1;2])] [0;3]));
  (*478*) Assign (T 9) (Plain (Einsum [(n_v'ovov,[0;1;2;3]); (n_t2,[4;5;1;3])] [4;5;0;2]));
  (*479*) Assign (T 7) (Plain (Einsum [(n_t2,[0;1;2;3]); (n_v'ovvv,[4;2;5;3])] [0;1;4;5]));
  (*480*) Assign (T 5) (Plain (Einsum [(n_t2,[0;1;2;3]); (n_v'ovov,[4;2;1;3])] [0;4]));
  (*481*) Assign (T 3) (Plain (Einsum [(n_t2,[0;1;2;3]); (n_v'ovov,[4;3;1;2])] [0;4]))]
 [(T 15,[0;1]); (T 16,[0;1]); (T 18,[0;0;0;1]); (T 19,[0;0;0;1]); (T 3,[0;0]); (T 21,[0;0;0;1]); (T 22,[0;0;1;1]); (T 23,[0;0;1;1]); (T 24,[0;0;1;1]); (T 25,[0;0;1;1]); (T 27,[0;0;0;1]); (T 28,[0;1]); (T 29,[0;1]); (T 30,[0;0;0;1]); (T 31,[1;1]); (T 33,[1;1]); (T 39,[0;1]); (T 40,[0;1]); (T 5,[0;0]); (T 7,[0;0;0;1]); (T 9,[0;0;0;0])].

(** ebcc/codegen/RCCD.py:485-592 [hbar_matvec_ip] *)
Definition RCCD_hbar_matvec_ip : prog := mkprog
 [(n_v'ovov,[0;1;0;1]); (IT 25,[0;0;1;1]); (IT 23,[0;0;1;1]); (IT 24,[0;0;1;1]); (n_r2,[0;0;1]); (IT 22,[0;0;1;1]); (n_v'oovv,[0;0;1;1]); (n_f'vv,[1;1]); (IT 31,[1;1]); (IT 33,[1;1]); (n_f'ov,[0;1]); (IT 16,[0;1]); (IT 28,[0;1]); (IT 39,[0;1]); (IT 15,[0;1]); (IT 29,[0;1]); (IT 40,[0;1]); (n_f'oo,[0;0]); (IT 5,[0;0]); (IT 3,[0;0]); (IT 19,[0;0;0;1]); (IT 27,[0;0;0;1]); (IT 7,[0;0;0;1]); (n_v'ovoo,[0;1;0;0]); (IT 18,[0;0;0;1]); (IT 21,[0;0;0;1]); (IT 30,[0;0;0;1]); (n_v'ooov,[0;0;0;1]); (n_v'oooo,[0;0;0;0]); (IT 9,[0;0;0;0]); (n_t2,[0;0;1;1]); (n_r1,[0])]
 [(*511*) Assign (T 8) (Plain (Transpose n_v'ovov [0;2;3;1]));
  (*512*) AddTo (T 8) (Times (Transpose n_v'ovov [0;2;1;3]) (-1) 2);
  (*513*) Assign (T 5) (Times (Copy (IT 25)) (2) 1);
  (*514*) Del (IT 25);
  (*515*) AddTo (T 5) (Plain (Transpose n_v'ovov [0;2;1;3]));
  (*516*) AddTo (T 5) (Times (Copy (IT 23)) (-1) 1);
  (*517*) Del (IT 23);
  (*518*) AddTo (T 5) (Times (Copy (IT 24)) (-1) 1);
  (*519*) Del (IT 24);
  (*520*) Assign (T 4) (Times (Copy n_r2) (-1) 2);
  (*521*) AddTo (T 4) (Plain (Transpose n_r2 [1;0;2]));
  (*522*) Assign (T 6) (Plain (Copy (IT 22)));
  (*523*) Del (IT 22);
  (*524*) AddTo (T 6) (Times (Copy n_v'oovv) (-1) 1);
  (*525*) Assign (T 9) (Plain (Einsum [(T 8,[0;1;2;3]); (n_r2,[0;1;3])] [2]));
  (*526*) Del (T 8);
  (*527*) Assign (T 7) (Plain (Copy n_f'vv));
  (*528*) AddTo (T 7) (Plain (Transpose (IT 31) [1;0]));
  (*529*) Del (IT 31);
  (*530*) AddTo (T 7) (Times (Transpose (IT 33) [1;0]) (-2) 1);
  (*531*) Del (IT 33);
  (*532*) Assign (T 11) (Plain (Copy n_f'ov));
  (*533*) AddTo (T 11) (Times (Copy (IT 16)) (2) 1);
  (*534*) Del (IT 16);
  (*535*) AddTo (T 11) (Plain (Copy (IT 28)));
  (*536*) Del (IT 28);
  (*537*) AddTo (T 11) (Times (Copy (IT 39)) (2) 1);
  (*538*) Del (IT 39);
  (*539*) AddTo (T 11) (Times (Copy (IT 15)) (-1) 1);
  (*540*) Del (IT 15);
  (*541*) AddTo (T 11) (Times (Copy (IT 29)) (-2) 1);
  (*542*) Del (IT 29);
  (*543*) AddTo (T 11) (Times (Copy (IT 40)) (-1) 1);
  (*544*) Del (IT 40);
  (*545*) Assign (T 3) (Plain (Copy n_f'oo));
  (*546*) AddTo (T 3) (Times (Transpose (IT 5) [1;0]) (2) 1);
  (*547*) Del (IT 5);
  (*548*) AddTo (T 3) (Times (Transpose (IT 3) [1;0]) (-1) 1);
  (*549*) Del (IT 3);
  (*550*) Assign (T 10) (Times (Copy (IT 19)) (2) 1);
  (*551*) Del (IT 19);
  (*552*) AddTo (T 10) (Plain (Transpose (IT 27) [1;2;0;3]));
  (*553*) Del (IT 27);
  (*554*) AddTo (T 10) (Plain (Transpose (IT 7) [1;0;2;3]));
  (*555*) Del (IT 7);
  (*556*) AddTo (T 10) (Plain (Transpose n_v'ovoo [0;2;3;1]));
  (*557*) AddTo (T 10) (Times (Copy (IT 18)) (-1) 1);
  (*558*) Del (IT 18);
  (*559*) AddTo (T 10) (Times (Copy (IT 21)) (-1) 1);
  (*560*) Del (IT 21);
  (*561*) AddTo (T 10) (Times (Transpose (IT 30) [1;0;2;3]) (-1) 1);
  (*562*) Del (IT 30);
  (*563*) Assign (T 2) (Times (Copy n_r2) (-1) 1);
  (*564*) AddTo (T 2) (Times (Transpose n_r2 [1;0;2]) (2) 1);
  (*565*) Assign (T 1) (Plain (Copy n_v'ooov));
  (*566*) AddTo (T 1) (Times (Transpose n_v'ovoo [0;2;3;1]) (-1) 2);
  (*567*) Assign n_r2new (Plain (Einsum [(n_v'oooo,[0;1;2;3]); (n_r2,[1;3;4])] [0;2;4]));
  (*568*) AddTo n_r2new (Plain (Einsum [(n_r2,[0;1;2]); (IT 9,[3;4;1;0])] [4;3;2]));
  (*569*) Del (IT 9);
  (*570*) AddTo n_r2new (Times (Einsum [(T 4,[0;1;2]); (T 5,[3;1;4;2])] [3;0;4]) (2) 1);
  (*571*) Del (T 4);
  (*571*) Del (T 5);
  (*572*) AddTo n_r2new (Plain (Einsum [(T 6,[0;1;2;3]); (n_r2,[4;1;3])] [4;0;2]));
  (*573*) AddTo n_r2new (Plain (Einsum [(T 6,[0;1;2;3]); (n_r2,[1;4;3])] [0;4;2]));
  (*574*) Del (T 6);
  (*575*) AddTo n_r2new (Plain (Einsum [(T 7,[0;1]); (n_r2,[2;3;0])] [2;3;1]));
  (*576*) Del (T 7);
  (*577*) AddTo n_r2new (Times (Einsum [(T 9,[0]); (n_t2,[1;2;3;0])] [1;2;3]) (-2) 1);
  (*578*) Del (T 9);
  (*579*) AddTo n_r2new (Plain (Einsum [(n_r1,[0]); (T 10,[1;2;0;3])] [1;2;3]));
  (*580*) Del (T 10);
  (*581*) AddTo n_r2new (Times (Einsum [(n_r2,[0;1;2]); (T 3,[0;3])] [3;1;2]) (-1) 1);
  (*582*) AddTo n_r2new (Times (Einsum [(T 3,[0;1]); (n_r2,[2;0;3])] [2;1;3]) (-1) 1);
  (*583*) AddTo n_r2new (Times (Einsum [(n_r1,[0]); (T 11,[1;2])] [1;0;2]) (-1) 1);
  (*584*) Del (T 11);
  (*585*) Assign n_r1new (Times (Einsum [(T 1,[0;1;2;3]); (n_r2,[2;0;3])] [1]) (2) 1);
  (*586*) Del (T 1);
  (*587*) AddTo n_r1new (Times (Einsum [(T 2,[0;1;2]); (n_f'ov,[1;2])] [0]) (-1) 1);
  (*588*) Del (T 2);
  (*589*) AddTo n_r1new (Times (Einsum [(T 3,[0;1]); (n_r1,[0])] [1]) (-1) 1);
  (*590*) Del (T 3)]
 [(n_r1new,[0]); (n_r2new,[0;0;1])].

(** ebcc/codegen/RCCD.py:594-650 [hbar_matvec_ea_intermediates] *)
Definition RCCD_hbar_matvec_ea_intermediates : prog := mkprog
 [(n_t2,[0;0;1;1]); (n_v'ooov,[0;0;0;1]); (n_v'ovov,[0;1;0;1]); (n_v'ovvv,[0;1;1;1]); (n_f'ov,[0;1])]
 [(*630*) Assign (T 39) (Plain (Einsum [(n_t2,[0;1;2;3]); (n_v'ooov,[4;1;0;2])] [4;3]));
  (*631*) Assign (T 38) (Plain (Einsum [(n_t2,[0;1;2;3]); (n_v'ooov,[4;0;1;2])] [4;3]));
  (*632*) Assign (T 36) (Plain (Einsum [(n_v'ovov,[0;1;2;3]); (n_t2,[4;2;5;3])] [4;0;5;1]));
  (*633*) Assign (T 35) (Plain (Einsum [(n_t2,[0;1;2;3]); (n_v'ovov,[4;5;1;2])] [0;4;3;5]));
  (*634*) Assign (T 34) (Plain (Einsum [(n_v'ovov,[0;1;2;3]); (n_t2,[4;2;5;1])] [4;0;5;3]));
  (*635*) Assign (T 31) (Plain (Einsum [(n_v'ovvv,[0;1;2;3]); (n_t2,[4;0;1;5])] [4;5;2;3]));
  (*636*) Assign (T 30) (Plain (Einsum [(n_v'ovvv,[0;1;2;3]); (n_t2,[4;0;5;3])] [4;5;1;2]));
  (*637*) Assign (T 29) (Plain (Einsum [(n_v'ovvv,[0;1;2;3]); (n_t2,[4;0;5;1])] [4;5;2;3]));
  (*638*) Assign (T 28) (Plain (Einsum [(n_t2,[0;1;2;3]); (n_f'ov,[1;3])] [0;2]));
  (*639*) Assign (T 27) (Plain (Einsum [(n_t2,[0;1;2;3]); (n_f'ov,[1;2])] [0;3]));
  (*640*) Assign (T 25) (Plain (Einsum [(n_v'ovov,[0;1;2;3]); (n_t2,[4;2;1;3])] [4;0]));
  (*641*) Assign (T 23) (Plain (Einsum [(n_v'ovov,[0;1;2;3]); (n_t2,[4;2;3;1])] [4;0]));
  (*642*) Assign (T 22) (Plain (Einsum [(n_t2,[0;1;2;3]); (n_v'ovvv,[1;2;4;3])] [0;4]));
  (*643*) Assign (T 21) (Plain (Einsum [(n_t2,[0;1;2;3]); (n_v'ovvv,[1;3;4;2])] [0;4]));
  (*644*) Assign (T 12) (Plain (Einsum [(n_t2,[0;1;2;3]); (n_v'ooov,[4;1;0;5])] [4;3;2;5]));
  (*645*) Assign (T 10) (Plain (Einsum [(n_v'ovov,[0;1;2;3]); (n_t2,[4;2;1;5])] [4;0;5;3]));
  (*646*) Assign (T 7) (Plain (Einsum [(n_v'ovvv,[0;1;2;3]); (n_t2,[4;0;3;5])] [4;5;1;2]));
  (*647*) Assign (T 5) (Plain (Einsum [(n_v'ovov,[0;1;2;3]); (n_t2,[0;2;4;3])] [4;1]));
  (*648*) Assign (T 3) (Plain (Einsum [(n_v'ovov,[0;1;2;3]); (n_t2,[0;2;4;1])] [4;3]))]
 [(T 12,[0;1;1;1]); (T 3,[1;1]); (T 21,[0;1]); (T 22,[0;1]); (T 23,[0;0]); (T 25,[0;0]); (T 27,[0;1]); (T 28,[0;1]); (T 29,[0;1;1;1]); (T 30,[0;1;1;1]); (T 31,[0;1;1;1]); (T 34,[0;0;1;1]); (T 35,[0;0;1;1]); (T 36,[0;0;1;1]); (T 38,[0;1]); (T 39,[0;1]); (T 5,[1;1]); (T 7,[0;1;1;1]); (T 10,[0;0;1;1])].

(** ebcc/codegen/RCCD.py:652-759 [hbar_matvec_ea] *)
Definition RCCD_hbar_matvec_ea : prog := mkprog
 [(n_v'ovov,[0;1;0;1]); (n_f'ov,[0;1]); (IT 21,[0;1]); (IT 28,[0;1]); (IT 38,[0;1]); (IT 22,[0;1]); (IT 27,[0;1]); (IT 39,[0;1]); (n_r2,[1;1;0]); (IT 36,[0;0;1;1]); (IT 34,[0;0;1;1]); (IT 35,[0;0;1;1]); (IT 12,[0;1;1;1]); (IT 29,[0;1;1;1]); (n_v'ovvv,[0;1;1;1]); (IT 30,[0;1;1;1]); (IT 31,[0;1;1;1]); (IT 7,[0;1;1;1]); (IT 10,[0;0;1;1]); (n_v'oovv,[0;0;1;1]); (n_f'oo,[0;0]); (IT 25,[0;0]); (IT 23,[0;0]); (n_f'vv,[1;1]); (IT 3,[1;1]); (IT 5,[1;1]); (n_r1,[1]); (n_v'vvvv,[1;1;1;1]); (n_t2,[0;0;1;1])]
 [(*678*) Assign (T 9) (Times (Transpose n_v'ovov [0;2;3;1]) (-1) 1);
  (*679*) AddTo (T 9) (Times (Transpose n_v'ovov [0;2;1;3]) (2) 1);
  (*680*) Assign (T 12) (Plain (Copy n_f'ov));
  (*681*) AddTo (T 12) (Times (Copy (IT 21)) (2) 1);
  (*682*) Del (IT 21);
  (*683*) AddTo (T 12) (Times (Copy (IT 28)) (2) 1);
  (*684*) Del (IT 28);
  (*685*) AddTo (T 12) (Plain (Copy (IT 38)));
  (*686*) Del (IT 38);
  (*687*) AddTo (T 12) (Times (Copy (IT 22)) (-1) 1);
  (*688*) Del (IT 22);
  (*689*) AddTo (T 12) (Times (Copy (IT 27)) (-1) 1);
  (*690*) Del (IT 27);
  (*691*) AddTo (T 12) (Times (Copy (IT 39)) (-2) 1);
  (*692*) Del (IT 39);
  (*693*) Assign (T 5) (Plain (Transpose n_r2 [2;0;1]));
  (*694*) AddTo (T 5) (Times (Transpose n_r2 [2;1;0]) (-1) 2);
  (*695*) Assign (T 4) (Plain (Einsum [(n_v'ovov,[0;1;2;3]); (n_r2,[1;3;4])] [4;0;2]));
  (*696*) Assign (T 6) (Times (Copy (IT 36)) (2) 1);
  (*697*) Del (IT 36);
  (*698*) AddTo (T 6) (Plain (Transpose n_v'ovov [0;2;1;3]));
  (*699*) AddTo (T 6) (Times (Copy (IT 34)) (-1) 1);
  (*700*) Del (IT 34);
  (*701*) AddTo (T 6) (Times (Copy (IT 35)) (-1) 1);
  (*702*) Del (IT 35);
  (*703*) Assign (T 8) (Plain (Copy (IT 12)));
  (*704*) Del (IT 12);
  (*705*) AddTo (T 8) (Times (Copy (IT 29)) (2) 1);
  (*706*) Del (IT 29);
  (*707*) AddTo (T 8) (Plain (Copy n_v'ovvv));
  (*708*) AddTo (T 8) (Times (Transpose (IT 30) [0;1;3;2]) (-1) 1);
  (*709*) Del (IT 30);
  (*710*) AddTo (T 8) (Times (Copy (IT 31)) (-1) 1);
  (*711*) Del (IT 31);
  (*712*) AddTo (T 8) (Times (Transpose (IT 7) [0;3;1;2]) (-1) 1);
  (*713*) Del (IT 7);
  (*714*) Assign (T 7) (Plain (Copy (IT 10)));
  (*715*) Del (IT 10);
  (*716*) AddTo (T 7) (Times (Copy n_v'oovv) (-1) 1);
  (*717*) Assign (T 11) (Plain (Copy n_f'oo));
  (*718*) AddTo (T 11) (Times (Transpose (IT 25) [1;0]) (2) 1);
  (*719*) Del (IT 25);
  (*720*) AddTo (T 11) (Times (Transpose (IT 23) [1;0]) (-1) 1);
  (*721*) Del (IT 23);
  (*722*) Assign (T 3) (Plain (Copy n_f'vv));
  (*723*) AddTo (T 3) (Plain (Transpose (IT 3) [1;0]));
  (*724*) Del (IT 3);
  (*725*) AddTo (T 3) (Times (Transpose (IT 5) [1;0]) (-2) 1);
  (*726*) Del (IT 5);
  (*727*) Assign (T 10) (Plain (Einsum [(n_f'ov,[0;1]); (n_r1,[1])] [0]));
  (*728*) AddTo (T 10) (Times (Einsum [(T 9,[0;1;2;3]); (n_r2,[2;3;0])] [1]) (-1) 1);
  (*729*) Del (T 9);
  (*730*) Assign (T 2) (Times (Transpose n_r2 [2;0;1]) (2) 1);
  (*731*) AddTo (T 2) (Times (Transpose n_r2 [2;1;0]) (-1) 1);
  (*732*) Assign (T 1) (Times (Copy n_v'ovvv) (-1) 1);
  (*733*) AddTo (T 1) (Times (Transpose n_v'ovvv [0;2;1;3]) (2) 1);
  (*734*) Assign n_r2new (Plain (Einsum [(n_r2,[0;1;2]); (n_v'vvvv,[3;0;4;1])] [3;4;2]));
  (*735*) AddTo n_r2new (Plain (Einsum [(n_t2,[0;1;2;3]); (T 4,[4;1;0])] [3;2;4]));
  (*736*) Del (T 4);
  (*737*) AddTo n_r2new (Times (Einsum [(T 6,[0;1;2;3]); (T 5,[1;3;4])] [2;4;0]) (2) 1);
  (*738*) Del (T 6);
  (*738*) Del (T 5);
  (*739*) AddTo n_r2new (Plain (Einsum [(n_r2,[0;1;2]); (T 7,[3;2;4;1])] [0;4;3]));
  (*740*) AddTo n_r2new (Plain (Einsum [(T 7,[0;1;2;3]); (n_r2,[3;4;1])] [2;4;0]));
  (*741*) Del (T 7);
  (*742*) AddTo n_r2new (Times (Einsum [(T 8,[0;1;2;3]); (n_r1,[3])] [1;2;0]) (-1) 1);
  (*743*) Del (T 8);
  (*744*) AddTo n_r2new (Plain (Einsum [(T 3,[0;1]); (n_r2,[0;2;3])] [1;2;3]));
  (*745*) AddTo n_r2new (Plain (Einsum [(n_r2,[0;1;2]); (T 3,[1;3])] [0;3;2]));
  (*746*) AddTo n_r2new (Plain (Einsum [(T 10,[0]); (n_t2,[1;0;2;3])] [2;3;1]));
  (*747*) Del (T 10);
  (*748*) AddTo n_r2new (Times (Einsum [(T 11,[0;1]); (n_r2,[2;3;0])] [2;3;1]) (-1) 1);
  (*749*) Del (T 11);
  (*750*) AddTo n_r2new (Times (Einsum [(n_r1,[0]); (T 12,[1;2])] [2;0;1]) (-1) 1);
  (*751*) Del (T 12);
  (*752*) Assign n_r1new (Times (Einsum [(n_r2,[0;1;2]); (T 1,[2;1;0;3])] [3]) (-1) 1);
  (*753*) Del (T 1);
  (*754*) AddTo n_r1new (Times (Einsum [(n_f'ov,[0;1]); (T 2,[0;1;2])] [2]) (-1) 1);
  (*755*) Del (T 2);
  (*756*) AddTo n_r1new (Plain (Einsum [(T 3,[0;1]); (n_r1,[0])] [1]));
  (*757*) Del (T 3)]
 [(n_r1new,[1]); (n_r2new,[1;1;0])].

(** ebcc/codegen/RCCD.py:761-821 [hbar_lmatvec_ip_intermediates] *)
Definition RCCD_hbar_lmatvec_ip_intermediates : prog := mkprog
 [(n_v'ovov,[0;1;0;1]); (n_t2,[0;0;1;1]); (n_v'ovvv,[0;1;1;1]); (n_v'ooov,[0;0;0;1]); (n_f'ov,[0;1])]
 [(*799*) Assign (T 54) (Plain (Einsum [(n_v'ovov,[0;1;2;3]); (n_t2,[0;2;4;3])] [4;1]));
  (*800*) Assign (T 52) (Plain (Einsum [(n_v'ovov,[0;1;2;3]); (n_t2,[0;2;3;4])] [4;1]));
  (*801*) Assign (T 50) (Plain (Einsum [(n_v'ovov,[0;1;2;3]); (n_t2,[4;5;1;3])] [4;5;0;2]));
  (*802*) Assign (T 38) (Plain (Einsum [(n_v'ovov,[0;1;2;3]); (n_t2,[4;2;5;3])] [4;0;5;1]));
  (*803*) Assign (T 37) (Plain (Einsum [(n_t2,[0;1;2;3]); (n_v'ovov,[4;5;1;2])] [0;4;3;5]));
  (*804*) Assign (T 35) (Plain (Einsum [(n_v'ovov,[0;1;2;3]); (n_t2,[4;2;5;1])] [4;0;5;3]));
  (*805*) Assign (T 34) (Plain (Einsum [(n_v'ovov,[0;1;2;3]); (n_t2,[4;2;1;5])] [4;0;5;3]));
  (*806*) Assign (T 31) (Plain (Einsum [(n_t2,[0;1;2;3]); (n_v'ovvv,[4;2;5;3])] [0;1;4;5]));
  (*807*) Assign (T 28) (Plain (Einsum [(n_t2,[0;1;2;3]); (n_v'ovvv,[1;2;4;3])] [0;4]));
  (*808*) Assign (T 25) (Plain (Einsum [(n_v'ovvv,[0;1;2;3]); (n_t2,[4;0;3;1])] [4;2]));
  (*809*) Assign (T 23) (Plain (Einsum [(n_t2,[0;1;2;3]); (n_v'ooov,[4;5;1;3])] [0;4;5;2]));
  (*810*) Assign (T 22) (Plain (Einsum [(n_t2,[0;1;2;3]); (n_v'ooov,[4;5;1;2])] [0;4;5;3]));
  (*811*) Assign (T 20) (Plain (Einsum [(n_t2,[0;1;2;3]); (n_v'ooov,[4;1;5;3])] [0;4;5;2]));
  (*812*) Assign (T 19) (Plain (Einsum [(n_t2,[0;1;2;3]); (n_v'ooov,[4;1;5;2])] [0;4;5;3]));
  (*813*) Assign (T 16) (Plain (Einsum [(n_t2,[0;1;2;3]); (n_v'ooov,[4;0;1;3])] [4;2]));
  (*814*) Assign (T 13) (Plain (Einsum [(n_t2,[0;1;2;3]); (n_v'ooov,[4;0;1;2])] [4;3]));
  (*815*) Assign (T 11) (Plain (Einsum [(n_t2,[0;1;2;3]); (n_v'ovov,[4;2;1;3])] [0;4]));
  (*816*) Assign (T 9) (Plain (Einsum [(n_v'ovov,[0;1;2;3]); (n_t2,[4;2;3;1])] [4;0]));
  (*817*) Assign (T 4) (Plain (Einsum [(n_t2,[0;1;2;3]); (n_f'ov,[4;3])] [4;0;1;2]));
  (*818*) Assign (T 2) (Plain (Einsum [(n_t2,[0;1;2;3]); (n_f'ov,[1;3])] [0;2]));
  (*819*) Assign (T 1) (Plain (Einsum [(n_t2,[0;1;2;3]); (n_f'ov,[1;2])] [0;3]))]
 [(T 1,[0;1]); (T 2,[0;1]); (T 11,[0;0]); (T 13,[0;1]); (T 16,[0;1]); (T 19,[0;0;0;1]); (T 20,[0;0;0;1]); (T 22,[0;0;0;1]); (T 23,[0;0;0;1]); (T 25,[0;1]); (T 28,[0;1]); (T 4,[0;0;0;1]); (T 31,[0;0;0;1]); (T 34,[0;0;1;1]); (T 35,[0;0;1;1]); (T 37,[0;0;1;1]); (T 38,[0;0;1;1]); (T 50,[0;0;0;0]); (T 52,[1;1]); (T 54,[1;1]); (T 9,[0;0])].

(** ebcc/codegen/RCCD.py:823-935 [hbar_lmatvec_ip] *)
Definition RCCD_hbar_lmatvec_ip : prog := mkprog
 [(n_t2,[0;0;1;1]); (n_f'oo,[0;0]); (IT 11,[0;0]); (IT 9,[0;0]); (n_r2,[0;0;1]); (IT 34,[0;0;1;1]); (n_v'oovv,[0;0;1;1]); (n_f'vv,[1;1]); (IT 52,[1;1]); (IT 54,[1;1]); (IT 38,[0;0;1;1]); (n_v'ovov,[0;1;0;1]); (IT 35,[0;0;1;1]); (IT 37,[0;0;1;1]); (IT 19,[0;0;0;1]); (IT 23,[0;0;0;1]); (IT 4,[0;0;0;1]); (IT 20,[0;0;0;1]); (IT 22,[0;0;0;1]); (IT 31,[0;0;0;1]); (n_f'ov,[0;1]); (IT 13,[0;1]); (IT 2,[0;1]); (IT 25,[0;1]); (IT 1,[0;1]); (IT 16,[0;1]); (IT 28,[0;1]); (n_v'ooov,[0;0;0;1]); (n_v'ovoo,[0;1;0;0]); (n_r1,[0]); (n_v'oooo,[0;0;0;0]); (IT 50,[0;0;0;0])]
 [(*849*) Assign (T 10) (Plain (Transpose n_t2 [0;1;3;2]));
  (*850*) AddTo (T 10) (Times (Copy n_t2) (-1) 2);
  (*851*) Assign (T 5) (Plain (Copy n_f'oo));
  (*852*) AddTo (T 5) (Times (Copy (IT 11)) (2) 1);
  (*853*) Del (IT 11);
  (*854*) AddTo (T 5) (Times (Copy (IT 9)) (-1) 1);
  (*855*) Del (IT 9);
  (*856*) Assign (T 6) (Times (Copy n_r2) (-1) 2);
  (*857*) AddTo (T 6) (Plain (Transpose n_r2 [1;0;2]));
  (*858*) Assign (T 8) (Plain (Copy (IT 34)));
  (*859*) Del (IT 34);
  (*860*) AddTo (T 8) (Times (Copy n_v'oovv) (-1) 1);
  (*861*) Assign (T 11) (Plain (Einsum [(T 10,[0;1;2;3]); (n_r2,[0;1;3])] [2]));
  (*862*) Del (T 10);
  (*863*) Assign (T 9) (Plain (Copy n_f'vv));
  (*864*) AddTo (T 9) (Plain (Copy (IT 52)));
  (*865*) Del (IT 52);
  (*866*) AddTo (T 9) (Times (Copy (IT 54)) (-2) 1);
  (*867*) Del (IT 54);
  (*868*) Assign (T 7) (Times (Copy (IT 38)) (2) 1);
  (*869*) Del (IT 38);
  (*870*) AddTo (T 7) (Plain (Transpose n_v'ovov [0;2;1;3]));
  (*871*) AddTo (T 7) (Times (Copy (IT 35)) (-1) 1);
  (*872*) Del (IT 35);
  (*873*) AddTo (T 7) (Times (Copy (IT 37)) (-1) 1);
  (*874*) Del (IT 37);
  (*875*) Assign (T 4) (Times (Copy n_r2) (-1) 1);
  (*876*) AddTo (T 4) (Times (Transpose n_r2 [1;0;2]) (2) 1);
  (*877*) Assign (T 2) (Plain (Copy (IT 19)));
  (*878*) AddTo (T 2) (Plain (Transpose (IT 23) [0;2;1;3]));
  (*879*) AddTo (T 2) (Times (Transpose (IT 4) [1;2;0;3]) (1) 2);
  (*880*) AddTo (T 2) (Times (Copy (IT 20)) (-1) 2);
  (*881*) AddTo (T 2) (Times (Transpose (IT 22) [0;2;1;3]) (-1) 2);
  (*882*) AddTo (T 2) (Times (Copy (IT 31)) (-1) 1);
  (*883*) Assign (T 3) (Times (Copy n_f'ov) (1) 2);
  (*884*) AddTo (T 3) (Times (Copy (IT 13)) (1) 2);
  (*885*) Del (IT 13);
  (*886*) AddTo (T 3) (Plain (Copy (IT 2)));
  (*887*) Del (IT 2);
  (*888*) AddTo (T 3) (Plain (Copy (IT 25)));
  (*889*) Del (IT 25);
  (*890*) AddTo (T 3) (Times (Copy (IT 1)) (-1) 2);
  (*891*) Del (IT 1);
  (*892*) AddTo (T 3) (Times (Copy (IT 16)) (-1) 1);
  (*893*) Del (IT 16);
  (*894*) AddTo (T 3) (Times (Copy (IT 28)) (-1) 2);
  (*895*) Del (IT 28);
  (*896*) Assign (T 1) (Plain (Copy (IT 19)));
  (*897*) Del (IT 19);
  (*898*) AddTo (T 1) (Times (Transpose (IT 23) [0;2;1;3]) (4) 1);
  (*899*) Del (IT 23);
  (*900*) AddTo (T 1) (Times (Transpose (IT 4) [1;2;0;3]) (2) 1);
  (*901*) Del (IT 4);
  (*902*) AddTo (T 1) (Times (Copy (IT 20)) (-2) 1);
  (*903*) Del (IT 20);
  (*904*) AddTo (T 1) (Times (Transpose (IT 22) [0;2;1;3]) (-2) 1);
  (*905*) Del (IT 22);
  (*906*) AddTo (T 1) (Times (Copy (IT 31)) (-1) 1);
  (*907*) Del (IT 31);
  (*908*) AddTo (T 1) (Times (Transpose n_v'ooov [0;2;1;3]) (-1) 1);
  (*909*) AddTo (T 1) (Times (Transpose n_v'ovoo [0;2;3;1]) (2) 1);
  (*910*) Assign n_r2new (Plain (Einsum [(n_r1,[0]); (n_v'ovoo,[1;2;3;0])] [1;3;2]));
  (*911*) AddTo n_r2new (Plain (Einsum [(n_v'oooo,[0;1;2;3]); (n_r2,[1;3;4])] [0;2;4]));
  (*912*) AddTo n_r2new (Plain (Einsum [(n_r2,[0;1;2]); (IT 50,[1;0;3;4])] [4;3;2]));
  (*913*) Del (IT 50);
  (*914*) AddTo n_r2new (Times (Einsum [(n_f'ov,[0;1]); (n_r1,[2])] [0;2;1]) (-1) 1);
  (*915*) AddTo n_r2new (Times (Einsum [(T 7,[0;1;2;3]); (T 6,[4;0;2])] [1;4;3]) (2) 1);
  (*916*) Del (T 7);
  (*916*) Del (T 6);
  (*917*) AddTo n_r2new (Plain (Einsum [(n_r2,[0;1;2]); (T 8,[1;3;2;4])] [0;3;4]));
  (*918*) AddTo n_r2new (Plain (Einsum [(n_r2,[0;1;2]); (T 8,[0;3;2;4])] [3;1;4]));
  (*919*) Del (T 8);
  (*920*) AddTo n_r2new (Plain (Einsum [(T 9,[0;1]); (n_r2,[2;3;0])] [2;3;1]));
  (*921*) Del (T 9);
  (*922*) AddTo n_r2new (Times (Einsum [(n_v'ovov,[0;1;2;3]); (T 11,[3])] [0;2;1]) (-2) 1);
  (*923*) Del (T 11);
  (*924*) AddTo n_r2new (Times (Einsum [(T 5,[0;1]); (n_r2,[0;2;3])] [1;2;3]) (-1) 1);
  (*925*) AddTo n_r2new (Times (Einsum [(T 5,[0;1]); (n_r2,[2;0;3])] [2;1;3]) (-1) 1);
  (*926*) Assign n_r1new (Plain (Einsum [(n_r2,[0;1;2]); (T 1,[0;1;3;2])] [3]));
  (*927*) Del (T 1);
  (*928*) AddTo n_r1new (Times (Einsum [(n_r2,[0;1;2]); (T 2,[1;0;3;2])] [3]) (-2) 1);
  (*929*) Del (T 2);
  (*930*) AddTo n_r1new (Times (Einsum [(T 3,[0;1]); (T 4,[2;0;1])] [2]) (-2) 1);
  (*931*) Del (T 3);
  (*931*) Del (T 4);
  (*932*) AddTo n_r1new (Times (Einsum [(n_r1,[0]); (T 5,[0;1])] [1]) (-1) 1);
  (*933*) Del (T 5)]
 [(n_r1new,[0]); (n_r2new,[0;0;1])].

(** ebcc/codegen/RCCD.py:937-993 [hbar_lmatvec_ea_intermediates] *)
Definition RCCD_hbar_lmatvec_ea_intermediates : prog := mkprog
 [(n_v'ovov,[0;1;0;1]); (n_t2,[0;0;1;1]); (n_v'ovvv,[0;1;1;1]); (n_v'ooov,[0;0;0;1]); (n_f'ov,[0;1])]
 [(*973*) Assign (T 46) (Plain (Einsum [(n_v'ovov,[0;1;2;3]); (n_t2,[4;2;5;3])] [4;0;5;1]));
  (*974*) Assign (T 45) (Plain (Einsum [(n_t2,[0;1;2;3]); (n_v'ovov,[4;5;1;2])] [0;4;3;5]));
  (*975*) Assign (T 43) (Plain (Einsum [(n_v'ovov,[0;1;2;3]); (n_t2,[4;2;5;1])] [4;0;5;3]));
  (*976*) Assign (T 42) (Plain (Einsum [(n_v'ovov,[0;1;2;3]); (n_t2,[4;2;1;5])] [4;0;5;3]));
  (*977*) Assign (T 40) (Plain (Einsum [(n_v'ovov,[0;1;2;3]); (n_t2,[4;2;1;3])] [4;0]));
  (*978*) Assign (T 38) (Plain (Einsum [(n_t2,[0;1;2;3]); (n_v'ovov,[4;3;1;2])] [0;4]));
  (*979*) Assign (T 36) (Plain (Einsum [(n_v'ovvv,[0;1;2;3]); (n_t2,[4;0;5;3])] [4;5;1;2]));
  (*980*) Assign (T 34) (Plain (Einsum [(n_t2,[0;1;2;3]); (n_v'ovvv,[1;4;5;2])] [0;3;4;5]));
  (*981*) Assign (T 31) (Plain (Einsum [(n_v'ovvv,[0;1;2;3]); (n_t2,[4;0;5;1])] [4;5;2;3]));
  (*982*) Assign (T 29) (Plain (Einsum [(n_v'ovvv,[0;1;2;3]); (n_t2,[4;0;1;5])] [4;5;2;3]));
  (*983*) Assign (T 26) (Plain (Einsum [(n_t2,[0;1;2;3]); (n_v'ovvv,[1;2;4;3])] [0;4]));
  (*984*) Assign (T 23) (Plain (Einsum [(n_t2,[0;1;2;3]); (n_v'ovvv,[1;3;4;2])] [0;4]));
  (*985*) Assign (T 20) (Plain (Einsum [(n_t2,[0;1;2;3]); (n_v'ooov,[4;1;0;5])] [4;3;2;5]));
  (*986*) Assign (T 17) (Plain (Einsum [(n_t2,[0;1;2;3]); (n_v'ooov,[4;1;0;2])] [4;3]));
  (*987*) Assign (T 14) (Plain (Einsum [(n_t2,[0;1;2;3]); (n_v'ooov,[4;1;0;3])] [4;2]));
  (*988*) Assign (T 12) (Plain (Einsum [(n_v'ovov,[0;1;2;3]); (n_t2,[0;2;4;3])] [4;1]));
  (*989*) Assign (T 10) (Plain (Einsum [(n_v'ovov,[0;1;2;3]); (n_t2,[0;2;3;4])] [4;1]));
  (*990*) Assign (T 2) (Plain (Einsum [(n_t2,[0;1;2;3]); (n_f'ov,[1;3])] [0;2]));
  (*991*) Assign (T 1) (Plain (Einsum [(n_t2,[0;1;2;3]); (n_f'ov,[1;2])] [0;3]))]
 [(T 1,[0;1]); (T 2,[0;1]); (T 12,[1;1]); (T 14,[0;1]); (T 17,[0;1]); (T 20,[0;1;1;1]); (T 23,[0;1]); (T 26,[0;1]); (T 29,[0;1;1;1]); (T 31,[0;1;1;1]); (T 34,[0;1;1;1]); (T 36,[0;1;1;1]); (T 38,[0;0]); (T 40,[0;0]); (T 42,[0;0;1;1]); (T 43,[0;0;1;1]); (T 45,[0;0;1;1]); (T 46,[0;0;1;1]); (T 10,[1;1])].

(** ebcc/codegen/RCCD.py:995-1106 [hbar_lmatvec_ea] *)
Definition RCCD_hbar_lmatvec_ea : prog := mkprog
 [(n_t2,[0;0;1;1]); (n_r2,[1;1;0]); (IT 42,[0;0;1;1]); (n_v'oovv,[0;0;1;1]); (n_f'vv,[1;1]); (IT 10,[1;1]); (IT 12,[1;1]); (n_f'oo,[0;0]); (IT 40,[0;0]); (IT 38,[0;0]); (IT 46,[0;0;1;1]); (n_v'ovov,[0;1;0;1]); (IT 43,[0;0;1;1]); (IT 45,[0;0;1;1]); (n_f'ov,[0;1]); (IT 14,[0;1]); (IT 2,[0;1]); (IT 23,[0;1]); (IT 1,[0;1]); (IT 17,[0;1]); (IT 26,[0;1]); (IT 20,[0;1;1;1]); (IT 31,[0;1;1;1]); (IT 29,[0;1;1;1]); (IT 36,[0;1;1;1]); (IT 34,[0;1;1;1]); (n_v'ovvv,[0;1;1;1]); (n_r1,[1]); (n_v'vvvv,[1;1;1;1])]
 [(*1021*) Assign (T 7) (Plain (Transpose n_t2 [0;1;3;2]));
  (*1022*) AddTo (T 7) (Times (Copy n_t2) (-1) 2);
  (*1023*) Assign (T 14) (Plain (Einsum [(T 7,[0;1;2;3]); (n_r2,[3;2;0])] [1]));
  (*1024*) Assign (T 12) (Plain (Copy (IT 42)));
  (*1025*) Del (IT 42);
  (*1026*) AddTo (T 12) (Times (Copy n_v'oovv) (-1) 1);
  (*1027*) Assign (T 6) (Plain (Copy n_f'vv));
  (*1028*) AddTo (T 6) (Plain (Copy (IT 10)));
  (*1029*) Del (IT 10);
  (*1030*) AddTo (T 6) (Times (Copy (IT 12)) (-2) 1);
  (*1031*) Del (IT 12);
  (*1032*) Assign (T 13) (Plain (Copy n_f'oo));
  (*1033*) AddTo (T 13) (Times (Copy (IT 40)) (2) 1);
  (*1034*) Del (IT 40);
  (*1035*) AddTo (T 13) (Times (Copy (IT 38)) (-1) 1);
  (*1036*) Del (IT 38);
  (*1037*) Assign (T 11) (Times (Copy (IT 46)) (2) 1);
  (*1038*) Del (IT 46);
  (*1039*) AddTo (T 11) (Plain (Transpose n_v'ovov [0;2;1;3]));
  (*1040*) AddTo (T 11) (Times (Copy (IT 43)) (-1) 1);
  (*1041*) Del (IT 43);
  (*1042*) AddTo (T 11) (Times (Copy (IT 45)) (-1) 1);
  (*1043*) Del (IT 45);
  (*1044*) Assign (T 9) (Plain (Einsum [(n_r2,[0;1;2]); (n_t2,[3;4;0;1])] [2;3;4]));
  (*1045*) Assign (T 10) (Plain (Transpose n_r2 [2;0;1]));
  (*1046*) AddTo (T 10) (Times (Transpose n_r2 [2;1;0]) (-1) 2);
  (*1047*) Assign (T 5) (Times (Transpose n_r2 [2;0;1]) (2) 1);
  (*1048*) AddTo (T 5) (Times (Transpose n_r2 [2;1;0]) (-1) 1);
  (*1049*) Assign (T 4) (Times (Copy n_f'ov) (1) 2);
  (*1050*) AddTo (T 4) (Times (Copy (IT 14)) (1) 2);
  (*1051*) Del (IT 14);
  (*1052*) AddTo (T 4) (Plain (Copy (IT 2)));
  (*1053*) Del (IT 2);
  (*1054*) AddTo (T 4) (Plain (Copy (IT 23)));
  (*1055*) Del (IT 23);
  (*1056*) AddTo (T 4) (Times (Copy (IT 1)) (-1) 2);
  (*1057*) Del (IT 1);
  (*1058*) AddTo (T 4) (Times (Copy (IT 17)) (-1) 1);
  (*1059*) Del (IT 17);
  (*1060*) AddTo (T 4) (Times (Copy (IT 26)) (-1) 2);
  (*1061*) Del (IT 26);
  (*1062*) Assign (T 2) (Plain (Copy (IT 20)));
  (*1063*) Del (IT 20);
  (*1064*) AddTo (T 2) (Times (Transpose (IT 31) [0;1;3;2]) (2) 1);
  (*1065*) Del (IT 31);
  (*1066*) AddTo (T 2) (Times (Transpose (IT 29) [0;1;3;2]) (-1) 1);
  (*1067*) Del (IT 29);
  (*1068*) AddTo (T 2) (Times (Transpose (IT 36) [0;1;3;2]) (-1) 1);
  (*1069*) Del (IT 36);
  (*1070*) Assign (T 8) (Times (Einsum [(T 7,[0;1;2;3]); (n_r2,[3;2;0])] [1]) (2) 1);
  (*1071*) Del (T 7);
  (*1072*) Assign (T 3) (Plain (Copy (IT 34)));
  (*1073*) AddTo (T 3) (Times (Copy n_v'ovvv) (2) 1);
  (*1074*) AddTo (T 3) (Times (Transpose n_v'ovvv [0;2;3;1]) (-1) 1);
  (*1075*) Assign (T 1) (Times (Transpose n_r2 [2;0;1]) (-1) 1);
  (*1076*) AddTo (T 1) (Times (Transpose n_r2 [2;1;0]) (2) 1);
  (*1077*) Assign n_r2new (Times (Einsum [(n_f'ov,[0;1]); (n_r1,[2])] [1;2;0]) (-1) 1);
  (*1078*) AddTo n_r2new (Plain (Einsum [(n_r2,[0;1;2]); (n_v'vvvv,[3;0;4;1])] [3;4;2]));
  (*1079*) AddTo n_r2new (Times (Einsum [(n_r1,[0]); (n_v'ovvv,[1;2;3;0])] [2;3;1]) (-1) 1);
  (*1080*) AddTo n_r2new (Plain (Einsum [(T 9,[0;1;2]); (n_v'ovov,[2;3;1;4])] [4;3;0]));
  (*1081*) Del (T 9);
  (*1082*) AddTo n_r2new (Times (Einsum [(T 10,[0;1;2]); (T 11,[0;3;1;4])] [4;2;3]) (2) 1);
  (*1083*) Del (T 10);
  (*1083*) Del (T 11);
  (*1084*) AddTo n_r2new (Plain (Einsum [(n_r2,[0;1;2]); (T 12,[2;3;1;4])] [0;4;3]));
  (*1085*) AddTo n_r2new (Plain (Einsum [(T 12,[0;1;2;3]); (n_r2,[2;4;0])] [3;4;1]));
  (*1086*) Del (T 12);
  (*1087*) AddTo n_r2new (Plain (Einsum [(n_r2,[0;1;2]); (T 6,[0;3])] [3;1;2]));
  (*1088*) AddTo n_r2new (Plain (Einsum [(n_r2,[0;1;2]); (T 6,[1;3])] [0;3;2]));
  (*1089*) AddTo n_r2new (Times (Einsum [(T 13,[0;1]); (n_r2,[2;3;0])] [2;3;1]) (-1) 1);
  (*1090*) Del (T 13);
  (*1091*) AddTo n_r2new (Times (Einsum [(n_v'ovov,[0;1;2;3]); (T 14,[2])] [1;3;0]) (-2) 1);
  (*1092*) Del (T 14);
  (*1093*) Assign n_r1new (Times (Einsum [(n_r2,[0;1;2]); (IT 34,[2;1;3;0])] [3]) (2) 1);
  (*1094*) Del (IT 34);
  (*1095*) AddTo n_r1new (Times (Einsum [(T 1,[0;1;2]); (T 2,[0;2;1;3])] [3]) (-1) 1);
  (*1096*) Del (T 1);
  (*1096*) Del (T 2);
  (*1097*) AddTo n_r1new (Times (Einsum [(n_r2,[0;1;2]); (T 3,[2;0;3;1])] [3]) (-1) 1);
  (*1098*) Del (T 3);
  (*1099*) AddTo n_r1new (Times (Einsum [(T 4,[0;1]); (T 5,[0;1;2])] [2]) (-2) 1);
  (*1100*) Del (T 4);
  (*1100*) Del (T 5);
  (*1101*) AddTo n_r1new (Plain (Einsum [(T 6,[0;1]); (n_r1,[0])] [1]));
  (*1102*) Del (T 6);
  (*1103*) AddTo n_r1new (Plain (Einsum [(T 8,[0]); (n_f'ov,[0;1])] [1]));
  (*1104*) Del (T 8)]
 [(n_r1new,[1]); (n_r2new,[1;1;0])].

