(** Generated by tools/translate_codegen.py from ebcc/codegen/RDFCCD.py; one statement per source line
    (the number in the comment before it). *)
From Coq Require Import ZArith List.
From Verif Require Import CgModel CgNames.
Import ListNotations.

(** ebcc/codegen/RDFCCD.py:19-43 [energy] *)
Definition RDFCCD_energy : prog := mkprog
 [(n_t2,[0;0;1;1]); (n_v'xov,[2;0;1])]
 [(*36*) Assign (T 1) (Times (Transpose n_t2 [0;1;3;2]) (2) 1);
  (*37*) AddTo (T 1) (Times (Copy n_t2) (-1) 1);
  (*38*) Assign (T 2) (Times (Einsum [(n_v'xov,[0;1;2]); (T 1,[1;3;4;2])] [3;4;0]) (1) 2);
  (*39*) Del (T 1);
  (*40*) Assign n_e_cc (Times (Einsum [(n_v'xov,[0;1;2]); (T 2,[1;2;0])] []) (2) 1);
  (*41*) Del (T 2)]
 [(n_e_cc,[])].

(** ebcc/codegen/RDFCCD.py:45-138 [update_amps] *)
Definition RDFCCD_update_amps : prog := mkprog
 [(n_v'xov,[2;0;1]); (n_t2,[0;0;1;1]); (n_v'xvv,[2;1;1]); (n_v'xoo,[2;0;0]); (n_f'vv,[1;1]); (n_f'oo,[0;0])]
 [(*64*) Assign (T 1) (Plain (Einsum [(n_v'xov,[0;1;2]); (n_t2,[3;1;2;4])] [3;4;0]));
  (*65*) Assign (T 7) (Plain (Transpose n_v'xov [1;2;0]));
  (*66*) AddTo (T 7) (Times (Copy (T 1)) (-1) 1);
  (*67*) Assign (T 2) (Plain (Einsum [(n_v'xov,[0;1;2]); (n_v'xov,[0;3;4])] [3;1;4;2]));
  (*68*) Assign (T 12) (Times (Transpose n_t2 [0;1;3;2]) (2) 1);
  (*69*) AddTo (T 12) (Times (Copy n_t2) (-1) 1);
  (*70*) Assign (T 6) (Plain (Einsum [(n_v'xvv,[0;1;2]); (n_v'xoo,[0;3;4])] [3;4;1;2]));
  (*71*) Assign (T 8) (Plain (Einsum [(n_v'xov,[0;1;2]); (T 7,[3;4;0])] [1;3;2;4]));
  (*72*) Del (T 7);
  (*73*) Assign (T 3) (Plain (Einsum [(n_t2,[0;1;2;3]); (T 2,[1;4;5;2])] [0;4;3;5]));
  (*74*) Assign (T 13) (Plain (Einsum [(n_v'xov,[0;1;2]); (T 12,[1;3;4;2])] [3;4;0]));
  (*75*) Del (T 12);
  (*76*) Assign (T 9) (Plain (Transpose (T 6) [1;0;3;2]));
  (*77*) AddTo (T 9) (Times (Copy (T 3)) (-1) 1);
  (*78*) AddTo (T 9) (Times (Transpose (T 8) [1;0;3;2]) (-2) 1);
  (*79*) Del (T 8);
  (*80*) Assign (T 16) (Plain (Einsum [(T 13,[0;1;2]); (n_v'xov,[2;3;1])] [3;0]));
  (*81*) Assign (T 14) (Times (Einsum [(n_v'xov,[0;1;2]); (T 13,[1;3;0])] [2;3]) (1) 2);
  (*82*) Del (T 13);
  (*83*) Assign (T 24) (Times (Transpose (T 2) [1;0;2;3]) (2) 1);
  (*84*) AddTo (T 24) (Times (Transpose (T 2) [1;0;3;2]) (-1) 1);
  (*85*) Assign (T 10) (Plain (Einsum [(T 9,[0;1;2;3]); (n_t2,[4;1;5;3])] [4;0;5;2]));
  (*86*) Del (T 9);
  (*87*) Assign (T 5) (Plain (Einsum [(n_v'xov,[0;1;2]); (T 1,[3;4;0])] [3;1;4;2]));
  (*88*) Assign (T 20) (Plain (Einsum [(n_f'vv,[0;1]); (n_t2,[2;3;4;1])] [2;3;0;4]));
  (*89*) Assign (T 21) (Plain (Einsum [(n_t2,[0;1;2;3]); (T 6,[4;1;5;2])] [0;4;3;5]));
  (*90*) Del (T 6);
  (*91*) Assign (T 17) (Plain (Einsum [(n_t2,[0;1;2;3]); (T 16,[1;4])] [0;4;3;2]));
  (*92*) Del (T 16);
  (*93*) Assign (T 15) (Times (Einsum [(n_t2,[0;1;2;3]); (T 14,[2;4])] [0;1;3;4]) (2) 1);
  (*94*) Del (T 14);
  (*95*) Assign (T 4) (Plain (Einsum [(n_v'xvv,[0;1;2]); (n_v'xvv,[0;3;4])] [1;3;4;2]));
  (*96*) Assign (T 25) (Plain (Einsum [(n_t2,[0;1;2;3]); (T 24,[1;4;5;3])] [0;4;2;5]));
  (*97*) Del (T 24);
  (*98*) Assign (T 11) (Plain (Copy (T 5)));
  (*99*) Del (T 5);
  (*100*) AddTo (T 11) (Plain (Copy (T 10)));
  (*101*) Del (T 10);
  (*102*) Assign (T 23) (Plain (Einsum [(n_v'xoo,[0;1;2]); (n_v'xoo,[0;3;4])] [3;1;2;4]));
  (*103*) AddTo (T 23) (Plain (Einsum [(T 2,[0;1;2;3]); (n_t2,[4;5;3;2])] [0;4;1;5]));
  (*104*) Assign (T 22) (Plain (Copy (T 20)));
  (*105*) Del (T 20);
  (*106*) AddTo (T 22) (Times (Copy (T 21)) (-1) 1);
  (*107*) Del (T 21);
  (*108*) Assign (T 18) (Plain (Transpose (T 15) [1;0;2;3]));
  (*109*) Del (T 15);
  (*110*) AddTo (T 18) (Plain (Transpose (T 17) [0;1;3;2]));
  (*111*) Del (T 17);
  (*112*) Assign (T 19) (Plain (Einsum [(n_t2,[0;1;2;3]); (n_f'oo,[4;1])] [4;0;2;3]));
  (*113*) Assign n_t2new (Plain (Einsum [(T 1,[0;1;2]); (T 1,[3;4;2])] [3;0;4;1]));
  (*114*) Del (T 1);
  (*115*) AddTo n_t2new (Plain (Einsum [(T 3,[0;1;2;3]); (n_t2,[4;1;3;5])] [4;0;2;5]));
  (*116*) Del (T 3);
  (*117*) AddTo n_t2new (Plain (Transpose (T 2) [1;0;3;2]));
  (*118*) Del (T 2);
  (*119*) AddTo n_t2new (Plain (Einsum [(n_t2,[0;1;2;3]); (T 4,[4;3;5;2])] [0;1;4;5]));
  (*120*) Del (T 4);
  (*121*) AddTo n_t2new (Times (Copy (T 11)) (-1) 1);
  (*122*) AddTo n_t2new (Times (Transpose (T 11) [1;0;3;2]) (-1) 1);
  (*123*) Del (T 11);
  (*124*) AddTo n_t2new (Times (Copy (T 18)) (-1) 1);
  (*125*) AddTo n_t2new (Times (Transpose (T 18) [1;0;3;2]) (-1) 1);
  (*126*) Del (T 18);
  (*127*) AddTo n_t2new (Times (Transpose (T 19) [0;1;3;2]) (-1) 1);
  (*128*) AddTo n_t2new (Times (Transpose (T 19) [1;0;2;3]) (-1) 1);
  (*129*) Del (T 19);
  (*130*) AddTo n_t2new (Plain (Transpose (T 22) [0;1;3;2]));
  (*131*) AddTo n_t2new (Plain (Transpose (T 22) [1;0;2;3]));
  (*132*) Del (T 22);
  (*133*) AddTo n_t2new (Plain (Einsum [(n_t2,[0;1;2;3]); (T 23,[0;4;1;5])] [4;5;3;2]));
  (*134*) Del (T 23);
  (*135*) AddTo n_t2new (Times (Einsum [(T 25,[0;1;2;3]); (n_t2,[4;1;5;3])] [0;4;2;5]) (2) 1);
  (*136*) Del (T 25)]
 [(n_t2new,[0;0;1;1])].

(** ebcc/codegen/RDFCCD.py:140-267 [update_lams] *)
Definition RDFCCD_update_lams : prog := mkprog
 [(n_t2,[0;0;1;1]); (n_l2,[1;1;0;0]); (n_v'xov,[2;0;1]); (n_v'xvv,[2;1;1]); (n_v'xoo,[2;0;0]); (n_f'vv,[1;1]); (n_f'oo,[0;0])]
 [(*161*) Assign (T 11) (Times (Transpose n_t2 [0;1;3;2]) (2) 1);
  (*162*) AddTo (T 11) (Times (Copy n_t2) (-1) 1);
  (*163*) Assign (T 23) (Plain (Transpose n_t2 [0;1;3;2]));
  (*164*) AddTo (T 23) (Times (Copy n_t2) (-1) 2);
  (*165*) Assign (T 7) (Times (Transpose n_l2 [3;2;0;1]) (-1) 1);
  (*166*) AddTo (T 7) (Times (Transpose n_l2 [2;3;0;1]) (2) 1);
  (*167*) Assign (T 12) (Plain (Einsum [(n_v'xov,[0;1;2]); (T 11,[1;3;4;2])] [3;4;0]));
  (*168*) Del (T 11);
  (*169*) Assign (T 1) (Plain (Einsum [(n_v'xov,[0;1;2]); (n_v'xov,[0;3;4])] [3;1;4;2]));
  (*170*) Assign (T 31) (Times (Transpose n_t2 [0;1;3;2]) (2) 1);
  (*171*) AddTo (T 31) (Times (Copy n_t2) (-1) 1);
  (*172*) Assign (T 27) (Times (Einsum [(T 23,[0;1;2;3]); (n_l2,[4;3;1;0])] [4;2]) (2) 1);
  (*173*) Assign (T 24) (Times (Einsum [(n_l2,[0;1;2;3]); (T 23,[2;4;1;0])] [3;4]) (2) 1);
  (*174*) Del (T 23);
  (*175*) Assign (T 6) (Plain (Einsum [(n_l2,[0;1;2;3]); (n_t2,[4;3;1;5])] [2;4;0;5]));
  (*176*) Assign (T 8) (Plain (Einsum [(T 7,[0;1;2;3]); (n_t2,[4;0;5;2])] [4;1;5;3]));
  (*177*) Del (T 7);
  (*178*) Assign (T 13) (Plain (Transpose n_v'xov [1;2;0]));
  (*179*) AddTo (T 13) (Plain (Copy (T 12)));
  (*180*) Del (T 12);
  (*181*) Assign (T 14) (Times (Transpose n_l2 [3;2;0;1]) (2) 1);
  (*182*) AddTo (T 14) (Times (Transpose n_l2 [2;3;0;1]) (-1) 1);
  (*183*) Assign (T 19) (Plain (Einsum [(n_t2,[0;1;2;3]); (T 1,[4;1;2;5])] [0;4;3;5]));
  (*184*) Assign (T 4) (Plain (Einsum [(n_v'xvv,[0;1;2]); (n_v'xoo,[0;3;4])] [3;4;1;2]));
  (*185*) Assign (T 32) (Plain (Einsum [(n_v'xov,[0;1;2]); (T 31,[1;3;4;2])] [3;4;0]));
  (*186*) Del (T 31);
  (*187*) Assign (T 28) (Plain (Einsum [(T 27,[0;1]); (n_v'xov,[2;3;1])] [3;0;2]));
  (*188*) Del (T 27);
  (*189*) Assign (T 25) (Times (Einsum [(T 24,[0;1]); (n_v'xov,[2;1;3])] [0;3;2]) (1) 2);
  (*190*) Del (T 24);
  (*191*) Assign (T 9) (Plain (Copy (T 6)));
  (*192*) Del (T 6);
  (*193*) AddTo (T 9) (Times (Transpose (T 8) [1;0;3;2]) (-1) 1);
  (*194*) Del (T 8);
  (*195*) Assign (T 15) (Plain (Einsum [(T 13,[0;1;2]); (T 14,[0;3;4;1])] [3;4;2]));
  (*196*) Del (T 13);
  (*196*) Del (T 14);
  (*197*) Assign (T 20) (Times (Transpose (T 4) [1;0;3;2]) (-1) 1);
  (*198*) AddTo (T 20) (Plain (Copy (T 19)));
  (*199*) Del (T 19);
  (*200*) Assign (T 35) (Plain (Einsum [(T 32,[0;1;2]); (n_v'xov,[2;3;1])] [3;0]));
  (*201*) Assign (T 33) (Times (Einsum [(T 32,[0;1;2]); (n_v'xov,[2;0;3])] [3;1]) (1) 2);
  (*202*) Del (T 32);
  (*203*) Assign (T 29) (Plain (Einsum [(n_v'xov,[0;1;2]); (T 28,[3;4;0])] [1;3;2;4]));
  (*204*) Del (T 28);
  (*205*) Assign (T 26) (Times (Einsum [(n_v'xov,[0;1;2]); (T 25,[3;4;0])] [1;3;2;4]) (2) 1);
  (*206*) Del (T 25);
  (*207*) Assign (T 10) (Plain (Einsum [(T 9,[0;1;2;3]); (T 1,[1;4;5;3])] [4;0;5;2]));
  (*208*) Del (T 9);
  (*209*) Assign (T 16) (Plain (Einsum [(T 15,[0;1;2]); (n_v'xov,[2;3;4])] [3;0;4;1]));
  (*210*) Del (T 15);
  (*211*) Assign (T 5) (Plain (Einsum [(n_l2,[0;1;2;3]); (T 4,[4;3;5;1])] [2;4;0;5]));
  (*212*) Del (T 4);
  (*213*) Assign (T 18) (Plain (Einsum [(n_l2,[0;1;2;3]); (n_f'vv,[4;1])] [2;3;4;0]));
  (*214*) Assign (T 21) (Plain (Einsum [(T 20,[0;1;2;3]); (n_l2,[4;2;0;5])] [5;1;4;3]));
  (*215*) Del (T 20);
  (*216*) Assign (T 36) (Plain (Einsum [(n_l2,[0;1;2;3]); (T 35,[4;2])] [4;3;0;1]));
  (*217*) Del (T 35);
  (*218*) Assign (T 34) (Times (Einsum [(n_l2,[0;1;2;3]); (T 33,[4;1])] [3;2;0;4]) (2) 1);
  (*219*) Del (T 33);
  (*220*) Assign (T 30) (Plain (Transpose (T 26) [1;0;2;3]));
  (*221*) Del (T 26);
  (*222*) AddTo (T 30) (Plain (Transpose (T 29) [0;1;3;2]));
  (*223*) Del (T 29);
  (*224*) Assign (T 17) (Plain (Copy (T 5)));
  (*225*) Del (T 5);
  (*226*) AddTo (T 17) (Times (Transpose (T 10) [1;0;3;2]) (-1) 1);
  (*227*) Del (T 10);
  (*228*) AddTo (T 17) (Times (Transpose (T 16) [1;0;3;2]) (-1) 1);
  (*229*) Del (T 16);
  (*230*) Assign (T 39) (Plain (Einsum [(n_v'xoo,[0;1;2]); (n_v'xoo,[0;3;4])] [3;1;2;4]));
  (*231*) AddTo (T 39) (Plain (Einsum [(n_t2,[0;1;2;3]); (T 1,[4;5;3;2])] [0;1;4;5]));
  (*232*) Assign (T 22) (Plain (Copy (T 18)));
  (*233*) Del (T 18);
  (*234*) AddTo (T 22) (Plain (Copy (T 21)));
  (*235*) Del (T 21);
  (*236*) Assign (T 37) (Plain (Transpose (T 34) [1;0;2;3]));
  (*237*) Del (T 34);
  (*238*) AddTo (T 37) (Plain (Transpose (T 36) [1;0;3;2]));
  (*239*) Del (T 36);
  (*240*) Assign (T 2) (Plain (Einsum [(n_t2,[0;1;2;3]); (n_l2,[3;2;4;5])] [5;4;0;1]));
  (*241*) Assign (T 3) (Plain (Einsum [(n_v'xvv,[0;1;2]); (n_v'xvv,[0;3;4])] [1;3;4;2]));
  (*242*) Assign (T 38) (Plain (Einsum [(n_l2,[0;1;2;3]); (n_f'oo,[4;3])] [4;2;0;1]));
  (*243*) Assign n_l2new (Plain (Einsum [(T 1,[0;1;2;3]); (T 2,[4;5;0;1])] [3;2;5;4]));
  (*244*) Del (T 2);
  (*245*) AddTo n_l2new (Plain (Transpose (T 1) [3;2;1;0]));
  (*246*) Del (T 1);
  (*247*) AddTo n_l2new (Plain (Einsum [(T 3,[0;1;2;3]); (n_l2,[1;3;4;5])] [2;0;4;5]));
  (*248*) Del (T 3);
  (*249*) AddTo n_l2new (Times (Transpose (T 17) [2;3;0;1]) (-1) 1);
  (*250*) AddTo n_l2new (Times (Transpose (T 17) [3;2;1;0]) (-1) 1);
  (*251*) Del (T 17);
  (*252*) AddTo n_l2new (Plain (Transpose (T 22) [3;2;0;1]));
  (*253*) AddTo n_l2new (Plain (Transpose (T 22) [2;3;1;0]));
  (*254*) Del (T 22);
  (*255*) AddTo n_l2new (Times (Transpose (T 30) [3;2;0;1]) (-1) 1);
  (*256*) AddTo n_l2new (Times (Transpose (T 30) [2;3;1;0]) (-1) 1);
  (*257*) Del (T 30);
  (*258*) AddTo n_l2new (Times (Transpose (T 37) [2;3;0;1]) (-1) 1);
  (*259*) AddTo n_l2new (Times (Transpose (T 37) [3;2;1;0]) (-1) 1);
  (*260*) Del (T 37);
  (*261*) AddTo n_l2new (Times (Transpose (T 38) [3;2;0;1]) (-1) 1);
  (*262*) AddTo n_l2new (Times (Transpose (T 38) [2;3;1;0]) (-1) 1);
  (*263*) Del (T 38);
  (*264*) AddTo n_l2new (Plain (Einsum [(T 39,[0;1;2;3]); (n_l2,[4;5;0;1])] [4;5;3;2]));
  (*265*) Del (T 39)]
 [(n_l2new,[1;1;0;0])].

(** ebcc/codegen/RDFCCD.py:269-305 [make_rdm1_f]; assembly (line 303) not translated *)
Definition RDFCCD_make_rdm1_f : prog := mkprog
 [(n_t2,[0;0;1;1]); (n_l2,[1;1;0;0])]
 [(*287*) Assign n_delta'oo (Plain (Eye 0));
  (*287*) Assign n_delta'vv (Plain (Eye 1));
  (*291*) Assign (T 2) (Plain (Transpose n_t2 [0;1;3;2]));
  (*292*) AddTo (T 2) (Times (Copy n_t2) (-1) 2);
  (*293*) Assign (T 1) (Times (Transpose n_t2 [0;1;3;2]) (-1) 2);
  (*294*) AddTo (T 1) (Plain (Copy n_t2));
  (*295*) Assign n_rdm1'vv (Times (Einsum [(T 2,[0;1;2;3]); (n_l2,[4;3;1;0])] [4;2]) (4) 1);
  (*296*) Del (T 2);
  (*297*) Assign n_rdm1'oo (Times (Copy n_delta'oo) (2) 1);
  (*298*) Del n_delta'oo;
  (*298*) Del n_delta'vv;
  (*299*) AddTo n_rdm1'oo (Times (Einsum [(n_l2,[0;1;2;3]); (T 1,[2;4;0;1])] [4;3]) (-4) 1);
  (*300*) Del (T 1);
  (*301*) Assign n_rdm1'ov (Plain (Zeros [0;1]));
  (*302*) Assign n_rdm1'vo (Plain (Zeros [1;0]))]
 [(n_rdm1'oo,[0;0]); (n_rdm1'ov,[0;1]); (n_rdm1'vo,[1;0]); (n_rdm1'vv,[1;1])].

(** ebcc/codegen/RDFCCD.py:307-454 [make_rdm2_f]; assembly (line 451) not translated *)
Definition RDFCCD_make_rdm2_f : prog := mkprog
 [(n_t2,[0;0;1;1]); (n_l2,[1;1;0;0])]
 [(*325*) Assign n_delta'oo (Plain (Eye 0));
  (*325*) Assign n_delta'vv (Plain (Eye 1));
  (*329*) Assign (T 4) (Times (Transpose n_l2 [3;2;0;1]) (-1) 1);
  (*330*) AddTo (T 4) (Times (Transpose n_l2 [2;3;0;1]) (2) 1);
  (*331*) Assign (T 7) (Times (Transpose n_l2 [3;2;0;1]) (-1) 1);
  (*332*) AddTo (T 7) (Plain (Transpose n_l2 [2;3;0;1]));
  (*333*) Assign (T 13) (Times (Transpose n_l2 [3;2;0;1]) (-1) 1);
  (*334*) AddTo (T 13) (Times (Transpose n_l2 [2;3;0;1]) (2) 1);
  (*335*) Assign (T 2) (Times (Transpose n_t2 [0;1;3;2]) (-1) 2);
  (*336*) AddTo (T 2) (Plain (Copy n_t2));
  (*337*) Assign (T 5) (Plain (Einsum [(T 4,[0;1;2;3]); (n_t2,[4;0;5;2])] [4;1;5;3]));
  (*338*) Del (T 4);
  (*339*) Assign (T 8) (Plain (Einsum [(n_t2,[0;1;2;3]); (T 7,[1;4;2;5])] [0;4;3;5]));
  (*340*) Del (T 7);
  (*341*) Assign (T 14) (Times (Einsum [(T 13,[0;1;2;3]); (n_t2,[0;1;2;4])] [4;3]) (1) 2);
  (*342*) Assign (T 3) (Times (Einsum [(n_l2,[0;1;2;3]); (T 2,[2;4;0;1])] [3;4]) (2) 1);
  (*343*) Del (T 2);
  (*344*) Assign (T 27) (Plain (Transpose n_l2 [3;2;0;1]));
  (*345*) AddTo (T 27) (Times (Transpose n_l2 [2;3;0;1]) (-1) 1);
  (*346*) Assign (T 24) (Times (Transpose n_t2 [0;1;3;2]) (-1) 1);
  (*347*) AddTo (T 24) (Times (Copy n_t2) (2) 1);
  (*348*) Assign (T 22) (Times (Transpose n_t2 [0;1;3;2]) (-1) 1);
  (*349*) AddTo (T 22) (Plain (Copy n_t2));
  (*350*) Assign (T 6) (Plain (Einsum [(T 5,[0;1;2;3]); (n_t2,[4;1;5;3])] [4;0;5;2]));
  (*351*) Assign (T 9) (Plain (Einsum [(n_t2,[0;1;2;3]); (T 8,[4;1;5;2])] [0;4;3;5]));
  (*352*) Assign (T 1) (Plain (Einsum [(n_l2,[0;1;2;3]); (n_t2,[4;5;0;1])] [2;3;4;5]));
  (*353*) Assign (T 15) (Times (Einsum [(T 14,[0;1]); (n_t2,[2;3;1;4])] [2;3;4;0]) (2) 1);
  (*354*) Assign (T 16) (Plain (Einsum [(T 3,[0;1]); (n_t2,[2;0;3;4])] [2;1;4;3]));
  (*355*) Assign (T 20) (Plain (Einsum [(n_l2,[0;1;2;3]); (n_t2,[4;2;1;5])] [3;4;0;5]));
  (*356*) Assign (T 18) (Plain (Einsum [(n_l2,[0;1;2;3]); (n_t2,[4;3;1;5])] [2;4;0;5]));
  (*357*) Assign (T 29) (Plain (Einsum [(n_l2,[0;1;2;3]); (n_t2,[3;2;4;5])] [0;1;5;4]));
  (*358*) Assign (T 28) (Plain (Einsum [(n_t2,[0;1;2;3]); (T 27,[1;4;2;5])] [0;4;3;5]));
  (*359*) Del (T 27);
  (*360*) Assign (T 26) (Plain (Einsum [(T 13,[0;1;2;3]); (n_t2,[0;1;2;4])] [4;3]));
  (*361*) Del (T 13);
  (*362*) Assign (T 25) (Plain (Einsum [(n_l2,[0;1;2;3]); (T 24,[3;4;1;5])] [2;4;0;5]));
  (*363*) Del (T 24);
  (*364*) Assign (T 23) (Plain (Einsum [(n_l2,[0;1;2;3]); (T 22,[2;4;1;5])] [3;4;0;5]));
  (*365*) Del (T 22);
  (*366*) Assign (T 10) (Times (Transpose (T 6) [1;0;3;2]) (2) 1);
  (*367*) AddTo (T 10) (Plain (Copy (T 9)));
  (*368*) Del (T 9);
  (*369*) Assign (T 12) (Plain (Einsum [(T 1,[0;1;2;3]); (n_t2,[1;0;4;5])] [3;2;4;5]));
  (*370*) Assign (T 17) (Plain (Transpose (T 15) [1;0;2;3]));
  (*371*) Del (T 15);
  (*372*) AddTo (T 17) (Plain (Transpose (T 16) [0;1;3;2]));
  (*373*) Del (T 16);
  (*374*) Assign (T 11) (Plain (Einsum [(n_t2,[0;1;2;3]); (T 5,[4;1;5;2])] [0;4;3;5]));
  (*375*) Assign (T 21) (Plain (Einsum [(n_t2,[0;1;2;3]); (T 20,[1;4;2;5])] [4;0;5;3]));
  (*376*) Assign (T 19) (Plain (Einsum [(n_t2,[0;1;2;3]); (T 18,[1;4;2;5])] [4;0;5;3]));
  (*377*) Assign n_rdm2'vvvv (Times (Transpose (T 29) [1;0;2;3]) (-2) 1);
  (*378*) AddTo n_rdm2'vvvv (Times (Transpose (T 29) [1;0;3;2]) (4) 1);
  (*379*) Del (T 29);
  (*380*) Assign n_rdm2'vvoo (Times (Transpose n_l2 [0;1;3;2]) (-2) 1);
  (*381*) AddTo n_rdm2'vvoo (Times (Copy n_l2) (4) 1);
  (*382*) Assign n_rdm2'vovo (Times (Transpose (T 5) [3;0;2;1]) (-2) 1);
  (*383*) AddTo n_rdm2'vovo (Times (Transpose (T 28) [3;0;2;1]) (-2) 1);
  (*384*) Del (T 28);
  (*385*) AddTo n_rdm2'vovo (Times (Einsum [(n_delta'oo,[0;1]); (T 26,[2;3])] [3;0;2;1]) (4) 1);
  (*386*) AddTo n_rdm2'vovo (Times (Transpose (T 20) [2;1;3;0]) (-2) 1);
  (*387*) Assign n_rdm2'voov (Times (Transpose (T 25) [2;1;0;3]) (2) 1);
  (*388*) AddTo n_rdm2'voov (Times (Transpose (T 23) [2;1;0;3]) (-2) 1);
  (*389*) AddTo n_rdm2'voov (Times (Einsum [(n_delta'oo,[0;1]); (T 26,[2;3])] [3;0;1;2]) (-2) 1);
  (*390*) Del (T 26);
  (*391*) AddTo n_rdm2'voov (Times (Transpose (T 18) [2;1;0;3]) (-2) 1);
  (*392*) AddTo n_rdm2'voov (Times (Transpose (T 5) [3;0;1;2]) (2) 1);
  (*393*) Assign n_rdm2'ovvo (Times (Transpose (T 5) [0;3;2;1]) (4) 1);
  (*394*) Del (T 5);
  (*395*) AddTo n_rdm2'ovvo (Times (Transpose (T 8) [0;3;2;1]) (-2) 1);
  (*396*) Del (T 8);
  (*397*) AddTo n_rdm2'ovvo (Times (Einsum [(n_delta'oo,[0;1]); (T 14,[2;3])] [0;3;2;1]) (-4) 1);
  (*398*) AddTo n_rdm2'ovvo (Times (Transpose (T 18) [1;2;3;0]) (-2) 1);
  (*399*) Del (T 18);
  (*400*) Assign n_rdm2'ovov (Times (Transpose (T 23) [1;2;0;3]) (2) 1);
  (*401*) Del (T 23);
  (*402*) AddTo n_rdm2'ovov (Times (Transpose (T 25) [1;2;0;3]) (-2) 1);
  (*403*) Del (T 25);
  (*404*) AddTo n_rdm2'ovov (Times (Einsum [(n_delta'oo,[0;1]); (T 14,[2;3])] [0;3;1;2]) (8) 1);
  (*405*) Del (T 14);
  (*406*) AddTo n_rdm2'ovov (Times (Transpose (T 20) [1;2;0;3]) (-2) 1);
  (*407*) Del (T 20);
  (*408*) Assign n_rdm2'oovv (Times (Copy (T 10)) (2) 1);
  (*409*) AddTo n_rdm2'oovv (Times (Transpose (T 10) [0;1;3;2]) (-2) 1);
  (*410*) Del (T 10);
  (*411*) AddTo n_rdm2'oovv (Times (Transpose (T 11) [1;0;3;2]) (-4) 1);
  (*412*) AddTo n_rdm2'oovv (Times (Transpose (T 11) [1;0;2;3]) (2) 1);
  (*413*) AddTo n_rdm2'oovv (Times (Transpose (T 11) [0;1;3;2]) (2) 1);
  (*414*) AddTo n_rdm2'oovv (Times (Copy (T 11)) (-4) 1);
  (*415*) Del (T 11);
  (*416*) AddTo n_rdm2'oovv (Times (Copy (T 12)) (4) 1);
  (*417*) AddTo n_rdm2'oovv (Times (Transpose (T 12) [0;1;3;2]) (-2) 1);
  (*418*) Del (T 12);
  (*419*) AddTo n_rdm2'oovv (Times (Copy (T 17)) (-4) 1);
  (*420*) AddTo n_rdm2'oovv (Times (Transpose (T 17) [0;1;3;2]) (2) 1);
  (*421*) AddTo n_rdm2'oovv (Times (Transpose (T 17) [1;0;2;3]) (2) 1);
  (*422*) AddTo n_rdm2'oovv (Times (Transpose (T 17) [1;0;3;2]) (-4) 1);
  (*423*) Del (T 17);
  (*424*) AddTo n_rdm2'oovv (Times (Transpose n_t2 [0;1;3;2]) (-2) 1);
  (*425*) AddTo n_rdm2'oovv (Times (Copy n_t2) (4) 1);
  (*426*) AddTo n_rdm2'oovv (Times (Copy (T 19)) (2) 1);
  (*427*) Del (T 19);
  (*428*) AddTo n_rdm2'oovv (Times (Transpose (T 21) [0;1;3;2]) (2) 1);
  (*429*) Del (T 21);
  (*430*) AddTo n_rdm2'oovv (Times (Copy (T 6)) (4) 1);
  (*431*) Del (T 6);
  (*432*) Assign n_rdm2'oooo (Times (Transpose (T 1) [2;3;1;0]) (-2) 1);
  (*433*) AddTo n_rdm2'oooo (Times (Transpose (T 1) [3;2;1;0]) (4) 1);
  (*434*) Del (T 1);
  (*435*) AddTo n_rdm2'oooo (Times (Einsum [(n_delta'oo,[0;1]); (T 3,[2;3])] [3;0;2;1]) (-4) 1);
  (*436*) AddTo n_rdm2'oooo (Times (Einsum [(T 3,[0;1]); (n_delta'oo,[2;3])] [2;1;0;3]) (2) 1);
  (*437*) AddTo n_rdm2'oooo (Times (Einsum [(T 3,[0;1]); (n_delta'oo,[2;3])] [1;2;3;0]) (2) 1);
  (*438*) AddTo n_rdm2'oooo (Times (Einsum [(n_delta'oo,[0;1]); (T 3,[2;3])] [0;3;1;2]) (-4) 1);
  (*439*) Del (T 3);
  (*440*) AddTo n_rdm2'oooo (Times (Einsum [(n_delta'oo,[0;1]); (n_delta'oo,[2;3])] [2;0;3;1]) (4) 1);
  (*441*) AddTo n_rdm2'oooo (Times (Einsum [(n_delta'oo,[0;1]); (n_delta'oo,[2;3])] [0;2;3;1]) (-2) 1);
  (*442*) Del n_delta'oo;
  (*442*) Del n_delta'vv;
  (*443*) Assign n_rdm2'ooov (Plain (Zeros [0;0;0;1]));
  (*444*) Assign n_rdm2'oovo (Plain (Zeros [0;0;1;0]));
  (*445*) Assign n_rdm2'ovoo (Plain (Zeros [0;1;0;0]));
  (*446*) Assign n_rdm2'vooo (Plain (Zeros [1;0;0;0]));
  (*447*) Assign n_rdm2'ovvv (Plain (Zeros [0;1;1;1]));
  (*448*) Assign n_rdm2'vovv (Plain (Zeros [1;0;1;1]));
  (*449*) Assign n_rdm2'vvov (Plain (Zeros [1;1;0;1]));
  (*450*) Assign n_rdm2'vvvo (Plain (Zeros [1;1;1;0]))]
 [(n_rdm2'oooo,[0;0;0;0]); (n_rdm2'ooov,[0;0;0;1]); (n_rdm2'oovo,[0;0;1;0]); (n_rdm2'ovoo,[0;1;0;0]); (n_rdm2'vooo,[1;0;0;0]); (n_rdm2'oovv,[0;0;1;1]); (n_rdm2'ovov,[0;1;0;1]); (n_rdm2'ovvo,[0;1;1;0]); (n_rdm2'voov,[1;0;0;1]); (n_rdm2'vovo,[1;0;1;0]); (n_rdm2'vvoo,[1;1;0;0]); (n_rdm2'ovvv,[0;1;1;1]); (n_rdm2'vovv,[1;0;1;1]); (n_rdm2'vvov,[1;1;0;1]); (n_rdm2'vvvo,[1;1;1;0]); (n_rdm2'vvvv,[1;1;1;1])].

(** ebcc/codegen/RDFCCD.py:456-526 [hbar_matvec_ip_intermediates] *)
Definition RDFCCD_hbar_matvec_ip_intermediates : prog := mkprog
 [(n_v'xov,[2;0;1]); (n_t2,[0;0;1;1]); (n_v'xoo,[2;0;0]); (n_v'xvv,[2;1;1]); (n_f'ov,[0;1])]
 [(*498*) Assign (T 4) (Plain (Einsum [(n_v'xov,[0;1;2]); (n_t2,[3;1;2;4])] [3;4;0]));
  (*499*) Assign (T 7) (Plain (Einsum [(n_v'xov,[0;1;2]); (n_t2,[3;1;4;2])] [3;4;0]));
  (*500*) Assign (T 1) (Plain (Einsum [(n_v'xoo,[0;1;2]); (n_v'xov,[0;3;4])] [1;2;3;4]));
  (*501*) Assign (T 16) (Plain (Einsum [(n_v'xov,[0;1;2]); (n_v'xov,[0;3;4])] [3;1;4;2]));
  (*502*) Assign (T 13) (Plain (Einsum [(n_v'xvv,[0;1;2]); (n_v'xov,[0;3;4])] [3;1;2;4]));
  (*503*) Assign (T 51) (Plain (Einsum [(n_v'xvv,[0;1;2]); (T 4,[3;2;0])] [3;1]));
  (*504*) Assign (T 50) (Plain (Einsum [(n_v'xvv,[0;1;2]); (T 7,[3;2;0])] [3;1]));
  (*505*) Assign (T 44) (Plain (Einsum [(T 7,[0;1;2]); (n_v'xov,[2;0;3])] [1;3]));
  (*506*) Assign (T 42) (Plain (Einsum [(T 4,[0;1;2]); (n_v'xov,[2;0;3])] [1;3]));
  (*507*) Assign (T 41) (Plain (Einsum [(T 1,[0;1;2;3]); (n_t2,[4;1;3;5])] [4;0;2;5]));
  (*508*) Assign (T 40) (Plain (Einsum [(n_t2,[0;1;2;3]); (T 1,[4;0;1;3])] [4;2]));
  (*509*) Assign (T 39) (Plain (Einsum [(T 1,[0;1;2;3]); (n_t2,[1;2;3;4])] [0;4]));
  (*510*) Assign (T 38) (Plain (Einsum [(n_t2,[0;1;2;3]); (n_f'ov,[4;3])] [4;0;1;2]));
  (*511*) Assign (T 33) (Plain (Einsum [(n_t2,[0;1;2;3]); (T 16,[1;4;5;3])] [0;4;2;5]));
  (*512*) Assign (T 32) (Plain (Einsum [(n_t2,[0;1;2;3]); (T 16,[1;4;5;2])] [0;4;3;5]));
  (*513*) Assign (T 31) (Plain (Einsum [(n_v'xoo,[0;1;2]); (T 4,[3;4;0])] [3;1;2;4]));
  (*514*) Assign (T 29) (Plain (Einsum [(n_v'xoo,[0;1;2]); (T 7,[3;4;0])] [3;1;2;4]));
  (*515*) Assign (T 28) (Plain (Einsum [(T 1,[0;1;2;3]); (n_t2,[4;1;5;3])] [4;0;2;5]));
  (*516*) Assign (T 26) (Plain (Einsum [(n_v'xoo,[0;1;2]); (n_v'xoo,[0;3;4])] [3;1;2;4]));
  (*517*) Assign (T 25) (Plain (Einsum [(n_f'ov,[0;1]); (n_t2,[2;0;3;1])] [2;3]));
  (*518*) Assign (T 24) (Plain (Einsum [(n_f'ov,[0;1]); (n_t2,[2;0;1;3])] [2;3]));
  (*519*) Assign (T 19) (Plain (Einsum [(n_v'xvv,[0;1;2]); (n_v'xoo,[0;3;4])] [3;4;1;2]));
  (*520*) Assign (T 17) (Plain (Einsum [(n_t2,[0;1;2;3]); (T 16,[4;5;2;3])] [0;1;4;5]));
  (*521*) Assign (T 14) (Plain (Einsum [(T 13,[0;1;2;3]); (n_t2,[4;5;3;2])] [4;5;0;1]));
  (*522*) Del (T 13);
  (*523*) Assign (T 8) (Plain (Einsum [(n_v'xov,[0;1;2]); (T 7,[3;2;0])] [3;1]));
  (*524*) Assign (T 5) (Plain (Einsum [(n_v'xov,[0;1;2]); (T 4,[3;2;0])] [3;1]))]
 [(T 1,[0;0;0;1]); (T 14,[0;0;0;1]); (T 16,[0;0;1;1]); (T 17,[0;0;0;0]); (T 19,[0;0;1;1]); (T 24,[0;1]); (T 25,[0;1]); (T 26,[0;0;0;0]); (T 28,[0;0;0;1]); (T 29,[0;0;0;1]); (T 4,[0;1;2]); (T 31,[0;0;0;1]); (T 32,[0;0;1;1]); (T 33,[0;0;1;1]); (T 38,[0;0;0;1]); (T 39,[0;1]); (T 40,[0;1]); (T 5,[0;0]); (T 41,[0;0;0;1]); (T 42,[1;1]); (T 44,[1;1]); (T 50,[0;1]); (T 51,[0;1]); (T 7,[0;1;2]); (T 8,[0;0])].

(** ebcc/codegen/RDFCCD.py:528-643 [hbar_matvec_ip] *)
Definition RDFCCD_hbar_matvec_ip : prog := mkprog
 [(IT 16,[0;0;1;1]); (n_r2,[0;0;1]); (IT 1,[0;0;0;1]); (IT 14,[0;0;0;1]); (IT 29,[0;0;0;1]); (IT 38,[0;0;0;1]); (IT 28,[0;0;0;1]); (IT 31,[0;0;0;1]); (IT 41,[0;0;0;1]); (n_f'vv,[1;1]); (IT 42,[1;1]); (IT 44,[1;1]); (IT 19,[0;0;1;1]); (IT 33,[0;0;1;1]); (IT 32,[0;0;1;1]); (IT 7,[0;1;2]); (n_v'xov,[2;0;1]); (IT 4,[0;1;2]); (IT 17,[0;0;0;0]); (IT 26,[0;0;0;0]); (n_f'ov,[0;1]); (IT 25,[0;1]); (IT 39,[0;1]); (IT 50,[0;1]); (IT 24,[0;1]); (IT 40,[0;1]); (IT 51,[0;1]); (n_f'oo,[0;0]); (IT 8,[0;0]); (IT 5,[0;0]); (n_t2,[0;0;1;1]); (n_r1,[0])]
 [(*554*) Assign (T 10) (Plain (Copy (IT 16)));
  (*555*) AddTo (T 10) (Times (Transpose (IT 16) [1;0;2;3]) (-1) 2);
  (*556*) Del (IT 16);
  (*557*) Assign (T 2) (Times (Copy n_r2) (-1) 1);
  (*558*) AddTo (T 2) (Times (Transpose n_r2 [1;0;2]) (2) 1);
  (*559*) Assign (T 12) (Plain (Copy (IT 1)));
  (*560*) AddTo (T 12) (Plain (Transpose (IT 14) [0;2;1;3]));
  (*561*) Del (IT 14);
  (*562*) AddTo (T 12) (Times (Transpose (IT 29) [2;1;0;3]) (2) 1);
  (*563*) Del (IT 29);
  (*564*) AddTo (T 12) (Plain (Transpose (IT 38) [2;0;1;3]));
  (*565*) Del (IT 38);
  (*566*) AddTo (T 12) (Times (Transpose (IT 28) [1;2;0;3]) (-1) 1);
  (*567*) Del (IT 28);
  (*568*) AddTo (T 12) (Times (Transpose (IT 31) [2;1;0;3]) (-1) 1);
  (*569*) Del (IT 31);
  (*570*) AddTo (T 12) (Times (Transpose (IT 41) [0;2;1;3]) (-1) 1);
  (*571*) Del (IT 41);
  (*572*) Assign (T 9) (Plain (Copy n_f'vv));
  (*573*) AddTo (T 9) (Plain (Transpose (IT 42) [1;0]));
  (*574*) Del (IT 42);
  (*575*) AddTo (T 9) (Times (Transpose (IT 44) [1;0]) (-2) 1);
  (*576*) Del (IT 44);
  (*577*) Assign (T 4) (Times (Copy (IT 19)) (1) 2);
  (*578*) AddTo (T 4) (Plain (Copy (IT 33)));
  (*579*) AddTo (T 4) (Times (Copy (IT 32)) (-1) 2);
  (*580*) Assign (T 8) (Times (Copy (IT 7)) (2) 1);
  (*581*) Del (IT 7);
  (*582*) AddTo (T 8) (Plain (Transpose n_v'xov [1;2;0]));
  (*583*) AddTo (T 8) (Times (Copy (IT 4)) (-1) 1);
  (*584*) Del (IT 4);
  (*585*) Assign (T 11) (Plain (Einsum [(T 10,[0;1;2;3]); (n_r2,[0;1;2])] [3]));
  (*586*) Del (T 10);
  (*587*) Assign (T 7) (Times (Einsum [(T 2,[0;1;2]); (n_v'xov,[3;1;2])] [0;3]) (1) 2);
  (*588*) Assign (T 6) (Plain (Copy (IT 17)));
  (*589*) Del (IT 17);
  (*590*) AddTo (T 6) (Plain (Transpose (IT 26) [0;2;3;1]));
  (*591*) Del (IT 26);
  (*592*) Assign (T 13) (Plain (Copy n_f'ov));
  (*593*) AddTo (T 13) (Times (Copy (IT 25)) (2) 1);
  (*594*) Del (IT 25);
  (*595*) AddTo (T 13) (Plain (Copy (IT 39)));
  (*596*) Del (IT 39);
  (*597*) AddTo (T 13) (Times (Copy (IT 50)) (2) 1);
  (*598*) Del (IT 50);
  (*599*) AddTo (T 13) (Times (Copy (IT 24)) (-1) 1);
  (*600*) Del (IT 24);
  (*601*) AddTo (T 13) (Times (Copy (IT 40)) (-2) 1);
  (*602*) Del (IT 40);
  (*603*) AddTo (T 13) (Times (Copy (IT 51)) (-1) 1);
  (*604*) Del (IT 51);
  (*605*) Assign (T 3) (Plain (Copy n_f'oo));
  (*606*) AddTo (T 3) (Times (Transpose (IT 8) [1;0]) (2) 1);
  (*607*) Del (IT 8);
  (*608*) AddTo (T 3) (Times (Transpose (IT 5) [1;0]) (-1) 1);
  (*609*) Del (IT 5);
  (*610*) Assign (T 5) (Plain (Copy (IT 19)));
  (*611*) Del (IT 19);
  (*612*) AddTo (T 5) (Times (Copy (IT 32)) (-1) 1);
  (*613*) Del (IT 32);
  (*614*) Assign (T 1) (Times (Copy n_r2) (2) 1);
  (*615*) AddTo (T 1) (Times (Transpose n_r2 [1;0;2]) (-1) 1);
  (*616*) Assign n_r2new (Plain (Einsum [(IT 33,[0;1;2;3]); (n_r2,[4;1;3])] [0;4;2]));
  (*617*) Del (IT 33);
  (*618*) AddTo n_r2new (Times (Einsum [(n_r2,[0;1;2]); (T 4,[3;0;4;2])] [3;1;4]) (-2) 1);
  (*619*) Del (T 4);
  (*620*) AddTo n_r2new (Times (Einsum [(n_r2,[0;1;2]); (T 5,[3;1;4;2])] [0;3;4]) (-1) 1);
  (*621*) Del (T 5);
  (*622*) AddTo n_r2new (Plain (Einsum [(n_r2,[0;1;2]); (T 6,[3;4;1;0])] [4;3;2]));
  (*623*) Del (T 6);
  (*624*) AddTo n_r2new (Times (Einsum [(T 7,[0;1]); (T 8,[2;3;1])] [2;0;3]) (2) 1);
  (*625*) Del (T 7);
  (*625*) Del (T 8);
  (*626*) AddTo n_r2new (Plain (Einsum [(n_r2,[0;1;2]); (T 9,[2;3])] [0;1;3]));
  (*627*) Del (T 9);
  (*628*) AddTo n_r2new (Times (Einsum [(n_t2,[0;1;2;3]); (T 11,[3])] [0;1;2]) (-2) 1);
  (*629*) Del (T 11);
  (*630*) AddTo n_r2new (Plain (Einsum [(n_r1,[0]); (T 12,[1;0;2;3])] [2;1;3]));
  (*631*) Del (T 12);
  (*632*) AddTo n_r2new (Times (Einsum [(n_r2,[0;1;2]); (T 3,[0;3])] [3;1;2]) (-1) 1);
  (*633*) AddTo n_r2new (Times (Einsum [(T 3,[0;1]); (n_r2,[2;0;3])] [2;1;3]) (-1) 1);
  (*634*) AddTo n_r2new (Times (Einsum [(T 13,[0;1]); (n_r1,[2])] [0;2;1]) (-1) 1);
  (*635*) Del (T 13);
  (*636*) Assign n_r1new (Plain (Einsum [(T 1,[0;1;2]); (IT 1,[3;1;0;2])] [3]));
  (*637*) Del (IT 1);
  (*637*) Del (T 1);
  (*638*) AddTo n_r1new (Times (Einsum [(T 2,[0;1;2]); (n_f'ov,[1;2])] [0]) (-1) 1);
  (*639*) Del (T 2);
  (*640*) AddTo n_r1new (Times (Einsum [(T 3,[0;1]); (n_r1,[0])] [1]) (-1) 1);
  (*641*) Del (T 3)]
 [(n_r1new,[0]); (n_r2new,[0;0;1])].

(** ebcc/codegen/RDFCCD.py:645-711 [hbar_matvec_ea_intermediates] *)
Definition RDFCCD_hbar_matvec_ea_intermediates : prog := mkprog
 [(n_v'xoo,[2;0;0]); (n_v'xov,[2;0;1]); (n_t2,[0;0;1;1]); (n_v'xvv,[2;1;1]); (n_f'ov,[0;1])]
 [(*685*) Assign (T 20) (Plain (Einsum [(n_v'xoo,[0;1;2]); (n_v'xov,[0;3;4])] [1;2;3;4]));
  (*686*) Assign (T 16) (Plain (Einsum [(n_v'xov,[0;1;2]); (n_v'xov,[0;3;4])] [3;1;4;2]));
  (*687*) Assign (T 4) (Plain (Einsum [(n_v'xov,[0;1;2]); (n_t2,[3;1;2;4])] [3;4;0]));
  (*688*) Assign (T 1) (Plain (Einsum [(n_v'xvv,[0;1;2]); (n_v'xov,[0;3;4])] [3;1;2;4]));
  (*689*) Assign (T 7) (Plain (Einsum [(n_v'xov,[0;1;2]); (n_t2,[3;1;4;2])] [3;4;0]));
  (*690*) Assign (T 51) (Plain (Einsum [(n_t2,[0;1;2;3]); (T 20,[4;0;1;3])] [4;2]));
  (*691*) Assign (T 50) (Plain (Einsum [(T 20,[0;1;2;3]); (n_t2,[1;2;3;4])] [0;4]));
  (*692*) Assign (T 45) (Plain (Einsum [(n_t2,[0;1;2;3]); (T 16,[1;4;5;3])] [0;4;2;5]));
  (*693*) Assign (T 42) (Plain (Einsum [(n_v'xvv,[0;1;2]); (T 4,[3;4;0])] [3;4;1;2]));
  (*694*) Assign (T 41) (Plain (Einsum [(T 1,[0;1;2;3]); (n_t2,[4;0;5;2])] [4;5;3;1]));
  (*695*) Assign (T 39) (Plain (Einsum [(n_v'xvv,[0;1;2]); (T 7,[3;4;0])] [3;4;1;2]));
  (*696*) Assign (T 38) (Plain (Einsum [(n_f'ov,[0;1]); (n_t2,[2;0;3;1])] [2;3]));
  (*697*) Assign (T 37) (Plain (Einsum [(n_f'ov,[0;1]); (n_t2,[2;0;1;3])] [2;3]));
  (*698*) Assign (T 35) (Plain (Einsum [(n_v'xov,[0;1;2]); (T 7,[3;2;0])] [3;1]));
  (*699*) Assign (T 33) (Plain (Einsum [(n_v'xov,[0;1;2]); (T 4,[3;2;0])] [3;1]));
  (*700*) Assign (T 32) (Plain (Einsum [(n_v'xvv,[0;1;2]); (T 4,[3;2;0])] [3;1]));
  (*701*) Assign (T 31) (Plain (Einsum [(n_v'xvv,[0;1;2]); (T 7,[3;2;0])] [3;1]));
  (*702*) Assign (T 29) (Plain (Einsum [(n_v'xvv,[0;1;2]); (n_v'xvv,[0;3;4])] [1;3;4;2]));
  (*703*) Assign (T 21) (Plain (Einsum [(T 20,[0;1;2;3]); (n_t2,[1;2;4;5])] [0;4;5;3]));
  (*704*) Del (T 20);
  (*705*) Assign (T 19) (Plain (Einsum [(n_v'xvv,[0;1;2]); (n_v'xoo,[0;3;4])] [3;4;1;2]));
  (*706*) Assign (T 17) (Plain (Einsum [(n_t2,[0;1;2;3]); (T 16,[1;4;5;2])] [0;4;3;5]));
  (*707*) Assign (T 13) (Plain (Einsum [(n_t2,[0;1;2;3]); (T 1,[1;4;2;5])] [0;3;5;4]));
  (*708*) Assign (T 8) (Plain (Einsum [(T 7,[0;1;2]); (n_v'xov,[2;0;3])] [1;3]));
  (*709*) Assign (T 5) (Plain (Einsum [(T 4,[0;1;2]); (n_v'xov,[2;0;3])] [1;3]))]
 [(T 1,[0;1;1;1]); (T 13,[0;1;1;1]); (T 16,[0;0;1;1]); (T 17,[0;0;1;1]); (T 19,[0;0;1;1]); (T 21,[0;1;1;1]); (T 29,[1;1;1;1]); (T 4,[0;1;2]); (T 31,[0;1]); (T 32,[0;1]); (T 33,[0;0]); (T 35,[0;0]); (T 37,[0;1]); (T 38,[0;1]); (T 39,[0;1;1;1]); (T 5,[1;1]); (T 41,[0;1;1;1]); (T 42,[0;1;1;1]); (T 45,[0;0;1;1]); (T 50,[0;1]); (T 51,[0;1]); (T 7,[0;1;2]); (T 8,[1;1])].

(** ebcc/codegen/RDFCCD.py:713-825 [hbar_matvec_ea] *)
Definition RDFCCD_hbar_matvec_ea : prog := mkprog
 [(n_r2,[1;1;0]); (n_f'oo,[0;0]); (IT 35,[0;0]); (IT 33,[0;0]); (IT 1,[0;1;1;1]); (IT 21,[0;1;1;1]); (IT 39,[0;1;1;1]); (IT 13,[0;1;1;1]); (IT 41,[0;1;1;1]); (IT 42,[0;1;1;1]); (IT 16,[0;0;1;1]); (IT 7,[0;1;2]); (n_v'xov,[2;0;1]); (IT 4,[0;1;2]); (n_f'ov,[0;1]); (n_r1,[1]); (IT 17,[0;0;1;1]); (IT 19,[0;0;1;1]); (IT 31,[0;1]); (IT 38,[0;1]); (IT 50,[0;1]); (IT 32,[0;1]); (IT 37,[0;1]); (IT 51,[0;1]); (n_f'vv,[1;1]); (IT 5,[1;1]); (IT 8,[1;1]); (IT 45,[0;0;1;1]); (IT 29,[1;1;1;1]); (n_t2,[0;0;1;1])]
 [(*739*) Assign (T 10) (Plain (Transpose n_r2 [2;0;1]));
  (*740*) AddTo (T 10) (Times (Transpose n_r2 [2;1;0]) (-1) 2);
  (*741*) Assign (T 2) (Times (Transpose n_r2 [2;0;1]) (-1) 1);
  (*742*) AddTo (T 2) (Times (Transpose n_r2 [2;1;0]) (2) 1);
  (*743*) Assign (T 12) (Plain (Copy n_f'oo));
  (*744*) AddTo (T 12) (Times (Transpose (IT 35) [1;0]) (2) 1);
  (*745*) Del (IT 35);
  (*746*) AddTo (T 12) (Times (Transpose (IT 33) [1;0]) (-1) 1);
  (*747*) Del (IT 33);
  (*748*) Assign (T 9) (Plain (Copy (IT 1)));
  (*749*) AddTo (T 9) (Plain (Transpose (IT 21) [0;2;3;1]));
  (*750*) Del (IT 21);
  (*751*) AddTo (T 9) (Times (Transpose (IT 39) [0;3;2;1]) (2) 1);
  (*752*) Del (IT 39);
  (*753*) AddTo (T 9) (Times (Copy (IT 13)) (-1) 1);
  (*754*) Del (IT 13);
  (*755*) AddTo (T 9) (Times (Transpose (IT 41) [0;3;2;1]) (-1) 1);
  (*756*) Del (IT 41);
  (*757*) AddTo (T 9) (Times (Transpose (IT 42) [0;3;2;1]) (-1) 1);
  (*758*) Del (IT 42);
  (*759*) Assign (T 4) (Plain (Einsum [(n_r2,[0;1;2]); (IT 16,[3;4;1;0])] [3;4;2]));
  (*760*) Assign (T 8) (Times (Copy (IT 7)) (2) 1);
  (*761*) Del (IT 7);
  (*762*) AddTo (T 8) (Plain (Transpose n_v'xov [1;2;0]));
  (*763*) AddTo (T 8) (Times (Copy (IT 4)) (-1) 1);
  (*764*) Del (IT 4);
  (*765*) Assign (T 11) (Plain (Einsum [(n_f'ov,[0;1]); (n_r1,[1])] [0]));
  (*766*) AddTo (T 11) (Times (Einsum [(IT 16,[0;1;2;3]); (T 10,[0;2;3])] [1]) (-2) 1);
  (*767*) Del (IT 16);
  (*767*) Del (T 10);
  (*768*) Assign (T 7) (Times (Einsum [(T 2,[0;1;2]); (n_v'xov,[3;0;2])] [1;3]) (1) 2);
  (*769*) Assign (T 6) (Plain (Copy (IT 17)));
  (*770*) AddTo (T 6) (Times (Copy (IT 19)) (-1) 1);
  (*771*) Assign (T 13) (Plain (Copy n_f'ov));
  (*772*) AddTo (T 13) (Times (Copy (IT 31)) (2) 1);
  (*773*) Del (IT 31);
  (*774*) AddTo (T 13) (Times (Copy (IT 38)) (2) 1);
  (*775*) Del (IT 38);
  (*776*) AddTo (T 13) (Plain (Copy (IT 50)));
  (*777*) Del (IT 50);
  (*778*) AddTo (T 13) (Times (Copy (IT 32)) (-1) 1);
  (*779*) Del (IT 32);
  (*780*) AddTo (T 13) (Times (Copy (IT 37)) (-1) 1);
  (*781*) Del (IT 37);
  (*782*) AddTo (T 13) (Times (Copy (IT 51)) (-2) 1);
  (*783*) Del (IT 51);
  (*784*) Assign (T 3) (Plain (Copy n_f'vv));
  (*785*) AddTo (T 3) (Plain (Transpose (IT 5) [1;0]));
  (*786*) Del (IT 5);
  (*787*) AddTo (T 3) (Times (Transpose (IT 8) [1;0]) (-2) 1);
  (*788*) Del (IT 8);
  (*789*) Assign (T 5) (Times (Copy (IT 19)) (1) 2);
  (*790*) Del (IT 19);
  (*791*) AddTo (T 5) (Plain (Copy (IT 45)));
  (*792*) AddTo (T 5) (Times (Copy (IT 17)) (-1) 2);
  (*793*) Del (IT 17);
  (*794*) Assign (T 1) (Times (Transpose n_r2 [2;0;1]) (-1) 2);
  (*795*) AddTo (T 1) (Plain (Transpose n_r2 [2;1;0]));
  (*796*) Assign n_r2new (Plain (Einsum [(IT 29,[0;1;2;3]); (n_r2,[1;3;4])] [2;0;4]));
  (*797*) Del (IT 29);
  (*798*) AddTo n_r2new (Plain (Einsum [(IT 45,[0;1;2;3]); (n_r2,[4;3;1])] [2;4;0]));
  (*799*) Del (IT 45);
  (*800*) AddTo n_r2new (Plain (Einsum [(n_t2,[0;1;2;3]); (T 4,[1;0;4])] [2;3;4]));
  (*801*) Del (T 4);
  (*802*) AddTo n_r2new (Times (Einsum [(T 5,[0;1;2;3]); (n_r2,[3;4;1])] [2;4;0]) (-2) 1);
  (*803*) Del (T 5);
  (*804*) AddTo n_r2new (Plain (Einsum [(T 6,[0;1;2;3]); (n_r2,[4;3;1])] [4;2;0]));
  (*805*) Del (T 6);
  (*806*) AddTo n_r2new (Times (Einsum [(T 7,[0;1]); (T 8,[2;3;1])] [3;0;2]) (2) 1);
  (*807*) Del (T 7);
  (*807*) Del (T 8);
  (*808*) AddTo n_r2new (Times (Einsum [(T 9,[0;1;2;3]); (n_r1,[2])] [3;1;0]) (-1) 1);
  (*809*) Del (T 9);
  (*810*) AddTo n_r2new (Plain (Einsum [(n_r2,[0;1;2]); (T 3,[0;3])] [3;1;2]));
  (*811*) AddTo n_r2new (Plain (Einsum [(T 3,[0;1]); (n_r2,[2;0;3])] [2;1;3]));
  (*812*) AddTo n_r2new (Plain (Einsum [(n_t2,[0;1;2;3]); (T 11,[1])] [2;3;0]));
  (*813*) Del (T 11);
  (*814*) AddTo n_r2new (Times (Einsum [(n_r2,[0;1;2]); (T 12,[2;3])] [0;1;3]) (-1) 1);
  (*815*) Del (T 12);
  (*816*) AddTo n_r2new (Times (Einsum [(T 13,[0;1]); (n_r1,[2])] [1;2;0]) (-1) 1);
  (*817*) Del (T 13);
  (*818*) Assign n_r1new (Times (Einsum [(T 1,[0;1;2]); (IT 1,[0;3;1;2])] [3]) (-2) 1);
  (*819*) Del (IT 1);
  (*819*) Del (T 1);
  (*820*) AddTo n_r1new (Times (Einsum [(n_f'ov,[0;1]); (T 2,[0;2;1])] [2]) (-1) 1);
  (*821*) Del (T 2);
  (*822*) AddTo n_r1new (Plain (Einsum [(n_r1,[0]); (T 3,[0;1])] [1]));
  (*823*) Del (T 3)]
 [(n_r1new,[1]); (n_r2new,[1;1;0])].

(** ebcc/codegen/RDFCCD.py:827-897 [hbar_lmatvec_ip_intermediates] *)
Definition RDFCCD_hbar_lmatvec_ip_intermediates : prog := mkprog
 [(n_v'xov,[2;0;1]); (n_t2,[0;0;1;1]); (n_v'xvv,[2;1;1]); (n_v'xoo,[2;0;0]); (n_f'ov,[0;1])]
 [(*869*) Assign (T 13) (Plain (Einsum [(n_v'xov,[0;1;2]); (n_t2,[3;1;4;2])] [3;4;0]));
  (*870*) Assign (T 10) (Plain (Einsum [(n_v'xov,[0;1;2]); (n_t2,[3;1;2;4])] [3;4;0]));
  (*871*) Assign (T 44) (Plain (Einsum [(n_v'xov,[0;1;2]); (n_v'xov,[0;3;4])] [3;1;4;2]));
  (*872*) Assign (T 36) (Plain (Einsum [(n_v'xvv,[0;1;2]); (n_v'xov,[0;3;4])] [3;1;2;4]));
  (*873*) Assign (T 7) (Plain (Einsum [(n_v'xoo,[0;1;2]); (n_v'xov,[0;3;4])] [1;2;3;4]));
  (*874*) Assign (T 68) (Plain (Einsum [(T 13,[0;1;2]); (n_v'xov,[2;0;3])] [1;3]));
  (*875*) Assign (T 66) (Plain (Einsum [(T 10,[0;1;2]); (n_v'xov,[2;0;3])] [1;3]));
  (*876*) Assign (T 64) (Plain (Einsum [(n_t2,[0;1;2;3]); (T 44,[4;5;3;2])] [0;1;5;4]));
  (*877*) Assign (T 60) (Plain (Einsum [(n_v'xoo,[0;1;2]); (n_v'xoo,[0;3;4])] [3;1;2;4]));
  (*878*) Assign (T 46) (Plain (Einsum [(n_t2,[0;1;2;3]); (T 44,[4;1;3;5])] [0;4;2;5]));
  (*879*) Assign (T 45) (Plain (Einsum [(n_t2,[0;1;2;3]); (T 44,[4;1;2;5])] [0;4;3;5]));
  (*880*) Assign (T 42) (Plain (Einsum [(n_v'xvv,[0;1;2]); (n_v'xoo,[0;3;4])] [3;4;1;2]));
  (*881*) Assign (T 37) (Plain (Einsum [(T 36,[0;1;2;3]); (n_t2,[4;5;3;2])] [4;5;0;1]));
  (*882*) Del (T 36);
  (*883*) Assign (T 33) (Plain (Einsum [(n_v'xvv,[0;1;2]); (T 10,[3;2;0])] [3;1]));
  (*884*) Assign (T 30) (Plain (Einsum [(n_v'xvv,[0;1;2]); (T 13,[3;2;0])] [3;1]));
  (*885*) Assign (T 28) (Plain (Einsum [(n_v'xoo,[0;1;2]); (T 13,[3;4;0])] [3;1;2;4]));
  (*886*) Assign (T 26) (Plain (Einsum [(n_v'xoo,[0;1;2]); (T 10,[3;4;0])] [3;1;2;4]));
  (*887*) Assign (T 24) (Plain (Einsum [(T 7,[0;1;2;3]); (n_t2,[4;0;5;3])] [4;1;2;5]));
  (*888*) Assign (T 22) (Plain (Einsum [(T 7,[0;1;2;3]); (n_t2,[4;0;3;5])] [4;1;2;5]));
  (*889*) Assign (T 19) (Plain (Einsum [(n_t2,[0;1;2;3]); (T 7,[0;4;1;3])] [4;2]));
  (*890*) Assign (T 16) (Plain (Einsum [(T 7,[0;1;2;3]); (n_t2,[0;2;3;4])] [1;4]));
  (*891*) Assign (T 14) (Plain (Einsum [(n_v'xov,[0;1;2]); (T 13,[3;2;0])] [3;1]));
  (*892*) Assign (T 11) (Plain (Einsum [(n_v'xov,[0;1;2]); (T 10,[3;2;0])] [3;1]));
  (*893*) Assign (T 4) (Plain (Einsum [(n_t2,[0;1;2;3]); (n_f'ov,[4;3])] [4;0;1;2]));
  (*894*) Assign (T 2) (Plain (Einsum [(n_f'ov,[0;1]); (n_t2,[2;0;3;1])] [2;3]));
  (*895*) Assign (T 1) (Plain (Einsum [(n_f'ov,[0;1]); (n_t2,[2;0;1;3])] [2;3]))]
 [(T 1,[0;1]); (T 2,[0;1]); (T 11,[0;0]); (T 13,[0;1;2]); (T 14,[0;0]); (T 16,[0;1]); (T 19,[0;1]); (T 22,[0;0;0;1]); (T 24,[0;0;0;1]); (T 26,[0;0;0;1]); (T 28,[0;0;0;1]); (T 30,[0;1]); (T 4,[0;0;0;1]); (T 33,[0;1]); (T 37,[0;0;0;1]); (T 42,[0;0;1;1]); (T 44,[0;0;1;1]); (T 45,[0;0;1;1]); (T 46,[0;0;1;1]); (T 60,[0;0;0;0]); (T 7,[0;0;0;1]); (T 64,[0;0;0;0]); (T 66,[1;1]); (T 68,[1;1]); (T 10,[0;1;2])].

(** ebcc/codegen/RDFCCD.py:899-1015 [hbar_lmatvec_ip] *)
Definition RDFCCD_hbar_lmatvec_ip : prog := mkprog
 [(n_t2,[0;0;1;1]); (IT 13,[0;1;2]); (n_v'xov,[2;0;1]); (IT 10,[0;1;2]); (n_r2,[0;0;1]); (n_f'vv,[1;1]); (IT 66,[1;1]); (IT 68,[1;1]); (IT 60,[0;0;0;0]); (IT 64,[0;0;0;0]); (IT 42,[0;0;1;1]); (IT 45,[0;0;1;1]); (n_f'oo,[0;0]); (IT 14,[0;0]); (IT 11,[0;0]); (IT 46,[0;0;1;1]); (IT 28,[0;0;0;1]); (IT 4,[0;0;0;1]); (IT 24,[0;0;0;1]); (IT 26,[0;0;0;1]); (IT 37,[0;0;0;1]); (IT 7,[0;0;0;1]); (IT 22,[0;0;0;1]); (n_f'ov,[0;1]); (IT 16,[0;1]); (IT 2,[0;1]); (IT 30,[0;1]); (IT 1,[0;1]); (IT 19,[0;1]); (IT 33,[0;1]); (n_r1,[0]); (IT 44,[0;0;1;1])]
 [(*925*) Assign (T 13) (Plain (Transpose n_t2 [0;1;3;2]));
  (*926*) AddTo (T 13) (Times (Copy n_t2) (-1) 2);
  (*927*) Assign (T 10) (Plain (Copy (IT 13)));
  (*928*) Del (IT 13);
  (*929*) AddTo (T 10) (Times (Transpose n_v'xov [1;2;0]) (1) 2);
  (*930*) AddTo (T 10) (Times (Copy (IT 10)) (-1) 2);
  (*931*) Del (IT 10);
  (*932*) Assign (T 3) (Times (Copy n_r2) (-1) 1);
  (*933*) AddTo (T 3) (Times (Transpose n_r2 [1;0;2]) (2) 1);
  (*934*) Assign (T 12) (Plain (Copy n_f'vv));
  (*935*) AddTo (T 12) (Plain (Copy (IT 66)));
  (*936*) Del (IT 66);
  (*937*) AddTo (T 12) (Times (Copy (IT 68)) (-2) 1);
  (*938*) Del (IT 68);
  (*939*) Assign (T 9) (Plain (Copy (IT 60)));
  (*940*) Del (IT 60);
  (*941*) AddTo (T 9) (Plain (Transpose (IT 64) [3;0;2;1]));
  (*942*) Del (IT 64);
  (*943*) Assign (T 8) (Plain (Copy (IT 42)));
  (*944*) AddTo (T 8) (Times (Transpose (IT 45) [1;0;3;2]) (-1) 1);
  (*945*) Assign (T 14) (Plain (Einsum [(n_r2,[0;1;2]); (T 13,[0;1;3;2])] [3]));
  (*946*) Del (T 13);
  (*947*) Assign (T 11) (Times (Einsum [(T 3,[0;1;2]); (T 10,[1;2;3])] [0;3]) (2) 1);
  (*948*) Del (T 10);
  (*949*) Assign (T 6) (Plain (Copy n_f'oo));
  (*950*) AddTo (T 6) (Times (Copy (IT 14)) (2) 1);
  (*951*) Del (IT 14);
  (*952*) AddTo (T 6) (Times (Copy (IT 11)) (-1) 1);
  (*953*) Del (IT 11);
  (*954*) Assign (T 7) (Times (Copy (IT 42)) (1) 2);
  (*955*) Del (IT 42);
  (*956*) AddTo (T 7) (Plain (Transpose (IT 46) [1;0;3;2]));
  (*957*) AddTo (T 7) (Times (Transpose (IT 45) [1;0;3;2]) (-1) 2);
  (*958*) Del (IT 45);
  (*959*) Assign (T 4) (Times (Copy (IT 28)) (2) 1);
  (*960*) Del (IT 28);
  (*961*) AddTo (T 4) (Plain (Transpose (IT 4) [1;2;0;3]));
  (*962*) Del (IT 4);
  (*963*) AddTo (T 4) (Times (Copy (IT 24)) (-1) 1);
  (*964*) Del (IT 24);
  (*965*) AddTo (T 4) (Times (Copy (IT 26)) (-1) 1);
  (*966*) Del (IT 26);
  (*967*) Assign (T 1) (Plain (Copy n_r2));
  (*968*) AddTo (T 1) (Times (Transpose n_r2 [1;0;2]) (-1) 2);
  (*969*) Assign (T 2) (Plain (Copy (IT 37)));
  (*970*) Del (IT 37);
  (*971*) AddTo (T 2) (Plain (Transpose (IT 7) [1;2;0;3]));
  (*972*) AddTo (T 2) (Times (Copy (IT 22)) (-1) 1);
  (*973*) Del (IT 22);
  (*974*) Assign (T 5) (Plain (Copy n_f'ov));
  (*975*) AddTo (T 5) (Plain (Copy (IT 16)));
  (*976*) Del (IT 16);
  (*977*) AddTo (T 5) (Times (Copy (IT 2)) (2) 1);
  (*978*) Del (IT 2);
  (*979*) AddTo (T 5) (Times (Copy (IT 30)) (2) 1);
  (*980*) Del (IT 30);
  (*981*) AddTo (T 5) (Times (Copy (IT 1)) (-1) 1);
  (*982*) Del (IT 1);
  (*983*) AddTo (T 5) (Times (Copy (IT 19)) (-2) 1);
  (*984*) Del (IT 19);
  (*985*) AddTo (T 5) (Times (Copy (IT 33)) (-1) 1);
  (*986*) Del (IT 33);
  (*987*) Assign n_r2new (Plain (Einsum [(IT 46,[0;1;2;3]); (n_r2,[4;0;2])] [1;4;3]));
  (*988*) Del (IT 46);
  (*989*) AddTo n_r2new (Times (Einsum [(n_f'ov,[0;1]); (n_r1,[2])] [0;2;1]) (-1) 1);
  (*990*) AddTo n_r2new (Plain (Einsum [(n_r1,[0]); (IT 7,[1;0;2;3])] [2;1;3]));
  (*991*) Del (IT 7);
  (*992*) AddTo n_r2new (Times (Einsum [(n_r2,[0;1;2]); (T 7,[3;0;4;2])] [3;1;4]) (-2) 1);
  (*993*) Del (T 7);
  (*994*) AddTo n_r2new (Times (Einsum [(n_r2,[0;1;2]); (T 8,[3;1;4;2])] [0;3;4]) (-1) 1);
  (*995*) Del (T 8);
  (*996*) AddTo n_r2new (Plain (Einsum [(T 9,[0;1;2;3]); (n_r2,[1;3;4])] [2;0;4]));
  (*997*) Del (T 9);
  (*998*) AddTo n_r2new (Plain (Einsum [(T 11,[0;1]); (n_v'xov,[1;2;3])] [2;0;3]));
  (*999*) Del (T 11);
  (*1000*) AddTo n_r2new (Plain (Einsum [(n_r2,[0;1;2]); (T 12,[2;3])] [0;1;3]));
  (*1001*) Del (T 12);
  (*1002*) AddTo n_r2new (Times (Einsum [(T 14,[0]); (IT 44,[1;2;3;0])] [1;2;3]) (-2) 1);
  (*1003*) Del (T 14);
  (*1003*) Del (IT 44);
  (*1004*) AddTo n_r2new (Times (Einsum [(n_r2,[0;1;2]); (T 6,[0;3])] [3;1;2]) (-1) 1);
  (*1005*) AddTo n_r2new (Times (Einsum [(T 6,[0;1]); (n_r2,[2;0;3])] [2;1;3]) (-1) 1);
  (*1006*) Assign n_r1new (Times (Einsum [(T 2,[0;1;2;3]); (T 1,[1;0;3])] [2]) (2) 1);
  (*1007*) Del (T 2);
  (*1007*) Del (T 1);
  (*1008*) AddTo n_r1new (Plain (Einsum [(T 4,[0;1;2;3]); (T 3,[1;0;3])] [2]));
  (*1009*) Del (T 4);
  (*1010*) AddTo n_r1new (Times (Einsum [(T 5,[0;1]); (T 3,[2;0;1])] [2]) (-1) 1);
  (*1011*) Del (T 3);
  (*1011*) Del (T 5);
  (*1012*) AddTo n_r1new (Times (Einsum [(n_r1,[0]); (T 6,[0;1])] [1]) (-1) 1);
  (*1013*) Del (T 6)]
 [(n_r1new,[0]); (n_r2new,[0;0;1])].

(** ebcc/codegen/RDFCCD.py:1017-1083 [hbar_lmatvec_ea_intermediates] *)
Definition RDFCCD_hbar_lmatvec_ea_intermediates : prog := mkprog
 [(n_v'xov,[2;0;1]); (n_t2,[0;0;1;1]); (n_v'xvv,[2;1;1]); (n_v'xoo,[2;0;0]); (n_f'ov,[0;1])]
 [(*1057*) Assign (T 50) (Plain (Einsum [(n_v'xov,[0;1;2]); (n_v'xov,[0;3;4])] [3;1;4;2]));
  (*1058*) Assign (T 14) (Plain (Einsum [(n_v'xov,[0;1;2]); (n_t2,[3;1;4;2])] [3;4;0]));
  (*1059*) Assign (T 11) (Plain (Einsum [(n_v'xov,[0;1;2]); (n_t2,[3;1;2;4])] [3;4;0]));
  (*1060*) Assign (T 8) (Plain (Einsum [(n_v'xvv,[0;1;2]); (n_v'xov,[0;3;4])] [3;1;2;4]));
  (*1061*) Assign (T 17) (Plain (Einsum [(n_v'xoo,[0;1;2]); (n_v'xov,[0;3;4])] [1;2;3;4]));
  (*1062*) Assign (T 62) (Plain (Einsum [(n_v'xvv,[0;1;2]); (n_v'xvv,[0;3;4])] [1;3;4;2]));
  (*1063*) Assign (T 52) (Plain (Einsum [(T 50,[0;1;2;3]); (n_t2,[4;1;5;2])] [4;0;5;3]));
  (*1064*) Assign (T 51) (Plain (Einsum [(n_t2,[0;1;2;3]); (T 50,[4;1;2;5])] [0;4;3;5]));
  (*1065*) Assign (T 48) (Plain (Einsum [(n_v'xov,[0;1;2]); (T 14,[3;2;0])] [3;1]));
  (*1066*) Assign (T 46) (Plain (Einsum [(n_v'xov,[0;1;2]); (T 11,[3;2;0])] [3;1]));
  (*1067*) Assign (T 44) (Plain (Einsum [(n_v'xvv,[0;1;2]); (n_v'xoo,[0;3;4])] [3;4;1;2]));
  (*1068*) Assign (T 40) (Plain (Einsum [(T 8,[0;1;2;3]); (n_t2,[4;0;5;2])] [4;5;3;1]));
  (*1069*) Assign (T 38) (Plain (Einsum [(T 8,[0;1;2;3]); (n_t2,[4;0;2;5])] [4;5;3;1]));
  (*1070*) Assign (T 35) (Plain (Einsum [(n_v'xvv,[0;1;2]); (T 14,[3;4;0])] [3;4;1;2]));
  (*1071*) Assign (T 33) (Plain (Einsum [(n_v'xvv,[0;1;2]); (T 11,[3;4;0])] [3;4;1;2]));
  (*1072*) Assign (T 30) (Plain (Einsum [(n_v'xvv,[0;1;2]); (T 11,[3;2;0])] [3;1]));
  (*1073*) Assign (T 27) (Plain (Einsum [(T 14,[0;1;2]); (n_v'xvv,[2;3;1])] [0;3]));
  (*1074*) Assign (T 24) (Plain (Einsum [(n_t2,[0;1;2;3]); (T 17,[4;0;1;5])] [4;2;3;5]));
  (*1075*) Assign (T 21) (Plain (Einsum [(n_t2,[0;1;2;3]); (T 17,[4;0;1;3])] [4;2]));
  (*1076*) Assign (T 18) (Plain (Einsum [(n_t2,[0;1;2;3]); (T 17,[4;0;1;2])] [4;3]));
  (*1077*) Del (T 17);
  (*1078*) Assign (T 15) (Plain (Einsum [(T 14,[0;1;2]); (n_v'xov,[2;0;3])] [1;3]));
  (*1079*) Assign (T 12) (Plain (Einsum [(T 11,[0;1;2]); (n_v'xov,[2;0;3])] [1;3]));
  (*1080*) Assign (T 2) (Plain (Einsum [(n_f'ov,[0;1]); (n_t2,[2;0;3;1])] [2;3]));
  (*1081*) Assign (T 1) (Plain (Einsum [(n_f'ov,[0;1]); (n_t2,[2;0;1;3])] [2;3]))]
 [(T 1,[0;1]); (T 2,[0;1]); (T 11,[0;1;2]); (T 12,[1;1]); (T 14,[0;1;2]); (T 15,[1;1]); (T 18,[0;1]); (T 21,[0;1]); (T 24,[0;1;1;1]); (T 27,[0;1]); (T 30,[0;1]); (T 33,[0;1;1;1]); (T 35,[0;1;1;1]); (T 38,[0;1;1;1]); (T 40,[0;1;1;1]); (T 44,[0;0;1;1]); (T 46,[0;0]); (T 48,[0;0]); (T 50,[0;0;1;1]); (T 51,[0;0;1;1]); (T 52,[0;0;1;1]); (T 62,[1;1;1;1]); (T 8,[0;1;1;1])].

(** ebcc/codegen/RDFCCD.py:1085-1207 [hbar_lmatvec_ea] *)
Definition RDFCCD_hbar_lmatvec_ea : prog := mkprog
 [(IT 14,[0;1;2]); (n_v'xov,[2;0;1]); (IT 11,[0;1;2]); (n_r2,[1;1;0]); (n_t2,[0;0;1;1]); (IT 44,[0;0;1;1]); (IT 51,[0;0;1;1]); (IT 52,[0;0;1;1]); (n_f'oo,[0;0]); (IT 48,[0;0]); (IT 46,[0;0]); (n_f'vv,[1;1]); (IT 12,[1;1]); (IT 15,[1;1]); (IT 24,[0;1;1;1]); (IT 35,[0;1;1;1]); (IT 38,[0;1;1;1]); (IT 33,[0;1;1;1]); (IT 40,[0;1;1;1]); (IT 8,[0;1;1;1]); (n_f'ov,[0;1]); (IT 18,[0;1]); (IT 2,[0;1]); (IT 27,[0;1]); (IT 1,[0;1]); (IT 21,[0;1]); (IT 30,[0;1]); (IT 62,[1;1;1;1]); (n_r1,[1]); (IT 50,[0;0;1;1])]
 [(*1111*) Assign (T 12) (Times (Copy (IT 14)) (2) 1);
  (*1112*) Del (IT 14);
  (*1113*) AddTo (T 12) (Plain (Transpose n_v'xov [1;2;0]));
  (*1114*) AddTo (T 12) (Times (Copy (IT 11)) (-1) 1);
  (*1115*) Del (IT 11);
  (*1116*) Assign (T 11) (Times (Transpose n_r2 [2;0;1]) (-1) 2);
  (*1117*) AddTo (T 11) (Plain (Transpose n_r2 [2;1;0]));
  (*1118*) Assign (T 6) (Plain (Transpose n_t2 [0;1;3;2]));
  (*1119*) AddTo (T 6) (Times (Copy n_t2) (-1) 2);
  (*1120*) Assign (T 10) (Plain (Copy (IT 44)));
  (*1121*) AddTo (T 10) (Times (Transpose (IT 51) [1;0;3;2]) (-1) 1);
  (*1122*) Assign (T 13) (Times (Einsum [(T 12,[0;1;2]); (T 11,[0;3;1])] [3;2]) (2) 1);
  (*1123*) Del (T 12);
  (*1123*) Del (T 11);
  (*1124*) Assign (T 9) (Times (Copy (IT 44)) (1) 2);
  (*1125*) Del (IT 44);
  (*1126*) AddTo (T 9) (Plain (Transpose (IT 52) [1;0;3;2]));
  (*1127*) AddTo (T 9) (Times (Transpose (IT 51) [1;0;3;2]) (-1) 2);
  (*1128*) Del (IT 51);
  (*1129*) Assign (T 8) (Plain (Einsum [(n_r2,[0;1;2]); (n_t2,[3;4;0;1])] [2;3;4]));
  (*1130*) Assign (T 14) (Plain (Copy n_f'oo));
  (*1131*) AddTo (T 14) (Times (Copy (IT 48)) (2) 1);
  (*1132*) Del (IT 48);
  (*1133*) AddTo (T 14) (Times (Copy (IT 46)) (-1) 1);
  (*1134*) Del (IT 46);
  (*1135*) Assign (T 15) (Plain (Einsum [(n_r2,[0;1;2]); (T 6,[2;3;1;0])] [3]));
  (*1136*) Assign (T 5) (Plain (Copy n_f'vv));
  (*1137*) AddTo (T 5) (Plain (Copy (IT 12)));
  (*1138*) Del (IT 12);
  (*1139*) AddTo (T 5) (Times (Copy (IT 15)) (-2) 1);
  (*1140*) Del (IT 15);
  (*1141*) Assign (T 4) (Times (Transpose n_r2 [2;0;1]) (-1) 1);
  (*1142*) AddTo (T 4) (Times (Transpose n_r2 [2;1;0]) (2) 1);
  (*1143*) Assign (T 1) (Times (Copy (IT 24)) (1) 2);
  (*1144*) AddTo (T 1) (Plain (Copy (IT 35)));
  (*1145*) AddTo (T 1) (Plain (Transpose (IT 38) [0;1;3;2]));
  (*1146*) AddTo (T 1) (Times (Copy (IT 33)) (-1) 2);
  (*1147*) AddTo (T 1) (Times (Transpose (IT 40) [0;1;3;2]) (-1) 2);
  (*1148*) AddTo (T 1) (Times (Transpose (IT 8) [0;2;3;1]) (-1) 1);
  (*1149*) Assign (T 7) (Times (Einsum [(n_r2,[0;1;2]); (T 6,[2;3;1;0])] [3]) (2) 1);
  (*1150*) Del (T 6);
  (*1151*) Assign (T 2) (Times (Copy (IT 24)) (2) 1);
  (*1152*) Del (IT 24);
  (*1153*) AddTo (T 2) (Times (Copy (IT 35)) (4) 1);
  (*1154*) Del (IT 35);
  (*1155*) AddTo (T 2) (Plain (Transpose (IT 38) [0;1;3;2]));
  (*1156*) Del (IT 38);
  (*1157*) AddTo (T 2) (Times (Copy (IT 33)) (-2) 1);
  (*1158*) Del (IT 33);
  (*1159*) AddTo (T 2) (Times (Transpose (IT 40) [0;1;3;2]) (-2) 1);
  (*1160*) Del (IT 40);
  (*1161*) AddTo (T 2) (Times (Transpose (IT 8) [0;2;3;1]) (-1) 1);
  (*1162*) Assign (T 3) (Plain (Copy n_f'ov));
  (*1163*) AddTo (T 3) (Plain (Copy (IT 18)));
  (*1164*) Del (IT 18);
  (*1165*) AddTo (T 3) (Times (Copy (IT 2)) (2) 1);
  (*1166*) Del (IT 2);
  (*1167*) AddTo (T 3) (Times (Copy (IT 27)) (2) 1);
  (*1168*) Del (IT 27);
  (*1169*) AddTo (T 3) (Times (Copy (IT 1)) (-1) 1);
  (*1170*) Del (IT 1);
  (*1171*) AddTo (T 3) (Times (Copy (IT 21)) (-2) 1);
  (*1172*) Del (IT 21);
  (*1173*) AddTo (T 3) (Times (Copy (IT 30)) (-1) 1);
  (*1174*) Del (IT 30);
  (*1175*) Assign n_r2new (Plain (Einsum [(IT 62,[0;1;2;3]); (n_r2,[1;3;4])] [2;0;4]));
  (*1176*) Del (IT 62);
  (*1177*) AddTo n_r2new (Times (Einsum [(n_f'ov,[0;1]); (n_r1,[2])] [1;2;0]) (-1) 1);
  (*1178*) AddTo n_r2new (Plain (Einsum [(IT 52,[0;1;2;3]); (n_r2,[4;2;0])] [3;4;1]));
  (*1179*) Del (IT 52);
  (*1180*) AddTo n_r2new (Plain (Einsum [(IT 50,[0;1;2;3]); (T 8,[4;1;0])] [3;2;4]));
  (*1181*) Del (T 8);
  (*1182*) AddTo n_r2new (Times (Einsum [(IT 8,[0;1;2;3]); (n_r1,[2])] [3;1;0]) (-1) 1);
  (*1183*) Del (IT 8);
  (*1184*) AddTo n_r2new (Times (Einsum [(T 9,[0;1;2;3]); (n_r2,[3;4;1])] [2;4;0]) (-2) 1);
  (*1185*) Del (T 9);
  (*1186*) AddTo n_r2new (Times (Einsum [(T 10,[0;1;2;3]); (n_r2,[4;3;1])] [4;2;0]) (-1) 1);
  (*1187*) Del (T 10);
  (*1188*) AddTo n_r2new (Plain (Einsum [(n_v'xov,[0;1;2]); (T 13,[3;0])] [2;3;1]));
  (*1189*) Del (T 13);
  (*1190*) AddTo n_r2new (Plain (Einsum [(T 5,[0;1]); (n_r2,[0;2;3])] [1;2;3]));
  (*1191*) AddTo n_r2new (Plain (Einsum [(n_r2,[0;1;2]); (T 5,[1;3])] [0;3;2]));
  (*1192*) AddTo n_r2new (Times (Einsum [(n_r2,[0;1;2]); (T 14,[2;3])] [0;1;3]) (-1) 1);
  (*1193*) Del (T 14);
  (*1194*) AddTo n_r2new (Times (Einsum [(IT 50,[0;1;2;3]); (T 15,[1])] [2;3;0]) (-2) 1);
  (*1195*) Del (IT 50);
  (*1195*) Del (T 15);
  (*1196*) Assign n_r1new (Times (Einsum [(n_r2,[0;1;2]); (T 1,[2;1;0;3])] [3]) (2) 1);
  (*1197*) Del (T 1);
  (*1198*) AddTo n_r1new (Times (Einsum [(n_r2,[0;1;2]); (T 2,[2;0;1;3])] [3]) (-1) 1);
  (*1199*) Del (T 2);
  (*1200*) AddTo n_r1new (Times (Einsum [(T 4,[0;1;2]); (T 3,[0;2])] [1]) (-1) 1);
  (*1201*) Del (T 4);
  (*1201*) Del (T 3);
  (*1202*) AddTo n_r1new (Plain (Einsum [(n_r1,[0]); (T 5,[0;1])] [1]));
  (*1203*) Del (T 5);
  (*1204*) AddTo n_r1new (Plain (Einsum [(n_f'ov,[0;1]); (T 7,[0])] [1]));
  (*1205*) Del (T 7)]
 [(n_r1new,[1]); (n_r2new,[1;1;0])].

