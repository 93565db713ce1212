(** Generated by tools/translate_codegen.py from ebcc/codegen/GCCD.py; one statement per source line
    (the number in the comment before it). *)
From Coq Require Import ZArith List.
From Verif Require Import CgModel CgNames.
Import ListNotations.

(** ebcc/codegen/GCCD.py:19-38 [energy] *)
Definition GCCD_energy : prog := mkprog
 [(n_v'oovv,[0;0;1;1]); (n_t2,[0;0;1;1])]
 [(*36*) Assign n_e_cc (Times (Einsum [(n_v'oovv,[0;1;2;3]); (n_t2,[0;1;2;3])] []) (1) 4)]
 [(n_e_cc,[])].

(** ebcc/codegen/GCCD.py:40-98 [update_amps] *)
Definition GCCD_update_amps : prog := mkprog
 [(n_t2,[0;0;1;1]); (n_v'oovv,[0;0;1;1]); (n_v'ovov,[0;1;0;1]); (n_f'oo,[0;0]); (n_v'oooo,[0;0;0;0]); (n_f'vv,[1;1]); (n_v'vvvv,[1;1;1;1])]
 [(*59*) Assign (T 4) (Plain (Einsum [(n_t2,[0;1;2;3]); (n_v'oovv,[0;1;4;3])] [2;4]));
  (*60*) Assign (T 2) (Plain (Einsum [(n_t2,[0;1;2;3]); (n_v'oovv,[4;1;5;3])] [0;4;2;5]));
  (*61*) Assign (T 6) (Plain (Einsum [(n_v'oovv,[0;1;2;3]); (n_t2,[4;1;2;3])] [4;0]));
  (*62*) Assign (T 5) (Plain (Einsum [(n_t2,[0;1;2;3]); (T 4,[4;3])] [0;1;2;4]));
  (*63*) Del (T 4);
  (*64*) Assign (T 9) (Plain (Einsum [(n_v'ovov,[0;1;2;3]); (n_t2,[4;2;5;1])] [4;0;5;3]));
  (*65*) Assign (T 3) (Plain (Einsum [(T 2,[0;1;2;3]); (n_t2,[4;1;5;3])] [0;4;2;5]));
  (*66*) Del (T 2);
  (*67*) Assign (T 7) (Plain (Einsum [(T 6,[0;1]); (n_t2,[2;1;3;4])] [2;0;3;4]));
  (*68*) Del (T 6);
  (*69*) Assign (T 1) (Plain (Einsum [(n_t2,[0;1;2;3]); (n_f'oo,[4;1])] [4;0;2;3]));
  (*70*) Assign (T 10) (Plain (Copy n_v'oooo));
  (*71*) AddTo (T 10) (Times (Einsum [(n_v'oovv,[0;1;2;3]); (n_t2,[4;5;2;3])] [0;1;4;5]) (1) 2);
  (*72*) Assign (T 8) (Plain (Einsum [(n_f'vv,[0;1]); (n_t2,[2;3;4;1])] [2;3;0;4]));
  (*73*) Assign n_t2new (Times (Einsum [(n_t2,[0;1;2;3]); (n_v'vvvv,[4;5;2;3])] [0;1;4;5]) (1) 2);
  (*74*) AddTo n_t2new (Plain (Copy n_v'oovv));
  (*75*) AddTo n_t2new (Times (Transpose (T 1) [0;1;3;2]) (-1) 1);
  (*76*) AddTo n_t2new (Plain (Transpose (T 1) [1;0;3;2]));
  (*77*) Del (T 1);
  (*78*) AddTo n_t2new (Plain (Copy (T 3)));
  (*79*) AddTo n_t2new (Times (Transpose (T 3) [0;1;3;2]) (-1) 1);
  (*80*) Del (T 3);
  (*81*) AddTo n_t2new (Times (Copy (T 5)) (-1) 2);
  (*82*) AddTo n_t2new (Times (Transpose (T 5) [0;1;3;2]) (1) 2);
  (*83*) Del (T 5);
  (*84*) AddTo n_t2new (Times (Transpose (T 7) [0;1;3;2]) (1) 2);
  (*85*) AddTo n_t2new (Times (Transpose (T 7) [1;0;3;2]) (-1) 2);
  (*86*) Del (T 7);
  (*87*) AddTo n_t2new (Plain (Transpose (T 8) [1;0;2;3]));
  (*88*) AddTo n_t2new (Times (Transpose (T 8) [1;0;3;2]) (-1) 1);
  (*89*) Del (T 8);
  (*90*) AddTo n_t2new (Times (Copy (T 9)) (-1) 1);
  (*91*) AddTo n_t2new (Plain (Transpose (T 9) [0;1;3;2]));
  (*92*) AddTo n_t2new (Plain (Transpose (T 9) [1;0;2;3]));
  (*93*) AddTo n_t2new (Times (Transpose (T 9) [1;0;3;2]) (-1) 1);
  (*94*) Del (T 9);
  (*95*) AddTo n_t2new (Times (Einsum [(n_t2,[0;1;2;3]); (T 10,[0;1;4;5])] [4;5;2;3]) (1) 2);
  (*96*) Del (T 10)]
 [(n_t2new,[0;0;1;1])].

(** ebcc/codegen/GCCD.py:100-176 [update_lams] *)
Definition GCCD_update_lams : prog := mkprog
 [(n_l2,[1;1;0;0]); (n_t2,[0;0;1;1]); (n_v'oovv,[0;0;1;1]); (n_v'ovov,[0;1;0;1]); (n_f'oo,[0;0]); (n_f'vv,[1;1]); (n_v'oooo,[0;0;0;0]); (n_v'vvvv,[1;1;1;1])]
 [(*121*) Assign (T 13) (Plain (Einsum [(n_l2,[0;1;2;3]); (n_t2,[2;3;4;1])] [0;4]));
  (*122*) Assign (T 11) (Plain (Einsum [(n_t2,[0;1;2;3]); (n_v'oovv,[0;1;4;3])] [2;4]));
  (*123*) Assign (T 3) (Plain (Einsum [(n_t2,[0;1;2;3]); (n_v'oovv,[4;1;5;3])] [0;4;2;5]));
  (*124*) Assign (T 6) (Plain (Einsum [(n_v'oovv,[0;1;2;3]); (n_t2,[4;1;2;3])] [4;0]));
  (*125*) Assign (T 8) (Plain (Einsum [(n_t2,[0;1;2;3]); (n_l2,[2;3;4;1])] [4;0]));
  (*126*) Assign (T 14) (Times (Einsum [(n_v'oovv,[0;1;2;3]); (T 13,[4;3])] [0;1;4;2]) (-1) 1);
  (*127*) Del (T 13);
  (*128*) Assign (T 12) (Plain (Einsum [(T 11,[0;1]); (n_l2,[2;0;3;4])] [3;4;2;1]));
  (*129*) Del (T 11);
  (*130*) Assign (T 4) (Times (Transpose n_v'ovov [0;2;3;1]) (-1) 1);
  (*131*) AddTo (T 4) (Plain (Copy (T 3)));
  (*132*) Del (T 3);
  (*133*) Assign (T 7) (Plain (Einsum [(n_l2,[0;1;2;3]); (T 6,[3;4])] [2;4;0;1]));
  (*134*) Del (T 6);
  (*135*) Assign (T 9) (Times (Einsum [(T 8,[0;1]); (n_v'oovv,[2;1;3;4])] [0;2;3;4]) (-1) 1);
  (*136*) Del (T 8);
  (*137*) Assign (T 15) (Times (Copy (T 12)) (1) 2);
  (*138*) Del (T 12);
  (*139*) AddTo (T 15) (Times (Copy (T 14)) (1) 2);
  (*140*) Del (T 14);
  (*141*) Assign (T 5) (Plain (Einsum [(n_l2,[0;1;2;3]); (T 4,[3;4;1;5])] [2;4;0;5]));
  (*142*) Del (T 4);
  (*143*) Assign (T 2) (Plain (Einsum [(n_l2,[0;1;2;3]); (n_f'oo,[4;3])] [4;2;0;1]));
  (*144*) Assign (T 16) (Plain (Einsum [(n_l2,[0;1;2;3]); (n_f'vv,[4;1])] [2;3;4;0]));
  (*145*) Assign (T 17) (Times (Copy n_v'oooo) (2) 1);
  (*146*) AddTo (T 17) (Plain (Einsum [(n_v'oovv,[0;1;2;3]); (n_t2,[4;5;2;3])] [4;5;0;1]));
  (*147*) Assign (T 1) (Plain (Einsum [(n_t2,[0;1;2;3]); (n_l2,[2;3;4;5])] [4;5;0;1]));
  (*148*) Assign (T 10) (Times (Transpose (T 7) [0;1;3;2]) (-1) 2);
  (*149*) Del (T 7);
  (*150*) AddTo (T 10) (Times (Transpose (T 9) [0;1;3;2]) (-1) 2);
  (*151*) Del (T 9);
  (*152*) Assign n_l2new (Times (Einsum [(n_v'vvvv,[0;1;2;3]); (n_l2,[2;3;4;5])] [0;1;4;5]) (1) 2);
  (*153*) AddTo n_l2new (Plain (Transpose n_v'oovv [2;3;0;1]));
  (*154*) AddTo n_l2new (Times (Einsum [(n_v'oovv,[0;1;2;3]); (T 1,[4;5;1;0])] [2;3;4;5]) (-1) 4);
  (*155*) Del (T 1);
  (*156*) AddTo n_l2new (Times (Transpose (T 2) [3;2;0;1]) (-1) 1);
  (*157*) AddTo n_l2new (Plain (Transpose (T 2) [3;2;1;0]));
  (*158*) Del (T 2);
  (*159*) AddTo n_l2new (Plain (Transpose (T 5) [2;3;0;1]));
  (*160*) AddTo n_l2new (Times (Transpose (T 5) [3;2;0;1]) (-1) 1);
  (*161*) AddTo n_l2new (Times (Transpose (T 5) [2;3;1;0]) (-1) 1);
  (*162*) AddTo n_l2new (Plain (Transpose (T 5) [3;2;1;0]));
  (*163*) Del (T 5);
  (*164*) AddTo n_l2new (Plain (Transpose (T 10) [3;2;0;1]));
  (*165*) AddTo n_l2new (Times (Transpose (T 10) [3;2;1;0]) (-1) 1);
  (*166*) Del (T 10);
  (*167*) AddTo n_l2new (Plain (Transpose (T 15) [2;3;1;0]));
  (*168*) AddTo n_l2new (Times (Transpose (T 15) [3;2;1;0]) (-1) 1);
  (*169*) Del (T 15);
  (*170*) AddTo n_l2new (Plain (Transpose (T 16) [2;3;1;0]));
  (*171*) AddTo n_l2new (Times (Transpose (T 16) [3;2;1;0]) (-1) 1);
  (*172*) Del (T 16);
  (*173*) AddTo n_l2new (Times (Einsum [(T 17,[0;1;2;3]); (n_l2,[4;5;0;1])] [4;5;2;3]) (1) 4);
  (*174*) Del (T 17)]
 [(n_l2new,[1;1;0;0])].

(** ebcc/codegen/GCCD.py:178-208 [make_rdm1_f]; assembly (line 206) not translated *)
Definition GCCD_make_rdm1_f : prog := mkprog
 [(n_t2,[0;0;1;1]); (n_l2,[1;1;0;0])]
 [(*196*) Assign n_delta'oo (Plain (Eye 0));
  (*196*) Assign n_delta'vv (Plain (Eye 1));
  (*200*) Assign n_rdm1'vv (Times (Einsum [(n_l2,[0;1;2;3]); (n_t2,[2;3;4;1])] [0;4]) (1) 2);
  (*201*) Assign n_rdm1'oo (Times (Einsum [(n_l2,[0;1;2;3]); (n_t2,[4;3;0;1])] [4;2]) (-1) 2);
  (*202*) AddTo n_rdm1'oo (Plain (Copy n_delta'oo));
  (*203*) Del n_delta'oo;
  (*203*) Del n_delta'vv;
  (*204*) Assign n_rdm1'ov (Plain (Zeros [0;1]));
  (*205*) Assign n_rdm1'vo (Plain (Zeros [1;0]))]
 [(n_rdm1'oo,[0;0]); (n_rdm1'ov,[0;1]); (n_rdm1'vo,[1;0]); (n_rdm1'vv,[1;1])].

(** ebcc/codegen/GCCD.py:210-283 [make_rdm2_f]; assembly (line 280) not translated *)
Definition GCCD_make_rdm2_f : prog := mkprog
 [(n_t2,[0;0;1;1]); (n_l2,[1;1;0;0])]
 [(*228*) Assign n_delta'oo (Plain (Eye 0));
  (*228*) Assign n_delta'vv (Plain (Eye 1));
  (*232*) Assign (T 3) (Plain (Einsum [(n_t2,[0;1;2;3]); (n_l2,[4;3;5;1])] [5;0;4;2]));
  (*233*) Assign (T 5) (Plain (Einsum [(n_l2,[0;1;2;3]); (n_t2,[2;3;4;1])] [0;4]));
  (*234*) Assign (T 2) (Plain (Einsum [(n_l2,[0;1;2;3]); (n_t2,[4;3;0;1])] [2;4]));
  (*235*) Assign (T 4) (Plain (Einsum [(n_t2,[0;1;2;3]); (T 3,[1;4;3;5])] [0;4;2;5]));
  (*236*) Assign (T 6) (Plain (Einsum [(T 5,[0;1]); (n_t2,[2;3;4;0])] [2;3;4;1]));
  (*237*) Assign (T 7) (Plain (Einsum [(T 2,[0;1]); (n_t2,[2;0;3;4])] [2;1;3;4]));
  (*238*) Assign (T 1) (Plain (Einsum [(n_t2,[0;1;2;3]); (n_l2,[2;3;4;5])] [4;5;0;1]));
  (*239*) Assign n_rdm2'vvvv (Times (Einsum [(n_t2,[0;1;2;3]); (n_l2,[4;5;0;1])] [4;5;2;3]) (1) 2);
  (*240*) Assign n_rdm2'vvoo (Plain (Copy n_l2));
  (*241*) Assign n_rdm2'vovo (Times (Einsum [(T 5,[0;1]); (n_delta'oo,[2;3])] [0;2;1;3]) (1) 2);
  (*242*) AddTo n_rdm2'vovo (Times (Transpose (T 3) [2;1;3;0]) (-1) 1);
  (*243*) Assign n_rdm2'voov (Times (Einsum [(T 5,[0;1]); (n_delta'oo,[2;3])] [0;2;3;1]) (-1) 2);
  (*244*) AddTo n_rdm2'voov (Plain (Transpose (T 3) [2;1;0;3]));
  (*245*) Assign n_rdm2'ovvo (Times (Einsum [(T 5,[0;1]); (n_delta'oo,[2;3])] [2;0;1;3]) (-1) 2);
  (*246*) AddTo n_rdm2'ovvo (Plain (Transpose (T 3) [1;2;3;0]));
  (*247*) Assign n_rdm2'ovov (Times (Einsum [(T 5,[0;1]); (n_delta'oo,[2;3])] [2;0;3;1]) (1) 2);
  (*248*) Del (T 5);
  (*249*) AddTo n_rdm2'ovov (Times (Transpose (T 3) [1;2;0;3]) (-1) 1);
  (*250*) Del (T 3);
  (*251*) Assign n_rdm2'oovv (Times (Einsum [(T 1,[0;1;2;3]); (n_t2,[1;0;4;5])] [3;2;4;5]) (1) 4);
  (*252*) AddTo n_rdm2'oovv (Plain (Copy n_t2));
  (*253*) AddTo n_rdm2'oovv (Plain (Copy (T 4)));
  (*254*) AddTo n_rdm2'oovv (Times (Transpose (T 4) [0;1;3;2]) (-1) 1);
  (*255*) Del (T 4);
  (*256*) AddTo n_rdm2'oovv (Times (Copy (T 6)) (-1) 2);
  (*257*) AddTo n_rdm2'oovv (Times (Transpose (T 6) [0;1;3;2]) (1) 2);
  (*258*) Del (T 6);
  (*259*) AddTo n_rdm2'oovv (Times (Transpose (T 7) [0;1;3;2]) (1) 2);
  (*260*) AddTo n_rdm2'oovv (Times (Transpose (T 7) [1;0;3;2]) (-1) 2);
  (*261*) Del (T 7);
  (*262*) Assign n_rdm2'oooo (Times (Transpose (T 1) [3;2;1;0]) (1) 2);
  (*263*) Del (T 1);
  (*264*) AddTo n_rdm2'oooo (Times (Einsum [(T 2,[0;1]); (n_delta'oo,[2;3])] [1;2;0;3]) (-1) 2);
  (*265*) AddTo n_rdm2'oooo (Times (Einsum [(T 2,[0;1]); (n_delta'oo,[2;3])] [2;1;0;3]) (1) 2);
  (*266*) AddTo n_rdm2'oooo (Times (Einsum [(n_delta'oo,[0;1]); (T 2,[2;3])] [3;0;1;2]) (1) 2);
  (*267*) AddTo n_rdm2'oooo (Times (Einsum [(n_delta'oo,[0;1]); (T 2,[2;3])] [0;3;1;2]) (-1) 2);
  (*268*) Del (T 2);
  (*269*) AddTo n_rdm2'oooo (Plain (Einsum [(n_delta'oo,[0;1]); (n_delta'oo,[2;3])] [2;0;3;1]));
  (*270*) AddTo n_rdm2'oooo (Times (Einsum [(n_delta'oo,[0;1]); (n_delta'oo,[2;3])] [0;2;3;1]) (-1) 1);
  (*271*) Del n_delta'oo;
  (*271*) Del n_delta'vv;
  (*272*) Assign n_rdm2'ooov (Plain (Zeros [0;0;0;1]));
  (*273*) Assign n_rdm2'oovo (Plain (Zeros [0;0;1;0]));
  (*274*) Assign n_rdm2'ovoo (Plain (Zeros [0;1;0;0]));
  (*275*) Assign n_rdm2'vooo (Plain (Zeros [1;0;0;0]));
  (*276*) Assign n_rdm2'ovvv (Plain (Zeros [0;1;1;1]));
  (*277*) Assign n_rdm2'vovv (Plain (Zeros [1;0;1;1]));
  (*278*) Assign n_rdm2'vvov (Plain (Zeros [1;1;0;1]));
  (*279*) Assign n_rdm2'vvvo (Plain (Zeros [1;1;1;0]))]
 [(n_rdm2'oooo,[0;0;0;0]); (n_rdm2'ooov,[0;0;0;1]); (n_rdm2'oovo,[0;0;1;0]); (n_rdm2'ovoo,[0;1;0;0]); (n_rdm2'vooo,[1;0;0;0]); (n_rdm2'oovv,[0;0;1;1]); (n_rdm2'ovov,[0;1;0;1]); (n_rdm2'ovvo,[0;1;1;0]); (n_rdm2'voov,[1;0;0;1]); (n_rdm2'vovo,[1;0;1;0]); (n_rdm2'vvoo,[1;1;0;0]); (n_rdm2'ovvv,[0;1;1;1]); (n_rdm2'vovv,[1;0;1;1]); (n_rdm2'vvov,[1;1;0;1]); (n_rdm2'vvvo,[1;1;1;0]); (n_rdm2'vvvv,[1;1;1;1])].

(** ebcc/codegen/GCCD.py:285-323 [hbar_matvec_ip_intermediates] *)
Definition GCCD_hbar_matvec_ip_intermediates : prog := mkprog
 [(n_t2,[0;0;1;1]); (n_v'oovv,[0;0;1;1]); (n_v'ovvv,[0;1;1;1]); (n_v'ooov,[0;0;0;1]); (n_v'ovoo,[0;1;0;0]); (n_f'ov,[0;1])]
 [(*312*) Assign (T 14) (Plain (Einsum [(n_t2,[0;1;2;3]); (n_v'oovv,[4;1;5;3])] [0;4;2;5]));
  (*313*) Assign (T 13) (Plain (Einsum [(n_t2,[0;1;2;3]); (n_v'oovv,[0;1;4;3])] [2;4]));
  (*314*) Assign (T 12) (Plain (Einsum [(n_v'oovv,[0;1;2;3]); (n_t2,[4;5;2;3])] [4;5;0;1]));
  (*315*) Assign (T 10) (Plain (Einsum [(n_v'ovvv,[0;1;2;3]); (n_t2,[4;5;2;3])] [4;5;0;1]));
  (*316*) Assign (T 9) (Plain (Einsum [(n_t2,[0;1;2;3]); (n_v'ovvv,[1;4;2;3])] [0;4]));
  (*317*) Assign (T 7) (Plain (Einsum [(n_t2,[0;1;2;3]); (n_v'ooov,[4;1;5;3])] [0;4;5;2]));
  (*318*) Assign (T 6) (Plain (Einsum [(n_t2,[0;1;2;3]); (n_v'ovoo,[4;3;0;1])] [4;2]));
  (*319*) Assign (T 4) (Plain (Einsum [(n_f'ov,[0;1]); (n_t2,[2;3;4;1])] [0;2;3;4]));
  (*320*) Assign (T 3) (Plain (Einsum [(n_f'ov,[0;1]); (n_t2,[2;0;3;1])] [2;3]));
  (*321*) Assign (T 1) (Plain (Einsum [(n_v'oovv,[0;1;2;3]); (n_t2,[4;1;2;3])] [4;0]))]
 [(T 1,[0;0]); (T 12,[0;0;0;0]); (T 13,[1;1]); (T 14,[0;0;1;1]); (T 3,[0;1]); (T 4,[0;0;0;1]); (T 6,[0;1]); (T 7,[0;0;0;1]); (T 9,[0;1]); (T 10,[0;0;0;1])].

(** ebcc/codegen/GCCD.py:325-412 [hbar_matvec_ip] *)
Definition GCCD_hbar_matvec_ip : prog := mkprog
 [(n_r1,[0]); (IT 7,[0;0;0;1]); (n_f'oo,[0;0]); (n_r2,[0;0;1]); (IT 14,[0;0;1;1]); (n_v'ovov,[0;1;0;1]); (IT 1,[0;0]); (n_v'oovv,[0;0;1;1]); (n_f'ov,[0;1]); (IT 3,[0;1]); (IT 6,[0;1]); (IT 9,[0;1]); (n_f'vv,[1;1]); (IT 13,[1;1]); (IT 10,[0;0;0;1]); (n_v'ovoo,[0;1;0;0]); (IT 4,[0;0;0;1]); (IT 12,[0;0;0;0]); (n_v'oooo,[0;0;0;0]); (n_t2,[0;0;1;1])]
 [(*351*) Assign (T 4) (Plain (Einsum [(n_r1,[0]); (IT 7,[1;0;2;3])] [1;2;3]));
  (*352*) Del (IT 7);
  (*353*) Assign (T 3) (Plain (Einsum [(n_f'oo,[0;1]); (n_r2,[2;1;3])] [0;2;3]));
  (*354*) Assign (T 7) (Plain (Einsum [(IT 14,[0;1;2;3]); (n_r2,[4;1;3])] [0;4;2]));
  (*355*) Del (IT 14);
  (*356*) Assign (T 8) (Plain (Einsum [(n_v'ovov,[0;1;2;3]); (n_r2,[4;2;1])] [4;0;3]));
  (*357*) Assign (T 6) (Plain (Einsum [(IT 1,[0;1]); (n_r2,[2;1;3])] [0;2;3]));
  (*358*) Assign (T 2) (Plain (Einsum [(n_r2,[0;1;2]); (n_v'oovv,[0;1;3;2])] [3]));
  (*359*) Assign (T 5) (Plain (Copy (T 3)));
  (*360*) Del (T 3);
  (*361*) AddTo (T 5) (Plain (Copy (T 4)));
  (*362*) Del (T 4);
  (*363*) Assign (T 13) (Plain (Copy n_f'ov));
  (*364*) AddTo (T 13) (Plain (Copy (IT 3)));
  (*365*) Del (IT 3);
  (*366*) AddTo (T 13) (Times (Copy (IT 6)) (-1) 2);
  (*367*) Del (IT 6);
  (*368*) AddTo (T 13) (Times (Copy (IT 9)) (-1) 2);
  (*369*) Del (IT 9);
  (*370*) Assign (T 9) (Times (Copy (T 6)) (-1) 2);
  (*371*) Del (T 6);
  (*372*) AddTo (T 9) (Plain (Copy (T 7)));
  (*373*) Del (T 7);
  (*374*) AddTo (T 9) (Plain (Copy (T 8)));
  (*375*) Del (T 8);
  (*376*) Assign (T 11) (Plain (Copy n_f'vv));
  (*377*) AddTo (T 11) (Times (Transpose (IT 13) [1;0]) (-1) 2);
  (*378*) Del (IT 13);
  (*379*) Assign (T 12) (Times (Transpose (IT 10) [2;0;1;3]) (1) 2);
  (*380*) Del (IT 10);
  (*381*) AddTo (T 12) (Plain (Transpose n_v'ovoo [0;2;3;1]));
  (*382*) AddTo (T 12) (Times (Copy (IT 4)) (-1) 1);
  (*383*) Del (IT 4);
  (*384*) Assign (T 10) (Times (Copy (IT 12)) (1) 2);
  (*385*) Del (IT 12);
  (*386*) AddTo (T 10) (Plain (Copy n_v'oooo));
  (*387*) Assign (T 1) (Times (Copy n_f'oo) (2) 1);
  (*388*) AddTo (T 1) (Plain (Transpose (IT 1) [1;0]));
  (*389*) Del (IT 1);
  (*390*) Assign n_r2new (Times (Einsum [(T 2,[0]); (n_t2,[1;2;3;0])] [1;2;3]) (1) 2);
  (*391*) Del (T 2);
  (*392*) AddTo n_r2new (Plain (Copy (T 5)));
  (*393*) AddTo n_r2new (Times (Transpose (T 5) [1;0;2]) (-1) 1);
  (*394*) Del (T 5);
  (*395*) AddTo n_r2new (Times (Copy (T 9)) (-1) 1);
  (*396*) AddTo n_r2new (Plain (Transpose (T 9) [1;0;2]));
  (*397*) Del (T 9);
  (*398*) AddTo n_r2new (Times (Einsum [(T 10,[0;1;2;3]); (n_r2,[2;3;4])] [0;1;4]) (1) 2);
  (*399*) Del (T 10);
  (*400*) AddTo n_r2new (Plain (Einsum [(n_r2,[0;1;2]); (T 11,[2;3])] [0;1;3]));
  (*401*) Del (T 11);
  (*402*) AddTo n_r2new (Plain (Einsum [(n_r1,[0]); (T 12,[0;1;2;3])] [2;1;3]));
  (*403*) Del (T 12);
  (*404*) AddTo n_r2new (Plain (Einsum [(T 13,[0;1]); (n_r1,[2])] [2;0;1]));
  (*405*) AddTo n_r2new (Times (Einsum [(n_r1,[0]); (T 13,[1;2])] [1;0;2]) (-1) 1);
  (*406*) Del (T 13);
  (*407*) Assign n_r1new (Times (Einsum [(n_r2,[0;1;2]); (n_v'ovoo,[3;2;0;1])] [3]) (-1) 2);
  (*408*) AddTo n_r1new (Plain (Einsum [(n_r2,[0;1;2]); (n_f'ov,[1;2])] [0]));
  (*409*) AddTo n_r1new (Times (Einsum [(T 1,[0;1]); (n_r1,[0])] [1]) (-1) 2);
  (*410*) Del (T 1)]
 [(n_r1new,[0]); (n_r2new,[0;0;1])].

(** ebcc/codegen/GCCD.py:414-448 [hbar_matvec_ea_intermediates] *)
Definition GCCD_hbar_matvec_ea_intermediates : prog := mkprog
 [(n_t2,[0;0;1;1]); (n_v'oovv,[0;0;1;1]); (n_v'ovvv,[0;1;1;1]); (n_v'ovoo,[0;1;0;0]); (n_f'ov,[0;1])]
 [(*439*) Assign (T 13) (Plain (Einsum [(n_t2,[0;1;2;3]); (n_v'oovv,[4;1;5;3])] [0;4;2;5]));
  (*440*) Assign (T 11) (Plain (Einsum [(n_v'oovv,[0;1;2;3]); (n_t2,[4;1;2;3])] [4;0]));
  (*441*) Assign (T 9) (Plain (Einsum [(n_t2,[0;1;2;3]); (n_v'ovvv,[1;4;5;3])] [0;2;4;5]));
  (*442*) Assign (T 8) (Plain (Einsum [(n_t2,[0;1;2;3]); (n_v'ovvv,[1;4;2;3])] [0;4]));
  (*443*) Assign (T 7) (Plain (Einsum [(n_t2,[0;1;2;3]); (n_v'ovoo,[4;5;0;1])] [4;2;3;5]));
  (*444*) Assign (T 6) (Plain (Einsum [(n_t2,[0;1;2;3]); (n_v'ovoo,[4;3;0;1])] [4;2]));
  (*445*) Assign (T 3) (Plain (Einsum [(n_f'ov,[0;1]); (n_t2,[2;0;3;1])] [2;3]));
  (*446*) Assign (T 1) (Plain (Einsum [(n_t2,[0;1;2;3]); (n_v'oovv,[0;1;4;3])] [2;4]))]
 [(T 1,[1;1]); (T 11,[0;0]); (T 13,[0;0;1;1]); (T 3,[0;1]); (T 6,[0;1]); (T 7,[0;1;1;1]); (T 8,[0;1]); (T 9,[0;1;1;1])].

(** ebcc/codegen/GCCD.py:450-533 [hbar_matvec_ea] *)
Definition GCCD_hbar_matvec_ea : prog := mkprog
 [(n_f'vv,[1;1]); (IT 1,[1;1]); (n_r2,[1;1;0]); (n_v'ovov,[0;1;0;1]); (IT 13,[0;0;1;1]); (n_v'oovv,[0;0;1;1]); (n_f'oo,[0;0]); (IT 11,[0;0]); (n_r1,[1]); (IT 9,[0;1;1;1]); (n_f'ov,[0;1]); (IT 3,[0;1]); (IT 6,[0;1]); (IT 8,[0;1]); (IT 7,[0;1;1;1]); (n_v'ovvv,[0;1;1;1]); (n_t2,[0;0;1;1]); (n_v'vvvv,[1;1;1;1])]
 [(*476*) Assign (T 6) (Times (Copy n_f'vv) (2) 1);
  (*477*) AddTo (T 6) (Times (Transpose (IT 1) [1;0]) (-1) 1);
  (*478*) Assign (T 7) (Times (Einsum [(T 6,[0;1]); (n_r2,[2;0;3])] [3;2;1]) (-1) 2);
  (*479*) Del (T 6);
  (*480*) Assign (T 5) (Plain (Einsum [(n_r2,[0;1;2]); (n_v'ovov,[3;1;2;4])] [3;0;4]));
  (*481*) Assign (T 4) (Plain (Einsum [(IT 13,[0;1;2;3]); (n_r2,[4;3;1])] [0;2;4]));
  (*482*) Del (IT 13);
  (*483*) Assign (T 2) (Plain (Einsum [(n_v'oovv,[0;1;2;3]); (n_r2,[2;3;4])] [4;0;1]));
  (*484*) Assign (T 11) (Plain (Copy n_f'oo));
  (*485*) AddTo (T 11) (Times (Transpose (IT 11) [1;0]) (1) 2);
  (*486*) Del (IT 11);
  (*487*) Assign (T 3) (Plain (Einsum [(n_r1,[0]); (IT 9,[1;2;3;0])] [1;2;3]));
  (*488*) Del (IT 9);
  (*489*) Assign (T 12) (Plain (Copy n_f'ov));
  (*490*) AddTo (T 12) (Plain (Copy (IT 3)));
  (*491*) Del (IT 3);
  (*492*) AddTo (T 12) (Times (Copy (IT 6)) (-1) 2);
  (*493*) Del (IT 6);
  (*494*) AddTo (T 12) (Times (Copy (IT 8)) (-1) 2);
  (*495*) Del (IT 8);
  (*496*) Assign (T 10) (Plain (Einsum [(n_r1,[0]); (n_f'ov,[1;0])] [1]));
  (*497*) AddTo (T 10) (Times (Einsum [(n_v'oovv,[0;1;2;3]); (n_r2,[2;3;1])] [0]) (1) 2);
  (*498*) Assign (T 9) (Times (Copy (IT 7)) (1) 2);
  (*499*) Del (IT 7);
  (*500*) AddTo (T 9) (Plain (Transpose n_v'ovvv [0;2;3;1]));
  (*501*) Assign (T 8) (Plain (Copy (T 4)));
  (*502*) Del (T 4);
  (*503*) AddTo (T 8) (Plain (Copy (T 5)));
  (*504*) Del (T 5);
  (*505*) AddTo (T 8) (Times (Transpose (T 7) [0;2;1]) (-1) 1);
  (*506*) Del (T 7);
  (*507*) Assign (T 1) (Plain (Copy n_f'vv));
  (*508*) AddTo (T 1) (Times (Transpose (IT 1) [1;0]) (-1) 2);
  (*509*) Del (IT 1);
  (*510*) Assign n_r2new (Times (Einsum [(T 2,[0;1;2]); (n_t2,[2;1;3;4])] [3;4;0]) (-1) 4);
  (*511*) Del (T 2);
  (*512*) AddTo n_r2new (Times (Einsum [(n_r2,[0;1;2]); (n_v'vvvv,[3;4;0;1])] [3;4;2]) (1) 2);
  (*513*) AddTo n_r2new (Plain (Transpose (T 3) [1;2;0]));
  (*514*) AddTo n_r2new (Times (Transpose (T 3) [2;1;0]) (-1) 1);
  (*515*) Del (T 3);
  (*516*) AddTo n_r2new (Times (Transpose (T 8) [1;2;0]) (-1) 1);
  (*517*) AddTo n_r2new (Plain (Transpose (T 8) [2;1;0]));
  (*518*) Del (T 8);
  (*519*) AddTo n_r2new (Plain (Einsum [(n_r1,[0]); (T 9,[1;2;3;0])] [3;2;1]));
  (*520*) Del (T 9);
  (*521*) AddTo n_r2new (Plain (Einsum [(T 10,[0]); (n_t2,[1;0;2;3])] [2;3;1]));
  (*522*) Del (T 10);
  (*523*) AddTo n_r2new (Times (Einsum [(T 11,[0;1]); (n_r2,[2;3;0])] [2;3;1]) (-1) 1);
  (*524*) Del (T 11);
  (*525*) AddTo n_r2new (Plain (Einsum [(T 12,[0;1]); (n_r1,[2])] [2;1;0]));
  (*526*) AddTo n_r2new (Times (Einsum [(T 12,[0;1]); (n_r1,[2])] [1;2;0]) (-1) 1);
  (*527*) Del (T 12);
  (*528*) Assign n_r1new (Times (Einsum [(n_v'ovvv,[0;1;2;3]); (n_r2,[2;3;0])] [1]) (-1) 2);
  (*529*) AddTo n_r1new (Plain (Einsum [(n_f'ov,[0;1]); (n_r2,[2;1;0])] [2]));
  (*530*) AddTo n_r1new (Plain (Einsum [(T 1,[0;1]); (n_r1,[0])] [1]));
  (*531*) Del (T 1)]
 [(n_r1new,[1]); (n_r2new,[1;1;0])].

(** ebcc/codegen/GCCD.py:535-577 [hbar_matvec_ee_intermediates] *)
Definition GCCD_hbar_matvec_ee_intermediates : prog := mkprog
 [(n_t2,[0;0;1;1]); (n_v'oovv,[0;0;1;1]); (n_v'ovvv,[0;1;1;1]); (n_v'ovoo,[0;1;0;0]); (n_v'ooov,[0;0;0;1]); (n_f'ov,[0;1])]
 [(*564*) Assign (T 31) (Plain (Einsum [(n_t2,[0;1;2;3]); (n_v'oovv,[4;1;5;3])] [0;4;2;5]));
  (*565*) Assign (T 29) (Plain (Einsum [(n_v'oovv,[0;1;2;3]); (n_t2,[4;5;2;3])] [4;5;0;1]));
  (*566*) Assign (T 24) (Plain (Einsum [(n_t2,[0;1;2;3]); (n_v'ovvv,[1;4;5;3])] [0;2;4;5]));
  (*567*) Assign (T 22) (Plain (Einsum [(n_v'ovvv,[0;1;2;3]); (n_t2,[4;5;2;3])] [4;5;0;1]));
  (*568*) Assign (T 21) (Plain (Einsum [(n_t2,[0;1;2;3]); (n_v'ovvv,[1;4;2;3])] [0;4]));
  (*569*) Assign (T 17) (Plain (Einsum [(n_t2,[0;1;2;3]); (n_v'ovoo,[4;5;0;1])] [4;2;3;5]));
  (*570*) Assign (T 15) (Plain (Einsum [(n_t2,[0;1;2;3]); (n_v'ooov,[4;1;5;3])] [0;4;5;2]));
  (*571*) Assign (T 14) (Plain (Einsum [(n_t2,[0;1;2;3]); (n_v'ovoo,[4;3;0;1])] [4;2]));
  (*572*) Assign (T 7) (Plain (Einsum [(n_f'ov,[0;1]); (n_t2,[2;3;4;1])] [0;2;3;4]));
  (*573*) Assign (T 6) (Plain (Einsum [(n_f'ov,[0;1]); (n_t2,[2;0;3;1])] [2;3]));
  (*574*) Assign (T 2) (Plain (Einsum [(n_t2,[0;1;2;3]); (n_v'oovv,[0;1;4;3])] [2;4]));
  (*575*) Assign (T 1) (Plain (Einsum [(n_v'oovv,[0;1;2;3]); (n_t2,[4;1;2;3])] [4;0]))]
 [(T 1,[0;0]); (T 2,[1;1]); (T 14,[0;1]); (T 15,[0;0;0;1]); (T 17,[0;1;1;1]); (T 21,[0;1]); (T 22,[0;0;0;1]); (T 24,[0;1;1;1]); (T 29,[0;0;0;0]); (T 31,[0;0;1;1]); (T 6,[0;1]); (T 7,[0;0;0;1])].

(** ebcc/codegen/GCCD.py:579-740 [hbar_matvec_ee] *)
Definition GCCD_hbar_matvec_ee : prog := mkprog
 [(n_r1,[0;1]); (n_f'ov,[0;1]); (n_v'oovv,[0;0;1;1]); (n_r2,[0;0;1;1]); (n_f'oo,[0;0]); (IT 1,[0;0]); (n_v'ooov,[0;0;0;1]); (n_t2,[0;0;1;1]); (IT 7,[0;0;0;1]); (n_v'ovov,[0;1;0;1]); (IT 15,[0;0;0;1]); (IT 31,[0;0;1;1]); (IT 24,[0;1;1;1]); (n_f'vv,[1;1]); (IT 17,[0;1;1;1]); (n_v'ovvv,[0;1;1;1]); (IT 22,[0;0;0;1]); (IT 2,[1;1]); (IT 6,[0;1]); (IT 14,[0;1]); (IT 21,[0;1]); (IT 29,[0;0;0;0]); (n_v'oooo,[0;0;0;0]); (n_v'vvvv,[1;1;1;1]); (n_v'ovoo,[0;1;0;0])]
 [(*605*) Assign (T 20) (Plain (Einsum [(n_r1,[0;1]); (n_f'ov,[2;1])] [2;0]));
  (*606*) Assign (T 21) (Plain (Einsum [(n_v'oovv,[0;1;2;3]); (n_r2,[4;1;2;3])] [4;0]));
  (*607*) Assign (T 11) (Plain (Einsum [(n_r2,[0;1;2;3]); (n_v'oovv,[0;1;4;3])] [2;4]));
  (*608*) Assign (T 18) (Times (Copy n_f'oo) (2) 1);
  (*609*) AddTo (T 18) (Plain (Transpose (IT 1) [1;0]));
  (*610*) Assign (T 22) (Plain (Transpose (T 20) [1;0]));
  (*611*) Del (T 20);
  (*612*) AddTo (T 22) (Times (Copy (T 21)) (1) 2);
  (*613*) Del (T 21);
  (*614*) Assign (T 31) (Plain (Einsum [(n_v'ooov,[0;1;2;3]); (n_r1,[1;3])] [0;2]));
  (*615*) Assign (T 12) (Times (Einsum [(T 11,[0;1]); (n_t2,[2;3;4;1])] [2;3;0;4]) (-1) 1);
  (*616*) Del (T 11);
  (*617*) Assign (T 10) (Plain (Einsum [(n_r1,[0;1]); (IT 7,[0;2;3;4])] [2;3;4;1]));
  (*618*) Del (IT 7);
  (*619*) Assign (T 7) (Plain (Einsum [(n_v'ovov,[0;1;2;3]); (n_r2,[4;2;5;1])] [4;0;5;3]));
  (*620*) Assign (T 5) (Plain (Einsum [(n_r1,[0;1]); (IT 15,[2;0;3;4])] [2;3;4;1]));
  (*621*) Del (IT 15);
  (*622*) Assign (T 8) (Plain (Einsum [(n_r2,[0;1;2;3]); (IT 31,[4;1;5;3])] [4;0;5;2]));
  (*623*) Del (IT 31);
  (*624*) Assign (T 6) (Plain (Einsum [(IT 24,[0;1;2;3]); (n_r1,[4;3])] [0;4;1;2]));
  (*625*) Del (IT 24);
  (*626*) Assign (T 15) (Plain (Einsum [(n_f'vv,[0;1]); (n_r2,[2;3;4;1])] [2;3;0;4]));
  (*627*) Assign (T 14) (Plain (Einsum [(n_v'ooov,[0;1;2;3]); (n_r1,[2;4])] [0;1;4;3]));
  (*628*) Assign (T 17) (Plain (Einsum [(IT 17,[0;1;2;3]); (n_r1,[4;3])] [0;4;1;2]));
  (*629*) Del (IT 17);
  (*630*) Assign (T 19) (Times (Einsum [(T 18,[0;1]); (n_r2,[2;0;3;4])] [2;1;3;4]) (-1) 2);
  (*631*) Del (T 18);
  (*632*) Assign (T 23) (Times (Einsum [(T 22,[0;1]); (n_t2,[2;1;3;4])] [2;0;3;4]) (-1) 1);
  (*633*) Del (T 22);
  (*634*) Assign (T 28) (Plain (Einsum [(n_v'ovvv,[0;1;2;3]); (n_r1,[0;3])] [1;2]));
  (*635*) Assign (T 30) (Plain (Einsum [(n_v'ovvv,[0;1;2;3]); (n_r1,[4;1])] [4;0;2;3]));
  (*636*) Assign (T 32) (Times (Einsum [(T 31,[0;1]); (n_t2,[2;0;3;4])] [2;1;3;4]) (-1) 1);
  (*637*) Del (T 31);
  (*638*) Assign (T 25) (Plain (Einsum [(n_r1,[0;1]); (IT 22,[2;3;0;4])] [2;3;4;1]));
  (*639*) Del (IT 22);
  (*640*) Assign (T 26) (Plain (Einsum [(n_r2,[0;1;2;3]); (IT 2,[4;3])] [0;1;4;2]));
  (*641*) Assign (T 13) (Plain (Copy (T 10)));
  (*642*) Del (T 10);
  (*643*) AddTo (T 13) (Times (Copy (T 12)) (1) 2);
  (*644*) Del (T 12);
  (*645*) Assign (T 4) (Plain (Einsum [(n_v'oovv,[0;1;2;3]); (n_r2,[4;5;2;3])] [4;5;0;1]));
  (*646*) Assign (T 9) (Plain (Copy (T 5)));
  (*647*) Del (T 5);
  (*648*) AddTo (T 9) (Plain (Copy (T 6)));
  (*649*) Del (T 6);
  (*650*) AddTo (T 9) (Plain (Copy (T 7)));
  (*651*) Del (T 7);
  (*652*) AddTo (T 9) (Times (Copy (T 8)) (-1) 1);
  (*653*) Del (T 8);
  (*654*) Assign (T 16) (Times (Transpose (T 14) [1;0;2;3]) (-1) 1);
  (*655*) Del (T 14);
  (*656*) AddTo (T 16) (Times (Transpose (T 15) [1;0;2;3]) (-1) 1);
  (*657*) Del (T 15);
  (*658*) Assign (T 24) (Times (Transpose (T 17) [0;1;3;2]) (-1) 2);
  (*659*) Del (T 17);
  (*660*) AddTo (T 24) (Plain (Transpose (T 19) [1;0;3;2]));
  (*661*) Del (T 19);
  (*662*) AddTo (T 24) (Plain (Transpose (T 23) [1;0;3;2]));
  (*663*) Del (T 23);
  (*664*) Assign (T 35) (Plain (Copy n_f'ov));
  (*665*) AddTo (T 35) (Plain (Copy (IT 6)));
  (*666*) AddTo (T 35) (Times (Copy (IT 14)) (-1) 2);
  (*667*) AddTo (T 35) (Times (Copy (IT 21)) (-1) 2);
  (*668*) Assign (T 29) (Times (Einsum [(n_t2,[0;1;2;3]); (T 28,[4;3])] [0;1;2;4]) (-1) 1);
  (*669*) Del (T 28);
  (*670*) Assign (T 34) (Plain (Copy (IT 29)));
  (*671*) Del (IT 29);
  (*672*) AddTo (T 34) (Times (Copy n_v'oooo) (2) 1);
  (*673*) Assign (T 33) (Times (Transpose (T 30) [0;1;3;2]) (-1) 1);
  (*674*) Del (T 30);
  (*675*) AddTo (T 33) (Plain (Transpose (T 32) [0;1;3;2]));
  (*676*) Del (T 32);
  (*677*) Assign (T 36) (Times (Copy n_f'ov) (2) 1);
  (*678*) AddTo (T 36) (Times (Copy (IT 6)) (2) 1);
  (*679*) Del (IT 6);
  (*680*) AddTo (T 36) (Times (Copy (IT 14)) (-1) 1);
  (*681*) Del (IT 14);
  (*682*) AddTo (T 36) (Times (Copy (IT 21)) (-1) 1);
  (*683*) Del (IT 21);
  (*684*) Assign (T 27) (Times (Copy (T 25)) (1) 2);
  (*685*) Del (T 25);
  (*686*) AddTo (T 27) (Times (Transpose (T 26) [1;0;2;3]) (-1) 2);
  (*687*) Del (T 26);
  (*688*) Assign (T 2) (Plain (Copy n_f'vv));
  (*689*) AddTo (T 2) (Times (Transpose (IT 2) [1;0]) (-1) 2);
  (*690*) Del (IT 2);
  (*691*) Assign (T 3) (Plain (Copy n_f'oo));
  (*692*) AddTo (T 3) (Times (Transpose (IT 1) [1;0]) (1) 2);
  (*693*) Del (IT 1);
  (*694*) Assign (T 1) (Plain (Einsum [(n_v'oovv,[0;1;2;3]); (n_r1,[1;3])] [0;2]));
  (*695*) Assign n_r2new (Times (Einsum [(n_v'vvvv,[0;1;2;3]); (n_r2,[4;5;2;3])] [4;5;0;1]) (1) 2);
  (*696*) AddTo n_r2new (Times (Einsum [(T 4,[0;1;2;3]); (n_t2,[3;2;4;5])] [1;0;4;5]) (1) 4);
  (*697*) Del (T 4);
  (*698*) AddTo n_r2new (Times (Copy (T 9)) (-1) 1);
  (*699*) AddTo n_r2new (Plain (Transpose (T 9) [0;1;3;2]));
  (*700*) AddTo n_r2new (Plain (Transpose (T 9) [1;0;2;3]));
  (*701*) AddTo n_r2new (Times (Transpose (T 9) [1;0;3;2]) (-1) 1);
  (*702*) Del (T 9);
  (*703*) AddTo n_r2new (Times (Copy (T 13)) (-1) 1);
  (*704*) AddTo n_r2new (Plain (Transpose (T 13) [0;1;3;2]));
  (*705*) Del (T 13);
  (*706*) AddTo n_r2new (Times (Copy (T 16)) (-1) 1);
  (*707*) AddTo n_r2new (Plain (Transpose (T 16) [0;1;3;2]));
  (*708*) Del (T 16);
  (*709*) AddTo n_r2new (Plain (Copy (T 24)));
  (*710*) AddTo n_r2new (Times (Transpose (T 24) [1;0;2;3]) (-1) 1);
  (*711*) Del (T 24);
  (*712*) AddTo n_r2new (Times (Transpose (T 27) [1;0;2;3]) (-1) 1);
  (*713*) AddTo n_r2new (Plain (Transpose (T 27) [1;0;3;2]));
  (*714*) Del (T 27);
  (*715*) AddTo n_r2new (Plain (Copy (T 29)));
  (*716*) AddTo n_r2new (Times (Transpose (T 29) [0;1;3;2]) (-1) 1);
  (*717*) Del (T 29);
  (*718*) AddTo n_r2new (Times (Copy (T 33)) (-1) 1);
  (*719*) AddTo n_r2new (Plain (Transpose (T 33) [1;0;2;3]));
  (*720*) Del (T 33);
  (*721*) AddTo n_r2new (Times (Einsum [(n_r2,[0;1;2;3]); (T 34,[4;5;0;1])] [4;5;2;3]) (1) 4);
  (*722*) Del (T 34);
  (*723*) AddTo n_r2new (Plain (Einsum [(T 35,[0;1]); (n_r1,[2;3])] [0;2;1;3]));
  (*724*) AddTo n_r2new (Plain (Einsum [(n_r1,[0;1]); (T 35,[2;3])] [0;2;1;3]));
  (*725*) AddTo n_r2new (Times (Einsum [(n_r1,[0;1]); (T 36,[2;3])] [0;2;3;1]) (-1) 2);
  (*726*) Del (T 36);
  (*727*) AddTo n_r2new (Times (Einsum [(T 35,[0;1]); (n_r1,[2;3])] [0;2;3;1]) (-1) 1);
  (*728*) Del (T 35);
  (*729*) Assign n_r1new (Times (Einsum [(n_v'ovvv,[0;1;2;3]); (n_r2,[4;0;2;3])] [4;1]) (-1) 2);
  (*730*) AddTo n_r1new (Plain (Einsum [(n_t2,[0;1;2;3]); (T 1,[1;3])] [0;2]));
  (*731*) Del (T 1);
  (*732*) AddTo n_r1new (Times (Einsum [(n_r2,[0;1;2;3]); (n_v'ovoo,[4;3;0;1])] [4;2]) (-1) 2);
  (*733*) AddTo n_r1new (Plain (Einsum [(n_r2,[0;1;2;3]); (n_f'ov,[1;3])] [0;2]));
  (*734*) AddTo n_r1new (Times (Einsum [(n_v'ovov,[0;1;2;3]); (n_r1,[2;1])] [0;3]) (-1) 1);
  (*735*) AddTo n_r1new (Plain (Einsum [(n_r1,[0;1]); (T 2,[1;2])] [0;2]));
  (*736*) Del (T 2);
  (*737*) AddTo n_r1new (Times (Einsum [(T 3,[0;1]); (n_r1,[0;2])] [1;2]) (-1) 1);
  (*738*) Del (T 3)]
 [(n_r1new,[0;1]); (n_r2new,[0;0;1;1])].

(** ebcc/codegen/GCCD.py:742-780 [hbar_lmatvec_ip_intermediates] *)
Definition GCCD_hbar_lmatvec_ip_intermediates : prog := mkprog
 [(n_t2,[0;0;1;1]); (n_v'oovv,[0;0;1;1]); (n_v'ovvv,[0;1;1;1]); (n_v'ooov,[0;0;0;1]); (n_v'ovoo,[0;1;0;0]); (n_f'ov,[0;1])]
 [(*769*) Assign (T 13) (Plain (Einsum [(n_t2,[0;1;2;3]); (n_v'oovv,[4;1;5;3])] [0;4;2;5]));
  (*770*) Assign (T 12) (Plain (Einsum [(n_t2,[0;1;2;3]); (n_v'oovv,[0;1;4;3])] [2;4]));
  (*771*) Assign (T 11) (Plain (Einsum [(n_v'oovv,[0;1;2;3]); (n_t2,[4;5;2;3])] [4;5;0;1]));
  (*772*) Assign (T 7) (Plain (Einsum [(n_v'ovvv,[0;1;2;3]); (n_t2,[4;5;2;3])] [4;5;0;1]));
  (*773*) Assign (T 6) (Plain (Einsum [(n_t2,[0;1;2;3]); (n_v'ovvv,[1;4;2;3])] [0;4]));
  (*774*) Assign (T 5) (Plain (Einsum [(n_v'ooov,[0;1;2;3]); (n_t2,[4;1;5;3])] [4;0;2;5]));
  (*775*) Assign (T 4) (Plain (Einsum [(n_t2,[0;1;2;3]); (n_v'ovoo,[4;3;0;1])] [4;2]));
  (*776*) Assign (T 3) (Plain (Einsum [(n_v'oovv,[0;1;2;3]); (n_t2,[4;1;2;3])] [4;0]));
  (*777*) Assign (T 2) (Plain (Einsum [(n_f'ov,[0;1]); (n_t2,[2;3;4;1])] [0;2;3;4]));
  (*778*) Assign (T 1) (Plain (Einsum [(n_f'ov,[0;1]); (n_t2,[2;0;3;1])] [2;3]))]
 [(T 1,[0;1]); (T 2,[0;0;0;1]); (T 11,[0;0;0;0]); (T 12,[1;1]); (T 13,[0;0;1;1]); (T 3,[0;0]); (T 4,[0;1]); (T 5,[0;0;0;1]); (T 6,[0;1]); (T 7,[0;0;0;1])].

(** ebcc/codegen/GCCD.py:782-864 [hbar_lmatvec_ip] *)
Definition GCCD_hbar_lmatvec_ip : prog := mkprog
 [(IT 3,[0;0]); (n_r2,[0;0;1]); (IT 13,[0;0;1;1]); (n_v'ovov,[0;1;0;1]); (n_t2,[0;0;1;1]); (n_f'oo,[0;0]); (n_f'vv,[1;1]); (IT 12,[1;1]); (IT 11,[0;0;0;0]); (n_v'oooo,[0;0;0;0]); (n_r1,[0]); (n_f'ov,[0;1]); (IT 1,[0;1]); (IT 4,[0;1]); (IT 6,[0;1]); (IT 2,[0;0;0;1]); (IT 5,[0;0;0;1]); (IT 7,[0;0;0;1]); (n_v'ovoo,[0;1;0;0]); (n_v'oovv,[0;0;1;1]); (n_v'ooov,[0;0;0;1])]
 [(*808*) Assign (T 5) (Plain (Einsum [(IT 3,[0;1]); (n_r2,[2;0;3])] [1;2;3]));
  (*809*) Assign (T 6) (Plain (Einsum [(IT 13,[0;1;2;3]); (n_r2,[4;0;2])] [1;4;3]));
  (*810*) Del (IT 13);
  (*811*) Assign (T 7) (Plain (Einsum [(n_v'ovov,[0;1;2;3]); (n_r2,[4;2;1])] [4;0;3]));
  (*812*) Assign (T 4) (Plain (Einsum [(n_r2,[0;1;2]); (n_t2,[0;1;3;2])] [3]));
  (*813*) Assign (T 9) (Plain (Einsum [(n_f'oo,[0;1]); (n_r2,[2;1;3])] [0;2;3]));
  (*814*) Assign (T 11) (Plain (Copy n_f'vv));
  (*815*) AddTo (T 11) (Times (Copy (IT 12)) (-1) 2);
  (*816*) Del (IT 12);
  (*817*) Assign (T 10) (Times (Copy (IT 11)) (1) 2);
  (*818*) Del (IT 11);
  (*819*) AddTo (T 10) (Plain (Copy n_v'oooo));
  (*820*) Assign (T 8) (Plain (Einsum [(n_r1,[0]); (n_f'ov,[1;2])] [1;0;2]));
  (*821*) AddTo (T 8) (Times (Copy (T 5)) (-1) 2);
  (*822*) Del (T 5);
  (*823*) AddTo (T 8) (Plain (Copy (T 6)));
  (*824*) Del (T 6);
  (*825*) AddTo (T 8) (Plain (Copy (T 7)));
  (*826*) Del (T 7);
  (*827*) Assign (T 2) (Plain (Copy n_f'ov));
  (*828*) AddTo (T 2) (Plain (Copy (IT 1)));
  (*829*) Del (IT 1);
  (*830*) AddTo (T 2) (Times (Copy (IT 4)) (-1) 2);
  (*831*) Del (IT 4);
  (*832*) AddTo (T 2) (Times (Copy (IT 6)) (-1) 2);
  (*833*) Del (IT 6);
  (*834*) Assign (T 3) (Times (Copy n_f'oo) (2) 1);
  (*835*) AddTo (T 3) (Plain (Copy (IT 3)));
  (*836*) Del (IT 3);
  (*837*) Assign (T 1) (Times (Copy (IT 2)) (1) 2);
  (*838*) Del (IT 2);
  (*839*) AddTo (T 1) (Plain (Transpose (IT 5) [1;0;2;3]));
  (*840*) Del (IT 5);
  (*841*) AddTo (T 1) (Times (Transpose (IT 7) [2;0;1;3]) (-1) 4);
  (*842*) Del (IT 7);
  (*843*) AddTo (T 1) (Times (Transpose n_v'ovoo [0;2;3;1]) (-1) 2);
  (*844*) Assign n_r2new (Times (Einsum [(n_v'oovv,[0;1;2;3]); (T 4,[3])] [0;1;2]) (1) 2);
  (*845*) Del (T 4);
  (*846*) AddTo n_r2new (Times (Einsum [(n_r1,[0]); (n_v'ooov,[1;2;0;3])] [1;2;3]) (-1) 1);
  (*847*) AddTo n_r2new (Times (Copy (T 8)) (-1) 1);
  (*848*) AddTo n_r2new (Plain (Transpose (T 8) [1;0;2]));
  (*849*) Del (T 8);
  (*850*) AddTo n_r2new (Plain (Copy (T 9)));
  (*851*) AddTo n_r2new (Times (Transpose (T 9) [1;0;2]) (-1) 1);
  (*852*) Del (T 9);
  (*853*) AddTo n_r2new (Times (Einsum [(T 10,[0;1;2;3]); (n_r2,[0;1;4])] [2;3;4]) (1) 2);
  (*854*) Del (T 10);
  (*855*) AddTo n_r2new (Plain (Einsum [(n_r2,[0;1;2]); (T 11,[2;3])] [0;1;3]));
  (*856*) Del (T 11);
  (*857*) Assign n_r1new (Times (Einsum [(T 1,[0;1;2;3]); (n_r2,[2;1;3])] [0]) (-1) 1);
  (*858*) Del (T 1);
  (*859*) AddTo n_r1new (Plain (Einsum [(n_r2,[0;1;2]); (T 2,[1;2])] [0]));
  (*860*) Del (T 2);
  (*861*) AddTo n_r1new (Times (Einsum [(n_r1,[0]); (T 3,[0;1])] [1]) (-1) 2);
  (*862*) Del (T 3)]
 [(n_r1new,[0]); (n_r2new,[0;0;1])].

(** ebcc/codegen/GCCD.py:866-900 [hbar_lmatvec_ea_intermediates] *)
Definition GCCD_hbar_lmatvec_ea_intermediates : prog := mkprog
 [(n_t2,[0;0;1;1]); (n_v'oovv,[0;0;1;1]); (n_v'ovvv,[0;1;1;1]); (n_v'ovoo,[0;1;0;0]); (n_f'ov,[0;1])]
 [(*891*) Assign (T 12) (Plain (Einsum [(n_t2,[0;1;2;3]); (n_v'oovv,[4;1;5;3])] [0;4;2;5]));
  (*892*) Assign (T 10) (Plain (Einsum [(n_v'oovv,[0;1;2;3]); (n_t2,[4;1;2;3])] [4;0]));
  (*893*) Assign (T 7) (Plain (Einsum [(n_t2,[0;1;2;3]); (n_v'ovvv,[1;4;5;3])] [0;2;4;5]));
  (*894*) Assign (T 6) (Plain (Einsum [(n_t2,[0;1;2;3]); (n_v'ovvv,[1;4;2;3])] [0;4]));
  (*895*) Assign (T 5) (Plain (Einsum [(n_t2,[0;1;2;3]); (n_v'ovoo,[4;5;0;1])] [4;2;3;5]));
  (*896*) Assign (T 4) (Plain (Einsum [(n_t2,[0;1;2;3]); (n_v'ovoo,[4;3;0;1])] [4;2]));
  (*897*) Assign (T 3) (Plain (Einsum [(n_t2,[0;1;2;3]); (n_v'oovv,[0;1;4;3])] [2;4]));
  (*898*) Assign (T 1) (Plain (Einsum [(n_f'ov,[0;1]); (n_t2,[2;0;3;1])] [2;3]))]
 [(T 1,[0;1]); (T 12,[0;0;1;1]); (T 3,[1;1]); (T 4,[0;1]); (T 5,[0;1;1;1]); (T 6,[0;1]); (T 7,[0;1;1;1]); (T 10,[0;0])].

(** ebcc/codegen/GCCD.py:902-981 [hbar_lmatvec_ea] *)
Definition GCCD_hbar_lmatvec_ea : prog := mkprog
 [(n_f'vv,[1;1]); (IT 3,[1;1]); (n_r2,[1;1;0]); (IT 12,[0;0;1;1]); (n_v'ovov,[0;1;0;1]); (n_t2,[0;0;1;1]); (n_f'oo,[0;0]); (IT 10,[0;0]); (n_r1,[1]); (n_f'ov,[0;1]); (IT 7,[0;1;1;1]); (IT 5,[0;1;1;1]); (n_v'ovvv,[0;1;1;1]); (IT 1,[0;1]); (IT 4,[0;1]); (IT 6,[0;1]); (n_v'oovv,[0;0;1;1]); (n_v'vvvv,[1;1;1;1])]
 [(*928*) Assign (T 8) (Times (Copy n_f'vv) (2) 1);
  (*929*) AddTo (T 8) (Times (Copy (IT 3)) (-1) 1);
  (*930*) Assign (T 9) (Times (Einsum [(n_r2,[0;1;2]); (T 8,[1;3])] [2;0;3]) (-1) 2);
  (*931*) Del (T 8);
  (*932*) Assign (T 6) (Plain (Einsum [(n_r2,[0;1;2]); (IT 12,[2;3;1;4])] [3;4;0]));
  (*933*) Del (IT 12);
  (*934*) Assign (T 7) (Plain (Einsum [(n_r2,[0;1;2]); (n_v'ovov,[3;1;2;4])] [3;0;4]));
  (*935*) Assign (T 5) (Plain (Einsum [(n_r2,[0;1;2]); (n_t2,[3;4;0;1])] [2;3;4]));
  (*936*) Assign (T 11) (Plain (Copy n_f'oo));
  (*937*) AddTo (T 11) (Times (Copy (IT 10)) (1) 2);
  (*938*) Del (IT 10);
  (*939*) Assign (T 1) (Plain (Einsum [(n_r2,[0;1;2]); (n_t2,[3;2;0;1])] [3]));
  (*940*) Assign (T 10) (Plain (Einsum [(n_r1,[0]); (n_f'ov,[1;2])] [1;2;0]));
  (*941*) AddTo (T 10) (Plain (Copy (T 6)));
  (*942*) Del (T 6);
  (*943*) AddTo (T 10) (Plain (Copy (T 7)));
  (*944*) Del (T 7);
  (*945*) AddTo (T 10) (Times (Transpose (T 9) [0;2;1]) (-1) 1);
  (*946*) Del (T 9);
  (*947*) Assign (T 2) (Plain (Copy (IT 7)));
  (*948*) Del (IT 7);
  (*949*) AddTo (T 2) (Times (Copy (IT 5)) (-1) 4);
  (*950*) Del (IT 5);
  (*951*) AddTo (T 2) (Times (Transpose n_v'ovvv [0;2;3;1]) (-1) 2);
  (*952*) Assign (T 4) (Plain (Copy n_f'vv));
  (*953*) AddTo (T 4) (Times (Copy (IT 3)) (-1) 2);
  (*954*) Del (IT 3);
  (*955*) Assign (T 3) (Plain (Copy n_f'ov));
  (*956*) AddTo (T 3) (Plain (Copy (IT 1)));
  (*957*) Del (IT 1);
  (*958*) AddTo (T 3) (Times (Copy (IT 4)) (-1) 2);
  (*959*) Del (IT 4);
  (*960*) AddTo (T 3) (Times (Copy (IT 6)) (-1) 2);
  (*961*) Del (IT 6);
  (*962*) Assign n_r2new (Times (Einsum [(n_v'oovv,[0;1;2;3]); (T 5,[4;1;0])] [2;3;4]) (-1) 4);
  (*963*) Del (T 5);
  (*964*) AddTo n_r2new (Times (Einsum [(n_v'oovv,[0;1;2;3]); (T 1,[1])] [2;3;0]) (1) 2);
  (*965*) AddTo n_r2new (Times (Einsum [(n_r2,[0;1;2]); (n_v'vvvv,[3;4;0;1])] [3;4;2]) (1) 2);
  (*966*) AddTo n_r2new (Times (Einsum [(n_r1,[0]); (n_v'ovvv,[1;0;2;3])] [2;3;1]) (-1) 1);
  (*967*) AddTo n_r2new (Times (Transpose (T 10) [1;2;0]) (-1) 1);
  (*968*) AddTo n_r2new (Plain (Transpose (T 10) [2;1;0]));
  (*969*) Del (T 10);
  (*970*) AddTo n_r2new (Times (Einsum [(T 11,[0;1]); (n_r2,[2;3;0])] [2;3;1]) (-1) 1);
  (*971*) Del (T 11);
  (*972*) Assign n_r1new (Times (Einsum [(T 1,[0]); (n_f'ov,[0;1])] [1]) (-1) 2);
  (*973*) Del (T 1);
  (*974*) AddTo n_r1new (Times (Einsum [(T 2,[0;1;2;3]); (n_r2,[2;1;0])] [3]) (-1) 1);
  (*975*) Del (T 2);
  (*976*) AddTo n_r1new (Plain (Einsum [(T 3,[0;1]); (n_r2,[2;1;0])] [2]));
  (*977*) Del (T 3);
  (*978*) AddTo n_r1new (Plain (Einsum [(n_r1,[0]); (T 4,[0;1])] [1]));
  (*979*) Del (T 4)]
 [(n_r1new,[1]); (n_r2new,[1;1;0])].

(** ebcc/codegen/GCCD.py:983-1025 [hbar_lmatvec_ee_intermediates] *)
Definition GCCD_hbar_lmatvec_ee_intermediates : prog := mkprog
 [(n_t2,[0;0;1;1]); (n_v'oovv,[0;0;1;1]); (n_v'ovvv,[0;1;1;1]); (n_v'ovoo,[0;1;0;0]); (n_v'ooov,[0;0;0;1]); (n_f'ov,[0;1])]
 [(*1012*) Assign (T 22) (Plain (Einsum [(n_t2,[0;1;2;3]); (n_v'oovv,[4;1;5;3])] [0;4;2;5]));
  (*1013*) Assign (T 20) (Plain (Einsum [(n_v'oovv,[0;1;2;3]); (n_t2,[4;5;2;3])] [4;5;0;1]));
  (*1014*) Assign (T 12) (Plain (Einsum [(n_t2,[0;1;2;3]); (n_v'ovvv,[1;4;5;3])] [0;2;4;5]));
  (*1015*) Assign (T 11) (Plain (Einsum [(n_v'ovvv,[0;1;2;3]); (n_t2,[4;5;2;3])] [4;5;0;1]));
  (*1016*) Assign (T 10) (Plain (Einsum [(n_t2,[0;1;2;3]); (n_v'ovvv,[1;4;2;3])] [0;4]));
  (*1017*) Assign (T 9) (Plain (Einsum [(n_t2,[0;1;2;3]); (n_v'ovoo,[4;5;0;1])] [4;2;3;5]));
  (*1018*) Assign (T 8) (Plain (Einsum [(n_t2,[0;1;2;3]); (n_v'ooov,[4;1;5;3])] [0;4;5;2]));
  (*1019*) Assign (T 7) (Plain (Einsum [(n_t2,[0;1;2;3]); (n_v'ovoo,[4;3;0;1])] [4;2]));
  (*1020*) Assign (T 5) (Plain (Einsum [(n_t2,[0;1;2;3]); (n_v'oovv,[0;1;4;3])] [2;4]));
  (*1021*) Assign (T 4) (Plain (Einsum [(n_v'oovv,[0;1;2;3]); (n_t2,[4;1;2;3])] [4;0]));
  (*1022*) Assign (T 2) (Plain (Einsum [(n_f'ov,[0;1]); (n_t2,[2;3;4;1])] [0;2;3;4]));
  (*1023*) Assign (T 1) (Plain (Einsum [(n_f'ov,[0;1]); (n_t2,[2;0;3;1])] [2;3]))]
 [(T 1,[0;1]); (T 2,[0;0;0;1]); (T 11,[0;0;0;1]); (T 12,[0;1;1;1]); (T 20,[0;0;0;0]); (T 22,[0;0;1;1]); (T 4,[0;0]); (T 5,[1;1]); (T 7,[0;1]); (T 8,[0;0;0;1]); (T 9,[0;1;1;1]); (T 10,[0;1])].

(** ebcc/codegen/GCCD.py:1027-1152 [hbar_lmatvec_ee] *)
Definition GCCD_hbar_lmatvec_ee : prog := mkprog
 [(n_f'oo,[0;0]); (IT 4,[0;0]); (n_t2,[0;0;1;1]); (n_r2,[0;0;1;1]); (n_f'vv,[1;1]); (n_v'ooov,[0;0;0;1]); (n_r1,[0;1]); (n_v'ovov,[0;1;0;1]); (IT 22,[0;0;1;1]); (n_v'oovv,[0;0;1;1]); (n_v'ovvv,[0;1;1;1]); (IT 20,[0;0;0;0]); (n_v'oooo,[0;0;0;0]); (n_f'ov,[0;1]); (IT 5,[1;1]); (IT 2,[0;0;0;1]); (IT 8,[0;0;0;1]); (IT 11,[0;0;0;1]); (IT 9,[0;1;1;1]); (IT 12,[0;1;1;1]); (IT 1,[0;1]); (IT 7,[0;1]); (IT 10,[0;1]); (n_v'vvvv,[1;1;1;1])]
 [(*1053*) Assign (T 8) (Times (Copy n_f'oo) (2) 1);
  (*1054*) AddTo (T 8) (Plain (Copy (IT 4)));
  (*1055*) Del (IT 4);
  (*1056*) Assign (T 2) (Plain (Einsum [(n_t2,[0;1;2;3]); (n_r2,[4;1;2;3])] [4;0]));
  (*1057*) Assign (T 14) (Plain (Einsum [(n_f'vv,[0;1]); (n_r2,[2;3;4;1])] [2;3;0;4]));
  (*1058*) Assign (T 13) (Plain (Einsum [(n_v'ooov,[0;1;2;3]); (n_r1,[2;4])] [0;1;4;3]));
  (*1059*) Assign (T 11) (Plain (Einsum [(n_v'ovov,[0;1;2;3]); (n_r2,[4;2;5;1])] [4;0;5;3]));
  (*1060*) Assign (T 10) (Plain (Einsum [(IT 22,[0;1;2;3]); (n_r2,[4;0;5;2])] [1;4;3;5]));
  (*1061*) Del (IT 22);
  (*1062*) Assign (T 17) (Times (Einsum [(T 8,[0;1]); (n_r2,[2;0;3;4])] [2;1;3;4]) (-1) 2);
  (*1063*) Assign (T 16) (Times (Einsum [(n_v'oovv,[0;1;2;3]); (T 2,[4;1])] [4;0;2;3]) (-1) 1);
  (*1064*) Assign (T 3) (Plain (Einsum [(n_t2,[0;1;2;3]); (n_r2,[0;1;4;3])] [4;2]));
  (*1065*) Assign (T 15) (Times (Transpose (T 13) [1;0;2;3]) (-1) 1);
  (*1066*) Del (T 13);
  (*1067*) AddTo (T 15) (Times (Transpose (T 14) [1;0;2;3]) (-1) 1);
  (*1068*) Del (T 14);
  (*1069*) Assign (T 20) (Plain (Einsum [(n_v'ovvv,[0;1;2;3]); (n_r1,[4;1])] [4;0;2;3]));
  (*1070*) Assign (T 9) (Plain (Einsum [(n_t2,[0;1;2;3]); (n_r2,[4;5;2;3])] [4;5;0;1]));
  (*1071*) Assign (T 22) (Plain (Copy (IT 20)));
  (*1072*) Del (IT 20);
  (*1073*) AddTo (T 22) (Times (Copy n_v'oooo) (2) 1);
  (*1074*) Assign (T 12) (Plain (Einsum [(n_r1,[0;1]); (n_f'ov,[2;3])] [2;0;3;1]));
  (*1075*) AddTo (T 12) (Plain (Copy (T 10)));
  (*1076*) Del (T 10);
  (*1077*) AddTo (T 12) (Times (Copy (T 11)) (-1) 1);
  (*1078*) Del (T 11);
  (*1079*) Assign (T 21) (Plain (Einsum [(IT 5,[0;1]); (n_r2,[2;3;4;0])] [2;3;1;4]));
  (*1080*) Assign (T 18) (Times (Transpose (T 16) [0;1;3;2]) (1) 2);
  (*1081*) Del (T 16);
  (*1082*) AddTo (T 18) (Plain (Transpose (T 17) [1;0;3;2]));
  (*1083*) Del (T 17);
  (*1084*) Assign (T 19) (Times (Einsum [(n_v'oovv,[0;1;2;3]); (T 3,[4;3])] [0;1;4;2]) (-1) 1);
  (*1085*) Assign (T 5) (Plain (Transpose (IT 2) [1;2;0;3]));
  (*1086*) Del (IT 2);
  (*1087*) AddTo (T 5) (Times (Transpose (IT 8) [0;2;1;3]) (2) 1);
  (*1088*) Del (IT 8);
  (*1089*) AddTo (T 5) (Times (Copy (IT 11)) (-1) 2);
  (*1090*) Del (IT 11);
  (*1091*) AddTo (T 5) (Times (Copy n_v'ooov) (-1) 1);
  (*1092*) Assign (T 4) (Times (Copy (IT 9)) (1) 4);
  (*1093*) Del (IT 9);
  (*1094*) AddTo (T 4) (Times (Transpose n_v'ovvv [0;2;3;1]) (1) 2);
  (*1095*) AddTo (T 4) (Times (Copy (IT 12)) (-1) 1);
  (*1096*) Del (IT 12);
  (*1097*) Assign (T 6) (Plain (Copy n_f'ov));
  (*1098*) AddTo (T 6) (Plain (Copy (IT 1)));
  (*1099*) Del (IT 1);
  (*1100*) AddTo (T 6) (Times (Copy (IT 7)) (-1) 2);
  (*1101*) Del (IT 7);
  (*1102*) AddTo (T 6) (Times (Copy (IT 10)) (-1) 2);
  (*1103*) Del (IT 10);
  (*1104*) Assign (T 7) (Plain (Copy n_f'vv));
  (*1105*) AddTo (T 7) (Times (Copy (IT 5)) (-1) 2);
  (*1106*) Del (IT 5);
  (*1107*) Assign (T 1) (Plain (Einsum [(n_t2,[0;1;2;3]); (n_r1,[1;3])] [0;2]));
  (*1108*) Assign n_r2new (Times (Einsum [(n_v'vvvv,[0;1;2;3]); (n_r2,[4;5;2;3])] [4;5;0;1]) (1) 2);
  (*1109*) AddTo n_r2new (Times (Einsum [(n_v'oovv,[0;1;2;3]); (T 9,[4;5;1;0])] [5;4;2;3]) (1) 4);
  (*1110*) Del (T 9);
  (*1111*) AddTo n_r2new (Plain (Copy (T 12)));
  (*1112*) AddTo n_r2new (Times (Transpose (T 12) [0;1;3;2]) (-1) 1);
  (*1113*) AddTo n_r2new (Times (Transpose (T 12) [1;0;2;3]) (-1) 1);
  (*1114*) AddTo n_r2new (Plain (Transpose (T 12) [1;0;3;2]));
  (*1115*) Del (T 12);
  (*1116*) AddTo n_r2new (Times (Copy (T 15)) (-1) 1);
  (*1117*) AddTo n_r2new (Plain (Transpose (T 15) [0;1;3;2]));
  (*1118*) Del (T 15);
  (*1119*) AddTo n_r2new (Plain (Copy (T 18)));
  (*1120*) AddTo n_r2new (Times (Transpose (T 18) [1;0;2;3]) (-1) 1);
  (*1121*) Del (T 18);
  (*1122*) AddTo n_r2new (Times (Copy (T 19)) (-1) 2);
  (*1123*) AddTo n_r2new (Times (Transpose (T 19) [0;1;3;2]) (1) 2);
  (*1124*) Del (T 19);
  (*1125*) AddTo n_r2new (Plain (Transpose (T 20) [0;1;3;2]));
  (*1126*) AddTo n_r2new (Times (Transpose (T 20) [1;0;3;2]) (-1) 1);
  (*1127*) Del (T 20);
  (*1128*) AddTo n_r2new (Times (Transpose (T 21) [1;0;2;3]) (-1) 2);
  (*1129*) AddTo n_r2new (Times (Transpose (T 21) [1;0;3;2]) (1) 2);
  (*1130*) Del (T 21);
  (*1131*) AddTo n_r2new (Times (Einsum [(n_r2,[0;1;2;3]); (T 22,[0;1;4;5])] [4;5;2;3]) (1) 4);
  (*1132*) Del (T 22);
  (*1133*) Assign n_r1new (Plain (Einsum [(n_v'oovv,[0;1;2;3]); (T 1,[1;3])] [0;2]));
  (*1134*) Del (T 1);
  (*1135*) AddTo n_r1new (Times (Einsum [(n_f'ov,[0;1]); (T 2,[2;0])] [2;1]) (-1) 2);
  (*1136*) AddTo n_r1new (Times (Einsum [(n_v'ovvv,[0;1;2;3]); (T 3,[1;3])] [0;2]) (1) 2);
  (*1137*) Del (T 3);
  (*1138*) AddTo n_r1new (Times (Einsum [(n_v'ooov,[0;1;2;3]); (T 2,[2;1])] [0;3]) (1) 2);
  (*1139*) Del (T 2);
  (*1140*) AddTo n_r1new (Times (Einsum [(n_v'ovov,[0;1;2;3]); (n_r1,[2;1])] [0;3]) (-1) 1);
  (*1141*) AddTo n_r1new (Times (Einsum [(n_r2,[0;1;2;3]); (T 4,[1;2;3;4])] [0;4]) (-1) 1);
  (*1142*) Del (T 4);
  (*1143*) AddTo n_r1new (Times (Einsum [(T 5,[0;1;2;3]); (n_r2,[1;0;4;3])] [2;4]) (-1) 2);
  (*1144*) Del (T 5);
  (*1145*) AddTo n_r1new (Plain (Einsum [(n_r2,[0;1;2;3]); (T 6,[1;3])] [0;2]));
  (*1146*) Del (T 6);
  (*1147*) AddTo n_r1new (Plain (Einsum [(n_r1,[0;1]); (T 7,[1;2])] [0;2]));
  (*1148*) Del (T 7);
  (*1149*) AddTo n_r1new (Times (Einsum [(T 8,[0;1]); (n_r1,[0;2])] [1;2]) (-1) 2);
  (*1150*) Del (T 8)]
 [(n_r1new,[0;1]); (n_r2new,[0;0;1;1])].

