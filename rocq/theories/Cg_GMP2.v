(** Generated by tools/translate_codegen.py from ebcc/codegen/GMP2.py; one statement per source line
    (the number in the comment before it). *)
From Coq Require Import ZArith List.
From Verif Require Import CgModel CgNames.
Import ListNotations.

(** ebcc/codegen/GMP2.py:19-37 [energy] *)
Definition GMP2_energy : prog := mkprog
 [(n_t2,[0;0;1;1]); (n_v'oovv,[0;0;1;1])]
 [(*35*) Assign n_e_mp (Times (Einsum [(n_t2,[0;1;2;3]); (n_v'oovv,[0;1;2;3])] []) (1) 4)]
 [(n_e_mp,[])].

(** ebcc/codegen/GMP2.py:39-69 [make_rdm1_f]; assembly (line 67) not translated *)
Definition GMP2_make_rdm1_f : prog := mkprog
 [(n_t2,[0;0;1;1]); (n_l2,[1;1;0;0])]
 [(*57*) Assign n_delta'oo (Plain (Eye 0));
  (*57*) Assign n_delta'vv (Plain (Eye 1));
  (*61*) Assign n_rdm1'vv (Times (Einsum [(n_t2,[0;1;2;3]); (n_l2,[4;3;0;1])] [4;2]) (1) 2);
  (*62*) Assign n_rdm1'oo (Times (Einsum [(n_t2,[0;1;2;3]); (n_l2,[2;3;4;1])] [0;4]) (-1) 2);
  (*63*) AddTo n_rdm1'oo (Plain (Copy n_delta'oo));
  (*64*) Del n_delta'oo;
  (*64*) Del n_delta'vv;
  (*65*) Assign n_rdm1'ov (Plain (Zeros [0;1]));
  (*66*) Assign n_rdm1'vo (Plain (Zeros [1;0]))]
 [(n_rdm1'oo,[0;0]); (n_rdm1'ov,[0;1]); (n_rdm1'vo,[1;0]); (n_rdm1'vv,[1;1])].

(** ebcc/codegen/GMP2.py:119-137 [hbar_matvec_ip_intermediates] *)
Definition GMP2_hbar_matvec_ip_intermediates : prog := mkprog
 [(n_t2,[0;0;1;1]); (n_v'oovv,[0;0;1;1])]
 [(*135*) Assign (T 1) (Plain (Einsum [(n_t2,[0;1;2;3]); (n_v'oovv,[4;1;2;3])] [0;4]))]
 [(T 1,[0;0])].

(** ebcc/codegen/GMP2.py:139-177 [hbar_matvec_ip] *)
Definition GMP2_hbar_matvec_ip : prog := mkprog
 [(n_f'oo,[0;0]); (n_r2,[0;0;1]); (IT 1,[0;0]); (n_f'vv,[1;1]); (n_v'ooov,[0;0;0;1]); (n_r1,[0]); (n_v'ovoo,[0;1;0;0])]
 [(*163*) Assign (T 2) (Plain (Einsum [(n_f'oo,[0;1]); (n_r2,[2;1;3])] [0;2;3]));
  (*164*) Assign (T 1) (Times (Copy n_f'oo) (4) 1);
  (*165*) AddTo (T 1) (Plain (Copy (IT 1)));
  (*166*) AddTo (T 1) (Plain (Transpose (IT 1) [1;0]));
  (*167*) Del (IT 1);
  (*168*) Assign n_r2new (Plain (Einsum [(n_r2,[0;1;2]); (n_f'vv,[3;2])] [0;1;3]));
  (*169*) AddTo n_r2new (Times (Einsum [(n_v'ooov,[0;1;2;3]); (n_r1,[2])] [0;1;3]) (-1) 1);
  (*170*) AddTo n_r2new (Plain (Copy (T 2)));
  (*171*) AddTo n_r2new (Times (Transpose (T 2) [1;0;2]) (-1) 1);
  (*172*) Del (T 2);
  (*173*) Assign n_r1new (Times (Einsum [(n_v'ovoo,[0;1;2;3]); (n_r2,[2;3;1])] [0]) (-1) 2);
  (*174*) AddTo n_r1new (Times (Einsum [(T 1,[0;1]); (n_r1,[0])] [1]) (-1) 4);
  (*175*) Del (T 1)]
 [(n_r1new,[0]); (n_r2new,[0;0;1])].

(** ebcc/codegen/GMP2.py:179-197 [hbar_matvec_ea_intermediates] *)
Definition GMP2_hbar_matvec_ea_intermediates : prog := mkprog
 [(n_v'oovv,[0;0;1;1]); (n_t2,[0;0;1;1])]
 [(*195*) Assign (T 1) (Plain (Einsum [(n_v'oovv,[0;1;2;3]); (n_t2,[0;1;4;3])] [4;2]))]
 [(T 1,[1;1])].

(** ebcc/codegen/GMP2.py:199-237 [hbar_matvec_ea] *)
Definition GMP2_hbar_matvec_ea : prog := mkprog
 [(n_r2,[1;1;0]); (n_f'vv,[1;1]); (IT 1,[1;1]); (n_r1,[1]); (n_v'ovvv,[0;1;1;1]); (n_f'oo,[0;0])]
 [(*223*) Assign (T 2) (Plain (Einsum [(n_r2,[0;1;2]); (n_f'vv,[3;1])] [2;3;0]));
  (*224*) Assign (T 1) (Times (Copy n_f'vv) (-1) 1);
  (*225*) AddTo (T 1) (Times (Copy (IT 1)) (1) 4);
  (*226*) AddTo (T 1) (Times (Transpose (IT 1) [1;0]) (1) 4);
  (*227*) Del (IT 1);
  (*228*) Assign n_r2new (Times (Einsum [(n_r1,[0]); (n_v'ovvv,[1;0;2;3])] [2;3;1]) (-1) 1);
  (*229*) AddTo n_r2new (Times (Einsum [(n_r2,[0;1;2]); (n_f'oo,[3;2])] [0;1;3]) (-1) 1);
  (*230*) AddTo n_r2new (Times (Transpose (T 2) [1;2;0]) (-1) 1);
  (*231*) AddTo n_r2new (Plain (Transpose (T 2) [2;1;0]));
  (*232*) Del (T 2);
  (*233*) Assign n_r1new (Times (Einsum [(n_r2,[0;1;2]); (n_v'ovvv,[2;3;0;1])] [3]) (-1) 2);
  (*234*) AddTo n_r1new (Times (Einsum [(T 1,[0;1]); (n_r1,[0])] [1]) (-1) 1);
  (*235*) Del (T 1)]
 [(n_r1new,[1]); (n_r2new,[1;1;0])].

(** ebcc/codegen/GMP2.py:239-259 [hbar_matvec_ee_intermediates] *)
Definition GMP2_hbar_matvec_ee_intermediates : prog := mkprog
 [(n_v'oovv,[0;0;1;1]); (n_t2,[0;0;1;1])]
 [(*256*) Assign (T 2) (Plain (Einsum [(n_v'oovv,[0;1;2;3]); (n_t2,[0;1;4;3])] [4;2]));
  (*257*) Assign (T 1) (Plain (Einsum [(n_t2,[0;1;2;3]); (n_v'oovv,[4;1;2;3])] [0;4]))]
 [(T 1,[0;0]); (T 2,[1;1])].

(** ebcc/codegen/GMP2.py:261-322 [hbar_matvec_ee] *)
Definition GMP2_hbar_matvec_ee : prog := mkprog
 [(n_f'oo,[0;0]); (n_r2,[0;0;1;1]); (n_r1,[0;1]); (n_v'ovvv,[0;1;1;1]); (n_f'vv,[1;1]); (n_v'ooov,[0;0;0;1]); (IT 1,[0;0]); (IT 2,[1;1]); (n_v'oovv,[0;0;1;1]); (n_v'ovoo,[0;1;0;0]); (n_t2,[0;0;1;1]); (n_v'ovov,[0;1;0;1])]
 [(*287*) Assign (T 7) (Plain (Einsum [(n_f'oo,[0;1]); (n_r2,[2;1;3;4])] [0;2;3;4]));
  (*288*) Assign (T 8) (Plain (Einsum [(n_r1,[0;1]); (n_v'ovvv,[2;1;3;4])] [0;2;3;4]));
  (*289*) Assign (T 5) (Plain (Einsum [(n_f'vv,[0;1]); (n_r2,[2;3;4;1])] [2;3;0;4]));
  (*290*) Assign (T 4) (Plain (Einsum [(n_r1,[0;1]); (n_v'ooov,[2;3;0;4])] [2;3;1;4]));
  (*291*) Assign (T 9) (Times (Transpose (T 7) [0;1;3;2]) (-1) 1);
  (*292*) Del (T 7);
  (*293*) AddTo (T 9) (Plain (Transpose (T 8) [0;1;3;2]));
  (*294*) Del (T 8);
  (*295*) Assign (T 6) (Times (Transpose (T 4) [1;0;2;3]) (-1) 1);
  (*296*) Del (T 4);
  (*297*) AddTo (T 6) (Times (Transpose (T 5) [1;0;2;3]) (-1) 1);
  (*298*) Del (T 5);
  (*299*) Assign (T 3) (Plain (Copy n_f'oo));
  (*300*) AddTo (T 3) (Times (Transpose (IT 1) [1;0]) (1) 2);
  (*301*) Del (IT 1);
  (*302*) Assign (T 2) (Plain (Copy n_f'vv));
  (*303*) AddTo (T 2) (Times (Transpose (IT 2) [1;0]) (-1) 2);
  (*304*) Del (IT 2);
  (*305*) Assign (T 1) (Plain (Einsum [(n_v'oovv,[0;1;2;3]); (n_r1,[1;3])] [0;2]));
  (*306*) Assign n_r2new (Times (Copy (T 6)) (-1) 1);
  (*307*) AddTo n_r2new (Plain (Transpose (T 6) [0;1;3;2]));
  (*308*) Del (T 6);
  (*309*) AddTo n_r2new (Plain (Copy (T 9)));
  (*310*) AddTo n_r2new (Times (Transpose (T 9) [1;0;2;3]) (-1) 1);
  (*311*) Del (T 9);
  (*312*) Assign n_r1new (Times (Einsum [(n_r2,[0;1;2;3]); (n_v'ovvv,[1;4;2;3])] [0;4]) (-1) 2);
  (*313*) AddTo n_r1new (Times (Einsum [(n_r2,[0;1;2;3]); (n_v'ovoo,[4;3;0;1])] [4;2]) (-1) 2);
  (*314*) AddTo n_r1new (Plain (Einsum [(T 1,[0;1]); (n_t2,[2;0;3;1])] [2;3]));
  (*315*) Del (T 1);
  (*316*) AddTo n_r1new (Times (Einsum [(n_v'ovov,[0;1;2;3]); (n_r1,[2;1])] [0;3]) (-1) 1);
  (*317*) AddTo n_r1new (Plain (Einsum [(n_r1,[0;1]); (T 2,[1;2])] [0;2]));
  (*318*) Del (T 2);
  (*319*) AddTo n_r1new (Times (Einsum [(n_r1,[0;1]); (T 3,[0;2])] [2;1]) (-1) 1);
  (*320*) Del (T 3)]
 [(n_r1new,[0;1]); (n_r2new,[0;0;1;1])].

