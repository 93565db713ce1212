(** Generated by tools/translate_codegen.py from ebcc/codegen/RMP2.py; one statement per source line
    (the number in the comment before it). *)
From Coq Require Import ZArith List.
From Verif Require Import CgModel CgNames.
Import ListNotations.

(** ebcc/codegen/RMP2.py:19-38 [energy] *)
Definition RMP2_energy : prog := mkprog
 [(n_t2,[0;0;1;1]); (n_v'ovov,[0;1;0;1])]
 [(*35*) Assign n_e_mp (Times (Einsum [(n_t2,[0;1;2;3]); (n_v'ovov,[0;2;1;3])] []) (2) 1);
  (*36*) AddTo n_e_mp (Times (Einsum [(n_t2,[0;1;2;3]); (n_v'ovov,[0;3;1;2])] []) (-1) 1)]
 [(n_e_mp,[])].

(** ebcc/codegen/RMP2.py:40-73 [make_rdm1_f]; assembly (line 71) not translated *)
Definition RMP2_make_rdm1_f : prog := mkprog
 [(n_t2,[0;0;1;1]); (n_l2,[1;1;0;0])]
 [(*58*) Assign n_delta'oo (Plain (Eye 0));
  (*58*) Assign n_delta'vv (Plain (Eye 1));
  (*62*) Assign (T 1) (Plain (Transpose n_t2 [0;1;3;2]));
  (*63*) AddTo (T 1) (Times (Copy n_t2) (-1) 2);
  (*64*) Assign n_rdm1'vv (Times (Einsum [(n_l2,[0;1;2;3]); (T 1,[2;3;1;4])] [0;4]) (4) 1);
  (*65*) Assign n_rdm1'oo (Times (Copy n_delta'oo) (2) 1);
  (*66*) Del n_delta'oo;
  (*66*) Del n_delta'vv;
  (*67*) AddTo n_rdm1'oo (Times (Einsum [(n_l2,[0;1;2;3]); (T 1,[2;4;1;0])] [4;3]) (-4) 1);
  (*68*) Del (T 1);
  (*69*) Assign n_rdm1'ov (Plain (Zeros [0;1]));
  (*70*) Assign n_rdm1'vo (Plain (Zeros [1;0]))]
 [(n_rdm1'oo,[0;0]); (n_rdm1'ov,[0;1]); (n_rdm1'vo,[1;0]); (n_rdm1'vv,[1;1])].

(** ebcc/codegen/RMP2.py:125-145 [hbar_matvec_ip_intermediates] *)
Definition RMP2_hbar_matvec_ip_intermediates : prog := mkprog
 [(n_v'ovov,[0;1;0;1]); (n_t2,[0;0;1;1])]
 [(*142*) Assign (T 5) (Plain (Einsum [(n_v'ovov,[0;1;2;3]); (n_t2,[4;2;1;3])] [4;0]));
  (*143*) Assign (T 3) (Plain (Einsum [(n_v'ovov,[0;1;2;3]); (n_t2,[4;2;3;1])] [4;0]))]
 [(T 3,[0;0]); (T 5,[0;0])].

(** ebcc/codegen/RMP2.py:147-190 [hbar_matvec_ip] *)
Definition RMP2_hbar_matvec_ip : prog := mkprog
 [(IT 5,[0;0]); (IT 3,[0;0]); (n_f'oo,[0;0]); (n_v'ooov,[0;0;0;1]); (n_v'ovoo,[0;1;0;0]); (n_r2,[0;0;1]); (n_f'vv,[1;1]); (n_r1,[0])]
 [(*171*) Assign (T 2) (Times (Copy (IT 5)) (2) 1);
  (*172*) Del (IT 5);
  (*173*) AddTo (T 2) (Times (Copy (IT 3)) (-1) 1);
  (*174*) Del (IT 3);
  (*175*) Assign (T 3) (Times (Copy n_f'oo) (2) 1);
  (*176*) AddTo (T 3) (Plain (Copy (T 2)));
  (*177*) AddTo (T 3) (Plain (Transpose (T 2) [1;0]));
  (*178*) Del (T 2);
  (*179*) Assign (T 1) (Plain (Copy n_v'ooov));
  (*180*) AddTo (T 1) (Times (Transpose n_v'ovoo [0;2;3;1]) (-1) 2);
  (*181*) Assign n_r2new (Plain (Einsum [(n_r2,[0;1;2]); (n_f'vv,[3;2])] [0;1;3]));
  (*182*) AddTo n_r2new (Plain (Einsum [(n_r1,[0]); (n_v'ovoo,[1;2;3;0])] [1;3;2]));
  (*183*) AddTo n_r2new (Times (Einsum [(n_r2,[0;1;2]); (n_f'oo,[3;0])] [3;1;2]) (-1) 1);
  (*184*) AddTo n_r2new (Times (Einsum [(n_f'oo,[0;1]); (n_r2,[2;1;3])] [2;0;3]) (-1) 1);
  (*185*) Assign n_r1new (Times (Einsum [(n_r2,[0;1;2]); (T 1,[1;3;0;2])] [3]) (2) 1);
  (*186*) Del (T 1);
  (*187*) AddTo n_r1new (Times (Einsum [(T 3,[0;1]); (n_r1,[0])] [1]) (-1) 2);
  (*188*) Del (T 3)]
 [(n_r1new,[0]); (n_r2new,[0;0;1])].

(** ebcc/codegen/RMP2.py:192-212 [hbar_matvec_ea_intermediates] *)
Definition RMP2_hbar_matvec_ea_intermediates : prog := mkprog
 [(n_v'ovov,[0;1;0;1]); (n_t2,[0;0;1;1])]
 [(*209*) Assign (T 5) (Plain (Einsum [(n_v'ovov,[0;1;2;3]); (n_t2,[0;2;1;4])] [4;3]));
  (*210*) Assign (T 3) (Plain (Einsum [(n_v'ovov,[0;1;2;3]); (n_t2,[0;2;3;4])] [4;1]))]
 [(T 3,[1;1]); (T 5,[1;1])].

(** ebcc/codegen/RMP2.py:214-257 [hbar_matvec_ea] *)
Definition RMP2_hbar_matvec_ea : prog := mkprog
 [(IT 5,[1;1]); (IT 3,[1;1]); (n_f'vv,[1;1]); (n_v'ovvv,[0;1;1;1]); (n_r2,[1;1;0]); (n_r1,[1]); (n_f'oo,[0;0])]
 [(*238*) Assign (T 2) (Plain (Copy (IT 5)));
  (*239*) Del (IT 5);
  (*240*) AddTo (T 2) (Times (Copy (IT 3)) (-1) 2);
  (*241*) Del (IT 3);
  (*242*) Assign (T 3) (Plain (Copy n_f'vv));
  (*243*) AddTo (T 3) (Times (Copy (T 2)) (-1) 1);
  (*244*) AddTo (T 3) (Times (Transpose (T 2) [1;0]) (-1) 1);
  (*245*) Del (T 2);
  (*246*) Assign (T 1) (Times (Copy n_v'ovvv) (2) 1);
  (*247*) AddTo (T 1) (Times (Transpose n_v'ovvv [0;2;1;3]) (-1) 1);
  (*248*) Assign n_r2new (Plain (Einsum [(n_f'vv,[0;1]); (n_r2,[1;2;3])] [0;2;3]));
  (*249*) AddTo n_r2new (Plain (Einsum [(n_f'vv,[0;1]); (n_r2,[2;1;3])] [2;0;3]));
  (*250*) AddTo n_r2new (Times (Einsum [(n_r1,[0]); (n_v'ovvv,[1;2;3;0])] [2;3;1]) (-1) 1);
  (*251*) AddTo n_r2new (Times (Einsum [(n_f'oo,[0;1]); (n_r2,[2;3;1])] [2;3;0]) (-1) 1);
  (*252*) Assign n_r1new (Times (Einsum [(n_r2,[0;1;2]); (T 1,[2;0;1;3])] [3]) (-1) 1);
  (*253*) Del (T 1);
  (*254*) AddTo n_r1new (Plain (Einsum [(n_r1,[0]); (T 3,[0;1])] [1]));
  (*255*) Del (T 3)]
 [(n_r1new,[1]); (n_r2new,[1;1;0])].

