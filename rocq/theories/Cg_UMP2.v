(** Generated by tools/translate_codegen.py from ebcc/codegen/UMP2.py; one statement per source line
    (the number in the comment before it). *)
From Coq Require Import ZArith List.
From Verif Require Import CgModel CgNames.
Import ListNotations.

(** ebcc/codegen/UMP2.py:19-39 [energy] *)
Definition UMP2_energy : prog := mkprog
 [(n_v'aaaa'ovov,[4;5;4;5]); (n_t2'aaaa,[4;4;5;5]); (n_t2'abab,[4;6;5;7]); (n_v'aabb'ovov,[4;5;6;7]); (n_v'bbbb'ovov,[6;7;6;7]); (n_t2'bbbb,[6;6;7;7])]
 [(*35*) Assign n_e_mp (Times (Einsum [(n_v'aaaa'ovov,[0;1;2;3]); (n_t2'aaaa,[0;2;3;1])] []) (-1) 1);
  (*36*) AddTo n_e_mp (Plain (Einsum [(n_t2'abab,[0;1;2;3]); (n_v'aabb'ovov,[0;2;1;3])] []));
  (*37*) AddTo n_e_mp (Plain (Einsum [(n_v'bbbb'ovov,[0;1;2;3]); (n_t2'bbbb,[0;2;1;3])] []))]
 [(n_e_mp,[])].

(** ebcc/codegen/UMP2.py:41-83 [make_rdm1_f]; assembly (line 80) not translated; assembly (line 81) not translated *)
Definition UMP2_make_rdm1_f : prog := mkprog
 [(n_t2'aaaa,[4;4;5;5]); (n_t2'bbbb,[6;6;7;7]); (n_l2'abab,[5;7;4;6]); (n_t2'abab,[4;6;5;7]); (n_l2'bbbb,[7;7;6;6]); (n_l2'aaaa,[5;5;4;4])]
 [(*61*) Assign n_delta'aa'oo (Plain (Eye 4));
  (*61*) Assign n_delta'aa'vv (Plain (Eye 5));
  (*61*) Assign n_delta'bb'oo (Plain (Eye 6));
  (*61*) Assign n_delta'bb'vv (Plain (Eye 7));
  (*65*) Assign n_rdm1'bb'vv (Plain (Einsum [(n_l2'abab,[0;1;2;3]); (n_t2'abab,[2;3;0;4])] [1;4]));
  (*66*) AddTo n_rdm1'bb'vv (Times (Einsum [(n_t2'bbbb,[0;1;2;3]); (n_l2'bbbb,[4;3;0;1])] [4;2]) (2) 1);
  (*67*) Assign n_rdm1'aa'vv (Times (Einsum [(n_t2'aaaa,[0;1;2;3]); (n_l2'aaaa,[4;3;0;1])] [4;2]) (2) 1);
  (*68*) AddTo n_rdm1'aa'vv (Plain (Einsum [(n_l2'abab,[0;1;2;3]); (n_t2'abab,[2;3;4;1])] [0;4]));
  (*69*) Assign n_rdm1'bb'oo (Times (Einsum [(n_l2'bbbb,[0;1;2;3]); (n_t2'bbbb,[4;3;0;1])] [4;2]) (-2) 1);
  (*70*) AddTo n_rdm1'bb'oo (Times (Einsum [(n_t2'abab,[0;1;2;3]); (n_l2'abab,[2;3;0;4])] [1;4]) (-1) 1);
  (*71*) AddTo n_rdm1'bb'oo (Plain (Copy n_delta'bb'oo));
  (*72*) Assign n_rdm1'aa'oo (Plain (Copy n_delta'aa'oo));
  (*73*) Del n_delta'aa'oo;
  (*73*) Del n_delta'aa'vv;
  (*73*) Del n_delta'bb'oo;
  (*73*) Del n_delta'bb'vv;
  (*74*) AddTo n_rdm1'aa'oo (Times (Einsum [(n_t2'abab,[0;1;2;3]); (n_l2'abab,[2;3;4;1])] [0;4]) (-1) 1);
  (*75*) AddTo n_rdm1'aa'oo (Times (Einsum [(n_t2'aaaa,[0;1;2;3]); (n_l2'aaaa,[2;3;4;1])] [0;4]) (-2) 1);
  (*76*) Assign n_rdm1'aa'ov (Plain (Zeros [4;5]));
  (*77*) Assign n_rdm1'aa'vo (Plain (Zeros [5;4]));
  (*78*) Assign n_rdm1'bb'ov (Plain (Zeros [6;7]));
  (*79*) Assign n_rdm1'bb'vo (Plain (Zeros [7;6]))]
 [(n_rdm1'aa'oo,[4;4]); (n_rdm1'aa'ov,[4;5]); (n_rdm1'aa'vo,[5;4]); (n_rdm1'aa'vv,[5;5]); (n_rdm1'bb'oo,[6;6]); (n_rdm1'bb'ov,[6;7]); (n_rdm1'bb'vo,[7;6]); (n_rdm1'bb'vv,[7;7])].

(** ebcc/codegen/UMP2.py:187-211 [hbar_matvec_ip_intermediates] *)
Definition UMP2_hbar_matvec_ip_intermediates : prog := mkprog
 [(n_t2'abab,[4;6;5;7]); (n_v'aabb'ovov,[4;5;6;7]); (n_v'bbbb'ovov,[6;7;6;7]); (n_t2'bbbb,[6;6;7;7]); (n_t2'aaaa,[4;4;5;5]); (n_v'aaaa'ovov,[4;5;4;5])]
 [(*206*) Assign (T 13) (Plain (Einsum [(n_t2'abab,[0;1;2;3]); (n_v'aabb'ovov,[0;2;4;3])] [1;4]));
  (*207*) Assign (T 11) (Plain (Einsum [(n_v'bbbb'ovov,[0;1;2;3]); (n_t2'bbbb,[4;2;1;3])] [4;0]));
  (*208*) Assign (T 5) (Plain (Einsum [(n_t2'abab,[0;1;2;3]); (n_v'aabb'ovov,[4;2;1;3])] [0;4]));
  (*209*) Assign (T 3) (Plain (Einsum [(n_t2'aaaa,[0;1;2;3]); (n_v'aaaa'ovov,[4;2;1;3])] [0;4]))]
 [(T 11,[6;6]); (T 13,[6;6]); (T 3,[4;4]); (T 5,[4;4])].

(** ebcc/codegen/UMP2.py:213-290 [hbar_matvec_ip] *)
Definition UMP2_hbar_matvec_ip : prog := mkprog
 [(IT 11,[6;6]); (IT 13,[6;6]); (IT 3,[4;4]); (IT 5,[4;4]); (n_r2'bbb,[6;6;7]); (n_f'bb'oo,[6;6]); (n_r1'b,[6]); (n_v'bbbb'ooov,[6;6;6;7]); (n_v'aaaa'ooov,[4;4;4;5]); (n_r1'a,[4]); (n_f'aa'oo,[4;4]); (n_r2'aaa,[4;4;5]); (n_f'bb'vv,[7;7]); (n_r2'bab,[6;4;7]); (n_v'aabb'ooov,[4;4;6;7]); (n_r2'aba,[4;6;5]); (n_f'aa'vv,[5;5]); (n_v'aabb'ovoo,[4;5;6;6])]
 [(*239*) Assign (T 3) (Times (Copy (IT 11)) (2) 1);
  (*240*) Del (IT 11);
  (*241*) AddTo (T 3) (Plain (Copy (IT 13)));
  (*242*) Del (IT 13);
  (*243*) Assign (T 1) (Times (Copy (IT 3)) (2) 1);
  (*244*) Del (IT 3);
  (*245*) AddTo (T 1) (Plain (Copy (IT 5)));
  (*246*) Del (IT 5);
  (*247*) Assign (T 8) (Plain (Einsum [(n_r2'bbb,[0;1;2]); (n_f'bb'oo,[3;1])] [3;0;2]));
  (*248*) Assign (T 7) (Plain (Einsum [(n_r1'b,[0]); (n_v'bbbb'ooov,[1;0;2;3])] [1;2;3]));
  (*249*) Assign (T 5) (Plain (Einsum [(n_v'aaaa'ooov,[0;1;2;3]); (n_r1'a,[1])] [0;2;3]));
  (*250*) Assign (T 6) (Plain (Einsum [(n_f'aa'oo,[0;1]); (n_r2'aaa,[2;1;3])] [0;2;3]));
  (*251*) Assign (T 4) (Times (Copy n_f'bb'oo) (2) 1);
  (*252*) AddTo (T 4) (Plain (Copy (T 3)));
  (*253*) AddTo (T 4) (Plain (Transpose (T 3) [1;0]));
  (*254*) Del (T 3);
  (*255*) Assign (T 2) (Times (Copy n_f'aa'oo) (2) 1);
  (*256*) AddTo (T 2) (Plain (Copy (T 1)));
  (*257*) AddTo (T 2) (Plain (Transpose (T 1) [1;0]));
  (*258*) Del (T 1);
  (*259*) Assign n_r2new'bbb (Times (Einsum [(n_r2'bbb,[0;1;2]); (n_f'bb'vv,[3;2])] [0;1;3]) (2) 1);
  (*260*) AddTo n_r2new'bbb (Times (Copy (T 7)) (-1) 1);
  (*261*) AddTo n_r2new'bbb (Plain (Transpose (T 7) [1;0;2]));
  (*262*) Del (T 7);
  (*263*) AddTo n_r2new'bbb (Times (Copy (T 8)) (2) 1);
  (*264*) AddTo n_r2new'bbb (Times (Transpose (T 8) [1;0;2]) (-2) 1);
  (*265*) Del (T 8);
  (*266*) Assign n_r2new'bab (Times (Einsum [(n_f'bb'oo,[0;1]); (n_r2'bab,[1;2;3])] [0;2;3]) (-1) 1);
  (*267*) AddTo n_r2new'bab (Plain (Einsum [(n_v'aabb'ooov,[0;1;2;3]); (n_r1'a,[1])] [2;0;3]));
  (*268*) AddTo n_r2new'bab (Times (Einsum [(n_f'aa'oo,[0;1]); (n_r2'bab,[2;1;3])] [2;0;3]) (-1) 1);
  (*269*) AddTo n_r2new'bab (Plain (Einsum [(n_r2'bab,[0;1;2]); (n_f'bb'vv,[3;2])] [0;1;3]));
  (*270*) Assign n_r2new'aba (Plain (Einsum [(n_r2'aba,[0;1;2]); (n_f'aa'vv,[3;2])] [0;1;3]));
  (*271*) AddTo n_r2new'aba (Plain (Einsum [(n_v'aabb'ovoo,[0;1;2;3]); (n_r1'b,[3])] [0;2;1]));
  (*272*) AddTo n_r2new'aba (Times (Einsum [(n_f'bb'oo,[0;1]); (n_r2'aba,[2;1;3])] [2;0;3]) (-1) 1);
  (*273*) AddTo n_r2new'aba (Times (Einsum [(n_f'aa'oo,[0;1]); (n_r2'aba,[1;2;3])] [0;2;3]) (-1) 1);
  (*274*) Assign n_r2new'aaa (Times (Einsum [(n_r2'aaa,[0;1;2]); (n_f'aa'vv,[3;2])] [0;1;3]) (2) 1);
  (*275*) AddTo n_r2new'aaa (Times (Copy (T 5)) (-1) 1);
  (*276*) AddTo n_r2new'aaa (Plain (Transpose (T 5) [1;0;2]));
  (*277*) Del (T 5);
  (*278*) AddTo n_r2new'aaa (Times (Copy (T 6)) (2) 1);
  (*279*) AddTo n_r2new'aaa (Times (Transpose (T 6) [1;0;2]) (-2) 1);
  (*280*) Del (T 6);
  (*281*) Assign n_r1new'b (Times (Einsum [(n_r2'bbb,[0;1;2]); (n_v'bbbb'ooov,[3;1;0;2])] [3]) (2) 1);
  (*282*) AddTo n_r1new'b (Plain (Einsum [(n_r2'aba,[0;1;2]); (n_v'aabb'ovoo,[0;2;3;1])] [3]));
  (*283*) AddTo n_r1new'b (Times (Einsum [(T 4,[0;1]); (n_r1'b,[0])] [1]) (-1) 2);
  (*284*) Del (T 4);
  (*285*) Assign n_r1new'a (Plain (Einsum [(n_r2'bab,[0;1;2]); (n_v'aabb'ooov,[3;1;0;2])] [3]));
  (*286*) AddTo n_r1new'a (Times (Einsum [(n_r2'aaa,[0;1;2]); (n_v'aaaa'ooov,[3;0;1;2])] [3]) (-2) 1);
  (*287*) AddTo n_r1new'a (Times (Einsum [(n_r1'a,[0]); (T 2,[0;1])] [1]) (-1) 2);
  (*288*) Del (T 2)]
 [(n_r1new'b,[6]); (n_r1new'a,[4]); (n_r2new'bbb,[6;6;7]); (n_r2new'bab,[6;4;7]); (n_r2new'aba,[4;6;5]); (n_r2new'aaa,[4;4;5])].

(** ebcc/codegen/UMP2.py:292-316 [hbar_matvec_ea_intermediates] *)
Definition UMP2_hbar_matvec_ea_intermediates : prog := mkprog
 [(n_v'aabb'ovov,[4;5;6;7]); (n_t2'abab,[4;6;5;7]); (n_v'bbbb'ovov,[6;7;6;7]); (n_t2'bbbb,[6;6;7;7]); (n_t2'aaaa,[4;4;5;5]); (n_v'aaaa'ovov,[4;5;4;5])]
 [(*311*) Assign (T 13) (Plain (Einsum [(n_v'aabb'ovov,[0;1;2;3]); (n_t2'abab,[0;2;1;4])] [4;3]));
  (*312*) Assign (T 11) (Plain (Einsum [(n_v'bbbb'ovov,[0;1;2;3]); (n_t2'bbbb,[0;2;4;3])] [4;1]));
  (*313*) Assign (T 5) (Plain (Einsum [(n_v'aabb'ovov,[0;1;2;3]); (n_t2'abab,[0;2;4;3])] [4;1]));
  (*314*) Assign (T 3) (Times (Einsum [(n_t2'aaaa,[0;1;2;3]); (n_v'aaaa'ovov,[0;3;1;4])] [2;4]) (-1) 1)]
 [(T 11,[7;7]); (T 13,[7;7]); (T 3,[5;5]); (T 5,[5;5])].

(** ebcc/codegen/UMP2.py:318-397 [hbar_matvec_ea] *)
Definition UMP2_hbar_matvec_ea : prog := mkprog
 [(n_f'bb'vv,[7;7]); (n_r2'bbb,[7;7;6]); (n_r1'b,[7]); (n_v'bbbb'ovvv,[6;7;7;7]); (n_r2'aaa,[5;5;4]); (n_f'aa'vv,[5;5]); (n_r1'a,[5]); (n_v'aaaa'ovvv,[4;5;5;5]); (IT 11,[7;7]); (IT 13,[7;7]); (IT 3,[5;5]); (IT 5,[5;5]); (n_f'bb'oo,[6;6]); (n_r2'bab,[7;5;6]); (n_v'aabb'vvov,[5;5;6;7]); (n_r2'aba,[5;7;4]); (n_f'aa'oo,[4;4]); (n_v'aabb'ovvv,[4;5;7;7])]
 [(*344*) Assign (T 8) (Plain (Einsum [(n_f'bb'vv,[0;1]); (n_r2'bbb,[2;1;3])] [3;0;2]));
  (*345*) Assign (T 9) (Plain (Einsum [(n_r1'b,[0]); (n_v'bbbb'ovvv,[1;2;3;0])] [1;2;3]));
  (*346*) Assign (T 5) (Plain (Einsum [(n_r2'aaa,[0;1;2]); (n_f'aa'vv,[3;1])] [2;3;0]));
  (*347*) Assign (T 6) (Plain (Einsum [(n_r1'a,[0]); (n_v'aaaa'ovvv,[1;2;3;0])] [1;2;3]));
  (*348*) Assign (T 3) (Plain (Copy (IT 11)));
  (*349*) Del (IT 11);
  (*350*) AddTo (T 3) (Times (Copy (IT 13)) (1) 2);
  (*351*) Del (IT 13);
  (*352*) Assign (T 1) (Plain (Copy (IT 3)));
  (*353*) Del (IT 3);
  (*354*) AddTo (T 1) (Times (Copy (IT 5)) (1) 2);
  (*355*) Del (IT 5);
  (*356*) Assign (T 10) (Times (Copy (T 8)) (2) 1);
  (*357*) Del (T 8);
  (*358*) AddTo (T 10) (Plain (Copy (T 9)));
  (*359*) Del (T 9);
  (*360*) Assign (T 7) (Times (Copy (T 5)) (2) 1);
  (*361*) Del (T 5);
  (*362*) AddTo (T 7) (Plain (Copy (T 6)));
  (*363*) Del (T 6);
  (*364*) Assign (T 4) (Times (Copy n_f'bb'vv) (-1) 1);
  (*365*) AddTo (T 4) (Plain (Copy (T 3)));
  (*366*) AddTo (T 4) (Plain (Transpose (T 3) [1;0]));
  (*367*) Del (T 3);
  (*368*) Assign (T 2) (Times (Copy n_f'aa'vv) (-1) 1);
  (*369*) AddTo (T 2) (Plain (Copy (T 1)));
  (*370*) AddTo (T 2) (Plain (Transpose (T 1) [1;0]));
  (*371*) Del (T 1);
  (*372*) Assign n_r2new'bbb (Times (Einsum [(n_f'bb'oo,[0;1]); (n_r2'bbb,[2;3;1])] [2;3;0]) (-2) 1);
  (*373*) AddTo n_r2new'bbb (Times (Transpose (T 10) [1;2;0]) (-1) 1);
  (*374*) AddTo n_r2new'bbb (Plain (Transpose (T 10) [2;1;0]));
  (*375*) Del (T 10);
  (*376*) Assign n_r2new'bab (Plain (Einsum [(n_f'aa'vv,[0;1]); (n_r2'bab,[2;1;3])] [2;0;3]));
  (*377*) AddTo n_r2new'bab (Times (Einsum [(n_r1'a,[0]); (n_v'aabb'vvov,[1;0;2;3])] [3;1;2]) (-1) 1);
  (*378*) AddTo n_r2new'bab (Times (Einsum [(n_f'bb'oo,[0;1]); (n_r2'bab,[2;3;1])] [2;3;0]) (-1) 1);
  (*379*) AddTo n_r2new'bab (Plain (Einsum [(n_r2'bab,[0;1;2]); (n_f'bb'vv,[3;0])] [3;1;2]));
  (*380*) Assign n_r2new'aba (Plain (Einsum [(n_f'aa'vv,[0;1]); (n_r2'aba,[1;2;3])] [0;2;3]));
  (*381*) AddTo n_r2new'aba (Times (Einsum [(n_f'aa'oo,[0;1]); (n_r2'aba,[2;3;1])] [2;3;0]) (-1) 1);
  (*382*) AddTo n_r2new'aba (Plain (Einsum [(n_r2'aba,[0;1;2]); (n_f'bb'vv,[3;1])] [0;3;2]));
  (*383*) AddTo n_r2new'aba (Times (Einsum [(n_r1'b,[0]); (n_v'aabb'ovvv,[1;2;3;0])] [2;3;1]) (-1) 1);
  (*384*) Assign n_r2new'aaa (Times (Einsum [(n_f'aa'oo,[0;1]); (n_r2'aaa,[2;3;1])] [2;3;0]) (-2) 1);
  (*385*) AddTo n_r2new'aaa (Times (Transpose (T 7) [1;2;0]) (-1) 1);
  (*386*) AddTo n_r2new'aaa (Plain (Transpose (T 7) [2;1;0]));
  (*387*) Del (T 7);
  (*388*) Assign n_r1new'b (Times (Einsum [(n_r2'aba,[0;1;2]); (n_v'aabb'ovvv,[2;0;3;1])] [3]) (-1) 1);
  (*389*) AddTo n_r1new'b (Times (Einsum [(n_v'bbbb'ovvv,[0;1;2;3]); (n_r2'bbb,[1;3;0])] [2]) (-2) 1);
  (*390*) AddTo n_r1new'b (Times (Einsum [(n_r1'b,[0]); (T 4,[0;1])] [1]) (-1) 1);
  (*391*) Del (T 4);
  (*392*) Assign n_r1new'a (Times (Einsum [(n_v'aabb'vvov,[0;1;2;3]); (n_r2'bab,[3;1;2])] [0]) (-1) 1);
  (*393*) AddTo n_r1new'a (Times (Einsum [(n_v'aaaa'ovvv,[0;1;2;3]); (n_r2'aaa,[1;3;0])] [2]) (-2) 1);
  (*394*) AddTo n_r1new'a (Times (Einsum [(T 2,[0;1]); (n_r1'a,[0])] [1]) (-1) 1);
  (*395*) Del (T 2)]
 [(n_r1new'b,[7]); (n_r1new'a,[5]); (n_r2new'bbb,[7;7;6]); (n_r2new'bab,[7;5;6]); (n_r2new'aba,[5;7;4]); (n_r2new'aaa,[5;5;4])].

