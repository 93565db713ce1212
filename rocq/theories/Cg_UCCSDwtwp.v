(** Generated by tools/translate_codegen.py from ebcc/codegen/UCCSDwtwp.py; one statement per source line
    (the number in the comment before it). *)
From Coq Require Import ZArith List.
From Verif Require Import CgModel CgNames.
Import ListNotations.

(** ebcc/codegen/UCCSDwtwp.py:7-33 [energy] *)
Definition UCCSDwtwp_energy : prog := mkprog
 [(n_t2'bbbb,[6;6;7;7]); (n_v'bbbb'ovov,[6;7;6;7]); (n_t2'abab,[4;6;5;7]); (n_v'aabb'ovov,[4;5;6;7]); (n_t2'aaaa,[4;4;5;5]); (n_v'aaaa'ovov,[4;5;4;5]); (n_f'bb'ov,[6;7]); (n_t1'aa,[4;5]); (n_t1'bb,[6;7]); (n_f'aa'ov,[4;5])]
 [(*9*) Assign n_e_cc (Plain (Zeros []));
  (*10*) AddTo n_e_cc (Plain (Einsum [(n_t2'bbbb,[0;1;2;3]); (n_v'bbbb'ovov,[0;2;1;3])] []));
  (*11*) AddTo n_e_cc (Plain (Einsum [(n_t2'abab,[0;1;2;3]); (n_v'aabb'ovov,[0;2;1;3])] []));
  (*12*) AddTo n_e_cc (Times (Einsum [(n_t2'aaaa,[0;1;2;3]); (n_v'aaaa'ovov,[0;3;1;2])] []) (-1) 1);
  (*13*) Assign (T 1) (Plain (Zeros [6;6;7;7]));
  (*14*) AddTo (T 1) (Times (Einsum [(n_v'bbbb'ovov,[0;1;2;3])] [0;2;3;1]) (-1) 1);
  (*15*) AddTo (T 1) (Plain (Einsum [(n_v'bbbb'ovov,[0;1;2;3])] [0;2;1;3]));
  (*16*) Assign (T 2) (Plain (Zeros [6;7]));
  (*17*) AddTo (T 2) (Times (Einsum [(n_f'bb'ov,[0;1])] [0;1]) (2) 1);
  (*18*) AddTo (T 2) (Times (Einsum [(n_t1'aa,[0;1]); (n_v'aabb'ovov,[0;1;2;3])] [2;3]) (2) 1);
  (*19*) AddTo (T 2) (Times (Einsum [(n_t1'bb,[0;1]); (T 1,[0;2;3;1])] [2;3]) (-1) 1);
  (*20*) Del (T 1);
  (*21*) AddTo n_e_cc (Times (Einsum [(n_t1'bb,[0;1]); (T 2,[0;1])] []) (1) 2);
  (*22*) Del (T 2);
  (*23*) Assign (T 3) (Plain (Zeros [4;4;5;5]));
  (*24*) AddTo (T 3) (Times (Einsum [(n_v'aaaa'ovov,[0;1;2;3])] [0;2;3;1]) (-1) 1);
  (*25*) AddTo (T 3) (Plain (Einsum [(n_v'aaaa'ovov,[0;1;2;3])] [0;2;1;3]));
  (*26*) Assign (T 4) (Plain (Zeros [4;5]));
  (*27*) AddTo (T 4) (Plain (Einsum [(n_f'aa'ov,[0;1])] [0;1]));
  (*28*) AddTo (T 4) (Times (Einsum [(n_t1'aa,[0;1]); (T 3,[0;2;3;1])] [2;3]) (-1) 2);
  (*29*) Del (T 3);
  (*30*) AddTo n_e_cc (Plain (Einsum [(n_t1'aa,[0;1]); (T 4,[0;1])] []));
  (*31*) Del (T 4)]
 [(n_e_cc,[])].

