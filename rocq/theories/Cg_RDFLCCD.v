(** Generated by tools/translate_codegen.py from ebcc/codegen/RDFLCCD.py; one statement per source line
    (the number in the comment before it). *)
From Coq Require Import ZArith List.
From Verif Require Import CgModel CgNames.
Import ListNotations.

(** ebcc/codegen/RDFLCCD.py:17-35 [energy] *)
Definition RDFLCCD_energy : prog := mkprog
 [(n_t2,[0;0;1;1]); (n_v'xov,[2;0;1])]
 [(*28*) Assign (T 1) (Times (Transpose n_t2 [1;0;2;3]) (2) 1);
  (*29*) AddTo (T 1) (Times (Transpose n_t2 [1;0;3;2]) (-1) 1);
  (*30*) Assign (T 2) (Times (Einsum [(n_v'xov,[0;1;2]); (T 1,[1;3;4;2])] [3;4;0]) (1) 2);
  (*31*) Del (T 1);
  (*32*) Assign n_e_cc (Times (Einsum [(T 2,[0;1;2]); (n_v'xov,[2;0;1])] []) (2) 1);
  (*33*) Del (T 2)]
 [(n_e_cc,[])].

(** ebcc/codegen/RDFLCCD.py:37-86 [update_amps] *)
Definition RDFLCCD_update_amps : prog := mkprog
 [(n_v'xoo,[2;0;0]); (n_t2,[0;0;1;1]); (n_v'xov,[2;0;1]); (n_v'xvv,[2;1;1]); (n_f'oo,[0;0]); (n_f'vv,[1;1])]
 [(*49*) Assign (T 1) (Plain (Einsum [(n_v'xoo,[0;1;2]); (n_v'xoo,[0;3;4])] [1;3;4;2]));
  (*50*) Assign n_t2new (Plain (Einsum [(T 1,[0;1;2;3]); (n_t2,[1;3;4;5])] [2;0;4;5]));
  (*51*) Del (T 1);
  (*52*) AddTo n_t2new (Plain (Einsum [(n_v'xov,[0;1;2]); (n_v'xov,[0;3;4])] [3;1;4;2]));
  (*53*) Assign (T 2) (Plain (Einsum [(n_v'xvv,[0;1;2]); (n_v'xvv,[0;3;4])] [1;3;4;2]));
  (*54*) AddTo n_t2new (Plain (Einsum [(n_t2,[0;1;2;3]); (T 2,[4;2;5;3])] [0;1;5;4]));
  (*55*) Del (T 2);
  (*56*) Assign (T 3) (Plain (Einsum [(n_v'xvv,[0;1;2]); (n_v'xoo,[0;3;4])] [3;4;1;2]));
  (*57*) Assign (T 4) (Plain (Einsum [(T 3,[0;1;2;3]); (n_t2,[4;1;5;3])] [4;0;5;2]));
  (*58*) Assign (T 8) (Plain (Copy (T 4)));
  (*59*) Del (T 4);
  (*60*) Assign (T 5) (Times (Transpose n_t2 [0;1;3;2]) (2) 1);
  (*61*) AddTo (T 5) (Times (Copy n_t2) (-1) 1);
  (*62*) Assign (T 6) (Times (Einsum [(n_v'xov,[0;1;2]); (T 5,[1;3;4;2])] [3;4;0]) (1) 2);
  (*63*) Del (T 5);
  (*64*) Assign (T 7) (Times (Einsum [(n_v'xov,[0;1;2]); (T 6,[3;4;0])] [1;3;2;4]) (2) 1);
  (*65*) Del (T 6);
  (*66*) AddTo (T 8) (Times (Transpose (T 7) [1;0;3;2]) (-1) 1);
  (*67*) Del (T 7);
  (*68*) AddTo n_t2new (Times (Copy (T 8)) (-1) 1);
  (*69*) AddTo n_t2new (Times (Transpose (T 8) [1;0;3;2]) (-1) 1);
  (*70*) Del (T 8);
  (*71*) Assign (T 9) (Plain (Einsum [(n_f'oo,[0;1]); (n_t2,[2;1;3;4])] [0;2;3;4]));
  (*72*) Assign (T 11) (Plain (Copy (T 9)));
  (*73*) Del (T 9);
  (*74*) Assign (T 10) (Plain (Einsum [(n_t2,[0;1;2;3]); (T 3,[4;1;5;2])] [0;4;3;5]));
  (*75*) Del (T 3);
  (*76*) AddTo (T 11) (Plain (Copy (T 10)));
  (*77*) Del (T 10);
  (*78*) AddTo n_t2new (Times (Transpose (T 11) [0;1;3;2]) (-1) 1);
  (*79*) AddTo n_t2new (Times (Transpose (T 11) [1;0;2;3]) (-1) 1);
  (*80*) Del (T 11);
  (*81*) Assign (T 12) (Plain (Einsum [(n_f'vv,[0;1]); (n_t2,[2;3;4;1])] [2;3;0;4]));
  (*82*) AddTo n_t2new (Plain (Transpose (T 12) [0;1;3;2]));
  (*83*) AddTo n_t2new (Plain (Transpose (T 12) [1;0;2;3]));
  (*84*) Del (T 12)]
 [(n_t2new,[0;0;1;1])].

