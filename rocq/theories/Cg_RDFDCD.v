(** Generated by tools/translate_codegen.py from ebcc/codegen/RDFDCD.py; one statement per source line
    (the number in the comment before it). *)
From Coq Require Import ZArith List.
From Verif Require Import CgModel CgNames.
Import ListNotations.

(** ebcc/codegen/RDFDCD.py:19-43 [energy] *)
Definition RDFDCD_energy : prog := mkprog
 [(n_t2,[0;0;1;1]); (n_v'xov,[2;0;1])]
 [(*36*) Assign (T 1) (Times (Transpose n_t2 [0;1;3;2]) (-1) 1);
  (*37*) AddTo (T 1) (Times (Copy n_t2) (2) 1);
  (*38*) Assign (T 2) (Times (Einsum [(T 1,[0;1;2;3]); (n_v'xov,[4;0;2])] [1;3;4]) (1) 2);
  (*39*) Del (T 1);
  (*40*) Assign n_e_cc (Times (Einsum [(T 2,[0;1;2]); (n_v'xov,[2;0;1])] []) (2) 1);
  (*41*) Del (T 2)]
 [(n_e_cc,[])].

(** ebcc/codegen/RDFDCD.py:45-128 [update_amps] *)
Definition RDFDCD_update_amps : prog := mkprog
 [(n_t2,[0;0;1;1]); (n_v'xov,[2;0;1]); (n_v'xvv,[2;1;1]); (n_v'xoo,[2;0;0]); (n_f'vv,[1;1]); (n_f'oo,[0;0])]
 [(*64*) Assign (T 7) (Times (Transpose n_t2 [0;1;3;2]) (-1) 1);
  (*65*) AddTo (T 7) (Times (Copy n_t2) (2) 1);
  (*66*) Assign (T 8) (Plain (Einsum [(T 7,[0;1;2;3]); (n_v'xov,[4;0;2])] [1;3;4]));
  (*67*) Del (T 7);
  (*68*) Assign (T 19) (Times (Transpose n_t2 [0;1;3;2]) (-1) 1);
  (*69*) AddTo (T 19) (Times (Copy n_t2) (2) 1);
  (*70*) Assign (T 11) (Plain (Einsum [(n_v'xov,[0;1;2]); (T 8,[3;2;0])] [1;3]));
  (*71*) Assign (T 9) (Times (Einsum [(n_v'xov,[0;1;2]); (T 8,[1;3;0])] [2;3]) (1) 2);
  (*72*) Del (T 8);
  (*73*) Assign (T 2) (Plain (Einsum [(n_t2,[0;1;2;3]); (n_v'xov,[4;1;2])] [0;3;4]));
  (*74*) Assign (T 3) (Plain (Einsum [(n_t2,[0;1;2;3]); (n_v'xov,[4;1;3])] [0;2;4]));
  (*75*) Assign (T 15) (Plain (Einsum [(n_v'xvv,[0;1;2]); (n_v'xoo,[0;3;4])] [3;4;1;2]));
  (*76*) Assign (T 20) (Plain (Einsum [(n_v'xov,[0;1;2]); (T 19,[1;3;2;4])] [3;4;0]));
  (*77*) Del (T 19);
  (*78*) Assign (T 12) (Times (Einsum [(n_t2,[0;1;2;3]); (T 11,[1;4])] [0;4;3;2]) (1) 2);
  (*79*) Del (T 11);
  (*80*) Assign (T 10) (Plain (Einsum [(T 9,[0;1]); (n_t2,[2;3;0;4])] [2;3;4;1]));
  (*81*) Del (T 9);
  (*82*) Assign (T 6) (Plain (Einsum [(T 3,[0;1;2]); (T 2,[3;4;2])] [0;3;1;4]));
  (*83*) Assign (T 18) (Plain (Einsum [(n_t2,[0;1;2;3]); (T 15,[4;1;5;3])] [0;4;2;5]));
  (*84*) Assign (T 21) (Plain (Einsum [(n_v'xov,[0;1;2]); (T 20,[3;4;0])] [1;3;2;4]));
  (*85*) Del (T 20);
  (*86*) Assign (T 16) (Plain (Einsum [(n_t2,[0;1;2;3]); (T 15,[4;1;5;2])] [0;4;3;5]));
  (*87*) Del (T 15);
  (*88*) Assign (T 14) (Plain (Einsum [(n_f'vv,[0;1]); (n_t2,[2;3;4;1])] [2;3;0;4]));
  (*89*) Assign (T 5) (Plain (Einsum [(n_f'oo,[0;1]); (n_t2,[2;1;3;4])] [0;2;3;4]));
  (*90*) Assign (T 1) (Plain (Einsum [(n_v'xoo,[0;1;2]); (n_v'xoo,[0;3;4])] [3;1;2;4]));
  (*91*) Assign (T 4) (Plain (Einsum [(n_v'xvv,[0;1;2]); (n_v'xvv,[0;3;4])] [1;3;4;2]));
  (*92*) Assign (T 13) (Times (Copy (T 6)) (2) 1);
  (*93*) Del (T 6);
  (*94*) AddTo (T 13) (Plain (Transpose (T 10) [1;0;2;3]));
  (*95*) Del (T 10);
  (*96*) AddTo (T 13) (Plain (Transpose (T 12) [0;1;3;2]));
  (*97*) Del (T 12);
  (*98*) Assign (T 22) (Plain (Copy (T 18)));
  (*99*) Del (T 18);
  (*100*) AddTo (T 22) (Times (Transpose (T 21) [1;0;3;2]) (-1) 1);
  (*101*) Del (T 21);
  (*102*) Assign (T 17) (Plain (Copy (T 14)));
  (*103*) Del (T 14);
  (*104*) AddTo (T 17) (Times (Copy (T 16)) (-1) 1);
  (*105*) Del (T 16);
  (*106*) Assign n_t2new (Plain (Einsum [(n_v'xov,[0;1;2]); (n_v'xov,[0;3;4])] [1;3;2;4]));
  (*107*) AddTo n_t2new (Plain (Einsum [(T 1,[0;1;2;3]); (n_t2,[1;3;4;5])] [2;0;4;5]));
  (*108*) Del (T 1);
  (*109*) AddTo n_t2new (Plain (Einsum [(T 2,[0;1;2]); (T 2,[3;4;2])] [0;3;1;4]));
  (*110*) Del (T 2);
  (*111*) AddTo n_t2new (Times (Einsum [(T 3,[0;1;2]); (T 3,[3;4;2])] [0;3;1;4]) (4) 1);
  (*112*) Del (T 3);
  (*113*) AddTo n_t2new (Plain (Einsum [(T 4,[0;1;2;3]); (n_t2,[4;5;1;3])] [4;5;2;0]));
  (*114*) Del (T 4);
  (*115*) AddTo n_t2new (Times (Transpose (T 5) [0;1;3;2]) (-1) 1);
  (*116*) AddTo n_t2new (Times (Transpose (T 5) [1;0;2;3]) (-1) 1);
  (*117*) Del (T 5);
  (*118*) AddTo n_t2new (Times (Copy (T 13)) (-1) 1);
  (*119*) AddTo n_t2new (Times (Transpose (T 13) [1;0;3;2]) (-1) 1);
  (*120*) Del (T 13);
  (*121*) AddTo n_t2new (Plain (Transpose (T 17) [0;1;3;2]));
  (*122*) AddTo n_t2new (Plain (Transpose (T 17) [1;0;2;3]));
  (*123*) Del (T 17);
  (*124*) AddTo n_t2new (Times (Copy (T 22)) (-1) 1);
  (*125*) AddTo n_t2new (Times (Transpose (T 22) [1;0;3;2]) (-1) 1);
  (*126*) Del (T 22)]
 [(n_t2new,[0;0;1;1])].

