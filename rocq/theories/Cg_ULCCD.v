(** Generated by tools/translate_codegen.py from ebcc/codegen/ULCCD.py; one statement per source line
    (the number in the comment before it). *)
From Coq Require Import ZArith List.
From Verif Require Import CgModel CgNames.
Import ListNotations.

(** ebcc/codegen/ULCCD.py:17-32 [energy] *)
Definition ULCCD_energy : prog := mkprog
 [(n_t2'abab,[4;6;5;7]); (n_v'aabb'ovov,[4;5;6;7]); (n_v'aaaa'ovov,[4;5;4;5]); (n_t2'aaaa,[4;4;5;5]); (n_t2'bbbb,[6;6;7;7]); (n_v'bbbb'ovov,[6;7;6;7])]
 [(*28*) Assign n_e_cc (Plain (Einsum [(n_t2'abab,[0;1;2;3]); (n_v'aabb'ovov,[0;2;1;3])] []));
  (*29*) AddTo n_e_cc (Times (Einsum [(n_v'aaaa'ovov,[0;1;2;3]); (n_t2'aaaa,[0;2;3;1])] []) (-1) 1);
  (*30*) AddTo n_e_cc (Times (Einsum [(n_t2'bbbb,[0;1;2;3]); (n_v'bbbb'ovov,[0;3;1;2])] []) (-1) 1)]
 [(n_e_cc,[])].

(** ebcc/codegen/ULCCD.py:34-115 [update_amps] *)
Definition ULCCD_update_amps : prog := mkprog
 [(n_t2'aaaa,[4;4;5;5]); (n_f'aa'oo,[4;4]); (n_v'aaaa'oooo,[4;4;4;4]); (n_f'aa'vv,[5;5]); (n_v'aaaa'ovov,[4;5;4;5]); (n_t2'abab,[4;6;5;7]); (n_v'aabb'ovov,[4;5;6;7]); (n_v'aaaa'oovv,[4;4;5;5]); (n_v'aaaa'vvvv,[5;5;5;5]); (n_f'bb'oo,[6;6]); (n_v'aabb'oooo,[4;4;6;6]); (n_f'bb'vv,[7;7]); (n_t2'bbbb,[6;6;7;7]); (n_v'aabb'vvoo,[5;5;6;6]); (n_v'bbbb'ovov,[6;7;6;7]); (n_v'bbbb'oovv,[6;6;7;7]); (n_v'aabb'oovv,[4;4;7;7]); (n_v'aabb'vvvv,[5;5;7;7]); (n_v'bbbb'oooo,[6;6;6;6]); (n_v'bbbb'vvvv,[7;7;7;7])]
 [(*46*) Assign (T 1) (Plain (Einsum [(n_t2'aaaa,[0;1;2;3]); (n_f'aa'oo,[4;1])] [4;0;2;3]));
  (*48*) Assign n_t2new'aaaa (Times (Transpose (T 1) [1;0;3;2]) (2) 1);
  (*49*) AddTo n_t2new'aaaa (Times (Transpose (T 1) [0;1;3;2]) (-2) 1);
  (*50*) Del (T 1);
  (*51*) AddTo n_t2new'aaaa (Times (Einsum [(n_t2'aaaa,[0;1;2;3]); (n_v'aaaa'oooo,[4;0;5;1])] [4;5;2;3]) (2) 1);
  (*52*) Assign (T 2) (Plain (Einsum [(n_t2'aaaa,[0;1;2;3]); (n_f'aa'vv,[4;3])] [0;1;4;2]));
  (*53*) AddTo n_t2new'aaaa (Times (Transpose (T 2) [1;0;2;3]) (2) 1);
  (*54*) AddTo n_t2new'aaaa (Times (Transpose (T 2) [1;0;3;2]) (-2) 1);
  (*55*) Del (T 2);
  (*56*) AddTo n_t2new'aaaa (Plain (Transpose n_v'aaaa'ovov [0;2;1;3]));
  (*57*) Assign (T 3) (Plain (Einsum [(n_t2'abab,[0;1;2;3]); (n_v'aabb'ovov,[4;5;1;3])] [0;4;2;5]));
  (*58*) AddTo n_t2new'aaaa (Plain (Transpose (T 3) [1;0;3;2]));
  (*59*) Assign (T 4) (Plain (Transpose n_v'aaaa'ovov [0;2;1;3]));
  (*60*) AddTo (T 4) (Times (Copy n_v'aaaa'oovv) (-1) 1);
  (*61*) Assign (T 5) (Times (Einsum [(T 4,[0;1;2;3]); (n_t2'aaaa,[4;0;5;2])] [4;1;5;3]) (2) 1);
  (*62*) AddTo n_t2new'aaaa (Plain (Transpose (T 5) [1;0;3;2]));
  (*63*) AddTo n_t2new'aaaa (Times (Transpose n_v'aaaa'ovov [0;2;3;1]) (-1) 1);
  (*64*) AddTo n_t2new'aaaa (Times (Transpose (T 3) [1;0;2;3]) (-1) 1);
  (*65*) AddTo n_t2new'aaaa (Times (Transpose (T 5) [1;0;2;3]) (-1) 1);
  (*66*) AddTo n_t2new'aaaa (Times (Transpose (T 3) [0;1;3;2]) (-1) 1);
  (*67*) AddTo n_t2new'aaaa (Times (Transpose (T 5) [0;1;3;2]) (-1) 1);
  (*68*) AddTo n_t2new'aaaa (Plain (Copy (T 3)));
  (*69*) Del (T 3);
  (*70*) AddTo n_t2new'aaaa (Plain (Copy (T 5)));
  (*71*) Del (T 5);
  (*72*) AddTo n_t2new'aaaa (Times (Einsum [(n_v'aaaa'vvvv,[0;1;2;3]); (n_t2'aaaa,[4;5;1;3])] [4;5;0;2]) (2) 1);
  (*73*) Assign n_t2new'abab (Times (Einsum [(n_f'bb'oo,[0;1]); (n_t2'abab,[2;1;3;4])] [2;0;3;4]) (-1) 1);
  (*74*) AddTo n_t2new'abab (Plain (Einsum [(n_t2'abab,[0;1;2;3]); (n_v'aabb'oooo,[4;0;5;1])] [4;5;2;3]));
  (*75*) AddTo n_t2new'abab (Times (Einsum [(n_f'aa'oo,[0;1]); (n_t2'abab,[1;2;3;4])] [0;2;3;4]) (-1) 1);
  (*76*) AddTo n_t2new'abab (Plain (Einsum [(n_t2'abab,[0;1;2;3]); (n_f'aa'vv,[4;2])] [0;1;4;3]));
  (*77*) AddTo n_t2new'abab (Plain (Einsum [(n_f'bb'vv,[0;1]); (n_t2'abab,[2;3;4;1])] [2;3;4;0]));
  (*78*) AddTo n_t2new'abab (Times (Einsum [(n_v'aabb'ovov,[0;1;2;3]); (n_t2'bbbb,[4;2;5;3])] [0;4;1;5]) (2) 1);
  (*79*) AddTo n_t2new'abab (Plain (Transpose n_v'aabb'ovov [0;2;1;3]));
  (*80*) AddTo n_t2new'abab (Plain (Einsum [(n_t2'abab,[0;1;2;3]); (T 4,[0;4;2;5])] [4;1;5;3]));
  (*81*) Del (T 4);
  (*82*) AddTo n_t2new'abab (Times (Einsum [(n_v'aabb'vvoo,[0;1;2;3]); (n_t2'abab,[4;3;1;5])] [4;2;0;5]) (-1) 1);
  (*83*) AddTo n_t2new'abab (Times (Einsum [(n_t2'aaaa,[0;1;2;3]); (n_v'aabb'ovov,[1;3;4;5])] [0;4;2;5]) (2) 1);
  (*84*) Assign (T 6) (Plain (Transpose n_v'bbbb'ovov [0;2;1;3]));
  (*85*) AddTo (T 6) (Times (Copy n_v'bbbb'oovv) (-1) 1);
  (*86*) AddTo n_t2new'abab (Plain (Einsum [(n_t2'abab,[0;1;2;3]); (T 6,[1;4;3;5])] [0;4;2;5]));
  (*87*) AddTo n_t2new'abab (Times (Einsum [(n_t2'abab,[0;1;2;3]); (n_v'aabb'oovv,[4;0;5;3])] [4;1;2;5]) (-1) 1);
  (*88*) AddTo n_t2new'abab (Plain (Einsum [(n_t2'abab,[0;1;2;3]); (n_v'aabb'vvvv,[4;2;5;3])] [0;1;4;5]));
  (*89*) Assign (T 7) (Plain (Einsum [(n_f'bb'oo,[0;1]); (n_t2'bbbb,[2;1;3;4])] [0;2;3;4]));
  (*90*) Assign n_t2new'bbbb (Times (Transpose (T 7) [1;0;3;2]) (2) 1);
  (*91*) AddTo n_t2new'bbbb (Times (Transpose (T 7) [0;1;3;2]) (-2) 1);
  (*92*) Del (T 7);
  (*93*) AddTo n_t2new'bbbb (Times (Einsum [(n_t2'bbbb,[0;1;2;3]); (n_v'bbbb'oooo,[4;0;5;1])] [4;5;2;3]) (2) 1);
  (*94*) Assign (T 8) (Plain (Einsum [(n_t2'bbbb,[0;1;2;3]); (n_f'bb'vv,[4;3])] [0;1;4;2]));
  (*95*) AddTo n_t2new'bbbb (Times (Transpose (T 8) [1;0;2;3]) (2) 1);
  (*96*) AddTo n_t2new'bbbb (Times (Transpose (T 8) [1;0;3;2]) (-2) 1);
  (*97*) Del (T 8);
  (*98*) Assign (T 9) (Plain (Einsum [(n_t2'abab,[0;1;2;3]); (n_v'aabb'ovov,[0;2;4;5])] [1;4;3;5]));
  (*99*) AddTo n_t2new'bbbb (Plain (Transpose (T 9) [1;0;3;2]));
  (*100*) AddTo n_t2new'bbbb (Plain (Transpose n_v'bbbb'ovov [0;2;1;3]));
  (*101*) Assign (T 10) (Times (Einsum [(n_t2'bbbb,[0;1;2;3]); (T 6,[1;4;3;5])] [0;4;2;5]) (2) 1);
  (*102*) Del (T 6);
  (*103*) AddTo n_t2new'bbbb (Plain (Transpose (T 10) [1;0;3;2]));
  (*104*) AddTo n_t2new'bbbb (Times (Transpose n_v'bbbb'ovov [0;2;3;1]) (-1) 1);
  (*105*) AddTo n_t2new'bbbb (Times (Transpose (T 9) [1;0;2;3]) (-1) 1);
  (*106*) AddTo n_t2new'bbbb (Times (Transpose (T 10) [1;0;2;3]) (-1) 1);
  (*107*) AddTo n_t2new'bbbb (Times (Transpose (T 9) [0;1;3;2]) (-1) 1);
  (*108*) AddTo n_t2new'bbbb (Times (Transpose (T 10) [0;1;3;2]) (-1) 1);
  (*109*) AddTo n_t2new'bbbb (Plain (Copy (T 9)));
  (*110*) Del (T 9);
  (*111*) AddTo n_t2new'bbbb (Plain (Copy (T 10)));
  (*112*) Del (T 10);
  (*113*) AddTo n_t2new'bbbb (Times (Einsum [(n_t2'bbbb,[0;1;2;3]); (n_v'bbbb'vvvv,[4;2;5;3])] [0;1;4;5]) (2) 1)]
 [(n_t2new'aaaa,[4;4;5;5]); (n_t2new'abab,[4;6;5;7]); (n_t2new'bbbb,[6;6;7;7])].

