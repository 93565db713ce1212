(** Generated by tools/translate_codegen.py from ebcc/codegen/UMP3.py; one statement per source line
    (the number in the comment before it). *)
From Coq Require Import ZArith List.
From Verif Require Import CgModel CgNames.
Import ListNotations.

(** ebcc/codegen/UMP3.py:19-71 [energy] *)
Definition UMP3_energy : prog := mkprog
 [(n_v'aaaa'ovov,[4;5;4;5]); (n_v'aaaa'oovv,[4;4;5;5]); (n_v'bbbb'ovov,[6;7;6;7]); (n_v'bbbb'oovv,[6;6;7;7]); (n_t2'bbbb,[6;6;7;7]); (n_t2'aaaa,[4;4;5;5]); (n_v'aaaa'vvvv,[5;5;5;5]); (n_t2'abab,[4;6;5;7]); (n_v'aabb'ovov,[4;5;6;7]); (n_v'aabb'oovv,[4;4;7;7]); (n_v'aabb'vvoo,[5;5;6;6]); (n_v'aabb'vvvv,[5;5;7;7]); (n_v'bbbb'vvvv,[7;7;7;7]); (n_v'bbbb'oooo,[6;6;6;6]); (n_v'aaaa'oooo,[4;4;4;4]); (n_v'aabb'oooo,[4;4;6;6])]
 [(*35*) Assign (T 4) (Plain (Transpose n_v'aaaa'ovov [0;2;1;3]));
  (*36*) AddTo (T 4) (Times (Copy n_v'aaaa'oovv) (-1) 1);
  (*37*) Assign (T 5) (Plain (Transpose n_v'bbbb'ovov [0;2;1;3]));
  (*38*) AddTo (T 5) (Times (Copy n_v'bbbb'oovv) (-1) 1);
  (*39*) Assign (T 1) (Plain (Einsum [(n_t2'bbbb,[0;1;2;3]); (n_t2'bbbb,[4;5;2;3])] [4;0;1;5]));
  (*40*) Assign (T 7) (Plain (Transpose n_v'aaaa'ovov [0;2;1;3]));
  (*41*) AddTo (T 7) (Times (Einsum [(n_t2'aaaa,[0;1;2;3]); (n_v'aaaa'vvvv,[4;3;5;2])] [0;1;4;5]) (-1) 1);
  (*42*) AddTo (T 7) (Times (Einsum [(T 4,[0;1;2;3]); (n_t2'aaaa,[4;0;5;2])] [1;4;3;5]) (4) 1);
  (*43*) Assign (T 2) (Plain (Einsum [(n_t2'aaaa,[0;1;2;3]); (n_t2'aaaa,[4;5;2;3])] [0;4;5;1]));
  (*44*) Assign (T 3) (Plain (Einsum [(n_t2'abab,[0;1;2;3]); (n_t2'abab,[4;5;2;3])] [0;4;1;5]));
  (*45*) Assign (T 6) (Plain (Transpose n_v'aabb'ovov [0;2;1;3]));
  (*46*) AddTo (T 6) (Times (Einsum [(n_t2'aaaa,[0;1;2;3]); (n_v'aabb'ovov,[1;3;4;5])] [0;4;2;5]) (4) 1);
  (*47*) AddTo (T 6) (Times (Einsum [(n_v'aabb'oovv,[0;1;2;3]); (n_t2'abab,[1;4;5;3])] [0;4;5;2]) (-1) 1);
  (*48*) AddTo (T 6) (Times (Einsum [(n_v'aabb'vvoo,[0;1;2;3]); (n_t2'abab,[4;3;1;5])] [4;2;0;5]) (-1) 1);
  (*49*) AddTo (T 6) (Times (Einsum [(n_t2'bbbb,[0;1;2;3]); (n_v'aabb'ovov,[4;5;1;3])] [4;0;5;2]) (4) 1);
  (*50*) AddTo (T 6) (Plain (Einsum [(n_v'aabb'vvvv,[0;1;2;3]); (n_t2'abab,[4;5;1;3])] [4;5;0;2]));
  (*51*) AddTo (T 6) (Plain (Einsum [(T 4,[0;1;2;3]); (n_t2'abab,[0;4;2;5])] [1;4;3;5]));
  (*52*) Del (T 4);
  (*53*) AddTo (T 6) (Plain (Einsum [(T 5,[0;1;2;3]); (n_t2'abab,[4;0;5;2])] [4;1;5;3]));
  (*54*) Assign (T 8) (Plain (Transpose n_v'bbbb'ovov [0;2;1;3]));
  (*55*) AddTo (T 8) (Plain (Einsum [(n_t2'bbbb,[0;1;2;3]); (n_v'bbbb'vvvv,[4;2;5;3])] [0;1;4;5]));
  (*56*) AddTo (T 8) (Times (Einsum [(T 5,[0;1;2;3]); (n_t2'bbbb,[4;0;5;2])] [1;4;3;5]) (4) 1);
  (*57*) Del (T 5);
  (*58*) Assign n_e_mp (Plain (Einsum [(n_v'bbbb'oooo,[0;1;2;3]); (T 1,[1;0;2;3])] []));
  (*59*) Del (T 1);
  (*60*) AddTo n_e_mp (Plain (Einsum [(T 2,[0;1;2;3]); (n_v'aaaa'oooo,[1;0;2;3])] []));
  (*61*) Del (T 2);
  (*62*) AddTo n_e_mp (Plain (Einsum [(T 3,[0;1;2;3]); (n_v'aabb'oooo,[1;0;3;2])] []));
  (*63*) Del (T 3);
  (*64*) AddTo n_e_mp (Plain (Einsum [(T 6,[0;1;2;3]); (n_t2'abab,[0;1;2;3])] []));
  (*65*) Del (T 6);
  (*66*) AddTo n_e_mp (Plain (Einsum [(n_t2'aaaa,[0;1;2;3]); (T 7,[0;1;2;3])] []));
  (*67*) Del (T 7);
  (*68*) AddTo n_e_mp (Plain (Einsum [(n_t2'bbbb,[0;1;2;3]); (T 8,[0;1;2;3])] []));
  (*69*) Del (T 8)]
 [(n_e_mp,[])].

