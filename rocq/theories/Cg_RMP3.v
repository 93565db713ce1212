(** Generated by tools/translate_codegen.py from ebcc/codegen/RMP3.py; one statement per source line
    (the number in the comment before it). *)
From Coq Require Import ZArith List.
From Verif Require Import CgModel CgNames.
Import ListNotations.

(** ebcc/codegen/RMP3.py:19-64 [energy] *)
Definition RMP3_energy : prog := mkprog
 [(n_v'ovov,[0;1;0;1]); (n_v'oovv,[0;0;1;1]); (n_t2,[0;0;1;1]); (n_v'vvvv,[1;1;1;1]); (n_v'oooo,[0;0;0;0])]
 [(*35*) Assign (T 5) (Plain (Transpose n_v'ovov [0;2;1;3]));
  (*36*) AddTo (T 5) (Times (Copy n_v'oovv) (-1) 2);
  (*37*) Assign (T 7) (Plain (Einsum [(n_t2,[0;1;2;3]); (n_t2,[4;5;2;3])] [0;4;5;1]));
  (*38*) Assign (T 3) (Times (Transpose n_v'ovov [0;2;1;3]) (2) 1);
  (*39*) AddTo (T 3) (Times (Copy n_v'oovv) (-1) 1);
  (*40*) Assign (T 2) (Plain (Copy n_v'oovv));
  (*41*) AddTo (T 2) (Times (Transpose n_v'ovov [0;2;1;3]) (-1) 2);
  (*42*) Assign (T 1) (Plain (Einsum [(n_t2,[0;1;2;3]); (n_v'vvvv,[4;2;5;3])] [0;1;4;5]));
  (*43*) Assign (T 6) (Times (Transpose n_v'ovov [0;2;3;1]) (-1) 2);
  (*44*) AddTo (T 6) (Plain (Transpose n_v'ovov [0;2;1;3]));
  (*45*) AddTo (T 6) (Times (Einsum [(n_t2,[0;1;2;3]); (T 5,[1;4;3;5])] [0;4;2;5]) (4) 1);
  (*46*) Del (T 5);
  (*47*) Assign (T 8) (Times (Transpose (T 7) [3;1;2;0]) (-1) 2);
  (*48*) AddTo (T 8) (Plain (Transpose (T 7) [3;2;1;0]));
  (*49*) Del (T 7);
  (*50*) Assign (T 4) (Plain (Transpose (T 1) [1;0;2;3]));
  (*51*) AddTo (T 4) (Times (Transpose (T 1) [1;0;3;2]) (-1) 2);
  (*52*) Del (T 1);
  (*53*) AddTo (T 4) (Times (Einsum [(T 2,[0;1;2;3]); (n_t2,[4;0;2;5])] [4;1;5;3]) (-2) 1);
  (*54*) Del (T 2);
  (*55*) AddTo (T 4) (Times (Einsum [(n_t2,[0;1;2;3]); (T 3,[1;4;3;5])] [0;4;2;5]) (-2) 1);
  (*56*) Del (T 3);
  (*57*) Assign n_e_mp (Times (Einsum [(n_t2,[0;1;2;3]); (T 4,[1;0;2;3])] []) (2) 1);
  (*58*) Del (T 4);
  (*59*) AddTo n_e_mp (Times (Einsum [(T 6,[0;1;2;3]); (n_t2,[1;0;3;2])] []) (2) 1);
  (*60*) Del (T 6);
  (*61*) AddTo n_e_mp (Times (Einsum [(n_v'oooo,[0;1;2;3]); (T 8,[0;1;3;2])] []) (2) 1);
  (*62*) Del (T 8)]
 [(n_e_mp,[])].

