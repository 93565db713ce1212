(** Generated by tools/translate_codegen.py from ebcc/codegen/ULCCSD.py; one statement per source line
    (the number in the comment before it). *)
From Coq Require Import ZArith List.
From Verif Require Import CgModel CgNames.
Import ListNotations.

(** ebcc/codegen/ULCCSD.py:17-36 [energy] *)
Definition ULCCSD_energy : prog := mkprog
 [(n_t1'aa,[4;5]); (n_f'aa'ov,[4;5]); (n_v'bbbb'ovov,[6;7;6;7]); (n_t2'bbbb,[6;6;7;7]); (n_v'aaaa'ovov,[4;5;4;5]); (n_t2'aaaa,[4;4;5;5]); (n_v'aabb'ovov,[4;5;6;7]); (n_t2'abab,[4;6;5;7]); (n_f'bb'ov,[6;7]); (n_t1'bb,[6;7])]
 [(*30*) Assign n_e_cc (Plain (Einsum [(n_t1'aa,[0;1]); (n_f'aa'ov,[0;1])] []));
  (*31*) AddTo n_e_cc (Times (Einsum [(n_v'bbbb'ovov,[0;1;2;3]); (n_t2'bbbb,[0;2;3;1])] []) (-1) 1);
  (*32*) AddTo n_e_cc (Times (Einsum [(n_v'aaaa'ovov,[0;1;2;3]); (n_t2'aaaa,[0;2;3;1])] []) (-1) 1);
  (*33*) AddTo n_e_cc (Plain (Einsum [(n_v'aabb'ovov,[0;1;2;3]); (n_t2'abab,[0;2;1;3])] []));
  (*34*) AddTo n_e_cc (Plain (Einsum [(n_f'bb'ov,[0;1]); (n_t1'bb,[0;1])] []))]
 [(n_e_cc,[])].

(** ebcc/codegen/ULCCSD.py:38-172 [update_amps] *)
Definition ULCCSD_update_amps : prog := mkprog
 [(n_f'aa'oo,[4;4]); (n_t1'aa,[4;5]); (n_f'aa'ov,[4;5]); (n_t2'aaaa,[4;4;5;5]); (n_v'aaaa'ooov,[4;4;4;5]); (n_v'aabb'ooov,[4;4;6;7]); (n_t2'abab,[4;6;5;7]); (n_f'bb'ov,[6;7]); (n_t1'bb,[6;7]); (n_v'aabb'ovov,[4;5;6;7]); (n_v'aaaa'ovov,[4;5;4;5]); (n_v'aaaa'oovv,[4;4;5;5]); (n_v'aaaa'ovvv,[4;5;5;5]); (n_f'aa'vv,[5;5]); (n_v'aabb'vvov,[5;5;6;7]); (n_f'bb'oo,[6;6]); (n_v'aabb'ovoo,[4;5;6;6]); (n_t2'bbbb,[6;6;7;7]); (n_v'bbbb'ooov,[6;6;6;7]); (n_v'bbbb'ovov,[6;7;6;7]); (n_v'bbbb'oovv,[6;6;7;7]); (n_v'bbbb'ovvv,[6;7;7;7]); (n_v'aabb'ovvv,[4;5;7;7]); (n_f'bb'vv,[7;7]); (n_v'aaaa'oooo,[4;4;4;4]); (n_v'aaaa'vvvv,[5;5;5;5]); (n_v'aabb'oooo,[4;4;6;6]); (n_v'aabb'vvoo,[5;5;6;6]); (n_v'aabb'oovv,[4;4;7;7]); (n_v'aabb'vvvv,[5;5;7;7]); (n_v'bbbb'oooo,[6;6;6;6]); (n_v'bbbb'vvvv,[7;7;7;7])]
 [(*53*) Assign n_t1new'aa (Times (Einsum [(n_f'aa'oo,[0;1]); (n_t1'aa,[1;2])] [0;2]) (-1) 1);
  (*54*) AddTo n_t1new'aa (Plain (Copy n_f'aa'ov));
  (*55*) AddTo n_t1new'aa (Times (Einsum [(n_t2'aaaa,[0;1;2;3]); (n_f'aa'ov,[1;3])] [0;2]) (2) 1);
  (*56*) AddTo n_t1new'aa (Times (Einsum [(n_v'aaaa'ooov,[0;1;2;3]); (n_t2'aaaa,[2;1;4;3])] [0;4]) (2) 1);
  (*57*) AddTo n_t1new'aa (Times (Einsum [(n_v'aabb'ooov,[0;1;2;3]); (n_t2'abab,[1;2;4;3])] [0;4]) (-1) 1);
  (*58*) AddTo n_t1new'aa (Plain (Einsum [(n_f'bb'ov,[0;1]); (n_t2'abab,[2;0;3;1])] [2;3]));
  (*59*) AddTo n_t1new'aa (Plain (Einsum [(n_t1'bb,[0;1]); (n_v'aabb'ovov,[2;3;0;1])] [2;3]));
  (*60*) Assign (T 1) (Plain (Transpose n_v'aaaa'ovov [0;2;1;3]));
  (*61*) AddTo (T 1) (Times (Copy n_v'aaaa'oovv) (-1) 1);
  (*62*) AddTo n_t1new'aa (Plain (Einsum [(T 1,[0;1;2;3]); (n_t1'aa,[0;2])] [1;3]));
  (*63*) AddTo n_t1new'aa (Times (Einsum [(n_v'aaaa'ovvv,[0;1;2;3]); (n_t2'aaaa,[4;0;1;3])] [4;2]) (-2) 1);
  (*64*) AddTo n_t1new'aa (Plain (Einsum [(n_f'aa'vv,[0;1]); (n_t1'aa,[2;1])] [2;0]));
  (*65*) AddTo n_t1new'aa (Plain (Einsum [(n_v'aabb'vvov,[0;1;2;3]); (n_t2'abab,[4;2;1;3])] [4;0]));
  (*66*) Assign n_t1new'bb (Plain (Einsum [(n_f'aa'ov,[0;1]); (n_t2'abab,[0;2;1;3])] [2;3]));
  (*67*) AddTo n_t1new'bb (Plain (Einsum [(n_t1'aa,[0;1]); (n_v'aabb'ovov,[0;1;2;3])] [2;3]));
  (*68*) AddTo n_t1new'bb (Times (Einsum [(n_t1'bb,[0;1]); (n_f'bb'oo,[2;0])] [2;1]) (-1) 1);
  (*69*) AddTo n_t1new'bb (Plain (Copy n_f'bb'ov));
  (*70*) AddTo n_t1new'bb (Times (Einsum [(n_v'aabb'ovoo,[0;1;2;3]); (n_t2'abab,[0;3;1;4])] [2;4]) (-1) 1);
  (*71*) AddTo n_t1new'bb (Times (Einsum [(n_t2'bbbb,[0;1;2;3]); (n_f'bb'ov,[1;3])] [0;2]) (2) 1);
  (*72*) AddTo n_t1new'bb (Times (Einsum [(n_t2'bbbb,[0;1;2;3]); (n_v'bbbb'ooov,[4;0;1;3])] [4;2]) (-2) 1);
  (*73*) Assign (T 2) (Plain (Transpose n_v'bbbb'ovov [0;2;1;3]));
  (*74*) AddTo (T 2) (Times (Copy n_v'bbbb'oovv) (-1) 1);
  (*75*) AddTo n_t1new'bb (Plain (Einsum [(n_t1'bb,[0;1]); (T 2,[0;2;1;3])] [2;3]));
  (*76*) AddTo n_t1new'bb (Times (Einsum [(n_t2'bbbb,[0;1;2;3]); (n_v'bbbb'ovvv,[1;3;4;2])] [0;4]) (2) 1);
  (*77*) AddTo n_t1new'bb (Plain (Einsum [(n_t2'abab,[0;1;2;3]); (n_v'aabb'ovvv,[0;2;4;3])] [1;4]));
  (*78*) AddTo n_t1new'bb (Plain (Einsum [(n_t1'bb,[0;1]); (n_f'bb'vv,[2;1])] [0;2]));
  (*79*) Assign (T 3) (Plain (Einsum [(n_f'aa'oo,[0;1]); (n_t2'aaaa,[2;1;3;4])] [0;2;3;4]));
  (*81*) Assign n_t2new'aaaa (Times (Transpose (T 3) [1;0;3;2]) (2) 1);
  (*82*) Assign (T 4) (Plain (Einsum [(n_v'aaaa'ooov,[0;1;2;3]); (n_t1'aa,[1;4])] [0;2;4;3]));
  (*83*) AddTo n_t2new'aaaa (Plain (Transpose (T 4) [0;1;3;2]));
  (*84*) AddTo n_t2new'aaaa (Times (Transpose (T 3) [0;1;3;2]) (-2) 1);
  (*85*) Del (T 3);
  (*86*) AddTo n_t2new'aaaa (Times (Einsum [(n_t2'aaaa,[0;1;2;3]); (n_v'aaaa'oooo,[4;1;5;0])] [4;5;2;3]) (-2) 1);
  (*87*) Assign (T 5) (Plain (Einsum [(n_f'aa'vv,[0;1]); (n_t2'aaaa,[2;3;4;1])] [2;3;0;4]));
  (*88*) AddTo n_t2new'aaaa (Times (Transpose (T 5) [1;0;2;3]) (2) 1);
  (*89*) AddTo n_t2new'aaaa (Times (Transpose (T 5) [1;0;3;2]) (-2) 1);
  (*90*) Del (T 5);
  (*91*) AddTo n_t2new'aaaa (Times (Transpose (T 4) [1;0;3;2]) (-1) 1);
  (*92*) AddTo n_t2new'aaaa (Plain (Transpose n_v'aaaa'ovov [0;2;1;3]));
  (*93*) Assign (T 6) (Plain (Einsum [(n_v'aabb'ovov,[0;1;2;3]); (n_t2'abab,[4;2;5;3])] [4;0;5;1]));
  (*94*) AddTo n_t2new'aaaa (Plain (Transpose (T 6) [1;0;3;2]));
  (*95*) Assign (T 7) (Times (Einsum [(n_t2'aaaa,[0;1;2;3]); (T 1,[1;4;3;5])] [0;4;2;5]) (2) 1);
  (*96*) AddTo n_t2new'aaaa (Plain (Transpose (T 7) [1;0;3;2]));
  (*97*) AddTo n_t2new'aaaa (Plain (Transpose (T 4) [1;0;2;3]));
  (*98*) AddTo n_t2new'aaaa (Times (Transpose n_v'aaaa'ovov [0;2;3;1]) (-1) 1);
  (*99*) AddTo n_t2new'aaaa (Times (Transpose (T 6) [1;0;2;3]) (-1) 1);
  (*100*) AddTo n_t2new'aaaa (Times (Transpose (T 7) [1;0;2;3]) (-1) 1);
  (*101*) AddTo n_t2new'aaaa (Times (Copy (T 4)) (-1) 1);
  (*102*) Del (T 4);
  (*103*) Assign (T 8) (Plain (Einsum [(n_v'aaaa'ovvv,[0;1;2;3]); (n_t1'aa,[4;3])] [4;0;1;2]));
  (*104*) AddTo n_t2new'aaaa (Plain (Transpose (T 8) [0;1;3;2]));
  (*105*) AddTo n_t2new'aaaa (Times (Copy (T 8)) (-1) 1);
  (*106*) AddTo n_t2new'aaaa (Times (Transpose (T 8) [1;0;3;2]) (-1) 1);
  (*107*) AddTo n_t2new'aaaa (Plain (Transpose (T 8) [1;0;2;3]));
  (*108*) Del (T 8);
  (*109*) AddTo n_t2new'aaaa (Times (Transpose (T 6) [0;1;3;2]) (-1) 1);
  (*110*) AddTo n_t2new'aaaa (Times (Transpose (T 7) [0;1;3;2]) (-1) 1);
  (*111*) AddTo n_t2new'aaaa (Plain (Copy (T 6)));
  (*112*) Del (T 6);
  (*113*) AddTo n_t2new'aaaa (Plain (Copy (T 7)));
  (*114*) Del (T 7);
  (*115*) AddTo n_t2new'aaaa (Times (Einsum [(n_t2'aaaa,[0;1;2;3]); (n_v'aaaa'vvvv,[4;3;5;2])] [0;1;4;5]) (-2) 1);
  (*116*) Assign n_t2new'abab (Times (Einsum [(n_f'bb'oo,[0;1]); (n_t2'abab,[2;1;3;4])] [2;0;3;4]) (-1) 1);
  (*117*) AddTo n_t2new'abab (Times (Einsum [(n_t2'abab,[0;1;2;3]); (n_f'aa'oo,[4;0])] [4;1;2;3]) (-1) 1);
  (*118*) AddTo n_t2new'abab (Plain (Einsum [(n_v'aabb'oooo,[0;1;2;3]); (n_t2'abab,[1;3;4;5])] [0;2;4;5]));
  (*119*) AddTo n_t2new'abab (Plain (Einsum [(n_f'aa'vv,[0;1]); (n_t2'abab,[2;3;1;4])] [2;3;0;4]));
  (*120*) AddTo n_t2new'abab (Plain (Einsum [(n_t2'abab,[0;1;2;3]); (n_f'bb'vv,[4;3])] [0;1;2;4]));
  (*121*) AddTo n_t2new'abab (Times (Einsum [(n_v'aabb'ovoo,[0;1;2;3]); (n_t1'bb,[3;4])] [0;2;1;4]) (-1) 1);
  (*122*) AddTo n_t2new'abab (Times (Einsum [(n_t2'bbbb,[0;1;2;3]); (n_v'aabb'ovov,[4;5;1;3])] [4;0;5;2]) (2) 1);
  (*123*) AddTo n_t2new'abab (Plain (Transpose n_v'aabb'ovov [0;2;1;3]));
  (*124*) AddTo n_t2new'abab (Plain (Einsum [(n_t2'abab,[0;1;2;3]); (T 1,[0;4;2;5])] [4;1;5;3]));
  (*125*) Del (T 1);
  (*126*) AddTo n_t2new'abab (Times (Einsum [(n_v'aabb'ooov,[0;1;2;3]); (n_t1'aa,[1;4])] [0;2;4;3]) (-1) 1);
  (*127*) AddTo n_t2new'abab (Plain (Einsum [(n_v'aabb'vvov,[0;1;2;3]); (n_t1'aa,[4;1])] [4;2;0;3]));
  (*128*) AddTo n_t2new'abab (Plain (Einsum [(n_t1'bb,[0;1]); (n_v'aabb'ovvv,[2;3;4;1])] [2;0;3;4]));
  (*129*) AddTo n_t2new'abab (Times (Einsum [(n_v'aabb'vvoo,[0;1;2;3]); (n_t2'abab,[4;3;1;5])] [4;2;0;5]) (-1) 1);
  (*130*) AddTo n_t2new'abab (Times (Einsum [(n_t2'aaaa,[0;1;2;3]); (n_v'aabb'ovov,[1;3;4;5])] [0;4;2;5]) (2) 1);
  (*131*) AddTo n_t2new'abab (Plain (Einsum [(T 2,[0;1;2;3]); (n_t2'abab,[4;0;5;2])] [4;1;5;3]));
  (*132*) AddTo n_t2new'abab (Times (Einsum [(n_t2'abab,[0;1;2;3]); (n_v'aabb'oovv,[4;0;5;3])] [4;1;2;5]) (-1) 1);
  (*133*) AddTo n_t2new'abab (Plain (Einsum [(n_t2'abab,[0;1;2;3]); (n_v'aabb'vvvv,[4;2;5;3])] [0;1;4;5]));
  (*134*) Assign (T 9) (Plain (Einsum [(n_t2'bbbb,[0;1;2;3]); (n_f'bb'oo,[4;1])] [4;0;2;3]));
  (*135*) Assign n_t2new'bbbb (Times (Transpose (T 9) [1;0;3;2]) (2) 1);
  (*136*) Assign (T 10) (Plain (Einsum [(n_t1'bb,[0;1]); (n_v'bbbb'ooov,[2;0;3;4])] [2;3;1;4]));
  (*137*) AddTo n_t2new'bbbb (Plain (Transpose (T 10) [0;1;3;2]));
  (*138*) AddTo n_t2new'bbbb (Times (Transpose (T 9) [0;1;3;2]) (-2) 1);
  (*139*) Del (T 9);
  (*140*) AddTo n_t2new'bbbb (Times (Einsum [(n_v'bbbb'oooo,[0;1;2;3]); (n_t2'bbbb,[3;1;4;5])] [0;2;4;5]) (-2) 1);
  (*141*) Assign (T 11) (Plain (Einsum [(n_f'bb'vv,[0;1]); (n_t2'bbbb,[2;3;4;1])] [2;3;0;4]));
  (*142*) AddTo n_t2new'bbbb (Times (Transpose (T 11) [1;0;2;3]) (2) 1);
  (*143*) AddTo n_t2new'bbbb (Times (Transpose (T 11) [1;0;3;2]) (-2) 1);
  (*144*) Del (T 11);
  (*145*) AddTo n_t2new'bbbb (Times (Transpose (T 10) [1;0;3;2]) (-1) 1);
  (*146*) Assign (T 12) (Plain (Einsum [(n_v'aabb'ovov,[0;1;2;3]); (n_t2'abab,[0;4;1;5])] [4;2;5;3]));
  (*147*) AddTo n_t2new'bbbb (Plain (Transpose (T 12) [1;0;3;2]));
  (*148*) AddTo n_t2new'bbbb (Plain (Transpose n_v'bbbb'ovov [0;2;1;3]));
  (*149*) Assign (T 13) (Times (Einsum [(T 2,[0;1;2;3]); (n_t2'bbbb,[4;0;5;2])] [4;1;5;3]) (2) 1);
  (*150*) Del (T 2);
  (*151*) AddTo n_t2new'bbbb (Plain (Transpose (T 13) [1;0;3;2]));
  (*152*) AddTo n_t2new'bbbb (Plain (Transpose (T 10) [1;0;2;3]));
  (*153*) AddTo n_t2new'bbbb (Times (Transpose (T 12) [1;0;2;3]) (-1) 1);
  (*154*) AddTo n_t2new'bbbb (Times (Transpose n_v'bbbb'ovov [0;2;3;1]) (-1) 1);
  (*155*) AddTo n_t2new'bbbb (Times (Transpose (T 13) [1;0;2;3]) (-1) 1);
  (*156*) AddTo n_t2new'bbbb (Times (Copy (T 10)) (-1) 1);
  (*157*) Del (T 10);
  (*158*) Assign (T 14) (Plain (Einsum [(n_v'bbbb'ovvv,[0;1;2;3]); (n_t1'bb,[4;3])] [4;0;1;2]));
  (*159*) AddTo n_t2new'bbbb (Plain (Transpose (T 14) [0;1;3;2]));
  (*160*) AddTo n_t2new'bbbb (Times (Copy (T 14)) (-1) 1);
  (*161*) AddTo n_t2new'bbbb (Times (Transpose (T 14) [1;0;3;2]) (-1) 1);
  (*162*) AddTo n_t2new'bbbb (Plain (Transpose (T 14) [1;0;2;3]));
  (*163*) Del (T 14);
  (*164*) AddTo n_t2new'bbbb (Times (Transpose (T 12) [0;1;3;2]) (-1) 1);
  (*165*) AddTo n_t2new'bbbb (Times (Transpose (T 13) [0;1;3;2]) (-1) 1);
  (*166*) AddTo n_t2new'bbbb (Plain (Copy (T 12)));
  (*167*) Del (T 12);
  (*168*) AddTo n_t2new'bbbb (Plain (Copy (T 13)));
  (*169*) Del (T 13);
  (*170*) AddTo n_t2new'bbbb (Times (Einsum [(n_t2'bbbb,[0;1;2;3]); (n_v'bbbb'vvvv,[4;3;5;2])] [0;1;4;5]) (-2) 1)]
 [(n_t1new'aa,[4;5]); (n_t1new'bb,[6;7]); (n_t2new'aaaa,[4;4;5;5]); (n_t2new'abab,[4;6;5;7]); (n_t2new'bbbb,[6;6;7;7])].

