(** Generated by tools/translate_codegen.py from ebcc/codegen/UDFLCCD.py; one statement per source line
    (the number in the comment before it). *)
From Coq Require Import ZArith List.
From Verif Require Import CgModel CgNames.
Import ListNotations.

(** ebcc/codegen/UDFLCCD.py:17-36 [energy] *)
Definition UDFLCCD_energy : prog := mkprog
 [(n_t2'bbbb,[6;6;7;7]); (n_v'bb'xov,[2;6;7]); (n_t2'aaaa,[4;4;5;5]); (n_v'aa'xov,[2;4;5]); (n_t2'abab,[4;6;5;7])]
 [(*28*) Assign (T 1) (Plain (Einsum [(n_t2'bbbb,[0;1;2;3]); (n_v'bb'xov,[4;1;3])] [0;2;4]));
  (*29*) Assign n_e_cc (Plain (Einsum [(n_v'bb'xov,[0;1;2]); (T 1,[1;2;0])] []));
  (*30*) Del (T 1);
  (*31*) Assign (T 2) (Plain (Einsum [(n_t2'aaaa,[0;1;2;3]); (n_v'aa'xov,[4;1;3])] [0;2;4]));
  (*32*) AddTo (T 2) (Plain (Einsum [(n_t2'abab,[0;1;2;3]); (n_v'bb'xov,[4;1;3])] [0;2;4]));
  (*33*) AddTo n_e_cc (Plain (Einsum [(n_v'aa'xov,[0;1;2]); (T 2,[1;2;0])] []));
  (*34*) Del (T 2)]
 [(n_e_cc,[])].

(** ebcc/codegen/UDFLCCD.py:38-160 [update_amps] *)
Definition UDFLCCD_update_amps : prog := mkprog
 [(n_f'aa'oo,[4;4]); (n_t2'aaaa,[4;4;5;5]); (n_v'aa'xoo,[2;4;4]); (n_f'aa'vv,[5;5]); (n_v'aa'xvv,[2;5;5]); (n_v'aa'xov,[2;4;5]); (n_t2'abab,[4;6;5;7]); (n_v'bb'xov,[2;6;7]); (n_t2'bbbb,[6;6;7;7]); (n_f'bb'oo,[6;6]); (n_v'bb'xoo,[2;6;6]); (n_f'bb'vv,[7;7]); (n_v'bb'xvv,[2;7;7])]
 [(*50*) Assign (T 1) (Plain (Einsum [(n_f'aa'oo,[0;1]); (n_t2'aaaa,[2;1;3;4])] [0;2;3;4]));
  (*52*) Assign n_t2new'aaaa (Times (Transpose (T 1) [1;0;3;2]) (2) 1);
  (*53*) AddTo n_t2new'aaaa (Times (Transpose (T 1) [0;1;3;2]) (-2) 1);
  (*54*) Del (T 1);
  (*55*) Assign (T 2) (Plain (Einsum [(n_v'aa'xoo,[0;1;2]); (n_v'aa'xoo,[0;3;4])] [1;3;4;2]));
  (*56*) AddTo n_t2new'aaaa (Times (Einsum [(T 2,[0;1;2;3]); (n_t2'aaaa,[1;3;4;5])] [2;0;4;5]) (2) 1);
  (*57*) Del (T 2);
  (*58*) Assign (T 3) (Plain (Einsum [(n_t2'aaaa,[0;1;2;3]); (n_f'aa'vv,[4;3])] [0;1;4;2]));
  (*59*) AddTo n_t2new'aaaa (Times (Transpose (T 3) [1;0;2;3]) (2) 1);
  (*60*) AddTo n_t2new'aaaa (Times (Transpose (T 3) [1;0;3;2]) (-2) 1);
  (*61*) Del (T 3);
  (*62*) Assign (T 4) (Plain (Einsum [(n_v'aa'xoo,[0;1;2]); (n_v'aa'xvv,[0;3;4])] [1;2;3;4]));
  (*63*) Assign (T 5) (Plain (Einsum [(T 4,[0;1;2;3]); (n_t2'aaaa,[4;1;5;3])] [4;0;5;2]));
  (*64*) AddTo n_t2new'aaaa (Times (Transpose (T 5) [1;0;3;2]) (-2) 1);
  (*65*) Assign (T 8) (Times (Transpose n_v'aa'xov [1;2;0]) (1) 2);
  (*66*) Assign (T 6) (Plain (Einsum [(n_t2'aaaa,[0;1;2;3]); (n_v'aa'xov,[4;1;3])] [0;2;4]));
  (*67*) AddTo (T 8) (Plain (Copy (T 6)));
  (*68*) Assign (T 7) (Plain (Einsum [(n_t2'abab,[0;1;2;3]); (n_v'bb'xov,[4;1;3])] [0;2;4]));
  (*69*) AddTo (T 8) (Times (Copy (T 7)) (1) 2);
  (*70*) AddTo n_t2new'aaaa (Times (Einsum [(T 8,[0;1;2]); (n_v'aa'xov,[2;3;4])] [3;0;4;1]) (2) 1);
  (*71*) Del (T 8);
  (*72*) AddTo n_t2new'aaaa (Times (Transpose (T 5) [1;0;2;3]) (2) 1);
  (*73*) Assign (T 9) (Plain (Transpose n_v'aa'xov [1;2;0]));
  (*74*) AddTo (T 9) (Times (Copy (T 6)) (2) 1);
  (*75*) AddTo (T 9) (Plain (Copy (T 7)));
  (*76*) AddTo n_t2new'aaaa (Times (Einsum [(n_v'aa'xov,[0;1;2]); (T 9,[3;4;0])] [1;3;4;2]) (-1) 1);
  (*77*) Del (T 9);
  (*78*) AddTo n_t2new'aaaa (Times (Transpose (T 5) [0;1;3;2]) (2) 1);
  (*79*) Assign (T 10) (Plain (Copy (T 6)));
  (*80*) AddTo (T 10) (Times (Copy (T 7)) (1) 2);
  (*81*) AddTo n_t2new'aaaa (Times (Einsum [(n_v'aa'xov,[0;1;2]); (T 10,[3;4;0])] [3;1;2;4]) (-2) 1);
  (*82*) Del (T 10);
  (*83*) AddTo n_t2new'aaaa (Times (Copy (T 5)) (-2) 1);
  (*84*) Del (T 5);
  (*85*) Assign (T 11) (Times (Copy (T 6)) (2) 1);
  (*86*) Del (T 6);
  (*87*) AddTo (T 11) (Plain (Copy (T 7)));
  (*88*) Del (T 7);
  (*89*) AddTo n_t2new'aaaa (Plain (Einsum [(T 11,[0;1;2]); (n_v'aa'xov,[2;3;4])] [0;3;1;4]));
  (*90*) Assign (T 12) (Plain (Einsum [(n_v'aa'xvv,[0;1;2]); (n_v'aa'xvv,[0;3;4])] [3;1;2;4]));
  (*91*) AddTo n_t2new'aaaa (Times (Einsum [(n_t2'aaaa,[0;1;2;3]); (T 12,[4;2;5;3])] [0;1;4;5]) (-2) 1);
  (*92*) Del (T 12);
  (*93*) Assign (T 21) (Plain (Einsum [(n_t2'bbbb,[0;1;2;3]); (n_f'bb'oo,[4;1])] [4;0;2;3]));
  (*94*) Assign n_t2new'bbbb (Times (Transpose (T 21) [1;0;3;2]) (2) 1);
  (*95*) Assign (T 22) (Plain (Einsum [(n_v'bb'xoo,[0;1;2]); (n_v'bb'xoo,[0;3;4])] [1;3;4;2]));
  (*96*) AddTo n_t2new'bbbb (Times (Einsum [(T 22,[0;1;2;3]); (n_t2'bbbb,[1;3;4;5])] [2;0;4;5]) (2) 1);
  (*97*) Del (T 22);
  (*98*) AddTo n_t2new'bbbb (Times (Transpose (T 21) [0;1;3;2]) (-2) 1);
  (*99*) Del (T 21);
  (*100*) Assign (T 23) (Plain (Einsum [(n_f'bb'vv,[0;1]); (n_t2'bbbb,[2;3;4;1])] [2;3;0;4]));
  (*101*) AddTo n_t2new'bbbb (Times (Transpose (T 23) [1;0;2;3]) (2) 1);
  (*102*) AddTo n_t2new'bbbb (Times (Transpose (T 23) [1;0;3;2]) (-2) 1);
  (*103*) Del (T 23);
  (*104*) Assign (T 18) (Plain (Einsum [(n_v'bb'xoo,[0;1;2]); (n_v'bb'xvv,[0;3;4])] [1;2;3;4]));
  (*105*) Assign (T 24) (Plain (Einsum [(n_t2'bbbb,[0;1;2;3]); (T 18,[4;1;5;3])] [0;4;2;5]));
  (*106*) AddTo n_t2new'bbbb (Times (Transpose (T 24) [1;0;3;2]) (-2) 1);
  (*107*) Assign (T 25) (Times (Transpose n_v'bb'xov [1;2;0]) (1) 2);
  (*108*) Assign (T 14) (Plain (Einsum [(n_v'aa'xov,[0;1;2]); (n_t2'abab,[1;3;2;4])] [3;4;0]));
  (*109*) AddTo (T 25) (Times (Copy (T 14)) (1) 2);
  (*110*) Assign (T 15) (Plain (Einsum [(n_t2'bbbb,[0;1;2;3]); (n_v'bb'xov,[4;1;3])] [0;2;4]));
  (*111*) AddTo (T 25) (Plain (Copy (T 15)));
  (*112*) AddTo n_t2new'bbbb (Times (Einsum [(n_v'bb'xov,[0;1;2]); (T 25,[3;4;0])] [1;3;2;4]) (2) 1);
  (*113*) Del (T 25);
  (*114*) AddTo n_t2new'bbbb (Times (Transpose (T 24) [1;0;2;3]) (2) 1);
  (*115*) Assign (T 16) (Plain (Transpose n_v'bb'xov [1;2;0]));
  (*116*) AddTo (T 16) (Plain (Copy (T 14)));
  (*117*) AddTo (T 16) (Times (Copy (T 15)) (2) 1);
  (*118*) AddTo n_t2new'bbbb (Times (Einsum [(T 16,[0;1;2]); (n_v'bb'xov,[2;3;4])] [3;0;1;4]) (-1) 1);
  (*119*) AddTo n_t2new'bbbb (Times (Transpose (T 24) [0;1;3;2]) (2) 1);
  (*120*) Assign (T 26) (Times (Copy (T 14)) (1) 2);
  (*121*) AddTo (T 26) (Plain (Copy (T 15)));
  (*122*) AddTo n_t2new'bbbb (Times (Einsum [(n_v'bb'xov,[0;1;2]); (T 26,[3;4;0])] [3;1;2;4]) (-2) 1);
  (*123*) Del (T 26);
  (*124*) AddTo n_t2new'bbbb (Times (Copy (T 24)) (-2) 1);
  (*125*) Del (T 24);
  (*126*) Assign (T 27) (Plain (Copy (T 14)));
  (*127*) Del (T 14);
  (*128*) AddTo (T 27) (Times (Copy (T 15)) (2) 1);
  (*129*) Del (T 15);
  (*130*) AddTo n_t2new'bbbb (Plain (Einsum [(n_v'bb'xov,[0;1;2]); (T 27,[3;4;0])] [3;1;4;2]));
  (*131*) Del (T 27);
  (*132*) Assign (T 28) (Plain (Einsum [(n_v'bb'xvv,[0;1;2]); (n_v'bb'xvv,[0;3;4])] [3;1;2;4]));
  (*133*) AddTo n_t2new'bbbb (Times (Einsum [(n_t2'bbbb,[0;1;2;3]); (T 28,[4;2;5;3])] [0;1;4;5]) (-2) 1);
  (*134*) Del (T 28);
  (*135*) Assign n_t2new'abab (Times (Einsum [(n_f'bb'oo,[0;1]); (n_t2'abab,[2;1;3;4])] [2;0;3;4]) (-1) 1);
  (*136*) AddTo n_t2new'abab (Times (Einsum [(n_f'aa'oo,[0;1]); (n_t2'abab,[1;2;3;4])] [0;2;3;4]) (-1) 1);
  (*137*) Assign (T 13) (Plain (Einsum [(n_v'bb'xoo,[0;1;2]); (n_v'aa'xoo,[0;3;4])] [3;4;1;2]));
  (*138*) AddTo n_t2new'abab (Plain (Einsum [(T 13,[0;1;2;3]); (n_t2'abab,[1;3;4;5])] [0;2;4;5]));
  (*139*) Del (T 13);
  (*140*) AddTo n_t2new'abab (Plain (Einsum [(n_f'aa'vv,[0;1]); (n_t2'abab,[2;3;1;4])] [2;3;0;4]));
  (*141*) AddTo n_t2new'abab (Plain (Einsum [(n_t2'abab,[0;1;2;3]); (n_f'bb'vv,[4;3])] [0;1;2;4]));
  (*142*) AddTo n_t2new'abab (Times (Einsum [(n_t2'abab,[0;1;2;3]); (T 4,[4;0;5;2])] [4;1;5;3]) (-1) 1);
  (*143*) Del (T 4);
  (*144*) AddTo n_t2new'abab (Plain (Einsum [(n_v'aa'xov,[0;1;2]); (T 16,[3;4;0])] [1;3;2;4]));
  (*145*) Del (T 16);
  (*146*) Assign (T 17) (Plain (Einsum [(n_v'bb'xoo,[0;1;2]); (n_v'aa'xvv,[0;3;4])] [1;2;3;4]));
  (*147*) AddTo n_t2new'abab (Times (Einsum [(T 17,[0;1;2;3]); (n_t2'abab,[4;1;3;5])] [4;0;2;5]) (-1) 1);
  (*148*) Del (T 17);
  (*149*) AddTo n_t2new'abab (Times (Einsum [(n_t2'abab,[0;1;2;3]); (T 18,[4;1;5;3])] [0;4;2;5]) (-1) 1);
  (*150*) Del (T 18);
  (*151*) AddTo n_t2new'abab (Plain (Einsum [(n_v'bb'xov,[0;1;2]); (T 11,[3;4;0])] [3;1;4;2]));
  (*152*) Del (T 11);
  (*153*) Assign (T 19) (Plain (Einsum [(n_v'aa'xoo,[0;1;2]); (n_v'bb'xvv,[0;3;4])] [1;2;3;4]));
  (*154*) AddTo n_t2new'abab (Times (Einsum [(T 19,[0;1;2;3]); (n_t2'abab,[1;4;5;3])] [0;4;5;2]) (-1) 1);
  (*155*) Del (T 19);
  (*156*) Assign (T 20) (Plain (Einsum [(n_v'bb'xvv,[0;1;2]); (n_v'aa'xvv,[0;3;4])] [3;4;1;2]));
  (*157*) AddTo n_t2new'abab (Plain (Einsum [(T 20,[0;1;2;3]); (n_t2'abab,[4;5;1;3])] [4;5;0;2]));
  (*158*) Del (T 20)]
 [(n_t2new'aaaa,[4;4;5;5]); (n_t2new'bbbb,[6;6;7;7]); (n_t2new'abab,[4;6;5;7])].

