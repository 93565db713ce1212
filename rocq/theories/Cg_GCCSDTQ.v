(** Generated by tools/translate_codegen.py from ebcc/codegen/GCCSDTQ.py; one statement per source line
    (the number in the comment before it). *)
From Coq Require Import ZArith List.
From Verif Require Import CgModel CgNames.
Import ListNotations.

(** ebcc/codegen/GCCSDTQ.py:7-16 [energy] *)
Definition GCCSDTQ_energy : prog := mkprog
 [(n_t1,[0;1]); (n_f'ov,[0;1]); (n_t2,[0;0;1;1]); (n_v'oovv,[0;0;1;1])]
 [(*9*) Assign n_e_cc (Plain (Zeros []));
  (*10*) AddTo n_e_cc (Plain (Einsum [(n_t1,[0;1]); (n_f'ov,[0;1])] []));
  (*11*) Assign (T 1) (Plain (Zeros [0;0;1;1]));
  (*12*) AddTo (T 1) (Plain (Einsum [(n_t2,[0;1;2;3])] [1;0;3;2]));
  (*13*) AddTo (T 1) (Times (Einsum [(n_t1,[0;1]); (n_t1,[2;3])] [0;2;1;3]) (2) 1);
  (*14*) AddTo n_e_cc (Times (Einsum [(n_v'oovv,[0;1;2;3]); (T 1,[0;1;2;3])] []) (1) 4)]
 [(n_e_cc,[])].

(** ebcc/codegen/GCCSDTQ.py:18-3159 [update_amps] *)
Definition GCCSDTQ_update_amps : prog := mkprog
 [(n_f'ov,[0;1]); (n_f'oo,[0;0]); (n_t1,[0;1]); (n_f'vv,[1;1]); (n_t2,[0;0;1;1]); (n_v'ovov,[0;1;0;1]); (n_v'ooov,[0;0;0;1]); (n_v'ovvv,[0;1;1;1]); (n_v'oovv,[0;0;1;1]); (n_t3,[0;0;0;1;1;1]); (n_v'oooo,[0;0;0;0]); (n_v'vvvv,[1;1;1;1]); (n_t4,[0;0;0;0;1;1;1;1])]
 [(*20*) Assign n_t1new (Plain (Zeros [0;1]));
  (*21*) AddTo n_t1new (Plain (Einsum [(n_f'ov,[0;1])] [0;1]));
  (*22*) AddTo n_t1new (Times (Einsum [(n_f'oo,[0;1]); (n_t1,[1;2])] [0;2]) (-1) 1);
  (*23*) AddTo n_t1new (Plain (Einsum [(n_f'vv,[0;1]); (n_t1,[2;1])] [2;0]));
  (*24*) AddTo n_t1new (Plain (Einsum [(n_f'ov,[0;1]); (n_t2,[2;0;3;1])] [2;3]));
  (*25*) AddTo n_t1new (Times (Einsum [(n_t1,[0;1]); (n_v'ovov,[2;1;0;3])] [2;3]) (-1) 1);
  (*26*) AddTo n_t1new (Times (Einsum [(n_t2,[0;1;2;3]); (n_v'ooov,[0;1;4;3])] [4;2]) (-1) 2);
  (*27*) AddTo n_t1new (Times (Einsum [(n_t2,[0;1;2;3]); (n_v'ovvv,[1;4;2;3])] [0;4]) (-1) 2);
  (*28*) AddTo n_t1new (Times (Einsum [(n_v'oovv,[0;1;2;3]); (n_t3,[4;0;1;5;2;3])] [4;5]) (1) 4);
  (*29*) AddTo n_t1new (Times (Einsum [(n_f'ov,[0;1]); (n_t1,[2;1]); (n_t1,[0;3])] [2;3]) (-1) 1);
  (*30*) AddTo n_t1new (Plain (Einsum [(n_t1,[0;1]); (n_t1,[2;3]); (n_v'ooov,[0;2;4;1])] [4;3]));
  (*31*) AddTo n_t1new (Times (Einsum [(n_t1,[0;1]); (n_t1,[2;3]); (n_v'ovvv,[2;4;1;3])] [0;4]) (-1) 1);
  (*32*) AddTo n_t1new (Times (Einsum [(n_t1,[0;1]); (n_t2,[2;3;4;5]); (n_v'oovv,[2;3;1;5])] [0;4]) (-1) 2);
  (*33*) AddTo n_t1new (Times (Einsum [(n_t1,[0;1]); (n_t2,[2;3;4;5]); (n_v'oovv,[0;3;4;5])] [2;1]) (-1) 2);
  (*34*) AddTo n_t1new (Plain (Einsum [(n_t1,[0;1]); (n_t2,[2;3;4;5]); (n_v'oovv,[0;3;1;5])] [2;4]));
  (*35*) AddTo n_t1new (Plain (Einsum [(n_t1,[0;1]); (n_t1,[2;3]); (n_t1,[4;5]); (n_v'oovv,[2;4;1;3])] [0;5]));
  (*36*) Assign n_t2new (Plain (Zeros [0;0;1;1]));
  (*37*) AddTo n_t2new (Plain (Einsum [(n_v'oovv,[0;1;2;3])] [0;1;2;3]));
  (*38*) AddTo n_t2new (Plain (Einsum [(n_f'oo,[0;1]); (n_t2,[2;1;3;4])] [0;2;3;4]));
  (*39*) AddTo n_t2new (Times (Einsum [(n_f'oo,[0;1]); (n_t2,[2;1;3;4])] [2;0;3;4]) (-1) 1);
  (*40*) AddTo n_t2new (Times (Einsum [(n_f'vv,[0;1]); (n_t2,[2;3;4;1])] [2;3;0;4]) (-1) 1);
  (*41*) AddTo n_t2new (Plain (Einsum [(n_f'vv,[0;1]); (n_t2,[2;3;4;1])] [2;3;4;0]));
  (*42*) AddTo n_t2new (Times (Einsum [(n_t1,[0;1]); (n_v'ooov,[2;3;0;4])] [2;3;1;4]) (-1) 1);
  (*43*) AddTo n_t2new (Plain (Einsum [(n_t1,[0;1]); (n_v'ooov,[2;3;0;4])] [2;3;4;1]));
  (*44*) AddTo n_t2new (Times (Einsum [(n_t1,[0;1]); (n_v'ovvv,[2;1;3;4])] [0;2;3;4]) (-1) 1);
  (*45*) AddTo n_t2new (Plain (Einsum [(n_t1,[0;1]); (n_v'ovvv,[2;1;3;4])] [2;0;3;4]));
  (*46*) AddTo n_t2new (Plain (Einsum [(n_f'ov,[0;1]); (n_t3,[2;3;0;4;5;1])] [2;3;4;5]));
  (*47*) AddTo n_t2new (Times (Einsum [(n_t2,[0;1;2;3]); (n_v'oooo,[4;5;0;1])] [4;5;2;3]) (1) 2);
  (*48*) AddTo n_t2new (Times (Einsum [(n_t2,[0;1;2;3]); (n_v'ovov,[4;3;1;5])] [0;4;2;5]) (-1) 1);
  (*49*) AddTo n_t2new (Plain (Einsum [(n_t2,[0;1;2;3]); (n_v'ovov,[4;3;1;5])] [0;4;5;2]));
  (*50*) AddTo n_t2new (Plain (Einsum [(n_t2,[0;1;2;3]); (n_v'ovov,[4;3;1;5])] [4;0;2;5]));
  (*51*) AddTo n_t2new (Times (Einsum [(n_t2,[0;1;2;3]); (n_v'ovov,[4;3;1;5])] [4;0;5;2]) (-1) 1);
  (*52*) AddTo n_t2new (Times (Einsum [(n_t2,[0;1;2;3]); (n_v'vvvv,[4;5;2;3])] [0;1;4;5]) (1) 2);
  (*53*) AddTo n_t2new (Times (Einsum [(n_v'ooov,[0;1;2;3]); (n_t3,[4;0;1;5;6;3])] [2;4;5;6]) (1) 2);
  (*54*) AddTo n_t2new (Times (Einsum [(n_v'ooov,[0;1;2;3]); (n_t3,[4;0;1;5;6;3])] [4;2;5;6]) (-1) 2);
  (*55*) AddTo n_t2new (Times (Einsum [(n_v'ovvv,[0;1;2;3]); (n_t3,[4;5;0;6;2;3])] [4;5;1;6]) (1) 2);
  (*56*) AddTo n_t2new (Times (Einsum [(n_v'ovvv,[0;1;2;3]); (n_t3,[4;5;0;6;2;3])] [4;5;6;1]) (-1) 2);
  (*57*) AddTo n_t2new (Times (Einsum [(n_v'oovv,[0;1;2;3]); (n_t4,[4;5;0;1;6;7;2;3])] [4;5;6;7]) (1) 4);
  (*58*) AddTo n_t2new (Plain (Einsum [(n_f'ov,[0;1]); (n_t1,[2;1]); (n_t2,[3;0;4;5])] [2;3;4;5]));
  (*59*) AddTo n_t2new (Times (Einsum [(n_f'ov,[0;1]); (n_t1,[2;1]); (n_t2,[3;0;4;5])] [3;2;4;5]) (-1) 1);
  (*60*) AddTo n_t2new (Plain (Einsum [(n_f'ov,[0;1]); (n_t1,[0;2]); (n_t2,[3;4;5;1])] [3;4;2;5]));
  (*61*) AddTo n_t2new (Times (Einsum [(n_f'ov,[0;1]); (n_t1,[0;2]); (n_t2,[3;4;5;1])] [3;4;5;2]) (-1) 1);
  (*62*) AddTo n_t2new (Plain (Einsum [(n_t1,[0;1]); (n_t1,[2;3]); (n_v'oooo,[4;5;0;2])] [4;5;1;3]));
  (*63*) AddTo n_t2new (Plain (Einsum [(n_t1,[0;1]); (n_t1,[2;3]); (n_v'ovov,[4;1;2;5])] [0;4;3;5]));
  (*64*) AddTo n_t2new (Times (Einsum [(n_t1,[0;1]); (n_t1,[2;3]); (n_v'ovov,[4;1;2;5])] [0;4;5;3]) (-1) 1);
  (*65*) AddTo n_t2new (Times (Einsum [(n_t1,[0;1]); (n_t1,[2;3]); (n_v'ovov,[4;1;2;5])] [4;0;3;5]) (-1) 1);
  (*66*) AddTo n_t2new (Plain (Einsum [(n_t1,[0;1]); (n_t1,[2;3]); (n_v'ovov,[4;1;2;5])] [4;0;5;3]));
  (*67*) AddTo n_t2new (Plain (Einsum [(n_t1,[0;1]); (n_t1,[2;3]); (n_v'vvvv,[4;5;1;3])] [0;2;4;5]));
  (*68*) AddTo n_t2new (Times (Einsum [(n_t1,[0;1]); (n_t2,[2;3;4;5]); (n_v'ooov,[2;3;6;1])] [0;6;4;5]) (-1) 2);
  (*69*) AddTo n_t2new (Times (Einsum [(n_t1,[0;1]); (n_t2,[2;3;4;5]); (n_v'ooov,[2;3;6;1])] [6;0;4;5]) (1) 2);
  (*70*) AddTo n_t2new (Plain (Einsum [(n_t1,[0;1]); (n_t2,[2;3;4;5]); (n_v'ooov,[0;3;6;5])] [2;6;1;4]));
  (*71*) AddTo n_t2new (Times (Einsum [(n_t1,[0;1]); (n_t2,[2;3;4;5]); (n_v'ooov,[0;3;6;5])] [6;2;1;4]) (-1) 1);
  (*72*) AddTo n_t2new (Times (Einsum [(n_t1,[0;1]); (n_t2,[2;3;4;5]); (n_v'ooov,[0;3;6;5])] [2;6;4;1]) (-1) 1);
  (*73*) AddTo n_t2new (Plain (Einsum [(n_t1,[0;1]); (n_t2,[2;3;4;5]); (n_v'ooov,[0;3;6;5])] [6;2;4;1]));
  (*74*) AddTo n_t2new (Plain (Einsum [(n_t1,[0;1]); (n_t2,[2;3;4;5]); (n_v'ooov,[0;3;6;1])] [2;6;4;5]));
  (*75*) AddTo n_t2new (Times (Einsum [(n_t1,[0;1]); (n_t2,[2;3;4;5]); (n_v'ooov,[0;3;6;1])] [6;2;4;5]) (-1) 1);
  (*76*) AddTo n_t2new (Times (Einsum [(n_t1,[0;1]); (n_t2,[2;3;4;5]); (n_v'ovvv,[3;6;1;5])] [0;2;6;4]) (-1) 1);
  (*77*) AddTo n_t2new (Plain (Einsum [(n_t1,[0;1]); (n_t2,[2;3;4;5]); (n_v'ovvv,[3;6;1;5])] [0;2;4;6]));
  (*78*) AddTo n_t2new (Plain (Einsum [(n_t1,[0;1]); (n_t2,[2;3;4;5]); (n_v'ovvv,[3;6;1;5])] [2;0;6;4]));
  (*79*) AddTo n_t2new (Times (Einsum [(n_t1,[0;1]); (n_t2,[2;3;4;5]); (n_v'ovvv,[3;6;1;5])] [2;0;4;6]) (-1) 1);
  (*80*) AddTo n_t2new (Times (Einsum [(n_t1,[0;1]); (n_t2,[2;3;4;5]); (n_v'ovvv,[0;6;4;5])] [2;3;1;6]) (-1) 2);
  (*81*) AddTo n_t2new (Times (Einsum [(n_t1,[0;1]); (n_t2,[2;3;4;5]); (n_v'ovvv,[0;6;4;5])] [2;3;6;1]) (1) 2);
  (*82*) AddTo n_t2new (Times (Einsum [(n_t1,[0;1]); (n_t2,[2;3;4;5]); (n_v'ovvv,[0;6;1;5])] [2;3;6;4]) (-1) 1);
  (*83*) AddTo n_t2new (Plain (Einsum [(n_t1,[0;1]); (n_t2,[2;3;4;5]); (n_v'ovvv,[0;6;1;5])] [2;3;4;6]));
  (*84*) AddTo n_t2new (Times (Einsum [(n_t1,[0;1]); (n_v'oovv,[2;3;1;4]); (n_t3,[5;2;3;6;7;4])] [0;5;6;7]) (1) 2);
  (*85*) AddTo n_t2new (Times (Einsum [(n_t1,[0;1]); (n_v'oovv,[2;3;1;4]); (n_t3,[5;2;3;6;7;4])] [5;0;6;7]) (-1) 2);
  (*86*) AddTo n_t2new (Times (Einsum [(n_t1,[0;1]); (n_v'oovv,[0;2;3;4]); (n_t3,[5;6;2;7;3;4])] [5;6;1;7]) (1) 2);
  (*87*) AddTo n_t2new (Times (Einsum [(n_t1,[0;1]); (n_v'oovv,[0;2;3;4]); (n_t3,[5;6;2;7;3;4])] [5;6;7;1]) (-1) 2);
  (*88*) AddTo n_t2new (Plain (Einsum [(n_t1,[0;1]); (n_v'oovv,[0;2;1;3]); (n_t3,[4;5;2;6;7;3])] [4;5;6;7]));
  (*89*) AddTo n_t2new (Plain (Einsum [(n_t2,[0;1;2;3]); (n_t2,[4;5;6;7]); (n_v'oovv,[1;5;3;7])] [0;4;2;6]));
  (*90*) AddTo n_t2new (Times (Einsum [(n_t2,[0;1;2;3]); (n_t2,[4;5;6;7]); (n_v'oovv,[1;5;6;7])] [0;4;2;3]) (-1) 2);
  (*91*) AddTo n_t2new (Times (Einsum [(n_t2,[0;1;2;3]); (n_t2,[4;5;6;7]); (n_v'oovv,[1;5;3;7])] [0;4;6;2]) (-1) 1);
  (*92*) AddTo n_t2new (Times (Einsum [(n_t2,[0;1;2;3]); (n_t2,[4;5;6;7]); (n_v'oovv,[1;5;2;3])] [0;4;6;7]) (-1) 2);
  (*93*) AddTo n_t2new (Times (Einsum [(n_t2,[0;1;2;3]); (n_t2,[4;5;6;7]); (n_v'oovv,[4;5;3;7])] [0;1;2;6]) (-1) 2);
  (*94*) AddTo n_t2new (Times (Einsum [(n_t2,[0;1;2;3]); (n_t2,[4;5;6;7]); (n_v'oovv,[4;5;3;7])] [0;1;6;2]) (1) 2);
  (*95*) AddTo n_t2new (Times (Einsum [(n_t2,[0;1;2;3]); (n_t2,[4;5;6;7]); (n_v'oovv,[4;5;2;3])] [0;1;6;7]) (1) 4);
  (*96*) AddTo n_t2new (Times (Einsum [(n_t1,[0;1]); (n_t1,[2;3]); (n_t1,[4;5]); (n_v'ooov,[2;4;6;1])] [0;6;3;5]) (-1) 1);
  (*97*) AddTo n_t2new (Plain (Einsum [(n_t1,[0;1]); (n_t1,[2;3]); (n_t1,[4;5]); (n_v'ooov,[2;4;6;1])] [6;0;3;5]));
  (*98*) AddTo n_t2new (Times (Einsum [(n_t1,[0;1]); (n_t1,[2;3]); (n_t1,[4;5]); (n_v'ovvv,[4;6;1;3])] [0;2;5;6]) (-1) 1);
  (*99*) AddTo n_t2new (Plain (Einsum [(n_t1,[0;1]); (n_t1,[2;3]); (n_t1,[4;5]); (n_v'ovvv,[4;6;1;3])] [0;2;6;5]));
  (*100*) AddTo n_t2new (Times (Einsum [(n_t1,[0;1]); (n_t1,[2;3]); (n_t2,[4;5;6;7]); (n_v'oovv,[4;5;1;3])] [0;2;6;7]) (1) 2);
  (*101*) AddTo n_t2new (Times (Einsum [(n_t1,[0;1]); (n_t1,[2;3]); (n_t2,[4;5;6;7]); (n_v'oovv,[2;5;1;7])] [0;4;3;6]) (-1) 1);
  (*102*) AddTo n_t2new (Plain (Einsum [(n_t1,[0;1]); (n_t1,[2;3]); (n_t2,[4;5;6;7]); (n_v'oovv,[2;5;1;7])] [0;4;6;3]));
  (*103*) AddTo n_t2new (Times (Einsum [(n_t1,[0;1]); (n_t1,[2;3]); (n_t2,[4;5;6;7]); (n_v'oovv,[2;5;1;3])] [0;4;6;7]) (-1) 1);
  (*104*) AddTo n_t2new (Plain (Einsum [(n_t1,[0;1]); (n_t1,[2;3]); (n_t2,[4;5;6;7]); (n_v'oovv,[2;5;1;7])] [4;0;3;6]));
  (*105*) AddTo n_t2new (Times (Einsum [(n_t1,[0;1]); (n_t1,[2;3]); (n_t2,[4;5;6;7]); (n_v'oovv,[2;5;1;7])] [4;0;6;3]) (-1) 1);
  (*106*) AddTo n_t2new (Plain (Einsum [(n_t1,[0;1]); (n_t1,[2;3]); (n_t2,[4;5;6;7]); (n_v'oovv,[2;5;1;3])] [4;0;6;7]));
  (*107*) AddTo n_t2new (Times (Einsum [(n_t1,[0;1]); (n_t1,[2;3]); (n_t2,[4;5;6;7]); (n_v'oovv,[0;2;6;7])] [4;5;1;3]) (1) 2);
  (*108*) AddTo n_t2new (Plain (Einsum [(n_t1,[0;1]); (n_t1,[2;3]); (n_t2,[4;5;6;7]); (n_v'oovv,[0;2;1;7])] [4;5;3;6]));
  (*109*) AddTo n_t2new (Times (Einsum [(n_t1,[0;1]); (n_t1,[2;3]); (n_t2,[4;5;6;7]); (n_v'oovv,[0;2;1;7])] [4;5;6;3]) (-1) 1);
  (*110*) AddTo n_t2new (Plain (Einsum [(n_t1,[0;1]); (n_t1,[2;3]); (n_t1,[4;5]); (n_t1,[6;7]); (n_v'oovv,[4;6;1;3])] [0;2;5;7]));
  (*111*) Assign n_t3new (Plain (Zeros [0;0;0;1;1;1]));
  (*112*) AddTo n_t3new (Times (Einsum [(n_f'oo,[0;1]); (n_t3,[2;3;1;4;5;6])] [0;2;3;4;5;6]) (-1) 1);
  (*113*) AddTo n_t3new (Plain (Einsum [(n_f'oo,[0;1]); (n_t3,[2;3;1;4;5;6])] [2;0;3;4;5;6]));
  (*114*) AddTo n_t3new (Times (Einsum [(n_f'oo,[0;1]); (n_t3,[2;3;1;4;5;6])] [2;3;0;4;5;6]) (-1) 1);
  (*115*) AddTo n_t3new (Plain (Einsum [(n_f'vv,[0;1]); (n_t3,[2;3;4;5;6;1])] [2;3;4;0;5;6]));
  (*116*) AddTo n_t3new (Times (Einsum [(n_f'vv,[0;1]); (n_t3,[2;3;4;5;6;1])] [2;3;4;5;0;6]) (-1) 1);
  (*117*) AddTo n_t3new (Plain (Einsum [(n_f'vv,[0;1]); (n_t3,[2;3;4;5;6;1])] [2;3;4;5;6;0]));
  (*118*) AddTo n_t3new (Plain (Einsum [(n_f'ov,[0;1]); (n_t4,[2;3;4;0;5;6;7;1])] [2;3;4;5;6;7]));
  (*119*) AddTo n_t3new (Times (Einsum [(n_t2,[0;1;2;3]); (n_v'ooov,[4;5;1;6])] [0;4;5;2;3;6]) (-1) 1);
  (*120*) AddTo n_t3new (Plain (Einsum [(n_t2,[0;1;2;3]); (n_v'ooov,[4;5;1;6])] [0;4;5;2;6;3]));
  (*121*) AddTo n_t3new (Times (Einsum [(n_t2,[0;1;2;3]); (n_v'ooov,[4;5;1;6])] [0;4;5;6;2;3]) (-1) 1);
  (*122*) AddTo n_t3new (Plain (Einsum [(n_t2,[0;1;2;3]); (n_v'ooov,[4;5;1;6])] [4;0;5;2;3;6]));
  (*123*) AddTo n_t3new (Times (Einsum [(n_t2,[0;1;2;3]); (n_v'ooov,[4;5;1;6])] [4;0;5;2;6;3]) (-1) 1);
  (*124*) AddTo n_t3new (Plain (Einsum [(n_t2,[0;1;2;3]); (n_v'ooov,[4;5;1;6])] [4;0;5;6;2;3]));
  (*125*) AddTo n_t3new (Times (Einsum [(n_t2,[0;1;2;3]); (n_v'ooov,[4;5;1;6])] [4;5;0;2;3;6]) (-1) 1);
  (*126*) AddTo n_t3new (Plain (Einsum [(n_t2,[0;1;2;3]); (n_v'ooov,[4;5;1;6])] [4;5;0;2;6;3]));
  (*127*) AddTo n_t3new (Times (Einsum [(n_t2,[0;1;2;3]); (n_v'ooov,[4;5;1;6])] [4;5;0;6;2;3]) (-1) 1);
  (*128*) AddTo n_t3new (Plain (Einsum [(n_t2,[0;1;2;3]); (n_v'ovvv,[4;3;5;6])] [0;4;1;2;5;6]));
  (*129*) AddTo n_t3new (Times (Einsum [(n_t2,[0;1;2;3]); (n_v'ovvv,[4;3;5;6])] [0;4;1;5;2;6]) (-1) 1);
  (*130*) AddTo n_t3new (Plain (Einsum [(n_t2,[0;1;2;3]); (n_v'ovvv,[4;3;5;6])] [0;4;1;5;6;2]));
  (*131*) AddTo n_t3new (Times (Einsum [(n_t2,[0;1;2;3]); (n_v'ovvv,[4;3;5;6])] [0;1;4;2;5;6]) (-1) 1);
  (*132*) AddTo n_t3new (Plain (Einsum [(n_t2,[0;1;2;3]); (n_v'ovvv,[4;3;5;6])] [0;1;4;5;2;6]));
  (*133*) AddTo n_t3new (Times (Einsum [(n_t2,[0;1;2;3]); (n_v'ovvv,[4;3;5;6])] [0;1;4;5;6;2]) (-1) 1);
  (*134*) AddTo n_t3new (Times (Einsum [(n_t2,[0;1;2;3]); (n_v'ovvv,[4;3;5;6])] [4;0;1;2;5;6]) (-1) 1);
  (*135*) AddTo n_t3new (Plain (Einsum [(n_t2,[0;1;2;3]); (n_v'ovvv,[4;3;5;6])] [4;0;1;5;2;6]));
  (*136*) AddTo n_t3new (Times (Einsum [(n_t2,[0;1;2;3]); (n_v'ovvv,[4;3;5;6])] [4;0;1;5;6;2]) (-1) 1);
  (*137*) AddTo n_t3new (Times (Einsum [(n_v'oooo,[0;1;2;3]); (n_t3,[4;2;3;5;6;7])] [0;1;4;5;6;7]) (1) 2);
  (*138*) AddTo n_t3new (Times (Einsum [(n_v'oooo,[0;1;2;3]); (n_t3,[4;2;3;5;6;7])] [0;4;1;5;6;7]) (-1) 2);
  (*139*) AddTo n_t3new (Times (Einsum [(n_v'oooo,[0;1;2;3]); (n_t3,[4;2;3;5;6;7])] [4;0;1;5;6;7]) (1) 2);
  (*140*) AddTo n_t3new (Times (Einsum [(n_v'ovov,[0;1;2;3]); (n_t3,[4;5;2;6;7;1])] [0;4;5;3;6;7]) (-1) 1);
  (*141*) AddTo n_t3new (Plain (Einsum [(n_v'ovov,[0;1;2;3]); (n_t3,[4;5;2;6;7;1])] [0;4;5;6;3;7]));
  (*142*) AddTo n_t3new (Times (Einsum [(n_v'ovov,[0;1;2;3]); (n_t3,[4;5;2;6;7;1])] [0;4;5;6;7;3]) (-1) 1);
  (*143*) AddTo n_t3new (Plain (Einsum [(n_v'ovov,[0;1;2;3]); (n_t3,[4;5;2;6;7;1])] [4;0;5;3;6;7]));
  (*144*) AddTo n_t3new (Times (Einsum [(n_v'ovov,[0;1;2;3]); (n_t3,[4;5;2;6;7;1])] [4;0;5;6;3;7]) (-1) 1);
  (*145*) AddTo n_t3new (Plain (Einsum [(n_v'ovov,[0;1;2;3]); (n_t3,[4;5;2;6;7;1])] [4;0;5;6;7;3]));
  (*146*) AddTo n_t3new (Times (Einsum [(n_v'ovov,[0;1;2;3]); (n_t3,[4;5;2;6;7;1])] [4;5;0;3;6;7]) (-1) 1);
  (*147*) AddTo n_t3new (Plain (Einsum [(n_v'ovov,[0;1;2;3]); (n_t3,[4;5;2;6;7;1])] [4;5;0;6;3;7]));
  (*148*) AddTo n_t3new (Times (Einsum [(n_v'ovov,[0;1;2;3]); (n_t3,[4;5;2;6;7;1])] [4;5;0;6;7;3]) (-1) 1);
  (*149*) AddTo n_t3new (Times (Einsum [(n_v'vvvv,[0;1;2;3]); (n_t3,[4;5;6;7;2;3])] [4;5;6;0;1;7]) (1) 2);
  (*150*) AddTo n_t3new (Times (Einsum [(n_v'vvvv,[0;1;2;3]); (n_t3,[4;5;6;7;2;3])] [4;5;6;0;7;1]) (-1) 2);
  (*151*) AddTo n_t3new (Times (Einsum [(n_v'vvvv,[0;1;2;3]); (n_t3,[4;5;6;7;2;3])] [4;5;6;7;0;1]) (1) 2);
  (*152*) AddTo n_t3new (Times (Einsum [(n_v'ooov,[0;1;2;3]); (n_t4,[4;5;0;1;6;7;8;3])] [2;4;5;6;7;8]) (-1) 2);
  (*153*) AddTo n_t3new (Times (Einsum [(n_v'ooov,[0;1;2;3]); (n_t4,[4;5;0;1;6;7;8;3])] [4;2;5;6;7;8]) (1) 2);
  (*154*) AddTo n_t3new (Times (Einsum [(n_v'ooov,[0;1;2;3]); (n_t4,[4;5;0;1;6;7;8;3])] [4;5;2;6;7;8]) (-1) 2);
  (*155*) AddTo n_t3new (Times (Einsum [(n_v'ovvv,[0;1;2;3]); (n_t4,[4;5;6;0;7;8;2;3])] [4;5;6;1;7;8]) (-1) 2);
  (*156*) AddTo n_t3new (Times (Einsum [(n_v'ovvv,[0;1;2;3]); (n_t4,[4;5;6;0;7;8;2;3])] [4;5;6;7;1;8]) (1) 2);
  (*157*) AddTo n_t3new (Times (Einsum [(n_v'ovvv,[0;1;2;3]); (n_t4,[4;5;6;0;7;8;2;3])] [4;5;6;7;8;1]) (-1) 2);
  (*158*) AddTo n_t3new (Times (Einsum [(n_f'ov,[0;1]); (n_t1,[2;1]); (n_t3,[3;4;0;5;6;7])] [2;3;4;5;6;7]) (-1) 1);
  (*159*) AddTo n_t3new (Plain (Einsum [(n_f'ov,[0;1]); (n_t1,[2;1]); (n_t3,[3;4;0;5;6;7])] [3;2;4;5;6;7]));
  (*160*) AddTo n_t3new (Times (Einsum [(n_f'ov,[0;1]); (n_t1,[2;1]); (n_t3,[3;4;0;5;6;7])] [3;4;2;5;6;7]) (-1) 1);
  (*161*) AddTo n_t3new (Times (Einsum [(n_f'ov,[0;1]); (n_t1,[0;2]); (n_t3,[3;4;5;6;7;1])] [3;4;5;2;6;7]) (-1) 1);
  (*162*) AddTo n_t3new (Plain (Einsum [(n_f'ov,[0;1]); (n_t1,[0;2]); (n_t3,[3;4;5;6;7;1])] [3;4;5;6;2;7]));
  (*163*) AddTo n_t3new (Times (Einsum [(n_f'ov,[0;1]); (n_t1,[0;2]); (n_t3,[3;4;5;6;7;1])] [3;4;5;6;7;2]) (-1) 1);
  (*164*) AddTo n_t3new (Times (Einsum [(n_f'ov,[0;1]); (n_t2,[2;3;4;1]); (n_t2,[5;0;6;7])] [2;5;3;4;6;7]) (-1) 1);
  (*165*) AddTo n_t3new (Plain (Einsum [(n_f'ov,[0;1]); (n_t2,[2;3;4;1]); (n_t2,[5;0;6;7])] [2;5;3;6;4;7]));
  (*166*) AddTo n_t3new (Times (Einsum [(n_f'ov,[0;1]); (n_t2,[2;3;4;1]); (n_t2,[5;0;6;7])] [2;5;3;6;7;4]) (-1) 1);
  (*167*) AddTo n_t3new (Times (Einsum [(n_f'ov,[0;1]); (n_t2,[2;0;3;4]); (n_t2,[5;6;7;1])] [2;5;6;3;7;4]) (-1) 1);
  (*168*) AddTo n_t3new (Plain (Einsum [(n_f'ov,[0;1]); (n_t2,[2;0;3;4]); (n_t2,[5;6;7;1])] [2;5;6;3;4;7]));
  (*169*) AddTo n_t3new (Plain (Einsum [(n_f'ov,[0;1]); (n_t2,[2;0;3;4]); (n_t2,[5;6;7;1])] [2;5;6;7;3;4]));
  (*170*) AddTo n_t3new (Plain (Einsum [(n_f'ov,[0;1]); (n_t2,[2;3;4;1]); (n_t2,[5;0;6;7])] [2;3;5;4;6;7]));
  (*171*) AddTo n_t3new (Times (Einsum [(n_f'ov,[0;1]); (n_t2,[2;3;4;1]); (n_t2,[5;0;6;7])] [2;3;5;6;4;7]) (-1) 1);
  (*172*) AddTo n_t3new (Plain (Einsum [(n_f'ov,[0;1]); (n_t2,[2;3;4;1]); (n_t2,[5;0;6;7])] [2;3;5;6;7;4]));
  (*173*) AddTo n_t3new (Times (Einsum [(n_t1,[0;1]); (n_t2,[2;3;4;5]); (n_v'oooo,[6;7;0;3])] [2;6;7;1;4;5]) (-1) 1);
  (*174*) AddTo n_t3new (Plain (Einsum [(n_t1,[0;1]); (n_t2,[2;3;4;5]); (n_v'oooo,[6;7;0;3])] [6;2;7;1;4;5]));
  (*175*) AddTo n_t3new (Times (Einsum [(n_t1,[0;1]); (n_t2,[2;3;4;5]); (n_v'oooo,[6;7;0;3])] [6;7;2;1;4;5]) (-1) 1);
  (*176*) AddTo n_t3new (Plain (Einsum [(n_t1,[0;1]); (n_t2,[2;3;4;5]); (n_v'oooo,[6;7;0;3])] [2;6;7;4;1;5]));
  (*177*) AddTo n_t3new (Times (Einsum [(n_t1,[0;1]); (n_t2,[2;3;4;5]); (n_v'oooo,[6;7;0;3])] [6;2;7;4;1;5]) (-1) 1);
  (*178*) AddTo n_t3new (Plain (Einsum [(n_t1,[0;1]); (n_t2,[2;3;4;5]); (n_v'oooo,[6;7;0;3])] [6;7;2;4;1;5]));
  (*179*) AddTo n_t3new (Times (Einsum [(n_t1,[0;1]); (n_t2,[2;3;4;5]); (n_v'oooo,[6;7;0;3])] [2;6;7;4;5;1]) (-1) 1);
  (*180*) AddTo n_t3new (Plain (Einsum [(n_t1,[0;1]); (n_t2,[2;3;4;5]); (n_v'oooo,[6;7;0;3])] [6;2;7;4;5;1]));
  (*181*) AddTo n_t3new (Times (Einsum [(n_t1,[0;1]); (n_t2,[2;3;4;5]); (n_v'oooo,[6;7;0;3])] [6;7;2;4;5;1]) (-1) 1);
  (*182*) AddTo n_t3new (Times (Einsum [(n_t1,[0;1]); (n_t2,[2;3;4;5]); (n_v'ovov,[6;1;3;7])] [0;2;6;4;5;7]) (-1) 1);
  (*183*) AddTo n_t3new (Plain (Einsum [(n_t1,[0;1]); (n_t2,[2;3;4;5]); (n_v'ovov,[6;1;3;7])] [0;2;6;4;7;5]));
  (*184*) AddTo n_t3new (Times (Einsum [(n_t1,[0;1]); (n_t2,[2;3;4;5]); (n_v'ovov,[6;1;3;7])] [0;2;6;7;4;5]) (-1) 1);
  (*185*) AddTo n_t3new (Plain (Einsum [(n_t1,[0;1]); (n_t2,[2;3;4;5]); (n_v'ovov,[6;1;3;7])] [0;6;2;4;5;7]));
  (*186*) AddTo n_t3new (Times (Einsum [(n_t1,[0;1]); (n_t2,[2;3;4;5]); (n_v'ovov,[6;1;3;7])] [0;6;2;4;7;5]) (-1) 1);
  (*187*) AddTo n_t3new (Plain (Einsum [(n_t1,[0;1]); (n_t2,[2;3;4;5]); (n_v'ovov,[6;1;3;7])] [0;6;2;7;4;5]));
  (*188*) AddTo n_t3new (Plain (Einsum [(n_t1,[0;1]); (n_t2,[2;3;4;5]); (n_v'ovov,[6;1;3;7])] [2;0;6;4;5;7]));
  (*189*) AddTo n_t3new (Times (Einsum [(n_t1,[0;1]); (n_t2,[2;3;4;5]); (n_v'ovov,[6;1;3;7])] [2;0;6;4;7;5]) (-1) 1);
  (*190*) AddTo n_t3new (Plain (Einsum [(n_t1,[0;1]); (n_t2,[2;3;4;5]); (n_v'ovov,[6;1;3;7])] [2;0;6;7;4;5]));
  (*191*) AddTo n_t3new (Times (Einsum [(n_t1,[0;1]); (n_t2,[2;3;4;5]); (n_v'ovov,[6;1;3;7])] [6;0;2;4;5;7]) (-1) 1);
  (*192*) AddTo n_t3new (Plain (Einsum [(n_t1,[0;1]); (n_t2,[2;3;4;5]); (n_v'ovov,[6;1;3;7])] [6;0;2;4;7;5]));
  (*193*) AddTo n_t3new (Times (Einsum [(n_t1,[0;1]); (n_t2,[2;3;4;5]); (n_v'ovov,[6;1;3;7])] [6;0;2;7;4;5]) (-1) 1);
  (*194*) AddTo n_t3new (Times (Einsum [(n_t1,[0;1]); (n_t2,[2;3;4;5]); (n_v'ovov,[6;1;3;7])] [2;6;0;4;5;7]) (-1) 1);
  (*195*) AddTo n_t3new (Plain (Einsum [(n_t1,[0;1]); (n_t2,[2;3;4;5]); (n_v'ovov,[6;1;3;7])] [2;6;0;4;7;5]));
  (*196*) AddTo n_t3new (Times (Einsum [(n_t1,[0;1]); (n_t2,[2;3;4;5]); (n_v'ovov,[6;1;3;7])] [2;6;0;7;4;5]) (-1) 1);
  (*197*) AddTo n_t3new (Plain (Einsum [(n_t1,[0;1]); (n_t2,[2;3;4;5]); (n_v'ovov,[6;1;3;7])] [6;2;0;4;5;7]));
  (*198*) AddTo n_t3new (Times (Einsum [(n_t1,[0;1]); (n_t2,[2;3;4;5]); (n_v'ovov,[6;1;3;7])] [6;2;0;4;7;5]) (-1) 1);
  (*199*) AddTo n_t3new (Plain (Einsum [(n_t1,[0;1]); (n_t2,[2;3;4;5]); (n_v'ovov,[6;1;3;7])] [6;2;0;7;4;5]));
  (*200*) AddTo n_t3new (Plain (Einsum [(n_t1,[0;1]); (n_t2,[2;3;4;5]); (n_v'ovov,[6;5;0;7])] [2;6;3;1;4;7]));
  (*201*) AddTo n_t3new (Times (Einsum [(n_t1,[0;1]); (n_t2,[2;3;4;5]); (n_v'ovov,[6;5;0;7])] [2;6;3;1;7;4]) (-1) 1);
  (*202*) AddTo n_t3new (Times (Einsum [(n_t1,[0;1]); (n_t2,[2;3;4;5]); (n_v'ovov,[6;5;0;7])] [2;3;6;1;4;7]) (-1) 1);
  (*203*) AddTo n_t3new (Plain (Einsum [(n_t1,[0;1]); (n_t2,[2;3;4;5]); (n_v'ovov,[6;5;0;7])] [2;3;6;1;7;4]));
  (*204*) AddTo n_t3new (Times (Einsum [(n_t1,[0;1]); (n_t2,[2;3;4;5]); (n_v'ovov,[6;5;0;7])] [6;2;3;1;4;7]) (-1) 1);
  (*205*) AddTo n_t3new (Plain (Einsum [(n_t1,[0;1]); (n_t2,[2;3;4;5]); (n_v'ovov,[6;5;0;7])] [6;2;3;1;7;4]));
  (*206*) AddTo n_t3new (Times (Einsum [(n_t1,[0;1]); (n_t2,[2;3;4;5]); (n_v'ovov,[6;5;0;7])] [2;6;3;4;1;7]) (-1) 1);
  (*207*) AddTo n_t3new (Plain (Einsum [(n_t1,[0;1]); (n_t2,[2;3;4;5]); (n_v'ovov,[6;5;0;7])] [2;6;3;7;1;4]));
  (*208*) AddTo n_t3new (Plain (Einsum [(n_t1,[0;1]); (n_t2,[2;3;4;5]); (n_v'ovov,[6;5;0;7])] [2;3;6;4;1;7]));
  (*209*) AddTo n_t3new (Times (Einsum [(n_t1,[0;1]); (n_t2,[2;3;4;5]); (n_v'ovov,[6;5;0;7])] [2;3;6;7;1;4]) (-1) 1);
  (*210*) AddTo n_t3new (Plain (Einsum [(n_t1,[0;1]); (n_t2,[2;3;4;5]); (n_v'ovov,[6;5;0;7])] [6;2;3;4;1;7]));
  (*211*) AddTo n_t3new (Times (Einsum [(n_t1,[0;1]); (n_t2,[2;3;4;5]); (n_v'ovov,[6;5;0;7])] [6;2;3;7;1;4]) (-1) 1);
  (*212*) AddTo n_t3new (Plain (Einsum [(n_t1,[0;1]); (n_t2,[2;3;4;5]); (n_v'ovov,[6;5;0;7])] [2;6;3;4;7;1]));
  (*213*) AddTo n_t3new (Times (Einsum [(n_t1,[0;1]); (n_t2,[2;3;4;5]); (n_v'ovov,[6;5;0;7])] [2;6;3;7;4;1]) (-1) 1);
  (*214*) AddTo n_t3new (Times (Einsum [(n_t1,[0;1]); (n_t2,[2;3;4;5]); (n_v'ovov,[6;5;0;7])] [2;3;6;4;7;1]) (-1) 1);
  (*215*) AddTo n_t3new (Plain (Einsum [(n_t1,[0;1]); (n_t2,[2;3;4;5]); (n_v'ovov,[6;5;0;7])] [2;3;6;7;4;1]));
  (*216*) AddTo n_t3new (Times (Einsum [(n_t1,[0;1]); (n_t2,[2;3;4;5]); (n_v'ovov,[6;5;0;7])] [6;2;3;4;7;1]) (-1) 1);
  (*217*) AddTo n_t3new (Plain (Einsum [(n_t1,[0;1]); (n_t2,[2;3;4;5]); (n_v'ovov,[6;5;0;7])] [6;2;3;7;4;1]));
  (*218*) AddTo n_t3new (Times (Einsum [(n_t1,[0;1]); (n_t2,[2;3;4;5]); (n_v'vvvv,[6;7;1;5])] [0;2;3;6;7;4]) (-1) 1);
  (*219*) AddTo n_t3new (Plain (Einsum [(n_t1,[0;1]); (n_t2,[2;3;4;5]); (n_v'vvvv,[6;7;1;5])] [0;2;3;6;4;7]));
  (*220*) AddTo n_t3new (Times (Einsum [(n_t1,[0;1]); (n_t2,[2;3;4;5]); (n_v'vvvv,[6;7;1;5])] [0;2;3;4;6;7]) (-1) 1);
  (*221*) AddTo n_t3new (Plain (Einsum [(n_t1,[0;1]); (n_t2,[2;3;4;5]); (n_v'vvvv,[6;7;1;5])] [2;0;3;6;7;4]));
  (*222*) AddTo n_t3new (Times (Einsum [(n_t1,[0;1]); (n_t2,[2;3;4;5]); (n_v'vvvv,[6;7;1;5])] [2;0;3;6;4;7]) (-1) 1);
  (*223*) AddTo n_t3new (Plain (Einsum [(n_t1,[0;1]); (n_t2,[2;3;4;5]); (n_v'vvvv,[6;7;1;5])] [2;0;3;4;6;7]));
  (*224*) AddTo n_t3new (Times (Einsum [(n_t1,[0;1]); (n_t2,[2;3;4;5]); (n_v'vvvv,[6;7;1;5])] [2;3;0;6;7;4]) (-1) 1);
  (*225*) AddTo n_t3new (Plain (Einsum [(n_t1,[0;1]); (n_t2,[2;3;4;5]); (n_v'vvvv,[6;7;1;5])] [2;3;0;6;4;7]));
  (*226*) AddTo n_t3new (Times (Einsum [(n_t1,[0;1]); (n_t2,[2;3;4;5]); (n_v'vvvv,[6;7;1;5])] [2;3;0;4;6;7]) (-1) 1);
  (*227*) AddTo n_t3new (Times (Einsum [(n_t1,[0;1]); (n_v'ooov,[2;3;4;1]); (n_t3,[5;2;3;6;7;8])] [0;4;5;6;7;8]) (-1) 2);
  (*228*) AddTo n_t3new (Times (Einsum [(n_t1,[0;1]); (n_v'ooov,[2;3;4;1]); (n_t3,[5;2;3;6;7;8])] [0;5;4;6;7;8]) (1) 2);
  (*229*) AddTo n_t3new (Times (Einsum [(n_t1,[0;1]); (n_v'ooov,[2;3;4;1]); (n_t3,[5;2;3;6;7;8])] [4;0;5;6;7;8]) (1) 2);
  (*230*) AddTo n_t3new (Times (Einsum [(n_t1,[0;1]); (n_v'ooov,[2;3;4;1]); (n_t3,[5;2;3;6;7;8])] [5;0;4;6;7;8]) (-1) 2);
  (*231*) AddTo n_t3new (Times (Einsum [(n_t1,[0;1]); (n_v'ooov,[2;3;4;1]); (n_t3,[5;2;3;6;7;8])] [4;5;0;6;7;8]) (-1) 2);
  (*232*) AddTo n_t3new (Times (Einsum [(n_t1,[0;1]); (n_v'ooov,[2;3;4;1]); (n_t3,[5;2;3;6;7;8])] [5;4;0;6;7;8]) (1) 2);
  (*233*) AddTo n_t3new (Times (Einsum [(n_t1,[0;1]); (n_v'ooov,[0;2;3;4]); (n_t3,[5;6;2;7;8;4])] [3;5;6;1;7;8]) (-1) 1);
  (*234*) AddTo n_t3new (Plain (Einsum [(n_t1,[0;1]); (n_v'ooov,[0;2;3;4]); (n_t3,[5;6;2;7;8;4])] [5;3;6;1;7;8]));
  (*235*) AddTo n_t3new (Times (Einsum [(n_t1,[0;1]); (n_v'ooov,[0;2;3;4]); (n_t3,[5;6;2;7;8;4])] [5;6;3;1;7;8]) (-1) 1);
  (*236*) AddTo n_t3new (Plain (Einsum [(n_t1,[0;1]); (n_v'ooov,[0;2;3;4]); (n_t3,[5;6;2;7;8;4])] [3;5;6;7;1;8]));
  (*237*) AddTo n_t3new (Times (Einsum [(n_t1,[0;1]); (n_v'ooov,[0;2;3;4]); (n_t3,[5;6;2;7;8;4])] [5;3;6;7;1;8]) (-1) 1);
  (*238*) AddTo n_t3new (Plain (Einsum [(n_t1,[0;1]); (n_v'ooov,[0;2;3;4]); (n_t3,[5;6;2;7;8;4])] [5;6;3;7;1;8]));
  (*239*) AddTo n_t3new (Times (Einsum [(n_t1,[0;1]); (n_v'ooov,[0;2;3;4]); (n_t3,[5;6;2;7;8;4])] [3;5;6;7;8;1]) (-1) 1);
  (*240*) AddTo n_t3new (Plain (Einsum [(n_t1,[0;1]); (n_v'ooov,[0;2;3;4]); (n_t3,[5;6;2;7;8;4])] [5;3;6;7;8;1]));
  (*241*) AddTo n_t3new (Times (Einsum [(n_t1,[0;1]); (n_v'ooov,[0;2;3;4]); (n_t3,[5;6;2;7;8;4])] [5;6;3;7;8;1]) (-1) 1);
  (*242*) AddTo n_t3new (Plain (Einsum [(n_t1,[0;1]); (n_v'ooov,[0;2;3;1]); (n_t3,[4;5;2;6;7;8])] [3;4;5;6;7;8]));
  (*243*) AddTo n_t3new (Times (Einsum [(n_t1,[0;1]); (n_v'ooov,[0;2;3;1]); (n_t3,[4;5;2;6;7;8])] [4;3;5;6;7;8]) (-1) 1);
  (*244*) AddTo n_t3new (Plain (Einsum [(n_t1,[0;1]); (n_v'ooov,[0;2;3;1]); (n_t3,[4;5;2;6;7;8])] [4;5;3;6;7;8]));
  (*245*) AddTo n_t3new (Times (Einsum [(n_t1,[0;1]); (n_v'ovvv,[2;3;1;4]); (n_t3,[5;6;2;7;8;4])] [0;5;6;3;7;8]) (-1) 1);
  (*246*) AddTo n_t3new (Plain (Einsum [(n_t1,[0;1]); (n_v'ovvv,[2;3;1;4]); (n_t3,[5;6;2;7;8;4])] [0;5;6;7;3;8]));
  (*247*) AddTo n_t3new (Times (Einsum [(n_t1,[0;1]); (n_v'ovvv,[2;3;1;4]); (n_t3,[5;6;2;7;8;4])] [0;5;6;7;8;3]) (-1) 1);
  (*248*) AddTo n_t3new (Plain (Einsum [(n_t1,[0;1]); (n_v'ovvv,[2;3;1;4]); (n_t3,[5;6;2;7;8;4])] [5;0;6;3;7;8]));
  (*249*) AddTo n_t3new (Times (Einsum [(n_t1,[0;1]); (n_v'ovvv,[2;3;1;4]); (n_t3,[5;6;2;7;8;4])] [5;0;6;7;3;8]) (-1) 1);
  (*250*) AddTo n_t3new (Plain (Einsum [(n_t1,[0;1]); (n_v'ovvv,[2;3;1;4]); (n_t3,[5;6;2;7;8;4])] [5;0;6;7;8;3]));
  (*251*) AddTo n_t3new (Times (Einsum [(n_t1,[0;1]); (n_v'ovvv,[2;3;1;4]); (n_t3,[5;6;2;7;8;4])] [5;6;0;3;7;8]) (-1) 1);
  (*252*) AddTo n_t3new (Plain (Einsum [(n_t1,[0;1]); (n_v'ovvv,[2;3;1;4]); (n_t3,[5;6;2;7;8;4])] [5;6;0;7;3;8]));
  (*253*) AddTo n_t3new (Times (Einsum [(n_t1,[0;1]); (n_v'ovvv,[2;3;1;4]); (n_t3,[5;6;2;7;8;4])] [5;6;0;7;8;3]) (-1) 1);
  (*254*) AddTo n_t3new (Times (Einsum [(n_t1,[0;1]); (n_v'ovvv,[0;2;3;4]); (n_t3,[5;6;7;8;3;4])] [5;6;7;1;2;8]) (-1) 2);
  (*255*) AddTo n_t3new (Times (Einsum [(n_t1,[0;1]); (n_v'ovvv,[0;2;3;4]); (n_t3,[5;6;7;8;3;4])] [5;6;7;1;8;2]) (1) 2);
  (*256*) AddTo n_t3new (Times (Einsum [(n_t1,[0;1]); (n_v'ovvv,[0;2;3;4]); (n_t3,[5;6;7;8;3;4])] [5;6;7;2;1;8]) (1) 2);
  (*257*) AddTo n_t3new (Times (Einsum [(n_t1,[0;1]); (n_v'ovvv,[0;2;3;4]); (n_t3,[5;6;7;8;3;4])] [5;6;7;8;1;2]) (-1) 2);
  (*258*) AddTo n_t3new (Times (Einsum [(n_t1,[0;1]); (n_v'ovvv,[0;2;3;4]); (n_t3,[5;6;7;8;3;4])] [5;6;7;2;8;1]) (-1) 2);
  (*259*) AddTo n_t3new (Times (Einsum [(n_t1,[0;1]); (n_v'ovvv,[0;2;3;4]); (n_t3,[5;6;7;8;3;4])] [5;6;7;8;2;1]) (1) 2);
  (*260*) AddTo n_t3new (Plain (Einsum [(n_t1,[0;1]); (n_v'ovvv,[0;2;1;3]); (n_t3,[4;5;6;7;8;3])] [4;5;6;2;7;8]));
  (*261*) AddTo n_t3new (Times (Einsum [(n_t1,[0;1]); (n_v'ovvv,[0;2;1;3]); (n_t3,[4;5;6;7;8;3])] [4;5;6;7;2;8]) (-1) 1);
  (*262*) AddTo n_t3new (Plain (Einsum [(n_t1,[0;1]); (n_v'ovvv,[0;2;1;3]); (n_t3,[4;5;6;7;8;3])] [4;5;6;7;8;2]));
  (*263*) AddTo n_t3new (Times (Einsum [(n_t1,[0;1]); (n_v'oovv,[2;3;1;4]); (n_t4,[5;6;2;3;7;8;9;4])] [0;5;6;7;8;9]) (-1) 2);
  (*264*) AddTo n_t3new (Times (Einsum [(n_t1,[0;1]); (n_v'oovv,[2;3;1;4]); (n_t4,[5;6;2;3;7;8;9;4])] [5;0;6;7;8;9]) (1) 2);
  (*265*) AddTo n_t3new (Times (Einsum [(n_t1,[0;1]); (n_v'oovv,[2;3;1;4]); (n_t4,[5;6;2;3;7;8;9;4])] [5;6;0;7;8;9]) (-1) 2);
  (*266*) AddTo n_t3new (Times (Einsum [(n_t1,[0;1]); (n_v'oovv,[0;2;3;4]); (n_t4,[5;6;7;2;8;9;3;4])] [5;6;7;1;8;9]) (-1) 2);
  (*267*) AddTo n_t3new (Times (Einsum [(n_t1,[0;1]); (n_v'oovv,[0;2;3;4]); (n_t4,[5;6;7;2;8;9;3;4])] [5;6;7;8;1;9]) (1) 2);
  (*268*) AddTo n_t3new (Times (Einsum [(n_t1,[0;1]); (n_v'oovv,[0;2;3;4]); (n_t4,[5;6;7;2;8;9;3;4])] [5;6;7;8;9;1]) (-1) 2);
  (*269*) AddTo n_t3new (Plain (Einsum [(n_t1,[0;1]); (n_v'oovv,[0;2;1;3]); (n_t4,[4;5;6;2;7;8;9;3])] [4;5;6;7;8;9]));
  (*270*) AddTo n_t3new (Times (Einsum [(n_t2,[0;1;2;3]); (n_t2,[4;5;6;7]); (n_v'ooov,[1;5;8;7])] [0;4;8;2;6;3]) (-1) 1);
  (*271*) AddTo n_t3new (Plain (Einsum [(n_t2,[0;1;2;3]); (n_t2,[4;5;6;7]); (n_v'ooov,[1;5;8;3])] [0;4;8;2;6;7]));
  (*272*) AddTo n_t3new (Plain (Einsum [(n_t2,[0;1;2;3]); (n_t2,[4;5;6;7]); (n_v'ooov,[1;5;8;7])] [0;4;8;2;3;6]));
  (*273*) AddTo n_t3new (Plain (Einsum [(n_t2,[0;1;2;3]); (n_t2,[4;5;6;7]); (n_v'ooov,[1;5;8;7])] [0;4;8;6;2;3]));
  (*274*) AddTo n_t3new (Times (Einsum [(n_t2,[0;1;2;3]); (n_t2,[4;5;6;7]); (n_v'ooov,[1;5;8;3])] [0;4;8;6;2;7]) (-1) 1);
  (*275*) AddTo n_t3new (Plain (Einsum [(n_t2,[0;1;2;3]); (n_t2,[4;5;6;7]); (n_v'ooov,[1;5;8;3])] [0;4;8;6;7;2]));
  (*276*) AddTo n_t3new (Plain (Einsum [(n_t2,[0;1;2;3]); (n_t2,[4;5;6;7]); (n_v'ooov,[1;5;8;7])] [0;8;4;2;6;3]));
  (*277*) AddTo n_t3new (Times (Einsum [(n_t2,[0;1;2;3]); (n_t2,[4;5;6;7]); (n_v'ooov,[1;5;8;3])] [0;8;4;2;6;7]) (-1) 1);
  (*278*) AddTo n_t3new (Times (Einsum [(n_t2,[0;1;2;3]); (n_t2,[4;5;6;7]); (n_v'ooov,[1;5;8;7])] [0;8;4;2;3;6]) (-1) 1);
  (*279*) AddTo n_t3new (Times (Einsum [(n_t2,[0;1;2;3]); (n_t2,[4;5;6;7]); (n_v'ooov,[1;5;8;7])] [0;8;4;6;2;3]) (-1) 1);
  (*280*) AddTo n_t3new (Plain (Einsum [(n_t2,[0;1;2;3]); (n_t2,[4;5;6;7]); (n_v'ooov,[1;5;8;3])] [0;8;4;6;2;7]));
  (*281*) AddTo n_t3new (Times (Einsum [(n_t2,[0;1;2;3]); (n_t2,[4;5;6;7]); (n_v'ooov,[1;5;8;3])] [0;8;4;6;7;2]) (-1) 1);
  (*282*) AddTo n_t3new (Times (Einsum [(n_t2,[0;1;2;3]); (n_t2,[4;5;6;7]); (n_v'ooov,[4;5;8;3])] [0;1;8;2;6;7]) (-1) 2);
  (*283*) AddTo n_t3new (Times (Einsum [(n_t2,[0;1;2;3]); (n_t2,[4;5;6;7]); (n_v'ooov,[4;5;8;3])] [0;1;8;6;2;7]) (1) 2);
  (*284*) AddTo n_t3new (Times (Einsum [(n_t2,[0;1;2;3]); (n_t2,[4;5;6;7]); (n_v'ooov,[4;5;8;3])] [0;1;8;6;7;2]) (-1) 2);
  (*285*) AddTo n_t3new (Times (Einsum [(n_t2,[0;1;2;3]); (n_t2,[4;5;6;7]); (n_v'ooov,[4;5;8;3])] [0;8;1;2;6;7]) (1) 2);
  (*286*) AddTo n_t3new (Times (Einsum [(n_t2,[0;1;2;3]); (n_t2,[4;5;6;7]); (n_v'ooov,[4;5;8;3])] [0;8;1;6;2;7]) (-1) 2);
  (*287*) AddTo n_t3new (Times (Einsum [(n_t2,[0;1;2;3]); (n_t2,[4;5;6;7]); (n_v'ooov,[4;5;8;3])] [0;8;1;6;7;2]) (1) 2);
  (*288*) AddTo n_t3new (Times (Einsum [(n_t2,[0;1;2;3]); (n_t2,[4;5;6;7]); (n_v'ooov,[1;5;8;7])] [8;0;4;2;6;3]) (-1) 1);
  (*289*) AddTo n_t3new (Plain (Einsum [(n_t2,[0;1;2;3]); (n_t2,[4;5;6;7]); (n_v'ooov,[1;5;8;3])] [8;0;4;2;6;7]));
  (*290*) AddTo n_t3new (Plain (Einsum [(n_t2,[0;1;2;3]); (n_t2,[4;5;6;7]); (n_v'ooov,[1;5;8;7])] [8;0;4;2;3;6]));
  (*291*) AddTo n_t3new (Plain (Einsum [(n_t2,[0;1;2;3]); (n_t2,[4;5;6;7]); (n_v'ooov,[1;5;8;7])] [8;0;4;6;2;3]));
  (*292*) AddTo n_t3new (Times (Einsum [(n_t2,[0;1;2;3]); (n_t2,[4;5;6;7]); (n_v'ooov,[1;5;8;3])] [8;0;4;6;2;7]) (-1) 1);
  (*293*) AddTo n_t3new (Plain (Einsum [(n_t2,[0;1;2;3]); (n_t2,[4;5;6;7]); (n_v'ooov,[1;5;8;3])] [8;0;4;6;7;2]));
  (*294*) AddTo n_t3new (Times (Einsum [(n_t2,[0;1;2;3]); (n_t2,[4;5;6;7]); (n_v'ooov,[4;5;8;3])] [8;0;1;2;6;7]) (-1) 2);
  (*295*) AddTo n_t3new (Times (Einsum [(n_t2,[0;1;2;3]); (n_t2,[4;5;6;7]); (n_v'ooov,[4;5;8;3])] [8;0;1;6;2;7]) (1) 2);
  (*296*) AddTo n_t3new (Times (Einsum [(n_t2,[0;1;2;3]); (n_t2,[4;5;6;7]); (n_v'ooov,[4;5;8;3])] [8;0;1;6;7;2]) (-1) 2);
  (*297*) AddTo n_t3new (Times (Einsum [(n_t2,[0;1;2;3]); (n_t2,[4;5;6;7]); (n_v'ovvv,[5;8;3;7])] [0;4;1;8;2;6]) (-1) 1);
  (*298*) AddTo n_t3new (Plain (Einsum [(n_t2,[0;1;2;3]); (n_t2,[4;5;6;7]); (n_v'ovvv,[5;8;3;7])] [0;4;1;8;6;2]));
  (*299*) AddTo n_t3new (Times (Einsum [(n_t2,[0;1;2;3]); (n_t2,[4;5;6;7]); (n_v'ovvv,[5;8;2;3])] [0;4;1;8;6;7]) (1) 2);
  (*300*) AddTo n_t3new (Plain (Einsum [(n_t2,[0;1;2;3]); (n_t2,[4;5;6;7]); (n_v'ovvv,[5;8;3;7])] [0;4;1;2;8;6]));
  (*301*) AddTo n_t3new (Times (Einsum [(n_t2,[0;1;2;3]); (n_t2,[4;5;6;7]); (n_v'ovvv,[5;8;3;7])] [0;4;1;6;8;2]) (-1) 1);
  (*302*) AddTo n_t3new (Times (Einsum [(n_t2,[0;1;2;3]); (n_t2,[4;5;6;7]); (n_v'ovvv,[5;8;2;3])] [0;4;1;6;8;7]) (-1) 2);
  (*303*) AddTo n_t3new (Times (Einsum [(n_t2,[0;1;2;3]); (n_t2,[4;5;6;7]); (n_v'ovvv,[5;8;3;7])] [0;4;1;2;6;8]) (-1) 1);
  (*304*) AddTo n_t3new (Plain (Einsum [(n_t2,[0;1;2;3]); (n_t2,[4;5;6;7]); (n_v'ovvv,[5;8;3;7])] [0;4;1;6;2;8]));
  (*305*) AddTo n_t3new (Times (Einsum [(n_t2,[0;1;2;3]); (n_t2,[4;5;6;7]); (n_v'ovvv,[5;8;2;3])] [0;4;1;6;7;8]) (1) 2);
  (*306*) AddTo n_t3new (Plain (Einsum [(n_t2,[0;1;2;3]); (n_t2,[4;5;6;7]); (n_v'ovvv,[1;8;3;7])] [0;4;5;8;2;6]));
  (*307*) AddTo n_t3new (Times (Einsum [(n_t2,[0;1;2;3]); (n_t2,[4;5;6;7]); (n_v'ovvv,[1;8;6;7])] [0;4;5;8;2;3]) (-1) 2);
  (*308*) AddTo n_t3new (Times (Einsum [(n_t2,[0;1;2;3]); (n_t2,[4;5;6;7]); (n_v'ovvv,[1;8;3;7])] [0;4;5;8;6;2]) (-1) 1);
  (*309*) AddTo n_t3new (Times (Einsum [(n_t2,[0;1;2;3]); (n_t2,[4;5;6;7]); (n_v'ovvv,[1;8;3;7])] [0;4;5;2;8;6]) (-1) 1);
  (*310*) AddTo n_t3new (Times (Einsum [(n_t2,[0;1;2;3]); (n_t2,[4;5;6;7]); (n_v'ovvv,[1;8;6;7])] [0;4;5;2;8;3]) (1) 2);
  (*311*) AddTo n_t3new (Plain (Einsum [(n_t2,[0;1;2;3]); (n_t2,[4;5;6;7]); (n_v'ovvv,[1;8;3;7])] [0;4;5;6;8;2]));
  (*312*) AddTo n_t3new (Plain (Einsum [(n_t2,[0;1;2;3]); (n_t2,[4;5;6;7]); (n_v'ovvv,[1;8;3;7])] [0;4;5;2;6;8]));
  (*313*) AddTo n_t3new (Times (Einsum [(n_t2,[0;1;2;3]); (n_t2,[4;5;6;7]); (n_v'ovvv,[1;8;6;7])] [0;4;5;2;3;8]) (-1) 2);
  (*314*) AddTo n_t3new (Times (Einsum [(n_t2,[0;1;2;3]); (n_t2,[4;5;6;7]); (n_v'ovvv,[1;8;3;7])] [0;4;5;6;2;8]) (-1) 1);
  (*315*) AddTo n_t3new (Plain (Einsum [(n_t2,[0;1;2;3]); (n_t2,[4;5;6;7]); (n_v'ovvv,[5;8;3;7])] [0;1;4;8;2;6]));
  (*316*) AddTo n_t3new (Times (Einsum [(n_t2,[0;1;2;3]); (n_t2,[4;5;6;7]); (n_v'ovvv,[5;8;3;7])] [0;1;4;8;6;2]) (-1) 1);
  (*317*) AddTo n_t3new (Times (Einsum [(n_t2,[0;1;2;3]); (n_t2,[4;5;6;7]); (n_v'ovvv,[5;8;2;3])] [0;1;4;8;6;7]) (-1) 2);
  (*318*) AddTo n_t3new (Times (Einsum [(n_t2,[0;1;2;3]); (n_t2,[4;5;6;7]); (n_v'ovvv,[5;8;3;7])] [0;1;4;2;8;6]) (-1) 1);
  (*319*) AddTo n_t3new (Plain (Einsum [(n_t2,[0;1;2;3]); (n_t2,[4;5;6;7]); (n_v'ovvv,[5;8;3;7])] [0;1;4;6;8;2]));
  (*320*) AddTo n_t3new (Times (Einsum [(n_t2,[0;1;2;3]); (n_t2,[4;5;6;7]); (n_v'ovvv,[5;8;2;3])] [0;1;4;6;8;7]) (1) 2);
  (*321*) AddTo n_t3new (Plain (Einsum [(n_t2,[0;1;2;3]); (n_t2,[4;5;6;7]); (n_v'ovvv,[5;8;3;7])] [0;1;4;2;6;8]));
  (*322*) AddTo n_t3new (Times (Einsum [(n_t2,[0;1;2;3]); (n_t2,[4;5;6;7]); (n_v'ovvv,[5;8;3;7])] [0;1;4;6;2;8]) (-1) 1);
  (*323*) AddTo n_t3new (Times (Einsum [(n_t2,[0;1;2;3]); (n_t2,[4;5;6;7]); (n_v'ovvv,[5;8;2;3])] [0;1;4;6;7;8]) (-1) 2);
  (*324*) AddTo n_t3new (Times (Einsum [(n_t2,[0;1;2;3]); (n_v'oovv,[4;5;3;6]); (n_t3,[7;4;5;8;9;6])] [0;1;7;2;8;9]) (1) 2);
  (*325*) AddTo n_t3new (Times (Einsum [(n_t2,[0;1;2;3]); (n_v'oovv,[4;5;3;6]); (n_t3,[7;4;5;8;9;6])] [0;1;7;8;2;9]) (-1) 2);
  (*326*) AddTo n_t3new (Times (Einsum [(n_t2,[0;1;2;3]); (n_v'oovv,[4;5;3;6]); (n_t3,[7;4;5;8;9;6])] [0;1;7;8;9;2]) (1) 2);
  (*327*) AddTo n_t3new (Times (Einsum [(n_t2,[0;1;2;3]); (n_v'oovv,[4;5;2;3]); (n_t3,[6;4;5;7;8;9])] [0;1;6;7;8;9]) (1) 4);
  (*328*) AddTo n_t3new (Times (Einsum [(n_t2,[0;1;2;3]); (n_v'oovv,[4;5;3;6]); (n_t3,[7;4;5;8;9;6])] [0;7;1;2;8;9]) (-1) 2);
  (*329*) AddTo n_t3new (Times (Einsum [(n_t2,[0;1;2;3]); (n_v'oovv,[4;5;3;6]); (n_t3,[7;4;5;8;9;6])] [0;7;1;8;2;9]) (1) 2);
  (*330*) AddTo n_t3new (Times (Einsum [(n_t2,[0;1;2;3]); (n_v'oovv,[4;5;3;6]); (n_t3,[7;4;5;8;9;6])] [0;7;1;8;9;2]) (-1) 2);
  (*331*) AddTo n_t3new (Times (Einsum [(n_t2,[0;1;2;3]); (n_v'oovv,[4;5;2;3]); (n_t3,[6;4;5;7;8;9])] [0;6;1;7;8;9]) (-1) 4);
  (*332*) AddTo n_t3new (Times (Einsum [(n_t2,[0;1;2;3]); (n_v'oovv,[1;4;5;6]); (n_t3,[7;8;4;9;5;6])] [0;7;8;2;3;9]) (1) 2);
  (*333*) AddTo n_t3new (Times (Einsum [(n_t2,[0;1;2;3]); (n_v'oovv,[1;4;5;6]); (n_t3,[7;8;4;9;5;6])] [0;7;8;2;9;3]) (-1) 2);
  (*334*) AddTo n_t3new (Plain (Einsum [(n_t2,[0;1;2;3]); (n_v'oovv,[1;4;3;5]); (n_t3,[6;7;4;8;9;5])] [0;6;7;2;8;9]));
  (*335*) AddTo n_t3new (Times (Einsum [(n_t2,[0;1;2;3]); (n_v'oovv,[1;4;5;6]); (n_t3,[7;8;4;9;5;6])] [0;7;8;9;2;3]) (1) 2);
  (*336*) AddTo n_t3new (Times (Einsum [(n_t2,[0;1;2;3]); (n_v'oovv,[1;4;3;5]); (n_t3,[6;7;4;8;9;5])] [0;6;7;8;2;9]) (-1) 1);
  (*337*) AddTo n_t3new (Plain (Einsum [(n_t2,[0;1;2;3]); (n_v'oovv,[1;4;3;5]); (n_t3,[6;7;4;8;9;5])] [0;6;7;8;9;2]));
  (*338*) AddTo n_t3new (Times (Einsum [(n_t2,[0;1;2;3]); (n_v'oovv,[1;4;2;3]); (n_t3,[5;6;4;7;8;9])] [0;5;6;7;8;9]) (1) 2);
  (*339*) AddTo n_t3new (Times (Einsum [(n_t2,[0;1;2;3]); (n_v'oovv,[4;5;3;6]); (n_t3,[7;4;5;8;9;6])] [7;0;1;2;8;9]) (1) 2);
  (*340*) AddTo n_t3new (Times (Einsum [(n_t2,[0;1;2;3]); (n_v'oovv,[4;5;3;6]); (n_t3,[7;4;5;8;9;6])] [7;0;1;8;2;9]) (-1) 2);
  (*341*) AddTo n_t3new (Times (Einsum [(n_t2,[0;1;2;3]); (n_v'oovv,[4;5;3;6]); (n_t3,[7;4;5;8;9;6])] [7;0;1;8;9;2]) (1) 2);
  (*342*) AddTo n_t3new (Times (Einsum [(n_t2,[0;1;2;3]); (n_v'oovv,[4;5;2;3]); (n_t3,[6;4;5;7;8;9])] [6;0;1;7;8;9]) (1) 4);
  (*343*) AddTo n_t3new (Times (Einsum [(n_t2,[0;1;2;3]); (n_v'oovv,[1;4;5;6]); (n_t3,[7;8;4;9;5;6])] [7;0;8;2;3;9]) (-1) 2);
  (*344*) AddTo n_t3new (Times (Einsum [(n_t2,[0;1;2;3]); (n_v'oovv,[1;4;5;6]); (n_t3,[7;8;4;9;5;6])] [7;0;8;2;9;3]) (1) 2);
  (*345*) AddTo n_t3new (Times (Einsum [(n_t2,[0;1;2;3]); (n_v'oovv,[1;4;3;5]); (n_t3,[6;7;4;8;9;5])] [6;0;7;2;8;9]) (-1) 1);
  (*346*) AddTo n_t3new (Times (Einsum [(n_t2,[0;1;2;3]); (n_v'oovv,[1;4;5;6]); (n_t3,[7;8;4;9;5;6])] [7;0;8;9;2;3]) (-1) 2);
  (*347*) AddTo n_t3new (Plain (Einsum [(n_t2,[0;1;2;3]); (n_v'oovv,[1;4;3;5]); (n_t3,[6;7;4;8;9;5])] [6;0;7;8;2;9]));
  (*348*) AddTo n_t3new (Times (Einsum [(n_t2,[0;1;2;3]); (n_v'oovv,[1;4;3;5]); (n_t3,[6;7;4;8;9;5])] [6;0;7;8;9;2]) (-1) 1);
  (*349*) AddTo n_t3new (Times (Einsum [(n_t2,[0;1;2;3]); (n_v'oovv,[1;4;2;3]); (n_t3,[5;6;4;7;8;9])] [5;0;6;7;8;9]) (-1) 2);
  (*350*) AddTo n_t3new (Times (Einsum [(n_t2,[0;1;2;3]); (n_v'oovv,[1;4;5;6]); (n_t3,[7;8;4;9;5;6])] [7;8;0;2;3;9]) (1) 2);
  (*351*) AddTo n_t3new (Times (Einsum [(n_t2,[0;1;2;3]); (n_v'oovv,[1;4;5;6]); (n_t3,[7;8;4;9;5;6])] [7;8;0;2;9;3]) (-1) 2);
  (*352*) AddTo n_t3new (Plain (Einsum [(n_t2,[0;1;2;3]); (n_v'oovv,[1;4;3;5]); (n_t3,[6;7;4;8;9;5])] [6;7;0;2;8;9]));
  (*353*) AddTo n_t3new (Times (Einsum [(n_t2,[0;1;2;3]); (n_v'oovv,[1;4;5;6]); (n_t3,[7;8;4;9;5;6])] [7;8;0;9;2;3]) (1) 2);
  (*354*) AddTo n_t3new (Times (Einsum [(n_t2,[0;1;2;3]); (n_v'oovv,[1;4;3;5]); (n_t3,[6;7;4;8;9;5])] [6;7;0;8;2;9]) (-1) 1);
  (*355*) AddTo n_t3new (Plain (Einsum [(n_t2,[0;1;2;3]); (n_v'oovv,[1;4;3;5]); (n_t3,[6;7;4;8;9;5])] [6;7;0;8;9;2]));
  (*356*) AddTo n_t3new (Times (Einsum [(n_t2,[0;1;2;3]); (n_v'oovv,[1;4;2;3]); (n_t3,[5;6;4;7;8;9])] [5;6;0;7;8;9]) (1) 2);
  (*357*) AddTo n_t3new (Times (Einsum [(n_t2,[0;1;2;3]); (n_v'oovv,[0;1;4;5]); (n_t3,[6;7;8;9;4;5])] [6;7;8;2;3;9]) (1) 4);
  (*358*) AddTo n_t3new (Times (Einsum [(n_t2,[0;1;2;3]); (n_v'oovv,[0;1;4;5]); (n_t3,[6;7;8;9;4;5])] [6;7;8;2;9;3]) (-1) 4);
  (*359*) AddTo n_t3new (Times (Einsum [(n_t2,[0;1;2;3]); (n_v'oovv,[0;1;3;4]); (n_t3,[5;6;7;8;9;4])] [5;6;7;2;8;9]) (1) 2);
  (*360*) AddTo n_t3new (Times (Einsum [(n_t2,[0;1;2;3]); (n_v'oovv,[0;1;4;5]); (n_t3,[6;7;8;9;4;5])] [6;7;8;9;2;3]) (1) 4);
  (*361*) AddTo n_t3new (Times (Einsum [(n_t2,[0;1;2;3]); (n_v'oovv,[0;1;3;4]); (n_t3,[5;6;7;8;9;4])] [5;6;7;8;2;9]) (-1) 2);
  (*362*) AddTo n_t3new (Times (Einsum [(n_t2,[0;1;2;3]); (n_v'oovv,[0;1;3;4]); (n_t3,[5;6;7;8;9;4])] [5;6;7;8;9;2]) (1) 2);
  (*363*) AddTo n_t3new (Times (Einsum [(n_t1,[0;1]); (n_t1,[2;3]); (n_t2,[4;5;6;7]); (n_v'ooov,[2;5;8;1])] [0;4;8;3;6;7]) (-1) 1);
  (*364*) AddTo n_t3new (Plain (Einsum [(n_t1,[0;1]); (n_t1,[2;3]); (n_t2,[4;5;6;7]); (n_v'ooov,[2;5;8;1])] [0;8;4;3;6;7]));
  (*365*) AddTo n_t3new (Plain (Einsum [(n_t1,[0;1]); (n_t1,[2;3]); (n_t2,[4;5;6;7]); (n_v'ooov,[2;5;8;1])] [0;4;8;6;3;7]));
  (*366*) AddTo n_t3new (Times (Einsum [(n_t1,[0;1]); (n_t1,[2;3]); (n_t2,[4;5;6;7]); (n_v'ooov,[2;5;8;1])] [0;8;4;6;3;7]) (-1) 1);
  (*367*) AddTo n_t3new (Times (Einsum [(n_t1,[0;1]); (n_t1,[2;3]); (n_t2,[4;5;6;7]); (n_v'ooov,[2;5;8;1])] [0;4;8;6;7;3]) (-1) 1);
  (*368*) AddTo n_t3new (Plain (Einsum [(n_t1,[0;1]); (n_t1,[2;3]); (n_t2,[4;5;6;7]); (n_v'ooov,[2;5;8;1])] [0;8;4;6;7;3]));
  (*369*) AddTo n_t3new (Plain (Einsum [(n_t1,[0;1]); (n_t1,[2;3]); (n_t2,[4;5;6;7]); (n_v'ooov,[2;5;8;1])] [4;0;8;3;6;7]));
  (*370*) AddTo n_t3new (Times (Einsum [(n_t1,[0;1]); (n_t1,[2;3]); (n_t2,[4;5;6;7]); (n_v'ooov,[2;5;8;1])] [8;0;4;3;6;7]) (-1) 1);
  (*371*) AddTo n_t3new (Times (Einsum [(n_t1,[0;1]); (n_t1,[2;3]); (n_t2,[4;5;6;7]); (n_v'ooov,[2;5;8;1])] [4;0;8;6;3;7]) (-1) 1);
  (*372*) AddTo n_t3new (Plain (Einsum [(n_t1,[0;1]); (n_t1,[2;3]); (n_t2,[4;5;6;7]); (n_v'ooov,[2;5;8;1])] [8;0;4;6;3;7]));
  (*373*) AddTo n_t3new (Plain (Einsum [(n_t1,[0;1]); (n_t1,[2;3]); (n_t2,[4;5;6;7]); (n_v'ooov,[2;5;8;1])] [4;0;8;6;7;3]));
  (*374*) AddTo n_t3new (Times (Einsum [(n_t1,[0;1]); (n_t1,[2;3]); (n_t2,[4;5;6;7]); (n_v'ooov,[2;5;8;1])] [8;0;4;6;7;3]) (-1) 1);
  (*375*) AddTo n_t3new (Times (Einsum [(n_t1,[0;1]); (n_t1,[2;3]); (n_t2,[4;5;6;7]); (n_v'ooov,[2;5;8;1])] [4;8;0;3;6;7]) (-1) 1);
  (*376*) AddTo n_t3new (Plain (Einsum [(n_t1,[0;1]); (n_t1,[2;3]); (n_t2,[4;5;6;7]); (n_v'ooov,[2;5;8;1])] [8;4;0;3;6;7]));
  (*377*) AddTo n_t3new (Plain (Einsum [(n_t1,[0;1]); (n_t1,[2;3]); (n_t2,[4;5;6;7]); (n_v'ooov,[2;5;8;1])] [4;8;0;6;3;7]));
  (*378*) AddTo n_t3new (Times (Einsum [(n_t1,[0;1]); (n_t1,[2;3]); (n_t2,[4;5;6;7]); (n_v'ooov,[2;5;8;1])] [8;4;0;6;3;7]) (-1) 1);
  (*379*) AddTo n_t3new (Times (Einsum [(n_t1,[0;1]); (n_t1,[2;3]); (n_t2,[4;5;6;7]); (n_v'ooov,[2;5;8;1])] [4;8;0;6;7;3]) (-1) 1);
  (*380*) AddTo n_t3new (Plain (Einsum [(n_t1,[0;1]); (n_t1,[2;3]); (n_t2,[4;5;6;7]); (n_v'ooov,[2;5;8;1])] [8;4;0;6;7;3]));
  (*381*) AddTo n_t3new (Times (Einsum [(n_t1,[0;1]); (n_t1,[2;3]); (n_t2,[4;5;6;7]); (n_v'ooov,[0;2;8;7])] [4;5;8;1;3;6]) (-1) 1);
  (*382*) AddTo n_t3new (Plain (Einsum [(n_t1,[0;1]); (n_t1,[2;3]); (n_t2,[4;5;6;7]); (n_v'ooov,[0;2;8;7])] [4;8;5;1;3;6]));
  (*383*) AddTo n_t3new (Times (Einsum [(n_t1,[0;1]); (n_t1,[2;3]); (n_t2,[4;5;6;7]); (n_v'ooov,[0;2;8;7])] [8;4;5;1;3;6]) (-1) 1);
  (*384*) AddTo n_t3new (Plain (Einsum [(n_t1,[0;1]); (n_t1,[2;3]); (n_t2,[4;5;6;7]); (n_v'ooov,[0;2;8;7])] [4;5;8;1;6;3]));
  (*385*) AddTo n_t3new (Times (Einsum [(n_t1,[0;1]); (n_t1,[2;3]); (n_t2,[4;5;6;7]); (n_v'ooov,[0;2;8;7])] [4;8;5;1;6;3]) (-1) 1);
  (*386*) AddTo n_t3new (Plain (Einsum [(n_t1,[0;1]); (n_t1,[2;3]); (n_t2,[4;5;6;7]); (n_v'ooov,[0;2;8;7])] [8;4;5;1;6;3]));
  (*387*) AddTo n_t3new (Times (Einsum [(n_t1,[0;1]); (n_t1,[2;3]); (n_t2,[4;5;6;7]); (n_v'ooov,[0;2;8;7])] [4;5;8;6;1;3]) (-1) 1);
  (*388*) AddTo n_t3new (Plain (Einsum [(n_t1,[0;1]); (n_t1,[2;3]); (n_t2,[4;5;6;7]); (n_v'ooov,[0;2;8;7])] [4;8;5;6;1;3]));
  (*389*) AddTo n_t3new (Times (Einsum [(n_t1,[0;1]); (n_t1,[2;3]); (n_t2,[4;5;6;7]); (n_v'ooov,[0;2;8;7])] [8;4;5;6;1;3]) (-1) 1);
  (*390*) AddTo n_t3new (Times (Einsum [(n_t1,[0;1]); (n_t1,[2;3]); (n_t2,[4;5;6;7]); (n_v'ovvv,[5;8;1;3])] [0;2;4;8;6;7]) (-1) 1);
  (*391*) AddTo n_t3new (Plain (Einsum [(n_t1,[0;1]); (n_t1,[2;3]); (n_t2,[4;5;6;7]); (n_v'ovvv,[5;8;1;3])] [0;2;4;6;8;7]));
  (*392*) AddTo n_t3new (Times (Einsum [(n_t1,[0;1]); (n_t1,[2;3]); (n_t2,[4;5;6;7]); (n_v'ovvv,[5;8;1;3])] [0;2;4;6;7;8]) (-1) 1);
  (*393*) AddTo n_t3new (Plain (Einsum [(n_t1,[0;1]); (n_t1,[2;3]); (n_t2,[4;5;6;7]); (n_v'ovvv,[5;8;1;3])] [0;4;2;8;6;7]));
  (*394*) AddTo n_t3new (Times (Einsum [(n_t1,[0;1]); (n_t1,[2;3]); (n_t2,[4;5;6;7]); (n_v'ovvv,[5;8;1;3])] [0;4;2;6;8;7]) (-1) 1);
  (*395*) AddTo n_t3new (Plain (Einsum [(n_t1,[0;1]); (n_t1,[2;3]); (n_t2,[4;5;6;7]); (n_v'ovvv,[5;8;1;3])] [0;4;2;6;7;8]));
  (*396*) AddTo n_t3new (Plain (Einsum [(n_t1,[0;1]); (n_t1,[2;3]); (n_t2,[4;5;6;7]); (n_v'ovvv,[2;8;1;7])] [0;4;5;3;8;6]));
  (*397*) AddTo n_t3new (Times (Einsum [(n_t1,[0;1]); (n_t1,[2;3]); (n_t2,[4;5;6;7]); (n_v'ovvv,[2;8;1;7])] [0;4;5;3;6;8]) (-1) 1);
  (*398*) AddTo n_t3new (Times (Einsum [(n_t1,[0;1]); (n_t1,[2;3]); (n_t2,[4;5;6;7]); (n_v'ovvv,[2;8;1;7])] [0;4;5;8;3;6]) (-1) 1);
  (*399*) AddTo n_t3new (Plain (Einsum [(n_t1,[0;1]); (n_t1,[2;3]); (n_t2,[4;5;6;7]); (n_v'ovvv,[2;8;1;7])] [0;4;5;6;3;8]));
  (*400*) AddTo n_t3new (Plain (Einsum [(n_t1,[0;1]); (n_t1,[2;3]); (n_t2,[4;5;6;7]); (n_v'ovvv,[2;8;1;7])] [0;4;5;8;6;3]));
  (*401*) AddTo n_t3new (Times (Einsum [(n_t1,[0;1]); (n_t1,[2;3]); (n_t2,[4;5;6;7]); (n_v'ovvv,[2;8;1;7])] [0;4;5;6;8;3]) (-1) 1);
  (*402*) AddTo n_t3new (Times (Einsum [(n_t1,[0;1]); (n_t1,[2;3]); (n_t2,[4;5;6;7]); (n_v'ovvv,[5;8;1;3])] [4;0;2;8;6;7]) (-1) 1);
  (*403*) AddTo n_t3new (Plain (Einsum [(n_t1,[0;1]); (n_t1,[2;3]); (n_t2,[4;5;6;7]); (n_v'ovvv,[5;8;1;3])] [4;0;2;6;8;7]));
  (*404*) AddTo n_t3new (Times (Einsum [(n_t1,[0;1]); (n_t1,[2;3]); (n_t2,[4;5;6;7]); (n_v'ovvv,[5;8;1;3])] [4;0;2;6;7;8]) (-1) 1);
  (*405*) AddTo n_t3new (Times (Einsum [(n_t1,[0;1]); (n_t1,[2;3]); (n_t2,[4;5;6;7]); (n_v'ovvv,[2;8;1;7])] [4;0;5;3;8;6]) (-1) 1);
  (*406*) AddTo n_t3new (Plain (Einsum [(n_t1,[0;1]); (n_t1,[2;3]); (n_t2,[4;5;6;7]); (n_v'ovvv,[2;8;1;7])] [4;0;5;3;6;8]));
  (*407*) AddTo n_t3new (Plain (Einsum [(n_t1,[0;1]); (n_t1,[2;3]); (n_t2,[4;5;6;7]); (n_v'ovvv,[2;8;1;7])] [4;0;5;8;3;6]));
  (*408*) AddTo n_t3new (Times (Einsum [(n_t1,[0;1]); (n_t1,[2;3]); (n_t2,[4;5;6;7]); (n_v'ovvv,[2;8;1;7])] [4;0;5;6;3;8]) (-1) 1);
  (*409*) AddTo n_t3new (Times (Einsum [(n_t1,[0;1]); (n_t1,[2;3]); (n_t2,[4;5;6;7]); (n_v'ovvv,[2;8;1;7])] [4;0;5;8;6;3]) (-1) 1);
  (*410*) AddTo n_t3new (Plain (Einsum [(n_t1,[0;1]); (n_t1,[2;3]); (n_t2,[4;5;6;7]); (n_v'ovvv,[2;8;1;7])] [4;0;5;6;8;3]));
  (*411*) AddTo n_t3new (Plain (Einsum [(n_t1,[0;1]); (n_t1,[2;3]); (n_t2,[4;5;6;7]); (n_v'ovvv,[2;8;1;7])] [4;5;0;3;8;6]));
  (*412*) AddTo n_t3new (Times (Einsum [(n_t1,[0;1]); (n_t1,[2;3]); (n_t2,[4;5;6;7]); (n_v'ovvv,[2;8;1;7])] [4;5;0;3;6;8]) (-1) 1);
  (*413*) AddTo n_t3new (Times (Einsum [(n_t1,[0;1]); (n_t1,[2;3]); (n_t2,[4;5;6;7]); (n_v'ovvv,[2;8;1;7])] [4;5;0;8;3;6]) (-1) 1);
  (*414*) AddTo n_t3new (Plain (Einsum [(n_t1,[0;1]); (n_t1,[2;3]); (n_t2,[4;5;6;7]); (n_v'ovvv,[2;8;1;7])] [4;5;0;6;3;8]));
  (*415*) AddTo n_t3new (Plain (Einsum [(n_t1,[0;1]); (n_t1,[2;3]); (n_t2,[4;5;6;7]); (n_v'ovvv,[2;8;1;7])] [4;5;0;8;6;3]));
  (*416*) AddTo n_t3new (Times (Einsum [(n_t1,[0;1]); (n_t1,[2;3]); (n_t2,[4;5;6;7]); (n_v'ovvv,[2;8;1;7])] [4;5;0;6;8;3]) (-1) 1);
  (*417*) AddTo n_t3new (Times (Einsum [(n_t1,[0;1]); (n_t1,[2;3]); (n_v'oovv,[4;5;1;3]); (n_t3,[6;4;5;7;8;9])] [0;2;6;7;8;9]) (1) 2);
  (*418*) AddTo n_t3new (Times (Einsum [(n_t1,[0;1]); (n_t1,[2;3]); (n_v'oovv,[4;5;1;3]); (n_t3,[6;4;5;7;8;9])] [0;6;2;7;8;9]) (-1) 2);
  (*419*) AddTo n_t3new (Times (Einsum [(n_t1,[0;1]); (n_t1,[2;3]); (n_v'oovv,[2;4;1;5]); (n_t3,[6;7;4;8;9;5])] [0;6;7;3;8;9]) (-1) 1);
  (*420*) AddTo n_t3new (Plain (Einsum [(n_t1,[0;1]); (n_t1,[2;3]); (n_v'oovv,[2;4;1;5]); (n_t3,[6;7;4;8;9;5])] [0;6;7;8;3;9]));
  (*421*) AddTo n_t3new (Times (Einsum [(n_t1,[0;1]); (n_t1,[2;3]); (n_v'oovv,[2;4;1;5]); (n_t3,[6;7;4;8;9;5])] [0;6;7;8;9;3]) (-1) 1);
  (*422*) AddTo n_t3new (Plain (Einsum [(n_t1,[0;1]); (n_t1,[2;3]); (n_v'oovv,[2;4;1;3]); (n_t3,[5;6;4;7;8;9])] [0;5;6;7;8;9]));
  (*423*) AddTo n_t3new (Times (Einsum [(n_t1,[0;1]); (n_t1,[2;3]); (n_v'oovv,[4;5;1;3]); (n_t3,[6;4;5;7;8;9])] [6;0;2;7;8;9]) (1) 2);
  (*424*) AddTo n_t3new (Plain (Einsum [(n_t1,[0;1]); (n_t1,[2;3]); (n_v'oovv,[2;4;1;5]); (n_t3,[6;7;4;8;9;5])] [6;0;7;3;8;9]));
  (*425*) AddTo n_t3new (Times (Einsum [(n_t1,[0;1]); (n_t1,[2;3]); (n_v'oovv,[2;4;1;5]); (n_t3,[6;7;4;8;9;5])] [6;0;7;8;3;9]) (-1) 1);
  (*426*) AddTo n_t3new (Plain (Einsum [(n_t1,[0;1]); (n_t1,[2;3]); (n_v'oovv,[2;4;1;5]); (n_t3,[6;7;4;8;9;5])] [6;0;7;8;9;3]));
  (*427*) AddTo n_t3new (Times (Einsum [(n_t1,[0;1]); (n_t1,[2;3]); (n_v'oovv,[2;4;1;3]); (n_t3,[5;6;4;7;8;9])] [5;0;6;7;8;9]) (-1) 1);
  (*428*) AddTo n_t3new (Times (Einsum [(n_t1,[0;1]); (n_t1,[2;3]); (n_v'oovv,[2;4;1;5]); (n_t3,[6;7;4;8;9;5])] [6;7;0;3;8;9]) (-1) 1);
  (*429*) AddTo n_t3new (Plain (Einsum [(n_t1,[0;1]); (n_t1,[2;3]); (n_v'oovv,[2;4;1;5]); (n_t3,[6;7;4;8;9;5])] [6;7;0;8;3;9]));
  (*430*) AddTo n_t3new (Times (Einsum [(n_t1,[0;1]); (n_t1,[2;3]); (n_v'oovv,[2;4;1;5]); (n_t3,[6;7;4;8;9;5])] [6;7;0;8;9;3]) (-1) 1);
  (*431*) AddTo n_t3new (Plain (Einsum [(n_t1,[0;1]); (n_t1,[2;3]); (n_v'oovv,[2;4;1;3]); (n_t3,[5;6;4;7;8;9])] [5;6;0;7;8;9]));
  (*432*) AddTo n_t3new (Times (Einsum [(n_t1,[0;1]); (n_t1,[2;3]); (n_v'oovv,[0;2;4;5]); (n_t3,[6;7;8;9;4;5])] [6;7;8;1;3;9]) (1) 2);
  (*433*) AddTo n_t3new (Times (Einsum [(n_t1,[0;1]); (n_t1,[2;3]); (n_v'oovv,[0;2;4;5]); (n_t3,[6;7;8;9;4;5])] [6;7;8;1;9;3]) (-1) 2);
  (*434*) AddTo n_t3new (Times (Einsum [(n_t1,[0;1]); (n_t1,[2;3]); (n_v'oovv,[0;2;4;5]); (n_t3,[6;7;8;9;4;5])] [6;7;8;9;1;3]) (1) 2);
  (*435*) AddTo n_t3new (Times (Einsum [(n_t1,[0;1]); (n_t1,[2;3]); (n_v'oovv,[0;2;1;4]); (n_t3,[5;6;7;8;9;4])] [5;6;7;3;8;9]) (-1) 1);
  (*436*) AddTo n_t3new (Plain (Einsum [(n_t1,[0;1]); (n_t1,[2;3]); (n_v'oovv,[0;2;1;4]); (n_t3,[5;6;7;8;9;4])] [5;6;7;8;3;9]));
  (*437*) AddTo n_t3new (Times (Einsum [(n_t1,[0;1]); (n_t1,[2;3]); (n_v'oovv,[0;2;1;4]); (n_t3,[5;6;7;8;9;4])] [5;6;7;8;9;3]) (-1) 1);
  (*438*) AddTo n_t3new (Times (Einsum [(n_t1,[0;1]); (n_t2,[2;3;4;5]); (n_t2,[6;7;8;9]); (n_v'oovv,[3;7;1;9])] [0;2;6;4;8;5]) (-1) 1);
  (*439*) AddTo n_t3new (Plain (Einsum [(n_t1,[0;1]); (n_t2,[2;3;4;5]); (n_t2,[6;7;8;9]); (n_v'oovv,[3;7;1;5])] [0;2;6;4;8;9]));
  (*440*) AddTo n_t3new (Plain (Einsum [(n_t1,[0;1]); (n_t2,[2;3;4;5]); (n_t2,[6;7;8;9]); (n_v'oovv,[3;7;1;9])] [0;2;6;4;5;8]));
  (*441*) AddTo n_t3new (Plain (Einsum [(n_t1,[0;1]); (n_t2,[2;3;4;5]); (n_t2,[6;7;8;9]); (n_v'oovv,[3;7;1;9])] [0;2;6;8;4;5]));
  (*442*) AddTo n_t3new (Times (Einsum [(n_t1,[0;1]); (n_t2,[2;3;4;5]); (n_t2,[6;7;8;9]); (n_v'oovv,[3;7;1;5])] [0;2;6;8;4;9]) (-1) 1);
  (*443*) AddTo n_t3new (Plain (Einsum [(n_t1,[0;1]); (n_t2,[2;3;4;5]); (n_t2,[6;7;8;9]); (n_v'oovv,[3;7;1;5])] [0;2;6;8;9;4]));
  (*444*) AddTo n_t3new (Times (Einsum [(n_t1,[0;1]); (n_t2,[2;3;4;5]); (n_t2,[6;7;8;9]); (n_v'oovv,[6;7;1;5])] [0;2;3;4;8;9]) (-1) 2);
  (*445*) AddTo n_t3new (Times (Einsum [(n_t1,[0;1]); (n_t2,[2;3;4;5]); (n_t2,[6;7;8;9]); (n_v'oovv,[6;7;1;5])] [0;2;3;8;4;9]) (1) 2);
  (*446*) AddTo n_t3new (Times (Einsum [(n_t1,[0;1]); (n_t2,[2;3;4;5]); (n_t2,[6;7;8;9]); (n_v'oovv,[6;7;1;5])] [0;2;3;8;9;4]) (-1) 2);
  (*447*) AddTo n_t3new (Plain (Einsum [(n_t1,[0;1]); (n_t2,[2;3;4;5]); (n_t2,[6;7;8;9]); (n_v'oovv,[3;7;1;9])] [2;0;6;4;8;5]));
  (*448*) AddTo n_t3new (Times (Einsum [(n_t1,[0;1]); (n_t2,[2;3;4;5]); (n_t2,[6;7;8;9]); (n_v'oovv,[3;7;1;5])] [2;0;6;4;8;9]) (-1) 1);
  (*449*) AddTo n_t3new (Times (Einsum [(n_t1,[0;1]); (n_t2,[2;3;4;5]); (n_t2,[6;7;8;9]); (n_v'oovv,[3;7;1;9])] [2;0;6;4;5;8]) (-1) 1);
  (*450*) AddTo n_t3new (Times (Einsum [(n_t1,[0;1]); (n_t2,[2;3;4;5]); (n_t2,[6;7;8;9]); (n_v'oovv,[3;7;1;9])] [2;0;6;8;4;5]) (-1) 1);
  (*451*) AddTo n_t3new (Plain (Einsum [(n_t1,[0;1]); (n_t2,[2;3;4;5]); (n_t2,[6;7;8;9]); (n_v'oovv,[3;7;1;5])] [2;0;6;8;4;9]));
  (*452*) AddTo n_t3new (Times (Einsum [(n_t1,[0;1]); (n_t2,[2;3;4;5]); (n_t2,[6;7;8;9]); (n_v'oovv,[3;7;1;5])] [2;0;6;8;9;4]) (-1) 1);
  (*453*) AddTo n_t3new (Times (Einsum [(n_t1,[0;1]); (n_t2,[2;3;4;5]); (n_t2,[6;7;8;9]); (n_v'oovv,[6;7;1;5])] [2;0;3;4;8;9]) (1) 2);
  (*454*) AddTo n_t3new (Times (Einsum [(n_t1,[0;1]); (n_t2,[2;3;4;5]); (n_t2,[6;7;8;9]); (n_v'oovv,[6;7;1;5])] [2;0;3;8;4;9]) (-1) 2);
  (*455*) AddTo n_t3new (Times (Einsum [(n_t1,[0;1]); (n_t2,[2;3;4;5]); (n_t2,[6;7;8;9]); (n_v'oovv,[6;7;1;5])] [2;0;3;8;9;4]) (1) 2);
  (*456*) AddTo n_t3new (Times (Einsum [(n_t1,[0;1]); (n_t2,[2;3;4;5]); (n_t2,[6;7;8;9]); (n_v'oovv,[3;7;1;9])] [2;6;0;4;8;5]) (-1) 1);
  (*457*) AddTo n_t3new (Plain (Einsum [(n_t1,[0;1]); (n_t2,[2;3;4;5]); (n_t2,[6;7;8;9]); (n_v'oovv,[3;7;1;5])] [2;6;0;4;8;9]));
  (*458*) AddTo n_t3new (Plain (Einsum [(n_t1,[0;1]); (n_t2,[2;3;4;5]); (n_t2,[6;7;8;9]); (n_v'oovv,[3;7;1;9])] [2;6;0;4;5;8]));
  (*459*) AddTo n_t3new (Plain (Einsum [(n_t1,[0;1]); (n_t2,[2;3;4;5]); (n_t2,[6;7;8;9]); (n_v'oovv,[3;7;1;9])] [2;6;0;8;4;5]));
  (*460*) AddTo n_t3new (Times (Einsum [(n_t1,[0;1]); (n_t2,[2;3;4;5]); (n_t2,[6;7;8;9]); (n_v'oovv,[3;7;1;5])] [2;6;0;8;4;9]) (-1) 1);
  (*461*) AddTo n_t3new (Plain (Einsum [(n_t1,[0;1]); (n_t2,[2;3;4;5]); (n_t2,[6;7;8;9]); (n_v'oovv,[3;7;1;5])] [2;6;0;8;9;4]));
  (*462*) AddTo n_t3new (Times (Einsum [(n_t1,[0;1]); (n_t2,[2;3;4;5]); (n_t2,[6;7;8;9]); (n_v'oovv,[6;7;1;5])] [2;3;0;4;8;9]) (-1) 2);
  (*463*) AddTo n_t3new (Times (Einsum [(n_t1,[0;1]); (n_t2,[2;3;4;5]); (n_t2,[6;7;8;9]); (n_v'oovv,[6;7;1;5])] [2;3;0;8;4;9]) (1) 2);
  (*464*) AddTo n_t3new (Times (Einsum [(n_t1,[0;1]); (n_t2,[2;3;4;5]); (n_t2,[6;7;8;9]); (n_v'oovv,[6;7;1;5])] [2;3;0;8;9;4]) (-1) 2);
  (*465*) AddTo n_t3new (Times (Einsum [(n_t1,[0;1]); (n_t2,[2;3;4;5]); (n_t2,[6;7;8;9]); (n_v'oovv,[0;7;5;9])] [2;6;3;1;4;8]) (-1) 1);
  (*466*) AddTo n_t3new (Plain (Einsum [(n_t1,[0;1]); (n_t2,[2;3;4;5]); (n_t2,[6;7;8;9]); (n_v'oovv,[0;7;5;9])] [2;6;3;1;8;4]));
  (*467*) AddTo n_t3new (Times (Einsum [(n_t1,[0;1]); (n_t2,[2;3;4;5]); (n_t2,[6;7;8;9]); (n_v'oovv,[0;7;4;5])] [2;6;3;1;8;9]) (1) 2);
  (*468*) AddTo n_t3new (Plain (Einsum [(n_t1,[0;1]); (n_t2,[2;3;4;5]); (n_t2,[6;7;8;9]); (n_v'oovv,[0;3;5;9])] [2;6;7;1;4;8]));
  (*469*) AddTo n_t3new (Times (Einsum [(n_t1,[0;1]); (n_t2,[2;3;4;5]); (n_t2,[6;7;8;9]); (n_v'oovv,[0;3;8;9])] [2;6;7;1;4;5]) (-1) 2);
  (*470*) AddTo n_t3new (Times (Einsum [(n_t1,[0;1]); (n_t2,[2;3;4;5]); (n_t2,[6;7;8;9]); (n_v'oovv,[0;3;5;9])] [2;6;7;1;8;4]) (-1) 1);
  (*471*) AddTo n_t3new (Plain (Einsum [(n_t1,[0;1]); (n_t2,[2;3;4;5]); (n_t2,[6;7;8;9]); (n_v'oovv,[0;7;5;9])] [2;3;6;1;4;8]));
  (*472*) AddTo n_t3new (Times (Einsum [(n_t1,[0;1]); (n_t2,[2;3;4;5]); (n_t2,[6;7;8;9]); (n_v'oovv,[0;7;5;9])] [2;3;6;1;8;4]) (-1) 1);
  (*473*) AddTo n_t3new (Times (Einsum [(n_t1,[0;1]); (n_t2,[2;3;4;5]); (n_t2,[6;7;8;9]); (n_v'oovv,[0;7;4;5])] [2;3;6;1;8;9]) (-1) 2);
  (*474*) AddTo n_t3new (Plain (Einsum [(n_t1,[0;1]); (n_t2,[2;3;4;5]); (n_t2,[6;7;8;9]); (n_v'oovv,[0;7;5;9])] [2;6;3;4;1;8]));
  (*475*) AddTo n_t3new (Times (Einsum [(n_t1,[0;1]); (n_t2,[2;3;4;5]); (n_t2,[6;7;8;9]); (n_v'oovv,[0;7;5;9])] [2;6;3;8;1;4]) (-1) 1);
  (*476*) AddTo n_t3new (Times (Einsum [(n_t1,[0;1]); (n_t2,[2;3;4;5]); (n_t2,[6;7;8;9]); (n_v'oovv,[0;7;4;5])] [2;6;3;8;1;9]) (-1) 2);
  (*477*) AddTo n_t3new (Times (Einsum [(n_t1,[0;1]); (n_t2,[2;3;4;5]); (n_t2,[6;7;8;9]); (n_v'oovv,[0;3;5;9])] [2;6;7;4;1;8]) (-1) 1);
  (*478*) AddTo n_t3new (Times (Einsum [(n_t1,[0;1]); (n_t2,[2;3;4;5]); (n_t2,[6;7;8;9]); (n_v'oovv,[0;3;8;9])] [2;6;7;4;1;5]) (1) 2);
  (*479*) AddTo n_t3new (Plain (Einsum [(n_t1,[0;1]); (n_t2,[2;3;4;5]); (n_t2,[6;7;8;9]); (n_v'oovv,[0;3;5;9])] [2;6;7;8;1;4]));
  (*480*) AddTo n_t3new (Times (Einsum [(n_t1,[0;1]); (n_t2,[2;3;4;5]); (n_t2,[6;7;8;9]); (n_v'oovv,[0;7;5;9])] [2;3;6;4;1;8]) (-1) 1);
  (*481*) AddTo n_t3new (Plain (Einsum [(n_t1,[0;1]); (n_t2,[2;3;4;5]); (n_t2,[6;7;8;9]); (n_v'oovv,[0;7;5;9])] [2;3;6;8;1;4]));
  (*482*) AddTo n_t3new (Times (Einsum [(n_t1,[0;1]); (n_t2,[2;3;4;5]); (n_t2,[6;7;8;9]); (n_v'oovv,[0;7;4;5])] [2;3;6;8;1;9]) (1) 2);
  (*483*) AddTo n_t3new (Times (Einsum [(n_t1,[0;1]); (n_t2,[2;3;4;5]); (n_t2,[6;7;8;9]); (n_v'oovv,[0;7;5;9])] [2;6;3;4;8;1]) (-1) 1);
  (*484*) AddTo n_t3new (Plain (Einsum [(n_t1,[0;1]); (n_t2,[2;3;4;5]); (n_t2,[6;7;8;9]); (n_v'oovv,[0;7;5;9])] [2;6;3;8;4;1]));
  (*485*) AddTo n_t3new (Times (Einsum [(n_t1,[0;1]); (n_t2,[2;3;4;5]); (n_t2,[6;7;8;9]); (n_v'oovv,[0;7;4;5])] [2;6;3;8;9;1]) (1) 2);
  (*486*) AddTo n_t3new (Plain (Einsum [(n_t1,[0;1]); (n_t2,[2;3;4;5]); (n_t2,[6;7;8;9]); (n_v'oovv,[0;3;5;9])] [2;6;7;4;8;1]));
  (*487*) AddTo n_t3new (Times (Einsum [(n_t1,[0;1]); (n_t2,[2;3;4;5]); (n_t2,[6;7;8;9]); (n_v'oovv,[0;3;8;9])] [2;6;7;4;5;1]) (-1) 2);
  (*488*) AddTo n_t3new (Times (Einsum [(n_t1,[0;1]); (n_t2,[2;3;4;5]); (n_t2,[6;7;8;9]); (n_v'oovv,[0;3;5;9])] [2;6;7;8;4;1]) (-1) 1);
  (*489*) AddTo n_t3new (Plain (Einsum [(n_t1,[0;1]); (n_t2,[2;3;4;5]); (n_t2,[6;7;8;9]); (n_v'oovv,[0;7;5;9])] [2;3;6;4;8;1]));
  (*490*) AddTo n_t3new (Times (Einsum [(n_t1,[0;1]); (n_t2,[2;3;4;5]); (n_t2,[6;7;8;9]); (n_v'oovv,[0;7;5;9])] [2;3;6;8;4;1]) (-1) 1);
  (*491*) AddTo n_t3new (Times (Einsum [(n_t1,[0;1]); (n_t2,[2;3;4;5]); (n_t2,[6;7;8;9]); (n_v'oovv,[0;7;4;5])] [2;3;6;8;9;1]) (-1) 2);
  (*492*) AddTo n_t3new (Times (Einsum [(n_t1,[0;1]); (n_t2,[2;3;4;5]); (n_t2,[6;7;8;9]); (n_v'oovv,[0;7;1;5])] [2;6;3;4;8;9]) (-1) 1);
  (*493*) AddTo n_t3new (Plain (Einsum [(n_t1,[0;1]); (n_t2,[2;3;4;5]); (n_t2,[6;7;8;9]); (n_v'oovv,[0;7;1;5])] [2;6;3;8;4;9]));
  (*494*) AddTo n_t3new (Times (Einsum [(n_t1,[0;1]); (n_t2,[2;3;4;5]); (n_t2,[6;7;8;9]); (n_v'oovv,[0;7;1;5])] [2;6;3;8;9;4]) (-1) 1);
  (*495*) AddTo n_t3new (Times (Einsum [(n_t1,[0;1]); (n_t2,[2;3;4;5]); (n_t2,[6;7;8;9]); (n_v'oovv,[0;3;1;9])] [2;6;7;4;8;5]) (-1) 1);
  (*496*) AddTo n_t3new (Plain (Einsum [(n_t1,[0;1]); (n_t2,[2;3;4;5]); (n_t2,[6;7;8;9]); (n_v'oovv,[0;3;1;9])] [2;6;7;4;5;8]));
  (*497*) AddTo n_t3new (Plain (Einsum [(n_t1,[0;1]); (n_t2,[2;3;4;5]); (n_t2,[6;7;8;9]); (n_v'oovv,[0;3;1;9])] [2;6;7;8;4;5]));
  (*498*) AddTo n_t3new (Plain (Einsum [(n_t1,[0;1]); (n_t2,[2;3;4;5]); (n_t2,[6;7;8;9]); (n_v'oovv,[0;7;1;5])] [2;3;6;4;8;9]));
  (*499*) AddTo n_t3new (Times (Einsum [(n_t1,[0;1]); (n_t2,[2;3;4;5]); (n_t2,[6;7;8;9]); (n_v'oovv,[0;7;1;5])] [2;3;6;8;4;9]) (-1) 1);
  (*500*) AddTo n_t3new (Plain (Einsum [(n_t1,[0;1]); (n_t2,[2;3;4;5]); (n_t2,[6;7;8;9]); (n_v'oovv,[0;7;1;5])] [2;3;6;8;9;4]));
  (*501*) AddTo n_t3new (Times (Einsum [(n_t1,[0;1]); (n_t1,[2;3]); (n_t1,[4;5]); (n_t2,[6;7;8;9]); (n_v'oovv,[4;7;1;3])] [0;2;6;5;8;9]) (-1) 1);
  (*502*) AddTo n_t3new (Plain (Einsum [(n_t1,[0;1]); (n_t1,[2;3]); (n_t1,[4;5]); (n_t2,[6;7;8;9]); (n_v'oovv,[4;7;1;3])] [0;2;6;8;5;9]));
  (*503*) AddTo n_t3new (Times (Einsum [(n_t1,[0;1]); (n_t1,[2;3]); (n_t1,[4;5]); (n_t2,[6;7;8;9]); (n_v'oovv,[4;7;1;3])] [0;2;6;8;9;5]) (-1) 1);
  (*504*) AddTo n_t3new (Plain (Einsum [(n_t1,[0;1]); (n_t1,[2;3]); (n_t1,[4;5]); (n_t2,[6;7;8;9]); (n_v'oovv,[4;7;1;3])] [0;6;2;5;8;9]));
  (*505*) AddTo n_t3new (Times (Einsum [(n_t1,[0;1]); (n_t1,[2;3]); (n_t1,[4;5]); (n_t2,[6;7;8;9]); (n_v'oovv,[4;7;1;3])] [0;6;2;8;5;9]) (-1) 1);
  (*506*) AddTo n_t3new (Plain (Einsum [(n_t1,[0;1]); (n_t1,[2;3]); (n_t1,[4;5]); (n_t2,[6;7;8;9]); (n_v'oovv,[4;7;1;3])] [0;6;2;8;9;5]));
  (*507*) AddTo n_t3new (Times (Einsum [(n_t1,[0;1]); (n_t1,[2;3]); (n_t1,[4;5]); (n_t2,[6;7;8;9]); (n_v'oovv,[2;4;1;9])] [0;6;7;3;5;8]) (-1) 1);
  (*508*) AddTo n_t3new (Plain (Einsum [(n_t1,[0;1]); (n_t1,[2;3]); (n_t1,[4;5]); (n_t2,[6;7;8;9]); (n_v'oovv,[2;4;1;9])] [0;6;7;3;8;5]));
  (*509*) AddTo n_t3new (Times (Einsum [(n_t1,[0;1]); (n_t1,[2;3]); (n_t1,[4;5]); (n_t2,[6;7;8;9]); (n_v'oovv,[2;4;1;9])] [0;6;7;8;3;5]) (-1) 1);
  (*510*) AddTo n_t3new (Times (Einsum [(n_t1,[0;1]); (n_t1,[2;3]); (n_t1,[4;5]); (n_t2,[6;7;8;9]); (n_v'oovv,[4;7;1;3])] [6;0;2;5;8;9]) (-1) 1);
  (*511*) AddTo n_t3new (Plain (Einsum [(n_t1,[0;1]); (n_t1,[2;3]); (n_t1,[4;5]); (n_t2,[6;7;8;9]); (n_v'oovv,[4;7;1;3])] [6;0;2;8;5;9]));
  (*512*) AddTo n_t3new (Times (Einsum [(n_t1,[0;1]); (n_t1,[2;3]); (n_t1,[4;5]); (n_t2,[6;7;8;9]); (n_v'oovv,[4;7;1;3])] [6;0;2;8;9;5]) (-1) 1);
  (*513*) AddTo n_t3new (Plain (Einsum [(n_t1,[0;1]); (n_t1,[2;3]); (n_t1,[4;5]); (n_t2,[6;7;8;9]); (n_v'oovv,[2;4;1;9])] [6;0;7;3;5;8]));
  (*514*) AddTo n_t3new (Times (Einsum [(n_t1,[0;1]); (n_t1,[2;3]); (n_t1,[4;5]); (n_t2,[6;7;8;9]); (n_v'oovv,[2;4;1;9])] [6;0;7;3;8;5]) (-1) 1);
  (*515*) AddTo n_t3new (Plain (Einsum [(n_t1,[0;1]); (n_t1,[2;3]); (n_t1,[4;5]); (n_t2,[6;7;8;9]); (n_v'oovv,[2;4;1;9])] [6;0;7;8;3;5]));
  (*516*) AddTo n_t3new (Times (Einsum [(n_t1,[0;1]); (n_t1,[2;3]); (n_t1,[4;5]); (n_t2,[6;7;8;9]); (n_v'oovv,[2;4;1;9])] [6;7;0;3;5;8]) (-1) 1);
  (*517*) AddTo n_t3new (Plain (Einsum [(n_t1,[0;1]); (n_t1,[2;3]); (n_t1,[4;5]); (n_t2,[6;7;8;9]); (n_v'oovv,[2;4;1;9])] [6;7;0;3;8;5]));
  (*518*) AddTo n_t3new (Times (Einsum [(n_t1,[0;1]); (n_t1,[2;3]); (n_t1,[4;5]); (n_t2,[6;7;8;9]); (n_v'oovv,[2;4;1;9])] [6;7;0;8;3;5]) (-1) 1);
  (*519*) Assign n_t4new (Plain (Zeros [0;0;0;0;1;1;1;1]));
  (*520*) AddTo n_t4new (Plain (Einsum [(n_f'oo,[0;1]); (n_t4,[2;3;4;1;5;6;7;8])] [0;2;3;4;5;6;7;8]));
  (*521*) AddTo n_t4new (Times (Einsum [(n_f'oo,[0;1]); (n_t4,[2;3;4;1;5;6;7;8])] [2;0;3;4;5;6;7;8]) (-1) 1);
  (*522*) AddTo n_t4new (Plain (Einsum [(n_f'oo,[0;1]); (n_t4,[2;3;4;1;5;6;7;8])] [2;3;0;4;5;6;7;8]));
  (*523*) AddTo n_t4new (Times (Einsum [(n_f'oo,[0;1]); (n_t4,[2;3;4;1;5;6;7;8])] [2;3;4;0;5;6;7;8]) (-1) 1);
  (*524*) AddTo n_t4new (Times (Einsum [(n_f'vv,[0;1]); (n_t4,[2;3;4;5;6;7;8;1])] [2;3;4;5;0;6;7;8]) (-1) 1);
  (*525*) AddTo n_t4new (Plain (Einsum [(n_f'vv,[0;1]); (n_t4,[2;3;4;5;6;7;8;1])] [2;3;4;5;6;0;7;8]));
  (*526*) AddTo n_t4new (Times (Einsum [(n_f'vv,[0;1]); (n_t4,[2;3;4;5;6;7;8;1])] [2;3;4;5;6;7;0;8]) (-1) 1);
  (*527*) AddTo n_t4new (Plain (Einsum [(n_f'vv,[0;1]); (n_t4,[2;3;4;5;6;7;8;1])] [2;3;4;5;6;7;8;0]));
  (*528*) AddTo n_t4new (Plain (Einsum [(n_v'ooov,[0;1;2;3]); (n_t3,[4;5;2;6;7;8])] [0;1;4;5;3;6;7;8]));
  (*529*) AddTo n_t4new (Times (Einsum [(n_v'ooov,[0;1;2;3]); (n_t3,[4;5;2;6;7;8])] [0;1;4;5;6;3;7;8]) (-1) 1);
  (*530*) AddTo n_t4new (Plain (Einsum [(n_v'ooov,[0;1;2;3]); (n_t3,[4;5;2;6;7;8])] [0;1;4;5;6;7;3;8]));
  (*531*) AddTo n_t4new (Times (Einsum [(n_v'ooov,[0;1;2;3]); (n_t3,[4;5;2;6;7;8])] [0;1;4;5;6;7;8;3]) (-1) 1);
  (*532*) AddTo n_t4new (Times (Einsum [(n_v'ooov,[0;1;2;3]); (n_t3,[4;5;2;6;7;8])] [0;4;1;5;3;6;7;8]) (-1) 1);
  (*533*) AddTo n_t4new (Plain (Einsum [(n_v'ooov,[0;1;2;3]); (n_t3,[4;5;2;6;7;8])] [0;4;1;5;6;3;7;8]));
  (*534*) AddTo n_t4new (Times (Einsum [(n_v'ooov,[0;1;2;3]); (n_t3,[4;5;2;6;7;8])] [0;4;1;5;6;7;3;8]) (-1) 1);
  (*535*) AddTo n_t4new (Plain (Einsum [(n_v'ooov,[0;1;2;3]); (n_t3,[4;5;2;6;7;8])] [0;4;1;5;6;7;8;3]));
  (*536*) AddTo n_t4new (Plain (Einsum [(n_v'ooov,[0;1;2;3]); (n_t3,[4;5;2;6;7;8])] [0;4;5;1;3;6;7;8]));
  (*537*) AddTo n_t4new (Times (Einsum [(n_v'ooov,[0;1;2;3]); (n_t3,[4;5;2;6;7;8])] [0;4;5;1;6;3;7;8]) (-1) 1);
  (*538*) AddTo n_t4new (Plain (Einsum [(n_v'ooov,[0;1;2;3]); (n_t3,[4;5;2;6;7;8])] [0;4;5;1;6;7;3;8]));
  (*539*) AddTo n_t4new (Times (Einsum [(n_v'ooov,[0;1;2;3]); (n_t3,[4;5;2;6;7;8])] [0;4;5;1;6;7;8;3]) (-1) 1);
  (*540*) AddTo n_t4new (Plain (Einsum [(n_v'ooov,[0;1;2;3]); (n_t3,[4;5;2;6;7;8])] [4;0;1;5;3;6;7;8]));
  (*541*) AddTo n_t4new (Times (Einsum [(n_v'ooov,[0;1;2;3]); (n_t3,[4;5;2;6;7;8])] [4;0;1;5;6;3;7;8]) (-1) 1);
  (*542*) AddTo n_t4new (Plain (Einsum [(n_v'ooov,[0;1;2;3]); (n_t3,[4;5;2;6;7;8])] [4;0;1;5;6;7;3;8]));
  (*543*) AddTo n_t4new (Times (Einsum [(n_v'ooov,[0;1;2;3]); (n_t3,[4;5;2;6;7;8])] [4;0;1;5;6;7;8;3]) (-1) 1);
  (*544*) AddTo n_t4new (Times (Einsum [(n_v'ooov,[0;1;2;3]); (n_t3,[4;5;2;6;7;8])] [4;0;5;1;3;6;7;8]) (-1) 1);
  (*545*) AddTo n_t4new (Plain (Einsum [(n_v'ooov,[0;1;2;3]); (n_t3,[4;5;2;6;7;8])] [4;0;5;1;6;3;7;8]));
  (*546*) AddTo n_t4new (Times (Einsum [(n_v'ooov,[0;1;2;3]); (n_t3,[4;5;2;6;7;8])] [4;0;5;1;6;7;3;8]) (-1) 1);
  (*547*) AddTo n_t4new (Plain (Einsum [(n_v'ooov,[0;1;2;3]); (n_t3,[4;5;2;6;7;8])] [4;0;5;1;6;7;8;3]));
  (*548*) AddTo n_t4new (Plain (Einsum [(n_v'ooov,[0;1;2;3]); (n_t3,[4;5;2;6;7;8])] [4;5;0;1;3;6;7;8]));
  (*549*) AddTo n_t4new (Times (Einsum [(n_v'ooov,[0;1;2;3]); (n_t3,[4;5;2;6;7;8])] [4;5;0;1;6;3;7;8]) (-1) 1);
  (*550*) AddTo n_t4new (Plain (Einsum [(n_v'ooov,[0;1;2;3]); (n_t3,[4;5;2;6;7;8])] [4;5;0;1;6;7;3;8]));
  (*551*) AddTo n_t4new (Times (Einsum [(n_v'ooov,[0;1;2;3]); (n_t3,[4;5;2;6;7;8])] [4;5;0;1;6;7;8;3]) (-1) 1);
  (*552*) AddTo n_t4new (Plain (Einsum [(n_v'ovvv,[0;1;2;3]); (n_t3,[4;5;6;7;8;1])] [0;4;5;6;2;3;7;8]));
  (*553*) AddTo n_t4new (Times (Einsum [(n_v'ovvv,[0;1;2;3]); (n_t3,[4;5;6;7;8;1])] [0;4;5;6;2;7;3;8]) (-1) 1);
  (*554*) AddTo n_t4new (Plain (Einsum [(n_v'ovvv,[0;1;2;3]); (n_t3,[4;5;6;7;8;1])] [0;4;5;6;2;7;8;3]));
  (*555*) AddTo n_t4new (Plain (Einsum [(n_v'ovvv,[0;1;2;3]); (n_t3,[4;5;6;7;8;1])] [0;4;5;6;7;2;3;8]));
  (*556*) AddTo n_t4new (Times (Einsum [(n_v'ovvv,[0;1;2;3]); (n_t3,[4;5;6;7;8;1])] [0;4;5;6;7;2;8;3]) (-1) 1);
  (*557*) AddTo n_t4new (Plain (Einsum [(n_v'ovvv,[0;1;2;3]); (n_t3,[4;5;6;7;8;1])] [0;4;5;6;7;8;2;3]));
  (*558*) AddTo n_t4new (Times (Einsum [(n_v'ovvv,[0;1;2;3]); (n_t3,[4;5;6;7;8;1])] [4;0;5;6;2;3;7;8]) (-1) 1);
  (*559*) AddTo n_t4new (Plain (Einsum [(n_v'ovvv,[0;1;2;3]); (n_t3,[4;5;6;7;8;1])] [4;0;5;6;2;7;3;8]));
  (*560*) AddTo n_t4new (Times (Einsum [(n_v'ovvv,[0;1;2;3]); (n_t3,[4;5;6;7;8;1])] [4;0;5;6;2;7;8;3]) (-1) 1);
  (*561*) AddTo n_t4new (Times (Einsum [(n_v'ovvv,[0;1;2;3]); (n_t3,[4;5;6;7;8;1])] [4;0;5;6;7;2;3;8]) (-1) 1);
  (*562*) AddTo n_t4new (Plain (Einsum [(n_v'ovvv,[0;1;2;3]); (n_t3,[4;5;6;7;8;1])] [4;0;5;6;7;2;8;3]));
  (*563*) AddTo n_t4new (Times (Einsum [(n_v'ovvv,[0;1;2;3]); (n_t3,[4;5;6;7;8;1])] [4;0;5;6;7;8;2;3]) (-1) 1);
  (*564*) AddTo n_t4new (Plain (Einsum [(n_v'ovvv,[0;1;2;3]); (n_t3,[4;5;6;7;8;1])] [4;5;0;6;2;3;7;8]));
  (*565*) AddTo n_t4new (Times (Einsum [(n_v'ovvv,[0;1;2;3]); (n_t3,[4;5;6;7;8;1])] [4;5;0;6;2;7;3;8]) (-1) 1);
  (*566*) AddTo n_t4new (Plain (Einsum [(n_v'ovvv,[0;1;2;3]); (n_t3,[4;5;6;7;8;1])] [4;5;0;6;2;7;8;3]));
  (*567*) AddTo n_t4new (Plain (Einsum [(n_v'ovvv,[0;1;2;3]); (n_t3,[4;5;6;7;8;1])] [4;5;0;6;7;2;3;8]));
  (*568*) AddTo n_t4new (Times (Einsum [(n_v'ovvv,[0;1;2;3]); (n_t3,[4;5;6;7;8;1])] [4;5;0;6;7;2;8;3]) (-1) 1);
  (*569*) AddTo n_t4new (Plain (Einsum [(n_v'ovvv,[0;1;2;3]); (n_t3,[4;5;6;7;8;1])] [4;5;0;6;7;8;2;3]));
  (*570*) AddTo n_t4new (Times (Einsum [(n_v'ovvv,[0;1;2;3]); (n_t3,[4;5;6;7;8;1])] [4;5;6;0;2;3;7;8]) (-1) 1);
  (*571*) AddTo n_t4new (Plain (Einsum [(n_v'ovvv,[0;1;2;3]); (n_t3,[4;5;6;7;8;1])] [4;5;6;0;2;7;3;8]));
  (*572*) AddTo n_t4new (Times (Einsum [(n_v'ovvv,[0;1;2;3]); (n_t3,[4;5;6;7;8;1])] [4;5;6;0;2;7;8;3]) (-1) 1);
  (*573*) AddTo n_t4new (Times (Einsum [(n_v'ovvv,[0;1;2;3]); (n_t3,[4;5;6;7;8;1])] [4;5;6;0;7;2;3;8]) (-1) 1);
  (*574*) AddTo n_t4new (Plain (Einsum [(n_v'ovvv,[0;1;2;3]); (n_t3,[4;5;6;7;8;1])] [4;5;6;0;7;2;8;3]));
  (*575*) AddTo n_t4new (Times (Einsum [(n_v'ovvv,[0;1;2;3]); (n_t3,[4;5;6;7;8;1])] [4;5;6;0;7;8;2;3]) (-1) 1);
  (*576*) AddTo n_t4new (Times (Einsum [(n_v'oooo,[0;1;2;3]); (n_t4,[4;5;2;3;6;7;8;9])] [0;1;4;5;6;7;8;9]) (1) 2);
  (*577*) AddTo n_t4new (Times (Einsum [(n_v'oooo,[0;1;2;3]); (n_t4,[4;5;2;3;6;7;8;9])] [0;4;1;5;6;7;8;9]) (-1) 2);
  (*578*) AddTo n_t4new (Times (Einsum [(n_v'oooo,[0;1;2;3]); (n_t4,[4;5;2;3;6;7;8;9])] [0;4;5;1;6;7;8;9]) (1) 2);
  (*579*) AddTo n_t4new (Times (Einsum [(n_v'oooo,[0;1;2;3]); (n_t4,[4;5;2;3;6;7;8;9])] [4;0;1;5;6;7;8;9]) (1) 2);
  (*580*) AddTo n_t4new (Times (Einsum [(n_v'oooo,[0;1;2;3]); (n_t4,[4;5;2;3;6;7;8;9])] [4;0;5;1;6;7;8;9]) (-1) 2);
  (*581*) AddTo n_t4new (Times (Einsum [(n_v'oooo,[0;1;2;3]); (n_t4,[4;5;2;3;6;7;8;9])] [4;5;0;1;6;7;8;9]) (1) 2);
  (*582*) AddTo n_t4new (Times (Einsum [(n_v'ovov,[0;1;2;3]); (n_t4,[4;5;6;2;7;8;9;1])] [0;4;5;6;3;7;8;9]) (-1) 1);
  (*583*) AddTo n_t4new (Plain (Einsum [(n_v'ovov,[0;1;2;3]); (n_t4,[4;5;6;2;7;8;9;1])] [0;4;5;6;7;3;8;9]));
  (*584*) AddTo n_t4new (Times (Einsum [(n_v'ovov,[0;1;2;3]); (n_t4,[4;5;6;2;7;8;9;1])] [0;4;5;6;7;8;3;9]) (-1) 1);
  (*585*) AddTo n_t4new (Plain (Einsum [(n_v'ovov,[0;1;2;3]); (n_t4,[4;5;6;2;7;8;9;1])] [0;4;5;6;7;8;9;3]));
  (*586*) AddTo n_t4new (Plain (Einsum [(n_v'ovov,[0;1;2;3]); (n_t4,[4;5;6;2;7;8;9;1])] [4;0;5;6;3;7;8;9]));
  (*587*) AddTo n_t4new (Times (Einsum [(n_v'ovov,[0;1;2;3]); (n_t4,[4;5;6;2;7;8;9;1])] [4;0;5;6;7;3;8;9]) (-1) 1);
  (*588*) AddTo n_t4new (Plain (Einsum [(n_v'ovov,[0;1;2;3]); (n_t4,[4;5;6;2;7;8;9;1])] [4;0;5;6;7;8;3;9]));
  (*589*) AddTo n_t4new (Times (Einsum [(n_v'ovov,[0;1;2;3]); (n_t4,[4;5;6;2;7;8;9;1])] [4;0;5;6;7;8;9;3]) (-1) 1);
  (*590*) AddTo n_t4new (Times (Einsum [(n_v'ovov,[0;1;2;3]); (n_t4,[4;5;6;2;7;8;9;1])] [4;5;0;6;3;7;8;9]) (-1) 1);
  (*591*) AddTo n_t4new (Plain (Einsum [(n_v'ovov,[0;1;2;3]); (n_t4,[4;5;6;2;7;8;9;1])] [4;5;0;6;7;3;8;9]));
  (*592*) AddTo n_t4new (Times (Einsum [(n_v'ovov,[0;1;2;3]); (n_t4,[4;5;6;2;7;8;9;1])] [4;5;0;6;7;8;3;9]) (-1) 1);
  (*593*) AddTo n_t4new (Plain (Einsum [(n_v'ovov,[0;1;2;3]); (n_t4,[4;5;6;2;7;8;9;1])] [4;5;0;6;7;8;9;3]));
  (*594*) AddTo n_t4new (Plain (Einsum [(n_v'ovov,[0;1;2;3]); (n_t4,[4;5;6;2;7;8;9;1])] [4;5;6;0;3;7;8;9]));
  (*595*) AddTo n_t4new (Times (Einsum [(n_v'ovov,[0;1;2;3]); (n_t4,[4;5;6;2;7;8;9;1])] [4;5;6;0;7;3;8;9]) (-1) 1);
  (*596*) AddTo n_t4new (Plain (Einsum [(n_v'ovov,[0;1;2;3]); (n_t4,[4;5;6;2;7;8;9;1])] [4;5;6;0;7;8;3;9]));
  (*597*) AddTo n_t4new (Times (Einsum [(n_v'ovov,[0;1;2;3]); (n_t4,[4;5;6;2;7;8;9;1])] [4;5;6;0;7;8;9;3]) (-1) 1);
  (*598*) AddTo n_t4new (Times (Einsum [(n_v'vvvv,[0;1;2;3]); (n_t4,[4;5;6;7;8;9;2;3])] [4;5;6;7;0;1;8;9]) (1) 2);
  (*599*) AddTo n_t4new (Times (Einsum [(n_v'vvvv,[0;1;2;3]); (n_t4,[4;5;6;7;8;9;2;3])] [4;5;6;7;0;8;1;9]) (-1) 2);
  (*600*) AddTo n_t4new (Times (Einsum [(n_v'vvvv,[0;1;2;3]); (n_t4,[4;5;6;7;8;9;2;3])] [4;5;6;7;0;8;9;1]) (1) 2);
  (*601*) AddTo n_t4new (Times (Einsum [(n_v'vvvv,[0;1;2;3]); (n_t4,[4;5;6;7;8;9;2;3])] [4;5;6;7;8;0;1;9]) (1) 2);
  (*602*) AddTo n_t4new (Times (Einsum [(n_v'vvvv,[0;1;2;3]); (n_t4,[4;5;6;7;8;9;2;3])] [4;5;6;7;8;0;9;1]) (-1) 2);
  (*603*) AddTo n_t4new (Times (Einsum [(n_v'vvvv,[0;1;2;3]); (n_t4,[4;5;6;7;8;9;2;3])] [4;5;6;7;8;9;0;1]) (1) 2);
  (*604*) AddTo n_t4new (Plain (Einsum [(n_f'ov,[0;1]); (n_t1,[2;1]); (n_t4,[3;4;5;0;6;7;8;9])] [2;3;4;5;6;7;8;9]));
  (*605*) AddTo n_t4new (Times (Einsum [(n_f'ov,[0;1]); (n_t1,[2;1]); (n_t4,[3;4;5;0;6;7;8;9])] [3;2;4;5;6;7;8;9]) (-1) 1);
  (*606*) AddTo n_t4new (Plain (Einsum [(n_f'ov,[0;1]); (n_t1,[2;1]); (n_t4,[3;4;5;0;6;7;8;9])] [3;4;2;5;6;7;8;9]));
  (*607*) AddTo n_t4new (Times (Einsum [(n_f'ov,[0;1]); (n_t1,[2;1]); (n_t4,[3;4;5;0;6;7;8;9])] [3;4;5;2;6;7;8;9]) (-1) 1);
  (*608*) AddTo n_t4new (Plain (Einsum [(n_f'ov,[0;1]); (n_t1,[0;2]); (n_t4,[3;4;5;6;7;8;9;1])] [3;4;5;6;2;7;8;9]));
  (*609*) AddTo n_t4new (Times (Einsum [(n_f'ov,[0;1]); (n_t1,[0;2]); (n_t4,[3;4;5;6;7;8;9;1])] [3;4;5;6;7;2;8;9]) (-1) 1);
  (*610*) AddTo n_t4new (Plain (Einsum [(n_f'ov,[0;1]); (n_t1,[0;2]); (n_t4,[3;4;5;6;7;8;9;1])] [3;4;5;6;7;8;2;9]));
  (*611*) AddTo n_t4new (Times (Einsum [(n_f'ov,[0;1]); (n_t1,[0;2]); (n_t4,[3;4;5;6;7;8;9;1])] [3;4;5;6;7;8;9;2]) (-1) 1);
  (*612*) AddTo n_t4new (Times (Einsum [(n_f'ov,[0;1]); (n_t2,[2;3;4;1]); (n_t3,[5;6;0;7;8;9])] [2;3;5;6;4;7;8;9]) (-1) 1);
  (*613*) AddTo n_t4new (Plain (Einsum [(n_f'ov,[0;1]); (n_t2,[2;3;4;1]); (n_t3,[5;6;0;7;8;9])] [2;3;5;6;7;4;8;9]));
  (*614*) AddTo n_t4new (Times (Einsum [(n_f'ov,[0;1]); (n_t2,[2;3;4;1]); (n_t3,[5;6;0;7;8;9])] [2;3;5;6;7;8;4;9]) (-1) 1);
  (*615*) AddTo n_t4new (Plain (Einsum [(n_f'ov,[0;1]); (n_t2,[2;3;4;1]); (n_t3,[5;6;0;7;8;9])] [2;3;5;6;7;8;9;4]));
  (*616*) AddTo n_t4new (Plain (Einsum [(n_f'ov,[0;1]); (n_t2,[2;3;4;1]); (n_t3,[5;6;0;7;8;9])] [2;5;3;6;4;7;8;9]));
  (*617*) AddTo n_t4new (Times (Einsum [(n_f'ov,[0;1]); (n_t2,[2;3;4;1]); (n_t3,[5;6;0;7;8;9])] [2;5;3;6;7;4;8;9]) (-1) 1);
  (*618*) AddTo n_t4new (Plain (Einsum [(n_f'ov,[0;1]); (n_t2,[2;3;4;1]); (n_t3,[5;6;0;7;8;9])] [2;5;3;6;7;8;4;9]));
  (*619*) AddTo n_t4new (Times (Einsum [(n_f'ov,[0;1]); (n_t2,[2;3;4;1]); (n_t3,[5;6;0;7;8;9])] [2;5;3;6;7;8;9;4]) (-1) 1);
  (*620*) AddTo n_t4new (Times (Einsum [(n_f'ov,[0;1]); (n_t2,[2;3;4;1]); (n_t3,[5;6;0;7;8;9])] [2;5;6;3;4;7;8;9]) (-1) 1);
  (*621*) AddTo n_t4new (Plain (Einsum [(n_f'ov,[0;1]); (n_t2,[2;3;4;1]); (n_t3,[5;6;0;7;8;9])] [2;5;6;3;7;4;8;9]));
  (*622*) AddTo n_t4new (Times (Einsum [(n_f'ov,[0;1]); (n_t2,[2;3;4;1]); (n_t3,[5;6;0;7;8;9])] [2;5;6;3;7;8;4;9]) (-1) 1);
  (*623*) AddTo n_t4new (Plain (Einsum [(n_f'ov,[0;1]); (n_t2,[2;3;4;1]); (n_t3,[5;6;0;7;8;9])] [2;5;6;3;7;8;9;4]));
  (*624*) AddTo n_t4new (Times (Einsum [(n_f'ov,[0;1]); (n_t2,[2;0;3;4]); (n_t3,[5;6;7;8;9;1])] [2;5;6;7;3;4;8;9]) (-1) 1);
  (*625*) AddTo n_t4new (Plain (Einsum [(n_f'ov,[0;1]); (n_t2,[2;0;3;4]); (n_t3,[5;6;7;8;9;1])] [2;5;6;7;3;8;4;9]));
  (*626*) AddTo n_t4new (Times (Einsum [(n_f'ov,[0;1]); (n_t2,[2;0;3;4]); (n_t3,[5;6;7;8;9;1])] [2;5;6;7;3;8;9;4]) (-1) 1);
  (*627*) AddTo n_t4new (Times (Einsum [(n_f'ov,[0;1]); (n_t2,[2;0;3;4]); (n_t3,[5;6;7;8;9;1])] [2;5;6;7;8;3;4;9]) (-1) 1);
  (*628*) AddTo n_t4new (Plain (Einsum [(n_f'ov,[0;1]); (n_t2,[2;0;3;4]); (n_t3,[5;6;7;8;9;1])] [2;5;6;7;8;3;9;4]));
  (*629*) AddTo n_t4new (Times (Einsum [(n_f'ov,[0;1]); (n_t2,[2;0;3;4]); (n_t3,[5;6;7;8;9;1])] [2;5;6;7;8;9;3;4]) (-1) 1);
  (*630*) AddTo n_t4new (Times (Einsum [(n_f'ov,[0;1]); (n_t2,[2;3;4;1]); (n_t3,[5;6;0;7;8;9])] [5;2;3;6;4;7;8;9]) (-1) 1);
  (*631*) AddTo n_t4new (Plain (Einsum [(n_f'ov,[0;1]); (n_t2,[2;3;4;1]); (n_t3,[5;6;0;7;8;9])] [5;2;3;6;7;4;8;9]));
  (*632*) AddTo n_t4new (Times (Einsum [(n_f'ov,[0;1]); (n_t2,[2;3;4;1]); (n_t3,[5;6;0;7;8;9])] [5;2;3;6;7;8;4;9]) (-1) 1);
  (*633*) AddTo n_t4new (Plain (Einsum [(n_f'ov,[0;1]); (n_t2,[2;3;4;1]); (n_t3,[5;6;0;7;8;9])] [5;2;3;6;7;8;9;4]));
  (*634*) AddTo n_t4new (Plain (Einsum [(n_f'ov,[0;1]); (n_t2,[2;3;4;1]); (n_t3,[5;6;0;7;8;9])] [5;2;6;3;4;7;8;9]));
  (*635*) AddTo n_t4new (Times (Einsum [(n_f'ov,[0;1]); (n_t2,[2;3;4;1]); (n_t3,[5;6;0;7;8;9])] [5;2;6;3;7;4;8;9]) (-1) 1);
  (*636*) AddTo n_t4new (Plain (Einsum [(n_f'ov,[0;1]); (n_t2,[2;3;4;1]); (n_t3,[5;6;0;7;8;9])] [5;2;6;3;7;8;4;9]));
  (*637*) AddTo n_t4new (Times (Einsum [(n_f'ov,[0;1]); (n_t2,[2;3;4;1]); (n_t3,[5;6;0;7;8;9])] [5;2;6;3;7;8;9;4]) (-1) 1);
  (*638*) AddTo n_t4new (Plain (Einsum [(n_f'ov,[0;1]); (n_t2,[2;0;3;4]); (n_t3,[5;6;7;8;9;1])] [5;2;6;7;3;4;8;9]));
  (*639*) AddTo n_t4new (Times (Einsum [(n_f'ov,[0;1]); (n_t2,[2;0;3;4]); (n_t3,[5;6;7;8;9;1])] [5;2;6;7;3;8;4;9]) (-1) 1);
  (*640*) AddTo n_t4new (Plain (Einsum [(n_f'ov,[0;1]); (n_t2,[2;0;3;4]); (n_t3,[5;6;7;8;9;1])] [5;2;6;7;3;8;9;4]));
  (*641*) AddTo n_t4new (Plain (Einsum [(n_f'ov,[0;1]); (n_t2,[2;0;3;4]); (n_t3,[5;6;7;8;9;1])] [5;2;6;7;8;3;4;9]));
  (*642*) AddTo n_t4new (Times (Einsum [(n_f'ov,[0;1]); (n_t2,[2;0;3;4]); (n_t3,[5;6;7;8;9;1])] [5;2;6;7;8;3;9;4]) (-1) 1);
  (*643*) AddTo n_t4new (Plain (Einsum [(n_f'ov,[0;1]); (n_t2,[2;0;3;4]); (n_t3,[5;6;7;8;9;1])] [5;2;6;7;8;9;3;4]));
  (*644*) AddTo n_t4new (Times (Einsum [(n_f'ov,[0;1]); (n_t2,[2;3;4;1]); (n_t3,[5;6;0;7;8;9])] [5;6;2;3;4;7;8;9]) (-1) 1);
  (*645*) AddTo n_t4new (Plain (Einsum [(n_f'ov,[0;1]); (n_t2,[2;3;4;1]); (n_t3,[5;6;0;7;8;9])] [5;6;2;3;7;4;8;9]));
  (*646*) AddTo n_t4new (Times (Einsum [(n_f'ov,[0;1]); (n_t2,[2;3;4;1]); (n_t3,[5;6;0;7;8;9])] [5;6;2;3;7;8;4;9]) (-1) 1);
  (*647*) AddTo n_t4new (Plain (Einsum [(n_f'ov,[0;1]); (n_t2,[2;3;4;1]); (n_t3,[5;6;0;7;8;9])] [5;6;2;3;7;8;9;4]));
  (*648*) AddTo n_t4new (Times (Einsum [(n_f'ov,[0;1]); (n_t2,[2;0;3;4]); (n_t3,[5;6;7;8;9;1])] [5;6;2;7;3;4;8;9]) (-1) 1);
  (*649*) AddTo n_t4new (Plain (Einsum [(n_f'ov,[0;1]); (n_t2,[2;0;3;4]); (n_t3,[5;6;7;8;9;1])] [5;6;2;7;3;8;4;9]));
  (*650*) AddTo n_t4new (Times (Einsum [(n_f'ov,[0;1]); (n_t2,[2;0;3;4]); (n_t3,[5;6;7;8;9;1])] [5;6;2;7;3;8;9;4]) (-1) 1);
  (*651*) AddTo n_t4new (Times (Einsum [(n_f'ov,[0;1]); (n_t2,[2;0;3;4]); (n_t3,[5;6;7;8;9;1])] [5;6;2;7;8;3;4;9]) (-1) 1);
  (*652*) AddTo n_t4new (Plain (Einsum [(n_f'ov,[0;1]); (n_t2,[2;0;3;4]); (n_t3,[5;6;7;8;9;1])] [5;6;2;7;8;3;9;4]));
  (*653*) AddTo n_t4new (Times (Einsum [(n_f'ov,[0;1]); (n_t2,[2;0;3;4]); (n_t3,[5;6;7;8;9;1])] [5;6;2;7;8;9;3;4]) (-1) 1);
  (*654*) AddTo n_t4new (Plain (Einsum [(n_f'ov,[0;1]); (n_t2,[2;0;3;4]); (n_t3,[5;6;7;8;9;1])] [5;6;7;2;3;4;8;9]));
  (*655*) AddTo n_t4new (Times (Einsum [(n_f'ov,[0;1]); (n_t2,[2;0;3;4]); (n_t3,[5;6;7;8;9;1])] [5;6;7;2;3;8;4;9]) (-1) 1);
  (*656*) AddTo n_t4new (Plain (Einsum [(n_f'ov,[0;1]); (n_t2,[2;0;3;4]); (n_t3,[5;6;7;8;9;1])] [5;6;7;2;3;8;9;4]));
  (*657*) AddTo n_t4new (Plain (Einsum [(n_f'ov,[0;1]); (n_t2,[2;0;3;4]); (n_t3,[5;6;7;8;9;1])] [5;6;7;2;8;3;4;9]));
  (*658*) AddTo n_t4new (Times (Einsum [(n_f'ov,[0;1]); (n_t2,[2;0;3;4]); (n_t3,[5;6;7;8;9;1])] [5;6;7;2;8;3;9;4]) (-1) 1);
  (*659*) AddTo n_t4new (Plain (Einsum [(n_f'ov,[0;1]); (n_t2,[2;0;3;4]); (n_t3,[5;6;7;8;9;1])] [5;6;7;2;8;9;3;4]));
  (*660*) AddTo n_t4new (Plain (Einsum [(n_t1,[0;1]); (n_v'oooo,[2;3;0;4]); (n_t3,[5;6;4;7;8;9])] [2;3;5;6;1;7;8;9]));
  (*661*) AddTo n_t4new (Times (Einsum [(n_t1,[0;1]); (n_v'oooo,[2;3;0;4]); (n_t3,[5;6;4;7;8;9])] [2;5;3;6;1;7;8;9]) (-1) 1);
  (*662*) AddTo n_t4new (Plain (Einsum [(n_t1,[0;1]); (n_v'oooo,[2;3;0;4]); (n_t3,[5;6;4;7;8;9])] [2;5;6;3;1;7;8;9]));
  (*663*) AddTo n_t4new (Plain (Einsum [(n_t1,[0;1]); (n_v'oooo,[2;3;0;4]); (n_t3,[5;6;4;7;8;9])] [5;2;3;6;1;7;8;9]));
  (*664*) AddTo n_t4new (Times (Einsum [(n_t1,[0;1]); (n_v'oooo,[2;3;0;4]); (n_t3,[5;6;4;7;8;9])] [5;2;6;3;1;7;8;9]) (-1) 1);
  (*665*) AddTo n_t4new (Plain (Einsum [(n_t1,[0;1]); (n_v'oooo,[2;3;0;4]); (n_t3,[5;6;4;7;8;9])] [5;6;2;3;1;7;8;9]));
  (*666*) AddTo n_t4new (Times (Einsum [(n_t1,[0;1]); (n_v'oooo,[2;3;0;4]); (n_t3,[5;6;4;7;8;9])] [2;3;5;6;7;1;8;9]) (-1) 1);
  (*667*) AddTo n_t4new (Plain (Einsum [(n_t1,[0;1]); (n_v'oooo,[2;3;0;4]); (n_t3,[5;6;4;7;8;9])] [2;5;3;6;7;1;8;9]));
  (*668*) AddTo n_t4new (Times (Einsum [(n_t1,[0;1]); (n_v'oooo,[2;3;0;4]); (n_t3,[5;6;4;7;8;9])] [2;5;6;3;7;1;8;9]) (-1) 1);
  (*669*) AddTo n_t4new (Times (Einsum [(n_t1,[0;1]); (n_v'oooo,[2;3;0;4]); (n_t3,[5;6;4;7;8;9])] [5;2;3;6;7;1;8;9]) (-1) 1);
  (*670*) AddTo n_t4new (Plain (Einsum [(n_t1,[0;1]); (n_v'oooo,[2;3;0;4]); (n_t3,[5;6;4;7;8;9])] [5;2;6;3;7;1;8;9]));
  (*671*) AddTo n_t4new (Times (Einsum [(n_t1,[0;1]); (n_v'oooo,[2;3;0;4]); (n_t3,[5;6;4;7;8;9])] [5;6;2;3;7;1;8;9]) (-1) 1);
  (*672*) AddTo n_t4new (Plain (Einsum [(n_t1,[0;1]); (n_v'oooo,[2;3;0;4]); (n_t3,[5;6;4;7;8;9])] [2;3;5;6;7;8;1;9]));
  (*673*) AddTo n_t4new (Times (Einsum [(n_t1,[0;1]); (n_v'oooo,[2;3;0;4]); (n_t3,[5;6;4;7;8;9])] [2;5;3;6;7;8;1;9]) (-1) 1);
  (*674*) AddTo n_t4new (Plain (Einsum [(n_t1,[0;1]); (n_v'oooo,[2;3;0;4]); (n_t3,[5;6;4;7;8;9])] [2;5;6;3;7;8;1;9]));
  (*675*) AddTo n_t4new (Plain (Einsum [(n_t1,[0;1]); (n_v'oooo,[2;3;0;4]); (n_t3,[5;6;4;7;8;9])] [5;2;3;6;7;8;1;9]));
  (*676*) AddTo n_t4new (Times (Einsum [(n_t1,[0;1]); (n_v'oooo,[2;3;0;4]); (n_t3,[5;6;4;7;8;9])] [5;2;6;3;7;8;1;9]) (-1) 1);
  (*677*) AddTo n_t4new (Plain (Einsum [(n_t1,[0;1]); (n_v'oooo,[2;3;0;4]); (n_t3,[5;6;4;7;8;9])] [5;6;2;3;7;8;1;9]));
  (*678*) AddTo n_t4new (Times (Einsum [(n_t1,[0;1]); (n_v'oooo,[2;3;0;4]); (n_t3,[5;6;4;7;8;9])] [2;3;5;6;7;8;9;1]) (-1) 1);
  (*679*) AddTo n_t4new (Plain (Einsum [(n_t1,[0;1]); (n_v'oooo,[2;3;0;4]); (n_t3,[5;6;4;7;8;9])] [2;5;3;6;7;8;9;1]));
  (*680*) AddTo n_t4new (Times (Einsum [(n_t1,[0;1]); (n_v'oooo,[2;3;0;4]); (n_t3,[5;6;4;7;8;9])] [2;5;6;3;7;8;9;1]) (-1) 1);
  (*681*) AddTo n_t4new (Times (Einsum [(n_t1,[0;1]); (n_v'oooo,[2;3;0;4]); (n_t3,[5;6;4;7;8;9])] [5;2;3;6;7;8;9;1]) (-1) 1);
  (*682*) AddTo n_t4new (Plain (Einsum [(n_t1,[0;1]); (n_v'oooo,[2;3;0;4]); (n_t3,[5;6;4;7;8;9])] [5;2;6;3;7;8;9;1]));
  (*683*) AddTo n_t4new (Times (Einsum [(n_t1,[0;1]); (n_v'oooo,[2;3;0;4]); (n_t3,[5;6;4;7;8;9])] [5;6;2;3;7;8;9;1]) (-1) 1);
  (*684*) AddTo n_t4new (Times (Einsum [(n_t1,[0;1]); (n_v'ovov,[2;1;3;4]); (n_t3,[5;6;3;7;8;9])] [0;2;5;6;4;7;8;9]) (-1) 1);
  (*685*) AddTo n_t4new (Plain (Einsum [(n_t1,[0;1]); (n_v'ovov,[2;1;3;4]); (n_t3,[5;6;3;7;8;9])] [0;2;5;6;7;4;8;9]));
  (*686*) AddTo n_t4new (Times (Einsum [(n_t1,[0;1]); (n_v'ovov,[2;1;3;4]); (n_t3,[5;6;3;7;8;9])] [0;2;5;6;7;8;4;9]) (-1) 1);
  (*687*) AddTo n_t4new (Plain (Einsum [(n_t1,[0;1]); (n_v'ovov,[2;1;3;4]); (n_t3,[5;6;3;7;8;9])] [0;2;5;6;7;8;9;4]));
  (*688*) AddTo n_t4new (Plain (Einsum [(n_t1,[0;1]); (n_v'ovov,[2;1;3;4]); (n_t3,[5;6;3;7;8;9])] [0;5;2;6;4;7;8;9]));
  (*689*) AddTo n_t4new (Times (Einsum [(n_t1,[0;1]); (n_v'ovov,[2;1;3;4]); (n_t3,[5;6;3;7;8;9])] [0;5;2;6;7;4;8;9]) (-1) 1);
  (*690*) AddTo n_t4new (Plain (Einsum [(n_t1,[0;1]); (n_v'ovov,[2;1;3;4]); (n_t3,[5;6;3;7;8;9])] [0;5;2;6;7;8;4;9]));
  (*691*) AddTo n_t4new (Times (Einsum [(n_t1,[0;1]); (n_v'ovov,[2;1;3;4]); (n_t3,[5;6;3;7;8;9])] [0;5;2;6;7;8;9;4]) (-1) 1);
  (*692*) AddTo n_t4new (Times (Einsum [(n_t1,[0;1]); (n_v'ovov,[2;1;3;4]); (n_t3,[5;6;3;7;8;9])] [0;5;6;2;4;7;8;9]) (-1) 1);
  (*693*) AddTo n_t4new (Plain (Einsum [(n_t1,[0;1]); (n_v'ovov,[2;1;3;4]); (n_t3,[5;6;3;7;8;9])] [0;5;6;2;7;4;8;9]));
  (*694*) AddTo n_t4new (Times (Einsum [(n_t1,[0;1]); (n_v'ovov,[2;1;3;4]); (n_t3,[5;6;3;7;8;9])] [0;5;6;2;7;8;4;9]) (-1) 1);
  (*695*) AddTo n_t4new (Plain (Einsum [(n_t1,[0;1]); (n_v'ovov,[2;1;3;4]); (n_t3,[5;6;3;7;8;9])] [0;5;6;2;7;8;9;4]));
  (*696*) AddTo n_t4new (Plain (Einsum [(n_t1,[0;1]); (n_v'ovov,[2;1;3;4]); (n_t3,[5;6;3;7;8;9])] [2;0;5;6;4;7;8;9]));
  (*697*) AddTo n_t4new (Times (Einsum [(n_t1,[0;1]); (n_v'ovov,[2;1;3;4]); (n_t3,[5;6;3;7;8;9])] [2;0;5;6;7;4;8;9]) (-1) 1);
  (*698*) AddTo n_t4new (Plain (Einsum [(n_t1,[0;1]); (n_v'ovov,[2;1;3;4]); (n_t3,[5;6;3;7;8;9])] [2;0;5;6;7;8;4;9]));
  (*699*) AddTo n_t4new (Times (Einsum [(n_t1,[0;1]); (n_v'ovov,[2;1;3;4]); (n_t3,[5;6;3;7;8;9])] [2;0;5;6;7;8;9;4]) (-1) 1);
  (*700*) AddTo n_t4new (Times (Einsum [(n_t1,[0;1]); (n_v'ovov,[2;1;3;4]); (n_t3,[5;6;3;7;8;9])] [5;0;2;6;4;7;8;9]) (-1) 1);
  (*701*) AddTo n_t4new (Plain (Einsum [(n_t1,[0;1]); (n_v'ovov,[2;1;3;4]); (n_t3,[5;6;3;7;8;9])] [5;0;2;6;7;4;8;9]));
  (*702*) AddTo n_t4new (Times (Einsum [(n_t1,[0;1]); (n_v'ovov,[2;1;3;4]); (n_t3,[5;6;3;7;8;9])] [5;0;2;6;7;8;4;9]) (-1) 1);
  (*703*) AddTo n_t4new (Plain (Einsum [(n_t1,[0;1]); (n_v'ovov,[2;1;3;4]); (n_t3,[5;6;3;7;8;9])] [5;0;2;6;7;8;9;4]));
  (*704*) AddTo n_t4new (Plain (Einsum [(n_t1,[0;1]); (n_v'ovov,[2;1;3;4]); (n_t3,[5;6;3;7;8;9])] [5;0;6;2;4;7;8;9]));
  (*705*) AddTo n_t4new (Times (Einsum [(n_t1,[0;1]); (n_v'ovov,[2;1;3;4]); (n_t3,[5;6;3;7;8;9])] [5;0;6;2;7;4;8;9]) (-1) 1);
  (*706*) AddTo n_t4new (Plain (Einsum [(n_t1,[0;1]); (n_v'ovov,[2;1;3;4]); (n_t3,[5;6;3;7;8;9])] [5;0;6;2;7;8;4;9]));
  (*707*) AddTo n_t4new (Times (Einsum [(n_t1,[0;1]); (n_v'ovov,[2;1;3;4]); (n_t3,[5;6;3;7;8;9])] [5;0;6;2;7;8;9;4]) (-1) 1);
  (*708*) AddTo n_t4new (Times (Einsum [(n_t1,[0;1]); (n_v'ovov,[2;1;3;4]); (n_t3,[5;6;3;7;8;9])] [2;5;0;6;4;7;8;9]) (-1) 1);
  (*709*) AddTo n_t4new (Plain (Einsum [(n_t1,[0;1]); (n_v'ovov,[2;1;3;4]); (n_t3,[5;6;3;7;8;9])] [2;5;0;6;7;4;8;9]));
  (*710*) AddTo n_t4new (Times (Einsum [(n_t1,[0;1]); (n_v'ovov,[2;1;3;4]); (n_t3,[5;6;3;7;8;9])] [2;5;0;6;7;8;4;9]) (-1) 1);
  (*711*) AddTo n_t4new (Plain (Einsum [(n_t1,[0;1]); (n_v'ovov,[2;1;3;4]); (n_t3,[5;6;3;7;8;9])] [2;5;0;6;7;8;9;4]));
  (*712*) AddTo n_t4new (Plain (Einsum [(n_t1,[0;1]); (n_v'ovov,[2;1;3;4]); (n_t3,[5;6;3;7;8;9])] [5;2;0;6;4;7;8;9]));
  (*713*) AddTo n_t4new (Times (Einsum [(n_t1,[0;1]); (n_v'ovov,[2;1;3;4]); (n_t3,[5;6;3;7;8;9])] [5;2;0;6;7;4;8;9]) (-1) 1);
  (*714*) AddTo n_t4new (Plain (Einsum [(n_t1,[0;1]); (n_v'ovov,[2;1;3;4]); (n_t3,[5;6;3;7;8;9])] [5;2;0;6;7;8;4;9]));
  (*715*) AddTo n_t4new (Times (Einsum [(n_t1,[0;1]); (n_v'ovov,[2;1;3;4]); (n_t3,[5;6;3;7;8;9])] [5;2;0;6;7;8;9;4]) (-1) 1);
  (*716*) AddTo n_t4new (Times (Einsum [(n_t1,[0;1]); (n_v'ovov,[2;1;3;4]); (n_t3,[5;6;3;7;8;9])] [5;6;0;2;4;7;8;9]) (-1) 1);
  (*717*) AddTo n_t4new (Plain (Einsum [(n_t1,[0;1]); (n_v'ovov,[2;1;3;4]); (n_t3,[5;6;3;7;8;9])] [5;6;0;2;7;4;8;9]));
  (*718*) AddTo n_t4new (Times (Einsum [(n_t1,[0;1]); (n_v'ovov,[2;1;3;4]); (n_t3,[5;6;3;7;8;9])] [5;6;0;2;7;8;4;9]) (-1) 1);
  (*719*) AddTo n_t4new (Plain (Einsum [(n_t1,[0;1]); (n_v'ovov,[2;1;3;4]); (n_t3,[5;6;3;7;8;9])] [5;6;0;2;7;8;9;4]));
  (*720*) AddTo n_t4new (Plain (Einsum [(n_t1,[0;1]); (n_v'ovov,[2;1;3;4]); (n_t3,[5;6;3;7;8;9])] [2;5;6;0;4;7;8;9]));
  (*721*) AddTo n_t4new (Times (Einsum [(n_t1,[0;1]); (n_v'ovov,[2;1;3;4]); (n_t3,[5;6;3;7;8;9])] [2;5;6;0;7;4;8;9]) (-1) 1);
  (*722*) AddTo n_t4new (Plain (Einsum [(n_t1,[0;1]); (n_v'ovov,[2;1;3;4]); (n_t3,[5;6;3;7;8;9])] [2;5;6;0;7;8;4;9]));
  (*723*) AddTo n_t4new (Times (Einsum [(n_t1,[0;1]); (n_v'ovov,[2;1;3;4]); (n_t3,[5;6;3;7;8;9])] [2;5;6;0;7;8;9;4]) (-1) 1);
  (*724*) AddTo n_t4new (Times (Einsum [(n_t1,[0;1]); (n_v'ovov,[2;1;3;4]); (n_t3,[5;6;3;7;8;9])] [5;2;6;0;4;7;8;9]) (-1) 1);
  (*725*) AddTo n_t4new (Plain (Einsum [(n_t1,[0;1]); (n_v'ovov,[2;1;3;4]); (n_t3,[5;6;3;7;8;9])] [5;2;6;0;7;4;8;9]));
  (*726*) AddTo n_t4new (Times (Einsum [(n_t1,[0;1]); (n_v'ovov,[2;1;3;4]); (n_t3,[5;6;3;7;8;9])] [5;2;6;0;7;8;4;9]) (-1) 1);
  (*727*) AddTo n_t4new (Plain (Einsum [(n_t1,[0;1]); (n_v'ovov,[2;1;3;4]); (n_t3,[5;6;3;7;8;9])] [5;2;6;0;7;8;9;4]));
  (*728*) AddTo n_t4new (Plain (Einsum [(n_t1,[0;1]); (n_v'ovov,[2;1;3;4]); (n_t3,[5;6;3;7;8;9])] [5;6;2;0;4;7;8;9]));
  (*729*) AddTo n_t4new (Times (Einsum [(n_t1,[0;1]); (n_v'ovov,[2;1;3;4]); (n_t3,[5;6;3;7;8;9])] [5;6;2;0;7;4;8;9]) (-1) 1);
  (*730*) AddTo n_t4new (Plain (Einsum [(n_t1,[0;1]); (n_v'ovov,[2;1;3;4]); (n_t3,[5;6;3;7;8;9])] [5;6;2;0;7;8;4;9]));
  (*731*) AddTo n_t4new (Times (Einsum [(n_t1,[0;1]); (n_v'ovov,[2;1;3;4]); (n_t3,[5;6;3;7;8;9])] [5;6;2;0;7;8;9;4]) (-1) 1);
  (*732*) AddTo n_t4new (Times (Einsum [(n_t1,[0;1]); (n_v'ovov,[2;3;0;4]); (n_t3,[5;6;7;8;9;3])] [2;5;6;7;1;4;8;9]) (-1) 1);
  (*733*) AddTo n_t4new (Plain (Einsum [(n_t1,[0;1]); (n_v'ovov,[2;3;0;4]); (n_t3,[5;6;7;8;9;3])] [2;5;6;7;1;8;4;9]));
  (*734*) AddTo n_t4new (Times (Einsum [(n_t1,[0;1]); (n_v'ovov,[2;3;0;4]); (n_t3,[5;6;7;8;9;3])] [2;5;6;7;1;8;9;4]) (-1) 1);
  (*735*) AddTo n_t4new (Plain (Einsum [(n_t1,[0;1]); (n_v'ovov,[2;3;0;4]); (n_t3,[5;6;7;8;9;3])] [5;2;6;7;1;4;8;9]));
  (*736*) AddTo n_t4new (Times (Einsum [(n_t1,[0;1]); (n_v'ovov,[2;3;0;4]); (n_t3,[5;6;7;8;9;3])] [5;2;6;7;1;8;4;9]) (-1) 1);
  (*737*) AddTo n_t4new (Plain (Einsum [(n_t1,[0;1]); (n_v'ovov,[2;3;0;4]); (n_t3,[5;6;7;8;9;3])] [5;2;6;7;1;8;9;4]));
  (*738*) AddTo n_t4new (Times (Einsum [(n_t1,[0;1]); (n_v'ovov,[2;3;0;4]); (n_t3,[5;6;7;8;9;3])] [5;6;2;7;1;4;8;9]) (-1) 1);
  (*739*) AddTo n_t4new (Plain (Einsum [(n_t1,[0;1]); (n_v'ovov,[2;3;0;4]); (n_t3,[5;6;7;8;9;3])] [5;6;2;7;1;8;4;9]));
  (*740*) AddTo n_t4new (Times (Einsum [(n_t1,[0;1]); (n_v'ovov,[2;3;0;4]); (n_t3,[5;6;7;8;9;3])] [5;6;2;7;1;8;9;4]) (-1) 1);
  (*741*) AddTo n_t4new (Plain (Einsum [(n_t1,[0;1]); (n_v'ovov,[2;3;0;4]); (n_t3,[5;6;7;8;9;3])] [5;6;7;2;1;4;8;9]));
  (*742*) AddTo n_t4new (Times (Einsum [(n_t1,[0;1]); (n_v'ovov,[2;3;0;4]); (n_t3,[5;6;7;8;9;3])] [5;6;7;2;1;8;4;9]) (-1) 1);
  (*743*) AddTo n_t4new (Plain (Einsum [(n_t1,[0;1]); (n_v'ovov,[2;3;0;4]); (n_t3,[5;6;7;8;9;3])] [5;6;7;2;1;8;9;4]));
  (*744*) AddTo n_t4new (Plain (Einsum [(n_t1,[0;1]); (n_v'ovov,[2;3;0;4]); (n_t3,[5;6;7;8;9;3])] [2;5;6;7;4;1;8;9]));
  (*745*) AddTo n_t4new (Times (Einsum [(n_t1,[0;1]); (n_v'ovov,[2;3;0;4]); (n_t3,[5;6;7;8;9;3])] [2;5;6;7;8;1;4;9]) (-1) 1);
  (*746*) AddTo n_t4new (Plain (Einsum [(n_t1,[0;1]); (n_v'ovov,[2;3;0;4]); (n_t3,[5;6;7;8;9;3])] [2;5;6;7;8;1;9;4]));
  (*747*) AddTo n_t4new (Times (Einsum [(n_t1,[0;1]); (n_v'ovov,[2;3;0;4]); (n_t3,[5;6;7;8;9;3])] [5;2;6;7;4;1;8;9]) (-1) 1);
  (*748*) AddTo n_t4new (Plain (Einsum [(n_t1,[0;1]); (n_v'ovov,[2;3;0;4]); (n_t3,[5;6;7;8;9;3])] [5;2;6;7;8;1;4;9]));
  (*749*) AddTo n_t4new (Times (Einsum [(n_t1,[0;1]); (n_v'ovov,[2;3;0;4]); (n_t3,[5;6;7;8;9;3])] [5;2;6;7;8;1;9;4]) (-1) 1);
  (*750*) AddTo n_t4new (Plain (Einsum [(n_t1,[0;1]); (n_v'ovov,[2;3;0;4]); (n_t3,[5;6;7;8;9;3])] [5;6;2;7;4;1;8;9]));
  (*751*) AddTo n_t4new (Times (Einsum [(n_t1,[0;1]); (n_v'ovov,[2;3;0;4]); (n_t3,[5;6;7;8;9;3])] [5;6;2;7;8;1;4;9]) (-1) 1);
  (*752*) AddTo n_t4new (Plain (Einsum [(n_t1,[0;1]); (n_v'ovov,[2;3;0;4]); (n_t3,[5;6;7;8;9;3])] [5;6;2;7;8;1;9;4]));
  (*753*) AddTo n_t4new (Times (Einsum [(n_t1,[0;1]); (n_v'ovov,[2;3;0;4]); (n_t3,[5;6;7;8;9;3])] [5;6;7;2;4;1;8;9]) (-1) 1);
  (*754*) AddTo n_t4new (Plain (Einsum [(n_t1,[0;1]); (n_v'ovov,[2;3;0;4]); (n_t3,[5;6;7;8;9;3])] [5;6;7;2;8;1;4;9]));
  (*755*) AddTo n_t4new (Times (Einsum [(n_t1,[0;1]); (n_v'ovov,[2;3;0;4]); (n_t3,[5;6;7;8;9;3])] [5;6;7;2;8;1;9;4]) (-1) 1);
  (*756*) AddTo n_t4new (Times (Einsum [(n_t1,[0;1]); (n_v'ovov,[2;3;0;4]); (n_t3,[5;6;7;8;9;3])] [2;5;6;7;4;8;1;9]) (-1) 1);
  (*757*) AddTo n_t4new (Plain (Einsum [(n_t1,[0;1]); (n_v'ovov,[2;3;0;4]); (n_t3,[5;6;7;8;9;3])] [2;5;6;7;8;4;1;9]));
  (*758*) AddTo n_t4new (Times (Einsum [(n_t1,[0;1]); (n_v'ovov,[2;3;0;4]); (n_t3,[5;6;7;8;9;3])] [2;5;6;7;8;9;1;4]) (-1) 1);
  (*759*) AddTo n_t4new (Plain (Einsum [(n_t1,[0;1]); (n_v'ovov,[2;3;0;4]); (n_t3,[5;6;7;8;9;3])] [5;2;6;7;4;8;1;9]));
  (*760*) AddTo n_t4new (Times (Einsum [(n_t1,[0;1]); (n_v'ovov,[2;3;0;4]); (n_t3,[5;6;7;8;9;3])] [5;2;6;7;8;4;1;9]) (-1) 1);
  (*761*) AddTo n_t4new (Plain (Einsum [(n_t1,[0;1]); (n_v'ovov,[2;3;0;4]); (n_t3,[5;6;7;8;9;3])] [5;2;6;7;8;9;1;4]));
  (*762*) AddTo n_t4new (Times (Einsum [(n_t1,[0;1]); (n_v'ovov,[2;3;0;4]); (n_t3,[5;6;7;8;9;3])] [5;6;2;7;4;8;1;9]) (-1) 1);
  (*763*) AddTo n_t4new (Plain (Einsum [(n_t1,[0;1]); (n_v'ovov,[2;3;0;4]); (n_t3,[5;6;7;8;9;3])] [5;6;2;7;8;4;1;9]));
  (*764*) AddTo n_t4new (Times (Einsum [(n_t1,[0;1]); (n_v'ovov,[2;3;0;4]); (n_t3,[5;6;7;8;9;3])] [5;6;2;7;8;9;1;4]) (-1) 1);
  (*765*) AddTo n_t4new (Plain (Einsum [(n_t1,[0;1]); (n_v'ovov,[2;3;0;4]); (n_t3,[5;6;7;8;9;3])] [5;6;7;2;4;8;1;9]));
  (*766*) AddTo n_t4new (Times (Einsum [(n_t1,[0;1]); (n_v'ovov,[2;3;0;4]); (n_t3,[5;6;7;8;9;3])] [5;6;7;2;8;4;1;9]) (-1) 1);
  (*767*) AddTo n_t4new (Plain (Einsum [(n_t1,[0;1]); (n_v'ovov,[2;3;0;4]); (n_t3,[5;6;7;8;9;3])] [5;6;7;2;8;9;1;4]));
  (*768*) AddTo n_t4new (Plain (Einsum [(n_t1,[0;1]); (n_v'ovov,[2;3;0;4]); (n_t3,[5;6;7;8;9;3])] [2;5;6;7;4;8;9;1]));
  (*769*) AddTo n_t4new (Times (Einsum [(n_t1,[0;1]); (n_v'ovov,[2;3;0;4]); (n_t3,[5;6;7;8;9;3])] [2;5;6;7;8;4;9;1]) (-1) 1);
  (*770*) AddTo n_t4new (Plain (Einsum [(n_t1,[0;1]); (n_v'ovov,[2;3;0;4]); (n_t3,[5;6;7;8;9;3])] [2;5;6;7;8;9;4;1]));
  (*771*) AddTo n_t4new (Times (Einsum [(n_t1,[0;1]); (n_v'ovov,[2;3;0;4]); (n_t3,[5;6;7;8;9;3])] [5;2;6;7;4;8;9;1]) (-1) 1);
  (*772*) AddTo n_t4new (Plain (Einsum [(n_t1,[0;1]); (n_v'ovov,[2;3;0;4]); (n_t3,[5;6;7;8;9;3])] [5;2;6;7;8;4;9;1]));
  (*773*) AddTo n_t4new (Times (Einsum [(n_t1,[0;1]); (n_v'ovov,[2;3;0;4]); (n_t3,[5;6;7;8;9;3])] [5;2;6;7;8;9;4;1]) (-1) 1);
  (*774*) AddTo n_t4new (Plain (Einsum [(n_t1,[0;1]); (n_v'ovov,[2;3;0;4]); (n_t3,[5;6;7;8;9;3])] [5;6;2;7;4;8;9;1]));
  (*775*) AddTo n_t4new (Times (Einsum [(n_t1,[0;1]); (n_v'ovov,[2;3;0;4]); (n_t3,[5;6;7;8;9;3])] [5;6;2;7;8;4;9;1]) (-1) 1);
  (*776*) AddTo n_t4new (Plain (Einsum [(n_t1,[0;1]); (n_v'ovov,[2;3;0;4]); (n_t3,[5;6;7;8;9;3])] [5;6;2;7;8;9;4;1]));
  (*777*) AddTo n_t4new (Times (Einsum [(n_t1,[0;1]); (n_v'ovov,[2;3;0;4]); (n_t3,[5;6;7;8;9;3])] [5;6;7;2;4;8;9;1]) (-1) 1);
  (*778*) AddTo n_t4new (Plain (Einsum [(n_t1,[0;1]); (n_v'ovov,[2;3;0;4]); (n_t3,[5;6;7;8;9;3])] [5;6;7;2;8;4;9;1]));
  (*779*) AddTo n_t4new (Times (Einsum [(n_t1,[0;1]); (n_v'ovov,[2;3;0;4]); (n_t3,[5;6;7;8;9;3])] [5;6;7;2;8;9;4;1]) (-1) 1);
  (*780*) AddTo n_t4new (Plain (Einsum [(n_t1,[0;1]); (n_v'vvvv,[2;3;1;4]); (n_t3,[5;6;7;8;9;4])] [0;5;6;7;2;3;8;9]));
  (*781*) AddTo n_t4new (Times (Einsum [(n_t1,[0;1]); (n_v'vvvv,[2;3;1;4]); (n_t3,[5;6;7;8;9;4])] [0;5;6;7;2;8;3;9]) (-1) 1);
  (*782*) AddTo n_t4new (Plain (Einsum [(n_t1,[0;1]); (n_v'vvvv,[2;3;1;4]); (n_t3,[5;6;7;8;9;4])] [0;5;6;7;2;8;9;3]));
  (*783*) AddTo n_t4new (Plain (Einsum [(n_t1,[0;1]); (n_v'vvvv,[2;3;1;4]); (n_t3,[5;6;7;8;9;4])] [0;5;6;7;8;2;3;9]));
  (*784*) AddTo n_t4new (Times (Einsum [(n_t1,[0;1]); (n_v'vvvv,[2;3;1;4]); (n_t3,[5;6;7;8;9;4])] [0;5;6;7;8;2;9;3]) (-1) 1);
  (*785*) AddTo n_t4new (Plain (Einsum [(n_t1,[0;1]); (n_v'vvvv,[2;3;1;4]); (n_t3,[5;6;7;8;9;4])] [0;5;6;7;8;9;2;3]));
  (*786*) AddTo n_t4new (Times (Einsum [(n_t1,[0;1]); (n_v'vvvv,[2;3;1;4]); (n_t3,[5;6;7;8;9;4])] [5;0;6;7;2;3;8;9]) (-1) 1);
  (*787*) AddTo n_t4new (Plain (Einsum [(n_t1,[0;1]); (n_v'vvvv,[2;3;1;4]); (n_t3,[5;6;7;8;9;4])] [5;0;6;7;2;8;3;9]));
  (*788*) AddTo n_t4new (Times (Einsum [(n_t1,[0;1]); (n_v'vvvv,[2;3;1;4]); (n_t3,[5;6;7;8;9;4])] [5;0;6;7;2;8;9;3]) (-1) 1);
  (*789*) AddTo n_t4new (Times (Einsum [(n_t1,[0;1]); (n_v'vvvv,[2;3;1;4]); (n_t3,[5;6;7;8;9;4])] [5;0;6;7;8;2;3;9]) (-1) 1);
  (*790*) AddTo n_t4new (Plain (Einsum [(n_t1,[0;1]); (n_v'vvvv,[2;3;1;4]); (n_t3,[5;6;7;8;9;4])] [5;0;6;7;8;2;9;3]));
  (*791*) AddTo n_t4new (Times (Einsum [(n_t1,[0;1]); (n_v'vvvv,[2;3;1;4]); (n_t3,[5;6;7;8;9;4])] [5;0;6;7;8;9;2;3]) (-1) 1);
  (*792*) AddTo n_t4new (Plain (Einsum [(n_t1,[0;1]); (n_v'vvvv,[2;3;1;4]); (n_t3,[5;6;7;8;9;4])] [5;6;0;7;2;3;8;9]));
  (*793*) AddTo n_t4new (Times (Einsum [(n_t1,[0;1]); (n_v'vvvv,[2;3;1;4]); (n_t3,[5;6;7;8;9;4])] [5;6;0;7;2;8;3;9]) (-1) 1);
  (*794*) AddTo n_t4new (Plain (Einsum [(n_t1,[0;1]); (n_v'vvvv,[2;3;1;4]); (n_t3,[5;6;7;8;9;4])] [5;6;0;7;2;8;9;3]));
  (*795*) AddTo n_t4new (Plain (Einsum [(n_t1,[0;1]); (n_v'vvvv,[2;3;1;4]); (n_t3,[5;6;7;8;9;4])] [5;6;0;7;8;2;3;9]));
  (*796*) AddTo n_t4new (Times (Einsum [(n_t1,[0;1]); (n_v'vvvv,[2;3;1;4]); (n_t3,[5;6;7;8;9;4])] [5;6;0;7;8;2;9;3]) (-1) 1);
  (*797*) AddTo n_t4new (Plain (Einsum [(n_t1,[0;1]); (n_v'vvvv,[2;3;1;4]); (n_t3,[5;6;7;8;9;4])] [5;6;0;7;8;9;2;3]));
  (*798*) AddTo n_t4new (Times (Einsum [(n_t1,[0;1]); (n_v'vvvv,[2;3;1;4]); (n_t3,[5;6;7;8;9;4])] [5;6;7;0;2;3;8;9]) (-1) 1);
  (*799*) AddTo n_t4new (Plain (Einsum [(n_t1,[0;1]); (n_v'vvvv,[2;3;1;4]); (n_t3,[5;6;7;8;9;4])] [5;6;7;0;2;8;3;9]));
  (*800*) AddTo n_t4new (Times (Einsum [(n_t1,[0;1]); (n_v'vvvv,[2;3;1;4]); (n_t3,[5;6;7;8;9;4])] [5;6;7;0;2;8;9;3]) (-1) 1);
  (*801*) AddTo n_t4new (Times (Einsum [(n_t1,[0;1]); (n_v'vvvv,[2;3;1;4]); (n_t3,[5;6;7;8;9;4])] [5;6;7;0;8;2;3;9]) (-1) 1);
  (*802*) AddTo n_t4new (Plain (Einsum [(n_t1,[0;1]); (n_v'vvvv,[2;3;1;4]); (n_t3,[5;6;7;8;9;4])] [5;6;7;0;8;2;9;3]));
  (*803*) AddTo n_t4new (Times (Einsum [(n_t1,[0;1]); (n_v'vvvv,[2;3;1;4]); (n_t3,[5;6;7;8;9;4])] [5;6;7;0;8;9;2;3]) (-1) 1);
  (*804*) AddTo n_t4new (Times (Einsum [(n_t1,[0;1]); (n_v'ooov,[2;3;4;1]); (n_t4,[5;6;2;3;7;8;9;10])] [0;4;5;6;7;8;9;10]) (-1) 2);
  (*805*) AddTo n_t4new (Times (Einsum [(n_t1,[0;1]); (n_v'ooov,[2;3;4;1]); (n_t4,[5;6;2;3;7;8;9;10])] [0;5;4;6;7;8;9;10]) (1) 2);
  (*806*) AddTo n_t4new (Times (Einsum [(n_t1,[0;1]); (n_v'ooov,[2;3;4;1]); (n_t4,[5;6;2;3;7;8;9;10])] [0;5;6;4;7;8;9;10]) (-1) 2);
  (*807*) AddTo n_t4new (Times (Einsum [(n_t1,[0;1]); (n_v'ooov,[2;3;4;1]); (n_t4,[5;6;2;3;7;8;9;10])] [4;0;5;6;7;8;9;10]) (1) 2);
  (*808*) AddTo n_t4new (Times (Einsum [(n_t1,[0;1]); (n_v'ooov,[2;3;4;1]); (n_t4,[5;6;2;3;7;8;9;10])] [5;0;4;6;7;8;9;10]) (-1) 2);
  (*809*) AddTo n_t4new (Times (Einsum [(n_t1,[0;1]); (n_v'ooov,[2;3;4;1]); (n_t4,[5;6;2;3;7;8;9;10])] [5;0;6;4;7;8;9;10]) (1) 2);
  (*810*) AddTo n_t4new (Times (Einsum [(n_t1,[0;1]); (n_v'ooov,[2;3;4;1]); (n_t4,[5;6;2;3;7;8;9;10])] [4;5;0;6;7;8;9;10]) (-1) 2);
  (*811*) AddTo n_t4new (Times (Einsum [(n_t1,[0;1]); (n_v'ooov,[2;3;4;1]); (n_t4,[5;6;2;3;7;8;9;10])] [5;4;0;6;7;8;9;10]) (1) 2);
  (*812*) AddTo n_t4new (Times (Einsum [(n_t1,[0;1]); (n_v'ooov,[2;3;4;1]); (n_t4,[5;6;2;3;7;8;9;10])] [5;6;0;4;7;8;9;10]) (-1) 2);
  (*813*) AddTo n_t4new (Times (Einsum [(n_t1,[0;1]); (n_v'ooov,[2;3;4;1]); (n_t4,[5;6;2;3;7;8;9;10])] [4;5;6;0;7;8;9;10]) (1) 2);
  (*814*) AddTo n_t4new (Times (Einsum [(n_t1,[0;1]); (n_v'ooov,[2;3;4;1]); (n_t4,[5;6;2;3;7;8;9;10])] [5;4;6;0;7;8;9;10]) (-1) 2);
  (*815*) AddTo n_t4new (Times (Einsum [(n_t1,[0;1]); (n_v'ooov,[2;3;4;1]); (n_t4,[5;6;2;3;7;8;9;10])] [5;6;4;0;7;8;9;10]) (1) 2);
  (*816*) AddTo n_t4new (Times (Einsum [(n_t1,[0;1]); (n_v'ooov,[0;2;3;4]); (n_t4,[5;6;7;2;8;9;10;4])] [3;5;6;7;1;8;9;10]) (-1) 1);
  (*817*) AddTo n_t4new (Plain (Einsum [(n_t1,[0;1]); (n_v'ooov,[0;2;3;4]); (n_t4,[5;6;7;2;8;9;10;4])] [5;3;6;7;1;8;9;10]));
  (*818*) AddTo n_t4new (Times (Einsum [(n_t1,[0;1]); (n_v'ooov,[0;2;3;4]); (n_t4,[5;6;7;2;8;9;10;4])] [5;6;3;7;1;8;9;10]) (-1) 1);
  (*819*) AddTo n_t4new (Plain (Einsum [(n_t1,[0;1]); (n_v'ooov,[0;2;3;4]); (n_t4,[5;6;7;2;8;9;10;4])] [5;6;7;3;1;8;9;10]));
  (*820*) AddTo n_t4new (Plain (Einsum [(n_t1,[0;1]); (n_v'ooov,[0;2;3;4]); (n_t4,[5;6;7;2;8;9;10;4])] [3;5;6;7;8;1;9;10]));
  (*821*) AddTo n_t4new (Times (Einsum [(n_t1,[0;1]); (n_v'ooov,[0;2;3;4]); (n_t4,[5;6;7;2;8;9;10;4])] [5;3;6;7;8;1;9;10]) (-1) 1);
  (*822*) AddTo n_t4new (Plain (Einsum [(n_t1,[0;1]); (n_v'ooov,[0;2;3;4]); (n_t4,[5;6;7;2;8;9;10;4])] [5;6;3;7;8;1;9;10]));
  (*823*) AddTo n_t4new (Times (Einsum [(n_t1,[0;1]); (n_v'ooov,[0;2;3;4]); (n_t4,[5;6;7;2;8;9;10;4])] [5;6;7;3;8;1;9;10]) (-1) 1);
  (*824*) AddTo n_t4new (Times (Einsum [(n_t1,[0;1]); (n_v'ooov,[0;2;3;4]); (n_t4,[5;6;7;2;8;9;10;4])] [3;5;6;7;8;9;1;10]) (-1) 1);
  (*825*) AddTo n_t4new (Plain (Einsum [(n_t1,[0;1]); (n_v'ooov,[0;2;3;4]); (n_t4,[5;6;7;2;8;9;10;4])] [5;3;6;7;8;9;1;10]));
  (*826*) AddTo n_t4new (Times (Einsum [(n_t1,[0;1]); (n_v'ooov,[0;2;3;4]); (n_t4,[5;6;7;2;8;9;10;4])] [5;6;3;7;8;9;1;10]) (-1) 1);
  (*827*) AddTo n_t4new (Plain (Einsum [(n_t1,[0;1]); (n_v'ooov,[0;2;3;4]); (n_t4,[5;6;7;2;8;9;10;4])] [5;6;7;3;8;9;1;10]));
  (*828*) AddTo n_t4new (Plain (Einsum [(n_t1,[0;1]); (n_v'ooov,[0;2;3;4]); (n_t4,[5;6;7;2;8;9;10;4])] [3;5;6;7;8;9;10;1]));
  (*829*) AddTo n_t4new (Times (Einsum [(n_t1,[0;1]); (n_v'ooov,[0;2;3;4]); (n_t4,[5;6;7;2;8;9;10;4])] [5;3;6;7;8;9;10;1]) (-1) 1);
  (*830*) AddTo n_t4new (Plain (Einsum [(n_t1,[0;1]); (n_v'ooov,[0;2;3;4]); (n_t4,[5;6;7;2;8;9;10;4])] [5;6;3;7;8;9;10;1]));
  (*831*) AddTo n_t4new (Times (Einsum [(n_t1,[0;1]); (n_v'ooov,[0;2;3;4]); (n_t4,[5;6;7;2;8;9;10;4])] [5;6;7;3;8;9;10;1]) (-1) 1);
  (*832*) AddTo n_t4new (Times (Einsum [(n_t1,[0;1]); (n_v'ooov,[0;2;3;1]); (n_t4,[4;5;6;2;7;8;9;10])] [3;4;5;6;7;8;9;10]) (-1) 1);
  (*833*) AddTo n_t4new (Plain (Einsum [(n_t1,[0;1]); (n_v'ooov,[0;2;3;1]); (n_t4,[4;5;6;2;7;8;9;10])] [4;3;5;6;7;8;9;10]));
  (*834*) AddTo n_t4new (Times (Einsum [(n_t1,[0;1]); (n_v'ooov,[0;2;3;1]); (n_t4,[4;5;6;2;7;8;9;10])] [4;5;3;6;7;8;9;10]) (-1) 1);
  (*835*) AddTo n_t4new (Plain (Einsum [(n_t1,[0;1]); (n_v'ooov,[0;2;3;1]); (n_t4,[4;5;6;2;7;8;9;10])] [4;5;6;3;7;8;9;10]));
  (*836*) AddTo n_t4new (Times (Einsum [(n_t1,[0;1]); (n_v'ovvv,[2;3;1;4]); (n_t4,[5;6;7;2;8;9;10;4])] [0;5;6;7;3;8;9;10]) (-1) 1);
  (*837*) AddTo n_t4new (Plain (Einsum [(n_t1,[0;1]); (n_v'ovvv,[2;3;1;4]); (n_t4,[5;6;7;2;8;9;10;4])] [0;5;6;7;8;3;9;10]));
  (*838*) AddTo n_t4new (Times (Einsum [(n_t1,[0;1]); (n_v'ovvv,[2;3;1;4]); (n_t4,[5;6;7;2;8;9;10;4])] [0;5;6;7;8;9;3;10]) (-1) 1);
  (*839*) AddTo n_t4new (Plain (Einsum [(n_t1,[0;1]); (n_v'ovvv,[2;3;1;4]); (n_t4,[5;6;7;2;8;9;10;4])] [0;5;6;7;8;9;10;3]));
  (*840*) AddTo n_t4new (Plain (Einsum [(n_t1,[0;1]); (n_v'ovvv,[2;3;1;4]); (n_t4,[5;6;7;2;8;9;10;4])] [5;0;6;7;3;8;9;10]));
  (*841*) AddTo n_t4new (Times (Einsum [(n_t1,[0;1]); (n_v'ovvv,[2;3;1;4]); (n_t4,[5;6;7;2;8;9;10;4])] [5;0;6;7;8;3;9;10]) (-1) 1);
  (*842*) AddTo n_t4new (Plain (Einsum [(n_t1,[0;1]); (n_v'ovvv,[2;3;1;4]); (n_t4,[5;6;7;2;8;9;10;4])] [5;0;6;7;8;9;3;10]));
  (*843*) AddTo n_t4new (Times (Einsum [(n_t1,[0;1]); (n_v'ovvv,[2;3;1;4]); (n_t4,[5;6;7;2;8;9;10;4])] [5;0;6;7;8;9;10;3]) (-1) 1);
  (*844*) AddTo n_t4new (Times (Einsum [(n_t1,[0;1]); (n_v'ovvv,[2;3;1;4]); (n_t4,[5;6;7;2;8;9;10;4])] [5;6;0;7;3;8;9;10]) (-1) 1);
  (*845*) AddTo n_t4new (Plain (Einsum [(n_t1,[0;1]); (n_v'ovvv,[2;3;1;4]); (n_t4,[5;6;7;2;8;9;10;4])] [5;6;0;7;8;3;9;10]));
  (*846*) AddTo n_t4new (Times (Einsum [(n_t1,[0;1]); (n_v'ovvv,[2;3;1;4]); (n_t4,[5;6;7;2;8;9;10;4])] [5;6;0;7;8;9;3;10]) (-1) 1);
  (*847*) AddTo n_t4new (Plain (Einsum [(n_t1,[0;1]); (n_v'ovvv,[2;3;1;4]); (n_t4,[5;6;7;2;8;9;10;4])] [5;6;0;7;8;9;10;3]));
  (*848*) AddTo n_t4new (Plain (Einsum [(n_t1,[0;1]); (n_v'ovvv,[2;3;1;4]); (n_t4,[5;6;7;2;8;9;10;4])] [5;6;7;0;3;8;9;10]));
  (*849*) AddTo n_t4new (Times (Einsum [(n_t1,[0;1]); (n_v'ovvv,[2;3;1;4]); (n_t4,[5;6;7;2;8;9;10;4])] [5;6;7;0;8;3;9;10]) (-1) 1);
  (*850*) AddTo n_t4new (Plain (Einsum [(n_t1,[0;1]); (n_v'ovvv,[2;3;1;4]); (n_t4,[5;6;7;2;8;9;10;4])] [5;6;7;0;8;9;3;10]));
  (*851*) AddTo n_t4new (Times (Einsum [(n_t1,[0;1]); (n_v'ovvv,[2;3;1;4]); (n_t4,[5;6;7;2;8;9;10;4])] [5;6;7;0;8;9;10;3]) (-1) 1);
  (*852*) AddTo n_t4new (Times (Einsum [(n_t1,[0;1]); (n_v'ovvv,[0;2;3;4]); (n_t4,[5;6;7;8;9;10;3;4])] [5;6;7;8;1;2;9;10]) (-1) 2);
  (*853*) AddTo n_t4new (Times (Einsum [(n_t1,[0;1]); (n_v'ovvv,[0;2;3;4]); (n_t4,[5;6;7;8;9;10;3;4])] [5;6;7;8;1;9;2;10]) (1) 2);
  (*854*) AddTo n_t4new (Times (Einsum [(n_t1,[0;1]); (n_v'ovvv,[0;2;3;4]); (n_t4,[5;6;7;8;9;10;3;4])] [5;6;7;8;1;9;10;2]) (-1) 2);
  (*855*) AddTo n_t4new (Times (Einsum [(n_t1,[0;1]); (n_v'ovvv,[0;2;3;4]); (n_t4,[5;6;7;8;9;10;3;4])] [5;6;7;8;2;1;9;10]) (1) 2);
  (*856*) AddTo n_t4new (Times (Einsum [(n_t1,[0;1]); (n_v'ovvv,[0;2;3;4]); (n_t4,[5;6;7;8;9;10;3;4])] [5;6;7;8;9;1;2;10]) (-1) 2);
  (*857*) AddTo n_t4new (Times (Einsum [(n_t1,[0;1]); (n_v'ovvv,[0;2;3;4]); (n_t4,[5;6;7;8;9;10;3;4])] [5;6;7;8;9;1;10;2]) (1) 2);
  (*858*) AddTo n_t4new (Times (Einsum [(n_t1,[0;1]); (n_v'ovvv,[0;2;3;4]); (n_t4,[5;6;7;8;9;10;3;4])] [5;6;7;8;2;9;1;10]) (-1) 2);
  (*859*) AddTo n_t4new (Times (Einsum [(n_t1,[0;1]); (n_v'ovvv,[0;2;3;4]); (n_t4,[5;6;7;8;9;10;3;4])] [5;6;7;8;9;2;1;10]) (1) 2);
  (*860*) AddTo n_t4new (Times (Einsum [(n_t1,[0;1]); (n_v'ovvv,[0;2;3;4]); (n_t4,[5;6;7;8;9;10;3;4])] [5;6;7;8;9;10;1;2]) (-1) 2);
  (*861*) AddTo n_t4new (Times (Einsum [(n_t1,[0;1]); (n_v'ovvv,[0;2;3;4]); (n_t4,[5;6;7;8;9;10;3;4])] [5;6;7;8;2;9;10;1]) (1) 2);
  (*862*) AddTo n_t4new (Times (Einsum [(n_t1,[0;1]); (n_v'ovvv,[0;2;3;4]); (n_t4,[5;6;7;8;9;10;3;4])] [5;6;7;8;9;2;10;1]) (-1) 2);
  (*863*) AddTo n_t4new (Times (Einsum [(n_t1,[0;1]); (n_v'ovvv,[0;2;3;4]); (n_t4,[5;6;7;8;9;10;3;4])] [5;6;7;8;9;10;2;1]) (1) 2);
  (*864*) AddTo n_t4new (Times (Einsum [(n_t1,[0;1]); (n_v'ovvv,[0;2;1;3]); (n_t4,[4;5;6;7;8;9;10;3])] [4;5;6;7;2;8;9;10]) (-1) 1);
  (*865*) AddTo n_t4new (Plain (Einsum [(n_t1,[0;1]); (n_v'ovvv,[0;2;1;3]); (n_t4,[4;5;6;7;8;9;10;3])] [4;5;6;7;8;2;9;10]));
  (*866*) AddTo n_t4new (Times (Einsum [(n_t1,[0;1]); (n_v'ovvv,[0;2;1;3]); (n_t4,[4;5;6;7;8;9;10;3])] [4;5;6;7;8;9;2;10]) (-1) 1);
  (*867*) AddTo n_t4new (Plain (Einsum [(n_t1,[0;1]); (n_v'ovvv,[0;2;1;3]); (n_t4,[4;5;6;7;8;9;10;3])] [4;5;6;7;8;9;10;2]));
  (*868*) AddTo n_t4new (Plain (Einsum [(n_t2,[0;1;2;3]); (n_t2,[4;5;6;7]); (n_v'oooo,[8;9;1;5])] [0;4;8;9;2;6;3;7]));
  (*869*) AddTo n_t4new (Times (Einsum [(n_t2,[0;1;2;3]); (n_t2,[4;5;6;7]); (n_v'oooo,[8;9;1;5])] [0;4;8;9;2;6;7;3]) (-1) 1);
  (*870*) AddTo n_t4new (Times (Einsum [(n_t2,[0;1;2;3]); (n_t2,[4;5;6;7]); (n_v'oooo,[8;9;1;5])] [0;4;8;9;2;3;6;7]) (-1) 1);
  (*871*) AddTo n_t4new (Times (Einsum [(n_t2,[0;1;2;3]); (n_t2,[4;5;6;7]); (n_v'oooo,[8;9;1;5])] [0;4;8;9;6;2;3;7]) (-1) 1);
  (*872*) AddTo n_t4new (Plain (Einsum [(n_t2,[0;1;2;3]); (n_t2,[4;5;6;7]); (n_v'oooo,[8;9;1;5])] [0;4;8;9;6;2;7;3]));
  (*873*) AddTo n_t4new (Times (Einsum [(n_t2,[0;1;2;3]); (n_t2,[4;5;6;7]); (n_v'oooo,[8;9;1;5])] [0;4;8;9;6;7;2;3]) (-1) 1);
  (*874*) AddTo n_t4new (Times (Einsum [(n_t2,[0;1;2;3]); (n_t2,[4;5;6;7]); (n_v'oooo,[8;9;1;5])] [0;8;4;9;2;6;3;7]) (-1) 1);
  (*875*) AddTo n_t4new (Plain (Einsum [(n_t2,[0;1;2;3]); (n_t2,[4;5;6;7]); (n_v'oooo,[8;9;1;5])] [0;8;4;9;2;6;7;3]));
  (*876*) AddTo n_t4new (Plain (Einsum [(n_t2,[0;1;2;3]); (n_t2,[4;5;6;7]); (n_v'oooo,[8;9;1;5])] [0;8;4;9;2;3;6;7]));
  (*877*) AddTo n_t4new (Plain (Einsum [(n_t2,[0;1;2;3]); (n_t2,[4;5;6;7]); (n_v'oooo,[8;9;1;5])] [0;8;4;9;6;2;3;7]));
  (*878*) AddTo n_t4new (Times (Einsum [(n_t2,[0;1;2;3]); (n_t2,[4;5;6;7]); (n_v'oooo,[8;9;1;5])] [0;8;4;9;6;2;7;3]) (-1) 1);
  (*879*) AddTo n_t4new (Plain (Einsum [(n_t2,[0;1;2;3]); (n_t2,[4;5;6;7]); (n_v'oooo,[8;9;1;5])] [0;8;4;9;6;7;2;3]));
  (*880*) AddTo n_t4new (Plain (Einsum [(n_t2,[0;1;2;3]); (n_t2,[4;5;6;7]); (n_v'oooo,[8;9;1;5])] [0;8;9;4;2;6;3;7]));
  (*881*) AddTo n_t4new (Times (Einsum [(n_t2,[0;1;2;3]); (n_t2,[4;5;6;7]); (n_v'oooo,[8;9;1;5])] [0;8;9;4;2;6;7;3]) (-1) 1);
  (*882*) AddTo n_t4new (Times (Einsum [(n_t2,[0;1;2;3]); (n_t2,[4;5;6;7]); (n_v'oooo,[8;9;1;5])] [0;8;9;4;2;3;6;7]) (-1) 1);
  (*883*) AddTo n_t4new (Times (Einsum [(n_t2,[0;1;2;3]); (n_t2,[4;5;6;7]); (n_v'oooo,[8;9;1;5])] [0;8;9;4;6;2;3;7]) (-1) 1);
  (*884*) AddTo n_t4new (Plain (Einsum [(n_t2,[0;1;2;3]); (n_t2,[4;5;6;7]); (n_v'oooo,[8;9;1;5])] [0;8;9;4;6;2;7;3]));
  (*885*) AddTo n_t4new (Times (Einsum [(n_t2,[0;1;2;3]); (n_t2,[4;5;6;7]); (n_v'oooo,[8;9;1;5])] [0;8;9;4;6;7;2;3]) (-1) 1);
  (*886*) AddTo n_t4new (Plain (Einsum [(n_t2,[0;1;2;3]); (n_t2,[4;5;6;7]); (n_v'oooo,[8;9;1;5])] [8;0;4;9;2;6;3;7]));
  (*887*) AddTo n_t4new (Times (Einsum [(n_t2,[0;1;2;3]); (n_t2,[4;5;6;7]); (n_v'oooo,[8;9;1;5])] [8;0;4;9;2;6;7;3]) (-1) 1);
  (*888*) AddTo n_t4new (Times (Einsum [(n_t2,[0;1;2;3]); (n_t2,[4;5;6;7]); (n_v'oooo,[8;9;1;5])] [8;0;4;9;2;3;6;7]) (-1) 1);
  (*889*) AddTo n_t4new (Times (Einsum [(n_t2,[0;1;2;3]); (n_t2,[4;5;6;7]); (n_v'oooo,[8;9;1;5])] [8;0;4;9;6;2;3;7]) (-1) 1);
  (*890*) AddTo n_t4new (Plain (Einsum [(n_t2,[0;1;2;3]); (n_t2,[4;5;6;7]); (n_v'oooo,[8;9;1;5])] [8;0;4;9;6;2;7;3]));
  (*891*) AddTo n_t4new (Times (Einsum [(n_t2,[0;1;2;3]); (n_t2,[4;5;6;7]); (n_v'oooo,[8;9;1;5])] [8;0;4;9;6;7;2;3]) (-1) 1);
  (*892*) AddTo n_t4new (Times (Einsum [(n_t2,[0;1;2;3]); (n_t2,[4;5;6;7]); (n_v'oooo,[8;9;1;5])] [8;0;9;4;2;6;3;7]) (-1) 1);
  (*893*) AddTo n_t4new (Plain (Einsum [(n_t2,[0;1;2;3]); (n_t2,[4;5;6;7]); (n_v'oooo,[8;9;1;5])] [8;0;9;4;2;6;7;3]));
  (*894*) AddTo n_t4new (Plain (Einsum [(n_t2,[0;1;2;3]); (n_t2,[4;5;6;7]); (n_v'oooo,[8;9;1;5])] [8;0;9;4;2;3;6;7]));
  (*895*) AddTo n_t4new (Plain (Einsum [(n_t2,[0;1;2;3]); (n_t2,[4;5;6;7]); (n_v'oooo,[8;9;1;5])] [8;0;9;4;6;2;3;7]));
  (*896*) AddTo n_t4new (Times (Einsum [(n_t2,[0;1;2;3]); (n_t2,[4;5;6;7]); (n_v'oooo,[8;9;1;5])] [8;0;9;4;6;2;7;3]) (-1) 1);
  (*897*) AddTo n_t4new (Plain (Einsum [(n_t2,[0;1;2;3]); (n_t2,[4;5;6;7]); (n_v'oooo,[8;9;1;5])] [8;0;9;4;6;7;2;3]));
  (*898*) AddTo n_t4new (Plain (Einsum [(n_t2,[0;1;2;3]); (n_t2,[4;5;6;7]); (n_v'oooo,[8;9;1;5])] [8;9;0;4;2;6;3;7]));
  (*899*) AddTo n_t4new (Times (Einsum [(n_t2,[0;1;2;3]); (n_t2,[4;5;6;7]); (n_v'oooo,[8;9;1;5])] [8;9;0;4;2;6;7;3]) (-1) 1);
  (*900*) AddTo n_t4new (Times (Einsum [(n_t2,[0;1;2;3]); (n_t2,[4;5;6;7]); (n_v'oooo,[8;9;1;5])] [8;9;0;4;2;3;6;7]) (-1) 1);
  (*901*) AddTo n_t4new (Times (Einsum [(n_t2,[0;1;2;3]); (n_t2,[4;5;6;7]); (n_v'oooo,[8;9;1;5])] [8;9;0;4;6;2;3;7]) (-1) 1);
  (*902*) AddTo n_t4new (Plain (Einsum [(n_t2,[0;1;2;3]); (n_t2,[4;5;6;7]); (n_v'oooo,[8;9;1;5])] [8;9;0;4;6;2;7;3]));
  (*903*) AddTo n_t4new (Times (Einsum [(n_t2,[0;1;2;3]); (n_t2,[4;5;6;7]); (n_v'oooo,[8;9;1;5])] [8;9;0;4;6;7;2;3]) (-1) 1);
  (*904*) AddTo n_t4new (Times (Einsum [(n_t2,[0;1;2;3]); (n_t2,[4;5;6;7]); (n_v'ovov,[8;3;5;9])] [0;4;8;1;2;6;7;9]) (-1) 1);
  (*905*) AddTo n_t4new (Plain (Einsum [(n_t2,[0;1;2;3]); (n_t2,[4;5;6;7]); (n_v'ovov,[8;3;5;9])] [0;4;8;1;2;6;9;7]));
  (*906*) AddTo n_t4new (Times (Einsum [(n_t2,[0;1;2;3]); (n_t2,[4;5;6;7]); (n_v'ovov,[8;3;5;9])] [0;4;8;1;2;9;6;7]) (-1) 1);
  (*907*) AddTo n_t4new (Plain (Einsum [(n_t2,[0;1;2;3]); (n_t2,[4;5;6;7]); (n_v'ovov,[8;3;5;9])] [0;4;8;1;6;2;7;9]));
  (*908*) AddTo n_t4new (Times (Einsum [(n_t2,[0;1;2;3]); (n_t2,[4;5;6;7]); (n_v'ovov,[8;3;5;9])] [0;4;8;1;6;2;9;7]) (-1) 1);
  (*909*) AddTo n_t4new (Plain (Einsum [(n_t2,[0;1;2;3]); (n_t2,[4;5;6;7]); (n_v'ovov,[8;3;5;9])] [0;4;8;1;9;2;6;7]));
  (*910*) AddTo n_t4new (Times (Einsum [(n_t2,[0;1;2;3]); (n_t2,[4;5;6;7]); (n_v'ovov,[8;3;5;9])] [0;4;8;1;6;7;2;9]) (-1) 1);
  (*911*) AddTo n_t4new (Plain (Einsum [(n_t2,[0;1;2;3]); (n_t2,[4;5;6;7]); (n_v'ovov,[8;3;5;9])] [0;4;8;1;6;9;2;7]));
  (*912*) AddTo n_t4new (Times (Einsum [(n_t2,[0;1;2;3]); (n_t2,[4;5;6;7]); (n_v'ovov,[8;3;5;9])] [0;4;8;1;9;6;2;7]) (-1) 1);
  (*913*) AddTo n_t4new (Plain (Einsum [(n_t2,[0;1;2;3]); (n_t2,[4;5;6;7]); (n_v'ovov,[8;3;5;9])] [0;4;8;1;6;7;9;2]));
  (*914*) AddTo n_t4new (Times (Einsum [(n_t2,[0;1;2;3]); (n_t2,[4;5;6;7]); (n_v'ovov,[8;3;5;9])] [0;4;8;1;6;9;7;2]) (-1) 1);
  (*915*) AddTo n_t4new (Plain (Einsum [(n_t2,[0;1;2;3]); (n_t2,[4;5;6;7]); (n_v'ovov,[8;3;5;9])] [0;4;8;1;9;6;7;2]));
  (*916*) AddTo n_t4new (Times (Einsum [(n_t2,[0;1;2;3]); (n_t2,[4;5;6;7]); (n_v'ovov,[8;7;1;9])] [0;4;8;5;2;6;3;9]) (-1) 1);
  (*917*) AddTo n_t4new (Plain (Einsum [(n_t2,[0;1;2;3]); (n_t2,[4;5;6;7]); (n_v'ovov,[8;7;1;9])] [0;4;8;5;2;6;9;3]));
  (*918*) AddTo n_t4new (Plain (Einsum [(n_t2,[0;1;2;3]); (n_t2,[4;5;6;7]); (n_v'ovov,[8;7;1;9])] [0;4;8;5;2;3;6;9]));
  (*919*) AddTo n_t4new (Times (Einsum [(n_t2,[0;1;2;3]); (n_t2,[4;5;6;7]); (n_v'ovov,[8;7;1;9])] [0;4;8;5;2;9;6;3]) (-1) 1);
  (*920*) AddTo n_t4new (Times (Einsum [(n_t2,[0;1;2;3]); (n_t2,[4;5;6;7]); (n_v'ovov,[8;7;1;9])] [0;4;8;5;2;3;9;6]) (-1) 1);
  (*921*) AddTo n_t4new (Plain (Einsum [(n_t2,[0;1;2;3]); (n_t2,[4;5;6;7]); (n_v'ovov,[8;7;1;9])] [0;4;8;5;2;9;3;6]));
  (*922*) AddTo n_t4new (Plain (Einsum [(n_t2,[0;1;2;3]); (n_t2,[4;5;6;7]); (n_v'ovov,[8;7;1;9])] [0;4;8;5;6;2;3;9]));
  (*923*) AddTo n_t4new (Times (Einsum [(n_t2,[0;1;2;3]); (n_t2,[4;5;6;7]); (n_v'ovov,[8;7;1;9])] [0;4;8;5;6;2;9;3]) (-1) 1);
  (*924*) AddTo n_t4new (Plain (Einsum [(n_t2,[0;1;2;3]); (n_t2,[4;5;6;7]); (n_v'ovov,[8;7;1;9])] [0;4;8;5;9;2;6;3]));
  (*925*) AddTo n_t4new (Times (Einsum [(n_t2,[0;1;2;3]); (n_t2,[4;5;6;7]); (n_v'ovov,[8;7;1;9])] [0;4;8;5;9;2;3;6]) (-1) 1);
  (*926*) AddTo n_t4new (Plain (Einsum [(n_t2,[0;1;2;3]); (n_t2,[4;5;6;7]); (n_v'ovov,[8;7;1;9])] [0;4;8;5;6;9;2;3]));
  (*927*) AddTo n_t4new (Times (Einsum [(n_t2,[0;1;2;3]); (n_t2,[4;5;6;7]); (n_v'ovov,[8;7;1;9])] [0;4;8;5;9;6;2;3]) (-1) 1);
  (*928*) AddTo n_t4new (Plain (Einsum [(n_t2,[0;1;2;3]); (n_t2,[4;5;6;7]); (n_v'ovov,[8;3;5;9])] [0;4;1;8;2;6;7;9]));
  (*929*) AddTo n_t4new (Times (Einsum [(n_t2,[0;1;2;3]); (n_t2,[4;5;6;7]); (n_v'ovov,[8;3;5;9])] [0;4;1;8;2;6;9;7]) (-1) 1);
  (*930*) AddTo n_t4new (Plain (Einsum [(n_t2,[0;1;2;3]); (n_t2,[4;5;6;7]); (n_v'ovov,[8;3;5;9])] [0;4;1;8;2;9;6;7]));
  (*931*) AddTo n_t4new (Times (Einsum [(n_t2,[0;1;2;3]); (n_t2,[4;5;6;7]); (n_v'ovov,[8;3;5;9])] [0;4;1;8;6;2;7;9]) (-1) 1);
  (*932*) AddTo n_t4new (Plain (Einsum [(n_t2,[0;1;2;3]); (n_t2,[4;5;6;7]); (n_v'ovov,[8;3;5;9])] [0;4;1;8;6;2;9;7]));
  (*933*) AddTo n_t4new (Times (Einsum [(n_t2,[0;1;2;3]); (n_t2,[4;5;6;7]); (n_v'ovov,[8;3;5;9])] [0;4;1;8;9;2;6;7]) (-1) 1);
  (*934*) AddTo n_t4new (Plain (Einsum [(n_t2,[0;1;2;3]); (n_t2,[4;5;6;7]); (n_v'ovov,[8;3;5;9])] [0;4;1;8;6;7;2;9]));
  (*935*) AddTo n_t4new (Times (Einsum [(n_t2,[0;1;2;3]); (n_t2,[4;5;6;7]); (n_v'ovov,[8;3;5;9])] [0;4;1;8;6;9;2;7]) (-1) 1);
  (*936*) AddTo n_t4new (Plain (Einsum [(n_t2,[0;1;2;3]); (n_t2,[4;5;6;7]); (n_v'ovov,[8;3;5;9])] [0;4;1;8;9;6;2;7]));
  (*937*) AddTo n_t4new (Times (Einsum [(n_t2,[0;1;2;3]); (n_t2,[4;5;6;7]); (n_v'ovov,[8;3;5;9])] [0;4;1;8;6;7;9;2]) (-1) 1);
  (*938*) AddTo n_t4new (Plain (Einsum [(n_t2,[0;1;2;3]); (n_t2,[4;5;6;7]); (n_v'ovov,[8;3;5;9])] [0;4;1;8;6;9;7;2]));
  (*939*) AddTo n_t4new (Times (Einsum [(n_t2,[0;1;2;3]); (n_t2,[4;5;6;7]); (n_v'ovov,[8;3;5;9])] [0;4;1;8;9;6;7;2]) (-1) 1);
  (*940*) AddTo n_t4new (Plain (Einsum [(n_t2,[0;1;2;3]); (n_t2,[4;5;6;7]); (n_v'ovov,[8;7;1;9])] [0;4;5;8;2;6;3;9]));
  (*941*) AddTo n_t4new (Times (Einsum [(n_t2,[0;1;2;3]); (n_t2,[4;5;6;7]); (n_v'ovov,[8;7;1;9])] [0;4;5;8;2;6;9;3]) (-1) 1);
  (*942*) AddTo n_t4new (Times (Einsum [(n_t2,[0;1;2;3]); (n_t2,[4;5;6;7]); (n_v'ovov,[8;7;1;9])] [0;4;5;8;2;3;6;9]) (-1) 1);
  (*943*) AddTo n_t4new (Plain (Einsum [(n_t2,[0;1;2;3]); (n_t2,[4;5;6;7]); (n_v'ovov,[8;7;1;9])] [0;4;5;8;2;9;6;3]));
  (*944*) AddTo n_t4new (Plain (Einsum [(n_t2,[0;1;2;3]); (n_t2,[4;5;6;7]); (n_v'ovov,[8;7;1;9])] [0;4;5;8;2;3;9;6]));
  (*945*) AddTo n_t4new (Times (Einsum [(n_t2,[0;1;2;3]); (n_t2,[4;5;6;7]); (n_v'ovov,[8;7;1;9])] [0;4;5;8;2;9;3;6]) (-1) 1);
  (*946*) AddTo n_t4new (Times (Einsum [(n_t2,[0;1;2;3]); (n_t2,[4;5;6;7]); (n_v'ovov,[8;7;1;9])] [0;4;5;8;6;2;3;9]) (-1) 1);
  (*947*) AddTo n_t4new (Plain (Einsum [(n_t2,[0;1;2;3]); (n_t2,[4;5;6;7]); (n_v'ovov,[8;7;1;9])] [0;4;5;8;6;2;9;3]));
  (*948*) AddTo n_t4new (Times (Einsum [(n_t2,[0;1;2;3]); (n_t2,[4;5;6;7]); (n_v'ovov,[8;7;1;9])] [0;4;5;8;9;2;6;3]) (-1) 1);
  (*949*) AddTo n_t4new (Plain (Einsum [(n_t2,[0;1;2;3]); (n_t2,[4;5;6;7]); (n_v'ovov,[8;7;1;9])] [0;4;5;8;9;2;3;6]));
  (*950*) AddTo n_t4new (Times (Einsum [(n_t2,[0;1;2;3]); (n_t2,[4;5;6;7]); (n_v'ovov,[8;7;1;9])] [0;4;5;8;6;9;2;3]) (-1) 1);
  (*951*) AddTo n_t4new (Plain (Einsum [(n_t2,[0;1;2;3]); (n_t2,[4;5;6;7]); (n_v'ovov,[8;7;1;9])] [0;4;5;8;9;6;2;3]));
  (*952*) AddTo n_t4new (Plain (Einsum [(n_t2,[0;1;2;3]); (n_t2,[4;5;6;7]); (n_v'ovov,[8;3;5;9])] [0;8;4;1;2;6;7;9]));
  (*953*) AddTo n_t4new (Times (Einsum [(n_t2,[0;1;2;3]); (n_t2,[4;5;6;7]); (n_v'ovov,[8;3;5;9])] [0;8;4;1;2;6;9;7]) (-1) 1);
  (*954*) AddTo n_t4new (Plain (Einsum [(n_t2,[0;1;2;3]); (n_t2,[4;5;6;7]); (n_v'ovov,[8;3;5;9])] [0;8;4;1;2;9;6;7]));
  (*955*) AddTo n_t4new (Times (Einsum [(n_t2,[0;1;2;3]); (n_t2,[4;5;6;7]); (n_v'ovov,[8;3;5;9])] [0;8;4;1;6;2;7;9]) (-1) 1);
  (*956*) AddTo n_t4new (Plain (Einsum [(n_t2,[0;1;2;3]); (n_t2,[4;5;6;7]); (n_v'ovov,[8;3;5;9])] [0;8;4;1;6;2;9;7]));
  (*957*) AddTo n_t4new (Times (Einsum [(n_t2,[0;1;2;3]); (n_t2,[4;5;6;7]); (n_v'ovov,[8;3;5;9])] [0;8;4;1;9;2;6;7]) (-1) 1);
  (*958*) AddTo n_t4new (Plain (Einsum [(n_t2,[0;1;2;3]); (n_t2,[4;5;6;7]); (n_v'ovov,[8;3;5;9])] [0;8;4;1;6;7;2;9]));
  (*959*) AddTo n_t4new (Times (Einsum [(n_t2,[0;1;2;3]); (n_t2,[4;5;6;7]); (n_v'ovov,[8;3;5;9])] [0;8;4;1;6;9;2;7]) (-1) 1);
  (*960*) AddTo n_t4new (Plain (Einsum [(n_t2,[0;1;2;3]); (n_t2,[4;5;6;7]); (n_v'ovov,[8;3;5;9])] [0;8;4;1;9;6;2;7]));
  (*961*) AddTo n_t4new (Times (Einsum [(n_t2,[0;1;2;3]); (n_t2,[4;5;6;7]); (n_v'ovov,[8;3;5;9])] [0;8;4;1;6;7;9;2]) (-1) 1);
  (*962*) AddTo n_t4new (Plain (Einsum [(n_t2,[0;1;2;3]); (n_t2,[4;5;6;7]); (n_v'ovov,[8;3;5;9])] [0;8;4;1;6;9;7;2]));
  (*963*) AddTo n_t4new (Times (Einsum [(n_t2,[0;1;2;3]); (n_t2,[4;5;6;7]); (n_v'ovov,[8;3;5;9])] [0;8;4;1;9;6;7;2]) (-1) 1);
  (*964*) AddTo n_t4new (Plain (Einsum [(n_t2,[0;1;2;3]); (n_t2,[4;5;6;7]); (n_v'ovov,[8;7;1;9])] [0;8;4;5;2;6;3;9]));
  (*965*) AddTo n_t4new (Times (Einsum [(n_t2,[0;1;2;3]); (n_t2,[4;5;6;7]); (n_v'ovov,[8;7;1;9])] [0;8;4;5;2;6;9;3]) (-1) 1);
  (*966*) AddTo n_t4new (Times (Einsum [(n_t2,[0;1;2;3]); (n_t2,[4;5;6;7]); (n_v'ovov,[8;7;1;9])] [0;8;4;5;2;3;6;9]) (-1) 1);
  (*967*) AddTo n_t4new (Plain (Einsum [(n_t2,[0;1;2;3]); (n_t2,[4;5;6;7]); (n_v'ovov,[8;7;1;9])] [0;8;4;5;2;9;6;3]));
  (*968*) AddTo n_t4new (Plain (Einsum [(n_t2,[0;1;2;3]); (n_t2,[4;5;6;7]); (n_v'ovov,[8;7;1;9])] [0;8;4;5;2;3;9;6]));
  (*969*) AddTo n_t4new (Times (Einsum [(n_t2,[0;1;2;3]); (n_t2,[4;5;6;7]); (n_v'ovov,[8;7;1;9])] [0;8;4;5;2;9;3;6]) (-1) 1);
  (*970*) AddTo n_t4new (Times (Einsum [(n_t2,[0;1;2;3]); (n_t2,[4;5;6;7]); (n_v'ovov,[8;7;1;9])] [0;8;4;5;6;2;3;9]) (-1) 1);
  (*971*) AddTo n_t4new (Plain (Einsum [(n_t2,[0;1;2;3]); (n_t2,[4;5;6;7]); (n_v'ovov,[8;7;1;9])] [0;8;4;5;6;2;9;3]));
  (*972*) AddTo n_t4new (Times (Einsum [(n_t2,[0;1;2;3]); (n_t2,[4;5;6;7]); (n_v'ovov,[8;7;1;9])] [0;8;4;5;9;2;6;3]) (-1) 1);
  (*973*) AddTo n_t4new (Plain (Einsum [(n_t2,[0;1;2;3]); (n_t2,[4;5;6;7]); (n_v'ovov,[8;7;1;9])] [0;8;4;5;9;2;3;6]));
  (*974*) AddTo n_t4new (Times (Einsum [(n_t2,[0;1;2;3]); (n_t2,[4;5;6;7]); (n_v'ovov,[8;7;1;9])] [0;8;4;5;6;9;2;3]) (-1) 1);
  (*975*) AddTo n_t4new (Plain (Einsum [(n_t2,[0;1;2;3]); (n_t2,[4;5;6;7]); (n_v'ovov,[8;7;1;9])] [0;8;4;5;9;6;2;3]));
  (*976*) AddTo n_t4new (Times (Einsum [(n_t2,[0;1;2;3]); (n_t2,[4;5;6;7]); (n_v'ovov,[8;3;5;9])] [0;1;4;8;2;6;7;9]) (-1) 1);
  (*977*) AddTo n_t4new (Plain (Einsum [(n_t2,[0;1;2;3]); (n_t2,[4;5;6;7]); (n_v'ovov,[8;3;5;9])] [0;1;4;8;2;6;9;7]));
  (*978*) AddTo n_t4new (Times (Einsum [(n_t2,[0;1;2;3]); (n_t2,[4;5;6;7]); (n_v'ovov,[8;3;5;9])] [0;1;4;8;2;9;6;7]) (-1) 1);
  (*979*) AddTo n_t4new (Plain (Einsum [(n_t2,[0;1;2;3]); (n_t2,[4;5;6;7]); (n_v'ovov,[8;3;5;9])] [0;1;4;8;6;2;7;9]));
  (*980*) AddTo n_t4new (Times (Einsum [(n_t2,[0;1;2;3]); (n_t2,[4;5;6;7]); (n_v'ovov,[8;3;5;9])] [0;1;4;8;6;2;9;7]) (-1) 1);
  (*981*) AddTo n_t4new (Plain (Einsum [(n_t2,[0;1;2;3]); (n_t2,[4;5;6;7]); (n_v'ovov,[8;3;5;9])] [0;1;4;8;9;2;6;7]));
  (*982*) AddTo n_t4new (Times (Einsum [(n_t2,[0;1;2;3]); (n_t2,[4;5;6;7]); (n_v'ovov,[8;3;5;9])] [0;1;4;8;6;7;2;9]) (-1) 1);
  (*983*) AddTo n_t4new (Plain (Einsum [(n_t2,[0;1;2;3]); (n_t2,[4;5;6;7]); (n_v'ovov,[8;3;5;9])] [0;1;4;8;6;9;2;7]));
  (*984*) AddTo n_t4new (Times (Einsum [(n_t2,[0;1;2;3]); (n_t2,[4;5;6;7]); (n_v'ovov,[8;3;5;9])] [0;1;4;8;9;6;2;7]) (-1) 1);
  (*985*) AddTo n_t4new (Plain (Einsum [(n_t2,[0;1;2;3]); (n_t2,[4;5;6;7]); (n_v'ovov,[8;3;5;9])] [0;1;4;8;6;7;9;2]));
  (*986*) AddTo n_t4new (Times (Einsum [(n_t2,[0;1;2;3]); (n_t2,[4;5;6;7]); (n_v'ovov,[8;3;5;9])] [0;1;4;8;6;9;7;2]) (-1) 1);
  (*987*) AddTo n_t4new (Plain (Einsum [(n_t2,[0;1;2;3]); (n_t2,[4;5;6;7]); (n_v'ovov,[8;3;5;9])] [0;1;4;8;9;6;7;2]));
  (*988*) AddTo n_t4new (Times (Einsum [(n_t2,[0;1;2;3]); (n_t2,[4;5;6;7]); (n_v'ovov,[8;3;5;9])] [0;8;1;4;2;6;7;9]) (-1) 1);
  (*989*) AddTo n_t4new (Plain (Einsum [(n_t2,[0;1;2;3]); (n_t2,[4;5;6;7]); (n_v'ovov,[8;3;5;9])] [0;8;1;4;2;6;9;7]));
  (*990*) AddTo n_t4new (Times (Einsum [(n_t2,[0;1;2;3]); (n_t2,[4;5;6;7]); (n_v'ovov,[8;3;5;9])] [0;8;1;4;2;9;6;7]) (-1) 1);
  (*991*) AddTo n_t4new (Plain (Einsum [(n_t2,[0;1;2;3]); (n_t2,[4;5;6;7]); (n_v'ovov,[8;3;5;9])] [0;8;1;4;6;2;7;9]));
  (*992*) AddTo n_t4new (Times (Einsum [(n_t2,[0;1;2;3]); (n_t2,[4;5;6;7]); (n_v'ovov,[8;3;5;9])] [0;8;1;4;6;2;9;7]) (-1) 1);
  (*993*) AddTo n_t4new (Plain (Einsum [(n_t2,[0;1;2;3]); (n_t2,[4;5;6;7]); (n_v'ovov,[8;3;5;9])] [0;8;1;4;9;2;6;7]));
  (*994*) AddTo n_t4new (Times (Einsum [(n_t2,[0;1;2;3]); (n_t2,[4;5;6;7]); (n_v'ovov,[8;3;5;9])] [0;8;1;4;6;7;2;9]) (-1) 1);
  (*995*) AddTo n_t4new (Plain (Einsum [(n_t2,[0;1;2;3]); (n_t2,[4;5;6;7]); (n_v'ovov,[8;3;5;9])] [0;8;1;4;6;9;2;7]));
  (*996*) AddTo n_t4new (Times (Einsum [(n_t2,[0;1;2;3]); (n_t2,[4;5;6;7]); (n_v'ovov,[8;3;5;9])] [0;8;1;4;9;6;2;7]) (-1) 1);
  (*997*) AddTo n_t4new (Plain (Einsum [(n_t2,[0;1;2;3]); (n_t2,[4;5;6;7]); (n_v'ovov,[8;3;5;9])] [0;8;1;4;6;7;9;2]));
  (*998*) AddTo n_t4new (Times (Einsum [(n_t2,[0;1;2;3]); (n_t2,[4;5;6;7]); (n_v'ovov,[8;3;5;9])] [0;8;1;4;6;9;7;2]) (-1) 1);
  (*999*) AddTo n_t4new (Plain (Einsum [(n_t2,[0;1;2;3]); (n_t2,[4;5;6;7]); (n_v'ovov,[8;3;5;9])] [0;8;1;4;9;6;7;2]));
  (*1000*) AddTo n_t4new (Plain (Einsum [(n_t2,[0;1;2;3]); (n_t2,[4;5;6;7]); (n_v'ovov,[8;3;5;9])] [0;1;8;4;2;6;7;9]));
  (*1001*) AddTo n_t4new (Times (Einsum [(n_t2,[0;1;2;3]); (n_t2,[4;5;6;7]); (n_v'ovov,[8;3;5;9])] [0;1;8;4;2;6;9;7]) (-1) 1);
  (*1002*) AddTo n_t4new (Plain (Einsum [(n_t2,[0;1;2;3]); (n_t2,[4;5;6;7]); (n_v'ovov,[8;3;5;9])] [0;1;8;4;2;9;6;7]));
  (*1003*) AddTo n_t4new (Times (Einsum [(n_t2,[0;1;2;3]); (n_t2,[4;5;6;7]); (n_v'ovov,[8;3;5;9])] [0;1;8;4;6;2;7;9]) (-1) 1);
  (*1004*) AddTo n_t4new (Plain (Einsum [(n_t2,[0;1;2;3]); (n_t2,[4;5;6;7]); (n_v'ovov,[8;3;5;9])] [0;1;8;4;6;2;9;7]));
  (*1005*) AddTo n_t4new (Times (Einsum [(n_t2,[0;1;2;3]); (n_t2,[4;5;6;7]); (n_v'ovov,[8;3;5;9])] [0;1;8;4;9;2;6;7]) (-1) 1);
  (*1006*) AddTo n_t4new (Plain (Einsum [(n_t2,[0;1;2;3]); (n_t2,[4;5;6;7]); (n_v'ovov,[8;3;5;9])] [0;1;8;4;6;7;2;9]));
  (*1007*) AddTo n_t4new (Times (Einsum [(n_t2,[0;1;2;3]); (n_t2,[4;5;6;7]); (n_v'ovov,[8;3;5;9])] [0;1;8;4;6;9;2;7]) (-1) 1);
  (*1008*) AddTo n_t4new (Plain (Einsum [(n_t2,[0;1;2;3]); (n_t2,[4;5;6;7]); (n_v'ovov,[8;3;5;9])] [0;1;8;4;9;6;2;7]));
  (*1009*) AddTo n_t4new (Times (Einsum [(n_t2,[0;1;2;3]); (n_t2,[4;5;6;7]); (n_v'ovov,[8;3;5;9])] [0;1;8;4;6;7;9;2]) (-1) 1);
  (*1010*) AddTo n_t4new (Plain (Einsum [(n_t2,[0;1;2;3]); (n_t2,[4;5;6;7]); (n_v'ovov,[8;3;5;9])] [0;1;8;4;6;9;7;2]));
  (*1011*) AddTo n_t4new (Times (Einsum [(n_t2,[0;1;2;3]); (n_t2,[4;5;6;7]); (n_v'ovov,[8;3;5;9])] [0;1;8;4;9;6;7;2]) (-1) 1);
  (*1012*) AddTo n_t4new (Times (Einsum [(n_t2,[0;1;2;3]); (n_t2,[4;5;6;7]); (n_v'ovov,[8;3;5;9])] [8;0;4;1;2;6;7;9]) (-1) 1);
  (*1013*) AddTo n_t4new (Plain (Einsum [(n_t2,[0;1;2;3]); (n_t2,[4;5;6;7]); (n_v'ovov,[8;3;5;9])] [8;0;4;1;2;6;9;7]));
  (*1014*) AddTo n_t4new (Times (Einsum [(n_t2,[0;1;2;3]); (n_t2,[4;5;6;7]); (n_v'ovov,[8;3;5;9])] [8;0;4;1;2;9;6;7]) (-1) 1);
  (*1015*) AddTo n_t4new (Plain (Einsum [(n_t2,[0;1;2;3]); (n_t2,[4;5;6;7]); (n_v'ovov,[8;3;5;9])] [8;0;4;1;6;2;7;9]));
  (*1016*) AddTo n_t4new (Times (Einsum [(n_t2,[0;1;2;3]); (n_t2,[4;5;6;7]); (n_v'ovov,[8;3;5;9])] [8;0;4;1;6;2;9;7]) (-1) 1);
  (*1017*) AddTo n_t4new (Plain (Einsum [(n_t2,[0;1;2;3]); (n_t2,[4;5;6;7]); (n_v'ovov,[8;3;5;9])] [8;0;4;1;9;2;6;7]));
  (*1018*) AddTo n_t4new (Times (Einsum [(n_t2,[0;1;2;3]); (n_t2,[4;5;6;7]); (n_v'ovov,[8;3;5;9])] [8;0;4;1;6;7;2;9]) (-1) 1);
  (*1019*) AddTo n_t4new (Plain (Einsum [(n_t2,[0;1;2;3]); (n_t2,[4;5;6;7]); (n_v'ovov,[8;3;5;9])] [8;0;4;1;6;9;2;7]));
  (*1020*) AddTo n_t4new (Times (Einsum [(n_t2,[0;1;2;3]); (n_t2,[4;5;6;7]); (n_v'ovov,[8;3;5;9])] [8;0;4;1;9;6;2;7]) (-1) 1);
  (*1021*) AddTo n_t4new (Plain (Einsum [(n_t2,[0;1;2;3]); (n_t2,[4;5;6;7]); (n_v'ovov,[8;3;5;9])] [8;0;4;1;6;7;9;2]));
  (*1022*) AddTo n_t4new (Times (Einsum [(n_t2,[0;1;2;3]); (n_t2,[4;5;6;7]); (n_v'ovov,[8;3;5;9])] [8;0;4;1;6;9;7;2]) (-1) 1);
  (*1023*) AddTo n_t4new (Plain (Einsum [(n_t2,[0;1;2;3]); (n_t2,[4;5;6;7]); (n_v'ovov,[8;3;5;9])] [8;0;4;1;9;6;7;2]));
  (*1024*) AddTo n_t4new (Times (Einsum [(n_t2,[0;1;2;3]); (n_t2,[4;5;6;7]); (n_v'ovov,[8;7;1;9])] [8;0;4;5;2;6;3;9]) (-1) 1);
  (*1025*) AddTo n_t4new (Plain (Einsum [(n_t2,[0;1;2;3]); (n_t2,[4;5;6;7]); (n_v'ovov,[8;7;1;9])] [8;0;4;5;2;6;9;3]));
  (*1026*) AddTo n_t4new (Plain (Einsum [(n_t2,[0;1;2;3]); (n_t2,[4;5;6;7]); (n_v'ovov,[8;7;1;9])] [8;0;4;5;2;3;6;9]));
  (*1027*) AddTo n_t4new (Times (Einsum [(n_t2,[0;1;2;3]); (n_t2,[4;5;6;7]); (n_v'ovov,[8;7;1;9])] [8;0;4;5;2;9;6;3]) (-1) 1);
  (*1028*) AddTo n_t4new (Times (Einsum [(n_t2,[0;1;2;3]); (n_t2,[4;5;6;7]); (n_v'ovov,[8;7;1;9])] [8;0;4;5;2;3;9;6]) (-1) 1);
  (*1029*) AddTo n_t4new (Plain (Einsum [(n_t2,[0;1;2;3]); (n_t2,[4;5;6;7]); (n_v'ovov,[8;7;1;9])] [8;0;4;5;2;9;3;6]));
  (*1030*) AddTo n_t4new (Plain (Einsum [(n_t2,[0;1;2;3]); (n_t2,[4;5;6;7]); (n_v'ovov,[8;7;1;9])] [8;0;4;5;6;2;3;9]));
  (*1031*) AddTo n_t4new (Times (Einsum [(n_t2,[0;1;2;3]); (n_t2,[4;5;6;7]); (n_v'ovov,[8;7;1;9])] [8;0;4;5;6;2;9;3]) (-1) 1);
  (*1032*) AddTo n_t4new (Plain (Einsum [(n_t2,[0;1;2;3]); (n_t2,[4;5;6;7]); (n_v'ovov,[8;7;1;9])] [8;0;4;5;9;2;6;3]));
  (*1033*) AddTo n_t4new (Times (Einsum [(n_t2,[0;1;2;3]); (n_t2,[4;5;6;7]); (n_v'ovov,[8;7;1;9])] [8;0;4;5;9;2;3;6]) (-1) 1);
  (*1034*) AddTo n_t4new (Plain (Einsum [(n_t2,[0;1;2;3]); (n_t2,[4;5;6;7]); (n_v'ovov,[8;7;1;9])] [8;0;4;5;6;9;2;3]));
  (*1035*) AddTo n_t4new (Times (Einsum [(n_t2,[0;1;2;3]); (n_t2,[4;5;6;7]); (n_v'ovov,[8;7;1;9])] [8;0;4;5;9;6;2;3]) (-1) 1);
  (*1036*) AddTo n_t4new (Plain (Einsum [(n_t2,[0;1;2;3]); (n_t2,[4;5;6;7]); (n_v'ovov,[8;3;5;9])] [8;0;1;4;2;6;7;9]));
  (*1037*) AddTo n_t4new (Times (Einsum [(n_t2,[0;1;2;3]); (n_t2,[4;5;6;7]); (n_v'ovov,[8;3;5;9])] [8;0;1;4;2;6;9;7]) (-1) 1);
  (*1038*) AddTo n_t4new (Plain (Einsum [(n_t2,[0;1;2;3]); (n_t2,[4;5;6;7]); (n_v'ovov,[8;3;5;9])] [8;0;1;4;2;9;6;7]));
  (*1039*) AddTo n_t4new (Times (Einsum [(n_t2,[0;1;2;3]); (n_t2,[4;5;6;7]); (n_v'ovov,[8;3;5;9])] [8;0;1;4;6;2;7;9]) (-1) 1);
  (*1040*) AddTo n_t4new (Plain (Einsum [(n_t2,[0;1;2;3]); (n_t2,[4;5;6;7]); (n_v'ovov,[8;3;5;9])] [8;0;1;4;6;2;9;7]));
  (*1041*) AddTo n_t4new (Times (Einsum [(n_t2,[0;1;2;3]); (n_t2,[4;5;6;7]); (n_v'ovov,[8;3;5;9])] [8;0;1;4;9;2;6;7]) (-1) 1);
  (*1042*) AddTo n_t4new (Plain (Einsum [(n_t2,[0;1;2;3]); (n_t2,[4;5;6;7]); (n_v'ovov,[8;3;5;9])] [8;0;1;4;6;7;2;9]));
  (*1043*) AddTo n_t4new (Times (Einsum [(n_t2,[0;1;2;3]); (n_t2,[4;5;6;7]); (n_v'ovov,[8;3;5;9])] [8;0;1;4;6;9;2;7]) (-1) 1);
  (*1044*) AddTo n_t4new (Plain (Einsum [(n_t2,[0;1;2;3]); (n_t2,[4;5;6;7]); (n_v'ovov,[8;3;5;9])] [8;0;1;4;9;6;2;7]));
  (*1045*) AddTo n_t4new (Times (Einsum [(n_t2,[0;1;2;3]); (n_t2,[4;5;6;7]); (n_v'ovov,[8;3;5;9])] [8;0;1;4;6;7;9;2]) (-1) 1);
  (*1046*) AddTo n_t4new (Plain (Einsum [(n_t2,[0;1;2;3]); (n_t2,[4;5;6;7]); (n_v'ovov,[8;3;5;9])] [8;0;1;4;6;9;7;2]));
  (*1047*) AddTo n_t4new (Times (Einsum [(n_t2,[0;1;2;3]); (n_t2,[4;5;6;7]); (n_v'ovov,[8;3;5;9])] [8;0;1;4;9;6;7;2]) (-1) 1);
  (*1048*) AddTo n_t4new (Plain (Einsum [(n_t2,[0;1;2;3]); (n_t2,[4;5;6;7]); (n_v'vvvv,[8;9;3;7])] [0;4;1;5;8;9;2;6]));
  (*1049*) AddTo n_t4new (Times (Einsum [(n_t2,[0;1;2;3]); (n_t2,[4;5;6;7]); (n_v'vvvv,[8;9;3;7])] [0;4;1;5;8;9;6;2]) (-1) 1);
  (*1050*) AddTo n_t4new (Times (Einsum [(n_t2,[0;1;2;3]); (n_t2,[4;5;6;7]); (n_v'vvvv,[8;9;3;7])] [0;4;1;5;8;2;9;6]) (-1) 1);
  (*1051*) AddTo n_t4new (Plain (Einsum [(n_t2,[0;1;2;3]); (n_t2,[4;5;6;7]); (n_v'vvvv,[8;9;3;7])] [0;4;1;5;8;6;9;2]));
  (*1052*) AddTo n_t4new (Plain (Einsum [(n_t2,[0;1;2;3]); (n_t2,[4;5;6;7]); (n_v'vvvv,[8;9;3;7])] [0;4;1;5;8;2;6;9]));
  (*1053*) AddTo n_t4new (Times (Einsum [(n_t2,[0;1;2;3]); (n_t2,[4;5;6;7]); (n_v'vvvv,[8;9;3;7])] [0;4;1;5;8;6;2;9]) (-1) 1);
  (*1054*) AddTo n_t4new (Times (Einsum [(n_t2,[0;1;2;3]); (n_t2,[4;5;6;7]); (n_v'vvvv,[8;9;3;7])] [0;4;5;1;8;9;2;6]) (-1) 1);
  (*1055*) AddTo n_t4new (Plain (Einsum [(n_t2,[0;1;2;3]); (n_t2,[4;5;6;7]); (n_v'vvvv,[8;9;3;7])] [0;4;5;1;8;9;6;2]));
  (*1056*) AddTo n_t4new (Plain (Einsum [(n_t2,[0;1;2;3]); (n_t2,[4;5;6;7]); (n_v'vvvv,[8;9;3;7])] [0;4;5;1;8;2;9;6]));
  (*1057*) AddTo n_t4new (Times (Einsum [(n_t2,[0;1;2;3]); (n_t2,[4;5;6;7]); (n_v'vvvv,[8;9;3;7])] [0;4;5;1;8;6;9;2]) (-1) 1);
  (*1058*) AddTo n_t4new (Times (Einsum [(n_t2,[0;1;2;3]); (n_t2,[4;5;6;7]); (n_v'vvvv,[8;9;3;7])] [0;4;5;1;8;2;6;9]) (-1) 1);
  (*1059*) AddTo n_t4new (Plain (Einsum [(n_t2,[0;1;2;3]); (n_t2,[4;5;6;7]); (n_v'vvvv,[8;9;3;7])] [0;4;5;1;8;6;2;9]));
  (*1060*) AddTo n_t4new (Plain (Einsum [(n_t2,[0;1;2;3]); (n_t2,[4;5;6;7]); (n_v'vvvv,[8;9;3;7])] [0;4;1;5;2;8;9;6]));
  (*1061*) AddTo n_t4new (Times (Einsum [(n_t2,[0;1;2;3]); (n_t2,[4;5;6;7]); (n_v'vvvv,[8;9;3;7])] [0;4;1;5;6;8;9;2]) (-1) 1);
  (*1062*) AddTo n_t4new (Times (Einsum [(n_t2,[0;1;2;3]); (n_t2,[4;5;6;7]); (n_v'vvvv,[8;9;3;7])] [0;4;1;5;2;8;6;9]) (-1) 1);
  (*1063*) AddTo n_t4new (Plain (Einsum [(n_t2,[0;1;2;3]); (n_t2,[4;5;6;7]); (n_v'vvvv,[8;9;3;7])] [0;4;1;5;6;8;2;9]));
  (*1064*) AddTo n_t4new (Times (Einsum [(n_t2,[0;1;2;3]); (n_t2,[4;5;6;7]); (n_v'vvvv,[8;9;3;7])] [0;4;5;1;2;8;9;6]) (-1) 1);
  (*1065*) AddTo n_t4new (Plain (Einsum [(n_t2,[0;1;2;3]); (n_t2,[4;5;6;7]); (n_v'vvvv,[8;9;3;7])] [0;4;5;1;6;8;9;2]));
  (*1066*) AddTo n_t4new (Plain (Einsum [(n_t2,[0;1;2;3]); (n_t2,[4;5;6;7]); (n_v'vvvv,[8;9;3;7])] [0;4;5;1;2;8;6;9]));
  (*1067*) AddTo n_t4new (Times (Einsum [(n_t2,[0;1;2;3]); (n_t2,[4;5;6;7]); (n_v'vvvv,[8;9;3;7])] [0;4;5;1;6;8;2;9]) (-1) 1);
  (*1068*) AddTo n_t4new (Plain (Einsum [(n_t2,[0;1;2;3]); (n_t2,[4;5;6;7]); (n_v'vvvv,[8;9;3;7])] [0;4;1;5;2;6;8;9]));
  (*1069*) AddTo n_t4new (Times (Einsum [(n_t2,[0;1;2;3]); (n_t2,[4;5;6;7]); (n_v'vvvv,[8;9;3;7])] [0;4;1;5;6;2;8;9]) (-1) 1);
  (*1070*) AddTo n_t4new (Times (Einsum [(n_t2,[0;1;2;3]); (n_t2,[4;5;6;7]); (n_v'vvvv,[8;9;3;7])] [0;4;5;1;2;6;8;9]) (-1) 1);
  (*1071*) AddTo n_t4new (Plain (Einsum [(n_t2,[0;1;2;3]); (n_t2,[4;5;6;7]); (n_v'vvvv,[8;9;3;7])] [0;4;5;1;6;2;8;9]));
  (*1072*) AddTo n_t4new (Times (Einsum [(n_t2,[0;1;2;3]); (n_t2,[4;5;6;7]); (n_v'vvvv,[8;9;3;7])] [0;1;4;5;8;9;2;6]) (-1) 1);
  (*1073*) AddTo n_t4new (Plain (Einsum [(n_t2,[0;1;2;3]); (n_t2,[4;5;6;7]); (n_v'vvvv,[8;9;3;7])] [0;1;4;5;8;9;6;2]));
  (*1074*) AddTo n_t4new (Plain (Einsum [(n_t2,[0;1;2;3]); (n_t2,[4;5;6;7]); (n_v'vvvv,[8;9;3;7])] [0;1;4;5;8;2;9;6]));
  (*1075*) AddTo n_t4new (Times (Einsum [(n_t2,[0;1;2;3]); (n_t2,[4;5;6;7]); (n_v'vvvv,[8;9;3;7])] [0;1;4;5;8;6;9;2]) (-1) 1);
  (*1076*) AddTo n_t4new (Times (Einsum [(n_t2,[0;1;2;3]); (n_t2,[4;5;6;7]); (n_v'vvvv,[8;9;3;7])] [0;1;4;5;8;2;6;9]) (-1) 1);
  (*1077*) AddTo n_t4new (Plain (Einsum [(n_t2,[0;1;2;3]); (n_t2,[4;5;6;7]); (n_v'vvvv,[8;9;3;7])] [0;1;4;5;8;6;2;9]));
  (*1078*) AddTo n_t4new (Times (Einsum [(n_t2,[0;1;2;3]); (n_t2,[4;5;6;7]); (n_v'vvvv,[8;9;3;7])] [0;1;4;5;2;8;9;6]) (-1) 1);
  (*1079*) AddTo n_t4new (Plain (Einsum [(n_t2,[0;1;2;3]); (n_t2,[4;5;6;7]); (n_v'vvvv,[8;9;3;7])] [0;1;4;5;6;8;9;2]));
  (*1080*) AddTo n_t4new (Plain (Einsum [(n_t2,[0;1;2;3]); (n_t2,[4;5;6;7]); (n_v'vvvv,[8;9;3;7])] [0;1;4;5;2;8;6;9]));
  (*1081*) AddTo n_t4new (Times (Einsum [(n_t2,[0;1;2;3]); (n_t2,[4;5;6;7]); (n_v'vvvv,[8;9;3;7])] [0;1;4;5;6;8;2;9]) (-1) 1);
  (*1082*) AddTo n_t4new (Times (Einsum [(n_t2,[0;1;2;3]); (n_t2,[4;5;6;7]); (n_v'vvvv,[8;9;3;7])] [0;1;4;5;2;6;8;9]) (-1) 1);
  (*1083*) AddTo n_t4new (Plain (Einsum [(n_t2,[0;1;2;3]); (n_t2,[4;5;6;7]); (n_v'vvvv,[8;9;3;7])] [0;1;4;5;6;2;8;9]));
  (*1084*) AddTo n_t4new (Times (Einsum [(n_t2,[0;1;2;3]); (n_v'ooov,[4;5;6;3]); (n_t3,[7;4;5;8;9;10])] [0;1;6;7;2;8;9;10]) (-1) 2);
  (*1085*) AddTo n_t4new (Times (Einsum [(n_t2,[0;1;2;3]); (n_v'ooov,[4;5;6;3]); (n_t3,[7;4;5;8;9;10])] [0;1;7;6;2;8;9;10]) (1) 2);
  (*1086*) AddTo n_t4new (Times (Einsum [(n_t2,[0;1;2;3]); (n_v'ooov,[4;5;6;3]); (n_t3,[7;4;5;8;9;10])] [0;1;6;7;8;2;9;10]) (1) 2);
  (*1087*) AddTo n_t4new (Times (Einsum [(n_t2,[0;1;2;3]); (n_v'ooov,[4;5;6;3]); (n_t3,[7;4;5;8;9;10])] [0;1;7;6;8;2;9;10]) (-1) 2);
  (*1088*) AddTo n_t4new (Times (Einsum [(n_t2,[0;1;2;3]); (n_v'ooov,[4;5;6;3]); (n_t3,[7;4;5;8;9;10])] [0;1;6;7;8;9;2;10]) (-1) 2);
  (*1089*) AddTo n_t4new (Times (Einsum [(n_t2,[0;1;2;3]); (n_v'ooov,[4;5;6;3]); (n_t3,[7;4;5;8;9;10])] [0;1;7;6;8;9;2;10]) (1) 2);
  (*1090*) AddTo n_t4new (Times (Einsum [(n_t2,[0;1;2;3]); (n_v'ooov,[4;5;6;3]); (n_t3,[7;4;5;8;9;10])] [0;1;6;7;8;9;10;2]) (1) 2);
  (*1091*) AddTo n_t4new (Times (Einsum [(n_t2,[0;1;2;3]); (n_v'ooov,[4;5;6;3]); (n_t3,[7;4;5;8;9;10])] [0;1;7;6;8;9;10;2]) (-1) 2);
  (*1092*) AddTo n_t4new (Times (Einsum [(n_t2,[0;1;2;3]); (n_v'ooov,[4;5;6;3]); (n_t3,[7;4;5;8;9;10])] [0;6;1;7;2;8;9;10]) (1) 2);
  (*1093*) AddTo n_t4new (Times (Einsum [(n_t2,[0;1;2;3]); (n_v'ooov,[4;5;6;3]); (n_t3,[7;4;5;8;9;10])] [0;7;1;6;2;8;9;10]) (-1) 2);
  (*1094*) AddTo n_t4new (Times (Einsum [(n_t2,[0;1;2;3]); (n_v'ooov,[4;5;6;3]); (n_t3,[7;4;5;8;9;10])] [0;6;1;7;8;2;9;10]) (-1) 2);
  (*1095*) AddTo n_t4new (Times (Einsum [(n_t2,[0;1;2;3]); (n_v'ooov,[4;5;6;3]); (n_t3,[7;4;5;8;9;10])] [0;7;1;6;8;2;9;10]) (1) 2);
  (*1096*) AddTo n_t4new (Times (Einsum [(n_t2,[0;1;2;3]); (n_v'ooov,[4;5;6;3]); (n_t3,[7;4;5;8;9;10])] [0;6;1;7;8;9;2;10]) (1) 2);
  (*1097*) AddTo n_t4new (Times (Einsum [(n_t2,[0;1;2;3]); (n_v'ooov,[4;5;6;3]); (n_t3,[7;4;5;8;9;10])] [0;7;1;6;8;9;2;10]) (-1) 2);
  (*1098*) AddTo n_t4new (Times (Einsum [(n_t2,[0;1;2;3]); (n_v'ooov,[4;5;6;3]); (n_t3,[7;4;5;8;9;10])] [0;6;1;7;8;9;10;2]) (-1) 2);
  (*1099*) AddTo n_t4new (Times (Einsum [(n_t2,[0;1;2;3]); (n_v'ooov,[4;5;6;3]); (n_t3,[7;4;5;8;9;10])] [0;7;1;6;8;9;10;2]) (1) 2);
  (*1100*) AddTo n_t4new (Times (Einsum [(n_t2,[0;1;2;3]); (n_v'ooov,[4;5;6;3]); (n_t3,[7;4;5;8;9;10])] [0;6;7;1;2;8;9;10]) (-1) 2);
  (*1101*) AddTo n_t4new (Times (Einsum [(n_t2,[0;1;2;3]); (n_v'ooov,[4;5;6;3]); (n_t3,[7;4;5;8;9;10])] [0;7;6;1;2;8;9;10]) (1) 2);
  (*1102*) AddTo n_t4new (Times (Einsum [(n_t2,[0;1;2;3]); (n_v'ooov,[4;5;6;3]); (n_t3,[7;4;5;8;9;10])] [0;6;7;1;8;2;9;10]) (1) 2);
  (*1103*) AddTo n_t4new (Times (Einsum [(n_t2,[0;1;2;3]); (n_v'ooov,[4;5;6;3]); (n_t3,[7;4;5;8;9;10])] [0;7;6;1;8;2;9;10]) (-1) 2);
  (*1104*) AddTo n_t4new (Times (Einsum [(n_t2,[0;1;2;3]); (n_v'ooov,[4;5;6;3]); (n_t3,[7;4;5;8;9;10])] [0;6;7;1;8;9;2;10]) (-1) 2);
  (*1105*) AddTo n_t4new (Times (Einsum [(n_t2,[0;1;2;3]); (n_v'ooov,[4;5;6;3]); (n_t3,[7;4;5;8;9;10])] [0;7;6;1;8;9;2;10]) (1) 2);
  (*1106*) AddTo n_t4new (Times (Einsum [(n_t2,[0;1;2;3]); (n_v'ooov,[4;5;6;3]); (n_t3,[7;4;5;8;9;10])] [0;6;7;1;8;9;10;2]) (1) 2);
  (*1107*) AddTo n_t4new (Times (Einsum [(n_t2,[0;1;2;3]); (n_v'ooov,[4;5;6;3]); (n_t3,[7;4;5;8;9;10])] [0;7;6;1;8;9;10;2]) (-1) 2);
  (*1108*) AddTo n_t4new (Times (Einsum [(n_t2,[0;1;2;3]); (n_v'ooov,[1;4;5;6]); (n_t3,[7;8;4;9;10;6])] [0;5;7;8;2;3;9;10]) (-1) 1);
  (*1109*) AddTo n_t4new (Plain (Einsum [(n_t2,[0;1;2;3]); (n_v'ooov,[1;4;5;6]); (n_t3,[7;8;4;9;10;6])] [0;5;7;8;2;9;3;10]));
  (*1110*) AddTo n_t4new (Times (Einsum [(n_t2,[0;1;2;3]); (n_v'ooov,[1;4;5;6]); (n_t3,[7;8;4;9;10;6])] [0;5;7;8;2;9;10;3]) (-1) 1);
  (*1111*) AddTo n_t4new (Plain (Einsum [(n_t2,[0;1;2;3]); (n_v'ooov,[1;4;5;3]); (n_t3,[6;7;4;8;9;10])] [0;5;6;7;2;8;9;10]));
  (*1112*) AddTo n_t4new (Plain (Einsum [(n_t2,[0;1;2;3]); (n_v'ooov,[1;4;5;6]); (n_t3,[7;8;4;9;10;6])] [0;7;5;8;2;3;9;10]));
  (*1113*) AddTo n_t4new (Times (Einsum [(n_t2,[0;1;2;3]); (n_v'ooov,[1;4;5;6]); (n_t3,[7;8;4;9;10;6])] [0;7;5;8;2;9;3;10]) (-1) 1);
  (*1114*) AddTo n_t4new (Plain (Einsum [(n_t2,[0;1;2;3]); (n_v'ooov,[1;4;5;6]); (n_t3,[7;8;4;9;10;6])] [0;7;5;8;2;9;10;3]));
  (*1115*) AddTo n_t4new (Times (Einsum [(n_t2,[0;1;2;3]); (n_v'ooov,[1;4;5;3]); (n_t3,[6;7;4;8;9;10])] [0;6;5;7;2;8;9;10]) (-1) 1);
  (*1116*) AddTo n_t4new (Times (Einsum [(n_t2,[0;1;2;3]); (n_v'ooov,[1;4;5;6]); (n_t3,[7;8;4;9;10;6])] [0;7;8;5;2;3;9;10]) (-1) 1);
  (*1117*) AddTo n_t4new (Plain (Einsum [(n_t2,[0;1;2;3]); (n_v'ooov,[1;4;5;6]); (n_t3,[7;8;4;9;10;6])] [0;7;8;5;2;9;3;10]));
  (*1118*) AddTo n_t4new (Times (Einsum [(n_t2,[0;1;2;3]); (n_v'ooov,[1;4;5;6]); (n_t3,[7;8;4;9;10;6])] [0;7;8;5;2;9;10;3]) (-1) 1);
  (*1119*) AddTo n_t4new (Plain (Einsum [(n_t2,[0;1;2;3]); (n_v'ooov,[1;4;5;3]); (n_t3,[6;7;4;8;9;10])] [0;6;7;5;2;8;9;10]));
  (*1120*) AddTo n_t4new (Times (Einsum [(n_t2,[0;1;2;3]); (n_v'ooov,[1;4;5;6]); (n_t3,[7;8;4;9;10;6])] [0;5;7;8;9;2;3;10]) (-1) 1);
  (*1121*) AddTo n_t4new (Plain (Einsum [(n_t2,[0;1;2;3]); (n_v'ooov,[1;4;5;6]); (n_t3,[7;8;4;9;10;6])] [0;5;7;8;9;2;10;3]));
  (*1122*) AddTo n_t4new (Times (Einsum [(n_t2,[0;1;2;3]); (n_v'ooov,[1;4;5;3]); (n_t3,[6;7;4;8;9;10])] [0;5;6;7;8;2;9;10]) (-1) 1);
  (*1123*) AddTo n_t4new (Plain (Einsum [(n_t2,[0;1;2;3]); (n_v'ooov,[1;4;5;6]); (n_t3,[7;8;4;9;10;6])] [0;7;5;8;9;2;3;10]));
  (*1124*) AddTo n_t4new (Times (Einsum [(n_t2,[0;1;2;3]); (n_v'ooov,[1;4;5;6]); (n_t3,[7;8;4;9;10;6])] [0;7;5;8;9;2;10;3]) (-1) 1);
  (*1125*) AddTo n_t4new (Plain (Einsum [(n_t2,[0;1;2;3]); (n_v'ooov,[1;4;5;3]); (n_t3,[6;7;4;8;9;10])] [0;6;5;7;8;2;9;10]));
  (*1126*) AddTo n_t4new (Times (Einsum [(n_t2,[0;1;2;3]); (n_v'ooov,[1;4;5;6]); (n_t3,[7;8;4;9;10;6])] [0;7;8;5;9;2;3;10]) (-1) 1);
  (*1127*) AddTo n_t4new (Plain (Einsum [(n_t2,[0;1;2;3]); (n_v'ooov,[1;4;5;6]); (n_t3,[7;8;4;9;10;6])] [0;7;8;5;9;2;10;3]));
  (*1128*) AddTo n_t4new (Times (Einsum [(n_t2,[0;1;2;3]); (n_v'ooov,[1;4;5;3]); (n_t3,[6;7;4;8;9;10])] [0;6;7;5;8;2;9;10]) (-1) 1);
  (*1129*) AddTo n_t4new (Times (Einsum [(n_t2,[0;1;2;3]); (n_v'ooov,[1;4;5;6]); (n_t3,[7;8;4;9;10;6])] [0;5;7;8;9;10;2;3]) (-1) 1);
  (*1130*) AddTo n_t4new (Plain (Einsum [(n_t2,[0;1;2;3]); (n_v'ooov,[1;4;5;3]); (n_t3,[6;7;4;8;9;10])] [0;5;6;7;8;9;2;10]));
  (*1131*) AddTo n_t4new (Plain (Einsum [(n_t2,[0;1;2;3]); (n_v'ooov,[1;4;5;6]); (n_t3,[7;8;4;9;10;6])] [0;7;5;8;9;10;2;3]));
  (*1132*) AddTo n_t4new (Times (Einsum [(n_t2,[0;1;2;3]); (n_v'ooov,[1;4;5;3]); (n_t3,[6;7;4;8;9;10])] [0;6;5;7;8;9;2;10]) (-1) 1);
  (*1133*) AddTo n_t4new (Times (Einsum [(n_t2,[0;1;2;3]); (n_v'ooov,[1;4;5;6]); (n_t3,[7;8;4;9;10;6])] [0;7;8;5;9;10;2;3]) (-1) 1);
  (*1134*) AddTo n_t4new (Plain (Einsum [(n_t2,[0;1;2;3]); (n_v'ooov,[1;4;5;3]); (n_t3,[6;7;4;8;9;10])] [0;6;7;5;8;9;2;10]));
  (*1135*) AddTo n_t4new (Times (Einsum [(n_t2,[0;1;2;3]); (n_v'ooov,[1;4;5;3]); (n_t3,[6;7;4;8;9;10])] [0;5;6;7;8;9;10;2]) (-1) 1);
  (*1136*) AddTo n_t4new (Plain (Einsum [(n_t2,[0;1;2;3]); (n_v'ooov,[1;4;5;3]); (n_t3,[6;7;4;8;9;10])] [0;6;5;7;8;9;10;2]));
  (*1137*) AddTo n_t4new (Times (Einsum [(n_t2,[0;1;2;3]); (n_v'ooov,[1;4;5;3]); (n_t3,[6;7;4;8;9;10])] [0;6;7;5;8;9;10;2]) (-1) 1);
  (*1138*) AddTo n_t4new (Times (Einsum [(n_t2,[0;1;2;3]); (n_v'ooov,[4;5;6;3]); (n_t3,[7;4;5;8;9;10])] [6;0;1;7;2;8;9;10]) (-1) 2);
  (*1139*) AddTo n_t4new (Times (Einsum [(n_t2,[0;1;2;3]); (n_v'ooov,[4;5;6;3]); (n_t3,[7;4;5;8;9;10])] [7;0;1;6;2;8;9;10]) (1) 2);
  (*1140*) AddTo n_t4new (Times (Einsum [(n_t2,[0;1;2;3]); (n_v'ooov,[4;5;6;3]); (n_t3,[7;4;5;8;9;10])] [6;0;1;7;8;2;9;10]) (1) 2);
  (*1141*) AddTo n_t4new (Times (Einsum [(n_t2,[0;1;2;3]); (n_v'ooov,[4;5;6;3]); (n_t3,[7;4;5;8;9;10])] [7;0;1;6;8;2;9;10]) (-1) 2);
  (*1142*) AddTo n_t4new (Times (Einsum [(n_t2,[0;1;2;3]); (n_v'ooov,[4;5;6;3]); (n_t3,[7;4;5;8;9;10])] [6;0;1;7;8;9;2;10]) (-1) 2);
  (*1143*) AddTo n_t4new (Times (Einsum [(n_t2,[0;1;2;3]); (n_v'ooov,[4;5;6;3]); (n_t3,[7;4;5;8;9;10])] [7;0;1;6;8;9;2;10]) (1) 2);
  (*1144*) AddTo n_t4new (Times (Einsum [(n_t2,[0;1;2;3]); (n_v'ooov,[4;5;6;3]); (n_t3,[7;4;5;8;9;10])] [6;0;1;7;8;9;10;2]) (1) 2);
  (*1145*) AddTo n_t4new (Times (Einsum [(n_t2,[0;1;2;3]); (n_v'ooov,[4;5;6;3]); (n_t3,[7;4;5;8;9;10])] [7;0;1;6;8;9;10;2]) (-1) 2);
  (*1146*) AddTo n_t4new (Times (Einsum [(n_t2,[0;1;2;3]); (n_v'ooov,[4;5;6;3]); (n_t3,[7;4;5;8;9;10])] [6;0;7;1;2;8;9;10]) (1) 2);
  (*1147*) AddTo n_t4new (Times (Einsum [(n_t2,[0;1;2;3]); (n_v'ooov,[4;5;6;3]); (n_t3,[7;4;5;8;9;10])] [7;0;6;1;2;8;9;10]) (-1) 2);
  (*1148*) AddTo n_t4new (Times (Einsum [(n_t2,[0;1;2;3]); (n_v'ooov,[4;5;6;3]); (n_t3,[7;4;5;8;9;10])] [6;0;7;1;8;2;9;10]) (-1) 2);
  (*1149*) AddTo n_t4new (Times (Einsum [(n_t2,[0;1;2;3]); (n_v'ooov,[4;5;6;3]); (n_t3,[7;4;5;8;9;10])] [7;0;6;1;8;2;9;10]) (1) 2);
  (*1150*) AddTo n_t4new (Times (Einsum [(n_t2,[0;1;2;3]); (n_v'ooov,[4;5;6;3]); (n_t3,[7;4;5;8;9;10])] [6;0;7;1;8;9;2;10]) (1) 2);
  (*1151*) AddTo n_t4new (Times (Einsum [(n_t2,[0;1;2;3]); (n_v'ooov,[4;5;6;3]); (n_t3,[7;4;5;8;9;10])] [7;0;6;1;8;9;2;10]) (-1) 2);
  (*1152*) AddTo n_t4new (Times (Einsum [(n_t2,[0;1;2;3]); (n_v'ooov,[4;5;6;3]); (n_t3,[7;4;5;8;9;10])] [6;0;7;1;8;9;10;2]) (-1) 2);
  (*1153*) AddTo n_t4new (Times (Einsum [(n_t2,[0;1;2;3]); (n_v'ooov,[4;5;6;3]); (n_t3,[7;4;5;8;9;10])] [7;0;6;1;8;9;10;2]) (1) 2);
  (*1154*) AddTo n_t4new (Plain (Einsum [(n_t2,[0;1;2;3]); (n_v'ooov,[1;4;5;6]); (n_t3,[7;8;4;9;10;6])] [5;0;7;8;2;3;9;10]));
  (*1155*) AddTo n_t4new (Times (Einsum [(n_t2,[0;1;2;3]); (n_v'ooov,[1;4;5;6]); (n_t3,[7;8;4;9;10;6])] [5;0;7;8;2;9;3;10]) (-1) 1);
  (*1156*) AddTo n_t4new (Plain (Einsum [(n_t2,[0;1;2;3]); (n_v'ooov,[1;4;5;6]); (n_t3,[7;8;4;9;10;6])] [5;0;7;8;2;9;10;3]));
  (*1157*) AddTo n_t4new (Times (Einsum [(n_t2,[0;1;2;3]); (n_v'ooov,[1;4;5;3]); (n_t3,[6;7;4;8;9;10])] [5;0;6;7;2;8;9;10]) (-1) 1);
  (*1158*) AddTo n_t4new (Times (Einsum [(n_t2,[0;1;2;3]); (n_v'ooov,[1;4;5;6]); (n_t3,[7;8;4;9;10;6])] [7;0;5;8;2;3;9;10]) (-1) 1);
  (*1159*) AddTo n_t4new (Plain (Einsum [(n_t2,[0;1;2;3]); (n_v'ooov,[1;4;5;6]); (n_t3,[7;8;4;9;10;6])] [7;0;5;8;2;9;3;10]));
  (*1160*) AddTo n_t4new (Times (Einsum [(n_t2,[0;1;2;3]); (n_v'ooov,[1;4;5;6]); (n_t3,[7;8;4;9;10;6])] [7;0;5;8;2;9;10;3]) (-1) 1);
  (*1161*) AddTo n_t4new (Plain (Einsum [(n_t2,[0;1;2;3]); (n_v'ooov,[1;4;5;3]); (n_t3,[6;7;4;8;9;10])] [6;0;5;7;2;8;9;10]));
  (*1162*) AddTo n_t4new (Plain (Einsum [(n_t2,[0;1;2;3]); (n_v'ooov,[1;4;5;6]); (n_t3,[7;8;4;9;10;6])] [7;0;8;5;2;3;9;10]));
  (*1163*) AddTo n_t4new (Times (Einsum [(n_t2,[0;1;2;3]); (n_v'ooov,[1;4;5;6]); (n_t3,[7;8;4;9;10;6])] [7;0;8;5;2;9;3;10]) (-1) 1);
  (*1164*) AddTo n_t4new (Plain (Einsum [(n_t2,[0;1;2;3]); (n_v'ooov,[1;4;5;6]); (n_t3,[7;8;4;9;10;6])] [7;0;8;5;2;9;10;3]));
  (*1165*) AddTo n_t4new (Times (Einsum [(n_t2,[0;1;2;3]); (n_v'ooov,[1;4;5;3]); (n_t3,[6;7;4;8;9;10])] [6;0;7;5;2;8;9;10]) (-1) 1);
  (*1166*) AddTo n_t4new (Plain (Einsum [(n_t2,[0;1;2;3]); (n_v'ooov,[1;4;5;6]); (n_t3,[7;8;4;9;10;6])] [5;0;7;8;9;2;3;10]));
  (*1167*) AddTo n_t4new (Times (Einsum [(n_t2,[0;1;2;3]); (n_v'ooov,[1;4;5;6]); (n_t3,[7;8;4;9;10;6])] [5;0;7;8;9;2;10;3]) (-1) 1);
  (*1168*) AddTo n_t4new (Plain (Einsum [(n_t2,[0;1;2;3]); (n_v'ooov,[1;4;5;3]); (n_t3,[6;7;4;8;9;10])] [5;0;6;7;8;2;9;10]));
  (*1169*) AddTo n_t4new (Times (Einsum [(n_t2,[0;1;2;3]); (n_v'ooov,[1;4;5;6]); (n_t3,[7;8;4;9;10;6])] [7;0;5;8;9;2;3;10]) (-1) 1);
  (*1170*) AddTo n_t4new (Plain (Einsum [(n_t2,[0;1;2;3]); (n_v'ooov,[1;4;5;6]); (n_t3,[7;8;4;9;10;6])] [7;0;5;8;9;2;10;3]));
  (*1171*) AddTo n_t4new (Times (Einsum [(n_t2,[0;1;2;3]); (n_v'ooov,[1;4;5;3]); (n_t3,[6;7;4;8;9;10])] [6;0;5;7;8;2;9;10]) (-1) 1);
  (*1172*) AddTo n_t4new (Plain (Einsum [(n_t2,[0;1;2;3]); (n_v'ooov,[1;4;5;6]); (n_t3,[7;8;4;9;10;6])] [7;0;8;5;9;2;3;10]));
  (*1173*) AddTo n_t4new (Times (Einsum [(n_t2,[0;1;2;3]); (n_v'ooov,[1;4;5;6]); (n_t3,[7;8;4;9;10;6])] [7;0;8;5;9;2;10;3]) (-1) 1);
  (*1174*) AddTo n_t4new (Plain (Einsum [(n_t2,[0;1;2;3]); (n_v'ooov,[1;4;5;3]); (n_t3,[6;7;4;8;9;10])] [6;0;7;5;8;2;9;10]));
  (*1175*) AddTo n_t4new (Plain (Einsum [(n_t2,[0;1;2;3]); (n_v'ooov,[1;4;5;6]); (n_t3,[7;8;4;9;10;6])] [5;0;7;8;9;10;2;3]));
  (*1176*) AddTo n_t4new (Times (Einsum [(n_t2,[0;1;2;3]); (n_v'ooov,[1;4;5;3]); (n_t3,[6;7;4;8;9;10])] [5;0;6;7;8;9;2;10]) (-1) 1);
  (*1177*) AddTo n_t4new (Times (Einsum [(n_t2,[0;1;2;3]); (n_v'ooov,[1;4;5;6]); (n_t3,[7;8;4;9;10;6])] [7;0;5;8;9;10;2;3]) (-1) 1);
  (*1178*) AddTo n_t4new (Plain (Einsum [(n_t2,[0;1;2;3]); (n_v'ooov,[1;4;5;3]); (n_t3,[6;7;4;8;9;10])] [6;0;5;7;8;9;2;10]));
  (*1179*) AddTo n_t4new (Plain (Einsum [(n_t2,[0;1;2;3]); (n_v'ooov,[1;4;5;6]); (n_t3,[7;8;4;9;10;6])] [7;0;8;5;9;10;2;3]));
  (*1180*) AddTo n_t4new (Times (Einsum [(n_t2,[0;1;2;3]); (n_v'ooov,[1;4;5;3]); (n_t3,[6;7;4;8;9;10])] [6;0;7;5;8;9;2;10]) (-1) 1);
  (*1181*) AddTo n_t4new (Plain (Einsum [(n_t2,[0;1;2;3]); (n_v'ooov,[1;4;5;3]); (n_t3,[6;7;4;8;9;10])] [5;0;6;7;8;9;10;2]));
  (*1182*) AddTo n_t4new (Times (Einsum [(n_t2,[0;1;2;3]); (n_v'ooov,[1;4;5;3]); (n_t3,[6;7;4;8;9;10])] [6;0;5;7;8;9;10;2]) (-1) 1);
  (*1183*) AddTo n_t4new (Plain (Einsum [(n_t2,[0;1;2;3]); (n_v'ooov,[1;4;5;3]); (n_t3,[6;7;4;8;9;10])] [6;0;7;5;8;9;10;2]));
  (*1184*) AddTo n_t4new (Times (Einsum [(n_t2,[0;1;2;3]); (n_v'ooov,[4;5;6;3]); (n_t3,[7;4;5;8;9;10])] [6;7;0;1;2;8;9;10]) (-1) 2);
  (*1185*) AddTo n_t4new (Times (Einsum [(n_t2,[0;1;2;3]); (n_v'ooov,[4;5;6;3]); (n_t3,[7;4;5;8;9;10])] [7;6;0;1;2;8;9;10]) (1) 2);
  (*1186*) AddTo n_t4new (Times (Einsum [(n_t2,[0;1;2;3]); (n_v'ooov,[4;5;6;3]); (n_t3,[7;4;5;8;9;10])] [6;7;0;1;8;2;9;10]) (1) 2);
  (*1187*) AddTo n_t4new (Times (Einsum [(n_t2,[0;1;2;3]); (n_v'ooov,[4;5;6;3]); (n_t3,[7;4;5;8;9;10])] [7;6;0;1;8;2;9;10]) (-1) 2);
  (*1188*) AddTo n_t4new (Times (Einsum [(n_t2,[0;1;2;3]); (n_v'ooov,[4;5;6;3]); (n_t3,[7;4;5;8;9;10])] [6;7;0;1;8;9;2;10]) (-1) 2);
  (*1189*) AddTo n_t4new (Times (Einsum [(n_t2,[0;1;2;3]); (n_v'ooov,[4;5;6;3]); (n_t3,[7;4;5;8;9;10])] [7;6;0;1;8;9;2;10]) (1) 2);
  (*1190*) AddTo n_t4new (Times (Einsum [(n_t2,[0;1;2;3]); (n_v'ooov,[4;5;6;3]); (n_t3,[7;4;5;8;9;10])] [6;7;0;1;8;9;10;2]) (1) 2);
  (*1191*) AddTo n_t4new (Times (Einsum [(n_t2,[0;1;2;3]); (n_v'ooov,[4;5;6;3]); (n_t3,[7;4;5;8;9;10])] [7;6;0;1;8;9;10;2]) (-1) 2);
  (*1192*) AddTo n_t4new (Times (Einsum [(n_t2,[0;1;2;3]); (n_v'ooov,[1;4;5;6]); (n_t3,[7;8;4;9;10;6])] [5;7;0;8;2;3;9;10]) (-1) 1);
  (*1193*) AddTo n_t4new (Plain (Einsum [(n_t2,[0;1;2;3]); (n_v'ooov,[1;4;5;6]); (n_t3,[7;8;4;9;10;6])] [5;7;0;8;2;9;3;10]));
  (*1194*) AddTo n_t4new (Times (Einsum [(n_t2,[0;1;2;3]); (n_v'ooov,[1;4;5;6]); (n_t3,[7;8;4;9;10;6])] [5;7;0;8;2;9;10;3]) (-1) 1);
  (*1195*) AddTo n_t4new (Plain (Einsum [(n_t2,[0;1;2;3]); (n_v'ooov,[1;4;5;3]); (n_t3,[6;7;4;8;9;10])] [5;6;0;7;2;8;9;10]));
  (*1196*) AddTo n_t4new (Plain (Einsum [(n_t2,[0;1;2;3]); (n_v'ooov,[1;4;5;6]); (n_t3,[7;8;4;9;10;6])] [7;5;0;8;2;3;9;10]));
  (*1197*) AddTo n_t4new (Times (Einsum [(n_t2,[0;1;2;3]); (n_v'ooov,[1;4;5;6]); (n_t3,[7;8;4;9;10;6])] [7;5;0;8;2;9;3;10]) (-1) 1);
  (*1198*) AddTo n_t4new (Plain (Einsum [(n_t2,[0;1;2;3]); (n_v'ooov,[1;4;5;6]); (n_t3,[7;8;4;9;10;6])] [7;5;0;8;2;9;10;3]));
  (*1199*) AddTo n_t4new (Times (Einsum [(n_t2,[0;1;2;3]); (n_v'ooov,[1;4;5;3]); (n_t3,[6;7;4;8;9;10])] [6;5;0;7;2;8;9;10]) (-1) 1);
  (*1200*) AddTo n_t4new (Times (Einsum [(n_t2,[0;1;2;3]); (n_v'ooov,[1;4;5;6]); (n_t3,[7;8;4;9;10;6])] [7;8;0;5;2;3;9;10]) (-1) 1);
  (*1201*) AddTo n_t4new (Plain (Einsum [(n_t2,[0;1;2;3]); (n_v'ooov,[1;4;5;6]); (n_t3,[7;8;4;9;10;6])] [7;8;0;5;2;9;3;10]));
  (*1202*) AddTo n_t4new (Times (Einsum [(n_t2,[0;1;2;3]); (n_v'ooov,[1;4;5;6]); (n_t3,[7;8;4;9;10;6])] [7;8;0;5;2;9;10;3]) (-1) 1);
  (*1203*) AddTo n_t4new (Plain (Einsum [(n_t2,[0;1;2;3]); (n_v'ooov,[1;4;5;3]); (n_t3,[6;7;4;8;9;10])] [6;7;0;5;2;8;9;10]));
  (*1204*) AddTo n_t4new (Times (Einsum [(n_t2,[0;1;2;3]); (n_v'ooov,[1;4;5;6]); (n_t3,[7;8;4;9;10;6])] [5;7;0;8;9;2;3;10]) (-1) 1);
  (*1205*) AddTo n_t4new (Plain (Einsum [(n_t2,[0;1;2;3]); (n_v'ooov,[1;4;5;6]); (n_t3,[7;8;4;9;10;6])] [5;7;0;8;9;2;10;3]));
  (*1206*) AddTo n_t4new (Times (Einsum [(n_t2,[0;1;2;3]); (n_v'ooov,[1;4;5;3]); (n_t3,[6;7;4;8;9;10])] [5;6;0;7;8;2;9;10]) (-1) 1);
  (*1207*) AddTo n_t4new (Plain (Einsum [(n_t2,[0;1;2;3]); (n_v'ooov,[1;4;5;6]); (n_t3,[7;8;4;9;10;6])] [7;5;0;8;9;2;3;10]));
  (*1208*) AddTo n_t4new (Times (Einsum [(n_t2,[0;1;2;3]); (n_v'ooov,[1;4;5;6]); (n_t3,[7;8;4;9;10;6])] [7;5;0;8;9;2;10;3]) (-1) 1);
  (*1209*) AddTo n_t4new (Plain (Einsum [(n_t2,[0;1;2;3]); (n_v'ooov,[1;4;5;3]); (n_t3,[6;7;4;8;9;10])] [6;5;0;7;8;2;9;10]));
  (*1210*) AddTo n_t4new (Times (Einsum [(n_t2,[0;1;2;3]); (n_v'ooov,[1;4;5;6]); (n_t3,[7;8;4;9;10;6])] [7;8;0;5;9;2;3;10]) (-1) 1);
  (*1211*) AddTo n_t4new (Plain (Einsum [(n_t2,[0;1;2;3]); (n_v'ooov,[1;4;5;6]); (n_t3,[7;8;4;9;10;6])] [7;8;0;5;9;2;10;3]));
  (*1212*) AddTo n_t4new (Times (Einsum [(n_t2,[0;1;2;3]); (n_v'ooov,[1;4;5;3]); (n_t3,[6;7;4;8;9;10])] [6;7;0;5;8;2;9;10]) (-1) 1);
  (*1213*) AddTo n_t4new (Times (Einsum [(n_t2,[0;1;2;3]); (n_v'ooov,[1;4;5;6]); (n_t3,[7;8;4;9;10;6])] [5;7;0;8;9;10;2;3]) (-1) 1);
  (*1214*) AddTo n_t4new (Plain (Einsum [(n_t2,[0;1;2;3]); (n_v'ooov,[1;4;5;3]); (n_t3,[6;7;4;8;9;10])] [5;6;0;7;8;9;2;10]));
  (*1215*) AddTo n_t4new (Plain (Einsum [(n_t2,[0;1;2;3]); (n_v'ooov,[1;4;5;6]); (n_t3,[7;8;4;9;10;6])] [7;5;0;8;9;10;2;3]));
  (*1216*) AddTo n_t4new (Times (Einsum [(n_t2,[0;1;2;3]); (n_v'ooov,[1;4;5;3]); (n_t3,[6;7;4;8;9;10])] [6;5;0;7;8;9;2;10]) (-1) 1);
  (*1217*) AddTo n_t4new (Times (Einsum [(n_t2,[0;1;2;3]); (n_v'ooov,[1;4;5;6]); (n_t3,[7;8;4;9;10;6])] [7;8;0;5;9;10;2;3]) (-1) 1);
  (*1218*) AddTo n_t4new (Plain (Einsum [(n_t2,[0;1;2;3]); (n_v'ooov,[1;4;5;3]); (n_t3,[6;7;4;8;9;10])] [6;7;0;5;8;9;2;10]));
  (*1219*) AddTo n_t4new (Times (Einsum [(n_t2,[0;1;2;3]); (n_v'ooov,[1;4;5;3]); (n_t3,[6;7;4;8;9;10])] [5;6;0;7;8;9;10;2]) (-1) 1);
  (*1220*) AddTo n_t4new (Plain (Einsum [(n_t2,[0;1;2;3]); (n_v'ooov,[1;4;5;3]); (n_t3,[6;7;4;8;9;10])] [6;5;0;7;8;9;10;2]));
  (*1221*) AddTo n_t4new (Times (Einsum [(n_t2,[0;1;2;3]); (n_v'ooov,[1;4;5;3]); (n_t3,[6;7;4;8;9;10])] [6;7;0;5;8;9;10;2]) (-1) 1);
  (*1222*) AddTo n_t4new (Plain (Einsum [(n_t2,[0;1;2;3]); (n_v'ooov,[1;4;5;6]); (n_t3,[7;8;4;9;10;6])] [5;7;8;0;2;3;9;10]));
  (*1223*) AddTo n_t4new (Times (Einsum [(n_t2,[0;1;2;3]); (n_v'ooov,[1;4;5;6]); (n_t3,[7;8;4;9;10;6])] [5;7;8;0;2;9;3;10]) (-1) 1);
  (*1224*) AddTo n_t4new (Plain (Einsum [(n_t2,[0;1;2;3]); (n_v'ooov,[1;4;5;6]); (n_t3,[7;8;4;9;10;6])] [5;7;8;0;2;9;10;3]));
  (*1225*) AddTo n_t4new (Times (Einsum [(n_t2,[0;1;2;3]); (n_v'ooov,[1;4;5;3]); (n_t3,[6;7;4;8;9;10])] [5;6;7;0;2;8;9;10]) (-1) 1);
  (*1226*) AddTo n_t4new (Times (Einsum [(n_t2,[0;1;2;3]); (n_v'ooov,[1;4;5;6]); (n_t3,[7;8;4;9;10;6])] [7;5;8;0;2;3;9;10]) (-1) 1);
  (*1227*) AddTo n_t4new (Plain (Einsum [(n_t2,[0;1;2;3]); (n_v'ooov,[1;4;5;6]); (n_t3,[7;8;4;9;10;6])] [7;5;8;0;2;9;3;10]));
  (*1228*) AddTo n_t4new (Times (Einsum [(n_t2,[0;1;2;3]); (n_v'ooov,[1;4;5;6]); (n_t3,[7;8;4;9;10;6])] [7;5;8;0;2;9;10;3]) (-1) 1);
  (*1229*) AddTo n_t4new (Plain (Einsum [(n_t2,[0;1;2;3]); (n_v'ooov,[1;4;5;3]); (n_t3,[6;7;4;8;9;10])] [6;5;7;0;2;8;9;10]));
  (*1230*) AddTo n_t4new (Plain (Einsum [(n_t2,[0;1;2;3]); (n_v'ooov,[1;4;5;6]); (n_t3,[7;8;4;9;10;6])] [7;8;5;0;2;3;9;10]));
  (*1231*) AddTo n_t4new (Times (Einsum [(n_t2,[0;1;2;3]); (n_v'ooov,[1;4;5;6]); (n_t3,[7;8;4;9;10;6])] [7;8;5;0;2;9;3;10]) (-1) 1);
  (*1232*) AddTo n_t4new (Plain (Einsum [(n_t2,[0;1;2;3]); (n_v'ooov,[1;4;5;6]); (n_t3,[7;8;4;9;10;6])] [7;8;5;0;2;9;10;3]));
  (*1233*) AddTo n_t4new (Times (Einsum [(n_t2,[0;1;2;3]); (n_v'ooov,[1;4;5;3]); (n_t3,[6;7;4;8;9;10])] [6;7;5;0;2;8;9;10]) (-1) 1);
  (*1234*) AddTo n_t4new (Plain (Einsum [(n_t2,[0;1;2;3]); (n_v'ooov,[1;4;5;6]); (n_t3,[7;8;4;9;10;6])] [5;7;8;0;9;2;3;10]));
  (*1235*) AddTo n_t4new (Times (Einsum [(n_t2,[0;1;2;3]); (n_v'ooov,[1;4;5;6]); (n_t3,[7;8;4;9;10;6])] [5;7;8;0;9;2;10;3]) (-1) 1);
  (*1236*) AddTo n_t4new (Plain (Einsum [(n_t2,[0;1;2;3]); (n_v'ooov,[1;4;5;3]); (n_t3,[6;7;4;8;9;10])] [5;6;7;0;8;2;9;10]));
  (*1237*) AddTo n_t4new (Times (Einsum [(n_t2,[0;1;2;3]); (n_v'ooov,[1;4;5;6]); (n_t3,[7;8;4;9;10;6])] [7;5;8;0;9;2;3;10]) (-1) 1);
  (*1238*) AddTo n_t4new (Plain (Einsum [(n_t2,[0;1;2;3]); (n_v'ooov,[1;4;5;6]); (n_t3,[7;8;4;9;10;6])] [7;5;8;0;9;2;10;3]));
  (*1239*) AddTo n_t4new (Times (Einsum [(n_t2,[0;1;2;3]); (n_v'ooov,[1;4;5;3]); (n_t3,[6;7;4;8;9;10])] [6;5;7;0;8;2;9;10]) (-1) 1);
  (*1240*) AddTo n_t4new (Plain (Einsum [(n_t2,[0;1;2;3]); (n_v'ooov,[1;4;5;6]); (n_t3,[7;8;4;9;10;6])] [7;8;5;0;9;2;3;10]));
  (*1241*) AddTo n_t4new (Times (Einsum [(n_t2,[0;1;2;3]); (n_v'ooov,[1;4;5;6]); (n_t3,[7;8;4;9;10;6])] [7;8;5;0;9;2;10;3]) (-1) 1);
  (*1242*) AddTo n_t4new (Plain (Einsum [(n_t2,[0;1;2;3]); (n_v'ooov,[1;4;5;3]); (n_t3,[6;7;4;8;9;10])] [6;7;5;0;8;2;9;10]));
  (*1243*) AddTo n_t4new (Plain (Einsum [(n_t2,[0;1;2;3]); (n_v'ooov,[1;4;5;6]); (n_t3,[7;8;4;9;10;6])] [5;7;8;0;9;10;2;3]));
  (*1244*) AddTo n_t4new (Times (Einsum [(n_t2,[0;1;2;3]); (n_v'ooov,[1;4;5;3]); (n_t3,[6;7;4;8;9;10])] [5;6;7;0;8;9;2;10]) (-1) 1);
  (*1245*) AddTo n_t4new (Times (Einsum [(n_t2,[0;1;2;3]); (n_v'ooov,[1;4;5;6]); (n_t3,[7;8;4;9;10;6])] [7;5;8;0;9;10;2;3]) (-1) 1);
  (*1246*) AddTo n_t4new (Plain (Einsum [(n_t2,[0;1;2;3]); (n_v'ooov,[1;4;5;3]); (n_t3,[6;7;4;8;9;10])] [6;5;7;0;8;9;2;10]));
  (*1247*) AddTo n_t4new (Plain (Einsum [(n_t2,[0;1;2;3]); (n_v'ooov,[1;4;5;6]); (n_t3,[7;8;4;9;10;6])] [7;8;5;0;9;10;2;3]));
  (*1248*) AddTo n_t4new (Times (Einsum [(n_t2,[0;1;2;3]); (n_v'ooov,[1;4;5;3]); (n_t3,[6;7;4;8;9;10])] [6;7;5;0;8;9;2;10]) (-1) 1);
  (*1249*) AddTo n_t4new (Plain (Einsum [(n_t2,[0;1;2;3]); (n_v'ooov,[1;4;5;3]); (n_t3,[6;7;4;8;9;10])] [5;6;7;0;8;9;10;2]));
  (*1250*) AddTo n_t4new (Times (Einsum [(n_t2,[0;1;2;3]); (n_v'ooov,[1;4;5;3]); (n_t3,[6;7;4;8;9;10])] [6;5;7;0;8;9;10;2]) (-1) 1);
  (*1251*) AddTo n_t4new (Plain (Einsum [(n_t2,[0;1;2;3]); (n_v'ooov,[1;4;5;3]); (n_t3,[6;7;4;8;9;10])] [6;7;5;0;8;9;10;2]));
  (*1252*) AddTo n_t4new (Times (Einsum [(n_t2,[0;1;2;3]); (n_v'ooov,[0;1;4;5]); (n_t3,[6;7;8;9;10;5])] [4;6;7;8;2;3;9;10]) (1) 2);
  (*1253*) AddTo n_t4new (Times (Einsum [(n_t2,[0;1;2;3]); (n_v'ooov,[0;1;4;5]); (n_t3,[6;7;8;9;10;5])] [4;6;7;8;2;9;3;10]) (-1) 2);
  (*1254*) AddTo n_t4new (Times (Einsum [(n_t2,[0;1;2;3]); (n_v'ooov,[0;1;4;5]); (n_t3,[6;7;8;9;10;5])] [4;6;7;8;2;9;10;3]) (1) 2);
  (*1255*) AddTo n_t4new (Times (Einsum [(n_t2,[0;1;2;3]); (n_v'ooov,[0;1;4;5]); (n_t3,[6;7;8;9;10;5])] [6;4;7;8;2;3;9;10]) (-1) 2);
  (*1256*) AddTo n_t4new (Times (Einsum [(n_t2,[0;1;2;3]); (n_v'ooov,[0;1;4;5]); (n_t3,[6;7;8;9;10;5])] [6;4;7;8;2;9;3;10]) (1) 2);
  (*1257*) AddTo n_t4new (Times (Einsum [(n_t2,[0;1;2;3]); (n_v'ooov,[0;1;4;5]); (n_t3,[6;7;8;9;10;5])] [6;4;7;8;2;9;10;3]) (-1) 2);
  (*1258*) AddTo n_t4new (Times (Einsum [(n_t2,[0;1;2;3]); (n_v'ooov,[0;1;4;5]); (n_t3,[6;7;8;9;10;5])] [6;7;4;8;2;3;9;10]) (1) 2);
  (*1259*) AddTo n_t4new (Times (Einsum [(n_t2,[0;1;2;3]); (n_v'ooov,[0;1;4;5]); (n_t3,[6;7;8;9;10;5])] [6;7;4;8;2;9;3;10]) (-1) 2);
  (*1260*) AddTo n_t4new (Times (Einsum [(n_t2,[0;1;2;3]); (n_v'ooov,[0;1;4;5]); (n_t3,[6;7;8;9;10;5])] [6;7;4;8;2;9;10;3]) (1) 2);
  (*1261*) AddTo n_t4new (Times (Einsum [(n_t2,[0;1;2;3]); (n_v'ooov,[0;1;4;5]); (n_t3,[6;7;8;9;10;5])] [6;7;8;4;2;3;9;10]) (-1) 2);
  (*1262*) AddTo n_t4new (Times (Einsum [(n_t2,[0;1;2;3]); (n_v'ooov,[0;1;4;5]); (n_t3,[6;7;8;9;10;5])] [6;7;8;4;2;9;3;10]) (1) 2);
  (*1263*) AddTo n_t4new (Times (Einsum [(n_t2,[0;1;2;3]); (n_v'ooov,[0;1;4;5]); (n_t3,[6;7;8;9;10;5])] [6;7;8;4;2;9;10;3]) (-1) 2);
  (*1264*) AddTo n_t4new (Times (Einsum [(n_t2,[0;1;2;3]); (n_v'ooov,[0;1;4;5]); (n_t3,[6;7;8;9;10;5])] [4;6;7;8;9;2;3;10]) (1) 2);
  (*1265*) AddTo n_t4new (Times (Einsum [(n_t2,[0;1;2;3]); (n_v'ooov,[0;1;4;5]); (n_t3,[6;7;8;9;10;5])] [4;6;7;8;9;2;10;3]) (-1) 2);
  (*1266*) AddTo n_t4new (Times (Einsum [(n_t2,[0;1;2;3]); (n_v'ooov,[0;1;4;5]); (n_t3,[6;7;8;9;10;5])] [6;4;7;8;9;2;3;10]) (-1) 2);
  (*1267*) AddTo n_t4new (Times (Einsum [(n_t2,[0;1;2;3]); (n_v'ooov,[0;1;4;5]); (n_t3,[6;7;8;9;10;5])] [6;4;7;8;9;2;10;3]) (1) 2);
  (*1268*) AddTo n_t4new (Times (Einsum [(n_t2,[0;1;2;3]); (n_v'ooov,[0;1;4;5]); (n_t3,[6;7;8;9;10;5])] [6;7;4;8;9;2;3;10]) (1) 2);
  (*1269*) AddTo n_t4new (Times (Einsum [(n_t2,[0;1;2;3]); (n_v'ooov,[0;1;4;5]); (n_t3,[6;7;8;9;10;5])] [6;7;4;8;9;2;10;3]) (-1) 2);
  (*1270*) AddTo n_t4new (Times (Einsum [(n_t2,[0;1;2;3]); (n_v'ooov,[0;1;4;5]); (n_t3,[6;7;8;9;10;5])] [6;7;8;4;9;2;3;10]) (-1) 2);
  (*1271*) AddTo n_t4new (Times (Einsum [(n_t2,[0;1;2;3]); (n_v'ooov,[0;1;4;5]); (n_t3,[6;7;8;9;10;5])] [6;7;8;4;9;2;10;3]) (1) 2);
  (*1272*) AddTo n_t4new (Times (Einsum [(n_t2,[0;1;2;3]); (n_v'ooov,[0;1;4;5]); (n_t3,[6;7;8;9;10;5])] [4;6;7;8;9;10;2;3]) (1) 2);
  (*1273*) AddTo n_t4new (Times (Einsum [(n_t2,[0;1;2;3]); (n_v'ooov,[0;1;4;5]); (n_t3,[6;7;8;9;10;5])] [6;4;7;8;9;10;2;3]) (-1) 2);
  (*1274*) AddTo n_t4new (Times (Einsum [(n_t2,[0;1;2;3]); (n_v'ooov,[0;1;4;5]); (n_t3,[6;7;8;9;10;5])] [6;7;4;8;9;10;2;3]) (1) 2);
  (*1275*) AddTo n_t4new (Times (Einsum [(n_t2,[0;1;2;3]); (n_v'ooov,[0;1;4;5]); (n_t3,[6;7;8;9;10;5])] [6;7;8;4;9;10;2;3]) (-1) 2);
  (*1276*) AddTo n_t4new (Plain (Einsum [(n_t2,[0;1;2;3]); (n_v'ovvv,[4;5;3;6]); (n_t3,[7;8;4;9;10;6])] [0;1;7;8;5;2;9;10]));
  (*1277*) AddTo n_t4new (Times (Einsum [(n_t2,[0;1;2;3]); (n_v'ovvv,[4;5;3;6]); (n_t3,[7;8;4;9;10;6])] [0;1;7;8;5;9;2;10]) (-1) 1);
  (*1278*) AddTo n_t4new (Plain (Einsum [(n_t2,[0;1;2;3]); (n_v'ovvv,[4;5;3;6]); (n_t3,[7;8;4;9;10;6])] [0;1;7;8;5;9;10;2]));
  (*1279*) AddTo n_t4new (Times (Einsum [(n_t2,[0;1;2;3]); (n_v'ovvv,[4;5;2;3]); (n_t3,[6;7;4;8;9;10])] [0;1;6;7;5;8;9;10]) (1) 2);
  (*1280*) AddTo n_t4new (Times (Einsum [(n_t2,[0;1;2;3]); (n_v'ovvv,[4;5;3;6]); (n_t3,[7;8;4;9;10;6])] [0;1;7;8;2;5;9;10]) (-1) 1);
  (*1281*) AddTo n_t4new (Plain (Einsum [(n_t2,[0;1;2;3]); (n_v'ovvv,[4;5;3;6]); (n_t3,[7;8;4;9;10;6])] [0;1;7;8;9;5;2;10]));
  (*1282*) AddTo n_t4new (Times (Einsum [(n_t2,[0;1;2;3]); (n_v'ovvv,[4;5;3;6]); (n_t3,[7;8;4;9;10;6])] [0;1;7;8;9;5;10;2]) (-1) 1);
  (*1283*) AddTo n_t4new (Times (Einsum [(n_t2,[0;1;2;3]); (n_v'ovvv,[4;5;2;3]); (n_t3,[6;7;4;8;9;10])] [0;1;6;7;8;5;9;10]) (-1) 2);
  (*1284*) AddTo n_t4new (Plain (Einsum [(n_t2,[0;1;2;3]); (n_v'ovvv,[4;5;3;6]); (n_t3,[7;8;4;9;10;6])] [0;1;7;8;2;9;5;10]));
  (*1285*) AddTo n_t4new (Times (Einsum [(n_t2,[0;1;2;3]); (n_v'ovvv,[4;5;3;6]); (n_t3,[7;8;4;9;10;6])] [0;1;7;8;9;2;5;10]) (-1) 1);
  (*1286*) AddTo n_t4new (Plain (Einsum [(n_t2,[0;1;2;3]); (n_v'ovvv,[4;5;3;6]); (n_t3,[7;8;4;9;10;6])] [0;1;7;8;9;10;5;2]));
  (*1287*) AddTo n_t4new (Times (Einsum [(n_t2,[0;1;2;3]); (n_v'ovvv,[4;5;2;3]); (n_t3,[6;7;4;8;9;10])] [0;1;6;7;8;9;5;10]) (1) 2);
  (*1288*) AddTo n_t4new (Times (Einsum [(n_t2,[0;1;2;3]); (n_v'ovvv,[4;5;3;6]); (n_t3,[7;8;4;9;10;6])] [0;1;7;8;2;9;10;5]) (-1) 1);
  (*1289*) AddTo n_t4new (Plain (Einsum [(n_t2,[0;1;2;3]); (n_v'ovvv,[4;5;3;6]); (n_t3,[7;8;4;9;10;6])] [0;1;7;8;9;2;10;5]));
  (*1290*) AddTo n_t4new (Times (Einsum [(n_t2,[0;1;2;3]); (n_v'ovvv,[4;5;3;6]); (n_t3,[7;8;4;9;10;6])] [0;1;7;8;9;10;2;5]) (-1) 1);
  (*1291*) AddTo n_t4new (Times (Einsum [(n_t2,[0;1;2;3]); (n_v'ovvv,[4;5;2;3]); (n_t3,[6;7;4;8;9;10])] [0;1;6;7;8;9;10;5]) (-1) 2);
  (*1292*) AddTo n_t4new (Times (Einsum [(n_t2,[0;1;2;3]); (n_v'ovvv,[4;5;3;6]); (n_t3,[7;8;4;9;10;6])] [0;7;1;8;5;2;9;10]) (-1) 1);
  (*1293*) AddTo n_t4new (Plain (Einsum [(n_t2,[0;1;2;3]); (n_v'ovvv,[4;5;3;6]); (n_t3,[7;8;4;9;10;6])] [0;7;1;8;5;9;2;10]));
  (*1294*) AddTo n_t4new (Times (Einsum [(n_t2,[0;1;2;3]); (n_v'ovvv,[4;5;3;6]); (n_t3,[7;8;4;9;10;6])] [0;7;1;8;5;9;10;2]) (-1) 1);
  (*1295*) AddTo n_t4new (Times (Einsum [(n_t2,[0;1;2;3]); (n_v'ovvv,[4;5;2;3]); (n_t3,[6;7;4;8;9;10])] [0;6;1;7;5;8;9;10]) (-1) 2);
  (*1296*) AddTo n_t4new (Plain (Einsum [(n_t2,[0;1;2;3]); (n_v'ovvv,[4;5;3;6]); (n_t3,[7;8;4;9;10;6])] [0;7;1;8;2;5;9;10]));
  (*1297*) AddTo n_t4new (Times (Einsum [(n_t2,[0;1;2;3]); (n_v'ovvv,[4;5;3;6]); (n_t3,[7;8;4;9;10;6])] [0;7;1;8;9;5;2;10]) (-1) 1);
  (*1298*) AddTo n_t4new (Plain (Einsum [(n_t2,[0;1;2;3]); (n_v'ovvv,[4;5;3;6]); (n_t3,[7;8;4;9;10;6])] [0;7;1;8;9;5;10;2]));
  (*1299*) AddTo n_t4new (Times (Einsum [(n_t2,[0;1;2;3]); (n_v'ovvv,[4;5;2;3]); (n_t3,[6;7;4;8;9;10])] [0;6;1;7;8;5;9;10]) (1) 2);
  (*1300*) AddTo n_t4new (Times (Einsum [(n_t2,[0;1;2;3]); (n_v'ovvv,[4;5;3;6]); (n_t3,[7;8;4;9;10;6])] [0;7;1;8;2;9;5;10]) (-1) 1);
  (*1301*) AddTo n_t4new (Plain (Einsum [(n_t2,[0;1;2;3]); (n_v'ovvv,[4;5;3;6]); (n_t3,[7;8;4;9;10;6])] [0;7;1;8;9;2;5;10]));
  (*1302*) AddTo n_t4new (Times (Einsum [(n_t2,[0;1;2;3]); (n_v'ovvv,[4;5;3;6]); (n_t3,[7;8;4;9;10;6])] [0;7;1;8;9;10;5;2]) (-1) 1);
  (*1303*) AddTo n_t4new (Times (Einsum [(n_t2,[0;1;2;3]); (n_v'ovvv,[4;5;2;3]); (n_t3,[6;7;4;8;9;10])] [0;6;1;7;8;9;5;10]) (-1) 2);
  (*1304*) AddTo n_t4new (Plain (Einsum [(n_t2,[0;1;2;3]); (n_v'ovvv,[4;5;3;6]); (n_t3,[7;8;4;9;10;6])] [0;7;1;8;2;9;10;5]));
  (*1305*) AddTo n_t4new (Times (Einsum [(n_t2,[0;1;2;3]); (n_v'ovvv,[4;5;3;6]); (n_t3,[7;8;4;9;10;6])] [0;7;1;8;9;2;10;5]) (-1) 1);
  (*1306*) AddTo n_t4new (Plain (Einsum [(n_t2,[0;1;2;3]); (n_v'ovvv,[4;5;3;6]); (n_t3,[7;8;4;9;10;6])] [0;7;1;8;9;10;2;5]));
  (*1307*) AddTo n_t4new (Times (Einsum [(n_t2,[0;1;2;3]); (n_v'ovvv,[4;5;2;3]); (n_t3,[6;7;4;8;9;10])] [0;6;1;7;8;9;10;5]) (1) 2);
  (*1308*) AddTo n_t4new (Plain (Einsum [(n_t2,[0;1;2;3]); (n_v'ovvv,[4;5;3;6]); (n_t3,[7;8;4;9;10;6])] [0;7;8;1;5;2;9;10]));
  (*1309*) AddTo n_t4new (Times (Einsum [(n_t2,[0;1;2;3]); (n_v'ovvv,[4;5;3;6]); (n_t3,[7;8;4;9;10;6])] [0;7;8;1;5;9;2;10]) (-1) 1);
  (*1310*) AddTo n_t4new (Plain (Einsum [(n_t2,[0;1;2;3]); (n_v'ovvv,[4;5;3;6]); (n_t3,[7;8;4;9;10;6])] [0;7;8;1;5;9;10;2]));
  (*1311*) AddTo n_t4new (Times (Einsum [(n_t2,[0;1;2;3]); (n_v'ovvv,[4;5;2;3]); (n_t3,[6;7;4;8;9;10])] [0;6;7;1;5;8;9;10]) (1) 2);
  (*1312*) AddTo n_t4new (Times (Einsum [(n_t2,[0;1;2;3]); (n_v'ovvv,[4;5;3;6]); (n_t3,[7;8;4;9;10;6])] [0;7;8;1;2;5;9;10]) (-1) 1);
  (*1313*) AddTo n_t4new (Plain (Einsum [(n_t2,[0;1;2;3]); (n_v'ovvv,[4;5;3;6]); (n_t3,[7;8;4;9;10;6])] [0;7;8;1;9;5;2;10]));
  (*1314*) AddTo n_t4new (Times (Einsum [(n_t2,[0;1;2;3]); (n_v'ovvv,[4;5;3;6]); (n_t3,[7;8;4;9;10;6])] [0;7;8;1;9;5;10;2]) (-1) 1);
  (*1315*) AddTo n_t4new (Times (Einsum [(n_t2,[0;1;2;3]); (n_v'ovvv,[4;5;2;3]); (n_t3,[6;7;4;8;9;10])] [0;6;7;1;8;5;9;10]) (-1) 2);
  (*1316*) AddTo n_t4new (Plain (Einsum [(n_t2,[0;1;2;3]); (n_v'ovvv,[4;5;3;6]); (n_t3,[7;8;4;9;10;6])] [0;7;8;1;2;9;5;10]));
  (*1317*) AddTo n_t4new (Times (Einsum [(n_t2,[0;1;2;3]); (n_v'ovvv,[4;5;3;6]); (n_t3,[7;8;4;9;10;6])] [0;7;8;1;9;2;5;10]) (-1) 1);
  (*1318*) AddTo n_t4new (Plain (Einsum [(n_t2,[0;1;2;3]); (n_v'ovvv,[4;5;3;6]); (n_t3,[7;8;4;9;10;6])] [0;7;8;1;9;10;5;2]));
  (*1319*) AddTo n_t4new (Times (Einsum [(n_t2,[0;1;2;3]); (n_v'ovvv,[4;5;2;3]); (n_t3,[6;7;4;8;9;10])] [0;6;7;1;8;9;5;10]) (1) 2);
  (*1320*) AddTo n_t4new (Times (Einsum [(n_t2,[0;1;2;3]); (n_v'ovvv,[4;5;3;6]); (n_t3,[7;8;4;9;10;6])] [0;7;8;1;2;9;10;5]) (-1) 1);
  (*1321*) AddTo n_t4new (Plain (Einsum [(n_t2,[0;1;2;3]); (n_v'ovvv,[4;5;3;6]); (n_t3,[7;8;4;9;10;6])] [0;7;8;1;9;2;10;5]));
  (*1322*) AddTo n_t4new (Times (Einsum [(n_t2,[0;1;2;3]); (n_v'ovvv,[4;5;3;6]); (n_t3,[7;8;4;9;10;6])] [0;7;8;1;9;10;2;5]) (-1) 1);
  (*1323*) AddTo n_t4new (Times (Einsum [(n_t2,[0;1;2;3]); (n_v'ovvv,[4;5;2;3]); (n_t3,[6;7;4;8;9;10])] [0;6;7;1;8;9;10;5]) (-1) 2);
  (*1324*) AddTo n_t4new (Times (Einsum [(n_t2,[0;1;2;3]); (n_v'ovvv,[1;4;5;6]); (n_t3,[7;8;9;10;5;6])] [0;7;8;9;4;2;3;10]) (-1) 2);
  (*1325*) AddTo n_t4new (Times (Einsum [(n_t2,[0;1;2;3]); (n_v'ovvv,[1;4;5;6]); (n_t3,[7;8;9;10;5;6])] [0;7;8;9;4;2;10;3]) (1) 2);
  (*1326*) AddTo n_t4new (Times (Einsum [(n_t2,[0;1;2;3]); (n_v'ovvv,[1;4;3;5]); (n_t3,[6;7;8;9;10;5])] [0;6;7;8;4;2;9;10]) (-1) 1);
  (*1327*) AddTo n_t4new (Times (Einsum [(n_t2,[0;1;2;3]); (n_v'ovvv,[1;4;5;6]); (n_t3,[7;8;9;10;5;6])] [0;7;8;9;4;10;2;3]) (-1) 2);
  (*1328*) AddTo n_t4new (Plain (Einsum [(n_t2,[0;1;2;3]); (n_v'ovvv,[1;4;3;5]); (n_t3,[6;7;8;9;10;5])] [0;6;7;8;4;9;2;10]));
  (*1329*) AddTo n_t4new (Times (Einsum [(n_t2,[0;1;2;3]); (n_v'ovvv,[1;4;3;5]); (n_t3,[6;7;8;9;10;5])] [0;6;7;8;4;9;10;2]) (-1) 1);
  (*1330*) AddTo n_t4new (Times (Einsum [(n_t2,[0;1;2;3]); (n_v'ovvv,[1;4;5;6]); (n_t3,[7;8;9;10;5;6])] [0;7;8;9;2;4;3;10]) (1) 2);
  (*1331*) AddTo n_t4new (Times (Einsum [(n_t2,[0;1;2;3]); (n_v'ovvv,[1;4;5;6]); (n_t3,[7;8;9;10;5;6])] [0;7;8;9;2;4;10;3]) (-1) 2);
  (*1332*) AddTo n_t4new (Plain (Einsum [(n_t2,[0;1;2;3]); (n_v'ovvv,[1;4;3;5]); (n_t3,[6;7;8;9;10;5])] [0;6;7;8;2;4;9;10]));
  (*1333*) AddTo n_t4new (Times (Einsum [(n_t2,[0;1;2;3]); (n_v'ovvv,[1;4;5;6]); (n_t3,[7;8;9;10;5;6])] [0;7;8;9;10;4;2;3]) (1) 2);
  (*1334*) AddTo n_t4new (Times (Einsum [(n_t2,[0;1;2;3]); (n_v'ovvv,[1;4;3;5]); (n_t3,[6;7;8;9;10;5])] [0;6;7;8;9;4;2;10]) (-1) 1);
  (*1335*) AddTo n_t4new (Plain (Einsum [(n_t2,[0;1;2;3]); (n_v'ovvv,[1;4;3;5]); (n_t3,[6;7;8;9;10;5])] [0;6;7;8;9;4;10;2]));
  (*1336*) AddTo n_t4new (Times (Einsum [(n_t2,[0;1;2;3]); (n_v'ovvv,[1;4;5;6]); (n_t3,[7;8;9;10;5;6])] [0;7;8;9;2;3;4;10]) (-1) 2);
  (*1337*) AddTo n_t4new (Times (Einsum [(n_t2,[0;1;2;3]); (n_v'ovvv,[1;4;5;6]); (n_t3,[7;8;9;10;5;6])] [0;7;8;9;2;10;4;3]) (1) 2);
  (*1338*) AddTo n_t4new (Times (Einsum [(n_t2,[0;1;2;3]); (n_v'ovvv,[1;4;3;5]); (n_t3,[6;7;8;9;10;5])] [0;6;7;8;2;9;4;10]) (-1) 1);
  (*1339*) AddTo n_t4new (Times (Einsum [(n_t2,[0;1;2;3]); (n_v'ovvv,[1;4;5;6]); (n_t3,[7;8;9;10;5;6])] [0;7;8;9;10;2;4;3]) (-1) 2);
  (*1340*) AddTo n_t4new (Plain (Einsum [(n_t2,[0;1;2;3]); (n_v'ovvv,[1;4;3;5]); (n_t3,[6;7;8;9;10;5])] [0;6;7;8;9;2;4;10]));
  (*1341*) AddTo n_t4new (Times (Einsum [(n_t2,[0;1;2;3]); (n_v'ovvv,[1;4;3;5]); (n_t3,[6;7;8;9;10;5])] [0;6;7;8;9;10;4;2]) (-1) 1);
  (*1342*) AddTo n_t4new (Times (Einsum [(n_t2,[0;1;2;3]); (n_v'ovvv,[1;4;5;6]); (n_t3,[7;8;9;10;5;6])] [0;7;8;9;2;3;10;4]) (1) 2);
  (*1343*) AddTo n_t4new (Times (Einsum [(n_t2,[0;1;2;3]); (n_v'ovvv,[1;4;5;6]); (n_t3,[7;8;9;10;5;6])] [0;7;8;9;2;10;3;4]) (-1) 2);
  (*1344*) AddTo n_t4new (Plain (Einsum [(n_t2,[0;1;2;3]); (n_v'ovvv,[1;4;3;5]); (n_t3,[6;7;8;9;10;5])] [0;6;7;8;2;9;10;4]));
  (*1345*) AddTo n_t4new (Times (Einsum [(n_t2,[0;1;2;3]); (n_v'ovvv,[1;4;5;6]); (n_t3,[7;8;9;10;5;6])] [0;7;8;9;10;2;3;4]) (1) 2);
  (*1346*) AddTo n_t4new (Times (Einsum [(n_t2,[0;1;2;3]); (n_v'ovvv,[1;4;3;5]); (n_t3,[6;7;8;9;10;5])] [0;6;7;8;9;2;10;4]) (-1) 1);
  (*1347*) AddTo n_t4new (Plain (Einsum [(n_t2,[0;1;2;3]); (n_v'ovvv,[1;4;3;5]); (n_t3,[6;7;8;9;10;5])] [0;6;7;8;9;10;2;4]));
  (*1348*) AddTo n_t4new (Plain (Einsum [(n_t2,[0;1;2;3]); (n_v'ovvv,[4;5;3;6]); (n_t3,[7;8;4;9;10;6])] [7;0;1;8;5;2;9;10]));
  (*1349*) AddTo n_t4new (Times (Einsum [(n_t2,[0;1;2;3]); (n_v'ovvv,[4;5;3;6]); (n_t3,[7;8;4;9;10;6])] [7;0;1;8;5;9;2;10]) (-1) 1);
  (*1350*) AddTo n_t4new (Plain (Einsum [(n_t2,[0;1;2;3]); (n_v'ovvv,[4;5;3;6]); (n_t3,[7;8;4;9;10;6])] [7;0;1;8;5;9;10;2]));
  (*1351*) AddTo n_t4new (Times (Einsum [(n_t2,[0;1;2;3]); (n_v'ovvv,[4;5;2;3]); (n_t3,[6;7;4;8;9;10])] [6;0;1;7;5;8;9;10]) (1) 2);
  (*1352*) AddTo n_t4new (Times (Einsum [(n_t2,[0;1;2;3]); (n_v'ovvv,[4;5;3;6]); (n_t3,[7;8;4;9;10;6])] [7;0;1;8;2;5;9;10]) (-1) 1);
  (*1353*) AddTo n_t4new (Plain (Einsum [(n_t2,[0;1;2;3]); (n_v'ovvv,[4;5;3;6]); (n_t3,[7;8;4;9;10;6])] [7;0;1;8;9;5;2;10]));
  (*1354*) AddTo n_t4new (Times (Einsum [(n_t2,[0;1;2;3]); (n_v'ovvv,[4;5;3;6]); (n_t3,[7;8;4;9;10;6])] [7;0;1;8;9;5;10;2]) (-1) 1);
  (*1355*) AddTo n_t4new (Times (Einsum [(n_t2,[0;1;2;3]); (n_v'ovvv,[4;5;2;3]); (n_t3,[6;7;4;8;9;10])] [6;0;1;7;8;5;9;10]) (-1) 2);
  (*1356*) AddTo n_t4new (Plain (Einsum [(n_t2,[0;1;2;3]); (n_v'ovvv,[4;5;3;6]); (n_t3,[7;8;4;9;10;6])] [7;0;1;8;2;9;5;10]));
  (*1357*) AddTo n_t4new (Times (Einsum [(n_t2,[0;1;2;3]); (n_v'ovvv,[4;5;3;6]); (n_t3,[7;8;4;9;10;6])] [7;0;1;8;9;2;5;10]) (-1) 1);
  (*1358*) AddTo n_t4new (Plain (Einsum [(n_t2,[0;1;2;3]); (n_v'ovvv,[4;5;3;6]); (n_t3,[7;8;4;9;10;6])] [7;0;1;8;9;10;5;2]));
  (*1359*) AddTo n_t4new (Times (Einsum [(n_t2,[0;1;2;3]); (n_v'ovvv,[4;5;2;3]); (n_t3,[6;7;4;8;9;10])] [6;0;1;7;8;9;5;10]) (1) 2);
  (*1360*) AddTo n_t4new (Times (Einsum [(n_t2,[0;1;2;3]); (n_v'ovvv,[4;5;3;6]); (n_t3,[7;8;4;9;10;6])] [7;0;1;8;2;9;10;5]) (-1) 1);
  (*1361*) AddTo n_t4new (Plain (Einsum [(n_t2,[0;1;2;3]); (n_v'ovvv,[4;5;3;6]); (n_t3,[7;8;4;9;10;6])] [7;0;1;8;9;2;10;5]));
  (*1362*) AddTo n_t4new (Times (Einsum [(n_t2,[0;1;2;3]); (n_v'ovvv,[4;5;3;6]); (n_t3,[7;8;4;9;10;6])] [7;0;1;8;9;10;2;5]) (-1) 1);
  (*1363*) AddTo n_t4new (Times (Einsum [(n_t2,[0;1;2;3]); (n_v'ovvv,[4;5;2;3]); (n_t3,[6;7;4;8;9;10])] [6;0;1;7;8;9;10;5]) (-1) 2);
  (*1364*) AddTo n_t4new (Times (Einsum [(n_t2,[0;1;2;3]); (n_v'ovvv,[4;5;3;6]); (n_t3,[7;8;4;9;10;6])] [7;0;8;1;5;2;9;10]) (-1) 1);
  (*1365*) AddTo n_t4new (Plain (Einsum [(n_t2,[0;1;2;3]); (n_v'ovvv,[4;5;3;6]); (n_t3,[7;8;4;9;10;6])] [7;0;8;1;5;9;2;10]));
  (*1366*) AddTo n_t4new (Times (Einsum [(n_t2,[0;1;2;3]); (n_v'ovvv,[4;5;3;6]); (n_t3,[7;8;4;9;10;6])] [7;0;8;1;5;9;10;2]) (-1) 1);
  (*1367*) AddTo n_t4new (Times (Einsum [(n_t2,[0;1;2;3]); (n_v'ovvv,[4;5;2;3]); (n_t3,[6;7;4;8;9;10])] [6;0;7;1;5;8;9;10]) (-1) 2);
  (*1368*) AddTo n_t4new (Plain (Einsum [(n_t2,[0;1;2;3]); (n_v'ovvv,[4;5;3;6]); (n_t3,[7;8;4;9;10;6])] [7;0;8;1;2;5;9;10]));
  (*1369*) AddTo n_t4new (Times (Einsum [(n_t2,[0;1;2;3]); (n_v'ovvv,[4;5;3;6]); (n_t3,[7;8;4;9;10;6])] [7;0;8;1;9;5;2;10]) (-1) 1);
  (*1370*) AddTo n_t4new (Plain (Einsum [(n_t2,[0;1;2;3]); (n_v'ovvv,[4;5;3;6]); (n_t3,[7;8;4;9;10;6])] [7;0;8;1;9;5;10;2]));
  (*1371*) AddTo n_t4new (Times (Einsum [(n_t2,[0;1;2;3]); (n_v'ovvv,[4;5;2;3]); (n_t3,[6;7;4;8;9;10])] [6;0;7;1;8;5;9;10]) (1) 2);
  (*1372*) AddTo n_t4new (Times (Einsum [(n_t2,[0;1;2;3]); (n_v'ovvv,[4;5;3;6]); (n_t3,[7;8;4;9;10;6])] [7;0;8;1;2;9;5;10]) (-1) 1);
  (*1373*) AddTo n_t4new (Plain (Einsum [(n_t2,[0;1;2;3]); (n_v'ovvv,[4;5;3;6]); (n_t3,[7;8;4;9;10;6])] [7;0;8;1;9;2;5;10]));
  (*1374*) AddTo n_t4new (Times (Einsum [(n_t2,[0;1;2;3]); (n_v'ovvv,[4;5;3;6]); (n_t3,[7;8;4;9;10;6])] [7;0;8;1;9;10;5;2]) (-1) 1);
  (*1375*) AddTo n_t4new (Times (Einsum [(n_t2,[0;1;2;3]); (n_v'ovvv,[4;5;2;3]); (n_t3,[6;7;4;8;9;10])] [6;0;7;1;8;9;5;10]) (-1) 2);
  (*1376*) AddTo n_t4new (Plain (Einsum [(n_t2,[0;1;2;3]); (n_v'ovvv,[4;5;3;6]); (n_t3,[7;8;4;9;10;6])] [7;0;8;1;2;9;10;5]));
  (*1377*) AddTo n_t4new (Times (Einsum [(n_t2,[0;1;2;3]); (n_v'ovvv,[4;5;3;6]); (n_t3,[7;8;4;9;10;6])] [7;0;8;1;9;2;10;5]) (-1) 1);
  (*1378*) AddTo n_t4new (Plain (Einsum [(n_t2,[0;1;2;3]); (n_v'ovvv,[4;5;3;6]); (n_t3,[7;8;4;9;10;6])] [7;0;8;1;9;10;2;5]));
  (*1379*) AddTo n_t4new (Times (Einsum [(n_t2,[0;1;2;3]); (n_v'ovvv,[4;5;2;3]); (n_t3,[6;7;4;8;9;10])] [6;0;7;1;8;9;10;5]) (1) 2);
  (*1380*) AddTo n_t4new (Times (Einsum [(n_t2,[0;1;2;3]); (n_v'ovvv,[1;4;5;6]); (n_t3,[7;8;9;10;5;6])] [7;0;8;9;4;2;3;10]) (1) 2);
  (*1381*) AddTo n_t4new (Times (Einsum [(n_t2,[0;1;2;3]); (n_v'ovvv,[1;4;5;6]); (n_t3,[7;8;9;10;5;6])] [7;0;8;9;4;2;10;3]) (-1) 2);
  (*1382*) AddTo n_t4new (Plain (Einsum [(n_t2,[0;1;2;3]); (n_v'ovvv,[1;4;3;5]); (n_t3,[6;7;8;9;10;5])] [6;0;7;8;4;2;9;10]));
  (*1383*) AddTo n_t4new (Times (Einsum [(n_t2,[0;1;2;3]); (n_v'ovvv,[1;4;5;6]); (n_t3,[7;8;9;10;5;6])] [7;0;8;9;4;10;2;3]) (1) 2);
  (*1384*) AddTo n_t4new (Times (Einsum [(n_t2,[0;1;2;3]); (n_v'ovvv,[1;4;3;5]); (n_t3,[6;7;8;9;10;5])] [6;0;7;8;4;9;2;10]) (-1) 1);
  (*1385*) AddTo n_t4new (Plain (Einsum [(n_t2,[0;1;2;3]); (n_v'ovvv,[1;4;3;5]); (n_t3,[6;7;8;9;10;5])] [6;0;7;8;4;9;10;2]));
  (*1386*) AddTo n_t4new (Times (Einsum [(n_t2,[0;1;2;3]); (n_v'ovvv,[1;4;5;6]); (n_t3,[7;8;9;10;5;6])] [7;0;8;9;2;4;3;10]) (-1) 2);
  (*1387*) AddTo n_t4new (Times (Einsum [(n_t2,[0;1;2;3]); (n_v'ovvv,[1;4;5;6]); (n_t3,[7;8;9;10;5;6])] [7;0;8;9;2;4;10;3]) (1) 2);
  (*1388*) AddTo n_t4new (Times (Einsum [(n_t2,[0;1;2;3]); (n_v'ovvv,[1;4;3;5]); (n_t3,[6;7;8;9;10;5])] [6;0;7;8;2;4;9;10]) (-1) 1);
  (*1389*) AddTo n_t4new (Times (Einsum [(n_t2,[0;1;2;3]); (n_v'ovvv,[1;4;5;6]); (n_t3,[7;8;9;10;5;6])] [7;0;8;9;10;4;2;3]) (-1) 2);
  (*1390*) AddTo n_t4new (Plain (Einsum [(n_t2,[0;1;2;3]); (n_v'ovvv,[1;4;3;5]); (n_t3,[6;7;8;9;10;5])] [6;0;7;8;9;4;2;10]));
  (*1391*) AddTo n_t4new (Times (Einsum [(n_t2,[0;1;2;3]); (n_v'ovvv,[1;4;3;5]); (n_t3,[6;7;8;9;10;5])] [6;0;7;8;9;4;10;2]) (-1) 1);
  (*1392*) AddTo n_t4new (Times (Einsum [(n_t2,[0;1;2;3]); (n_v'ovvv,[1;4;5;6]); (n_t3,[7;8;9;10;5;6])] [7;0;8;9;2;3;4;10]) (1) 2);
  (*1393*) AddTo n_t4new (Times (Einsum [(n_t2,[0;1;2;3]); (n_v'ovvv,[1;4;5;6]); (n_t3,[7;8;9;10;5;6])] [7;0;8;9;2;10;4;3]) (-1) 2);
  (*1394*) AddTo n_t4new (Plain (Einsum [(n_t2,[0;1;2;3]); (n_v'ovvv,[1;4;3;5]); (n_t3,[6;7;8;9;10;5])] [6;0;7;8;2;9;4;10]));
  (*1395*) AddTo n_t4new (Times (Einsum [(n_t2,[0;1;2;3]); (n_v'ovvv,[1;4;5;6]); (n_t3,[7;8;9;10;5;6])] [7;0;8;9;10;2;4;3]) (1) 2);
  (*1396*) AddTo n_t4new (Times (Einsum [(n_t2,[0;1;2;3]); (n_v'ovvv,[1;4;3;5]); (n_t3,[6;7;8;9;10;5])] [6;0;7;8;9;2;4;10]) (-1) 1);
  (*1397*) AddTo n_t4new (Plain (Einsum [(n_t2,[0;1;2;3]); (n_v'ovvv,[1;4;3;5]); (n_t3,[6;7;8;9;10;5])] [6;0;7;8;9;10;4;2]));
  (*1398*) AddTo n_t4new (Times (Einsum [(n_t2,[0;1;2;3]); (n_v'ovvv,[1;4;5;6]); (n_t3,[7;8;9;10;5;6])] [7;0;8;9;2;3;10;4]) (-1) 2);
  (*1399*) AddTo n_t4new (Times (Einsum [(n_t2,[0;1;2;3]); (n_v'ovvv,[1;4;5;6]); (n_t3,[7;8;9;10;5;6])] [7;0;8;9;2;10;3;4]) (1) 2);
  (*1400*) AddTo n_t4new (Times (Einsum [(n_t2,[0;1;2;3]); (n_v'ovvv,[1;4;3;5]); (n_t3,[6;7;8;9;10;5])] [6;0;7;8;2;9;10;4]) (-1) 1);
  (*1401*) AddTo n_t4new (Times (Einsum [(n_t2,[0;1;2;3]); (n_v'ovvv,[1;4;5;6]); (n_t3,[7;8;9;10;5;6])] [7;0;8;9;10;2;3;4]) (-1) 2);
  (*1402*) AddTo n_t4new (Plain (Einsum [(n_t2,[0;1;2;3]); (n_v'ovvv,[1;4;3;5]); (n_t3,[6;7;8;9;10;5])] [6;0;7;8;9;2;10;4]));
  (*1403*) AddTo n_t4new (Times (Einsum [(n_t2,[0;1;2;3]); (n_v'ovvv,[1;4;3;5]); (n_t3,[6;7;8;9;10;5])] [6;0;7;8;9;10;2;4]) (-1) 1);
  (*1404*) AddTo n_t4new (Plain (Einsum [(n_t2,[0;1;2;3]); (n_v'ovvv,[4;5;3;6]); (n_t3,[7;8;4;9;10;6])] [7;8;0;1;5;2;9;10]));
  (*1405*) AddTo n_t4new (Times (Einsum [(n_t2,[0;1;2;3]); (n_v'ovvv,[4;5;3;6]); (n_t3,[7;8;4;9;10;6])] [7;8;0;1;5;9;2;10]) (-1) 1);
  (*1406*) AddTo n_t4new (Plain (Einsum [(n_t2,[0;1;2;3]); (n_v'ovvv,[4;5;3;6]); (n_t3,[7;8;4;9;10;6])] [7;8;0;1;5;9;10;2]));
  (*1407*) AddTo n_t4new (Times (Einsum [(n_t2,[0;1;2;3]); (n_v'ovvv,[4;5;2;3]); (n_t3,[6;7;4;8;9;10])] [6;7;0;1;5;8;9;10]) (1) 2);
  (*1408*) AddTo n_t4new (Times (Einsum [(n_t2,[0;1;2;3]); (n_v'ovvv,[4;5;3;6]); (n_t3,[7;8;4;9;10;6])] [7;8;0;1;2;5;9;10]) (-1) 1);
  (*1409*) AddTo n_t4new (Plain (Einsum [(n_t2,[0;1;2;3]); (n_v'ovvv,[4;5;3;6]); (n_t3,[7;8;4;9;10;6])] [7;8;0;1;9;5;2;10]));
  (*1410*) AddTo n_t4new (Times (Einsum [(n_t2,[0;1;2;3]); (n_v'ovvv,[4;5;3;6]); (n_t3,[7;8;4;9;10;6])] [7;8;0;1;9;5;10;2]) (-1) 1);
  (*1411*) AddTo n_t4new (Times (Einsum [(n_t2,[0;1;2;3]); (n_v'ovvv,[4;5;2;3]); (n_t3,[6;7;4;8;9;10])] [6;7;0;1;8;5;9;10]) (-1) 2);
  (*1412*) AddTo n_t4new (Plain (Einsum [(n_t2,[0;1;2;3]); (n_v'ovvv,[4;5;3;6]); (n_t3,[7;8;4;9;10;6])] [7;8;0;1;2;9;5;10]));
  (*1413*) AddTo n_t4new (Times (Einsum [(n_t2,[0;1;2;3]); (n_v'ovvv,[4;5;3;6]); (n_t3,[7;8;4;9;10;6])] [7;8;0;1;9;2;5;10]) (-1) 1);
  (*1414*) AddTo n_t4new (Plain (Einsum [(n_t2,[0;1;2;3]); (n_v'ovvv,[4;5;3;6]); (n_t3,[7;8;4;9;10;6])] [7;8;0;1;9;10;5;2]));
  (*1415*) AddTo n_t4new (Times (Einsum [(n_t2,[0;1;2;3]); (n_v'ovvv,[4;5;2;3]); (n_t3,[6;7;4;8;9;10])] [6;7;0;1;8;9;5;10]) (1) 2);
  (*1416*) AddTo n_t4new (Times (Einsum [(n_t2,[0;1;2;3]); (n_v'ovvv,[4;5;3;6]); (n_t3,[7;8;4;9;10;6])] [7;8;0;1;2;9;10;5]) (-1) 1);
  (*1417*) AddTo n_t4new (Plain (Einsum [(n_t2,[0;1;2;3]); (n_v'ovvv,[4;5;3;6]); (n_t3,[7;8;4;9;10;6])] [7;8;0;1;9;2;10;5]));
  (*1418*) AddTo n_t4new (Times (Einsum [(n_t2,[0;1;2;3]); (n_v'ovvv,[4;5;3;6]); (n_t3,[7;8;4;9;10;6])] [7;8;0;1;9;10;2;5]) (-1) 1);
  (*1419*) AddTo n_t4new (Times (Einsum [(n_t2,[0;1;2;3]); (n_v'ovvv,[4;5;2;3]); (n_t3,[6;7;4;8;9;10])] [6;7;0;1;8;9;10;5]) (-1) 2);
  (*1420*) AddTo n_t4new (Times (Einsum [(n_t2,[0;1;2;3]); (n_v'ovvv,[1;4;5;6]); (n_t3,[7;8;9;10;5;6])] [7;8;0;9;4;2;3;10]) (-1) 2);
  (*1421*) AddTo n_t4new (Times (Einsum [(n_t2,[0;1;2;3]); (n_v'ovvv,[1;4;5;6]); (n_t3,[7;8;9;10;5;6])] [7;8;0;9;4;2;10;3]) (1) 2);
  (*1422*) AddTo n_t4new (Times (Einsum [(n_t2,[0;1;2;3]); (n_v'ovvv,[1;4;3;5]); (n_t3,[6;7;8;9;10;5])] [6;7;0;8;4;2;9;10]) (-1) 1);
  (*1423*) AddTo n_t4new (Times (Einsum [(n_t2,[0;1;2;3]); (n_v'ovvv,[1;4;5;6]); (n_t3,[7;8;9;10;5;6])] [7;8;0;9;4;10;2;3]) (-1) 2);
  (*1424*) AddTo n_t4new (Plain (Einsum [(n_t2,[0;1;2;3]); (n_v'ovvv,[1;4;3;5]); (n_t3,[6;7;8;9;10;5])] [6;7;0;8;4;9;2;10]));
  (*1425*) AddTo n_t4new (Times (Einsum [(n_t2,[0;1;2;3]); (n_v'ovvv,[1;4;3;5]); (n_t3,[6;7;8;9;10;5])] [6;7;0;8;4;9;10;2]) (-1) 1);
  (*1426*) AddTo n_t4new (Times (Einsum [(n_t2,[0;1;2;3]); (n_v'ovvv,[1;4;5;6]); (n_t3,[7;8;9;10;5;6])] [7;8;0;9;2;4;3;10]) (1) 2);
  (*1427*) AddTo n_t4new (Times (Einsum [(n_t2,[0;1;2;3]); (n_v'ovvv,[1;4;5;6]); (n_t3,[7;8;9;10;5;6])] [7;8;0;9;2;4;10;3]) (-1) 2);
  (*1428*) AddTo n_t4new (Plain (Einsum [(n_t2,[0;1;2;3]); (n_v'ovvv,[1;4;3;5]); (n_t3,[6;7;8;9;10;5])] [6;7;0;8;2;4;9;10]));
  (*1429*) AddTo n_t4new (Times (Einsum [(n_t2,[0;1;2;3]); (n_v'ovvv,[1;4;5;6]); (n_t3,[7;8;9;10;5;6])] [7;8;0;9;10;4;2;3]) (1) 2);
  (*1430*) AddTo n_t4new (Times (Einsum [(n_t2,[0;1;2;3]); (n_v'ovvv,[1;4;3;5]); (n_t3,[6;7;8;9;10;5])] [6;7;0;8;9;4;2;10]) (-1) 1);
  (*1431*) AddTo n_t4new (Plain (Einsum [(n_t2,[0;1;2;3]); (n_v'ovvv,[1;4;3;5]); (n_t3,[6;7;8;9;10;5])] [6;7;0;8;9;4;10;2]));
  (*1432*) AddTo n_t4new (Times (Einsum [(n_t2,[0;1;2;3]); (n_v'ovvv,[1;4;5;6]); (n_t3,[7;8;9;10;5;6])] [7;8;0;9;2;3;4;10]) (-1) 2);
  (*1433*) AddTo n_t4new (Times (Einsum [(n_t2,[0;1;2;3]); (n_v'ovvv,[1;4;5;6]); (n_t3,[7;8;9;10;5;6])] [7;8;0;9;2;10;4;3]) (1) 2);
  (*1434*) AddTo n_t4new (Times (Einsum [(n_t2,[0;1;2;3]); (n_v'ovvv,[1;4;3;5]); (n_t3,[6;7;8;9;10;5])] [6;7;0;8;2;9;4;10]) (-1) 1);
  (*1435*) AddTo n_t4new (Times (Einsum [(n_t2,[0;1;2;3]); (n_v'ovvv,[1;4;5;6]); (n_t3,[7;8;9;10;5;6])] [7;8;0;9;10;2;4;3]) (-1) 2);
  (*1436*) AddTo n_t4new (Plain (Einsum [(n_t2,[0;1;2;3]); (n_v'ovvv,[1;4;3;5]); (n_t3,[6;7;8;9;10;5])] [6;7;0;8;9;2;4;10]));
  (*1437*) AddTo n_t4new (Times (Einsum [(n_t2,[0;1;2;3]); (n_v'ovvv,[1;4;3;5]); (n_t3,[6;7;8;9;10;5])] [6;7;0;8;9;10;4;2]) (-1) 1);
  (*1438*) AddTo n_t4new (Times (Einsum [(n_t2,[0;1;2;3]); (n_v'ovvv,[1;4;5;6]); (n_t3,[7;8;9;10;5;6])] [7;8;0;9;2;3;10;4]) (1) 2);
  (*1439*) AddTo n_t4new (Times (Einsum [(n_t2,[0;1;2;3]); (n_v'ovvv,[1;4;5;6]); (n_t3,[7;8;9;10;5;6])] [7;8;0;9;2;10;3;4]) (-1) 2);
  (*1440*) AddTo n_t4new (Plain (Einsum [(n_t2,[0;1;2;3]); (n_v'ovvv,[1;4;3;5]); (n_t3,[6;7;8;9;10;5])] [6;7;0;8;2;9;10;4]));
  (*1441*) AddTo n_t4new (Times (Einsum [(n_t2,[0;1;2;3]); (n_v'ovvv,[1;4;5;6]); (n_t3,[7;8;9;10;5;6])] [7;8;0;9;10;2;3;4]) (1) 2);
  (*1442*) AddTo n_t4new (Times (Einsum [(n_t2,[0;1;2;3]); (n_v'ovvv,[1;4;3;5]); (n_t3,[6;7;8;9;10;5])] [6;7;0;8;9;2;10;4]) (-1) 1);
  (*1443*) AddTo n_t4new (Plain (Einsum [(n_t2,[0;1;2;3]); (n_v'ovvv,[1;4;3;5]); (n_t3,[6;7;8;9;10;5])] [6;7;0;8;9;10;2;4]));
  (*1444*) AddTo n_t4new (Times (Einsum [(n_t2,[0;1;2;3]); (n_v'ovvv,[1;4;5;6]); (n_t3,[7;8;9;10;5;6])] [7;8;9;0;4;2;3;10]) (1) 2);
  (*1445*) AddTo n_t4new (Times (Einsum [(n_t2,[0;1;2;3]); (n_v'ovvv,[1;4;5;6]); (n_t3,[7;8;9;10;5;6])] [7;8;9;0;4;2;10;3]) (-1) 2);
  (*1446*) AddTo n_t4new (Plain (Einsum [(n_t2,[0;1;2;3]); (n_v'ovvv,[1;4;3;5]); (n_t3,[6;7;8;9;10;5])] [6;7;8;0;4;2;9;10]));
  (*1447*) AddTo n_t4new (Times (Einsum [(n_t2,[0;1;2;3]); (n_v'ovvv,[1;4;5;6]); (n_t3,[7;8;9;10;5;6])] [7;8;9;0;4;10;2;3]) (1) 2);
  (*1448*) AddTo n_t4new (Times (Einsum [(n_t2,[0;1;2;3]); (n_v'ovvv,[1;4;3;5]); (n_t3,[6;7;8;9;10;5])] [6;7;8;0;4;9;2;10]) (-1) 1);
  (*1449*) AddTo n_t4new (Plain (Einsum [(n_t2,[0;1;2;3]); (n_v'ovvv,[1;4;3;5]); (n_t3,[6;7;8;9;10;5])] [6;7;8;0;4;9;10;2]));
  (*1450*) AddTo n_t4new (Times (Einsum [(n_t2,[0;1;2;3]); (n_v'ovvv,[1;4;5;6]); (n_t3,[7;8;9;10;5;6])] [7;8;9;0;2;4;3;10]) (-1) 2);
  (*1451*) AddTo n_t4new (Times (Einsum [(n_t2,[0;1;2;3]); (n_v'ovvv,[1;4;5;6]); (n_t3,[7;8;9;10;5;6])] [7;8;9;0;2;4;10;3]) (1) 2);
  (*1452*) AddTo n_t4new (Times (Einsum [(n_t2,[0;1;2;3]); (n_v'ovvv,[1;4;3;5]); (n_t3,[6;7;8;9;10;5])] [6;7;8;0;2;4;9;10]) (-1) 1);
  (*1453*) AddTo n_t4new (Times (Einsum [(n_t2,[0;1;2;3]); (n_v'ovvv,[1;4;5;6]); (n_t3,[7;8;9;10;5;6])] [7;8;9;0;10;4;2;3]) (-1) 2);
  (*1454*) AddTo n_t4new (Plain (Einsum [(n_t2,[0;1;2;3]); (n_v'ovvv,[1;4;3;5]); (n_t3,[6;7;8;9;10;5])] [6;7;8;0;9;4;2;10]));
  (*1455*) AddTo n_t4new (Times (Einsum [(n_t2,[0;1;2;3]); (n_v'ovvv,[1;4;3;5]); (n_t3,[6;7;8;9;10;5])] [6;7;8;0;9;4;10;2]) (-1) 1);
  (*1456*) AddTo n_t4new (Times (Einsum [(n_t2,[0;1;2;3]); (n_v'ovvv,[1;4;5;6]); (n_t3,[7;8;9;10;5;6])] [7;8;9;0;2;3;4;10]) (1) 2);
  (*1457*) AddTo n_t4new (Times (Einsum [(n_t2,[0;1;2;3]); (n_v'ovvv,[1;4;5;6]); (n_t3,[7;8;9;10;5;6])] [7;8;9;0;2;10;4;3]) (-1) 2);
  (*1458*) AddTo n_t4new (Plain (Einsum [(n_t2,[0;1;2;3]); (n_v'ovvv,[1;4;3;5]); (n_t3,[6;7;8;9;10;5])] [6;7;8;0;2;9;4;10]));
  (*1459*) AddTo n_t4new (Times (Einsum [(n_t2,[0;1;2;3]); (n_v'ovvv,[1;4;5;6]); (n_t3,[7;8;9;10;5;6])] [7;8;9;0;10;2;4;3]) (1) 2);
  (*1460*) AddTo n_t4new (Times (Einsum [(n_t2,[0;1;2;3]); (n_v'ovvv,[1;4;3;5]); (n_t3,[6;7;8;9;10;5])] [6;7;8;0;9;2;4;10]) (-1) 1);
  (*1461*) AddTo n_t4new (Plain (Einsum [(n_t2,[0;1;2;3]); (n_v'ovvv,[1;4;3;5]); (n_t3,[6;7;8;9;10;5])] [6;7;8;0;9;10;4;2]));
  (*1462*) AddTo n_t4new (Times (Einsum [(n_t2,[0;1;2;3]); (n_v'ovvv,[1;4;5;6]); (n_t3,[7;8;9;10;5;6])] [7;8;9;0;2;3;10;4]) (-1) 2);
  (*1463*) AddTo n_t4new (Times (Einsum [(n_t2,[0;1;2;3]); (n_v'ovvv,[1;4;5;6]); (n_t3,[7;8;9;10;5;6])] [7;8;9;0;2;10;3;4]) (1) 2);
  (*1464*) AddTo n_t4new (Times (Einsum [(n_t2,[0;1;2;3]); (n_v'ovvv,[1;4;3;5]); (n_t3,[6;7;8;9;10;5])] [6;7;8;0;2;9;10;4]) (-1) 1);
  (*1465*) AddTo n_t4new (Times (Einsum [(n_t2,[0;1;2;3]); (n_v'ovvv,[1;4;5;6]); (n_t3,[7;8;9;10;5;6])] [7;8;9;0;10;2;3;4]) (-1) 2);
  (*1466*) AddTo n_t4new (Plain (Einsum [(n_t2,[0;1;2;3]); (n_v'ovvv,[1;4;3;5]); (n_t3,[6;7;8;9;10;5])] [6;7;8;0;9;2;10;4]));
  (*1467*) AddTo n_t4new (Times (Einsum [(n_t2,[0;1;2;3]); (n_v'ovvv,[1;4;3;5]); (n_t3,[6;7;8;9;10;5])] [6;7;8;0;9;10;2;4]) (-1) 1);
  (*1468*) AddTo n_t4new (Times (Einsum [(n_t2,[0;1;2;3]); (n_v'oovv,[4;5;3;6]); (n_t4,[7;8;4;5;9;10;11;6])] [0;1;7;8;2;9;10;11]) (-1) 2);
  (*1469*) AddTo n_t4new (Times (Einsum [(n_t2,[0;1;2;3]); (n_v'oovv,[4;5;3;6]); (n_t4,[7;8;4;5;9;10;11;6])] [0;1;7;8;9;2;10;11]) (1) 2);
  (*1470*) AddTo n_t4new (Times (Einsum [(n_t2,[0;1;2;3]); (n_v'oovv,[4;5;3;6]); (n_t4,[7;8;4;5;9;10;11;6])] [0;1;7;8;9;10;2;11]) (-1) 2);
  (*1471*) AddTo n_t4new (Times (Einsum [(n_t2,[0;1;2;3]); (n_v'oovv,[4;5;3;6]); (n_t4,[7;8;4;5;9;10;11;6])] [0;1;7;8;9;10;11;2]) (1) 2);
  (*1472*) AddTo n_t4new (Times (Einsum [(n_t2,[0;1;2;3]); (n_v'oovv,[4;5;2;3]); (n_t4,[6;7;4;5;8;9;10;11])] [0;1;6;7;8;9;10;11]) (1) 4);
  (*1473*) AddTo n_t4new (Times (Einsum [(n_t2,[0;1;2;3]); (n_v'oovv,[4;5;3;6]); (n_t4,[7;8;4;5;9;10;11;6])] [0;7;1;8;2;9;10;11]) (1) 2);
  (*1474*) AddTo n_t4new (Times (Einsum [(n_t2,[0;1;2;3]); (n_v'oovv,[4;5;3;6]); (n_t4,[7;8;4;5;9;10;11;6])] [0;7;1;8;9;2;10;11]) (-1) 2);
  (*1475*) AddTo n_t4new (Times (Einsum [(n_t2,[0;1;2;3]); (n_v'oovv,[4;5;3;6]); (n_t4,[7;8;4;5;9;10;11;6])] [0;7;1;8;9;10;2;11]) (1) 2);
  (*1476*) AddTo n_t4new (Times (Einsum [(n_t2,[0;1;2;3]); (n_v'oovv,[4;5;3;6]); (n_t4,[7;8;4;5;9;10;11;6])] [0;7;1;8;9;10;11;2]) (-1) 2);
  (*1477*) AddTo n_t4new (Times (Einsum [(n_t2,[0;1;2;3]); (n_v'oovv,[4;5;2;3]); (n_t4,[6;7;4;5;8;9;10;11])] [0;6;1;7;8;9;10;11]) (-1) 4);
  (*1478*) AddTo n_t4new (Times (Einsum [(n_t2,[0;1;2;3]); (n_v'oovv,[4;5;3;6]); (n_t4,[7;8;4;5;9;10;11;6])] [0;7;8;1;2;9;10;11]) (-1) 2);
  (*1479*) AddTo n_t4new (Times (Einsum [(n_t2,[0;1;2;3]); (n_v'oovv,[4;5;3;6]); (n_t4,[7;8;4;5;9;10;11;6])] [0;7;8;1;9;2;10;11]) (1) 2);
  (*1480*) AddTo n_t4new (Times (Einsum [(n_t2,[0;1;2;3]); (n_v'oovv,[4;5;3;6]); (n_t4,[7;8;4;5;9;10;11;6])] [0;7;8;1;9;10;2;11]) (-1) 2);
  (*1481*) AddTo n_t4new (Times (Einsum [(n_t2,[0;1;2;3]); (n_v'oovv,[4;5;3;6]); (n_t4,[7;8;4;5;9;10;11;6])] [0;7;8;1;9;10;11;2]) (1) 2);
  (*1482*) AddTo n_t4new (Times (Einsum [(n_t2,[0;1;2;3]); (n_v'oovv,[4;5;2;3]); (n_t4,[6;7;4;5;8;9;10;11])] [0;6;7;1;8;9;10;11]) (1) 4);
  (*1483*) AddTo n_t4new (Times (Einsum [(n_t2,[0;1;2;3]); (n_v'oovv,[1;4;5;6]); (n_t4,[7;8;9;4;10;11;5;6])] [0;7;8;9;2;3;10;11]) (-1) 2);
  (*1484*) AddTo n_t4new (Times (Einsum [(n_t2,[0;1;2;3]); (n_v'oovv,[1;4;5;6]); (n_t4,[7;8;9;4;10;11;5;6])] [0;7;8;9;2;10;3;11]) (1) 2);
  (*1485*) AddTo n_t4new (Times (Einsum [(n_t2,[0;1;2;3]); (n_v'oovv,[1;4;5;6]); (n_t4,[7;8;9;4;10;11;5;6])] [0;7;8;9;2;10;11;3]) (-1) 2);
  (*1486*) AddTo n_t4new (Plain (Einsum [(n_t2,[0;1;2;3]); (n_v'oovv,[1;4;3;5]); (n_t4,[6;7;8;4;9;10;11;5])] [0;6;7;8;2;9;10;11]));
  (*1487*) AddTo n_t4new (Times (Einsum [(n_t2,[0;1;2;3]); (n_v'oovv,[1;4;5;6]); (n_t4,[7;8;9;4;10;11;5;6])] [0;7;8;9;10;2;3;11]) (-1) 2);
  (*1488*) AddTo n_t4new (Times (Einsum [(n_t2,[0;1;2;3]); (n_v'oovv,[1;4;5;6]); (n_t4,[7;8;9;4;10;11;5;6])] [0;7;8;9;10;2;11;3]) (1) 2);
  (*1489*) AddTo n_t4new (Times (Einsum [(n_t2,[0;1;2;3]); (n_v'oovv,[1;4;3;5]); (n_t4,[6;7;8;4;9;10;11;5])] [0;6;7;8;9;2;10;11]) (-1) 1);
  (*1490*) AddTo n_t4new (Times (Einsum [(n_t2,[0;1;2;3]); (n_v'oovv,[1;4;5;6]); (n_t4,[7;8;9;4;10;11;5;6])] [0;7;8;9;10;11;2;3]) (-1) 2);
  (*1491*) AddTo n_t4new (Plain (Einsum [(n_t2,[0;1;2;3]); (n_v'oovv,[1;4;3;5]); (n_t4,[6;7;8;4;9;10;11;5])] [0;6;7;8;9;10;2;11]));
  (*1492*) AddTo n_t4new (Times (Einsum [(n_t2,[0;1;2;3]); (n_v'oovv,[1;4;3;5]); (n_t4,[6;7;8;4;9;10;11;5])] [0;6;7;8;9;10;11;2]) (-1) 1);
  (*1493*) AddTo n_t4new (Times (Einsum [(n_t2,[0;1;2;3]); (n_v'oovv,[1;4;2;3]); (n_t4,[5;6;7;4;8;9;10;11])] [0;5;6;7;8;9;10;11]) (-1) 2);
  (*1494*) AddTo n_t4new (Times (Einsum [(n_t2,[0;1;2;3]); (n_v'oovv,[4;5;3;6]); (n_t4,[7;8;4;5;9;10;11;6])] [7;0;1;8;2;9;10;11]) (-1) 2);
  (*1495*) AddTo n_t4new (Times (Einsum [(n_t2,[0;1;2;3]); (n_v'oovv,[4;5;3;6]); (n_t4,[7;8;4;5;9;10;11;6])] [7;0;1;8;9;2;10;11]) (1) 2);
  (*1496*) AddTo n_t4new (Times (Einsum [(n_t2,[0;1;2;3]); (n_v'oovv,[4;5;3;6]); (n_t4,[7;8;4;5;9;10;11;6])] [7;0;1;8;9;10;2;11]) (-1) 2);
  (*1497*) AddTo n_t4new (Times (Einsum [(n_t2,[0;1;2;3]); (n_v'oovv,[4;5;3;6]); (n_t4,[7;8;4;5;9;10;11;6])] [7;0;1;8;9;10;11;2]) (1) 2);
  (*1498*) AddTo n_t4new (Times (Einsum [(n_t2,[0;1;2;3]); (n_v'oovv,[4;5;2;3]); (n_t4,[6;7;4;5;8;9;10;11])] [6;0;1;7;8;9;10;11]) (1) 4);
  (*1499*) AddTo n_t4new (Times (Einsum [(n_t2,[0;1;2;3]); (n_v'oovv,[4;5;3;6]); (n_t4,[7;8;4;5;9;10;11;6])] [7;0;8;1;2;9;10;11]) (1) 2);
  (*1500*) AddTo n_t4new (Times (Einsum [(n_t2,[0;1;2;3]); (n_v'oovv,[4;5;3;6]); (n_t4,[7;8;4;5;9;10;11;6])] [7;0;8;1;9;2;10;11]) (-1) 2);
  (*1501*) AddTo n_t4new (Times (Einsum [(n_t2,[0;1;2;3]); (n_v'oovv,[4;5;3;6]); (n_t4,[7;8;4;5;9;10;11;6])] [7;0;8;1;9;10;2;11]) (1) 2);
  (*1502*) AddTo n_t4new (Times (Einsum [(n_t2,[0;1;2;3]); (n_v'oovv,[4;5;3;6]); (n_t4,[7;8;4;5;9;10;11;6])] [7;0;8;1;9;10;11;2]) (-1) 2);
  (*1503*) AddTo n_t4new (Times (Einsum [(n_t2,[0;1;2;3]); (n_v'oovv,[4;5;2;3]); (n_t4,[6;7;4;5;8;9;10;11])] [6;0;7;1;8;9;10;11]) (-1) 4);
  (*1504*) AddTo n_t4new (Times (Einsum [(n_t2,[0;1;2;3]); (n_v'oovv,[1;4;5;6]); (n_t4,[7;8;9;4;10;11;5;6])] [7;0;8;9;2;3;10;11]) (1) 2);
  (*1505*) AddTo n_t4new (Times (Einsum [(n_t2,[0;1;2;3]); (n_v'oovv,[1;4;5;6]); (n_t4,[7;8;9;4;10;11;5;6])] [7;0;8;9;2;10;3;11]) (-1) 2);
  (*1506*) AddTo n_t4new (Times (Einsum [(n_t2,[0;1;2;3]); (n_v'oovv,[1;4;5;6]); (n_t4,[7;8;9;4;10;11;5;6])] [7;0;8;9;2;10;11;3]) (1) 2);
  (*1507*) AddTo n_t4new (Times (Einsum [(n_t2,[0;1;2;3]); (n_v'oovv,[1;4;3;5]); (n_t4,[6;7;8;4;9;10;11;5])] [6;0;7;8;2;9;10;11]) (-1) 1);
  (*1508*) AddTo n_t4new (Times (Einsum [(n_t2,[0;1;2;3]); (n_v'oovv,[1;4;5;6]); (n_t4,[7;8;9;4;10;11;5;6])] [7;0;8;9;10;2;3;11]) (1) 2);
  (*1509*) AddTo n_t4new (Times (Einsum [(n_t2,[0;1;2;3]); (n_v'oovv,[1;4;5;6]); (n_t4,[7;8;9;4;10;11;5;6])] [7;0;8;9;10;2;11;3]) (-1) 2);
  (*1510*) AddTo n_t4new (Plain (Einsum [(n_t2,[0;1;2;3]); (n_v'oovv,[1;4;3;5]); (n_t4,[6;7;8;4;9;10;11;5])] [6;0;7;8;9;2;10;11]));
  (*1511*) AddTo n_t4new (Times (Einsum [(n_t2,[0;1;2;3]); (n_v'oovv,[1;4;5;6]); (n_t4,[7;8;9;4;10;11;5;6])] [7;0;8;9;10;11;2;3]) (1) 2);
  (*1512*) AddTo n_t4new (Times (Einsum [(n_t2,[0;1;2;3]); (n_v'oovv,[1;4;3;5]); (n_t4,[6;7;8;4;9;10;11;5])] [6;0;7;8;9;10;2;11]) (-1) 1);
  (*1513*) AddTo n_t4new (Plain (Einsum [(n_t2,[0;1;2;3]); (n_v'oovv,[1;4;3;5]); (n_t4,[6;7;8;4;9;10;11;5])] [6;0;7;8;9;10;11;2]));
  (*1514*) AddTo n_t4new (Times (Einsum [(n_t2,[0;1;2;3]); (n_v'oovv,[1;4;2;3]); (n_t4,[5;6;7;4;8;9;10;11])] [5;0;6;7;8;9;10;11]) (1) 2);
  (*1515*) AddTo n_t4new (Times (Einsum [(n_t2,[0;1;2;3]); (n_v'oovv,[4;5;3;6]); (n_t4,[7;8;4;5;9;10;11;6])] [7;8;0;1;2;9;10;11]) (-1) 2);
  (*1516*) AddTo n_t4new (Times (Einsum [(n_t2,[0;1;2;3]); (n_v'oovv,[4;5;3;6]); (n_t4,[7;8;4;5;9;10;11;6])] [7;8;0;1;9;2;10;11]) (1) 2);
  (*1517*) AddTo n_t4new (Times (Einsum [(n_t2,[0;1;2;3]); (n_v'oovv,[4;5;3;6]); (n_t4,[7;8;4;5;9;10;11;6])] [7;8;0;1;9;10;2;11]) (-1) 2);
  (*1518*) AddTo n_t4new (Times (Einsum [(n_t2,[0;1;2;3]); (n_v'oovv,[4;5;3;6]); (n_t4,[7;8;4;5;9;10;11;6])] [7;8;0;1;9;10;11;2]) (1) 2);
  (*1519*) AddTo n_t4new (Times (Einsum [(n_t2,[0;1;2;3]); (n_v'oovv,[4;5;2;3]); (n_t4,[6;7;4;5;8;9;10;11])] [6;7;0;1;8;9;10;11]) (1) 4);
  (*1520*) AddTo n_t4new (Times (Einsum [(n_t2,[0;1;2;3]); (n_v'oovv,[1;4;5;6]); (n_t4,[7;8;9;4;10;11;5;6])] [7;8;0;9;2;3;10;11]) (-1) 2);
  (*1521*) AddTo n_t4new (Times (Einsum [(n_t2,[0;1;2;3]); (n_v'oovv,[1;4;5;6]); (n_t4,[7;8;9;4;10;11;5;6])] [7;8;0;9;2;10;3;11]) (1) 2);
  (*1522*) AddTo n_t4new (Times (Einsum [(n_t2,[0;1;2;3]); (n_v'oovv,[1;4;5;6]); (n_t4,[7;8;9;4;10;11;5;6])] [7;8;0;9;2;10;11;3]) (-1) 2);
  (*1523*) AddTo n_t4new (Plain (Einsum [(n_t2,[0;1;2;3]); (n_v'oovv,[1;4;3;5]); (n_t4,[6;7;8;4;9;10;11;5])] [6;7;0;8;2;9;10;11]));
  (*1524*) AddTo n_t4new (Times (Einsum [(n_t2,[0;1;2;3]); (n_v'oovv,[1;4;5;6]); (n_t4,[7;8;9;4;10;11;5;6])] [7;8;0;9;10;2;3;11]) (-1) 2);
  (*1525*) AddTo n_t4new (Times (Einsum [(n_t2,[0;1;2;3]); (n_v'oovv,[1;4;5;6]); (n_t4,[7;8;9;4;10;11;5;6])] [7;8;0;9;10;2;11;3]) (1) 2);
  (*1526*) AddTo n_t4new (Times (Einsum [(n_t2,[0;1;2;3]); (n_v'oovv,[1;4;3;5]); (n_t4,[6;7;8;4;9;10;11;5])] [6;7;0;8;9;2;10;11]) (-1) 1);
  (*1527*) AddTo n_t4new (Times (Einsum [(n_t2,[0;1;2;3]); (n_v'oovv,[1;4;5;6]); (n_t4,[7;8;9;4;10;11;5;6])] [7;8;0;9;10;11;2;3]) (-1) 2);
  (*1528*) AddTo n_t4new (Plain (Einsum [(n_t2,[0;1;2;3]); (n_v'oovv,[1;4;3;5]); (n_t4,[6;7;8;4;9;10;11;5])] [6;7;0;8;9;10;2;11]));
  (*1529*) AddTo n_t4new (Times (Einsum [(n_t2,[0;1;2;3]); (n_v'oovv,[1;4;3;5]); (n_t4,[6;7;8;4;9;10;11;5])] [6;7;0;8;9;10;11;2]) (-1) 1);
  (*1530*) AddTo n_t4new (Times (Einsum [(n_t2,[0;1;2;3]); (n_v'oovv,[1;4;2;3]); (n_t4,[5;6;7;4;8;9;10;11])] [5;6;0;7;8;9;10;11]) (-1) 2);
  (*1531*) AddTo n_t4new (Times (Einsum [(n_t2,[0;1;2;3]); (n_v'oovv,[1;4;5;6]); (n_t4,[7;8;9;4;10;11;5;6])] [7;8;9;0;2;3;10;11]) (1) 2);
  (*1532*) AddTo n_t4new (Times (Einsum [(n_t2,[0;1;2;3]); (n_v'oovv,[1;4;5;6]); (n_t4,[7;8;9;4;10;11;5;6])] [7;8;9;0;2;10;3;11]) (-1) 2);
  (*1533*) AddTo n_t4new (Times (Einsum [(n_t2,[0;1;2;3]); (n_v'oovv,[1;4;5;6]); (n_t4,[7;8;9;4;10;11;5;6])] [7;8;9;0;2;10;11;3]) (1) 2);
  (*1534*) AddTo n_t4new (Times (Einsum [(n_t2,[0;1;2;3]); (n_v'oovv,[1;4;3;5]); (n_t4,[6;7;8;4;9;10;11;5])] [6;7;8;0;2;9;10;11]) (-1) 1);
  (*1535*) AddTo n_t4new (Times (Einsum [(n_t2,[0;1;2;3]); (n_v'oovv,[1;4;5;6]); (n_t4,[7;8;9;4;10;11;5;6])] [7;8;9;0;10;2;3;11]) (1) 2);
  (*1536*) AddTo n_t4new (Times (Einsum [(n_t2,[0;1;2;3]); (n_v'oovv,[1;4;5;6]); (n_t4,[7;8;9;4;10;11;5;6])] [7;8;9;0;10;2;11;3]) (-1) 2);
  (*1537*) AddTo n_t4new (Plain (Einsum [(n_t2,[0;1;2;3]); (n_v'oovv,[1;4;3;5]); (n_t4,[6;7;8;4;9;10;11;5])] [6;7;8;0;9;2;10;11]));
  (*1538*) AddTo n_t4new (Times (Einsum [(n_t2,[0;1;2;3]); (n_v'oovv,[1;4;5;6]); (n_t4,[7;8;9;4;10;11;5;6])] [7;8;9;0;10;11;2;3]) (1) 2);
  (*1539*) AddTo n_t4new (Times (Einsum [(n_t2,[0;1;2;3]); (n_v'oovv,[1;4;3;5]); (n_t4,[6;7;8;4;9;10;11;5])] [6;7;8;0;9;10;2;11]) (-1) 1);
  (*1540*) AddTo n_t4new (Plain (Einsum [(n_t2,[0;1;2;3]); (n_v'oovv,[1;4;3;5]); (n_t4,[6;7;8;4;9;10;11;5])] [6;7;8;0;9;10;11;2]));
  (*1541*) AddTo n_t4new (Times (Einsum [(n_t2,[0;1;2;3]); (n_v'oovv,[1;4;2;3]); (n_t4,[5;6;7;4;8;9;10;11])] [5;6;7;0;8;9;10;11]) (1) 2);
  (*1542*) AddTo n_t4new (Times (Einsum [(n_t2,[0;1;2;3]); (n_v'oovv,[0;1;4;5]); (n_t4,[6;7;8;9;10;11;4;5])] [6;7;8;9;2;3;10;11]) (1) 4);
  (*1543*) AddTo n_t4new (Times (Einsum [(n_t2,[0;1;2;3]); (n_v'oovv,[0;1;4;5]); (n_t4,[6;7;8;9;10;11;4;5])] [6;7;8;9;2;10;3;11]) (-1) 4);
  (*1544*) AddTo n_t4new (Times (Einsum [(n_t2,[0;1;2;3]); (n_v'oovv,[0;1;4;5]); (n_t4,[6;7;8;9;10;11;4;5])] [6;7;8;9;2;10;11;3]) (1) 4);
  (*1545*) AddTo n_t4new (Times (Einsum [(n_t2,[0;1;2;3]); (n_v'oovv,[0;1;3;4]); (n_t4,[5;6;7;8;9;10;11;4])] [5;6;7;8;2;9;10;11]) (-1) 2);
  (*1546*) AddTo n_t4new (Times (Einsum [(n_t2,[0;1;2;3]); (n_v'oovv,[0;1;4;5]); (n_t4,[6;7;8;9;10;11;4;5])] [6;7;8;9;10;2;3;11]) (1) 4);
  (*1547*) AddTo n_t4new (Times (Einsum [(n_t2,[0;1;2;3]); (n_v'oovv,[0;1;4;5]); (n_t4,[6;7;8;9;10;11;4;5])] [6;7;8;9;10;2;11;3]) (-1) 4);
  (*1548*) AddTo n_t4new (Times (Einsum [(n_t2,[0;1;2;3]); (n_v'oovv,[0;1;3;4]); (n_t4,[5;6;7;8;9;10;11;4])] [5;6;7;8;9;2;10;11]) (1) 2);
  (*1549*) AddTo n_t4new (Times (Einsum [(n_t2,[0;1;2;3]); (n_v'oovv,[0;1;4;5]); (n_t4,[6;7;8;9;10;11;4;5])] [6;7;8;9;10;11;2;3]) (1) 4);
  (*1550*) AddTo n_t4new (Times (Einsum [(n_t2,[0;1;2;3]); (n_v'oovv,[0;1;3;4]); (n_t4,[5;6;7;8;9;10;11;4])] [5;6;7;8;9;10;2;11]) (-1) 2);
  (*1551*) AddTo n_t4new (Times (Einsum [(n_t2,[0;1;2;3]); (n_v'oovv,[0;1;3;4]); (n_t4,[5;6;7;8;9;10;11;4])] [5;6;7;8;9;10;11;2]) (1) 2);
  (*1552*) AddTo n_t4new (Plain (Einsum [(n_v'oovv,[0;1;2;3]); (n_t3,[4;5;0;6;7;2]); (n_t3,[8;9;1;10;11;3])] [4;8;5;9;6;10;7;11]));
  (*1553*) AddTo n_t4new (Times (Einsum [(n_v'oovv,[0;1;2;3]); (n_t3,[4;5;0;6;7;2]); (n_t3,[8;9;1;10;11;3])] [4;8;5;9;6;10;11;7]) (-1) 1);
  (*1554*) AddTo n_t4new (Times (Einsum [(n_v'oovv,[0;1;2;3]); (n_t3,[4;5;0;6;2;3]); (n_t3,[7;8;1;9;10;11])] [4;7;5;8;6;9;10;11]) (-1) 2);
  (*1555*) AddTo n_t4new (Times (Einsum [(n_v'oovv,[0;1;2;3]); (n_t3,[4;5;0;6;7;2]); (n_t3,[8;9;1;10;11;3])] [4;8;5;9;6;7;10;11]) (-1) 1);
  (*1556*) AddTo n_t4new (Times (Einsum [(n_v'oovv,[0;1;2;3]); (n_t3,[4;5;0;6;2;3]); (n_t3,[7;8;1;9;10;11])] [4;7;5;8;9;6;10;11]) (1) 2);
  (*1557*) AddTo n_t4new (Times (Einsum [(n_v'oovv,[0;1;2;3]); (n_t3,[4;5;0;6;2;3]); (n_t3,[7;8;1;9;10;11])] [4;7;5;8;9;10;6;11]) (-1) 2);
  (*1558*) AddTo n_t4new (Times (Einsum [(n_v'oovv,[0;1;2;3]); (n_t3,[4;5;0;6;2;3]); (n_t3,[7;8;1;9;10;11])] [4;7;5;8;9;10;11;6]) (1) 2);
  (*1559*) AddTo n_t4new (Times (Einsum [(n_v'oovv,[0;1;2;3]); (n_t3,[4;5;1;6;7;8]); (n_t3,[9;10;0;11;2;3])] [4;9;5;10;6;11;7;8]) (1) 2);
  (*1560*) AddTo n_t4new (Times (Einsum [(n_v'oovv,[0;1;2;3]); (n_t3,[4;5;1;6;7;8]); (n_t3,[9;10;0;11;2;3])] [4;9;5;10;6;7;11;8]) (-1) 2);
  (*1561*) AddTo n_t4new (Times (Einsum [(n_v'oovv,[0;1;2;3]); (n_t3,[4;5;1;6;7;8]); (n_t3,[9;10;0;11;2;3])] [4;9;5;10;6;7;8;11]) (1) 2);
  (*1562*) AddTo n_t4new (Times (Einsum [(n_v'oovv,[0;1;2;3]); (n_t3,[4;5;1;6;7;3]); (n_t3,[8;9;0;10;11;2])] [4;8;5;9;10;6;7;11]) (-1) 1);
  (*1563*) AddTo n_t4new (Times (Einsum [(n_v'oovv,[0;1;2;3]); (n_t3,[4;5;1;6;7;8]); (n_t3,[9;10;0;11;2;3])] [4;9;5;10;11;6;7;8]) (-1) 2);
  (*1564*) AddTo n_t4new (Plain (Einsum [(n_v'oovv,[0;1;2;3]); (n_t3,[4;5;1;6;7;3]); (n_t3,[8;9;0;10;11;2])] [4;8;5;9;10;6;11;7]));
  (*1565*) AddTo n_t4new (Times (Einsum [(n_v'oovv,[0;1;2;3]); (n_t3,[4;5;1;6;7;3]); (n_t3,[8;9;0;10;11;2])] [4;8;5;9;10;11;6;7]) (-1) 1);
  (*1566*) AddTo n_t4new (Times (Einsum [(n_v'oovv,[0;1;2;3]); (n_t3,[4;5;6;7;8;2]); (n_t3,[9;0;1;10;11;3])] [4;9;5;6;7;10;8;11]) (-1) 2);
  (*1567*) AddTo n_t4new (Times (Einsum [(n_v'oovv,[0;1;2;3]); (n_t3,[4;5;6;7;8;2]); (n_t3,[9;0;1;10;11;3])] [4;9;5;6;7;10;11;8]) (1) 2);
  (*1568*) AddTo n_t4new (Times (Einsum [(n_v'oovv,[0;1;2;3]); (n_t3,[4;5;6;7;2;3]); (n_t3,[8;0;1;9;10;11])] [4;8;5;6;7;9;10;11]) (1) 4);
  (*1569*) AddTo n_t4new (Times (Einsum [(n_v'oovv,[0;1;2;3]); (n_t3,[4;5;6;7;8;2]); (n_t3,[9;0;1;10;11;3])] [4;9;5;6;7;8;10;11]) (1) 2);
  (*1570*) AddTo n_t4new (Times (Einsum [(n_v'oovv,[0;1;2;3]); (n_t3,[4;5;6;7;8;3]); (n_t3,[9;0;1;10;11;2])] [4;9;5;6;10;7;8;11]) (-1) 2);
  (*1571*) AddTo n_t4new (Times (Einsum [(n_v'oovv,[0;1;2;3]); (n_t3,[4;5;6;7;8;3]); (n_t3,[9;0;1;10;11;2])] [4;9;5;6;10;7;11;8]) (1) 2);
  (*1572*) AddTo n_t4new (Times (Einsum [(n_v'oovv,[0;1;2;3]); (n_t3,[4;5;6;7;2;3]); (n_t3,[8;0;1;9;10;11])] [4;8;5;6;9;7;10;11]) (-1) 4);
  (*1573*) AddTo n_t4new (Times (Einsum [(n_v'oovv,[0;1;2;3]); (n_t3,[4;5;6;7;8;3]); (n_t3,[9;0;1;10;11;2])] [4;9;5;6;10;11;7;8]) (-1) 2);
  (*1574*) AddTo n_t4new (Times (Einsum [(n_v'oovv,[0;1;2;3]); (n_t3,[4;5;6;7;2;3]); (n_t3,[8;0;1;9;10;11])] [4;8;5;6;9;10;7;11]) (1) 4);
  (*1575*) AddTo n_t4new (Times (Einsum [(n_v'oovv,[0;1;2;3]); (n_t3,[4;5;6;7;2;3]); (n_t3,[8;0;1;9;10;11])] [4;8;5;6;9;10;11;7]) (-1) 4);
  (*1576*) AddTo n_t4new (Times (Einsum [(n_v'oovv,[0;1;2;3]); (n_t3,[4;5;0;6;7;2]); (n_t3,[8;9;1;10;11;3])] [4;8;9;5;6;10;7;11]) (-1) 1);
  (*1577*) AddTo n_t4new (Plain (Einsum [(n_v'oovv,[0;1;2;3]); (n_t3,[4;5;0;6;7;2]); (n_t3,[8;9;1;10;11;3])] [4;8;9;5;6;10;11;7]));
  (*1578*) AddTo n_t4new (Times (Einsum [(n_v'oovv,[0;1;2;3]); (n_t3,[4;5;0;6;2;3]); (n_t3,[7;8;1;9;10;11])] [4;7;8;5;6;9;10;11]) (1) 2);
  (*1579*) AddTo n_t4new (Plain (Einsum [(n_v'oovv,[0;1;2;3]); (n_t3,[4;5;0;6;7;2]); (n_t3,[8;9;1;10;11;3])] [4;8;9;5;6;7;10;11]));
  (*1580*) AddTo n_t4new (Times (Einsum [(n_v'oovv,[0;1;2;3]); (n_t3,[4;5;0;6;2;3]); (n_t3,[7;8;1;9;10;11])] [4;7;8;5;9;6;10;11]) (-1) 2);
  (*1581*) AddTo n_t4new (Times (Einsum [(n_v'oovv,[0;1;2;3]); (n_t3,[4;5;0;6;2;3]); (n_t3,[7;8;1;9;10;11])] [4;7;8;5;9;10;6;11]) (1) 2);
  (*1582*) AddTo n_t4new (Times (Einsum [(n_v'oovv,[0;1;2;3]); (n_t3,[4;5;0;6;2;3]); (n_t3,[7;8;1;9;10;11])] [4;7;8;5;9;10;11;6]) (-1) 2);
  (*1583*) AddTo n_t4new (Times (Einsum [(n_v'oovv,[0;1;2;3]); (n_t3,[4;5;1;6;7;8]); (n_t3,[9;10;0;11;2;3])] [4;9;10;5;6;11;7;8]) (-1) 2);
  (*1584*) AddTo n_t4new (Times (Einsum [(n_v'oovv,[0;1;2;3]); (n_t3,[4;5;1;6;7;8]); (n_t3,[9;10;0;11;2;3])] [4;9;10;5;6;7;11;8]) (1) 2);
  (*1585*) AddTo n_t4new (Times (Einsum [(n_v'oovv,[0;1;2;3]); (n_t3,[4;5;1;6;7;8]); (n_t3,[9;10;0;11;2;3])] [4;9;10;5;6;7;8;11]) (-1) 2);
  (*1586*) AddTo n_t4new (Plain (Einsum [(n_v'oovv,[0;1;2;3]); (n_t3,[4;5;1;6;7;3]); (n_t3,[8;9;0;10;11;2])] [4;8;9;5;10;6;7;11]));
  (*1587*) AddTo n_t4new (Times (Einsum [(n_v'oovv,[0;1;2;3]); (n_t3,[4;5;1;6;7;8]); (n_t3,[9;10;0;11;2;3])] [4;9;10;5;11;6;7;8]) (1) 2);
  (*1588*) AddTo n_t4new (Times (Einsum [(n_v'oovv,[0;1;2;3]); (n_t3,[4;5;1;6;7;3]); (n_t3,[8;9;0;10;11;2])] [4;8;9;5;10;6;11;7]) (-1) 1);
  (*1589*) AddTo n_t4new (Plain (Einsum [(n_v'oovv,[0;1;2;3]); (n_t3,[4;5;1;6;7;3]); (n_t3,[8;9;0;10;11;2])] [4;8;9;5;10;11;6;7]));
  (*1590*) AddTo n_t4new (Times (Einsum [(n_v'oovv,[0;1;2;3]); (n_t3,[4;0;1;5;6;2]); (n_t3,[7;8;9;10;11;3])] [4;7;8;9;5;10;6;11]) (-1) 2);
  (*1591*) AddTo n_t4new (Times (Einsum [(n_v'oovv,[0;1;2;3]); (n_t3,[4;0;1;5;6;7]); (n_t3,[8;9;10;11;2;3])] [4;8;9;10;5;11;6;7]) (1) 4);
  (*1592*) AddTo n_t4new (Times (Einsum [(n_v'oovv,[0;1;2;3]); (n_t3,[4;0;1;5;6;2]); (n_t3,[7;8;9;10;11;3])] [4;7;8;9;5;10;11;6]) (1) 2);
  (*1593*) AddTo n_t4new (Times (Einsum [(n_v'oovv,[0;1;2;3]); (n_t3,[4;0;1;5;6;2]); (n_t3,[7;8;9;10;11;3])] [4;7;8;9;5;6;10;11]) (1) 2);
  (*1594*) AddTo n_t4new (Times (Einsum [(n_v'oovv,[0;1;2;3]); (n_t3,[4;0;1;5;6;7]); (n_t3,[8;9;10;11;2;3])] [4;8;9;10;5;6;11;7]) (-1) 4);
  (*1595*) AddTo n_t4new (Times (Einsum [(n_v'oovv,[0;1;2;3]); (n_t3,[4;0;1;5;6;7]); (n_t3,[8;9;10;11;2;3])] [4;8;9;10;5;6;7;11]) (1) 4);
  (*1596*) AddTo n_t4new (Times (Einsum [(n_v'oovv,[0;1;2;3]); (n_t3,[4;0;1;5;6;3]); (n_t3,[7;8;9;10;11;2])] [4;7;8;9;10;5;6;11]) (-1) 2);
  (*1597*) AddTo n_t4new (Times (Einsum [(n_v'oovv,[0;1;2;3]); (n_t3,[4;0;1;5;6;7]); (n_t3,[8;9;10;11;2;3])] [4;8;9;10;11;5;6;7]) (-1) 4);
  (*1598*) AddTo n_t4new (Times (Einsum [(n_v'oovv,[0;1;2;3]); (n_t3,[4;0;1;5;6;3]); (n_t3,[7;8;9;10;11;2])] [4;7;8;9;10;5;11;6]) (1) 2);
  (*1599*) AddTo n_t4new (Times (Einsum [(n_v'oovv,[0;1;2;3]); (n_t3,[4;0;1;5;6;3]); (n_t3,[7;8;9;10;11;2])] [4;7;8;9;10;11;5;6]) (-1) 2);
  (*1600*) AddTo n_t4new (Times (Einsum [(n_v'oovv,[0;1;2;3]); (n_t3,[4;5;0;6;7;2]); (n_t3,[8;9;1;10;11;3])] [4;5;8;9;6;10;7;11]) (-1) 1);
  (*1601*) AddTo n_t4new (Plain (Einsum [(n_v'oovv,[0;1;2;3]); (n_t3,[4;5;0;6;7;2]); (n_t3,[8;9;1;10;11;3])] [4;5;8;9;6;10;11;7]));
  (*1602*) AddTo n_t4new (Times (Einsum [(n_v'oovv,[0;1;2;3]); (n_t3,[4;5;0;6;2;3]); (n_t3,[7;8;1;9;10;11])] [4;5;7;8;6;9;10;11]) (1) 2);
  (*1603*) AddTo n_t4new (Plain (Einsum [(n_v'oovv,[0;1;2;3]); (n_t3,[4;5;0;6;7;2]); (n_t3,[8;9;1;10;11;3])] [4;5;8;9;6;7;10;11]));
  (*1604*) AddTo n_t4new (Times (Einsum [(n_v'oovv,[0;1;2;3]); (n_t3,[4;5;0;6;2;3]); (n_t3,[7;8;1;9;10;11])] [4;5;7;8;9;6;10;11]) (-1) 2);
  (*1605*) AddTo n_t4new (Times (Einsum [(n_v'oovv,[0;1;2;3]); (n_t3,[4;5;0;6;2;3]); (n_t3,[7;8;1;9;10;11])] [4;5;7;8;9;10;6;11]) (1) 2);
  (*1606*) AddTo n_t4new (Times (Einsum [(n_v'oovv,[0;1;2;3]); (n_t3,[4;5;0;6;2;3]); (n_t3,[7;8;1;9;10;11])] [4;5;7;8;9;10;11;6]) (-1) 2);
  (*1607*) AddTo n_t4new (Times (Einsum [(n_v'oovv,[0;1;2;3]); (n_t3,[4;5;1;6;7;8]); (n_t3,[9;10;0;11;2;3])] [4;5;9;10;6;11;7;8]) (-1) 2);
  (*1608*) AddTo n_t4new (Times (Einsum [(n_v'oovv,[0;1;2;3]); (n_t3,[4;5;1;6;7;8]); (n_t3,[9;10;0;11;2;3])] [4;5;9;10;6;7;11;8]) (1) 2);
  (*1609*) AddTo n_t4new (Times (Einsum [(n_v'oovv,[0;1;2;3]); (n_t3,[4;5;1;6;7;8]); (n_t3,[9;10;0;11;2;3])] [4;5;9;10;6;7;8;11]) (-1) 2);
  (*1610*) AddTo n_t4new (Plain (Einsum [(n_v'oovv,[0;1;2;3]); (n_t3,[4;5;1;6;7;3]); (n_t3,[8;9;0;10;11;2])] [4;5;8;9;10;6;7;11]));
  (*1611*) AddTo n_t4new (Times (Einsum [(n_v'oovv,[0;1;2;3]); (n_t3,[4;5;1;6;7;8]); (n_t3,[9;10;0;11;2;3])] [4;5;9;10;11;6;7;8]) (1) 2);
  (*1612*) AddTo n_t4new (Times (Einsum [(n_v'oovv,[0;1;2;3]); (n_t3,[4;5;1;6;7;3]); (n_t3,[8;9;0;10;11;2])] [4;5;8;9;10;6;11;7]) (-1) 1);
  (*1613*) AddTo n_t4new (Plain (Einsum [(n_v'oovv,[0;1;2;3]); (n_t3,[4;5;1;6;7;3]); (n_t3,[8;9;0;10;11;2])] [4;5;8;9;10;11;6;7]));
  (*1614*) AddTo n_t4new (Times (Einsum [(n_v'oovv,[0;1;2;3]); (n_t3,[4;5;6;7;8;2]); (n_t3,[9;0;1;10;11;3])] [4;5;9;6;7;10;8;11]) (1) 2);
  (*1615*) AddTo n_t4new (Times (Einsum [(n_v'oovv,[0;1;2;3]); (n_t3,[4;5;6;7;8;2]); (n_t3,[9;0;1;10;11;3])] [4;5;9;6;7;10;11;8]) (-1) 2);
  (*1616*) AddTo n_t4new (Times (Einsum [(n_v'oovv,[0;1;2;3]); (n_t3,[4;5;6;7;2;3]); (n_t3,[8;0;1;9;10;11])] [4;5;8;6;7;9;10;11]) (-1) 4);
  (*1617*) AddTo n_t4new (Times (Einsum [(n_v'oovv,[0;1;2;3]); (n_t3,[4;5;6;7;8;2]); (n_t3,[9;0;1;10;11;3])] [4;5;9;6;7;8;10;11]) (-1) 2);
  (*1618*) AddTo n_t4new (Times (Einsum [(n_v'oovv,[0;1;2;3]); (n_t3,[4;5;6;7;8;3]); (n_t3,[9;0;1;10;11;2])] [4;5;9;6;10;7;8;11]) (1) 2);
  (*1619*) AddTo n_t4new (Times (Einsum [(n_v'oovv,[0;1;2;3]); (n_t3,[4;5;6;7;8;3]); (n_t3,[9;0;1;10;11;2])] [4;5;9;6;10;7;11;8]) (-1) 2);
  (*1620*) AddTo n_t4new (Times (Einsum [(n_v'oovv,[0;1;2;3]); (n_t3,[4;5;6;7;2;3]); (n_t3,[8;0;1;9;10;11])] [4;5;8;6;9;7;10;11]) (1) 4);
  (*1621*) AddTo n_t4new (Times (Einsum [(n_v'oovv,[0;1;2;3]); (n_t3,[4;5;6;7;8;3]); (n_t3,[9;0;1;10;11;2])] [4;5;9;6;10;11;7;8]) (1) 2);
  (*1622*) AddTo n_t4new (Times (Einsum [(n_v'oovv,[0;1;2;3]); (n_t3,[4;5;6;7;2;3]); (n_t3,[8;0;1;9;10;11])] [4;5;8;6;9;10;7;11]) (-1) 4);
  (*1623*) AddTo n_t4new (Times (Einsum [(n_v'oovv,[0;1;2;3]); (n_t3,[4;5;6;7;2;3]); (n_t3,[8;0;1;9;10;11])] [4;5;8;6;9;10;11;7]) (1) 4);
  (*1624*) AddTo n_t4new (Times (Einsum [(n_v'oovv,[0;1;2;3]); (n_t3,[4;5;6;7;8;2]); (n_t3,[9;0;1;10;11;3])] [4;5;6;9;7;10;8;11]) (-1) 2);
  (*1625*) AddTo n_t4new (Times (Einsum [(n_v'oovv,[0;1;2;3]); (n_t3,[4;5;6;7;8;2]); (n_t3,[9;0;1;10;11;3])] [4;5;6;9;7;10;11;8]) (1) 2);
  (*1626*) AddTo n_t4new (Times (Einsum [(n_v'oovv,[0;1;2;3]); (n_t3,[4;5;6;7;2;3]); (n_t3,[8;0;1;9;10;11])] [4;5;6;8;7;9;10;11]) (1) 4);
  (*1627*) AddTo n_t4new (Times (Einsum [(n_v'oovv,[0;1;2;3]); (n_t3,[4;5;6;7;8;2]); (n_t3,[9;0;1;10;11;3])] [4;5;6;9;7;8;10;11]) (1) 2);
  (*1628*) AddTo n_t4new (Times (Einsum [(n_v'oovv,[0;1;2;3]); (n_t3,[4;5;6;7;8;3]); (n_t3,[9;0;1;10;11;2])] [4;5;6;9;10;7;8;11]) (-1) 2);
  (*1629*) AddTo n_t4new (Times (Einsum [(n_v'oovv,[0;1;2;3]); (n_t3,[4;5;6;7;8;3]); (n_t3,[9;0;1;10;11;2])] [4;5;6;9;10;7;11;8]) (1) 2);
  (*1630*) AddTo n_t4new (Times (Einsum [(n_v'oovv,[0;1;2;3]); (n_t3,[4;5;6;7;2;3]); (n_t3,[8;0;1;9;10;11])] [4;5;6;8;9;7;10;11]) (-1) 4);
  (*1631*) AddTo n_t4new (Times (Einsum [(n_v'oovv,[0;1;2;3]); (n_t3,[4;5;6;7;8;3]); (n_t3,[9;0;1;10;11;2])] [4;5;6;9;10;11;7;8]) (-1) 2);
  (*1632*) AddTo n_t4new (Times (Einsum [(n_v'oovv,[0;1;2;3]); (n_t3,[4;5;6;7;2;3]); (n_t3,[8;0;1;9;10;11])] [4;5;6;8;9;10;7;11]) (1) 4);
  (*1633*) AddTo n_t4new (Times (Einsum [(n_v'oovv,[0;1;2;3]); (n_t3,[4;5;6;7;2;3]); (n_t3,[8;0;1;9;10;11])] [4;5;6;8;9;10;11;7]) (-1) 4);
  (*1634*) AddTo n_t4new (Times (Einsum [(n_t1,[0;1]); (n_t1,[2;3]); (n_v'ooov,[2;4;5;1]); (n_t3,[6;7;4;8;9;10])] [0;5;6;7;3;8;9;10]) (-1) 1);
  (*1635*) AddTo n_t4new (Plain (Einsum [(n_t1,[0;1]); (n_t1,[2;3]); (n_v'ooov,[2;4;5;1]); (n_t3,[6;7;4;8;9;10])] [0;6;5;7;3;8;9;10]));
  (*1636*) AddTo n_t4new (Times (Einsum [(n_t1,[0;1]); (n_t1,[2;3]); (n_v'ooov,[2;4;5;1]); (n_t3,[6;7;4;8;9;10])] [0;6;7;5;3;8;9;10]) (-1) 1);
  (*1637*) AddTo n_t4new (Plain (Einsum [(n_t1,[0;1]); (n_t1,[2;3]); (n_v'ooov,[2;4;5;1]); (n_t3,[6;7;4;8;9;10])] [0;5;6;7;8;3;9;10]));
  (*1638*) AddTo n_t4new (Times (Einsum [(n_t1,[0;1]); (n_t1,[2;3]); (n_v'ooov,[2;4;5;1]); (n_t3,[6;7;4;8;9;10])] [0;6;5;7;8;3;9;10]) (-1) 1);
  (*1639*) AddTo n_t4new (Plain (Einsum [(n_t1,[0;1]); (n_t1,[2;3]); (n_v'ooov,[2;4;5;1]); (n_t3,[6;7;4;8;9;10])] [0;6;7;5;8;3;9;10]));
  (*1640*) AddTo n_t4new (Times (Einsum [(n_t1,[0;1]); (n_t1,[2;3]); (n_v'ooov,[2;4;5;1]); (n_t3,[6;7;4;8;9;10])] [0;5;6;7;8;9;3;10]) (-1) 1);
  (*1641*) AddTo n_t4new (Plain (Einsum [(n_t1,[0;1]); (n_t1,[2;3]); (n_v'ooov,[2;4;5;1]); (n_t3,[6;7;4;8;9;10])] [0;6;5;7;8;9;3;10]));
  (*1642*) AddTo n_t4new (Times (Einsum [(n_t1,[0;1]); (n_t1,[2;3]); (n_v'ooov,[2;4;5;1]); (n_t3,[6;7;4;8;9;10])] [0;6;7;5;8;9;3;10]) (-1) 1);
  (*1643*) AddTo n_t4new (Plain (Einsum [(n_t1,[0;1]); (n_t1,[2;3]); (n_v'ooov,[2;4;5;1]); (n_t3,[6;7;4;8;9;10])] [0;5;6;7;8;9;10;3]));
  (*1644*) AddTo n_t4new (Times (Einsum [(n_t1,[0;1]); (n_t1,[2;3]); (n_v'ooov,[2;4;5;1]); (n_t3,[6;7;4;8;9;10])] [0;6;5;7;8;9;10;3]) (-1) 1);
  (*1645*) AddTo n_t4new (Plain (Einsum [(n_t1,[0;1]); (n_t1,[2;3]); (n_v'ooov,[2;4;5;1]); (n_t3,[6;7;4;8;9;10])] [0;6;7;5;8;9;10;3]));
  (*1646*) AddTo n_t4new (Plain (Einsum [(n_t1,[0;1]); (n_t1,[2;3]); (n_v'ooov,[2;4;5;1]); (n_t3,[6;7;4;8;9;10])] [5;0;6;7;3;8;9;10]));
  (*1647*) AddTo n_t4new (Times (Einsum [(n_t1,[0;1]); (n_t1,[2;3]); (n_v'ooov,[2;4;5;1]); (n_t3,[6;7;4;8;9;10])] [6;0;5;7;3;8;9;10]) (-1) 1);
  (*1648*) AddTo n_t4new (Plain (Einsum [(n_t1,[0;1]); (n_t1,[2;3]); (n_v'ooov,[2;4;5;1]); (n_t3,[6;7;4;8;9;10])] [6;0;7;5;3;8;9;10]));
  (*1649*) AddTo n_t4new (Times (Einsum [(n_t1,[0;1]); (n_t1,[2;3]); (n_v'ooov,[2;4;5;1]); (n_t3,[6;7;4;8;9;10])] [5;0;6;7;8;3;9;10]) (-1) 1);
  (*1650*) AddTo n_t4new (Plain (Einsum [(n_t1,[0;1]); (n_t1,[2;3]); (n_v'ooov,[2;4;5;1]); (n_t3,[6;7;4;8;9;10])] [6;0;5;7;8;3;9;10]));
  (*1651*) AddTo n_t4new (Times (Einsum [(n_t1,[0;1]); (n_t1,[2;3]); (n_v'ooov,[2;4;5;1]); (n_t3,[6;7;4;8;9;10])] [6;0;7;5;8;3;9;10]) (-1) 1);
  (*1652*) AddTo n_t4new (Plain (Einsum [(n_t1,[0;1]); (n_t1,[2;3]); (n_v'ooov,[2;4;5;1]); (n_t3,[6;7;4;8;9;10])] [5;0;6;7;8;9;3;10]));
  (*1653*) AddTo n_t4new (Times (Einsum [(n_t1,[0;1]); (n_t1,[2;3]); (n_v'ooov,[2;4;5;1]); (n_t3,[6;7;4;8;9;10])] [6;0;5;7;8;9;3;10]) (-1) 1);
  (*1654*) AddTo n_t4new (Plain (Einsum [(n_t1,[0;1]); (n_t1,[2;3]); (n_v'ooov,[2;4;5;1]); (n_t3,[6;7;4;8;9;10])] [6;0;7;5;8;9;3;10]));
  (*1655*) AddTo n_t4new (Times (Einsum [(n_t1,[0;1]); (n_t1,[2;3]); (n_v'ooov,[2;4;5;1]); (n_t3,[6;7;4;8;9;10])] [5;0;6;7;8;9;10;3]) (-1) 1);
  (*1656*) AddTo n_t4new (Plain (Einsum [(n_t1,[0;1]); (n_t1,[2;3]); (n_v'ooov,[2;4;5;1]); (n_t3,[6;7;4;8;9;10])] [6;0;5;7;8;9;10;3]));
  (*1657*) AddTo n_t4new (Times (Einsum [(n_t1,[0;1]); (n_t1,[2;3]); (n_v'ooov,[2;4;5;1]); (n_t3,[6;7;4;8;9;10])] [6;0;7;5;8;9;10;3]) (-1) 1);
  (*1658*) AddTo n_t4new (Times (Einsum [(n_t1,[0;1]); (n_t1,[2;3]); (n_v'ooov,[2;4;5;1]); (n_t3,[6;7;4;8;9;10])] [5;6;0;7;3;8;9;10]) (-1) 1);
  (*1659*) AddTo n_t4new (Plain (Einsum [(n_t1,[0;1]); (n_t1,[2;3]); (n_v'ooov,[2;4;5;1]); (n_t3,[6;7;4;8;9;10])] [6;5;0;7;3;8;9;10]));
  (*1660*) AddTo n_t4new (Times (Einsum [(n_t1,[0;1]); (n_t1,[2;3]); (n_v'ooov,[2;4;5;1]); (n_t3,[6;7;4;8;9;10])] [6;7;0;5;3;8;9;10]) (-1) 1);
  (*1661*) AddTo n_t4new (Plain (Einsum [(n_t1,[0;1]); (n_t1,[2;3]); (n_v'ooov,[2;4;5;1]); (n_t3,[6;7;4;8;9;10])] [5;6;0;7;8;3;9;10]));
  (*1662*) AddTo n_t4new (Times (Einsum [(n_t1,[0;1]); (n_t1,[2;3]); (n_v'ooov,[2;4;5;1]); (n_t3,[6;7;4;8;9;10])] [6;5;0;7;8;3;9;10]) (-1) 1);
  (*1663*) AddTo n_t4new (Plain (Einsum [(n_t1,[0;1]); (n_t1,[2;3]); (n_v'ooov,[2;4;5;1]); (n_t3,[6;7;4;8;9;10])] [6;7;0;5;8;3;9;10]));
  (*1664*) AddTo n_t4new (Times (Einsum [(n_t1,[0;1]); (n_t1,[2;3]); (n_v'ooov,[2;4;5;1]); (n_t3,[6;7;4;8;9;10])] [5;6;0;7;8;9;3;10]) (-1) 1);
  (*1665*) AddTo n_t4new (Plain (Einsum [(n_t1,[0;1]); (n_t1,[2;3]); (n_v'ooov,[2;4;5;1]); (n_t3,[6;7;4;8;9;10])] [6;5;0;7;8;9;3;10]));
  (*1666*) AddTo n_t4new (Times (Einsum [(n_t1,[0;1]); (n_t1,[2;3]); (n_v'ooov,[2;4;5;1]); (n_t3,[6;7;4;8;9;10])] [6;7;0;5;8;9;3;10]) (-1) 1);
  (*1667*) AddTo n_t4new (Plain (Einsum [(n_t1,[0;1]); (n_t1,[2;3]); (n_v'ooov,[2;4;5;1]); (n_t3,[6;7;4;8;9;10])] [5;6;0;7;8;9;10;3]));
  (*1668*) AddTo n_t4new (Times (Einsum [(n_t1,[0;1]); (n_t1,[2;3]); (n_v'ooov,[2;4;5;1]); (n_t3,[6;7;4;8;9;10])] [6;5;0;7;8;9;10;3]) (-1) 1);
  (*1669*) AddTo n_t4new (Plain (Einsum [(n_t1,[0;1]); (n_t1,[2;3]); (n_v'ooov,[2;4;5;1]); (n_t3,[6;7;4;8;9;10])] [6;7;0;5;8;9;10;3]));
  (*1670*) AddTo n_t4new (Plain (Einsum [(n_t1,[0;1]); (n_t1,[2;3]); (n_v'ooov,[2;4;5;1]); (n_t3,[6;7;4;8;9;10])] [5;6;7;0;3;8;9;10]));
  (*1671*) AddTo n_t4new (Times (Einsum [(n_t1,[0;1]); (n_t1,[2;3]); (n_v'ooov,[2;4;5;1]); (n_t3,[6;7;4;8;9;10])] [6;5;7;0;3;8;9;10]) (-1) 1);
  (*1672*) AddTo n_t4new (Plain (Einsum [(n_t1,[0;1]); (n_t1,[2;3]); (n_v'ooov,[2;4;5;1]); (n_t3,[6;7;4;8;9;10])] [6;7;5;0;3;8;9;10]));
  (*1673*) AddTo n_t4new (Times (Einsum [(n_t1,[0;1]); (n_t1,[2;3]); (n_v'ooov,[2;4;5;1]); (n_t3,[6;7;4;8;9;10])] [5;6;7;0;8;3;9;10]) (-1) 1);
  (*1674*) AddTo n_t4new (Plain (Einsum [(n_t1,[0;1]); (n_t1,[2;3]); (n_v'ooov,[2;4;5;1]); (n_t3,[6;7;4;8;9;10])] [6;5;7;0;8;3;9;10]));
  (*1675*) AddTo n_t4new (Times (Einsum [(n_t1,[0;1]); (n_t1,[2;3]); (n_v'ooov,[2;4;5;1]); (n_t3,[6;7;4;8;9;10])] [6;7;5;0;8;3;9;10]) (-1) 1);
  (*1676*) AddTo n_t4new (Plain (Einsum [(n_t1,[0;1]); (n_t1,[2;3]); (n_v'ooov,[2;4;5;1]); (n_t3,[6;7;4;8;9;10])] [5;6;7;0;8;9;3;10]));
  (*1677*) AddTo n_t4new (Times (Einsum [(n_t1,[0;1]); (n_t1,[2;3]); (n_v'ooov,[2;4;5;1]); (n_t3,[6;7;4;8;9;10])] [6;5;7;0;8;9;3;10]) (-1) 1);
  (*1678*) AddTo n_t4new (Plain (Einsum [(n_t1,[0;1]); (n_t1,[2;3]); (n_v'ooov,[2;4;5;1]); (n_t3,[6;7;4;8;9;10])] [6;7;5;0;8;9;3;10]));
  (*1679*) AddTo n_t4new (Times (Einsum [(n_t1,[0;1]); (n_t1,[2;3]); (n_v'ooov,[2;4;5;1]); (n_t3,[6;7;4;8;9;10])] [5;6;7;0;8;9;10;3]) (-1) 1);
  (*1680*) AddTo n_t4new (Plain (Einsum [(n_t1,[0;1]); (n_t1,[2;3]); (n_v'ooov,[2;4;5;1]); (n_t3,[6;7;4;8;9;10])] [6;5;7;0;8;9;10;3]));
  (*1681*) AddTo n_t4new (Times (Einsum [(n_t1,[0;1]); (n_t1,[2;3]); (n_v'ooov,[2;4;5;1]); (n_t3,[6;7;4;8;9;10])] [6;7;5;0;8;9;10;3]) (-1) 1);
  (*1682*) AddTo n_t4new (Plain (Einsum [(n_t1,[0;1]); (n_t1,[2;3]); (n_v'ooov,[0;2;4;5]); (n_t3,[6;7;8;9;10;5])] [4;6;7;8;1;3;9;10]));
  (*1683*) AddTo n_t4new (Times (Einsum [(n_t1,[0;1]); (n_t1,[2;3]); (n_v'ooov,[0;2;4;5]); (n_t3,[6;7;8;9;10;5])] [6;4;7;8;1;3;9;10]) (-1) 1);
  (*1684*) AddTo n_t4new (Plain (Einsum [(n_t1,[0;1]); (n_t1,[2;3]); (n_v'ooov,[0;2;4;5]); (n_t3,[6;7;8;9;10;5])] [6;7;4;8;1;3;9;10]));
  (*1685*) AddTo n_t4new (Times (Einsum [(n_t1,[0;1]); (n_t1,[2;3]); (n_v'ooov,[0;2;4;5]); (n_t3,[6;7;8;9;10;5])] [6;7;8;4;1;3;9;10]) (-1) 1);
  (*1686*) AddTo n_t4new (Times (Einsum [(n_t1,[0;1]); (n_t1,[2;3]); (n_v'ooov,[0;2;4;5]); (n_t3,[6;7;8;9;10;5])] [4;6;7;8;1;9;3;10]) (-1) 1);
  (*1687*) AddTo n_t4new (Plain (Einsum [(n_t1,[0;1]); (n_t1,[2;3]); (n_v'ooov,[0;2;4;5]); (n_t3,[6;7;8;9;10;5])] [6;4;7;8;1;9;3;10]));
  (*1688*) AddTo n_t4new (Times (Einsum [(n_t1,[0;1]); (n_t1,[2;3]); (n_v'ooov,[0;2;4;5]); (n_t3,[6;7;8;9;10;5])] [6;7;4;8;1;9;3;10]) (-1) 1);
  (*1689*) AddTo n_t4new (Plain (Einsum [(n_t1,[0;1]); (n_t1,[2;3]); (n_v'ooov,[0;2;4;5]); (n_t3,[6;7;8;9;10;5])] [6;7;8;4;1;9;3;10]));
  (*1690*) AddTo n_t4new (Plain (Einsum [(n_t1,[0;1]); (n_t1,[2;3]); (n_v'ooov,[0;2;4;5]); (n_t3,[6;7;8;9;10;5])] [4;6;7;8;1;9;10;3]));
  (*1691*) AddTo n_t4new (Times (Einsum [(n_t1,[0;1]); (n_t1,[2;3]); (n_v'ooov,[0;2;4;5]); (n_t3,[6;7;8;9;10;5])] [6;4;7;8;1;9;10;3]) (-1) 1);
  (*1692*) AddTo n_t4new (Plain (Einsum [(n_t1,[0;1]); (n_t1,[2;3]); (n_v'ooov,[0;2;4;5]); (n_t3,[6;7;8;9;10;5])] [6;7;4;8;1;9;10;3]));
  (*1693*) AddTo n_t4new (Times (Einsum [(n_t1,[0;1]); (n_t1,[2;3]); (n_v'ooov,[0;2;4;5]); (n_t3,[6;7;8;9;10;5])] [6;7;8;4;1;9;10;3]) (-1) 1);
  (*1694*) AddTo n_t4new (Plain (Einsum [(n_t1,[0;1]); (n_t1,[2;3]); (n_v'ooov,[0;2;4;5]); (n_t3,[6;7;8;9;10;5])] [4;6;7;8;9;1;3;10]));
  (*1695*) AddTo n_t4new (Times (Einsum [(n_t1,[0;1]); (n_t1,[2;3]); (n_v'ooov,[0;2;4;5]); (n_t3,[6;7;8;9;10;5])] [6;4;7;8;9;1;3;10]) (-1) 1);
  (*1696*) AddTo n_t4new (Plain (Einsum [(n_t1,[0;1]); (n_t1,[2;3]); (n_v'ooov,[0;2;4;5]); (n_t3,[6;7;8;9;10;5])] [6;7;4;8;9;1;3;10]));
  (*1697*) AddTo n_t4new (Times (Einsum [(n_t1,[0;1]); (n_t1,[2;3]); (n_v'ooov,[0;2;4;5]); (n_t3,[6;7;8;9;10;5])] [6;7;8;4;9;1;3;10]) (-1) 1);
  (*1698*) AddTo n_t4new (Times (Einsum [(n_t1,[0;1]); (n_t1,[2;3]); (n_v'ooov,[0;2;4;5]); (n_t3,[6;7;8;9;10;5])] [4;6;7;8;9;1;10;3]) (-1) 1);
  (*1699*) AddTo n_t4new (Plain (Einsum [(n_t1,[0;1]); (n_t1,[2;3]); (n_v'ooov,[0;2;4;5]); (n_t3,[6;7;8;9;10;5])] [6;4;7;8;9;1;10;3]));
  (*1700*) AddTo n_t4new (Times (Einsum [(n_t1,[0;1]); (n_t1,[2;3]); (n_v'ooov,[0;2;4;5]); (n_t3,[6;7;8;9;10;5])] [6;7;4;8;9;1;10;3]) (-1) 1);
  (*1701*) AddTo n_t4new (Plain (Einsum [(n_t1,[0;1]); (n_t1,[2;3]); (n_v'ooov,[0;2;4;5]); (n_t3,[6;7;8;9;10;5])] [6;7;8;4;9;1;10;3]));
  (*1702*) AddTo n_t4new (Plain (Einsum [(n_t1,[0;1]); (n_t1,[2;3]); (n_v'ooov,[0;2;4;5]); (n_t3,[6;7;8;9;10;5])] [4;6;7;8;9;10;1;3]));
  (*1703*) AddTo n_t4new (Times (Einsum [(n_t1,[0;1]); (n_t1,[2;3]); (n_v'ooov,[0;2;4;5]); (n_t3,[6;7;8;9;10;5])] [6;4;7;8;9;10;1;3]) (-1) 1);
  (*1704*) AddTo n_t4new (Plain (Einsum [(n_t1,[0;1]); (n_t1,[2;3]); (n_v'ooov,[0;2;4;5]); (n_t3,[6;7;8;9;10;5])] [6;7;4;8;9;10;1;3]));
  (*1705*) AddTo n_t4new (Times (Einsum [(n_t1,[0;1]); (n_t1,[2;3]); (n_v'ooov,[0;2;4;5]); (n_t3,[6;7;8;9;10;5])] [6;7;8;4;9;10;1;3]) (-1) 1);
  (*1706*) AddTo n_t4new (Plain (Einsum [(n_t1,[0;1]); (n_t1,[2;3]); (n_v'ovvv,[4;5;1;3]); (n_t3,[6;7;4;8;9;10])] [0;2;6;7;5;8;9;10]));
  (*1707*) AddTo n_t4new (Times (Einsum [(n_t1,[0;1]); (n_t1,[2;3]); (n_v'ovvv,[4;5;1;3]); (n_t3,[6;7;4;8;9;10])] [0;2;6;7;8;5;9;10]) (-1) 1);
  (*1708*) AddTo n_t4new (Plain (Einsum [(n_t1,[0;1]); (n_t1,[2;3]); (n_v'ovvv,[4;5;1;3]); (n_t3,[6;7;4;8;9;10])] [0;2;6;7;8;9;5;10]));
  (*1709*) AddTo n_t4new (Times (Einsum [(n_t1,[0;1]); (n_t1,[2;3]); (n_v'ovvv,[4;5;1;3]); (n_t3,[6;7;4;8;9;10])] [0;2;6;7;8;9;10;5]) (-1) 1);
  (*1710*) AddTo n_t4new (Times (Einsum [(n_t1,[0;1]); (n_t1,[2;3]); (n_v'ovvv,[4;5;1;3]); (n_t3,[6;7;4;8;9;10])] [0;6;2;7;5;8;9;10]) (-1) 1);
  (*1711*) AddTo n_t4new (Plain (Einsum [(n_t1,[0;1]); (n_t1,[2;3]); (n_v'ovvv,[4;5;1;3]); (n_t3,[6;7;4;8;9;10])] [0;6;2;7;8;5;9;10]));
  (*1712*) AddTo n_t4new (Times (Einsum [(n_t1,[0;1]); (n_t1,[2;3]); (n_v'ovvv,[4;5;1;3]); (n_t3,[6;7;4;8;9;10])] [0;6;2;7;8;9;5;10]) (-1) 1);
  (*1713*) AddTo n_t4new (Plain (Einsum [(n_t1,[0;1]); (n_t1,[2;3]); (n_v'ovvv,[4;5;1;3]); (n_t3,[6;7;4;8;9;10])] [0;6;2;7;8;9;10;5]));
  (*1714*) AddTo n_t4new (Plain (Einsum [(n_t1,[0;1]); (n_t1,[2;3]); (n_v'ovvv,[4;5;1;3]); (n_t3,[6;7;4;8;9;10])] [0;6;7;2;5;8;9;10]));
  (*1715*) AddTo n_t4new (Times (Einsum [(n_t1,[0;1]); (n_t1,[2;3]); (n_v'ovvv,[4;5;1;3]); (n_t3,[6;7;4;8;9;10])] [0;6;7;2;8;5;9;10]) (-1) 1);
  (*1716*) AddTo n_t4new (Plain (Einsum [(n_t1,[0;1]); (n_t1,[2;3]); (n_v'ovvv,[4;5;1;3]); (n_t3,[6;7;4;8;9;10])] [0;6;7;2;8;9;5;10]));
  (*1717*) AddTo n_t4new (Times (Einsum [(n_t1,[0;1]); (n_t1,[2;3]); (n_v'ovvv,[4;5;1;3]); (n_t3,[6;7;4;8;9;10])] [0;6;7;2;8;9;10;5]) (-1) 1);
  (*1718*) AddTo n_t4new (Times (Einsum [(n_t1,[0;1]); (n_t1,[2;3]); (n_v'ovvv,[2;4;1;5]); (n_t3,[6;7;8;9;10;5])] [0;6;7;8;3;4;9;10]) (-1) 1);
  (*1719*) AddTo n_t4new (Plain (Einsum [(n_t1,[0;1]); (n_t1,[2;3]); (n_v'ovvv,[2;4;1;5]); (n_t3,[6;7;8;9;10;5])] [0;6;7;8;3;9;4;10]));
  (*1720*) AddTo n_t4new (Times (Einsum [(n_t1,[0;1]); (n_t1,[2;3]); (n_v'ovvv,[2;4;1;5]); (n_t3,[6;7;8;9;10;5])] [0;6;7;8;3;9;10;4]) (-1) 1);
  (*1721*) AddTo n_t4new (Plain (Einsum [(n_t1,[0;1]); (n_t1,[2;3]); (n_v'ovvv,[2;4;1;5]); (n_t3,[6;7;8;9;10;5])] [0;6;7;8;4;3;9;10]));
  (*1722*) AddTo n_t4new (Times (Einsum [(n_t1,[0;1]); (n_t1,[2;3]); (n_v'ovvv,[2;4;1;5]); (n_t3,[6;7;8;9;10;5])] [0;6;7;8;9;3;4;10]) (-1) 1);
  (*1723*) AddTo n_t4new (Plain (Einsum [(n_t1,[0;1]); (n_t1,[2;3]); (n_v'ovvv,[2;4;1;5]); (n_t3,[6;7;8;9;10;5])] [0;6;7;8;9;3;10;4]));
  (*1724*) AddTo n_t4new (Times (Einsum [(n_t1,[0;1]); (n_t1,[2;3]); (n_v'ovvv,[2;4;1;5]); (n_t3,[6;7;8;9;10;5])] [0;6;7;8;4;9;3;10]) (-1) 1);
  (*1725*) AddTo n_t4new (Plain (Einsum [(n_t1,[0;1]); (n_t1,[2;3]); (n_v'ovvv,[2;4;1;5]); (n_t3,[6;7;8;9;10;5])] [0;6;7;8;9;4;3;10]));
  (*1726*) AddTo n_t4new (Times (Einsum [(n_t1,[0;1]); (n_t1,[2;3]); (n_v'ovvv,[2;4;1;5]); (n_t3,[6;7;8;9;10;5])] [0;6;7;8;9;10;3;4]) (-1) 1);
  (*1727*) AddTo n_t4new (Plain (Einsum [(n_t1,[0;1]); (n_t1,[2;3]); (n_v'ovvv,[2;4;1;5]); (n_t3,[6;7;8;9;10;5])] [0;6;7;8;4;9;10;3]));
  (*1728*) AddTo n_t4new (Times (Einsum [(n_t1,[0;1]); (n_t1,[2;3]); (n_v'ovvv,[2;4;1;5]); (n_t3,[6;7;8;9;10;5])] [0;6;7;8;9;4;10;3]) (-1) 1);
  (*1729*) AddTo n_t4new (Plain (Einsum [(n_t1,[0;1]); (n_t1,[2;3]); (n_v'ovvv,[2;4;1;5]); (n_t3,[6;7;8;9;10;5])] [0;6;7;8;9;10;4;3]));
  (*1730*) AddTo n_t4new (Plain (Einsum [(n_t1,[0;1]); (n_t1,[2;3]); (n_v'ovvv,[4;5;1;3]); (n_t3,[6;7;4;8;9;10])] [6;0;2;7;5;8;9;10]));
  (*1731*) AddTo n_t4new (Times (Einsum [(n_t1,[0;1]); (n_t1,[2;3]); (n_v'ovvv,[4;5;1;3]); (n_t3,[6;7;4;8;9;10])] [6;0;2;7;8;5;9;10]) (-1) 1);
  (*1732*) AddTo n_t4new (Plain (Einsum [(n_t1,[0;1]); (n_t1,[2;3]); (n_v'ovvv,[4;5;1;3]); (n_t3,[6;7;4;8;9;10])] [6;0;2;7;8;9;5;10]));
  (*1733*) AddTo n_t4new (Times (Einsum [(n_t1,[0;1]); (n_t1,[2;3]); (n_v'ovvv,[4;5;1;3]); (n_t3,[6;7;4;8;9;10])] [6;0;2;7;8;9;10;5]) (-1) 1);
  (*1734*) AddTo n_t4new (Times (Einsum [(n_t1,[0;1]); (n_t1,[2;3]); (n_v'ovvv,[4;5;1;3]); (n_t3,[6;7;4;8;9;10])] [6;0;7;2;5;8;9;10]) (-1) 1);
  (*1735*) AddTo n_t4new (Plain (Einsum [(n_t1,[0;1]); (n_t1,[2;3]); (n_v'ovvv,[4;5;1;3]); (n_t3,[6;7;4;8;9;10])] [6;0;7;2;8;5;9;10]));
  (*1736*) AddTo n_t4new (Times (Einsum [(n_t1,[0;1]); (n_t1,[2;3]); (n_v'ovvv,[4;5;1;3]); (n_t3,[6;7;4;8;9;10])] [6;0;7;2;8;9;5;10]) (-1) 1);
  (*1737*) AddTo n_t4new (Plain (Einsum [(n_t1,[0;1]); (n_t1,[2;3]); (n_v'ovvv,[4;5;1;3]); (n_t3,[6;7;4;8;9;10])] [6;0;7;2;8;9;10;5]));
  (*1738*) AddTo n_t4new (Plain (Einsum [(n_t1,[0;1]); (n_t1,[2;3]); (n_v'ovvv,[2;4;1;5]); (n_t3,[6;7;8;9;10;5])] [6;0;7;8;3;4;9;10]));
  (*1739*) AddTo n_t4new (Times (Einsum [(n_t1,[0;1]); (n_t1,[2;3]); (n_v'ovvv,[2;4;1;5]); (n_t3,[6;7;8;9;10;5])] [6;0;7;8;3;9;4;10]) (-1) 1);
  (*1740*) AddTo n_t4new (Plain (Einsum [(n_t1,[0;1]); (n_t1,[2;3]); (n_v'ovvv,[2;4;1;5]); (n_t3,[6;7;8;9;10;5])] [6;0;7;8;3;9;10;4]));
  (*1741*) AddTo n_t4new (Times (Einsum [(n_t1,[0;1]); (n_t1,[2;3]); (n_v'ovvv,[2;4;1;5]); (n_t3,[6;7;8;9;10;5])] [6;0;7;8;4;3;9;10]) (-1) 1);
  (*1742*) AddTo n_t4new (Plain (Einsum [(n_t1,[0;1]); (n_t1,[2;3]); (n_v'ovvv,[2;4;1;5]); (n_t3,[6;7;8;9;10;5])] [6;0;7;8;9;3;4;10]));
  (*1743*) AddTo n_t4new (Times (Einsum [(n_t1,[0;1]); (n_t1,[2;3]); (n_v'ovvv,[2;4;1;5]); (n_t3,[6;7;8;9;10;5])] [6;0;7;8;9;3;10;4]) (-1) 1);
  (*1744*) AddTo n_t4new (Plain (Einsum [(n_t1,[0;1]); (n_t1,[2;3]); (n_v'ovvv,[2;4;1;5]); (n_t3,[6;7;8;9;10;5])] [6;0;7;8;4;9;3;10]));
  (*1745*) AddTo n_t4new (Times (Einsum [(n_t1,[0;1]); (n_t1,[2;3]); (n_v'ovvv,[2;4;1;5]); (n_t3,[6;7;8;9;10;5])] [6;0;7;8;9;4;3;10]) (-1) 1);
  (*1746*) AddTo n_t4new (Plain (Einsum [(n_t1,[0;1]); (n_t1,[2;3]); (n_v'ovvv,[2;4;1;5]); (n_t3,[6;7;8;9;10;5])] [6;0;7;8;9;10;3;4]));
  (*1747*) AddTo n_t4new (Times (Einsum [(n_t1,[0;1]); (n_t1,[2;3]); (n_v'ovvv,[2;4;1;5]); (n_t3,[6;7;8;9;10;5])] [6;0;7;8;4;9;10;3]) (-1) 1);
  (*1748*) AddTo n_t4new (Plain (Einsum [(n_t1,[0;1]); (n_t1,[2;3]); (n_v'ovvv,[2;4;1;5]); (n_t3,[6;7;8;9;10;5])] [6;0;7;8;9;4;10;3]));
  (*1749*) AddTo n_t4new (Times (Einsum [(n_t1,[0;1]); (n_t1,[2;3]); (n_v'ovvv,[2;4;1;5]); (n_t3,[6;7;8;9;10;5])] [6;0;7;8;9;10;4;3]) (-1) 1);
  (*1750*) AddTo n_t4new (Plain (Einsum [(n_t1,[0;1]); (n_t1,[2;3]); (n_v'ovvv,[4;5;1;3]); (n_t3,[6;7;4;8;9;10])] [6;7;0;2;5;8;9;10]));
  (*1751*) AddTo n_t4new (Times (Einsum [(n_t1,[0;1]); (n_t1,[2;3]); (n_v'ovvv,[4;5;1;3]); (n_t3,[6;7;4;8;9;10])] [6;7;0;2;8;5;9;10]) (-1) 1);
  (*1752*) AddTo n_t4new (Plain (Einsum [(n_t1,[0;1]); (n_t1,[2;3]); (n_v'ovvv,[4;5;1;3]); (n_t3,[6;7;4;8;9;10])] [6;7;0;2;8;9;5;10]));
  (*1753*) AddTo n_t4new (Times (Einsum [(n_t1,[0;1]); (n_t1,[2;3]); (n_v'ovvv,[4;5;1;3]); (n_t3,[6;7;4;8;9;10])] [6;7;0;2;8;9;10;5]) (-1) 1);
  (*1754*) AddTo n_t4new (Times (Einsum [(n_t1,[0;1]); (n_t1,[2;3]); (n_v'ovvv,[2;4;1;5]); (n_t3,[6;7;8;9;10;5])] [6;7;0;8;3;4;9;10]) (-1) 1);
  (*1755*) AddTo n_t4new (Plain (Einsum [(n_t1,[0;1]); (n_t1,[2;3]); (n_v'ovvv,[2;4;1;5]); (n_t3,[6;7;8;9;10;5])] [6;7;0;8;3;9;4;10]));
  (*1756*) AddTo n_t4new (Times (Einsum [(n_t1,[0;1]); (n_t1,[2;3]); (n_v'ovvv,[2;4;1;5]); (n_t3,[6;7;8;9;10;5])] [6;7;0;8;3;9;10;4]) (-1) 1);
  (*1757*) AddTo n_t4new (Plain (Einsum [(n_t1,[0;1]); (n_t1,[2;3]); (n_v'ovvv,[2;4;1;5]); (n_t3,[6;7;8;9;10;5])] [6;7;0;8;4;3;9;10]));
  (*1758*) AddTo n_t4new (Times (Einsum [(n_t1,[0;1]); (n_t1,[2;3]); (n_v'ovvv,[2;4;1;5]); (n_t3,[6;7;8;9;10;5])] [6;7;0;8;9;3;4;10]) (-1) 1);
  (*1759*) AddTo n_t4new (Plain (Einsum [(n_t1,[0;1]); (n_t1,[2;3]); (n_v'ovvv,[2;4;1;5]); (n_t3,[6;7;8;9;10;5])] [6;7;0;8;9;3;10;4]));
  (*1760*) AddTo n_t4new (Times (Einsum [(n_t1,[0;1]); (n_t1,[2;3]); (n_v'ovvv,[2;4;1;5]); (n_t3,[6;7;8;9;10;5])] [6;7;0;8;4;9;3;10]) (-1) 1);
  (*1761*) AddTo n_t4new (Plain (Einsum [(n_t1,[0;1]); (n_t1,[2;3]); (n_v'ovvv,[2;4;1;5]); (n_t3,[6;7;8;9;10;5])] [6;7;0;8;9;4;3;10]));
  (*1762*) AddTo n_t4new (Times (Einsum [(n_t1,[0;1]); (n_t1,[2;3]); (n_v'ovvv,[2;4;1;5]); (n_t3,[6;7;8;9;10;5])] [6;7;0;8;9;10;3;4]) (-1) 1);
  (*1763*) AddTo n_t4new (Plain (Einsum [(n_t1,[0;1]); (n_t1,[2;3]); (n_v'ovvv,[2;4;1;5]); (n_t3,[6;7;8;9;10;5])] [6;7;0;8;4;9;10;3]));
  (*1764*) AddTo n_t4new (Times (Einsum [(n_t1,[0;1]); (n_t1,[2;3]); (n_v'ovvv,[2;4;1;5]); (n_t3,[6;7;8;9;10;5])] [6;7;0;8;9;4;10;3]) (-1) 1);
  (*1765*) AddTo n_t4new (Plain (Einsum [(n_t1,[0;1]); (n_t1,[2;3]); (n_v'ovvv,[2;4;1;5]); (n_t3,[6;7;8;9;10;5])] [6;7;0;8;9;10;4;3]));
  (*1766*) AddTo n_t4new (Plain (Einsum [(n_t1,[0;1]); (n_t1,[2;3]); (n_v'ovvv,[2;4;1;5]); (n_t3,[6;7;8;9;10;5])] [6;7;8;0;3;4;9;10]));
  (*1767*) AddTo n_t4new (Times (Einsum [(n_t1,[0;1]); (n_t1,[2;3]); (n_v'ovvv,[2;4;1;5]); (n_t3,[6;7;8;9;10;5])] [6;7;8;0;3;9;4;10]) (-1) 1);
  (*1768*) AddTo n_t4new (Plain (Einsum [(n_t1,[0;1]); (n_t1,[2;3]); (n_v'ovvv,[2;4;1;5]); (n_t3,[6;7;8;9;10;5])] [6;7;8;0;3;9;10;4]));
  (*1769*) AddTo n_t4new (Times (Einsum [(n_t1,[0;1]); (n_t1,[2;3]); (n_v'ovvv,[2;4;1;5]); (n_t3,[6;7;8;9;10;5])] [6;7;8;0;4;3;9;10]) (-1) 1);
  (*1770*) AddTo n_t4new (Plain (Einsum [(n_t1,[0;1]); (n_t1,[2;3]); (n_v'ovvv,[2;4;1;5]); (n_t3,[6;7;8;9;10;5])] [6;7;8;0;9;3;4;10]));
  (*1771*) AddTo n_t4new (Times (Einsum [(n_t1,[0;1]); (n_t1,[2;3]); (n_v'ovvv,[2;4;1;5]); (n_t3,[6;7;8;9;10;5])] [6;7;8;0;9;3;10;4]) (-1) 1);
  (*1772*) AddTo n_t4new (Plain (Einsum [(n_t1,[0;1]); (n_t1,[2;3]); (n_v'ovvv,[2;4;1;5]); (n_t3,[6;7;8;9;10;5])] [6;7;8;0;4;9;3;10]));
  (*1773*) AddTo n_t4new (Times (Einsum [(n_t1,[0;1]); (n_t1,[2;3]); (n_v'ovvv,[2;4;1;5]); (n_t3,[6;7;8;9;10;5])] [6;7;8;0;9;4;3;10]) (-1) 1);
  (*1774*) AddTo n_t4new (Plain (Einsum [(n_t1,[0;1]); (n_t1,[2;3]); (n_v'ovvv,[2;4;1;5]); (n_t3,[6;7;8;9;10;5])] [6;7;8;0;9;10;3;4]));
  (*1775*) AddTo n_t4new (Times (Einsum [(n_t1,[0;1]); (n_t1,[2;3]); (n_v'ovvv,[2;4;1;5]); (n_t3,[6;7;8;9;10;5])] [6;7;8;0;4;9;10;3]) (-1) 1);
  (*1776*) AddTo n_t4new (Plain (Einsum [(n_t1,[0;1]); (n_t1,[2;3]); (n_v'ovvv,[2;4;1;5]); (n_t3,[6;7;8;9;10;5])] [6;7;8;0;9;4;10;3]));
  (*1777*) AddTo n_t4new (Times (Einsum [(n_t1,[0;1]); (n_t1,[2;3]); (n_v'ovvv,[2;4;1;5]); (n_t3,[6;7;8;9;10;5])] [6;7;8;0;9;10;4;3]) (-1) 1);
  (*1778*) AddTo n_t4new (Times (Einsum [(n_t1,[0;1]); (n_t1,[2;3]); (n_v'oovv,[4;5;1;3]); (n_t4,[6;7;4;5;8;9;10;11])] [0;2;6;7;8;9;10;11]) (1) 2);
  (*1779*) AddTo n_t4new (Times (Einsum [(n_t1,[0;1]); (n_t1,[2;3]); (n_v'oovv,[4;5;1;3]); (n_t4,[6;7;4;5;8;9;10;11])] [0;6;2;7;8;9;10;11]) (-1) 2);
  (*1780*) AddTo n_t4new (Times (Einsum [(n_t1,[0;1]); (n_t1,[2;3]); (n_v'oovv,[4;5;1;3]); (n_t4,[6;7;4;5;8;9;10;11])] [0;6;7;2;8;9;10;11]) (1) 2);
  (*1781*) AddTo n_t4new (Times (Einsum [(n_t1,[0;1]); (n_t1,[2;3]); (n_v'oovv,[2;4;1;5]); (n_t4,[6;7;8;4;9;10;11;5])] [0;6;7;8;3;9;10;11]) (-1) 1);
  (*1782*) AddTo n_t4new (Plain (Einsum [(n_t1,[0;1]); (n_t1,[2;3]); (n_v'oovv,[2;4;1;5]); (n_t4,[6;7;8;4;9;10;11;5])] [0;6;7;8;9;3;10;11]));
  (*1783*) AddTo n_t4new (Times (Einsum [(n_t1,[0;1]); (n_t1,[2;3]); (n_v'oovv,[2;4;1;5]); (n_t4,[6;7;8;4;9;10;11;5])] [0;6;7;8;9;10;3;11]) (-1) 1);
  (*1784*) AddTo n_t4new (Plain (Einsum [(n_t1,[0;1]); (n_t1,[2;3]); (n_v'oovv,[2;4;1;5]); (n_t4,[6;7;8;4;9;10;11;5])] [0;6;7;8;9;10;11;3]));
  (*1785*) AddTo n_t4new (Times (Einsum [(n_t1,[0;1]); (n_t1,[2;3]); (n_v'oovv,[2;4;1;3]); (n_t4,[5;6;7;4;8;9;10;11])] [0;5;6;7;8;9;10;11]) (-1) 1);
  (*1786*) AddTo n_t4new (Times (Einsum [(n_t1,[0;1]); (n_t1,[2;3]); (n_v'oovv,[4;5;1;3]); (n_t4,[6;7;4;5;8;9;10;11])] [6;0;2;7;8;9;10;11]) (1) 2);
  (*1787*) AddTo n_t4new (Times (Einsum [(n_t1,[0;1]); (n_t1,[2;3]); (n_v'oovv,[4;5;1;3]); (n_t4,[6;7;4;5;8;9;10;11])] [6;0;7;2;8;9;10;11]) (-1) 2);
  (*1788*) AddTo n_t4new (Plain (Einsum [(n_t1,[0;1]); (n_t1,[2;3]); (n_v'oovv,[2;4;1;5]); (n_t4,[6;7;8;4;9;10;11;5])] [6;0;7;8;3;9;10;11]));
  (*1789*) AddTo n_t4new (Times (Einsum [(n_t1,[0;1]); (n_t1,[2;3]); (n_v'oovv,[2;4;1;5]); (n_t4,[6;7;8;4;9;10;11;5])] [6;0;7;8;9;3;10;11]) (-1) 1);
  (*1790*) AddTo n_t4new (Plain (Einsum [(n_t1,[0;1]); (n_t1,[2;3]); (n_v'oovv,[2;4;1;5]); (n_t4,[6;7;8;4;9;10;11;5])] [6;0;7;8;9;10;3;11]));
  (*1791*) AddTo n_t4new (Times (Einsum [(n_t1,[0;1]); (n_t1,[2;3]); (n_v'oovv,[2;4;1;5]); (n_t4,[6;7;8;4;9;10;11;5])] [6;0;7;8;9;10;11;3]) (-1) 1);
  (*1792*) AddTo n_t4new (Plain (Einsum [(n_t1,[0;1]); (n_t1,[2;3]); (n_v'oovv,[2;4;1;3]); (n_t4,[5;6;7;4;8;9;10;11])] [5;0;6;7;8;9;10;11]));
  (*1793*) AddTo n_t4new (Times (Einsum [(n_t1,[0;1]); (n_t1,[2;3]); (n_v'oovv,[4;5;1;3]); (n_t4,[6;7;4;5;8;9;10;11])] [6;7;0;2;8;9;10;11]) (1) 2);
  (*1794*) AddTo n_t4new (Times (Einsum [(n_t1,[0;1]); (n_t1,[2;3]); (n_v'oovv,[2;4;1;5]); (n_t4,[6;7;8;4;9;10;11;5])] [6;7;0;8;3;9;10;11]) (-1) 1);
  (*1795*) AddTo n_t4new (Plain (Einsum [(n_t1,[0;1]); (n_t1,[2;3]); (n_v'oovv,[2;4;1;5]); (n_t4,[6;7;8;4;9;10;11;5])] [6;7;0;8;9;3;10;11]));
  (*1796*) AddTo n_t4new (Times (Einsum [(n_t1,[0;1]); (n_t1,[2;3]); (n_v'oovv,[2;4;1;5]); (n_t4,[6;7;8;4;9;10;11;5])] [6;7;0;8;9;10;3;11]) (-1) 1);
  (*1797*) AddTo n_t4new (Plain (Einsum [(n_t1,[0;1]); (n_t1,[2;3]); (n_v'oovv,[2;4;1;5]); (n_t4,[6;7;8;4;9;10;11;5])] [6;7;0;8;9;10;11;3]));
  (*1798*) AddTo n_t4new (Times (Einsum [(n_t1,[0;1]); (n_t1,[2;3]); (n_v'oovv,[2;4;1;3]); (n_t4,[5;6;7;4;8;9;10;11])] [5;6;0;7;8;9;10;11]) (-1) 1);
  (*1799*) AddTo n_t4new (Plain (Einsum [(n_t1,[0;1]); (n_t1,[2;3]); (n_v'oovv,[2;4;1;5]); (n_t4,[6;7;8;4;9;10;11;5])] [6;7;8;0;3;9;10;11]));
  (*1800*) AddTo n_t4new (Times (Einsum [(n_t1,[0;1]); (n_t1,[2;3]); (n_v'oovv,[2;4;1;5]); (n_t4,[6;7;8;4;9;10;11;5])] [6;7;8;0;9;3;10;11]) (-1) 1);
  (*1801*) AddTo n_t4new (Plain (Einsum [(n_t1,[0;1]); (n_t1,[2;3]); (n_v'oovv,[2;4;1;5]); (n_t4,[6;7;8;4;9;10;11;5])] [6;7;8;0;9;10;3;11]));
  (*1802*) AddTo n_t4new (Times (Einsum [(n_t1,[0;1]); (n_t1,[2;3]); (n_v'oovv,[2;4;1;5]); (n_t4,[6;7;8;4;9;10;11;5])] [6;7;8;0;9;10;11;3]) (-1) 1);
  (*1803*) AddTo n_t4new (Plain (Einsum [(n_t1,[0;1]); (n_t1,[2;3]); (n_v'oovv,[2;4;1;3]); (n_t4,[5;6;7;4;8;9;10;11])] [5;6;7;0;8;9;10;11]));
  (*1804*) AddTo n_t4new (Times (Einsum [(n_t1,[0;1]); (n_t1,[2;3]); (n_v'oovv,[0;2;4;5]); (n_t4,[6;7;8;9;10;11;4;5])] [6;7;8;9;1;3;10;11]) (1) 2);
  (*1805*) AddTo n_t4new (Times (Einsum [(n_t1,[0;1]); (n_t1,[2;3]); (n_v'oovv,[0;2;4;5]); (n_t4,[6;7;8;9;10;11;4;5])] [6;7;8;9;1;10;3;11]) (-1) 2);
  (*1806*) AddTo n_t4new (Times (Einsum [(n_t1,[0;1]); (n_t1,[2;3]); (n_v'oovv,[0;2;4;5]); (n_t4,[6;7;8;9;10;11;4;5])] [6;7;8;9;1;10;11;3]) (1) 2);
  (*1807*) AddTo n_t4new (Times (Einsum [(n_t1,[0;1]); (n_t1,[2;3]); (n_v'oovv,[0;2;4;5]); (n_t4,[6;7;8;9;10;11;4;5])] [6;7;8;9;10;1;3;11]) (1) 2);
  (*1808*) AddTo n_t4new (Times (Einsum [(n_t1,[0;1]); (n_t1,[2;3]); (n_v'oovv,[0;2;4;5]); (n_t4,[6;7;8;9;10;11;4;5])] [6;7;8;9;10;1;11;3]) (-1) 2);
  (*1809*) AddTo n_t4new (Times (Einsum [(n_t1,[0;1]); (n_t1,[2;3]); (n_v'oovv,[0;2;4;5]); (n_t4,[6;7;8;9;10;11;4;5])] [6;7;8;9;10;11;1;3]) (1) 2);
  (*1810*) AddTo n_t4new (Plain (Einsum [(n_t1,[0;1]); (n_t1,[2;3]); (n_v'oovv,[0;2;1;4]); (n_t4,[5;6;7;8;9;10;11;4])] [5;6;7;8;3;9;10;11]));
  (*1811*) AddTo n_t4new (Times (Einsum [(n_t1,[0;1]); (n_t1,[2;3]); (n_v'oovv,[0;2;1;4]); (n_t4,[5;6;7;8;9;10;11;4])] [5;6;7;8;9;3;10;11]) (-1) 1);
  (*1812*) AddTo n_t4new (Plain (Einsum [(n_t1,[0;1]); (n_t1,[2;3]); (n_v'oovv,[0;2;1;4]); (n_t4,[5;6;7;8;9;10;11;4])] [5;6;7;8;9;10;3;11]));
  (*1813*) AddTo n_t4new (Times (Einsum [(n_t1,[0;1]); (n_t1,[2;3]); (n_v'oovv,[0;2;1;4]); (n_t4,[5;6;7;8;9;10;11;4])] [5;6;7;8;9;10;11;3]) (-1) 1);
  (*1814*) AddTo n_t4new (Times (Einsum [(n_t1,[0;1]); (n_t2,[2;3;4;5]); (n_t2,[6;7;8;9]); (n_v'ooov,[3;7;10;1])] [0;2;6;10;4;8;5;9]) (-1) 1);
  (*1815*) AddTo n_t4new (Plain (Einsum [(n_t1,[0;1]); (n_t2,[2;3;4;5]); (n_t2,[6;7;8;9]); (n_v'ooov,[3;7;10;1])] [0;2;6;10;4;8;9;5]));
  (*1816*) AddTo n_t4new (Plain (Einsum [(n_t1,[0;1]); (n_t2,[2;3;4;5]); (n_t2,[6;7;8;9]); (n_v'ooov,[3;7;10;1])] [0;2;6;10;4;5;8;9]));
  (*1817*) AddTo n_t4new (Plain (Einsum [(n_t1,[0;1]); (n_t2,[2;3;4;5]); (n_t2,[6;7;8;9]); (n_v'ooov,[3;7;10;1])] [0;2;6;10;8;4;5;9]));
  (*1818*) AddTo n_t4new (Times (Einsum [(n_t1,[0;1]); (n_t2,[2;3;4;5]); (n_t2,[6;7;8;9]); (n_v'ooov,[3;7;10;1])] [0;2;6;10;8;4;9;5]) (-1) 1);
  (*1819*) AddTo n_t4new (Plain (Einsum [(n_t1,[0;1]); (n_t2,[2;3;4;5]); (n_t2,[6;7;8;9]); (n_v'ooov,[3;7;10;1])] [0;2;6;10;8;9;4;5]));
  (*1820*) AddTo n_t4new (Plain (Einsum [(n_t1,[0;1]); (n_t2,[2;3;4;5]); (n_t2,[6;7;8;9]); (n_v'ooov,[3;7;10;1])] [0;2;10;6;4;8;5;9]));
  (*1821*) AddTo n_t4new (Times (Einsum [(n_t1,[0;1]); (n_t2,[2;3;4;5]); (n_t2,[6;7;8;9]); (n_v'ooov,[3;7;10;1])] [0;2;10;6;4;8;9;5]) (-1) 1);
  (*1822*) AddTo n_t4new (Times (Einsum [(n_t1,[0;1]); (n_t2,[2;3;4;5]); (n_t2,[6;7;8;9]); (n_v'ooov,[3;7;10;1])] [0;2;10;6;4;5;8;9]) (-1) 1);
  (*1823*) AddTo n_t4new (Times (Einsum [(n_t1,[0;1]); (n_t2,[2;3;4;5]); (n_t2,[6;7;8;9]); (n_v'ooov,[3;7;10;1])] [0;2;10;6;8;4;5;9]) (-1) 1);
  (*1824*) AddTo n_t4new (Plain (Einsum [(n_t1,[0;1]); (n_t2,[2;3;4;5]); (n_t2,[6;7;8;9]); (n_v'ooov,[3;7;10;1])] [0;2;10;6;8;4;9;5]));
  (*1825*) AddTo n_t4new (Times (Einsum [(n_t1,[0;1]); (n_t2,[2;3;4;5]); (n_t2,[6;7;8;9]); (n_v'ooov,[3;7;10;1])] [0;2;10;6;8;9;4;5]) (-1) 1);
  (*1826*) AddTo n_t4new (Times (Einsum [(n_t1,[0;1]); (n_t2,[2;3;4;5]); (n_t2,[6;7;8;9]); (n_v'ooov,[3;7;10;1])] [0;10;2;6;4;8;5;9]) (-1) 1);
  (*1827*) AddTo n_t4new (Plain (Einsum [(n_t1,[0;1]); (n_t2,[2;3;4;5]); (n_t2,[6;7;8;9]); (n_v'ooov,[3;7;10;1])] [0;10;2;6;4;8;9;5]));
  (*1828*) AddTo n_t4new (Plain (Einsum [(n_t1,[0;1]); (n_t2,[2;3;4;5]); (n_t2,[6;7;8;9]); (n_v'ooov,[3;7;10;1])] [0;10;2;6;4;5;8;9]));
  (*1829*) AddTo n_t4new (Plain (Einsum [(n_t1,[0;1]); (n_t2,[2;3;4;5]); (n_t2,[6;7;8;9]); (n_v'ooov,[3;7;10;1])] [0;10;2;6;8;4;5;9]));
  (*1830*) AddTo n_t4new (Times (Einsum [(n_t1,[0;1]); (n_t2,[2;3;4;5]); (n_t2,[6;7;8;9]); (n_v'ooov,[3;7;10;1])] [0;10;2;6;8;4;9;5]) (-1) 1);
  (*1831*) AddTo n_t4new (Plain (Einsum [(n_t1,[0;1]); (n_t2,[2;3;4;5]); (n_t2,[6;7;8;9]); (n_v'ooov,[3;7;10;1])] [0;10;2;6;8;9;4;5]));
  (*1832*) AddTo n_t4new (Plain (Einsum [(n_t1,[0;1]); (n_t2,[2;3;4;5]); (n_t2,[6;7;8;9]); (n_v'ooov,[3;7;10;1])] [2;0;6;10;4;8;5;9]));
  (*1833*) AddTo n_t4new (Times (Einsum [(n_t1,[0;1]); (n_t2,[2;3;4;5]); (n_t2,[6;7;8;9]); (n_v'ooov,[3;7;10;1])] [2;0;6;10;4;8;9;5]) (-1) 1);
  (*1834*) AddTo n_t4new (Times (Einsum [(n_t1,[0;1]); (n_t2,[2;3;4;5]); (n_t2,[6;7;8;9]); (n_v'ooov,[3;7;10;1])] [2;0;6;10;4;5;8;9]) (-1) 1);
  (*1835*) AddTo n_t4new (Times (Einsum [(n_t1,[0;1]); (n_t2,[2;3;4;5]); (n_t2,[6;7;8;9]); (n_v'ooov,[3;7;10;1])] [2;0;6;10;8;4;5;9]) (-1) 1);
  (*1836*) AddTo n_t4new (Plain (Einsum [(n_t1,[0;1]); (n_t2,[2;3;4;5]); (n_t2,[6;7;8;9]); (n_v'ooov,[3;7;10;1])] [2;0;6;10;8;4;9;5]));
  (*1837*) AddTo n_t4new (Times (Einsum [(n_t1,[0;1]); (n_t2,[2;3;4;5]); (n_t2,[6;7;8;9]); (n_v'ooov,[3;7;10;1])] [2;0;6;10;8;9;4;5]) (-1) 1);
  (*1838*) AddTo n_t4new (Times (Einsum [(n_t1,[0;1]); (n_t2,[2;3;4;5]); (n_t2,[6;7;8;9]); (n_v'ooov,[3;7;10;1])] [2;0;10;6;4;8;5;9]) (-1) 1);
  (*1839*) AddTo n_t4new (Plain (Einsum [(n_t1,[0;1]); (n_t2,[2;3;4;5]); (n_t2,[6;7;8;9]); (n_v'ooov,[3;7;10;1])] [2;0;10;6;4;8;9;5]));
  (*1840*) AddTo n_t4new (Plain (Einsum [(n_t1,[0;1]); (n_t2,[2;3;4;5]); (n_t2,[6;7;8;9]); (n_v'ooov,[3;7;10;1])] [2;0;10;6;4;5;8;9]));
  (*1841*) AddTo n_t4new (Plain (Einsum [(n_t1,[0;1]); (n_t2,[2;3;4;5]); (n_t2,[6;7;8;9]); (n_v'ooov,[3;7;10;1])] [2;0;10;6;8;4;5;9]));
  (*1842*) AddTo n_t4new (Times (Einsum [(n_t1,[0;1]); (n_t2,[2;3;4;5]); (n_t2,[6;7;8;9]); (n_v'ooov,[3;7;10;1])] [2;0;10;6;8;4;9;5]) (-1) 1);
  (*1843*) AddTo n_t4new (Plain (Einsum [(n_t1,[0;1]); (n_t2,[2;3;4;5]); (n_t2,[6;7;8;9]); (n_v'ooov,[3;7;10;1])] [2;0;10;6;8;9;4;5]));
  (*1844*) AddTo n_t4new (Plain (Einsum [(n_t1,[0;1]); (n_t2,[2;3;4;5]); (n_t2,[6;7;8;9]); (n_v'ooov,[3;7;10;1])] [10;0;2;6;4;8;5;9]));
  (*1845*) AddTo n_t4new (Times (Einsum [(n_t1,[0;1]); (n_t2,[2;3;4;5]); (n_t2,[6;7;8;9]); (n_v'ooov,[3;7;10;1])] [10;0;2;6;4;8;9;5]) (-1) 1);
  (*1846*) AddTo n_t4new (Times (Einsum [(n_t1,[0;1]); (n_t2,[2;3;4;5]); (n_t2,[6;7;8;9]); (n_v'ooov,[3;7;10;1])] [10;0;2;6;4;5;8;9]) (-1) 1);
  (*1847*) AddTo n_t4new (Times (Einsum [(n_t1,[0;1]); (n_t2,[2;3;4;5]); (n_t2,[6;7;8;9]); (n_v'ooov,[3;7;10;1])] [10;0;2;6;8;4;5;9]) (-1) 1);
  (*1848*) AddTo n_t4new (Plain (Einsum [(n_t1,[0;1]); (n_t2,[2;3;4;5]); (n_t2,[6;7;8;9]); (n_v'ooov,[3;7;10;1])] [10;0;2;6;8;4;9;5]));
  (*1849*) AddTo n_t4new (Times (Einsum [(n_t1,[0;1]); (n_t2,[2;3;4;5]); (n_t2,[6;7;8;9]); (n_v'ooov,[3;7;10;1])] [10;0;2;6;8;9;4;5]) (-1) 1);
  (*1850*) AddTo n_t4new (Times (Einsum [(n_t1,[0;1]); (n_t2,[2;3;4;5]); (n_t2,[6;7;8;9]); (n_v'ooov,[3;7;10;1])] [2;6;0;10;4;8;5;9]) (-1) 1);
  (*1851*) AddTo n_t4new (Plain (Einsum [(n_t1,[0;1]); (n_t2,[2;3;4;5]); (n_t2,[6;7;8;9]); (n_v'ooov,[3;7;10;1])] [2;6;0;10;4;8;9;5]));
  (*1852*) AddTo n_t4new (Plain (Einsum [(n_t1,[0;1]); (n_t2,[2;3;4;5]); (n_t2,[6;7;8;9]); (n_v'ooov,[3;7;10;1])] [2;6;0;10;4;5;8;9]));
  (*1853*) AddTo n_t4new (Plain (Einsum [(n_t1,[0;1]); (n_t2,[2;3;4;5]); (n_t2,[6;7;8;9]); (n_v'ooov,[3;7;10;1])] [2;6;0;10;8;4;5;9]));
  (*1854*) AddTo n_t4new (Times (Einsum [(n_t1,[0;1]); (n_t2,[2;3;4;5]); (n_t2,[6;7;8;9]); (n_v'ooov,[3;7;10;1])] [2;6;0;10;8;4;9;5]) (-1) 1);
  (*1855*) AddTo n_t4new (Plain (Einsum [(n_t1,[0;1]); (n_t2,[2;3;4;5]); (n_t2,[6;7;8;9]); (n_v'ooov,[3;7;10;1])] [2;6;0;10;8;9;4;5]));
  (*1856*) AddTo n_t4new (Plain (Einsum [(n_t1,[0;1]); (n_t2,[2;3;4;5]); (n_t2,[6;7;8;9]); (n_v'ooov,[3;7;10;1])] [2;10;0;6;4;8;5;9]));
  (*1857*) AddTo n_t4new (Times (Einsum [(n_t1,[0;1]); (n_t2,[2;3;4;5]); (n_t2,[6;7;8;9]); (n_v'ooov,[3;7;10;1])] [2;10;0;6;4;8;9;5]) (-1) 1);
  (*1858*) AddTo n_t4new (Times (Einsum [(n_t1,[0;1]); (n_t2,[2;3;4;5]); (n_t2,[6;7;8;9]); (n_v'ooov,[3;7;10;1])] [2;10;0;6;4;5;8;9]) (-1) 1);
  (*1859*) AddTo n_t4new (Times (Einsum [(n_t1,[0;1]); (n_t2,[2;3;4;5]); (n_t2,[6;7;8;9]); (n_v'ooov,[3;7;10;1])] [2;10;0;6;8;4;5;9]) (-1) 1);
  (*1860*) AddTo n_t4new (Plain (Einsum [(n_t1,[0;1]); (n_t2,[2;3;4;5]); (n_t2,[6;7;8;9]); (n_v'ooov,[3;7;10;1])] [2;10;0;6;8;4;9;5]));
  (*1861*) AddTo n_t4new (Times (Einsum [(n_t1,[0;1]); (n_t2,[2;3;4;5]); (n_t2,[6;7;8;9]); (n_v'ooov,[3;7;10;1])] [2;10;0;6;8;9;4;5]) (-1) 1);
  (*1862*) AddTo n_t4new (Times (Einsum [(n_t1,[0;1]); (n_t2,[2;3;4;5]); (n_t2,[6;7;8;9]); (n_v'ooov,[3;7;10;1])] [10;2;0;6;4;8;5;9]) (-1) 1);
  (*1863*) AddTo n_t4new (Plain (Einsum [(n_t1,[0;1]); (n_t2,[2;3;4;5]); (n_t2,[6;7;8;9]); (n_v'ooov,[3;7;10;1])] [10;2;0;6;4;8;9;5]));
  (*1864*) AddTo n_t4new (Plain (Einsum [(n_t1,[0;1]); (n_t2,[2;3;4;5]); (n_t2,[6;7;8;9]); (n_v'ooov,[3;7;10;1])] [10;2;0;6;4;5;8;9]));
  (*1865*) AddTo n_t4new (Plain (Einsum [(n_t1,[0;1]); (n_t2,[2;3;4;5]); (n_t2,[6;7;8;9]); (n_v'ooov,[3;7;10;1])] [10;2;0;6;8;4;5;9]));
  (*1866*) AddTo n_t4new (Times (Einsum [(n_t1,[0;1]); (n_t2,[2;3;4;5]); (n_t2,[6;7;8;9]); (n_v'ooov,[3;7;10;1])] [10;2;0;6;8;4;9;5]) (-1) 1);
  (*1867*) AddTo n_t4new (Plain (Einsum [(n_t1,[0;1]); (n_t2,[2;3;4;5]); (n_t2,[6;7;8;9]); (n_v'ooov,[3;7;10;1])] [10;2;0;6;8;9;4;5]));
  (*1868*) AddTo n_t4new (Plain (Einsum [(n_t1,[0;1]); (n_t2,[2;3;4;5]); (n_t2,[6;7;8;9]); (n_v'ooov,[3;7;10;1])] [2;6;10;0;4;8;5;9]));
  (*1869*) AddTo n_t4new (Times (Einsum [(n_t1,[0;1]); (n_t2,[2;3;4;5]); (n_t2,[6;7;8;9]); (n_v'ooov,[3;7;10;1])] [2;6;10;0;4;8;9;5]) (-1) 1);
  (*1870*) AddTo n_t4new (Times (Einsum [(n_t1,[0;1]); (n_t2,[2;3;4;5]); (n_t2,[6;7;8;9]); (n_v'ooov,[3;7;10;1])] [2;6;10;0;4;5;8;9]) (-1) 1);
  (*1871*) AddTo n_t4new (Times (Einsum [(n_t1,[0;1]); (n_t2,[2;3;4;5]); (n_t2,[6;7;8;9]); (n_v'ooov,[3;7;10;1])] [2;6;10;0;8;4;5;9]) (-1) 1);
  (*1872*) AddTo n_t4new (Plain (Einsum [(n_t1,[0;1]); (n_t2,[2;3;4;5]); (n_t2,[6;7;8;9]); (n_v'ooov,[3;7;10;1])] [2;6;10;0;8;4;9;5]));
  (*1873*) AddTo n_t4new (Times (Einsum [(n_t1,[0;1]); (n_t2,[2;3;4;5]); (n_t2,[6;7;8;9]); (n_v'ooov,[3;7;10;1])] [2;6;10;0;8;9;4;5]) (-1) 1);
  (*1874*) AddTo n_t4new (Times (Einsum [(n_t1,[0;1]); (n_t2,[2;3;4;5]); (n_t2,[6;7;8;9]); (n_v'ooov,[3;7;10;1])] [2;10;6;0;4;8;5;9]) (-1) 1);
  (*1875*) AddTo n_t4new (Plain (Einsum [(n_t1,[0;1]); (n_t2,[2;3;4;5]); (n_t2,[6;7;8;9]); (n_v'ooov,[3;7;10;1])] [2;10;6;0;4;8;9;5]));
  (*1876*) AddTo n_t4new (Plain (Einsum [(n_t1,[0;1]); (n_t2,[2;3;4;5]); (n_t2,[6;7;8;9]); (n_v'ooov,[3;7;10;1])] [2;10;6;0;4;5;8;9]));
  (*1877*) AddTo n_t4new (Plain (Einsum [(n_t1,[0;1]); (n_t2,[2;3;4;5]); (n_t2,[6;7;8;9]); (n_v'ooov,[3;7;10;1])] [2;10;6;0;8;4;5;9]));
  (*1878*) AddTo n_t4new (Times (Einsum [(n_t1,[0;1]); (n_t2,[2;3;4;5]); (n_t2,[6;7;8;9]); (n_v'ooov,[3;7;10;1])] [2;10;6;0;8;4;9;5]) (-1) 1);
  (*1879*) AddTo n_t4new (Plain (Einsum [(n_t1,[0;1]); (n_t2,[2;3;4;5]); (n_t2,[6;7;8;9]); (n_v'ooov,[3;7;10;1])] [2;10;6;0;8;9;4;5]));
  (*1880*) AddTo n_t4new (Plain (Einsum [(n_t1,[0;1]); (n_t2,[2;3;4;5]); (n_t2,[6;7;8;9]); (n_v'ooov,[3;7;10;1])] [10;2;6;0;4;8;5;9]));
  (*1881*) AddTo n_t4new (Times (Einsum [(n_t1,[0;1]); (n_t2,[2;3;4;5]); (n_t2,[6;7;8;9]); (n_v'ooov,[3;7;10;1])] [10;2;6;0;4;8;9;5]) (-1) 1);
  (*1882*) AddTo n_t4new (Times (Einsum [(n_t1,[0;1]); (n_t2,[2;3;4;5]); (n_t2,[6;7;8;9]); (n_v'ooov,[3;7;10;1])] [10;2;6;0;4;5;8;9]) (-1) 1);
  (*1883*) AddTo n_t4new (Times (Einsum [(n_t1,[0;1]); (n_t2,[2;3;4;5]); (n_t2,[6;7;8;9]); (n_v'ooov,[3;7;10;1])] [10;2;6;0;8;4;5;9]) (-1) 1);
  (*1884*) AddTo n_t4new (Plain (Einsum [(n_t1,[0;1]); (n_t2,[2;3;4;5]); (n_t2,[6;7;8;9]); (n_v'ooov,[3;7;10;1])] [10;2;6;0;8;4;9;5]));
  (*1885*) AddTo n_t4new (Times (Einsum [(n_t1,[0;1]); (n_t2,[2;3;4;5]); (n_t2,[6;7;8;9]); (n_v'ooov,[3;7;10;1])] [10;2;6;0;8;9;4;5]) (-1) 1);
  (*1886*) AddTo n_t4new (Times (Einsum [(n_t1,[0;1]); (n_t2,[2;3;4;5]); (n_t2,[6;7;8;9]); (n_v'ooov,[0;7;10;5])] [2;6;3;10;1;4;8;9]) (-1) 1);
  (*1887*) AddTo n_t4new (Plain (Einsum [(n_t1,[0;1]); (n_t2,[2;3;4;5]); (n_t2,[6;7;8;9]); (n_v'ooov,[0;7;10;5])] [2;6;3;10;1;8;4;9]));
  (*1888*) AddTo n_t4new (Times (Einsum [(n_t1,[0;1]); (n_t2,[2;3;4;5]); (n_t2,[6;7;8;9]); (n_v'ooov,[0;7;10;5])] [2;6;3;10;1;8;9;4]) (-1) 1);
  (*1889*) AddTo n_t4new (Plain (Einsum [(n_t1,[0;1]); (n_t2,[2;3;4;5]); (n_t2,[6;7;8;9]); (n_v'ooov,[0;7;10;5])] [2;6;10;3;1;4;8;9]));
  (*1890*) AddTo n_t4new (Times (Einsum [(n_t1,[0;1]); (n_t2,[2;3;4;5]); (n_t2,[6;7;8;9]); (n_v'ooov,[0;7;10;5])] [2;6;10;3;1;8;4;9]) (-1) 1);
  (*1891*) AddTo n_t4new (Plain (Einsum [(n_t1,[0;1]); (n_t2,[2;3;4;5]); (n_t2,[6;7;8;9]); (n_v'ooov,[0;7;10;5])] [2;6;10;3;1;8;9;4]));
  (*1892*) AddTo n_t4new (Times (Einsum [(n_t1,[0;1]); (n_t2,[2;3;4;5]); (n_t2,[6;7;8;9]); (n_v'ooov,[0;3;10;9])] [2;6;7;10;1;4;8;5]) (-1) 1);
  (*1893*) AddTo n_t4new (Plain (Einsum [(n_t1,[0;1]); (n_t2,[2;3;4;5]); (n_t2,[6;7;8;9]); (n_v'ooov,[0;3;10;9])] [2;6;7;10;1;4;5;8]));
  (*1894*) AddTo n_t4new (Plain (Einsum [(n_t1,[0;1]); (n_t2,[2;3;4;5]); (n_t2,[6;7;8;9]); (n_v'ooov,[0;3;10;9])] [2;6;7;10;1;8;4;5]));
  (*1895*) AddTo n_t4new (Plain (Einsum [(n_t1,[0;1]); (n_t2,[2;3;4;5]); (n_t2,[6;7;8;9]); (n_v'ooov,[0;3;10;9])] [2;6;10;7;1;4;8;5]));
  (*1896*) AddTo n_t4new (Times (Einsum [(n_t1,[0;1]); (n_t2,[2;3;4;5]); (n_t2,[6;7;8;9]); (n_v'ooov,[0;3;10;9])] [2;6;10;7;1;4;5;8]) (-1) 1);
  (*1897*) AddTo n_t4new (Times (Einsum [(n_t1,[0;1]); (n_t2,[2;3;4;5]); (n_t2,[6;7;8;9]); (n_v'ooov,[0;3;10;9])] [2;6;10;7;1;8;4;5]) (-1) 1);
  (*1898*) AddTo n_t4new (Plain (Einsum [(n_t1,[0;1]); (n_t2,[2;3;4;5]); (n_t2,[6;7;8;9]); (n_v'ooov,[0;7;10;5])] [2;3;6;10;1;4;8;9]));
  (*1899*) AddTo n_t4new (Times (Einsum [(n_t1,[0;1]); (n_t2,[2;3;4;5]); (n_t2,[6;7;8;9]); (n_v'ooov,[0;7;10;5])] [2;3;6;10;1;8;4;9]) (-1) 1);
  (*1900*) AddTo n_t4new (Plain (Einsum [(n_t1,[0;1]); (n_t2,[2;3;4;5]); (n_t2,[6;7;8;9]); (n_v'ooov,[0;7;10;5])] [2;3;6;10;1;8;9;4]));
  (*1901*) AddTo n_t4new (Times (Einsum [(n_t1,[0;1]); (n_t2,[2;3;4;5]); (n_t2,[6;7;8;9]); (n_v'ooov,[0;7;10;5])] [2;10;6;3;1;4;8;9]) (-1) 1);
  (*1902*) AddTo n_t4new (Plain (Einsum [(n_t1,[0;1]); (n_t2,[2;3;4;5]); (n_t2,[6;7;8;9]); (n_v'ooov,[0;7;10;5])] [2;10;6;3;1;8;4;9]));
  (*1903*) AddTo n_t4new (Times (Einsum [(n_t1,[0;1]); (n_t2,[2;3;4;5]); (n_t2,[6;7;8;9]); (n_v'ooov,[0;7;10;5])] [2;10;6;3;1;8;9;4]) (-1) 1);
  (*1904*) AddTo n_t4new (Times (Einsum [(n_t1,[0;1]); (n_t2,[2;3;4;5]); (n_t2,[6;7;8;9]); (n_v'ooov,[0;3;10;9])] [2;10;6;7;1;4;8;5]) (-1) 1);
  (*1905*) AddTo n_t4new (Plain (Einsum [(n_t1,[0;1]); (n_t2,[2;3;4;5]); (n_t2,[6;7;8;9]); (n_v'ooov,[0;3;10;9])] [2;10;6;7;1;4;5;8]));
  (*1906*) AddTo n_t4new (Plain (Einsum [(n_t1,[0;1]); (n_t2,[2;3;4;5]); (n_t2,[6;7;8;9]); (n_v'ooov,[0;3;10;9])] [2;10;6;7;1;8;4;5]));
  (*1907*) AddTo n_t4new (Times (Einsum [(n_t1,[0;1]); (n_t2,[2;3;4;5]); (n_t2,[6;7;8;9]); (n_v'ooov,[0;7;10;5])] [2;3;10;6;1;4;8;9]) (-1) 1);
  (*1908*) AddTo n_t4new (Plain (Einsum [(n_t1,[0;1]); (n_t2,[2;3;4;5]); (n_t2,[6;7;8;9]); (n_v'ooov,[0;7;10;5])] [2;3;10;6;1;8;4;9]));
  (*1909*) AddTo n_t4new (Times (Einsum [(n_t1,[0;1]); (n_t2,[2;3;4;5]); (n_t2,[6;7;8;9]); (n_v'ooov,[0;7;10;5])] [2;3;10;6;1;8;9;4]) (-1) 1);
  (*1910*) AddTo n_t4new (Plain (Einsum [(n_t1,[0;1]); (n_t2,[2;3;4;5]); (n_t2,[6;7;8;9]); (n_v'ooov,[0;7;10;5])] [2;10;3;6;1;4;8;9]));
  (*1911*) AddTo n_t4new (Times (Einsum [(n_t1,[0;1]); (n_t2,[2;3;4;5]); (n_t2,[6;7;8;9]); (n_v'ooov,[0;7;10;5])] [2;10;3;6;1;8;4;9]) (-1) 1);
  (*1912*) AddTo n_t4new (Plain (Einsum [(n_t1,[0;1]); (n_t2,[2;3;4;5]); (n_t2,[6;7;8;9]); (n_v'ooov,[0;7;10;5])] [2;10;3;6;1;8;9;4]));
  (*1913*) AddTo n_t4new (Plain (Einsum [(n_t1,[0;1]); (n_t2,[2;3;4;5]); (n_t2,[6;7;8;9]); (n_v'ooov,[0;7;10;5])] [10;2;6;3;1;4;8;9]));
  (*1914*) AddTo n_t4new (Times (Einsum [(n_t1,[0;1]); (n_t2,[2;3;4;5]); (n_t2,[6;7;8;9]); (n_v'ooov,[0;7;10;5])] [10;2;6;3;1;8;4;9]) (-1) 1);
  (*1915*) AddTo n_t4new (Plain (Einsum [(n_t1,[0;1]); (n_t2,[2;3;4;5]); (n_t2,[6;7;8;9]); (n_v'ooov,[0;7;10;5])] [10;2;6;3;1;8;9;4]));
  (*1916*) AddTo n_t4new (Plain (Einsum [(n_t1,[0;1]); (n_t2,[2;3;4;5]); (n_t2,[6;7;8;9]); (n_v'ooov,[0;3;10;9])] [10;2;6;7;1;4;8;5]));
  (*1917*) AddTo n_t4new (Times (Einsum [(n_t1,[0;1]); (n_t2,[2;3;4;5]); (n_t2,[6;7;8;9]); (n_v'ooov,[0;3;10;9])] [10;2;6;7;1;4;5;8]) (-1) 1);
  (*1918*) AddTo n_t4new (Times (Einsum [(n_t1,[0;1]); (n_t2,[2;3;4;5]); (n_t2,[6;7;8;9]); (n_v'ooov,[0;3;10;9])] [10;2;6;7;1;8;4;5]) (-1) 1);
  (*1919*) AddTo n_t4new (Times (Einsum [(n_t1,[0;1]); (n_t2,[2;3;4;5]); (n_t2,[6;7;8;9]); (n_v'ooov,[0;7;10;5])] [10;2;3;6;1;4;8;9]) (-1) 1);
  (*1920*) AddTo n_t4new (Plain (Einsum [(n_t1,[0;1]); (n_t2,[2;3;4;5]); (n_t2,[6;7;8;9]); (n_v'ooov,[0;7;10;5])] [10;2;3;6;1;8;4;9]));
  (*1921*) AddTo n_t4new (Times (Einsum [(n_t1,[0;1]); (n_t2,[2;3;4;5]); (n_t2,[6;7;8;9]); (n_v'ooov,[0;7;10;5])] [10;2;3;6;1;8;9;4]) (-1) 1);
  (*1922*) AddTo n_t4new (Plain (Einsum [(n_t1,[0;1]); (n_t2,[2;3;4;5]); (n_t2,[6;7;8;9]); (n_v'ooov,[0;7;10;5])] [2;6;3;10;4;1;8;9]));
  (*1923*) AddTo n_t4new (Times (Einsum [(n_t1,[0;1]); (n_t2,[2;3;4;5]); (n_t2,[6;7;8;9]); (n_v'ooov,[0;7;10;5])] [2;6;3;10;8;1;4;9]) (-1) 1);
  (*1924*) AddTo n_t4new (Plain (Einsum [(n_t1,[0;1]); (n_t2,[2;3;4;5]); (n_t2,[6;7;8;9]); (n_v'ooov,[0;7;10;5])] [2;6;3;10;8;1;9;4]));
  (*1925*) AddTo n_t4new (Times (Einsum [(n_t1,[0;1]); (n_t2,[2;3;4;5]); (n_t2,[6;7;8;9]); (n_v'ooov,[0;7;10;5])] [2;6;10;3;4;1;8;9]) (-1) 1);
  (*1926*) AddTo n_t4new (Plain (Einsum [(n_t1,[0;1]); (n_t2,[2;3;4;5]); (n_t2,[6;7;8;9]); (n_v'ooov,[0;7;10;5])] [2;6;10;3;8;1;4;9]));
  (*1927*) AddTo n_t4new (Times (Einsum [(n_t1,[0;1]); (n_t2,[2;3;4;5]); (n_t2,[6;7;8;9]); (n_v'ooov,[0;7;10;5])] [2;6;10;3;8;1;9;4]) (-1) 1);
  (*1928*) AddTo n_t4new (Plain (Einsum [(n_t1,[0;1]); (n_t2,[2;3;4;5]); (n_t2,[6;7;8;9]); (n_v'ooov,[0;3;10;9])] [2;6;7;10;4;1;8;5]));
  (*1929*) AddTo n_t4new (Times (Einsum [(n_t1,[0;1]); (n_t2,[2;3;4;5]); (n_t2,[6;7;8;9]); (n_v'ooov,[0;3;10;9])] [2;6;7;10;4;1;5;8]) (-1) 1);
  (*1930*) AddTo n_t4new (Times (Einsum [(n_t1,[0;1]); (n_t2,[2;3;4;5]); (n_t2,[6;7;8;9]); (n_v'ooov,[0;3;10;9])] [2;6;7;10;8;1;4;5]) (-1) 1);
  (*1931*) AddTo n_t4new (Times (Einsum [(n_t1,[0;1]); (n_t2,[2;3;4;5]); (n_t2,[6;7;8;9]); (n_v'ooov,[0;3;10;9])] [2;6;10;7;4;1;8;5]) (-1) 1);
  (*1932*) AddTo n_t4new (Plain (Einsum [(n_t1,[0;1]); (n_t2,[2;3;4;5]); (n_t2,[6;7;8;9]); (n_v'ooov,[0;3;10;9])] [2;6;10;7;4;1;5;8]));
  (*1933*) AddTo n_t4new (Plain (Einsum [(n_t1,[0;1]); (n_t2,[2;3;4;5]); (n_t2,[6;7;8;9]); (n_v'ooov,[0;3;10;9])] [2;6;10;7;8;1;4;5]));
  (*1934*) AddTo n_t4new (Times (Einsum [(n_t1,[0;1]); (n_t2,[2;3;4;5]); (n_t2,[6;7;8;9]); (n_v'ooov,[0;7;10;5])] [2;3;6;10;4;1;8;9]) (-1) 1);
  (*1935*) AddTo n_t4new (Plain (Einsum [(n_t1,[0;1]); (n_t2,[2;3;4;5]); (n_t2,[6;7;8;9]); (n_v'ooov,[0;7;10;5])] [2;3;6;10;8;1;4;9]));
  (*1936*) AddTo n_t4new (Times (Einsum [(n_t1,[0;1]); (n_t2,[2;3;4;5]); (n_t2,[6;7;8;9]); (n_v'ooov,[0;7;10;5])] [2;3;6;10;8;1;9;4]) (-1) 1);
  (*1937*) AddTo n_t4new (Plain (Einsum [(n_t1,[0;1]); (n_t2,[2;3;4;5]); (n_t2,[6;7;8;9]); (n_v'ooov,[0;7;10;5])] [2;10;6;3;4;1;8;9]));
  (*1938*) AddTo n_t4new (Times (Einsum [(n_t1,[0;1]); (n_t2,[2;3;4;5]); (n_t2,[6;7;8;9]); (n_v'ooov,[0;7;10;5])] [2;10;6;3;8;1;4;9]) (-1) 1);
  (*1939*) AddTo n_t4new (Plain (Einsum [(n_t1,[0;1]); (n_t2,[2;3;4;5]); (n_t2,[6;7;8;9]); (n_v'ooov,[0;7;10;5])] [2;10;6;3;8;1;9;4]));
  (*1940*) AddTo n_t4new (Plain (Einsum [(n_t1,[0;1]); (n_t2,[2;3;4;5]); (n_t2,[6;7;8;9]); (n_v'ooov,[0;3;10;9])] [2;10;6;7;4;1;8;5]));
  (*1941*) AddTo n_t4new (Times (Einsum [(n_t1,[0;1]); (n_t2,[2;3;4;5]); (n_t2,[6;7;8;9]); (n_v'ooov,[0;3;10;9])] [2;10;6;7;4;1;5;8]) (-1) 1);
  (*1942*) AddTo n_t4new (Times (Einsum [(n_t1,[0;1]); (n_t2,[2;3;4;5]); (n_t2,[6;7;8;9]); (n_v'ooov,[0;3;10;9])] [2;10;6;7;8;1;4;5]) (-1) 1);
  (*1943*) AddTo n_t4new (Plain (Einsum [(n_t1,[0;1]); (n_t2,[2;3;4;5]); (n_t2,[6;7;8;9]); (n_v'ooov,[0;7;10;5])] [2;3;10;6;4;1;8;9]));
  (*1944*) AddTo n_t4new (Times (Einsum [(n_t1,[0;1]); (n_t2,[2;3;4;5]); (n_t2,[6;7;8;9]); (n_v'ooov,[0;7;10;5])] [2;3;10;6;8;1;4;9]) (-1) 1);
  (*1945*) AddTo n_t4new (Plain (Einsum [(n_t1,[0;1]); (n_t2,[2;3;4;5]); (n_t2,[6;7;8;9]); (n_v'ooov,[0;7;10;5])] [2;3;10;6;8;1;9;4]));
  (*1946*) AddTo n_t4new (Times (Einsum [(n_t1,[0;1]); (n_t2,[2;3;4;5]); (n_t2,[6;7;8;9]); (n_v'ooov,[0;7;10;5])] [2;10;3;6;4;1;8;9]) (-1) 1);
  (*1947*) AddTo n_t4new (Plain (Einsum [(n_t1,[0;1]); (n_t2,[2;3;4;5]); (n_t2,[6;7;8;9]); (n_v'ooov,[0;7;10;5])] [2;10;3;6;8;1;4;9]));
  (*1948*) AddTo n_t4new (Times (Einsum [(n_t1,[0;1]); (n_t2,[2;3;4;5]); (n_t2,[6;7;8;9]); (n_v'ooov,[0;7;10;5])] [2;10;3;6;8;1;9;4]) (-1) 1);
  (*1949*) AddTo n_t4new (Times (Einsum [(n_t1,[0;1]); (n_t2,[2;3;4;5]); (n_t2,[6;7;8;9]); (n_v'ooov,[0;7;10;5])] [10;2;6;3;4;1;8;9]) (-1) 1);
  (*1950*) AddTo n_t4new (Plain (Einsum [(n_t1,[0;1]); (n_t2,[2;3;4;5]); (n_t2,[6;7;8;9]); (n_v'ooov,[0;7;10;5])] [10;2;6;3;8;1;4;9]));
  (*1951*) AddTo n_t4new (Times (Einsum [(n_t1,[0;1]); (n_t2,[2;3;4;5]); (n_t2,[6;7;8;9]); (n_v'ooov,[0;7;10;5])] [10;2;6;3;8;1;9;4]) (-1) 1);
  (*1952*) AddTo n_t4new (Times (Einsum [(n_t1,[0;1]); (n_t2,[2;3;4;5]); (n_t2,[6;7;8;9]); (n_v'ooov,[0;3;10;9])] [10;2;6;7;4;1;8;5]) (-1) 1);
  (*1953*) AddTo n_t4new (Plain (Einsum [(n_t1,[0;1]); (n_t2,[2;3;4;5]); (n_t2,[6;7;8;9]); (n_v'ooov,[0;3;10;9])] [10;2;6;7;4;1;5;8]));
  (*1954*) AddTo n_t4new (Plain (Einsum [(n_t1,[0;1]); (n_t2,[2;3;4;5]); (n_t2,[6;7;8;9]); (n_v'ooov,[0;3;10;9])] [10;2;6;7;8;1;4;5]));
  (*1955*) AddTo n_t4new (Plain (Einsum [(n_t1,[0;1]); (n_t2,[2;3;4;5]); (n_t2,[6;7;8;9]); (n_v'ooov,[0;7;10;5])] [10;2;3;6;4;1;8;9]));
  (*1956*) AddTo n_t4new (Times (Einsum [(n_t1,[0;1]); (n_t2,[2;3;4;5]); (n_t2,[6;7;8;9]); (n_v'ooov,[0;7;10;5])] [10;2;3;6;8;1;4;9]) (-1) 1);
  (*1957*) AddTo n_t4new (Plain (Einsum [(n_t1,[0;1]); (n_t2,[2;3;4;5]); (n_t2,[6;7;8;9]); (n_v'ooov,[0;7;10;5])] [10;2;3;6;8;1;9;4]));
  (*1958*) AddTo n_t4new (Times (Einsum [(n_t1,[0;1]); (n_t2,[2;3;4;5]); (n_t2,[6;7;8;9]); (n_v'ooov,[0;7;10;5])] [2;6;3;10;4;8;1;9]) (-1) 1);
  (*1959*) AddTo n_t4new (Plain (Einsum [(n_t1,[0;1]); (n_t2,[2;3;4;5]); (n_t2,[6;7;8;9]); (n_v'ooov,[0;7;10;5])] [2;6;3;10;8;4;1;9]));
  (*1960*) AddTo n_t4new (Times (Einsum [(n_t1,[0;1]); (n_t2,[2;3;4;5]); (n_t2,[6;7;8;9]); (n_v'ooov,[0;7;10;5])] [2;6;3;10;8;9;1;4]) (-1) 1);
  (*1961*) AddTo n_t4new (Plain (Einsum [(n_t1,[0;1]); (n_t2,[2;3;4;5]); (n_t2,[6;7;8;9]); (n_v'ooov,[0;7;10;5])] [2;6;10;3;4;8;1;9]));
  (*1962*) AddTo n_t4new (Times (Einsum [(n_t1,[0;1]); (n_t2,[2;3;4;5]); (n_t2,[6;7;8;9]); (n_v'ooov,[0;7;10;5])] [2;6;10;3;8;4;1;9]) (-1) 1);
  (*1963*) AddTo n_t4new (Plain (Einsum [(n_t1,[0;1]); (n_t2,[2;3;4;5]); (n_t2,[6;7;8;9]); (n_v'ooov,[0;7;10;5])] [2;6;10;3;8;9;1;4]));
  (*1964*) AddTo n_t4new (Times (Einsum [(n_t1,[0;1]); (n_t2,[2;3;4;5]); (n_t2,[6;7;8;9]); (n_v'ooov,[0;3;10;9])] [2;6;7;10;4;8;1;5]) (-1) 1);
  (*1965*) AddTo n_t4new (Plain (Einsum [(n_t1,[0;1]); (n_t2,[2;3;4;5]); (n_t2,[6;7;8;9]); (n_v'ooov,[0;3;10;9])] [2;6;7;10;4;5;1;8]));
  (*1966*) AddTo n_t4new (Plain (Einsum [(n_t1,[0;1]); (n_t2,[2;3;4;5]); (n_t2,[6;7;8;9]); (n_v'ooov,[0;3;10;9])] [2;6;7;10;8;4;1;5]));
  (*1967*) AddTo n_t4new (Plain (Einsum [(n_t1,[0;1]); (n_t2,[2;3;4;5]); (n_t2,[6;7;8;9]); (n_v'ooov,[0;3;10;9])] [2;6;10;7;4;8;1;5]));
  (*1968*) AddTo n_t4new (Times (Einsum [(n_t1,[0;1]); (n_t2,[2;3;4;5]); (n_t2,[6;7;8;9]); (n_v'ooov,[0;3;10;9])] [2;6;10;7;4;5;1;8]) (-1) 1);
  (*1969*) AddTo n_t4new (Times (Einsum [(n_t1,[0;1]); (n_t2,[2;3;4;5]); (n_t2,[6;7;8;9]); (n_v'ooov,[0;3;10;9])] [2;6;10;7;8;4;1;5]) (-1) 1);
  (*1970*) AddTo n_t4new (Plain (Einsum [(n_t1,[0;1]); (n_t2,[2;3;4;5]); (n_t2,[6;7;8;9]); (n_v'ooov,[0;7;10;5])] [2;3;6;10;4;8;1;9]));
  (*1971*) AddTo n_t4new (Times (Einsum [(n_t1,[0;1]); (n_t2,[2;3;4;5]); (n_t2,[6;7;8;9]); (n_v'ooov,[0;7;10;5])] [2;3;6;10;8;4;1;9]) (-1) 1);
  (*1972*) AddTo n_t4new (Plain (Einsum [(n_t1,[0;1]); (n_t2,[2;3;4;5]); (n_t2,[6;7;8;9]); (n_v'ooov,[0;7;10;5])] [2;3;6;10;8;9;1;4]));
  (*1973*) AddTo n_t4new (Times (Einsum [(n_t1,[0;1]); (n_t2,[2;3;4;5]); (n_t2,[6;7;8;9]); (n_v'ooov,[0;7;10;5])] [2;10;6;3;4;8;1;9]) (-1) 1);
  (*1974*) AddTo n_t4new (Plain (Einsum [(n_t1,[0;1]); (n_t2,[2;3;4;5]); (n_t2,[6;7;8;9]); (n_v'ooov,[0;7;10;5])] [2;10;6;3;8;4;1;9]));
  (*1975*) AddTo n_t4new (Times (Einsum [(n_t1,[0;1]); (n_t2,[2;3;4;5]); (n_t2,[6;7;8;9]); (n_v'ooov,[0;7;10;5])] [2;10;6;3;8;9;1;4]) (-1) 1);
  (*1976*) AddTo n_t4new (Times (Einsum [(n_t1,[0;1]); (n_t2,[2;3;4;5]); (n_t2,[6;7;8;9]); (n_v'ooov,[0;3;10;9])] [2;10;6;7;4;8;1;5]) (-1) 1);
  (*1977*) AddTo n_t4new (Plain (Einsum [(n_t1,[0;1]); (n_t2,[2;3;4;5]); (n_t2,[6;7;8;9]); (n_v'ooov,[0;3;10;9])] [2;10;6;7;4;5;1;8]));
  (*1978*) AddTo n_t4new (Plain (Einsum [(n_t1,[0;1]); (n_t2,[2;3;4;5]); (n_t2,[6;7;8;9]); (n_v'ooov,[0;3;10;9])] [2;10;6;7;8;4;1;5]));
  (*1979*) AddTo n_t4new (Times (Einsum [(n_t1,[0;1]); (n_t2,[2;3;4;5]); (n_t2,[6;7;8;9]); (n_v'ooov,[0;7;10;5])] [2;3;10;6;4;8;1;9]) (-1) 1);
  (*1980*) AddTo n_t4new (Plain (Einsum [(n_t1,[0;1]); (n_t2,[2;3;4;5]); (n_t2,[6;7;8;9]); (n_v'ooov,[0;7;10;5])] [2;3;10;6;8;4;1;9]));
  (*1981*) AddTo n_t4new (Times (Einsum [(n_t1,[0;1]); (n_t2,[2;3;4;5]); (n_t2,[6;7;8;9]); (n_v'ooov,[0;7;10;5])] [2;3;10;6;8;9;1;4]) (-1) 1);
  (*1982*) AddTo n_t4new (Plain (Einsum [(n_t1,[0;1]); (n_t2,[2;3;4;5]); (n_t2,[6;7;8;9]); (n_v'ooov,[0;7;10;5])] [2;10;3;6;4;8;1;9]));
  (*1983*) AddTo n_t4new (Times (Einsum [(n_t1,[0;1]); (n_t2,[2;3;4;5]); (n_t2,[6;7;8;9]); (n_v'ooov,[0;7;10;5])] [2;10;3;6;8;4;1;9]) (-1) 1);
  (*1984*) AddTo n_t4new (Plain (Einsum [(n_t1,[0;1]); (n_t2,[2;3;4;5]); (n_t2,[6;7;8;9]); (n_v'ooov,[0;7;10;5])] [2;10;3;6;8;9;1;4]));
  (*1985*) AddTo n_t4new (Plain (Einsum [(n_t1,[0;1]); (n_t2,[2;3;4;5]); (n_t2,[6;7;8;9]); (n_v'ooov,[0;7;10;5])] [10;2;6;3;4;8;1;9]));
  (*1986*) AddTo n_t4new (Times (Einsum [(n_t1,[0;1]); (n_t2,[2;3;4;5]); (n_t2,[6;7;8;9]); (n_v'ooov,[0;7;10;5])] [10;2;6;3;8;4;1;9]) (-1) 1);
  (*1987*) AddTo n_t4new (Plain (Einsum [(n_t1,[0;1]); (n_t2,[2;3;4;5]); (n_t2,[6;7;8;9]); (n_v'ooov,[0;7;10;5])] [10;2;6;3;8;9;1;4]));
  (*1988*) AddTo n_t4new (Plain (Einsum [(n_t1,[0;1]); (n_t2,[2;3;4;5]); (n_t2,[6;7;8;9]); (n_v'ooov,[0;3;10;9])] [10;2;6;7;4;8;1;5]));
  (*1989*) AddTo n_t4new (Times (Einsum [(n_t1,[0;1]); (n_t2,[2;3;4;5]); (n_t2,[6;7;8;9]); (n_v'ooov,[0;3;10;9])] [10;2;6;7;4;5;1;8]) (-1) 1);
  (*1990*) AddTo n_t4new (Times (Einsum [(n_t1,[0;1]); (n_t2,[2;3;4;5]); (n_t2,[6;7;8;9]); (n_v'ooov,[0;3;10;9])] [10;2;6;7;8;4;1;5]) (-1) 1);
  (*1991*) AddTo n_t4new (Times (Einsum [(n_t1,[0;1]); (n_t2,[2;3;4;5]); (n_t2,[6;7;8;9]); (n_v'ooov,[0;7;10;5])] [10;2;3;6;4;8;1;9]) (-1) 1);
  (*1992*) AddTo n_t4new (Plain (Einsum [(n_t1,[0;1]); (n_t2,[2;3;4;5]); (n_t2,[6;7;8;9]); (n_v'ooov,[0;7;10;5])] [10;2;3;6;8;4;1;9]));
  (*1993*) AddTo n_t4new (Times (Einsum [(n_t1,[0;1]); (n_t2,[2;3;4;5]); (n_t2,[6;7;8;9]); (n_v'ooov,[0;7;10;5])] [10;2;3;6;8;9;1;4]) (-1) 1);
  (*1994*) AddTo n_t4new (Plain (Einsum [(n_t1,[0;1]); (n_t2,[2;3;4;5]); (n_t2,[6;7;8;9]); (n_v'ooov,[0;7;10;5])] [2;6;3;10;4;8;9;1]));
  (*1995*) AddTo n_t4new (Times (Einsum [(n_t1,[0;1]); (n_t2,[2;3;4;5]); (n_t2,[6;7;8;9]); (n_v'ooov,[0;7;10;5])] [2;6;3;10;8;4;9;1]) (-1) 1);
  (*1996*) AddTo n_t4new (Plain (Einsum [(n_t1,[0;1]); (n_t2,[2;3;4;5]); (n_t2,[6;7;8;9]); (n_v'ooov,[0;7;10;5])] [2;6;3;10;8;9;4;1]));
  (*1997*) AddTo n_t4new (Times (Einsum [(n_t1,[0;1]); (n_t2,[2;3;4;5]); (n_t2,[6;7;8;9]); (n_v'ooov,[0;7;10;5])] [2;6;10;3;4;8;9;1]) (-1) 1);
  (*1998*) AddTo n_t4new (Plain (Einsum [(n_t1,[0;1]); (n_t2,[2;3;4;5]); (n_t2,[6;7;8;9]); (n_v'ooov,[0;7;10;5])] [2;6;10;3;8;4;9;1]));
  (*1999*) AddTo n_t4new (Times (Einsum [(n_t1,[0;1]); (n_t2,[2;3;4;5]); (n_t2,[6;7;8;9]); (n_v'ooov,[0;7;10;5])] [2;6;10;3;8;9;4;1]) (-1) 1);
  (*2000*) AddTo n_t4new (Plain (Einsum [(n_t1,[0;1]); (n_t2,[2;3;4;5]); (n_t2,[6;7;8;9]); (n_v'ooov,[0;3;10;9])] [2;6;7;10;4;8;5;1]));
  (*2001*) AddTo n_t4new (Times (Einsum [(n_t1,[0;1]); (n_t2,[2;3;4;5]); (n_t2,[6;7;8;9]); (n_v'ooov,[0;3;10;9])] [2;6;7;10;4;5;8;1]) (-1) 1);
  (*2002*) AddTo n_t4new (Times (Einsum [(n_t1,[0;1]); (n_t2,[2;3;4;5]); (n_t2,[6;7;8;9]); (n_v'ooov,[0;3;10;9])] [2;6;7;10;8;4;5;1]) (-1) 1);
  (*2003*) AddTo n_t4new (Times (Einsum [(n_t1,[0;1]); (n_t2,[2;3;4;5]); (n_t2,[6;7;8;9]); (n_v'ooov,[0;3;10;9])] [2;6;10;7;4;8;5;1]) (-1) 1);
  (*2004*) AddTo n_t4new (Plain (Einsum [(n_t1,[0;1]); (n_t2,[2;3;4;5]); (n_t2,[6;7;8;9]); (n_v'ooov,[0;3;10;9])] [2;6;10;7;4;5;8;1]));
  (*2005*) AddTo n_t4new (Plain (Einsum [(n_t1,[0;1]); (n_t2,[2;3;4;5]); (n_t2,[6;7;8;9]); (n_v'ooov,[0;3;10;9])] [2;6;10;7;8;4;5;1]));
  (*2006*) AddTo n_t4new (Times (Einsum [(n_t1,[0;1]); (n_t2,[2;3;4;5]); (n_t2,[6;7;8;9]); (n_v'ooov,[0;7;10;5])] [2;3;6;10;4;8;9;1]) (-1) 1);
  (*2007*) AddTo n_t4new (Plain (Einsum [(n_t1,[0;1]); (n_t2,[2;3;4;5]); (n_t2,[6;7;8;9]); (n_v'ooov,[0;7;10;5])] [2;3;6;10;8;4;9;1]));
  (*2008*) AddTo n_t4new (Times (Einsum [(n_t1,[0;1]); (n_t2,[2;3;4;5]); (n_t2,[6;7;8;9]); (n_v'ooov,[0;7;10;5])] [2;3;6;10;8;9;4;1]) (-1) 1);
  (*2009*) AddTo n_t4new (Plain (Einsum [(n_t1,[0;1]); (n_t2,[2;3;4;5]); (n_t2,[6;7;8;9]); (n_v'ooov,[0;7;10;5])] [2;10;6;3;4;8;9;1]));
  (*2010*) AddTo n_t4new (Times (Einsum [(n_t1,[0;1]); (n_t2,[2;3;4;5]); (n_t2,[6;7;8;9]); (n_v'ooov,[0;7;10;5])] [2;10;6;3;8;4;9;1]) (-1) 1);
  (*2011*) AddTo n_t4new (Plain (Einsum [(n_t1,[0;1]); (n_t2,[2;3;4;5]); (n_t2,[6;7;8;9]); (n_v'ooov,[0;7;10;5])] [2;10;6;3;8;9;4;1]));
  (*2012*) AddTo n_t4new (Plain (Einsum [(n_t1,[0;1]); (n_t2,[2;3;4;5]); (n_t2,[6;7;8;9]); (n_v'ooov,[0;3;10;9])] [2;10;6;7;4;8;5;1]));
  (*2013*) AddTo n_t4new (Times (Einsum [(n_t1,[0;1]); (n_t2,[2;3;4;5]); (n_t2,[6;7;8;9]); (n_v'ooov,[0;3;10;9])] [2;10;6;7;4;5;8;1]) (-1) 1);
  (*2014*) AddTo n_t4new (Times (Einsum [(n_t1,[0;1]); (n_t2,[2;3;4;5]); (n_t2,[6;7;8;9]); (n_v'ooov,[0;3;10;9])] [2;10;6;7;8;4;5;1]) (-1) 1);
  (*2015*) AddTo n_t4new (Plain (Einsum [(n_t1,[0;1]); (n_t2,[2;3;4;5]); (n_t2,[6;7;8;9]); (n_v'ooov,[0;7;10;5])] [2;3;10;6;4;8;9;1]));
  (*2016*) AddTo n_t4new (Times (Einsum [(n_t1,[0;1]); (n_t2,[2;3;4;5]); (n_t2,[6;7;8;9]); (n_v'ooov,[0;7;10;5])] [2;3;10;6;8;4;9;1]) (-1) 1);
  (*2017*) AddTo n_t4new (Plain (Einsum [(n_t1,[0;1]); (n_t2,[2;3;4;5]); (n_t2,[6;7;8;9]); (n_v'ooov,[0;7;10;5])] [2;3;10;6;8;9;4;1]));
  (*2018*) AddTo n_t4new (Times (Einsum [(n_t1,[0;1]); (n_t2,[2;3;4;5]); (n_t2,[6;7;8;9]); (n_v'ooov,[0;7;10;5])] [2;10;3;6;4;8;9;1]) (-1) 1);
  (*2019*) AddTo n_t4new (Plain (Einsum [(n_t1,[0;1]); (n_t2,[2;3;4;5]); (n_t2,[6;7;8;9]); (n_v'ooov,[0;7;10;5])] [2;10;3;6;8;4;9;1]));
  (*2020*) AddTo n_t4new (Times (Einsum [(n_t1,[0;1]); (n_t2,[2;3;4;5]); (n_t2,[6;7;8;9]); (n_v'ooov,[0;7;10;5])] [2;10;3;6;8;9;4;1]) (-1) 1);
  (*2021*) AddTo n_t4new (Times (Einsum [(n_t1,[0;1]); (n_t2,[2;3;4;5]); (n_t2,[6;7;8;9]); (n_v'ooov,[0;7;10;5])] [10;2;6;3;4;8;9;1]) (-1) 1);
  (*2022*) AddTo n_t4new (Plain (Einsum [(n_t1,[0;1]); (n_t2,[2;3;4;5]); (n_t2,[6;7;8;9]); (n_v'ooov,[0;7;10;5])] [10;2;6;3;8;4;9;1]));
  (*2023*) AddTo n_t4new (Times (Einsum [(n_t1,[0;1]); (n_t2,[2;3;4;5]); (n_t2,[6;7;8;9]); (n_v'ooov,[0;7;10;5])] [10;2;6;3;8;9;4;1]) (-1) 1);
  (*2024*) AddTo n_t4new (Times (Einsum [(n_t1,[0;1]); (n_t2,[2;3;4;5]); (n_t2,[6;7;8;9]); (n_v'ooov,[0;3;10;9])] [10;2;6;7;4;8;5;1]) (-1) 1);
  (*2025*) AddTo n_t4new (Plain (Einsum [(n_t1,[0;1]); (n_t2,[2;3;4;5]); (n_t2,[6;7;8;9]); (n_v'ooov,[0;3;10;9])] [10;2;6;7;4;5;8;1]));
  (*2026*) AddTo n_t4new (Plain (Einsum [(n_t1,[0;1]); (n_t2,[2;3;4;5]); (n_t2,[6;7;8;9]); (n_v'ooov,[0;3;10;9])] [10;2;6;7;8;4;5;1]));
  (*2027*) AddTo n_t4new (Plain (Einsum [(n_t1,[0;1]); (n_t2,[2;3;4;5]); (n_t2,[6;7;8;9]); (n_v'ooov,[0;7;10;5])] [10;2;3;6;4;8;9;1]));
  (*2028*) AddTo n_t4new (Times (Einsum [(n_t1,[0;1]); (n_t2,[2;3;4;5]); (n_t2,[6;7;8;9]); (n_v'ooov,[0;7;10;5])] [10;2;3;6;8;4;9;1]) (-1) 1);
  (*2029*) AddTo n_t4new (Plain (Einsum [(n_t1,[0;1]); (n_t2,[2;3;4;5]); (n_t2,[6;7;8;9]); (n_v'ooov,[0;7;10;5])] [10;2;3;6;8;9;4;1]));
  (*2030*) AddTo n_t4new (Plain (Einsum [(n_t1,[0;1]); (n_t2,[2;3;4;5]); (n_t2,[6;7;8;9]); (n_v'ovvv,[7;10;1;5])] [0;2;6;3;10;4;8;9]));
  (*2031*) AddTo n_t4new (Times (Einsum [(n_t1,[0;1]); (n_t2,[2;3;4;5]); (n_t2,[6;7;8;9]); (n_v'ovvv,[7;10;1;5])] [0;2;6;3;10;8;4;9]) (-1) 1);
  (*2032*) AddTo n_t4new (Plain (Einsum [(n_t1,[0;1]); (n_t2,[2;3;4;5]); (n_t2,[6;7;8;9]); (n_v'ovvv,[7;10;1;5])] [0;2;6;3;10;8;9;4]));
  (*2033*) AddTo n_t4new (Times (Einsum [(n_t1,[0;1]); (n_t2,[2;3;4;5]); (n_t2,[6;7;8;9]); (n_v'ovvv,[7;10;1;5])] [0;2;6;3;4;10;8;9]) (-1) 1);
  (*2034*) AddTo n_t4new (Plain (Einsum [(n_t1,[0;1]); (n_t2,[2;3;4;5]); (n_t2,[6;7;8;9]); (n_v'ovvv,[7;10;1;5])] [0;2;6;3;8;10;4;9]));
  (*2035*) AddTo n_t4new (Times (Einsum [(n_t1,[0;1]); (n_t2,[2;3;4;5]); (n_t2,[6;7;8;9]); (n_v'ovvv,[7;10;1;5])] [0;2;6;3;8;10;9;4]) (-1) 1);
  (*2036*) AddTo n_t4new (Plain (Einsum [(n_t1,[0;1]); (n_t2,[2;3;4;5]); (n_t2,[6;7;8;9]); (n_v'ovvv,[7;10;1;5])] [0;2;6;3;4;8;10;9]));
  (*2037*) AddTo n_t4new (Times (Einsum [(n_t1,[0;1]); (n_t2,[2;3;4;5]); (n_t2,[6;7;8;9]); (n_v'ovvv,[7;10;1;5])] [0;2;6;3;8;4;10;9]) (-1) 1);
  (*2038*) AddTo n_t4new (Plain (Einsum [(n_t1,[0;1]); (n_t2,[2;3;4;5]); (n_t2,[6;7;8;9]); (n_v'ovvv,[7;10;1;5])] [0;2;6;3;8;9;10;4]));
  (*2039*) AddTo n_t4new (Times (Einsum [(n_t1,[0;1]); (n_t2,[2;3;4;5]); (n_t2,[6;7;8;9]); (n_v'ovvv,[7;10;1;5])] [0;2;6;3;4;8;9;10]) (-1) 1);
  (*2040*) AddTo n_t4new (Plain (Einsum [(n_t1,[0;1]); (n_t2,[2;3;4;5]); (n_t2,[6;7;8;9]); (n_v'ovvv,[7;10;1;5])] [0;2;6;3;8;4;9;10]));
  (*2041*) AddTo n_t4new (Times (Einsum [(n_t1,[0;1]); (n_t2,[2;3;4;5]); (n_t2,[6;7;8;9]); (n_v'ovvv,[7;10;1;5])] [0;2;6;3;8;9;4;10]) (-1) 1);
  (*2042*) AddTo n_t4new (Plain (Einsum [(n_t1,[0;1]); (n_t2,[2;3;4;5]); (n_t2,[6;7;8;9]); (n_v'ovvv,[3;10;1;9])] [0;2;6;7;10;4;8;5]));
  (*2043*) AddTo n_t4new (Times (Einsum [(n_t1,[0;1]); (n_t2,[2;3;4;5]); (n_t2,[6;7;8;9]); (n_v'ovvv,[3;10;1;9])] [0;2;6;7;10;4;5;8]) (-1) 1);
  (*2044*) AddTo n_t4new (Times (Einsum [(n_t1,[0;1]); (n_t2,[2;3;4;5]); (n_t2,[6;7;8;9]); (n_v'ovvv,[3;10;1;9])] [0;2;6;7;10;8;4;5]) (-1) 1);
  (*2045*) AddTo n_t4new (Times (Einsum [(n_t1,[0;1]); (n_t2,[2;3;4;5]); (n_t2,[6;7;8;9]); (n_v'ovvv,[3;10;1;9])] [0;2;6;7;4;10;8;5]) (-1) 1);
  (*2046*) AddTo n_t4new (Plain (Einsum [(n_t1,[0;1]); (n_t2,[2;3;4;5]); (n_t2,[6;7;8;9]); (n_v'ovvv,[3;10;1;9])] [0;2;6;7;4;10;5;8]));
  (*2047*) AddTo n_t4new (Plain (Einsum [(n_t1,[0;1]); (n_t2,[2;3;4;5]); (n_t2,[6;7;8;9]); (n_v'ovvv,[3;10;1;9])] [0;2;6;7;8;10;4;5]));
  (*2048*) AddTo n_t4new (Plain (Einsum [(n_t1,[0;1]); (n_t2,[2;3;4;5]); (n_t2,[6;7;8;9]); (n_v'ovvv,[3;10;1;9])] [0;2;6;7;4;8;10;5]));
  (*2049*) AddTo n_t4new (Times (Einsum [(n_t1,[0;1]); (n_t2,[2;3;4;5]); (n_t2,[6;7;8;9]); (n_v'ovvv,[3;10;1;9])] [0;2;6;7;4;5;10;8]) (-1) 1);
  (*2050*) AddTo n_t4new (Times (Einsum [(n_t1,[0;1]); (n_t2,[2;3;4;5]); (n_t2,[6;7;8;9]); (n_v'ovvv,[3;10;1;9])] [0;2;6;7;8;4;10;5]) (-1) 1);
  (*2051*) AddTo n_t4new (Times (Einsum [(n_t1,[0;1]); (n_t2,[2;3;4;5]); (n_t2,[6;7;8;9]); (n_v'ovvv,[3;10;1;9])] [0;2;6;7;4;8;5;10]) (-1) 1);
  (*2052*) AddTo n_t4new (Plain (Einsum [(n_t1,[0;1]); (n_t2,[2;3;4;5]); (n_t2,[6;7;8;9]); (n_v'ovvv,[3;10;1;9])] [0;2;6;7;4;5;8;10]));
  (*2053*) AddTo n_t4new (Plain (Einsum [(n_t1,[0;1]); (n_t2,[2;3;4;5]); (n_t2,[6;7;8;9]); (n_v'ovvv,[3;10;1;9])] [0;2;6;7;8;4;5;10]));
  (*2054*) AddTo n_t4new (Times (Einsum [(n_t1,[0;1]); (n_t2,[2;3;4;5]); (n_t2,[6;7;8;9]); (n_v'ovvv,[7;10;1;5])] [0;2;3;6;10;4;8;9]) (-1) 1);
  (*2055*) AddTo n_t4new (Plain (Einsum [(n_t1,[0;1]); (n_t2,[2;3;4;5]); (n_t2,[6;7;8;9]); (n_v'ovvv,[7;10;1;5])] [0;2;3;6;10;8;4;9]));
  (*2056*) AddTo n_t4new (Times (Einsum [(n_t1,[0;1]); (n_t2,[2;3;4;5]); (n_t2,[6;7;8;9]); (n_v'ovvv,[7;10;1;5])] [0;2;3;6;10;8;9;4]) (-1) 1);
  (*2057*) AddTo n_t4new (Plain (Einsum [(n_t1,[0;1]); (n_t2,[2;3;4;5]); (n_t2,[6;7;8;9]); (n_v'ovvv,[7;10;1;5])] [0;2;3;6;4;10;8;9]));
  (*2058*) AddTo n_t4new (Times (Einsum [(n_t1,[0;1]); (n_t2,[2;3;4;5]); (n_t2,[6;7;8;9]); (n_v'ovvv,[7;10;1;5])] [0;2;3;6;8;10;4;9]) (-1) 1);
  (*2059*) AddTo n_t4new (Plain (Einsum [(n_t1,[0;1]); (n_t2,[2;3;4;5]); (n_t2,[6;7;8;9]); (n_v'ovvv,[7;10;1;5])] [0;2;3;6;8;10;9;4]));
  (*2060*) AddTo n_t4new (Times (Einsum [(n_t1,[0;1]); (n_t2,[2;3;4;5]); (n_t2,[6;7;8;9]); (n_v'ovvv,[7;10;1;5])] [0;2;3;6;4;8;10;9]) (-1) 1);
  (*2061*) AddTo n_t4new (Plain (Einsum [(n_t1,[0;1]); (n_t2,[2;3;4;5]); (n_t2,[6;7;8;9]); (n_v'ovvv,[7;10;1;5])] [0;2;3;6;8;4;10;9]));
  (*2062*) AddTo n_t4new (Times (Einsum [(n_t1,[0;1]); (n_t2,[2;3;4;5]); (n_t2,[6;7;8;9]); (n_v'ovvv,[7;10;1;5])] [0;2;3;6;8;9;10;4]) (-1) 1);
  (*2063*) AddTo n_t4new (Plain (Einsum [(n_t1,[0;1]); (n_t2,[2;3;4;5]); (n_t2,[6;7;8;9]); (n_v'ovvv,[7;10;1;5])] [0;2;3;6;4;8;9;10]));
  (*2064*) AddTo n_t4new (Times (Einsum [(n_t1,[0;1]); (n_t2,[2;3;4;5]); (n_t2,[6;7;8;9]); (n_v'ovvv,[7;10;1;5])] [0;2;3;6;8;4;9;10]) (-1) 1);
  (*2065*) AddTo n_t4new (Plain (Einsum [(n_t1,[0;1]); (n_t2,[2;3;4;5]); (n_t2,[6;7;8;9]); (n_v'ovvv,[7;10;1;5])] [0;2;3;6;8;9;4;10]));
  (*2066*) AddTo n_t4new (Times (Einsum [(n_t1,[0;1]); (n_t2,[2;3;4;5]); (n_t2,[6;7;8;9]); (n_v'ovvv,[7;10;1;5])] [2;0;6;3;10;4;8;9]) (-1) 1);
  (*2067*) AddTo n_t4new (Plain (Einsum [(n_t1,[0;1]); (n_t2,[2;3;4;5]); (n_t2,[6;7;8;9]); (n_v'ovvv,[7;10;1;5])] [2;0;6;3;10;8;4;9]));
  (*2068*) AddTo n_t4new (Times (Einsum [(n_t1,[0;1]); (n_t2,[2;3;4;5]); (n_t2,[6;7;8;9]); (n_v'ovvv,[7;10;1;5])] [2;0;6;3;10;8;9;4]) (-1) 1);
  (*2069*) AddTo n_t4new (Plain (Einsum [(n_t1,[0;1]); (n_t2,[2;3;4;5]); (n_t2,[6;7;8;9]); (n_v'ovvv,[7;10;1;5])] [2;0;6;3;4;10;8;9]));
  (*2070*) AddTo n_t4new (Times (Einsum [(n_t1,[0;1]); (n_t2,[2;3;4;5]); (n_t2,[6;7;8;9]); (n_v'ovvv,[7;10;1;5])] [2;0;6;3;8;10;4;9]) (-1) 1);
  (*2071*) AddTo n_t4new (Plain (Einsum [(n_t1,[0;1]); (n_t2,[2;3;4;5]); (n_t2,[6;7;8;9]); (n_v'ovvv,[7;10;1;5])] [2;0;6;3;8;10;9;4]));
  (*2072*) AddTo n_t4new (Times (Einsum [(n_t1,[0;1]); (n_t2,[2;3;4;5]); (n_t2,[6;7;8;9]); (n_v'ovvv,[7;10;1;5])] [2;0;6;3;4;8;10;9]) (-1) 1);
  (*2073*) AddTo n_t4new (Plain (Einsum [(n_t1,[0;1]); (n_t2,[2;3;4;5]); (n_t2,[6;7;8;9]); (n_v'ovvv,[7;10;1;5])] [2;0;6;3;8;4;10;9]));
  (*2074*) AddTo n_t4new (Times (Einsum [(n_t1,[0;1]); (n_t2,[2;3;4;5]); (n_t2,[6;7;8;9]); (n_v'ovvv,[7;10;1;5])] [2;0;6;3;8;9;10;4]) (-1) 1);
  (*2075*) AddTo n_t4new (Plain (Einsum [(n_t1,[0;1]); (n_t2,[2;3;4;5]); (n_t2,[6;7;8;9]); (n_v'ovvv,[7;10;1;5])] [2;0;6;3;4;8;9;10]));
  (*2076*) AddTo n_t4new (Times (Einsum [(n_t1,[0;1]); (n_t2,[2;3;4;5]); (n_t2,[6;7;8;9]); (n_v'ovvv,[7;10;1;5])] [2;0;6;3;8;4;9;10]) (-1) 1);
  (*2077*) AddTo n_t4new (Plain (Einsum [(n_t1,[0;1]); (n_t2,[2;3;4;5]); (n_t2,[6;7;8;9]); (n_v'ovvv,[7;10;1;5])] [2;0;6;3;8;9;4;10]));
  (*2078*) AddTo n_t4new (Times (Einsum [(n_t1,[0;1]); (n_t2,[2;3;4;5]); (n_t2,[6;7;8;9]); (n_v'ovvv,[3;10;1;9])] [2;0;6;7;10;4;8;5]) (-1) 1);
  (*2079*) AddTo n_t4new (Plain (Einsum [(n_t1,[0;1]); (n_t2,[2;3;4;5]); (n_t2,[6;7;8;9]); (n_v'ovvv,[3;10;1;9])] [2;0;6;7;10;4;5;8]));
  (*2080*) AddTo n_t4new (Plain (Einsum [(n_t1,[0;1]); (n_t2,[2;3;4;5]); (n_t2,[6;7;8;9]); (n_v'ovvv,[3;10;1;9])] [2;0;6;7;10;8;4;5]));
  (*2081*) AddTo n_t4new (Plain (Einsum [(n_t1,[0;1]); (n_t2,[2;3;4;5]); (n_t2,[6;7;8;9]); (n_v'ovvv,[3;10;1;9])] [2;0;6;7;4;10;8;5]));
  (*2082*) AddTo n_t4new (Times (Einsum [(n_t1,[0;1]); (n_t2,[2;3;4;5]); (n_t2,[6;7;8;9]); (n_v'ovvv,[3;10;1;9])] [2;0;6;7;4;10;5;8]) (-1) 1);
  (*2083*) AddTo n_t4new (Times (Einsum [(n_t1,[0;1]); (n_t2,[2;3;4;5]); (n_t2,[6;7;8;9]); (n_v'ovvv,[3;10;1;9])] [2;0;6;7;8;10;4;5]) (-1) 1);
  (*2084*) AddTo n_t4new (Times (Einsum [(n_t1,[0;1]); (n_t2,[2;3;4;5]); (n_t2,[6;7;8;9]); (n_v'ovvv,[3;10;1;9])] [2;0;6;7;4;8;10;5]) (-1) 1);
  (*2085*) AddTo n_t4new (Plain (Einsum [(n_t1,[0;1]); (n_t2,[2;3;4;5]); (n_t2,[6;7;8;9]); (n_v'ovvv,[3;10;1;9])] [2;0;6;7;4;5;10;8]));
  (*2086*) AddTo n_t4new (Plain (Einsum [(n_t1,[0;1]); (n_t2,[2;3;4;5]); (n_t2,[6;7;8;9]); (n_v'ovvv,[3;10;1;9])] [2;0;6;7;8;4;10;5]));
  (*2087*) AddTo n_t4new (Plain (Einsum [(n_t1,[0;1]); (n_t2,[2;3;4;5]); (n_t2,[6;7;8;9]); (n_v'ovvv,[3;10;1;9])] [2;0;6;7;4;8;5;10]));
  (*2088*) AddTo n_t4new (Times (Einsum [(n_t1,[0;1]); (n_t2,[2;3;4;5]); (n_t2,[6;7;8;9]); (n_v'ovvv,[3;10;1;9])] [2;0;6;7;4;5;8;10]) (-1) 1);
  (*2089*) AddTo n_t4new (Times (Einsum [(n_t1,[0;1]); (n_t2,[2;3;4;5]); (n_t2,[6;7;8;9]); (n_v'ovvv,[3;10;1;9])] [2;0;6;7;8;4;5;10]) (-1) 1);
  (*2090*) AddTo n_t4new (Plain (Einsum [(n_t1,[0;1]); (n_t2,[2;3;4;5]); (n_t2,[6;7;8;9]); (n_v'ovvv,[7;10;1;5])] [2;0;3;6;10;4;8;9]));
  (*2091*) AddTo n_t4new (Times (Einsum [(n_t1,[0;1]); (n_t2,[2;3;4;5]); (n_t2,[6;7;8;9]); (n_v'ovvv,[7;10;1;5])] [2;0;3;6;10;8;4;9]) (-1) 1);
  (*2092*) AddTo n_t4new (Plain (Einsum [(n_t1,[0;1]); (n_t2,[2;3;4;5]); (n_t2,[6;7;8;9]); (n_v'ovvv,[7;10;1;5])] [2;0;3;6;10;8;9;4]));
  (*2093*) AddTo n_t4new (Times (Einsum [(n_t1,[0;1]); (n_t2,[2;3;4;5]); (n_t2,[6;7;8;9]); (n_v'ovvv,[7;10;1;5])] [2;0;3;6;4;10;8;9]) (-1) 1);
  (*2094*) AddTo n_t4new (Plain (Einsum [(n_t1,[0;1]); (n_t2,[2;3;4;5]); (n_t2,[6;7;8;9]); (n_v'ovvv,[7;10;1;5])] [2;0;3;6;8;10;4;9]));
  (*2095*) AddTo n_t4new (Times (Einsum [(n_t1,[0;1]); (n_t2,[2;3;4;5]); (n_t2,[6;7;8;9]); (n_v'ovvv,[7;10;1;5])] [2;0;3;6;8;10;9;4]) (-1) 1);
  (*2096*) AddTo n_t4new (Plain (Einsum [(n_t1,[0;1]); (n_t2,[2;3;4;5]); (n_t2,[6;7;8;9]); (n_v'ovvv,[7;10;1;5])] [2;0;3;6;4;8;10;9]));
  (*2097*) AddTo n_t4new (Times (Einsum [(n_t1,[0;1]); (n_t2,[2;3;4;5]); (n_t2,[6;7;8;9]); (n_v'ovvv,[7;10;1;5])] [2;0;3;6;8;4;10;9]) (-1) 1);
  (*2098*) AddTo n_t4new (Plain (Einsum [(n_t1,[0;1]); (n_t2,[2;3;4;5]); (n_t2,[6;7;8;9]); (n_v'ovvv,[7;10;1;5])] [2;0;3;6;8;9;10;4]));
  (*2099*) AddTo n_t4new (Times (Einsum [(n_t1,[0;1]); (n_t2,[2;3;4;5]); (n_t2,[6;7;8;9]); (n_v'ovvv,[7;10;1;5])] [2;0;3;6;4;8;9;10]) (-1) 1);
  (*2100*) AddTo n_t4new (Plain (Einsum [(n_t1,[0;1]); (n_t2,[2;3;4;5]); (n_t2,[6;7;8;9]); (n_v'ovvv,[7;10;1;5])] [2;0;3;6;8;4;9;10]));
  (*2101*) AddTo n_t4new (Times (Einsum [(n_t1,[0;1]); (n_t2,[2;3;4;5]); (n_t2,[6;7;8;9]); (n_v'ovvv,[7;10;1;5])] [2;0;3;6;8;9;4;10]) (-1) 1);
  (*2102*) AddTo n_t4new (Plain (Einsum [(n_t1,[0;1]); (n_t2,[2;3;4;5]); (n_t2,[6;7;8;9]); (n_v'ovvv,[7;10;1;5])] [2;6;0;3;10;4;8;9]));
  (*2103*) AddTo n_t4new (Times (Einsum [(n_t1,[0;1]); (n_t2,[2;3;4;5]); (n_t2,[6;7;8;9]); (n_v'ovvv,[7;10;1;5])] [2;6;0;3;10;8;4;9]) (-1) 1);
  (*2104*) AddTo n_t4new (Plain (Einsum [(n_t1,[0;1]); (n_t2,[2;3;4;5]); (n_t2,[6;7;8;9]); (n_v'ovvv,[7;10;1;5])] [2;6;0;3;10;8;9;4]));
  (*2105*) AddTo n_t4new (Times (Einsum [(n_t1,[0;1]); (n_t2,[2;3;4;5]); (n_t2,[6;7;8;9]); (n_v'ovvv,[7;10;1;5])] [2;6;0;3;4;10;8;9]) (-1) 1);
  (*2106*) AddTo n_t4new (Plain (Einsum [(n_t1,[0;1]); (n_t2,[2;3;4;5]); (n_t2,[6;7;8;9]); (n_v'ovvv,[7;10;1;5])] [2;6;0;3;8;10;4;9]));
  (*2107*) AddTo n_t4new (Times (Einsum [(n_t1,[0;1]); (n_t2,[2;3;4;5]); (n_t2,[6;7;8;9]); (n_v'ovvv,[7;10;1;5])] [2;6;0;3;8;10;9;4]) (-1) 1);
  (*2108*) AddTo n_t4new (Plain (Einsum [(n_t1,[0;1]); (n_t2,[2;3;4;5]); (n_t2,[6;7;8;9]); (n_v'ovvv,[7;10;1;5])] [2;6;0;3;4;8;10;9]));
  (*2109*) AddTo n_t4new (Times (Einsum [(n_t1,[0;1]); (n_t2,[2;3;4;5]); (n_t2,[6;7;8;9]); (n_v'ovvv,[7;10;1;5])] [2;6;0;3;8;4;10;9]) (-1) 1);
  (*2110*) AddTo n_t4new (Plain (Einsum [(n_t1,[0;1]); (n_t2,[2;3;4;5]); (n_t2,[6;7;8;9]); (n_v'ovvv,[7;10;1;5])] [2;6;0;3;8;9;10;4]));
  (*2111*) AddTo n_t4new (Times (Einsum [(n_t1,[0;1]); (n_t2,[2;3;4;5]); (n_t2,[6;7;8;9]); (n_v'ovvv,[7;10;1;5])] [2;6;0;3;4;8;9;10]) (-1) 1);
  (*2112*) AddTo n_t4new (Plain (Einsum [(n_t1,[0;1]); (n_t2,[2;3;4;5]); (n_t2,[6;7;8;9]); (n_v'ovvv,[7;10;1;5])] [2;6;0;3;8;4;9;10]));
  (*2113*) AddTo n_t4new (Times (Einsum [(n_t1,[0;1]); (n_t2,[2;3;4;5]); (n_t2,[6;7;8;9]); (n_v'ovvv,[7;10;1;5])] [2;6;0;3;8;9;4;10]) (-1) 1);
  (*2114*) AddTo n_t4new (Plain (Einsum [(n_t1,[0;1]); (n_t2,[2;3;4;5]); (n_t2,[6;7;8;9]); (n_v'ovvv,[3;10;1;9])] [2;6;0;7;10;4;8;5]));
  (*2115*) AddTo n_t4new (Times (Einsum [(n_t1,[0;1]); (n_t2,[2;3;4;5]); (n_t2,[6;7;8;9]); (n_v'ovvv,[3;10;1;9])] [2;6;0;7;10;4;5;8]) (-1) 1);
  (*2116*) AddTo n_t4new (Times (Einsum [(n_t1,[0;1]); (n_t2,[2;3;4;5]); (n_t2,[6;7;8;9]); (n_v'ovvv,[3;10;1;9])] [2;6;0;7;10;8;4;5]) (-1) 1);
  (*2117*) AddTo n_t4new (Times (Einsum [(n_t1,[0;1]); (n_t2,[2;3;4;5]); (n_t2,[6;7;8;9]); (n_v'ovvv,[3;10;1;9])] [2;6;0;7;4;10;8;5]) (-1) 1);
  (*2118*) AddTo n_t4new (Plain (Einsum [(n_t1,[0;1]); (n_t2,[2;3;4;5]); (n_t2,[6;7;8;9]); (n_v'ovvv,[3;10;1;9])] [2;6;0;7;4;10;5;8]));
  (*2119*) AddTo n_t4new (Plain (Einsum [(n_t1,[0;1]); (n_t2,[2;3;4;5]); (n_t2,[6;7;8;9]); (n_v'ovvv,[3;10;1;9])] [2;6;0;7;8;10;4;5]));
  (*2120*) AddTo n_t4new (Plain (Einsum [(n_t1,[0;1]); (n_t2,[2;3;4;5]); (n_t2,[6;7;8;9]); (n_v'ovvv,[3;10;1;9])] [2;6;0;7;4;8;10;5]));
  (*2121*) AddTo n_t4new (Times (Einsum [(n_t1,[0;1]); (n_t2,[2;3;4;5]); (n_t2,[6;7;8;9]); (n_v'ovvv,[3;10;1;9])] [2;6;0;7;4;5;10;8]) (-1) 1);
  (*2122*) AddTo n_t4new (Times (Einsum [(n_t1,[0;1]); (n_t2,[2;3;4;5]); (n_t2,[6;7;8;9]); (n_v'ovvv,[3;10;1;9])] [2;6;0;7;8;4;10;5]) (-1) 1);
  (*2123*) AddTo n_t4new (Times (Einsum [(n_t1,[0;1]); (n_t2,[2;3;4;5]); (n_t2,[6;7;8;9]); (n_v'ovvv,[3;10;1;9])] [2;6;0;7;4;8;5;10]) (-1) 1);
  (*2124*) AddTo n_t4new (Plain (Einsum [(n_t1,[0;1]); (n_t2,[2;3;4;5]); (n_t2,[6;7;8;9]); (n_v'ovvv,[3;10;1;9])] [2;6;0;7;4;5;8;10]));
  (*2125*) AddTo n_t4new (Plain (Einsum [(n_t1,[0;1]); (n_t2,[2;3;4;5]); (n_t2,[6;7;8;9]); (n_v'ovvv,[3;10;1;9])] [2;6;0;7;8;4;5;10]));
  (*2126*) AddTo n_t4new (Times (Einsum [(n_t1,[0;1]); (n_t2,[2;3;4;5]); (n_t2,[6;7;8;9]); (n_v'ovvv,[7;10;1;5])] [2;3;0;6;10;4;8;9]) (-1) 1);
  (*2127*) AddTo n_t4new (Plain (Einsum [(n_t1,[0;1]); (n_t2,[2;3;4;5]); (n_t2,[6;7;8;9]); (n_v'ovvv,[7;10;1;5])] [2;3;0;6;10;8;4;9]));
  (*2128*) AddTo n_t4new (Times (Einsum [(n_t1,[0;1]); (n_t2,[2;3;4;5]); (n_t2,[6;7;8;9]); (n_v'ovvv,[7;10;1;5])] [2;3;0;6;10;8;9;4]) (-1) 1);
  (*2129*) AddTo n_t4new (Plain (Einsum [(n_t1,[0;1]); (n_t2,[2;3;4;5]); (n_t2,[6;7;8;9]); (n_v'ovvv,[7;10;1;5])] [2;3;0;6;4;10;8;9]));
  (*2130*) AddTo n_t4new (Times (Einsum [(n_t1,[0;1]); (n_t2,[2;3;4;5]); (n_t2,[6;7;8;9]); (n_v'ovvv,[7;10;1;5])] [2;3;0;6;8;10;4;9]) (-1) 1);
  (*2131*) AddTo n_t4new (Plain (Einsum [(n_t1,[0;1]); (n_t2,[2;3;4;5]); (n_t2,[6;7;8;9]); (n_v'ovvv,[7;10;1;5])] [2;3;0;6;8;10;9;4]));
  (*2132*) AddTo n_t4new (Times (Einsum [(n_t1,[0;1]); (n_t2,[2;3;4;5]); (n_t2,[6;7;8;9]); (n_v'ovvv,[7;10;1;5])] [2;3;0;6;4;8;10;9]) (-1) 1);
  (*2133*) AddTo n_t4new (Plain (Einsum [(n_t1,[0;1]); (n_t2,[2;3;4;5]); (n_t2,[6;7;8;9]); (n_v'ovvv,[7;10;1;5])] [2;3;0;6;8;4;10;9]));
  (*2134*) AddTo n_t4new (Times (Einsum [(n_t1,[0;1]); (n_t2,[2;3;4;5]); (n_t2,[6;7;8;9]); (n_v'ovvv,[7;10;1;5])] [2;3;0;6;8;9;10;4]) (-1) 1);
  (*2135*) AddTo n_t4new (Plain (Einsum [(n_t1,[0;1]); (n_t2,[2;3;4;5]); (n_t2,[6;7;8;9]); (n_v'ovvv,[7;10;1;5])] [2;3;0;6;4;8;9;10]));
  (*2136*) AddTo n_t4new (Times (Einsum [(n_t1,[0;1]); (n_t2,[2;3;4;5]); (n_t2,[6;7;8;9]); (n_v'ovvv,[7;10;1;5])] [2;3;0;6;8;4;9;10]) (-1) 1);
  (*2137*) AddTo n_t4new (Plain (Einsum [(n_t1,[0;1]); (n_t2,[2;3;4;5]); (n_t2,[6;7;8;9]); (n_v'ovvv,[7;10;1;5])] [2;3;0;6;8;9;4;10]));
  (*2138*) AddTo n_t4new (Times (Einsum [(n_t1,[0;1]); (n_t2,[2;3;4;5]); (n_t2,[6;7;8;9]); (n_v'ovvv,[7;10;1;5])] [2;6;3;0;10;4;8;9]) (-1) 1);
  (*2139*) AddTo n_t4new (Plain (Einsum [(n_t1,[0;1]); (n_t2,[2;3;4;5]); (n_t2,[6;7;8;9]); (n_v'ovvv,[7;10;1;5])] [2;6;3;0;10;8;4;9]));
  (*2140*) AddTo n_t4new (Times (Einsum [(n_t1,[0;1]); (n_t2,[2;3;4;5]); (n_t2,[6;7;8;9]); (n_v'ovvv,[7;10;1;5])] [2;6;3;0;10;8;9;4]) (-1) 1);
  (*2141*) AddTo n_t4new (Plain (Einsum [(n_t1,[0;1]); (n_t2,[2;3;4;5]); (n_t2,[6;7;8;9]); (n_v'ovvv,[7;10;1;5])] [2;6;3;0;4;10;8;9]));
  (*2142*) AddTo n_t4new (Times (Einsum [(n_t1,[0;1]); (n_t2,[2;3;4;5]); (n_t2,[6;7;8;9]); (n_v'ovvv,[7;10;1;5])] [2;6;3;0;8;10;4;9]) (-1) 1);
  (*2143*) AddTo n_t4new (Plain (Einsum [(n_t1,[0;1]); (n_t2,[2;3;4;5]); (n_t2,[6;7;8;9]); (n_v'ovvv,[7;10;1;5])] [2;6;3;0;8;10;9;4]));
  (*2144*) AddTo n_t4new (Times (Einsum [(n_t1,[0;1]); (n_t2,[2;3;4;5]); (n_t2,[6;7;8;9]); (n_v'ovvv,[7;10;1;5])] [2;6;3;0;4;8;10;9]) (-1) 1);
  (*2145*) AddTo n_t4new (Plain (Einsum [(n_t1,[0;1]); (n_t2,[2;3;4;5]); (n_t2,[6;7;8;9]); (n_v'ovvv,[7;10;1;5])] [2;6;3;0;8;4;10;9]));
  (*2146*) AddTo n_t4new (Times (Einsum [(n_t1,[0;1]); (n_t2,[2;3;4;5]); (n_t2,[6;7;8;9]); (n_v'ovvv,[7;10;1;5])] [2;6;3;0;8;9;10;4]) (-1) 1);
  (*2147*) AddTo n_t4new (Plain (Einsum [(n_t1,[0;1]); (n_t2,[2;3;4;5]); (n_t2,[6;7;8;9]); (n_v'ovvv,[7;10;1;5])] [2;6;3;0;4;8;9;10]));
  (*2148*) AddTo n_t4new (Times (Einsum [(n_t1,[0;1]); (n_t2,[2;3;4;5]); (n_t2,[6;7;8;9]); (n_v'ovvv,[7;10;1;5])] [2;6;3;0;8;4;9;10]) (-1) 1);
  (*2149*) AddTo n_t4new (Plain (Einsum [(n_t1,[0;1]); (n_t2,[2;3;4;5]); (n_t2,[6;7;8;9]); (n_v'ovvv,[7;10;1;5])] [2;6;3;0;8;9;4;10]));
  (*2150*) AddTo n_t4new (Times (Einsum [(n_t1,[0;1]); (n_t2,[2;3;4;5]); (n_t2,[6;7;8;9]); (n_v'ovvv,[3;10;1;9])] [2;6;7;0;10;4;8;5]) (-1) 1);
  (*2151*) AddTo n_t4new (Plain (Einsum [(n_t1,[0;1]); (n_t2,[2;3;4;5]); (n_t2,[6;7;8;9]); (n_v'ovvv,[3;10;1;9])] [2;6;7;0;10;4;5;8]));
  (*2152*) AddTo n_t4new (Plain (Einsum [(n_t1,[0;1]); (n_t2,[2;3;4;5]); (n_t2,[6;7;8;9]); (n_v'ovvv,[3;10;1;9])] [2;6;7;0;10;8;4;5]));
  (*2153*) AddTo n_t4new (Plain (Einsum [(n_t1,[0;1]); (n_t2,[2;3;4;5]); (n_t2,[6;7;8;9]); (n_v'ovvv,[3;10;1;9])] [2;6;7;0;4;10;8;5]));
  (*2154*) AddTo n_t4new (Times (Einsum [(n_t1,[0;1]); (n_t2,[2;3;4;5]); (n_t2,[6;7;8;9]); (n_v'ovvv,[3;10;1;9])] [2;6;7;0;4;10;5;8]) (-1) 1);
  (*2155*) AddTo n_t4new (Times (Einsum [(n_t1,[0;1]); (n_t2,[2;3;4;5]); (n_t2,[6;7;8;9]); (n_v'ovvv,[3;10;1;9])] [2;6;7;0;8;10;4;5]) (-1) 1);
  (*2156*) AddTo n_t4new (Times (Einsum [(n_t1,[0;1]); (n_t2,[2;3;4;5]); (n_t2,[6;7;8;9]); (n_v'ovvv,[3;10;1;9])] [2;6;7;0;4;8;10;5]) (-1) 1);
  (*2157*) AddTo n_t4new (Plain (Einsum [(n_t1,[0;1]); (n_t2,[2;3;4;5]); (n_t2,[6;7;8;9]); (n_v'ovvv,[3;10;1;9])] [2;6;7;0;4;5;10;8]));
  (*2158*) AddTo n_t4new (Plain (Einsum [(n_t1,[0;1]); (n_t2,[2;3;4;5]); (n_t2,[6;7;8;9]); (n_v'ovvv,[3;10;1;9])] [2;6;7;0;8;4;10;5]));
  (*2159*) AddTo n_t4new (Plain (Einsum [(n_t1,[0;1]); (n_t2,[2;3;4;5]); (n_t2,[6;7;8;9]); (n_v'ovvv,[3;10;1;9])] [2;6;7;0;4;8;5;10]));
  (*2160*) AddTo n_t4new (Times (Einsum [(n_t1,[0;1]); (n_t2,[2;3;4;5]); (n_t2,[6;7;8;9]); (n_v'ovvv,[3;10;1;9])] [2;6;7;0;4;5;8;10]) (-1) 1);
  (*2161*) AddTo n_t4new (Times (Einsum [(n_t1,[0;1]); (n_t2,[2;3;4;5]); (n_t2,[6;7;8;9]); (n_v'ovvv,[3;10;1;9])] [2;6;7;0;8;4;5;10]) (-1) 1);
  (*2162*) AddTo n_t4new (Plain (Einsum [(n_t1,[0;1]); (n_t2,[2;3;4;5]); (n_t2,[6;7;8;9]); (n_v'ovvv,[7;10;1;5])] [2;3;6;0;10;4;8;9]));
  (*2163*) AddTo n_t4new (Times (Einsum [(n_t1,[0;1]); (n_t2,[2;3;4;5]); (n_t2,[6;7;8;9]); (n_v'ovvv,[7;10;1;5])] [2;3;6;0;10;8;4;9]) (-1) 1);
  (*2164*) AddTo n_t4new (Plain (Einsum [(n_t1,[0;1]); (n_t2,[2;3;4;5]); (n_t2,[6;7;8;9]); (n_v'ovvv,[7;10;1;5])] [2;3;6;0;10;8;9;4]));
  (*2165*) AddTo n_t4new (Times (Einsum [(n_t1,[0;1]); (n_t2,[2;3;4;5]); (n_t2,[6;7;8;9]); (n_v'ovvv,[7;10;1;5])] [2;3;6;0;4;10;8;9]) (-1) 1);
  (*2166*) AddTo n_t4new (Plain (Einsum [(n_t1,[0;1]); (n_t2,[2;3;4;5]); (n_t2,[6;7;8;9]); (n_v'ovvv,[7;10;1;5])] [2;3;6;0;8;10;4;9]));
  (*2167*) AddTo n_t4new (Times (Einsum [(n_t1,[0;1]); (n_t2,[2;3;4;5]); (n_t2,[6;7;8;9]); (n_v'ovvv,[7;10;1;5])] [2;3;6;0;8;10;9;4]) (-1) 1);
  (*2168*) AddTo n_t4new (Plain (Einsum [(n_t1,[0;1]); (n_t2,[2;3;4;5]); (n_t2,[6;7;8;9]); (n_v'ovvv,[7;10;1;5])] [2;3;6;0;4;8;10;9]));
  (*2169*) AddTo n_t4new (Times (Einsum [(n_t1,[0;1]); (n_t2,[2;3;4;5]); (n_t2,[6;7;8;9]); (n_v'ovvv,[7;10;1;5])] [2;3;6;0;8;4;10;9]) (-1) 1);
  (*2170*) AddTo n_t4new (Plain (Einsum [(n_t1,[0;1]); (n_t2,[2;3;4;5]); (n_t2,[6;7;8;9]); (n_v'ovvv,[7;10;1;5])] [2;3;6;0;8;9;10;4]));
  (*2171*) AddTo n_t4new (Times (Einsum [(n_t1,[0;1]); (n_t2,[2;3;4;5]); (n_t2,[6;7;8;9]); (n_v'ovvv,[7;10;1;5])] [2;3;6;0;4;8;9;10]) (-1) 1);
  (*2172*) AddTo n_t4new (Plain (Einsum [(n_t1,[0;1]); (n_t2,[2;3;4;5]); (n_t2,[6;7;8;9]); (n_v'ovvv,[7;10;1;5])] [2;3;6;0;8;4;9;10]));
  (*2173*) AddTo n_t4new (Times (Einsum [(n_t1,[0;1]); (n_t2,[2;3;4;5]); (n_t2,[6;7;8;9]); (n_v'ovvv,[7;10;1;5])] [2;3;6;0;8;9;4;10]) (-1) 1);
  (*2174*) AddTo n_t4new (Times (Einsum [(n_t1,[0;1]); (n_t2,[2;3;4;5]); (n_t2,[6;7;8;9]); (n_v'ovvv,[0;10;5;9])] [2;6;3;7;1;10;4;8]) (-1) 1);
  (*2175*) AddTo n_t4new (Plain (Einsum [(n_t1,[0;1]); (n_t2,[2;3;4;5]); (n_t2,[6;7;8;9]); (n_v'ovvv,[0;10;5;9])] [2;6;3;7;1;10;8;4]));
  (*2176*) AddTo n_t4new (Plain (Einsum [(n_t1,[0;1]); (n_t2,[2;3;4;5]); (n_t2,[6;7;8;9]); (n_v'ovvv,[0;10;5;9])] [2;6;3;7;1;4;10;8]));
  (*2177*) AddTo n_t4new (Times (Einsum [(n_t1,[0;1]); (n_t2,[2;3;4;5]); (n_t2,[6;7;8;9]); (n_v'ovvv,[0;10;5;9])] [2;6;3;7;1;8;10;4]) (-1) 1);
  (*2178*) AddTo n_t4new (Times (Einsum [(n_t1,[0;1]); (n_t2,[2;3;4;5]); (n_t2,[6;7;8;9]); (n_v'ovvv,[0;10;5;9])] [2;6;3;7;1;4;8;10]) (-1) 1);
  (*2179*) AddTo n_t4new (Plain (Einsum [(n_t1,[0;1]); (n_t2,[2;3;4;5]); (n_t2,[6;7;8;9]); (n_v'ovvv,[0;10;5;9])] [2;6;3;7;1;8;4;10]));
  (*2180*) AddTo n_t4new (Plain (Einsum [(n_t1,[0;1]); (n_t2,[2;3;4;5]); (n_t2,[6;7;8;9]); (n_v'ovvv,[0;10;5;9])] [2;6;7;3;1;10;4;8]));
  (*2181*) AddTo n_t4new (Times (Einsum [(n_t1,[0;1]); (n_t2,[2;3;4;5]); (n_t2,[6;7;8;9]); (n_v'ovvv,[0;10;5;9])] [2;6;7;3;1;10;8;4]) (-1) 1);
  (*2182*) AddTo n_t4new (Times (Einsum [(n_t1,[0;1]); (n_t2,[2;3;4;5]); (n_t2,[6;7;8;9]); (n_v'ovvv,[0;10;5;9])] [2;6;7;3;1;4;10;8]) (-1) 1);
  (*2183*) AddTo n_t4new (Plain (Einsum [(n_t1,[0;1]); (n_t2,[2;3;4;5]); (n_t2,[6;7;8;9]); (n_v'ovvv,[0;10;5;9])] [2;6;7;3;1;8;10;4]));
  (*2184*) AddTo n_t4new (Plain (Einsum [(n_t1,[0;1]); (n_t2,[2;3;4;5]); (n_t2,[6;7;8;9]); (n_v'ovvv,[0;10;5;9])] [2;6;7;3;1;4;8;10]));
  (*2185*) AddTo n_t4new (Times (Einsum [(n_t1,[0;1]); (n_t2,[2;3;4;5]); (n_t2,[6;7;8;9]); (n_v'ovvv,[0;10;5;9])] [2;6;7;3;1;8;4;10]) (-1) 1);
  (*2186*) AddTo n_t4new (Plain (Einsum [(n_t1,[0;1]); (n_t2,[2;3;4;5]); (n_t2,[6;7;8;9]); (n_v'ovvv,[0;10;5;9])] [2;3;6;7;1;10;4;8]));
  (*2187*) AddTo n_t4new (Times (Einsum [(n_t1,[0;1]); (n_t2,[2;3;4;5]); (n_t2,[6;7;8;9]); (n_v'ovvv,[0;10;5;9])] [2;3;6;7;1;10;8;4]) (-1) 1);
  (*2188*) AddTo n_t4new (Times (Einsum [(n_t1,[0;1]); (n_t2,[2;3;4;5]); (n_t2,[6;7;8;9]); (n_v'ovvv,[0;10;5;9])] [2;3;6;7;1;4;10;8]) (-1) 1);
  (*2189*) AddTo n_t4new (Plain (Einsum [(n_t1,[0;1]); (n_t2,[2;3;4;5]); (n_t2,[6;7;8;9]); (n_v'ovvv,[0;10;5;9])] [2;3;6;7;1;8;10;4]));
  (*2190*) AddTo n_t4new (Plain (Einsum [(n_t1,[0;1]); (n_t2,[2;3;4;5]); (n_t2,[6;7;8;9]); (n_v'ovvv,[0;10;5;9])] [2;3;6;7;1;4;8;10]));
  (*2191*) AddTo n_t4new (Times (Einsum [(n_t1,[0;1]); (n_t2,[2;3;4;5]); (n_t2,[6;7;8;9]); (n_v'ovvv,[0;10;5;9])] [2;3;6;7;1;8;4;10]) (-1) 1);
  (*2192*) AddTo n_t4new (Plain (Einsum [(n_t1,[0;1]); (n_t2,[2;3;4;5]); (n_t2,[6;7;8;9]); (n_v'ovvv,[0;10;5;9])] [2;6;3;7;10;1;4;8]));
  (*2193*) AddTo n_t4new (Times (Einsum [(n_t1,[0;1]); (n_t2,[2;3;4;5]); (n_t2,[6;7;8;9]); (n_v'ovvv,[0;10;5;9])] [2;6;3;7;10;1;8;4]) (-1) 1);
  (*2194*) AddTo n_t4new (Times (Einsum [(n_t1,[0;1]); (n_t2,[2;3;4;5]); (n_t2,[6;7;8;9]); (n_v'ovvv,[0;10;5;9])] [2;6;3;7;4;1;10;8]) (-1) 1);
  (*2195*) AddTo n_t4new (Plain (Einsum [(n_t1,[0;1]); (n_t2,[2;3;4;5]); (n_t2,[6;7;8;9]); (n_v'ovvv,[0;10;5;9])] [2;6;3;7;8;1;10;4]));
  (*2196*) AddTo n_t4new (Plain (Einsum [(n_t1,[0;1]); (n_t2,[2;3;4;5]); (n_t2,[6;7;8;9]); (n_v'ovvv,[0;10;5;9])] [2;6;3;7;4;1;8;10]));
  (*2197*) AddTo n_t4new (Times (Einsum [(n_t1,[0;1]); (n_t2,[2;3;4;5]); (n_t2,[6;7;8;9]); (n_v'ovvv,[0;10;5;9])] [2;6;3;7;8;1;4;10]) (-1) 1);
  (*2198*) AddTo n_t4new (Times (Einsum [(n_t1,[0;1]); (n_t2,[2;3;4;5]); (n_t2,[6;7;8;9]); (n_v'ovvv,[0;10;5;9])] [2;6;7;3;10;1;4;8]) (-1) 1);
  (*2199*) AddTo n_t4new (Plain (Einsum [(n_t1,[0;1]); (n_t2,[2;3;4;5]); (n_t2,[6;7;8;9]); (n_v'ovvv,[0;10;5;9])] [2;6;7;3;10;1;8;4]));
  (*2200*) AddTo n_t4new (Plain (Einsum [(n_t1,[0;1]); (n_t2,[2;3;4;5]); (n_t2,[6;7;8;9]); (n_v'ovvv,[0;10;5;9])] [2;6;7;3;4;1;10;8]));
  (*2201*) AddTo n_t4new (Times (Einsum [(n_t1,[0;1]); (n_t2,[2;3;4;5]); (n_t2,[6;7;8;9]); (n_v'ovvv,[0;10;5;9])] [2;6;7;3;8;1;10;4]) (-1) 1);
  (*2202*) AddTo n_t4new (Times (Einsum [(n_t1,[0;1]); (n_t2,[2;3;4;5]); (n_t2,[6;7;8;9]); (n_v'ovvv,[0;10;5;9])] [2;6;7;3;4;1;8;10]) (-1) 1);
  (*2203*) AddTo n_t4new (Plain (Einsum [(n_t1,[0;1]); (n_t2,[2;3;4;5]); (n_t2,[6;7;8;9]); (n_v'ovvv,[0;10;5;9])] [2;6;7;3;8;1;4;10]));
  (*2204*) AddTo n_t4new (Times (Einsum [(n_t1,[0;1]); (n_t2,[2;3;4;5]); (n_t2,[6;7;8;9]); (n_v'ovvv,[0;10;5;9])] [2;3;6;7;10;1;4;8]) (-1) 1);
  (*2205*) AddTo n_t4new (Plain (Einsum [(n_t1,[0;1]); (n_t2,[2;3;4;5]); (n_t2,[6;7;8;9]); (n_v'ovvv,[0;10;5;9])] [2;3;6;7;10;1;8;4]));
  (*2206*) AddTo n_t4new (Plain (Einsum [(n_t1,[0;1]); (n_t2,[2;3;4;5]); (n_t2,[6;7;8;9]); (n_v'ovvv,[0;10;5;9])] [2;3;6;7;4;1;10;8]));
  (*2207*) AddTo n_t4new (Times (Einsum [(n_t1,[0;1]); (n_t2,[2;3;4;5]); (n_t2,[6;7;8;9]); (n_v'ovvv,[0;10;5;9])] [2;3;6;7;8;1;10;4]) (-1) 1);
  (*2208*) AddTo n_t4new (Times (Einsum [(n_t1,[0;1]); (n_t2,[2;3;4;5]); (n_t2,[6;7;8;9]); (n_v'ovvv,[0;10;5;9])] [2;3;6;7;4;1;8;10]) (-1) 1);
  (*2209*) AddTo n_t4new (Plain (Einsum [(n_t1,[0;1]); (n_t2,[2;3;4;5]); (n_t2,[6;7;8;9]); (n_v'ovvv,[0;10;5;9])] [2;3;6;7;8;1;4;10]));
  (*2210*) AddTo n_t4new (Times (Einsum [(n_t1,[0;1]); (n_t2,[2;3;4;5]); (n_t2,[6;7;8;9]); (n_v'ovvv,[0;10;5;9])] [2;6;3;7;10;4;1;8]) (-1) 1);
  (*2211*) AddTo n_t4new (Plain (Einsum [(n_t1,[0;1]); (n_t2,[2;3;4;5]); (n_t2,[6;7;8;9]); (n_v'ovvv,[0;10;5;9])] [2;6;3;7;10;8;1;4]));
  (*2212*) AddTo n_t4new (Plain (Einsum [(n_t1,[0;1]); (n_t2,[2;3;4;5]); (n_t2,[6;7;8;9]); (n_v'ovvv,[0;10;5;9])] [2;6;3;7;4;10;1;8]));
  (*2213*) AddTo n_t4new (Times (Einsum [(n_t1,[0;1]); (n_t2,[2;3;4;5]); (n_t2,[6;7;8;9]); (n_v'ovvv,[0;10;5;9])] [2;6;3;7;8;10;1;4]) (-1) 1);
  (*2214*) AddTo n_t4new (Times (Einsum [(n_t1,[0;1]); (n_t2,[2;3;4;5]); (n_t2,[6;7;8;9]); (n_v'ovvv,[0;10;5;9])] [2;6;3;7;4;8;1;10]) (-1) 1);
  (*2215*) AddTo n_t4new (Plain (Einsum [(n_t1,[0;1]); (n_t2,[2;3;4;5]); (n_t2,[6;7;8;9]); (n_v'ovvv,[0;10;5;9])] [2;6;3;7;8;4;1;10]));
  (*2216*) AddTo n_t4new (Plain (Einsum [(n_t1,[0;1]); (n_t2,[2;3;4;5]); (n_t2,[6;7;8;9]); (n_v'ovvv,[0;10;5;9])] [2;6;7;3;10;4;1;8]));
  (*2217*) AddTo n_t4new (Times (Einsum [(n_t1,[0;1]); (n_t2,[2;3;4;5]); (n_t2,[6;7;8;9]); (n_v'ovvv,[0;10;5;9])] [2;6;7;3;10;8;1;4]) (-1) 1);
  (*2218*) AddTo n_t4new (Times (Einsum [(n_t1,[0;1]); (n_t2,[2;3;4;5]); (n_t2,[6;7;8;9]); (n_v'ovvv,[0;10;5;9])] [2;6;7;3;4;10;1;8]) (-1) 1);
  (*2219*) AddTo n_t4new (Plain (Einsum [(n_t1,[0;1]); (n_t2,[2;3;4;5]); (n_t2,[6;7;8;9]); (n_v'ovvv,[0;10;5;9])] [2;6;7;3;8;10;1;4]));
  (*2220*) AddTo n_t4new (Plain (Einsum [(n_t1,[0;1]); (n_t2,[2;3;4;5]); (n_t2,[6;7;8;9]); (n_v'ovvv,[0;10;5;9])] [2;6;7;3;4;8;1;10]));
  (*2221*) AddTo n_t4new (Times (Einsum [(n_t1,[0;1]); (n_t2,[2;3;4;5]); (n_t2,[6;7;8;9]); (n_v'ovvv,[0;10;5;9])] [2;6;7;3;8;4;1;10]) (-1) 1);
  (*2222*) AddTo n_t4new (Plain (Einsum [(n_t1,[0;1]); (n_t2,[2;3;4;5]); (n_t2,[6;7;8;9]); (n_v'ovvv,[0;10;5;9])] [2;3;6;7;10;4;1;8]));
  (*2223*) AddTo n_t4new (Times (Einsum [(n_t1,[0;1]); (n_t2,[2;3;4;5]); (n_t2,[6;7;8;9]); (n_v'ovvv,[0;10;5;9])] [2;3;6;7;10;8;1;4]) (-1) 1);
  (*2224*) AddTo n_t4new (Times (Einsum [(n_t1,[0;1]); (n_t2,[2;3;4;5]); (n_t2,[6;7;8;9]); (n_v'ovvv,[0;10;5;9])] [2;3;6;7;4;10;1;8]) (-1) 1);
  (*2225*) AddTo n_t4new (Plain (Einsum [(n_t1,[0;1]); (n_t2,[2;3;4;5]); (n_t2,[6;7;8;9]); (n_v'ovvv,[0;10;5;9])] [2;3;6;7;8;10;1;4]));
  (*2226*) AddTo n_t4new (Plain (Einsum [(n_t1,[0;1]); (n_t2,[2;3;4;5]); (n_t2,[6;7;8;9]); (n_v'ovvv,[0;10;5;9])] [2;3;6;7;4;8;1;10]));
  (*2227*) AddTo n_t4new (Times (Einsum [(n_t1,[0;1]); (n_t2,[2;3;4;5]); (n_t2,[6;7;8;9]); (n_v'ovvv,[0;10;5;9])] [2;3;6;7;8;4;1;10]) (-1) 1);
  (*2228*) AddTo n_t4new (Plain (Einsum [(n_t1,[0;1]); (n_t2,[2;3;4;5]); (n_t2,[6;7;8;9]); (n_v'ovvv,[0;10;5;9])] [2;6;3;7;10;4;8;1]));
  (*2229*) AddTo n_t4new (Times (Einsum [(n_t1,[0;1]); (n_t2,[2;3;4;5]); (n_t2,[6;7;8;9]); (n_v'ovvv,[0;10;5;9])] [2;6;3;7;10;8;4;1]) (-1) 1);
  (*2230*) AddTo n_t4new (Times (Einsum [(n_t1,[0;1]); (n_t2,[2;3;4;5]); (n_t2,[6;7;8;9]); (n_v'ovvv,[0;10;5;9])] [2;6;3;7;4;10;8;1]) (-1) 1);
  (*2231*) AddTo n_t4new (Plain (Einsum [(n_t1,[0;1]); (n_t2,[2;3;4;5]); (n_t2,[6;7;8;9]); (n_v'ovvv,[0;10;5;9])] [2;6;3;7;8;10;4;1]));
  (*2232*) AddTo n_t4new (Plain (Einsum [(n_t1,[0;1]); (n_t2,[2;3;4;5]); (n_t2,[6;7;8;9]); (n_v'ovvv,[0;10;5;9])] [2;6;3;7;4;8;10;1]));
  (*2233*) AddTo n_t4new (Times (Einsum [(n_t1,[0;1]); (n_t2,[2;3;4;5]); (n_t2,[6;7;8;9]); (n_v'ovvv,[0;10;5;9])] [2;6;3;7;8;4;10;1]) (-1) 1);
  (*2234*) AddTo n_t4new (Times (Einsum [(n_t1,[0;1]); (n_t2,[2;3;4;5]); (n_t2,[6;7;8;9]); (n_v'ovvv,[0;10;5;9])] [2;6;7;3;10;4;8;1]) (-1) 1);
  (*2235*) AddTo n_t4new (Plain (Einsum [(n_t1,[0;1]); (n_t2,[2;3;4;5]); (n_t2,[6;7;8;9]); (n_v'ovvv,[0;10;5;9])] [2;6;7;3;10;8;4;1]));
  (*2236*) AddTo n_t4new (Plain (Einsum [(n_t1,[0;1]); (n_t2,[2;3;4;5]); (n_t2,[6;7;8;9]); (n_v'ovvv,[0;10;5;9])] [2;6;7;3;4;10;8;1]));
  (*2237*) AddTo n_t4new (Times (Einsum [(n_t1,[0;1]); (n_t2,[2;3;4;5]); (n_t2,[6;7;8;9]); (n_v'ovvv,[0;10;5;9])] [2;6;7;3;8;10;4;1]) (-1) 1);
  (*2238*) AddTo n_t4new (Times (Einsum [(n_t1,[0;1]); (n_t2,[2;3;4;5]); (n_t2,[6;7;8;9]); (n_v'ovvv,[0;10;5;9])] [2;6;7;3;4;8;10;1]) (-1) 1);
  (*2239*) AddTo n_t4new (Plain (Einsum [(n_t1,[0;1]); (n_t2,[2;3;4;5]); (n_t2,[6;7;8;9]); (n_v'ovvv,[0;10;5;9])] [2;6;7;3;8;4;10;1]));
  (*2240*) AddTo n_t4new (Times (Einsum [(n_t1,[0;1]); (n_t2,[2;3;4;5]); (n_t2,[6;7;8;9]); (n_v'ovvv,[0;10;5;9])] [2;3;6;7;10;4;8;1]) (-1) 1);
  (*2241*) AddTo n_t4new (Plain (Einsum [(n_t1,[0;1]); (n_t2,[2;3;4;5]); (n_t2,[6;7;8;9]); (n_v'ovvv,[0;10;5;9])] [2;3;6;7;10;8;4;1]));
  (*2242*) AddTo n_t4new (Plain (Einsum [(n_t1,[0;1]); (n_t2,[2;3;4;5]); (n_t2,[6;7;8;9]); (n_v'ovvv,[0;10;5;9])] [2;3;6;7;4;10;8;1]));
  (*2243*) AddTo n_t4new (Times (Einsum [(n_t1,[0;1]); (n_t2,[2;3;4;5]); (n_t2,[6;7;8;9]); (n_v'ovvv,[0;10;5;9])] [2;3;6;7;8;10;4;1]) (-1) 1);
  (*2244*) AddTo n_t4new (Times (Einsum [(n_t1,[0;1]); (n_t2,[2;3;4;5]); (n_t2,[6;7;8;9]); (n_v'ovvv,[0;10;5;9])] [2;3;6;7;4;8;10;1]) (-1) 1);
  (*2245*) AddTo n_t4new (Plain (Einsum [(n_t1,[0;1]); (n_t2,[2;3;4;5]); (n_t2,[6;7;8;9]); (n_v'ovvv,[0;10;5;9])] [2;3;6;7;8;4;10;1]));
  (*2246*) AddTo n_t4new (Times (Einsum [(n_t1,[0;1]); (n_t2,[2;3;4;5]); (n_v'oovv,[6;7;1;5]); (n_t3,[8;6;7;9;10;11])] [0;2;3;8;4;9;10;11]) (-1) 2);
  (*2247*) AddTo n_t4new (Times (Einsum [(n_t1,[0;1]); (n_t2,[2;3;4;5]); (n_v'oovv,[6;7;1;5]); (n_t3,[8;6;7;9;10;11])] [0;2;3;8;9;4;10;11]) (1) 2);
  (*2248*) AddTo n_t4new (Times (Einsum [(n_t1,[0;1]); (n_t2,[2;3;4;5]); (n_v'oovv,[6;7;1;5]); (n_t3,[8;6;7;9;10;11])] [0;2;3;8;9;10;4;11]) (-1) 2);
  (*2249*) AddTo n_t4new (Times (Einsum [(n_t1,[0;1]); (n_t2,[2;3;4;5]); (n_v'oovv,[6;7;1;5]); (n_t3,[8;6;7;9;10;11])] [0;2;3;8;9;10;11;4]) (1) 2);
  (*2250*) AddTo n_t4new (Times (Einsum [(n_t1,[0;1]); (n_t2,[2;3;4;5]); (n_v'oovv,[6;7;1;5]); (n_t3,[8;6;7;9;10;11])] [0;2;8;3;4;9;10;11]) (1) 2);
  (*2251*) AddTo n_t4new (Times (Einsum [(n_t1,[0;1]); (n_t2,[2;3;4;5]); (n_v'oovv,[6;7;1;5]); (n_t3,[8;6;7;9;10;11])] [0;2;8;3;9;4;10;11]) (-1) 2);
  (*2252*) AddTo n_t4new (Times (Einsum [(n_t1,[0;1]); (n_t2,[2;3;4;5]); (n_v'oovv,[6;7;1;5]); (n_t3,[8;6;7;9;10;11])] [0;2;8;3;9;10;4;11]) (1) 2);
  (*2253*) AddTo n_t4new (Times (Einsum [(n_t1,[0;1]); (n_t2,[2;3;4;5]); (n_v'oovv,[6;7;1;5]); (n_t3,[8;6;7;9;10;11])] [0;2;8;3;9;10;11;4]) (-1) 2);
  (*2254*) AddTo n_t4new (Plain (Einsum [(n_t1,[0;1]); (n_t2,[2;3;4;5]); (n_v'oovv,[3;6;1;7]); (n_t3,[8;9;6;10;11;7])] [0;2;8;9;4;5;10;11]));
  (*2255*) AddTo n_t4new (Times (Einsum [(n_t1,[0;1]); (n_t2,[2;3;4;5]); (n_v'oovv,[3;6;1;7]); (n_t3,[8;9;6;10;11;7])] [0;2;8;9;4;10;5;11]) (-1) 1);
  (*2256*) AddTo n_t4new (Plain (Einsum [(n_t1,[0;1]); (n_t2,[2;3;4;5]); (n_v'oovv,[3;6;1;7]); (n_t3,[8;9;6;10;11;7])] [0;2;8;9;4;10;11;5]));
  (*2257*) AddTo n_t4new (Times (Einsum [(n_t1,[0;1]); (n_t2,[2;3;4;5]); (n_v'oovv,[3;6;1;5]); (n_t3,[7;8;6;9;10;11])] [0;2;7;8;4;9;10;11]) (-1) 1);
  (*2258*) AddTo n_t4new (Plain (Einsum [(n_t1,[0;1]); (n_t2,[2;3;4;5]); (n_v'oovv,[3;6;1;7]); (n_t3,[8;9;6;10;11;7])] [0;2;8;9;10;4;5;11]));
  (*2259*) AddTo n_t4new (Times (Einsum [(n_t1,[0;1]); (n_t2,[2;3;4;5]); (n_v'oovv,[3;6;1;7]); (n_t3,[8;9;6;10;11;7])] [0;2;8;9;10;4;11;5]) (-1) 1);
  (*2260*) AddTo n_t4new (Plain (Einsum [(n_t1,[0;1]); (n_t2,[2;3;4;5]); (n_v'oovv,[3;6;1;5]); (n_t3,[7;8;6;9;10;11])] [0;2;7;8;9;4;10;11]));
  (*2261*) AddTo n_t4new (Plain (Einsum [(n_t1,[0;1]); (n_t2,[2;3;4;5]); (n_v'oovv,[3;6;1;7]); (n_t3,[8;9;6;10;11;7])] [0;2;8;9;10;11;4;5]));
  (*2262*) AddTo n_t4new (Times (Einsum [(n_t1,[0;1]); (n_t2,[2;3;4;5]); (n_v'oovv,[3;6;1;5]); (n_t3,[7;8;6;9;10;11])] [0;2;7;8;9;10;4;11]) (-1) 1);
  (*2263*) AddTo n_t4new (Plain (Einsum [(n_t1,[0;1]); (n_t2,[2;3;4;5]); (n_v'oovv,[3;6;1;5]); (n_t3,[7;8;6;9;10;11])] [0;2;7;8;9;10;11;4]));
  (*2264*) AddTo n_t4new (Times (Einsum [(n_t1,[0;1]); (n_t2,[2;3;4;5]); (n_v'oovv,[6;7;1;5]); (n_t3,[8;6;7;9;10;11])] [0;8;2;3;4;9;10;11]) (-1) 2);
  (*2265*) AddTo n_t4new (Times (Einsum [(n_t1,[0;1]); (n_t2,[2;3;4;5]); (n_v'oovv,[6;7;1;5]); (n_t3,[8;6;7;9;10;11])] [0;8;2;3;9;4;10;11]) (1) 2);
  (*2266*) AddTo n_t4new (Times (Einsum [(n_t1,[0;1]); (n_t2,[2;3;4;5]); (n_v'oovv,[6;7;1;5]); (n_t3,[8;6;7;9;10;11])] [0;8;2;3;9;10;4;11]) (-1) 2);
  (*2267*) AddTo n_t4new (Times (Einsum [(n_t1,[0;1]); (n_t2,[2;3;4;5]); (n_v'oovv,[6;7;1;5]); (n_t3,[8;6;7;9;10;11])] [0;8;2;3;9;10;11;4]) (1) 2);
  (*2268*) AddTo n_t4new (Times (Einsum [(n_t1,[0;1]); (n_t2,[2;3;4;5]); (n_v'oovv,[3;6;1;7]); (n_t3,[8;9;6;10;11;7])] [0;8;2;9;4;5;10;11]) (-1) 1);
  (*2269*) AddTo n_t4new (Plain (Einsum [(n_t1,[0;1]); (n_t2,[2;3;4;5]); (n_v'oovv,[3;6;1;7]); (n_t3,[8;9;6;10;11;7])] [0;8;2;9;4;10;5;11]));
  (*2270*) AddTo n_t4new (Times (Einsum [(n_t1,[0;1]); (n_t2,[2;3;4;5]); (n_v'oovv,[3;6;1;7]); (n_t3,[8;9;6;10;11;7])] [0;8;2;9;4;10;11;5]) (-1) 1);
  (*2271*) AddTo n_t4new (Plain (Einsum [(n_t1,[0;1]); (n_t2,[2;3;4;5]); (n_v'oovv,[3;6;1;5]); (n_t3,[7;8;6;9;10;11])] [0;7;2;8;4;9;10;11]));
  (*2272*) AddTo n_t4new (Times (Einsum [(n_t1,[0;1]); (n_t2,[2;3;4;5]); (n_v'oovv,[3;6;1;7]); (n_t3,[8;9;6;10;11;7])] [0;8;2;9;10;4;5;11]) (-1) 1);
  (*2273*) AddTo n_t4new (Plain (Einsum [(n_t1,[0;1]); (n_t2,[2;3;4;5]); (n_v'oovv,[3;6;1;7]); (n_t3,[8;9;6;10;11;7])] [0;8;2;9;10;4;11;5]));
  (*2274*) AddTo n_t4new (Times (Einsum [(n_t1,[0;1]); (n_t2,[2;3;4;5]); (n_v'oovv,[3;6;1;5]); (n_t3,[7;8;6;9;10;11])] [0;7;2;8;9;4;10;11]) (-1) 1);
  (*2275*) AddTo n_t4new (Times (Einsum [(n_t1,[0;1]); (n_t2,[2;3;4;5]); (n_v'oovv,[3;6;1;7]); (n_t3,[8;9;6;10;11;7])] [0;8;2;9;10;11;4;5]) (-1) 1);
  (*2276*) AddTo n_t4new (Plain (Einsum [(n_t1,[0;1]); (n_t2,[2;3;4;5]); (n_v'oovv,[3;6;1;5]); (n_t3,[7;8;6;9;10;11])] [0;7;2;8;9;10;4;11]));
  (*2277*) AddTo n_t4new (Times (Einsum [(n_t1,[0;1]); (n_t2,[2;3;4;5]); (n_v'oovv,[3;6;1;5]); (n_t3,[7;8;6;9;10;11])] [0;7;2;8;9;10;11;4]) (-1) 1);
  (*2278*) AddTo n_t4new (Plain (Einsum [(n_t1,[0;1]); (n_t2,[2;3;4;5]); (n_v'oovv,[3;6;1;7]); (n_t3,[8;9;6;10;11;7])] [0;8;9;2;4;5;10;11]));
  (*2279*) AddTo n_t4new (Times (Einsum [(n_t1,[0;1]); (n_t2,[2;3;4;5]); (n_v'oovv,[3;6;1;7]); (n_t3,[8;9;6;10;11;7])] [0;8;9;2;4;10;5;11]) (-1) 1);
  (*2280*) AddTo n_t4new (Plain (Einsum [(n_t1,[0;1]); (n_t2,[2;3;4;5]); (n_v'oovv,[3;6;1;7]); (n_t3,[8;9;6;10;11;7])] [0;8;9;2;4;10;11;5]));
  (*2281*) AddTo n_t4new (Times (Einsum [(n_t1,[0;1]); (n_t2,[2;3;4;5]); (n_v'oovv,[3;6;1;5]); (n_t3,[7;8;6;9;10;11])] [0;7;8;2;4;9;10;11]) (-1) 1);
  (*2282*) AddTo n_t4new (Plain (Einsum [(n_t1,[0;1]); (n_t2,[2;3;4;5]); (n_v'oovv,[3;6;1;7]); (n_t3,[8;9;6;10;11;7])] [0;8;9;2;10;4;5;11]));
  (*2283*) AddTo n_t4new (Times (Einsum [(n_t1,[0;1]); (n_t2,[2;3;4;5]); (n_v'oovv,[3;6;1;7]); (n_t3,[8;9;6;10;11;7])] [0;8;9;2;10;4;11;5]) (-1) 1);
  (*2284*) AddTo n_t4new (Plain (Einsum [(n_t1,[0;1]); (n_t2,[2;3;4;5]); (n_v'oovv,[3;6;1;5]); (n_t3,[7;8;6;9;10;11])] [0;7;8;2;9;4;10;11]));
  (*2285*) AddTo n_t4new (Plain (Einsum [(n_t1,[0;1]); (n_t2,[2;3;4;5]); (n_v'oovv,[3;6;1;7]); (n_t3,[8;9;6;10;11;7])] [0;8;9;2;10;11;4;5]));
  (*2286*) AddTo n_t4new (Times (Einsum [(n_t1,[0;1]); (n_t2,[2;3;4;5]); (n_v'oovv,[3;6;1;5]); (n_t3,[7;8;6;9;10;11])] [0;7;8;2;9;10;4;11]) (-1) 1);
  (*2287*) AddTo n_t4new (Plain (Einsum [(n_t1,[0;1]); (n_t2,[2;3;4;5]); (n_v'oovv,[3;6;1;5]); (n_t3,[7;8;6;9;10;11])] [0;7;8;2;9;10;11;4]));
  (*2288*) AddTo n_t4new (Times (Einsum [(n_t1,[0;1]); (n_t2,[2;3;4;5]); (n_v'oovv,[2;3;1;6]); (n_t3,[7;8;9;10;11;6])] [0;7;8;9;4;5;10;11]) (1) 2);
  (*2289*) AddTo n_t4new (Times (Einsum [(n_t1,[0;1]); (n_t2,[2;3;4;5]); (n_v'oovv,[2;3;1;6]); (n_t3,[7;8;9;10;11;6])] [0;7;8;9;4;10;5;11]) (-1) 2);
  (*2290*) AddTo n_t4new (Times (Einsum [(n_t1,[0;1]); (n_t2,[2;3;4;5]); (n_v'oovv,[2;3;1;6]); (n_t3,[7;8;9;10;11;6])] [0;7;8;9;4;10;11;5]) (1) 2);
  (*2291*) AddTo n_t4new (Times (Einsum [(n_t1,[0;1]); (n_t2,[2;3;4;5]); (n_v'oovv,[2;3;1;6]); (n_t3,[7;8;9;10;11;6])] [0;7;8;9;10;4;5;11]) (1) 2);
  (*2292*) AddTo n_t4new (Times (Einsum [(n_t1,[0;1]); (n_t2,[2;3;4;5]); (n_v'oovv,[2;3;1;6]); (n_t3,[7;8;9;10;11;6])] [0;7;8;9;10;4;11;5]) (-1) 2);
  (*2293*) AddTo n_t4new (Times (Einsum [(n_t1,[0;1]); (n_t2,[2;3;4;5]); (n_v'oovv,[2;3;1;6]); (n_t3,[7;8;9;10;11;6])] [0;7;8;9;10;11;4;5]) (1) 2);
  (*2294*) AddTo n_t4new (Times (Einsum [(n_t1,[0;1]); (n_t2,[2;3;4;5]); (n_v'oovv,[6;7;1;5]); (n_t3,[8;6;7;9;10;11])] [2;0;3;8;4;9;10;11]) (1) 2);
  (*2295*) AddTo n_t4new (Times (Einsum [(n_t1,[0;1]); (n_t2,[2;3;4;5]); (n_v'oovv,[6;7;1;5]); (n_t3,[8;6;7;9;10;11])] [2;0;3;8;9;4;10;11]) (-1) 2);
  (*2296*) AddTo n_t4new (Times (Einsum [(n_t1,[0;1]); (n_t2,[2;3;4;5]); (n_v'oovv,[6;7;1;5]); (n_t3,[8;6;7;9;10;11])] [2;0;3;8;9;10;4;11]) (1) 2);
  (*2297*) AddTo n_t4new (Times (Einsum [(n_t1,[0;1]); (n_t2,[2;3;4;5]); (n_v'oovv,[6;7;1;5]); (n_t3,[8;6;7;9;10;11])] [2;0;3;8;9;10;11;4]) (-1) 2);
  (*2298*) AddTo n_t4new (Times (Einsum [(n_t1,[0;1]); (n_t2,[2;3;4;5]); (n_v'oovv,[6;7;1;5]); (n_t3,[8;6;7;9;10;11])] [2;0;8;3;4;9;10;11]) (-1) 2);
  (*2299*) AddTo n_t4new (Times (Einsum [(n_t1,[0;1]); (n_t2,[2;3;4;5]); (n_v'oovv,[6;7;1;5]); (n_t3,[8;6;7;9;10;11])] [2;0;8;3;9;4;10;11]) (1) 2);
  (*2300*) AddTo n_t4new (Times (Einsum [(n_t1,[0;1]); (n_t2,[2;3;4;5]); (n_v'oovv,[6;7;1;5]); (n_t3,[8;6;7;9;10;11])] [2;0;8;3;9;10;4;11]) (-1) 2);
  (*2301*) AddTo n_t4new (Times (Einsum [(n_t1,[0;1]); (n_t2,[2;3;4;5]); (n_v'oovv,[6;7;1;5]); (n_t3,[8;6;7;9;10;11])] [2;0;8;3;9;10;11;4]) (1) 2);
  (*2302*) AddTo n_t4new (Times (Einsum [(n_t1,[0;1]); (n_t2,[2;3;4;5]); (n_v'oovv,[3;6;1;7]); (n_t3,[8;9;6;10;11;7])] [2;0;8;9;4;5;10;11]) (-1) 1);
  (*2303*) AddTo n_t4new (Plain (Einsum [(n_t1,[0;1]); (n_t2,[2;3;4;5]); (n_v'oovv,[3;6;1;7]); (n_t3,[8;9;6;10;11;7])] [2;0;8;9;4;10;5;11]));
  (*2304*) AddTo n_t4new (Times (Einsum [(n_t1,[0;1]); (n_t2,[2;3;4;5]); (n_v'oovv,[3;6;1;7]); (n_t3,[8;9;6;10;11;7])] [2;0;8;9;4;10;11;5]) (-1) 1);
  (*2305*) AddTo n_t4new (Plain (Einsum [(n_t1,[0;1]); (n_t2,[2;3;4;5]); (n_v'oovv,[3;6;1;5]); (n_t3,[7;8;6;9;10;11])] [2;0;7;8;4;9;10;11]));
  (*2306*) AddTo n_t4new (Times (Einsum [(n_t1,[0;1]); (n_t2,[2;3;4;5]); (n_v'oovv,[3;6;1;7]); (n_t3,[8;9;6;10;11;7])] [2;0;8;9;10;4;5;11]) (-1) 1);
  (*2307*) AddTo n_t4new (Plain (Einsum [(n_t1,[0;1]); (n_t2,[2;3;4;5]); (n_v'oovv,[3;6;1;7]); (n_t3,[8;9;6;10;11;7])] [2;0;8;9;10;4;11;5]));
  (*2308*) AddTo n_t4new (Times (Einsum [(n_t1,[0;1]); (n_t2,[2;3;4;5]); (n_v'oovv,[3;6;1;5]); (n_t3,[7;8;6;9;10;11])] [2;0;7;8;9;4;10;11]) (-1) 1);
  (*2309*) AddTo n_t4new (Times (Einsum [(n_t1,[0;1]); (n_t2,[2;3;4;5]); (n_v'oovv,[3;6;1;7]); (n_t3,[8;9;6;10;11;7])] [2;0;8;9;10;11;4;5]) (-1) 1);
  (*2310*) AddTo n_t4new (Plain (Einsum [(n_t1,[0;1]); (n_t2,[2;3;4;5]); (n_v'oovv,[3;6;1;5]); (n_t3,[7;8;6;9;10;11])] [2;0;7;8;9;10;4;11]));
  (*2311*) AddTo n_t4new (Times (Einsum [(n_t1,[0;1]); (n_t2,[2;3;4;5]); (n_v'oovv,[3;6;1;5]); (n_t3,[7;8;6;9;10;11])] [2;0;7;8;9;10;11;4]) (-1) 1);
  (*2312*) AddTo n_t4new (Times (Einsum [(n_t1,[0;1]); (n_t2,[2;3;4;5]); (n_v'oovv,[6;7;1;5]); (n_t3,[8;6;7;9;10;11])] [8;0;2;3;4;9;10;11]) (1) 2);
  (*2313*) AddTo n_t4new (Times (Einsum [(n_t1,[0;1]); (n_t2,[2;3;4;5]); (n_v'oovv,[6;7;1;5]); (n_t3,[8;6;7;9;10;11])] [8;0;2;3;9;4;10;11]) (-1) 2);
  (*2314*) AddTo n_t4new (Times (Einsum [(n_t1,[0;1]); (n_t2,[2;3;4;5]); (n_v'oovv,[6;7;1;5]); (n_t3,[8;6;7;9;10;11])] [8;0;2;3;9;10;4;11]) (1) 2);
  (*2315*) AddTo n_t4new (Times (Einsum [(n_t1,[0;1]); (n_t2,[2;3;4;5]); (n_v'oovv,[6;7;1;5]); (n_t3,[8;6;7;9;10;11])] [8;0;2;3;9;10;11;4]) (-1) 2);
  (*2316*) AddTo n_t4new (Plain (Einsum [(n_t1,[0;1]); (n_t2,[2;3;4;5]); (n_v'oovv,[3;6;1;7]); (n_t3,[8;9;6;10;11;7])] [8;0;2;9;4;5;10;11]));
  (*2317*) AddTo n_t4new (Times (Einsum [(n_t1,[0;1]); (n_t2,[2;3;4;5]); (n_v'oovv,[3;6;1;7]); (n_t3,[8;9;6;10;11;7])] [8;0;2;9;4;10;5;11]) (-1) 1);
  (*2318*) AddTo n_t4new (Plain (Einsum [(n_t1,[0;1]); (n_t2,[2;3;4;5]); (n_v'oovv,[3;6;1;7]); (n_t3,[8;9;6;10;11;7])] [8;0;2;9;4;10;11;5]));
  (*2319*) AddTo n_t4new (Times (Einsum [(n_t1,[0;1]); (n_t2,[2;3;4;5]); (n_v'oovv,[3;6;1;5]); (n_t3,[7;8;6;9;10;11])] [7;0;2;8;4;9;10;11]) (-1) 1);
  (*2320*) AddTo n_t4new (Plain (Einsum [(n_t1,[0;1]); (n_t2,[2;3;4;5]); (n_v'oovv,[3;6;1;7]); (n_t3,[8;9;6;10;11;7])] [8;0;2;9;10;4;5;11]));
  (*2321*) AddTo n_t4new (Times (Einsum [(n_t1,[0;1]); (n_t2,[2;3;4;5]); (n_v'oovv,[3;6;1;7]); (n_t3,[8;9;6;10;11;7])] [8;0;2;9;10;4;11;5]) (-1) 1);
  (*2322*) AddTo n_t4new (Plain (Einsum [(n_t1,[0;1]); (n_t2,[2;3;4;5]); (n_v'oovv,[3;6;1;5]); (n_t3,[7;8;6;9;10;11])] [7;0;2;8;9;4;10;11]));
  (*2323*) AddTo n_t4new (Plain (Einsum [(n_t1,[0;1]); (n_t2,[2;3;4;5]); (n_v'oovv,[3;6;1;7]); (n_t3,[8;9;6;10;11;7])] [8;0;2;9;10;11;4;5]));
  (*2324*) AddTo n_t4new (Times (Einsum [(n_t1,[0;1]); (n_t2,[2;3;4;5]); (n_v'oovv,[3;6;1;5]); (n_t3,[7;8;6;9;10;11])] [7;0;2;8;9;10;4;11]) (-1) 1);
  (*2325*) AddTo n_t4new (Plain (Einsum [(n_t1,[0;1]); (n_t2,[2;3;4;5]); (n_v'oovv,[3;6;1;5]); (n_t3,[7;8;6;9;10;11])] [7;0;2;8;9;10;11;4]));
  (*2326*) AddTo n_t4new (Times (Einsum [(n_t1,[0;1]); (n_t2,[2;3;4;5]); (n_v'oovv,[3;6;1;7]); (n_t3,[8;9;6;10;11;7])] [8;0;9;2;4;5;10;11]) (-1) 1);
  (*2327*) AddTo n_t4new (Plain (Einsum [(n_t1,[0;1]); (n_t2,[2;3;4;5]); (n_v'oovv,[3;6;1;7]); (n_t3,[8;9;6;10;11;7])] [8;0;9;2;4;10;5;11]));
  (*2328*) AddTo n_t4new (Times (Einsum [(n_t1,[0;1]); (n_t2,[2;3;4;5]); (n_v'oovv,[3;6;1;7]); (n_t3,[8;9;6;10;11;7])] [8;0;9;2;4;10;11;5]) (-1) 1);
  (*2329*) AddTo n_t4new (Plain (Einsum [(n_t1,[0;1]); (n_t2,[2;3;4;5]); (n_v'oovv,[3;6;1;5]); (n_t3,[7;8;6;9;10;11])] [7;0;8;2;4;9;10;11]));
  (*2330*) AddTo n_t4new (Times (Einsum [(n_t1,[0;1]); (n_t2,[2;3;4;5]); (n_v'oovv,[3;6;1;7]); (n_t3,[8;9;6;10;11;7])] [8;0;9;2;10;4;5;11]) (-1) 1);
  (*2331*) AddTo n_t4new (Plain (Einsum [(n_t1,[0;1]); (n_t2,[2;3;4;5]); (n_v'oovv,[3;6;1;7]); (n_t3,[8;9;6;10;11;7])] [8;0;9;2;10;4;11;5]));
  (*2332*) AddTo n_t4new (Times (Einsum [(n_t1,[0;1]); (n_t2,[2;3;4;5]); (n_v'oovv,[3;6;1;5]); (n_t3,[7;8;6;9;10;11])] [7;0;8;2;9;4;10;11]) (-1) 1);
  (*2333*) AddTo n_t4new (Times (Einsum [(n_t1,[0;1]); (n_t2,[2;3;4;5]); (n_v'oovv,[3;6;1;7]); (n_t3,[8;9;6;10;11;7])] [8;0;9;2;10;11;4;5]) (-1) 1);
  (*2334*) AddTo n_t4new (Plain (Einsum [(n_t1,[0;1]); (n_t2,[2;3;4;5]); (n_v'oovv,[3;6;1;5]); (n_t3,[7;8;6;9;10;11])] [7;0;8;2;9;10;4;11]));
  (*2335*) AddTo n_t4new (Times (Einsum [(n_t1,[0;1]); (n_t2,[2;3;4;5]); (n_v'oovv,[3;6;1;5]); (n_t3,[7;8;6;9;10;11])] [7;0;8;2;9;10;11;4]) (-1) 1);
  (*2336*) AddTo n_t4new (Times (Einsum [(n_t1,[0;1]); (n_t2,[2;3;4;5]); (n_v'oovv,[2;3;1;6]); (n_t3,[7;8;9;10;11;6])] [7;0;8;9;4;5;10;11]) (-1) 2);
  (*2337*) AddTo n_t4new (Times (Einsum [(n_t1,[0;1]); (n_t2,[2;3;4;5]); (n_v'oovv,[2;3;1;6]); (n_t3,[7;8;9;10;11;6])] [7;0;8;9;4;10;5;11]) (1) 2);
  (*2338*) AddTo n_t4new (Times (Einsum [(n_t1,[0;1]); (n_t2,[2;3;4;5]); (n_v'oovv,[2;3;1;6]); (n_t3,[7;8;9;10;11;6])] [7;0;8;9;4;10;11;5]) (-1) 2);
  (*2339*) AddTo n_t4new (Times (Einsum [(n_t1,[0;1]); (n_t2,[2;3;4;5]); (n_v'oovv,[2;3;1;6]); (n_t3,[7;8;9;10;11;6])] [7;0;8;9;10;4;5;11]) (-1) 2);
  (*2340*) AddTo n_t4new (Times (Einsum [(n_t1,[0;1]); (n_t2,[2;3;4;5]); (n_v'oovv,[2;3;1;6]); (n_t3,[7;8;9;10;11;6])] [7;0;8;9;10;4;11;5]) (1) 2);
  (*2341*) AddTo n_t4new (Times (Einsum [(n_t1,[0;1]); (n_t2,[2;3;4;5]); (n_v'oovv,[2;3;1;6]); (n_t3,[7;8;9;10;11;6])] [7;0;8;9;10;11;4;5]) (-1) 2);
  (*2342*) AddTo n_t4new (Times (Einsum [(n_t1,[0;1]); (n_t2,[2;3;4;5]); (n_v'oovv,[6;7;1;5]); (n_t3,[8;6;7;9;10;11])] [2;3;0;8;4;9;10;11]) (-1) 2);
  (*2343*) AddTo n_t4new (Times (Einsum [(n_t1,[0;1]); (n_t2,[2;3;4;5]); (n_v'oovv,[6;7;1;5]); (n_t3,[8;6;7;9;10;11])] [2;3;0;8;9;4;10;11]) (1) 2);
  (*2344*) AddTo n_t4new (Times (Einsum [(n_t1,[0;1]); (n_t2,[2;3;4;5]); (n_v'oovv,[6;7;1;5]); (n_t3,[8;6;7;9;10;11])] [2;3;0;8;9;10;4;11]) (-1) 2);
  (*2345*) AddTo n_t4new (Times (Einsum [(n_t1,[0;1]); (n_t2,[2;3;4;5]); (n_v'oovv,[6;7;1;5]); (n_t3,[8;6;7;9;10;11])] [2;3;0;8;9;10;11;4]) (1) 2);
  (*2346*) AddTo n_t4new (Times (Einsum [(n_t1,[0;1]); (n_t2,[2;3;4;5]); (n_v'oovv,[6;7;1;5]); (n_t3,[8;6;7;9;10;11])] [2;8;0;3;4;9;10;11]) (1) 2);
  (*2347*) AddTo n_t4new (Times (Einsum [(n_t1,[0;1]); (n_t2,[2;3;4;5]); (n_v'oovv,[6;7;1;5]); (n_t3,[8;6;7;9;10;11])] [2;8;0;3;9;4;10;11]) (-1) 2);
  (*2348*) AddTo n_t4new (Times (Einsum [(n_t1,[0;1]); (n_t2,[2;3;4;5]); (n_v'oovv,[6;7;1;5]); (n_t3,[8;6;7;9;10;11])] [2;8;0;3;9;10;4;11]) (1) 2);
  (*2349*) AddTo n_t4new (Times (Einsum [(n_t1,[0;1]); (n_t2,[2;3;4;5]); (n_v'oovv,[6;7;1;5]); (n_t3,[8;6;7;9;10;11])] [2;8;0;3;9;10;11;4]) (-1) 2);
  (*2350*) AddTo n_t4new (Plain (Einsum [(n_t1,[0;1]); (n_t2,[2;3;4;5]); (n_v'oovv,[3;6;1;7]); (n_t3,[8;9;6;10;11;7])] [2;8;0;9;4;5;10;11]));
  (*2351*) AddTo n_t4new (Times (Einsum [(n_t1,[0;1]); (n_t2,[2;3;4;5]); (n_v'oovv,[3;6;1;7]); (n_t3,[8;9;6;10;11;7])] [2;8;0;9;4;10;5;11]) (-1) 1);
  (*2352*) AddTo n_t4new (Plain (Einsum [(n_t1,[0;1]); (n_t2,[2;3;4;5]); (n_v'oovv,[3;6;1;7]); (n_t3,[8;9;6;10;11;7])] [2;8;0;9;4;10;11;5]));
  (*2353*) AddTo n_t4new (Times (Einsum [(n_t1,[0;1]); (n_t2,[2;3;4;5]); (n_v'oovv,[3;6;1;5]); (n_t3,[7;8;6;9;10;11])] [2;7;0;8;4;9;10;11]) (-1) 1);
  (*2354*) AddTo n_t4new (Plain (Einsum [(n_t1,[0;1]); (n_t2,[2;3;4;5]); (n_v'oovv,[3;6;1;7]); (n_t3,[8;9;6;10;11;7])] [2;8;0;9;10;4;5;11]));
  (*2355*) AddTo n_t4new (Times (Einsum [(n_t1,[0;1]); (n_t2,[2;3;4;5]); (n_v'oovv,[3;6;1;7]); (n_t3,[8;9;6;10;11;7])] [2;8;0;9;10;4;11;5]) (-1) 1);
  (*2356*) AddTo n_t4new (Plain (Einsum [(n_t1,[0;1]); (n_t2,[2;3;4;5]); (n_v'oovv,[3;6;1;5]); (n_t3,[7;8;6;9;10;11])] [2;7;0;8;9;4;10;11]));
  (*2357*) AddTo n_t4new (Plain (Einsum [(n_t1,[0;1]); (n_t2,[2;3;4;5]); (n_v'oovv,[3;6;1;7]); (n_t3,[8;9;6;10;11;7])] [2;8;0;9;10;11;4;5]));
  (*2358*) AddTo n_t4new (Times (Einsum [(n_t1,[0;1]); (n_t2,[2;3;4;5]); (n_v'oovv,[3;6;1;5]); (n_t3,[7;8;6;9;10;11])] [2;7;0;8;9;10;4;11]) (-1) 1);
  (*2359*) AddTo n_t4new (Plain (Einsum [(n_t1,[0;1]); (n_t2,[2;3;4;5]); (n_v'oovv,[3;6;1;5]); (n_t3,[7;8;6;9;10;11])] [2;7;0;8;9;10;11;4]));
  (*2360*) AddTo n_t4new (Times (Einsum [(n_t1,[0;1]); (n_t2,[2;3;4;5]); (n_v'oovv,[6;7;1;5]); (n_t3,[8;6;7;9;10;11])] [8;2;0;3;4;9;10;11]) (-1) 2);
  (*2361*) AddTo n_t4new (Times (Einsum [(n_t1,[0;1]); (n_t2,[2;3;4;5]); (n_v'oovv,[6;7;1;5]); (n_t3,[8;6;7;9;10;11])] [8;2;0;3;9;4;10;11]) (1) 2);
  (*2362*) AddTo n_t4new (Times (Einsum [(n_t1,[0;1]); (n_t2,[2;3;4;5]); (n_v'oovv,[6;7;1;5]); (n_t3,[8;6;7;9;10;11])] [8;2;0;3;9;10;4;11]) (-1) 2);
  (*2363*) AddTo n_t4new (Times (Einsum [(n_t1,[0;1]); (n_t2,[2;3;4;5]); (n_v'oovv,[6;7;1;5]); (n_t3,[8;6;7;9;10;11])] [8;2;0;3;9;10;11;4]) (1) 2);
  (*2364*) AddTo n_t4new (Times (Einsum [(n_t1,[0;1]); (n_t2,[2;3;4;5]); (n_v'oovv,[3;6;1;7]); (n_t3,[8;9;6;10;11;7])] [8;2;0;9;4;5;10;11]) (-1) 1);
  (*2365*) AddTo n_t4new (Plain (Einsum [(n_t1,[0;1]); (n_t2,[2;3;4;5]); (n_v'oovv,[3;6;1;7]); (n_t3,[8;9;6;10;11;7])] [8;2;0;9;4;10;5;11]));
  (*2366*) AddTo n_t4new (Times (Einsum [(n_t1,[0;1]); (n_t2,[2;3;4;5]); (n_v'oovv,[3;6;1;7]); (n_t3,[8;9;6;10;11;7])] [8;2;0;9;4;10;11;5]) (-1) 1);
  (*2367*) AddTo n_t4new (Plain (Einsum [(n_t1,[0;1]); (n_t2,[2;3;4;5]); (n_v'oovv,[3;6;1;5]); (n_t3,[7;8;6;9;10;11])] [7;2;0;8;4;9;10;11]));
  (*2368*) AddTo n_t4new (Times (Einsum [(n_t1,[0;1]); (n_t2,[2;3;4;5]); (n_v'oovv,[3;6;1;7]); (n_t3,[8;9;6;10;11;7])] [8;2;0;9;10;4;5;11]) (-1) 1);
  (*2369*) AddTo n_t4new (Plain (Einsum [(n_t1,[0;1]); (n_t2,[2;3;4;5]); (n_v'oovv,[3;6;1;7]); (n_t3,[8;9;6;10;11;7])] [8;2;0;9;10;4;11;5]));
  (*2370*) AddTo n_t4new (Times (Einsum [(n_t1,[0;1]); (n_t2,[2;3;4;5]); (n_v'oovv,[3;6;1;5]); (n_t3,[7;8;6;9;10;11])] [7;2;0;8;9;4;10;11]) (-1) 1);
  (*2371*) AddTo n_t4new (Times (Einsum [(n_t1,[0;1]); (n_t2,[2;3;4;5]); (n_v'oovv,[3;6;1;7]); (n_t3,[8;9;6;10;11;7])] [8;2;0;9;10;11;4;5]) (-1) 1);
  (*2372*) AddTo n_t4new (Plain (Einsum [(n_t1,[0;1]); (n_t2,[2;3;4;5]); (n_v'oovv,[3;6;1;5]); (n_t3,[7;8;6;9;10;11])] [7;2;0;8;9;10;4;11]));
  (*2373*) AddTo n_t4new (Times (Einsum [(n_t1,[0;1]); (n_t2,[2;3;4;5]); (n_v'oovv,[3;6;1;5]); (n_t3,[7;8;6;9;10;11])] [7;2;0;8;9;10;11;4]) (-1) 1);
  (*2374*) AddTo n_t4new (Plain (Einsum [(n_t1,[0;1]); (n_t2,[2;3;4;5]); (n_v'oovv,[3;6;1;7]); (n_t3,[8;9;6;10;11;7])] [8;9;0;2;4;5;10;11]));
  (*2375*) AddTo n_t4new (Times (Einsum [(n_t1,[0;1]); (n_t2,[2;3;4;5]); (n_v'oovv,[3;6;1;7]); (n_t3,[8;9;6;10;11;7])] [8;9;0;2;4;10;5;11]) (-1) 1);
  (*2376*) AddTo n_t4new (Plain (Einsum [(n_t1,[0;1]); (n_t2,[2;3;4;5]); (n_v'oovv,[3;6;1;7]); (n_t3,[8;9;6;10;11;7])] [8;9;0;2;4;10;11;5]));
  (*2377*) AddTo n_t4new (Times (Einsum [(n_t1,[0;1]); (n_t2,[2;3;4;5]); (n_v'oovv,[3;6;1;5]); (n_t3,[7;8;6;9;10;11])] [7;8;0;2;4;9;10;11]) (-1) 1);
  (*2378*) AddTo n_t4new (Plain (Einsum [(n_t1,[0;1]); (n_t2,[2;3;4;5]); (n_v'oovv,[3;6;1;7]); (n_t3,[8;9;6;10;11;7])] [8;9;0;2;10;4;5;11]));
  (*2379*) AddTo n_t4new (Times (Einsum [(n_t1,[0;1]); (n_t2,[2;3;4;5]); (n_v'oovv,[3;6;1;7]); (n_t3,[8;9;6;10;11;7])] [8;9;0;2;10;4;11;5]) (-1) 1);
  (*2380*) AddTo n_t4new (Plain (Einsum [(n_t1,[0;1]); (n_t2,[2;3;4;5]); (n_v'oovv,[3;6;1;5]); (n_t3,[7;8;6;9;10;11])] [7;8;0;2;9;4;10;11]));
  (*2381*) AddTo n_t4new (Plain (Einsum [(n_t1,[0;1]); (n_t2,[2;3;4;5]); (n_v'oovv,[3;6;1;7]); (n_t3,[8;9;6;10;11;7])] [8;9;0;2;10;11;4;5]));
  (*2382*) AddTo n_t4new (Times (Einsum [(n_t1,[0;1]); (n_t2,[2;3;4;5]); (n_v'oovv,[3;6;1;5]); (n_t3,[7;8;6;9;10;11])] [7;8;0;2;9;10;4;11]) (-1) 1);
  (*2383*) AddTo n_t4new (Plain (Einsum [(n_t1,[0;1]); (n_t2,[2;3;4;5]); (n_v'oovv,[3;6;1;5]); (n_t3,[7;8;6;9;10;11])] [7;8;0;2;9;10;11;4]));
  (*2384*) AddTo n_t4new (Times (Einsum [(n_t1,[0;1]); (n_t2,[2;3;4;5]); (n_v'oovv,[2;3;1;6]); (n_t3,[7;8;9;10;11;6])] [7;8;0;9;4;5;10;11]) (1) 2);
  (*2385*) AddTo n_t4new (Times (Einsum [(n_t1,[0;1]); (n_t2,[2;3;4;5]); (n_v'oovv,[2;3;1;6]); (n_t3,[7;8;9;10;11;6])] [7;8;0;9;4;10;5;11]) (-1) 2);
  (*2386*) AddTo n_t4new (Times (Einsum [(n_t1,[0;1]); (n_t2,[2;3;4;5]); (n_v'oovv,[2;3;1;6]); (n_t3,[7;8;9;10;11;6])] [7;8;0;9;4;10;11;5]) (1) 2);
  (*2387*) AddTo n_t4new (Times (Einsum [(n_t1,[0;1]); (n_t2,[2;3;4;5]); (n_v'oovv,[2;3;1;6]); (n_t3,[7;8;9;10;11;6])] [7;8;0;9;10;4;5;11]) (1) 2);
  (*2388*) AddTo n_t4new (Times (Einsum [(n_t1,[0;1]); (n_t2,[2;3;4;5]); (n_v'oovv,[2;3;1;6]); (n_t3,[7;8;9;10;11;6])] [7;8;0;9;10;4;11;5]) (-1) 2);
  (*2389*) AddTo n_t4new (Times (Einsum [(n_t1,[0;1]); (n_t2,[2;3;4;5]); (n_v'oovv,[2;3;1;6]); (n_t3,[7;8;9;10;11;6])] [7;8;0;9;10;11;4;5]) (1) 2);
  (*2390*) AddTo n_t4new (Times (Einsum [(n_t1,[0;1]); (n_t2,[2;3;4;5]); (n_v'oovv,[6;7;1;5]); (n_t3,[8;6;7;9;10;11])] [2;3;8;0;4;9;10;11]) (1) 2);
  (*2391*) AddTo n_t4new (Times (Einsum [(n_t1,[0;1]); (n_t2,[2;3;4;5]); (n_v'oovv,[6;7;1;5]); (n_t3,[8;6;7;9;10;11])] [2;3;8;0;9;4;10;11]) (-1) 2);
  (*2392*) AddTo n_t4new (Times (Einsum [(n_t1,[0;1]); (n_t2,[2;3;4;5]); (n_v'oovv,[6;7;1;5]); (n_t3,[8;6;7;9;10;11])] [2;3;8;0;9;10;4;11]) (1) 2);
  (*2393*) AddTo n_t4new (Times (Einsum [(n_t1,[0;1]); (n_t2,[2;3;4;5]); (n_v'oovv,[6;7;1;5]); (n_t3,[8;6;7;9;10;11])] [2;3;8;0;9;10;11;4]) (-1) 2);
  (*2394*) AddTo n_t4new (Times (Einsum [(n_t1,[0;1]); (n_t2,[2;3;4;5]); (n_v'oovv,[6;7;1;5]); (n_t3,[8;6;7;9;10;11])] [2;8;3;0;4;9;10;11]) (-1) 2);
  (*2395*) AddTo n_t4new (Times (Einsum [(n_t1,[0;1]); (n_t2,[2;3;4;5]); (n_v'oovv,[6;7;1;5]); (n_t3,[8;6;7;9;10;11])] [2;8;3;0;9;4;10;11]) (1) 2);
  (*2396*) AddTo n_t4new (Times (Einsum [(n_t1,[0;1]); (n_t2,[2;3;4;5]); (n_v'oovv,[6;7;1;5]); (n_t3,[8;6;7;9;10;11])] [2;8;3;0;9;10;4;11]) (-1) 2);
  (*2397*) AddTo n_t4new (Times (Einsum [(n_t1,[0;1]); (n_t2,[2;3;4;5]); (n_v'oovv,[6;7;1;5]); (n_t3,[8;6;7;9;10;11])] [2;8;3;0;9;10;11;4]) (1) 2);
  (*2398*) AddTo n_t4new (Times (Einsum [(n_t1,[0;1]); (n_t2,[2;3;4;5]); (n_v'oovv,[3;6;1;7]); (n_t3,[8;9;6;10;11;7])] [2;8;9;0;4;5;10;11]) (-1) 1);
  (*2399*) AddTo n_t4new (Plain (Einsum [(n_t1,[0;1]); (n_t2,[2;3;4;5]); (n_v'oovv,[3;6;1;7]); (n_t3,[8;9;6;10;11;7])] [2;8;9;0;4;10;5;11]));
  (*2400*) AddTo n_t4new (Times (Einsum [(n_t1,[0;1]); (n_t2,[2;3;4;5]); (n_v'oovv,[3;6;1;7]); (n_t3,[8;9;6;10;11;7])] [2;8;9;0;4;10;11;5]) (-1) 1);
  (*2401*) AddTo n_t4new (Plain (Einsum [(n_t1,[0;1]); (n_t2,[2;3;4;5]); (n_v'oovv,[3;6;1;5]); (n_t3,[7;8;6;9;10;11])] [2;7;8;0;4;9;10;11]));
  (*2402*) AddTo n_t4new (Times (Einsum [(n_t1,[0;1]); (n_t2,[2;3;4;5]); (n_v'oovv,[3;6;1;7]); (n_t3,[8;9;6;10;11;7])] [2;8;9;0;10;4;5;11]) (-1) 1);
  (*2403*) AddTo n_t4new (Plain (Einsum [(n_t1,[0;1]); (n_t2,[2;3;4;5]); (n_v'oovv,[3;6;1;7]); (n_t3,[8;9;6;10;11;7])] [2;8;9;0;10;4;11;5]));
  (*2404*) AddTo n_t4new (Times (Einsum [(n_t1,[0;1]); (n_t2,[2;3;4;5]); (n_v'oovv,[3;6;1;5]); (n_t3,[7;8;6;9;10;11])] [2;7;8;0;9;4;10;11]) (-1) 1);
  (*2405*) AddTo n_t4new (Times (Einsum [(n_t1,[0;1]); (n_t2,[2;3;4;5]); (n_v'oovv,[3;6;1;7]); (n_t3,[8;9;6;10;11;7])] [2;8;9;0;10;11;4;5]) (-1) 1);
  (*2406*) AddTo n_t4new (Plain (Einsum [(n_t1,[0;1]); (n_t2,[2;3;4;5]); (n_v'oovv,[3;6;1;5]); (n_t3,[7;8;6;9;10;11])] [2;7;8;0;9;10;4;11]));
  (*2407*) AddTo n_t4new (Times (Einsum [(n_t1,[0;1]); (n_t2,[2;3;4;5]); (n_v'oovv,[3;6;1;5]); (n_t3,[7;8;6;9;10;11])] [2;7;8;0;9;10;11;4]) (-1) 1);
  (*2408*) AddTo n_t4new (Times (Einsum [(n_t1,[0;1]); (n_t2,[2;3;4;5]); (n_v'oovv,[6;7;1;5]); (n_t3,[8;6;7;9;10;11])] [8;2;3;0;4;9;10;11]) (1) 2);
  (*2409*) AddTo n_t4new (Times (Einsum [(n_t1,[0;1]); (n_t2,[2;3;4;5]); (n_v'oovv,[6;7;1;5]); (n_t3,[8;6;7;9;10;11])] [8;2;3;0;9;4;10;11]) (-1) 2);
  (*2410*) AddTo n_t4new (Times (Einsum [(n_t1,[0;1]); (n_t2,[2;3;4;5]); (n_v'oovv,[6;7;1;5]); (n_t3,[8;6;7;9;10;11])] [8;2;3;0;9;10;4;11]) (1) 2);
  (*2411*) AddTo n_t4new (Times (Einsum [(n_t1,[0;1]); (n_t2,[2;3;4;5]); (n_v'oovv,[6;7;1;5]); (n_t3,[8;6;7;9;10;11])] [8;2;3;0;9;10;11;4]) (-1) 2);
  (*2412*) AddTo n_t4new (Plain (Einsum [(n_t1,[0;1]); (n_t2,[2;3;4;5]); (n_v'oovv,[3;6;1;7]); (n_t3,[8;9;6;10;11;7])] [8;2;9;0;4;5;10;11]));
  (*2413*) AddTo n_t4new (Times (Einsum [(n_t1,[0;1]); (n_t2,[2;3;4;5]); (n_v'oovv,[3;6;1;7]); (n_t3,[8;9;6;10;11;7])] [8;2;9;0;4;10;5;11]) (-1) 1);
  (*2414*) AddTo n_t4new (Plain (Einsum [(n_t1,[0;1]); (n_t2,[2;3;4;5]); (n_v'oovv,[3;6;1;7]); (n_t3,[8;9;6;10;11;7])] [8;2;9;0;4;10;11;5]));
  (*2415*) AddTo n_t4new (Times (Einsum [(n_t1,[0;1]); (n_t2,[2;3;4;5]); (n_v'oovv,[3;6;1;5]); (n_t3,[7;8;6;9;10;11])] [7;2;8;0;4;9;10;11]) (-1) 1);
  (*2416*) AddTo n_t4new (Plain (Einsum [(n_t1,[0;1]); (n_t2,[2;3;4;5]); (n_v'oovv,[3;6;1;7]); (n_t3,[8;9;6;10;11;7])] [8;2;9;0;10;4;5;11]));
  (*2417*) AddTo n_t4new (Times (Einsum [(n_t1,[0;1]); (n_t2,[2;3;4;5]); (n_v'oovv,[3;6;1;7]); (n_t3,[8;9;6;10;11;7])] [8;2;9;0;10;4;11;5]) (-1) 1);
  (*2418*) AddTo n_t4new (Plain (Einsum [(n_t1,[0;1]); (n_t2,[2;3;4;5]); (n_v'oovv,[3;6;1;5]); (n_t3,[7;8;6;9;10;11])] [7;2;8;0;9;4;10;11]));
  (*2419*) AddTo n_t4new (Plain (Einsum [(n_t1,[0;1]); (n_t2,[2;3;4;5]); (n_v'oovv,[3;6;1;7]); (n_t3,[8;9;6;10;11;7])] [8;2;9;0;10;11;4;5]));
  (*2420*) AddTo n_t4new (Times (Einsum [(n_t1,[0;1]); (n_t2,[2;3;4;5]); (n_v'oovv,[3;6;1;5]); (n_t3,[7;8;6;9;10;11])] [7;2;8;0;9;10;4;11]) (-1) 1);
  (*2421*) AddTo n_t4new (Plain (Einsum [(n_t1,[0;1]); (n_t2,[2;3;4;5]); (n_v'oovv,[3;6;1;5]); (n_t3,[7;8;6;9;10;11])] [7;2;8;0;9;10;11;4]));
  (*2422*) AddTo n_t4new (Times (Einsum [(n_t1,[0;1]); (n_t2,[2;3;4;5]); (n_v'oovv,[3;6;1;7]); (n_t3,[8;9;6;10;11;7])] [8;9;2;0;4;5;10;11]) (-1) 1);
  (*2423*) AddTo n_t4new (Plain (Einsum [(n_t1,[0;1]); (n_t2,[2;3;4;5]); (n_v'oovv,[3;6;1;7]); (n_t3,[8;9;6;10;11;7])] [8;9;2;0;4;10;5;11]));
  (*2424*) AddTo n_t4new (Times (Einsum [(n_t1,[0;1]); (n_t2,[2;3;4;5]); (n_v'oovv,[3;6;1;7]); (n_t3,[8;9;6;10;11;7])] [8;9;2;0;4;10;11;5]) (-1) 1);
  (*2425*) AddTo n_t4new (Plain (Einsum [(n_t1,[0;1]); (n_t2,[2;3;4;5]); (n_v'oovv,[3;6;1;5]); (n_t3,[7;8;6;9;10;11])] [7;8;2;0;4;9;10;11]));
  (*2426*) AddTo n_t4new (Times (Einsum [(n_t1,[0;1]); (n_t2,[2;3;4;5]); (n_v'oovv,[3;6;1;7]); (n_t3,[8;9;6;10;11;7])] [8;9;2;0;10;4;5;11]) (-1) 1);
  (*2427*) AddTo n_t4new (Plain (Einsum [(n_t1,[0;1]); (n_t2,[2;3;4;5]); (n_v'oovv,[3;6;1;7]); (n_t3,[8;9;6;10;11;7])] [8;9;2;0;10;4;11;5]));
  (*2428*) AddTo n_t4new (Times (Einsum [(n_t1,[0;1]); (n_t2,[2;3;4;5]); (n_v'oovv,[3;6;1;5]); (n_t3,[7;8;6;9;10;11])] [7;8;2;0;9;4;10;11]) (-1) 1);
  (*2429*) AddTo n_t4new (Times (Einsum [(n_t1,[0;1]); (n_t2,[2;3;4;5]); (n_v'oovv,[3;6;1;7]); (n_t3,[8;9;6;10;11;7])] [8;9;2;0;10;11;4;5]) (-1) 1);
  (*2430*) AddTo n_t4new (Plain (Einsum [(n_t1,[0;1]); (n_t2,[2;3;4;5]); (n_v'oovv,[3;6;1;5]); (n_t3,[7;8;6;9;10;11])] [7;8;2;0;9;10;4;11]));
  (*2431*) AddTo n_t4new (Times (Einsum [(n_t1,[0;1]); (n_t2,[2;3;4;5]); (n_v'oovv,[3;6;1;5]); (n_t3,[7;8;6;9;10;11])] [7;8;2;0;9;10;11;4]) (-1) 1);
  (*2432*) AddTo n_t4new (Times (Einsum [(n_t1,[0;1]); (n_t2,[2;3;4;5]); (n_v'oovv,[2;3;1;6]); (n_t3,[7;8;9;10;11;6])] [7;8;9;0;4;5;10;11]) (-1) 2);
  (*2433*) AddTo n_t4new (Times (Einsum [(n_t1,[0;1]); (n_t2,[2;3;4;5]); (n_v'oovv,[2;3;1;6]); (n_t3,[7;8;9;10;11;6])] [7;8;9;0;4;10;5;11]) (1) 2);
  (*2434*) AddTo n_t4new (Times (Einsum [(n_t1,[0;1]); (n_t2,[2;3;4;5]); (n_v'oovv,[2;3;1;6]); (n_t3,[7;8;9;10;11;6])] [7;8;9;0;4;10;11;5]) (-1) 2);
  (*2435*) AddTo n_t4new (Times (Einsum [(n_t1,[0;1]); (n_t2,[2;3;4;5]); (n_v'oovv,[2;3;1;6]); (n_t3,[7;8;9;10;11;6])] [7;8;9;0;10;4;5;11]) (-1) 2);
  (*2436*) AddTo n_t4new (Times (Einsum [(n_t1,[0;1]); (n_t2,[2;3;4;5]); (n_v'oovv,[2;3;1;6]); (n_t3,[7;8;9;10;11;6])] [7;8;9;0;10;4;11;5]) (1) 2);
  (*2437*) AddTo n_t4new (Times (Einsum [(n_t1,[0;1]); (n_t2,[2;3;4;5]); (n_v'oovv,[2;3;1;6]); (n_t3,[7;8;9;10;11;6])] [7;8;9;0;10;11;4;5]) (-1) 2);
  (*2438*) AddTo n_t4new (Plain (Einsum [(n_t1,[0;1]); (n_t2,[2;3;4;5]); (n_v'oovv,[0;6;5;7]); (n_t3,[8;9;6;10;11;7])] [2;3;8;9;1;4;10;11]));
  (*2439*) AddTo n_t4new (Times (Einsum [(n_t1,[0;1]); (n_t2,[2;3;4;5]); (n_v'oovv,[0;6;5;7]); (n_t3,[8;9;6;10;11;7])] [2;3;8;9;1;10;4;11]) (-1) 1);
  (*2440*) AddTo n_t4new (Plain (Einsum [(n_t1,[0;1]); (n_t2,[2;3;4;5]); (n_v'oovv,[0;6;5;7]); (n_t3,[8;9;6;10;11;7])] [2;3;8;9;1;10;11;4]));
  (*2441*) AddTo n_t4new (Times (Einsum [(n_t1,[0;1]); (n_t2,[2;3;4;5]); (n_v'oovv,[0;6;4;5]); (n_t3,[7;8;6;9;10;11])] [2;3;7;8;1;9;10;11]) (1) 2);
  (*2442*) AddTo n_t4new (Times (Einsum [(n_t1,[0;1]); (n_t2,[2;3;4;5]); (n_v'oovv,[0;6;5;7]); (n_t3,[8;9;6;10;11;7])] [2;8;3;9;1;4;10;11]) (-1) 1);
  (*2443*) AddTo n_t4new (Plain (Einsum [(n_t1,[0;1]); (n_t2,[2;3;4;5]); (n_v'oovv,[0;6;5;7]); (n_t3,[8;9;6;10;11;7])] [2;8;3;9;1;10;4;11]));
  (*2444*) AddTo n_t4new (Times (Einsum [(n_t1,[0;1]); (n_t2,[2;3;4;5]); (n_v'oovv,[0;6;5;7]); (n_t3,[8;9;6;10;11;7])] [2;8;3;9;1;10;11;4]) (-1) 1);
  (*2445*) AddTo n_t4new (Times (Einsum [(n_t1,[0;1]); (n_t2,[2;3;4;5]); (n_v'oovv,[0;6;4;5]); (n_t3,[7;8;6;9;10;11])] [2;7;3;8;1;9;10;11]) (-1) 2);
  (*2446*) AddTo n_t4new (Plain (Einsum [(n_t1,[0;1]); (n_t2,[2;3;4;5]); (n_v'oovv,[0;6;5;7]); (n_t3,[8;9;6;10;11;7])] [2;8;9;3;1;4;10;11]));
  (*2447*) AddTo n_t4new (Times (Einsum [(n_t1,[0;1]); (n_t2,[2;3;4;5]); (n_v'oovv,[0;6;5;7]); (n_t3,[8;9;6;10;11;7])] [2;8;9;3;1;10;4;11]) (-1) 1);
  (*2448*) AddTo n_t4new (Plain (Einsum [(n_t1,[0;1]); (n_t2,[2;3;4;5]); (n_v'oovv,[0;6;5;7]); (n_t3,[8;9;6;10;11;7])] [2;8;9;3;1;10;11;4]));
  (*2449*) AddTo n_t4new (Times (Einsum [(n_t1,[0;1]); (n_t2,[2;3;4;5]); (n_v'oovv,[0;6;4;5]); (n_t3,[7;8;6;9;10;11])] [2;7;8;3;1;9;10;11]) (1) 2);
  (*2450*) AddTo n_t4new (Times (Einsum [(n_t1,[0;1]); (n_t2,[2;3;4;5]); (n_v'oovv,[0;3;6;7]); (n_t3,[8;9;10;11;6;7])] [2;8;9;10;1;4;5;11]) (-1) 2);
  (*2451*) AddTo n_t4new (Times (Einsum [(n_t1,[0;1]); (n_t2,[2;3;4;5]); (n_v'oovv,[0;3;6;7]); (n_t3,[8;9;10;11;6;7])] [2;8;9;10;1;4;11;5]) (1) 2);
  (*2452*) AddTo n_t4new (Times (Einsum [(n_t1,[0;1]); (n_t2,[2;3;4;5]); (n_v'oovv,[0;3;5;6]); (n_t3,[7;8;9;10;11;6])] [2;7;8;9;1;4;10;11]) (-1) 1);
  (*2453*) AddTo n_t4new (Times (Einsum [(n_t1,[0;1]); (n_t2,[2;3;4;5]); (n_v'oovv,[0;3;6;7]); (n_t3,[8;9;10;11;6;7])] [2;8;9;10;1;11;4;5]) (-1) 2);
  (*2454*) AddTo n_t4new (Plain (Einsum [(n_t1,[0;1]); (n_t2,[2;3;4;5]); (n_v'oovv,[0;3;5;6]); (n_t3,[7;8;9;10;11;6])] [2;7;8;9;1;10;4;11]));
  (*2455*) AddTo n_t4new (Times (Einsum [(n_t1,[0;1]); (n_t2,[2;3;4;5]); (n_v'oovv,[0;3;5;6]); (n_t3,[7;8;9;10;11;6])] [2;7;8;9;1;10;11;4]) (-1) 1);
  (*2456*) AddTo n_t4new (Plain (Einsum [(n_t1,[0;1]); (n_t2,[2;3;4;5]); (n_v'oovv,[0;6;5;7]); (n_t3,[8;9;6;10;11;7])] [8;2;3;9;1;4;10;11]));
  (*2457*) AddTo n_t4new (Times (Einsum [(n_t1,[0;1]); (n_t2,[2;3;4;5]); (n_v'oovv,[0;6;5;7]); (n_t3,[8;9;6;10;11;7])] [8;2;3;9;1;10;4;11]) (-1) 1);
  (*2458*) AddTo n_t4new (Plain (Einsum [(n_t1,[0;1]); (n_t2,[2;3;4;5]); (n_v'oovv,[0;6;5;7]); (n_t3,[8;9;6;10;11;7])] [8;2;3;9;1;10;11;4]));
  (*2459*) AddTo n_t4new (Times (Einsum [(n_t1,[0;1]); (n_t2,[2;3;4;5]); (n_v'oovv,[0;6;4;5]); (n_t3,[7;8;6;9;10;11])] [7;2;3;8;1;9;10;11]) (1) 2);
  (*2460*) AddTo n_t4new (Times (Einsum [(n_t1,[0;1]); (n_t2,[2;3;4;5]); (n_v'oovv,[0;6;5;7]); (n_t3,[8;9;6;10;11;7])] [8;2;9;3;1;4;10;11]) (-1) 1);
  (*2461*) AddTo n_t4new (Plain (Einsum [(n_t1,[0;1]); (n_t2,[2;3;4;5]); (n_v'oovv,[0;6;5;7]); (n_t3,[8;9;6;10;11;7])] [8;2;9;3;1;10;4;11]));
  (*2462*) AddTo n_t4new (Times (Einsum [(n_t1,[0;1]); (n_t2,[2;3;4;5]); (n_v'oovv,[0;6;5;7]); (n_t3,[8;9;6;10;11;7])] [8;2;9;3;1;10;11;4]) (-1) 1);
  (*2463*) AddTo n_t4new (Times (Einsum [(n_t1,[0;1]); (n_t2,[2;3;4;5]); (n_v'oovv,[0;6;4;5]); (n_t3,[7;8;6;9;10;11])] [7;2;8;3;1;9;10;11]) (-1) 2);
  (*2464*) AddTo n_t4new (Times (Einsum [(n_t1,[0;1]); (n_t2,[2;3;4;5]); (n_v'oovv,[0;3;6;7]); (n_t3,[8;9;10;11;6;7])] [8;2;9;10;1;4;5;11]) (1) 2);
  (*2465*) AddTo n_t4new (Times (Einsum [(n_t1,[0;1]); (n_t2,[2;3;4;5]); (n_v'oovv,[0;3;6;7]); (n_t3,[8;9;10;11;6;7])] [8;2;9;10;1;4;11;5]) (-1) 2);
  (*2466*) AddTo n_t4new (Plain (Einsum [(n_t1,[0;1]); (n_t2,[2;3;4;5]); (n_v'oovv,[0;3;5;6]); (n_t3,[7;8;9;10;11;6])] [7;2;8;9;1;4;10;11]));
  (*2467*) AddTo n_t4new (Times (Einsum [(n_t1,[0;1]); (n_t2,[2;3;4;5]); (n_v'oovv,[0;3;6;7]); (n_t3,[8;9;10;11;6;7])] [8;2;9;10;1;11;4;5]) (1) 2);
  (*2468*) AddTo n_t4new (Times (Einsum [(n_t1,[0;1]); (n_t2,[2;3;4;5]); (n_v'oovv,[0;3;5;6]); (n_t3,[7;8;9;10;11;6])] [7;2;8;9;1;10;4;11]) (-1) 1);
  (*2469*) AddTo n_t4new (Plain (Einsum [(n_t1,[0;1]); (n_t2,[2;3;4;5]); (n_v'oovv,[0;3;5;6]); (n_t3,[7;8;9;10;11;6])] [7;2;8;9;1;10;11;4]));
  (*2470*) AddTo n_t4new (Plain (Einsum [(n_t1,[0;1]); (n_t2,[2;3;4;5]); (n_v'oovv,[0;6;5;7]); (n_t3,[8;9;6;10;11;7])] [8;9;2;3;1;4;10;11]));
  (*2471*) AddTo n_t4new (Times (Einsum [(n_t1,[0;1]); (n_t2,[2;3;4;5]); (n_v'oovv,[0;6;5;7]); (n_t3,[8;9;6;10;11;7])] [8;9;2;3;1;10;4;11]) (-1) 1);
  (*2472*) AddTo n_t4new (Plain (Einsum [(n_t1,[0;1]); (n_t2,[2;3;4;5]); (n_v'oovv,[0;6;5;7]); (n_t3,[8;9;6;10;11;7])] [8;9;2;3;1;10;11;4]));
  (*2473*) AddTo n_t4new (Times (Einsum [(n_t1,[0;1]); (n_t2,[2;3;4;5]); (n_v'oovv,[0;6;4;5]); (n_t3,[7;8;6;9;10;11])] [7;8;2;3;1;9;10;11]) (1) 2);
  (*2474*) AddTo n_t4new (Times (Einsum [(n_t1,[0;1]); (n_t2,[2;3;4;5]); (n_v'oovv,[0;3;6;7]); (n_t3,[8;9;10;11;6;7])] [8;9;2;10;1;4;5;11]) (-1) 2);
  (*2475*) AddTo n_t4new (Times (Einsum [(n_t1,[0;1]); (n_t2,[2;3;4;5]); (n_v'oovv,[0;3;6;7]); (n_t3,[8;9;10;11;6;7])] [8;9;2;10;1;4;11;5]) (1) 2);
  (*2476*) AddTo n_t4new (Times (Einsum [(n_t1,[0;1]); (n_t2,[2;3;4;5]); (n_v'oovv,[0;3;5;6]); (n_t3,[7;8;9;10;11;6])] [7;8;2;9;1;4;10;11]) (-1) 1);
  (*2477*) AddTo n_t4new (Times (Einsum [(n_t1,[0;1]); (n_t2,[2;3;4;5]); (n_v'oovv,[0;3;6;7]); (n_t3,[8;9;10;11;6;7])] [8;9;2;10;1;11;4;5]) (-1) 2);
  (*2478*) AddTo n_t4new (Plain (Einsum [(n_t1,[0;1]); (n_t2,[2;3;4;5]); (n_v'oovv,[0;3;5;6]); (n_t3,[7;8;9;10;11;6])] [7;8;2;9;1;10;4;11]));
  (*2479*) AddTo n_t4new (Times (Einsum [(n_t1,[0;1]); (n_t2,[2;3;4;5]); (n_v'oovv,[0;3;5;6]); (n_t3,[7;8;9;10;11;6])] [7;8;2;9;1;10;11;4]) (-1) 1);
  (*2480*) AddTo n_t4new (Times (Einsum [(n_t1,[0;1]); (n_t2,[2;3;4;5]); (n_v'oovv,[0;3;6;7]); (n_t3,[8;9;10;11;6;7])] [8;9;10;2;1;4;5;11]) (1) 2);
  (*2481*) AddTo n_t4new (Times (Einsum [(n_t1,[0;1]); (n_t2,[2;3;4;5]); (n_v'oovv,[0;3;6;7]); (n_t3,[8;9;10;11;6;7])] [8;9;10;2;1;4;11;5]) (-1) 2);
  (*2482*) AddTo n_t4new (Plain (Einsum [(n_t1,[0;1]); (n_t2,[2;3;4;5]); (n_v'oovv,[0;3;5;6]); (n_t3,[7;8;9;10;11;6])] [7;8;9;2;1;4;10;11]));
  (*2483*) AddTo n_t4new (Times (Einsum [(n_t1,[0;1]); (n_t2,[2;3;4;5]); (n_v'oovv,[0;3;6;7]); (n_t3,[8;9;10;11;6;7])] [8;9;10;2;1;11;4;5]) (1) 2);
  (*2484*) AddTo n_t4new (Times (Einsum [(n_t1,[0;1]); (n_t2,[2;3;4;5]); (n_v'oovv,[0;3;5;6]); (n_t3,[7;8;9;10;11;6])] [7;8;9;2;1;10;4;11]) (-1) 1);
  (*2485*) AddTo n_t4new (Plain (Einsum [(n_t1,[0;1]); (n_t2,[2;3;4;5]); (n_v'oovv,[0;3;5;6]); (n_t3,[7;8;9;10;11;6])] [7;8;9;2;1;10;11;4]));
  (*2486*) AddTo n_t4new (Times (Einsum [(n_t1,[0;1]); (n_t2,[2;3;4;5]); (n_v'oovv,[0;6;5;7]); (n_t3,[8;9;6;10;11;7])] [2;3;8;9;4;1;10;11]) (-1) 1);
  (*2487*) AddTo n_t4new (Plain (Einsum [(n_t1,[0;1]); (n_t2,[2;3;4;5]); (n_v'oovv,[0;6;5;7]); (n_t3,[8;9;6;10;11;7])] [2;3;8;9;10;1;4;11]));
  (*2488*) AddTo n_t4new (Times (Einsum [(n_t1,[0;1]); (n_t2,[2;3;4;5]); (n_v'oovv,[0;6;5;7]); (n_t3,[8;9;6;10;11;7])] [2;3;8;9;10;1;11;4]) (-1) 1);
  (*2489*) AddTo n_t4new (Times (Einsum [(n_t1,[0;1]); (n_t2,[2;3;4;5]); (n_v'oovv,[0;6;4;5]); (n_t3,[7;8;6;9;10;11])] [2;3;7;8;9;1;10;11]) (-1) 2);
  (*2490*) AddTo n_t4new (Plain (Einsum [(n_t1,[0;1]); (n_t2,[2;3;4;5]); (n_v'oovv,[0;6;5;7]); (n_t3,[8;9;6;10;11;7])] [2;8;3;9;4;1;10;11]));
  (*2491*) AddTo n_t4new (Times (Einsum [(n_t1,[0;1]); (n_t2,[2;3;4;5]); (n_v'oovv,[0;6;5;7]); (n_t3,[8;9;6;10;11;7])] [2;8;3;9;10;1;4;11]) (-1) 1);
  (*2492*) AddTo n_t4new (Plain (Einsum [(n_t1,[0;1]); (n_t2,[2;3;4;5]); (n_v'oovv,[0;6;5;7]); (n_t3,[8;9;6;10;11;7])] [2;8;3;9;10;1;11;4]));
  (*2493*) AddTo n_t4new (Times (Einsum [(n_t1,[0;1]); (n_t2,[2;3;4;5]); (n_v'oovv,[0;6;4;5]); (n_t3,[7;8;6;9;10;11])] [2;7;3;8;9;1;10;11]) (1) 2);
  (*2494*) AddTo n_t4new (Times (Einsum [(n_t1,[0;1]); (n_t2,[2;3;4;5]); (n_v'oovv,[0;6;5;7]); (n_t3,[8;9;6;10;11;7])] [2;8;9;3;4;1;10;11]) (-1) 1);
  (*2495*) AddTo n_t4new (Plain (Einsum [(n_t1,[0;1]); (n_t2,[2;3;4;5]); (n_v'oovv,[0;6;5;7]); (n_t3,[8;9;6;10;11;7])] [2;8;9;3;10;1;4;11]));
  (*2496*) AddTo n_t4new (Times (Einsum [(n_t1,[0;1]); (n_t2,[2;3;4;5]); (n_v'oovv,[0;6;5;7]); (n_t3,[8;9;6;10;11;7])] [2;8;9;3;10;1;11;4]) (-1) 1);
  (*2497*) AddTo n_t4new (Times (Einsum [(n_t1,[0;1]); (n_t2,[2;3;4;5]); (n_v'oovv,[0;6;4;5]); (n_t3,[7;8;6;9;10;11])] [2;7;8;3;9;1;10;11]) (-1) 2);
  (*2498*) AddTo n_t4new (Times (Einsum [(n_t1,[0;1]); (n_t2,[2;3;4;5]); (n_v'oovv,[0;3;6;7]); (n_t3,[8;9;10;11;6;7])] [2;8;9;10;4;1;5;11]) (1) 2);
  (*2499*) AddTo n_t4new (Times (Einsum [(n_t1,[0;1]); (n_t2,[2;3;4;5]); (n_v'oovv,[0;3;6;7]); (n_t3,[8;9;10;11;6;7])] [2;8;9;10;4;1;11;5]) (-1) 2);
  (*2500*) AddTo n_t4new (Plain (Einsum [(n_t1,[0;1]); (n_t2,[2;3;4;5]); (n_v'oovv,[0;3;5;6]); (n_t3,[7;8;9;10;11;6])] [2;7;8;9;4;1;10;11]));
  (*2501*) AddTo n_t4new (Times (Einsum [(n_t1,[0;1]); (n_t2,[2;3;4;5]); (n_v'oovv,[0;3;6;7]); (n_t3,[8;9;10;11;6;7])] [2;8;9;10;11;1;4;5]) (1) 2);
  (*2502*) AddTo n_t4new (Times (Einsum [(n_t1,[0;1]); (n_t2,[2;3;4;5]); (n_v'oovv,[0;3;5;6]); (n_t3,[7;8;9;10;11;6])] [2;7;8;9;10;1;4;11]) (-1) 1);
  (*2503*) AddTo n_t4new (Plain (Einsum [(n_t1,[0;1]); (n_t2,[2;3;4;5]); (n_v'oovv,[0;3;5;6]); (n_t3,[7;8;9;10;11;6])] [2;7;8;9;10;1;11;4]));
  (*2504*) AddTo n_t4new (Times (Einsum [(n_t1,[0;1]); (n_t2,[2;3;4;5]); (n_v'oovv,[0;6;5;7]); (n_t3,[8;9;6;10;11;7])] [8;2;3;9;4;1;10;11]) (-1) 1);
  (*2505*) AddTo n_t4new (Plain (Einsum [(n_t1,[0;1]); (n_t2,[2;3;4;5]); (n_v'oovv,[0;6;5;7]); (n_t3,[8;9;6;10;11;7])] [8;2;3;9;10;1;4;11]));
  (*2506*) AddTo n_t4new (Times (Einsum [(n_t1,[0;1]); (n_t2,[2;3;4;5]); (n_v'oovv,[0;6;5;7]); (n_t3,[8;9;6;10;11;7])] [8;2;3;9;10;1;11;4]) (-1) 1);
  (*2507*) AddTo n_t4new (Times (Einsum [(n_t1,[0;1]); (n_t2,[2;3;4;5]); (n_v'oovv,[0;6;4;5]); (n_t3,[7;8;6;9;10;11])] [7;2;3;8;9;1;10;11]) (-1) 2);
  (*2508*) AddTo n_t4new (Plain (Einsum [(n_t1,[0;1]); (n_t2,[2;3;4;5]); (n_v'oovv,[0;6;5;7]); (n_t3,[8;9;6;10;11;7])] [8;2;9;3;4;1;10;11]));
  (*2509*) AddTo n_t4new (Times (Einsum [(n_t1,[0;1]); (n_t2,[2;3;4;5]); (n_v'oovv,[0;6;5;7]); (n_t3,[8;9;6;10;11;7])] [8;2;9;3;10;1;4;11]) (-1) 1);
  (*2510*) AddTo n_t4new (Plain (Einsum [(n_t1,[0;1]); (n_t2,[2;3;4;5]); (n_v'oovv,[0;6;5;7]); (n_t3,[8;9;6;10;11;7])] [8;2;9;3;10;1;11;4]));
  (*2511*) AddTo n_t4new (Times (Einsum [(n_t1,[0;1]); (n_t2,[2;3;4;5]); (n_v'oovv,[0;6;4;5]); (n_t3,[7;8;6;9;10;11])] [7;2;8;3;9;1;10;11]) (1) 2);
  (*2512*) AddTo n_t4new (Times (Einsum [(n_t1,[0;1]); (n_t2,[2;3;4;5]); (n_v'oovv,[0;3;6;7]); (n_t3,[8;9;10;11;6;7])] [8;2;9;10;4;1;5;11]) (-1) 2);
  (*2513*) AddTo n_t4new (Times (Einsum [(n_t1,[0;1]); (n_t2,[2;3;4;5]); (n_v'oovv,[0;3;6;7]); (n_t3,[8;9;10;11;6;7])] [8;2;9;10;4;1;11;5]) (1) 2);
  (*2514*) AddTo n_t4new (Times (Einsum [(n_t1,[0;1]); (n_t2,[2;3;4;5]); (n_v'oovv,[0;3;5;6]); (n_t3,[7;8;9;10;11;6])] [7;2;8;9;4;1;10;11]) (-1) 1);
  (*2515*) AddTo n_t4new (Times (Einsum [(n_t1,[0;1]); (n_t2,[2;3;4;5]); (n_v'oovv,[0;3;6;7]); (n_t3,[8;9;10;11;6;7])] [8;2;9;10;11;1;4;5]) (-1) 2);
  (*2516*) AddTo n_t4new (Plain (Einsum [(n_t1,[0;1]); (n_t2,[2;3;4;5]); (n_v'oovv,[0;3;5;6]); (n_t3,[7;8;9;10;11;6])] [7;2;8;9;10;1;4;11]));
  (*2517*) AddTo n_t4new (Times (Einsum [(n_t1,[0;1]); (n_t2,[2;3;4;5]); (n_v'oovv,[0;3;5;6]); (n_t3,[7;8;9;10;11;6])] [7;2;8;9;10;1;11;4]) (-1) 1);
  (*2518*) AddTo n_t4new (Times (Einsum [(n_t1,[0;1]); (n_t2,[2;3;4;5]); (n_v'oovv,[0;6;5;7]); (n_t3,[8;9;6;10;11;7])] [8;9;2;3;4;1;10;11]) (-1) 1);
  (*2519*) AddTo n_t4new (Plain (Einsum [(n_t1,[0;1]); (n_t2,[2;3;4;5]); (n_v'oovv,[0;6;5;7]); (n_t3,[8;9;6;10;11;7])] [8;9;2;3;10;1;4;11]));
  (*2520*) AddTo n_t4new (Times (Einsum [(n_t1,[0;1]); (n_t2,[2;3;4;5]); (n_v'oovv,[0;6;5;7]); (n_t3,[8;9;6;10;11;7])] [8;9;2;3;10;1;11;4]) (-1) 1);
  (*2521*) AddTo n_t4new (Times (Einsum [(n_t1,[0;1]); (n_t2,[2;3;4;5]); (n_v'oovv,[0;6;4;5]); (n_t3,[7;8;6;9;10;11])] [7;8;2;3;9;1;10;11]) (-1) 2);
  (*2522*) AddTo n_t4new (Times (Einsum [(n_t1,[0;1]); (n_t2,[2;3;4;5]); (n_v'oovv,[0;3;6;7]); (n_t3,[8;9;10;11;6;7])] [8;9;2;10;4;1;5;11]) (1) 2);
  (*2523*) AddTo n_t4new (Times (Einsum [(n_t1,[0;1]); (n_t2,[2;3;4;5]); (n_v'oovv,[0;3;6;7]); (n_t3,[8;9;10;11;6;7])] [8;9;2;10;4;1;11;5]) (-1) 2);
  (*2524*) AddTo n_t4new (Plain (Einsum [(n_t1,[0;1]); (n_t2,[2;3;4;5]); (n_v'oovv,[0;3;5;6]); (n_t3,[7;8;9;10;11;6])] [7;8;2;9;4;1;10;11]));
  (*2525*) AddTo n_t4new (Times (Einsum [(n_t1,[0;1]); (n_t2,[2;3;4;5]); (n_v'oovv,[0;3;6;7]); (n_t3,[8;9;10;11;6;7])] [8;9;2;10;11;1;4;5]) (1) 2);
  (*2526*) AddTo n_t4new (Times (Einsum [(n_t1,[0;1]); (n_t2,[2;3;4;5]); (n_v'oovv,[0;3;5;6]); (n_t3,[7;8;9;10;11;6])] [7;8;2;9;10;1;4;11]) (-1) 1);
  (*2527*) AddTo n_t4new (Plain (Einsum [(n_t1,[0;1]); (n_t2,[2;3;4;5]); (n_v'oovv,[0;3;5;6]); (n_t3,[7;8;9;10;11;6])] [7;8;2;9;10;1;11;4]));
  (*2528*) AddTo n_t4new (Times (Einsum [(n_t1,[0;1]); (n_t2,[2;3;4;5]); (n_v'oovv,[0;3;6;7]); (n_t3,[8;9;10;11;6;7])] [8;9;10;2;4;1;5;11]) (-1) 2);
  (*2529*) AddTo n_t4new (Times (Einsum [(n_t1,[0;1]); (n_t2,[2;3;4;5]); (n_v'oovv,[0;3;6;7]); (n_t3,[8;9;10;11;6;7])] [8;9;10;2;4;1;11;5]) (1) 2);
  (*2530*) AddTo n_t4new (Times (Einsum [(n_t1,[0;1]); (n_t2,[2;3;4;5]); (n_v'oovv,[0;3;5;6]); (n_t3,[7;8;9;10;11;6])] [7;8;9;2;4;1;10;11]) (-1) 1);
  (*2531*) AddTo n_t4new (Times (Einsum [(n_t1,[0;1]); (n_t2,[2;3;4;5]); (n_v'oovv,[0;3;6;7]); (n_t3,[8;9;10;11;6;7])] [8;9;10;2;11;1;4;5]) (-1) 2);
  (*2532*) AddTo n_t4new (Plain (Einsum [(n_t1,[0;1]); (n_t2,[2;3;4;5]); (n_v'oovv,[0;3;5;6]); (n_t3,[7;8;9;10;11;6])] [7;8;9;2;10;1;4;11]));
  (*2533*) AddTo n_t4new (Times (Einsum [(n_t1,[0;1]); (n_t2,[2;3;4;5]); (n_v'oovv,[0;3;5;6]); (n_t3,[7;8;9;10;11;6])] [7;8;9;2;10;1;11;4]) (-1) 1);
  (*2534*) AddTo n_t4new (Plain (Einsum [(n_t1,[0;1]); (n_t2,[2;3;4;5]); (n_v'oovv,[0;6;5;7]); (n_t3,[8;9;6;10;11;7])] [2;3;8;9;4;10;1;11]));
  (*2535*) AddTo n_t4new (Times (Einsum [(n_t1,[0;1]); (n_t2,[2;3;4;5]); (n_v'oovv,[0;6;5;7]); (n_t3,[8;9;6;10;11;7])] [2;3;8;9;10;4;1;11]) (-1) 1);
  (*2536*) AddTo n_t4new (Plain (Einsum [(n_t1,[0;1]); (n_t2,[2;3;4;5]); (n_v'oovv,[0;6;5;7]); (n_t3,[8;9;6;10;11;7])] [2;3;8;9;10;11;1;4]));
  (*2537*) AddTo n_t4new (Times (Einsum [(n_t1,[0;1]); (n_t2,[2;3;4;5]); (n_v'oovv,[0;6;4;5]); (n_t3,[7;8;6;9;10;11])] [2;3;7;8;9;10;1;11]) (1) 2);
  (*2538*) AddTo n_t4new (Times (Einsum [(n_t1,[0;1]); (n_t2,[2;3;4;5]); (n_v'oovv,[0;6;5;7]); (n_t3,[8;9;6;10;11;7])] [2;8;3;9;4;10;1;11]) (-1) 1);
  (*2539*) AddTo n_t4new (Plain (Einsum [(n_t1,[0;1]); (n_t2,[2;3;4;5]); (n_v'oovv,[0;6;5;7]); (n_t3,[8;9;6;10;11;7])] [2;8;3;9;10;4;1;11]));
  (*2540*) AddTo n_t4new (Times (Einsum [(n_t1,[0;1]); (n_t2,[2;3;4;5]); (n_v'oovv,[0;6;5;7]); (n_t3,[8;9;6;10;11;7])] [2;8;3;9;10;11;1;4]) (-1) 1);
  (*2541*) AddTo n_t4new (Times (Einsum [(n_t1,[0;1]); (n_t2,[2;3;4;5]); (n_v'oovv,[0;6;4;5]); (n_t3,[7;8;6;9;10;11])] [2;7;3;8;9;10;1;11]) (-1) 2);
  (*2542*) AddTo n_t4new (Plain (Einsum [(n_t1,[0;1]); (n_t2,[2;3;4;5]); (n_v'oovv,[0;6;5;7]); (n_t3,[8;9;6;10;11;7])] [2;8;9;3;4;10;1;11]));
  (*2543*) AddTo n_t4new (Times (Einsum [(n_t1,[0;1]); (n_t2,[2;3;4;5]); (n_v'oovv,[0;6;5;7]); (n_t3,[8;9;6;10;11;7])] [2;8;9;3;10;4;1;11]) (-1) 1);
  (*2544*) AddTo n_t4new (Plain (Einsum [(n_t1,[0;1]); (n_t2,[2;3;4;5]); (n_v'oovv,[0;6;5;7]); (n_t3,[8;9;6;10;11;7])] [2;8;9;3;10;11;1;4]));
  (*2545*) AddTo n_t4new (Times (Einsum [(n_t1,[0;1]); (n_t2,[2;3;4;5]); (n_v'oovv,[0;6;4;5]); (n_t3,[7;8;6;9;10;11])] [2;7;8;3;9;10;1;11]) (1) 2);
  (*2546*) AddTo n_t4new (Times (Einsum [(n_t1,[0;1]); (n_t2,[2;3;4;5]); (n_v'oovv,[0;3;6;7]); (n_t3,[8;9;10;11;6;7])] [2;8;9;10;4;5;1;11]) (-1) 2);
  (*2547*) AddTo n_t4new (Times (Einsum [(n_t1,[0;1]); (n_t2,[2;3;4;5]); (n_v'oovv,[0;3;6;7]); (n_t3,[8;9;10;11;6;7])] [2;8;9;10;4;11;1;5]) (1) 2);
  (*2548*) AddTo n_t4new (Times (Einsum [(n_t1,[0;1]); (n_t2,[2;3;4;5]); (n_v'oovv,[0;3;5;6]); (n_t3,[7;8;9;10;11;6])] [2;7;8;9;4;10;1;11]) (-1) 1);
  (*2549*) AddTo n_t4new (Times (Einsum [(n_t1,[0;1]); (n_t2,[2;3;4;5]); (n_v'oovv,[0;3;6;7]); (n_t3,[8;9;10;11;6;7])] [2;8;9;10;11;4;1;5]) (-1) 2);
  (*2550*) AddTo n_t4new (Plain (Einsum [(n_t1,[0;1]); (n_t2,[2;3;4;5]); (n_v'oovv,[0;3;5;6]); (n_t3,[7;8;9;10;11;6])] [2;7;8;9;10;4;1;11]));
  (*2551*) AddTo n_t4new (Times (Einsum [(n_t1,[0;1]); (n_t2,[2;3;4;5]); (n_v'oovv,[0;3;5;6]); (n_t3,[7;8;9;10;11;6])] [2;7;8;9;10;11;1;4]) (-1) 1);
  (*2552*) AddTo n_t4new (Plain (Einsum [(n_t1,[0;1]); (n_t2,[2;3;4;5]); (n_v'oovv,[0;6;5;7]); (n_t3,[8;9;6;10;11;7])] [8;2;3;9;4;10;1;11]));
  (*2553*) AddTo n_t4new (Times (Einsum [(n_t1,[0;1]); (n_t2,[2;3;4;5]); (n_v'oovv,[0;6;5;7]); (n_t3,[8;9;6;10;11;7])] [8;2;3;9;10;4;1;11]) (-1) 1);
  (*2554*) AddTo n_t4new (Plain (Einsum [(n_t1,[0;1]); (n_t2,[2;3;4;5]); (n_v'oovv,[0;6;5;7]); (n_t3,[8;9;6;10;11;7])] [8;2;3;9;10;11;1;4]));
  (*2555*) AddTo n_t4new (Times (Einsum [(n_t1,[0;1]); (n_t2,[2;3;4;5]); (n_v'oovv,[0;6;4;5]); (n_t3,[7;8;6;9;10;11])] [7;2;3;8;9;10;1;11]) (1) 2);
  (*2556*) AddTo n_t4new (Times (Einsum [(n_t1,[0;1]); (n_t2,[2;3;4;5]); (n_v'oovv,[0;6;5;7]); (n_t3,[8;9;6;10;11;7])] [8;2;9;3;4;10;1;11]) (-1) 1);
  (*2557*) AddTo n_t4new (Plain (Einsum [(n_t1,[0;1]); (n_t2,[2;3;4;5]); (n_v'oovv,[0;6;5;7]); (n_t3,[8;9;6;10;11;7])] [8;2;9;3;10;4;1;11]));
  (*2558*) AddTo n_t4new (Times (Einsum [(n_t1,[0;1]); (n_t2,[2;3;4;5]); (n_v'oovv,[0;6;5;7]); (n_t3,[8;9;6;10;11;7])] [8;2;9;3;10;11;1;4]) (-1) 1);
  (*2559*) AddTo n_t4new (Times (Einsum [(n_t1,[0;1]); (n_t2,[2;3;4;5]); (n_v'oovv,[0;6;4;5]); (n_t3,[7;8;6;9;10;11])] [7;2;8;3;9;10;1;11]) (-1) 2);
  (*2560*) AddTo n_t4new (Times (Einsum [(n_t1,[0;1]); (n_t2,[2;3;4;5]); (n_v'oovv,[0;3;6;7]); (n_t3,[8;9;10;11;6;7])] [8;2;9;10;4;5;1;11]) (1) 2);
  (*2561*) AddTo n_t4new (Times (Einsum [(n_t1,[0;1]); (n_t2,[2;3;4;5]); (n_v'oovv,[0;3;6;7]); (n_t3,[8;9;10;11;6;7])] [8;2;9;10;4;11;1;5]) (-1) 2);
  (*2562*) AddTo n_t4new (Plain (Einsum [(n_t1,[0;1]); (n_t2,[2;3;4;5]); (n_v'oovv,[0;3;5;6]); (n_t3,[7;8;9;10;11;6])] [7;2;8;9;4;10;1;11]));
  (*2563*) AddTo n_t4new (Times (Einsum [(n_t1,[0;1]); (n_t2,[2;3;4;5]); (n_v'oovv,[0;3;6;7]); (n_t3,[8;9;10;11;6;7])] [8;2;9;10;11;4;1;5]) (1) 2);
  (*2564*) AddTo n_t4new (Times (Einsum [(n_t1,[0;1]); (n_t2,[2;3;4;5]); (n_v'oovv,[0;3;5;6]); (n_t3,[7;8;9;10;11;6])] [7;2;8;9;10;4;1;11]) (-1) 1);
  (*2565*) AddTo n_t4new (Plain (Einsum [(n_t1,[0;1]); (n_t2,[2;3;4;5]); (n_v'oovv,[0;3;5;6]); (n_t3,[7;8;9;10;11;6])] [7;2;8;9;10;11;1;4]));
  (*2566*) AddTo n_t4new (Plain (Einsum [(n_t1,[0;1]); (n_t2,[2;3;4;5]); (n_v'oovv,[0;6;5;7]); (n_t3,[8;9;6;10;11;7])] [8;9;2;3;4;10;1;11]));
  (*2567*) AddTo n_t4new (Times (Einsum [(n_t1,[0;1]); (n_t2,[2;3;4;5]); (n_v'oovv,[0;6;5;7]); (n_t3,[8;9;6;10;11;7])] [8;9;2;3;10;4;1;11]) (-1) 1);
  (*2568*) AddTo n_t4new (Plain (Einsum [(n_t1,[0;1]); (n_t2,[2;3;4;5]); (n_v'oovv,[0;6;5;7]); (n_t3,[8;9;6;10;11;7])] [8;9;2;3;10;11;1;4]));
  (*2569*) AddTo n_t4new (Times (Einsum [(n_t1,[0;1]); (n_t2,[2;3;4;5]); (n_v'oovv,[0;6;4;5]); (n_t3,[7;8;6;9;10;11])] [7;8;2;3;9;10;1;11]) (1) 2);
  (*2570*) AddTo n_t4new (Times (Einsum [(n_t1,[0;1]); (n_t2,[2;3;4;5]); (n_v'oovv,[0;3;6;7]); (n_t3,[8;9;10;11;6;7])] [8;9;2;10;4;5;1;11]) (-1) 2);
  (*2571*) AddTo n_t4new (Times (Einsum [(n_t1,[0;1]); (n_t2,[2;3;4;5]); (n_v'oovv,[0;3;6;7]); (n_t3,[8;9;10;11;6;7])] [8;9;2;10;4;11;1;5]) (1) 2);
  (*2572*) AddTo n_t4new (Times (Einsum [(n_t1,[0;1]); (n_t2,[2;3;4;5]); (n_v'oovv,[0;3;5;6]); (n_t3,[7;8;9;10;11;6])] [7;8;2;9;4;10;1;11]) (-1) 1);
  (*2573*) AddTo n_t4new (Times (Einsum [(n_t1,[0;1]); (n_t2,[2;3;4;5]); (n_v'oovv,[0;3;6;7]); (n_t3,[8;9;10;11;6;7])] [8;9;2;10;11;4;1;5]) (-1) 2);
  (*2574*) AddTo n_t4new (Plain (Einsum [(n_t1,[0;1]); (n_t2,[2;3;4;5]); (n_v'oovv,[0;3;5;6]); (n_t3,[7;8;9;10;11;6])] [7;8;2;9;10;4;1;11]));
  (*2575*) AddTo n_t4new (Times (Einsum [(n_t1,[0;1]); (n_t2,[2;3;4;5]); (n_v'oovv,[0;3;5;6]); (n_t3,[7;8;9;10;11;6])] [7;8;2;9;10;11;1;4]) (-1) 1);
  (*2576*) AddTo n_t4new (Times (Einsum [(n_t1,[0;1]); (n_t2,[2;3;4;5]); (n_v'oovv,[0;3;6;7]); (n_t3,[8;9;10;11;6;7])] [8;9;10;2;4;5;1;11]) (1) 2);
  (*2577*) AddTo n_t4new (Times (Einsum [(n_t1,[0;1]); (n_t2,[2;3;4;5]); (n_v'oovv,[0;3;6;7]); (n_t3,[8;9;10;11;6;7])] [8;9;10;2;4;11;1;5]) (-1) 2);
  (*2578*) AddTo n_t4new (Plain (Einsum [(n_t1,[0;1]); (n_t2,[2;3;4;5]); (n_v'oovv,[0;3;5;6]); (n_t3,[7;8;9;10;11;6])] [7;8;9;2;4;10;1;11]));
  (*2579*) AddTo n_t4new (Times (Einsum [(n_t1,[0;1]); (n_t2,[2;3;4;5]); (n_v'oovv,[0;3;6;7]); (n_t3,[8;9;10;11;6;7])] [8;9;10;2;11;4;1;5]) (1) 2);
  (*2580*) AddTo n_t4new (Times (Einsum [(n_t1,[0;1]); (n_t2,[2;3;4;5]); (n_v'oovv,[0;3;5;6]); (n_t3,[7;8;9;10;11;6])] [7;8;9;2;10;4;1;11]) (-1) 1);
  (*2581*) AddTo n_t4new (Plain (Einsum [(n_t1,[0;1]); (n_t2,[2;3;4;5]); (n_v'oovv,[0;3;5;6]); (n_t3,[7;8;9;10;11;6])] [7;8;9;2;10;11;1;4]));
  (*2582*) AddTo n_t4new (Times (Einsum [(n_t1,[0;1]); (n_t2,[2;3;4;5]); (n_v'oovv,[0;6;5;7]); (n_t3,[8;9;6;10;11;7])] [2;3;8;9;4;10;11;1]) (-1) 1);
  (*2583*) AddTo n_t4new (Plain (Einsum [(n_t1,[0;1]); (n_t2,[2;3;4;5]); (n_v'oovv,[0;6;5;7]); (n_t3,[8;9;6;10;11;7])] [2;3;8;9;10;4;11;1]));
  (*2584*) AddTo n_t4new (Times (Einsum [(n_t1,[0;1]); (n_t2,[2;3;4;5]); (n_v'oovv,[0;6;5;7]); (n_t3,[8;9;6;10;11;7])] [2;3;8;9;10;11;4;1]) (-1) 1);
  (*2585*) AddTo n_t4new (Times (Einsum [(n_t1,[0;1]); (n_t2,[2;3;4;5]); (n_v'oovv,[0;6;4;5]); (n_t3,[7;8;6;9;10;11])] [2;3;7;8;9;10;11;1]) (-1) 2);
  (*2586*) AddTo n_t4new (Plain (Einsum [(n_t1,[0;1]); (n_t2,[2;3;4;5]); (n_v'oovv,[0;6;5;7]); (n_t3,[8;9;6;10;11;7])] [2;8;3;9;4;10;11;1]));
  (*2587*) AddTo n_t4new (Times (Einsum [(n_t1,[0;1]); (n_t2,[2;3;4;5]); (n_v'oovv,[0;6;5;7]); (n_t3,[8;9;6;10;11;7])] [2;8;3;9;10;4;11;1]) (-1) 1);
  (*2588*) AddTo n_t4new (Plain (Einsum [(n_t1,[0;1]); (n_t2,[2;3;4;5]); (n_v'oovv,[0;6;5;7]); (n_t3,[8;9;6;10;11;7])] [2;8;3;9;10;11;4;1]));
  (*2589*) AddTo n_t4new (Times (Einsum [(n_t1,[0;1]); (n_t2,[2;3;4;5]); (n_v'oovv,[0;6;4;5]); (n_t3,[7;8;6;9;10;11])] [2;7;3;8;9;10;11;1]) (1) 2);
  (*2590*) AddTo n_t4new (Times (Einsum [(n_t1,[0;1]); (n_t2,[2;3;4;5]); (n_v'oovv,[0;6;5;7]); (n_t3,[8;9;6;10;11;7])] [2;8;9;3;4;10;11;1]) (-1) 1);
  (*2591*) AddTo n_t4new (Plain (Einsum [(n_t1,[0;1]); (n_t2,[2;3;4;5]); (n_v'oovv,[0;6;5;7]); (n_t3,[8;9;6;10;11;7])] [2;8;9;3;10;4;11;1]));
  (*2592*) AddTo n_t4new (Times (Einsum [(n_t1,[0;1]); (n_t2,[2;3;4;5]); (n_v'oovv,[0;6;5;7]); (n_t3,[8;9;6;10;11;7])] [2;8;9;3;10;11;4;1]) (-1) 1);
  (*2593*) AddTo n_t4new (Times (Einsum [(n_t1,[0;1]); (n_t2,[2;3;4;5]); (n_v'oovv,[0;6;4;5]); (n_t3,[7;8;6;9;10;11])] [2;7;8;3;9;10;11;1]) (-1) 2);
  (*2594*) AddTo n_t4new (Times (Einsum [(n_t1,[0;1]); (n_t2,[2;3;4;5]); (n_v'oovv,[0;3;6;7]); (n_t3,[8;9;10;11;6;7])] [2;8;9;10;4;5;11;1]) (1) 2);
  (*2595*) AddTo n_t4new (Times (Einsum [(n_t1,[0;1]); (n_t2,[2;3;4;5]); (n_v'oovv,[0;3;6;7]); (n_t3,[8;9;10;11;6;7])] [2;8;9;10;4;11;5;1]) (-1) 2);
  (*2596*) AddTo n_t4new (Plain (Einsum [(n_t1,[0;1]); (n_t2,[2;3;4;5]); (n_v'oovv,[0;3;5;6]); (n_t3,[7;8;9;10;11;6])] [2;7;8;9;4;10;11;1]));
  (*2597*) AddTo n_t4new (Times (Einsum [(n_t1,[0;1]); (n_t2,[2;3;4;5]); (n_v'oovv,[0;3;6;7]); (n_t3,[8;9;10;11;6;7])] [2;8;9;10;11;4;5;1]) (1) 2);
  (*2598*) AddTo n_t4new (Times (Einsum [(n_t1,[0;1]); (n_t2,[2;3;4;5]); (n_v'oovv,[0;3;5;6]); (n_t3,[7;8;9;10;11;6])] [2;7;8;9;10;4;11;1]) (-1) 1);
  (*2599*) AddTo n_t4new (Plain (Einsum [(n_t1,[0;1]); (n_t2,[2;3;4;5]); (n_v'oovv,[0;3;5;6]); (n_t3,[7;8;9;10;11;6])] [2;7;8;9;10;11;4;1]));
  (*2600*) AddTo n_t4new (Times (Einsum [(n_t1,[0;1]); (n_t2,[2;3;4;5]); (n_v'oovv,[0;6;5;7]); (n_t3,[8;9;6;10;11;7])] [8;2;3;9;4;10;11;1]) (-1) 1);
  (*2601*) AddTo n_t4new (Plain (Einsum [(n_t1,[0;1]); (n_t2,[2;3;4;5]); (n_v'oovv,[0;6;5;7]); (n_t3,[8;9;6;10;11;7])] [8;2;3;9;10;4;11;1]));
  (*2602*) AddTo n_t4new (Times (Einsum [(n_t1,[0;1]); (n_t2,[2;3;4;5]); (n_v'oovv,[0;6;5;7]); (n_t3,[8;9;6;10;11;7])] [8;2;3;9;10;11;4;1]) (-1) 1);
  (*2603*) AddTo n_t4new (Times (Einsum [(n_t1,[0;1]); (n_t2,[2;3;4;5]); (n_v'oovv,[0;6;4;5]); (n_t3,[7;8;6;9;10;11])] [7;2;3;8;9;10;11;1]) (-1) 2);
  (*2604*) AddTo n_t4new (Plain (Einsum [(n_t1,[0;1]); (n_t2,[2;3;4;5]); (n_v'oovv,[0;6;5;7]); (n_t3,[8;9;6;10;11;7])] [8;2;9;3;4;10;11;1]));
  (*2605*) AddTo n_t4new (Times (Einsum [(n_t1,[0;1]); (n_t2,[2;3;4;5]); (n_v'oovv,[0;6;5;7]); (n_t3,[8;9;6;10;11;7])] [8;2;9;3;10;4;11;1]) (-1) 1);
  (*2606*) AddTo n_t4new (Plain (Einsum [(n_t1,[0;1]); (n_t2,[2;3;4;5]); (n_v'oovv,[0;6;5;7]); (n_t3,[8;9;6;10;11;7])] [8;2;9;3;10;11;4;1]));
  (*2607*) AddTo n_t4new (Times (Einsum [(n_t1,[0;1]); (n_t2,[2;3;4;5]); (n_v'oovv,[0;6;4;5]); (n_t3,[7;8;6;9;10;11])] [7;2;8;3;9;10;11;1]) (1) 2);
  (*2608*) AddTo n_t4new (Times (Einsum [(n_t1,[0;1]); (n_t2,[2;3;4;5]); (n_v'oovv,[0;3;6;7]); (n_t3,[8;9;10;11;6;7])] [8;2;9;10;4;5;11;1]) (-1) 2);
  (*2609*) AddTo n_t4new (Times (Einsum [(n_t1,[0;1]); (n_t2,[2;3;4;5]); (n_v'oovv,[0;3;6;7]); (n_t3,[8;9;10;11;6;7])] [8;2;9;10;4;11;5;1]) (1) 2);
  (*2610*) AddTo n_t4new (Times (Einsum [(n_t1,[0;1]); (n_t2,[2;3;4;5]); (n_v'oovv,[0;3;5;6]); (n_t3,[7;8;9;10;11;6])] [7;2;8;9;4;10;11;1]) (-1) 1);
  (*2611*) AddTo n_t4new (Times (Einsum [(n_t1,[0;1]); (n_t2,[2;3;4;5]); (n_v'oovv,[0;3;6;7]); (n_t3,[8;9;10;11;6;7])] [8;2;9;10;11;4;5;1]) (-1) 2);
  (*2612*) AddTo n_t4new (Plain (Einsum [(n_t1,[0;1]); (n_t2,[2;3;4;5]); (n_v'oovv,[0;3;5;6]); (n_t3,[7;8;9;10;11;6])] [7;2;8;9;10;4;11;1]));
  (*2613*) AddTo n_t4new (Times (Einsum [(n_t1,[0;1]); (n_t2,[2;3;4;5]); (n_v'oovv,[0;3;5;6]); (n_t3,[7;8;9;10;11;6])] [7;2;8;9;10;11;4;1]) (-1) 1);
  (*2614*) AddTo n_t4new (Times (Einsum [(n_t1,[0;1]); (n_t2,[2;3;4;5]); (n_v'oovv,[0;6;5;7]); (n_t3,[8;9;6;10;11;7])] [8;9;2;3;4;10;11;1]) (-1) 1);
  (*2615*) AddTo n_t4new (Plain (Einsum [(n_t1,[0;1]); (n_t2,[2;3;4;5]); (n_v'oovv,[0;6;5;7]); (n_t3,[8;9;6;10;11;7])] [8;9;2;3;10;4;11;1]));
  (*2616*) AddTo n_t4new (Times (Einsum [(n_t1,[0;1]); (n_t2,[2;3;4;5]); (n_v'oovv,[0;6;5;7]); (n_t3,[8;9;6;10;11;7])] [8;9;2;3;10;11;4;1]) (-1) 1);
  (*2617*) AddTo n_t4new (Times (Einsum [(n_t1,[0;1]); (n_t2,[2;3;4;5]); (n_v'oovv,[0;6;4;5]); (n_t3,[7;8;6;9;10;11])] [7;8;2;3;9;10;11;1]) (-1) 2);
  (*2618*) AddTo n_t4new (Times (Einsum [(n_t1,[0;1]); (n_t2,[2;3;4;5]); (n_v'oovv,[0;3;6;7]); (n_t3,[8;9;10;11;6;7])] [8;9;2;10;4;5;11;1]) (1) 2);
  (*2619*) AddTo n_t4new (Times (Einsum [(n_t1,[0;1]); (n_t2,[2;3;4;5]); (n_v'oovv,[0;3;6;7]); (n_t3,[8;9;10;11;6;7])] [8;9;2;10;4;11;5;1]) (-1) 2);
  (*2620*) AddTo n_t4new (Plain (Einsum [(n_t1,[0;1]); (n_t2,[2;3;4;5]); (n_v'oovv,[0;3;5;6]); (n_t3,[7;8;9;10;11;6])] [7;8;2;9;4;10;11;1]));
  (*2621*) AddTo n_t4new (Times (Einsum [(n_t1,[0;1]); (n_t2,[2;3;4;5]); (n_v'oovv,[0;3;6;7]); (n_t3,[8;9;10;11;6;7])] [8;9;2;10;11;4;5;1]) (1) 2);
  (*2622*) AddTo n_t4new (Times (Einsum [(n_t1,[0;1]); (n_t2,[2;3;4;5]); (n_v'oovv,[0;3;5;6]); (n_t3,[7;8;9;10;11;6])] [7;8;2;9;10;4;11;1]) (-1) 1);
  (*2623*) AddTo n_t4new (Plain (Einsum [(n_t1,[0;1]); (n_t2,[2;3;4;5]); (n_v'oovv,[0;3;5;6]); (n_t3,[7;8;9;10;11;6])] [7;8;2;9;10;11;4;1]));
  (*2624*) AddTo n_t4new (Times (Einsum [(n_t1,[0;1]); (n_t2,[2;3;4;5]); (n_v'oovv,[0;3;6;7]); (n_t3,[8;9;10;11;6;7])] [8;9;10;2;4;5;11;1]) (-1) 2);
  (*2625*) AddTo n_t4new (Times (Einsum [(n_t1,[0;1]); (n_t2,[2;3;4;5]); (n_v'oovv,[0;3;6;7]); (n_t3,[8;9;10;11;6;7])] [8;9;10;2;4;11;5;1]) (1) 2);
  (*2626*) AddTo n_t4new (Times (Einsum [(n_t1,[0;1]); (n_t2,[2;3;4;5]); (n_v'oovv,[0;3;5;6]); (n_t3,[7;8;9;10;11;6])] [7;8;9;2;4;10;11;1]) (-1) 1);
  (*2627*) AddTo n_t4new (Times (Einsum [(n_t1,[0;1]); (n_t2,[2;3;4;5]); (n_v'oovv,[0;3;6;7]); (n_t3,[8;9;10;11;6;7])] [8;9;10;2;11;4;5;1]) (-1) 2);
  (*2628*) AddTo n_t4new (Plain (Einsum [(n_t1,[0;1]); (n_t2,[2;3;4;5]); (n_v'oovv,[0;3;5;6]); (n_t3,[7;8;9;10;11;6])] [7;8;9;2;10;4;11;1]));
  (*2629*) AddTo n_t4new (Times (Einsum [(n_t1,[0;1]); (n_t2,[2;3;4;5]); (n_v'oovv,[0;3;5;6]); (n_t3,[7;8;9;10;11;6])] [7;8;9;2;10;11;4;1]) (-1) 1);
  (*2630*) AddTo n_t4new (Times (Einsum [(n_t1,[0;1]); (n_t2,[2;3;4;5]); (n_v'oovv,[0;6;1;5]); (n_t3,[7;8;6;9;10;11])] [2;3;7;8;4;9;10;11]) (-1) 1);
  (*2631*) AddTo n_t4new (Plain (Einsum [(n_t1,[0;1]); (n_t2,[2;3;4;5]); (n_v'oovv,[0;6;1;5]); (n_t3,[7;8;6;9;10;11])] [2;3;7;8;9;4;10;11]));
  (*2632*) AddTo n_t4new (Times (Einsum [(n_t1,[0;1]); (n_t2,[2;3;4;5]); (n_v'oovv,[0;6;1;5]); (n_t3,[7;8;6;9;10;11])] [2;3;7;8;9;10;4;11]) (-1) 1);
  (*2633*) AddTo n_t4new (Plain (Einsum [(n_t1,[0;1]); (n_t2,[2;3;4;5]); (n_v'oovv,[0;6;1;5]); (n_t3,[7;8;6;9;10;11])] [2;3;7;8;9;10;11;4]));
  (*2634*) AddTo n_t4new (Plain (Einsum [(n_t1,[0;1]); (n_t2,[2;3;4;5]); (n_v'oovv,[0;6;1;5]); (n_t3,[7;8;6;9;10;11])] [2;7;3;8;4;9;10;11]));
  (*2635*) AddTo n_t4new (Times (Einsum [(n_t1,[0;1]); (n_t2,[2;3;4;5]); (n_v'oovv,[0;6;1;5]); (n_t3,[7;8;6;9;10;11])] [2;7;3;8;9;4;10;11]) (-1) 1);
  (*2636*) AddTo n_t4new (Plain (Einsum [(n_t1,[0;1]); (n_t2,[2;3;4;5]); (n_v'oovv,[0;6;1;5]); (n_t3,[7;8;6;9;10;11])] [2;7;3;8;9;10;4;11]));
  (*2637*) AddTo n_t4new (Times (Einsum [(n_t1,[0;1]); (n_t2,[2;3;4;5]); (n_v'oovv,[0;6;1;5]); (n_t3,[7;8;6;9;10;11])] [2;7;3;8;9;10;11;4]) (-1) 1);
  (*2638*) AddTo n_t4new (Times (Einsum [(n_t1,[0;1]); (n_t2,[2;3;4;5]); (n_v'oovv,[0;6;1;5]); (n_t3,[7;8;6;9;10;11])] [2;7;8;3;4;9;10;11]) (-1) 1);
  (*2639*) AddTo n_t4new (Plain (Einsum [(n_t1,[0;1]); (n_t2,[2;3;4;5]); (n_v'oovv,[0;6;1;5]); (n_t3,[7;8;6;9;10;11])] [2;7;8;3;9;4;10;11]));
  (*2640*) AddTo n_t4new (Times (Einsum [(n_t1,[0;1]); (n_t2,[2;3;4;5]); (n_v'oovv,[0;6;1;5]); (n_t3,[7;8;6;9;10;11])] [2;7;8;3;9;10;4;11]) (-1) 1);
  (*2641*) AddTo n_t4new (Plain (Einsum [(n_t1,[0;1]); (n_t2,[2;3;4;5]); (n_v'oovv,[0;6;1;5]); (n_t3,[7;8;6;9;10;11])] [2;7;8;3;9;10;11;4]));
  (*2642*) AddTo n_t4new (Times (Einsum [(n_t1,[0;1]); (n_t2,[2;3;4;5]); (n_v'oovv,[0;3;1;6]); (n_t3,[7;8;9;10;11;6])] [2;7;8;9;4;5;10;11]) (-1) 1);
  (*2643*) AddTo n_t4new (Plain (Einsum [(n_t1,[0;1]); (n_t2,[2;3;4;5]); (n_v'oovv,[0;3;1;6]); (n_t3,[7;8;9;10;11;6])] [2;7;8;9;4;10;5;11]));
  (*2644*) AddTo n_t4new (Times (Einsum [(n_t1,[0;1]); (n_t2,[2;3;4;5]); (n_v'oovv,[0;3;1;6]); (n_t3,[7;8;9;10;11;6])] [2;7;8;9;4;10;11;5]) (-1) 1);
  (*2645*) AddTo n_t4new (Times (Einsum [(n_t1,[0;1]); (n_t2,[2;3;4;5]); (n_v'oovv,[0;3;1;6]); (n_t3,[7;8;9;10;11;6])] [2;7;8;9;10;4;5;11]) (-1) 1);
  (*2646*) AddTo n_t4new (Plain (Einsum [(n_t1,[0;1]); (n_t2,[2;3;4;5]); (n_v'oovv,[0;3;1;6]); (n_t3,[7;8;9;10;11;6])] [2;7;8;9;10;4;11;5]));
  (*2647*) AddTo n_t4new (Times (Einsum [(n_t1,[0;1]); (n_t2,[2;3;4;5]); (n_v'oovv,[0;3;1;6]); (n_t3,[7;8;9;10;11;6])] [2;7;8;9;10;11;4;5]) (-1) 1);
  (*2648*) AddTo n_t4new (Times (Einsum [(n_t1,[0;1]); (n_t2,[2;3;4;5]); (n_v'oovv,[0;6;1;5]); (n_t3,[7;8;6;9;10;11])] [7;2;3;8;4;9;10;11]) (-1) 1);
  (*2649*) AddTo n_t4new (Plain (Einsum [(n_t1,[0;1]); (n_t2,[2;3;4;5]); (n_v'oovv,[0;6;1;5]); (n_t3,[7;8;6;9;10;11])] [7;2;3;8;9;4;10;11]));
  (*2650*) AddTo n_t4new (Times (Einsum [(n_t1,[0;1]); (n_t2,[2;3;4;5]); (n_v'oovv,[0;6;1;5]); (n_t3,[7;8;6;9;10;11])] [7;2;3;8;9;10;4;11]) (-1) 1);
  (*2651*) AddTo n_t4new (Plain (Einsum [(n_t1,[0;1]); (n_t2,[2;3;4;5]); (n_v'oovv,[0;6;1;5]); (n_t3,[7;8;6;9;10;11])] [7;2;3;8;9;10;11;4]));
  (*2652*) AddTo n_t4new (Plain (Einsum [(n_t1,[0;1]); (n_t2,[2;3;4;5]); (n_v'oovv,[0;6;1;5]); (n_t3,[7;8;6;9;10;11])] [7;2;8;3;4;9;10;11]));
  (*2653*) AddTo n_t4new (Times (Einsum [(n_t1,[0;1]); (n_t2,[2;3;4;5]); (n_v'oovv,[0;6;1;5]); (n_t3,[7;8;6;9;10;11])] [7;2;8;3;9;4;10;11]) (-1) 1);
  (*2654*) AddTo n_t4new (Plain (Einsum [(n_t1,[0;1]); (n_t2,[2;3;4;5]); (n_v'oovv,[0;6;1;5]); (n_t3,[7;8;6;9;10;11])] [7;2;8;3;9;10;4;11]));
  (*2655*) AddTo n_t4new (Times (Einsum [(n_t1,[0;1]); (n_t2,[2;3;4;5]); (n_v'oovv,[0;6;1;5]); (n_t3,[7;8;6;9;10;11])] [7;2;8;3;9;10;11;4]) (-1) 1);
  (*2656*) AddTo n_t4new (Plain (Einsum [(n_t1,[0;1]); (n_t2,[2;3;4;5]); (n_v'oovv,[0;3;1;6]); (n_t3,[7;8;9;10;11;6])] [7;2;8;9;4;5;10;11]));
  (*2657*) AddTo n_t4new (Times (Einsum [(n_t1,[0;1]); (n_t2,[2;3;4;5]); (n_v'oovv,[0;3;1;6]); (n_t3,[7;8;9;10;11;6])] [7;2;8;9;4;10;5;11]) (-1) 1);
  (*2658*) AddTo n_t4new (Plain (Einsum [(n_t1,[0;1]); (n_t2,[2;3;4;5]); (n_v'oovv,[0;3;1;6]); (n_t3,[7;8;9;10;11;6])] [7;2;8;9;4;10;11;5]));
  (*2659*) AddTo n_t4new (Plain (Einsum [(n_t1,[0;1]); (n_t2,[2;3;4;5]); (n_v'oovv,[0;3;1;6]); (n_t3,[7;8;9;10;11;6])] [7;2;8;9;10;4;5;11]));
  (*2660*) AddTo n_t4new (Times (Einsum [(n_t1,[0;1]); (n_t2,[2;3;4;5]); (n_v'oovv,[0;3;1;6]); (n_t3,[7;8;9;10;11;6])] [7;2;8;9;10;4;11;5]) (-1) 1);
  (*2661*) AddTo n_t4new (Plain (Einsum [(n_t1,[0;1]); (n_t2,[2;3;4;5]); (n_v'oovv,[0;3;1;6]); (n_t3,[7;8;9;10;11;6])] [7;2;8;9;10;11;4;5]));
  (*2662*) AddTo n_t4new (Times (Einsum [(n_t1,[0;1]); (n_t2,[2;3;4;5]); (n_v'oovv,[0;6;1;5]); (n_t3,[7;8;6;9;10;11])] [7;8;2;3;4;9;10;11]) (-1) 1);
  (*2663*) AddTo n_t4new (Plain (Einsum [(n_t1,[0;1]); (n_t2,[2;3;4;5]); (n_v'oovv,[0;6;1;5]); (n_t3,[7;8;6;9;10;11])] [7;8;2;3;9;4;10;11]));
  (*2664*) AddTo n_t4new (Times (Einsum [(n_t1,[0;1]); (n_t2,[2;3;4;5]); (n_v'oovv,[0;6;1;5]); (n_t3,[7;8;6;9;10;11])] [7;8;2;3;9;10;4;11]) (-1) 1);
  (*2665*) AddTo n_t4new (Plain (Einsum [(n_t1,[0;1]); (n_t2,[2;3;4;5]); (n_v'oovv,[0;6;1;5]); (n_t3,[7;8;6;9;10;11])] [7;8;2;3;9;10;11;4]));
  (*2666*) AddTo n_t4new (Times (Einsum [(n_t1,[0;1]); (n_t2,[2;3;4;5]); (n_v'oovv,[0;3;1;6]); (n_t3,[7;8;9;10;11;6])] [7;8;2;9;4;5;10;11]) (-1) 1);
  (*2667*) AddTo n_t4new (Plain (Einsum [(n_t1,[0;1]); (n_t2,[2;3;4;5]); (n_v'oovv,[0;3;1;6]); (n_t3,[7;8;9;10;11;6])] [7;8;2;9;4;10;5;11]));
  (*2668*) AddTo n_t4new (Times (Einsum [(n_t1,[0;1]); (n_t2,[2;3;4;5]); (n_v'oovv,[0;3;1;6]); (n_t3,[7;8;9;10;11;6])] [7;8;2;9;4;10;11;5]) (-1) 1);
  (*2669*) AddTo n_t4new (Times (Einsum [(n_t1,[0;1]); (n_t2,[2;3;4;5]); (n_v'oovv,[0;3;1;6]); (n_t3,[7;8;9;10;11;6])] [7;8;2;9;10;4;5;11]) (-1) 1);
  (*2670*) AddTo n_t4new (Plain (Einsum [(n_t1,[0;1]); (n_t2,[2;3;4;5]); (n_v'oovv,[0;3;1;6]); (n_t3,[7;8;9;10;11;6])] [7;8;2;9;10;4;11;5]));
  (*2671*) AddTo n_t4new (Times (Einsum [(n_t1,[0;1]); (n_t2,[2;3;4;5]); (n_v'oovv,[0;3;1;6]); (n_t3,[7;8;9;10;11;6])] [7;8;2;9;10;11;4;5]) (-1) 1);
  (*2672*) AddTo n_t4new (Plain (Einsum [(n_t1,[0;1]); (n_t2,[2;3;4;5]); (n_v'oovv,[0;3;1;6]); (n_t3,[7;8;9;10;11;6])] [7;8;9;2;4;5;10;11]));
  (*2673*) AddTo n_t4new (Times (Einsum [(n_t1,[0;1]); (n_t2,[2;3;4;5]); (n_v'oovv,[0;3;1;6]); (n_t3,[7;8;9;10;11;6])] [7;8;9;2;4;10;5;11]) (-1) 1);
  (*2674*) AddTo n_t4new (Plain (Einsum [(n_t1,[0;1]); (n_t2,[2;3;4;5]); (n_v'oovv,[0;3;1;6]); (n_t3,[7;8;9;10;11;6])] [7;8;9;2;4;10;11;5]));
  (*2675*) AddTo n_t4new (Plain (Einsum [(n_t1,[0;1]); (n_t2,[2;3;4;5]); (n_v'oovv,[0;3;1;6]); (n_t3,[7;8;9;10;11;6])] [7;8;9;2;10;4;5;11]));
  (*2676*) AddTo n_t4new (Times (Einsum [(n_t1,[0;1]); (n_t2,[2;3;4;5]); (n_v'oovv,[0;3;1;6]); (n_t3,[7;8;9;10;11;6])] [7;8;9;2;10;4;11;5]) (-1) 1);
  (*2677*) AddTo n_t4new (Plain (Einsum [(n_t1,[0;1]); (n_t2,[2;3;4;5]); (n_v'oovv,[0;3;1;6]); (n_t3,[7;8;9;10;11;6])] [7;8;9;2;10;11;4;5]));
  (*2678*) AddTo n_t4new (Times (Einsum [(n_t2,[0;1;2;3]); (n_t2,[4;5;6;7]); (n_t2,[8;9;10;11]); (n_v'oovv,[5;9;3;11])] [0;4;8;1;2;6;10;7]) (-1) 1);
  (*2679*) AddTo n_t4new (Plain (Einsum [(n_t2,[0;1;2;3]); (n_t2,[4;5;6;7]); (n_t2,[8;9;10;11]); (n_v'oovv,[5;9;3;7])] [0;4;8;1;2;6;10;11]));
  (*2680*) AddTo n_t4new (Plain (Einsum [(n_t2,[0;1;2;3]); (n_t2,[4;5;6;7]); (n_t2,[8;9;10;11]); (n_v'oovv,[5;9;3;11])] [0;4;8;1;2;6;7;10]));
  (*2681*) AddTo n_t4new (Plain (Einsum [(n_t2,[0;1;2;3]); (n_t2,[4;5;6;7]); (n_t2,[8;9;10;11]); (n_v'oovv,[5;9;3;11])] [0;4;8;1;2;10;6;7]));
  (*2682*) AddTo n_t4new (Times (Einsum [(n_t2,[0;1;2;3]); (n_t2,[4;5;6;7]); (n_t2,[8;9;10;11]); (n_v'oovv,[5;9;3;7])] [0;4;8;1;2;10;6;11]) (-1) 1);
  (*2683*) AddTo n_t4new (Plain (Einsum [(n_t2,[0;1;2;3]); (n_t2,[4;5;6;7]); (n_t2,[8;9;10;11]); (n_v'oovv,[5;9;3;7])] [0;4;8;1;2;10;11;6]));
  (*2684*) AddTo n_t4new (Plain (Einsum [(n_t2,[0;1;2;3]); (n_t2,[4;5;6;7]); (n_t2,[8;9;10;11]); (n_v'oovv,[5;9;3;11])] [0;4;8;1;6;2;10;7]));
  (*2685*) AddTo n_t4new (Times (Einsum [(n_t2,[0;1;2;3]); (n_t2,[4;5;6;7]); (n_t2,[8;9;10;11]); (n_v'oovv,[5;9;3;7])] [0;4;8;1;6;2;10;11]) (-1) 1);
  (*2686*) AddTo n_t4new (Times (Einsum [(n_t2,[0;1;2;3]); (n_t2,[4;5;6;7]); (n_t2,[8;9;10;11]); (n_v'oovv,[5;9;3;11])] [0;4;8;1;6;2;7;10]) (-1) 1);
  (*2687*) AddTo n_t4new (Times (Einsum [(n_t2,[0;1;2;3]); (n_t2,[4;5;6;7]); (n_t2,[8;9;10;11]); (n_v'oovv,[5;9;3;11])] [0;4;8;1;10;2;6;7]) (-1) 1);
  (*2688*) AddTo n_t4new (Plain (Einsum [(n_t2,[0;1;2;3]); (n_t2,[4;5;6;7]); (n_t2,[8;9;10;11]); (n_v'oovv,[5;9;3;7])] [0;4;8;1;10;2;6;11]));
  (*2689*) AddTo n_t4new (Times (Einsum [(n_t2,[0;1;2;3]); (n_t2,[4;5;6;7]); (n_t2,[8;9;10;11]); (n_v'oovv,[5;9;3;7])] [0;4;8;1;10;2;11;6]) (-1) 1);
  (*2690*) AddTo n_t4new (Times (Einsum [(n_t2,[0;1;2;3]); (n_t2,[4;5;6;7]); (n_t2,[8;9;10;11]); (n_v'oovv,[5;9;3;11])] [0;4;8;1;6;10;2;7]) (-1) 1);
  (*2691*) AddTo n_t4new (Plain (Einsum [(n_t2,[0;1;2;3]); (n_t2,[4;5;6;7]); (n_t2,[8;9;10;11]); (n_v'oovv,[5;9;3;7])] [0;4;8;1;6;10;2;11]));
  (*2692*) AddTo n_t4new (Plain (Einsum [(n_t2,[0;1;2;3]); (n_t2,[4;5;6;7]); (n_t2,[8;9;10;11]); (n_v'oovv,[5;9;3;11])] [0;4;8;1;6;7;2;10]));
  (*2693*) AddTo n_t4new (Plain (Einsum [(n_t2,[0;1;2;3]); (n_t2,[4;5;6;7]); (n_t2,[8;9;10;11]); (n_v'oovv,[5;9;3;11])] [0;4;8;1;10;6;2;7]));
  (*2694*) AddTo n_t4new (Times (Einsum [(n_t2,[0;1;2;3]); (n_t2,[4;5;6;7]); (n_t2,[8;9;10;11]); (n_v'oovv,[5;9;3;7])] [0;4;8;1;10;6;2;11]) (-1) 1);
  (*2695*) AddTo n_t4new (Plain (Einsum [(n_t2,[0;1;2;3]); (n_t2,[4;5;6;7]); (n_t2,[8;9;10;11]); (n_v'oovv,[5;9;3;7])] [0;4;8;1;10;11;2;6]));
  (*2696*) AddTo n_t4new (Plain (Einsum [(n_t2,[0;1;2;3]); (n_t2,[4;5;6;7]); (n_t2,[8;9;10;11]); (n_v'oovv,[5;9;3;11])] [0;4;8;1;6;10;7;2]));
  (*2697*) AddTo n_t4new (Times (Einsum [(n_t2,[0;1;2;3]); (n_t2,[4;5;6;7]); (n_t2,[8;9;10;11]); (n_v'oovv,[5;9;3;7])] [0;4;8;1;6;10;11;2]) (-1) 1);
  (*2698*) AddTo n_t4new (Times (Einsum [(n_t2,[0;1;2;3]); (n_t2,[4;5;6;7]); (n_t2,[8;9;10;11]); (n_v'oovv,[5;9;3;11])] [0;4;8;1;6;7;10;2]) (-1) 1);
  (*2699*) AddTo n_t4new (Times (Einsum [(n_t2,[0;1;2;3]); (n_t2,[4;5;6;7]); (n_t2,[8;9;10;11]); (n_v'oovv,[5;9;3;11])] [0;4;8;1;10;6;7;2]) (-1) 1);
  (*2700*) AddTo n_t4new (Plain (Einsum [(n_t2,[0;1;2;3]); (n_t2,[4;5;6;7]); (n_t2,[8;9;10;11]); (n_v'oovv,[5;9;3;7])] [0;4;8;1;10;6;11;2]));
  (*2701*) AddTo n_t4new (Times (Einsum [(n_t2,[0;1;2;3]); (n_t2,[4;5;6;7]); (n_t2,[8;9;10;11]); (n_v'oovv,[5;9;3;7])] [0;4;8;1;10;11;6;2]) (-1) 1);
  (*2702*) AddTo n_t4new (Times (Einsum [(n_t2,[0;1;2;3]); (n_t2,[4;5;6;7]); (n_t2,[8;9;10;11]); (n_v'oovv,[5;9;2;3])] [0;4;8;1;6;10;7;11]) (1) 2);
  (*2703*) AddTo n_t4new (Times (Einsum [(n_t2,[0;1;2;3]); (n_t2,[4;5;6;7]); (n_t2,[8;9;10;11]); (n_v'oovv,[5;9;2;3])] [0;4;8;1;6;10;11;7]) (-1) 2);
  (*2704*) AddTo n_t4new (Times (Einsum [(n_t2,[0;1;2;3]); (n_t2,[4;5;6;7]); (n_t2,[8;9;10;11]); (n_v'oovv,[5;9;2;3])] [0;4;8;1;6;7;10;11]) (-1) 2);
  (*2705*) AddTo n_t4new (Times (Einsum [(n_t2,[0;1;2;3]); (n_t2,[4;5;6;7]); (n_t2,[8;9;10;11]); (n_v'oovv,[5;9;2;3])] [0;4;8;1;10;6;7;11]) (-1) 2);
  (*2706*) AddTo n_t4new (Times (Einsum [(n_t2,[0;1;2;3]); (n_t2,[4;5;6;7]); (n_t2,[8;9;10;11]); (n_v'oovv,[5;9;2;3])] [0;4;8;1;10;6;11;7]) (1) 2);
  (*2707*) AddTo n_t4new (Times (Einsum [(n_t2,[0;1;2;3]); (n_t2,[4;5;6;7]); (n_t2,[8;9;10;11]); (n_v'oovv,[5;9;2;3])] [0;4;8;1;10;11;6;7]) (-1) 2);
  (*2708*) AddTo n_t4new (Times (Einsum [(n_t2,[0;1;2;3]); (n_t2,[4;5;6;7]); (n_t2,[8;9;10;11]); (n_v'oovv,[1;9;7;11])] [0;4;8;5;2;6;10;3]) (-1) 1);
  (*2709*) AddTo n_t4new (Times (Einsum [(n_t2,[0;1;2;3]); (n_t2,[4;5;6;7]); (n_t2,[8;9;10;11]); (n_v'oovv,[1;9;3;7])] [0;4;8;5;2;6;10;11]) (-1) 1);
  (*2710*) AddTo n_t4new (Plain (Einsum [(n_t2,[0;1;2;3]); (n_t2,[4;5;6;7]); (n_t2,[8;9;10;11]); (n_v'oovv,[1;9;7;11])] [0;4;8;5;2;6;3;10]));
  (*2711*) AddTo n_t4new (Plain (Einsum [(n_t2,[0;1;2;3]); (n_t2,[4;5;6;7]); (n_t2,[8;9;10;11]); (n_v'oovv,[1;9;7;11])] [0;4;8;5;2;10;6;3]));
  (*2712*) AddTo n_t4new (Plain (Einsum [(n_t2,[0;1;2;3]); (n_t2,[4;5;6;7]); (n_t2,[8;9;10;11]); (n_v'oovv,[1;9;3;7])] [0;4;8;5;2;10;6;11]));
  (*2713*) AddTo n_t4new (Times (Einsum [(n_t2,[0;1;2;3]); (n_t2,[4;5;6;7]); (n_t2,[8;9;10;11]); (n_v'oovv,[1;9;7;11])] [0;4;8;5;2;3;6;10]) (-1) 1);
  (*2714*) AddTo n_t4new (Times (Einsum [(n_t2,[0;1;2;3]); (n_t2,[4;5;6;7]); (n_t2,[8;9;10;11]); (n_v'oovv,[1;9;7;11])] [0;4;8;5;2;10;3;6]) (-1) 1);
  (*2715*) AddTo n_t4new (Times (Einsum [(n_t2,[0;1;2;3]); (n_t2,[4;5;6;7]); (n_t2,[8;9;10;11]); (n_v'oovv,[1;9;3;7])] [0;4;8;5;2;10;11;6]) (-1) 1);
  (*2716*) AddTo n_t4new (Plain (Einsum [(n_t2,[0;1;2;3]); (n_t2,[4;5;6;7]); (n_t2,[8;9;10;11]); (n_v'oovv,[1;9;7;11])] [0;4;8;5;2;3;10;6]));
  (*2717*) AddTo n_t4new (Times (Einsum [(n_t2,[0;1;2;3]); (n_t2,[4;5;6;7]); (n_t2,[8;9;10;11]); (n_v'oovv,[1;9;6;7])] [0;4;8;5;2;10;3;11]) (-1) 2);
  (*2718*) AddTo n_t4new (Times (Einsum [(n_t2,[0;1;2;3]); (n_t2,[4;5;6;7]); (n_t2,[8;9;10;11]); (n_v'oovv,[1;9;6;7])] [0;4;8;5;2;10;11;3]) (1) 2);
  (*2719*) AddTo n_t4new (Times (Einsum [(n_t2,[0;1;2;3]); (n_t2,[4;5;6;7]); (n_t2,[8;9;10;11]); (n_v'oovv,[1;9;6;7])] [0;4;8;5;2;3;10;11]) (1) 2);
  (*2720*) AddTo n_t4new (Plain (Einsum [(n_t2,[0;1;2;3]); (n_t2,[4;5;6;7]); (n_t2,[8;9;10;11]); (n_v'oovv,[1;9;7;11])] [0;4;8;5;6;2;10;3]));
  (*2721*) AddTo n_t4new (Plain (Einsum [(n_t2,[0;1;2;3]); (n_t2,[4;5;6;7]); (n_t2,[8;9;10;11]); (n_v'oovv,[1;9;3;7])] [0;4;8;5;6;2;10;11]));
  (*2722*) AddTo n_t4new (Times (Einsum [(n_t2,[0;1;2;3]); (n_t2,[4;5;6;7]); (n_t2,[8;9;10;11]); (n_v'oovv,[1;9;7;11])] [0;4;8;5;6;2;3;10]) (-1) 1);
  (*2723*) AddTo n_t4new (Times (Einsum [(n_t2,[0;1;2;3]); (n_t2,[4;5;6;7]); (n_t2,[8;9;10;11]); (n_v'oovv,[1;9;7;11])] [0;4;8;5;10;2;6;3]) (-1) 1);
  (*2724*) AddTo n_t4new (Times (Einsum [(n_t2,[0;1;2;3]); (n_t2,[4;5;6;7]); (n_t2,[8;9;10;11]); (n_v'oovv,[1;9;3;7])] [0;4;8;5;10;2;6;11]) (-1) 1);
  (*2725*) AddTo n_t4new (Plain (Einsum [(n_t2,[0;1;2;3]); (n_t2,[4;5;6;7]); (n_t2,[8;9;10;11]); (n_v'oovv,[1;9;7;11])] [0;4;8;5;10;2;3;6]));
  (*2726*) AddTo n_t4new (Plain (Einsum [(n_t2,[0;1;2;3]); (n_t2,[4;5;6;7]); (n_t2,[8;9;10;11]); (n_v'oovv,[1;9;3;7])] [0;4;8;5;10;2;11;6]));
  (*2727*) AddTo n_t4new (Times (Einsum [(n_t2,[0;1;2;3]); (n_t2,[4;5;6;7]); (n_t2,[8;9;10;11]); (n_v'oovv,[1;9;6;7])] [0;4;8;5;10;2;3;11]) (1) 2);
  (*2728*) AddTo n_t4new (Times (Einsum [(n_t2,[0;1;2;3]); (n_t2,[4;5;6;7]); (n_t2,[8;9;10;11]); (n_v'oovv,[1;9;6;7])] [0;4;8;5;10;2;11;3]) (-1) 2);
  (*2729*) AddTo n_t4new (Times (Einsum [(n_t2,[0;1;2;3]); (n_t2,[4;5;6;7]); (n_t2,[8;9;10;11]); (n_v'oovv,[1;9;7;11])] [0;4;8;5;6;10;2;3]) (-1) 1);
  (*2730*) AddTo n_t4new (Times (Einsum [(n_t2,[0;1;2;3]); (n_t2,[4;5;6;7]); (n_t2,[8;9;10;11]); (n_v'oovv,[1;9;3;7])] [0;4;8;5;6;10;2;11]) (-1) 1);
  (*2731*) AddTo n_t4new (Plain (Einsum [(n_t2,[0;1;2;3]); (n_t2,[4;5;6;7]); (n_t2,[8;9;10;11]); (n_v'oovv,[1;9;7;11])] [0;4;8;5;10;6;2;3]));
  (*2732*) AddTo n_t4new (Plain (Einsum [(n_t2,[0;1;2;3]); (n_t2,[4;5;6;7]); (n_t2,[8;9;10;11]); (n_v'oovv,[1;9;3;7])] [0;4;8;5;10;6;2;11]));
  (*2733*) AddTo n_t4new (Times (Einsum [(n_t2,[0;1;2;3]); (n_t2,[4;5;6;7]); (n_t2,[8;9;10;11]); (n_v'oovv,[1;9;3;7])] [0;4;8;5;10;11;2;6]) (-1) 1);
  (*2734*) AddTo n_t4new (Times (Einsum [(n_t2,[0;1;2;3]); (n_t2,[4;5;6;7]); (n_t2,[8;9;10;11]); (n_v'oovv,[1;9;6;7])] [0;4;8;5;10;11;2;3]) (1) 2);
  (*2735*) AddTo n_t4new (Plain (Einsum [(n_t2,[0;1;2;3]); (n_t2,[4;5;6;7]); (n_t2,[8;9;10;11]); (n_v'oovv,[1;9;3;7])] [0;4;8;5;6;10;11;2]));
  (*2736*) AddTo n_t4new (Times (Einsum [(n_t2,[0;1;2;3]); (n_t2,[4;5;6;7]); (n_t2,[8;9;10;11]); (n_v'oovv,[1;9;3;7])] [0;4;8;5;10;6;11;2]) (-1) 1);
  (*2737*) AddTo n_t4new (Plain (Einsum [(n_t2,[0;1;2;3]); (n_t2,[4;5;6;7]); (n_t2,[8;9;10;11]); (n_v'oovv,[1;9;3;7])] [0;4;8;5;10;11;6;2]));
  (*2738*) AddTo n_t4new (Plain (Einsum [(n_t2,[0;1;2;3]); (n_t2,[4;5;6;7]); (n_t2,[8;9;10;11]); (n_v'oovv,[1;5;7;11])] [0;4;8;9;2;6;10;3]));
  (*2739*) AddTo n_t4new (Times (Einsum [(n_t2,[0;1;2;3]); (n_t2,[4;5;6;7]); (n_t2,[8;9;10;11]); (n_v'oovv,[1;5;3;11])] [0;4;8;9;2;6;10;7]) (-1) 1);
  (*2740*) AddTo n_t4new (Times (Einsum [(n_t2,[0;1;2;3]); (n_t2,[4;5;6;7]); (n_t2,[8;9;10;11]); (n_v'oovv,[1;5;7;11])] [0;4;8;9;2;6;3;10]) (-1) 1);
  (*2741*) AddTo n_t4new (Plain (Einsum [(n_t2,[0;1;2;3]); (n_t2,[4;5;6;7]); (n_t2,[8;9;10;11]); (n_v'oovv,[1;5;3;11])] [0;4;8;9;2;6;7;10]));
  (*2742*) AddTo n_t4new (Times (Einsum [(n_t2,[0;1;2;3]); (n_t2,[4;5;6;7]); (n_t2,[8;9;10;11]); (n_v'oovv,[1;5;10;11])] [0;4;8;9;2;6;3;7]) (1) 2);
  (*2743*) AddTo n_t4new (Times (Einsum [(n_t2,[0;1;2;3]); (n_t2,[4;5;6;7]); (n_t2,[8;9;10;11]); (n_v'oovv,[1;5;10;11])] [0;4;8;9;2;6;7;3]) (-1) 2);
  (*2744*) AddTo n_t4new (Times (Einsum [(n_t2,[0;1;2;3]); (n_t2,[4;5;6;7]); (n_t2,[8;9;10;11]); (n_v'oovv,[1;5;7;11])] [0;4;8;9;2;10;6;3]) (-1) 1);
  (*2745*) AddTo n_t4new (Plain (Einsum [(n_t2,[0;1;2;3]); (n_t2,[4;5;6;7]); (n_t2,[8;9;10;11]); (n_v'oovv,[1;5;3;11])] [0;4;8;9;2;10;6;7]));
  (*2746*) AddTo n_t4new (Plain (Einsum [(n_t2,[0;1;2;3]); (n_t2,[4;5;6;7]); (n_t2,[8;9;10;11]); (n_v'oovv,[1;5;7;11])] [0;4;8;9;2;3;6;10]));
  (*2747*) AddTo n_t4new (Times (Einsum [(n_t2,[0;1;2;3]); (n_t2,[4;5;6;7]); (n_t2,[8;9;10;11]); (n_v'oovv,[1;5;10;11])] [0;4;8;9;2;3;6;7]) (-1) 2);
  (*2748*) AddTo n_t4new (Plain (Einsum [(n_t2,[0;1;2;3]); (n_t2,[4;5;6;7]); (n_t2,[8;9;10;11]); (n_v'oovv,[1;5;7;11])] [0;4;8;9;2;10;3;6]));
  (*2749*) AddTo n_t4new (Times (Einsum [(n_t2,[0;1;2;3]); (n_t2,[4;5;6;7]); (n_t2,[8;9;10;11]); (n_v'oovv,[1;5;7;11])] [0;4;8;9;2;3;10;6]) (-1) 1);
  (*2750*) AddTo n_t4new (Times (Einsum [(n_t2,[0;1;2;3]); (n_t2,[4;5;6;7]); (n_t2,[8;9;10;11]); (n_v'oovv,[1;5;7;11])] [0;4;8;9;6;2;10;3]) (-1) 1);
  (*2751*) AddTo n_t4new (Plain (Einsum [(n_t2,[0;1;2;3]); (n_t2,[4;5;6;7]); (n_t2,[8;9;10;11]); (n_v'oovv,[1;5;3;11])] [0;4;8;9;6;2;10;7]));
  (*2752*) AddTo n_t4new (Plain (Einsum [(n_t2,[0;1;2;3]); (n_t2,[4;5;6;7]); (n_t2,[8;9;10;11]); (n_v'oovv,[1;5;7;11])] [0;4;8;9;6;2;3;10]));
  (*2753*) AddTo n_t4new (Times (Einsum [(n_t2,[0;1;2;3]); (n_t2,[4;5;6;7]); (n_t2,[8;9;10;11]); (n_v'oovv,[1;5;3;11])] [0;4;8;9;6;2;7;10]) (-1) 1);
  (*2754*) AddTo n_t4new (Times (Einsum [(n_t2,[0;1;2;3]); (n_t2,[4;5;6;7]); (n_t2,[8;9;10;11]); (n_v'oovv,[1;5;10;11])] [0;4;8;9;6;2;3;7]) (-1) 2);
  (*2755*) AddTo n_t4new (Times (Einsum [(n_t2,[0;1;2;3]); (n_t2,[4;5;6;7]); (n_t2,[8;9;10;11]); (n_v'oovv,[1;5;10;11])] [0;4;8;9;6;2;7;3]) (1) 2);
  (*2756*) AddTo n_t4new (Plain (Einsum [(n_t2,[0;1;2;3]); (n_t2,[4;5;6;7]); (n_t2,[8;9;10;11]); (n_v'oovv,[1;5;7;11])] [0;4;8;9;10;2;6;3]));
  (*2757*) AddTo n_t4new (Times (Einsum [(n_t2,[0;1;2;3]); (n_t2,[4;5;6;7]); (n_t2,[8;9;10;11]); (n_v'oovv,[1;5;3;11])] [0;4;8;9;10;2;6;7]) (-1) 1);
  (*2758*) AddTo n_t4new (Times (Einsum [(n_t2,[0;1;2;3]); (n_t2,[4;5;6;7]); (n_t2,[8;9;10;11]); (n_v'oovv,[1;5;7;11])] [0;4;8;9;10;2;3;6]) (-1) 1);
  (*2759*) AddTo n_t4new (Plain (Einsum [(n_t2,[0;1;2;3]); (n_t2,[4;5;6;7]); (n_t2,[8;9;10;11]); (n_v'oovv,[1;5;7;11])] [0;4;8;9;6;10;2;3]));
  (*2760*) AddTo n_t4new (Times (Einsum [(n_t2,[0;1;2;3]); (n_t2,[4;5;6;7]); (n_t2,[8;9;10;11]); (n_v'oovv,[1;5;3;11])] [0;4;8;9;6;10;2;7]) (-1) 1);
  (*2761*) AddTo n_t4new (Plain (Einsum [(n_t2,[0;1;2;3]); (n_t2,[4;5;6;7]); (n_t2,[8;9;10;11]); (n_v'oovv,[1;5;3;11])] [0;4;8;9;6;7;2;10]));
  (*2762*) AddTo n_t4new (Times (Einsum [(n_t2,[0;1;2;3]); (n_t2,[4;5;6;7]); (n_t2,[8;9;10;11]); (n_v'oovv,[1;5;10;11])] [0;4;8;9;6;7;2;3]) (-1) 2);
  (*2763*) AddTo n_t4new (Times (Einsum [(n_t2,[0;1;2;3]); (n_t2,[4;5;6;7]); (n_t2,[8;9;10;11]); (n_v'oovv,[1;5;7;11])] [0;4;8;9;10;6;2;3]) (-1) 1);
  (*2764*) AddTo n_t4new (Plain (Einsum [(n_t2,[0;1;2;3]); (n_t2,[4;5;6;7]); (n_t2,[8;9;10;11]); (n_v'oovv,[1;5;3;11])] [0;4;8;9;10;6;2;7]));
  (*2765*) AddTo n_t4new (Plain (Einsum [(n_t2,[0;1;2;3]); (n_t2,[4;5;6;7]); (n_t2,[8;9;10;11]); (n_v'oovv,[1;5;3;11])] [0;4;8;9;6;10;7;2]));
  (*2766*) AddTo n_t4new (Times (Einsum [(n_t2,[0;1;2;3]); (n_t2,[4;5;6;7]); (n_t2,[8;9;10;11]); (n_v'oovv,[1;5;3;11])] [0;4;8;9;6;7;10;2]) (-1) 1);
  (*2767*) AddTo n_t4new (Times (Einsum [(n_t2,[0;1;2;3]); (n_t2,[4;5;6;7]); (n_t2,[8;9;10;11]); (n_v'oovv,[1;5;3;11])] [0;4;8;9;10;6;7;2]) (-1) 1);
  (*2768*) AddTo n_t4new (Plain (Einsum [(n_t2,[0;1;2;3]); (n_t2,[4;5;6;7]); (n_t2,[8;9;10;11]); (n_v'oovv,[5;9;3;11])] [0;4;1;8;2;6;10;7]));
  (*2769*) AddTo n_t4new (Times (Einsum [(n_t2,[0;1;2;3]); (n_t2,[4;5;6;7]); (n_t2,[8;9;10;11]); (n_v'oovv,[5;9;3;7])] [0;4;1;8;2;6;10;11]) (-1) 1);
  (*2770*) AddTo n_t4new (Times (Einsum [(n_t2,[0;1;2;3]); (n_t2,[4;5;6;7]); (n_t2,[8;9;10;11]); (n_v'oovv,[5;9;3;11])] [0;4;1;8;2;6;7;10]) (-1) 1);
  (*2771*) AddTo n_t4new (Times (Einsum [(n_t2,[0;1;2;3]); (n_t2,[4;5;6;7]); (n_t2,[8;9;10;11]); (n_v'oovv,[5;9;3;11])] [0;4;1;8;2;10;6;7]) (-1) 1);
  (*2772*) AddTo n_t4new (Plain (Einsum [(n_t2,[0;1;2;3]); (n_t2,[4;5;6;7]); (n_t2,[8;9;10;11]); (n_v'oovv,[5;9;3;7])] [0;4;1;8;2;10;6;11]));
  (*2773*) AddTo n_t4new (Times (Einsum [(n_t2,[0;1;2;3]); (n_t2,[4;5;6;7]); (n_t2,[8;9;10;11]); (n_v'oovv,[5;9;3;7])] [0;4;1;8;2;10;11;6]) (-1) 1);
  (*2774*) AddTo n_t4new (Times (Einsum [(n_t2,[0;1;2;3]); (n_t2,[4;5;6;7]); (n_t2,[8;9;10;11]); (n_v'oovv,[5;9;3;11])] [0;4;1;8;6;2;10;7]) (-1) 1);
  (*2775*) AddTo n_t4new (Plain (Einsum [(n_t2,[0;1;2;3]); (n_t2,[4;5;6;7]); (n_t2,[8;9;10;11]); (n_v'oovv,[5;9;3;7])] [0;4;1;8;6;2;10;11]));
  (*2776*) AddTo n_t4new (Plain (Einsum [(n_t2,[0;1;2;3]); (n_t2,[4;5;6;7]); (n_t2,[8;9;10;11]); (n_v'oovv,[5;9;3;11])] [0;4;1;8;6;2;7;10]));
  (*2777*) AddTo n_t4new (Plain (Einsum [(n_t2,[0;1;2;3]); (n_t2,[4;5;6;7]); (n_t2,[8;9;10;11]); (n_v'oovv,[5;9;3;11])] [0;4;1;8;10;2;6;7]));
  (*2778*) AddTo n_t4new (Times (Einsum [(n_t2,[0;1;2;3]); (n_t2,[4;5;6;7]); (n_t2,[8;9;10;11]); (n_v'oovv,[5;9;3;7])] [0;4;1;8;10;2;6;11]) (-1) 1);
  (*2779*) AddTo n_t4new (Plain (Einsum [(n_t2,[0;1;2;3]); (n_t2,[4;5;6;7]); (n_t2,[8;9;10;11]); (n_v'oovv,[5;9;3;7])] [0;4;1;8;10;2;11;6]));
  (*2780*) AddTo n_t4new (Plain (Einsum [(n_t2,[0;1;2;3]); (n_t2,[4;5;6;7]); (n_t2,[8;9;10;11]); (n_v'oovv,[5;9;3;11])] [0;4;1;8;6;10;2;7]));
  (*2781*) AddTo n_t4new (Times (Einsum [(n_t2,[0;1;2;3]); (n_t2,[4;5;6;7]); (n_t2,[8;9;10;11]); (n_v'oovv,[5;9;3;7])] [0;4;1;8;6;10;2;11]) (-1) 1);
  (*2782*) AddTo n_t4new (Times (Einsum [(n_t2,[0;1;2;3]); (n_t2,[4;5;6;7]); (n_t2,[8;9;10;11]); (n_v'oovv,[5;9;3;11])] [0;4;1;8;6;7;2;10]) (-1) 1);
  (*2783*) AddTo n_t4new (Times (Einsum [(n_t2,[0;1;2;3]); (n_t2,[4;5;6;7]); (n_t2,[8;9;10;11]); (n_v'oovv,[5;9;3;11])] [0;4;1;8;10;6;2;7]) (-1) 1);
  (*2784*) AddTo n_t4new (Plain (Einsum [(n_t2,[0;1;2;3]); (n_t2,[4;5;6;7]); (n_t2,[8;9;10;11]); (n_v'oovv,[5;9;3;7])] [0;4;1;8;10;6;2;11]));
  (*2785*) AddTo n_t4new (Times (Einsum [(n_t2,[0;1;2;3]); (n_t2,[4;5;6;7]); (n_t2,[8;9;10;11]); (n_v'oovv,[5;9;3;7])] [0;4;1;8;10;11;2;6]) (-1) 1);
  (*2786*) AddTo n_t4new (Times (Einsum [(n_t2,[0;1;2;3]); (n_t2,[4;5;6;7]); (n_t2,[8;9;10;11]); (n_v'oovv,[5;9;3;11])] [0;4;1;8;6;10;7;2]) (-1) 1);
  (*2787*) AddTo n_t4new (Plain (Einsum [(n_t2,[0;1;2;3]); (n_t2,[4;5;6;7]); (n_t2,[8;9;10;11]); (n_v'oovv,[5;9;3;7])] [0;4;1;8;6;10;11;2]));
  (*2788*) AddTo n_t4new (Plain (Einsum [(n_t2,[0;1;2;3]); (n_t2,[4;5;6;7]); (n_t2,[8;9;10;11]); (n_v'oovv,[5;9;3;11])] [0;4;1;8;6;7;10;2]));
  (*2789*) AddTo n_t4new (Plain (Einsum [(n_t2,[0;1;2;3]); (n_t2,[4;5;6;7]); (n_t2,[8;9;10;11]); (n_v'oovv,[5;9;3;11])] [0;4;1;8;10;6;7;2]));
  (*2790*) AddTo n_t4new (Times (Einsum [(n_t2,[0;1;2;3]); (n_t2,[4;5;6;7]); (n_t2,[8;9;10;11]); (n_v'oovv,[5;9;3;7])] [0;4;1;8;10;6;11;2]) (-1) 1);
  (*2791*) AddTo n_t4new (Plain (Einsum [(n_t2,[0;1;2;3]); (n_t2,[4;5;6;7]); (n_t2,[8;9;10;11]); (n_v'oovv,[5;9;3;7])] [0;4;1;8;10;11;6;2]));
  (*2792*) AddTo n_t4new (Times (Einsum [(n_t2,[0;1;2;3]); (n_t2,[4;5;6;7]); (n_t2,[8;9;10;11]); (n_v'oovv,[5;9;2;3])] [0;4;1;8;6;10;7;11]) (-1) 2);
  (*2793*) AddTo n_t4new (Times (Einsum [(n_t2,[0;1;2;3]); (n_t2,[4;5;6;7]); (n_t2,[8;9;10;11]); (n_v'oovv,[5;9;2;3])] [0;4;1;8;6;10;11;7]) (1) 2);
  (*2794*) AddTo n_t4new (Times (Einsum [(n_t2,[0;1;2;3]); (n_t2,[4;5;6;7]); (n_t2,[8;9;10;11]); (n_v'oovv,[5;9;2;3])] [0;4;1;8;6;7;10;11]) (1) 2);
  (*2795*) AddTo n_t4new (Times (Einsum [(n_t2,[0;1;2;3]); (n_t2,[4;5;6;7]); (n_t2,[8;9;10;11]); (n_v'oovv,[5;9;2;3])] [0;4;1;8;10;6;7;11]) (1) 2);
  (*2796*) AddTo n_t4new (Times (Einsum [(n_t2,[0;1;2;3]); (n_t2,[4;5;6;7]); (n_t2,[8;9;10;11]); (n_v'oovv,[5;9;2;3])] [0;4;1;8;10;6;11;7]) (-1) 2);
  (*2797*) AddTo n_t4new (Times (Einsum [(n_t2,[0;1;2;3]); (n_t2,[4;5;6;7]); (n_t2,[8;9;10;11]); (n_v'oovv,[5;9;2;3])] [0;4;1;8;10;11;6;7]) (1) 2);
  (*2798*) AddTo n_t4new (Plain (Einsum [(n_t2,[0;1;2;3]); (n_t2,[4;5;6;7]); (n_t2,[8;9;10;11]); (n_v'oovv,[1;9;7;11])] [0;4;5;8;2;6;10;3]));
  (*2799*) AddTo n_t4new (Plain (Einsum [(n_t2,[0;1;2;3]); (n_t2,[4;5;6;7]); (n_t2,[8;9;10;11]); (n_v'oovv,[1;9;3;7])] [0;4;5;8;2;6;10;11]));
  (*2800*) AddTo n_t4new (Times (Einsum [(n_t2,[0;1;2;3]); (n_t2,[4;5;6;7]); (n_t2,[8;9;10;11]); (n_v'oovv,[1;9;7;11])] [0;4;5;8;2;6;3;10]) (-1) 1);
  (*2801*) AddTo n_t4new (Times (Einsum [(n_t2,[0;1;2;3]); (n_t2,[4;5;6;7]); (n_t2,[8;9;10;11]); (n_v'oovv,[1;9;7;11])] [0;4;5;8;2;10;6;3]) (-1) 1);
  (*2802*) AddTo n_t4new (Times (Einsum [(n_t2,[0;1;2;3]); (n_t2,[4;5;6;7]); (n_t2,[8;9;10;11]); (n_v'oovv,[1;9;3;7])] [0;4;5;8;2;10;6;11]) (-1) 1);
  (*2803*) AddTo n_t4new (Plain (Einsum [(n_t2,[0;1;2;3]); (n_t2,[4;5;6;7]); (n_t2,[8;9;10;11]); (n_v'oovv,[1;9;7;11])] [0;4;5;8;2;3;6;10]));
  (*2804*) AddTo n_t4new (Plain (Einsum [(n_t2,[0;1;2;3]); (n_t2,[4;5;6;7]); (n_t2,[8;9;10;11]); (n_v'oovv,[1;9;7;11])] [0;4;5;8;2;10;3;6]));
  (*2805*) AddTo n_t4new (Plain (Einsum [(n_t2,[0;1;2;3]); (n_t2,[4;5;6;7]); (n_t2,[8;9;10;11]); (n_v'oovv,[1;9;3;7])] [0;4;5;8;2;10;11;6]));
  (*2806*) AddTo n_t4new (Times (Einsum [(n_t2,[0;1;2;3]); (n_t2,[4;5;6;7]); (n_t2,[8;9;10;11]); (n_v'oovv,[1;9;7;11])] [0;4;5;8;2;3;10;6]) (-1) 1);
  (*2807*) AddTo n_t4new (Times (Einsum [(n_t2,[0;1;2;3]); (n_t2,[4;5;6;7]); (n_t2,[8;9;10;11]); (n_v'oovv,[1;9;6;7])] [0;4;5;8;2;10;3;11]) (1) 2);
  (*2808*) AddTo n_t4new (Times (Einsum [(n_t2,[0;1;2;3]); (n_t2,[4;5;6;7]); (n_t2,[8;9;10;11]); (n_v'oovv,[1;9;6;7])] [0;4;5;8;2;10;11;3]) (-1) 2);
  (*2809*) AddTo n_t4new (Times (Einsum [(n_t2,[0;1;2;3]); (n_t2,[4;5;6;7]); (n_t2,[8;9;10;11]); (n_v'oovv,[1;9;6;7])] [0;4;5;8;2;3;10;11]) (-1) 2);
  (*2810*) AddTo n_t4new (Times (Einsum [(n_t2,[0;1;2;3]); (n_t2,[4;5;6;7]); (n_t2,[8;9;10;11]); (n_v'oovv,[1;9;7;11])] [0;4;5;8;6;2;10;3]) (-1) 1);
  (*2811*) AddTo n_t4new (Times (Einsum [(n_t2,[0;1;2;3]); (n_t2,[4;5;6;7]); (n_t2,[8;9;10;11]); (n_v'oovv,[1;9;3;7])] [0;4;5;8;6;2;10;11]) (-1) 1);
  (*2812*) AddTo n_t4new (Plain (Einsum [(n_t2,[0;1;2;3]); (n_t2,[4;5;6;7]); (n_t2,[8;9;10;11]); (n_v'oovv,[1;9;7;11])] [0;4;5;8;6;2;3;10]));
  (*2813*) AddTo n_t4new (Plain (Einsum [(n_t2,[0;1;2;3]); (n_t2,[4;5;6;7]); (n_t2,[8;9;10;11]); (n_v'oovv,[1;9;7;11])] [0;4;5;8;10;2;6;3]));
  (*2814*) AddTo n_t4new (Plain (Einsum [(n_t2,[0;1;2;3]); (n_t2,[4;5;6;7]); (n_t2,[8;9;10;11]); (n_v'oovv,[1;9;3;7])] [0;4;5;8;10;2;6;11]));
  (*2815*) AddTo n_t4new (Times (Einsum [(n_t2,[0;1;2;3]); (n_t2,[4;5;6;7]); (n_t2,[8;9;10;11]); (n_v'oovv,[1;9;7;11])] [0;4;5;8;10;2;3;6]) (-1) 1);
  (*2816*) AddTo n_t4new (Times (Einsum [(n_t2,[0;1;2;3]); (n_t2,[4;5;6;7]); (n_t2,[8;9;10;11]); (n_v'oovv,[1;9;3;7])] [0;4;5;8;10;2;11;6]) (-1) 1);
  (*2817*) AddTo n_t4new (Times (Einsum [(n_t2,[0;1;2;3]); (n_t2,[4;5;6;7]); (n_t2,[8;9;10;11]); (n_v'oovv,[1;9;6;7])] [0;4;5;8;10;2;3;11]) (-1) 2);
  (*2818*) AddTo n_t4new (Times (Einsum [(n_t2,[0;1;2;3]); (n_t2,[4;5;6;7]); (n_t2,[8;9;10;11]); (n_v'oovv,[1;9;6;7])] [0;4;5;8;10;2;11;3]) (1) 2);
  (*2819*) AddTo n_t4new (Plain (Einsum [(n_t2,[0;1;2;3]); (n_t2,[4;5;6;7]); (n_t2,[8;9;10;11]); (n_v'oovv,[1;9;7;11])] [0;4;5;8;6;10;2;3]));
  (*2820*) AddTo n_t4new (Plain (Einsum [(n_t2,[0;1;2;3]); (n_t2,[4;5;6;7]); (n_t2,[8;9;10;11]); (n_v'oovv,[1;9;3;7])] [0;4;5;8;6;10;2;11]));
  (*2821*) AddTo n_t4new (Times (Einsum [(n_t2,[0;1;2;3]); (n_t2,[4;5;6;7]); (n_t2,[8;9;10;11]); (n_v'oovv,[1;9;7;11])] [0;4;5;8;10;6;2;3]) (-1) 1);
  (*2822*) AddTo n_t4new (Times (Einsum [(n_t2,[0;1;2;3]); (n_t2,[4;5;6;7]); (n_t2,[8;9;10;11]); (n_v'oovv,[1;9;3;7])] [0;4;5;8;10;6;2;11]) (-1) 1);
  (*2823*) AddTo n_t4new (Plain (Einsum [(n_t2,[0;1;2;3]); (n_t2,[4;5;6;7]); (n_t2,[8;9;10;11]); (n_v'oovv,[1;9;3;7])] [0;4;5;8;10;11;2;6]));
  (*2824*) AddTo n_t4new (Times (Einsum [(n_t2,[0;1;2;3]); (n_t2,[4;5;6;7]); (n_t2,[8;9;10;11]); (n_v'oovv,[1;9;6;7])] [0;4;5;8;10;11;2;3]) (-1) 2);
  (*2825*) AddTo n_t4new (Times (Einsum [(n_t2,[0;1;2;3]); (n_t2,[4;5;6;7]); (n_t2,[8;9;10;11]); (n_v'oovv,[1;9;3;7])] [0;4;5;8;6;10;11;2]) (-1) 1);
  (*2826*) AddTo n_t4new (Plain (Einsum [(n_t2,[0;1;2;3]); (n_t2,[4;5;6;7]); (n_t2,[8;9;10;11]); (n_v'oovv,[1;9;3;7])] [0;4;5;8;10;6;11;2]));
  (*2827*) AddTo n_t4new (Times (Einsum [(n_t2,[0;1;2;3]); (n_t2,[4;5;6;7]); (n_t2,[8;9;10;11]); (n_v'oovv,[1;9;3;7])] [0;4;5;8;10;11;6;2]) (-1) 1);
  (*2828*) AddTo n_t4new (Times (Einsum [(n_t2,[0;1;2;3]); (n_t2,[4;5;6;7]); (n_t2,[8;9;10;11]); (n_v'oovv,[8;9;3;7])] [0;4;1;5;2;6;10;11]) (1) 2);
  (*2829*) AddTo n_t4new (Times (Einsum [(n_t2,[0;1;2;3]); (n_t2,[4;5;6;7]); (n_t2,[8;9;10;11]); (n_v'oovv,[8;9;3;7])] [0;4;1;5;2;10;6;11]) (-1) 2);
  (*2830*) AddTo n_t4new (Times (Einsum [(n_t2,[0;1;2;3]); (n_t2,[4;5;6;7]); (n_t2,[8;9;10;11]); (n_v'oovv,[8;9;3;7])] [0;4;1;5;2;10;11;6]) (1) 2);
  (*2831*) AddTo n_t4new (Times (Einsum [(n_t2,[0;1;2;3]); (n_t2,[4;5;6;7]); (n_t2,[8;9;10;11]); (n_v'oovv,[8;9;3;7])] [0;4;1;5;6;2;10;11]) (-1) 2);
  (*2832*) AddTo n_t4new (Times (Einsum [(n_t2,[0;1;2;3]); (n_t2,[4;5;6;7]); (n_t2,[8;9;10;11]); (n_v'oovv,[8;9;3;7])] [0;4;1;5;10;2;6;11]) (1) 2);
  (*2833*) AddTo n_t4new (Times (Einsum [(n_t2,[0;1;2;3]); (n_t2,[4;5;6;7]); (n_t2,[8;9;10;11]); (n_v'oovv,[8;9;3;7])] [0;4;1;5;10;2;11;6]) (-1) 2);
  (*2834*) AddTo n_t4new (Times (Einsum [(n_t2,[0;1;2;3]); (n_t2,[4;5;6;7]); (n_t2,[8;9;10;11]); (n_v'oovv,[8;9;3;7])] [0;4;1;5;6;10;2;11]) (1) 2);
  (*2835*) AddTo n_t4new (Times (Einsum [(n_t2,[0;1;2;3]); (n_t2,[4;5;6;7]); (n_t2,[8;9;10;11]); (n_v'oovv,[8;9;3;7])] [0;4;1;5;10;6;2;11]) (-1) 2);
  (*2836*) AddTo n_t4new (Times (Einsum [(n_t2,[0;1;2;3]); (n_t2,[4;5;6;7]); (n_t2,[8;9;10;11]); (n_v'oovv,[8;9;3;7])] [0;4;1;5;10;11;2;6]) (1) 2);
  (*2837*) AddTo n_t4new (Times (Einsum [(n_t2,[0;1;2;3]); (n_t2,[4;5;6;7]); (n_t2,[8;9;10;11]); (n_v'oovv,[8;9;3;7])] [0;4;1;5;6;10;11;2]) (-1) 2);
  (*2838*) AddTo n_t4new (Times (Einsum [(n_t2,[0;1;2;3]); (n_t2,[4;5;6;7]); (n_t2,[8;9;10;11]); (n_v'oovv,[8;9;3;7])] [0;4;1;5;10;6;11;2]) (1) 2);
  (*2839*) AddTo n_t4new (Times (Einsum [(n_t2,[0;1;2;3]); (n_t2,[4;5;6;7]); (n_t2,[8;9;10;11]); (n_v'oovv,[8;9;3;7])] [0;4;1;5;10;11;6;2]) (-1) 2);
  (*2840*) AddTo n_t4new (Times (Einsum [(n_t2,[0;1;2;3]); (n_t2,[4;5;6;7]); (n_t2,[8;9;10;11]); (n_v'oovv,[8;9;3;7])] [0;4;5;1;2;6;10;11]) (-1) 2);
  (*2841*) AddTo n_t4new (Times (Einsum [(n_t2,[0;1;2;3]); (n_t2,[4;5;6;7]); (n_t2,[8;9;10;11]); (n_v'oovv,[8;9;3;7])] [0;4;5;1;2;10;6;11]) (1) 2);
  (*2842*) AddTo n_t4new (Times (Einsum [(n_t2,[0;1;2;3]); (n_t2,[4;5;6;7]); (n_t2,[8;9;10;11]); (n_v'oovv,[8;9;3;7])] [0;4;5;1;2;10;11;6]) (-1) 2);
  (*2843*) AddTo n_t4new (Times (Einsum [(n_t2,[0;1;2;3]); (n_t2,[4;5;6;7]); (n_t2,[8;9;10;11]); (n_v'oovv,[8;9;3;7])] [0;4;5;1;6;2;10;11]) (1) 2);
  (*2844*) AddTo n_t4new (Times (Einsum [(n_t2,[0;1;2;3]); (n_t2,[4;5;6;7]); (n_t2,[8;9;10;11]); (n_v'oovv,[8;9;3;7])] [0;4;5;1;10;2;6;11]) (-1) 2);
  (*2845*) AddTo n_t4new (Times (Einsum [(n_t2,[0;1;2;3]); (n_t2,[4;5;6;7]); (n_t2,[8;9;10;11]); (n_v'oovv,[8;9;3;7])] [0;4;5;1;10;2;11;6]) (1) 2);
  (*2846*) AddTo n_t4new (Times (Einsum [(n_t2,[0;1;2;3]); (n_t2,[4;5;6;7]); (n_t2,[8;9;10;11]); (n_v'oovv,[8;9;3;7])] [0;4;5;1;6;10;2;11]) (-1) 2);
  (*2847*) AddTo n_t4new (Times (Einsum [(n_t2,[0;1;2;3]); (n_t2,[4;5;6;7]); (n_t2,[8;9;10;11]); (n_v'oovv,[8;9;3;7])] [0;4;5;1;10;6;2;11]) (1) 2);
  (*2848*) AddTo n_t4new (Times (Einsum [(n_t2,[0;1;2;3]); (n_t2,[4;5;6;7]); (n_t2,[8;9;10;11]); (n_v'oovv,[8;9;3;7])] [0;4;5;1;10;11;2;6]) (-1) 2);
  (*2849*) AddTo n_t4new (Times (Einsum [(n_t2,[0;1;2;3]); (n_t2,[4;5;6;7]); (n_t2,[8;9;10;11]); (n_v'oovv,[8;9;3;7])] [0;4;5;1;6;10;11;2]) (1) 2);
  (*2850*) AddTo n_t4new (Times (Einsum [(n_t2,[0;1;2;3]); (n_t2,[4;5;6;7]); (n_t2,[8;9;10;11]); (n_v'oovv,[8;9;3;7])] [0;4;5;1;10;6;11;2]) (-1) 2);
  (*2851*) AddTo n_t4new (Times (Einsum [(n_t2,[0;1;2;3]); (n_t2,[4;5;6;7]); (n_t2,[8;9;10;11]); (n_v'oovv,[8;9;3;7])] [0;4;5;1;10;11;6;2]) (1) 2);
  (*2852*) AddTo n_t4new (Times (Einsum [(n_t2,[0;1;2;3]); (n_t2,[4;5;6;7]); (n_t2,[8;9;10;11]); (n_v'oovv,[5;9;3;11])] [0;1;4;8;2;6;10;7]) (-1) 1);
  (*2853*) AddTo n_t4new (Plain (Einsum [(n_t2,[0;1;2;3]); (n_t2,[4;5;6;7]); (n_t2,[8;9;10;11]); (n_v'oovv,[5;9;3;7])] [0;1;4;8;2;6;10;11]));
  (*2854*) AddTo n_t4new (Plain (Einsum [(n_t2,[0;1;2;3]); (n_t2,[4;5;6;7]); (n_t2,[8;9;10;11]); (n_v'oovv,[5;9;3;11])] [0;1;4;8;2;6;7;10]));
  (*2855*) AddTo n_t4new (Plain (Einsum [(n_t2,[0;1;2;3]); (n_t2,[4;5;6;7]); (n_t2,[8;9;10;11]); (n_v'oovv,[5;9;3;11])] [0;1;4;8;2;10;6;7]));
  (*2856*) AddTo n_t4new (Times (Einsum [(n_t2,[0;1;2;3]); (n_t2,[4;5;6;7]); (n_t2,[8;9;10;11]); (n_v'oovv,[5;9;3;7])] [0;1;4;8;2;10;6;11]) (-1) 1);
  (*2857*) AddTo n_t4new (Plain (Einsum [(n_t2,[0;1;2;3]); (n_t2,[4;5;6;7]); (n_t2,[8;9;10;11]); (n_v'oovv,[5;9;3;7])] [0;1;4;8;2;10;11;6]));
  (*2858*) AddTo n_t4new (Plain (Einsum [(n_t2,[0;1;2;3]); (n_t2,[4;5;6;7]); (n_t2,[8;9;10;11]); (n_v'oovv,[5;9;3;11])] [0;1;4;8;6;2;10;7]));
  (*2859*) AddTo n_t4new (Times (Einsum [(n_t2,[0;1;2;3]); (n_t2,[4;5;6;7]); (n_t2,[8;9;10;11]); (n_v'oovv,[5;9;3;7])] [0;1;4;8;6;2;10;11]) (-1) 1);
  (*2860*) AddTo n_t4new (Times (Einsum [(n_t2,[0;1;2;3]); (n_t2,[4;5;6;7]); (n_t2,[8;9;10;11]); (n_v'oovv,[5;9;3;11])] [0;1;4;8;6;2;7;10]) (-1) 1);
  (*2861*) AddTo n_t4new (Times (Einsum [(n_t2,[0;1;2;3]); (n_t2,[4;5;6;7]); (n_t2,[8;9;10;11]); (n_v'oovv,[5;9;3;11])] [0;1;4;8;10;2;6;7]) (-1) 1);
  (*2862*) AddTo n_t4new (Plain (Einsum [(n_t2,[0;1;2;3]); (n_t2,[4;5;6;7]); (n_t2,[8;9;10;11]); (n_v'oovv,[5;9;3;7])] [0;1;4;8;10;2;6;11]));
  (*2863*) AddTo n_t4new (Times (Einsum [(n_t2,[0;1;2;3]); (n_t2,[4;5;6;7]); (n_t2,[8;9;10;11]); (n_v'oovv,[5;9;3;7])] [0;1;4;8;10;2;11;6]) (-1) 1);
  (*2864*) AddTo n_t4new (Times (Einsum [(n_t2,[0;1;2;3]); (n_t2,[4;5;6;7]); (n_t2,[8;9;10;11]); (n_v'oovv,[5;9;3;11])] [0;1;4;8;6;10;2;7]) (-1) 1);
  (*2865*) AddTo n_t4new (Plain (Einsum [(n_t2,[0;1;2;3]); (n_t2,[4;5;6;7]); (n_t2,[8;9;10;11]); (n_v'oovv,[5;9;3;7])] [0;1;4;8;6;10;2;11]));
  (*2866*) AddTo n_t4new (Plain (Einsum [(n_t2,[0;1;2;3]); (n_t2,[4;5;6;7]); (n_t2,[8;9;10;11]); (n_v'oovv,[5;9;3;11])] [0;1;4;8;6;7;2;10]));
  (*2867*) AddTo n_t4new (Plain (Einsum [(n_t2,[0;1;2;3]); (n_t2,[4;5;6;7]); (n_t2,[8;9;10;11]); (n_v'oovv,[5;9;3;11])] [0;1;4;8;10;6;2;7]));
  (*2868*) AddTo n_t4new (Times (Einsum [(n_t2,[0;1;2;3]); (n_t2,[4;5;6;7]); (n_t2,[8;9;10;11]); (n_v'oovv,[5;9;3;7])] [0;1;4;8;10;6;2;11]) (-1) 1);
  (*2869*) AddTo n_t4new (Plain (Einsum [(n_t2,[0;1;2;3]); (n_t2,[4;5;6;7]); (n_t2,[8;9;10;11]); (n_v'oovv,[5;9;3;7])] [0;1;4;8;10;11;2;6]));
  (*2870*) AddTo n_t4new (Plain (Einsum [(n_t2,[0;1;2;3]); (n_t2,[4;5;6;7]); (n_t2,[8;9;10;11]); (n_v'oovv,[5;9;3;11])] [0;1;4;8;6;10;7;2]));
  (*2871*) AddTo n_t4new (Times (Einsum [(n_t2,[0;1;2;3]); (n_t2,[4;5;6;7]); (n_t2,[8;9;10;11]); (n_v'oovv,[5;9;3;7])] [0;1;4;8;6;10;11;2]) (-1) 1);
  (*2872*) AddTo n_t4new (Times (Einsum [(n_t2,[0;1;2;3]); (n_t2,[4;5;6;7]); (n_t2,[8;9;10;11]); (n_v'oovv,[5;9;3;11])] [0;1;4;8;6;7;10;2]) (-1) 1);
  (*2873*) AddTo n_t4new (Times (Einsum [(n_t2,[0;1;2;3]); (n_t2,[4;5;6;7]); (n_t2,[8;9;10;11]); (n_v'oovv,[5;9;3;11])] [0;1;4;8;10;6;7;2]) (-1) 1);
  (*2874*) AddTo n_t4new (Plain (Einsum [(n_t2,[0;1;2;3]); (n_t2,[4;5;6;7]); (n_t2,[8;9;10;11]); (n_v'oovv,[5;9;3;7])] [0;1;4;8;10;6;11;2]));
  (*2875*) AddTo n_t4new (Times (Einsum [(n_t2,[0;1;2;3]); (n_t2,[4;5;6;7]); (n_t2,[8;9;10;11]); (n_v'oovv,[5;9;3;7])] [0;1;4;8;10;11;6;2]) (-1) 1);
  (*2876*) AddTo n_t4new (Times (Einsum [(n_t2,[0;1;2;3]); (n_t2,[4;5;6;7]); (n_t2,[8;9;10;11]); (n_v'oovv,[5;9;2;3])] [0;1;4;8;6;10;7;11]) (1) 2);
  (*2877*) AddTo n_t4new (Times (Einsum [(n_t2,[0;1;2;3]); (n_t2,[4;5;6;7]); (n_t2,[8;9;10;11]); (n_v'oovv,[5;9;2;3])] [0;1;4;8;6;10;11;7]) (-1) 2);
  (*2878*) AddTo n_t4new (Times (Einsum [(n_t2,[0;1;2;3]); (n_t2,[4;5;6;7]); (n_t2,[8;9;10;11]); (n_v'oovv,[5;9;2;3])] [0;1;4;8;6;7;10;11]) (-1) 2);
  (*2879*) AddTo n_t4new (Times (Einsum [(n_t2,[0;1;2;3]); (n_t2,[4;5;6;7]); (n_t2,[8;9;10;11]); (n_v'oovv,[5;9;2;3])] [0;1;4;8;10;6;7;11]) (-1) 2);
  (*2880*) AddTo n_t4new (Times (Einsum [(n_t2,[0;1;2;3]); (n_t2,[4;5;6;7]); (n_t2,[8;9;10;11]); (n_v'oovv,[5;9;2;3])] [0;1;4;8;10;6;11;7]) (1) 2);
  (*2881*) AddTo n_t4new (Times (Einsum [(n_t2,[0;1;2;3]); (n_t2,[4;5;6;7]); (n_t2,[8;9;10;11]); (n_v'oovv,[5;9;2;3])] [0;1;4;8;10;11;6;7]) (-1) 2);
  (*2882*) AddTo n_t4new (Times (Einsum [(n_t2,[0;1;2;3]); (n_t2,[4;5;6;7]); (n_t2,[8;9;10;11]); (n_v'oovv,[8;9;3;7])] [0;1;4;5;2;6;10;11]) (-1) 2);
  (*2883*) AddTo n_t4new (Times (Einsum [(n_t2,[0;1;2;3]); (n_t2,[4;5;6;7]); (n_t2,[8;9;10;11]); (n_v'oovv,[8;9;3;7])] [0;1;4;5;2;10;6;11]) (1) 2);
  (*2884*) AddTo n_t4new (Times (Einsum [(n_t2,[0;1;2;3]); (n_t2,[4;5;6;7]); (n_t2,[8;9;10;11]); (n_v'oovv,[8;9;3;7])] [0;1;4;5;2;10;11;6]) (-1) 2);
  (*2885*) AddTo n_t4new (Times (Einsum [(n_t2,[0;1;2;3]); (n_t2,[4;5;6;7]); (n_t2,[8;9;10;11]); (n_v'oovv,[8;9;3;7])] [0;1;4;5;6;2;10;11]) (1) 2);
  (*2886*) AddTo n_t4new (Times (Einsum [(n_t2,[0;1;2;3]); (n_t2,[4;5;6;7]); (n_t2,[8;9;10;11]); (n_v'oovv,[8;9;3;7])] [0;1;4;5;10;2;6;11]) (-1) 2);
  (*2887*) AddTo n_t4new (Times (Einsum [(n_t2,[0;1;2;3]); (n_t2,[4;5;6;7]); (n_t2,[8;9;10;11]); (n_v'oovv,[8;9;3;7])] [0;1;4;5;10;2;11;6]) (1) 2);
  (*2888*) AddTo n_t4new (Times (Einsum [(n_t2,[0;1;2;3]); (n_t2,[4;5;6;7]); (n_t2,[8;9;10;11]); (n_v'oovv,[8;9;3;7])] [0;1;4;5;6;10;2;11]) (-1) 2);
  (*2889*) AddTo n_t4new (Times (Einsum [(n_t2,[0;1;2;3]); (n_t2,[4;5;6;7]); (n_t2,[8;9;10;11]); (n_v'oovv,[8;9;3;7])] [0;1;4;5;10;6;2;11]) (1) 2);
  (*2890*) AddTo n_t4new (Times (Einsum [(n_t2,[0;1;2;3]); (n_t2,[4;5;6;7]); (n_t2,[8;9;10;11]); (n_v'oovv,[8;9;3;7])] [0;1;4;5;10;11;2;6]) (-1) 2);
  (*2891*) AddTo n_t4new (Times (Einsum [(n_t2,[0;1;2;3]); (n_t2,[4;5;6;7]); (n_t2,[8;9;10;11]); (n_v'oovv,[8;9;3;7])] [0;1;4;5;6;10;11;2]) (1) 2);
  (*2892*) AddTo n_t4new (Times (Einsum [(n_t2,[0;1;2;3]); (n_t2,[4;5;6;7]); (n_t2,[8;9;10;11]); (n_v'oovv,[8;9;3;7])] [0;1;4;5;10;6;11;2]) (-1) 2);
  (*2893*) AddTo n_t4new (Times (Einsum [(n_t2,[0;1;2;3]); (n_t2,[4;5;6;7]); (n_t2,[8;9;10;11]); (n_v'oovv,[8;9;3;7])] [0;1;4;5;10;11;6;2]) (1) 2);
  (*2894*) AddTo n_t4new (Plain (Einsum [(n_t1,[0;1]); (n_t1,[2;3]); (n_t1,[4;5]); (n_v'oovv,[4;6;1;3]); (n_t3,[7;8;6;9;10;11])] [0;2;7;8;5;9;10;11]));
  (*2895*) AddTo n_t4new (Times (Einsum [(n_t1,[0;1]); (n_t1,[2;3]); (n_t1,[4;5]); (n_v'oovv,[4;6;1;3]); (n_t3,[7;8;6;9;10;11])] [0;2;7;8;9;5;10;11]) (-1) 1);
  (*2896*) AddTo n_t4new (Plain (Einsum [(n_t1,[0;1]); (n_t1,[2;3]); (n_t1,[4;5]); (n_v'oovv,[4;6;1;3]); (n_t3,[7;8;6;9;10;11])] [0;2;7;8;9;10;5;11]));
  (*2897*) AddTo n_t4new (Times (Einsum [(n_t1,[0;1]); (n_t1,[2;3]); (n_t1,[4;5]); (n_v'oovv,[4;6;1;3]); (n_t3,[7;8;6;9;10;11])] [0;2;7;8;9;10;11;5]) (-1) 1);
  (*2898*) AddTo n_t4new (Times (Einsum [(n_t1,[0;1]); (n_t1,[2;3]); (n_t1,[4;5]); (n_v'oovv,[4;6;1;3]); (n_t3,[7;8;6;9;10;11])] [0;7;2;8;5;9;10;11]) (-1) 1);
  (*2899*) AddTo n_t4new (Plain (Einsum [(n_t1,[0;1]); (n_t1,[2;3]); (n_t1,[4;5]); (n_v'oovv,[4;6;1;3]); (n_t3,[7;8;6;9;10;11])] [0;7;2;8;9;5;10;11]));
  (*2900*) AddTo n_t4new (Times (Einsum [(n_t1,[0;1]); (n_t1,[2;3]); (n_t1,[4;5]); (n_v'oovv,[4;6;1;3]); (n_t3,[7;8;6;9;10;11])] [0;7;2;8;9;10;5;11]) (-1) 1);
  (*2901*) AddTo n_t4new (Plain (Einsum [(n_t1,[0;1]); (n_t1,[2;3]); (n_t1,[4;5]); (n_v'oovv,[4;6;1;3]); (n_t3,[7;8;6;9;10;11])] [0;7;2;8;9;10;11;5]));
  (*2902*) AddTo n_t4new (Plain (Einsum [(n_t1,[0;1]); (n_t1,[2;3]); (n_t1,[4;5]); (n_v'oovv,[4;6;1;3]); (n_t3,[7;8;6;9;10;11])] [0;7;8;2;5;9;10;11]));
  (*2903*) AddTo n_t4new (Times (Einsum [(n_t1,[0;1]); (n_t1,[2;3]); (n_t1,[4;5]); (n_v'oovv,[4;6;1;3]); (n_t3,[7;8;6;9;10;11])] [0;7;8;2;9;5;10;11]) (-1) 1);
  (*2904*) AddTo n_t4new (Plain (Einsum [(n_t1,[0;1]); (n_t1,[2;3]); (n_t1,[4;5]); (n_v'oovv,[4;6;1;3]); (n_t3,[7;8;6;9;10;11])] [0;7;8;2;9;10;5;11]));
  (*2905*) AddTo n_t4new (Times (Einsum [(n_t1,[0;1]); (n_t1,[2;3]); (n_t1,[4;5]); (n_v'oovv,[4;6;1;3]); (n_t3,[7;8;6;9;10;11])] [0;7;8;2;9;10;11;5]) (-1) 1);
  (*2906*) AddTo n_t4new (Plain (Einsum [(n_t1,[0;1]); (n_t1,[2;3]); (n_t1,[4;5]); (n_v'oovv,[2;4;1;6]); (n_t3,[7;8;9;10;11;6])] [0;7;8;9;3;5;10;11]));
  (*2907*) AddTo n_t4new (Times (Einsum [(n_t1,[0;1]); (n_t1,[2;3]); (n_t1,[4;5]); (n_v'oovv,[2;4;1;6]); (n_t3,[7;8;9;10;11;6])] [0;7;8;9;3;10;5;11]) (-1) 1);
  (*2908*) AddTo n_t4new (Plain (Einsum [(n_t1,[0;1]); (n_t1,[2;3]); (n_t1,[4;5]); (n_v'oovv,[2;4;1;6]); (n_t3,[7;8;9;10;11;6])] [0;7;8;9;3;10;11;5]));
  (*2909*) AddTo n_t4new (Plain (Einsum [(n_t1,[0;1]); (n_t1,[2;3]); (n_t1,[4;5]); (n_v'oovv,[2;4;1;6]); (n_t3,[7;8;9;10;11;6])] [0;7;8;9;10;3;5;11]));
  (*2910*) AddTo n_t4new (Times (Einsum [(n_t1,[0;1]); (n_t1,[2;3]); (n_t1,[4;5]); (n_v'oovv,[2;4;1;6]); (n_t3,[7;8;9;10;11;6])] [0;7;8;9;10;3;11;5]) (-1) 1);
  (*2911*) AddTo n_t4new (Plain (Einsum [(n_t1,[0;1]); (n_t1,[2;3]); (n_t1,[4;5]); (n_v'oovv,[2;4;1;6]); (n_t3,[7;8;9;10;11;6])] [0;7;8;9;10;11;3;5]));
  (*2912*) AddTo n_t4new (Plain (Einsum [(n_t1,[0;1]); (n_t1,[2;3]); (n_t1,[4;5]); (n_v'oovv,[4;6;1;3]); (n_t3,[7;8;6;9;10;11])] [7;0;2;8;5;9;10;11]));
  (*2913*) AddTo n_t4new (Times (Einsum [(n_t1,[0;1]); (n_t1,[2;3]); (n_t1,[4;5]); (n_v'oovv,[4;6;1;3]); (n_t3,[7;8;6;9;10;11])] [7;0;2;8;9;5;10;11]) (-1) 1);
  (*2914*) AddTo n_t4new (Plain (Einsum [(n_t1,[0;1]); (n_t1,[2;3]); (n_t1,[4;5]); (n_v'oovv,[4;6;1;3]); (n_t3,[7;8;6;9;10;11])] [7;0;2;8;9;10;5;11]));
  (*2915*) AddTo n_t4new (Times (Einsum [(n_t1,[0;1]); (n_t1,[2;3]); (n_t1,[4;5]); (n_v'oovv,[4;6;1;3]); (n_t3,[7;8;6;9;10;11])] [7;0;2;8;9;10;11;5]) (-1) 1);
  (*2916*) AddTo n_t4new (Times (Einsum [(n_t1,[0;1]); (n_t1,[2;3]); (n_t1,[4;5]); (n_v'oovv,[4;6;1;3]); (n_t3,[7;8;6;9;10;11])] [7;0;8;2;5;9;10;11]) (-1) 1);
  (*2917*) AddTo n_t4new (Plain (Einsum [(n_t1,[0;1]); (n_t1,[2;3]); (n_t1,[4;5]); (n_v'oovv,[4;6;1;3]); (n_t3,[7;8;6;9;10;11])] [7;0;8;2;9;5;10;11]));
  (*2918*) AddTo n_t4new (Times (Einsum [(n_t1,[0;1]); (n_t1,[2;3]); (n_t1,[4;5]); (n_v'oovv,[4;6;1;3]); (n_t3,[7;8;6;9;10;11])] [7;0;8;2;9;10;5;11]) (-1) 1);
  (*2919*) AddTo n_t4new (Plain (Einsum [(n_t1,[0;1]); (n_t1,[2;3]); (n_t1,[4;5]); (n_v'oovv,[4;6;1;3]); (n_t3,[7;8;6;9;10;11])] [7;0;8;2;9;10;11;5]));
  (*2920*) AddTo n_t4new (Times (Einsum [(n_t1,[0;1]); (n_t1,[2;3]); (n_t1,[4;5]); (n_v'oovv,[2;4;1;6]); (n_t3,[7;8;9;10;11;6])] [7;0;8;9;3;5;10;11]) (-1) 1);
  (*2921*) AddTo n_t4new (Plain (Einsum [(n_t1,[0;1]); (n_t1,[2;3]); (n_t1,[4;5]); (n_v'oovv,[2;4;1;6]); (n_t3,[7;8;9;10;11;6])] [7;0;8;9;3;10;5;11]));
  (*2922*) AddTo n_t4new (Times (Einsum [(n_t1,[0;1]); (n_t1,[2;3]); (n_t1,[4;5]); (n_v'oovv,[2;4;1;6]); (n_t3,[7;8;9;10;11;6])] [7;0;8;9;3;10;11;5]) (-1) 1);
  (*2923*) AddTo n_t4new (Times (Einsum [(n_t1,[0;1]); (n_t1,[2;3]); (n_t1,[4;5]); (n_v'oovv,[2;4;1;6]); (n_t3,[7;8;9;10;11;6])] [7;0;8;9;10;3;5;11]) (-1) 1);
  (*2924*) AddTo n_t4new (Plain (Einsum [(n_t1,[0;1]); (n_t1,[2;3]); (n_t1,[4;5]); (n_v'oovv,[2;4;1;6]); (n_t3,[7;8;9;10;11;6])] [7;0;8;9;10;3;11;5]));
  (*2925*) AddTo n_t4new (Times (Einsum [(n_t1,[0;1]); (n_t1,[2;3]); (n_t1,[4;5]); (n_v'oovv,[2;4;1;6]); (n_t3,[7;8;9;10;11;6])] [7;0;8;9;10;11;3;5]) (-1) 1);
  (*2926*) AddTo n_t4new (Plain (Einsum [(n_t1,[0;1]); (n_t1,[2;3]); (n_t1,[4;5]); (n_v'oovv,[4;6;1;3]); (n_t3,[7;8;6;9;10;11])] [7;8;0;2;5;9;10;11]));
  (*2927*) AddTo n_t4new (Times (Einsum [(n_t1,[0;1]); (n_t1,[2;3]); (n_t1,[4;5]); (n_v'oovv,[4;6;1;3]); (n_t3,[7;8;6;9;10;11])] [7;8;0;2;9;5;10;11]) (-1) 1);
  (*2928*) AddTo n_t4new (Plain (Einsum [(n_t1,[0;1]); (n_t1,[2;3]); (n_t1,[4;5]); (n_v'oovv,[4;6;1;3]); (n_t3,[7;8;6;9;10;11])] [7;8;0;2;9;10;5;11]));
  (*2929*) AddTo n_t4new (Times (Einsum [(n_t1,[0;1]); (n_t1,[2;3]); (n_t1,[4;5]); (n_v'oovv,[4;6;1;3]); (n_t3,[7;8;6;9;10;11])] [7;8;0;2;9;10;11;5]) (-1) 1);
  (*2930*) AddTo n_t4new (Plain (Einsum [(n_t1,[0;1]); (n_t1,[2;3]); (n_t1,[4;5]); (n_v'oovv,[2;4;1;6]); (n_t3,[7;8;9;10;11;6])] [7;8;0;9;3;5;10;11]));
  (*2931*) AddTo n_t4new (Times (Einsum [(n_t1,[0;1]); (n_t1,[2;3]); (n_t1,[4;5]); (n_v'oovv,[2;4;1;6]); (n_t3,[7;8;9;10;11;6])] [7;8;0;9;3;10;5;11]) (-1) 1);
  (*2932*) AddTo n_t4new (Plain (Einsum [(n_t1,[0;1]); (n_t1,[2;3]); (n_t1,[4;5]); (n_v'oovv,[2;4;1;6]); (n_t3,[7;8;9;10;11;6])] [7;8;0;9;3;10;11;5]));
  (*2933*) AddTo n_t4new (Plain (Einsum [(n_t1,[0;1]); (n_t1,[2;3]); (n_t1,[4;5]); (n_v'oovv,[2;4;1;6]); (n_t3,[7;8;9;10;11;6])] [7;8;0;9;10;3;5;11]));
  (*2934*) AddTo n_t4new (Times (Einsum [(n_t1,[0;1]); (n_t1,[2;3]); (n_t1,[4;5]); (n_v'oovv,[2;4;1;6]); (n_t3,[7;8;9;10;11;6])] [7;8;0;9;10;3;11;5]) (-1) 1);
  (*2935*) AddTo n_t4new (Plain (Einsum [(n_t1,[0;1]); (n_t1,[2;3]); (n_t1,[4;5]); (n_v'oovv,[2;4;1;6]); (n_t3,[7;8;9;10;11;6])] [7;8;0;9;10;11;3;5]));
  (*2936*) AddTo n_t4new (Times (Einsum [(n_t1,[0;1]); (n_t1,[2;3]); (n_t1,[4;5]); (n_v'oovv,[2;4;1;6]); (n_t3,[7;8;9;10;11;6])] [7;8;9;0;3;5;10;11]) (-1) 1);
  (*2937*) AddTo n_t4new (Plain (Einsum [(n_t1,[0;1]); (n_t1,[2;3]); (n_t1,[4;5]); (n_v'oovv,[2;4;1;6]); (n_t3,[7;8;9;10;11;6])] [7;8;9;0;3;10;5;11]));
  (*2938*) AddTo n_t4new (Times (Einsum [(n_t1,[0;1]); (n_t1,[2;3]); (n_t1,[4;5]); (n_v'oovv,[2;4;1;6]); (n_t3,[7;8;9;10;11;6])] [7;8;9;0;3;10;11;5]) (-1) 1);
  (*2939*) AddTo n_t4new (Times (Einsum [(n_t1,[0;1]); (n_t1,[2;3]); (n_t1,[4;5]); (n_v'oovv,[2;4;1;6]); (n_t3,[7;8;9;10;11;6])] [7;8;9;0;10;3;5;11]) (-1) 1);
  (*2940*) AddTo n_t4new (Plain (Einsum [(n_t1,[0;1]); (n_t1,[2;3]); (n_t1,[4;5]); (n_v'oovv,[2;4;1;6]); (n_t3,[7;8;9;10;11;6])] [7;8;9;0;10;3;11;5]));
  (*2941*) AddTo n_t4new (Times (Einsum [(n_t1,[0;1]); (n_t1,[2;3]); (n_t1,[4;5]); (n_v'oovv,[2;4;1;6]); (n_t3,[7;8;9;10;11;6])] [7;8;9;0;10;11;3;5]) (-1) 1);
  (*2942*) AddTo n_t4new (Plain (Einsum [(n_t1,[0;1]); (n_t1,[2;3]); (n_t2,[4;5;6;7]); (n_t2,[8;9;10;11]); (n_v'oovv,[5;9;1;3])] [0;2;4;8;6;10;7;11]));
  (*2943*) AddTo n_t4new (Times (Einsum [(n_t1,[0;1]); (n_t1,[2;3]); (n_t2,[4;5;6;7]); (n_t2,[8;9;10;11]); (n_v'oovv,[5;9;1;3])] [0;2;4;8;6;10;11;7]) (-1) 1);
  (*2944*) AddTo n_t4new (Times (Einsum [(n_t1,[0;1]); (n_t1,[2;3]); (n_t2,[4;5;6;7]); (n_t2,[8;9;10;11]); (n_v'oovv,[5;9;1;3])] [0;2;4;8;6;7;10;11]) (-1) 1);
  (*2945*) AddTo n_t4new (Times (Einsum [(n_t1,[0;1]); (n_t1,[2;3]); (n_t2,[4;5;6;7]); (n_t2,[8;9;10;11]); (n_v'oovv,[5;9;1;3])] [0;2;4;8;10;6;7;11]) (-1) 1);
  (*2946*) AddTo n_t4new (Plain (Einsum [(n_t1,[0;1]); (n_t1,[2;3]); (n_t2,[4;5;6;7]); (n_t2,[8;9;10;11]); (n_v'oovv,[5;9;1;3])] [0;2;4;8;10;6;11;7]));
  (*2947*) AddTo n_t4new (Times (Einsum [(n_t1,[0;1]); (n_t1,[2;3]); (n_t2,[4;5;6;7]); (n_t2,[8;9;10;11]); (n_v'oovv,[5;9;1;3])] [0;2;4;8;10;11;6;7]) (-1) 1);
  (*2948*) AddTo n_t4new (Times (Einsum [(n_t1,[0;1]); (n_t1,[2;3]); (n_t2,[4;5;6;7]); (n_t2,[8;9;10;11]); (n_v'oovv,[5;9;1;3])] [0;4;2;8;6;10;7;11]) (-1) 1);
  (*2949*) AddTo n_t4new (Plain (Einsum [(n_t1,[0;1]); (n_t1,[2;3]); (n_t2,[4;5;6;7]); (n_t2,[8;9;10;11]); (n_v'oovv,[5;9;1;3])] [0;4;2;8;6;10;11;7]));
  (*2950*) AddTo n_t4new (Plain (Einsum [(n_t1,[0;1]); (n_t1,[2;3]); (n_t2,[4;5;6;7]); (n_t2,[8;9;10;11]); (n_v'oovv,[5;9;1;3])] [0;4;2;8;6;7;10;11]));
  (*2951*) AddTo n_t4new (Plain (Einsum [(n_t1,[0;1]); (n_t1,[2;3]); (n_t2,[4;5;6;7]); (n_t2,[8;9;10;11]); (n_v'oovv,[5;9;1;3])] [0;4;2;8;10;6;7;11]));
  (*2952*) AddTo n_t4new (Times (Einsum [(n_t1,[0;1]); (n_t1,[2;3]); (n_t2,[4;5;6;7]); (n_t2,[8;9;10;11]); (n_v'oovv,[5;9;1;3])] [0;4;2;8;10;6;11;7]) (-1) 1);
  (*2953*) AddTo n_t4new (Plain (Einsum [(n_t1,[0;1]); (n_t1,[2;3]); (n_t2,[4;5;6;7]); (n_t2,[8;9;10;11]); (n_v'oovv,[5;9;1;3])] [0;4;2;8;10;11;6;7]));
  (*2954*) AddTo n_t4new (Plain (Einsum [(n_t1,[0;1]); (n_t1,[2;3]); (n_t2,[4;5;6;7]); (n_t2,[8;9;10;11]); (n_v'oovv,[5;9;1;3])] [0;4;8;2;6;10;7;11]));
  (*2955*) AddTo n_t4new (Times (Einsum [(n_t1,[0;1]); (n_t1,[2;3]); (n_t2,[4;5;6;7]); (n_t2,[8;9;10;11]); (n_v'oovv,[5;9;1;3])] [0;4;8;2;6;10;11;7]) (-1) 1);
  (*2956*) AddTo n_t4new (Times (Einsum [(n_t1,[0;1]); (n_t1,[2;3]); (n_t2,[4;5;6;7]); (n_t2,[8;9;10;11]); (n_v'oovv,[5;9;1;3])] [0;4;8;2;6;7;10;11]) (-1) 1);
  (*2957*) AddTo n_t4new (Times (Einsum [(n_t1,[0;1]); (n_t1,[2;3]); (n_t2,[4;5;6;7]); (n_t2,[8;9;10;11]); (n_v'oovv,[5;9;1;3])] [0;4;8;2;10;6;7;11]) (-1) 1);
  (*2958*) AddTo n_t4new (Plain (Einsum [(n_t1,[0;1]); (n_t1,[2;3]); (n_t2,[4;5;6;7]); (n_t2,[8;9;10;11]); (n_v'oovv,[5;9;1;3])] [0;4;8;2;10;6;11;7]));
  (*2959*) AddTo n_t4new (Times (Einsum [(n_t1,[0;1]); (n_t1,[2;3]); (n_t2,[4;5;6;7]); (n_t2,[8;9;10;11]); (n_v'oovv,[5;9;1;3])] [0;4;8;2;10;11;6;7]) (-1) 1);
  (*2960*) AddTo n_t4new (Plain (Einsum [(n_t1,[0;1]); (n_t1,[2;3]); (n_t2,[4;5;6;7]); (n_t2,[8;9;10;11]); (n_v'oovv,[2;9;1;7])] [0;4;8;5;3;6;10;11]));
  (*2961*) AddTo n_t4new (Times (Einsum [(n_t1,[0;1]); (n_t1,[2;3]); (n_t2,[4;5;6;7]); (n_t2,[8;9;10;11]); (n_v'oovv,[2;9;1;7])] [0;4;8;5;3;10;6;11]) (-1) 1);
  (*2962*) AddTo n_t4new (Plain (Einsum [(n_t1,[0;1]); (n_t1,[2;3]); (n_t2,[4;5;6;7]); (n_t2,[8;9;10;11]); (n_v'oovv,[2;9;1;7])] [0;4;8;5;3;10;11;6]));
  (*2963*) AddTo n_t4new (Plain (Einsum [(n_t1,[0;1]); (n_t1,[2;3]); (n_t2,[4;5;6;7]); (n_t2,[8;9;10;11]); (n_v'oovv,[2;5;1;11])] [0;4;8;9;3;6;10;7]));
  (*2964*) AddTo n_t4new (Times (Einsum [(n_t1,[0;1]); (n_t1,[2;3]); (n_t2,[4;5;6;7]); (n_t2,[8;9;10;11]); (n_v'oovv,[2;5;1;11])] [0;4;8;9;3;6;7;10]) (-1) 1);
  (*2965*) AddTo n_t4new (Times (Einsum [(n_t1,[0;1]); (n_t1,[2;3]); (n_t2,[4;5;6;7]); (n_t2,[8;9;10;11]); (n_v'oovv,[2;5;1;11])] [0;4;8;9;3;10;6;7]) (-1) 1);
  (*2966*) AddTo n_t4new (Times (Einsum [(n_t1,[0;1]); (n_t1,[2;3]); (n_t2,[4;5;6;7]); (n_t2,[8;9;10;11]); (n_v'oovv,[2;9;1;7])] [0;4;5;8;3;6;10;11]) (-1) 1);
  (*2967*) AddTo n_t4new (Plain (Einsum [(n_t1,[0;1]); (n_t1,[2;3]); (n_t2,[4;5;6;7]); (n_t2,[8;9;10;11]); (n_v'oovv,[2;9;1;7])] [0;4;5;8;3;10;6;11]));
  (*2968*) AddTo n_t4new (Times (Einsum [(n_t1,[0;1]); (n_t1,[2;3]); (n_t2,[4;5;6;7]); (n_t2,[8;9;10;11]); (n_v'oovv,[2;9;1;7])] [0;4;5;8;3;10;11;6]) (-1) 1);
  (*2969*) AddTo n_t4new (Times (Einsum [(n_t1,[0;1]); (n_t1,[2;3]); (n_t2,[4;5;6;7]); (n_t2,[8;9;10;11]); (n_v'oovv,[2;9;1;7])] [0;4;8;5;6;3;10;11]) (-1) 1);
  (*2970*) AddTo n_t4new (Plain (Einsum [(n_t1,[0;1]); (n_t1,[2;3]); (n_t2,[4;5;6;7]); (n_t2,[8;9;10;11]); (n_v'oovv,[2;9;1;7])] [0;4;8;5;10;3;6;11]));
  (*2971*) AddTo n_t4new (Times (Einsum [(n_t1,[0;1]); (n_t1,[2;3]); (n_t2,[4;5;6;7]); (n_t2,[8;9;10;11]); (n_v'oovv,[2;9;1;7])] [0;4;8;5;10;3;11;6]) (-1) 1);
  (*2972*) AddTo n_t4new (Times (Einsum [(n_t1,[0;1]); (n_t1,[2;3]); (n_t2,[4;5;6;7]); (n_t2,[8;9;10;11]); (n_v'oovv,[2;5;1;11])] [0;4;8;9;6;3;10;7]) (-1) 1);
  (*2973*) AddTo n_t4new (Plain (Einsum [(n_t1,[0;1]); (n_t1,[2;3]); (n_t2,[4;5;6;7]); (n_t2,[8;9;10;11]); (n_v'oovv,[2;5;1;11])] [0;4;8;9;6;3;7;10]));
  (*2974*) AddTo n_t4new (Plain (Einsum [(n_t1,[0;1]); (n_t1,[2;3]); (n_t2,[4;5;6;7]); (n_t2,[8;9;10;11]); (n_v'oovv,[2;5;1;11])] [0;4;8;9;10;3;6;7]));
  (*2975*) AddTo n_t4new (Plain (Einsum [(n_t1,[0;1]); (n_t1,[2;3]); (n_t2,[4;5;6;7]); (n_t2,[8;9;10;11]); (n_v'oovv,[2;9;1;7])] [0;4;5;8;6;3;10;11]));
  (*2976*) AddTo n_t4new (Times (Einsum [(n_t1,[0;1]); (n_t1,[2;3]); (n_t2,[4;5;6;7]); (n_t2,[8;9;10;11]); (n_v'oovv,[2;9;1;7])] [0;4;5;8;10;3;6;11]) (-1) 1);
  (*2977*) AddTo n_t4new (Plain (Einsum [(n_t1,[0;1]); (n_t1,[2;3]); (n_t2,[4;5;6;7]); (n_t2,[8;9;10;11]); (n_v'oovv,[2;9;1;7])] [0;4;5;8;10;3;11;6]));
  (*2978*) AddTo n_t4new (Plain (Einsum [(n_t1,[0;1]); (n_t1,[2;3]); (n_t2,[4;5;6;7]); (n_t2,[8;9;10;11]); (n_v'oovv,[2;9;1;7])] [0;4;8;5;6;10;3;11]));
  (*2979*) AddTo n_t4new (Times (Einsum [(n_t1,[0;1]); (n_t1,[2;3]); (n_t2,[4;5;6;7]); (n_t2,[8;9;10;11]); (n_v'oovv,[2;9;1;7])] [0;4;8;5;10;6;3;11]) (-1) 1);
  (*2980*) AddTo n_t4new (Plain (Einsum [(n_t1,[0;1]); (n_t1,[2;3]); (n_t2,[4;5;6;7]); (n_t2,[8;9;10;11]); (n_v'oovv,[2;9;1;7])] [0;4;8;5;10;11;3;6]));
  (*2981*) AddTo n_t4new (Plain (Einsum [(n_t1,[0;1]); (n_t1,[2;3]); (n_t2,[4;5;6;7]); (n_t2,[8;9;10;11]); (n_v'oovv,[2;5;1;11])] [0;4;8;9;6;10;3;7]));
  (*2982*) AddTo n_t4new (Times (Einsum [(n_t1,[0;1]); (n_t1,[2;3]); (n_t2,[4;5;6;7]); (n_t2,[8;9;10;11]); (n_v'oovv,[2;5;1;11])] [0;4;8;9;6;7;3;10]) (-1) 1);
  (*2983*) AddTo n_t4new (Times (Einsum [(n_t1,[0;1]); (n_t1,[2;3]); (n_t2,[4;5;6;7]); (n_t2,[8;9;10;11]); (n_v'oovv,[2;5;1;11])] [0;4;8;9;10;6;3;7]) (-1) 1);
  (*2984*) AddTo n_t4new (Times (Einsum [(n_t1,[0;1]); (n_t1,[2;3]); (n_t2,[4;5;6;7]); (n_t2,[8;9;10;11]); (n_v'oovv,[2;9;1;7])] [0;4;5;8;6;10;3;11]) (-1) 1);
  (*2985*) AddTo n_t4new (Plain (Einsum [(n_t1,[0;1]); (n_t1,[2;3]); (n_t2,[4;5;6;7]); (n_t2,[8;9;10;11]); (n_v'oovv,[2;9;1;7])] [0;4;5;8;10;6;3;11]));
  (*2986*) AddTo n_t4new (Times (Einsum [(n_t1,[0;1]); (n_t1,[2;3]); (n_t2,[4;5;6;7]); (n_t2,[8;9;10;11]); (n_v'oovv,[2;9;1;7])] [0;4;5;8;10;11;3;6]) (-1) 1);
  (*2987*) AddTo n_t4new (Times (Einsum [(n_t1,[0;1]); (n_t1,[2;3]); (n_t2,[4;5;6;7]); (n_t2,[8;9;10;11]); (n_v'oovv,[2;9;1;7])] [0;4;8;5;6;10;11;3]) (-1) 1);
  (*2988*) AddTo n_t4new (Plain (Einsum [(n_t1,[0;1]); (n_t1,[2;3]); (n_t2,[4;5;6;7]); (n_t2,[8;9;10;11]); (n_v'oovv,[2;9;1;7])] [0;4;8;5;10;6;11;3]));
  (*2989*) AddTo n_t4new (Times (Einsum [(n_t1,[0;1]); (n_t1,[2;3]); (n_t2,[4;5;6;7]); (n_t2,[8;9;10;11]); (n_v'oovv,[2;9;1;7])] [0;4;8;5;10;11;6;3]) (-1) 1);
  (*2990*) AddTo n_t4new (Times (Einsum [(n_t1,[0;1]); (n_t1,[2;3]); (n_t2,[4;5;6;7]); (n_t2,[8;9;10;11]); (n_v'oovv,[2;5;1;11])] [0;4;8;9;6;10;7;3]) (-1) 1);
  (*2991*) AddTo n_t4new (Plain (Einsum [(n_t1,[0;1]); (n_t1,[2;3]); (n_t2,[4;5;6;7]); (n_t2,[8;9;10;11]); (n_v'oovv,[2;5;1;11])] [0;4;8;9;6;7;10;3]));
  (*2992*) AddTo n_t4new (Plain (Einsum [(n_t1,[0;1]); (n_t1,[2;3]); (n_t2,[4;5;6;7]); (n_t2,[8;9;10;11]); (n_v'oovv,[2;5;1;11])] [0;4;8;9;10;6;7;3]));
  (*2993*) AddTo n_t4new (Plain (Einsum [(n_t1,[0;1]); (n_t1,[2;3]); (n_t2,[4;5;6;7]); (n_t2,[8;9;10;11]); (n_v'oovv,[2;9;1;7])] [0;4;5;8;6;10;11;3]));
  (*2994*) AddTo n_t4new (Times (Einsum [(n_t1,[0;1]); (n_t1,[2;3]); (n_t2,[4;5;6;7]); (n_t2,[8;9;10;11]); (n_v'oovv,[2;9;1;7])] [0;4;5;8;10;6;11;3]) (-1) 1);
  (*2995*) AddTo n_t4new (Plain (Einsum [(n_t1,[0;1]); (n_t1,[2;3]); (n_t2,[4;5;6;7]); (n_t2,[8;9;10;11]); (n_v'oovv,[2;9;1;7])] [0;4;5;8;10;11;6;3]));
  (*2996*) AddTo n_t4new (Plain (Einsum [(n_t1,[0;1]); (n_t1,[2;3]); (n_t2,[4;5;6;7]); (n_t2,[8;9;10;11]); (n_v'oovv,[5;9;1;3])] [4;0;2;8;6;10;7;11]));
  (*2997*) AddTo n_t4new (Times (Einsum [(n_t1,[0;1]); (n_t1,[2;3]); (n_t2,[4;5;6;7]); (n_t2,[8;9;10;11]); (n_v'oovv,[5;9;1;3])] [4;0;2;8;6;10;11;7]) (-1) 1);
  (*2998*) AddTo n_t4new (Times (Einsum [(n_t1,[0;1]); (n_t1,[2;3]); (n_t2,[4;5;6;7]); (n_t2,[8;9;10;11]); (n_v'oovv,[5;9;1;3])] [4;0;2;8;6;7;10;11]) (-1) 1);
  (*2999*) AddTo n_t4new (Times (Einsum [(n_t1,[0;1]); (n_t1,[2;3]); (n_t2,[4;5;6;7]); (n_t2,[8;9;10;11]); (n_v'oovv,[5;9;1;3])] [4;0;2;8;10;6;7;11]) (-1) 1);
  (*3000*) AddTo n_t4new (Plain (Einsum [(n_t1,[0;1]); (n_t1,[2;3]); (n_t2,[4;5;6;7]); (n_t2,[8;9;10;11]); (n_v'oovv,[5;9;1;3])] [4;0;2;8;10;6;11;7]));
  (*3001*) AddTo n_t4new (Times (Einsum [(n_t1,[0;1]); (n_t1,[2;3]); (n_t2,[4;5;6;7]); (n_t2,[8;9;10;11]); (n_v'oovv,[5;9;1;3])] [4;0;2;8;10;11;6;7]) (-1) 1);
  (*3002*) AddTo n_t4new (Times (Einsum [(n_t1,[0;1]); (n_t1,[2;3]); (n_t2,[4;5;6;7]); (n_t2,[8;9;10;11]); (n_v'oovv,[5;9;1;3])] [4;0;8;2;6;10;7;11]) (-1) 1);
  (*3003*) AddTo n_t4new (Plain (Einsum [(n_t1,[0;1]); (n_t1,[2;3]); (n_t2,[4;5;6;7]); (n_t2,[8;9;10;11]); (n_v'oovv,[5;9;1;3])] [4;0;8;2;6;10;11;7]));
  (*3004*) AddTo n_t4new (Plain (Einsum [(n_t1,[0;1]); (n_t1,[2;3]); (n_t2,[4;5;6;7]); (n_t2,[8;9;10;11]); (n_v'oovv,[5;9;1;3])] [4;0;8;2;6;7;10;11]));
  (*3005*) AddTo n_t4new (Plain (Einsum [(n_t1,[0;1]); (n_t1,[2;3]); (n_t2,[4;5;6;7]); (n_t2,[8;9;10;11]); (n_v'oovv,[5;9;1;3])] [4;0;8;2;10;6;7;11]));
  (*3006*) AddTo n_t4new (Times (Einsum [(n_t1,[0;1]); (n_t1,[2;3]); (n_t2,[4;5;6;7]); (n_t2,[8;9;10;11]); (n_v'oovv,[5;9;1;3])] [4;0;8;2;10;6;11;7]) (-1) 1);
  (*3007*) AddTo n_t4new (Plain (Einsum [(n_t1,[0;1]); (n_t1,[2;3]); (n_t2,[4;5;6;7]); (n_t2,[8;9;10;11]); (n_v'oovv,[5;9;1;3])] [4;0;8;2;10;11;6;7]));
  (*3008*) AddTo n_t4new (Times (Einsum [(n_t1,[0;1]); (n_t1,[2;3]); (n_t2,[4;5;6;7]); (n_t2,[8;9;10;11]); (n_v'oovv,[2;9;1;7])] [4;0;8;5;3;6;10;11]) (-1) 1);
  (*3009*) AddTo n_t4new (Plain (Einsum [(n_t1,[0;1]); (n_t1,[2;3]); (n_t2,[4;5;6;7]); (n_t2,[8;9;10;11]); (n_v'oovv,[2;9;1;7])] [4;0;8;5;3;10;6;11]));
  (*3010*) AddTo n_t4new (Times (Einsum [(n_t1,[0;1]); (n_t1,[2;3]); (n_t2,[4;5;6;7]); (n_t2,[8;9;10;11]); (n_v'oovv,[2;9;1;7])] [4;0;8;5;3;10;11;6]) (-1) 1);
  (*3011*) AddTo n_t4new (Times (Einsum [(n_t1,[0;1]); (n_t1,[2;3]); (n_t2,[4;5;6;7]); (n_t2,[8;9;10;11]); (n_v'oovv,[2;5;1;11])] [4;0;8;9;3;6;10;7]) (-1) 1);
  (*3012*) AddTo n_t4new (Plain (Einsum [(n_t1,[0;1]); (n_t1,[2;3]); (n_t2,[4;5;6;7]); (n_t2,[8;9;10;11]); (n_v'oovv,[2;5;1;11])] [4;0;8;9;3;6;7;10]));
  (*3013*) AddTo n_t4new (Plain (Einsum [(n_t1,[0;1]); (n_t1,[2;3]); (n_t2,[4;5;6;7]); (n_t2,[8;9;10;11]); (n_v'oovv,[2;5;1;11])] [4;0;8;9;3;10;6;7]));
  (*3014*) AddTo n_t4new (Plain (Einsum [(n_t1,[0;1]); (n_t1,[2;3]); (n_t2,[4;5;6;7]); (n_t2,[8;9;10;11]); (n_v'oovv,[2;9;1;7])] [4;0;5;8;3;6;10;11]));
  (*3015*) AddTo n_t4new (Times (Einsum [(n_t1,[0;1]); (n_t1,[2;3]); (n_t2,[4;5;6;7]); (n_t2,[8;9;10;11]); (n_v'oovv,[2;9;1;7])] [4;0;5;8;3;10;6;11]) (-1) 1);
  (*3016*) AddTo n_t4new (Plain (Einsum [(n_t1,[0;1]); (n_t1,[2;3]); (n_t2,[4;5;6;7]); (n_t2,[8;9;10;11]); (n_v'oovv,[2;9;1;7])] [4;0;5;8;3;10;11;6]));
  (*3017*) AddTo n_t4new (Plain (Einsum [(n_t1,[0;1]); (n_t1,[2;3]); (n_t2,[4;5;6;7]); (n_t2,[8;9;10;11]); (n_v'oovv,[2;9;1;7])] [4;0;8;5;6;3;10;11]));
  (*3018*) AddTo n_t4new (Times (Einsum [(n_t1,[0;1]); (n_t1,[2;3]); (n_t2,[4;5;6;7]); (n_t2,[8;9;10;11]); (n_v'oovv,[2;9;1;7])] [4;0;8;5;10;3;6;11]) (-1) 1);
  (*3019*) AddTo n_t4new (Plain (Einsum [(n_t1,[0;1]); (n_t1,[2;3]); (n_t2,[4;5;6;7]); (n_t2,[8;9;10;11]); (n_v'oovv,[2;9;1;7])] [4;0;8;5;10;3;11;6]));
  (*3020*) AddTo n_t4new (Plain (Einsum [(n_t1,[0;1]); (n_t1,[2;3]); (n_t2,[4;5;6;7]); (n_t2,[8;9;10;11]); (n_v'oovv,[2;5;1;11])] [4;0;8;9;6;3;10;7]));
  (*3021*) AddTo n_t4new (Times (Einsum [(n_t1,[0;1]); (n_t1,[2;3]); (n_t2,[4;5;6;7]); (n_t2,[8;9;10;11]); (n_v'oovv,[2;5;1;11])] [4;0;8;9;6;3;7;10]) (-1) 1);
  (*3022*) AddTo n_t4new (Times (Einsum [(n_t1,[0;1]); (n_t1,[2;3]); (n_t2,[4;5;6;7]); (n_t2,[8;9;10;11]); (n_v'oovv,[2;5;1;11])] [4;0;8;9;10;3;6;7]) (-1) 1);
  (*3023*) AddTo n_t4new (Times (Einsum [(n_t1,[0;1]); (n_t1,[2;3]); (n_t2,[4;5;6;7]); (n_t2,[8;9;10;11]); (n_v'oovv,[2;9;1;7])] [4;0;5;8;6;3;10;11]) (-1) 1);
  (*3024*) AddTo n_t4new (Plain (Einsum [(n_t1,[0;1]); (n_t1,[2;3]); (n_t2,[4;5;6;7]); (n_t2,[8;9;10;11]); (n_v'oovv,[2;9;1;7])] [4;0;5;8;10;3;6;11]));
  (*3025*) AddTo n_t4new (Times (Einsum [(n_t1,[0;1]); (n_t1,[2;3]); (n_t2,[4;5;6;7]); (n_t2,[8;9;10;11]); (n_v'oovv,[2;9;1;7])] [4;0;5;8;10;3;11;6]) (-1) 1);
  (*3026*) AddTo n_t4new (Times (Einsum [(n_t1,[0;1]); (n_t1,[2;3]); (n_t2,[4;5;6;7]); (n_t2,[8;9;10;11]); (n_v'oovv,[2;9;1;7])] [4;0;8;5;6;10;3;11]) (-1) 1);
  (*3027*) AddTo n_t4new (Plain (Einsum [(n_t1,[0;1]); (n_t1,[2;3]); (n_t2,[4;5;6;7]); (n_t2,[8;9;10;11]); (n_v'oovv,[2;9;1;7])] [4;0;8;5;10;6;3;11]));
  (*3028*) AddTo n_t4new (Times (Einsum [(n_t1,[0;1]); (n_t1,[2;3]); (n_t2,[4;5;6;7]); (n_t2,[8;9;10;11]); (n_v'oovv,[2;9;1;7])] [4;0;8;5;10;11;3;6]) (-1) 1);
  (*3029*) AddTo n_t4new (Times (Einsum [(n_t1,[0;1]); (n_t1,[2;3]); (n_t2,[4;5;6;7]); (n_t2,[8;9;10;11]); (n_v'oovv,[2;5;1;11])] [4;0;8;9;6;10;3;7]) (-1) 1);
  (*3030*) AddTo n_t4new (Plain (Einsum [(n_t1,[0;1]); (n_t1,[2;3]); (n_t2,[4;5;6;7]); (n_t2,[8;9;10;11]); (n_v'oovv,[2;5;1;11])] [4;0;8;9;6;7;3;10]));
  (*3031*) AddTo n_t4new (Plain (Einsum [(n_t1,[0;1]); (n_t1,[2;3]); (n_t2,[4;5;6;7]); (n_t2,[8;9;10;11]); (n_v'oovv,[2;5;1;11])] [4;0;8;9;10;6;3;7]));
  (*3032*) AddTo n_t4new (Plain (Einsum [(n_t1,[0;1]); (n_t1,[2;3]); (n_t2,[4;5;6;7]); (n_t2,[8;9;10;11]); (n_v'oovv,[2;9;1;7])] [4;0;5;8;6;10;3;11]));
  (*3033*) AddTo n_t4new (Times (Einsum [(n_t1,[0;1]); (n_t1,[2;3]); (n_t2,[4;5;6;7]); (n_t2,[8;9;10;11]); (n_v'oovv,[2;9;1;7])] [4;0;5;8;10;6;3;11]) (-1) 1);
  (*3034*) AddTo n_t4new (Plain (Einsum [(n_t1,[0;1]); (n_t1,[2;3]); (n_t2,[4;5;6;7]); (n_t2,[8;9;10;11]); (n_v'oovv,[2;9;1;7])] [4;0;5;8;10;11;3;6]));
  (*3035*) AddTo n_t4new (Plain (Einsum [(n_t1,[0;1]); (n_t1,[2;3]); (n_t2,[4;5;6;7]); (n_t2,[8;9;10;11]); (n_v'oovv,[2;9;1;7])] [4;0;8;5;6;10;11;3]));
  (*3036*) AddTo n_t4new (Times (Einsum [(n_t1,[0;1]); (n_t1,[2;3]); (n_t2,[4;5;6;7]); (n_t2,[8;9;10;11]); (n_v'oovv,[2;9;1;7])] [4;0;8;5;10;6;11;3]) (-1) 1);
  (*3037*) AddTo n_t4new (Plain (Einsum [(n_t1,[0;1]); (n_t1,[2;3]); (n_t2,[4;5;6;7]); (n_t2,[8;9;10;11]); (n_v'oovv,[2;9;1;7])] [4;0;8;5;10;11;6;3]));
  (*3038*) AddTo n_t4new (Plain (Einsum [(n_t1,[0;1]); (n_t1,[2;3]); (n_t2,[4;5;6;7]); (n_t2,[8;9;10;11]); (n_v'oovv,[2;5;1;11])] [4;0;8;9;6;10;7;3]));
  (*3039*) AddTo n_t4new (Times (Einsum [(n_t1,[0;1]); (n_t1,[2;3]); (n_t2,[4;5;6;7]); (n_t2,[8;9;10;11]); (n_v'oovv,[2;5;1;11])] [4;0;8;9;6;7;10;3]) (-1) 1);
  (*3040*) AddTo n_t4new (Times (Einsum [(n_t1,[0;1]); (n_t1,[2;3]); (n_t2,[4;5;6;7]); (n_t2,[8;9;10;11]); (n_v'oovv,[2;5;1;11])] [4;0;8;9;10;6;7;3]) (-1) 1);
  (*3041*) AddTo n_t4new (Times (Einsum [(n_t1,[0;1]); (n_t1,[2;3]); (n_t2,[4;5;6;7]); (n_t2,[8;9;10;11]); (n_v'oovv,[2;9;1;7])] [4;0;5;8;6;10;11;3]) (-1) 1);
  (*3042*) AddTo n_t4new (Plain (Einsum [(n_t1,[0;1]); (n_t1,[2;3]); (n_t2,[4;5;6;7]); (n_t2,[8;9;10;11]); (n_v'oovv,[2;9;1;7])] [4;0;5;8;10;6;11;3]));
  (*3043*) AddTo n_t4new (Times (Einsum [(n_t1,[0;1]); (n_t1,[2;3]); (n_t2,[4;5;6;7]); (n_t2,[8;9;10;11]); (n_v'oovv,[2;9;1;7])] [4;0;5;8;10;11;6;3]) (-1) 1);
  (*3044*) AddTo n_t4new (Plain (Einsum [(n_t1,[0;1]); (n_t1,[2;3]); (n_t2,[4;5;6;7]); (n_t2,[8;9;10;11]); (n_v'oovv,[5;9;1;3])] [4;8;0;2;6;10;7;11]));
  (*3045*) AddTo n_t4new (Times (Einsum [(n_t1,[0;1]); (n_t1,[2;3]); (n_t2,[4;5;6;7]); (n_t2,[8;9;10;11]); (n_v'oovv,[5;9;1;3])] [4;8;0;2;6;10;11;7]) (-1) 1);
  (*3046*) AddTo n_t4new (Times (Einsum [(n_t1,[0;1]); (n_t1,[2;3]); (n_t2,[4;5;6;7]); (n_t2,[8;9;10;11]); (n_v'oovv,[5;9;1;3])] [4;8;0;2;6;7;10;11]) (-1) 1);
  (*3047*) AddTo n_t4new (Times (Einsum [(n_t1,[0;1]); (n_t1,[2;3]); (n_t2,[4;5;6;7]); (n_t2,[8;9;10;11]); (n_v'oovv,[5;9;1;3])] [4;8;0;2;10;6;7;11]) (-1) 1);
  (*3048*) AddTo n_t4new (Plain (Einsum [(n_t1,[0;1]); (n_t1,[2;3]); (n_t2,[4;5;6;7]); (n_t2,[8;9;10;11]); (n_v'oovv,[5;9;1;3])] [4;8;0;2;10;6;11;7]));
  (*3049*) AddTo n_t4new (Times (Einsum [(n_t1,[0;1]); (n_t1,[2;3]); (n_t2,[4;5;6;7]); (n_t2,[8;9;10;11]); (n_v'oovv,[5;9;1;3])] [4;8;0;2;10;11;6;7]) (-1) 1);
  (*3050*) AddTo n_t4new (Plain (Einsum [(n_t1,[0;1]); (n_t1,[2;3]); (n_t2,[4;5;6;7]); (n_t2,[8;9;10;11]); (n_v'oovv,[2;9;1;7])] [4;8;0;5;3;6;10;11]));
  (*3051*) AddTo n_t4new (Times (Einsum [(n_t1,[0;1]); (n_t1,[2;3]); (n_t2,[4;5;6;7]); (n_t2,[8;9;10;11]); (n_v'oovv,[2;9;1;7])] [4;8;0;5;3;10;6;11]) (-1) 1);
  (*3052*) AddTo n_t4new (Plain (Einsum [(n_t1,[0;1]); (n_t1,[2;3]); (n_t2,[4;5;6;7]); (n_t2,[8;9;10;11]); (n_v'oovv,[2;9;1;7])] [4;8;0;5;3;10;11;6]));
  (*3053*) AddTo n_t4new (Plain (Einsum [(n_t1,[0;1]); (n_t1,[2;3]); (n_t2,[4;5;6;7]); (n_t2,[8;9;10;11]); (n_v'oovv,[2;5;1;11])] [4;8;0;9;3;6;10;7]));
  (*3054*) AddTo n_t4new (Times (Einsum [(n_t1,[0;1]); (n_t1,[2;3]); (n_t2,[4;5;6;7]); (n_t2,[8;9;10;11]); (n_v'oovv,[2;5;1;11])] [4;8;0;9;3;6;7;10]) (-1) 1);
  (*3055*) AddTo n_t4new (Times (Einsum [(n_t1,[0;1]); (n_t1,[2;3]); (n_t2,[4;5;6;7]); (n_t2,[8;9;10;11]); (n_v'oovv,[2;5;1;11])] [4;8;0;9;3;10;6;7]) (-1) 1);
  (*3056*) AddTo n_t4new (Times (Einsum [(n_t1,[0;1]); (n_t1,[2;3]); (n_t2,[4;5;6;7]); (n_t2,[8;9;10;11]); (n_v'oovv,[2;9;1;7])] [4;5;0;8;3;6;10;11]) (-1) 1);
  (*3057*) AddTo n_t4new (Plain (Einsum [(n_t1,[0;1]); (n_t1,[2;3]); (n_t2,[4;5;6;7]); (n_t2,[8;9;10;11]); (n_v'oovv,[2;9;1;7])] [4;5;0;8;3;10;6;11]));
  (*3058*) AddTo n_t4new (Times (Einsum [(n_t1,[0;1]); (n_t1,[2;3]); (n_t2,[4;5;6;7]); (n_t2,[8;9;10;11]); (n_v'oovv,[2;9;1;7])] [4;5;0;8;3;10;11;6]) (-1) 1);
  (*3059*) AddTo n_t4new (Times (Einsum [(n_t1,[0;1]); (n_t1,[2;3]); (n_t2,[4;5;6;7]); (n_t2,[8;9;10;11]); (n_v'oovv,[2;9;1;7])] [4;8;0;5;6;3;10;11]) (-1) 1);
  (*3060*) AddTo n_t4new (Plain (Einsum [(n_t1,[0;1]); (n_t1,[2;3]); (n_t2,[4;5;6;7]); (n_t2,[8;9;10;11]); (n_v'oovv,[2;9;1;7])] [4;8;0;5;10;3;6;11]));
  (*3061*) AddTo n_t4new (Times (Einsum [(n_t1,[0;1]); (n_t1,[2;3]); (n_t2,[4;5;6;7]); (n_t2,[8;9;10;11]); (n_v'oovv,[2;9;1;7])] [4;8;0;5;10;3;11;6]) (-1) 1);
  (*3062*) AddTo n_t4new (Times (Einsum [(n_t1,[0;1]); (n_t1,[2;3]); (n_t2,[4;5;6;7]); (n_t2,[8;9;10;11]); (n_v'oovv,[2;5;1;11])] [4;8;0;9;6;3;10;7]) (-1) 1);
  (*3063*) AddTo n_t4new (Plain (Einsum [(n_t1,[0;1]); (n_t1,[2;3]); (n_t2,[4;5;6;7]); (n_t2,[8;9;10;11]); (n_v'oovv,[2;5;1;11])] [4;8;0;9;6;3;7;10]));
  (*3064*) AddTo n_t4new (Plain (Einsum [(n_t1,[0;1]); (n_t1,[2;3]); (n_t2,[4;5;6;7]); (n_t2,[8;9;10;11]); (n_v'oovv,[2;5;1;11])] [4;8;0;9;10;3;6;7]));
  (*3065*) AddTo n_t4new (Plain (Einsum [(n_t1,[0;1]); (n_t1,[2;3]); (n_t2,[4;5;6;7]); (n_t2,[8;9;10;11]); (n_v'oovv,[2;9;1;7])] [4;5;0;8;6;3;10;11]));
  (*3066*) AddTo n_t4new (Times (Einsum [(n_t1,[0;1]); (n_t1,[2;3]); (n_t2,[4;5;6;7]); (n_t2,[8;9;10;11]); (n_v'oovv,[2;9;1;7])] [4;5;0;8;10;3;6;11]) (-1) 1);
  (*3067*) AddTo n_t4new (Plain (Einsum [(n_t1,[0;1]); (n_t1,[2;3]); (n_t2,[4;5;6;7]); (n_t2,[8;9;10;11]); (n_v'oovv,[2;9;1;7])] [4;5;0;8;10;3;11;6]));
  (*3068*) AddTo n_t4new (Plain (Einsum [(n_t1,[0;1]); (n_t1,[2;3]); (n_t2,[4;5;6;7]); (n_t2,[8;9;10;11]); (n_v'oovv,[2;9;1;7])] [4;8;0;5;6;10;3;11]));
  (*3069*) AddTo n_t4new (Times (Einsum [(n_t1,[0;1]); (n_t1,[2;3]); (n_t2,[4;5;6;7]); (n_t2,[8;9;10;11]); (n_v'oovv,[2;9;1;7])] [4;8;0;5;10;6;3;11]) (-1) 1);
  (*3070*) AddTo n_t4new (Plain (Einsum [(n_t1,[0;1]); (n_t1,[2;3]); (n_t2,[4;5;6;7]); (n_t2,[8;9;10;11]); (n_v'oovv,[2;9;1;7])] [4;8;0;5;10;11;3;6]));
  (*3071*) AddTo n_t4new (Plain (Einsum [(n_t1,[0;1]); (n_t1,[2;3]); (n_t2,[4;5;6;7]); (n_t2,[8;9;10;11]); (n_v'oovv,[2;5;1;11])] [4;8;0;9;6;10;3;7]));
  (*3072*) AddTo n_t4new (Times (Einsum [(n_t1,[0;1]); (n_t1,[2;3]); (n_t2,[4;5;6;7]); (n_t2,[8;9;10;11]); (n_v'oovv,[2;5;1;11])] [4;8;0;9;6;7;3;10]) (-1) 1);
  (*3073*) AddTo n_t4new (Times (Einsum [(n_t1,[0;1]); (n_t1,[2;3]); (n_t2,[4;5;6;7]); (n_t2,[8;9;10;11]); (n_v'oovv,[2;5;1;11])] [4;8;0;9;10;6;3;7]) (-1) 1);
  (*3074*) AddTo n_t4new (Times (Einsum [(n_t1,[0;1]); (n_t1,[2;3]); (n_t2,[4;5;6;7]); (n_t2,[8;9;10;11]); (n_v'oovv,[2;9;1;7])] [4;5;0;8;6;10;3;11]) (-1) 1);
  (*3075*) AddTo n_t4new (Plain (Einsum [(n_t1,[0;1]); (n_t1,[2;3]); (n_t2,[4;5;6;7]); (n_t2,[8;9;10;11]); (n_v'oovv,[2;9;1;7])] [4;5;0;8;10;6;3;11]));
  (*3076*) AddTo n_t4new (Times (Einsum [(n_t1,[0;1]); (n_t1,[2;3]); (n_t2,[4;5;6;7]); (n_t2,[8;9;10;11]); (n_v'oovv,[2;9;1;7])] [4;5;0;8;10;11;3;6]) (-1) 1);
  (*3077*) AddTo n_t4new (Times (Einsum [(n_t1,[0;1]); (n_t1,[2;3]); (n_t2,[4;5;6;7]); (n_t2,[8;9;10;11]); (n_v'oovv,[2;9;1;7])] [4;8;0;5;6;10;11;3]) (-1) 1);
  (*3078*) AddTo n_t4new (Plain (Einsum [(n_t1,[0;1]); (n_t1,[2;3]); (n_t2,[4;5;6;7]); (n_t2,[8;9;10;11]); (n_v'oovv,[2;9;1;7])] [4;8;0;5;10;6;11;3]));
  (*3079*) AddTo n_t4new (Times (Einsum [(n_t1,[0;1]); (n_t1,[2;3]); (n_t2,[4;5;6;7]); (n_t2,[8;9;10;11]); (n_v'oovv,[2;9;1;7])] [4;8;0;5;10;11;6;3]) (-1) 1);
  (*3080*) AddTo n_t4new (Times (Einsum [(n_t1,[0;1]); (n_t1,[2;3]); (n_t2,[4;5;6;7]); (n_t2,[8;9;10;11]); (n_v'oovv,[2;5;1;11])] [4;8;0;9;6;10;7;3]) (-1) 1);
  (*3081*) AddTo n_t4new (Plain (Einsum [(n_t1,[0;1]); (n_t1,[2;3]); (n_t2,[4;5;6;7]); (n_t2,[8;9;10;11]); (n_v'oovv,[2;5;1;11])] [4;8;0;9;6;7;10;3]));
  (*3082*) AddTo n_t4new (Plain (Einsum [(n_t1,[0;1]); (n_t1,[2;3]); (n_t2,[4;5;6;7]); (n_t2,[8;9;10;11]); (n_v'oovv,[2;5;1;11])] [4;8;0;9;10;6;7;3]));
  (*3083*) AddTo n_t4new (Plain (Einsum [(n_t1,[0;1]); (n_t1,[2;3]); (n_t2,[4;5;6;7]); (n_t2,[8;9;10;11]); (n_v'oovv,[2;9;1;7])] [4;5;0;8;6;10;11;3]));
  (*3084*) AddTo n_t4new (Times (Einsum [(n_t1,[0;1]); (n_t1,[2;3]); (n_t2,[4;5;6;7]); (n_t2,[8;9;10;11]); (n_v'oovv,[2;9;1;7])] [4;5;0;8;10;6;11;3]) (-1) 1);
  (*3085*) AddTo n_t4new (Plain (Einsum [(n_t1,[0;1]); (n_t1,[2;3]); (n_t2,[4;5;6;7]); (n_t2,[8;9;10;11]); (n_v'oovv,[2;9;1;7])] [4;5;0;8;10;11;6;3]));
  (*3086*) AddTo n_t4new (Times (Einsum [(n_t1,[0;1]); (n_t1,[2;3]); (n_t2,[4;5;6;7]); (n_t2,[8;9;10;11]); (n_v'oovv,[2;9;1;7])] [4;8;5;0;3;6;10;11]) (-1) 1);
  (*3087*) AddTo n_t4new (Plain (Einsum [(n_t1,[0;1]); (n_t1,[2;3]); (n_t2,[4;5;6;7]); (n_t2,[8;9;10;11]); (n_v'oovv,[2;9;1;7])] [4;8;5;0;3;10;6;11]));
  (*3088*) AddTo n_t4new (Times (Einsum [(n_t1,[0;1]); (n_t1,[2;3]); (n_t2,[4;5;6;7]); (n_t2,[8;9;10;11]); (n_v'oovv,[2;9;1;7])] [4;8;5;0;3;10;11;6]) (-1) 1);
  (*3089*) AddTo n_t4new (Times (Einsum [(n_t1,[0;1]); (n_t1,[2;3]); (n_t2,[4;5;6;7]); (n_t2,[8;9;10;11]); (n_v'oovv,[2;5;1;11])] [4;8;9;0;3;6;10;7]) (-1) 1);
  (*3090*) AddTo n_t4new (Plain (Einsum [(n_t1,[0;1]); (n_t1,[2;3]); (n_t2,[4;5;6;7]); (n_t2,[8;9;10;11]); (n_v'oovv,[2;5;1;11])] [4;8;9;0;3;6;7;10]));
  (*3091*) AddTo n_t4new (Plain (Einsum [(n_t1,[0;1]); (n_t1,[2;3]); (n_t2,[4;5;6;7]); (n_t2,[8;9;10;11]); (n_v'oovv,[2;5;1;11])] [4;8;9;0;3;10;6;7]));
  (*3092*) AddTo n_t4new (Plain (Einsum [(n_t1,[0;1]); (n_t1,[2;3]); (n_t2,[4;5;6;7]); (n_t2,[8;9;10;11]); (n_v'oovv,[2;9;1;7])] [4;5;8;0;3;6;10;11]));
  (*3093*) AddTo n_t4new (Times (Einsum [(n_t1,[0;1]); (n_t1,[2;3]); (n_t2,[4;5;6;7]); (n_t2,[8;9;10;11]); (n_v'oovv,[2;9;1;7])] [4;5;8;0;3;10;6;11]) (-1) 1);
  (*3094*) AddTo n_t4new (Plain (Einsum [(n_t1,[0;1]); (n_t1,[2;3]); (n_t2,[4;5;6;7]); (n_t2,[8;9;10;11]); (n_v'oovv,[2;9;1;7])] [4;5;8;0;3;10;11;6]));
  (*3095*) AddTo n_t4new (Plain (Einsum [(n_t1,[0;1]); (n_t1,[2;3]); (n_t2,[4;5;6;7]); (n_t2,[8;9;10;11]); (n_v'oovv,[2;9;1;7])] [4;8;5;0;6;3;10;11]));
  (*3096*) AddTo n_t4new (Times (Einsum [(n_t1,[0;1]); (n_t1,[2;3]); (n_t2,[4;5;6;7]); (n_t2,[8;9;10;11]); (n_v'oovv,[2;9;1;7])] [4;8;5;0;10;3;6;11]) (-1) 1);
  (*3097*) AddTo n_t4new (Plain (Einsum [(n_t1,[0;1]); (n_t1,[2;3]); (n_t2,[4;5;6;7]); (n_t2,[8;9;10;11]); (n_v'oovv,[2;9;1;7])] [4;8;5;0;10;3;11;6]));
  (*3098*) AddTo n_t4new (Plain (Einsum [(n_t1,[0;1]); (n_t1,[2;3]); (n_t2,[4;5;6;7]); (n_t2,[8;9;10;11]); (n_v'oovv,[2;5;1;11])] [4;8;9;0;6;3;10;7]));
  (*3099*) AddTo n_t4new (Times (Einsum [(n_t1,[0;1]); (n_t1,[2;3]); (n_t2,[4;5;6;7]); (n_t2,[8;9;10;11]); (n_v'oovv,[2;5;1;11])] [4;8;9;0;6;3;7;10]) (-1) 1);
  (*3100*) AddTo n_t4new (Times (Einsum [(n_t1,[0;1]); (n_t1,[2;3]); (n_t2,[4;5;6;7]); (n_t2,[8;9;10;11]); (n_v'oovv,[2;5;1;11])] [4;8;9;0;10;3;6;7]) (-1) 1);
  (*3101*) AddTo n_t4new (Times (Einsum [(n_t1,[0;1]); (n_t1,[2;3]); (n_t2,[4;5;6;7]); (n_t2,[8;9;10;11]); (n_v'oovv,[2;9;1;7])] [4;5;8;0;6;3;10;11]) (-1) 1);
  (*3102*) AddTo n_t4new (Plain (Einsum [(n_t1,[0;1]); (n_t1,[2;3]); (n_t2,[4;5;6;7]); (n_t2,[8;9;10;11]); (n_v'oovv,[2;9;1;7])] [4;5;8;0;10;3;6;11]));
  (*3103*) AddTo n_t4new (Times (Einsum [(n_t1,[0;1]); (n_t1,[2;3]); (n_t2,[4;5;6;7]); (n_t2,[8;9;10;11]); (n_v'oovv,[2;9;1;7])] [4;5;8;0;10;3;11;6]) (-1) 1);
  (*3104*) AddTo n_t4new (Times (Einsum [(n_t1,[0;1]); (n_t1,[2;3]); (n_t2,[4;5;6;7]); (n_t2,[8;9;10;11]); (n_v'oovv,[2;9;1;7])] [4;8;5;0;6;10;3;11]) (-1) 1);
  (*3105*) AddTo n_t4new (Plain (Einsum [(n_t1,[0;1]); (n_t1,[2;3]); (n_t2,[4;5;6;7]); (n_t2,[8;9;10;11]); (n_v'oovv,[2;9;1;7])] [4;8;5;0;10;6;3;11]));
  (*3106*) AddTo n_t4new (Times (Einsum [(n_t1,[0;1]); (n_t1,[2;3]); (n_t2,[4;5;6;7]); (n_t2,[8;9;10;11]); (n_v'oovv,[2;9;1;7])] [4;8;5;0;10;11;3;6]) (-1) 1);
  (*3107*) AddTo n_t4new (Times (Einsum [(n_t1,[0;1]); (n_t1,[2;3]); (n_t2,[4;5;6;7]); (n_t2,[8;9;10;11]); (n_v'oovv,[2;5;1;11])] [4;8;9;0;6;10;3;7]) (-1) 1);
  (*3108*) AddTo n_t4new (Plain (Einsum [(n_t1,[0;1]); (n_t1,[2;3]); (n_t2,[4;5;6;7]); (n_t2,[8;9;10;11]); (n_v'oovv,[2;5;1;11])] [4;8;9;0;6;7;3;10]));
  (*3109*) AddTo n_t4new (Plain (Einsum [(n_t1,[0;1]); (n_t1,[2;3]); (n_t2,[4;5;6;7]); (n_t2,[8;9;10;11]); (n_v'oovv,[2;5;1;11])] [4;8;9;0;10;6;3;7]));
  (*3110*) AddTo n_t4new (Plain (Einsum [(n_t1,[0;1]); (n_t1,[2;3]); (n_t2,[4;5;6;7]); (n_t2,[8;9;10;11]); (n_v'oovv,[2;9;1;7])] [4;5;8;0;6;10;3;11]));
  (*3111*) AddTo n_t4new (Times (Einsum [(n_t1,[0;1]); (n_t1,[2;3]); (n_t2,[4;5;6;7]); (n_t2,[8;9;10;11]); (n_v'oovv,[2;9;1;7])] [4;5;8;0;10;6;3;11]) (-1) 1);
  (*3112*) AddTo n_t4new (Plain (Einsum [(n_t1,[0;1]); (n_t1,[2;3]); (n_t2,[4;5;6;7]); (n_t2,[8;9;10;11]); (n_v'oovv,[2;9;1;7])] [4;5;8;0;10;11;3;6]));
  (*3113*) AddTo n_t4new (Plain (Einsum [(n_t1,[0;1]); (n_t1,[2;3]); (n_t2,[4;5;6;7]); (n_t2,[8;9;10;11]); (n_v'oovv,[2;9;1;7])] [4;8;5;0;6;10;11;3]));
  (*3114*) AddTo n_t4new (Times (Einsum [(n_t1,[0;1]); (n_t1,[2;3]); (n_t2,[4;5;6;7]); (n_t2,[8;9;10;11]); (n_v'oovv,[2;9;1;7])] [4;8;5;0;10;6;11;3]) (-1) 1);
  (*3115*) AddTo n_t4new (Plain (Einsum [(n_t1,[0;1]); (n_t1,[2;3]); (n_t2,[4;5;6;7]); (n_t2,[8;9;10;11]); (n_v'oovv,[2;9;1;7])] [4;8;5;0;10;11;6;3]));
  (*3116*) AddTo n_t4new (Plain (Einsum [(n_t1,[0;1]); (n_t1,[2;3]); (n_t2,[4;5;6;7]); (n_t2,[8;9;10;11]); (n_v'oovv,[2;5;1;11])] [4;8;9;0;6;10;7;3]));
  (*3117*) AddTo n_t4new (Times (Einsum [(n_t1,[0;1]); (n_t1,[2;3]); (n_t2,[4;5;6;7]); (n_t2,[8;9;10;11]); (n_v'oovv,[2;5;1;11])] [4;8;9;0;6;7;10;3]) (-1) 1);
  (*3118*) AddTo n_t4new (Times (Einsum [(n_t1,[0;1]); (n_t1,[2;3]); (n_t2,[4;5;6;7]); (n_t2,[8;9;10;11]); (n_v'oovv,[2;5;1;11])] [4;8;9;0;10;6;7;3]) (-1) 1);
  (*3119*) AddTo n_t4new (Times (Einsum [(n_t1,[0;1]); (n_t1,[2;3]); (n_t2,[4;5;6;7]); (n_t2,[8;9;10;11]); (n_v'oovv,[2;9;1;7])] [4;5;8;0;6;10;11;3]) (-1) 1);
  (*3120*) AddTo n_t4new (Plain (Einsum [(n_t1,[0;1]); (n_t1,[2;3]); (n_t2,[4;5;6;7]); (n_t2,[8;9;10;11]); (n_v'oovv,[2;9;1;7])] [4;5;8;0;10;6;11;3]));
  (*3121*) AddTo n_t4new (Times (Einsum [(n_t1,[0;1]); (n_t1,[2;3]); (n_t2,[4;5;6;7]); (n_t2,[8;9;10;11]); (n_v'oovv,[2;9;1;7])] [4;5;8;0;10;11;6;3]) (-1) 1);
  (*3122*) AddTo n_t4new (Plain (Einsum [(n_t1,[0;1]); (n_t1,[2;3]); (n_t2,[4;5;6;7]); (n_t2,[8;9;10;11]); (n_v'oovv,[0;2;7;11])] [4;8;5;9;1;3;6;10]));
  (*3123*) AddTo n_t4new (Times (Einsum [(n_t1,[0;1]); (n_t1,[2;3]); (n_t2,[4;5;6;7]); (n_t2,[8;9;10;11]); (n_v'oovv,[0;2;7;11])] [4;8;5;9;1;3;10;6]) (-1) 1);
  (*3124*) AddTo n_t4new (Times (Einsum [(n_t1,[0;1]); (n_t1,[2;3]); (n_t2,[4;5;6;7]); (n_t2,[8;9;10;11]); (n_v'oovv,[0;2;7;11])] [4;8;9;5;1;3;6;10]) (-1) 1);
  (*3125*) AddTo n_t4new (Plain (Einsum [(n_t1,[0;1]); (n_t1,[2;3]); (n_t2,[4;5;6;7]); (n_t2,[8;9;10;11]); (n_v'oovv,[0;2;7;11])] [4;8;9;5;1;3;10;6]));
  (*3126*) AddTo n_t4new (Times (Einsum [(n_t1,[0;1]); (n_t1,[2;3]); (n_t2,[4;5;6;7]); (n_t2,[8;9;10;11]); (n_v'oovv,[0;2;7;11])] [4;5;8;9;1;3;6;10]) (-1) 1);
  (*3127*) AddTo n_t4new (Plain (Einsum [(n_t1,[0;1]); (n_t1,[2;3]); (n_t2,[4;5;6;7]); (n_t2,[8;9;10;11]); (n_v'oovv,[0;2;7;11])] [4;5;8;9;1;3;10;6]));
  (*3128*) AddTo n_t4new (Times (Einsum [(n_t1,[0;1]); (n_t1,[2;3]); (n_t2,[4;5;6;7]); (n_t2,[8;9;10;11]); (n_v'oovv,[0;2;7;11])] [4;8;5;9;1;6;3;10]) (-1) 1);
  (*3129*) AddTo n_t4new (Plain (Einsum [(n_t1,[0;1]); (n_t1,[2;3]); (n_t2,[4;5;6;7]); (n_t2,[8;9;10;11]); (n_v'oovv,[0;2;7;11])] [4;8;5;9;1;10;3;6]));
  (*3130*) AddTo n_t4new (Plain (Einsum [(n_t1,[0;1]); (n_t1,[2;3]); (n_t2,[4;5;6;7]); (n_t2,[8;9;10;11]); (n_v'oovv,[0;2;7;11])] [4;8;9;5;1;6;3;10]));
  (*3131*) AddTo n_t4new (Times (Einsum [(n_t1,[0;1]); (n_t1,[2;3]); (n_t2,[4;5;6;7]); (n_t2,[8;9;10;11]); (n_v'oovv,[0;2;7;11])] [4;8;9;5;1;10;3;6]) (-1) 1);
  (*3132*) AddTo n_t4new (Plain (Einsum [(n_t1,[0;1]); (n_t1,[2;3]); (n_t2,[4;5;6;7]); (n_t2,[8;9;10;11]); (n_v'oovv,[0;2;7;11])] [4;5;8;9;1;6;3;10]));
  (*3133*) AddTo n_t4new (Times (Einsum [(n_t1,[0;1]); (n_t1,[2;3]); (n_t2,[4;5;6;7]); (n_t2,[8;9;10;11]); (n_v'oovv,[0;2;7;11])] [4;5;8;9;1;10;3;6]) (-1) 1);
  (*3134*) AddTo n_t4new (Plain (Einsum [(n_t1,[0;1]); (n_t1,[2;3]); (n_t2,[4;5;6;7]); (n_t2,[8;9;10;11]); (n_v'oovv,[0;2;7;11])] [4;8;5;9;1;6;10;3]));
  (*3135*) AddTo n_t4new (Times (Einsum [(n_t1,[0;1]); (n_t1,[2;3]); (n_t2,[4;5;6;7]); (n_t2,[8;9;10;11]); (n_v'oovv,[0;2;7;11])] [4;8;5;9;1;10;6;3]) (-1) 1);
  (*3136*) AddTo n_t4new (Times (Einsum [(n_t1,[0;1]); (n_t1,[2;3]); (n_t2,[4;5;6;7]); (n_t2,[8;9;10;11]); (n_v'oovv,[0;2;7;11])] [4;8;9;5;1;6;10;3]) (-1) 1);
  (*3137*) AddTo n_t4new (Plain (Einsum [(n_t1,[0;1]); (n_t1,[2;3]); (n_t2,[4;5;6;7]); (n_t2,[8;9;10;11]); (n_v'oovv,[0;2;7;11])] [4;8;9;5;1;10;6;3]));
  (*3138*) AddTo n_t4new (Times (Einsum [(n_t1,[0;1]); (n_t1,[2;3]); (n_t2,[4;5;6;7]); (n_t2,[8;9;10;11]); (n_v'oovv,[0;2;7;11])] [4;5;8;9;1;6;10;3]) (-1) 1);
  (*3139*) AddTo n_t4new (Plain (Einsum [(n_t1,[0;1]); (n_t1,[2;3]); (n_t2,[4;5;6;7]); (n_t2,[8;9;10;11]); (n_v'oovv,[0;2;7;11])] [4;5;8;9;1;10;6;3]));
  (*3140*) AddTo n_t4new (Plain (Einsum [(n_t1,[0;1]); (n_t1,[2;3]); (n_t2,[4;5;6;7]); (n_t2,[8;9;10;11]); (n_v'oovv,[0;2;7;11])] [4;8;5;9;6;1;3;10]));
  (*3141*) AddTo n_t4new (Times (Einsum [(n_t1,[0;1]); (n_t1,[2;3]); (n_t2,[4;5;6;7]); (n_t2,[8;9;10;11]); (n_v'oovv,[0;2;7;11])] [4;8;5;9;10;1;3;6]) (-1) 1);
  (*3142*) AddTo n_t4new (Times (Einsum [(n_t1,[0;1]); (n_t1,[2;3]); (n_t2,[4;5;6;7]); (n_t2,[8;9;10;11]); (n_v'oovv,[0;2;7;11])] [4;8;9;5;6;1;3;10]) (-1) 1);
  (*3143*) AddTo n_t4new (Plain (Einsum [(n_t1,[0;1]); (n_t1,[2;3]); (n_t2,[4;5;6;7]); (n_t2,[8;9;10;11]); (n_v'oovv,[0;2;7;11])] [4;8;9;5;10;1;3;6]));
  (*3144*) AddTo n_t4new (Times (Einsum [(n_t1,[0;1]); (n_t1,[2;3]); (n_t2,[4;5;6;7]); (n_t2,[8;9;10;11]); (n_v'oovv,[0;2;7;11])] [4;5;8;9;6;1;3;10]) (-1) 1);
  (*3145*) AddTo n_t4new (Plain (Einsum [(n_t1,[0;1]); (n_t1,[2;3]); (n_t2,[4;5;6;7]); (n_t2,[8;9;10;11]); (n_v'oovv,[0;2;7;11])] [4;5;8;9;10;1;3;6]));
  (*3146*) AddTo n_t4new (Times (Einsum [(n_t1,[0;1]); (n_t1,[2;3]); (n_t2,[4;5;6;7]); (n_t2,[8;9;10;11]); (n_v'oovv,[0;2;7;11])] [4;8;5;9;6;1;10;3]) (-1) 1);
  (*3147*) AddTo n_t4new (Plain (Einsum [(n_t1,[0;1]); (n_t1,[2;3]); (n_t2,[4;5;6;7]); (n_t2,[8;9;10;11]); (n_v'oovv,[0;2;7;11])] [4;8;5;9;10;1;6;3]));
  (*3148*) AddTo n_t4new (Plain (Einsum [(n_t1,[0;1]); (n_t1,[2;3]); (n_t2,[4;5;6;7]); (n_t2,[8;9;10;11]); (n_v'oovv,[0;2;7;11])] [4;8;9;5;6;1;10;3]));
  (*3149*) AddTo n_t4new (Times (Einsum [(n_t1,[0;1]); (n_t1,[2;3]); (n_t2,[4;5;6;7]); (n_t2,[8;9;10;11]); (n_v'oovv,[0;2;7;11])] [4;8;9;5;10;1;6;3]) (-1) 1);
  (*3150*) AddTo n_t4new (Plain (Einsum [(n_t1,[0;1]); (n_t1,[2;3]); (n_t2,[4;5;6;7]); (n_t2,[8;9;10;11]); (n_v'oovv,[0;2;7;11])] [4;5;8;9;6;1;10;3]));
  (*3151*) AddTo n_t4new (Times (Einsum [(n_t1,[0;1]); (n_t1,[2;3]); (n_t2,[4;5;6;7]); (n_t2,[8;9;10;11]); (n_v'oovv,[0;2;7;11])] [4;5;8;9;10;1;6;3]) (-1) 1);
  (*3152*) AddTo n_t4new (Plain (Einsum [(n_t1,[0;1]); (n_t1,[2;3]); (n_t2,[4;5;6;7]); (n_t2,[8;9;10;11]); (n_v'oovv,[0;2;7;11])] [4;8;5;9;6;10;1;3]));
  (*3153*) AddTo n_t4new (Times (Einsum [(n_t1,[0;1]); (n_t1,[2;3]); (n_t2,[4;5;6;7]); (n_t2,[8;9;10;11]); (n_v'oovv,[0;2;7;11])] [4;8;5;9;10;6;1;3]) (-1) 1);
  (*3154*) AddTo n_t4new (Times (Einsum [(n_t1,[0;1]); (n_t1,[2;3]); (n_t2,[4;5;6;7]); (n_t2,[8;9;10;11]); (n_v'oovv,[0;2;7;11])] [4;8;9;5;6;10;1;3]) (-1) 1);
  (*3155*) AddTo n_t4new (Plain (Einsum [(n_t1,[0;1]); (n_t1,[2;3]); (n_t2,[4;5;6;7]); (n_t2,[8;9;10;11]); (n_v'oovv,[0;2;7;11])] [4;8;9;5;10;6;1;3]));
  (*3156*) AddTo n_t4new (Times (Einsum [(n_t1,[0;1]); (n_t1,[2;3]); (n_t2,[4;5;6;7]); (n_t2,[8;9;10;11]); (n_v'oovv,[0;2;7;11])] [4;5;8;9;6;10;1;3]) (-1) 1);
  (*3157*) AddTo n_t4new (Plain (Einsum [(n_t1,[0;1]); (n_t1,[2;3]); (n_t2,[4;5;6;7]); (n_t2,[8;9;10;11]); (n_v'oovv,[0;2;7;11])] [4;5;8;9;10;6;1;3]))]
 [(n_t1new,[0;1]); (n_t2new,[0;0;1;1]); (n_t3new,[0;0;0;1;1;1]); (n_t4new,[0;0;0;0;1;1;1;1])].

