(** Generated by tools/translate_codegen.py from ebcc/codegen/UCCSDT.py; one statement per source line
    (the number in the comment before it). *)
From Coq Require Import ZArith List.
From Verif Require Import CgModel CgNames.
Import ListNotations.

(** ebcc/codegen/UCCSDT.py:7-33 [energy] *)
Definition UCCSDT_energy : prog := mkprog
 [(n_t2'abab,[4;6;5;7]); (n_v'aabb'ovov,[4;5;6;7]); (n_t2'bbbb,[6;6;7;7]); (n_v'bbbb'ovov,[6;7;6;7]); (n_t2'aaaa,[4;4;5;5]); (n_v'aaaa'ovov,[4;5;4;5]); (n_f'bb'ov,[6;7]); (n_t1'aa,[4;5]); (n_t1'bb,[6;7]); (n_f'aa'ov,[4;5])]
 [(*9*) Assign n_e_cc (Plain (Zeros []));
  (*10*) AddTo n_e_cc (Plain (Einsum [(n_t2'abab,[0;1;2;3]); (n_v'aabb'ovov,[0;2;1;3])] []));
  (*11*) AddTo n_e_cc (Times (Einsum [(n_t2'bbbb,[0;1;2;3]); (n_v'bbbb'ovov,[0;3;1;2])] []) (-1) 1);
  (*12*) AddTo n_e_cc (Plain (Einsum [(n_t2'aaaa,[0;1;2;3]); (n_v'aaaa'ovov,[0;2;1;3])] []));
  (*13*) Assign (T 1) (Plain (Zeros [6;6;7;7]));
  (*14*) AddTo (T 1) (Plain (Einsum [(n_v'bbbb'ovov,[0;1;2;3])] [0;2;3;1]));
  (*15*) AddTo (T 1) (Times (Einsum [(n_v'bbbb'ovov,[0;1;2;3])] [0;2;1;3]) (-1) 1);
  (*16*) Assign (T 2) (Plain (Zeros [6;7]));
  (*17*) AddTo (T 2) (Plain (Einsum [(n_f'bb'ov,[0;1])] [0;1]));
  (*18*) AddTo (T 2) (Plain (Einsum [(n_t1'aa,[0;1]); (n_v'aabb'ovov,[0;1;2;3])] [2;3]));
  (*19*) AddTo (T 2) (Times (Einsum [(n_t1'bb,[0;1]); (T 1,[0;2;1;3])] [2;3]) (-1) 2);
  (*20*) Del (T 1);
  (*21*) AddTo n_e_cc (Plain (Einsum [(n_t1'bb,[0;1]); (T 2,[0;1])] []));
  (*22*) Del (T 2);
  (*23*) Assign (T 3) (Plain (Zeros [4;4;5;5]));
  (*24*) AddTo (T 3) (Plain (Einsum [(n_v'aaaa'ovov,[0;1;2;3])] [0;2;3;1]));
  (*25*) AddTo (T 3) (Times (Einsum [(n_v'aaaa'ovov,[0;1;2;3])] [0;2;1;3]) (-1) 1);
  (*26*) Assign (T 4) (Plain (Zeros [4;5]));
  (*27*) AddTo (T 4) (Plain (Einsum [(n_f'aa'ov,[0;1])] [0;1]));
  (*28*) AddTo (T 4) (Times (Einsum [(n_t1'aa,[0;1]); (T 3,[0;2;1;3])] [2;3]) (-1) 2);
  (*29*) Del (T 3);
  (*30*) AddTo n_e_cc (Plain (Einsum [(n_t1'aa,[0;1]); (T 4,[0;1])] []));
  (*31*) Del (T 4)]
 [(n_e_cc,[])].

(** ebcc/codegen/UCCSDT.py:35-3110 [update_amps] *)
Definition UCCSDT_update_amps : prog := mkprog
 [(n_f'bb'ov,[6;7]); (n_v'aabb'ovov,[4;5;6;7]); (n_t3'babbab,[6;4;6;7;5;7]); (n_v'bbbb'ovov,[6;7;6;7]); (n_t3'bbbbbb,[6;6;6;7;7;7]); (n_v'aaaa'ovov,[4;5;4;5]); (n_t3'abaaba,[4;6;4;5;7;5]); (n_t3'aaaaaa,[4;4;4;5;5;5]); (n_f'aa'ov,[4;5]); (n_t2'aaaa,[4;4;5;5]); (n_v'aaaa'vvvv,[5;5;5;5]); (n_t2'bbbb,[6;6;7;7]); (n_v'bbbb'vvvv,[7;7;7;7]); (n_t1'aa,[4;5]); (n_t1'bb,[6;7]); (n_v'bbbb'ooov,[6;6;6;7]); (n_v'aabb'ovoo,[4;5;6;6]); (n_t2'abab,[4;6;5;7]); (n_v'aabb'ovvv,[4;5;7;7]); (n_v'aabb'vvov,[5;5;6;7]); (n_v'bbbb'ovvv,[6;7;7;7]); (n_v'bbbb'oovv,[6;6;7;7]); (n_f'bb'oo,[6;6]); (n_f'bb'vv,[7;7]); (n_v'aabb'ooov,[4;4;6;7]); (n_v'aaaa'ooov,[4;4;4;5]); (n_v'aaaa'ovvv,[4;5;5;5]); (n_v'aaaa'oovv,[4;4;5;5]); (n_f'aa'oo,[4;4]); (n_f'aa'vv,[5;5]); (n_v'aaaa'oooo,[4;4;4;4]); (n_v'aabb'oovv,[4;4;7;7]); (n_v'aabb'vvoo,[5;5;6;6]); (n_v'aabb'vvvv,[5;5;7;7]); (n_v'aabb'oooo,[4;4;6;6]); (n_v'bbbb'oooo,[6;6;6;6])]
 [(*41*) Assign n_t1new_bb (Plain (Zeros [6;7]));
  (*42*) AddTo n_t1new_bb (Plain (Einsum [(n_f'bb'ov,[0;1])] [0;1]));
  (*43*) AddTo n_t1new_bb (Times (Einsum [(n_v'aabb'ovov,[0;1;2;3]); (n_t3'babbab,[4;0;2;5;1;3])] [4;5]) (2) 1);
  (*44*) AddTo n_t1new_bb (Times (Einsum [(n_v'bbbb'ovov,[0;1;2;3]); (n_t3'bbbbbb,[4;0;2;5;1;3])] [4;5]) (3) 1);
  (*45*) AddTo n_t1new_bb (Plain (Einsum [(n_v'aaaa'ovov,[0;1;2;3]); (n_t3'abaaba,[0;4;2;1;5;3])] [4;5]));
  (*46*) Assign n_t1new_aa (Plain (Zeros [4;5]));
  (*47*) AddTo n_t1new_aa (Times (Einsum [(n_v'aabb'ovov,[0;1;2;3]); (n_t3'abaaba,[4;2;0;5;3;1])] [4;5]) (2) 1);
  (*48*) AddTo n_t1new_aa (Times (Einsum [(n_v'aaaa'ovov,[0;1;2;3]); (n_t3'aaaaaa,[4;0;2;5;1;3])] [4;5]) (3) 1);
  (*49*) AddTo n_t1new_aa (Plain (Einsum [(n_f'aa'ov,[0;1])] [0;1]));
  (*50*) AddTo n_t1new_aa (Times (Einsum [(n_v'bbbb'ovov,[0;1;2;3]); (n_t3'babbab,[0;4;2;3;5;1])] [4;5]) (-1) 1);
  (*51*) Assign n_t2new_aaaa (Plain (Zeros [4;4;5;5]));
  (*52*) AddTo n_t2new_aaaa (Times (Einsum [(n_t2'aaaa,[0;1;2;3]); (n_v'aaaa'vvvv,[4;2;5;3])] [0;1;4;5]) (2) 1);
  (*53*) Assign n_t2new_abab (Plain (Zeros [4;6;5;7]));
  (*54*) AddTo n_t2new_abab (Plain (Einsum [(n_v'aabb'ovov,[0;1;2;3])] [0;2;1;3]));
  (*55*) Assign n_t2new_bbbb (Plain (Zeros [6;6;7;7]));
  (*56*) AddTo n_t2new_bbbb (Times (Einsum [(n_t2'bbbb,[0;1;2;3]); (n_v'bbbb'vvvv,[4;3;5;2])] [0;1;4;5]) (-2) 1);
  (*57*) Assign (T 1) (Plain (Zeros [6;7]));
  (*58*) AddTo (T 1) (Plain (Einsum [(n_t1'aa,[0;1]); (n_v'aabb'ovov,[0;1;2;3])] [2;3]));
  (*59*) AddTo n_t1new_bb (Plain (Einsum [(T 1,[0;1])] [0;1]));
  (*60*) Assign (T 2) (Plain (Zeros [6;6;6;7]));
  (*61*) AddTo (T 2) (Plain (Einsum [(n_t1'bb,[0;1]); (n_v'bbbb'ovov,[2;3;4;1])] [0;2;4;3]));
  (*62*) Assign (T 3) (Plain (Zeros [6;6;6;7]));
  (*63*) AddTo (T 3) (Plain (Einsum [(n_v'bbbb'ooov,[0;1;2;3])] [0;2;1;3]));
  (*64*) AddTo (T 3) (Plain (Einsum [(T 2,[0;1;2;3])] [0;1;2;3]));
  (*65*) AddTo n_t1new_bb (Times (Einsum [(n_t2'bbbb,[0;1;2;3]); (T 3,[4;0;1;3])] [4;2]) (2) 1);
  (*66*) AddTo n_t2new_abab (Times (Einsum [(T 3,[0;1;2;3]); (n_t3'babbab,[1;4;2;5;6;3])] [4;0;6;5]) (2) 1);
  (*67*) Del (T 3);
  (*68*) Assign (T 4) (Plain (Zeros [6;6;4;5]));
  (*69*) AddTo (T 4) (Plain (Einsum [(n_t1'bb,[0;1]); (n_v'aabb'ovov,[2;3;4;1])] [0;4;2;3]));
  (*70*) Assign (T 5) (Plain (Zeros [6;6;4;5]));
  (*71*) AddTo (T 5) (Plain (Einsum [(n_v'aabb'ovoo,[0;1;2;3])] [2;3;0;1]));
  (*72*) AddTo (T 5) (Plain (Einsum [(T 4,[0;1;2;3])] [1;0;2;3]));
  (*73*) AddTo n_t1new_bb (Times (Einsum [(n_t2'abab,[0;1;2;3]); (T 5,[1;4;0;2])] [4;3]) (-1) 1);
  (*74*) AddTo n_t2new_abab (Times (Einsum [(T 5,[0;1;2;3]); (n_t3'abaaba,[4;0;2;5;6;3])] [4;1;5;6]) (-2) 1);
  (*75*) Assign (T 6) (Plain (Zeros [6;7;4;5]));
  (*76*) AddTo (T 6) (Plain (Einsum [(n_t2'abab,[0;1;2;3])] [1;3;0;2]));
  (*77*) AddTo (T 6) (Plain (Einsum [(n_t1'aa,[0;1]); (n_t1'bb,[2;3])] [2;3;0;1]));
  (*78*) AddTo n_t1new_bb (Plain (Einsum [(n_v'aabb'ovvv,[0;1;2;3]); (T 6,[4;3;0;1])] [4;2]));
  (*79*) AddTo n_t1new_aa (Plain (Einsum [(n_v'aabb'vvov,[0;1;2;3]); (T 6,[2;3;4;1])] [4;0]));
  (*80*) Assign (T 7) (Plain (Zeros [6;6;7;7]));
  (*81*) AddTo (T 7) (Plain (Einsum [(n_t2'bbbb,[0;1;2;3])] [0;1;2;3]));
  (*82*) AddTo (T 7) (Times (Einsum [(n_t1'bb,[0;1]); (n_t1'bb,[2;3])] [0;2;1;3]) (1) 2);
  (*83*) AddTo n_t1new_bb (Times (Einsum [(n_v'bbbb'ovvv,[0;1;2;3]); (T 7,[0;4;1;3])] [4;2]) (2) 1);
  (*84*) Assign (T 8) (Plain (Zeros [6;6;7;7]));
  (*85*) AddTo (T 8) (Plain (Einsum [(n_v'bbbb'ovov,[0;1;2;3])] [0;2;3;1]));
  (*86*) AddTo (T 8) (Times (Einsum [(n_v'bbbb'ovov,[0;1;2;3])] [0;2;1;3]) (-1) 1);
  (*87*) Assign (T 9) (Plain (Zeros [6;7]));
  (*88*) AddTo (T 9) (Plain (Einsum [(n_t1'bb,[0;1]); (T 8,[0;2;1;3])] [2;3]));
  (*89*) Assign (T 10) (Plain (Zeros [6;7]));
  (*90*) AddTo (T 10) (Plain (Einsum [(n_f'bb'ov,[0;1])] [0;1]));
  (*91*) AddTo (T 10) (Plain (Einsum [(T 1,[0;1])] [0;1]));
  (*92*) AddTo (T 10) (Times (Einsum [(T 9,[0;1])] [0;1]) (-1) 1);
  (*93*) Del (T 9);
  (*94*) AddTo n_t1new_bb (Times (Einsum [(T 10,[0;1]); (n_t2'bbbb,[2;0;3;1])] [2;3]) (2) 1);
  (*95*) AddTo n_t1new_aa (Plain (Einsum [(T 10,[0;1]); (n_t2'abab,[2;0;3;1])] [2;3]));
  (*96*) AddTo n_t2new_aaaa (Times (Einsum [(T 10,[0;1]); (n_t3'abaaba,[2;0;3;4;1;5])] [2;3;4;5]) (2) 1);
  (*97*) AddTo n_t2new_abab (Times (Einsum [(T 10,[0;1]); (n_t3'babbab,[2;3;0;4;5;1])] [3;2;5;4]) (2) 1);
  (*98*) AddTo n_t2new_bbbb (Times (Einsum [(T 10,[0;1]); (n_t3'bbbbbb,[2;3;0;4;5;1])] [2;3;4;5]) (6) 1);
  (*99*) Assign (T 11) (Plain (Zeros [4;5]));
  (*100*) AddTo (T 11) (Plain (Einsum [(n_t1'bb,[0;1]); (n_v'aabb'ovov,[2;3;0;1])] [2;3]));
  (*101*) AddTo n_t1new_aa (Plain (Einsum [(T 11,[0;1])] [0;1]));
  (*102*) Assign (T 12) (Plain (Zeros [4;4;5;5]));
  (*103*) AddTo (T 12) (Plain (Einsum [(n_v'aaaa'ovov,[0;1;2;3])] [0;2;3;1]));
  (*104*) AddTo (T 12) (Times (Einsum [(n_v'aaaa'ovov,[0;1;2;3])] [0;2;1;3]) (-1) 1);
  (*105*) Assign (T 13) (Plain (Zeros [4;5]));
  (*106*) AddTo (T 13) (Plain (Einsum [(n_t1'aa,[0;1]); (T 12,[0;2;1;3])] [2;3]));
  (*107*) Assign (T 14) (Plain (Zeros [4;5]));
  (*108*) AddTo (T 14) (Plain (Einsum [(n_f'aa'ov,[0;1])] [0;1]));
  (*109*) AddTo (T 14) (Plain (Einsum [(T 11,[0;1])] [0;1]));
  (*110*) Del (T 11);
  (*111*) AddTo (T 14) (Times (Einsum [(T 13,[0;1])] [0;1]) (-1) 1);
  (*112*) Del (T 13);
  (*113*) AddTo n_t1new_bb (Plain (Einsum [(T 14,[0;1]); (n_t2'abab,[0;2;1;3])] [2;3]));
  (*114*) AddTo n_t1new_aa (Times (Einsum [(T 14,[0;1]); (n_t2'aaaa,[2;0;3;1])] [2;3]) (2) 1);
  (*115*) AddTo n_t2new_aaaa (Times (Einsum [(T 14,[0;1]); (n_t3'aaaaaa,[2;3;0;4;5;1])] [2;3;4;5]) (6) 1);
  (*116*) AddTo n_t2new_abab (Times (Einsum [(T 14,[0;1]); (n_t3'abaaba,[2;3;0;4;5;1])] [2;3;4;5]) (2) 1);
  (*117*) AddTo n_t2new_bbbb (Times (Einsum [(T 14,[0;1]); (n_t3'babbab,[2;0;3;4;1;5])] [2;3;4;5]) (2) 1);
  (*118*) Assign (T 15) (Plain (Zeros [6;6;7;7]));
  (*119*) AddTo (T 15) (Plain (Einsum [(n_v'bbbb'oovv,[0;1;2;3])] [0;1;2;3]));
  (*120*) AddTo (T 15) (Times (Einsum [(n_v'bbbb'ovov,[0;1;2;3])] [0;2;1;3]) (-1) 1);
  (*121*) AddTo n_t1new_bb (Times (Einsum [(n_t1'bb,[0;1]); (T 15,[0;2;1;3])] [2;3]) (-1) 1);
  (*122*) Assign (T 16) (Plain (Zeros [6;6]));
  (*123*) AddTo (T 16) (Plain (Einsum [(n_t1'aa,[0;1]); (n_v'aabb'ovoo,[0;1;2;3])] [2;3]));
  (*124*) Assign (T 17) (Plain (Zeros [6;6]));
  (*125*) AddTo (T 17) (Plain (Einsum [(n_t2'bbbb,[0;1;2;3]); (n_v'bbbb'ovov,[4;2;1;3])] [0;4]));
  (*126*) Assign (T 18) (Plain (Zeros [6;6]));
  (*127*) AddTo (T 18) (Plain (Einsum [(n_t2'abab,[0;1;2;3]); (n_v'aabb'ovov,[0;2;4;3])] [1;4]));
  (*128*) Assign (T 19) (Plain (Zeros [6;6;6;7]));
  (*129*) AddTo (T 19) (Times (Einsum [(n_v'bbbb'ooov,[0;1;2;3])] [0;1;2;3]) (-1) 1);
  (*130*) AddTo (T 19) (Plain (Einsum [(n_v'bbbb'ooov,[0;1;2;3])] [0;2;1;3]));
  (*131*) Assign (T 20) (Plain (Zeros [6;6]));
  (*132*) AddTo (T 20) (Plain (Einsum [(n_t1'bb,[0;1]); (T 19,[2;3;0;1])] [2;3]));
  (*133*) Assign (T 21) (Plain (Zeros [6;6]));
  (*134*) AddTo (T 21) (Plain (Einsum [(n_t1'bb,[0;1]); (T 10,[2;1])] [2;0]));
  (*135*) Assign (T 22) (Plain (Zeros [6;6]));
  (*136*) AddTo (T 22) (Plain (Einsum [(n_f'bb'oo,[0;1])] [0;1]));
  (*137*) AddTo (T 22) (Plain (Einsum [(T 16,[0;1])] [1;0]));
  (*138*) AddTo (T 22) (Times (Einsum [(T 17,[0;1])] [1;0]) (2) 1);
  (*139*) AddTo (T 22) (Plain (Einsum [(T 18,[0;1])] [1;0]));
  (*140*) AddTo (T 22) (Times (Einsum [(T 20,[0;1])] [1;0]) (-1) 1);
  (*141*) AddTo (T 22) (Plain (Einsum [(T 21,[0;1])] [0;1]));
  (*142*) AddTo n_t1new_bb (Times (Einsum [(n_t1'bb,[0;1]); (T 22,[0;2])] [2;1]) (-1) 1);
  (*143*) AddTo n_t2new_abab (Times (Einsum [(T 22,[0;1]); (n_t2'abab,[2;0;3;4])] [2;1;3;4]) (-1) 1);
  (*144*) Assign n_t3new_abaaba (Plain (Zeros [4;6;4;5;7;5]));
  (*145*) AddTo n_t3new_abaaba (Times (Einsum [(T 22,[0;1]); (n_t3'abaaba,[2;0;3;4;5;6])] [2;1;3;4;5;6]) (-2) 1);
  (*146*) Del (T 22);
  (*147*) Assign (T 23) (Plain (Zeros [7;7]));
  (*148*) AddTo (T 23) (Plain (Einsum [(n_f'bb'vv,[0;1])] [0;1]));
  (*149*) AddTo (T 23) (Times (Einsum [(n_t1'bb,[0;1]); (n_v'bbbb'ovvv,[0;2;3;1])] [2;3]) (-1) 1);
  (*150*) AddTo n_t1new_bb (Plain (Einsum [(n_t1'bb,[0;1]); (T 23,[1;2])] [0;2]));
  (*151*) Del (T 23);
  (*152*) Assign (T 24) (Plain (Zeros [6;7;4;4]));
  (*153*) AddTo (T 24) (Plain (Einsum [(n_t1'aa,[0;1]); (n_v'aabb'ovov,[2;1;3;4])] [3;4;0;2]));
  (*154*) Assign (T 25) (Plain (Zeros [6;7;4;4]));
  (*155*) AddTo (T 25) (Plain (Einsum [(n_v'aabb'ooov,[0;1;2;3])] [2;3;0;1]));
  (*156*) AddTo (T 25) (Plain (Einsum [(T 24,[0;1;2;3])] [0;1;3;2]));
  (*157*) AddTo n_t1new_aa (Times (Einsum [(n_t2'abab,[0;1;2;3]); (T 25,[1;3;0;4])] [4;2]) (-1) 1);
  (*158*) AddTo n_t2new_abab (Times (Einsum [(T 25,[0;1;2;3]); (n_t3'babbab,[4;2;0;5;6;1])] [3;4;6;5]) (-2) 1);
  (*159*) Assign (T 26) (Plain (Zeros [4;4;4;5]));
  (*160*) AddTo (T 26) (Plain (Einsum [(n_t1'aa,[0;1]); (n_v'aaaa'ovov,[2;3;4;1])] [0;2;4;3]));
  (*161*) Assign (T 27) (Plain (Zeros [4;4;4;5]));
  (*162*) AddTo (T 27) (Plain (Einsum [(n_v'aaaa'ooov,[0;1;2;3])] [0;2;1;3]));
  (*163*) AddTo (T 27) (Plain (Einsum [(T 26,[0;1;2;3])] [0;1;2;3]));
  (*164*) AddTo n_t1new_aa (Times (Einsum [(n_t2'aaaa,[0;1;2;3]); (T 27,[4;0;1;3])] [4;2]) (2) 1);
  (*165*) AddTo n_t2new_abab (Times (Einsum [(T 27,[0;1;2;3]); (n_t3'abaaba,[1;4;2;5;6;3])] [0;4;5;6]) (2) 1);
  (*166*) Del (T 27);
  (*167*) Assign (T 28) (Plain (Zeros [4;4;5;5]));
  (*168*) AddTo (T 28) (Plain (Einsum [(n_t2'aaaa,[0;1;2;3])] [0;1;2;3]));
  (*169*) AddTo (T 28) (Times (Einsum [(n_t1'aa,[0;1]); (n_t1'aa,[2;3])] [0;2;1;3]) (1) 2);
  (*170*) AddTo n_t1new_aa (Times (Einsum [(n_v'aaaa'ovvv,[0;1;2;3]); (T 28,[0;4;3;1])] [4;2]) (-2) 1);
  (*171*) Del (T 28);
  (*172*) Assign (T 29) (Plain (Zeros [4;4;5;5]));
  (*173*) AddTo (T 29) (Plain (Einsum [(n_v'aaaa'oovv,[0;1;2;3])] [0;1;2;3]));
  (*174*) AddTo (T 29) (Times (Einsum [(n_v'aaaa'ovov,[0;1;2;3])] [0;2;1;3]) (-1) 1);
  (*175*) AddTo n_t1new_aa (Times (Einsum [(n_t1'aa,[0;1]); (T 29,[0;2;1;3])] [2;3]) (-1) 1);
  (*176*) Assign (T 30) (Plain (Zeros [4;4]));
  (*177*) AddTo (T 30) (Plain (Einsum [(n_t1'bb,[0;1]); (n_v'aabb'ooov,[2;3;0;1])] [2;3]));
  (*178*) Assign (T 31) (Plain (Zeros [4;4]));
  (*179*) AddTo (T 31) (Plain (Einsum [(n_t2'abab,[0;1;2;3]); (n_v'aabb'ovov,[4;2;1;3])] [0;4]));
  (*180*) Assign (T 32) (Plain (Zeros [4;4]));
  (*181*) AddTo (T 32) (Times (Einsum [(n_t2'aaaa,[0;1;2;3]); (n_v'aaaa'ovov,[4;3;1;2])] [0;4]) (-1) 1);
  (*182*) Assign (T 33) (Plain (Zeros [4;4;4;5]));
  (*183*) AddTo (T 33) (Times (Einsum [(n_v'aaaa'ooov,[0;1;2;3])] [0;1;2;3]) (-1) 1);
  (*184*) AddTo (T 33) (Plain (Einsum [(n_v'aaaa'ooov,[0;1;2;3])] [0;2;1;3]));
  (*185*) Assign (T 34) (Plain (Zeros [4;4]));
  (*186*) AddTo (T 34) (Plain (Einsum [(n_t1'aa,[0;1]); (T 33,[2;3;0;1])] [2;3]));
  (*187*) Assign (T 35) (Plain (Zeros [4;4]));
  (*188*) AddTo (T 35) (Plain (Einsum [(n_t1'aa,[0;1]); (T 14,[2;1])] [2;0]));
  (*189*) Assign (T 36) (Plain (Zeros [4;4]));
  (*190*) AddTo (T 36) (Plain (Einsum [(n_f'aa'oo,[0;1])] [0;1]));
  (*191*) AddTo (T 36) (Plain (Einsum [(T 30,[0;1])] [1;0]));
  (*192*) AddTo (T 36) (Plain (Einsum [(T 31,[0;1])] [1;0]));
  (*193*) AddTo (T 36) (Times (Einsum [(T 32,[0;1])] [1;0]) (2) 1);
  (*194*) AddTo (T 36) (Times (Einsum [(T 34,[0;1])] [1;0]) (-1) 1);
  (*195*) AddTo (T 36) (Plain (Einsum [(T 35,[0;1])] [0;1]));
  (*196*) AddTo n_t1new_aa (Times (Einsum [(n_t1'aa,[0;1]); (T 36,[0;2])] [2;1]) (-1) 1);
  (*197*) AddTo n_t2new_abab (Times (Einsum [(T 36,[0;1]); (n_t2'abab,[0;2;3;4])] [1;2;3;4]) (-1) 1);
  (*198*) Assign n_t3new_babbab (Plain (Zeros [6;4;6;7;5;7]));
  (*199*) AddTo n_t3new_babbab (Times (Einsum [(T 36,[0;1]); (n_t3'babbab,[2;0;3;4;5;6])] [2;1;3;4;5;6]) (-2) 1);
  (*200*) Del (T 36);
  (*201*) Assign (T 37) (Plain (Zeros [5;5]));
  (*202*) AddTo (T 37) (Plain (Einsum [(n_f'aa'vv,[0;1])] [0;1]));
  (*203*) AddTo (T 37) (Plain (Einsum [(n_t1'aa,[0;1]); (n_v'aaaa'ovvv,[0;1;2;3])] [2;3]));
  (*204*) AddTo n_t1new_aa (Plain (Einsum [(n_t1'aa,[0;1]); (T 37,[1;2])] [0;2]));
  (*205*) Del (T 37);
  (*206*) Assign (T 38) (Plain (Zeros [4;4;5;5]));
  (*207*) AddTo (T 38) (Plain (Einsum [(n_t1'aa,[0;1]); (n_v'aaaa'ovvv,[2;3;4;1])] [0;2;3;4]));
  (*208*) Assign (T 39) (Plain (Zeros [6;7;4;5]));
  (*209*) AddTo (T 39) (Plain (Einsum [(n_t1'aa,[0;1]); (n_v'aabb'vvov,[2;1;3;4])] [3;4;0;2]));
  (*210*) AddTo n_t2new_abab (Plain (Einsum [(T 39,[0;1;2;3])] [2;0;3;1]));
  (*211*) Assign (T 40) (Plain (Zeros [4;4;5;5]));
  (*212*) AddTo (T 40) (Plain (Einsum [(n_t2'abab,[0;1;2;3]); (T 39,[1;3;4;5])] [4;0;2;5]));
  (*213*) Assign (T 41) (Plain (Zeros [4;4;5;5]));
  (*214*) AddTo (T 41) (Plain (Einsum [(n_t2'aaaa,[0;1;2;3])] [0;1;2;3]));
  (*215*) AddTo (T 41) (Times (Einsum [(n_t1'aa,[0;1]); (n_t1'aa,[2;3])] [0;2;3;1]) (-1) 2);
  (*216*) Assign (T 42) (Plain (Zeros [4;4;5;5]));
  (*217*) AddTo (T 42) (Times (Einsum [(T 29,[0;1;2;3]); (T 41,[0;4;2;5])] [1;4;3;5]) (2) 1);
  (*218*) Assign (T 43) (Plain (Zeros [6;7;4;5]));
  (*219*) AddTo (T 43) (Plain (Einsum [(n_t2'aaaa,[0;1;2;3]); (n_v'aabb'ovov,[1;3;4;5])] [4;5;0;2]));
  (*220*) Assign (T 44) (Plain (Zeros [6;7;4;5]));
  (*221*) AddTo (T 44) (Plain (Einsum [(n_v'aabb'ovov,[0;1;2;3])] [2;3;0;1]));
  (*222*) AddTo (T 44) (Times (Einsum [(T 43,[0;1;2;3])] [0;1;2;3]) (2) 1);
  (*223*) Assign (T 45) (Plain (Zeros [4;4;5;5]));
  (*224*) AddTo (T 45) (Plain (Einsum [(n_t2'abab,[0;1;2;3]); (T 44,[1;3;4;5])] [4;0;5;2]));
  (*225*) Del (T 44);
  (*226*) Assign (T 46) (Plain (Zeros [4;5;5;5]));
  (*227*) AddTo (T 46) (Plain (Einsum [(n_v'aaaa'ovvv,[0;1;2;3])] [0;1;2;3]));
  (*228*) AddTo (T 46) (Times (Einsum [(n_v'aaaa'ovvv,[0;1;2;3])] [0;2;3;1]) (-1) 1);
  (*229*) Assign (T 47) (Plain (Zeros [4;4;5;5]));
  (*230*) AddTo (T 47) (Plain (Einsum [(n_t1'aa,[0;1]); (T 46,[2;1;3;4])] [2;0;3;4]));
  (*231*) Assign (T 48) (Plain (Zeros [4;4;5;5]));
  (*232*) AddTo (T 48) (Times (Einsum [(n_t2'aaaa,[0;1;2;3]); (T 47,[1;4;5;3])] [0;4;2;5]) (-2) 1);
  (*233*) Assign (T 49) (Plain (Zeros [4;4;4;5]));
  (*234*) AddTo (T 49) (Plain (Einsum [(n_t2'abab,[0;1;2;3]); (n_v'aabb'ooov,[4;5;1;3])] [0;4;5;2]));
  (*235*) Assign (T 50) (Plain (Zeros [4;4;4;4]));
  (*236*) AddTo (T 50) (Plain (Einsum [(n_t1'aa,[0;1]); (n_v'aaaa'ooov,[2;3;4;1])] [0;2;3;4]));
  (*237*) Assign (T 51) (Plain (Zeros [4;4;4;5]));
  (*238*) AddTo (T 51) (Plain (Einsum [(n_t1'aa,[0;1]); (T 50,[2;3;4;0])] [2;4;3;1]));
  (*239*) Assign (T 52) (Plain (Zeros [4;4;4;5]));
  (*240*) AddTo (T 52) (Plain (Einsum [(n_t1'aa,[0;1]); (T 38,[2;3;1;4])] [0;2;3;4]));
  (*241*) Assign (T 53) (Plain (Zeros [4;4;4;5]));
  (*242*) AddTo (T 53) (Plain (Einsum [(n_t2'abab,[0;1;2;3]); (T 24,[1;3;4;5])] [4;0;5;2]));
  (*243*) Assign (T 54) (Plain (Zeros [4;4;4;5]));
  (*244*) AddTo (T 54) (Plain (Einsum [(n_v'aaaa'ooov,[0;1;2;3])] [0;1;2;3]));
  (*245*) AddTo (T 54) (Times (Einsum [(n_v'aaaa'ooov,[0;1;2;3])] [0;2;1;3]) (-1) 1);
  (*246*) Assign (T 55) (Plain (Zeros [4;4;4;5]));
  (*247*) AddTo (T 55) (Times (Einsum [(n_t2'aaaa,[0;1;2;3]); (T 54,[4;5;1;3])] [0;4;5;2]) (2) 1);
  (*248*) Del (T 54);
  (*249*) Assign (T 56) (Plain (Zeros [4;4;4;5]));
  (*250*) AddTo (T 56) (Times (Einsum [(T 26,[0;1;2;3])] [0;1;2;3]) (-1) 1);
  (*251*) AddTo (T 56) (Plain (Einsum [(T 26,[0;1;2;3])] [0;2;1;3]));
  (*252*) Assign (T 57) (Plain (Zeros [4;4;4;5]));
  (*253*) AddTo (T 57) (Times (Einsum [(n_t2'aaaa,[0;1;2;3]); (T 56,[4;1;5;3])] [0;4;5;2]) (2) 1);
  (*254*) Assign (T 58) (Plain (Zeros [4;4;4;5]));
  (*255*) AddTo (T 58) (Times (Einsum [(T 49,[0;1;2;3])] [0;2;1;3]) (-1) 1);
  (*256*) AddTo (T 58) (Plain (Einsum [(T 51,[0;1;2;3])] [0;2;1;3]));
  (*257*) AddTo (T 58) (Plain (Einsum [(T 52,[0;1;2;3])] [0;2;1;3]));
  (*258*) Del (T 52);
  (*259*) AddTo (T 58) (Plain (Einsum [(T 53,[0;1;2;3])] [0;2;1;3]));
  (*260*) AddTo (T 58) (Times (Einsum [(T 55,[0;1;2;3])] [0;2;1;3]) (-1) 1);
  (*261*) Del (T 55);
  (*262*) AddTo (T 58) (Times (Einsum [(T 57,[0;1;2;3])] [1;2;0;3]) (-1) 1);
  (*263*) Assign (T 59) (Plain (Zeros [4;4;5;5]));
  (*264*) AddTo (T 59) (Plain (Einsum [(n_t1'aa,[0;1]); (T 58,[2;0;3;4])] [2;3;4;1]));
  (*265*) Del (T 58);
  (*266*) Assign (T 60) (Plain (Zeros [4;4;5;5]));
  (*267*) AddTo (T 60) (Plain (Einsum [(T 38,[0;1;2;3])] [0;1;2;3]));
  (*268*) AddTo (T 60) (Plain (Einsum [(T 40,[0;1;2;3])] [0;1;2;3]));
  (*269*) Del (T 40);
  (*270*) AddTo (T 60) (Plain (Einsum [(T 42,[0;1;2;3])] [1;0;3;2]));
  (*271*) Del (T 42);
  (*272*) AddTo (T 60) (Times (Einsum [(T 45,[0;1;2;3])] [1;0;3;2]) (-1) 1);
  (*273*) Del (T 45);
  (*274*) AddTo (T 60) (Plain (Einsum [(T 48,[0;1;2;3])] [1;0;2;3]));
  (*275*) Del (T 48);
  (*276*) AddTo (T 60) (Plain (Einsum [(T 59,[0;1;2;3])] [0;1;3;2]));
  (*277*) Del (T 59);
  (*278*) AddTo n_t2new_aaaa (Times (Einsum [(T 60,[0;1;2;3])] [0;1;2;3]) (-1) 1);
  (*279*) AddTo n_t2new_aaaa (Plain (Einsum [(T 60,[0;1;2;3])] [0;1;3;2]));
  (*280*) AddTo n_t2new_aaaa (Plain (Einsum [(T 60,[0;1;2;3])] [1;0;2;3]));
  (*281*) AddTo n_t2new_aaaa (Times (Einsum [(T 60,[0;1;2;3])] [1;0;3;2]) (-1) 1);
  (*282*) Del (T 60);
  (*283*) Assign (T 61) (Plain (Zeros [4;4;5;5]));
  (*284*) AddTo (T 61) (Plain (Einsum [(n_f'aa'vv,[0;1]); (n_t2'aaaa,[2;3;4;1])] [2;3;0;4]));
  (*285*) Assign (T 62) (Plain (Zeros [6;7;4;5]));
  (*286*) AddTo (T 62) (Plain (Einsum [(n_t2'abab,[0;1;2;3]); (T 8,[1;4;3;5])] [4;5;0;2]));
  (*287*) Assign (T 63) (Plain (Zeros [4;4;5;5]));
  (*288*) AddTo (T 63) (Times (Einsum [(n_t2'abab,[0;1;2;3]); (T 62,[1;3;4;5])] [4;0;5;2]) (-1) 1);
  (*289*) Assign (T 64) (Plain (Zeros [4;4;5;5]));
  (*290*) AddTo (T 64) (Plain (Einsum [(n_v'aaaa'ovov,[0;1;2;3])] [0;2;1;3]));
  (*291*) AddTo (T 64) (Times (Einsum [(T 61,[0;1;2;3])] [1;0;3;2]) (-2) 1);
  (*292*) Del (T 61);
  (*293*) AddTo (T 64) (Plain (Einsum [(T 63,[0;1;2;3])] [1;0;3;2]));
  (*294*) Del (T 63);
  (*295*) AddTo n_t2new_aaaa (Times (Einsum [(T 64,[0;1;2;3])] [0;1;3;2]) (-1) 1);
  (*296*) AddTo n_t2new_aaaa (Plain (Einsum [(T 64,[0;1;2;3])] [0;1;2;3]));
  (*297*) Del (T 64);
  (*298*) Assign (T 65) (Plain (Zeros [4;5;5;5]));
  (*299*) AddTo (T 65) (Plain (Einsum [(n_t1'aa,[0;1]); (n_v'aaaa'vvvv,[2;3;4;1])] [0;2;3;4]));
  (*300*) Assign (T 66) (Plain (Zeros [4;4;5;5]));
  (*301*) AddTo (T 66) (Plain (Einsum [(n_t1'aa,[0;1]); (T 65,[2;3;1;4])] [0;2;3;4]));
  (*302*) Assign (T 67) (Plain (Zeros [4;4;5;5]));
  (*303*) AddTo (T 67) (Plain (Einsum [(n_v'aabb'vvov,[0;1;2;3]); (n_t3'abaaba,[4;2;5;6;3;1])] [4;5;6;0]));
  (*304*) Assign (T 68) (Plain (Zeros [4;4;5;5]));
  (*305*) AddTo (T 68) (Times (Einsum [(n_v'aaaa'ovvv,[0;1;2;3]); (n_t3'aaaaaa,[4;5;0;6;3;1])] [4;5;6;2]) (-1) 1);
  (*306*) Assign (T 69) (Plain (Zeros [4;4;5;5]));
  (*307*) AddTo (T 69) (Times (Einsum [(n_v'aaaa'ovov,[0;1;2;3])] [0;2;3;1]) (-1) 1);
  (*308*) AddTo (T 69) (Plain (Einsum [(n_v'aaaa'ovov,[0;1;2;3])] [0;2;1;3]));
  (*309*) Assign (T 70) (Plain (Zeros [4;4;5;5]));
  (*310*) AddTo (T 70) (Plain (Einsum [(n_t2'aaaa,[0;1;2;3]); (T 69,[1;4;5;3])] [0;4;2;5]));
  (*311*) Assign (T 71) (Plain (Zeros [4;4;5;5]));
  (*312*) AddTo (T 71) (Times (Einsum [(n_t2'aaaa,[0;1;2;3]); (T 70,[4;1;5;3])] [0;4;2;5]) (-4) 1);
  (*313*) Del (T 70);
  (*314*) Assign (T 72) (Plain (Zeros [5;5]));
  (*315*) AddTo (T 72) (Plain (Einsum [(n_t1'bb,[0;1]); (n_v'aabb'vvov,[2;3;0;1])] [2;3]));
  (*316*) Assign (T 73) (Plain (Zeros [5;5]));
  (*317*) AddTo (T 73) (Plain (Einsum [(n_t2'abab,[0;1;2;3]); (n_v'aabb'ovov,[0;4;1;3])] [2;4]));
  (*318*) Assign (T 74) (Plain (Zeros [5;5]));
  (*319*) AddTo (T 74) (Times (Einsum [(n_t2'aaaa,[0;1;2;3]); (n_v'aaaa'ovov,[0;3;1;4])] [2;4]) (-1) 1);
  (*320*) Assign (T 75) (Plain (Zeros [5;5]));
  (*321*) AddTo (T 75) (Plain (Einsum [(n_t1'aa,[0;1]); (T 46,[0;1;2;3])] [2;3]));
  (*322*) Del (T 46);
  (*323*) Assign (T 76) (Plain (Zeros [5;5]));
  (*324*) AddTo (T 76) (Times (Einsum [(T 72,[0;1])] [1;0]) (-1) 1);
  (*325*) AddTo (T 76) (Plain (Einsum [(T 73,[0;1])] [1;0]));
  (*326*) AddTo (T 76) (Times (Einsum [(T 74,[0;1])] [1;0]) (2) 1);
  (*327*) AddTo (T 76) (Times (Einsum [(T 75,[0;1])] [1;0]) (-1) 1);
  (*328*) Assign (T 77) (Plain (Zeros [4;4;5;5]));
  (*329*) AddTo (T 77) (Times (Einsum [(T 76,[0;1]); (n_t2'aaaa,[2;3;4;0])] [2;3;4;1]) (-2) 1);
  (*330*) Del (T 76);
  (*331*) Assign (T 78) (Plain (Zeros [4;4;4;5]));
  (*332*) AddTo (T 78) (Plain (Einsum [(n_t2'aaaa,[0;1;2;3]); (n_v'aaaa'ovvv,[4;2;5;3])] [0;1;4;5]));
  (*333*) Assign (T 79) (Plain (Zeros [4;4;4;5]));
  (*334*) AddTo (T 79) (Plain (Einsum [(n_v'aabb'ovov,[0;1;2;3]); (n_t3'abaaba,[4;2;5;6;3;1])] [4;5;0;6]));
  (*335*) Assign (T 80) (Plain (Zeros [4;4;4;5]));
  (*336*) AddTo (T 80) (Times (Einsum [(n_v'aaaa'ovov,[0;1;2;3]); (n_t3'aaaaaa,[4;5;2;6;3;1])] [4;5;0;6]) (-1) 1);
  (*337*) Assign (T 81) (Plain (Zeros [4;4;4;5]));
  (*338*) AddTo (T 81) (Times (Einsum [(T 14,[0;1]); (n_t2'aaaa,[2;3;4;1])] [0;2;3;4]) (-2) 1);
  (*339*) Assign (T 82) (Plain (Zeros [4;4;4;4]));
  (*340*) AddTo (T 82) (Plain (Einsum [(n_t1'aa,[0;1]); (T 26,[2;3;4;1])] [2;0;4;3]));
  (*341*) Assign (T 83) (Plain (Zeros [4;4;4;4]));
  (*342*) AddTo (T 83) (Plain (Einsum [(n_v'aaaa'oooo,[0;1;2;3])] [0;1;2;3]));
  (*343*) AddTo (T 83) (Plain (Einsum [(T 82,[0;1;2;3])] [3;1;2;0]));
  (*344*) Assign (T 84) (Plain (Zeros [4;4;4;5]));
  (*345*) AddTo (T 84) (Plain (Einsum [(n_t1'aa,[0;1]); (T 83,[0;2;3;4])] [2;3;4;1]));
  (*346*) Del (T 83);
  (*347*) Assign (T 85) (Plain (Zeros [4;4;4;5]));
  (*348*) AddTo (T 85) (Times (Einsum [(T 78,[0;1;2;3])] [2;1;0;3]) (-2) 1);
  (*349*) AddTo (T 85) (Times (Einsum [(T 79,[0;1;2;3])] [2;1;0;3]) (2) 1);
  (*350*) AddTo (T 85) (Times (Einsum [(T 80,[0;1;2;3])] [2;1;0;3]) (6) 1);
  (*351*) AddTo (T 85) (Times (Einsum [(T 81,[0;1;2;3])] [0;2;1;3]) (-1) 1);
  (*352*) AddTo (T 85) (Plain (Einsum [(T 84,[0;1;2;3])] [1;0;2;3]));
  (*353*) Del (T 84);
  (*354*) Assign (T 86) (Plain (Zeros [4;4;5;5]));
  (*355*) AddTo (T 86) (Plain (Einsum [(n_t1'aa,[0;1]); (T 85,[0;2;3;4])] [2;3;4;1]));
  (*356*) Del (T 85);
  (*357*) Assign (T 87) (Plain (Zeros [4;4;5;5]));
  (*358*) AddTo (T 87) (Plain (Einsum [(T 66,[0;1;2;3])] [0;1;2;3]));
  (*359*) Del (T 66);
  (*360*) AddTo (T 87) (Times (Einsum [(T 67,[0;1;2;3])] [0;1;2;3]) (2) 1);
  (*361*) Del (T 67);
  (*362*) AddTo (T 87) (Times (Einsum [(T 68,[0;1;2;3])] [0;1;2;3]) (-6) 1);
  (*363*) Del (T 68);
  (*364*) AddTo (T 87) (Plain (Einsum [(T 71,[0;1;2;3])] [1;0;3;2]));
  (*365*) Del (T 71);
  (*366*) AddTo (T 87) (Times (Einsum [(T 77,[0;1;2;3])] [1;0;2;3]) (-1) 1);
  (*367*) Del (T 77);
  (*368*) AddTo (T 87) (Plain (Einsum [(T 86,[0;1;2;3])] [1;0;3;2]));
  (*369*) Del (T 86);
  (*370*) AddTo n_t2new_aaaa (Plain (Einsum [(T 87,[0;1;2;3])] [0;1;2;3]));
  (*371*) AddTo n_t2new_aaaa (Times (Einsum [(T 87,[0;1;2;3])] [0;1;3;2]) (-1) 1);
  (*372*) Del (T 87);
  (*373*) Assign (T 88) (Plain (Zeros [4;4;5;5]));
  (*374*) AddTo (T 88) (Plain (Einsum [(n_v'aabb'ooov,[0;1;2;3]); (n_t3'abaaba,[4;2;1;5;3;6])] [4;0;5;6]));
  (*375*) Assign (T 89) (Plain (Zeros [4;4;5;5]));
  (*376*) AddTo (T 89) (Plain (Einsum [(n_v'aaaa'ooov,[0;1;2;3]); (n_t3'aaaaaa,[4;1;2;5;6;3])] [4;0;5;6]));
  (*377*) Assign (T 90) (Plain (Zeros [4;4;5;5]));
  (*378*) AddTo (T 90) (Plain (Einsum [(n_t2'aaaa,[0;1;2;3]); (T 50,[4;5;0;1])] [4;5;2;3]));
  (*379*) Assign (T 91) (Plain (Zeros [4;4;5;5]));
  (*380*) AddTo (T 91) (Plain (Einsum [(T 24,[0;1;2;3]); (n_t3'abaaba,[4;0;3;5;1;6])] [2;4;5;6]));
  (*381*) Assign (T 92) (Plain (Zeros [4;4;5;5]));
  (*382*) AddTo (T 92) (Times (Einsum [(T 26,[0;1;2;3]); (n_t3'aaaaaa,[4;1;2;5;6;3])] [0;4;5;6]) (-1) 1);
  (*383*) Assign (T 93) (Plain (Zeros [4;4]));
  (*384*) AddTo (T 93) (Plain (Einsum [(n_f'aa'oo,[0;1])] [0;1]));
  (*385*) AddTo (T 93) (Plain (Einsum [(T 35,[0;1])] [1;0]));
  (*386*) Assign (T 94) (Plain (Zeros [4;4;5;5]));
  (*387*) AddTo (T 94) (Times (Einsum [(T 93,[0;1]); (n_t2'aaaa,[2;1;3;4])] [2;0;3;4]) (-2) 1);
  (*388*) Del (T 93);
  (*389*) Assign (T 95) (Plain (Zeros [4;4]));
  (*390*) AddTo (T 95) (Plain (Einsum [(T 30,[0;1])] [1;0]));
  (*391*) AddTo (T 95) (Plain (Einsum [(T 31,[0;1])] [1;0]));
  (*392*) AddTo (T 95) (Times (Einsum [(T 32,[0;1])] [1;0]) (2) 1);
  (*393*) AddTo (T 95) (Times (Einsum [(T 34,[0;1])] [1;0]) (-1) 1);
  (*394*) Assign (T 96) (Plain (Zeros [4;4;5;5]));
  (*395*) AddTo (T 96) (Times (Einsum [(T 95,[0;1]); (n_t2'aaaa,[2;0;3;4])] [2;1;3;4]) (-2) 1);
  (*396*) Del (T 95);
  (*397*) Assign (T 97) (Plain (Zeros [4;4;5;5]));
  (*398*) AddTo (T 97) (Times (Einsum [(T 88,[0;1;2;3])] [0;1;3;2]) (-2) 1);
  (*399*) Del (T 88);
  (*400*) AddTo (T 97) (Times (Einsum [(T 89,[0;1;2;3])] [0;1;3;2]) (-6) 1);
  (*401*) Del (T 89);
  (*402*) AddTo (T 97) (Times (Einsum [(T 90,[0;1;2;3])] [0;1;3;2]) (-2) 1);
  (*403*) Del (T 90);
  (*404*) AddTo (T 97) (Times (Einsum [(T 91,[0;1;2;3])] [0;1;3;2]) (2) 1);
  (*405*) Del (T 91);
  (*406*) AddTo (T 97) (Times (Einsum [(T 92,[0;1;2;3])] [0;1;3;2]) (6) 1);
  (*407*) Del (T 92);
  (*408*) AddTo (T 97) (Times (Einsum [(T 94,[0;1;2;3])] [1;0;3;2]) (-1) 1);
  (*409*) Del (T 94);
  (*410*) AddTo (T 97) (Plain (Einsum [(T 96,[0;1;2;3])] [0;1;3;2]));
  (*411*) Del (T 96);
  (*412*) AddTo n_t2new_aaaa (Times (Einsum [(T 97,[0;1;2;3])] [0;1;2;3]) (-1) 1);
  (*413*) AddTo n_t2new_aaaa (Plain (Einsum [(T 97,[0;1;2;3])] [1;0;2;3]));
  (*414*) Del (T 97);
  (*415*) Assign (T 98) (Plain (Zeros [4;4;5;5]));
  (*416*) AddTo (T 98) (Plain (Einsum [(n_t1'aa,[0;1]); (n_v'aaaa'ooov,[2;0;3;4])] [2;3;1;4]));
  (*417*) AddTo n_t2new_aaaa (Times (Einsum [(T 98,[0;1;2;3])] [0;1;2;3]) (-1) 1);
  (*418*) AddTo n_t2new_aaaa (Plain (Einsum [(T 98,[0;1;2;3])] [1;0;2;3]));
  (*419*) Del (T 98);
  (*420*) Assign (T 99) (Plain (Zeros [4;4;5;5]));
  (*421*) AddTo (T 99) (Plain (Einsum [(n_t2'aaaa,[0;1;2;3])] [0;1;2;3]));
  (*422*) AddTo (T 99) (Plain (Einsum [(n_t1'aa,[0;1]); (n_t1'aa,[2;3])] [0;2;1;3]));
  (*423*) Assign (T 100) (Plain (Zeros [4;4;4;4]));
  (*424*) AddTo (T 100) (Plain (Einsum [(n_v'aaaa'ovov,[0;1;2;3]); (T 99,[4;5;1;3])] [0;2;4;5]));
  (*425*) Assign (T 101) (Plain (Zeros [4;4;4;4]));
  (*426*) AddTo (T 101) (Plain (Einsum [(n_v'aaaa'oooo,[0;1;2;3])] [0;1;2;3]));
  (*427*) AddTo (T 101) (Plain (Einsum [(T 100,[0;1;2;3])] [1;3;0;2]));
  (*428*) AddTo n_t2new_aaaa (Times (Einsum [(n_t2'aaaa,[0;1;2;3]); (T 101,[0;4;1;5])] [4;5;2;3]) (2) 1);
  (*429*) Del (T 101);
  (*430*) Assign (T 102) (Plain (Zeros [4;4;4;4]));
  (*431*) AddTo (T 102) (Plain (Einsum [(n_t2'aaaa,[0;1;2;3]); (n_v'aaaa'ovov,[4;2;5;3])] [0;1;4;5]));
  (*432*) Assign (T 103) (Plain (Zeros [4;4;4;5]));
  (*433*) AddTo (T 103) (Times (Einsum [(n_t1'aa,[0;1]); (T 102,[2;3;0;4])] [2;3;4;1]) (-2) 1);
  (*434*) AddTo (T 103) (Times (Einsum [(n_v'aaaa'ooov,[0;1;2;3])] [0;2;1;3]) (-1) 1);
  (*435*) AddTo (T 103) (Plain (Einsum [(n_v'aaaa'ooov,[0;1;2;3])] [2;0;1;3]));
  (*436*) AddTo n_t2new_aaaa (Times (Einsum [(n_t1'aa,[0;1]); (T 103,[2;3;0;4])] [2;3;4;1]) (-1) 1);
  (*437*) Del (T 103);
  (*438*) Assign (T 104) (Plain (Zeros [7;7;4;5]));
  (*439*) AddTo (T 104) (Plain (Einsum [(n_t1'bb,[0;1]); (n_v'aabb'ovov,[2;3;0;4])] [1;4;2;3]));
  (*440*) Assign (T 105) (Plain (Zeros [7;7;4;5]));
  (*441*) AddTo (T 105) (Plain (Einsum [(n_v'aabb'ovvv,[0;1;2;3])] [2;3;0;1]));
  (*442*) AddTo (T 105) (Times (Einsum [(T 104,[0;1;2;3])] [1;0;2;3]) (-1) 1);
  (*443*) AddTo n_t2new_abab (Times (Einsum [(T 105,[0;1;2;3]); (n_t3'abaaba,[4;5;2;6;0;3])] [4;5;6;1]) (2) 1);
  (*444*) Assign (T 106) (Plain (Zeros [6;7;5;5]));
  (*445*) AddTo (T 106) (Plain (Einsum [(n_t1'aa,[0;1]); (n_v'aabb'ovov,[0;2;3;4])] [3;4;1;2]));
  (*446*) Assign (T 107) (Plain (Zeros [6;7;5;5]));
  (*447*) AddTo (T 107) (Plain (Einsum [(n_v'aabb'vvov,[0;1;2;3])] [2;3;0;1]));
  (*448*) AddTo (T 107) (Times (Einsum [(T 106,[0;1;2;3])] [0;1;3;2]) (-1) 1);
  (*449*) AddTo n_t2new_abab (Times (Einsum [(T 107,[0;1;2;3]); (n_t3'babbab,[4;5;0;6;2;1])] [5;4;3;6]) (2) 1);
  (*450*) Assign (T 108) (Plain (Zeros [6;7;7;7]));
  (*451*) AddTo (T 108) (Plain (Einsum [(n_t1'bb,[0;1]); (n_v'bbbb'ovov,[2;3;0;4])] [2;1;3;4]));
  (*452*) Assign (T 109) (Plain (Zeros [6;7;7;7]));
  (*453*) AddTo (T 109) (Plain (Einsum [(n_v'bbbb'ovvv,[0;1;2;3])] [0;2;3;1]));
  (*454*) AddTo (T 109) (Plain (Einsum [(T 108,[0;1;2;3])] [0;1;2;3]));
  (*455*) AddTo n_t2new_abab (Times (Einsum [(T 109,[0;1;2;3]); (n_t3'babbab,[4;5;0;2;6;3])] [5;4;6;1]) (2) 1);
  (*456*) Del (T 109);
  (*457*) Assign (T 110) (Plain (Zeros [4;5;5;5]));
  (*458*) AddTo (T 110) (Plain (Einsum [(n_t1'aa,[0;1]); (n_v'aaaa'ovov,[2;3;0;4])] [2;1;3;4]));
  (*459*) Assign (T 111) (Plain (Zeros [4;5;5;5]));
  (*460*) AddTo (T 111) (Plain (Einsum [(n_v'aaaa'ovvv,[0;1;2;3])] [0;2;3;1]));
  (*461*) AddTo (T 111) (Plain (Einsum [(T 110,[0;1;2;3])] [0;1;2;3]));
  (*462*) AddTo n_t2new_abab (Times (Einsum [(T 111,[0;1;2;3]); (n_t3'abaaba,[4;5;0;2;6;3])] [4;5;1;6]) (2) 1);
  (*463*) Del (T 111);
  (*464*) Assign (T 112) (Plain (Zeros [6;6;7;7]));
  (*465*) AddTo (T 112) (Plain (Einsum [(n_t2'abab,[0;1;2;3]); (n_v'aabb'ovov,[0;2;4;5])] [1;4;3;5]));
  (*466*) Assign (T 113) (Plain (Zeros [6;6;7;7]));
  (*467*) AddTo (T 113) (Times (Einsum [(n_v'bbbb'ovov,[0;1;2;3])] [0;2;3;1]) (-1) 1);
  (*468*) AddTo (T 113) (Plain (Einsum [(n_v'bbbb'ovov,[0;1;2;3])] [0;2;1;3]));
  (*469*) Assign (T 114) (Plain (Zeros [6;6;7;7]));
  (*470*) AddTo (T 114) (Plain (Einsum [(n_t2'bbbb,[0;1;2;3])] [0;1;2;3]));
  (*471*) AddTo (T 114) (Times (Einsum [(n_t1'bb,[0;1]); (n_t1'bb,[2;3])] [0;2;3;1]) (-1) 2);
  (*472*) Assign (T 115) (Plain (Zeros [6;7;7;7]));
  (*473*) AddTo (T 115) (Times (Einsum [(n_v'bbbb'ovvv,[0;1;2;3])] [0;1;2;3]) (-1) 1);
  (*474*) AddTo (T 115) (Plain (Einsum [(n_v'bbbb'ovvv,[0;1;2;3])] [0;2;1;3]));
  (*475*) Assign (T 116) (Plain (Zeros [6;6;7;7]));
  (*476*) AddTo (T 116) (Plain (Einsum [(n_t1'bb,[0;1]); (T 115,[2;3;1;4])] [2;0;3;4]));
  (*477*) Assign (T 117) (Plain (Zeros [6;6;7;7]));
  (*478*) AddTo (T 117) (Plain (Einsum [(n_t1'bb,[0;1]); (T 19,[2;3;0;4])] [2;3;4;1]));
  (*479*) Assign (T 118) (Plain (Zeros [6;6;7;7]));
  (*480*) AddTo (T 118) (Plain (Einsum [(n_v'bbbb'ovov,[0;1;2;3])] [0;2;1;3]));
  (*481*) AddTo (T 118) (Times (Einsum [(n_v'bbbb'oovv,[0;1;2;3])] [0;1;2;3]) (-1) 1);
  (*482*) AddTo (T 118) (Plain (Einsum [(T 112,[0;1;2;3])] [1;0;3;2]));
  (*483*) AddTo (T 118) (Times (Einsum [(T 113,[0;1;2;3]); (T 114,[0;4;3;5])] [1;4;2;5]) (-2) 1);
  (*484*) AddTo (T 118) (Times (Einsum [(T 116,[0;1;2;3])] [0;1;2;3]) (-1) 1);
  (*485*) AddTo (T 118) (Times (Einsum [(T 117,[0;1;2;3])] [1;0;2;3]) (-1) 1);
  (*486*) AddTo n_t2new_abab (Plain (Einsum [(n_t2'abab,[0;1;2;3]); (T 118,[1;4;3;5])] [0;4;2;5]));
  (*487*) Del (T 118);
  (*488*) Assign (T 119) (Plain (Zeros [4;5;5;5]));
  (*489*) AddTo (T 119) (Times (Einsum [(n_v'aaaa'ovvv,[0;1;2;3])] [0;1;2;3]) (-1) 1);
  (*490*) AddTo (T 119) (Plain (Einsum [(n_v'aaaa'ovvv,[0;1;2;3])] [0;2;3;1]));
  (*491*) Assign (T 120) (Plain (Zeros [4;4;4;5]));
  (*492*) AddTo (T 120) (Times (Einsum [(n_v'aaaa'ooov,[0;1;2;3])] [0;1;2;3]) (-1) 1);
  (*493*) AddTo (T 120) (Plain (Einsum [(n_v'aaaa'ooov,[0;1;2;3])] [2;0;1;3]));
  (*494*) Assign (T 121) (Plain (Zeros [4;4;5;5]));
  (*495*) AddTo (T 121) (Plain (Einsum [(n_v'aaaa'oovv,[0;1;2;3])] [0;1;2;3]));
  (*496*) AddTo (T 121) (Times (Einsum [(n_v'aaaa'ovov,[0;1;2;3])] [0;2;1;3]) (-1) 1);
  (*497*) AddTo (T 121) (Times (Einsum [(T 12,[0;1;2;3]); (T 41,[0;4;3;5])] [1;4;2;5]) (-2) 1);
  (*498*) AddTo (T 121) (Times (Einsum [(n_t1'aa,[0;1]); (T 119,[2;1;3;4])] [2;0;4;3]) (-1) 1);
  (*499*) AddTo (T 121) (Times (Einsum [(n_t1'aa,[0;1]); (T 120,[0;2;3;4])] [3;2;4;1]) (-1) 1);
  (*500*) Del (T 120);
  (*501*) AddTo n_t2new_abab (Times (Einsum [(n_t2'abab,[0;1;2;3]); (T 121,[0;4;2;5])] [4;1;5;3]) (-1) 1);
  (*502*) Del (T 121);
  (*503*) Assign (T 122) (Plain (Zeros [7;7;4;4]));
  (*504*) AddTo (T 122) (Plain (Einsum [(n_t1'bb,[0;1]); (n_v'aabb'ooov,[2;3;0;4])] [1;4;2;3]));
  (*505*) Assign (T 123) (Plain (Zeros [7;7;4;4]));
  (*506*) AddTo (T 123) (Plain (Einsum [(n_t1'aa,[0;1]); (n_v'aabb'ovvv,[2;1;3;4])] [3;4;0;2]));
  (*507*) Assign (T 124) (Plain (Zeros [7;7;4;4]));
  (*508*) AddTo (T 124) (Times (Einsum [(n_v'aabb'oovv,[0;1;2;3])] [2;3;0;1]) (-1) 1);
  (*509*) AddTo (T 124) (Plain (Einsum [(T 122,[0;1;2;3])] [1;0;3;2]));
  (*510*) AddTo (T 124) (Times (Einsum [(T 123,[0;1;2;3])] [1;0;3;2]) (-1) 1);
  (*511*) AddTo (T 124) (Plain (Einsum [(n_v'aabb'ovov,[0;1;2;3]); (T 6,[2;4;5;1])] [3;4;0;5]));
  (*512*) AddTo n_t2new_abab (Plain (Einsum [(n_t2'abab,[0;1;2;3]); (T 124,[3;4;0;5])] [5;1;2;4]));
  (*513*) Del (T 124);
  (*514*) Assign (T 125) (Plain (Zeros [6;7;4;5]));
  (*515*) AddTo (T 125) (Plain (Einsum [(n_t1'aa,[0;1]); (n_v'aabb'ooov,[2;0;3;4])] [3;4;2;1]));
  (*516*) Assign (T 126) (Plain (Zeros [6;7;4;5]));
  (*517*) AddTo (T 126) (Plain (Einsum [(n_v'aabb'ovov,[0;1;2;3])] [2;3;0;1]));
  (*518*) AddTo (T 126) (Times (Einsum [(T 125,[0;1;2;3])] [0;1;2;3]) (-1) 1);
  (*519*) AddTo (T 126) (Plain (Einsum [(T 39,[0;1;2;3])] [0;1;2;3]));
  (*520*) AddTo (T 126) (Times (Einsum [(n_v'aabb'ovov,[0;1;2;3]); (T 41,[0;4;1;5])] [2;3;4;5]) (2) 1);
  (*521*) AddTo n_t2new_abab (Times (Einsum [(n_t2'bbbb,[0;1;2;3]); (T 126,[1;3;4;5])] [4;0;5;2]) (2) 1);
  (*522*) Del (T 126);
  (*523*) Assign (T 127) (Plain (Zeros [4;4;5;5]));
  (*524*) AddTo (T 127) (Times (Einsum [(n_t2'aaaa,[0;1;2;3])] [0;1;2;3]) (2) 1);
  (*525*) AddTo (T 127) (Times (Einsum [(n_t1'aa,[0;1]); (n_t1'aa,[2;3])] [0;2;3;1]) (-1) 1);
  (*526*) Assign (T 128) (Plain (Zeros [6;7;4;5]));
  (*527*) AddTo (T 128) (Plain (Einsum [(n_t1'bb,[0;1]); (n_v'aabb'ovvv,[2;3;4;1])] [0;4;2;3]));
  (*528*) Assign (T 129) (Plain (Zeros [6;7;4;5]));
  (*529*) AddTo (T 129) (Plain (Einsum [(n_v'aabb'ovov,[0;1;2;3])] [2;3;0;1]));
  (*530*) AddTo (T 129) (Plain (Einsum [(T 128,[0;1;2;3])] [0;1;2;3]));
  (*531*) AddTo (T 129) (Times (Einsum [(n_t1'bb,[0;1]); (T 5,[0;2;3;4])] [2;1;3;4]) (-1) 1);
  (*532*) AddTo n_t2new_abab (Plain (Einsum [(T 127,[0;1;2;3]); (T 129,[4;5;0;2])] [1;4;3;5]));
  (*533*) Del (T 127);
  (*533*) Del (T 129);
  (*534*) Assign (T 130) (Plain (Zeros [6;6;5;5]));
  (*535*) AddTo (T 130) (Plain (Einsum [(n_t1'bb,[0;1]); (n_v'aabb'vvov,[2;3;4;1])] [0;4;2;3]));
  (*536*) Assign (T 131) (Plain (Zeros [6;6;4;5]));
  (*537*) AddTo (T 131) (Plain (Einsum [(n_v'aabb'ovoo,[0;1;2;3])] [2;3;0;1]));
  (*538*) AddTo (T 131) (Plain (Einsum [(T 4,[0;1;2;3])] [0;1;2;3]));
  (*539*) Assign (T 132) (Plain (Zeros [6;6;5;5]));
  (*540*) AddTo (T 132) (Plain (Einsum [(n_v'aabb'vvoo,[0;1;2;3])] [2;3;0;1]));
  (*541*) AddTo (T 132) (Plain (Einsum [(T 130,[0;1;2;3])] [1;0;3;2]));
  (*542*) AddTo (T 132) (Times (Einsum [(n_t1'aa,[0;1]); (T 131,[2;3;0;4])] [3;2;4;1]) (-1) 1);
  (*543*) AddTo n_t2new_abab (Times (Einsum [(n_t2'abab,[0;1;2;3]); (T 132,[1;4;2;5])] [0;4;5;3]) (-1) 1);
  (*544*) Del (T 132);
  (*545*) Assign (T 133) (Plain (Zeros [7;7;5;5]));
  (*546*) AddTo (T 133) (Plain (Einsum [(n_t1'bb,[0;1]); (n_v'aabb'vvov,[2;3;0;4])] [1;4;2;3]));
  (*547*) Assign (T 134) (Plain (Zeros [7;7;5;5]));
  (*548*) AddTo (T 134) (Plain (Einsum [(n_t1'aa,[0;1]); (n_v'aabb'ovvv,[0;2;3;4])] [3;4;1;2]));
  (*549*) Assign (T 135) (Plain (Zeros [7;7;5;5]));
  (*550*) AddTo (T 135) (Times (Einsum [(n_v'aabb'vvvv,[0;1;2;3])] [2;3;0;1]) (-1) 1);
  (*551*) AddTo (T 135) (Plain (Einsum [(T 133,[0;1;2;3])] [1;0;3;2]));
  (*552*) AddTo (T 135) (Plain (Einsum [(T 134,[0;1;2;3])] [1;0;3;2]));
  (*553*) AddTo n_t2new_abab (Times (Einsum [(n_t2'abab,[0;1;2;3]); (T 135,[3;4;2;5])] [0;1;5;4]) (-1) 1);
  (*554*) Del (T 135);
  (*555*) Assign (T 136) (Plain (Zeros [6;6;4;4]));
  (*556*) AddTo (T 136) (Plain (Einsum [(n_t1'bb,[0;1]); (n_v'aabb'ooov,[2;3;4;1])] [0;4;2;3]));
  (*557*) Assign (T 137) (Plain (Zeros [6;6;4;4]));
  (*558*) AddTo (T 137) (Plain (Einsum [(n_t1'aa,[0;1]); (n_v'aabb'ovoo,[2;1;3;4])] [3;4;0;2]));
  (*559*) Assign (T 138) (Plain (Zeros [6;6;4;4]));
  (*560*) AddTo (T 138) (Plain (Einsum [(n_v'aabb'ovov,[0;1;2;3]); (T 6,[4;3;5;1])] [4;2;5;0]));
  (*561*) Assign (T 139) (Plain (Zeros [6;6;4;4]));
  (*562*) AddTo (T 139) (Plain (Einsum [(n_v'aabb'oooo,[0;1;2;3])] [2;3;0;1]));
  (*563*) AddTo (T 139) (Plain (Einsum [(T 136,[0;1;2;3])] [1;0;3;2]));
  (*564*) AddTo (T 139) (Plain (Einsum [(T 137,[0;1;2;3])] [1;0;3;2]));
  (*565*) AddTo (T 139) (Plain (Einsum [(T 138,[0;1;2;3])] [1;0;3;2]));
  (*566*) AddTo n_t2new_abab (Plain (Einsum [(n_t2'abab,[0;1;2;3]); (T 139,[1;4;0;5])] [5;4;2;3]));
  (*567*) Del (T 139);
  (*568*) Assign (T 140) (Plain (Zeros [5;5]));
  (*569*) AddTo (T 140) (Plain (Einsum [(n_t1'aa,[0;1]); (T 14,[0;2])] [2;1]));
  (*570*) Assign (T 141) (Plain (Zeros [5;5]));
  (*571*) AddTo (T 141) (Times (Einsum [(n_f'aa'vv,[0;1])] [0;1]) (-1) 1);
  (*572*) AddTo (T 141) (Times (Einsum [(T 72,[0;1])] [1;0]) (-1) 1);
  (*573*) AddTo (T 141) (Plain (Einsum [(T 73,[0;1])] [1;0]));
  (*574*) AddTo (T 141) (Times (Einsum [(T 74,[0;1])] [1;0]) (2) 1);
  (*575*) AddTo (T 141) (Times (Einsum [(T 75,[0;1])] [1;0]) (-1) 1);
  (*576*) Del (T 75);
  (*577*) AddTo (T 141) (Plain (Einsum [(T 140,[0;1])] [0;1]));
  (*578*) AddTo n_t2new_abab (Times (Einsum [(T 141,[0;1]); (n_t2'abab,[2;3;0;4])] [2;3;1;4]) (-1) 1);
  (*579*) AddTo n_t3new_babbab (Times (Einsum [(T 141,[0;1]); (n_t3'babbab,[2;3;4;5;0;6])] [2;3;4;5;1;6]) (-2) 1);
  (*580*) Del (T 141);
  (*581*) Assign (T 142) (Plain (Zeros [7;7]));
  (*582*) AddTo (T 142) (Plain (Einsum [(n_t1'aa,[0;1]); (n_v'aabb'ovvv,[0;1;2;3])] [2;3]));
  (*583*) Assign (T 143) (Plain (Zeros [7;7]));
  (*584*) AddTo (T 143) (Plain (Einsum [(n_t2'bbbb,[0;1;2;3]); (n_v'bbbb'ovov,[0;4;1;3])] [2;4]));
  (*585*) Assign (T 144) (Plain (Zeros [7;7]));
  (*586*) AddTo (T 144) (Plain (Einsum [(n_t2'abab,[0;1;2;3]); (n_v'aabb'ovov,[0;2;1;4])] [3;4]));
  (*587*) Assign (T 145) (Plain (Zeros [7;7]));
  (*588*) AddTo (T 145) (Plain (Einsum [(n_t1'bb,[0;1]); (T 115,[0;2;1;3])] [2;3]));
  (*589*) Del (T 115);
  (*590*) Assign (T 146) (Plain (Zeros [7;7]));
  (*591*) AddTo (T 146) (Plain (Einsum [(n_t1'bb,[0;1]); (T 10,[0;2])] [2;1]));
  (*592*) Assign (T 147) (Plain (Zeros [7;7]));
  (*593*) AddTo (T 147) (Times (Einsum [(n_f'bb'vv,[0;1])] [0;1]) (-1) 1);
  (*594*) AddTo (T 147) (Times (Einsum [(T 142,[0;1])] [1;0]) (-1) 1);
  (*595*) AddTo (T 147) (Times (Einsum [(T 143,[0;1])] [1;0]) (2) 1);
  (*596*) AddTo (T 147) (Plain (Einsum [(T 144,[0;1])] [1;0]));
  (*597*) AddTo (T 147) (Times (Einsum [(T 145,[0;1])] [0;1]) (-1) 1);
  (*598*) AddTo (T 147) (Plain (Einsum [(T 146,[0;1])] [0;1]));
  (*599*) AddTo n_t2new_abab (Times (Einsum [(T 147,[0;1]); (n_t2'abab,[2;3;4;0])] [2;3;4;1]) (-1) 1);
  (*600*) AddTo n_t3new_abaaba (Times (Einsum [(T 147,[0;1]); (n_t3'abaaba,[2;3;4;5;0;6])] [2;3;4;5;1;6]) (-2) 1);
  (*601*) Del (T 147);
  (*602*) Assign (T 148) (Plain (Zeros [6;6;4;5]));
  (*603*) AddTo (T 148) (Plain (Einsum [(n_t1'aa,[0;1]); (n_v'aabb'vvoo,[2;1;3;4])] [3;4;0;2]));
  (*604*) Assign (T 149) (Plain (Zeros [6;7;4;5]));
  (*605*) AddTo (T 149) (Plain (Einsum [(n_v'aabb'ovov,[0;1;2;3])] [2;3;0;1]));
  (*606*) AddTo (T 149) (Plain (Einsum [(T 39,[0;1;2;3])] [0;1;2;3]));
  (*607*) Assign (T 150) (Plain (Zeros [6;6;4;5]));
  (*608*) AddTo (T 150) (Plain (Einsum [(n_t1'bb,[0;1]); (T 149,[2;1;3;4])] [2;0;3;4]));
  (*609*) Del (T 149);
  (*610*) Assign (T 151) (Plain (Zeros [6;6;4;4]));
  (*611*) AddTo (T 151) (Plain (Einsum [(n_t2'abab,[0;1;2;3]); (n_v'aabb'ovov,[4;2;5;3])] [1;5;0;4]));
  (*612*) Assign (T 152) (Plain (Zeros [6;6;4;4]));
  (*613*) AddTo (T 152) (Plain (Einsum [(n_v'aabb'oooo,[0;1;2;3])] [2;3;0;1]));
  (*614*) AddTo (T 152) (Plain (Einsum [(T 136,[0;1;2;3])] [0;1;3;2]));
  (*615*) AddTo (T 152) (Plain (Einsum [(T 151,[0;1;2;3])] [0;1;3;2]));
  (*616*) Assign (T 153) (Plain (Zeros [6;6;4;5]));
  (*617*) AddTo (T 153) (Plain (Einsum [(n_v'aabb'ovoo,[0;1;2;3])] [2;3;0;1]));
  (*618*) AddTo (T 153) (Plain (Einsum [(T 148,[0;1;2;3])] [1;0;2;3]));
  (*619*) AddTo (T 153) (Plain (Einsum [(T 150,[0;1;2;3])] [0;1;2;3]));
  (*620*) AddTo (T 153) (Times (Einsum [(n_t1'aa,[0;1]); (T 152,[2;3;0;4])] [3;2;4;1]) (-1) 1);
  (*621*) Del (T 152);
  (*622*) AddTo n_t2new_abab (Times (Einsum [(n_t1'bb,[0;1]); (T 153,[0;2;3;4])] [3;2;4;1]) (-1) 1);
  (*623*) Del (T 153);
  (*624*) Assign (T 154) (Plain (Zeros [7;7;4;5]));
  (*625*) AddTo (T 154) (Plain (Einsum [(n_t1'aa,[0;1]); (n_v'aabb'vvvv,[2;1;3;4])] [3;4;0;2]));
  (*626*) Assign (T 155) (Plain (Zeros [7;7;4;5]));
  (*627*) AddTo (T 155) (Plain (Einsum [(n_v'aabb'ovvv,[0;1;2;3])] [2;3;0;1]));
  (*628*) AddTo (T 155) (Plain (Einsum [(T 154,[0;1;2;3])] [1;0;2;3]));
  (*629*) AddTo n_t2new_abab (Plain (Einsum [(n_t1'bb,[0;1]); (T 155,[1;2;3;4])] [3;0;4;2]));
  (*630*) Del (T 155);
  (*631*) Assign (T 156) (Plain (Zeros [6;7;4;4]));
  (*632*) AddTo (T 156) (Plain (Einsum [(n_t1'bb,[0;1]); (n_v'aabb'oovv,[2;3;4;1])] [0;4;2;3]));
  (*633*) Assign (T 157) (Plain (Zeros [6;7;4;4]));
  (*634*) AddTo (T 157) (Plain (Einsum [(n_v'aabb'ooov,[0;1;2;3])] [2;3;0;1]));
  (*635*) AddTo (T 157) (Plain (Einsum [(T 156,[0;1;2;3])] [0;1;3;2]));
  (*636*) AddTo n_t2new_abab (Times (Einsum [(n_t1'aa,[0;1]); (T 157,[2;3;0;4])] [4;2;1;3]) (-1) 1);
  (*637*) Del (T 157);
  (*638*) Assign (T 158) (Plain (Zeros [6;7;7;7]));
  (*639*) AddTo (T 158) (Plain (Einsum [(n_t1'bb,[0;1]); (n_v'bbbb'vvvv,[2;3;4;1])] [0;2;3;4]));
  (*640*) Assign (T 159) (Plain (Zeros [6;6;7;7]));
  (*641*) AddTo (T 159) (Plain (Einsum [(n_t1'bb,[0;1]); (T 158,[2;3;1;4])] [0;2;3;4]));
  (*642*) Assign (T 160) (Plain (Zeros [6;6;7;7]));
  (*643*) AddTo (T 160) (Plain (Einsum [(n_v'bbbb'ovvv,[0;1;2;3]); (n_t3'bbbbbb,[4;5;0;6;1;3])] [4;5;6;2]));
  (*644*) Assign (T 161) (Plain (Zeros [6;6;7;7]));
  (*645*) AddTo (T 161) (Plain (Einsum [(n_v'aabb'ovvv,[0;1;2;3]); (n_t3'babbab,[4;0;5;6;1;3])] [4;5;6;2]));
  (*646*) Assign (T 162) (Plain (Zeros [6;6;7;7]));
  (*647*) AddTo (T 162) (Plain (Einsum [(n_t2'bbbb,[0;1;2;3]); (T 8,[1;4;3;5])] [4;0;5;2]));
  (*648*) Assign (T 163) (Plain (Zeros [6;6;7;7]));
  (*649*) AddTo (T 163) (Times (Einsum [(n_t2'bbbb,[0;1;2;3]); (T 162,[1;4;3;5])] [4;0;5;2]) (-4) 1);
  (*650*) Del (T 162);
  (*651*) Assign (T 164) (Plain (Zeros [6;7;4;5]));
  (*652*) AddTo (T 164) (Plain (Einsum [(n_t2'abab,[0;1;2;3]); (T 12,[0;4;2;5])] [1;3;4;5]));
  (*653*) Assign (T 165) (Plain (Zeros [6;6;7;7]));
  (*654*) AddTo (T 165) (Times (Einsum [(n_t2'abab,[0;1;2;3]); (T 164,[4;5;0;2])] [4;1;5;3]) (-1) 1);
  (*655*) Assign (T 166) (Plain (Zeros [7;7]));
  (*656*) AddTo (T 166) (Times (Einsum [(T 142,[0;1])] [1;0]) (-1) 1);
  (*657*) AddTo (T 166) (Times (Einsum [(T 143,[0;1])] [1;0]) (2) 1);
  (*658*) AddTo (T 166) (Plain (Einsum [(T 144,[0;1])] [1;0]));
  (*659*) AddTo (T 166) (Times (Einsum [(T 145,[0;1])] [0;1]) (-1) 1);
  (*660*) Del (T 145);
  (*661*) Assign (T 167) (Plain (Zeros [6;6;7;7]));
  (*662*) AddTo (T 167) (Times (Einsum [(T 166,[0;1]); (n_t2'bbbb,[2;3;4;0])] [2;3;1;4]) (-2) 1);
  (*663*) Del (T 166);
  (*664*) Assign (T 168) (Plain (Zeros [6;6;6;7]));
  (*665*) AddTo (T 168) (Plain (Einsum [(n_t2'bbbb,[0;1;2;3]); (n_v'bbbb'ovvv,[4;2;5;3])] [0;1;4;5]));
  (*666*) Assign (T 169) (Plain (Zeros [6;6;6;7]));
  (*667*) AddTo (T 169) (Times (Einsum [(n_v'bbbb'ovov,[0;1;2;3]); (n_t3'bbbbbb,[4;5;2;6;3;1])] [4;5;0;6]) (-1) 1);
  (*668*) Assign (T 170) (Plain (Zeros [6;6;6;7]));
  (*669*) AddTo (T 170) (Plain (Einsum [(n_v'aabb'ovov,[0;1;2;3]); (n_t3'babbab,[4;0;5;6;1;3])] [4;5;2;6]));
  (*670*) Assign (T 171) (Plain (Zeros [6;6;6;7]));
  (*671*) AddTo (T 171) (Times (Einsum [(T 10,[0;1]); (n_t2'bbbb,[2;3;4;1])] [0;2;3;4]) (-2) 1);
  (*672*) Assign (T 172) (Plain (Zeros [6;6;6;6]));
  (*673*) AddTo (T 172) (Plain (Einsum [(n_t1'bb,[0;1]); (T 2,[2;3;4;1])] [2;0;4;3]));
  (*674*) Assign (T 173) (Plain (Zeros [6;6;6;6]));
  (*675*) AddTo (T 173) (Plain (Einsum [(n_v'bbbb'oooo,[0;1;2;3])] [0;1;2;3]));
  (*676*) AddTo (T 173) (Plain (Einsum [(T 172,[0;1;2;3])] [3;1;2;0]));
  (*677*) Assign (T 174) (Plain (Zeros [6;6;6;7]));
  (*678*) AddTo (T 174) (Plain (Einsum [(n_t1'bb,[0;1]); (T 173,[0;2;3;4])] [2;3;4;1]));
  (*679*) Del (T 173);
  (*680*) Assign (T 175) (Plain (Zeros [6;6;6;7]));
  (*681*) AddTo (T 175) (Times (Einsum [(T 168,[0;1;2;3])] [2;1;0;3]) (-2) 1);
  (*682*) AddTo (T 175) (Times (Einsum [(T 169,[0;1;2;3])] [2;1;0;3]) (6) 1);
  (*683*) AddTo (T 175) (Times (Einsum [(T 170,[0;1;2;3])] [2;1;0;3]) (2) 1);
  (*684*) AddTo (T 175) (Times (Einsum [(T 171,[0;1;2;3])] [0;2;1;3]) (-1) 1);
  (*685*) AddTo (T 175) (Plain (Einsum [(T 174,[0;1;2;3])] [1;0;2;3]));
  (*686*) Del (T 174);
  (*687*) Assign (T 176) (Plain (Zeros [6;6;7;7]));
  (*688*) AddTo (T 176) (Plain (Einsum [(n_t1'bb,[0;1]); (T 175,[0;2;3;4])] [2;3;4;1]));
  (*689*) Del (T 175);
  (*690*) Assign (T 177) (Plain (Zeros [6;6;7;7]));
  (*691*) AddTo (T 177) (Plain (Einsum [(T 159,[0;1;2;3])] [0;1;2;3]));
  (*692*) Del (T 159);
  (*693*) AddTo (T 177) (Times (Einsum [(T 160,[0;1;2;3])] [0;1;2;3]) (-6) 1);
  (*694*) Del (T 160);
  (*695*) AddTo (T 177) (Times (Einsum [(T 161,[0;1;2;3])] [0;1;2;3]) (2) 1);
  (*696*) Del (T 161);
  (*697*) AddTo (T 177) (Plain (Einsum [(T 163,[0;1;2;3])] [0;1;2;3]));
  (*698*) Del (T 163);
  (*699*) AddTo (T 177) (Plain (Einsum [(T 165,[0;1;2;3])] [0;1;2;3]));
  (*700*) Del (T 165);
  (*701*) AddTo (T 177) (Times (Einsum [(T 167,[0;1;2;3])] [1;0;3;2]) (-1) 1);
  (*702*) Del (T 167);
  (*703*) AddTo (T 177) (Plain (Einsum [(T 176,[0;1;2;3])] [1;0;3;2]));
  (*704*) Del (T 176);
  (*705*) AddTo n_t2new_bbbb (Plain (Einsum [(T 177,[0;1;2;3])] [0;1;2;3]));
  (*706*) AddTo n_t2new_bbbb (Times (Einsum [(T 177,[0;1;2;3])] [0;1;3;2]) (-1) 1);
  (*707*) Del (T 177);
  (*708*) Assign (T 178) (Plain (Zeros [6;6;7;7]));
  (*709*) AddTo (T 178) (Plain (Einsum [(n_t1'bb,[0;1]); (n_v'bbbb'ovvv,[2;3;4;1])] [0;2;3;4]));
  (*710*) Assign (T 179) (Plain (Zeros [6;6;7;7]));
  (*711*) AddTo (T 179) (Plain (Einsum [(n_t2'abab,[0;1;2;3]); (T 128,[4;5;0;2])] [4;1;3;5]));
  (*712*) Assign (T 180) (Plain (Zeros [6;6;7;7]));
  (*713*) AddTo (T 180) (Plain (Einsum [(n_v'bbbb'ovov,[0;1;2;3])] [0;2;1;3]));
  (*714*) AddTo (T 180) (Times (Einsum [(n_v'bbbb'oovv,[0;1;2;3])] [0;1;2;3]) (-1) 1);
  (*715*) AddTo (T 180) (Plain (Einsum [(T 112,[0;1;2;3])] [1;0;3;2]));
  (*716*) Assign (T 181) (Plain (Zeros [6;6;7;7]));
  (*717*) AddTo (T 181) (Times (Einsum [(n_t2'bbbb,[0;1;2;3]); (T 180,[1;4;3;5])] [4;0;5;2]) (2) 1);
  (*718*) Del (T 180);
  (*719*) Assign (T 182) (Plain (Zeros [6;7;7;7]));
  (*720*) AddTo (T 182) (Plain (Einsum [(n_v'bbbb'ovvv,[0;1;2;3])] [0;1;2;3]));
  (*721*) AddTo (T 182) (Times (Einsum [(n_v'bbbb'ovvv,[0;1;2;3])] [0;2;3;1]) (-1) 1);
  (*722*) Assign (T 183) (Plain (Zeros [6;6;7;7]));
  (*723*) AddTo (T 183) (Plain (Einsum [(n_t1'bb,[0;1]); (T 182,[2;1;3;4])] [2;0;3;4]));
  (*724*) Del (T 182);
  (*725*) Assign (T 184) (Plain (Zeros [6;6;7;7]));
  (*726*) AddTo (T 184) (Times (Einsum [(n_t2'bbbb,[0;1;2;3]); (T 183,[1;4;5;3])] [4;0;5;2]) (-2) 1);
  (*727*) Assign (T 185) (Plain (Zeros [6;6;6;6]));
  (*728*) AddTo (T 185) (Plain (Einsum [(n_t1'bb,[0;1]); (n_v'bbbb'ooov,[2;3;4;1])] [0;2;3;4]));
  (*729*) Assign (T 186) (Plain (Zeros [6;6;6;7]));
  (*730*) AddTo (T 186) (Plain (Einsum [(n_t1'bb,[0;1]); (T 185,[2;3;4;0])] [2;4;3;1]));
  (*731*) Assign (T 187) (Plain (Zeros [6;6;6;7]));
  (*732*) AddTo (T 187) (Plain (Einsum [(n_t2'abab,[0;1;2;3]); (n_v'aabb'ovoo,[0;2;4;5])] [1;4;5;3]));
  (*733*) Assign (T 188) (Plain (Zeros [6;6;6;7]));
  (*734*) AddTo (T 188) (Plain (Einsum [(n_t2'abab,[0;1;2;3]); (T 4,[4;5;0;2])] [4;1;5;3]));
  (*735*) Assign (T 189) (Plain (Zeros [6;6;6;7]));
  (*736*) AddTo (T 189) (Times (Einsum [(n_v'bbbb'ooov,[0;1;2;3])] [0;1;2;3]) (-1) 1);
  (*737*) AddTo (T 189) (Plain (Einsum [(n_v'bbbb'ooov,[0;1;2;3])] [2;0;1;3]));
  (*738*) Assign (T 190) (Plain (Zeros [6;6;6;7]));
  (*739*) AddTo (T 190) (Times (Einsum [(n_t2'bbbb,[0;1;2;3]); (T 189,[1;4;5;3])] [4;5;0;2]) (2) 1);
  (*740*) Assign (T 191) (Plain (Zeros [6;6;6;7]));
  (*741*) AddTo (T 191) (Times (Einsum [(T 2,[0;1;2;3])] [0;1;2;3]) (-1) 1);
  (*742*) AddTo (T 191) (Plain (Einsum [(T 2,[0;1;2;3])] [0;2;1;3]));
  (*743*) Assign (T 192) (Plain (Zeros [6;6;6;7]));
  (*744*) AddTo (T 192) (Times (Einsum [(n_t2'bbbb,[0;1;2;3]); (T 191,[4;1;5;3])] [4;5;0;2]) (2) 1);
  (*745*) Assign (T 193) (Plain (Zeros [6;6;7;7]));
  (*746*) AddTo (T 193) (Plain (Einsum [(n_v'bbbb'ovov,[0;1;2;3])] [0;2;3;1]));
  (*747*) AddTo (T 193) (Times (Einsum [(n_v'bbbb'oovv,[0;1;2;3])] [0;1;2;3]) (-1) 1);
  (*748*) AddTo (T 193) (Plain (Einsum [(T 178,[0;1;2;3])] [0;1;2;3]));
  (*749*) Assign (T 194) (Plain (Zeros [6;6;6;7]));
  (*750*) AddTo (T 194) (Plain (Einsum [(n_t1'bb,[0;1]); (T 193,[2;3;1;4])] [2;3;0;4]));
  (*751*) Assign (T 195) (Plain (Zeros [6;6;6;7]));
  (*752*) AddTo (T 195) (Plain (Einsum [(T 186,[0;1;2;3])] [0;2;1;3]));
  (*753*) AddTo (T 195) (Times (Einsum [(T 187,[0;1;2;3])] [0;2;1;3]) (-1) 1);
  (*754*) AddTo (T 195) (Plain (Einsum [(T 188,[0;1;2;3])] [0;2;1;3]));
  (*755*) AddTo (T 195) (Times (Einsum [(T 190,[0;1;2;3])] [2;1;0;3]) (-1) 1);
  (*756*) Del (T 190);
  (*757*) AddTo (T 195) (Times (Einsum [(T 192,[0;1;2;3])] [0;1;2;3]) (-1) 1);
  (*758*) Del (T 192);
  (*759*) AddTo (T 195) (Plain (Einsum [(T 194,[0;1;2;3])] [2;1;0;3]));
  (*760*) Assign (T 196) (Plain (Zeros [6;6;7;7]));
  (*761*) AddTo (T 196) (Plain (Einsum [(n_t1'bb,[0;1]); (T 195,[2;0;3;4])] [2;3;4;1]));
  (*762*) Del (T 195);
  (*763*) Assign (T 197) (Plain (Zeros [6;6;7;7]));
  (*764*) AddTo (T 197) (Plain (Einsum [(T 178,[0;1;2;3])] [0;1;2;3]));
  (*765*) AddTo (T 197) (Times (Einsum [(T 112,[0;1;2;3])] [0;1;2;3]) (-1) 1);
  (*766*) AddTo (T 197) (Plain (Einsum [(T 179,[0;1;2;3])] [0;1;2;3]));
  (*767*) Del (T 179);
  (*768*) AddTo (T 197) (Times (Einsum [(T 181,[0;1;2;3])] [1;0;3;2]) (-1) 1);
  (*769*) Del (T 181);
  (*770*) AddTo (T 197) (Plain (Einsum [(T 184,[0;1;2;3])] [0;1;3;2]));
  (*771*) Del (T 184);
  (*772*) AddTo (T 197) (Plain (Einsum [(T 196,[0;1;2;3])] [0;1;3;2]));
  (*773*) Del (T 196);
  (*774*) AddTo n_t2new_bbbb (Times (Einsum [(T 197,[0;1;2;3])] [0;1;2;3]) (-1) 1);
  (*775*) AddTo n_t2new_bbbb (Plain (Einsum [(T 197,[0;1;2;3])] [0;1;3;2]));
  (*776*) AddTo n_t2new_bbbb (Plain (Einsum [(T 197,[0;1;2;3])] [1;0;2;3]));
  (*777*) AddTo n_t2new_bbbb (Times (Einsum [(T 197,[0;1;2;3])] [1;0;3;2]) (-1) 1);
  (*778*) Del (T 197);
  (*779*) Assign (T 198) (Plain (Zeros [6;6;7;7]));
  (*780*) AddTo (T 198) (Plain (Einsum [(n_t1'bb,[0;1]); (n_v'bbbb'ooov,[2;0;3;4])] [2;3;1;4]));
  (*781*) Assign (T 199) (Plain (Zeros [6;6;7;7]));
  (*782*) AddTo (T 199) (Plain (Einsum [(n_v'bbbb'ooov,[0;1;2;3]); (n_t3'bbbbbb,[4;1;2;5;6;3])] [4;0;5;6]));
  (*783*) Assign (T 200) (Plain (Zeros [6;6;7;7]));
  (*784*) AddTo (T 200) (Plain (Einsum [(n_t2'bbbb,[0;1;2;3]); (T 185,[4;5;0;1])] [4;5;2;3]));
  (*785*) Assign (T 201) (Plain (Zeros [6;6;7;7]));
  (*786*) AddTo (T 201) (Plain (Einsum [(n_v'aabb'ovoo,[0;1;2;3]); (n_t3'babbab,[4;0;3;5;1;6])] [4;2;5;6]));
  (*787*) Assign (T 202) (Plain (Zeros [6;6;7;7]));
  (*788*) AddTo (T 202) (Times (Einsum [(T 2,[0;1;2;3]); (n_t3'bbbbbb,[4;1;2;5;6;3])] [0;4;5;6]) (-1) 1);
  (*789*) Assign (T 203) (Plain (Zeros [6;6;7;7]));
  (*790*) AddTo (T 203) (Plain (Einsum [(T 4,[0;1;2;3]); (n_t3'babbab,[4;2;1;5;3;6])] [0;4;5;6]));
  (*791*) Assign (T 204) (Plain (Zeros [6;6]));
  (*792*) AddTo (T 204) (Plain (Einsum [(n_f'bb'oo,[0;1])] [0;1]));
  (*793*) AddTo (T 204) (Plain (Einsum [(T 21,[0;1])] [1;0]));
  (*794*) Assign (T 205) (Plain (Zeros [6;6;7;7]));
  (*795*) AddTo (T 205) (Times (Einsum [(T 204,[0;1]); (n_t2'bbbb,[2;1;3;4])] [0;2;3;4]) (-2) 1);
  (*796*) Del (T 204);
  (*797*) Assign (T 206) (Plain (Zeros [6;6]));
  (*798*) AddTo (T 206) (Plain (Einsum [(T 16,[0;1])] [1;0]));
  (*799*) AddTo (T 206) (Times (Einsum [(T 17,[0;1])] [1;0]) (2) 1);
  (*800*) AddTo (T 206) (Plain (Einsum [(T 18,[0;1])] [1;0]));
  (*801*) AddTo (T 206) (Times (Einsum [(T 20,[0;1])] [1;0]) (-1) 1);
  (*802*) Assign (T 207) (Plain (Zeros [6;6;7;7]));
  (*803*) AddTo (T 207) (Times (Einsum [(T 206,[0;1]); (n_t2'bbbb,[2;0;3;4])] [1;2;3;4]) (-2) 1);
  (*804*) Del (T 206);
  (*805*) Assign (T 208) (Plain (Zeros [6;6;7;7]));
  (*806*) AddTo (T 208) (Times (Einsum [(T 198,[0;1;2;3])] [0;1;3;2]) (-1) 1);
  (*807*) Del (T 198);
  (*808*) AddTo (T 208) (Times (Einsum [(T 199,[0;1;2;3])] [0;1;3;2]) (-6) 1);
  (*809*) Del (T 199);
  (*810*) AddTo (T 208) (Times (Einsum [(T 200,[0;1;2;3])] [0;1;3;2]) (-2) 1);
  (*811*) Del (T 200);
  (*812*) AddTo (T 208) (Times (Einsum [(T 201,[0;1;2;3])] [0;1;3;2]) (-2) 1);
  (*813*) Del (T 201);
  (*814*) AddTo (T 208) (Times (Einsum [(T 202,[0;1;2;3])] [0;1;3;2]) (6) 1);
  (*815*) Del (T 202);
  (*816*) AddTo (T 208) (Times (Einsum [(T 203,[0;1;2;3])] [0;1;3;2]) (2) 1);
  (*817*) Del (T 203);
  (*818*) AddTo (T 208) (Times (Einsum [(T 205,[0;1;2;3])] [0;1;3;2]) (-1) 1);
  (*819*) Del (T 205);
  (*820*) AddTo (T 208) (Plain (Einsum [(T 207,[0;1;2;3])] [1;0;3;2]));
  (*821*) Del (T 207);
  (*822*) AddTo n_t2new_bbbb (Times (Einsum [(T 208,[0;1;2;3])] [0;1;2;3]) (-1) 1);
  (*823*) AddTo n_t2new_bbbb (Plain (Einsum [(T 208,[0;1;2;3])] [1;0;2;3]));
  (*824*) Del (T 208);
  (*825*) Assign (T 209) (Plain (Zeros [6;6;7;7]));
  (*826*) AddTo (T 209) (Plain (Einsum [(n_f'bb'vv,[0;1]); (n_t2'bbbb,[2;3;4;1])] [2;3;0;4]));
  (*827*) Assign (T 210) (Plain (Zeros [6;6;7;7]));
  (*828*) AddTo (T 210) (Plain (Einsum [(n_v'bbbb'ovov,[0;1;2;3])] [0;2;1;3]));
  (*829*) AddTo (T 210) (Times (Einsum [(T 209,[0;1;2;3])] [1;0;3;2]) (-2) 1);
  (*830*) Del (T 209);
  (*831*) AddTo n_t2new_bbbb (Times (Einsum [(T 210,[0;1;2;3])] [0;1;3;2]) (-1) 1);
  (*832*) AddTo n_t2new_bbbb (Plain (Einsum [(T 210,[0;1;2;3])] [0;1;2;3]));
  (*833*) Del (T 210);
  (*834*) Assign (T 211) (Plain (Zeros [6;6;6;6]));
  (*835*) AddTo (T 211) (Plain (Einsum [(n_t2'bbbb,[0;1;2;3]); (n_v'bbbb'ovov,[4;2;5;3])] [0;1;4;5]));
  (*836*) Assign (T 212) (Plain (Zeros [6;6;6;6]));
  (*837*) AddTo (T 212) (Times (Einsum [(n_v'bbbb'oooo,[0;1;2;3])] [0;1;2;3]) (-1) 1);
  (*838*) AddTo (T 212) (Times (Einsum [(T 211,[0;1;2;3])] [3;1;2;0]) (-1) 1);
  (*839*) AddTo (T 212) (Plain (Einsum [(T 172,[0;1;2;3])] [2;1;3;0]));
  (*840*) AddTo n_t2new_bbbb (Times (Einsum [(n_t2'bbbb,[0;1;2;3]); (T 212,[0;4;1;5])] [4;5;2;3]) (-2) 1);
  (*841*) Del (T 212);
  (*842*) Assign (T 213) (Plain (Zeros [6;6;6;7]));
  (*843*) AddTo (T 213) (Times (Einsum [(n_t1'bb,[0;1]); (T 211,[2;3;0;4])] [2;3;4;1]) (-2) 1);
  (*844*) AddTo (T 213) (Times (Einsum [(n_v'bbbb'ooov,[0;1;2;3])] [0;2;1;3]) (-1) 1);
  (*845*) AddTo (T 213) (Plain (Einsum [(n_v'bbbb'ooov,[0;1;2;3])] [2;0;1;3]));
  (*846*) AddTo n_t2new_bbbb (Plain (Einsum [(n_t1'bb,[0;1]); (T 213,[2;3;0;4])] [2;3;1;4]));
  (*847*) Del (T 213);
  (*848*) Assign (T 214) (Plain (Zeros [4;4;4;5;5;5]));
  (*849*) AddTo (T 214) (Plain (Einsum [(n_v'aabb'ovov,[0;1;2;3]); (n_t3'abaaba,[4;2;5;6;3;7])] [4;5;0;6;7;1]));
  (*850*) Assign (T 215) (Plain (Zeros [4;5;5;5]));
  (*851*) AddTo (T 215) (Plain (Einsum [(n_t2'aaaa,[0;1;2;3]); (n_v'aaaa'ooov,[4;0;1;5])] [4;2;3;5]));
  (*852*) Assign (T 216) (Plain (Zeros [4;4;4;5;5;5]));
  (*853*) AddTo (T 216) (Plain (Einsum [(n_t2'aaaa,[0;1;2;3]); (T 215,[4;5;6;3])] [0;1;4;5;6;2]));
  (*854*) Assign (T 217) (Plain (Zeros [4;4;4;5;5;5]));
  (*855*) AddTo (T 217) (Plain (Einsum [(n_t2'aaaa,[0;1;2;3]); (T 78,[4;5;1;6])] [4;5;0;2;3;6]));
  (*856*) Assign (T 218) (Plain (Zeros [4;4;4;5;5;5]));
  (*857*) AddTo (T 218) (Times (Einsum [(T 29,[0;1;2;3]); (n_t3'aaaaaa,[4;5;0;6;7;2])] [4;5;1;6;7;3]) (6) 1);
  (*858*) Assign (T 219) (Plain (Zeros [4;4;4;5;5;5]));
  (*859*) AddTo (T 219) (Times (Einsum [(T 214,[0;1;2;3;4;5])] [0;1;2;4;3;5]) (2) 1);
  (*860*) Del (T 214);
  (*861*) AddTo (T 219) (Times (Einsum [(T 216,[0;1;2;3;4;5])] [0;1;2;4;3;5]) (-4) 1);
  (*862*) Del (T 216);
  (*863*) AddTo (T 219) (Times (Einsum [(T 217,[0;1;2;3;4;5])] [0;1;2;4;3;5]) (-4) 1);
  (*864*) Del (T 217);
  (*865*) AddTo (T 219) (Plain (Einsum [(T 218,[0;1;2;3;4;5])] [0;1;2;3;4;5]));
  (*866*) Del (T 218);
  (*867*) Assign n_t3new_aaaaaa (Plain (Zeros [4;4;4;5;5;5]));
  (*868*) AddTo n_t3new_aaaaaa (Times (Einsum [(T 219,[0;1;2;3;4;5])] [0;1;2;3;4;5]) (-1) 1);
  (*869*) AddTo n_t3new_aaaaaa (Plain (Einsum [(T 219,[0;1;2;3;4;5])] [0;1;2;3;5;4]));
  (*870*) AddTo n_t3new_aaaaaa (Times (Einsum [(T 219,[0;1;2;3;4;5])] [0;1;2;5;3;4]) (-1) 1);
  (*871*) AddTo n_t3new_aaaaaa (Plain (Einsum [(T 219,[0;1;2;3;4;5])] [0;2;1;3;4;5]));
  (*872*) AddTo n_t3new_aaaaaa (Times (Einsum [(T 219,[0;1;2;3;4;5])] [0;2;1;3;5;4]) (-1) 1);
  (*873*) AddTo n_t3new_aaaaaa (Plain (Einsum [(T 219,[0;1;2;3;4;5])] [0;2;1;5;3;4]));
  (*874*) AddTo n_t3new_aaaaaa (Plain (Einsum [(T 219,[0;1;2;3;4;5])] [2;1;0;3;4;5]));
  (*875*) AddTo n_t3new_aaaaaa (Times (Einsum [(T 219,[0;1;2;3;4;5])] [2;1;0;3;5;4]) (-1) 1);
  (*876*) AddTo n_t3new_aaaaaa (Plain (Einsum [(T 219,[0;1;2;3;4;5])] [2;1;0;5;3;4]));
  (*877*) Del (T 219);
  (*878*) Assign (T 220) (Plain (Zeros [4;5;5;5]));
  (*879*) AddTo (T 220) (Plain (Einsum [(n_t2'abab,[0;1;2;3]); (n_v'aabb'vvov,[4;5;1;3])] [0;2;4;5]));
  (*880*) Assign (T 221) (Plain (Zeros [4;5;5;5]));
  (*881*) AddTo (T 221) (Times (Einsum [(n_t2'aaaa,[0;1;2;3]); (T 119,[1;3;4;5])] [0;2;4;5]) (2) 1);
  (*882*) Assign (T 222) (Plain (Zeros [4;5;5;5]));
  (*883*) AddTo (T 222) (Plain (Einsum [(n_v'aaaa'ovvv,[0;1;2;3])] [0;1;2;3]));
  (*884*) AddTo (T 222) (Plain (Einsum [(T 220,[0;1;2;3])] [0;1;3;2]));
  (*885*) AddTo (T 222) (Times (Einsum [(T 221,[0;1;2;3])] [0;1;3;2]) (-1) 1);
  (*886*) Del (T 221);
  (*887*) Assign (T 223) (Plain (Zeros [4;4;4;5;5;5]));
  (*888*) AddTo (T 223) (Times (Einsum [(n_t2'aaaa,[0;1;2;3]); (T 222,[4;5;3;6])] [0;1;4;2;5;6]) (-2) 1);
  (*889*) Del (T 222);
  (*890*) Assign (T 224) (Plain (Zeros [4;4;4;4;4;5]));
  (*891*) AddTo (T 224) (Plain (Einsum [(n_t2'aaaa,[0;1;2;3]); (n_v'aaaa'ooov,[4;5;6;3])] [0;1;4;5;6;2]));
  (*892*) Assign (T 225) (Plain (Zeros [4;4;4;4;5;5]));
  (*893*) AddTo (T 225) (Plain (Einsum [(n_t1'aa,[0;1]); (T 224,[2;3;4;5;0;6])] [2;3;4;5;1;6]));
  (*894*) Del (T 224);
  (*895*) Assign (T 226) (Plain (Zeros [4;4;5;5]));
  (*896*) AddTo (T 226) (Plain (Einsum [(n_t2'abab,[0;1;2;3]); (n_v'aabb'ovov,[4;5;1;3])] [0;4;2;5]));
  (*897*) Assign (T 227) (Plain (Zeros [4;4;5;5]));
  (*898*) AddTo (T 227) (Times (Einsum [(n_t2'aaaa,[0;1;2;3]); (T 69,[1;4;5;3])] [0;4;2;5]) (2) 1);
  (*899*) Assign (T 228) (Plain (Zeros [4;4;5;5]));
  (*900*) AddTo (T 228) (Plain (Einsum [(n_v'aaaa'ovov,[0;1;2;3])] [0;2;1;3]));
  (*901*) AddTo (T 228) (Times (Einsum [(n_v'aaaa'oovv,[0;1;2;3])] [0;1;2;3]) (-1) 1);
  (*902*) AddTo (T 228) (Plain (Einsum [(T 226,[0;1;2;3])] [0;1;2;3]));
  (*903*) AddTo (T 228) (Times (Einsum [(T 227,[0;1;2;3])] [0;1;2;3]) (-1) 1);
  (*904*) Assign (T 229) (Plain (Zeros [4;4;4;4;5;5]));
  (*905*) AddTo (T 229) (Times (Einsum [(n_t2'aaaa,[0;1;2;3]); (T 228,[4;5;6;3])] [0;1;4;5;2;6]) (-1) 1);
  (*906*) Del (T 228);
  (*907*) Assign (T 230) (Plain (Zeros [4;4;4;4;5;5]));
  (*908*) AddTo (T 230) (Plain (Einsum [(T 225,[0;1;2;3;4;5])] [0;1;3;2;4;5]));
  (*909*) Del (T 225);
  (*910*) AddTo (T 230) (Times (Einsum [(T 229,[0;1;2;3;4;5])] [1;0;3;2;4;5]) (-1) 1);
  (*911*) Del (T 229);
  (*912*) Assign (T 231) (Plain (Zeros [4;4;4;5;5;5]));
  (*913*) AddTo (T 231) (Times (Einsum [(n_t1'aa,[0;1]); (T 230,[2;3;0;4;5;6])] [2;3;4;5;6;1]) (2) 1);
  (*914*) Del (T 230);
  (*915*) Assign (T 232) (Plain (Zeros [4;4;4;5;5;5]));
  (*916*) AddTo (T 232) (Plain (Einsum [(T 223,[0;1;2;3;4;5])] [1;0;2;3;4;5]));
  (*917*) Del (T 223);
  (*918*) AddTo (T 232) (Plain (Einsum [(T 231,[0;1;2;3;4;5])] [0;1;2;5;3;4]));
  (*919*) Del (T 231);
  (*920*) AddTo n_t3new_aaaaaa (Times (Einsum [(T 232,[0;1;2;3;4;5])] [0;1;2;3;4;5]) (-1) 1);
  (*921*) AddTo n_t3new_aaaaaa (Plain (Einsum [(T 232,[0;1;2;3;4;5])] [0;1;2;3;5;4]));
  (*922*) AddTo n_t3new_aaaaaa (Plain (Einsum [(T 232,[0;1;2;3;4;5])] [0;1;2;4;3;5]));
  (*923*) AddTo n_t3new_aaaaaa (Times (Einsum [(T 232,[0;1;2;3;4;5])] [0;1;2;5;3;4]) (-1) 1);
  (*924*) AddTo n_t3new_aaaaaa (Times (Einsum [(T 232,[0;1;2;3;4;5])] [0;1;2;4;5;3]) (-1) 1);
  (*925*) AddTo n_t3new_aaaaaa (Plain (Einsum [(T 232,[0;1;2;3;4;5])] [0;1;2;5;4;3]));
  (*926*) AddTo n_t3new_aaaaaa (Plain (Einsum [(T 232,[0;1;2;3;4;5])] [0;2;1;3;4;5]));
  (*927*) AddTo n_t3new_aaaaaa (Times (Einsum [(T 232,[0;1;2;3;4;5])] [0;2;1;3;5;4]) (-1) 1);
  (*928*) AddTo n_t3new_aaaaaa (Times (Einsum [(T 232,[0;1;2;3;4;5])] [0;2;1;4;3;5]) (-1) 1);
  (*929*) AddTo n_t3new_aaaaaa (Plain (Einsum [(T 232,[0;1;2;3;4;5])] [0;2;1;5;3;4]));
  (*930*) AddTo n_t3new_aaaaaa (Plain (Einsum [(T 232,[0;1;2;3;4;5])] [0;2;1;4;5;3]));
  (*931*) AddTo n_t3new_aaaaaa (Times (Einsum [(T 232,[0;1;2;3;4;5])] [0;2;1;5;4;3]) (-1) 1);
  (*932*) AddTo n_t3new_aaaaaa (Plain (Einsum [(T 232,[0;1;2;3;4;5])] [2;1;0;3;4;5]));
  (*933*) AddTo n_t3new_aaaaaa (Times (Einsum [(T 232,[0;1;2;3;4;5])] [2;1;0;3;5;4]) (-1) 1);
  (*934*) AddTo n_t3new_aaaaaa (Times (Einsum [(T 232,[0;1;2;3;4;5])] [2;1;0;4;3;5]) (-1) 1);
  (*935*) AddTo n_t3new_aaaaaa (Plain (Einsum [(T 232,[0;1;2;3;4;5])] [2;1;0;5;3;4]));
  (*936*) AddTo n_t3new_aaaaaa (Plain (Einsum [(T 232,[0;1;2;3;4;5])] [2;1;0;4;5;3]));
  (*937*) AddTo n_t3new_aaaaaa (Times (Einsum [(T 232,[0;1;2;3;4;5])] [2;1;0;5;4;3]) (-1) 1);
  (*938*) Del (T 232);
  (*939*) Assign (T 233) (Plain (Zeros [4;4;4;5;5;5]));
  (*940*) AddTo (T 233) (Times (Einsum [(n_v'aaaa'oooo,[0;1;2;3]); (n_t3'aaaaaa,[4;3;1;5;6;7])] [4;0;2;5;6;7]) (-1) 1);
  (*941*) Assign (T 234) (Plain (Zeros [4;4]));
  (*942*) AddTo (T 234) (Plain (Einsum [(n_f'aa'oo,[0;1])] [0;1]));
  (*943*) AddTo (T 234) (Plain (Einsum [(T 31,[0;1])] [1;0]));
  (*944*) AddTo (T 234) (Times (Einsum [(T 32,[0;1])] [1;0]) (2) 1);
  (*945*) AddTo (T 234) (Plain (Einsum [(T 35,[0;1])] [0;1]));
  (*946*) Assign (T 235) (Plain (Zeros [4;4;4;5;5;5]));
  (*947*) AddTo (T 235) (Times (Einsum [(T 234,[0;1]); (n_t3'aaaaaa,[2;3;0;4;5;6])] [2;3;1;4;5;6]) (6) 1);
  (*948*) Del (T 234);
  (*949*) Assign (T 236) (Plain (Zeros [4;4;4;5;5;5]));
  (*950*) AddTo (T 236) (Times (Einsum [(T 233,[0;1;2;3;4;5])] [0;2;1;4;5;3]) (6) 1);
  (*951*) Del (T 233);
  (*952*) AddTo (T 236) (Plain (Einsum [(T 235,[0;1;2;3;4;5])] [2;0;1;4;5;3]));
  (*953*) Del (T 235);
  (*954*) AddTo n_t3new_aaaaaa (Times (Einsum [(T 236,[0;1;2;3;4;5])] [0;1;2;5;3;4]) (-1) 1);
  (*955*) AddTo n_t3new_aaaaaa (Times (Einsum [(T 236,[0;1;2;3;4;5])] [2;0;1;5;3;4]) (-1) 1);
  (*956*) AddTo n_t3new_aaaaaa (Plain (Einsum [(T 236,[0;1;2;3;4;5])] [2;1;0;5;3;4]));
  (*957*) Del (T 236);
  (*958*) Assign (T 237) (Plain (Zeros [4;4;4;5;5;5]));
  (*959*) AddTo (T 237) (Times (Einsum [(n_v'aaaa'vvvv,[0;1;2;3]); (n_t3'aaaaaa,[4;5;6;7;3;1])] [4;5;6;7;0;2]) (-1) 1);
  (*960*) Assign (T 238) (Plain (Zeros [5;5]));
  (*961*) AddTo (T 238) (Times (Einsum [(n_f'aa'vv,[0;1])] [0;1]) (-1) 1);
  (*962*) AddTo (T 238) (Plain (Einsum [(T 73,[0;1])] [1;0]));
  (*963*) AddTo (T 238) (Times (Einsum [(T 74,[0;1])] [1;0]) (2) 1);
  (*964*) AddTo (T 238) (Plain (Einsum [(T 140,[0;1])] [0;1]));
  (*965*) Assign (T 239) (Plain (Zeros [4;4;4;5;5;5]));
  (*966*) AddTo (T 239) (Times (Einsum [(T 238,[0;1]); (n_t3'aaaaaa,[2;3;4;5;6;0])] [2;3;4;5;6;1]) (6) 1);
  (*967*) Del (T 238);
  (*968*) Assign (T 240) (Plain (Zeros [4;4;4;5;5;5]));
  (*969*) AddTo (T 240) (Times (Einsum [(T 237,[0;1;2;3;4;5])] [0;1;2;3;5;4]) (-6) 1);
  (*970*) Del (T 237);
  (*971*) AddTo (T 240) (Times (Einsum [(T 239,[0;1;2;3;4;5])] [1;2;0;5;3;4]) (-1) 1);
  (*972*) Del (T 239);
  (*973*) AddTo n_t3new_aaaaaa (Plain (Einsum [(T 240,[0;1;2;3;4;5])] [0;1;2;3;4;5]));
  (*974*) AddTo n_t3new_aaaaaa (Times (Einsum [(T 240,[0;1;2;3;4;5])] [0;1;2;4;3;5]) (-1) 1);
  (*975*) AddTo n_t3new_aaaaaa (Plain (Einsum [(T 240,[0;1;2;3;4;5])] [0;1;2;4;5;3]));
  (*976*) Del (T 240);
  (*977*) Assign (T 241) (Plain (Zeros [4;5;5;5]));
  (*978*) AddTo (T 241) (Plain (Einsum [(n_v'aabb'ovov,[0;1;2;3]); (n_t3'abaaba,[4;2;0;5;3;6])] [4;5;6;1]));
  (*979*) Assign (T 242) (Plain (Zeros [4;5;5;5]));
  (*980*) AddTo (T 242) (Plain (Einsum [(n_v'aaaa'ovov,[0;1;2;3]); (n_t3'aaaaaa,[4;0;2;5;6;3])] [4;5;6;1]));
  (*981*) Assign (T 243) (Plain (Zeros [4;5;5;5]));
  (*982*) AddTo (T 243) (Times (Einsum [(T 241,[0;1;2;3])] [0;2;1;3]) (-1) 1);
  (*983*) AddTo (T 243) (Times (Einsum [(T 242,[0;1;2;3])] [0;2;1;3]) (-3) 1);
  (*984*) Assign (T 244) (Plain (Zeros [4;4;4;5;5;5]));
  (*985*) AddTo (T 244) (Times (Einsum [(n_t2'aaaa,[0;1;2;3]); (T 243,[4;5;6;3])] [0;1;4;2;5;6]) (-4) 1);
  (*986*) Del (T 243);
  (*987*) Assign (T 245) (Plain (Zeros [4;4;4;4;5;5]));
  (*988*) AddTo (T 245) (Plain (Einsum [(n_v'aabb'ooov,[0;1;2;3]); (n_t3'abaaba,[4;2;5;6;3;7])] [4;5;0;1;6;7]));
  (*989*) Assign (T 246) (Plain (Zeros [4;4;4;4;5;5]));
  (*990*) AddTo (T 246) (Times (Einsum [(T 33,[0;1;2;3]); (n_t3'aaaaaa,[4;5;2;6;7;3])] [4;5;0;1;6;7]) (3) 1);
  (*991*) Assign (T 247) (Plain (Zeros [4;4;4;4;5;5]));
  (*992*) AddTo (T 247) (Times (Einsum [(T 245,[0;1;2;3;4;5])] [0;1;3;2;5;4]) (-1) 1);
  (*993*) Del (T 245);
  (*994*) AddTo (T 247) (Times (Einsum [(T 246,[0;1;2;3;4;5])] [0;1;3;2;4;5]) (-1) 1);
  (*995*) Del (T 246);
  (*996*) Assign (T 248) (Plain (Zeros [4;4;4;5;5;5]));
  (*997*) AddTo (T 248) (Times (Einsum [(n_t1'aa,[0;1]); (T 247,[2;3;0;4;5;6])] [2;3;4;5;6;1]) (2) 1);
  (*998*) Del (T 247);
  (*999*) Assign (T 249) (Plain (Zeros [4;4;4;5;5;5]));
  (*1000*) AddTo (T 249) (Times (Einsum [(T 244,[0;1;2;3;4;5])] [1;0;2;3;5;4]) (-1) 1);
  (*1001*) Del (T 244);
  (*1002*) AddTo (T 249) (Plain (Einsum [(T 248,[0;1;2;3;4;5])] [0;1;2;5;4;3]));
  (*1003*) Del (T 248);
  (*1004*) AddTo n_t3new_aaaaaa (Plain (Einsum [(T 249,[0;1;2;3;4;5])] [0;1;2;3;4;5]));
  (*1005*) AddTo n_t3new_aaaaaa (Times (Einsum [(T 249,[0;1;2;3;4;5])] [0;1;2;4;3;5]) (-1) 1);
  (*1006*) AddTo n_t3new_aaaaaa (Plain (Einsum [(T 249,[0;1;2;3;4;5])] [0;1;2;4;5;3]));
  (*1007*) AddTo n_t3new_aaaaaa (Times (Einsum [(T 249,[0;1;2;3;4;5])] [0;2;1;3;4;5]) (-1) 1);
  (*1008*) AddTo n_t3new_aaaaaa (Plain (Einsum [(T 249,[0;1;2;3;4;5])] [0;2;1;4;3;5]));
  (*1009*) AddTo n_t3new_aaaaaa (Times (Einsum [(T 249,[0;1;2;3;4;5])] [0;2;1;4;5;3]) (-1) 1);
  (*1010*) AddTo n_t3new_aaaaaa (Times (Einsum [(T 249,[0;1;2;3;4;5])] [2;1;0;3;4;5]) (-1) 1);
  (*1011*) AddTo n_t3new_aaaaaa (Plain (Einsum [(T 249,[0;1;2;3;4;5])] [2;1;0;4;3;5]));
  (*1012*) AddTo n_t3new_aaaaaa (Times (Einsum [(T 249,[0;1;2;3;4;5])] [2;1;0;4;5;3]) (-1) 1);
  (*1013*) Del (T 249);
  (*1014*) Assign (T 250) (Plain (Zeros [4;4;4;4]));
  (*1015*) AddTo (T 250) (Plain (Einsum [(T 102,[0;1;2;3])] [1;0;3;2]));
  (*1016*) AddTo (T 250) (Plain (Einsum [(T 82,[0;1;2;3])] [0;1;2;3]));
  (*1017*) Assign (T 251) (Plain (Zeros [4;4;4;5;5;5]));
  (*1018*) AddTo (T 251) (Times (Einsum [(T 250,[0;1;2;3]); (n_t3'aaaaaa,[4;2;3;5;6;7])] [4;0;1;5;6;7]) (-6) 1);
  (*1019*) Del (T 250);
  (*1020*) Assign (T 252) (Plain (Zeros [4;4]));
  (*1021*) AddTo (T 252) (Plain (Einsum [(T 30,[0;1])] [1;0]));
  (*1022*) Del (T 30);
  (*1023*) AddTo (T 252) (Times (Einsum [(T 34,[0;1])] [1;0]) (-1) 1);
  (*1024*) Del (T 34);
  (*1025*) Assign (T 253) (Plain (Zeros [4;4;4;5;5;5]));
  (*1026*) AddTo (T 253) (Times (Einsum [(T 252,[0;1]); (n_t3'aaaaaa,[2;3;0;4;5;6])] [2;3;1;4;5;6]) (6) 1);
  (*1027*) Assign (T 254) (Plain (Zeros [4;4;4;5;5;5]));
  (*1028*) AddTo (T 254) (Plain (Einsum [(T 251,[0;1;2;3;4;5])] [2;1;0;4;5;3]));
  (*1029*) Del (T 251);
  (*1030*) AddTo (T 254) (Times (Einsum [(T 253,[0;1;2;3;4;5])] [0;1;2;4;5;3]) (-1) 1);
  (*1031*) Del (T 253);
  (*1032*) AddTo n_t3new_aaaaaa (Plain (Einsum [(T 254,[0;1;2;3;4;5])] [0;1;2;5;3;4]));
  (*1033*) AddTo n_t3new_aaaaaa (Times (Einsum [(T 254,[0;1;2;3;4;5])] [0;2;1;5;3;4]) (-1) 1);
  (*1034*) AddTo n_t3new_aaaaaa (Times (Einsum [(T 254,[0;1;2;3;4;5])] [2;1;0;5;3;4]) (-1) 1);
  (*1035*) Del (T 254);
  (*1036*) Assign (T 255) (Plain (Zeros [5;5]));
  (*1037*) AddTo (T 255) (Plain (Einsum [(n_t1'aa,[0;1]); (T 119,[0;1;2;3])] [2;3]));
  (*1038*) Assign (T 256) (Plain (Zeros [5;5]));
  (*1039*) AddTo (T 256) (Plain (Einsum [(T 72,[0;1])] [1;0]));
  (*1040*) Del (T 72);
  (*1041*) AddTo (T 256) (Times (Einsum [(T 255,[0;1])] [1;0]) (-1) 1);
  (*1042*) Del (T 255);
  (*1043*) Assign (T 257) (Plain (Zeros [4;4;4;5;5;5]));
  (*1044*) AddTo (T 257) (Times (Einsum [(T 256,[0;1]); (n_t3'aaaaaa,[2;3;4;5;6;0])] [2;3;4;5;6;1]) (6) 1);
  (*1045*) Assign (T 258) (Plain (Zeros [4;4;4;4;4;5]));
  (*1046*) AddTo (T 258) (Times (Einsum [(n_v'aaaa'ovov,[0;1;2;3]); (n_t3'aaaaaa,[4;5;6;7;3;1])] [4;5;6;0;2;7]) (-1) 1);
  (*1047*) Assign (T 259) (Plain (Zeros [4;4;4;5;5;5]));
  (*1048*) AddTo (T 259) (Times (Einsum [(T 99,[0;1;2;3]); (T 258,[4;5;6;0;1;7])] [4;5;6;2;3;7]) (6) 1);
  (*1049*) Del (T 99);
  (*1049*) Del (T 258);
  (*1050*) Assign (T 260) (Plain (Zeros [4;4;4;5;5;5]));
  (*1051*) AddTo (T 260) (Plain (Einsum [(T 257,[0;1;2;3;4;5])] [1;2;0;3;4;5]));
  (*1052*) Del (T 257);
  (*1053*) AddTo (T 260) (Times (Einsum [(T 259,[0;1;2;3;4;5])] [0;1;2;4;3;5]) (-1) 1);
  (*1054*) Del (T 259);
  (*1055*) AddTo n_t3new_aaaaaa (Plain (Einsum [(T 260,[0;1;2;3;4;5])] [0;1;2;3;4;5]));
  (*1056*) AddTo n_t3new_aaaaaa (Times (Einsum [(T 260,[0;1;2;3;4;5])] [0;1;2;3;5;4]) (-1) 1);
  (*1057*) AddTo n_t3new_aaaaaa (Plain (Einsum [(T 260,[0;1;2;3;4;5])] [0;1;2;5;3;4]));
  (*1058*) Del (T 260);
  (*1059*) Assign (T 261) (Plain (Zeros [4;4;4;5;5;5]));
  (*1060*) AddTo (T 261) (Plain (Einsum [(T 39,[0;1;2;3]); (n_t3'abaaba,[4;0;5;6;1;7])] [2;4;5;6;7;3]));
  (*1061*) Assign (T 262) (Plain (Zeros [4;5;5;5]));
  (*1062*) AddTo (T 262) (Plain (Einsum [(n_t2'aaaa,[0;1;2;3]); (T 26,[4;0;1;5])] [4;2;3;5]));
  (*1063*) Assign (T 263) (Plain (Zeros [4;4;4;5;5;5]));
  (*1064*) AddTo (T 263) (Times (Einsum [(n_t2'aaaa,[0;1;2;3]); (T 262,[4;5;6;3])] [4;0;1;5;6;2]) (-1) 1);
  (*1065*) Assign (T 264) (Plain (Zeros [4;4;4;5;5;5]));
  (*1066*) AddTo (T 264) (Times (Einsum [(T 47,[0;1;2;3]); (n_t3'aaaaaa,[4;5;0;6;7;3])] [4;5;1;6;7;2]) (-6) 1);
  (*1067*) Assign (T 265) (Plain (Zeros [4;4;4;5]));
  (*1068*) AddTo (T 265) (Plain (Einsum [(T 79,[0;1;2;3])] [0;1;2;3]));
  (*1069*) AddTo (T 265) (Times (Einsum [(T 80,[0;1;2;3])] [0;1;2;3]) (3) 1);
  (*1070*) Assign (T 266) (Plain (Zeros [4;4;4;5;5;5]));
  (*1071*) AddTo (T 266) (Times (Einsum [(n_t2'aaaa,[0;1;2;3]); (T 265,[4;5;1;6])] [0;4;5;2;3;6]) (-4) 1);
  (*1072*) Del (T 265);
  (*1073*) Assign (T 267) (Plain (Zeros [4;4;4;5;5;5]));
  (*1074*) AddTo (T 267) (Times (Einsum [(T 261,[0;1;2;3;4;5])] [0;2;1;4;3;5]) (2) 1);
  (*1075*) Del (T 261);
  (*1076*) AddTo (T 267) (Times (Einsum [(T 263,[0;1;2;3;4;5])] [0;2;1;4;3;5]) (-4) 1);
  (*1077*) Del (T 263);
  (*1078*) AddTo (T 267) (Plain (Einsum [(T 264,[0;1;2;3;4;5])] [2;0;1;3;4;5]));
  (*1079*) Del (T 264);
  (*1080*) AddTo (T 267) (Plain (Einsum [(T 266,[0;1;2;3;4;5])] [0;1;2;4;3;5]));
  (*1081*) Del (T 266);
  (*1082*) AddTo n_t3new_aaaaaa (Plain (Einsum [(T 267,[0;1;2;3;4;5])] [0;1;2;3;4;5]));
  (*1083*) AddTo n_t3new_aaaaaa (Times (Einsum [(T 267,[0;1;2;3;4;5])] [0;1;2;3;5;4]) (-1) 1);
  (*1084*) AddTo n_t3new_aaaaaa (Plain (Einsum [(T 267,[0;1;2;3;4;5])] [0;1;2;5;3;4]));
  (*1085*) AddTo n_t3new_aaaaaa (Plain (Einsum [(T 267,[0;1;2;3;4;5])] [2;0;1;3;4;5]));
  (*1086*) AddTo n_t3new_aaaaaa (Times (Einsum [(T 267,[0;1;2;3;4;5])] [2;0;1;3;5;4]) (-1) 1);
  (*1087*) AddTo n_t3new_aaaaaa (Plain (Einsum [(T 267,[0;1;2;3;4;5])] [2;0;1;5;3;4]));
  (*1088*) AddTo n_t3new_aaaaaa (Times (Einsum [(T 267,[0;1;2;3;4;5])] [2;1;0;3;4;5]) (-1) 1);
  (*1089*) AddTo n_t3new_aaaaaa (Plain (Einsum [(T 267,[0;1;2;3;4;5])] [2;1;0;3;5;4]));
  (*1090*) AddTo n_t3new_aaaaaa (Times (Einsum [(T 267,[0;1;2;3;4;5])] [2;1;0;5;3;4]) (-1) 1);
  (*1091*) Del (T 267);
  (*1092*) Assign (T 268) (Plain (Zeros [4;4;5;5]));
  (*1093*) AddTo (T 268) (Times (Einsum [(n_t2'aaaa,[0;1;2;3])] [0;1;2;3]) (5000000000000051) 2500000000000000);
  (*1094*) AddTo (T 268) (Times (Einsum [(n_t1'aa,[0;1]); (n_t1'aa,[2;3])] [0;2;3;1]) (-1) 1);
  (*1095*) Assign (T 269) (Plain (Zeros [4;4;5;5]));
  (*1096*) AddTo (T 269) (Times (Einsum [(T 268,[0;1;2;3]); (T 69,[0;4;5;2])] [4;1;5;3]) (9999999999999901) 10000000000000000);
  (*1097*) Del (T 268);
  (*1098*) Assign (T 270) (Plain (Zeros [4;4;5;5]));
  (*1099*) AddTo (T 270) (Plain (Einsum [(T 226,[0;1;2;3])] [0;1;2;3]));
  (*1100*) AddTo (T 270) (Times (Einsum [(T 269,[0;1;2;3])] [1;0;3;2]) (-1) 1);
  (*1101*) Del (T 269);
  (*1102*) Assign (T 271) (Plain (Zeros [4;4;4;5;5;5]));
  (*1103*) AddTo (T 271) (Times (Einsum [(T 270,[0;1;2;3]); (n_t3'aaaaaa,[4;5;1;6;7;3])] [4;5;0;6;7;2]) (12000000000000119) 2000000000000000);
  (*1104*) Del (T 270);
  (*1105*) Assign (T 272) (Plain (Zeros [4;4;5;5]));
  (*1106*) AddTo (T 272) (Plain (Einsum [(n_t2'aaaa,[0;1;2;3])] [0;1;2;3]));
  (*1107*) AddTo (T 272) (Times (Einsum [(n_t1'aa,[0;1]); (n_t1'aa,[2;3])] [0;2;3;1]) (-99999999999999) 200000000000000);
  (*1108*) Assign (T 273) (Plain (Zeros [6;7;4;5]));
  (*1109*) AddTo (T 273) (Plain (Einsum [(n_v'aabb'ovov,[0;1;2;3]); (T 272,[0;4;1;5])] [2;3;4;5]));
  (*1110*) Assign (T 274) (Plain (Zeros [4;4;4;5;5;5]));
  (*1111*) AddTo (T 274) (Times (Einsum [(T 273,[0;1;2;3]); (n_t3'abaaba,[4;0;5;6;1;7])] [4;5;2;6;7;3]) (100000000000001) 25000000000000);
  (*1112*) Del (T 273);
  (*1113*) Assign (T 275) (Plain (Zeros [4;4;4;5;5;5]));
  (*1114*) AddTo (T 275) (Plain (Einsum [(T 271,[0;1;2;3;4;5])] [2;0;1;5;3;4]));
  (*1115*) Del (T 271);
  (*1116*) AddTo (T 275) (Plain (Einsum [(T 274,[0;1;2;3;4;5])] [2;1;0;5;4;3]));
  (*1117*) Del (T 274);
  (*1118*) AddTo n_t3new_aaaaaa (Plain (Einsum [(T 275,[0;1;2;3;4;5])] [0;1;2;3;4;5]));
  (*1119*) AddTo n_t3new_aaaaaa (Times (Einsum [(T 275,[0;1;2;3;4;5])] [0;1;2;4;3;5]) (-1) 1);
  (*1120*) AddTo n_t3new_aaaaaa (Plain (Einsum [(T 275,[0;1;2;3;4;5])] [0;1;2;4;5;3]));
  (*1121*) AddTo n_t3new_aaaaaa (Plain (Einsum [(T 275,[0;1;2;3;4;5])] [2;0;1;3;4;5]));
  (*1122*) AddTo n_t3new_aaaaaa (Times (Einsum [(T 275,[0;1;2;3;4;5])] [2;0;1;4;3;5]) (-1) 1);
  (*1123*) AddTo n_t3new_aaaaaa (Plain (Einsum [(T 275,[0;1;2;3;4;5])] [2;0;1;4;5;3]));
  (*1124*) AddTo n_t3new_aaaaaa (Times (Einsum [(T 275,[0;1;2;3;4;5])] [2;1;0;3;4;5]) (-1) 1);
  (*1125*) AddTo n_t3new_aaaaaa (Plain (Einsum [(T 275,[0;1;2;3;4;5])] [2;1;0;4;3;5]));
  (*1126*) AddTo n_t3new_aaaaaa (Times (Einsum [(T 275,[0;1;2;3;4;5])] [2;1;0;4;5;3]) (-1) 1);
  (*1127*) Del (T 275);
  (*1128*) Assign (T 276) (Plain (Zeros [4;4;4;5;5;5]));
  (*1129*) AddTo (T 276) (Plain (Einsum [(n_t2'aaaa,[0;1;2;3]); (T 65,[4;5;3;6])] [4;0;1;2;6;5]));
  (*1130*) Assign (T 277) (Plain (Zeros [4;4;4;4;4;5]));
  (*1131*) AddTo (T 277) (Plain (Einsum [(n_t2'aaaa,[0;1;2;3]); (T 26,[4;5;6;3])] [4;0;1;6;5;2]));
  (*1132*) Assign (T 278) (Plain (Zeros [4;4;4;4;5;5]));
  (*1133*) AddTo (T 278) (Plain (Einsum [(n_t1'aa,[0;1]); (T 277,[2;3;4;5;0;6])] [2;3;4;5;1;6]));
  (*1134*) Del (T 277);
  (*1135*) Assign (T 279) (Plain (Zeros [4;4;4;4;5;5]));
  (*1136*) AddTo (T 279) (Plain (Einsum [(n_t2'aaaa,[0;1;2;3]); (T 47,[4;5;6;3])] [0;1;5;4;2;6]));
  (*1137*) Assign (T 280) (Plain (Zeros [4;4;4;4;5;5]));
  (*1138*) AddTo (T 280) (Times (Einsum [(T 278,[0;1;2;3;4;5])] [0;2;1;3;4;5]) (-1) 1);
  (*1139*) Del (T 278);
  (*1140*) AddTo (T 280) (Times (Einsum [(T 279,[0;1;2;3;4;5])] [2;1;0;3;4;5]) (-1) 1);
  (*1141*) Del (T 279);
  (*1142*) Assign (T 281) (Plain (Zeros [4;4;4;5;5;5]));
  (*1143*) AddTo (T 281) (Times (Einsum [(n_t1'aa,[0;1]); (T 280,[2;3;4;0;5;6])] [2;3;4;5;6;1]) (2) 1);
  (*1144*) Del (T 280);
  (*1145*) Assign (T 282) (Plain (Zeros [4;4;4;5;5;5]));
  (*1146*) AddTo (T 282) (Times (Einsum [(T 276,[0;1;2;3;4;5])] [0;2;1;3;4;5]) (-2) 1);
  (*1147*) Del (T 276);
  (*1148*) AddTo (T 282) (Times (Einsum [(T 281,[0;1;2;3;4;5])] [0;2;1;5;3;4]) (-1) 1);
  (*1149*) Del (T 281);
  (*1150*) AddTo n_t3new_aaaaaa (Times (Einsum [(T 282,[0;1;2;3;4;5])] [0;1;2;3;4;5]) (-1) 1);
  (*1151*) AddTo n_t3new_aaaaaa (Plain (Einsum [(T 282,[0;1;2;3;4;5])] [0;1;2;3;5;4]));
  (*1152*) AddTo n_t3new_aaaaaa (Plain (Einsum [(T 282,[0;1;2;3;4;5])] [0;1;2;4;3;5]));
  (*1153*) AddTo n_t3new_aaaaaa (Times (Einsum [(T 282,[0;1;2;3;4;5])] [0;1;2;5;3;4]) (-1) 1);
  (*1154*) AddTo n_t3new_aaaaaa (Times (Einsum [(T 282,[0;1;2;3;4;5])] [0;1;2;4;5;3]) (-1) 1);
  (*1155*) AddTo n_t3new_aaaaaa (Plain (Einsum [(T 282,[0;1;2;3;4;5])] [0;1;2;5;4;3]));
  (*1156*) AddTo n_t3new_aaaaaa (Times (Einsum [(T 282,[0;1;2;3;4;5])] [2;0;1;3;4;5]) (-1) 1);
  (*1157*) AddTo n_t3new_aaaaaa (Plain (Einsum [(T 282,[0;1;2;3;4;5])] [2;0;1;3;5;4]));
  (*1158*) AddTo n_t3new_aaaaaa (Plain (Einsum [(T 282,[0;1;2;3;4;5])] [2;0;1;4;3;5]));
  (*1159*) AddTo n_t3new_aaaaaa (Times (Einsum [(T 282,[0;1;2;3;4;5])] [2;0;1;5;3;4]) (-1) 1);
  (*1160*) AddTo n_t3new_aaaaaa (Times (Einsum [(T 282,[0;1;2;3;4;5])] [2;0;1;4;5;3]) (-1) 1);
  (*1161*) AddTo n_t3new_aaaaaa (Plain (Einsum [(T 282,[0;1;2;3;4;5])] [2;0;1;5;4;3]));
  (*1162*) AddTo n_t3new_aaaaaa (Plain (Einsum [(T 282,[0;1;2;3;4;5])] [2;1;0;3;4;5]));
  (*1163*) AddTo n_t3new_aaaaaa (Times (Einsum [(T 282,[0;1;2;3;4;5])] [2;1;0;3;5;4]) (-1) 1);
  (*1164*) AddTo n_t3new_aaaaaa (Times (Einsum [(T 282,[0;1;2;3;4;5])] [2;1;0;4;3;5]) (-1) 1);
  (*1165*) AddTo n_t3new_aaaaaa (Plain (Einsum [(T 282,[0;1;2;3;4;5])] [2;1;0;5;3;4]));
  (*1166*) AddTo n_t3new_aaaaaa (Plain (Einsum [(T 282,[0;1;2;3;4;5])] [2;1;0;4;5;3]));
  (*1167*) AddTo n_t3new_aaaaaa (Times (Einsum [(T 282,[0;1;2;3;4;5])] [2;1;0;5;4;3]) (-1) 1);
  (*1168*) Del (T 282);
  (*1169*) Assign (T 283) (Plain (Zeros [4;4;4;5;5;5]));
  (*1170*) AddTo (T 283) (Plain (Einsum [(T 50,[0;1;2;3]); (n_t3'aaaaaa,[4;2;3;5;6;7])] [0;4;1;5;6;7]));
  (*1171*) AddTo n_t3new_aaaaaa (Times (Einsum [(T 283,[0;1;2;3;4;5])] [0;1;2;4;5;3]) (6) 1);
  (*1172*) AddTo n_t3new_aaaaaa (Times (Einsum [(T 283,[0;1;2;3;4;5])] [0;2;1;4;5;3]) (-6) 1);
  (*1173*) AddTo n_t3new_aaaaaa (Times (Einsum [(T 283,[0;1;2;3;4;5])] [1;0;2;4;5;3]) (-6) 1);
  (*1174*) AddTo n_t3new_aaaaaa (Times (Einsum [(T 283,[0;1;2;3;4;5])] [2;0;1;4;5;3]) (6) 1);
  (*1175*) AddTo n_t3new_aaaaaa (Times (Einsum [(T 283,[0;1;2;3;4;5])] [1;2;0;4;5;3]) (6) 1);
  (*1176*) AddTo n_t3new_aaaaaa (Times (Einsum [(T 283,[0;1;2;3;4;5])] [2;1;0;4;5;3]) (-6) 1);
  (*1177*) Del (T 283);
  (*1178*) Assign (T 284) (Plain (Zeros [4;4;4;5;5;5]));
  (*1179*) AddTo (T 284) (Times (Einsum [(T 62,[0;1;2;3]); (n_t3'abaaba,[4;0;5;6;1;7])] [4;5;2;6;7;3]) (-100000000000001) 50000000000000);
  (*1180*) AddTo n_t3new_aaaaaa (Plain (Einsum [(T 284,[0;1;2;3;4;5])] [2;1;0;5;4;3]));
  (*1181*) AddTo n_t3new_aaaaaa (Times (Einsum [(T 284,[0;1;2;3;4;5])] [2;1;0;4;5;3]) (-1) 1);
  (*1182*) AddTo n_t3new_aaaaaa (Plain (Einsum [(T 284,[0;1;2;3;4;5])] [2;1;0;4;3;5]));
  (*1183*) AddTo n_t3new_aaaaaa (Times (Einsum [(T 284,[0;1;2;3;4;5])] [1;2;0;5;4;3]) (-1) 1);
  (*1184*) AddTo n_t3new_aaaaaa (Plain (Einsum [(T 284,[0;1;2;3;4;5])] [1;2;0;4;5;3]));
  (*1185*) AddTo n_t3new_aaaaaa (Times (Einsum [(T 284,[0;1;2;3;4;5])] [1;2;0;4;3;5]) (-1) 1);
  (*1186*) AddTo n_t3new_aaaaaa (Times (Einsum [(T 284,[0;1;2;3;4;5])] [0;1;2;5;4;3]) (-1) 1);
  (*1187*) AddTo n_t3new_aaaaaa (Plain (Einsum [(T 284,[0;1;2;3;4;5])] [0;1;2;4;5;3]));
  (*1188*) AddTo n_t3new_aaaaaa (Times (Einsum [(T 284,[0;1;2;3;4;5])] [0;1;2;4;3;5]) (-1) 1);
  (*1189*) Del (T 284);
  (*1190*) Assign (T 285) (Plain (Zeros [4;4;4;4;5;5]));
  (*1191*) AddTo (T 285) (Plain (Einsum [(n_v'aaaa'ovvv,[0;1;2;3]); (n_t3'aaaaaa,[4;5;6;7;1;3])] [4;5;6;0;7;2]));
  (*1192*) Assign (T 286) (Plain (Zeros [4;4;4;5;5;5]));
  (*1193*) AddTo (T 286) (Plain (Einsum [(n_t1'aa,[0;1]); (T 285,[2;3;4;0;5;6])] [2;3;4;1;5;6]));
  (*1194*) Del (T 285);
  (*1195*) AddTo n_t3new_aaaaaa (Times (Einsum [(T 286,[0;1;2;3;4;5])] [0;1;2;3;4;5]) (6) 1);
  (*1196*) AddTo n_t3new_aaaaaa (Times (Einsum [(T 286,[0;1;2;3;4;5])] [0;1;2;3;5;4]) (-6) 1);
  (*1197*) AddTo n_t3new_aaaaaa (Times (Einsum [(T 286,[0;1;2;3;4;5])] [0;1;2;4;3;5]) (-6) 1);
  (*1198*) AddTo n_t3new_aaaaaa (Times (Einsum [(T 286,[0;1;2;3;4;5])] [0;1;2;5;3;4]) (6) 1);
  (*1199*) AddTo n_t3new_aaaaaa (Times (Einsum [(T 286,[0;1;2;3;4;5])] [0;1;2;4;5;3]) (6) 1);
  (*1200*) AddTo n_t3new_aaaaaa (Times (Einsum [(T 286,[0;1;2;3;4;5])] [0;1;2;5;4;3]) (-6) 1);
  (*1201*) Del (T 286);
  (*1202*) Assign (T 287) (Plain (Zeros [4;4;4;5]));
  (*1203*) AddTo (T 287) (Plain (Einsum [(n_t1'aa,[0;1]); (n_v'aaaa'oovv,[2;3;4;1])] [0;2;3;4]));
  (*1204*) Assign (T 288) (Plain (Zeros [4;4;4;5]));
  (*1205*) AddTo (T 288) (Plain (Einsum [(n_t2'aaaa,[0;1;2;3]); (n_v'aaaa'ooov,[4;5;1;3])] [0;4;5;2]));
  (*1206*) Assign (T 289) (Plain (Zeros [4;4;4;5]));
  (*1207*) AddTo (T 289) (Plain (Einsum [(T 287,[0;1;2;3])] [0;2;1;3]));
  (*1208*) AddTo (T 289) (Plain (Einsum [(T 49,[0;1;2;3])] [0;2;1;3]));
  (*1209*) AddTo (T 289) (Times (Einsum [(T 288,[0;1;2;3])] [0;2;1;3]) (2) 1);
  (*1210*) Assign (T 290) (Plain (Zeros [4;4;4;5]));
  (*1211*) AddTo (T 290) (Plain (Einsum [(n_t1'aa,[0;1]); (T 82,[2;3;0;4])] [3;2;4;1]));
  (*1212*) Del (T 82);
  (*1213*) Assign (T 291) (Plain (Zeros [4;4;5;5]));
  (*1214*) AddTo (T 291) (Plain (Einsum [(n_v'aaaa'ovov,[0;1;2;3])] [0;2;1;3]));
  (*1215*) AddTo (T 291) (Plain (Einsum [(T 38,[0;1;2;3])] [1;0;2;3]));
  (*1216*) Assign (T 292) (Plain (Zeros [4;4;4;5]));
  (*1217*) AddTo (T 292) (Plain (Einsum [(n_t1'aa,[0;1]); (T 291,[2;3;1;4])] [2;3;0;4]));
  (*1218*) Assign (T 293) (Plain (Zeros [4;4;4;5]));
  (*1219*) AddTo (T 293) (Times (Einsum [(n_v'aaaa'ooov,[0;1;2;3]); (T 41,[1;4;3;5])] [0;2;4;5]) (2) 1);
  (*1220*) Assign (T 294) (Plain (Zeros [4;4;4;5]));
  (*1221*) AddTo (T 294) (Plain (Einsum [(T 53,[0;1;2;3])] [0;1;2;3]));
  (*1222*) AddTo (T 294) (Times (Einsum [(T 290,[0;1;2;3])] [0;1;2;3]) (-1) 1);
  (*1223*) AddTo (T 294) (Times (Einsum [(T 57,[0;1;2;3])] [1;0;2;3]) (-1) 1);
  (*1224*) Del (T 57);
  (*1225*) AddTo (T 294) (Plain (Einsum [(T 292,[0;1;2;3])] [2;1;0;3]));
  (*1226*) Del (T 292);
  (*1227*) AddTo (T 294) (Plain (Einsum [(T 293,[0;1;2;3])] [2;0;1;3]));
  (*1228*) Del (T 293);
  (*1229*) Assign (T 295) (Plain (Zeros [4;4;4;4]));
  (*1230*) AddTo (T 295) (Times (Einsum [(T 102,[0;1;2;3])] [1;0;3;2]) (2) 1);
  (*1231*) Del (T 102);
  (*1232*) AddTo (T 295) (Times (Einsum [(n_v'aaaa'oooo,[0;1;2;3])] [0;2;3;1]) (-1) 1);
  (*1233*) AddTo (T 295) (Plain (Einsum [(n_v'aaaa'oooo,[0;1;2;3])] [0;2;1;3]));
  (*1234*) Assign (T 296) (Plain (Zeros [4;4;4;5]));
  (*1235*) AddTo (T 296) (Plain (Einsum [(n_t1'aa,[0;1]); (T 295,[2;3;0;4])] [2;3;4;1]));
  (*1236*) Assign (T 297) (Plain (Zeros [4;4;4;5]));
  (*1237*) AddTo (T 297) (Times (Einsum [(n_v'aaaa'ooov,[0;1;2;3])] [0;2;1;3]) (-1) 1);
  (*1238*) AddTo (T 297) (Plain (Einsum [(n_v'aaaa'ooov,[0;1;2;3])] [2;0;1;3]));
  (*1239*) AddTo (T 297) (Plain (Einsum [(T 289,[0;1;2;3])] [0;1;2;3]));
  (*1240*) AddTo (T 297) (Times (Einsum [(T 289,[0;1;2;3])] [1;0;2;3]) (-1) 1);
  (*1241*) Del (T 289);
  (*1242*) AddTo (T 297) (Times (Einsum [(T 294,[0;1;2;3])] [0;1;2;3]) (-1) 1);
  (*1243*) AddTo (T 297) (Plain (Einsum [(T 294,[0;1;2;3])] [1;0;2;3]));
  (*1244*) Del (T 294);
  (*1245*) AddTo (T 297) (Times (Einsum [(T 51,[0;1;2;3])] [0;2;1;3]) (-1) 1);
  (*1246*) AddTo (T 297) (Plain (Einsum [(T 51,[0;1;2;3])] [1;0;2;3]));
  (*1247*) AddTo (T 297) (Plain (Einsum [(T 81,[0;1;2;3])] [2;1;0;3]));
  (*1248*) AddTo (T 297) (Plain (Einsum [(T 296,[0;1;2;3])] [1;0;2;3]));
  (*1249*) Assign (T 298) (Plain (Zeros [4;4;4;5;5;5]));
  (*1250*) AddTo (T 298) (Times (Einsum [(n_t2'aaaa,[0;1;2;3]); (T 297,[4;5;1;6])] [0;4;5;2;3;6]) (-2) 1);
  (*1251*) Del (T 297);
  (*1252*) AddTo n_t3new_aaaaaa (Times (Einsum [(T 298,[0;1;2;3;4;5])] [1;0;2;4;3;5]) (-1) 1);
  (*1253*) AddTo n_t3new_aaaaaa (Plain (Einsum [(T 298,[0;1;2;3;4;5])] [1;2;0;4;3;5]));
  (*1254*) AddTo n_t3new_aaaaaa (Plain (Einsum [(T 298,[0;1;2;3;4;5])] [0;1;2;4;3;5]));
  (*1255*) Del (T 298);
  (*1256*) Assign (T 299) (Plain (Zeros [4;4;4;5]));
  (*1257*) AddTo (T 299) (Times (Einsum [(T 287,[0;1;2;3])] [0;2;1;3]) (1) 2);
  (*1258*) Del (T 287);
  (*1259*) AddTo (T 299) (Times (Einsum [(T 49,[0;1;2;3])] [0;2;1;3]) (1) 2);
  (*1260*) AddTo (T 299) (Plain (Einsum [(T 288,[0;1;2;3])] [0;2;1;3]));
  (*1261*) Del (T 288);
  (*1262*) Assign (T 300) (Plain (Zeros [4;4;4;5]));
  (*1263*) AddTo (T 300) (Plain (Einsum [(n_t2'aaaa,[0;1;2;3]); (T 56,[4;1;5;3])] [0;4;5;2]));
  (*1264*) Assign (T 301) (Plain (Zeros [4;4;4;5]));
  (*1265*) AddTo (T 301) (Times (Einsum [(n_t1'aa,[0;1]); (T 291,[2;3;1;4])] [2;3;0;4]) (1) 2);
  (*1266*) Del (T 291);
  (*1267*) Assign (T 302) (Plain (Zeros [4;4;4;5]));
  (*1268*) AddTo (T 302) (Plain (Einsum [(n_v'aaaa'ooov,[0;1;2;3]); (T 41,[1;4;3;5])] [0;2;4;5]));
  (*1269*) Assign (T 303) (Plain (Zeros [4;4;4;5]));
  (*1270*) AddTo (T 303) (Times (Einsum [(T 53,[0;1;2;3])] [0;1;2;3]) (1) 2);
  (*1271*) AddTo (T 303) (Times (Einsum [(T 290,[0;1;2;3])] [0;1;2;3]) (-1) 2);
  (*1272*) Del (T 290);
  (*1273*) AddTo (T 303) (Times (Einsum [(T 300,[0;1;2;3])] [1;0;2;3]) (-1) 1);
  (*1274*) Del (T 300);
  (*1275*) AddTo (T 303) (Plain (Einsum [(T 301,[0;1;2;3])] [2;1;0;3]));
  (*1276*) Del (T 301);
  (*1277*) AddTo (T 303) (Plain (Einsum [(T 302,[0;1;2;3])] [2;0;1;3]));
  (*1278*) Del (T 302);
  (*1279*) Assign (T 304) (Plain (Zeros [4;4;4;5]));
  (*1280*) AddTo (T 304) (Times (Einsum [(T 14,[0;1]); (n_t2'aaaa,[2;3;4;1])] [0;2;3;4]) (-1) 1);
  (*1281*) Assign (T 305) (Plain (Zeros [4;4;4;5]));
  (*1282*) AddTo (T 305) (Times (Einsum [(n_t1'aa,[0;1]); (T 295,[2;3;0;4])] [2;3;4;1]) (1) 2);
  (*1283*) Del (T 295);
  (*1284*) Assign (T 306) (Plain (Zeros [4;4;4;5]));
  (*1285*) AddTo (T 306) (Times (Einsum [(n_v'aaaa'ooov,[0;1;2;3])] [0;2;1;3]) (-1) 2);
  (*1286*) AddTo (T 306) (Times (Einsum [(n_v'aaaa'ooov,[0;1;2;3])] [2;0;1;3]) (1) 2);
  (*1287*) AddTo (T 306) (Plain (Einsum [(T 299,[0;1;2;3])] [0;1;2;3]));
  (*1288*) AddTo (T 306) (Times (Einsum [(T 299,[0;1;2;3])] [1;0;2;3]) (-1) 1);
  (*1289*) Del (T 299);
  (*1290*) AddTo (T 306) (Times (Einsum [(T 303,[0;1;2;3])] [0;1;2;3]) (-1) 1);
  (*1291*) AddTo (T 306) (Plain (Einsum [(T 303,[0;1;2;3])] [1;0;2;3]));
  (*1292*) Del (T 303);
  (*1293*) AddTo (T 306) (Times (Einsum [(T 51,[0;1;2;3])] [0;2;1;3]) (-1) 2);
  (*1294*) AddTo (T 306) (Times (Einsum [(T 51,[0;1;2;3])] [1;0;2;3]) (1) 2);
  (*1295*) AddTo (T 306) (Plain (Einsum [(T 304,[0;1;2;3])] [2;1;0;3]));
  (*1296*) Del (T 304);
  (*1297*) AddTo (T 306) (Plain (Einsum [(T 305,[0;1;2;3])] [1;0;2;3]));
  (*1298*) Del (T 305);
  (*1299*) Assign (T 307) (Plain (Zeros [4;4;4;5;5;5]));
  (*1300*) AddTo (T 307) (Times (Einsum [(n_t2'aaaa,[0;1;2;3]); (T 306,[4;5;1;6])] [0;4;5;2;3;6]) (-4) 1);
  (*1301*) Del (T 306);
  (*1302*) AddTo n_t3new_aaaaaa (Times (Einsum [(T 307,[0;1;2;3;4;5])] [1;0;2;5;4;3]) (-1) 1);
  (*1303*) AddTo n_t3new_aaaaaa (Times (Einsum [(T 307,[0;1;2;3;4;5])] [1;2;0;4;5;3]) (-1) 1);
  (*1304*) AddTo n_t3new_aaaaaa (Times (Einsum [(T 307,[0;1;2;3;4;5])] [0;1;2;4;5;3]) (-1) 1);
  (*1305*) AddTo n_t3new_aaaaaa (Plain (Einsum [(T 307,[0;1;2;3;4;5])] [1;2;0;5;4;3]));
  (*1306*) AddTo n_t3new_aaaaaa (Plain (Einsum [(T 307,[0;1;2;3;4;5])] [0;1;2;5;4;3]));
  (*1307*) AddTo n_t3new_aaaaaa (Plain (Einsum [(T 307,[0;1;2;3;4;5])] [1;0;2;4;5;3]));
  (*1308*) Del (T 307);
  (*1309*) Assign (T 308) (Plain (Zeros [6;6;7;7;4;5]));
  (*1310*) AddTo (T 308) (Plain (Einsum [(n_t2'abab,[0;1;2;3]); (n_v'bbbb'ovvv,[4;5;6;3])] [1;4;5;6;0;2]));
  (*1311*) Assign (T 309) (Plain (Zeros [6;6;7;7;4;5]));
  (*1312*) AddTo (T 309) (Plain (Einsum [(n_v'aabb'ovov,[0;1;2;3]); (n_t3'abaaba,[4;5;0;6;7;1])] [5;2;7;3;4;6]));
  (*1313*) Assign (T 310) (Plain (Zeros [6;6;7;7;4;5]));
  (*1314*) AddTo (T 310) (Plain (Einsum [(T 128,[0;1;2;3]); (n_t3'abaaba,[4;5;2;6;7;3])] [0;5;7;1;4;6]));
  (*1315*) Assign (T 311) (Plain (Zeros [6;6;7;7]));
  (*1316*) AddTo (T 311) (Times (Einsum [(n_t2'bbbb,[0;1;2;3])] [0;1;2;3]) (100000000000001) 50000000000000);
  (*1317*) AddTo (T 311) (Times (Einsum [(n_t1'bb,[0;1]); (n_t1'bb,[2;3])] [0;2;3;1]) (-1) 1);
  (*1318*) Assign (T 312) (Plain (Zeros [6;6;7;7]));
  (*1319*) AddTo (T 312) (Plain (Einsum [(T 311,[0;1;2;3]); (T 8,[0;4;2;5])] [4;1;5;3]));
  (*1320*) Del (T 311);
  (*1321*) Assign (T 313) (Plain (Zeros [6;6;7;7]));
  (*1322*) AddTo (T 313) (Times (Einsum [(T 112,[0;1;2;3])] [0;1;2;3]) (100000000000001) 100000000000000);
  (*1323*) AddTo (T 313) (Times (Einsum [(T 312,[0;1;2;3])] [1;0;3;2]) (-1) 1);
  (*1324*) Del (T 312);
  (*1325*) Assign (T 314) (Plain (Zeros [6;6;7;7;4;5]));
  (*1326*) AddTo (T 314) (Times (Einsum [(T 313,[0;1;2;3]); (n_t3'babbab,[4;5;1;6;7;3])] [0;4;2;6;5;7]) (2) 1);
  (*1327*) Del (T 313);
  (*1328*) Assign (T 315) (Plain (Zeros [6;7;4;5]));
  (*1329*) AddTo (T 315) (Times (Einsum [(n_t2'abab,[0;1;2;3]); (T 12,[0;4;2;5])] [1;3;4;5]) (100000000000001) 100000000000000);
  (*1330*) Assign (T 316) (Plain (Zeros [6;6;7;7]));
  (*1331*) AddTo (T 316) (Plain (Einsum [(n_t2'bbbb,[0;1;2;3])] [0;1;2;3]));
  (*1332*) AddTo (T 316) (Times (Einsum [(n_t1'bb,[0;1]); (n_t1'bb,[2;3])] [0;2;3;1]) (-99999999999999) 200000000000000);
  (*1333*) Assign (T 317) (Plain (Zeros [6;7;4;5]));
  (*1334*) AddTo (T 317) (Times (Einsum [(n_v'aabb'ovov,[0;1;2;3]); (T 316,[2;4;3;5])] [4;5;0;1]) (100000000000001) 50000000000000);
  (*1335*) Assign (T 318) (Plain (Zeros [6;7;4;5]));
  (*1336*) AddTo (T 318) (Times (Einsum [(T 315,[0;1;2;3])] [0;1;2;3]) (-1) 1);
  (*1337*) AddTo (T 318) (Plain (Einsum [(T 317,[0;1;2;3])] [0;1;2;3]));
  (*1338*) Del (T 317);
  (*1339*) Assign (T 319) (Plain (Zeros [6;6;7;7;4;5]));
  (*1340*) AddTo (T 319) (Times (Einsum [(T 318,[0;1;2;3]); (n_t3'abaaba,[4;5;2;6;7;3])] [5;0;7;1;4;6]) (2) 1);
  (*1341*) Del (T 318);
  (*1342*) Assign (T 320) (Plain (Zeros [6;6;7;7;4;5]));
  (*1343*) AddTo (T 320) (Plain (Einsum [(n_t3'babbab,[0;1;2;3;4;5])] [0;2;3;5;1;4]));
  (*1344*) AddTo (T 320) (Times (Einsum [(n_t1'bb,[0;1]); (n_t2'abab,[2;3;4;5])] [0;3;5;1;2;4]) (-1) 2);
  (*1345*) Assign (T 321) (Plain (Zeros [6;6;7;7;4;5]));
  (*1346*) AddTo (T 321) (Times (Einsum [(T 15,[0;1;2;3]); (T 320,[0;4;2;5;6;7])] [1;4;3;5;6;7]) (2) 1);
  (*1347*) Assign (T 322) (Plain (Zeros [6;6;7;7;4;5]));
  (*1348*) AddTo (T 322) (Times (Einsum [(T 183,[0;1;2;3]); (T 320,[0;4;3;5;6;7])] [1;4;2;5;6;7]) (-2) 1);
  (*1349*) Del (T 320);
  (*1350*) Assign (T 323) (Plain (Zeros [6;7;5;5]));
  (*1351*) AddTo (T 323) (Plain (Einsum [(n_t2'abab,[0;1;2;3]); (n_v'aabb'ovoo,[0;4;5;1])] [5;3;2;4]));
  (*1352*) Assign (T 324) (Plain (Zeros [6;7;5;5]));
  (*1353*) AddTo (T 324) (Plain (Einsum [(n_t2'abab,[0;1;2;3]); (n_v'aabb'ovvv,[0;4;5;3])] [1;5;2;4]));
  (*1354*) Assign (T 325) (Plain (Zeros [6;7;5;5]));
  (*1355*) AddTo (T 325) (Plain (Einsum [(n_v'aabb'ovov,[0;1;2;3]); (n_t3'babbab,[4;0;2;5;6;3])] [4;5;6;1]));
  (*1356*) Assign (T 326) (Plain (Zeros [6;7;5;5]));
  (*1357*) AddTo (T 326) (Times (Einsum [(n_v'aaaa'ovov,[0;1;2;3]); (n_t3'abaaba,[0;4;2;5;6;1])] [4;6;5;3]) (-1) 1);
  (*1358*) Assign (T 327) (Plain (Zeros [4;5;5;5]));
  (*1359*) AddTo (T 327) (Times (Einsum [(n_v'aaaa'ovvv,[0;1;2;3])] [0;1;2;3]) (-1) 1);
  (*1360*) AddTo (T 327) (Plain (Einsum [(n_v'aaaa'ovvv,[0;1;2;3])] [0;2;1;3]));
  (*1361*) AddTo (T 327) (Plain (Einsum [(T 110,[0;1;2;3])] [0;2;3;1]));
  (*1362*) AddTo (T 327) (Times (Einsum [(T 110,[0;1;2;3])] [0;3;2;1]) (-1) 1);
  (*1363*) Assign (T 328) (Plain (Zeros [6;7;5;5]));
  (*1364*) AddTo (T 328) (Plain (Einsum [(n_t2'abab,[0;1;2;3]); (T 327,[0;4;2;5])] [1;3;4;5]));
  (*1365*) Del (T 327);
  (*1366*) Assign (T 329) (Plain (Zeros [6;7;5;5]));
  (*1367*) AddTo (T 329) (Plain (Einsum [(T 14,[0;1]); (n_t2'abab,[0;2;3;4])] [2;4;1;3]));
  (*1368*) Assign (T 330) (Plain (Zeros [6;7;5;5]));
  (*1369*) AddTo (T 330) (Times (Einsum [(n_v'aabb'vvov,[0;1;2;3])] [2;3;0;1]) (-1) 1);
  (*1370*) AddTo (T 330) (Plain (Einsum [(T 106,[0;1;2;3])] [0;1;2;3]));
  (*1371*) AddTo (T 330) (Times (Einsum [(T 323,[0;1;2;3])] [0;1;2;3]) (-1) 1);
  (*1372*) Del (T 323);
  (*1373*) AddTo (T 330) (Plain (Einsum [(T 324,[0;1;2;3])] [0;1;2;3]));
  (*1374*) Del (T 324);
  (*1375*) AddTo (T 330) (Times (Einsum [(T 325,[0;1;2;3])] [0;1;2;3]) (2) 1);
  (*1376*) AddTo (T 330) (Times (Einsum [(T 326,[0;1;2;3])] [0;1;2;3]) (2) 1);
  (*1377*) AddTo (T 330) (Times (Einsum [(T 328,[0;1;2;3])] [0;1;3;2]) (-1) 1);
  (*1378*) Del (T 328);
  (*1379*) AddTo (T 330) (Plain (Einsum [(T 329,[0;1;2;3])] [0;1;3;2]));
  (*1380*) Del (T 329);
  (*1381*) Assign (T 331) (Plain (Zeros [6;6;7;7;4;5]));
  (*1382*) AddTo (T 331) (Plain (Einsum [(n_t2'abab,[0;1;2;3]); (T 330,[4;5;6;2])] [4;1;5;3;0;6]));
  (*1383*) Del (T 330);
  (*1384*) Assign (T 332) (Plain (Zeros [6;7;7;7]));
  (*1385*) AddTo (T 332) (Plain (Einsum [(n_t2'abab,[0;1;2;3]); (n_v'aabb'ovvv,[0;2;4;5])] [1;3;4;5]));
  (*1386*) Assign (T 333) (Plain (Zeros [6;7;7;7]));
  (*1387*) AddTo (T 333) (Times (Einsum [(n_v'bbbb'ovvv,[0;1;2;3])] [0;1;2;3]) (-1) 1);
  (*1388*) AddTo (T 333) (Plain (Einsum [(n_v'bbbb'ovvv,[0;1;2;3])] [0;2;3;1]));
  (*1389*) Assign (T 334) (Plain (Zeros [6;7;7;7]));
  (*1390*) AddTo (T 334) (Times (Einsum [(n_t2'bbbb,[0;1;2;3]); (T 333,[1;3;4;5])] [0;4;5;2]) (2) 1);
  (*1391*) Del (T 333);
  (*1392*) Assign (T 335) (Plain (Zeros [6;6;7;7]));
  (*1393*) AddTo (T 335) (Plain (Einsum [(n_t1'bb,[0;1]); (T 2,[2;0;3;4])] [2;3;1;4]));
  (*1394*) Assign (T 336) (Plain (Zeros [6;6;7;7]));
  (*1395*) AddTo (T 336) (Times (Einsum [(n_t2'bbbb,[0;1;2;3]); (T 8,[1;4;3;5])] [4;0;5;2]) (2) 1);
  (*1396*) Assign (T 337) (Plain (Zeros [6;6;7;7]));
  (*1397*) AddTo (T 337) (Plain (Einsum [(T 335,[0;1;2;3])] [0;1;2;3]));
  (*1398*) Del (T 335);
  (*1399*) AddTo (T 337) (Plain (Einsum [(T 112,[0;1;2;3])] [0;1;2;3]));
  (*1400*) AddTo (T 337) (Times (Einsum [(T 336,[0;1;2;3])] [1;0;3;2]) (-1) 1);
  (*1401*) Assign (T 338) (Plain (Zeros [6;7;7;7]));
  (*1402*) AddTo (T 338) (Plain (Einsum [(n_t1'bb,[0;1]); (T 337,[2;0;3;4])] [2;3;4;1]));
  (*1403*) Del (T 337);
  (*1404*) Assign (T 339) (Plain (Zeros [6;7;7;7]));
  (*1405*) AddTo (T 339) (Plain (Einsum [(T 158,[0;1;2;3])] [0;2;1;3]));
  (*1406*) AddTo (T 339) (Plain (Einsum [(T 332,[0;1;2;3])] [0;3;2;1]));
  (*1407*) AddTo (T 339) (Times (Einsum [(T 334,[0;1;2;3])] [0;2;1;3]) (-1) 1);
  (*1408*) Del (T 334);
  (*1409*) AddTo (T 339) (Plain (Einsum [(T 338,[0;1;2;3])] [0;2;1;3]));
  (*1410*) Del (T 338);
  (*1411*) Assign (T 340) (Plain (Zeros [6;6;7;7;4;5]));
  (*1412*) AddTo (T 340) (Plain (Einsum [(n_t2'abab,[0;1;2;3]); (T 339,[4;3;5;6])] [4;1;5;6;0;2]));
  (*1413*) Del (T 339);
  (*1414*) Assign (T 341) (Plain (Zeros [6;6;6;6;4;5]));
  (*1415*) AddTo (T 341) (Plain (Einsum [(n_t2'abab,[0;1;2;3]); (n_v'bbbb'ooov,[4;5;6;3])] [1;4;5;6;0;2]));
  (*1416*) Assign (T 342) (Plain (Zeros [6;6;6;7;4;5]));
  (*1417*) AddTo (T 342) (Plain (Einsum [(n_t1'bb,[0;1]); (T 341,[2;3;4;0;5;6])] [2;3;4;1;5;6]));
  (*1418*) Del (T 341);
  (*1419*) Assign (T 343) (Plain (Zeros [6;6;6;7;4;5]));
  (*1420*) AddTo (T 343) (Plain (Einsum [(n_v'aabb'ovoo,[0;1;2;3]); (n_t3'abaaba,[4;5;0;6;7;1])] [5;2;3;7;4;6]));
  (*1421*) Assign (T 344) (Plain (Zeros [6;6;6;7;4;5]));
  (*1422*) AddTo (T 344) (Times (Einsum [(T 189,[0;1;2;3]); (n_t3'babbab,[4;5;0;6;7;3])] [1;2;4;6;5;7]) (2) 1);
  (*1423*) Del (T 189);
  (*1424*) Assign (T 345) (Plain (Zeros [6;6;5;5]));
  (*1425*) AddTo (T 345) (Plain (Einsum [(n_t1'aa,[0;1]); (n_v'aabb'ovoo,[0;2;3;4])] [3;4;1;2]));
  (*1426*) Assign (T 346) (Plain (Zeros [6;6;5;5]));
  (*1427*) AddTo (T 346) (Plain (Einsum [(n_t2'abab,[0;1;2;3]); (n_v'aabb'ovov,[0;4;5;3])] [1;5;2;4]));
  (*1428*) Assign (T 347) (Plain (Zeros [6;6;5;5]));
  (*1429*) AddTo (T 347) (Times (Einsum [(n_v'aabb'vvoo,[0;1;2;3])] [2;3;0;1]) (-1) 1);
  (*1430*) AddTo (T 347) (Plain (Einsum [(T 345,[0;1;2;3])] [1;0;3;2]));
  (*1431*) AddTo (T 347) (Plain (Einsum [(T 346,[0;1;2;3])] [0;1;3;2]));
  (*1432*) Del (T 346);
  (*1433*) Assign (T 348) (Plain (Zeros [6;6;6;7;4;5]));
  (*1434*) AddTo (T 348) (Plain (Einsum [(n_t2'abab,[0;1;2;3]); (T 347,[4;5;2;6])] [4;5;1;3;0;6]));
  (*1435*) Del (T 347);
  (*1436*) Assign (T 349) (Plain (Zeros [6;6;4;4]));
  (*1437*) AddTo (T 349) (Plain (Einsum [(n_v'aabb'oooo,[0;1;2;3])] [2;3;0;1]));
  (*1438*) AddTo (T 349) (Plain (Einsum [(T 137,[0;1;2;3])] [1;0;3;2]));
  (*1439*) AddTo (T 349) (Plain (Einsum [(T 151,[0;1;2;3])] [0;1;3;2]));
  (*1440*) Del (T 151);
  (*1441*) Assign (T 350) (Plain (Zeros [6;6;6;7;4;5]));
  (*1442*) AddTo (T 350) (Plain (Einsum [(n_t2'abab,[0;1;2;3]); (T 349,[4;5;0;6])] [4;5;1;3;6;2]));
  (*1443*) Del (T 349);
  (*1444*) Assign (T 351) (Plain (Zeros [6;6;5;5]));
  (*1445*) AddTo (T 351) (Plain (Einsum [(n_t1'aa,[0;1]); (T 4,[2;3;0;4])] [2;3;1;4]));
  (*1446*) Assign (T 352) (Plain (Zeros [6;6;5;5]));
  (*1447*) AddTo (T 352) (Plain (Einsum [(T 130,[0;1;2;3])] [0;1;3;2]));
  (*1448*) AddTo (T 352) (Times (Einsum [(T 351,[0;1;2;3])] [0;1;3;2]) (-1) 1);
  (*1449*) Del (T 351);
  (*1450*) Assign (T 353) (Plain (Zeros [6;6;6;7;4;5]));
  (*1451*) AddTo (T 353) (Plain (Einsum [(n_t2'abab,[0;1;2;3]); (T 352,[4;5;2;6])] [4;5;1;3;0;6]));
  (*1452*) Del (T 352);
  (*1453*) Assign (T 354) (Plain (Zeros [6;7;4;4]));
  (*1454*) AddTo (T 354) (Plain (Einsum [(n_v'aabb'ooov,[0;1;2;3])] [2;3;0;1]));
  (*1455*) AddTo (T 354) (Plain (Einsum [(T 24,[0;1;2;3])] [0;1;2;3]));
  (*1456*) Assign (T 355) (Plain (Zeros [6;6;4;4]));
  (*1457*) AddTo (T 355) (Plain (Einsum [(n_t1'bb,[0;1]); (T 354,[2;1;3;4])] [2;0;3;4]));
  (*1458*) Assign (T 356) (Plain (Zeros [6;6;6;7;4;5]));
  (*1459*) AddTo (T 356) (Plain (Einsum [(n_t2'abab,[0;1;2;3]); (T 355,[4;5;6;0])] [5;4;1;3;6;2]));
  (*1460*) Del (T 355);
  (*1461*) Assign (T 357) (Plain (Zeros [6;6;6;7;4;5]));
  (*1462*) AddTo (T 357) (Plain (Einsum [(T 342,[0;1;2;3;4;5])] [0;2;1;3;4;5]));
  (*1463*) Del (T 342);
  (*1464*) AddTo (T 357) (Times (Einsum [(T 343,[0;1;2;3;4;5])] [0;2;1;3;4;5]) (-2) 1);
  (*1465*) Del (T 343);
  (*1466*) AddTo (T 357) (Times (Einsum [(T 344,[0;1;2;3;4;5])] [2;1;0;3;4;5]) (-1) 1);
  (*1467*) Del (T 344);
  (*1468*) AddTo (T 357) (Plain (Einsum [(T 348,[0;1;2;3;4;5])] [2;1;0;3;4;5]));
  (*1469*) Del (T 348);
  (*1470*) AddTo (T 357) (Plain (Einsum [(T 350,[0;1;2;3;4;5])] [2;1;0;3;4;5]));
  (*1471*) Del (T 350);
  (*1472*) AddTo (T 357) (Plain (Einsum [(T 353,[0;1;2;3;4;5])] [0;1;2;3;4;5]));
  (*1473*) Del (T 353);
  (*1474*) AddTo (T 357) (Times (Einsum [(T 356,[0;1;2;3;4;5])] [0;1;2;3;4;5]) (-1) 1);
  (*1475*) Del (T 356);
  (*1476*) Assign (T 358) (Plain (Zeros [6;6;7;7;4;5]));
  (*1477*) AddTo (T 358) (Plain (Einsum [(n_t1'bb,[0;1]); (T 357,[2;0;3;4;5;6])] [2;3;4;1;5;6]));
  (*1478*) Del (T 357);
  (*1479*) Assign (T 359) (Plain (Zeros [6;7;4;4]));
  (*1480*) AddTo (T 359) (Plain (Einsum [(n_t2'abab,[0;1;2;3]); (n_v'aabb'ovoo,[4;2;5;1])] [5;3;0;4]));
  (*1481*) Assign (T 360) (Plain (Zeros [6;7;4;4]));
  (*1482*) AddTo (T 360) (Plain (Einsum [(n_t2'abab,[0;1;2;3]); (n_v'aabb'ovvv,[4;2;5;3])] [1;5;0;4]));
  (*1483*) Assign (T 361) (Plain (Zeros [6;7;4;4]));
  (*1484*) AddTo (T 361) (Plain (Einsum [(n_v'aabb'ovov,[0;1;2;3]); (n_t3'babbab,[4;5;2;6;1;3])] [4;6;5;0]));
  (*1485*) Assign (T 362) (Plain (Zeros [6;7;4;4]));
  (*1486*) AddTo (T 362) (Times (Einsum [(n_v'aaaa'ovov,[0;1;2;3]); (n_t3'abaaba,[4;5;2;3;6;1])] [5;6;4;0]) (-1) 1);
  (*1487*) Assign (T 363) (Plain (Zeros [4;4;4;5]));
  (*1488*) AddTo (T 363) (Times (Einsum [(n_v'aaaa'ooov,[0;1;2;3])] [0;1;2;3]) (-1) 1);
  (*1489*) AddTo (T 363) (Plain (Einsum [(n_v'aaaa'ooov,[0;1;2;3])] [2;0;1;3]));
  (*1490*) AddTo (T 363) (Plain (Einsum [(T 26,[0;1;2;3])] [1;0;2;3]));
  (*1491*) AddTo (T 363) (Times (Einsum [(T 26,[0;1;2;3])] [2;0;1;3]) (-1) 1);
  (*1492*) Assign (T 364) (Plain (Zeros [6;7;4;4]));
  (*1493*) AddTo (T 364) (Plain (Einsum [(n_t2'abab,[0;1;2;3]); (T 363,[4;5;0;2])] [1;3;4;5]));
  (*1494*) Del (T 363);
  (*1495*) Assign (T 365) (Plain (Zeros [6;7;4;4]));
  (*1496*) AddTo (T 365) (Plain (Einsum [(n_v'aabb'ooov,[0;1;2;3])] [2;3;0;1]));
  (*1497*) AddTo (T 365) (Plain (Einsum [(T 24,[0;1;2;3])] [0;1;2;3]));
  (*1498*) AddTo (T 365) (Times (Einsum [(T 359,[0;1;2;3])] [0;1;2;3]) (-1) 1);
  (*1499*) Del (T 359);
  (*1500*) AddTo (T 365) (Plain (Einsum [(T 360,[0;1;2;3])] [0;1;2;3]));
  (*1501*) Del (T 360);
  (*1502*) AddTo (T 365) (Times (Einsum [(T 361,[0;1;2;3])] [0;1;2;3]) (2) 1);
  (*1503*) AddTo (T 365) (Times (Einsum [(T 362,[0;1;2;3])] [0;1;2;3]) (2) 1);
  (*1504*) AddTo (T 365) (Times (Einsum [(T 364,[0;1;2;3])] [0;1;3;2]) (-1) 1);
  (*1505*) Del (T 364);
  (*1506*) Assign (T 366) (Plain (Zeros [6;6;7;7;4;5]));
  (*1507*) AddTo (T 366) (Plain (Einsum [(n_t2'abab,[0;1;2;3]); (T 365,[4;5;6;0])] [4;1;5;3;6;2]));
  (*1508*) Del (T 365);
  (*1509*) Assign (T 367) (Plain (Zeros [6;7;5;5]));
  (*1510*) AddTo (T 367) (Plain (Einsum [(n_t1'bb,[0;1]); (n_v'aabb'vvvv,[2;3;4;1])] [0;4;2;3]));
  (*1511*) Assign (T 368) (Plain (Zeros [6;7;5;5]));
  (*1512*) AddTo (T 368) (Plain (Einsum [(n_t1'aa,[0;1]); (T 128,[2;3;0;4])] [2;3;1;4]));
  (*1513*) Assign (T 369) (Plain (Zeros [6;7;5;5]));
  (*1514*) AddTo (T 369) (Plain (Einsum [(n_t2'abab,[0;1;2;3]); (T 4,[4;1;0;5])] [4;3;2;5]));
  (*1515*) Assign (T 370) (Plain (Zeros [6;7;5;5]));
  (*1516*) AddTo (T 370) (Plain (Einsum [(T 367,[0;1;2;3])] [0;1;3;2]));
  (*1517*) Del (T 367);
  (*1518*) AddTo (T 370) (Times (Einsum [(T 368,[0;1;2;3])] [0;1;3;2]) (-1) 1);
  (*1519*) Del (T 368);
  (*1520*) AddTo (T 370) (Plain (Einsum [(T 369,[0;1;2;3])] [0;1;3;2]));
  (*1521*) Del (T 369);
  (*1522*) Assign (T 371) (Plain (Zeros [6;6;7;7;4;5]));
  (*1523*) AddTo (T 371) (Plain (Einsum [(n_t2'abab,[0;1;2;3]); (T 370,[4;5;2;6])] [4;1;5;3;0;6]));
  (*1524*) Del (T 370);
  (*1525*) Assign (T 372) (Plain (Zeros [6;7;4;4]));
  (*1526*) AddTo (T 372) (Plain (Einsum [(n_t2'abab,[0;1;2;3]); (T 4,[4;1;5;2])] [4;3;0;5]));
  (*1527*) Assign (T 373) (Plain (Zeros [7;7;4;4]));
  (*1528*) AddTo (T 373) (Plain (Einsum [(n_v'aabb'oovv,[0;1;2;3])] [2;3;0;1]));
  (*1529*) AddTo (T 373) (Plain (Einsum [(T 123,[0;1;2;3])] [1;0;2;3]));
  (*1530*) Assign (T 374) (Plain (Zeros [6;7;4;4]));
  (*1531*) AddTo (T 374) (Plain (Einsum [(n_t1'bb,[0;1]); (T 373,[1;2;3;4])] [0;2;3;4]));
  (*1532*) Del (T 373);
  (*1533*) Assign (T 375) (Plain (Zeros [6;7;4;4]));
  (*1534*) AddTo (T 375) (Times (Einsum [(T 372,[0;1;2;3])] [0;1;3;2]) (-1) 1);
  (*1535*) Del (T 372);
  (*1536*) AddTo (T 375) (Plain (Einsum [(T 374,[0;1;2;3])] [0;1;3;2]));
  (*1537*) Del (T 374);
  (*1538*) Assign (T 376) (Plain (Zeros [6;6;7;7;4;5]));
  (*1539*) AddTo (T 376) (Plain (Einsum [(n_t2'abab,[0;1;2;3]); (T 375,[4;5;0;6])] [4;1;5;3;6;2]));
  (*1540*) Del (T 375);
  (*1541*) Assign (T 377) (Plain (Zeros [6;7;5;5]));
  (*1542*) AddTo (T 377) (Plain (Einsum [(n_v'aabb'vvov,[0;1;2;3])] [2;3;0;1]));
  (*1543*) AddTo (T 377) (Times (Einsum [(T 106,[0;1;2;3])] [0;1;2;3]) (-1) 1);
  (*1544*) Del (T 106);
  (*1545*) Assign (T 378) (Plain (Zeros [6;7;5;5]));
  (*1546*) AddTo (T 378) (Plain (Einsum [(n_t2'bbbb,[0;1;2;3]); (T 377,[1;3;4;5])] [0;2;4;5]));
  (*1547*) Del (T 377);
  (*1548*) Assign (T 379) (Plain (Zeros [6;6;7;7;4;5]));
  (*1549*) AddTo (T 379) (Times (Einsum [(n_t2'abab,[0;1;2;3]); (T 378,[4;5;6;2])] [4;1;5;3;0;6]) (2) 1);
  (*1550*) Del (T 378);
  (*1551*) Assign (T 380) (Plain (Zeros [6;7;4;4]));
  (*1552*) AddTo (T 380) (Plain (Einsum [(n_t2'bbbb,[0;1;2;3]); (T 354,[1;3;4;5])] [0;2;4;5]));
  (*1553*) Del (T 354);
  (*1554*) Assign (T 381) (Plain (Zeros [6;6;7;7;4;5]));
  (*1555*) AddTo (T 381) (Times (Einsum [(n_t2'abab,[0;1;2;3]); (T 380,[4;5;6;0])] [4;1;5;3;6;2]) (2) 1);
  (*1556*) Del (T 380);
  (*1557*) Assign (T 382) (Plain (Zeros [6;6;7;7;4;5]));
  (*1558*) AddTo (T 382) (Plain (Einsum [(T 308,[0;1;2;3;4;5])] [0;1;2;3;4;5]));
  (*1559*) Del (T 308);
  (*1560*) AddTo (T 382) (Times (Einsum [(T 309,[0;1;2;3;4;5])] [0;1;2;3;4;5]) (-2) 1);
  (*1561*) Del (T 309);
  (*1562*) AddTo (T 382) (Times (Einsum [(T 310,[0;1;2;3;4;5])] [0;1;2;3;4;5]) (2) 1);
  (*1563*) Del (T 310);
  (*1564*) AddTo (T 382) (Times (Einsum [(T 314,[0;1;2;3;4;5])] [0;1;2;3;4;5]) (-1) 1);
  (*1565*) Del (T 314);
  (*1566*) AddTo (T 382) (Times (Einsum [(T 319,[0;1;2;3;4;5])] [1;0;3;2;4;5]) (-1) 1);
  (*1567*) Del (T 319);
  (*1568*) AddTo (T 382) (Plain (Einsum [(T 321,[0;1;2;3;4;5])] [1;0;3;2;4;5]));
  (*1569*) Del (T 321);
  (*1570*) AddTo (T 382) (Plain (Einsum [(T 322,[0;1;2;3;4;5])] [0;1;3;2;4;5]));
  (*1571*) Del (T 322);
  (*1572*) AddTo (T 382) (Plain (Einsum [(T 331,[0;1;2;3;4;5])] [1;0;3;2;4;5]));
  (*1573*) Del (T 331);
  (*1574*) AddTo (T 382) (Times (Einsum [(T 340,[0;1;2;3;4;5])] [0;1;3;2;4;5]) (-1) 1);
  (*1575*) Del (T 340);
  (*1576*) AddTo (T 382) (Plain (Einsum [(T 358,[0;1;2;3;4;5])] [0;1;3;2;4;5]));
  (*1577*) Del (T 358);
  (*1578*) AddTo (T 382) (Plain (Einsum [(T 366,[0;1;2;3;4;5])] [1;0;3;2;4;5]));
  (*1579*) Del (T 366);
  (*1580*) AddTo (T 382) (Plain (Einsum [(T 371,[0;1;2;3;4;5])] [0;1;3;2;4;5]));
  (*1581*) Del (T 371);
  (*1582*) AddTo (T 382) (Times (Einsum [(T 376,[0;1;2;3;4;5])] [0;1;3;2;4;5]) (-1) 1);
  (*1583*) Del (T 376);
  (*1584*) AddTo (T 382) (Times (Einsum [(T 379,[0;1;2;3;4;5])] [0;1;2;3;4;5]) (-1) 1);
  (*1585*) Del (T 379);
  (*1586*) AddTo (T 382) (Plain (Einsum [(T 381,[0;1;2;3;4;5])] [0;1;2;3;4;5]));
  (*1587*) Del (T 381);
  (*1588*) AddTo n_t3new_babbab (Times (Einsum [(T 382,[0;1;2;3;4;5])] [0;4;1;2;5;3]) (-1) 1);
  (*1589*) AddTo n_t3new_babbab (Plain (Einsum [(T 382,[0;1;2;3;4;5])] [0;4;1;3;5;2]));
  (*1590*) AddTo n_t3new_babbab (Plain (Einsum [(T 382,[0;1;2;3;4;5])] [1;4;0;2;5;3]));
  (*1591*) AddTo n_t3new_babbab (Times (Einsum [(T 382,[0;1;2;3;4;5])] [1;4;0;3;5;2]) (-1) 1);
  (*1592*) Del (T 382);
  (*1593*) Assign (T 383) (Plain (Zeros [6;7;7;7]));
  (*1594*) AddTo (T 383) (Plain (Einsum [(n_t2'bbbb,[0;1;2;3]); (T 2,[4;0;1;5])] [4;2;3;5]));
  (*1595*) Assign (T 384) (Plain (Zeros [6;6;7;7;4;5]));
  (*1596*) AddTo (T 384) (Times (Einsum [(n_t2'abab,[0;1;2;3]); (T 383,[4;5;6;3])] [4;1;5;6;0;2]) (-1) 1);
  (*1597*) Assign (T 385) (Plain (Zeros [6;7;4;5]));
  (*1598*) AddTo (T 385) (Plain (Einsum [(n_t2'abab,[0;1;2;3])] [1;3;0;2]));
  (*1599*) AddTo (T 385) (Times (Einsum [(n_t1'aa,[0;1]); (n_t1'bb,[2;3])] [2;3;0;1]) (99999999999999) 100000000000000);
  (*1600*) Assign (T 386) (Plain (Zeros [6;6;5;5]));
  (*1601*) AddTo (T 386) (Times (Einsum [(n_v'aabb'ovov,[0;1;2;3]); (T 385,[4;3;0;5])] [2;4;1;5]) (100000000000001) 100000000000000);
  (*1602*) Assign (T 387) (Plain (Zeros [6;6;5;5]));
  (*1603*) AddTo (T 387) (Times (Einsum [(T 130,[0;1;2;3])] [0;1;3;2]) (-1) 1);
  (*1604*) AddTo (T 387) (Plain (Einsum [(T 386,[0;1;2;3])] [1;0;2;3]));
  (*1605*) Del (T 386);
  (*1606*) Assign (T 388) (Plain (Zeros [6;6;7;7;4;5]));
  (*1607*) AddTo (T 388) (Times (Einsum [(T 387,[0;1;2;3]); (n_t3'babbab,[4;5;1;6;2;7])] [0;4;6;7;5;3]) (-2) 1);
  (*1608*) Del (T 387);
  (*1609*) Assign (T 389) (Plain (Zeros [6;6;4;4]));
  (*1610*) AddTo (T 389) (Plain (Einsum [(T 136,[0;1;2;3])] [0;1;3;2]));
  (*1611*) AddTo (T 389) (Plain (Einsum [(T 138,[0;1;2;3])] [0;1;3;2]));
  (*1612*) Assign (T 390) (Plain (Zeros [6;6;7;7;4;5]));
  (*1613*) AddTo (T 390) (Times (Einsum [(T 389,[0;1;2;3]); (n_t3'babbab,[4;2;1;5;6;7])] [0;4;5;7;3;6]) (-2) 1);
  (*1614*) Del (T 389);
  (*1615*) Assign (T 391) (Plain (Zeros [6;6;4;5]));
  (*1616*) AddTo (T 391) (Plain (Einsum [(n_t1'aa,[0;1]); (n_v'aabb'oooo,[2;0;3;4])] [3;4;2;1]));
  (*1617*) Assign (T 392) (Plain (Zeros [6;6;4;5]));
  (*1618*) AddTo (T 392) (Times (Einsum [(n_v'bbbb'ovov,[0;1;2;3]); (n_t3'babbab,[4;5;2;3;6;1])] [4;0;5;6]) (-1) 1);
  (*1619*) Assign (T 393) (Plain (Zeros [6;6;4;5]));
  (*1620*) AddTo (T 393) (Plain (Einsum [(n_v'aabb'ovov,[0;1;2;3]); (n_t3'abaaba,[4;5;0;6;3;1])] [5;2;4;6]));
  (*1621*) Assign (T 394) (Plain (Zeros [6;6;4;5]));
  (*1622*) AddTo (T 394) (Plain (Einsum [(n_t2'abab,[0;1;2;3]); (T 19,[4;5;1;3])] [4;5;0;2]));
  (*1623*) Assign (T 395) (Plain (Zeros [6;6;4;5]));
  (*1624*) AddTo (T 395) (Plain (Einsum [(n_t2'abab,[0;1;2;3]); (T 25,[4;3;0;5])] [4;1;5;2]));
  (*1625*) Assign (T 396) (Plain (Zeros [6;6;4;5]));
  (*1626*) AddTo (T 396) (Plain (Einsum [(n_t2'abab,[0;1;2;3]); (T 107,[4;3;2;5])] [4;1;0;5]));
  (*1627*) Assign (T 397) (Plain (Zeros [6;6;4;5]));
  (*1628*) AddTo (T 397) (Plain (Einsum [(T 10,[0;1]); (n_t2'abab,[2;3;4;1])] [0;3;2;4]));
  (*1629*) Assign (T 398) (Plain (Zeros [6;6;4;5]));
  (*1630*) AddTo (T 398) (Times (Einsum [(n_v'aabb'ovoo,[0;1;2;3]); (T 41,[0;4;1;5])] [2;3;4;5]) (2) 1);
  (*1631*) Assign (T 399) (Plain (Zeros [6;6;4;5]));
  (*1632*) AddTo (T 399) (Plain (Einsum [(n_v'aabb'ovoo,[0;1;2;3])] [2;3;0;1]));
  (*1633*) AddTo (T 399) (Times (Einsum [(T 391,[0;1;2;3])] [1;0;2;3]) (-1) 1);
  (*1634*) Del (T 391);
  (*1635*) AddTo (T 399) (Plain (Einsum [(T 148,[0;1;2;3])] [1;0;2;3]));
  (*1636*) AddTo (T 399) (Times (Einsum [(T 392,[0;1;2;3])] [1;0;2;3]) (2) 1);
  (*1637*) AddTo (T 399) (Times (Einsum [(T 393,[0;1;2;3])] [1;0;2;3]) (2) 1);
  (*1638*) AddTo (T 399) (Times (Einsum [(T 394,[0;1;2;3])] [1;0;2;3]) (-1) 1);
  (*1639*) Del (T 394);
  (*1640*) AddTo (T 399) (Times (Einsum [(T 395,[0;1;2;3])] [0;1;2;3]) (-1) 1);
  (*1641*) Del (T 395);
  (*1642*) AddTo (T 399) (Plain (Einsum [(T 396,[0;1;2;3])] [0;1;2;3]));
  (*1643*) Del (T 396);
  (*1644*) AddTo (T 399) (Plain (Einsum [(T 397,[0;1;2;3])] [0;1;2;3]));
  (*1645*) Del (T 397);
  (*1646*) AddTo (T 399) (Plain (Einsum [(T 398,[0;1;2;3])] [1;0;2;3]));
  (*1647*) Del (T 398);
  (*1648*) Assign (T 400) (Plain (Zeros [6;6;7;7;4;5]));
  (*1649*) AddTo (T 400) (Times (Einsum [(n_t2'bbbb,[0;1;2;3]); (T 399,[1;4;5;6])] [4;0;2;3;5;6]) (-2) 1);
  (*1650*) Del (T 399);
  (*1651*) Assign (T 401) (Plain (Zeros [6;6;5;5]));
  (*1652*) AddTo (T 401) (Plain (Einsum [(n_v'aabb'vvoo,[0;1;2;3])] [2;3;0;1]));
  (*1653*) AddTo (T 401) (Times (Einsum [(T 345,[0;1;2;3])] [1;0;3;2]) (-1) 1);
  (*1654*) Assign (T 402) (Plain (Zeros [6;6;7;7;4;5]));
  (*1655*) AddTo (T 402) (Times (Einsum [(T 401,[0;1;2;3]); (n_t3'babbab,[4;5;0;6;2;7])] [1;4;6;7;5;3]) (-2) 1);
  (*1656*) Del (T 401);
  (*1657*) Assign (T 403) (Plain (Zeros [6;7;7;7]));
  (*1658*) AddTo (T 403) (Times (Einsum [(n_t2'bbbb,[0;1;2;3]); (n_v'bbbb'ooov,[4;1;0;5])] [4;2;3;5]) (-1) 1);
  (*1659*) Assign (T 404) (Plain (Zeros [6;7;7;7]));
  (*1660*) AddTo (T 404) (Plain (Einsum [(n_v'bbbb'ovov,[0;1;2;3]); (n_t3'bbbbbb,[4;0;2;5;6;3])] [4;5;6;1]));
  (*1661*) Assign (T 405) (Plain (Zeros [6;7;7;7]));
  (*1662*) AddTo (T 405) (Plain (Einsum [(n_v'aabb'ovov,[0;1;2;3]); (n_t3'babbab,[4;0;2;5;1;6])] [4;5;6;3]));
  (*1663*) Assign (T 406) (Plain (Zeros [6;7;7;7]));
  (*1664*) AddTo (T 406) (Plain (Einsum [(T 403,[0;1;2;3])] [0;2;1;3]));
  (*1665*) AddTo (T 406) (Times (Einsum [(T 404,[0;1;2;3])] [0;2;1;3]) (-3) 1);
  (*1666*) AddTo (T 406) (Times (Einsum [(T 405,[0;1;2;3])] [0;2;1;3]) (-1) 1);
  (*1667*) Assign (T 407) (Plain (Zeros [6;6;7;7;4;5]));
  (*1668*) AddTo (T 407) (Times (Einsum [(n_t2'abab,[0;1;2;3]); (T 406,[4;5;6;3])] [4;1;5;6;0;2]) (2) 1);
  (*1669*) Del (T 406);
  (*1670*) Assign (T 408) (Plain (Zeros [6;6;4;4]));
  (*1671*) AddTo (T 408) (Plain (Einsum [(n_v'aabb'oooo,[0;1;2;3])] [2;3;0;1]));
  (*1672*) AddTo (T 408) (Plain (Einsum [(T 137,[0;1;2;3])] [1;0;3;2]));
  (*1673*) Assign (T 409) (Plain (Zeros [6;6;7;7;4;5]));
  (*1674*) AddTo (T 409) (Times (Einsum [(T 408,[0;1;2;3]); (n_t3'babbab,[4;2;0;5;6;7])] [1;4;5;7;3;6]) (-2) 1);
  (*1675*) Del (T 408);
  (*1676*) Assign (T 410) (Plain (Zeros [6;6]));
  (*1677*) AddTo (T 410) (Plain (Einsum [(n_f'bb'oo,[0;1])] [0;1]));
  (*1678*) AddTo (T 410) (Times (Einsum [(T 17,[0;1])] [0;1]) (2) 1);
  (*1679*) AddTo (T 410) (Plain (Einsum [(T 18,[0;1])] [0;1]));
  (*1680*) AddTo (T 410) (Plain (Einsum [(T 21,[0;1])] [1;0]));
  (*1681*) Assign (T 411) (Plain (Zeros [6;6;7;7;4;5]));
  (*1682*) AddTo (T 411) (Times (Einsum [(T 410,[0;1]); (n_t3'babbab,[2;3;1;4;5;6])] [0;2;4;6;3;5]) (-2) 1);
  (*1683*) Del (T 410);
  (*1684*) Assign (T 412) (Plain (Zeros [6;6;4;5]));
  (*1685*) AddTo (T 412) (Plain (Einsum [(n_t1'aa,[0;1]); (T 136,[2;3;4;0])] [2;3;4;1]));
  (*1686*) Assign (T 413) (Plain (Zeros [6;6;6;7]));
  (*1687*) AddTo (T 413) (Plain (Einsum [(T 2,[0;1;2;3])] [0;1;2;3]));
  (*1688*) AddTo (T 413) (Times (Einsum [(T 2,[0;1;2;3])] [0;2;1;3]) (-1) 1);
  (*1689*) Assign (T 414) (Plain (Zeros [6;6;4;5]));
  (*1690*) AddTo (T 414) (Plain (Einsum [(n_t2'abab,[0;1;2;3]); (T 413,[4;5;1;3])] [4;5;0;2]));
  (*1691*) Assign (T 415) (Plain (Zeros [6;6;4;5]));
  (*1692*) AddTo (T 415) (Times (Einsum [(T 4,[0;1;2;3]); (T 41,[2;4;3;5])] [0;1;4;5]) (2) 1);
  (*1693*) Del (T 41);
  (*1694*) Assign (T 416) (Plain (Zeros [6;6;4;5]));
  (*1695*) AddTo (T 416) (Times (Einsum [(T 412,[0;1;2;3])] [0;1;2;3]) (-1) 1);
  (*1696*) Del (T 412);
  (*1697*) AddTo (T 416) (Times (Einsum [(T 414,[0;1;2;3])] [0;1;2;3]) (-1) 1);
  (*1698*) Del (T 414);
  (*1699*) AddTo (T 416) (Plain (Einsum [(T 150,[0;1;2;3])] [1;0;2;3]));
  (*1700*) Del (T 150);
  (*1701*) AddTo (T 416) (Plain (Einsum [(T 415,[0;1;2;3])] [0;1;2;3]));
  (*1702*) Del (T 415);
  (*1703*) Assign (T 417) (Plain (Zeros [6;6;7;7;4;5]));
  (*1704*) AddTo (T 417) (Times (Einsum [(n_t2'bbbb,[0;1;2;3]); (T 416,[4;1;5;6])] [4;0;2;3;5;6]) (-2) 1);
  (*1705*) Del (T 416);
  (*1706*) Assign (T 418) (Plain (Zeros [6;6]));
  (*1707*) AddTo (T 418) (Plain (Einsum [(T 16,[0;1])] [1;0]));
  (*1708*) Del (T 16);
  (*1709*) AddTo (T 418) (Times (Einsum [(T 20,[0;1])] [1;0]) (-1) 1);
  (*1710*) Del (T 20);
  (*1711*) Assign (T 419) (Plain (Zeros [6;6;7;7;4;5]));
  (*1712*) AddTo (T 419) (Times (Einsum [(T 418,[0;1]); (n_t3'babbab,[2;3;0;4;5;6])] [1;2;4;6;3;5]) (-2) 1);
  (*1713*) Assign (T 420) (Plain (Zeros [6;6;7;7;4;5]));
  (*1714*) AddTo (T 420) (Times (Einsum [(T 384,[0;1;2;3;4;5])] [0;1;3;2;4;5]) (2) 1);
  (*1715*) Del (T 384);
  (*1716*) AddTo (T 420) (Plain (Einsum [(T 388,[0;1;2;3;4;5])] [0;1;3;2;4;5]));
  (*1717*) Del (T 388);
  (*1718*) AddTo (T 420) (Plain (Einsum [(T 390,[0;1;2;3;4;5])] [0;1;3;2;4;5]));
  (*1719*) Del (T 390);
  (*1720*) AddTo (T 420) (Plain (Einsum [(T 400,[0;1;2;3;4;5])] [1;0;3;2;4;5]));
  (*1721*) Del (T 400);
  (*1722*) AddTo (T 420) (Plain (Einsum [(T 402,[0;1;2;3;4;5])] [1;0;3;2;4;5]));
  (*1723*) Del (T 402);
  (*1724*) AddTo (T 420) (Plain (Einsum [(T 407,[0;1;2;3;4;5])] [1;0;3;2;4;5]));
  (*1725*) Del (T 407);
  (*1726*) AddTo (T 420) (Times (Einsum [(T 409,[0;1;2;3;4;5])] [1;0;3;2;4;5]) (-1) 1);
  (*1727*) Del (T 409);
  (*1728*) AddTo (T 420) (Times (Einsum [(T 411,[0;1;2;3;4;5])] [0;1;3;2;4;5]) (-1) 1);
  (*1729*) Del (T 411);
  (*1730*) AddTo (T 420) (Times (Einsum [(T 417,[0;1;2;3;4;5])] [0;1;3;2;4;5]) (-1) 1);
  (*1731*) Del (T 417);
  (*1732*) AddTo (T 420) (Plain (Einsum [(T 419,[0;1;2;3;4;5])] [1;0;3;2;4;5]));
  (*1733*) Del (T 419);
  (*1734*) AddTo n_t3new_babbab (Times (Einsum [(T 420,[0;1;2;3;4;5])] [0;4;1;2;5;3]) (-1) 1);
  (*1735*) AddTo n_t3new_babbab (Plain (Einsum [(T 420,[0;1;2;3;4;5])] [1;4;0;2;5;3]));
  (*1736*) Del (T 420);
  (*1737*) Assign (T 421) (Plain (Zeros [6;6;6;7;4;4]));
  (*1738*) AddTo (T 421) (Plain (Einsum [(n_v'aabb'ovov,[0;1;2;3]); (n_t3'babbab,[4;5;6;7;1;3])] [4;6;2;7;5;0]));
  (*1739*) Assign (T 422) (Plain (Zeros [6;6;7;7;4;5]));
  (*1740*) AddTo (T 422) (Plain (Einsum [(n_t2'abab,[0;1;2;3]); (T 421,[4;5;1;6;7;0])] [4;5;3;6;7;2]));
  (*1741*) Del (T 421);
  (*1742*) Assign (T 423) (Plain (Zeros [7;7;5;5]));
  (*1743*) AddTo (T 423) (Plain (Einsum [(n_v'aabb'vvvv,[0;1;2;3])] [2;3;0;1]));
  (*1744*) AddTo (T 423) (Times (Einsum [(T 134,[0;1;2;3])] [1;0;3;2]) (-1) 1);
  (*1745*) Del (T 134);
  (*1746*) Assign (T 424) (Plain (Zeros [6;6;7;7;4;5]));
  (*1747*) AddTo (T 424) (Plain (Einsum [(n_t3'babbab,[0;1;2;3;4;5])] [0;2;3;5;1;4]));
  (*1748*) AddTo (T 424) (Plain (Einsum [(n_t1'aa,[0;1]); (n_t2'bbbb,[2;3;4;5])] [2;3;4;5;0;1]));
  (*1749*) Assign (T 425) (Plain (Zeros [6;6;7;7;4;5]));
  (*1750*) AddTo (T 425) (Times (Einsum [(T 423,[0;1;2;3]); (T 424,[4;5;0;6;7;2])] [4;5;6;1;7;3]) (2) 1);
  (*1751*) Del (T 423);
  (*1752*) Assign (T 426) (Plain (Zeros [7;7;4;4]));
  (*1753*) AddTo (T 426) (Plain (Einsum [(n_v'aabb'oovv,[0;1;2;3])] [2;3;0;1]));
  (*1754*) AddTo (T 426) (Plain (Einsum [(T 123,[0;1;2;3])] [1;0;3;2]));
  (*1755*) Assign (T 427) (Plain (Zeros [6;6;7;7;4;5]));
  (*1756*) AddTo (T 427) (Times (Einsum [(T 426,[0;1;2;3]); (n_t3'babbab,[4;2;5;6;7;0])] [4;5;1;6;3;7]) (-2) 1);
  (*1757*) Del (T 426);
  (*1758*) Assign (T 428) (Plain (Zeros [7;7;4;5]));
  (*1759*) AddTo (T 428) (Plain (Einsum [(n_t1'aa,[0;1]); (n_v'aabb'oovv,[2;0;3;4])] [3;4;2;1]));
  (*1760*) Assign (T 429) (Plain (Zeros [7;7;4;5]));
  (*1761*) AddTo (T 429) (Plain (Einsum [(n_t2'aaaa,[0;1;2;3]); (n_v'aabb'ovvv,[1;3;4;5])] [4;5;0;2]));
  (*1762*) Assign (T 430) (Plain (Zeros [7;7;4;5]));
  (*1763*) AddTo (T 430) (Plain (Einsum [(n_v'aabb'ovov,[0;1;2;3]); (n_t3'abaaba,[4;2;0;5;6;1])] [6;3;4;5]));
  (*1764*) Assign (T 431) (Plain (Zeros [6;7;7;7]));
  (*1765*) AddTo (T 431) (Plain (Einsum [(n_v'bbbb'ovvv,[0;1;2;3])] [0;1;2;3]));
  (*1766*) AddTo (T 431) (Times (Einsum [(n_v'bbbb'ovvv,[0;1;2;3])] [0;2;1;3]) (-1) 1);
  (*1767*) Assign (T 432) (Plain (Zeros [7;7;4;5]));
  (*1768*) AddTo (T 432) (Plain (Einsum [(n_t2'abab,[0;1;2;3]); (T 431,[1;4;3;5])] [4;5;0;2]));
  (*1769*) Assign (T 433) (Plain (Zeros [7;7;4;5]));
  (*1770*) AddTo (T 433) (Plain (Einsum [(n_t2'abab,[0;1;2;3]); (T 25,[1;4;0;5])] [4;3;5;2]));
  (*1771*) Del (T 25);
  (*1772*) Assign (T 434) (Plain (Zeros [7;7;4;5]));
  (*1773*) AddTo (T 434) (Plain (Einsum [(n_t2'abab,[0;1;2;3]); (T 107,[1;4;2;5])] [4;3;0;5]));
  (*1774*) Assign (T 435) (Plain (Zeros [7;7;4;5]));
  (*1775*) AddTo (T 435) (Plain (Einsum [(n_v'aabb'ovvv,[0;1;2;3])] [2;3;0;1]));
  (*1776*) AddTo (T 435) (Times (Einsum [(T 428,[0;1;2;3])] [1;0;2;3]) (-1) 1);
  (*1777*) Del (T 428);
  (*1778*) AddTo (T 435) (Times (Einsum [(T 429,[0;1;2;3])] [1;0;2;3]) (2) 1);
  (*1779*) Del (T 429);
  (*1780*) AddTo (T 435) (Times (Einsum [(T 430,[0;1;2;3])] [1;0;2;3]) (-2) 1);
  (*1781*) AddTo (T 435) (Times (Einsum [(T 432,[0;1;2;3])] [0;1;2;3]) (-1) 1);
  (*1782*) Del (T 432);
  (*1783*) AddTo (T 435) (Plain (Einsum [(T 433,[0;1;2;3])] [0;1;2;3]));
  (*1784*) Del (T 433);
  (*1785*) AddTo (T 435) (Times (Einsum [(T 434,[0;1;2;3])] [0;1;2;3]) (-1) 1);
  (*1786*) Del (T 434);
  (*1787*) Assign (T 436) (Plain (Zeros [6;6;7;7;4;5]));
  (*1788*) AddTo (T 436) (Times (Einsum [(n_t2'bbbb,[0;1;2;3]); (T 435,[3;4;5;6])] [0;1;4;2;5;6]) (-2) 1);
  (*1789*) Del (T 435);
  (*1790*) Assign (T 437) (Plain (Zeros [7;7;4;4]));
  (*1791*) AddTo (T 437) (Plain (Einsum [(n_v'aabb'ovov,[0;1;2;3]); (T 385,[2;4;5;1])] [3;4;0;5]));
  (*1792*) Assign (T 438) (Plain (Zeros [7;7;4;4]));
  (*1793*) AddTo (T 438) (Times (Einsum [(T 122,[0;1;2;3])] [0;1;3;2]) (99999999999999) 100000000000000);
  (*1794*) AddTo (T 438) (Plain (Einsum [(T 437,[0;1;2;3])] [1;0;2;3]));
  (*1795*) Assign (T 439) (Plain (Zeros [6;6;7;7;4;5]));
  (*1796*) AddTo (T 439) (Times (Einsum [(T 438,[0;1;2;3]); (n_t3'babbab,[4;2;5;6;7;1])] [4;5;0;6;3;7]) (-100000000000001) 50000000000000);
  (*1797*) Del (T 438);
  (*1798*) Assign (T 440) (Plain (Zeros [7;7]));
  (*1799*) AddTo (T 440) (Plain (Einsum [(n_t1'bb,[0;1]); (T 431,[0;2;1;3])] [2;3]));
  (*1800*) Assign (T 441) (Plain (Zeros [7;7]));
  (*1801*) AddTo (T 441) (Plain (Einsum [(T 142,[0;1])] [1;0]));
  (*1802*) Del (T 142);
  (*1803*) AddTo (T 441) (Times (Einsum [(T 440,[0;1])] [0;1]) (-1) 1);
  (*1804*) Del (T 440);
  (*1805*) Assign (T 442) (Plain (Zeros [6;6;7;7;4;5]));
  (*1806*) AddTo (T 442) (Times (Einsum [(T 441,[0;1]); (n_t3'babbab,[2;3;4;5;6;0])] [2;4;1;5;3;6]) (-2) 1);
  (*1807*) Assign (T 443) (Plain (Zeros [6;6;6;7;4;5]));
  (*1808*) AddTo (T 443) (Times (Einsum [(n_v'bbbb'ovvv,[0;1;2;3]); (n_t3'babbab,[4;5;6;3;7;1])] [4;6;0;2;5;7]) (-1) 1);
  (*1809*) Assign (T 444) (Plain (Zeros [6;6;6;7;4;5]));
  (*1810*) AddTo (T 444) (Plain (Einsum [(T 107,[0;1;2;3]); (T 424,[4;5;1;6;7;2])] [0;4;5;6;7;3]));
  (*1811*) Del (T 107);
  (*1811*) Del (T 424);
  (*1812*) Assign (T 445) (Plain (Zeros [6;7;4;5]));
  (*1813*) AddTo (T 445) (Plain (Einsum [(n_v'aabb'ovov,[0;1;2;3])] [2;3;0;1]));
  (*1814*) AddTo (T 445) (Times (Einsum [(T 125,[0;1;2;3])] [0;1;2;3]) (-1) 1);
  (*1815*) AddTo (T 445) (Times (Einsum [(T 43,[0;1;2;3])] [0;1;2;3]) (2) 1);
  (*1816*) Del (T 43);
  (*1817*) Assign (T 446) (Plain (Zeros [6;6;6;7;4;5]));
  (*1818*) AddTo (T 446) (Times (Einsum [(n_t2'bbbb,[0;1;2;3]); (T 445,[4;3;5;6])] [4;0;1;2;5;6]) (-1) 1);
  (*1819*) Del (T 445);
  (*1820*) Assign (T 447) (Plain (Zeros [6;7]));
  (*1821*) AddTo (T 447) (Plain (Einsum [(n_f'bb'ov,[0;1])] [0;1]));
  (*1822*) AddTo (T 447) (Plain (Einsum [(T 1,[0;1])] [0;1]));
  (*1823*) Del (T 1);
  (*1824*) Assign (T 448) (Plain (Zeros [6;6;6;7;4;5]));
  (*1825*) AddTo (T 448) (Times (Einsum [(T 447,[0;1]); (n_t3'babbab,[2;3;4;5;6;1])] [0;2;4;5;3;6]) (-1) 1);
  (*1826*) Del (T 447);
  (*1827*) Assign (T 449) (Plain (Zeros [6;6;6;7;4;5]));
  (*1828*) AddTo (T 449) (Plain (Einsum [(T 443,[0;1;2;3;4;5])] [2;1;0;3;4;5]));
  (*1829*) Del (T 443);
  (*1830*) AddTo (T 449) (Plain (Einsum [(T 444,[0;1;2;3;4;5])] [0;2;1;3;4;5]));
  (*1831*) Del (T 444);
  (*1832*) AddTo (T 449) (Plain (Einsum [(T 446,[0;1;2;3;4;5])] [0;2;1;3;4;5]));
  (*1833*) Del (T 446);
  (*1834*) AddTo (T 449) (Plain (Einsum [(T 448,[0;1;2;3;4;5])] [0;2;1;3;4;5]));
  (*1835*) Del (T 448);
  (*1836*) Assign (T 450) (Plain (Zeros [6;6;7;7;4;5]));
  (*1837*) AddTo (T 450) (Times (Einsum [(n_t1'bb,[0;1]); (T 449,[0;2;3;4;5;6])] [2;3;4;1;5;6]) (2) 1);
  (*1838*) Del (T 449);
  (*1839*) Assign (T 451) (Plain (Zeros [7;7]));
  (*1840*) AddTo (T 451) (Plain (Einsum [(n_f'bb'vv,[0;1])] [0;1]));
  (*1841*) AddTo (T 451) (Times (Einsum [(T 144,[0;1])] [1;0]) (-1) 1);
  (*1842*) Assign (T 452) (Plain (Zeros [6;6;7;7;4;5]));
  (*1843*) AddTo (T 452) (Times (Einsum [(T 451,[0;1]); (n_t3'babbab,[2;3;4;5;6;0])] [2;4;1;5;3;6]) (-2) 1);
  (*1844*) Del (T 451);
  (*1845*) Assign (T 453) (Plain (Zeros [6;6;6;7]));
  (*1846*) AddTo (T 453) (Times (Einsum [(T 168,[0;1;2;3])] [1;0;2;3]) (-1) 1);
  (*1847*) AddTo (T 453) (Times (Einsum [(T 170,[0;1;2;3])] [0;1;2;3]) (-1) 1);
  (*1848*) Assign (T 454) (Plain (Zeros [6;6;7;7;4;5]));
  (*1849*) AddTo (T 454) (Times (Einsum [(n_t2'abab,[0;1;2;3]); (T 453,[4;5;1;6])] [4;5;6;3;0;2]) (2) 1);
  (*1850*) Del (T 453);
  (*1851*) Assign (T 455) (Plain (Zeros [6;6;7;7;4;5]));
  (*1852*) AddTo (T 455) (Times (Einsum [(T 422,[0;1;2;3;4;5])] [0;1;2;3;4;5]) (2) 1);
  (*1853*) Del (T 422);
  (*1854*) AddTo (T 455) (Times (Einsum [(T 425,[0;1;2;3;4;5])] [1;0;2;3;4;5]) (-1) 1);
  (*1855*) Del (T 425);
  (*1856*) AddTo (T 455) (Plain (Einsum [(T 427,[0;1;2;3;4;5])] [1;0;3;2;4;5]));
  (*1857*) Del (T 427);
  (*1858*) AddTo (T 455) (Times (Einsum [(T 436,[0;1;2;3;4;5])] [1;0;3;2;4;5]) (-1) 1);
  (*1859*) Del (T 436);
  (*1860*) AddTo (T 455) (Plain (Einsum [(T 439,[0;1;2;3;4;5])] [1;0;2;3;4;5]));
  (*1861*) Del (T 439);
  (*1862*) AddTo (T 455) (Times (Einsum [(T 442,[0;1;2;3;4;5])] [1;0;3;2;4;5]) (-1) 1);
  (*1863*) Del (T 442);
  (*1864*) AddTo (T 455) (Times (Einsum [(T 450,[0;1;2;3;4;5])] [0;1;3;2;4;5]) (-1) 1);
  (*1865*) Del (T 450);
  (*1866*) AddTo (T 455) (Plain (Einsum [(T 452,[0;1;2;3;4;5])] [1;0;2;3;4;5]));
  (*1867*) Del (T 452);
  (*1868*) AddTo (T 455) (Times (Einsum [(T 454,[0;1;2;3;4;5])] [1;0;3;2;4;5]) (-1) 1);
  (*1869*) Del (T 454);
  (*1870*) AddTo n_t3new_babbab (Times (Einsum [(T 455,[0;1;2;3;4;5])] [0;4;1;2;5;3]) (-1) 1);
  (*1871*) AddTo n_t3new_babbab (Plain (Einsum [(T 455,[0;1;2;3;4;5])] [0;4;1;3;5;2]));
  (*1872*) Del (T 455);
  (*1873*) Assign (T 456) (Plain (Zeros [7;7;4;5]));
  (*1874*) AddTo (T 456) (Plain (Einsum [(n_v'bbbb'ovov,[0;1;2;3]); (n_t3'babbab,[0;4;2;5;6;3])] [5;1;4;6]));
  (*1875*) Assign (T 457) (Plain (Zeros [6;6;7;7;4;5]));
  (*1876*) AddTo (T 457) (Plain (Einsum [(n_t2'bbbb,[0;1;2;3]); (T 456,[4;3;5;6])] [0;1;2;4;5;6]));
  (*1877*) Assign (T 458) (Plain (Zeros [6;6;7;7;4;5]));
  (*1878*) AddTo (T 458) (Times (Einsum [(n_t2'abab,[0;1;2;3]); (T 169,[4;5;1;6])] [5;4;3;6;0;2]) (-1) 1);
  (*1879*) Assign (T 459) (Plain (Zeros [6;7]));
  (*1880*) AddTo (T 459) (Plain (Einsum [(n_t1'bb,[0;1]); (n_v'bbbb'ovov,[2;3;0;1])] [2;3]));
  (*1881*) Assign (T 460) (Plain (Zeros [7;7]));
  (*1882*) AddTo (T 460) (Plain (Einsum [(n_t1'bb,[0;1]); (T 459,[0;2])] [1;2]));
  (*1883*) Del (T 459);
  (*1884*) Assign (T 461) (Plain (Zeros [7;7]));
  (*1885*) AddTo (T 461) (Times (Einsum [(n_v'bbbb'ovov,[0;1;2;3]); (T 7,[0;2;3;4])] [4;1]) (2) 1);
  (*1886*) Del (T 7);
  (*1887*) Assign (T 462) (Plain (Zeros [7;7]));
  (*1888*) AddTo (T 462) (Plain (Einsum [(T 460,[0;1])] [0;1]));
  (*1889*) Del (T 460);
  (*1890*) AddTo (T 462) (Times (Einsum [(T 461,[0;1])] [0;1]) (-1) 1);
  (*1891*) Del (T 461);
  (*1892*) Assign (T 463) (Plain (Zeros [6;6;7;7;4;5]));
  (*1893*) AddTo (T 463) (Times (Einsum [(T 462,[0;1]); (n_t3'babbab,[2;3;4;5;6;1])] [2;4;0;5;3;6]) (-2) 1);
  (*1894*) Del (T 462);
  (*1895*) Assign (T 464) (Plain (Zeros [6;6;6;7;4;5]));
  (*1896*) AddTo (T 464) (Plain (Einsum [(n_t2'bbbb,[0;1;2;3]); (T 62,[4;3;5;6])] [4;0;1;2;5;6]));
  (*1897*) Assign (T 465) (Plain (Zeros [6;6;7;7;4;5]));
  (*1898*) AddTo (T 465) (Times (Einsum [(n_t1'bb,[0;1]); (T 464,[0;2;3;4;5;6])] [3;2;4;1;5;6]) (2) 1);
  (*1899*) Del (T 464);
  (*1900*) Assign (T 466) (Plain (Zeros [6;6;7;7;4;5]));
  (*1901*) AddTo (T 466) (Times (Einsum [(T 457,[0;1;2;3;4;5])] [0;1;2;3;4;5]) (4) 1);
  (*1902*) Del (T 457);
  (*1903*) AddTo (T 466) (Times (Einsum [(T 458,[0;1;2;3;4;5])] [0;1;2;3;4;5]) (-6) 1);
  (*1904*) Del (T 458);
  (*1905*) AddTo (T 466) (Times (Einsum [(T 463,[0;1;2;3;4;5])] [1;0;2;3;4;5]) (-1) 1);
  (*1906*) Del (T 463);
  (*1907*) AddTo (T 466) (Times (Einsum [(T 465,[0;1;2;3;4;5])] [0;1;3;2;4;5]) (-1) 1);
  (*1908*) Del (T 465);
  (*1909*) AddTo n_t3new_babbab (Plain (Einsum [(T 466,[0;1;2;3;4;5])] [1;4;0;2;5;3]));
  (*1910*) AddTo n_t3new_babbab (Times (Einsum [(T 466,[0;1;2;3;4;5])] [1;4;0;3;5;2]) (-1) 1);
  (*1911*) Del (T 466);
  (*1912*) Assign (T 467) (Plain (Zeros [4;4;5;5]));
  (*1913*) AddTo (T 467) (Plain (Einsum [(n_v'aaaa'ovov,[0;1;2;3])] [0;2;1;3]));
  (*1914*) AddTo (T 467) (Times (Einsum [(n_v'aaaa'oovv,[0;1;2;3])] [0;1;2;3]) (-1) 1);
  (*1915*) AddTo (T 467) (Times (Einsum [(T 226,[0;1;2;3])] [1;0;3;2]) (100000000000001) 100000000000000);
  (*1916*) AddTo (T 467) (Times (Einsum [(T 12,[0;1;2;3]); (T 272,[0;4;2;5])] [1;4;3;5]) (-100000000000001) 50000000000000);
  (*1917*) AddTo (T 467) (Times (Einsum [(T 47,[0;1;2;3])] [0;1;3;2]) (-1) 1);
  (*1918*) AddTo (T 467) (Times (Einsum [(n_t1'aa,[0;1]); (T 33,[2;3;0;4])] [3;2;4;1]) (-1) 1);
  (*1919*) AddTo n_t3new_babbab (Times (Einsum [(T 467,[0;1;2;3]); (n_t3'babbab,[4;0;5;6;2;7])] [4;1;5;6;3;7]) (2) 1);
  (*1920*) Del (T 467);
  (*1921*) Assign (T 468) (Plain (Zeros [4;4;5;5]));
  (*1922*) AddTo (T 468) (Plain (Einsum [(n_t2'aaaa,[0;1;2;3])] [0;1;2;3]));
  (*1923*) AddTo (T 468) (Times (Einsum [(n_t1'aa,[0;1]); (n_t1'aa,[2;3])] [0;2;3;1]) (-4999999999999949) 10000000000000000);
  (*1924*) Assign (T 469) (Plain (Zeros [6;7;4;5]));
  (*1925*) AddTo (T 469) (Plain (Einsum [(n_v'aabb'ovov,[0;1;2;3])] [2;3;0;1]));
  (*1926*) AddTo (T 469) (Times (Einsum [(T 125,[0;1;2;3])] [0;1;2;3]) (-1) 1);
  (*1927*) Del (T 125);
  (*1928*) AddTo (T 469) (Plain (Einsum [(T 39,[0;1;2;3])] [0;1;2;3]));
  (*1929*) AddTo (T 469) (Times (Einsum [(n_t2'abab,[0;1;2;3]); (T 8,[1;4;3;5])] [4;5;0;2]) (-100000000000001) 100000000000000);
  (*1930*) AddTo (T 469) (Times (Einsum [(n_v'aabb'ovov,[0;1;2;3]); (T 468,[0;4;1;5])] [2;3;4;5]) (5000000000000051) 2500000000000000);
  (*1931*) Del (T 468);
  (*1932*) AddTo n_t3new_babbab (Times (Einsum [(T 469,[0;1;2;3]); (n_t3'bbbbbb,[4;5;0;6;7;1])] [4;2;5;6;3;7]) (6) 1);
  (*1933*) Del (T 469);
  (*1934*) Assign (T 470) (Plain (Zeros [7;7;7;7]));
  (*1935*) AddTo (T 470) (Times (Einsum [(n_v'bbbb'vvvv,[0;1;2;3])] [0;1;2;3]) (-1) 1);
  (*1936*) AddTo (T 470) (Plain (Einsum [(n_t2'bbbb,[0;1;2;3]); (n_v'bbbb'ovov,[0;4;1;5])] [5;2;4;3]));
  (*1937*) AddTo (T 470) (Plain (Einsum [(n_t1'bb,[0;1]); (T 108,[0;2;3;4])] [4;1;3;2]));
  (*1938*) AddTo n_t3new_babbab (Times (Einsum [(T 470,[0;1;2;3]); (n_t3'babbab,[4;5;6;0;7;2])] [4;5;6;1;7;3]) (-2) 1);
  (*1939*) Del (T 470);
  (*1940*) Assign (T 471) (Plain (Zeros [6;6;7;7]));
  (*1941*) AddTo (T 471) (Plain (Einsum [(n_t2'bbbb,[0;1;2;3])] [0;1;2;3]));
  (*1942*) AddTo (T 471) (Plain (Einsum [(n_t1'bb,[0;1]); (n_t1'bb,[2;3])] [0;2;1;3]));
  (*1943*) Assign (T 472) (Plain (Zeros [6;6;6;6]));
  (*1944*) AddTo (T 472) (Plain (Einsum [(n_v'bbbb'oooo,[0;1;2;3])] [0;1;2;3]));
  (*1945*) AddTo (T 472) (Plain (Einsum [(T 185,[0;1;2;3])] [3;0;2;1]));
  (*1946*) AddTo (T 472) (Times (Einsum [(T 185,[0;1;2;3])] [3;2;1;0]) (-1) 1);
  (*1947*) AddTo (T 472) (Plain (Einsum [(n_v'bbbb'ovov,[0;1;2;3]); (T 471,[4;5;3;1])] [0;5;2;4]));
  (*1948*) AddTo n_t3new_babbab (Times (Einsum [(T 472,[0;1;2;3]); (n_t3'babbab,[0;4;2;5;6;7])] [1;4;3;5;6;7]) (2) 1);
  (*1949*) Del (T 472);
  (*1950*) Assign (T 473) (Plain (Zeros [6;6;6;7]));
  (*1951*) AddTo (T 473) (Plain (Einsum [(n_v'bbbb'ooov,[0;1;2;3])] [0;1;2;3]));
  (*1952*) AddTo (T 473) (Plain (Einsum [(T 186,[0;1;2;3])] [1;0;2;3]));
  (*1953*) Assign (T 474) (Plain (Zeros [6;6;6;7]));
  (*1954*) AddTo (T 474) (Times (Einsum [(n_t2'bbbb,[0;1;2;3]); (T 19,[4;5;1;3])] [4;5;0;2]) (2) 1);
  (*1955*) Assign (T 475) (Plain (Zeros [6;6;6;7]));
  (*1956*) AddTo (T 475) (Times (Einsum [(n_t2'bbbb,[0;1;2;3]); (T 191,[4;5;1;3])] [4;5;0;2]) (2) 1);
  (*1957*) Assign (T 476) (Plain (Zeros [6;6;6;7]));
  (*1958*) AddTo (T 476) (Plain (Einsum [(n_v'bbbb'ooov,[0;1;2;3])] [0;1;2;3]));
  (*1959*) AddTo (T 476) (Plain (Einsum [(T 2,[0;1;2;3])] [0;2;1;3]));
  (*1960*) Assign (T 477) (Plain (Zeros [6;6;6;6]));
  (*1961*) AddTo (T 477) (Plain (Einsum [(n_t1'bb,[0;1]); (T 476,[2;3;4;1])] [2;3;4;0]));
  (*1962*) Del (T 476);
  (*1963*) Assign (T 478) (Plain (Zeros [6;6;6;7]));
  (*1964*) AddTo (T 478) (Plain (Einsum [(n_t1'bb,[0;1]); (T 477,[2;0;3;4])] [4;2;3;1]));
  (*1965*) Assign (T 479) (Plain (Zeros [6;6;6;7]));
  (*1966*) AddTo (T 479) (Plain (Einsum [(T 187,[0;1;2;3])] [0;2;1;3]));
  (*1967*) AddTo (T 479) (Times (Einsum [(T 188,[0;1;2;3])] [0;2;1;3]) (-1) 1);
  (*1968*) AddTo (T 479) (Times (Einsum [(T 474,[0;1;2;3])] [2;1;0;3]) (-1) 1);
  (*1969*) Del (T 474);
  (*1970*) AddTo (T 479) (Times (Einsum [(T 475,[0;1;2;3])] [0;1;2;3]) (-1) 1);
  (*1971*) Del (T 475);
  (*1972*) AddTo (T 479) (Times (Einsum [(T 194,[0;1;2;3])] [2;1;0;3]) (-1) 1);
  (*1973*) Del (T 194);
  (*1974*) AddTo (T 479) (Plain (Einsum [(T 478,[0;1;2;3])] [0;2;1;3]));
  (*1975*) Del (T 478);
  (*1976*) Assign (T 480) (Plain (Zeros [6;6;6;6]));
  (*1977*) AddTo (T 480) (Times (Einsum [(T 211,[0;1;2;3])] [1;0;3;2]) (2) 1);
  (*1978*) AddTo (T 480) (Times (Einsum [(n_v'bbbb'oooo,[0;1;2;3])] [0;2;3;1]) (-1) 1);
  (*1979*) AddTo (T 480) (Plain (Einsum [(n_v'bbbb'oooo,[0;1;2;3])] [0;2;1;3]));
  (*1980*) Assign (T 481) (Plain (Zeros [6;6;6;7]));
  (*1981*) AddTo (T 481) (Plain (Einsum [(n_t1'bb,[0;1]); (T 480,[2;3;0;4])] [2;3;4;1]));
  (*1982*) Assign (T 482) (Plain (Zeros [6;6;6;7]));
  (*1983*) AddTo (T 482) (Plain (Einsum [(T 473,[0;1;2;3])] [0;1;2;3]));
  (*1984*) AddTo (T 482) (Times (Einsum [(T 473,[0;1;2;3])] [0;2;1;3]) (-1) 1);
  (*1985*) Del (T 473);
  (*1986*) AddTo (T 482) (Times (Einsum [(T 479,[0;1;2;3])] [1;0;2;3]) (-1) 1);
  (*1987*) AddTo (T 482) (Plain (Einsum [(T 479,[0;1;2;3])] [1;2;0;3]));
  (*1988*) Del (T 479);
  (*1989*) AddTo (T 482) (Times (Einsum [(T 171,[0;1;2;3])] [0;2;1;3]) (-1) 1);
  (*1990*) AddTo (T 482) (Times (Einsum [(T 481,[0;1;2;3])] [2;1;0;3]) (-1) 1);
  (*1991*) AddTo n_t3new_babbab (Times (Einsum [(n_t2'abab,[0;1;2;3]); (T 482,[1;4;5;6])] [5;0;4;6;2;3]) (-1) 1);
  (*1992*) Del (T 482);
  (*1993*) Assign (T 483) (Plain (Zeros [6;6;6;7]));
  (*1994*) AddTo (T 483) (Times (Einsum [(n_v'bbbb'ooov,[0;1;2;3])] [0;1;2;3]) (1) 2);
  (*1995*) AddTo (T 483) (Times (Einsum [(T 186,[0;1;2;3])] [1;0;2;3]) (1) 2);
  (*1996*) Assign (T 484) (Plain (Zeros [6;6;6;7]));
  (*1997*) AddTo (T 484) (Plain (Einsum [(n_t2'bbbb,[0;1;2;3]); (T 19,[4;5;1;3])] [4;5;0;2]));
  (*1998*) Del (T 19);
  (*1999*) Assign (T 485) (Plain (Zeros [6;6;6;7]));
  (*2000*) AddTo (T 485) (Plain (Einsum [(n_t2'bbbb,[0;1;2;3]); (T 191,[4;5;1;3])] [4;5;0;2]));
  (*2001*) Del (T 191);
  (*2002*) Assign (T 486) (Plain (Zeros [6;6;6;7]));
  (*2003*) AddTo (T 486) (Times (Einsum [(n_t1'bb,[0;1]); (T 193,[2;3;1;4])] [2;3;0;4]) (1) 2);
  (*2004*) Del (T 193);
  (*2005*) Assign (T 487) (Plain (Zeros [6;6;6;7]));
  (*2006*) AddTo (T 487) (Times (Einsum [(n_t1'bb,[0;1]); (T 477,[2;0;3;4])] [4;2;3;1]) (1) 2);
  (*2007*) Del (T 477);
  (*2008*) Assign (T 488) (Plain (Zeros [6;6;6;7]));
  (*2009*) AddTo (T 488) (Times (Einsum [(T 187,[0;1;2;3])] [0;2;1;3]) (1) 2);
  (*2010*) AddTo (T 488) (Times (Einsum [(T 188,[0;1;2;3])] [0;2;1;3]) (-1) 2);
  (*2011*) AddTo (T 488) (Times (Einsum [(T 484,[0;1;2;3])] [2;1;0;3]) (-1) 1);
  (*2012*) Del (T 484);
  (*2013*) AddTo (T 488) (Times (Einsum [(T 485,[0;1;2;3])] [0;1;2;3]) (-1) 1);
  (*2014*) Del (T 485);
  (*2015*) AddTo (T 488) (Times (Einsum [(T 486,[0;1;2;3])] [2;1;0;3]) (-1) 1);
  (*2016*) Del (T 486);
  (*2017*) AddTo (T 488) (Plain (Einsum [(T 487,[0;1;2;3])] [0;2;1;3]));
  (*2018*) Del (T 487);
  (*2019*) Assign (T 489) (Plain (Zeros [6;6;6;7]));
  (*2020*) AddTo (T 489) (Plain (Einsum [(T 483,[0;1;2;3])] [0;1;2;3]));
  (*2021*) AddTo (T 489) (Times (Einsum [(T 483,[0;1;2;3])] [0;2;1;3]) (-1) 1);
  (*2022*) Del (T 483);
  (*2023*) AddTo (T 489) (Times (Einsum [(T 488,[0;1;2;3])] [1;0;2;3]) (-1) 1);
  (*2024*) AddTo (T 489) (Plain (Einsum [(T 488,[0;1;2;3])] [1;2;0;3]));
  (*2025*) Del (T 488);
  (*2026*) AddTo (T 489) (Times (Einsum [(T 10,[0;1]); (n_t2'bbbb,[2;3;4;1])] [0;2;3;4]) (-1) 1);
  (*2027*) AddTo (T 489) (Times (Einsum [(n_t1'bb,[0;1]); (T 480,[2;3;0;4])] [4;3;2;1]) (-1) 2);
  (*2028*) Del (T 480);
  (*2029*) AddTo n_t3new_babbab (Times (Einsum [(n_t2'abab,[0;1;2;3]); (T 489,[1;4;5;6])] [5;0;4;3;2;6]) (2) 1);
  (*2030*) Del (T 489);
  (*2031*) Assign (T 490) (Plain (Zeros [6;6;4;4;4;5]));
  (*2032*) AddTo (T 490) (Plain (Einsum [(n_v'aabb'ovov,[0;1;2;3]); (n_t3'abaaba,[4;5;6;7;3;1])] [5;2;4;6;0;7]));
  (*2033*) Assign (T 491) (Plain (Zeros [6;7;4;4;5;5]));
  (*2034*) AddTo (T 491) (Plain (Einsum [(n_t2'abab,[0;1;2;3]); (T 490,[4;1;5;6;0;7])] [4;3;5;6;2;7]));
  (*2035*) Del (T 490);
  (*2036*) Assign (T 492) (Plain (Zeros [7;7;5;5]));
  (*2037*) AddTo (T 492) (Plain (Einsum [(n_v'aabb'vvvv,[0;1;2;3])] [2;3;0;1]));
  (*2038*) AddTo (T 492) (Times (Einsum [(T 133,[0;1;2;3])] [1;0;3;2]) (-1) 1);
  (*2039*) Del (T 133);
  (*2040*) Assign (T 493) (Plain (Zeros [6;7;4;4;5;5]));
  (*2041*) AddTo (T 493) (Plain (Einsum [(n_t3'abaaba,[0;1;2;3;4;5])] [1;4;0;2;3;5]));
  (*2042*) AddTo (T 493) (Plain (Einsum [(n_t1'bb,[0;1]); (n_t2'aaaa,[2;3;4;5])] [0;1;2;3;4;5]));
  (*2043*) Assign (T 494) (Plain (Zeros [6;7;4;4;5;5]));
  (*2044*) AddTo (T 494) (Times (Einsum [(T 492,[0;1;2;3]); (T 493,[4;0;5;6;2;7])] [4;1;5;6;7;3]) (2) 1);
  (*2045*) Del (T 492);
  (*2046*) Assign (T 495) (Plain (Zeros [6;6;5;5]));
  (*2047*) AddTo (T 495) (Plain (Einsum [(n_v'aabb'vvoo,[0;1;2;3])] [2;3;0;1]));
  (*2048*) AddTo (T 495) (Plain (Einsum [(T 130,[0;1;2;3])] [1;0;3;2]));
  (*2049*) Del (T 130);
  (*2050*) Assign (T 496) (Plain (Zeros [6;7;4;4;5;5]));
  (*2051*) AddTo (T 496) (Times (Einsum [(T 495,[0;1;2;3]); (n_t3'abaaba,[4;0;5;6;7;2])] [1;7;4;5;6;3]) (-2) 1);
  (*2052*) Del (T 495);
  (*2053*) Assign (T 497) (Plain (Zeros [6;7;5;5]));
  (*2054*) AddTo (T 497) (Plain (Einsum [(n_t1'bb,[0;1]); (n_v'aabb'vvoo,[2;3;4;0])] [4;1;2;3]));
  (*2055*) Assign (T 498) (Plain (Zeros [6;7;5;5]));
  (*2056*) AddTo (T 498) (Plain (Einsum [(n_t2'bbbb,[0;1;2;3]); (n_v'aabb'vvov,[4;5;1;3])] [0;2;4;5]));
  (*2057*) Assign (T 499) (Plain (Zeros [6;7;5;5]));
  (*2058*) AddTo (T 499) (Plain (Einsum [(n_t2'abab,[0;1;2;3]); (T 119,[0;2;4;5])] [1;3;4;5]));
  (*2059*) Del (T 119);
  (*2060*) Assign (T 500) (Plain (Zeros [6;7;5;5]));
  (*2061*) AddTo (T 500) (Plain (Einsum [(n_t2'abab,[0;1;2;3]); (T 5,[1;4;0;5])] [4;3;5;2]));
  (*2062*) Assign (T 501) (Plain (Zeros [6;7;5;5]));
  (*2063*) AddTo (T 501) (Plain (Einsum [(n_t2'abab,[0;1;2;3]); (T 105,[3;4;0;5])] [1;4;5;2]));
  (*2064*) Assign (T 502) (Plain (Zeros [6;7;5;5]));
  (*2065*) AddTo (T 502) (Plain (Einsum [(n_v'aabb'vvov,[0;1;2;3])] [2;3;0;1]));
  (*2066*) AddTo (T 502) (Times (Einsum [(T 497,[0;1;2;3])] [0;1;3;2]) (-1) 1);
  (*2067*) Del (T 497);
  (*2068*) AddTo (T 502) (Times (Einsum [(T 498,[0;1;2;3])] [0;1;3;2]) (2) 1);
  (*2069*) Del (T 498);
  (*2070*) AddTo (T 502) (Times (Einsum [(T 325,[0;1;2;3])] [0;1;3;2]) (-2) 1);
  (*2071*) Del (T 325);
  (*2072*) AddTo (T 502) (Times (Einsum [(T 326,[0;1;2;3])] [0;1;3;2]) (-2) 1);
  (*2073*) Del (T 326);
  (*2074*) AddTo (T 502) (Times (Einsum [(T 499,[0;1;2;3])] [0;1;3;2]) (-1) 1);
  (*2075*) Del (T 499);
  (*2076*) AddTo (T 502) (Plain (Einsum [(T 500,[0;1;2;3])] [0;1;2;3]));
  (*2077*) Del (T 500);
  (*2078*) AddTo (T 502) (Times (Einsum [(T 501,[0;1;2;3])] [0;1;2;3]) (-1) 1);
  (*2079*) Del (T 501);
  (*2080*) Assign (T 503) (Plain (Zeros [6;7;4;4;5;5]));
  (*2081*) AddTo (T 503) (Times (Einsum [(n_t2'aaaa,[0;1;2;3]); (T 502,[4;5;3;6])] [4;5;0;1;2;6]) (-2) 1);
  (*2082*) Del (T 502);
  (*2083*) Assign (T 504) (Plain (Zeros [6;6;5;5]));
  (*2084*) AddTo (T 504) (Plain (Einsum [(n_v'aabb'ovov,[0;1;2;3]); (T 385,[4;3;0;5])] [2;4;1;5]));
  (*2085*) Del (T 385);
  (*2086*) Assign (T 505) (Plain (Zeros [6;6;5;5]));
  (*2087*) AddTo (T 505) (Times (Einsum [(T 345,[0;1;2;3])] [1;0;2;3]) (99999999999999) 100000000000000);
  (*2088*) Del (T 345);
  (*2089*) AddTo (T 505) (Plain (Einsum [(T 504,[0;1;2;3])] [0;1;3;2]));
  (*2090*) Del (T 504);
  (*2091*) Assign (T 506) (Plain (Zeros [6;7;4;4;5;5]));
  (*2092*) AddTo (T 506) (Times (Einsum [(T 505,[0;1;2;3]); (n_t3'abaaba,[4;0;5;6;7;3])] [1;7;4;5;6;2]) (-100000000000001) 50000000000000);
  (*2093*) Del (T 505);
  (*2094*) Assign (T 507) (Plain (Zeros [5;5]));
  (*2095*) AddTo (T 507) (Times (Einsum [(n_f'aa'vv,[0;1])] [0;1]) (-1) 1);
  (*2096*) AddTo (T 507) (Plain (Einsum [(T 73,[0;1])] [0;1]));
  (*2097*) Del (T 73);
  (*2098*) AddTo (T 507) (Times (Einsum [(T 74,[0;1])] [0;1]) (2) 1);
  (*2099*) Del (T 74);
  (*2100*) AddTo (T 507) (Plain (Einsum [(T 140,[0;1])] [1;0]));
  (*2101*) Del (T 140);
  (*2102*) Assign (T 508) (Plain (Zeros [6;7;4;4;5;5]));
  (*2103*) AddTo (T 508) (Times (Einsum [(T 507,[0;1]); (n_t3'abaaba,[2;3;4;5;6;1])] [3;6;2;4;5;0]) (-2) 1);
  (*2104*) Del (T 507);
  (*2105*) Assign (T 509) (Plain (Zeros [6;7;4;4;5;5]));
  (*2106*) AddTo (T 509) (Times (Einsum [(T 256,[0;1]); (n_t3'abaaba,[2;3;4;5;6;0])] [3;6;2;4;5;1]) (-2) 1);
  (*2107*) Del (T 256);
  (*2108*) Assign (T 510) (Plain (Zeros [6;7;4;4;4;5]));
  (*2109*) AddTo (T 510) (Plain (Einsum [(n_v'aaaa'ovvv,[0;1;2;3]); (n_t3'abaaba,[4;5;6;1;7;3])] [5;7;4;6;0;2]));
  (*2110*) Assign (T 511) (Plain (Zeros [6;7;4;4;4;5]));
  (*2111*) AddTo (T 511) (Plain (Einsum [(T 105,[0;1;2;3]); (T 493,[4;0;5;6;3;7])] [4;1;2;5;6;7]));
  (*2112*) Del (T 493);
  (*2113*) Assign (T 512) (Plain (Zeros [6;7;4;5]));
  (*2114*) AddTo (T 512) (Plain (Einsum [(n_t1'bb,[0;1]); (n_v'aabb'ovoo,[2;3;4;0])] [4;1;2;3]));
  (*2115*) Assign (T 513) (Plain (Zeros [6;7;4;5]));
  (*2116*) AddTo (T 513) (Plain (Einsum [(n_t2'bbbb,[0;1;2;3]); (n_v'aabb'ovov,[4;5;1;3])] [0;2;4;5]));
  (*2117*) Assign (T 514) (Plain (Zeros [6;7;4;5]));
  (*2118*) AddTo (T 514) (Plain (Einsum [(n_v'aabb'ovov,[0;1;2;3])] [2;3;0;1]));
  (*2119*) AddTo (T 514) (Times (Einsum [(T 512,[0;1;2;3])] [0;1;2;3]) (-1) 1);
  (*2120*) AddTo (T 514) (Times (Einsum [(T 513,[0;1;2;3])] [0;1;2;3]) (2) 1);
  (*2121*) Del (T 513);
  (*2122*) AddTo (T 514) (Times (Einsum [(T 164,[0;1;2;3])] [0;1;2;3]) (-1) 1);
  (*2123*) Del (T 164);
  (*2124*) Assign (T 515) (Plain (Zeros [6;7;4;4;4;5]));
  (*2125*) AddTo (T 515) (Times (Einsum [(n_t2'aaaa,[0;1;2;3]); (T 514,[4;5;6;3])] [4;5;0;1;6;2]) (-1) 1);
  (*2126*) Del (T 514);
  (*2127*) Assign (T 516) (Plain (Zeros [6;7;4;4;4;5]));
  (*2128*) AddTo (T 516) (Plain (Einsum [(T 510,[0;1;2;3;4;5])] [0;1;3;2;4;5]));
  (*2129*) Del (T 510);
  (*2130*) AddTo (T 516) (Plain (Einsum [(T 511,[0;1;2;3;4;5])] [0;1;4;3;2;5]));
  (*2131*) Del (T 511);
  (*2132*) AddTo (T 516) (Plain (Einsum [(T 515,[0;1;2;3;4;5])] [0;1;3;2;4;5]));
  (*2133*) Del (T 515);
  (*2134*) Assign (T 517) (Plain (Zeros [6;7;4;4;5;5]));
  (*2135*) AddTo (T 517) (Times (Einsum [(n_t1'aa,[0;1]); (T 516,[2;3;4;5;0;6])] [2;3;4;5;6;1]) (2) 1);
  (*2136*) Del (T 516);
  (*2137*) Assign (T 518) (Plain (Zeros [4;4;4;5]));
  (*2138*) AddTo (T 518) (Times (Einsum [(T 78,[0;1;2;3])] [1;0;2;3]) (-1) 1);
  (*2139*) Del (T 78);
  (*2140*) AddTo (T 518) (Times (Einsum [(T 79,[0;1;2;3])] [0;1;2;3]) (-1) 1);
  (*2141*) Del (T 79);
  (*2142*) AddTo (T 518) (Times (Einsum [(T 80,[0;1;2;3])] [0;1;2;3]) (-3) 1);
  (*2143*) Del (T 80);
  (*2144*) Assign (T 519) (Plain (Zeros [6;7;4;4;5;5]));
  (*2145*) AddTo (T 519) (Times (Einsum [(n_t2'abab,[0;1;2;3]); (T 518,[4;5;0;6])] [1;3;4;5;6;2]) (2) 1);
  (*2146*) Del (T 518);
  (*2147*) Assign (T 520) (Plain (Zeros [6;7;4;4;5;5]));
  (*2148*) AddTo (T 520) (Times (Einsum [(T 491,[0;1;2;3;4;5])] [0;1;3;2;4;5]) (-2) 1);
  (*2149*) Del (T 491);
  (*2150*) AddTo (T 520) (Times (Einsum [(T 494,[0;1;2;3;4;5])] [0;1;3;2;4;5]) (-1) 1);
  (*2151*) Del (T 494);
  (*2152*) AddTo (T 520) (Plain (Einsum [(T 496,[0;1;2;3;4;5])] [0;1;3;2;4;5]));
  (*2153*) Del (T 496);
  (*2154*) AddTo (T 520) (Times (Einsum [(T 503,[0;1;2;3;4;5])] [0;1;3;2;4;5]) (-1) 1);
  (*2155*) Del (T 503);
  (*2156*) AddTo (T 520) (Plain (Einsum [(T 506,[0;1;2;3;4;5])] [0;1;3;2;5;4]));
  (*2157*) Del (T 506);
  (*2158*) AddTo (T 520) (Times (Einsum [(T 508,[0;1;2;3;4;5])] [0;1;3;2;5;4]) (-1) 1);
  (*2159*) Del (T 508);
  (*2160*) AddTo (T 520) (Times (Einsum [(T 509,[0;1;2;3;4;5])] [0;1;3;2;4;5]) (-1) 1);
  (*2161*) Del (T 509);
  (*2162*) AddTo (T 520) (Plain (Einsum [(T 517,[0;1;2;3;4;5])] [0;1;3;2;5;4]));
  (*2163*) Del (T 517);
  (*2164*) AddTo (T 520) (Times (Einsum [(T 519,[0;1;2;3;4;5])] [0;1;3;2;5;4]) (-1) 1);
  (*2165*) Del (T 519);
  (*2166*) AddTo n_t3new_abaaba (Plain (Einsum [(T 520,[0;1;2;3;4;5])] [3;0;2;4;1;5]));
  (*2167*) AddTo n_t3new_abaaba (Times (Einsum [(T 520,[0;1;2;3;4;5])] [3;0;2;5;1;4]) (-1) 1);
  (*2168*) Del (T 520);
  (*2169*) Assign (T 521) (Plain (Zeros [6;7;4;4;5;5]));
  (*2170*) AddTo (T 521) (Plain (Einsum [(n_v'aabb'ovov,[0;1;2;3]); (n_t3'babbab,[4;5;2;6;7;3])] [4;6;5;0;7;1]));
  (*2171*) Assign (T 522) (Plain (Zeros [6;7;4;4;5;5]));
  (*2172*) AddTo (T 522) (Plain (Einsum [(n_t2'abab,[0;1;2;3]); (T 65,[4;5;2;6])] [1;3;4;0;6;5]));
  (*2173*) Del (T 65);
  (*2174*) Assign (T 523) (Plain (Zeros [6;6;4;5]));
  (*2175*) AddTo (T 523) (Plain (Einsum [(n_t2'abab,[0;1;2;3]); (n_v'aabb'ooov,[4;0;5;3])] [1;5;4;2]));
  (*2176*) Assign (T 524) (Plain (Zeros [6;7;4;4;5;5]));
  (*2177*) AddTo (T 524) (Plain (Einsum [(n_t2'abab,[0;1;2;3]); (T 523,[4;1;5;6])] [4;3;0;5;6;2]));
  (*2178*) Del (T 523);
  (*2179*) Assign (T 525) (Plain (Zeros [6;7;4;4;5;5]));
  (*2180*) AddTo (T 525) (Plain (Einsum [(T 39,[0;1;2;3]); (n_t3'babbab,[4;5;0;6;7;1])] [4;6;2;5;7;3]));
  (*2181*) Assign (T 526) (Plain (Zeros [6;6;4;5]));
  (*2182*) AddTo (T 526) (Plain (Einsum [(n_t2'abab,[0;1;2;3]); (T 24,[4;3;5;0])] [1;4;5;2]));
  (*2183*) Assign (T 527) (Plain (Zeros [6;7;4;4;5;5]));
  (*2184*) AddTo (T 527) (Plain (Einsum [(n_t2'abab,[0;1;2;3]); (T 526,[4;1;5;6])] [4;3;5;0;6;2]));
  (*2185*) Del (T 526);
  (*2186*) Assign (T 528) (Plain (Zeros [4;4;5;5]));
  (*2187*) AddTo (T 528) (Times (Einsum [(n_t2'aaaa,[0;1;2;3])] [0;1;2;3]) (100000000000001) 50000000000000);
  (*2188*) AddTo (T 528) (Times (Einsum [(n_t1'aa,[0;1]); (n_t1'aa,[2;3])] [0;2;3;1]) (-1) 1);
  (*2189*) Assign (T 529) (Plain (Zeros [4;4;5;5]));
  (*2190*) AddTo (T 529) (Plain (Einsum [(T 528,[0;1;2;3]); (T 69,[0;4;5;2])] [4;1;5;3]));
  (*2191*) Del (T 69);
  (*2191*) Del (T 528);
  (*2192*) Assign (T 530) (Plain (Zeros [4;4;5;5]));
  (*2193*) AddTo (T 530) (Times (Einsum [(T 226,[0;1;2;3])] [0;1;2;3]) (100000000000001) 100000000000000);
  (*2194*) AddTo (T 530) (Times (Einsum [(T 529,[0;1;2;3])] [1;0;3;2]) (-1) 1);
  (*2195*) Del (T 529);
  (*2196*) Assign (T 531) (Plain (Zeros [6;7;4;4;5;5]));
  (*2197*) AddTo (T 531) (Times (Einsum [(T 530,[0;1;2;3]); (n_t3'abaaba,[4;5;1;6;7;3])] [5;7;4;0;6;2]) (2) 1);
  (*2198*) Del (T 530);
  (*2199*) Assign (T 532) (Plain (Zeros [6;7;4;5]));
  (*2200*) AddTo (T 532) (Times (Einsum [(n_v'aabb'ovov,[0;1;2;3]); (T 272,[0;4;1;5])] [2;3;4;5]) (2) 1);
  (*2201*) Del (T 272);
  (*2202*) Assign (T 533) (Plain (Zeros [6;7;4;5]));
  (*2203*) AddTo (T 533) (Times (Einsum [(T 62,[0;1;2;3])] [0;1;2;3]) (-1) 1);
  (*2204*) Del (T 62);
  (*2205*) AddTo (T 533) (Plain (Einsum [(T 532,[0;1;2;3])] [0;1;2;3]));
  (*2206*) Del (T 532);
  (*2207*) Assign (T 534) (Plain (Zeros [6;7;4;4;5;5]));
  (*2208*) AddTo (T 534) (Times (Einsum [(T 533,[0;1;2;3]); (n_t3'babbab,[4;5;0;6;7;1])] [4;6;2;5;3;7]) (100000000000001) 50000000000000);
  (*2209*) Del (T 533);
  (*2210*) Assign (T 535) (Plain (Zeros [6;7;4;4;5;5]));
  (*2211*) AddTo (T 535) (Plain (Einsum [(n_t3'abaaba,[0;1;2;3;4;5])] [1;4;0;2;3;5]));
  (*2212*) AddTo (T 535) (Times (Einsum [(n_t1'aa,[0;1]); (n_t2'abab,[2;3;4;5])] [3;5;0;2;4;1]) (-1) 2);
  (*2213*) Assign (T 536) (Plain (Zeros [6;7;4;4;5;5]));
  (*2214*) AddTo (T 536) (Times (Einsum [(T 29,[0;1;2;3]); (T 535,[4;5;0;6;2;7])] [4;5;1;6;3;7]) (2) 1);
  (*2215*) Del (T 29);
  (*2215*) Del (T 535);
  (*2216*) Assign (T 537) (Plain (Zeros [6;7;4;4;5;5]));
  (*2217*) AddTo (T 537) (Times (Einsum [(n_t3'abaaba,[0;1;2;3;4;5])] [1;4;0;2;3;5]) (2) 1);
  (*2218*) AddTo (T 537) (Times (Einsum [(n_t1'aa,[0;1]); (n_t2'abab,[2;3;4;5])] [3;5;0;2;4;1]) (-1) 1);
  (*2219*) Assign (T 538) (Plain (Zeros [6;7;4;4;5;5]));
  (*2220*) AddTo (T 538) (Times (Einsum [(T 47,[0;1;2;3]); (T 537,[4;5;0;6;3;7])] [4;5;1;6;2;7]) (-1) 1);
  (*2221*) Del (T 47);
  (*2221*) Del (T 537);
  (*2222*) Assign (T 539) (Plain (Zeros [7;7;4;5]));
  (*2223*) AddTo (T 539) (Plain (Einsum [(n_t2'abab,[0;1;2;3]); (n_v'aabb'ooov,[4;0;1;5])] [3;5;4;2]));
  (*2224*) Assign (T 540) (Plain (Zeros [7;7;4;5]));
  (*2225*) AddTo (T 540) (Plain (Einsum [(n_t2'abab,[0;1;2;3]); (n_v'aabb'vvov,[4;2;1;5])] [3;5;0;4]));
  (*2226*) Assign (T 541) (Plain (Zeros [6;7;7;7]));
  (*2227*) AddTo (T 541) (Times (Einsum [(n_v'bbbb'ovvv,[0;1;2;3])] [0;1;2;3]) (-1) 1);
  (*2228*) AddTo (T 541) (Plain (Einsum [(n_v'bbbb'ovvv,[0;1;2;3])] [0;2;1;3]));
  (*2229*) AddTo (T 541) (Plain (Einsum [(T 108,[0;1;2;3])] [0;2;3;1]));
  (*2230*) AddTo (T 541) (Times (Einsum [(T 108,[0;1;2;3])] [0;3;2;1]) (-1) 1);
  (*2231*) Del (T 108);
  (*2232*) Assign (T 542) (Plain (Zeros [7;7;4;5]));
  (*2233*) AddTo (T 542) (Plain (Einsum [(n_t2'abab,[0;1;2;3]); (T 541,[1;4;3;5])] [4;5;0;2]));
  (*2234*) Del (T 541);
  (*2235*) Assign (T 543) (Plain (Zeros [7;7;4;5]));
  (*2236*) AddTo (T 543) (Plain (Einsum [(n_v'aabb'ovvv,[0;1;2;3])] [2;3;0;1]));
  (*2237*) AddTo (T 543) (Times (Einsum [(T 104,[0;1;2;3])] [0;1;2;3]) (-1) 1);
  (*2238*) Assign (T 544) (Plain (Zeros [7;7;4;5]));
  (*2239*) AddTo (T 544) (Times (Einsum [(n_t2'aaaa,[0;1;2;3]); (T 543,[4;5;1;3])] [4;5;0;2]) (2) 1);
  (*2240*) Del (T 543);
  (*2241*) Assign (T 545) (Plain (Zeros [7;7;4;5]));
  (*2242*) AddTo (T 545) (Plain (Einsum [(T 10,[0;1]); (n_t2'abab,[2;0;3;4])] [1;4;2;3]));
  (*2243*) Del (T 10);
  (*2244*) Assign (T 546) (Plain (Zeros [7;7;4;5]));
  (*2245*) AddTo (T 546) (Times (Einsum [(n_v'aabb'ovvv,[0;1;2;3])] [2;3;0;1]) (-1) 1);
  (*2246*) AddTo (T 546) (Plain (Einsum [(T 104,[0;1;2;3])] [1;0;2;3]));
  (*2247*) Del (T 104);
  (*2248*) AddTo (T 546) (Times (Einsum [(T 539,[0;1;2;3])] [1;0;2;3]) (-1) 1);
  (*2249*) Del (T 539);
  (*2250*) AddTo (T 546) (Plain (Einsum [(T 540,[0;1;2;3])] [1;0;2;3]));
  (*2251*) Del (T 540);
  (*2252*) AddTo (T 546) (Times (Einsum [(T 456,[0;1;2;3])] [1;0;2;3]) (2) 1);
  (*2253*) Del (T 456);
  (*2254*) AddTo (T 546) (Times (Einsum [(T 430,[0;1;2;3])] [1;0;2;3]) (2) 1);
  (*2255*) Del (T 430);
  (*2256*) AddTo (T 546) (Times (Einsum [(T 542,[0;1;2;3])] [0;1;2;3]) (-1) 1);
  (*2257*) Del (T 542);
  (*2258*) AddTo (T 546) (Times (Einsum [(T 544,[0;1;2;3])] [1;0;2;3]) (-1) 1);
  (*2259*) Del (T 544);
  (*2260*) AddTo (T 546) (Plain (Einsum [(T 545,[0;1;2;3])] [0;1;2;3]));
  (*2261*) Del (T 545);
  (*2262*) Assign (T 547) (Plain (Zeros [6;7;4;4;5;5]));
  (*2263*) AddTo (T 547) (Plain (Einsum [(n_t2'abab,[0;1;2;3]); (T 546,[3;4;5;6])] [1;4;5;0;6;2]));
  (*2264*) Del (T 546);
  (*2265*) Assign (T 548) (Plain (Zeros [4;5;5;5]));
  (*2266*) AddTo (T 548) (Times (Einsum [(n_v'aaaa'ovvv,[0;1;2;3])] [0;1;2;3]) (-1) 1);
  (*2267*) AddTo (T 548) (Plain (Einsum [(n_v'aaaa'ovvv,[0;1;2;3])] [0;2;1;3]));
  (*2268*) Assign (T 549) (Plain (Zeros [4;5;5;5]));
  (*2269*) AddTo (T 549) (Times (Einsum [(n_t2'aaaa,[0;1;2;3]); (T 548,[1;3;4;5])] [0;2;4;5]) (2) 1);
  (*2270*) Del (T 548);
  (*2271*) Assign (T 550) (Plain (Zeros [4;4;5;5]));
  (*2272*) AddTo (T 550) (Plain (Einsum [(n_t1'aa,[0;1]); (n_v'aaaa'ooov,[2;3;0;4])] [2;3;1;4]));
  (*2273*) Assign (T 551) (Plain (Zeros [4;4;5;5]));
  (*2274*) AddTo (T 551) (Plain (Einsum [(T 550,[0;1;2;3])] [1;0;2;3]));
  (*2275*) Del (T 550);
  (*2276*) AddTo (T 551) (Plain (Einsum [(T 226,[0;1;2;3])] [0;1;2;3]));
  (*2277*) Del (T 226);
  (*2278*) AddTo (T 551) (Times (Einsum [(T 227,[0;1;2;3])] [0;1;2;3]) (-1) 1);
  (*2279*) Del (T 227);
  (*2280*) Assign (T 552) (Plain (Zeros [4;5;5;5]));
  (*2281*) AddTo (T 552) (Plain (Einsum [(n_t1'aa,[0;1]); (T 551,[2;0;3;4])] [2;3;4;1]));
  (*2282*) Del (T 551);
  (*2283*) Assign (T 553) (Plain (Zeros [4;5;5;5]));
  (*2284*) AddTo (T 553) (Plain (Einsum [(n_v'aaaa'ovvv,[0;1;2;3])] [0;1;2;3]));
  (*2285*) AddTo (T 553) (Plain (Einsum [(T 220,[0;1;2;3])] [0;1;3;2]));
  (*2286*) Del (T 220);
  (*2287*) AddTo (T 553) (Times (Einsum [(T 549,[0;1;2;3])] [0;1;3;2]) (-1) 1);
  (*2288*) Del (T 549);
  (*2289*) AddTo (T 553) (Plain (Einsum [(T 552,[0;1;2;3])] [0;3;1;2]));
  (*2290*) Del (T 552);
  (*2291*) Assign (T 554) (Plain (Zeros [6;7;4;4;5;5]));
  (*2292*) AddTo (T 554) (Plain (Einsum [(n_t2'abab,[0;1;2;3]); (T 553,[4;5;6;2])] [1;3;4;0;5;6]));
  (*2293*) Del (T 553);
  (*2294*) Assign (T 555) (Plain (Zeros [6;7;4;4;4;5]));
  (*2295*) AddTo (T 555) (Plain (Einsum [(n_v'aabb'ooov,[0;1;2;3]); (n_t3'babbab,[4;5;2;6;7;3])] [4;6;5;0;1;7]));
  (*2296*) Assign (T 556) (Plain (Zeros [6;7;4;4;4;4]));
  (*2297*) AddTo (T 556) (Plain (Einsum [(n_t2'abab,[0;1;2;3]); (T 26,[4;5;6;2])] [1;3;4;0;6;5]));
  (*2298*) Assign (T 557) (Plain (Zeros [6;7;4;4;4;5]));
  (*2299*) AddTo (T 557) (Plain (Einsum [(n_t1'aa,[0;1]); (T 556,[2;3;4;5;6;0])] [2;3;4;5;6;1]));
  (*2300*) Del (T 556);
  (*2301*) Assign (T 558) (Plain (Zeros [4;4;4;5]));
  (*2302*) AddTo (T 558) (Plain (Einsum [(n_v'aaaa'ooov,[0;1;2;3])] [0;1;2;3]));
  (*2303*) AddTo (T 558) (Times (Einsum [(n_v'aaaa'ooov,[0;1;2;3])] [2;0;1;3]) (-1) 1);
  (*2304*) Assign (T 559) (Plain (Zeros [6;7;4;4;4;5]));
  (*2305*) AddTo (T 559) (Times (Einsum [(T 558,[0;1;2;3]); (n_t3'abaaba,[4;5;0;6;7;3])] [5;7;4;1;2;6]) (2) 1);
  (*2306*) Del (T 558);
  (*2307*) Assign (T 560) (Plain (Zeros [7;7;4;4]));
  (*2308*) AddTo (T 560) (Plain (Einsum [(n_t2'abab,[0;1;2;3]); (n_v'aabb'ovov,[4;2;1;5])] [3;5;0;4]));
  (*2309*) Assign (T 561) (Plain (Zeros [7;7;4;4]));
  (*2310*) AddTo (T 561) (Times (Einsum [(n_v'aabb'oovv,[0;1;2;3])] [2;3;0;1]) (-1) 1);
  (*2311*) AddTo (T 561) (Plain (Einsum [(T 122,[0;1;2;3])] [1;0;3;2]));
  (*2312*) AddTo (T 561) (Plain (Einsum [(T 560,[0;1;2;3])] [1;0;3;2]));
  (*2313*) Del (T 560);
  (*2314*) Assign (T 562) (Plain (Zeros [6;7;4;4;4;5]));
  (*2315*) AddTo (T 562) (Plain (Einsum [(n_t2'abab,[0;1;2;3]); (T 561,[3;4;5;6])] [1;4;5;6;0;2]));
  (*2316*) Del (T 561);
  (*2317*) Assign (T 563) (Plain (Zeros [6;6;4;4]));
  (*2318*) AddTo (T 563) (Plain (Einsum [(T 137,[0;1;2;3])] [1;0;2;3]));
  (*2319*) AddTo (T 563) (Plain (Einsum [(T 138,[0;1;2;3])] [1;0;2;3]));
  (*2320*) Del (T 138);
  (*2321*) Assign (T 564) (Plain (Zeros [6;7;4;4;4;5]));
  (*2322*) AddTo (T 564) (Plain (Einsum [(n_t2'abab,[0;1;2;3]); (T 563,[1;4;5;6])] [4;3;5;6;0;2]));
  (*2323*) Assign (T 565) (Plain (Zeros [7;7;4;4]));
  (*2324*) AddTo (T 565) (Plain (Einsum [(n_t1'bb,[0;1]); (T 24,[0;2;3;4])] [1;2;3;4]));
  (*2325*) Assign (T 566) (Plain (Zeros [7;7;4;4]));
  (*2326*) AddTo (T 566) (Plain (Einsum [(T 123,[0;1;2;3])] [1;0;2;3]));
  (*2327*) AddTo (T 566) (Times (Einsum [(T 565,[0;1;2;3])] [1;0;2;3]) (-1) 1);
  (*2328*) Del (T 565);
  (*2329*) Assign (T 567) (Plain (Zeros [6;7;4;4;4;5]));
  (*2330*) AddTo (T 567) (Plain (Einsum [(n_t2'abab,[0;1;2;3]); (T 566,[3;4;5;6])] [1;4;5;6;0;2]));
  (*2331*) Del (T 566);
  (*2332*) Assign (T 568) (Plain (Zeros [6;6;4;4]));
  (*2333*) AddTo (T 568) (Plain (Einsum [(n_v'aabb'oooo,[0;1;2;3])] [2;3;0;1]));
  (*2334*) AddTo (T 568) (Plain (Einsum [(T 136,[0;1;2;3])] [1;0;3;2]));
  (*2335*) Del (T 136);
  (*2336*) Assign (T 569) (Plain (Zeros [6;7;4;4;4;5]));
  (*2337*) AddTo (T 569) (Plain (Einsum [(n_t2'abab,[0;1;2;3]); (T 568,[1;4;5;6])] [4;3;5;6;0;2]));
  (*2338*) Assign (T 570) (Plain (Zeros [6;7;4;4;4;5]));
  (*2339*) AddTo (T 570) (Times (Einsum [(T 555,[0;1;2;3;4;5])] [0;1;2;4;3;5]) (2) 1);
  (*2340*) Del (T 555);
  (*2341*) AddTo (T 570) (Plain (Einsum [(T 557,[0;1;2;3;4;5])] [0;1;2;3;4;5]));
  (*2342*) Del (T 557);
  (*2343*) AddTo (T 570) (Times (Einsum [(T 559,[0;1;2;3;4;5])] [0;1;2;3;4;5]) (-1) 1);
  (*2344*) Del (T 559);
  (*2345*) AddTo (T 570) (Times (Einsum [(T 562,[0;1;2;3;4;5])] [0;1;4;3;2;5]) (-1) 1);
  (*2346*) Del (T 562);
  (*2347*) AddTo (T 570) (Plain (Einsum [(T 564,[0;1;2;3;4;5])] [0;1;2;4;3;5]));
  (*2348*) Del (T 564);
  (*2349*) AddTo (T 570) (Times (Einsum [(T 567,[0;1;2;3;4;5])] [0;1;2;4;3;5]) (-1) 1);
  (*2350*) Del (T 567);
  (*2351*) AddTo (T 570) (Times (Einsum [(T 569,[0;1;2;3;4;5])] [0;1;4;3;2;5]) (-1) 1);
  (*2352*) Del (T 569);
  (*2353*) Assign (T 571) (Plain (Zeros [6;7;4;4;5;5]));
  (*2354*) AddTo (T 571) (Plain (Einsum [(n_t1'aa,[0;1]); (T 570,[2;3;4;5;0;6])] [2;3;4;5;6;1]));
  (*2355*) Del (T 570);
  (*2356*) Assign (T 572) (Plain (Zeros [6;6;6;7]));
  (*2357*) AddTo (T 572) (Times (Einsum [(n_v'bbbb'ooov,[0;1;2;3])] [0;1;2;3]) (-1) 1);
  (*2358*) AddTo (T 572) (Plain (Einsum [(n_v'bbbb'ooov,[0;1;2;3])] [0;2;1;3]));
  (*2359*) AddTo (T 572) (Plain (Einsum [(T 2,[0;1;2;3])] [0;1;2;3]));
  (*2360*) AddTo (T 572) (Times (Einsum [(T 2,[0;1;2;3])] [0;2;1;3]) (-1) 1);
  (*2361*) Assign (T 573) (Plain (Zeros [6;6;4;5]));
  (*2362*) AddTo (T 573) (Plain (Einsum [(n_t2'abab,[0;1;2;3]); (T 572,[4;5;1;3])] [4;5;0;2]));
  (*2363*) Del (T 572);
  (*2364*) Assign (T 574) (Plain (Zeros [6;6;4;5]));
  (*2365*) AddTo (T 574) (Times (Einsum [(n_t2'aaaa,[0;1;2;3]); (T 131,[4;5;1;3])] [4;5;0;2]) (2) 1);
  (*2366*) Del (T 131);
  (*2367*) Assign (T 575) (Plain (Zeros [6;6;4;5]));
  (*2368*) AddTo (T 575) (Plain (Einsum [(n_v'aabb'ovoo,[0;1;2;3])] [2;3;0;1]));
  (*2369*) AddTo (T 575) (Plain (Einsum [(T 4,[0;1;2;3])] [1;0;2;3]));
  (*2370*) Del (T 4);
  (*2371*) AddTo (T 575) (Times (Einsum [(T 392,[0;1;2;3])] [1;0;2;3]) (2) 1);
  (*2372*) Del (T 392);
  (*2373*) AddTo (T 575) (Times (Einsum [(T 393,[0;1;2;3])] [1;0;2;3]) (2) 1);
  (*2374*) Del (T 393);
  (*2375*) AddTo (T 575) (Times (Einsum [(T 573,[0;1;2;3])] [1;0;2;3]) (-1) 1);
  (*2376*) Del (T 573);
  (*2377*) AddTo (T 575) (Plain (Einsum [(T 574,[0;1;2;3])] [1;0;2;3]));
  (*2378*) Del (T 574);
  (*2379*) Assign (T 576) (Plain (Zeros [6;7;4;4;5;5]));
  (*2380*) AddTo (T 576) (Plain (Einsum [(n_t2'abab,[0;1;2;3]); (T 575,[1;4;5;6])] [4;3;5;0;6;2]));
  (*2381*) Del (T 575);
  (*2382*) Assign (T 577) (Plain (Zeros [7;7;4;5]));
  (*2383*) AddTo (T 577) (Plain (Einsum [(n_t1'bb,[0;1]); (T 39,[0;2;3;4])] [1;2;3;4]));
  (*2384*) Del (T 39);
  (*2385*) Assign (T 578) (Plain (Zeros [7;7;4;5]));
  (*2386*) AddTo (T 578) (Plain (Einsum [(n_t2'abab,[0;1;2;3]); (T 24,[1;4;5;0])] [3;4;5;2]));
  (*2387*) Assign (T 579) (Plain (Zeros [7;7;4;5]));
  (*2388*) AddTo (T 579) (Plain (Einsum [(T 154,[0;1;2;3])] [1;0;2;3]));
  (*2389*) Del (T 154);
  (*2390*) AddTo (T 579) (Times (Einsum [(T 577,[0;1;2;3])] [1;0;2;3]) (-1) 1);
  (*2391*) Del (T 577);
  (*2392*) AddTo (T 579) (Plain (Einsum [(T 578,[0;1;2;3])] [1;0;2;3]));
  (*2393*) Del (T 578);
  (*2394*) Assign (T 580) (Plain (Zeros [6;7;4;4;5;5]));
  (*2395*) AddTo (T 580) (Plain (Einsum [(n_t2'abab,[0;1;2;3]); (T 579,[3;4;5;6])] [1;4;5;0;6;2]));
  (*2396*) Del (T 579);
  (*2397*) Assign (T 581) (Plain (Zeros [6;6;4;5]));
  (*2398*) AddTo (T 581) (Plain (Einsum [(n_v'aabb'vvov,[0;1;2;3]); (T 6,[4;3;5;1])] [4;2;5;0]));
  (*2399*) Del (T 6);
  (*2400*) Assign (T 582) (Plain (Zeros [6;6;4;5]));
  (*2401*) AddTo (T 582) (Plain (Einsum [(T 148,[0;1;2;3])] [1;0;2;3]));
  (*2402*) Del (T 148);
  (*2403*) AddTo (T 582) (Plain (Einsum [(T 581,[0;1;2;3])] [1;0;2;3]));
  (*2404*) Del (T 581);
  (*2405*) Assign (T 583) (Plain (Zeros [6;7;4;4;5;5]));
  (*2406*) AddTo (T 583) (Plain (Einsum [(n_t2'abab,[0;1;2;3]); (T 582,[1;4;5;6])] [4;3;5;0;6;2]));
  (*2407*) Del (T 582);
  (*2408*) Assign (T 584) (Plain (Zeros [6;7;4;4;5;5]));
  (*2409*) AddTo (T 584) (Times (Einsum [(T 521,[0;1;2;3;4;5])] [0;1;2;3;4;5]) (-2) 1);
  (*2410*) Del (T 521);
  (*2411*) AddTo (T 584) (Times (Einsum [(T 522,[0;1;2;3;4;5])] [0;1;2;3;4;5]) (-1) 1);
  (*2412*) Del (T 522);
  (*2413*) AddTo (T 584) (Plain (Einsum [(T 524,[0;1;2;3;4;5])] [0;1;2;3;4;5]));
  (*2414*) Del (T 524);
  (*2415*) AddTo (T 584) (Times (Einsum [(T 525,[0;1;2;3;4;5])] [0;1;2;3;4;5]) (2) 1);
  (*2416*) Del (T 525);
  (*2417*) AddTo (T 584) (Times (Einsum [(T 527,[0;1;2;3;4;5])] [0;1;2;3;4;5]) (-1) 1);
  (*2418*) Del (T 527);
  (*2419*) AddTo (T 584) (Times (Einsum [(T 531,[0;1;2;3;4;5])] [0;1;3;2;5;4]) (-1) 1);
  (*2420*) Del (T 531);
  (*2421*) AddTo (T 584) (Times (Einsum [(T 534,[0;1;2;3;4;5])] [0;1;2;3;4;5]) (-1) 1);
  (*2422*) Del (T 534);
  (*2423*) AddTo (T 584) (Plain (Einsum [(T 536,[0;1;2;3;4;5])] [0;1;3;2;5;4]));
  (*2424*) Del (T 536);
  (*2425*) AddTo (T 584) (Plain (Einsum [(T 538,[0;1;2;3;4;5])] [0;1;2;3;5;4]));
  (*2426*) Del (T 538);
  (*2427*) AddTo (T 584) (Plain (Einsum [(T 547,[0;1;2;3;4;5])] [0;1;3;2;5;4]));
  (*2428*) Del (T 547);
  (*2429*) AddTo (T 584) (Plain (Einsum [(T 554,[0;1;2;3;4;5])] [0;1;3;2;4;5]));
  (*2430*) Del (T 554);
  (*2431*) AddTo (T 584) (Times (Einsum [(T 571,[0;1;2;3;4;5])] [0;1;2;3;5;4]) (-1) 1);
  (*2432*) Del (T 571);
  (*2433*) AddTo (T 584) (Plain (Einsum [(T 576,[0;1;2;3;4;5])] [0;1;3;2;5;4]));
  (*2434*) Del (T 576);
  (*2435*) AddTo (T 584) (Plain (Einsum [(T 580,[0;1;2;3;4;5])] [0;1;2;3;5;4]));
  (*2436*) Del (T 580);
  (*2437*) AddTo (T 584) (Times (Einsum [(T 583,[0;1;2;3;4;5])] [0;1;2;3;5;4]) (-1) 1);
  (*2438*) Del (T 583);
  (*2439*) AddTo n_t3new_abaaba (Times (Einsum [(T 584,[0;1;2;3;4;5])] [2;0;3;4;1;5]) (-1) 1);
  (*2440*) AddTo n_t3new_abaaba (Plain (Einsum [(T 584,[0;1;2;3;4;5])] [2;0;3;5;1;4]));
  (*2441*) AddTo n_t3new_abaaba (Plain (Einsum [(T 584,[0;1;2;3;4;5])] [3;0;2;4;1;5]));
  (*2442*) AddTo n_t3new_abaaba (Times (Einsum [(T 584,[0;1;2;3;4;5])] [3;0;2;5;1;4]) (-1) 1);
  (*2443*) Del (T 584);
  (*2444*) Assign (T 585) (Plain (Zeros [6;7;4;4;5;5]));
  (*2445*) AddTo (T 585) (Times (Einsum [(n_t2'abab,[0;1;2;3]); (T 262,[4;5;6;2])] [1;3;4;0;5;6]) (-1) 1);
  (*2446*) Del (T 262);
  (*2447*) Assign (T 586) (Plain (Zeros [7;7;4;4]));
  (*2448*) AddTo (T 586) (Times (Einsum [(T 123,[0;1;2;3])] [1;0;2;3]) (-99999999999999) 100000000000000);
  (*2449*) Del (T 123);
  (*2450*) AddTo (T 586) (Plain (Einsum [(T 437,[0;1;2;3])] [0;1;3;2]));
  (*2451*) Del (T 437);
  (*2452*) Assign (T 587) (Plain (Zeros [6;7;4;4;5;5]));
  (*2453*) AddTo (T 587) (Times (Einsum [(T 586,[0;1;2;3]); (n_t3'abaaba,[4;5;3;6;0;7])] [5;1;4;2;6;7]) (-100000000000001) 50000000000000);
  (*2454*) Del (T 586);
  (*2455*) Assign (T 588) (Plain (Zeros [6;7;4;4;5;5]));
  (*2456*) AddTo (T 588) (Times (Einsum [(T 563,[0;1;2;3]); (n_t3'abaaba,[4;0;3;5;6;7])] [1;6;4;2;5;7]) (-2) 1);
  (*2457*) Del (T 563);
  (*2458*) Assign (T 589) (Plain (Zeros [6;7;4;4]));
  (*2459*) AddTo (T 589) (Plain (Einsum [(n_t1'bb,[0;1]); (n_v'aabb'oooo,[2;3;4;0])] [4;1;2;3]));
  (*2460*) Assign (T 590) (Plain (Zeros [6;7;4;4]));
  (*2461*) AddTo (T 590) (Plain (Einsum [(n_t2'abab,[0;1;2;3]); (T 5,[1;4;5;2])] [4;3;5;0]));
  (*2462*) Del (T 5);
  (*2463*) Assign (T 591) (Plain (Zeros [6;7;4;4]));
  (*2464*) AddTo (T 591) (Plain (Einsum [(n_t2'abab,[0;1;2;3]); (T 33,[4;5;0;2])] [1;3;4;5]));
  (*2465*) Assign (T 592) (Plain (Zeros [6;7;4;4]));
  (*2466*) AddTo (T 592) (Plain (Einsum [(n_t2'abab,[0;1;2;3]); (T 105,[3;4;5;2])] [1;4;5;0]));
  (*2467*) Del (T 105);
  (*2468*) Assign (T 593) (Plain (Zeros [6;7;4;4]));
  (*2469*) AddTo (T 593) (Plain (Einsum [(T 14,[0;1]); (n_t2'abab,[2;3;1;4])] [3;4;0;2]));
  (*2470*) Del (T 14);
  (*2471*) Assign (T 594) (Plain (Zeros [6;7;4;4]));
  (*2472*) AddTo (T 594) (Times (Einsum [(n_v'aabb'ooov,[0;1;2;3]); (T 114,[2;4;3;5])] [4;5;0;1]) (2) 1);
  (*2473*) Assign (T 595) (Plain (Zeros [6;7;4;4]));
  (*2474*) AddTo (T 595) (Plain (Einsum [(n_v'aabb'ooov,[0;1;2;3])] [2;3;0;1]));
  (*2475*) AddTo (T 595) (Times (Einsum [(T 589,[0;1;2;3])] [0;1;3;2]) (-1) 1);
  (*2476*) Del (T 589);
  (*2477*) AddTo (T 595) (Plain (Einsum [(T 156,[0;1;2;3])] [0;1;3;2]));
  (*2478*) Del (T 156);
  (*2479*) AddTo (T 595) (Times (Einsum [(T 361,[0;1;2;3])] [0;1;3;2]) (2) 1);
  (*2480*) Del (T 361);
  (*2481*) AddTo (T 595) (Times (Einsum [(T 362,[0;1;2;3])] [0;1;3;2]) (2) 1);
  (*2482*) Del (T 362);
  (*2483*) AddTo (T 595) (Times (Einsum [(T 590,[0;1;2;3])] [0;1;2;3]) (-1) 1);
  (*2484*) Del (T 590);
  (*2485*) AddTo (T 595) (Times (Einsum [(T 591,[0;1;2;3])] [0;1;3;2]) (-1) 1);
  (*2486*) Del (T 591);
  (*2487*) AddTo (T 595) (Plain (Einsum [(T 592,[0;1;2;3])] [0;1;2;3]));
  (*2488*) Del (T 592);
  (*2489*) AddTo (T 595) (Plain (Einsum [(T 593,[0;1;2;3])] [0;1;2;3]));
  (*2490*) Del (T 593);
  (*2491*) AddTo (T 595) (Plain (Einsum [(T 594,[0;1;2;3])] [0;1;3;2]));
  (*2492*) Del (T 594);
  (*2493*) Assign (T 596) (Plain (Zeros [6;7;4;4;5;5]));
  (*2494*) AddTo (T 596) (Times (Einsum [(n_t2'aaaa,[0;1;2;3]); (T 595,[4;5;1;6])] [4;5;0;6;2;3]) (-2) 1);
  (*2495*) Del (T 595);
  (*2496*) Assign (T 597) (Plain (Zeros [7;7;4;4]));
  (*2497*) AddTo (T 597) (Plain (Einsum [(n_v'aabb'oovv,[0;1;2;3])] [2;3;0;1]));
  (*2498*) AddTo (T 597) (Times (Einsum [(T 122,[0;1;2;3])] [1;0;3;2]) (-1) 1);
  (*2499*) Del (T 122);
  (*2500*) Assign (T 598) (Plain (Zeros [6;7;4;4;5;5]));
  (*2501*) AddTo (T 598) (Times (Einsum [(T 597,[0;1;2;3]); (n_t3'abaaba,[4;5;2;6;0;7])] [5;1;4;3;6;7]) (-2) 1);
  (*2502*) Del (T 597);
  (*2503*) Assign (T 599) (Plain (Zeros [4;5;5;5]));
  (*2504*) AddTo (T 599) (Plain (Einsum [(T 215,[0;1;2;3])] [0;2;1;3]));
  (*2505*) Del (T 215);
  (*2506*) AddTo (T 599) (Times (Einsum [(T 241,[0;1;2;3])] [0;2;1;3]) (-1) 1);
  (*2507*) Del (T 241);
  (*2508*) AddTo (T 599) (Times (Einsum [(T 242,[0;1;2;3])] [0;2;1;3]) (-3) 1);
  (*2509*) Del (T 242);
  (*2510*) Assign (T 600) (Plain (Zeros [6;7;4;4;5;5]));
  (*2511*) AddTo (T 600) (Times (Einsum [(n_t2'abab,[0;1;2;3]); (T 599,[4;5;6;2])] [1;3;4;0;5;6]) (2) 1);
  (*2512*) Del (T 599);
  (*2513*) Assign (T 601) (Plain (Zeros [6;7;4;4;5;5]));
  (*2514*) AddTo (T 601) (Times (Einsum [(T 568,[0;1;2;3]); (n_t3'abaaba,[4;0;2;5;6;7])] [1;6;4;3;5;7]) (-2) 1);
  (*2515*) Del (T 568);
  (*2516*) Assign (T 602) (Plain (Zeros [4;4]));
  (*2517*) AddTo (T 602) (Plain (Einsum [(n_f'aa'oo,[0;1])] [0;1]));
  (*2518*) AddTo (T 602) (Plain (Einsum [(T 31,[0;1])] [0;1]));
  (*2519*) Del (T 31);
  (*2520*) AddTo (T 602) (Times (Einsum [(T 32,[0;1])] [0;1]) (2) 1);
  (*2521*) Del (T 32);
  (*2522*) AddTo (T 602) (Plain (Einsum [(T 35,[0;1])] [1;0]));
  (*2523*) Del (T 35);
  (*2524*) Assign (T 603) (Plain (Zeros [6;7;4;4;5;5]));
  (*2525*) AddTo (T 603) (Times (Einsum [(T 602,[0;1]); (n_t3'abaaba,[2;3;1;4;5;6])] [3;5;2;0;4;6]) (-2) 1);
  (*2526*) Del (T 602);
  (*2527*) Assign (T 604) (Plain (Zeros [6;7;4;4]));
  (*2528*) AddTo (T 604) (Plain (Einsum [(n_t1'bb,[0;1]); (T 137,[2;0;3;4])] [2;1;3;4]));
  (*2529*) Del (T 137);
  (*2530*) Assign (T 605) (Plain (Zeros [6;7;4;4]));
  (*2531*) AddTo (T 605) (Plain (Einsum [(n_t2'abab,[0;1;2;3]); (T 56,[4;0;5;2])] [1;3;4;5]));
  (*2532*) Assign (T 606) (Plain (Zeros [6;7;4;5]));
  (*2533*) AddTo (T 606) (Plain (Einsum [(n_v'aabb'ovov,[0;1;2;3])] [2;3;0;1]));
  (*2534*) AddTo (T 606) (Plain (Einsum [(T 128,[0;1;2;3])] [0;1;2;3]));
  (*2535*) Assign (T 607) (Plain (Zeros [6;7;4;4]));
  (*2536*) AddTo (T 607) (Plain (Einsum [(n_t1'aa,[0;1]); (T 606,[2;3;4;1])] [2;3;4;0]));
  (*2537*) Del (T 606);
  (*2538*) Assign (T 608) (Plain (Zeros [6;7;4;4]));
  (*2539*) AddTo (T 608) (Times (Einsum [(T 114,[0;1;2;3]); (T 24,[0;2;4;5])] [1;3;4;5]) (2) 1);
  (*2540*) Del (T 24);
  (*2541*) Assign (T 609) (Plain (Zeros [6;7;4;4]));
  (*2542*) AddTo (T 609) (Times (Einsum [(T 604,[0;1;2;3])] [0;1;2;3]) (-1) 1);
  (*2543*) Del (T 604);
  (*2544*) AddTo (T 609) (Times (Einsum [(T 605,[0;1;2;3])] [0;1;2;3]) (-1) 1);
  (*2545*) Del (T 605);
  (*2546*) AddTo (T 609) (Plain (Einsum [(T 607,[0;1;2;3])] [0;1;3;2]));
  (*2547*) Del (T 607);
  (*2548*) AddTo (T 609) (Plain (Einsum [(T 608,[0;1;2;3])] [0;1;2;3]));
  (*2549*) Del (T 608);
  (*2550*) Assign (T 610) (Plain (Zeros [6;7;4;4;5;5]));
  (*2551*) AddTo (T 610) (Times (Einsum [(n_t2'aaaa,[0;1;2;3]); (T 609,[4;5;6;1])] [4;5;0;6;2;3]) (-2) 1);
  (*2552*) Del (T 609);
  (*2553*) Assign (T 611) (Plain (Zeros [6;7;4;4;5;5]));
  (*2554*) AddTo (T 611) (Times (Einsum [(T 252,[0;1]); (n_t3'abaaba,[2;3;0;4;5;6])] [3;5;2;1;4;6]) (-2) 1);
  (*2555*) Del (T 252);
  (*2556*) Assign (T 612) (Plain (Zeros [6;7;4;4;5;5]));
  (*2557*) AddTo (T 612) (Times (Einsum [(T 585,[0;1;2;3;4;5])] [0;1;2;3;5;4]) (2) 1);
  (*2558*) Del (T 585);
  (*2559*) AddTo (T 612) (Plain (Einsum [(T 587,[0;1;2;3;4;5])] [0;1;3;2;5;4]));
  (*2560*) Del (T 587);
  (*2561*) AddTo (T 612) (Plain (Einsum [(T 588,[0;1;2;3;4;5])] [0;1;3;2;5;4]));
  (*2562*) Del (T 588);
  (*2563*) AddTo (T 612) (Plain (Einsum [(T 596,[0;1;2;3;4;5])] [0;1;2;3;5;4]));
  (*2564*) Del (T 596);
  (*2565*) AddTo (T 612) (Plain (Einsum [(T 598,[0;1;2;3;4;5])] [0;1;2;3;5;4]));
  (*2566*) Del (T 598);
  (*2567*) AddTo (T 612) (Plain (Einsum [(T 600,[0;1;2;3;4;5])] [0;1;3;2;5;4]));
  (*2568*) Del (T 600);
  (*2569*) AddTo (T 612) (Times (Einsum [(T 601,[0;1;2;3;4;5])] [0;1;2;3;5;4]) (-1) 1);
  (*2570*) Del (T 601);
  (*2571*) AddTo (T 612) (Times (Einsum [(T 603,[0;1;2;3;4;5])] [0;1;3;2;5;4]) (-1) 1);
  (*2572*) Del (T 603);
  (*2573*) AddTo (T 612) (Times (Einsum [(T 610,[0;1;2;3;4;5])] [0;1;3;2;5;4]) (-1) 1);
  (*2574*) Del (T 610);
  (*2575*) AddTo (T 612) (Plain (Einsum [(T 611,[0;1;2;3;4;5])] [0;1;2;3;5;4]));
  (*2576*) Del (T 611);
  (*2577*) AddTo n_t3new_abaaba (Times (Einsum [(T 612,[0;1;2;3;4;5])] [2;0;3;4;1;5]) (-1) 1);
  (*2578*) AddTo n_t3new_abaaba (Plain (Einsum [(T 612,[0;1;2;3;4;5])] [3;0;2;4;1;5]));
  (*2579*) Del (T 612);
  (*2580*) Assign (T 613) (Plain (Zeros [6;6;7;7]));
  (*2581*) AddTo (T 613) (Plain (Einsum [(n_v'bbbb'ovov,[0;1;2;3])] [0;2;1;3]));
  (*2582*) AddTo (T 613) (Times (Einsum [(n_v'bbbb'oovv,[0;1;2;3])] [0;1;2;3]) (-1) 1);
  (*2583*) AddTo (T 613) (Times (Einsum [(T 112,[0;1;2;3])] [1;0;3;2]) (100000000000001) 100000000000000);
  (*2584*) AddTo (T 613) (Times (Einsum [(T 113,[0;1;2;3]); (T 316,[0;4;3;5])] [1;4;2;5]) (-100000000000001) 50000000000000);
  (*2585*) Del (T 113);
  (*2586*) AddTo (T 613) (Times (Einsum [(T 116,[0;1;2;3])] [0;1;2;3]) (-1) 1);
  (*2587*) Del (T 116);
  (*2588*) AddTo (T 613) (Times (Einsum [(T 117,[0;1;2;3])] [1;0;2;3]) (-1) 1);
  (*2589*) Del (T 117);
  (*2590*) AddTo n_t3new_abaaba (Times (Einsum [(T 613,[0;1;2;3]); (n_t3'abaaba,[4;0;5;6;2;7])] [4;1;5;6;3;7]) (2) 1);
  (*2591*) Del (T 613);
  (*2592*) Assign (T 614) (Plain (Zeros [6;6;7;7]));
  (*2593*) AddTo (T 614) (Plain (Einsum [(n_t2'bbbb,[0;1;2;3])] [0;1;2;3]));
  (*2594*) AddTo (T 614) (Times (Einsum [(n_t1'bb,[0;1]); (n_t1'bb,[2;3])] [0;2;3;1]) (-4999999999999949) 10000000000000000);
  (*2595*) Assign (T 615) (Plain (Zeros [6;7;4;5]));
  (*2596*) AddTo (T 615) (Plain (Einsum [(n_v'aabb'ovov,[0;1;2;3])] [2;3;0;1]));
  (*2597*) AddTo (T 615) (Times (Einsum [(T 512,[0;1;2;3])] [0;1;2;3]) (-1) 1);
  (*2598*) Del (T 512);
  (*2599*) AddTo (T 615) (Plain (Einsum [(T 128,[0;1;2;3])] [0;1;2;3]));
  (*2600*) AddTo (T 615) (Times (Einsum [(T 315,[0;1;2;3])] [0;1;2;3]) (-1) 1);
  (*2601*) Del (T 315);
  (*2602*) AddTo (T 615) (Times (Einsum [(n_v'aabb'ovov,[0;1;2;3]); (T 614,[2;4;3;5])] [4;5;0;1]) (5000000000000051) 2500000000000000);
  (*2603*) Del (T 614);
  (*2604*) AddTo n_t3new_abaaba (Times (Einsum [(T 615,[0;1;2;3]); (n_t3'aaaaaa,[4;5;2;6;7;3])] [4;0;5;6;1;7]) (6) 1);
  (*2605*) Del (T 615);
  (*2606*) Assign (T 616) (Plain (Zeros [5;5;5;5]));
  (*2607*) AddTo (T 616) (Plain (Einsum [(n_v'aaaa'vvvv,[0;1;2;3])] [0;1;2;3]));
  (*2608*) AddTo (T 616) (Times (Einsum [(n_t2'aaaa,[0;1;2;3]); (n_v'aaaa'ovov,[0;4;1;5])] [5;2;3;4]) (-1) 1);
  (*2609*) AddTo (T 616) (Times (Einsum [(n_t1'aa,[0;1]); (T 110,[0;2;3;4])] [4;1;2;3]) (-1) 1);
  (*2610*) Del (T 110);
  (*2611*) AddTo n_t3new_abaaba (Times (Einsum [(T 616,[0;1;2;3]); (n_t3'abaaba,[4;5;6;0;7;3])] [4;5;6;2;7;1]) (-2) 1);
  (*2612*) Del (T 616);
  (*2613*) Assign (T 617) (Plain (Zeros [4;4;4;4]));
  (*2614*) AddTo (T 617) (Plain (Einsum [(n_v'aaaa'oooo,[0;1;2;3])] [0;1;2;3]));
  (*2615*) AddTo (T 617) (Times (Einsum [(T 50,[0;1;2;3])] [2;0;3;1]) (-1) 1);
  (*2616*) AddTo (T 617) (Plain (Einsum [(T 50,[0;1;2;3])] [2;1;3;0]));
  (*2617*) Del (T 50);
  (*2618*) AddTo (T 617) (Plain (Einsum [(T 100,[0;1;2;3])] [1;3;0;2]));
  (*2619*) Del (T 100);
  (*2620*) AddTo n_t3new_abaaba (Times (Einsum [(T 617,[0;1;2;3]); (n_t3'abaaba,[0;4;2;5;6;7])] [1;4;3;5;6;7]) (2) 1);
  (*2621*) Del (T 617);
  (*2622*) Assign (T 618) (Plain (Zeros [4;4;4;5]));
  (*2623*) AddTo (T 618) (Plain (Einsum [(n_v'aaaa'ooov,[0;1;2;3])] [0;1;2;3]));
  (*2624*) AddTo (T 618) (Plain (Einsum [(T 51,[0;1;2;3])] [1;0;2;3]));
  (*2625*) Del (T 51);
  (*2626*) Assign (T 619) (Plain (Zeros [4;4;4;5]));
  (*2627*) AddTo (T 619) (Times (Einsum [(n_t2'aaaa,[0;1;2;3]); (T 33,[4;5;1;3])] [0;4;5;2]) (2) 1);
  (*2628*) Del (T 33);
  (*2629*) Assign (T 620) (Plain (Zeros [4;4;4;5]));
  (*2630*) AddTo (T 620) (Times (Einsum [(n_t2'aaaa,[0;1;2;3]); (T 56,[4;5;1;3])] [0;4;5;2]) (2) 1);
  (*2631*) Del (T 56);
  (*2632*) Assign (T 621) (Plain (Zeros [4;4;5;5]));
  (*2633*) AddTo (T 621) (Plain (Einsum [(n_v'aaaa'ovov,[0;1;2;3])] [0;2;3;1]));
  (*2634*) AddTo (T 621) (Times (Einsum [(n_v'aaaa'oovv,[0;1;2;3])] [0;1;2;3]) (-1) 1);
  (*2635*) AddTo (T 621) (Plain (Einsum [(T 38,[0;1;2;3])] [0;1;2;3]));
  (*2636*) Del (T 38);
  (*2637*) Assign (T 622) (Plain (Zeros [4;4;4;5]));
  (*2638*) AddTo (T 622) (Plain (Einsum [(n_t1'aa,[0;1]); (T 621,[2;3;1;4])] [2;3;0;4]));
  (*2639*) Del (T 621);
  (*2640*) Assign (T 623) (Plain (Zeros [4;4;4;5]));
  (*2641*) AddTo (T 623) (Plain (Einsum [(n_v'aaaa'ooov,[0;1;2;3])] [0;1;2;3]));
  (*2642*) AddTo (T 623) (Plain (Einsum [(T 26,[0;1;2;3])] [0;2;1;3]));
  (*2643*) Del (T 26);
  (*2644*) Assign (T 624) (Plain (Zeros [4;4;4;4]));
  (*2645*) AddTo (T 624) (Plain (Einsum [(n_t1'aa,[0;1]); (T 623,[2;3;4;1])] [2;3;4;0]));
  (*2646*) Del (T 623);
  (*2647*) Assign (T 625) (Plain (Zeros [4;4;4;5]));
  (*2648*) AddTo (T 625) (Plain (Einsum [(n_t1'aa,[0;1]); (T 624,[2;0;3;4])] [4;2;3;1]));
  (*2649*) Del (T 624);
  (*2650*) Assign (T 626) (Plain (Zeros [4;4;4;5]));
  (*2651*) AddTo (T 626) (Plain (Einsum [(T 49,[0;1;2;3])] [0;2;1;3]));
  (*2652*) Del (T 49);
  (*2653*) AddTo (T 626) (Times (Einsum [(T 53,[0;1;2;3])] [0;2;1;3]) (-1) 1);
  (*2654*) Del (T 53);
  (*2655*) AddTo (T 626) (Times (Einsum [(T 619,[0;1;2;3])] [0;2;1;3]) (-1) 1);
  (*2656*) Del (T 619);
  (*2657*) AddTo (T 626) (Times (Einsum [(T 620,[0;1;2;3])] [1;2;0;3]) (-1) 1);
  (*2658*) Del (T 620);
  (*2659*) AddTo (T 626) (Times (Einsum [(T 622,[0;1;2;3])] [2;1;0;3]) (-1) 1);
  (*2660*) Del (T 622);
  (*2661*) AddTo (T 626) (Plain (Einsum [(T 625,[0;1;2;3])] [0;2;1;3]));
  (*2662*) Del (T 625);
  (*2663*) Assign (T 627) (Plain (Zeros [4;4;4;5]));
  (*2664*) AddTo (T 627) (Plain (Einsum [(T 618,[0;1;2;3])] [0;1;2;3]));
  (*2665*) AddTo (T 627) (Times (Einsum [(T 618,[0;1;2;3])] [0;2;1;3]) (-1) 1);
  (*2666*) Del (T 618);
  (*2667*) AddTo (T 627) (Times (Einsum [(T 626,[0;1;2;3])] [1;0;2;3]) (-1) 1);
  (*2668*) AddTo (T 627) (Plain (Einsum [(T 626,[0;1;2;3])] [1;2;0;3]));
  (*2669*) Del (T 626);
  (*2670*) AddTo (T 627) (Times (Einsum [(T 81,[0;1;2;3])] [0;2;1;3]) (-1) 1);
  (*2671*) Del (T 81);
  (*2672*) AddTo (T 627) (Times (Einsum [(T 296,[0;1;2;3])] [2;1;0;3]) (-1) 1);
  (*2673*) Del (T 296);
  (*2674*) Assign (T 628) (Plain (Zeros [6;7;4;4;5;5]));
  (*2675*) AddTo (T 628) (Plain (Einsum [(n_t2'abab,[0;1;2;3]); (T 627,[0;4;5;6])] [1;3;4;5;6;2]));
  (*2676*) Del (T 627);
  (*2677*) AddTo n_t3new_abaaba (Times (Einsum [(T 628,[0;1;2;3;4;5])] [3;0;2;4;1;5]) (-1) 1);
  (*2678*) AddTo n_t3new_abaaba (Plain (Einsum [(T 628,[0;1;2;3;4;5])] [3;0;2;5;1;4]));
  (*2679*) Del (T 628);
  (*2680*) Assign (T 629) (Plain (Zeros [6;7;7;7]));
  (*2681*) AddTo (T 629) (Times (Einsum [(n_t2'bbbb,[0;1;2;3]); (T 431,[1;4;3;5])] [0;4;5;2]) (2) 1);
  (*2682*) Del (T 431);
  (*2683*) Assign (T 630) (Plain (Zeros [6;7;7;7]));
  (*2684*) AddTo (T 630) (Plain (Einsum [(n_v'bbbb'ovvv,[0;1;2;3])] [0;1;2;3]));
  (*2685*) AddTo (T 630) (Plain (Einsum [(T 332,[0;1;2;3])] [0;1;3;2]));
  (*2686*) Del (T 332);
  (*2687*) AddTo (T 630) (Times (Einsum [(T 629,[0;1;2;3])] [0;3;1;2]) (-1) 1);
  (*2688*) Del (T 629);
  (*2689*) Assign (T 631) (Plain (Zeros [6;6;6;7;7;7]));
  (*2690*) AddTo (T 631) (Times (Einsum [(n_t2'bbbb,[0;1;2;3]); (T 630,[4;5;3;6])] [4;0;1;5;6;2]) (-2) 1);
  (*2691*) Del (T 630);
  (*2692*) Assign (T 632) (Plain (Zeros [6;6;6;6;6;7]));
  (*2693*) AddTo (T 632) (Plain (Einsum [(n_t2'bbbb,[0;1;2;3]); (n_v'bbbb'ooov,[4;5;6;3])] [0;1;4;5;6;2]));
  (*2694*) Assign (T 633) (Plain (Zeros [6;6;6;6;7;7]));
  (*2695*) AddTo (T 633) (Plain (Einsum [(n_t1'bb,[0;1]); (T 632,[2;3;4;5;0;6])] [2;3;4;5;1;6]));
  (*2696*) Del (T 632);
  (*2697*) Assign (T 634) (Plain (Zeros [6;6;7;7]));
  (*2698*) AddTo (T 634) (Plain (Einsum [(n_v'bbbb'ovov,[0;1;2;3])] [0;2;1;3]));
  (*2699*) AddTo (T 634) (Times (Einsum [(n_v'bbbb'oovv,[0;1;2;3])] [0;1;2;3]) (-1) 1);
  (*2700*) AddTo (T 634) (Plain (Einsum [(T 112,[0;1;2;3])] [0;1;2;3]));
  (*2701*) AddTo (T 634) (Times (Einsum [(T 336,[0;1;2;3])] [1;0;3;2]) (-1) 1);
  (*2702*) Del (T 336);
  (*2703*) Assign (T 635) (Plain (Zeros [6;6;6;6;7;7]));
  (*2704*) AddTo (T 635) (Times (Einsum [(n_t2'bbbb,[0;1;2;3]); (T 634,[4;5;6;3])] [4;5;0;1;6;2]) (-1) 1);
  (*2705*) Del (T 634);
  (*2706*) Assign (T 636) (Plain (Zeros [6;6;6;6;7;7]));
  (*2707*) AddTo (T 636) (Plain (Einsum [(T 633,[0;1;2;3;4;5])] [0;1;3;2;4;5]));
  (*2708*) Del (T 633);
  (*2709*) AddTo (T 636) (Times (Einsum [(T 635,[0;1;2;3;4;5])] [3;2;1;0;5;4]) (-1) 1);
  (*2710*) Del (T 635);
  (*2711*) Assign (T 637) (Plain (Zeros [6;6;6;7;7;7]));
  (*2712*) AddTo (T 637) (Times (Einsum [(n_t1'bb,[0;1]); (T 636,[2;3;0;4;5;6])] [2;3;4;5;6;1]) (2) 1);
  (*2713*) Del (T 636);
  (*2714*) Assign (T 638) (Plain (Zeros [6;6;6;7;7;7]));
  (*2715*) AddTo (T 638) (Plain (Einsum [(T 631,[0;1;2;3;4;5])] [2;1;0;5;3;4]));
  (*2716*) Del (T 631);
  (*2717*) AddTo (T 638) (Plain (Einsum [(T 637,[0;1;2;3;4;5])] [0;1;2;5;3;4]));
  (*2718*) Del (T 637);
  (*2719*) Assign n_t3new_bbbbbb (Plain (Zeros [6;6;6;7;7;7]));
  (*2720*) AddTo n_t3new_bbbbbb (Times (Einsum [(T 638,[0;1;2;3;4;5])] [0;1;2;3;4;5]) (-1) 1);
  (*2721*) AddTo n_t3new_bbbbbb (Plain (Einsum [(T 638,[0;1;2;3;4;5])] [0;1;2;3;5;4]));
  (*2722*) AddTo n_t3new_bbbbbb (Plain (Einsum [(T 638,[0;1;2;3;4;5])] [0;1;2;4;3;5]));
  (*2723*) AddTo n_t3new_bbbbbb (Times (Einsum [(T 638,[0;1;2;3;4;5])] [0;1;2;5;3;4]) (-1) 1);
  (*2724*) AddTo n_t3new_bbbbbb (Times (Einsum [(T 638,[0;1;2;3;4;5])] [0;1;2;4;5;3]) (-1) 1);
  (*2725*) AddTo n_t3new_bbbbbb (Plain (Einsum [(T 638,[0;1;2;3;4;5])] [0;1;2;5;4;3]));
  (*2726*) AddTo n_t3new_bbbbbb (Plain (Einsum [(T 638,[0;1;2;3;4;5])] [0;2;1;3;4;5]));
  (*2727*) AddTo n_t3new_bbbbbb (Times (Einsum [(T 638,[0;1;2;3;4;5])] [0;2;1;3;5;4]) (-1) 1);
  (*2728*) AddTo n_t3new_bbbbbb (Times (Einsum [(T 638,[0;1;2;3;4;5])] [0;2;1;4;3;5]) (-1) 1);
  (*2729*) AddTo n_t3new_bbbbbb (Plain (Einsum [(T 638,[0;1;2;3;4;5])] [0;2;1;5;3;4]));
  (*2730*) AddTo n_t3new_bbbbbb (Plain (Einsum [(T 638,[0;1;2;3;4;5])] [0;2;1;4;5;3]));
  (*2731*) AddTo n_t3new_bbbbbb (Times (Einsum [(T 638,[0;1;2;3;4;5])] [0;2;1;5;4;3]) (-1) 1);
  (*2732*) AddTo n_t3new_bbbbbb (Plain (Einsum [(T 638,[0;1;2;3;4;5])] [2;1;0;3;4;5]));
  (*2733*) AddTo n_t3new_bbbbbb (Times (Einsum [(T 638,[0;1;2;3;4;5])] [2;1;0;3;5;4]) (-1) 1);
  (*2734*) AddTo n_t3new_bbbbbb (Times (Einsum [(T 638,[0;1;2;3;4;5])] [2;1;0;4;3;5]) (-1) 1);
  (*2735*) AddTo n_t3new_bbbbbb (Plain (Einsum [(T 638,[0;1;2;3;4;5])] [2;1;0;5;3;4]));
  (*2736*) AddTo n_t3new_bbbbbb (Plain (Einsum [(T 638,[0;1;2;3;4;5])] [2;1;0;4;5;3]));
  (*2737*) AddTo n_t3new_bbbbbb (Times (Einsum [(T 638,[0;1;2;3;4;5])] [2;1;0;5;4;3]) (-1) 1);
  (*2738*) Del (T 638);
  (*2739*) Assign (T 639) (Plain (Zeros [6;6;6;7;7;7]));
  (*2740*) AddTo (T 639) (Plain (Einsum [(n_v'aabb'ovov,[0;1;2;3]); (n_t3'babbab,[4;0;5;6;1;7])] [4;5;2;6;7;3]));
  (*2741*) Assign (T 640) (Plain (Zeros [6;6;6;7;7;7]));
  (*2742*) AddTo (T 640) (Plain (Einsum [(n_t2'bbbb,[0;1;2;3]); (T 403,[4;5;6;3])] [0;1;4;5;6;2]));
  (*2743*) Del (T 403);
  (*2744*) Assign (T 641) (Plain (Zeros [6;6;6;7;7;7]));
  (*2745*) AddTo (T 641) (Plain (Einsum [(n_t2'bbbb,[0;1;2;3]); (T 168,[4;5;1;6])] [4;5;0;2;3;6]));
  (*2746*) Del (T 168);
  (*2747*) Assign (T 642) (Plain (Zeros [6;6;6;7;7;7]));
  (*2748*) AddTo (T 642) (Times (Einsum [(T 15,[0;1;2;3]); (n_t3'bbbbbb,[4;5;0;6;7;2])] [4;5;1;6;7;3]) (6) 1);
  (*2749*) Del (T 15);
  (*2750*) Assign (T 643) (Plain (Zeros [6;6;6;7;7;7]));
  (*2751*) AddTo (T 643) (Times (Einsum [(T 639,[0;1;2;3;4;5])] [0;1;2;4;3;5]) (2) 1);
  (*2752*) Del (T 639);
  (*2753*) AddTo (T 643) (Times (Einsum [(T 640,[0;1;2;3;4;5])] [0;1;2;4;3;5]) (-4) 1);
  (*2754*) Del (T 640);
  (*2755*) AddTo (T 643) (Times (Einsum [(T 641,[0;1;2;3;4;5])] [0;1;2;4;3;5]) (-4) 1);
  (*2756*) Del (T 641);
  (*2757*) AddTo (T 643) (Plain (Einsum [(T 642,[0;1;2;3;4;5])] [0;1;2;3;4;5]));
  (*2758*) Del (T 642);
  (*2759*) AddTo n_t3new_bbbbbb (Times (Einsum [(T 643,[0;1;2;3;4;5])] [0;1;2;3;4;5]) (-1) 1);
  (*2760*) AddTo n_t3new_bbbbbb (Plain (Einsum [(T 643,[0;1;2;3;4;5])] [0;1;2;3;5;4]));
  (*2761*) AddTo n_t3new_bbbbbb (Times (Einsum [(T 643,[0;1;2;3;4;5])] [0;1;2;5;3;4]) (-1) 1);
  (*2762*) AddTo n_t3new_bbbbbb (Plain (Einsum [(T 643,[0;1;2;3;4;5])] [0;2;1;3;4;5]));
  (*2763*) AddTo n_t3new_bbbbbb (Times (Einsum [(T 643,[0;1;2;3;4;5])] [0;2;1;3;5;4]) (-1) 1);
  (*2764*) AddTo n_t3new_bbbbbb (Plain (Einsum [(T 643,[0;1;2;3;4;5])] [0;2;1;5;3;4]));
  (*2765*) AddTo n_t3new_bbbbbb (Plain (Einsum [(T 643,[0;1;2;3;4;5])] [2;1;0;3;4;5]));
  (*2766*) AddTo n_t3new_bbbbbb (Times (Einsum [(T 643,[0;1;2;3;4;5])] [2;1;0;3;5;4]) (-1) 1);
  (*2767*) AddTo n_t3new_bbbbbb (Plain (Einsum [(T 643,[0;1;2;3;4;5])] [2;1;0;5;3;4]));
  (*2768*) Del (T 643);
  (*2769*) Assign (T 644) (Plain (Zeros [6;6;6;7;7;7]));
  (*2770*) AddTo (T 644) (Plain (Einsum [(T 128,[0;1;2;3]); (n_t3'babbab,[4;2;5;6;3;7])] [0;4;5;6;7;1]));
  (*2771*) Del (T 128);
  (*2772*) Assign (T 645) (Plain (Zeros [6;6;6;7;7;7]));
  (*2773*) AddTo (T 645) (Times (Einsum [(n_t2'bbbb,[0;1;2;3]); (T 383,[4;5;6;3])] [4;0;1;5;6;2]) (-1) 1);
  (*2774*) Del (T 383);
  (*2775*) Assign (T 646) (Plain (Zeros [6;6;6;7;7;7]));
  (*2776*) AddTo (T 646) (Times (Einsum [(T 183,[0;1;2;3]); (n_t3'bbbbbb,[4;5;0;6;7;3])] [4;5;1;6;7;2]) (-6) 1);
  (*2777*) Assign (T 647) (Plain (Zeros [6;6;6;7]));
  (*2778*) AddTo (T 647) (Plain (Einsum [(T 169,[0;1;2;3])] [0;1;2;3]));
  (*2779*) Del (T 169);
  (*2780*) AddTo (T 647) (Times (Einsum [(T 170,[0;1;2;3])] [0;1;2;3]) (3333333333333333) 10000000000000000);
  (*2781*) Del (T 170);
  (*2782*) Assign (T 648) (Plain (Zeros [6;6;6;7;7;7]));
  (*2783*) AddTo (T 648) (Times (Einsum [(n_t2'bbbb,[0;1;2;3]); (T 647,[4;5;1;6])] [4;5;0;6;2;3]) (-12) 1);
  (*2784*) Del (T 647);
  (*2785*) Assign (T 649) (Plain (Zeros [6;6;6;7;7;7]));
  (*2786*) AddTo (T 649) (Times (Einsum [(T 644,[0;1;2;3;4;5])] [0;2;1;4;3;5]) (2) 1);
  (*2787*) Del (T 644);
  (*2788*) AddTo (T 649) (Times (Einsum [(T 645,[0;1;2;3;4;5])] [0;2;1;4;3;5]) (-4) 1);
  (*2789*) Del (T 645);
  (*2790*) AddTo (T 649) (Plain (Einsum [(T 646,[0;1;2;3;4;5])] [2;0;1;3;4;5]));
  (*2791*) Del (T 646);
  (*2792*) AddTo (T 649) (Plain (Einsum [(T 648,[0;1;2;3;4;5])] [2;0;1;5;4;3]));
  (*2793*) Del (T 648);
  (*2794*) AddTo n_t3new_bbbbbb (Plain (Einsum [(T 649,[0;1;2;3;4;5])] [0;1;2;3;4;5]));
  (*2795*) AddTo n_t3new_bbbbbb (Times (Einsum [(T 649,[0;1;2;3;4;5])] [0;1;2;3;5;4]) (-1) 1);
  (*2796*) AddTo n_t3new_bbbbbb (Plain (Einsum [(T 649,[0;1;2;3;4;5])] [0;1;2;5;3;4]));
  (*2797*) AddTo n_t3new_bbbbbb (Plain (Einsum [(T 649,[0;1;2;3;4;5])] [2;0;1;3;4;5]));
  (*2798*) AddTo n_t3new_bbbbbb (Times (Einsum [(T 649,[0;1;2;3;4;5])] [2;0;1;3;5;4]) (-1) 1);
  (*2799*) AddTo n_t3new_bbbbbb (Plain (Einsum [(T 649,[0;1;2;3;4;5])] [2;0;1;5;3;4]));
  (*2800*) AddTo n_t3new_bbbbbb (Times (Einsum [(T 649,[0;1;2;3;4;5])] [2;1;0;3;4;5]) (-1) 1);
  (*2801*) AddTo n_t3new_bbbbbb (Plain (Einsum [(T 649,[0;1;2;3;4;5])] [2;1;0;3;5;4]));
  (*2802*) AddTo n_t3new_bbbbbb (Times (Einsum [(T 649,[0;1;2;3;4;5])] [2;1;0;5;3;4]) (-1) 1);
  (*2803*) Del (T 649);
  (*2804*) Assign (T 650) (Plain (Zeros [6;6;6;6;7;7]));
  (*2805*) AddTo (T 650) (Plain (Einsum [(n_v'bbbb'ovvv,[0;1;2;3]); (n_t3'bbbbbb,[4;5;6;7;1;3])] [4;5;6;0;7;2]));
  (*2806*) Assign (T 651) (Plain (Zeros [6;6;6;7;7;7]));
  (*2807*) AddTo (T 651) (Plain (Einsum [(n_t1'bb,[0;1]); (T 650,[2;3;4;0;5;6])] [2;3;4;1;5;6]));
  (*2808*) Del (T 650);
  (*2809*) AddTo n_t3new_bbbbbb (Times (Einsum [(T 651,[0;1;2;3;4;5])] [0;1;2;3;4;5]) (6) 1);
  (*2810*) AddTo n_t3new_bbbbbb (Times (Einsum [(T 651,[0;1;2;3;4;5])] [0;1;2;3;5;4]) (-6) 1);
  (*2811*) AddTo n_t3new_bbbbbb (Times (Einsum [(T 651,[0;1;2;3;4;5])] [0;1;2;4;3;5]) (-6) 1);
  (*2812*) AddTo n_t3new_bbbbbb (Times (Einsum [(T 651,[0;1;2;3;4;5])] [0;1;2;5;3;4]) (6) 1);
  (*2813*) AddTo n_t3new_bbbbbb (Times (Einsum [(T 651,[0;1;2;3;4;5])] [0;1;2;4;5;3]) (6) 1);
  (*2814*) AddTo n_t3new_bbbbbb (Times (Einsum [(T 651,[0;1;2;3;4;5])] [0;1;2;5;4;3]) (-6) 1);
  (*2815*) Del (T 651);
  (*2816*) Assign (T 652) (Plain (Zeros [6;6;6;7;7;7]));
  (*2817*) AddTo (T 652) (Times (Einsum [(T 441,[0;1]); (n_t3'bbbbbb,[2;3;4;5;6;0])] [2;3;4;5;6;1]) (6) 1);
  (*2818*) Del (T 441);
  (*2819*) Assign (T 653) (Plain (Zeros [6;6;6;6;6;7]));
  (*2820*) AddTo (T 653) (Times (Einsum [(n_v'bbbb'ovov,[0;1;2;3]); (n_t3'bbbbbb,[4;5;6;7;3;1])] [4;5;6;0;2;7]) (-1) 1);
  (*2821*) Assign (T 654) (Plain (Zeros [6;6;6;7;7;7]));
  (*2822*) AddTo (T 654) (Times (Einsum [(T 471,[0;1;2;3]); (T 653,[4;5;6;0;1;7])] [4;5;6;2;3;7]) (6) 1);
  (*2823*) Del (T 471);
  (*2823*) Del (T 653);
  (*2824*) Assign (T 655) (Plain (Zeros [6;6;6;7;7;7]));
  (*2825*) AddTo (T 655) (Plain (Einsum [(T 652,[0;1;2;3;4;5])] [1;2;0;3;4;5]));
  (*2826*) Del (T 652);
  (*2827*) AddTo (T 655) (Times (Einsum [(T 654,[0;1;2;3;4;5])] [0;1;2;4;3;5]) (-1) 1);
  (*2828*) Del (T 654);
  (*2829*) AddTo n_t3new_bbbbbb (Plain (Einsum [(T 655,[0;1;2;3;4;5])] [0;1;2;3;4;5]));
  (*2830*) AddTo n_t3new_bbbbbb (Times (Einsum [(T 655,[0;1;2;3;4;5])] [0;1;2;3;5;4]) (-1) 1);
  (*2831*) AddTo n_t3new_bbbbbb (Plain (Einsum [(T 655,[0;1;2;3;4;5])] [0;1;2;5;3;4]));
  (*2832*) Del (T 655);
  (*2833*) Assign (T 656) (Plain (Zeros [6;6;6;7;7;7]));
  (*2834*) AddTo (T 656) (Plain (Einsum [(n_t2'bbbb,[0;1;2;3]); (T 158,[4;5;3;6])] [4;0;1;2;6;5]));
  (*2835*) Del (T 158);
  (*2836*) Assign (T 657) (Plain (Zeros [6;6;6;6;6;7]));
  (*2837*) AddTo (T 657) (Plain (Einsum [(n_t2'bbbb,[0;1;2;3]); (T 2,[4;5;6;3])] [4;0;1;6;5;2]));
  (*2838*) Del (T 2);
  (*2839*) Assign (T 658) (Plain (Zeros [6;6;6;6;7;7]));
  (*2840*) AddTo (T 658) (Plain (Einsum [(n_t1'bb,[0;1]); (T 657,[2;3;4;5;0;6])] [2;3;4;5;1;6]));
  (*2841*) Del (T 657);
  (*2842*) Assign (T 659) (Plain (Zeros [6;6;6;6;7;7]));
  (*2843*) AddTo (T 659) (Plain (Einsum [(n_t2'bbbb,[0;1;2;3]); (T 183,[4;5;6;3])] [5;4;0;1;6;2]));
  (*2844*) Del (T 183);
  (*2845*) Assign (T 660) (Plain (Zeros [6;6;6;6;7;7]));
  (*2846*) AddTo (T 660) (Times (Einsum [(T 658,[0;1;2;3;4;5])] [0;2;1;3;4;5]) (-1) 1);
  (*2847*) Del (T 658);
  (*2848*) AddTo (T 660) (Times (Einsum [(T 659,[0;1;2;3;4;5])] [0;3;2;1;5;4]) (-1) 1);
  (*2849*) Del (T 659);
  (*2850*) Assign (T 661) (Plain (Zeros [6;6;6;7;7;7]));
  (*2851*) AddTo (T 661) (Times (Einsum [(n_t1'bb,[0;1]); (T 660,[2;3;4;0;5;6])] [2;3;4;5;6;1]) (2) 1);
  (*2852*) Del (T 660);
  (*2853*) Assign (T 662) (Plain (Zeros [6;6;6;7;7;7]));
  (*2854*) AddTo (T 662) (Times (Einsum [(T 656,[0;1;2;3;4;5])] [0;2;1;3;4;5]) (-2) 1);
  (*2855*) Del (T 656);
  (*2856*) AddTo (T 662) (Times (Einsum [(T 661,[0;1;2;3;4;5])] [0;2;1;5;3;4]) (-1) 1);
  (*2857*) Del (T 661);
  (*2858*) AddTo n_t3new_bbbbbb (Times (Einsum [(T 662,[0;1;2;3;4;5])] [0;1;2;3;4;5]) (-1) 1);
  (*2859*) AddTo n_t3new_bbbbbb (Plain (Einsum [(T 662,[0;1;2;3;4;5])] [0;1;2;3;5;4]));
  (*2860*) AddTo n_t3new_bbbbbb (Plain (Einsum [(T 662,[0;1;2;3;4;5])] [0;1;2;4;3;5]));
  (*2861*) AddTo n_t3new_bbbbbb (Times (Einsum [(T 662,[0;1;2;3;4;5])] [0;1;2;5;3;4]) (-1) 1);
  (*2862*) AddTo n_t3new_bbbbbb (Times (Einsum [(T 662,[0;1;2;3;4;5])] [0;1;2;4;5;3]) (-1) 1);
  (*2863*) AddTo n_t3new_bbbbbb (Plain (Einsum [(T 662,[0;1;2;3;4;5])] [0;1;2;5;4;3]));
  (*2864*) AddTo n_t3new_bbbbbb (Times (Einsum [(T 662,[0;1;2;3;4;5])] [2;0;1;3;4;5]) (-1) 1);
  (*2865*) AddTo n_t3new_bbbbbb (Plain (Einsum [(T 662,[0;1;2;3;4;5])] [2;0;1;3;5;4]));
  (*2866*) AddTo n_t3new_bbbbbb (Plain (Einsum [(T 662,[0;1;2;3;4;5])] [2;0;1;4;3;5]));
  (*2867*) AddTo n_t3new_bbbbbb (Times (Einsum [(T 662,[0;1;2;3;4;5])] [2;0;1;5;3;4]) (-1) 1);
  (*2868*) AddTo n_t3new_bbbbbb (Times (Einsum [(T 662,[0;1;2;3;4;5])] [2;0;1;4;5;3]) (-1) 1);
  (*2869*) AddTo n_t3new_bbbbbb (Plain (Einsum [(T 662,[0;1;2;3;4;5])] [2;0;1;5;4;3]));
  (*2870*) AddTo n_t3new_bbbbbb (Plain (Einsum [(T 662,[0;1;2;3;4;5])] [2;1;0;3;4;5]));
  (*2871*) AddTo n_t3new_bbbbbb (Times (Einsum [(T 662,[0;1;2;3;4;5])] [2;1;0;3;5;4]) (-1) 1);
  (*2872*) AddTo n_t3new_bbbbbb (Times (Einsum [(T 662,[0;1;2;3;4;5])] [2;1;0;4;3;5]) (-1) 1);
  (*2873*) AddTo n_t3new_bbbbbb (Plain (Einsum [(T 662,[0;1;2;3;4;5])] [2;1;0;5;3;4]));
  (*2874*) AddTo n_t3new_bbbbbb (Plain (Einsum [(T 662,[0;1;2;3;4;5])] [2;1;0;4;5;3]));
  (*2875*) AddTo n_t3new_bbbbbb (Times (Einsum [(T 662,[0;1;2;3;4;5])] [2;1;0;5;4;3]) (-1) 1);
  (*2876*) Del (T 662);
  (*2877*) Assign (T 663) (Plain (Zeros [6;6;6;7;7;7]));
  (*2878*) AddTo (T 663) (Times (Einsum [(n_v'bbbb'oooo,[0;1;2;3]); (n_t3'bbbbbb,[4;3;1;5;6;7])] [4;0;2;5;6;7]) (-1) 1);
  (*2879*) Assign (T 664) (Plain (Zeros [6;6]));
  (*2880*) AddTo (T 664) (Plain (Einsum [(n_f'bb'oo,[0;1])] [0;1]));
  (*2881*) AddTo (T 664) (Times (Einsum [(T 17,[0;1])] [1;0]) (2) 1);
  (*2882*) Del (T 17);
  (*2883*) AddTo (T 664) (Plain (Einsum [(T 18,[0;1])] [1;0]));
  (*2884*) Del (T 18);
  (*2885*) AddTo (T 664) (Plain (Einsum [(T 21,[0;1])] [0;1]));
  (*2886*) Del (T 21);
  (*2887*) Assign (T 665) (Plain (Zeros [6;6;6;7;7;7]));
  (*2888*) AddTo (T 665) (Times (Einsum [(T 664,[0;1]); (n_t3'bbbbbb,[2;3;0;4;5;6])] [2;3;1;4;5;6]) (6) 1);
  (*2889*) Del (T 664);
  (*2890*) Assign (T 666) (Plain (Zeros [6;6;6;7;7;7]));
  (*2891*) AddTo (T 666) (Times (Einsum [(T 663,[0;1;2;3;4;5])] [0;2;1;4;5;3]) (6) 1);
  (*2892*) Del (T 663);
  (*2893*) AddTo (T 666) (Plain (Einsum [(T 665,[0;1;2;3;4;5])] [2;0;1;4;5;3]));
  (*2894*) Del (T 665);
  (*2895*) AddTo n_t3new_bbbbbb (Times (Einsum [(T 666,[0;1;2;3;4;5])] [0;1;2;5;3;4]) (-1) 1);
  (*2896*) AddTo n_t3new_bbbbbb (Times (Einsum [(T 666,[0;1;2;3;4;5])] [2;0;1;5;3;4]) (-1) 1);
  (*2897*) AddTo n_t3new_bbbbbb (Plain (Einsum [(T 666,[0;1;2;3;4;5])] [2;1;0;5;3;4]));
  (*2898*) Del (T 666);
  (*2899*) Assign (T 667) (Plain (Zeros [6;6;6;7;7;7]));
  (*2900*) AddTo (T 667) (Times (Einsum [(n_v'bbbb'vvvv,[0;1;2;3]); (n_t3'bbbbbb,[4;5;6;7;3;1])] [4;5;6;7;0;2]) (-1) 1);
  (*2901*) Assign (T 668) (Plain (Zeros [7;7]));
  (*2902*) AddTo (T 668) (Times (Einsum [(n_f'bb'vv,[0;1])] [0;1]) (-1) 1);
  (*2903*) AddTo (T 668) (Times (Einsum [(T 143,[0;1])] [1;0]) (2) 1);
  (*2904*) Del (T 143);
  (*2905*) AddTo (T 668) (Plain (Einsum [(T 144,[0;1])] [1;0]));
  (*2906*) Del (T 144);
  (*2907*) AddTo (T 668) (Plain (Einsum [(T 146,[0;1])] [0;1]));
  (*2908*) Del (T 146);
  (*2909*) Assign (T 669) (Plain (Zeros [6;6;6;7;7;7]));
  (*2910*) AddTo (T 669) (Times (Einsum [(T 668,[0;1]); (n_t3'bbbbbb,[2;3;4;5;6;0])] [2;3;4;5;6;1]) (6) 1);
  (*2911*) Del (T 668);
  (*2912*) Assign (T 670) (Plain (Zeros [6;6;6;7;7;7]));
  (*2913*) AddTo (T 670) (Times (Einsum [(T 667,[0;1;2;3;4;5])] [0;1;2;3;5;4]) (-6) 1);
  (*2914*) Del (T 667);
  (*2915*) AddTo (T 670) (Times (Einsum [(T 669,[0;1;2;3;4;5])] [1;2;0;5;3;4]) (-1) 1);
  (*2916*) Del (T 669);
  (*2917*) AddTo n_t3new_bbbbbb (Plain (Einsum [(T 670,[0;1;2;3;4;5])] [0;1;2;3;4;5]));
  (*2918*) AddTo n_t3new_bbbbbb (Times (Einsum [(T 670,[0;1;2;3;4;5])] [0;1;2;4;3;5]) (-1) 1);
  (*2919*) AddTo n_t3new_bbbbbb (Plain (Einsum [(T 670,[0;1;2;3;4;5])] [0;1;2;4;5;3]));
  (*2920*) Del (T 670);
  (*2921*) Assign (T 671) (Plain (Zeros [6;6;6;6]));
  (*2922*) AddTo (T 671) (Plain (Einsum [(T 211,[0;1;2;3])] [1;0;3;2]));
  (*2923*) Del (T 211);
  (*2924*) AddTo (T 671) (Plain (Einsum [(T 172,[0;1;2;3])] [0;1;2;3]));
  (*2925*) Assign (T 672) (Plain (Zeros [6;6;6;7;7;7]));
  (*2926*) AddTo (T 672) (Times (Einsum [(T 671,[0;1;2;3]); (n_t3'bbbbbb,[4;2;3;5;6;7])] [4;0;1;5;6;7]) (-6) 1);
  (*2927*) Del (T 671);
  (*2928*) Assign (T 673) (Plain (Zeros [6;6;6;7;7;7]));
  (*2929*) AddTo (T 673) (Times (Einsum [(T 418,[0;1]); (n_t3'bbbbbb,[2;3;0;4;5;6])] [2;3;1;4;5;6]) (6) 1);
  (*2930*) Del (T 418);
  (*2931*) Assign (T 674) (Plain (Zeros [6;6;6;7;7;7]));
  (*2932*) AddTo (T 674) (Plain (Einsum [(T 672,[0;1;2;3;4;5])] [2;1;0;4;5;3]));
  (*2933*) Del (T 672);
  (*2934*) AddTo (T 674) (Times (Einsum [(T 673,[0;1;2;3;4;5])] [0;1;2;4;5;3]) (-1) 1);
  (*2935*) Del (T 673);
  (*2936*) AddTo n_t3new_bbbbbb (Plain (Einsum [(T 674,[0;1;2;3;4;5])] [0;1;2;5;3;4]));
  (*2937*) AddTo n_t3new_bbbbbb (Times (Einsum [(T 674,[0;1;2;3;4;5])] [0;2;1;5;3;4]) (-1) 1);
  (*2938*) AddTo n_t3new_bbbbbb (Times (Einsum [(T 674,[0;1;2;3;4;5])] [2;1;0;5;3;4]) (-1) 1);
  (*2939*) Del (T 674);
  (*2940*) Assign (T 675) (Plain (Zeros [6;7;7;7]));
  (*2941*) AddTo (T 675) (Times (Einsum [(T 404,[0;1;2;3])] [0;2;1;3]) (-1) 1);
  (*2942*) Del (T 404);
  (*2943*) AddTo (T 675) (Times (Einsum [(T 405,[0;1;2;3])] [0;2;1;3]) (-3333333333333333) 10000000000000000);
  (*2944*) Del (T 405);
  (*2945*) Assign (T 676) (Plain (Zeros [6;6;6;7;7;7]));
  (*2946*) AddTo (T 676) (Times (Einsum [(n_t2'bbbb,[0;1;2;3]); (T 675,[4;5;6;3])] [4;0;1;5;6;2]) (-12) 1);
  (*2947*) Del (T 675);
  (*2948*) Assign (T 677) (Plain (Zeros [6;6;6;6;7;7]));
  (*2949*) AddTo (T 677) (Plain (Einsum [(n_v'aabb'ovoo,[0;1;2;3]); (n_t3'babbab,[4;0;5;6;1;7])] [4;5;2;3;6;7]));
  (*2950*) Assign (T 678) (Plain (Zeros [6;6;6;7]));
  (*2951*) AddTo (T 678) (Plain (Einsum [(n_v'bbbb'ooov,[0;1;2;3])] [0;1;2;3]));
  (*2952*) AddTo (T 678) (Times (Einsum [(n_v'bbbb'ooov,[0;1;2;3])] [2;0;1;3]) (-1) 1);
  (*2953*) Assign (T 679) (Plain (Zeros [6;6;6;6;7;7]));
  (*2954*) AddTo (T 679) (Plain (Einsum [(T 678,[0;1;2;3]); (n_t3'bbbbbb,[4;5;0;6;7;3])] [4;5;1;2;6;7]));
  (*2955*) Del (T 678);
  (*2956*) Assign (T 680) (Plain (Zeros [6;6;6;6;7;7]));
  (*2957*) AddTo (T 680) (Times (Einsum [(T 677,[0;1;2;3;4;5])] [0;1;3;2;5;4]) (-3333333333333333) 10000000000000000);
  (*2958*) Del (T 677);
  (*2959*) AddTo (T 680) (Times (Einsum [(T 679,[0;1;2;3;4;5])] [0;1;3;2;4;5]) (-1) 1);
  (*2960*) Del (T 679);
  (*2961*) Assign (T 681) (Plain (Zeros [6;6;6;7;7;7]));
  (*2962*) AddTo (T 681) (Times (Einsum [(n_t1'bb,[0;1]); (T 680,[2;3;0;4;5;6])] [2;3;4;5;6;1]) (6) 1);
  (*2963*) Del (T 680);
  (*2964*) Assign (T 682) (Plain (Zeros [6;6;6;7;7;7]));
  (*2965*) AddTo (T 682) (Times (Einsum [(T 676,[0;1;2;3;4;5])] [2;1;0;5;4;3]) (-1) 1);
  (*2966*) Del (T 676);
  (*2967*) AddTo (T 682) (Plain (Einsum [(T 681,[0;1;2;3;4;5])] [0;1;2;5;4;3]));
  (*2968*) Del (T 681);
  (*2969*) AddTo n_t3new_bbbbbb (Plain (Einsum [(T 682,[0;1;2;3;4;5])] [0;1;2;3;4;5]));
  (*2970*) AddTo n_t3new_bbbbbb (Times (Einsum [(T 682,[0;1;2;3;4;5])] [0;1;2;4;3;5]) (-1) 1);
  (*2971*) AddTo n_t3new_bbbbbb (Plain (Einsum [(T 682,[0;1;2;3;4;5])] [0;1;2;4;5;3]));
  (*2972*) AddTo n_t3new_bbbbbb (Times (Einsum [(T 682,[0;1;2;3;4;5])] [0;2;1;3;4;5]) (-1) 1);
  (*2973*) AddTo n_t3new_bbbbbb (Plain (Einsum [(T 682,[0;1;2;3;4;5])] [0;2;1;4;3;5]));
  (*2974*) AddTo n_t3new_bbbbbb (Times (Einsum [(T 682,[0;1;2;3;4;5])] [0;2;1;4;5;3]) (-1) 1);
  (*2975*) AddTo n_t3new_bbbbbb (Times (Einsum [(T 682,[0;1;2;3;4;5])] [2;1;0;3;4;5]) (-1) 1);
  (*2976*) AddTo n_t3new_bbbbbb (Plain (Einsum [(T 682,[0;1;2;3;4;5])] [2;1;0;4;3;5]));
  (*2977*) AddTo n_t3new_bbbbbb (Times (Einsum [(T 682,[0;1;2;3;4;5])] [2;1;0;4;5;3]) (-1) 1);
  (*2978*) Del (T 682);
  (*2979*) Assign (T 683) (Plain (Zeros [6;6;7;7]));
  (*2980*) AddTo (T 683) (Times (Einsum [(n_t2'bbbb,[0;1;2;3])] [0;1;2;3]) (5000000000000051) 2500000000000000);
  (*2981*) AddTo (T 683) (Times (Einsum [(n_t1'bb,[0;1]); (n_t1'bb,[2;3])] [0;2;3;1]) (-1) 1);
  (*2982*) Assign (T 684) (Plain (Zeros [6;6;7;7]));
  (*2983*) AddTo (T 684) (Times (Einsum [(T 683,[0;1;2;3]); (T 8,[0;4;2;5])] [4;1;5;3]) (4999999999999949) 10000000000000000);
  (*2984*) Del (T 8);
  (*2984*) Del (T 683);
  (*2985*) Assign (T 685) (Plain (Zeros [6;6;7;7]));
  (*2986*) AddTo (T 685) (Times (Einsum [(T 112,[0;1;2;3])] [0;1;2;3]) (49999999999999983) 100000000000000000);
  (*2987*) Del (T 112);
  (*2988*) AddTo (T 685) (Times (Einsum [(T 684,[0;1;2;3])] [1;0;3;2]) (-1) 1);
  (*2989*) Del (T 684);
  (*2990*) Assign (T 686) (Plain (Zeros [6;6;6;7;7;7]));
  (*2991*) AddTo (T 686) (Times (Einsum [(T 685,[0;1;2;3]); (n_t3'bbbbbb,[4;5;1;6;7;3])] [4;5;0;6;7;2]) (12000000000000123) 1000000000000000);
  (*2992*) Del (T 685);
  (*2993*) Assign (T 687) (Plain (Zeros [6;7;4;5]));
  (*2994*) AddTo (T 687) (Times (Einsum [(n_t2'abab,[0;1;2;3]); (T 12,[0;4;2;5])] [1;3;4;5]) (1) 2);
  (*2995*) Del (T 12);
  (*2996*) Assign (T 688) (Plain (Zeros [6;7;4;5]));
  (*2997*) AddTo (T 688) (Plain (Einsum [(n_v'aabb'ovov,[0;1;2;3]); (T 316,[2;4;3;5])] [4;5;0;1]));
  (*2998*) Del (T 316);
  (*2999*) Assign (T 689) (Plain (Zeros [6;7;4;5]));
  (*3000*) AddTo (T 689) (Times (Einsum [(T 687,[0;1;2;3])] [0;1;2;3]) (-1) 1);
  (*3001*) Del (T 687);
  (*3002*) AddTo (T 689) (Plain (Einsum [(T 688,[0;1;2;3])] [0;1;2;3]));
  (*3003*) Del (T 688);
  (*3004*) Assign (T 690) (Plain (Zeros [6;6;6;7;7;7]));
  (*3005*) AddTo (T 690) (Times (Einsum [(T 689,[0;1;2;3]); (n_t3'babbab,[4;2;5;6;3;7])] [0;4;5;1;6;7]) (100000000000001) 25000000000000);
  (*3006*) Del (T 689);
  (*3007*) Assign (T 691) (Plain (Zeros [6;6;6;7;7;7]));
  (*3008*) AddTo (T 691) (Plain (Einsum [(T 686,[0;1;2;3;4;5])] [2;0;1;5;3;4]));
  (*3009*) Del (T 686);
  (*3010*) AddTo (T 691) (Plain (Einsum [(T 690,[0;1;2;3;4;5])] [0;2;1;3;5;4]));
  (*3011*) Del (T 690);
  (*3012*) AddTo n_t3new_bbbbbb (Plain (Einsum [(T 691,[0;1;2;3;4;5])] [0;1;2;3;4;5]));
  (*3013*) AddTo n_t3new_bbbbbb (Times (Einsum [(T 691,[0;1;2;3;4;5])] [0;1;2;4;3;5]) (-1) 1);
  (*3014*) AddTo n_t3new_bbbbbb (Plain (Einsum [(T 691,[0;1;2;3;4;5])] [0;1;2;4;5;3]));
  (*3015*) AddTo n_t3new_bbbbbb (Plain (Einsum [(T 691,[0;1;2;3;4;5])] [2;0;1;3;4;5]));
  (*3016*) AddTo n_t3new_bbbbbb (Times (Einsum [(T 691,[0;1;2;3;4;5])] [2;0;1;4;3;5]) (-1) 1);
  (*3017*) AddTo n_t3new_bbbbbb (Plain (Einsum [(T 691,[0;1;2;3;4;5])] [2;0;1;4;5;3]));
  (*3018*) AddTo n_t3new_bbbbbb (Times (Einsum [(T 691,[0;1;2;3;4;5])] [2;1;0;3;4;5]) (-1) 1);
  (*3019*) AddTo n_t3new_bbbbbb (Plain (Einsum [(T 691,[0;1;2;3;4;5])] [2;1;0;4;3;5]));
  (*3020*) AddTo n_t3new_bbbbbb (Times (Einsum [(T 691,[0;1;2;3;4;5])] [2;1;0;4;5;3]) (-1) 1);
  (*3021*) Del (T 691);
  (*3022*) Assign (T 692) (Plain (Zeros [6;6;6;7;7;7]));
  (*3023*) AddTo (T 692) (Plain (Einsum [(T 185,[0;1;2;3]); (n_t3'bbbbbb,[4;2;3;5;6;7])] [0;4;1;5;6;7]));
  (*3024*) Del (T 185);
  (*3025*) AddTo n_t3new_bbbbbb (Times (Einsum [(T 692,[0;1;2;3;4;5])] [0;1;2;4;5;3]) (6) 1);
  (*3026*) AddTo n_t3new_bbbbbb (Times (Einsum [(T 692,[0;1;2;3;4;5])] [0;2;1;4;5;3]) (-6) 1);
  (*3027*) AddTo n_t3new_bbbbbb (Times (Einsum [(T 692,[0;1;2;3;4;5])] [1;0;2;4;5;3]) (-6) 1);
  (*3028*) AddTo n_t3new_bbbbbb (Times (Einsum [(T 692,[0;1;2;3;4;5])] [2;0;1;4;5;3]) (6) 1);
  (*3029*) AddTo n_t3new_bbbbbb (Times (Einsum [(T 692,[0;1;2;3;4;5])] [1;2;0;4;5;3]) (6) 1);
  (*3030*) AddTo n_t3new_bbbbbb (Times (Einsum [(T 692,[0;1;2;3;4;5])] [2;1;0;4;5;3]) (-6) 1);
  (*3031*) Del (T 692);
  (*3032*) Assign (T 693) (Plain (Zeros [6;6;6;7]));
  (*3033*) AddTo (T 693) (Plain (Einsum [(n_t1'bb,[0;1]); (n_v'bbbb'oovv,[2;3;4;1])] [0;2;3;4]));
  (*3034*) Assign (T 694) (Plain (Zeros [6;6;6;7]));
  (*3035*) AddTo (T 694) (Plain (Einsum [(n_t2'bbbb,[0;1;2;3]); (n_v'bbbb'ooov,[4;5;1;3])] [0;4;5;2]));
  (*3036*) Assign (T 695) (Plain (Zeros [6;6;6;7]));
  (*3037*) AddTo (T 695) (Plain (Einsum [(T 693,[0;1;2;3])] [0;2;1;3]));
  (*3038*) Del (T 693);
  (*3039*) AddTo (T 695) (Times (Einsum [(T 694,[0;1;2;3])] [0;2;1;3]) (2) 1);
  (*3040*) Del (T 694);
  (*3041*) AddTo (T 695) (Plain (Einsum [(T 187,[0;1;2;3])] [0;2;1;3]));
  (*3042*) Del (T 187);
  (*3043*) Assign (T 696) (Plain (Zeros [6;6;6;7]));
  (*3044*) AddTo (T 696) (Plain (Einsum [(n_t1'bb,[0;1]); (T 172,[2;3;0;4])] [3;2;4;1]));
  (*3045*) Del (T 172);
  (*3046*) Assign (T 697) (Plain (Zeros [6;6;6;7]));
  (*3047*) AddTo (T 697) (Times (Einsum [(n_t2'bbbb,[0;1;2;3]); (T 413,[4;5;1;3])] [4;5;0;2]) (2) 1);
  (*3048*) Del (T 413);
  (*3049*) Assign (T 698) (Plain (Zeros [6;6;7;7]));
  (*3050*) AddTo (T 698) (Plain (Einsum [(n_v'bbbb'ovov,[0;1;2;3])] [0;2;1;3]));
  (*3051*) AddTo (T 698) (Plain (Einsum [(T 178,[0;1;2;3])] [1;0;2;3]));
  (*3052*) Del (T 178);
  (*3053*) Assign (T 699) (Plain (Zeros [6;6;6;7]));
  (*3054*) AddTo (T 699) (Plain (Einsum [(n_t1'bb,[0;1]); (T 698,[2;3;1;4])] [2;3;0;4]));
  (*3055*) Del (T 698);
  (*3056*) Assign (T 700) (Plain (Zeros [6;6;6;7]));
  (*3057*) AddTo (T 700) (Times (Einsum [(n_v'bbbb'ooov,[0;1;2;3]); (T 114,[1;4;3;5])] [4;0;2;5]) (2) 1);
  (*3058*) Del (T 114);
  (*3059*) Assign (T 701) (Plain (Zeros [6;6;6;7]));
  (*3060*) AddTo (T 701) (Times (Einsum [(T 696,[0;1;2;3])] [0;1;2;3]) (-1) 1);
  (*3061*) Del (T 696);
  (*3062*) AddTo (T 701) (Plain (Einsum [(T 188,[0;1;2;3])] [0;1;2;3]));
  (*3063*) Del (T 188);
  (*3064*) AddTo (T 701) (Times (Einsum [(T 697,[0;1;2;3])] [0;2;1;3]) (-1) 1);
  (*3065*) Del (T 697);
  (*3066*) AddTo (T 701) (Plain (Einsum [(T 699,[0;1;2;3])] [2;1;0;3]));
  (*3067*) Del (T 699);
  (*3068*) AddTo (T 701) (Plain (Einsum [(T 700,[0;1;2;3])] [0;1;2;3]));
  (*3069*) Del (T 700);
  (*3070*) Assign (T 702) (Plain (Zeros [6;6;6;7]));
  (*3071*) AddTo (T 702) (Times (Einsum [(n_v'bbbb'ooov,[0;1;2;3])] [0;2;1;3]) (-1) 1);
  (*3072*) AddTo (T 702) (Plain (Einsum [(n_v'bbbb'ooov,[0;1;2;3])] [2;0;1;3]));
  (*3073*) AddTo (T 702) (Plain (Einsum [(T 695,[0;1;2;3])] [0;1;2;3]));
  (*3074*) AddTo (T 702) (Times (Einsum [(T 695,[0;1;2;3])] [1;0;2;3]) (-1) 1);
  (*3075*) Del (T 695);
  (*3076*) AddTo (T 702) (Times (Einsum [(T 701,[0;1;2;3])] [0;1;2;3]) (-1) 1);
  (*3077*) AddTo (T 702) (Plain (Einsum [(T 701,[0;1;2;3])] [1;0;2;3]));
  (*3078*) Del (T 701);
  (*3079*) AddTo (T 702) (Times (Einsum [(T 186,[0;1;2;3])] [0;2;1;3]) (-1) 1);
  (*3080*) AddTo (T 702) (Plain (Einsum [(T 186,[0;1;2;3])] [1;0;2;3]));
  (*3081*) Del (T 186);
  (*3082*) AddTo (T 702) (Plain (Einsum [(T 171,[0;1;2;3])] [2;1;0;3]));
  (*3083*) Del (T 171);
  (*3084*) AddTo (T 702) (Plain (Einsum [(T 481,[0;1;2;3])] [1;0;2;3]));
  (*3085*) Del (T 481);
  (*3086*) Assign (T 703) (Plain (Zeros [6;6;6;7;7;7]));
  (*3087*) AddTo (T 703) (Times (Einsum [(n_t2'bbbb,[0;1;2;3]); (T 702,[4;5;1;6])] [4;5;0;6;2;3]) (-2) 1);
  (*3088*) Del (T 702);
  (*3089*) AddTo n_t3new_bbbbbb (Plain (Einsum [(T 703,[0;1;2;3;4;5])] [0;1;2;5;4;3]));
  (*3090*) AddTo n_t3new_bbbbbb (Plain (Einsum [(T 703,[0;1;2;3;4;5])] [0;1;2;3;5;4]));
  (*3091*) AddTo n_t3new_bbbbbb (Plain (Einsum [(T 703,[0;1;2;3;4;5])] [0;2;1;5;3;4]));
  (*3092*) AddTo n_t3new_bbbbbb (Plain (Einsum [(T 703,[0;1;2;3;4;5])] [2;0;1;5;4;3]));
  (*3093*) AddTo n_t3new_bbbbbb (Plain (Einsum [(T 703,[0;1;2;3;4;5])] [2;0;1;3;5;4]));
  (*3094*) AddTo n_t3new_bbbbbb (Times (Einsum [(T 703,[0;1;2;3;4;5])] [0;1;2;5;3;4]) (-1) 1);
  (*3095*) AddTo n_t3new_bbbbbb (Times (Einsum [(T 703,[0;1;2;3;4;5])] [0;2;1;5;4;3]) (-1) 1);
  (*3096*) AddTo n_t3new_bbbbbb (Times (Einsum [(T 703,[0;1;2;3;4;5])] [0;2;1;3;5;4]) (-1) 1);
  (*3097*) AddTo n_t3new_bbbbbb (Times (Einsum [(T 703,[0;1;2;3;4;5])] [2;0;1;5;3;4]) (-1) 1);
  (*3098*) Del (T 703);
  (*3100*) Assign n_t1new'aa (Plain (Copy n_t1new_aa));
  (*3101*) Assign n_t1new'bb (Plain (Copy n_t1new_bb));
  (*3102*) Assign n_t2new'aaaa (Plain (Copy n_t2new_aaaa));
  (*3103*) Assign n_t2new'abab (Plain (Copy n_t2new_abab));
  (*3104*) Assign n_t2new'bbbb (Plain (Copy n_t2new_bbbb));
  (*3105*) Assign n_t3new'aaaaaa (Plain (Copy n_t3new_aaaaaa));
  (*3106*) Assign n_t3new'abaaba (Plain (Copy n_t3new_abaaba));
  (*3107*) Assign n_t3new'babbab (Plain (Copy n_t3new_babbab));
  (*3108*) Assign n_t3new'bbbbbb (Plain (Copy n_t3new_bbbbbb))]
 [(n_t1new'aa,[4;5]); (n_t1new'bb,[6;7]); (n_t2new'aaaa,[4;4;5;5]); (n_t2new'abab,[4;6;5;7]); (n_t2new'bbbb,[6;6;7;7]); (n_t3new'aaaaaa,[4;4;4;5;5;5]); (n_t3new'abaaba,[4;6;4;5;7;5]); (n_t3new'babbab,[6;4;6;7;5;7]); (n_t3new'bbbbbb,[6;6;6;7;7;7])].

(** ebcc/codegen/UCCSDT.py:3112-6954 [update_lams] *)
Definition UCCSDT_update_lams : prog := mkprog
 [(n_f'bb'ov,[6;7]); (n_l2'bbbb,[7;7;6;6]); (n_v'bbbb'ovvv,[6;7;7;7]); (n_f'aa'ov,[4;5]); (n_l2'aaaa,[5;5;4;4]); (n_v'aaaa'vvvv,[5;5;5;5]); (n_l1'aa,[5;4]); (n_v'aabb'vvov,[5;5;6;7]); (n_v'aabb'ovov,[4;5;6;7]); (n_l1'bb,[7;6]); (n_v'aabb'ovvv,[4;5;7;7]); (n_l2'abab,[5;7;4;6]); (n_v'aabb'vvvv,[5;5;7;7]); (n_v'bbbb'vvvv,[7;7;7;7]); (n_v'aaaa'ovov,[4;5;4;5]); (n_l3'babbab,[7;5;7;6;4;6]); (n_l3'abaaba,[5;7;5;4;6;4]); (n_v'bbbb'ovov,[6;7;6;7]); (n_t2'bbbb,[6;6;7;7]); (n_l3'bbbbbb,[7;7;7;6;6;6]); (n_t1'bb,[6;7]); (n_v'bbbb'ooov,[6;6;6;7]); (n_v'aabb'ovoo,[4;5;6;6]); (n_t1'aa,[4;5]); (n_v'aabb'ooov,[4;4;6;7]); (n_t2'abab,[4;6;5;7]); (n_v'bbbb'oovv,[6;6;7;7]); (n_t2'aaaa,[4;4;5;5]); (n_v'aabb'vvoo,[5;5;6;6]); (n_v'bbbb'oooo,[6;6;6;6]); (n_v'aabb'oooo,[4;4;6;6]); (n_t3'babbab,[6;4;6;7;5;7]); (n_t3'abaaba,[4;6;4;5;7;5]); (n_t3'aaaaaa,[4;4;4;5;5;5]); (n_t3'bbbbbb,[6;6;6;7;7;7]); (n_v'aabb'oovv,[4;4;7;7]); (n_l3'aaaaaa,[5;5;5;4;4;4]); (n_f'bb'vv,[7;7]); (n_f'bb'oo,[6;6]); (n_v'aaaa'ooov,[4;4;4;5]); (n_v'aaaa'ovvv,[4;5;5;5]); (n_v'aaaa'oovv,[4;4;5;5]); (n_v'aaaa'oooo,[4;4;4;4]); (n_f'aa'vv,[5;5]); (n_f'aa'oo,[4;4])]
 [(*3118*) Assign n_l1new_bb (Plain (Zeros [7;6]));
  (*3119*) AddTo n_l1new_bb (Plain (Einsum [(n_f'bb'ov,[0;1])] [1;0]));
  (*3120*) AddTo n_l1new_bb (Times (Einsum [(n_l2'bbbb,[0;1;2;3]); (n_v'bbbb'ovvv,[3;0;4;1])] [4;2]) (-2) 1);
  (*3121*) Assign n_l1new_aa (Plain (Zeros [5;4]));
  (*3122*) AddTo n_l1new_aa (Plain (Einsum [(n_f'aa'ov,[0;1])] [1;0]));
  (*3123*) Assign n_l2new_aaaa (Plain (Zeros [5;5;4;4]));
  (*3124*) AddTo n_l2new_aaaa (Times (Einsum [(n_l2'aaaa,[0;1;2;3]); (n_v'aaaa'vvvv,[4;1;5;0])] [4;5;2;3]) (-2) 1);
  (*3125*) Assign n_l2new_abab (Plain (Zeros [5;7;4;6]));
  (*3126*) AddTo n_l2new_abab (Plain (Einsum [(n_l1'aa,[0;1]); (n_v'aabb'vvov,[2;0;3;4])] [2;4;1;3]));
  (*3127*) AddTo n_l2new_abab (Plain (Einsum [(n_v'aabb'ovov,[0;1;2;3])] [1;3;0;2]));
  (*3128*) AddTo n_l2new_abab (Plain (Einsum [(n_l1'bb,[0;1]); (n_v'aabb'ovvv,[2;3;4;0])] [3;4;2;1]));
  (*3129*) AddTo n_l2new_abab (Plain (Einsum [(n_l2'abab,[0;1;2;3]); (n_v'aabb'vvvv,[4;0;5;1])] [4;5;2;3]));
  (*3130*) Assign n_l2new_bbbb (Plain (Zeros [7;7;6;6]));
  (*3131*) AddTo n_l2new_bbbb (Times (Einsum [(n_l2'bbbb,[0;1;2;3]); (n_v'bbbb'vvvv,[4;0;5;1])] [4;5;2;3]) (2) 1);
  (*3132*) Assign n_l3new_aaaaaa (Plain (Zeros [5;5;5;4;4;4]));
  (*3133*) AddTo n_l3new_aaaaaa (Times (Einsum [(n_l1'aa,[0;1]); (n_v'aaaa'ovov,[2;3;4;5])] [0;5;3;1;2;4]) (-1) 1);
  (*3134*) AddTo n_l3new_aaaaaa (Plain (Einsum [(n_l1'aa,[0;1]); (n_v'aaaa'ovov,[2;3;4;5])] [0;3;5;1;2;4]));
  (*3135*) AddTo n_l3new_aaaaaa (Plain (Einsum [(n_l1'aa,[0;1]); (n_v'aaaa'ovov,[2;3;4;5])] [5;0;3;1;2;4]));
  (*3136*) AddTo n_l3new_aaaaaa (Times (Einsum [(n_l1'aa,[0;1]); (n_v'aaaa'ovov,[2;3;4;5])] [3;0;5;1;2;4]) (-1) 1);
  (*3137*) AddTo n_l3new_aaaaaa (Times (Einsum [(n_l1'aa,[0;1]); (n_v'aaaa'ovov,[2;3;4;5])] [5;3;0;1;2;4]) (-1) 1);
  (*3138*) AddTo n_l3new_aaaaaa (Plain (Einsum [(n_l1'aa,[0;1]); (n_v'aaaa'ovov,[2;3;4;5])] [3;5;0;1;2;4]));
  (*3139*) AddTo n_l3new_aaaaaa (Plain (Einsum [(n_l1'aa,[0;1]); (n_v'aaaa'ovov,[2;3;4;5])] [0;5;3;2;1;4]));
  (*3140*) AddTo n_l3new_aaaaaa (Times (Einsum [(n_l1'aa,[0;1]); (n_v'aaaa'ovov,[2;3;4;5])] [0;3;5;2;1;4]) (-1) 1);
  (*3141*) AddTo n_l3new_aaaaaa (Times (Einsum [(n_l1'aa,[0;1]); (n_v'aaaa'ovov,[2;3;4;5])] [5;0;3;2;1;4]) (-1) 1);
  (*3142*) AddTo n_l3new_aaaaaa (Plain (Einsum [(n_l1'aa,[0;1]); (n_v'aaaa'ovov,[2;3;4;5])] [3;0;5;2;1;4]));
  (*3143*) AddTo n_l3new_aaaaaa (Plain (Einsum [(n_l1'aa,[0;1]); (n_v'aaaa'ovov,[2;3;4;5])] [5;3;0;2;1;4]));
  (*3144*) AddTo n_l3new_aaaaaa (Times (Einsum [(n_l1'aa,[0;1]); (n_v'aaaa'ovov,[2;3;4;5])] [3;5;0;2;1;4]) (-1) 1);
  (*3145*) AddTo n_l3new_aaaaaa (Times (Einsum [(n_l1'aa,[0;1]); (n_v'aaaa'ovov,[2;3;4;5])] [0;5;3;2;4;1]) (-1) 1);
  (*3146*) AddTo n_l3new_aaaaaa (Plain (Einsum [(n_l1'aa,[0;1]); (n_v'aaaa'ovov,[2;3;4;5])] [0;3;5;2;4;1]));
  (*3147*) AddTo n_l3new_aaaaaa (Plain (Einsum [(n_l1'aa,[0;1]); (n_v'aaaa'ovov,[2;3;4;5])] [5;0;3;2;4;1]));
  (*3148*) AddTo n_l3new_aaaaaa (Times (Einsum [(n_l1'aa,[0;1]); (n_v'aaaa'ovov,[2;3;4;5])] [3;0;5;2;4;1]) (-1) 1);
  (*3149*) AddTo n_l3new_aaaaaa (Times (Einsum [(n_l1'aa,[0;1]); (n_v'aaaa'ovov,[2;3;4;5])] [5;3;0;2;4;1]) (-1) 1);
  (*3150*) AddTo n_l3new_aaaaaa (Plain (Einsum [(n_l1'aa,[0;1]); (n_v'aaaa'ovov,[2;3;4;5])] [3;5;0;2;4;1]));
  (*3151*) Assign n_l3new_babbab (Plain (Zeros [7;5;7;6;4;6]));
  (*3152*) AddTo n_l3new_babbab (Times (Einsum [(n_v'bbbb'vvvv,[0;1;2;3]); (n_l3'babbab,[3;4;1;5;6;7])] [0;4;2;5;6;7]) (-2) 1);
  (*3153*) Assign n_l3new_abaaba (Plain (Zeros [5;7;5;4;6;4]));
  (*3154*) AddTo n_l3new_abaaba (Times (Einsum [(n_v'aaaa'vvvv,[0;1;2;3]); (n_l3'abaaba,[1;4;3;5;6;7])] [0;4;2;5;6;7]) (2) 1);
  (*3155*) Assign n_l3new_bbbbbb (Plain (Zeros [7;7;7;6;6;6]));
  (*3156*) AddTo n_l3new_bbbbbb (Times (Einsum [(n_l1'bb,[0;1]); (n_v'bbbb'ovov,[2;3;4;5])] [0;5;3;1;2;4]) (-1) 1);
  (*3157*) AddTo n_l3new_bbbbbb (Plain (Einsum [(n_l1'bb,[0;1]); (n_v'bbbb'ovov,[2;3;4;5])] [0;3;5;1;2;4]));
  (*3158*) AddTo n_l3new_bbbbbb (Plain (Einsum [(n_l1'bb,[0;1]); (n_v'bbbb'ovov,[2;3;4;5])] [5;0;3;1;2;4]));
  (*3159*) AddTo n_l3new_bbbbbb (Times (Einsum [(n_l1'bb,[0;1]); (n_v'bbbb'ovov,[2;3;4;5])] [3;0;5;1;2;4]) (-1) 1);
  (*3160*) AddTo n_l3new_bbbbbb (Times (Einsum [(n_l1'bb,[0;1]); (n_v'bbbb'ovov,[2;3;4;5])] [5;3;0;1;2;4]) (-1) 1);
  (*3161*) AddTo n_l3new_bbbbbb (Plain (Einsum [(n_l1'bb,[0;1]); (n_v'bbbb'ovov,[2;3;4;5])] [3;5;0;1;2;4]));
  (*3162*) AddTo n_l3new_bbbbbb (Plain (Einsum [(n_l1'bb,[0;1]); (n_v'bbbb'ovov,[2;3;4;5])] [0;5;3;2;1;4]));
  (*3163*) AddTo n_l3new_bbbbbb (Times (Einsum [(n_l1'bb,[0;1]); (n_v'bbbb'ovov,[2;3;4;5])] [0;3;5;2;1;4]) (-1) 1);
  (*3164*) AddTo n_l3new_bbbbbb (Times (Einsum [(n_l1'bb,[0;1]); (n_v'bbbb'ovov,[2;3;4;5])] [5;0;3;2;1;4]) (-1) 1);
  (*3165*) AddTo n_l3new_bbbbbb (Plain (Einsum [(n_l1'bb,[0;1]); (n_v'bbbb'ovov,[2;3;4;5])] [3;0;5;2;1;4]));
  (*3166*) AddTo n_l3new_bbbbbb (Plain (Einsum [(n_l1'bb,[0;1]); (n_v'bbbb'ovov,[2;3;4;5])] [5;3;0;2;1;4]));
  (*3167*) AddTo n_l3new_bbbbbb (Times (Einsum [(n_l1'bb,[0;1]); (n_v'bbbb'ovov,[2;3;4;5])] [3;5;0;2;1;4]) (-1) 1);
  (*3168*) AddTo n_l3new_bbbbbb (Times (Einsum [(n_l1'bb,[0;1]); (n_v'bbbb'ovov,[2;3;4;5])] [0;5;3;2;4;1]) (-1) 1);
  (*3169*) AddTo n_l3new_bbbbbb (Plain (Einsum [(n_l1'bb,[0;1]); (n_v'bbbb'ovov,[2;3;4;5])] [0;3;5;2;4;1]));
  (*3170*) AddTo n_l3new_bbbbbb (Plain (Einsum [(n_l1'bb,[0;1]); (n_v'bbbb'ovov,[2;3;4;5])] [5;0;3;2;4;1]));
  (*3171*) AddTo n_l3new_bbbbbb (Times (Einsum [(n_l1'bb,[0;1]); (n_v'bbbb'ovov,[2;3;4;5])] [3;0;5;2;4;1]) (-1) 1);
  (*3172*) AddTo n_l3new_bbbbbb (Times (Einsum [(n_l1'bb,[0;1]); (n_v'bbbb'ovov,[2;3;4;5])] [5;3;0;2;4;1]) (-1) 1);
  (*3173*) AddTo n_l3new_bbbbbb (Plain (Einsum [(n_l1'bb,[0;1]); (n_v'bbbb'ovov,[2;3;4;5])] [3;5;0;2;4;1]));
  (*3174*) Assign (T 1) (Plain (Zeros [6;7;7;7]));
  (*3175*) AddTo (T 1) (Plain (Einsum [(n_t2'bbbb,[0;1;2;3]); (n_l3'bbbbbb,[4;5;3;6;0;1])] [6;4;5;2]));
  (*3176*) AddTo n_l1new_bb (Times (Einsum [(n_v'bbbb'vvvv,[0;1;2;3]); (T 1,[4;3;1;2])] [0;4]) (-6) 1);
  (*3177*) Assign (T 2) (Plain (Zeros [6;6;6;7]));
  (*3178*) AddTo (T 2) (Plain (Einsum [(n_t1'bb,[0;1]); (n_l2'bbbb,[2;1;3;4])] [3;4;0;2]));
  (*3179*) Assign (T 3) (Plain (Zeros [6;6;6;6]));
  (*3180*) AddTo (T 3) (Plain (Einsum [(n_t1'bb,[0;1]); (T 2,[2;3;4;1])] [3;2;4;0]));
  (*3181*) AddTo n_l1new_bb (Times (Einsum [(n_v'bbbb'ooov,[0;1;2;3]); (T 3,[4;1;0;2])] [3;4]) (-2) 1);
  (*3182*) Assign (T 4) (Plain (Zeros [6;6;6;7]));
  (*3183*) AddTo (T 4) (Plain (Einsum [(n_t1'bb,[0;1]); (n_v'bbbb'ovov,[2;3;4;1])] [0;2;4;3]));
  (*3184*) Assign (T 5) (Plain (Zeros [6;6;6;7]));
  (*3185*) AddTo (T 5) (Times (Einsum [(n_v'bbbb'ooov,[0;1;2;3])] [0;1;2;3]) (-1) 1);
  (*3186*) AddTo (T 5) (Plain (Einsum [(n_v'bbbb'ooov,[0;1;2;3])] [0;2;1;3]));
  (*3187*) AddTo (T 5) (Plain (Einsum [(T 4,[0;1;2;3])] [0;1;2;3]));
  (*3188*) AddTo (T 5) (Times (Einsum [(T 4,[0;1;2;3])] [0;2;1;3]) (-1) 1);
  (*3189*) Assign (T 6) (Plain (Zeros [6;6;4;5]));
  (*3190*) AddTo (T 6) (Plain (Einsum [(n_t1'bb,[0;1]); (n_v'aabb'ovov,[2;3;4;1])] [0;4;2;3]));
  (*3191*) AddTo n_l2new_abab (Times (Einsum [(T 2,[0;1;2;3]); (T 6,[1;2;4;5])] [5;3;4;0]) (-2) 1);
  (*3192*) Assign (T 7) (Plain (Zeros [6;6;4;5]));
  (*3193*) AddTo (T 7) (Plain (Einsum [(n_v'aabb'ovoo,[0;1;2;3])] [2;3;0;1]));
  (*3194*) AddTo (T 7) (Plain (Einsum [(T 6,[0;1;2;3])] [0;1;2;3]));
  (*3195*) AddTo n_l2new_abab (Times (Einsum [(n_l1'bb,[0;1]); (T 7,[1;2;3;4])] [4;0;3;2]) (-1) 1);
  (*3196*) Assign (T 8) (Plain (Zeros [6;7;4;4]));
  (*3197*) AddTo (T 8) (Plain (Einsum [(n_t1'aa,[0;1]); (n_v'aabb'ovov,[2;1;3;4])] [3;4;0;2]));
  (*3198*) Assign (T 9) (Plain (Zeros [6;7;4;4]));
  (*3199*) AddTo (T 9) (Plain (Einsum [(n_v'aabb'ooov,[0;1;2;3])] [2;3;0;1]));
  (*3200*) AddTo (T 9) (Plain (Einsum [(T 8,[0;1;2;3])] [0;1;3;2]));
  (*3201*) Assign (T 10) (Plain (Zeros [6;6;7;7]));
  (*3202*) AddTo (T 10) (Plain (Einsum [(n_t2'abab,[0;1;2;3]); (n_v'aabb'ovov,[0;2;4;5])] [1;4;3;5]));
  (*3203*) Assign (T 11) (Plain (Zeros [6;6;7;7]));
  (*3204*) AddTo (T 11) (Plain (Einsum [(n_v'bbbb'ovov,[0;1;2;3])] [0;2;3;1]));
  (*3205*) AddTo (T 11) (Times (Einsum [(n_v'bbbb'ovov,[0;1;2;3])] [0;2;1;3]) (-1) 1);
  (*3206*) Assign (T 12) (Plain (Zeros [6;6;7;7]));
  (*3207*) AddTo (T 12) (Times (Einsum [(n_t2'bbbb,[0;1;2;3]); (T 11,[1;4;3;5])] [0;4;2;5]) (2) 1);
  (*3208*) Assign (T 13) (Plain (Zeros [6;7;7;7]));
  (*3209*) AddTo (T 13) (Times (Einsum [(n_v'bbbb'ovvv,[0;1;2;3])] [0;1;2;3]) (-1) 1);
  (*3210*) AddTo (T 13) (Plain (Einsum [(n_v'bbbb'ovvv,[0;1;2;3])] [0;2;1;3]));
  (*3211*) Assign (T 14) (Plain (Zeros [6;6;7;7]));
  (*3212*) AddTo (T 14) (Plain (Einsum [(n_t1'bb,[0;1]); (T 13,[2;3;1;4])] [0;2;3;4]));
  (*3213*) Assign (T 15) (Plain (Zeros [6;6;7;7]));
  (*3214*) AddTo (T 15) (Plain (Einsum [(n_v'bbbb'ovov,[0;1;2;3])] [0;2;1;3]));
  (*3215*) AddTo (T 15) (Times (Einsum [(n_v'bbbb'oovv,[0;1;2;3])] [0;1;2;3]) (-1) 1);
  (*3216*) AddTo (T 15) (Plain (Einsum [(T 10,[0;1;2;3])] [0;1;2;3]));
  (*3217*) AddTo (T 15) (Times (Einsum [(T 12,[0;1;2;3])] [0;1;2;3]) (-1) 1);
  (*3218*) AddTo (T 15) (Times (Einsum [(T 14,[0;1;2;3])] [0;1;3;2]) (-1) 1);
  (*3219*) Assign (T 16) (Plain (Zeros [6;7;4;5]));
  (*3220*) AddTo (T 16) (Plain (Einsum [(n_t1'aa,[0;1]); (n_v'aabb'vvov,[2;1;3;4])] [3;4;0;2]));
  (*3221*) AddTo n_l2new_abab (Times (Einsum [(n_l2'aaaa,[0;1;2;3]); (T 16,[4;5;3;1])] [0;5;2;4]) (2) 1);
  (*3222*) Assign (T 17) (Plain (Zeros [6;7;4;5]));
  (*3223*) AddTo (T 17) (Plain (Einsum [(n_t2'aaaa,[0;1;2;3]); (n_v'aabb'ovov,[1;3;4;5])] [4;5;0;2]));
  (*3224*) Assign (T 18) (Plain (Zeros [6;7;4;5]));
  (*3225*) AddTo (T 18) (Plain (Einsum [(n_t2'abab,[0;1;2;3]); (T 11,[1;4;3;5])] [4;5;0;2]));
  (*3226*) Assign (T 19) (Plain (Zeros [6;7;4;5]));
  (*3227*) AddTo (T 19) (Plain (Einsum [(n_v'aabb'ovov,[0;1;2;3])] [2;3;0;1]));
  (*3228*) AddTo (T 19) (Plain (Einsum [(T 16,[0;1;2;3])] [0;1;2;3]));
  (*3229*) AddTo (T 19) (Times (Einsum [(T 17,[0;1;2;3])] [0;1;2;3]) (2) 1);
  (*3230*) AddTo (T 19) (Times (Einsum [(T 18,[0;1;2;3])] [0;1;2;3]) (-1) 1);
  (*3231*) Assign (T 20) (Plain (Zeros [6;7]));
  (*3232*) AddTo (T 20) (Plain (Einsum [(n_t1'aa,[0;1]); (n_v'aabb'ovov,[0;1;2;3])] [2;3]));
  (*3233*) Assign (T 21) (Plain (Zeros [6;7]));
  (*3234*) AddTo (T 21) (Plain (Einsum [(n_t1'bb,[0;1]); (T 11,[0;2;1;3])] [2;3]));
  (*3235*) Assign (T 22) (Plain (Zeros [6;7]));
  (*3236*) AddTo (T 22) (Plain (Einsum [(n_f'bb'ov,[0;1])] [0;1]));
  (*3237*) AddTo (T 22) (Plain (Einsum [(T 20,[0;1])] [0;1]));
  (*3238*) AddTo (T 22) (Times (Einsum [(T 21,[0;1])] [0;1]) (-1) 1);
  (*3239*) AddTo n_l2new_abab (Plain (Einsum [(n_l1'aa,[0;1]); (T 22,[2;3])] [0;3;1;2]));
  (*3240*) AddTo n_l3new_babbab (Plain (Einsum [(T 22,[0;1]); (n_l2'abab,[2;3;4;5])] [1;2;3;0;4;5]));
  (*3241*) AddTo n_l3new_babbab (Plain (Einsum [(T 22,[0;1]); (n_l2'abab,[2;3;4;5])] [3;2;1;5;4;0]));
  (*3242*) AddTo n_l3new_babbab (Times (Einsum [(T 22,[0;1]); (n_l2'abab,[2;3;4;5])] [3;2;1;0;4;5]) (-1) 1);
  (*3243*) AddTo n_l3new_babbab (Times (Einsum [(T 22,[0;1]); (n_l2'abab,[2;3;4;5])] [1;2;3;5;4;0]) (-1) 1);
  (*3244*) AddTo n_l3new_abaaba (Times (Einsum [(T 22,[0;1]); (n_l2'aaaa,[2;3;4;5])] [2;1;3;4;0;5]) (2) 1);
  (*3245*) AddTo n_l3new_bbbbbb (Times (Einsum [(T 22,[0;1]); (n_l2'bbbb,[2;3;4;5])] [2;3;1;4;5;0]) (2) 1);
  (*3246*) AddTo n_l3new_bbbbbb (Times (Einsum [(T 22,[0;1]); (n_l2'bbbb,[2;3;4;5])] [2;3;1;0;4;5]) (2) 1);
  (*3247*) AddTo n_l3new_bbbbbb (Times (Einsum [(T 22,[0;1]); (n_l2'bbbb,[2;3;4;5])] [2;1;3;4;0;5]) (2) 1);
  (*3248*) AddTo n_l3new_bbbbbb (Times (Einsum [(T 22,[0;1]); (n_l2'bbbb,[2;3;4;5])] [1;2;3;4;5;0]) (2) 1);
  (*3249*) AddTo n_l3new_bbbbbb (Times (Einsum [(T 22,[0;1]); (n_l2'bbbb,[2;3;4;5])] [1;2;3;0;4;5]) (2) 1);
  (*3250*) AddTo n_l3new_bbbbbb (Times (Einsum [(T 22,[0;1]); (n_l2'bbbb,[2;3;4;5])] [2;3;1;4;0;5]) (-2) 1);
  (*3251*) AddTo n_l3new_bbbbbb (Times (Einsum [(T 22,[0;1]); (n_l2'bbbb,[2;3;4;5])] [2;1;3;4;5;0]) (-2) 1);
  (*3252*) AddTo n_l3new_bbbbbb (Times (Einsum [(T 22,[0;1]); (n_l2'bbbb,[2;3;4;5])] [2;1;3;0;4;5]) (-2) 1);
  (*3253*) AddTo n_l3new_bbbbbb (Times (Einsum [(T 22,[0;1]); (n_l2'bbbb,[2;3;4;5])] [1;2;3;4;0;5]) (-2) 1);
  (*3254*) Assign (T 23) (Plain (Zeros [6;6;5;5]));
  (*3255*) AddTo (T 23) (Plain (Einsum [(n_t1'bb,[0;1]); (n_v'aabb'vvov,[2;3;4;1])] [0;4;2;3]));
  (*3256*) Assign (T 24) (Plain (Zeros [6;6;5;5]));
  (*3257*) AddTo (T 24) (Plain (Einsum [(n_t2'abab,[0;1;2;3]); (n_v'aabb'ovov,[0;4;5;3])] [1;5;2;4]));
  (*3258*) Assign (T 25) (Plain (Zeros [6;6;5;5]));
  (*3259*) AddTo (T 25) (Plain (Einsum [(n_v'aabb'vvoo,[0;1;2;3])] [2;3;0;1]));
  (*3260*) AddTo (T 25) (Plain (Einsum [(T 23,[0;1;2;3])] [0;1;3;2]));
  (*3261*) AddTo (T 25) (Times (Einsum [(T 24,[0;1;2;3])] [0;1;3;2]) (-1) 1);
  (*3262*) Assign (T 26) (Plain (Zeros [6;6;6;6]));
  (*3263*) AddTo (T 26) (Plain (Einsum [(n_t2'bbbb,[0;1;2;3]); (n_v'bbbb'ovov,[4;2;5;3])] [0;1;4;5]));
  (*3264*) Assign (T 27) (Plain (Zeros [6;6;6;6]));
  (*3265*) AddTo (T 27) (Plain (Einsum [(n_t1'bb,[0;1]); (T 4,[2;3;4;1])] [0;2;3;4]));
  (*3266*) Assign (T 28) (Plain (Zeros [6;6;6;6]));
  (*3267*) AddTo (T 28) (Plain (Einsum [(n_t1'bb,[0;1]); (n_v'bbbb'ooov,[2;3;4;1])] [0;2;3;4]));
  (*3268*) Assign (T 29) (Plain (Zeros [6;6;6;6]));
  (*3269*) AddTo (T 29) (Plain (Einsum [(n_v'bbbb'oooo,[0;1;2;3])] [0;1;2;3]));
  (*3270*) AddTo (T 29) (Plain (Einsum [(T 26,[0;1;2;3])] [3;1;2;0]));
  (*3271*) AddTo (T 29) (Times (Einsum [(T 27,[0;1;2;3])] [2;1;3;0]) (-1) 1);
  (*3272*) AddTo (T 29) (Times (Einsum [(T 28,[0;1;2;3])] [2;0;3;1]) (-1) 1);
  (*3273*) AddTo (T 29) (Plain (Einsum [(T 28,[0;1;2;3])] [3;0;2;1]));
  (*3274*) Assign (T 30) (Plain (Zeros [6;6;4;4]));
  (*3275*) AddTo (T 30) (Plain (Einsum [(n_t1'aa,[0;1]); (n_v'aabb'ovoo,[2;1;3;4])] [3;4;0;2]));
  (*3276*) Assign (T 31) (Plain (Zeros [6;6;4;4]));
  (*3277*) AddTo (T 31) (Plain (Einsum [(n_t2'abab,[0;1;2;3]); (n_v'aabb'ovov,[4;2;5;3])] [1;5;0;4]));
  (*3278*) Assign (T 32) (Plain (Zeros [6;7;4;4]));
  (*3279*) AddTo (T 32) (Plain (Einsum [(n_v'aabb'ooov,[0;1;2;3])] [2;3;0;1]));
  (*3280*) AddTo (T 32) (Plain (Einsum [(T 8,[0;1;2;3])] [0;1;2;3]));
  (*3281*) AddTo n_l2new_abab (Times (Einsum [(n_l1'aa,[0;1]); (T 32,[2;3;1;4])] [0;3;4;2]) (-1) 1);
  (*3282*) Assign (T 33) (Plain (Zeros [6;6;4;4]));
  (*3283*) AddTo (T 33) (Plain (Einsum [(n_t1'bb,[0;1]); (T 32,[2;1;3;4])] [0;2;3;4]));
  (*3284*) Assign (T 34) (Plain (Zeros [6;6;4;4]));
  (*3285*) AddTo (T 34) (Plain (Einsum [(n_v'aabb'oooo,[0;1;2;3])] [2;3;0;1]));
  (*3286*) AddTo (T 34) (Plain (Einsum [(T 30,[0;1;2;3])] [1;0;3;2]));
  (*3287*) AddTo (T 34) (Plain (Einsum [(T 31,[0;1;2;3])] [0;1;3;2]));
  (*3288*) AddTo (T 34) (Plain (Einsum [(T 33,[0;1;2;3])] [0;1;3;2]));
  (*3289*) Assign (T 35) (Plain (Zeros [6;6;6;6;4;5]));
  (*3290*) AddTo (T 35) (Times (Einsum [(n_v'bbbb'ovov,[0;1;2;3]); (n_t3'babbab,[4;5;6;3;7;1])] [4;6;0;2;5;7]) (-1) 1);
  (*3291*) AddTo n_l2new_bbbb (Times (Einsum [(n_l3'babbab,[0;1;2;3;4;5]); (T 35,[3;5;6;7;4;1])] [0;2;6;7]) (19999999999999203) 10000000000000000);
  (*3292*) Assign (T 36) (Plain (Zeros [6;6;6;6;4;5]));
  (*3293*) AddTo (T 36) (Plain (Einsum [(n_t2'abab,[0;1;2;3]); (n_v'bbbb'ooov,[4;5;6;3])] [1;4;5;6;0;2]));
  (*3294*) Assign (T 37) (Plain (Zeros [6;6;6;6;4;5]));
  (*3295*) AddTo (T 37) (Plain (Einsum [(n_t2'abab,[0;1;2;3]); (T 4,[4;5;6;3])] [4;1;6;5;0;2]));
  (*3296*) Assign (T 38) (Plain (Zeros [6;6;6;6;4;5]));
  (*3297*) AddTo (T 38) (Times (Einsum [(T 35,[0;1;2;3;4;5])] [0;1;3;2;4;5]) (-9999999999999601) 10000000000000000);
  (*3298*) Del (T 35);
  (*3299*) AddTo (T 38) (Plain (Einsum [(T 36,[0;1;2;3;4;5])] [1;0;2;3;4;5]));
  (*3300*) AddTo (T 38) (Times (Einsum [(T 36,[0;1;2;3;4;5])] [1;0;3;2;4;5]) (-1) 1);
  (*3301*) Del (T 36);
  (*3302*) AddTo (T 38) (Plain (Einsum [(T 37,[0;1;2;3;4;5])] [0;1;2;3;4;5]));
  (*3303*) AddTo (T 38) (Times (Einsum [(T 37,[0;1;2;3;4;5])] [0;1;3;2;4;5]) (-1) 1);
  (*3304*) Del (T 37);
  (*3305*) Assign (T 39) (Plain (Zeros [6;6;6;7;4;4]));
  (*3306*) AddTo (T 39) (Plain (Einsum [(n_v'aabb'ovov,[0;1;2;3]); (n_t3'babbab,[4;5;6;7;1;3])] [4;6;2;7;5;0]));
  (*3307*) AddTo n_l2new_abab (Times (Einsum [(n_l3'babbab,[0;1;2;3;4;5]); (T 39,[5;3;6;2;4;7])] [1;0;7;6]) (9999999999999597) 5000000000000000);
  (*3308*) Assign (T 40) (Plain (Zeros [6;6;4;5]));
  (*3309*) AddTo (T 40) (Plain (Einsum [(n_v'aabb'ovoo,[0;1;2;3])] [2;3;0;1]));
  (*3310*) AddTo (T 40) (Plain (Einsum [(T 6,[0;1;2;3])] [1;0;2;3]));
  (*3311*) Assign (T 41) (Plain (Zeros [6;6;6;7;4;4]));
  (*3312*) AddTo (T 41) (Plain (Einsum [(n_t2'abab,[0;1;2;3]); (T 40,[4;5;6;2])] [1;4;5;3;0;6]));
  (*3313*) Assign (T 42) (Plain (Zeros [6;6;6;7;4;4]));
  (*3314*) AddTo (T 42) (Times (Einsum [(T 39,[0;1;2;3;4;5])] [0;1;2;3;5;4]) (9999999999999597) 10000000000000000);
  (*3315*) AddTo (T 42) (Plain (Einsum [(n_t2'bbbb,[0;1;2;3]); (T 32,[4;3;5;6])] [0;1;4;2;6;5]));
  (*3316*) AddTo (T 42) (Times (Einsum [(T 41,[0;1;2;3;4;5])] [2;0;1;3;5;4]) (-1) 1);
  (*3317*) Assign (T 43) (Plain (Zeros [6;6;6;7;4;5]));
  (*3318*) AddTo (T 43) (Times (Einsum [(n_v'bbbb'ovvv,[0;1;2;3]); (n_t3'babbab,[4;5;6;3;7;1])] [0;4;6;2;5;7]) (-9999999999999601) 10000000000000000);
  (*3319*) AddTo (T 43) (Times (Einsum [(n_v'aabb'vvov,[0;1;2;3]); (n_t3'babbab,[4;5;6;7;1;3])] [2;4;6;7;5;0]) (-9999999999999597) 10000000000000000);
  (*3320*) AddTo (T 43) (Times (Einsum [(T 5,[0;1;2;3]); (n_t3'babbab,[4;5;1;6;7;3])] [2;4;0;6;5;7]) (-2) 1);
  (*3321*) AddTo (T 43) (Times (Einsum [(T 7,[0;1;2;3]); (n_t3'abaaba,[4;5;2;6;7;3])] [1;5;0;7;4;6]) (-2) 1);
  (*3322*) AddTo (T 43) (Plain (Einsum [(T 9,[0;1;2;3]); (n_t3'babbab,[4;2;5;6;7;1])] [0;4;5;6;3;7]));
  (*3323*) AddTo (T 43) (Plain (Einsum [(n_t2'abab,[0;1;2;3]); (T 15,[4;5;6;3])] [5;1;4;6;0;2]));
  (*3324*) AddTo (T 43) (Times (Einsum [(n_t2'bbbb,[0;1;2;3]); (T 19,[4;3;5;6])] [4;0;1;2;5;6]) (-1) 1);
  (*3325*) AddTo (T 43) (Times (Einsum [(T 22,[0;1]); (n_t3'babbab,[2;3;4;5;6;1])] [0;2;4;5;3;6]) (-9999999999999597) 10000000000000000);
  (*3326*) AddTo (T 43) (Times (Einsum [(n_t2'abab,[0;1;2;3]); (T 25,[4;5;2;6])] [5;1;4;3;0;6]) (-1) 1);
  (*3327*) AddTo (T 43) (Times (Einsum [(n_t2'abab,[0;1;2;3]); (T 29,[1;4;5;6])] [5;6;4;3;0;2]) (-1) 1);
  (*3328*) AddTo (T 43) (Plain (Einsum [(n_t2'abab,[0;1;2;3]); (T 34,[4;5;0;6])] [5;1;4;3;6;2]));
  (*3329*) AddTo (T 43) (Plain (Einsum [(n_t1'bb,[0;1]); (T 38,[2;3;4;0;5;6])] [4;3;2;1;5;6]));
  (*3330*) Del (T 38);
  (*3331*) AddTo (T 43) (Times (Einsum [(n_t1'aa,[0;1]); (T 42,[2;3;4;5;0;6])] [4;3;2;5;6;1]) (-1) 1);
  (*3332*) Del (T 42);
  (*3333*) AddTo n_l1new_bb (Times (Einsum [(n_l3'babbab,[0;1;2;3;4;5]); (T 43,[6;3;5;2;4;1])] [0;6]) (-2) 1);
  (*3334*) Del (T 43);
  (*3335*) Assign (T 44) (Plain (Zeros [6;6;6;7]));
  (*3336*) AddTo (T 44) (Plain (Einsum [(n_v'bbbb'ooov,[0;1;2;3])] [0;1;2;3]));
  (*3337*) AddTo (T 44) (Times (Einsum [(n_v'bbbb'ooov,[0;1;2;3])] [0;2;1;3]) (-1) 1);
  (*3338*) AddTo (T 44) (Times (Einsum [(T 4,[0;1;2;3])] [0;1;2;3]) (-1) 1);
  (*3339*) AddTo (T 44) (Plain (Einsum [(T 4,[0;1;2;3])] [0;2;1;3]));
  (*3340*) Assign (T 45) (Plain (Zeros [6;6;4;4;4;5]));
  (*3341*) AddTo (T 45) (Plain (Einsum [(n_v'aabb'ovov,[0;1;2;3]); (n_t3'abaaba,[4;5;6;7;3;1])] [5;2;4;6;0;7]));
  (*3342*) AddTo n_l2new_abab (Times (Einsum [(n_l3'abaaba,[0;1;2;3;4;5]); (T 45,[4;6;5;3;7;2])] [0;1;7;6]) (9999999999999597) 5000000000000000);
  (*3343*) Assign (T 46) (Plain (Zeros [6;6;4;4;4;5]));
  (*3344*) AddTo (T 46) (Times (Einsum [(n_t2'aaaa,[0;1;2;3]); (T 40,[4;5;6;3])] [4;5;0;1;6;2]) (-1) 1);
  (*3345*) Assign (T 47) (Plain (Zeros [6;6;4;4;4;5]));
  (*3346*) AddTo (T 47) (Times (Einsum [(T 45,[0;1;2;3;4;5])] [0;1;3;4;2;5]) (9999999999999597) 10000000000000000);
  (*3347*) AddTo (T 47) (Times (Einsum [(n_t2'abab,[0;1;2;3]); (T 32,[4;3;5;6])] [1;4;0;6;5;2]) (-1) 1);
  (*3348*) AddTo (T 47) (Times (Einsum [(T 46,[0;1;2;3;4;5])] [1;0;3;4;2;5]) (-1) 1);
  (*3349*) Assign (T 48) (Plain (Zeros [6;6;4;4;5;5]));
  (*3350*) AddTo (T 48) (Times (Einsum [(n_v'aabb'vvov,[0;1;2;3]); (n_t3'abaaba,[4;5;6;7;3;1])] [2;5;4;6;7;0]) (-9999999999999597) 5000000000000000);
  (*3351*) AddTo (T 48) (Times (Einsum [(T 44,[0;1;2;3]); (n_t3'abaaba,[4;2;5;6;3;7])] [1;0;4;5;6;7]) (-1) 1);
  (*3352*) AddTo (T 48) (Times (Einsum [(T 7,[0;1;2;3]); (n_t3'aaaaaa,[4;5;2;6;7;3])] [1;0;4;5;6;7]) (-3) 1);
  (*3353*) AddTo (T 48) (Times (Einsum [(T 9,[0;1;2;3]); (n_t3'abaaba,[4;5;2;6;1;7])] [0;5;4;3;6;7]) (2) 1);
  (*3354*) AddTo (T 48) (Times (Einsum [(n_t2'abab,[0;1;2;3]); (T 19,[4;3;5;6])] [4;1;0;5;2;6]) (-2) 1);
  (*3355*) Del (T 19);
  (*3356*) AddTo (T 48) (Times (Einsum [(T 22,[0;1]); (n_t3'abaaba,[2;3;4;5;1;6])] [0;3;2;4;5;6]) (-9999999999999601) 10000000000000000);
  (*3357*) AddTo (T 48) (Times (Einsum [(n_t2'aaaa,[0;1;2;3]); (T 25,[4;5;3;6])] [5;4;0;1;2;6]) (-2) 1);
  (*3358*) Del (T 25);
  (*3359*) AddTo (T 48) (Times (Einsum [(n_t2'aaaa,[0;1;2;3]); (T 34,[4;5;1;6])] [5;4;0;6;2;3]) (2) 1);
  (*3360*) Del (T 34);
  (*3361*) AddTo (T 48) (Times (Einsum [(n_t1'aa,[0;1]); (T 47,[2;3;4;0;5;6])] [3;2;4;5;6;1]) (-2) 1);
  (*3362*) Del (T 47);
  (*3363*) AddTo n_l1new_bb (Plain (Einsum [(n_l3'abaaba,[0;1;2;3;4;5]); (T 48,[6;4;3;5;0;2])] [1;6]));
  (*3364*) Del (T 48);
  (*3365*) Assign (T 49) (Plain (Zeros [6;6;6;6]));
  (*3366*) AddTo (T 49) (Plain (Einsum [(n_v'bbbb'oooo,[0;1;2;3])] [0;1;2;3]));
  (*3367*) AddTo (T 49) (Plain (Einsum [(T 26,[0;1;2;3])] [3;1;2;0]));
  (*3368*) AddTo (T 49) (Plain (Einsum [(T 27,[0;1;2;3])] [3;1;2;0]));
  (*3369*) AddTo (T 49) (Plain (Einsum [(T 28,[0;1;2;3])] [2;1;3;0]));
  (*3370*) AddTo (T 49) (Times (Einsum [(T 28,[0;1;2;3])] [3;2;1;0]) (-1) 1);
  (*3371*) Assign (T 50) (Plain (Zeros [6;6;6;6;6;7]));
  (*3372*) AddTo (T 50) (Times (Einsum [(n_v'bbbb'ovov,[0;1;2;3]); (n_t3'bbbbbb,[4;5;6;7;3;1])] [4;5;6;0;2;7]) (-1) 1);
  (*3373*) AddTo n_l2new_bbbb (Times (Einsum [(n_l3'bbbbbb,[0;1;2;3;4;5]); (T 50,[5;4;3;6;7;2])] [0;1;6;7]) (-2399999999999903) 400000000000000);
  (*3374*) Assign (T 51) (Plain (Zeros [6;6;6;6;6;7]));
  (*3375*) AddTo (T 51) (Plain (Einsum [(n_t2'bbbb,[0;1;2;3]); (n_v'bbbb'ooov,[4;5;6;3])] [0;1;4;5;6;2]));
  (*3376*) Assign (T 52) (Plain (Zeros [6;6;6;6;6;7]));
  (*3377*) AddTo (T 52) (Plain (Einsum [(n_t2'bbbb,[0;1;2;3]); (T 4,[4;5;6;3])] [4;0;1;6;5;2]));
  (*3378*) Assign (T 53) (Plain (Zeros [6;6;6;6;6;7]));
  (*3379*) AddTo (T 53) (Times (Einsum [(T 50,[0;1;2;3;4;5])] [0;1;2;4;3;5]) (-2499999999999899) 2500000000000000);
  (*3380*) Del (T 50);
  (*3381*) AddTo (T 53) (Times (Einsum [(T 51,[0;1;2;3;4;5])] [0;1;3;2;4;5]) (-1) 1);
  (*3382*) AddTo (T 53) (Plain (Einsum [(T 51,[0;1;2;3;4;5])] [0;1;3;4;2;5]));
  (*3383*) Del (T 51);
  (*3384*) AddTo (T 53) (Times (Einsum [(T 52,[0;1;2;3;4;5])] [1;2;0;3;4;5]) (-1) 1);
  (*3385*) AddTo (T 53) (Plain (Einsum [(T 52,[0;1;2;3;4;5])] [1;2;0;4;3;5]));
  (*3386*) Del (T 52);
  (*3387*) Assign (T 54) (Plain (Zeros [6;6;6;6;7;7]));
  (*3388*) AddTo (T 54) (Times (Einsum [(n_v'bbbb'ovvv,[0;1;2;3]); (n_t3'bbbbbb,[4;5;6;7;1;3])] [0;4;5;6;7;2]) (-2499999999999899) 2500000000000000);
  (*3389*) AddTo (T 54) (Times (Einsum [(T 44,[0;1;2;3]); (n_t3'bbbbbb,[4;5;2;6;7;3])] [1;4;0;5;6;7]) (-3) 2);
  (*3390*) Del (T 44);
  (*3391*) AddTo (T 54) (Times (Einsum [(T 7,[0;1;2;3]); (n_t3'babbab,[4;2;5;6;3;7])] [1;4;0;5;6;7]) (-1) 2);
  (*3392*) AddTo (T 54) (Plain (Einsum [(n_t2'bbbb,[0;1;2;3]); (T 15,[4;5;6;3])] [5;0;4;1;2;6]));
  (*3393*) Del (T 15);
  (*3394*) AddTo (T 54) (Times (Einsum [(T 22,[0;1]); (n_t3'bbbbbb,[2;3;4;5;6;1])] [0;2;3;4;5;6]) (2499999999999899) 5000000000000000);
  (*3395*) AddTo (T 54) (Plain (Einsum [(n_t2'bbbb,[0;1;2;3]); (T 49,[1;4;5;6])] [5;0;6;4;2;3]));
  (*3396*) AddTo (T 54) (Plain (Einsum [(n_t1'bb,[0;1]); (T 53,[2;3;4;5;0;6])] [5;3;4;2;6;1]));
  (*3397*) Del (T 53);
  (*3398*) AddTo n_l1new_bb (Times (Einsum [(n_l3'bbbbbb,[0;1;2;3;4;5]); (T 54,[6;3;5;4;2;1])] [0;6]) (-6) 1);
  (*3399*) Del (T 54);
  (*3400*) Assign (T 55) (Plain (Zeros [6;7;4;5]));
  (*3401*) AddTo (T 55) (Plain (Einsum [(n_l2'bbbb,[0;1;2;3]); (n_t2'abab,[4;3;5;1])] [2;0;4;5]));
  (*3402*) Assign (T 56) (Plain (Zeros [6;7;4;5]));
  (*3403*) AddTo (T 56) (Plain (Einsum [(n_l2'abab,[0;1;2;3]); (n_t2'aaaa,[4;2;5;0])] [3;1;4;5]));
  (*3404*) Assign (T 57) (Plain (Zeros [6;7;4;5]));
  (*3405*) AddTo (T 57) (Plain (Einsum [(n_l3'bbbbbb,[0;1;2;3;4;5]); (n_t3'babbab,[4;6;5;1;7;2])] [3;0;6;7]));
  (*3406*) Assign (T 58) (Plain (Zeros [6;7;4;5]));
  (*3407*) AddTo (T 58) (Plain (Einsum [(n_l3'babbab,[0;1;2;3;4;5]); (n_t3'abaaba,[6;5;4;7;2;1])] [3;0;6;7]));
  (*3408*) Assign (T 59) (Plain (Zeros [6;6;7;7;4;4]));
  (*3409*) AddTo (T 59) (Plain (Einsum [(n_t1'aa,[0;1]); (n_l3'babbab,[2;1;3;4;5;6])] [4;6;2;3;5;0]));
  (*3410*) Assign (T 60) (Plain (Zeros [6;7;4;5]));
  (*3411*) AddTo (T 60) (Plain (Einsum [(n_t2'abab,[0;1;2;3]); (T 59,[4;1;5;3;0;6])] [4;5;6;2]));
  (*3412*) Assign (T 61) (Plain (Zeros [6;7;4;5]));
  (*3413*) AddTo (T 61) (Plain (Einsum [(n_l3'abaaba,[0;1;2;3;4;5]); (n_t3'aaaaaa,[6;3;5;7;0;2])] [4;1;6;7]));
  (*3414*) Assign (T 62) (Plain (Zeros [6;7;4;4;4;5]));
  (*3415*) AddTo (T 62) (Plain (Einsum [(n_t1'aa,[0;1]); (n_l3'abaaba,[2;3;1;4;5;6])] [5;3;4;6;0;2]));
  (*3416*) Assign (T 63) (Plain (Zeros [6;7;4;5]));
  (*3417*) AddTo (T 63) (Times (Einsum [(n_t2'aaaa,[0;1;2;3]); (T 62,[4;5;0;1;6;3])] [4;5;6;2]) (-1) 1);
  (*3418*) Assign (T 64) (Plain (Zeros [6;7;4;4]));
  (*3419*) AddTo (T 64) (Plain (Einsum [(n_t1'aa,[0;1]); (n_l2'abab,[1;2;3;4])] [4;2;3;0]));
  (*3420*) AddTo n_l2new_abab (Plain (Einsum [(T 6,[0;1;2;3]); (T 64,[0;4;5;2])] [3;4;5;1]));
  (*3421*) Assign (T 65) (Plain (Zeros [6;7;4;4]));
  (*3422*) AddTo (T 65) (Plain (Einsum [(n_t2'abab,[0;1;2;3]); (n_l3'babbab,[4;2;3;5;6;1])] [5;4;6;0]));
  (*3423*) Assign (T 66) (Plain (Zeros [6;7;4;4]));
  (*3424*) AddTo (T 66) (Plain (Einsum [(n_t2'aaaa,[0;1;2;3]); (n_l3'abaaba,[2;4;3;5;6;1])] [6;4;5;0]));
  (*3425*) Assign (T 67) (Plain (Zeros [6;7;4;4]));
  (*3426*) AddTo (T 67) (Times (Einsum [(T 64,[0;1;2;3])] [0;1;2;3]) (1) 2);
  (*3427*) AddTo (T 67) (Plain (Einsum [(T 65,[0;1;2;3])] [0;1;2;3]));
  (*3428*) AddTo (T 67) (Plain (Einsum [(T 66,[0;1;2;3])] [0;1;2;3]));
  (*3429*) AddTo n_l2new_abab (Times (Einsum [(n_v'aabb'ovvv,[0;1;2;3]); (T 67,[4;3;5;0])] [1;2;5;4]) (-2) 1);
  (*3430*) AddTo n_l2new_abab (Times (Einsum [(n_v'aabb'ovoo,[0;1;2;3]); (T 67,[3;4;5;0])] [1;4;5;2]) (2) 1);
  (*3431*) Assign (T 68) (Plain (Zeros [6;7;4;5]));
  (*3432*) AddTo (T 68) (Plain (Einsum [(n_l2'abab,[0;1;2;3])] [3;1;2;0]));
  (*3433*) AddTo (T 68) (Times (Einsum [(T 55,[0;1;2;3])] [0;1;2;3]) (2) 1);
  (*3434*) AddTo (T 68) (Times (Einsum [(T 56,[0;1;2;3])] [0;1;2;3]) (2) 1);
  (*3435*) AddTo (T 68) (Times (Einsum [(T 57,[0;1;2;3])] [0;1;2;3]) (3) 1);
  (*3436*) AddTo (T 68) (Times (Einsum [(T 58,[0;1;2;3])] [0;1;2;3]) (4) 1);
  (*3437*) AddTo (T 68) (Times (Einsum [(T 60,[0;1;2;3])] [0;1;2;3]) (-2) 1);
  (*3438*) AddTo (T 68) (Times (Einsum [(T 61,[0;1;2;3])] [0;1;2;3]) (3) 1);
  (*3439*) AddTo (T 68) (Times (Einsum [(T 63,[0;1;2;3])] [0;1;2;3]) (-2) 1);
  (*3440*) AddTo (T 68) (Times (Einsum [(n_t1'aa,[0;1]); (T 67,[2;3;0;4])] [2;3;4;1]) (-2) 1);
  (*3441*) AddTo n_l1new_bb (Plain (Einsum [(n_v'aabb'ovvv,[0;1;2;3]); (T 68,[4;3;0;1])] [2;4]));
  (*3442*) Del (T 68);
  (*3443*) Assign (T 69) (Plain (Zeros [6;7;5;5]));
  (*3444*) AddTo (T 69) (Plain (Einsum [(n_t2'abab,[0;1;2;3]); (n_l3'babbab,[4;5;3;6;0;1])] [6;4;5;2]));
  (*3445*) Assign (T 70) (Plain (Zeros [6;7;5;5]));
  (*3446*) AddTo (T 70) (Plain (Einsum [(n_t2'aaaa,[0;1;2;3]); (n_l3'abaaba,[4;5;3;0;6;1])] [6;5;4;2]));
  (*3447*) Assign (T 71) (Plain (Zeros [6;7;5;5]));
  (*3448*) AddTo (T 71) (Times (Einsum [(n_t1'aa,[0;1]); (n_l2'abab,[2;3;0;4])] [4;3;2;1]) (1) 2);
  (*3449*) AddTo (T 71) (Plain (Einsum [(T 69,[0;1;2;3])] [0;1;2;3]));
  (*3450*) AddTo (T 71) (Plain (Einsum [(T 70,[0;1;2;3])] [0;1;2;3]));
  (*3451*) AddTo n_l1new_bb (Times (Einsum [(n_v'aabb'vvvv,[0;1;2;3]); (T 71,[4;3;0;1])] [2;4]) (2) 1);
  (*3452*) Del (T 71);
  (*3453*) Assign (T 72) (Plain (Zeros [6;7;7;7]));
  (*3454*) AddTo (T 72) (Times (Einsum [(n_v'bbbb'ovvv,[0;1;2;3])] [0;1;2;3]) (-1) 1);
  (*3455*) AddTo (T 72) (Plain (Einsum [(n_v'bbbb'ovvv,[0;1;2;3])] [0;2;3;1]));
  (*3456*) Assign (T 73) (Plain (Zeros [6;6;6;6;7;7]));
  (*3457*) AddTo (T 73) (Plain (Einsum [(n_t1'bb,[0;1]); (n_l3'bbbbbb,[2;3;1;4;5;6])] [4;5;6;0;2;3]));
  (*3458*) AddTo n_l3new_babbab (Times (Einsum [(n_v'aabb'ovoo,[0;1;2;3]); (T 73,[4;2;5;3;6;7])] [6;1;7;5;0;4]) (-6) 1);
  (*3459*) AddTo n_l3new_babbab (Times (Einsum [(T 6,[0;1;2;3]); (T 73,[0;4;5;1;6;7])] [7;3;6;4;2;5]) (6) 1);
  (*3460*) Assign (T 74) (Plain (Zeros [6;6;7;7]));
  (*3461*) AddTo (T 74) (Plain (Einsum [(n_t2'bbbb,[0;1;2;3]); (T 73,[0;4;1;5;6;3])] [4;5;6;2]));
  (*3462*) Assign (T 75) (Plain (Zeros [6;6;6;7;4;5]));
  (*3463*) AddTo (T 75) (Plain (Einsum [(n_t1'bb,[0;1]); (n_l3'babbab,[2;3;1;4;5;6])] [4;6;0;2;5;3]));
  (*3464*) AddTo n_l2new_abab (Times (Einsum [(T 23,[0;1;2;3]); (T 75,[0;4;1;5;6;3])] [2;5;6;4]) (2) 1);
  (*3465*) Assign (T 76) (Plain (Zeros [6;6;7;7]));
  (*3466*) AddTo (T 76) (Plain (Einsum [(n_t2'abab,[0;1;2;3]); (T 75,[4;1;5;6;0;2])] [4;5;6;3]));
  (*3467*) Assign (T 77) (Plain (Zeros [6;6;6;7]));
  (*3468*) AddTo (T 77) (Plain (Einsum [(n_t2'bbbb,[0;1;2;3]); (n_l3'bbbbbb,[4;2;3;5;6;1])] [5;6;0;4]));
  (*3469*) Assign (T 78) (Plain (Zeros [6;6;6;7]));
  (*3470*) AddTo (T 78) (Plain (Einsum [(n_t2'abab,[0;1;2;3]); (n_l3'babbab,[4;2;3;5;0;6])] [5;6;1;4]));
  (*3471*) Assign (T 79) (Plain (Zeros [6;6;6;7]));
  (*3472*) AddTo (T 79) (Plain (Einsum [(T 2,[0;1;2;3])] [1;0;2;3]));
  (*3473*) AddTo (T 79) (Times (Einsum [(T 77,[0;1;2;3])] [0;1;2;3]) (-3) 1);
  (*3474*) AddTo (T 79) (Times (Einsum [(T 78,[0;1;2;3])] [0;1;2;3]) (-1) 1);
  (*3475*) AddTo n_l1new_bb (Times (Einsum [(n_v'bbbb'oovv,[0;1;2;3]); (T 79,[0;4;1;3])] [2;4]) (-2) 1);
  (*3476*) Assign (T 80) (Plain (Zeros [6;6;7;7]));
  (*3477*) AddTo (T 80) (Times (Einsum [(T 74,[0;1;2;3])] [0;1;2;3]) (3) 1);
  (*3478*) AddTo (T 80) (Plain (Einsum [(T 76,[0;1;2;3])] [0;1;2;3]));
  (*3479*) AddTo (T 80) (Plain (Einsum [(n_t1'bb,[0;1]); (T 79,[0;2;3;4])] [2;3;4;1]));
  (*3480*) AddTo n_l1new_bb (Times (Einsum [(T 72,[0;1;2;3]); (T 80,[4;0;2;1])] [3;4]) (2) 1);
  (*3481*) Del (T 80);
  (*3482*) Assign (T 81) (Plain (Zeros [6;7;7;7]));
  (*3483*) AddTo (T 81) (Plain (Einsum [(n_v'bbbb'ovvv,[0;1;2;3])] [0;1;2;3]));
  (*3484*) AddTo (T 81) (Times (Einsum [(n_v'bbbb'ovvv,[0;1;2;3])] [0;2;3;1]) (-1) 1);
  (*3485*) Assign (T 82) (Plain (Zeros [6;6;7;7]));
  (*3486*) AddTo (T 82) (Plain (Einsum [(n_l2'bbbb,[0;1;2;3]); (n_t2'bbbb,[4;3;5;1])] [2;4;0;5]));
  (*3487*) Assign (T 83) (Plain (Zeros [6;6;7;7]));
  (*3488*) AddTo (T 83) (Plain (Einsum [(n_l2'abab,[0;1;2;3]); (n_t2'abab,[2;4;0;5])] [3;4;1;5]));
  (*3489*) Assign (T 84) (Plain (Zeros [6;6;7;7]));
  (*3490*) AddTo (T 84) (Plain (Einsum [(n_l3'bbbbbb,[0;1;2;3;4;5]); (n_t3'bbbbbb,[6;4;5;7;1;2])] [3;6;0;7]));
  (*3491*) Assign (T 85) (Plain (Zeros [6;6;7;7]));
  (*3492*) AddTo (T 85) (Plain (Einsum [(n_l3'babbab,[0;1;2;3;4;5]); (n_t3'babbab,[6;4;5;7;1;2])] [3;6;0;7]));
  (*3493*) Assign (T 86) (Plain (Zeros [6;6;7;7]));
  (*3494*) AddTo (T 86) (Plain (Einsum [(n_l3'abaaba,[0;1;2;3;4;5]); (n_t3'abaaba,[3;6;5;0;7;2])] [4;6;1;7]));
  (*3495*) Assign (T 87) (Plain (Zeros [6;6;7;7]));
  (*3496*) AddTo (T 87) (Times (Einsum [(T 82,[0;1;2;3])] [0;1;2;3]) (4) 1);
  (*3497*) AddTo (T 87) (Plain (Einsum [(T 83,[0;1;2;3])] [0;1;2;3]));
  (*3498*) AddTo (T 87) (Times (Einsum [(T 84,[0;1;2;3])] [0;1;2;3]) (9) 1);
  (*3499*) AddTo (T 87) (Times (Einsum [(T 85,[0;1;2;3])] [0;1;2;3]) (4) 1);
  (*3500*) AddTo (T 87) (Plain (Einsum [(T 86,[0;1;2;3])] [0;1;2;3]));
  (*3501*) AddTo n_l1new_bb (Plain (Einsum [(T 81,[0;1;2;3]); (T 87,[4;0;2;1])] [3;4]));
  (*3502*) Del (T 87);
  (*3503*) Assign (T 88) (Plain (Zeros [6;6;5;5]));
  (*3504*) AddTo (T 88) (Plain (Einsum [(n_l2'abab,[0;1;2;3]); (n_t2'abab,[2;4;5;1])] [3;4;0;5]));
  (*3505*) Assign (T 89) (Plain (Zeros [6;6;5;5]));
  (*3506*) AddTo (T 89) (Plain (Einsum [(n_l3'babbab,[0;1;2;3;4;5]); (n_t3'babbab,[6;4;5;0;7;2])] [3;6;1;7]));
  (*3507*) Assign (T 90) (Plain (Zeros [6;6;5;5]));
  (*3508*) AddTo (T 90) (Times (Einsum [(n_t2'abab,[0;1;2;3]); (T 75,[4;1;5;3;0;6])] [4;5;6;2]) (-1) 1);
  (*3509*) Assign (T 91) (Plain (Zeros [6;6;5;5]));
  (*3510*) AddTo (T 91) (Plain (Einsum [(n_l3'abaaba,[0;1;2;3;4;5]); (n_t3'abaaba,[3;6;5;7;1;2])] [4;6;0;7]));
  (*3511*) Assign (T 92) (Plain (Zeros [6;6;4;4;5;5]));
  (*3512*) AddTo (T 92) (Plain (Einsum [(n_t1'bb,[0;1]); (n_l3'abaaba,[2;1;3;4;5;6])] [5;0;4;6;2;3]));
  (*3513*) AddTo n_l3new_abaaba (Times (Einsum [(T 22,[0;1]); (T 92,[2;0;3;4;5;6])] [5;1;6;4;2;3]) (2) 1);
  (*3514*) Assign (T 93) (Plain (Zeros [6;6;5;5]));
  (*3515*) AddTo (T 93) (Times (Einsum [(n_t2'aaaa,[0;1;2;3]); (T 92,[4;5;0;1;3;6])] [4;5;6;2]) (-1) 1);
  (*3516*) Assign (T 94) (Plain (Zeros [6;6;4;5]));
  (*3517*) AddTo (T 94) (Plain (Einsum [(n_t1'bb,[0;1]); (n_l2'abab,[2;1;3;4])] [4;0;3;2]));
  (*3518*) AddTo n_l2new_abab (Plain (Einsum [(T 8,[0;1;2;3]); (T 94,[4;0;2;5])] [5;1;3;4]));
  (*3519*) Assign (T 95) (Plain (Zeros [6;6;4;5]));
  (*3520*) AddTo (T 95) (Plain (Einsum [(n_t2'bbbb,[0;1;2;3]); (n_l3'babbab,[2;4;3;5;6;1])] [5;0;6;4]));
  (*3521*) Assign (T 96) (Plain (Zeros [6;6;4;5]));
  (*3522*) AddTo (T 96) (Plain (Einsum [(n_t2'abab,[0;1;2;3]); (n_l3'abaaba,[4;3;2;5;6;0])] [6;1;5;4]));
  (*3523*) Assign (T 97) (Plain (Zeros [6;6;4;5]));
  (*3524*) AddTo (T 97) (Plain (Einsum [(T 94,[0;1;2;3])] [0;1;2;3]));
  (*3525*) AddTo (T 97) (Times (Einsum [(T 95,[0;1;2;3])] [0;1;2;3]) (2) 1);
  (*3526*) AddTo (T 97) (Times (Einsum [(T 96,[0;1;2;3])] [0;1;2;3]) (2) 1);
  (*3527*) Assign (T 98) (Plain (Zeros [6;6;5;5]));
  (*3528*) AddTo (T 98) (Times (Einsum [(T 88,[0;1;2;3])] [0;1;2;3]) (1) 2);
  (*3529*) AddTo (T 98) (Plain (Einsum [(T 89,[0;1;2;3])] [0;1;2;3]));
  (*3530*) AddTo (T 98) (Plain (Einsum [(T 90,[0;1;2;3])] [0;1;3;2]));
  (*3531*) AddTo (T 98) (Plain (Einsum [(T 91,[0;1;2;3])] [0;1;2;3]));
  (*3532*) AddTo (T 98) (Plain (Einsum [(T 93,[0;1;2;3])] [0;1;3;2]));
  (*3533*) AddTo (T 98) (Times (Einsum [(n_t1'aa,[0;1]); (T 97,[2;3;0;4])] [2;3;1;4]) (1) 2);
  (*3534*) AddTo n_l1new_bb (Times (Einsum [(n_v'aabb'vvov,[0;1;2;3]); (T 98,[4;2;1;0])] [3;4]) (-2) 1);
  (*3535*) Del (T 98);
  (*3536*) Assign (T 99) (Plain (Zeros [6;6;6;7;4;4]));
  (*3537*) AddTo (T 99) (Plain (Einsum [(n_t1'bb,[0;1]); (T 59,[2;3;4;1;5;6])] [2;3;0;4;5;6]));
  (*3538*) Assign (T 100) (Plain (Zeros [6;6;4;4;4;5]));
  (*3539*) AddTo (T 100) (Plain (Einsum [(n_t1'bb,[0;1]); (T 62,[2;1;3;4;5;6])] [2;0;3;4;5;6]));
  (*3540*) Assign (T 101) (Plain (Zeros [6;7;5;5]));
  (*3541*) AddTo (T 101) (Plain (Einsum [(T 69,[0;1;2;3])] [0;1;2;3]));
  (*3542*) Del (T 69);
  (*3543*) AddTo (T 101) (Plain (Einsum [(T 70,[0;1;2;3])] [0;1;2;3]));
  (*3544*) Del (T 70);
  (*3545*) AddTo n_l2new_abab (Times (Einsum [(n_v'aabb'ovvv,[0;1;2;3]); (T 101,[4;3;5;1])] [5;2;0;4]) (-2) 1);
  (*3546*) AddTo n_l2new_abab (Times (Einsum [(T 101,[0;1;2;3]); (T 7,[0;4;5;3])] [2;1;5;4]) (2) 1);
  (*3547*) Assign (T 102) (Plain (Zeros [6;7;4;4]));
  (*3548*) AddTo (T 102) (Plain (Einsum [(T 64,[0;1;2;3])] [0;1;2;3]));
  (*3549*) AddTo (T 102) (Times (Einsum [(T 65,[0;1;2;3])] [0;1;2;3]) (2) 1);
  (*3550*) AddTo (T 102) (Times (Einsum [(T 66,[0;1;2;3])] [0;1;2;3]) (2) 1);
  (*3551*) AddTo n_l1new_bb (Times (Einsum [(n_v'aabb'oovv,[0;1;2;3]); (T 102,[4;3;0;1])] [2;4]) (-1) 1);
  (*3552*) Assign (T 103) (Plain (Zeros [6;6;4;4]));
  (*3553*) AddTo (T 103) (Plain (Einsum [(n_l2'abab,[0;1;2;3]); (n_t2'abab,[4;5;0;1])] [3;5;2;4]));
  (*3554*) Assign (T 104) (Plain (Zeros [6;6;4;4]));
  (*3555*) AddTo (T 104) (Plain (Einsum [(n_l3'babbab,[0;1;2;3;4;5]); (n_t3'babbab,[6;7;5;0;1;2])] [3;6;4;7]));
  (*3556*) Assign (T 105) (Plain (Zeros [6;6;4;4]));
  (*3557*) AddTo (T 105) (Plain (Einsum [(n_l3'abaaba,[0;1;2;3;4;5]); (n_t3'abaaba,[6;7;5;0;1;2])] [4;7;3;6]));
  (*3558*) Assign (T 106) (Plain (Zeros [6;6;4;4]));
  (*3559*) AddTo (T 106) (Plain (Einsum [(n_t1'bb,[0;1]); (T 102,[2;1;3;4])] [0;2;3;4]));
  (*3560*) Assign (T 107) (Plain (Zeros [6;6;4;5]));
  (*3561*) AddTo (T 107) (Plain (Einsum [(T 95,[0;1;2;3])] [0;1;2;3]));
  (*3562*) AddTo (T 107) (Plain (Einsum [(T 96,[0;1;2;3])] [0;1;2;3]));
  (*3563*) Assign (T 108) (Plain (Zeros [6;6;4;4]));
  (*3564*) AddTo (T 108) (Times (Einsum [(n_t1'aa,[0;1]); (T 107,[2;3;4;1])] [2;3;0;4]) (2) 1);
  (*3565*) Assign (T 109) (Plain (Zeros [6;6;4;4]));
  (*3566*) AddTo (T 109) (Plain (Einsum [(T 103,[0;1;2;3])] [0;1;2;3]));
  (*3567*) AddTo (T 109) (Times (Einsum [(T 104,[0;1;2;3])] [0;1;2;3]) (9999999999999597) 5000000000000000);
  (*3568*) AddTo (T 109) (Times (Einsum [(T 105,[0;1;2;3])] [0;1;2;3]) (9999999999999597) 5000000000000000);
  (*3569*) AddTo (T 109) (Plain (Einsum [(T 106,[0;1;2;3])] [1;0;2;3]));
  (*3570*) AddTo (T 109) (Plain (Einsum [(T 108,[0;1;2;3])] [0;1;3;2]));
  (*3571*) AddTo n_l2new_abab (Plain (Einsum [(n_v'aabb'ovov,[0;1;2;3]); (T 109,[4;2;5;0])] [1;3;5;4]));
  (*3572*) Assign (T 110) (Plain (Zeros [6;6]));
  (*3573*) AddTo (T 110) (Plain (Einsum [(n_l2'bbbb,[0;1;2;3]); (n_t2'bbbb,[4;3;0;1])] [2;4]));
  (*3574*) Assign (T 111) (Plain (Zeros [6;6]));
  (*3575*) AddTo (T 111) (Plain (Einsum [(n_l2'abab,[0;1;2;3]); (n_t2'abab,[2;4;0;1])] [3;4]));
  (*3576*) Assign (T 112) (Plain (Zeros [6;6]));
  (*3577*) AddTo (T 112) (Plain (Einsum [(n_l3'bbbbbb,[0;1;2;3;4;5]); (n_t3'bbbbbb,[6;4;5;0;1;2])] [3;6]));
  (*3578*) Assign (T 113) (Plain (Zeros [6;6]));
  (*3579*) AddTo (T 113) (Plain (Einsum [(n_l3'babbab,[0;1;2;3;4;5]); (n_t3'babbab,[6;4;5;0;1;2])] [3;6]));
  (*3580*) Assign (T 114) (Plain (Zeros [6;6]));
  (*3581*) AddTo (T 114) (Plain (Einsum [(n_l3'abaaba,[0;1;2;3;4;5]); (n_t3'abaaba,[3;6;5;0;1;2])] [4;6]));
  (*3582*) Assign (T 115) (Plain (Zeros [6;6]));
  (*3583*) AddTo (T 115) (Plain (Einsum [(T 110,[0;1])] [0;1]));
  (*3584*) AddTo (T 115) (Times (Einsum [(T 111,[0;1])] [0;1]) (1) 2);
  (*3585*) AddTo (T 115) (Times (Einsum [(T 112,[0;1])] [0;1]) (7499999999999697) 5000000000000000);
  (*3586*) AddTo (T 115) (Times (Einsum [(T 113,[0;1])] [0;1]) (9999999999999597) 10000000000000000);
  (*3587*) AddTo (T 115) (Times (Einsum [(T 114,[0;1])] [0;1]) (49999999999998007) 100000000000000000);
  (*3588*) Assign (T 116) (Plain (Zeros [6;6;4;5]));
  (*3589*) AddTo (T 116) (Plain (Einsum [(n_l1'bb,[0;1]); (n_t2'abab,[2;3;4;0])] [1;3;2;4]));
  (*3590*) AddTo (T 116) (Plain (Einsum [(T 94,[0;1;2;3])] [0;1;2;3]));
  (*3591*) AddTo (T 116) (Times (Einsum [(n_l2'bbbb,[0;1;2;3]); (n_t3'babbab,[4;5;3;0;6;1])] [2;4;5;6]) (2) 1);
  (*3592*) AddTo (T 116) (Times (Einsum [(T 95,[0;1;2;3])] [0;1;2;3]) (2) 1);
  (*3593*) AddTo (T 116) (Times (Einsum [(n_l2'abab,[0;1;2;3]); (n_t3'abaaba,[4;5;2;6;1;0])] [3;5;4;6]) (2) 1);
  (*3594*) AddTo (T 116) (Times (Einsum [(T 96,[0;1;2;3])] [0;1;2;3]) (2) 1);
  (*3595*) AddTo (T 116) (Times (Einsum [(n_t3'babbab,[0;1;2;3;4;5]); (T 73,[6;0;2;7;5;3])] [6;7;1;4]) (-3) 1);
  (*3596*) AddTo (T 116) (Times (Einsum [(n_t3'abaaba,[0;1;2;3;4;5]); (T 75,[6;1;7;4;2;5])] [6;7;0;3]) (-4) 1);
  (*3597*) AddTo (T 116) (Times (Einsum [(n_t3'babbab,[0;1;2;3;4;5]); (T 59,[6;2;5;3;1;7])] [6;0;7;4]) (2) 1);
  (*3598*) AddTo (T 116) (Times (Einsum [(n_t2'abab,[0;1;2;3]); (T 99,[4;1;5;3;0;6])] [4;5;6;2]) (2) 1);
  (*3599*) AddTo (T 116) (Times (Einsum [(n_t3'aaaaaa,[0;1;2;3;4;5]); (T 92,[6;7;2;1;5;4])] [6;7;0;3]) (3) 1);
  (*3600*) AddTo (T 116) (Times (Einsum [(n_t3'abaaba,[0;1;2;3;4;5]); (T 62,[6;4;2;0;7;5])] [6;1;7;3]) (-2) 1);
  (*3601*) AddTo (T 116) (Times (Einsum [(n_t2'aaaa,[0;1;2;3]); (T 100,[4;5;1;0;6;3])] [4;5;6;2]) (-2) 1);
  (*3602*) AddTo (T 116) (Times (Einsum [(n_t2'abab,[0;1;2;3]); (T 101,[4;3;2;5])] [4;1;0;5]) (-2) 1);
  (*3603*) AddTo (T 116) (Times (Einsum [(n_t2'abab,[0;1;2;3]); (T 79,[1;4;5;3])] [4;5;0;2]) (-2) 1);
  (*3604*) AddTo (T 116) (Times (Einsum [(n_t2'aaaa,[0;1;2;3]); (T 97,[4;5;1;3])] [4;5;0;2]) (2) 1);
  (*3605*) AddTo (T 116) (Times (Einsum [(n_t2'abab,[0;1;2;3]); (T 102,[4;3;0;5])] [4;1;5;2]) (-1) 1);
  (*3606*) AddTo (T 116) (Times (Einsum [(n_t1'aa,[0;1]); (T 109,[2;3;0;4])] [2;3;4;1]) (-1) 1);
  (*3607*) AddTo (T 116) (Times (Einsum [(n_t1'aa,[0;1]); (T 115,[2;3])] [2;3;0;1]) (2) 1);
  (*3608*) AddTo n_l1new_bb (Times (Einsum [(n_v'aabb'ovov,[0;1;2;3]); (T 116,[4;2;0;1])] [3;4]) (-1) 1);
  (*3609*) Del (T 116);
  (*3610*) Assign (T 117) (Plain (Zeros [6;7;7;7]));
  (*3611*) AddTo (T 117) (Plain (Einsum [(n_t2'abab,[0;1;2;3]); (n_l3'babbab,[4;2;5;6;0;1])] [6;4;5;3]));
  (*3612*) Assign (T 118) (Plain (Zeros [6;7;7;7]));
  (*3613*) AddTo (T 118) (Plain (Einsum [(n_t1'bb,[0;1]); (n_l2'bbbb,[2;3;4;0])] [4;2;3;1]));
  (*3614*) AddTo (T 118) (Times (Einsum [(T 117,[0;1;2;3])] [0;2;1;3]) (-1) 1);
  (*3615*) AddTo n_l1new_bb (Times (Einsum [(n_v'bbbb'vvvv,[0;1;2;3]); (T 118,[4;1;2;3])] [0;4]) (2) 1);
  (*3616*) Del (T 118);
  (*3617*) Assign (T 119) (Plain (Zeros [6;6;4;5]));
  (*3618*) AddTo (T 119) (Plain (Einsum [(n_t1'aa,[0;1]); (n_v'aabb'vvoo,[2;1;3;4])] [3;4;0;2]));
  (*3619*) Assign (T 120) (Plain (Zeros [6;6;4;5]));
  (*3620*) AddTo (T 120) (Plain (Einsum [(n_t2'abab,[0;1;2;3]); (n_v'aabb'vvov,[4;2;5;3])] [1;5;0;4]));
  (*3621*) Assign (T 121) (Plain (Zeros [6;6;4;5]));
  (*3622*) AddTo (T 121) (Plain (Einsum [(n_v'bbbb'ovov,[0;1;2;3]); (n_t3'babbab,[4;5;2;1;6;3])] [4;0;5;6]));
  (*3623*) Assign (T 122) (Plain (Zeros [6;6;4;5]));
  (*3624*) AddTo (T 122) (Plain (Einsum [(n_v'aabb'ovov,[0;1;2;3]); (n_t3'abaaba,[4;5;0;6;3;1])] [5;2;4;6]));
  (*3625*) Assign (T 123) (Plain (Zeros [6;6;6;7]));
  (*3626*) AddTo (T 123) (Times (Einsum [(n_v'bbbb'ooov,[0;1;2;3])] [0;1;2;3]) (-1) 1);
  (*3627*) AddTo (T 123) (Plain (Einsum [(n_v'bbbb'ooov,[0;1;2;3])] [2;0;1;3]));
  (*3628*) AddTo (T 123) (Plain (Einsum [(T 4,[0;1;2;3])] [1;0;2;3]));
  (*3629*) AddTo (T 123) (Times (Einsum [(T 4,[0;1;2;3])] [2;0;1;3]) (-1) 1);
  (*3630*) Assign (T 124) (Plain (Zeros [6;6;4;5]));
  (*3631*) AddTo (T 124) (Plain (Einsum [(n_t2'abab,[0;1;2;3]); (T 123,[4;5;1;3])] [4;5;0;2]));
  (*3632*) Assign (T 125) (Plain (Zeros [6;6;4;5]));
  (*3633*) AddTo (T 125) (Times (Einsum [(n_t2'aaaa,[0;1;2;3]); (T 40,[4;5;1;3])] [4;5;0;2]) (2) 1);
  (*3634*) Assign (T 126) (Plain (Zeros [6;6;4;5]));
  (*3635*) AddTo (T 126) (Plain (Einsum [(n_t2'abab,[0;1;2;3]); (T 9,[4;3;0;5])] [1;4;5;2]));
  (*3636*) Assign (T 127) (Plain (Zeros [6;7;4;5]));
  (*3637*) AddTo (T 127) (Plain (Einsum [(n_v'aabb'ovov,[0;1;2;3])] [2;3;0;1]));
  (*3638*) AddTo (T 127) (Plain (Einsum [(T 16,[0;1;2;3])] [0;1;2;3]));
  (*3639*) Assign (T 128) (Plain (Zeros [6;6;4;5]));
  (*3640*) AddTo (T 128) (Plain (Einsum [(n_t1'bb,[0;1]); (T 127,[2;1;3;4])] [0;2;3;4]));
  (*3641*) Assign (T 129) (Plain (Zeros [6;6;4;4]));
  (*3642*) AddTo (T 129) (Plain (Einsum [(n_v'aabb'oooo,[0;1;2;3])] [2;3;0;1]));
  (*3643*) AddTo (T 129) (Plain (Einsum [(T 30,[0;1;2;3])] [1;0;3;2]));
  (*3644*) AddTo (T 129) (Plain (Einsum [(T 31,[0;1;2;3])] [1;0;3;2]));
  (*3645*) AddTo (T 129) (Plain (Einsum [(T 33,[0;1;2;3])] [1;0;3;2]));
  (*3646*) Del (T 33);
  (*3647*) Assign (T 130) (Plain (Zeros [6;6;4;5]));
  (*3648*) AddTo (T 130) (Plain (Einsum [(n_t1'aa,[0;1]); (T 129,[2;3;0;4])] [2;3;4;1]));
  (*3649*) Assign (T 131) (Plain (Zeros [6;6;4;5]));
  (*3650*) AddTo (T 131) (Plain (Einsum [(n_v'aabb'ovoo,[0;1;2;3])] [2;3;0;1]));
  (*3651*) AddTo (T 131) (Plain (Einsum [(T 119,[0;1;2;3])] [1;0;2;3]));
  (*3652*) AddTo (T 131) (Plain (Einsum [(T 120,[0;1;2;3])] [0;1;2;3]));
  (*3653*) AddTo (T 131) (Times (Einsum [(T 121,[0;1;2;3])] [0;1;2;3]) (2) 1);
  (*3654*) AddTo (T 131) (Times (Einsum [(T 122,[0;1;2;3])] [0;1;2;3]) (2) 1);
  (*3655*) AddTo (T 131) (Times (Einsum [(T 124,[0;1;2;3])] [1;0;2;3]) (-1) 1);
  (*3656*) AddTo (T 131) (Plain (Einsum [(T 125,[0;1;2;3])] [1;0;2;3]));
  (*3657*) AddTo (T 131) (Times (Einsum [(T 126,[0;1;2;3])] [0;1;2;3]) (-1) 1);
  (*3658*) AddTo (T 131) (Plain (Einsum [(T 22,[0;1]); (n_t2'abab,[2;3;4;1])] [3;0;2;4]));
  (*3659*) AddTo (T 131) (Plain (Einsum [(T 128,[0;1;2;3])] [0;1;2;3]));
  (*3660*) AddTo (T 131) (Times (Einsum [(T 130,[0;1;2;3])] [1;0;2;3]) (-1) 1);
  (*3661*) AddTo n_l1new_bb (Times (Einsum [(n_l2'abab,[0;1;2;3]); (T 131,[3;4;2;0])] [1;4]) (-1) 1);
  (*3662*) Del (T 131);
  (*3663*) Assign (T 132) (Plain (Zeros [6;6;6;7]));
  (*3664*) AddTo (T 132) (Times (Einsum [(n_t3'bbbbbb,[0;1;2;3;4;5]); (T 73,[6;2;1;7;4;5])] [6;7;0;3]) (-1) 1);
  (*3665*) Assign (T 133) (Plain (Zeros [6;6;6;6;6;7]));
  (*3666*) AddTo (T 133) (Plain (Einsum [(n_t1'bb,[0;1]); (T 73,[2;3;4;5;6;1])] [2;3;4;0;5;6]));
  (*3667*) Assign (T 134) (Plain (Zeros [6;6;6;7]));
  (*3668*) AddTo (T 134) (Times (Einsum [(n_t3'babbab,[0;1;2;3;4;5]); (T 75,[6;2;7;5;1;4])] [6;7;0;3]) (-1) 1);
  (*3669*) Assign (T 135) (Plain (Zeros [6;6;6;6;4;5]));
  (*3670*) AddTo (T 135) (Plain (Einsum [(n_t1'bb,[0;1]); (T 75,[2;3;4;1;5;6])] [2;3;0;4;5;6]));
  (*3671*) Assign (T 136) (Plain (Zeros [6;6;6;7]));
  (*3672*) AddTo (T 136) (Plain (Einsum [(n_t3'abaaba,[0;1;2;3;4;5]); (T 92,[6;7;0;2;3;5])] [6;7;1;4]));
  (*3673*) Assign (T 137) (Plain (Zeros [6;7;7;7]));
  (*3674*) AddTo (T 137) (Times (Einsum [(T 1,[0;1;2;3])] [0;2;1;3]) (-1) 1);
  (*3675*) AddTo (T 137) (Times (Einsum [(T 117,[0;1;2;3])] [0;2;1;3]) (-3333333333333333) 10000000000000000);
  (*3676*) Assign (T 138) (Plain (Zeros [6;6;6;7]));
  (*3677*) AddTo (T 138) (Times (Einsum [(T 2,[0;1;2;3])] [1;0;2;3]) (-1) 1);
  (*3678*) AddTo (T 138) (Times (Einsum [(T 77,[0;1;2;3])] [0;1;2;3]) (3) 1);
  (*3679*) AddTo (T 138) (Plain (Einsum [(T 78,[0;1;2;3])] [0;1;2;3]));
  (*3680*) AddTo n_l2new_abab (Times (Einsum [(n_v'aabb'ovoo,[0;1;2;3]); (T 138,[2;4;3;5])] [1;5;0;4]) (2) 1);
  (*3681*) Assign (T 139) (Plain (Zeros [6;6;6;7]));
  (*3682*) AddTo (T 139) (Times (Einsum [(n_t2'bbbb,[0;1;2;3]); (T 138,[4;1;5;3])] [0;4;5;2]) (4) 1);
  (*3683*) Assign (T 140) (Plain (Zeros [6;6;4;5]));
  (*3684*) AddTo (T 140) (Times (Einsum [(T 94,[0;1;2;3])] [0;1;2;3]) (1) 2);
  (*3685*) AddTo (T 140) (Plain (Einsum [(T 95,[0;1;2;3])] [0;1;2;3]));
  (*3686*) Del (T 95);
  (*3687*) AddTo (T 140) (Plain (Einsum [(T 96,[0;1;2;3])] [0;1;2;3]));
  (*3688*) Del (T 96);
  (*3689*) AddTo n_l1new_aa (Times (Einsum [(n_v'aabb'vvoo,[0;1;2;3]); (T 140,[2;3;4;1])] [0;4]) (-2) 1);
  (*3690*) AddTo n_l2new_abab (Times (Einsum [(n_v'aabb'vvov,[0;1;2;3]); (T 140,[4;2;5;1])] [0;3;5;4]) (-2) 1);
  (*3691*) AddTo n_l2new_abab (Times (Einsum [(n_v'aabb'ooov,[0;1;2;3]); (T 140,[4;2;1;5])] [5;3;0;4]) (2) 1);
  (*3692*) AddTo n_l2new_abab (Times (Einsum [(T 22,[0;1]); (T 140,[2;0;3;4])] [4;1;3;2]) (-2) 1);
  (*3693*) Assign (T 141) (Plain (Zeros [6;6;6;7]));
  (*3694*) AddTo (T 141) (Times (Einsum [(n_t2'abab,[0;1;2;3]); (T 140,[4;5;0;2])] [1;4;5;3]) (2) 1);
  (*3695*) Assign (T 142) (Plain (Zeros [6;6;6;6]));
  (*3696*) AddTo (T 142) (Plain (Einsum [(n_l2'bbbb,[0;1;2;3]); (n_t2'bbbb,[4;5;0;1])] [2;3;4;5]));
  (*3697*) Assign (T 143) (Plain (Zeros [6;6;6;6]));
  (*3698*) AddTo (T 143) (Plain (Einsum [(n_l3'bbbbbb,[0;1;2;3;4;5]); (n_t3'bbbbbb,[6;7;5;0;1;2])] [3;4;6;7]));
  (*3699*) Assign (T 144) (Plain (Zeros [6;6;6;6]));
  (*3700*) AddTo (T 144) (Plain (Einsum [(n_l3'babbab,[0;1;2;3;4;5]); (n_t3'babbab,[6;4;7;0;1;2])] [3;5;6;7]));
  (*3701*) AddTo n_l2new_bbbb (Times (Einsum [(n_v'bbbb'ovov,[0;1;2;3]); (T 144,[4;5;0;2])] [1;3;4;5]) (19999999999999203) 10000000000000000);
  (*3702*) Assign (T 145) (Plain (Zeros [6;6;6;6]));
  (*3703*) AddTo (T 145) (Plain (Einsum [(T 142,[0;1;2;3])] [1;0;3;2]));
  (*3704*) AddTo (T 145) (Times (Einsum [(T 143,[0;1;2;3])] [0;1;3;2]) (-7499999999999697) 2500000000000000);
  (*3705*) AddTo (T 145) (Times (Einsum [(T 144,[0;1;2;3])] [0;1;3;2]) (-9999999999999601) 10000000000000000);
  (*3706*) AddTo (T 145) (Plain (Einsum [(n_t1'bb,[0;1]); (T 138,[2;3;4;1])] [2;3;0;4]));
  (*3707*) Assign (T 146) (Plain (Zeros [6;6;6;7]));
  (*3708*) AddTo (T 146) (Times (Einsum [(T 2,[0;1;2;3])] [1;0;2;3]) (-2) 1);
  (*3709*) AddTo (T 146) (Times (Einsum [(n_l2'bbbb,[0;1;2;3]); (n_t3'bbbbbb,[4;5;3;6;0;1])] [4;2;5;6]) (6) 1);
  (*3710*) AddTo (T 146) (Times (Einsum [(T 77,[0;1;2;3])] [0;1;2;3]) (6) 1);
  (*3711*) AddTo (T 146) (Times (Einsum [(T 78,[0;1;2;3])] [0;1;2;3]) (2) 1);
  (*3712*) AddTo (T 146) (Times (Einsum [(T 132,[0;1;2;3])] [2;0;1;3]) (9) 1);
  (*3713*) AddTo (T 146) (Times (Einsum [(n_t2'bbbb,[0;1;2;3]); (T 133,[4;0;1;5;6;3])] [5;4;6;2]) (6) 1);
  (*3714*) AddTo (T 146) (Times (Einsum [(T 134,[0;1;2;3])] [2;0;1;3]) (4) 1);
  (*3715*) AddTo (T 146) (Times (Einsum [(n_t2'abab,[0;1;2;3]); (T 135,[4;1;5;6;0;2])] [5;4;6;3]) (2) 1);
  (*3716*) AddTo (T 146) (Plain (Einsum [(T 136,[0;1;2;3])] [2;0;1;3]));
  (*3717*) AddTo (T 146) (Times (Einsum [(n_t2'bbbb,[0;1;2;3]); (T 137,[4;3;2;5])] [0;4;1;5]) (-6) 1);
  (*3718*) AddTo (T 146) (Times (Einsum [(T 139,[0;1;2;3])] [0;1;2;3]) (-1) 1);
  (*3719*) AddTo (T 146) (Plain (Einsum [(T 141,[0;1;2;3])] [0;1;2;3]));
  (*3720*) AddTo (T 146) (Times (Einsum [(n_t1'bb,[0;1]); (T 145,[0;2;3;4])] [4;2;3;1]) (2) 1);
  (*3721*) Del (T 145);
  (*3722*) AddTo (T 146) (Times (Einsum [(n_t1'bb,[0;1]); (T 115,[2;3])] [0;2;3;1]) (2) 1);
  (*3723*) AddTo n_l1new_bb (Times (Einsum [(n_v'bbbb'ovov,[0;1;2;3]); (T 146,[0;4;2;1])] [3;4]) (-1) 1);
  (*3724*) Del (T 146);
  (*3725*) Assign (T 147) (Plain (Zeros [6;6;6;7]));
  (*3726*) AddTo (T 147) (Plain (Einsum [(n_t2'bbbb,[0;1;2;3]); (n_v'bbbb'ovvv,[4;2;5;3])] [0;1;4;5]));
  (*3727*) Assign (T 148) (Plain (Zeros [6;6;6;7]));
  (*3728*) AddTo (T 148) (Plain (Einsum [(n_v'bbbb'ovov,[0;1;2;3]); (n_t3'bbbbbb,[4;5;2;6;1;3])] [4;5;0;6]));
  (*3729*) Assign (T 149) (Plain (Zeros [6;6;6;7]));
  (*3730*) AddTo (T 149) (Plain (Einsum [(n_v'aabb'ovov,[0;1;2;3]); (n_t3'babbab,[4;0;5;6;1;3])] [4;5;2;6]));
  (*3731*) Assign (T 150) (Plain (Zeros [6;6;6;7]));
  (*3732*) AddTo (T 150) (Times (Einsum [(n_t2'bbbb,[0;1;2;3]); (T 5,[4;5;1;3])] [0;4;5;2]) (2) 1);
  (*3733*) Del (T 5);
  (*3734*) Assign (T 151) (Plain (Zeros [6;6;6;7]));
  (*3735*) AddTo (T 151) (Plain (Einsum [(n_t2'abab,[0;1;2;3]); (T 7,[4;5;0;2])] [1;4;5;3]));
  (*3736*) Assign (T 152) (Plain (Zeros [6;6;6;7]));
  (*3737*) AddTo (T 152) (Times (Einsum [(T 22,[0;1]); (n_t2'bbbb,[2;3;4;1])] [2;3;0;4]) (-1) 1);
  (*3738*) Assign (T 153) (Plain (Zeros [6;6;7;7]));
  (*3739*) AddTo (T 153) (Plain (Einsum [(n_t1'bb,[0;1]); (n_v'bbbb'ovvv,[2;3;4;1])] [0;2;3;4]));
  (*3740*) Assign (T 154) (Plain (Zeros [6;6;7;7]));
  (*3741*) AddTo (T 154) (Plain (Einsum [(n_v'bbbb'ovov,[0;1;2;3])] [0;2;3;1]));
  (*3742*) AddTo (T 154) (Times (Einsum [(n_v'bbbb'oovv,[0;1;2;3])] [0;1;2;3]) (-1) 1);
  (*3743*) AddTo (T 154) (Plain (Einsum [(T 153,[0;1;2;3])] [0;1;2;3]));
  (*3744*) Assign (T 155) (Plain (Zeros [6;6;6;7]));
  (*3745*) AddTo (T 155) (Plain (Einsum [(n_t1'bb,[0;1]); (T 154,[2;3;1;4])] [0;2;3;4]));
  (*3746*) Del (T 154);
  (*3747*) Assign (T 156) (Plain (Zeros [6;6;6;7]));
  (*3748*) AddTo (T 156) (Plain (Einsum [(n_t1'bb,[0;1]); (T 29,[0;2;3;4])] [2;3;4;1]));
  (*3749*) Del (T 29);
  (*3750*) Assign (T 157) (Plain (Zeros [6;6;6;7]));
  (*3751*) AddTo (T 157) (Times (Einsum [(n_v'bbbb'ooov,[0;1;2;3])] [0;1;2;3]) (-1) 1);
  (*3752*) AddTo (T 157) (Plain (Einsum [(T 147,[0;1;2;3])] [2;1;0;3]));
  (*3753*) AddTo (T 157) (Times (Einsum [(T 148,[0;1;2;3])] [2;1;0;3]) (-3) 1);
  (*3754*) AddTo (T 157) (Times (Einsum [(T 149,[0;1;2;3])] [2;1;0;3]) (-1) 1);
  (*3755*) AddTo (T 157) (Times (Einsum [(T 150,[0;1;2;3])] [2;0;1;3]) (-1) 1);
  (*3756*) AddTo (T 157) (Plain (Einsum [(T 151,[0;1;2;3])] [2;0;1;3]));
  (*3757*) AddTo (T 157) (Plain (Einsum [(T 152,[0;1;2;3])] [2;1;0;3]));
  (*3758*) AddTo (T 157) (Plain (Einsum [(T 155,[0;1;2;3])] [2;1;0;3]));
  (*3759*) AddTo (T 157) (Plain (Einsum [(T 156,[0;1;2;3])] [1;2;0;3]));
  (*3760*) AddTo n_l1new_bb (Times (Einsum [(n_l2'bbbb,[0;1;2;3]); (T 157,[4;2;3;1])] [0;4]) (2) 1);
  (*3761*) Del (T 157);
  (*3762*) Assign (T 158) (Plain (Zeros [6;6;6;7]));
  (*3763*) AddTo (T 158) (Plain (Einsum [(T 77,[0;1;2;3])] [0;1;2;3]));
  (*3764*) AddTo (T 158) (Times (Einsum [(T 78,[0;1;2;3])] [0;1;2;3]) (3333333333333333) 10000000000000000);
  (*3765*) Assign (T 159) (Plain (Zeros [6;6;6;6]));
  (*3766*) AddTo (T 159) (Plain (Einsum [(n_t1'bb,[0;1]); (T 158,[2;3;4;1])] [0;2;3;4]));
  (*3767*) Assign (T 160) (Plain (Zeros [6;6;6;7]));
  (*3768*) AddTo (T 160) (Times (Einsum [(n_l1'bb,[0;1]); (n_t2'bbbb,[2;3;4;0])] [1;2;3;4]) (2) 1);
  (*3769*) AddTo (T 160) (Times (Einsum [(n_l2'abab,[0;1;2;3]); (n_t3'babbab,[4;2;5;6;0;1])] [3;4;5;6]) (2) 1);
  (*3770*) AddTo (T 160) (Times (Einsum [(T 132,[0;1;2;3])] [0;2;1;3]) (9) 1);
  (*3771*) Del (T 132);
  (*3772*) AddTo (T 160) (Times (Einsum [(T 134,[0;1;2;3])] [0;2;1;3]) (4) 1);
  (*3773*) Del (T 134);
  (*3774*) AddTo (T 160) (Plain (Einsum [(T 136,[0;1;2;3])] [0;2;1;3]));
  (*3775*) Del (T 136);
  (*3776*) AddTo (T 160) (Times (Einsum [(T 139,[0;1;2;3])] [1;0;2;3]) (-1) 1);
  (*3777*) Del (T 139);
  (*3778*) AddTo (T 160) (Plain (Einsum [(T 141,[0;1;2;3])] [1;0;2;3]));
  (*3779*) Del (T 141);
  (*3780*) AddTo (T 160) (Times (Einsum [(n_t1'bb,[0;1]); (T 159,[2;3;0;4])] [3;4;2;1]) (-6) 1);
  (*3781*) AddTo (T 160) (Times (Einsum [(n_t1'bb,[0;1]); (T 115,[2;3])] [2;0;3;1]) (2) 1);
  (*3782*) Del (T 115);
  (*3783*) AddTo n_l1new_bb (Plain (Einsum [(n_v'bbbb'ovov,[0;1;2;3]); (T 160,[4;0;2;3])] [1;4]));
  (*3784*) Del (T 160);
  (*3785*) Assign (T 161) (Plain (Zeros [7;7]));
  (*3786*) AddTo (T 161) (Plain (Einsum [(n_l1'bb,[0;1]); (n_t1'bb,[1;2])] [0;2]));
  (*3787*) Assign (T 162) (Plain (Zeros [7;7]));
  (*3788*) AddTo (T 162) (Plain (Einsum [(n_l2'bbbb,[0;1;2;3]); (n_t2'bbbb,[2;3;4;1])] [0;4]));
  (*3789*) Assign (T 163) (Plain (Zeros [7;7]));
  (*3790*) AddTo (T 163) (Plain (Einsum [(n_l2'abab,[0;1;2;3]); (n_t2'abab,[2;3;0;4])] [1;4]));
  (*3791*) Assign (T 164) (Plain (Zeros [7;7]));
  (*3792*) AddTo (T 164) (Plain (Einsum [(n_l3'bbbbbb,[0;1;2;3;4;5]); (n_t3'bbbbbb,[3;4;5;6;1;2])] [0;6]));
  (*3793*) Assign (T 165) (Plain (Zeros [7;7]));
  (*3794*) AddTo (T 165) (Plain (Einsum [(n_l3'babbab,[0;1;2;3;4;5]); (n_t3'babbab,[3;4;5;6;1;2])] [0;6]));
  (*3795*) Assign (T 166) (Plain (Zeros [7;7]));
  (*3796*) AddTo (T 166) (Plain (Einsum [(T 161,[0;1])] [0;1]));
  (*3797*) AddTo (T 166) (Times (Einsum [(T 162,[0;1])] [0;1]) (2) 1);
  (*3798*) AddTo (T 166) (Plain (Einsum [(T 163,[0;1])] [0;1]));
  (*3799*) AddTo (T 166) (Times (Einsum [(T 164,[0;1])] [0;1]) (7499999999999697) 2500000000000000);
  (*3800*) AddTo (T 166) (Times (Einsum [(T 165,[0;1])] [0;1]) (9999999999999597) 5000000000000000);
  (*3801*) AddTo n_l1new_bb (Times (Einsum [(T 166,[0;1]); (T 13,[2;3;1;0])] [3;2]) (-1) 1);
  (*3802*) Del (T 166);
  (*3803*) Assign (T 167) (Plain (Zeros [6;7]));
  (*3804*) AddTo (T 167) (Plain (Einsum [(n_l1'bb,[0;1]); (n_t2'bbbb,[2;1;3;0])] [2;3]));
  (*3805*) Assign (T 168) (Plain (Zeros [6;7]));
  (*3806*) AddTo (T 168) (Plain (Einsum [(n_l1'aa,[0;1]); (n_t2'abab,[1;2;0;3])] [2;3]));
  (*3807*) Assign (T 169) (Plain (Zeros [6;7]));
  (*3808*) AddTo (T 169) (Plain (Einsum [(n_l2'bbbb,[0;1;2;3]); (n_t3'bbbbbb,[4;2;3;5;0;1])] [4;5]));
  (*3809*) Assign (T 170) (Plain (Zeros [6;7]));
  (*3810*) AddTo (T 170) (Plain (Einsum [(n_l2'abab,[0;1;2;3]); (n_t3'babbab,[4;2;3;5;0;1])] [4;5]));
  (*3811*) Assign (T 171) (Plain (Zeros [6;7]));
  (*3812*) AddTo (T 171) (Plain (Einsum [(n_l2'aaaa,[0;1;2;3]); (n_t3'abaaba,[2;4;3;0;5;1])] [4;5]));
  (*3813*) Assign (T 172) (Plain (Zeros [6;7]));
  (*3814*) AddTo (T 172) (Plain (Einsum [(n_t3'bbbbbb,[0;1;2;3;4;5]); (T 73,[0;1;2;6;4;5])] [6;3]));
  (*3815*) Assign (T 173) (Plain (Zeros [6;7]));
  (*3816*) AddTo (T 173) (Times (Einsum [(n_t3'babbab,[0;1;2;3;4;5]); (T 75,[0;2;6;5;1;4])] [6;3]) (-1) 1);
  (*3817*) Assign (T 174) (Plain (Zeros [6;7]));
  (*3818*) AddTo (T 174) (Plain (Einsum [(n_t3'abaaba,[0;1;2;3;4;5]); (T 92,[1;6;0;2;3;5])] [6;4]));
  (*3819*) Assign (T 175) (Plain (Zeros [6;6;6;7]));
  (*3820*) AddTo (T 175) (Times (Einsum [(T 2,[0;1;2;3])] [1;0;2;3]) (-1) 1);
  (*3821*) AddTo (T 175) (Times (Einsum [(T 77,[0;1;2;3])] [0;1;2;3]) (7499999999999999) 2500000000000000);
  (*3822*) AddTo (T 175) (Plain (Einsum [(T 78,[0;1;2;3])] [0;1;2;3]));
  (*3823*) Assign (T 176) (Plain (Zeros [6;6]));
  (*3824*) AddTo (T 176) (Plain (Einsum [(n_l1'bb,[0;1]); (n_t1'bb,[2;0])] [1;2]));
  (*3825*) Assign (T 177) (Plain (Zeros [6;6]));
  (*3826*) AddTo (T 177) (Plain (Einsum [(T 176,[0;1])] [0;1]));
  (*3827*) AddTo (T 177) (Times (Einsum [(T 110,[0;1])] [0;1]) (2) 1);
  (*3828*) AddTo (T 177) (Plain (Einsum [(T 111,[0;1])] [0;1]));
  (*3829*) AddTo (T 177) (Times (Einsum [(T 112,[0;1])] [0;1]) (29999999999998783) 10000000000000000);
  (*3830*) AddTo (T 177) (Times (Einsum [(T 113,[0;1])] [0;1]) (2499999999999899) 1250000000000000);
  (*3831*) AddTo (T 177) (Times (Einsum [(T 114,[0;1])] [0;1]) (24999999999999) 25000000000000);
  (*3832*) Assign (T 178) (Plain (Zeros [6;7]));
  (*3833*) AddTo (T 178) (Times (Einsum [(n_t1'bb,[0;1])] [0;1]) (-2500000000000101) 5000000000000000);
  (*3834*) AddTo (T 178) (Times (Einsum [(T 167,[0;1])] [0;1]) (-2500000000000101) 2500000000000000);
  (*3835*) AddTo (T 178) (Times (Einsum [(T 168,[0;1])] [0;1]) (-2500000000000101) 5000000000000000);
  (*3836*) AddTo (T 178) (Times (Einsum [(T 169,[0;1])] [0;1]) (-3750000000000151) 2500000000000000);
  (*3837*) AddTo (T 178) (Times (Einsum [(T 170,[0;1])] [0;1]) (-2500000000000101) 2500000000000000);
  (*3838*) AddTo (T 178) (Times (Einsum [(T 171,[0;1])] [0;1]) (-2500000000000101) 5000000000000000);
  (*3839*) AddTo (T 178) (Times (Einsum [(T 172,[0;1])] [0;1]) (7499999999999999) 5000000000000000);
  (*3840*) AddTo (T 178) (Plain (Einsum [(T 173,[0;1])] [0;1]));
  (*3841*) AddTo (T 178) (Times (Einsum [(T 174,[0;1])] [0;1]) (2500000000000001) 5000000000000000);
  (*3842*) AddTo (T 178) (Times (Einsum [(n_t2'bbbb,[0;1;2;3]); (T 175,[0;1;4;3])] [4;2]) (-2500000000000101) 2500000000000000);
  (*3843*) Del (T 175);
  (*3844*) AddTo (T 178) (Times (Einsum [(n_t2'abab,[0;1;2;3]); (T 140,[1;4;0;2])] [4;3]) (2500000000000101) 2500000000000000);
  (*3845*) AddTo (T 178) (Times (Einsum [(n_t1'bb,[0;1]); (T 177,[0;2])] [2;1]) (2500000000000101) 5000000000000000);
  (*3846*) Del (T 177);
  (*3847*) Assign (T 179) (Plain (Zeros [6;6;7;7]));
  (*3848*) AddTo (T 179) (Times (Einsum [(n_v'bbbb'ovov,[0;1;2;3])] [0;2;3;1]) (-1) 1);
  (*3849*) AddTo (T 179) (Plain (Einsum [(n_v'bbbb'ovov,[0;1;2;3])] [0;2;1;3]));
  (*3850*) AddTo n_l1new_bb (Times (Einsum [(T 178,[0;1]); (T 179,[0;2;1;3])] [3;2]) (-9999999999999597) 5000000000000000);
  (*3851*) Del (T 178);
  (*3851*) Del (T 179);
  (*3852*) Assign (T 180) (Plain (Zeros [5;5]));
  (*3853*) AddTo (T 180) (Plain (Einsum [(n_l1'aa,[0;1]); (n_t1'aa,[1;2])] [0;2]));
  (*3854*) Assign (T 181) (Plain (Zeros [5;5]));
  (*3855*) AddTo (T 181) (Plain (Einsum [(n_l2'abab,[0;1;2;3]); (n_t2'abab,[2;3;4;1])] [0;4]));
  (*3856*) Assign (T 182) (Plain (Zeros [5;5]));
  (*3857*) AddTo (T 182) (Plain (Einsum [(n_l2'aaaa,[0;1;2;3]); (n_t2'aaaa,[2;3;4;1])] [0;4]));
  (*3858*) Assign (T 183) (Plain (Zeros [5;5]));
  (*3859*) AddTo (T 183) (Plain (Einsum [(n_l3'babbab,[0;1;2;3;4;5]); (n_t3'babbab,[3;4;5;0;6;2])] [1;6]));
  (*3860*) Assign (T 184) (Plain (Zeros [5;5]));
  (*3861*) AddTo (T 184) (Plain (Einsum [(n_l3'abaaba,[0;1;2;3;4;5]); (n_t3'abaaba,[3;4;5;6;1;2])] [0;6]));
  (*3862*) Assign (T 185) (Plain (Zeros [5;5]));
  (*3863*) AddTo (T 185) (Plain (Einsum [(n_l3'aaaaaa,[0;1;2;3;4;5]); (n_t3'aaaaaa,[3;4;5;6;1;2])] [0;6]));
  (*3864*) Assign (T 186) (Plain (Zeros [5;5]));
  (*3865*) AddTo (T 186) (Times (Einsum [(T 180,[0;1])] [0;1]) (25000000000001) 25000000000000);
  (*3866*) AddTo (T 186) (Times (Einsum [(T 181,[0;1])] [0;1]) (25000000000001) 25000000000000);
  (*3867*) AddTo (T 186) (Times (Einsum [(T 182,[0;1])] [0;1]) (25000000000001) 12500000000000);
  (*3868*) AddTo (T 186) (Plain (Einsum [(T 183,[0;1])] [0;1]));
  (*3869*) AddTo (T 186) (Times (Einsum [(T 184,[0;1])] [0;1]) (19999999999999991) 10000000000000000);
  (*3870*) AddTo (T 186) (Times (Einsum [(T 185,[0;1])] [1;0]) (14999999999999991) 5000000000000000);
  (*3871*) AddTo n_l1new_bb (Times (Einsum [(T 186,[0;1]); (n_v'aabb'vvov,[1;0;2;3])] [3;2]) (9999999999999601) 10000000000000000);
  (*3872*) Del (T 186);
  (*3873*) Assign (T 187) (Plain (Zeros [4;5]));
  (*3874*) AddTo (T 187) (Plain (Einsum [(n_l1'bb,[0;1]); (n_t2'abab,[2;1;3;0])] [2;3]));
  (*3875*) Assign (T 188) (Plain (Zeros [4;5]));
  (*3876*) AddTo (T 188) (Plain (Einsum [(n_l1'aa,[0;1]); (n_t2'aaaa,[2;1;3;0])] [2;3]));
  (*3877*) Assign (T 189) (Plain (Zeros [4;5]));
  (*3878*) AddTo (T 189) (Plain (Einsum [(n_l2'bbbb,[0;1;2;3]); (n_t3'babbab,[2;4;3;0;5;1])] [4;5]));
  (*3879*) Assign (T 190) (Plain (Zeros [4;5]));
  (*3880*) AddTo (T 190) (Plain (Einsum [(n_l2'abab,[0;1;2;3]); (n_t3'abaaba,[4;3;2;5;1;0])] [4;5]));
  (*3881*) Assign (T 191) (Plain (Zeros [4;5]));
  (*3882*) AddTo (T 191) (Plain (Einsum [(n_l2'aaaa,[0;1;2;3]); (n_t3'aaaaaa,[4;2;3;5;0;1])] [4;5]));
  (*3883*) Assign (T 192) (Plain (Zeros [4;5]));
  (*3884*) AddTo (T 192) (Plain (Einsum [(n_t3'babbab,[0;1;2;3;4;5]); (T 59,[0;2;3;5;1;6])] [6;4]));
  (*3885*) Assign (T 193) (Plain (Zeros [4;5]));
  (*3886*) AddTo (T 193) (Times (Einsum [(n_t3'abaaba,[0;1;2;3;4;5]); (T 62,[1;4;0;2;6;5])] [6;3]) (-1) 1);
  (*3887*) Assign (T 194) (Plain (Zeros [4;4;4;4;5;5]));
  (*3888*) AddTo (T 194) (Plain (Einsum [(n_t1'aa,[0;1]); (n_l3'aaaaaa,[2;3;1;4;5;6])] [4;5;6;0;2;3]));
  (*3889*) AddTo n_l3new_abaaba (Times (Einsum [(n_v'aabb'ooov,[0;1;2;3]); (T 194,[4;0;5;1;6;7])] [6;3;7;5;2;4]) (-6) 1);
  (*3890*) AddTo n_l3new_abaaba (Times (Einsum [(T 8,[0;1;2;3]); (T 194,[2;4;5;3;6;7])] [6;1;7;4;0;5]) (-6) 1);
  (*3891*) Assign (T 195) (Plain (Zeros [4;5]));
  (*3892*) AddTo (T 195) (Plain (Einsum [(n_t3'aaaaaa,[0;1;2;3;4;5]); (T 194,[0;1;2;6;4;5])] [6;3]));
  (*3893*) Assign (T 196) (Plain (Zeros [4;4;4;5]));
  (*3894*) AddTo (T 196) (Plain (Einsum [(n_t1'aa,[0;1]); (n_l2'aaaa,[2;1;3;4])] [3;4;0;2]));
  (*3895*) AddTo n_l2new_abab (Times (Einsum [(T 196,[0;1;2;3]); (T 8,[4;5;1;2])] [3;5;0;4]) (-2) 1);
  (*3896*) Assign (T 197) (Plain (Zeros [4;4;4;5]));
  (*3897*) AddTo (T 197) (Plain (Einsum [(n_t2'abab,[0;1;2;3]); (n_l3'abaaba,[4;3;2;5;1;6])] [5;6;0;4]));
  (*3898*) Assign (T 198) (Plain (Zeros [4;4;4;5]));
  (*3899*) AddTo (T 198) (Plain (Einsum [(n_t2'aaaa,[0;1;2;3]); (n_l3'aaaaaa,[4;2;3;5;6;1])] [5;6;0;4]));
  (*3900*) Assign (T 199) (Plain (Zeros [4;4;4;5]));
  (*3901*) AddTo (T 199) (Times (Einsum [(T 196,[0;1;2;3])] [1;0;2;3]) (-33333333333333337) 100000000000000000);
  (*3902*) AddTo (T 199) (Times (Einsum [(T 197,[0;1;2;3])] [0;1;2;3]) (33333333333333337) 100000000000000000);
  (*3903*) AddTo (T 199) (Plain (Einsum [(T 198,[0;1;2;3])] [0;1;2;3]));
  (*3904*) Assign (T 200) (Plain (Zeros [4;4]));
  (*3905*) AddTo (T 200) (Plain (Einsum [(n_l1'aa,[0;1]); (n_t1'aa,[2;0])] [1;2]));
  (*3906*) Assign (T 201) (Plain (Zeros [4;4]));
  (*3907*) AddTo (T 201) (Plain (Einsum [(n_l2'abab,[0;1;2;3]); (n_t2'abab,[4;3;0;1])] [2;4]));
  (*3908*) Assign (T 202) (Plain (Zeros [4;4]));
  (*3909*) AddTo (T 202) (Plain (Einsum [(n_l2'aaaa,[0;1;2;3]); (n_t2'aaaa,[4;3;0;1])] [2;4]));
  (*3910*) Assign (T 203) (Plain (Zeros [4;4]));
  (*3911*) AddTo (T 203) (Plain (Einsum [(n_l3'babbab,[0;1;2;3;4;5]); (n_t3'babbab,[3;6;5;0;1;2])] [4;6]));
  (*3912*) Assign (T 204) (Plain (Zeros [4;4]));
  (*3913*) AddTo (T 204) (Plain (Einsum [(n_l3'abaaba,[0;1;2;3;4;5]); (n_t3'abaaba,[6;4;5;0;1;2])] [3;6]));
  (*3914*) Assign (T 205) (Plain (Zeros [4;4]));
  (*3915*) AddTo (T 205) (Plain (Einsum [(n_l3'aaaaaa,[0;1;2;3;4;5]); (n_t3'aaaaaa,[6;4;5;0;1;2])] [3;6]));
  (*3916*) Assign (T 206) (Plain (Zeros [4;4]));
  (*3917*) AddTo (T 206) (Plain (Einsum [(T 200,[0;1])] [0;1]));
  (*3918*) AddTo (T 206) (Plain (Einsum [(T 201,[0;1])] [0;1]));
  (*3919*) AddTo (T 206) (Times (Einsum [(T 202,[0;1])] [0;1]) (2) 1);
  (*3920*) AddTo (T 206) (Times (Einsum [(T 203,[0;1])] [0;1]) (24999999999999) 25000000000000);
  (*3921*) AddTo (T 206) (Times (Einsum [(T 204,[0;1])] [0;1]) (2499999999999899) 1250000000000000);
  (*3922*) AddTo (T 206) (Times (Einsum [(T 205,[0;1])] [0;1]) (29999999999998783) 10000000000000000);
  (*3923*) Assign (T 207) (Plain (Zeros [4;5]));
  (*3924*) AddTo (T 207) (Times (Einsum [(n_l1'aa,[0;1])] [1;0]) (-25000000000001) 25000000000000);
  (*3925*) AddTo (T 207) (Times (Einsum [(n_t1'aa,[0;1])] [0;1]) (-25000000000001) 25000000000000);
  (*3926*) AddTo (T 207) (Times (Einsum [(T 187,[0;1])] [0;1]) (-25000000000001) 25000000000000);
  (*3927*) AddTo (T 207) (Times (Einsum [(T 188,[0;1])] [0;1]) (-25000000000001) 12500000000000);
  (*3928*) AddTo (T 207) (Times (Einsum [(T 189,[0;1])] [0;1]) (-25000000000001) 25000000000000);
  (*3929*) AddTo (T 207) (Times (Einsum [(T 190,[0;1])] [0;1]) (-25000000000001) 12500000000000);
  (*3930*) AddTo (T 207) (Times (Einsum [(T 191,[0;1])] [0;1]) (-6000000000000239) 2000000000000000);
  (*3931*) AddTo (T 207) (Plain (Einsum [(T 192,[0;1])] [0;1]));
  (*3932*) AddTo (T 207) (Times (Einsum [(T 193,[0;1])] [0;1]) (19999999999999991) 10000000000000000);
  (*3933*) AddTo (T 207) (Times (Einsum [(T 195,[0;1])] [0;1]) (14999999999999991) 5000000000000000);
  (*3934*) AddTo (T 207) (Times (Einsum [(n_t2'abab,[0;1;2;3]); (T 67,[1;3;0;4])] [4;2]) (25000000000001) 12500000000000);
  (*3935*) AddTo (T 207) (Times (Einsum [(n_t2'aaaa,[0;1;2;3]); (T 199,[0;1;4;3])] [4;2]) (-6000000000000239) 1000000000000000);
  (*3936*) AddTo (T 207) (Times (Einsum [(n_t1'aa,[0;1]); (T 206,[0;2])] [2;1]) (25000000000001) 25000000000000);
  (*3937*) AddTo n_l1new_bb (Times (Einsum [(T 207,[0;1]); (n_v'aabb'ovov,[0;1;2;3])] [3;2]) (-9999999999999601) 10000000000000000);
  (*3938*) Del (T 207);
  (*3939*) Assign (T 208) (Plain (Zeros [6;6;4;4]));
  (*3940*) AddTo (T 208) (Plain (Einsum [(T 103,[0;1;2;3])] [0;1;2;3]));
  (*3941*) AddTo (T 208) (Times (Einsum [(T 104,[0;1;2;3])] [0;1;2;3]) (9999999999999597) 5000000000000000);
  (*3942*) AddTo (T 208) (Times (Einsum [(T 105,[0;1;2;3])] [0;1;2;3]) (9999999999999597) 5000000000000000);
  (*3943*) AddTo (T 208) (Plain (Einsum [(T 106,[0;1;2;3])] [1;0;3;2]));
  (*3944*) Del (T 106);
  (*3945*) AddTo (T 208) (Plain (Einsum [(T 108,[0;1;2;3])] [0;1;2;3]));
  (*3946*) Del (T 108);
  (*3947*) AddTo n_l1new_bb (Plain (Einsum [(n_v'aabb'ooov,[0;1;2;3]); (T 208,[4;2;1;0])] [3;4]));
  (*3948*) Del (T 208);
  (*3949*) Assign (T 209) (Plain (Zeros [6;6;6;7]));
  (*3950*) AddTo (T 209) (Plain (Einsum [(n_v'bbbb'ooov,[0;1;2;3])] [0;1;2;3]));
  (*3951*) AddTo (T 209) (Times (Einsum [(n_v'bbbb'ooov,[0;1;2;3])] [0;2;1;3]) (-1) 1);
  (*3952*) AddTo n_l2new_abab (Times (Einsum [(T 209,[0;1;2;3]); (T 97,[0;1;4;5])] [5;3;4;2]) (-1) 1);
  (*3953*) AddTo n_l3new_abaaba (Times (Einsum [(T 209,[0;1;2;3]); (T 92,[0;1;4;5;6;7])] [6;3;7;5;2;4]) (2) 1);
  (*3954*) Assign (T 210) (Plain (Zeros [6;6;6;6]));
  (*3955*) AddTo (T 210) (Times (Einsum [(n_t1'bb,[0;1]); (T 158,[2;3;4;1])] [2;3;0;4]) (3) 1);
  (*3956*) AddTo n_l1new_bb (Times (Einsum [(T 209,[0;1;2;3]); (T 210,[4;0;2;1])] [3;4]) (2) 1);
  (*3957*) Del (T 210);
  (*3958*) Assign (T 211) (Plain (Zeros [6;6;6;6]));
  (*3959*) AddTo (T 211) (Times (Einsum [(T 142,[0;1;2;3])] [1;0;3;2]) (-25000000000001) 25000000000000);
  (*3960*) AddTo (T 211) (Times (Einsum [(T 143,[0;1;2;3])] [0;1;3;2]) (14999999999999991) 5000000000000000);
  (*3961*) AddTo (T 211) (Plain (Einsum [(T 144,[0;1;2;3])] [0;1;3;2]));
  (*3962*) Del (T 144);
  (*3963*) AddTo n_l1new_bb (Times (Einsum [(n_v'bbbb'ooov,[0;1;2;3]); (T 211,[1;4;2;0])] [3;4]) (19999999999999203) 10000000000000000);
  (*3964*) Del (T 211);
  (*3965*) Assign (T 212) (Plain (Zeros [7;7]));
  (*3966*) AddTo (T 212) (Plain (Einsum [(n_l3'abaaba,[0;1;2;3;4;5]); (n_t3'abaaba,[3;4;5;0;6;2])] [1;6]));
  (*3967*) AddTo n_l1new_bb (Times (Einsum [(T 212,[0;1]); (T 72,[2;3;0;1])] [3;2]) (-9999999999999601) 10000000000000000);
  (*3968*) Assign (T 213) (Plain (Zeros [6;6]));
  (*3969*) AddTo (T 213) (Times (Einsum [(T 176,[0;1])] [0;1]) (1) 2);
  (*3970*) AddTo (T 213) (Plain (Einsum [(T 110,[0;1])] [0;1]));
  (*3971*) AddTo (T 213) (Times (Einsum [(T 111,[0;1])] [0;1]) (1) 2);
  (*3972*) AddTo (T 213) (Times (Einsum [(T 112,[0;1])] [0;1]) (7499999999999697) 5000000000000000);
  (*3973*) AddTo (T 213) (Times (Einsum [(T 113,[0;1])] [0;1]) (9999999999999597) 10000000000000000);
  (*3974*) Assign (T 214) (Plain (Zeros [6;6;6;7]));
  (*3975*) AddTo (T 214) (Times (Einsum [(n_v'bbbb'ooov,[0;1;2;3])] [0;1;2;3]) (-1) 1);
  (*3976*) AddTo (T 214) (Plain (Einsum [(n_v'bbbb'ooov,[0;1;2;3])] [0;2;1;3]));
  (*3977*) AddTo n_l1new_bb (Times (Einsum [(T 213,[0;1]); (T 214,[0;2;1;3])] [3;2]) (-2) 1);
  (*3978*) Del (T 213);
  (*3979*) AddTo n_l1new_bb (Times (Einsum [(T 114,[0;1]); (T 214,[0;1;2;3])] [3;2]) (9999999999999601) 10000000000000000);
  (*3980*) Assign (T 215) (Plain (Zeros [4;4]));
  (*3981*) AddTo (T 215) (Plain (Einsum [(T 200,[0;1])] [0;1]));
  (*3982*) AddTo (T 215) (Plain (Einsum [(T 201,[0;1])] [0;1]));
  (*3983*) AddTo (T 215) (Times (Einsum [(T 202,[0;1])] [0;1]) (2) 1);
  (*3984*) AddTo (T 215) (Times (Einsum [(T 203,[0;1])] [0;1]) (9999999999999601) 10000000000000000);
  (*3985*) AddTo (T 215) (Times (Einsum [(T 204,[0;1])] [0;1]) (9999999999999597) 5000000000000000);
  (*3986*) AddTo (T 215) (Times (Einsum [(T 205,[0;1])] [1;0]) (7499999999999697) 2500000000000000);
  (*3987*) AddTo n_l1new_bb (Times (Einsum [(T 215,[0;1]); (n_v'aabb'ooov,[1;0;2;3])] [3;2]) (-1) 1);
  (*3988*) Del (T 215);
  (*3989*) Assign (T 216) (Plain (Zeros [6;6;7;7]));
  (*3990*) AddTo (T 216) (Plain (Einsum [(n_v'bbbb'oovv,[0;1;2;3])] [0;1;2;3]));
  (*3991*) AddTo (T 216) (Times (Einsum [(n_v'bbbb'ovov,[0;1;2;3])] [0;2;1;3]) (-1) 1);
  (*3992*) AddTo n_l1new_bb (Times (Einsum [(n_l1'bb,[0;1]); (T 216,[1;2;0;3])] [3;2]) (-1) 1);
  (*3993*) Del (T 216);
  (*3994*) Assign (T 217) (Plain (Zeros [7;7]));
  (*3995*) AddTo (T 217) (Plain (Einsum [(n_t1'aa,[0;1]); (n_v'aabb'ovvv,[0;1;2;3])] [2;3]));
  (*3996*) Assign (T 218) (Plain (Zeros [6;7;7;7]));
  (*3997*) AddTo (T 218) (Plain (Einsum [(n_v'bbbb'ovvv,[0;1;2;3])] [0;1;2;3]));
  (*3998*) AddTo (T 218) (Times (Einsum [(n_v'bbbb'ovvv,[0;1;2;3])] [0;2;1;3]) (-1) 1);
  (*3999*) Assign (T 219) (Plain (Zeros [7;7]));
  (*4000*) AddTo (T 219) (Plain (Einsum [(n_f'bb'vv,[0;1])] [0;1]));
  (*4001*) AddTo (T 219) (Plain (Einsum [(T 217,[0;1])] [1;0]));
  (*4002*) AddTo (T 219) (Times (Einsum [(n_t1'bb,[0;1]); (T 218,[0;2;1;3])] [3;2]) (-1) 1);
  (*4003*) AddTo n_l1new_bb (Plain (Einsum [(n_l1'bb,[0;1]); (T 219,[0;2])] [2;1]));
  (*4004*) Del (T 219);
  (*4005*) Assign (T 220) (Plain (Zeros [6;6]));
  (*4006*) AddTo (T 220) (Plain (Einsum [(n_t1'aa,[0;1]); (n_v'aabb'ovoo,[0;1;2;3])] [2;3]));
  (*4007*) Assign (T 221) (Plain (Zeros [6;6]));
  (*4008*) AddTo (T 221) (Plain (Einsum [(n_t2'bbbb,[0;1;2;3]); (n_v'bbbb'ovov,[4;2;1;3])] [0;4]));
  (*4009*) Assign (T 222) (Plain (Zeros [6;6]));
  (*4010*) AddTo (T 222) (Plain (Einsum [(n_t2'abab,[0;1;2;3]); (n_v'aabb'ovov,[0;2;4;3])] [1;4]));
  (*4011*) Assign (T 223) (Plain (Zeros [6;6;6;7]));
  (*4012*) AddTo (T 223) (Times (Einsum [(n_v'bbbb'ooov,[0;1;2;3])] [0;1;2;3]) (-1) 1);
  (*4013*) AddTo (T 223) (Plain (Einsum [(n_v'bbbb'ooov,[0;1;2;3])] [2;0;1;3]));
  (*4014*) Assign (T 224) (Plain (Zeros [6;6]));
  (*4015*) AddTo (T 224) (Plain (Einsum [(n_t1'bb,[0;1]); (T 223,[2;3;0;1])] [2;3]));
  (*4016*) Del (T 223);
  (*4017*) Assign (T 225) (Plain (Zeros [6;6]));
  (*4018*) AddTo (T 225) (Plain (Einsum [(n_t1'bb,[0;1]); (T 22,[2;1])] [0;2]));
  (*4019*) Assign (T 226) (Plain (Zeros [6;6]));
  (*4020*) AddTo (T 226) (Plain (Einsum [(n_f'bb'oo,[0;1])] [0;1]));
  (*4021*) AddTo (T 226) (Plain (Einsum [(T 220,[0;1])] [1;0]));
  (*4022*) AddTo (T 226) (Times (Einsum [(T 221,[0;1])] [0;1]) (2) 1);
  (*4023*) AddTo (T 226) (Plain (Einsum [(T 222,[0;1])] [0;1]));
  (*4024*) AddTo (T 226) (Times (Einsum [(T 224,[0;1])] [1;0]) (-1) 1);
  (*4025*) AddTo (T 226) (Plain (Einsum [(T 225,[0;1])] [0;1]));
  (*4026*) Del (T 225);
  (*4027*) AddTo n_l1new_bb (Times (Einsum [(n_l1'bb,[0;1]); (T 226,[1;2])] [0;2]) (-1) 1);
  (*4028*) AddTo n_l2new_abab (Times (Einsum [(T 226,[0;1]); (n_l2'abab,[2;3;4;0])] [2;3;4;1]) (-1) 1);
  (*4029*) AddTo n_l3new_abaaba (Times (Einsum [(T 226,[0;1]); (n_l3'abaaba,[2;3;4;5;0;6])] [2;3;4;5;1;6]) (-2) 1);
  (*4030*) Del (T 226);
  (*4031*) Assign (T 227) (Plain (Zeros [6;6]));
  (*4032*) AddTo (T 227) (Times (Einsum [(T 176,[0;1])] [0;1]) (2500000000000101) 5000000000000000);
  (*4033*) AddTo (T 227) (Times (Einsum [(T 110,[0;1])] [0;1]) (2500000000000101) 2500000000000000);
  (*4034*) AddTo (T 227) (Times (Einsum [(T 111,[0;1])] [0;1]) (2500000000000101) 5000000000000000);
  (*4035*) AddTo (T 227) (Times (Einsum [(T 112,[0;1])] [0;1]) (7499999999999999) 5000000000000000);
  (*4036*) AddTo (T 227) (Plain (Einsum [(T 113,[0;1])] [0;1]));
  (*4037*) AddTo (T 227) (Times (Einsum [(T 114,[0;1])] [0;1]) (2500000000000001) 5000000000000000);
  (*4038*) AddTo n_l1new_bb (Times (Einsum [(n_f'bb'ov,[0;1]); (T 227,[2;0])] [1;2]) (-9999999999999597) 5000000000000000);
  (*4039*) Del (T 227);
  (*4040*) Assign (T 228) (Plain (Zeros [6;7]));
  (*4041*) AddTo (T 228) (Plain (Einsum [(T 20,[0;1])] [0;1]));
  (*4042*) AddTo (T 228) (Times (Einsum [(T 21,[0;1])] [0;1]) (-1) 1);
  (*4043*) AddTo n_l1new_bb (Times (Einsum [(T 176,[0;1]); (T 228,[1;2])] [2;0]) (-1) 1);
  (*4044*) Assign (T 229) (Plain (Zeros [4;5;5;5]));
  (*4045*) AddTo (T 229) (Plain (Einsum [(n_t2'aaaa,[0;1;2;3]); (n_l3'aaaaaa,[4;5;3;6;0;1])] [6;4;5;2]));
  (*4046*) AddTo n_l1new_aa (Times (Einsum [(n_v'aaaa'vvvv,[0;1;2;3]); (T 229,[4;1;2;3])] [0;4]) (6) 1);
  (*4047*) Assign (T 230) (Plain (Zeros [4;4;4;4]));
  (*4048*) AddTo (T 230) (Plain (Einsum [(n_l3'aaaaaa,[0;1;2;3;4;5]); (n_t3'aaaaaa,[6;7;5;0;1;2])] [3;4;6;7]));
  (*4049*) AddTo n_l1new_aa (Times (Einsum [(n_v'aaaa'ooov,[0;1;2;3]); (T 230,[1;4;2;0])] [3;4]) (-2399999999999903) 400000000000000);
  (*4050*) Assign (T 231) (Plain (Zeros [4;4;4;5]));
  (*4051*) AddTo (T 231) (Plain (Einsum [(n_t1'aa,[0;1]); (n_v'aaaa'ovov,[2;3;4;1])] [0;2;4;3]));
  (*4052*) Assign (T 232) (Plain (Zeros [4;4;4;5]));
  (*4053*) AddTo (T 232) (Times (Einsum [(n_v'aaaa'ooov,[0;1;2;3])] [0;1;2;3]) (-1) 1);
  (*4054*) AddTo (T 232) (Plain (Einsum [(n_v'aaaa'ooov,[0;1;2;3])] [0;2;1;3]));
  (*4055*) AddTo (T 232) (Plain (Einsum [(T 231,[0;1;2;3])] [0;1;2;3]));
  (*4056*) AddTo (T 232) (Times (Einsum [(T 231,[0;1;2;3])] [0;2;1;3]) (-1) 1);
  (*4057*) Assign (T 233) (Plain (Zeros [4;4;5;5]));
  (*4058*) AddTo (T 233) (Plain (Einsum [(n_t2'abab,[0;1;2;3]); (n_v'aabb'ovov,[4;5;1;3])] [0;4;2;5]));
  (*4059*) Assign (T 234) (Plain (Zeros [4;4;5;5]));
  (*4060*) AddTo (T 234) (Times (Einsum [(n_v'aaaa'ovov,[0;1;2;3])] [0;2;3;1]) (-1) 1);
  (*4061*) AddTo (T 234) (Plain (Einsum [(n_v'aaaa'ovov,[0;1;2;3])] [0;2;1;3]));
  (*4062*) Assign (T 235) (Plain (Zeros [4;4;5;5]));
  (*4063*) AddTo (T 235) (Times (Einsum [(n_t2'aaaa,[0;1;2;3]); (T 234,[1;4;5;3])] [0;4;2;5]) (2) 1);
  (*4064*) Assign (T 236) (Plain (Zeros [4;5;5;5]));
  (*4065*) AddTo (T 236) (Times (Einsum [(n_v'aaaa'ovvv,[0;1;2;3])] [0;1;2;3]) (-1) 1);
  (*4066*) AddTo (T 236) (Plain (Einsum [(n_v'aaaa'ovvv,[0;1;2;3])] [0;2;1;3]));
  (*4067*) Assign (T 237) (Plain (Zeros [4;4;5;5]));
  (*4068*) AddTo (T 237) (Plain (Einsum [(n_t1'aa,[0;1]); (T 236,[2;3;1;4])] [0;2;3;4]));
  (*4069*) Assign (T 238) (Plain (Zeros [4;4;5;5]));
  (*4070*) AddTo (T 238) (Plain (Einsum [(n_v'aaaa'ovov,[0;1;2;3])] [0;2;1;3]));
  (*4071*) AddTo (T 238) (Times (Einsum [(n_v'aaaa'oovv,[0;1;2;3])] [0;1;2;3]) (-1) 1);
  (*4072*) AddTo (T 238) (Plain (Einsum [(T 233,[0;1;2;3])] [0;1;2;3]));
  (*4073*) AddTo (T 238) (Times (Einsum [(T 235,[0;1;2;3])] [0;1;2;3]) (-1) 1);
  (*4074*) AddTo (T 238) (Times (Einsum [(T 237,[0;1;2;3])] [0;1;3;2]) (-1) 1);
  (*4075*) Assign (T 239) (Plain (Zeros [6;7;4;5]));
  (*4076*) AddTo (T 239) (Plain (Einsum [(n_t1'bb,[0;1]); (n_v'aabb'ovvv,[2;3;4;1])] [0;4;2;3]));
  (*4077*) AddTo n_l2new_abab (Times (Einsum [(n_l2'bbbb,[0;1;2;3]); (T 239,[3;1;4;5])] [5;0;4;2]) (2) 1);
  (*4078*) Assign (T 240) (Plain (Zeros [6;7;4;5]));
  (*4079*) AddTo (T 240) (Plain (Einsum [(n_t2'bbbb,[0;1;2;3]); (n_v'aabb'ovov,[4;5;1;3])] [0;2;4;5]));
  (*4080*) Assign (T 241) (Plain (Zeros [4;4;5;5]));
  (*4081*) AddTo (T 241) (Plain (Einsum [(n_v'aaaa'ovov,[0;1;2;3])] [0;2;3;1]));
  (*4082*) AddTo (T 241) (Times (Einsum [(n_v'aaaa'ovov,[0;1;2;3])] [0;2;1;3]) (-1) 1);
  (*4083*) Assign (T 242) (Plain (Zeros [6;7;4;5]));
  (*4084*) AddTo (T 242) (Plain (Einsum [(n_t2'abab,[0;1;2;3]); (T 241,[0;4;2;5])] [1;3;4;5]));
  (*4085*) Assign (T 243) (Plain (Zeros [6;7;4;5]));
  (*4086*) AddTo (T 243) (Plain (Einsum [(n_v'aabb'ovov,[0;1;2;3])] [2;3;0;1]));
  (*4087*) AddTo (T 243) (Plain (Einsum [(T 239,[0;1;2;3])] [0;1;2;3]));
  (*4088*) AddTo (T 243) (Times (Einsum [(T 240,[0;1;2;3])] [0;1;2;3]) (2) 1);
  (*4089*) AddTo (T 243) (Times (Einsum [(T 242,[0;1;2;3])] [0;1;2;3]) (-1) 1);
  (*4090*) Assign (T 244) (Plain (Zeros [4;5]));
  (*4091*) AddTo (T 244) (Plain (Einsum [(n_t1'bb,[0;1]); (n_v'aabb'ovov,[2;3;0;1])] [2;3]));
  (*4092*) Assign (T 245) (Plain (Zeros [4;5]));
  (*4093*) AddTo (T 245) (Plain (Einsum [(n_t1'aa,[0;1]); (T 241,[0;2;1;3])] [2;3]));
  (*4094*) Assign (T 246) (Plain (Zeros [4;5]));
  (*4095*) AddTo (T 246) (Plain (Einsum [(n_f'aa'ov,[0;1])] [0;1]));
  (*4096*) AddTo (T 246) (Plain (Einsum [(T 244,[0;1])] [0;1]));
  (*4097*) AddTo (T 246) (Times (Einsum [(T 245,[0;1])] [0;1]) (-1) 1);
  (*4098*) AddTo n_l2new_abab (Times (Einsum [(T 246,[0;1]); (T 67,[2;3;4;0])] [1;3;4;2]) (-2) 1);
  (*4099*) AddTo n_l2new_abab (Plain (Einsum [(n_l1'bb,[0;1]); (T 246,[2;3])] [3;0;2;1]));
  (*4100*) AddTo n_l3new_aaaaaa (Times (Einsum [(T 246,[0;1]); (n_l2'aaaa,[2;3;4;5])] [2;3;1;4;5;0]) (2) 1);
  (*4101*) AddTo n_l3new_aaaaaa (Times (Einsum [(T 246,[0;1]); (n_l2'aaaa,[2;3;4;5])] [2;3;1;0;4;5]) (2) 1);
  (*4102*) AddTo n_l3new_aaaaaa (Times (Einsum [(T 246,[0;1]); (n_l2'aaaa,[2;3;4;5])] [2;1;3;4;0;5]) (2) 1);
  (*4103*) AddTo n_l3new_aaaaaa (Times (Einsum [(T 246,[0;1]); (n_l2'aaaa,[2;3;4;5])] [1;2;3;4;5;0]) (2) 1);
  (*4104*) AddTo n_l3new_aaaaaa (Times (Einsum [(T 246,[0;1]); (n_l2'aaaa,[2;3;4;5])] [1;2;3;0;4;5]) (2) 1);
  (*4105*) AddTo n_l3new_aaaaaa (Times (Einsum [(T 246,[0;1]); (n_l2'aaaa,[2;3;4;5])] [2;3;1;4;0;5]) (-2) 1);
  (*4106*) AddTo n_l3new_aaaaaa (Times (Einsum [(T 246,[0;1]); (n_l2'aaaa,[2;3;4;5])] [2;1;3;4;5;0]) (-2) 1);
  (*4107*) AddTo n_l3new_aaaaaa (Times (Einsum [(T 246,[0;1]); (n_l2'aaaa,[2;3;4;5])] [2;1;3;0;4;5]) (-2) 1);
  (*4108*) AddTo n_l3new_aaaaaa (Times (Einsum [(T 246,[0;1]); (n_l2'aaaa,[2;3;4;5])] [1;2;3;4;0;5]) (-2) 1);
  (*4109*) AddTo n_l3new_babbab (Times (Einsum [(T 246,[0;1]); (T 59,[2;3;4;5;6;0])] [4;1;5;3;6;2]) (2) 1);
  (*4110*) AddTo n_l3new_babbab (Times (Einsum [(T 246,[0;1]); (n_l2'bbbb,[2;3;4;5])] [2;1;3;4;0;5]) (2) 1);
  (*4111*) AddTo n_l3new_abaaba (Plain (Einsum [(T 246,[0;1]); (n_l2'abab,[2;3;4;5])] [1;3;2;0;5;4]));
  (*4112*) AddTo n_l3new_abaaba (Plain (Einsum [(T 246,[0;1]); (n_l2'abab,[2;3;4;5])] [2;3;1;4;5;0]));
  (*4113*) AddTo n_l3new_abaaba (Times (Einsum [(T 246,[0;1]); (n_l2'abab,[2;3;4;5])] [2;3;1;0;5;4]) (-1) 1);
  (*4114*) AddTo n_l3new_abaaba (Times (Einsum [(T 246,[0;1]); (n_l2'abab,[2;3;4;5])] [1;3;2;4;5;0]) (-1) 1);
  (*4115*) Assign (T 247) (Plain (Zeros [7;7;4;4]));
  (*4116*) AddTo (T 247) (Plain (Einsum [(n_t1'aa,[0;1]); (n_v'aabb'ovvv,[2;1;3;4])] [3;4;0;2]));
  (*4117*) AddTo n_l2new_abab (Times (Einsum [(T 247,[0;1;2;3]); (T 62,[4;1;2;5;3;6])] [6;0;5;4]) (2) 1);
  (*4118*) Assign (T 248) (Plain (Zeros [7;7;4;4]));
  (*4119*) AddTo (T 248) (Plain (Einsum [(n_t2'abab,[0;1;2;3]); (n_v'aabb'ovov,[4;2;1;5])] [3;5;0;4]));
  (*4120*) Assign (T 249) (Plain (Zeros [7;7;4;4]));
  (*4121*) AddTo (T 249) (Plain (Einsum [(n_v'aabb'oovv,[0;1;2;3])] [2;3;0;1]));
  (*4122*) AddTo (T 249) (Plain (Einsum [(T 247,[0;1;2;3])] [1;0;2;3]));
  (*4123*) AddTo (T 249) (Times (Einsum [(T 248,[0;1;2;3])] [1;0;2;3]) (-1) 1);
  (*4124*) Assign (T 250) (Plain (Zeros [6;6;4;4]));
  (*4125*) AddTo (T 250) (Plain (Einsum [(n_t1'bb,[0;1]); (T 9,[2;1;3;4])] [0;2;3;4]));
  (*4126*) Assign (T 251) (Plain (Zeros [6;6;4;4]));
  (*4127*) AddTo (T 251) (Plain (Einsum [(n_v'aabb'oooo,[0;1;2;3])] [2;3;0;1]));
  (*4128*) AddTo (T 251) (Plain (Einsum [(T 30,[0;1;2;3])] [1;0;2;3]));
  (*4129*) AddTo (T 251) (Plain (Einsum [(T 31,[0;1;2;3])] [1;0;2;3]));
  (*4130*) AddTo (T 251) (Plain (Einsum [(T 250,[0;1;2;3])] [1;0;3;2]));
  (*4131*) Assign (T 252) (Plain (Zeros [4;4;4;4]));
  (*4132*) AddTo (T 252) (Plain (Einsum [(n_t2'aaaa,[0;1;2;3]); (n_v'aaaa'ovov,[4;2;5;3])] [0;1;4;5]));
  (*4133*) Assign (T 253) (Plain (Zeros [4;4;4;4]));
  (*4134*) AddTo (T 253) (Plain (Einsum [(n_t1'aa,[0;1]); (T 231,[2;3;4;1])] [0;2;3;4]));
  (*4135*) Assign (T 254) (Plain (Zeros [4;4;4;4]));
  (*4136*) AddTo (T 254) (Plain (Einsum [(n_t1'aa,[0;1]); (n_v'aaaa'ooov,[2;3;4;1])] [0;2;3;4]));
  (*4137*) Assign (T 255) (Plain (Zeros [4;4;4;4]));
  (*4138*) AddTo (T 255) (Plain (Einsum [(n_v'aaaa'oooo,[0;1;2;3])] [0;1;2;3]));
  (*4139*) AddTo (T 255) (Plain (Einsum [(T 252,[0;1;2;3])] [3;1;2;0]));
  (*4140*) AddTo (T 255) (Plain (Einsum [(T 253,[0;1;2;3])] [3;1;2;0]));
  (*4141*) AddTo (T 255) (Plain (Einsum [(T 254,[0;1;2;3])] [2;1;3;0]));
  (*4142*) AddTo (T 255) (Times (Einsum [(T 254,[0;1;2;3])] [3;2;1;0]) (-1) 1);
  (*4143*) Assign (T 256) (Plain (Zeros [6;6;4;4;4;5]));
  (*4144*) AddTo (T 256) (Times (Einsum [(T 45,[0;1;2;3;4;5])] [0;1;3;2;4;5]) (9999999999999597) 10000000000000000);
  (*4145*) Del (T 45);
  (*4146*) AddTo (T 256) (Times (Einsum [(n_t2'abab,[0;1;2;3]); (T 9,[4;3;5;6])] [1;4;0;6;5;2]) (-1) 1);
  (*4147*) AddTo (T 256) (Times (Einsum [(T 46,[0;1;2;3;4;5])] [1;0;3;2;4;5]) (-1) 1);
  (*4148*) Del (T 46);
  (*4149*) Assign (T 257) (Plain (Zeros [6;7;4;4;4;4]));
  (*4150*) AddTo (T 257) (Times (Einsum [(n_v'aaaa'ovov,[0;1;2;3]); (n_t3'abaaba,[4;5;6;3;7;1])] [5;7;4;6;0;2]) (-1) 1);
  (*4151*) AddTo n_l2new_aaaa (Times (Einsum [(n_l3'abaaba,[0;1;2;3;4;5]); (T 257,[4;1;5;3;6;7])] [0;2;6;7]) (-19999999999999203) 10000000000000000);
  (*4152*) Assign (T 258) (Plain (Zeros [6;7;4;4;4;4]));
  (*4153*) AddTo (T 258) (Plain (Einsum [(n_t2'abab,[0;1;2;3]); (n_v'aaaa'ooov,[4;5;6;2])] [1;3;0;4;5;6]));
  (*4154*) Assign (T 259) (Plain (Zeros [6;7;4;4;4;4]));
  (*4155*) AddTo (T 259) (Plain (Einsum [(n_t2'abab,[0;1;2;3]); (T 231,[4;5;6;2])] [1;3;4;0;6;5]));
  (*4156*) Assign (T 260) (Plain (Zeros [6;7;4;4;4;4]));
  (*4157*) AddTo (T 260) (Times (Einsum [(T 257,[0;1;2;3;4;5])] [0;1;3;2;5;4]) (9999999999999601) 10000000000000000);
  (*4158*) Del (T 257);
  (*4159*) AddTo (T 260) (Plain (Einsum [(T 258,[0;1;2;3;4;5])] [0;1;4;2;3;5]));
  (*4160*) AddTo (T 260) (Times (Einsum [(T 258,[0;1;2;3;4;5])] [0;1;4;2;5;3]) (-1) 1);
  (*4161*) Del (T 258);
  (*4162*) AddTo (T 260) (Plain (Einsum [(T 259,[0;1;2;3;4;5])] [0;1;2;3;4;5]));
  (*4163*) AddTo (T 260) (Times (Einsum [(T 259,[0;1;2;3;4;5])] [0;1;2;3;5;4]) (-1) 1);
  (*4164*) Del (T 259);
  (*4165*) Assign (T 261) (Plain (Zeros [6;7;4;4;4;5]));
  (*4166*) AddTo (T 261) (Times (Einsum [(n_v'aabb'ovvv,[0;1;2;3]); (n_t3'abaaba,[4;5;6;7;3;1])] [5;2;0;4;6;7]) (-9999999999999597) 10000000000000000);
  (*4167*) AddTo (T 261) (Times (Einsum [(n_v'aaaa'ovvv,[0;1;2;3]); (n_t3'abaaba,[4;5;6;3;7;1])] [5;7;0;4;6;2]) (-9999999999999601) 10000000000000000);
  (*4168*) AddTo (T 261) (Times (Einsum [(T 232,[0;1;2;3]); (n_t3'abaaba,[4;5;1;6;7;3])] [5;7;2;4;0;6]) (-2) 1);
  (*4169*) AddTo (T 261) (Times (Einsum [(T 32,[0;1;2;3]); (n_t3'babbab,[4;5;0;6;7;1])] [4;6;3;5;2;7]) (-2) 1);
  (*4170*) AddTo (T 261) (Plain (Einsum [(T 40,[0;1;2;3]); (n_t3'abaaba,[4;0;5;6;7;3])] [1;7;2;4;5;6]));
  (*4171*) AddTo (T 261) (Plain (Einsum [(n_t2'abab,[0;1;2;3]); (T 238,[4;5;6;2])] [1;3;5;0;4;6]));
  (*4172*) AddTo (T 261) (Times (Einsum [(n_t2'aaaa,[0;1;2;3]); (T 243,[4;5;6;3])] [4;5;6;0;1;2]) (-1) 1);
  (*4173*) AddTo (T 261) (Times (Einsum [(T 246,[0;1]); (n_t3'abaaba,[2;3;4;5;6;1])] [3;6;0;2;4;5]) (-9999999999999597) 10000000000000000);
  (*4174*) AddTo (T 261) (Times (Einsum [(n_t2'abab,[0;1;2;3]); (T 249,[3;4;5;6])] [1;4;6;0;5;2]) (-1) 1);
  (*4175*) AddTo (T 261) (Plain (Einsum [(n_t2'abab,[0;1;2;3]); (T 251,[1;4;5;6])] [4;3;6;0;5;2]));
  (*4176*) AddTo (T 261) (Plain (Einsum [(n_t2'abab,[0;1;2;3]); (T 255,[0;4;5;6])] [1;3;5;4;6;2]));
  (*4177*) AddTo (T 261) (Times (Einsum [(n_t1'bb,[0;1]); (T 256,[2;0;3;4;5;6])] [2;1;5;3;4;6]) (-1) 1);
  (*4178*) Del (T 256);
  (*4179*) AddTo (T 261) (Times (Einsum [(n_t1'aa,[0;1]); (T 260,[2;3;4;5;0;6])] [2;3;6;5;4;1]) (-1) 1);
  (*4180*) Del (T 260);
  (*4181*) AddTo n_l1new_aa (Times (Einsum [(n_l3'abaaba,[0;1;2;3;4;5]); (T 261,[4;1;6;5;3;2])] [0;6]) (2) 1);
  (*4182*) Del (T 261);
  (*4183*) Assign (T 262) (Plain (Zeros [4;4;4;5]));
  (*4184*) AddTo (T 262) (Times (Einsum [(n_v'aaaa'ooov,[0;1;2;3])] [0;1;2;3]) (-1) 1);
  (*4185*) AddTo (T 262) (Plain (Einsum [(n_v'aaaa'ooov,[0;1;2;3])] [2;0;1;3]));
  (*4186*) AddTo (T 262) (Plain (Einsum [(T 231,[0;1;2;3])] [1;0;2;3]));
  (*4187*) AddTo (T 262) (Times (Einsum [(T 231,[0;1;2;3])] [2;0;1;3]) (-1) 1);
  (*4188*) Assign (T 263) (Plain (Zeros [6;6;6;7;4;4]));
  (*4189*) AddTo (T 263) (Times (Einsum [(T 39,[0;1;2;3;4;5])] [0;1;2;3;4;5]) (9999999999999597) 10000000000000000);
  (*4190*) Del (T 39);
  (*4191*) AddTo (T 263) (Plain (Einsum [(n_t2'bbbb,[0;1;2;3]); (T 9,[4;3;5;6])] [0;1;4;2;6;5]));
  (*4192*) AddTo (T 263) (Plain (Einsum [(T 41,[0;1;2;3;4;5])] [0;2;1;3;4;5]));
  (*4193*) Del (T 41);
  (*4194*) Assign (T 264) (Plain (Zeros [6;6;7;7;4;4]));
  (*4195*) AddTo (T 264) (Times (Einsum [(n_v'aabb'ovvv,[0;1;2;3]); (n_t3'babbab,[4;5;6;7;1;3])] [4;6;7;2;0;5]) (-9999999999999597) 10000000000000000);
  (*4196*) AddTo (T 264) (Times (Einsum [(T 262,[0;1;2;3]); (n_t3'babbab,[4;0;5;6;3;7])] [4;5;6;7;2;1]) (-1) 2);
  (*4197*) AddTo (T 264) (Times (Einsum [(T 32,[0;1;2;3]); (n_t3'bbbbbb,[4;5;0;6;7;1])] [4;5;6;7;3;2]) (-3) 2);
  (*4198*) AddTo (T 264) (Plain (Einsum [(T 40,[0;1;2;3]); (n_t3'babbab,[4;5;0;6;3;7])] [4;1;6;7;2;5]));
  (*4199*) AddTo (T 264) (Times (Einsum [(n_t2'abab,[0;1;2;3]); (T 243,[4;5;6;2])] [1;4;3;5;6;0]) (-1) 1);
  (*4200*) Del (T 243);
  (*4201*) AddTo (T 264) (Times (Einsum [(T 246,[0;1]); (n_t3'babbab,[2;3;4;5;1;6])] [2;4;5;6;0;3]) (-49999999999998007) 100000000000000000);
  (*4202*) AddTo (T 264) (Times (Einsum [(n_t2'bbbb,[0;1;2;3]); (T 249,[3;4;5;6])] [0;1;2;4;6;5]) (-1) 1);
  (*4203*) Del (T 249);
  (*4204*) AddTo (T 264) (Plain (Einsum [(n_t2'bbbb,[0;1;2;3]); (T 251,[1;4;5;6])] [0;4;2;3;6;5]));
  (*4205*) Del (T 251);
  (*4206*) AddTo (T 264) (Plain (Einsum [(n_t1'bb,[0;1]); (T 263,[2;3;0;4;5;6])] [2;3;4;1;6;5]));
  (*4207*) Del (T 263);
  (*4208*) AddTo n_l1new_aa (Times (Einsum [(n_l3'babbab,[0;1;2;3;4;5]); (T 264,[3;5;0;2;6;4])] [1;6]) (2) 1);
  (*4209*) Del (T 264);
  (*4210*) Assign (T 265) (Plain (Zeros [4;4;4;5]));
  (*4211*) AddTo (T 265) (Plain (Einsum [(n_v'aaaa'ooov,[0;1;2;3])] [0;1;2;3]));
  (*4212*) AddTo (T 265) (Times (Einsum [(n_v'aaaa'ooov,[0;1;2;3])] [2;0;1;3]) (-1) 1);
  (*4213*) AddTo (T 265) (Times (Einsum [(T 231,[0;1;2;3])] [1;0;2;3]) (-1) 1);
  (*4214*) AddTo (T 265) (Plain (Einsum [(T 231,[0;1;2;3])] [2;0;1;3]));
  (*4215*) Assign (T 266) (Plain (Zeros [4;4;4;4]));
  (*4216*) AddTo (T 266) (Times (Einsum [(n_v'aaaa'oooo,[0;1;2;3])] [0;1;2;3]) (-1) 1);
  (*4217*) AddTo (T 266) (Times (Einsum [(T 252,[0;1;2;3])] [3;1;2;0]) (-1) 1);
  (*4218*) AddTo (T 266) (Plain (Einsum [(T 253,[0;1;2;3])] [2;1;3;0]));
  (*4219*) AddTo (T 266) (Plain (Einsum [(T 254,[0;1;2;3])] [2;0;3;1]));
  (*4220*) AddTo (T 266) (Times (Einsum [(T 254,[0;1;2;3])] [3;0;2;1]) (-1) 1);
  (*4221*) Assign (T 267) (Plain (Zeros [4;4;4;4;4;5]));
  (*4222*) AddTo (T 267) (Plain (Einsum [(n_v'aaaa'ovov,[0;1;2;3]); (n_t3'aaaaaa,[4;5;6;7;1;3])] [4;5;6;0;2;7]));
  (*4223*) AddTo n_l2new_aaaa (Times (Einsum [(n_l3'aaaaaa,[0;1;2;3;4;5]); (T 267,[3;4;5;6;7;2])] [0;1;6;7]) (2399999999999903) 400000000000000);
  (*4224*) Assign (T 268) (Plain (Zeros [4;4;4;4;4;5]));
  (*4225*) AddTo (T 268) (Plain (Einsum [(n_t2'aaaa,[0;1;2;3]); (n_v'aaaa'ooov,[4;5;6;3])] [0;1;4;5;6;2]));
  (*4226*) Assign (T 269) (Plain (Zeros [4;4;4;4;4;5]));
  (*4227*) AddTo (T 269) (Plain (Einsum [(n_t2'aaaa,[0;1;2;3]); (T 231,[4;5;6;3])] [4;0;1;6;5;2]));
  (*4228*) Assign (T 270) (Plain (Zeros [4;4;4;4;4;5]));
  (*4229*) AddTo (T 270) (Times (Einsum [(T 267,[0;1;2;3;4;5])] [0;1;2;4;3;5]) (-2499999999999899) 2500000000000000);
  (*4230*) Del (T 267);
  (*4231*) AddTo (T 270) (Times (Einsum [(T 268,[0;1;2;3;4;5])] [0;1;3;2;4;5]) (-1) 1);
  (*4232*) AddTo (T 270) (Plain (Einsum [(T 268,[0;1;2;3;4;5])] [0;1;3;4;2;5]));
  (*4233*) Del (T 268);
  (*4234*) AddTo (T 270) (Times (Einsum [(T 269,[0;1;2;3;4;5])] [1;2;0;3;4;5]) (-1) 1);
  (*4235*) AddTo (T 270) (Plain (Einsum [(T 269,[0;1;2;3;4;5])] [1;2;0;4;3;5]));
  (*4236*) Del (T 269);
  (*4237*) Assign (T 271) (Plain (Zeros [4;4;4;4;5;5]));
  (*4238*) AddTo (T 271) (Times (Einsum [(n_v'aaaa'ovvv,[0;1;2;3]); (n_t3'aaaaaa,[4;5;6;7;3;1])] [0;4;5;6;7;2]) (-2499999999999899) 2500000000000000);
  (*4239*) AddTo (T 271) (Times (Einsum [(T 265,[0;1;2;3]); (n_t3'aaaaaa,[4;5;0;6;7;3])] [2;4;1;5;6;7]) (-3) 2);
  (*4240*) Del (T 265);
  (*4241*) AddTo (T 271) (Times (Einsum [(T 32,[0;1;2;3]); (n_t3'abaaba,[4;0;5;6;1;7])] [3;4;2;5;6;7]) (1) 2);
  (*4242*) AddTo (T 271) (Times (Einsum [(n_t2'aaaa,[0;1;2;3]); (T 238,[4;5;6;3])] [5;0;4;1;2;6]) (-1) 1);
  (*4243*) Del (T 238);
  (*4244*) AddTo (T 271) (Times (Einsum [(T 246,[0;1]); (n_t3'aaaaaa,[2;3;4;5;6;1])] [0;2;3;4;5;6]) (-2499999999999899) 5000000000000000);
  (*4245*) AddTo (T 271) (Times (Einsum [(n_t2'aaaa,[0;1;2;3]); (T 266,[1;4;5;6])] [5;0;4;6;2;3]) (-1) 1);
  (*4246*) Del (T 266);
  (*4247*) AddTo (T 271) (Times (Einsum [(n_t1'aa,[0;1]); (T 270,[2;3;4;5;0;6])] [5;3;4;2;6;1]) (-1) 1);
  (*4248*) Del (T 270);
  (*4249*) AddTo n_l1new_aa (Times (Einsum [(n_l3'aaaaaa,[0;1;2;3;4;5]); (T 271,[6;4;3;5;2;1])] [0;6]) (6) 1);
  (*4250*) Del (T 271);
  (*4251*) Assign (T 272) (Plain (Zeros [6;7;4;5]));
  (*4252*) AddTo (T 272) (Plain (Einsum [(n_l2'abab,[0;1;2;3]); (n_t2'bbbb,[4;3;5;1])] [4;5;2;0]));
  (*4253*) Assign (T 273) (Plain (Zeros [6;7;4;5]));
  (*4254*) AddTo (T 273) (Plain (Einsum [(n_l2'aaaa,[0;1;2;3]); (n_t2'abab,[3;4;1;5])] [4;5;2;0]));
  (*4255*) Assign (T 274) (Plain (Zeros [6;7;4;5]));
  (*4256*) AddTo (T 274) (Plain (Einsum [(n_l3'babbab,[0;1;2;3;4;5]); (n_t3'bbbbbb,[6;3;5;7;0;2])] [6;7;4;1]));
  (*4257*) Assign (T 275) (Plain (Zeros [6;7;4;5]));
  (*4258*) AddTo (T 275) (Times (Einsum [(n_t2'bbbb,[0;1;2;3]); (T 75,[0;1;4;3;5;6])] [4;2;5;6]) (-1) 1);
  (*4259*) Assign (T 276) (Plain (Zeros [6;7;4;5]));
  (*4260*) AddTo (T 276) (Plain (Einsum [(n_l3'abaaba,[0;1;2;3;4;5]); (n_t3'babbab,[6;5;4;7;2;1])] [6;7;3;0]));
  (*4261*) Assign (T 277) (Plain (Zeros [6;7;4;5]));
  (*4262*) AddTo (T 277) (Times (Einsum [(n_t2'abab,[0;1;2;3]); (T 92,[1;4;5;0;2;6])] [4;3;5;6]) (-1) 1);
  (*4263*) Assign (T 278) (Plain (Zeros [6;7;4;5]));
  (*4264*) AddTo (T 278) (Plain (Einsum [(n_l3'aaaaaa,[0;1;2;3;4;5]); (n_t3'abaaba,[4;6;5;1;7;2])] [6;7;3;0]));
  (*4265*) Assign (T 279) (Plain (Zeros [6;7;4;5]));
  (*4266*) AddTo (T 279) (Plain (Einsum [(n_l2'abab,[0;1;2;3])] [3;1;2;0]));
  (*4267*) AddTo (T 279) (Times (Einsum [(T 272,[0;1;2;3])] [0;1;2;3]) (2) 1);
  (*4268*) AddTo (T 279) (Times (Einsum [(T 273,[0;1;2;3])] [0;1;2;3]) (2) 1);
  (*4269*) AddTo (T 279) (Times (Einsum [(T 274,[0;1;2;3])] [0;1;2;3]) (3) 1);
  (*4270*) AddTo (T 279) (Times (Einsum [(T 275,[0;1;2;3])] [0;1;2;3]) (-2) 1);
  (*4271*) AddTo (T 279) (Times (Einsum [(T 276,[0;1;2;3])] [0;1;2;3]) (4) 1);
  (*4272*) AddTo (T 279) (Times (Einsum [(T 277,[0;1;2;3])] [0;1;2;3]) (-2) 1);
  (*4273*) AddTo (T 279) (Times (Einsum [(T 278,[0;1;2;3])] [0;1;2;3]) (3) 1);
  (*4274*) AddTo (T 279) (Times (Einsum [(n_t1'bb,[0;1]); (T 97,[0;2;3;4])] [2;1;3;4]) (-1) 1);
  (*4275*) AddTo n_l1new_aa (Plain (Einsum [(n_v'aabb'vvov,[0;1;2;3]); (T 279,[2;3;4;1])] [0;4]));
  (*4276*) Del (T 279);
  (*4277*) Assign (T 280) (Plain (Zeros [7;7;4;5]));
  (*4278*) AddTo (T 280) (Plain (Einsum [(n_t2'bbbb,[0;1;2;3]); (n_l3'babbab,[4;5;3;0;6;1])] [4;2;6;5]));
  (*4279*) Assign (T 281) (Plain (Zeros [7;7;4;5]));
  (*4280*) AddTo (T 281) (Plain (Einsum [(n_t2'abab,[0;1;2;3]); (n_l3'abaaba,[4;5;2;6;1;0])] [5;3;6;4]));
  (*4281*) Assign (T 282) (Plain (Zeros [7;7;4;5]));
  (*4282*) AddTo (T 282) (Times (Einsum [(n_t1'bb,[0;1]); (n_l2'abab,[2;3;4;0])] [3;1;4;2]) (1) 2);
  (*4283*) AddTo (T 282) (Plain (Einsum [(T 280,[0;1;2;3])] [0;1;2;3]));
  (*4284*) AddTo (T 282) (Plain (Einsum [(T 281,[0;1;2;3])] [0;1;2;3]));
  (*4285*) AddTo n_l1new_aa (Times (Einsum [(n_v'aabb'vvvv,[0;1;2;3]); (T 282,[2;3;4;1])] [0;4]) (2) 1);
  (*4286*) Del (T 282);
  (*4287*) Assign (T 283) (Plain (Zeros [4;4;5;5]));
  (*4288*) AddTo (T 283) (Plain (Einsum [(n_l2'abab,[0;1;2;3]); (n_t2'abab,[4;3;5;1])] [2;4;0;5]));
  (*4289*) Assign (T 284) (Plain (Zeros [4;4;5;5]));
  (*4290*) AddTo (T 284) (Plain (Einsum [(n_l2'aaaa,[0;1;2;3]); (n_t2'aaaa,[4;3;5;1])] [2;4;0;5]));
  (*4291*) Assign (T 285) (Plain (Zeros [4;4;5;5]));
  (*4292*) AddTo (T 285) (Plain (Einsum [(n_l3'babbab,[0;1;2;3;4;5]); (n_t3'babbab,[3;6;5;0;7;2])] [4;6;1;7]));
  (*4293*) Assign (T 286) (Plain (Zeros [4;4;5;5]));
  (*4294*) AddTo (T 286) (Plain (Einsum [(n_l3'abaaba,[0;1;2;3;4;5]); (n_t3'abaaba,[6;4;5;7;1;2])] [3;6;0;7]));
  (*4295*) Assign (T 287) (Plain (Zeros [4;4;5;5]));
  (*4296*) AddTo (T 287) (Times (Einsum [(n_t2'abab,[0;1;2;3]); (T 62,[1;3;0;4;5;6])] [4;5;6;2]) (-1) 1);
  (*4297*) Assign (T 288) (Plain (Zeros [4;4;5;5]));
  (*4298*) AddTo (T 288) (Plain (Einsum [(n_l3'aaaaaa,[0;1;2;3;4;5]); (n_t3'aaaaaa,[6;4;5;7;1;2])] [3;6;0;7]));
  (*4299*) Assign (T 289) (Plain (Zeros [4;4;5;5]));
  (*4300*) AddTo (T 289) (Times (Einsum [(n_t2'aaaa,[0;1;2;3]); (T 194,[4;0;1;5;6;3])] [4;5;6;2]) (-1) 1);
  (*4301*) Assign (T 290) (Plain (Zeros [4;4;4;5]));
  (*4302*) AddTo (T 290) (Plain (Einsum [(T 196,[0;1;2;3])] [1;0;2;3]));
  (*4303*) AddTo (T 290) (Times (Einsum [(T 197,[0;1;2;3])] [0;1;2;3]) (-1) 1);
  (*4304*) AddTo (T 290) (Times (Einsum [(T 198,[0;1;2;3])] [0;1;2;3]) (-3) 1);
  (*4305*) Assign (T 291) (Plain (Zeros [4;4;5;5]));
  (*4306*) AddTo (T 291) (Times (Einsum [(T 283,[0;1;2;3])] [0;1;2;3]) (-1111111111111111) 10000000000000000);
  (*4307*) AddTo (T 291) (Times (Einsum [(T 284,[0;1;2;3])] [0;1;2;3]) (-1111111111111111) 2500000000000000);
  (*4308*) AddTo (T 291) (Times (Einsum [(T 285,[0;1;2;3])] [0;1;2;3]) (-1111111111111111) 10000000000000000);
  (*4309*) AddTo (T 291) (Times (Einsum [(T 286,[0;1;2;3])] [0;1;2;3]) (-1111111111111111) 2500000000000000);
  (*4310*) AddTo (T 291) (Times (Einsum [(T 287,[0;1;2;3])] [0;1;3;2]) (1111111111111111) 5000000000000000);
  (*4311*) AddTo (T 291) (Times (Einsum [(T 288,[0;1;2;3])] [0;1;2;3]) (-1) 1);
  (*4312*) AddTo (T 291) (Times (Einsum [(T 289,[0;1;2;3])] [0;1;3;2]) (3333333333333333) 5000000000000000);
  (*4313*) AddTo (T 291) (Times (Einsum [(n_t1'aa,[0;1]); (T 290,[0;2;3;4])] [2;3;1;4]) (1111111111111111) 5000000000000000);
  (*4314*) AddTo n_l1new_aa (Times (Einsum [(n_v'aaaa'ovvv,[0;1;2;3]); (T 291,[4;0;2;3])] [1;4]) (9) 1);
  (*4315*) Del (T 291);
  (*4316*) Assign (T 292) (Plain (Zeros [7;7;4;4]));
  (*4317*) AddTo (T 292) (Plain (Einsum [(n_l2'abab,[0;1;2;3]); (n_t2'abab,[4;3;0;5])] [1;5;2;4]));
  (*4318*) Assign (T 293) (Plain (Zeros [7;7;4;4]));
  (*4319*) AddTo (T 293) (Plain (Einsum [(n_l3'babbab,[0;1;2;3;4;5]); (n_t3'babbab,[3;6;5;7;1;2])] [0;7;4;6]));
  (*4320*) Assign (T 294) (Plain (Zeros [7;7;4;4]));
  (*4321*) AddTo (T 294) (Plain (Einsum [(n_t2'bbbb,[0;1;2;3]); (T 59,[0;1;4;3;5;6])] [4;2;5;6]));
  (*4322*) Assign (T 295) (Plain (Zeros [7;7;4;4]));
  (*4323*) AddTo (T 295) (Plain (Einsum [(n_l3'abaaba,[0;1;2;3;4;5]); (n_t3'abaaba,[6;4;5;0;7;2])] [1;7;3;6]));
  (*4324*) Assign (T 296) (Plain (Zeros [7;7;4;4]));
  (*4325*) AddTo (T 296) (Plain (Einsum [(n_t2'abab,[0;1;2;3]); (T 62,[1;4;0;5;6;2])] [4;3;5;6]));
  (*4326*) Assign (T 297) (Plain (Zeros [7;7;4;4]));
  (*4327*) AddTo (T 297) (Plain (Einsum [(T 292,[0;1;2;3])] [0;1;2;3]));
  (*4328*) AddTo (T 297) (Times (Einsum [(T 293,[0;1;2;3])] [0;1;2;3]) (2) 1);
  (*4329*) AddTo (T 297) (Times (Einsum [(T 294,[0;1;2;3])] [1;0;2;3]) (2) 1);
  (*4330*) AddTo (T 297) (Times (Einsum [(T 295,[0;1;2;3])] [0;1;2;3]) (2) 1);
  (*4331*) AddTo (T 297) (Times (Einsum [(T 296,[0;1;2;3])] [1;0;2;3]) (2) 1);
  (*4332*) AddTo (T 297) (Plain (Einsum [(n_t1'bb,[0;1]); (T 102,[0;2;3;4])] [1;2;3;4]));
  (*4333*) AddTo n_l1new_aa (Times (Einsum [(n_v'aabb'ovvv,[0;1;2;3]); (T 297,[3;2;4;0])] [1;4]) (-1) 1);
  (*4334*) Del (T 297);
  (*4335*) Assign (T 298) (Plain (Zeros [7;7;4;5]));
  (*4336*) AddTo (T 298) (Plain (Einsum [(T 280,[0;1;2;3])] [0;1;2;3]));
  (*4337*) Del (T 280);
  (*4338*) AddTo (T 298) (Plain (Einsum [(T 281,[0;1;2;3])] [0;1;2;3]));
  (*4339*) Del (T 281);
  (*4340*) AddTo n_l2new_abab (Times (Einsum [(T 298,[0;1;2;3]); (T 72,[4;5;0;1])] [3;5;2;4]) (-2) 1);
  (*4341*) Del (T 72);
  (*4342*) AddTo n_l2new_abab (Times (Einsum [(n_v'aabb'vvov,[0;1;2;3]); (T 298,[4;3;5;1])] [0;4;5;2]) (-2) 1);
  (*4343*) AddTo n_l2new_abab (Times (Einsum [(T 298,[0;1;2;3]); (T 32,[4;1;2;5])] [3;0;5;4]) (2) 1);
  (*4344*) Assign (T 299) (Plain (Zeros [4;4]));
  (*4345*) AddTo (T 299) (Plain (Einsum [(T 201,[0;1])] [0;1]));
  (*4346*) AddTo (T 299) (Times (Einsum [(T 202,[0;1])] [0;1]) (2) 1);
  (*4347*) AddTo (T 299) (Times (Einsum [(T 203,[0;1])] [0;1]) (9999999999999601) 10000000000000000);
  (*4348*) AddTo (T 299) (Times (Einsum [(T 204,[0;1])] [0;1]) (9999999999999597) 5000000000000000);
  (*4349*) AddTo (T 299) (Times (Einsum [(T 205,[0;1])] [0;1]) (7499999999999697) 2500000000000000);
  (*4350*) Assign (T 300) (Plain (Zeros [6;7;4;4]));
  (*4351*) AddTo (T 300) (Plain (Einsum [(n_l1'aa,[0;1]); (n_t2'abab,[2;3;0;4])] [3;4;1;2]));
  (*4352*) AddTo (T 300) (Plain (Einsum [(T 64,[0;1;2;3])] [0;1;2;3]));
  (*4353*) AddTo (T 300) (Times (Einsum [(n_l2'abab,[0;1;2;3]); (n_t3'babbab,[4;5;3;6;0;1])] [4;6;2;5]) (2) 1);
  (*4354*) AddTo (T 300) (Times (Einsum [(T 65,[0;1;2;3])] [0;1;2;3]) (2) 1);
  (*4355*) AddTo (T 300) (Times (Einsum [(n_l2'aaaa,[0;1;2;3]); (n_t3'abaaba,[4;5;3;0;6;1])] [5;6;2;4]) (2) 1);
  (*4356*) AddTo (T 300) (Times (Einsum [(T 66,[0;1;2;3])] [0;1;2;3]) (2) 1);
  (*4357*) AddTo (T 300) (Times (Einsum [(n_t3'bbbbbb,[0;1;2;3;4;5]); (T 59,[2;1;5;4;6;7])] [0;3;6;7]) (3) 1);
  (*4358*) AddTo (T 300) (Times (Einsum [(n_t3'babbab,[0;1;2;3;4;5]); (T 75,[2;0;6;5;7;4])] [6;3;7;1]) (-2) 1);
  (*4359*) AddTo (T 300) (Times (Einsum [(n_t2'bbbb,[0;1;2;3]); (T 99,[1;0;4;3;5;6])] [4;2;5;6]) (-2) 1);
  (*4360*) AddTo (T 300) (Times (Einsum [(n_t3'babbab,[0;1;2;3;4;5]); (T 62,[2;5;6;1;7;4])] [0;3;6;7]) (-4) 1);
  (*4361*) AddTo (T 300) (Times (Einsum [(n_t3'abaaba,[0;1;2;3;4;5]); (T 92,[1;6;7;2;5;3])] [6;4;7;0]) (2) 1);
  (*4362*) AddTo (T 300) (Times (Einsum [(n_t2'abab,[0;1;2;3]); (T 100,[1;4;5;0;6;2])] [4;3;5;6]) (2) 1);
  (*4363*) AddTo (T 300) (Times (Einsum [(n_t3'abaaba,[0;1;2;3;4;5]); (T 194,[6;0;2;7;5;3])] [1;4;6;7]) (-3) 1);
  (*4364*) AddTo (T 300) (Times (Einsum [(n_t2'abab,[0;1;2;3]); (T 298,[3;4;5;2])] [1;4;5;0]) (-2) 1);
  (*4365*) AddTo (T 300) (Times (Einsum [(n_t2'bbbb,[0;1;2;3]); (T 102,[1;3;4;5])] [0;2;4;5]) (2) 1);
  (*4366*) AddTo (T 300) (Times (Einsum [(n_t2'abab,[0;1;2;3]); (T 97,[1;4;5;2])] [4;3;5;0]) (-1) 1);
  (*4367*) AddTo (T 300) (Times (Einsum [(n_t2'abab,[0;1;2;3]); (T 290,[0;4;5;2])] [1;3;4;5]) (-2) 1);
  (*4368*) AddTo (T 300) (Times (Einsum [(n_t1'bb,[0;1]); (T 109,[0;2;3;4])] [2;1;3;4]) (-1) 1);
  (*4369*) Del (T 109);
  (*4370*) AddTo (T 300) (Plain (Einsum [(n_t1'bb,[0;1]); (T 299,[2;3])] [0;1;2;3]));
  (*4371*) AddTo n_l1new_aa (Times (Einsum [(n_v'aabb'ovov,[0;1;2;3]); (T 300,[2;3;4;0])] [1;4]) (-1) 1);
  (*4372*) Del (T 300);
  (*4373*) Assign (T 301) (Plain (Zeros [4;4;4;5]));
  (*4374*) AddTo (T 301) (Times (Einsum [(T 196,[0;1;2;3])] [1;0;2;3]) (3333333333333333) 10000000000000000);
  (*4375*) AddTo (T 301) (Times (Einsum [(T 197,[0;1;2;3])] [0;1;2;3]) (-3333333333333333) 10000000000000000);
  (*4376*) AddTo (T 301) (Times (Einsum [(T 198,[0;1;2;3])] [0;1;2;3]) (-1) 1);
  (*4377*) AddTo n_l1new_aa (Times (Einsum [(n_v'aaaa'oovv,[0;1;2;3]); (T 301,[1;4;0;3])] [2;4]) (-6) 1);
  (*4378*) Assign (T 302) (Plain (Zeros [4;4;5;5]));
  (*4379*) AddTo (T 302) (Times (Einsum [(n_l2'aaaa,[0;1;2;3])] [2;3;0;1]) (-3333333333333333) 10000000000000000);
  (*4380*) AddTo (T 302) (Times (Einsum [(T 287,[0;1;2;3])] [0;1;2;3]) (3333333333333333) 10000000000000000);
  (*4381*) AddTo (T 302) (Plain (Einsum [(T 289,[0;1;2;3])] [0;1;2;3]));
  (*4382*) AddTo (T 302) (Plain (Einsum [(n_t1'aa,[0;1]); (T 301,[0;2;3;4])] [2;3;4;1]));
  (*4383*) AddTo n_l1new_aa (Times (Einsum [(n_v'aaaa'ovvv,[0;1;2;3]); (T 302,[4;0;3;1])] [2;4]) (-6) 1);
  (*4384*) Del (T 302);
  (*4385*) Assign (T 303) (Plain (Zeros [4;5;5;5]));
  (*4386*) AddTo (T 303) (Plain (Einsum [(n_t2'abab,[0;1;2;3]); (n_l3'abaaba,[4;3;5;6;1;0])] [6;4;5;2]));
  (*4387*) Assign (T 304) (Plain (Zeros [4;5;5;5]));
  (*4388*) AddTo (T 304) (Plain (Einsum [(n_t1'aa,[0;1]); (n_l2'aaaa,[2;3;4;0])] [4;2;3;1]));
  (*4389*) AddTo (T 304) (Times (Einsum [(T 303,[0;1;2;3])] [0;2;1;3]) (-1) 1);
  (*4390*) AddTo n_l1new_aa (Times (Einsum [(n_v'aaaa'vvvv,[0;1;2;3]); (T 304,[4;3;1;2])] [0;4]) (-2) 1);
  (*4391*) Del (T 304);
  (*4392*) Assign (T 305) (Plain (Zeros [6;7;4;4]));
  (*4393*) AddTo (T 305) (Plain (Einsum [(n_t2'abab,[0;1;2;3]); (n_v'aabb'ovvv,[4;2;5;3])] [1;5;0;4]));
  (*4394*) Assign (T 306) (Plain (Zeros [6;7;4;4]));
  (*4395*) AddTo (T 306) (Plain (Einsum [(n_v'aabb'ovov,[0;1;2;3]); (n_t3'babbab,[4;5;2;6;1;3])] [4;6;5;0]));
  (*4396*) Assign (T 307) (Plain (Zeros [6;7;4;4]));
  (*4397*) AddTo (T 307) (Times (Einsum [(n_v'aaaa'ovov,[0;1;2;3]); (n_t3'abaaba,[4;5;2;3;6;1])] [5;6;4;0]) (-1) 1);
  (*4398*) Assign (T 308) (Plain (Zeros [6;7;4;4]));
  (*4399*) AddTo (T 308) (Plain (Einsum [(n_t2'abab,[0;1;2;3]); (T 262,[4;5;0;2])] [1;3;4;5]));
  (*4400*) Del (T 262);
  (*4401*) Assign (T 309) (Plain (Zeros [6;7;4;4]));
  (*4402*) AddTo (T 309) (Times (Einsum [(n_t2'bbbb,[0;1;2;3]); (T 9,[1;3;4;5])] [0;2;4;5]) (2) 1);
  (*4403*) Assign (T 310) (Plain (Zeros [6;7;4;4]));
  (*4404*) AddTo (T 310) (Plain (Einsum [(n_t2'abab,[0;1;2;3]); (T 40,[1;4;5;2])] [4;3;0;5]));
  (*4405*) Assign (T 311) (Plain (Zeros [6;7;4;4]));
  (*4406*) AddTo (T 311) (Plain (Einsum [(T 246,[0;1]); (n_t2'abab,[2;3;1;4])] [3;4;2;0]));
  (*4407*) Assign (T 312) (Plain (Zeros [7;7;4;4]));
  (*4408*) AddTo (T 312) (Plain (Einsum [(n_v'aabb'oovv,[0;1;2;3])] [2;3;0;1]));
  (*4409*) AddTo (T 312) (Plain (Einsum [(T 247,[0;1;2;3])] [1;0;3;2]));
  (*4410*) Assign (T 313) (Plain (Zeros [6;7;4;4]));
  (*4411*) AddTo (T 313) (Plain (Einsum [(n_t1'bb,[0;1]); (T 312,[1;2;3;4])] [0;2;3;4]));
  (*4412*) Del (T 312);
  (*4413*) Assign (T 314) (Plain (Zeros [6;7;4;4]));
  (*4414*) AddTo (T 314) (Plain (Einsum [(n_t1'bb,[0;1]); (T 129,[0;2;3;4])] [2;1;3;4]));
  (*4415*) Assign (T 315) (Plain (Zeros [6;7;4;4]));
  (*4416*) AddTo (T 315) (Plain (Einsum [(n_v'aabb'ooov,[0;1;2;3])] [2;3;0;1]));
  (*4417*) AddTo (T 315) (Plain (Einsum [(T 8,[0;1;2;3])] [0;1;2;3]));
  (*4418*) AddTo (T 315) (Plain (Einsum [(T 305,[0;1;2;3])] [0;1;2;3]));
  (*4419*) AddTo (T 315) (Times (Einsum [(T 306,[0;1;2;3])] [0;1;2;3]) (2) 1);
  (*4420*) AddTo (T 315) (Times (Einsum [(T 307,[0;1;2;3])] [0;1;2;3]) (2) 1);
  (*4421*) AddTo (T 315) (Times (Einsum [(T 308,[0;1;2;3])] [0;1;3;2]) (-1) 1);
  (*4422*) AddTo (T 315) (Plain (Einsum [(T 309,[0;1;2;3])] [0;1;3;2]));
  (*4423*) AddTo (T 315) (Times (Einsum [(T 310,[0;1;2;3])] [0;1;2;3]) (-1) 1);
  (*4424*) AddTo (T 315) (Plain (Einsum [(T 311,[0;1;2;3])] [0;1;2;3]));
  (*4425*) AddTo (T 315) (Plain (Einsum [(T 313,[0;1;2;3])] [0;1;3;2]));
  (*4426*) AddTo (T 315) (Times (Einsum [(T 314,[0;1;2;3])] [0;1;3;2]) (-1) 1);
  (*4427*) AddTo n_l1new_aa (Times (Einsum [(n_l2'abab,[0;1;2;3]); (T 315,[3;1;2;4])] [0;4]) (-1) 1);
  (*4428*) Del (T 315);
  (*4429*) Assign (T 316) (Plain (Zeros [4;4;4;5]));
  (*4430*) AddTo (T 316) (Plain (Einsum [(n_t2'aaaa,[0;1;2;3]); (n_v'aaaa'ovvv,[4;2;5;3])] [0;1;4;5]));
  (*4431*) Assign (T 317) (Plain (Zeros [4;4;4;5]));
  (*4432*) AddTo (T 317) (Plain (Einsum [(n_v'aabb'ovov,[0;1;2;3]); (n_t3'abaaba,[4;2;5;6;3;1])] [4;5;0;6]));
  (*4433*) Assign (T 318) (Plain (Zeros [4;4;4;5]));
  (*4434*) AddTo (T 318) (Plain (Einsum [(n_v'aaaa'ovov,[0;1;2;3]); (n_t3'aaaaaa,[4;5;2;6;1;3])] [4;5;0;6]));
  (*4435*) Assign (T 319) (Plain (Zeros [4;4;5;5]));
  (*4436*) AddTo (T 319) (Plain (Einsum [(n_t1'aa,[0;1]); (n_v'aaaa'ovvv,[2;3;4;1])] [0;2;3;4]));
  (*4437*) Assign (T 320) (Plain (Zeros [4;4;5;5]));
  (*4438*) AddTo (T 320) (Plain (Einsum [(n_v'aaaa'ovov,[0;1;2;3])] [0;2;3;1]));
  (*4439*) AddTo (T 320) (Times (Einsum [(n_v'aaaa'oovv,[0;1;2;3])] [0;1;2;3]) (-1) 1);
  (*4440*) AddTo (T 320) (Plain (Einsum [(T 319,[0;1;2;3])] [0;1;2;3]));
  (*4441*) Assign (T 321) (Plain (Zeros [4;4;4;5]));
  (*4442*) AddTo (T 321) (Plain (Einsum [(n_v'aaaa'ooov,[0;1;2;3])] [0;2;1;3]));
  (*4443*) AddTo (T 321) (Plain (Einsum [(T 316,[0;1;2;3])] [2;1;0;3]));
  (*4444*) AddTo (T 321) (Times (Einsum [(T 317,[0;1;2;3])] [2;1;0;3]) (-1) 1);
  (*4445*) AddTo (T 321) (Times (Einsum [(T 318,[0;1;2;3])] [2;1;0;3]) (-3) 1);
  (*4446*) AddTo (T 321) (Times (Einsum [(n_t2'aaaa,[0;1;2;3]); (T 232,[4;5;1;3])] [5;0;4;2]) (-2) 1);
  (*4447*) AddTo (T 321) (Plain (Einsum [(n_t2'abab,[0;1;2;3]); (T 32,[1;3;4;5])] [5;0;4;2]));
  (*4448*) AddTo (T 321) (Plain (Einsum [(T 246,[0;1]); (n_t2'aaaa,[2;3;4;1])] [0;2;3;4]));
  (*4449*) AddTo (T 321) (Plain (Einsum [(n_t1'aa,[0;1]); (T 320,[2;3;1;4])] [3;2;0;4]));
  (*4450*) AddTo (T 321) (Times (Einsum [(n_t1'aa,[0;1]); (T 255,[0;2;3;4])] [3;2;4;1]) (-1) 1);
  (*4451*) AddTo n_l1new_aa (Times (Einsum [(n_l2'aaaa,[0;1;2;3]); (T 321,[4;3;2;1])] [0;4]) (-2) 1);
  (*4452*) Del (T 321);
  (*4453*) Assign (T 322) (Plain (Zeros [4;4;4;5]));
  (*4454*) AddTo (T 322) (Plain (Einsum [(n_t3'babbab,[0;1;2;3;4;5]); (T 59,[0;2;3;5;6;7])] [6;7;1;4]));
  (*4455*) Assign (T 323) (Plain (Zeros [4;4;4;5]));
  (*4456*) AddTo (T 323) (Times (Einsum [(n_t3'abaaba,[0;1;2;3;4;5]); (T 62,[1;4;6;2;7;5])] [6;7;0;3]) (-1) 1);
  (*4457*) Assign (T 324) (Plain (Zeros [6;7;4;4;4;4]));
  (*4458*) AddTo (T 324) (Plain (Einsum [(n_t1'aa,[0;1]); (T 62,[2;3;4;5;6;1])] [2;3;4;5;0;6]));
  (*4459*) Assign (T 325) (Plain (Zeros [4;4;4;5]));
  (*4460*) AddTo (T 325) (Times (Einsum [(n_t3'aaaaaa,[0;1;2;3;4;5]); (T 194,[6;2;1;7;4;5])] [6;7;0;3]) (-1) 1);
  (*4461*) Assign (T 326) (Plain (Zeros [4;4;4;4;4;5]));
  (*4462*) AddTo (T 326) (Plain (Einsum [(n_t1'aa,[0;1]); (T 194,[2;3;4;5;6;1])] [2;3;4;0;5;6]));
  (*4463*) Assign (T 327) (Plain (Zeros [4;4;4;5]));
  (*4464*) AddTo (T 327) (Times (Einsum [(T 196,[0;1;2;3])] [1;0;2;3]) (-3333333333333333) 10000000000000000);
  (*4465*) AddTo (T 327) (Times (Einsum [(T 197,[0;1;2;3])] [0;1;2;3]) (3333333333333333) 10000000000000000);
  (*4466*) AddTo (T 327) (Plain (Einsum [(T 198,[0;1;2;3])] [0;1;2;3]));
  (*4467*) Assign (T 328) (Plain (Zeros [4;4;4;5]));
  (*4468*) AddTo (T 328) (Times (Einsum [(T 196,[0;1;2;3])] [1;0;2;3]) (-1) 1);
  (*4469*) AddTo (T 328) (Plain (Einsum [(T 197,[0;1;2;3])] [0;1;2;3]));
  (*4470*) AddTo (T 328) (Times (Einsum [(T 198,[0;1;2;3])] [0;1;2;3]) (3) 1);
  (*4471*) AddTo n_l2new_abab (Times (Einsum [(n_v'aabb'ooov,[0;1;2;3]); (T 328,[0;4;1;5])] [5;3;4;2]) (2) 1);
  (*4472*) Assign (T 329) (Plain (Zeros [4;4;4;4]));
  (*4473*) AddTo (T 329) (Times (Einsum [(T 230,[0;1;2;3])] [0;1;3;2]) (-1) 1);
  (*4474*) AddTo (T 329) (Times (Einsum [(n_t1'aa,[0;1]); (T 328,[2;3;4;1])] [2;3;0;4]) (833333333333367) 2500000000000000);
  (*4475*) Assign (T 330) (Plain (Zeros [4;4;4;5]));
  (*4476*) AddTo (T 330) (Times (Einsum [(n_l1'aa,[0;1]); (n_t2'aaaa,[2;3;4;0])] [1;2;3;4]) (3333333333333333) 10000000000000000);
  (*4477*) AddTo (T 330) (Times (Einsum [(T 196,[0;1;2;3])] [1;0;2;3]) (3333333333333333) 10000000000000000);
  (*4478*) AddTo (T 330) (Times (Einsum [(n_l2'abab,[0;1;2;3]); (n_t3'abaaba,[4;3;5;6;1;0])] [2;4;5;6]) (3333333333333333) 10000000000000000);
  (*4479*) AddTo (T 330) (Times (Einsum [(T 197,[0;1;2;3])] [0;1;2;3]) (-3333333333333333) 10000000000000000);
  (*4480*) AddTo (T 330) (Times (Einsum [(T 198,[0;1;2;3])] [0;1;2;3]) (-1) 1);
  (*4481*) AddTo (T 330) (Times (Einsum [(T 322,[0;1;2;3])] [0;2;1;3]) (8333333333333333) 50000000000000000);
  (*4482*) AddTo (T 330) (Times (Einsum [(T 323,[0;1;2;3])] [0;2;1;3]) (3333333333333333) 5000000000000000);
  (*4483*) AddTo (T 330) (Times (Einsum [(n_t2'abab,[0;1;2;3]); (T 324,[1;3;4;0;5;6])] [4;6;5;2]) (-3333333333333333) 10000000000000000);
  (*4484*) AddTo (T 330) (Times (Einsum [(T 325,[0;1;2;3])] [0;2;1;3]) (3) 2);
  (*4485*) AddTo (T 330) (Times (Einsum [(n_t2'aaaa,[0;1;2;3]); (T 229,[4;3;2;5])] [4;0;1;5]) (-1) 1);
  (*4486*) AddTo (T 330) (Times (Einsum [(n_t2'aaaa,[0;1;2;3]); (T 326,[4;0;1;5;6;3])] [4;6;5;2]) (-1) 1);
  (*4487*) AddTo (T 330) (Times (Einsum [(n_t2'abab,[0;1;2;3]); (T 67,[1;3;4;5])] [4;0;5;2]) (3333333333333333) 10000000000000000);
  (*4488*) AddTo (T 330) (Times (Einsum [(n_t2'aaaa,[0;1;2;3]); (T 327,[4;1;5;3])] [4;0;5;2]) (-2) 1);
  (*4489*) AddTo (T 330) (Times (Einsum [(n_t1'aa,[0;1]); (T 329,[2;0;3;4])] [2;4;3;1]) (-2499999999999899) 2500000000000000);
  (*4490*) Del (T 329);
  (*4491*) AddTo (T 330) (Times (Einsum [(n_t1'aa,[0;1]); (T 299,[2;3])] [2;0;3;1]) (8333333333333333) 50000000000000000);
  (*4492*) AddTo n_l1new_aa (Times (Einsum [(n_v'aaaa'ovov,[0;1;2;3]); (T 330,[4;2;0;3])] [1;4]) (-6) 1);
  (*4493*) Del (T 330);
  (*4494*) Assign (T 331) (Plain (Zeros [4;4;5;5]));
  (*4495*) AddTo (T 331) (Times (Einsum [(T 283,[0;1;2;3])] [0;1;2;3]) (1111111111111111) 10000000000000000);
  (*4496*) AddTo (T 331) (Times (Einsum [(T 284,[0;1;2;3])] [0;1;2;3]) (1111111111111111) 2500000000000000);
  (*4497*) AddTo (T 331) (Times (Einsum [(T 285,[0;1;2;3])] [0;1;2;3]) (1111111111111111) 10000000000000000);
  (*4498*) AddTo (T 331) (Times (Einsum [(T 286,[0;1;2;3])] [0;1;2;3]) (1111111111111111) 2500000000000000);
  (*4499*) AddTo (T 331) (Plain (Einsum [(T 288,[0;1;2;3])] [0;1;2;3]));
  (*4500*) AddTo n_l1new_aa (Times (Einsum [(n_v'aaaa'ovvv,[0;1;2;3]); (T 331,[4;0;3;1])] [2;4]) (9) 1);
  (*4501*) Del (T 331);
  (*4502*) Assign (T 332) (Plain (Zeros [4;4;4;4]));
  (*4503*) AddTo (T 332) (Plain (Einsum [(n_l2'aaaa,[0;1;2;3]); (n_t2'aaaa,[4;5;0;1])] [2;3;4;5]));
  (*4504*) Assign (T 333) (Plain (Zeros [4;4;4;4]));
  (*4505*) AddTo (T 333) (Plain (Einsum [(n_l3'abaaba,[0;1;2;3;4;5]); (n_t3'abaaba,[6;4;7;0;1;2])] [3;5;6;7]));
  (*4506*) Assign (T 334) (Plain (Zeros [4;4;4;5]));
  (*4507*) AddTo (T 334) (Plain (Einsum [(T 197,[0;1;2;3])] [0;1;2;3]));
  (*4508*) AddTo (T 334) (Times (Einsum [(T 198,[0;1;2;3])] [0;1;2;3]) (3) 1);
  (*4509*) Assign (T 335) (Plain (Zeros [4;4;4;4]));
  (*4510*) AddTo (T 335) (Plain (Einsum [(n_t1'aa,[0;1]); (T 334,[2;3;4;1])] [0;2;3;4]));
  (*4511*) Assign (T 336) (Plain (Zeros [4;4;4;4]));
  (*4512*) AddTo (T 336) (Times (Einsum [(T 332,[0;1;2;3])] [1;0;3;2]) (-1) 1);
  (*4513*) AddTo (T 336) (Times (Einsum [(T 333,[0;1;2;3])] [0;1;3;2]) (9999999999999601) 10000000000000000);
  (*4514*) AddTo (T 336) (Times (Einsum [(T 335,[0;1;2;3])] [1;2;0;3]) (-1) 1);
  (*4515*) Assign (T 337) (Plain (Zeros [4;4;4;5]));
  (*4516*) AddTo (T 337) (Times (Einsum [(n_l2'aaaa,[0;1;2;3]); (n_t3'aaaaaa,[4;5;3;6;0;1])] [2;4;5;6]) (1) 2);
  (*4517*) AddTo (T 337) (Times (Einsum [(T 322,[0;1;2;3])] [0;2;1;3]) (8333333333333333) 100000000000000000);
  (*4518*) Del (T 322);
  (*4519*) AddTo (T 337) (Times (Einsum [(T 323,[0;1;2;3])] [0;2;1;3]) (3333333333333333) 10000000000000000);
  (*4520*) Del (T 323);
  (*4521*) AddTo (T 337) (Times (Einsum [(n_t2'aaaa,[0;1;2;3]); (T 303,[4;2;3;5])] [4;0;1;5]) (8333333333333333) 50000000000000000);
  (*4522*) AddTo (T 337) (Times (Einsum [(T 325,[0;1;2;3])] [0;2;1;3]) (3) 4);
  (*4523*) Del (T 325);
  (*4524*) AddTo (T 337) (Times (Einsum [(n_t2'abab,[0;1;2;3]); (T 67,[1;3;4;5])] [4;0;5;2]) (8333333333333333) 50000000000000000);
  (*4525*) AddTo (T 337) (Times (Einsum [(n_t2'aaaa,[0;1;2;3]); (T 327,[4;1;5;3])] [4;0;5;2]) (-1) 1);
  (*4526*) AddTo (T 337) (Times (Einsum [(n_t1'aa,[0;1]); (T 336,[0;2;3;4])] [2;4;3;1]) (-8333333333333333) 50000000000000000);
  (*4527*) Del (T 336);
  (*4528*) AddTo (T 337) (Times (Einsum [(n_t1'aa,[0;1]); (T 299,[2;3])] [2;0;3;1]) (8333333333333333) 100000000000000000);
  (*4529*) Del (T 299);
  (*4530*) AddTo n_l1new_aa (Times (Einsum [(n_v'aaaa'ovov,[0;1;2;3]); (T 337,[4;2;0;1])] [3;4]) (12) 1);
  (*4531*) Del (T 337);
  (*4532*) Assign (T 338) (Plain (Zeros [4;5]));
  (*4533*) AddTo (T 338) (Times (Einsum [(n_t1'aa,[0;1])] [0;1]) (-2500000000000101) 5000000000000000);
  (*4534*) AddTo (T 338) (Times (Einsum [(T 187,[0;1])] [0;1]) (-2500000000000101) 5000000000000000);
  (*4535*) Del (T 187);
  (*4536*) AddTo (T 338) (Times (Einsum [(T 188,[0;1])] [0;1]) (-2500000000000101) 2500000000000000);
  (*4537*) Del (T 188);
  (*4538*) AddTo (T 338) (Times (Einsum [(T 189,[0;1])] [0;1]) (-2500000000000101) 5000000000000000);
  (*4539*) Del (T 189);
  (*4540*) AddTo (T 338) (Times (Einsum [(T 190,[0;1])] [0;1]) (-2500000000000101) 2500000000000000);
  (*4541*) Del (T 190);
  (*4542*) AddTo (T 338) (Times (Einsum [(T 191,[0;1])] [0;1]) (-3750000000000151) 2500000000000000);
  (*4543*) Del (T 191);
  (*4544*) AddTo (T 338) (Times (Einsum [(T 192,[0;1])] [0;1]) (2500000000000001) 5000000000000000);
  (*4545*) Del (T 192);
  (*4546*) AddTo (T 338) (Plain (Einsum [(T 193,[0;1])] [0;1]));
  (*4547*) Del (T 193);
  (*4548*) AddTo (T 338) (Times (Einsum [(T 195,[0;1])] [0;1]) (7499999999999999) 5000000000000000);
  (*4549*) Del (T 195);
  (*4550*) AddTo (T 338) (Times (Einsum [(n_t2'abab,[0;1;2;3]); (T 67,[1;3;0;4])] [4;2]) (2500000000000101) 2500000000000000);
  (*4551*) AddTo (T 338) (Times (Einsum [(n_t2'aaaa,[0;1;2;3]); (T 199,[0;1;4;3])] [4;2]) (-3000000000000121) 1000000000000000);
  (*4552*) Del (T 199);
  (*4553*) AddTo (T 338) (Times (Einsum [(n_t1'aa,[0;1]); (T 206,[0;2])] [2;1]) (2500000000000101) 5000000000000000);
  (*4554*) Del (T 206);
  (*4555*) AddTo n_l1new_aa (Times (Einsum [(T 338,[0;1]); (T 241,[0;2;1;3])] [3;2]) (9999999999999597) 5000000000000000);
  (*4556*) Del (T 338);
  (*4557*) Assign (T 339) (Plain (Zeros [5;5]));
  (*4558*) AddTo (T 339) (Times (Einsum [(T 180,[0;1])] [0;1]) (1) 2);
  (*4559*) Del (T 180);
  (*4560*) AddTo (T 339) (Times (Einsum [(T 181,[0;1])] [0;1]) (1) 2);
  (*4561*) AddTo (T 339) (Plain (Einsum [(T 182,[0;1])] [0;1]));
  (*4562*) AddTo (T 339) (Times (Einsum [(T 183,[0;1])] [0;1]) (49999999999998007) 100000000000000000);
  (*4563*) Assign (T 340) (Plain (Zeros [4;5;5;5]));
  (*4564*) AddTo (T 340) (Plain (Einsum [(n_v'aaaa'ovvv,[0;1;2;3])] [0;1;2;3]));
  (*4565*) AddTo (T 340) (Times (Einsum [(n_v'aaaa'ovvv,[0;1;2;3])] [0;2;3;1]) (-1) 1);
  (*4566*) AddTo n_l1new_aa (Times (Einsum [(T 339,[0;1]); (T 340,[2;1;0;3])] [3;2]) (-2) 1);
  (*4567*) Del (T 339);
  (*4568*) AddTo n_l2new_abab (Times (Einsum [(T 101,[0;1;2;3]); (T 340,[4;3;2;5])] [5;1;4;0]) (-2) 1);
  (*4569*) Assign (T 341) (Plain (Zeros [7;7]));
  (*4570*) AddTo (T 341) (Times (Einsum [(T 161,[0;1])] [0;1]) (1) 2);
  (*4571*) Del (T 161);
  (*4572*) AddTo (T 341) (Plain (Einsum [(T 162,[0;1])] [0;1]));
  (*4573*) AddTo (T 341) (Times (Einsum [(T 163,[0;1])] [0;1]) (1) 2);
  (*4574*) AddTo (T 341) (Times (Einsum [(T 164,[0;1])] [0;1]) (7499999999999697) 5000000000000000);
  (*4575*) AddTo (T 341) (Times (Einsum [(T 165,[0;1])] [1;0]) (9999999999999597) 10000000000000000);
  (*4576*) AddTo (T 341) (Times (Einsum [(T 212,[0;1])] [0;1]) (49999999999998007) 100000000000000000);
  (*4577*) AddTo n_l1new_aa (Times (Einsum [(T 341,[0;1]); (n_v'aabb'ovvv,[2;3;1;0])] [3;2]) (2) 1);
  (*4578*) Del (T 341);
  (*4579*) Assign (T 342) (Plain (Zeros [6;6]));
  (*4580*) AddTo (T 342) (Plain (Einsum [(T 176,[0;1])] [0;1]));
  (*4581*) AddTo (T 342) (Times (Einsum [(T 110,[0;1])] [0;1]) (2) 1);
  (*4582*) AddTo (T 342) (Plain (Einsum [(T 111,[0;1])] [0;1]));
  (*4583*) AddTo (T 342) (Times (Einsum [(T 112,[0;1])] [0;1]) (7499999999999697) 2500000000000000);
  (*4584*) AddTo (T 342) (Times (Einsum [(T 113,[0;1])] [0;1]) (9999999999999597) 5000000000000000);
  (*4585*) AddTo (T 342) (Times (Einsum [(T 114,[0;1])] [0;1]) (9999999999999601) 10000000000000000);
  (*4586*) AddTo n_l2new_abab (Times (Einsum [(T 342,[0;1]); (n_v'aabb'ovov,[2;3;1;4])] [3;4;2;0]) (-1) 1);
  (*4587*) Assign (T 343) (Plain (Zeros [6;7]));
  (*4588*) AddTo (T 343) (Times (Einsum [(n_l1'bb,[0;1])] [1;0]) (-1) 1);
  (*4589*) AddTo (T 343) (Times (Einsum [(n_t1'bb,[0;1])] [0;1]) (-1) 1);
  (*4590*) AddTo (T 343) (Times (Einsum [(T 167,[0;1])] [0;1]) (-2) 1);
  (*4591*) Del (T 167);
  (*4592*) AddTo (T 343) (Times (Einsum [(T 168,[0;1])] [0;1]) (-1) 1);
  (*4593*) Del (T 168);
  (*4594*) AddTo (T 343) (Times (Einsum [(T 169,[0;1])] [0;1]) (-3) 1);
  (*4595*) Del (T 169);
  (*4596*) AddTo (T 343) (Times (Einsum [(T 170,[0;1])] [0;1]) (-2) 1);
  (*4597*) Del (T 170);
  (*4598*) AddTo (T 343) (Times (Einsum [(T 171,[0;1])] [0;1]) (-1) 1);
  (*4599*) Del (T 171);
  (*4600*) AddTo (T 343) (Times (Einsum [(T 172,[0;1])] [0;1]) (7499999999999697) 2500000000000000);
  (*4601*) Del (T 172);
  (*4602*) AddTo (T 343) (Times (Einsum [(T 173,[0;1])] [0;1]) (9999999999999597) 5000000000000000);
  (*4603*) Del (T 173);
  (*4604*) AddTo (T 343) (Times (Einsum [(T 174,[0;1])] [0;1]) (9999999999999601) 10000000000000000);
  (*4605*) Del (T 174);
  (*4606*) AddTo (T 343) (Times (Einsum [(n_t2'bbbb,[0;1;2;3]); (T 138,[0;1;4;3])] [4;2]) (-2) 1);
  (*4607*) AddTo (T 343) (Times (Einsum [(n_t2'abab,[0;1;2;3]); (T 140,[1;4;0;2])] [4;3]) (2) 1);
  (*4608*) AddTo (T 343) (Plain (Einsum [(n_t1'bb,[0;1]); (T 342,[0;2])] [2;1]));
  (*4609*) AddTo n_l1new_aa (Times (Einsum [(T 343,[0;1]); (n_v'aabb'ovov,[2;3;0;1])] [3;2]) (-1) 1);
  (*4610*) Del (T 343);
  (*4611*) Assign (T 344) (Plain (Zeros [6;6;4;4]));
  (*4612*) AddTo (T 344) (Times (Einsum [(T 103,[0;1;2;3])] [0;1;2;3]) (2500000000000101) 5000000000000000);
  (*4613*) Del (T 103);
  (*4614*) AddTo (T 344) (Plain (Einsum [(T 104,[0;1;2;3])] [0;1;2;3]));
  (*4615*) Del (T 104);
  (*4616*) AddTo (T 344) (Plain (Einsum [(T 105,[0;1;2;3])] [0;1;2;3]));
  (*4617*) Del (T 105);
  (*4618*) AddTo (T 344) (Times (Einsum [(n_t1'bb,[0;1]); (T 102,[2;1;3;4])] [0;2;3;4]) (2500000000000101) 5000000000000000);
  (*4619*) AddTo (T 344) (Times (Einsum [(n_t1'aa,[0;1]); (T 107,[2;3;4;1])] [3;2;4;0]) (2500000000000101) 2500000000000000);
  (*4620*) AddTo n_l1new_aa (Times (Einsum [(n_v'aabb'ovoo,[0;1;2;3]); (T 344,[3;2;4;0])] [1;4]) (9999999999999597) 5000000000000000);
  (*4621*) Del (T 344);
  (*4622*) Assign (T 345) (Plain (Zeros [5;5]));
  (*4623*) AddTo (T 345) (Plain (Einsum [(T 184,[0;1])] [0;1]));
  (*4624*) AddTo (T 345) (Times (Einsum [(T 185,[0;1])] [0;1]) (7499999999999999) 5000000000000000);
  (*4625*) AddTo n_l1new_aa (Times (Einsum [(T 345,[0;1]); (T 340,[2;1;0;3])] [3;2]) (-9999999999999597) 5000000000000000);
  (*4626*) Del (T 345);
  (*4627*) Assign (T 346) (Plain (Zeros [4;4;4;4]));
  (*4628*) AddTo (T 346) (Times (Einsum [(T 332,[0;1;2;3])] [1;0;3;2]) (-3333333333333333) 10000000000000000);
  (*4629*) AddTo (T 346) (Times (Einsum [(T 333,[0;1;2;3])] [0;1;3;2]) (6666666666666401) 20000000000000000);
  (*4630*) AddTo (T 346) (Times (Einsum [(n_t1'aa,[0;1]); (T 328,[2;3;4;1])] [0;2;3;4]) (3333333333333333) 10000000000000000);
  (*4631*) AddTo n_l1new_aa (Times (Einsum [(n_v'aaaa'ooov,[0;1;2;3]); (T 346,[0;4;1;2])] [3;4]) (-6) 1);
  (*4632*) Del (T 346);
  (*4633*) Assign (T 347) (Plain (Zeros [4;4;4;4]));
  (*4634*) AddTo (T 347) (Times (Einsum [(n_t1'aa,[0;1]); (T 334,[2;3;4;1])] [2;3;0;4]) (3333333333333333) 10000000000000000);
  (*4635*) AddTo n_l1new_aa (Times (Einsum [(n_v'aaaa'ooov,[0;1;2;3]); (T 347,[4;1;2;0])] [3;4]) (6) 1);
  (*4636*) Del (T 347);
  (*4637*) Assign (T 348) (Plain (Zeros [4;4]));
  (*4638*) AddTo (T 348) (Times (Einsum [(T 200,[0;1])] [0;1]) (833333333333367) 2500000000000000);
  (*4639*) AddTo (T 348) (Times (Einsum [(T 201,[0;1])] [0;1]) (833333333333367) 2500000000000000);
  (*4640*) AddTo (T 348) (Times (Einsum [(T 202,[0;1])] [0;1]) (833333333333367) 1250000000000000);
  (*4641*) AddTo (T 348) (Times (Einsum [(T 203,[0;1])] [0;1]) (16666666666666677) 50000000000000000);
  (*4642*) AddTo (T 348) (Plain (Einsum [(T 205,[0;1])] [0;1]));
  (*4643*) Assign (T 349) (Plain (Zeros [4;4;4;5]));
  (*4644*) AddTo (T 349) (Times (Einsum [(n_v'aaaa'ooov,[0;1;2;3])] [0;1;2;3]) (-1) 1);
  (*4645*) AddTo (T 349) (Plain (Einsum [(n_v'aaaa'ooov,[0;1;2;3])] [0;2;1;3]));
  (*4646*) AddTo n_l1new_aa (Times (Einsum [(T 348,[0;1]); (T 349,[0;2;1;3])] [3;2]) (-7499999999999697) 2500000000000000);
  (*4647*) Del (T 348);
  (*4648*) AddTo n_l1new_aa (Times (Einsum [(T 204,[0;1]); (T 349,[0;1;2;3])] [3;2]) (9999999999999597) 5000000000000000);
  (*4649*) AddTo n_l2new_abab (Times (Einsum [(T 349,[0;1;2;3]); (T 67,[4;5;0;1])] [3;5;2;4]) (2) 1);
  (*4650*) AddTo n_l3new_babbab (Times (Einsum [(T 349,[0;1;2;3]); (T 59,[4;5;6;7;0;2])] [6;3;7;5;1;4]) (2) 1);
  (*4651*) Assign (T 350) (Plain (Zeros [6;6]));
  (*4652*) AddTo (T 350) (Times (Einsum [(T 176,[0;1])] [0;1]) (1) 2);
  (*4653*) Del (T 176);
  (*4654*) AddTo (T 350) (Plain (Einsum [(T 110,[0;1])] [0;1]));
  (*4655*) Del (T 110);
  (*4656*) AddTo (T 350) (Times (Einsum [(T 111,[0;1])] [0;1]) (1) 2);
  (*4657*) Del (T 111);
  (*4658*) AddTo (T 350) (Times (Einsum [(T 112,[0;1])] [0;1]) (7499999999999697) 5000000000000000);
  (*4659*) Del (T 112);
  (*4660*) AddTo (T 350) (Times (Einsum [(T 113,[0;1])] [1;0]) (9999999999999597) 10000000000000000);
  (*4661*) Del (T 113);
  (*4662*) AddTo (T 350) (Times (Einsum [(T 114,[0;1])] [1;0]) (49999999999998007) 100000000000000000);
  (*4663*) Del (T 114);
  (*4664*) AddTo n_l1new_aa (Times (Einsum [(T 350,[0;1]); (n_v'aabb'ovoo,[2;3;1;0])] [3;2]) (-2) 1);
  (*4665*) Del (T 350);
  (*4666*) Assign (T 351) (Plain (Zeros [4;4;5;5]));
  (*4667*) AddTo (T 351) (Plain (Einsum [(n_v'aaaa'oovv,[0;1;2;3])] [0;1;2;3]));
  (*4668*) AddTo (T 351) (Times (Einsum [(n_v'aaaa'ovov,[0;1;2;3])] [0;2;1;3]) (-1) 1);
  (*4669*) AddTo n_l1new_aa (Times (Einsum [(n_l1'aa,[0;1]); (T 351,[1;2;0;3])] [3;2]) (-1) 1);
  (*4670*) Del (T 351);
  (*4671*) Assign (T 352) (Plain (Zeros [5;5]));
  (*4672*) AddTo (T 352) (Plain (Einsum [(n_t1'bb,[0;1]); (n_v'aabb'vvov,[2;3;0;1])] [2;3]));
  (*4673*) Assign (T 353) (Plain (Zeros [5;5]));
  (*4674*) AddTo (T 353) (Plain (Einsum [(n_f'aa'vv,[0;1])] [0;1]));
  (*4675*) AddTo (T 353) (Plain (Einsum [(T 352,[0;1])] [1;0]));
  (*4676*) AddTo (T 353) (Times (Einsum [(n_t1'aa,[0;1]); (T 236,[0;1;2;3])] [3;2]) (-1) 1);
  (*4677*) AddTo n_l1new_aa (Plain (Einsum [(n_l1'aa,[0;1]); (T 353,[0;2])] [2;1]));
  (*4678*) Del (T 353);
  (*4679*) Assign (T 354) (Plain (Zeros [4;4]));
  (*4680*) AddTo (T 354) (Plain (Einsum [(n_t1'bb,[0;1]); (n_v'aabb'ooov,[2;3;0;1])] [2;3]));
  (*4681*) Assign (T 355) (Plain (Zeros [4;4]));
  (*4682*) AddTo (T 355) (Plain (Einsum [(n_t2'abab,[0;1;2;3]); (n_v'aabb'ovov,[4;2;1;3])] [0;4]));
  (*4683*) Assign (T 356) (Plain (Zeros [4;4]));
  (*4684*) AddTo (T 356) (Plain (Einsum [(n_t2'aaaa,[0;1;2;3]); (n_v'aaaa'ovov,[4;2;1;3])] [0;4]));
  (*4685*) Assign (T 357) (Plain (Zeros [4;4;4;5]));
  (*4686*) AddTo (T 357) (Times (Einsum [(n_v'aaaa'ooov,[0;1;2;3])] [0;1;2;3]) (-1) 1);
  (*4687*) AddTo (T 357) (Plain (Einsum [(n_v'aaaa'ooov,[0;1;2;3])] [2;0;1;3]));
  (*4688*) Assign (T 358) (Plain (Zeros [4;4]));
  (*4689*) AddTo (T 358) (Plain (Einsum [(n_t1'aa,[0;1]); (T 357,[2;3;0;1])] [2;3]));
  (*4690*) Del (T 357);
  (*4691*) Assign (T 359) (Plain (Zeros [4;4]));
  (*4692*) AddTo (T 359) (Plain (Einsum [(n_t1'aa,[0;1]); (T 246,[2;1])] [0;2]));
  (*4693*) Assign (T 360) (Plain (Zeros [4;4]));
  (*4694*) AddTo (T 360) (Plain (Einsum [(n_f'aa'oo,[0;1])] [0;1]));
  (*4695*) AddTo (T 360) (Plain (Einsum [(T 354,[0;1])] [1;0]));
  (*4696*) AddTo (T 360) (Plain (Einsum [(T 355,[0;1])] [0;1]));
  (*4697*) AddTo (T 360) (Times (Einsum [(T 356,[0;1])] [0;1]) (2) 1);
  (*4698*) AddTo (T 360) (Times (Einsum [(T 358,[0;1])] [1;0]) (-1) 1);
  (*4699*) AddTo (T 360) (Plain (Einsum [(T 359,[0;1])] [0;1]));
  (*4700*) Del (T 359);
  (*4701*) AddTo n_l1new_aa (Times (Einsum [(n_l1'aa,[0;1]); (T 360,[1;2])] [0;2]) (-1) 1);
  (*4702*) AddTo n_l2new_abab (Times (Einsum [(T 360,[0;1]); (n_l2'abab,[2;3;0;4])] [2;3;1;4]) (-1) 1);
  (*4703*) AddTo n_l3new_babbab (Times (Einsum [(T 360,[0;1]); (n_l3'babbab,[2;3;4;5;0;6])] [2;3;4;5;1;6]) (-2) 1);
  (*4704*) Del (T 360);
  (*4705*) Assign (T 361) (Plain (Zeros [4;4]));
  (*4706*) AddTo (T 361) (Times (Einsum [(T 200,[0;1])] [0;1]) (833333333333367) 2500000000000000);
  (*4707*) AddTo (T 361) (Times (Einsum [(T 201,[0;1])] [0;1]) (833333333333367) 2500000000000000);
  (*4708*) AddTo (T 361) (Times (Einsum [(T 202,[0;1])] [0;1]) (833333333333367) 1250000000000000);
  (*4709*) AddTo (T 361) (Times (Einsum [(T 203,[0;1])] [0;1]) (16666666666666677) 50000000000000000);
  (*4710*) AddTo (T 361) (Times (Einsum [(T 204,[0;1])] [0;1]) (6666666666666667) 10000000000000000);
  (*4711*) AddTo (T 361) (Plain (Einsum [(T 205,[0;1])] [0;1]));
  (*4712*) AddTo n_l1new_aa (Times (Einsum [(n_f'aa'ov,[0;1]); (T 361,[2;0])] [1;2]) (-7499999999999697) 2500000000000000);
  (*4713*) Del (T 361);
  (*4714*) Assign (T 362) (Plain (Zeros [4;5]));
  (*4715*) AddTo (T 362) (Plain (Einsum [(T 244,[0;1])] [0;1]));
  (*4716*) Del (T 244);
  (*4717*) AddTo (T 362) (Times (Einsum [(T 245,[0;1])] [0;1]) (-1) 1);
  (*4718*) Del (T 245);
  (*4719*) AddTo n_l1new_aa (Times (Einsum [(T 200,[0;1]); (T 362,[1;2])] [2;0]) (-1) 1);
  (*4720*) Assign (T 363) (Plain (Zeros [4;4;5;5]));
  (*4721*) AddTo (T 363) (Plain (Einsum [(n_l1'aa,[0;1]); (n_v'aaaa'ovvv,[2;3;4;0])] [1;2;3;4]));
  (*4722*) Assign (T 364) (Plain (Zeros [4;4;5;5]));
  (*4723*) AddTo (T 364) (Plain (Einsum [(n_l2'abab,[0;1;2;3]); (T 239,[3;1;4;5])] [2;4;0;5]));
  (*4724*) Assign (T 365) (Plain (Zeros [4;4;5;5]));
  (*4725*) AddTo (T 365) (Plain (Einsum [(T 6,[0;1;2;3]); (T 94,[0;1;4;5])] [4;2;5;3]));
  (*4726*) Assign (T 366) (Plain (Zeros [4;5;5;5]));
  (*4727*) AddTo (T 366) (Times (Einsum [(T 303,[0;1;2;3])] [0;2;1;3]) (-3333333333333333) 10000000000000000);
  (*4728*) AddTo (T 366) (Times (Einsum [(T 229,[0;1;2;3])] [0;2;1;3]) (-1) 1);
  (*4729*) AddTo n_l2new_abab (Times (Einsum [(n_v'aabb'vvov,[0;1;2;3]); (T 366,[4;5;0;1])] [5;3;4;2]) (6) 1);
  (*4730*) Assign (T 367) (Plain (Zeros [4;4;5;5]));
  (*4731*) AddTo (T 367) (Times (Einsum [(T 340,[0;1;2;3]); (T 366,[4;2;5;1])] [0;4;3;5]) (6) 1);
  (*4732*) Del (T 366);
  (*4733*) Assign (T 368) (Plain (Zeros [4;4;4;5]));
  (*4734*) AddTo (T 368) (Plain (Einsum [(T 197,[0;1;2;3])] [0;1;2;3]));
  (*4735*) Del (T 197);
  (*4736*) AddTo (T 368) (Times (Einsum [(T 198,[0;1;2;3])] [0;1;2;3]) (7500000000000001) 2500000000000000);
  (*4737*) Del (T 198);
  (*4738*) Assign (T 369) (Plain (Zeros [4;4;5;5]));
  (*4739*) AddTo (T 369) (Times (Einsum [(n_t1'aa,[0;1]); (T 368,[2;0;3;4])] [2;3;1;4]) (86805555555559) 390625000000000);
  (*4740*) Del (T 368);
  (*4741*) Assign (T 370) (Plain (Zeros [4;4;5;5]));
  (*4742*) AddTo (T 370) (Times (Einsum [(T 283,[0;1;2;3])] [0;1;2;3]) (86805555555559) 781250000000000);
  (*4743*) AddTo (T 370) (Times (Einsum [(T 284,[0;1;2;3])] [0;1;2;3]) (4444444444444621) 10000000000000000);
  (*4744*) AddTo (T 370) (Times (Einsum [(T 285,[0;1;2;3])] [0;1;2;3]) (2777777777777777) 25000000000000000);
  (*4745*) AddTo (T 370) (Times (Einsum [(T 286,[0;1;2;3])] [0;1;2;3]) (44444444444444453) 100000000000000000);
  (*4746*) AddTo (T 370) (Times (Einsum [(T 287,[0;1;2;3])] [0;1;2;3]) (-86805555555559) 390625000000000);
  (*4747*) AddTo (T 370) (Plain (Einsum [(T 288,[0;1;2;3])] [0;1;2;3]));
  (*4748*) AddTo (T 370) (Times (Einsum [(T 289,[0;1;2;3])] [0;1;2;3]) (-1666666666666733) 2500000000000000);
  (*4749*) AddTo (T 370) (Times (Einsum [(T 369,[0;1;2;3])] [0;1;3;2]) (-1) 1);
  (*4750*) Del (T 369);
  (*4751*) Assign (T 371) (Plain (Zeros [4;4;5;5]));
  (*4752*) AddTo (T 371) (Times (Einsum [(T 234,[0;1;2;3]); (T 370,[4;0;5;3])] [1;4;2;5]) (8999999999999643) 1000000000000000);
  (*4753*) Del (T 370);
  (*4754*) Assign (T 372) (Plain (Zeros [6;7;4;5]));
  (*4755*) AddTo (T 372) (Times (Einsum [(n_t1'bb,[0;1]); (T 107,[0;2;3;4])] [2;1;3;4]) (2) 1);
  (*4756*) Assign (T 373) (Plain (Zeros [6;7;4;5]));
  (*4757*) AddTo (T 373) (Plain (Einsum [(n_l2'abab,[0;1;2;3])] [3;1;2;0]));
  (*4758*) AddTo (T 373) (Times (Einsum [(T 272,[0;1;2;3])] [0;1;2;3]) (2) 1);
  (*4759*) AddTo (T 373) (Times (Einsum [(T 273,[0;1;2;3])] [0;1;2;3]) (2) 1);
  (*4760*) AddTo (T 373) (Times (Einsum [(T 274,[0;1;2;3])] [0;1;2;3]) (2999999999999881) 1000000000000000);
  (*4761*) AddTo (T 373) (Times (Einsum [(T 275,[0;1;2;3])] [0;1;2;3]) (-2) 1);
  (*4762*) AddTo (T 373) (Times (Einsum [(T 276,[0;1;2;3])] [0;1;2;3]) (1999999999999921) 500000000000000);
  (*4763*) AddTo (T 373) (Times (Einsum [(T 277,[0;1;2;3])] [0;1;2;3]) (-2) 1);
  (*4764*) AddTo (T 373) (Times (Einsum [(T 278,[0;1;2;3])] [0;1;2;3]) (2999999999999881) 1000000000000000);
  (*4765*) AddTo (T 373) (Times (Einsum [(T 372,[0;1;2;3])] [0;1;2;3]) (-1) 1);
  (*4766*) Del (T 372);
  (*4767*) Assign (T 374) (Plain (Zeros [4;4;5;5]));
  (*4768*) AddTo (T 374) (Plain (Einsum [(n_v'aabb'ovov,[0;1;2;3]); (T 373,[2;3;4;5])] [0;4;1;5]));
  (*4769*) Del (T 373);
  (*4770*) Assign (T 375) (Plain (Zeros [4;4;5;5]));
  (*4771*) AddTo (T 375) (Times (Einsum [(n_v'aabb'ovvv,[0;1;2;3]); (T 298,[2;3;4;5])] [0;4;1;5]) (2) 1);
  (*4772*) Assign (T 376) (Plain (Zeros [4;4;5;5]));
  (*4773*) AddTo (T 376) (Plain (Einsum [(n_t1'aa,[0;1]); (T 340,[2;1;3;4])] [0;2;3;4]));
  (*4774*) Assign (T 377) (Plain (Zeros [4;4;5;5]));
  (*4775*) AddTo (T 377) (Plain (Einsum [(n_v'aaaa'ovov,[0;1;2;3])] [0;2;3;1]));
  (*4776*) AddTo (T 377) (Times (Einsum [(n_v'aaaa'oovv,[0;1;2;3])] [0;1;2;3]) (-1) 1);
  (*4777*) AddTo (T 377) (Times (Einsum [(T 376,[0;1;2;3])] [0;1;3;2]) (-1) 1);
  (*4778*) Del (T 376);
  (*4779*) Assign (T 378) (Plain (Zeros [4;4;5;5]));
  (*4780*) AddTo (T 378) (Times (Einsum [(n_l2'aaaa,[0;1;2;3]); (T 377,[3;4;5;1])] [2;4;0;5]) (2) 1);
  (*4781*) Del (T 377);
  (*4782*) Assign (T 379) (Plain (Zeros [4;4;5;5]));
  (*4783*) AddTo (T 379) (Times (Einsum [(T 328,[0;1;2;3]); (T 349,[1;4;2;5])] [0;4;3;5]) (2) 1);
  (*4784*) Del (T 328);
  (*4785*) Assign (T 380) (Plain (Zeros [5;5]));
  (*4786*) AddTo (T 380) (Plain (Einsum [(T 181,[0;1])] [0;1]));
  (*4787*) AddTo (T 380) (Times (Einsum [(T 182,[0;1])] [0;1]) (2) 1);
  (*4788*) AddTo (T 380) (Times (Einsum [(T 183,[0;1])] [0;1]) (9999999999999601) 10000000000000000);
  (*4789*) AddTo (T 380) (Times (Einsum [(T 184,[0;1])] [0;1]) (9999999999999597) 5000000000000000);
  (*4790*) AddTo (T 380) (Times (Einsum [(T 185,[0;1])] [0;1]) (7499999999999697) 2500000000000000);
  (*4791*) Assign (T 381) (Plain (Zeros [4;4;5;5]));
  (*4792*) AddTo (T 381) (Plain (Einsum [(T 380,[0;1]); (n_v'aaaa'ovov,[2;1;3;4])] [2;3;0;4]));
  (*4793*) Del (T 380);
  (*4794*) Assign (T 382) (Plain (Zeros [4;4;5;5]));
  (*4795*) AddTo (T 382) (Plain (Einsum [(n_v'aabb'ovoo,[0;1;2;3]); (T 97,[2;3;4;5])] [0;4;1;5]));
  (*4796*) Assign (T 383) (Plain (Zeros [4;4;4;5]));
  (*4797*) AddTo (T 383) (Plain (Einsum [(T 231,[0;1;2;3])] [0;1;2;3]));
  (*4798*) AddTo (T 383) (Times (Einsum [(T 231,[0;1;2;3])] [0;2;1;3]) (-1) 1);
  (*4799*) Assign (T 384) (Plain (Zeros [4;4;5;5]));
  (*4800*) AddTo (T 384) (Times (Einsum [(T 196,[0;1;2;3]); (T 383,[0;4;2;5])] [1;4;3;5]) (2) 1);
  (*4801*) Assign (T 385) (Plain (Zeros [4;4]));
  (*4802*) AddTo (T 385) (Plain (Einsum [(T 200,[0;1])] [0;1]));
  (*4803*) AddTo (T 385) (Plain (Einsum [(T 201,[0;1])] [0;1]));
  (*4804*) AddTo (T 385) (Times (Einsum [(T 202,[0;1])] [0;1]) (2) 1);
  (*4805*) AddTo (T 385) (Times (Einsum [(T 203,[0;1])] [0;1]) (9999999999999601) 10000000000000000);
  (*4806*) AddTo (T 385) (Times (Einsum [(T 204,[0;1])] [0;1]) (9999999999999597) 5000000000000000);
  (*4807*) AddTo (T 385) (Times (Einsum [(T 205,[0;1])] [0;1]) (7499999999999697) 2500000000000000);
  (*4808*) Assign (T 386) (Plain (Zeros [4;4;5;5]));
  (*4809*) AddTo (T 386) (Plain (Einsum [(T 385,[0;1]); (n_v'aaaa'ovov,[2;3;1;4])] [0;2;4;3]));
  (*4810*) Del (T 385);
  (*4811*) Assign (T 387) (Plain (Zeros [4;4;4;5]));
  (*4812*) AddTo (T 387) (Times (Einsum [(n_v'aaaa'ooov,[0;1;2;3])] [0;1;2;3]) (-1) 1);
  (*4813*) AddTo (T 387) (Plain (Einsum [(T 231,[0;1;2;3])] [0;1;2;3]));
  (*4814*) Assign (T 388) (Plain (Zeros [4;4;5;5]));
  (*4815*) AddTo (T 388) (Plain (Einsum [(n_l1'aa,[0;1]); (T 387,[1;2;3;4])] [2;3;0;4]));
  (*4816*) Assign (T 389) (Plain (Zeros [4;4;5;5]));
  (*4817*) AddTo (T 389) (Plain (Einsum [(n_f'aa'ov,[0;1]); (n_l1'aa,[2;3])] [0;3;1;2]));
  (*4818*) AddTo (T 389) (Times (Einsum [(T 363,[0;1;2;3])] [0;1;2;3]) (-1) 1);
  (*4819*) Del (T 363);
  (*4820*) AddTo (T 389) (Plain (Einsum [(T 364,[0;1;2;3])] [0;1;2;3]));
  (*4821*) Del (T 364);
  (*4822*) AddTo (T 389) (Times (Einsum [(T 365,[0;1;2;3])] [0;1;2;3]) (-1) 1);
  (*4823*) Del (T 365);
  (*4824*) AddTo (T 389) (Plain (Einsum [(T 367,[0;1;2;3])] [1;0;3;2]));
  (*4825*) Del (T 367);
  (*4826*) AddTo (T 389) (Times (Einsum [(T 371,[0;1;2;3])] [1;0;3;2]) (-1) 1);
  (*4827*) Del (T 371);
  (*4828*) AddTo (T 389) (Plain (Einsum [(T 374,[0;1;2;3])] [1;0;3;2]));
  (*4829*) Del (T 374);
  (*4830*) AddTo (T 389) (Plain (Einsum [(T 375,[0;1;2;3])] [1;0;3;2]));
  (*4831*) Del (T 375);
  (*4832*) AddTo (T 389) (Plain (Einsum [(T 378,[0;1;2;3])] [0;1;2;3]));
  (*4833*) Del (T 378);
  (*4834*) AddTo (T 389) (Times (Einsum [(T 379,[0;1;2;3])] [0;1;2;3]) (-1) 1);
  (*4835*) Del (T 379);
  (*4836*) AddTo (T 389) (Plain (Einsum [(T 381,[0;1;2;3])] [1;0;2;3]));
  (*4837*) Del (T 381);
  (*4838*) AddTo (T 389) (Times (Einsum [(T 382,[0;1;2;3])] [1;0;3;2]) (-1) 1);
  (*4839*) Del (T 382);
  (*4840*) AddTo (T 389) (Plain (Einsum [(T 384,[0;1;2;3])] [0;1;2;3]));
  (*4841*) Del (T 384);
  (*4842*) AddTo (T 389) (Plain (Einsum [(T 386,[0;1;2;3])] [0;1;3;2]));
  (*4843*) Del (T 386);
  (*4844*) AddTo (T 389) (Plain (Einsum [(T 388,[0;1;2;3])] [0;1;2;3]));
  (*4845*) Del (T 388);
  (*4846*) AddTo (T 389) (Plain (Einsum [(n_l1'aa,[0;1]); (T 362,[2;3])] [1;2;0;3]));
  (*4847*) AddTo n_l2new_aaaa (Plain (Einsum [(T 389,[0;1;2;3])] [2;3;0;1]));
  (*4848*) AddTo n_l2new_aaaa (Times (Einsum [(T 389,[0;1;2;3])] [3;2;0;1]) (-1) 1);
  (*4849*) AddTo n_l2new_aaaa (Times (Einsum [(T 389,[0;1;2;3])] [2;3;1;0]) (-1) 1);
  (*4850*) AddTo n_l2new_aaaa (Plain (Einsum [(T 389,[0;1;2;3])] [3;2;1;0]));
  (*4851*) Del (T 389);
  (*4852*) Assign (T 390) (Plain (Zeros [4;4]));
  (*4853*) AddTo (T 390) (Plain (Einsum [(n_f'aa'ov,[0;1]); (n_t1'aa,[2;1])] [0;2]));
  (*4854*) Assign (T 391) (Plain (Zeros [4;4;5;5]));
  (*4855*) AddTo (T 391) (Plain (Einsum [(T 390,[0;1]); (n_l2'aaaa,[2;3;4;1])] [0;4;2;3]));
  (*4856*) Assign (T 392) (Plain (Zeros [4;4;5;5]));
  (*4857*) AddTo (T 392) (Plain (Einsum [(n_l2'aaaa,[0;1;2;3]); (T 254,[2;4;3;5])] [4;5;0;1]));
  (*4858*) Assign (T 393) (Plain (Zeros [6;7;4;4]));
  (*4859*) AddTo (T 393) (Plain (Einsum [(n_f'aa'ov,[0;1]); (n_t2'abab,[2;3;1;4])] [3;4;0;2]));
  (*4860*) Assign (T 394) (Plain (Zeros [4;4;5;5]));
  (*4861*) AddTo (T 394) (Plain (Einsum [(T 393,[0;1;2;3]); (n_l3'abaaba,[4;1;5;6;0;3])] [2;6;4;5]));
  (*4862*) Del (T 393);
  (*4863*) Assign (T 395) (Plain (Zeros [4;4;4;5]));
  (*4864*) AddTo (T 395) (Plain (Einsum [(n_f'aa'ov,[0;1]); (n_t2'aaaa,[2;3;4;1])] [0;2;3;4]));
  (*4865*) Assign (T 396) (Plain (Zeros [4;4;5;5]));
  (*4866*) AddTo (T 396) (Times (Einsum [(T 395,[0;1;2;3]); (n_l3'aaaaaa,[4;5;3;6;1;2])] [0;6;4;5]) (-1) 1);
  (*4867*) Del (T 395);
  (*4868*) Assign (T 397) (Plain (Zeros [6;7;4;4]));
  (*4869*) AddTo (T 397) (Plain (Einsum [(T 362,[0;1]); (n_t2'abab,[2;3;1;4])] [3;4;2;0]));
  (*4870*) Assign (T 398) (Plain (Zeros [6;7;4;4]));
  (*4871*) AddTo (T 398) (Plain (Einsum [(n_v'aabb'ooov,[0;1;2;3])] [2;3;0;1]));
  (*4872*) AddTo (T 398) (Plain (Einsum [(T 8,[0;1;2;3])] [0;1;2;3]));
  (*4873*) AddTo (T 398) (Plain (Einsum [(T 305,[0;1;2;3])] [0;1;2;3]));
  (*4874*) AddTo (T 398) (Times (Einsum [(T 306,[0;1;2;3])] [0;1;2;3]) (1999999999999921) 1000000000000000);
  (*4875*) AddTo (T 398) (Times (Einsum [(T 307,[0;1;2;3])] [0;1;2;3]) (24999999999999) 12500000000000);
  (*4876*) AddTo (T 398) (Times (Einsum [(T 308,[0;1;2;3])] [0;1;3;2]) (-1) 1);
  (*4877*) AddTo (T 398) (Plain (Einsum [(T 309,[0;1;2;3])] [0;1;3;2]));
  (*4878*) AddTo (T 398) (Times (Einsum [(T 310,[0;1;2;3])] [0;1;2;3]) (-1) 1);
  (*4879*) AddTo (T 398) (Plain (Einsum [(T 397,[0;1;2;3])] [0;1;2;3]));
  (*4880*) Del (T 397);
  (*4881*) AddTo (T 398) (Plain (Einsum [(T 313,[0;1;2;3])] [0;1;3;2]));
  (*4882*) AddTo (T 398) (Times (Einsum [(T 314,[0;1;2;3])] [0;1;3;2]) (-1) 1);
  (*4883*) Assign (T 399) (Plain (Zeros [4;4;5;5]));
  (*4884*) AddTo (T 399) (Times (Einsum [(T 398,[0;1;2;3]); (n_l3'abaaba,[4;1;5;6;0;2])] [6;3;4;5]) (-2) 1);
  (*4885*) Del (T 398);
  (*4886*) Assign (T 400) (Plain (Zeros [4;4;4;5]));
  (*4887*) AddTo (T 400) (Plain (Einsum [(n_v'aaaa'ooov,[0;1;2;3])] [0;1;2;3]));
  (*4888*) AddTo (T 400) (Times (Einsum [(n_v'aaaa'ooov,[0;1;2;3])] [0;2;1;3]) (-1) 1);
  (*4889*) AddTo (T 400) (Times (Einsum [(T 231,[0;1;2;3])] [0;1;2;3]) (-1) 1);
  (*4890*) AddTo (T 400) (Plain (Einsum [(T 231,[0;1;2;3])] [0;2;1;3]));
  (*4891*) Assign (T 401) (Plain (Zeros [4;4;4;5]));
  (*4892*) AddTo (T 401) (Times (Einsum [(n_t2'aaaa,[0;1;2;3]); (T 400,[4;1;5;3])] [0;4;5;2]) (2) 1);
  (*4893*) Del (T 400);
  (*4894*) Assign (T 402) (Plain (Zeros [4;4;4;5]));
  (*4895*) AddTo (T 402) (Plain (Einsum [(n_t2'abab,[0;1;2;3]); (T 9,[1;3;4;5])] [0;4;5;2]));
  (*4896*) Assign (T 403) (Plain (Zeros [4;4;4;5]));
  (*4897*) AddTo (T 403) (Times (Einsum [(T 362,[0;1]); (n_t2'aaaa,[2;3;4;1])] [2;3;0;4]) (-1) 1);
  (*4898*) Assign (T 404) (Plain (Zeros [4;4;5;5]));
  (*4899*) AddTo (T 404) (Plain (Einsum [(n_v'aaaa'ovov,[0;1;2;3])] [0;2;1;3]));
  (*4900*) AddTo (T 404) (Times (Einsum [(n_v'aaaa'oovv,[0;1;2;3])] [0;1;2;3]) (-1) 1);
  (*4901*) AddTo (T 404) (Plain (Einsum [(T 319,[0;1;2;3])] [1;0;2;3]));
  (*4902*) Del (T 319);
  (*4903*) Assign (T 405) (Plain (Zeros [4;4;4;5]));
  (*4904*) AddTo (T 405) (Plain (Einsum [(n_t1'aa,[0;1]); (T 404,[2;3;1;4])] [0;2;3;4]));
  (*4905*) Del (T 404);
  (*4906*) Assign (T 406) (Plain (Zeros [4;4;4;4]));
  (*4907*) AddTo (T 406) (Plain (Einsum [(n_v'aaaa'oooo,[0;1;2;3])] [0;1;2;3]));
  (*4908*) AddTo (T 406) (Plain (Einsum [(T 252,[0;1;2;3])] [3;1;0;2]));
  (*4909*) AddTo (T 406) (Times (Einsum [(T 253,[0;1;2;3])] [2;1;0;3]) (-1) 1);
  (*4910*) AddTo (T 406) (Times (Einsum [(T 254,[0;1;2;3])] [2;0;1;3]) (-1) 1);
  (*4911*) AddTo (T 406) (Plain (Einsum [(T 254,[0;1;2;3])] [3;0;2;1]));
  (*4912*) Assign (T 407) (Plain (Zeros [4;4;4;5]));
  (*4913*) AddTo (T 407) (Plain (Einsum [(n_t1'aa,[0;1]); (T 406,[0;2;3;4])] [2;3;4;1]));
  (*4914*) Del (T 406);
  (*4915*) Assign (T 408) (Plain (Zeros [4;4;4;5]));
  (*4916*) AddTo (T 408) (Times (Einsum [(n_v'aaaa'ooov,[0;1;2;3])] [0;2;1;3]) (-1) 1);
  (*4917*) AddTo (T 408) (Plain (Einsum [(T 316,[0;1;2;3])] [1;0;2;3]));
  (*4918*) AddTo (T 408) (Times (Einsum [(T 317,[0;1;2;3])] [0;1;2;3]) (4999999999999803) 5000000000000000);
  (*4919*) AddTo (T 408) (Times (Einsum [(T 318,[0;1;2;3])] [0;1;2;3]) (2999999999999881) 1000000000000000);
  (*4920*) AddTo (T 408) (Times (Einsum [(T 401,[0;1;2;3])] [0;1;2;3]) (-1) 1);
  (*4921*) Del (T 401);
  (*4922*) AddTo (T 408) (Plain (Einsum [(T 402,[0;1;2;3])] [0;2;1;3]));
  (*4923*) Del (T 402);
  (*4924*) AddTo (T 408) (Plain (Einsum [(T 403,[0;1;2;3])] [1;0;2;3]));
  (*4925*) Del (T 403);
  (*4926*) AddTo (T 408) (Plain (Einsum [(T 405,[0;1;2;3])] [2;0;1;3]));
  (*4927*) Del (T 405);
  (*4928*) AddTo (T 408) (Plain (Einsum [(T 407,[0;1;2;3])] [1;0;2;3]));
  (*4929*) Del (T 407);
  (*4930*) Assign (T 409) (Plain (Zeros [4;4;5;5]));
  (*4931*) AddTo (T 409) (Times (Einsum [(T 408,[0;1;2;3]); (n_l3'aaaaaa,[4;5;3;6;0;1])] [6;2;4;5]) (-6) 1);
  (*4932*) Del (T 408);
  (*4933*) Assign (T 410) (Plain (Zeros [4;4;4;5]));
  (*4934*) AddTo (T 410) (Plain (Einsum [(n_v'aaaa'ooov,[0;1;2;3])] [0;1;2;3]));
  (*4935*) AddTo (T 410) (Plain (Einsum [(T 231,[0;1;2;3])] [0;2;1;3]));
  (*4936*) Assign (T 411) (Plain (Zeros [4;5;5;5]));
  (*4937*) AddTo (T 411) (Times (Einsum [(T 303,[0;1;2;3])] [0;2;1;3]) (-1) 1);
  (*4938*) Del (T 303);
  (*4939*) AddTo (T 411) (Times (Einsum [(T 229,[0;1;2;3])] [0;2;1;3]) (-3) 1);
  (*4940*) Del (T 229);
  (*4941*) Assign (T 412) (Plain (Zeros [4;4;5;5]));
  (*4942*) AddTo (T 412) (Times (Einsum [(T 410,[0;1;2;3]); (T 411,[0;4;5;3])] [1;2;4;5]) (2) 1);
  (*4943*) Del (T 410);
  (*4944*) Assign (T 413) (Plain (Zeros [4;4]));
  (*4945*) AddTo (T 413) (Plain (Einsum [(n_t1'aa,[0;1]); (T 362,[2;1])] [0;2]));
  (*4946*) Assign (T 414) (Plain (Zeros [4;4]));
  (*4947*) AddTo (T 414) (Plain (Einsum [(T 354,[0;1])] [1;0]));
  (*4948*) Del (T 354);
  (*4949*) AddTo (T 414) (Plain (Einsum [(T 355,[0;1])] [0;1]));
  (*4950*) Del (T 355);
  (*4951*) AddTo (T 414) (Times (Einsum [(T 356,[0;1])] [0;1]) (2) 1);
  (*4952*) Del (T 356);
  (*4953*) AddTo (T 414) (Times (Einsum [(T 358,[0;1])] [1;0]) (-1) 1);
  (*4954*) Del (T 358);
  (*4955*) AddTo (T 414) (Plain (Einsum [(T 413,[0;1])] [0;1]));
  (*4956*) Del (T 413);
  (*4957*) Assign (T 415) (Plain (Zeros [4;4;5;5]));
  (*4958*) AddTo (T 415) (Times (Einsum [(T 414,[0;1]); (n_l2'aaaa,[2;3;4;0])] [4;1;2;3]) (-2) 1);
  (*4959*) Assign (T 416) (Plain (Zeros [4;4;5;5]));
  (*4960*) AddTo (T 416) (Times (Einsum [(T 391,[0;1;2;3])] [0;1;3;2]) (2) 1);
  (*4961*) Del (T 391);
  (*4962*) AddTo (T 416) (Times (Einsum [(T 392,[0;1;2;3])] [0;1;3;2]) (-2) 1);
  (*4963*) Del (T 392);
  (*4964*) AddTo (T 416) (Times (Einsum [(T 394,[0;1;2;3])] [0;1;3;2]) (2) 1);
  (*4965*) Del (T 394);
  (*4966*) AddTo (T 416) (Times (Einsum [(T 396,[0;1;2;3])] [0;1;3;2]) (6) 1);
  (*4967*) Del (T 396);
  (*4968*) AddTo (T 416) (Plain (Einsum [(T 399,[0;1;2;3])] [0;1;3;2]));
  (*4969*) Del (T 399);
  (*4970*) AddTo (T 416) (Plain (Einsum [(T 409,[0;1;2;3])] [0;1;2;3]));
  (*4971*) Del (T 409);
  (*4972*) AddTo (T 416) (Times (Einsum [(T 412,[0;1;2;3])] [0;1;2;3]) (-1) 1);
  (*4973*) Del (T 412);
  (*4974*) AddTo (T 416) (Plain (Einsum [(T 415,[0;1;2;3])] [0;1;3;2]));
  (*4975*) Del (T 415);
  (*4976*) AddTo n_l2new_aaaa (Plain (Einsum [(T 416,[0;1;2;3])] [3;2;0;1]));
  (*4977*) AddTo n_l2new_aaaa (Times (Einsum [(T 416,[0;1;2;3])] [3;2;1;0]) (-1) 1);
  (*4978*) Del (T 416);
  (*4979*) Assign (T 417) (Plain (Zeros [4;4;5;5]));
  (*4980*) AddTo (T 417) (Plain (Einsum [(n_f'aa'vv,[0;1]); (n_l2'aaaa,[2;1;3;4])] [3;4;0;2]));
  (*4981*) Assign (T 418) (Plain (Zeros [4;4;5;5]));
  (*4982*) AddTo (T 418) (Plain (Einsum [(T 23,[0;1;2;3]); (T 92,[0;1;4;5;6;3])] [4;5;6;2]));
  (*4983*) Assign (T 419) (Plain (Zeros [6;7;5;5]));
  (*4984*) AddTo (T 419) (Plain (Einsum [(n_t1'bb,[0;1]); (n_v'aabb'vvvv,[2;3;4;1])] [0;4;2;3]));
  (*4985*) Assign (T 420) (Plain (Zeros [6;7;5;5]));
  (*4986*) AddTo (T 420) (Plain (Einsum [(n_t2'bbbb,[0;1;2;3]); (n_v'aabb'vvov,[4;5;1;3])] [0;2;4;5]));
  (*4987*) Assign (T 421) (Plain (Zeros [6;7;5;5]));
  (*4988*) AddTo (T 421) (Plain (Einsum [(n_t2'abab,[0;1;2;3]); (n_v'aabb'ovvv,[0;4;5;3])] [1;5;2;4]));
  (*4989*) Assign (T 422) (Plain (Zeros [6;7;5;5]));
  (*4990*) AddTo (T 422) (Plain (Einsum [(n_v'aabb'ovov,[0;1;2;3]); (n_t3'babbab,[4;0;2;5;6;3])] [4;5;6;1]));
  (*4991*) Assign (T 423) (Plain (Zeros [6;7;5;5]));
  (*4992*) AddTo (T 423) (Times (Einsum [(n_v'aaaa'ovov,[0;1;2;3]); (n_t3'abaaba,[0;4;2;5;6;1])] [4;6;5;3]) (-1) 1);
  (*4993*) Assign (T 424) (Plain (Zeros [4;5;5;5]));
  (*4994*) AddTo (T 424) (Times (Einsum [(n_v'aaaa'ovvv,[0;1;2;3])] [0;1;2;3]) (-1) 1);
  (*4995*) AddTo (T 424) (Plain (Einsum [(n_v'aaaa'ovvv,[0;1;2;3])] [0;2;3;1]));
  (*4996*) Assign (T 425) (Plain (Zeros [6;7;5;5]));
  (*4997*) AddTo (T 425) (Plain (Einsum [(n_t2'abab,[0;1;2;3]); (T 424,[0;2;4;5])] [1;3;4;5]));
  (*4998*) Del (T 424);
  (*4999*) Assign (T 426) (Plain (Zeros [6;7;5;5]));
  (*5000*) AddTo (T 426) (Plain (Einsum [(n_t2'abab,[0;1;2;3]); (T 40,[1;4;0;5])] [4;3;2;5]));
  (*5001*) Assign (T 427) (Plain (Zeros [6;7;5;5]));
  (*5002*) AddTo (T 427) (Plain (Einsum [(n_v'aabb'vvov,[0;1;2;3])] [2;3;0;1]));
  (*5003*) AddTo (T 427) (Plain (Einsum [(T 419,[0;1;2;3])] [0;1;3;2]));
  (*5004*) AddTo (T 427) (Times (Einsum [(T 420,[0;1;2;3])] [0;1;3;2]) (2) 1);
  (*5005*) AddTo (T 427) (Times (Einsum [(T 421,[0;1;2;3])] [0;1;3;2]) (-1) 1);
  (*5006*) AddTo (T 427) (Times (Einsum [(T 422,[0;1;2;3])] [0;1;3;2]) (-1999999999999921) 1000000000000000);
  (*5007*) AddTo (T 427) (Times (Einsum [(T 423,[0;1;2;3])] [0;1;3;2]) (-24999999999999) 12500000000000);
  (*5008*) AddTo (T 427) (Times (Einsum [(T 425,[0;1;2;3])] [0;1;3;2]) (-1) 1);
  (*5009*) Del (T 425);
  (*5010*) AddTo (T 427) (Plain (Einsum [(T 426,[0;1;2;3])] [0;1;3;2]));
  (*5011*) Assign (T 428) (Plain (Zeros [4;4;5;5]));
  (*5012*) AddTo (T 428) (Times (Einsum [(T 427,[0;1;2;3]); (n_l3'abaaba,[4;1;3;5;0;6])] [5;6;4;2]) (-2) 1);
  (*5013*) Del (T 427);
  (*5014*) Assign (T 429) (Plain (Zeros [4;5;5;5]));
  (*5015*) AddTo (T 429) (Plain (Einsum [(n_t1'aa,[0;1]); (n_v'aaaa'vvvv,[2;3;4;1])] [0;2;3;4]));
  (*5016*) Assign (T 430) (Plain (Zeros [4;5;5;5]));
  (*5017*) AddTo (T 430) (Plain (Einsum [(n_t2'abab,[0;1;2;3]); (n_v'aabb'vvov,[4;5;1;3])] [0;2;4;5]));
  (*5018*) Assign (T 431) (Plain (Zeros [4;5;5;5]));
  (*5019*) AddTo (T 431) (Plain (Einsum [(n_v'aabb'ovov,[0;1;2;3]); (n_t3'abaaba,[4;2;0;5;3;6])] [4;5;6;1]));
  (*5020*) Assign (T 432) (Plain (Zeros [4;5;5;5]));
  (*5021*) AddTo (T 432) (Plain (Einsum [(n_v'aaaa'ovov,[0;1;2;3]); (n_t3'aaaaaa,[4;0;2;5;6;3])] [4;5;6;1]));
  (*5022*) Assign (T 433) (Plain (Zeros [4;5;5;5]));
  (*5023*) AddTo (T 433) (Plain (Einsum [(n_v'aaaa'ovvv,[0;1;2;3])] [0;1;2;3]));
  (*5024*) AddTo (T 433) (Times (Einsum [(n_v'aaaa'ovvv,[0;1;2;3])] [0;2;1;3]) (-1) 1);
  (*5025*) Assign (T 434) (Plain (Zeros [4;5;5;5]));
  (*5026*) AddTo (T 434) (Times (Einsum [(n_t2'aaaa,[0;1;2;3]); (T 433,[1;3;4;5])] [0;2;4;5]) (2) 1);
  (*5027*) Assign (T 435) (Plain (Zeros [4;4;4;5]));
  (*5028*) AddTo (T 435) (Plain (Einsum [(n_v'aaaa'ooov,[0;1;2;3])] [0;1;2;3]));
  (*5029*) AddTo (T 435) (Times (Einsum [(T 231,[0;1;2;3])] [1;0;2;3]) (-1) 1);
  (*5030*) Assign (T 436) (Plain (Zeros [4;5;5;5]));
  (*5031*) AddTo (T 436) (Plain (Einsum [(n_t2'aaaa,[0;1;2;3]); (T 435,[0;4;1;5])] [4;2;3;5]));
  (*5032*) Assign (T 437) (Plain (Zeros [4;5;5;5]));
  (*5033*) AddTo (T 437) (Times (Einsum [(n_v'aaaa'ovvv,[0;1;2;3])] [0;1;2;3]) (-1) 1);
  (*5034*) AddTo (T 437) (Plain (Einsum [(T 429,[0;1;2;3])] [0;2;3;1]));
  (*5035*) AddTo (T 437) (Times (Einsum [(T 430,[0;1;2;3])] [0;1;3;2]) (-1) 1);
  (*5036*) AddTo (T 437) (Times (Einsum [(T 431,[0;1;2;3])] [0;2;1;3]) (-4999999999999803) 5000000000000000);
  (*5037*) AddTo (T 437) (Times (Einsum [(T 432,[0;1;2;3])] [0;2;1;3]) (-2999999999999881) 1000000000000000);
  (*5038*) AddTo (T 437) (Times (Einsum [(T 434,[0;1;2;3])] [0;1;3;2]) (-1) 1);
  (*5039*) Del (T 434);
  (*5040*) AddTo (T 437) (Plain (Einsum [(T 436,[0;1;2;3])] [0;2;1;3]));
  (*5041*) Del (T 436);
  (*5042*) Assign (T 438) (Plain (Zeros [4;4;5;5]));
  (*5043*) AddTo (T 438) (Times (Einsum [(T 437,[0;1;2;3]); (n_l3'aaaaaa,[4;1;2;5;6;0])] [5;6;4;3]) (-6) 1);
  (*5044*) Del (T 437);
  (*5045*) Assign (T 439) (Plain (Zeros [6;7;4;5]));
  (*5046*) AddTo (T 439) (Plain (Einsum [(n_t1'bb,[0;1]); (T 40,[0;2;3;4])] [2;1;3;4]));
  (*5047*) Assign (T 440) (Plain (Zeros [6;7;4;5]));
  (*5048*) AddTo (T 440) (Plain (Einsum [(n_v'aabb'ovov,[0;1;2;3])] [2;3;0;1]));
  (*5049*) AddTo (T 440) (Plain (Einsum [(T 239,[0;1;2;3])] [0;1;2;3]));
  (*5050*) AddTo (T 440) (Times (Einsum [(T 240,[0;1;2;3])] [0;1;2;3]) (2) 1);
  (*5051*) AddTo (T 440) (Times (Einsum [(T 242,[0;1;2;3])] [0;1;2;3]) (-1) 1);
  (*5052*) Del (T 242);
  (*5053*) AddTo (T 440) (Times (Einsum [(T 439,[0;1;2;3])] [0;1;2;3]) (-1) 1);
  (*5054*) Del (T 439);
  (*5055*) AddTo n_l2new_abab (Times (Einsum [(T 440,[0;1;2;3]); (T 59,[0;4;5;1;6;2])] [3;5;6;4]) (2) 1);
  (*5056*) Assign (T 441) (Plain (Zeros [4;4;5;5]));
  (*5057*) AddTo (T 441) (Times (Einsum [(T 440,[0;1;2;3]); (T 62,[0;1;4;5;2;6])] [4;5;6;3]) (2) 1);
  (*5058*) Del (T 440);
  (*5059*) Assign (T 442) (Plain (Zeros [4;4;5;5]));
  (*5060*) AddTo (T 442) (Plain (Einsum [(n_t1'aa,[0;1]); (n_v'aaaa'ooov,[2;0;3;4])] [2;3;1;4]));
  (*5061*) Assign (T 443) (Plain (Zeros [4;4;5;5]));
  (*5062*) AddTo (T 443) (Plain (Einsum [(n_v'aaaa'ovov,[0;1;2;3])] [0;2;1;3]));
  (*5063*) AddTo (T 443) (Times (Einsum [(n_v'aaaa'oovv,[0;1;2;3])] [0;1;2;3]) (-1) 1);
  (*5064*) AddTo (T 443) (Times (Einsum [(T 442,[0;1;2;3])] [0;1;2;3]) (-1) 1);
  (*5065*) Del (T 442);
  (*5066*) AddTo (T 443) (Plain (Einsum [(T 233,[0;1;2;3])] [0;1;2;3]));
  (*5067*) AddTo (T 443) (Times (Einsum [(T 235,[0;1;2;3])] [0;1;2;3]) (-1) 1);
  (*5068*) Assign (T 444) (Plain (Zeros [4;4;5;5]));
  (*5069*) AddTo (T 444) (Times (Einsum [(T 443,[0;1;2;3]); (T 194,[4;5;0;1;2;6])] [4;5;6;3]) (6) 1);
  (*5070*) Del (T 443);
  (*5071*) Assign (T 445) (Plain (Zeros [4;4;5;5]));
  (*5072*) AddTo (T 445) (Plain (Einsum [(n_t1'aa,[0;1]); (T 231,[2;3;0;4])] [2;3;1;4]));
  (*5073*) Assign (T 446) (Plain (Zeros [4;4;5;5]));
  (*5074*) AddTo (T 446) (Plain (Einsum [(n_t1'aa,[0;1]); (T 236,[2;1;3;4])] [0;2;3;4]));
  (*5075*) Assign (T 447) (Plain (Zeros [4;4;5;5]));
  (*5076*) AddTo (T 447) (Plain (Einsum [(T 445,[0;1;2;3])] [0;1;2;3]));
  (*5077*) Del (T 445);
  (*5078*) AddTo (T 447) (Times (Einsum [(T 446,[0;1;2;3])] [0;1;3;2]) (-1) 1);
  (*5079*) AddTo n_l2new_abab (Times (Einsum [(T 447,[0;1;2;3]); (T 62,[4;5;0;6;1;2])] [3;5;6;4]) (2) 1);
  (*5080*) Assign (T 448) (Plain (Zeros [4;4;5;5]));
  (*5081*) AddTo (T 448) (Times (Einsum [(T 447,[0;1;2;3]); (T 194,[4;5;0;1;2;6])] [4;5;6;3]) (6) 1);
  (*5082*) Del (T 447);
  (*5083*) Assign (T 449) (Plain (Zeros [6;6;5;5]));
  (*5084*) AddTo (T 449) (Plain (Einsum [(n_v'aabb'vvoo,[0;1;2;3])] [2;3;0;1]));
  (*5085*) AddTo (T 449) (Times (Einsum [(T 24,[0;1;2;3])] [0;1;2;3]) (-1) 1);
  (*5086*) AddTo n_l2new_abab (Times (Einsum [(T 449,[0;1;2;3]); (T 75,[0;4;1;5;6;2])] [3;5;6;4]) (2) 1);
  (*5087*) Assign (T 450) (Plain (Zeros [4;4;5;5]));
  (*5088*) AddTo (T 450) (Times (Einsum [(T 449,[0;1;2;3]); (T 92,[0;1;4;5;2;6])] [4;5;6;3]) (2) 1);
  (*5089*) Del (T 449);
  (*5090*) Assign (T 451) (Plain (Zeros [4;4;5;5]));
  (*5091*) AddTo (T 451) (Times (Einsum [(n_v'aaaa'ovvv,[0;1;2;3]); (T 327,[4;5;0;3])] [4;5;1;2]) (6) 1);
  (*5092*) Assign (T 452) (Plain (Zeros [5;5]));
  (*5093*) AddTo (T 452) (Plain (Einsum [(n_t2'abab,[0;1;2;3]); (n_v'aabb'ovov,[0;4;1;3])] [2;4]));
  (*5094*) Assign (T 453) (Plain (Zeros [5;5]));
  (*5095*) AddTo (T 453) (Times (Einsum [(n_t2'aaaa,[0;1;2;3]); (n_v'aaaa'ovov,[0;3;1;4])] [2;4]) (-1) 1);
  (*5096*) Assign (T 454) (Plain (Zeros [5;5]));
  (*5097*) AddTo (T 454) (Plain (Einsum [(n_t1'aa,[0;1]); (T 340,[0;1;2;3])] [2;3]));
  (*5098*) Del (T 340);
  (*5099*) Assign (T 455) (Plain (Zeros [5;5]));
  (*5100*) AddTo (T 455) (Times (Einsum [(T 352,[0;1])] [1;0]) (-1) 1);
  (*5101*) AddTo (T 455) (Plain (Einsum [(T 452,[0;1])] [1;0]));
  (*5102*) AddTo (T 455) (Times (Einsum [(T 453,[0;1])] [1;0]) (2) 1);
  (*5103*) AddTo (T 455) (Times (Einsum [(T 454,[0;1])] [1;0]) (-1) 1);
  (*5104*) Del (T 454);
  (*5105*) Assign (T 456) (Plain (Zeros [4;4;5;5]));
  (*5106*) AddTo (T 456) (Times (Einsum [(T 455,[0;1]); (n_l2'aaaa,[2;1;3;4])] [3;4;2;0]) (-2) 1);
  (*5107*) Assign (T 457) (Plain (Zeros [4;4;5;5]));
  (*5108*) AddTo (T 457) (Times (Einsum [(n_v'aaaa'ovov,[0;1;2;3]); (T 335,[0;4;5;2])] [4;5;3;1]) (2) 1);
  (*5109*) Del (T 335);
  (*5110*) Assign (T 458) (Plain (Zeros [4;4;5;5]));
  (*5111*) AddTo (T 458) (Times (Einsum [(T 362,[0;1]); (T 290,[2;3;0;4])] [2;3;4;1]) (2) 1);
  (*5112*) Assign (T 459) (Plain (Zeros [4;4;5;5]));
  (*5113*) AddTo (T 459) (Times (Einsum [(n_f'aa'ov,[0;1]); (T 301,[2;3;0;4])] [2;3;4;1]) (6) 1);
  (*5114*) Del (T 301);
  (*5115*) Assign (T 460) (Plain (Zeros [4;4;5;5]));
  (*5116*) AddTo (T 460) (Times (Einsum [(n_v'aaaa'ovov,[0;1;2;3])] [0;2;1;3]) (-1) 1);
  (*5117*) AddTo (T 460) (Times (Einsum [(T 417,[0;1;2;3])] [1;0;3;2]) (2) 1);
  (*5118*) Del (T 417);
  (*5119*) AddTo (T 460) (Times (Einsum [(T 418,[0;1;2;3])] [0;1;3;2]) (-2) 1);
  (*5120*) Del (T 418);
  (*5121*) AddTo (T 460) (Plain (Einsum [(T 428,[0;1;2;3])] [1;0;3;2]));
  (*5122*) Del (T 428);
  (*5123*) AddTo (T 460) (Times (Einsum [(T 438,[0;1;2;3])] [0;1;3;2]) (-1) 1);
  (*5124*) Del (T 438);
  (*5125*) AddTo (T 460) (Times (Einsum [(T 441,[0;1;2;3])] [0;1;3;2]) (-1) 1);
  (*5126*) Del (T 441);
  (*5127*) AddTo (T 460) (Times (Einsum [(T 444,[0;1;2;3])] [0;1;3;2]) (-1) 1);
  (*5128*) Del (T 444);
  (*5129*) AddTo (T 460) (Plain (Einsum [(T 448,[0;1;2;3])] [0;1;3;2]));
  (*5130*) Del (T 448);
  (*5131*) AddTo (T 460) (Plain (Einsum [(T 450,[0;1;2;3])] [0;1;3;2]));
  (*5132*) Del (T 450);
  (*5133*) AddTo (T 460) (Plain (Einsum [(T 451,[0;1;2;3])] [0;1;3;2]));
  (*5134*) Del (T 451);
  (*5135*) AddTo (T 460) (Times (Einsum [(T 456,[0;1;2;3])] [1;0;3;2]) (-1) 1);
  (*5136*) Del (T 456);
  (*5137*) AddTo (T 460) (Plain (Einsum [(T 457,[0;1;2;3])] [0;1;2;3]));
  (*5138*) Del (T 457);
  (*5139*) AddTo (T 460) (Times (Einsum [(T 458,[0;1;2;3])] [1;0;3;2]) (-1) 1);
  (*5140*) Del (T 458);
  (*5141*) AddTo (T 460) (Plain (Einsum [(T 459,[0;1;2;3])] [1;0;2;3]));
  (*5142*) Del (T 459);
  (*5143*) AddTo n_l2new_aaaa (Plain (Einsum [(T 460,[0;1;2;3])] [3;2;0;1]));
  (*5144*) AddTo n_l2new_aaaa (Times (Einsum [(T 460,[0;1;2;3])] [2;3;0;1]) (-1) 1);
  (*5145*) Del (T 460);
  (*5146*) Assign (T 461) (Plain (Zeros [4;4;5;5]));
  (*5147*) AddTo (T 461) (Plain (Einsum [(n_f'aa'oo,[0;1]); (n_l2'aaaa,[2;3;4;1])] [0;4;2;3]));
  (*5148*) AddTo n_l2new_aaaa (Times (Einsum [(T 461,[0;1;2;3])] [3;2;0;1]) (-2) 1);
  (*5149*) AddTo n_l2new_aaaa (Times (Einsum [(T 461,[0;1;2;3])] [3;2;1;0]) (2) 1);
  (*5150*) Del (T 461);
  (*5151*) Assign (T 462) (Plain (Zeros [4;4;4;4]));
  (*5152*) AddTo (T 462) (Times (Einsum [(T 332,[0;1;2;3])] [1;0;3;2]) (-833333333333367) 2500000000000000);
  (*5153*) Del (T 332);
  (*5154*) AddTo (T 462) (Times (Einsum [(n_t1'aa,[0;1]); (T 196,[2;3;4;1])] [2;3;4;0]) (833333333333367) 2500000000000000);
  (*5155*) Del (T 196);
  (*5156*) AddTo (T 462) (Times (Einsum [(T 333,[0;1;2;3])] [0;1;3;2]) (16666666666666677) 50000000000000000);
  (*5157*) Del (T 333);
  (*5158*) AddTo (T 462) (Plain (Einsum [(T 230,[0;1;2;3])] [0;1;3;2]));
  (*5159*) Del (T 230);
  (*5160*) AddTo n_l2new_aaaa (Times (Einsum [(n_v'aaaa'ovov,[0;1;2;3]); (T 462,[4;5;0;2])] [3;1;5;4]) (-2399999999999903) 400000000000000);
  (*5161*) Del (T 462);
  (*5162*) Assign (T 463) (Plain (Zeros [4;4;4;4]));
  (*5163*) AddTo (T 463) (Times (Einsum [(n_v'aaaa'oooo,[0;1;2;3])] [0;1;2;3]) (-1) 1);
  (*5164*) AddTo (T 463) (Times (Einsum [(T 252,[0;1;2;3])] [1;3;0;2]) (-1) 1);
  (*5165*) AddTo (T 463) (Plain (Einsum [(T 253,[0;1;2;3])] [0;3;1;2]));
  (*5166*) AddTo n_l2new_aaaa (Times (Einsum [(n_l2'aaaa,[0;1;2;3]); (T 463,[2;4;3;5])] [0;1;4;5]) (-2) 1);
  (*5167*) Assign (T 464) (Plain (Zeros [7;7;4;5]));
  (*5168*) AddTo (T 464) (Plain (Einsum [(n_t1'aa,[0;1]); (n_v'aabb'vvvv,[2;1;3;4])] [3;4;0;2]));
  (*5169*) Assign (T 465) (Plain (Zeros [7;7;4;5]));
  (*5170*) AddTo (T 465) (Plain (Einsum [(n_t2'abab,[0;1;2;3]); (n_v'aabb'vvov,[4;2;1;5])] [3;5;0;4]));
  (*5171*) Assign (T 466) (Plain (Zeros [7;7;4;5]));
  (*5172*) AddTo (T 466) (Plain (Einsum [(n_t2'aaaa,[0;1;2;3]); (n_v'aabb'ovvv,[1;3;4;5])] [4;5;0;2]));
  (*5173*) Assign (T 467) (Plain (Zeros [7;7;4;5]));
  (*5174*) AddTo (T 467) (Plain (Einsum [(n_v'bbbb'ovov,[0;1;2;3]); (n_t3'babbab,[0;4;2;5;6;3])] [5;1;4;6]));
  (*5175*) Assign (T 468) (Plain (Zeros [7;7;4;5]));
  (*5176*) AddTo (T 468) (Plain (Einsum [(n_v'aabb'ovov,[0;1;2;3]); (n_t3'abaaba,[4;2;0;5;6;1])] [6;3;4;5]));
  (*5177*) Assign (T 469) (Plain (Zeros [7;7;4;5]));
  (*5178*) AddTo (T 469) (Plain (Einsum [(n_t2'abab,[0;1;2;3]); (T 218,[1;4;3;5])] [4;5;0;2]));
  (*5179*) Assign (T 470) (Plain (Zeros [7;7;4;5]));
  (*5180*) AddTo (T 470) (Plain (Einsum [(n_t2'abab,[0;1;2;3]); (T 9,[1;4;0;5])] [3;4;5;2]));
  (*5181*) Assign (T 471) (Plain (Zeros [7;7;4;5]));
  (*5182*) AddTo (T 471) (Plain (Einsum [(n_v'aabb'ovvv,[0;1;2;3])] [2;3;0;1]));
  (*5183*) AddTo (T 471) (Plain (Einsum [(T 464,[0;1;2;3])] [1;0;2;3]));
  (*5184*) AddTo (T 471) (Times (Einsum [(T 465,[0;1;2;3])] [0;1;2;3]) (-1) 1);
  (*5185*) AddTo (T 471) (Times (Einsum [(T 466,[0;1;2;3])] [1;0;2;3]) (2) 1);
  (*5186*) AddTo (T 471) (Times (Einsum [(T 467,[0;1;2;3])] [0;1;2;3]) (-24999999999999) 12500000000000);
  (*5187*) AddTo (T 471) (Times (Einsum [(T 468,[0;1;2;3])] [0;1;2;3]) (-1999999999999921) 1000000000000000);
  (*5188*) AddTo (T 471) (Times (Einsum [(T 469,[0;1;2;3])] [1;0;2;3]) (-1) 1);
  (*5189*) AddTo (T 471) (Plain (Einsum [(T 470,[0;1;2;3])] [0;1;2;3]));
  (*5190*) AddTo n_l2new_abab (Times (Einsum [(T 471,[0;1;2;3]); (n_l3'abaaba,[4;0;3;5;6;2])] [4;1;5;6]) (2) 1);
  (*5191*) Del (T 471);
  (*5192*) Assign (T 472) (Plain (Zeros [6;7;5;5]));
  (*5193*) AddTo (T 472) (Plain (Einsum [(n_v'aabb'vvov,[0;1;2;3])] [2;3;0;1]));
  (*5194*) AddTo (T 472) (Plain (Einsum [(T 419,[0;1;2;3])] [0;1;3;2]));
  (*5195*) Del (T 419);
  (*5196*) AddTo (T 472) (Times (Einsum [(T 420,[0;1;2;3])] [0;1;3;2]) (2) 1);
  (*5197*) Del (T 420);
  (*5198*) AddTo (T 472) (Times (Einsum [(T 421,[0;1;2;3])] [0;1;2;3]) (-1) 1);
  (*5199*) Del (T 421);
  (*5200*) AddTo (T 472) (Times (Einsum [(T 422,[0;1;2;3])] [0;1;2;3]) (-1999999999999921) 1000000000000000);
  (*5201*) Del (T 422);
  (*5202*) AddTo (T 472) (Times (Einsum [(T 423,[0;1;2;3])] [0;1;2;3]) (-24999999999999) 12500000000000);
  (*5203*) Del (T 423);
  (*5204*) AddTo (T 472) (Times (Einsum [(n_t2'abab,[0;1;2;3]); (T 236,[0;2;4;5])] [1;3;5;4]) (-1) 1);
  (*5205*) AddTo (T 472) (Plain (Einsum [(T 426,[0;1;2;3])] [0;1;2;3]));
  (*5206*) Del (T 426);
  (*5207*) AddTo n_l2new_abab (Times (Einsum [(T 472,[0;1;2;3]); (n_l3'babbab,[4;2;1;5;6;0])] [3;4;6;5]) (2) 1);
  (*5208*) Del (T 472);
  (*5209*) Assign (T 473) (Plain (Zeros [4;5;5;5]));
  (*5210*) AddTo (T 473) (Times (Einsum [(n_v'aaaa'ovvv,[0;1;2;3])] [0;2;1;3]) (1) 2);
  (*5211*) AddTo (T 473) (Times (Einsum [(T 429,[0;1;2;3])] [0;3;2;1]) (-1) 2);
  (*5212*) Del (T 429);
  (*5213*) AddTo (T 473) (Times (Einsum [(T 430,[0;1;2;3])] [0;1;3;2]) (-1) 2);
  (*5214*) Del (T 430);
  (*5215*) AddTo (T 473) (Times (Einsum [(T 431,[0;1;2;3])] [0;2;1;3]) (-24999999999999) 50000000000000);
  (*5216*) Del (T 431);
  (*5217*) AddTo (T 473) (Times (Einsum [(T 432,[0;1;2;3])] [0;2;1;3]) (-2999999999999881) 2000000000000000);
  (*5218*) Del (T 432);
  (*5219*) AddTo (T 473) (Times (Einsum [(n_t2'aaaa,[0;1;2;3]); (T 433,[1;3;4;5])] [0;2;5;4]) (-1) 1);
  (*5220*) Del (T 433);
  (*5221*) AddTo (T 473) (Times (Einsum [(n_t2'aaaa,[0;1;2;3]); (T 435,[0;4;1;5])] [4;2;3;5]) (-1) 2);
  (*5222*) Del (T 435);
  (*5223*) AddTo n_l2new_abab (Times (Einsum [(T 473,[0;1;2;3]); (n_l3'abaaba,[1;4;2;5;6;0])] [3;4;5;6]) (4) 1);
  (*5224*) Del (T 473);
  (*5225*) Assign (T 474) (Plain (Zeros [6;7;7;7]));
  (*5226*) AddTo (T 474) (Plain (Einsum [(n_t1'bb,[0;1]); (n_v'bbbb'vvvv,[2;3;4;1])] [0;2;3;4]));
  (*5227*) Assign (T 475) (Plain (Zeros [6;7;7;7]));
  (*5228*) AddTo (T 475) (Plain (Einsum [(n_t2'abab,[0;1;2;3]); (n_v'aabb'ovvv,[0;2;4;5])] [1;3;4;5]));
  (*5229*) Assign (T 476) (Plain (Zeros [6;7;7;7]));
  (*5230*) AddTo (T 476) (Plain (Einsum [(n_v'bbbb'ovov,[0;1;2;3]); (n_t3'bbbbbb,[4;0;2;5;6;3])] [4;5;6;1]));
  (*5231*) Assign (T 477) (Plain (Zeros [6;7;7;7]));
  (*5232*) AddTo (T 477) (Plain (Einsum [(n_v'aabb'ovov,[0;1;2;3]); (n_t3'babbab,[4;0;2;5;1;6])] [4;5;6;3]));
  (*5233*) Assign (T 478) (Plain (Zeros [6;7;7;7]));
  (*5234*) AddTo (T 478) (Times (Einsum [(n_t2'bbbb,[0;1;2;3]); (T 218,[1;3;4;5])] [0;2;4;5]) (2) 1);
  (*5235*) Assign (T 479) (Plain (Zeros [6;6;6;7]));
  (*5236*) AddTo (T 479) (Plain (Einsum [(n_v'bbbb'ooov,[0;1;2;3])] [0;1;2;3]));
  (*5237*) AddTo (T 479) (Times (Einsum [(T 4,[0;1;2;3])] [1;0;2;3]) (-1) 1);
  (*5238*) Assign (T 480) (Plain (Zeros [6;7;7;7]));
  (*5239*) AddTo (T 480) (Times (Einsum [(n_t2'bbbb,[0;1;2;3]); (T 479,[0;4;1;5])] [4;2;3;5]) (-1) 1);
  (*5240*) Del (T 479);
  (*5241*) Assign (T 481) (Plain (Zeros [6;7;7;7]));
  (*5242*) AddTo (T 481) (Times (Einsum [(n_v'bbbb'ovvv,[0;1;2;3])] [0;1;2;3]) (-1) 1);
  (*5243*) AddTo (T 481) (Plain (Einsum [(T 474,[0;1;2;3])] [0;2;3;1]));
  (*5244*) AddTo (T 481) (Times (Einsum [(T 475,[0;1;2;3])] [0;1;3;2]) (-1) 1);
  (*5245*) AddTo (T 481) (Times (Einsum [(T 476,[0;1;2;3])] [0;2;1;3]) (-2999999999999881) 1000000000000000);
  (*5246*) AddTo (T 481) (Times (Einsum [(T 477,[0;1;2;3])] [0;2;1;3]) (-24999999999999) 25000000000000);
  (*5247*) AddTo (T 481) (Times (Einsum [(T 478,[0;1;2;3])] [0;1;3;2]) (-1) 1);
  (*5248*) AddTo (T 481) (Times (Einsum [(T 480,[0;1;2;3])] [0;2;1;3]) (-1) 1);
  (*5249*) AddTo n_l2new_abab (Times (Einsum [(T 481,[0;1;2;3]); (n_l3'babbab,[1;4;2;5;6;0])] [4;3;6;5]) (2) 1);
  (*5250*) Del (T 481);
  (*5251*) Assign (T 482) (Plain (Zeros [6;7;4;4]));
  (*5252*) AddTo (T 482) (Plain (Einsum [(n_v'aabb'ooov,[0;1;2;3])] [2;3;0;1]));
  (*5253*) AddTo (T 482) (Plain (Einsum [(T 8,[0;1;2;3])] [0;1;2;3]));
  (*5254*) AddTo (T 482) (Plain (Einsum [(T 305,[0;1;2;3])] [0;1;2;3]));
  (*5255*) Del (T 305);
  (*5256*) AddTo (T 482) (Times (Einsum [(T 306,[0;1;2;3])] [0;1;2;3]) (1999999999999921) 1000000000000000);
  (*5257*) Del (T 306);
  (*5258*) AddTo (T 482) (Times (Einsum [(T 307,[0;1;2;3])] [0;1;2;3]) (24999999999999) 12500000000000);
  (*5259*) Del (T 307);
  (*5260*) AddTo (T 482) (Times (Einsum [(T 308,[0;1;2;3])] [0;1;3;2]) (-1) 1);
  (*5261*) Del (T 308);
  (*5262*) AddTo (T 482) (Plain (Einsum [(T 309,[0;1;2;3])] [0;1;3;2]));
  (*5263*) Del (T 309);
  (*5264*) AddTo (T 482) (Times (Einsum [(T 310,[0;1;2;3])] [0;1;2;3]) (-1) 1);
  (*5265*) Del (T 310);
  (*5266*) AddTo (T 482) (Plain (Einsum [(T 311,[0;1;2;3])] [0;1;2;3]));
  (*5267*) Del (T 311);
  (*5268*) AddTo (T 482) (Plain (Einsum [(T 313,[0;1;2;3])] [0;1;3;2]));
  (*5269*) Del (T 313);
  (*5270*) AddTo (T 482) (Times (Einsum [(T 314,[0;1;2;3])] [0;1;3;2]) (-1) 1);
  (*5271*) Del (T 314);
  (*5272*) AddTo n_l2new_abab (Times (Einsum [(T 482,[0;1;2;3]); (n_l3'babbab,[4;5;1;6;2;0])] [5;4;3;6]) (-2) 1);
  (*5273*) Del (T 482);
  (*5274*) Assign (T 483) (Plain (Zeros [6;6;4;5]));
  (*5275*) AddTo (T 483) (Times (Einsum [(n_v'aabb'ovoo,[0;1;2;3])] [2;3;0;1]) (1) 2);
  (*5276*) AddTo (T 483) (Times (Einsum [(T 119,[0;1;2;3])] [1;0;2;3]) (1) 2);
  (*5277*) AddTo (T 483) (Times (Einsum [(T 120,[0;1;2;3])] [0;1;2;3]) (1) 2);
  (*5278*) AddTo (T 483) (Times (Einsum [(T 121,[0;1;2;3])] [0;1;2;3]) (24999999999999) 25000000000000);
  (*5279*) AddTo (T 483) (Times (Einsum [(T 122,[0;1;2;3])] [0;1;2;3]) (1999999999999921) 2000000000000000);
  (*5280*) AddTo (T 483) (Times (Einsum [(n_t2'abab,[0;1;2;3]); (T 123,[4;5;1;3])] [5;4;0;2]) (-1) 2);
  (*5281*) Del (T 123);
  (*5282*) AddTo (T 483) (Plain (Einsum [(n_t2'aaaa,[0;1;2;3]); (T 40,[4;5;1;3])] [5;4;0;2]));
  (*5283*) AddTo (T 483) (Times (Einsum [(n_t2'abab,[0;1;2;3]); (T 9,[4;3;0;5])] [1;4;5;2]) (-1) 2);
  (*5284*) AddTo (T 483) (Times (Einsum [(T 22,[0;1]); (n_t2'abab,[2;3;4;1])] [3;0;2;4]) (1) 2);
  (*5285*) Del (T 22);
  (*5286*) AddTo (T 483) (Times (Einsum [(n_t1'bb,[0;1]); (T 127,[2;1;3;4])] [0;2;3;4]) (1) 2);
  (*5287*) Del (T 127);
  (*5288*) AddTo (T 483) (Times (Einsum [(n_t1'aa,[0;1]); (T 129,[2;3;0;4])] [3;2;4;1]) (-1) 2);
  (*5289*) Del (T 129);
  (*5290*) AddTo n_l2new_abab (Times (Einsum [(T 483,[0;1;2;3]); (n_l3'abaaba,[4;5;3;6;0;2])] [4;5;6;1]) (-4) 1);
  (*5291*) Del (T 483);
  (*5292*) Assign (T 484) (Plain (Zeros [4;4;4;5]));
  (*5293*) AddTo (T 484) (Times (Einsum [(n_v'aaaa'ooov,[0;1;2;3])] [0;2;1;3]) (1666666666666733) 5000000000000000);
  (*5294*) AddTo (T 484) (Times (Einsum [(T 316,[0;1;2;3])] [2;1;0;3]) (1666666666666733) 5000000000000000);
  (*5295*) Del (T 316);
  (*5296*) AddTo (T 484) (Times (Einsum [(T 317,[0;1;2;3])] [2;1;0;3]) (-16666666666666663) 50000000000000000);
  (*5297*) Del (T 317);
  (*5298*) AddTo (T 484) (Times (Einsum [(T 318,[0;1;2;3])] [2;1;0;3]) (-1) 1);
  (*5299*) Del (T 318);
  (*5300*) AddTo (T 484) (Times (Einsum [(n_t2'aaaa,[0;1;2;3]); (T 232,[4;5;1;3])] [5;0;4;2]) (-1666666666666733) 2500000000000000);
  (*5301*) Del (T 232);
  (*5302*) AddTo (T 484) (Times (Einsum [(n_t2'abab,[0;1;2;3]); (T 32,[1;3;4;5])] [5;0;4;2]) (1666666666666733) 5000000000000000);
  (*5303*) AddTo (T 484) (Times (Einsum [(T 246,[0;1]); (n_t2'aaaa,[2;3;4;1])] [0;2;3;4]) (1666666666666733) 5000000000000000);
  (*5304*) Del (T 246);
  (*5305*) AddTo (T 484) (Times (Einsum [(n_t1'aa,[0;1]); (T 320,[2;3;1;4])] [3;2;0;4]) (1666666666666733) 5000000000000000);
  (*5306*) Del (T 320);
  (*5307*) AddTo (T 484) (Times (Einsum [(n_t1'aa,[0;1]); (T 255,[0;2;3;4])] [3;2;4;1]) (-1666666666666733) 5000000000000000);
  (*5308*) Del (T 255);
  (*5309*) AddTo n_l2new_abab (Times (Einsum [(T 484,[0;1;2;3]); (n_l3'abaaba,[4;5;3;1;6;2])] [4;5;0;6]) (2999999999999881) 500000000000000);
  (*5310*) Del (T 484);
  (*5311*) Assign (T 485) (Plain (Zeros [6;6;6;7]));
  (*5312*) AddTo (T 485) (Times (Einsum [(n_v'bbbb'ooov,[0;1;2;3])] [0;1;2;3]) (-1) 1);
  (*5313*) AddTo (T 485) (Plain (Einsum [(T 147,[0;1;2;3])] [2;1;0;3]));
  (*5314*) AddTo (T 485) (Times (Einsum [(T 148,[0;1;2;3])] [2;1;0;3]) (-2999999999999881) 1000000000000000);
  (*5315*) AddTo (T 485) (Times (Einsum [(T 149,[0;1;2;3])] [2;1;0;3]) (-24999999999999) 25000000000000);
  (*5316*) AddTo (T 485) (Times (Einsum [(T 150,[0;1;2;3])] [2;0;1;3]) (-1) 1);
  (*5317*) AddTo (T 485) (Plain (Einsum [(T 151,[0;1;2;3])] [2;0;1;3]));
  (*5318*) Del (T 151);
  (*5319*) AddTo (T 485) (Plain (Einsum [(T 152,[0;1;2;3])] [2;1;0;3]));
  (*5320*) Del (T 152);
  (*5321*) AddTo (T 485) (Plain (Einsum [(T 155,[0;1;2;3])] [2;1;0;3]));
  (*5322*) Del (T 155);
  (*5323*) AddTo (T 485) (Plain (Einsum [(T 156,[0;1;2;3])] [1;2;0;3]));
  (*5324*) Del (T 156);
  (*5325*) AddTo n_l2new_abab (Times (Einsum [(T 485,[0;1;2;3]); (n_l3'babbab,[4;5;3;1;6;2])] [5;4;6;0]) (2) 1);
  (*5326*) Del (T 485);
  (*5327*) Assign (T 486) (Plain (Zeros [6;7;4;5]));
  (*5328*) AddTo (T 486) (Plain (Einsum [(n_t1'aa,[0;1]); (T 9,[2;3;0;4])] [2;3;4;1]));
  (*5329*) Del (T 9);
  (*5330*) Assign (T 487) (Plain (Zeros [6;7;4;5]));
  (*5331*) AddTo (T 487) (Plain (Einsum [(n_v'aabb'ovov,[0;1;2;3])] [2;3;0;1]));
  (*5332*) AddTo (T 487) (Plain (Einsum [(T 16,[0;1;2;3])] [0;1;2;3]));
  (*5333*) AddTo (T 487) (Times (Einsum [(T 17,[0;1;2;3])] [0;1;2;3]) (2) 1);
  (*5334*) AddTo (T 487) (Times (Einsum [(T 18,[0;1;2;3])] [0;1;2;3]) (-1) 1);
  (*5335*) Del (T 18);
  (*5336*) AddTo (T 487) (Times (Einsum [(T 486,[0;1;2;3])] [0;1;2;3]) (-1) 1);
  (*5337*) Del (T 486);
  (*5338*) AddTo n_l2new_abab (Times (Einsum [(T 487,[0;1;2;3]); (T 92,[4;0;2;5;6;3])] [6;1;5;4]) (2) 1);
  (*5339*) Assign (T 488) (Plain (Zeros [4;4;5;5]));
  (*5340*) AddTo (T 488) (Plain (Einsum [(n_v'aaaa'ovov,[0;1;2;3])] [0;2;1;3]));
  (*5341*) AddTo (T 488) (Times (Einsum [(n_v'aaaa'oovv,[0;1;2;3])] [0;1;2;3]) (-1) 1);
  (*5342*) AddTo (T 488) (Plain (Einsum [(n_t1'aa,[0;1]); (n_v'aaaa'ooov,[2;3;0;4])] [2;3;1;4]));
  (*5343*) AddTo (T 488) (Plain (Einsum [(T 233,[0;1;2;3])] [0;1;2;3]));
  (*5344*) AddTo (T 488) (Times (Einsum [(T 235,[0;1;2;3])] [0;1;2;3]) (-1) 1);
  (*5345*) Del (T 235);
  (*5346*) AddTo n_l2new_abab (Times (Einsum [(T 488,[0;1;2;3]); (T 62,[4;5;0;6;1;2])] [3;5;6;4]) (-2) 1);
  (*5347*) Del (T 488);
  (*5348*) Assign (T 489) (Plain (Zeros [6;6;7;7]));
  (*5349*) AddTo (T 489) (Plain (Einsum [(n_v'bbbb'ovov,[0;1;2;3])] [0;2;1;3]));
  (*5350*) AddTo (T 489) (Times (Einsum [(n_v'bbbb'oovv,[0;1;2;3])] [0;1;2;3]) (-1) 1);
  (*5351*) AddTo (T 489) (Plain (Einsum [(n_t1'bb,[0;1]); (n_v'bbbb'ooov,[2;3;0;4])] [2;3;1;4]));
  (*5352*) AddTo (T 489) (Plain (Einsum [(T 10,[0;1;2;3])] [0;1;2;3]));
  (*5353*) AddTo (T 489) (Times (Einsum [(T 12,[0;1;2;3])] [0;1;2;3]) (-1) 1);
  (*5354*) AddTo n_l2new_abab (Times (Einsum [(T 489,[0;1;2;3]); (T 75,[0;4;1;2;5;6])] [6;3;5;4]) (-2) 1);
  (*5355*) Del (T 489);
  (*5356*) Assign (T 490) (Plain (Zeros [6;6;7;7]));
  (*5357*) AddTo (T 490) (Plain (Einsum [(n_t1'bb,[0;1]); (T 13,[2;1;3;4])] [0;2;3;4]));
  (*5358*) Assign (T 491) (Plain (Zeros [6;6;7;7]));
  (*5359*) AddTo (T 491) (Plain (Einsum [(n_t1'bb,[0;1]); (T 4,[2;3;0;4])] [2;3;1;4]));
  (*5360*) AddTo (T 491) (Times (Einsum [(T 490,[0;1;2;3])] [0;1;3;2]) (-1) 1);
  (*5361*) AddTo n_l2new_abab (Times (Einsum [(T 491,[0;1;2;3]); (T 75,[0;4;1;2;5;6])] [6;3;5;4]) (2) 1);
  (*5362*) Del (T 491);
  (*5363*) Assign (T 492) (Plain (Zeros [6;7;4;5]));
  (*5364*) AddTo (T 492) (Times (Einsum [(T 272,[0;1;2;3])] [0;1;2;3]) (2500000000000099) 5000000000000000);
  (*5365*) Del (T 272);
  (*5366*) AddTo (T 492) (Times (Einsum [(T 273,[0;1;2;3])] [0;1;2;3]) (2500000000000099) 5000000000000000);
  (*5367*) Del (T 273);
  (*5368*) AddTo (T 492) (Times (Einsum [(T 274,[0;1;2;3])] [0;1;2;3]) (7499999999999999) 10000000000000000);
  (*5369*) Del (T 274);
  (*5370*) AddTo (T 492) (Times (Einsum [(T 275,[0;1;2;3])] [0;1;2;3]) (-2500000000000099) 5000000000000000);
  (*5371*) Del (T 275);
  (*5372*) AddTo (T 492) (Plain (Einsum [(T 276,[0;1;2;3])] [0;1;2;3]));
  (*5373*) Del (T 276);
  (*5374*) AddTo (T 492) (Times (Einsum [(T 277,[0;1;2;3])] [0;1;2;3]) (-2500000000000099) 5000000000000000);
  (*5375*) Del (T 277);
  (*5376*) AddTo (T 492) (Times (Einsum [(T 278,[0;1;2;3])] [0;1;2;3]) (7499999999999999) 10000000000000000);
  (*5377*) Del (T 278);
  (*5378*) AddTo (T 492) (Times (Einsum [(n_t1'bb,[0;1]); (T 107,[0;2;3;4])] [2;1;3;4]) (-2500000000000099) 5000000000000000);
  (*5379*) AddTo n_l2new_abab (Times (Einsum [(T 11,[0;1;2;3]); (T 492,[0;2;4;5])] [5;3;4;1]) (-1999999999999921) 500000000000000);
  (*5380*) Del (T 492);
  (*5381*) Assign (T 493) (Plain (Zeros [7;7;4;4]));
  (*5382*) AddTo (T 493) (Plain (Einsum [(n_v'aabb'oovv,[0;1;2;3])] [2;3;0;1]));
  (*5383*) AddTo (T 493) (Times (Einsum [(T 248,[0;1;2;3])] [0;1;2;3]) (-1) 1);
  (*5384*) AddTo n_l2new_abab (Times (Einsum [(T 493,[0;1;2;3]); (T 62,[4;0;2;5;3;6])] [6;1;5;4]) (2) 1);
  (*5385*) Assign (T 494) (Plain (Zeros [4;4;5;5]));
  (*5386*) AddTo (T 494) (Plain (Einsum [(n_l2'aaaa,[0;1;2;3])] [2;3;0;1]));
  (*5387*) AddTo (T 494) (Times (Einsum [(T 283,[0;1;2;3])] [1;0;3;2]) (1) 2);
  (*5388*) Del (T 283);
  (*5389*) AddTo (T 494) (Times (Einsum [(T 284,[0;1;2;3])] [1;0;3;2]) (2) 1);
  (*5390*) Del (T 284);
  (*5391*) AddTo (T 494) (Times (Einsum [(T 285,[0;1;2;3])] [1;0;3;2]) (24999999999999) 50000000000000);
  (*5392*) Del (T 285);
  (*5393*) AddTo (T 494) (Times (Einsum [(T 286,[0;1;2;3])] [1;0;3;2]) (1999999999999921) 1000000000000000);
  (*5394*) Del (T 286);
  (*5395*) AddTo (T 494) (Times (Einsum [(T 287,[0;1;2;3])] [1;0;3;2]) (-1) 1);
  (*5396*) Del (T 287);
  (*5397*) AddTo (T 494) (Times (Einsum [(T 288,[0;1;2;3])] [1;0;3;2]) (8999999999999643) 2000000000000000);
  (*5398*) Del (T 288);
  (*5399*) AddTo (T 494) (Times (Einsum [(T 289,[0;1;2;3])] [1;0;3;2]) (-3) 1);
  (*5400*) Del (T 289);
  (*5401*) AddTo (T 494) (Plain (Einsum [(n_t1'aa,[0;1]); (T 334,[0;2;3;4])] [3;2;1;4]));
  (*5402*) Del (T 334);
  (*5403*) AddTo n_l2new_abab (Times (Einsum [(n_v'aabb'ovov,[0;1;2;3]); (T 494,[0;4;1;5])] [5;3;4;2]) (2) 1);
  (*5404*) Del (T 494);
  (*5405*) Assign (T 495) (Plain (Zeros [6;7;4;4]));
  (*5406*) AddTo (T 495) (Plain (Einsum [(T 65,[0;1;2;3])] [0;1;2;3]));
  (*5407*) Del (T 65);
  (*5408*) AddTo (T 495) (Plain (Einsum [(T 66,[0;1;2;3])] [0;1;2;3]));
  (*5409*) Del (T 66);
  (*5410*) Assign (T 496) (Plain (Zeros [6;7;4;5]));
  (*5411*) AddTo (T 496) (Times (Einsum [(n_t1'aa,[0;1]); (T 495,[2;3;0;4])] [2;3;4;1]) (2) 1);
  (*5412*) Assign (T 497) (Plain (Zeros [6;7;4;5]));
  (*5413*) AddTo (T 497) (Plain (Einsum [(n_l2'abab,[0;1;2;3])] [3;1;2;0]));
  (*5414*) AddTo (T 497) (Times (Einsum [(T 55,[0;1;2;3])] [0;1;2;3]) (2) 1);
  (*5415*) AddTo (T 497) (Times (Einsum [(T 56,[0;1;2;3])] [0;1;2;3]) (2) 1);
  (*5416*) AddTo (T 497) (Times (Einsum [(T 57,[0;1;2;3])] [0;1;2;3]) (2999999999999881) 1000000000000000);
  (*5417*) AddTo (T 497) (Times (Einsum [(T 58,[0;1;2;3])] [0;1;2;3]) (1999999999999921) 500000000000000);
  (*5418*) AddTo (T 497) (Times (Einsum [(T 60,[0;1;2;3])] [0;1;2;3]) (-2) 1);
  (*5419*) AddTo (T 497) (Times (Einsum [(T 61,[0;1;2;3])] [0;1;2;3]) (2999999999999881) 1000000000000000);
  (*5420*) AddTo (T 497) (Times (Einsum [(T 63,[0;1;2;3])] [0;1;2;3]) (-2) 1);
  (*5421*) AddTo (T 497) (Times (Einsum [(T 496,[0;1;2;3])] [0;1;2;3]) (-1) 1);
  (*5422*) Del (T 496);
  (*5423*) AddTo n_l2new_abab (Plain (Einsum [(n_v'aaaa'ovov,[0;1;2;3]); (T 497,[4;5;2;3])] [1;5;0;4]));
  (*5424*) Assign (T 498) (Plain (Zeros [6;6;7;7]));
  (*5425*) AddTo (T 498) (Times (Einsum [(n_l2'bbbb,[0;1;2;3])] [2;3;0;1]) (2) 1);
  (*5426*) AddTo (T 498) (Times (Einsum [(T 82,[0;1;2;3])] [1;0;3;2]) (4) 1);
  (*5427*) AddTo (T 498) (Plain (Einsum [(T 83,[0;1;2;3])] [1;0;3;2]));
  (*5428*) AddTo (T 498) (Times (Einsum [(T 84,[0;1;2;3])] [1;0;3;2]) (8999999999999643) 1000000000000000);
  (*5429*) AddTo (T 498) (Times (Einsum [(T 74,[0;1;2;3])] [1;0;3;2]) (-6) 1);
  (*5430*) AddTo (T 498) (Times (Einsum [(T 85,[0;1;2;3])] [1;0;3;2]) (1999999999999921) 500000000000000);
  (*5431*) AddTo (T 498) (Times (Einsum [(T 76,[0;1;2;3])] [1;0;3;2]) (-2) 1);
  (*5432*) AddTo (T 498) (Times (Einsum [(T 86,[0;1;2;3])] [1;0;3;2]) (24999999999999) 25000000000000);
  (*5433*) AddTo (T 498) (Times (Einsum [(n_t1'bb,[0;1]); (T 158,[0;2;3;4])] [3;2;1;4]) (6) 1);
  (*5434*) AddTo n_l2new_abab (Plain (Einsum [(n_v'aabb'ovov,[0;1;2;3]); (T 498,[2;4;3;5])] [1;5;0;4]));
  (*5435*) Del (T 498);
  (*5436*) Assign (T 499) (Plain (Zeros [6;7;4;5]));
  (*5437*) AddTo (T 499) (Plain (Einsum [(T 55,[0;1;2;3])] [0;1;2;3]));
  (*5438*) Del (T 55);
  (*5439*) AddTo (T 499) (Plain (Einsum [(T 56,[0;1;2;3])] [0;1;2;3]));
  (*5440*) Del (T 56);
  (*5441*) AddTo (T 499) (Times (Einsum [(T 57,[0;1;2;3])] [0;1;2;3]) (2999999999999881) 2000000000000000);
  (*5442*) Del (T 57);
  (*5443*) AddTo (T 499) (Times (Einsum [(T 58,[0;1;2;3])] [0;1;2;3]) (1999999999999921) 1000000000000000);
  (*5444*) Del (T 58);
  (*5445*) AddTo (T 499) (Times (Einsum [(T 60,[0;1;2;3])] [0;1;2;3]) (-1) 1);
  (*5446*) Del (T 60);
  (*5447*) AddTo (T 499) (Times (Einsum [(T 61,[0;1;2;3])] [0;1;2;3]) (2999999999999881) 2000000000000000);
  (*5448*) Del (T 61);
  (*5449*) AddTo (T 499) (Times (Einsum [(T 63,[0;1;2;3])] [0;1;2;3]) (-1) 1);
  (*5450*) Del (T 63);
  (*5451*) AddTo (T 499) (Times (Einsum [(n_t1'aa,[0;1]); (T 495,[2;3;0;4])] [2;3;4;1]) (-1) 1);
  (*5452*) AddTo n_l2new_abab (Times (Einsum [(n_v'aaaa'ovov,[0;1;2;3]); (T 499,[4;5;2;1])] [3;5;0;4]) (-2) 1);
  (*5453*) Del (T 499);
  (*5454*) Assign (T 500) (Plain (Zeros [6;7;7;7]));
  (*5455*) AddTo (T 500) (Times (Einsum [(T 1,[0;1;2;3])] [0;2;1;3]) (-3) 1);
  (*5456*) AddTo (T 500) (Times (Einsum [(T 117,[0;1;2;3])] [0;2;1;3]) (-1) 1);
  (*5457*) AddTo n_l2new_abab (Times (Einsum [(n_v'aabb'ovvv,[0;1;2;3]); (T 500,[4;5;2;3])] [1;5;0;4]) (2) 1);
  (*5458*) Assign (T 501) (Plain (Zeros [7;7;4;4]));
  (*5459*) AddTo (T 501) (Times (Einsum [(T 292,[0;1;2;3])] [0;1;2;3]) (1) 2);
  (*5460*) Del (T 292);
  (*5461*) AddTo (T 501) (Times (Einsum [(T 293,[0;1;2;3])] [0;1;2;3]) (24999999999999) 25000000000000);
  (*5462*) Del (T 293);
  (*5463*) AddTo (T 501) (Plain (Einsum [(T 294,[0;1;2;3])] [0;1;2;3]));
  (*5464*) Del (T 294);
  (*5465*) AddTo (T 501) (Times (Einsum [(T 295,[0;1;2;3])] [0;1;2;3]) (24999999999999) 25000000000000);
  (*5466*) Del (T 295);
  (*5467*) AddTo (T 501) (Plain (Einsum [(T 296,[0;1;2;3])] [0;1;2;3]));
  (*5468*) Del (T 296);
  (*5469*) AddTo (T 501) (Plain (Einsum [(n_t1'bb,[0;1]); (T 495,[0;2;3;4])] [2;1;3;4]));
  (*5470*) Del (T 495);
  (*5471*) AddTo n_l2new_abab (Times (Einsum [(n_v'aabb'ovov,[0;1;2;3]); (T 501,[4;3;5;0])] [1;4;5;2]) (2) 1);
  (*5472*) Del (T 501);
  (*5473*) Assign (T 502) (Plain (Zeros [6;6;5;5]));
  (*5474*) AddTo (T 502) (Plain (Einsum [(T 88,[0;1;2;3])] [0;1;2;3]));
  (*5475*) Del (T 88);
  (*5476*) AddTo (T 502) (Times (Einsum [(T 89,[0;1;2;3])] [0;1;2;3]) (24999999999999) 12500000000000);
  (*5477*) Del (T 89);
  (*5478*) AddTo (T 502) (Times (Einsum [(T 90,[0;1;2;3])] [0;1;2;3]) (2) 1);
  (*5479*) Del (T 90);
  (*5480*) AddTo (T 502) (Times (Einsum [(T 91,[0;1;2;3])] [0;1;2;3]) (24999999999999) 12500000000000);
  (*5481*) Del (T 91);
  (*5482*) AddTo (T 502) (Times (Einsum [(T 93,[0;1;2;3])] [0;1;2;3]) (2) 1);
  (*5483*) Del (T 93);
  (*5484*) AddTo (T 502) (Times (Einsum [(n_t1'aa,[0;1]); (T 107,[2;3;0;4])] [2;3;4;1]) (2) 1);
  (*5485*) Del (T 107);
  (*5486*) AddTo n_l2new_abab (Plain (Einsum [(n_v'aabb'ovov,[0;1;2;3]); (T 502,[4;2;5;1])] [5;3;0;4]));
  (*5487*) Del (T 502);
  (*5488*) Assign (T 503) (Plain (Zeros [6;6;7;7]));
  (*5489*) AddTo (T 503) (Plain (Einsum [(n_v'bbbb'oovv,[0;1;2;3])] [0;1;2;3]));
  (*5490*) AddTo (T 503) (Times (Einsum [(n_v'bbbb'ovov,[0;1;2;3])] [0;2;1;3]) (-1) 1);
  (*5491*) AddTo (T 503) (Times (Einsum [(T 490,[0;1;2;3])] [0;1;3;2]) (-1) 1);
  (*5492*) Del (T 490);
  (*5493*) AddTo n_l2new_abab (Times (Einsum [(n_l2'abab,[0;1;2;3]); (T 503,[3;4;1;5])] [0;5;2;4]) (-1) 1);
  (*5494*) Del (T 503);
  (*5495*) Assign (T 504) (Plain (Zeros [4;4;5;5]));
  (*5496*) AddTo (T 504) (Plain (Einsum [(n_v'aaaa'oovv,[0;1;2;3])] [0;1;2;3]));
  (*5497*) AddTo (T 504) (Times (Einsum [(T 446,[0;1;2;3])] [0;1;3;2]) (-1) 1);
  (*5498*) Del (T 446);
  (*5499*) AddTo n_l2new_abab (Times (Einsum [(n_l2'abab,[0;1;2;3]); (T 504,[2;4;0;5])] [5;1;4;3]) (-1) 1);
  (*5500*) Del (T 504);
  (*5501*) Assign (T 505) (Plain (Zeros [7;7;4;4]));
  (*5502*) AddTo (T 505) (Plain (Einsum [(n_v'aabb'oovv,[0;1;2;3])] [2;3;0;1]));
  (*5503*) AddTo (T 505) (Plain (Einsum [(T 247,[0;1;2;3])] [1;0;2;3]));
  (*5504*) AddTo n_l2new_abab (Times (Einsum [(n_l2'abab,[0;1;2;3]); (T 505,[1;4;2;5])] [0;4;5;3]) (-1) 1);
  (*5505*) Del (T 505);
  (*5506*) Assign (T 506) (Plain (Zeros [6;6;5;5]));
  (*5507*) AddTo (T 506) (Plain (Einsum [(n_v'aabb'vvoo,[0;1;2;3])] [2;3;0;1]));
  (*5508*) AddTo (T 506) (Plain (Einsum [(T 23,[0;1;2;3])] [0;1;3;2]));
  (*5509*) AddTo n_l2new_abab (Times (Einsum [(n_l2'abab,[0;1;2;3]); (T 506,[3;4;0;5])] [5;1;2;4]) (-1) 1);
  (*5510*) Del (T 506);
  (*5511*) Assign (T 507) (Plain (Zeros [6;6;4;4]));
  (*5512*) AddTo (T 507) (Plain (Einsum [(n_v'aabb'oooo,[0;1;2;3])] [2;3;0;1]));
  (*5513*) AddTo (T 507) (Plain (Einsum [(T 30,[0;1;2;3])] [1;0;2;3]));
  (*5514*) Del (T 30);
  (*5515*) AddTo (T 507) (Plain (Einsum [(T 31,[0;1;2;3])] [0;1;2;3]));
  (*5516*) Del (T 31);
  (*5517*) AddTo (T 507) (Plain (Einsum [(T 250,[0;1;2;3])] [0;1;3;2]));
  (*5518*) Del (T 250);
  (*5519*) AddTo n_l2new_abab (Plain (Einsum [(n_l2'abab,[0;1;2;3]); (T 507,[3;4;2;5])] [0;1;5;4]));
  (*5520*) Assign (T 508) (Plain (Zeros [5;5]));
  (*5521*) AddTo (T 508) (Plain (Einsum [(n_t1'aa,[0;1]); (T 236,[0;2;1;3])] [2;3]));
  (*5522*) Del (T 236);
  (*5523*) Assign (T 509) (Plain (Zeros [5;5]));
  (*5524*) AddTo (T 509) (Times (Einsum [(n_f'aa'vv,[0;1])] [0;1]) (-1) 1);
  (*5525*) AddTo (T 509) (Times (Einsum [(T 352,[0;1])] [1;0]) (-1) 1);
  (*5526*) Del (T 352);
  (*5527*) AddTo (T 509) (Plain (Einsum [(T 452,[0;1])] [0;1]));
  (*5528*) Del (T 452);
  (*5529*) AddTo (T 509) (Times (Einsum [(T 453,[0;1])] [0;1]) (2) 1);
  (*5530*) Del (T 453);
  (*5531*) AddTo (T 509) (Times (Einsum [(T 508,[0;1])] [1;0]) (-1) 1);
  (*5532*) Del (T 508);
  (*5533*) AddTo n_l2new_abab (Times (Einsum [(T 509,[0;1]); (n_l2'abab,[0;2;3;4])] [1;2;3;4]) (-1) 1);
  (*5534*) AddTo n_l3new_babbab (Times (Einsum [(T 509,[0;1]); (n_l3'babbab,[2;0;3;4;5;6])] [2;1;3;4;5;6]) (-2) 1);
  (*5535*) Del (T 509);
  (*5536*) Assign (T 510) (Plain (Zeros [7;7]));
  (*5537*) AddTo (T 510) (Plain (Einsum [(n_t2'bbbb,[0;1;2;3]); (n_v'bbbb'ovov,[0;4;1;3])] [2;4]));
  (*5538*) Assign (T 511) (Plain (Zeros [7;7]));
  (*5539*) AddTo (T 511) (Plain (Einsum [(n_t2'abab,[0;1;2;3]); (n_v'aabb'ovov,[0;2;1;4])] [3;4]));
  (*5540*) Assign (T 512) (Plain (Zeros [7;7]));
  (*5541*) AddTo (T 512) (Plain (Einsum [(n_t1'bb,[0;1]); (T 218,[0;1;2;3])] [2;3]));
  (*5542*) Del (T 218);
  (*5543*) Assign (T 513) (Plain (Zeros [7;7]));
  (*5544*) AddTo (T 513) (Times (Einsum [(n_f'bb'vv,[0;1])] [0;1]) (-1) 1);
  (*5545*) AddTo (T 513) (Times (Einsum [(T 217,[0;1])] [1;0]) (-1) 1);
  (*5546*) AddTo (T 513) (Times (Einsum [(T 510,[0;1])] [0;1]) (2) 1);
  (*5547*) AddTo (T 513) (Plain (Einsum [(T 511,[0;1])] [0;1]));
  (*5548*) AddTo (T 513) (Times (Einsum [(T 512,[0;1])] [1;0]) (-1) 1);
  (*5549*) Del (T 512);
  (*5550*) AddTo n_l2new_abab (Times (Einsum [(T 513,[0;1]); (n_l2'abab,[2;0;3;4])] [2;1;3;4]) (-1) 1);
  (*5551*) AddTo n_l3new_abaaba (Times (Einsum [(T 513,[0;1]); (n_l3'abaaba,[2;0;3;4;5;6])] [2;1;3;4;5;6]) (-2) 1);
  (*5552*) Del (T 513);
  (*5553*) Assign (T 514) (Plain (Zeros [5;5]));
  (*5554*) AddTo (T 514) (Times (Einsum [(T 181,[0;1])] [0;1]) (25000000000001) 25000000000000);
  (*5555*) Del (T 181);
  (*5556*) AddTo (T 514) (Times (Einsum [(T 182,[0;1])] [0;1]) (25000000000001) 12500000000000);
  (*5557*) Del (T 182);
  (*5558*) AddTo (T 514) (Plain (Einsum [(T 183,[0;1])] [0;1]));
  (*5559*) Del (T 183);
  (*5560*) AddTo (T 514) (Times (Einsum [(T 184,[0;1])] [0;1]) (19999999999999991) 10000000000000000);
  (*5561*) Del (T 184);
  (*5562*) AddTo (T 514) (Times (Einsum [(T 185,[0;1])] [0;1]) (14999999999999991) 5000000000000000);
  (*5563*) Del (T 185);
  (*5564*) AddTo n_l2new_abab (Times (Einsum [(T 514,[0;1]); (n_v'aabb'ovov,[2;1;3;4])] [0;4;2;3]) (-9999999999999601) 10000000000000000);
  (*5565*) Del (T 514);
  (*5566*) Assign (T 515) (Plain (Zeros [7;7]));
  (*5567*) AddTo (T 515) (Times (Einsum [(T 162,[0;1])] [0;1]) (2) 1);
  (*5568*) AddTo (T 515) (Plain (Einsum [(T 163,[0;1])] [0;1]));
  (*5569*) AddTo (T 515) (Times (Einsum [(T 164,[0;1])] [0;1]) (7499999999999697) 2500000000000000);
  (*5570*) AddTo (T 515) (Times (Einsum [(T 165,[0;1])] [0;1]) (9999999999999597) 5000000000000000);
  (*5571*) AddTo (T 515) (Times (Einsum [(T 212,[0;1])] [0;1]) (9999999999999601) 10000000000000000);
  (*5572*) AddTo n_l2new_abab (Times (Einsum [(T 515,[0;1]); (n_v'aabb'ovov,[2;3;4;1])] [3;0;2;4]) (-1) 1);
  (*5573*) Del (T 515);
  (*5574*) Assign (T 516) (Plain (Zeros [4;4;4;5]));
  (*5575*) AddTo (T 516) (Times (Einsum [(T 231,[0;1;2;3])] [0;1;2;3]) (-1) 1);
  (*5576*) AddTo (T 516) (Plain (Einsum [(T 231,[0;1;2;3])] [0;2;1;3]));
  (*5577*) AddTo n_l2new_abab (Times (Einsum [(T 516,[0;1;2;3]); (T 64,[4;5;0;1])] [3;5;2;4]) (-1) 1);
  (*5578*) AddTo n_l3new_babbab (Times (Einsum [(T 516,[0;1;2;3]); (T 59,[4;5;6;7;0;1])] [6;3;7;5;2;4]) (2) 1);
  (*5579*) Assign (T 517) (Plain (Zeros [6;6;6;7]));
  (*5580*) AddTo (T 517) (Times (Einsum [(T 4,[0;1;2;3])] [0;1;2;3]) (-1) 1);
  (*5581*) AddTo (T 517) (Plain (Einsum [(T 4,[0;1;2;3])] [0;2;1;3]));
  (*5582*) AddTo n_l2new_abab (Plain (Einsum [(T 517,[0;1;2;3]); (T 94,[0;2;4;5])] [5;3;4;1]));
  (*5583*) Del (T 94);
  (*5584*) AddTo n_l3new_abaaba (Times (Einsum [(T 517,[0;1;2;3]); (T 92,[0;1;4;5;6;7])] [6;3;7;5;2;4]) (2) 1);
  (*5585*) Assign (T 518) (Plain (Zeros [4;4]));
  (*5586*) AddTo (T 518) (Times (Einsum [(T 200,[0;1])] [0;1]) (25000000000001) 25000000000000);
  (*5587*) Del (T 200);
  (*5588*) AddTo (T 518) (Times (Einsum [(T 201,[0;1])] [0;1]) (25000000000001) 25000000000000);
  (*5589*) Del (T 201);
  (*5590*) AddTo (T 518) (Times (Einsum [(T 202,[0;1])] [0;1]) (25000000000001) 12500000000000);
  (*5591*) Del (T 202);
  (*5592*) AddTo (T 518) (Plain (Einsum [(T 203,[0;1])] [0;1]));
  (*5593*) Del (T 203);
  (*5594*) AddTo (T 518) (Times (Einsum [(T 204,[0;1])] [0;1]) (19999999999999991) 10000000000000000);
  (*5595*) Del (T 204);
  (*5596*) AddTo (T 518) (Times (Einsum [(T 205,[0;1])] [0;1]) (14999999999999991) 5000000000000000);
  (*5597*) Del (T 205);
  (*5598*) AddTo n_l2new_abab (Times (Einsum [(T 518,[0;1]); (n_v'aabb'ovov,[1;2;3;4])] [2;4;0;3]) (-9999999999999601) 10000000000000000);
  (*5599*) Del (T 518);
  (*5600*) Assign (T 519) (Plain (Zeros [6;6;7;7]));
  (*5601*) AddTo (T 519) (Plain (Einsum [(n_l1'bb,[0;1]); (n_v'bbbb'ovvv,[2;3;4;0])] [1;2;3;4]));
  (*5602*) Assign (T 520) (Plain (Zeros [6;6;7;7]));
  (*5603*) AddTo (T 520) (Plain (Einsum [(n_l2'abab,[0;1;2;3]); (T 16,[4;5;2;0])] [3;4;1;5]));
  (*5604*) Assign (T 521) (Plain (Zeros [6;6;7;7]));
  (*5605*) AddTo (T 521) (Plain (Einsum [(T 64,[0;1;2;3]); (T 8,[4;5;2;3])] [0;4;1;5]));
  (*5606*) Del (T 64);
  (*5607*) Assign (T 522) (Plain (Zeros [6;6;7;7]));
  (*5608*) AddTo (T 522) (Times (Einsum [(T 500,[0;1;2;3]); (T 81,[4;3;1;5])] [4;0;5;2]) (2) 1);
  (*5609*) Del (T 500);
  (*5610*) Assign (T 523) (Plain (Zeros [6;6;7;7]));
  (*5611*) AddTo (T 523) (Times (Einsum [(n_t1'bb,[0;1]); (T 158,[2;0;3;4])] [2;3;1;4]) (3) 1);
  (*5612*) Del (T 158);
  (*5613*) Assign (T 524) (Plain (Zeros [6;6;7;7]));
  (*5614*) AddTo (T 524) (Times (Einsum [(T 82,[0;1;2;3])] [0;1;2;3]) (2) 1);
  (*5615*) Del (T 82);
  (*5616*) AddTo (T 524) (Times (Einsum [(T 83,[0;1;2;3])] [0;1;2;3]) (1) 2);
  (*5617*) Del (T 83);
  (*5618*) AddTo (T 524) (Times (Einsum [(T 84,[0;1;2;3])] [0;1;2;3]) (8999999999999643) 2000000000000000);
  (*5619*) Del (T 84);
  (*5620*) AddTo (T 524) (Times (Einsum [(T 74,[0;1;2;3])] [0;1;2;3]) (-3) 1);
  (*5621*) Del (T 74);
  (*5622*) AddTo (T 524) (Times (Einsum [(T 85,[0;1;2;3])] [0;1;2;3]) (1999999999999921) 1000000000000000);
  (*5623*) Del (T 85);
  (*5624*) AddTo (T 524) (Times (Einsum [(T 76,[0;1;2;3])] [0;1;2;3]) (-1) 1);
  (*5625*) Del (T 76);
  (*5626*) AddTo (T 524) (Times (Einsum [(T 86,[0;1;2;3])] [0;1;2;3]) (24999999999999) 50000000000000);
  (*5627*) Del (T 86);
  (*5628*) AddTo (T 524) (Times (Einsum [(T 523,[0;1;2;3])] [0;1;3;2]) (-1) 1);
  (*5629*) Del (T 523);
  (*5630*) Assign (T 525) (Plain (Zeros [6;6;7;7]));
  (*5631*) AddTo (T 525) (Times (Einsum [(T 11,[0;1;2;3]); (T 524,[4;0;5;2])] [1;4;3;5]) (2) 1);
  (*5632*) Del (T 524);
  (*5633*) Assign (T 526) (Plain (Zeros [6;6;7;7]));
  (*5634*) AddTo (T 526) (Plain (Einsum [(n_v'aabb'ovov,[0;1;2;3]); (T 497,[4;5;0;1])] [2;4;3;5]));
  (*5635*) Del (T 497);
  (*5636*) Assign (T 527) (Plain (Zeros [6;6;7;7]));
  (*5637*) AddTo (T 527) (Times (Einsum [(n_v'aabb'vvov,[0;1;2;3]); (T 101,[4;5;0;1])] [2;4;3;5]) (2) 1);
  (*5638*) Assign (T 528) (Plain (Zeros [6;6;7;7]));
  (*5639*) AddTo (T 528) (Plain (Einsum [(n_t1'bb,[0;1]); (T 81,[2;1;3;4])] [0;2;3;4]));
  (*5640*) Del (T 81);
  (*5641*) Assign (T 529) (Plain (Zeros [6;6;7;7]));
  (*5642*) AddTo (T 529) (Plain (Einsum [(n_v'bbbb'ovov,[0;1;2;3])] [0;2;3;1]));
  (*5643*) AddTo (T 529) (Times (Einsum [(n_v'bbbb'oovv,[0;1;2;3])] [0;1;2;3]) (-1) 1);
  (*5644*) AddTo (T 529) (Times (Einsum [(T 528,[0;1;2;3])] [0;1;3;2]) (-1) 1);
  (*5645*) Del (T 528);
  (*5646*) Assign (T 530) (Plain (Zeros [6;6;7;7]));
  (*5647*) AddTo (T 530) (Times (Einsum [(n_l2'bbbb,[0;1;2;3]); (T 529,[3;4;5;1])] [2;4;0;5]) (2) 1);
  (*5648*) Del (T 529);
  (*5649*) Assign (T 531) (Plain (Zeros [6;6;6;7]));
  (*5650*) AddTo (T 531) (Times (Einsum [(T 2,[0;1;2;3])] [1;0;2;3]) (-3333333333333333) 10000000000000000);
  (*5651*) AddTo (T 531) (Plain (Einsum [(T 77,[0;1;2;3])] [0;1;2;3]));
  (*5652*) Del (T 77);
  (*5653*) AddTo (T 531) (Times (Einsum [(T 78,[0;1;2;3])] [0;1;2;3]) (3333333333333333) 10000000000000000);
  (*5654*) Del (T 78);
  (*5655*) Assign (T 532) (Plain (Zeros [6;6;7;7]));
  (*5656*) AddTo (T 532) (Times (Einsum [(T 214,[0;1;2;3]); (T 531,[4;0;2;5])] [1;4;3;5]) (6) 1);
  (*5657*) Del (T 531);
  (*5658*) Assign (T 533) (Plain (Zeros [7;7]));
  (*5659*) AddTo (T 533) (Plain (Einsum [(T 162,[0;1])] [0;1]));
  (*5660*) Del (T 162);
  (*5661*) AddTo (T 533) (Times (Einsum [(T 163,[0;1])] [0;1]) (1) 2);
  (*5662*) Del (T 163);
  (*5663*) AddTo (T 533) (Times (Einsum [(T 164,[0;1])] [0;1]) (7499999999999697) 5000000000000000);
  (*5664*) Del (T 164);
  (*5665*) AddTo (T 533) (Times (Einsum [(T 165,[0;1])] [0;1]) (9999999999999597) 10000000000000000);
  (*5666*) Del (T 165);
  (*5667*) AddTo (T 533) (Times (Einsum [(T 212,[0;1])] [0;1]) (49999999999998007) 100000000000000000);
  (*5668*) Del (T 212);
  (*5669*) Assign (T 534) (Plain (Zeros [6;6;7;7]));
  (*5670*) AddTo (T 534) (Times (Einsum [(T 533,[0;1]); (n_v'bbbb'ovov,[2;1;3;4])] [2;3;4;0]) (2) 1);
  (*5671*) Del (T 533);
  (*5672*) Assign (T 535) (Plain (Zeros [6;6;7;7]));
  (*5673*) AddTo (T 535) (Plain (Einsum [(n_v'aabb'ooov,[0;1;2;3]); (T 102,[4;5;0;1])] [2;4;3;5]));
  (*5674*) Del (T 102);
  (*5675*) Assign (T 536) (Plain (Zeros [6;6;7;7]));
  (*5676*) AddTo (T 536) (Times (Einsum [(T 2,[0;1;2;3]); (T 517,[0;2;4;5])] [1;4;3;5]) (2) 1);
  (*5677*) Del (T 2);
  (*5678*) Assign (T 537) (Plain (Zeros [6;6;7;7]));
  (*5679*) AddTo (T 537) (Plain (Einsum [(T 342,[0;1]); (n_v'bbbb'ovov,[2;3;1;4])] [2;0;4;3]));
  (*5680*) Del (T 342);
  (*5681*) Assign (T 538) (Plain (Zeros [6;6;6;7]));
  (*5682*) AddTo (T 538) (Times (Einsum [(n_v'bbbb'ooov,[0;1;2;3])] [0;1;2;3]) (-1) 1);
  (*5683*) AddTo (T 538) (Plain (Einsum [(T 4,[0;1;2;3])] [0;1;2;3]));
  (*5684*) Assign (T 539) (Plain (Zeros [6;6;7;7]));
  (*5685*) AddTo (T 539) (Plain (Einsum [(n_l1'bb,[0;1]); (T 538,[1;2;3;4])] [2;3;0;4]));
  (*5686*) Assign (T 540) (Plain (Zeros [6;6;7;7]));
  (*5687*) AddTo (T 540) (Plain (Einsum [(n_f'bb'ov,[0;1]); (n_l1'bb,[2;3])] [0;3;1;2]));
  (*5688*) AddTo (T 540) (Times (Einsum [(T 519,[0;1;2;3])] [0;1;2;3]) (-1) 1);
  (*5689*) Del (T 519);
  (*5690*) AddTo (T 540) (Plain (Einsum [(T 520,[0;1;2;3])] [0;1;2;3]));
  (*5691*) Del (T 520);
  (*5692*) AddTo (T 540) (Times (Einsum [(T 521,[0;1;2;3])] [0;1;2;3]) (-1) 1);
  (*5693*) Del (T 521);
  (*5694*) AddTo (T 540) (Plain (Einsum [(T 522,[0;1;2;3])] [1;0;3;2]));
  (*5695*) Del (T 522);
  (*5696*) AddTo (T 540) (Times (Einsum [(T 525,[0;1;2;3])] [1;0;3;2]) (-1) 1);
  (*5697*) Del (T 525);
  (*5698*) AddTo (T 540) (Plain (Einsum [(T 526,[0;1;2;3])] [1;0;3;2]));
  (*5699*) Del (T 526);
  (*5700*) AddTo (T 540) (Plain (Einsum [(T 527,[0;1;2;3])] [1;0;3;2]));
  (*5701*) Del (T 527);
  (*5702*) AddTo (T 540) (Plain (Einsum [(T 530,[0;1;2;3])] [0;1;2;3]));
  (*5703*) Del (T 530);
  (*5704*) AddTo (T 540) (Times (Einsum [(T 532,[0;1;2;3])] [1;0;3;2]) (-1) 1);
  (*5705*) Del (T 532);
  (*5706*) AddTo (T 540) (Plain (Einsum [(T 534,[0;1;2;3])] [1;0;3;2]));
  (*5707*) Del (T 534);
  (*5708*) AddTo (T 540) (Times (Einsum [(T 535,[0;1;2;3])] [1;0;3;2]) (-1) 1);
  (*5709*) Del (T 535);
  (*5710*) AddTo (T 540) (Plain (Einsum [(T 536,[0;1;2;3])] [0;1;2;3]));
  (*5711*) Del (T 536);
  (*5712*) AddTo (T 540) (Plain (Einsum [(T 537,[0;1;2;3])] [1;0;3;2]));
  (*5713*) Del (T 537);
  (*5714*) AddTo (T 540) (Plain (Einsum [(T 539,[0;1;2;3])] [0;1;2;3]));
  (*5715*) Del (T 539);
  (*5716*) AddTo (T 540) (Plain (Einsum [(n_l1'bb,[0;1]); (T 228,[2;3])] [1;2;0;3]));
  (*5717*) AddTo n_l2new_bbbb (Plain (Einsum [(T 540,[0;1;2;3])] [2;3;0;1]));
  (*5718*) AddTo n_l2new_bbbb (Times (Einsum [(T 540,[0;1;2;3])] [3;2;0;1]) (-1) 1);
  (*5719*) AddTo n_l2new_bbbb (Times (Einsum [(T 540,[0;1;2;3])] [2;3;1;0]) (-1) 1);
  (*5720*) AddTo n_l2new_bbbb (Plain (Einsum [(T 540,[0;1;2;3])] [3;2;1;0]));
  (*5721*) Del (T 540);
  (*5722*) Assign (T 541) (Plain (Zeros [6;6]));
  (*5723*) AddTo (T 541) (Plain (Einsum [(n_f'bb'ov,[0;1]); (n_t1'bb,[2;1])] [0;2]));
  (*5724*) Assign (T 542) (Plain (Zeros [6;6;7;7]));
  (*5725*) AddTo (T 542) (Plain (Einsum [(T 541,[0;1]); (n_l2'bbbb,[2;3;4;1])] [0;4;2;3]));
  (*5726*) Assign (T 543) (Plain (Zeros [6;6;7;7]));
  (*5727*) AddTo (T 543) (Times (Einsum [(n_l2'bbbb,[0;1;2;3]); (T 28,[3;2;4;5])] [4;5;0;1]) (-1) 1);
  (*5728*) Assign (T 544) (Plain (Zeros [6;6;6;7]));
  (*5729*) AddTo (T 544) (Plain (Einsum [(n_f'bb'ov,[0;1]); (n_t2'bbbb,[2;3;4;1])] [0;2;3;4]));
  (*5730*) Assign (T 545) (Plain (Zeros [6;6;7;7]));
  (*5731*) AddTo (T 545) (Times (Einsum [(T 544,[0;1;2;3]); (n_l3'bbbbbb,[4;5;3;6;1;2])] [0;6;4;5]) (-1) 1);
  (*5732*) Del (T 544);
  (*5733*) Assign (T 546) (Plain (Zeros [6;6;4;5]));
  (*5734*) AddTo (T 546) (Plain (Einsum [(n_f'bb'ov,[0;1]); (n_t2'abab,[2;3;4;1])] [0;3;2;4]));
  (*5735*) Assign (T 547) (Plain (Zeros [6;6;7;7]));
  (*5736*) AddTo (T 547) (Plain (Einsum [(T 546,[0;1;2;3]); (n_l3'babbab,[4;3;5;6;2;1])] [0;6;4;5]));
  (*5737*) Del (T 546);
  (*5738*) Assign (T 548) (Plain (Zeros [6;6;4;5]));
  (*5739*) AddTo (T 548) (Plain (Einsum [(T 228,[0;1]); (n_t2'abab,[2;3;4;1])] [3;0;2;4]));
  (*5740*) Assign (T 549) (Plain (Zeros [6;6;4;5]));
  (*5741*) AddTo (T 549) (Plain (Einsum [(n_v'aabb'ovoo,[0;1;2;3])] [2;3;0;1]));
  (*5742*) AddTo (T 549) (Plain (Einsum [(T 119,[0;1;2;3])] [1;0;2;3]));
  (*5743*) Del (T 119);
  (*5744*) AddTo (T 549) (Plain (Einsum [(T 120,[0;1;2;3])] [0;1;2;3]));
  (*5745*) Del (T 120);
  (*5746*) AddTo (T 549) (Times (Einsum [(T 121,[0;1;2;3])] [0;1;2;3]) (24999999999999) 12500000000000);
  (*5747*) Del (T 121);
  (*5748*) AddTo (T 549) (Times (Einsum [(T 122,[0;1;2;3])] [0;1;2;3]) (1999999999999921) 1000000000000000);
  (*5749*) Del (T 122);
  (*5750*) AddTo (T 549) (Times (Einsum [(T 124,[0;1;2;3])] [1;0;2;3]) (-1) 1);
  (*5751*) Del (T 124);
  (*5752*) AddTo (T 549) (Plain (Einsum [(T 125,[0;1;2;3])] [1;0;2;3]));
  (*5753*) Del (T 125);
  (*5754*) AddTo (T 549) (Times (Einsum [(T 126,[0;1;2;3])] [0;1;2;3]) (-1) 1);
  (*5755*) Del (T 126);
  (*5756*) AddTo (T 549) (Plain (Einsum [(T 548,[0;1;2;3])] [0;1;2;3]));
  (*5757*) Del (T 548);
  (*5758*) AddTo (T 549) (Plain (Einsum [(T 128,[0;1;2;3])] [0;1;2;3]));
  (*5759*) Del (T 128);
  (*5760*) AddTo (T 549) (Times (Einsum [(T 130,[0;1;2;3])] [1;0;2;3]) (-1) 1);
  (*5761*) Del (T 130);
  (*5762*) Assign (T 550) (Plain (Zeros [6;6;7;7]));
  (*5763*) AddTo (T 550) (Times (Einsum [(T 549,[0;1;2;3]); (n_l3'babbab,[4;3;5;6;2;0])] [6;1;4;5]) (-2) 1);
  (*5764*) Del (T 549);
  (*5765*) Assign (T 551) (Plain (Zeros [6;6;6;7]));
  (*5766*) AddTo (T 551) (Plain (Einsum [(n_t2'abab,[0;1;2;3]); (T 40,[4;5;0;2])] [1;4;5;3]));
  (*5767*) Del (T 40);
  (*5768*) Assign (T 552) (Plain (Zeros [6;6;6;7]));
  (*5769*) AddTo (T 552) (Times (Einsum [(T 228,[0;1]); (n_t2'bbbb,[2;3;4;1])] [2;3;0;4]) (-1) 1);
  (*5770*) Assign (T 553) (Plain (Zeros [6;6;7;7]));
  (*5771*) AddTo (T 553) (Plain (Einsum [(n_v'bbbb'ovov,[0;1;2;3])] [0;2;1;3]));
  (*5772*) AddTo (T 553) (Times (Einsum [(n_v'bbbb'oovv,[0;1;2;3])] [0;1;2;3]) (-1) 1);
  (*5773*) AddTo (T 553) (Plain (Einsum [(T 153,[0;1;2;3])] [1;0;2;3]));
  (*5774*) Del (T 153);
  (*5775*) Assign (T 554) (Plain (Zeros [6;6;6;7]));
  (*5776*) AddTo (T 554) (Plain (Einsum [(n_t1'bb,[0;1]); (T 553,[2;3;1;4])] [0;2;3;4]));
  (*5777*) Del (T 553);
  (*5778*) Assign (T 555) (Plain (Zeros [6;6;6;7]));
  (*5779*) AddTo (T 555) (Plain (Einsum [(n_t1'bb,[0;1]); (T 49,[0;2;3;4])] [2;3;4;1]));
  (*5780*) Del (T 49);
  (*5781*) Assign (T 556) (Plain (Zeros [6;6;6;7]));
  (*5782*) AddTo (T 556) (Plain (Einsum [(n_v'bbbb'ooov,[0;1;2;3])] [2;0;1;3]));
  (*5783*) AddTo (T 556) (Plain (Einsum [(T 147,[0;1;2;3])] [1;0;2;3]));
  (*5784*) Del (T 147);
  (*5785*) AddTo (T 556) (Times (Einsum [(T 148,[0;1;2;3])] [0;1;2;3]) (2999999999999881) 1000000000000000);
  (*5786*) Del (T 148);
  (*5787*) AddTo (T 556) (Times (Einsum [(T 149,[0;1;2;3])] [0;1;2;3]) (4999999999999803) 5000000000000000);
  (*5788*) Del (T 149);
  (*5789*) AddTo (T 556) (Times (Einsum [(T 150,[0;1;2;3])] [0;1;2;3]) (-1) 1);
  (*5790*) Del (T 150);
  (*5791*) AddTo (T 556) (Plain (Einsum [(T 551,[0;1;2;3])] [0;2;1;3]));
  (*5792*) Del (T 551);
  (*5793*) AddTo (T 556) (Plain (Einsum [(T 552,[0;1;2;3])] [1;0;2;3]));
  (*5794*) Del (T 552);
  (*5795*) AddTo (T 556) (Plain (Einsum [(T 554,[0;1;2;3])] [2;0;1;3]));
  (*5796*) Del (T 554);
  (*5797*) AddTo (T 556) (Times (Einsum [(T 555,[0;1;2;3])] [0;2;1;3]) (-1) 1);
  (*5798*) Del (T 555);
  (*5799*) Assign (T 557) (Plain (Zeros [6;6;7;7]));
  (*5800*) AddTo (T 557) (Times (Einsum [(T 556,[0;1;2;3]); (n_l3'bbbbbb,[4;5;3;6;0;1])] [6;2;4;5]) (-6) 1);
  (*5801*) Del (T 556);
  (*5802*) Assign (T 558) (Plain (Zeros [6;6;6;7]));
  (*5803*) AddTo (T 558) (Plain (Einsum [(n_v'bbbb'ooov,[0;1;2;3])] [0;1;2;3]));
  (*5804*) AddTo (T 558) (Plain (Einsum [(T 4,[0;1;2;3])] [0;2;1;3]));
  (*5805*) Assign (T 559) (Plain (Zeros [6;6;7;7]));
  (*5806*) AddTo (T 559) (Times (Einsum [(T 137,[0;1;2;3]); (T 558,[0;4;5;3])] [4;5;1;2]) (6) 1);
  (*5807*) Del (T 558);
  (*5808*) Assign (T 560) (Plain (Zeros [6;6]));
  (*5809*) AddTo (T 560) (Plain (Einsum [(n_t1'bb,[0;1]); (T 228,[2;1])] [0;2]));
  (*5810*) Assign (T 561) (Plain (Zeros [6;6]));
  (*5811*) AddTo (T 561) (Plain (Einsum [(T 220,[0;1])] [1;0]));
  (*5812*) AddTo (T 561) (Times (Einsum [(T 221,[0;1])] [0;1]) (2) 1);
  (*5813*) AddTo (T 561) (Plain (Einsum [(T 222,[0;1])] [0;1]));
  (*5814*) AddTo (T 561) (Times (Einsum [(T 224,[0;1])] [1;0]) (-1) 1);
  (*5815*) AddTo (T 561) (Plain (Einsum [(T 560,[0;1])] [0;1]));
  (*5816*) Del (T 560);
  (*5817*) Assign (T 562) (Plain (Zeros [6;6;7;7]));
  (*5818*) AddTo (T 562) (Times (Einsum [(T 561,[0;1]); (n_l2'bbbb,[2;3;4;0])] [4;1;2;3]) (-2) 1);
  (*5819*) Assign (T 563) (Plain (Zeros [6;6;7;7]));
  (*5820*) AddTo (T 563) (Times (Einsum [(T 542,[0;1;2;3])] [0;1;3;2]) (2) 1);
  (*5821*) Del (T 542);
  (*5822*) AddTo (T 563) (Times (Einsum [(T 543,[0;1;2;3])] [0;1;3;2]) (-2) 1);
  (*5823*) Del (T 543);
  (*5824*) AddTo (T 563) (Times (Einsum [(T 545,[0;1;2;3])] [0;1;3;2]) (6) 1);
  (*5825*) Del (T 545);
  (*5826*) AddTo (T 563) (Times (Einsum [(T 547,[0;1;2;3])] [0;1;3;2]) (2) 1);
  (*5827*) Del (T 547);
  (*5828*) AddTo (T 563) (Plain (Einsum [(T 550,[0;1;2;3])] [0;1;3;2]));
  (*5829*) Del (T 550);
  (*5830*) AddTo (T 563) (Plain (Einsum [(T 557,[0;1;2;3])] [0;1;2;3]));
  (*5831*) Del (T 557);
  (*5832*) AddTo (T 563) (Times (Einsum [(T 559,[0;1;2;3])] [0;1;2;3]) (-1) 1);
  (*5833*) Del (T 559);
  (*5834*) AddTo (T 563) (Plain (Einsum [(T 562,[0;1;2;3])] [0;1;3;2]));
  (*5835*) Del (T 562);
  (*5836*) AddTo n_l2new_bbbb (Plain (Einsum [(T 563,[0;1;2;3])] [3;2;0;1]));
  (*5837*) AddTo n_l2new_bbbb (Times (Einsum [(T 563,[0;1;2;3])] [3;2;1;0]) (-1) 1);
  (*5838*) Del (T 563);
  (*5839*) Assign (T 564) (Plain (Zeros [6;6;7;7]));
  (*5840*) AddTo (T 564) (Plain (Einsum [(n_f'bb'vv,[0;1]); (n_l2'bbbb,[2;1;3;4])] [3;4;0;2]));
  (*5841*) Assign (T 565) (Plain (Zeros [6;6;7;7]));
  (*5842*) AddTo (T 565) (Plain (Einsum [(T 247,[0;1;2;3]); (T 59,[4;5;6;1;2;3])] [4;5;6;0]));
  (*5843*) Assign (T 566) (Plain (Zeros [7;7;4;5]));
  (*5844*) AddTo (T 566) (Plain (Einsum [(n_v'aabb'ovvv,[0;1;2;3])] [2;3;0;1]));
  (*5845*) AddTo (T 566) (Plain (Einsum [(T 464,[0;1;2;3])] [1;0;2;3]));
  (*5846*) Del (T 464);
  (*5847*) AddTo (T 566) (Times (Einsum [(T 465,[0;1;2;3])] [1;0;2;3]) (-1) 1);
  (*5848*) Del (T 465);
  (*5849*) AddTo (T 566) (Times (Einsum [(T 466,[0;1;2;3])] [1;0;2;3]) (2) 1);
  (*5850*) Del (T 466);
  (*5851*) AddTo (T 566) (Times (Einsum [(T 467,[0;1;2;3])] [1;0;2;3]) (-24999999999999) 12500000000000);
  (*5852*) Del (T 467);
  (*5853*) AddTo (T 566) (Times (Einsum [(T 468,[0;1;2;3])] [1;0;2;3]) (-1999999999999921) 1000000000000000);
  (*5854*) Del (T 468);
  (*5855*) AddTo (T 566) (Times (Einsum [(T 469,[0;1;2;3])] [0;1;2;3]) (-1) 1);
  (*5856*) Del (T 469);
  (*5857*) AddTo (T 566) (Plain (Einsum [(T 470,[0;1;2;3])] [1;0;2;3]));
  (*5858*) Del (T 470);
  (*5859*) Assign (T 567) (Plain (Zeros [6;6;7;7]));
  (*5860*) AddTo (T 567) (Times (Einsum [(T 566,[0;1;2;3]); (n_l3'babbab,[4;3;1;5;2;6])] [5;6;4;0]) (-2) 1);
  (*5861*) Del (T 566);
  (*5862*) Assign (T 568) (Plain (Zeros [6;7;7;7]));
  (*5863*) AddTo (T 568) (Plain (Einsum [(n_v'bbbb'ovvv,[0;1;2;3])] [0;2;1;3]));
  (*5864*) AddTo (T 568) (Times (Einsum [(T 474,[0;1;2;3])] [0;3;2;1]) (-1) 1);
  (*5865*) Del (T 474);
  (*5866*) AddTo (T 568) (Times (Einsum [(T 475,[0;1;2;3])] [0;1;3;2]) (-1) 1);
  (*5867*) Del (T 475);
  (*5868*) AddTo (T 568) (Times (Einsum [(T 476,[0;1;2;3])] [0;2;1;3]) (-2999999999999881) 1000000000000000);
  (*5869*) Del (T 476);
  (*5870*) AddTo (T 568) (Times (Einsum [(T 477,[0;1;2;3])] [0;2;1;3]) (-4999999999999803) 5000000000000000);
  (*5871*) Del (T 477);
  (*5872*) AddTo (T 568) (Times (Einsum [(T 478,[0;1;2;3])] [0;1;3;2]) (-1) 1);
  (*5873*) Del (T 478);
  (*5874*) AddTo (T 568) (Times (Einsum [(T 480,[0;1;2;3])] [0;2;1;3]) (-1) 1);
  (*5875*) Del (T 480);
  (*5876*) Assign (T 569) (Plain (Zeros [6;6;7;7]));
  (*5877*) AddTo (T 569) (Times (Einsum [(T 568,[0;1;2;3]); (n_l3'bbbbbb,[4;1;2;5;6;0])] [5;6;4;3]) (-6) 1);
  (*5878*) Del (T 568);
  (*5879*) Assign (T 570) (Plain (Zeros [6;6;7;7]));
  (*5880*) AddTo (T 570) (Times (Einsum [(T 487,[0;1;2;3]); (T 75,[4;5;0;6;2;3])] [4;5;6;1]) (2) 1);
  (*5881*) Del (T 487);
  (*5882*) Assign (T 571) (Plain (Zeros [6;6;7;7]));
  (*5883*) AddTo (T 571) (Plain (Einsum [(n_t1'bb,[0;1]); (n_v'bbbb'ooov,[2;0;3;4])] [2;3;1;4]));
  (*5884*) Assign (T 572) (Plain (Zeros [6;6;7;7]));
  (*5885*) AddTo (T 572) (Plain (Einsum [(n_v'bbbb'ovov,[0;1;2;3])] [0;2;1;3]));
  (*5886*) AddTo (T 572) (Times (Einsum [(n_v'bbbb'oovv,[0;1;2;3])] [0;1;2;3]) (-1) 1);
  (*5887*) AddTo (T 572) (Times (Einsum [(T 571,[0;1;2;3])] [0;1;2;3]) (-1) 1);
  (*5888*) Del (T 571);
  (*5889*) AddTo (T 572) (Plain (Einsum [(T 10,[0;1;2;3])] [0;1;2;3]));
  (*5890*) AddTo (T 572) (Times (Einsum [(T 12,[0;1;2;3])] [0;1;2;3]) (-1) 1);
  (*5891*) Del (T 12);
  (*5892*) Assign (T 573) (Plain (Zeros [6;6;7;7]));
  (*5893*) AddTo (T 573) (Times (Einsum [(T 572,[0;1;2;3]); (T 73,[4;5;0;1;2;6])] [4;5;6;3]) (6) 1);
  (*5894*) Del (T 572);
  (*5895*) Assign (T 574) (Plain (Zeros [6;6;7;7]));
  (*5896*) AddTo (T 574) (Plain (Einsum [(n_t1'bb,[0;1]); (T 4,[2;0;3;4])] [2;3;1;4]));
  (*5897*) Assign (T 575) (Plain (Zeros [6;6;7;7]));
  (*5898*) AddTo (T 575) (Plain (Einsum [(T 574,[0;1;2;3])] [0;1;2;3]));
  (*5899*) Del (T 574);
  (*5900*) AddTo (T 575) (Times (Einsum [(T 14,[0;1;2;3])] [0;1;3;2]) (-1) 1);
  (*5901*) Assign (T 576) (Plain (Zeros [6;6;7;7]));
  (*5902*) AddTo (T 576) (Times (Einsum [(T 575,[0;1;2;3]); (T 73,[4;5;0;1;2;6])] [4;5;6;3]) (6) 1);
  (*5903*) Del (T 575);
  (*5904*) Assign (T 577) (Plain (Zeros [6;6;7;7]));
  (*5905*) AddTo (T 577) (Times (Einsum [(T 493,[0;1;2;3]); (T 59,[4;5;0;6;2;3])] [4;5;6;1]) (2) 1);
  (*5906*) Del (T 493);
  (*5907*) Assign (T 578) (Plain (Zeros [6;6;7;7]));
  (*5908*) AddTo (T 578) (Times (Einsum [(n_v'bbbb'ovvv,[0;1;2;3]); (T 138,[4;5;0;3])] [4;5;1;2]) (2) 1);
  (*5909*) Assign (T 579) (Plain (Zeros [7;7]));
  (*5910*) AddTo (T 579) (Plain (Einsum [(n_t1'bb,[0;1]); (T 13,[0;2;1;3])] [2;3]));
  (*5911*) Del (T 13);
  (*5912*) Assign (T 580) (Plain (Zeros [7;7]));
  (*5913*) AddTo (T 580) (Times (Einsum [(T 217,[0;1])] [1;0]) (-1) 1);
  (*5914*) Del (T 217);
  (*5915*) AddTo (T 580) (Times (Einsum [(T 510,[0;1])] [1;0]) (2) 1);
  (*5916*) Del (T 510);
  (*5917*) AddTo (T 580) (Plain (Einsum [(T 511,[0;1])] [1;0]));
  (*5918*) Del (T 511);
  (*5919*) AddTo (T 580) (Times (Einsum [(T 579,[0;1])] [0;1]) (-1) 1);
  (*5920*) Del (T 579);
  (*5921*) Assign (T 581) (Plain (Zeros [6;6;7;7]));
  (*5922*) AddTo (T 581) (Times (Einsum [(T 580,[0;1]); (n_l2'bbbb,[2;1;3;4])] [3;4;2;0]) (-2) 1);
  (*5923*) Assign (T 582) (Plain (Zeros [6;6;7;7]));
  (*5924*) AddTo (T 582) (Times (Einsum [(n_v'bbbb'ovov,[0;1;2;3]); (T 159,[2;4;5;0])] [4;5;1;3]) (6) 1);
  (*5925*) Del (T 159);
  (*5926*) Assign (T 583) (Plain (Zeros [6;6;7;7]));
  (*5927*) AddTo (T 583) (Times (Einsum [(T 228,[0;1]); (T 79,[2;3;0;4])] [2;3;4;1]) (2) 1);
  (*5928*) Assign (T 584) (Plain (Zeros [6;6;7;7]));
  (*5929*) AddTo (T 584) (Times (Einsum [(n_f'bb'ov,[0;1]); (T 79,[2;3;0;4])] [2;3;1;4]) (2) 1);
  (*5930*) Assign (T 585) (Plain (Zeros [6;6;7;7]));
  (*5931*) AddTo (T 585) (Times (Einsum [(n_v'bbbb'ovov,[0;1;2;3])] [0;2;1;3]) (-1) 1);
  (*5932*) AddTo (T 585) (Times (Einsum [(T 564,[0;1;2;3])] [1;0;3;2]) (2) 1);
  (*5933*) Del (T 564);
  (*5934*) AddTo (T 585) (Times (Einsum [(T 565,[0;1;2;3])] [0;1;3;2]) (-2) 1);
  (*5935*) Del (T 565);
  (*5936*) AddTo (T 585) (Plain (Einsum [(T 567,[0;1;2;3])] [1;0;3;2]));
  (*5937*) Del (T 567);
  (*5938*) AddTo (T 585) (Times (Einsum [(T 569,[0;1;2;3])] [0;1;3;2]) (-1) 1);
  (*5939*) Del (T 569);
  (*5940*) AddTo (T 585) (Times (Einsum [(T 570,[0;1;2;3])] [0;1;3;2]) (-1) 1);
  (*5941*) Del (T 570);
  (*5942*) AddTo (T 585) (Times (Einsum [(T 573,[0;1;2;3])] [0;1;3;2]) (-1) 1);
  (*5943*) Del (T 573);
  (*5944*) AddTo (T 585) (Times (Einsum [(T 576,[0;1;2;3])] [0;1;3;2]) (-1) 1);
  (*5945*) Del (T 576);
  (*5946*) AddTo (T 585) (Plain (Einsum [(T 577,[0;1;2;3])] [0;1;3;2]));
  (*5947*) Del (T 577);
  (*5948*) AddTo (T 585) (Plain (Einsum [(T 578,[0;1;2;3])] [0;1;3;2]));
  (*5949*) Del (T 578);
  (*5950*) AddTo (T 585) (Times (Einsum [(T 581,[0;1;2;3])] [1;0;3;2]) (-1) 1);
  (*5951*) Del (T 581);
  (*5952*) AddTo (T 585) (Plain (Einsum [(T 582,[0;1;2;3])] [0;1;2;3]));
  (*5953*) Del (T 582);
  (*5954*) AddTo (T 585) (Times (Einsum [(T 583,[0;1;2;3])] [1;0;3;2]) (-1) 1);
  (*5955*) Del (T 583);
  (*5956*) AddTo (T 585) (Plain (Einsum [(T 584,[0;1;2;3])] [1;0;3;2]));
  (*5957*) Del (T 584);
  (*5958*) AddTo n_l2new_bbbb (Plain (Einsum [(T 585,[0;1;2;3])] [3;2;0;1]));
  (*5959*) AddTo n_l2new_bbbb (Times (Einsum [(T 585,[0;1;2;3])] [2;3;0;1]) (-1) 1);
  (*5960*) Del (T 585);
  (*5961*) Assign (T 586) (Plain (Zeros [6;6;7;7]));
  (*5962*) AddTo (T 586) (Plain (Einsum [(n_f'bb'oo,[0;1]); (n_l2'bbbb,[2;3;4;1])] [0;4;2;3]));
  (*5963*) AddTo n_l2new_bbbb (Times (Einsum [(T 586,[0;1;2;3])] [3;2;0;1]) (-2) 1);
  (*5964*) AddTo n_l2new_bbbb (Times (Einsum [(T 586,[0;1;2;3])] [3;2;1;0]) (2) 1);
  (*5965*) Del (T 586);
  (*5966*) Assign (T 587) (Plain (Zeros [6;6;6;6]));
  (*5967*) AddTo (T 587) (Plain (Einsum [(n_v'bbbb'oooo,[0;1;2;3])] [0;1;2;3]));
  (*5968*) AddTo (T 587) (Plain (Einsum [(T 26,[0;1;2;3])] [1;3;2;0]));
  (*5969*) AddTo (T 587) (Plain (Einsum [(T 27,[0;1;2;3])] [0;2;3;1]));
  (*5970*) AddTo n_l2new_bbbb (Times (Einsum [(n_l2'bbbb,[0;1;2;3]); (T 587,[3;4;5;2])] [0;1;5;4]) (2) 1);
  (*5971*) Assign (T 588) (Plain (Zeros [6;6;6;6]));
  (*5972*) AddTo (T 588) (Times (Einsum [(T 142,[0;1;2;3])] [1;0;3;2]) (-833333333333367) 2500000000000000);
  (*5973*) Del (T 142);
  (*5974*) AddTo (T 588) (Times (Einsum [(T 3,[0;1;2;3])] [0;1;3;2]) (833333333333367) 2500000000000000);
  (*5975*) Del (T 3);
  (*5976*) AddTo (T 588) (Plain (Einsum [(T 143,[0;1;2;3])] [0;1;3;2]));
  (*5977*) Del (T 143);
  (*5978*) AddTo n_l2new_bbbb (Times (Einsum [(n_v'bbbb'ovov,[0;1;2;3]); (T 588,[4;5;2;0])] [1;3;5;4]) (-2399999999999903) 400000000000000);
  (*5979*) Del (T 588);
  (*5980*) Assign (T 589) (Plain (Zeros [4;4;4;5;5;5]));
  (*5981*) AddTo (T 589) (Plain (Einsum [(n_v'aabb'ovoo,[0;1;2;3]); (T 92,[2;3;4;5;6;7])] [4;5;0;6;7;1]));
  (*5982*) Assign (T 590) (Plain (Zeros [4;4;5;5]));
  (*5983*) AddTo (T 590) (Times (Einsum [(n_t2'aaaa,[0;1;2;3]); (T 234,[1;4;5;3])] [0;4;2;5]) (5000000000000051) 2500000000000000);
  (*5984*) Assign (T 591) (Plain (Zeros [4;4;5;5]));
  (*5985*) AddTo (T 591) (Plain (Einsum [(n_v'aaaa'ovov,[0;1;2;3])] [0;2;1;3]));
  (*5986*) AddTo (T 591) (Times (Einsum [(n_v'aaaa'oovv,[0;1;2;3])] [0;1;2;3]) (-1) 1);
  (*5987*) AddTo (T 591) (Times (Einsum [(T 233,[0;1;2;3])] [0;1;2;3]) (100000000000001) 100000000000000);
  (*5988*) AddTo (T 591) (Times (Einsum [(T 590,[0;1;2;3])] [0;1;2;3]) (-1) 1);
  (*5989*) Del (T 590);
  (*5990*) AddTo (T 591) (Times (Einsum [(T 237,[0;1;2;3])] [0;1;3;2]) (-1) 1);
  (*5991*) Assign (T 592) (Plain (Zeros [4;4;4;5;5;5]));
  (*5992*) AddTo (T 592) (Times (Einsum [(T 591,[0;1;2;3]); (n_l3'aaaaaa,[4;5;2;6;7;0])] [6;7;1;4;5;3]) (6) 1);
  (*5993*) Del (T 591);
  (*5994*) Assign (T 593) (Plain (Zeros [6;7;4;5]));
  (*5995*) AddTo (T 593) (Times (Einsum [(n_t2'abab,[0;1;2;3]); (T 241,[0;4;2;5])] [1;3;4;5]) (100000000000001) 100000000000000);
  (*5996*) Assign (T 594) (Plain (Zeros [6;7;4;5]));
  (*5997*) AddTo (T 594) (Plain (Einsum [(n_v'aabb'ovov,[0;1;2;3])] [2;3;0;1]));
  (*5998*) AddTo (T 594) (Plain (Einsum [(T 239,[0;1;2;3])] [0;1;2;3]));
  (*5999*) AddTo (T 594) (Times (Einsum [(T 593,[0;1;2;3])] [0;1;2;3]) (-1) 1);
  (*6000*) Assign (T 595) (Plain (Zeros [4;4;4;5;5;5]));
  (*6001*) AddTo (T 595) (Times (Einsum [(T 594,[0;1;2;3]); (n_l3'abaaba,[4;1;5;6;0;7])] [6;7;2;4;5;3]) (2) 1);
  (*6002*) Del (T 594);
  (*6003*) Assign (T 596) (Plain (Zeros [4;4;4;5;5;5]));
  (*6004*) AddTo (T 596) (Times (Einsum [(T 516,[0;1;2;3]); (T 194,[4;5;0;1;6;7])] [4;5;2;6;7;3]) (6) 1);
  (*6005*) Del (T 516);
  (*6006*) Assign (T 597) (Plain (Zeros [4;4;4;5]));
  (*6007*) AddTo (T 597) (Plain (Einsum [(n_v'aaaa'ooov,[0;1;2;3])] [0;1;2;3]));
  (*6008*) AddTo (T 597) (Times (Einsum [(n_v'aaaa'ooov,[0;1;2;3])] [0;2;1;3]) (-1) 1);
  (*6009*) Assign (T 598) (Plain (Zeros [4;4;4;5;5;5]));
  (*6010*) AddTo (T 598) (Times (Einsum [(T 597,[0;1;2;3]); (T 194,[4;5;0;1;6;7])] [4;5;2;6;7;3]) (6) 1);
  (*6011*) Del (T 597);
  (*6012*) Assign (T 599) (Plain (Zeros [4;4;4;5;5;5]));
  (*6013*) AddTo (T 599) (Times (Einsum [(T 589,[0;1;2;3;4;5])] [0;1;2;4;3;5]) (2) 1);
  (*6014*) Del (T 589);
  (*6015*) AddTo (T 599) (Plain (Einsum [(T 592,[0;1;2;3;4;5])] [0;1;2;3;4;5]));
  (*6016*) Del (T 592);
  (*6017*) AddTo (T 599) (Plain (Einsum [(T 595,[0;1;2;3;4;5])] [1;0;2;4;3;5]));
  (*6018*) Del (T 595);
  (*6019*) AddTo (T 599) (Plain (Einsum [(T 596,[0;1;2;3;4;5])] [0;1;2;4;3;5]));
  (*6020*) Del (T 596);
  (*6021*) AddTo (T 599) (Plain (Einsum [(T 598,[0;1;2;3;4;5])] [0;1;2;4;3;5]));
  (*6022*) Del (T 598);
  (*6023*) AddTo n_l3new_aaaaaa (Plain (Einsum [(T 599,[0;1;2;3;4;5])] [4;3;5;1;0;2]));
  (*6024*) AddTo n_l3new_aaaaaa (Times (Einsum [(T 599,[0;1;2;3;4;5])] [4;5;3;1;0;2]) (-1) 1);
  (*6025*) AddTo n_l3new_aaaaaa (Times (Einsum [(T 599,[0;1;2;3;4;5])] [5;3;4;1;0;2]) (-1) 1);
  (*6026*) AddTo n_l3new_aaaaaa (Times (Einsum [(T 599,[0;1;2;3;4;5])] [4;3;5;1;2;0]) (-1) 1);
  (*6027*) AddTo n_l3new_aaaaaa (Plain (Einsum [(T 599,[0;1;2;3;4;5])] [4;5;3;1;2;0]));
  (*6028*) AddTo n_l3new_aaaaaa (Plain (Einsum [(T 599,[0;1;2;3;4;5])] [5;3;4;1;2;0]));
  (*6029*) AddTo n_l3new_aaaaaa (Plain (Einsum [(T 599,[0;1;2;3;4;5])] [4;3;5;2;1;0]));
  (*6030*) AddTo n_l3new_aaaaaa (Times (Einsum [(T 599,[0;1;2;3;4;5])] [4;5;3;2;1;0]) (-1) 1);
  (*6031*) AddTo n_l3new_aaaaaa (Times (Einsum [(T 599,[0;1;2;3;4;5])] [5;3;4;2;1;0]) (-1) 1);
  (*6032*) Del (T 599);
  (*6033*) Assign (T 600) (Plain (Zeros [4;4;4;5;5;5]));
  (*6034*) AddTo (T 600) (Plain (Einsum [(n_l2'aaaa,[0;1;2;3]); (T 231,[3;4;5;6])] [2;4;5;0;1;6]));
  (*6035*) Del (T 231);
  (*6036*) AddTo n_l3new_aaaaaa (Times (Einsum [(T 600,[0;1;2;3;4;5])] [3;4;5;0;1;2]) (2) 1);
  (*6037*) AddTo n_l3new_aaaaaa (Times (Einsum [(T 600,[0;1;2;3;4;5])] [4;5;3;0;1;2]) (2) 1);
  (*6038*) AddTo n_l3new_aaaaaa (Times (Einsum [(T 600,[0;1;2;3;4;5])] [5;4;3;0;1;2]) (-2) 1);
  (*6039*) AddTo n_l3new_aaaaaa (Times (Einsum [(T 600,[0;1;2;3;4;5])] [3;4;5;0;2;1]) (-2) 1);
  (*6040*) AddTo n_l3new_aaaaaa (Times (Einsum [(T 600,[0;1;2;3;4;5])] [4;5;3;0;2;1]) (-2) 1);
  (*6041*) AddTo n_l3new_aaaaaa (Times (Einsum [(T 600,[0;1;2;3;4;5])] [5;4;3;0;2;1]) (2) 1);
  (*6042*) AddTo n_l3new_aaaaaa (Times (Einsum [(T 600,[0;1;2;3;4;5])] [3;4;5;1;0;2]) (-2) 1);
  (*6043*) AddTo n_l3new_aaaaaa (Times (Einsum [(T 600,[0;1;2;3;4;5])] [4;5;3;1;0;2]) (-2) 1);
  (*6044*) AddTo n_l3new_aaaaaa (Times (Einsum [(T 600,[0;1;2;3;4;5])] [5;4;3;1;0;2]) (2) 1);
  (*6045*) AddTo n_l3new_aaaaaa (Times (Einsum [(T 600,[0;1;2;3;4;5])] [3;4;5;2;0;1]) (2) 1);
  (*6046*) AddTo n_l3new_aaaaaa (Times (Einsum [(T 600,[0;1;2;3;4;5])] [4;5;3;2;0;1]) (2) 1);
  (*6047*) AddTo n_l3new_aaaaaa (Times (Einsum [(T 600,[0;1;2;3;4;5])] [5;4;3;2;0;1]) (-2) 1);
  (*6048*) AddTo n_l3new_aaaaaa (Times (Einsum [(T 600,[0;1;2;3;4;5])] [3;4;5;1;2;0]) (2) 1);
  (*6049*) AddTo n_l3new_aaaaaa (Times (Einsum [(T 600,[0;1;2;3;4;5])] [4;5;3;1;2;0]) (2) 1);
  (*6050*) AddTo n_l3new_aaaaaa (Times (Einsum [(T 600,[0;1;2;3;4;5])] [5;4;3;1;2;0]) (-2) 1);
  (*6051*) AddTo n_l3new_aaaaaa (Times (Einsum [(T 600,[0;1;2;3;4;5])] [3;4;5;2;1;0]) (-2) 1);
  (*6052*) AddTo n_l3new_aaaaaa (Times (Einsum [(T 600,[0;1;2;3;4;5])] [4;5;3;2;1;0]) (-2) 1);
  (*6053*) AddTo n_l3new_aaaaaa (Times (Einsum [(T 600,[0;1;2;3;4;5])] [5;4;3;2;1;0]) (2) 1);
  (*6054*) Del (T 600);
  (*6055*) Assign (T 601) (Plain (Zeros [4;4;4;5;5;5]));
  (*6056*) AddTo (T 601) (Plain (Einsum [(n_l2'aaaa,[0;1;2;3]); (n_v'aaaa'ovvv,[4;5;6;1])] [2;3;4;0;5;6]));
  (*6057*) Assign (T 602) (Plain (Zeros [4;4;4;5;5;5]));
  (*6058*) AddTo (T 602) (Times (Einsum [(n_v'aaaa'ovov,[0;1;2;3]); (T 327,[4;5;2;6])] [4;5;0;6;3;1]) (6) 1);
  (*6059*) Del (T 327);
  (*6060*) Assign (T 603) (Plain (Zeros [4;4;4;5;5;5]));
  (*6061*) AddTo (T 603) (Times (Einsum [(T 601,[0;1;2;3;4;5])] [0;1;2;3;4;5]) (2) 1);
  (*6062*) Del (T 601);
  (*6063*) AddTo (T 603) (Times (Einsum [(T 602,[0;1;2;3;4;5])] [0;1;2;3;5;4]) (-1) 1);
  (*6064*) Del (T 602);
  (*6065*) AddTo n_l3new_aaaaaa (Plain (Einsum [(T 603,[0;1;2;3;4;5])] [3;4;5;1;0;2]));
  (*6066*) AddTo n_l3new_aaaaaa (Times (Einsum [(T 603,[0;1;2;3;4;5])] [3;5;4;1;0;2]) (-1) 1);
  (*6067*) AddTo n_l3new_aaaaaa (Times (Einsum [(T 603,[0;1;2;3;4;5])] [4;3;5;1;0;2]) (-1) 1);
  (*6068*) AddTo n_l3new_aaaaaa (Plain (Einsum [(T 603,[0;1;2;3;4;5])] [5;3;4;1;0;2]));
  (*6069*) AddTo n_l3new_aaaaaa (Plain (Einsum [(T 603,[0;1;2;3;4;5])] [4;5;3;1;0;2]));
  (*6070*) AddTo n_l3new_aaaaaa (Times (Einsum [(T 603,[0;1;2;3;4;5])] [5;4;3;1;0;2]) (-1) 1);
  (*6071*) AddTo n_l3new_aaaaaa (Times (Einsum [(T 603,[0;1;2;3;4;5])] [3;4;5;1;2;0]) (-1) 1);
  (*6072*) AddTo n_l3new_aaaaaa (Plain (Einsum [(T 603,[0;1;2;3;4;5])] [3;5;4;1;2;0]));
  (*6073*) AddTo n_l3new_aaaaaa (Plain (Einsum [(T 603,[0;1;2;3;4;5])] [4;3;5;1;2;0]));
  (*6074*) AddTo n_l3new_aaaaaa (Times (Einsum [(T 603,[0;1;2;3;4;5])] [5;3;4;1;2;0]) (-1) 1);
  (*6075*) AddTo n_l3new_aaaaaa (Times (Einsum [(T 603,[0;1;2;3;4;5])] [4;5;3;1;2;0]) (-1) 1);
  (*6076*) AddTo n_l3new_aaaaaa (Plain (Einsum [(T 603,[0;1;2;3;4;5])] [5;4;3;1;2;0]));
  (*6077*) AddTo n_l3new_aaaaaa (Plain (Einsum [(T 603,[0;1;2;3;4;5])] [3;4;5;2;1;0]));
  (*6078*) AddTo n_l3new_aaaaaa (Times (Einsum [(T 603,[0;1;2;3;4;5])] [3;5;4;2;1;0]) (-1) 1);
  (*6079*) AddTo n_l3new_aaaaaa (Times (Einsum [(T 603,[0;1;2;3;4;5])] [4;3;5;2;1;0]) (-1) 1);
  (*6080*) AddTo n_l3new_aaaaaa (Plain (Einsum [(T 603,[0;1;2;3;4;5])] [5;3;4;2;1;0]));
  (*6081*) AddTo n_l3new_aaaaaa (Plain (Einsum [(T 603,[0;1;2;3;4;5])] [4;5;3;2;1;0]));
  (*6082*) AddTo n_l3new_aaaaaa (Times (Einsum [(T 603,[0;1;2;3;4;5])] [5;4;3;2;1;0]) (-1) 1);
  (*6083*) Del (T 603);
  (*6084*) Assign (T 604) (Plain (Zeros [4;4;4;5;5;5]));
  (*6085*) AddTo (T 604) (Plain (Einsum [(n_f'aa'vv,[0;1]); (n_l3'aaaaaa,[2;3;1;4;5;6])] [4;5;6;0;2;3]));
  (*6086*) Assign (T 605) (Plain (Zeros [4;4;4;5;5;5]));
  (*6087*) AddTo (T 605) (Plain (Einsum [(n_f'aa'ov,[0;1]); (T 194,[2;3;4;0;5;6])] [2;3;4;1;5;6]));
  (*6088*) Assign (T 606) (Plain (Zeros [4;4;4;5;5;5]));
  (*6089*) AddTo (T 606) (Plain (Einsum [(n_v'aaaa'vvvv,[0;1;2;3]); (n_l3'aaaaaa,[4;1;3;5;6;7])] [5;6;7;4;0;2]));
  (*6090*) Assign (T 607) (Plain (Zeros [4;4;4;5;5;5]));
  (*6091*) AddTo (T 607) (Times (Einsum [(T 604,[0;1;2;3;4;5])] [0;1;2;3;5;4]) (-6) 1);
  (*6092*) Del (T 604);
  (*6093*) AddTo (T 607) (Times (Einsum [(T 605,[0;1;2;3;4;5])] [0;1;2;3;5;4]) (6) 1);
  (*6094*) Del (T 605);
  (*6095*) AddTo (T 607) (Times (Einsum [(T 606,[0;1;2;3;4;5])] [0;1;2;3;5;4]) (-6) 1);
  (*6096*) Del (T 606);
  (*6097*) AddTo n_l3new_aaaaaa (Plain (Einsum [(T 607,[0;1;2;3;4;5])] [3;4;5;1;2;0]));
  (*6098*) AddTo n_l3new_aaaaaa (Plain (Einsum [(T 607,[0;1;2;3;4;5])] [5;3;4;1;2;0]));
  (*6099*) AddTo n_l3new_aaaaaa (Times (Einsum [(T 607,[0;1;2;3;4;5])] [5;4;3;1;2;0]) (-1) 1);
  (*6100*) Del (T 607);
  (*6101*) Assign (T 608) (Plain (Zeros [4;4;4;5;5;5]));
  (*6102*) AddTo (T 608) (Times (Einsum [(T 463,[0;1;2;3]); (n_l3'aaaaaa,[4;5;6;7;0;2])] [7;1;3;4;5;6]) (-6) 1);
  (*6103*) Del (T 463);
  (*6104*) Assign (T 609) (Plain (Zeros [4;4]));
  (*6105*) AddTo (T 609) (Plain (Einsum [(n_f'aa'oo,[0;1])] [0;1]));
  (*6106*) AddTo (T 609) (Plain (Einsum [(T 390,[0;1])] [1;0]));
  (*6107*) Del (T 390);
  (*6108*) Assign (T 610) (Plain (Zeros [4;4;4;5;5;5]));
  (*6109*) AddTo (T 610) (Times (Einsum [(T 609,[0;1]); (n_l3'aaaaaa,[2;3;4;5;6;0])] [5;6;1;2;3;4]) (6) 1);
  (*6110*) Assign (T 611) (Plain (Zeros [4;4;4;5;5;5]));
  (*6111*) AddTo (T 611) (Plain (Einsum [(T 608,[0;1;2;3;4;5])] [0;1;2;4;5;3]));
  (*6112*) Del (T 608);
  (*6113*) AddTo (T 611) (Times (Einsum [(T 610,[0;1;2;3;4;5])] [2;0;1;4;5;3]) (-1) 1);
  (*6114*) Del (T 610);
  (*6115*) AddTo n_l3new_aaaaaa (Plain (Einsum [(T 611,[0;1;2;3;4;5])] [4;5;3;0;1;2]));
  (*6116*) AddTo n_l3new_aaaaaa (Times (Einsum [(T 611,[0;1;2;3;4;5])] [4;5;3;1;0;2]) (-1) 1);
  (*6117*) AddTo n_l3new_aaaaaa (Plain (Einsum [(T 611,[0;1;2;3;4;5])] [4;5;3;1;2;0]));
  (*6118*) Del (T 611);
  (*6119*) Assign (T 612) (Plain (Zeros [4;4;4;4;4;5]));
  (*6120*) AddTo (T 612) (Plain (Einsum [(n_t2'aaaa,[0;1;2;3]); (n_l3'aaaaaa,[4;2;3;5;6;7])] [5;6;7;0;1;4]));
  (*6121*) Assign (T 613) (Plain (Zeros [4;4;4;4;4;5]));
  (*6122*) AddTo (T 613) (Times (Einsum [(T 612,[0;1;2;3;4;5])] [0;1;2;4;3;5]) (-1) 1);
  (*6123*) Del (T 612);
  (*6124*) AddTo (T 613) (Times (Einsum [(T 326,[0;1;2;3;4;5])] [0;1;2;4;3;5]) (-1) 1);
  (*6125*) Del (T 326);
  (*6126*) Assign (T 614) (Plain (Zeros [4;4;4;5;5;5]));
  (*6127*) AddTo (T 614) (Times (Einsum [(n_v'aaaa'ovov,[0;1;2;3]); (T 613,[4;5;6;0;2;7])] [4;5;6;7;1;3]) (6) 1);
  (*6128*) Del (T 613);
  (*6129*) AddTo n_l3new_aaaaaa (Times (Einsum [(T 614,[0;1;2;3;4;5])] [3;5;4;1;2;0]) (-1) 1);
  (*6130*) AddTo n_l3new_aaaaaa (Plain (Einsum [(T 614,[0;1;2;3;4;5])] [5;3;4;1;2;0]));
  (*6131*) AddTo n_l3new_aaaaaa (Times (Einsum [(T 614,[0;1;2;3;4;5])] [5;4;3;1;2;0]) (-1) 1);
  (*6132*) Del (T 614);
  (*6133*) Assign (T 615) (Plain (Zeros [4;4;4;5;5;5]));
  (*6134*) AddTo (T 615) (Plain (Einsum [(n_l2'aaaa,[0;1;2;3]); (n_v'aaaa'ooov,[4;3;5;6])] [2;4;5;0;1;6]));
  (*6135*) Assign (T 616) (Plain (Zeros [4;4;4;5;5;5]));
  (*6136*) AddTo (T 616) (Times (Einsum [(n_v'aaaa'ovov,[0;1;2;3]); (T 411,[4;5;6;1])] [4;0;2;5;6;3]) (2) 1);
  (*6137*) Assign (T 617) (Plain (Zeros [4;4;4;5;5;5]));
  (*6138*) AddTo (T 617) (Times (Einsum [(T 615,[0;1;2;3;4;5])] [0;1;2;4;3;5]) (-2) 1);
  (*6139*) Del (T 615);
  (*6140*) AddTo (T 617) (Plain (Einsum [(T 616,[0;1;2;3;4;5])] [0;2;1;4;3;5]));
  (*6141*) Del (T 616);
  (*6142*) AddTo n_l3new_aaaaaa (Plain (Einsum [(T 617,[0;1;2;3;4;5])] [4;3;5;0;1;2]));
  (*6143*) AddTo n_l3new_aaaaaa (Times (Einsum [(T 617,[0;1;2;3;4;5])] [4;5;3;0;1;2]) (-1) 1);
  (*6144*) AddTo n_l3new_aaaaaa (Times (Einsum [(T 617,[0;1;2;3;4;5])] [5;3;4;0;1;2]) (-1) 1);
  (*6145*) AddTo n_l3new_aaaaaa (Times (Einsum [(T 617,[0;1;2;3;4;5])] [4;3;5;0;2;1]) (-1) 1);
  (*6146*) AddTo n_l3new_aaaaaa (Plain (Einsum [(T 617,[0;1;2;3;4;5])] [4;5;3;0;2;1]));
  (*6147*) AddTo n_l3new_aaaaaa (Plain (Einsum [(T 617,[0;1;2;3;4;5])] [5;3;4;0;2;1]));
  (*6148*) AddTo n_l3new_aaaaaa (Times (Einsum [(T 617,[0;1;2;3;4;5])] [4;3;5;1;0;2]) (-1) 1);
  (*6149*) AddTo n_l3new_aaaaaa (Plain (Einsum [(T 617,[0;1;2;3;4;5])] [4;5;3;1;0;2]));
  (*6150*) AddTo n_l3new_aaaaaa (Plain (Einsum [(T 617,[0;1;2;3;4;5])] [5;3;4;1;0;2]));
  (*6151*) AddTo n_l3new_aaaaaa (Plain (Einsum [(T 617,[0;1;2;3;4;5])] [4;3;5;2;0;1]));
  (*6152*) AddTo n_l3new_aaaaaa (Times (Einsum [(T 617,[0;1;2;3;4;5])] [4;5;3;2;0;1]) (-1) 1);
  (*6153*) AddTo n_l3new_aaaaaa (Times (Einsum [(T 617,[0;1;2;3;4;5])] [5;3;4;2;0;1]) (-1) 1);
  (*6154*) AddTo n_l3new_aaaaaa (Plain (Einsum [(T 617,[0;1;2;3;4;5])] [4;3;5;1;2;0]));
  (*6155*) AddTo n_l3new_aaaaaa (Times (Einsum [(T 617,[0;1;2;3;4;5])] [4;5;3;1;2;0]) (-1) 1);
  (*6156*) AddTo n_l3new_aaaaaa (Times (Einsum [(T 617,[0;1;2;3;4;5])] [5;3;4;1;2;0]) (-1) 1);
  (*6157*) AddTo n_l3new_aaaaaa (Times (Einsum [(T 617,[0;1;2;3;4;5])] [4;3;5;2;1;0]) (-1) 1);
  (*6158*) AddTo n_l3new_aaaaaa (Plain (Einsum [(T 617,[0;1;2;3;4;5])] [4;5;3;2;1;0]));
  (*6159*) AddTo n_l3new_aaaaaa (Plain (Einsum [(T 617,[0;1;2;3;4;5])] [5;3;4;2;1;0]));
  (*6160*) Del (T 617);
  (*6161*) Assign (T 618) (Plain (Zeros [4;4;4;5;5;5]));
  (*6162*) AddTo (T 618) (Times (Einsum [(T 455,[0;1]); (n_l3'aaaaaa,[2;3;1;4;5;6])] [4;5;6;2;3;0]) (6) 1);
  (*6163*) Assign (T 619) (Plain (Zeros [4;4;4;5;5;5]));
  (*6164*) AddTo (T 619) (Times (Einsum [(T 362,[0;1]); (T 194,[2;3;4;0;5;6])] [2;3;4;5;6;1]) (6) 1);
  (*6165*) Assign (T 620) (Plain (Zeros [4;4;4;5;5;5]));
  (*6166*) AddTo (T 620) (Plain (Einsum [(T 618,[0;1;2;3;4;5])] [1;2;0;3;4;5]));
  (*6167*) Del (T 618);
  (*6168*) AddTo (T 620) (Times (Einsum [(T 619,[0;1;2;3;4;5])] [0;1;2;4;3;5]) (-1) 1);
  (*6169*) Del (T 619);
  (*6170*) AddTo n_l3new_aaaaaa (Plain (Einsum [(T 620,[0;1;2;3;4;5])] [4;3;5;1;2;0]));
  (*6171*) AddTo n_l3new_aaaaaa (Times (Einsum [(T 620,[0;1;2;3;4;5])] [4;5;3;1;2;0]) (-1) 1);
  (*6172*) AddTo n_l3new_aaaaaa (Times (Einsum [(T 620,[0;1;2;3;4;5])] [5;3;4;1;2;0]) (-1) 1);
  (*6173*) Del (T 620);
  (*6174*) Assign (T 621) (Plain (Zeros [4;4;4;5;5;5]));
  (*6175*) AddTo (T 621) (Times (Einsum [(T 414,[0;1]); (n_l3'aaaaaa,[2;3;4;5;6;0])] [5;6;1;2;3;4]) (6) 1);
  (*6176*) AddTo n_l3new_aaaaaa (Plain (Einsum [(T 621,[0;1;2;3;4;5])] [5;3;4;1;0;2]));
  (*6177*) AddTo n_l3new_aaaaaa (Times (Einsum [(T 621,[0;1;2;3;4;5])] [5;3;4;1;2;0]) (-1) 1);
  (*6178*) AddTo n_l3new_aaaaaa (Plain (Einsum [(T 621,[0;1;2;3;4;5])] [5;3;4;2;1;0]));
  (*6179*) Del (T 621);
  (*6180*) Assign (T 622) (Plain (Zeros [4;4;4;5;5;5]));
  (*6181*) AddTo (T 622) (Plain (Einsum [(T 254,[0;1;2;3]); (n_l3'aaaaaa,[4;5;6;7;0;1])] [7;2;3;4;5;6]));
  (*6182*) AddTo n_l3new_aaaaaa (Times (Einsum [(T 622,[0;1;2;3;4;5])] [3;4;5;0;1;2]) (-6) 1);
  (*6183*) AddTo n_l3new_aaaaaa (Times (Einsum [(T 622,[0;1;2;3;4;5])] [3;4;5;0;2;1]) (6) 1);
  (*6184*) AddTo n_l3new_aaaaaa (Times (Einsum [(T 622,[0;1;2;3;4;5])] [3;4;5;1;0;2]) (6) 1);
  (*6185*) AddTo n_l3new_aaaaaa (Times (Einsum [(T 622,[0;1;2;3;4;5])] [3;4;5;2;0;1]) (-6) 1);
  (*6186*) AddTo n_l3new_aaaaaa (Times (Einsum [(T 622,[0;1;2;3;4;5])] [3;4;5;1;2;0]) (-6) 1);
  (*6187*) AddTo n_l3new_aaaaaa (Times (Einsum [(T 622,[0;1;2;3;4;5])] [3;4;5;2;1;0]) (6) 1);
  (*6188*) Del (T 622);
  (*6189*) Assign (T 623) (Plain (Zeros [4;4;4;5;5;5]));
  (*6190*) AddTo (T 623) (Plain (Einsum [(T 240,[0;1;2;3]); (n_l3'abaaba,[4;1;5;6;0;7])] [6;7;2;4;5;3]));
  (*6191*) Assign (T 624) (Plain (Zeros [4;4;4;5;5;5]));
  (*6192*) AddTo (T 624) (Plain (Einsum [(T 6,[0;1;2;3]); (T 92,[0;1;4;5;6;7])] [4;5;2;6;7;3]));
  (*6193*) Assign (T 625) (Plain (Zeros [4;4;4;5;5;5]));
  (*6194*) AddTo (T 625) (Times (Einsum [(T 623,[0;1;2;3;4;5])] [0;1;2;3;4;5]) (100000000000001) 25000000000000);
  (*6195*) Del (T 623);
  (*6196*) AddTo (T 625) (Times (Einsum [(T 624,[0;1;2;3;4;5])] [0;1;2;3;4;5]) (-2) 1);
  (*6197*) Del (T 624);
  (*6198*) AddTo n_l3new_aaaaaa (Times (Einsum [(T 625,[0;1;2;3;4;5])] [3;4;5;1;0;2]) (-1) 1);
  (*6199*) AddTo n_l3new_aaaaaa (Times (Einsum [(T 625,[0;1;2;3;4;5])] [4;5;3;1;0;2]) (-1) 1);
  (*6200*) AddTo n_l3new_aaaaaa (Plain (Einsum [(T 625,[0;1;2;3;4;5])] [5;4;3;1;0;2]));
  (*6201*) AddTo n_l3new_aaaaaa (Plain (Einsum [(T 625,[0;1;2;3;4;5])] [3;4;5;1;2;0]));
  (*6202*) AddTo n_l3new_aaaaaa (Plain (Einsum [(T 625,[0;1;2;3;4;5])] [4;5;3;1;2;0]));
  (*6203*) AddTo n_l3new_aaaaaa (Times (Einsum [(T 625,[0;1;2;3;4;5])] [5;4;3;1;2;0]) (-1) 1);
  (*6204*) AddTo n_l3new_aaaaaa (Times (Einsum [(T 625,[0;1;2;3;4;5])] [3;4;5;2;1;0]) (-1) 1);
  (*6205*) AddTo n_l3new_aaaaaa (Times (Einsum [(T 625,[0;1;2;3;4;5])] [4;5;3;2;1;0]) (-1) 1);
  (*6206*) AddTo n_l3new_aaaaaa (Plain (Einsum [(T 625,[0;1;2;3;4;5])] [5;4;3;2;1;0]));
  (*6207*) Del (T 625);
  (*6208*) Assign (T 626) (Plain (Zeros [4;4;4;5;5;5]));
  (*6209*) AddTo (T 626) (Times (Einsum [(n_v'aaaa'ovvv,[0;1;2;3]); (T 194,[4;5;6;0;7;3])] [4;5;6;7;1;2]) (-1) 1);
  (*6210*) Del (T 194);
  (*6211*) AddTo n_l3new_aaaaaa (Times (Einsum [(T 626,[0;1;2;3;4;5])] [3;4;5;1;2;0]) (-6) 1);
  (*6212*) AddTo n_l3new_aaaaaa (Times (Einsum [(T 626,[0;1;2;3;4;5])] [3;5;4;1;2;0]) (6) 1);
  (*6213*) AddTo n_l3new_aaaaaa (Times (Einsum [(T 626,[0;1;2;3;4;5])] [4;3;5;1;2;0]) (6) 1);
  (*6214*) AddTo n_l3new_aaaaaa (Times (Einsum [(T 626,[0;1;2;3;4;5])] [5;3;4;1;2;0]) (-6) 1);
  (*6215*) AddTo n_l3new_aaaaaa (Times (Einsum [(T 626,[0;1;2;3;4;5])] [4;5;3;1;2;0]) (-6) 1);
  (*6216*) AddTo n_l3new_aaaaaa (Times (Einsum [(T 626,[0;1;2;3;4;5])] [5;4;3;1;2;0]) (6) 1);
  (*6217*) Del (T 626);
  (*6218*) Assign (T 627) (Plain (Zeros [6;6;7;7;4;5]));
  (*6219*) AddTo (T 627) (Plain (Einsum [(n_l2'bbbb,[0;1;2;3]); (n_v'aabb'ovoo,[4;5;6;3])] [2;6;0;1;4;5]));
  (*6220*) Assign (T 628) (Plain (Zeros [6;6;7;7;4;5]));
  (*6221*) AddTo (T 628) (Plain (Einsum [(n_v'aabb'ovov,[0;1;2;3]); (T 117,[4;5;6;3])] [4;2;5;6;0;1]));
  (*6222*) Del (T 117);
  (*6223*) Assign (T 629) (Plain (Zeros [6;6;5;5]));
  (*6224*) AddTo (T 629) (Plain (Einsum [(n_v'aabb'vvoo,[0;1;2;3])] [2;3;0;1]));
  (*6225*) AddTo (T 629) (Plain (Einsum [(T 23,[0;1;2;3])] [0;1;3;2]));
  (*6226*) AddTo (T 629) (Times (Einsum [(T 24,[0;1;2;3])] [0;1;2;3]) (-100000000000001) 100000000000000);
  (*6227*) Assign (T 630) (Plain (Zeros [6;6;7;7;4;5]));
  (*6228*) AddTo (T 630) (Times (Einsum [(T 629,[0;1;2;3]); (n_l3'babbab,[4;2;5;6;7;0])] [6;1;4;5;7;3]) (-2) 1);
  (*6229*) Del (T 629);
  (*6230*) Assign (T 631) (Plain (Zeros [6;6;7;7;4;5]));
  (*6231*) AddTo (T 631) (Times (Einsum [(T 507,[0;1;2;3]); (n_l3'babbab,[4;5;6;7;2;0])] [7;1;4;6;3;5]) (-2) 1);
  (*6232*) Assign (T 632) (Plain (Zeros [6;6;7;7;4;5]));
  (*6233*) AddTo (T 632) (Times (Einsum [(T 7,[0;1;2;3]); (T 59,[4;0;5;6;7;2])] [4;1;5;6;7;3]) (2) 1);
  (*6234*) Assign (T 633) (Plain (Zeros [6;6]));
  (*6235*) AddTo (T 633) (Plain (Einsum [(n_t1'bb,[0;1]); (T 20,[2;1])] [0;2]));
  (*6236*) Del (T 20);
  (*6237*) Assign (T 634) (Plain (Zeros [6;6]));
  (*6238*) AddTo (T 634) (Plain (Einsum [(T 220,[0;1])] [1;0]));
  (*6239*) Del (T 220);
  (*6240*) AddTo (T 634) (Plain (Einsum [(T 222,[0;1])] [0;1]));
  (*6241*) Del (T 222);
  (*6242*) AddTo (T 634) (Plain (Einsum [(T 633,[0;1])] [0;1]));
  (*6243*) Del (T 633);
  (*6244*) AddTo (T 634) (Times (Einsum [(T 224,[0;1])] [1;0]) (-1) 1);
  (*6245*) Del (T 224);
  (*6246*) Assign (T 635) (Plain (Zeros [6;6;7;7;4;5]));
  (*6247*) AddTo (T 635) (Times (Einsum [(T 634,[0;1]); (n_l3'babbab,[2;3;4;5;6;0])] [5;1;2;4;6;3]) (-2) 1);
  (*6248*) Del (T 634);
  (*6249*) Assign (T 636) (Plain (Zeros [6;6]));
  (*6250*) AddTo (T 636) (Plain (Einsum [(n_f'bb'oo,[0;1])] [0;1]));
  (*6251*) AddTo (T 636) (Plain (Einsum [(T 541,[0;1])] [1;0]));
  (*6252*) Del (T 541);
  (*6253*) Assign (T 637) (Plain (Zeros [6;6;7;7;4;5]));
  (*6254*) AddTo (T 637) (Times (Einsum [(T 636,[0;1]); (n_l3'babbab,[2;3;4;5;6;0])] [5;1;2;4;6;3]) (-2) 1);
  (*6255*) Assign (T 638) (Plain (Zeros [6;6;7;7;4;5]));
  (*6256*) AddTo (T 638) (Times (Einsum [(T 627,[0;1;2;3;4;5])] [0;1;3;2;4;5]) (2) 1);
  (*6257*) Del (T 627);
  (*6258*) AddTo (T 638) (Times (Einsum [(T 628,[0;1;2;3;4;5])] [0;1;3;2;4;5]) (2) 1);
  (*6259*) Del (T 628);
  (*6260*) AddTo (T 638) (Times (Einsum [(T 630,[0;1;2;3;4;5])] [0;1;3;2;4;5]) (-1) 1);
  (*6261*) Del (T 630);
  (*6262*) AddTo (T 638) (Plain (Einsum [(T 631,[0;1;2;3;4;5])] [0;1;3;2;4;5]));
  (*6263*) Del (T 631);
  (*6264*) AddTo (T 638) (Times (Einsum [(T 632,[0;1;2;3;4;5])] [0;1;3;2;4;5]) (-1) 1);
  (*6265*) Del (T 632);
  (*6266*) AddTo (T 638) (Times (Einsum [(T 635,[0;1;2;3;4;5])] [0;1;3;2;4;5]) (-1) 1);
  (*6267*) Del (T 635);
  (*6268*) AddTo (T 638) (Plain (Einsum [(T 637,[0;1;2;3;4;5])] [1;0;3;2;4;5]));
  (*6269*) Del (T 637);
  (*6270*) AddTo n_l3new_babbab (Times (Einsum [(T 638,[0;1;2;3;4;5])] [3;5;2;0;4;1]) (-1) 1);
  (*6271*) AddTo n_l3new_babbab (Plain (Einsum [(T 638,[0;1;2;3;4;5])] [3;5;2;1;4;0]));
  (*6272*) Del (T 638);
  (*6273*) Assign (T 639) (Plain (Zeros [6;6;7;7;4;5]));
  (*6274*) AddTo (T 639) (Plain (Einsum [(n_l2'abab,[0;1;2;3]); (n_v'bbbb'ovvv,[4;5;6;1])] [3;4;5;6;2;0]));
  (*6275*) Assign (T 640) (Plain (Zeros [6;6;7;7;4;5]));
  (*6276*) AddTo (T 640) (Plain (Einsum [(n_l2'abab,[0;1;2;3]); (n_v'aabb'vvov,[4;0;5;6])] [3;5;1;6;2;4]));
  (*6277*) Assign (T 641) (Plain (Zeros [6;6;7;7;4;5]));
  (*6278*) AddTo (T 641) (Plain (Einsum [(n_v'aabb'ooov,[0;1;2;3]); (T 62,[4;5;6;0;1;7])] [4;2;5;3;6;7]));
  (*6279*) Assign (T 642) (Plain (Zeros [6;6;7;7;4;5]));
  (*6280*) AddTo (T 642) (Times (Einsum [(T 8,[0;1;2;3]); (T 62,[4;5;2;6;3;7])] [4;0;5;1;6;7]) (-1) 1);
  (*6281*) Assign (T 643) (Plain (Zeros [6;6;7;7]));
  (*6282*) AddTo (T 643) (Times (Einsum [(n_t2'bbbb,[0;1;2;3]); (T 11,[1;4;3;5])] [0;4;2;5]) (100000000000001) 50000000000000);
  (*6283*) Assign (T 644) (Plain (Zeros [6;6;7;7]));
  (*6284*) AddTo (T 644) (Plain (Einsum [(n_v'bbbb'ovov,[0;1;2;3])] [0;2;1;3]));
  (*6285*) AddTo (T 644) (Times (Einsum [(n_v'bbbb'oovv,[0;1;2;3])] [0;1;2;3]) (-1) 1);
  (*6286*) AddTo (T 644) (Times (Einsum [(T 10,[0;1;2;3])] [0;1;2;3]) (100000000000001) 100000000000000);
  (*6287*) AddTo (T 644) (Times (Einsum [(T 643,[0;1;2;3])] [0;1;2;3]) (-1) 1);
  (*6288*) Del (T 643);
  (*6289*) AddTo (T 644) (Times (Einsum [(T 14,[0;1;2;3])] [0;1;3;2]) (-1) 1);
  (*6290*) AddTo n_l3new_abaaba (Times (Einsum [(T 644,[0;1;2;3]); (n_l3'abaaba,[4;2;5;6;0;7])] [4;3;5;6;1;7]) (2) 1);
  (*6291*) Assign (T 645) (Plain (Zeros [6;6;7;7;4;5]));
  (*6292*) AddTo (T 645) (Times (Einsum [(T 644,[0;1;2;3]); (n_l3'babbab,[4;5;2;6;7;0])] [6;1;4;3;7;5]) (2) 1);
  (*6293*) Del (T 644);
  (*6294*) Assign (T 646) (Plain (Zeros [6;7;4;5]));
  (*6295*) AddTo (T 646) (Times (Einsum [(n_t2'abab,[0;1;2;3]); (T 11,[1;4;3;5])] [4;5;0;2]) (100000000000001) 100000000000000);
  (*6296*) Assign (T 647) (Plain (Zeros [6;7;4;5]));
  (*6297*) AddTo (T 647) (Plain (Einsum [(n_v'aabb'ovov,[0;1;2;3])] [2;3;0;1]));
  (*6298*) AddTo (T 647) (Plain (Einsum [(T 16,[0;1;2;3])] [0;1;2;3]));
  (*6299*) AddTo (T 647) (Times (Einsum [(T 17,[0;1;2;3])] [0;1;2;3]) (100000000000001) 50000000000000);
  (*6300*) AddTo (T 647) (Times (Einsum [(T 646,[0;1;2;3])] [0;1;2;3]) (-1) 1);
  (*6301*) Assign (T 648) (Plain (Zeros [6;6;7;7;4;5]));
  (*6302*) AddTo (T 648) (Times (Einsum [(T 647,[0;1;2;3]); (n_l3'abaaba,[4;5;3;6;7;2])] [7;0;5;1;6;4]) (2) 1);
  (*6303*) Assign (T 649) (Plain (Zeros [6;6;7;7;4;5]));
  (*6304*) AddTo (T 649) (Times (Einsum [(T 517,[0;1;2;3]); (T 75,[4;0;1;5;6;7])] [4;2;5;3;6;7]) (2) 1);
  (*6305*) Del (T 517);
  (*6306*) Assign (T 650) (Plain (Zeros [6;6;7;7;4;5]));
  (*6307*) AddTo (T 650) (Times (Einsum [(T 214,[0;1;2;3]); (T 75,[4;0;2;5;6;7])] [4;1;5;3;6;7]) (2) 1);
  (*6308*) Del (T 214);
  (*6309*) Assign (T 651) (Plain (Zeros [6;6;7;7;4;5]));
  (*6310*) AddTo (T 651) (Times (Einsum [(n_v'bbbb'ovov,[0;1;2;3]); (T 298,[4;1;5;6])] [0;2;3;4;5;6]) (2) 1);
  (*6311*) Assign (T 652) (Plain (Zeros [6;6;7;7;4;5]));
  (*6312*) AddTo (T 652) (Times (Einsum [(n_v'aabb'ovov,[0;1;2;3]); (T 101,[4;5;6;1])] [2;4;3;5;0;6]) (2) 1);
  (*6313*) Assign (T 653) (Plain (Zeros [6;6;7;7;4;5]));
  (*6314*) AddTo (T 653) (Plain (Einsum [(n_v'bbbb'ovov,[0;1;2;3]); (T 97,[4;2;5;6])] [0;4;3;1;5;6]));
  (*6315*) Del (T 97);
  (*6316*) Assign (T 654) (Plain (Zeros [6;6;7;7;4;5]));
  (*6317*) AddTo (T 654) (Times (Einsum [(n_v'aabb'ovov,[0;1;2;3]); (T 67,[4;5;6;0])] [2;4;3;5;6;1]) (2) 1);
  (*6318*) Assign (T 655) (Plain (Zeros [6;6;7;7;4;5]));
  (*6319*) AddTo (T 655) (Plain (Einsum [(n_l2'abab,[0;1;2;3]); (T 538,[3;4;5;6])] [4;5;1;6;2;0]));
  (*6320*) Del (T 538);
  (*6321*) Assign (T 656) (Plain (Zeros [6;6;7;7;4;5]));
  (*6322*) AddTo (T 656) (Plain (Einsum [(n_l2'abab,[0;1;2;3]); (T 32,[4;5;2;6])] [3;4;1;5;6;0]));
  (*6323*) Assign (T 657) (Plain (Zeros [6;6;7;7;4;5]));
  (*6324*) AddTo (T 657) (Plain (Einsum [(n_l1'bb,[0;1]); (n_v'aabb'ovov,[2;3;4;5])] [1;4;0;5;2;3]));
  (*6325*) AddTo (T 657) (Times (Einsum [(T 639,[0;1;2;3;4;5])] [0;1;2;3;4;5]) (-1) 1);
  (*6326*) Del (T 639);
  (*6327*) AddTo (T 657) (Plain (Einsum [(T 640,[0;1;2;3;4;5])] [0;1;2;3;4;5]));
  (*6328*) Del (T 640);
  (*6329*) AddTo (T 657) (Times (Einsum [(T 641,[0;1;2;3;4;5])] [0;1;2;3;4;5]) (-2) 1);
  (*6330*) Del (T 641);
  (*6331*) AddTo (T 657) (Times (Einsum [(T 642,[0;1;2;3;4;5])] [0;1;2;3;4;5]) (-2) 1);
  (*6332*) Del (T 642);
  (*6333*) AddTo (T 657) (Plain (Einsum [(T 645,[0;1;2;3;4;5])] [0;1;2;3;4;5]));
  (*6334*) Del (T 645);
  (*6335*) AddTo (T 657) (Plain (Einsum [(T 648,[0;1;2;3;4;5])] [0;1;2;3;4;5]));
  (*6336*) Del (T 648);
  (*6337*) AddTo (T 657) (Times (Einsum [(T 649,[0;1;2;3;4;5])] [0;1;2;3;4;5]) (-1) 1);
  (*6338*) Del (T 649);
  (*6339*) AddTo (T 657) (Times (Einsum [(T 650,[0;1;2;3;4;5])] [0;1;2;3;4;5]) (-1) 1);
  (*6340*) Del (T 650);
  (*6341*) AddTo (T 657) (Plain (Einsum [(T 651,[0;1;2;3;4;5])] [1;0;3;2;4;5]));
  (*6342*) Del (T 651);
  (*6343*) AddTo (T 657) (Times (Einsum [(T 652,[0;1;2;3;4;5])] [1;0;3;2;4;5]) (-1) 1);
  (*6344*) Del (T 652);
  (*6345*) AddTo (T 657) (Plain (Einsum [(T 653,[0;1;2;3;4;5])] [1;0;3;2;4;5]));
  (*6346*) Del (T 653);
  (*6347*) AddTo (T 657) (Times (Einsum [(T 654,[0;1;2;3;4;5])] [1;0;3;2;4;5]) (-1) 1);
  (*6348*) Del (T 654);
  (*6349*) AddTo (T 657) (Plain (Einsum [(T 655,[0;1;2;3;4;5])] [0;1;2;3;4;5]));
  (*6350*) Del (T 655);
  (*6351*) AddTo (T 657) (Times (Einsum [(T 656,[0;1;2;3;4;5])] [0;1;2;3;4;5]) (-1) 1);
  (*6352*) Del (T 656);
  (*6353*) AddTo n_l3new_babbab (Plain (Einsum [(T 657,[0;1;2;3;4;5])] [2;5;3;0;4;1]));
  (*6354*) AddTo n_l3new_babbab (Times (Einsum [(T 657,[0;1;2;3;4;5])] [3;5;2;0;4;1]) (-1) 1);
  (*6355*) AddTo n_l3new_babbab (Times (Einsum [(T 657,[0;1;2;3;4;5])] [2;5;3;1;4;0]) (-1) 1);
  (*6356*) AddTo n_l3new_babbab (Plain (Einsum [(T 657,[0;1;2;3;4;5])] [3;5;2;1;4;0]));
  (*6357*) Del (T 657);
  (*6358*) Assign (T 658) (Plain (Zeros [6;6;7;7;4;5]));
  (*6359*) AddTo (T 658) (Plain (Einsum [(n_l2'bbbb,[0;1;2;3]); (n_v'aabb'ovvv,[4;5;6;1])] [2;3;0;6;4;5]));
  (*6360*) Assign (T 659) (Plain (Zeros [6;6;7;7;4;5]));
  (*6361*) AddTo (T 659) (Plain (Einsum [(n_f'bb'vv,[0;1]); (n_l3'babbab,[2;3;1;4;5;6])] [4;6;0;2;5;3]));
  (*6362*) Assign (T 660) (Plain (Zeros [6;6;7;7;4;5]));
  (*6363*) AddTo (T 660) (Plain (Einsum [(n_f'bb'ov,[0;1]); (T 75,[2;3;0;4;5;6])] [2;3;1;4;5;6]));
  (*6364*) Assign (T 661) (Plain (Zeros [6;6;7;7;4;5]));
  (*6365*) AddTo (T 661) (Plain (Einsum [(n_v'aabb'vvvv,[0;1;2;3]); (n_l3'babbab,[4;1;3;5;6;7])] [5;7;4;2;6;0]));
  (*6366*) Assign (T 662) (Plain (Zeros [6;6;7;7;4;5]));
  (*6367*) AddTo (T 662) (Times (Einsum [(n_v'bbbb'ovvv,[0;1;2;3]); (T 75,[4;5;0;3;6;7])] [4;5;1;2;6;7]) (-1) 1);
  (*6368*) Assign (T 663) (Plain (Zeros [6;6;7;7;4;5]));
  (*6369*) AddTo (T 663) (Plain (Einsum [(n_v'aabb'vvov,[0;1;2;3]); (T 75,[4;5;2;6;7;1])] [4;5;6;3;7;0]));
  (*6370*) Assign (T 664) (Plain (Zeros [6;6;7;7;4;5]));
  (*6371*) AddTo (T 664) (Plain (Einsum [(n_v'aabb'ovvv,[0;1;2;3]); (T 59,[4;5;6;3;7;0])] [4;5;6;2;7;1]));
  (*6372*) Assign (T 665) (Plain (Zeros [7;7;4;4]));
  (*6373*) AddTo (T 665) (Times (Einsum [(n_v'aabb'oovv,[0;1;2;3])] [2;3;0;1]) (99999999999999) 100000000000000);
  (*6374*) AddTo (T 665) (Times (Einsum [(T 247,[0;1;2;3])] [1;0;2;3]) (99999999999999) 100000000000000);
  (*6375*) Del (T 247);
  (*6376*) AddTo (T 665) (Times (Einsum [(T 248,[0;1;2;3])] [0;1;2;3]) (-1) 1);
  (*6377*) Del (T 248);
  (*6378*) Assign (T 666) (Plain (Zeros [6;6;7;7;4;5]));
  (*6379*) AddTo (T 666) (Times (Einsum [(T 665,[0;1;2;3]); (n_l3'babbab,[4;5;0;6;2;7])] [6;7;4;1;3;5]) (-100000000000001) 50000000000000);
  (*6380*) Assign (T 667) (Plain (Zeros [6;6;7;7;4;5]));
  (*6381*) AddTo (T 667) (Times (Einsum [(T 580,[0;1]); (n_l3'babbab,[2;3;1;4;5;6])] [4;6;2;0;5;3]) (-2) 1);
  (*6382*) Assign (T 668) (Plain (Zeros [6;6;7;7;4;5]));
  (*6383*) AddTo (T 668) (Times (Einsum [(T 32,[0;1;2;3]); (T 75,[4;5;0;6;2;7])] [4;5;6;1;3;7]) (2) 1);
  (*6384*) Assign (T 669) (Plain (Zeros [6;6;6;7;4;4]));
  (*6385*) AddTo (T 669) (Plain (Einsum [(n_t2'abab,[0;1;2;3]); (n_l3'babbab,[4;2;3;5;6;7])] [5;7;1;4;6;0]));
  (*6386*) Assign (T 670) (Plain (Zeros [6;6;6;7;4;4]));
  (*6387*) AddTo (T 670) (Plain (Einsum [(T 669,[0;1;2;3;4;5])] [0;1;2;3;4;5]));
  (*6388*) Del (T 669);
  (*6389*) AddTo (T 670) (Plain (Einsum [(T 99,[0;1;2;3;4;5])] [0;1;2;3;4;5]));
  (*6390*) Del (T 99);
  (*6391*) Assign (T 671) (Plain (Zeros [6;6;7;7;4;5]));
  (*6392*) AddTo (T 671) (Times (Einsum [(n_v'aabb'ovov,[0;1;2;3]); (T 670,[4;5;2;6;7;0])] [4;5;3;6;7;1]) (2) 1);
  (*6393*) Del (T 670);
  (*6394*) Assign (T 672) (Plain (Zeros [6;6;7;7;4;5]));
  (*6395*) AddTo (T 672) (Times (Einsum [(T 228,[0;1]); (T 75,[2;3;0;4;5;6])] [2;3;4;1;5;6]) (2) 1);
  (*6396*) Assign (T 673) (Plain (Zeros [6;6;7;7;4;5]));
  (*6397*) AddTo (T 673) (Times (Einsum [(n_v'aabb'ovov,[0;1;2;3]); (T 79,[4;5;2;6])] [4;5;3;6;0;1]) (2) 1);
  (*6398*) Del (T 79);
  (*6399*) Assign (T 674) (Plain (Zeros [6;6;7;7;4;5]));
  (*6400*) AddTo (T 674) (Times (Einsum [(n_l1'aa,[0;1]); (n_v'bbbb'ovov,[2;3;4;5])] [2;4;3;5;1;0]) (-1) 1);
  (*6401*) AddTo (T 674) (Times (Einsum [(T 658,[0;1;2;3;4;5])] [0;1;3;2;4;5]) (2) 1);
  (*6402*) Del (T 658);
  (*6403*) AddTo (T 674) (Times (Einsum [(T 659,[0;1;2;3;4;5])] [0;1;3;2;4;5]) (-2) 1);
  (*6404*) Del (T 659);
  (*6405*) AddTo (T 674) (Times (Einsum [(T 660,[0;1;2;3;4;5])] [0;1;3;2;4;5]) (2) 1);
  (*6406*) Del (T 660);
  (*6407*) AddTo (T 674) (Times (Einsum [(T 661,[0;1;2;3;4;5])] [0;1;3;2;4;5]) (2) 1);
  (*6408*) Del (T 661);
  (*6409*) AddTo (T 674) (Times (Einsum [(T 662,[0;1;2;3;4;5])] [0;1;3;2;4;5]) (-2) 1);
  (*6410*) Del (T 662);
  (*6411*) AddTo (T 674) (Times (Einsum [(T 663,[0;1;2;3;4;5])] [0;1;3;2;4;5]) (-2) 1);
  (*6412*) Del (T 663);
  (*6413*) AddTo (T 674) (Times (Einsum [(T 664,[0;1;2;3;4;5])] [0;1;3;2;4;5]) (-2) 1);
  (*6414*) Del (T 664);
  (*6415*) AddTo (T 674) (Times (Einsum [(T 666,[0;1;2;3;4;5])] [1;0;3;2;4;5]) (-1) 1);
  (*6416*) Del (T 666);
  (*6417*) AddTo (T 674) (Times (Einsum [(T 667,[0;1;2;3;4;5])] [1;0;3;2;4;5]) (-1) 1);
  (*6418*) Del (T 667);
  (*6419*) AddTo (T 674) (Plain (Einsum [(T 668,[0;1;2;3;4;5])] [0;1;3;2;4;5]));
  (*6420*) Del (T 668);
  (*6421*) AddTo (T 674) (Plain (Einsum [(T 671,[0;1;2;3;4;5])] [0;1;2;3;4;5]));
  (*6422*) Del (T 671);
  (*6423*) AddTo (T 674) (Times (Einsum [(T 672,[0;1;2;3;4;5])] [0;1;3;2;4;5]) (-1) 1);
  (*6424*) Del (T 672);
  (*6425*) AddTo (T 674) (Times (Einsum [(T 673,[0;1;2;3;4;5])] [1;0;2;3;4;5]) (-1) 1);
  (*6426*) Del (T 673);
  (*6427*) AddTo n_l3new_babbab (Plain (Einsum [(T 674,[0;1;2;3;4;5])] [3;5;2;0;4;1]));
  (*6428*) AddTo n_l3new_babbab (Times (Einsum [(T 674,[0;1;2;3;4;5])] [2;5;3;0;4;1]) (-1) 1);
  (*6429*) Del (T 674);
  (*6430*) Assign (T 675) (Plain (Zeros [6;6;7;7;4;5]));
  (*6431*) AddTo (T 675) (Plain (Einsum [(n_l2'bbbb,[0;1;2;3]); (T 6,[3;4;5;6])] [2;4;0;1;5;6]));
  (*6432*) Assign (T 676) (Plain (Zeros [6;6;7;7;4;5]));
  (*6433*) AddTo (T 676) (Times (Einsum [(n_v'aabb'ovov,[0;1;2;3]); (T 1,[4;5;6;3])] [4;2;5;6;0;1]) (-1) 1);
  (*6434*) Del (T 1);
  (*6435*) Assign (T 677) (Plain (Zeros [6;6]));
  (*6436*) AddTo (T 677) (Times (Einsum [(n_t1'bb,[0;1]); (T 21,[2;1])] [0;2]) (-1) 1);
  (*6437*) Del (T 21);
  (*6438*) Assign (T 678) (Plain (Zeros [6;6]));
  (*6439*) AddTo (T 678) (Times (Einsum [(T 221,[0;1])] [0;1]) (2) 1);
  (*6440*) Del (T 221);
  (*6441*) AddTo (T 678) (Plain (Einsum [(T 677,[0;1])] [0;1]));
  (*6442*) Del (T 677);
  (*6443*) Assign (T 679) (Plain (Zeros [6;6;7;7;4;5]));
  (*6444*) AddTo (T 679) (Times (Einsum [(T 678,[0;1]); (n_l3'babbab,[2;3;4;5;6;0])] [5;1;2;4;6;3]) (-2) 1);
  (*6445*) Del (T 678);
  (*6446*) Assign (T 680) (Plain (Zeros [6;6;7;7;4;5]));
  (*6447*) AddTo (T 680) (Times (Einsum [(T 675,[0;1;2;3;4;5])] [0;1;2;3;4;5]) (2) 1);
  (*6448*) Del (T 675);
  (*6449*) AddTo (T 680) (Times (Einsum [(T 676,[0;1;2;3;4;5])] [0;1;3;2;4;5]) (6) 1);
  (*6450*) Del (T 676);
  (*6451*) AddTo (T 680) (Plain (Einsum [(T 679,[0;1;2;3;4;5])] [0;1;3;2;4;5]));
  (*6452*) Del (T 679);
  (*6453*) AddTo n_l3new_babbab (Plain (Einsum [(T 680,[0;1;2;3;4;5])] [3;5;2;0;4;1]));
  (*6454*) AddTo n_l3new_babbab (Times (Einsum [(T 680,[0;1;2;3;4;5])] [3;5;2;1;4;0]) (-1) 1);
  (*6455*) Del (T 680);
  (*6456*) Assign (T 681) (Plain (Zeros [4;4;5;5]));
  (*6457*) AddTo (T 681) (Times (Einsum [(n_t2'aaaa,[0;1;2;3]); (T 234,[1;4;5;3])] [0;4;2;5]) (100000000000001) 50000000000000);
  (*6458*) Del (T 234);
  (*6459*) Assign (T 682) (Plain (Zeros [4;4;5;5]));
  (*6460*) AddTo (T 682) (Plain (Einsum [(n_v'aaaa'ovov,[0;1;2;3])] [0;2;1;3]));
  (*6461*) AddTo (T 682) (Times (Einsum [(n_v'aaaa'oovv,[0;1;2;3])] [0;1;2;3]) (-1) 1);
  (*6462*) AddTo (T 682) (Times (Einsum [(T 233,[0;1;2;3])] [0;1;2;3]) (100000000000001) 100000000000000);
  (*6463*) Del (T 233);
  (*6464*) AddTo (T 682) (Times (Einsum [(T 681,[0;1;2;3])] [0;1;2;3]) (-1) 1);
  (*6465*) Del (T 681);
  (*6466*) AddTo (T 682) (Times (Einsum [(T 237,[0;1;2;3])] [0;1;3;2]) (-1) 1);
  (*6467*) Del (T 237);
  (*6468*) AddTo n_l3new_babbab (Times (Einsum [(T 682,[0;1;2;3]); (n_l3'babbab,[4;2;5;6;0;7])] [4;3;5;6;1;7]) (2) 1);
  (*6469*) Assign (T 683) (Plain (Zeros [6;7;4;5]));
  (*6470*) AddTo (T 683) (Times (Einsum [(n_v'aabb'ovov,[0;1;2;3])] [2;3;0;1]) (4999999999999949) 10000000000000000);
  (*6471*) AddTo (T 683) (Times (Einsum [(T 239,[0;1;2;3])] [0;1;2;3]) (4999999999999949) 10000000000000000);
  (*6472*) AddTo (T 683) (Plain (Einsum [(T 240,[0;1;2;3])] [0;1;2;3]));
  (*6473*) AddTo (T 683) (Times (Einsum [(n_t2'abab,[0;1;2;3]); (T 241,[0;4;2;5])] [1;3;4;5]) (-49999999999999983) 100000000000000000);
  (*6474*) Del (T 241);
  (*6475*) AddTo n_l3new_babbab (Times (Einsum [(T 683,[0;1;2;3]); (n_l3'bbbbbb,[4;5;1;6;7;0])] [4;3;5;6;2;7]) (12000000000000123) 1000000000000000);
  (*6476*) Del (T 683);
  (*6477*) Assign (T 684) (Plain (Zeros [6;6;6;6]));
  (*6478*) AddTo (T 684) (Plain (Einsum [(n_v'bbbb'oooo,[0;1;2;3])] [0;1;2;3]));
  (*6479*) AddTo (T 684) (Plain (Einsum [(T 26,[0;1;2;3])] [1;3;0;2]));
  (*6480*) Del (T 26);
  (*6481*) AddTo (T 684) (Plain (Einsum [(T 27,[0;1;2;3])] [0;2;1;3]));
  (*6482*) Del (T 27);
  (*6483*) AddTo (T 684) (Plain (Einsum [(T 28,[0;1;2;3])] [2;1;0;3]));
  (*6484*) AddTo (T 684) (Times (Einsum [(T 28,[0;1;2;3])] [2;3;0;1]) (-1) 1);
  (*6485*) AddTo n_l3new_babbab (Times (Einsum [(T 684,[0;1;2;3]); (n_l3'babbab,[4;5;6;2;7;0])] [4;5;6;1;7;3]) (-2) 1);
  (*6486*) Del (T 684);
  (*6487*) Assign (T 685) (Plain (Zeros [6;6;6;6;4;5]));
  (*6488*) AddTo (T 685) (Plain (Einsum [(n_t2'bbbb,[0;1;2;3]); (n_l3'babbab,[2;4;3;5;6;7])] [5;7;0;1;6;4]));
  (*6489*) AddTo (T 685) (Times (Einsum [(T 135,[0;1;2;3;4;5])] [0;1;3;2;4;5]) (-1) 1);
  (*6490*) Del (T 135);
  (*6491*) AddTo n_l3new_babbab (Times (Einsum [(n_v'bbbb'ovov,[0;1;2;3]); (T 685,[4;5;2;0;6;7])] [1;7;3;5;6;4]) (2) 1);
  (*6492*) Del (T 685);
  (*6493*) Assign (T 686) (Plain (Zeros [6;7;4;4;5;5]));
  (*6494*) AddTo (T 686) (Plain (Einsum [(n_l2'aaaa,[0;1;2;3]); (n_v'aabb'vvov,[4;1;5;6])] [5;6;2;3;0;4]));
  (*6495*) Assign (T 687) (Plain (Zeros [6;7;4;4;5;5]));
  (*6496*) AddTo (T 687) (Plain (Einsum [(n_f'aa'vv,[0;1]); (n_l3'abaaba,[2;3;1;4;5;6])] [5;3;4;6;0;2]));
  (*6497*) Assign (T 688) (Plain (Zeros [6;7;4;4;5;5]));
  (*6498*) AddTo (T 688) (Plain (Einsum [(n_f'aa'ov,[0;1]); (T 62,[2;3;4;5;0;6])] [2;3;4;5;1;6]));
  (*6499*) Assign (T 689) (Plain (Zeros [6;7;4;4;5;5]));
  (*6500*) AddTo (T 689) (Plain (Einsum [(n_v'aabb'vvvv,[0;1;2;3]); (n_l3'abaaba,[4;3;1;5;6;7])] [6;2;5;7;4;0]));
  (*6501*) Assign (T 690) (Plain (Zeros [6;7;4;4;5;5]));
  (*6502*) AddTo (T 690) (Plain (Einsum [(n_v'aabb'vvov,[0;1;2;3]); (T 92,[4;2;5;6;7;1])] [4;3;5;6;7;0]));
  (*6503*) Assign (T 691) (Plain (Zeros [6;7;4;4;5;5]));
  (*6504*) AddTo (T 691) (Times (Einsum [(n_v'aaaa'ovvv,[0;1;2;3]); (T 62,[4;5;6;7;0;3])] [4;5;6;7;1;2]) (-1) 1);
  (*6505*) Assign (T 692) (Plain (Zeros [6;7;4;4;5;5]));
  (*6506*) AddTo (T 692) (Plain (Einsum [(n_v'aabb'ovvv,[0;1;2;3]); (T 62,[4;3;5;6;0;7])] [4;2;5;6;7;1]));
  (*6507*) Assign (T 693) (Plain (Zeros [6;6;5;5]));
  (*6508*) AddTo (T 693) (Times (Einsum [(n_v'aabb'vvoo,[0;1;2;3])] [2;3;0;1]) (99999999999999) 100000000000000);
  (*6509*) AddTo (T 693) (Times (Einsum [(T 23,[0;1;2;3])] [0;1;3;2]) (99999999999999) 100000000000000);
  (*6510*) Del (T 23);
  (*6511*) AddTo (T 693) (Times (Einsum [(T 24,[0;1;2;3])] [0;1;2;3]) (-1) 1);
  (*6512*) Del (T 24);
  (*6513*) Assign (T 694) (Plain (Zeros [6;7;4;4;5;5]));
  (*6514*) AddTo (T 694) (Times (Einsum [(T 693,[0;1;2;3]); (n_l3'abaaba,[4;5;2;6;0;7])] [1;5;6;7;4;3]) (-100000000000001) 50000000000000);
  (*6515*) Del (T 693);
  (*6516*) Assign (T 695) (Plain (Zeros [6;7;4;4;5;5]));
  (*6517*) AddTo (T 695) (Times (Einsum [(T 455,[0;1]); (n_l3'abaaba,[2;3;1;4;5;6])] [5;3;4;6;2;0]) (-2) 1);
  (*6518*) Del (T 455);
  (*6519*) Assign (T 696) (Plain (Zeros [6;7;4;4;5;5]));
  (*6520*) AddTo (T 696) (Times (Einsum [(T 7,[0;1;2;3]); (T 62,[0;4;5;6;2;7])] [1;4;5;6;7;3]) (2) 1);
  (*6521*) Assign (T 697) (Plain (Zeros [6;6;4;4;4;5]));
  (*6522*) AddTo (T 697) (Plain (Einsum [(n_t2'abab,[0;1;2;3]); (n_l3'abaaba,[4;3;2;5;6;7])] [6;1;5;7;0;4]));
  (*6523*) Assign (T 698) (Plain (Zeros [6;6;4;4;4;5]));
  (*6524*) AddTo (T 698) (Times (Einsum [(T 697,[0;1;2;3;4;5])] [0;1;3;2;4;5]) (-1) 1);
  (*6525*) Del (T 697);
  (*6526*) AddTo (T 698) (Times (Einsum [(T 100,[0;1;2;3;4;5])] [0;1;3;2;4;5]) (-1) 1);
  (*6527*) Del (T 100);
  (*6528*) Assign (T 699) (Plain (Zeros [6;7;4;4;5;5]));
  (*6529*) AddTo (T 699) (Times (Einsum [(n_v'aabb'ovov,[0;1;2;3]); (T 698,[4;2;5;6;0;7])] [4;3;5;6;1;7]) (2) 1);
  (*6530*) Del (T 698);
  (*6531*) Assign (T 700) (Plain (Zeros [6;7;4;4;5;5]));
  (*6532*) AddTo (T 700) (Times (Einsum [(T 362,[0;1]); (T 62,[2;3;4;5;0;6])] [2;3;4;5;6;1]) (2) 1);
  (*6533*) Del (T 362);
  (*6534*) Assign (T 701) (Plain (Zeros [6;7;4;4;5;5]));
  (*6535*) AddTo (T 701) (Times (Einsum [(n_v'aabb'ovov,[0;1;2;3]); (T 290,[4;5;0;6])] [2;3;4;5;1;6]) (2) 1);
  (*6536*) Del (T 290);
  (*6537*) Assign (T 702) (Plain (Zeros [6;7;4;4;5;5]));
  (*6538*) AddTo (T 702) (Times (Einsum [(n_l1'bb,[0;1]); (n_v'aaaa'ovov,[2;3;4;5])] [1;0;2;4;3;5]) (-1) 1);
  (*6539*) AddTo (T 702) (Times (Einsum [(T 686,[0;1;2;3;4;5])] [0;1;3;2;5;4]) (-2) 1);
  (*6540*) Del (T 686);
  (*6541*) AddTo (T 702) (Times (Einsum [(T 687,[0;1;2;3;4;5])] [0;1;3;2;5;4]) (2) 1);
  (*6542*) Del (T 687);
  (*6543*) AddTo (T 702) (Times (Einsum [(T 688,[0;1;2;3;4;5])] [0;1;3;2;5;4]) (-2) 1);
  (*6544*) Del (T 688);
  (*6545*) AddTo (T 702) (Times (Einsum [(T 689,[0;1;2;3;4;5])] [0;1;3;2;5;4]) (-2) 1);
  (*6546*) Del (T 689);
  (*6547*) AddTo (T 702) (Times (Einsum [(T 690,[0;1;2;3;4;5])] [0;1;3;2;5;4]) (2) 1);
  (*6548*) Del (T 690);
  (*6549*) AddTo (T 702) (Times (Einsum [(T 691,[0;1;2;3;4;5])] [0;1;3;2;5;4]) (2) 1);
  (*6550*) Del (T 691);
  (*6551*) AddTo (T 702) (Times (Einsum [(T 692,[0;1;2;3;4;5])] [0;1;3;2;5;4]) (2) 1);
  (*6552*) Del (T 692);
  (*6553*) AddTo (T 702) (Times (Einsum [(T 694,[0;1;2;3;4;5])] [0;1;3;2;5;4]) (-1) 1);
  (*6554*) Del (T 694);
  (*6555*) AddTo (T 702) (Times (Einsum [(T 695,[0;1;2;3;4;5])] [0;1;3;2;5;4]) (-1) 1);
  (*6556*) Del (T 695);
  (*6557*) AddTo (T 702) (Times (Einsum [(T 696,[0;1;2;3;4;5])] [0;1;3;2;5;4]) (-1) 1);
  (*6558*) Del (T 696);
  (*6559*) AddTo (T 702) (Times (Einsum [(T 699,[0;1;2;3;4;5])] [0;1;3;2;4;5]) (-1) 1);
  (*6560*) Del (T 699);
  (*6561*) AddTo (T 702) (Plain (Einsum [(T 700,[0;1;2;3;4;5])] [0;1;3;2;5;4]));
  (*6562*) Del (T 700);
  (*6563*) AddTo (T 702) (Times (Einsum [(T 701,[0;1;2;3;4;5])] [0;1;3;2;4;5]) (-1) 1);
  (*6564*) Del (T 701);
  (*6565*) AddTo n_l3new_abaaba (Plain (Einsum [(T 702,[0;1;2;3;4;5])] [5;1;4;2;0;3]));
  (*6566*) AddTo n_l3new_abaaba (Times (Einsum [(T 702,[0;1;2;3;4;5])] [4;1;5;2;0;3]) (-1) 1);
  (*6567*) Del (T 702);
  (*6568*) Assign (T 703) (Plain (Zeros [6;7;4;4;5;5]));
  (*6569*) AddTo (T 703) (Plain (Einsum [(n_l2'aaaa,[0;1;2;3]); (n_v'aabb'ooov,[4;3;5;6])] [5;6;2;4;0;1]));
  (*6570*) Assign (T 704) (Plain (Zeros [6;7;4;4;5;5]));
  (*6571*) AddTo (T 704) (Times (Einsum [(T 665,[0;1;2;3]); (n_l3'abaaba,[4;0;5;6;7;2])] [7;1;6;3;4;5]) (-100000000000001) 50000000000000);
  (*6572*) Del (T 665);
  (*6573*) Assign (T 705) (Plain (Zeros [6;7;4;4;5;5]));
  (*6574*) AddTo (T 705) (Times (Einsum [(T 507,[0;1;2;3]); (n_l3'abaaba,[4;5;6;7;0;2])] [1;5;7;3;4;6]) (-2) 1);
  (*6575*) Del (T 507);
  (*6576*) Assign (T 706) (Plain (Zeros [6;7;4;4;5;5]));
  (*6577*) AddTo (T 706) (Times (Einsum [(T 32,[0;1;2;3]); (T 92,[4;0;2;5;6;7])] [4;1;5;3;6;7]) (2) 1);
  (*6578*) Del (T 32);
  (*6578*) Del (T 92);
  (*6579*) Assign (T 707) (Plain (Zeros [6;7;4;4;5;5]));
  (*6580*) AddTo (T 707) (Times (Einsum [(T 414,[0;1]); (n_l3'abaaba,[2;3;4;5;6;0])] [6;3;5;1;2;4]) (-2) 1);
  (*6581*) Del (T 414);
  (*6582*) Assign (T 708) (Plain (Zeros [6;7;4;4;5;5]));
  (*6583*) AddTo (T 708) (Times (Einsum [(n_v'aabb'ovov,[0;1;2;3]); (T 411,[4;5;6;1])] [2;3;0;4;5;6]) (2) 1);
  (*6584*) Del (T 411);
  (*6585*) Assign (T 709) (Plain (Zeros [6;7;4;4;5;5]));
  (*6586*) AddTo (T 709) (Times (Einsum [(T 609,[0;1]); (n_l3'abaaba,[2;3;4;5;6;0])] [6;3;5;1;2;4]) (-2) 1);
  (*6587*) Del (T 609);
  (*6588*) Assign (T 710) (Plain (Zeros [6;7;4;4;5;5]));
  (*6589*) AddTo (T 710) (Times (Einsum [(T 703,[0;1;2;3;4;5])] [0;1;2;3;5;4]) (2) 1);
  (*6590*) Del (T 703);
  (*6591*) AddTo (T 710) (Times (Einsum [(T 704,[0;1;2;3;4;5])] [0;1;2;3;5;4]) (-1) 1);
  (*6592*) Del (T 704);
  (*6593*) AddTo (T 710) (Plain (Einsum [(T 705,[0;1;2;3;4;5])] [0;1;2;3;5;4]));
  (*6594*) Del (T 705);
  (*6595*) AddTo (T 710) (Plain (Einsum [(T 706,[0;1;2;3;4;5])] [0;1;2;3;5;4]));
  (*6596*) Del (T 706);
  (*6597*) AddTo (T 710) (Times (Einsum [(T 707,[0;1;2;3;4;5])] [0;1;2;3;5;4]) (-1) 1);
  (*6598*) Del (T 707);
  (*6599*) AddTo (T 710) (Plain (Einsum [(T 708,[0;1;2;3;4;5])] [0;1;3;2;5;4]));
  (*6600*) Del (T 708);
  (*6601*) AddTo (T 710) (Plain (Einsum [(T 709,[0;1;2;3;4;5])] [0;1;3;2;5;4]));
  (*6602*) Del (T 709);
  (*6603*) AddTo n_l3new_abaaba (Times (Einsum [(T 710,[0;1;2;3;4;5])] [5;1;4;2;0;3]) (-1) 1);
  (*6604*) AddTo n_l3new_abaaba (Plain (Einsum [(T 710,[0;1;2;3;4;5])] [5;1;4;3;0;2]));
  (*6605*) Del (T 710);
  (*6606*) Assign (T 711) (Plain (Zeros [6;7;4;4;5;5]));
  (*6607*) AddTo (T 711) (Plain (Einsum [(n_l2'abab,[0;1;2;3]); (n_v'aabb'ovvv,[4;5;6;1])] [3;6;2;4;0;5]));
  (*6608*) Assign (T 712) (Plain (Zeros [6;7;4;4;5;5]));
  (*6609*) AddTo (T 712) (Plain (Einsum [(n_l2'abab,[0;1;2;3]); (n_v'aaaa'ovvv,[4;5;6;0])] [3;1;2;4;5;6]));
  (*6610*) Assign (T 713) (Plain (Zeros [6;7;4;4;5;5]));
  (*6611*) AddTo (T 713) (Plain (Einsum [(n_v'aabb'ovoo,[0;1;2;3]); (T 75,[4;2;3;5;6;7])] [4;5;6;0;7;1]));
  (*6612*) Assign (T 714) (Plain (Zeros [6;7;4;4;5;5]));
  (*6613*) AddTo (T 714) (Times (Einsum [(T 6,[0;1;2;3]); (T 75,[0;4;1;5;6;7])] [4;5;6;2;7;3]) (-1) 1);
  (*6614*) Del (T 6);
  (*6614*) Del (T 75);
  (*6615*) Assign (T 715) (Plain (Zeros [6;7;4;4;5;5]));
  (*6616*) AddTo (T 715) (Times (Einsum [(T 682,[0;1;2;3]); (n_l3'abaaba,[4;5;2;6;7;0])] [7;5;6;1;4;3]) (2) 1);
  (*6617*) Del (T 682);
  (*6618*) Assign (T 716) (Plain (Zeros [6;7;4;5]));
  (*6619*) AddTo (T 716) (Plain (Einsum [(n_v'aabb'ovov,[0;1;2;3])] [2;3;0;1]));
  (*6620*) AddTo (T 716) (Plain (Einsum [(T 239,[0;1;2;3])] [0;1;2;3]));
  (*6621*) Del (T 239);
  (*6622*) AddTo (T 716) (Times (Einsum [(T 240,[0;1;2;3])] [0;1;2;3]) (100000000000001) 50000000000000);
  (*6623*) Del (T 240);
  (*6624*) AddTo (T 716) (Times (Einsum [(T 593,[0;1;2;3])] [0;1;2;3]) (-1) 1);
  (*6625*) Del (T 593);
  (*6626*) Assign (T 717) (Plain (Zeros [6;7;4;4;5;5]));
  (*6627*) AddTo (T 717) (Times (Einsum [(T 716,[0;1;2;3]); (n_l3'babbab,[4;5;1;6;7;0])] [6;4;7;2;5;3]) (2) 1);
  (*6628*) Del (T 716);
  (*6629*) Assign (T 718) (Plain (Zeros [6;7;4;4;5;5]));
  (*6630*) AddTo (T 718) (Times (Einsum [(T 383,[0;1;2;3]); (T 62,[4;5;0;6;2;7])] [4;5;6;1;7;3]) (2) 1);
  (*6631*) Del (T 383);
  (*6632*) Assign (T 719) (Plain (Zeros [6;7;4;4;5;5]));
  (*6633*) AddTo (T 719) (Times (Einsum [(T 349,[0;1;2;3]); (T 62,[4;5;0;6;2;7])] [4;5;6;1;7;3]) (2) 1);
  (*6634*) Del (T 62);
  (*6634*) Del (T 349);
  (*6635*) Assign (T 720) (Plain (Zeros [6;7;4;4;5;5]));
  (*6636*) AddTo (T 720) (Times (Einsum [(n_v'aabb'ovov,[0;1;2;3]); (T 298,[4;3;5;6])] [2;4;0;5;1;6]) (2) 1);
  (*6637*) Del (T 298);
  (*6638*) Assign (T 721) (Plain (Zeros [6;7;4;4;5;5]));
  (*6639*) AddTo (T 721) (Times (Einsum [(n_v'aaaa'ovov,[0;1;2;3]); (T 101,[4;5;6;1])] [4;5;0;2;6;3]) (2) 1);
  (*6640*) Del (T 101);
  (*6641*) Assign (T 722) (Plain (Zeros [6;7;4;4;5;5]));
  (*6642*) AddTo (T 722) (Times (Einsum [(n_v'aabb'ovov,[0;1;2;3]); (T 140,[4;2;5;6])] [4;3;0;5;1;6]) (2) 1);
  (*6643*) Del (T 140);
  (*6644*) Assign (T 723) (Plain (Zeros [6;7;4;4;5;5]));
  (*6645*) AddTo (T 723) (Times (Einsum [(n_v'aaaa'ovov,[0;1;2;3]); (T 67,[4;5;6;2])] [4;5;6;0;3;1]) (2) 1);
  (*6646*) Del (T 67);
  (*6647*) Assign (T 724) (Plain (Zeros [6;7;4;4;5;5]));
  (*6648*) AddTo (T 724) (Plain (Einsum [(n_l2'abab,[0;1;2;3]); (T 7,[3;4;5;6])] [4;1;2;5;0;6]));
  (*6649*) Del (T 7);
  (*6650*) Assign (T 725) (Plain (Zeros [6;7;4;4;5;5]));
  (*6651*) AddTo (T 725) (Plain (Einsum [(n_l2'abab,[0;1;2;3]); (T 387,[2;4;5;6])] [3;1;4;5;0;6]));
  (*6652*) Del (T 387);
  (*6653*) Assign (T 726) (Plain (Zeros [6;7;4;4;5;5]));
  (*6654*) AddTo (T 726) (Plain (Einsum [(n_l1'aa,[0;1]); (n_v'aabb'ovov,[2;3;4;5])] [4;5;1;2;0;3]));
  (*6655*) AddTo (T 726) (Plain (Einsum [(T 711,[0;1;2;3;4;5])] [0;1;2;3;4;5]));
  (*6656*) Del (T 711);
  (*6657*) AddTo (T 726) (Times (Einsum [(T 712,[0;1;2;3;4;5])] [0;1;2;3;4;5]) (-1) 1);
  (*6658*) Del (T 712);
  (*6659*) AddTo (T 726) (Times (Einsum [(T 713,[0;1;2;3;4;5])] [0;1;2;3;4;5]) (-2) 1);
  (*6660*) Del (T 713);
  (*6661*) AddTo (T 726) (Times (Einsum [(T 714,[0;1;2;3;4;5])] [0;1;2;3;4;5]) (-2) 1);
  (*6662*) Del (T 714);
  (*6663*) AddTo (T 726) (Plain (Einsum [(T 715,[0;1;2;3;4;5])] [0;1;2;3;4;5]));
  (*6664*) Del (T 715);
  (*6665*) AddTo (T 726) (Plain (Einsum [(T 717,[0;1;2;3;4;5])] [0;1;2;3;4;5]));
  (*6666*) Del (T 717);
  (*6667*) AddTo (T 726) (Plain (Einsum [(T 718,[0;1;2;3;4;5])] [0;1;2;3;4;5]));
  (*6668*) Del (T 718);
  (*6669*) AddTo (T 726) (Plain (Einsum [(T 719,[0;1;2;3;4;5])] [0;1;2;3;4;5]));
  (*6670*) Del (T 719);
  (*6671*) AddTo (T 726) (Times (Einsum [(T 720,[0;1;2;3;4;5])] [0;1;3;2;5;4]) (-1) 1);
  (*6672*) Del (T 720);
  (*6673*) AddTo (T 726) (Plain (Einsum [(T 721,[0;1;2;3;4;5])] [0;1;3;2;4;5]));
  (*6674*) Del (T 721);
  (*6675*) AddTo (T 726) (Times (Einsum [(T 722,[0;1;2;3;4;5])] [0;1;3;2;5;4]) (-1) 1);
  (*6676*) Del (T 722);
  (*6677*) AddTo (T 726) (Plain (Einsum [(T 723,[0;1;2;3;4;5])] [0;1;2;3;5;4]));
  (*6678*) Del (T 723);
  (*6679*) AddTo (T 726) (Times (Einsum [(T 724,[0;1;2;3;4;5])] [0;1;2;3;4;5]) (-1) 1);
  (*6680*) Del (T 724);
  (*6681*) AddTo (T 726) (Plain (Einsum [(T 725,[0;1;2;3;4;5])] [0;1;2;3;4;5]));
  (*6682*) Del (T 725);
  (*6683*) AddTo n_l3new_abaaba (Plain (Einsum [(T 726,[0;1;2;3;4;5])] [4;1;5;2;0;3]));
  (*6684*) AddTo n_l3new_abaaba (Times (Einsum [(T 726,[0;1;2;3;4;5])] [5;1;4;2;0;3]) (-1) 1);
  (*6685*) AddTo n_l3new_abaaba (Times (Einsum [(T 726,[0;1;2;3;4;5])] [4;1;5;3;0;2]) (-1) 1);
  (*6686*) AddTo n_l3new_abaaba (Plain (Einsum [(T 726,[0;1;2;3;4;5])] [5;1;4;3;0;2]));
  (*6687*) Del (T 726);
  (*6688*) Assign (T 727) (Plain (Zeros [6;7;4;4;5;5]));
  (*6689*) AddTo (T 727) (Plain (Einsum [(n_l2'aaaa,[0;1;2;3]); (T 8,[4;5;3;6])] [4;5;2;6;0;1]));
  (*6690*) AddTo n_l3new_abaaba (Times (Einsum [(T 727,[0;1;2;3;4;5])] [5;1;4;2;0;3]) (2) 1);
  (*6691*) AddTo n_l3new_abaaba (Times (Einsum [(T 727,[0;1;2;3;4;5])] [5;1;4;3;0;2]) (-2) 1);
  (*6692*) Del (T 727);
  (*6693*) Assign (T 728) (Plain (Zeros [6;7;4;5]));
  (*6694*) AddTo (T 728) (Plain (Einsum [(n_v'aabb'ovov,[0;1;2;3])] [2;3;0;1]));
  (*6695*) AddTo (T 728) (Plain (Einsum [(T 16,[0;1;2;3])] [0;1;2;3]));
  (*6696*) Del (T 16);
  (*6697*) AddTo (T 728) (Times (Einsum [(T 17,[0;1;2;3])] [0;1;2;3]) (5000000000000051) 2500000000000000);
  (*6698*) Del (T 17);
  (*6699*) AddTo (T 728) (Times (Einsum [(T 646,[0;1;2;3])] [0;1;2;3]) (-1) 1);
  (*6700*) Del (T 646);
  (*6701*) AddTo n_l3new_abaaba (Times (Einsum [(T 728,[0;1;2;3]); (n_l3'aaaaaa,[4;5;3;6;7;2])] [4;1;5;6;0;7]) (6) 1);
  (*6702*) Del (T 728);
  (*6703*) Assign (T 729) (Plain (Zeros [4;4;4;4]));
  (*6704*) AddTo (T 729) (Plain (Einsum [(n_v'aaaa'oooo,[0;1;2;3])] [0;1;2;3]));
  (*6705*) AddTo (T 729) (Plain (Einsum [(T 252,[0;1;2;3])] [1;3;2;0]));
  (*6706*) Del (T 252);
  (*6707*) AddTo (T 729) (Plain (Einsum [(T 253,[0;1;2;3])] [0;2;3;1]));
  (*6708*) Del (T 253);
  (*6709*) AddTo (T 729) (Plain (Einsum [(T 254,[0;1;2;3])] [2;1;3;0]));
  (*6710*) AddTo (T 729) (Times (Einsum [(T 254,[0;1;2;3])] [2;3;1;0]) (-1) 1);
  (*6711*) Del (T 254);
  (*6712*) AddTo n_l3new_abaaba (Times (Einsum [(T 729,[0;1;2;3]); (n_l3'abaaba,[4;5;6;3;7;0])] [4;5;6;2;7;1]) (2) 1);
  (*6713*) Del (T 729);
  (*6714*) Assign (T 730) (Plain (Zeros [6;7;4;4;4;4]));
  (*6715*) AddTo (T 730) (Plain (Einsum [(n_t2'aaaa,[0;1;2;3]); (n_l3'abaaba,[2;4;3;5;6;7])] [6;4;5;7;0;1]));
  (*6716*) AddTo (T 730) (Plain (Einsum [(T 324,[0;1;2;3;4;5])] [0;1;3;2;5;4]));
  (*6717*) Del (T 324);
  (*6718*) AddTo n_l3new_abaaba (Times (Einsum [(n_v'aaaa'ovov,[0;1;2;3]); (T 730,[4;5;6;7;2;0])] [1;5;3;7;4;6]) (2) 1);
  (*6719*) Del (T 730);
  (*6720*) Assign (T 731) (Plain (Zeros [6;6;6;7;7;7]));
  (*6721*) AddTo (T 731) (Plain (Einsum [(n_v'aabb'ooov,[0;1;2;3]); (T 59,[4;5;6;7;0;1])] [4;5;2;6;7;3]));
  (*6722*) Assign (T 732) (Plain (Zeros [6;6;6;7;7;7]));
  (*6723*) AddTo (T 732) (Plain (Einsum [(T 8,[0;1;2;3]); (T 59,[4;5;6;7;2;3])] [4;5;0;6;7;1]));
  (*6724*) Del (T 8);
  (*6724*) Del (T 59);
  (*6725*) Assign (T 733) (Plain (Zeros [6;6;7;7]));
  (*6726*) AddTo (T 733) (Times (Einsum [(n_t2'bbbb,[0;1;2;3]); (T 11,[1;4;3;5])] [0;4;2;5]) (5000000000000051) 2500000000000000);
  (*6727*) Del (T 11);
  (*6728*) Assign (T 734) (Plain (Zeros [6;6;7;7]));
  (*6729*) AddTo (T 734) (Plain (Einsum [(n_v'bbbb'ovov,[0;1;2;3])] [0;2;1;3]));
  (*6730*) AddTo (T 734) (Times (Einsum [(n_v'bbbb'oovv,[0;1;2;3])] [0;1;2;3]) (-1) 1);
  (*6731*) AddTo (T 734) (Times (Einsum [(T 10,[0;1;2;3])] [0;1;2;3]) (100000000000001) 100000000000000);
  (*6732*) Del (T 10);
  (*6733*) AddTo (T 734) (Times (Einsum [(T 733,[0;1;2;3])] [0;1;2;3]) (-1) 1);
  (*6734*) Del (T 733);
  (*6735*) AddTo (T 734) (Times (Einsum [(T 14,[0;1;2;3])] [0;1;3;2]) (-1) 1);
  (*6736*) Del (T 14);
  (*6737*) Assign (T 735) (Plain (Zeros [6;6;6;7;7;7]));
  (*6738*) AddTo (T 735) (Times (Einsum [(T 734,[0;1;2;3]); (n_l3'bbbbbb,[4;5;2;6;7;0])] [6;7;1;4;5;3]) (6) 1);
  (*6739*) Del (T 734);
  (*6740*) Assign (T 736) (Plain (Zeros [6;6;6;7;7;7]));
  (*6741*) AddTo (T 736) (Times (Einsum [(T 647,[0;1;2;3]); (n_l3'babbab,[4;3;5;6;2;7])] [6;7;0;4;5;1]) (2) 1);
  (*6742*) Del (T 647);
  (*6743*) Assign (T 737) (Plain (Zeros [6;6;6;7]));
  (*6744*) AddTo (T 737) (Plain (Einsum [(T 4,[0;1;2;3])] [0;1;2;3]));
  (*6745*) AddTo (T 737) (Times (Einsum [(T 4,[0;1;2;3])] [0;2;1;3]) (-1) 1);
  (*6746*) Assign (T 738) (Plain (Zeros [6;6;6;7;7;7]));
  (*6747*) AddTo (T 738) (Times (Einsum [(T 737,[0;1;2;3]); (T 73,[4;5;0;2;6;7])] [4;5;1;6;7;3]) (6) 1);
  (*6748*) Del (T 737);
  (*6749*) Assign (T 739) (Plain (Zeros [6;6;6;7;7;7]));
  (*6750*) AddTo (T 739) (Times (Einsum [(T 209,[0;1;2;3]); (T 73,[4;5;0;1;6;7])] [4;5;2;6;7;3]) (6) 1);
  (*6751*) Del (T 209);
  (*6752*) Assign (T 740) (Plain (Zeros [6;6;6;7;7;7]));
  (*6753*) AddTo (T 740) (Times (Einsum [(T 731,[0;1;2;3;4;5])] [0;1;2;4;3;5]) (2) 1);
  (*6754*) Del (T 731);
  (*6755*) AddTo (T 740) (Times (Einsum [(T 732,[0;1;2;3;4;5])] [0;1;2;4;3;5]) (2) 1);
  (*6756*) Del (T 732);
  (*6757*) AddTo (T 740) (Plain (Einsum [(T 735,[0;1;2;3;4;5])] [0;1;2;3;4;5]));
  (*6758*) Del (T 735);
  (*6759*) AddTo (T 740) (Plain (Einsum [(T 736,[0;1;2;3;4;5])] [1;0;2;4;3;5]));
  (*6760*) Del (T 736);
  (*6761*) AddTo (T 740) (Plain (Einsum [(T 738,[0;1;2;3;4;5])] [0;1;2;4;3;5]));
  (*6762*) Del (T 738);
  (*6763*) AddTo (T 740) (Plain (Einsum [(T 739,[0;1;2;3;4;5])] [0;1;2;4;3;5]));
  (*6764*) Del (T 739);
  (*6765*) AddTo n_l3new_bbbbbb (Plain (Einsum [(T 740,[0;1;2;3;4;5])] [4;3;5;1;0;2]));
  (*6766*) AddTo n_l3new_bbbbbb (Times (Einsum [(T 740,[0;1;2;3;4;5])] [4;5;3;1;0;2]) (-1) 1);
  (*6767*) AddTo n_l3new_bbbbbb (Times (Einsum [(T 740,[0;1;2;3;4;5])] [5;3;4;1;0;2]) (-1) 1);
  (*6768*) AddTo n_l3new_bbbbbb (Times (Einsum [(T 740,[0;1;2;3;4;5])] [4;3;5;1;2;0]) (-1) 1);
  (*6769*) AddTo n_l3new_bbbbbb (Plain (Einsum [(T 740,[0;1;2;3;4;5])] [4;5;3;1;2;0]));
  (*6770*) AddTo n_l3new_bbbbbb (Plain (Einsum [(T 740,[0;1;2;3;4;5])] [5;3;4;1;2;0]));
  (*6771*) AddTo n_l3new_bbbbbb (Plain (Einsum [(T 740,[0;1;2;3;4;5])] [4;3;5;2;1;0]));
  (*6772*) AddTo n_l3new_bbbbbb (Times (Einsum [(T 740,[0;1;2;3;4;5])] [4;5;3;2;1;0]) (-1) 1);
  (*6773*) AddTo n_l3new_bbbbbb (Times (Einsum [(T 740,[0;1;2;3;4;5])] [5;3;4;2;1;0]) (-1) 1);
  (*6774*) Del (T 740);
  (*6775*) Assign (T 741) (Plain (Zeros [6;6;6;7;7;7]));
  (*6776*) AddTo (T 741) (Times (Einsum [(n_v'bbbb'ovvv,[0;1;2;3]); (T 73,[4;5;6;0;7;3])] [4;5;6;7;1;2]) (-1) 1);
  (*6777*) AddTo n_l3new_bbbbbb (Times (Einsum [(T 741,[0;1;2;3;4;5])] [3;4;5;1;2;0]) (-6) 1);
  (*6778*) AddTo n_l3new_bbbbbb (Times (Einsum [(T 741,[0;1;2;3;4;5])] [3;5;4;1;2;0]) (6) 1);
  (*6779*) AddTo n_l3new_bbbbbb (Times (Einsum [(T 741,[0;1;2;3;4;5])] [4;3;5;1;2;0]) (6) 1);
  (*6780*) AddTo n_l3new_bbbbbb (Times (Einsum [(T 741,[0;1;2;3;4;5])] [5;3;4;1;2;0]) (-6) 1);
  (*6781*) AddTo n_l3new_bbbbbb (Times (Einsum [(T 741,[0;1;2;3;4;5])] [4;5;3;1;2;0]) (-6) 1);
  (*6782*) AddTo n_l3new_bbbbbb (Times (Einsum [(T 741,[0;1;2;3;4;5])] [5;4;3;1;2;0]) (6) 1);
  (*6783*) Del (T 741);
  (*6784*) Assign (T 742) (Plain (Zeros [6;6;6;7;7;7]));
  (*6785*) AddTo (T 742) (Times (Einsum [(T 580,[0;1]); (n_l3'bbbbbb,[2;3;1;4;5;6])] [4;5;6;2;3;0]) (6) 1);
  (*6786*) Del (T 580);
  (*6787*) Assign (T 743) (Plain (Zeros [6;6;6;7;7;7]));
  (*6788*) AddTo (T 743) (Times (Einsum [(T 228,[0;1]); (T 73,[2;3;4;0;5;6])] [2;3;4;5;6;1]) (6) 1);
  (*6789*) Del (T 228);
  (*6790*) Assign (T 744) (Plain (Zeros [6;6;6;7;7;7]));
  (*6791*) AddTo (T 744) (Plain (Einsum [(T 742,[0;1;2;3;4;5])] [1;2;0;3;4;5]));
  (*6792*) Del (T 742);
  (*6793*) AddTo (T 744) (Times (Einsum [(T 743,[0;1;2;3;4;5])] [0;1;2;4;3;5]) (-1) 1);
  (*6794*) Del (T 743);
  (*6795*) AddTo n_l3new_bbbbbb (Plain (Einsum [(T 744,[0;1;2;3;4;5])] [4;3;5;1;2;0]));
  (*6796*) AddTo n_l3new_bbbbbb (Times (Einsum [(T 744,[0;1;2;3;4;5])] [4;5;3;1;2;0]) (-1) 1);
  (*6797*) AddTo n_l3new_bbbbbb (Times (Einsum [(T 744,[0;1;2;3;4;5])] [5;3;4;1;2;0]) (-1) 1);
  (*6798*) Del (T 744);
  (*6799*) Assign (T 745) (Plain (Zeros [6;6;6;7;7;7]));
  (*6800*) AddTo (T 745) (Times (Einsum [(T 587,[0;1;2;3]); (n_l3'bbbbbb,[4;5;6;7;0;3])] [7;1;2;4;5;6]) (-6) 1);
  (*6801*) Del (T 587);
  (*6802*) Assign (T 746) (Plain (Zeros [6;6;6;7;7;7]));
  (*6803*) AddTo (T 746) (Times (Einsum [(T 636,[0;1]); (n_l3'bbbbbb,[2;3;4;5;6;0])] [5;6;1;2;3;4]) (6) 1);
  (*6804*) Del (T 636);
  (*6805*) Assign (T 747) (Plain (Zeros [6;6;6;7;7;7]));
  (*6806*) AddTo (T 747) (Plain (Einsum [(T 745,[0;1;2;3;4;5])] [0;2;1;4;5;3]));
  (*6807*) Del (T 745);
  (*6808*) AddTo (T 747) (Times (Einsum [(T 746,[0;1;2;3;4;5])] [2;0;1;4;5;3]) (-1) 1);
  (*6809*) Del (T 746);
  (*6810*) AddTo n_l3new_bbbbbb (Plain (Einsum [(T 747,[0;1;2;3;4;5])] [4;5;3;0;1;2]));
  (*6811*) AddTo n_l3new_bbbbbb (Times (Einsum [(T 747,[0;1;2;3;4;5])] [4;5;3;1;0;2]) (-1) 1);
  (*6812*) AddTo n_l3new_bbbbbb (Plain (Einsum [(T 747,[0;1;2;3;4;5])] [4;5;3;1;2;0]));
  (*6813*) Del (T 747);
  (*6814*) Assign (T 748) (Plain (Zeros [6;6;6;7;7;7]));
  (*6815*) AddTo (T 748) (Plain (Einsum [(n_l2'bbbb,[0;1;2;3]); (T 4,[3;4;5;6])] [2;4;5;0;1;6]));
  (*6816*) Del (T 4);
  (*6817*) AddTo n_l3new_bbbbbb (Times (Einsum [(T 748,[0;1;2;3;4;5])] [3;4;5;0;1;2]) (2) 1);
  (*6818*) AddTo n_l3new_bbbbbb (Times (Einsum [(T 748,[0;1;2;3;4;5])] [4;5;3;0;1;2]) (2) 1);
  (*6819*) AddTo n_l3new_bbbbbb (Times (Einsum [(T 748,[0;1;2;3;4;5])] [5;4;3;0;1;2]) (-2) 1);
  (*6820*) AddTo n_l3new_bbbbbb (Times (Einsum [(T 748,[0;1;2;3;4;5])] [3;4;5;0;2;1]) (-2) 1);
  (*6821*) AddTo n_l3new_bbbbbb (Times (Einsum [(T 748,[0;1;2;3;4;5])] [4;5;3;0;2;1]) (-2) 1);
  (*6822*) AddTo n_l3new_bbbbbb (Times (Einsum [(T 748,[0;1;2;3;4;5])] [5;4;3;0;2;1]) (2) 1);
  (*6823*) AddTo n_l3new_bbbbbb (Times (Einsum [(T 748,[0;1;2;3;4;5])] [3;4;5;1;0;2]) (-2) 1);
  (*6824*) AddTo n_l3new_bbbbbb (Times (Einsum [(T 748,[0;1;2;3;4;5])] [4;5;3;1;0;2]) (-2) 1);
  (*6825*) AddTo n_l3new_bbbbbb (Times (Einsum [(T 748,[0;1;2;3;4;5])] [5;4;3;1;0;2]) (2) 1);
  (*6826*) AddTo n_l3new_bbbbbb (Times (Einsum [(T 748,[0;1;2;3;4;5])] [3;4;5;2;0;1]) (2) 1);
  (*6827*) AddTo n_l3new_bbbbbb (Times (Einsum [(T 748,[0;1;2;3;4;5])] [4;5;3;2;0;1]) (2) 1);
  (*6828*) AddTo n_l3new_bbbbbb (Times (Einsum [(T 748,[0;1;2;3;4;5])] [5;4;3;2;0;1]) (-2) 1);
  (*6829*) AddTo n_l3new_bbbbbb (Times (Einsum [(T 748,[0;1;2;3;4;5])] [3;4;5;1;2;0]) (2) 1);
  (*6830*) AddTo n_l3new_bbbbbb (Times (Einsum [(T 748,[0;1;2;3;4;5])] [4;5;3;1;2;0]) (2) 1);
  (*6831*) AddTo n_l3new_bbbbbb (Times (Einsum [(T 748,[0;1;2;3;4;5])] [5;4;3;1;2;0]) (-2) 1);
  (*6832*) AddTo n_l3new_bbbbbb (Times (Einsum [(T 748,[0;1;2;3;4;5])] [3;4;5;2;1;0]) (-2) 1);
  (*6833*) AddTo n_l3new_bbbbbb (Times (Einsum [(T 748,[0;1;2;3;4;5])] [4;5;3;2;1;0]) (-2) 1);
  (*6834*) AddTo n_l3new_bbbbbb (Times (Einsum [(T 748,[0;1;2;3;4;5])] [5;4;3;2;1;0]) (2) 1);
  (*6835*) Del (T 748);
  (*6836*) Assign (T 749) (Plain (Zeros [6;6;6;7;7;7]));
  (*6837*) AddTo (T 749) (Plain (Einsum [(n_l2'bbbb,[0;1;2;3]); (n_v'bbbb'ovvv,[4;5;6;1])] [2;3;4;0;5;6]));
  (*6838*) Assign (T 750) (Plain (Zeros [6;6;6;7;7;7]));
  (*6839*) AddTo (T 750) (Times (Einsum [(n_v'bbbb'ovov,[0;1;2;3]); (T 138,[4;5;2;6])] [0;4;5;3;1;6]) (2) 1);
  (*6840*) Del (T 138);
  (*6841*) Assign (T 751) (Plain (Zeros [6;6;6;7;7;7]));
  (*6842*) AddTo (T 751) (Times (Einsum [(T 749,[0;1;2;3;4;5])] [0;1;2;3;4;5]) (2) 1);
  (*6843*) Del (T 749);
  (*6844*) AddTo (T 751) (Times (Einsum [(T 750,[0;1;2;3;4;5])] [1;2;0;5;4;3]) (-1) 1);
  (*6845*) Del (T 750);
  (*6846*) AddTo n_l3new_bbbbbb (Plain (Einsum [(T 751,[0;1;2;3;4;5])] [3;4;5;1;0;2]));
  (*6847*) AddTo n_l3new_bbbbbb (Times (Einsum [(T 751,[0;1;2;3;4;5])] [3;5;4;1;0;2]) (-1) 1);
  (*6848*) AddTo n_l3new_bbbbbb (Times (Einsum [(T 751,[0;1;2;3;4;5])] [4;3;5;1;0;2]) (-1) 1);
  (*6849*) AddTo n_l3new_bbbbbb (Plain (Einsum [(T 751,[0;1;2;3;4;5])] [5;3;4;1;0;2]));
  (*6850*) AddTo n_l3new_bbbbbb (Plain (Einsum [(T 751,[0;1;2;3;4;5])] [4;5;3;1;0;2]));
  (*6851*) AddTo n_l3new_bbbbbb (Times (Einsum [(T 751,[0;1;2;3;4;5])] [5;4;3;1;0;2]) (-1) 1);
  (*6852*) AddTo n_l3new_bbbbbb (Times (Einsum [(T 751,[0;1;2;3;4;5])] [3;4;5;1;2;0]) (-1) 1);
  (*6853*) AddTo n_l3new_bbbbbb (Plain (Einsum [(T 751,[0;1;2;3;4;5])] [3;5;4;1;2;0]));
  (*6854*) AddTo n_l3new_bbbbbb (Plain (Einsum [(T 751,[0;1;2;3;4;5])] [4;3;5;1;2;0]));
  (*6855*) AddTo n_l3new_bbbbbb (Times (Einsum [(T 751,[0;1;2;3;4;5])] [5;3;4;1;2;0]) (-1) 1);
  (*6856*) AddTo n_l3new_bbbbbb (Times (Einsum [(T 751,[0;1;2;3;4;5])] [4;5;3;1;2;0]) (-1) 1);
  (*6857*) AddTo n_l3new_bbbbbb (Plain (Einsum [(T 751,[0;1;2;3;4;5])] [5;4;3;1;2;0]));
  (*6858*) AddTo n_l3new_bbbbbb (Plain (Einsum [(T 751,[0;1;2;3;4;5])] [3;4;5;2;1;0]));
  (*6859*) AddTo n_l3new_bbbbbb (Times (Einsum [(T 751,[0;1;2;3;4;5])] [3;5;4;2;1;0]) (-1) 1);
  (*6860*) AddTo n_l3new_bbbbbb (Times (Einsum [(T 751,[0;1;2;3;4;5])] [4;3;5;2;1;0]) (-1) 1);
  (*6861*) AddTo n_l3new_bbbbbb (Plain (Einsum [(T 751,[0;1;2;3;4;5])] [5;3;4;2;1;0]));
  (*6862*) AddTo n_l3new_bbbbbb (Plain (Einsum [(T 751,[0;1;2;3;4;5])] [4;5;3;2;1;0]));
  (*6863*) AddTo n_l3new_bbbbbb (Times (Einsum [(T 751,[0;1;2;3;4;5])] [5;4;3;2;1;0]) (-1) 1);
  (*6864*) Del (T 751);
  (*6865*) Assign (T 752) (Plain (Zeros [6;6;6;7;7;7]));
  (*6866*) AddTo (T 752) (Plain (Einsum [(n_f'bb'vv,[0;1]); (n_l3'bbbbbb,[2;3;1;4;5;6])] [4;5;6;0;2;3]));
  (*6867*) Assign (T 753) (Plain (Zeros [6;6;6;7;7;7]));
  (*6868*) AddTo (T 753) (Plain (Einsum [(n_f'bb'ov,[0;1]); (T 73,[2;3;4;0;5;6])] [2;3;4;1;5;6]));
  (*6869*) Del (T 73);
  (*6870*) Assign (T 754) (Plain (Zeros [6;6;6;7;7;7]));
  (*6871*) AddTo (T 754) (Times (Einsum [(n_v'bbbb'vvvv,[0;1;2;3]); (n_l3'bbbbbb,[4;3;1;5;6;7])] [5;6;7;4;0;2]) (-1) 1);
  (*6872*) Assign (T 755) (Plain (Zeros [6;6;6;7;7;7]));
  (*6873*) AddTo (T 755) (Times (Einsum [(T 752,[0;1;2;3;4;5])] [0;1;2;3;5;4]) (-6) 1);
  (*6874*) Del (T 752);
  (*6875*) AddTo (T 755) (Times (Einsum [(T 753,[0;1;2;3;4;5])] [0;1;2;3;5;4]) (6) 1);
  (*6876*) Del (T 753);
  (*6877*) AddTo (T 755) (Times (Einsum [(T 754,[0;1;2;3;4;5])] [0;1;2;3;5;4]) (-6) 1);
  (*6878*) Del (T 754);
  (*6879*) AddTo n_l3new_bbbbbb (Plain (Einsum [(T 755,[0;1;2;3;4;5])] [3;4;5;1;2;0]));
  (*6880*) AddTo n_l3new_bbbbbb (Plain (Einsum [(T 755,[0;1;2;3;4;5])] [5;3;4;1;2;0]));
  (*6881*) AddTo n_l3new_bbbbbb (Times (Einsum [(T 755,[0;1;2;3;4;5])] [5;4;3;1;2;0]) (-1) 1);
  (*6882*) Del (T 755);
  (*6883*) Assign (T 756) (Plain (Zeros [6;6;6;7;7;7]));
  (*6884*) AddTo (T 756) (Plain (Einsum [(T 28,[0;1;2;3]); (n_l3'bbbbbb,[4;5;6;7;0;1])] [7;2;3;4;5;6]));
  (*6885*) Del (T 28);
  (*6886*) AddTo n_l3new_bbbbbb (Times (Einsum [(T 756,[0;1;2;3;4;5])] [3;4;5;0;1;2]) (-6) 1);
  (*6887*) AddTo n_l3new_bbbbbb (Times (Einsum [(T 756,[0;1;2;3;4;5])] [3;4;5;0;2;1]) (6) 1);
  (*6888*) AddTo n_l3new_bbbbbb (Times (Einsum [(T 756,[0;1;2;3;4;5])] [3;4;5;1;0;2]) (6) 1);
  (*6889*) AddTo n_l3new_bbbbbb (Times (Einsum [(T 756,[0;1;2;3;4;5])] [3;4;5;2;0;1]) (-6) 1);
  (*6890*) AddTo n_l3new_bbbbbb (Times (Einsum [(T 756,[0;1;2;3;4;5])] [3;4;5;1;2;0]) (-6) 1);
  (*6891*) AddTo n_l3new_bbbbbb (Times (Einsum [(T 756,[0;1;2;3;4;5])] [3;4;5;2;1;0]) (6) 1);
  (*6892*) Del (T 756);
  (*6893*) Assign (T 757) (Plain (Zeros [6;6;6;7;7;7]));
  (*6894*) AddTo (T 757) (Times (Einsum [(T 561,[0;1]); (n_l3'bbbbbb,[2;3;4;5;6;0])] [5;6;1;2;3;4]) (6) 1);
  (*6895*) Del (T 561);
  (*6896*) AddTo n_l3new_bbbbbb (Plain (Einsum [(T 757,[0;1;2;3;4;5])] [5;3;4;1;0;2]));
  (*6897*) AddTo n_l3new_bbbbbb (Times (Einsum [(T 757,[0;1;2;3;4;5])] [5;3;4;1;2;0]) (-1) 1);
  (*6898*) AddTo n_l3new_bbbbbb (Plain (Einsum [(T 757,[0;1;2;3;4;5])] [5;3;4;2;1;0]));
  (*6899*) Del (T 757);
  (*6900*) Assign (T 758) (Plain (Zeros [6;6;6;7;7;7]));
  (*6901*) AddTo (T 758) (Plain (Einsum [(n_l2'bbbb,[0;1;2;3]); (n_v'bbbb'ooov,[4;3;5;6])] [2;4;5;0;1;6]));
  (*6902*) Assign (T 759) (Plain (Zeros [6;6;6;7;7;7]));
  (*6903*) AddTo (T 759) (Times (Einsum [(n_v'bbbb'ovov,[0;1;2;3]); (T 137,[4;5;6;1])] [0;2;4;3;5;6]) (6) 1);
  (*6904*) Del (T 137);
  (*6905*) Assign (T 760) (Plain (Zeros [6;6;6;7;7;7]));
  (*6906*) AddTo (T 760) (Times (Einsum [(T 758,[0;1;2;3;4;5])] [0;1;2;4;3;5]) (-2) 1);
  (*6907*) Del (T 758);
  (*6908*) AddTo (T 760) (Plain (Einsum [(T 759,[0;1;2;3;4;5])] [2;1;0;5;4;3]));
  (*6909*) Del (T 759);
  (*6910*) AddTo n_l3new_bbbbbb (Plain (Einsum [(T 760,[0;1;2;3;4;5])] [4;3;5;0;1;2]));
  (*6911*) AddTo n_l3new_bbbbbb (Times (Einsum [(T 760,[0;1;2;3;4;5])] [4;5;3;0;1;2]) (-1) 1);
  (*6912*) AddTo n_l3new_bbbbbb (Times (Einsum [(T 760,[0;1;2;3;4;5])] [5;3;4;0;1;2]) (-1) 1);
  (*6913*) AddTo n_l3new_bbbbbb (Times (Einsum [(T 760,[0;1;2;3;4;5])] [4;3;5;0;2;1]) (-1) 1);
  (*6914*) AddTo n_l3new_bbbbbb (Plain (Einsum [(T 760,[0;1;2;3;4;5])] [4;5;3;0;2;1]));
  (*6915*) AddTo n_l3new_bbbbbb (Plain (Einsum [(T 760,[0;1;2;3;4;5])] [5;3;4;0;2;1]));
  (*6916*) AddTo n_l3new_bbbbbb (Times (Einsum [(T 760,[0;1;2;3;4;5])] [4;3;5;1;0;2]) (-1) 1);
  (*6917*) AddTo n_l3new_bbbbbb (Plain (Einsum [(T 760,[0;1;2;3;4;5])] [4;5;3;1;0;2]));
  (*6918*) AddTo n_l3new_bbbbbb (Plain (Einsum [(T 760,[0;1;2;3;4;5])] [5;3;4;1;0;2]));
  (*6919*) AddTo n_l3new_bbbbbb (Plain (Einsum [(T 760,[0;1;2;3;4;5])] [4;3;5;2;0;1]));
  (*6920*) AddTo n_l3new_bbbbbb (Times (Einsum [(T 760,[0;1;2;3;4;5])] [4;5;3;2;0;1]) (-1) 1);
  (*6921*) AddTo n_l3new_bbbbbb (Times (Einsum [(T 760,[0;1;2;3;4;5])] [5;3;4;2;0;1]) (-1) 1);
  (*6922*) AddTo n_l3new_bbbbbb (Plain (Einsum [(T 760,[0;1;2;3;4;5])] [4;3;5;1;2;0]));
  (*6923*) AddTo n_l3new_bbbbbb (Times (Einsum [(T 760,[0;1;2;3;4;5])] [4;5;3;1;2;0]) (-1) 1);
  (*6924*) AddTo n_l3new_bbbbbb (Times (Einsum [(T 760,[0;1;2;3;4;5])] [5;3;4;1;2;0]) (-1) 1);
  (*6925*) AddTo n_l3new_bbbbbb (Times (Einsum [(T 760,[0;1;2;3;4;5])] [4;3;5;2;1;0]) (-1) 1);
  (*6926*) AddTo n_l3new_bbbbbb (Plain (Einsum [(T 760,[0;1;2;3;4;5])] [4;5;3;2;1;0]));
  (*6927*) AddTo n_l3new_bbbbbb (Plain (Einsum [(T 760,[0;1;2;3;4;5])] [5;3;4;2;1;0]));
  (*6928*) Del (T 760);
  (*6929*) Assign (T 761) (Plain (Zeros [6;6;6;6;6;7]));
  (*6930*) AddTo (T 761) (Plain (Einsum [(n_t2'bbbb,[0;1;2;3]); (n_l3'bbbbbb,[4;2;3;5;6;7])] [5;6;7;0;1;4]));
  (*6931*) Assign (T 762) (Plain (Zeros [6;6;6;6;6;7]));
  (*6932*) AddTo (T 762) (Times (Einsum [(T 761,[0;1;2;3;4;5])] [0;1;2;4;3;5]) (-1) 1);
  (*6933*) Del (T 761);
  (*6934*) AddTo (T 762) (Times (Einsum [(T 133,[0;1;2;3;4;5])] [0;1;2;4;3;5]) (-1) 1);
  (*6935*) Del (T 133);
  (*6936*) Assign (T 763) (Plain (Zeros [6;6;6;7;7;7]));
  (*6937*) AddTo (T 763) (Times (Einsum [(n_v'bbbb'ovov,[0;1;2;3]); (T 762,[4;5;6;0;2;7])] [4;5;6;1;3;7]) (6) 1);
  (*6938*) Del (T 762);
  (*6939*) AddTo n_l3new_bbbbbb (Times (Einsum [(T 763,[0;1;2;3;4;5])] [5;4;3;1;2;0]) (-1) 1);
  (*6940*) AddTo n_l3new_bbbbbb (Plain (Einsum [(T 763,[0;1;2;3;4;5])] [4;5;3;1;2;0]));
  (*6941*) AddTo n_l3new_bbbbbb (Times (Einsum [(T 763,[0;1;2;3;4;5])] [4;3;5;1;2;0]) (-1) 1);
  (*6942*) Del (T 763);
  (*6944*) Assign n_l1new'aa (Plain (Copy n_l1new_aa));
  (*6945*) Assign n_l1new'bb (Plain (Copy n_l1new_bb));
  (*6946*) Assign n_l2new'aaaa (Plain (Copy n_l2new_aaaa));
  (*6947*) Assign n_l2new'abab (Plain (Copy n_l2new_abab));
  (*6948*) Assign n_l2new'bbbb (Plain (Copy n_l2new_bbbb));
  (*6949*) Assign n_l3new'aaaaaa (Plain (Copy n_l3new_aaaaaa));
  (*6950*) Assign n_l3new'abaaba (Plain (Copy n_l3new_abaaba));
  (*6951*) Assign n_l3new'babbab (Plain (Copy n_l3new_babbab));
  (*6952*) Assign n_l3new'bbbbbb (Plain (Copy n_l3new_bbbbbb))]
 [(n_l1new'aa,[5;4]); (n_l1new'bb,[7;6]); (n_l2new'aaaa,[5;5;4;4]); (n_l2new'abab,[5;7;4;6]); (n_l2new'bbbb,[7;7;6;6]); (n_l3new'aaaaaa,[5;5;5;4;4;4]); (n_l3new'abaaba,[5;7;5;4;6;4]); (n_l3new'babbab,[7;5;7;6;4;6]); (n_l3new'bbbbbb,[7;7;7;6;6;6])].

(** ebcc/codegen/UCCSDT.py:6956-7121 [make_rdm1_f]; assembly (line 7115) not translated; assembly (line 7116) not translated *)
Definition UCCSDT_make_rdm1_f : prog := mkprog
 [(n_l1'bb,[7;6]); (n_t2'abab,[4;6;5;7]); (n_l2'abab,[5;7;4;6]); (n_t3'abaaba,[4;6;4;5;7;5]); (n_l2'aaaa,[5;5;4;4]); (n_t3'aaaaaa,[4;4;4;5;5;5]); (n_t1'aa,[4;5]); (n_l1'aa,[5;4]); (n_t2'aaaa,[4;4;5;5]); (n_l2'bbbb,[7;7;6;6]); (n_t3'babbab,[6;4;6;7;5;7]); (n_t1'bb,[6;7]); (n_t2'bbbb,[6;6;7;7]); (n_t3'bbbbbb,[6;6;6;7;7;7]); (n_l3'babbab,[7;5;7;6;4;6]); (n_l3'abaaba,[5;7;5;4;6;4]); (n_l3'aaaaaa,[5;5;5;4;4;4]); (n_l3'bbbbbb,[7;7;7;6;6;6])]
 [(*6960*) Assign n_delta'aa'oo (Plain (Eye 4));
  (*6960*) Assign n_delta'aa'vv (Plain (Eye 5));
  (*6961*) Assign n_delta'bb'oo (Plain (Eye 6));
  (*6961*) Assign n_delta'bb'vv (Plain (Eye 7));
  (*6964*) Assign n_rdm1_f_aa_oo (Plain (Zeros [4;4]));
  (*6965*) AddTo n_rdm1_f_aa_oo (Plain (Einsum [(n_delta'aa'oo,[0;1])] [0;1]));
  (*6966*) Assign n_rdm1_f_bb_oo (Plain (Zeros [6;6]));
  (*6967*) AddTo n_rdm1_f_bb_oo (Plain (Einsum [(n_delta'bb'oo,[0;1])] [0;1]));
  (*6968*) Assign n_rdm1_f_aa_ov (Plain (Zeros [4;5]));
  (*6969*) AddTo n_rdm1_f_aa_ov (Plain (Einsum [(n_l1'bb,[0;1]); (n_t2'abab,[2;1;3;0])] [2;3]));
  (*6970*) AddTo n_rdm1_f_aa_ov (Times (Einsum [(n_l2'abab,[0;1;2;3]); (n_t3'abaaba,[4;3;2;5;1;0])] [4;5]) (2) 1);
  (*6971*) AddTo n_rdm1_f_aa_ov (Times (Einsum [(n_l2'aaaa,[0;1;2;3]); (n_t3'aaaaaa,[4;2;3;5;0;1])] [4;5]) (3) 1);
  (*6972*) AddTo n_rdm1_f_aa_ov (Plain (Einsum [(n_t1'aa,[0;1])] [0;1]));
  (*6973*) AddTo n_rdm1_f_aa_ov (Times (Einsum [(n_l1'aa,[0;1]); (n_t2'aaaa,[2;1;3;0])] [2;3]) (2) 1);
  (*6974*) AddTo n_rdm1_f_aa_ov (Plain (Einsum [(n_l2'bbbb,[0;1;2;3]); (n_t3'babbab,[2;4;3;0;5;1])] [4;5]));
  (*6975*) Assign n_rdm1_f_bb_ov (Plain (Zeros [6;7]));
  (*6976*) AddTo n_rdm1_f_bb_ov (Plain (Einsum [(n_t1'bb,[0;1])] [0;1]));
  (*6977*) AddTo n_rdm1_f_bb_ov (Times (Einsum [(n_l1'bb,[0;1]); (n_t2'bbbb,[2;1;3;0])] [2;3]) (2) 1);
  (*6978*) AddTo n_rdm1_f_bb_ov (Times (Einsum [(n_l2'abab,[0;1;2;3]); (n_t3'babbab,[4;2;3;5;0;1])] [4;5]) (2) 1);
  (*6979*) AddTo n_rdm1_f_bb_ov (Plain (Einsum [(n_l1'aa,[0;1]); (n_t2'abab,[1;2;0;3])] [2;3]));
  (*6980*) AddTo n_rdm1_f_bb_ov (Times (Einsum [(n_l2'bbbb,[0;1;2;3]); (n_t3'bbbbbb,[4;2;3;5;0;1])] [4;5]) (3) 1);
  (*6981*) AddTo n_rdm1_f_bb_ov (Plain (Einsum [(n_l2'aaaa,[0;1;2;3]); (n_t3'abaaba,[2;4;3;0;5;1])] [4;5]));
  (*6982*) Assign n_rdm1_f_aa_vo (Plain (Zeros [5;4]));
  (*6983*) AddTo n_rdm1_f_aa_vo (Plain (Einsum [(n_l1'aa,[0;1])] [0;1]));
  (*6984*) Assign n_rdm1_f_bb_vo (Plain (Zeros [7;6]));
  (*6985*) AddTo n_rdm1_f_bb_vo (Plain (Einsum [(n_l1'bb,[0;1])] [0;1]));
  (*6986*) Assign n_rdm1_f_aa_vv (Plain (Zeros [5;5]));
  (*6987*) AddTo n_rdm1_f_aa_vv (Times (Einsum [(n_l3'babbab,[0;1;2;3;4;5]); (n_t3'babbab,[3;4;5;0;6;2])] [1;6]) (9999999999999601) 10000000000000000);
  (*6988*) AddTo n_rdm1_f_aa_vv (Plain (Einsum [(n_l2'abab,[0;1;2;3]); (n_t2'abab,[2;3;4;1])] [0;4]));
  (*6989*) AddTo n_rdm1_f_aa_vv (Plain (Einsum [(n_l1'aa,[0;1]); (n_t1'aa,[1;2])] [0;2]));
  (*6990*) AddTo n_rdm1_f_aa_vv (Times (Einsum [(n_l3'abaaba,[0;1;2;3;4;5]); (n_t3'abaaba,[3;4;5;6;1;2])] [0;6]) (9999999999999597) 5000000000000000);
  (*6991*) AddTo n_rdm1_f_aa_vv (Times (Einsum [(n_l3'aaaaaa,[0;1;2;3;4;5]); (n_t3'aaaaaa,[3;4;5;6;1;2])] [0;6]) (7499999999999697) 2500000000000000);
  (*6992*) AddTo n_rdm1_f_aa_vv (Times (Einsum [(n_l2'aaaa,[0;1;2;3]); (n_t2'aaaa,[2;3;4;1])] [0;4]) (2) 1);
  (*6993*) Assign n_rdm1_f_bb_vv (Plain (Zeros [7;7]));
  (*6994*) AddTo n_rdm1_f_bb_vv (Plain (Einsum [(n_l1'bb,[0;1]); (n_t1'bb,[1;2])] [0;2]));
  (*6995*) AddTo n_rdm1_f_bb_vv (Times (Einsum [(n_l3'babbab,[0;1;2;3;4;5]); (n_t3'babbab,[3;4;5;6;1;2])] [0;6]) (9999999999999597) 5000000000000000);
  (*6996*) AddTo n_rdm1_f_bb_vv (Plain (Einsum [(n_l2'abab,[0;1;2;3]); (n_t2'abab,[2;3;0;4])] [1;4]));
  (*6997*) AddTo n_rdm1_f_bb_vv (Times (Einsum [(n_l3'abaaba,[0;1;2;3;4;5]); (n_t3'abaaba,[3;4;5;0;6;2])] [1;6]) (9999999999999601) 10000000000000000);
  (*6998*) AddTo n_rdm1_f_bb_vv (Times (Einsum [(n_l2'bbbb,[0;1;2;3]); (n_t2'bbbb,[2;3;4;1])] [0;4]) (2) 1);
  (*6999*) AddTo n_rdm1_f_bb_vv (Times (Einsum [(n_l3'bbbbbb,[0;1;2;3;4;5]); (n_t3'bbbbbb,[3;4;5;6;1;2])] [0;6]) (7499999999999697) 2500000000000000);
  (*7000*) Assign (T 1) (Plain (Zeros [4;4]));
  (*7001*) AddTo (T 1) (Plain (Einsum [(n_l3'aaaaaa,[0;1;2;3;4;5]); (n_t3'aaaaaa,[6;4;5;0;1;2])] [3;6]));
  (*7002*) AddTo n_rdm1_f_aa_oo (Times (Einsum [(T 1,[0;1])] [1;0]) (-7499999999999697) 2500000000000000);
  (*7003*) Assign (T 2) (Plain (Zeros [4;4]));
  (*7004*) AddTo (T 2) (Plain (Einsum [(n_l1'aa,[0;1]); (n_t1'aa,[2;0])] [1;2]));
  (*7005*) AddTo n_rdm1_f_aa_oo (Times (Einsum [(T 2,[0;1])] [1;0]) (-1) 1);
  (*7006*) Assign (T 3) (Plain (Zeros [4;4]));
  (*7007*) AddTo (T 3) (Plain (Einsum [(n_l2'abab,[0;1;2;3]); (n_t2'abab,[4;3;0;1])] [2;4]));
  (*7008*) AddTo n_rdm1_f_aa_oo (Times (Einsum [(T 3,[0;1])] [1;0]) (-1) 1);
  (*7009*) Assign (T 4) (Plain (Zeros [4;4]));
  (*7010*) AddTo (T 4) (Plain (Einsum [(n_l2'aaaa,[0;1;2;3]); (n_t2'aaaa,[4;3;0;1])] [2;4]));
  (*7011*) AddTo n_rdm1_f_aa_oo (Times (Einsum [(T 4,[0;1])] [1;0]) (-2) 1);
  (*7012*) Assign (T 5) (Plain (Zeros [4;4]));
  (*7013*) AddTo (T 5) (Plain (Einsum [(n_l3'abaaba,[0;1;2;3;4;5]); (n_t3'abaaba,[6;4;5;0;1;2])] [3;6]));
  (*7014*) AddTo n_rdm1_f_aa_oo (Times (Einsum [(T 5,[0;1])] [1;0]) (-9999999999999597) 5000000000000000);
  (*7015*) Assign (T 6) (Plain (Zeros [4;4]));
  (*7016*) AddTo (T 6) (Plain (Einsum [(n_l3'babbab,[0;1;2;3;4;5]); (n_t3'babbab,[3;6;5;0;1;2])] [4;6]));
  (*7017*) AddTo n_rdm1_f_aa_oo (Times (Einsum [(T 6,[0;1])] [1;0]) (-9999999999999601) 10000000000000000);
  (*7018*) Assign (T 7) (Plain (Zeros [6;6]));
  (*7019*) AddTo (T 7) (Plain (Einsum [(n_l3'abaaba,[0;1;2;3;4;5]); (n_t3'abaaba,[3;6;5;0;1;2])] [4;6]));
  (*7020*) AddTo n_rdm1_f_bb_oo (Times (Einsum [(T 7,[0;1])] [1;0]) (-9999999999999601) 10000000000000000);
  (*7021*) Assign (T 8) (Plain (Zeros [6;6]));
  (*7022*) AddTo (T 8) (Plain (Einsum [(n_l2'bbbb,[0;1;2;3]); (n_t2'bbbb,[4;3;0;1])] [2;4]));
  (*7023*) AddTo n_rdm1_f_bb_oo (Times (Einsum [(T 8,[0;1])] [1;0]) (-2) 1);
  (*7024*) Assign (T 9) (Plain (Zeros [6;6]));
  (*7025*) AddTo (T 9) (Plain (Einsum [(n_l1'bb,[0;1]); (n_t1'bb,[2;0])] [1;2]));
  (*7026*) AddTo n_rdm1_f_bb_oo (Times (Einsum [(T 9,[0;1])] [1;0]) (-1) 1);
  (*7027*) Assign (T 10) (Plain (Zeros [6;6]));
  (*7028*) AddTo (T 10) (Plain (Einsum [(n_l3'bbbbbb,[0;1;2;3;4;5]); (n_t3'bbbbbb,[6;4;5;0;1;2])] [3;6]));
  (*7029*) AddTo n_rdm1_f_bb_oo (Times (Einsum [(T 10,[0;1])] [1;0]) (-7499999999999697) 2500000000000000);
  (*7030*) Assign (T 11) (Plain (Zeros [6;6]));
  (*7031*) AddTo (T 11) (Plain (Einsum [(n_l3'babbab,[0;1;2;3;4;5]); (n_t3'babbab,[6;4;5;0;1;2])] [3;6]));
  (*7032*) AddTo n_rdm1_f_bb_oo (Times (Einsum [(T 11,[0;1])] [1;0]) (-9999999999999597) 5000000000000000);
  (*7033*) Assign (T 12) (Plain (Zeros [6;6]));
  (*7034*) AddTo (T 12) (Plain (Einsum [(n_l2'abab,[0;1;2;3]); (n_t2'abab,[2;4;0;1])] [3;4]));
  (*7035*) AddTo n_rdm1_f_bb_oo (Times (Einsum [(T 12,[0;1])] [1;0]) (-1) 1);
  (*7036*) Assign (T 13) (Plain (Zeros [4;4;4;4;5;5]));
  (*7037*) AddTo (T 13) (Plain (Einsum [(n_t1'aa,[0;1]); (n_l3'aaaaaa,[2;3;1;4;5;6])] [4;5;6;0;2;3]));
  (*7038*) AddTo n_rdm1_f_aa_ov (Times (Einsum [(n_t3'aaaaaa,[0;1;2;3;4;5]); (T 13,[0;1;2;6;4;5])] [6;3]) (-7499999999999697) 2500000000000000);
  (*7039*) Del (T 13);
  (*7040*) Assign (T 14) (Plain (Zeros [6;6;7;7;4;4]));
  (*7041*) AddTo (T 14) (Plain (Einsum [(n_t1'aa,[0;1]); (n_l3'babbab,[2;1;3;4;5;6])] [4;6;2;3;5;0]));
  (*7042*) AddTo n_rdm1_f_aa_ov (Times (Einsum [(n_t3'babbab,[0;1;2;3;4;5]); (T 14,[0;2;5;3;1;6])] [6;4]) (9999999999999601) 10000000000000000);
  (*7043*) Del (T 14);
  (*7044*) Assign (T 15) (Plain (Zeros [6;7;4;4;4;5]));
  (*7045*) AddTo (T 15) (Plain (Einsum [(n_t1'aa,[0;1]); (n_l3'abaaba,[2;3;1;4;5;6])] [5;3;4;6;0;2]));
  (*7046*) AddTo n_rdm1_f_aa_ov (Times (Einsum [(n_t3'abaaba,[0;1;2;3;4;5]); (T 15,[1;4;2;0;6;5])] [6;3]) (-9999999999999597) 5000000000000000);
  (*7047*) Del (T 15);
  (*7048*) Assign (T 16) (Plain (Zeros [4;4;4;5]));
  (*7049*) AddTo (T 16) (Plain (Einsum [(n_t1'aa,[0;1]); (n_l2'aaaa,[2;1;3;4])] [3;4;0;2]));
  (*7050*) AddTo (T 16) (Plain (Einsum [(n_t2'abab,[0;1;2;3]); (n_l3'abaaba,[4;3;2;5;1;6])] [5;6;0;4]));
  (*7051*) AddTo (T 16) (Times (Einsum [(n_t2'aaaa,[0;1;2;3]); (n_l3'aaaaaa,[4;2;3;5;6;1])] [5;6;0;4]) (3) 1);
  (*7052*) AddTo n_rdm1_f_aa_ov (Times (Einsum [(n_t2'aaaa,[0;1;2;3]); (T 16,[0;1;4;3])] [4;2]) (2) 1);
  (*7053*) Del (T 16);
  (*7054*) Assign (T 17) (Plain (Zeros [6;7;4;4]));
  (*7055*) AddTo (T 17) (Times (Einsum [(n_t1'aa,[0;1]); (n_l2'abab,[1;2;3;4])] [4;2;3;0]) (1) 2);
  (*7056*) AddTo (T 17) (Plain (Einsum [(n_t2'abab,[0;1;2;3]); (n_l3'babbab,[4;2;3;5;6;1])] [5;4;6;0]));
  (*7057*) AddTo (T 17) (Plain (Einsum [(n_t2'aaaa,[0;1;2;3]); (n_l3'abaaba,[2;4;3;5;6;1])] [6;4;5;0]));
  (*7058*) AddTo n_rdm1_f_aa_ov (Times (Einsum [(n_t2'abab,[0;1;2;3]); (T 17,[1;3;0;4])] [4;2]) (-2) 1);
  (*7059*) Del (T 17);
  (*7060*) Assign (T 18) (Plain (Zeros [4;4]));
  (*7061*) AddTo (T 18) (Times (Einsum [(T 2,[0;1])] [0;1]) (833333333333367) 2500000000000000);
  (*7062*) Del (T 2);
  (*7063*) AddTo (T 18) (Times (Einsum [(T 3,[0;1])] [0;1]) (833333333333367) 2500000000000000);
  (*7064*) Del (T 3);
  (*7065*) AddTo (T 18) (Times (Einsum [(T 4,[0;1])] [0;1]) (833333333333367) 1250000000000000);
  (*7066*) Del (T 4);
  (*7067*) AddTo (T 18) (Times (Einsum [(T 6,[0;1])] [0;1]) (16666666666666677) 50000000000000000);
  (*7068*) Del (T 6);
  (*7069*) AddTo (T 18) (Times (Einsum [(T 5,[0;1])] [0;1]) (6666666666666667) 10000000000000000);
  (*7070*) Del (T 5);
  (*7071*) AddTo (T 18) (Plain (Einsum [(T 1,[0;1])] [0;1]));
  (*7072*) Del (T 1);
  (*7073*) AddTo n_rdm1_f_aa_ov (Times (Einsum [(n_t1'aa,[0;1]); (T 18,[0;2])] [2;1]) (-7499999999999697) 2500000000000000);
  (*7074*) Del (T 18);
  (*7075*) Assign (T 19) (Plain (Zeros [6;6;4;4;5;5]));
  (*7076*) AddTo (T 19) (Plain (Einsum [(n_t1'bb,[0;1]); (n_l3'abaaba,[2;1;3;4;5;6])] [5;0;4;6;2;3]));
  (*7077*) AddTo n_rdm1_f_bb_ov (Times (Einsum [(n_t3'abaaba,[0;1;2;3;4;5]); (T 19,[1;6;0;2;3;5])] [6;4]) (-9999999999999601) 10000000000000000);
  (*7078*) Del (T 19);
  (*7079*) Assign (T 20) (Plain (Zeros [6;6;6;7;4;5]));
  (*7080*) AddTo (T 20) (Plain (Einsum [(n_t1'bb,[0;1]); (n_l3'babbab,[2;3;1;4;5;6])] [4;6;0;2;5;3]));
  (*7081*) AddTo n_rdm1_f_bb_ov (Times (Einsum [(n_t3'babbab,[0;1;2;3;4;5]); (T 20,[0;2;6;5;1;4])] [6;3]) (9999999999999597) 5000000000000000);
  (*7082*) Del (T 20);
  (*7083*) Assign (T 21) (Plain (Zeros [6;6;6;6;7;7]));
  (*7084*) AddTo (T 21) (Plain (Einsum [(n_t1'bb,[0;1]); (n_l3'bbbbbb,[2;3;1;4;5;6])] [4;5;6;0;2;3]));
  (*7085*) AddTo n_rdm1_f_bb_ov (Times (Einsum [(n_t3'bbbbbb,[0;1;2;3;4;5]); (T 21,[0;1;2;6;5;4])] [6;3]) (7499999999999697) 2500000000000000);
  (*7086*) Del (T 21);
  (*7087*) Assign (T 22) (Plain (Zeros [6;6;4;5]));
  (*7088*) AddTo (T 22) (Plain (Einsum [(n_t1'bb,[0;1]); (n_l2'abab,[2;1;3;4])] [4;0;3;2]));
  (*7089*) AddTo (T 22) (Times (Einsum [(n_t2'bbbb,[0;1;2;3]); (n_l3'babbab,[2;4;3;5;6;1])] [5;0;6;4]) (2) 1);
  (*7090*) AddTo (T 22) (Times (Einsum [(n_t2'abab,[0;1;2;3]); (n_l3'abaaba,[4;3;2;5;6;0])] [6;1;5;4]) (2) 1);
  (*7091*) AddTo n_rdm1_f_bb_ov (Times (Einsum [(n_t2'abab,[0;1;2;3]); (T 22,[1;4;0;2])] [4;3]) (-1) 1);
  (*7092*) Del (T 22);
  (*7093*) Assign (T 23) (Plain (Zeros [6;6;6;7]));
  (*7094*) AddTo (T 23) (Times (Einsum [(n_t1'bb,[0;1]); (n_l2'bbbb,[2;1;3;4])] [3;4;0;2]) (3333333333333333) 10000000000000000);
  (*7095*) AddTo (T 23) (Plain (Einsum [(n_t2'bbbb,[0;1;2;3]); (n_l3'bbbbbb,[4;2;3;5;6;1])] [5;6;0;4]));
  (*7096*) AddTo (T 23) (Times (Einsum [(n_t2'abab,[0;1;2;3]); (n_l3'babbab,[4;2;3;5;0;6])] [5;6;1;4]) (3333333333333333) 10000000000000000);
  (*7097*) AddTo n_rdm1_f_bb_ov (Times (Einsum [(n_t2'bbbb,[0;1;2;3]); (T 23,[0;1;4;3])] [4;2]) (6) 1);
  (*7098*) Del (T 23);
  (*7099*) Assign (T 24) (Plain (Zeros [6;6]));
  (*7100*) AddTo (T 24) (Times (Einsum [(T 9,[0;1])] [0;1]) (25000000000001) 25000000000000);
  (*7101*) Del (T 9);
  (*7102*) AddTo (T 24) (Times (Einsum [(T 8,[0;1])] [0;1]) (25000000000001) 12500000000000);
  (*7103*) Del (T 8);
  (*7104*) AddTo (T 24) (Times (Einsum [(T 12,[0;1])] [0;1]) (25000000000001) 25000000000000);
  (*7105*) Del (T 12);
  (*7106*) AddTo (T 24) (Times (Einsum [(T 10,[0;1])] [0;1]) (14999999999999991) 5000000000000000);
  (*7107*) Del (T 10);
  (*7108*) AddTo (T 24) (Times (Einsum [(T 11,[0;1])] [0;1]) (19999999999999991) 10000000000000000);
  (*7109*) Del (T 11);
  (*7110*) AddTo (T 24) (Plain (Einsum [(T 7,[0;1])] [0;1]));
  (*7111*) Del (T 7);
  (*7112*) AddTo n_rdm1_f_bb_ov (Times (Einsum [(n_t1'bb,[0;1]); (T 24,[0;2])] [2;1]) (-9999999999999601) 10000000000000000);
  (*7113*) Del (T 24)]
 [(n_rdm1_f_aa_oo,[4;4]); (n_rdm1_f_aa_ov,[4;5]); (n_rdm1_f_aa_vo,[5;4]); (n_rdm1_f_aa_vv,[5;5]); (n_rdm1_f_bb_oo,[6;6]); (n_rdm1_f_bb_ov,[6;7]); (n_rdm1_f_bb_vo,[7;6]); (n_rdm1_f_bb_vv,[7;7])].

(** ebcc/codegen/UCCSDT.py:7123-9149 [make_rdm2_f]; assembly (line 9137) not translated; assembly (line 9138) not translated; assembly (line 9139) not translated *)
Definition UCCSDT_make_rdm2_f : prog := mkprog
 [(n_l1'aa,[5;4]); (n_l1'bb,[7;6]); (n_t3'abaaba,[4;6;4;5;7;5]); (n_t2'aaaa,[4;4;5;5]); (n_t3'aaaaaa,[4;4;4;5;5;5]); (n_t2'abab,[4;6;5;7]); (n_t3'babbab,[6;4;6;7;5;7]); (n_t3'bbbbbb,[6;6;6;7;7;7]); (n_t2'bbbb,[6;6;7;7]); (n_t1'bb,[6;7]); (n_t1'aa,[4;5]); (n_l2'aaaa,[5;5;4;4]); (n_l2'abab,[5;7;4;6]); (n_l2'bbbb,[7;7;6;6]); (n_l3'abaaba,[5;7;5;4;6;4]); (n_l3'aaaaaa,[5;5;5;4;4;4]); (n_l3'babbab,[7;5;7;6;4;6]); (n_l3'bbbbbb,[7;7;7;6;6;6])]
 [(*7127*) Assign n_delta'aa'oo (Plain (Eye 4));
  (*7127*) Assign n_delta'aa'vv (Plain (Eye 5));
  (*7128*) Assign n_delta'bb'oo (Plain (Eye 6));
  (*7128*) Assign n_delta'bb'vv (Plain (Eye 7));
  (*7131*) Assign n_rdm2_f_aaaa_oooo (Plain (Zeros [4;4;4;4]));
  (*7132*) AddTo n_rdm2_f_aaaa_oooo (Plain (Einsum [(n_delta'aa'oo,[0;1]); (n_delta'aa'oo,[2;3])] [0;2;1;3]));
  (*7133*) AddTo n_rdm2_f_aaaa_oooo (Times (Einsum [(n_delta'aa'oo,[0;1]); (n_delta'aa'oo,[2;3])] [0;2;3;1]) (-1) 1);
  (*7134*) Assign n_rdm2_f_bbbb_oooo (Plain (Zeros [6;6;6;6]));
  (*7135*) AddTo n_rdm2_f_bbbb_oooo (Plain (Einsum [(n_delta'bb'oo,[0;1]); (n_delta'bb'oo,[2;3])] [0;2;1;3]));
  (*7136*) AddTo n_rdm2_f_bbbb_oooo (Times (Einsum [(n_delta'bb'oo,[0;1]); (n_delta'bb'oo,[2;3])] [0;2;3;1]) (-1) 1);
  (*7137*) Assign n_rdm2_f_aaaa_ovoo (Plain (Zeros [4;5;4;4]));
  (*7138*) AddTo n_rdm2_f_aaaa_ovoo (Plain (Einsum [(n_delta'aa'oo,[0;1]); (n_l1'aa,[2;3])] [0;2;1;3]));
  (*7139*) AddTo n_rdm2_f_aaaa_ovoo (Times (Einsum [(n_delta'aa'oo,[0;1]); (n_l1'aa,[2;3])] [0;2;3;1]) (-1) 1);
  (*7140*) Assign n_rdm2_f_abab_ovoo (Plain (Zeros [4;7;4;6]));
  (*7141*) AddTo n_rdm2_f_abab_ovoo (Plain (Einsum [(n_delta'aa'oo,[0;1]); (n_l1'bb,[2;3])] [0;2;1;3]));
  (*7142*) Assign n_rdm2_f_bbbb_ovoo (Plain (Zeros [6;7;6;6]));
  (*7143*) AddTo n_rdm2_f_bbbb_ovoo (Plain (Einsum [(n_delta'bb'oo,[0;1]); (n_l1'bb,[2;3])] [0;2;1;3]));
  (*7144*) AddTo n_rdm2_f_bbbb_ovoo (Times (Einsum [(n_delta'bb'oo,[0;1]); (n_l1'bb,[2;3])] [0;2;3;1]) (-1) 1);
  (*7145*) Assign n_rdm2_f_aaaa_vooo (Plain (Zeros [5;4;4;4]));
  (*7146*) AddTo n_rdm2_f_aaaa_vooo (Times (Einsum [(n_delta'aa'oo,[0;1]); (n_l1'aa,[2;3])] [2;0;1;3]) (-1) 1);
  (*7147*) AddTo n_rdm2_f_aaaa_vooo (Plain (Einsum [(n_delta'aa'oo,[0;1]); (n_l1'aa,[2;3])] [2;0;3;1]));
  (*7148*) Assign n_rdm2_f_abab_vooo (Plain (Zeros [5;6;4;6]));
  (*7149*) AddTo n_rdm2_f_abab_vooo (Plain (Einsum [(n_delta'bb'oo,[0;1]); (n_l1'aa,[2;3])] [2;0;3;1]));
  (*7150*) Assign n_rdm2_f_bbbb_vooo (Plain (Zeros [7;6;6;6]));
  (*7151*) AddTo n_rdm2_f_bbbb_vooo (Times (Einsum [(n_delta'bb'oo,[0;1]); (n_l1'bb,[2;3])] [2;0;1;3]) (-1) 1);
  (*7152*) AddTo n_rdm2_f_bbbb_vooo (Plain (Einsum [(n_delta'bb'oo,[0;1]); (n_l1'bb,[2;3])] [2;0;3;1]));
  (*7153*) Assign n_rdm2_f_aaaa_oovv (Plain (Zeros [4;4;5;5]));
  (*7154*) AddTo n_rdm2_f_aaaa_oovv (Times (Einsum [(n_l1'bb,[0;1]); (n_t3'abaaba,[2;1;3;4;0;5])] [2;3;4;5]) (2) 1);
  (*7155*) AddTo n_rdm2_f_aaaa_oovv (Times (Einsum [(n_t2'aaaa,[0;1;2;3])] [0;1;2;3]) (2) 1);
  (*7156*) AddTo n_rdm2_f_aaaa_oovv (Times (Einsum [(n_l1'aa,[0;1]); (n_t3'aaaaaa,[2;3;1;4;5;0])] [2;3;4;5]) (6) 1);
  (*7157*) Assign n_rdm2_f_abab_oovv (Plain (Zeros [4;6;5;7]));
  (*7158*) AddTo n_rdm2_f_abab_oovv (Plain (Einsum [(n_t2'abab,[0;1;2;3])] [0;1;2;3]));
  (*7159*) AddTo n_rdm2_f_abab_oovv (Times (Einsum [(n_l1'bb,[0;1]); (n_t3'babbab,[2;3;1;4;5;0])] [3;2;5;4]) (2) 1);
  (*7160*) AddTo n_rdm2_f_abab_oovv (Times (Einsum [(n_l1'aa,[0;1]); (n_t3'abaaba,[2;3;1;4;5;0])] [2;3;4;5]) (2) 1);
  (*7161*) Assign n_rdm2_f_bbbb_oovv (Plain (Zeros [6;6;7;7]));
  (*7162*) AddTo n_rdm2_f_bbbb_oovv (Times (Einsum [(n_l1'bb,[0;1]); (n_t3'bbbbbb,[2;3;1;4;5;0])] [2;3;4;5]) (6) 1);
  (*7163*) AddTo n_rdm2_f_bbbb_oovv (Times (Einsum [(n_t2'bbbb,[0;1;2;3])] [0;1;2;3]) (2) 1);
  (*7164*) AddTo n_rdm2_f_bbbb_oovv (Times (Einsum [(n_l1'aa,[0;1]); (n_t3'babbab,[2;1;3;4;0;5])] [2;3;4;5]) (2) 1);
  (*7165*) AddTo n_rdm2_f_bbbb_oovv (Times (Einsum [(n_t1'bb,[0;1]); (n_t1'bb,[2;3])] [0;2;3;1]) (-1) 1);
  (*7166*) AddTo n_rdm2_f_bbbb_oovv (Plain (Einsum [(n_t1'bb,[0;1]); (n_t1'bb,[2;3])] [0;2;1;3]));
  (*7167*) Assign n_rdm2_f_aaaa_ovov (Plain (Zeros [4;5;4;5]));
  (*7168*) AddTo n_rdm2_f_aaaa_ovov (Times (Einsum [(n_l1'aa,[0;1]); (n_t1'aa,[2;3])] [2;0;1;3]) (-1) 1);
  (*7169*) Assign n_rdm2_f_bbbb_ovov (Plain (Zeros [6;7;6;7]));
  (*7170*) AddTo n_rdm2_f_bbbb_ovov (Times (Einsum [(n_l1'bb,[0;1]); (n_t1'bb,[2;3])] [2;0;1;3]) (-1) 1);
  (*7171*) Assign n_rdm2_f_aaaa_ovvo (Plain (Zeros [4;5;5;4]));
  (*7172*) AddTo n_rdm2_f_aaaa_ovvo (Plain (Einsum [(n_l1'aa,[0;1]); (n_t1'aa,[2;3])] [2;0;3;1]));
  (*7173*) Assign n_rdm2_f_abab_ovvo (Plain (Zeros [4;7;5;6]));
  (*7174*) AddTo n_rdm2_f_abab_ovvo (Plain (Einsum [(n_l1'bb,[0;1]); (n_t1'aa,[2;3])] [2;0;3;1]));
  (*7175*) Assign n_rdm2_f_bbbb_ovvo (Plain (Zeros [6;7;7;6]));
  (*7176*) AddTo n_rdm2_f_bbbb_ovvo (Plain (Einsum [(n_l1'bb,[0;1]); (n_t1'bb,[2;3])] [2;0;3;1]));
  (*7177*) Assign n_rdm2_f_aaaa_voov (Plain (Zeros [5;4;4;5]));
  (*7178*) AddTo n_rdm2_f_aaaa_voov (Plain (Einsum [(n_l1'aa,[0;1]); (n_t1'aa,[2;3])] [0;2;1;3]));
  (*7179*) Assign n_rdm2_f_abab_voov (Plain (Zeros [5;6;4;7]));
  (*7180*) AddTo n_rdm2_f_abab_voov (Plain (Einsum [(n_l1'aa,[0;1]); (n_t1'bb,[2;3])] [0;2;1;3]));
  (*7181*) Assign n_rdm2_f_bbbb_voov (Plain (Zeros [7;6;6;7]));
  (*7182*) AddTo n_rdm2_f_bbbb_voov (Plain (Einsum [(n_l1'bb,[0;1]); (n_t1'bb,[2;3])] [0;2;1;3]));
  (*7183*) Assign n_rdm2_f_aaaa_vovo (Plain (Zeros [5;4;5;4]));
  (*7184*) AddTo n_rdm2_f_aaaa_vovo (Times (Einsum [(n_l1'aa,[0;1]); (n_t1'aa,[2;3])] [0;2;3;1]) (-1) 1);
  (*7185*) Assign n_rdm2_f_bbbb_vovo (Plain (Zeros [7;6;7;6]));
  (*7186*) AddTo n_rdm2_f_bbbb_vovo (Times (Einsum [(n_l1'bb,[0;1]); (n_t1'bb,[2;3])] [0;2;3;1]) (-1) 1);
  (*7187*) Assign n_rdm2_f_aaaa_vvoo (Plain (Zeros [5;5;4;4]));
  (*7188*) AddTo n_rdm2_f_aaaa_vvoo (Times (Einsum [(n_l2'aaaa,[0;1;2;3])] [0;1;2;3]) (2) 1);
  (*7189*) Assign n_rdm2_f_abab_vvoo (Plain (Zeros [5;7;4;6]));
  (*7190*) AddTo n_rdm2_f_abab_vvoo (Plain (Einsum [(n_l2'abab,[0;1;2;3])] [0;1;2;3]));
  (*7191*) Assign n_rdm2_f_bbbb_vvoo (Plain (Zeros [7;7;6;6]));
  (*7192*) AddTo n_rdm2_f_bbbb_vvoo (Times (Einsum [(n_l2'bbbb,[0;1;2;3])] [0;1;2;3]) (2) 1);
  (*7193*) Assign n_rdm2_f_abab_ovvv (Plain (Zeros [4;7;5;7]));
  (*7194*) AddTo n_rdm2_f_abab_ovvv (Plain (Einsum [(n_l1'bb,[0;1]); (n_t2'abab,[2;1;3;4])] [2;0;3;4]));
  (*7195*) AddTo n_rdm2_f_abab_ovvv (Times (Einsum [(n_l2'bbbb,[0;1;2;3]); (n_t3'babbab,[2;4;3;5;6;1])] [4;0;6;5]) (2) 1);
  (*7196*) AddTo n_rdm2_f_abab_ovvv (Times (Einsum [(n_l2'abab,[0;1;2;3]); (n_t3'abaaba,[4;3;2;5;6;0])] [4;1;5;6]) (2) 1);
  (*7197*) Assign n_rdm2_f_abab_vovv (Plain (Zeros [5;6;5;7]));
  (*7198*) AddTo n_rdm2_f_abab_vovv (Times (Einsum [(n_l2'abab,[0;1;2;3]); (n_t3'babbab,[4;2;3;5;6;1])] [0;4;6;5]) (2) 1);
  (*7199*) AddTo n_rdm2_f_abab_vovv (Plain (Einsum [(n_l1'aa,[0;1]); (n_t2'abab,[1;2;3;4])] [0;2;3;4]));
  (*7200*) AddTo n_rdm2_f_abab_vovv (Times (Einsum [(n_l2'aaaa,[0;1;2;3]); (n_t3'abaaba,[2;4;3;5;6;1])] [0;4;5;6]) (2) 1);
  (*7201*) Assign n_rdm2_f_abab_vvov (Plain (Zeros [5;7;4;7]));
  (*7202*) AddTo n_rdm2_f_abab_vvov (Plain (Einsum [(n_t1'bb,[0;1]); (n_l2'abab,[2;3;4;0])] [2;3;4;1]));
  (*7203*) Assign n_rdm2_f_aaaa_vvvv (Plain (Zeros [5;5;5;5]));
  (*7204*) AddTo n_rdm2_f_aaaa_vvvv (Times (Einsum [(n_l3'abaaba,[0;1;2;3;4;5]); (n_t3'abaaba,[3;4;5;6;1;7])] [0;2;6;7]) (5000000000000101) 2500000000000000);
  (*7205*) AddTo n_rdm2_f_aaaa_vvvv (Times (Einsum [(n_l3'aaaaaa,[0;1;2;3;4;5]); (n_t3'aaaaaa,[3;4;5;6;7;2])] [0;1;6;7]) (1500000000000029) 250000000000000);
  (*7206*) AddTo n_rdm2_f_aaaa_vvvv (Times (Einsum [(n_l2'aaaa,[0;1;2;3]); (n_t2'aaaa,[2;3;4;5])] [0;1;4;5]) (2) 1);
  (*7207*) Assign n_rdm2_f_abab_vvvv (Plain (Zeros [5;7;5;7]));
  (*7208*) AddTo n_rdm2_f_abab_vvvv (Times (Einsum [(n_l3'babbab,[0;1;2;3;4;5]); (n_t3'babbab,[3;4;5;6;7;2])] [1;0;7;6]) (5000000000000101) 2500000000000000);
  (*7209*) AddTo n_rdm2_f_abab_vvvv (Times (Einsum [(n_l3'abaaba,[0;1;2;3;4;5]); (n_t3'abaaba,[3;4;5;6;7;2])] [0;1;6;7]) (5000000000000101) 2500000000000000);
  (*7210*) AddTo n_rdm2_f_abab_vvvv (Plain (Einsum [(n_l2'abab,[0;1;2;3]); (n_t2'abab,[2;3;4;5])] [0;1;4;5]));
  (*7211*) Assign n_rdm2_f_bbbb_vvvv (Plain (Zeros [7;7;7;7]));
  (*7212*) AddTo n_rdm2_f_bbbb_vvvv (Times (Einsum [(n_l3'babbab,[0;1;2;3;4;5]); (n_t3'babbab,[3;4;5;6;1;7])] [0;2;6;7]) (5000000000000101) 2500000000000000);
  (*7213*) AddTo n_rdm2_f_bbbb_vvvv (Times (Einsum [(n_l2'bbbb,[0;1;2;3]); (n_t2'bbbb,[2;3;4;5])] [0;1;4;5]) (2) 1);
  (*7214*) AddTo n_rdm2_f_bbbb_vvvv (Times (Einsum [(n_l3'bbbbbb,[0;1;2;3;4;5]); (n_t3'bbbbbb,[3;4;5;6;7;2])] [0;1;6;7]) (1500000000000029) 250000000000000);
  (*7215*) Assign (T 1) (Plain (Zeros [4;4;4;4]));
  (*7216*) AddTo (T 1) (Plain (Einsum [(n_l2'aaaa,[0;1;2;3]); (n_t2'aaaa,[4;5;0;1])] [2;3;4;5]));
  (*7217*) AddTo n_rdm2_f_aaaa_oooo (Times (Einsum [(T 1,[0;1;2;3])] [3;2;1;0]) (2) 1);
  (*7218*) Assign (T 2) (Plain (Zeros [4;4;4;5]));
  (*7219*) AddTo (T 2) (Plain (Einsum [(n_t1'aa,[0;1]); (n_l2'aaaa,[2;1;3;4])] [3;4;0;2]));
  (*7220*) AddTo n_rdm2_f_aaaa_ovoo (Times (Einsum [(T 2,[0;1;2;3])] [2;3;1;0]) (-2) 1);
  (*7221*) AddTo n_rdm2_f_aaaa_vooo (Times (Einsum [(T 2,[0;1;2;3])] [3;2;1;0]) (2) 1);
  (*7222*) Assign (T 3) (Plain (Zeros [4;4;4;4]));
  (*7223*) AddTo (T 3) (Plain (Einsum [(n_t1'aa,[0;1]); (T 2,[2;3;4;1])] [2;3;0;4]));
  (*7224*) AddTo n_rdm2_f_aaaa_oooo (Times (Einsum [(T 3,[0;1;2;3])] [2;3;1;0]) (-2) 1);
  (*7225*) Assign (T 4) (Plain (Zeros [4;4;4;4]));
  (*7226*) AddTo (T 4) (Plain (Einsum [(n_l3'abaaba,[0;1;2;3;4;5]); (n_t3'abaaba,[6;4;7;0;1;2])] [3;5;6;7]));
  (*7227*) AddTo n_rdm2_f_aaaa_oooo (Times (Einsum [(T 4,[0;1;2;3])] [2;3;1;0]) (-5000000000000101) 2500000000000000);
  (*7228*) Assign (T 5) (Plain (Zeros [4;4;4;4]));
  (*7229*) AddTo (T 5) (Plain (Einsum [(n_l3'aaaaaa,[0;1;2;3;4;5]); (n_t3'aaaaaa,[6;7;5;0;1;2])] [3;4;6;7]));
  (*7230*) AddTo n_rdm2_f_aaaa_oooo (Times (Einsum [(T 5,[0;1;2;3])] [2;3;1;0]) (-1500000000000029) 250000000000000);
  (*7231*) Assign (T 6) (Plain (Zeros [4;4]));
  (*7232*) AddTo (T 6) (Plain (Einsum [(n_l2'abab,[0;1;2;3]); (n_t2'abab,[4;3;0;1])] [2;4]));
  (*7233*) Assign (T 7) (Plain (Zeros [4;4]));
  (*7234*) AddTo (T 7) (Plain (Einsum [(n_l2'aaaa,[0;1;2;3]); (n_t2'aaaa,[4;3;0;1])] [2;4]));
  (*7235*) Assign (T 8) (Plain (Zeros [4;4]));
  (*7236*) AddTo (T 8) (Plain (Einsum [(n_l3'babbab,[0;1;2;3;4;5]); (n_t3'babbab,[3;6;5;0;1;2])] [4;6]));
  (*7237*) Assign (T 9) (Plain (Zeros [4;4]));
  (*7238*) AddTo (T 9) (Plain (Einsum [(n_l3'abaaba,[0;1;2;3;4;5]); (n_t3'abaaba,[6;4;5;0;1;2])] [3;6]));
  (*7239*) Assign (T 10) (Plain (Zeros [4;4]));
  (*7240*) AddTo (T 10) (Plain (Einsum [(n_l3'aaaaaa,[0;1;2;3;4;5]); (n_t3'aaaaaa,[6;4;5;0;1;2])] [3;6]));
  (*7241*) Assign (T 11) (Plain (Zeros [4;4]));
  (*7242*) AddTo (T 11) (Plain (Einsum [(T 6,[0;1])] [0;1]));
  (*7243*) AddTo (T 11) (Times (Einsum [(T 7,[0;1])] [0;1]) (2) 1);
  (*7244*) AddTo (T 11) (Times (Einsum [(T 8,[0;1])] [0;1]) (9999999999999601) 10000000000000000);
  (*7245*) AddTo (T 11) (Times (Einsum [(T 9,[0;1])] [0;1]) (9999999999999597) 5000000000000000);
  (*7246*) AddTo (T 11) (Times (Einsum [(T 10,[0;1])] [0;1]) (7499999999999697) 2500000000000000);
  (*7247*) AddTo n_rdm2_f_aaaa_oooo (Times (Einsum [(n_delta'aa'oo,[0;1]); (T 11,[2;3])] [0;3;1;2]) (-1) 1);
  (*7248*) AddTo n_rdm2_f_aaaa_oooo (Plain (Einsum [(n_delta'aa'oo,[0;1]); (T 11,[2;3])] [0;3;2;1]));
  (*7249*) AddTo n_rdm2_f_aaaa_oooo (Plain (Einsum [(n_delta'aa'oo,[0;1]); (T 11,[2;3])] [3;0;1;2]));
  (*7250*) AddTo n_rdm2_f_aaaa_oooo (Times (Einsum [(n_delta'aa'oo,[0;1]); (T 11,[2;3])] [3;0;2;1]) (-1) 1);
  (*7251*) Del (T 11);
  (*7252*) Assign (T 12) (Plain (Zeros [4;4]));
  (*7253*) AddTo (T 12) (Plain (Einsum [(n_l1'aa,[0;1]); (n_t1'aa,[2;0])] [1;2]));
  (*7254*) AddTo n_rdm2_f_aaaa_oooo (Times (Einsum [(n_delta'aa'oo,[0;1]); (T 12,[2;3])] [0;3;1;2]) (-1) 1);
  (*7255*) AddTo n_rdm2_f_aaaa_oooo (Plain (Einsum [(n_delta'aa'oo,[0;1]); (T 12,[2;3])] [3;0;1;2]));
  (*7256*) AddTo n_rdm2_f_aaaa_oooo (Plain (Einsum [(n_delta'aa'oo,[0;1]); (T 12,[2;3])] [0;3;2;1]));
  (*7257*) AddTo n_rdm2_f_aaaa_oooo (Times (Einsum [(n_delta'aa'oo,[0;1]); (T 12,[2;3])] [3;0;2;1]) (-1) 1);
  (*7258*) Assign (T 13) (Plain (Zeros [4;4;4;5]));
  (*7259*) AddTo (T 13) (Plain (Einsum [(n_t2'abab,[0;1;2;3]); (n_l3'abaaba,[4;3;2;5;1;6])] [5;6;0;4]));
  (*7260*) AddTo n_rdm2_f_aaaa_ovoo (Times (Einsum [(T 13,[0;1;2;3])] [2;3;1;0]) (-2) 1);
  (*7261*) AddTo n_rdm2_f_aaaa_vooo (Times (Einsum [(T 13,[0;1;2;3])] [3;2;1;0]) (2) 1);
  (*7262*) Assign (T 14) (Plain (Zeros [4;4;4;5]));
  (*7263*) AddTo (T 14) (Plain (Einsum [(n_t2'aaaa,[0;1;2;3]); (n_l3'aaaaaa,[4;2;3;5;6;1])] [5;6;0;4]));
  (*7264*) AddTo n_rdm2_f_aaaa_ovoo (Times (Einsum [(T 14,[0;1;2;3])] [2;3;1;0]) (-6) 1);
  (*7265*) AddTo n_rdm2_f_aaaa_vooo (Times (Einsum [(T 14,[0;1;2;3])] [3;2;1;0]) (6) 1);
  (*7266*) Assign (T 15) (Plain (Zeros [4;4;4;5]));
  (*7267*) AddTo (T 15) (Plain (Einsum [(T 13,[0;1;2;3])] [0;1;2;3]));
  (*7268*) AddTo (T 15) (Times (Einsum [(T 14,[0;1;2;3])] [0;1;2;3]) (3) 1);
  (*7269*) Assign (T 16) (Plain (Zeros [4;4;4;4]));
  (*7270*) AddTo (T 16) (Times (Einsum [(n_t1'aa,[0;1]); (T 15,[2;3;4;1])] [0;2;3;4]) (2) 1);
  (*7271*) AddTo n_rdm2_f_aaaa_oooo (Times (Einsum [(T 16,[0;1;2;3])] [0;3;2;1]) (-1) 1);
  (*7272*) AddTo n_rdm2_f_aaaa_oooo (Plain (Einsum [(T 16,[0;1;2;3])] [3;0;2;1]));
  (*7273*) Del (T 16);
  (*7274*) Assign (T 17) (Plain (Zeros [6;6;4;4]));
  (*7275*) AddTo (T 17) (Plain (Einsum [(n_l3'abaaba,[0;1;2;3;4;5]); (n_t3'abaaba,[6;7;5;0;1;2])] [4;7;3;6]));
  (*7276*) Assign n_rdm2_f_abab_oooo (Plain (Zeros [4;6;4;6]));
  (*7277*) AddTo n_rdm2_f_abab_oooo (Times (Einsum [(T 17,[0;1;2;3])] [3;1;2;0]) (5000000000000101) 2500000000000000);
  (*7278*) Assign (T 18) (Plain (Zeros [6;6;4;4]));
  (*7279*) AddTo (T 18) (Plain (Einsum [(n_l3'babbab,[0;1;2;3;4;5]); (n_t3'babbab,[6;7;5;0;1;2])] [3;6;4;7]));
  (*7280*) AddTo n_rdm2_f_abab_oooo (Times (Einsum [(T 18,[0;1;2;3])] [3;1;2;0]) (5000000000000101) 2500000000000000);
  (*7281*) Assign (T 19) (Plain (Zeros [6;6;4;4]));
  (*7282*) AddTo (T 19) (Plain (Einsum [(n_l2'abab,[0;1;2;3]); (n_t2'abab,[4;5;0;1])] [3;5;2;4]));
  (*7283*) AddTo n_rdm2_f_abab_oooo (Plain (Einsum [(T 19,[0;1;2;3])] [3;1;2;0]));
  (*7284*) Assign (T 20) (Plain (Zeros [6;7;4;4]));
  (*7285*) AddTo (T 20) (Plain (Einsum [(n_t1'aa,[0;1]); (n_l2'abab,[1;2;3;4])] [4;2;3;0]));
  (*7286*) AddTo n_rdm2_f_abab_ovoo (Times (Einsum [(T 20,[0;1;2;3])] [3;1;2;0]) (-1) 1);
  (*7287*) Assign (T 21) (Plain (Zeros [6;7;4;4]));
  (*7288*) AddTo (T 21) (Plain (Einsum [(n_t2'abab,[0;1;2;3]); (n_l3'babbab,[4;2;3;5;6;1])] [5;4;6;0]));
  (*7289*) AddTo n_rdm2_f_abab_ovoo (Times (Einsum [(T 21,[0;1;2;3])] [3;1;2;0]) (-2) 1);
  (*7290*) Assign (T 22) (Plain (Zeros [6;7;4;4]));
  (*7291*) AddTo (T 22) (Plain (Einsum [(n_t2'aaaa,[0;1;2;3]); (n_l3'abaaba,[2;4;3;5;6;1])] [6;4;5;0]));
  (*7292*) AddTo n_rdm2_f_abab_ovoo (Times (Einsum [(T 22,[0;1;2;3])] [3;1;2;0]) (-2) 1);
  (*7293*) Assign (T 23) (Plain (Zeros [6;7;4;4]));
  (*7294*) AddTo (T 23) (Times (Einsum [(T 20,[0;1;2;3])] [0;1;2;3]) (1) 2);
  (*7295*) AddTo (T 23) (Plain (Einsum [(T 21,[0;1;2;3])] [0;1;2;3]));
  (*7296*) AddTo (T 23) (Plain (Einsum [(T 22,[0;1;2;3])] [0;1;2;3]));
  (*7297*) AddTo n_rdm2_f_abab_oooo (Times (Einsum [(n_t1'bb,[0;1]); (T 23,[2;1;3;4])] [4;0;3;2]) (2) 1);
  (*7298*) Assign n_rdm2_f_abab_ooov (Plain (Zeros [4;6;4;7]));
  (*7299*) AddTo n_rdm2_f_abab_ooov (Times (Einsum [(n_t2'bbbb,[0;1;2;3]); (T 23,[1;3;4;5])] [5;0;4;2]) (-4) 1);
  (*7300*) Assign n_rdm2_f_abab_oovo (Plain (Zeros [4;6;5;6]));
  (*7301*) AddTo n_rdm2_f_abab_oovo (Times (Einsum [(n_t2'abab,[0;1;2;3]); (T 23,[4;3;0;5])] [5;1;2;4]) (2) 1);
  (*7302*) AddTo n_rdm2_f_abab_ovvo (Times (Einsum [(n_t1'aa,[0;1]); (T 23,[2;3;0;4])] [4;3;1;2]) (-2) 1);
  (*7303*) AddTo n_rdm2_f_abab_ovvv (Times (Einsum [(n_t2'abab,[0;1;2;3]); (T 23,[1;4;0;5])] [5;4;2;3]) (-2) 1);
  (*7304*) Assign (T 24) (Plain (Zeros [6;6;4;5]));
  (*7305*) AddTo (T 24) (Plain (Einsum [(n_t2'bbbb,[0;1;2;3]); (n_l3'babbab,[2;4;3;5;6;1])] [5;0;6;4]));
  (*7306*) AddTo n_rdm2_f_abab_vooo (Times (Einsum [(T 24,[0;1;2;3])] [3;1;2;0]) (-2) 1);
  (*7307*) Assign (T 25) (Plain (Zeros [6;6;4;5]));
  (*7308*) AddTo (T 25) (Plain (Einsum [(n_t2'abab,[0;1;2;3]); (n_l3'abaaba,[4;3;2;5;6;0])] [6;1;5;4]));
  (*7309*) AddTo n_rdm2_f_abab_vooo (Times (Einsum [(T 25,[0;1;2;3])] [3;1;2;0]) (-2) 1);
  (*7310*) Assign (T 26) (Plain (Zeros [6;6;4;5]));
  (*7311*) AddTo (T 26) (Plain (Einsum [(T 24,[0;1;2;3])] [0;1;2;3]));
  (*7312*) AddTo (T 26) (Plain (Einsum [(T 25,[0;1;2;3])] [0;1;2;3]));
  (*7313*) Assign (T 27) (Plain (Zeros [6;6;4;4]));
  (*7314*) AddTo (T 27) (Times (Einsum [(n_t1'aa,[0;1]); (T 26,[2;3;4;1])] [2;3;0;4]) (2) 1);
  (*7315*) AddTo n_rdm2_f_abab_oooo (Plain (Einsum [(T 27,[0;1;2;3])] [2;1;3;0]));
  (*7316*) Assign (T 28) (Plain (Zeros [4;4]));
  (*7317*) AddTo (T 28) (Times (Einsum [(n_delta'aa'oo,[0;1])] [0;1]) (-1) 1);
  (*7318*) AddTo (T 28) (Plain (Einsum [(T 12,[0;1])] [0;1]));
  (*7319*) AddTo (T 28) (Plain (Einsum [(T 6,[0;1])] [0;1]));
  (*7320*) AddTo (T 28) (Times (Einsum [(T 7,[0;1])] [0;1]) (2) 1);
  (*7321*) AddTo (T 28) (Times (Einsum [(T 8,[0;1])] [0;1]) (9999999999999601) 10000000000000000);
  (*7322*) AddTo (T 28) (Times (Einsum [(T 9,[0;1])] [0;1]) (9999999999999597) 5000000000000000);
  (*7323*) AddTo (T 28) (Times (Einsum [(T 10,[0;1])] [0;1]) (7499999999999697) 2500000000000000);
  (*7324*) AddTo n_rdm2_f_abab_oooo (Times (Einsum [(n_delta'bb'oo,[0;1]); (T 28,[2;3])] [3;0;2;1]) (-1) 1);
  (*7325*) Del (T 28);
  (*7326*) Assign (T 29) (Plain (Zeros [6;6]));
  (*7327*) AddTo (T 29) (Plain (Einsum [(n_l1'bb,[0;1]); (n_t1'bb,[2;0])] [1;2]));
  (*7328*) AddTo n_rdm2_f_bbbb_oooo (Times (Einsum [(n_delta'bb'oo,[0;1]); (T 29,[2;3])] [0;3;1;2]) (-1) 1);
  (*7329*) AddTo n_rdm2_f_bbbb_oooo (Plain (Einsum [(n_delta'bb'oo,[0;1]); (T 29,[2;3])] [3;0;1;2]));
  (*7330*) AddTo n_rdm2_f_bbbb_oooo (Plain (Einsum [(n_delta'bb'oo,[0;1]); (T 29,[2;3])] [0;3;2;1]));
  (*7331*) AddTo n_rdm2_f_bbbb_oooo (Times (Einsum [(n_delta'bb'oo,[0;1]); (T 29,[2;3])] [3;0;2;1]) (-1) 1);
  (*7332*) Assign (T 30) (Plain (Zeros [6;6]));
  (*7333*) AddTo (T 30) (Plain (Einsum [(n_l2'bbbb,[0;1;2;3]); (n_t2'bbbb,[4;3;0;1])] [2;4]));
  (*7334*) Assign (T 31) (Plain (Zeros [6;6]));
  (*7335*) AddTo (T 31) (Plain (Einsum [(n_l2'abab,[0;1;2;3]); (n_t2'abab,[2;4;0;1])] [3;4]));
  (*7336*) Assign (T 32) (Plain (Zeros [6;6]));
  (*7337*) AddTo (T 32) (Plain (Einsum [(n_l3'bbbbbb,[0;1;2;3;4;5]); (n_t3'bbbbbb,[6;4;5;0;1;2])] [3;6]));
  (*7338*) Assign (T 33) (Plain (Zeros [6;6]));
  (*7339*) AddTo (T 33) (Plain (Einsum [(n_l3'babbab,[0;1;2;3;4;5]); (n_t3'babbab,[6;4;5;0;1;2])] [3;6]));
  (*7340*) Assign (T 34) (Plain (Zeros [6;6]));
  (*7341*) AddTo (T 34) (Plain (Einsum [(n_l3'abaaba,[0;1;2;3;4;5]); (n_t3'abaaba,[3;6;5;0;1;2])] [4;6]));
  (*7342*) Assign (T 35) (Plain (Zeros [6;6]));
  (*7343*) AddTo (T 35) (Times (Einsum [(T 29,[0;1])] [0;1]) (1) 2);
  (*7344*) AddTo (T 35) (Plain (Einsum [(T 30,[0;1])] [0;1]));
  (*7345*) AddTo (T 35) (Times (Einsum [(T 31,[0;1])] [0;1]) (1) 2);
  (*7346*) AddTo (T 35) (Times (Einsum [(T 32,[0;1])] [0;1]) (7499999999999697) 5000000000000000);
  (*7347*) AddTo (T 35) (Times (Einsum [(T 33,[0;1])] [0;1]) (9999999999999597) 10000000000000000);
  (*7348*) AddTo (T 35) (Times (Einsum [(T 34,[0;1])] [0;1]) (49999999999998007) 100000000000000000);
  (*7349*) AddTo n_rdm2_f_abab_oooo (Times (Einsum [(n_delta'aa'oo,[0;1]); (T 35,[2;3])] [0;3;1;2]) (-2) 1);
  (*7350*) AddTo n_rdm2_f_abab_oovo (Times (Einsum [(n_t1'aa,[0;1]); (T 35,[2;3])] [0;3;1;2]) (-2) 1);
  (*7351*) Del (T 35);
  (*7352*) Assign (T 36) (Plain (Zeros [6;6;6;6]));
  (*7353*) AddTo (T 36) (Plain (Einsum [(n_l3'bbbbbb,[0;1;2;3;4;5]); (n_t3'bbbbbb,[6;7;5;0;1;2])] [3;4;6;7]));
  (*7354*) AddTo n_rdm2_f_bbbb_oooo (Times (Einsum [(T 36,[0;1;2;3])] [2;3;1;0]) (-1500000000000029) 250000000000000);
  (*7355*) Assign (T 37) (Plain (Zeros [6;6;6;6]));
  (*7356*) AddTo (T 37) (Plain (Einsum [(n_l3'babbab,[0;1;2;3;4;5]); (n_t3'babbab,[6;4;7;0;1;2])] [3;5;6;7]));
  (*7357*) AddTo n_rdm2_f_bbbb_oooo (Times (Einsum [(T 37,[0;1;2;3])] [2;3;1;0]) (-5000000000000101) 2500000000000000);
  (*7358*) Assign (T 38) (Plain (Zeros [6;6;6;6]));
  (*7359*) AddTo (T 38) (Plain (Einsum [(n_l2'bbbb,[0;1;2;3]); (n_t2'bbbb,[4;5;0;1])] [2;3;4;5]));
  (*7360*) AddTo n_rdm2_f_bbbb_oooo (Times (Einsum [(T 38,[0;1;2;3])] [3;2;1;0]) (2) 1);
  (*7361*) Assign (T 39) (Plain (Zeros [6;6;6;7]));
  (*7362*) AddTo (T 39) (Plain (Einsum [(n_t1'bb,[0;1]); (n_l2'bbbb,[2;1;3;4])] [3;4;0;2]));
  (*7363*) AddTo n_rdm2_f_bbbb_ovoo (Times (Einsum [(T 39,[0;1;2;3])] [2;3;1;0]) (-2) 1);
  (*7364*) AddTo n_rdm2_f_bbbb_vooo (Times (Einsum [(T 39,[0;1;2;3])] [3;2;1;0]) (2) 1);
  (*7365*) Assign (T 40) (Plain (Zeros [6;6;6;6]));
  (*7366*) AddTo (T 40) (Plain (Einsum [(n_t1'bb,[0;1]); (T 39,[2;3;4;1])] [2;3;0;4]));
  (*7367*) AddTo n_rdm2_f_bbbb_oooo (Times (Einsum [(T 40,[0;1;2;3])] [2;3;1;0]) (-2) 1);
  (*7368*) Assign (T 41) (Plain (Zeros [6;6;6;7]));
  (*7369*) AddTo (T 41) (Plain (Einsum [(n_t2'bbbb,[0;1;2;3]); (n_l3'bbbbbb,[4;2;3;5;6;1])] [5;6;0;4]));
  (*7370*) AddTo n_rdm2_f_bbbb_ovoo (Times (Einsum [(T 41,[0;1;2;3])] [2;3;1;0]) (-6) 1);
  (*7371*) AddTo n_rdm2_f_bbbb_vooo (Times (Einsum [(T 41,[0;1;2;3])] [3;2;1;0]) (6) 1);
  (*7372*) Assign (T 42) (Plain (Zeros [6;6;6;7]));
  (*7373*) AddTo (T 42) (Plain (Einsum [(n_t2'abab,[0;1;2;3]); (n_l3'babbab,[4;2;3;5;0;6])] [5;6;1;4]));
  (*7374*) AddTo n_rdm2_f_bbbb_ovoo (Times (Einsum [(T 42,[0;1;2;3])] [2;3;1;0]) (-2) 1);
  (*7375*) AddTo n_rdm2_f_bbbb_vooo (Times (Einsum [(T 42,[0;1;2;3])] [3;2;1;0]) (2) 1);
  (*7376*) Assign (T 43) (Plain (Zeros [6;6;6;7]));
  (*7377*) AddTo (T 43) (Plain (Einsum [(T 41,[0;1;2;3])] [0;1;2;3]));
  (*7378*) AddTo (T 43) (Times (Einsum [(T 42,[0;1;2;3])] [0;1;2;3]) (3333333333333333) 10000000000000000);
  (*7379*) Assign (T 44) (Plain (Zeros [6;6;6;6]));
  (*7380*) AddTo (T 44) (Times (Einsum [(n_t1'bb,[0;1]); (T 43,[2;3;4;1])] [0;2;3;4]) (6) 1);
  (*7381*) AddTo n_rdm2_f_bbbb_oooo (Times (Einsum [(T 44,[0;1;2;3])] [0;3;2;1]) (-1) 1);
  (*7382*) AddTo n_rdm2_f_bbbb_oooo (Plain (Einsum [(T 44,[0;1;2;3])] [3;0;2;1]));
  (*7383*) Del (T 44);
  (*7384*) Assign (T 45) (Plain (Zeros [6;6]));
  (*7385*) AddTo (T 45) (Plain (Einsum [(T 30,[0;1])] [0;1]));
  (*7386*) AddTo (T 45) (Times (Einsum [(T 31,[0;1])] [0;1]) (1) 2);
  (*7387*) AddTo (T 45) (Times (Einsum [(T 32,[0;1])] [0;1]) (7499999999999697) 5000000000000000);
  (*7388*) AddTo (T 45) (Times (Einsum [(T 33,[0;1])] [0;1]) (9999999999999597) 10000000000000000);
  (*7389*) AddTo (T 45) (Times (Einsum [(T 34,[0;1])] [0;1]) (49999999999998007) 100000000000000000);
  (*7390*) AddTo n_rdm2_f_bbbb_oooo (Times (Einsum [(n_delta'bb'oo,[0;1]); (T 45,[2;3])] [0;3;1;2]) (-2) 1);
  (*7391*) AddTo n_rdm2_f_bbbb_oooo (Times (Einsum [(n_delta'bb'oo,[0;1]); (T 45,[2;3])] [0;3;2;1]) (2) 1);
  (*7392*) AddTo n_rdm2_f_bbbb_oooo (Times (Einsum [(n_delta'bb'oo,[0;1]); (T 45,[2;3])] [3;0;1;2]) (2) 1);
  (*7393*) AddTo n_rdm2_f_bbbb_oooo (Times (Einsum [(n_delta'bb'oo,[0;1]); (T 45,[2;3])] [3;0;2;1]) (-2) 1);
  (*7394*) Del (T 45);
  (*7395*) Assign (T 46) (Plain (Zeros [4;4;4;4;5;5]));
  (*7396*) AddTo (T 46) (Plain (Einsum [(n_t1'aa,[0;1]); (n_l3'aaaaaa,[2;3;1;4;5;6])] [4;5;6;0;2;3]));
  (*7397*) Assign (T 47) (Plain (Zeros [4;4;4;4;4;5]));
  (*7398*) AddTo (T 47) (Plain (Einsum [(n_t1'aa,[0;1]); (T 46,[2;3;4;5;1;6])] [3;4;2;5;0;6]));
  (*7399*) Assign (T 48) (Plain (Zeros [4;4;4;5]));
  (*7400*) AddTo (T 48) (Plain (Einsum [(n_t2'aaaa,[0;1;2;3]); (T 47,[1;0;4;5;6;3])] [4;6;5;2]));
  (*7401*) Assign n_rdm2_f_aaaa_ooov (Plain (Zeros [4;4;4;5]));
  (*7402*) AddTo n_rdm2_f_aaaa_ooov (Times (Einsum [(T 48,[0;1;2;3])] [1;2;0;3]) (6) 1);
  (*7403*) Assign n_rdm2_f_aaaa_oovo (Plain (Zeros [4;4;5;4]));
  (*7404*) AddTo n_rdm2_f_aaaa_oovo (Times (Einsum [(T 48,[0;1;2;3])] [1;2;3;0]) (-6) 1);
  (*7405*) Assign (T 49) (Plain (Zeros [4;4;4;5]));
  (*7406*) AddTo (T 49) (Plain (Einsum [(n_l2'aaaa,[0;1;2;3]); (n_t3'aaaaaa,[4;5;3;6;0;1])] [2;4;5;6]));
  (*7407*) AddTo n_rdm2_f_aaaa_ooov (Times (Einsum [(T 49,[0;1;2;3])] [1;2;0;3]) (6) 1);
  (*7408*) AddTo n_rdm2_f_aaaa_oovo (Times (Einsum [(T 49,[0;1;2;3])] [1;2;3;0]) (-6) 1);
  (*7409*) Assign (T 50) (Plain (Zeros [4;4;4;5]));
  (*7410*) AddTo (T 50) (Plain (Einsum [(n_l2'abab,[0;1;2;3]); (n_t3'abaaba,[4;3;5;6;1;0])] [2;4;5;6]));
  (*7411*) AddTo n_rdm2_f_aaaa_ooov (Times (Einsum [(T 50,[0;1;2;3])] [1;2;0;3]) (2) 1);
  (*7412*) AddTo n_rdm2_f_aaaa_oovo (Times (Einsum [(T 50,[0;1;2;3])] [1;2;3;0]) (-2) 1);
  (*7413*) Assign (T 51) (Plain (Zeros [4;4;4;5]));
  (*7414*) AddTo (T 51) (Plain (Einsum [(n_l1'aa,[0;1]); (n_t2'aaaa,[2;3;4;0])] [1;2;3;4]));
  (*7415*) AddTo n_rdm2_f_aaaa_ooov (Times (Einsum [(T 51,[0;1;2;3])] [2;1;0;3]) (-2) 1);
  (*7416*) AddTo n_rdm2_f_aaaa_oovo (Times (Einsum [(T 51,[0;1;2;3])] [2;1;3;0]) (2) 1);
  (*7417*) Assign (T 52) (Plain (Zeros [6;7;4;4;4;5]));
  (*7418*) AddTo (T 52) (Plain (Einsum [(n_t1'aa,[0;1]); (n_l3'abaaba,[2;3;1;4;5;6])] [5;3;4;6;0;2]));
  (*7419*) AddTo n_rdm2_f_abab_ovvv (Times (Einsum [(n_t3'abaaba,[0;1;2;3;4;5]); (T 52,[1;6;0;2;7;5])] [7;6;3;4]) (5000000000000101) 2500000000000000);
  (*7420*) Assign (T 53) (Plain (Zeros [6;7;4;4;4;4]));
  (*7421*) AddTo (T 53) (Times (Einsum [(n_t1'aa,[0;1]); (T 52,[2;3;4;5;6;1])] [2;3;4;5;6;0]) (-1) 1);
  (*7422*) Assign (T 54) (Plain (Zeros [4;4;4;5]));
  (*7423*) AddTo (T 54) (Times (Einsum [(n_t2'abab,[0;1;2;3]); (T 53,[1;3;4;0;5;6])] [4;6;5;2]) (-1) 1);
  (*7424*) AddTo n_rdm2_f_aaaa_ooov (Times (Einsum [(T 54,[0;1;2;3])] [1;2;0;3]) (2) 1);
  (*7425*) AddTo n_rdm2_f_aaaa_oovo (Times (Einsum [(T 54,[0;1;2;3])] [1;2;3;0]) (-2) 1);
  (*7426*) Assign (T 55) (Plain (Zeros [4;5]));
  (*7427*) AddTo (T 55) (Plain (Einsum [(n_l1'bb,[0;1]); (n_t2'abab,[2;1;3;0])] [2;3]));
  (*7428*) Assign (T 56) (Plain (Zeros [4;5]));
  (*7429*) AddTo (T 56) (Plain (Einsum [(n_l1'aa,[0;1]); (n_t2'aaaa,[2;1;3;0])] [2;3]));
  (*7430*) Assign (T 57) (Plain (Zeros [4;5]));
  (*7431*) AddTo (T 57) (Plain (Einsum [(n_l2'bbbb,[0;1;2;3]); (n_t3'babbab,[2;4;3;0;5;1])] [4;5]));
  (*7432*) Assign (T 58) (Plain (Zeros [4;5]));
  (*7433*) AddTo (T 58) (Plain (Einsum [(n_l2'abab,[0;1;2;3]); (n_t3'abaaba,[4;3;2;5;1;0])] [4;5]));
  (*7434*) Assign (T 59) (Plain (Zeros [4;5]));
  (*7435*) AddTo (T 59) (Plain (Einsum [(n_l2'aaaa,[0;1;2;3]); (n_t3'aaaaaa,[4;2;3;5;0;1])] [4;5]));
  (*7436*) Assign (T 60) (Plain (Zeros [6;6;7;7;4;4]));
  (*7437*) AddTo (T 60) (Plain (Einsum [(n_t1'aa,[0;1]); (n_l3'babbab,[2;1;3;4;5;6])] [4;6;2;3;5;0]));
  (*7438*) AddTo n_rdm2_f_abab_ovvv (Times (Einsum [(n_t3'babbab,[0;1;2;3;4;5]); (T 60,[2;0;6;5;1;7])] [7;6;4;3]) (5000000000000101) 2500000000000000);
  (*7439*) Assign (T 61) (Plain (Zeros [4;5]));
  (*7440*) AddTo (T 61) (Plain (Einsum [(n_t3'babbab,[0;1;2;3;4;5]); (T 60,[0;2;3;5;1;6])] [6;4]));
  (*7441*) Assign (T 62) (Plain (Zeros [4;5]));
  (*7442*) AddTo (T 62) (Times (Einsum [(n_t3'abaaba,[0;1;2;3;4;5]); (T 52,[1;4;0;2;6;5])] [6;3]) (-1) 1);
  (*7443*) Assign (T 63) (Plain (Zeros [4;5]));
  (*7444*) AddTo (T 63) (Plain (Einsum [(n_t3'aaaaaa,[0;1;2;3;4;5]); (T 46,[0;1;2;6;4;5])] [6;3]));
  (*7445*) Assign (T 64) (Plain (Zeros [4;5]));
  (*7446*) AddTo (T 64) (Times (Einsum [(n_t2'abab,[0;1;2;3]); (T 23,[1;3;0;4])] [4;2]) (2) 1);
  (*7447*) Assign (T 65) (Plain (Zeros [4;4;4;5]));
  (*7448*) AddTo (T 65) (Times (Einsum [(T 2,[0;1;2;3])] [1;0;2;3]) (-3333333333333333) 10000000000000000);
  (*7449*) AddTo (T 65) (Times (Einsum [(T 13,[0;1;2;3])] [0;1;2;3]) (3333333333333333) 10000000000000000);
  (*7450*) AddTo (T 65) (Plain (Einsum [(T 14,[0;1;2;3])] [0;1;2;3]));
  (*7451*) Assign (T 66) (Plain (Zeros [4;5]));
  (*7452*) AddTo (T 66) (Times (Einsum [(n_t2'aaaa,[0;1;2;3]); (T 65,[0;1;4;3])] [4;2]) (-6) 1);
  (*7453*) Assign (T 67) (Plain (Zeros [4;4]));
  (*7454*) AddTo (T 67) (Plain (Einsum [(T 12,[0;1])] [0;1]));
  (*7455*) AddTo (T 67) (Plain (Einsum [(T 6,[0;1])] [0;1]));
  (*7456*) AddTo (T 67) (Times (Einsum [(T 7,[0;1])] [0;1]) (2) 1);
  (*7457*) AddTo (T 67) (Times (Einsum [(T 8,[0;1])] [0;1]) (9999999999999601) 10000000000000000);
  (*7458*) AddTo (T 67) (Times (Einsum [(T 9,[0;1])] [0;1]) (9999999999999597) 5000000000000000);
  (*7459*) AddTo (T 67) (Times (Einsum [(T 10,[0;1])] [0;1]) (7499999999999697) 2500000000000000);
  (*7460*) AddTo n_rdm2_f_abab_ooov (Times (Einsum [(n_t1'bb,[0;1]); (T 67,[2;3])] [3;0;2;1]) (-1) 1);
  (*7461*) Assign (T 68) (Plain (Zeros [4;5]));
  (*7462*) AddTo (T 68) (Plain (Einsum [(n_t1'aa,[0;1]); (T 67,[0;2])] [2;1]));
  (*7463*) Assign (T 69) (Plain (Zeros [4;5]));
  (*7464*) AddTo (T 69) (Times (Einsum [(T 55,[0;1])] [0;1]) (-1) 1);
  (*7465*) AddTo (T 69) (Times (Einsum [(T 56,[0;1])] [0;1]) (-2) 1);
  (*7466*) AddTo (T 69) (Times (Einsum [(T 57,[0;1])] [0;1]) (-1) 1);
  (*7467*) AddTo (T 69) (Times (Einsum [(T 58,[0;1])] [0;1]) (-2) 1);
  (*7468*) AddTo (T 69) (Times (Einsum [(T 59,[0;1])] [0;1]) (-3) 1);
  (*7469*) AddTo (T 69) (Times (Einsum [(T 61,[0;1])] [0;1]) (9999999999999601) 10000000000000000);
  (*7470*) AddTo (T 69) (Times (Einsum [(T 62,[0;1])] [0;1]) (9999999999999597) 5000000000000000);
  (*7471*) AddTo (T 69) (Times (Einsum [(T 63,[0;1])] [0;1]) (7499999999999697) 2500000000000000);
  (*7472*) AddTo (T 69) (Plain (Einsum [(T 64,[0;1])] [0;1]));
  (*7473*) AddTo (T 69) (Plain (Einsum [(T 66,[0;1])] [0;1]));
  (*7474*) AddTo (T 69) (Plain (Einsum [(T 68,[0;1])] [0;1]));
  (*7475*) AddTo n_rdm2_f_aaaa_ooov (Times (Einsum [(n_delta'aa'oo,[0;1]); (T 69,[2;3])] [0;2;1;3]) (-1) 1);
  (*7476*) AddTo n_rdm2_f_aaaa_ooov (Plain (Einsum [(n_delta'aa'oo,[0;1]); (T 69,[2;3])] [2;0;1;3]));
  (*7477*) AddTo n_rdm2_f_aaaa_oovo (Plain (Einsum [(n_delta'aa'oo,[0;1]); (T 69,[2;3])] [0;2;3;1]));
  (*7478*) AddTo n_rdm2_f_aaaa_oovo (Times (Einsum [(n_delta'aa'oo,[0;1]); (T 69,[2;3])] [2;0;3;1]) (-1) 1);
  (*7479*) Assign (T 70) (Plain (Zeros [4;4;4;5]));
  (*7480*) AddTo (T 70) (Plain (Einsum [(n_t2'abab,[0;1;2;3]); (T 21,[1;3;4;5])] [4;0;5;2]));
  (*7481*) Assign (T 71) (Plain (Zeros [4;4;4;5]));
  (*7482*) AddTo (T 71) (Times (Einsum [(n_t3'babbab,[0;1;2;3;4;5]); (T 60,[2;0;3;5;6;7])] [6;7;1;4]) (-1) 1);
  (*7483*) Assign (T 72) (Plain (Zeros [4;4;4;5]));
  (*7484*) AddTo (T 72) (Times (Einsum [(n_t3'abaaba,[0;1;2;3;4;5]); (T 52,[1;4;6;2;7;5])] [6;7;0;3]) (-1) 1);
  (*7485*) Assign (T 73) (Plain (Zeros [4;4;4;5]));
  (*7486*) AddTo (T 73) (Times (Einsum [(n_t3'aaaaaa,[0;1;2;3;4;5]); (T 46,[1;2;6;7;5;4])] [6;7;0;3]) (-1) 1);
  (*7487*) Assign (T 74) (Plain (Zeros [4;4;4;5]));
  (*7488*) AddTo (T 74) (Times (Einsum [(n_t2'aaaa,[0;1;2;3]); (T 65,[1;4;5;3])] [0;4;5;2]) (12) 1);
  (*7489*) Assign (T 75) (Plain (Zeros [6;7;4;4]));
  (*7490*) AddTo (T 75) (Plain (Einsum [(T 20,[0;1;2;3])] [0;1;2;3]));
  (*7491*) AddTo (T 75) (Times (Einsum [(T 22,[0;1;2;3])] [0;1;2;3]) (2) 1);
  (*7492*) Assign (T 76) (Plain (Zeros [4;4;4;5]));
  (*7493*) AddTo (T 76) (Plain (Einsum [(n_t2'abab,[0;1;2;3]); (T 75,[1;3;4;5])] [0;4;5;2]));
  (*7494*) Assign (T 77) (Plain (Zeros [4;4;4;4]));
  (*7495*) AddTo (T 77) (Plain (Einsum [(n_t1'aa,[0;1]); (T 15,[2;3;4;1])] [0;2;3;4]));
  (*7496*) Assign (T 78) (Plain (Zeros [4;4;4;5]));
  (*7497*) AddTo (T 78) (Times (Einsum [(n_t1'aa,[0;1]); (T 77,[2;0;3;4])] [3;2;4;1]) (2) 1);
  (*7498*) Del (T 77);
  (*7499*) Assign (T 79) (Plain (Zeros [4;4;4;5]));
  (*7500*) AddTo (T 79) (Plain (Einsum [(n_delta'aa'oo,[0;1]); (n_t1'aa,[2;3])] [0;1;2;3]));
  (*7501*) AddTo (T 79) (Times (Einsum [(T 70,[0;1;2;3])] [1;0;2;3]) (2) 1);
  (*7502*) AddTo (T 79) (Times (Einsum [(T 71,[0;1;2;3])] [1;0;2;3]) (-1) 1);
  (*7503*) AddTo (T 79) (Times (Einsum [(T 72,[0;1;2;3])] [1;0;2;3]) (-4) 1);
  (*7504*) AddTo (T 79) (Times (Einsum [(T 73,[0;1;2;3])] [1;0;2;3]) (-9) 1);
  (*7505*) AddTo (T 79) (Times (Einsum [(T 74,[0;1;2;3])] [2;1;0;3]) (-1) 1);
  (*7506*) Del (T 74);
  (*7507*) AddTo (T 79) (Times (Einsum [(T 76,[0;1;2;3])] [2;1;0;3]) (-1) 1);
  (*7508*) Del (T 76);
  (*7509*) AddTo (T 79) (Times (Einsum [(T 78,[0;1;2;3])] [1;0;2;3]) (-1) 1);
  (*7510*) Del (T 78);
  (*7511*) AddTo (T 79) (Plain (Einsum [(n_t1'aa,[0;1]); (T 67,[2;3])] [0;2;3;1]));
  (*7512*) Del (T 67);
  (*7513*) AddTo n_rdm2_f_aaaa_ooov (Plain (Einsum [(T 79,[0;1;2;3])] [0;2;1;3]));
  (*7514*) AddTo n_rdm2_f_aaaa_ooov (Times (Einsum [(T 79,[0;1;2;3])] [2;0;1;3]) (-1) 1);
  (*7515*) AddTo n_rdm2_f_aaaa_oovo (Times (Einsum [(T 79,[0;1;2;3])] [0;2;3;1]) (-1) 1);
  (*7516*) AddTo n_rdm2_f_aaaa_oovo (Plain (Einsum [(T 79,[0;1;2;3])] [2;0;3;1]));
  (*7517*) Del (T 79);
  (*7518*) Assign (T 80) (Plain (Zeros [4;5;5;5]));
  (*7519*) AddTo (T 80) (Plain (Einsum [(n_t2'abab,[0;1;2;3]); (n_l3'abaaba,[4;3;5;6;1;0])] [6;4;5;2]));
  (*7520*) Assign n_rdm2_f_aaaa_vvov (Plain (Zeros [5;5;4;5]));
  (*7521*) AddTo n_rdm2_f_aaaa_vvov (Times (Einsum [(T 80,[0;1;2;3])] [1;2;0;3]) (2) 1);
  (*7522*) Assign n_rdm2_f_aaaa_vvvo (Plain (Zeros [5;5;5;4]));
  (*7523*) AddTo n_rdm2_f_aaaa_vvvo (Times (Einsum [(T 80,[0;1;2;3])] [1;2;3;0]) (-2) 1);
  (*7524*) Assign (T 81) (Plain (Zeros [4;5;5;5]));
  (*7525*) AddTo (T 81) (Plain (Einsum [(n_t2'aaaa,[0;1;2;3]); (n_l3'aaaaaa,[4;5;3;6;0;1])] [6;4;5;2]));
  (*7526*) AddTo n_rdm2_f_aaaa_vvov (Times (Einsum [(T 81,[0;1;2;3])] [1;2;0;3]) (6) 1);
  (*7527*) AddTo n_rdm2_f_aaaa_vvvo (Times (Einsum [(T 81,[0;1;2;3])] [1;2;3;0]) (-6) 1);
  (*7528*) Assign (T 82) (Plain (Zeros [4;5;5;5]));
  (*7529*) AddTo (T 82) (Times (Einsum [(T 80,[0;1;2;3])] [0;2;1;3]) (-3333333333333333) 10000000000000000);
  (*7530*) AddTo (T 82) (Times (Einsum [(T 81,[0;1;2;3])] [0;2;1;3]) (-1) 1);
  (*7531*) AddTo n_rdm2_f_abab_oovv (Times (Einsum [(T 82,[0;1;2;3]); (n_t3'abaaba,[4;5;0;1;6;2])] [4;5;3;6]) (6) 1);
  (*7532*) Assign (T 83) (Plain (Zeros [4;4;4;5]));
  (*7533*) AddTo (T 83) (Times (Einsum [(n_t2'aaaa,[0;1;2;3]); (T 82,[4;2;3;5])] [0;1;4;5]) (6) 1);
  (*7534*) Del (T 82);
  (*7535*) AddTo n_rdm2_f_aaaa_ooov (Times (Einsum [(T 83,[0;1;2;3])] [1;0;2;3]) (-1) 1);
  (*7536*) AddTo n_rdm2_f_aaaa_oovo (Plain (Einsum [(T 83,[0;1;2;3])] [1;0;3;2]));
  (*7537*) Del (T 83);
  (*7538*) Assign (T 84) (Plain (Zeros [4;4;4;4]));
  (*7539*) AddTo (T 84) (Times (Einsum [(T 1,[0;1;2;3])] [1;0;3;2]) (-3333333333333269) 10000000000000000);
  (*7540*) AddTo (T 84) (Times (Einsum [(T 3,[0;1;2;3])] [0;1;3;2]) (3333333333333269) 10000000000000000);
  (*7541*) AddTo (T 84) (Times (Einsum [(T 4,[0;1;2;3])] [0;1;3;2]) (416666666666667) 1250000000000000);
  (*7542*) AddTo (T 84) (Plain (Einsum [(T 5,[0;1;2;3])] [0;1;3;2]));
  (*7543*) Assign (T 85) (Plain (Zeros [4;4;4;5]));
  (*7544*) AddTo (T 85) (Times (Einsum [(n_t1'aa,[0;1]); (T 84,[0;2;3;4])] [2;3;4;1]) (1500000000000029) 250000000000000);
  (*7545*) Del (T 84);
  (*7546*) AddTo n_rdm2_f_aaaa_ooov (Times (Einsum [(T 85,[0;1;2;3])] [2;1;0;3]) (-1) 1);
  (*7547*) AddTo n_rdm2_f_aaaa_oovo (Plain (Einsum [(T 85,[0;1;2;3])] [2;1;3;0]));
  (*7548*) Del (T 85);
  (*7549*) Assign (T 86) (Plain (Zeros [6;6;4;4;5;5]));
  (*7550*) AddTo (T 86) (Plain (Einsum [(n_t1'bb,[0;1]); (n_l3'abaaba,[2;1;3;4;5;6])] [5;0;4;6;2;3]));
  (*7551*) AddTo n_rdm2_f_abab_vovv (Times (Einsum [(n_t3'abaaba,[0;1;2;3;4;5]); (T 86,[1;6;0;2;7;5])] [7;6;3;4]) (-5000000000000101) 2500000000000000);
  (*7552*) Assign (T 87) (Plain (Zeros [6;7;4;4]));
  (*7553*) AddTo (T 87) (Times (Einsum [(n_t3'abaaba,[0;1;2;3;4;5]); (T 86,[1;6;7;2;5;3])] [6;4;7;0]) (-1) 1);
  (*7554*) AddTo n_rdm2_f_abab_ooov (Times (Einsum [(T 87,[0;1;2;3])] [3;0;2;1]) (2) 1);
  (*7555*) Assign (T 88) (Plain (Zeros [6;7;4;4]));
  (*7556*) AddTo (T 88) (Times (Einsum [(n_t3'babbab,[0;1;2;3;4;5]); (T 52,[2;5;6;1;7;4])] [0;3;6;7]) (-1) 1);
  (*7557*) AddTo n_rdm2_f_abab_ooov (Times (Einsum [(T 88,[0;1;2;3])] [3;0;2;1]) (-4) 1);
  (*7558*) Assign (T 89) (Plain (Zeros [6;6;4;4;4;5]));
  (*7559*) AddTo (T 89) (Plain (Einsum [(n_t1'bb,[0;1]); (T 52,[2;1;3;4;5;6])] [2;0;3;4;5;6]));
  (*7560*) Assign (T 90) (Plain (Zeros [6;7;4;4]));
  (*7561*) AddTo (T 90) (Times (Einsum [(n_t2'abab,[0;1;2;3]); (T 89,[1;4;5;0;6;2])] [4;3;5;6]) (-1) 1);
  (*7562*) AddTo n_rdm2_f_abab_ooov (Times (Einsum [(T 90,[0;1;2;3])] [3;0;2;1]) (2) 1);
  (*7563*) Assign (T 91) (Plain (Zeros [6;6;6;7;4;5]));
  (*7564*) AddTo (T 91) (Plain (Einsum [(n_t1'bb,[0;1]); (n_l3'babbab,[2;3;1;4;5;6])] [4;6;0;2;5;3]));
  (*7565*) AddTo n_rdm2_f_abab_vovv (Times (Einsum [(n_t3'babbab,[0;1;2;3;4;5]); (T 91,[2;0;6;5;1;7])] [7;6;4;3]) (-5000000000000101) 2500000000000000);
  (*7566*) Assign (T 92) (Plain (Zeros [6;7;4;4]));
  (*7567*) AddTo (T 92) (Plain (Einsum [(n_t3'babbab,[0;1;2;3;4;5]); (T 91,[2;0;6;5;7;4])] [6;3;7;1]));
  (*7568*) AddTo n_rdm2_f_abab_ooov (Times (Einsum [(T 92,[0;1;2;3])] [3;0;2;1]) (2) 1);
  (*7569*) Assign (T 93) (Plain (Zeros [6;7;4;4]));
  (*7570*) AddTo (T 93) (Plain (Einsum [(n_t3'bbbbbb,[0;1;2;3;4;5]); (T 60,[1;2;4;5;6;7])] [0;3;6;7]));
  (*7571*) AddTo n_rdm2_f_abab_ooov (Times (Einsum [(T 93,[0;1;2;3])] [3;0;2;1]) (-3) 1);
  (*7572*) Assign (T 94) (Plain (Zeros [6;6;6;7;4;4]));
  (*7573*) AddTo (T 94) (Plain (Einsum [(n_t1'bb,[0;1]); (T 60,[2;3;1;4;5;6])] [3;2;0;4;5;6]));
  (*7574*) Assign (T 95) (Plain (Zeros [6;7;4;4]));
  (*7575*) AddTo (T 95) (Plain (Einsum [(n_t2'bbbb,[0;1;2;3]); (T 94,[1;0;4;3;5;6])] [4;2;5;6]));
  (*7576*) AddTo n_rdm2_f_abab_ooov (Times (Einsum [(T 95,[0;1;2;3])] [3;0;2;1]) (2) 1);
  (*7577*) Assign (T 96) (Plain (Zeros [6;7;4;4]));
  (*7578*) AddTo (T 96) (Plain (Einsum [(n_t3'abaaba,[0;1;2;3;4;5]); (T 46,[6;2;0;7;5;3])] [1;4;6;7]));
  (*7579*) AddTo n_rdm2_f_abab_ooov (Times (Einsum [(T 96,[0;1;2;3])] [3;0;2;1]) (-3) 1);
  (*7580*) Assign (T 97) (Plain (Zeros [6;7;4;4]));
  (*7581*) AddTo (T 97) (Plain (Einsum [(n_l1'aa,[0;1]); (n_t2'abab,[2;3;0;4])] [3;4;1;2]));
  (*7582*) AddTo n_rdm2_f_abab_ooov (Times (Einsum [(T 97,[0;1;2;3])] [3;0;2;1]) (-1) 1);
  (*7583*) Assign (T 98) (Plain (Zeros [6;7;4;4]));
  (*7584*) AddTo (T 98) (Plain (Einsum [(n_l2'aaaa,[0;1;2;3]); (n_t3'abaaba,[4;5;3;0;6;1])] [5;6;2;4]));
  (*7585*) AddTo n_rdm2_f_abab_ooov (Times (Einsum [(T 98,[0;1;2;3])] [3;0;2;1]) (-2) 1);
  (*7586*) Assign (T 99) (Plain (Zeros [6;7;4;4]));
  (*7587*) AddTo (T 99) (Plain (Einsum [(n_l2'abab,[0;1;2;3]); (n_t3'babbab,[4;5;3;6;0;1])] [4;6;2;5]));
  (*7588*) AddTo n_rdm2_f_abab_ooov (Times (Einsum [(T 99,[0;1;2;3])] [3;0;2;1]) (-2) 1);
  (*7589*) Assign (T 100) (Plain (Zeros [7;7;4;5]));
  (*7590*) AddTo (T 100) (Plain (Einsum [(n_t2'bbbb,[0;1;2;3]); (n_l3'babbab,[4;5;3;0;6;1])] [4;2;6;5]));
  (*7591*) AddTo n_rdm2_f_abab_vvov (Times (Einsum [(T 100,[0;1;2;3])] [3;0;2;1]) (2) 1);
  (*7592*) Assign (T 101) (Plain (Zeros [7;7;4;5]));
  (*7593*) AddTo (T 101) (Plain (Einsum [(n_t2'abab,[0;1;2;3]); (n_l3'abaaba,[4;5;2;6;1;0])] [5;3;6;4]));
  (*7594*) AddTo n_rdm2_f_abab_vvov (Times (Einsum [(T 101,[0;1;2;3])] [3;0;2;1]) (2) 1);
  (*7595*) Assign (T 102) (Plain (Zeros [7;7;4;5]));
  (*7596*) AddTo (T 102) (Plain (Einsum [(T 100,[0;1;2;3])] [0;1;2;3]));
  (*7597*) AddTo (T 102) (Plain (Einsum [(T 101,[0;1;2;3])] [0;1;2;3]));
  (*7598*) AddTo n_rdm2_f_abab_ooov (Times (Einsum [(n_t2'abab,[0;1;2;3]); (T 102,[3;4;5;2])] [0;1;5;4]) (2) 1);
  (*7599*) AddTo n_rdm2_f_abab_ovvv (Times (Einsum [(n_t2'aaaa,[0;1;2;3]); (T 102,[4;5;1;3])] [0;4;2;5]) (4) 1);
  (*7600*) AddTo n_rdm2_f_abab_vovv (Times (Einsum [(n_t2'abab,[0;1;2;3]); (T 102,[3;4;0;5])] [5;1;2;4]) (-2) 1);
  (*7601*) AddTo n_rdm2_f_abab_vvvv (Times (Einsum [(n_t1'aa,[0;1]); (T 102,[2;3;0;4])] [4;2;1;3]) (2) 1);
  (*7602*) Assign (T 103) (Plain (Zeros [4;4;4;5]));
  (*7603*) AddTo (T 103) (Times (Einsum [(T 2,[0;1;2;3])] [1;0;2;3]) (-1) 1);
  (*7604*) AddTo (T 103) (Plain (Einsum [(T 13,[0;1;2;3])] [0;1;2;3]));
  (*7605*) AddTo (T 103) (Times (Einsum [(T 14,[0;1;2;3])] [0;1;2;3]) (3) 1);
  (*7606*) AddTo n_rdm2_f_abab_ooov (Times (Einsum [(n_t2'abab,[0;1;2;3]); (T 103,[0;4;5;2])] [5;1;4;3]) (-2) 1);
  (*7607*) AddTo n_rdm2_f_abab_oovv (Times (Einsum [(T 103,[0;1;2;3]); (n_t3'abaaba,[0;4;1;5;6;3])] [2;4;5;6]) (2) 1);
  (*7608*) Assign (T 104) (Plain (Zeros [6;6;4;5]));
  (*7609*) AddTo (T 104) (Plain (Einsum [(n_t1'bb,[0;1]); (n_l2'abab,[2;1;3;4])] [4;0;3;2]));
  (*7610*) AddTo n_rdm2_f_abab_vooo (Times (Einsum [(T 104,[0;1;2;3])] [3;1;2;0]) (-1) 1);
  (*7611*) Assign (T 105) (Plain (Zeros [6;6;4;5]));
  (*7612*) AddTo (T 105) (Times (Einsum [(T 104,[0;1;2;3])] [0;1;2;3]) (1) 2);
  (*7613*) AddTo (T 105) (Plain (Einsum [(T 24,[0;1;2;3])] [0;1;2;3]));
  (*7614*) AddTo (T 105) (Plain (Einsum [(T 25,[0;1;2;3])] [0;1;2;3]));
  (*7615*) AddTo n_rdm2_f_abab_ooov (Times (Einsum [(n_t2'abab,[0;1;2;3]); (T 105,[1;4;5;2])] [0;4;5;3]) (2) 1);
  (*7616*) AddTo n_rdm2_f_abab_oovo (Times (Einsum [(n_t2'aaaa,[0;1;2;3]); (T 105,[4;5;1;3])] [0;5;2;4]) (-4) 1);
  (*7617*) AddTo n_rdm2_f_abab_voov (Times (Einsum [(n_t1'bb,[0;1]); (T 105,[0;2;3;4])] [4;2;3;1]) (-2) 1);
  (*7618*) Assign n_rdm2_f_abab_vovo (Plain (Zeros [5;6;5;6]));
  (*7619*) AddTo n_rdm2_f_abab_vovo (Times (Einsum [(n_t1'aa,[0;1]); (T 105,[2;3;0;4])] [4;3;1;2]) (-2) 1);
  (*7620*) Assign (T 106) (Plain (Zeros [6;7;4;4]));
  (*7621*) AddTo (T 106) (Plain (Einsum [(T 20,[0;1;2;3])] [0;1;2;3]));
  (*7622*) AddTo (T 106) (Times (Einsum [(T 21,[0;1;2;3])] [0;1;2;3]) (2) 1);
  (*7623*) AddTo (T 106) (Times (Einsum [(T 22,[0;1;2;3])] [0;1;2;3]) (2) 1);
  (*7624*) AddTo n_rdm2_f_abab_oovv (Times (Einsum [(T 106,[0;1;2;3]); (n_t3'babbab,[4;2;0;5;6;1])] [3;4;6;5]) (-2) 1);
  (*7625*) Assign n_rdm2_f_abab_ovov (Plain (Zeros [4;7;4;7]));
  (*7626*) AddTo n_rdm2_f_abab_ovov (Times (Einsum [(n_t1'bb,[0;1]); (T 106,[0;2;3;4])] [4;2;3;1]) (-1) 1);
  (*7627*) Assign (T 107) (Plain (Zeros [6;6;4;4]));
  (*7628*) AddTo (T 107) (Times (Einsum [(n_t1'bb,[0;1]); (T 106,[2;1;3;4])] [2;0;3;4]) (4999999999999899) 10000000000000000);
  (*7629*) Assign (T 108) (Plain (Zeros [6;6;4;4]));
  (*7630*) AddTo (T 108) (Times (Einsum [(n_t1'aa,[0;1]); (T 26,[2;3;4;1])] [2;3;0;4]) (4999999999999899) 5000000000000000);
  (*7631*) Assign (T 109) (Plain (Zeros [6;6;4;4]));
  (*7632*) AddTo (T 109) (Times (Einsum [(T 19,[0;1;2;3])] [0;1;2;3]) (4999999999999899) 10000000000000000);
  (*7633*) AddTo (T 109) (Plain (Einsum [(T 18,[0;1;2;3])] [0;1;2;3]));
  (*7634*) AddTo (T 109) (Plain (Einsum [(T 17,[0;1;2;3])] [0;1;2;3]));
  (*7635*) AddTo (T 109) (Plain (Einsum [(T 107,[0;1;2;3])] [0;1;2;3]));
  (*7636*) Del (T 107);
  (*7637*) AddTo (T 109) (Plain (Einsum [(T 108,[0;1;2;3])] [0;1;3;2]));
  (*7638*) Del (T 108);
  (*7639*) AddTo n_rdm2_f_abab_ooov (Times (Einsum [(n_t1'bb,[0;1]); (T 109,[0;2;3;4])] [4;2;3;1]) (5000000000000101) 2500000000000000);
  (*7640*) AddTo n_rdm2_f_abab_oovo (Times (Einsum [(n_t1'aa,[0;1]); (T 109,[2;3;0;4])] [4;3;1;2]) (5000000000000101) 2500000000000000);
  (*7641*) Del (T 109);
  (*7642*) Assign (T 110) (Plain (Zeros [6;7]));
  (*7643*) AddTo (T 110) (Plain (Einsum [(n_l1'bb,[0;1]); (n_t2'bbbb,[2;1;3;0])] [2;3]));
  (*7644*) Assign (T 111) (Plain (Zeros [6;7]));
  (*7645*) AddTo (T 111) (Plain (Einsum [(n_l1'aa,[0;1]); (n_t2'abab,[1;2;0;3])] [2;3]));
  (*7646*) Assign (T 112) (Plain (Zeros [6;7]));
  (*7647*) AddTo (T 112) (Plain (Einsum [(n_l2'bbbb,[0;1;2;3]); (n_t3'bbbbbb,[4;2;3;5;0;1])] [4;5]));
  (*7648*) Assign (T 113) (Plain (Zeros [6;7]));
  (*7649*) AddTo (T 113) (Plain (Einsum [(n_l2'abab,[0;1;2;3]); (n_t3'babbab,[4;2;3;5;0;1])] [4;5]));
  (*7650*) Assign (T 114) (Plain (Zeros [6;7]));
  (*7651*) AddTo (T 114) (Plain (Einsum [(n_l2'aaaa,[0;1;2;3]); (n_t3'abaaba,[2;4;3;0;5;1])] [4;5]));
  (*7652*) Assign (T 115) (Plain (Zeros [6;6;6;6;7;7]));
  (*7653*) AddTo (T 115) (Plain (Einsum [(n_t1'bb,[0;1]); (n_l3'bbbbbb,[2;3;1;4;5;6])] [4;5;6;0;2;3]));
  (*7654*) Assign (T 116) (Plain (Zeros [6;7]));
  (*7655*) AddTo (T 116) (Plain (Einsum [(n_t3'bbbbbb,[0;1;2;3;4;5]); (T 115,[0;1;2;6;4;5])] [6;3]));
  (*7656*) Assign (T 117) (Plain (Zeros [6;7]));
  (*7657*) AddTo (T 117) (Plain (Einsum [(n_t3'babbab,[0;1;2;3;4;5]); (T 91,[2;0;6;5;1;4])] [6;3]));
  (*7658*) Assign (T 118) (Plain (Zeros [6;7]));
  (*7659*) AddTo (T 118) (Plain (Einsum [(n_t3'abaaba,[0;1;2;3;4;5]); (T 86,[1;6;0;2;3;5])] [6;4]));
  (*7660*) Assign (T 119) (Plain (Zeros [6;6;6;7]));
  (*7661*) AddTo (T 119) (Times (Einsum [(T 39,[0;1;2;3])] [1;0;2;3]) (-1) 1);
  (*7662*) AddTo (T 119) (Times (Einsum [(T 41,[0;1;2;3])] [0;1;2;3]) (3) 1);
  (*7663*) AddTo (T 119) (Plain (Einsum [(T 42,[0;1;2;3])] [0;1;2;3]));
  (*7664*) AddTo n_rdm2_f_abab_oovo (Times (Einsum [(n_t2'abab,[0;1;2;3]); (T 119,[1;4;5;3])] [0;5;2;4]) (-2) 1);
  (*7665*) AddTo n_rdm2_f_abab_oovv (Times (Einsum [(T 119,[0;1;2;3]); (n_t3'babbab,[0;4;1;5;6;3])] [4;2;6;5]) (2) 1);
  (*7666*) Assign (T 120) (Plain (Zeros [6;6]));
  (*7667*) AddTo (T 120) (Plain (Einsum [(T 29,[0;1])] [0;1]));
  (*7668*) AddTo (T 120) (Times (Einsum [(T 30,[0;1])] [0;1]) (2) 1);
  (*7669*) AddTo (T 120) (Plain (Einsum [(T 31,[0;1])] [0;1]));
  (*7670*) AddTo (T 120) (Times (Einsum [(T 32,[0;1])] [0;1]) (7499999999999697) 2500000000000000);
  (*7671*) AddTo (T 120) (Times (Einsum [(T 33,[0;1])] [0;1]) (9999999999999597) 5000000000000000);
  (*7672*) AddTo (T 120) (Times (Einsum [(T 34,[0;1])] [0;1]) (9999999999999601) 10000000000000000);
  (*7673*) AddTo n_rdm2_f_abab_oovv (Times (Einsum [(T 120,[0;1]); (n_t2'abab,[2;0;3;4])] [2;1;3;4]) (-1) 1);
  (*7674*) Assign (T 121) (Plain (Zeros [6;7]));
  (*7675*) AddTo (T 121) (Times (Einsum [(n_t1'bb,[0;1])] [0;1]) (-1) 1);
  (*7676*) AddTo (T 121) (Times (Einsum [(T 110,[0;1])] [0;1]) (-2) 1);
  (*7677*) AddTo (T 121) (Times (Einsum [(T 111,[0;1])] [0;1]) (-1) 1);
  (*7678*) AddTo (T 121) (Times (Einsum [(T 112,[0;1])] [0;1]) (-3) 1);
  (*7679*) AddTo (T 121) (Times (Einsum [(T 113,[0;1])] [0;1]) (-2) 1);
  (*7680*) AddTo (T 121) (Times (Einsum [(T 114,[0;1])] [0;1]) (-1) 1);
  (*7681*) AddTo (T 121) (Times (Einsum [(T 116,[0;1])] [0;1]) (7499999999999697) 2500000000000000);
  (*7682*) AddTo (T 121) (Times (Einsum [(T 117,[0;1])] [0;1]) (9999999999999597) 5000000000000000);
  (*7683*) AddTo (T 121) (Times (Einsum [(T 118,[0;1])] [0;1]) (9999999999999601) 10000000000000000);
  (*7684*) AddTo (T 121) (Times (Einsum [(n_t2'bbbb,[0;1;2;3]); (T 119,[0;1;4;3])] [4;2]) (-2) 1);
  (*7685*) AddTo (T 121) (Times (Einsum [(n_t2'abab,[0;1;2;3]); (T 105,[1;4;0;2])] [4;3]) (2) 1);
  (*7686*) AddTo (T 121) (Plain (Einsum [(n_t1'bb,[0;1]); (T 120,[0;2])] [2;1]));
  (*7687*) AddTo n_rdm2_f_abab_ooov (Times (Einsum [(n_delta'aa'oo,[0;1]); (T 121,[2;3])] [0;2;1;3]) (-1) 1);
  (*7688*) Del (T 121);
  (*7689*) Assign (T 122) (Plain (Zeros [6;6;6;7]));
  (*7690*) AddTo (T 122) (Plain (Einsum [(n_l1'bb,[0;1]); (n_t2'bbbb,[2;3;4;0])] [1;2;3;4]));
  (*7691*) Assign n_rdm2_f_bbbb_ooov (Plain (Zeros [6;6;6;7]));
  (*7692*) AddTo n_rdm2_f_bbbb_ooov (Times (Einsum [(T 122,[0;1;2;3])] [2;1;0;3]) (-2) 1);
  (*7693*) Assign n_rdm2_f_bbbb_oovo (Plain (Zeros [6;6;7;6]));
  (*7694*) AddTo n_rdm2_f_bbbb_oovo (Times (Einsum [(T 122,[0;1;2;3])] [2;1;3;0]) (2) 1);
  (*7695*) Assign (T 123) (Plain (Zeros [6;6;6;6;4;5]));
  (*7696*) AddTo (T 123) (Times (Einsum [(n_t1'bb,[0;1]); (T 91,[2;3;4;1;5;6])] [2;3;4;0;5;6]) (-1) 1);
  (*7697*) Assign (T 124) (Plain (Zeros [6;6;6;7]));
  (*7698*) AddTo (T 124) (Times (Einsum [(n_t2'abab,[0;1;2;3]); (T 123,[4;1;5;6;0;2])] [4;6;5;3]) (-1) 1);
  (*7699*) AddTo n_rdm2_f_bbbb_ooov (Times (Einsum [(T 124,[0;1;2;3])] [1;2;0;3]) (2) 1);
  (*7700*) AddTo n_rdm2_f_bbbb_oovo (Times (Einsum [(T 124,[0;1;2;3])] [1;2;3;0]) (-2) 1);
  (*7701*) Assign (T 125) (Plain (Zeros [6;6;6;7]));
  (*7702*) AddTo (T 125) (Plain (Einsum [(n_l2'bbbb,[0;1;2;3]); (n_t3'bbbbbb,[4;5;3;6;0;1])] [2;4;5;6]));
  (*7703*) AddTo n_rdm2_f_bbbb_ooov (Times (Einsum [(T 125,[0;1;2;3])] [1;2;0;3]) (6) 1);
  (*7704*) AddTo n_rdm2_f_bbbb_oovo (Times (Einsum [(T 125,[0;1;2;3])] [1;2;3;0]) (-6) 1);
  (*7705*) Assign (T 126) (Plain (Zeros [6;6;6;7]));
  (*7706*) AddTo (T 126) (Plain (Einsum [(n_l2'abab,[0;1;2;3]); (n_t3'babbab,[4;2;5;6;0;1])] [3;4;5;6]));
  (*7707*) AddTo n_rdm2_f_bbbb_ooov (Times (Einsum [(T 126,[0;1;2;3])] [1;2;0;3]) (2) 1);
  (*7708*) AddTo n_rdm2_f_bbbb_oovo (Times (Einsum [(T 126,[0;1;2;3])] [1;2;3;0]) (-2) 1);
  (*7709*) Assign (T 127) (Plain (Zeros [6;6;6;6;6;7]));
  (*7710*) AddTo (T 127) (Plain (Einsum [(n_t1'bb,[0;1]); (T 115,[2;3;4;5;1;6])] [3;4;2;5;0;6]));
  (*7711*) Assign (T 128) (Plain (Zeros [6;6;6;7]));
  (*7712*) AddTo (T 128) (Times (Einsum [(n_t2'bbbb,[0;1;2;3]); (T 127,[0;1;4;5;6;3])] [4;6;5;2]) (-1) 1);
  (*7713*) AddTo n_rdm2_f_bbbb_ooov (Times (Einsum [(T 128,[0;1;2;3])] [1;2;0;3]) (6) 1);
  (*7714*) AddTo n_rdm2_f_bbbb_oovo (Times (Einsum [(T 128,[0;1;2;3])] [1;2;3;0]) (-6) 1);
  (*7715*) Assign (T 129) (Plain (Zeros [6;7]));
  (*7716*) AddTo (T 129) (Times (Einsum [(n_t2'bbbb,[0;1;2;3]); (T 119,[0;1;4;3])] [4;2]) (-1) 1);
  (*7717*) Assign (T 130) (Plain (Zeros [6;7]));
  (*7718*) AddTo (T 130) (Plain (Einsum [(n_t2'abab,[0;1;2;3]); (T 105,[1;4;0;2])] [4;3]));
  (*7719*) Del (T 105);
  (*7720*) Assign (T 131) (Plain (Zeros [6;7]));
  (*7721*) AddTo (T 131) (Times (Einsum [(n_t1'bb,[0;1]); (T 120,[0;2])] [2;1]) (1) 2);
  (*7722*) Assign (T 132) (Plain (Zeros [6;7]));
  (*7723*) AddTo (T 132) (Times (Einsum [(T 110,[0;1])] [0;1]) (-1) 1);
  (*7724*) Del (T 110);
  (*7725*) AddTo (T 132) (Times (Einsum [(T 111,[0;1])] [0;1]) (-1) 2);
  (*7726*) Del (T 111);
  (*7727*) AddTo (T 132) (Times (Einsum [(T 112,[0;1])] [0;1]) (-3) 2);
  (*7728*) Del (T 112);
  (*7729*) AddTo (T 132) (Times (Einsum [(T 113,[0;1])] [0;1]) (-1) 1);
  (*7730*) Del (T 113);
  (*7731*) AddTo (T 132) (Times (Einsum [(T 114,[0;1])] [0;1]) (-1) 2);
  (*7732*) Del (T 114);
  (*7733*) AddTo (T 132) (Times (Einsum [(T 116,[0;1])] [0;1]) (7499999999999697) 5000000000000000);
  (*7734*) Del (T 116);
  (*7735*) AddTo (T 132) (Times (Einsum [(T 117,[0;1])] [0;1]) (9999999999999597) 10000000000000000);
  (*7736*) Del (T 117);
  (*7737*) AddTo (T 132) (Times (Einsum [(T 118,[0;1])] [0;1]) (49999999999998007) 100000000000000000);
  (*7738*) Del (T 118);
  (*7739*) AddTo (T 132) (Plain (Einsum [(T 129,[0;1])] [0;1]));
  (*7740*) Del (T 129);
  (*7741*) AddTo (T 132) (Plain (Einsum [(T 130,[0;1])] [0;1]));
  (*7742*) Del (T 130);
  (*7743*) AddTo (T 132) (Plain (Einsum [(T 131,[0;1])] [0;1]));
  (*7744*) Del (T 131);
  (*7745*) AddTo n_rdm2_f_bbbb_ooov (Times (Einsum [(n_delta'bb'oo,[0;1]); (T 132,[2;3])] [0;2;1;3]) (-2) 1);
  (*7746*) AddTo n_rdm2_f_bbbb_ooov (Times (Einsum [(n_delta'bb'oo,[0;1]); (T 132,[2;3])] [2;0;1;3]) (2) 1);
  (*7747*) AddTo n_rdm2_f_bbbb_oovo (Times (Einsum [(n_delta'bb'oo,[0;1]); (T 132,[2;3])] [0;2;3;1]) (2) 1);
  (*7748*) AddTo n_rdm2_f_bbbb_oovo (Times (Einsum [(n_delta'bb'oo,[0;1]); (T 132,[2;3])] [2;0;3;1]) (-2) 1);
  (*7749*) AddTo n_rdm2_f_abab_oovv (Times (Einsum [(n_t1'aa,[0;1]); (T 132,[2;3])] [0;2;1;3]) (-2) 1);
  (*7750*) Assign (T 133) (Plain (Zeros [6;6;6;7]));
  (*7751*) AddTo (T 133) (Plain (Einsum [(n_t3'bbbbbb,[0;1;2;3;4;5]); (T 115,[6;1;2;7;4;5])] [6;7;0;3]));
  (*7752*) Assign (T 134) (Plain (Zeros [6;6;6;6]));
  (*7753*) AddTo (T 134) (Plain (Einsum [(n_t1'bb,[0;1]); (T 41,[2;3;4;1])] [2;3;0;4]));
  (*7754*) Assign (T 135) (Plain (Zeros [6;6;6;7]));
  (*7755*) AddTo (T 135) (Times (Einsum [(n_t1'bb,[0;1]); (T 134,[0;2;3;4])] [2;3;4;1]) (-1) 1);
  (*7756*) Del (T 134);
  (*7757*) Assign (T 136) (Plain (Zeros [6;6;6;7]));
  (*7758*) AddTo (T 136) (Times (Einsum [(n_t3'babbab,[0;1;2;3;4;5]); (T 91,[6;2;7;5;1;4])] [6;7;0;3]) (-1) 1);
  (*7759*) Assign (T 137) (Plain (Zeros [6;6;6;7]));
  (*7760*) AddTo (T 137) (Plain (Einsum [(n_t2'abab,[0;1;2;3]); (T 25,[4;5;0;2])] [4;1;5;3]));
  (*7761*) Assign (T 138) (Plain (Zeros [6;6;6;7]));
  (*7762*) AddTo (T 138) (Times (Einsum [(n_t3'abaaba,[0;1;2;3;4;5]); (T 86,[6;7;0;2;5;3])] [6;7;1;4]) (-1) 1);
  (*7763*) Assign (T 139) (Plain (Zeros [6;6;6;7]));
  (*7764*) AddTo (T 139) (Times (Einsum [(T 39,[0;1;2;3])] [1;0;2;3]) (-1) 1);
  (*7765*) AddTo (T 139) (Times (Einsum [(T 41,[0;1;2;3])] [0;1;2;3]) (3) 1);
  (*7766*) Assign (T 140) (Plain (Zeros [6;6;6;7]));
  (*7767*) AddTo (T 140) (Times (Einsum [(n_t2'bbbb,[0;1;2;3]); (T 139,[1;4;5;3])] [4;5;0;2]) (4) 1);
  (*7768*) Del (T 139);
  (*7769*) Assign (T 141) (Plain (Zeros [6;6;4;5]));
  (*7770*) AddTo (T 141) (Plain (Einsum [(T 104,[0;1;2;3])] [0;1;2;3]));
  (*7771*) AddTo (T 141) (Times (Einsum [(T 24,[0;1;2;3])] [0;1;2;3]) (2) 1);
  (*7772*) Assign (T 142) (Plain (Zeros [6;6;6;7]));
  (*7773*) AddTo (T 142) (Plain (Einsum [(n_t2'abab,[0;1;2;3]); (T 141,[4;5;0;2])] [4;5;1;3]));
  (*7774*) Del (T 141);
  (*7775*) Assign (T 143) (Plain (Zeros [6;6;7;7]));
  (*7776*) AddTo (T 143) (Times (Einsum [(n_t2'bbbb,[0;1;2;3])] [0;1;2;3]) (2) 1);
  (*7777*) AddTo (T 143) (Times (Einsum [(n_t1'bb,[0;1]); (n_t1'bb,[2;3])] [0;2;3;1]) (-1) 1);
  (*7778*) Assign (T 144) (Plain (Zeros [6;6;6;7]));
  (*7779*) AddTo (T 144) (Times (Einsum [(T 143,[0;1;2;3]); (T 42,[4;0;5;2])] [1;4;5;3]) (2) 1);
  (*7780*) Del (T 143);
  (*7781*) Assign (T 145) (Plain (Zeros [6;6;6;7]));
  (*7782*) AddTo (T 145) (Plain (Einsum [(n_delta'bb'oo,[0;1]); (n_t1'bb,[2;3])] [0;1;2;3]));
  (*7783*) AddTo (T 145) (Times (Einsum [(T 133,[0;1;2;3])] [1;0;2;3]) (-9) 1);
  (*7784*) AddTo (T 145) (Times (Einsum [(T 135,[0;1;2;3])] [1;0;2;3]) (6) 1);
  (*7785*) Del (T 135);
  (*7786*) AddTo (T 145) (Times (Einsum [(T 136,[0;1;2;3])] [1;0;2;3]) (-4) 1);
  (*7787*) AddTo (T 145) (Times (Einsum [(T 137,[0;1;2;3])] [1;0;2;3]) (2) 1);
  (*7788*) AddTo (T 145) (Times (Einsum [(T 138,[0;1;2;3])] [1;0;2;3]) (-1) 1);
  (*7789*) AddTo (T 145) (Times (Einsum [(T 140,[0;1;2;3])] [1;0;2;3]) (-1) 1);
  (*7790*) Del (T 140);
  (*7791*) AddTo (T 145) (Times (Einsum [(T 142,[0;1;2;3])] [1;0;2;3]) (-1) 1);
  (*7792*) Del (T 142);
  (*7793*) AddTo (T 145) (Times (Einsum [(T 144,[0;1;2;3])] [0;1;2;3]) (-1) 1);
  (*7794*) Del (T 144);
  (*7795*) AddTo (T 145) (Plain (Einsum [(n_t1'bb,[0;1]); (T 120,[2;3])] [0;2;3;1]));
  (*7796*) Del (T 120);
  (*7797*) AddTo n_rdm2_f_bbbb_ooov (Plain (Einsum [(T 145,[0;1;2;3])] [0;2;1;3]));
  (*7798*) AddTo n_rdm2_f_bbbb_ooov (Times (Einsum [(T 145,[0;1;2;3])] [2;0;1;3]) (-1) 1);
  (*7799*) AddTo n_rdm2_f_bbbb_oovo (Times (Einsum [(T 145,[0;1;2;3])] [0;2;3;1]) (-1) 1);
  (*7800*) AddTo n_rdm2_f_bbbb_oovo (Plain (Einsum [(T 145,[0;1;2;3])] [2;0;3;1]));
  (*7801*) Del (T 145);
  (*7802*) Assign (T 146) (Plain (Zeros [6;7;7;7]));
  (*7803*) AddTo (T 146) (Plain (Einsum [(n_t2'bbbb,[0;1;2;3]); (n_l3'bbbbbb,[4;5;3;6;0;1])] [6;4;5;2]));
  (*7804*) Assign n_rdm2_f_bbbb_vvov (Plain (Zeros [7;7;6;7]));
  (*7805*) AddTo n_rdm2_f_bbbb_vvov (Times (Einsum [(T 146,[0;1;2;3])] [1;2;0;3]) (6) 1);
  (*7806*) Assign n_rdm2_f_bbbb_vvvo (Plain (Zeros [7;7;7;6]));
  (*7807*) AddTo n_rdm2_f_bbbb_vvvo (Times (Einsum [(T 146,[0;1;2;3])] [1;2;3;0]) (-6) 1);
  (*7808*) Assign (T 147) (Plain (Zeros [6;7;7;7]));
  (*7809*) AddTo (T 147) (Plain (Einsum [(n_t2'abab,[0;1;2;3]); (n_l3'babbab,[4;2;5;6;0;1])] [6;4;5;3]));
  (*7810*) AddTo n_rdm2_f_bbbb_vvov (Times (Einsum [(T 147,[0;1;2;3])] [1;2;0;3]) (2) 1);
  (*7811*) AddTo n_rdm2_f_bbbb_vvvo (Times (Einsum [(T 147,[0;1;2;3])] [1;2;3;0]) (-2) 1);
  (*7812*) Assign (T 148) (Plain (Zeros [6;7;7;7]));
  (*7813*) AddTo (T 148) (Times (Einsum [(T 146,[0;1;2;3])] [0;2;1;3]) (-3) 1);
  (*7814*) AddTo (T 148) (Times (Einsum [(T 147,[0;1;2;3])] [0;2;1;3]) (-1) 1);
  (*7815*) AddTo n_rdm2_f_abab_oovv (Times (Einsum [(T 148,[0;1;2;3]); (n_t3'babbab,[4;5;0;1;6;2])] [5;4;6;3]) (2) 1);
  (*7816*) AddTo n_rdm2_f_abab_ovvv (Times (Einsum [(n_t2'abab,[0;1;2;3]); (T 148,[1;4;3;5])] [0;4;2;5]) (-2) 1);
  (*7817*) Assign (T 149) (Plain (Zeros [6;6;6;7]));
  (*7818*) AddTo (T 149) (Times (Einsum [(n_t2'bbbb,[0;1;2;3]); (T 148,[4;2;3;5])] [4;0;1;5]) (2) 1);
  (*7819*) Del (T 148);
  (*7820*) AddTo n_rdm2_f_bbbb_ooov (Times (Einsum [(T 149,[0;1;2;3])] [2;1;0;3]) (-1) 1);
  (*7821*) AddTo n_rdm2_f_bbbb_oovo (Plain (Einsum [(T 149,[0;1;2;3])] [2;1;3;0]));
  (*7822*) Del (T 149);
  (*7823*) Assign (T 150) (Plain (Zeros [6;6;6;6]));
  (*7824*) AddTo (T 150) (Times (Einsum [(T 38,[0;1;2;3])] [1;0;3;2]) (-4999999999999899) 5000000000000000);
  (*7825*) AddTo (T 150) (Times (Einsum [(T 40,[0;1;2;3])] [0;1;3;2]) (4999999999999899) 5000000000000000);
  (*7826*) AddTo (T 150) (Times (Einsum [(T 36,[0;1;2;3])] [0;1;3;2]) (1499999999999999) 500000000000000);
  (*7827*) AddTo (T 150) (Plain (Einsum [(T 37,[0;1;2;3])] [0;1;3;2]));
  (*7828*) Assign (T 151) (Plain (Zeros [6;6;6;7]));
  (*7829*) AddTo (T 151) (Times (Einsum [(n_t1'bb,[0;1]); (T 150,[0;2;3;4])] [2;3;4;1]) (5000000000000101) 2500000000000000);
  (*7830*) Del (T 150);
  (*7831*) AddTo n_rdm2_f_bbbb_ooov (Times (Einsum [(T 151,[0;1;2;3])] [2;1;0;3]) (-1) 1);
  (*7832*) AddTo n_rdm2_f_bbbb_oovo (Plain (Einsum [(T 151,[0;1;2;3])] [2;1;3;0]));
  (*7833*) Del (T 151);
  (*7834*) Assign (T 152) (Plain (Zeros [6;6;4;5]));
  (*7835*) AddTo (T 152) (Plain (Einsum [(n_l2'bbbb,[0;1;2;3]); (n_t3'babbab,[4;5;3;0;6;1])] [2;4;5;6]));
  (*7836*) AddTo n_rdm2_f_abab_oovo (Times (Einsum [(T 152,[0;1;2;3])] [2;1;3;0]) (-2) 1);
  (*7837*) Assign (T 153) (Plain (Zeros [6;6;4;5]));
  (*7838*) AddTo (T 153) (Plain (Einsum [(n_l1'bb,[0;1]); (n_t2'abab,[2;3;4;0])] [1;3;2;4]));
  (*7839*) AddTo n_rdm2_f_abab_oovo (Times (Einsum [(T 153,[0;1;2;3])] [2;1;3;0]) (-1) 1);
  (*7840*) Assign (T 154) (Plain (Zeros [6;6;4;5]));
  (*7841*) AddTo (T 154) (Plain (Einsum [(n_t3'babbab,[0;1;2;3;4;5]); (T 115,[0;2;6;7;3;5])] [6;7;1;4]));
  (*7842*) AddTo n_rdm2_f_abab_oovo (Times (Einsum [(T 154,[0;1;2;3])] [2;1;3;0]) (-3) 1);
  (*7843*) Assign (T 155) (Plain (Zeros [6;6;4;5]));
  (*7844*) AddTo (T 155) (Times (Einsum [(n_t3'babbab,[0;1;2;3;4;5]); (T 60,[2;6;3;5;1;7])] [6;0;7;4]) (-1) 1);
  (*7845*) AddTo n_rdm2_f_abab_oovo (Times (Einsum [(T 155,[0;1;2;3])] [2;1;3;0]) (2) 1);
  (*7846*) Assign (T 156) (Plain (Zeros [6;6;4;5]));
  (*7847*) AddTo (T 156) (Plain (Einsum [(n_t3'abaaba,[0;1;2;3;4;5]); (T 91,[1;6;7;4;2;5])] [6;7;0;3]));
  (*7848*) AddTo n_rdm2_f_abab_oovo (Times (Einsum [(T 156,[0;1;2;3])] [2;1;3;0]) (-4) 1);
  (*7849*) Assign (T 157) (Plain (Zeros [6;6;4;5]));
  (*7850*) AddTo (T 157) (Plain (Einsum [(n_t2'abab,[0;1;2;3]); (T 94,[1;4;5;3;0;6])] [4;5;6;2]));
  (*7851*) AddTo n_rdm2_f_abab_oovo (Times (Einsum [(T 157,[0;1;2;3])] [2;1;3;0]) (2) 1);
  (*7852*) Assign (T 158) (Plain (Zeros [6;6;4;5]));
  (*7853*) AddTo (T 158) (Times (Einsum [(n_t3'abaaba,[0;1;2;3;4;5]); (T 52,[6;4;0;2;7;5])] [6;1;7;3]) (-1) 1);
  (*7854*) AddTo n_rdm2_f_abab_oovo (Times (Einsum [(T 158,[0;1;2;3])] [2;1;3;0]) (2) 1);
  (*7855*) Assign (T 159) (Plain (Zeros [6;6;4;5]));
  (*7856*) AddTo (T 159) (Plain (Einsum [(n_t3'aaaaaa,[0;1;2;3;4;5]); (T 86,[6;7;1;2;4;5])] [6;7;0;3]));
  (*7857*) AddTo n_rdm2_f_abab_oovo (Times (Einsum [(T 159,[0;1;2;3])] [2;1;3;0]) (-3) 1);
  (*7858*) Assign (T 160) (Plain (Zeros [6;6;4;5]));
  (*7859*) AddTo (T 160) (Plain (Einsum [(n_t2'aaaa,[0;1;2;3]); (T 89,[4;5;1;0;6;3])] [4;5;6;2]));
  (*7860*) AddTo n_rdm2_f_abab_oovo (Times (Einsum [(T 160,[0;1;2;3])] [2;1;3;0]) (2) 1);
  (*7861*) Assign (T 161) (Plain (Zeros [6;6;4;5]));
  (*7862*) AddTo (T 161) (Plain (Einsum [(n_l2'abab,[0;1;2;3]); (n_t3'abaaba,[4;5;2;6;1;0])] [3;5;4;6]));
  (*7863*) AddTo n_rdm2_f_abab_oovo (Times (Einsum [(T 161,[0;1;2;3])] [2;1;3;0]) (-2) 1);
  (*7864*) Assign (T 162) (Plain (Zeros [6;7;5;5]));
  (*7865*) AddTo (T 162) (Plain (Einsum [(n_t2'abab,[0;1;2;3]); (n_l3'babbab,[4;5;3;6;0;1])] [6;4;5;2]));
  (*7866*) Assign n_rdm2_f_abab_vvvo (Plain (Zeros [5;7;5;6]));
  (*7867*) AddTo n_rdm2_f_abab_vvvo (Times (Einsum [(T 162,[0;1;2;3])] [2;1;3;0]) (2) 1);
  (*7868*) Assign (T 163) (Plain (Zeros [6;7;5;5]));
  (*7869*) AddTo (T 163) (Plain (Einsum [(n_t2'aaaa,[0;1;2;3]); (n_l3'abaaba,[4;5;3;0;6;1])] [6;5;4;2]));
  (*7870*) AddTo n_rdm2_f_abab_vvvo (Times (Einsum [(T 163,[0;1;2;3])] [2;1;3;0]) (2) 1);
  (*7871*) Assign (T 164) (Plain (Zeros [6;7;5;5]));
  (*7872*) AddTo (T 164) (Plain (Einsum [(T 162,[0;1;2;3])] [0;1;2;3]));
  (*7873*) AddTo (T 164) (Plain (Einsum [(T 163,[0;1;2;3])] [0;1;2;3]));
  (*7874*) AddTo n_rdm2_f_abab_oovo (Times (Einsum [(n_t2'abab,[0;1;2;3]); (T 164,[4;3;2;5])] [0;1;5;4]) (2) 1);
  (*7875*) AddTo n_rdm2_f_abab_ovvv (Times (Einsum [(n_t2'abab,[0;1;2;3]); (T 164,[1;4;2;5])] [0;4;5;3]) (-2) 1);
  (*7876*) AddTo n_rdm2_f_abab_vovv (Times (Einsum [(n_t2'bbbb,[0;1;2;3]); (T 164,[1;3;4;5])] [4;0;5;2]) (4) 1);
  (*7877*) Assign (T 165) (Plain (Zeros [4;5]));
  (*7878*) AddTo (T 165) (Times (Einsum [(n_t1'aa,[0;1])] [0;1]) (-1) 1);
  (*7879*) AddTo (T 165) (Times (Einsum [(T 55,[0;1])] [0;1]) (-1) 1);
  (*7880*) Del (T 55);
  (*7881*) AddTo (T 165) (Times (Einsum [(T 56,[0;1])] [0;1]) (-2) 1);
  (*7882*) Del (T 56);
  (*7883*) AddTo (T 165) (Times (Einsum [(T 57,[0;1])] [0;1]) (-1) 1);
  (*7884*) Del (T 57);
  (*7885*) AddTo (T 165) (Times (Einsum [(T 58,[0;1])] [0;1]) (-2) 1);
  (*7886*) Del (T 58);
  (*7887*) AddTo (T 165) (Times (Einsum [(T 59,[0;1])] [0;1]) (-3) 1);
  (*7888*) Del (T 59);
  (*7889*) AddTo (T 165) (Times (Einsum [(T 61,[0;1])] [0;1]) (9999999999999601) 10000000000000000);
  (*7890*) Del (T 61);
  (*7891*) AddTo (T 165) (Times (Einsum [(T 62,[0;1])] [0;1]) (9999999999999597) 5000000000000000);
  (*7892*) Del (T 62);
  (*7893*) AddTo (T 165) (Times (Einsum [(T 63,[0;1])] [0;1]) (7499999999999697) 2500000000000000);
  (*7894*) Del (T 63);
  (*7895*) AddTo (T 165) (Plain (Einsum [(T 64,[0;1])] [0;1]));
  (*7896*) Del (T 64);
  (*7897*) AddTo (T 165) (Plain (Einsum [(T 66,[0;1])] [0;1]));
  (*7898*) Del (T 66);
  (*7899*) AddTo (T 165) (Plain (Einsum [(T 68,[0;1])] [0;1]));
  (*7900*) Del (T 68);
  (*7901*) AddTo n_rdm2_f_abab_oovo (Times (Einsum [(n_delta'bb'oo,[0;1]); (T 165,[2;3])] [2;0;3;1]) (-1) 1);
  (*7902*) AddTo n_rdm2_f_abab_oovv (Times (Einsum [(n_t1'bb,[0;1]); (T 165,[2;3])] [2;0;3;1]) (-1) 1);
  (*7903*) Del (T 165);
  (*7904*) Assign (T 166) (Plain (Zeros [6;7;4;5]));
  (*7905*) AddTo (T 166) (Plain (Einsum [(n_t2'abab,[0;1;2;3]); (T 60,[4;1;5;3;0;6])] [4;5;6;2]));
  (*7906*) AddTo n_rdm2_f_abab_ovvo (Times (Einsum [(T 166,[0;1;2;3])] [2;1;3;0]) (-2) 1);
  (*7907*) Assign (T 167) (Plain (Zeros [4;4;5;5]));
  (*7908*) AddTo (T 167) (Plain (Einsum [(n_t2'abab,[0;1;2;3]); (T 166,[1;3;4;5])] [4;0;2;5]));
  (*7909*) Assign (T 168) (Plain (Zeros [6;7;4;5]));
  (*7910*) AddTo (T 168) (Plain (Einsum [(n_l2'abab,[0;1;2;3]); (n_t2'aaaa,[4;2;5;0])] [3;1;4;5]));
  (*7911*) AddTo n_rdm2_f_abab_ovvo (Times (Einsum [(T 168,[0;1;2;3])] [2;1;3;0]) (2) 1);
  (*7912*) Assign (T 169) (Plain (Zeros [6;7;4;5]));
  (*7913*) AddTo (T 169) (Plain (Einsum [(n_l3'bbbbbb,[0;1;2;3;4;5]); (n_t3'babbab,[4;6;5;1;7;2])] [3;0;6;7]));
  (*7914*) AddTo n_rdm2_f_abab_ovvo (Times (Einsum [(T 169,[0;1;2;3])] [2;1;3;0]) (3) 1);
  (*7915*) Assign (T 170) (Plain (Zeros [6;7;4;5]));
  (*7916*) AddTo (T 170) (Plain (Einsum [(n_l3'babbab,[0;1;2;3;4;5]); (n_t3'abaaba,[6;5;4;7;2;1])] [3;0;6;7]));
  (*7917*) AddTo n_rdm2_f_abab_ovvo (Times (Einsum [(T 170,[0;1;2;3])] [2;1;3;0]) (4) 1);
  (*7918*) Assign (T 171) (Plain (Zeros [6;7;4;5]));
  (*7919*) AddTo (T 171) (Plain (Einsum [(n_l3'abaaba,[0;1;2;3;4;5]); (n_t3'aaaaaa,[6;3;5;7;0;2])] [4;1;6;7]));
  (*7920*) AddTo n_rdm2_f_abab_ovvo (Times (Einsum [(T 171,[0;1;2;3])] [2;1;3;0]) (3) 1);
  (*7921*) Assign (T 172) (Plain (Zeros [6;7;4;5]));
  (*7922*) AddTo (T 172) (Plain (Einsum [(T 168,[0;1;2;3])] [0;1;2;3]));
  (*7923*) AddTo (T 172) (Times (Einsum [(T 169,[0;1;2;3])] [0;1;2;3]) (3) 2);
  (*7924*) AddTo (T 172) (Times (Einsum [(T 170,[0;1;2;3])] [0;1;2;3]) (2) 1);
  (*7925*) AddTo (T 172) (Times (Einsum [(T 171,[0;1;2;3])] [0;1;2;3]) (3) 2);
  (*7926*) Assign (T 173) (Plain (Zeros [4;4;5;5]));
  (*7927*) AddTo (T 173) (Times (Einsum [(n_t2'abab,[0;1;2;3]); (T 172,[1;3;4;5])] [4;0;5;2]) (2) 1);
  (*7928*) Del (T 172);
  (*7929*) Assign (T 174) (Plain (Zeros [4;4;5;5]));
  (*7930*) AddTo (T 174) (Plain (Einsum [(n_l3'babbab,[0;1;2;3;4;5]); (n_t3'babbab,[3;6;5;0;7;2])] [4;6;1;7]));
  (*7931*) AddTo n_rdm2_f_aaaa_ovov (Times (Einsum [(T 174,[0;1;2;3])] [1;2;0;3]) (-1) 1);
  (*7932*) AddTo n_rdm2_f_aaaa_ovvo (Plain (Einsum [(T 174,[0;1;2;3])] [1;2;3;0]));
  (*7933*) AddTo n_rdm2_f_aaaa_voov (Plain (Einsum [(T 174,[0;1;2;3])] [2;1;0;3]));
  (*7934*) AddTo n_rdm2_f_aaaa_vovo (Times (Einsum [(T 174,[0;1;2;3])] [2;1;3;0]) (-1) 1);
  (*7935*) Assign (T 175) (Plain (Zeros [4;4;5;5]));
  (*7936*) AddTo (T 175) (Plain (Einsum [(n_l3'abaaba,[0;1;2;3;4;5]); (n_t3'abaaba,[6;4;5;7;1;2])] [3;6;0;7]));
  (*7937*) AddTo n_rdm2_f_aaaa_ovov (Times (Einsum [(T 175,[0;1;2;3])] [1;2;0;3]) (-4) 1);
  (*7938*) AddTo n_rdm2_f_aaaa_ovvo (Times (Einsum [(T 175,[0;1;2;3])] [1;2;3;0]) (4) 1);
  (*7939*) AddTo n_rdm2_f_aaaa_voov (Times (Einsum [(T 175,[0;1;2;3])] [2;1;0;3]) (4) 1);
  (*7940*) AddTo n_rdm2_f_aaaa_vovo (Times (Einsum [(T 175,[0;1;2;3])] [2;1;3;0]) (-4) 1);
  (*7941*) Assign (T 176) (Plain (Zeros [4;4;5;5]));
  (*7942*) AddTo (T 176) (Plain (Einsum [(n_l3'aaaaaa,[0;1;2;3;4;5]); (n_t3'aaaaaa,[6;4;5;7;1;2])] [3;6;0;7]));
  (*7943*) AddTo n_rdm2_f_aaaa_ovov (Times (Einsum [(T 176,[0;1;2;3])] [1;2;0;3]) (-9) 1);
  (*7944*) AddTo n_rdm2_f_aaaa_ovvo (Times (Einsum [(T 176,[0;1;2;3])] [1;2;3;0]) (9) 1);
  (*7945*) AddTo n_rdm2_f_aaaa_voov (Times (Einsum [(T 176,[0;1;2;3])] [2;1;0;3]) (9) 1);
  (*7946*) AddTo n_rdm2_f_aaaa_vovo (Times (Einsum [(T 176,[0;1;2;3])] [2;1;3;0]) (-9) 1);
  (*7947*) Assign (T 177) (Plain (Zeros [4;4;5;5]));
  (*7948*) AddTo (T 177) (Plain (Einsum [(T 174,[0;1;2;3])] [0;1;2;3]));
  (*7949*) AddTo (T 177) (Times (Einsum [(T 175,[0;1;2;3])] [0;1;2;3]) (4) 1);
  (*7950*) AddTo (T 177) (Times (Einsum [(T 176,[0;1;2;3])] [0;1;2;3]) (9) 1);
  (*7951*) Assign (T 178) (Plain (Zeros [4;4;5;5]));
  (*7952*) AddTo (T 178) (Times (Einsum [(n_t2'aaaa,[0;1;2;3]); (T 177,[1;4;3;5])] [4;0;5;2]) (2) 1);
  (*7953*) Del (T 177);
  (*7954*) Assign (T 179) (Plain (Zeros [4;4;5;5]));
  (*7955*) AddTo (T 179) (Plain (Einsum [(n_t2'abab,[0;1;2;3]); (T 52,[1;3;4;0;5;6])] [4;5;6;2]));
  (*7956*) AddTo n_rdm2_f_aaaa_ovov (Times (Einsum [(T 179,[0;1;2;3])] [1;2;0;3]) (2) 1);
  (*7957*) AddTo n_rdm2_f_aaaa_ovvo (Times (Einsum [(T 179,[0;1;2;3])] [1;2;3;0]) (-2) 1);
  (*7958*) AddTo n_rdm2_f_aaaa_voov (Times (Einsum [(T 179,[0;1;2;3])] [2;1;0;3]) (-2) 1);
  (*7959*) AddTo n_rdm2_f_aaaa_vovo (Times (Einsum [(T 179,[0;1;2;3])] [2;1;3;0]) (2) 1);
  (*7960*) Assign (T 180) (Plain (Zeros [4;4;5;5]));
  (*7961*) AddTo (T 180) (Plain (Einsum [(n_t2'aaaa,[0;1;2;3]); (T 46,[4;1;0;5;6;3])] [4;5;6;2]));
  (*7962*) AddTo n_rdm2_f_aaaa_ovov (Times (Einsum [(T 180,[0;1;2;3])] [1;2;0;3]) (6) 1);
  (*7963*) AddTo n_rdm2_f_aaaa_ovvo (Times (Einsum [(T 180,[0;1;2;3])] [1;2;3;0]) (-6) 1);
  (*7964*) AddTo n_rdm2_f_aaaa_voov (Times (Einsum [(T 180,[0;1;2;3])] [2;1;0;3]) (-6) 1);
  (*7965*) AddTo n_rdm2_f_aaaa_vovo (Times (Einsum [(T 180,[0;1;2;3])] [2;1;3;0]) (6) 1);
  (*7966*) Assign (T 181) (Plain (Zeros [4;4;5;5]));
  (*7967*) AddTo (T 181) (Plain (Einsum [(n_t1'aa,[0;1]); (T 15,[2;0;3;4])] [2;3;1;4]));
  (*7968*) Assign (T 182) (Plain (Zeros [4;4;5;5]));
  (*7969*) AddTo (T 182) (Plain (Einsum [(T 179,[0;1;2;3])] [0;1;2;3]));
  (*7970*) AddTo (T 182) (Times (Einsum [(T 180,[0;1;2;3])] [0;1;2;3]) (3) 1);
  (*7971*) AddTo (T 182) (Plain (Einsum [(T 181,[0;1;2;3])] [0;1;3;2]));
  (*7972*) Assign (T 183) (Plain (Zeros [4;4;5;5]));
  (*7973*) AddTo (T 183) (Times (Einsum [(n_t2'aaaa,[0;1;2;3]); (T 182,[1;4;3;5])] [4;0;5;2]) (4) 1);
  (*7974*) Del (T 182);
  (*7975*) Assign (T 184) (Plain (Zeros [6;7;4;5]));
  (*7976*) AddTo (T 184) (Times (Einsum [(n_t2'aaaa,[0;1;2;3]); (T 52,[4;5;0;1;6;3])] [4;5;6;2]) (-1) 1);
  (*7977*) AddTo n_rdm2_f_abab_ovvo (Times (Einsum [(T 184,[0;1;2;3])] [2;1;3;0]) (-2) 1);
  (*7978*) Assign (T 185) (Plain (Zeros [6;7;4;5]));
  (*7979*) AddTo (T 185) (Plain (Einsum [(n_t1'aa,[0;1]); (T 22,[2;3;0;4])] [2;3;4;1]));
  (*7980*) Assign (T 186) (Plain (Zeros [6;7;4;5]));
  (*7981*) AddTo (T 186) (Plain (Einsum [(T 184,[0;1;2;3])] [0;1;2;3]));
  (*7982*) AddTo (T 186) (Plain (Einsum [(T 185,[0;1;2;3])] [0;1;2;3]));
  (*7983*) Del (T 185);
  (*7984*) Assign (T 187) (Plain (Zeros [4;4;5;5]));
  (*7985*) AddTo (T 187) (Times (Einsum [(n_t2'abab,[0;1;2;3]); (T 186,[1;3;4;5])] [4;0;5;2]) (2) 1);
  (*7986*) Del (T 186);
  (*7987*) Assign (T 188) (Plain (Zeros [4;4;4;5]));
  (*7988*) AddTo (T 188) (Plain (Einsum [(n_t2'abab,[0;1;2;3]); (T 20,[1;3;4;5])] [4;5;0;2]));
  (*7989*) Assign (T 189) (Plain (Zeros [4;4;4;5]));
  (*7990*) AddTo (T 189) (Times (Einsum [(n_t2'aaaa,[0;1;2;3]); (T 2,[4;1;5;3])] [4;5;0;2]) (-1) 1);
  (*7991*) Assign (T 190) (Plain (Zeros [4;4;4;5]));
  (*7992*) AddTo (T 190) (Plain (Einsum [(T 188,[0;1;2;3])] [0;1;2;3]));
  (*7993*) Del (T 188);
  (*7994*) AddTo (T 190) (Times (Einsum [(T 189,[0;1;2;3])] [0;1;2;3]) (4) 1);
  (*7995*) Del (T 189);
  (*7996*) AddTo (T 190) (Plain (Einsum [(T 71,[0;1;2;3])] [0;1;2;3]));
  (*7997*) Del (T 71);
  (*7998*) AddTo (T 190) (Times (Einsum [(T 70,[0;1;2;3])] [0;1;2;3]) (-2) 1);
  (*7999*) Del (T 70);
  (*8000*) AddTo (T 190) (Times (Einsum [(T 72,[0;1;2;3])] [0;1;2;3]) (4) 1);
  (*8001*) Del (T 72);
  (*8002*) AddTo (T 190) (Times (Einsum [(T 73,[0;1;2;3])] [0;1;2;3]) (9) 1);
  (*8003*) Del (T 73);
  (*8004*) Assign (T 191) (Plain (Zeros [4;4;5;5]));
  (*8005*) AddTo (T 191) (Plain (Einsum [(n_t1'aa,[0;1]); (T 190,[0;2;3;4])] [2;3;4;1]));
  (*8006*) Del (T 190);
  (*8007*) Assign (T 192) (Plain (Zeros [4;4;5;5]));
  (*8008*) AddTo (T 192) (Times (Einsum [(T 167,[0;1;2;3])] [0;1;2;3]) (-2) 1);
  (*8009*) Del (T 167);
  (*8010*) AddTo (T 192) (Times (Einsum [(T 173,[0;1;2;3])] [1;0;3;2]) (-1) 1);
  (*8011*) Del (T 173);
  (*8012*) AddTo (T 192) (Times (Einsum [(T 178,[0;1;2;3])] [1;0;3;2]) (-1) 1);
  (*8013*) Del (T 178);
  (*8014*) AddTo (T 192) (Plain (Einsum [(T 183,[0;1;2;3])] [0;1;2;3]));
  (*8015*) Del (T 183);
  (*8016*) AddTo (T 192) (Plain (Einsum [(T 187,[0;1;2;3])] [0;1;2;3]));
  (*8017*) Del (T 187);
  (*8018*) AddTo (T 192) (Plain (Einsum [(T 191,[0;1;2;3])] [0;1;3;2]));
  (*8019*) Del (T 191);
  (*8020*) AddTo (T 192) (Plain (Einsum [(n_t1'aa,[0;1]); (T 69,[2;3])] [0;2;1;3]));
  (*8021*) Del (T 69);
  (*8022*) AddTo n_rdm2_f_aaaa_oovv (Times (Einsum [(T 192,[0;1;2;3])] [0;1;2;3]) (-1) 1);
  (*8023*) AddTo n_rdm2_f_aaaa_oovv (Plain (Einsum [(T 192,[0;1;2;3])] [0;1;3;2]));
  (*8024*) AddTo n_rdm2_f_aaaa_oovv (Plain (Einsum [(T 192,[0;1;2;3])] [1;0;2;3]));
  (*8025*) AddTo n_rdm2_f_aaaa_oovv (Times (Einsum [(T 192,[0;1;2;3])] [1;0;3;2]) (-1) 1);
  (*8026*) Del (T 192);
  (*8027*) Assign (T 193) (Plain (Zeros [4;4;5;5]));
  (*8028*) AddTo (T 193) (Plain (Einsum [(T 12,[0;1]); (n_t2'aaaa,[2;0;3;4])] [1;2;3;4]));
  (*8029*) Assign (T 194) (Plain (Zeros [4;4;5;5]));
  (*8030*) AddTo (T 194) (Times (Einsum [(T 75,[0;1;2;3]); (n_t3'abaaba,[4;0;2;5;1;6])] [4;3;5;6]) (-2) 1);
  (*8031*) Del (T 75);
  (*8032*) Assign (T 195) (Plain (Zeros [4;4;4;5]));
  (*8033*) AddTo (T 195) (Times (Einsum [(T 2,[0;1;2;3])] [1;0;2;3]) (-1) 1);
  (*8034*) AddTo (T 195) (Plain (Einsum [(T 13,[0;1;2;3])] [0;1;2;3]));
  (*8035*) Assign (T 196) (Plain (Zeros [4;4;5;5]));
  (*8036*) AddTo (T 196) (Times (Einsum [(T 195,[0;1;2;3]); (n_t3'aaaaaa,[4;0;1;5;6;3])] [2;4;5;6]) (-6) 1);
  (*8037*) Del (T 195);
  (*8038*) Assign (T 197) (Plain (Zeros [4;4;4;4]));
  (*8039*) AddTo (T 197) (Times (Einsum [(n_t1'aa,[0;1]); (T 15,[2;3;4;1])] [0;2;3;4]) (3333333333333333) 10000000000000000);
  (*8040*) Del (T 15);
  (*8041*) Assign (T 198) (Plain (Zeros [4;4;5;5]));
  (*8042*) AddTo (T 198) (Plain (Einsum [(n_t2'aaaa,[0;1;2;3])] [0;1;2;3]));
  (*8043*) AddTo (T 198) (Plain (Einsum [(n_t1'aa,[0;1]); (n_t1'aa,[2;3])] [0;2;1;3]));
  (*8044*) Assign (T 199) (Plain (Zeros [4;4;5;5]));
  (*8045*) AddTo (T 199) (Times (Einsum [(T 197,[0;1;2;3]); (T 198,[1;2;4;5])] [0;3;4;5]) (6) 1);
  (*8046*) Del (T 197);
  (*8046*) Del (T 198);
  (*8047*) Assign (T 200) (Plain (Zeros [4;4]));
  (*8048*) AddTo (T 200) (Times (Einsum [(T 6,[0;1])] [0;1]) (5000000000000203) 10000000000000000);
  (*8049*) AddTo (T 200) (Times (Einsum [(T 7,[0;1])] [0;1]) (5000000000000203) 5000000000000000);
  (*8050*) AddTo (T 200) (Plain (Einsum [(T 9,[0;1])] [0;1]));
  (*8051*) Assign (T 201) (Plain (Zeros [4;4;5;5]));
  (*8052*) AddTo (T 201) (Times (Einsum [(T 200,[0;1]); (n_t2'aaaa,[2;0;3;4])] [1;2;3;4]) (-1999999999999919) 500000000000000);
  (*8053*) Del (T 200);
  (*8054*) Assign (T 202) (Plain (Zeros [4;4;5;5]));
  (*8055*) AddTo (T 202) (Times (Einsum [(T 193,[0;1;2;3])] [0;1;3;2]) (-2) 1);
  (*8056*) Del (T 193);
  (*8057*) AddTo (T 202) (Plain (Einsum [(T 194,[0;1;2;3])] [1;0;3;2]));
  (*8058*) Del (T 194);
  (*8059*) AddTo (T 202) (Plain (Einsum [(T 196,[0;1;2;3])] [0;1;2;3]));
  (*8060*) Del (T 196);
  (*8061*) AddTo (T 202) (Times (Einsum [(T 199,[0;1;2;3])] [0;1;3;2]) (-1) 1);
  (*8062*) Del (T 199);
  (*8063*) AddTo (T 202) (Times (Einsum [(T 201,[0;1;2;3])] [1;0;3;2]) (-1) 1);
  (*8064*) Del (T 201);
  (*8065*) AddTo n_rdm2_f_aaaa_oovv (Plain (Einsum [(T 202,[0;1;2;3])] [0;1;2;3]));
  (*8066*) AddTo n_rdm2_f_aaaa_oovv (Times (Einsum [(T 202,[0;1;2;3])] [1;0;2;3]) (-1) 1);
  (*8067*) Del (T 202);
  (*8068*) Assign (T 203) (Plain (Zeros [4;4;5;5]));
  (*8069*) AddTo (T 203) (Plain (Einsum [(n_l2'aaaa,[0;1;2;3]); (n_t2'aaaa,[4;3;5;1])] [2;4;0;5]));
  (*8070*) AddTo n_rdm2_f_aaaa_ovov (Times (Einsum [(T 203,[0;1;2;3])] [1;2;0;3]) (-4) 1);
  (*8071*) AddTo n_rdm2_f_aaaa_ovvo (Times (Einsum [(T 203,[0;1;2;3])] [1;2;3;0]) (4) 1);
  (*8072*) AddTo n_rdm2_f_aaaa_voov (Times (Einsum [(T 203,[0;1;2;3])] [2;1;0;3]) (4) 1);
  (*8073*) AddTo n_rdm2_f_aaaa_vovo (Times (Einsum [(T 203,[0;1;2;3])] [2;1;3;0]) (-4) 1);
  (*8074*) Assign (T 204) (Plain (Zeros [4;4;5;5]));
  (*8075*) AddTo (T 204) (Plain (Einsum [(n_t2'aaaa,[0;1;2;3]); (T 203,[1;4;3;5])] [0;4;2;5]));
  (*8076*) Assign (T 205) (Plain (Zeros [4;4;5;5]));
  (*8077*) AddTo (T 205) (Times (Einsum [(T 164,[0;1;2;3]); (n_t3'abaaba,[4;0;5;6;1;2])] [4;5;3;6]) (-4) 1);
  (*8078*) Assign (T 206) (Plain (Zeros [4;5;5;5]));
  (*8079*) AddTo (T 206) (Times (Einsum [(T 80,[0;1;2;3])] [0;2;1;3]) (-1) 1);
  (*8080*) Del (T 80);
  (*8081*) AddTo (T 206) (Times (Einsum [(T 81,[0;1;2;3])] [0;2;1;3]) (-3) 1);
  (*8082*) Del (T 81);
  (*8083*) AddTo n_rdm2_f_abab_vovv (Times (Einsum [(n_t2'abab,[0;1;2;3]); (T 206,[0;4;2;5])] [4;1;5;3]) (-2) 1);
  (*8084*) Assign (T 207) (Plain (Zeros [4;4;5;5]));
  (*8085*) AddTo (T 207) (Times (Einsum [(T 206,[0;1;2;3]); (n_t3'aaaaaa,[4;5;0;6;1;2])] [4;5;3;6]) (-6) 1);
  (*8086*) Assign (T 208) (Plain (Zeros [5;5]));
  (*8087*) AddTo (T 208) (Plain (Einsum [(n_l2'abab,[0;1;2;3]); (n_t2'abab,[2;3;4;1])] [0;4]));
  (*8088*) Assign (T 209) (Plain (Zeros [5;5]));
  (*8089*) AddTo (T 209) (Plain (Einsum [(n_l2'aaaa,[0;1;2;3]); (n_t2'aaaa,[2;3;4;1])] [0;4]));
  (*8090*) Assign (T 210) (Plain (Zeros [5;5]));
  (*8091*) AddTo (T 210) (Plain (Einsum [(n_l3'babbab,[0;1;2;3;4;5]); (n_t3'babbab,[3;4;5;0;6;2])] [1;6]));
  (*8092*) Assign (T 211) (Plain (Zeros [5;5]));
  (*8093*) AddTo (T 211) (Plain (Einsum [(n_l3'abaaba,[0;1;2;3;4;5]); (n_t3'abaaba,[3;4;5;6;1;2])] [0;6]));
  (*8094*) Assign (T 212) (Plain (Zeros [5;5]));
  (*8095*) AddTo (T 212) (Plain (Einsum [(n_l3'aaaaaa,[0;1;2;3;4;5]); (n_t3'aaaaaa,[3;4;5;6;1;2])] [0;6]));
  (*8096*) Assign (T 213) (Plain (Zeros [5;5]));
  (*8097*) AddTo (T 213) (Plain (Einsum [(T 208,[0;1])] [0;1]));
  (*8098*) AddTo (T 213) (Times (Einsum [(T 209,[0;1])] [0;1]) (2) 1);
  (*8099*) AddTo (T 213) (Times (Einsum [(T 210,[0;1])] [0;1]) (9999999999999597) 10000000000000000);
  (*8100*) AddTo (T 213) (Times (Einsum [(T 211,[0;1])] [0;1]) (1999999999999919) 1000000000000000);
  (*8101*) AddTo (T 213) (Times (Einsum [(T 212,[0;1])] [0;1]) (2999999999999883) 1000000000000000);
  (*8102*) Assign (T 214) (Plain (Zeros [4;4;5;5]));
  (*8103*) AddTo (T 214) (Times (Einsum [(T 213,[0;1]); (n_t2'aaaa,[2;3;4;0])] [2;3;1;4]) (-2) 1);
  (*8104*) Del (T 213);
  (*8105*) Assign (T 215) (Plain (Zeros [4;4;4;5]));
  (*8106*) AddTo (T 215) (Plain (Einsum [(n_t2'aaaa,[0;1;2;3]); (T 206,[4;2;3;5])] [4;0;1;5]));
  (*8107*) Assign (T 216) (Plain (Zeros [4;4;4;5]));
  (*8108*) AddTo (T 216) (Plain (Einsum [(T 51,[0;1;2;3])] [0;2;1;3]));
  (*8109*) Del (T 51);
  (*8110*) AddTo (T 216) (Plain (Einsum [(T 50,[0;1;2;3])] [0;2;1;3]));
  (*8111*) Del (T 50);
  (*8112*) AddTo (T 216) (Times (Einsum [(T 49,[0;1;2;3])] [0;2;1;3]) (3) 1);
  (*8113*) Del (T 49);
  (*8114*) AddTo (T 216) (Plain (Einsum [(T 54,[0;1;2;3])] [0;2;1;3]));
  (*8115*) Del (T 54);
  (*8116*) AddTo (T 216) (Times (Einsum [(T 48,[0;1;2;3])] [0;2;1;3]) (3) 1);
  (*8117*) Del (T 48);
  (*8118*) AddTo (T 216) (Plain (Einsum [(T 215,[0;1;2;3])] [0;2;1;3]));
  (*8119*) Del (T 215);
  (*8120*) Assign (T 217) (Plain (Zeros [4;4;5;5]));
  (*8121*) AddTo (T 217) (Times (Einsum [(n_t1'aa,[0;1]); (T 216,[0;2;3;4])] [2;3;4;1]) (2) 1);
  (*8122*) Del (T 216);
  (*8123*) Assign (T 218) (Plain (Zeros [4;4;5;5]));
  (*8124*) AddTo (T 218) (Times (Einsum [(T 204,[0;1;2;3])] [0;1;2;3]) (8) 1);
  (*8125*) Del (T 204);
  (*8126*) AddTo (T 218) (Plain (Einsum [(T 205,[0;1;2;3])] [1;0;2;3]));
  (*8127*) Del (T 205);
  (*8128*) AddTo (T 218) (Plain (Einsum [(T 207,[0;1;2;3])] [0;1;2;3]));
  (*8129*) Del (T 207);
  (*8130*) AddTo (T 218) (Times (Einsum [(T 214,[0;1;2;3])] [1;0;3;2]) (-1) 1);
  (*8131*) Del (T 214);
  (*8132*) AddTo (T 218) (Plain (Einsum [(T 217,[0;1;2;3])] [1;0;3;2]));
  (*8133*) Del (T 217);
  (*8134*) AddTo n_rdm2_f_aaaa_oovv (Plain (Einsum [(T 218,[0;1;2;3])] [0;1;2;3]));
  (*8135*) AddTo n_rdm2_f_aaaa_oovv (Times (Einsum [(T 218,[0;1;2;3])] [0;1;3;2]) (-1) 1);
  (*8136*) Del (T 218);
  (*8137*) Assign (T 219) (Plain (Zeros [6;7;4;5]));
  (*8138*) AddTo (T 219) (Plain (Einsum [(n_l2'bbbb,[0;1;2;3]); (n_t2'abab,[4;3;5;1])] [2;0;4;5]));
  (*8139*) AddTo n_rdm2_f_abab_ovvo (Times (Einsum [(T 219,[0;1;2;3])] [2;1;3;0]) (2) 1);
  (*8140*) Assign (T 220) (Plain (Zeros [4;4;5;5]));
  (*8141*) AddTo (T 220) (Plain (Einsum [(n_t2'abab,[0;1;2;3]); (T 219,[1;3;4;5])] [4;0;5;2]));
  (*8142*) Assign (T 221) (Plain (Zeros [4;4;5;5]));
  (*8143*) AddTo (T 221) (Plain (Einsum [(n_t1'aa,[0;1]); (n_t1'aa,[2;3])] [0;2;1;3]));
  (*8144*) AddTo (T 221) (Times (Einsum [(T 220,[0;1;2;3])] [1;0;3;2]) (2) 1);
  (*8145*) Del (T 220);
  (*8146*) AddTo n_rdm2_f_aaaa_oovv (Times (Einsum [(T 221,[0;1;2;3])] [0;1;3;2]) (-1) 1);
  (*8147*) AddTo n_rdm2_f_aaaa_oovv (Plain (Einsum [(T 221,[0;1;2;3])] [0;1;2;3]));
  (*8148*) Del (T 221);
  (*8149*) Assign (T 222) (Plain (Zeros [4;4;5;5]));
  (*8150*) AddTo (T 222) (Plain (Einsum [(T 21,[0;1;2;3]); (n_t3'abaaba,[4;0;2;5;1;6])] [3;4;5;6]));
  (*8151*) Assign (T 223) (Plain (Zeros [4;4;5;5]));
  (*8152*) AddTo (T 223) (Plain (Einsum [(T 14,[0;1;2;3]); (n_t3'aaaaaa,[4;0;1;5;6;3])] [2;4;5;6]));
  (*8153*) Assign (T 224) (Plain (Zeros [4;4]));
  (*8154*) AddTo (T 224) (Plain (Einsum [(T 8,[0;1])] [0;1]));
  (*8155*) AddTo (T 224) (Times (Einsum [(T 10,[0;1])] [0;1]) (750000000000001) 250000000000000);
  (*8156*) Assign (T 225) (Plain (Zeros [4;4;5;5]));
  (*8157*) AddTo (T 225) (Times (Einsum [(T 224,[0;1]); (n_t2'aaaa,[2;0;3;4])] [1;2;3;4]) (-9999999999999597) 5000000000000000);
  (*8158*) Del (T 224);
  (*8159*) Assign (T 226) (Plain (Zeros [4;4;5;5]));
  (*8160*) AddTo (T 226) (Times (Einsum [(T 222,[0;1;2;3])] [0;1;3;2]) (-4) 1);
  (*8161*) Del (T 222);
  (*8162*) AddTo (T 226) (Times (Einsum [(T 223,[0;1;2;3])] [0;1;2;3]) (-18) 1);
  (*8163*) Del (T 223);
  (*8164*) AddTo (T 226) (Times (Einsum [(T 225,[0;1;2;3])] [1;0;3;2]) (-1) 1);
  (*8165*) Del (T 225);
  (*8166*) AddTo n_rdm2_f_aaaa_oovv (Times (Einsum [(T 226,[0;1;2;3])] [0;1;3;2]) (-1) 1);
  (*8167*) AddTo n_rdm2_f_aaaa_oovv (Plain (Einsum [(T 226,[0;1;2;3])] [1;0;3;2]));
  (*8168*) Del (T 226);
  (*8169*) Assign (T 227) (Plain (Zeros [6;7;4;4;4;4]));
  (*8170*) AddTo (T 227) (Plain (Einsum [(n_t2'aaaa,[0;1;2;3]); (n_l3'abaaba,[2;4;3;5;6;7])] [6;4;5;7;0;1]));
  (*8171*) AddTo (T 227) (Times (Einsum [(T 53,[0;1;2;3;4;5])] [0;1;3;2;5;4]) (5000000000000303) 5000000000000000);
  (*8172*) Del (T 53);
  (*8173*) AddTo n_rdm2_f_aaaa_oovv (Times (Einsum [(n_t3'abaaba,[0;1;2;3;4;5]); (T 227,[1;4;0;2;6;7])] [6;7;3;5]) (9999999999999597) 5000000000000000);
  (*8174*) Del (T 227);
  (*8175*) Assign (T 228) (Plain (Zeros [4;4;4;4;4;5]));
  (*8176*) AddTo (T 228) (Plain (Einsum [(n_t2'aaaa,[0;1;2;3]); (n_l3'aaaaaa,[4;2;3;5;6;7])] [5;6;7;0;1;4]));
  (*8177*) AddTo (T 228) (Times (Einsum [(T 47,[0;1;2;3;4;5])] [0;1;2;4;3;5]) (-1250000000000073) 1250000000000000);
  (*8178*) Del (T 47);
  (*8179*) AddTo n_rdm2_f_aaaa_oovv (Times (Einsum [(n_t3'aaaaaa,[0;1;2;3;4;5]); (T 228,[0;1;2;6;7;5])] [6;7;3;4]) (2999999999999883) 500000000000000);
  (*8180*) Del (T 228);
  (*8181*) Assign (T 229) (Plain (Zeros [4;4;4;4]));
  (*8182*) AddTo (T 229) (Times (Einsum [(T 1,[0;1;2;3])] [1;0;3;2]) (-2500000000000101) 2500000000000000);
  (*8183*) AddTo (T 229) (Times (Einsum [(T 3,[0;1;2;3])] [0;1;3;2]) (2500000000000101) 2500000000000000);
  (*8184*) AddTo (T 229) (Plain (Einsum [(T 4,[0;1;2;3])] [0;1;3;2]));
  (*8185*) AddTo (T 229) (Times (Einsum [(T 5,[0;1;2;3])] [0;1;3;2]) (750000000000001) 250000000000000);
  (*8186*) AddTo n_rdm2_f_aaaa_oovv (Times (Einsum [(n_t2'aaaa,[0;1;2;3]); (T 229,[0;1;4;5])] [5;4;2;3]) (9999999999999597) 5000000000000000);
  (*8187*) Del (T 229);
  (*8188*) Assign (T 230) (Plain (Zeros [4;4;4;4]));
  (*8189*) AddTo (T 230) (Times (Einsum [(T 1,[0;1;2;3])] [1;0;3;2]) (-9999999999999799) 10000000000000000);
  (*8190*) Del (T 1);
  (*8191*) AddTo (T 230) (Times (Einsum [(T 3,[0;1;2;3])] [0;1;3;2]) (9999999999999799) 10000000000000000);
  (*8192*) Del (T 3);
  (*8193*) AddTo (T 230) (Plain (Einsum [(T 4,[0;1;2;3])] [0;1;3;2]));
  (*8194*) Del (T 4);
  (*8195*) AddTo (T 230) (Times (Einsum [(T 5,[0;1;2;3])] [0;1;3;2]) (1499999999999999) 500000000000000);
  (*8196*) Del (T 5);
  (*8197*) Assign (T 231) (Plain (Zeros [4;4;4;5]));
  (*8198*) AddTo (T 231) (Times (Einsum [(n_t1'aa,[0;1]); (T 230,[0;2;3;4])] [2;4;3;1]) (-416666666666667) 1250000000000000);
  (*8199*) Del (T 230);
  (*8200*) AddTo n_rdm2_f_aaaa_oovv (Times (Einsum [(n_t1'aa,[0;1]); (T 231,[0;2;3;4])] [2;3;4;1]) (-1500000000000029) 250000000000000);
  (*8201*) Del (T 231);
  (*8202*) Assign (T 232) (Plain (Zeros [6;6;4;4;4;5]));
  (*8203*) AddTo (T 232) (Plain (Einsum [(n_t2'abab,[0;1;2;3]); (n_l3'abaaba,[4;3;2;5;6;7])] [6;1;5;7;0;4]));
  (*8204*) AddTo (T 232) (Times (Einsum [(T 89,[0;1;2;3;4;5])] [0;1;3;2;4;5]) (-5000000000000303) 5000000000000000);
  (*8205*) Del (T 89);
  (*8206*) AddTo n_rdm2_f_abab_oovv (Times (Einsum [(n_t3'abaaba,[0;1;2;3;4;5]); (T 232,[1;6;0;2;7;5])] [7;6;3;4]) (-9999999999999597) 5000000000000000);
  (*8207*) Del (T 232);
  (*8208*) Assign (T 233) (Plain (Zeros [6;6;6;7;4;4]));
  (*8209*) AddTo (T 233) (Plain (Einsum [(n_t2'abab,[0;1;2;3]); (n_l3'babbab,[4;2;3;5;6;7])] [5;7;1;4;6;0]));
  (*8210*) AddTo (T 233) (Times (Einsum [(T 94,[0;1;2;3;4;5])] [0;1;2;3;4;5]) (5000000000000303) 5000000000000000);
  (*8211*) Del (T 94);
  (*8212*) AddTo n_rdm2_f_abab_oovv (Times (Einsum [(n_t3'babbab,[0;1;2;3;4;5]); (T 233,[0;2;6;5;1;7])] [7;6;4;3]) (-9999999999999597) 5000000000000000);
  (*8213*) Del (T 233);
  (*8214*) Assign (T 234) (Plain (Zeros [6;7;4;4;5;5]));
  (*8215*) AddTo (T 234) (Plain (Einsum [(n_t3'abaaba,[0;1;2;3;4;5])] [1;4;0;2;3;5]));
  (*8216*) AddTo (T 234) (Times (Einsum [(n_t1'aa,[0;1]); (n_t2'abab,[2;3;4;5])] [3;5;0;2;4;1]) (-1) 2);
  (*8217*) AddTo n_rdm2_f_abab_oovv (Times (Einsum [(T 102,[0;1;2;3]); (T 234,[4;0;2;5;3;6])] [5;4;6;1]) (-4) 1);
  (*8218*) Del (T 234);
  (*8219*) Assign (T 235) (Plain (Zeros [6;6;7;7;4;5]));
  (*8220*) AddTo (T 235) (Plain (Einsum [(n_t3'babbab,[0;1;2;3;4;5])] [0;2;3;5;1;4]));
  (*8221*) AddTo (T 235) (Times (Einsum [(n_t1'bb,[0;1]); (n_t2'abab,[2;3;4;5])] [0;3;5;1;2;4]) (-1) 2);
  (*8222*) AddTo n_rdm2_f_abab_oovv (Times (Einsum [(T 164,[0;1;2;3]); (T 235,[0;4;1;5;6;2])] [6;4;3;5]) (-4) 1);
  (*8223*) Del (T 164);
  (*8223*) Del (T 235);
  (*8224*) Assign (T 236) (Plain (Zeros [6;6;4;5]));
  (*8225*) AddTo (T 236) (Plain (Einsum [(T 104,[0;1;2;3])] [0;1;2;3]));
  (*8226*) AddTo (T 236) (Times (Einsum [(T 24,[0;1;2;3])] [0;1;2;3]) (2) 1);
  (*8227*) AddTo (T 236) (Times (Einsum [(T 25,[0;1;2;3])] [0;1;2;3]) (2) 1);
  (*8228*) Del (T 25);
  (*8229*) AddTo n_rdm2_f_abab_oovv (Times (Einsum [(T 236,[0;1;2;3]); (n_t3'abaaba,[4;0;2;5;6;3])] [4;1;5;6]) (-2) 1);
  (*8230*) AddTo n_rdm2_f_abab_vovv (Times (Einsum [(n_t2'abab,[0;1;2;3]); (T 236,[1;4;0;5])] [5;4;2;3]) (-1) 1);
  (*8231*) Assign (T 237) (Plain (Zeros [6;7;4;5]));
  (*8232*) AddTo (T 237) (Plain (Einsum [(n_l2'abab,[0;1;2;3]); (n_t2'bbbb,[4;3;5;1])] [4;5;2;0]));
  (*8233*) AddTo n_rdm2_f_abab_voov (Times (Einsum [(T 237,[0;1;2;3])] [3;0;2;1]) (2) 1);
  (*8234*) Assign (T 238) (Plain (Zeros [6;7;4;5]));
  (*8235*) AddTo (T 238) (Plain (Einsum [(n_l2'aaaa,[0;1;2;3]); (n_t2'abab,[3;4;1;5])] [4;5;2;0]));
  (*8236*) AddTo n_rdm2_f_abab_voov (Times (Einsum [(T 238,[0;1;2;3])] [3;0;2;1]) (2) 1);
  (*8237*) Assign (T 239) (Plain (Zeros [6;7;4;5]));
  (*8238*) AddTo (T 239) (Plain (Einsum [(n_l3'babbab,[0;1;2;3;4;5]); (n_t3'bbbbbb,[6;3;5;7;0;2])] [6;7;4;1]));
  (*8239*) AddTo n_rdm2_f_abab_voov (Times (Einsum [(T 239,[0;1;2;3])] [3;0;2;1]) (3) 1);
  (*8240*) Assign (T 240) (Plain (Zeros [6;7;4;5]));
  (*8241*) AddTo (T 240) (Times (Einsum [(n_t2'bbbb,[0;1;2;3]); (T 91,[0;1;4;3;5;6])] [4;2;5;6]) (-1) 1);
  (*8242*) AddTo n_rdm2_f_abab_voov (Times (Einsum [(T 240,[0;1;2;3])] [3;0;2;1]) (-2) 1);
  (*8243*) Assign (T 241) (Plain (Zeros [6;7;4;5]));
  (*8244*) AddTo (T 241) (Plain (Einsum [(n_l3'abaaba,[0;1;2;3;4;5]); (n_t3'babbab,[6;5;4;7;2;1])] [6;7;3;0]));
  (*8245*) AddTo n_rdm2_f_abab_voov (Times (Einsum [(T 241,[0;1;2;3])] [3;0;2;1]) (4) 1);
  (*8246*) Assign (T 242) (Plain (Zeros [6;7;4;5]));
  (*8247*) AddTo (T 242) (Plain (Einsum [(n_t2'abab,[0;1;2;3]); (T 86,[1;4;5;0;6;2])] [4;3;5;6]));
  (*8248*) AddTo n_rdm2_f_abab_voov (Times (Einsum [(T 242,[0;1;2;3])] [3;0;2;1]) (-2) 1);
  (*8249*) Assign (T 243) (Plain (Zeros [6;7;4;5]));
  (*8250*) AddTo (T 243) (Plain (Einsum [(n_l3'aaaaaa,[0;1;2;3;4;5]); (n_t3'abaaba,[4;6;5;1;7;2])] [6;7;3;0]));
  (*8251*) AddTo n_rdm2_f_abab_voov (Times (Einsum [(T 243,[0;1;2;3])] [3;0;2;1]) (3) 1);
  (*8252*) Assign (T 244) (Plain (Zeros [6;7;4;5]));
  (*8253*) AddTo (T 244) (Times (Einsum [(T 237,[0;1;2;3])] [0;1;2;3]) (3333333333333333) 5000000000000000);
  (*8254*) AddTo (T 244) (Times (Einsum [(T 238,[0;1;2;3])] [0;1;2;3]) (3333333333333333) 5000000000000000);
  (*8255*) AddTo (T 244) (Plain (Einsum [(T 239,[0;1;2;3])] [0;1;2;3]));
  (*8256*) AddTo (T 244) (Times (Einsum [(T 240,[0;1;2;3])] [0;1;2;3]) (-3333333333333333) 5000000000000000);
  (*8257*) AddTo (T 244) (Times (Einsum [(T 241,[0;1;2;3])] [0;1;2;3]) (13333333333333333) 10000000000000000);
  (*8258*) AddTo (T 244) (Times (Einsum [(T 242,[0;1;2;3])] [0;1;2;3]) (-3333333333333333) 5000000000000000);
  (*8259*) AddTo (T 244) (Plain (Einsum [(T 243,[0;1;2;3])] [0;1;2;3]));
  (*8260*) AddTo (T 244) (Times (Einsum [(n_t1'bb,[0;1]); (T 26,[0;2;3;4])] [2;1;3;4]) (-3333333333333333) 5000000000000000);
  (*8261*) AddTo n_rdm2_f_abab_oovv (Times (Einsum [(n_t2'aaaa,[0;1;2;3]); (T 244,[4;5;1;3])] [0;4;2;5]) (6) 1);
  (*8262*) Del (T 244);
  (*8263*) Assign (T 245) (Plain (Zeros [6;6;7;7]));
  (*8264*) AddTo (T 245) (Plain (Einsum [(n_l2'bbbb,[0;1;2;3]); (n_t2'bbbb,[4;3;5;1])] [2;4;0;5]));
  (*8265*) AddTo n_rdm2_f_bbbb_ovov (Times (Einsum [(T 245,[0;1;2;3])] [1;2;0;3]) (-4) 1);
  (*8266*) AddTo n_rdm2_f_bbbb_ovvo (Times (Einsum [(T 245,[0;1;2;3])] [1;2;3;0]) (4) 1);
  (*8267*) AddTo n_rdm2_f_bbbb_voov (Times (Einsum [(T 245,[0;1;2;3])] [2;1;0;3]) (4) 1);
  (*8268*) AddTo n_rdm2_f_bbbb_vovo (Times (Einsum [(T 245,[0;1;2;3])] [2;1;3;0]) (-4) 1);
  (*8269*) Assign (T 246) (Plain (Zeros [6;6;7;7]));
  (*8270*) AddTo (T 246) (Plain (Einsum [(n_l2'abab,[0;1;2;3]); (n_t2'abab,[2;4;0;5])] [3;4;1;5]));
  (*8271*) AddTo n_rdm2_f_bbbb_ovov (Times (Einsum [(T 246,[0;1;2;3])] [1;2;0;3]) (-1) 1);
  (*8272*) AddTo n_rdm2_f_bbbb_ovvo (Plain (Einsum [(T 246,[0;1;2;3])] [1;2;3;0]));
  (*8273*) AddTo n_rdm2_f_bbbb_voov (Plain (Einsum [(T 246,[0;1;2;3])] [2;1;0;3]));
  (*8274*) AddTo n_rdm2_f_bbbb_vovo (Times (Einsum [(T 246,[0;1;2;3])] [2;1;3;0]) (-1) 1);
  (*8275*) Assign (T 247) (Plain (Zeros [6;6;7;7]));
  (*8276*) AddTo (T 247) (Plain (Einsum [(n_l3'bbbbbb,[0;1;2;3;4;5]); (n_t3'bbbbbb,[6;4;5;7;1;2])] [3;6;0;7]));
  (*8277*) AddTo n_rdm2_f_bbbb_ovov (Times (Einsum [(T 247,[0;1;2;3])] [1;2;0;3]) (-9) 1);
  (*8278*) AddTo n_rdm2_f_bbbb_ovvo (Times (Einsum [(T 247,[0;1;2;3])] [1;2;3;0]) (9) 1);
  (*8279*) AddTo n_rdm2_f_bbbb_voov (Times (Einsum [(T 247,[0;1;2;3])] [2;1;0;3]) (9) 1);
  (*8280*) AddTo n_rdm2_f_bbbb_vovo (Times (Einsum [(T 247,[0;1;2;3])] [2;1;3;0]) (-9) 1);
  (*8281*) Assign (T 248) (Plain (Zeros [6;6;7;7]));
  (*8282*) AddTo (T 248) (Plain (Einsum [(n_t2'bbbb,[0;1;2;3]); (T 115,[4;1;0;5;6;3])] [4;5;6;2]));
  (*8283*) AddTo n_rdm2_f_bbbb_ovov (Times (Einsum [(T 248,[0;1;2;3])] [1;2;0;3]) (6) 1);
  (*8284*) AddTo n_rdm2_f_bbbb_ovvo (Times (Einsum [(T 248,[0;1;2;3])] [1;2;3;0]) (-6) 1);
  (*8285*) AddTo n_rdm2_f_bbbb_voov (Times (Einsum [(T 248,[0;1;2;3])] [2;1;0;3]) (-6) 1);
  (*8286*) AddTo n_rdm2_f_bbbb_vovo (Times (Einsum [(T 248,[0;1;2;3])] [2;1;3;0]) (6) 1);
  (*8287*) Assign (T 249) (Plain (Zeros [6;6;7;7]));
  (*8288*) AddTo (T 249) (Plain (Einsum [(n_l3'babbab,[0;1;2;3;4;5]); (n_t3'babbab,[6;4;5;7;1;2])] [3;6;0;7]));
  (*8289*) AddTo n_rdm2_f_bbbb_ovov (Times (Einsum [(T 249,[0;1;2;3])] [1;2;0;3]) (-4) 1);
  (*8290*) AddTo n_rdm2_f_bbbb_ovvo (Times (Einsum [(T 249,[0;1;2;3])] [1;2;3;0]) (4) 1);
  (*8291*) AddTo n_rdm2_f_bbbb_voov (Times (Einsum [(T 249,[0;1;2;3])] [2;1;0;3]) (4) 1);
  (*8292*) AddTo n_rdm2_f_bbbb_vovo (Times (Einsum [(T 249,[0;1;2;3])] [2;1;3;0]) (-4) 1);
  (*8293*) Assign (T 250) (Plain (Zeros [6;6;7;7]));
  (*8294*) AddTo (T 250) (Plain (Einsum [(n_t2'abab,[0;1;2;3]); (T 91,[4;1;5;6;0;2])] [4;5;6;3]));
  (*8295*) AddTo n_rdm2_f_bbbb_ovov (Times (Einsum [(T 250,[0;1;2;3])] [1;2;0;3]) (2) 1);
  (*8296*) AddTo n_rdm2_f_bbbb_ovvo (Times (Einsum [(T 250,[0;1;2;3])] [1;2;3;0]) (-2) 1);
  (*8297*) AddTo n_rdm2_f_bbbb_voov (Times (Einsum [(T 250,[0;1;2;3])] [2;1;0;3]) (-2) 1);
  (*8298*) AddTo n_rdm2_f_bbbb_vovo (Times (Einsum [(T 250,[0;1;2;3])] [2;1;3;0]) (2) 1);
  (*8299*) Assign (T 251) (Plain (Zeros [6;6;7;7]));
  (*8300*) AddTo (T 251) (Plain (Einsum [(n_l3'abaaba,[0;1;2;3;4;5]); (n_t3'abaaba,[3;6;5;0;7;2])] [4;6;1;7]));
  (*8301*) AddTo n_rdm2_f_bbbb_ovov (Times (Einsum [(T 251,[0;1;2;3])] [1;2;0;3]) (-1) 1);
  (*8302*) AddTo n_rdm2_f_bbbb_ovvo (Plain (Einsum [(T 251,[0;1;2;3])] [1;2;3;0]));
  (*8303*) AddTo n_rdm2_f_bbbb_voov (Plain (Einsum [(T 251,[0;1;2;3])] [2;1;0;3]));
  (*8304*) AddTo n_rdm2_f_bbbb_vovo (Times (Einsum [(T 251,[0;1;2;3])] [2;1;3;0]) (-1) 1);
  (*8305*) Assign (T 252) (Plain (Zeros [6;6;7;7]));
  (*8306*) AddTo (T 252) (Times (Einsum [(T 245,[0;1;2;3])] [0;1;2;3]) (4) 1);
  (*8307*) AddTo (T 252) (Plain (Einsum [(T 246,[0;1;2;3])] [0;1;2;3]));
  (*8308*) AddTo (T 252) (Times (Einsum [(T 247,[0;1;2;3])] [0;1;2;3]) (9) 1);
  (*8309*) AddTo (T 252) (Times (Einsum [(T 248,[0;1;2;3])] [0;1;2;3]) (-6) 1);
  (*8310*) AddTo (T 252) (Times (Einsum [(T 249,[0;1;2;3])] [0;1;2;3]) (4) 1);
  (*8311*) AddTo (T 252) (Times (Einsum [(T 250,[0;1;2;3])] [0;1;2;3]) (-2) 1);
  (*8312*) AddTo (T 252) (Plain (Einsum [(T 251,[0;1;2;3])] [0;1;2;3]));
  (*8313*) AddTo (T 252) (Times (Einsum [(n_t1'bb,[0;1]); (T 43,[2;0;3;4])] [2;3;4;1]) (-6) 1);
  (*8314*) AddTo n_rdm2_f_abab_oovv (Plain (Einsum [(n_t2'abab,[0;1;2;3]); (T 252,[1;4;3;5])] [0;4;2;5]));
  (*8315*) Del (T 252);
  (*8316*) Assign (T 253) (Plain (Zeros [4;4;5;5]));
  (*8317*) AddTo (T 253) (Times (Einsum [(T 174,[0;1;2;3])] [0;1;2;3]) (-1) 2);
  (*8318*) AddTo (T 253) (Times (Einsum [(T 175,[0;1;2;3])] [0;1;2;3]) (-2) 1);
  (*8319*) AddTo (T 253) (Plain (Einsum [(T 179,[0;1;2;3])] [0;1;2;3]));
  (*8320*) AddTo (T 253) (Times (Einsum [(T 176,[0;1;2;3])] [0;1;2;3]) (-9) 2);
  (*8321*) AddTo (T 253) (Times (Einsum [(T 180,[0;1;2;3])] [0;1;2;3]) (3) 1);
  (*8322*) AddTo (T 253) (Plain (Einsum [(T 181,[0;1;2;3])] [0;1;3;2]));
  (*8323*) Del (T 181);
  (*8324*) AddTo n_rdm2_f_abab_oovv (Times (Einsum [(n_t2'abab,[0;1;2;3]); (T 253,[0;4;2;5])] [4;1;5;3]) (-2) 1);
  (*8325*) Del (T 253);
  (*8326*) Assign (T 254) (Plain (Zeros [6;7;4;4]));
  (*8327*) AddTo (T 254) (Plain (Einsum [(T 21,[0;1;2;3])] [0;1;2;3]));
  (*8328*) Del (T 21);
  (*8329*) AddTo (T 254) (Plain (Einsum [(T 22,[0;1;2;3])] [0;1;2;3]));
  (*8330*) Del (T 22);
  (*8331*) Assign (T 255) (Plain (Zeros [6;7;4;5]));
  (*8332*) AddTo (T 255) (Times (Einsum [(T 169,[0;1;2;3])] [0;1;2;3]) (-3) 2);
  (*8333*) AddTo (T 255) (Times (Einsum [(T 170,[0;1;2;3])] [0;1;2;3]) (-2) 1);
  (*8334*) AddTo (T 255) (Plain (Einsum [(T 166,[0;1;2;3])] [0;1;2;3]));
  (*8335*) AddTo (T 255) (Times (Einsum [(T 171,[0;1;2;3])] [0;1;2;3]) (-3) 2);
  (*8336*) AddTo (T 255) (Plain (Einsum [(T 184,[0;1;2;3])] [0;1;2;3]));
  (*8337*) AddTo (T 255) (Plain (Einsum [(n_t1'aa,[0;1]); (T 254,[2;3;0;4])] [2;3;4;1]));
  (*8338*) AddTo n_rdm2_f_abab_oovv (Times (Einsum [(n_t2'bbbb,[0;1;2;3]); (T 255,[1;3;4;5])] [4;0;5;2]) (-4) 1);
  (*8339*) Del (T 255);
  (*8340*) Assign (T 256) (Plain (Zeros [6;6;5;5]));
  (*8341*) AddTo (T 256) (Plain (Einsum [(n_l2'abab,[0;1;2;3]); (n_t2'abab,[2;4;5;1])] [3;4;0;5]));
  (*8342*) AddTo n_rdm2_f_abab_vovo (Times (Einsum [(T 256,[0;1;2;3])] [2;1;3;0]) (-1) 1);
  (*8343*) Assign (T 257) (Plain (Zeros [6;6;5;5]));
  (*8344*) AddTo (T 257) (Plain (Einsum [(n_l3'babbab,[0;1;2;3;4;5]); (n_t3'babbab,[6;4;5;0;7;2])] [3;6;1;7]));
  (*8345*) AddTo n_rdm2_f_abab_vovo (Times (Einsum [(T 257,[0;1;2;3])] [2;1;3;0]) (-2) 1);
  (*8346*) Assign (T 258) (Plain (Zeros [6;6;5;5]));
  (*8347*) AddTo (T 258) (Times (Einsum [(n_t2'abab,[0;1;2;3]); (T 91,[4;1;5;3;0;6])] [4;5;6;2]) (-1) 1);
  (*8348*) AddTo n_rdm2_f_abab_vovo (Times (Einsum [(T 258,[0;1;2;3])] [2;1;3;0]) (-2) 1);
  (*8349*) Assign (T 259) (Plain (Zeros [6;6;5;5]));
  (*8350*) AddTo (T 259) (Plain (Einsum [(n_l3'abaaba,[0;1;2;3;4;5]); (n_t3'abaaba,[3;6;5;7;1;2])] [4;6;0;7]));
  (*8351*) AddTo n_rdm2_f_abab_vovo (Times (Einsum [(T 259,[0;1;2;3])] [2;1;3;0]) (-2) 1);
  (*8352*) Assign (T 260) (Plain (Zeros [6;6;5;5]));
  (*8353*) AddTo (T 260) (Plain (Einsum [(n_t2'aaaa,[0;1;2;3]); (T 86,[4;5;0;1;6;3])] [4;5;6;2]));
  (*8354*) Del (T 86);
  (*8355*) AddTo n_rdm2_f_abab_vovo (Times (Einsum [(T 260,[0;1;2;3])] [2;1;3;0]) (-2) 1);
  (*8356*) Assign (T 261) (Plain (Zeros [6;6;5;5]));
  (*8357*) AddTo (T 261) (Plain (Einsum [(T 256,[0;1;2;3])] [0;1;2;3]));
  (*8358*) AddTo (T 261) (Times (Einsum [(T 257,[0;1;2;3])] [0;1;2;3]) (2) 1);
  (*8359*) AddTo (T 261) (Times (Einsum [(T 258,[0;1;2;3])] [0;1;2;3]) (2) 1);
  (*8360*) AddTo (T 261) (Times (Einsum [(T 259,[0;1;2;3])] [0;1;2;3]) (2) 1);
  (*8361*) AddTo (T 261) (Times (Einsum [(T 260,[0;1;2;3])] [0;1;2;3]) (2) 1);
  (*8362*) AddTo (T 261) (Times (Einsum [(n_t1'aa,[0;1]); (T 26,[2;3;0;4])] [2;3;4;1]) (2) 1);
  (*8363*) AddTo n_rdm2_f_abab_oovv (Plain (Einsum [(n_t2'abab,[0;1;2;3]); (T 261,[1;4;2;5])] [0;4;5;3]));
  (*8364*) Del (T 261);
  (*8365*) Assign (T 262) (Plain (Zeros [7;7;4;4]));
  (*8366*) AddTo (T 262) (Plain (Einsum [(n_l3'babbab,[0;1;2;3;4;5]); (n_t3'babbab,[3;6;5;7;1;2])] [0;7;4;6]));
  (*8367*) AddTo n_rdm2_f_abab_ovov (Times (Einsum [(T 262,[0;1;2;3])] [3;0;2;1]) (-2) 1);
  (*8368*) Assign (T 263) (Plain (Zeros [7;7;4;4]));
  (*8369*) AddTo (T 263) (Plain (Einsum [(n_t2'bbbb,[0;1;2;3]); (T 60,[0;1;4;3;5;6])] [4;2;5;6]));
  (*8370*) Del (T 60);
  (*8371*) AddTo n_rdm2_f_abab_ovov (Times (Einsum [(T 263,[0;1;2;3])] [3;0;2;1]) (-2) 1);
  (*8372*) Assign (T 264) (Plain (Zeros [7;7;4;4]));
  (*8373*) AddTo (T 264) (Plain (Einsum [(n_l3'abaaba,[0;1;2;3;4;5]); (n_t3'abaaba,[6;4;5;0;7;2])] [1;7;3;6]));
  (*8374*) AddTo n_rdm2_f_abab_ovov (Times (Einsum [(T 264,[0;1;2;3])] [3;0;2;1]) (-2) 1);
  (*8375*) Assign (T 265) (Plain (Zeros [7;7;4;4]));
  (*8376*) AddTo (T 265) (Times (Einsum [(n_t2'abab,[0;1;2;3]); (T 52,[1;4;5;0;6;2])] [4;3;5;6]) (-1) 1);
  (*8377*) AddTo n_rdm2_f_abab_ovov (Times (Einsum [(T 265,[0;1;2;3])] [3;0;2;1]) (-2) 1);
  (*8378*) Assign (T 266) (Plain (Zeros [7;7;4;4]));
  (*8379*) AddTo (T 266) (Plain (Einsum [(T 262,[0;1;2;3])] [0;1;2;3]));
  (*8380*) AddTo (T 266) (Plain (Einsum [(T 263,[0;1;2;3])] [0;1;2;3]));
  (*8381*) AddTo (T 266) (Plain (Einsum [(T 264,[0;1;2;3])] [0;1;2;3]));
  (*8382*) AddTo (T 266) (Plain (Einsum [(T 265,[0;1;2;3])] [0;1;2;3]));
  (*8383*) AddTo (T 266) (Plain (Einsum [(n_t1'bb,[0;1]); (T 254,[0;2;3;4])] [2;1;3;4]));
  (*8384*) Del (T 254);
  (*8385*) AddTo n_rdm2_f_abab_oovv (Times (Einsum [(n_t2'abab,[0;1;2;3]); (T 266,[3;4;0;5])] [5;1;2;4]) (2) 1);
  (*8386*) Del (T 266);
  (*8387*) Assign (T 267) (Plain (Zeros [6;6;4;4]));
  (*8388*) AddTo (T 267) (Plain (Einsum [(n_t1'bb,[0;1]); (T 106,[2;1;3;4])] [2;0;3;4]));
  (*8389*) Del (T 106);
  (*8390*) Assign (T 268) (Plain (Zeros [6;6;4;4]));
  (*8391*) AddTo (T 268) (Plain (Einsum [(T 19,[0;1;2;3])] [0;1;2;3]));
  (*8392*) AddTo (T 268) (Times (Einsum [(T 18,[0;1;2;3])] [0;1;2;3]) (9999999999999597) 5000000000000000);
  (*8393*) AddTo (T 268) (Times (Einsum [(T 17,[0;1;2;3])] [0;1;2;3]) (9999999999999597) 5000000000000000);
  (*8394*) AddTo (T 268) (Plain (Einsum [(T 267,[0;1;2;3])] [0;1;2;3]));
  (*8395*) AddTo (T 268) (Plain (Einsum [(T 27,[0;1;2;3])] [0;1;3;2]));
  (*8396*) AddTo n_rdm2_f_abab_oovv (Plain (Einsum [(n_t2'abab,[0;1;2;3]); (T 268,[1;4;0;5])] [5;4;2;3]));
  (*8397*) Del (T 268);
  (*8398*) Assign (T 269) (Plain (Zeros [6;6;4;4]));
  (*8399*) AddTo (T 269) (Plain (Einsum [(T 19,[0;1;2;3])] [0;1;2;3]));
  (*8400*) Del (T 19);
  (*8401*) AddTo (T 269) (Times (Einsum [(T 18,[0;1;2;3])] [0;1;2;3]) (2000000000000041) 1000000000000000);
  (*8402*) Del (T 18);
  (*8403*) AddTo (T 269) (Times (Einsum [(T 17,[0;1;2;3])] [0;1;2;3]) (2000000000000041) 1000000000000000);
  (*8404*) Del (T 17);
  (*8405*) AddTo (T 269) (Plain (Einsum [(T 267,[0;1;2;3])] [0;1;2;3]));
  (*8406*) Del (T 267);
  (*8407*) AddTo (T 269) (Plain (Einsum [(T 27,[0;1;2;3])] [0;1;3;2]));
  (*8408*) Del (T 27);
  (*8409*) Assign (T 270) (Plain (Zeros [6;7;4;4]));
  (*8410*) AddTo (T 270) (Times (Einsum [(T 97,[0;1;2;3])] [0;1;2;3]) (-3333333333333333) 10000000000000000);
  (*8411*) Del (T 97);
  (*8412*) AddTo (T 270) (Times (Einsum [(T 99,[0;1;2;3])] [0;1;2;3]) (-3333333333333333) 5000000000000000);
  (*8413*) Del (T 99);
  (*8414*) AddTo (T 270) (Times (Einsum [(n_t2'abab,[0;1;2;3]); (T 104,[1;4;5;2])] [4;3;5;0]) (3333333333333333) 10000000000000000);
  (*8415*) AddTo (T 270) (Times (Einsum [(n_t2'bbbb,[0;1;2;3]); (T 20,[1;3;4;5])] [0;2;4;5]) (-3333333333333333) 5000000000000000);
  (*8416*) AddTo (T 270) (Times (Einsum [(T 98,[0;1;2;3])] [0;1;2;3]) (-3333333333333333) 5000000000000000);
  (*8417*) Del (T 98);
  (*8418*) AddTo (T 270) (Times (Einsum [(n_t2'abab,[0;1;2;3]); (T 2,[4;0;5;2])] [1;3;4;5]) (3333333333333333) 5000000000000000);
  (*8419*) AddTo (T 270) (Times (Einsum [(T 92,[0;1;2;3])] [0;1;2;3]) (3333333333333333) 5000000000000000);
  (*8420*) Del (T 92);
  (*8421*) AddTo (T 270) (Times (Einsum [(T 93,[0;1;2;3])] [0;1;2;3]) (-1) 1);
  (*8422*) Del (T 93);
  (*8423*) AddTo (T 270) (Times (Einsum [(T 95,[0;1;2;3])] [0;1;2;3]) (3333333333333333) 5000000000000000);
  (*8424*) Del (T 95);
  (*8425*) AddTo (T 270) (Times (Einsum [(T 87,[0;1;2;3])] [0;1;2;3]) (3333333333333333) 5000000000000000);
  (*8426*) Del (T 87);
  (*8427*) AddTo (T 270) (Times (Einsum [(T 88,[0;1;2;3])] [0;1;2;3]) (-13333333333333333) 10000000000000000);
  (*8428*) Del (T 88);
  (*8429*) AddTo (T 270) (Times (Einsum [(T 90,[0;1;2;3])] [0;1;2;3]) (3333333333333333) 5000000000000000);
  (*8430*) Del (T 90);
  (*8431*) AddTo (T 270) (Times (Einsum [(T 96,[0;1;2;3])] [0;1;2;3]) (-1) 1);
  (*8432*) Del (T 96);
  (*8433*) AddTo (T 270) (Times (Einsum [(n_t1'bb,[0;1]); (T 269,[0;2;3;4])] [2;1;3;4]) (3333333333333333) 10000000000000000);
  (*8434*) Del (T 269);
  (*8435*) AddTo n_rdm2_f_abab_oovv (Times (Einsum [(n_t1'aa,[0;1]); (T 270,[2;3;0;4])] [4;2;1;3]) (3) 1);
  (*8436*) Del (T 270);
  (*8437*) Assign (T 271) (Plain (Zeros [5;5]));
  (*8438*) AddTo (T 271) (Times (Einsum [(T 208,[0;1])] [0;1]) (833333333333367) 2500000000000000);
  (*8439*) AddTo (T 271) (Times (Einsum [(T 209,[0;1])] [0;1]) (833333333333367) 1250000000000000);
  (*8440*) AddTo (T 271) (Times (Einsum [(T 210,[0;1])] [0;1]) (16666666666666677) 50000000000000000);
  (*8441*) AddTo (T 271) (Times (Einsum [(T 211,[0;1])] [0;1]) (6666666666666667) 10000000000000000);
  (*8442*) AddTo (T 271) (Plain (Einsum [(T 212,[0;1])] [0;1]));
  (*8443*) AddTo n_rdm2_f_abab_oovv (Times (Einsum [(T 271,[0;1]); (n_t2'abab,[2;3;0;4])] [2;3;1;4]) (-7499999999999697) 2500000000000000);
  (*8444*) Del (T 271);
  (*8445*) Assign (T 272) (Plain (Zeros [7;7]));
  (*8446*) AddTo (T 272) (Plain (Einsum [(n_l2'bbbb,[0;1;2;3]); (n_t2'bbbb,[2;3;4;1])] [0;4]));
  (*8447*) Assign (T 273) (Plain (Zeros [7;7]));
  (*8448*) AddTo (T 273) (Plain (Einsum [(n_l2'abab,[0;1;2;3]); (n_t2'abab,[2;3;0;4])] [1;4]));
  (*8449*) Assign (T 274) (Plain (Zeros [7;7]));
  (*8450*) AddTo (T 274) (Plain (Einsum [(n_l3'bbbbbb,[0;1;2;3;4;5]); (n_t3'bbbbbb,[3;4;5;6;1;2])] [0;6]));
  (*8451*) Assign (T 275) (Plain (Zeros [7;7]));
  (*8452*) AddTo (T 275) (Plain (Einsum [(n_l3'babbab,[0;1;2;3;4;5]); (n_t3'babbab,[3;4;5;6;1;2])] [0;6]));
  (*8453*) Assign (T 276) (Plain (Zeros [7;7]));
  (*8454*) AddTo (T 276) (Plain (Einsum [(n_l3'abaaba,[0;1;2;3;4;5]); (n_t3'abaaba,[3;4;5;0;6;2])] [1;6]));
  (*8455*) Assign (T 277) (Plain (Zeros [7;7]));
  (*8456*) AddTo (T 277) (Times (Einsum [(T 272,[0;1])] [0;1]) (2) 1);
  (*8457*) AddTo (T 277) (Plain (Einsum [(T 273,[0;1])] [0;1]));
  (*8458*) AddTo (T 277) (Times (Einsum [(T 274,[0;1])] [0;1]) (7499999999999697) 2500000000000000);
  (*8459*) AddTo (T 277) (Times (Einsum [(T 275,[0;1])] [0;1]) (9999999999999597) 5000000000000000);
  (*8460*) AddTo (T 277) (Times (Einsum [(T 276,[0;1])] [0;1]) (9999999999999601) 10000000000000000);
  (*8461*) AddTo n_rdm2_f_abab_oovv (Times (Einsum [(T 277,[0;1]); (n_t2'abab,[2;3;4;0])] [2;3;4;1]) (-1) 1);
  (*8462*) Del (T 277);
  (*8463*) Assign (T 278) (Plain (Zeros [6;6;4;5]));
  (*8464*) AddTo (T 278) (Times (Einsum [(T 153,[0;1;2;3])] [0;1;2;3]) (1) 2);
  (*8465*) Del (T 153);
  (*8466*) AddTo (T 278) (Plain (Einsum [(T 152,[0;1;2;3])] [0;1;2;3]));
  (*8467*) Del (T 152);
  (*8468*) AddTo (T 278) (Times (Einsum [(n_t2'abab,[0;1;2;3]); (T 39,[4;1;5;3])] [4;5;0;2]) (-1) 1);
  (*8469*) AddTo (T 278) (Plain (Einsum [(T 161,[0;1;2;3])] [0;1;2;3]));
  (*8470*) Del (T 161);
  (*8471*) AddTo (T 278) (Plain (Einsum [(n_t2'aaaa,[0;1;2;3]); (T 104,[4;5;1;3])] [4;5;0;2]));
  (*8472*) AddTo (T 278) (Times (Einsum [(n_t2'abab,[0;1;2;3]); (T 20,[4;3;0;5])] [4;1;5;2]) (-1) 2);
  (*8473*) Del (T 20);
  (*8474*) AddTo (T 278) (Times (Einsum [(T 154,[0;1;2;3])] [0;1;2;3]) (3) 2);
  (*8475*) Del (T 154);
  (*8476*) AddTo (T 278) (Times (Einsum [(T 156,[0;1;2;3])] [0;1;2;3]) (2) 1);
  (*8477*) Del (T 156);
  (*8478*) AddTo (T 278) (Times (Einsum [(T 155,[0;1;2;3])] [0;1;2;3]) (-1) 1);
  (*8479*) Del (T 155);
  (*8480*) AddTo (T 278) (Times (Einsum [(T 157,[0;1;2;3])] [0;1;2;3]) (-1) 1);
  (*8481*) Del (T 157);
  (*8482*) AddTo (T 278) (Times (Einsum [(T 159,[0;1;2;3])] [0;1;2;3]) (3) 2);
  (*8483*) Del (T 159);
  (*8484*) AddTo (T 278) (Times (Einsum [(T 158,[0;1;2;3])] [0;1;2;3]) (-1) 1);
  (*8485*) Del (T 158);
  (*8486*) AddTo (T 278) (Times (Einsum [(T 160,[0;1;2;3])] [0;1;2;3]) (-1) 1);
  (*8487*) Del (T 160);
  (*8488*) AddTo n_rdm2_f_abab_oovv (Times (Einsum [(n_t1'bb,[0;1]); (T 278,[0;2;3;4])] [3;2;4;1]) (-2) 1);
  (*8489*) Del (T 278);
  (*8490*) Assign (T 279) (Plain (Zeros [4;4]));
  (*8491*) AddTo (T 279) (Times (Einsum [(T 12,[0;1])] [0;1]) (833333333333367) 2500000000000000);
  (*8492*) Del (T 12);
  (*8493*) AddTo (T 279) (Times (Einsum [(T 6,[0;1])] [0;1]) (833333333333367) 2500000000000000);
  (*8494*) Del (T 6);
  (*8495*) AddTo (T 279) (Times (Einsum [(T 7,[0;1])] [0;1]) (833333333333367) 1250000000000000);
  (*8496*) Del (T 7);
  (*8497*) AddTo (T 279) (Times (Einsum [(T 8,[0;1])] [0;1]) (16666666666666677) 50000000000000000);
  (*8498*) Del (T 8);
  (*8499*) AddTo (T 279) (Times (Einsum [(T 9,[0;1])] [0;1]) (6666666666666667) 10000000000000000);
  (*8500*) Del (T 9);
  (*8501*) AddTo (T 279) (Plain (Einsum [(T 10,[0;1])] [0;1]));
  (*8502*) Del (T 10);
  (*8503*) AddTo n_rdm2_f_abab_oovv (Times (Einsum [(T 279,[0;1]); (n_t2'abab,[0;2;3;4])] [1;2;3;4]) (-7499999999999697) 2500000000000000);
  (*8504*) Del (T 279);
  (*8505*) Assign (T 280) (Plain (Zeros [6;6;7;7]));
  (*8506*) AddTo (T 280) (Times (Einsum [(n_t2'bbbb,[0;1;2;3]); (T 250,[1;4;3;5])] [4;0;2;5]) (-1) 1);
  (*8507*) Assign (T 281) (Plain (Zeros [6;6;7;7]));
  (*8508*) AddTo (T 281) (Plain (Einsum [(n_t2'abab,[0;1;2;3]); (T 242,[4;5;0;2])] [4;1;3;5]));
  (*8509*) Assign (T 282) (Plain (Zeros [6;6;7;7]));
  (*8510*) AddTo (T 282) (Plain (Einsum [(T 246,[0;1;2;3])] [0;1;2;3]));
  (*8511*) AddTo (T 282) (Times (Einsum [(T 247,[0;1;2;3])] [0;1;2;3]) (9) 1);
  (*8512*) AddTo (T 282) (Times (Einsum [(T 249,[0;1;2;3])] [0;1;2;3]) (4) 1);
  (*8513*) AddTo (T 282) (Plain (Einsum [(T 251,[0;1;2;3])] [0;1;2;3]));
  (*8514*) Assign (T 283) (Plain (Zeros [6;6;7;7]));
  (*8515*) AddTo (T 283) (Times (Einsum [(n_t2'bbbb,[0;1;2;3]); (T 282,[1;4;3;5])] [4;0;5;2]) (2) 1);
  (*8516*) Del (T 282);
  (*8517*) Assign (T 284) (Plain (Zeros [6;7;4;5]));
  (*8518*) AddTo (T 284) (Plain (Einsum [(T 239,[0;1;2;3])] [0;1;2;3]));
  (*8519*) AddTo (T 284) (Times (Einsum [(T 241,[0;1;2;3])] [0;1;2;3]) (13333333333333333) 10000000000000000);
  (*8520*) AddTo (T 284) (Plain (Einsum [(T 243,[0;1;2;3])] [0;1;2;3]));
  (*8521*) Assign (T 285) (Plain (Zeros [6;6;7;7]));
  (*8522*) AddTo (T 285) (Times (Einsum [(n_t2'abab,[0;1;2;3]); (T 284,[4;5;0;2])] [4;1;5;3]) (3) 1);
  (*8523*) Del (T 284);
  (*8524*) Assign (T 286) (Plain (Zeros [6;6;7;7]));
  (*8525*) AddTo (T 286) (Times (Einsum [(n_t1'bb,[0;1]); (T 41,[0;2;3;4])] [2;3;4;1]) (-1) 1);
  (*8526*) Assign (T 287) (Plain (Zeros [6;6;7;7]));
  (*8527*) AddTo (T 287) (Plain (Einsum [(T 248,[0;1;2;3])] [0;1;2;3]));
  (*8528*) AddTo (T 287) (Plain (Einsum [(T 286,[0;1;2;3])] [0;1;2;3]));
  (*8529*) Del (T 286);
  (*8530*) Assign (T 288) (Plain (Zeros [6;6;7;7]));
  (*8531*) AddTo (T 288) (Times (Einsum [(n_t2'bbbb,[0;1;2;3]); (T 287,[1;4;3;5])] [4;0;5;2]) (12) 1);
  (*8532*) Del (T 287);
  (*8533*) Assign (T 289) (Plain (Zeros [6;7;4;5]));
  (*8534*) AddTo (T 289) (Plain (Einsum [(n_t1'bb,[0;1]); (T 24,[0;2;3;4])] [2;1;3;4]));
  (*8535*) Del (T 24);
  (*8536*) Assign (T 290) (Plain (Zeros [6;7;4;5]));
  (*8537*) AddTo (T 290) (Plain (Einsum [(T 240,[0;1;2;3])] [0;1;2;3]));
  (*8538*) AddTo (T 290) (Plain (Einsum [(T 289,[0;1;2;3])] [0;1;2;3]));
  (*8539*) Del (T 289);
  (*8540*) Assign (T 291) (Plain (Zeros [6;6;7;7]));
  (*8541*) AddTo (T 291) (Times (Einsum [(n_t2'abab,[0;1;2;3]); (T 290,[4;5;0;2])] [4;1;5;3]) (2) 1);
  (*8542*) Del (T 290);
  (*8543*) Assign (T 292) (Plain (Zeros [6;6;6;7]));
  (*8544*) AddTo (T 292) (Times (Einsum [(n_t2'bbbb,[0;1;2;3]); (T 39,[4;1;5;3])] [4;5;0;2]) (-1) 1);
  (*8545*) Assign (T 293) (Plain (Zeros [6;6;6;7]));
  (*8546*) AddTo (T 293) (Plain (Einsum [(n_t2'abab,[0;1;2;3]); (T 104,[4;5;0;2])] [4;5;1;3]));
  (*8547*) Assign (T 294) (Plain (Zeros [6;6;6;7]));
  (*8548*) AddTo (T 294) (Times (Einsum [(n_t2'bbbb,[0;1;2;3]); (T 42,[1;4;5;3])] [4;0;5;2]) (-1) 1);
  (*8549*) Assign (T 295) (Plain (Zeros [6;6;6;7]));
  (*8550*) AddTo (T 295) (Plain (Einsum [(T 292,[0;1;2;3])] [0;1;2;3]));
  (*8551*) Del (T 292);
  (*8552*) AddTo (T 295) (Times (Einsum [(T 293,[0;1;2;3])] [0;1;2;3]) (1) 4);
  (*8553*) Del (T 293);
  (*8554*) AddTo (T 295) (Times (Einsum [(T 133,[0;1;2;3])] [0;1;2;3]) (9) 4);
  (*8555*) Del (T 133);
  (*8556*) AddTo (T 295) (Plain (Einsum [(T 136,[0;1;2;3])] [0;1;2;3]));
  (*8557*) Del (T 136);
  (*8558*) AddTo (T 295) (Plain (Einsum [(T 294,[0;1;2;3])] [0;1;2;3]));
  (*8559*) Del (T 294);
  (*8560*) AddTo (T 295) (Times (Einsum [(T 138,[0;1;2;3])] [0;1;2;3]) (1) 4);
  (*8561*) Del (T 138);
  (*8562*) AddTo (T 295) (Times (Einsum [(T 137,[0;1;2;3])] [0;1;2;3]) (-1) 2);
  (*8563*) Del (T 137);
  (*8564*) Assign (T 296) (Plain (Zeros [6;6;7;7]));
  (*8565*) AddTo (T 296) (Times (Einsum [(n_t1'bb,[0;1]); (T 295,[0;2;3;4])] [2;3;4;1]) (4) 1);
  (*8566*) Del (T 295);
  (*8567*) Assign (T 297) (Plain (Zeros [6;6;7;7]));
  (*8568*) AddTo (T 297) (Times (Einsum [(T 280,[0;1;2;3])] [0;1;2;3]) (4) 1);
  (*8569*) Del (T 280);
  (*8570*) AddTo (T 297) (Times (Einsum [(T 281,[0;1;2;3])] [0;1;2;3]) (-2) 1);
  (*8571*) Del (T 281);
  (*8572*) AddTo (T 297) (Times (Einsum [(T 283,[0;1;2;3])] [1;0;3;2]) (-1) 1);
  (*8573*) Del (T 283);
  (*8574*) AddTo (T 297) (Times (Einsum [(T 285,[0;1;2;3])] [1;0;3;2]) (-1) 1);
  (*8575*) Del (T 285);
  (*8576*) AddTo (T 297) (Plain (Einsum [(T 288,[0;1;2;3])] [0;1;2;3]));
  (*8577*) Del (T 288);
  (*8578*) AddTo (T 297) (Plain (Einsum [(T 291,[0;1;2;3])] [0;1;2;3]));
  (*8579*) Del (T 291);
  (*8580*) AddTo (T 297) (Plain (Einsum [(T 296,[0;1;2;3])] [0;1;3;2]));
  (*8581*) Del (T 296);
  (*8582*) AddTo (T 297) (Times (Einsum [(n_t1'bb,[0;1]); (T 132,[2;3])] [0;2;1;3]) (2) 1);
  (*8583*) Del (T 132);
  (*8584*) AddTo n_rdm2_f_bbbb_oovv (Times (Einsum [(T 297,[0;1;2;3])] [0;1;2;3]) (-1) 1);
  (*8585*) AddTo n_rdm2_f_bbbb_oovv (Plain (Einsum [(T 297,[0;1;2;3])] [0;1;3;2]));
  (*8586*) AddTo n_rdm2_f_bbbb_oovv (Plain (Einsum [(T 297,[0;1;2;3])] [1;0;2;3]));
  (*8587*) AddTo n_rdm2_f_bbbb_oovv (Times (Einsum [(T 297,[0;1;2;3])] [1;0;3;2]) (-1) 1);
  (*8588*) Del (T 297);
  (*8589*) Assign (T 298) (Plain (Zeros [6;6;7;7]));
  (*8590*) AddTo (T 298) (Times (Einsum [(T 43,[0;1;2;3]); (n_t3'bbbbbb,[4;0;1;5;6;3])] [4;2;5;6]) (-18) 1);
  (*8591*) Assign (T 299) (Plain (Zeros [6;6;7;7]));
  (*8592*) AddTo (T 299) (Times (Einsum [(T 26,[0;1;2;3]); (n_t3'babbab,[4;2;0;5;3;6])] [4;1;5;6]) (-4) 1);
  (*8593*) Del (T 26);
  (*8594*) Assign (T 300) (Plain (Zeros [6;6]));
  (*8595*) AddTo (T 300) (Times (Einsum [(T 32,[0;1])] [0;1]) (750000000000001) 250000000000000);
  (*8596*) Del (T 32);
  (*8597*) AddTo (T 300) (Times (Einsum [(T 33,[0;1])] [0;1]) (4999999999999999) 2500000000000000);
  (*8598*) Del (T 33);
  (*8599*) AddTo (T 300) (Plain (Einsum [(T 34,[0;1])] [0;1]));
  (*8600*) Del (T 34);
  (*8601*) Assign (T 301) (Plain (Zeros [6;6;7;7]));
  (*8602*) AddTo (T 301) (Times (Einsum [(T 300,[0;1]); (n_t2'bbbb,[2;0;3;4])] [1;2;3;4]) (-9999999999999597) 5000000000000000);
  (*8603*) Del (T 300);
  (*8604*) Assign (T 302) (Plain (Zeros [6;6;7;7]));
  (*8605*) AddTo (T 302) (Times (Einsum [(T 298,[0;1;2;3])] [1;0;2;3]) (-1) 1);
  (*8606*) Del (T 298);
  (*8607*) AddTo (T 302) (Times (Einsum [(T 299,[0;1;2;3])] [1;0;3;2]) (-1) 1);
  (*8608*) Del (T 299);
  (*8609*) AddTo (T 302) (Plain (Einsum [(T 301,[0;1;2;3])] [1;0;3;2]));
  (*8610*) Del (T 301);
  (*8611*) AddTo n_rdm2_f_bbbb_oovv (Times (Einsum [(T 302,[0;1;2;3])] [0;1;2;3]) (-1) 1);
  (*8612*) AddTo n_rdm2_f_bbbb_oovv (Plain (Einsum [(T 302,[0;1;2;3])] [1;0;2;3]));
  (*8613*) Del (T 302);
  (*8614*) Assign (T 303) (Plain (Zeros [6;6;7;7]));
  (*8615*) AddTo (T 303) (Plain (Einsum [(n_t2'bbbb,[0;1;2;3]); (T 245,[1;4;3;5])] [4;0;5;2]));
  (*8616*) Assign (T 304) (Plain (Zeros [6;6;7;7]));
  (*8617*) AddTo (T 304) (Plain (Einsum [(n_t2'abab,[0;1;2;3]); (T 238,[4;5;0;2])] [4;1;5;3]));
  (*8618*) Assign (T 305) (Plain (Zeros [6;7;7;7]));
  (*8619*) AddTo (T 305) (Times (Einsum [(T 146,[0;1;2;3])] [0;2;1;3]) (-1) 1);
  (*8620*) AddTo (T 305) (Times (Einsum [(T 147,[0;1;2;3])] [0;2;1;3]) (-3333333333333333) 10000000000000000);
  (*8621*) Assign (T 306) (Plain (Zeros [6;6;7;7]));
  (*8622*) AddTo (T 306) (Times (Einsum [(T 305,[0;1;2;3]); (n_t3'bbbbbb,[4;5;0;6;1;2])] [4;5;3;6]) (-18) 1);
  (*8623*) Assign (T 307) (Plain (Zeros [6;6;7;7]));
  (*8624*) AddTo (T 307) (Times (Einsum [(T 102,[0;1;2;3]); (n_t3'babbab,[4;2;5;6;3;0])] [4;5;1;6]) (-4) 1);
  (*8625*) Del (T 102);
  (*8626*) Assign (T 308) (Plain (Zeros [7;7]));
  (*8627*) AddTo (T 308) (Plain (Einsum [(T 272,[0;1])] [0;1]));
  (*8628*) AddTo (T 308) (Times (Einsum [(T 273,[0;1])] [0;1]) (1) 2);
  (*8629*) AddTo (T 308) (Times (Einsum [(T 274,[0;1])] [0;1]) (1874999999999927) 1250000000000000);
  (*8630*) AddTo (T 308) (Times (Einsum [(T 275,[0;1])] [0;1]) (1999999999999919) 2000000000000000);
  (*8631*) AddTo (T 308) (Times (Einsum [(T 276,[0;1])] [0;1]) (9999999999999597) 20000000000000000);
  (*8632*) Assign (T 309) (Plain (Zeros [6;6;7;7]));
  (*8633*) AddTo (T 309) (Times (Einsum [(T 308,[0;1]); (n_t2'bbbb,[2;3;4;0])] [2;3;1;4]) (-4) 1);
  (*8634*) Del (T 308);
  (*8635*) Assign (T 310) (Plain (Zeros [6;6;6;7]));
  (*8636*) AddTo (T 310) (Times (Einsum [(n_t2'bbbb,[0;1;2;3]); (T 305,[4;2;3;5])] [4;0;1;5]) (3) 1);
  (*8637*) Assign (T 311) (Plain (Zeros [6;6;6;7]));
  (*8638*) AddTo (T 311) (Plain (Einsum [(T 122,[0;1;2;3])] [0;2;1;3]));
  (*8639*) Del (T 122);
  (*8640*) AddTo (T 311) (Times (Einsum [(T 125,[0;1;2;3])] [0;2;1;3]) (3) 1);
  (*8641*) Del (T 125);
  (*8642*) AddTo (T 311) (Plain (Einsum [(T 126,[0;1;2;3])] [0;2;1;3]));
  (*8643*) Del (T 126);
  (*8644*) AddTo (T 311) (Times (Einsum [(T 128,[0;1;2;3])] [0;2;1;3]) (3) 1);
  (*8645*) Del (T 128);
  (*8646*) AddTo (T 311) (Plain (Einsum [(T 124,[0;1;2;3])] [0;2;1;3]));
  (*8647*) Del (T 124);
  (*8648*) AddTo (T 311) (Plain (Einsum [(T 310,[0;1;2;3])] [0;2;1;3]));
  (*8649*) Del (T 310);
  (*8650*) Assign (T 312) (Plain (Zeros [6;6;7;7]));
  (*8651*) AddTo (T 312) (Times (Einsum [(n_t1'bb,[0;1]); (T 311,[0;2;3;4])] [2;3;4;1]) (2) 1);
  (*8652*) Del (T 311);
  (*8653*) Assign (T 313) (Plain (Zeros [6;6;7;7]));
  (*8654*) AddTo (T 313) (Times (Einsum [(T 303,[0;1;2;3])] [0;1;2;3]) (8) 1);
  (*8655*) Del (T 303);
  (*8656*) AddTo (T 313) (Times (Einsum [(T 304,[0;1;2;3])] [0;1;2;3]) (2) 1);
  (*8657*) Del (T 304);
  (*8658*) AddTo (T 313) (Plain (Einsum [(T 306,[0;1;2;3])] [0;1;2;3]));
  (*8659*) Del (T 306);
  (*8660*) AddTo (T 313) (Plain (Einsum [(T 307,[0;1;2;3])] [1;0;2;3]));
  (*8661*) Del (T 307);
  (*8662*) AddTo (T 313) (Times (Einsum [(T 309,[0;1;2;3])] [1;0;3;2]) (-1) 1);
  (*8663*) Del (T 309);
  (*8664*) AddTo (T 313) (Plain (Einsum [(T 312,[0;1;2;3])] [1;0;3;2]));
  (*8665*) Del (T 312);
  (*8666*) AddTo n_rdm2_f_bbbb_oovv (Plain (Einsum [(T 313,[0;1;2;3])] [0;1;2;3]));
  (*8667*) AddTo n_rdm2_f_bbbb_oovv (Times (Einsum [(T 313,[0;1;2;3])] [0;1;3;2]) (-1) 1);
  (*8668*) Del (T 313);
  (*8669*) Assign (T 314) (Plain (Zeros [6;6;7;7]));
  (*8670*) AddTo (T 314) (Plain (Einsum [(T 29,[0;1]); (n_t2'bbbb,[2;0;3;4])] [1;2;3;4]));
  (*8671*) Del (T 29);
  (*8672*) Assign (T 315) (Plain (Zeros [6;6;7;7]));
  (*8673*) AddTo (T 315) (Plain (Einsum [(T 39,[0;1;2;3]); (n_t3'bbbbbb,[4;1;0;5;6;3])] [2;4;5;6]));
  (*8674*) Assign (T 316) (Plain (Zeros [6;6;7;7]));
  (*8675*) AddTo (T 316) (Plain (Einsum [(T 104,[0;1;2;3]); (n_t3'babbab,[4;2;0;5;3;6])] [1;4;5;6]));
  (*8676*) Del (T 104);
  (*8677*) Assign (T 317) (Plain (Zeros [6;6;6;6]));
  (*8678*) AddTo (T 317) (Times (Einsum [(n_t1'bb,[0;1]); (T 43,[2;3;4;1])] [0;2;3;4]) (3) 1);
  (*8679*) Assign (T 318) (Plain (Zeros [6;6;7;7]));
  (*8680*) AddTo (T 318) (Times (Einsum [(n_t2'bbbb,[0;1;2;3]); (T 317,[4;0;1;5])] [4;5;2;3]) (2) 1);
  (*8681*) Del (T 317);
  (*8682*) Assign (T 319) (Plain (Zeros [6;6]));
  (*8683*) AddTo (T 319) (Plain (Einsum [(T 30,[0;1])] [0;1]));
  (*8684*) Del (T 30);
  (*8685*) AddTo (T 319) (Times (Einsum [(T 31,[0;1])] [0;1]) (1) 2);
  (*8686*) Del (T 31);
  (*8687*) Assign (T 320) (Plain (Zeros [6;6;7;7]));
  (*8688*) AddTo (T 320) (Times (Einsum [(T 319,[0;1]); (n_t2'bbbb,[2;0;3;4])] [1;2;3;4]) (-4) 1);
  (*8689*) Del (T 319);
  (*8690*) Assign (T 321) (Plain (Zeros [6;6;6;6]));
  (*8691*) AddTo (T 321) (Plain (Einsum [(n_t1'bb,[0;1]); (T 43,[2;3;4;1])] [0;2;3;4]));
  (*8692*) Del (T 43);
  (*8693*) Assign (T 322) (Plain (Zeros [6;6;6;7]));
  (*8694*) AddTo (T 322) (Plain (Einsum [(n_t1'bb,[0;1]); (T 321,[2;3;0;4])] [3;2;4;1]));
  (*8695*) Del (T 321);
  (*8696*) Assign (T 323) (Plain (Zeros [6;6;7;7]));
  (*8697*) AddTo (T 323) (Times (Einsum [(n_t1'bb,[0;1]); (T 322,[0;2;3;4])] [2;3;4;1]) (6) 1);
  (*8698*) Del (T 322);
  (*8699*) Assign (T 324) (Plain (Zeros [6;6;7;7]));
  (*8700*) AddTo (T 324) (Times (Einsum [(T 314,[0;1;2;3])] [0;1;3;2]) (-2) 1);
  (*8701*) Del (T 314);
  (*8702*) AddTo (T 324) (Times (Einsum [(T 315,[0;1;2;3])] [0;1;3;2]) (-6) 1);
  (*8703*) Del (T 315);
  (*8704*) AddTo (T 324) (Times (Einsum [(T 316,[0;1;2;3])] [0;1;3;2]) (-2) 1);
  (*8705*) Del (T 316);
  (*8706*) AddTo (T 324) (Times (Einsum [(T 318,[0;1;2;3])] [0;1;3;2]) (-1) 1);
  (*8707*) Del (T 318);
  (*8708*) AddTo (T 324) (Times (Einsum [(T 320,[0;1;2;3])] [1;0;3;2]) (-1) 1);
  (*8709*) Del (T 320);
  (*8710*) AddTo (T 324) (Times (Einsum [(T 323,[0;1;2;3])] [0;1;2;3]) (-1) 1);
  (*8711*) Del (T 323);
  (*8712*) AddTo n_rdm2_f_bbbb_oovv (Plain (Einsum [(T 324,[0;1;2;3])] [0;1;2;3]));
  (*8713*) AddTo n_rdm2_f_bbbb_oovv (Times (Einsum [(T 324,[0;1;2;3])] [1;0;2;3]) (-1) 1);
  (*8714*) Del (T 324);
  (*8715*) Assign (T 325) (Plain (Zeros [6;6;6;6;4;5]));
  (*8716*) AddTo (T 325) (Plain (Einsum [(n_t2'bbbb,[0;1;2;3]); (n_l3'babbab,[2;4;3;5;6;7])] [5;7;0;1;6;4]));
  (*8717*) AddTo (T 325) (Times (Einsum [(T 123,[0;1;2;3;4;5])] [0;1;3;2;4;5]) (-5000000000000303) 5000000000000000);
  (*8718*) Del (T 123);
  (*8719*) AddTo n_rdm2_f_bbbb_oovv (Times (Einsum [(n_t3'babbab,[0;1;2;3;4;5]); (T 325,[0;2;6;7;1;4])] [6;7;3;5]) (9999999999999597) 5000000000000000);
  (*8720*) Del (T 325);
  (*8721*) Assign (T 326) (Plain (Zeros [6;6;6;6;6;7]));
  (*8722*) AddTo (T 326) (Plain (Einsum [(n_t2'bbbb,[0;1;2;3]); (n_l3'bbbbbb,[4;2;3;5;6;7])] [5;6;7;0;1;4]));
  (*8723*) AddTo (T 326) (Times (Einsum [(T 127,[0;1;2;3;4;5])] [0;1;2;4;3;5]) (-1250000000000073) 1250000000000000);
  (*8724*) Del (T 127);
  (*8725*) AddTo n_rdm2_f_bbbb_oovv (Times (Einsum [(n_t3'bbbbbb,[0;1;2;3;4;5]); (T 326,[0;1;2;6;7;5])] [6;7;3;4]) (2999999999999883) 500000000000000);
  (*8726*) Del (T 326);
  (*8727*) Assign (T 327) (Plain (Zeros [6;6;6;6]));
  (*8728*) AddTo (T 327) (Times (Einsum [(T 38,[0;1;2;3])] [1;0;3;2]) (-1) 1);
  (*8729*) AddTo (T 327) (Plain (Einsum [(T 40,[0;1;2;3])] [0;1;3;2]));
  (*8730*) AddTo (T 327) (Times (Einsum [(T 36,[0;1;2;3])] [0;1;3;2]) (2999999999999883) 1000000000000000);
  (*8731*) AddTo (T 327) (Times (Einsum [(T 37,[0;1;2;3])] [0;1;3;2]) (9999999999999597) 10000000000000000);
  (*8732*) AddTo n_rdm2_f_bbbb_oovv (Times (Einsum [(n_t2'bbbb,[0;1;2;3]); (T 327,[0;1;4;5])] [5;4;2;3]) (2) 1);
  (*8733*) Del (T 327);
  (*8734*) Assign (T 328) (Plain (Zeros [6;6;6;6]));
  (*8735*) AddTo (T 328) (Times (Einsum [(T 38,[0;1;2;3])] [1;0;3;2]) (-3333333333333269) 10000000000000000);
  (*8736*) Del (T 38);
  (*8737*) AddTo (T 328) (Times (Einsum [(T 40,[0;1;2;3])] [0;1;3;2]) (3333333333333269) 10000000000000000);
  (*8738*) Del (T 40);
  (*8739*) AddTo (T 328) (Plain (Einsum [(T 36,[0;1;2;3])] [0;1;3;2]));
  (*8740*) Del (T 36);
  (*8741*) AddTo (T 328) (Times (Einsum [(T 37,[0;1;2;3])] [0;1;3;2]) (416666666666667) 1250000000000000);
  (*8742*) Del (T 37);
  (*8743*) Assign (T 329) (Plain (Zeros [6;6;6;7]));
  (*8744*) AddTo (T 329) (Times (Einsum [(n_t1'bb,[0;1]); (T 328,[0;2;3;4])] [2;4;3;1]) (-1) 1);
  (*8745*) Del (T 328);
  (*8746*) AddTo n_rdm2_f_bbbb_oovv (Times (Einsum [(n_t1'bb,[0;1]); (T 329,[0;2;3;4])] [2;3;4;1]) (-1500000000000029) 250000000000000);
  (*8747*) Del (T 329);
  (*8748*) Assign (T 330) (Plain (Zeros [4;4;5;5]));
  (*8749*) AddTo (T 330) (Plain (Einsum [(n_l2'abab,[0;1;2;3]); (n_t2'abab,[4;3;5;1])] [2;4;0;5]));
  (*8750*) AddTo n_rdm2_f_aaaa_ovov (Times (Einsum [(T 330,[0;1;2;3])] [1;2;0;3]) (-1) 1);
  (*8751*) AddTo n_rdm2_f_aaaa_ovvo (Plain (Einsum [(T 330,[0;1;2;3])] [1;2;3;0]));
  (*8752*) AddTo n_rdm2_f_aaaa_voov (Plain (Einsum [(T 330,[0;1;2;3])] [2;1;0;3]));
  (*8753*) AddTo n_rdm2_f_aaaa_vovo (Times (Einsum [(T 330,[0;1;2;3])] [2;1;3;0]) (-1) 1);
  (*8754*) Assign (T 331) (Plain (Zeros [4;4;5;5]));
  (*8755*) AddTo (T 331) (Times (Einsum [(n_t1'aa,[0;1]); (T 65,[0;2;3;4])] [2;3;1;4]) (6) 1);
  (*8756*) Del (T 65);
  (*8757*) AddTo n_rdm2_f_aaaa_ovov (Times (Einsum [(T 331,[0;1;2;3])] [1;3;0;2]) (-1) 1);
  (*8758*) AddTo n_rdm2_f_aaaa_voov (Plain (Einsum [(T 331,[0;1;2;3])] [3;1;0;2]));
  (*8759*) Del (T 331);
  (*8760*) Assign (T 332) (Plain (Zeros [5;5]));
  (*8761*) AddTo (T 332) (Plain (Einsum [(n_l1'aa,[0;1]); (n_t1'aa,[1;2])] [0;2]));
  (*8762*) Assign (T 333) (Plain (Zeros [5;5]));
  (*8763*) AddTo (T 333) (Plain (Einsum [(T 332,[0;1])] [0;1]));
  (*8764*) AddTo (T 333) (Plain (Einsum [(T 208,[0;1])] [0;1]));
  (*8765*) AddTo (T 333) (Times (Einsum [(T 209,[0;1])] [0;1]) (2) 1);
  (*8766*) AddTo (T 333) (Times (Einsum [(T 210,[0;1])] [0;1]) (9999999999999601) 10000000000000000);
  (*8767*) AddTo (T 333) (Times (Einsum [(T 211,[0;1])] [0;1]) (9999999999999597) 5000000000000000);
  (*8768*) AddTo (T 333) (Times (Einsum [(T 212,[0;1])] [0;1]) (7499999999999697) 2500000000000000);
  (*8769*) AddTo n_rdm2_f_aaaa_ovov (Plain (Einsum [(n_delta'aa'oo,[0;1]); (T 333,[2;3])] [0;2;1;3]));
  (*8770*) AddTo n_rdm2_f_aaaa_ovvo (Times (Einsum [(n_delta'aa'oo,[0;1]); (T 333,[2;3])] [0;2;3;1]) (-1) 1);
  (*8771*) AddTo n_rdm2_f_aaaa_voov (Times (Einsum [(n_delta'aa'oo,[0;1]); (T 333,[2;3])] [2;0;1;3]) (-1) 1);
  (*8772*) AddTo n_rdm2_f_aaaa_vovo (Plain (Einsum [(n_delta'aa'oo,[0;1]); (T 333,[2;3])] [2;0;3;1]));
  (*8773*) Assign (T 334) (Plain (Zeros [7;7;4;4]));
  (*8774*) AddTo (T 334) (Plain (Einsum [(n_l2'abab,[0;1;2;3]); (n_t2'abab,[4;3;0;5])] [1;5;2;4]));
  (*8775*) AddTo n_rdm2_f_abab_ovov (Times (Einsum [(T 334,[0;1;2;3])] [3;0;2;1]) (-1) 1);
  (*8776*) Assign (T 335) (Plain (Zeros [7;7]));
  (*8777*) AddTo (T 335) (Plain (Einsum [(n_l1'bb,[0;1]); (n_t1'bb,[1;2])] [0;2]));
  (*8778*) Assign (T 336) (Plain (Zeros [7;7]));
  (*8779*) AddTo (T 336) (Plain (Einsum [(T 335,[0;1])] [0;1]));
  (*8780*) AddTo (T 336) (Times (Einsum [(T 272,[0;1])] [0;1]) (2) 1);
  (*8781*) AddTo (T 336) (Plain (Einsum [(T 273,[0;1])] [0;1]));
  (*8782*) AddTo (T 336) (Times (Einsum [(T 274,[0;1])] [0;1]) (7499999999999697) 2500000000000000);
  (*8783*) AddTo (T 336) (Times (Einsum [(T 275,[0;1])] [0;1]) (9999999999999597) 5000000000000000);
  (*8784*) AddTo (T 336) (Times (Einsum [(T 276,[0;1])] [0;1]) (9999999999999601) 10000000000000000);
  (*8785*) AddTo n_rdm2_f_abab_ovov (Plain (Einsum [(n_delta'aa'oo,[0;1]); (T 336,[2;3])] [0;2;1;3]));
  (*8786*) AddTo n_rdm2_f_abab_ovvv (Plain (Einsum [(n_t1'aa,[0;1]); (T 336,[2;3])] [0;2;1;3]));
  (*8787*) Assign (T 337) (Plain (Zeros [6;6;7;7]));
  (*8788*) AddTo (T 337) (Times (Einsum [(n_t1'bb,[0;1]); (T 119,[0;2;3;4])] [2;3;4;1]) (2) 1);
  (*8789*) Del (T 119);
  (*8790*) AddTo n_rdm2_f_bbbb_ovov (Times (Einsum [(T 337,[0;1;2;3])] [1;2;0;3]) (-1) 1);
  (*8791*) AddTo n_rdm2_f_bbbb_ovvo (Plain (Einsum [(T 337,[0;1;2;3])] [1;2;3;0]));
  (*8792*) AddTo n_rdm2_f_bbbb_voov (Plain (Einsum [(T 337,[0;1;2;3])] [2;1;0;3]));
  (*8793*) AddTo n_rdm2_f_bbbb_vovo (Times (Einsum [(T 337,[0;1;2;3])] [2;1;3;0]) (-1) 1);
  (*8794*) Del (T 337);
  (*8795*) Assign (T 338) (Plain (Zeros [7;7]));
  (*8796*) AddTo (T 338) (Times (Einsum [(T 335,[0;1])] [0;1]) (2500000000000101) 5000000000000000);
  (*8797*) Del (T 335);
  (*8798*) AddTo (T 338) (Times (Einsum [(T 272,[0;1])] [0;1]) (2500000000000101) 2500000000000000);
  (*8799*) Del (T 272);
  (*8800*) AddTo (T 338) (Times (Einsum [(T 273,[0;1])] [0;1]) (2500000000000101) 5000000000000000);
  (*8801*) Del (T 273);
  (*8802*) AddTo (T 338) (Times (Einsum [(T 274,[0;1])] [0;1]) (7499999999999999) 5000000000000000);
  (*8803*) Del (T 274);
  (*8804*) AddTo (T 338) (Plain (Einsum [(T 275,[0;1])] [0;1]));
  (*8805*) Del (T 275);
  (*8806*) AddTo (T 338) (Times (Einsum [(T 276,[0;1])] [0;1]) (2500000000000001) 5000000000000000);
  (*8807*) Del (T 276);
  (*8808*) AddTo n_rdm2_f_bbbb_ovov (Times (Einsum [(n_delta'bb'oo,[0;1]); (T 338,[2;3])] [0;2;1;3]) (9999999999999597) 5000000000000000);
  (*8809*) AddTo n_rdm2_f_bbbb_ovvo (Times (Einsum [(n_delta'bb'oo,[0;1]); (T 338,[2;3])] [0;2;3;1]) (-9999999999999597) 5000000000000000);
  (*8810*) AddTo n_rdm2_f_bbbb_voov (Times (Einsum [(n_delta'bb'oo,[0;1]); (T 338,[2;3])] [2;0;1;3]) (-9999999999999597) 5000000000000000);
  (*8811*) AddTo n_rdm2_f_bbbb_vovo (Times (Einsum [(n_delta'bb'oo,[0;1]); (T 338,[2;3])] [2;0;3;1]) (9999999999999597) 5000000000000000);
  (*8812*) Del (T 338);
  (*8813*) Assign (T 339) (Plain (Zeros [4;4;5;5]));
  (*8814*) AddTo (T 339) (Times (Einsum [(n_t1'aa,[0;1]); (T 103,[0;2;3;4])] [2;3;4;1]) (2) 1);
  (*8815*) AddTo n_rdm2_f_aaaa_ovvo (Plain (Einsum [(T 339,[0;1;2;3])] [1;2;3;0]));
  (*8816*) AddTo n_rdm2_f_aaaa_vovo (Times (Einsum [(T 339,[0;1;2;3])] [2;1;3;0]) (-1) 1);
  (*8817*) Del (T 339);
  (*8818*) Assign (T 340) (Plain (Zeros [5;5]));
  (*8819*) AddTo (T 340) (Times (Einsum [(T 332,[0;1])] [0;1]) (25000000000001) 25000000000000);
  (*8820*) AddTo (T 340) (Times (Einsum [(T 208,[0;1])] [0;1]) (25000000000001) 25000000000000);
  (*8821*) AddTo (T 340) (Times (Einsum [(T 209,[0;1])] [0;1]) (25000000000001) 12500000000000);
  (*8822*) AddTo (T 340) (Plain (Einsum [(T 210,[0;1])] [0;1]));
  (*8823*) AddTo (T 340) (Times (Einsum [(T 211,[0;1])] [0;1]) (19999999999999991) 10000000000000000);
  (*8824*) AddTo (T 340) (Times (Einsum [(T 212,[0;1])] [0;1]) (14999999999999991) 5000000000000000);
  (*8825*) AddTo n_rdm2_f_abab_vovo (Times (Einsum [(n_delta'bb'oo,[0;1]); (T 340,[2;3])] [2;0;3;1]) (9999999999999601) 10000000000000000);
  (*8826*) Del (T 340);
  (*8827*) Assign (T 341) (Plain (Zeros [4;5;5;5]));
  (*8828*) AddTo (T 341) (Plain (Einsum [(n_t3'abaaba,[0;1;2;3;4;5]); (T 52,[1;4;0;2;6;7])] [6;7;3;5]));
  (*8829*) Del (T 52);
  (*8830*) Assign n_rdm2_f_aaaa_ovvv (Plain (Zeros [4;5;5;5]));
  (*8831*) AddTo n_rdm2_f_aaaa_ovvv (Times (Einsum [(T 341,[0;1;2;3])] [0;1;3;2]) (-5000000000000101) 2500000000000000);
  (*8832*) Assign n_rdm2_f_aaaa_vovv (Plain (Zeros [5;4;5;5]));
  (*8833*) AddTo n_rdm2_f_aaaa_vovv (Times (Einsum [(T 341,[0;1;2;3])] [1;0;3;2]) (5000000000000101) 2500000000000000);
  (*8834*) Del (T 341);
  (*8835*) Assign (T 342) (Plain (Zeros [4;5;5;5]));
  (*8836*) AddTo (T 342) (Plain (Einsum [(n_l2'aaaa,[0;1;2;3]); (n_t3'aaaaaa,[4;2;3;5;6;1])] [4;0;5;6]));
  (*8837*) AddTo n_rdm2_f_aaaa_ovvv (Times (Einsum [(T 342,[0;1;2;3])] [0;1;3;2]) (-6) 1);
  (*8838*) AddTo n_rdm2_f_aaaa_vovv (Times (Einsum [(T 342,[0;1;2;3])] [1;0;3;2]) (6) 1);
  (*8839*) Del (T 342);
  (*8840*) Assign (T 343) (Plain (Zeros [4;5;5;5]));
  (*8841*) AddTo (T 343) (Plain (Einsum [(n_l1'aa,[0;1]); (n_t2'aaaa,[2;1;3;4])] [2;0;3;4]));
  (*8842*) AddTo n_rdm2_f_aaaa_ovvv (Times (Einsum [(T 343,[0;1;2;3])] [0;1;3;2]) (-2) 1);
  (*8843*) AddTo n_rdm2_f_aaaa_vovv (Times (Einsum [(T 343,[0;1;2;3])] [1;0;3;2]) (2) 1);
  (*8844*) Del (T 343);
  (*8845*) Assign (T 344) (Plain (Zeros [4;5;5;5]));
  (*8846*) AddTo (T 344) (Plain (Einsum [(n_l2'abab,[0;1;2;3]); (n_t3'abaaba,[4;3;2;5;1;6])] [4;0;5;6]));
  (*8847*) AddTo n_rdm2_f_aaaa_ovvv (Times (Einsum [(T 344,[0;1;2;3])] [0;1;3;2]) (-2) 1);
  (*8848*) AddTo n_rdm2_f_aaaa_vovv (Times (Einsum [(T 344,[0;1;2;3])] [1;0;3;2]) (2) 1);
  (*8849*) Del (T 344);
  (*8850*) Assign (T 345) (Plain (Zeros [4;5;5;5]));
  (*8851*) AddTo (T 345) (Times (Einsum [(n_t3'aaaaaa,[0;1;2;3;4;5]); (T 46,[0;1;2;6;7;5])] [6;7;3;4]) (-1) 1);
  (*8852*) Del (T 46);
  (*8853*) AddTo n_rdm2_f_aaaa_ovvv (Times (Einsum [(T 345,[0;1;2;3])] [0;1;3;2]) (-1500000000000029) 250000000000000);
  (*8854*) AddTo n_rdm2_f_aaaa_vovv (Times (Einsum [(T 345,[0;1;2;3])] [1;0;3;2]) (1500000000000029) 250000000000000);
  (*8855*) Del (T 345);
  (*8856*) Assign (T 346) (Plain (Zeros [4;5;5;5]));
  (*8857*) AddTo (T 346) (Plain (Einsum [(n_t2'abab,[0;1;2;3]); (T 162,[1;3;4;5])] [0;4;2;5]));
  (*8858*) Assign (T 347) (Plain (Zeros [4;5;5;5]));
  (*8859*) AddTo (T 347) (Plain (Einsum [(n_t2'abab,[0;1;2;3]); (T 163,[1;3;4;5])] [0;4;5;2]));
  (*8860*) Assign (T 348) (Plain (Zeros [4;5;5;5]));
  (*8861*) AddTo (T 348) (Times (Einsum [(n_t2'aaaa,[0;1;2;3]); (T 206,[1;4;3;5])] [0;4;5;2]) (4) 1);
  (*8862*) Assign (T 349) (Plain (Zeros [4;4;5;5]));
  (*8863*) AddTo (T 349) (Plain (Einsum [(T 330,[0;1;2;3])] [0;1;2;3]));
  (*8864*) Del (T 330);
  (*8865*) AddTo (T 349) (Times (Einsum [(T 203,[0;1;2;3])] [0;1;2;3]) (4) 1);
  (*8866*) Del (T 203);
  (*8867*) AddTo (T 349) (Plain (Einsum [(T 174,[0;1;2;3])] [0;1;2;3]));
  (*8868*) Del (T 174);
  (*8869*) AddTo (T 349) (Times (Einsum [(T 175,[0;1;2;3])] [0;1;2;3]) (4) 1);
  (*8870*) Del (T 175);
  (*8871*) AddTo (T 349) (Times (Einsum [(T 179,[0;1;2;3])] [0;1;2;3]) (-2) 1);
  (*8872*) Del (T 179);
  (*8873*) AddTo (T 349) (Times (Einsum [(T 176,[0;1;2;3])] [0;1;2;3]) (9) 1);
  (*8874*) Del (T 176);
  (*8875*) AddTo (T 349) (Times (Einsum [(T 180,[0;1;2;3])] [0;1;2;3]) (-6) 1);
  (*8876*) Del (T 180);
  (*8877*) Assign (T 350) (Plain (Zeros [4;5;5;5]));
  (*8878*) AddTo (T 350) (Plain (Einsum [(n_t1'aa,[0;1]); (T 349,[0;2;3;4])] [2;3;4;1]));
  (*8879*) Del (T 349);
  (*8880*) Assign (T 351) (Plain (Zeros [4;5;5;5]));
  (*8881*) AddTo (T 351) (Times (Einsum [(T 346,[0;1;2;3])] [0;1;2;3]) (2) 1);
  (*8882*) Del (T 346);
  (*8883*) AddTo (T 351) (Times (Einsum [(T 347,[0;1;2;3])] [0;1;2;3]) (-2) 1);
  (*8884*) Del (T 347);
  (*8885*) AddTo (T 351) (Plain (Einsum [(T 348,[0;1;2;3])] [0;1;2;3]));
  (*8886*) Del (T 348);
  (*8887*) AddTo (T 351) (Times (Einsum [(T 350,[0;1;2;3])] [0;1;3;2]) (-1) 1);
  (*8888*) Del (T 350);
  (*8889*) AddTo (T 351) (Plain (Einsum [(n_t1'aa,[0;1]); (T 333,[2;3])] [0;2;1;3]));
  (*8890*) Del (T 333);
  (*8891*) AddTo n_rdm2_f_aaaa_ovvv (Plain (Einsum [(T 351,[0;1;2;3])] [0;1;2;3]));
  (*8892*) AddTo n_rdm2_f_aaaa_ovvv (Times (Einsum [(T 351,[0;1;2;3])] [0;1;3;2]) (-1) 1);
  (*8893*) AddTo n_rdm2_f_aaaa_vovv (Times (Einsum [(T 351,[0;1;2;3])] [1;0;2;3]) (-1) 1);
  (*8894*) AddTo n_rdm2_f_aaaa_vovv (Plain (Einsum [(T 351,[0;1;2;3])] [1;0;3;2]));
  (*8895*) Del (T 351);
  (*8896*) Assign (T 352) (Plain (Zeros [4;5;5;5]));
  (*8897*) AddTo (T 352) (Times (Einsum [(n_t2'aaaa,[0;1;2;3]); (T 103,[0;1;4;5])] [4;5;2;3]) (2) 1);
  (*8898*) Del (T 103);
  (*8899*) AddTo n_rdm2_f_aaaa_ovvv (Times (Einsum [(T 352,[0;1;2;3])] [0;1;3;2]) (-1) 1);
  (*8900*) AddTo n_rdm2_f_aaaa_vovv (Plain (Einsum [(T 352,[0;1;2;3])] [1;0;3;2]));
  (*8901*) Del (T 352);
  (*8902*) Assign (T 353) (Plain (Zeros [4;4;4;5]));
  (*8903*) AddTo (T 353) (Times (Einsum [(T 2,[0;1;2;3])] [1;0;2;3]) (3333333333333333) 10000000000000000);
  (*8904*) Del (T 2);
  (*8905*) AddTo (T 353) (Times (Einsum [(T 13,[0;1;2;3])] [0;1;2;3]) (-3333333333333333) 10000000000000000);
  (*8906*) Del (T 13);
  (*8907*) AddTo (T 353) (Times (Einsum [(T 14,[0;1;2;3])] [0;1;2;3]) (-1) 1);
  (*8908*) Del (T 14);
  (*8909*) Assign (T 354) (Plain (Zeros [4;4;5;5]));
  (*8910*) AddTo (T 354) (Times (Einsum [(n_t1'aa,[0;1]); (T 353,[0;2;3;4])] [2;3;4;1]) (3) 1);
  (*8911*) Del (T 353);
  (*8912*) Assign (T 355) (Plain (Zeros [4;5;5;5]));
  (*8913*) AddTo (T 355) (Times (Einsum [(n_t1'aa,[0;1]); (T 354,[0;2;3;4])] [2;3;4;1]) (2) 1);
  (*8914*) Del (T 354);
  (*8915*) AddTo n_rdm2_f_aaaa_ovvv (Plain (Einsum [(T 355,[0;1;2;3])] [0;1;3;2]));
  (*8916*) AddTo n_rdm2_f_aaaa_vovv (Plain (Einsum [(T 355,[0;1;2;3])] [1;0;2;3]));
  (*8917*) Del (T 355);
  (*8918*) Assign (T 356) (Plain (Zeros [6;7;4;5]));
  (*8919*) AddTo (T 356) (Times (Einsum [(T 219,[0;1;2;3])] [0;1;2;3]) (3333333333333333) 5000000000000000);
  (*8920*) Del (T 219);
  (*8921*) AddTo (T 356) (Times (Einsum [(T 168,[0;1;2;3])] [0;1;2;3]) (3333333333333333) 5000000000000000);
  (*8922*) Del (T 168);
  (*8923*) AddTo (T 356) (Plain (Einsum [(T 169,[0;1;2;3])] [0;1;2;3]));
  (*8924*) Del (T 169);
  (*8925*) AddTo (T 356) (Times (Einsum [(T 170,[0;1;2;3])] [0;1;2;3]) (13333333333333333) 10000000000000000);
  (*8926*) Del (T 170);
  (*8927*) AddTo (T 356) (Times (Einsum [(T 166,[0;1;2;3])] [0;1;2;3]) (-3333333333333333) 5000000000000000);
  (*8928*) Del (T 166);
  (*8929*) AddTo (T 356) (Plain (Einsum [(T 171,[0;1;2;3])] [0;1;2;3]));
  (*8930*) Del (T 171);
  (*8931*) AddTo (T 356) (Times (Einsum [(T 184,[0;1;2;3])] [0;1;2;3]) (-3333333333333333) 5000000000000000);
  (*8932*) Del (T 184);
  (*8933*) AddTo (T 356) (Times (Einsum [(n_t1'aa,[0;1]); (T 23,[2;3;0;4])] [2;3;4;1]) (-3333333333333333) 5000000000000000);
  (*8934*) Del (T 23);
  (*8935*) AddTo n_rdm2_f_abab_ovvv (Times (Einsum [(n_t1'bb,[0;1]); (T 356,[0;2;3;4])] [3;2;4;1]) (3) 1);
  (*8936*) Del (T 356);
  (*8937*) Assign (T 357) (Plain (Zeros [7;7;4;4]));
  (*8938*) AddTo (T 357) (Times (Einsum [(T 334,[0;1;2;3])] [0;1;2;3]) (1) 2);
  (*8939*) Del (T 334);
  (*8940*) AddTo (T 357) (Plain (Einsum [(T 262,[0;1;2;3])] [0;1;2;3]));
  (*8941*) Del (T 262);
  (*8942*) AddTo (T 357) (Plain (Einsum [(T 263,[0;1;2;3])] [0;1;2;3]));
  (*8943*) Del (T 263);
  (*8944*) AddTo (T 357) (Plain (Einsum [(T 264,[0;1;2;3])] [0;1;2;3]));
  (*8945*) Del (T 264);
  (*8946*) AddTo (T 357) (Plain (Einsum [(T 265,[0;1;2;3])] [0;1;2;3]));
  (*8947*) Del (T 265);
  (*8948*) AddTo n_rdm2_f_abab_ovvv (Times (Einsum [(n_t1'aa,[0;1]); (T 357,[2;3;0;4])] [4;2;1;3]) (-2) 1);
  (*8949*) Del (T 357);
  (*8950*) Assign (T 358) (Plain (Zeros [6;7;7;7]));
  (*8951*) AddTo (T 358) (Plain (Einsum [(n_t3'babbab,[0;1;2;3;4;5]); (T 91,[0;2;6;7;1;4])] [6;7;3;5]));
  (*8952*) Del (T 91);
  (*8953*) Assign n_rdm2_f_bbbb_ovvv (Plain (Zeros [6;7;7;7]));
  (*8954*) AddTo n_rdm2_f_bbbb_ovvv (Times (Einsum [(T 358,[0;1;2;3])] [0;1;3;2]) (-5000000000000101) 2500000000000000);
  (*8955*) Assign n_rdm2_f_bbbb_vovv (Plain (Zeros [7;6;7;7]));
  (*8956*) AddTo n_rdm2_f_bbbb_vovv (Times (Einsum [(T 358,[0;1;2;3])] [1;0;3;2]) (5000000000000101) 2500000000000000);
  (*8957*) Del (T 358);
  (*8958*) Assign (T 359) (Plain (Zeros [6;7;7;7]));
  (*8959*) AddTo (T 359) (Times (Einsum [(n_t3'bbbbbb,[0;1;2;3;4;5]); (T 115,[0;1;2;6;7;5])] [6;7;3;4]) (-1) 1);
  (*8960*) Del (T 115);
  (*8961*) AddTo n_rdm2_f_bbbb_ovvv (Times (Einsum [(T 359,[0;1;2;3])] [0;1;3;2]) (-1500000000000029) 250000000000000);
  (*8962*) AddTo n_rdm2_f_bbbb_vovv (Times (Einsum [(T 359,[0;1;2;3])] [1;0;3;2]) (1500000000000029) 250000000000000);
  (*8963*) Del (T 359);
  (*8964*) Assign (T 360) (Plain (Zeros [6;7;7;7]));
  (*8965*) AddTo (T 360) (Plain (Einsum [(n_l1'bb,[0;1]); (n_t2'bbbb,[2;1;3;4])] [2;0;3;4]));
  (*8966*) AddTo n_rdm2_f_bbbb_ovvv (Times (Einsum [(T 360,[0;1;2;3])] [0;1;3;2]) (-2) 1);
  (*8967*) AddTo n_rdm2_f_bbbb_vovv (Times (Einsum [(T 360,[0;1;2;3])] [1;0;3;2]) (2) 1);
  (*8968*) Del (T 360);
  (*8969*) Assign (T 361) (Plain (Zeros [6;7;7;7]));
  (*8970*) AddTo (T 361) (Plain (Einsum [(n_l2'bbbb,[0;1;2;3]); (n_t3'bbbbbb,[4;2;3;5;6;1])] [4;0;5;6]));
  (*8971*) AddTo n_rdm2_f_bbbb_ovvv (Times (Einsum [(T 361,[0;1;2;3])] [0;1;3;2]) (-6) 1);
  (*8972*) AddTo n_rdm2_f_bbbb_vovv (Times (Einsum [(T 361,[0;1;2;3])] [1;0;3;2]) (6) 1);
  (*8973*) Del (T 361);
  (*8974*) Assign (T 362) (Plain (Zeros [6;7;7;7]));
  (*8975*) AddTo (T 362) (Plain (Einsum [(n_l2'abab,[0;1;2;3]); (n_t3'babbab,[4;2;3;5;0;6])] [4;1;5;6]));
  (*8976*) AddTo n_rdm2_f_bbbb_ovvv (Times (Einsum [(T 362,[0;1;2;3])] [0;1;3;2]) (-2) 1);
  (*8977*) AddTo n_rdm2_f_bbbb_vovv (Times (Einsum [(T 362,[0;1;2;3])] [1;0;3;2]) (2) 1);
  (*8978*) Del (T 362);
  (*8979*) Assign (T 363) (Plain (Zeros [6;7;7;7]));
  (*8980*) AddTo (T 363) (Times (Einsum [(n_t2'bbbb,[0;1;2;3]); (T 146,[1;4;3;5])] [0;4;5;2]) (-1) 1);
  (*8981*) Del (T 146);
  (*8982*) Assign (T 364) (Plain (Zeros [6;7;7;7]));
  (*8983*) AddTo (T 364) (Plain (Einsum [(n_t2'bbbb,[0;1;2;3]); (T 147,[1;4;3;5])] [0;4;2;5]));
  (*8984*) Del (T 147);
  (*8985*) Assign (T 365) (Plain (Zeros [6;7;7;7]));
  (*8986*) AddTo (T 365) (Plain (Einsum [(n_t2'abab,[0;1;2;3]); (T 100,[4;5;0;2])] [1;4;5;3]));
  (*8987*) Del (T 100);
  (*8988*) Assign (T 366) (Plain (Zeros [6;7;7;7]));
  (*8989*) AddTo (T 366) (Plain (Einsum [(n_t2'abab,[0;1;2;3]); (T 101,[4;5;0;2])] [1;4;3;5]));
  (*8990*) Del (T 101);
  (*8991*) Assign (T 367) (Plain (Zeros [6;6;7;7]));
  (*8992*) AddTo (T 367) (Plain (Einsum [(T 245,[0;1;2;3])] [0;1;2;3]));
  (*8993*) Del (T 245);
  (*8994*) AddTo (T 367) (Times (Einsum [(T 246,[0;1;2;3])] [0;1;2;3]) (1) 4);
  (*8995*) Del (T 246);
  (*8996*) AddTo (T 367) (Times (Einsum [(T 247,[0;1;2;3])] [0;1;2;3]) (9) 4);
  (*8997*) Del (T 247);
  (*8998*) AddTo (T 367) (Times (Einsum [(T 248,[0;1;2;3])] [0;1;2;3]) (-3) 2);
  (*8999*) Del (T 248);
  (*9000*) AddTo (T 367) (Plain (Einsum [(T 249,[0;1;2;3])] [0;1;2;3]));
  (*9001*) Del (T 249);
  (*9002*) AddTo (T 367) (Times (Einsum [(T 250,[0;1;2;3])] [0;1;2;3]) (-1) 2);
  (*9003*) Del (T 250);
  (*9004*) AddTo (T 367) (Times (Einsum [(T 251,[0;1;2;3])] [0;1;2;3]) (1) 4);
  (*9005*) Del (T 251);
  (*9006*) Assign (T 368) (Plain (Zeros [6;7;7;7]));
  (*9007*) AddTo (T 368) (Times (Einsum [(n_t1'bb,[0;1]); (T 367,[0;2;3;4])] [2;3;4;1]) (4) 1);
  (*9008*) Del (T 367);
  (*9009*) Assign (T 369) (Plain (Zeros [6;7;7;7]));
  (*9010*) AddTo (T 369) (Times (Einsum [(T 363,[0;1;2;3])] [0;1;2;3]) (-12) 1);
  (*9011*) Del (T 363);
  (*9012*) AddTo (T 369) (Times (Einsum [(T 364,[0;1;2;3])] [0;1;2;3]) (-4) 1);
  (*9013*) Del (T 364);
  (*9014*) AddTo (T 369) (Times (Einsum [(T 365,[0;1;2;3])] [0;1;2;3]) (-2) 1);
  (*9015*) Del (T 365);
  (*9016*) AddTo (T 369) (Times (Einsum [(T 366,[0;1;2;3])] [0;1;2;3]) (2) 1);
  (*9017*) Del (T 366);
  (*9018*) AddTo (T 369) (Times (Einsum [(T 368,[0;1;2;3])] [0;1;3;2]) (-1) 1);
  (*9019*) Del (T 368);
  (*9020*) AddTo (T 369) (Plain (Einsum [(n_t1'bb,[0;1]); (T 336,[2;3])] [0;2;1;3]));
  (*9021*) Del (T 336);
  (*9022*) AddTo n_rdm2_f_bbbb_ovvv (Plain (Einsum [(T 369,[0;1;2;3])] [0;1;2;3]));
  (*9023*) AddTo n_rdm2_f_bbbb_ovvv (Times (Einsum [(T 369,[0;1;2;3])] [0;1;3;2]) (-1) 1);
  (*9024*) AddTo n_rdm2_f_bbbb_vovv (Times (Einsum [(T 369,[0;1;2;3])] [1;0;2;3]) (-1) 1);
  (*9025*) AddTo n_rdm2_f_bbbb_vovv (Plain (Einsum [(T 369,[0;1;2;3])] [1;0;3;2]));
  (*9026*) Del (T 369);
  (*9027*) Assign (T 370) (Plain (Zeros [6;6;6;7]));
  (*9028*) AddTo (T 370) (Times (Einsum [(T 39,[0;1;2;3])] [1;0;2;3]) (-3333333333333333) 10000000000000000);
  (*9029*) AddTo (T 370) (Plain (Einsum [(T 41,[0;1;2;3])] [0;1;2;3]));
  (*9030*) AddTo (T 370) (Times (Einsum [(T 42,[0;1;2;3])] [0;1;2;3]) (3333333333333333) 10000000000000000);
  (*9031*) Assign (T 371) (Plain (Zeros [6;7;7;7]));
  (*9032*) AddTo (T 371) (Times (Einsum [(n_t2'bbbb,[0;1;2;3]); (T 370,[0;1;4;5])] [4;5;2;3]) (6) 1);
  (*9033*) Del (T 370);
  (*9034*) AddTo n_rdm2_f_bbbb_ovvv (Times (Einsum [(T 371,[0;1;2;3])] [0;1;3;2]) (-1) 1);
  (*9035*) AddTo n_rdm2_f_bbbb_vovv (Plain (Einsum [(T 371,[0;1;2;3])] [1;0;3;2]));
  (*9036*) Del (T 371);
  (*9037*) Assign (T 372) (Plain (Zeros [6;6;6;7]));
  (*9038*) AddTo (T 372) (Plain (Einsum [(T 39,[0;1;2;3])] [1;0;2;3]));
  (*9039*) Del (T 39);
  (*9040*) AddTo (T 372) (Times (Einsum [(T 41,[0;1;2;3])] [0;1;2;3]) (-3) 1);
  (*9041*) Del (T 41);
  (*9042*) AddTo (T 372) (Times (Einsum [(T 42,[0;1;2;3])] [0;1;2;3]) (-1) 1);
  (*9043*) Del (T 42);
  (*9044*) Assign (T 373) (Plain (Zeros [6;6;7;7]));
  (*9045*) AddTo (T 373) (Times (Einsum [(n_t1'bb,[0;1]); (T 372,[0;2;3;4])] [2;3;4;1]) (3333333333333333) 10000000000000000);
  (*9046*) AddTo n_rdm2_f_bbbb_ovvv (Times (Einsum [(n_t1'bb,[0;1]); (T 373,[0;2;3;4])] [2;3;4;1]) (-6) 1);
  (*9047*) Del (T 373);
  (*9048*) Assign (T 374) (Plain (Zeros [6;7;4;5]));
  (*9049*) AddTo (T 374) (Times (Einsum [(T 237,[0;1;2;3])] [0;1;2;3]) (1) 2);
  (*9050*) Del (T 237);
  (*9051*) AddTo (T 374) (Times (Einsum [(T 238,[0;1;2;3])] [0;1;2;3]) (1) 2);
  (*9052*) Del (T 238);
  (*9053*) AddTo (T 374) (Times (Einsum [(T 239,[0;1;2;3])] [0;1;2;3]) (3) 4);
  (*9054*) Del (T 239);
  (*9055*) AddTo (T 374) (Times (Einsum [(T 240,[0;1;2;3])] [0;1;2;3]) (-1) 2);
  (*9056*) Del (T 240);
  (*9057*) AddTo (T 374) (Plain (Einsum [(T 241,[0;1;2;3])] [0;1;2;3]));
  (*9058*) Del (T 241);
  (*9059*) AddTo (T 374) (Times (Einsum [(T 242,[0;1;2;3])] [0;1;2;3]) (-1) 2);
  (*9060*) Del (T 242);
  (*9061*) AddTo (T 374) (Times (Einsum [(T 243,[0;1;2;3])] [0;1;2;3]) (3) 4);
  (*9062*) Del (T 243);
  (*9063*) AddTo (T 374) (Times (Einsum [(n_t1'bb,[0;1]); (T 236,[0;2;3;4])] [2;1;3;4]) (-1) 4);
  (*9064*) Del (T 236);
  (*9065*) AddTo n_rdm2_f_abab_vovv (Times (Einsum [(n_t1'aa,[0;1]); (T 374,[2;3;0;4])] [4;2;1;3]) (4) 1);
  (*9066*) Del (T 374);
  (*9067*) Assign (T 375) (Plain (Zeros [6;6;5;5]));
  (*9068*) AddTo (T 375) (Times (Einsum [(T 256,[0;1;2;3])] [0;1;2;3]) (1) 2);
  (*9069*) Del (T 256);
  (*9070*) AddTo (T 375) (Plain (Einsum [(T 257,[0;1;2;3])] [0;1;2;3]));
  (*9071*) Del (T 257);
  (*9072*) AddTo (T 375) (Plain (Einsum [(T 258,[0;1;2;3])] [0;1;2;3]));
  (*9073*) Del (T 258);
  (*9074*) AddTo (T 375) (Plain (Einsum [(T 259,[0;1;2;3])] [0;1;2;3]));
  (*9075*) Del (T 259);
  (*9076*) AddTo (T 375) (Plain (Einsum [(T 260,[0;1;2;3])] [0;1;2;3]));
  (*9077*) Del (T 260);
  (*9078*) AddTo n_rdm2_f_abab_vovv (Times (Einsum [(n_t1'bb,[0;1]); (T 375,[0;2;3;4])] [3;2;4;1]) (-2) 1);
  (*9079*) Del (T 375);
  (*9080*) Assign (T 376) (Plain (Zeros [5;5]));
  (*9081*) AddTo (T 376) (Times (Einsum [(T 332,[0;1])] [0;1]) (2500000000000101) 5000000000000000);
  (*9082*) Del (T 332);
  (*9083*) AddTo (T 376) (Times (Einsum [(T 208,[0;1])] [0;1]) (2500000000000101) 5000000000000000);
  (*9084*) Del (T 208);
  (*9085*) AddTo (T 376) (Times (Einsum [(T 209,[0;1])] [0;1]) (2500000000000101) 2500000000000000);
  (*9086*) Del (T 209);
  (*9087*) AddTo (T 376) (Times (Einsum [(T 210,[0;1])] [0;1]) (2500000000000001) 5000000000000000);
  (*9088*) Del (T 210);
  (*9089*) AddTo (T 376) (Plain (Einsum [(T 211,[0;1])] [0;1]));
  (*9090*) Del (T 211);
  (*9091*) AddTo (T 376) (Times (Einsum [(T 212,[0;1])] [0;1]) (7499999999999999) 5000000000000000);
  (*9092*) Del (T 212);
  (*9093*) AddTo n_rdm2_f_abab_vovv (Times (Einsum [(n_t1'bb,[0;1]); (T 376,[2;3])] [2;0;3;1]) (9999999999999597) 5000000000000000);
  (*9094*) Del (T 376);
  (*9095*) Assign (T 377) (Plain (Zeros [6;6;7;7]));
  (*9096*) AddTo (T 377) (Plain (Einsum [(n_t1'bb,[0;1]); (T 372,[0;2;3;4])] [2;3;4;1]));
  (*9097*) Del (T 372);
  (*9098*) AddTo n_rdm2_f_bbbb_vovv (Times (Einsum [(n_t1'bb,[0;1]); (T 377,[0;2;3;4])] [3;2;1;4]) (-2) 1);
  (*9099*) Del (T 377);
  (*9100*) Assign (T 378) (Plain (Zeros [4;5;5;5]));
  (*9101*) AddTo (T 378) (Plain (Einsum [(n_t1'aa,[0;1]); (n_l2'aaaa,[2;3;4;0])] [4;2;3;1]));
  (*9102*) AddTo n_rdm2_f_aaaa_vvov (Times (Einsum [(T 378,[0;1;2;3])] [2;1;0;3]) (-2) 1);
  (*9103*) AddTo n_rdm2_f_aaaa_vvvo (Times (Einsum [(T 378,[0;1;2;3])] [2;1;3;0]) (2) 1);
  (*9104*) AddTo n_rdm2_f_aaaa_vvvv (Times (Einsum [(n_t1'aa,[0;1]); (T 378,[0;2;3;4])] [2;3;1;4]) (2) 1);
  (*9105*) Del (T 378);
  (*9106*) Assign (T 379) (Plain (Zeros [6;7;7;7]));
  (*9107*) AddTo (T 379) (Plain (Einsum [(n_t1'bb,[0;1]); (n_l2'bbbb,[2;3;4;0])] [4;2;3;1]));
  (*9108*) AddTo n_rdm2_f_bbbb_vvov (Times (Einsum [(T 379,[0;1;2;3])] [2;1;0;3]) (-2) 1);
  (*9109*) AddTo n_rdm2_f_bbbb_vvvo (Times (Einsum [(T 379,[0;1;2;3])] [2;1;3;0]) (2) 1);
  (*9110*) AddTo n_rdm2_f_bbbb_vvvv (Times (Einsum [(n_t1'bb,[0;1]); (T 379,[0;2;3;4])] [2;3;1;4]) (2) 1);
  (*9111*) Del (T 379);
  (*9112*) Assign (T 380) (Plain (Zeros [6;7;5;5]));
  (*9113*) AddTo (T 380) (Plain (Einsum [(n_t1'aa,[0;1]); (n_l2'abab,[2;3;0;4])] [4;3;2;1]));
  (*9114*) AddTo n_rdm2_f_abab_vvvo (Plain (Einsum [(T 380,[0;1;2;3])] [2;1;3;0]));
  (*9115*) Assign (T 381) (Plain (Zeros [5;5;5;5]));
  (*9116*) AddTo (T 381) (Times (Einsum [(n_t1'aa,[0;1]); (T 206,[0;2;3;4])] [2;3;4;1]) (2) 1);
  (*9117*) Del (T 206);
  (*9118*) AddTo n_rdm2_f_aaaa_vvvv (Plain (Einsum [(T 381,[0;1;2;3])] [0;1;3;2]));
  (*9119*) AddTo n_rdm2_f_aaaa_vvvv (Times (Einsum [(T 381,[0;1;2;3])] [0;1;2;3]) (-1) 1);
  (*9120*) Del (T 381);
  (*9121*) Assign (T 382) (Plain (Zeros [6;7;5;5]));
  (*9122*) AddTo (T 382) (Plain (Einsum [(T 380,[0;1;2;3])] [0;1;2;3]));
  (*9123*) Del (T 380);
  (*9124*) AddTo (T 382) (Times (Einsum [(T 162,[0;1;2;3])] [0;1;2;3]) (2) 1);
  (*9125*) Del (T 162);
  (*9126*) AddTo (T 382) (Times (Einsum [(T 163,[0;1;2;3])] [0;1;2;3]) (2) 1);
  (*9127*) Del (T 163);
  (*9128*) AddTo n_rdm2_f_abab_vvvv (Plain (Einsum [(n_t1'bb,[0;1]); (T 382,[0;2;3;4])] [3;2;4;1]));
  (*9129*) Del (T 382);
  (*9130*) Assign (T 383) (Plain (Zeros [7;7;7;7]));
  (*9131*) AddTo (T 383) (Times (Einsum [(n_t1'bb,[0;1]); (T 305,[0;2;3;4])] [2;3;4;1]) (6) 1);
  (*9132*) Del (T 305);
  (*9133*) AddTo n_rdm2_f_bbbb_vvvv (Plain (Einsum [(T 383,[0;1;2;3])] [0;1;3;2]));
  (*9134*) AddTo n_rdm2_f_bbbb_vvvv (Times (Einsum [(T 383,[0;1;2;3])] [0;1;2;3]) (-1) 1);
  (*9135*) Del (T 383)]
 [(n_rdm2_f_aaaa_oooo,[4;4;4;4]); (n_rdm2_f_aaaa_ooov,[4;4;4;5]); (n_rdm2_f_aaaa_oovo,[4;4;5;4]); (n_rdm2_f_aaaa_ovoo,[4;5;4;4]); (n_rdm2_f_aaaa_vooo,[5;4;4;4]); (n_rdm2_f_aaaa_oovv,[4;4;5;5]); (n_rdm2_f_aaaa_ovov,[4;5;4;5]); (n_rdm2_f_aaaa_ovvo,[4;5;5;4]); (n_rdm2_f_aaaa_voov,[5;4;4;5]); (n_rdm2_f_aaaa_vovo,[5;4;5;4]); (n_rdm2_f_aaaa_vvoo,[5;5;4;4]); (n_rdm2_f_aaaa_ovvv,[4;5;5;5]); (n_rdm2_f_aaaa_vovv,[5;4;5;5]); (n_rdm2_f_aaaa_vvov,[5;5;4;5]); (n_rdm2_f_aaaa_vvvo,[5;5;5;4]); (n_rdm2_f_aaaa_vvvv,[5;5;5;5]); (n_rdm2_f_abab_oooo,[4;6;4;6]); (n_rdm2_f_abab_ooov,[4;6;4;7]); (n_rdm2_f_abab_oovo,[4;6;5;6]); (n_rdm2_f_abab_ovoo,[4;7;4;6]); (n_rdm2_f_abab_vooo,[5;6;4;6]); (n_rdm2_f_abab_oovv,[4;6;5;7]); (n_rdm2_f_abab_ovov,[4;7;4;7]); (n_rdm2_f_abab_ovvo,[4;7;5;6]); (n_rdm2_f_abab_voov,[5;6;4;7]); (n_rdm2_f_abab_vovo,[5;6;5;6]); (n_rdm2_f_abab_vvoo,[5;7;4;6]); (n_rdm2_f_abab_ovvv,[4;7;5;7]); (n_rdm2_f_abab_vovv,[5;6;5;7]); (n_rdm2_f_abab_vvov,[5;7;4;7]); (n_rdm2_f_abab_vvvo,[5;7;5;6]); (n_rdm2_f_abab_vvvv,[5;7;5;7]); (n_rdm2_f_bbbb_oooo,[6;6;6;6]); (n_rdm2_f_bbbb_ooov,[6;6;6;7]); (n_rdm2_f_bbbb_oovo,[6;6;7;6]); (n_rdm2_f_bbbb_ovoo,[6;7;6;6]); (n_rdm2_f_bbbb_vooo,[7;6;6;6]); (n_rdm2_f_bbbb_oovv,[6;6;7;7]); (n_rdm2_f_bbbb_ovov,[6;7;6;7]); (n_rdm2_f_bbbb_ovvo,[6;7;7;6]); (n_rdm2_f_bbbb_voov,[7;6;6;7]); (n_rdm2_f_bbbb_vovo,[7;6;7;6]); (n_rdm2_f_bbbb_vvoo,[7;7;6;6]); (n_rdm2_f_bbbb_ovvv,[6;7;7;7]); (n_rdm2_f_bbbb_vovv,[7;6;7;7]); (n_rdm2_f_bbbb_vvov,[7;7;6;7]); (n_rdm2_f_bbbb_vvvo,[7;7;7;6]); (n_rdm2_f_bbbb_vvvv,[7;7;7;7])].

