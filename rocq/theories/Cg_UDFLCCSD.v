(** Generated by tools/translate_codegen.py from ebcc/codegen/UDFLCCSD.py; one statement per source line
    (the number in the comment before it). *)
From Coq Require Import ZArith List.
From Verif Require Import CgModel CgNames.
Import ListNotations.

(** ebcc/codegen/UDFLCCSD.py:17-40 [energy] *)
Definition UDFLCCSD_energy : prog := mkprog
 [(n_t1'aa,[4;5]); (n_f'aa'ov,[4;5]); (n_f'bb'ov,[6;7]); (n_t1'bb,[6;7]); (n_v'aa'xov,[2;4;5]); (n_t2'aaaa,[4;4;5;5]); (n_t2'abab,[4;6;5;7]); (n_t2'bbbb,[6;6;7;7]); (n_v'bb'xov,[2;6;7])]
 [(*30*) Assign n_e_cc (Plain (Einsum [(n_t1'aa,[0;1]); (n_f'aa'ov,[0;1])] []));
  (*31*) AddTo n_e_cc (Plain (Einsum [(n_f'bb'ov,[0;1]); (n_t1'bb,[0;1])] []));
  (*32*) Assign (T 1) (Plain (Einsum [(n_v'aa'xov,[0;1;2]); (n_t2'aaaa,[3;1;4;2])] [3;4;0]));
  (*33*) AddTo n_e_cc (Plain (Einsum [(n_v'aa'xov,[0;1;2]); (T 1,[1;2;0])] []));
  (*34*) Del (T 1);
  (*35*) Assign (T 2) (Plain (Einsum [(n_t2'abab,[0;1;2;3]); (n_v'aa'xov,[4;0;2])] [1;3;4]));
  (*36*) AddTo (T 2) (Plain (Einsum [(n_t2'bbbb,[0;1;2;3]); (n_v'bb'xov,[4;1;3])] [0;2;4]));
  (*37*) AddTo n_e_cc (Plain (Einsum [(T 2,[0;1;2]); (n_v'bb'xov,[2;0;1])] []));
  (*38*) Del (T 2)]
 [(n_e_cc,[])].

(** ebcc/codegen/UDFLCCSD.py:42-238 [update_amps] *)
Definition UDFLCCSD_update_amps : prog := mkprog
 [(n_v'aa'xov,[2;4;5]); (n_v'aa'xoo,[2;4;4]); (n_t2'aaaa,[4;4;5;5]); (n_v'bb'xov,[2;6;7]); (n_t2'abab,[4;6;5;7]); (n_t1'aa,[4;5]); (n_f'aa'oo,[4;4]); (n_f'aa'ov,[4;5]); (n_v'aa'xvv,[2;5;5]); (n_f'bb'ov,[6;7]); (n_t1'bb,[6;7]); (n_f'aa'vv,[5;5]); (n_t2'bbbb,[6;6;7;7]); (n_v'bb'xvv,[2;7;7]); (n_v'bb'xoo,[2;6;6]); (n_f'bb'oo,[6;6]); (n_f'bb'vv,[7;7])]
 [(*56*) Assign (T 1) (Plain (Einsum [(n_v'aa'xov,[0;1;2]); (n_v'aa'xoo,[0;3;4])] [3;4;1;2]));
  (*58*) Assign n_t1new'aa (Times (Einsum [(n_t2'aaaa,[0;1;2;3]); (T 1,[4;0;1;3])] [4;2]) (-2) 1);
  (*59*) Assign (T 2) (Plain (Einsum [(n_v'bb'xov,[0;1;2]); (n_v'aa'xoo,[0;3;4])] [3;4;1;2]));
  (*60*) AddTo n_t1new'aa (Times (Einsum [(n_t2'abab,[0;1;2;3]); (T 2,[4;0;1;3])] [4;2]) (-1) 1);
  (*61*) AddTo n_t1new'aa (Times (Einsum [(n_t1'aa,[0;1]); (n_f'aa'oo,[2;0])] [2;1]) (-1) 1);
  (*62*) AddTo n_t1new'aa (Times (Einsum [(n_f'aa'ov,[0;1]); (n_t2'aaaa,[2;0;3;1])] [2;3]) (2) 1);
  (*63*) AddTo n_t1new'aa (Plain (Copy n_f'aa'ov));
  (*64*) Assign (T 3) (Plain (Einsum [(n_v'aa'xvv,[0;1;2]); (n_t1'aa,[3;2])] [3;1;0]));
  (*65*) AddTo n_t1new'aa (Times (Einsum [(T 3,[0;1;2]); (n_v'aa'xoo,[2;3;0])] [3;1]) (-1) 1);
  (*66*) AddTo n_t1new'aa (Plain (Einsum [(n_t2'abab,[0;1;2;3]); (n_f'bb'ov,[1;3])] [0;2]));
  (*67*) Assign (T 4) (Plain (Einsum [(n_v'aa'xov,[0;1;2]); (n_t1'aa,[1;2])] [0]));
  (*68*) Assign (T 6) (Plain (Copy (T 4)));
  (*69*) Del (T 4);
  (*70*) Assign (T 5) (Plain (Einsum [(n_t1'bb,[0;1]); (n_v'bb'xov,[2;0;1])] [2]));
  (*71*) AddTo (T 6) (Plain (Copy (T 5)));
  (*72*) Del (T 5);
  (*73*) AddTo n_t1new'aa (Plain (Einsum [(n_v'aa'xov,[0;1;2]); (T 6,[0])] [1;2]));
  (*74*) AddTo n_t1new'aa (Plain (Einsum [(n_f'aa'vv,[0;1]); (n_t1'aa,[2;1])] [2;0]));
  (*75*) Assign (T 7) (Plain (Einsum [(n_v'aa'xov,[0;1;2]); (n_t2'aaaa,[3;1;4;2])] [3;4;0]));
  (*76*) Assign (T 9) (Times (Copy (T 7)) (2) 1);
  (*77*) Assign (T 8) (Plain (Einsum [(n_t2'abab,[0;1;2;3]); (n_v'bb'xov,[4;1;3])] [0;2;4]));
  (*78*) AddTo (T 9) (Plain (Copy (T 8)));
  (*79*) AddTo n_t1new'aa (Plain (Einsum [(T 9,[0;1;2]); (n_v'aa'xvv,[2;3;1])] [0;3]));
  (*80*) Del (T 9);
  (*81*) Assign n_t1new'bb (Times (Einsum [(n_t2'bbbb,[0;1;2;3]); (n_f'bb'ov,[1;3])] [0;2]) (2) 1);
  (*82*) Assign (T 10) (Plain (Einsum [(n_t1'bb,[0;1]); (n_v'bb'xvv,[2;3;1])] [0;3;2]));
  (*83*) AddTo n_t1new'bb (Times (Einsum [(n_v'bb'xoo,[0;1;2]); (T 10,[2;3;0])] [1;3]) (-1) 1);
  (*84*) Assign (T 11) (Plain (Einsum [(n_v'bb'xoo,[0;1;2]); (n_v'aa'xov,[0;3;4])] [3;1;2;4]));
  (*85*) AddTo n_t1new'bb (Times (Einsum [(T 11,[0;1;2;3]); (n_t2'abab,[0;2;3;4])] [1;4]) (-1) 1);
  (*86*) Del (T 11);
  (*87*) AddTo n_t1new'bb (Plain (Copy n_f'bb'ov));
  (*88*) Assign (T 12) (Plain (Einsum [(n_v'bb'xoo,[0;1;2]); (n_v'bb'xov,[0;3;4])] [1;2;3;4]));
  (*89*) AddTo n_t1new'bb (Times (Einsum [(n_t2'bbbb,[0;1;2;3]); (T 12,[4;0;1;3])] [4;2]) (-2) 1);
  (*90*) AddTo n_t1new'bb (Plain (Einsum [(n_t2'abab,[0;1;2;3]); (n_f'aa'ov,[0;2])] [1;3]));
  (*91*) AddTo n_t1new'bb (Times (Einsum [(n_t1'bb,[0;1]); (n_f'bb'oo,[2;0])] [2;1]) (-1) 1);
  (*92*) AddTo n_t1new'bb (Plain (Einsum [(n_v'bb'xov,[0;1;2]); (T 6,[0])] [1;2]));
  (*93*) Del (T 6);
  (*94*) AddTo n_t1new'bb (Plain (Einsum [(n_t1'bb,[0;1]); (n_f'bb'vv,[2;1])] [0;2]));
  (*95*) Assign (T 13) (Plain (Einsum [(n_t2'abab,[0;1;2;3]); (n_v'aa'xov,[4;0;2])] [1;3;4]));
  (*96*) Assign (T 15) (Times (Copy (T 13)) (1) 2);
  (*97*) Assign (T 14) (Plain (Einsum [(n_v'bb'xov,[0;1;2]); (n_t2'bbbb,[3;1;4;2])] [3;4;0]));
  (*98*) AddTo (T 15) (Plain (Copy (T 14)));
  (*99*) AddTo n_t1new'bb (Times (Einsum [(n_v'bb'xvv,[0;1;2]); (T 15,[3;2;0])] [3;1]) (2) 1);
  (*100*) Assign (T 16) (Plain (Einsum [(n_t2'aaaa,[0;1;2;3]); (n_f'aa'oo,[4;1])] [4;0;2;3]));
  (*102*) Assign n_t2new'aaaa (Times (Transpose (T 16) [1;0;3;2]) (2) 1);
  (*103*) Assign (T 17) (Plain (Einsum [(T 1,[0;1;2;3]); (n_t1'aa,[1;4])] [0;2;4;3]));
  (*104*) Del (T 1);
  (*105*) AddTo n_t2new'aaaa (Plain (Transpose (T 17) [0;1;3;2]));
  (*106*) AddTo n_t2new'aaaa (Times (Transpose (T 16) [0;1;3;2]) (-2) 1);
  (*107*) Del (T 16);
  (*108*) Assign (T 18) (Plain (Einsum [(n_v'aa'xoo,[0;1;2]); (n_v'aa'xoo,[0;3;4])] [3;1;2;4]));
  (*109*) AddTo n_t2new'aaaa (Times (Einsum [(n_t2'aaaa,[0;1;2;3]); (T 18,[4;0;5;1])] [5;4;2;3]) (2) 1);
  (*110*) Del (T 18);
  (*111*) Assign (T 19) (Plain (Einsum [(n_t2'aaaa,[0;1;2;3]); (n_f'aa'vv,[4;3])] [0;1;4;2]));
  (*112*) AddTo n_t2new'aaaa (Times (Transpose (T 19) [1;0;2;3]) (2) 1);
  (*113*) AddTo n_t2new'aaaa (Times (Transpose (T 19) [1;0;3;2]) (-2) 1);
  (*114*) Del (T 19);
  (*115*) Assign (T 20) (Plain (Einsum [(n_v'aa'xoo,[0;1;2]); (n_v'aa'xvv,[0;3;4])] [1;2;3;4]));
  (*116*) Assign (T 21) (Plain (Einsum [(T 20,[0;1;2;3]); (n_t2'aaaa,[4;1;5;3])] [4;0;5;2]));
  (*117*) AddTo n_t2new'aaaa (Times (Transpose (T 21) [1;0;3;2]) (-2) 1);
  (*118*) Assign (T 23) (Plain (Transpose n_v'aa'xov [1;2;0]));
  (*119*) Assign (T 22) (Plain (Einsum [(n_v'aa'xoo,[0;1;2]); (n_t1'aa,[2;3])] [1;3;0]));
  (*120*) AddTo (T 23) (Times (Copy (T 22)) (-1) 1);
  (*121*) Del (T 22);
  (*122*) AddTo (T 23) (Times (Copy (T 7)) (2) 1);
  (*123*) AddTo (T 23) (Plain (Copy (T 8)));
  (*124*) Assign (T 24) (Plain (Einsum [(T 23,[0;1;2]); (n_v'aa'xov,[2;3;4])] [0;3;1;4]));
  (*125*) Del (T 23);
  (*126*) AddTo n_t2new'aaaa (Plain (Transpose (T 24) [1;0;3;2]));
  (*127*) AddTo n_t2new'aaaa (Times (Transpose (T 21) [1;0;2;3]) (2) 1);
  (*128*) AddTo n_t2new'aaaa (Times (Transpose (T 24) [1;0;2;3]) (-1) 1);
  (*129*) Del (T 24);
  (*130*) AddTo n_t2new'aaaa (Times (Copy (T 17)) (-1) 1);
  (*131*) Del (T 17);
  (*132*) Assign (T 25) (Plain (Einsum [(n_v'aa'xov,[0;1;2]); (T 3,[3;4;0])] [3;1;2;4]));
  (*133*) AddTo n_t2new'aaaa (Plain (Transpose (T 25) [0;1;3;2]));
  (*134*) AddTo n_t2new'aaaa (Times (Copy (T 25)) (-1) 1);
  (*135*) AddTo n_t2new'aaaa (Times (Transpose (T 25) [1;0;3;2]) (-1) 1);
  (*136*) AddTo n_t2new'aaaa (Plain (Transpose (T 25) [1;0;2;3]));
  (*137*) Del (T 25);
  (*138*) AddTo n_t2new'aaaa (Times (Transpose (T 21) [0;1;3;2]) (2) 1);
  (*139*) Assign (T 26) (Plain (Copy (T 7)));
  (*140*) Del (T 7);
  (*141*) AddTo (T 26) (Times (Copy (T 8)) (1) 2);
  (*142*) Del (T 8);
  (*143*) Assign (T 27) (Times (Einsum [(n_v'aa'xov,[0;1;2]); (T 26,[3;4;0])] [3;1;4;2]) (2) 1);
  (*144*) AddTo n_t2new'aaaa (Times (Transpose (T 27) [0;1;3;2]) (-1) 1);
  (*145*) AddTo n_t2new'aaaa (Times (Copy (T 21)) (-2) 1);
  (*146*) Del (T 21);
  (*147*) AddTo n_t2new'aaaa (Plain (Copy (T 27)));
  (*148*) Del (T 27);
  (*149*) Assign (T 28) (Plain (Einsum [(n_v'aa'xvv,[0;1;2]); (n_v'aa'xvv,[0;3;4])] [3;1;2;4]));
  (*150*) AddTo n_t2new'aaaa (Times (Einsum [(T 28,[0;1;2;3]); (n_t2'aaaa,[4;5;1;3])] [4;5;0;2]) (-2) 1);
  (*151*) Del (T 28);
  (*152*) Assign (T 36) (Plain (Einsum [(n_t2'bbbb,[0;1;2;3]); (n_f'bb'oo,[4;1])] [4;0;2;3]));
  (*153*) Assign n_t2new'bbbb (Times (Transpose (T 36) [1;0;3;2]) (2) 1);
  (*154*) Assign (T 37) (Plain (Einsum [(n_v'bb'xoo,[0;1;2]); (n_v'bb'xoo,[0;3;4])] [3;1;2;4]));
  (*155*) AddTo n_t2new'bbbb (Times (Einsum [(T 37,[0;1;2;3]); (n_t2'bbbb,[1;3;4;5])] [2;0;4;5]) (2) 1);
  (*156*) Del (T 37);
  (*157*) AddTo n_t2new'bbbb (Times (Transpose (T 36) [0;1;3;2]) (-2) 1);
  (*158*) Del (T 36);
  (*159*) Assign (T 38) (Plain (Einsum [(n_t1'bb,[0;1]); (T 12,[2;0;3;4])] [2;3;1;4]));
  (*160*) Del (T 12);
  (*161*) AddTo n_t2new'bbbb (Plain (Transpose (T 38) [0;1;3;2]));
  (*162*) Assign (T 39) (Plain (Einsum [(n_t2'bbbb,[0;1;2;3]); (n_f'bb'vv,[4;3])] [0;1;4;2]));
  (*163*) AddTo n_t2new'bbbb (Times (Transpose (T 39) [1;0;2;3]) (2) 1);
  (*164*) AddTo n_t2new'bbbb (Times (Transpose (T 39) [1;0;3;2]) (-2) 1);
  (*165*) Del (T 39);
  (*166*) Assign (T 33) (Plain (Einsum [(n_v'bb'xoo,[0;1;2]); (n_v'bb'xvv,[0;3;4])] [1;2;3;4]));
  (*167*) Assign (T 40) (Plain (Einsum [(T 33,[0;1;2;3]); (n_t2'bbbb,[4;1;5;3])] [4;0;5;2]));
  (*168*) AddTo n_t2new'bbbb (Times (Transpose (T 40) [1;0;3;2]) (-2) 1);
  (*169*) Assign (T 41) (Plain (Transpose n_v'bb'xov [1;2;0]));
  (*170*) Assign (T 30) (Plain (Einsum [(n_v'bb'xoo,[0;1;2]); (n_t1'bb,[2;3])] [1;3;0]));
  (*171*) AddTo (T 41) (Times (Copy (T 30)) (-1) 1);
  (*172*) AddTo (T 41) (Plain (Copy (T 13)));
  (*173*) AddTo (T 41) (Times (Copy (T 14)) (2) 1);
  (*174*) Assign (T 42) (Plain (Einsum [(T 41,[0;1;2]); (n_v'bb'xov,[2;3;4])] [0;3;1;4]));
  (*175*) Del (T 41);
  (*176*) AddTo n_t2new'bbbb (Plain (Transpose (T 42) [1;0;3;2]));
  (*177*) AddTo n_t2new'bbbb (Times (Transpose (T 40) [1;0;2;3]) (2) 1);
  (*178*) AddTo n_t2new'bbbb (Times (Transpose (T 42) [1;0;2;3]) (-1) 1);
  (*179*) Del (T 42);
  (*180*) AddTo n_t2new'bbbb (Times (Copy (T 38)) (-1) 1);
  (*181*) Del (T 38);
  (*182*) Assign (T 43) (Plain (Einsum [(n_v'bb'xov,[0;1;2]); (T 10,[3;4;0])] [3;1;2;4]));
  (*183*) AddTo n_t2new'bbbb (Plain (Transpose (T 43) [0;1;3;2]));
  (*184*) AddTo n_t2new'bbbb (Times (Copy (T 43)) (-1) 1);
  (*185*) AddTo n_t2new'bbbb (Times (Transpose (T 43) [1;0;3;2]) (-1) 1);
  (*186*) AddTo n_t2new'bbbb (Plain (Transpose (T 43) [1;0;2;3]));
  (*187*) Del (T 43);
  (*188*) AddTo n_t2new'bbbb (Times (Transpose (T 40) [0;1;3;2]) (2) 1);
  (*189*) Assign (T 44) (Plain (Copy (T 13)));
  (*190*) AddTo (T 44) (Times (Copy (T 14)) (2) 1);
  (*191*) AddTo n_t2new'bbbb (Times (Einsum [(n_v'bb'xov,[0;1;2]); (T 44,[3;4;0])] [3;1;2;4]) (-1) 1);
  (*192*) Del (T 44);
  (*193*) AddTo n_t2new'bbbb (Times (Copy (T 40)) (-2) 1);
  (*194*) Del (T 40);
  (*195*) AddTo n_t2new'bbbb (Times (Einsum [(T 15,[0;1;2]); (n_v'bb'xov,[2;3;4])] [0;3;1;4]) (2) 1);
  (*196*) Del (T 15);
  (*197*) Assign (T 45) (Plain (Einsum [(n_v'bb'xvv,[0;1;2]); (n_v'bb'xvv,[0;3;4])] [3;1;2;4]));
  (*198*) AddTo n_t2new'bbbb (Times (Einsum [(T 45,[0;1;2;3]); (n_t2'bbbb,[4;5;1;3])] [4;5;0;2]) (-2) 1);
  (*199*) Del (T 45);
  (*200*) Assign n_t2new'abab (Times (Einsum [(n_f'bb'oo,[0;1]); (n_t2'abab,[2;1;3;4])] [2;0;3;4]) (-1) 1);
  (*201*) Assign (T 29) (Plain (Einsum [(n_v'bb'xoo,[0;1;2]); (n_v'aa'xoo,[0;3;4])] [3;4;1;2]));
  (*202*) AddTo n_t2new'abab (Plain (Einsum [(n_t2'abab,[0;1;2;3]); (T 29,[4;0;5;1])] [4;5;2;3]));
  (*203*) Del (T 29);
  (*204*) AddTo n_t2new'abab (Times (Einsum [(n_t2'abab,[0;1;2;3]); (n_f'aa'oo,[4;0])] [4;1;2;3]) (-1) 1);
  (*205*) AddTo n_t2new'abab (Plain (Einsum [(n_f'aa'vv,[0;1]); (n_t2'abab,[2;3;1;4])] [2;3;0;4]));
  (*206*) AddTo n_t2new'abab (Plain (Einsum [(n_t2'abab,[0;1;2;3]); (n_f'bb'vv,[4;3])] [0;1;2;4]));
  (*207*) AddTo n_t2new'abab (Times (Einsum [(n_t2'abab,[0;1;2;3]); (T 20,[4;0;5;2])] [4;1;5;3]) (-1) 1);
  (*208*) Del (T 20);
  (*209*) Assign (T 31) (Times (Transpose n_v'bb'xov [1;2;0]) (1) 2);
  (*210*) AddTo (T 31) (Times (Copy (T 30)) (-1) 2);
  (*211*) Del (T 30);
  (*212*) AddTo (T 31) (Times (Copy (T 13)) (1) 2);
  (*213*) Del (T 13);
  (*214*) AddTo (T 31) (Plain (Copy (T 14)));
  (*215*) Del (T 14);
  (*216*) AddTo n_t2new'abab (Times (Einsum [(n_v'aa'xov,[0;1;2]); (T 31,[3;4;0])] [1;3;2;4]) (2) 1);
  (*217*) Del (T 31);
  (*218*) AddTo n_t2new'abab (Times (Einsum [(T 2,[0;1;2;3]); (n_t1'aa,[1;4])] [0;2;4;3]) (-1) 1);
  (*219*) Del (T 2);
  (*220*) AddTo n_t2new'abab (Plain (Einsum [(T 3,[0;1;2]); (n_v'bb'xov,[2;3;4])] [0;3;1;4]));
  (*221*) Del (T 3);
  (*222*) AddTo n_t2new'abab (Plain (Einsum [(n_v'aa'xov,[0;1;2]); (T 10,[3;4;0])] [1;3;2;4]));
  (*223*) Del (T 10);
  (*224*) Assign (T 32) (Plain (Einsum [(n_v'bb'xoo,[0;1;2]); (n_v'aa'xvv,[0;3;4])] [1;2;3;4]));
  (*225*) AddTo n_t2new'abab (Times (Einsum [(n_t2'abab,[0;1;2;3]); (T 32,[4;1;5;2])] [0;4;5;3]) (-1) 1);
  (*226*) Del (T 32);
  (*227*) AddTo n_t2new'abab (Times (Einsum [(n_t2'abab,[0;1;2;3]); (T 33,[4;1;5;3])] [0;4;2;5]) (-1) 1);
  (*228*) Del (T 33);
  (*229*) AddTo n_t2new'abab (Times (Einsum [(T 26,[0;1;2]); (n_v'bb'xov,[2;3;4])] [0;3;1;4]) (2) 1);
  (*230*) Del (T 26);
  (*231*) Assign (T 34) (Plain (Einsum [(n_v'bb'xvv,[0;1;2]); (n_v'aa'xoo,[0;3;4])] [3;4;1;2]));
  (*232*) AddTo n_t2new'abab (Times (Einsum [(T 34,[0;1;2;3]); (n_t2'abab,[1;4;5;3])] [0;4;5;2]) (-1) 1);
  (*233*) Del (T 34);
  (*234*) Assign (T 35) (Plain (Einsum [(n_v'bb'xvv,[0;1;2]); (n_v'aa'xvv,[0;3;4])] [3;4;1;2]));
  (*235*) AddTo n_t2new'abab (Plain (Einsum [(T 35,[0;1;2;3]); (n_t2'abab,[4;5;1;3])] [4;5;0;2]));
  (*236*) Del (T 35)]
 [(n_t1new'aa,[4;5]); (n_t1new'bb,[6;7]); (n_t2new'aaaa,[4;4;5;5]); (n_t2new'bbbb,[6;6;7;7]); (n_t2new'abab,[4;6;5;7])].

