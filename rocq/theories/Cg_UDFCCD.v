(** Generated by tools/translate_codegen.py from ebcc/codegen/UDFCCD.py; one statement per source line
    (the number in the comment before it). *)
From Coq Require Import ZArith List.
From Verif Require Import CgModel CgNames.
Import ListNotations.

(** ebcc/codegen/UDFCCD.py:19-44 [energy] *)
Definition UDFCCD_energy : prog := mkprog
 [(n_t2'bbbb,[6;6;7;7]); (n_v'bbb'xov,[2;6;7]); (n_v'baa'xov,[2;4;5]); (n_t2'aaaa,[4;4;5;5]); (n_t2'abab,[4;6;5;7])]
 [(*36*) Assign (T 1) (Plain (Einsum [(n_t2'bbbb,[0;1;2;3]); (n_v'bbb'xov,[4;1;3])] [4;0;2]));
  (*37*) Assign (T 2) (Plain (Einsum [(n_v'baa'xov,[0;1;2]); (n_t2'aaaa,[3;1;4;2])] [0;3;4]));
  (*38*) AddTo (T 2) (Plain (Einsum [(n_t2'abab,[0;1;2;3]); (n_v'bbb'xov,[4;1;3])] [4;0;2]));
  (*39*) Assign n_e_cc (Plain (Einsum [(T 1,[0;1;2]); (n_v'bbb'xov,[0;1;2])] []));
  (*40*) Del (T 1);
  (*41*) AddTo n_e_cc (Plain (Einsum [(T 2,[0;1;2]); (n_v'baa'xov,[0;1;2])] []));
  (*42*) Del (T 2)]
 [(n_e_cc,[])].

(** ebcc/codegen/UDFCCD.py:46-278 [update_amps] *)
Definition UDFCCD_update_amps : prog := mkprog
 [(n_v'bbb'xov,[2;6;7]); (n_v'baa'xov,[2;4;5]); (n_t2'abab,[4;6;5;7]); (n_t2'bbbb,[6;6;7;7]); (n_t2'aaaa,[4;4;5;5]); (n_v'bbb'xoo,[2;6;6]); (n_v'bbb'xvv,[2;7;7]); (n_v'baa'xvv,[2;5;5]); (n_v'baa'xoo,[2;4;4]); (n_f'bb'oo,[6;6]); (n_f'bb'vv,[7;7]); (n_f'aa'vv,[5;5]); (n_f'aa'oo,[4;4])]
 [(*67*) Assign (T 18) (Plain (Einsum [(n_v'bbb'xov,[0;1;2]); (n_v'bbb'xov,[0;3;4])] [3;1;4;2]));
  (*68*) Assign (T 11) (Plain (Einsum [(n_v'baa'xov,[0;1;2]); (n_v'baa'xov,[0;3;4])] [3;1;4;2]));
  (*69*) Assign (T 30) (Plain (Einsum [(n_t2'abab,[0;1;2;3]); (n_v'baa'xov,[4;0;2])] [4;1;3]));
  (*70*) Assign (T 31) (Plain (Einsum [(n_v'bbb'xov,[0;1;2]); (n_t2'bbbb,[3;1;4;2])] [0;3;4]));
  (*71*) Assign (T 19) (Plain (Transpose (T 18) [1;0;2;3]));
  (*72*) AddTo (T 19) (Times (Transpose (T 18) [1;0;3;2]) (-1) 1);
  (*73*) Assign (T 5) (Plain (Einsum [(n_t2'abab,[0;1;2;3]); (n_v'bbb'xov,[4;1;3])] [4;0;2]));
  (*74*) Assign (T 4) (Plain (Einsum [(n_v'baa'xov,[0;1;2]); (n_t2'aaaa,[3;1;4;2])] [0;3;4]));
  (*75*) Assign (T 14) (Plain (Transpose (T 11) [1;0;2;3]));
  (*76*) AddTo (T 14) (Times (Transpose (T 11) [1;0;3;2]) (-1) 1);
  (*77*) Assign (T 32) (Times (Copy (T 30)) (1) 2);
  (*78*) AddTo (T 32) (Plain (Copy (T 31)));
  (*79*) Assign (T 42) (Plain (Einsum [(n_v'bbb'xoo,[0;1;2]); (n_v'bbb'xvv,[0;3;4])] [1;2;3;4]));
  (*80*) Assign (T 54) (Plain (Einsum [(n_t2'bbbb,[0;1;2;3]); (T 19,[1;4;5;3])] [4;0;5;2]));
  (*81*) Assign (T 8) (Times (Copy (T 4)) (2) 1);
  (*82*) AddTo (T 8) (Plain (Copy (T 5)));
  (*83*) Assign (T 13) (Plain (Einsum [(n_v'baa'xvv,[0;1;2]); (n_v'baa'xoo,[0;3;4])] [3;4;1;2]));
  (*84*) Assign (T 15) (Plain (Einsum [(n_t2'aaaa,[0;1;2;3]); (T 14,[1;4;5;3])] [4;0;5;2]));
  (*85*) Assign (T 6) (Times (Copy (T 4)) (2) 1);
  (*86*) AddTo (T 6) (Plain (Copy (T 5)));
  (*87*) Assign (T 57) (Plain (Einsum [(n_t2'abab,[0;1;2;3]); (T 14,[0;4;5;2])] [4;1;5;3]));
  (*88*) Del (T 14);
  (*89*) Assign (T 60) (Plain (Einsum [(T 18,[0;1;2;3]); (n_t2'bbbb,[4;5;3;2])] [4;5;1;0]));
  (*90*) Assign (T 33) (Times (Einsum [(T 32,[0;1;2]); (n_v'bbb'xov,[0;1;3])] [2;3]) (2) 1);
  (*91*) Assign (T 55) (Plain (Transpose (T 42) [1;0;3;2]));
  (*92*) AddTo (T 55) (Times (Transpose (T 54) [1;0;3;2]) (-2) 1);
  (*93*) Del (T 54);
  (*94*) Assign (T 48) (Plain (Einsum [(n_v'bbb'xoo,[0;1;2]); (n_v'bbb'xoo,[0;3;4])] [1;3;4;2]));
  (*95*) Assign (T 34) (Plain (Copy (T 30)));
  (*96*) AddTo (T 34) (Times (Copy (T 31)) (2) 1);
  (*97*) Assign (T 46) (Times (Einsum [(n_v'bbb'xov,[0;1;2]); (T 32,[0;3;2])] [3;1]) (2) 1);
  (*98*) Del (T 32);
  (*99*) Assign (T 28) (Plain (Einsum [(n_v'baa'xoo,[0;1;2]); (n_v'bbb'xoo,[0;3;4])] [1;2;3;4]));
  (*100*) Assign (T 35) (Plain (Copy (T 4)));
  (*101*) AddTo (T 35) (Times (Copy (T 5)) (1) 2);
  (*102*) Assign (T 9) (Plain (Einsum [(T 8,[0;1;2]); (n_v'baa'xov,[0;3;4])] [3;1;4;2]));
  (*103*) Assign (T 37) (Plain (Einsum [(n_v'bbb'xov,[0;1;2]); (n_v'baa'xov,[0;3;4])] [3;1;4;2]));
  (*104*) Assign (T 40) (Plain (Einsum [(n_v'bbb'xov,[0;1;2]); (T 8,[0;3;4])] [3;1;4;2]));
  (*105*) Del (T 8);
  (*106*) Assign (T 23) (Plain (Einsum [(T 11,[0;1;2;3]); (n_t2'aaaa,[4;5;3;2])] [4;5;1;0]));
  (*107*) Assign (T 16) (Plain (Transpose (T 13) [1;0;3;2]));
  (*108*) AddTo (T 16) (Times (Transpose (T 15) [1;0;3;2]) (-2) 1);
  (*109*) Del (T 15);
  (*110*) Assign (T 1) (Plain (Einsum [(n_v'baa'xoo,[0;1;2]); (n_v'baa'xoo,[0;3;4])] [3;1;2;4]));
  (*111*) Assign (T 26) (Times (Einsum [(n_v'baa'xov,[0;1;2]); (T 6,[0;3;2])] [1;3]) (1) 2);
  (*112*) Assign (T 20) (Plain (Einsum [(n_t2'abab,[0;1;2;3]); (T 19,[1;4;3;5])] [0;4;2;5]));
  (*113*) Del (T 19);
  (*114*) Assign (T 58) (Plain (Einsum [(n_t2'abab,[0;1;2;3]); (T 57,[0;4;2;5])] [4;1;5;3]));
  (*115*) Del (T 57);
  (*116*) Assign (T 61) (Times (Einsum [(n_t2'bbbb,[0;1;2;3]); (T 60,[4;5;0;1])] [5;4;2;3]) (-1) 1);
  (*117*) Del (T 60);
  (*118*) Assign (T 59) (Plain (Einsum [(n_t2'bbbb,[0;1;2;3]); (T 42,[4;1;5;3])] [0;4;2;5]));
  (*119*) Assign (T 50) (Plain (Einsum [(n_t2'bbbb,[0;1;2;3]); (n_f'bb'oo,[4;1])] [4;0;2;3]));
  (*120*) Assign (T 53) (Plain (Einsum [(T 31,[0;1;2]); (T 30,[0;3;4])] [3;1;4;2]));
  (*121*) Del (T 30);
  (*121*) Del (T 31);
  (*122*) Assign (T 52) (Times (Copy n_f'bb'vv) (-1) 1);
  (*123*) AddTo (T 52) (Plain (Copy (T 33)));
  (*124*) Assign (T 56) (Plain (Einsum [(T 55,[0;1;2;3]); (n_t2'bbbb,[4;1;5;3])] [4;0;5;2]));
  (*125*) Del (T 55);
  (*126*) Assign (T 49) (Plain (Einsum [(T 48,[0;1;2;3]); (n_t2'bbbb,[1;3;4;5])] [2;0;4;5]));
  (*127*) Del (T 48);
  (*128*) Assign (T 62) (Plain (Einsum [(n_v'bbb'xvv,[0;1;2]); (n_v'bbb'xvv,[0;3;4])] [3;1;2;4]));
  (*129*) Assign (T 51) (Plain (Einsum [(n_v'bbb'xov,[0;1;2]); (T 34,[0;3;4])] [3;1;4;2]));
  (*130*) Assign (T 63) (Times (Einsum [(n_t2'bbbb,[0;1;2;3]); (T 46,[4;1])] [0;4;2;3]) (-1) 1);
  (*131*) Assign (T 29) (Plain (Einsum [(T 28,[0;1;2;3]); (n_t2'abab,[1;3;4;5])] [0;2;4;5]));
  (*132*) Del (T 28);
  (*133*) Assign (T 43) (Plain (Einsum [(n_v'baa'xoo,[0;1;2]); (n_v'bbb'xvv,[0;3;4])] [1;2;3;4]));
  (*134*) Assign (T 36) (Times (Copy n_f'aa'vv) (-1) 1);
  (*135*) AddTo (T 36) (Times (Einsum [(n_v'baa'xov,[0;1;2]); (T 35,[0;1;3])] [2;3]) (2) 1);
  (*136*) Del (T 35);
  (*137*) Assign (T 39) (Plain (Transpose (T 13) [1;0;3;2]));
  (*138*) AddTo (T 39) (Times (Einsum [(T 11,[0;1;2;3]); (n_t2'aaaa,[4;1;5;2])] [0;4;3;5]) (2) 1);
  (*139*) AddTo (T 39) (Times (Copy (T 9)) (-1) 1);
  (*140*) Assign (T 47) (Plain (Einsum [(T 6,[0;1;2]); (n_v'baa'xov,[0;3;2])] [1;3]));
  (*141*) Assign (T 45) (Plain (Einsum [(n_v'baa'xvv,[0;1;2]); (n_v'bbb'xvv,[0;3;4])] [1;2;3;4]));
  (*142*) Assign (T 38) (Plain (Einsum [(n_v'bbb'xoo,[0;1;2]); (n_v'baa'xvv,[0;3;4])] [1;2;3;4]));
  (*143*) AddTo (T 38) (Times (Einsum [(T 37,[0;1;2;3]); (n_t2'abab,[0;4;5;3])] [1;4;2;5]) (-1) 1);
  (*144*) Assign (T 44) (Plain (Einsum [(n_t2'abab,[0;1;2;3]); (T 37,[4;5;2;3])] [0;4;1;5]));
  (*145*) Assign (T 41) (Times (Einsum [(n_t2'abab,[0;1;2;3]); (T 18,[4;1;3;5])] [0;4;2;5]) (-1) 1);
  (*146*) AddTo (T 41) (Plain (Copy (T 40)));
  (*147*) Assign (T 7) (Plain (Einsum [(T 6,[0;1;2]); (n_v'baa'xov,[0;1;3])] [2;3]));
  (*148*) Assign (T 24) (Times (Einsum [(T 23,[0;1;2;3]); (n_t2'aaaa,[2;3;4;5])] [1;0;4;5]) (-1) 1);
  (*149*) Del (T 23);
  (*150*) Assign (T 22) (Plain (Einsum [(n_t2'aaaa,[0;1;2;3]); (T 13,[4;1;5;3])] [0;4;2;5]));
  (*151*) Del (T 13);
  (*152*) Assign (T 17) (Plain (Einsum [(n_t2'aaaa,[0;1;2;3]); (T 16,[4;1;5;3])] [4;0;5;2]));
  (*153*) Del (T 16);
  (*154*) Assign (T 2) (Plain (Einsum [(n_t2'aaaa,[0;1;2;3]); (T 1,[4;0;5;1])] [5;4;2;3]));
  (*155*) Del (T 1);
  (*156*) Assign (T 10) (Times (Copy n_f'aa'vv) (-1) 2);
  (*157*) AddTo (T 10) (Times (Einsum [(T 6,[0;1;2]); (n_v'baa'xov,[0;1;3])] [2;3]) (1) 2);
  (*158*) Del (T 6);
  (*159*) Assign (T 27) (Times (Einsum [(T 26,[0;1]); (n_t2'aaaa,[2;0;3;4])] [1;2;3;4]) (-2) 1);
  (*160*) Del (T 26);
  (*161*) Assign (T 3) (Plain (Einsum [(n_f'aa'oo,[0;1]); (n_t2'aaaa,[2;1;3;4])] [0;2;3;4]));
  (*162*) Assign (T 21) (Times (Einsum [(n_t2'abab,[0;1;2;3]); (T 20,[4;1;5;3])] [4;0;5;2]) (-1) 1);
  (*163*) Del (T 20);
  (*164*) Assign (T 25) (Plain (Einsum [(n_v'baa'xvv,[0;1;2]); (n_v'baa'xvv,[0;3;4])] [1;3;4;2]));
  (*165*) Assign (T 12) (Plain (Einsum [(T 5,[0;1;2]); (T 4,[0;3;4])] [3;1;4;2]));
  (*166*) Del (T 4);
  (*166*) Del (T 5);
  (*167*) Assign n_t2new'bbbb (Times (Transpose (T 49) [0;1;3;2]) (-2) 1);
  (*168*) Del (T 49);
  (*169*) AddTo n_t2new'bbbb (Times (Transpose (T 50) [1;0;3;2]) (2) 1);
  (*170*) AddTo n_t2new'bbbb (Times (Transpose (T 50) [0;1;3;2]) (-2) 1);
  (*171*) Del (T 50);
  (*172*) AddTo n_t2new'bbbb (Times (Einsum [(n_t2'bbbb,[0;1;2;3]); (T 33,[4;3])] [0;1;2;4]) (-2) 1);
  (*173*) AddTo n_t2new'bbbb (Plain (Transpose (T 51) [1;0;3;2]));
  (*174*) AddTo n_t2new'bbbb (Times (Einsum [(T 52,[0;1]); (n_t2'bbbb,[2;3;4;1])] [2;3;0;4]) (2) 1);
  (*175*) Del (T 52);
  (*176*) AddTo n_t2new'bbbb (Times (Einsum [(n_f'bb'vv,[0;1]); (n_t2'bbbb,[2;3;4;1])] [2;3;4;0]) (2) 1);
  (*177*) AddTo n_t2new'bbbb (Times (Transpose (T 51) [1;0;2;3]) (-1) 1);
  (*178*) AddTo n_t2new'bbbb (Plain (Transpose (T 18) [1;0;3;2]));
  (*179*) AddTo n_t2new'bbbb (Times (Transpose (T 18) [1;0;2;3]) (-1) 1);
  (*180*) Del (T 18);
  (*181*) AddTo n_t2new'bbbb (Times (Transpose (T 51) [0;1;3;2]) (-1) 1);
  (*182*) AddTo n_t2new'bbbb (Times (Transpose (T 53) [0;1;3;2]) (-2) 1);
  (*183*) AddTo n_t2new'bbbb (Times (Transpose (T 53) [1;0;2;3]) (-2) 1);
  (*184*) AddTo n_t2new'bbbb (Times (Transpose (T 56) [0;1;3;2]) (2) 1);
  (*185*) AddTo n_t2new'bbbb (Times (Transpose (T 58) [1;0;2;3]) (-1) 1);
  (*186*) AddTo n_t2new'bbbb (Times (Copy (T 53)) (2) 1);
  (*187*) AddTo n_t2new'bbbb (Times (Transpose (T 53) [1;0;3;2]) (2) 1);
  (*188*) Del (T 53);
  (*189*) AddTo n_t2new'bbbb (Times (Transpose (T 56) [1;0;3;2]) (-2) 1);
  (*190*) Del (T 56);
  (*191*) AddTo n_t2new'bbbb (Plain (Copy (T 58)));
  (*192*) Del (T 58);
  (*193*) AddTo n_t2new'bbbb (Plain (Copy (T 51)));
  (*194*) Del (T 51);
  (*195*) AddTo n_t2new'bbbb (Times (Copy (T 59)) (-2) 1);
  (*196*) AddTo n_t2new'bbbb (Times (Transpose (T 59) [1;0;2;3]) (2) 1);
  (*197*) Del (T 59);
  (*198*) AddTo n_t2new'bbbb (Times (Copy (T 61)) (2) 1);
  (*199*) Del (T 61);
  (*200*) AddTo n_t2new'bbbb (Times (Einsum [(n_t2'bbbb,[0;1;2;3]); (T 62,[4;2;5;3])] [0;1;4;5]) (-2) 1);
  (*201*) Del (T 62);
  (*202*) AddTo n_t2new'bbbb (Times (Transpose (T 63) [0;1;3;2]) (-2) 1);
  (*203*) AddTo n_t2new'bbbb (Times (Transpose (T 63) [1;0;3;2]) (2) 1);
  (*204*) Del (T 63);
  (*205*) Assign n_t2new'abab (Plain (Copy (T 29)));
  (*206*) Del (T 29);
  (*207*) AddTo n_t2new'abab (Times (Einsum [(n_f'bb'oo,[0;1]); (n_t2'abab,[2;1;3;4])] [2;0;3;4]) (-1) 1);
  (*208*) AddTo n_t2new'abab (Times (Einsum [(n_t2'abab,[0;1;2;3]); (n_f'aa'oo,[4;0])] [4;1;2;3]) (-1) 1);
  (*209*) AddTo n_t2new'abab (Times (Einsum [(n_t2'abab,[0;1;2;3]); (T 33,[4;3])] [0;1;2;4]) (-1) 1);
  (*210*) Del (T 33);
  (*211*) AddTo n_t2new'abab (Plain (Einsum [(T 34,[0;1;2]); (n_v'baa'xov,[0;3;4])] [3;1;4;2]));
  (*212*) Del (T 34);
  (*213*) AddTo n_t2new'abab (Times (Einsum [(n_t2'abab,[0;1;2;3]); (T 36,[2;4])] [0;1;4;3]) (-1) 1);
  (*214*) Del (T 36);
  (*215*) AddTo n_t2new'abab (Plain (Einsum [(n_t2'abab,[0;1;2;3]); (n_f'bb'vv,[4;3])] [0;1;2;4]));
  (*216*) AddTo n_t2new'abab (Plain (Copy (T 37)));
  (*217*) Del (T 37);
  (*218*) AddTo n_t2new'abab (Times (Einsum [(T 38,[0;1;2;3]); (n_t2'abab,[4;0;2;5])] [4;1;3;5]) (-1) 1);
  (*219*) Del (T 38);
  (*220*) AddTo n_t2new'abab (Times (Einsum [(n_t2'abab,[0;1;2;3]); (T 39,[0;4;2;5])] [4;1;5;3]) (-1) 1);
  (*221*) Del (T 39);
  (*222*) AddTo n_t2new'abab (Times (Einsum [(T 41,[0;1;2;3]); (n_t2'bbbb,[4;1;5;3])] [0;4;2;5]) (2) 1);
  (*223*) Del (T 41);
  (*224*) AddTo n_t2new'abab (Plain (Copy (T 40)));
  (*225*) Del (T 40);
  (*226*) AddTo n_t2new'abab (Times (Einsum [(n_t2'abab,[0;1;2;3]); (T 42,[4;1;5;3])] [0;4;2;5]) (-1) 1);
  (*227*) Del (T 42);
  (*228*) AddTo n_t2new'abab (Times (Einsum [(T 43,[0;1;2;3]); (n_t2'abab,[1;4;5;3])] [0;4;5;2]) (-1) 1);
  (*229*) Del (T 43);
  (*230*) AddTo n_t2new'abab (Plain (Einsum [(T 44,[0;1;2;3]); (n_t2'abab,[1;3;4;5])] [0;2;4;5]));
  (*231*) Del (T 44);
  (*232*) AddTo n_t2new'abab (Plain (Einsum [(T 45,[0;1;2;3]); (n_t2'abab,[4;5;1;3])] [4;5;0;2]));
  (*233*) Del (T 45);
  (*234*) AddTo n_t2new'abab (Times (Einsum [(T 46,[0;1]); (n_t2'abab,[2;1;3;4])] [2;0;3;4]) (-1) 1);
  (*235*) Del (T 46);
  (*236*) AddTo n_t2new'abab (Times (Einsum [(T 47,[0;1]); (n_t2'abab,[1;2;3;4])] [0;2;3;4]) (-1) 1);
  (*237*) Del (T 47);
  (*238*) Assign n_t2new'aaaa (Times (Transpose (T 2) [0;1;3;2]) (-2) 1);
  (*239*) Del (T 2);
  (*240*) AddTo n_t2new'aaaa (Times (Transpose (T 3) [1;0;3;2]) (2) 1);
  (*241*) AddTo n_t2new'aaaa (Times (Transpose (T 3) [0;1;3;2]) (-2) 1);
  (*242*) Del (T 3);
  (*243*) AddTo n_t2new'aaaa (Times (Einsum [(n_t2'aaaa,[0;1;2;3]); (T 7,[4;3])] [0;1;2;4]) (-2) 1);
  (*244*) Del (T 7);
  (*245*) AddTo n_t2new'aaaa (Plain (Copy (T 9)));
  (*246*) AddTo n_t2new'aaaa (Times (Einsum [(n_t2'aaaa,[0;1;2;3]); (T 10,[4;3])] [0;1;4;2]) (4) 1);
  (*247*) Del (T 10);
  (*248*) AddTo n_t2new'aaaa (Times (Einsum [(n_f'aa'vv,[0;1]); (n_t2'aaaa,[2;3;4;1])] [2;3;4;0]) (2) 1);
  (*249*) AddTo n_t2new'aaaa (Times (Transpose (T 9) [0;1;3;2]) (-1) 1);
  (*250*) AddTo n_t2new'aaaa (Plain (Transpose (T 11) [1;0;3;2]));
  (*251*) AddTo n_t2new'aaaa (Times (Transpose (T 11) [1;0;2;3]) (-1) 1);
  (*252*) Del (T 11);
  (*253*) AddTo n_t2new'aaaa (Times (Transpose (T 9) [1;0;2;3]) (-1) 1);
  (*254*) AddTo n_t2new'aaaa (Times (Transpose (T 12) [0;1;3;2]) (-2) 1);
  (*255*) AddTo n_t2new'aaaa (Times (Transpose (T 12) [1;0;2;3]) (-2) 1);
  (*256*) AddTo n_t2new'aaaa (Times (Transpose (T 17) [1;0;2;3]) (2) 1);
  (*257*) AddTo n_t2new'aaaa (Times (Transpose (T 21) [0;1;3;2]) (-1) 1);
  (*258*) AddTo n_t2new'aaaa (Times (Copy (T 12)) (2) 1);
  (*259*) AddTo n_t2new'aaaa (Times (Transpose (T 12) [1;0;3;2]) (2) 1);
  (*260*) Del (T 12);
  (*261*) AddTo n_t2new'aaaa (Times (Copy (T 17)) (-2) 1);
  (*262*) Del (T 17);
  (*263*) AddTo n_t2new'aaaa (Plain (Copy (T 21)));
  (*264*) Del (T 21);
  (*265*) AddTo n_t2new'aaaa (Plain (Transpose (T 9) [1;0;3;2]));
  (*266*) Del (T 9);
  (*267*) AddTo n_t2new'aaaa (Times (Copy (T 22)) (-2) 1);
  (*268*) AddTo n_t2new'aaaa (Times (Transpose (T 22) [1;0;2;3]) (2) 1);
  (*269*) Del (T 22);
  (*270*) AddTo n_t2new'aaaa (Times (Copy (T 24)) (2) 1);
  (*271*) Del (T 24);
  (*272*) AddTo n_t2new'aaaa (Times (Einsum [(T 25,[0;1;2;3]); (n_t2'aaaa,[4;5;1;3])] [4;5;0;2]) (-2) 1);
  (*273*) Del (T 25);
  (*274*) AddTo n_t2new'aaaa (Times (Transpose (T 27) [1;0;3;2]) (-2) 1);
  (*275*) AddTo n_t2new'aaaa (Times (Transpose (T 27) [0;1;3;2]) (2) 1);
  (*276*) Del (T 27)]
 [(n_t2new'bbbb,[6;6;7;7]); (n_t2new'abab,[4;6;5;7]); (n_t2new'aaaa,[4;4;5;5])].

(** ebcc/codegen/UDFCCD.py:280-623 [update_lams] *)
Definition UDFCCD_update_lams : prog := mkprog
 [(n_v'baa'xov,[2;4;5]); (n_t2'aaaa,[4;4;5;5]); (n_t2'abab,[4;6;5;7]); (n_v'bbb'xov,[2;6;7]); (n_t2'bbbb,[6;6;7;7]); (n_l2'aaaa,[5;5;4;4]); (n_l2'abab,[5;7;4;6]); (n_l2'bbbb,[7;7;6;6]); (n_v'bbb'xoo,[2;6;6]); (n_v'bbb'xvv,[2;7;7]); (n_f'bb'oo,[6;6]); (n_f'bb'vv,[7;7]); (n_v'baa'xvv,[2;5;5]); (n_v'baa'xoo,[2;4;4]); (n_f'aa'vv,[5;5]); (n_f'aa'oo,[4;4])]
 [(*303*) Assign (T 9) (Plain (Einsum [(n_v'baa'xov,[0;1;2]); (n_t2'aaaa,[3;1;4;2])] [0;3;4]));
  (*304*) Assign (T 10) (Plain (Einsum [(n_t2'abab,[0;1;2;3]); (n_v'bbb'xov,[4;1;3])] [4;0;2]));
  (*305*) Assign (T 14) (Plain (Einsum [(n_t2'bbbb,[0;1;2;3]); (n_v'bbb'xov,[4;1;3])] [4;0;2]));
  (*306*) Assign (T 13) (Plain (Einsum [(n_t2'abab,[0;1;2;3]); (n_v'baa'xov,[4;0;2])] [4;1;3]));
  (*307*) Assign (T 1) (Plain (Einsum [(n_l2'aaaa,[0;1;2;3]); (n_t2'aaaa,[2;3;4;1])] [0;4]));
  (*308*) Assign (T 2) (Plain (Einsum [(n_l2'abab,[0;1;2;3]); (n_t2'abab,[2;3;4;1])] [0;4]));
  (*309*) Assign (T 52) (Plain (Einsum [(n_l2'bbbb,[0;1;2;3]); (n_t2'bbbb,[2;3;4;1])] [0;4]));
  (*310*) Assign (T 51) (Plain (Einsum [(n_l2'abab,[0;1;2;3]); (n_t2'abab,[2;3;0;4])] [1;4]));
  (*311*) Assign (T 74) (Plain (Einsum [(n_t2'bbbb,[0;1;2;3]); (n_l2'bbbb,[2;3;4;1])] [4;0]));
  (*312*) Assign (T 73) (Plain (Einsum [(n_l2'abab,[0;1;2;3]); (n_t2'abab,[2;4;0;1])] [3;4]));
  (*313*) Assign (T 34) (Plain (Copy n_v'baa'xov));
  (*314*) AddTo (T 34) (Times (Copy (T 9)) (2) 1);
  (*315*) AddTo (T 34) (Plain (Copy (T 10)));
  (*316*) Assign (T 36) (Plain (Copy n_v'bbb'xov));
  (*317*) AddTo (T 36) (Plain (Copy (T 13)));
  (*318*) AddTo (T 36) (Times (Copy (T 14)) (2) 1);
  (*319*) Assign (T 57) (Times (Copy (T 13)) (1) 2);
  (*320*) AddTo (T 57) (Plain (Copy (T 14)));
  (*321*) Assign (T 45) (Plain (Einsum [(n_l2'abab,[0;1;2;3]); (n_t2'abab,[4;3;0;1])] [2;4]));
  (*322*) Assign (T 44) (Plain (Einsum [(n_l2'aaaa,[0;1;2;3]); (n_t2'aaaa,[4;3;0;1])] [2;4]));
  (*323*) Assign (T 19) (Times (Copy (T 9)) (2) 1);
  (*324*) AddTo (T 19) (Plain (Copy (T 10)));
  (*325*) Assign (T 15) (Plain (Copy n_v'bbb'xov));
  (*326*) AddTo (T 15) (Plain (Copy (T 13)));
  (*327*) Del (T 13);
  (*328*) AddTo (T 15) (Times (Copy (T 14)) (2) 1);
  (*329*) Del (T 14);
  (*330*) Assign (T 11) (Times (Copy n_v'baa'xov) (1) 2);
  (*331*) AddTo (T 11) (Plain (Copy (T 9)));
  (*332*) Del (T 9);
  (*333*) AddTo (T 11) (Times (Copy (T 10)) (1) 2);
  (*334*) Del (T 10);
  (*335*) Assign (T 3) (Plain (Copy (T 1)));
  (*336*) Del (T 1);
  (*337*) AddTo (T 3) (Times (Copy (T 2)) (1) 2);
  (*338*) Del (T 2);
  (*339*) Assign (T 53) (Plain (Copy (T 51)));
  (*340*) Del (T 51);
  (*341*) AddTo (T 53) (Times (Copy (T 52)) (2) 1);
  (*342*) Del (T 52);
  (*343*) Assign (T 75) (Times (Copy (T 73)) (1) 2);
  (*344*) Del (T 73);
  (*345*) AddTo (T 75) (Plain (Copy (T 74)));
  (*346*) Del (T 74);
  (*347*) Assign (T 100) (Plain (Einsum [(n_l2'bbbb,[0;1;2;3]); (n_t2'bbbb,[4;3;5;1])] [2;4;0;5]));
  (*348*) Assign (T 99) (Plain (Einsum [(n_t2'abab,[0;1;2;3]); (n_l2'abab,[2;4;0;5])] [5;1;4;3]));
  (*349*) Assign (T 95) (Plain (Einsum [(T 34,[0;1;2]); (n_l2'abab,[2;3;1;4])] [0;4;3]));
  (*350*) Assign (T 96) (Plain (Einsum [(T 36,[0;1;2]); (n_l2'bbbb,[3;2;4;1])] [0;4;3]));
  (*351*) Assign (T 84) (Times (Einsum [(n_v'bbb'xov,[0;1;2]); (T 57,[0;3;2])] [1;3]) (2) 1);
  (*352*) Assign (T 66) (Times (Einsum [(T 57,[0;1;2]); (n_v'bbb'xov,[0;1;3])] [3;2]) (2) 1);
  (*353*) Assign (T 46) (Times (Copy (T 44)) (2) 1);
  (*354*) Del (T 44);
  (*355*) AddTo (T 46) (Plain (Copy (T 45)));
  (*356*) Del (T 45);
  (*357*) Assign (T 28) (Plain (Einsum [(T 19,[0;1;2]); (n_v'baa'xov,[0;1;3])] [2;3]));
  (*358*) Assign (T 37) (Plain (Einsum [(n_l2'abab,[0;1;2;3]); (T 36,[4;3;1])] [4;2;0]));
  (*359*) Del (T 36);
  (*360*) Assign (T 35) (Plain (Einsum [(n_l2'aaaa,[0;1;2;3]); (T 34,[4;3;1])] [4;2;0]));
  (*361*) Del (T 34);
  (*362*) Assign (T 41) (Plain (Einsum [(n_t2'abab,[0;1;2;3]); (n_l2'abab,[4;3;5;1])] [5;0;4;2]));
  (*363*) Assign (T 40) (Plain (Einsum [(n_l2'aaaa,[0;1;2;3]); (n_t2'aaaa,[4;3;5;1])] [2;4;0;5]));
  (*364*) Assign (T 16) (Plain (Einsum [(T 15,[0;1;2]); (n_l2'abab,[3;2;4;1])] [0;4;3]));
  (*365*) Assign (T 12) (Times (Einsum [(n_l2'aaaa,[0;1;2;3]); (T 11,[4;3;1])] [4;2;0]) (4) 1);
  (*366*) Assign (T 4) (Times (Einsum [(T 3,[0;1]); (n_v'baa'xov,[2;3;1])] [2;3;0]) (2) 1);
  (*367*) Assign (T 79) (Plain (Einsum [(n_v'bbb'xov,[0;1;2]); (n_v'bbb'xov,[0;3;4])] [3;1;4;2]));
  (*368*) Assign (T 54) (Times (Einsum [(n_v'bbb'xov,[0;1;2]); (T 53,[3;2])] [0;1;3]) (1) 2);
  (*369*) Assign (T 88) (Plain (Einsum [(n_l2'bbbb,[0;1;2;3]); (n_t2'bbbb,[4;5;0;1])] [2;3;4;5]));
  (*370*) Assign (T 80) (Plain (Einsum [(n_v'bbb'xov,[0;1;2]); (T 53,[3;2])] [0;1;3]));
  (*371*) Del (T 53);
  (*372*) Assign (T 76) (Plain (Einsum [(n_v'bbb'xov,[0;1;2]); (T 75,[3;1])] [0;3;2]));
  (*373*) Assign (T 104) (Times (Einsum [(n_v'bbb'xov,[0;1;2]); (T 75,[3;1])] [0;3;2]) (2) 1);
  (*374*) Del (T 75);
  (*375*) Assign (T 101) (Plain (Copy (T 99)));
  (*376*) Del (T 99);
  (*377*) AddTo (T 101) (Times (Copy (T 100)) (4) 1);
  (*378*) Del (T 100);
  (*379*) Assign (T 97) (Plain (Copy (T 95)));
  (*380*) Del (T 95);
  (*381*) AddTo (T 97) (Times (Copy (T 96)) (2) 1);
  (*382*) Del (T 96);
  (*383*) Assign (T 69) (Plain (Einsum [(n_v'bbb'xoo,[0;1;2]); (n_v'bbb'xvv,[0;3;4])] [1;2;3;4]));
  (*384*) Assign (T 85) (Plain (Copy n_f'bb'oo));
  (*385*) AddTo (T 85) (Plain (Transpose (T 84) [1;0]));
  (*386*) Del (T 84);
  (*387*) Assign (T 90) (Plain (Einsum [(n_v'bbb'xvv,[0;1;2]); (n_v'bbb'xvv,[0;3;4])] [3;1;2;4]));
  (*388*) Assign (T 67) (Times (Copy n_f'bb'vv) (-1) 1);
  (*389*) AddTo (T 67) (Plain (Transpose (T 66) [1;0]));
  (*390*) Del (T 66);
  (*391*) Assign (T 21) (Plain (Einsum [(T 19,[0;1;2]); (n_v'baa'xov,[0;3;2])] [1;3]));
  (*392*) Assign (T 63) (Plain (Einsum [(n_v'baa'xvv,[0;1;2]); (n_v'bbb'xvv,[0;3;4])] [1;2;3;4]));
  (*393*) Assign (T 61) (Plain (Einsum [(n_l2'abab,[0;1;2;3]); (n_t2'abab,[4;5;0;1])] [2;4;3;5]));
  (*394*) Assign (T 60) (Plain (Einsum [(n_v'bbb'xov,[0;1;2]); (n_v'baa'xov,[0;3;4])] [3;1;4;2]));
  (*395*) Assign (T 23) (Plain (Einsum [(n_v'baa'xov,[0;1;2]); (n_v'baa'xov,[0;3;4])] [3;1;4;2]));
  (*396*) Assign (T 24) (Plain (Einsum [(n_t2'aaaa,[0;1;2;3]); (n_l2'aaaa,[2;3;4;5])] [4;5;0;1]));
  (*397*) Assign (T 7) (Plain (Einsum [(n_v'baa'xvv,[0;1;2]); (n_v'baa'xoo,[0;3;4])] [3;4;1;2]));
  (*398*) Assign (T 49) (Plain (Einsum [(n_v'baa'xov,[0;1;2]); (T 46,[3;1])] [0;3;2]));
  (*399*) Assign (T 26) (Plain (Einsum [(n_v'baa'xvv,[0;1;2]); (n_v'baa'xvv,[0;3;4])] [1;3;4;2]));
  (*400*) Assign (T 47) (Times (Einsum [(n_v'baa'xov,[0;1;2]); (T 46,[3;1])] [0;3;2]) (1) 2);
  (*401*) Del (T 46);
  (*402*) Assign (T 29) (Times (Copy n_f'aa'vv) (-1) 1);
  (*403*) AddTo (T 29) (Plain (Copy (T 28)));
  (*404*) Del (T 28);
  (*405*) Assign (T 38) (Times (Copy (T 35)) (2) 1);
  (*406*) Del (T 35);
  (*407*) AddTo (T 38) (Plain (Copy (T 37)));
  (*408*) Del (T 37);
  (*409*) Assign (T 42) (Times (Copy (T 40)) (4) 1);
  (*410*) Del (T 40);
  (*411*) AddTo (T 42) (Plain (Copy (T 41)));
  (*412*) Del (T 41);
  (*413*) Assign (T 32) (Plain (Einsum [(T 3,[0;1]); (n_v'baa'xov,[2;3;1])] [2;3;0]));
  (*414*) Del (T 3);
  (*415*) Assign (T 17) (Plain (Copy (T 12)));
  (*416*) Del (T 12);
  (*417*) AddTo (T 17) (Plain (Copy (T 16)));
  (*418*) Del (T 16);
  (*419*) Assign (T 5) (Plain (Copy n_v'baa'xov));
  (*420*) AddTo (T 5) (Times (Copy (T 4)) (-1) 1);
  (*421*) Assign (T 93) (Plain (Einsum [(n_v'bbb'xoo,[0;1;2]); (n_v'bbb'xoo,[0;3;4])] [1;3;4;2]));
  (*422*) AddTo (T 93) (Times (Einsum [(n_t2'bbbb,[0;1;2;3]); (T 79,[4;5;3;2])] [0;1;5;4]) (-1) 1);
  (*423*) Assign (T 55) (Times (Copy n_v'bbb'xov) (1) 2);
  (*424*) AddTo (T 55) (Times (Copy (T 54)) (-1) 1);
  (*425*) Del (T 54);
  (*426*) Assign (T 89) (Plain (Einsum [(T 79,[0;1;2;3]); (T 88,[4;5;0;1])] [4;5;2;3]));
  (*427*) Del (T 88);
  (*428*) Assign (T 81) (Plain (Copy n_v'bbb'xov));
  (*429*) AddTo (T 81) (Times (Copy (T 80)) (-1) 1);
  (*430*) Assign (T 83) (Times (Einsum [(n_l2'abab,[0;1;2;3]); (T 11,[4;2;0])] [4;3;1]) (2) 1);
  (*431*) AddTo (T 83) (Times (Einsum [(T 15,[0;1;2]); (n_l2'bbbb,[3;2;4;1])] [0;4;3]) (2) 1);
  (*432*) Assign (T 103) (Times (Einsum [(n_v'bbb'xov,[0;1;2]); (T 76,[0;3;4])] [1;3;2;4]) (-2) 1);
  (*433*) Assign (T 105) (Times (Einsum [(n_v'bbb'xov,[0;1;2]); (T 104,[0;3;4])] [1;3;2;4]) (-1) 1);
  (*434*) Del (T 104);
  (*435*) Assign (T 102) (Plain (Einsum [(T 79,[0;1;2;3]); (T 101,[4;0;5;3])] [4;1;5;2]));
  (*436*) Del (T 101);
  (*437*) Assign (T 98) (Plain (Einsum [(n_v'bbb'xov,[0;1;2]); (T 97,[0;3;4])] [1;3;2;4]));
  (*438*) Del (T 97);
  (*439*) Assign (T 87) (Plain (Einsum [(n_l2'abab,[0;1;2;3]); (T 11,[4;2;0])] [4;3;1]));
  (*440*) AddTo (T 87) (Plain (Einsum [(T 15,[0;1;2]); (n_l2'bbbb,[3;2;4;1])] [0;4;3]));
  (*441*) Assign (T 82) (Plain (Einsum [(n_l2'bbbb,[0;1;2;3]); (T 69,[4;3;5;1])] [2;4;0;5]));
  (*442*) Assign (T 86) (Times (Einsum [(T 85,[0;1]); (n_l2'bbbb,[2;3;4;0])] [4;1;2;3]) (-2) 1);
  (*443*) Del (T 85);
  (*444*) Assign (T 94) (Times (Einsum [(n_v'bbb'xov,[0;1;2]); (T 80,[0;3;4])] [1;3;2;4]) (-1) 1);
  (*445*) Del (T 80);
  (*446*) Assign (T 91) (Plain (Einsum [(n_l2'bbbb,[0;1;2;3]); (T 90,[4;0;5;1])] [2;3;5;4]));
  (*447*) Del (T 90);
  (*448*) Assign (T 92) (Times (Einsum [(T 67,[0;1]); (n_l2'bbbb,[2;0;3;4])] [3;4;2;1]) (-1) 1);
  (*449*) Assign (T 70) (Plain (Einsum [(n_v'baa'xoo,[0;1;2]); (n_v'bbb'xvv,[0;3;4])] [1;2;3;4]));
  (*450*) Assign (T 22) (Plain (Copy n_f'aa'oo));
  (*451*) AddTo (T 22) (Plain (Copy (T 21)));
  (*452*) Del (T 21);
  (*453*) Assign (T 64) (Plain (Einsum [(n_l2'abab,[0;1;2;3]); (T 63,[4;0;5;1])] [2;3;4;5]));
  (*454*) Del (T 63);
  (*455*) Assign (T 78) (Plain (Einsum [(n_t2'abab,[0;1;2;3]); (n_l2'aaaa,[4;2;5;0])] [5;1;4;3]));
  (*456*) AddTo (T 78) (Plain (Einsum [(n_l2'abab,[0;1;2;3]); (n_t2'bbbb,[4;3;5;1])] [2;4;0;5]));
  (*457*) Assign (T 77) (Plain (Einsum [(n_t2'aaaa,[0;1;2;3]); (n_l2'abab,[3;4;1;5])] [0;5;2;4]));
  (*458*) AddTo (T 77) (Plain (Einsum [(n_t2'abab,[0;1;2;3]); (n_l2'bbbb,[4;3;5;1])] [0;5;2;4]));
  (*459*) Assign (T 62) (Plain (Einsum [(T 61,[0;1;2;3]); (T 60,[1;3;4;5])] [0;2;4;5]));
  (*460*) Del (T 61);
  (*461*) Assign (T 65) (Times (Copy n_f'aa'vv) (-1) 2);
  (*462*) AddTo (T 65) (Times (Einsum [(T 19,[0;1;2]); (n_v'baa'xov,[0;1;3])] [2;3]) (1) 2);
  (*463*) Assign (T 68) (Plain (Einsum [(n_v'baa'xoo,[0;1;2]); (n_v'bbb'xoo,[0;3;4])] [1;2;3;4]));
  (*464*) AddTo (T 68) (Plain (Einsum [(n_t2'abab,[0;1;2;3]); (T 60,[4;5;2;3])] [0;4;1;5]));
  (*465*) Assign (T 58) (Times (Copy n_f'bb'oo) (1) 2);
  (*466*) AddTo (T 58) (Plain (Einsum [(T 57,[0;1;2]); (n_v'bbb'xov,[0;3;2])] [1;3]));
  (*467*) Del (T 57);
  (*468*) Assign (T 72) (Plain (Einsum [(n_l2'abab,[0;1;2;3]); (n_t2'abab,[2;4;5;1])] [3;4;0;5]));
  (*469*) Assign (T 59) (Times (Einsum [(n_l2'abab,[0;1;2;3]); (T 11,[4;2;0])] [4;3;1]) (1) 2);
  (*470*) Del (T 11);
  (*471*) AddTo (T 59) (Times (Einsum [(T 15,[0;1;2]); (n_l2'bbbb,[3;2;4;1])] [0;4;3]) (1) 2);
  (*472*) Del (T 15);
  (*473*) Assign (T 56) (Plain (Einsum [(n_v'baa'xvv,[0;1;2]); (n_v'bbb'xoo,[0;3;4])] [3;4;1;2]));
  (*474*) Assign (T 71) (Plain (Einsum [(n_t2'abab,[0;1;2;3]); (n_l2'abab,[2;4;5;1])] [5;0;4;3]));
  (*475*) Assign (T 25) (Plain (Einsum [(T 23,[0;1;2;3]); (T 24,[4;5;0;1])] [4;5;2;3]));
  (*476*) Del (T 24);
  (*477*) Assign (T 8) (Plain (Einsum [(n_l2'aaaa,[0;1;2;3]); (T 7,[4;3;5;1])] [2;4;0;5]));
  (*478*) Assign (T 31) (Plain (Einsum [(n_v'baa'xoo,[0;1;2]); (n_v'baa'xoo,[0;3;4])] [1;3;4;2]));
  (*479*) AddTo (T 31) (Times (Einsum [(n_t2'aaaa,[0;1;2;3]); (T 23,[4;5;3;2])] [0;1;5;4]) (-1) 1);
  (*480*) Assign (T 50) (Times (Einsum [(T 49,[0;1;2]); (n_v'baa'xov,[0;3;4])] [1;3;2;4]) (-1) 1);
  (*481*) Assign (T 27) (Plain (Einsum [(n_l2'aaaa,[0;1;2;3]); (T 26,[4;0;5;1])] [2;3;5;4]));
  (*482*) Del (T 26);
  (*483*) Assign (T 48) (Times (Einsum [(n_v'baa'xov,[0;1;2]); (T 47,[0;3;4])] [3;1;4;2]) (-2) 1);
  (*484*) Del (T 47);
  (*485*) Assign (T 30) (Times (Einsum [(n_l2'aaaa,[0;1;2;3]); (T 29,[1;4])] [2;3;0;4]) (-1) 1);
  (*486*) Del (T 29);
  (*487*) Assign (T 39) (Plain (Einsum [(n_v'baa'xov,[0;1;2]); (T 38,[0;3;4])] [3;1;4;2]));
  (*488*) Assign (T 20) (Times (Copy n_f'aa'oo) (1) 2);
  (*489*) AddTo (T 20) (Times (Einsum [(T 19,[0;1;2]); (n_v'baa'xov,[0;3;2])] [1;3]) (1) 2);
  (*490*) Del (T 19);
  (*491*) Assign (T 43) (Plain (Einsum [(T 42,[0;1;2;3]); (T 23,[1;4;5;3])] [0;4;2;5]));
  (*492*) Del (T 42);
  (*493*) Assign (T 33) (Times (Einsum [(n_v'baa'xov,[0;1;2]); (T 32,[0;3;4])] [3;1;4;2]) (-2) 1);
  (*494*) Del (T 32);
  (*495*) Assign (T 18) (Plain (Einsum [(n_v'baa'xov,[0;1;2]); (T 17,[0;3;4])] [3;1;4;2]));
  (*496*) Del (T 17);
  (*497*) Assign (T 6) (Plain (Einsum [(n_v'baa'xov,[0;1;2]); (T 5,[0;3;4])] [3;1;4;2]));
  (*498*) Del (T 5);
  (*499*) Assign n_l2new'bbbb (Times (Einsum [(T 55,[0;1;2]); (n_v'bbb'xov,[0;3;4])] [4;2;3;1]) (2) 1);
  (*500*) AddTo n_l2new'bbbb (Times (Einsum [(T 81,[0;1;2]); (n_v'bbb'xov,[0;3;4])] [2;4;3;1]) (-1) 1);
  (*501*) Del (T 81);
  (*502*) AddTo n_l2new'bbbb (Times (Transpose (T 82) [3;2;0;1]) (2) 1);
  (*503*) AddTo n_l2new'bbbb (Times (Einsum [(T 83,[0;1;2]); (n_v'bbb'xov,[0;3;4])] [4;2;1;3]) (-1) 1);
  (*504*) Del (T 83);
  (*505*) AddTo n_l2new'bbbb (Times (Transpose (T 86) [3;2;0;1]) (-1) 1);
  (*506*) AddTo n_l2new'bbbb (Times (Transpose (T 82) [3;2;1;0]) (-2) 1);
  (*507*) AddTo n_l2new'bbbb (Times (Einsum [(n_v'bbb'xov,[0;1;2]); (T 87,[0;3;4])] [2;4;1;3]) (2) 1);
  (*508*) Del (T 87);
  (*509*) AddTo n_l2new'bbbb (Plain (Transpose (T 86) [3;2;1;0]));
  (*510*) Del (T 86);
  (*511*) AddTo n_l2new'bbbb (Times (Transpose (T 89) [3;2;1;0]) (2) 1);
  (*512*) Del (T 89);
  (*513*) AddTo n_l2new'bbbb (Times (Transpose (T 91) [2;3;1;0]) (-2) 1);
  (*514*) Del (T 91);
  (*515*) AddTo n_l2new'bbbb (Times (Transpose (T 92) [3;2;1;0]) (2) 1);
  (*516*) AddTo n_l2new'bbbb (Times (Transpose (T 92) [2;3;1;0]) (-2) 1);
  (*517*) Del (T 92);
  (*518*) AddTo n_l2new'bbbb (Times (Einsum [(n_l2'bbbb,[0;1;2;3]); (T 93,[2;3;4;5])] [0;1;5;4]) (2) 1);
  (*519*) Del (T 93);
  (*520*) AddTo n_l2new'bbbb (Times (Transpose (T 94) [2;3;1;0]) (-1) 1);
  (*521*) AddTo n_l2new'bbbb (Times (Transpose (T 82) [2;3;0;1]) (-2) 1);
  (*522*) AddTo n_l2new'bbbb (Plain (Transpose (T 98) [3;2;1;0]));
  (*523*) AddTo n_l2new'bbbb (Times (Transpose (T 82) [2;3;1;0]) (2) 1);
  (*524*) Del (T 82);
  (*525*) AddTo n_l2new'bbbb (Times (Transpose (T 98) [3;2;0;1]) (-1) 1);
  (*526*) Del (T 98);
  (*527*) AddTo n_l2new'bbbb (Plain (Transpose (T 102) [3;2;0;1]));
  (*528*) AddTo n_l2new'bbbb (Plain (Transpose (T 103) [3;2;1;0]));
  (*529*) AddTo n_l2new'bbbb (Times (Transpose (T 102) [2;3;0;1]) (-1) 1);
  (*530*) AddTo n_l2new'bbbb (Times (Transpose (T 105) [2;3;1;0]) (-1) 1);
  (*531*) AddTo n_l2new'bbbb (Times (Transpose (T 102) [3;2;1;0]) (-1) 1);
  (*532*) AddTo n_l2new'bbbb (Times (Transpose (T 103) [3;2;0;1]) (-1) 1);
  (*533*) Del (T 103);
  (*534*) AddTo n_l2new'bbbb (Plain (Transpose (T 102) [2;3;1;0]));
  (*535*) Del (T 102);
  (*536*) AddTo n_l2new'bbbb (Plain (Transpose (T 105) [2;3;0;1]));
  (*537*) Del (T 105);
  (*538*) AddTo n_l2new'bbbb (Plain (Transpose (T 94) [3;2;1;0]));
  (*539*) Del (T 94);
  (*540*) Assign n_l2new'abab (Times (Einsum [(T 55,[0;1;2]); (n_v'baa'xov,[0;3;4])] [4;2;3;1]) (2) 1);
  (*541*) Del (T 55);
  (*542*) AddTo n_l2new'abab (Times (Einsum [(T 56,[0;1;2;3]); (n_l2'abab,[3;4;5;1])] [2;4;5;0]) (-1) 1);
  (*543*) Del (T 56);
  (*544*) AddTo n_l2new'abab (Times (Einsum [(n_l2'abab,[0;1;2;3]); (T 58,[3;4])] [0;1;2;4]) (-2) 1);
  (*545*) Del (T 58);
  (*546*) AddTo n_l2new'abab (Times (Einsum [(n_l2'abab,[0;1;2;3]); (T 7,[4;2;5;0])] [5;1;4;3]) (-1) 1);
  (*547*) Del (T 7);
  (*548*) AddTo n_l2new'abab (Times (Einsum [(T 59,[0;1;2]); (n_v'baa'xov,[0;3;4])] [4;2;3;1]) (4) 1);
  (*549*) Del (T 59);
  (*550*) AddTo n_l2new'abab (Times (Einsum [(n_l2'abab,[0;1;2;3]); (T 22,[2;4])] [0;1;4;3]) (-1) 1);
  (*551*) AddTo n_l2new'abab (Plain (Transpose (T 62) [2;3;0;1]));
  (*552*) Del (T 62);
  (*553*) AddTo n_l2new'abab (Plain (Transpose (T 64) [2;3;0;1]));
  (*554*) Del (T 64);
  (*555*) AddTo n_l2new'abab (Times (Einsum [(T 65,[0;1]); (n_l2'abab,[0;2;3;4])] [1;2;3;4]) (-2) 1);
  (*556*) Del (T 65);
  (*557*) AddTo n_l2new'abab (Times (Einsum [(n_l2'abab,[0;1;2;3]); (T 67,[1;4])] [0;4;2;3]) (-1) 1);
  (*558*) Del (T 67);
  (*559*) AddTo n_l2new'abab (Plain (Einsum [(n_l2'abab,[0;1;2;3]); (T 68,[2;4;3;5])] [0;1;4;5]));
  (*560*) Del (T 68);
  (*561*) AddTo n_l2new'abab (Times (Einsum [(n_l2'abab,[0;1;2;3]); (T 69,[4;3;5;1])] [0;5;2;4]) (-1) 1);
  (*562*) Del (T 69);
  (*563*) AddTo n_l2new'abab (Plain (Einsum [(T 38,[0;1;2]); (n_v'bbb'xov,[0;3;4])] [2;4;1;3]));
  (*564*) Del (T 38);
  (*565*) AddTo n_l2new'abab (Times (Einsum [(n_l2'abab,[0;1;2;3]); (T 70,[4;2;5;1])] [0;5;4;3]) (-1) 1);
  (*566*) Del (T 70);
  (*567*) AddTo n_l2new'abab (Plain (Einsum [(T 60,[0;1;2;3]); (T 71,[4;0;5;3])] [2;5;4;1]));
  (*568*) Del (T 71);
  (*569*) AddTo n_l2new'abab (Times (Einsum [(T 49,[0;1;2]); (n_v'bbb'xov,[0;3;4])] [2;4;1;3]) (-1) 1);
  (*570*) Del (T 49);
  (*571*) AddTo n_l2new'abab (Plain (Einsum [(T 72,[0;1;2;3]); (T 60,[4;1;3;5])] [2;5;4;0]));
  (*572*) Del (T 60);
  (*572*) Del (T 72);
  (*573*) AddTo n_l2new'abab (Times (Einsum [(T 76,[0;1;2]); (n_v'baa'xov,[0;3;4])] [4;2;3;1]) (-2) 1);
  (*574*) Del (T 76);
  (*575*) AddTo n_l2new'abab (Times (Einsum [(n_v'bbb'xov,[0;1;2]); (T 4,[0;3;4])] [4;2;3;1]) (-1) 1);
  (*576*) Del (T 4);
  (*577*) AddTo n_l2new'abab (Times (Einsum [(T 77,[0;1;2;3]); (T 23,[0;4;5;2])] [5;3;4;1]) (-2) 1);
  (*578*) Del (T 23);
  (*578*) Del (T 77);
  (*579*) AddTo n_l2new'abab (Times (Einsum [(T 78,[0;1;2;3]); (T 79,[1;4;5;3])] [2;5;0;4]) (-2) 1);
  (*580*) Del (T 79);
  (*580*) Del (T 78);
  (*581*) Assign n_l2new'aaaa (Plain (Transpose (T 6) [3;2;1;0]));
  (*582*) AddTo n_l2new'aaaa (Times (Transpose (T 6) [2;3;1;0]) (-1) 1);
  (*583*) Del (T 6);
  (*584*) AddTo n_l2new'aaaa (Times (Transpose (T 8) [3;2;0;1]) (2) 1);
  (*585*) AddTo n_l2new'aaaa (Times (Transpose (T 18) [3;2;0;1]) (-1) 1);
  (*586*) AddTo n_l2new'aaaa (Times (Einsum [(T 20,[0;1]); (n_l2'aaaa,[2;3;4;0])] [2;3;4;1]) (-4) 1);
  (*587*) Del (T 20);
  (*588*) AddTo n_l2new'aaaa (Times (Transpose (T 8) [3;2;1;0]) (-2) 1);
  (*589*) AddTo n_l2new'aaaa (Plain (Transpose (T 18) [3;2;1;0]));
  (*590*) Del (T 18);
  (*591*) AddTo n_l2new'aaaa (Times (Einsum [(T 22,[0;1]); (n_l2'aaaa,[2;3;4;0])] [2;3;1;4]) (2) 1);
  (*592*) Del (T 22);
  (*593*) AddTo n_l2new'aaaa (Times (Transpose (T 25) [3;2;1;0]) (2) 1);
  (*594*) Del (T 25);
  (*595*) AddTo n_l2new'aaaa (Times (Transpose (T 27) [2;3;1;0]) (-2) 1);
  (*596*) Del (T 27);
  (*597*) AddTo n_l2new'aaaa (Times (Transpose (T 30) [3;2;1;0]) (2) 1);
  (*598*) AddTo n_l2new'aaaa (Times (Transpose (T 30) [2;3;1;0]) (-2) 1);
  (*599*) Del (T 30);
  (*600*) AddTo n_l2new'aaaa (Times (Einsum [(T 31,[0;1;2;3]); (n_l2'aaaa,[4;5;0;1])] [4;5;3;2]) (2) 1);
  (*601*) Del (T 31);
  (*602*) AddTo n_l2new'aaaa (Times (Transpose (T 33) [3;2;0;1]) (-1) 1);
  (*603*) AddTo n_l2new'aaaa (Times (Transpose (T 8) [2;3;0;1]) (-2) 1);
  (*604*) AddTo n_l2new'aaaa (Plain (Transpose (T 39) [2;3;0;1]));
  (*605*) AddTo n_l2new'aaaa (Times (Transpose (T 8) [2;3;1;0]) (2) 1);
  (*606*) Del (T 8);
  (*607*) AddTo n_l2new'aaaa (Times (Transpose (T 39) [2;3;1;0]) (-1) 1);
  (*608*) Del (T 39);
  (*609*) AddTo n_l2new'aaaa (Plain (Transpose (T 43) [3;2;0;1]));
  (*610*) AddTo n_l2new'aaaa (Plain (Transpose (T 48) [2;3;0;1]));
  (*611*) AddTo n_l2new'aaaa (Times (Transpose (T 43) [2;3;0;1]) (-1) 1);
  (*612*) AddTo n_l2new'aaaa (Times (Transpose (T 48) [3;2;0;1]) (-1) 1);
  (*613*) Del (T 48);
  (*614*) AddTo n_l2new'aaaa (Times (Transpose (T 43) [3;2;1;0]) (-1) 1);
  (*615*) AddTo n_l2new'aaaa (Times (Transpose (T 50) [2;3;1;0]) (-1) 1);
  (*616*) AddTo n_l2new'aaaa (Plain (Transpose (T 43) [2;3;1;0]));
  (*617*) Del (T 43);
  (*618*) AddTo n_l2new'aaaa (Plain (Transpose (T 50) [3;2;1;0]));
  (*619*) Del (T 50);
  (*620*) AddTo n_l2new'aaaa (Plain (Transpose (T 33) [2;3;0;1]));
  (*621*) Del (T 33)]
 [(n_l2new'bbbb,[7;7;6;6]); (n_l2new'abab,[5;7;4;6]); (n_l2new'aaaa,[5;5;4;4])].

(** ebcc/codegen/UDFCCD.py:625-667 [make_rdm1_f]; line 660 reads t2.aa, which no caller provides *)
Definition UDFCCD_make_rdm1_f : prog := mkprog
 [(n_t2'aaaa,[4;4;5;5]); (n_t2'bbbb,[6;6;7;7]); (n_l2'abab,[5;7;4;6]); (n_t2'abab,[4;6;5;7]); (n_l2'bbbb,[7;7;6;6]); (n_l2'aaaa,[5;5;4;4])]
 [(*645*) Assign n_delta'aa'oo (Plain (Eye 4));
  (*645*) Assign n_delta'aa'vv (Plain (Eye 5));
  (*645*) Assign n_delta'bb'oo (Plain (Eye 6));
  (*645*) Assign n_delta'bb'vv (Plain (Eye 7));
  (*649*) Assign n_rdm1'bb'vv (Plain (Einsum [(n_l2'abab,[0;1;2;3]); (n_t2'abab,[2;3;0;4])] [1;4]));
  (*650*) AddTo n_rdm1'bb'vv (Times (Einsum [(n_l2'bbbb,[0;1;2;3]); (n_t2'bbbb,[2;3;4;1])] [0;4]) (2) 1);
  (*651*) Assign n_rdm1'aa'vv (Plain (Einsum [(n_l2'abab,[0;1;2;3]); (n_t2'abab,[2;3;4;1])] [0;4]));
  (*652*) AddTo n_rdm1'aa'vv (Times (Einsum [(n_l2'aaaa,[0;1;2;3]); (n_t2'aaaa,[2;3;4;1])] [0;4]) (2) 1);
  (*653*) Assign n_rdm1'bb'oo (Times (Einsum [(n_t2'abab,[0;1;2;3]); (n_l2'abab,[2;3;0;4])] [1;4]) (-1) 1);
  (*654*) AddTo n_rdm1'bb'oo (Times (Einsum [(n_t2'bbbb,[0;1;2;3]); (n_l2'bbbb,[2;3;4;1])] [0;4]) (-2) 1);
  (*655*) AddTo n_rdm1'bb'oo (Plain (Copy n_delta'bb'oo));
  (*656*) Assign n_rdm1'aa'oo (Plain (Copy n_delta'aa'oo));
  (*657*) Del n_delta'aa'oo;
  (*657*) Del n_delta'aa'vv;
  (*657*) Del n_delta'bb'oo;
  (*657*) Del n_delta'bb'vv;
  (*658*) AddTo n_rdm1'aa'oo (Times (Einsum [(n_l2'aaaa,[0;1;2;3]); (n_t2'aaaa,[4;3;0;1])] [4;2]) (-2) 1);
  (*659*) AddTo n_rdm1'aa'oo (Times (Einsum [(n_t2'abab,[0;1;2;3]); (n_l2'abab,[2;3;4;1])] [0;4]) (-1) 1);
  (*660*) Assign n_rdm1'aa'oo (Plain (Copy n_t2'aa))]
 [].

(** ebcc/codegen/UDFCCD.py:669-933 [make_rdm2_f]; line 900 reads rdm2.aabb, which was never assigned *)
Definition UDFCCD_make_rdm2_f : prog := mkprog
 [(n_t2'aaaa,[4;4;5;5]); (n_t2'bbbb,[6;6;7;7]); (n_l2'bbbb,[7;7;6;6]); (n_l2'abab,[5;7;4;6]); (n_t2'abab,[4;6;5;7]); (n_l2'aaaa,[5;5;4;4])]
 [(*690*) Assign n_delta'aa'oo (Plain (Eye 4));
  (*690*) Assign n_delta'aa'vv (Plain (Eye 5));
  (*690*) Assign n_delta'bb'oo (Plain (Eye 6));
  (*690*) Assign n_delta'bb'vv (Plain (Eye 7));
  (*694*) Assign (T 7) (Plain (Einsum [(n_t2'bbbb,[0;1;2;3]); (n_l2'bbbb,[2;3;4;1])] [4;0]));
  (*695*) Assign (T 6) (Plain (Einsum [(n_l2'abab,[0;1;2;3]); (n_t2'abab,[2;4;0;1])] [3;4]));
  (*696*) Assign (T 1) (Plain (Einsum [(n_t2'aaaa,[0;1;2;3]); (n_l2'aaaa,[2;3;4;1])] [4;0]));
  (*697*) Assign (T 2) (Plain (Einsum [(n_l2'abab,[0;1;2;3]); (n_t2'abab,[4;3;0;1])] [2;4]));
  (*698*) Assign (T 26) (Plain (Einsum [(n_l2'abab,[0;1;2;3]); (n_t2'abab,[2;3;0;4])] [1;4]));
  (*699*) Assign (T 27) (Plain (Einsum [(n_l2'bbbb,[0;1;2;3]); (n_t2'bbbb,[2;3;4;1])] [0;4]));
  (*700*) Assign (T 14) (Plain (Einsum [(n_l2'aaaa,[0;1;2;3]); (n_t2'aaaa,[2;3;4;1])] [0;4]));
  (*701*) Assign (T 15) (Plain (Einsum [(n_l2'abab,[0;1;2;3]); (n_t2'abab,[2;3;4;1])] [0;4]));
  (*702*) Assign (T 40) (Plain (Einsum [(n_l2'aaaa,[0;1;2;3]); (n_t2'abab,[3;4;1;5])] [2;4;0;5]));
  (*703*) Assign (T 13) (Plain (Einsum [(n_l2'bbbb,[0;1;2;3]); (n_t2'bbbb,[4;5;0;1])] [2;3;4;5]));
  (*704*) Assign (T 29) (Plain (Copy (T 6)));
  (*705*) AddTo (T 29) (Times (Copy (T 7)) (2) 1);
  (*706*) Assign (T 38) (Plain (Einsum [(n_l2'bbbb,[0;1;2;3]); (n_t2'bbbb,[4;3;5;1])] [2;4;0;5]));
  (*707*) Assign (T 42) (Plain (Einsum [(n_l2'abab,[0;1;2;3]); (n_t2'bbbb,[4;3;5;1])] [2;4;0;5]));
  (*708*) Assign (T 12) (Times (Copy (T 6)) (1) 2);
  (*709*) AddTo (T 12) (Plain (Copy (T 7)));
  (*710*) Assign (T 21) (Plain (Einsum [(n_l2'aaaa,[0;1;2;3]); (n_t2'aaaa,[4;3;5;1])] [2;4;0;5]));
  (*711*) Assign (T 31) (Plain (Einsum [(n_t2'abab,[0;1;2;3]); (n_l2'abab,[4;3;5;1])] [5;0;4;2]));
  (*712*) Assign (T 23) (Plain (Einsum [(n_l2'abab,[0;1;2;3]); (n_t2'aaaa,[4;2;5;0])] [4;3;5;1]));
  (*713*) Assign (T 19) (Plain (Einsum [(n_t2'abab,[0;1;2;3]); (n_l2'bbbb,[4;3;5;1])] [0;5;2;4]));
  (*714*) Assign (T 9) (Plain (Copy (T 1)));
  (*715*) AddTo (T 9) (Times (Copy (T 2)) (1) 2);
  (*716*) Assign (T 5) (Plain (Einsum [(n_t2'aaaa,[0;1;2;3]); (n_l2'aaaa,[2;3;4;5])] [4;5;0;1]));
  (*717*) Assign (T 46) (Plain (Einsum [(n_t2'bbbb,[0;1;2;3]); (n_l2'bbbb,[4;5;0;1])] [4;5;2;3]));
  (*718*) Assign (T 45) (Plain (Einsum [(n_l2'aaaa,[0;1;2;3]); (n_t2'aaaa,[2;3;4;5])] [0;1;4;5]));
  (*719*) Assign (T 28) (Times (Copy (T 26)) (1) 2);
  (*720*) AddTo (T 28) (Plain (Copy (T 27)));
  (*721*) Assign (T 44) (Plain (Einsum [(n_t2'abab,[0;1;2;3]); (n_l2'abab,[2;4;0;5])] [5;1;4;3]));
  (*722*) Assign (T 16) (Times (Copy (T 14)) (2) 1);
  (*723*) AddTo (T 16) (Plain (Copy (T 15)));
  (*724*) Assign (T 34) (Plain (Copy (T 26)));
  (*725*) Del (T 26);
  (*726*) AddTo (T 34) (Times (Copy (T 27)) (2) 1);
  (*727*) Del (T 27);
  (*728*) Assign (T 25) (Plain (Copy (T 14)));
  (*729*) Del (T 14);
  (*730*) AddTo (T 25) (Times (Copy (T 15)) (1) 2);
  (*731*) Del (T 15);
  (*732*) Assign (T 30) (Plain (Einsum [(n_t2'abab,[0;1;2;3]); (n_l2'abab,[2;4;5;1])] [5;0;4;3]));
  (*733*) Assign (T 41) (Plain (Einsum [(n_t2'abab,[0;1;2;3]); (T 40,[0;4;2;5])] [4;1;5;3]));
  (*734*) Assign (T 37) (Plain (Einsum [(T 13,[0;1;2;3]); (n_t2'bbbb,[1;0;4;5])] [3;2;4;5]));
  (*735*) Assign (T 35) (Times (Einsum [(T 29,[0;1]); (n_t2'bbbb,[2;0;3;4])] [1;2;3;4]) (-1) 1);
  (*736*) Assign (T 39) (Plain (Einsum [(n_t2'bbbb,[0;1;2;3]); (T 38,[1;4;3;5])] [4;0;5;2]));
  (*737*) Assign (T 43) (Plain (Einsum [(n_t2'abab,[0;1;2;3]); (T 42,[0;4;2;5])] [1;4;3;5]));
  (*738*) Assign (T 36) (Times (Einsum [(T 12,[0;1]); (n_t2'bbbb,[2;0;3;4])] [2;1;3;4]) (-2) 1);
  (*739*) Assign (T 10) (Plain (Einsum [(n_l2'abab,[0;1;2;3]); (n_t2'abab,[4;5;0;1])] [2;4;3;5]));
  (*740*) Assign (T 32) (Times (Copy (T 21)) (4) 1);
  (*741*) AddTo (T 32) (Plain (Copy (T 31)));
  (*742*) Assign (T 4) (Times (Copy (T 1)) (2) 1);
  (*743*) AddTo (T 4) (Plain (Copy (T 2)));
  (*744*) Assign (T 33) (Plain (Copy (T 23)));
  (*745*) AddTo (T 33) (Plain (Copy (T 19)));
  (*746*) Assign (T 24) (Plain (Einsum [(n_t2'abab,[0;1;2;3]); (T 23,[4;1;5;3])] [4;0;5;2]));
  (*747*) Assign (T 22) (Plain (Einsum [(n_t2'aaaa,[0;1;2;3]); (T 21,[1;4;3;5])] [0;4;2;5]));
  (*748*) Assign (T 17) (Times (Einsum [(n_t2'aaaa,[0;1;2;3]); (T 9,[1;4])] [0;4;2;3]) (-2) 1);
  (*749*) Assign (T 20) (Plain (Einsum [(T 19,[0;1;2;3]); (n_t2'abab,[4;1;5;3])] [4;0;5;2]));
  (*750*) Assign (T 18) (Plain (Einsum [(T 5,[0;1;2;3]); (n_t2'aaaa,[1;0;4;5])] [3;2;4;5]));
  (*751*) Assign (T 11) (Times (Copy n_delta'bb'oo) (-1) 1);
  (*752*) AddTo (T 11) (Plain (Copy (T 6)));
  (*753*) AddTo (T 11) (Times (Copy (T 7)) (2) 1);
  (*754*) Assign (T 8) (Times (Copy n_delta'bb'oo) (-1) 2);
  (*755*) AddTo (T 8) (Times (Copy (T 6)) (1) 2);
  (*756*) Del (T 6);
  (*757*) AddTo (T 8) (Plain (Copy (T 7)));
  (*758*) Del (T 7);
  (*759*) Assign (T 3) (Times (Copy n_delta'aa'oo) (-1) 2);
  (*760*) AddTo (T 3) (Plain (Copy (T 1)));
  (*761*) Del (T 1);
  (*762*) AddTo (T 3) (Times (Copy (T 2)) (1) 2);
  (*763*) Del (T 2);
  (*764*) Assign n_rdm2'bbbb'vvvv (Times (Transpose (T 46) [1;0;3;2]) (2) 1);
  (*765*) Del (T 46);
  (*766*) Assign n_rdm2'abab'vvvv (Plain (Einsum [(n_l2'abab,[0;1;2;3]); (n_t2'abab,[2;3;4;5])] [0;1;4;5]));
  (*767*) Assign n_rdm2'aaaa'vvvv (Times (Transpose (T 45) [1;0;3;2]) (2) 1);
  (*768*) Del (T 45);
  (*769*) Assign n_rdm2'bbbb'vvoo (Times (Copy n_l2'bbbb) (2) 1);
  (*770*) Assign n_rdm2'abab'vvoo (Plain (Copy n_l2'abab));
  (*771*) Assign n_rdm2'aaaa'vvoo (Times (Copy n_l2'aaaa) (2) 1);
  (*772*) Assign n_rdm2'bbbb'vovo (Times (Einsum [(T 28,[0;1]); (n_delta'bb'oo,[2;3])] [0;2;1;3]) (2) 1);
  (*773*) AddTo n_rdm2'bbbb'vovo (Times (Transpose (T 44) [2;1;3;0]) (-1) 1);
  (*774*) AddTo n_rdm2'bbbb'vovo (Times (Transpose (T 38) [2;1;3;0]) (-4) 1);
  (*775*) Assign n_rdm2'abab'vovo (Plain (Einsum [(n_delta'bb'oo,[0;1]); (T 16,[2;3])] [2;0;3;1]));
  (*776*) AddTo n_rdm2'abab'vovo (Times (Einsum [(n_l2'abab,[0;1;2;3]); (n_t2'abab,[2;4;5;1])] [0;4;5;3]) (-1) 1);
  (*777*) Assign n_rdm2'aaaa'vovo (Plain (Einsum [(n_delta'aa'oo,[0;1]); (T 16,[2;3])] [2;0;3;1]));
  (*778*) AddTo n_rdm2'aaaa'vovo (Times (Transpose (T 21) [2;1;3;0]) (-4) 1);
  (*779*) AddTo n_rdm2'aaaa'vovo (Times (Transpose (T 31) [2;1;3;0]) (-1) 1);
  (*780*) Assign n_rdm2'bbbb'voov (Times (Einsum [(n_delta'bb'oo,[0;1]); (T 34,[2;3])] [2;0;1;3]) (-1) 1);
  (*781*) AddTo n_rdm2'bbbb'voov (Plain (Transpose (T 44) [2;1;0;3]));
  (*782*) AddTo n_rdm2'bbbb'voov (Times (Transpose (T 38) [2;1;0;3]) (4) 1);
  (*783*) Assign n_rdm2'abab'voov (Times (Transpose (T 42) [2;1;0;3]) (2) 1);
  (*784*) Del (T 42);
  (*785*) AddTo n_rdm2'abab'voov (Times (Transpose (T 40) [2;1;0;3]) (2) 1);
  (*786*) Del (T 40);
  (*787*) Assign n_rdm2'aaaa'voov (Times (Einsum [(n_delta'aa'oo,[0;1]); (T 25,[2;3])] [2;0;1;3]) (-2) 1);
  (*788*) AddTo n_rdm2'aaaa'voov (Times (Transpose (T 21) [2;1;0;3]) (4) 1);
  (*789*) AddTo n_rdm2'aaaa'voov (Plain (Transpose (T 31) [2;1;0;3]));
  (*790*) Assign n_rdm2'bbbb'ovvo (Times (Einsum [(T 28,[0;1]); (n_delta'bb'oo,[2;3])] [2;0;1;3]) (-2) 1);
  (*791*) AddTo n_rdm2'bbbb'ovvo (Plain (Transpose (T 44) [1;2;3;0]));
  (*792*) AddTo n_rdm2'bbbb'ovvo (Times (Transpose (T 38) [1;2;3;0]) (4) 1);
  (*793*) Assign n_rdm2'abab'ovvo (Times (Transpose (T 19) [0;3;2;1]) (2) 1);
  (*794*) Del (T 19);
  (*795*) AddTo n_rdm2'abab'ovvo (Times (Transpose (T 23) [0;3;2;1]) (2) 1);
  (*796*) Del (T 23);
  (*797*) Assign n_rdm2'aaaa'ovvo (Times (Einsum [(n_delta'aa'oo,[0;1]); (T 16,[2;3])] [0;2;3;1]) (-1) 1);
  (*798*) AddTo n_rdm2'aaaa'ovvo (Times (Transpose (T 21) [1;2;3;0]) (4) 1);
  (*799*) AddTo n_rdm2'aaaa'ovvo (Plain (Transpose (T 31) [1;2;3;0]));
  (*800*) Assign n_rdm2'bbbb'ovov (Plain (Einsum [(n_delta'bb'oo,[0;1]); (T 34,[2;3])] [0;2;1;3]));
  (*801*) AddTo n_rdm2'bbbb'ovov (Times (Transpose (T 44) [1;2;0;3]) (-1) 1);
  (*802*) Del (T 44);
  (*803*) AddTo n_rdm2'bbbb'ovov (Times (Transpose (T 38) [1;2;0;3]) (-4) 1);
  (*804*) Del (T 38);
  (*805*) Assign n_rdm2'abab'ovov (Plain (Einsum [(n_delta'aa'oo,[0;1]); (T 34,[2;3])] [0;2;1;3]));
  (*806*) AddTo n_rdm2'abab'ovov (Times (Transpose (T 30) [1;2;0;3]) (-1) 1);
  (*807*) Assign n_rdm2'aaaa'ovov (Times (Einsum [(n_delta'aa'oo,[0;1]); (T 25,[2;3])] [0;2;1;3]) (2) 1);
  (*808*) AddTo n_rdm2'aaaa'ovov (Times (Transpose (T 21) [1;2;0;3]) (-4) 1);
  (*809*) Del (T 21);
  (*810*) AddTo n_rdm2'aaaa'ovov (Times (Transpose (T 31) [1;2;0;3]) (-1) 1);
  (*811*) Del (T 31);
  (*812*) Assign n_rdm2'bbbb'oovv (Times (Copy n_t2'bbbb) (2) 1);
  (*813*) AddTo n_rdm2'bbbb'oovv (Times (Einsum [(n_t2'bbbb,[0;1;2;3]); (T 34,[3;4])] [0;1;2;4]) (-2) 1);
  (*814*) Del (T 34);
  (*815*) AddTo n_rdm2'bbbb'oovv (Plain (Transpose (T 35) [0;1;3;2]));
  (*816*) AddTo n_rdm2'bbbb'oovv (Plain (Transpose (T 36) [1;0;3;2]));
  (*817*) AddTo n_rdm2'bbbb'oovv (Times (Transpose (T 36) [0;1;3;2]) (-1) 1);
  (*818*) Del (T 36);
  (*819*) AddTo n_rdm2'bbbb'oovv (Times (Transpose (T 35) [1;0;3;2]) (-1) 1);
  (*820*) Del (T 35);
  (*821*) AddTo n_rdm2'bbbb'oovv (Times (Transpose (T 37) [0;1;3;2]) (-2) 1);
  (*822*) Del (T 37);
  (*823*) AddTo n_rdm2'bbbb'oovv (Times (Transpose (T 39) [0;1;3;2]) (-8) 1);
  (*824*) AddTo n_rdm2'bbbb'oovv (Times (Transpose (T 41) [0;1;3;2]) (-2) 1);
  (*825*) AddTo n_rdm2'bbbb'oovv (Times (Transpose (T 43) [0;1;3;2]) (-2) 1);
  (*826*) AddTo n_rdm2'bbbb'oovv (Times (Transpose (T 43) [1;0;2;3]) (-2) 1);
  (*827*) AddTo n_rdm2'bbbb'oovv (Times (Copy (T 39)) (8) 1);
  (*828*) Del (T 39);
  (*829*) AddTo n_rdm2'bbbb'oovv (Times (Transpose (T 41) [1;0;3;2]) (2) 1);
  (*830*) Del (T 41);
  (*831*) AddTo n_rdm2'bbbb'oovv (Times (Copy (T 43)) (2) 1);
  (*832*) AddTo n_rdm2'bbbb'oovv (Times (Transpose (T 43) [1;0;3;2]) (2) 1);
  (*833*) Del (T 43);
  (*834*) AddTo n_rdm2'bbbb'oovv (Times (Einsum [(n_t2'bbbb,[0;1;2;3]); (T 28,[3;4])] [0;1;4;2]) (4) 1);
  (*835*) Assign n_rdm2'abab'oovv (Plain (Copy n_t2'abab));
  (*836*) AddTo n_rdm2'abab'oovv (Times (Einsum [(n_t2'abab,[0;1;2;3]); (T 28,[3;4])] [0;1;2;4]) (-2) 1);
  (*837*) Del (T 28);
  (*838*) AddTo n_rdm2'abab'oovv (Times (Einsum [(T 4,[0;1]); (n_t2'abab,[0;2;3;4])] [1;2;3;4]) (-1) 1);
  (*839*) AddTo n_rdm2'abab'oovv (Times (Einsum [(n_t2'abab,[0;1;2;3]); (T 29,[1;4])] [0;4;2;3]) (-1) 1);
  (*840*) Del (T 29);
  (*841*) AddTo n_rdm2'abab'oovv (Plain (Einsum [(T 10,[0;1;2;3]); (n_t2'abab,[0;2;4;5])] [1;3;4;5]));
  (*842*) AddTo n_rdm2'abab'oovv (Plain (Einsum [(n_t2'abab,[0;1;2;3]); (T 30,[0;4;3;5])] [4;1;2;5]));
  (*843*) Del (T 30);
  (*844*) AddTo n_rdm2'abab'oovv (Plain (Einsum [(n_t2'abab,[0;1;2;3]); (T 32,[0;4;2;5])] [4;1;5;3]));
  (*845*) Del (T 32);
  (*846*) AddTo n_rdm2'abab'oovv (Times (Einsum [(n_t2'bbbb,[0;1;2;3]); (T 33,[4;1;5;3])] [4;0;5;2]) (4) 1);
  (*847*) Del (T 33);
  (*848*) AddTo n_rdm2'abab'oovv (Times (Einsum [(T 16,[0;1]); (n_t2'abab,[2;3;0;4])] [2;3;1;4]) (-1) 1);
  (*849*) Assign n_rdm2'aaaa'oovv (Times (Copy n_t2'aaaa) (2) 1);
  (*850*) AddTo n_rdm2'aaaa'oovv (Times (Einsum [(n_t2'aaaa,[0;1;2;3]); (T 16,[3;4])] [0;1;2;4]) (-2) 1);
  (*851*) Del (T 16);
  (*852*) AddTo n_rdm2'aaaa'oovv (Times (Transpose (T 17) [1;0;3;2]) (2) 1);
  (*853*) AddTo n_rdm2'aaaa'oovv (Times (Transpose (T 17) [0;1;3;2]) (-2) 1);
  (*854*) Del (T 17);
  (*855*) AddTo n_rdm2'aaaa'oovv (Times (Transpose (T 18) [0;1;3;2]) (-2) 1);
  (*856*) Del (T 18);
  (*857*) AddTo n_rdm2'aaaa'oovv (Times (Transpose (T 20) [0;1;3;2]) (-2) 1);
  (*858*) AddTo n_rdm2'aaaa'oovv (Times (Transpose (T 22) [0;1;3;2]) (-8) 1);
  (*859*) AddTo n_rdm2'aaaa'oovv (Times (Transpose (T 24) [0;1;3;2]) (-2) 1);
  (*860*) AddTo n_rdm2'aaaa'oovv (Times (Transpose (T 24) [1;0;2;3]) (-2) 1);
  (*861*) AddTo n_rdm2'aaaa'oovv (Times (Copy (T 20)) (2) 1);
  (*862*) Del (T 20);
  (*863*) AddTo n_rdm2'aaaa'oovv (Times (Copy (T 22)) (8) 1);
  (*864*) Del (T 22);
  (*865*) AddTo n_rdm2'aaaa'oovv (Times (Copy (T 24)) (2) 1);
  (*866*) AddTo n_rdm2'aaaa'oovv (Times (Transpose (T 24) [1;0;3;2]) (2) 1);
  (*867*) Del (T 24);
  (*868*) AddTo n_rdm2'aaaa'oovv (Times (Einsum [(n_t2'aaaa,[0;1;2;3]); (T 25,[3;4])] [0;1;4;2]) (4) 1);
  (*869*) Del (T 25);
  (*870*) Assign n_rdm2'bbbb'oooo (Times (Einsum [(n_delta'bb'oo,[0;1]); (T 11,[2;3])] [0;3;1;2]) (-1) 1);
  (*871*) AddTo n_rdm2'bbbb'oooo (Plain (Einsum [(n_delta'bb'oo,[0;1]); (T 11,[2;3])] [3;0;1;2]));
  (*872*) Del (T 11);
  (*873*) AddTo n_rdm2'bbbb'oooo (Times (Einsum [(T 12,[0;1]); (n_delta'bb'oo,[2;3])] [1;2;0;3]) (-2) 1);
  (*874*) AddTo n_rdm2'bbbb'oooo (Times (Einsum [(T 12,[0;1]); (n_delta'bb'oo,[2;3])] [2;1;0;3]) (2) 1);
  (*875*) Del (T 12);
  (*876*) AddTo n_rdm2'bbbb'oooo (Times (Transpose (T 13) [3;2;1;0]) (2) 1);
  (*877*) Del (T 13);
  (*878*) Assign n_rdm2'abab'oooo (Times (Einsum [(n_delta'aa'oo,[0;1]); (T 8,[2;3])] [0;3;1;2]) (-2) 1);
  (*879*) Del (T 8);
  (*880*) AddTo n_rdm2'abab'oooo (Times (Einsum [(n_delta'bb'oo,[0;1]); (T 9,[2;3])] [3;0;2;1]) (-2) 1);
  (*881*) Del (T 9);
  (*882*) AddTo n_rdm2'abab'oooo (Plain (Transpose (T 10) [1;3;0;2]));
  (*883*) Del (T 10);
  (*884*) Assign n_rdm2'aaaa'oooo (Times (Einsum [(n_delta'aa'oo,[0;1]); (T 3,[2;3])] [0;3;1;2]) (-2) 1);
  (*885*) AddTo n_rdm2'aaaa'oooo (Times (Einsum [(n_delta'aa'oo,[0;1]); (T 3,[2;3])] [3;0;1;2]) (2) 1);
  (*886*) Del (T 3);
  (*887*) AddTo n_rdm2'aaaa'oooo (Times (Einsum [(n_delta'aa'oo,[0;1]); (T 4,[2;3])] [3;0;2;1]) (-1) 1);
  (*888*) AddTo n_rdm2'aaaa'oooo (Plain (Einsum [(n_delta'aa'oo,[0;1]); (T 4,[2;3])] [0;3;2;1]));
  (*889*) Del n_delta'aa'oo;
  (*889*) Del n_delta'aa'vv;
  (*889*) Del n_delta'bb'oo;
  (*889*) Del n_delta'bb'vv;
  (*889*) Del (T 4);
  (*890*) AddTo n_rdm2'aaaa'oooo (Times (Transpose (T 5) [3;2;1;0]) (2) 1);
  (*891*) Del (T 5);
  (*892*) Assign n_rdm2'aaaa'ooov (Plain (Zeros [4;4;4;5]));
  (*893*) Assign n_rdm2'aaaa'oovo (Plain (Zeros [4;4;5;4]));
  (*894*) Assign n_rdm2'aaaa'ovoo (Plain (Zeros [4;5;4;4]));
  (*895*) Assign n_rdm2'aaaa'vooo (Plain (Zeros [5;4;4;4]));
  (*896*) Assign n_rdm2'aaaa'ovvv (Plain (Zeros [4;5;5;5]));
  (*897*) Assign n_rdm2'aaaa'vovv (Plain (Zeros [5;4;5;5]));
  (*898*) Assign n_rdm2'aaaa'vvov (Plain (Zeros [5;5;4;5]));
  (*899*) Assign n_rdm2'aaaa'vvvo (Plain (Zeros [5;5;5;4]));
  (*900*) Assign n_rdm2'aabb'ooov (Plain (Copy n_rdm2'aabb))]
 [].

(** ebcc/codegen/UDFCCD.py:935-1099 [hbar_matvec_ip_intermediates] *)
Definition UDFCCD_hbar_matvec_ip_intermediates : prog := mkprog
 [(n_t2'abab,[4;6;5;7]); (n_v'baa'xov,[2;4;5]); (n_v'bbb'xov,[2;6;7]); (n_t2'bbbb,[6;6;7;7]); (n_v'bbb'xoo,[2;6;6]); (n_v'bbb'xvv,[2;7;7]); (n_v'baa'xoo,[2;4;4]); (n_t2'aaaa,[4;4;5;5]); (n_v'baa'xvv,[2;5;5]); (n_f'bb'ov,[6;7]); (n_f'aa'ov,[4;5])]
 [(*1021*) Assign (T 20) (Plain (Einsum [(n_t2'abab,[0;1;2;3]); (n_v'baa'xov,[4;0;2])] [4;1;3]));
  (*1022*) Assign (T 17) (Plain (Einsum [(n_v'bbb'xov,[0;1;2]); (n_t2'bbbb,[3;1;4;2])] [0;3;4]));
  (*1023*) Assign (T 13) (Plain (Einsum [(n_v'bbb'xov,[0;1;2]); (n_v'bbb'xoo,[0;3;4])] [3;4;1;2]));
  (*1024*) Assign (T 56) (Plain (Einsum [(n_v'bbb'xov,[0;1;2]); (n_v'bbb'xov,[0;3;4])] [3;1;4;2]));
  (*1025*) Assign (T 148) (Plain (Einsum [(n_v'bbb'xov,[0;1;2]); (n_v'bbb'xvv,[0;3;4])] [1;3;4;2]));
  (*1026*) Assign (T 66) (Plain (Einsum [(n_v'bbb'xov,[0;1;2]); (n_v'baa'xov,[0;3;4])] [3;1;4;2]));
  (*1027*) Assign (T 15) (Plain (Einsum [(n_v'baa'xov,[0;1;2]); (n_v'bbb'xoo,[0;3;4])] [1;3;4;2]));
  (*1028*) Assign (T 33) (Plain (Einsum [(n_v'baa'xov,[0;1;2]); (n_v'baa'xov,[0;3;4])] [3;1;4;2]));
  (*1029*) Assign (T 2) (Plain (Einsum [(n_v'baa'xov,[0;1;2]); (n_v'baa'xoo,[0;3;4])] [3;4;1;2]));
  (*1030*) Assign (T 108) (Plain (Einsum [(n_v'baa'xov,[0;1;2]); (n_v'bbb'xvv,[0;3;4])] [1;2;3;4]));
  (*1031*) Assign (T 4) (Plain (Einsum [(n_v'bbb'xov,[0;1;2]); (n_v'baa'xoo,[0;3;4])] [3;4;1;2]));
  (*1032*) Assign (T 6) (Plain (Einsum [(n_v'baa'xov,[0;1;2]); (n_t2'aaaa,[3;1;4;2])] [0;3;4]));
  (*1033*) Assign (T 9) (Plain (Einsum [(n_t2'abab,[0;1;2;3]); (n_v'bbb'xov,[4;1;3])] [4;0;2]));
  (*1034*) Assign (T 77) (Plain (Einsum [(n_v'bbb'xov,[0;1;2]); (n_v'baa'xvv,[0;3;4])] [1;3;4;2]));
  (*1035*) Assign (T 30) (Plain (Einsum [(n_v'baa'xvv,[0;1;2]); (n_v'baa'xov,[0;3;4])] [3;1;2;4]));
  (*1036*) Assign (T 170) (Plain (Einsum [(n_f'bb'ov,[0;1]); (n_t2'bbbb,[2;3;4;1])] [0;2;3;4]));
  (*1037*) Assign (T 160) (Plain (Einsum [(T 20,[0;1;2]); (n_v'bbb'xoo,[0;3;4])] [1;3;4;2]));
  (*1038*) Assign (T 158) (Plain (Einsum [(n_v'bbb'xoo,[0;1;2]); (T 17,[0;3;4])] [3;1;2;4]));
  (*1039*) Assign (T 156) (Plain (Einsum [(n_t2'bbbb,[0;1;2;3]); (T 13,[4;1;5;3])] [0;4;5;2]));
  (*1040*) Assign (T 154) (Plain (Einsum [(n_v'bbb'xoo,[0;1;2]); (n_v'bbb'xoo,[0;3;4])] [1;3;4;2]));
  (*1041*) Assign (T 151) (Plain (Einsum [(T 56,[0;1;2;3]); (n_t2'bbbb,[4;5;3;2])] [4;5;1;0]));
  (*1042*) Assign (T 149) (Times (Einsum [(n_t2'bbbb,[0;1;2;3]); (T 148,[4;5;2;3])] [0;1;4;5]) (-1) 1);
  (*1043*) Del (T 148);
  (*1044*) Assign (T 144) (Plain (Einsum [(n_v'bbb'xvv,[0;1;2]); (T 20,[0;3;2])] [3;1]));
  (*1045*) Assign (T 143) (Times (Einsum [(T 17,[0;1;2]); (n_v'bbb'xvv,[0;3;2])] [1;3]) (-1) 1);
  (*1046*) Assign (T 140) (Plain (Einsum [(n_v'bbb'xoo,[0;1;2]); (n_v'bbb'xvv,[0;3;4])] [1;2;3;4]));
  (*1047*) Assign (T 137) (Plain (Einsum [(n_v'baa'xoo,[0;1;2]); (n_v'bbb'xvv,[0;3;4])] [1;2;3;4]));
  (*1048*) Assign (T 134) (Plain (Einsum [(T 66,[0;1;2;3]); (n_t2'abab,[4;1;2;5])] [4;0;5;3]));
  (*1049*) Assign (T 132) (Plain (Einsum [(T 20,[0;1;2]); (n_v'bbb'xov,[0;1;3])] [2;3]));
  (*1050*) Assign (T 130) (Plain (Einsum [(n_v'bbb'xov,[0;1;2]); (T 17,[0;1;3])] [3;2]));
  (*1051*) Assign (T 129) (Plain (Einsum [(T 15,[0;1;2;3]); (n_t2'abab,[4;2;3;5])] [4;0;1;5]));
  (*1052*) Assign (T 128) (Plain (Einsum [(T 15,[0;1;2;3]); (n_t2'abab,[0;2;3;4])] [1;4]));
  (*1053*) Assign (T 127) (Plain (Einsum [(n_t2'bbbb,[0;1;2;3]); (T 13,[4;0;1;3])] [4;2]));
  (*1054*) Assign (T 126) (Plain (Einsum [(n_f'aa'ov,[0;1]); (n_t2'abab,[2;3;1;4])] [0;2;3;4]));
  (*1055*) Assign (T 122) (Plain (Einsum [(n_t2'bbbb,[0;1;2;3]); (T 56,[1;4;5;3])] [0;4;2;5]));
  (*1056*) Assign (T 119) (Plain (Einsum [(n_t2'abab,[0;1;2;3]); (T 33,[0;4;5;2])] [4;1;5;3]));
  (*1057*) Assign (T 117) (Plain (Einsum [(n_v'baa'xoo,[0;1;2]); (T 17,[0;3;4])] [1;2;3;4]));
  (*1058*) Assign (T 116) (Plain (Einsum [(n_v'baa'xoo,[0;1;2]); (T 20,[0;3;4])] [1;2;3;4]));
  (*1059*) Assign (T 115) (Plain (Einsum [(n_t2'abab,[0;1;2;3]); (T 2,[4;0;5;2])] [4;5;1;3]));
  (*1060*) Assign (T 113) (Plain (Einsum [(n_t2'bbbb,[0;1;2;3]); (n_f'bb'ov,[1;3])] [0;2]));
  (*1061*) Assign (T 112) (Plain (Einsum [(n_t2'abab,[0;1;2;3]); (n_f'aa'ov,[0;2])] [1;3]));
  (*1062*) Assign (T 109) (Plain (Einsum [(n_t2'abab,[0;1;2;3]); (T 108,[4;2;5;3])] [0;4;1;5]));
  (*1063*) Del (T 108);
  (*1064*) Assign (T 102) (Plain (Einsum [(n_v'baa'xvv,[0;1;2]); (n_v'bbb'xoo,[0;3;4])] [3;4;1;2]));
  (*1065*) Assign (T 97) (Plain (Einsum [(n_t2'abab,[0;1;2;3]); (T 66,[0;4;5;3])] [1;4;2;5]));
  (*1066*) Assign (T 94) (Plain (Einsum [(T 4,[0;1;2;3]); (n_t2'abab,[1;4;5;3])] [0;4;2;5]));
  (*1067*) Assign (T 93) (Plain (Einsum [(n_t2'abab,[0;1;2;3]); (n_f'bb'ov,[4;3])] [0;4;1;2]));
  (*1068*) Assign (T 86) (Plain (Einsum [(n_v'bbb'xoo,[0;1;2]); (T 6,[0;3;4])] [3;1;2;4]));
  (*1069*) Assign (T 85) (Plain (Einsum [(n_v'bbb'xoo,[0;1;2]); (T 9,[0;3;4])] [3;1;2;4]));
  (*1070*) Assign (T 84) (Plain (Einsum [(T 13,[0;1;2;3]); (n_t2'abab,[4;1;5;3])] [4;0;2;5]));
  (*1071*) Assign (T 82) (Plain (Einsum [(n_v'baa'xoo,[0;1;2]); (n_v'bbb'xoo,[0;3;4])] [1;2;3;4]));
  (*1072*) Assign (T 80) (Plain (Einsum [(n_t2'abab,[0;1;2;3]); (T 66,[4;5;2;3])] [0;4;1;5]));
  (*1073*) Assign (T 78) (Plain (Einsum [(T 77,[0;1;2;3]); (n_t2'abab,[4;5;2;3])] [4;5;0;1]));
  (*1074*) Del (T 77);
  (*1075*) Assign (T 70) (Plain (Einsum [(n_v'baa'xvv,[0;1;2]); (n_v'baa'xoo,[0;3;4])] [3;4;1;2]));
  (*1076*) Assign (T 62) (Plain (Einsum [(n_t2'aaaa,[0;1;2;3]); (n_f'aa'ov,[4;3])] [4;0;1;2]));
  (*1077*) Assign (T 57) (Plain (Einsum [(n_t2'abab,[0;1;2;3]); (T 56,[1;4;5;3])] [0;4;2;5]));
  (*1078*) Assign (T 53) (Plain (Einsum [(n_t2'aaaa,[0;1;2;3]); (T 33,[1;4;5;3])] [0;4;2;5]));
  (*1079*) Assign (T 51) (Plain (Einsum [(T 9,[0;1;2]); (n_v'baa'xov,[0;1;3])] [2;3]));
  (*1080*) Assign (T 49) (Plain (Einsum [(T 6,[0;1;2]); (n_v'baa'xov,[0;1;3])] [2;3]));
  (*1081*) Assign (T 47) (Plain (Einsum [(n_v'baa'xoo,[0;1;2]); (T 9,[0;3;4])] [3;1;2;4]));
  (*1082*) Assign (T 45) (Plain (Einsum [(n_v'baa'xoo,[0;1;2]); (T 6,[0;3;4])] [3;1;2;4]));
  (*1083*) Assign (T 43) (Plain (Einsum [(n_t2'aaaa,[0;1;2;3]); (T 2,[4;1;5;3])] [0;4;5;2]));
  (*1084*) Assign (T 42) (Plain (Einsum [(T 4,[0;1;2;3]); (n_t2'abab,[1;2;4;3])] [0;4]));
  (*1085*) Assign (T 41) (Plain (Einsum [(n_t2'aaaa,[0;1;2;3]); (T 2,[4;0;1;3])] [4;2]));
  (*1086*) Assign (T 39) (Plain (Einsum [(n_v'baa'xoo,[0;1;2]); (n_v'baa'xoo,[0;3;4])] [3;1;2;4]));
  (*1087*) Assign (T 38) (Plain (Einsum [(n_t2'abab,[0;1;2;3]); (n_f'bb'ov,[1;3])] [0;2]));
  (*1088*) Assign (T 37) (Plain (Einsum [(n_f'aa'ov,[0;1]); (n_t2'aaaa,[2;0;3;1])] [2;3]));
  (*1089*) Assign (T 34) (Plain (Einsum [(T 33,[0;1;2;3]); (n_t2'aaaa,[4;5;3;2])] [4;5;1;0]));
  (*1090*) Assign (T 31) (Times (Einsum [(T 30,[0;1;2;3]); (n_t2'aaaa,[4;5;2;3])] [4;5;0;1]) (-1) 1);
  (*1091*) Del (T 30);
  (*1092*) Assign (T 29) (Plain (Einsum [(n_v'baa'xvv,[0;1;2]); (T 9,[0;3;2])] [3;1]));
  (*1093*) Assign (T 28) (Times (Einsum [(n_v'baa'xvv,[0;1;2]); (T 6,[0;3;2])] [3;1]) (-1) 1);
  (*1094*) Assign (T 21) (Plain (Einsum [(n_v'bbb'xov,[0;1;2]); (T 20,[0;3;2])] [3;1]));
  (*1095*) Assign (T 18) (Plain (Einsum [(n_v'bbb'xov,[0;1;2]); (T 17,[0;3;2])] [3;1]));
  (*1096*) Assign (T 10) (Plain (Einsum [(T 9,[0;1;2]); (n_v'baa'xov,[0;3;2])] [1;3]));
  (*1097*) Assign (T 7) (Plain (Einsum [(T 6,[0;1;2]); (n_v'baa'xov,[0;3;2])] [1;3]))]
 [(T 2,[4;4;4;5]); (T 102,[6;6;5;5]); (T 109,[4;4;6;7]); (T 112,[6;7]); (T 113,[6;7]); (T 115,[4;4;6;7]); (T 116,[4;4;6;7]); (T 117,[4;4;6;7]); (T 119,[4;6;5;7]); (T 13,[6;6;6;7]); (T 122,[6;6;7;7]); (T 126,[4;4;6;7]); (T 127,[6;7]); (T 128,[6;7]); (T 129,[4;4;6;7]); (T 130,[7;7]); (T 132,[7;7]); (T 134,[4;4;7;7]); (T 137,[4;4;7;7]); (T 140,[6;6;7;7]); (T 15,[4;6;6;5]); (T 143,[6;7]); (T 144,[6;7]); (T 149,[6;6;6;7]); (T 151,[6;6;6;6]); (T 154,[6;6;6;6]); (T 156,[6;6;6;7]); (T 158,[6;6;6;7]); (T 160,[6;6;6;7]); (T 17,[2;6;7]); (T 170,[6;6;6;7]); (T 18,[6;6]); (T 20,[2;6;7]); (T 21,[6;6]); (T 28,[4;5]); (T 29,[4;5]); (T 4,[4;4;6;7]); (T 31,[4;4;4;5]); (T 33,[4;4;5;5]); (T 34,[4;4;4;4]); (T 37,[4;5]); (T 38,[4;5]); (T 39,[4;4;4;4]); (T 41,[4;5]); (T 42,[4;5]); (T 43,[4;4;4;5]); (T 45,[4;4;4;5]); (T 47,[4;4;4;5]); (T 49,[5;5]); (T 6,[2;4;5]); (T 51,[5;5]); (T 53,[4;4;5;5]); (T 56,[6;6;7;7]); (T 57,[4;6;5;7]); (T 7,[4;4]); (T 62,[4;4;4;5]); (T 66,[4;6;5;7]); (T 70,[4;4;5;5]); (T 78,[4;6;6;5]); (T 80,[4;4;6;6]); (T 9,[2;4;5]); (T 82,[4;4;6;6]); (T 84,[4;6;6;5]); (T 85,[4;6;6;5]); (T 86,[4;6;6;5]); (T 10,[4;4]); (T 93,[4;6;6;5]); (T 94,[4;6;6;5]); (T 97,[6;6;5;5])].

(** ebcc/codegen/UDFCCD.py:1101-1456 [hbar_matvec_ip] *)
Definition UDFCCD_hbar_matvec_ip : prog := mkprog
 [(n_v'bbb'xov,[2;6;7]); (n_r2'bab,[6;4;7]); (n_r2'aaa,[4;4;5]); (n_v'baa'xov,[2;4;5]); (IT 160,[6;6;6;7]); (IT 158,[6;6;6;7]); (IT 140,[6;6;7;7]); (IT 122,[6;6;7;7]); (n_r2'aba,[4;6;5]); (IT 20,[2;6;7]); (IT 17,[2;6;7]); (n_r2'bbb,[6;6;7]); (IT 18,[6;6]); (IT 21,[6;6]); (IT 13,[6;6;6;7]); (IT 156,[6;6;6;7]); (IT 70,[4;4;5;5]); (IT 53,[4;4;5;5]); (IT 47,[4;4;4;5]); (IT 45,[4;4;4;5]); (IT 6,[2;4;5]); (IT 9,[2;4;5]); (IT 7,[4;4]); (IT 10,[4;4]); (IT 2,[4;4;4;5]); (IT 43,[4;4;4;5]); (n_r1'b,[6]); (n_f'bb'oo,[6;6]); (IT 119,[4;6;5;7]); (IT 56,[6;6;7;7]); (IT 66,[4;6;5;7]); (IT 33,[4;4;5;5]); (IT 57,[4;6;5;7]); (n_r1'a,[4]); (n_f'aa'oo,[4;4]); (n_f'bb'ov,[6;7]); (IT 112,[6;7]); (IT 113,[6;7]); (IT 144,[6;7]); (IT 127,[6;7]); (IT 128,[6;7]); (IT 143,[6;7]); (IT 130,[7;7]); (IT 132,[7;7]); (n_f'bb'vv,[7;7]); (IT 149,[6;6;6;7]); (IT 170,[6;6;6;7]); (IT 151,[6;6;6;6]); (IT 154,[6;6;6;6]); (IT 134,[4;4;7;7]); (IT 137,[4;4;7;7]); (IT 80,[4;4;6;6]); (IT 82,[4;4;6;6]); (IT 109,[4;4;6;7]); (IT 116,[4;4;6;7]); (IT 117,[4;4;6;7]); (IT 126,[4;4;6;7]); (IT 4,[4;4;6;7]); (IT 115,[4;4;6;7]); (IT 129,[4;4;6;7]); (n_f'aa'ov,[4;5]); (IT 29,[4;5]); (IT 37,[4;5]); (IT 38,[4;5]); (IT 28,[4;5]); (IT 41,[4;5]); (IT 42,[4;5]); (IT 102,[6;6;5;5]); (IT 97,[6;6;5;5]); (IT 15,[4;6;6;5]); (IT 78,[4;6;6;5]); (IT 85,[4;6;6;5]); (IT 86,[4;6;6;5]); (IT 93,[4;6;6;5]); (IT 84,[4;6;6;5]); (IT 94,[4;6;6;5]); (IT 49,[5;5]); (IT 51,[5;5]); (n_f'aa'vv,[5;5]); (IT 34,[4;4;4;4]); (IT 39,[4;4;4;4]); (IT 31,[4;4;4;5]); (IT 62,[4;4;4;5]); (n_t2'bbbb,[6;6;7;7]); (n_t2'abab,[4;6;5;7]); (n_t2'aaaa,[4;4;5;5])]
 [(*1129*) Assign (T 4) (Times (Einsum [(n_v'bbb'xov,[0;1;2]); (n_r2'bab,[1;3;2])] [0;3]) (-1) 1);
  (*1130*) Assign (T 3) (Plain (Einsum [(n_r2'aaa,[0;1;2]); (n_v'baa'xov,[3;1;2])] [3;0]));
  (*1131*) Assign (T 53) (Plain (Copy (IT 160)));
  (*1132*) Del (IT 160);
  (*1133*) AddTo (T 53) (Times (Copy (IT 158)) (2) 1);
  (*1134*) Del (IT 158);
  (*1135*) Assign (T 40) (Plain (Copy (IT 140)));
  (*1136*) Del (IT 140);
  (*1137*) AddTo (T 40) (Times (Copy (IT 122)) (2) 1);
  (*1138*) Del (IT 122);
  (*1139*) Assign (T 32) (Plain (Einsum [(n_r2'aba,[0;1;2]); (n_v'baa'xov,[3;0;2])] [3;1]));
  (*1140*) Assign (T 51) (Plain (Copy (IT 20)));
  (*1141*) AddTo (T 51) (Times (Copy (IT 17)) (2) 1);
  (*1142*) Assign (T 33) (Plain (Einsum [(n_v'bbb'xov,[0;1;2]); (n_r2'bbb,[3;1;2])] [0;3]));
  (*1143*) Assign (T 60) (Times (Copy (IT 18)) (2) 1);
  (*1144*) AddTo (T 60) (Plain (Copy (IT 21)));
  (*1145*) Assign (T 58) (Plain (Copy (IT 17)));
  (*1146*) AddTo (T 58) (Times (Copy (IT 20)) (1) 2);
  (*1147*) Assign (T 62) (Plain (Copy (IT 13)));
  (*1148*) AddTo (T 62) (Times (Transpose (IT 156) [0;2;1;3]) (2) 1);
  (*1149*) Del (IT 156);
  (*1150*) Assign (T 15) (Plain (Copy (IT 70)));
  (*1151*) AddTo (T 15) (Times (Copy (IT 53)) (2) 1);
  (*1152*) Assign (T 19) (Plain (Copy (IT 47)));
  (*1153*) Del (IT 47);
  (*1154*) AddTo (T 19) (Times (Copy (IT 45)) (2) 1);
  (*1155*) Del (IT 45);
  (*1156*) Assign (T 17) (Times (Copy (T 3)) (2) 1);
  (*1157*) AddTo (T 17) (Plain (Copy (T 4)));
  (*1158*) Assign (T 5) (Times (Copy (T 3)) (2) 1);
  (*1159*) AddTo (T 5) (Plain (Copy (T 4)));
  (*1160*) Assign (T 6) (Plain (Copy (IT 6)));
  (*1161*) AddTo (T 6) (Times (Copy (IT 9)) (1) 2);
  (*1162*) Assign (T 8) (Times (Copy (IT 7)) (2) 1);
  (*1163*) AddTo (T 8) (Plain (Copy (IT 10)));
  (*1164*) Assign (T 10) (Plain (Copy (IT 2)));
  (*1165*) AddTo (T 10) (Times (Transpose (IT 43) [0;2;1;3]) (2) 1);
  (*1166*) Del (IT 43);
  (*1167*) Assign (T 54) (Plain (Einsum [(n_r1'b,[0]); (T 53,[1;0;2;3])] [1;2;3]));
  (*1168*) Del (T 53);
  (*1169*) Assign (T 50) (Times (Einsum [(T 40,[0;1;2;3]); (n_r2'bbb,[4;1;3])] [4;0;2]) (-1) 1);
  (*1170*) Assign (T 52) (Plain (Einsum [(T 32,[0;1]); (T 51,[0;2;3])] [1;2;3]));
  (*1171*) Del (T 51);
  (*1172*) Assign (T 48) (Plain (Einsum [(n_r2'bbb,[0;1;2]); (n_f'bb'oo,[3;1])] [3;0;2]));
  (*1173*) Assign (T 49) (Plain (Einsum [(T 33,[0;1]); (n_v'bbb'xov,[0;2;3])] [1;2;3]));
  (*1174*) Assign (T 61) (Times (Einsum [(n_r2'bbb,[0;1;2]); (T 60,[3;1])] [0;3;2]) (-2) 1);
  (*1175*) Del (T 60);
  (*1176*) Assign (T 59) (Times (Einsum [(T 33,[0;1]); (T 58,[0;2;3])] [1;2;3]) (4) 1);
  (*1177*) Del (T 58);
  (*1178*) Assign (T 56) (Plain (Einsum [(n_r2'aba,[0;1;2]); (IT 119,[0;3;2;4])] [3;1;4]));
  (*1179*) Assign (T 63) (Plain (Einsum [(n_r1'b,[0]); (T 62,[1;0;2;3])] [1;2;3]));
  (*1180*) Del (T 62);
  (*1181*) Assign (T 57) (Plain (Einsum [(n_v'bbb'xov,[0;1;2]); (T 32,[0;3])] [3;1;2]));
  (*1182*) Assign (T 37) (Times (Einsum [(IT 56,[0;1;2;3]); (n_r2'bbb,[1;0;2])] [3]) (-1) 1);
  (*1183*) Del (IT 56);
  (*1184*) Assign (T 36) (Plain (Einsum [(n_r2'aba,[0;1;2]); (IT 66,[0;1;2;3])] [3]));
  (*1185*) Assign (T 24) (Plain (Einsum [(IT 33,[0;1;2;3]); (n_r2'aaa,[0;1;2])] [3]));
  (*1186*) Del (IT 33);
  (*1187*) Assign (T 25) (Times (Einsum [(IT 66,[0;1;2;3]); (n_r2'bab,[1;0;3])] [2]) (-1) 1);
  (*1188*) Del (IT 66);
  (*1189*) Assign (T 14) (Times (Einsum [(IT 57,[0;1;2;3]); (n_r2'bab,[1;4;3])] [0;4;2]) (-1) 1);
  (*1190*) Assign (T 16) (Times (Einsum [(T 15,[0;1;2;3]); (n_r2'aaa,[4;1;3])] [4;0;2]) (-1) 1);
  (*1191*) Del (T 15);
  (*1192*) Assign (T 20) (Plain (Einsum [(n_r1'a,[0]); (T 19,[1;0;2;3])] [1;2;3]));
  (*1193*) Del (T 19);
  (*1194*) Assign (T 18) (Plain (Einsum [(T 17,[0;1]); (n_v'baa'xov,[0;2;3])] [2;1;3]));
  (*1195*) Del (T 17);
  (*1196*) Assign (T 13) (Plain (Einsum [(n_f'aa'oo,[0;1]); (n_r2'aaa,[2;1;3])] [0;2;3]));
  (*1197*) Assign (T 7) (Times (Einsum [(T 5,[0;1]); (T 6,[0;2;3])] [1;2;3]) (2) 1);
  (*1198*) Del (T 5);
  (*1198*) Del (T 6);
  (*1199*) Assign (T 9) (Times (Einsum [(n_r2'aaa,[0;1;2]); (T 8,[3;1])] [0;3;2]) (-2) 1);
  (*1200*) Del (T 8);
  (*1201*) Assign (T 11) (Plain (Einsum [(n_r1'a,[0]); (T 10,[1;0;2;3])] [1;2;3]));
  (*1202*) Del (T 10);
  (*1203*) Assign (T 55) (Times (Copy (T 48)) (2) 1);
  (*1204*) Del (T 48);
  (*1205*) AddTo (T 55) (Times (Copy (T 49)) (2) 1);
  (*1206*) Del (T 49);
  (*1207*) AddTo (T 55) (Times (Transpose (T 50) [1;0;2]) (-2) 1);
  (*1208*) Del (T 50);
  (*1209*) AddTo (T 55) (Plain (Transpose (T 52) [1;0;2]));
  (*1210*) Del (T 52);
  (*1211*) AddTo (T 55) (Plain (Copy (T 54)));
  (*1212*) Del (T 54);
  (*1213*) Assign (T 64) (Plain (Copy (T 56)));
  (*1214*) Del (T 56);
  (*1215*) AddTo (T 64) (Plain (Copy (T 57)));
  (*1216*) Del (T 57);
  (*1217*) AddTo (T 64) (Plain (Transpose (T 59) [1;0;2]));
  (*1218*) Del (T 59);
  (*1219*) AddTo (T 64) (Plain (Transpose (T 61) [1;0;2]));
  (*1220*) Del (T 61);
  (*1221*) AddTo (T 64) (Plain (Copy (T 63)));
  (*1222*) Del (T 63);
  (*1223*) Assign (T 47) (Plain (Copy n_f'bb'ov));
  (*1224*) AddTo (T 47) (Plain (Copy (IT 112)));
  (*1225*) Del (IT 112);
  (*1226*) AddTo (T 47) (Times (Copy (IT 113)) (2) 1);
  (*1227*) Del (IT 113);
  (*1228*) AddTo (T 47) (Plain (Copy (IT 144)));
  (*1229*) Del (IT 144);
  (*1230*) AddTo (T 47) (Times (Copy (IT 127)) (-2) 1);
  (*1231*) Del (IT 127);
  (*1232*) AddTo (T 47) (Times (Copy (IT 128)) (-1) 1);
  (*1233*) Del (IT 128);
  (*1234*) AddTo (T 47) (Times (Copy (IT 143)) (-2) 1);
  (*1235*) Del (IT 143);
  (*1236*) Assign (T 45) (Times (Transpose (IT 130) [1;0]) (2) 1);
  (*1237*) Del (IT 130);
  (*1238*) AddTo (T 45) (Plain (Transpose (IT 132) [1;0]));
  (*1239*) Del (IT 132);
  (*1240*) AddTo (T 45) (Times (Copy n_f'bb'vv) (-1) 1);
  (*1241*) Assign (T 66) (Plain (Copy (IT 149)));
  (*1242*) Del (IT 149);
  (*1243*) AddTo (T 66) (Times (Transpose (IT 170) [1;2;0;3]) (-1) 1);
  (*1244*) Del (IT 170);
  (*1245*) Assign (T 38) (Times (Copy (T 36)) (1) 2);
  (*1246*) Del (T 36);
  (*1247*) AddTo (T 38) (Plain (Copy (T 37)));
  (*1248*) Del (T 37);
  (*1249*) Assign (T 65) (Plain (Copy (IT 151)));
  (*1250*) Del (IT 151);
  (*1251*) AddTo (T 65) (Times (Transpose (IT 154) [0;2;1;3]) (-1) 1);
  (*1252*) Del (IT 154);
  (*1253*) Assign (T 26) (Times (Copy (T 24)) (2) 1);
  (*1254*) Del (T 24);
  (*1255*) AddTo (T 26) (Times (Copy (T 25)) (-1) 1);
  (*1256*) Del (T 25);
  (*1257*) Assign (T 43) (Plain (Copy (T 3)));
  (*1258*) Del (T 3);
  (*1259*) AddTo (T 43) (Times (Copy (T 4)) (1) 2);
  (*1260*) Del (T 4);
  (*1261*) Assign (T 41) (Plain (Copy (IT 134)));
  (*1262*) Del (IT 134);
  (*1263*) AddTo (T 41) (Times (Copy (IT 137)) (-1) 1);
  (*1264*) Del (IT 137);
  (*1265*) Assign (T 2) (Plain (Copy n_f'bb'oo));
  (*1266*) AddTo (T 2) (Times (Transpose (IT 18) [1;0]) (2) 1);
  (*1267*) Del (IT 18);
  (*1268*) AddTo (T 2) (Plain (Transpose (IT 21) [1;0]));
  (*1269*) Del (IT 21);
  (*1270*) Assign (T 42) (Plain (Copy (IT 80)));
  (*1271*) AddTo (T 42) (Plain (Copy (IT 82)));
  (*1272*) Assign (T 44) (Times (Copy (IT 17)) (2) 1);
  (*1273*) Del (IT 17);
  (*1274*) AddTo (T 44) (Plain (Copy (IT 20)));
  (*1275*) Del (IT 20);
  (*1276*) AddTo (T 44) (Plain (Copy n_v'bbb'xov));
  (*1277*) Assign (T 1) (Plain (Copy n_f'aa'oo));
  (*1278*) AddTo (T 1) (Times (Transpose (IT 7) [1;0]) (2) 1);
  (*1279*) Del (IT 7);
  (*1280*) AddTo (T 1) (Plain (Transpose (IT 10) [1;0]));
  (*1281*) Del (IT 10);
  (*1282*) Assign (T 46) (Plain (Copy (IT 109)));
  (*1283*) Del (IT 109);
  (*1284*) AddTo (T 46) (Plain (Transpose (IT 116) [1;0;2;3]));
  (*1285*) Del (IT 116);
  (*1286*) AddTo (T 46) (Times (Transpose (IT 117) [1;0;2;3]) (2) 1);
  (*1287*) Del (IT 117);
  (*1288*) AddTo (T 46) (Plain (Transpose (IT 126) [1;0;2;3]));
  (*1289*) Del (IT 126);
  (*1290*) AddTo (T 46) (Plain (Copy (IT 4)));
  (*1291*) AddTo (T 46) (Times (Copy (IT 115)) (-1) 1);
  (*1292*) Del (IT 115);
  (*1293*) AddTo (T 46) (Times (Copy (IT 129)) (-1) 1);
  (*1294*) Del (IT 129);
  (*1295*) Assign (T 28) (Plain (Copy n_f'aa'ov));
  (*1296*) AddTo (T 28) (Plain (Copy (IT 29)));
  (*1297*) Del (IT 29);
  (*1298*) AddTo (T 28) (Times (Copy (IT 37)) (2) 1);
  (*1299*) Del (IT 37);
  (*1300*) AddTo (T 28) (Plain (Copy (IT 38)));
  (*1301*) Del (IT 38);
  (*1302*) AddTo (T 28) (Times (Copy (IT 28)) (-2) 1);
  (*1303*) Del (IT 28);
  (*1304*) AddTo (T 28) (Times (Copy (IT 41)) (-2) 1);
  (*1305*) Del (IT 41);
  (*1306*) AddTo (T 28) (Times (Copy (IT 42)) (-1) 1);
  (*1307*) Del (IT 42);
  (*1308*) Assign (T 29) (Times (Copy (IT 53)) (2) 1);
  (*1309*) Del (IT 53);
  (*1310*) AddTo (T 29) (Plain (Copy (IT 70)));
  (*1311*) Del (IT 70);
  (*1312*) Assign (T 31) (Plain (Copy (IT 80)));
  (*1313*) Del (IT 80);
  (*1314*) AddTo (T 31) (Plain (Copy (IT 82)));
  (*1315*) Del (IT 82);
  (*1316*) Assign (T 35) (Times (Copy (IT 6)) (2) 1);
  (*1317*) Del (IT 6);
  (*1318*) AddTo (T 35) (Plain (Copy (IT 9)));
  (*1319*) Del (IT 9);
  (*1320*) AddTo (T 35) (Plain (Copy n_v'baa'xov));
  (*1321*) Assign (T 30) (Plain (Copy (IT 102)));
  (*1322*) Del (IT 102);
  (*1323*) AddTo (T 30) (Times (Copy (IT 97)) (-1) 1);
  (*1324*) Del (IT 97);
  (*1325*) Assign (T 39) (Plain (Copy (IT 15)));
  (*1326*) AddTo (T 39) (Plain (Copy (IT 78)));
  (*1327*) Del (IT 78);
  (*1328*) AddTo (T 39) (Plain (Transpose (IT 85) [0;2;1;3]));
  (*1329*) Del (IT 85);
  (*1330*) AddTo (T 39) (Times (Transpose (IT 86) [0;2;1;3]) (2) 1);
  (*1331*) Del (IT 86);
  (*1332*) AddTo (T 39) (Plain (Transpose (IT 93) [0;2;1;3]));
  (*1333*) Del (IT 93);
  (*1334*) AddTo (T 39) (Times (Copy (IT 84)) (-1) 1);
  (*1335*) Del (IT 84);
  (*1336*) AddTo (T 39) (Times (Copy (IT 94)) (-1) 1);
  (*1337*) Del (IT 94);
  (*1338*) Assign (T 23) (Times (Transpose (IT 49) [1;0]) (2) 1);
  (*1339*) Del (IT 49);
  (*1340*) AddTo (T 23) (Plain (Transpose (IT 51) [1;0]));
  (*1341*) Del (IT 51);
  (*1342*) AddTo (T 23) (Times (Copy n_f'aa'vv) (-1) 1);
  (*1343*) Assign (T 34) (Times (Copy (T 32)) (-1) 2);
  (*1344*) Del (T 32);
  (*1345*) AddTo (T 34) (Plain (Copy (T 33)));
  (*1346*) Del (T 33);
  (*1347*) Assign (T 22) (Plain (Copy (IT 34)));
  (*1348*) Del (IT 34);
  (*1349*) AddTo (T 22) (Times (Transpose (IT 39) [0;2;1;3]) (-1) 1);
  (*1350*) Del (IT 39);
  (*1351*) Assign (T 27) (Plain (Copy (IT 31)));
  (*1352*) Del (IT 31);
  (*1353*) AddTo (T 27) (Times (Transpose (IT 62) [1;2;0;3]) (-1) 1);
  (*1354*) Del (IT 62);
  (*1355*) Assign (T 21) (Times (Copy (T 13)) (2) 1);
  (*1356*) Del (T 13);
  (*1357*) AddTo (T 21) (Plain (Copy (T 14)));
  (*1358*) Del (T 14);
  (*1359*) AddTo (T 21) (Times (Transpose (T 16) [1;0;2]) (-2) 1);
  (*1360*) Del (T 16);
  (*1361*) AddTo (T 21) (Plain (Transpose (T 18) [1;0;2]));
  (*1362*) Del (T 18);
  (*1363*) AddTo (T 21) (Plain (Copy (T 20)));
  (*1364*) Del (T 20);
  (*1365*) Assign (T 12) (Plain (Transpose (T 7) [1;0;2]));
  (*1366*) Del (T 7);
  (*1367*) AddTo (T 12) (Plain (Transpose (T 9) [1;0;2]));
  (*1368*) Del (T 9);
  (*1369*) AddTo (T 12) (Plain (Copy (T 11)));
  (*1370*) Del (T 11);
  (*1371*) Assign n_r2new'bbb (Plain (Copy (T 55)));
  (*1372*) AddTo n_r2new'bbb (Times (Transpose (T 55) [1;0;2]) (-1) 1);
  (*1373*) Del (T 55);
  (*1374*) AddTo n_r2new'bbb (Times (Copy (T 64)) (-1) 1);
  (*1375*) AddTo n_r2new'bbb (Plain (Transpose (T 64) [1;0;2]));
  (*1376*) Del (T 64);
  (*1377*) AddTo n_r2new'bbb (Times (Einsum [(T 65,[0;1;2;3]); (n_r2'bbb,[3;2;4])] [0;1;4]) (-2) 1);
  (*1378*) Del (T 65);
  (*1379*) AddTo n_r2new'bbb (Times (Einsum [(T 45,[0;1]); (n_r2'bbb,[2;3;0])] [2;3;1]) (-2) 1);
  (*1380*) AddTo n_r2new'bbb (Times (Einsum [(n_t2'bbbb,[0;1;2;3]); (T 38,[3])] [0;1;2]) (-4) 1);
  (*1381*) AddTo n_r2new'bbb (Times (Einsum [(n_r1'b,[0]); (T 66,[1;2;0;3])] [2;1;3]) (2) 1);
  (*1382*) Del (T 66);
  (*1383*) AddTo n_r2new'bbb (Plain (Einsum [(n_r1'b,[0]); (T 47,[1;2])] [0;1;2]));
  (*1384*) AddTo n_r2new'bbb (Times (Einsum [(T 47,[0;1]); (n_r1'b,[2])] [0;2;1]) (-1) 1);
  (*1385*) Assign n_r2new'bab (Times (Einsum [(n_r2'aaa,[0;1;2]); (IT 119,[1;3;2;4])] [3;0;4]) (2) 1);
  (*1386*) Del (IT 119);
  (*1387*) AddTo n_r2new'bab (Times (Einsum [(T 40,[0;1;2;3]); (n_r2'bab,[1;4;3])] [0;4;2]) (-1) 1);
  (*1388*) Del (T 40);
  (*1389*) AddTo n_r2new'bab (Plain (Einsum [(n_r2'bab,[0;1;2]); (T 41,[3;1;4;2])] [0;3;4]));
  (*1390*) Del (T 41);
  (*1391*) AddTo n_r2new'bab (Plain (Einsum [(T 42,[0;1;2;3]); (n_r2'bab,[3;1;4])] [2;0;4]));
  (*1392*) Del (T 42);
  (*1393*) AddTo n_r2new'bab (Times (Einsum [(T 44,[0;1;2]); (T 43,[0;3])] [1;3;2]) (-2) 1);
  (*1394*) Del (T 44);
  (*1394*) Del (T 43);
  (*1395*) AddTo n_r2new'bab (Times (Einsum [(n_r2'bab,[0;1;2]); (T 45,[2;3])] [0;1;3]) (-1) 1);
  (*1396*) Del (T 45);
  (*1397*) AddTo n_r2new'bab (Times (Einsum [(T 26,[0]); (n_t2'abab,[1;2;0;3])] [2;1;3]) (-1) 1);
  (*1398*) AddTo n_r2new'bab (Plain (Einsum [(n_r1'a,[0]); (T 46,[1;0;2;3])] [2;1;3]));
  (*1399*) Del (T 46);
  (*1400*) AddTo n_r2new'bab (Times (Einsum [(n_r2'bab,[0;1;2]); (T 1,[1;3])] [0;3;2]) (-1) 1);
  (*1401*) AddTo n_r2new'bab (Times (Einsum [(T 2,[0;1]); (n_r2'bab,[0;2;3])] [1;2;3]) (-1) 1);
  (*1402*) AddTo n_r2new'bab (Times (Einsum [(T 47,[0;1]); (n_r1'a,[2])] [0;2;1]) (-1) 1);
  (*1403*) Del (T 47);
  (*1404*) Assign n_r2new'aba (Times (Einsum [(n_r2'bbb,[0;1;2]); (IT 57,[3;1;4;2])] [3;0;4]) (2) 1);
  (*1405*) Del (IT 57);
  (*1406*) AddTo n_r2new'aba (Times (Einsum [(n_r2'aba,[0;1;2]); (T 29,[3;0;4;2])] [3;1;4]) (-1) 1);
  (*1407*) Del (T 29);
  (*1408*) AddTo n_r2new'aba (Times (Einsum [(n_r2'aba,[0;1;2]); (T 30,[3;1;4;2])] [0;3;4]) (-1) 1);
  (*1409*) Del (T 30);
  (*1410*) AddTo n_r2new'aba (Plain (Einsum [(T 31,[0;1;2;3]); (n_r2'aba,[1;3;4])] [0;2;4]));
  (*1411*) Del (T 31);
  (*1412*) AddTo n_r2new'aba (Times (Einsum [(T 34,[0;1]); (T 35,[0;2;3])] [2;1;3]) (-2) 1);
  (*1413*) Del (T 34);
  (*1413*) Del (T 35);
  (*1414*) AddTo n_r2new'aba (Times (Einsum [(T 23,[0;1]); (n_r2'aba,[2;3;0])] [2;3;1]) (-1) 1);
  (*1415*) AddTo n_r2new'aba (Times (Einsum [(n_t2'abab,[0;1;2;3]); (T 38,[3])] [0;1;2]) (-2) 1);
  (*1416*) Del (T 38);
  (*1417*) AddTo n_r2new'aba (Plain (Einsum [(n_r1'b,[0]); (T 39,[1;2;0;3])] [1;2;3]));
  (*1418*) Del (T 39);
  (*1419*) AddTo n_r2new'aba (Times (Einsum [(n_r2'aba,[0;1;2]); (T 1,[0;3])] [3;1;2]) (-1) 1);
  (*1420*) AddTo n_r2new'aba (Times (Einsum [(n_r2'aba,[0;1;2]); (T 2,[1;3])] [0;3;2]) (-1) 1);
  (*1421*) AddTo n_r2new'aba (Times (Einsum [(T 28,[0;1]); (n_r1'b,[2])] [0;2;1]) (-1) 1);
  (*1422*) Assign n_r2new'aaa (Times (Copy (T 12)) (-1) 1);
  (*1423*) AddTo n_r2new'aaa (Plain (Transpose (T 12) [1;0;2]));
  (*1424*) Del (T 12);
  (*1425*) AddTo n_r2new'aaa (Plain (Copy (T 21)));
  (*1426*) AddTo n_r2new'aaa (Times (Transpose (T 21) [1;0;2]) (-1) 1);
  (*1427*) Del (T 21);
  (*1428*) AddTo n_r2new'aaa (Times (Einsum [(n_r2'aaa,[0;1;2]); (T 22,[3;4;1;0])] [3;4;2]) (-2) 1);
  (*1429*) Del (T 22);
  (*1430*) AddTo n_r2new'aaa (Times (Einsum [(T 23,[0;1]); (n_r2'aaa,[2;3;0])] [2;3;1]) (-2) 1);
  (*1431*) Del (T 23);
  (*1432*) AddTo n_r2new'aaa (Times (Einsum [(n_t2'aaaa,[0;1;2;3]); (T 26,[3])] [0;1;2]) (-2) 1);
  (*1433*) Del (T 26);
  (*1434*) AddTo n_r2new'aaa (Times (Einsum [(n_r1'a,[0]); (T 27,[1;2;0;3])] [2;1;3]) (2) 1);
  (*1435*) Del (T 27);
  (*1436*) AddTo n_r2new'aaa (Plain (Einsum [(T 28,[0;1]); (n_r1'a,[2])] [2;0;1]));
  (*1437*) AddTo n_r2new'aaa (Times (Einsum [(T 28,[0;1]); (n_r1'a,[2])] [0;2;1]) (-1) 1);
  (*1438*) Del (T 28);
  (*1439*) Assign n_r1new'b (Times (Einsum [(n_r2'aba,[0;1;2]); (n_f'aa'ov,[0;2])] [1]) (-1) 1);
  (*1440*) AddTo n_r1new'b (Times (Einsum [(n_f'bb'ov,[0;1]); (n_r2'bbb,[2;0;1])] [2]) (2) 1);
  (*1441*) AddTo n_r1new'b (Times (Einsum [(n_r2'bbb,[0;1;2]); (IT 13,[3;1;0;2])] [3]) (2) 1);
  (*1442*) Del (IT 13);
  (*1443*) AddTo n_r1new'b (Plain (Einsum [(n_r2'aba,[0;1;2]); (IT 15,[0;3;1;2])] [3]));
  (*1444*) Del (IT 15);
  (*1445*) AddTo n_r1new'b (Times (Einsum [(n_r1'b,[0]); (T 2,[0;1])] [1]) (-1) 1);
  (*1446*) Del (T 2);
  (*1447*) Assign n_r1new'a (Times (Einsum [(n_r2'aaa,[0;1;2]); (n_f'aa'ov,[1;2])] [0]) (2) 1);
  (*1448*) AddTo n_r1new'a (Times (Einsum [(n_r2'aaa,[0;1;2]); (IT 2,[3;1;0;2])] [3]) (2) 1);
  (*1449*) Del (IT 2);
  (*1450*) AddTo n_r1new'a (Times (Einsum [(n_f'bb'ov,[0;1]); (n_r2'bab,[0;2;1])] [2]) (-1) 1);
  (*1451*) AddTo n_r1new'a (Plain (Einsum [(IT 4,[0;1;2;3]); (n_r2'bab,[2;1;3])] [0]));
  (*1452*) Del (IT 4);
  (*1453*) AddTo n_r1new'a (Times (Einsum [(n_r1'a,[0]); (T 1,[0;1])] [1]) (-1) 1);
  (*1454*) Del (T 1)]
 [(n_r1new'b,[6]); (n_r1new'a,[4]); (n_r2new'bbb,[6;6;7]); (n_r2new'bab,[6;4;7]); (n_r2new'aba,[4;6;5]); (n_r2new'aaa,[4;4;5])].

(** ebcc/codegen/UDFCCD.py:1458-1608 [hbar_matvec_ea_intermediates] *)
Definition UDFCCD_hbar_matvec_ea_intermediates : prog := mkprog
 [(n_v'bbb'xov,[2;6;7]); (n_v'bbb'xoo,[2;6;6]); (n_t2'abab,[4;6;5;7]); (n_v'baa'xov,[2;4;5]); (n_v'bbb'xvv,[2;7;7]); (n_t2'bbbb,[6;6;7;7]); (n_v'baa'xvv,[2;5;5]); (n_t2'aaaa,[4;4;5;5]); (n_v'baa'xoo,[2;4;4]); (n_f'bb'ov,[6;7]); (n_f'aa'ov,[4;5])]
 [(*1537*) Assign (T 143) (Plain (Einsum [(n_v'bbb'xov,[0;1;2]); (n_v'bbb'xoo,[0;3;4])] [3;4;1;2]));
  (*1538*) Assign (T 20) (Plain (Einsum [(n_t2'abab,[0;1;2;3]); (n_v'baa'xov,[4;0;2])] [4;1;3]));
  (*1539*) Assign (T 13) (Plain (Einsum [(n_v'bbb'xov,[0;1;2]); (n_v'bbb'xvv,[0;3;4])] [1;3;4;2]));
  (*1540*) Assign (T 17) (Plain (Einsum [(n_v'bbb'xov,[0;1;2]); (n_t2'bbbb,[3;1;4;2])] [0;3;4]));
  (*1541*) Assign (T 113) (Plain (Einsum [(n_v'baa'xov,[0;1;2]); (n_v'bbb'xoo,[0;3;4])] [1;3;4;2]));
  (*1542*) Assign (T 42) (Plain (Einsum [(n_v'bbb'xov,[0;1;2]); (n_v'bbb'xov,[0;3;4])] [3;1;4;2]));
  (*1543*) Assign (T 38) (Plain (Einsum [(n_v'baa'xov,[0;1;2]); (n_v'baa'xov,[0;3;4])] [3;1;4;2]));
  (*1544*) Assign (T 2) (Plain (Einsum [(n_v'baa'xvv,[0;1;2]); (n_v'baa'xov,[0;3;4])] [3;1;2;4]));
  (*1545*) Assign (T 63) (Plain (Einsum [(n_v'bbb'xov,[0;1;2]); (n_v'baa'xov,[0;3;4])] [3;1;4;2]));
  (*1546*) Assign (T 15) (Plain (Einsum [(n_v'baa'xov,[0;1;2]); (n_v'bbb'xvv,[0;3;4])] [1;2;3;4]));
  (*1547*) Assign (T 6) (Plain (Einsum [(n_v'baa'xov,[0;1;2]); (n_t2'aaaa,[3;1;4;2])] [0;3;4]));
  (*1548*) Assign (T 9) (Plain (Einsum [(n_t2'abab,[0;1;2;3]); (n_v'bbb'xov,[4;1;3])] [4;0;2]));
  (*1549*) Assign (T 55) (Plain (Einsum [(n_v'bbb'xov,[0;1;2]); (n_v'baa'xoo,[0;3;4])] [3;4;1;2]));
  (*1550*) Assign (T 4) (Plain (Einsum [(n_v'bbb'xov,[0;1;2]); (n_v'baa'xvv,[0;3;4])] [1;3;4;2]));
  (*1551*) Assign (T 53) (Plain (Einsum [(n_v'baa'xov,[0;1;2]); (n_v'baa'xoo,[0;3;4])] [3;4;1;2]));
  (*1552*) Assign (T 173) (Plain (Einsum [(n_v'bbb'xvv,[0;1;2]); (n_v'bbb'xvv,[0;3;4])] [3;1;2;4]));
  (*1553*) Assign (T 166) (Plain (Einsum [(n_t2'bbbb,[0;1;2;3]); (T 143,[4;0;1;5])] [4;2;3;5]));
  (*1554*) Assign (T 153) (Plain (Einsum [(T 20,[0;1;2]); (n_v'bbb'xvv,[0;3;4])] [1;2;3;4]));
  (*1555*) Assign (T 151) (Plain (Einsum [(T 13,[0;1;2;3]); (n_t2'bbbb,[4;0;5;2])] [4;5;3;1]));
  (*1556*) Assign (T 149) (Plain (Einsum [(T 17,[0;1;2]); (n_v'bbb'xvv,[0;3;4])] [1;2;3;4]));
  (*1557*) Assign (T 145) (Plain (Einsum [(T 113,[0;1;2;3]); (n_t2'abab,[0;2;3;4])] [1;4]));
  (*1558*) Assign (T 144) (Plain (Einsum [(n_t2'bbbb,[0;1;2;3]); (T 143,[4;0;1;3])] [4;2]));
  (*1559*) Del (T 143);
  (*1560*) Assign (T 142) (Plain (Einsum [(n_v'baa'xvv,[0;1;2]); (n_v'bbb'xoo,[0;3;4])] [3;4;1;2]));
  (*1561*) Assign (T 138) (Plain (Einsum [(n_t2'bbbb,[0;1;2;3]); (T 42,[1;4;5;3])] [0;4;2;5]));
  (*1562*) Assign (T 135) (Plain (Einsum [(n_t2'abab,[0;1;2;3]); (T 38,[0;4;5;2])] [4;1;5;3]));
  (*1563*) Assign (T 131) (Plain (Einsum [(T 17,[0;1;2]); (n_v'baa'xvv,[0;3;4])] [1;3;4;2]));
  (*1564*) Assign (T 130) (Plain (Einsum [(T 2,[0;1;2;3]); (n_t2'abab,[0;4;2;5])] [4;3;1;5]));
  (*1565*) Assign (T 129) (Plain (Einsum [(T 20,[0;1;2]); (n_v'baa'xvv,[0;3;4])] [1;3;4;2]));
  (*1566*) Assign (T 128) (Plain (Einsum [(n_t2'bbbb,[0;1;2;3]); (n_f'bb'ov,[1;3])] [0;2]));
  (*1567*) Assign (T 127) (Plain (Einsum [(n_t2'abab,[0;1;2;3]); (n_f'aa'ov,[0;2])] [1;3]));
  (*1568*) Assign (T 125) (Plain (Einsum [(n_v'bbb'xov,[0;1;2]); (T 20,[0;3;2])] [3;1]));
  (*1569*) Assign (T 123) (Plain (Einsum [(n_v'bbb'xov,[0;1;2]); (T 17,[0;3;2])] [3;1]));
  (*1570*) Assign (T 122) (Plain (Einsum [(n_v'bbb'xvv,[0;1;2]); (T 20,[0;3;2])] [3;1]));
  (*1571*) Assign (T 121) (Times (Einsum [(T 17,[0;1;2]); (n_v'bbb'xvv,[0;3;2])] [1;3]) (-1) 1);
  (*1572*) Assign (T 114) (Plain (Einsum [(n_t2'abab,[0;1;2;3]); (T 113,[0;4;1;5])] [4;2;5;3]));
  (*1573*) Del (T 113);
  (*1574*) Assign (T 112) (Plain (Einsum [(n_v'bbb'xoo,[0;1;2]); (n_v'bbb'xvv,[0;3;4])] [1;2;3;4]));
  (*1575*) Assign (T 111) (Plain (Einsum [(n_t2'abab,[0;1;2;3]); (T 63,[0;4;5;3])] [1;4;2;5]));
  (*1576*) Assign (T 108) (Plain (Einsum [(T 15,[0;1;2;3]); (n_t2'abab,[0;4;5;3])] [4;5;1;2]));
  (*1577*) Assign (T 106) (Plain (Einsum [(n_v'baa'xoo,[0;1;2]); (n_v'bbb'xvv,[0;3;4])] [1;2;3;4]));
  (*1578*) Assign (T 97) (Plain (Einsum [(T 6,[0;1;2]); (n_v'bbb'xvv,[0;3;4])] [1;2;3;4]));
  (*1579*) Assign (T 96) (Plain (Einsum [(T 13,[0;1;2;3]); (n_t2'abab,[4;0;5;2])] [4;5;3;1]));
  (*1580*) Assign (T 95) (Plain (Einsum [(T 9,[0;1;2]); (n_v'bbb'xvv,[0;3;4])] [1;2;3;4]));
  (*1581*) Assign (T 91) (Plain (Einsum [(n_v'baa'xvv,[0;1;2]); (n_v'bbb'xvv,[0;3;4])] [1;2;3;4]));
  (*1582*) Assign (T 83) (Plain (Einsum [(T 55,[0;1;2;3]); (n_t2'abab,[1;2;4;5])] [0;4;5;3]));
  (*1583*) Assign (T 81) (Plain (Einsum [(n_t2'abab,[0;1;2;3]); (T 63,[4;1;2;5])] [0;4;3;5]));
  (*1584*) Assign (T 78) (Plain (Einsum [(T 4,[0;1;2;3]); (n_t2'abab,[4;0;2;5])] [4;1;5;3]));
  (*1585*) Assign (T 73) (Plain (Einsum [(T 9,[0;1;2]); (n_v'baa'xov,[0;3;2])] [1;3]));
  (*1586*) Assign (T 71) (Plain (Einsum [(T 6,[0;1;2]); (n_v'baa'xov,[0;3;2])] [1;3]));
  (*1587*) Assign (T 70) (Plain (Einsum [(n_v'baa'xvv,[0;1;2]); (T 9,[0;3;2])] [3;1]));
  (*1588*) Assign (T 69) (Times (Einsum [(n_v'baa'xvv,[0;1;2]); (T 6,[0;3;2])] [3;1]) (-1) 1);
  (*1589*) Assign (T 67) (Plain (Einsum [(n_v'baa'xvv,[0;1;2]); (n_v'baa'xvv,[0;3;4])] [1;3;4;2]));
  (*1590*) Assign (T 57) (Plain (Einsum [(n_t2'aaaa,[0;1;2;3]); (T 53,[4;0;1;5])] [4;2;3;5]));
  (*1591*) Assign (T 56) (Plain (Einsum [(T 55,[0;1;2;3]); (n_t2'abab,[1;2;4;3])] [0;4]));
  (*1592*) Del (T 55);
  (*1593*) Assign (T 54) (Plain (Einsum [(n_t2'aaaa,[0;1;2;3]); (T 53,[4;0;1;3])] [4;2]));
  (*1594*) Del (T 53);
  (*1595*) Assign (T 51) (Plain (Einsum [(n_v'baa'xvv,[0;1;2]); (n_v'baa'xoo,[0;3;4])] [3;4;1;2]));
  (*1596*) Assign (T 43) (Plain (Einsum [(n_t2'abab,[0;1;2;3]); (T 42,[1;4;5;3])] [0;4;2;5]));
  (*1597*) Assign (T 39) (Plain (Einsum [(n_t2'aaaa,[0;1;2;3]); (T 38,[1;4;5;3])] [0;4;2;5]));
  (*1598*) Assign (T 34) (Plain (Einsum [(n_v'baa'xvv,[0;1;2]); (T 9,[0;3;4])] [3;4;1;2]));
  (*1599*) Assign (T 32) (Plain (Einsum [(T 2,[0;1;2;3]); (n_t2'aaaa,[4;0;5;2])] [4;5;3;1]));
  (*1600*) Assign (T 30) (Plain (Einsum [(n_v'baa'xvv,[0;1;2]); (T 6,[0;3;4])] [3;4;1;2]));
  (*1601*) Assign (T 24) (Plain (Einsum [(n_t2'abab,[0;1;2;3]); (n_f'bb'ov,[1;3])] [0;2]));
  (*1602*) Assign (T 23) (Plain (Einsum [(n_f'aa'ov,[0;1]); (n_t2'aaaa,[2;0;3;1])] [2;3]));
  (*1603*) Assign (T 21) (Plain (Einsum [(T 20,[0;1;2]); (n_v'bbb'xov,[0;1;3])] [2;3]));
  (*1604*) Assign (T 18) (Plain (Einsum [(n_v'bbb'xov,[0;1;2]); (T 17,[0;1;3])] [3;2]));
  (*1605*) Assign (T 10) (Plain (Einsum [(T 9,[0;1;2]); (n_v'baa'xov,[0;1;3])] [2;3]));
  (*1606*) Assign (T 7) (Plain (Einsum [(T 6,[0;1;2]); (n_v'baa'xov,[0;1;3])] [2;3]))]
 [(T 2,[4;5;5;5]); (T 106,[4;4;7;7]); (T 108,[6;5;5;7]); (T 111,[6;6;5;5]); (T 112,[6;6;7;7]); (T 114,[6;5;5;7]); (T 13,[6;7;7;7]); (T 121,[6;7]); (T 122,[6;7]); (T 123,[6;6]); (T 125,[6;6]); (T 127,[6;7]); (T 128,[6;7]); (T 129,[6;5;5;7]); (T 130,[6;5;5;7]); (T 131,[6;5;5;7]); (T 135,[4;6;5;7]); (T 138,[6;6;7;7]); (T 15,[4;5;7;7]); (T 142,[6;6;5;5]); (T 144,[6;7]); (T 145,[6;7]); (T 149,[6;7;7;7]); (T 151,[6;7;7;7]); (T 153,[6;7;7;7]); (T 17,[2;6;7]); (T 166,[6;7;7;7]); (T 18,[7;7]); (T 173,[7;7;7;7]); (T 20,[2;6;7]); (T 21,[7;7]); (T 23,[4;5]); (T 24,[4;5]); (T 30,[4;5;5;5]); (T 4,[6;5;5;7]); (T 32,[4;5;5;5]); (T 34,[4;5;5;5]); (T 38,[4;4;5;5]); (T 39,[4;4;5;5]); (T 42,[6;6;7;7]); (T 43,[4;6;5;7]); (T 6,[2;4;5]); (T 51,[4;4;5;5]); (T 54,[4;5]); (T 56,[4;5]); (T 57,[4;5;5;5]); (T 7,[5;5]); (T 63,[4;6;5;7]); (T 67,[5;5;5;5]); (T 69,[4;5]); (T 70,[4;5]); (T 71,[4;4]); (T 73,[4;4]); (T 78,[4;5;7;7]); (T 9,[2;4;5]); (T 81,[4;4;7;7]); (T 83,[4;5;7;7]); (T 10,[5;5]); (T 91,[5;5;7;7]); (T 95,[4;5;7;7]); (T 96,[4;5;7;7]); (T 97,[4;5;7;7])].

(** ebcc/codegen/UDFCCD.py:1610-1950 [hbar_matvec_ea] *)
Definition UDFCCD_hbar_matvec_ea : prog := mkprog
 [(n_v'bbb'xov,[2;6;7]); (n_r2'bab,[7;5;6]); (n_r2'aaa,[5;5;4]); (n_v'baa'xov,[2;4;5]); (IT 112,[6;6;7;7]); (IT 138,[6;6;7;7]); (IT 13,[6;7;7;7]); (IT 151,[6;7;7;7]); (n_r2'bbb,[7;7;6]); (IT 20,[2;6;7]); (IT 17,[2;6;7]); (n_r2'aba,[5;7;4]); (IT 149,[6;7;7;7]); (IT 153,[6;7;7;7]); (IT 18,[7;7]); (IT 21,[7;7]); (n_f'bb'vv,[7;7]); (IT 51,[4;4;5;5]); (IT 39,[4;4;5;5]); (IT 2,[4;5;5;5]); (IT 32,[4;5;5;5]); (IT 7,[5;5]); (IT 10,[5;5]); (n_f'aa'vv,[5;5]); (IT 6,[2;4;5]); (IT 9,[2;4;5]); (IT 30,[4;5;5;5]); (IT 34,[4;5;5;5]); (n_r1'b,[7]); (IT 42,[6;6;7;7]); (IT 63,[4;6;5;7]); (n_f'bb'ov,[6;7]); (IT 135,[4;6;5;7]); (IT 38,[4;4;5;5]); (n_f'aa'ov,[4;5]); (n_r1'a,[5]); (IT 43,[4;6;5;7]); (IT 122,[6;7]); (IT 127,[6;7]); (IT 128,[6;7]); (IT 121,[6;7]); (IT 144,[6;7]); (IT 145,[6;7]); (n_f'bb'oo,[6;6]); (IT 123,[6;6]); (IT 125,[6;6]); (IT 114,[6;5;5;7]); (IT 129,[6;5;5;7]); (IT 131,[6;5;5;7]); (IT 4,[6;5;5;7]); (IT 108,[6;5;5;7]); (IT 130,[6;5;5;7]); (IT 111,[6;6;5;5]); (IT 142,[6;6;5;5]); (IT 23,[4;5]); (IT 24,[4;5]); (IT 70,[4;5]); (IT 54,[4;5]); (IT 56,[4;5]); (IT 69,[4;5]); (n_f'aa'oo,[4;4]); (IT 71,[4;4]); (IT 73,[4;4]); (IT 15,[4;5;7;7]); (IT 83,[4;5;7;7]); (IT 95,[4;5;7;7]); (IT 97,[4;5;7;7]); (IT 78,[4;5;7;7]); (IT 96,[4;5;7;7]); (IT 106,[4;4;7;7]); (IT 81,[4;4;7;7]); (IT 166,[6;7;7;7]); (IT 173,[7;7;7;7]); (n_t2'bbbb,[6;6;7;7]); (n_t2'abab,[4;6;5;7]); (IT 91,[5;5;7;7]); (n_t2'aaaa,[4;4;5;5]); (IT 67,[5;5;5;5]); (IT 57,[4;5;5;5])]
 [(*1638*) Assign (T 5) (Times (Einsum [(n_v'bbb'xov,[0;1;2]); (n_r2'bab,[2;3;1])] [0;3]) (-1) 1);
  (*1639*) Assign (T 4) (Plain (Einsum [(n_r2'aaa,[0;1;2]); (n_v'baa'xov,[3;2;1])] [3;0]));
  (*1640*) Assign (T 41) (Plain (Copy (IT 112)));
  (*1641*) Del (IT 112);
  (*1642*) AddTo (T 41) (Times (Copy (IT 138)) (2) 1);
  (*1643*) Del (IT 138);
  (*1644*) Assign (T 53) (Plain (Copy (IT 13)));
  (*1645*) AddTo (T 53) (Times (Copy (IT 151)) (2) 1);
  (*1646*) Del (IT 151);
  (*1647*) Assign (T 32) (Plain (Einsum [(n_r2'bbb,[0;1;2]); (n_v'bbb'xov,[3;2;1])] [3;0]));
  (*1648*) Assign (T 51) (Plain (Copy (IT 20)));
  (*1649*) AddTo (T 51) (Times (Copy (IT 17)) (2) 1);
  (*1650*) Assign (T 31) (Plain (Einsum [(n_v'baa'xov,[0;1;2]); (n_r2'aba,[2;3;1])] [0;3]));
  (*1651*) Assign (T 58) (Times (Copy (IT 17)) (2) 1);
  (*1652*) AddTo (T 58) (Plain (Copy (IT 20)));
  (*1653*) Assign (T 61) (Plain (Copy (IT 149)));
  (*1654*) Del (IT 149);
  (*1655*) AddTo (T 61) (Times (Copy (IT 153)) (1) 2);
  (*1656*) Del (IT 153);
  (*1657*) Assign (T 45) (Plain (Transpose (IT 18) [1;0]));
  (*1658*) AddTo (T 45) (Times (Transpose (IT 21) [1;0]) (1) 2);
  (*1659*) AddTo (T 45) (Times (Copy n_f'bb'vv) (-1) 2);
  (*1660*) Assign (T 15) (Plain (Copy (IT 51)));
  (*1661*) AddTo (T 15) (Times (Copy (IT 39)) (2) 1);
  (*1662*) Assign (T 17) (Times (Copy (T 4)) (2) 1);
  (*1663*) AddTo (T 17) (Plain (Copy (T 5)));
  (*1664*) Assign (T 19) (Plain (Copy (IT 2)));
  (*1665*) AddTo (T 19) (Times (Copy (IT 32)) (2) 1);
  (*1666*) Del (IT 32);
  (*1667*) Assign (T 9) (Plain (Transpose (IT 7) [1;0]));
  (*1668*) AddTo (T 9) (Times (Transpose (IT 10) [1;0]) (1) 2);
  (*1669*) AddTo (T 9) (Times (Copy n_f'aa'vv) (-1) 2);
  (*1670*) Assign (T 7) (Times (Copy (IT 6)) (2) 1);
  (*1671*) AddTo (T 7) (Plain (Copy (IT 9)));
  (*1672*) Assign (T 6) (Plain (Copy (T 4)));
  (*1673*) Del (T 4);
  (*1674*) AddTo (T 6) (Times (Copy (T 5)) (1) 2);
  (*1675*) Del (T 5);
  (*1676*) Assign (T 11) (Plain (Copy (IT 30)));
  (*1677*) Del (IT 30);
  (*1678*) AddTo (T 11) (Times (Copy (IT 34)) (1) 2);
  (*1679*) Del (IT 34);
  (*1680*) Assign (T 50) (Times (Einsum [(n_r2'bbb,[0;1;2]); (T 41,[3;2;4;1])] [3;0;4]) (-1) 1);
  (*1681*) Assign (T 54) (Plain (Einsum [(T 53,[0;1;2;3]); (n_r1'b,[2])] [0;1;3]));
  (*1682*) Del (T 53);
  (*1683*) Assign (T 49) (Plain (Einsum [(T 32,[0;1]); (n_v'bbb'xov,[0;2;3])] [2;1;3]));
  (*1684*) Assign (T 52) (Plain (Einsum [(T 51,[0;1;2]); (T 31,[0;3])] [1;3;2]));
  (*1685*) Del (T 51);
  (*1686*) Assign (T 38) (Times (Einsum [(n_r2'bbb,[0;1;2]); (IT 42,[2;3;1;0])] [3]) (-1) 1);
  (*1687*) Assign (T 37) (Plain (Einsum [(IT 63,[0;1;2;3]); (n_r2'aba,[2;3;0])] [1]));
  (*1688*) Assign (T 36) (Plain (Einsum [(n_f'bb'ov,[0;1]); (n_r1'b,[1])] [0]));
  (*1689*) Assign (T 59) (Times (Einsum [(T 32,[0;1]); (T 58,[0;2;3])] [2;1;3]) (2) 1);
  (*1690*) Del (T 58);
  (*1691*) Assign (T 56) (Plain (Einsum [(n_r2'aba,[0;1;2]); (IT 135,[2;3;0;4])] [3;4;1]));
  (*1692*) Assign (T 62) (Times (Einsum [(T 61,[0;1;2;3]); (n_r1'b,[2])] [0;1;3]) (2) 1);
  (*1693*) Del (T 61);
  (*1694*) Assign (T 57) (Plain (Einsum [(T 31,[0;1]); (n_v'bbb'xov,[0;2;3])] [2;1;3]));
  (*1695*) Assign (T 60) (Times (Einsum [(n_r2'bbb,[0;1;2]); (T 45,[1;3])] [2;0;3]) (-4) 1);
  (*1696*) Assign (T 23) (Times (Einsum [(n_r2'aaa,[0;1;2]); (IT 38,[2;3;1;0])] [3]) (-1) 1);
  (*1697*) Assign (T 24) (Times (Einsum [(IT 63,[0;1;2;3]); (n_r2'bab,[3;2;1])] [0]) (-1) 1);
  (*1698*) Assign (T 22) (Plain (Einsum [(n_f'aa'ov,[0;1]); (n_r1'a,[1])] [0]));
  (*1699*) Assign (T 16) (Times (Einsum [(n_r2'aaa,[0;1;2]); (T 15,[3;2;4;1])] [3;0;4]) (-1) 1);
  (*1700*) Del (T 15);
  (*1701*) Assign (T 18) (Plain (Einsum [(T 17,[0;1]); (n_v'baa'xov,[0;2;3])] [2;3;1]));
  (*1702*) Del (T 17);
  (*1703*) Assign (T 14) (Times (Einsum [(n_r2'bab,[0;1;2]); (IT 43,[3;2;4;0])] [3;4;1]) (-1) 1);
  (*1704*) Assign (T 20) (Plain (Einsum [(n_r1'a,[0]); (T 19,[1;2;0;3])] [1;2;3]));
  (*1705*) Del (T 19);
  (*1706*) Assign (T 10) (Times (Einsum [(T 9,[0;1]); (n_r2'aaa,[2;0;3])] [3;2;1]) (-4) 1);
  (*1707*) Del (T 9);
  (*1708*) Assign (T 8) (Times (Einsum [(T 7,[0;1;2]); (T 6,[0;3])] [1;2;3]) (2) 1);
  (*1709*) Del (T 7);
  (*1710*) Assign (T 12) (Times (Einsum [(n_r1'a,[0]); (T 11,[1;2;0;3])] [1;2;3]) (2) 1);
  (*1711*) Del (T 11);
  (*1712*) Assign (T 55) (Times (Copy (T 49)) (2) 1);
  (*1713*) Del (T 49);
  (*1714*) AddTo (T 55) (Times (Transpose (T 50) [0;2;1]) (-2) 1);
  (*1715*) Del (T 50);
  (*1716*) AddTo (T 55) (Plain (Transpose (T 52) [0;2;1]));
  (*1717*) Del (T 52);
  (*1718*) AddTo (T 55) (Plain (Copy (T 54)));
  (*1719*) Del (T 54);
  (*1720*) Assign (T 48) (Plain (Einsum [(n_r2'bbb,[0;1;2]); (IT 42,[3;4;0;1])] [3;4;2]));
  (*1721*) Del (IT 42);
  (*1722*) Assign (T 39) (Times (Copy (T 36)) (-1) 1);
  (*1723*) Del (T 36);
  (*1724*) AddTo (T 39) (Plain (Copy (T 37)));
  (*1725*) Del (T 37);
  (*1726*) AddTo (T 39) (Times (Copy (T 38)) (2) 1);
  (*1727*) Del (T 38);
  (*1728*) Assign (T 47) (Plain (Copy n_f'bb'ov));
  (*1729*) AddTo (T 47) (Plain (Copy (IT 122)));
  (*1730*) Del (IT 122);
  (*1731*) AddTo (T 47) (Plain (Copy (IT 127)));
  (*1732*) Del (IT 127);
  (*1733*) AddTo (T 47) (Times (Copy (IT 128)) (2) 1);
  (*1734*) Del (IT 128);
  (*1735*) AddTo (T 47) (Times (Copy (IT 121)) (-2) 1);
  (*1736*) Del (IT 121);
  (*1737*) AddTo (T 47) (Times (Copy (IT 144)) (-2) 1);
  (*1738*) Del (IT 144);
  (*1739*) AddTo (T 47) (Times (Copy (IT 145)) (-1) 1);
  (*1740*) Del (IT 145);
  (*1741*) Assign (T 63) (Plain (Copy (T 56)));
  (*1742*) Del (T 56);
  (*1743*) AddTo (T 63) (Plain (Copy (T 57)));
  (*1744*) Del (T 57);
  (*1745*) AddTo (T 63) (Plain (Transpose (T 59) [0;2;1]));
  (*1746*) Del (T 59);
  (*1747*) AddTo (T 63) (Plain (Transpose (T 60) [0;2;1]));
  (*1748*) Del (T 60);
  (*1749*) AddTo (T 63) (Plain (Copy (T 62)));
  (*1750*) Del (T 62);
  (*1751*) Assign (T 46) (Plain (Copy n_f'bb'oo));
  (*1752*) AddTo (T 46) (Times (Transpose (IT 123) [1;0]) (2) 1);
  (*1753*) Del (IT 123);
  (*1754*) AddTo (T 46) (Plain (Transpose (IT 125) [1;0]));
  (*1755*) Del (IT 125);
  (*1756*) Assign (T 25) (Plain (Copy (T 22)));
  (*1757*) Del (T 22);
  (*1758*) AddTo (T 25) (Times (Copy (T 23)) (-2) 1);
  (*1759*) Del (T 23);
  (*1760*) AddTo (T 25) (Plain (Copy (T 24)));
  (*1761*) Del (T 24);
  (*1762*) Assign (T 43) (Times (Copy (IT 17)) (2) 1);
  (*1763*) Del (IT 17);
  (*1764*) AddTo (T 43) (Plain (Copy (IT 20)));
  (*1765*) Del (IT 20);
  (*1766*) AddTo (T 43) (Plain (Copy n_v'bbb'xov));
  (*1767*) Assign (T 44) (Plain (Copy (IT 114)));
  (*1768*) Del (IT 114);
  (*1769*) AddTo (T 44) (Plain (Transpose (IT 129) [0;2;1;3]));
  (*1770*) Del (IT 129);
  (*1771*) AddTo (T 44) (Times (Transpose (IT 131) [0;2;1;3]) (2) 1);
  (*1772*) Del (IT 131);
  (*1773*) AddTo (T 44) (Plain (Copy (IT 4)));
  (*1774*) AddTo (T 44) (Times (Copy (IT 108)) (-1) 1);
  (*1775*) Del (IT 108);
  (*1776*) AddTo (T 44) (Times (Transpose (IT 130) [0;2;1;3]) (-1) 1);
  (*1777*) Del (IT 130);
  (*1778*) Assign (T 42) (Plain (Copy (IT 111)));
  (*1779*) Del (IT 111);
  (*1780*) AddTo (T 42) (Times (Copy (IT 142)) (-1) 1);
  (*1781*) Del (IT 142);
  (*1782*) Assign (T 1) (Times (Transpose (IT 7) [1;0]) (2) 1);
  (*1783*) Del (IT 7);
  (*1784*) AddTo (T 1) (Plain (Transpose (IT 10) [1;0]));
  (*1785*) Del (IT 10);
  (*1786*) AddTo (T 1) (Times (Copy n_f'aa'vv) (-1) 1);
  (*1787*) Assign (T 40) (Times (Einsum [(n_r2'bab,[0;1;2]); (IT 63,[3;4;1;0])] [3;4;2]) (-1) 1);
  (*1788*) Assign (T 28) (Plain (Einsum [(IT 63,[0;1;2;3]); (n_r2'aba,[2;3;4])] [0;4;1]));
  (*1789*) Del (IT 63);
  (*1790*) Assign (T 34) (Times (Copy (IT 6)) (2) 1);
  (*1791*) Del (IT 6);
  (*1792*) AddTo (T 34) (Plain (Copy (IT 9)));
  (*1793*) Del (IT 9);
  (*1794*) AddTo (T 34) (Plain (Copy n_v'baa'xov));
  (*1795*) Assign (T 2) (Times (Transpose (IT 18) [1;0]) (2) 1);
  (*1796*) Del (IT 18);
  (*1797*) AddTo (T 2) (Plain (Transpose (IT 21) [1;0]));
  (*1798*) Del (IT 21);
  (*1799*) AddTo (T 2) (Times (Copy n_f'bb'vv) (-1) 1);
  (*1800*) Assign (T 27) (Plain (Copy n_f'aa'ov));
  (*1801*) AddTo (T 27) (Times (Copy (IT 23)) (2) 1);
  (*1802*) Del (IT 23);
  (*1803*) AddTo (T 27) (Plain (Copy (IT 24)));
  (*1804*) Del (IT 24);
  (*1805*) AddTo (T 27) (Plain (Copy (IT 70)));
  (*1806*) Del (IT 70);
  (*1807*) AddTo (T 27) (Times (Copy (IT 54)) (-2) 1);
  (*1808*) Del (IT 54);
  (*1809*) AddTo (T 27) (Times (Copy (IT 56)) (-1) 1);
  (*1810*) Del (IT 56);
  (*1811*) AddTo (T 27) (Times (Copy (IT 69)) (-2) 1);
  (*1812*) Del (IT 69);
  (*1813*) Assign (T 26) (Plain (Copy n_f'aa'oo));
  (*1814*) AddTo (T 26) (Times (Transpose (IT 71) [1;0]) (2) 1);
  (*1815*) Del (IT 71);
  (*1816*) AddTo (T 26) (Plain (Transpose (IT 73) [1;0]));
  (*1817*) Del (IT 73);
  (*1818*) Assign (T 35) (Plain (Copy (IT 15)));
  (*1819*) AddTo (T 35) (Plain (Copy (IT 83)));
  (*1820*) Del (IT 83);
  (*1821*) AddTo (T 35) (Plain (Transpose (IT 95) [0;1;3;2]));
  (*1822*) Del (IT 95);
  (*1823*) AddTo (T 35) (Times (Transpose (IT 97) [0;1;3;2]) (2) 1);
  (*1824*) Del (IT 97);
  (*1825*) AddTo (T 35) (Times (Copy (IT 78)) (-1) 1);
  (*1826*) Del (IT 78);
  (*1827*) AddTo (T 35) (Times (Transpose (IT 96) [0;1;3;2]) (-1) 1);
  (*1828*) Del (IT 96);
  (*1829*) Assign (T 30) (Plain (Copy (IT 106)));
  (*1830*) Del (IT 106);
  (*1831*) AddTo (T 30) (Times (Copy (IT 81)) (-1) 1);
  (*1832*) Del (IT 81);
  (*1833*) Assign (T 29) (Times (Copy (IT 39)) (2) 1);
  (*1834*) Del (IT 39);
  (*1835*) AddTo (T 29) (Plain (Copy (IT 51)));
  (*1836*) Del (IT 51);
  (*1837*) Assign (T 33) (Times (Copy (T 31)) (-1) 2);
  (*1838*) Del (T 31);
  (*1839*) AddTo (T 33) (Plain (Copy (T 32)));
  (*1840*) Del (T 32);
  (*1841*) Assign (T 3) (Times (Einsum [(n_r2'aaa,[0;1;2]); (IT 38,[3;4;1;0])] [3;4;2]) (-1) 1);
  (*1842*) Del (IT 38);
  (*1843*) Assign (T 21) (Plain (Copy (T 14)));
  (*1844*) Del (T 14);
  (*1845*) AddTo (T 21) (Times (Transpose (T 16) [0;2;1]) (-2) 1);
  (*1846*) Del (T 16);
  (*1847*) AddTo (T 21) (Plain (Transpose (T 18) [0;2;1]));
  (*1848*) Del (T 18);
  (*1849*) AddTo (T 21) (Plain (Copy (T 20)));
  (*1850*) Del (T 20);
  (*1851*) Assign (T 13) (Plain (Copy (T 8)));
  (*1852*) Del (T 8);
  (*1853*) AddTo (T 13) (Plain (Transpose (T 10) [0;2;1]));
  (*1854*) Del (T 10);
  (*1855*) AddTo (T 13) (Plain (Copy (T 12)));
  (*1856*) Del (T 12);
  (*1857*) Assign n_r2new'bbb (Times (Einsum [(IT 166,[0;1;2;3]); (n_r1'b,[3])] [2;1;0]) (2) 1);
  (*1858*) Del (IT 166);
  (*1859*) AddTo n_r2new'bbb (Times (Einsum [(n_r2'bbb,[0;1;2]); (IT 173,[3;0;4;1])] [3;4;2]) (-2) 1);
  (*1860*) Del (IT 173);
  (*1861*) AddTo n_r2new'bbb (Times (Einsum [(n_t2'bbbb,[0;1;2;3]); (T 48,[1;0;4])] [2;3;4]) (-2) 1);
  (*1862*) Del (T 48);
  (*1863*) AddTo n_r2new'bbb (Plain (Transpose (T 55) [1;2;0]));
  (*1864*) AddTo n_r2new'bbb (Times (Transpose (T 55) [2;1;0]) (-1) 1);
  (*1865*) Del (T 55);
  (*1866*) AddTo n_r2new'bbb (Times (Transpose (T 63) [1;2;0]) (-1) 1);
  (*1867*) AddTo n_r2new'bbb (Plain (Transpose (T 63) [2;1;0]));
  (*1868*) Del (T 63);
  (*1869*) AddTo n_r2new'bbb (Times (Einsum [(T 39,[0]); (n_t2'bbbb,[1;0;2;3])] [2;3;1]) (-2) 1);
  (*1870*) AddTo n_r2new'bbb (Times (Einsum [(n_r2'bbb,[0;1;2]); (T 46,[2;3])] [0;1;3]) (-2) 1);
  (*1871*) AddTo n_r2new'bbb (Plain (Einsum [(T 47,[0;1]); (n_r1'b,[2])] [2;1;0]));
  (*1872*) AddTo n_r2new'bbb (Times (Einsum [(T 47,[0;1]); (n_r1'b,[2])] [1;2;0]) (-1) 1);
  (*1873*) Assign n_r2new'bab (Times (Einsum [(IT 135,[0;1;2;3]); (n_r2'aaa,[4;2;0])] [3;4;1]) (2) 1);
  (*1874*) Del (IT 135);
  (*1875*) AddTo n_r2new'bab (Times (Einsum [(n_t2'abab,[0;1;2;3]); (T 40,[0;1;4])] [3;2;4]) (-1) 1);
  (*1876*) Del (T 40);
  (*1877*) AddTo n_r2new'bab (Plain (Einsum [(n_r2'bab,[0;1;2]); (IT 91,[3;1;4;0])] [4;3;2]));
  (*1878*) AddTo n_r2new'bab (Times (Einsum [(n_r2'bab,[0;1;2]); (T 41,[3;2;4;0])] [4;1;3]) (-1) 1);
  (*1879*) Del (T 41);
  (*1880*) AddTo n_r2new'bab (Plain (Einsum [(T 42,[0;1;2;3]); (n_r2'bab,[4;3;1])] [4;2;0]));
  (*1881*) Del (T 42);
  (*1882*) AddTo n_r2new'bab (Times (Einsum [(T 43,[0;1;2]); (T 6,[0;3])] [2;3;1]) (-2) 1);
  (*1883*) Del (T 6);
  (*1883*) Del (T 43);
  (*1884*) AddTo n_r2new'bab (Times (Einsum [(n_r1'a,[0]); (T 44,[1;2;0;3])] [3;2;1]) (-1) 1);
  (*1885*) Del (T 44);
  (*1886*) AddTo n_r2new'bab (Times (Einsum [(T 45,[0;1]); (n_r2'bab,[0;2;3])] [1;2;3]) (-2) 1);
  (*1887*) Del (T 45);
  (*1888*) AddTo n_r2new'bab (Times (Einsum [(n_r2'bab,[0;1;2]); (T 1,[1;3])] [0;3;2]) (-1) 1);
  (*1889*) AddTo n_r2new'bab (Plain (Einsum [(T 25,[0]); (n_t2'abab,[0;1;2;3])] [3;2;1]));
  (*1890*) AddTo n_r2new'bab (Times (Einsum [(n_r2'bab,[0;1;2]); (T 46,[2;3])] [0;1;3]) (-1) 1);
  (*1891*) Del (T 46);
  (*1892*) AddTo n_r2new'bab (Times (Einsum [(T 47,[0;1]); (n_r1'a,[2])] [1;2;0]) (-1) 1);
  (*1893*) Del (T 47);
  (*1894*) Assign n_r2new'aba (Times (Einsum [(IT 43,[0;1;2;3]); (n_r2'bbb,[4;3;1])] [2;4;0]) (2) 1);
  (*1895*) Del (IT 43);
  (*1896*) AddTo n_r2new'aba (Plain (Einsum [(T 28,[0;1;2]); (n_t2'abab,[0;2;3;4])] [3;4;1]));
  (*1897*) Del (T 28);
  (*1898*) AddTo n_r2new'aba (Plain (Einsum [(IT 91,[0;1;2;3]); (n_r2'aba,[1;3;4])] [0;2;4]));
  (*1899*) Del (IT 91);
  (*1900*) AddTo n_r2new'aba (Times (Einsum [(n_r2'aba,[0;1;2]); (T 29,[3;2;4;0])] [4;1;3]) (-1) 1);
  (*1901*) Del (T 29);
  (*1902*) AddTo n_r2new'aba (Times (Einsum [(n_r2'aba,[0;1;2]); (T 30,[3;2;4;1])] [0;4;3]) (-1) 1);
  (*1903*) Del (T 30);
  (*1904*) AddTo n_r2new'aba (Times (Einsum [(T 34,[0;1;2]); (T 33,[0;3])] [2;3;1]) (-2) 1);
  (*1905*) Del (T 34);
  (*1905*) Del (T 33);
  (*1906*) AddTo n_r2new'aba (Times (Einsum [(n_r1'b,[0]); (T 35,[1;2;3;0])] [2;3;1]) (-1) 1);
  (*1907*) Del (T 35);
  (*1908*) AddTo n_r2new'aba (Times (Einsum [(n_r2'aba,[0;1;2]); (T 1,[0;3])] [3;1;2]) (-1) 1);
  (*1909*) AddTo n_r2new'aba (Times (Einsum [(n_r2'aba,[0;1;2]); (T 2,[1;3])] [0;3;2]) (-1) 1);
  (*1910*) AddTo n_r2new'aba (Times (Einsum [(T 39,[0]); (n_t2'abab,[1;0;2;3])] [2;3;1]) (-1) 1);
  (*1911*) Del (T 39);
  (*1912*) AddTo n_r2new'aba (Times (Einsum [(n_r2'aba,[0;1;2]); (T 26,[2;3])] [0;1;3]) (-1) 1);
  (*1913*) AddTo n_r2new'aba (Times (Einsum [(T 27,[0;1]); (n_r1'b,[2])] [1;2;0]) (-1) 1);
  (*1914*) Assign n_r2new'aaa (Times (Einsum [(n_t2'aaaa,[0;1;2;3]); (T 3,[0;1;4])] [2;3;4]) (2) 1);
  (*1915*) Del (T 3);
  (*1916*) AddTo n_r2new'aaa (Times (Einsum [(n_r2'aaa,[0;1;2]); (IT 67,[3;1;4;0])] [3;4;2]) (2) 1);
  (*1917*) Del (IT 67);
  (*1918*) AddTo n_r2new'aaa (Times (Einsum [(n_r1'a,[0]); (IT 57,[1;2;3;0])] [3;2;1]) (2) 1);
  (*1919*) Del (IT 57);
  (*1920*) AddTo n_r2new'aaa (Times (Transpose (T 13) [1;2;0]) (-1) 1);
  (*1921*) AddTo n_r2new'aaa (Plain (Transpose (T 13) [2;1;0]));
  (*1922*) Del (T 13);
  (*1923*) AddTo n_r2new'aaa (Plain (Transpose (T 21) [1;2;0]));
  (*1924*) AddTo n_r2new'aaa (Times (Transpose (T 21) [2;1;0]) (-1) 1);
  (*1925*) Del (T 21);
  (*1926*) AddTo n_r2new'aaa (Times (Einsum [(n_t2'aaaa,[0;1;2;3]); (T 25,[1])] [2;3;0]) (2) 1);
  (*1927*) Del (T 25);
  (*1928*) AddTo n_r2new'aaa (Times (Einsum [(n_r2'aaa,[0;1;2]); (T 26,[2;3])] [0;1;3]) (-2) 1);
  (*1929*) Del (T 26);
  (*1930*) AddTo n_r2new'aaa (Plain (Einsum [(n_r1'a,[0]); (T 27,[1;2])] [0;2;1]));
  (*1931*) AddTo n_r2new'aaa (Times (Einsum [(n_r1'a,[0]); (T 27,[1;2])] [2;0;1]) (-1) 1);
  (*1932*) Del (T 27);
  (*1933*) Assign n_r1new'b (Times (Einsum [(n_f'bb'ov,[0;1]); (n_r2'bbb,[2;1;0])] [2]) (2) 1);
  (*1934*) AddTo n_r1new'b (Times (Einsum [(n_f'aa'ov,[0;1]); (n_r2'aba,[1;2;0])] [2]) (-1) 1);
  (*1935*) AddTo n_r1new'b (Times (Einsum [(IT 13,[0;1;2;3]); (n_r2'bbb,[3;2;0])] [1]) (-2) 1);
  (*1936*) Del (IT 13);
  (*1937*) AddTo n_r1new'b (Times (Einsum [(IT 15,[0;1;2;3]); (n_r2'aba,[1;3;0])] [2]) (-1) 1);
  (*1938*) Del (IT 15);
  (*1939*) AddTo n_r1new'b (Times (Einsum [(n_r1'b,[0]); (T 2,[0;1])] [1]) (-1) 1);
  (*1940*) Del (T 2);
  (*1941*) Assign n_r1new'a (Times (Einsum [(n_r2'aaa,[0;1;2]); (n_f'aa'ov,[2;1])] [0]) (2) 1);
  (*1942*) AddTo n_r1new'a (Times (Einsum [(n_r2'bab,[0;1;2]); (n_f'bb'ov,[2;0])] [1]) (-1) 1);
  (*1943*) AddTo n_r1new'a (Times (Einsum [(IT 2,[0;1;2;3]); (n_r2'aaa,[3;2;0])] [1]) (-2) 1);
  (*1944*) Del (IT 2);
  (*1945*) AddTo n_r1new'a (Times (Einsum [(n_r2'bab,[0;1;2]); (IT 4,[2;3;1;0])] [3]) (-1) 1);
  (*1946*) Del (IT 4);
  (*1947*) AddTo n_r1new'a (Times (Einsum [(n_r1'a,[0]); (T 1,[0;1])] [1]) (-1) 1);
  (*1948*) Del (T 1)]
 [(n_r1new'b,[7]); (n_r1new'a,[5]); (n_r2new'bbb,[7;7;6]); (n_r2new'bab,[7;5;6]); (n_r2new'aba,[5;7;4]); (n_r2new'aaa,[5;5;4])].

(** ebcc/codegen/UDFCCD.py:1952-2116 [hbar_lmatvec_ip_intermediates] *)
Definition UDFCCD_hbar_lmatvec_ip_intermediates : prog := mkprog
 [(n_v'bbb'xov,[2;6;7]); (n_v'baa'xov,[2;4;5]); (n_t2'abab,[4;6;5;7]); (n_t2'bbbb,[6;6;7;7]); (n_t2'aaaa,[4;4;5;5]); (n_v'baa'xvv,[2;5;5]); (n_v'bbb'xvv,[2;7;7]); (n_v'baa'xoo,[2;4;4]); (n_v'bbb'xoo,[2;6;6]); (n_f'bb'ov,[6;7]); (n_f'aa'ov,[4;5])]
 [(*2038*) Assign (T 166) (Plain (Einsum [(n_v'bbb'xov,[0;1;2]); (n_v'bbb'xov,[0;3;4])] [3;1;4;2]));
  (*2039*) Assign (T 147) (Plain (Einsum [(n_v'bbb'xov,[0;1;2]); (n_v'baa'xov,[0;3;4])] [3;1;4;2]));
  (*2040*) Assign (T 38) (Plain (Einsum [(n_t2'abab,[0;1;2;3]); (n_v'baa'xov,[4;0;2])] [4;1;3]));
  (*2041*) Assign (T 43) (Plain (Einsum [(n_t2'bbbb,[0;1;2;3]); (n_v'bbb'xov,[4;1;3])] [4;0;2]));
  (*2042*) Assign (T 20) (Plain (Einsum [(n_t2'abab,[0;1;2;3]); (n_v'bbb'xov,[4;1;3])] [4;0;2]));
  (*2043*) Assign (T 17) (Plain (Einsum [(n_v'baa'xov,[0;1;2]); (n_t2'aaaa,[3;1;4;2])] [0;3;4]));
  (*2044*) Assign (T 105) (Plain (Einsum [(n_v'baa'xov,[0;1;2]); (n_v'baa'xov,[0;3;4])] [3;1;4;2]));
  (*2045*) Assign (T 96) (Plain (Einsum [(n_v'bbb'xov,[0;1;2]); (n_v'baa'xvv,[0;3;4])] [1;3;4;2]));
  (*2046*) Assign (T 93) (Plain (Einsum [(n_v'bbb'xov,[0;1;2]); (n_v'bbb'xvv,[0;3;4])] [1;3;4;2]));
  (*2047*) Assign (T 15) (Plain (Einsum [(n_v'bbb'xov,[0;1;2]); (n_v'baa'xoo,[0;3;4])] [3;4;1;2]));
  (*2048*) Assign (T 25) (Plain (Einsum [(n_v'bbb'xov,[0;1;2]); (n_v'bbb'xoo,[0;3;4])] [3;4;1;2]));
  (*2049*) Assign (T 57) (Plain (Einsum [(n_v'baa'xov,[0;1;2]); (n_v'bbb'xvv,[0;3;4])] [1;2;3;4]));
  (*2050*) Assign (T 54) (Plain (Einsum [(n_v'baa'xvv,[0;1;2]); (n_v'baa'xov,[0;3;4])] [3;1;2;4]));
  (*2051*) Assign (T 28) (Plain (Einsum [(n_v'baa'xov,[0;1;2]); (n_v'bbb'xoo,[0;3;4])] [1;3;4;2]));
  (*2052*) Assign (T 13) (Plain (Einsum [(n_v'baa'xov,[0;1;2]); (n_v'baa'xoo,[0;3;4])] [3;4;1;2]));
  (*2053*) Assign (T 205) (Times (Einsum [(n_t2'bbbb,[0;1;2;3]); (T 166,[4;5;3;2])] [0;1;4;5]) (-1) 1);
  (*2054*) Assign (T 203) (Plain (Einsum [(n_v'bbb'xoo,[0;1;2]); (n_v'bbb'xoo,[0;3;4])] [1;3;4;2]));
  (*2055*) Assign (T 187) (Plain (Einsum [(n_t2'abab,[0;1;2;3]); (T 147,[4;1;2;5])] [0;4;3;5]));
  (*2056*) Assign (T 186) (Plain (Einsum [(n_v'baa'xoo,[0;1;2]); (n_v'bbb'xvv,[0;3;4])] [1;2;3;4]));
  (*2057*) Assign (T 184) (Plain (Einsum [(T 38,[0;1;2]); (n_v'bbb'xov,[0;1;3])] [2;3]));
  (*2058*) Assign (T 182) (Plain (Einsum [(n_v'bbb'xov,[0;1;2]); (T 43,[0;1;3])] [3;2]));
  (*2059*) Assign (T 169) (Plain (Einsum [(T 166,[0;1;2;3]); (n_t2'bbbb,[4;1;5;2])] [4;0;5;3]));
  (*2060*) Assign (T 167) (Plain (Einsum [(n_t2'abab,[0;1;2;3]); (T 166,[4;1;3;5])] [0;4;2;5]));
  (*2061*) Assign (T 164) (Plain (Einsum [(n_v'bbb'xoo,[0;1;2]); (n_v'bbb'xvv,[0;3;4])] [1;2;3;4]));
  (*2062*) Assign (T 163) (Plain (Einsum [(n_t2'abab,[0;1;2;3]); (T 147,[0;4;5;3])] [1;4;2;5]));
  (*2063*) Assign (T 162) (Plain (Einsum [(n_v'baa'xvv,[0;1;2]); (n_v'bbb'xoo,[0;3;4])] [3;4;1;2]));
  (*2064*) Assign (T 158) (Plain (Einsum [(n_t2'abab,[0;1;2;3]); (T 147,[4;5;2;3])] [0;4;1;5]));
  (*2065*) Assign (T 154) (Plain (Einsum [(n_v'baa'xoo,[0;1;2]); (n_v'bbb'xoo,[0;3;4])] [1;2;3;4]));
  (*2066*) Assign (T 133) (Plain (Einsum [(T 20,[0;1;2]); (n_v'baa'xov,[0;1;3])] [2;3]));
  (*2067*) Assign (T 131) (Plain (Einsum [(T 17,[0;1;2]); (n_v'baa'xov,[0;1;3])] [2;3]));
  (*2068*) Assign (T 128) (Times (Einsum [(n_t2'aaaa,[0;1;2;3]); (T 105,[4;5;3;2])] [0;1;4;5]) (-1) 1);
  (*2069*) Assign (T 126) (Plain (Einsum [(n_v'baa'xoo,[0;1;2]); (n_v'baa'xoo,[0;3;4])] [3;1;2;4]));
  (*2070*) Assign (T 108) (Plain (Einsum [(n_t2'abab,[0;1;2;3]); (T 105,[4;0;2;5])] [4;1;5;3]));
  (*2071*) Assign (T 106) (Plain (Einsum [(n_t2'aaaa,[0;1;2;3]); (T 105,[4;1;3;5])] [0;4;2;5]));
  (*2072*) Assign (T 101) (Plain (Einsum [(n_v'baa'xvv,[0;1;2]); (n_v'baa'xoo,[0;3;4])] [3;4;1;2]));
  (*2073*) Assign (T 97) (Plain (Einsum [(n_t2'abab,[0;1;2;3]); (T 96,[4;2;5;3])] [0;1;4;5]));
  (*2074*) Del (T 96);
  (*2075*) Assign (T 94) (Times (Einsum [(n_t2'bbbb,[0;1;2;3]); (T 93,[4;2;5;3])] [0;1;4;5]) (-1) 1);
  (*2076*) Del (T 93);
  (*2077*) Assign (T 87) (Plain (Einsum [(T 38,[0;1;2]); (n_v'bbb'xoo,[0;3;4])] [1;3;4;2]));
  (*2078*) Assign (T 85) (Plain (Einsum [(T 17,[0;1;2]); (n_v'bbb'xoo,[0;3;4])] [1;3;4;2]));
  (*2079*) Assign (T 84) (Plain (Einsum [(T 15,[0;1;2;3]); (n_t2'abab,[0;4;5;3])] [1;4;2;5]));
  (*2080*) Assign (T 82) (Plain (Einsum [(n_v'bbb'xoo,[0;1;2]); (T 43,[0;3;4])] [3;1;2;4]));
  (*2081*) Assign (T 81) (Plain (Einsum [(T 20,[0;1;2]); (n_v'bbb'xoo,[0;3;4])] [1;3;4;2]));
  (*2082*) Assign (T 79) (Plain (Einsum [(n_t2'bbbb,[0;1;2;3]); (T 25,[1;4;5;3])] [0;4;5;2]));
  (*2083*) Assign (T 78) (Plain (Einsum [(T 25,[0;1;2;3]); (n_t2'abab,[4;0;5;3])] [4;1;2;5]));
  (*2084*) Assign (T 72) (Plain (Einsum [(n_v'bbb'xov,[0;1;2]); (T 38,[0;3;2])] [3;1]));
  (*2085*) Assign (T 70) (Plain (Einsum [(n_v'bbb'xov,[0;1;2]); (T 43,[0;3;2])] [3;1]));
  (*2086*) Assign (T 66) (Plain (Einsum [(n_f'bb'ov,[0;1]); (n_t2'bbbb,[2;3;4;1])] [0;2;3;4]));
  (*2087*) Assign (T 64) (Plain (Einsum [(n_t2'abab,[0;1;2;3]); (n_f'bb'ov,[4;3])] [0;4;1;2]));
  (*2088*) Assign (T 58) (Plain (Einsum [(T 57,[0;1;2;3]); (n_t2'abab,[4;5;1;2])] [4;0;5;3]));
  (*2089*) Del (T 57);
  (*2090*) Assign (T 55) (Times (Einsum [(T 54,[0;1;2;3]); (n_t2'aaaa,[4;5;1;3])] [4;5;0;2]) (-1) 1);
  (*2091*) Del (T 54);
  (*2092*) Assign (T 52) (Plain (Einsum [(T 20,[0;1;2]); (n_v'baa'xvv,[0;3;2])] [1;3]));
  (*2093*) Assign (T 50) (Plain (Einsum [(n_v'bbb'xvv,[0;1;2]); (T 38,[0;3;2])] [3;1]));
  (*2094*) Assign (T 48) (Times (Einsum [(T 43,[0;1;2]); (n_v'bbb'xvv,[0;3;2])] [1;3]) (-1) 1);
  (*2095*) Assign (T 46) (Times (Einsum [(T 17,[0;1;2]); (n_v'baa'xvv,[0;3;2])] [1;3]) (-1) 1);
  (*2096*) Assign (T 44) (Plain (Einsum [(n_v'baa'xoo,[0;1;2]); (T 43,[0;3;4])] [1;2;3;4]));
  (*2097*) Assign (T 41) (Plain (Einsum [(n_v'baa'xoo,[0;1;2]); (T 20,[0;3;4])] [3;1;2;4]));
  (*2098*) Assign (T 40) (Plain (Einsum [(T 28,[0;1;2;3]); (n_t2'abab,[4;1;3;5])] [4;0;2;5]));
  (*2099*) Assign (T 39) (Plain (Einsum [(n_v'baa'xoo,[0;1;2]); (T 38,[0;3;4])] [1;2;3;4]));
  (*2100*) Assign (T 36) (Plain (Einsum [(n_v'baa'xoo,[0;1;2]); (T 17,[0;3;4])] [3;1;2;4]));
  (*2101*) Assign (T 35) (Plain (Einsum [(n_t2'abab,[0;1;2;3]); (T 13,[4;0;5;2])] [4;5;1;3]));
  (*2102*) Assign (T 33) (Plain (Einsum [(n_t2'aaaa,[0;1;2;3]); (T 13,[1;4;5;3])] [0;4;5;2]));
  (*2103*) Assign (T 31) (Plain (Einsum [(T 15,[0;1;2;3]); (n_t2'abab,[1;2;4;3])] [0;4]));
  (*2104*) Assign (T 29) (Plain (Einsum [(T 28,[0;1;2;3]); (n_t2'abab,[0;1;3;4])] [2;4]));
  (*2105*) Assign (T 26) (Plain (Einsum [(n_t2'bbbb,[0;1;2;3]); (T 25,[0;4;1;3])] [4;2]));
  (*2106*) Assign (T 23) (Plain (Einsum [(T 13,[0;1;2;3]); (n_t2'aaaa,[1;2;4;3])] [0;4]));
  (*2107*) Assign (T 21) (Plain (Einsum [(T 20,[0;1;2]); (n_v'baa'xov,[0;3;2])] [1;3]));
  (*2108*) Assign (T 18) (Plain (Einsum [(T 17,[0;1;2]); (n_v'baa'xov,[0;3;2])] [1;3]));
  (*2109*) Assign (T 11) (Plain (Einsum [(n_f'aa'ov,[0;1]); (n_t2'abab,[2;3;1;4])] [0;2;3;4]));
  (*2110*) Assign (T 9) (Plain (Einsum [(n_t2'aaaa,[0;1;2;3]); (n_f'aa'ov,[4;3])] [4;0;1;2]));
  (*2111*) Assign (T 7) (Plain (Einsum [(n_t2'bbbb,[0;1;2;3]); (n_f'bb'ov,[1;3])] [0;2]));
  (*2112*) Assign (T 5) (Plain (Einsum [(n_t2'abab,[0;1;2;3]); (n_f'bb'ov,[1;3])] [0;2]));
  (*2113*) Assign (T 4) (Plain (Einsum [(n_t2'abab,[0;1;2;3]); (n_f'aa'ov,[0;2])] [1;3]));
  (*2114*) Assign (T 2) (Plain (Einsum [(n_f'aa'ov,[0;1]); (n_t2'aaaa,[2;0;3;1])] [2;3]))]
 [(T 2,[4;5]); (T 11,[4;4;6;7]); (T 101,[4;4;5;5]); (T 105,[4;4;5;5]); (T 106,[4;4;5;5]); (T 108,[4;6;5;7]); (T 13,[4;4;4;5]); (T 126,[4;4;4;4]); (T 128,[4;4;4;4]); (T 131,[5;5]); (T 133,[5;5]); (T 15,[4;4;6;7]); (T 147,[4;6;5;7]); (T 154,[4;4;6;6]); (T 158,[4;4;6;6]); (T 17,[2;4;5]); (T 162,[6;6;5;5]); (T 163,[6;6;5;5]); (T 164,[6;6;7;7]); (T 166,[6;6;7;7]); (T 167,[4;6;5;7]); (T 169,[6;6;7;7]); (T 18,[4;4]); (T 182,[7;7]); (T 184,[7;7]); (T 186,[4;4;7;7]); (T 187,[4;4;7;7]); (T 20,[2;4;5]); (T 21,[4;4]); (T 203,[6;6;6;6]); (T 205,[6;6;6;6]); (T 23,[4;5]); (T 25,[6;6;6;7]); (T 26,[6;7]); (T 28,[4;6;6;5]); (T 29,[6;7]); (T 4,[6;7]); (T 31,[4;5]); (T 33,[4;4;4;5]); (T 35,[4;4;6;7]); (T 36,[4;4;4;5]); (T 38,[2;6;7]); (T 39,[4;4;6;7]); (T 40,[4;4;6;7]); (T 5,[4;5]); (T 41,[4;4;4;5]); (T 43,[2;6;7]); (T 44,[4;4;6;7]); (T 46,[4;5]); (T 48,[6;7]); (T 50,[6;7]); (T 52,[4;5]); (T 55,[4;4;4;5]); (T 58,[4;4;6;7]); (T 7,[6;7]); (T 64,[4;6;6;5]); (T 66,[6;6;6;7]); (T 70,[6;6]); (T 72,[6;6]); (T 78,[4;6;6;5]); (T 79,[6;6;6;7]); (T 9,[4;4;4;5]); (T 81,[4;6;6;5]); (T 82,[6;6;6;7]); (T 84,[4;6;6;5]); (T 85,[4;6;6;5]); (T 87,[6;6;6;7]); (T 94,[6;6;6;7]); (T 97,[4;6;6;5])].

(** ebcc/codegen/UDFCCD.py:2118-2471 [hbar_lmatvec_ip] *)
Definition UDFCCD_hbar_lmatvec_ip : prog := mkprog
 [(IT 38,[2;6;7]); (n_v'bbb'xov,[2;6;7]); (IT 43,[2;6;7]); (IT 20,[2;4;5]); (n_v'baa'xov,[2;4;5]); (IT 17,[2;4;5]); (n_t2'bbbb,[6;6;7;7]); (n_r2'bbb,[6;6;7]); (n_r2'aba,[4;6;5]); (n_t2'abab,[4;6;5;7]); (n_r2'bab,[6;4;7]); (n_r2'aaa,[4;4;5]); (IT 70,[6;6]); (IT 72,[6;6]); (IT 164,[6;6;7;7]); (IT 169,[6;6;7;7]); (n_t2'aaaa,[4;4;5;5]); (IT 18,[4;4]); (IT 21,[4;4]); (IT 101,[4;4;5;5]); (IT 106,[4;4;5;5]); (IT 167,[4;6;5;7]); (n_r1'b,[6]); (IT 25,[6;6;6;7]); (IT 166,[6;6;7;7]); (n_f'bb'oo,[6;6]); (IT 105,[4;4;5;5]); (n_r1'a,[4]); (IT 13,[4;4;4;5]); (n_f'aa'oo,[4;4]); (IT 108,[4;6;5;7]); (n_f'bb'ov,[6;7]); (IT 182,[7;7]); (IT 184,[7;7]); (n_f'bb'vv,[7;7]); (IT 203,[6;6;6;6]); (IT 205,[6;6;6;6]); (IT 154,[4;4;6;6]); (IT 158,[4;4;6;6]); (IT 186,[4;4;7;7]); (IT 187,[4;4;7;7]); (IT 131,[5;5]); (IT 133,[5;5]); (n_f'aa'vv,[5;5]); (IT 162,[6;6;5;5]); (IT 163,[6;6;5;5]); (n_f'aa'ov,[4;5]); (IT 126,[4;4;4;4]); (IT 128,[4;4;4;4]); (IT 79,[6;6;6;7]); (IT 94,[6;6;6;7]); (IT 66,[6;6;6;7]); (IT 82,[6;6;6;7]); (IT 87,[6;6;6;7]); (IT 2,[4;5]); (IT 5,[4;5]); (IT 52,[4;5]); (IT 23,[4;5]); (IT 31,[4;5]); (IT 46,[4;5]); (IT 4,[6;7]); (IT 50,[6;7]); (IT 7,[6;7]); (IT 26,[6;7]); (IT 29,[6;7]); (IT 48,[6;7]); (IT 28,[4;6;6;5]); (IT 64,[4;6;6;5]); (IT 81,[4;6;6;5]); (IT 85,[4;6;6;5]); (IT 97,[4;6;6;5]); (IT 78,[4;6;6;5]); (IT 84,[4;6;6;5]); (IT 33,[4;4;4;5]); (IT 55,[4;4;4;5]); (IT 36,[4;4;4;5]); (IT 41,[4;4;4;5]); (IT 9,[4;4;4;5]); (IT 11,[4;4;6;7]); (IT 15,[4;4;6;7]); (IT 39,[4;4;6;7]); (IT 44,[4;4;6;7]); (IT 58,[4;4;6;7]); (IT 35,[4;4;6;7]); (IT 40,[4;4;6;7]); (IT 147,[4;6;5;7])]
 [(*2146*) Assign (T 19) (Plain (Copy (IT 38)));
  (*2147*) AddTo (T 19) (Plain (Copy n_v'bbb'xov));
  (*2148*) AddTo (T 19) (Times (Copy (IT 43)) (2) 1);
  (*2149*) Assign (T 17) (Plain (Copy (IT 20)));
  (*2150*) AddTo (T 17) (Plain (Copy n_v'baa'xov));
  (*2151*) AddTo (T 17) (Times (Copy (IT 17)) (2) 1);
  (*2152*) Assign (T 35) (Times (Copy (IT 17)) (2) 1);
  (*2153*) Del (IT 17);
  (*2154*) AddTo (T 35) (Plain (Copy (IT 20)));
  (*2155*) Del (IT 20);
  (*2156*) AddTo (T 35) (Plain (Copy n_v'baa'xov));
  (*2157*) Assign (T 39) (Plain (Einsum [(n_t2'bbbb,[0;1;2;3]); (n_r2'bbb,[0;1;3])] [2]));
  (*2158*) Assign (T 38) (Plain (Einsum [(n_r2'aba,[0;1;2]); (n_t2'abab,[0;1;2;3])] [3]));
  (*2159*) Assign (T 20) (Times (Einsum [(T 19,[0;1;2]); (n_r2'bab,[1;3;2])] [0;3]) (-1) 1);
  (*2160*) Assign (T 18) (Times (Einsum [(T 17,[0;1;2]); (n_r2'aaa,[3;1;2])] [0;3]) (-1) 1);
  (*2161*) Del (T 17);
  (*2162*) Assign (T 49) (Plain (Einsum [(n_r2'aba,[0;1;2]); (T 35,[3;0;2])] [3;1]));
  (*2163*) Assign (T 52) (Times (Copy (IT 70)) (2) 1);
  (*2164*) AddTo (T 52) (Plain (Copy (IT 72)));
  (*2165*) Assign (T 40) (Times (Copy (T 38)) (-1) 2);
  (*2166*) Del (T 38);
  (*2167*) AddTo (T 40) (Plain (Copy (T 39)));
  (*2168*) Del (T 39);
  (*2169*) Assign (T 57) (Times (Einsum [(T 19,[0;1;2]); (n_r2'bbb,[3;1;2])] [0;3]) (-1) 1);
  (*2170*) Del (T 19);
  (*2171*) Assign (T 41) (Plain (Copy (IT 164)));
  (*2172*) Del (IT 164);
  (*2173*) AddTo (T 41) (Times (Transpose (IT 169) [1;0;3;2]) (2) 1);
  (*2174*) Del (IT 169);
  (*2175*) Assign (T 25) (Plain (Einsum [(n_t2'aaaa,[0;1;2;3]); (n_r2'aaa,[0;1;3])] [2]));
  (*2176*) Assign (T 27) (Times (Copy (IT 18)) (2) 1);
  (*2177*) AddTo (T 27) (Plain (Copy (IT 21)));
  (*2178*) Assign (T 13) (Times (Einsum [(n_t2'abab,[0;1;2;3]); (n_r2'bab,[1;0;3])] [2]) (-1) 1);
  (*2179*) Assign (T 21) (Times (Copy (T 18)) (-2) 1);
  (*2180*) Del (T 18);
  (*2181*) AddTo (T 21) (Plain (Copy (T 20)));
  (*2182*) Del (T 20);
  (*2183*) Assign (T 15) (Plain (Copy (IT 101)));
  (*2184*) AddTo (T 15) (Times (Transpose (IT 106) [1;0;3;2]) (2) 1);
  (*2185*) Assign (T 50) (Plain (Einsum [(T 49,[0;1]); (n_v'bbb'xov,[0;2;3])] [2;1;3]));
  (*2186*) Del (T 49);
  (*2187*) Assign (T 53) (Times (Einsum [(T 52,[0;1]); (n_r2'bbb,[2;0;3])] [2;1;3]) (-2) 1);
  (*2188*) Del (T 52);
  (*2189*) Assign (T 48) (Plain (Einsum [(n_r2'aba,[0;1;2]); (IT 167,[0;3;2;4])] [3;1;4]));
  (*2190*) Assign (T 47) (Plain (Einsum [(n_r1'b,[0]); (IT 25,[1;0;2;3])] [1;2;3]));
  (*2191*) Assign (T 51) (Times (Einsum [(T 40,[0]); (IT 166,[1;2;3;0])] [1;2;3]) (2) 1);
  (*2192*) Del (IT 166);
  (*2193*) Assign (T 58) (Times (Einsum [(T 57,[0;1]); (n_v'bbb'xov,[0;2;3])] [2;1;3]) (-1) 1);
  (*2194*) Del (T 57);
  (*2195*) Assign (T 55) (Plain (Einsum [(n_r2'bbb,[0;1;2]); (n_f'bb'oo,[3;1])] [3;0;2]));
  (*2196*) Assign (T 56) (Times (Einsum [(T 41,[0;1;2;3]); (n_r2'bbb,[4;1;3])] [4;0;2]) (-1) 1);
  (*2197*) Assign (T 36) (Times (Copy (IT 38)) (1) 2);
  (*2198*) Del (IT 38);
  (*2199*) AddTo (T 36) (Plain (Copy (IT 43)));
  (*2200*) Del (IT 43);
  (*2201*) AddTo (T 36) (Times (Copy n_v'bbb'xov) (1) 2);
  (*2202*) Assign (T 26) (Plain (Einsum [(T 25,[0]); (IT 105,[1;2;3;0])] [1;2;3]));
  (*2203*) Assign (T 28) (Times (Einsum [(n_r2'aaa,[0;1;2]); (T 27,[1;3])] [0;3;2]) (-2) 1);
  (*2204*) Del (T 27);
  (*2205*) Assign (T 24) (Plain (Einsum [(n_r1'a,[0]); (IT 13,[1;0;2;3])] [1;2;3]));
  (*2206*) Assign (T 14) (Plain (Einsum [(T 13,[0]); (IT 105,[1;2;3;0])] [1;2;3]));
  (*2207*) Del (IT 105);
  (*2208*) Assign (T 22) (Plain (Einsum [(T 21,[0;1]); (n_v'baa'xov,[0;2;3])] [2;1;3]));
  (*2209*) Del (T 21);
  (*2210*) Assign (T 11) (Plain (Einsum [(n_f'aa'oo,[0;1]); (n_r2'aaa,[2;1;3])] [0;2;3]));
  (*2211*) Assign (T 16) (Times (Einsum [(T 15,[0;1;2;3]); (n_r2'aaa,[4;1;3])] [4;0;2]) (-1) 1);
  (*2212*) Del (T 15);
  (*2213*) Assign (T 12) (Times (Einsum [(IT 108,[0;1;2;3]); (n_r2'bab,[1;4;3])] [0;4;2]) (-1) 1);
  (*2214*) Assign (T 54) (Plain (Einsum [(n_r1'b,[0]); (n_f'bb'ov,[1;2])] [1;0;2]));
  (*2215*) AddTo (T 54) (Plain (Copy (T 47)));
  (*2216*) Del (T 47);
  (*2217*) AddTo (T 54) (Plain (Copy (T 48)));
  (*2218*) Del (T 48);
  (*2219*) AddTo (T 54) (Plain (Transpose (T 50) [1;0;2]));
  (*2220*) Del (T 50);
  (*2221*) AddTo (T 54) (Times (Copy (T 51)) (-1) 1);
  (*2222*) Del (T 51);
  (*2223*) AddTo (T 54) (Plain (Transpose (T 53) [1;0;2]));
  (*2224*) Del (T 53);
  (*2225*) Assign (T 59) (Plain (Copy (T 55)));
  (*2226*) Del (T 55);
  (*2227*) AddTo (T 59) (Times (Transpose (T 56) [1;0;2]) (-1) 1);
  (*2228*) Del (T 56);
  (*2229*) AddTo (T 59) (Plain (Transpose (T 58) [1;0;2]));
  (*2230*) Del (T 58);
  (*2231*) Assign (T 45) (Times (Copy (IT 182)) (2) 1);
  (*2232*) Del (IT 182);
  (*2233*) AddTo (T 45) (Plain (Copy (IT 184)));
  (*2234*) Del (IT 184);
  (*2235*) AddTo (T 45) (Times (Copy n_f'bb'vv) (-1) 1);
  (*2236*) Assign (T 60) (Plain (Copy (IT 203)));
  (*2237*) Del (IT 203);
  (*2238*) AddTo (T 60) (Times (Transpose (IT 205) [2;0;3;1]) (-1) 1);
  (*2239*) Del (IT 205);
  (*2240*) Assign (T 43) (Plain (Copy (IT 154)));
  (*2241*) AddTo (T 43) (Plain (Transpose (IT 158) [1;0;3;2]));
  (*2242*) Assign (T 10) (Plain (Copy n_f'bb'oo));
  (*2243*) AddTo (T 10) (Times (Copy (IT 70)) (2) 1);
  (*2244*) Del (IT 70);
  (*2245*) AddTo (T 10) (Plain (Copy (IT 72)));
  (*2246*) Del (IT 72);
  (*2247*) Assign (T 42) (Plain (Copy (IT 186)));
  (*2248*) Del (IT 186);
  (*2249*) AddTo (T 42) (Times (Transpose (IT 187) [1;0;3;2]) (-1) 1);
  (*2250*) Del (IT 187);
  (*2251*) Assign (T 44) (Plain (Einsum [(T 35,[0;1;2]); (n_r2'aaa,[3;1;2])] [0;3]));
  (*2252*) AddTo (T 44) (Times (Einsum [(T 36,[0;1;2]); (n_r2'bab,[1;3;2])] [0;3]) (-1) 1);
  (*2253*) Assign (T 5) (Plain (Copy n_f'aa'oo));
  (*2254*) AddTo (T 5) (Times (Copy (IT 18)) (2) 1);
  (*2255*) Del (IT 18);
  (*2256*) AddTo (T 5) (Plain (Copy (IT 21)));
  (*2257*) Del (IT 21);
  (*2258*) Assign (T 46) (Times (Copy (T 25)) (2) 1);
  (*2259*) Del (T 25);
  (*2260*) AddTo (T 46) (Plain (Copy (T 13)));
  (*2261*) Del (T 13);
  (*2262*) Assign (T 31) (Times (Copy (IT 131)) (2) 1);
  (*2263*) Del (IT 131);
  (*2264*) AddTo (T 31) (Plain (Copy (IT 133)));
  (*2265*) Del (IT 133);
  (*2266*) AddTo (T 31) (Times (Copy n_f'aa'vv) (-1) 1);
  (*2267*) Assign (T 37) (Times (Einsum [(n_r2'aba,[0;1;2]); (T 35,[3;0;2])] [3;1]) (-1) 2);
  (*2268*) Del (T 35);
  (*2269*) AddTo (T 37) (Times (Einsum [(T 36,[0;1;2]); (n_r2'bbb,[3;1;2])] [0;3]) (2) 1);
  (*2270*) Del (T 36);
  (*2271*) Assign (T 32) (Plain (Copy (IT 101)));
  (*2272*) Del (IT 101);
  (*2273*) AddTo (T 32) (Times (Transpose (IT 106) [1;0;3;2]) (2) 1);
  (*2274*) Del (IT 106);
  (*2275*) Assign (T 33) (Plain (Copy (IT 162)));
  (*2276*) Del (IT 162);
  (*2277*) AddTo (T 33) (Times (Transpose (IT 163) [1;0;3;2]) (-1) 1);
  (*2278*) Del (IT 163);
  (*2279*) Assign (T 34) (Plain (Copy (IT 154)));
  (*2280*) Del (IT 154);
  (*2281*) AddTo (T 34) (Plain (Transpose (IT 158) [1;0;3;2]));
  (*2282*) Del (IT 158);
  (*2283*) Assign (T 29) (Times (Einsum [(n_r1'a,[0]); (n_f'aa'ov,[1;2])] [1;0;2]) (-1) 1);
  (*2284*) AddTo (T 29) (Times (Copy (T 24)) (-1) 1);
  (*2285*) Del (T 24);
  (*2286*) AddTo (T 29) (Times (Copy (T 26)) (2) 1);
  (*2287*) Del (T 26);
  (*2288*) AddTo (T 29) (Times (Transpose (T 28) [1;0;2]) (-1) 1);
  (*2289*) Del (T 28);
  (*2290*) Assign (T 23) (Times (Copy (T 11)) (2) 1);
  (*2291*) Del (T 11);
  (*2292*) AddTo (T 23) (Plain (Copy (T 12)));
  (*2293*) Del (T 12);
  (*2294*) AddTo (T 23) (Plain (Copy (T 14)));
  (*2295*) Del (T 14);
  (*2296*) AddTo (T 23) (Times (Transpose (T 16) [1;0;2]) (-2) 1);
  (*2297*) Del (T 16);
  (*2298*) AddTo (T 23) (Plain (Transpose (T 22) [1;0;2]));
  (*2299*) Del (T 22);
  (*2300*) Assign (T 30) (Plain (Copy (IT 126)));
  (*2301*) Del (IT 126);
  (*2302*) AddTo (T 30) (Times (Transpose (IT 128) [2;0;3;1]) (-1) 1);
  (*2303*) Del (IT 128);
  (*2304*) Assign (T 7) (Plain (Copy (IT 25)));
  (*2305*) Del (IT 25);
  (*2306*) AddTo (T 7) (Times (Transpose (IT 79) [2;0;1;3]) (2) 1);
  (*2307*) Del (IT 79);
  (*2308*) AddTo (T 7) (Plain (Transpose (IT 94) [2;0;1;3]));
  (*2309*) Del (IT 94);
  (*2310*) AddTo (T 7) (Times (Copy (IT 66)) (-1) 1);
  (*2311*) Del (IT 66);
  (*2312*) AddTo (T 7) (Times (Transpose (IT 82) [2;0;1;3]) (-2) 1);
  (*2313*) Del (IT 82);
  (*2314*) AddTo (T 7) (Times (Transpose (IT 87) [2;0;1;3]) (-1) 1);
  (*2315*) Del (IT 87);
  (*2316*) Assign (T 8) (Times (Copy n_f'aa'ov) (1) 2);
  (*2317*) AddTo (T 8) (Plain (Copy (IT 2)));
  (*2318*) AddTo (T 8) (Times (Copy (IT 5)) (1) 2);
  (*2319*) AddTo (T 8) (Times (Copy (IT 52)) (1) 2);
  (*2320*) AddTo (T 8) (Times (Copy (IT 23)) (-1) 1);
  (*2321*) AddTo (T 8) (Times (Copy (IT 31)) (-1) 2);
  (*2322*) AddTo (T 8) (Times (Copy (IT 46)) (-1) 1);
  (*2323*) Assign (T 9) (Plain (Copy n_f'bb'ov));
  (*2324*) AddTo (T 9) (Plain (Copy (IT 4)));
  (*2325*) AddTo (T 9) (Plain (Copy (IT 50)));
  (*2326*) AddTo (T 9) (Times (Copy (IT 7)) (2) 1);
  (*2327*) AddTo (T 9) (Times (Copy (IT 26)) (-2) 1);
  (*2328*) AddTo (T 9) (Times (Copy (IT 29)) (-1) 1);
  (*2329*) AddTo (T 9) (Times (Copy (IT 48)) (-2) 1);
  (*2330*) Assign (T 6) (Plain (Copy (IT 28)));
  (*2331*) AddTo (T 6) (Plain (Copy (IT 64)));
  (*2332*) Del (IT 64);
  (*2333*) AddTo (T 6) (Plain (Transpose (IT 81) [0;2;1;3]));
  (*2334*) Del (IT 81);
  (*2335*) AddTo (T 6) (Times (Transpose (IT 85) [0;2;1;3]) (2) 1);
  (*2336*) Del (IT 85);
  (*2337*) AddTo (T 6) (Plain (Transpose (IT 97) [0;2;1;3]));
  (*2338*) Del (IT 97);
  (*2339*) AddTo (T 6) (Times (Transpose (IT 78) [0;2;1;3]) (-1) 1);
  (*2340*) Del (IT 78);
  (*2341*) AddTo (T 6) (Times (Transpose (IT 84) [0;2;1;3]) (-1) 1);
  (*2342*) Del (IT 84);
  (*2343*) Assign (T 2) (Plain (Copy (IT 13)));
  (*2344*) Del (IT 13);
  (*2345*) AddTo (T 2) (Times (Transpose (IT 33) [2;0;1;3]) (2) 1);
  (*2346*) Del (IT 33);
  (*2347*) AddTo (T 2) (Plain (Transpose (IT 55) [2;0;1;3]));
  (*2348*) Del (IT 55);
  (*2349*) AddTo (T 2) (Times (Transpose (IT 36) [2;0;1;3]) (-2) 1);
  (*2350*) Del (IT 36);
  (*2351*) AddTo (T 2) (Times (Transpose (IT 41) [2;0;1;3]) (-1) 1);
  (*2352*) Del (IT 41);
  (*2353*) AddTo (T 2) (Times (Copy (IT 9)) (-1) 1);
  (*2354*) Del (IT 9);
  (*2355*) Assign (T 3) (Plain (Copy n_f'aa'ov));
  (*2356*) AddTo (T 3) (Times (Copy (IT 2)) (2) 1);
  (*2357*) Del (IT 2);
  (*2358*) AddTo (T 3) (Plain (Copy (IT 5)));
  (*2359*) Del (IT 5);
  (*2360*) AddTo (T 3) (Plain (Copy (IT 52)));
  (*2361*) Del (IT 52);
  (*2362*) AddTo (T 3) (Times (Copy (IT 23)) (-2) 1);
  (*2363*) Del (IT 23);
  (*2364*) AddTo (T 3) (Times (Copy (IT 31)) (-1) 1);
  (*2365*) Del (IT 31);
  (*2366*) AddTo (T 3) (Times (Copy (IT 46)) (-2) 1);
  (*2367*) Del (IT 46);
  (*2368*) Assign (T 1) (Plain (Copy (IT 11)));
  (*2369*) Del (IT 11);
  (*2370*) AddTo (T 1) (Plain (Copy (IT 15)));
  (*2371*) AddTo (T 1) (Plain (Transpose (IT 39) [1;0;2;3]));
  (*2372*) Del (IT 39);
  (*2373*) AddTo (T 1) (Times (Transpose (IT 44) [1;0;2;3]) (2) 1);
  (*2374*) Del (IT 44);
  (*2375*) AddTo (T 1) (Plain (Transpose (IT 58) [1;0;2;3]));
  (*2376*) Del (IT 58);
  (*2377*) AddTo (T 1) (Times (Transpose (IT 35) [1;0;2;3]) (-1) 1);
  (*2378*) Del (IT 35);
  (*2379*) AddTo (T 1) (Times (Transpose (IT 40) [1;0;2;3]) (-1) 1);
  (*2380*) Del (IT 40);
  (*2381*) Assign (T 4) (Times (Copy n_f'bb'ov) (1) 2);
  (*2382*) AddTo (T 4) (Times (Copy (IT 4)) (1) 2);
  (*2383*) Del (IT 4);
  (*2384*) AddTo (T 4) (Times (Copy (IT 50)) (1) 2);
  (*2385*) Del (IT 50);
  (*2386*) AddTo (T 4) (Plain (Copy (IT 7)));
  (*2387*) Del (IT 7);
  (*2388*) AddTo (T 4) (Times (Copy (IT 26)) (-1) 1);
  (*2389*) Del (IT 26);
  (*2390*) AddTo (T 4) (Times (Copy (IT 29)) (-1) 2);
  (*2391*) Del (IT 29);
  (*2392*) AddTo (T 4) (Times (Copy (IT 48)) (-1) 1);
  (*2393*) Del (IT 48);
  (*2394*) Assign n_r2new'bbb (Times (Copy (T 54)) (-1) 1);
  (*2395*) AddTo n_r2new'bbb (Plain (Transpose (T 54) [1;0;2]));
  (*2396*) Del (T 54);
  (*2397*) AddTo n_r2new'bbb (Times (Copy (T 59)) (2) 1);
  (*2398*) AddTo n_r2new'bbb (Times (Transpose (T 59) [1;0;2]) (-2) 1);
  (*2399*) Del (T 59);
  (*2400*) AddTo n_r2new'bbb (Times (Einsum [(T 60,[0;1;2;3]); (n_r2'bbb,[3;1;4])] [0;2;4]) (2) 1);
  (*2401*) Del (T 60);
  (*2402*) AddTo n_r2new'bbb (Times (Einsum [(T 45,[0;1]); (n_r2'bbb,[2;3;0])] [2;3;1]) (-2) 1);
  (*2403*) Assign n_r2new'bab (Times (Einsum [(n_r2'aaa,[0;1;2]); (IT 167,[1;3;2;4])] [3;0;4]) (2) 1);
  (*2404*) Del (IT 167);
  (*2405*) AddTo n_r2new'bab (Plain (Einsum [(IT 15,[0;1;2;3]); (n_r1'a,[1])] [2;0;3]));
  (*2406*) Del (IT 15);
  (*2407*) AddTo n_r2new'bab (Times (Einsum [(n_r1'a,[0]); (n_f'bb'ov,[1;2])] [1;0;2]) (-1) 1);
  (*2408*) AddTo n_r2new'bab (Times (Einsum [(T 41,[0;1;2;3]); (n_r2'bab,[1;4;3])] [0;4;2]) (-1) 1);
  (*2409*) Del (T 41);
  (*2410*) AddTo n_r2new'bab (Times (Einsum [(T 42,[0;1;2;3]); (n_r2'bab,[4;1;3])] [4;0;2]) (-1) 1);
  (*2411*) Del (T 42);
  (*2412*) AddTo n_r2new'bab (Plain (Einsum [(T 43,[0;1;2;3]); (n_r2'bab,[3;1;4])] [2;0;4]));
  (*2413*) Del (T 43);
  (*2414*) AddTo n_r2new'bab (Times (Einsum [(n_v'bbb'xov,[0;1;2]); (T 44,[0;3])] [1;3;2]) (-2) 1);
  (*2415*) Del (T 44);
  (*2416*) AddTo n_r2new'bab (Times (Einsum [(n_r2'bab,[0;1;2]); (T 45,[2;3])] [0;1;3]) (-1) 1);
  (*2417*) Del (T 45);
  (*2418*) AddTo n_r2new'bab (Plain (Einsum [(IT 147,[0;1;2;3]); (T 46,[2])] [1;0;3]));
  (*2419*) Del (T 46);
  (*2420*) AddTo n_r2new'bab (Times (Einsum [(T 5,[0;1]); (n_r2'bab,[2;0;3])] [2;1;3]) (-1) 1);
  (*2421*) AddTo n_r2new'bab (Times (Einsum [(T 10,[0;1]); (n_r2'bab,[0;2;3])] [1;2;3]) (-1) 1);
  (*2422*) Assign n_r2new'aba (Times (Einsum [(n_f'aa'ov,[0;1]); (n_r1'b,[2])] [0;2;1]) (-1) 1);
  (*2423*) AddTo n_r2new'aba (Times (Einsum [(IT 108,[0;1;2;3]); (n_r2'bbb,[4;1;3])] [0;4;2]) (2) 1);
  (*2424*) Del (IT 108);
  (*2425*) AddTo n_r2new'aba (Plain (Einsum [(IT 28,[0;1;2;3]); (n_r1'b,[2])] [0;1;3]));
  (*2426*) Del (IT 28);
  (*2427*) AddTo n_r2new'aba (Times (Einsum [(n_r2'aba,[0;1;2]); (T 32,[3;0;4;2])] [3;1;4]) (-1) 1);
  (*2428*) Del (T 32);
  (*2429*) AddTo n_r2new'aba (Times (Einsum [(n_r2'aba,[0;1;2]); (T 33,[3;1;4;2])] [0;3;4]) (-1) 1);
  (*2430*) Del (T 33);
  (*2431*) AddTo n_r2new'aba (Plain (Einsum [(n_r2'aba,[0;1;2]); (T 34,[3;0;4;1])] [3;4;2]));
  (*2432*) Del (T 34);
  (*2433*) AddTo n_r2new'aba (Times (Einsum [(T 37,[0;1]); (n_v'baa'xov,[0;2;3])] [2;1;3]) (-2) 1);
  (*2434*) Del (T 37);
  (*2435*) AddTo n_r2new'aba (Times (Einsum [(n_r2'aba,[0;1;2]); (T 31,[2;3])] [0;1;3]) (-1) 1);
  (*2436*) AddTo n_r2new'aba (Times (Einsum [(IT 147,[0;1;2;3]); (T 40,[3])] [0;1;2]) (2) 1);
  (*2437*) Del (T 40);
  (*2437*) Del (IT 147);
  (*2438*) AddTo n_r2new'aba (Times (Einsum [(T 5,[0;1]); (n_r2'aba,[0;2;3])] [1;2;3]) (-1) 1);
  (*2439*) AddTo n_r2new'aba (Times (Einsum [(T 10,[0;1]); (n_r2'aba,[2;0;3])] [2;1;3]) (-1) 1);
  (*2440*) Assign n_r2new'aaa (Plain (Copy (T 23)));
  (*2441*) AddTo n_r2new'aaa (Times (Transpose (T 23) [1;0;2]) (-1) 1);
  (*2442*) Del (T 23);
  (*2443*) AddTo n_r2new'aaa (Plain (Copy (T 29)));
  (*2444*) AddTo n_r2new'aaa (Times (Transpose (T 29) [1;0;2]) (-1) 1);
  (*2445*) Del (T 29);
  (*2446*) AddTo n_r2new'aaa (Times (Einsum [(n_r2'aaa,[0;1;2]); (T 30,[3;1;4;0])] [3;4;2]) (2) 1);
  (*2447*) Del (T 30);
  (*2448*) AddTo n_r2new'aaa (Times (Einsum [(T 31,[0;1]); (n_r2'aaa,[2;3;0])] [2;3;1]) (-2) 1);
  (*2449*) Del (T 31);
  (*2450*) Assign n_r1new'b (Plain (Einsum [(n_r2'aba,[0;1;2]); (T 6,[0;3;1;2])] [3]));
  (*2451*) Del (T 6);
  (*2452*) AddTo n_r1new'b (Times (Einsum [(T 7,[0;1;2;3]); (n_r2'bbb,[1;2;3])] [0]) (-2) 1);
  (*2453*) Del (T 7);
  (*2454*) AddTo n_r1new'b (Times (Einsum [(T 8,[0;1]); (n_r2'aba,[0;2;1])] [2]) (-2) 1);
  (*2455*) Del (T 8);
  (*2456*) AddTo n_r1new'b (Times (Einsum [(T 9,[0;1]); (n_r2'bbb,[2;0;1])] [2]) (2) 1);
  (*2457*) Del (T 9);
  (*2458*) AddTo n_r1new'b (Times (Einsum [(T 10,[0;1]); (n_r1'b,[0])] [1]) (-1) 1);
  (*2459*) Del (T 10);
  (*2460*) Assign n_r1new'a (Plain (Einsum [(T 1,[0;1;2;3]); (n_r2'bab,[2;1;3])] [0]));
  (*2461*) Del (T 1);
  (*2462*) AddTo n_r1new'a (Times (Einsum [(T 2,[0;1;2;3]); (n_r2'aaa,[1;2;3])] [0]) (-2) 1);
  (*2463*) Del (T 2);
  (*2464*) AddTo n_r1new'a (Times (Einsum [(T 3,[0;1]); (n_r2'aaa,[2;0;1])] [2]) (2) 1);
  (*2465*) Del (T 3);
  (*2466*) AddTo n_r1new'a (Times (Einsum [(T 4,[0;1]); (n_r2'bab,[0;2;1])] [2]) (-2) 1);
  (*2467*) Del (T 4);
  (*2468*) AddTo n_r1new'a (Times (Einsum [(n_r1'a,[0]); (T 5,[0;1])] [1]) (-1) 1);
  (*2469*) Del (T 5)]
 [(n_r1new'b,[6]); (n_r1new'a,[4]); (n_r2new'bbb,[6;6;7]); (n_r2new'bab,[6;4;7]); (n_r2new'aba,[4;6;5]); (n_r2new'aaa,[4;4;5])].

(** ebcc/codegen/UDFCCD.py:2473-2623 [hbar_lmatvec_ea_intermediates] *)
Definition UDFCCD_hbar_lmatvec_ea_intermediates : prog := mkprog
 [(n_v'bbb'xov,[2;6;7]); (n_v'baa'xov,[2;4;5]); (n_t2'abab,[4;6;5;7]); (n_t2'bbbb,[6;6;7;7]); (n_t2'aaaa,[4;4;5;5]); (n_v'baa'xvv,[2;5;5]); (n_v'bbb'xvv,[2;7;7]); (n_v'baa'xoo,[2;4;4]); (n_v'bbb'xoo,[2;6;6]); (n_f'bb'ov,[6;7]); (n_f'aa'ov,[4;5])]
 [(*2552*) Assign (T 147) (Plain (Einsum [(n_v'bbb'xov,[0;1;2]); (n_v'baa'xov,[0;3;4])] [3;1;4;2]));
  (*2553*) Assign (T 166) (Plain (Einsum [(n_v'bbb'xov,[0;1;2]); (n_v'bbb'xov,[0;3;4])] [3;1;4;2]));
  (*2554*) Assign (T 44) (Plain (Einsum [(n_t2'abab,[0;1;2;3]); (n_v'baa'xov,[4;0;2])] [4;1;3]));
  (*2555*) Assign (T 41) (Plain (Einsum [(n_t2'bbbb,[0;1;2;3]); (n_v'bbb'xov,[4;1;3])] [4;0;2]));
  (*2556*) Assign (T 111) (Plain (Einsum [(n_v'baa'xov,[0;1;2]); (n_v'baa'xov,[0;3;4])] [3;1;4;2]));
  (*2557*) Assign (T 20) (Plain (Einsum [(n_t2'abab,[0;1;2;3]); (n_v'bbb'xov,[4;1;3])] [4;0;2]));
  (*2558*) Assign (T 17) (Plain (Einsum [(n_v'baa'xov,[0;1;2]); (n_t2'aaaa,[3;1;4;2])] [0;3;4]));
  (*2559*) Assign (T 15) (Plain (Einsum [(n_v'bbb'xov,[0;1;2]); (n_v'baa'xvv,[0;3;4])] [1;3;4;2]));
  (*2560*) Assign (T 69) (Plain (Einsum [(n_v'bbb'xov,[0;1;2]); (n_v'bbb'xvv,[0;3;4])] [1;3;4;2]));
  (*2561*) Assign (T 32) (Plain (Einsum [(n_v'bbb'xov,[0;1;2]); (n_v'baa'xoo,[0;3;4])] [3;4;1;2]));
  (*2562*) Assign (T 26) (Plain (Einsum [(n_v'bbb'xov,[0;1;2]); (n_v'bbb'xoo,[0;3;4])] [3;4;1;2]));
  (*2563*) Assign (T 59) (Plain (Einsum [(n_v'baa'xov,[0;1;2]); (n_v'bbb'xvv,[0;3;4])] [1;2;3;4]));
  (*2564*) Assign (T 13) (Plain (Einsum [(n_v'baa'xvv,[0;1;2]); (n_v'baa'xov,[0;3;4])] [3;1;2;4]));
  (*2565*) Assign (T 29) (Plain (Einsum [(n_v'baa'xov,[0;1;2]); (n_v'bbb'xoo,[0;3;4])] [1;3;4;2]));
  (*2566*) Assign (T 23) (Plain (Einsum [(n_v'baa'xov,[0;1;2]); (n_v'baa'xoo,[0;3;4])] [3;4;1;2]));
  (*2567*) Assign (T 201) (Plain (Einsum [(n_v'bbb'xvv,[0;1;2]); (n_v'bbb'xvv,[0;3;4])] [3;1;2;4]));
  (*2568*) Assign (T 184) (Plain (Einsum [(n_t2'abab,[0;1;2;3]); (T 147,[0;4;5;3])] [1;4;2;5]));
  (*2569*) Assign (T 183) (Plain (Einsum [(n_v'baa'xvv,[0;1;2]); (n_v'bbb'xoo,[0;3;4])] [3;4;1;2]));
  (*2570*) Assign (T 169) (Plain (Einsum [(T 166,[0;1;2;3]); (n_t2'bbbb,[4;1;5;2])] [4;0;5;3]));
  (*2571*) Assign (T 167) (Plain (Einsum [(n_t2'abab,[0;1;2;3]); (T 166,[4;1;3;5])] [0;4;2;5]));
  (*2572*) Assign (T 164) (Plain (Einsum [(n_v'bbb'xov,[0;1;2]); (T 44,[0;3;2])] [3;1]));
  (*2573*) Assign (T 162) (Plain (Einsum [(n_v'bbb'xov,[0;1;2]); (T 41,[0;3;2])] [3;1]));
  (*2574*) Assign (T 160) (Plain (Einsum [(n_v'bbb'xoo,[0;1;2]); (n_v'bbb'xvv,[0;3;4])] [1;2;3;4]));
  (*2575*) Assign (T 159) (Plain (Einsum [(n_t2'abab,[0;1;2;3]); (T 147,[4;1;2;5])] [0;4;3;5]));
  (*2576*) Assign (T 158) (Plain (Einsum [(n_v'baa'xoo,[0;1;2]); (n_v'bbb'xvv,[0;3;4])] [1;2;3;4]));
  (*2577*) Assign (T 150) (Plain (Einsum [(n_v'baa'xvv,[0;1;2]); (n_v'bbb'xvv,[0;3;4])] [1;2;3;4]));
  (*2578*) Assign (T 127) (Plain (Einsum [(n_v'baa'xvv,[0;1;2]); (n_v'baa'xvv,[0;3;4])] [1;3;4;2]));
  (*2579*) Assign (T 114) (Plain (Einsum [(n_t2'abab,[0;1;2;3]); (T 111,[4;0;2;5])] [4;1;5;3]));
  (*2580*) Assign (T 112) (Plain (Einsum [(T 111,[0;1;2;3]); (n_t2'aaaa,[4;1;5;2])] [4;0;5;3]));
  (*2581*) Assign (T 109) (Plain (Einsum [(T 20,[0;1;2]); (n_v'baa'xov,[0;3;2])] [1;3]));
  (*2582*) Assign (T 107) (Plain (Einsum [(T 17,[0;1;2]); (n_v'baa'xov,[0;3;2])] [1;3]));
  (*2583*) Assign (T 103) (Plain (Einsum [(n_v'baa'xvv,[0;1;2]); (n_v'baa'xoo,[0;3;4])] [3;4;1;2]));
  (*2584*) Assign (T 98) (Plain (Einsum [(T 15,[0;1;2;3]); (n_t2'abab,[4;0;1;5])] [4;2;5;3]));
  (*2585*) Assign (T 96) (Plain (Einsum [(T 44,[0;1;2]); (n_v'bbb'xvv,[0;3;4])] [1;2;3;4]));
  (*2586*) Assign (T 94) (Plain (Einsum [(T 17,[0;1;2]); (n_v'bbb'xvv,[0;3;4])] [1;2;3;4]));
  (*2587*) Assign (T 92) (Plain (Einsum [(T 69,[0;1;2;3]); (n_t2'bbbb,[4;0;5;2])] [4;5;3;1]));
  (*2588*) Assign (T 91) (Plain (Einsum [(T 69,[0;1;2;3]); (n_t2'abab,[4;0;5;1])] [4;5;3;2]));
  (*2589*) Assign (T 89) (Plain (Einsum [(T 41,[0;1;2]); (n_v'bbb'xvv,[0;3;4])] [1;2;3;4]));
  (*2590*) Assign (T 88) (Plain (Einsum [(T 20,[0;1;2]); (n_v'bbb'xvv,[0;3;4])] [1;2;3;4]));
  (*2591*) Assign (T 82) (Plain (Einsum [(T 32,[0;1;2;3]); (n_t2'abab,[0;2;4;5])] [1;4;5;3]));
  (*2592*) Assign (T 80) (Plain (Einsum [(n_t2'bbbb,[0;1;2;3]); (T 26,[0;4;1;5])] [4;2;3;5]));
  (*2593*) Assign (T 74) (Plain (Einsum [(n_v'bbb'xov,[0;1;2]); (T 44,[0;1;3])] [3;2]));
  (*2594*) Assign (T 72) (Plain (Einsum [(n_v'bbb'xov,[0;1;2]); (T 41,[0;1;3])] [3;2]));
  (*2595*) Assign (T 60) (Plain (Einsum [(T 59,[0;1;2;3]); (n_t2'abab,[0;4;5;2])] [4;5;1;3]));
  (*2596*) Assign (T 57) (Plain (Einsum [(T 41,[0;1;2]); (n_v'baa'xvv,[0;3;4])] [1;3;4;2]));
  (*2597*) Assign (T 55) (Plain (Einsum [(T 20,[0;1;2]); (n_v'baa'xvv,[0;3;4])] [1;2;3;4]));
  (*2598*) Assign (T 54) (Plain (Einsum [(T 13,[0;1;2;3]); (n_t2'abab,[0;4;2;5])] [4;3;1;5]));
  (*2599*) Assign (T 52) (Plain (Einsum [(T 13,[0;1;2;3]); (n_t2'aaaa,[4;0;5;1])] [4;5;3;2]));
  (*2600*) Assign (T 51) (Plain (Einsum [(T 44,[0;1;2]); (n_v'baa'xvv,[0;3;4])] [1;3;4;2]));
  (*2601*) Assign (T 49) (Plain (Einsum [(n_v'baa'xvv,[0;1;2]); (T 17,[0;3;4])] [3;4;1;2]));
  (*2602*) Assign (T 47) (Plain (Einsum [(T 20,[0;1;2]); (n_v'baa'xvv,[0;3;2])] [1;3]));
  (*2603*) Assign (T 45) (Plain (Einsum [(n_v'bbb'xvv,[0;1;2]); (T 44,[0;3;2])] [3;1]));
  (*2604*) Assign (T 42) (Times (Einsum [(n_v'bbb'xvv,[0;1;2]); (T 41,[0;3;2])] [3;1]) (-1) 1);
  (*2605*) Assign (T 39) (Times (Einsum [(T 17,[0;1;2]); (n_v'baa'xvv,[0;3;2])] [1;3]) (-1) 1);
  (*2606*) Assign (T 37) (Plain (Einsum [(T 29,[0;1;2;3]); (n_t2'abab,[0;1;4;5])] [2;4;3;5]));
  (*2607*) Assign (T 35) (Plain (Einsum [(n_t2'aaaa,[0;1;2;3]); (T 23,[0;4;1;5])] [4;2;3;5]));
  (*2608*) Assign (T 33) (Plain (Einsum [(T 32,[0;1;2;3]); (n_t2'abab,[0;2;4;3])] [1;4]));
  (*2609*) Del (T 32);
  (*2610*) Assign (T 30) (Plain (Einsum [(T 29,[0;1;2;3]); (n_t2'abab,[0;1;3;4])] [2;4]));
  (*2611*) Del (T 29);
  (*2612*) Assign (T 27) (Plain (Einsum [(n_t2'bbbb,[0;1;2;3]); (T 26,[0;4;1;3])] [4;2]));
  (*2613*) Del (T 26);
  (*2614*) Assign (T 24) (Plain (Einsum [(T 23,[0;1;2;3]); (n_t2'aaaa,[0;2;4;3])] [1;4]));
  (*2615*) Del (T 23);
  (*2616*) Assign (T 21) (Plain (Einsum [(T 20,[0;1;2]); (n_v'baa'xov,[0;1;3])] [2;3]));
  (*2617*) Assign (T 18) (Plain (Einsum [(T 17,[0;1;2]); (n_v'baa'xov,[0;1;3])] [2;3]));
  (*2618*) Assign (T 7) (Plain (Einsum [(n_t2'bbbb,[0;1;2;3]); (n_f'bb'ov,[1;3])] [0;2]));
  (*2619*) Assign (T 5) (Plain (Einsum [(n_t2'abab,[0;1;2;3]); (n_f'bb'ov,[1;3])] [0;2]));
  (*2620*) Assign (T 4) (Plain (Einsum [(n_t2'abab,[0;1;2;3]); (n_f'aa'ov,[0;2])] [1;3]));
  (*2621*) Assign (T 2) (Plain (Einsum [(n_f'aa'ov,[0;1]); (n_t2'aaaa,[2;0;3;1])] [2;3]))]
 [(T 2,[4;5]); (T 103,[4;4;5;5]); (T 107,[4;4]); (T 109,[4;4]); (T 111,[4;4;5;5]); (T 112,[4;4;5;5]); (T 114,[4;6;5;7]); (T 13,[4;5;5;5]); (T 127,[5;5;5;5]); (T 15,[6;5;5;7]); (T 147,[4;6;5;7]); (T 150,[5;5;7;7]); (T 158,[4;4;7;7]); (T 159,[4;4;7;7]); (T 160,[6;6;7;7]); (T 17,[2;4;5]); (T 162,[6;6]); (T 164,[6;6]); (T 166,[6;6;7;7]); (T 167,[4;6;5;7]); (T 169,[6;6;7;7]); (T 18,[5;5]); (T 183,[6;6;5;5]); (T 184,[6;6;5;5]); (T 20,[2;4;5]); (T 21,[5;5]); (T 201,[7;7;7;7]); (T 24,[4;5]); (T 27,[6;7]); (T 30,[6;7]); (T 4,[6;7]); (T 33,[4;5]); (T 35,[4;5;5;5]); (T 37,[6;5;5;7]); (T 39,[4;5]); (T 5,[4;5]); (T 41,[2;6;7]); (T 42,[6;7]); (T 44,[2;6;7]); (T 45,[6;7]); (T 47,[4;5]); (T 49,[4;5;5;5]); (T 51,[6;5;5;7]); (T 52,[4;5;5;5]); (T 54,[6;5;5;7]); (T 55,[4;5;5;5]); (T 57,[6;5;5;7]); (T 59,[4;5;7;7]); (T 60,[6;5;5;7]); (T 7,[6;7]); (T 69,[6;7;7;7]); (T 72,[7;7]); (T 74,[7;7]); (T 80,[6;7;7;7]); (T 82,[4;5;7;7]); (T 88,[4;5;7;7]); (T 89,[6;7;7;7]); (T 91,[4;5;7;7]); (T 92,[6;7;7;7]); (T 94,[4;5;7;7]); (T 96,[6;7;7;7]); (T 98,[4;5;7;7])].

(** ebcc/codegen/UDFCCD.py:2625-2946 [hbar_lmatvec_ea] *)
Definition UDFCCD_hbar_lmatvec_ea : prog := mkprog
 [(IT 44,[2;6;7]); (n_v'bbb'xov,[2;6;7]); (IT 41,[2;6;7]); (IT 20,[2;4;5]); (n_v'baa'xov,[2;4;5]); (IT 17,[2;4;5]); (n_r2'bbb,[7;7;6]); (n_t2'bbbb,[6;6;7;7]); (n_t2'abab,[4;6;5;7]); (n_r2'aba,[5;7;4]); (n_r2'bab,[7;5;6]); (n_r2'aaa,[5;5;4]); (IT 160,[6;6;7;7]); (IT 169,[6;6;7;7]); (IT 72,[7;7]); (IT 74,[7;7]); (n_f'bb'vv,[7;7]); (IT 103,[4;4;5;5]); (IT 112,[4;4;5;5]); (IT 18,[5;5]); (IT 21,[5;5]); (n_f'aa'vv,[5;5]); (n_t2'aaaa,[4;4;5;5]); (IT 69,[6;7;7;7]); (n_r1'b,[7]); (IT 166,[6;6;7;7]); (IT 167,[4;6;5;7]); (IT 114,[4;6;5;7]); (n_r1'a,[5]); (IT 13,[4;5;5;5]); (IT 111,[4;4;5;5]); (n_f'bb'oo,[6;6]); (IT 162,[6;6]); (IT 164,[6;6]); (n_f'bb'ov,[6;7]); (IT 183,[6;6;5;5]); (IT 184,[6;6;5;5]); (n_f'aa'oo,[4;4]); (IT 107,[4;4]); (IT 109,[4;4]); (IT 158,[4;4;7;7]); (IT 159,[4;4;7;7]); (n_f'aa'ov,[4;5]); (IT 80,[6;7;7;7]); (IT 89,[6;7;7;7]); (IT 96,[6;7;7;7]); (IT 92,[6;7;7;7]); (IT 2,[4;5]); (IT 47,[4;5]); (IT 5,[4;5]); (IT 24,[4;5]); (IT 33,[4;5]); (IT 39,[4;5]); (IT 59,[4;5;7;7]); (IT 82,[4;5;7;7]); (IT 88,[4;5;7;7]); (IT 94,[4;5;7;7]); (IT 91,[4;5;7;7]); (IT 98,[4;5;7;7]); (IT 4,[6;7]); (IT 45,[6;7]); (IT 7,[6;7]); (IT 27,[6;7]); (IT 30,[6;7]); (IT 42,[6;7]); (IT 35,[4;5;5;5]); (IT 49,[4;5;5;5]); (IT 55,[4;5;5;5]); (IT 52,[4;5;5;5]); (IT 15,[6;5;5;7]); (IT 37,[6;5;5;7]); (IT 51,[6;5;5;7]); (IT 57,[6;5;5;7]); (IT 54,[6;5;5;7]); (IT 60,[6;5;5;7]); (IT 201,[7;7;7;7]); (IT 147,[4;6;5;7]); (IT 150,[5;5;7;7]); (IT 127,[5;5;5;5])]
 [(*2653*) Assign (T 23) (Plain (Copy (IT 44)));
  (*2654*) AddTo (T 23) (Plain (Copy n_v'bbb'xov));
  (*2655*) AddTo (T 23) (Times (Copy (IT 41)) (2) 1);
  (*2656*) Assign (T 21) (Plain (Copy (IT 20)));
  (*2657*) AddTo (T 21) (Plain (Copy n_v'baa'xov));
  (*2658*) AddTo (T 21) (Times (Copy (IT 17)) (2) 1);
  (*2659*) Assign (T 13) (Plain (Einsum [(n_r2'bbb,[0;1;2]); (n_t2'bbbb,[3;2;0;1])] [3]));
  (*2660*) Assign (T 12) (Plain (Einsum [(n_t2'abab,[0;1;2;3]); (n_r2'aba,[2;3;0])] [1]));
  (*2661*) Assign (T 35) (Times (Copy (IT 17)) (2) 1);
  (*2662*) Del (IT 17);
  (*2663*) AddTo (T 35) (Plain (Copy (IT 20)));
  (*2664*) Del (IT 20);
  (*2665*) AddTo (T 35) (Plain (Copy n_v'baa'xov));
  (*2666*) Assign (T 24) (Times (Einsum [(T 23,[0;1;2]); (n_r2'bab,[2;3;1])] [0;3]) (-1) 1);
  (*2667*) Assign (T 22) (Times (Einsum [(T 21,[0;1;2]); (n_r2'aaa,[3;2;1])] [0;3]) (-1) 1);
  (*2668*) Del (T 21);
  (*2669*) Assign (T 40) (Plain (Copy (IT 160)));
  (*2670*) Del (IT 160);
  (*2671*) AddTo (T 40) (Times (Transpose (IT 169) [1;0;3;2]) (2) 1);
  (*2672*) Del (IT 169);
  (*2673*) Assign (T 54) (Times (Einsum [(n_r2'bbb,[0;1;2]); (T 23,[3;2;1])] [3;0]) (-1) 1);
  (*2674*) Del (T 23);
  (*2675*) Assign (T 38) (Times (Copy (T 12)) (-1) 2);
  (*2676*) AddTo (T 38) (Plain (Copy (T 13)));
  (*2677*) Assign (T 47) (Plain (Einsum [(T 35,[0;1;2]); (n_r2'aba,[2;3;1])] [0;3]));
  (*2678*) Assign (T 43) (Plain (Copy (IT 72)));
  (*2679*) AddTo (T 43) (Times (Copy (IT 74)) (1) 2);
  (*2680*) AddTo (T 43) (Times (Copy n_f'bb'vv) (-1) 2);
  (*2681*) Assign (T 25) (Times (Copy (T 22)) (-2) 1);
  (*2682*) Del (T 22);
  (*2683*) AddTo (T 25) (Plain (Copy (T 24)));
  (*2684*) Del (T 24);
  (*2685*) Assign (T 19) (Plain (Copy (IT 103)));
  (*2686*) AddTo (T 19) (Times (Transpose (IT 112) [1;0;3;2]) (2) 1);
  (*2687*) Assign (T 7) (Times (Einsum [(n_t2'abab,[0;1;2;3]); (n_r2'bab,[3;2;1])] [0]) (-1) 1);
  (*2688*) Assign (T 5) (Times (Copy (IT 18)) (2) 1);
  (*2689*) Del (IT 18);
  (*2690*) AddTo (T 5) (Plain (Copy (IT 21)));
  (*2691*) Del (IT 21);
  (*2692*) AddTo (T 5) (Times (Copy n_f'aa'vv) (-1) 1);
  (*2693*) Assign (T 6) (Plain (Einsum [(n_t2'aaaa,[0;1;2;3]); (n_r2'aaa,[2;3;1])] [0]));
  (*2694*) Assign (T 53) (Times (Einsum [(n_r2'bbb,[0;1;2]); (T 40,[3;2;4;1])] [3;0;4]) (-1) 1);
  (*2695*) Assign (T 52) (Plain (Einsum [(IT 69,[0;1;2;3]); (n_r1'b,[2])] [0;1;3]));
  (*2696*) Assign (T 55) (Times (Einsum [(T 54,[0;1]); (n_v'bbb'xov,[0;2;3])] [2;3;1]) (-1) 1);
  (*2697*) Del (T 54);
  (*2698*) Assign (T 50) (Times (Einsum [(T 38,[0]); (IT 166,[1;0;2;3])] [1;2;3]) (2) 1);
  (*2699*) Assign (T 48) (Plain (Einsum [(T 47,[0;1]); (n_v'bbb'xov,[0;2;3])] [2;3;1]));
  (*2700*) Del (T 47);
  (*2701*) Assign (T 49) (Times (Einsum [(T 43,[0;1]); (n_r2'bbb,[2;0;3])] [3;2;1]) (-4) 1);
  (*2702*) Assign (T 46) (Plain (Einsum [(IT 167,[0;1;2;3]); (n_r2'aba,[2;4;0])] [1;3;4]));
  (*2703*) Assign (T 36) (Times (Copy (IT 41)) (2) 1);
  (*2704*) Del (IT 41);
  (*2705*) AddTo (T 36) (Plain (Copy (IT 44)));
  (*2706*) Del (IT 44);
  (*2707*) AddTo (T 36) (Plain (Copy n_v'bbb'xov));
  (*2708*) Assign (T 26) (Plain (Einsum [(T 25,[0;1]); (n_v'baa'xov,[0;2;3])] [2;3;1]));
  (*2709*) Del (T 25);
  (*2710*) Assign (T 17) (Times (Einsum [(IT 114,[0;1;2;3]); (n_r2'bab,[3;4;1])] [0;2;4]) (-1) 1);
  (*2711*) Assign (T 20) (Times (Einsum [(n_r2'aaa,[0;1;2]); (T 19,[3;2;4;1])] [3;0;4]) (-1) 1);
  (*2712*) Del (T 19);
  (*2713*) Assign (T 16) (Plain (Einsum [(n_r1'a,[0]); (IT 13,[1;2;0;3])] [1;2;3]));
  (*2714*) Assign (T 18) (Plain (Einsum [(IT 111,[0;1;2;3]); (T 7,[1])] [0;2;3]));
  (*2715*) Assign (T 29) (Times (Einsum [(T 5,[0;1]); (n_r2'aaa,[2;0;3])] [3;2;1]) (-2) 1);
  (*2716*) Assign (T 28) (Plain (Einsum [(IT 111,[0;1;2;3]); (T 6,[1])] [0;2;3]));
  (*2717*) Assign (T 44) (Plain (Copy n_f'bb'oo));
  (*2718*) AddTo (T 44) (Times (Copy (IT 162)) (2) 1);
  (*2719*) Del (IT 162);
  (*2720*) AddTo (T 44) (Plain (Copy (IT 164)));
  (*2721*) Del (IT 164);
  (*2722*) Assign (T 56) (Plain (Copy (T 52)));
  (*2723*) Del (T 52);
  (*2724*) AddTo (T 56) (Times (Transpose (T 53) [0;2;1]) (-2) 1);
  (*2725*) Del (T 53);
  (*2726*) AddTo (T 56) (Times (Transpose (T 55) [0;2;1]) (2) 1);
  (*2727*) Del (T 55);
  (*2728*) Assign (T 45) (Plain (Einsum [(n_r2'bbb,[0;1;2]); (n_t2'bbbb,[3;4;0;1])] [2;3;4]));
  (*2729*) Assign (T 51) (Plain (Einsum [(n_r1'b,[0]); (n_f'bb'ov,[1;2])] [1;2;0]));
  (*2730*) AddTo (T 51) (Plain (Copy (T 46)));
  (*2731*) Del (T 46);
  (*2732*) AddTo (T 51) (Plain (Transpose (T 48) [0;2;1]));
  (*2733*) Del (T 48);
  (*2734*) AddTo (T 51) (Plain (Transpose (T 49) [0;2;1]));
  (*2735*) Del (T 49);
  (*2736*) AddTo (T 51) (Times (Copy (T 50)) (-1) 1);
  (*2737*) Del (T 50);
  (*2738*) Assign (T 41) (Plain (Copy (IT 183)));
  (*2739*) Del (IT 183);
  (*2740*) AddTo (T 41) (Times (Transpose (IT 184) [1;0;3;2]) (-1) 1);
  (*2741*) Del (IT 184);
  (*2742*) Assign (T 42) (Plain (Einsum [(n_r2'aaa,[0;1;2]); (T 35,[3;2;1])] [3;0]));
  (*2743*) AddTo (T 42) (Times (Einsum [(T 36,[0;1;2]); (n_r2'bab,[2;3;1])] [0;3]) (-1) 2);
  (*2744*) Assign (T 39) (Times (Einsum [(n_t2'abab,[0;1;2;3]); (n_r2'bab,[3;2;4])] [0;4;1]) (-1) 1);
  (*2745*) Assign (T 8) (Times (Copy (T 6)) (2) 1);
  (*2746*) Del (T 6);
  (*2747*) AddTo (T 8) (Plain (Copy (T 7)));
  (*2748*) Del (T 7);
  (*2749*) Assign (T 31) (Plain (Copy n_f'aa'oo));
  (*2750*) AddTo (T 31) (Times (Copy (IT 107)) (2) 1);
  (*2751*) Del (IT 107);
  (*2752*) AddTo (T 31) (Plain (Copy (IT 109)));
  (*2753*) Del (IT 109);
  (*2754*) Assign (T 11) (Times (Copy (IT 72)) (2) 1);
  (*2755*) Del (IT 72);
  (*2756*) AddTo (T 11) (Plain (Copy (IT 74)));
  (*2757*) Del (IT 74);
  (*2758*) AddTo (T 11) (Times (Copy n_f'bb'vv) (-1) 1);
  (*2759*) Assign (T 37) (Times (Einsum [(T 35,[0;1;2]); (n_r2'aba,[2;3;1])] [0;3]) (-1) 2);
  (*2760*) Del (T 35);
  (*2761*) AddTo (T 37) (Plain (Einsum [(n_r2'bbb,[0;1;2]); (T 36,[3;2;1])] [3;0]));
  (*2762*) Del (T 36);
  (*2763*) Assign (T 32) (Plain (Einsum [(n_t2'abab,[0;1;2;3]); (n_r2'aba,[2;3;4])] [4;0;1]));
  (*2764*) Assign (T 33) (Plain (Copy (IT 103)));
  (*2765*) Del (IT 103);
  (*2766*) AddTo (T 33) (Times (Transpose (IT 112) [1;0;3;2]) (2) 1);
  (*2767*) Del (IT 112);
  (*2768*) Assign (T 34) (Plain (Copy (IT 158)));
  (*2769*) Del (IT 158);
  (*2770*) AddTo (T 34) (Times (Transpose (IT 159) [1;0;3;2]) (-1) 1);
  (*2771*) Del (IT 159);
  (*2772*) Assign (T 27) (Plain (Copy (T 16)));
  (*2773*) Del (T 16);
  (*2774*) AddTo (T 27) (Plain (Copy (T 17)));
  (*2775*) Del (T 17);
  (*2776*) AddTo (T 27) (Plain (Copy (T 18)));
  (*2777*) Del (T 18);
  (*2778*) AddTo (T 27) (Times (Transpose (T 20) [0;2;1]) (-2) 1);
  (*2779*) Del (T 20);
  (*2780*) AddTo (T 27) (Plain (Transpose (T 26) [0;2;1]));
  (*2781*) Del (T 26);
  (*2782*) Assign (T 30) (Times (Einsum [(n_f'aa'ov,[0;1]); (n_r1'a,[2])] [0;1;2]) (-1) 1);
  (*2783*) AddTo (T 30) (Times (Copy (T 28)) (2) 1);
  (*2784*) Del (T 28);
  (*2785*) AddTo (T 30) (Times (Transpose (T 29) [0;2;1]) (-1) 1);
  (*2786*) Del (T 29);
  (*2787*) Assign (T 15) (Plain (Einsum [(n_t2'aaaa,[0;1;2;3]); (n_r2'aaa,[2;3;4])] [4;0;1]));
  (*2788*) Assign (T 14) (Times (Copy (T 12)) (-1) 1);
  (*2789*) Del (T 12);
  (*2790*) AddTo (T 14) (Times (Copy (T 13)) (2) 1);
  (*2791*) Del (T 13);
  (*2792*) Assign (T 10) (Times (Transpose (IT 80) [0;3;1;2]) (1) 2);
  (*2793*) Del (IT 80);
  (*2794*) AddTo (T 10) (Plain (Transpose (IT 89) [0;3;1;2]));
  (*2795*) Del (IT 89);
  (*2796*) AddTo (T 10) (Times (Transpose (IT 96) [0;3;1;2]) (1) 2);
  (*2797*) Del (IT 96);
  (*2798*) AddTo (T 10) (Times (Copy (IT 69)) (-1) 2);
  (*2799*) Del (IT 69);
  (*2800*) AddTo (T 10) (Times (Transpose (IT 92) [0;2;1;3]) (-1) 1);
  (*2801*) Del (IT 92);
  (*2802*) Assign (T 3) (Times (Copy n_f'aa'ov) (1) 2);
  (*2803*) AddTo (T 3) (Plain (Copy (IT 2)));
  (*2804*) Del (IT 2);
  (*2805*) AddTo (T 3) (Times (Copy (IT 47)) (1) 2);
  (*2806*) Del (IT 47);
  (*2807*) AddTo (T 3) (Times (Copy (IT 5)) (1) 2);
  (*2808*) Del (IT 5);
  (*2809*) AddTo (T 3) (Times (Copy (IT 24)) (-1) 1);
  (*2810*) Del (IT 24);
  (*2811*) AddTo (T 3) (Times (Copy (IT 33)) (-1) 2);
  (*2812*) Del (IT 33);
  (*2813*) AddTo (T 3) (Times (Copy (IT 39)) (-1) 1);
  (*2814*) Del (IT 39);
  (*2815*) Assign (T 9) (Plain (Copy (IT 59)));
  (*2816*) AddTo (T 9) (Plain (Transpose (IT 82) [0;1;3;2]));
  (*2817*) Del (IT 82);
  (*2818*) AddTo (T 9) (Plain (Transpose (IT 88) [0;1;3;2]));
  (*2819*) Del (IT 88);
  (*2820*) AddTo (T 9) (Times (Transpose (IT 94) [0;1;3;2]) (2) 1);
  (*2821*) Del (IT 94);
  (*2822*) AddTo (T 9) (Times (Copy (IT 91)) (-1) 1);
  (*2823*) Del (IT 91);
  (*2824*) AddTo (T 9) (Times (Transpose (IT 98) [0;1;3;2]) (-1) 1);
  (*2825*) Del (IT 98);
  (*2826*) Assign (T 4) (Times (Copy n_f'bb'ov) (1) 2);
  (*2827*) AddTo (T 4) (Times (Copy (IT 4)) (1) 2);
  (*2828*) Del (IT 4);
  (*2829*) AddTo (T 4) (Times (Copy (IT 45)) (1) 2);
  (*2830*) Del (IT 45);
  (*2831*) AddTo (T 4) (Plain (Copy (IT 7)));
  (*2832*) Del (IT 7);
  (*2833*) AddTo (T 4) (Times (Copy (IT 27)) (-1) 1);
  (*2834*) Del (IT 27);
  (*2835*) AddTo (T 4) (Times (Copy (IT 30)) (-1) 2);
  (*2836*) Del (IT 30);
  (*2837*) AddTo (T 4) (Times (Copy (IT 42)) (-1) 1);
  (*2838*) Del (IT 42);
  (*2839*) Assign (T 2) (Times (Transpose (IT 35) [0;3;1;2]) (1) 2);
  (*2840*) Del (IT 35);
  (*2841*) AddTo (T 2) (Plain (Transpose (IT 49) [0;3;1;2]));
  (*2842*) Del (IT 49);
  (*2843*) AddTo (T 2) (Times (Transpose (IT 55) [0;3;1;2]) (1) 2);
  (*2844*) Del (IT 55);
  (*2845*) AddTo (T 2) (Times (Copy (IT 13)) (-1) 2);
  (*2846*) Del (IT 13);
  (*2847*) AddTo (T 2) (Times (Transpose (IT 52) [0;2;1;3]) (-1) 1);
  (*2848*) Del (IT 52);
  (*2849*) Assign (T 1) (Plain (Copy (IT 15)));
  (*2850*) AddTo (T 1) (Plain (Transpose (IT 37) [0;2;1;3]));
  (*2851*) Del (IT 37);
  (*2852*) AddTo (T 1) (Plain (Transpose (IT 51) [0;2;1;3]));
  (*2853*) Del (IT 51);
  (*2854*) AddTo (T 1) (Times (Transpose (IT 57) [0;2;1;3]) (2) 1);
  (*2855*) Del (IT 57);
  (*2856*) AddTo (T 1) (Times (Copy (IT 54)) (-1) 1);
  (*2857*) Del (IT 54);
  (*2858*) AddTo (T 1) (Times (Transpose (IT 60) [0;2;1;3]) (-1) 1);
  (*2859*) Del (IT 60);
  (*2860*) Assign n_r2new'bbb (Times (Einsum [(IT 201,[0;1;2;3]); (n_r2'bbb,[1;3;4])] [0;2;4]) (-2) 1);
  (*2861*) Del (IT 201);
  (*2862*) AddTo n_r2new'bbb (Times (Einsum [(IT 166,[0;1;2;3]); (T 45,[4;0;1])] [3;2;4]) (-2) 1);
  (*2863*) Del (IT 166);
  (*2863*) Del (T 45);
  (*2864*) AddTo n_r2new'bbb (Times (Transpose (T 51) [1;2;0]) (-1) 1);
  (*2865*) AddTo n_r2new'bbb (Plain (Transpose (T 51) [2;1;0]));
  (*2866*) Del (T 51);
  (*2867*) AddTo n_r2new'bbb (Plain (Transpose (T 56) [1;2;0]));
  (*2868*) AddTo n_r2new'bbb (Times (Transpose (T 56) [2;1;0]) (-1) 1);
  (*2869*) Del (T 56);
  (*2870*) AddTo n_r2new'bbb (Times (Einsum [(n_r2'bbb,[0;1;2]); (T 44,[2;3])] [0;1;3]) (-2) 1);
  (*2871*) Assign n_r2new'bab (Times (Einsum [(n_r2'aaa,[0;1;2]); (IT 167,[2;3;1;4])] [4;0;3]) (2) 1);
  (*2872*) Del (IT 167);
  (*2873*) AddTo n_r2new'bab (Times (Einsum [(IT 147,[0;1;2;3]); (T 39,[0;4;1])] [3;2;4]) (-1) 1);
  (*2874*) Del (T 39);
  (*2875*) AddTo n_r2new'bab (Times (Einsum [(IT 15,[0;1;2;3]); (n_r1'a,[2])] [3;1;0]) (-1) 1);
  (*2876*) Del (IT 15);
  (*2877*) AddTo n_r2new'bab (Times (Einsum [(n_r1'a,[0]); (n_f'bb'ov,[1;2])] [2;0;1]) (-1) 1);
  (*2878*) AddTo n_r2new'bab (Plain (Einsum [(n_r2'bab,[0;1;2]); (IT 150,[3;1;4;0])] [4;3;2]));
  (*2879*) AddTo n_r2new'bab (Times (Einsum [(T 40,[0;1;2;3]); (n_r2'bab,[3;4;1])] [2;4;0]) (-1) 1);
  (*2880*) Del (T 40);
  (*2881*) AddTo n_r2new'bab (Times (Einsum [(n_r2'bab,[0;1;2]); (T 41,[3;2;4;1])] [0;4;3]) (-1) 1);
  (*2882*) Del (T 41);
  (*2883*) AddTo n_r2new'bab (Times (Einsum [(T 42,[0;1]); (n_v'bbb'xov,[0;2;3])] [3;1;2]) (-2) 1);
  (*2884*) Del (T 42);
  (*2885*) AddTo n_r2new'bab (Times (Einsum [(T 43,[0;1]); (n_r2'bab,[0;2;3])] [1;2;3]) (-2) 1);
  (*2886*) Del (T 43);
  (*2887*) AddTo n_r2new'bab (Times (Einsum [(T 5,[0;1]); (n_r2'bab,[2;0;3])] [2;1;3]) (-1) 1);
  (*2888*) AddTo n_r2new'bab (Times (Einsum [(n_r2'bab,[0;1;2]); (T 44,[2;3])] [0;1;3]) (-1) 1);
  (*2889*) Del (T 44);
  (*2890*) AddTo n_r2new'bab (Plain (Einsum [(T 8,[0]); (IT 147,[0;1;2;3])] [3;2;1]));
  (*2891*) Assign n_r2new'aba (Times (Einsum [(n_r1'b,[0]); (IT 59,[1;2;3;0])] [2;3;1]) (-1) 1);
  (*2892*) Del (IT 59);
  (*2893*) AddTo n_r2new'aba (Times (Einsum [(n_r2'bbb,[0;1;2]); (IT 114,[3;2;4;1])] [4;0;3]) (2) 1);
  (*2894*) Del (IT 114);
  (*2895*) AddTo n_r2new'aba (Times (Einsum [(n_f'aa'ov,[0;1]); (n_r1'b,[2])] [1;2;0]) (-1) 1);
  (*2896*) AddTo n_r2new'aba (Plain (Einsum [(IT 147,[0;1;2;3]); (T 32,[4;0;1])] [2;3;4]));
  (*2897*) Del (T 32);
  (*2898*) AddTo n_r2new'aba (Plain (Einsum [(n_r2'aba,[0;1;2]); (IT 150,[3;0;4;1])] [3;4;2]));
  (*2899*) Del (IT 150);
  (*2900*) AddTo n_r2new'aba (Times (Einsum [(n_r2'aba,[0;1;2]); (T 33,[3;2;4;0])] [4;1;3]) (-1) 1);
  (*2901*) Del (T 33);
  (*2902*) AddTo n_r2new'aba (Times (Einsum [(n_r2'aba,[0;1;2]); (T 34,[3;2;4;1])] [0;4;3]) (-1) 1);
  (*2903*) Del (T 34);
  (*2904*) AddTo n_r2new'aba (Times (Einsum [(T 37,[0;1]); (n_v'baa'xov,[0;2;3])] [3;1;2]) (-2) 1);
  (*2905*) Del (T 37);
  (*2906*) AddTo n_r2new'aba (Times (Einsum [(n_r2'aba,[0;1;2]); (T 11,[1;3])] [0;3;2]) (-1) 1);
  (*2907*) AddTo n_r2new'aba (Times (Einsum [(T 5,[0;1]); (n_r2'aba,[0;2;3])] [1;2;3]) (-1) 1);
  (*2908*) AddTo n_r2new'aba (Times (Einsum [(n_r2'aba,[0;1;2]); (T 31,[2;3])] [0;1;3]) (-1) 1);
  (*2909*) AddTo n_r2new'aba (Times (Einsum [(IT 147,[0;1;2;3]); (T 38,[1])] [2;3;0]) (2) 1);
  (*2910*) Del (T 38);
  (*2910*) Del (IT 147);
  (*2911*) Assign n_r2new'aaa (Times (Einsum [(T 15,[0;1;2]); (IT 111,[2;1;3;4])] [4;3;0]) (2) 1);
  (*2912*) Del (IT 111);
  (*2912*) Del (T 15);
  (*2913*) AddTo n_r2new'aaa (Times (Einsum [(n_r2'aaa,[0;1;2]); (IT 127,[3;1;4;0])] [3;4;2]) (2) 1);
  (*2914*) Del (IT 127);
  (*2915*) AddTo n_r2new'aaa (Plain (Transpose (T 27) [1;2;0]));
  (*2916*) AddTo n_r2new'aaa (Times (Transpose (T 27) [2;1;0]) (-1) 1);
  (*2917*) Del (T 27);
  (*2918*) AddTo n_r2new'aaa (Plain (Transpose (T 30) [1;2;0]));
  (*2919*) AddTo n_r2new'aaa (Times (Transpose (T 30) [2;1;0]) (-1) 1);
  (*2920*) Del (T 30);
  (*2921*) AddTo n_r2new'aaa (Times (Einsum [(n_r2'aaa,[0;1;2]); (T 31,[2;3])] [0;1;3]) (-2) 1);
  (*2922*) Del (T 31);
  (*2923*) Assign n_r1new'b (Times (Einsum [(n_r2'aba,[0;1;2]); (T 9,[2;0;3;1])] [3]) (-1) 1);
  (*2924*) Del (T 9);
  (*2925*) AddTo n_r1new'b (Times (Einsum [(T 10,[0;1;2;3]); (n_r2'bbb,[2;3;0])] [1]) (-4) 1);
  (*2926*) Del (T 10);
  (*2927*) AddTo n_r1new'b (Times (Einsum [(n_r2'bbb,[0;1;2]); (T 4,[2;1])] [0]) (4) 1);
  (*2928*) AddTo n_r1new'b (Times (Einsum [(n_r2'aba,[0;1;2]); (T 3,[2;0])] [1]) (-2) 1);
  (*2929*) AddTo n_r1new'b (Times (Einsum [(n_r1'b,[0]); (T 11,[0;1])] [1]) (-1) 1);
  (*2930*) Del (T 11);
  (*2931*) AddTo n_r1new'b (Times (Einsum [(T 14,[0]); (n_f'bb'ov,[0;1])] [1]) (-1) 1);
  (*2932*) Del (T 14);
  (*2933*) Assign n_r1new'a (Times (Einsum [(n_r2'bab,[0;1;2]); (T 1,[2;3;1;0])] [3]) (-1) 1);
  (*2934*) Del (T 1);
  (*2935*) AddTo n_r1new'a (Times (Einsum [(n_r2'aaa,[0;1;2]); (T 2,[2;3;0;1])] [3]) (-4) 1);
  (*2936*) Del (T 2);
  (*2937*) AddTo n_r1new'a (Times (Einsum [(T 3,[0;1]); (n_r2'aaa,[2;1;0])] [2]) (4) 1);
  (*2938*) Del (T 3);
  (*2939*) AddTo n_r1new'a (Times (Einsum [(T 4,[0;1]); (n_r2'bab,[1;2;0])] [2]) (-2) 1);
  (*2940*) Del (T 4);
  (*2941*) AddTo n_r1new'a (Times (Einsum [(T 5,[0;1]); (n_r1'a,[0])] [1]) (-1) 1);
  (*2942*) Del (T 5);
  (*2943*) AddTo n_r1new'a (Times (Einsum [(T 8,[0]); (n_f'aa'ov,[0;1])] [1]) (-1) 1);
  (*2944*) Del (T 8)]
 [(n_r1new'b,[7]); (n_r1new'a,[5]); (n_r2new'bbb,[7;7;6]); (n_r2new'bab,[7;5;6]); (n_r2new'aba,[5;7;4]); (n_r2new'aaa,[5;5;4])].

