(** Generated by tools/translate_codegen.py from ebcc/codegen/UDFDCD.py; one statement per source line
    (the number in the comment before it). *)
From Coq Require Import ZArith List.
From Verif Require Import CgModel CgNames.
Import ListNotations.

(** ebcc/codegen/UDFDCD.py:19-44 [energy] *)
Definition UDFDCD_energy : prog := mkprog
 [(n_t2'aaaa,[4;4;5;5]); (n_v'baa'xov,[2;4;5]); (n_v'bbb'xov,[2;6;7]); (n_t2'abab,[4;6;5;7]); (n_t2'bbbb,[6;6;7;7])]
 [(*36*) Assign (T 2) (Plain (Einsum [(n_t2'aaaa,[0;1;2;3]); (n_v'baa'xov,[4;1;3])] [4;0;2]));
  (*37*) AddTo (T 2) (Plain (Einsum [(n_v'bbb'xov,[0;1;2]); (n_t2'abab,[3;1;4;2])] [0;3;4]));
  (*38*) Assign (T 1) (Plain (Einsum [(n_v'bbb'xov,[0;1;2]); (n_t2'bbbb,[3;1;4;2])] [0;3;4]));
  (*39*) Assign n_e_cc (Plain (Einsum [(n_v'bbb'xov,[0;1;2]); (T 1,[0;1;2])] []));
  (*40*) Del (T 1);
  (*41*) AddTo n_e_cc (Plain (Einsum [(T 2,[0;1;2]); (n_v'baa'xov,[0;1;2])] []));
  (*42*) Del (T 2)]
 [(n_e_cc,[])].

(** ebcc/codegen/UDFDCD.py:46-269 [update_amps] *)
Definition UDFDCD_update_amps : prog := mkprog
 [(n_t2'abab,[4;6;5;7]); (n_v'baa'xov,[2;4;5]); (n_v'bbb'xov,[2;6;7]); (n_t2'bbbb,[6;6;7;7]); (n_t2'aaaa,[4;4;5;5]); (n_f'bb'oo,[6;6]); (n_v'bbb'xvv,[2;7;7]); (n_v'bbb'xoo,[2;6;6]); (n_v'baa'xvv,[2;5;5]); (n_v'baa'xoo,[2;4;4]); (n_f'aa'oo,[4;4]); (n_f'bb'vv,[7;7]); (n_f'aa'vv,[5;5])]
 [(*67*) Assign (T 23) (Plain (Einsum [(n_t2'abab,[0;1;2;3]); (n_v'baa'xov,[4;0;2])] [4;1;3]));
  (*68*) Assign (T 24) (Plain (Einsum [(n_v'bbb'xov,[0;1;2]); (n_t2'bbbb,[3;1;4;2])] [0;3;4]));
  (*69*) Assign (T 2) (Plain (Einsum [(n_v'bbb'xov,[0;1;2]); (n_t2'abab,[3;1;4;2])] [0;3;4]));
  (*70*) Assign (T 1) (Plain (Einsum [(n_v'baa'xov,[0;1;2]); (n_t2'aaaa,[3;1;4;2])] [0;3;4]));
  (*71*) Assign (T 39) (Times (Copy (T 23)) (1) 2);
  (*72*) AddTo (T 39) (Plain (Copy (T 24)));
  (*73*) Assign (T 3) (Times (Copy (T 1)) (2) 1);
  (*74*) AddTo (T 3) (Plain (Copy (T 2)));
  (*75*) Assign (T 40) (Plain (Einsum [(n_v'bbb'xov,[0;1;2]); (T 39,[0;3;2])] [3;1]));
  (*76*) Assign (T 4) (Times (Einsum [(T 3,[0;1;2]); (n_v'baa'xov,[0;3;2])] [3;1]) (1) 2);
  (*77*) Assign (T 57) (Times (Copy n_v'bbb'xov) (2) 1);
  (*78*) AddTo (T 57) (Plain (Copy (T 23)));
  (*79*) Assign (T 41) (Plain (Copy n_f'bb'oo));
  (*80*) AddTo (T 41) (Plain (Copy (T 40)));
  (*81*) Del (T 40);
  (*82*) Assign (T 53) (Plain (Einsum [(n_v'bbb'xvv,[0;1;2]); (n_v'bbb'xvv,[0;3;4])] [1;3;4;2]));
  (*83*) Assign (T 51) (Plain (Copy n_v'bbb'xov));
  (*84*) AddTo (T 51) (Plain (Copy (T 23)));
  (*85*) AddTo (T 51) (Times (Copy (T 24)) (2) 1);
  (*86*) Assign (T 37) (Plain (Einsum [(n_v'bbb'xvv,[0;1;2]); (n_v'bbb'xoo,[0;3;4])] [3;4;1;2]));
  (*87*) Assign (T 43) (Plain (Einsum [(n_v'bbb'xoo,[0;1;2]); (n_v'bbb'xoo,[0;3;4])] [3;1;2;4]));
  (*88*) Assign (T 55) (Plain (Copy n_v'bbb'xov));
  (*89*) AddTo (T 55) (Plain (Copy (T 24)));
  (*90*) Assign (T 28) (Plain (Copy (T 1)));
  (*91*) AddTo (T 28) (Times (Copy (T 2)) (1) 2);
  (*92*) Assign (T 25) (Plain (Copy (T 23)));
  (*93*) AddTo (T 25) (Times (Copy (T 24)) (2) 1);
  (*94*) Assign (T 34) (Plain (Einsum [(n_v'baa'xvv,[0;1;2]); (n_v'bbb'xvv,[0;3;4])] [1;2;3;4]));
  (*95*) Assign (T 7) (Plain (Einsum [(n_v'baa'xoo,[0;1;2]); (n_v'baa'xoo,[0;3;4])] [1;3;4;2]));
  (*96*) Assign (T 9) (Plain (Einsum [(n_v'baa'xvv,[0;1;2]); (n_v'baa'xoo,[0;3;4])] [3;4;1;2]));
  (*97*) Assign (T 5) (Plain (Copy n_f'aa'oo));
  (*98*) AddTo (T 5) (Plain (Transpose (T 4) [1;0]));
  (*99*) Del (T 4);
  (*100*) Assign (T 21) (Plain (Copy n_v'baa'xov));
  (*101*) AddTo (T 21) (Plain (Copy (T 1)));
  (*102*) Assign (T 19) (Plain (Einsum [(n_v'baa'xvv,[0;1;2]); (n_v'baa'xvv,[0;3;4])] [3;1;2;4]));
  (*103*) Assign (T 16) (Times (Copy n_v'baa'xov) (2) 1);
  (*104*) AddTo (T 16) (Plain (Copy (T 2)));
  (*105*) Assign (T 49) (Plain (Einsum [(T 23,[0;1;2]); (T 23,[0;3;4])] [1;3;2;4]));
  (*106*) Assign (T 58) (Times (Einsum [(T 23,[0;1;2]); (T 57,[0;3;4])] [1;3;2;4]) (1) 2);
  (*107*) Del (T 57);
  (*108*) Assign (T 42) (Times (Einsum [(n_t2'bbbb,[0;1;2;3]); (T 41,[4;1])] [0;4;2;3]) (-1) 1);
  (*109*) Del (T 41);
  (*110*) Assign (T 47) (Times (Copy n_f'bb'vv) (-1) 1);
  (*111*) AddTo (T 47) (Plain (Einsum [(T 39,[0;1;2]); (n_v'bbb'xov,[0;1;3])] [2;3]));
  (*112*) Assign (T 50) (Plain (Einsum [(T 23,[0;1;2]); (T 24,[0;3;4])] [1;3;2;4]));
  (*113*) Assign (T 46) (Times (Copy n_f'bb'vv) (-2) 1);
  (*114*) AddTo (T 46) (Times (Einsum [(T 39,[0;1;2]); (n_v'bbb'xov,[0;1;3])] [2;3]) (2) 1);
  (*115*) Del (T 39);
  (*116*) Assign (T 54) (Plain (Einsum [(n_t2'bbbb,[0;1;2;3]); (T 53,[4;2;5;3])] [0;1;5;4]));
  (*117*) Del (T 53);
  (*118*) Assign (T 52) (Plain (Einsum [(n_v'bbb'xov,[0;1;2]); (T 51,[0;3;4])] [3;1;4;2]));
  (*119*) Del (T 51);
  (*120*) Assign (T 45) (Plain (Einsum [(n_t2'bbbb,[0;1;2;3]); (T 37,[4;1;5;3])] [0;4;2;5]));
  (*121*) Assign (T 44) (Plain (Einsum [(n_t2'bbbb,[0;1;2;3]); (T 43,[4;0;5;1])] [5;4;2;3]));
  (*122*) Del (T 43);
  (*123*) Assign (T 56) (Times (Einsum [(T 24,[0;1;2]); (T 55,[0;3;4])] [1;3;2;4]) (2) 1);
  (*124*) Del (T 55);
  (*125*) Assign (T 48) (Plain (Einsum [(T 24,[0;1;2]); (T 24,[0;3;4])] [1;3;2;4]));
  (*126*) Assign (T 27) (Plain (Einsum [(n_v'baa'xoo,[0;1;2]); (n_v'bbb'xoo,[0;3;4])] [1;2;3;4]));
  (*127*) Assign (T 30) (Times (Copy n_f'aa'vv) (-1) 1);
  (*128*) AddTo (T 30) (Plain (Einsum [(T 28,[0;1;2]); (n_v'baa'xov,[0;1;3])] [3;2]));
  (*129*) Assign (T 29) (Plain (Copy n_f'aa'oo));
  (*130*) AddTo (T 29) (Plain (Einsum [(T 28,[0;1;2]); (n_v'baa'xov,[0;3;2])] [3;1]));
  (*131*) Assign (T 32) (Times (Copy n_f'bb'vv) (-1) 1);
  (*132*) AddTo (T 32) (Times (Einsum [(n_v'bbb'xov,[0;1;2]); (T 25,[0;1;3])] [2;3]) (1) 2);
  (*133*) Assign (T 35) (Plain (Einsum [(n_t2'abab,[0;1;2;3]); (T 34,[4;2;5;3])] [0;1;4;5]));
  (*134*) Del (T 34);
  (*135*) Assign (T 36) (Times (Copy n_v'bbb'xov) (2) 1);
  (*136*) AddTo (T 36) (Plain (Copy (T 23)));
  (*137*) Del (T 23);
  (*138*) AddTo (T 36) (Times (Copy (T 24)) (2) 1);
  (*139*) Del (T 24);
  (*140*) Assign (T 26) (Plain (Copy n_f'bb'oo));
  (*141*) AddTo (T 26) (Times (Einsum [(T 25,[0;1;2]); (n_v'bbb'xov,[0;3;2])] [3;1]) (1) 2);
  (*142*) Assign (T 38) (Plain (Einsum [(n_v'baa'xvv,[0;1;2]); (n_v'bbb'xoo,[0;3;4])] [3;4;1;2]));
  (*143*) Assign (T 33) (Times (Copy n_v'baa'xov) (2) 1);
  (*144*) AddTo (T 33) (Times (Copy (T 1)) (2) 1);
  (*145*) AddTo (T 33) (Plain (Copy (T 2)));
  (*146*) Assign (T 31) (Plain (Einsum [(n_v'baa'xoo,[0;1;2]); (n_v'bbb'xvv,[0;3;4])] [1;2;3;4]));
  (*147*) Assign (T 15) (Plain (Copy n_v'baa'xov));
  (*148*) AddTo (T 15) (Times (Copy (T 1)) (2) 1);
  (*149*) AddTo (T 15) (Plain (Copy (T 2)));
  (*150*) Assign (T 14) (Plain (Einsum [(T 1,[0;1;2]); (T 2,[0;3;4])] [1;3;2;4]));
  (*151*) Assign (T 18) (Plain (Copy n_v'baa'xov));
  (*152*) AddTo (T 18) (Times (Copy (T 1)) (2) 1);
  (*153*) Assign (T 8) (Plain (Einsum [(T 7,[0;1;2;3]); (n_t2'aaaa,[1;3;4;5])] [2;0;4;5]));
  (*154*) Del (T 7);
  (*155*) Assign (T 13) (Plain (Einsum [(T 1,[0;1;2]); (T 1,[0;3;4])] [1;3;2;4]));
  (*156*) Assign (T 10) (Plain (Einsum [(n_t2'aaaa,[0;1;2;3]); (T 9,[4;1;5;3])] [0;4;2;5]));
  (*157*) Assign (T 12) (Times (Copy n_f'aa'vv) (-1) 1);
  (*158*) AddTo (T 12) (Times (Einsum [(n_v'baa'xov,[0;1;2]); (T 3,[0;1;3])] [3;2]) (1) 2);
  (*159*) Assign (T 6) (Times (Einsum [(T 5,[0;1]); (n_t2'aaaa,[2;1;3;4])] [2;0;3;4]) (-1) 1);
  (*160*) Del (T 5);
  (*161*) Assign (T 11) (Times (Copy n_f'aa'vv) (-2) 1);
  (*162*) AddTo (T 11) (Plain (Einsum [(n_v'baa'xov,[0;1;2]); (T 3,[0;1;3])] [3;2]));
  (*163*) Del (T 3);
  (*164*) Assign (T 22) (Times (Einsum [(T 21,[0;1;2]); (T 1,[0;3;4])] [1;3;2;4]) (2) 1);
  (*165*) Del (T 1);
  (*165*) Del (T 21);
  (*166*) Assign (T 20) (Plain (Einsum [(T 19,[0;1;2;3]); (n_t2'aaaa,[4;5;1;3])] [4;5;2;0]));
  (*167*) Del (T 19);
  (*168*) Assign (T 17) (Times (Einsum [(T 16,[0;1;2]); (T 2,[0;3;4])] [1;3;2;4]) (1) 2);
  (*169*) Del (T 16);
  (*170*) Assign n_t2new'bbbb (Times (Transpose (T 42) [0;1;3;2]) (-2) 1);
  (*171*) AddTo n_t2new'bbbb (Times (Transpose (T 44) [0;1;3;2]) (-2) 1);
  (*172*) Del (T 44);
  (*173*) AddTo n_t2new'bbbb (Times (Transpose (T 42) [1;0;3;2]) (2) 1);
  (*174*) Del (T 42);
  (*175*) AddTo n_t2new'bbbb (Times (Transpose (T 45) [1;0;3;2]) (-2) 1);
  (*176*) AddTo n_t2new'bbbb (Plain (Einsum [(n_t2'bbbb,[0;1;2;3]); (T 46,[4;3])] [0;1;4;2]));
  (*177*) Del (T 46);
  (*178*) AddTo n_t2new'bbbb (Times (Transpose (T 45) [1;0;2;3]) (2) 1);
  (*179*) AddTo n_t2new'bbbb (Times (Einsum [(n_t2'bbbb,[0;1;2;3]); (T 47,[4;3])] [0;1;2;4]) (-2) 1);
  (*180*) Del (T 47);
  (*181*) AddTo n_t2new'bbbb (Times (Copy (T 48)) (2) 1);
  (*182*) AddTo n_t2new'bbbb (Times (Copy (T 49)) (1) 2);
  (*183*) AddTo n_t2new'bbbb (Times (Copy (T 50)) (2) 1);
  (*184*) AddTo n_t2new'bbbb (Times (Transpose (T 50) [1;0;3;2]) (2) 1);
  (*185*) AddTo n_t2new'bbbb (Plain (Transpose (T 52) [1;0;3;2]));
  (*186*) AddTo n_t2new'bbbb (Times (Transpose (T 48) [0;1;3;2]) (-2) 1);
  (*187*) Del (T 48);
  (*188*) AddTo n_t2new'bbbb (Times (Transpose (T 49) [1;0;2;3]) (-1) 2);
  (*189*) Del (T 49);
  (*190*) AddTo n_t2new'bbbb (Times (Transpose (T 50) [0;1;3;2]) (-2) 1);
  (*191*) AddTo n_t2new'bbbb (Times (Transpose (T 50) [1;0;2;3]) (-2) 1);
  (*192*) Del (T 50);
  (*193*) AddTo n_t2new'bbbb (Times (Transpose (T 52) [1;0;2;3]) (-1) 1);
  (*194*) Del (T 52);
  (*195*) AddTo n_t2new'bbbb (Times (Transpose (T 54) [0;1;3;2]) (-2) 1);
  (*196*) Del (T 54);
  (*197*) AddTo n_t2new'bbbb (Plain (Copy (T 56)));
  (*198*) AddTo n_t2new'bbbb (Plain (Copy (T 58)));
  (*199*) AddTo n_t2new'bbbb (Times (Copy (T 45)) (-2) 1);
  (*200*) AddTo n_t2new'bbbb (Times (Transpose (T 58) [0;1;3;2]) (-1) 1);
  (*201*) Del (T 58);
  (*202*) AddTo n_t2new'bbbb (Times (Transpose (T 56) [0;1;3;2]) (-1) 1);
  (*203*) Del (T 56);
  (*204*) AddTo n_t2new'bbbb (Times (Transpose (T 45) [0;1;3;2]) (2) 1);
  (*205*) Del (T 45);
  (*206*) Assign n_t2new'abab (Times (Einsum [(T 26,[0;1]); (n_t2'abab,[2;0;3;4])] [2;1;3;4]) (-1) 1);
  (*207*) Del (T 26);
  (*208*) AddTo n_t2new'abab (Plain (Einsum [(n_t2'abab,[0;1;2;3]); (T 27,[4;0;5;1])] [4;5;2;3]));
  (*209*) Del (T 27);
  (*210*) AddTo n_t2new'abab (Times (Einsum [(T 29,[0;1]); (n_t2'abab,[0;2;3;4])] [1;2;3;4]) (-1) 1);
  (*211*) Del (T 29);
  (*212*) AddTo n_t2new'abab (Times (Einsum [(T 9,[0;1;2;3]); (n_t2'abab,[1;4;3;5])] [0;4;2;5]) (-1) 1);
  (*213*) Del (T 9);
  (*214*) AddTo n_t2new'abab (Times (Einsum [(T 30,[0;1]); (n_t2'abab,[2;3;0;4])] [2;3;1;4]) (-1) 1);
  (*215*) Del (T 30);
  (*216*) AddTo n_t2new'abab (Times (Einsum [(n_t2'abab,[0;1;2;3]); (T 31,[4;0;5;3])] [4;1;2;5]) (-1) 1);
  (*217*) Del (T 31);
  (*218*) AddTo n_t2new'abab (Times (Einsum [(T 32,[0;1]); (n_t2'abab,[2;3;4;0])] [2;3;4;1]) (-1) 1);
  (*219*) Del (T 32);
  (*220*) AddTo n_t2new'abab (Plain (Einsum [(n_v'bbb'xov,[0;1;2]); (n_v'baa'xov,[0;3;4])] [3;1;4;2]));
  (*221*) AddTo n_t2new'abab (Times (Einsum [(T 33,[0;1;2]); (T 25,[0;3;4])] [1;3;2;4]) (1) 2);
  (*222*) Del (T 25);
  (*222*) Del (T 33);
  (*223*) AddTo n_t2new'abab (Plain (Copy (T 35)));
  (*224*) Del (T 35);
  (*225*) AddTo n_t2new'abab (Plain (Einsum [(T 36,[0;1;2]); (T 28,[0;3;4])] [3;1;4;2]));
  (*226*) Del (T 28);
  (*226*) Del (T 36);
  (*227*) AddTo n_t2new'abab (Times (Einsum [(n_t2'abab,[0;1;2;3]); (T 37,[4;1;5;3])] [0;4;2;5]) (-1) 1);
  (*228*) Del (T 37);
  (*229*) AddTo n_t2new'abab (Times (Einsum [(n_t2'abab,[0;1;2;3]); (T 38,[4;1;5;2])] [0;4;5;3]) (-1) 1);
  (*230*) Del (T 38);
  (*231*) Assign n_t2new'aaaa (Times (Transpose (T 6) [0;1;3;2]) (-2) 1);
  (*232*) AddTo n_t2new'aaaa (Times (Transpose (T 8) [0;1;3;2]) (-2) 1);
  (*233*) Del (T 8);
  (*234*) AddTo n_t2new'aaaa (Times (Transpose (T 6) [1;0;3;2]) (2) 1);
  (*235*) Del (T 6);
  (*236*) AddTo n_t2new'aaaa (Times (Transpose (T 10) [1;0;3;2]) (-2) 1);
  (*237*) AddTo n_t2new'aaaa (Plain (Einsum [(T 11,[0;1]); (n_t2'aaaa,[2;3;4;1])] [2;3;0;4]));
  (*238*) Del (T 11);
  (*239*) AddTo n_t2new'aaaa (Times (Transpose (T 10) [1;0;2;3]) (2) 1);
  (*240*) AddTo n_t2new'aaaa (Times (Einsum [(n_t2'aaaa,[0;1;2;3]); (T 12,[4;3])] [0;1;2;4]) (-2) 1);
  (*241*) Del (T 12);
  (*242*) AddTo n_t2new'aaaa (Times (Copy (T 13)) (2) 1);
  (*243*) AddTo n_t2new'aaaa (Times (Einsum [(T 2,[0;1;2]); (T 2,[0;3;4])] [1;3;2;4]) (1) 2);
  (*244*) Del (T 2);
  (*245*) AddTo n_t2new'aaaa (Times (Copy (T 14)) (2) 1);
  (*246*) AddTo n_t2new'aaaa (Times (Transpose (T 14) [1;0;3;2]) (2) 1);
  (*247*) AddTo n_t2new'aaaa (Plain (Einsum [(T 15,[0;1;2]); (n_v'baa'xov,[0;3;4])] [3;1;4;2]));
  (*248*) Del (T 15);
  (*249*) AddTo n_t2new'aaaa (Times (Transpose (T 13) [0;1;3;2]) (-2) 1);
  (*250*) Del (T 13);
  (*251*) AddTo n_t2new'aaaa (Times (Transpose (T 14) [0;1;3;2]) (-2) 1);
  (*252*) AddTo n_t2new'aaaa (Times (Transpose (T 14) [1;0;2;3]) (-2) 1);
  (*253*) Del (T 14);
  (*254*) AddTo n_t2new'aaaa (Times (Transpose (T 17) [0;1;3;2]) (-1) 1);
  (*255*) AddTo n_t2new'aaaa (Times (Einsum [(n_v'baa'xov,[0;1;2]); (T 18,[0;3;4])] [1;3;4;2]) (-1) 1);
  (*256*) Del (T 18);
  (*257*) AddTo n_t2new'aaaa (Times (Transpose (T 20) [0;1;3;2]) (-2) 1);
  (*258*) Del (T 20);
  (*259*) AddTo n_t2new'aaaa (Plain (Transpose (T 22) [1;0;3;2]));
  (*260*) AddTo n_t2new'aaaa (Plain (Transpose (T 17) [1;0;3;2]));
  (*261*) AddTo n_t2new'aaaa (Times (Copy (T 10)) (-2) 1);
  (*262*) AddTo n_t2new'aaaa (Times (Transpose (T 17) [1;0;2;3]) (-1) 1);
  (*263*) Del (T 17);
  (*264*) AddTo n_t2new'aaaa (Times (Transpose (T 22) [1;0;2;3]) (-1) 1);
  (*265*) Del (T 22);
  (*266*) AddTo n_t2new'aaaa (Times (Transpose (T 10) [0;1;3;2]) (2) 1);
  (*267*) Del (T 10)]
 [(n_t2new'bbbb,[6;6;7;7]); (n_t2new'abab,[4;6;5;7]); (n_t2new'aaaa,[4;4;5;5])].

