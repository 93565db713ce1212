(** Generated by tools/translate_codegen.py from ebcc/codegen/UDFQCISD.py; one statement per source line
    (the number in the comment before it). *)
From Coq Require Import ZArith List.
From Verif Require Import CgModel CgNames.
Import ListNotations.

(** ebcc/codegen/UDFQCISD.py:19-44 [energy] *)
Definition UDFQCISD_energy : prog := mkprog
 [(n_v'baa'xov,[2;4;5]); (n_t2'abab,[4;6;5;7]); (n_v'bbb'xov,[2;6;7]); (n_t2'bbbb,[6;6;7;7]); (n_t2'aaaa,[4;4;5;5])]
 [(*36*) Assign (T 2) (Plain (Einsum [(n_v'baa'xov,[0;1;2]); (n_t2'abab,[1;3;2;4])] [0;3;4]));
  (*37*) AddTo (T 2) (Plain (Einsum [(n_v'bbb'xov,[0;1;2]); (n_t2'bbbb,[3;1;4;2])] [0;3;4]));
  (*38*) Assign (T 1) (Plain (Einsum [(n_v'baa'xov,[0;1;2]); (n_t2'aaaa,[3;1;4;2])] [0;3;4]));
  (*39*) Assign n_e_cc (Plain (Einsum [(n_v'baa'xov,[0;1;2]); (T 1,[0;1;2])] []));
  (*40*) Del (T 1);
  (*41*) AddTo n_e_cc (Plain (Einsum [(n_v'bbb'xov,[0;1;2]); (T 2,[0;1;2])] []));
  (*42*) Del (T 2)]
 [(n_e_cc,[])].

(** ebcc/codegen/UDFQCISD.py:46-398 [update_amps] *)
Definition UDFQCISD_update_amps : prog := mkprog
 [(n_v'bbb'xov,[2;6;7]); (n_v'baa'xov,[2;4;5]); (n_t2'abab,[4;6;5;7]); (n_t2'bbbb,[6;6;7;7]); (n_t2'aaaa,[4;4;5;5]); (n_t1'aa,[4;5]); (n_t1'bb,[6;7]); (n_v'bbb'xvv,[2;7;7]); (n_v'bbb'xoo,[2;6;6]); (n_v'baa'xvv,[2;5;5]); (n_v'baa'xoo,[2;4;4]); (n_f'bb'oo,[6;6]); (n_f'bb'vv,[7;7]); (n_f'aa'vv,[5;5]); (n_f'aa'oo,[4;4]); (n_f'bb'ov,[6;7]); (n_f'aa'ov,[4;5])]
 [(*71*) Assign (T 43) (Plain (Einsum [(n_v'bbb'xov,[0;1;2]); (n_v'bbb'xov,[0;3;4])] [1;3;2;4]));
  (*72*) Assign (T 38) (Plain (Einsum [(n_v'baa'xov,[0;1;2]); (n_v'baa'xov,[0;3;4])] [1;3;2;4]));
  (*73*) Assign (T 79) (Plain (Transpose (T 43) [1;0;2;3]));
  (*74*) AddTo (T 79) (Times (Transpose (T 43) [1;0;3;2]) (-1) 1);
  (*75*) Assign (T 28) (Plain (Einsum [(n_v'baa'xov,[0;1;2]); (n_t2'abab,[1;3;2;4])] [0;3;4]));
  (*76*) Assign (T 29) (Plain (Einsum [(n_v'bbb'xov,[0;1;2]); (n_t2'bbbb,[3;1;4;2])] [0;3;4]));
  (*77*) Assign (T 18) (Plain (Einsum [(n_t2'abab,[0;1;2;3]); (n_v'bbb'xov,[4;1;3])] [4;0;2]));
  (*78*) Assign (T 17) (Plain (Einsum [(n_v'baa'xov,[0;1;2]); (n_t2'aaaa,[3;1;4;2])] [0;3;4]));
  (*79*) Assign (T 39) (Times (Transpose (T 38) [1;0;2;3]) (-1) 1);
  (*80*) AddTo (T 39) (Plain (Transpose (T 38) [1;0;3;2]));
  (*81*) Assign (T 6) (Plain (Einsum [(n_v'baa'xov,[0;1;2]); (n_t1'aa,[1;2])] [0]));
  (*82*) Assign (T 7) (Plain (Einsum [(n_v'bbb'xov,[0;1;2]); (n_t1'bb,[1;2])] [0]));
  (*83*) Assign (T 72) (Plain (Einsum [(n_v'bbb'xvv,[0;1;2]); (n_v'bbb'xoo,[0;3;4])] [3;4;1;2]));
  (*84*) Assign (T 80) (Plain (Einsum [(n_t2'bbbb,[0;1;2;3]); (T 79,[1;4;5;3])] [0;4;2;5]));
  (*85*) Del (T 79);
  (*86*) Assign (T 23) (Plain (Einsum [(n_t1'bb,[0;1]); (n_v'bbb'xvv,[2;3;1])] [2;0;3]));
  (*87*) Assign (T 31) (Times (Copy (T 28)) (1) 2);
  (*88*) AddTo (T 31) (Plain (Copy (T 29)));
  (*89*) Assign (T 56) (Times (Copy (T 17)) (2) 1);
  (*90*) AddTo (T 56) (Plain (Copy (T 18)));
  (*91*) Assign (T 2) (Plain (Einsum [(n_v'baa'xvv,[0;1;2]); (n_t1'aa,[3;2])] [0;3;1]));
  (*92*) Assign (T 40) (Plain (Einsum [(T 39,[0;1;2;3]); (n_t2'aaaa,[4;0;5;2])] [4;1;5;3]));
  (*93*) Assign (T 37) (Plain (Einsum [(n_v'baa'xvv,[0;1;2]); (n_v'baa'xoo,[0;3;4])] [3;4;1;2]));
  (*94*) Assign (T 44) (Times (Transpose (T 43) [1;0;2;3]) (-1) 1);
  (*95*) AddTo (T 44) (Plain (Transpose (T 43) [1;0;3;2]));
  (*96*) Assign (T 21) (Times (Copy (T 17)) (2) 1);
  (*97*) AddTo (T 21) (Plain (Copy (T 18)));
  (*98*) Assign (T 8) (Plain (Copy (T 6)));
  (*99*) AddTo (T 8) (Plain (Copy (T 7)));
  (*100*) Assign (T 4) (Plain (Einsum [(n_v'bbb'xov,[0;1;2]); (n_t1'bb,[3;2])] [0;3;1]));
  (*101*) Assign (T 11) (Plain (Einsum [(n_t1'aa,[0;1]); (n_v'baa'xov,[2;3;1])] [2;0;3]));
  (*102*) Assign (T 67) (Plain (Copy (T 28)));
  (*103*) AddTo (T 67) (Times (Copy (T 29)) (2) 1);
  (*104*) Assign (T 81) (Plain (Transpose (T 72) [1;0;3;2]));
  (*105*) AddTo (T 81) (Times (Copy (T 80)) (-2) 1);
  (*106*) Del (T 80);
  (*107*) Assign (T 87) (Plain (Einsum [(n_t2'bbbb,[0;1;2;3]); (T 43,[4;5;3;2])] [0;1;5;4]));
  (*108*) Assign (T 83) (Plain (Einsum [(n_t2'abab,[0;1;2;3]); (T 39,[0;4;2;5])] [4;1;5;3]));
  (*109*) Del (T 39);
  (*110*) Assign (T 60) (Plain (Copy n_v'bbb'xov));
  (*111*) AddTo (T 60) (Plain (Copy (T 23)));
  (*112*) Assign (T 93) (Plain (Einsum [(n_v'bbb'xov,[0;1;2]); (T 31,[0;1;3])] [2;3]));
  (*113*) Assign (T 91) (Plain (Einsum [(n_v'bbb'xoo,[0;1;2]); (n_v'bbb'xoo,[0;3;4])] [3;1;2;4]));
  (*114*) Assign (T 24) (Plain (Einsum [(n_v'bbb'xoo,[0;1;2]); (n_v'bbb'xov,[0;3;4])] [1;2;3;4]));
  (*115*) Assign (T 32) (Times (Einsum [(T 31,[0;1;2]); (n_v'bbb'xov,[0;3;2])] [3;1]) (2) 1);
  (*116*) Assign (T 57) (Plain (Einsum [(n_v'baa'xov,[0;1;2]); (T 56,[0;3;4])] [1;3;2;4]));
  (*117*) Assign (T 61) (Plain (Einsum [(n_v'baa'xov,[0;1;2]); (n_v'bbb'xov,[0;3;4])] [1;3;2;4]));
  (*118*) Assign (T 64) (Plain (Einsum [(n_v'baa'xoo,[0;1;2]); (n_v'bbb'xoo,[0;3;4])] [1;2;3;4]));
  (*119*) Assign (T 19) (Plain (Copy (T 17)));
  (*120*) AddTo (T 19) (Times (Copy (T 18)) (1) 2);
  (*121*) Assign (T 70) (Plain (Einsum [(n_v'bbb'xov,[0;1;2]); (T 56,[0;3;4])] [3;1;4;2]));
  (*122*) Del (T 56);
  (*123*) Assign (T 53) (Plain (Einsum [(n_v'baa'xoo,[0;1;2]); (n_v'baa'xoo,[0;3;4])] [1;3;4;2]));
  (*124*) Assign (T 33) (Plain (Copy n_v'baa'xov));
  (*125*) AddTo (T 33) (Plain (Copy (T 2)));
  (*126*) Assign (T 50) (Plain (Einsum [(n_t2'aaaa,[0;1;2;3]); (T 38,[4;5;3;2])] [0;1;5;4]));
  (*127*) Assign (T 3) (Plain (Einsum [(n_v'baa'xov,[0;1;2]); (n_v'baa'xoo,[0;3;4])] [3;4;1;2]));
  (*128*) Assign (T 41) (Plain (Transpose (T 37) [1;0;3;2]));
  (*129*) AddTo (T 41) (Times (Copy (T 40)) (-2) 1);
  (*130*) Del (T 40);
  (*131*) Assign (T 45) (Plain (Einsum [(T 44,[0;1;2;3]); (n_t2'abab,[4;0;5;3])] [4;1;5;2]));
  (*132*) Del (T 44);
  (*133*) Assign (T 22) (Times (Einsum [(T 21,[0;1;2]); (n_v'baa'xov,[0;3;2])] [3;1]) (1) 2);
  (*134*) Assign (T 9) (Plain (Einsum [(T 8,[0]); (n_v'bbb'xov,[0;1;2])] [1;2]));
  (*135*) Assign (T 5) (Plain (Einsum [(T 4,[0;1;2]); (n_v'bbb'xov,[0;1;3])] [2;3]));
  (*136*) Assign (T 12) (Plain (Einsum [(n_v'baa'xov,[0;1;2]); (T 11,[0;1;3])] [3;2]));
  (*137*) Assign (T 13) (Plain (Einsum [(T 8,[0]); (n_v'baa'xov,[0;1;2])] [1;2]));
  (*138*) Del (T 8);
  (*139*) Assign (T 94) (Plain (Einsum [(n_v'bbb'xov,[0;1;2]); (T 67,[0;3;4])] [1;3;2;4]));
  (*140*) Assign (T 82) (Plain (Einsum [(n_t2'bbbb,[0;1;2;3]); (T 81,[4;1;5;3])] [0;4;2;5]));
  (*141*) Del (T 81);
  (*142*) Assign (T 78) (Plain (Einsum [(T 29,[0;1;2]); (T 28,[0;3;4])] [3;1;4;2]));
  (*143*) Assign (T 90) (Plain (Einsum [(n_f'bb'oo,[0;1]); (n_t2'bbbb,[2;1;3;4])] [0;2;3;4]));
  (*144*) Assign (T 89) (Plain (Einsum [(n_v'bbb'xvv,[0;1;2]); (n_v'bbb'xvv,[0;3;4])] [1;3;4;2]));
  (*145*) Assign (T 88) (Times (Einsum [(T 87,[0;1;2;3]); (n_t2'bbbb,[2;3;4;5])] [1;0;4;5]) (-1) 1);
  (*146*) Del (T 87);
  (*147*) Assign (T 84) (Plain (Einsum [(T 83,[0;1;2;3]); (n_t2'abab,[0;4;2;5])] [4;1;5;3]));
  (*148*) Del (T 83);
  (*149*) Assign (T 76) (Plain (Einsum [(T 60,[0;1;2]); (n_v'bbb'xov,[0;3;4])] [3;1;4;2]));
  (*150*) Assign (T 95) (Times (Copy n_f'bb'vv) (-1) 2);
  (*151*) AddTo (T 95) (Plain (Transpose (T 93) [1;0]));
  (*152*) Assign (T 86) (Plain (Einsum [(T 23,[0;1;2]); (n_v'bbb'xov,[0;3;4])] [1;3;4;2]));
  (*153*) Assign (T 85) (Plain (Einsum [(n_t2'bbbb,[0;1;2;3]); (T 72,[4;1;5;3])] [0;4;2;5]));
  (*154*) Assign (T 92) (Plain (Einsum [(T 91,[0;1;2;3]); (n_t2'bbbb,[1;3;4;5])] [2;0;4;5]));
  (*155*) Del (T 91);
  (*156*) Assign (T 77) (Plain (Einsum [(n_t1'bb,[0;1]); (T 24,[2;0;3;4])] [2;3;1;4]));
  (*157*) Assign (T 96) (Times (Einsum [(T 32,[0;1]); (n_t2'bbbb,[2;0;3;4])] [2;1;3;4]) (-1) 1);
  (*158*) Assign (T 74) (Plain (Einsum [(n_v'bbb'xvv,[0;1;2]); (n_v'baa'xvv,[0;3;4])] [3;4;1;2]));
  (*159*) Assign (T 69) (Plain (Transpose (T 37) [1;0;3;2]));
  (*160*) AddTo (T 69) (Times (Einsum [(n_t2'aaaa,[0;1;2;3]); (T 38,[1;4;5;3])] [4;0;5;2]) (2) 1);
  (*161*) Del (T 38);
  (*162*) AddTo (T 69) (Times (Copy (T 57)) (-1) 1);
  (*163*) Assign (T 73) (Plain (Einsum [(n_t2'abab,[0;1;2;3]); (T 61,[4;5;2;3])] [0;4;1;5]));
  (*164*) Assign (T 65) (Plain (Einsum [(n_t2'abab,[0;1;2;3]); (T 64,[4;0;5;1])] [4;5;2;3]));
  (*165*) Del (T 64);
  (*166*) Assign (T 62) (Plain (Einsum [(n_v'bbb'xoo,[0;1;2]); (n_v'baa'xvv,[0;3;4])] [1;2;3;4]));
  (*167*) AddTo (T 62) (Times (Einsum [(n_t2'abab,[0;1;2;3]); (T 61,[0;4;5;3])] [4;1;5;2]) (-1) 1);
  (*168*) Del (T 61);
  (*169*) Assign (T 66) (Times (Einsum [(T 31,[0;1;2]); (n_v'bbb'xov,[0;1;3])] [2;3]) (2) 1);
  (*170*) Assign (T 68) (Times (Copy n_f'aa'vv) (-1) 1);
  (*171*) AddTo (T 68) (Times (Einsum [(n_v'baa'xov,[0;1;2]); (T 19,[0;1;3])] [2;3]) (2) 1);
  (*172*) Assign (T 63) (Plain (Einsum [(n_v'bbb'xvv,[0;1;2]); (n_v'baa'xoo,[0;3;4])] [3;4;1;2]));
  (*173*) Assign (T 25) (Plain (Einsum [(n_v'baa'xov,[0;1;2]); (n_v'bbb'xoo,[0;3;4])] [1;3;4;2]));
  (*174*) Assign (T 71) (Times (Einsum [(T 43,[0;1;2;3]); (n_t2'abab,[4;0;5;3])] [4;1;5;2]) (-1) 1);
  (*175*) Del (T 43);
  (*176*) AddTo (T 71) (Plain (Copy (T 70)));
  (*177*) Assign (T 1) (Plain (Einsum [(n_v'bbb'xov,[0;1;2]); (n_v'baa'xoo,[0;3;4])] [3;4;1;2]));
  (*178*) Assign (T 75) (Plain (Einsum [(n_v'bbb'xov,[0;1;2]); (T 31,[0;3;2])] [3;1]));
  (*179*) Del (T 31);
  (*180*) Assign (T 54) (Plain (Einsum [(T 53,[0;1;2;3]); (n_t2'aaaa,[1;3;4;5])] [2;0;4;5]));
  (*181*) Del (T 53);
  (*182*) Assign (T 55) (Plain (Einsum [(n_v'baa'xov,[0;1;2]); (T 21,[0;1;3])] [3;2]));
  (*183*) Assign (T 48) (Plain (Einsum [(T 2,[0;1;2]); (n_v'baa'xov,[0;3;4])] [1;3;4;2]));
  (*184*) Assign (T 34) (Plain (Einsum [(n_v'baa'xov,[0;1;2]); (T 33,[0;3;4])] [1;3;2;4]));
  (*185*) Del (T 33);
  (*186*) Assign (T 51) (Times (Einsum [(T 50,[0;1;2;3]); (n_t2'aaaa,[2;3;4;5])] [1;0;4;5]) (-1) 1);
  (*187*) Del (T 50);
  (*188*) Assign (T 35) (Plain (Einsum [(n_t1'aa,[0;1]); (T 3,[2;0;3;4])] [2;3;1;4]));
  (*189*) Assign (T 49) (Plain (Einsum [(n_v'baa'xvv,[0;1;2]); (n_v'baa'xvv,[0;3;4])] [1;3;4;2]));
  (*190*) Assign (T 42) (Plain (Einsum [(n_t2'aaaa,[0;1;2;3]); (T 41,[4;1;5;3])] [0;4;2;5]));
  (*191*) Del (T 41);
  (*192*) Assign (T 52) (Plain (Einsum [(n_f'aa'oo,[0;1]); (n_t2'aaaa,[2;1;3;4])] [0;2;3;4]));
  (*193*) Assign (T 47) (Plain (Einsum [(n_t2'aaaa,[0;1;2;3]); (T 37,[4;1;5;3])] [0;4;2;5]));
  (*194*) Del (T 37);
  (*195*) Assign (T 36) (Plain (Einsum [(T 18,[0;1;2]); (T 17,[0;3;4])] [3;1;4;2]));
  (*196*) Del (T 17);
  (*196*) Del (T 18);
  (*197*) Assign (T 46) (Times (Einsum [(n_t2'abab,[0;1;2;3]); (T 45,[4;1;5;3])] [0;4;2;5]) (-1) 1);
  (*198*) Del (T 45);
  (*199*) Assign (T 59) (Times (Einsum [(T 22,[0;1]); (n_t2'aaaa,[2;0;3;4])] [2;1;3;4]) (-2) 1);
  (*200*) Assign (T 58) (Times (Copy n_f'aa'vv) (-1) 2);
  (*201*) AddTo (T 58) (Times (Einsum [(n_v'baa'xov,[0;1;2]); (T 21,[0;1;3])] [3;2]) (1) 2);
  (*202*) Del (T 21);
  (*203*) Assign (T 10) (Plain (Copy n_f'bb'ov));
  (*204*) AddTo (T 10) (Times (Copy (T 5)) (-1) 1);
  (*205*) Del (T 5);
  (*206*) AddTo (T 10) (Plain (Copy (T 9)));
  (*207*) Del (T 9);
  (*208*) Assign (T 27) (Plain (Einsum [(n_v'baa'xov,[0;1;2]); (T 4,[0;3;4])] [1;3;4;2]));
  (*209*) Assign (T 30) (Plain (Copy (T 28)));
  (*210*) Del (T 28);
  (*211*) AddTo (T 30) (Times (Copy (T 29)) (2) 1);
  (*212*) Del (T 29);
  (*213*) Assign (T 14) (Plain (Copy n_f'aa'ov));
  (*214*) AddTo (T 14) (Times (Copy (T 12)) (-1) 1);
  (*215*) Del (T 12);
  (*216*) AddTo (T 14) (Plain (Copy (T 13)));
  (*217*) Del (T 13);
  (*218*) Assign (T 20) (Plain (Copy (T 6)));
  (*219*) Del (T 6);
  (*220*) AddTo (T 20) (Plain (Copy (T 7)));
  (*221*) Del (T 7);
  (*222*) Assign (T 26) (Plain (Einsum [(n_v'bbb'xov,[0;1;2]); (T 4,[0;3;4])] [3;1;4;2]));
  (*223*) Del (T 4);
  (*224*) Assign (T 16) (Plain (Einsum [(T 11,[0;1;2]); (n_v'baa'xov,[0;3;4])] [1;3;2;4]));
  (*225*) Assign (T 15) (Plain (Einsum [(T 11,[0;1;2]); (n_v'bbb'xov,[0;3;4])] [1;2;3;4]));
  (*226*) Del (T 11);
  (*227*) Assign n_t2new'bbbb (Plain (Copy (T 76)));
  (*228*) AddTo n_t2new'bbbb (Times (Transpose (T 76) [1;0;2;3]) (-1) 1);
  (*229*) Del (T 76);
  (*230*) AddTo n_t2new'bbbb (Plain (Transpose (T 77) [0;1;3;2]));
  (*231*) AddTo n_t2new'bbbb (Times (Copy (T 78)) (2) 1);
  (*232*) AddTo n_t2new'bbbb (Times (Transpose (T 78) [1;0;3;2]) (2) 1);
  (*233*) AddTo n_t2new'bbbb (Times (Transpose (T 82) [1;0;3;2]) (-2) 1);
  (*234*) AddTo n_t2new'bbbb (Plain (Transpose (T 84) [1;0;3;2]));
  (*235*) AddTo n_t2new'bbbb (Times (Transpose (T 77) [1;0;3;2]) (-1) 1);
  (*236*) AddTo n_t2new'bbbb (Times (Transpose (T 78) [0;1;3;2]) (-2) 1);
  (*237*) AddTo n_t2new'bbbb (Times (Transpose (T 78) [1;0;2;3]) (-2) 1);
  (*238*) Del (T 78);
  (*239*) AddTo n_t2new'bbbb (Times (Transpose (T 82) [0;1;3;2]) (2) 1);
  (*240*) Del (T 82);
  (*241*) AddTo n_t2new'bbbb (Times (Transpose (T 84) [1;0;2;3]) (-1) 1);
  (*242*) Del (T 84);
  (*243*) AddTo n_t2new'bbbb (Times (Transpose (T 85) [1;0;2;3]) (2) 1);
  (*244*) AddTo n_t2new'bbbb (Times (Copy (T 77)) (-1) 1);
  (*245*) AddTo n_t2new'bbbb (Times (Copy (T 85)) (-2) 1);
  (*246*) Del (T 85);
  (*247*) AddTo n_t2new'bbbb (Plain (Transpose (T 77) [1;0;2;3]));
  (*248*) Del (T 77);
  (*249*) AddTo n_t2new'bbbb (Plain (Transpose (T 86) [0;1;3;2]));
  (*250*) AddTo n_t2new'bbbb (Times (Copy (T 88)) (2) 1);
  (*251*) Del (T 88);
  (*252*) AddTo n_t2new'bbbb (Times (Transpose (T 86) [1;0;3;2]) (-1) 1);
  (*253*) Del (T 86);
  (*254*) AddTo n_t2new'bbbb (Times (Einsum [(T 89,[0;1;2;3]); (n_t2'bbbb,[4;5;1;3])] [4;5;0;2]) (-2) 1);
  (*255*) Del (T 89);
  (*256*) AddTo n_t2new'bbbb (Times (Transpose (T 90) [1;0;3;2]) (2) 1);
  (*257*) AddTo n_t2new'bbbb (Times (Transpose (T 92) [0;1;3;2]) (-2) 1);
  (*258*) Del (T 92);
  (*259*) AddTo n_t2new'bbbb (Times (Transpose (T 90) [0;1;3;2]) (-2) 1);
  (*260*) Del (T 90);
  (*261*) AddTo n_t2new'bbbb (Times (Einsum [(n_t2'bbbb,[0;1;2;3]); (T 93,[3;4])] [0;1;2;4]) (-4) 1);
  (*262*) Del (T 93);
  (*263*) AddTo n_t2new'bbbb (Plain (Copy (T 94)));
  (*264*) AddTo n_t2new'bbbb (Times (Einsum [(n_t2'bbbb,[0;1;2;3]); (T 95,[4;3])] [0;1;4;2]) (4) 1);
  (*265*) Del (T 95);
  (*266*) AddTo n_t2new'bbbb (Times (Einsum [(n_t2'bbbb,[0;1;2;3]); (n_f'bb'vv,[4;3])] [0;1;2;4]) (2) 1);
  (*267*) AddTo n_t2new'bbbb (Times (Transpose (T 94) [0;1;3;2]) (-1) 1);
  (*268*) AddTo n_t2new'bbbb (Times (Transpose (T 94) [1;0;2;3]) (-1) 1);
  (*269*) AddTo n_t2new'bbbb (Plain (Transpose (T 94) [1;0;3;2]));
  (*270*) Del (T 94);
  (*271*) AddTo n_t2new'bbbb (Times (Transpose (T 96) [0;1;3;2]) (-2) 1);
  (*272*) AddTo n_t2new'bbbb (Times (Transpose (T 96) [1;0;3;2]) (2) 1);
  (*273*) Del (T 96);
  (*274*) Assign n_t2new'abab (Plain (Einsum [(n_v'baa'xov,[0;1;2]); (T 60,[0;3;4])] [1;3;2;4]));
  (*275*) Del (T 60);
  (*276*) AddTo n_t2new'abab (Times (Einsum [(n_t1'bb,[0;1]); (T 25,[2;3;0;4])] [2;3;4;1]) (-1) 1);
  (*277*) AddTo n_t2new'abab (Times (Einsum [(T 62,[0;1;2;3]); (n_t2'abab,[4;0;2;5])] [4;1;3;5]) (-1) 1);
  (*278*) Del (T 62);
  (*279*) AddTo n_t2new'abab (Times (Einsum [(n_t1'aa,[0;1]); (T 1,[2;0;3;4])] [2;3;1;4]) (-1) 1);
  (*280*) AddTo n_t2new'abab (Times (Einsum [(T 63,[0;1;2;3]); (n_t2'abab,[1;4;5;3])] [0;4;5;2]) (-1) 1);
  (*281*) Del (T 63);
  (*282*) AddTo n_t2new'abab (Plain (Einsum [(T 2,[0;1;2]); (n_v'bbb'xov,[0;3;4])] [1;3;2;4]));
  (*283*) AddTo n_t2new'abab (Plain (Copy (T 65)));
  (*284*) Del (T 65);
  (*285*) AddTo n_t2new'abab (Times (Einsum [(n_f'bb'oo,[0;1]); (n_t2'abab,[2;1;3;4])] [2;0;3;4]) (-1) 1);
  (*286*) AddTo n_t2new'abab (Times (Einsum [(n_f'aa'oo,[0;1]); (n_t2'abab,[1;2;3;4])] [0;2;3;4]) (-1) 1);
  (*287*) AddTo n_t2new'abab (Times (Einsum [(n_t2'abab,[0;1;2;3]); (T 66,[4;3])] [0;1;2;4]) (-1) 1);
  (*288*) Del (T 66);
  (*289*) AddTo n_t2new'abab (Plain (Einsum [(n_v'baa'xov,[0;1;2]); (T 67,[0;3;4])] [1;3;2;4]));
  (*290*) Del (T 67);
  (*291*) AddTo n_t2new'abab (Times (Einsum [(T 68,[0;1]); (n_t2'abab,[2;3;0;4])] [2;3;1;4]) (-1) 1);
  (*292*) Del (T 68);
  (*293*) AddTo n_t2new'abab (Plain (Einsum [(n_f'bb'vv,[0;1]); (n_t2'abab,[2;3;4;1])] [2;3;4;0]));
  (*294*) AddTo n_t2new'abab (Times (Einsum [(n_t2'abab,[0;1;2;3]); (T 69,[0;4;2;5])] [4;1;5;3]) (-1) 1);
  (*295*) Del (T 69);
  (*296*) AddTo n_t2new'abab (Times (Einsum [(T 71,[0;1;2;3]); (n_t2'bbbb,[4;1;5;3])] [0;4;2;5]) (2) 1);
  (*297*) Del (T 71);
  (*298*) AddTo n_t2new'abab (Plain (Copy (T 70)));
  (*299*) Del (T 70);
  (*300*) AddTo n_t2new'abab (Times (Einsum [(T 72,[0;1;2;3]); (n_t2'abab,[4;1;5;3])] [4;0;5;2]) (-1) 1);
  (*301*) Del (T 72);
  (*302*) AddTo n_t2new'abab (Plain (Einsum [(n_t2'abab,[0;1;2;3]); (T 73,[4;0;5;1])] [4;5;2;3]));
  (*303*) Del (T 73);
  (*304*) AddTo n_t2new'abab (Plain (Einsum [(T 74,[0;1;2;3]); (n_t2'abab,[4;5;1;3])] [4;5;0;2]));
  (*305*) Del (T 74);
  (*306*) AddTo n_t2new'abab (Times (Einsum [(T 75,[0;1]); (n_t2'abab,[2;1;3;4])] [2;0;3;4]) (-2) 1);
  (*307*) Del (T 75);
  (*308*) AddTo n_t2new'abab (Times (Einsum [(T 22,[0;1]); (n_t2'abab,[0;2;3;4])] [1;2;3;4]) (-2) 1);
  (*309*) Assign n_t2new'aaaa (Plain (Copy (T 34)));
  (*310*) AddTo n_t2new'aaaa (Times (Transpose (T 34) [1;0;2;3]) (-1) 1);
  (*311*) Del (T 34);
  (*312*) AddTo n_t2new'aaaa (Plain (Transpose (T 35) [0;1;3;2]));
  (*313*) AddTo n_t2new'aaaa (Times (Copy (T 36)) (2) 1);
  (*314*) AddTo n_t2new'aaaa (Times (Transpose (T 36) [1;0;3;2]) (2) 1);
  (*315*) AddTo n_t2new'aaaa (Times (Transpose (T 42) [1;0;3;2]) (-2) 1);
  (*316*) AddTo n_t2new'aaaa (Plain (Copy (T 46)));
  (*317*) AddTo n_t2new'aaaa (Times (Transpose (T 35) [1;0;3;2]) (-1) 1);
  (*318*) AddTo n_t2new'aaaa (Times (Transpose (T 36) [0;1;3;2]) (-2) 1);
  (*319*) AddTo n_t2new'aaaa (Times (Transpose (T 36) [1;0;2;3]) (-2) 1);
  (*320*) Del (T 36);
  (*321*) AddTo n_t2new'aaaa (Times (Transpose (T 42) [0;1;3;2]) (2) 1);
  (*322*) Del (T 42);
  (*323*) AddTo n_t2new'aaaa (Times (Transpose (T 46) [1;0;2;3]) (-1) 1);
  (*324*) Del (T 46);
  (*325*) AddTo n_t2new'aaaa (Times (Copy (T 35)) (-1) 1);
  (*326*) AddTo n_t2new'aaaa (Times (Transpose (T 47) [1;0;2;3]) (2) 1);
  (*327*) AddTo n_t2new'aaaa (Plain (Transpose (T 35) [1;0;2;3]));
  (*328*) Del (T 35);
  (*329*) AddTo n_t2new'aaaa (Times (Copy (T 47)) (-2) 1);
  (*330*) Del (T 47);
  (*331*) AddTo n_t2new'aaaa (Plain (Transpose (T 48) [0;1;3;2]));
  (*332*) AddTo n_t2new'aaaa (Times (Einsum [(n_t2'aaaa,[0;1;2;3]); (T 49,[4;2;5;3])] [0;1;4;5]) (-2) 1);
  (*333*) Del (T 49);
  (*334*) AddTo n_t2new'aaaa (Times (Copy (T 51)) (2) 1);
  (*335*) Del (T 51);
  (*336*) AddTo n_t2new'aaaa (Times (Transpose (T 48) [1;0;3;2]) (-1) 1);
  (*337*) Del (T 48);
  (*338*) AddTo n_t2new'aaaa (Times (Transpose (T 52) [1;0;3;2]) (2) 1);
  (*339*) AddTo n_t2new'aaaa (Times (Transpose (T 54) [0;1;3;2]) (-2) 1);
  (*340*) Del (T 54);
  (*341*) AddTo n_t2new'aaaa (Times (Transpose (T 52) [0;1;3;2]) (-2) 1);
  (*342*) Del (T 52);
  (*343*) AddTo n_t2new'aaaa (Times (Einsum [(T 55,[0;1]); (n_t2'aaaa,[2;3;4;1])] [2;3;4;0]) (-2) 1);
  (*344*) Del (T 55);
  (*345*) AddTo n_t2new'aaaa (Plain (Copy (T 57)));
  (*346*) AddTo n_t2new'aaaa (Times (Einsum [(n_t2'aaaa,[0;1;2;3]); (T 58,[4;3])] [0;1;4;2]) (4) 1);
  (*347*) Del (T 58);
  (*348*) AddTo n_t2new'aaaa (Times (Einsum [(n_f'aa'vv,[0;1]); (n_t2'aaaa,[2;3;4;1])] [2;3;4;0]) (2) 1);
  (*349*) AddTo n_t2new'aaaa (Times (Transpose (T 57) [0;1;3;2]) (-1) 1);
  (*350*) AddTo n_t2new'aaaa (Times (Transpose (T 57) [1;0;2;3]) (-1) 1);
  (*351*) AddTo n_t2new'aaaa (Plain (Transpose (T 57) [1;0;3;2]));
  (*352*) Del (T 57);
  (*353*) AddTo n_t2new'aaaa (Times (Transpose (T 59) [0;1;3;2]) (-2) 1);
  (*354*) AddTo n_t2new'aaaa (Times (Transpose (T 59) [1;0;3;2]) (2) 1);
  (*355*) Del (T 59);
  (*356*) Assign n_t1new'bb (Times (Einsum [(T 23,[0;1;2]); (n_v'bbb'xoo,[0;3;1])] [3;2]) (-1) 1);
  (*357*) Del (T 23);
  (*358*) AddTo n_t1new'bb (Times (Einsum [(n_t2'bbbb,[0;1;2;3]); (T 24,[4;0;1;3])] [4;2]) (-2) 1);
  (*359*) Del (T 24);
  (*360*) AddTo n_t1new'bb (Times (Einsum [(n_t2'abab,[0;1;2;3]); (T 25,[0;4;1;2])] [4;3]) (-1) 1);
  (*361*) Del (T 25);
  (*362*) AddTo n_t1new'bb (Times (Einsum [(n_f'bb'oo,[0;1]); (n_t1'bb,[1;2])] [0;2]) (-1) 1);
  (*363*) AddTo n_t1new'bb (Times (Einsum [(T 10,[0;1]); (n_t2'bbbb,[2;0;3;1])] [2;3]) (2) 1);
  (*364*) AddTo n_t1new'bb (Plain (Einsum [(T 14,[0;1]); (n_t2'abab,[0;2;1;3])] [2;3]));
  (*365*) AddTo n_t1new'bb (Times (Einsum [(T 26,[0;1;2;3]); (n_t2'bbbb,[2;1;4;3])] [0;4]) (-2) 1);
  (*366*) Del (T 26);
  (*367*) AddTo n_t1new'bb (Times (Einsum [(T 27,[0;1;2;3]); (n_t2'abab,[0;2;3;4])] [1;4]) (-1) 1);
  (*368*) Del (T 27);
  (*369*) AddTo n_t1new'bb (Plain (Einsum [(n_t1'bb,[0;1]); (n_f'bb'vv,[2;1])] [0;2]));
  (*370*) AddTo n_t1new'bb (Plain (Einsum [(n_v'bbb'xvv,[0;1;2]); (T 30,[0;3;2])] [3;1]));
  (*371*) Del (T 30);
  (*372*) AddTo n_t1new'bb (Plain (Einsum [(n_v'bbb'xov,[0;1;2]); (T 20,[0])] [1;2]));
  (*373*) AddTo n_t1new'bb (Times (Einsum [(T 32,[0;1]); (n_t1'bb,[0;2])] [1;2]) (-1) 1);
  (*374*) Del (T 32);
  (*375*) Assign n_t1new'aa (Times (Einsum [(n_t2'abab,[0;1;2;3]); (T 1,[4;0;1;3])] [4;2]) (-1) 1);
  (*376*) Del (T 1);
  (*377*) AddTo n_t1new'aa (Times (Einsum [(n_f'aa'oo,[0;1]); (n_t1'aa,[1;2])] [0;2]) (-1) 1);
  (*378*) AddTo n_t1new'aa (Times (Einsum [(T 2,[0;1;2]); (n_v'baa'xoo,[0;3;1])] [3;2]) (-1) 1);
  (*379*) Del (T 2);
  (*380*) AddTo n_t1new'aa (Times (Einsum [(T 3,[0;1;2;3]); (n_t2'aaaa,[1;2;4;3])] [0;4]) (-2) 1);
  (*381*) Del (T 3);
  (*382*) AddTo n_t1new'aa (Plain (Einsum [(T 10,[0;1]); (n_t2'abab,[2;0;3;1])] [2;3]));
  (*383*) Del (T 10);
  (*384*) AddTo n_t1new'aa (Times (Einsum [(T 14,[0;1]); (n_t2'aaaa,[2;0;3;1])] [2;3]) (2) 1);
  (*385*) Del (T 14);
  (*386*) AddTo n_t1new'aa (Plain (Einsum [(n_f'aa'vv,[0;1]); (n_t1'aa,[2;1])] [2;0]));
  (*387*) AddTo n_t1new'aa (Times (Einsum [(n_t2'abab,[0;1;2;3]); (T 15,[4;0;1;3])] [4;2]) (-1) 1);
  (*388*) Del (T 15);
  (*389*) AddTo n_t1new'aa (Times (Einsum [(n_t2'aaaa,[0;1;2;3]); (T 16,[4;1;0;3])] [4;2]) (-2) 1);
  (*390*) Del (T 16);
  (*391*) AddTo n_t1new'aa (Times (Einsum [(T 19,[0;1;2]); (n_v'baa'xvv,[0;3;2])] [1;3]) (2) 1);
  (*392*) Del (T 19);
  (*393*) AddTo n_t1new'aa (Plain (Einsum [(n_v'baa'xov,[0;1;2]); (T 20,[0])] [1;2]));
  (*394*) Del (T 20);
  (*395*) AddTo n_t1new'aa (Times (Einsum [(n_t1'aa,[0;1]); (T 22,[0;2])] [2;1]) (-2) 1);
  (*396*) Del (T 22)]
 [(n_t1new'bb,[6;7]); (n_t1new'aa,[4;5]); (n_t2new'bbbb,[6;6;7;7]); (n_t2new'abab,[4;6;5;7]); (n_t2new'aaaa,[4;4;5;5])].

