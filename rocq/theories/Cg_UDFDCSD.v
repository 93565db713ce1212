(** Generated by tools/translate_codegen.py from ebcc/codegen/UDFDCSD.py; one statement per source line
    (the number in the comment before it). *)
From Coq Require Import ZArith List.
From Verif Require Import CgModel CgNames.
Import ListNotations.

(** ebcc/codegen/UDFDCSD.py:19-67 [energy] *)
Definition UDFDCSD_energy : prog := mkprog
 [(n_v'baa'xov,[2;4;5]); (n_t1'aa,[4;5]); (n_v'bbb'xov,[2;6;7]); (n_t1'bb,[6;7]); (n_t2'aaaa,[4;4;5;5]); (n_f'aa'ov,[4;5]); (n_t2'abab,[4;6;5;7]); (n_t2'bbbb,[6;6;7;7]); (n_f'bb'ov,[6;7])]
 [(*40*) Assign (T 1) (Plain (Einsum [(n_v'baa'xov,[0;1;2]); (n_t1'aa,[1;2])] [0]));
  (*41*) Assign (T 6) (Plain (Einsum [(n_t1'aa,[0;1]); (n_v'baa'xov,[2;3;1])] [2;0;3]));
  (*42*) Assign (T 2) (Times (Copy (T 1)) (2) 1);
  (*43*) AddTo (T 2) (Plain (Einsum [(n_v'bbb'xov,[0;1;2]); (n_t1'bb,[1;2])] [0]));
  (*44*) Assign (T 4) (Plain (Einsum [(n_v'bbb'xov,[0;1;2]); (n_t1'bb,[3;2])] [0;3;1]));
  (*45*) Assign (T 8) (Plain (Einsum [(n_v'baa'xov,[0;1;2]); (n_t2'aaaa,[3;1;4;2])] [0;3;4]));
  (*46*) AddTo (T 8) (Times (Einsum [(T 1,[0]); (n_t1'aa,[1;2])] [0;1;2]) (1) 2);
  (*47*) Del (T 1);
  (*48*) Assign (T 7) (Plain (Copy n_f'aa'ov));
  (*49*) AddTo (T 7) (Times (Einsum [(n_v'baa'xov,[0;1;2]); (T 6,[0;1;3])] [3;2]) (-1) 2);
  (*50*) Del (T 6);
  (*51*) Assign (T 3) (Plain (Einsum [(n_v'baa'xov,[0;1;2]); (n_t2'abab,[1;3;2;4])] [0;3;4]));
  (*52*) AddTo (T 3) (Plain (Einsum [(n_t2'bbbb,[0;1;2;3]); (n_v'bbb'xov,[4;1;3])] [4;0;2]));
  (*53*) AddTo (T 3) (Times (Einsum [(T 2,[0]); (n_t1'bb,[1;2])] [0;1;2]) (1) 2);
  (*54*) Del (T 2);
  (*55*) Assign (T 5) (Plain (Copy n_f'bb'ov));
  (*56*) AddTo (T 5) (Times (Einsum [(T 4,[0;1;2]); (n_v'bbb'xov,[0;1;3])] [2;3]) (-1) 2);
  (*57*) Del (T 4);
  (*58*) Assign n_e_cc (Plain (Einsum [(T 3,[0;1;2]); (n_v'bbb'xov,[0;1;2])] []));
  (*59*) Del (T 3);
  (*60*) AddTo n_e_cc (Plain (Einsum [(n_t1'bb,[0;1]); (T 5,[0;1])] []));
  (*61*) Del (T 5);
  (*62*) AddTo n_e_cc (Plain (Einsum [(T 7,[0;1]); (n_t1'aa,[0;1])] []));
  (*63*) Del (T 7);
  (*64*) AddTo n_e_cc (Plain (Einsum [(n_v'baa'xov,[0;1;2]); (T 8,[0;1;2])] []));
  (*65*) Del (T 8)]
 [(n_e_cc,[])].

(** ebcc/codegen/UDFDCSD.py:69-781 [update_amps] *)
Definition UDFDCSD_update_amps : prog := mkprog
 [(n_v'baa'xov,[2;4;5]); (n_t1'aa,[4;5]); (n_v'bbb'xov,[2;6;7]); (n_t1'bb,[6;7]); (n_v'bbb'xoo,[2;6;6]); (n_t2'bbbb,[6;6;7;7]); (n_t2'abab,[4;6;5;7]); (n_v'bbb'xvv,[2;7;7]); (n_v'baa'xvv,[2;5;5]); (n_t2'aaaa,[4;4;5;5]); (n_v'baa'xoo,[2;4;4]); (n_f'bb'ov,[6;7]); (n_f'aa'ov,[4;5]); (n_f'bb'oo,[6;6]); (n_f'bb'vv,[7;7]); (n_f'aa'vv,[5;5]); (n_f'aa'oo,[4;4])]
 [(*94*) Assign (T 6) (Plain (Einsum [(n_v'baa'xov,[0;1;2]); (n_t1'aa,[1;2])] [0]));
  (*95*) Assign (T 7) (Plain (Einsum [(n_v'bbb'xov,[0;1;2]); (n_t1'bb,[1;2])] [0]));
  (*96*) Assign (T 20) (Plain (Einsum [(n_v'bbb'xov,[0;1;2]); (n_t1'bb,[3;2])] [0;3;1]));
  (*97*) Assign (T 1) (Plain (Einsum [(n_t1'aa,[0;1]); (n_v'baa'xov,[2;3;1])] [2;0;3]));
  (*98*) Assign (T 108) (Plain (Einsum [(n_t1'bb,[0;1]); (n_v'bbb'xoo,[2;3;0])] [2;3;1]));
  (*99*) Assign (T 34) (Plain (Einsum [(n_t2'bbbb,[0;1;2;3]); (n_v'bbb'xov,[4;1;3])] [4;0;2]));
  (*100*) Assign (T 30) (Plain (Einsum [(n_v'baa'xov,[0;1;2]); (n_t2'abab,[1;3;2;4])] [0;3;4]));
  (*101*) Assign (T 10) (Plain (Copy (T 6)));
  (*102*) AddTo (T 10) (Plain (Copy (T 7)));
  (*103*) Assign (T 131) (Plain (Einsum [(n_t1'bb,[0;1]); (n_v'bbb'xov,[2;0;3])] [2;1;3]));
  (*104*) Assign (T 39) (Plain (Einsum [(n_v'bbb'xvv,[0;1;2]); (n_t1'bb,[3;2])] [0;3;1]));
  (*105*) Assign (T 127) (Plain (Einsum [(n_t1'bb,[0;1]); (T 20,[2;3;0])] [2;3;1]));
  (*106*) Assign (T 21) (Plain (Einsum [(T 20,[0;1;2]); (n_v'bbb'xov,[0;1;3])] [2;3]));
  (*107*) Assign (T 8) (Plain (Copy (T 6)));
  (*108*) Del (T 6);
  (*109*) AddTo (T 8) (Plain (Copy (T 7)));
  (*110*) Del (T 7);
  (*111*) Assign (T 4) (Plain (Einsum [(n_v'bbb'xov,[0;1;2]); (n_t2'abab,[3;1;4;2])] [0;3;4]));
  (*112*) Assign (T 19) (Plain (Einsum [(n_v'baa'xvv,[0;1;2]); (n_t1'aa,[3;2])] [0;3;1]));
  (*113*) Assign (T 12) (Plain (Einsum [(n_v'baa'xov,[0;1;2]); (n_t2'aaaa,[3;1;4;2])] [0;3;4]));
  (*114*) Assign (T 14) (Plain (Einsum [(n_v'baa'xov,[0;1;2]); (T 1,[0;1;3])] [3;2]));
  (*115*) Assign (T 72) (Plain (Einsum [(n_v'baa'xov,[0;1;2]); (n_t1'aa,[1;3])] [0;3;2]));
  (*116*) Assign (T 70) (Plain (Einsum [(T 1,[0;1;2]); (n_t1'aa,[2;3])] [0;1;3]));
  (*117*) Assign (T 43) (Plain (Einsum [(n_t1'aa,[0;1]); (n_v'baa'xoo,[2;3;0])] [2;3;1]));
  (*118*) Assign (T 109) (Times (Copy (T 108)) (-1) 1);
  (*119*) AddTo (T 109) (Times (Copy (T 30)) (1) 2);
  (*120*) AddTo (T 109) (Plain (Copy (T 34)));
  (*121*) Assign (T 33) (Plain (Einsum [(n_v'bbb'xov,[0;1;2]); (T 10,[0])] [1;2]));
  (*122*) Assign (T 169) (Plain (Copy n_v'bbb'xvv));
  (*123*) AddTo (T 169) (Times (Transpose (T 131) [0;2;1]) (-1) 1);
  (*124*) Assign (T 181) (Plain (Copy (T 108)));
  (*125*) AddTo (T 181) (Times (Copy (T 34)) (-1) 1);
  (*126*) Assign (T 174) (Plain (Copy n_v'bbb'xvv));
  (*127*) AddTo (T 174) (Times (Transpose (T 131) [0;2;1]) (-1) 1);
  (*128*) Assign (T 144) (Plain (Copy (T 39)));
  (*129*) AddTo (T 144) (Times (Copy (T 127)) (-1) 1);
  (*130*) Assign (T 36) (Plain (Copy n_f'bb'ov));
  (*131*) AddTo (T 36) (Times (Copy (T 21)) (-1) 1);
  (*132*) Assign (T 115) (Plain (Copy (T 39)));
  (*133*) AddTo (T 115) (Times (Copy (T 30)) (1) 2);
  (*134*) AddTo (T 115) (Plain (Copy (T 34)));
  (*135*) AddTo (T 115) (Plain (Einsum [(T 8,[0]); (n_t1'bb,[1;2])] [0;1;2]));
  (*136*) Assign (T 52) (Plain (Copy (T 19)));
  (*137*) AddTo (T 52) (Plain (Copy (T 12)));
  (*138*) AddTo (T 52) (Times (Copy (T 4)) (1) 2);
  (*139*) AddTo (T 52) (Plain (Einsum [(T 8,[0]); (n_t1'aa,[1;2])] [0;1;2]));
  (*140*) Assign (T 15) (Plain (Copy n_f'aa'ov));
  (*141*) AddTo (T 15) (Times (Copy (T 14)) (-1) 1);
  (*142*) Assign (T 11) (Plain (Einsum [(n_v'baa'xov,[0;1;2]); (T 10,[0])] [1;2]));
  (*143*) Del (T 10);
  (*144*) Assign (T 81) (Plain (Copy n_v'baa'xvv));
  (*145*) AddTo (T 81) (Times (Transpose (T 72) [0;2;1]) (-1) 1);
  (*146*) Assign (T 79) (Plain (Copy (T 19)));
  (*147*) AddTo (T 79) (Times (Copy (T 70)) (-1) 1);
  (*148*) Assign (T 73) (Plain (Copy n_v'baa'xvv));
  (*149*) AddTo (T 73) (Times (Transpose (T 72) [0;2;1]) (-1) 1);
  (*150*) Assign (T 88) (Plain (Copy (T 43)));
  (*151*) AddTo (T 88) (Times (Copy (T 12)) (-1) 1);
  (*152*) Assign (T 44) (Times (Copy (T 43)) (-1) 1);
  (*153*) AddTo (T 44) (Plain (Copy (T 12)));
  (*154*) AddTo (T 44) (Times (Copy (T 4)) (1) 2);
  (*155*) Assign (T 110) (Plain (Einsum [(n_v'bbb'xov,[0;1;2]); (T 109,[0;3;2])] [1;3]));
  (*156*) Assign (T 41) (Plain (Einsum [(T 8,[0]); (n_v'bbb'xoo,[0;1;2])] [1;2]));
  (*157*) Assign (T 165) (Plain (Copy n_f'bb'ov));
  (*158*) AddTo (T 165) (Times (Copy (T 21)) (-1) 1);
  (*159*) AddTo (T 165) (Plain (Copy (T 33)));
  (*160*) Assign (T 183) (Plain (Einsum [(T 169,[0;1;2]); (n_v'bbb'xoo,[0;3;4])] [3;4;1;2]));
  (*161*) Assign (T 182) (Plain (Einsum [(T 181,[0;1;2]); (n_v'bbb'xov,[0;3;4])] [1;3;2;4]));
  (*162*) Del (T 181);
  (*163*) Assign (T 175) (Plain (Einsum [(T 174,[0;1;2]); (T 20,[0;3;4])] [3;4;1;2]));
  (*164*) Del (T 174);
  (*165*) Assign (T 145) (Plain (Einsum [(n_v'bbb'xov,[0;1;2]); (T 144,[0;3;4])] [1;3;2;4]));
  (*166*) Assign (T 190) (Plain (Einsum [(T 20,[0;1;2]); (T 20,[0;3;4])] [1;3;2;4]));
  (*167*) Assign (T 161) (Plain (Einsum [(T 20,[0;1;2]); (n_v'bbb'xoo,[0;3;4])] [1;3;4;2]));
  (*168*) Assign (T 117) (Plain (Einsum [(n_v'bbb'xvv,[0;1;2]); (T 8,[0])] [1;2]));
  (*169*) Assign (T 118) (Plain (Einsum [(n_t1'bb,[0;1]); (T 36,[0;2])] [1;2]));
  (*170*) Assign (T 116) (Plain (Einsum [(n_v'bbb'xov,[0;1;2]); (T 115,[0;1;3])] [2;3]));
  (*171*) Del (T 115);
  (*172*) Assign (T 22) (Plain (Einsum [(n_v'bbb'xov,[0;1;2]); (T 8,[0])] [1;2]));
  (*173*) Assign (T 140) (Plain (Einsum [(n_v'bbb'xov,[0;1;2]); (n_v'baa'xov,[0;3;4])] [3;1;4;2]));
  (*174*) Assign (T 24) (Plain (Einsum [(T 8,[0]); (n_v'baa'xov,[0;1;2])] [1;2]));
  (*175*) Assign (T 54) (Plain (Einsum [(n_v'baa'xvv,[0;1;2]); (T 8,[0])] [1;2]));
  (*176*) Assign (T 53) (Plain (Einsum [(n_v'baa'xov,[0;1;2]); (T 52,[0;1;3])] [2;3]));
  (*177*) Del (T 52);
  (*178*) Assign (T 55) (Plain (Einsum [(T 15,[0;1]); (n_t1'aa,[0;2])] [2;1]));
  (*179*) Assign (T 96) (Plain (Einsum [(T 1,[0;1;2]); (T 1,[0;3;4])] [1;3;2;4]));
  (*180*) Assign (T 67) (Plain (Copy n_f'aa'ov));
  (*181*) AddTo (T 67) (Times (Copy (T 14)) (-1) 1);
  (*182*) AddTo (T 67) (Plain (Copy (T 11)));
  (*183*) Assign (T 62) (Plain (Einsum [(n_v'baa'xoo,[0;1;2]); (T 1,[0;3;4])] [3;1;2;4]));
  (*184*) Assign (T 82) (Plain (Einsum [(T 1,[0;1;2]); (T 81,[0;3;4])] [1;2;3;4]));
  (*185*) Del (T 81);
  (*186*) Assign (T 80) (Plain (Einsum [(n_v'baa'xov,[0;1;2]); (T 79,[0;3;4])] [1;3;2;4]));
  (*187*) Assign (T 90) (Plain (Einsum [(T 73,[0;1;2]); (n_v'baa'xoo,[0;3;4])] [3;4;1;2]));
  (*188*) Assign (T 89) (Plain (Einsum [(n_v'baa'xov,[0;1;2]); (T 88,[0;3;4])] [1;3;2;4]));
  (*189*) Del (T 88);
  (*190*) Assign (T 45) (Plain (Einsum [(n_v'baa'xov,[0;1;2]); (T 44,[0;3;2])] [1;3]));
  (*191*) Assign (T 26) (Plain (Einsum [(T 8,[0]); (n_v'baa'xoo,[0;1;2])] [1;2]));
  (*192*) Assign (T 111) (Plain (Copy n_f'bb'oo));
  (*193*) AddTo (T 111) (Plain (Copy (T 110)));
  (*194*) Del (T 110);
  (*195*) AddTo (T 111) (Plain (Transpose (T 41) [1;0]));
  (*196*) Assign (T 114) (Plain (Copy (T 30)));
  (*197*) AddTo (T 114) (Times (Copy (T 34)) (2) 1);
  (*198*) Assign (T 196) (Plain (Einsum [(T 20,[0;1;2]); (T 39,[0;3;4])] [1;3;2;4]));
  (*199*) Assign (T 186) (Times (Copy (T 108)) (2) 1);
  (*200*) AddTo (T 186) (Times (Copy (T 30)) (-1) 1);
  (*201*) Assign (T 153) (Plain (Einsum [(n_v'bbb'xoo,[0;1;2]); (n_v'bbb'xoo,[0;3;4])] [1;3;4;2]));
  (*202*) Assign (T 172) (Times (Copy (T 39)) (-1) 1);
  (*203*) AddTo (T 172) (Plain (Copy (T 127)));
  (*204*) Assign (T 168) (Plain (Copy (T 39)));
  (*205*) AddTo (T 168) (Times (Copy (T 127)) (-1) 1);
  (*206*) Assign (T 166) (Plain (Einsum [(n_t1'bb,[0;1]); (T 165,[2;1])] [2;0]));
  (*207*) Del (T 165);
  (*208*) Assign (T 184) (Times (Copy (T 182)) (-1) 1);
  (*209*) Del (T 182);
  (*210*) AddTo (T 184) (Times (Transpose (T 183) [1;0;3;2]) (-1) 1);
  (*211*) Del (T 183);
  (*212*) Assign (T 176) (Times (Transpose (T 145) [1;0;3;2]) (-1) 1);
  (*213*) AddTo (T 176) (Plain (Transpose (T 175) [0;1;3;2]));
  (*214*) Del (T 175);
  (*215*) Assign (T 198) (Plain (Einsum [(T 169,[0;1;2]); (n_v'bbb'xov,[0;3;4])] [3;2;1;4]));
  (*216*) Assign (T 193) (Plain (Einsum [(n_t1'bb,[0;1]); (T 190,[2;3;0;4])] [3;2;4;1]));
  (*217*) Assign (T 188) (Plain (Copy (T 108)));
  (*218*) Del (T 108);
  (*219*) AddTo (T 188) (Times (Copy (T 30)) (-1) 2);
  (*220*) Assign (T 163) (Plain (Einsum [(n_t1'bb,[0;1]); (T 161,[2;3;4;0])] [2;3;4;1]));
  (*221*) Assign (T 128) (Plain (Copy n_v'bbb'xov));
  (*222*) AddTo (T 128) (Plain (Copy (T 39)));
  (*223*) AddTo (T 128) (Times (Copy (T 127)) (-1) 1);
  (*224*) Assign (T 119) (Times (Copy n_f'bb'vv) (-1) 1);
  (*225*) AddTo (T 119) (Plain (Copy (T 116)));
  (*226*) Del (T 116);
  (*227*) AddTo (T 119) (Times (Transpose (T 117) [1;0]) (-1) 1);
  (*228*) Del (T 117);
  (*229*) AddTo (T 119) (Plain (Transpose (T 118) [1;0]));
  (*230*) Del (T 118);
  (*231*) Assign (T 201) (Plain (Einsum [(n_v'bbb'xvv,[0;1;2]); (n_v'bbb'xov,[0;3;4])] [3;1;2;4]));
  (*232*) Assign (T 23) (Plain (Copy n_f'bb'ov));
  (*233*) AddTo (T 23) (Times (Copy (T 21)) (-1) 1);
  (*234*) Del (T 21);
  (*235*) AddTo (T 23) (Plain (Copy (T 22)));
  (*236*) Del (T 22);
  (*237*) Assign (T 29) (Plain (Einsum [(T 20,[0;1;2]); (n_v'bbb'xov,[0;3;4])] [1;3;2;4]));
  (*238*) Assign (T 40) (Plain (Einsum [(n_v'bbb'xov,[0;1;2]); (n_v'bbb'xoo,[0;3;4])] [3;4;1;2]));
  (*239*) Assign (T 159) (Plain (Einsum [(T 39,[0;1;2]); (n_v'bbb'xoo,[0;3;4])] [1;3;4;2]));
  (*240*) Assign (T 132) (Plain (Copy n_v'bbb'xvv));
  (*241*) AddTo (T 132) (Times (Copy (T 131)) (-1) 1);
  (*242*) Assign (T 125) (Plain (Copy n_v'baa'xvv));
  (*243*) AddTo (T 125) (Times (Copy (T 72)) (-1) 1);
  (*244*) Assign (T 129) (Plain (Copy n_v'baa'xvv));
  (*245*) AddTo (T 129) (Times (Copy (T 72)) (-1) 1);
  (*246*) Del (T 72);
  (*247*) Assign (T 141) (Plain (Einsum [(n_t1'bb,[0;1]); (T 140,[2;0;3;4])] [2;3;1;4]));
  (*248*) Del (T 140);
  (*249*) Assign (T 138) (Plain (Copy n_v'bbb'xvv));
  (*250*) AddTo (T 138) (Times (Copy (T 131)) (-1) 1);
  (*251*) Del (T 131);
  (*252*) Assign (T 148) (Plain (Einsum [(n_v'bbb'xvv,[0;1;2]); (n_v'baa'xov,[0;3;4])] [3;4;1;2]));
  (*253*) Assign (T 77) (Times (Copy (T 19)) (-1) 1);
  (*254*) AddTo (T 77) (Plain (Copy (T 70)));
  (*255*) Assign (T 2) (Plain (Einsum [(T 1,[0;1;2]); (n_v'baa'xov,[0;3;4])] [1;3;2;4]));
  (*256*) Assign (T 93) (Times (Copy (T 43)) (2) 1);
  (*257*) AddTo (T 93) (Times (Copy (T 4)) (-1) 1);
  (*258*) Assign (T 25) (Plain (Copy n_f'aa'ov));
  (*259*) AddTo (T 25) (Times (Copy (T 14)) (-1) 1);
  (*260*) Del (T 14);
  (*261*) AddTo (T 25) (Plain (Copy (T 24)));
  (*262*) Del (T 24);
  (*263*) Assign (T 56) (Times (Copy n_f'aa'vv) (-1) 1);
  (*264*) AddTo (T 56) (Plain (Copy (T 53)));
  (*265*) Del (T 53);
  (*266*) AddTo (T 56) (Times (Transpose (T 54) [1;0]) (-1) 1);
  (*267*) Del (T 54);
  (*268*) AddTo (T 56) (Plain (Transpose (T 55) [1;0]));
  (*269*) Del (T 55);
  (*270*) Assign (T 98) (Plain (Einsum [(T 96,[0;1;2;3]); (n_t1'aa,[2;4])] [1;0;3;4]));
  (*271*) Assign (T 68) (Plain (Einsum [(T 67,[0;1]); (n_t1'aa,[2;1])] [2;0]));
  (*272*) Del (T 67);
  (*273*) Assign (T 71) (Plain (Copy (T 19)));
  (*274*) AddTo (T 71) (Times (Copy (T 70)) (-1) 1);
  (*275*) Assign (T 17) (Plain (Einsum [(n_v'baa'xov,[0;1;2]); (n_v'baa'xoo,[0;3;4])] [3;4;1;2]));
  (*276*) Assign (T 106) (Plain (Einsum [(n_v'baa'xvv,[0;1;2]); (n_v'baa'xov,[0;3;4])] [3;1;2;4]));
  (*277*) Assign (T 64) (Plain (Einsum [(T 62,[0;1;2;3]); (n_t1'aa,[3;4])] [0;1;2;4]));
  (*278*) Assign (T 83) (Times (Transpose (T 80) [1;0;3;2]) (-1) 1);
  (*279*) AddTo (T 83) (Plain (Transpose (T 82) [0;1;3;2]));
  (*280*) Del (T 82);
  (*281*) Assign (T 101) (Plain (Einsum [(T 1,[0;1;2]); (T 19,[0;3;4])] [1;3;2;4]));
  (*282*) Assign (T 75) (Plain (Copy n_v'baa'xov));
  (*283*) AddTo (T 75) (Plain (Copy (T 19)));
  (*284*) AddTo (T 75) (Times (Copy (T 70)) (-1) 1);
  (*285*) Del (T 70);
  (*286*) Assign (T 48) (Plain (Einsum [(n_v'baa'xoo,[0;1;2]); (n_v'baa'xoo,[0;3;4])] [1;3;4;2]));
  (*287*) Assign (T 60) (Plain (Einsum [(n_v'baa'xoo,[0;1;2]); (T 19,[0;3;4])] [3;1;2;4]));
  (*288*) Assign (T 91) (Times (Transpose (T 89) [1;0;3;2]) (-1) 1);
  (*289*) Del (T 89);
  (*290*) AddTo (T 91) (Times (Transpose (T 90) [1;0;3;2]) (-1) 1);
  (*291*) Del (T 90);
  (*292*) Assign (T 46) (Plain (Copy n_f'aa'oo));
  (*293*) AddTo (T 46) (Plain (Copy (T 45)));
  (*294*) Del (T 45);
  (*295*) AddTo (T 46) (Plain (Transpose (T 26) [1;0]));
  (*296*) Assign (T 103) (Plain (Einsum [(n_v'baa'xov,[0;1;2]); (T 73,[0;3;4])] [1;4;3;2]));
  (*297*) Assign (T 58) (Times (Copy (T 12)) (2) 1);
  (*298*) AddTo (T 58) (Plain (Copy (T 4)));
  (*299*) Assign (T 31) (Plain (Copy n_t2'bbbb));
  (*300*) AddTo (T 31) (Times (Einsum [(n_t1'bb,[0;1]); (n_t1'bb,[2;3])] [0;2;3;1]) (-1) 2);
  (*301*) Assign (T 35) (Plain (Copy (T 30)));
  (*302*) AddTo (T 35) (Times (Copy (T 34)) (2) 1);
  (*303*) AddTo (T 35) (Plain (Einsum [(T 8,[0]); (n_t1'bb,[1;2])] [0;1;2]));
  (*304*) Assign (T 5) (Plain (Copy n_t2'aaaa));
  (*305*) AddTo (T 5) (Times (Einsum [(n_t1'aa,[0;1]); (n_t1'aa,[2;3])] [2;0;1;3]) (-1) 2);
  (*306*) Assign (T 13) (Plain (Copy (T 12)));
  (*307*) AddTo (T 13) (Times (Copy (T 4)) (1) 2);
  (*308*) AddTo (T 13) (Times (Einsum [(T 8,[0]); (n_t1'aa,[1;2])] [0;1;2]) (1) 2);
  (*309*) Assign (T 152) (Times (Einsum [(T 111,[0;1]); (n_t2'bbbb,[2;0;3;4])] [2;1;3;4]) (-1) 1);
  (*310*) Assign (T 158) (Plain (Einsum [(n_v'bbb'xov,[0;1;2]); (T 114,[0;3;4])] [1;3;2;4]));
  (*311*) Assign (T 197) (Plain (Einsum [(T 196,[0;1;2;3]); (n_t1'bb,[2;4])] [0;1;4;3]));
  (*312*) Del (T 196);
  (*313*) Assign (T 187) (Times (Einsum [(T 30,[0;1;2]); (T 186,[0;3;4])] [3;1;4;2]) (1) 2);
  (*314*) Del (T 186);
  (*315*) Assign (T 155) (Plain (Einsum [(T 153,[0;1;2;3]); (n_t2'bbbb,[1;3;4;5])] [2;0;4;5]));
  (*316*) Assign (T 173) (Plain (Einsum [(T 30,[0;1;2]); (T 172,[0;3;4])] [3;1;4;2]));
  (*317*) Del (T 172);
  (*318*) Assign (T 170) (Times (Einsum [(T 168,[0;1;2]); (n_v'bbb'xov,[0;3;4])] [1;3;2;4]) (-1) 1);
  (*319*) Del (T 168);
  (*320*) AddTo (T 170) (Plain (Einsum [(T 169,[0;1;2]); (T 20,[0;3;4])] [3;4;2;1]));
  (*321*) Del (T 169);
  (*322*) Assign (T 162) (Plain (Einsum [(n_t2'bbbb,[0;1;2;3]); (T 161,[4;0;5;1])] [4;5;2;3]));
  (*323*) Del (T 161);
  (*324*) Assign (T 167) (Times (Einsum [(n_t2'bbbb,[0;1;2;3]); (T 166,[1;4])] [4;0;2;3]) (-1) 1);
  (*325*) Del (T 166);
  (*326*) Assign (T 185) (Times (Einsum [(T 184,[0;1;2;3]); (n_t2'bbbb,[4;1;5;3])] [0;4;2;5]) (2) 1);
  (*327*) Del (T 184);
  (*328*) Assign (T 195) (Plain (Einsum [(T 39,[0;1;2]); (T 39,[0;3;4])] [1;3;2;4]));
  (*329*) Assign (T 177) (Plain (Einsum [(n_t2'bbbb,[0;1;2;3]); (T 176,[4;1;5;3])] [4;0;5;2]));
  (*330*) Del (T 176);
  (*331*) Assign (T 191) (Plain (Einsum [(n_t2'bbbb,[0;1;2;3]); (T 190,[4;5;1;0])] [5;4;2;3]));
  (*332*) Del (T 190);
  (*333*) Assign (T 199) (Plain (Einsum [(n_v'bbb'xvv,[0;1;2]); (n_v'bbb'xvv,[0;3;4])] [3;1;2;4]));
  (*334*) AddTo (T 199) (Plain (Einsum [(n_t1'bb,[0;1]); (T 198,[0;2;3;4])] [4;3;1;2]));
  (*335*) Del (T 198);
  (*336*) Assign (T 194) (Plain (Einsum [(T 193,[0;1;2;3]); (n_t1'bb,[2;4])] [0;1;4;3]));
  (*337*) Del (T 193);
  (*338*) Assign (T 156) (Times (Einsum [(n_t1'bb,[0;1]); (n_t1'bb,[2;3])] [0;2;3;1]) (2) 1);
  (*339*) AddTo (T 156) (Times (Copy n_t2'bbbb) (-1) 1);
  (*340*) Assign (T 189) (Plain (Einsum [(T 30,[0;1;2]); (T 188,[0;3;4])] [3;1;4;2]));
  (*341*) Del (T 188);
  (*342*) Assign (T 192) (Plain (Einsum [(n_v'bbb'xov,[0;1;2]); (T 39,[0;3;4])] [3;1;2;4]));
  (*343*) Assign (T 164) (Plain (Einsum [(T 163,[0;1;2;3]); (n_t1'bb,[1;4])] [0;2;4;3]));
  (*344*) Del (T 163);
  (*345*) Assign (T 171) (Plain (Einsum [(n_v'bbb'xov,[0;1;2]); (T 128,[0;3;4])] [1;3;2;4]));
  (*346*) Assign (T 157) (Times (Einsum [(T 119,[0;1]); (n_t2'bbbb,[2;3;4;0])] [2;3;4;1]) (-2) 1);
  (*347*) Assign (T 202) (Times (Einsum [(T 201,[0;1;2;3]); (n_t2'bbbb,[4;5;2;3])] [4;5;0;1]) (-1) 1);
  (*348*) Del (T 201);
  (*349*) Assign (T 120) (Plain (Einsum [(n_t1'bb,[0;1]); (T 23,[2;1])] [0;2]));
  (*350*) Assign (T 154) (Plain (Copy n_t2'bbbb));
  (*351*) AddTo (T 154) (Times (Einsum [(n_t1'bb,[0;1]); (n_t1'bb,[2;3])] [2;0;3;1]) (2) 1);
  (*352*) Assign (T 180) (Plain (Einsum [(T 34,[0;1;2]); (T 30,[0;3;4])] [3;1;4;2]));
  (*353*) Assign (T 178) (Plain (Einsum [(T 30,[0;1;2]); (T 144,[0;3;4])] [1;3;2;4]));
  (*354*) Assign (T 200) (Plain (Einsum [(n_t1'bb,[0;1]); (T 29,[2;3;0;4])] [2;3;1;4]));
  (*355*) Assign (T 179) (Plain (Einsum [(T 40,[0;1;2;3]); (n_t1'bb,[1;4])] [0;2;4;3]));
  (*356*) Assign (T 160) (Plain (Einsum [(T 159,[0;1;2;3]); (n_t1'bb,[1;4])] [0;2;4;3]));
  (*357*) Del (T 159);
  (*358*) Assign (T 38) (Plain (Einsum [(n_v'baa'xov,[0;1;2]); (n_v'bbb'xoo,[0;3;4])] [1;3;4;2]));
  (*359*) Assign (T 135) (Plain (Einsum [(T 1,[0;1;2]); (T 20,[0;3;4])] [1;2;3;4]));
  (*360*) Assign (T 18) (Plain (Einsum [(n_v'bbb'xov,[0;1;2]); (n_v'baa'xoo,[0;3;4])] [3;4;1;2]));
  (*361*) Assign (T 151) (Plain (Einsum [(T 1,[0;1;2]); (T 39,[0;3;4])] [1;2;3;4]));
  (*362*) Assign (T 147) (Plain (Einsum [(T 1,[0;1;2]); (T 132,[0;3;4])] [1;2;4;3]));
  (*363*) Assign (T 146) (Times (Transpose (T 145) [1;0;2;3]) (-1) 1);
  (*364*) Del (T 145);
  (*365*) AddTo (T 146) (Plain (Einsum [(T 132,[0;1;2]); (T 20,[0;3;4])] [3;4;2;1]));
  (*366*) Assign (T 137) (Times (Copy (T 43)) (-2) 1);
  (*367*) Del (T 43);
  (*368*) AddTo (T 137) (Times (Copy (T 12)) (2) 1);
  (*369*) AddTo (T 137) (Plain (Copy (T 4)));
  (*370*) Assign (T 150) (Plain (Einsum [(T 39,[0;1;2]); (n_v'baa'xoo,[0;3;4])] [3;4;1;2]));
  (*371*) Assign (T 134) (Plain (Copy n_v'bbb'xov));
  (*372*) AddTo (T 134) (Plain (Copy (T 39)));
  (*373*) AddTo (T 134) (Times (Copy (T 127)) (-1) 1);
  (*374*) Del (T 127);
  (*375*) Assign (T 126) (Plain (Einsum [(T 125,[0;1;2]); (T 20,[0;3;4])] [3;4;2;1]));
  (*376*) Assign (T 112) (Plain (Einsum [(n_v'bbb'xoo,[0;1;2]); (n_v'baa'xoo,[0;3;4])] [3;4;1;2]));
  (*377*) Assign (T 3) (Plain (Einsum [(T 1,[0;1;2]); (n_v'bbb'xov,[0;3;4])] [1;2;3;4]));
  (*378*) Assign (T 113) (Plain (Copy n_t2'abab));
  (*379*) AddTo (T 113) (Times (Einsum [(n_t1'bb,[0;1]); (n_t1'aa,[2;3])] [2;0;3;1]) (2) 1);
  (*380*) Assign (T 121) (Plain (Einsum [(n_v'baa'xoo,[0;1;2]); (T 20,[0;3;4])] [1;2;3;4]));
  (*381*) Assign (T 143) (Times (Transpose (T 80) [1;0;2;3]) (-1) 1);
  (*382*) Del (T 80);
  (*383*) AddTo (T 143) (Plain (Einsum [(T 1,[0;1;2]); (T 129,[0;3;4])] [1;2;4;3]));
  (*384*) Assign (T 142) (Plain (Einsum [(T 141,[0;1;2;3]); (n_t1'aa,[0;4])] [1;4;3;2]));
  (*385*) Del (T 141);
  (*386*) AddTo (T 142) (Plain (Einsum [(T 138,[0;1;2]); (n_v'baa'xvv,[0;3;4])] [3;4;2;1]));
  (*387*) Assign (T 133) (Plain (Einsum [(T 132,[0;1;2]); (n_v'baa'xoo,[0;3;4])] [3;4;2;1]));
  (*388*) Del (T 132);
  (*389*) Assign (T 149) (Plain (Einsum [(n_t2'abab,[0;1;2;3]); (T 148,[4;2;5;3])] [0;4;1;5]));
  (*390*) Del (T 148);
  (*391*) Assign (T 123) (Plain (Einsum [(n_v'bbb'xoo,[0;1;2]); (T 19,[0;3;4])] [3;1;2;4]));
  (*392*) Assign (T 122) (Plain (Copy n_t2'abab));
  (*393*) AddTo (T 122) (Plain (Einsum [(n_t1'bb,[0;1]); (n_t1'aa,[2;3])] [2;0;3;1]));
  (*394*) Assign (T 130) (Plain (Einsum [(n_v'bbb'xoo,[0;1;2]); (T 129,[0;3;4])] [1;2;4;3]));
  (*395*) Del (T 129);
  (*396*) Assign (T 124) (Plain (Einsum [(T 1,[0;1;2]); (n_v'bbb'xoo,[0;3;4])] [1;2;3;4]));
  (*397*) Assign (T 139) (Plain (Einsum [(n_v'bbb'xov,[0;1;2]); (T 109,[0;3;4])] [1;3;2;4]));
  (*398*) AddTo (T 139) (Times (Einsum [(n_v'bbb'xoo,[0;1;2]); (T 138,[0;3;4])] [1;2;4;3]) (-1) 1);
  (*399*) Del (T 138);
  (*400*) Assign (T 136) (Plain (Einsum [(n_v'baa'xov,[0;1;2]); (T 44,[0;3;4])] [1;3;2;4]));
  (*401*) Del (T 44);
  (*402*) AddTo (T 136) (Times (Einsum [(T 125,[0;1;2]); (n_v'baa'xoo,[0;3;4])] [3;4;2;1]) (-1) 1);
  (*403*) Del (T 125);
  (*404*) Assign (T 78) (Plain (Einsum [(T 77,[0;1;2]); (T 4,[0;3;4])] [3;1;4;2]));
  (*405*) Del (T 77);
  (*406*) Assign (T 105) (Plain (Einsum [(n_t1'aa,[0;1]); (T 2,[2;3;0;4])] [2;3;1;4]));
  (*407*) Assign (T 94) (Times (Einsum [(T 4,[0;1;2]); (T 93,[0;3;4])] [1;3;2;4]) (1) 2);
  (*408*) Del (T 93);
  (*409*) Assign (T 85) (Plain (Einsum [(T 79,[0;1;2]); (T 4,[0;3;4])] [3;1;4;2]));
  (*410*) Assign (T 51) (Times (Einsum [(n_t1'aa,[0;1]); (n_t1'aa,[2;3])] [2;0;1;3]) (2) 1);
  (*411*) AddTo (T 51) (Times (Copy n_t2'aaaa) (-1) 1);
  (*412*) Assign (T 87) (Plain (Einsum [(T 12,[0;1;2]); (T 4,[0;3;4])] [1;3;2;4]));
  (*413*) Assign (T 100) (Plain (Einsum [(T 19,[0;1;2]); (T 19,[0;3;4])] [3;1;4;2]));
  (*414*) Assign (T 97) (Plain (Einsum [(T 96,[0;1;2;3]); (n_t2'aaaa,[3;2;4;5])] [1;0;4;5]));
  (*415*) Del (T 96);
  (*416*) Assign (T 63) (Plain (Einsum [(n_t2'aaaa,[0;1;2;3]); (T 62,[4;0;5;1])] [4;5;2;3]));
  (*417*) Del (T 62);
  (*418*) Assign (T 66) (Plain (Einsum [(T 25,[0;1]); (n_t1'aa,[2;1])] [2;0]));
  (*419*) Assign (T 57) (Times (Einsum [(T 56,[0;1]); (n_t2'aaaa,[2;3;4;0])] [2;3;4;1]) (-2) 1);
  (*420*) Assign (T 49) (Plain (Copy n_t2'aaaa));
  (*421*) AddTo (T 49) (Times (Einsum [(n_t1'aa,[0;1]); (n_t1'aa,[2;3])] [2;0;3;1]) (2) 1);
  (*422*) Assign (T 99) (Plain (Einsum [(n_t1'aa,[0;1]); (T 98,[2;3;0;4])] [2;3;1;4]));
  (*423*) Del (T 98);
  (*424*) Assign (T 95) (Plain (Einsum [(T 19,[0;1;2]); (n_v'baa'xov,[0;3;4])] [1;3;4;2]));
  (*425*) Assign (T 69) (Times (Einsum [(T 68,[0;1]); (n_t2'aaaa,[2;1;3;4])] [2;0;3;4]) (-1) 1);
  (*426*) Assign (T 74) (Times (Einsum [(n_v'baa'xov,[0;1;2]); (T 71,[0;3;4])] [3;1;4;2]) (-1) 1);
  (*427*) Del (T 71);
  (*428*) AddTo (T 74) (Plain (Einsum [(T 1,[0;1;2]); (T 73,[0;3;4])] [1;2;4;3]));
  (*429*) Del (T 73);
  (*430*) Assign (T 86) (Plain (Einsum [(n_t1'aa,[0;1]); (T 17,[2;0;3;4])] [2;3;1;4]));
  (*431*) Assign (T 107) (Times (Einsum [(T 106,[0;1;2;3]); (n_t2'aaaa,[4;5;2;3])] [4;5;0;1]) (-1) 1);
  (*432*) Del (T 106);
  (*433*) Assign (T 65) (Plain (Einsum [(n_t1'aa,[0;1]); (T 64,[2;0;3;4])] [2;3;1;4]));
  (*434*) Del (T 64);
  (*435*) Assign (T 84) (Plain (Einsum [(T 83,[0;1;2;3]); (n_t2'aaaa,[4;1;5;3])] [4;0;5;2]));
  (*436*) Del (T 83);
  (*437*) Assign (T 102) (Plain (Einsum [(T 101,[0;1;2;3]); (n_t1'aa,[2;4])] [0;1;4;3]));
  (*438*) Del (T 101);
  (*439*) Assign (T 76) (Plain (Einsum [(n_v'baa'xov,[0;1;2]); (T 75,[0;3;4])] [1;3;2;4]));
  (*440*) Del (T 75);
  (*441*) Assign (T 50) (Plain (Einsum [(n_t2'aaaa,[0;1;2;3]); (T 48,[4;0;5;1])] [5;4;2;3]));
  (*442*) Assign (T 61) (Plain (Einsum [(n_t1'aa,[0;1]); (T 60,[2;0;3;4])] [2;3;1;4]));
  (*443*) Del (T 60);
  (*444*) Assign (T 92) (Times (Einsum [(n_t2'aaaa,[0;1;2;3]); (T 91,[4;1;5;3])] [0;4;2;5]) (2) 1);
  (*445*) Del (T 91);
  (*446*) Assign (T 47) (Times (Einsum [(n_t2'aaaa,[0;1;2;3]); (T 46,[1;4])] [0;4;2;3]) (-1) 1);
  (*447*) Assign (T 104) (Plain (Einsum [(n_v'baa'xvv,[0;1;2]); (n_v'baa'xvv,[0;3;4])] [3;1;2;4]));
  (*448*) AddTo (T 104) (Plain (Einsum [(n_t1'aa,[0;1]); (T 103,[0;2;3;4])] [4;3;1;2]));
  (*449*) Del (T 103);
  (*450*) Assign (T 59) (Plain (Einsum [(n_v'baa'xov,[0;1;2]); (T 58,[0;3;4])] [1;3;2;4]));
  (*451*) Assign (T 32) (Plain (Copy (T 30)));
  (*452*) Del (T 30);
  (*453*) AddTo (T 32) (Times (Einsum [(T 31,[0;1;2;3]); (n_v'bbb'xov,[4;0;2])] [4;1;3]) (2) 1);
  (*454*) Del (T 31);
  (*455*) AddTo (T 32) (Plain (Einsum [(T 8,[0]); (n_t1'bb,[1;2])] [0;1;2]));
  (*456*) Assign (T 37) (Plain (Einsum [(n_v'bbb'xov,[0;1;2]); (T 35,[0;3;2])] [1;3]));
  (*457*) Del (T 35);
  (*458*) AddTo (T 37) (Plain (Einsum [(n_t1'bb,[0;1]); (T 36,[2;1])] [2;0]));
  (*459*) Del (T 36);
  (*460*) Assign (T 28) (Plain (Einsum [(n_v'baa'xov,[0;1;2]); (T 20,[0;3;4])] [1;3;4;2]));
  (*461*) Assign (T 42) (Plain (Copy n_f'bb'oo));
  (*462*) AddTo (T 42) (Times (Einsum [(T 20,[0;1;2]); (n_v'bbb'xoo,[0;3;1])] [2;3]) (-1) 1);
  (*463*) Del (T 20);
  (*464*) AddTo (T 42) (Plain (Transpose (T 41) [1;0]));
  (*465*) Del (T 41);
  (*466*) Assign (T 9) (Plain (Copy (T 4)));
  (*467*) Del (T 4);
  (*468*) AddTo (T 9) (Times (Einsum [(n_v'baa'xov,[0;1;2]); (T 5,[1;3;2;4])] [0;3;4]) (2) 1);
  (*469*) Del (T 5);
  (*470*) AddTo (T 9) (Plain (Einsum [(T 8,[0]); (n_t1'aa,[1;2])] [0;1;2]));
  (*471*) Del (T 8);
  (*472*) Assign (T 27) (Plain (Copy n_f'aa'oo));
  (*473*) AddTo (T 27) (Times (Einsum [(n_v'baa'xoo,[0;1;2]); (T 1,[0;2;3])] [3;1]) (-1) 1);
  (*474*) Del (T 1);
  (*475*) AddTo (T 27) (Plain (Transpose (T 26) [1;0]));
  (*476*) Del (T 26);
  (*477*) Assign (T 16) (Times (Einsum [(n_v'baa'xov,[0;1;2]); (T 13,[0;3;2])] [1;3]) (2) 1);
  (*478*) Del (T 13);
  (*479*) AddTo (T 16) (Plain (Einsum [(n_t1'aa,[0;1]); (T 15,[2;1])] [2;0]));
  (*480*) Del (T 15);
  (*481*) Assign n_t2new'bbbb (Times (Transpose (T 152) [0;1;3;2]) (-2) 1);
  (*482*) AddTo n_t2new'bbbb (Times (Einsum [(T 154,[0;1;2;3]); (T 153,[0;4;1;5])] [4;5;3;2]) (1) 2);
  (*483*) Del (T 154);
  (*484*) AddTo n_t2new'bbbb (Times (Transpose (T 155) [0;1;3;2]) (-1) 1);
  (*485*) Del (T 155);
  (*486*) AddTo n_t2new'bbbb (Times (Transpose (T 152) [1;0;3;2]) (2) 1);
  (*487*) Del (T 152);
  (*488*) AddTo n_t2new'bbbb (Times (Einsum [(T 156,[0;1;2;3]); (T 153,[0;4;1;5])] [4;5;3;2]) (-1) 2);
  (*489*) Del (T 153);
  (*489*) Del (T 156);
  (*490*) AddTo n_t2new'bbbb (Plain (Transpose (T 157) [1;0;3;2]));
  (*491*) AddTo n_t2new'bbbb (Plain (Copy (T 158)));
  (*492*) AddTo n_t2new'bbbb (Times (Transpose (T 157) [1;0;2;3]) (-1) 1);
  (*493*) Del (T 157);
  (*494*) AddTo n_t2new'bbbb (Times (Transpose (T 158) [0;1;3;2]) (-1) 1);
  (*495*) AddTo n_t2new'bbbb (Plain (Transpose (T 160) [1;0;3;2]));
  (*496*) AddTo n_t2new'bbbb (Times (Transpose (T 162) [1;0;3;2]) (-2) 1);
  (*497*) AddTo n_t2new'bbbb (Plain (Transpose (T 164) [1;0;2;3]));
  (*498*) AddTo n_t2new'bbbb (Times (Transpose (T 164) [1;0;3;2]) (-1) 1);
  (*499*) AddTo n_t2new'bbbb (Times (Einsum [(n_t2'bbbb,[0;1;2;3]); (T 120,[4;1])] [0;4;2;3]) (-1) 1);
  (*500*) AddTo n_t2new'bbbb (Times (Transpose (T 160) [1;0;2;3]) (-1) 1);
  (*501*) AddTo n_t2new'bbbb (Times (Transpose (T 167) [1;0;3;2]) (-1) 1);
  (*502*) AddTo n_t2new'bbbb (Times (Transpose (T 160) [0;1;3;2]) (-1) 1);
  (*503*) AddTo n_t2new'bbbb (Times (Transpose (T 162) [0;1;3;2]) (2) 1);
  (*504*) Del (T 162);
  (*505*) AddTo n_t2new'bbbb (Times (Copy (T 164)) (-1) 1);
  (*506*) AddTo n_t2new'bbbb (Plain (Transpose (T 164) [0;1;3;2]));
  (*507*) Del (T 164);
  (*508*) AddTo n_t2new'bbbb (Times (Transpose (T 167) [0;1;3;2]) (2) 1);
  (*509*) Del (T 167);
  (*510*) AddTo n_t2new'bbbb (Plain (Copy (T 160)));
  (*511*) Del (T 160);
  (*512*) AddTo n_t2new'bbbb (Times (Einsum [(T 170,[0;1;2;3]); (n_t2'bbbb,[4;1;5;3])] [4;0;2;5]) (2) 1);
  (*513*) Del (T 170);
  (*514*) AddTo n_t2new'bbbb (Plain (Copy (T 171)));
  (*515*) AddTo n_t2new'bbbb (Plain (Transpose (T 173) [1;0;2;3]));
  (*516*) AddTo n_t2new'bbbb (Times (Copy (T 177)) (-2) 1);
  (*517*) AddTo n_t2new'bbbb (Times (Transpose (T 171) [1;0;2;3]) (-1) 1);
  (*518*) Del (T 171);
  (*519*) AddTo n_t2new'bbbb (Plain (Transpose (T 178) [1;0;3;2]));
  (*520*) AddTo n_t2new'bbbb (Plain (Transpose (T 179) [0;1;3;2]));
  (*521*) AddTo n_t2new'bbbb (Times (Copy (T 180)) (2) 1);
  (*522*) AddTo n_t2new'bbbb (Times (Transpose (T 180) [1;0;3;2]) (2) 1);
  (*523*) AddTo n_t2new'bbbb (Plain (Copy (T 185)));
  (*524*) AddTo n_t2new'bbbb (Times (Copy (T 187)) (-1) 1);
  (*525*) AddTo n_t2new'bbbb (Times (Transpose (T 179) [1;0;3;2]) (-1) 1);
  (*526*) AddTo n_t2new'bbbb (Times (Transpose (T 180) [0;1;3;2]) (-2) 1);
  (*527*) AddTo n_t2new'bbbb (Times (Transpose (T 180) [1;0;2;3]) (-2) 1);
  (*528*) Del (T 180);
  (*529*) AddTo n_t2new'bbbb (Times (Transpose (T 185) [1;0;2;3]) (-1) 1);
  (*530*) AddTo n_t2new'bbbb (Plain (Transpose (T 187) [1;0;2;3]));
  (*531*) Del (T 187);
  (*532*) AddTo n_t2new'bbbb (Times (Copy (T 179)) (-1) 1);
  (*533*) AddTo n_t2new'bbbb (Times (Transpose (T 185) [0;1;3;2]) (-1) 1);
  (*534*) AddTo n_t2new'bbbb (Plain (Transpose (T 189) [0;1;3;2]));
  (*535*) AddTo n_t2new'bbbb (Plain (Transpose (T 179) [1;0;2;3]));
  (*536*) Del (T 179);
  (*537*) AddTo n_t2new'bbbb (Plain (Transpose (T 185) [1;0;3;2]));
  (*538*) Del (T 185);
  (*539*) AddTo n_t2new'bbbb (Times (Transpose (T 189) [1;0;3;2]) (-1) 1);
  (*540*) Del (T 189);
  (*541*) AddTo n_t2new'bbbb (Times (Transpose (T 191) [0;1;3;2]) (-2) 1);
  (*542*) Del (T 191);
  (*543*) AddTo n_t2new'bbbb (Plain (Transpose (T 192) [0;1;3;2]));
  (*544*) AddTo n_t2new'bbbb (Plain (Copy (T 194)));
  (*545*) AddTo n_t2new'bbbb (Times (Transpose (T 194) [0;1;3;2]) (-1) 1);
  (*546*) Del (T 194);
  (*547*) AddTo n_t2new'bbbb (Plain (Copy (T 195)));
  (*548*) AddTo n_t2new'bbbb (Times (Transpose (T 195) [0;1;3;2]) (-1) 1);
  (*549*) Del (T 195);
  (*550*) AddTo n_t2new'bbbb (Plain (Transpose (T 197) [0;1;3;2]));
  (*551*) AddTo n_t2new'bbbb (Times (Transpose (T 197) [1;0;3;2]) (-1) 1);
  (*552*) AddTo n_t2new'bbbb (Times (Transpose (T 192) [1;0;3;2]) (-1) 1);
  (*553*) Del (T 192);
  (*554*) AddTo n_t2new'bbbb (Times (Einsum [(n_t2'bbbb,[0;1;2;3]); (T 199,[2;3;4;5])] [0;1;5;4]) (2) 1);
  (*555*) Del (T 199);
  (*556*) AddTo n_t2new'bbbb (Times (Transpose (T 158) [1;0;2;3]) (-1) 1);
  (*557*) AddTo n_t2new'bbbb (Plain (Transpose (T 158) [1;0;3;2]));
  (*558*) Del (T 158);
  (*559*) AddTo n_t2new'bbbb (Plain (Transpose (T 200) [1;0;2;3]));
  (*560*) AddTo n_t2new'bbbb (Times (Transpose (T 177) [1;0;3;2]) (-2) 1);
  (*561*) AddTo n_t2new'bbbb (Times (Transpose (T 173) [1;0;3;2]) (-1) 1);
  (*562*) Del (T 173);
  (*563*) AddTo n_t2new'bbbb (Times (Copy (T 200)) (-1) 1);
  (*564*) Del (T 200);
  (*565*) AddTo n_t2new'bbbb (Times (Transpose (T 177) [0;1;3;2]) (2) 1);
  (*566*) Del (T 177);
  (*567*) AddTo n_t2new'bbbb (Times (Transpose (T 178) [1;0;2;3]) (-1) 1);
  (*568*) Del (T 178);
  (*569*) AddTo n_t2new'bbbb (Times (Einsum [(T 202,[0;1;2;3]); (n_t1'bb,[2;4])] [0;1;4;3]) (-2) 1);
  (*570*) Del (T 202);
  (*571*) AddTo n_t2new'bbbb (Times (Copy (T 197)) (-1) 1);
  (*572*) AddTo n_t2new'bbbb (Plain (Transpose (T 197) [1;0;2;3]));
  (*573*) Del (T 197);
  (*574*) Assign n_t2new'abab (Times (Einsum [(n_t2'abab,[0;1;2;3]); (T 111,[1;4])] [0;4;2;3]) (-1) 1);
  (*575*) Del (T 111);
  (*576*) AddTo n_t2new'abab (Times (Einsum [(T 113,[0;1;2;3]); (T 112,[0;4;1;5])] [4;5;2;3]) (1) 2);
  (*577*) Del (T 113);
  (*578*) AddTo n_t2new'abab (Times (Einsum [(n_t2'abab,[0;1;2;3]); (T 112,[4;0;5;1])] [4;5;2;3]) (1) 2);
  (*579*) Del (T 112);
  (*580*) AddTo n_t2new'abab (Times (Einsum [(n_t2'abab,[0;1;2;3]); (T 46,[0;4])] [4;1;2;3]) (-1) 1);
  (*581*) Del (T 46);
  (*582*) AddTo n_t2new'abab (Times (Einsum [(n_t2'abab,[0;1;2;3]); (T 56,[2;4])] [0;1;4;3]) (-1) 1);
  (*583*) Del (T 56);
  (*584*) AddTo n_t2new'abab (Plain (Einsum [(n_v'baa'xov,[0;1;2]); (T 114,[0;3;4])] [1;3;2;4]));
  (*585*) Del (T 114);
  (*586*) AddTo n_t2new'abab (Times (Einsum [(n_t2'abab,[0;1;2;3]); (T 119,[3;4])] [0;1;2;4]) (-1) 1);
  (*587*) Del (T 119);
  (*588*) AddTo n_t2new'abab (Times (Einsum [(n_t2'abab,[0;1;2;3]); (T 120,[4;1])] [0;4;2;3]) (-1) 1);
  (*589*) Del (T 120);
  (*590*) AddTo n_t2new'abab (Plain (Einsum [(T 122,[0;1;2;3]); (T 121,[4;0;5;1])] [4;5;2;3]));
  (*591*) Del (T 121);
  (*592*) AddTo n_t2new'abab (Times (Einsum [(n_t1'bb,[0;1]); (T 123,[2;0;3;4])] [2;3;4;1]) (-1) 1);
  (*593*) Del (T 123);
  (*594*) AddTo n_t2new'abab (Times (Einsum [(n_t2'abab,[0;1;2;3]); (T 68,[4;0])] [4;1;2;3]) (-1) 1);
  (*595*) Del (T 68);
  (*596*) AddTo n_t2new'abab (Plain (Einsum [(T 124,[0;1;2;3]); (T 122,[1;2;4;5])] [0;3;4;5]));
  (*597*) Del (T 124);
  (*598*) AddTo n_t2new'abab (Times (Einsum [(n_t2'abab,[0;1;2;3]); (T 126,[4;1;2;5])] [0;4;5;3]) (-1) 1);
  (*599*) Del (T 126);
  (*600*) AddTo n_t2new'abab (Plain (Einsum [(n_v'baa'xov,[0;1;2]); (T 128,[0;3;4])] [1;3;2;4]));
  (*601*) Del (T 128);
  (*602*) AddTo n_t2new'abab (Times (Einsum [(T 38,[0;1;2;3]); (n_t1'bb,[2;4])] [0;1;3;4]) (-1) 1);
  (*603*) AddTo n_t2new'abab (Times (Einsum [(n_t2'abab,[0;1;2;3]); (T 130,[1;4;2;5])] [0;4;5;3]) (-1) 1);
  (*604*) Del (T 130);
  (*605*) AddTo n_t2new'abab (Times (Einsum [(n_t1'aa,[0;1]); (T 18,[2;0;3;4])] [2;3;1;4]) (-1) 1);
  (*606*) AddTo n_t2new'abab (Times (Einsum [(n_t2'abab,[0;1;2;3]); (T 133,[0;4;3;5])] [4;1;2;5]) (-1) 1);
  (*607*) Del (T 133);
  (*608*) AddTo n_t2new'abab (Plain (Einsum [(T 134,[0;1;2]); (T 19,[0;3;4])] [3;1;4;2]));
  (*609*) Del (T 134);
  (*610*) AddTo n_t2new'abab (Plain (Einsum [(T 135,[0;1;2;3]); (T 122,[1;3;4;5])] [0;2;4;5]));
  (*611*) Del (T 122);
  (*611*) Del (T 135);
  (*612*) AddTo n_t2new'abab (Plain (Einsum [(n_t2'abab,[0;1;2;3]); (T 136,[0;4;2;5])] [4;1;5;3]));
  (*613*) Del (T 136);
  (*614*) AddTo n_t2new'abab (Plain (Einsum [(T 137,[0;1;2]); (T 34,[0;3;4])] [1;3;2;4]));
  (*615*) Del (T 137);
  (*616*) AddTo n_t2new'abab (Plain (Einsum [(n_v'bbb'xov,[0;1;2]); (T 58,[0;3;4])] [3;1;4;2]));
  (*617*) Del (T 58);
  (*618*) AddTo n_t2new'abab (Plain (Einsum [(T 139,[0;1;2;3]); (n_t2'abab,[4;0;5;2])] [4;1;5;3]));
  (*619*) Del (T 139);
  (*620*) AddTo n_t2new'abab (Times (Einsum [(T 109,[0;1;2]); (T 12,[0;3;4])] [3;1;4;2]) (2) 1);
  (*621*) Del (T 109);
  (*622*) AddTo n_t2new'abab (Plain (Einsum [(n_t2'abab,[0;1;2;3]); (T 142,[2;4;3;5])] [0;1;4;5]));
  (*623*) Del (T 142);
  (*624*) AddTo n_t2new'abab (Times (Einsum [(n_t2'abab,[0;1;2;3]); (T 143,[4;0;2;5])] [4;1;5;3]) (-1) 1);
  (*625*) Del (T 143);
  (*626*) AddTo n_t2new'abab (Times (Einsum [(T 34,[0;1;2]); (T 79,[0;3;4])] [3;1;4;2]) (2) 1);
  (*627*) Del (T 34);
  (*627*) Del (T 79);
  (*628*) AddTo n_t2new'abab (Times (Einsum [(T 146,[0;1;2;3]); (n_t2'abab,[4;1;5;2])] [4;0;5;3]) (-1) 1);
  (*629*) Del (T 146);
  (*630*) AddTo n_t2new'abab (Times (Einsum [(T 12,[0;1;2]); (T 144,[0;3;4])] [1;3;2;4]) (2) 1);
  (*631*) Del (T 12);
  (*631*) Del (T 144);
  (*632*) AddTo n_t2new'abab (Times (Einsum [(T 3,[0;1;2;3]); (n_t1'aa,[1;4])] [0;2;4;3]) (-1) 1);
  (*633*) AddTo n_t2new'abab (Times (Einsum [(n_t2'abab,[0;1;2;3]); (T 147,[4;0;3;5])] [4;1;2;5]) (-1) 1);
  (*634*) Del (T 147);
  (*635*) AddTo n_t2new'abab (Times (Einsum [(n_t1'aa,[0;1]); (T 149,[2;0;3;4])] [2;3;1;4]) (-1) 1);
  (*636*) Del (T 149);
  (*637*) AddTo n_t2new'abab (Times (Einsum [(T 150,[0;1;2;3]); (n_t1'aa,[0;4])] [1;2;4;3]) (-1) 1);
  (*638*) Del (T 150);
  (*639*) AddTo n_t2new'abab (Times (Einsum [(n_t1'aa,[0;1]); (T 151,[2;0;3;4])] [2;3;1;4]) (-1) 1);
  (*640*) Del (T 151);
  (*641*) Assign n_t2new'aaaa (Times (Transpose (T 47) [0;1;3;2]) (-2) 1);
  (*642*) AddTo n_t2new'aaaa (Times (Einsum [(T 48,[0;1;2;3]); (T 49,[0;2;4;5])] [1;3;5;4]) (1) 2);
  (*643*) Del (T 49);
  (*644*) AddTo n_t2new'aaaa (Times (Transpose (T 50) [0;1;3;2]) (-1) 1);
  (*645*) Del (T 50);
  (*646*) AddTo n_t2new'aaaa (Times (Transpose (T 47) [1;0;3;2]) (2) 1);
  (*647*) Del (T 47);
  (*648*) AddTo n_t2new'aaaa (Times (Einsum [(T 51,[0;1;2;3]); (T 48,[0;4;1;5])] [4;5;3;2]) (-1) 2);
  (*649*) Del (T 48);
  (*649*) Del (T 51);
  (*650*) AddTo n_t2new'aaaa (Plain (Transpose (T 57) [1;0;3;2]));
  (*651*) AddTo n_t2new'aaaa (Plain (Copy (T 59)));
  (*652*) AddTo n_t2new'aaaa (Times (Transpose (T 57) [1;0;2;3]) (-1) 1);
  (*653*) Del (T 57);
  (*654*) AddTo n_t2new'aaaa (Times (Transpose (T 59) [0;1;3;2]) (-1) 1);
  (*655*) AddTo n_t2new'aaaa (Plain (Transpose (T 61) [1;0;3;2]));
  (*656*) AddTo n_t2new'aaaa (Times (Transpose (T 63) [1;0;3;2]) (-2) 1);
  (*657*) AddTo n_t2new'aaaa (Plain (Transpose (T 65) [1;0;2;3]));
  (*658*) AddTo n_t2new'aaaa (Times (Transpose (T 65) [1;0;3;2]) (-1) 1);
  (*659*) AddTo n_t2new'aaaa (Times (Einsum [(n_t2'aaaa,[0;1;2;3]); (T 66,[4;1])] [0;4;2;3]) (-1) 1);
  (*660*) Del (T 66);
  (*661*) AddTo n_t2new'aaaa (Times (Transpose (T 61) [1;0;2;3]) (-1) 1);
  (*662*) AddTo n_t2new'aaaa (Times (Transpose (T 69) [0;1;3;2]) (-1) 1);
  (*663*) AddTo n_t2new'aaaa (Times (Transpose (T 61) [0;1;3;2]) (-1) 1);
  (*664*) AddTo n_t2new'aaaa (Times (Transpose (T 63) [0;1;3;2]) (2) 1);
  (*665*) Del (T 63);
  (*666*) AddTo n_t2new'aaaa (Times (Copy (T 65)) (-1) 1);
  (*667*) AddTo n_t2new'aaaa (Plain (Transpose (T 65) [0;1;3;2]));
  (*668*) Del (T 65);
  (*669*) AddTo n_t2new'aaaa (Times (Transpose (T 69) [1;0;3;2]) (2) 1);
  (*670*) Del (T 69);
  (*671*) AddTo n_t2new'aaaa (Plain (Copy (T 61)));
  (*672*) Del (T 61);
  (*673*) AddTo n_t2new'aaaa (Times (Einsum [(n_t2'aaaa,[0;1;2;3]); (T 74,[4;1;5;3])] [0;4;5;2]) (2) 1);
  (*674*) Del (T 74);
  (*675*) AddTo n_t2new'aaaa (Plain (Copy (T 76)));
  (*676*) AddTo n_t2new'aaaa (Plain (Transpose (T 78) [0;1;3;2]));
  (*677*) AddTo n_t2new'aaaa (Times (Transpose (T 84) [1;0;3;2]) (-2) 1);
  (*678*) AddTo n_t2new'aaaa (Times (Transpose (T 76) [1;0;2;3]) (-1) 1);
  (*679*) Del (T 76);
  (*680*) AddTo n_t2new'aaaa (Plain (Transpose (T 85) [1;0;3;2]));
  (*681*) AddTo n_t2new'aaaa (Plain (Transpose (T 86) [0;1;3;2]));
  (*682*) AddTo n_t2new'aaaa (Times (Copy (T 87)) (2) 1);
  (*683*) AddTo n_t2new'aaaa (Times (Transpose (T 87) [1;0;3;2]) (2) 1);
  (*684*) AddTo n_t2new'aaaa (Plain (Transpose (T 92) [1;0;3;2]));
  (*685*) AddTo n_t2new'aaaa (Times (Transpose (T 94) [1;0;3;2]) (-1) 1);
  (*686*) AddTo n_t2new'aaaa (Times (Transpose (T 86) [1;0;3;2]) (-1) 1);
  (*687*) AddTo n_t2new'aaaa (Times (Transpose (T 87) [0;1;3;2]) (-2) 1);
  (*688*) AddTo n_t2new'aaaa (Times (Transpose (T 87) [1;0;2;3]) (-2) 1);
  (*689*) Del (T 87);
  (*690*) AddTo n_t2new'aaaa (Times (Transpose (T 92) [0;1;3;2]) (-1) 1);
  (*691*) AddTo n_t2new'aaaa (Plain (Transpose (T 94) [0;1;3;2]));
  (*692*) AddTo n_t2new'aaaa (Times (Copy (T 86)) (-1) 1);
  (*693*) AddTo n_t2new'aaaa (Times (Transpose (T 92) [1;0;2;3]) (-1) 1);
  (*694*) AddTo n_t2new'aaaa (Plain (Transpose (T 94) [1;0;2;3]));
  (*695*) AddTo n_t2new'aaaa (Plain (Transpose (T 86) [1;0;2;3]));
  (*696*) Del (T 86);
  (*697*) AddTo n_t2new'aaaa (Plain (Copy (T 92)));
  (*698*) Del (T 92);
  (*699*) AddTo n_t2new'aaaa (Times (Copy (T 94)) (-1) 1);
  (*700*) Del (T 94);
  (*701*) AddTo n_t2new'aaaa (Plain (Transpose (T 95) [0;1;3;2]));
  (*702*) AddTo n_t2new'aaaa (Times (Transpose (T 97) [0;1;3;2]) (-2) 1);
  (*703*) Del (T 97);
  (*704*) AddTo n_t2new'aaaa (Plain (Copy (T 99)));
  (*705*) AddTo n_t2new'aaaa (Times (Transpose (T 99) [0;1;3;2]) (-1) 1);
  (*706*) Del (T 99);
  (*707*) AddTo n_t2new'aaaa (Plain (Copy (T 100)));
  (*708*) AddTo n_t2new'aaaa (Times (Transpose (T 100) [0;1;3;2]) (-1) 1);
  (*709*) Del (T 100);
  (*710*) AddTo n_t2new'aaaa (Plain (Transpose (T 102) [0;1;3;2]));
  (*711*) AddTo n_t2new'aaaa (Times (Transpose (T 102) [1;0;3;2]) (-1) 1);
  (*712*) AddTo n_t2new'aaaa (Times (Transpose (T 95) [1;0;3;2]) (-1) 1);
  (*713*) Del (T 95);
  (*714*) AddTo n_t2new'aaaa (Times (Einsum [(n_t2'aaaa,[0;1;2;3]); (T 104,[2;3;4;5])] [0;1;5;4]) (2) 1);
  (*715*) Del (T 104);
  (*716*) AddTo n_t2new'aaaa (Times (Transpose (T 59) [1;0;2;3]) (-1) 1);
  (*717*) AddTo n_t2new'aaaa (Plain (Transpose (T 59) [1;0;3;2]));
  (*718*) Del (T 59);
  (*719*) AddTo n_t2new'aaaa (Plain (Transpose (T 105) [1;0;2;3]));
  (*720*) AddTo n_t2new'aaaa (Times (Copy (T 84)) (-2) 1);
  (*721*) AddTo n_t2new'aaaa (Times (Copy (T 78)) (-1) 1);
  (*722*) Del (T 78);
  (*723*) AddTo n_t2new'aaaa (Times (Copy (T 105)) (-1) 1);
  (*724*) Del (T 105);
  (*725*) AddTo n_t2new'aaaa (Times (Transpose (T 84) [1;0;2;3]) (2) 1);
  (*726*) Del (T 84);
  (*727*) AddTo n_t2new'aaaa (Times (Transpose (T 85) [1;0;2;3]) (-1) 1);
  (*728*) Del (T 85);
  (*729*) AddTo n_t2new'aaaa (Times (Einsum [(T 107,[0;1;2;3]); (n_t1'aa,[2;4])] [0;1;4;3]) (-2) 1);
  (*730*) Del (T 107);
  (*731*) AddTo n_t2new'aaaa (Times (Copy (T 102)) (-1) 1);
  (*732*) AddTo n_t2new'aaaa (Plain (Transpose (T 102) [1;0;2;3]));
  (*733*) Del (T 102);
  (*734*) Assign n_t1new'bb (Times (Einsum [(T 28,[0;1;2;3]); (n_t2'abab,[0;2;3;4])] [1;4]) (-1) 1);
  (*735*) Del (T 28);
  (*736*) AddTo n_t1new'bb (Times (Einsum [(n_t2'bbbb,[0;1;2;3]); (T 29,[4;1;0;3])] [4;2]) (-2) 1);
  (*737*) Del (T 29);
  (*738*) AddTo n_t1new'bb (Plain (Copy n_f'bb'ov));
  (*739*) AddTo n_t1new'bb (Plain (Einsum [(n_t1'bb,[0;1]); (n_f'bb'vv,[2;1])] [0;2]));
  (*740*) AddTo n_t1new'bb (Plain (Einsum [(T 32,[0;1;2]); (n_v'bbb'xvv,[0;3;2])] [1;3]));
  (*741*) Del (T 32);
  (*742*) AddTo n_t1new'bb (Plain (Copy (T 33)));
  (*743*) Del (T 33);
  (*744*) AddTo n_t1new'bb (Times (Einsum [(n_t1'bb,[0;1]); (T 37,[0;2])] [2;1]) (-1) 1);
  (*745*) Del (T 37);
  (*746*) AddTo n_t1new'bb (Times (Einsum [(n_t2'abab,[0;1;2;3]); (T 38,[0;4;1;2])] [4;3]) (-1) 1);
  (*747*) Del (T 38);
  (*748*) AddTo n_t1new'bb (Times (Einsum [(n_v'bbb'xoo,[0;1;2]); (T 39,[0;2;3])] [1;3]) (-1) 1);
  (*749*) Del (T 39);
  (*750*) AddTo n_t1new'bb (Times (Einsum [(n_t2'bbbb,[0;1;2;3]); (T 40,[4;0;1;3])] [4;2]) (-2) 1);
  (*751*) Del (T 40);
  (*752*) AddTo n_t1new'bb (Plain (Einsum [(T 25,[0;1]); (n_t2'abab,[0;2;1;3])] [2;3]));
  (*753*) AddTo n_t1new'bb (Times (Einsum [(T 23,[0;1]); (n_t2'bbbb,[2;0;3;1])] [2;3]) (2) 1);
  (*754*) AddTo n_t1new'bb (Times (Einsum [(T 42,[0;1]); (n_t1'bb,[0;2])] [1;2]) (-1) 1);
  (*755*) Del (T 42);
  (*756*) Assign n_t1new'aa (Plain (Einsum [(n_f'aa'vv,[0;1]); (n_t1'aa,[2;1])] [2;0]));
  (*757*) AddTo n_t1new'aa (Plain (Copy n_f'aa'ov));
  (*758*) AddTo n_t1new'aa (Times (Einsum [(n_t2'aaaa,[0;1;2;3]); (T 2,[4;1;0;3])] [4;2]) (-2) 1);
  (*759*) Del (T 2);
  (*760*) AddTo n_t1new'aa (Times (Einsum [(T 3,[0;1;2;3]); (n_t2'abab,[1;2;4;3])] [0;4]) (-1) 1);
  (*761*) Del (T 3);
  (*762*) AddTo n_t1new'aa (Plain (Einsum [(n_v'baa'xvv,[0;1;2]); (T 9,[0;3;2])] [3;1]));
  (*763*) Del (T 9);
  (*764*) AddTo n_t1new'aa (Plain (Copy (T 11)));
  (*765*) Del (T 11);
  (*766*) AddTo n_t1new'aa (Times (Einsum [(n_t1'aa,[0;1]); (T 16,[0;2])] [2;1]) (-1) 1);
  (*767*) Del (T 16);
  (*768*) AddTo n_t1new'aa (Times (Einsum [(n_t2'aaaa,[0;1;2;3]); (T 17,[4;0;1;3])] [4;2]) (-2) 1);
  (*769*) Del (T 17);
  (*770*) AddTo n_t1new'aa (Times (Einsum [(n_t2'abab,[0;1;2;3]); (T 18,[4;0;1;3])] [4;2]) (-1) 1);
  (*771*) Del (T 18);
  (*772*) AddTo n_t1new'aa (Times (Einsum [(T 19,[0;1;2]); (n_v'baa'xoo,[0;3;1])] [3;2]) (-1) 1);
  (*773*) Del (T 19);
  (*774*) AddTo n_t1new'aa (Plain (Einsum [(T 23,[0;1]); (n_t2'abab,[2;0;3;1])] [2;3]));
  (*775*) Del (T 23);
  (*776*) AddTo n_t1new'aa (Times (Einsum [(n_t2'aaaa,[0;1;2;3]); (T 25,[1;3])] [0;2]) (2) 1);
  (*777*) Del (T 25);
  (*778*) AddTo n_t1new'aa (Times (Einsum [(n_t1'aa,[0;1]); (T 27,[0;2])] [2;1]) (-1) 1);
  (*779*) Del (T 27)]
 [(n_t1new'bb,[6;7]); (n_t1new'aa,[4;5]); (n_t2new'bbbb,[6;6;7;7]); (n_t2new'abab,[4;6;5;7]); (n_t2new'aaaa,[4;4;5;5])].

