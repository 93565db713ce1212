(** Generated by tools/translate_codegen.py from ebcc/codegen/GCCSDwtwp.py; one statement per source line
    (the number in the comment before it). *)
From Coq Require Import ZArith List.
From Verif Require Import CgModel CgNames.
Import ListNotations.

(** ebcc/codegen/GCCSDwtwp.py:20-47 [energy] *)
Definition GCCSDwtwp_energy : prog := mkprog
 [(n_t2,[0;0;1;1]); (n_t1,[0;1]); (n_f'ov,[0;1]); (n_v'oovv,[0;0;1;1])]
 [(*41*) Assign (T 1) (Plain (Copy n_t2));
  (*42*) AddTo (T 1) (Times (Einsum [(n_t1,[0;1]); (n_t1,[2;3])] [2;0;3;1]) (2) 1);
  (*43*) Assign n_e_cc (Plain (Einsum [(n_f'ov,[0;1]); (n_t1,[0;1])] []));
  (*44*) AddTo n_e_cc (Times (Einsum [(T 1,[0;1;2;3]); (n_v'oovv,[0;1;2;3])] []) (1) 4);
  (*45*) Del (T 1)]
 [(n_e_cc,[])].

(** ebcc/codegen/GCCSDwtwp.py:49-889 [update_amps]; active-space slices of the amplitudes are arguments; adding the active-space parts of the results to them is not translated *)
Definition GCCSDwtwp_update_amps : prog := mkprog
 [(n_t1_Ov,[8;1]); (n_v'oovv,[0;0;1;1]); (n_v'OoVv,[8;0;9;1]); (n_t1_oV,[0;9]); (n_v'OOvv,[8;8;1;1]); (n_v'Ovoo,[8;1;0;0]); (n_v'Vovv,[9;0;1;1]); (n_t1,[0;1]); (n_v'VVoo,[9;9;0;0]); (n_v'Oovv,[8;0;1;1]); (n_v'Vvoo,[9;1;0;0]); (n_v'ooov,[0;0;0;1]); (n_v'ovvv,[0;1;1;1]); (n_t2_OOvv,[8;8;1;1]); (n_t2_Oovv,[8;0;1;1]); (n_t2_OoVv,[8;0;9;1]); (n_t2_ooVV,[0;0;9;9]); (n_f'Ov,[8;1]); (n_t2_OOVv,[8;8;9;1]); (n_v'VoVV,[9;0;9;9]); (n_t2_ooVv,[0;0;9;1]); (n_v'OvVo,[8;1;9;0]); (n_v'OoOv,[8;0;8;1]); (n_f'ov,[0;1]); (n_t3,[8;8;8;9;9;9]); (n_v'OoVV,[8;0;9;9]); (n_v'OoOV,[8;0;8;9]); (n_v'VVvv,[9;9;1;1]); (n_v'OvOO,[8;1;8;8]); (n_v'VoVv,[9;0;9;1]); (n_v'OVVv,[8;9;9;1]); (n_v'OOoo,[8;8;0;0]); (n_v'OOVv,[8;8;9;1]); (n_f'Vo,[9;0]); (n_t2,[0;0;1;1]); (n_v'ovov,[0;1;0;1]); (n_t2_OoVV,[8;0;9;9]); (n_v'VVVV,[9;9;9;9]); (n_f'VV,[9;9]); (n_f'OO,[8;8]); (n_v'OVOV,[8;9;8;9]); (n_v'OvVV,[8;1;9;9]); (n_v'OOOO,[8;8;8;8]); (n_v'OOVo,[8;8;9;0]); (n_f'vv,[1;1]); (n_f'oo,[0;0]); (n_v'vvvv,[1;1;1;1]); (n_v'oooo,[0;0;0;0]); (n_f'OV,[8;9]); (n_v'OOVV,[8;8;9;9]); (n_v'ovoo,[0;1;0;0])]
 [(*96*) Assign (T 111) (Plain (Einsum [(n_t1_Ov,[0;1]); (n_v'oovv,[2;3;4;1])] [2;3;4;0]));
  (*97*) Assign (T 141) (Plain (Einsum [(n_v'OoVv,[0;1;2;3]); (n_t1_Ov,[4;3])] [1;4;0;2]));
  (*98*) Assign (T 116) (Plain (Einsum [(n_t1_oV,[0;1]); (n_v'oovv,[2;0;3;4])] [2;3;4;1]));
  (*99*) Assign (T 138) (Plain (Einsum [(n_t1_Ov,[0;1]); (n_v'OOvv,[2;3;4;1])] [4;0;2;3]));
  (*100*) Assign (T 124) (Times (Einsum [(n_t1_oV,[0;1]); (n_v'Ovoo,[2;3;4;0])] [4;3;2;1]) (-1) 1);
  (*101*) Assign (T 127) (Times (Einsum [(n_v'Vovv,[0;1;2;3]); (n_t1_Ov,[4;3])] [1;2;4;0]) (-1) 1);
  (*102*) Assign (T 147) (Plain (Einsum [(n_t1_Ov,[0;1]); (T 111,[2;3;1;4])] [3;2;4;0]));
  (*103*) Assign (T 2) (Plain (Einsum [(n_t1,[0;1]); (n_v'oovv,[2;0;3;1])] [2;3]));
  (*104*) Assign (T 144) (Plain (Einsum [(n_v'VVoo,[0;1;2;3]); (n_t1_oV,[3;4])] [2;4;0;1]));
  (*105*) Assign (T 121) (Times (Einsum [(n_v'Ovoo,[0;1;2;3]); (n_t1_Ov,[4;1])] [2;3;4;0]) (-1) 1);
  (*106*) Assign (T 132) (Times (Einsum [(n_v'Oovv,[0;1;2;3]); (n_t1,[1;3])] [2;0]) (-1) 1);
  (*107*) Assign (T 150) (Plain (Einsum [(n_t1_oV,[0;1]); (T 111,[2;0;3;4])] [2;3;4;1]));
  (*108*) Assign (T 135) (Times (Einsum [(n_t1,[0;1]); (n_v'Vvoo,[2;1;3;0])] [3;2]) (-1) 1);
  (*109*) Assign (T 3) (Plain (Einsum [(n_v'oovv,[0;1;2;3]); (n_t1,[4;3])] [4;0;1;2]));
  (*110*) Assign (T 19) (Plain (Einsum [(n_v'ooov,[0;1;2;3]); (n_t1,[4;3])] [4;0;1;2]));
  (*111*) Assign (T 24) (Plain (Einsum [(n_v'ovvv,[0;1;2;3]); (n_t1,[4;3])] [4;0;1;2]));
  (*112*) Assign (T 105) (Times (Einsum [(n_v'Vovv,[0;1;2;3]); (n_t2_OOvv,[4;5;2;3])] [1;4;5;0]) (-1) 1);
  (*113*) Assign (T 88) (Plain (Einsum [(n_v'Oovv,[0;1;2;3]); (n_t2_Oovv,[4;1;2;3])] [4;0]));
  (*114*) Assign (T 101) (Times (Einsum [(n_t2_OoVv,[0;1;2;3]); (n_v'Ovoo,[4;3;5;1])] [5;0;4;2]) (-1) 1);
  (*115*) Assign (T 107) (Times (Einsum [(n_v'Vovv,[0;1;2;3]); (n_t2_OoVv,[4;1;5;3])] [2;4;5;0]) (-1) 1);
  (*116*) Assign (T 142) (Plain (Einsum [(T 141,[0;1;2;3]); (n_t1_oV,[0;4])] [1;2;4;3]));
  (*117*) Del (T 141);
  (*118*) Assign (T 119) (Plain (Einsum [(T 116,[0;1;2;3]); (n_t2_OoVv,[4;0;5;1])] [2;4;3;5]));
  (*119*) Assign (T 139) (Plain (Einsum [(n_t1_Ov,[0;1]); (T 138,[1;2;3;4])] [2;0;4;3]));
  (*120*) Del (T 138);
  (*121*) Assign (T 103) (Times (Einsum [(n_t2_ooVV,[0;1;2;3]); (n_v'Ovoo,[4;5;0;1])] [5;4;2;3]) (-1) 1);
  (*122*) Assign (T 57) (Plain (Einsum [(n_f'Ov,[0;1]); (n_t1_Ov,[2;1])] [0;2]));
  (*123*) Assign (T 98) (Plain (Einsum [(n_t2_ooVV,[0;1;2;3]); (n_v'VVoo,[4;5;0;1])] [2;3;4;5]));
  (*124*) Assign (T 125) (Times (Einsum [(T 124,[0;1;2;3]); (n_t1_oV,[0;4])] [1;2;3;4]) (-1) 1);
  (*125*) Del (T 124);
  (*126*) Assign (T 130) (Plain (Einsum [(T 127,[0;1;2;3]); (n_t1_oV,[0;4])] [1;2;4;3]));
  (*127*) Assign (T 148) (Times (Einsum [(n_t1_oV,[0;1]); (T 147,[0;2;3;4])] [2;3;4;1]) (-1) 1);
  (*128*) Del (T 147);
  (*129*) Assign (T 109) (Plain (Einsum [(n_t2_OOVv,[0;1;2;3]); (T 2,[4;3])] [4;0;1;2]));
  (*130*) Assign (T 117) (Times (Einsum [(T 116,[0;1;2;3]); (n_t2_OOvv,[4;5;2;1])] [0;4;5;3]) (-1) 1);
  (*131*) Del (T 116);
  (*132*) Assign (T 86) (Times (Einsum [(n_v'VoVV,[0;1;2;3]); (n_t1_oV,[1;4])] [4;0;2;3]) (-1) 1);
  (*133*) Assign (T 112) (Plain (Einsum [(n_t2_OoVv,[0;1;2;3]); (T 111,[1;4;3;5])] [4;5;0;2]));
  (*134*) Assign (T 92) (Plain (Einsum [(n_t2_ooVv,[0;1;2;3]); (n_v'Vvoo,[4;3;0;1])] [2;4]));
  (*135*) Assign (T 145) (Plain (Einsum [(n_t1_oV,[0;1]); (T 144,[0;2;3;4])] [2;1;4;3]));
  (*136*) Del (T 144);
  (*137*) Assign (T 114) (Times (Einsum [(n_t2_ooVV,[0;1;2;3]); (T 111,[1;0;4;5])] [4;5;2;3]) (-1) 1);
  (*138*) Del (T 111);
  (*139*) Assign (T 94) (Plain (Einsum [(n_v'OoVv,[0;1;2;3]); (n_t2_OoVv,[4;1;5;3])] [4;0;5;2]));
  (*140*) Assign (T 122) (Plain (Einsum [(n_t1_oV,[0;1]); (T 121,[2;0;3;4])] [2;3;4;1]));
  (*141*) Del (T 121);
  (*142*) Assign (T 70) (Plain (Einsum [(n_v'OvVo,[0;1;2;3]); (n_t1_Ov,[4;1])] [3;4;0;2]));
  (*143*) Assign (T 133) (Times (Einsum [(T 132,[0;1]); (n_t1_Ov,[2;0])] [2;1]) (-1) 1);
  (*144*) Del (T 132);
  (*145*) Assign (T 151) (Times (Einsum [(T 150,[0;1;2;3]); (n_t1_oV,[0;4])] [1;2;3;4]) (-1) 1);
  (*146*) Del (T 150);
  (*147*) Assign (T 72) (Plain (Einsum [(n_v'OvVo,[0;1;2;3]); (n_t1_oV,[3;4])] [1;0;4;2]));
  (*148*) Assign (T 128) (Times (Einsum [(n_t1_Ov,[0;1]); (T 127,[2;1;3;4])] [2;3;0;4]) (-1) 1);
  (*149*) Del (T 127);
  (*150*) Assign (T 76) (Plain (Einsum [(n_v'OoOv,[0;1;2;3]); (n_t1,[1;3])] [0;2]));
  (*151*) Assign (T 61) (Times (Einsum [(n_f'ov,[0;1]); (n_t2_OOVv,[2;3;4;1])] [0;2;3;4]) (-1) 1);
  (*152*) Assign (T 31) (Times (Einsum [(n_t3,[0;1;2;3;4;5]); (n_v'OoVV,[2;6;4;5])] [6;0;1;3]) (-1) 1);
  (*153*) Assign (T 80) (Times (Einsum [(n_v'OoOV,[0;1;2;3]); (n_t1_oV,[1;4])] [0;2;4;3]) (-1) 1);
  (*154*) Assign (T 74) (Plain (Einsum [(n_v'VVvv,[0;1;2;3]); (n_t1_Ov,[4;3])] [2;4;0;1]));
  (*155*) Assign (T 78) (Times (Einsum [(n_v'OvOO,[0;1;2;3]); (n_t1_Ov,[4;1])] [4;0;2;3]) (-1) 1);
  (*156*) Assign (T 82) (Plain (Einsum [(n_v'VoVv,[0;1;2;3]); (n_t1,[1;3])] [0;2]));
  (*157*) Assign (T 90) (Plain (Einsum [(n_v'OOvv,[0;1;2;3]); (n_t2_OOvv,[4;5;2;3])] [4;5;0;1]));
  (*158*) Assign (T 84) (Times (Einsum [(n_v'OVVv,[0;1;2;3]); (n_t1_Ov,[4;3])] [4;0;2;1]) (-1) 1);
  (*159*) Assign (T 68) (Plain (Einsum [(n_t1_oV,[0;1]); (n_v'OOoo,[2;3;4;0])] [4;2;3;1]));
  (*160*) Assign (T 96) (Plain (Einsum [(n_t2_OOVv,[0;1;2;3]); (n_v'OOVv,[4;5;6;3])] [0;1;4;5;2;6]));
  (*161*) Assign (T 59) (Plain (Einsum [(n_t1_oV,[0;1]); (n_f'Vo,[2;0])] [2;1]));
  (*162*) Assign (T 136) (Times (Einsum [(T 135,[0;1]); (n_t1_oV,[0;2])] [2;1]) (-1) 1);
  (*163*) Del (T 135);
  (*164*) Assign (T 29) (Times (Einsum [(n_v'OOVv,[0;1;2;3]); (n_t1,[4;3])] [4;0;1;2]) (-1) 1);
  (*165*) Assign (T 44) (Times (Einsum [(n_t2,[0;1;2;3]); (T 2,[4;3])] [0;1;4;2]) (-1) 1);
  (*166*) Assign (T 1) (Plain (Einsum [(n_f'ov,[0;1]); (n_t1,[2;1])] [0;2]));
  (*167*) Assign (T 5) (Plain (Einsum [(n_v'ooov,[0;1;2;3]); (n_t1,[1;3])] [0;2]));
  (*168*) Assign (T 38) (Plain (Einsum [(n_t2,[0;1;2;3]); (n_v'oovv,[4;5;2;3])] [0;1;4;5]));
  (*169*) Assign (T 4) (Plain (Einsum [(n_t2,[0;1;2;3]); (n_v'oovv,[4;1;2;3])] [0;4]));
  (*170*) Assign (T 41) (Plain (Einsum [(n_t2,[0;1;2;3]); (n_v'oovv,[4;1;5;3])] [0;4;2;5]));
  (*171*) Assign (T 47) (Plain (Einsum [(T 3,[0;1;2;3]); (n_t2,[4;1;5;3])] [0;4;2;5]));
  (*172*) Assign (T 21) (Plain (Einsum [(n_t2,[0;1;2;3]); (n_v'ooov,[4;1;5;3])] [0;4;5;2]));
  (*173*) Assign (T 26) (Plain (Einsum [(n_t2,[0;1;2;3]); (n_v'ovvv,[4;5;2;3])] [0;1;4;5]));
  (*174*) Assign (T 34) (Plain (Einsum [(n_v'ovov,[0;1;2;3]); (n_t1,[4;3])] [4;0;2;1]));
  (*175*) Assign (T 6) (Plain (Einsum [(n_v'ovvv,[0;1;2;3]); (n_t1,[0;3])] [1;2]));
  (*176*) Assign (T 11) (Plain (Einsum [(n_t2,[0;1;2;3]); (n_f'ov,[4;3])] [4;0;1;2]));
  (*177*) Assign (T 7) (Plain (Einsum [(T 2,[0;1]); (n_t1,[2;1])] [2;0]));
  (*178*) Assign (T 46) (Plain (Einsum [(T 3,[0;1;2;3]); (n_t1,[4;3])] [0;4;2;1]));
  (*179*) Assign (T 50) (Times (Einsum [(T 19,[0;1;2;3]); (n_t1,[1;4])] [0;2;3;4]) (-1) 1);
  (*180*) Assign (T 52) (Times (Einsum [(n_t1,[0;1]); (T 24,[2;3;4;1])] [2;0;3;4]) (-1) 1);
  (*181*) Assign (T 39) (Plain (Einsum [(n_t2,[0;1;2;3]); (n_v'oovv,[0;1;4;3])] [2;4]));
  (*182*) Assign (T 106) (Times (Einsum [(n_t2_OoVV,[0;1;2;3]); (T 105,[1;4;5;6])] [4;5;0;2;3;6]) (-1) 1);
  (*183*) Del (T 105);
  (*184*) Assign (T 89) (Plain (Einsum [(T 88,[0;1]); (n_t3,[2;3;1;4;5;6])] [0;2;3;4;5;6]));
  (*185*) Del (T 88);
  (*186*) Assign (T 102) (Times (Einsum [(T 101,[0;1;2;3]); (n_t2_OoVV,[4;0;5;6])] [4;1;2;5;6;3]) (-1) 1);
  (*187*) Del (T 101);
  (*188*) Assign (T 108) (Times (Einsum [(n_t2_OOVv,[0;1;2;3]); (T 107,[3;4;5;6])] [0;1;4;2;5;6]) (-1) 1);
  (*189*) Del (T 107);
  (*190*) Assign (T 143) (Plain (Einsum [(n_t3,[0;1;2;3;4;5]); (T 142,[6;2;7;5])] [6;0;1;7;3;4]));
  (*191*) Del (T 142);
  (*192*) Assign (T 120) (Times (Einsum [(n_t2_OOVv,[0;1;2;3]); (T 119,[3;4;5;6])] [0;1;4;5;2;6]) (-1) 1);
  (*193*) Del (T 119);
  (*194*) Assign (T 140) (Times (Einsum [(T 139,[0;1;2;3]); (n_t3,[4;2;3;5;6;7])] [1;0;4;5;6;7]) (-1) 1);
  (*195*) Del (T 139);
  (*196*) Assign (T 104) (Times (Einsum [(T 103,[0;1;2;3]); (n_t2_OOVv,[4;5;6;0])] [4;5;1;2;3;6]) (-1) 1);
  (*197*) Del (T 103);
  (*198*) Assign (T 58) (Plain (Einsum [(n_t3,[0;1;2;3;4;5]); (T 57,[2;6])] [6;0;1;3;4;5]));
  (*199*) Del (T 57);
  (*200*) Assign (T 99) (Plain (Einsum [(T 98,[0;1;2;3]); (n_t3,[4;5;6;7;3;2])] [4;5;6;1;0;7]));
  (*201*) Del (T 98);
  (*202*) Assign (T 126) (Times (Einsum [(T 125,[0;1;2;3]); (n_t2_OOVv,[4;5;6;0])] [4;5;1;2;3;6]) (-1) 1);
  (*203*) Del (T 125);
  (*204*) Assign (T 131) (Plain (Einsum [(n_t2_OOVv,[0;1;2;3]); (T 130,[3;4;5;6])] [4;0;1;5;2;6]));
  (*205*) Del (T 130);
  (*206*) Assign (T 149) (Times (Einsum [(n_t2_OoVV,[0;1;2;3]); (T 148,[1;4;5;6])] [5;4;0;6;2;3]) (-1) 1);
  (*207*) Del (T 148);
  (*208*) Assign (T 110) (Plain (Einsum [(n_t2_OoVV,[0;1;2;3]); (T 109,[1;4;5;6])] [4;5;0;6;2;3]));
  (*209*) Del (T 109);
  (*210*) Assign (T 67) (Plain (Einsum [(n_v'VVVV,[0;1;2;3]); (n_t3,[4;5;6;7;2;3])] [4;5;6;7;0;1]));
  (*211*) Assign (T 56) (Plain (Einsum [(n_f'VV,[0;1]); (n_t3,[2;3;4;5;6;1])] [2;3;4;0;5;6]));
  (*212*) Assign (T 118) (Plain (Einsum [(n_t2_OoVV,[0;1;2;3]); (T 117,[1;4;5;6])] [4;5;0;6;2;3]));
  (*213*) Del (T 117);
  (*214*) Assign (T 55) (Plain (Einsum [(n_f'OO,[0;1]); (n_t3,[2;3;1;4;5;6])] [0;2;3;4;5;6]));
  (*215*) Assign (T 87) (Times (Einsum [(n_t3,[0;1;2;3;4;5]); (T 86,[6;7;5;4])] [0;1;2;6;3;7]) (-1) 1);
  (*216*) Del (T 86);
  (*217*) Assign (T 66) (Plain (Einsum [(n_v'OVOV,[0;1;2;3]); (n_t3,[4;5;2;6;7;1])] [4;5;0;6;7;3]));
  (*218*) Assign (T 113) (Times (Einsum [(T 112,[0;1;2;3]); (n_t2_OoVV,[4;0;5;6])] [1;4;2;5;6;3]) (-1) 1);
  (*219*) Del (T 112);
  (*220*) Assign (T 93) (Plain (Einsum [(T 92,[0;1]); (n_t3,[2;3;4;5;6;1])] [2;3;4;0;5;6]));
  (*221*) Del (T 92);
  (*222*) Assign (T 146) (Plain (Einsum [(T 145,[0;1;2;3]); (n_t3,[4;5;6;7;2;3])] [4;5;6;0;1;7]));
  (*223*) Del (T 145);
  (*224*) Assign (T 115) (Plain (Einsum [(n_t2_OOVv,[0;1;2;3]); (T 114,[3;4;5;6])] [4;0;1;5;6;2]));
  (*225*) Del (T 114);
  (*226*) Assign (T 95) (Plain (Einsum [(T 94,[0;1;2;3]); (n_t3,[4;5;1;6;7;3])] [0;4;5;2;6;7]));
  (*227*) Del (T 94);
  (*228*) Assign (T 123) (Plain (Einsum [(T 122,[0;1;2;3]); (n_t2_OoVV,[4;0;5;6])] [1;4;2;3;5;6]));
  (*229*) Del (T 122);
  (*230*) Assign (T 71) (Times (Einsum [(T 70,[0;1;2;3]); (n_t2_OoVV,[4;0;5;6])] [1;4;2;5;6;3]) (-1) 1);
  (*231*) Del (T 70);
  (*232*) Assign (T 134) (Plain (Einsum [(T 133,[0;1]); (n_t3,[2;3;1;4;5;6])] [0;2;3;4;5;6]));
  (*233*) Del (T 133);
  (*234*) Assign (T 152) (Plain (Einsum [(T 151,[0;1;2;3]); (n_t2_OOVv,[4;5;6;0])] [1;4;5;2;3;6]));
  (*235*) Del (T 151);
  (*236*) Assign (T 64) (Plain (Einsum [(n_t2_OOVv,[0;1;2;3]); (n_v'OvVV,[4;3;5;6])] [0;1;4;2;5;6]));
  (*237*) Assign (T 73) (Times (Einsum [(n_t2_OOVv,[0;1;2;3]); (T 72,[3;4;5;6])] [0;1;4;5;2;6]) (-1) 1);
  (*238*) Del (T 72);
  (*239*) Assign (T 129) (Times (Einsum [(n_t2_OoVV,[0;1;2;3]); (T 128,[1;4;5;6])] [4;5;0;2;3;6]) (-1) 1);
  (*240*) Del (T 128);
  (*241*) Assign (T 77) (Plain (Einsum [(n_t3,[0;1;2;3;4;5]); (T 76,[2;6])] [0;1;6;3;4;5]));
  (*242*) Del (T 76);
  (*243*) Assign (T 62) (Times (Einsum [(T 61,[0;1;2;3]); (n_t2_OoVV,[4;0;5;6])] [1;2;4;3;5;6]) (-1) 1);
  (*244*) Del (T 61);
  (*245*) Assign (T 65) (Plain (Einsum [(n_t3,[0;1;2;3;4;5]); (n_v'OOOO,[6;7;1;2])] [0;6;7;3;4;5]));
  (*246*) Assign (T 100) (Plain (Einsum [(T 31,[0;1;2;3]); (n_t2_OoVV,[4;0;5;6])] [4;2;1;5;6;3]));
  (*247*) Assign (T 81) (Plain (Einsum [(n_t3,[0;1;2;3;4;5]); (T 80,[2;6;7;5])] [0;1;6;7;3;4]));
  (*248*) Del (T 80);
  (*249*) Assign (T 75) (Plain (Einsum [(n_t2_OOVv,[0;1;2;3]); (T 74,[3;4;5;6])] [4;0;1;2;5;6]));
  (*250*) Del (T 74);
  (*251*) Assign (T 79) (Times (Einsum [(n_t3,[0;1;2;3;4;5]); (T 78,[6;7;2;1])] [6;0;7;3;4;5]) (-1) 1);
  (*252*) Del (T 78);
  (*253*) Assign (T 63) (Plain (Einsum [(n_v'OOVo,[0;1;2;3]); (n_t2_OoVV,[4;3;5;6])] [4;0;1;5;6;2]));
  (*254*) Assign (T 83) (Plain (Einsum [(T 82,[0;1]); (n_t3,[2;3;4;5;6;1])] [2;3;4;5;6;0]));
  (*255*) Del (T 82);
  (*256*) Assign (T 91) (Plain (Einsum [(n_t3,[0;1;2;3;4;5]); (T 90,[6;7;2;1])] [7;6;0;3;4;5]));
  (*257*) Del (T 90);
  (*258*) Assign (T 85) (Plain (Einsum [(T 84,[0;1;2;3]); (n_t3,[4;5;1;6;7;2])] [0;4;5;6;7;3]));
  (*259*) Del (T 84);
  (*260*) Assign (T 69) (Plain (Einsum [(T 68,[0;1;2;3]); (n_t2_OoVV,[4;0;5;6])] [4;1;2;3;5;6]));
  (*261*) Del (T 68);
  (*262*) Assign (T 97) (Plain (Einsum [(n_t3,[0;1;2;3;4;5]); (T 96,[6;7;1;2;8;5])] [6;7;0;8;3;4]));
  (*263*) Del (T 96);
  (*264*) Assign (T 60) (Plain (Einsum [(T 59,[0;1]); (n_t3,[2;3;4;5;6;0])] [2;3;4;1;5;6]));
  (*265*) Del (T 59);
  (*266*) Assign (T 137) (Plain (Einsum [(T 136,[0;1]); (n_t3,[2;3;4;5;6;1])] [2;3;4;0;5;6]));
  (*267*) Del (T 136);
  (*268*) Assign (T 17) (Times (Einsum [(n_t3,[0;1;2;3;4;5]); (n_v'OvVV,[2;6;4;5])] [6;0;1;3]) (-1) 1);
  (*269*) Assign (T 32) (Plain (Einsum [(T 31,[0;1;2;3]); (n_t1,[0;4])] [4;1;2;3]));
  (*270*) Del (T 31);
  (*271*) Assign (T 30) (Times (Einsum [(n_t3,[0;1;2;3;4;5]); (T 29,[6;2;1;5])] [6;0;3;4]) (-1) 1);
  (*272*) Del (T 29);
  (*273*) Assign (T 16) (Times (Einsum [(n_v'OOVo,[0;1;2;3]); (n_t3,[4;0;1;5;6;2])] [3;4;5;6]) (-1) 1);
  (*274*) Assign (T 28) (Plain (Einsum [(n_v'OoVv,[0;1;2;3]); (n_t1,[1;3])] [0;2]));
  (*275*) Assign (T 45) (Plain (Einsum [(T 44,[0;1;2;3]); (n_t1,[2;4])] [0;1;4;3]));
  (*276*) Del (T 44);
  (*277*) Assign (T 10) (Plain (Einsum [(T 1,[0;1]); (n_t2,[2;0;3;4])] [1;2;3;4]));
  (*278*) Assign (T 9) (Plain (Einsum [(n_f'vv,[0;1]); (n_t2,[2;3;4;1])] [2;3;0;4]));
  (*279*) Assign (T 15) (Plain (Einsum [(n_t2,[0;1;2;3]); (n_v'ovov,[4;3;1;5])] [0;4;2;5]));
  (*280*) Assign (T 18) (Times (Einsum [(n_t2,[0;1;2;3]); (T 5,[1;4])] [0;4;2;3]) (-1) 1);
  (*281*) Assign (T 49) (Times (Einsum [(T 38,[0;1;2;3]); (n_t1,[2;4])] [0;1;3;4]) (-1) 1);
  (*282*) Assign (T 37) (Plain (Einsum [(T 4,[0;1]); (n_t2,[2;1;3;4])] [2;0;3;4]));
  (*283*) Assign (T 13) (Plain (Einsum [(n_v'ooov,[0;1;2;3]); (n_t1,[2;4])] [0;1;4;3]));
  (*284*) Assign (T 42) (Plain (Einsum [(T 41,[0;1;2;3]); (n_t2,[4;1;5;3])] [0;4;2;5]));
  (*285*) Del (T 41);
  (*286*) Assign (T 48) (Plain (Einsum [(T 47,[0;1;2;3]); (n_t1,[2;4])] [0;1;4;3]));
  (*287*) Del (T 47);
  (*288*) Assign (T 22) (Plain (Einsum [(n_t1,[0;1]); (T 21,[2;0;3;4])] [2;3;1;4]));
  (*289*) Del (T 21);
  (*290*) Assign (T 27) (Plain (Einsum [(T 26,[0;1;2;3]); (n_t1,[2;4])] [0;1;4;3]));
  (*291*) Del (T 26);
  (*292*) Assign (T 20) (Times (Einsum [(T 19,[0;1;2;3]); (n_t2,[2;1;4;5])] [0;3;4;5]) (-1) 1);
  (*293*) Del (T 19);
  (*294*) Assign (T 35) (Plain (Einsum [(n_t1,[0;1]); (T 34,[2;0;3;4])] [2;3;1;4]));
  (*295*) Del (T 34);
  (*296*) Assign (T 23) (Times (Einsum [(T 6,[0;1]); (n_t2,[2;3;4;1])] [2;3;4;0]) (-1) 1);
  (*297*) Assign (T 25) (Times (Einsum [(n_t2,[0;1;2;3]); (T 24,[4;1;5;3])] [4;0;2;5]) (-1) 1);
  (*298*) Del (T 24);
  (*299*) Assign (T 12) (Plain (Einsum [(T 11,[0;1;2;3]); (n_t1,[0;4])] [1;2;4;3]));
  (*300*) Del (T 11);
  (*301*) Assign (T 8) (Plain (Einsum [(n_f'oo,[0;1]); (n_t2,[2;1;3;4])] [0;2;3;4]));
  (*302*) Assign (T 14) (Plain (Einsum [(n_v'ovvv,[0;1;2;3]); (n_t1,[4;1])] [4;0;2;3]));
  (*303*) Assign (T 43) (Times (Einsum [(T 7,[0;1]); (n_t2,[2;1;3;4])] [0;2;3;4]) (-1) 1);
  (*304*) Assign (T 54) (Plain (Einsum [(T 46,[0;1;2;3]); (n_t1,[3;4])] [0;1;2;4]));
  (*305*) Assign (T 51) (Times (Einsum [(n_t1,[0;1]); (T 50,[2;0;3;4])] [2;3;4;1]) (-1) 1);
  (*306*) Del (T 50);
  (*307*) Assign (T 36) (Plain (Einsum [(n_t1,[0;1]); (n_v'vvvv,[2;3;4;1])] [0;2;3;4]));
  (*308*) Assign (T 53) (Times (Einsum [(n_t1,[0;1]); (T 52,[2;3;0;4])] [3;2;1;4]) (-1) 1);
  (*309*) Del (T 52);
  (*310*) Assign (T 33) (Plain (Einsum [(n_v'oooo,[0;1;2;3]); (n_t1,[3;4])] [0;1;2;4]));
  (*311*) Assign (T 40) (Plain (Einsum [(T 39,[0;1]); (n_t2,[2;3;4;1])] [2;3;4;0]));
  (*312*) Del (T 39);
  (*313*) Assign n_t3new (Times (Transpose (T 55) [1;2;0;4;5;3]) (-1) 1);
  (*314*) AddTo n_t3new (Plain (Transpose (T 55) [1;0;2;4;5;3]));
  (*315*) AddTo n_t3new (Plain (Transpose (T 55) [0;2;1;4;5;3]));
  (*316*) Del (T 55);
  (*317*) AddTo n_t3new (Times (Transpose (T 56) [0;1;2;3;5;4]) (-1) 1);
  (*318*) AddTo n_t3new (Plain (Transpose (T 56) [0;1;2;5;3;4]));
  (*319*) AddTo n_t3new (Times (Transpose (T 56) [0;1;2;5;4;3]) (-1) 1);
  (*320*) Del (T 56);
  (*321*) AddTo n_t3new (Times (Transpose (T 58) [1;2;0;4;5;3]) (-1) 1);
  (*322*) AddTo n_t3new (Plain (Transpose (T 58) [1;0;2;4;5;3]));
  (*323*) AddTo n_t3new (Plain (Transpose (T 58) [0;2;1;4;5;3]));
  (*324*) Del (T 58);
  (*325*) AddTo n_t3new (Plain (Transpose (T 60) [0;1;2;3;5;4]));
  (*326*) AddTo n_t3new (Times (Transpose (T 60) [0;1;2;5;3;4]) (-1) 1);
  (*327*) AddTo n_t3new (Plain (Transpose (T 60) [0;1;2;5;4;3]));
  (*328*) Del (T 60);
  (*329*) AddTo n_t3new (Plain (Transpose (T 62) [2;1;0;3;5;4]));
  (*330*) AddTo n_t3new (Plain (Transpose (T 62) [0;2;1;3;5;4]));
  (*331*) AddTo n_t3new (Times (Transpose (T 62) [2;1;0;5;3;4]) (-1) 1);
  (*332*) AddTo n_t3new (Times (Transpose (T 62) [0;2;1;5;3;4]) (-1) 1);
  (*333*) AddTo n_t3new (Times (Transpose (T 62) [0;1;2;3;5;4]) (-1) 1);
  (*334*) AddTo n_t3new (Plain (Transpose (T 62) [0;1;2;5;3;4]));
  (*335*) AddTo n_t3new (Plain (Transpose (T 62) [2;1;0;5;4;3]));
  (*336*) AddTo n_t3new (Plain (Transpose (T 62) [0;2;1;5;4;3]));
  (*337*) AddTo n_t3new (Times (Transpose (T 62) [0;1;2;5;4;3]) (-1) 1);
  (*338*) Del (T 62);
  (*339*) AddTo n_t3new (Plain (Transpose (T 63) [0;2;1;5;4;3]));
  (*340*) AddTo n_t3new (Plain (Transpose (T 63) [1;0;2;5;4;3]));
  (*341*) AddTo n_t3new (Times (Transpose (T 63) [0;2;1;4;5;3]) (-1) 1);
  (*342*) AddTo n_t3new (Times (Transpose (T 63) [1;0;2;4;5;3]) (-1) 1);
  (*343*) AddTo n_t3new (Times (Transpose (T 63) [1;2;0;5;4;3]) (-1) 1);
  (*344*) AddTo n_t3new (Plain (Transpose (T 63) [1;2;0;4;5;3]));
  (*345*) AddTo n_t3new (Plain (Transpose (T 63) [0;2;1;4;3;5]));
  (*346*) AddTo n_t3new (Plain (Transpose (T 63) [1;0;2;4;3;5]));
  (*347*) AddTo n_t3new (Times (Transpose (T 63) [1;2;0;4;3;5]) (-1) 1);
  (*348*) Del (T 63);
  (*349*) AddTo n_t3new (Plain (Transpose (T 64) [0;1;2;5;4;3]));
  (*350*) AddTo n_t3new (Times (Transpose (T 64) [0;2;1;5;4;3]) (-1) 1);
  (*351*) AddTo n_t3new (Times (Transpose (T 64) [0;1;2;5;3;4]) (-1) 1);
  (*352*) AddTo n_t3new (Plain (Transpose (T 64) [0;2;1;5;3;4]));
  (*353*) AddTo n_t3new (Times (Transpose (T 64) [2;1;0;5;4;3]) (-1) 1);
  (*354*) AddTo n_t3new (Plain (Transpose (T 64) [2;1;0;5;3;4]));
  (*355*) AddTo n_t3new (Plain (Transpose (T 64) [0;1;2;3;5;4]));
  (*356*) AddTo n_t3new (Times (Transpose (T 64) [0;2;1;3;5;4]) (-1) 1);
  (*357*) AddTo n_t3new (Times (Transpose (T 64) [2;1;0;3;5;4]) (-1) 1);
  (*358*) Del (T 64);
  (*359*) AddTo n_t3new (Times (Transpose (T 65) [0;2;1;4;5;3]) (-1) 2);
  (*360*) AddTo n_t3new (Times (Transpose (T 65) [1;0;2;4;5;3]) (-1) 2);
  (*361*) AddTo n_t3new (Times (Transpose (T 65) [1;2;0;4;5;3]) (1) 2);
  (*362*) Del (T 65);
  (*363*) AddTo n_t3new (Plain (Transpose (T 66) [0;1;2;5;4;3]));
  (*364*) AddTo n_t3new (Times (Transpose (T 66) [0;2;1;5;4;3]) (-1) 1);
  (*365*) AddTo n_t3new (Times (Transpose (T 66) [0;1;2;4;5;3]) (-1) 1);
  (*366*) AddTo n_t3new (Plain (Transpose (T 66) [0;2;1;4;5;3]));
  (*367*) AddTo n_t3new (Times (Transpose (T 66) [2;1;0;5;4;3]) (-1) 1);
  (*368*) AddTo n_t3new (Plain (Transpose (T 66) [2;1;0;4;5;3]));
  (*369*) AddTo n_t3new (Plain (Transpose (T 66) [0;1;2;4;3;5]));
  (*370*) AddTo n_t3new (Times (Transpose (T 66) [0;2;1;4;3;5]) (-1) 1);
  (*371*) AddTo n_t3new (Times (Transpose (T 66) [2;1;0;4;3;5]) (-1) 1);
  (*372*) Del (T 66);
  (*373*) AddTo n_t3new (Times (Transpose (T 67) [0;1;2;5;4;3]) (-1) 2);
  (*374*) AddTo n_t3new (Times (Transpose (T 67) [0;1;2;5;3;4]) (1) 2);
  (*375*) AddTo n_t3new (Times (Transpose (T 67) [0;1;2;3;5;4]) (-1) 2);
  (*376*) Del (T 67);
  (*377*) AddTo n_t3new (Plain (Transpose (T 69) [0;2;1;3;5;4]));
  (*378*) AddTo n_t3new (Plain (Transpose (T 69) [1;0;2;3;5;4]));
  (*379*) AddTo n_t3new (Times (Transpose (T 69) [0;2;1;5;3;4]) (-1) 1);
  (*380*) AddTo n_t3new (Times (Transpose (T 69) [1;0;2;5;3;4]) (-1) 1);
  (*381*) AddTo n_t3new (Plain (Transpose (T 69) [0;2;1;5;4;3]));
  (*382*) AddTo n_t3new (Plain (Transpose (T 69) [1;0;2;5;4;3]));
  (*383*) AddTo n_t3new (Times (Transpose (T 69) [1;2;0;3;5;4]) (-1) 1);
  (*384*) AddTo n_t3new (Plain (Transpose (T 69) [1;2;0;5;3;4]));
  (*385*) AddTo n_t3new (Times (Transpose (T 69) [1;2;0;5;4;3]) (-1) 1);
  (*386*) Del (T 69);
  (*387*) AddTo n_t3new (Times (Transpose (T 71) [1;0;2;5;4;3]) (-1) 1);
  (*388*) AddTo n_t3new (Plain (Transpose (T 71) [0;1;2;5;4;3]));
  (*389*) AddTo n_t3new (Plain (Transpose (T 71) [1;0;2;4;5;3]));
  (*390*) AddTo n_t3new (Times (Transpose (T 71) [0;1;2;4;5;3]) (-1) 1);
  (*391*) AddTo n_t3new (Times (Transpose (T 73) [0;1;2;5;3;4]) (-1) 1);
  (*392*) AddTo n_t3new (Plain (Transpose (T 73) [0;2;1;5;3;4]));
  (*393*) AddTo n_t3new (Plain (Transpose (T 73) [0;1;2;5;4;3]));
  (*394*) AddTo n_t3new (Times (Transpose (T 73) [0;2;1;5;4;3]) (-1) 1);
  (*395*) AddTo n_t3new (Plain (Transpose (T 71) [1;2;0;5;4;3]));
  (*396*) AddTo n_t3new (Times (Transpose (T 71) [0;2;1;5;4;3]) (-1) 1);
  (*397*) AddTo n_t3new (Times (Transpose (T 71) [1;2;0;4;5;3]) (-1) 1);
  (*398*) AddTo n_t3new (Plain (Transpose (T 71) [0;2;1;4;5;3]));
  (*399*) AddTo n_t3new (Times (Transpose (T 71) [2;1;0;5;4;3]) (-1) 1);
  (*400*) AddTo n_t3new (Plain (Transpose (T 71) [2;0;1;5;4;3]));
  (*401*) AddTo n_t3new (Plain (Transpose (T 71) [2;1;0;4;5;3]));
  (*402*) AddTo n_t3new (Times (Transpose (T 71) [2;0;1;4;5;3]) (-1) 1);
  (*403*) AddTo n_t3new (Plain (Transpose (T 73) [2;1;0;5;3;4]));
  (*404*) AddTo n_t3new (Times (Transpose (T 73) [2;1;0;5;4;3]) (-1) 1);
  (*405*) AddTo n_t3new (Plain (Transpose (T 73) [0;1;2;3;5;4]));
  (*406*) AddTo n_t3new (Times (Transpose (T 73) [0;2;1;3;5;4]) (-1) 1);
  (*407*) AddTo n_t3new (Times (Transpose (T 73) [0;1;2;4;5;3]) (-1) 1);
  (*408*) AddTo n_t3new (Plain (Transpose (T 73) [0;2;1;4;5;3]));
  (*409*) AddTo n_t3new (Times (Transpose (T 73) [2;1;0;3;5;4]) (-1) 1);
  (*410*) AddTo n_t3new (Plain (Transpose (T 73) [2;1;0;4;5;3]));
  (*411*) AddTo n_t3new (Times (Transpose (T 71) [1;0;2;4;3;5]) (-1) 1);
  (*412*) AddTo n_t3new (Plain (Transpose (T 71) [0;1;2;4;3;5]));
  (*413*) AddTo n_t3new (Times (Copy (T 73)) (-1) 1);
  (*414*) AddTo n_t3new (Plain (Transpose (T 73) [0;2;1;3;4;5]));
  (*415*) AddTo n_t3new (Plain (Transpose (T 73) [0;1;2;4;3;5]));
  (*416*) AddTo n_t3new (Times (Transpose (T 73) [0;2;1;4;3;5]) (-1) 1);
  (*417*) AddTo n_t3new (Plain (Transpose (T 71) [1;2;0;4;3;5]));
  (*418*) AddTo n_t3new (Times (Transpose (T 71) [0;2;1;4;3;5]) (-1) 1);
  (*419*) AddTo n_t3new (Times (Transpose (T 71) [2;1;0;4;3;5]) (-1) 1);
  (*420*) AddTo n_t3new (Plain (Transpose (T 71) [2;0;1;4;3;5]));
  (*421*) Del (T 71);
  (*422*) AddTo n_t3new (Plain (Transpose (T 73) [2;1;0;3;4;5]));
  (*423*) AddTo n_t3new (Times (Transpose (T 73) [2;1;0;4;3;5]) (-1) 1);
  (*424*) Del (T 73);
  (*425*) AddTo n_t3new (Times (Transpose (T 75) [1;2;0;5;4;3]) (-1) 1);
  (*426*) AddTo n_t3new (Plain (Transpose (T 75) [1;0;2;5;4;3]));
  (*427*) AddTo n_t3new (Plain (Transpose (T 75) [1;2;0;5;3;4]));
  (*428*) AddTo n_t3new (Times (Transpose (T 75) [1;0;2;5;3;4]) (-1) 1);
  (*429*) AddTo n_t3new (Plain (Transpose (T 75) [0;2;1;5;4;3]));
  (*430*) AddTo n_t3new (Times (Transpose (T 75) [0;2;1;5;3;4]) (-1) 1);
  (*431*) AddTo n_t3new (Times (Transpose (T 75) [1;2;0;3;5;4]) (-1) 1);
  (*432*) AddTo n_t3new (Plain (Transpose (T 75) [1;0;2;3;5;4]));
  (*433*) AddTo n_t3new (Plain (Transpose (T 75) [0;2;1;3;5;4]));
  (*434*) Del (T 75);
  (*435*) AddTo n_t3new (Times (Transpose (T 77) [0;1;2;4;5;3]) (-1) 1);
  (*436*) AddTo n_t3new (Plain (Transpose (T 77) [0;2;1;4;5;3]));
  (*437*) AddTo n_t3new (Times (Transpose (T 79) [1;0;2;4;5;3]) (1) 2);
  (*438*) AddTo n_t3new (Times (Transpose (T 79) [0;1;2;4;5;3]) (-1) 2);
  (*439*) AddTo n_t3new (Plain (Transpose (T 81) [0;1;2;3;5;4]));
  (*440*) AddTo n_t3new (Times (Transpose (T 81) [0;2;1;3;5;4]) (-1) 1);
  (*441*) AddTo n_t3new (Times (Transpose (T 81) [0;1;2;5;3;4]) (-1) 1);
  (*442*) AddTo n_t3new (Plain (Transpose (T 81) [0;2;1;5;3;4]));
  (*443*) AddTo n_t3new (Plain (Transpose (T 81) [0;1;2;5;4;3]));
  (*444*) AddTo n_t3new (Times (Transpose (T 81) [0;2;1;5;4;3]) (-1) 1);
  (*445*) AddTo n_t3new (Times (Transpose (T 79) [1;2;0;4;5;3]) (-1) 2);
  (*446*) AddTo n_t3new (Times (Transpose (T 79) [0;2;1;4;5;3]) (1) 2);
  (*447*) AddTo n_t3new (Plain (Transpose (T 77) [2;1;0;4;5;3]));
  (*448*) Del (T 77);
  (*449*) AddTo n_t3new (Times (Transpose (T 79) [2;1;0;4;5;3]) (1) 2);
  (*450*) AddTo n_t3new (Times (Transpose (T 79) [2;0;1;4;5;3]) (-1) 2);
  (*451*) Del (T 79);
  (*452*) AddTo n_t3new (Times (Transpose (T 81) [2;1;0;3;5;4]) (-1) 1);
  (*453*) AddTo n_t3new (Plain (Transpose (T 81) [2;1;0;5;3;4]));
  (*454*) AddTo n_t3new (Times (Transpose (T 81) [2;1;0;5;4;3]) (-1) 1);
  (*455*) Del (T 81);
  (*456*) AddTo n_t3new (Times (Transpose (T 83) [0;1;2;5;4;3]) (-1) 1);
  (*457*) AddTo n_t3new (Plain (Transpose (T 83) [0;1;2;4;5;3]));
  (*458*) AddTo n_t3new (Plain (Transpose (T 85) [1;2;0;5;4;3]));
  (*459*) AddTo n_t3new (Times (Transpose (T 85) [1;0;2;5;4;3]) (-1) 1);
  (*460*) AddTo n_t3new (Times (Transpose (T 85) [1;2;0;4;5;3]) (-1) 1);
  (*461*) AddTo n_t3new (Plain (Transpose (T 85) [1;0;2;4;5;3]));
  (*462*) AddTo n_t3new (Times (Transpose (T 85) [0;2;1;5;4;3]) (-1) 1);
  (*463*) AddTo n_t3new (Plain (Transpose (T 85) [0;2;1;4;5;3]));
  (*464*) AddTo n_t3new (Times (Transpose (T 87) [0;1;2;5;3;4]) (1) 2);
  (*465*) AddTo n_t3new (Times (Transpose (T 87) [0;1;2;5;4;3]) (-1) 2);
  (*466*) AddTo n_t3new (Times (Transpose (T 87) [0;1;2;3;5;4]) (-1) 2);
  (*467*) AddTo n_t3new (Times (Transpose (T 87) [0;1;2;4;5;3]) (1) 2);
  (*468*) AddTo n_t3new (Times (Transpose (T 83) [0;1;2;4;3;5]) (-1) 1);
  (*469*) Del (T 83);
  (*470*) AddTo n_t3new (Plain (Transpose (T 85) [1;2;0;4;3;5]));
  (*471*) AddTo n_t3new (Times (Transpose (T 85) [1;0;2;4;3;5]) (-1) 1);
  (*472*) AddTo n_t3new (Times (Transpose (T 85) [0;2;1;4;3;5]) (-1) 1);
  (*473*) Del (T 85);
  (*474*) AddTo n_t3new (Times (Copy (T 87)) (1) 2);
  (*475*) AddTo n_t3new (Times (Transpose (T 87) [0;1;2;4;3;5]) (-1) 2);
  (*476*) Del (T 87);
  (*477*) AddTo n_t3new (Times (Transpose (T 89) [1;2;0;3;5;4]) (1) 2);
  (*478*) AddTo n_t3new (Times (Transpose (T 89) [2;0;1;3;5;4]) (1) 2);
  (*479*) AddTo n_t3new (Times (Transpose (T 89) [0;2;1;3;5;4]) (-1) 2);
  (*480*) Del (T 89);
  (*481*) AddTo n_t3new (Times (Transpose (T 91) [2;1;0;3;4;5]) (-1) 4);
  (*482*) AddTo n_t3new (Times (Transpose (T 91) [1;2;0;3;4;5]) (1) 4);
  (*483*) AddTo n_t3new (Times (Copy (T 91)) (1) 4);
  (*484*) Del (T 91);
  (*485*) AddTo n_t3new (Times (Transpose (T 93) [2;1;0;3;4;5]) (1) 2);
  (*486*) AddTo n_t3new (Times (Transpose (T 93) [2;1;0;4;3;5]) (-1) 2);
  (*487*) AddTo n_t3new (Times (Transpose (T 95) [1;2;0;3;5;4]) (-1) 1);
  (*488*) AddTo n_t3new (Times (Transpose (T 95) [2;0;1;3;5;4]) (-1) 1);
  (*489*) AddTo n_t3new (Times (Transpose (T 95) [1;2;0;4;3;5]) (-1) 1);
  (*490*) AddTo n_t3new (Times (Transpose (T 95) [2;0;1;4;3;5]) (-1) 1);
  (*491*) AddTo n_t3new (Plain (Transpose (T 95) [0;2;1;3;5;4]));
  (*492*) AddTo n_t3new (Plain (Transpose (T 95) [0;2;1;4;3;5]));
  (*493*) AddTo n_t3new (Times (Transpose (T 97) [2;1;0;3;5;4]) (-1) 2);
  (*494*) AddTo n_t3new (Times (Transpose (T 97) [1;2;0;3;5;4]) (1) 2);
  (*495*) AddTo n_t3new (Times (Transpose (T 97) [2;1;0;5;3;4]) (1) 2);
  (*496*) AddTo n_t3new (Times (Transpose (T 97) [1;2;0;5;3;4]) (-1) 2);
  (*497*) AddTo n_t3new (Times (Transpose (T 97) [0;1;2;3;5;4]) (1) 2);
  (*498*) AddTo n_t3new (Times (Transpose (T 97) [0;1;2;5;3;4]) (-1) 2);
  (*499*) AddTo n_t3new (Times (Transpose (T 93) [2;1;0;4;5;3]) (1) 2);
  (*500*) Del (T 93);
  (*501*) AddTo n_t3new (Plain (Transpose (T 95) [1;2;0;4;5;3]));
  (*502*) AddTo n_t3new (Plain (Transpose (T 95) [2;0;1;4;5;3]));
  (*503*) AddTo n_t3new (Times (Transpose (T 95) [0;2;1;4;5;3]) (-1) 1);
  (*504*) Del (T 95);
  (*505*) AddTo n_t3new (Times (Transpose (T 97) [2;1;0;5;4;3]) (-1) 2);
  (*506*) AddTo n_t3new (Times (Transpose (T 97) [1;2;0;5;4;3]) (1) 2);
  (*507*) AddTo n_t3new (Times (Transpose (T 97) [0;1;2;5;4;3]) (1) 2);
  (*508*) Del (T 97);
  (*509*) AddTo n_t3new (Times (Transpose (T 99) [2;1;0;3;4;5]) (-1) 4);
  (*510*) AddTo n_t3new (Times (Transpose (T 99) [2;1;0;3;5;4]) (1) 4);
  (*511*) AddTo n_t3new (Times (Transpose (T 100) [1;2;0;4;3;5]) (1) 2);
  (*512*) AddTo n_t3new (Times (Transpose (T 100) [2;0;1;4;3;5]) (1) 2);
  (*513*) AddTo n_t3new (Times (Transpose (T 100) [1;2;0;4;5;3]) (-1) 2);
  (*514*) AddTo n_t3new (Times (Transpose (T 100) [2;0;1;4;5;3]) (-1) 2);
  (*515*) AddTo n_t3new (Times (Transpose (T 100) [0;2;1;4;3;5]) (-1) 2);
  (*516*) AddTo n_t3new (Times (Transpose (T 100) [0;2;1;4;5;3]) (1) 2);
  (*517*) AddTo n_t3new (Times (Transpose (T 99) [2;1;0;5;4;3]) (1) 4);
  (*518*) Del (T 99);
  (*519*) AddTo n_t3new (Times (Transpose (T 100) [1;2;0;5;4;3]) (1) 2);
  (*520*) AddTo n_t3new (Times (Transpose (T 100) [2;0;1;5;4;3]) (1) 2);
  (*521*) AddTo n_t3new (Times (Transpose (T 100) [0;2;1;5;4;3]) (-1) 2);
  (*522*) Del (T 100);
  (*523*) AddTo n_t3new (Times (Transpose (T 102) [0;1;2;5;4;3]) (-1) 1);
  (*524*) AddTo n_t3new (Plain (Transpose (T 102) [1;0;2;5;4;3]));
  (*525*) AddTo n_t3new (Plain (Transpose (T 102) [0;1;2;4;5;3]));
  (*526*) AddTo n_t3new (Times (Transpose (T 102) [1;0;2;4;5;3]) (-1) 1);
  (*527*) AddTo n_t3new (Times (Transpose (T 104) [0;1;2;5;4;3]) (1) 2);
  (*528*) AddTo n_t3new (Times (Transpose (T 104) [0;2;1;5;4;3]) (-1) 2);
  (*529*) AddTo n_t3new (Times (Transpose (T 104) [0;1;2;4;5;3]) (-1) 2);
  (*530*) AddTo n_t3new (Times (Transpose (T 104) [0;2;1;4;5;3]) (1) 2);
  (*531*) AddTo n_t3new (Times (Transpose (T 102) [0;1;2;4;3;5]) (-1) 1);
  (*532*) AddTo n_t3new (Plain (Transpose (T 102) [1;0;2;4;3;5]));
  (*533*) AddTo n_t3new (Times (Transpose (T 104) [0;1;2;4;3;5]) (1) 2);
  (*534*) AddTo n_t3new (Times (Transpose (T 104) [0;2;1;4;3;5]) (-1) 2);
  (*535*) AddTo n_t3new (Plain (Transpose (T 102) [0;2;1;5;4;3]));
  (*536*) AddTo n_t3new (Times (Transpose (T 102) [1;2;0;5;4;3]) (-1) 1);
  (*537*) AddTo n_t3new (Times (Transpose (T 102) [0;2;1;4;5;3]) (-1) 1);
  (*538*) AddTo n_t3new (Plain (Transpose (T 102) [1;2;0;4;5;3]));
  (*539*) AddTo n_t3new (Plain (Transpose (T 102) [0;2;1;4;3;5]));
  (*540*) AddTo n_t3new (Times (Transpose (T 102) [1;2;0;4;3;5]) (-1) 1);
  (*541*) AddTo n_t3new (Times (Transpose (T 102) [2;0;1;5;4;3]) (-1) 1);
  (*542*) AddTo n_t3new (Plain (Transpose (T 102) [2;1;0;5;4;3]));
  (*543*) AddTo n_t3new (Plain (Transpose (T 102) [2;0;1;4;5;3]));
  (*544*) AddTo n_t3new (Times (Transpose (T 102) [2;1;0;4;5;3]) (-1) 1);
  (*545*) AddTo n_t3new (Times (Transpose (T 104) [2;1;0;5;4;3]) (-1) 2);
  (*546*) AddTo n_t3new (Times (Transpose (T 104) [2;1;0;4;5;3]) (1) 2);
  (*547*) AddTo n_t3new (Times (Transpose (T 102) [2;0;1;4;3;5]) (-1) 1);
  (*548*) AddTo n_t3new (Plain (Transpose (T 102) [2;1;0;4;3;5]));
  (*549*) Del (T 102);
  (*550*) AddTo n_t3new (Times (Transpose (T 104) [2;1;0;4;3;5]) (-1) 2);
  (*551*) Del (T 104);
  (*552*) AddTo n_t3new (Times (Transpose (T 106) [2;1;0;5;4;3]) (1) 2);
  (*553*) AddTo n_t3new (Times (Transpose (T 106) [0;2;1;5;4;3]) (1) 2);
  (*554*) AddTo n_t3new (Times (Transpose (T 106) [2;1;0;4;5;3]) (-1) 2);
  (*555*) AddTo n_t3new (Times (Transpose (T 106) [0;2;1;4;5;3]) (-1) 2);
  (*556*) AddTo n_t3new (Times (Transpose (T 106) [0;1;2;5;4;3]) (-1) 2);
  (*557*) AddTo n_t3new (Times (Transpose (T 106) [0;1;2;4;5;3]) (1) 2);
  (*558*) AddTo n_t3new (Plain (Transpose (T 108) [0;1;2;5;4;3]));
  (*559*) AddTo n_t3new (Times (Transpose (T 108) [0;2;1;5;4;3]) (-1) 1);
  (*560*) AddTo n_t3new (Times (Transpose (T 108) [0;1;2;4;5;3]) (-1) 1);
  (*561*) AddTo n_t3new (Plain (Transpose (T 108) [0;2;1;4;5;3]));
  (*562*) AddTo n_t3new (Times (Transpose (T 108) [2;1;0;5;4;3]) (-1) 1);
  (*563*) AddTo n_t3new (Plain (Transpose (T 108) [2;1;0;4;5;3]));
  (*564*) AddTo n_t3new (Plain (Transpose (T 108) [2;1;0;5;3;4]));
  (*565*) AddTo n_t3new (Plain (Transpose (T 108) [0;2;1;5;3;4]));
  (*566*) AddTo n_t3new (Times (Transpose (T 108) [2;1;0;3;5;4]) (-1) 1);
  (*567*) AddTo n_t3new (Times (Transpose (T 108) [0;2;1;3;5;4]) (-1) 1);
  (*568*) AddTo n_t3new (Times (Transpose (T 108) [0;1;2;5;3;4]) (-1) 1);
  (*569*) AddTo n_t3new (Plain (Transpose (T 108) [0;1;2;3;5;4]));
  (*570*) AddTo n_t3new (Times (Transpose (T 106) [2;1;0;4;3;5]) (1) 2);
  (*571*) AddTo n_t3new (Times (Transpose (T 106) [0;2;1;4;3;5]) (1) 2);
  (*572*) AddTo n_t3new (Times (Transpose (T 106) [0;1;2;4;3;5]) (-1) 2);
  (*573*) Del (T 106);
  (*574*) AddTo n_t3new (Plain (Transpose (T 108) [0;1;2;4;3;5]));
  (*575*) AddTo n_t3new (Times (Transpose (T 108) [0;2;1;4;3;5]) (-1) 1);
  (*576*) AddTo n_t3new (Times (Transpose (T 108) [2;1;0;4;3;5]) (-1) 1);
  (*577*) AddTo n_t3new (Plain (Transpose (T 108) [2;1;0;3;4;5]));
  (*578*) AddTo n_t3new (Plain (Transpose (T 108) [0;2;1;3;4;5]));
  (*579*) AddTo n_t3new (Times (Copy (T 108)) (-1) 1);
  (*580*) Del (T 108);
  (*581*) AddTo n_t3new (Times (Transpose (T 110) [2;1;0;3;4;5]) (-1) 1);
  (*582*) AddTo n_t3new (Plain (Transpose (T 110) [1;2;0;3;4;5]));
  (*583*) AddTo n_t3new (Plain (Transpose (T 110) [2;1;0;4;3;5]));
  (*584*) AddTo n_t3new (Times (Transpose (T 110) [1;2;0;4;3;5]) (-1) 1);
  (*585*) AddTo n_t3new (Plain (Copy (T 110)));
  (*586*) AddTo n_t3new (Times (Transpose (T 110) [0;1;2;4;3;5]) (-1) 1);
  (*587*) AddTo n_t3new (Times (Transpose (T 110) [2;1;0;4;5;3]) (-1) 1);
  (*588*) AddTo n_t3new (Plain (Transpose (T 110) [1;2;0;4;5;3]));
  (*589*) AddTo n_t3new (Plain (Transpose (T 110) [0;1;2;4;5;3]));
  (*590*) Del (T 110);
  (*591*) AddTo n_t3new (Times (Transpose (T 113) [1;2;0;5;3;4]) (-1) 1);
  (*592*) AddTo n_t3new (Plain (Transpose (T 113) [2;1;0;5;3;4]));
  (*593*) AddTo n_t3new (Plain (Transpose (T 113) [1;2;0;3;5;4]));
  (*594*) AddTo n_t3new (Times (Transpose (T 113) [2;1;0;3;5;4]) (-1) 1);
  (*595*) AddTo n_t3new (Times (Transpose (T 115) [1;2;0;5;3;4]) (1) 2);
  (*596*) AddTo n_t3new (Times (Transpose (T 115) [2;0;1;5;3;4]) (1) 2);
  (*597*) AddTo n_t3new (Times (Transpose (T 115) [1;2;0;3;5;4]) (-1) 2);
  (*598*) AddTo n_t3new (Times (Transpose (T 115) [2;0;1;3;5;4]) (-1) 2);
  (*599*) AddTo n_t3new (Times (Transpose (T 113) [1;2;0;3;4;5]) (-1) 1);
  (*600*) AddTo n_t3new (Plain (Transpose (T 113) [2;1;0;3;4;5]));
  (*601*) AddTo n_t3new (Times (Transpose (T 115) [1;2;0;3;4;5]) (1) 2);
  (*602*) AddTo n_t3new (Times (Transpose (T 115) [2;0;1;3;4;5]) (1) 2);
  (*603*) AddTo n_t3new (Plain (Transpose (T 113) [1;0;2;5;3;4]));
  (*604*) AddTo n_t3new (Times (Transpose (T 113) [2;0;1;5;3;4]) (-1) 1);
  (*605*) AddTo n_t3new (Times (Transpose (T 113) [1;0;2;3;5;4]) (-1) 1);
  (*606*) AddTo n_t3new (Plain (Transpose (T 113) [2;0;1;3;5;4]));
  (*607*) AddTo n_t3new (Plain (Transpose (T 113) [1;0;2;3;4;5]));
  (*608*) AddTo n_t3new (Times (Transpose (T 113) [2;0;1;3;4;5]) (-1) 1);
  (*609*) AddTo n_t3new (Times (Transpose (T 113) [0;1;2;5;3;4]) (-1) 1);
  (*610*) AddTo n_t3new (Plain (Transpose (T 113) [0;2;1;5;3;4]));
  (*611*) AddTo n_t3new (Plain (Transpose (T 113) [0;1;2;3;5;4]));
  (*612*) AddTo n_t3new (Times (Transpose (T 113) [0;2;1;3;5;4]) (-1) 1);
  (*613*) AddTo n_t3new (Times (Transpose (T 115) [0;2;1;5;3;4]) (-1) 2);
  (*614*) AddTo n_t3new (Times (Transpose (T 115) [0;2;1;3;5;4]) (1) 2);
  (*615*) AddTo n_t3new (Times (Copy (T 113)) (-1) 1);
  (*616*) AddTo n_t3new (Plain (Transpose (T 113) [0;2;1;3;4;5]));
  (*617*) Del (T 113);
  (*618*) AddTo n_t3new (Times (Transpose (T 115) [0;2;1;3;4;5]) (-1) 2);
  (*619*) Del (T 115);
  (*620*) AddTo n_t3new (Times (Transpose (T 118) [2;1;0;3;4;5]) (-1) 2);
  (*621*) AddTo n_t3new (Times (Transpose (T 118) [1;2;0;3;4;5]) (1) 2);
  (*622*) AddTo n_t3new (Times (Transpose (T 118) [2;1;0;4;3;5]) (1) 2);
  (*623*) AddTo n_t3new (Times (Transpose (T 118) [1;2;0;4;3;5]) (-1) 2);
  (*624*) AddTo n_t3new (Times (Copy (T 118)) (1) 2);
  (*625*) AddTo n_t3new (Times (Transpose (T 118) [0;1;2;4;3;5]) (-1) 2);
  (*626*) AddTo n_t3new (Plain (Transpose (T 120) [0;1;2;3;5;4]));
  (*627*) AddTo n_t3new (Plain (Transpose (T 120) [1;2;0;3;5;4]));
  (*628*) AddTo n_t3new (Times (Transpose (T 120) [0;1;2;5;3;4]) (-1) 1);
  (*629*) AddTo n_t3new (Times (Transpose (T 120) [1;2;0;5;3;4]) (-1) 1);
  (*630*) AddTo n_t3new (Times (Transpose (T 120) [2;1;0;3;5;4]) (-1) 1);
  (*631*) AddTo n_t3new (Plain (Transpose (T 120) [2;1;0;5;3;4]));
  (*632*) AddTo n_t3new (Plain (Transpose (T 120) [2;1;0;3;4;5]));
  (*633*) AddTo n_t3new (Times (Transpose (T 120) [1;2;0;3;4;5]) (-1) 1);
  (*634*) AddTo n_t3new (Times (Transpose (T 120) [2;1;0;4;3;5]) (-1) 1);
  (*635*) AddTo n_t3new (Plain (Transpose (T 120) [1;2;0;4;3;5]));
  (*636*) AddTo n_t3new (Times (Copy (T 120)) (-1) 1);
  (*637*) AddTo n_t3new (Plain (Transpose (T 120) [0;1;2;4;3;5]));
  (*638*) AddTo n_t3new (Times (Transpose (T 118) [2;1;0;4;5;3]) (-1) 2);
  (*639*) AddTo n_t3new (Times (Transpose (T 118) [1;2;0;4;5;3]) (1) 2);
  (*640*) AddTo n_t3new (Times (Transpose (T 118) [0;1;2;4;5;3]) (1) 2);
  (*641*) Del (T 118);
  (*642*) AddTo n_t3new (Plain (Transpose (T 120) [0;1;2;5;4;3]));
  (*643*) AddTo n_t3new (Plain (Transpose (T 120) [1;2;0;5;4;3]));
  (*644*) AddTo n_t3new (Times (Transpose (T 120) [2;1;0;5;4;3]) (-1) 1);
  (*645*) AddTo n_t3new (Plain (Transpose (T 120) [2;1;0;4;5;3]));
  (*646*) AddTo n_t3new (Times (Transpose (T 120) [1;2;0;4;5;3]) (-1) 1);
  (*647*) AddTo n_t3new (Times (Transpose (T 120) [0;1;2;4;5;3]) (-1) 1);
  (*648*) Del (T 120);
  (*649*) AddTo n_t3new (Times (Transpose (T 123) [1;0;2;3;5;4]) (-1) 1);
  (*650*) AddTo n_t3new (Plain (Transpose (T 123) [0;1;2;3;5;4]));
  (*651*) AddTo n_t3new (Plain (Transpose (T 123) [1;0;2;5;3;4]));
  (*652*) AddTo n_t3new (Times (Transpose (T 123) [0;1;2;5;3;4]) (-1) 1);
  (*653*) AddTo n_t3new (Times (Transpose (T 123) [1;0;2;5;4;3]) (-1) 1);
  (*654*) AddTo n_t3new (Plain (Transpose (T 123) [0;1;2;5;4;3]));
  (*655*) AddTo n_t3new (Plain (Transpose (T 126) [0;1;2;4;3;5]));
  (*656*) AddTo n_t3new (Times (Transpose (T 126) [0;2;1;4;3;5]) (-1) 1);
  (*657*) AddTo n_t3new (Times (Transpose (T 126) [0;1;2;4;5;3]) (-1) 1);
  (*658*) AddTo n_t3new (Plain (Transpose (T 126) [0;2;1;4;5;3]));
  (*659*) AddTo n_t3new (Plain (Transpose (T 126) [0;1;2;5;4;3]));
  (*660*) AddTo n_t3new (Times (Transpose (T 126) [0;2;1;5;4;3]) (-1) 1);
  (*661*) AddTo n_t3new (Plain (Transpose (T 123) [1;2;0;3;5;4]));
  (*662*) AddTo n_t3new (Times (Transpose (T 123) [0;2;1;3;5;4]) (-1) 1);
  (*663*) AddTo n_t3new (Times (Transpose (T 123) [1;2;0;5;3;4]) (-1) 1);
  (*664*) AddTo n_t3new (Plain (Transpose (T 123) [0;2;1;5;3;4]));
  (*665*) AddTo n_t3new (Plain (Transpose (T 123) [1;2;0;5;4;3]));
  (*666*) AddTo n_t3new (Times (Transpose (T 123) [0;2;1;5;4;3]) (-1) 1);
  (*667*) AddTo n_t3new (Times (Transpose (T 123) [2;1;0;3;5;4]) (-1) 1);
  (*668*) AddTo n_t3new (Plain (Transpose (T 123) [2;0;1;3;5;4]));
  (*669*) AddTo n_t3new (Plain (Transpose (T 123) [2;1;0;5;3;4]));
  (*670*) AddTo n_t3new (Times (Transpose (T 123) [2;0;1;5;3;4]) (-1) 1);
  (*671*) AddTo n_t3new (Times (Transpose (T 123) [2;1;0;5;4;3]) (-1) 1);
  (*672*) AddTo n_t3new (Plain (Transpose (T 123) [2;0;1;5;4;3]));
  (*673*) Del (T 123);
  (*674*) AddTo n_t3new (Times (Transpose (T 126) [2;1;0;4;3;5]) (-1) 1);
  (*675*) AddTo n_t3new (Plain (Transpose (T 126) [2;1;0;4;5;3]));
  (*676*) AddTo n_t3new (Times (Transpose (T 126) [2;1;0;5;4;3]) (-1) 1);
  (*677*) Del (T 126);
  (*678*) AddTo n_t3new (Plain (Transpose (T 129) [2;1;0;5;4;3]));
  (*679*) AddTo n_t3new (Times (Transpose (T 129) [1;2;0;5;4;3]) (-1) 1);
  (*680*) AddTo n_t3new (Times (Transpose (T 129) [2;1;0;4;5;3]) (-1) 1);
  (*681*) AddTo n_t3new (Plain (Transpose (T 129) [1;2;0;4;5;3]));
  (*682*) AddTo n_t3new (Plain (Transpose (T 131) [1;2;0;5;3;4]));
  (*683*) AddTo n_t3new (Times (Transpose (T 131) [1;0;2;5;3;4]) (-1) 1);
  (*684*) AddTo n_t3new (Times (Transpose (T 131) [1;2;0;5;4;3]) (-1) 1);
  (*685*) AddTo n_t3new (Plain (Transpose (T 131) [1;0;2;5;4;3]));
  (*686*) AddTo n_t3new (Plain (Transpose (T 129) [1;0;2;5;4;3]));
  (*687*) AddTo n_t3new (Times (Transpose (T 129) [1;0;2;4;5;3]) (-1) 1);
  (*688*) AddTo n_t3new (Times (Transpose (T 131) [0;2;1;5;3;4]) (-1) 1);
  (*689*) AddTo n_t3new (Plain (Transpose (T 131) [0;2;1;5;4;3]));
  (*690*) AddTo n_t3new (Times (Transpose (T 131) [1;2;0;3;5;4]) (-1) 1);
  (*691*) AddTo n_t3new (Plain (Transpose (T 131) [1;0;2;3;5;4]));
  (*692*) AddTo n_t3new (Plain (Transpose (T 131) [1;2;0;4;5;3]));
  (*693*) AddTo n_t3new (Times (Transpose (T 131) [1;0;2;4;5;3]) (-1) 1);
  (*694*) AddTo n_t3new (Plain (Transpose (T 131) [0;2;1;3;5;4]));
  (*695*) AddTo n_t3new (Times (Transpose (T 131) [0;2;1;4;5;3]) (-1) 1);
  (*696*) AddTo n_t3new (Plain (Transpose (T 129) [2;1;0;4;3;5]));
  (*697*) AddTo n_t3new (Times (Transpose (T 129) [1;2;0;4;3;5]) (-1) 1);
  (*698*) AddTo n_t3new (Plain (Transpose (T 131) [1;2;0;3;4;5]));
  (*699*) AddTo n_t3new (Times (Transpose (T 131) [1;0;2;3;4;5]) (-1) 1);
  (*700*) AddTo n_t3new (Times (Transpose (T 131) [1;2;0;4;3;5]) (-1) 1);
  (*701*) AddTo n_t3new (Plain (Transpose (T 131) [1;0;2;4;3;5]));
  (*702*) AddTo n_t3new (Plain (Transpose (T 129) [1;0;2;4;3;5]));
  (*703*) Del (T 129);
  (*704*) AddTo n_t3new (Times (Transpose (T 131) [0;2;1;3;4;5]) (-1) 1);
  (*705*) AddTo n_t3new (Plain (Transpose (T 131) [0;2;1;4;3;5]));
  (*706*) Del (T 131);
  (*707*) AddTo n_t3new (Plain (Transpose (T 134) [1;2;0;3;5;4]));
  (*708*) AddTo n_t3new (Plain (Transpose (T 134) [2;0;1;3;5;4]));
  (*709*) AddTo n_t3new (Times (Transpose (T 134) [0;2;1;3;5;4]) (-1) 1);
  (*710*) Del (T 134);
  (*711*) AddTo n_t3new (Plain (Transpose (T 137) [2;1;0;3;4;5]));
  (*712*) AddTo n_t3new (Times (Transpose (T 137) [2;1;0;4;3;5]) (-1) 1);
  (*713*) AddTo n_t3new (Plain (Transpose (T 137) [2;1;0;4;5;3]));
  (*714*) Del (T 137);
  (*715*) AddTo n_t3new (Times (Transpose (T 140) [2;0;1;3;4;5]) (1) 2);
  (*716*) AddTo n_t3new (Times (Transpose (T 140) [0;2;1;3;4;5]) (-1) 2);
  (*717*) AddTo n_t3new (Plain (Transpose (T 143) [1;2;0;3;5;4]));
  (*718*) AddTo n_t3new (Plain (Transpose (T 143) [2;0;1;3;5;4]));
  (*719*) AddTo n_t3new (Plain (Transpose (T 143) [1;2;0;4;3;5]));
  (*720*) AddTo n_t3new (Plain (Transpose (T 143) [2;0;1;4;3;5]));
  (*721*) AddTo n_t3new (Times (Transpose (T 143) [1;2;0;4;5;3]) (-1) 1);
  (*722*) AddTo n_t3new (Times (Transpose (T 143) [2;0;1;4;5;3]) (-1) 1);
  (*723*) AddTo n_t3new (Times (Copy (T 140)) (1) 2);
  (*724*) Del (T 140);
  (*725*) AddTo n_t3new (Times (Transpose (T 143) [0;2;1;3;5;4]) (-1) 1);
  (*726*) AddTo n_t3new (Times (Transpose (T 143) [0;2;1;4;3;5]) (-1) 1);
  (*727*) AddTo n_t3new (Plain (Transpose (T 143) [0;2;1;4;5;3]));
  (*728*) Del (T 143);
  (*729*) AddTo n_t3new (Times (Transpose (T 146) [2;1;0;3;4;5]) (-1) 2);
  (*730*) AddTo n_t3new (Times (Transpose (T 146) [2;1;0;3;5;4]) (1) 2);
  (*731*) AddTo n_t3new (Times (Transpose (T 146) [2;1;0;5;3;4]) (-1) 2);
  (*732*) Del (T 146);
  (*733*) AddTo n_t3new (Plain (Transpose (T 149) [2;0;1;3;4;5]));
  (*734*) AddTo n_t3new (Times (Transpose (T 149) [0;2;1;3;4;5]) (-1) 1);
  (*735*) AddTo n_t3new (Times (Transpose (T 149) [2;0;1;4;3;5]) (-1) 1);
  (*736*) AddTo n_t3new (Plain (Transpose (T 149) [0;2;1;4;3;5]));
  (*737*) AddTo n_t3new (Plain (Transpose (T 149) [2;0;1;4;5;3]));
  (*738*) AddTo n_t3new (Times (Transpose (T 149) [0;2;1;4;5;3]) (-1) 1);
  (*739*) AddTo n_t3new (Plain (Transpose (T 152) [1;2;0;3;4;5]));
  (*740*) AddTo n_t3new (Plain (Transpose (T 152) [2;0;1;3;4;5]));
  (*741*) AddTo n_t3new (Times (Transpose (T 152) [1;2;0;3;5;4]) (-1) 1);
  (*742*) AddTo n_t3new (Times (Transpose (T 152) [2;0;1;3;5;4]) (-1) 1);
  (*743*) AddTo n_t3new (Plain (Transpose (T 152) [1;2;0;5;3;4]));
  (*744*) AddTo n_t3new (Plain (Transpose (T 152) [2;0;1;5;3;4]));
  (*745*) AddTo n_t3new (Plain (Copy (T 149)));
  (*746*) AddTo n_t3new (Times (Transpose (T 149) [0;1;2;4;3;5]) (-1) 1);
  (*747*) AddTo n_t3new (Plain (Transpose (T 149) [0;1;2;4;5;3]));
  (*748*) Del (T 149);
  (*749*) AddTo n_t3new (Times (Transpose (T 152) [0;2;1;3;4;5]) (-1) 1);
  (*750*) AddTo n_t3new (Plain (Transpose (T 152) [0;2;1;3;5;4]));
  (*751*) AddTo n_t3new (Times (Transpose (T 152) [0;2;1;5;3;4]) (-1) 1);
  (*752*) Del (T 152);
  (*753*) Assign n_t2new_OOVv (Times (Transpose (T 17) [1;2;3;0]) (1) 2);
  (*754*) AddTo n_t2new_OOVv (Times (Transpose (T 32) [1;2;3;0]) (-1) 2);
  (*755*) Assign n_t2new_OOvV (Times (Transpose (T 17) [1;2;0;3]) (-1) 2);
  (*756*) Del (T 17);
  (*757*) AddTo n_t2new_OOvV (Times (Transpose (T 32) [1;2;0;3]) (1) 2);
  (*758*) Del (T 32);
  (*759*) Assign n_t2new_oOVV (Times (Transpose (T 16) [0;1;3;2]) (-1) 2);
  (*760*) AddTo n_t2new_oOVV (Times (Transpose (T 30) [0;1;3;2]) (-1) 2);
  (*761*) Assign n_t2new_OoVV (Times (Transpose (T 16) [1;0;3;2]) (1) 2);
  (*762*) Del (T 16);
  (*763*) AddTo n_t2new_OoVV (Times (Transpose (T 30) [1;0;3;2]) (1) 2);
  (*764*) Del (T 30);
  (*765*) Assign n_t2new_OOVV (Plain (Einsum [(n_f'OV,[0;1]); (n_t3,[2;3;0;4;5;1])] [2;3;4;5]));
  (*766*) AddTo n_t2new_OOVV (Plain (Einsum [(n_t3,[0;1;2;3;4;5]); (T 28,[2;5])] [0;1;3;4]));
  (*767*) Del (T 28);
  (*768*) Assign n_t2new (Plain (Transpose (T 8) [1;0;3;2]));
  (*769*) AddTo n_t2new (Times (Transpose (T 8) [0;1;3;2]) (-1) 1);
  (*770*) Del (T 8);
  (*771*) AddTo n_t2new (Plain (Transpose (T 9) [1;0;2;3]));
  (*772*) AddTo n_t2new (Times (Transpose (T 9) [1;0;3;2]) (-1) 1);
  (*773*) Del (T 9);
  (*774*) AddTo n_t2new (Plain (Transpose (T 10) [1;0;3;2]));
  (*775*) AddTo n_t2new (Times (Transpose (T 10) [0;1;3;2]) (-1) 1);
  (*776*) Del (T 10);
  (*777*) AddTo n_t2new (Plain (Copy (T 12)));
  (*778*) AddTo n_t2new (Times (Transpose (T 12) [0;1;3;2]) (-1) 1);
  (*779*) Del (T 12);
  (*780*) AddTo n_t2new (Plain (Copy n_v'oovv));
  (*781*) AddTo n_t2new (Times (Transpose (T 13) [1;0;3;2]) (-1) 1);
  (*782*) AddTo n_t2new (Plain (Transpose (T 13) [1;0;2;3]));
  (*783*) Del (T 13);
  (*784*) AddTo n_t2new (Plain (Transpose (T 14) [0;1;3;2]));
  (*785*) AddTo n_t2new (Times (Transpose (T 14) [1;0;3;2]) (-1) 1);
  (*786*) Del (T 14);
  (*787*) AddTo n_t2new (Times (Einsum [(n_v'oooo,[0;1;2;3]); (n_t2,[2;3;4;5])] [0;1;4;5]) (1) 2);
  (*788*) AddTo n_t2new (Plain (Transpose (T 15) [0;1;3;2]));
  (*789*) AddTo n_t2new (Times (Transpose (T 15) [1;0;3;2]) (-1) 1);
  (*790*) AddTo n_t2new (Times (Copy (T 15)) (-1) 1);
  (*791*) AddTo n_t2new (Plain (Transpose (T 15) [1;0;2;3]));
  (*792*) Del (T 15);
  (*793*) AddTo n_t2new (Times (Einsum [(n_v'vvvv,[0;1;2;3]); (n_t2,[4;5;2;3])] [4;5;0;1]) (1) 2);
  (*794*) AddTo n_t2new (Times (Transpose (T 18) [0;1;3;2]) (-1) 1);
  (*795*) AddTo n_t2new (Plain (Transpose (T 18) [1;0;3;2]));
  (*796*) Del (T 18);
  (*797*) AddTo n_t2new (Times (Transpose (T 20) [0;1;3;2]) (1) 2);
  (*798*) AddTo n_t2new (Times (Transpose (T 20) [1;0;3;2]) (-1) 2);
  (*799*) Del (T 20);
  (*800*) AddTo n_t2new (Plain (Copy (T 22)));
  (*801*) AddTo n_t2new (Times (Transpose (T 22) [1;0;2;3]) (-1) 1);
  (*802*) AddTo n_t2new (Times (Transpose (T 22) [0;1;3;2]) (-1) 1);
  (*803*) AddTo n_t2new (Plain (Transpose (T 22) [1;0;3;2]));
  (*804*) Del (T 22);
  (*805*) AddTo n_t2new (Times (Transpose (T 23) [0;1;3;2]) (-1) 1);
  (*806*) AddTo n_t2new (Plain (Copy (T 23)));
  (*807*) Del (T 23);
  (*808*) AddTo n_t2new (Plain (Transpose (T 25) [1;0;3;2]));
  (*809*) AddTo n_t2new (Times (Transpose (T 25) [0;1;3;2]) (-1) 1);
  (*810*) AddTo n_t2new (Times (Transpose (T 25) [1;0;2;3]) (-1) 1);
  (*811*) AddTo n_t2new (Plain (Copy (T 25)));
  (*812*) Del (T 25);
  (*813*) AddTo n_t2new (Times (Transpose (T 27) [0;1;3;2]) (1) 2);
  (*814*) AddTo n_t2new (Times (Copy (T 27)) (-1) 2);
  (*815*) Del (T 27);
  (*816*) AddTo n_t2new (Plain (Einsum [(T 33,[0;1;2;3]); (n_t1,[2;4])] [0;1;4;3]));
  (*817*) Del (T 33);
  (*818*) AddTo n_t2new (Times (Transpose (T 35) [0;1;3;2]) (-1) 1);
  (*819*) AddTo n_t2new (Plain (Transpose (T 35) [1;0;3;2]));
  (*820*) AddTo n_t2new (Plain (Copy (T 35)));
  (*821*) AddTo n_t2new (Times (Transpose (T 35) [1;0;2;3]) (-1) 1);
  (*822*) Del (T 35);
  (*823*) AddTo n_t2new (Times (Einsum [(T 36,[0;1;2;3]); (n_t1,[4;3])] [4;0;2;1]) (-1) 1);
  (*824*) Del (T 36);
  (*825*) AddTo n_t2new (Times (Transpose (T 37) [0;1;3;2]) (1) 2);
  (*826*) AddTo n_t2new (Times (Transpose (T 37) [1;0;3;2]) (-1) 2);
  (*827*) Del (T 37);
  (*828*) AddTo n_t2new (Times (Einsum [(T 38,[0;1;2;3]); (n_t2,[3;2;4;5])] [1;0;4;5]) (1) 4);
  (*829*) Del (T 38);
  (*830*) AddTo n_t2new (Times (Transpose (T 40) [0;1;3;2]) (1) 2);
  (*831*) AddTo n_t2new (Times (Transpose (T 42) [0;1;3;2]) (-1) 1);
  (*832*) AddTo n_t2new (Plain (Copy (T 42)));
  (*833*) Del (T 42);
  (*834*) AddTo n_t2new (Times (Copy (T 40)) (-1) 2);
  (*835*) Del (T 40);
  (*836*) AddTo n_t2new (Times (Transpose (T 43) [1;0;3;2]) (-1) 1);
  (*837*) AddTo n_t2new (Plain (Transpose (T 43) [0;1;3;2]));
  (*838*) Del (T 43);
  (*839*) AddTo n_t2new (Times (Copy (T 45)) (-1) 1);
  (*840*) AddTo n_t2new (Plain (Transpose (T 45) [0;1;3;2]));
  (*841*) Del (T 45);
  (*842*) AddTo n_t2new (Times (Einsum [(T 46,[0;1;2;3]); (n_t2,[2;3;4;5])] [1;0;4;5]) (-1) 2);
  (*843*) Del (T 46);
  (*844*) AddTo n_t2new (Plain (Transpose (T 48) [1;0;2;3]));
  (*845*) AddTo n_t2new (Times (Copy (T 48)) (-1) 1);
  (*846*) AddTo n_t2new (Times (Transpose (T 48) [1;0;3;2]) (-1) 1);
  (*847*) AddTo n_t2new (Plain (Transpose (T 48) [0;1;3;2]));
  (*848*) Del (T 48);
  (*849*) AddTo n_t2new (Times (Einsum [(T 49,[0;1;2;3]); (n_t1,[2;4])] [0;1;4;3]) (1) 2);
  (*850*) Del (T 49);
  (*851*) AddTo n_t2new (Plain (Transpose (T 51) [0;1;3;2]));
  (*852*) AddTo n_t2new (Times (Transpose (T 51) [1;0;3;2]) (-1) 1);
  (*853*) Del (T 51);
  (*854*) AddTo n_t2new (Plain (Transpose (T 53) [0;1;3;2]));
  (*855*) AddTo n_t2new (Times (Copy (T 53)) (-1) 1);
  (*856*) Del (T 53);
  (*857*) AddTo n_t2new (Times (Einsum [(T 54,[0;1;2;3]); (n_t1,[2;4])] [1;0;4;3]) (-1) 1);
  (*858*) Del (T 54);
  (*859*) Assign n_t1new_OV (Times (Einsum [(n_t3,[0;1;2;3;4;5]); (n_v'OOVV,[1;2;4;5])] [0;3]) (1) 4);
  (*860*) Assign n_t1new (Plain (Copy n_f'ov));
  (*861*) AddTo n_t1new (Times (Einsum [(n_f'oo,[0;1]); (n_t1,[1;2])] [0;2]) (-1) 1);
  (*862*) AddTo n_t1new (Plain (Einsum [(n_f'vv,[0;1]); (n_t1,[2;1])] [2;0]));
  (*863*) AddTo n_t1new (Plain (Einsum [(n_t2,[0;1;2;3]); (n_f'ov,[1;3])] [0;2]));
  (*864*) AddTo n_t1new (Times (Einsum [(T 1,[0;1]); (n_t1,[0;2])] [1;2]) (-1) 1);
  (*865*) Del (T 1);
  (*866*) AddTo n_t1new (Times (Einsum [(n_t1,[0;1]); (n_v'ovov,[2;1;0;3])] [2;3]) (-1) 1);
  (*867*) AddTo n_t1new (Times (Einsum [(n_t2,[0;1;2;3]); (n_v'ovoo,[4;3;0;1])] [4;2]) (-1) 2);
  (*868*) AddTo n_t1new (Times (Einsum [(n_v'ovvv,[0;1;2;3]); (n_t2,[4;0;2;3])] [4;1]) (-1) 2);
  (*869*) AddTo n_t1new (Plain (Einsum [(T 2,[0;1]); (n_t2,[2;0;3;1])] [2;3]));
  (*870*) Del (T 2);
  (*871*) AddTo n_t1new (Times (Einsum [(n_t2,[0;1;2;3]); (T 3,[4;1;0;3])] [4;2]) (-1) 2);
  (*872*) Del (T 3);
  (*873*) AddTo n_t1new (Times (Einsum [(T 4,[0;1]); (n_t1,[1;2])] [0;2]) (-1) 2);
  (*874*) Del (T 4);
  (*875*) AddTo n_t1new (Times (Einsum [(n_t1,[0;1]); (T 5,[0;2])] [2;1]) (-1) 1);
  (*876*) Del (T 5);
  (*877*) AddTo n_t1new (Times (Einsum [(T 6,[0;1]); (n_t1,[2;1])] [2;0]) (-1) 1);
  (*878*) Del (T 6);
  (*879*) AddTo n_t1new (Times (Einsum [(T 7,[0;1]); (n_t1,[1;2])] [0;2]) (-1) 1);
  (*880*) Del (T 7)]
 [(n_t2new,[0;0;1;1]); (n_t2new_OOVV,[8;8;9;9]); (n_t2new_OOvV,[8;8;1;9]); (n_t2new_OoVV,[8;0;9;9]); (n_t2new_oOVV,[0;8;9;9]); (n_t1new,[0;1]); (n_t1new_OV,[8;9]); (n_t2new_OOVv,[8;8;9;1]); (n_t3new,[8;8;8;9;9;9])].

