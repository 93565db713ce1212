(** Generated by tools/translate_codegen.py from ebcc/codegen/RCCSDwtwp.py; one statement per source line
    (the number in the comment before it). *)
From Coq Require Import ZArith List.
From Verif Require Import CgModel CgNames.
Import ListNotations.

(** ebcc/codegen/RCCSDwtwp.py:20-51 [energy] *)
Definition RCCSDwtwp_energy : prog := mkprog
 [(n_v'ovov,[0;1;0;1]); (n_f'ov,[0;1]); (n_t1,[0;1]); (n_t2,[0;0;1;1])]
 [(*41*) Assign (T 1) (Plain (Transpose n_v'ovov [0;2;3;1]));
  (*42*) AddTo (T 1) (Times (Transpose n_v'ovov [0;2;1;3]) (-1) 2);
  (*43*) Assign (T 2) (Plain (Copy n_f'ov));
  (*44*) AddTo (T 2) (Plain (Einsum [(n_t1,[0;1]); (T 1,[0;2;3;1])] [2;3]));
  (*45*) Del (T 1);
  (*46*) Assign n_e_cc (Times (Einsum [(n_t2,[0;1;2;3]); (n_v'ovov,[0;2;1;3])] []) (2) 1);
  (*47*) AddTo n_e_cc (Times (Einsum [(n_t2,[0;1;2;3]); (n_v'ovov,[0;3;1;2])] []) (-1) 1);
  (*48*) AddTo n_e_cc (Times (Einsum [(T 2,[0;1]); (n_t1,[0;1])] []) (2) 1);
  (*49*) Del (T 2)]
 [(n_e_cc,[])].

(** ebcc/codegen/RCCSDwtwp.py:53-1617 [update_amps]; active-space slices of the amplitudes are arguments; adding the active-space parts of the results to them is not translated *)
Definition RCCSDwtwp_update_amps : prog := mkprog
 [(n_v'ovov,[0;1;0;1]); (n_t1_Ov,[8;1]); (n_v'Vvov,[9;1;0;1]); (n_t1_oV,[0;9]); (n_t1,[0;1]); (n_v'OvVo,[8;1;9;0]); (n_v'Voov,[9;0;0;1]); (n_v'VoVo,[9;0;9;0]); (n_v'Ooov,[8;0;0;1]); (n_v'Ovov,[8;1;0;1]); (n_v'OVov,[8;9;0;1]); (n_v'OvOv,[8;1;8;1]); (n_t2,[0;0;1;1]); (n_v'ooov,[0;0;0;1]); (n_v'ovvv,[0;1;1;1]); (n_v'OoOo,[8;0;8;0]); (n_t2_OovV,[8;0;1;9]); (n_t2_OoVv,[8;0;9;1]); (n_t2_OOvV,[8;8;1;9]); (n_v'VvVv,[9;1;9;1]); (n_t2_OOvv,[8;8;1;1]); (n_v'OvOO,[8;1;8;8]); (n_v'OvVV,[8;1;9;9]); (n_v'OVVo,[8;9;9;0]); (n_t3,[8;8;8;9;9;9]); (n_v'OvOV,[8;1;8;9]); (n_v'VoVv,[9;0;9;1]); (n_v'OoVv,[8;0;9;1]); (n_f'ov,[0;1]); (n_v'VoVV,[9;0;9;9]); (n_t2_ooVv,[0;0;9;1]); (n_f'Ov,[8;1]); (n_t2_Oovv,[8;0;1;1]); (n_v'OOVo,[8;8;9;0]); (n_v'OoOV,[8;0;8;9]); (n_v'OOov,[8;8;0;1]); (n_v'VVov,[9;9;0;1]); (n_t2_ooVV,[0;0;9;9]); (n_f'Vo,[9;0]); (n_v'OoOv,[8;0;8;1]); (n_v'OVVv,[8;9;9;1]); (n_v'oovv,[0;0;1;1]); (n_v'OOVV,[8;8;9;9]); (n_t2_OoVV,[8;0;9;9]); (n_f'OO,[8;8]); (n_v'OOOO,[8;8;8;8]); (n_f'VV,[9;9]); (n_v'OVOV,[8;9;8;9]); (n_v'VVVV,[9;9;9;9]); (n_v'OVOo,[8;9;8;0]); (n_f'OV,[8;9]); (n_f'oo,[0;0]); (n_v'oooo,[0;0;0;0]); (n_v'vvvv,[1;1;1;1]); (n_f'vv,[1;1])]
 [(*101*) Assign (T 174) (Plain (Einsum [(n_v'ovov,[0;1;2;3]); (n_t1_Ov,[4;3])] [0;2;1;4]));
  (*102*) Assign (T 295) (Plain (Einsum [(n_v'Vvov,[0;1;2;3]); (n_t1_Ov,[4;1])] [2;3;4;0]));
  (*103*) Assign (T 219) (Plain (Einsum [(n_v'ovov,[0;1;2;3]); (n_t1_oV,[2;4])] [0;1;3;4]));
  (*104*) Assign (T 2) (Plain (Einsum [(n_t1,[0;1]); (n_v'ovov,[2;3;0;1])] [2;3]));
  (*105*) Assign (T 188) (Plain (Einsum [(n_v'OvVo,[0;1;2;3]); (n_t1_Ov,[4;1])] [3;4;0;2]));
  (*106*) Assign (T 149) (Plain (Einsum [(n_t1,[0;1]); (n_v'Voov,[2;0;3;1])] [3;2]));
  (*107*) Assign (T 15) (Plain (Einsum [(n_v'ovov,[0;1;2;3]); (n_t1,[2;1])] [0;3]));
  (*108*) Assign (T 155) (Plain (Einsum [(n_t1_oV,[0;1]); (n_v'VoVo,[2;3;4;0])] [3;1;2;4]));
  (*109*) Assign (T 308) (Plain (Einsum [(T 174,[0;1;2;3]); (n_t1_Ov,[4;2])] [0;1;4;3]));
  (*110*) Assign (T 177) (Plain (Einsum [(n_t1_Ov,[0;1]); (n_v'Ooov,[2;3;4;1])] [4;3;0;2]));
  (*111*) Assign (T 135) (Plain (Einsum [(n_t1_oV,[0;1]); (n_v'Ooov,[2;0;3;4])] [3;4;2;1]));
  (*112*) Assign (T 185) (Plain (Einsum [(n_v'Ovov,[0;1;2;3]); (n_t1,[2;3])] [1;0]));
  (*113*) Assign (T 298) (Plain (Einsum [(n_v'Vvov,[0;1;2;3]); (n_t1_Ov,[4;3])] [2;1;4;0]));
  (*114*) Assign (T 182) (Plain (Einsum [(n_v'Ovov,[0;1;2;3]); (n_t1,[2;1])] [3;0]));
  (*115*) Assign (T 194) (Plain (Einsum [(T 174,[0;1;2;3]); (n_t1_oV,[0;4])] [1;2;3;4]));
  (*116*) Assign (T 152) (Plain (Einsum [(n_t1,[0;1]); (n_v'Voov,[2;3;0;1])] [3;2]));
  (*117*) Assign (T 191) (Plain (Einsum [(n_v'OVov,[0;1;2;3]); (n_t1_Ov,[4;3])] [2;4;0;1]));
  (*118*) Assign (T 305) (Plain (Einsum [(n_v'OvOv,[0;1;2;3]); (n_t1_Ov,[4;3])] [1;4;0;2]));
  (*119*) Assign (T 5) (Plain (Einsum [(n_v'ovov,[0;1;2;3]); (n_t1,[4;3])] [4;0;2;1]));
  (*120*) Assign (T 117) (Plain (Einsum [(n_t2,[0;1;2;3]); (n_v'ovov,[4;2;5;3])] [0;1;4;5]));
  (*121*) Assign (T 63) (Plain (Einsum [(n_v'ooov,[0;1;2;3]); (n_t1,[4;3])] [4;0;1;2]));
  (*122*) Assign (T 76) (Plain (Einsum [(n_t1,[0;1]); (n_v'ovvv,[2;3;4;1])] [0;2;3;4]));
  (*123*) Assign (T 123) (Plain (Einsum [(n_v'OoOo,[0;1;2;3]); (n_t1_oV,[3;4])] [1;0;2;4]));
  (*124*) Assign (T 314) (Plain (Einsum [(T 295,[0;1;2;3]); (n_t1_Ov,[4;1])] [0;4;2;3]));
  (*125*) Assign (T 232) (Plain (Einsum [(T 219,[0;1;2;3]); (n_t2_OovV,[4;0;1;5])] [2;4;3;5]));
  (*126*) Assign (T 276) (Plain (Einsum [(n_t2_OoVv,[0;1;2;3]); (T 174,[1;4;3;5])] [4;5;0;2]));
  (*127*) Assign (T 217) (Plain (Einsum [(T 2,[0;1]); (n_t2_OOvV,[2;3;1;4])] [0;2;3;4]));
  (*128*) Assign (T 189) (Plain (Einsum [(T 188,[0;1;2;3]); (n_t1_oV,[0;4])] [1;2;4;3]));
  (*129*) Del (T 188);
  (*130*) Assign (T 261) (Plain (Einsum [(n_v'Vvov,[0;1;2;3]); (n_t2_OoVv,[4;2;5;1])] [3;4;5;0]));
  (*131*) Assign (T 293) (Plain (Einsum [(n_t1_Ov,[0;1]); (n_v'VvVv,[2;3;4;1])] [3;0;2;4]));
  (*132*) Assign (T 301) (Plain (Einsum [(n_v'OvOv,[0;1;2;3]); (n_t2_OOvv,[4;5;1;3])] [4;5;0;2]));
  (*133*) Assign (T 168) (Plain (Einsum [(n_v'OvOO,[0;1;2;3]); (n_t1_Ov,[4;1])] [4;0;2;3]));
  (*134*) Assign (T 220) (Plain (Einsum [(T 219,[0;1;2;3]); (n_t2_OovV,[4;0;2;5])] [1;4;3;5]));
  (*135*) Assign (T 150) (Plain (Einsum [(n_t1_oV,[0;1]); (T 149,[0;2])] [1;2]));
  (*136*) Del (T 149);
  (*137*) Assign (T 286) (Plain (Einsum [(n_t1_Ov,[0;1]); (n_v'OvVV,[2;1;3;4])] [0;2;3;4]));
  (*138*) Assign (T 54) (Plain (Einsum [(n_v'OVVo,[0;1;2;3]); (n_t3,[4;5;0;2;6;1])] [3;4;5;6]));
  (*139*) Assign (T 204) (Plain (Einsum [(n_v'OvOV,[0;1;2;3]); (n_t2_OOvV,[4;5;1;6])] [4;5;0;2;6;3]));
  (*140*) Assign (T 228) (Plain (Einsum [(n_t2_OoVv,[0;1;2;3]); (T 219,[1;4;3;5])] [4;0;5;2]));
  (*141*) Assign (T 162) (Plain (Einsum [(n_v'VoVv,[0;1;2;3]); (n_t1,[1;3])] [0;2]));
  (*142*) Assign (T 215) (Plain (Einsum [(T 15,[0;1]); (n_t2_OOvV,[2;3;1;4])] [0;2;3;4]));
  (*143*) Assign (T 282) (Plain (Einsum [(n_v'OoVv,[0;1;2;3]); (n_t1_Ov,[4;3])] [1;4;0;2]));
  (*144*) Assign (T 224) (Plain (Einsum [(n_v'OVVo,[0;1;2;3]); (n_t3,[4;5;0;6;1;2])] [3;4;5;6]));
  (*145*) Assign (T 202) (Plain (Einsum [(n_t2_OOvV,[0;1;2;3]); (n_f'ov,[4;2])] [4;0;1;3]));
  (*146*) Assign (T 266) (Plain (Einsum [(n_t1_oV,[0;1]); (n_v'VoVV,[2;0;3;4])] [1;2;3;4]));
  (*147*) Assign (T 240) (Plain (Einsum [(n_v'OvVo,[0;1;2;3]); (n_t2_OovV,[4;3;1;5])] [4;0;5;2]));
  (*148*) Assign (T 143) (Plain (Einsum [(n_v'Voov,[0;1;2;3]); (n_t2_ooVv,[2;1;4;3])] [4;0]));
  (*149*) Assign (T 156) (Plain (Einsum [(T 155,[0;1;2;3]); (n_t1_oV,[0;4])] [1;4;3;2]));
  (*150*) Del (T 155);
  (*151*) Assign (T 166) (Plain (Einsum [(n_f'Ov,[0;1]); (n_t1_Ov,[2;1])] [0;2]));
  (*152*) Assign (T 309) (Plain (Einsum [(n_t1_oV,[0;1]); (T 308,[0;2;3;4])] [2;4;3;1]));
  (*153*) Del (T 308);
  (*154*) Assign (T 172) (Plain (Einsum [(n_t2_Oovv,[0;1;2;3]); (n_v'Ovov,[4;2;1;3])] [0;4]));
  (*155*) Assign (T 253) (Plain (Einsum [(n_v'OVov,[0;1;2;3]); (n_t2_OovV,[4;2;3;5])] [4;0;5;1]));
  (*156*) Assign (T 131) (Plain (Einsum [(n_t1_oV,[0;1]); (n_v'OOVo,[2;3;4;0])] [2;3;1;4]));
  (*157*) Assign (T 129) (Plain (Einsum [(n_t1_oV,[0;1]); (n_v'OoOV,[2;0;3;4])] [2;3;1;4]));
  (*158*) Assign (T 180) (Plain (Einsum [(n_t1_oV,[0;1]); (T 177,[0;2;3;4])] [2;3;4;1]));
  (*159*) Assign (T 280) (Plain (Einsum [(n_t2_OovV,[0;1;2;3]); (T 174,[1;4;2;5])] [4;5;0;3]));
  (*160*) Assign (T 127) (Plain (Einsum [(n_v'OOov,[0;1;2;3]); (n_t1,[2;3])] [0;1]));
  (*161*) Assign (T 247) (Plain (Einsum [(n_t1_oV,[0;1]); (n_v'OoVv,[2;0;3;4])] [4;2;1;3]));
  (*162*) Assign (T 255) (Plain (Einsum [(n_t2_OoVv,[0;1;2;3]); (n_v'OVov,[4;5;1;3])] [0;4;2;5]));
  (*163*) Assign (T 284) (Plain (Einsum [(n_t2_OovV,[0;1;2;3]); (T 174,[4;1;2;5])] [4;5;0;3]));
  (*164*) Assign (T 230) (Plain (Einsum [(T 219,[0;1;2;3]); (n_t2_OoVv,[4;0;5;1])] [2;4;3;5]));
  (*165*) Assign (T 160) (Plain (Einsum [(n_v'VVov,[0;1;2;3]); (n_t1,[2;3])] [0;1]));
  (*166*) Assign (T 56) (Plain (Einsum [(n_v'OVVo,[0;1;2;3]); (n_t3,[4;5;0;6;2;1])] [3;4;5;6]));
  (*167*) Assign (T 145) (Plain (Einsum [(n_t2_ooVv,[0;1;2;3]); (n_v'Voov,[4;0;1;3])] [2;4]));
  (*168*) Assign (T 147) (Plain (Einsum [(n_t2_ooVV,[0;1;2;3]); (n_v'VoVo,[4;1;5;0])] [3;2;4;5]));
  (*169*) Assign (T 141) (Plain (Einsum [(n_f'Vo,[0;1]); (n_t1_oV,[1;2])] [0;2]));
  (*170*) Assign (T 133) (Plain (Einsum [(n_t2_ooVV,[0;1;2;3]); (n_v'Ooov,[4;0;1;5])] [5;4;3;2]));
  (*171*) Assign (T 245) (Plain (Einsum [(n_v'Vvov,[0;1;2;3]); (n_t2_OovV,[4;2;1;5])] [3;4;5;0]));
  (*172*) Assign (T 296) (Plain (Einsum [(n_t1_oV,[0;1]); (T 295,[0;2;3;4])] [2;3;1;4]));
  (*173*) Del (T 295);
  (*174*) Assign (T 136) (Plain (Einsum [(n_t1_oV,[0;1]); (T 135,[0;2;3;4])] [2;3;1;4]));
  (*175*) Del (T 135);
  (*176*) Assign (T 303) (Plain (Einsum [(T 219,[0;1;2;3]); (n_t2_OOvv,[4;5;1;2])] [0;4;5;3]));
  (*177*) Del (T 219);
  (*178*) Assign (T 243) (Plain (Einsum [(n_t1_oV,[0;1]); (n_v'OVov,[2;3;0;4])] [4;2;1;3]));
  (*179*) Assign (T 186) (Plain (Einsum [(T 185,[0;1]); (n_t1_Ov,[2;0])] [2;1]));
  (*180*) Del (T 185);
  (*181*) Assign (T 226) (Plain (Einsum [(n_v'OVVo,[0;1;2;3]); (n_t3,[4;0;5;6;1;2])] [3;4;5;6]));
  (*182*) Assign (T 259) (Plain (Einsum [(n_v'Vvov,[0;1;2;3]); (n_t2_OoVv,[4;2;5;3])] [1;4;5;0]));
  (*183*) Assign (T 299) (Plain (Einsum [(n_t1_oV,[0;1]); (T 298,[0;2;3;4])] [2;3;1;4]));
  (*184*) Del (T 298);
  (*185*) Assign (T 183) (Plain (Einsum [(T 182,[0;1]); (n_t1_Ov,[2;0])] [2;1]));
  (*186*) Del (T 182);
  (*187*) Assign (T 125) (Plain (Einsum [(n_v'OoOv,[0;1;2;3]); (n_t1,[1;3])] [0;2]));
  (*188*) Assign (T 170) (Plain (Einsum [(n_t2_Oovv,[0;1;2;3]); (n_v'Ovov,[4;3;1;2])] [0;4]));
  (*189*) Assign (T 290) (Plain (Einsum [(n_v'OVVv,[0;1;2;3]); (n_t1_Ov,[4;3])] [4;0;2;1]));
  (*190*) Assign (T 178) (Plain (Einsum [(T 177,[0;1;2;3]); (n_t1_oV,[1;4])] [0;2;3;4]));
  (*191*) Del (T 177);
  (*192*) Assign (T 175) (Plain (Einsum [(T 174,[0;1;2;3]); (n_t2_ooVV,[0;1;4;5])] [2;3;4;5]));
  (*193*) Assign (T 263) (Plain (Einsum [(n_v'Vvov,[0;1;2;3]); (n_t2_OovV,[4;2;3;5])] [1;4;5;0]));
  (*194*) Assign (T 251) (Plain (Einsum [(n_v'OvVo,[0;1;2;3]); (n_t2_OoVv,[4;3;5;1])] [4;0;5;2]));
  (*195*) Assign (T 278) (Plain (Einsum [(n_t2_OoVv,[0;1;2;3]); (T 174,[4;1;3;5])] [4;5;0;2]));
  (*196*) Del (T 174);
  (*197*) Assign (T 195) (Plain (Einsum [(n_t1_oV,[0;1]); (T 194,[0;2;3;4])] [2;3;4;1]));
  (*198*) Del (T 194);
  (*199*) Assign (T 153) (Plain (Einsum [(n_t1_oV,[0;1]); (T 152,[0;2])] [1;2]));
  (*200*) Del (T 152);
  (*201*) Assign (T 312) (Plain (Einsum [(n_v'Vvov,[0;1;2;3]); (n_t2_OOvv,[4;5;3;1])] [2;4;5;0]));
  (*202*) Assign (T 209) (Plain (Einsum [(n_t2_OoVv,[0;1;2;3]); (n_v'Ooov,[4;1;5;3])] [5;0;4;2]));
  (*203*) Assign (T 192) (Plain (Einsum [(n_t1_oV,[0;1]); (T 191,[0;2;3;4])] [2;3;1;4]));
  (*204*) Assign (T 306) (Plain (Einsum [(T 305,[0;1;2;3]); (n_t1_Ov,[4;0])] [1;4;3;2]));
  (*205*) Del (T 305);
  (*206*) Assign (T 211) (Plain (Einsum [(n_t2_OoVv,[0;1;2;3]); (n_v'Ooov,[4;5;1;3])] [5;0;4;2]));
  (*207*) Assign (T 222) (Plain (Einsum [(n_t2_OovV,[0;1;2;3]); (n_v'Ooov,[4;1;5;2])] [5;0;4;3]));
  (*208*) Assign (T 213) (Plain (Einsum [(n_v'Ooov,[0;1;2;3]); (n_t2_OovV,[4;2;3;5])] [1;4;0;5]));
  (*209*) Assign (T 65) (Plain (Einsum [(n_v'OvOV,[0;1;2;3]); (n_t1,[4;1])] [4;0;2;3]));
  (*210*) Assign (T 39) (Plain (Einsum [(n_v'OVov,[0;1;2;3]); (n_t1,[2;3])] [0;1]));
  (*211*) Assign (T 37) (Plain (Einsum [(n_v'OvVo,[0;1;2;3]); (n_t1,[3;1])] [0;2]));
  (*212*) Assign (T 80) (Plain (Einsum [(n_t2,[0;1;2;3]); (T 5,[4;5;1;2])] [4;0;5;3]));
  (*213*) Assign (T 95) (Plain (Einsum [(n_v'ovov,[0;1;2;3]); (n_t2,[4;2;5;1])] [4;0;5;3]));
  (*214*) Assign (T 88) (Plain (Einsum [(n_t2,[0;1;2;3]); (n_v'ooov,[4;5;1;3])] [0;4;5;2]));
  (*215*) Assign (T 28) (Plain (Einsum [(n_v'ooov,[0;1;2;3]); (n_t1,[2;3])] [0;1]));
  (*216*) Assign (T 84) (Plain (Einsum [(n_t2,[0;1;2;3]); (n_v'ooov,[4;1;5;2])] [0;4;5;3]));
  (*217*) Assign (T 46) (Plain (Einsum [(n_f'ov,[0;1]); (n_t2,[2;3;4;1])] [0;2;3;4]));
  (*218*) Assign (T 92) (Plain (Einsum [(n_v'ooov,[0;1;2;3]); (n_t2,[4;2;3;5])] [4;0;1;5]));
  (*219*) Assign (T 119) (Plain (Einsum [(T 117,[0;1;2;3]); (n_t1,[3;4])] [0;1;2;4]));
  (*220*) Assign (T 90) (Plain (Einsum [(n_t2,[0;1;2;3]); (n_v'ooov,[4;1;5;3])] [0;4;5;2]));
  (*221*) Assign (T 12) (Plain (Einsum [(n_t1,[0;1]); (n_v'ovvv,[0;1;2;3])] [2;3]));
  (*222*) Assign (T 41) (Plain (Einsum [(n_v'ovov,[0;1;2;3]); (n_t2,[0;2;4;3])] [4;1]));
  (*223*) Assign (T 110) (Plain (Einsum [(T 5,[0;1;2;3]); (n_t2,[4;1;5;3])] [0;4;2;5]));
  (*224*) Assign (T 14) (Plain (Einsum [(n_t1,[0;1]); (n_v'ovvv,[0;2;3;1])] [2;3]));
  (*225*) Assign (T 112) (Plain (Einsum [(n_t2,[0;1;2;3]); (T 5,[4;1;5;2])] [4;0;5;3]));
  (*226*) Assign (T 10) (Plain (Einsum [(n_t2,[0;1;2;3]); (n_v'ovov,[4;3;1;2])] [0;4]));
  (*227*) Assign (T 16) (Plain (Einsum [(T 15,[0;1]); (n_t1,[2;1])] [2;0]));
  (*228*) Assign (T 1) (Plain (Einsum [(n_t1,[0;1]); (n_f'ov,[2;1])] [2;0]));
  (*229*) Assign (T 77) (Plain (Einsum [(n_t1,[0;1]); (n_v'ovvv,[2;1;3;4])] [0;2;3;4]));
  (*230*) Assign (T 48) (Plain (Einsum [(n_t2,[0;1;2;3]); (n_v'ovov,[4;5;1;3])] [0;4;2;5]));
  (*231*) Assign (T 49) (Plain (Einsum [(n_t2,[0;1;2;3]); (n_v'ovov,[4;5;1;2])] [0;4;3;5]));
  (*232*) Assign (T 108) (Plain (Einsum [(T 5,[0;1;2;3]); (n_t2,[4;2;5;3])] [0;4;1;5]));
  (*233*) Assign (T 58) (Plain (Einsum [(n_t2,[0;1;2;3]); (T 15,[4;3])] [0;1;4;2]));
  (*234*) Assign (T 8) (Plain (Einsum [(n_t2,[0;1;2;3]); (n_v'ovov,[4;2;1;3])] [0;4]));
  (*235*) Assign (T 17) (Plain (Einsum [(T 2,[0;1]); (n_t1,[2;1])] [2;0]));
  (*236*) Assign (T 27) (Plain (Einsum [(n_v'ooov,[0;1;2;3]); (n_t1,[1;3])] [0;2]));
  (*237*) Assign (T 115) (Plain (Einsum [(n_t2,[0;1;2;3]); (n_v'ovvv,[4;2;5;3])] [0;1;4;5]));
  (*238*) Assign (T 86) (Plain (Einsum [(n_t2,[0;1;2;3]); (n_v'ovov,[4;2;1;5])] [0;4;3;5]));
  (*239*) Assign (T 100) (Plain (Einsum [(n_t1,[0;1]); (T 5,[2;3;4;1])] [2;0;4;3]));
  (*240*) Assign (T 74) (Plain (Einsum [(n_v'oovv,[0;1;2;3]); (n_t1,[4;3])] [4;0;1;2]));
  (*241*) Assign (T 72) (Plain (Einsum [(n_t1,[0;1]); (T 63,[2;3;4;0])] [2;4;3;1]));
  (*242*) Assign (T 60) (Plain (Einsum [(n_t2,[0;1;2;3]); (T 2,[4;3])] [0;1;4;2]));
  (*243*) Assign (T 102) (Plain (Einsum [(T 76,[0;1;2;3]); (n_t1,[4;2])] [4;0;1;3]));
  (*244*) Assign (T 43) (Plain (Einsum [(n_v'ovov,[0;1;2;3]); (n_t2,[0;2;4;1])] [4;3]));
  (*245*) Assign (T 238) (Plain (Einsum [(n_t3,[0;1;2;3;4;5]); (n_v'OOVV,[6;2;7;4])] [0;1;6;3;5;7]));
  (*246*) Assign (T 124) (Plain (Einsum [(n_t2_OoVV,[0;1;2;3]); (T 123,[1;4;5;6])] [0;5;4;6;3;2]));
  (*247*) Del (T 123);
  (*248*) Assign (T 315) (Plain (Einsum [(n_t2_OoVV,[0;1;2;3]); (T 314,[1;4;5;6])] [4;5;0;3;2;6]));
  (*249*) Del (T 314);
  (*250*) Assign (T 233) (Plain (Einsum [(n_t2_OOvV,[0;1;2;3]); (T 232,[2;4;5;6])] [4;0;1;5;6;3]));
  (*251*) Del (T 232);
  (*252*) Assign (T 277) (Plain (Einsum [(n_t2_OoVV,[0;1;2;3]); (T 276,[1;4;5;6])] [4;5;0;6;3;2]));
  (*253*) Del (T 276);
  (*254*) Assign (T 218) (Plain (Einsum [(n_t2_OoVV,[0;1;2;3]); (T 217,[1;4;5;6])] [0;4;5;3;2;6]));
  (*255*) Del (T 217);
  (*256*) Assign (T 200) (Plain (Einsum [(T 189,[0;1;2;3]); (n_t3,[4;1;5;6;7;3])] [0;4;5;2;6;7]));
  (*257*) Assign (T 262) (Plain (Einsum [(T 261,[0;1;2;3]); (n_t2_OOvV,[4;5;0;6])] [1;4;5;2;6;3]));
  (*258*) Del (T 261);
  (*259*) Assign (T 294) (Plain (Einsum [(n_t2_OOvV,[0;1;2;3]); (T 293,[2;4;5;6])] [4;0;1;3;6;5]));
  (*260*) Del (T 293);
  (*261*) Assign (T 311) (Times (Einsum [(n_t3,[0;1;2;3;4;5]); (T 301,[6;7;0;2])] [7;6;1;3;5;4]) (-1) 1);
  (*262*) Assign (T 169) (Times (Einsum [(n_t3,[0;1;2;3;4;5]); (T 168,[6;2;7;0])] [6;1;7;3;5;4]) (-1) 1);
  (*263*) Assign (T 221) (Plain (Einsum [(n_t2_OOvV,[0;1;2;3]); (T 220,[2;4;5;6])] [4;0;1;5;6;3]));
  (*264*) Del (T 220);
  (*265*) Assign (T 121) (Plain (Einsum [(n_t3,[0;1;2;3;4;5]); (n_f'OO,[6;2])] [6;0;1;3;5;4]));
  (*266*) Assign (T 151) (Plain (Einsum [(T 150,[0;1]); (n_t3,[2;3;4;5;6;1])] [2;4;3;0;5;6]));
  (*267*) Assign (T 287) (Plain (Einsum [(T 286,[0;1;2;3]); (n_t3,[4;5;1;6;3;7])] [0;4;5;6;7;2]));
  (*268*) Assign (T 207) (Plain (Einsum [(T 54,[0;1;2;3]); (n_t2_OoVV,[4;0;5;6])] [4;1;2;6;5;3]));
  (*269*) Assign (T 206) (Plain (Einsum [(n_t3,[0;1;2;3;4;5]); (T 204,[6;7;1;2;8;5])] [6;7;0;8;3;4]));
  (*270*) Assign (T 229) (Plain (Einsum [(n_t2_OOvV,[0;1;2;3]); (T 228,[2;4;5;6])] [4;0;1;5;6;3]));
  (*271*) Del (T 228);
  (*272*) Assign (T 138) (Plain (Einsum [(n_v'OOOO,[0;1;2;3]); (n_t3,[4;3;1;5;6;7])] [4;0;2;5;7;6]));
  (*273*) Assign (T 234) (Plain (Einsum [(n_v'OoOV,[0;1;2;3]); (n_t2_OoVV,[4;1;5;6])] [4;0;2;6;5;3]));
  (*274*) Assign (T 163) (Plain (Einsum [(T 162,[0;1]); (n_t3,[2;3;4;5;6;0])] [2;4;3;5;6;1]));
  (*275*) Assign (T 216) (Plain (Einsum [(T 215,[0;1;2;3]); (n_t2_OoVV,[4;0;5;6])] [4;1;2;6;5;3]));
  (*276*) Del (T 215);
  (*277*) Assign (T 158) (Plain (Einsum [(n_t3,[0;1;2;3;4;5]); (n_f'VV,[6;5])] [0;2;1;6;3;4]));
  (*278*) Assign (T 283) (Plain (Einsum [(T 282,[0;1;2;3]); (n_t2_OoVV,[4;0;5;6])] [1;4;2;6;5;3]));
  (*279*) Del (T 282);
  (*280*) Assign (T 159) (Plain (Einsum [(n_t3,[0;1;2;3;4;5]); (n_v'OVOV,[6;7;2;5])] [0;1;6;3;4;7]));
  (*281*) Assign (T 225) (Plain (Einsum [(T 224,[0;1;2;3]); (n_t2_OoVV,[4;0;5;6])] [4;1;2;6;5;3]));
  (*282*) Del (T 224);
  (*283*) Assign (T 203) (Plain (Einsum [(T 202,[0;1;2;3]); (n_t2_OoVV,[4;0;5;6])] [4;1;2;6;5;3]));
  (*284*) Del (T 202);
  (*285*) Assign (T 267) (Times (Einsum [(n_t3,[0;1;2;3;4;5]); (T 266,[6;5;7;3])] [0;2;1;6;4;7]) (-1) 1);
  (*286*) Assign (T 241) (Plain (Einsum [(T 240,[0;1;2;3]); (n_t3,[4;5;1;6;3;7])] [0;4;5;2;6;7]));
  (*287*) Assign (T 164) (Plain (Einsum [(n_t3,[0;1;2;3;4;5]); (T 143,[6;4])] [0;2;1;6;3;5]));
  (*288*) Assign (T 269) (Plain (Einsum [(n_t3,[0;1;2;3;4;5]); (T 156,[6;7;3;5])] [0;2;1;6;7;4]));
  (*289*) Assign (T 167) (Plain (Einsum [(T 166,[0;1]); (n_t3,[2;3;0;4;5;6])] [1;2;3;4;6;5]));
  (*290*) Assign (T 310) (Plain (Einsum [(n_t2_OoVV,[0;1;2;3]); (T 309,[1;4;5;6])] [5;4;0;6;3;2]));
  (*291*) Del (T 309);
  (*292*) Assign (T 173) (Plain (Einsum [(n_t3,[0;1;2;3;4;5]); (T 172,[6;2])] [6;0;1;3;5;4]));
  (*293*) Assign (T 254) (Plain (Einsum [(n_t3,[0;1;2;3;4;5]); (T 253,[6;2;7;5])] [6;0;1;7;3;4]));
  (*294*) Assign (T 197) (Plain (Einsum [(n_t3,[0;1;2;3;4;5]); (T 168,[6;1;7;2])] [6;0;7;3;5;4]));
  (*295*) Assign (T 258) (Plain (Einsum [(T 240,[0;1;2;3]); (n_t3,[4;1;5;6;7;3])] [0;4;5;2;6;7]));
  (*296*) Assign (T 132) (Plain (Einsum [(T 131,[0;1;2;3]); (n_t3,[4;5;1;6;7;3])] [4;5;0;2;6;7]));
  (*297*) Assign (T 130) (Plain (Einsum [(n_t3,[0;1;2;3;4;5]); (T 129,[6;2;7;5])] [0;1;6;7;3;4]));
  (*298*) Assign (T 181) (Plain (Einsum [(T 180,[0;1;2;3]); (n_t2_OoVV,[4;0;5;6])] [1;4;2;3;6;5]));
  (*299*) Del (T 180);
  (*300*) Assign (T 237) (Plain (Einsum [(T 204,[0;1;2;3;4;5]); (n_t3,[6;2;3;7;5;8])] [0;1;6;4;7;8]));
  (*301*) Assign (T 281) (Plain (Einsum [(n_t2_OoVV,[0;1;2;3]); (T 280,[1;4;5;6])] [4;5;0;6;3;2]));
  (*302*) Del (T 280);
  (*303*) Assign (T 271) (Plain (Einsum [(n_t3,[0;1;2;3;4;5]); (T 266,[6;5;7;4])] [0;2;1;6;3;7]));
  (*304*) Assign (T 139) (Plain (Einsum [(T 127,[0;1]); (n_t3,[2;1;3;4;5;6])] [2;3;0;4;6;5]));
  (*305*) Assign (T 248) (Plain (Einsum [(T 247,[0;1;2;3]); (n_t2_OOvV,[4;5;0;6])] [4;5;1;2;6;3]));
  (*306*) Del (T 247);
  (*307*) Assign (T 272) (Plain (Einsum [(T 255,[0;1;2;3]); (n_t3,[4;5;1;6;3;7])] [0;4;5;2;6;7]));
  (*308*) Assign (T 128) (Plain (Einsum [(T 127,[0;1]); (n_t3,[2;3;1;4;5;6])] [2;3;0;4;6;5]));
  (*309*) Del (T 127);
  (*310*) Assign (T 285) (Plain (Einsum [(n_t2_OoVV,[0;1;2;3]); (T 284,[1;4;5;6])] [4;5;0;6;3;2]));
  (*311*) Del (T 284);
  (*312*) Assign (T 140) (Plain (Einsum [(T 131,[0;1;2;3]); (n_t3,[4;1;5;6;7;3])] [4;5;0;2;6;7]));
  (*313*) Assign (T 231) (Plain (Einsum [(n_t2_OOvV,[0;1;2;3]); (T 230,[2;4;5;6])] [4;0;1;5;6;3]));
  (*314*) Del (T 230);
  (*315*) Assign (T 144) (Plain (Einsum [(n_t3,[0;1;2;3;4;5]); (T 143,[6;5])] [0;2;1;6;3;4]));
  (*316*) Del (T 143);
  (*317*) Assign (T 161) (Plain (Einsum [(n_t3,[0;1;2;3;4;5]); (T 160,[6;5])] [0;2;1;3;4;6]));
  (*318*) Assign (T 199) (Plain (Einsum [(n_t3,[0;1;2;3;4;5]); (T 172,[6;1])] [6;0;2;3;5;4]));
  (*319*) Del (T 172);
  (*320*) Assign (T 256) (Plain (Einsum [(T 255,[0;1;2;3]); (n_t3,[4;5;1;6;7;3])] [0;4;5;2;6;7]));
  (*321*) Assign (T 208) (Plain (Einsum [(n_t2_OoVV,[0;1;2;3]); (T 56,[1;4;5;6])] [0;4;5;3;2;6]));
  (*322*) Assign (T 292) (Plain (Einsum [(n_t3,[0;1;2;3;4;5]); (T 286,[6;1;7;5])] [6;0;2;3;4;7]));
  (*323*) Assign (T 201) (Plain (Einsum [(T 168,[0;1;2;3]); (n_t3,[4;3;1;5;6;7])] [0;4;2;5;7;6]));
  (*324*) Del (T 168);
  (*325*) Assign (T 146) (Plain (Einsum [(n_t3,[0;1;2;3;4;5]); (T 145,[6;5])] [0;2;1;6;3;4]));
  (*326*) Assign (T 268) (Plain (Einsum [(n_t3,[0;1;2;3;4;5]); (T 147,[6;7;5;3])] [0;2;1;7;6;4]));
  (*327*) Assign (T 142) (Plain (Einsum [(n_t3,[0;1;2;3;4;5]); (T 141,[5;6])] [0;2;1;6;3;4]));
  (*328*) Assign (T 134) (Plain (Einsum [(n_t2_OOvV,[0;1;2;3]); (T 133,[2;4;5;6])] [0;1;4;5;6;3]));
  (*329*) Del (T 133);
  (*330*) Assign (T 165) (Plain (Einsum [(n_t3,[0;1;2;3;4;5]); (T 145,[6;4])] [0;2;1;6;3;5]));
  (*331*) Del (T 145);
  (*332*) Assign (T 302) (Plain (Einsum [(T 301,[0;1;2;3]); (n_t3,[4;2;3;5;6;7])] [1;0;4;5;7;6]));
  (*333*) Del (T 301);
  (*334*) Assign (T 246) (Plain (Einsum [(n_t2_OOvV,[0;1;2;3]); (T 245,[2;4;5;6])] [4;0;1;5;3;6]));
  (*335*) Del (T 245);
  (*336*) Assign (T 297) (Plain (Einsum [(n_t2_OOvV,[0;1;2;3]); (T 296,[2;4;5;6])] [4;0;1;5;3;6]));
  (*337*) Del (T 296);
  (*338*) Assign (T 205) (Times (Einsum [(T 204,[0;1;2;3;4;5]); (n_t3,[3;6;2;7;8;5])] [0;1;6;4;7;8]) (-1) 1);
  (*339*) Assign (T 137) (Plain (Einsum [(n_t2_OOvV,[0;1;2;3]); (T 136,[2;4;5;6])] [0;1;4;5;6;3]));
  (*340*) Del (T 136);
  (*341*) Assign (T 288) (Plain (Einsum [(T 189,[0;1;2;3]); (n_t3,[4;5;1;6;3;7])] [0;4;5;2;6;7]));
  (*342*) Assign (T 148) (Plain (Einsum [(n_t3,[0;1;2;3;4;5]); (T 147,[6;7;5;4])] [0;2;1;6;7;3]));
  (*343*) Del (T 147);
  (*344*) Assign (T 304) (Plain (Einsum [(n_t2_OoVV,[0;1;2;3]); (T 303,[1;4;5;6])] [5;4;0;6;3;2]));
  (*345*) Del (T 303);
  (*346*) Assign (T 244) (Plain (Einsum [(T 243,[0;1;2;3]); (n_t2_OOvV,[4;5;0;6])] [4;5;1;2;6;3]));
  (*347*) Del (T 243);
  (*348*) Assign (T 187) (Plain (Einsum [(n_t3,[0;1;2;3;4;5]); (T 186,[6;2])] [6;0;1;3;5;4]));
  (*349*) Assign (T 227) (Times (Einsum [(n_t2_OoVV,[0;1;2;3]); (T 226,[1;4;5;6])] [0;5;4;3;2;6]) (-1) 1);
  (*350*) Del (T 226);
  (*351*) Assign (T 260) (Plain (Einsum [(n_t2_OOvV,[0;1;2;3]); (T 259,[2;4;5;6])] [4;0;1;5;3;6]));
  (*352*) Del (T 259);
  (*353*) Assign (T 300) (Plain (Einsum [(n_t2_OOvV,[0;1;2;3]); (T 299,[2;4;5;6])] [4;0;1;5;3;6]));
  (*354*) Del (T 299);
  (*355*) Assign (T 184) (Plain (Einsum [(T 183,[0;1]); (n_t3,[2;3;1;4;5;6])] [0;2;3;4;6;5]));
  (*356*) Assign (T 122) (Plain (Einsum [(n_t3,[0;1;2;3;4;5]); (n_v'OOOO,[6;0;7;2])] [1;6;7;3;5;4]));
  (*357*) Assign (T 242) (Plain (Einsum [(n_v'OVVv,[0;1;2;3]); (n_t2_OOvV,[4;5;3;6])] [4;5;0;6;2;1]));
  (*358*) Assign (T 126) (Plain (Einsum [(T 125,[0;1]); (n_t3,[2;3;1;4;5;6])] [2;3;0;4;6;5]));
  (*359*) Assign (T 157) (Plain (Einsum [(n_t3,[0;1;2;3;4;5]); (T 156,[6;7;4;5])] [0;2;1;7;6;3]));
  (*360*) Del (T 156);
  (*361*) Assign (T 236) (Plain (Einsum [(T 204,[0;1;2;3;4;5]); (n_t3,[6;3;2;7;5;8])] [0;1;6;4;7;8]));
  (*362*) Assign (T 171) (Plain (Einsum [(T 170,[0;1]); (n_t3,[2;3;1;4;5;6])] [0;2;3;4;6;5]));
  (*363*) Assign (T 274) (Plain (Einsum [(T 266,[0;1;2;3]); (n_t3,[4;5;6;7;1;3])] [4;6;5;0;7;2]));
  (*364*) Del (T 266);
  (*365*) Assign (T 239) (Plain (Einsum [(T 131,[0;1;2;3]); (n_t3,[4;5;1;6;3;7])] [4;5;0;2;6;7]));
  (*366*) Assign (T 257) (Plain (Einsum [(n_v'OOVV,[0;1;2;3]); (n_t3,[4;1;5;6;7;3])] [4;5;0;6;7;2]));
  (*367*) Assign (T 270) (Plain (Einsum [(n_t3,[0;1;2;3;4;5]); (n_v'VVVV,[6;5;7;4])] [0;2;1;3;6;7]));
  (*368*) Assign (T 275) (Plain (Einsum [(n_t2_OoVV,[0;1;2;3]); (T 191,[1;4;5;6])] [4;0;5;3;2;6]));
  (*369*) Del (T 191);
  (*370*) Assign (T 265) (Times (Einsum [(n_t3,[0;1;2;3;4;5]); (n_v'VVVV,[6;5;7;3])] [0;2;1;4;6;7]) (-1) 1);
  (*371*) Assign (T 291) (Plain (Einsum [(n_t3,[0;1;2;3;4;5]); (T 290,[6;2;7;5])] [6;0;1;3;4;7]));
  (*372*) Assign (T 179) (Plain (Einsum [(n_t2_OoVV,[0;1;2;3]); (T 178,[1;4;5;6])] [4;0;5;6;3;2]));
  (*373*) Del (T 178);
  (*374*) Assign (T 176) (Plain (Einsum [(T 175,[0;1;2;3]); (n_t2_OOvV,[4;5;0;6])] [1;4;5;3;2;6]));
  (*375*) Del (T 175);
  (*376*) Assign (T 198) (Plain (Einsum [(T 170,[0;1]); (n_t3,[2;1;3;4;5;6])] [0;2;3;4;6;5]));
  (*377*) Del (T 170);
  (*378*) Assign (T 264) (Plain (Einsum [(T 263,[0;1;2;3]); (n_t2_OOvV,[4;5;0;6])] [1;4;5;2;6;3]));
  (*379*) Del (T 263);
  (*380*) Assign (T 252) (Plain (Einsum [(n_t3,[0;1;2;3;4;5]); (T 251,[6;2;7;5])] [6;0;1;7;3;4]));
  (*381*) Assign (T 250) (Plain (Einsum [(T 240,[0;1;2;3]); (n_t3,[4;5;1;6;7;3])] [0;4;5;2;6;7]));
  (*382*) Assign (T 273) (Plain (Einsum [(T 255,[0;1;2;3]); (n_t3,[4;1;5;6;3;7])] [0;4;5;2;6;7]));
  (*383*) Del (T 255);
  (*384*) Assign (T 279) (Plain (Einsum [(n_t2_OoVV,[0;1;2;3]); (T 278,[1;4;5;6])] [4;5;0;6;3;2]));
  (*385*) Del (T 278);
  (*386*) Assign (T 196) (Plain (Einsum [(T 195,[0;1;2;3]); (n_t2_OOvV,[4;5;0;6])] [1;4;5;3;2;6]));
  (*387*) Del (T 195);
  (*388*) Assign (T 154) (Plain (Einsum [(T 153,[0;1]); (n_t3,[2;3;4;5;6;1])] [2;4;3;0;5;6]));
  (*389*) Assign (T 289) (Plain (Einsum [(n_t3,[0;1;2;3;4;5]); (T 286,[6;2;7;5])] [6;0;1;3;4;7]));
  (*390*) Assign (T 313) (Plain (Einsum [(T 312,[0;1;2;3]); (n_t2_OoVV,[4;0;5;6])] [1;2;4;6;5;3]));
  (*391*) Del (T 312);
  (*392*) Assign (T 210) (Plain (Einsum [(n_t2_OoVV,[0;1;2;3]); (T 209,[1;4;5;6])] [4;0;5;6;3;2]));
  (*393*) Del (T 209);
  (*394*) Assign (T 193) (Plain (Einsum [(T 192,[0;1;2;3]); (n_t3,[4;5;1;6;7;3])] [0;4;5;2;6;7]));
  (*395*) Assign (T 307) (Plain (Einsum [(T 306,[0;1;2;3]); (n_t3,[4;2;3;5;6;7])] [1;0;4;5;7;6]));
  (*396*) Assign (T 212) (Plain (Einsum [(T 211,[0;1;2;3]); (n_t2_OoVV,[4;0;5;6])] [1;4;2;3;6;5]));
  (*397*) Del (T 211);
  (*398*) Assign (T 235) (Plain (Einsum [(n_t3,[0;1;2;3;4;5]); (T 204,[6;7;2;1;8;5])] [6;7;0;8;3;4]));
  (*399*) Del (T 204);
  (*400*) Assign (T 249) (Plain (Einsum [(n_v'OOVV,[0;1;2;3]); (n_t3,[4;5;1;6;7;3])] [4;5;0;6;7;2]));
  (*401*) Assign (T 223) (Plain (Einsum [(T 222,[0;1;2;3]); (n_t2_OoVV,[4;0;5;6])] [1;4;2;3;6;5]));
  (*402*) Del (T 222);
  (*403*) Assign (T 214) (Plain (Einsum [(n_t2_OoVV,[0;1;2;3]); (T 213,[1;4;5;6])] [4;0;5;6;3;2]));
  (*404*) Del (T 213);
  (*405*) Assign (T 190) (Plain (Einsum [(T 189,[0;1;2;3]); (n_t3,[4;5;1;6;7;3])] [0;4;5;2;6;7]));
  (*406*) Assign (T 316) (Times (Einsum [(T 306,[0;1;2;3]); (n_t3,[2;4;3;5;6;7])] [1;0;4;5;7;6]) (-1) 1);
  (*407*) Del (T 306);
  (*408*) Assign (T 51) (Plain (Einsum [(n_v'OVVv,[0;1;2;3]); (n_t3,[4;5;0;6;2;1])] [3;4;5;6]));
  (*409*) Assign (T 57) (Plain (Einsum [(T 56,[0;1;2;3]); (n_t1,[0;4])] [4;1;2;3]));
  (*410*) Del (T 56);
  (*411*) Assign (T 55) (Plain (Einsum [(T 54,[0;1;2;3]); (n_t1,[0;4])] [4;1;2;3]));
  (*412*) Del (T 54);
  (*413*) Assign (T 50) (Plain (Einsum [(n_v'OVVv,[0;1;2;3]); (n_t3,[4;5;0;2;6;1])] [3;4;5;6]));
  (*414*) Assign (T 32) (Plain (Einsum [(n_v'OoOV,[0;1;2;3]); (n_t3,[4;0;2;5;6;3])] [1;4;5;6]));
  (*415*) Assign (T 67) (Plain (Einsum [(n_t3,[0;1;2;3;4;5]); (T 65,[6;1;2;5])] [6;0;3;4]));
  (*416*) Assign (T 31) (Times (Einsum [(n_v'OVOo,[0;1;2;3]); (n_t3,[0;4;2;5;6;1])] [3;4;5;6]) (-1) 1);
  (*417*) Assign (T 66) (Times (Einsum [(T 65,[0;1;2;3]); (n_t3,[2;4;1;5;6;3])] [0;4;5;6]) (-1) 1);
  (*418*) Del (T 65);
  (*419*) Assign (T 36) (Plain (Einsum [(n_f'OV,[0;1]); (n_t3,[2;3;0;4;5;1])] [2;3;4;5]));
  (*420*) Assign (T 40) (Plain (Einsum [(n_t3,[0;1;2;3;4;5]); (T 39,[2;5])] [0;1;3;4]));
  (*421*) Del (T 39);
  (*422*) Assign (T 38) (Plain (Einsum [(T 37,[0;1]); (n_t3,[2;3;0;4;5;1])] [2;3;4;5]));
  (*423*) Del (T 37);
  (*424*) Assign (T 64) (Plain (Einsum [(n_t2,[0;1;2;3]); (T 63,[4;5;1;0])] [4;5;3;2]));
  (*425*) Del (T 63);
  (*426*) Assign (T 81) (Plain (Einsum [(T 80,[0;1;2;3]); (n_t1,[2;4])] [0;1;4;3]));
  (*427*) Del (T 80);
  (*428*) Assign (T 82) (Plain (Einsum [(n_v'ooov,[0;1;2;3]); (n_t1,[1;4])] [0;2;4;3]));
  (*429*) Assign (T 96) (Plain (Einsum [(T 95,[0;1;2;3]); (n_t2,[4;1;5;3])] [0;4;2;5]));
  (*430*) Del (T 95);
  (*431*) Assign (T 89) (Plain (Einsum [(T 88,[0;1;2;3]); (n_t1,[2;4])] [0;1;4;3]));
  (*432*) Del (T 88);
  (*433*) Assign (T 34) (Plain (Einsum [(n_t2,[0;1;2;3]); (T 28,[4;1])] [0;4;2;3]));
  (*434*) Assign (T 29) (Plain (Einsum [(n_t2,[0;1;2;3]); (n_f'oo,[4;1])] [4;0;2;3]));
  (*435*) Assign (T 30) (Plain (Einsum [(n_v'oooo,[0;1;2;3]); (n_t2,[3;1;4;5])] [0;2;5;4]));
  (*436*) Assign (T 85) (Plain (Einsum [(T 84,[0;1;2;3]); (n_t1,[2;4])] [0;1;4;3]));
  (*437*) Del (T 84);
  (*438*) Assign (T 47) (Plain (Einsum [(T 46,[0;1;2;3]); (n_t1,[0;4])] [1;2;4;3]));
  (*439*) Del (T 46);
  (*440*) Assign (T 93) (Plain (Einsum [(T 92,[0;1;2;3]); (n_t1,[2;4])] [0;1;4;3]));
  (*441*) Del (T 92);
  (*442*) Assign (T 120) (Plain (Einsum [(T 119,[0;1;2;3]); (n_t1,[2;4])] [0;1;4;3]));
  (*443*) Del (T 119);
  (*444*) Assign (T 91) (Plain (Einsum [(T 90,[0;1;2;3]); (n_t1,[2;4])] [0;1;4;3]));
  (*445*) Del (T 90);
  (*446*) Assign (T 52) (Plain (Einsum [(n_t2,[0;1;2;3]); (T 12,[4;3])] [0;1;2;4]));
  (*447*) Assign (T 42) (Plain (Einsum [(n_t2,[0;1;2;3]); (T 41,[4;3])] [0;1;2;4]));
  (*448*) Del (T 41);
  (*449*) Assign (T 111) (Plain (Einsum [(T 110,[0;1;2;3]); (n_t1,[2;4])] [0;1;4;3]));
  (*450*) Del (T 110);
  (*451*) Assign (T 53) (Plain (Einsum [(n_t2,[0;1;2;3]); (T 14,[3;4])] [0;1;2;4]));
  (*452*) Assign (T 113) (Plain (Einsum [(T 112,[0;1;2;3]); (n_t1,[2;4])] [0;1;4;3]));
  (*453*) Del (T 112);
  (*454*) Assign (T 106) (Plain (Einsum [(T 76,[0;1;2;3]); (n_t2,[4;1;5;2])] [0;4;5;3]));
  (*455*) Assign (T 68) (Plain (Einsum [(n_t2,[0;1;2;3]); (T 10,[4;1])] [0;4;2;3]));
  (*456*) Assign (T 70) (Plain (Einsum [(T 16,[0;1]); (n_t2,[2;1;3;4])] [0;2;3;4]));
  (*457*) Assign (T 62) (Plain (Einsum [(T 1,[0;1]); (n_t2,[2;0;3;4])] [1;2;3;4]));
  (*458*) Assign (T 78) (Plain (Einsum [(n_t2,[0;1;2;3]); (T 77,[4;1;5;2])] [4;0;3;5]));
  (*459*) Assign (T 99) (Plain (Einsum [(n_v'vvvv,[0;1;2;3]); (n_t1,[4;3])] [4;0;1;2]));
  (*460*) Assign (T 98) (Plain (Einsum [(T 48,[0;1;2;3]); (n_t2,[4;1;5;3])] [0;4;2;5]));
  (*461*) Assign (T 79) (Plain (Einsum [(T 5,[0;1;2;3]); (n_t1,[2;4])] [0;1;4;3]));
  (*462*) Assign (T 118) (Plain (Einsum [(T 117,[0;1;2;3]); (n_t2,[3;2;4;5])] [1;0;4;5]));
  (*463*) Del (T 117);
  (*464*) Assign (T 97) (Plain (Einsum [(n_t2,[0;1;2;3]); (T 49,[4;1;5;3])] [0;4;2;5]));
  (*465*) Assign (T 35) (Plain (Einsum [(n_v'oooo,[0;1;2;3]); (n_t1,[3;4])] [0;1;2;4]));
  (*466*) Assign (T 114) (Plain (Einsum [(n_v'vvvv,[0;1;2;3]); (n_t2,[4;5;1;3])] [4;5;0;2]));
  (*467*) Assign (T 109) (Plain (Einsum [(T 108,[0;1;2;3]); (n_t1,[2;4])] [0;1;4;3]));
  (*468*) Del (T 108);
  (*469*) Assign (T 59) (Plain (Einsum [(T 58,[0;1;2;3]); (n_t1,[2;4])] [0;1;4;3]));
  (*470*) Del (T 58);
  (*471*) Assign (T 69) (Plain (Einsum [(n_t2,[0;1;2;3]); (T 8,[4;1])] [0;4;2;3]));
  (*472*) Assign (T 71) (Plain (Einsum [(T 17,[0;1]); (n_t2,[2;1;3;4])] [0;2;3;4]));
  (*473*) Assign (T 33) (Plain (Einsum [(T 27,[0;1]); (n_t2,[2;1;3;4])] [2;0;3;4]));
  (*474*) Assign (T 116) (Plain (Einsum [(T 115,[0;1;2;3]); (n_t1,[2;4])] [0;1;4;3]));
  (*475*) Del (T 115);
  (*476*) Assign (T 94) (Plain (Einsum [(n_t2,[0;1;2;3]); (T 86,[4;1;5;3])] [0;4;2;5]));
  (*477*) Assign (T 101) (Plain (Einsum [(n_t2,[0;1;2;3]); (T 100,[4;5;0;1])] [5;4;3;2]));
  (*478*) Assign (T 75) (Plain (Einsum [(T 74,[0;1;2;3]); (n_t1,[2;4])] [0;1;4;3]));
  (*479*) Del (T 74);
  (*480*) Assign (T 45) (Plain (Einsum [(n_f'vv,[0;1]); (n_t2,[2;3;4;1])] [2;3;0;4]));
  (*481*) Assign (T 104) (Plain (Einsum [(n_t1,[0;1]); (T 100,[2;3;0;4])] [3;2;4;1]));
  (*482*) Del (T 100);
  (*483*) Assign (T 73) (Plain (Einsum [(T 72,[0;1;2;3]); (n_t1,[1;4])] [0;2;4;3]));
  (*484*) Del (T 72);
  (*485*) Assign (T 61) (Plain (Einsum [(T 60,[0;1;2;3]); (n_t1,[2;4])] [0;1;4;3]));
  (*486*) Del (T 60);
  (*487*) Assign (T 103) (Plain (Einsum [(T 102,[0;1;2;3]); (n_t1,[2;4])] [0;1;4;3]));
  (*488*) Del (T 102);
  (*489*) Assign (T 107) (Plain (Einsum [(n_t2,[0;1;2;3]); (T 76,[4;1;2;5])] [4;0;3;5]));
  (*490*) Assign (T 83) (Plain (Einsum [(n_t2,[0;1;2;3]); (n_v'oovv,[4;1;5;2])] [0;4;3;5]));
  (*491*) Assign (T 105) (Plain (Einsum [(n_t2,[0;1;2;3]); (T 77,[4;1;5;3])] [4;0;2;5]));
  (*492*) Del (T 77);
  (*493*) Assign (T 44) (Plain (Einsum [(T 43,[0;1]); (n_t2,[2;3;4;1])] [2;3;4;0]));
  (*494*) Del (T 43);
  (*495*) Assign (T 87) (Plain (Einsum [(n_t2,[0;1;2;3]); (n_v'oovv,[4;1;5;3])] [0;4;2;5]));
  (*496*) Assign (T 22) (Plain (Einsum [(n_v'OVOV,[0;1;2;3]); (n_t3,[4;0;2;5;3;1])] [4;5]));
  (*497*) Assign (T 21) (Plain (Einsum [(n_v'OVOV,[0;1;2;3]); (n_t3,[4;0;2;3;5;1])] [4;5]));
  (*498*) Assign (T 23) (Plain (Einsum [(n_v'OVOV,[0;1;2;3]); (n_t3,[4;0;2;5;1;3])] [4;5]));
  (*499*) Assign (T 24) (Times (Einsum [(n_v'OVOV,[0;1;2;3]); (n_t3,[0;4;2;3;5;1])] [4;5]) (-1) 1);
  (*500*) Assign (T 3) (Plain (Einsum [(n_t2,[0;1;2;3]); (n_v'ovvv,[1;3;4;2])] [0;4]));
  (*501*) Assign (T 25) (Plain (Einsum [(n_t2,[0;1;2;3]); (T 2,[1;2])] [0;3]));
  (*502*) Assign (T 13) (Plain (Einsum [(T 12,[0;1]); (n_t1,[2;1])] [2;0]));
  (*503*) Del (T 12);
  (*504*) Assign (T 11) (Plain (Einsum [(n_t1,[0;1]); (T 10,[2;0])] [2;1]));
  (*505*) Del (T 10);
  (*506*) Assign (T 18) (Plain (Einsum [(n_t1,[0;1]); (T 17,[2;0])] [2;1]));
  (*507*) Del (T 17);
  (*508*) Assign (T 9) (Plain (Einsum [(T 8,[0;1]); (n_t1,[1;2])] [0;2]));
  (*509*) Del (T 8);
  (*510*) Assign (T 19) (Plain (Einsum [(n_t2,[0;1;2;3]); (n_v'ooov,[4;1;0;3])] [4;2]));
  (*511*) Assign (T 7) (Plain (Einsum [(n_t2,[0;1;2;3]); (T 5,[4;0;1;3])] [4;2]));
  (*512*) Assign (T 20) (Plain (Einsum [(n_t2,[0;1;2;3]); (n_v'ooov,[4;0;1;3])] [4;2]));
  (*513*) Assign (T 26) (Plain (Einsum [(n_t2,[0;1;2;3]); (T 2,[1;3])] [0;2]));
  (*514*) Assign (T 4) (Plain (Einsum [(n_t2,[0;1;2;3]); (n_v'ovvv,[1;2;4;3])] [0;4]));
  (*515*) Assign (T 6) (Plain (Einsum [(n_t2,[0;1;2;3]); (T 5,[4;1;0;3])] [4;2]));
  (*516*) Del (T 5);
  (*517*) Assign n_t3new (Plain (Transpose (T 121) [1;2;0;4;5;3]));
  (*518*) AddTo n_t3new (Times (Transpose (T 122) [1;0;2;4;5;3]) (-1) 1);
  (*519*) Del (T 122);
  (*520*) AddTo n_t3new (Times (Transpose (T 124) [1;0;2;4;5;3]) (-1) 1);
  (*521*) AddTo n_t3new (Times (Transpose (T 126) [0;1;2;4;5;3]) (-1) 1);
  (*522*) AddTo n_t3new (Times (Transpose (T 128) [0;1;2;4;5;3]) (2) 1);
  (*523*) AddTo n_t3new (Times (Transpose (T 130) [0;1;2;4;5;3]) (-1) 1);
  (*524*) AddTo n_t3new (Plain (Transpose (T 132) [0;1;2;4;5;3]));
  (*525*) AddTo n_t3new (Times (Transpose (T 130) [1;0;2;5;4;3]) (-1) 1);
  (*526*) AddTo n_t3new (Plain (Transpose (T 134) [1;0;2;5;3;4]));
  (*527*) AddTo n_t3new (Plain (Transpose (T 137) [1;0;2;5;3;4]));
  (*528*) AddTo n_t3new (Times (Einsum [(n_t3,[0;1;2;3;4;5]); (n_f'OO,[6;1])] [0;6;2;3;4;5]) (-1) 1);
  (*529*) AddTo n_t3new (Plain (Transpose (T 138) [1;2;0;4;5;3]));
  (*530*) AddTo n_t3new (Times (Transpose (T 124) [1;2;0;5;4;3]) (-1) 1);
  (*531*) AddTo n_t3new (Plain (Einsum [(n_t3,[0;1;2;3;4;5]); (T 125,[6;1])] [0;6;2;3;4;5]));
  (*532*) Del (T 125);
  (*533*) AddTo n_t3new (Times (Transpose (T 139) [0;2;1;4;5;3]) (2) 1);
  (*534*) Del (T 139);
  (*535*) AddTo n_t3new (Plain (Transpose (T 140) [0;2;1;4;5;3]));
  (*536*) AddTo n_t3new (Times (Transpose (T 134) [0;2;1;5;4;3]) (-1) 1);
  (*537*) AddTo n_t3new (Plain (Transpose (T 134) [1;2;0;5;4;3]));
  (*538*) AddTo n_t3new (Times (Transpose (T 137) [0;2;1;5;4;3]) (-1) 1);
  (*539*) AddTo n_t3new (Plain (Transpose (T 137) [1;2;0;5;4;3]));
  (*540*) AddTo n_t3new (Times (Transpose (T 121) [0;2;1;4;5;3]) (-1) 1);
  (*541*) Del (T 121);
  (*542*) AddTo n_t3new (Times (Transpose (T 142) [0;2;1;4;5;3]) (-1) 1);
  (*543*) AddTo n_t3new (Plain (Transpose (T 126) [2;1;0;4;5;3]));
  (*544*) Del (T 126);
  (*545*) AddTo n_t3new (Times (Transpose (T 128) [2;1;0;4;5;3]) (-2) 1);
  (*546*) Del (T 128);
  (*547*) AddTo n_t3new (Plain (Transpose (T 130) [2;1;0;4;5;3]));
  (*548*) AddTo n_t3new (Times (Transpose (T 132) [2;1;0;4;5;3]) (-1) 1);
  (*549*) AddTo n_t3new (Plain (Transpose (T 130) [2;0;1;5;4;3]));
  (*550*) AddTo n_t3new (Times (Transpose (T 144) [1;2;0;4;5;3]) (-1) 1);
  (*551*) AddTo n_t3new (Times (Transpose (T 146) [1;2;0;4;5;3]) (2) 1);
  (*552*) AddTo n_t3new (Times (Transpose (T 148) [1;2;0;5;4;3]) (-1) 1);
  (*553*) AddTo n_t3new (Times (Transpose (T 134) [2;0;1;5;3;4]) (-1) 1);
  (*554*) AddTo n_t3new (Times (Transpose (T 137) [2;0;1;5;3;4]) (-1) 1);
  (*555*) AddTo n_t3new (Times (Transpose (T 151) [1;2;0;4;5;3]) (-1) 1);
  (*556*) AddTo n_t3new (Times (Transpose (T 154) [1;2;0;4;5;3]) (2) 1);
  (*557*) AddTo n_t3new (Times (Transpose (T 157) [1;2;0;5;4;3]) (-1) 1);
  (*558*) AddTo n_t3new (Plain (Transpose (T 124) [2;0;1;4;5;3]));
  (*559*) AddTo n_t3new (Times (Transpose (T 158) [0;2;1;3;5;4]) (-1) 1);
  (*560*) AddTo n_t3new (Plain (Transpose (T 142) [0;2;1;3;5;4]));
  (*561*) Del (T 142);
  (*562*) AddTo n_t3new (Plain (Transpose (T 159) [2;1;0;5;4;3]));
  (*563*) AddTo n_t3new (Plain (Transpose (T 159) [2;0;1;5;3;4]));
  (*564*) AddTo n_t3new (Times (Transpose (T 161) [0;2;1;5;4;3]) (-2) 1);
  (*565*) AddTo n_t3new (Plain (Transpose (T 163) [0;2;1;5;4;3]));
  (*566*) AddTo n_t3new (Plain (Transpose (T 144) [1;2;0;3;5;4]));
  (*567*) Del (T 144);
  (*568*) AddTo n_t3new (Times (Transpose (T 146) [1;2;0;3;5;4]) (-2) 1);
  (*569*) Del (T 146);
  (*570*) AddTo n_t3new (Plain (Transpose (T 151) [1;2;0;3;5;4]));
  (*571*) Del (T 151);
  (*572*) AddTo n_t3new (Times (Transpose (T 154) [1;2;0;3;5;4]) (-2) 1);
  (*573*) Del (T 154);
  (*574*) AddTo n_t3new (Plain (Einsum [(n_t3,[0;1;2;3;4;5]); (n_f'VV,[6;4])] [0;1;2;3;6;5]));
  (*575*) AddTo n_t3new (Times (Einsum [(T 141,[0;1]); (n_t3,[2;3;4;5;0;6])] [2;3;4;5;1;6]) (-1) 1);
  (*576*) Del (T 141);
  (*577*) AddTo n_t3new (Times (Einsum [(T 160,[0;1]); (n_t3,[2;3;4;5;1;6])] [2;3;4;5;0;6]) (2) 1);
  (*578*) Del (T 160);
  (*579*) AddTo n_t3new (Times (Einsum [(n_t3,[0;1;2;3;4;5]); (T 162,[4;6])] [0;1;2;3;6;5]) (-1) 1);
  (*580*) Del (T 162);
  (*581*) AddTo n_t3new (Times (Transpose (T 164) [1;2;0;4;3;5]) (-1) 1);
  (*582*) Del (T 164);
  (*583*) AddTo n_t3new (Times (Transpose (T 165) [1;2;0;4;3;5]) (2) 1);
  (*584*) Del (T 165);
  (*585*) AddTo n_t3new (Plain (Einsum [(n_t3,[0;1;2;3;4;5]); (T 150,[6;4])] [0;1;2;3;6;5]));
  (*586*) Del (T 150);
  (*587*) AddTo n_t3new (Times (Einsum [(n_t3,[0;1;2;3;4;5]); (T 153,[6;4])] [0;1;2;3;6;5]) (-2) 1);
  (*588*) Del (T 153);
  (*589*) AddTo n_t3new (Plain (Transpose (T 158) [0;2;1;4;5;3]));
  (*590*) Del (T 158);
  (*591*) AddTo n_t3new (Times (Transpose (T 159) [2;1;0;3;4;5]) (-1) 1);
  (*592*) AddTo n_t3new (Times (Transpose (T 159) [2;0;1;4;3;5]) (-1) 1);
  (*593*) AddTo n_t3new (Times (Transpose (T 161) [0;2;1;3;4;5]) (2) 1);
  (*594*) Del (T 161);
  (*595*) AddTo n_t3new (Times (Transpose (T 163) [0;2;1;3;4;5]) (-1) 1);
  (*596*) Del (T 163);
  (*597*) AddTo n_t3new (Plain (Transpose (T 167) [1;2;0;4;5;3]));
  (*598*) AddTo n_t3new (Plain (Transpose (T 169) [2;1;0;4;5;3]));
  (*599*) AddTo n_t3new (Plain (Transpose (T 171) [1;2;0;3;5;4]));
  (*600*) AddTo n_t3new (Times (Transpose (T 173) [1;2;0;3;5;4]) (-2) 1);
  (*601*) AddTo n_t3new (Plain (Transpose (T 176) [2;1;0;5;4;3]));
  (*602*) AddTo n_t3new (Times (Transpose (T 179) [2;1;0;4;5;3]) (-1) 1);
  (*603*) AddTo n_t3new (Plain (Transpose (T 181) [2;1;0;4;5;3]));
  (*604*) AddTo n_t3new (Plain (Transpose (T 184) [1;2;0;3;5;4]));
  (*605*) AddTo n_t3new (Times (Transpose (T 187) [1;2;0;3;5;4]) (-2) 1);
  (*606*) AddTo n_t3new (Plain (Transpose (T 190) [1;2;0;4;5;3]));
  (*607*) AddTo n_t3new (Times (Transpose (T 193) [1;2;0;4;5;3]) (-1) 1);
  (*608*) AddTo n_t3new (Times (Transpose (T 193) [2;1;0;5;4;3]) (-1) 1);
  (*609*) AddTo n_t3new (Plain (Transpose (T 196) [2;1;0;5;4;3]));
  (*610*) AddTo n_t3new (Times (Einsum [(T 166,[0;1]); (n_t3,[2;0;3;4;5;6])] [2;1;3;4;5;6]) (-1) 1);
  (*611*) Del (T 166);
  (*612*) AddTo n_t3new (Plain (Transpose (T 197) [2;0;1;4;5;3]));
  (*613*) AddTo n_t3new (Times (Transpose (T 198) [2;0;1;3;5;4]) (-1) 1);
  (*614*) Del (T 198);
  (*615*) AddTo n_t3new (Times (Transpose (T 199) [2;0;1;3;5;4]) (2) 1);
  (*616*) Del (T 199);
  (*617*) AddTo n_t3new (Times (Transpose (T 176) [1;0;2;5;3;4]) (-1) 1);
  (*618*) AddTo n_t3new (Plain (Transpose (T 176) [2;0;1;5;3;4]));
  (*619*) AddTo n_t3new (Times (Transpose (T 179) [2;0;1;5;4;3]) (-1) 1);
  (*620*) AddTo n_t3new (Plain (Einsum [(n_t3,[0;1;2;3;4;5]); (T 183,[6;1])] [0;6;2;3;4;5]));
  (*621*) Del (T 183);
  (*622*) AddTo n_t3new (Times (Einsum [(n_t3,[0;1;2;3;4;5]); (T 186,[6;1])] [0;6;2;3;4;5]) (-2) 1);
  (*623*) Del (T 186);
  (*624*) AddTo n_t3new (Times (Transpose (T 200) [2;0;1;4;5;3]) (-1) 1);
  (*625*) AddTo n_t3new (Times (Transpose (T 196) [1;0;2;5;3;4]) (-1) 1);
  (*626*) AddTo n_t3new (Plain (Transpose (T 196) [2;0;1;5;3;4]));
  (*627*) AddTo n_t3new (Times (Transpose (T 167) [0;2;1;4;5;3]) (-1) 1);
  (*628*) Del (T 167);
  (*629*) AddTo n_t3new (Plain (Transpose (T 201) [0;2;1;4;5;3]));
  (*630*) AddTo n_t3new (Times (Transpose (T 171) [0;2;1;3;5;4]) (-1) 1);
  (*631*) Del (T 171);
  (*632*) AddTo n_t3new (Times (Transpose (T 173) [0;2;1;3;5;4]) (2) 1);
  (*633*) Del (T 173);
  (*634*) AddTo n_t3new (Times (Transpose (T 176) [0;1;2;5;4;3]) (-1) 1);
  (*635*) AddTo n_t3new (Times (Transpose (T 181) [0;2;1;5;4;3]) (-1) 1);
  (*636*) AddTo n_t3new (Times (Transpose (T 184) [0;2;1;3;5;4]) (-1) 1);
  (*637*) Del (T 184);
  (*638*) AddTo n_t3new (Times (Transpose (T 187) [0;2;1;3;5;4]) (2) 1);
  (*639*) Del (T 187);
  (*640*) AddTo n_t3new (Times (Transpose (T 190) [0;2;1;4;5;3]) (-1) 1);
  (*641*) AddTo n_t3new (Plain (Transpose (T 193) [0;2;1;4;5;3]));
  (*642*) AddTo n_t3new (Plain (Transpose (T 193) [0;1;2;5;4;3]));
  (*643*) AddTo n_t3new (Times (Transpose (T 196) [0;1;2;5;4;3]) (-1) 1);
  (*644*) AddTo n_t3new (Times (Transpose (T 169) [0;1;2;4;5;3]) (-1) 1);
  (*645*) Del (T 169);
  (*646*) AddTo n_t3new (Plain (Transpose (T 179) [0;1;2;4;5;3]));
  (*647*) AddTo n_t3new (Times (Transpose (T 181) [0;1;2;4;5;3]) (-1) 1);
  (*648*) AddTo n_t3new (Plain (Transpose (T 203) [0;1;2;5;3;4]));
  (*649*) AddTo n_t3new (Times (Transpose (T 124) [0;2;1;3;4;5]) (-1) 1);
  (*650*) AddTo n_t3new (Plain (Transpose (T 205) [2;0;1;3;4;5]));
  (*651*) AddTo n_t3new (Plain (Transpose (T 206) [2;0;1;3;5;4]));
  (*652*) AddTo n_t3new (Plain (Transpose (T 207) [0;1;2;5;3;4]));
  (*653*) AddTo n_t3new (Plain (Transpose (T 208) [0;2;1;5;3;4]));
  (*654*) AddTo n_t3new (Times (Transpose (T 210) [1;2;0;3;4;5]) (-1) 1);
  (*655*) AddTo n_t3new (Times (Transpose (T 212) [1;2;0;3;4;5]) (2) 1);
  (*656*) AddTo n_t3new (Times (Transpose (T 214) [1;2;0;3;4;5]) (-1) 1);
  (*657*) AddTo n_t3new (Times (Transpose (T 216) [0;1;2;5;3;4]) (-1) 1);
  (*658*) AddTo n_t3new (Times (Transpose (T 218) [0;1;2;5;3;4]) (2) 1);
  (*659*) AddTo n_t3new (Times (Transpose (T 221) [0;1;2;5;4;3]) (-1) 1);
  (*660*) AddTo n_t3new (Times (Transpose (T 223) [1;0;2;3;4;5]) (-1) 1);
  (*661*) AddTo n_t3new (Plain (Transpose (T 203) [1;0;2;5;4;3]));
  (*662*) AddTo n_t3new (Times (Transpose (T 203) [2;0;1;5;4;3]) (-1) 1);
  (*663*) AddTo n_t3new (Times (Transpose (T 124) [2;0;1;3;5;4]) (-1) 1);
  (*664*) AddTo n_t3new (Plain (Transpose (T 205) [0;2;1;3;5;4]));
  (*665*) AddTo n_t3new (Times (Transpose (T 205) [1;2;0;3;5;4]) (-1) 1);
  (*666*) AddTo n_t3new (Plain (Transpose (T 206) [0;2;1;3;4;5]));
  (*667*) AddTo n_t3new (Times (Transpose (T 206) [1;2;0;3;4;5]) (-1) 1);
  (*668*) AddTo n_t3new (Plain (Transpose (T 207) [1;0;2;5;4;3]));
  (*669*) AddTo n_t3new (Plain (Transpose (T 225) [1;0;2;5;4;3]));
  (*670*) AddTo n_t3new (Times (Transpose (T 208) [1;0;2;5;4;3]) (-1) 1);
  (*671*) AddTo n_t3new (Plain (Transpose (T 227) [2;0;1;5;4;3]));
  (*672*) AddTo n_t3new (Plain (Transpose (T 223) [2;1;0;3;5;4]));
  (*673*) AddTo n_t3new (Times (Transpose (T 210) [2;1;0;3;5;4]) (-1) 1);
  (*674*) AddTo n_t3new (Times (Transpose (T 214) [2;1;0;3;5;4]) (-1) 1);
  (*675*) AddTo n_t3new (Times (Transpose (T 212) [2;1;0;3;5;4]) (2) 1);
  (*676*) AddTo n_t3new (Times (Transpose (T 216) [1;0;2;5;4;3]) (-1) 1);
  (*677*) AddTo n_t3new (Plain (Transpose (T 216) [2;0;1;5;4;3]));
  (*678*) AddTo n_t3new (Times (Transpose (T 218) [1;0;2;5;4;3]) (2) 1);
  (*679*) AddTo n_t3new (Times (Transpose (T 218) [2;0;1;5;4;3]) (-2) 1);
  (*680*) AddTo n_t3new (Times (Transpose (T 229) [1;0;2;5;4;3]) (-1) 1);
  (*681*) AddTo n_t3new (Plain (Transpose (T 229) [2;0;1;5;4;3]));
  (*682*) AddTo n_t3new (Times (Transpose (T 231) [1;0;2;5;4;3]) (2) 1);
  (*683*) AddTo n_t3new (Times (Transpose (T 231) [2;0;1;5;4;3]) (-2) 1);
  (*684*) AddTo n_t3new (Times (Transpose (T 233) [1;0;2;5;4;3]) (-1) 1);
  (*685*) AddTo n_t3new (Plain (Transpose (T 233) [2;0;1;5;4;3]));
  (*686*) AddTo n_t3new (Plain (Transpose (T 234) [1;0;2;5;4;3]));
  (*687*) AddTo n_t3new (Plain (Transpose (T 124) [1;0;2;3;5;4]));
  (*688*) AddTo n_t3new (Times (Transpose (T 223) [0;1;2;3;5;4]) (-1) 1);
  (*689*) AddTo n_t3new (Plain (Transpose (T 210) [0;1;2;3;5;4]));
  (*690*) AddTo n_t3new (Plain (Transpose (T 214) [0;1;2;3;5;4]));
  (*691*) AddTo n_t3new (Times (Transpose (T 212) [0;1;2;3;5;4]) (-2) 1);
  (*692*) AddTo n_t3new (Plain (Transpose (T 203) [0;2;1;3;5;4]));
  (*693*) AddTo n_t3new (Times (Transpose (T 203) [0;2;1;4;5;3]) (-1) 1);
  (*694*) AddTo n_t3new (Times (Transpose (T 235) [2;1;0;5;3;4]) (-1) 2);
  (*695*) AddTo n_t3new (Times (Transpose (T 235) [2;1;0;4;3;5]) (1) 2);
  (*696*) AddTo n_t3new (Times (Transpose (T 236) [2;1;0;5;3;4]) (3) 2);
  (*697*) AddTo n_t3new (Times (Transpose (T 206) [2;1;0;5;3;4]) (1) 2);
  (*698*) AddTo n_t3new (Times (Transpose (T 206) [2;1;0;4;3;5]) (-1) 2);
  (*699*) AddTo n_t3new (Times (Transpose (T 237) [2;1;0;5;3;4]) (-1) 2);
  (*700*) AddTo n_t3new (Times (Transpose (T 223) [1;2;0;4;3;5]) (-1) 1);
  (*701*) AddTo n_t3new (Plain (Transpose (T 223) [1;2;0;5;3;4]));
  (*702*) AddTo n_t3new (Times (Transpose (T 216) [0;2;1;3;5;4]) (-1) 1);
  (*703*) AddTo n_t3new (Plain (Transpose (T 216) [0;2;1;4;5;3]));
  (*704*) AddTo n_t3new (Times (Transpose (T 218) [0;2;1;3;5;4]) (2) 1);
  (*705*) AddTo n_t3new (Times (Transpose (T 218) [0;2;1;4;5;3]) (-2) 1);
  (*706*) AddTo n_t3new (Plain (Transpose (T 234) [0;2;1;3;5;4]));
  (*707*) AddTo n_t3new (Times (Transpose (T 234) [0;2;1;4;5;3]) (-1) 1);
  (*708*) AddTo n_t3new (Times (Transpose (T 124) [0;1;2;4;3;5]) (-1) 1);
  (*709*) AddTo n_t3new (Plain (Transpose (T 124) [0;1;2;5;3;4]));
  (*710*) AddTo n_t3new (Times (Transpose (T 210) [1;0;2;4;3;5]) (-1) 1);
  (*711*) AddTo n_t3new (Plain (Transpose (T 210) [1;0;2;5;3;4]));
  (*712*) AddTo n_t3new (Times (Transpose (T 212) [1;0;2;4;3;5]) (2) 1);
  (*713*) AddTo n_t3new (Times (Transpose (T 212) [1;0;2;5;3;4]) (-2) 1);
  (*714*) AddTo n_t3new (Times (Transpose (T 214) [1;0;2;4;3;5]) (-1) 1);
  (*715*) AddTo n_t3new (Plain (Transpose (T 214) [1;0;2;5;3;4]));
  (*716*) AddTo n_t3new (Times (Transpose (T 203) [2;1;0;5;3;4]) (-1) 1);
  (*717*) AddTo n_t3new (Times (Transpose (T 205) [1;0;2;3;4;5]) (-1) 1);
  (*718*) AddTo n_t3new (Times (Transpose (T 206) [1;0;2;3;5;4]) (-1) 1);
  (*719*) AddTo n_t3new (Times (Transpose (T 207) [2;1;0;5;3;4]) (-1) 1);
  (*720*) AddTo n_t3new (Times (Transpose (T 208) [1;2;0;5;3;4]) (-1) 1);
  (*721*) AddTo n_t3new (Plain (Transpose (T 223) [2;0;1;3;4;5]));
  (*722*) AddTo n_t3new (Plain (Transpose (T 216) [2;1;0;5;3;4]));
  (*723*) AddTo n_t3new (Times (Transpose (T 218) [2;1;0;5;3;4]) (-2) 1);
  (*724*) AddTo n_t3new (Plain (Transpose (T 221) [2;1;0;5;4;3]));
  (*725*) AddTo n_t3new (Plain (Transpose (T 124) [1;2;0;3;4;5]));
  (*726*) AddTo n_t3new (Plain (Transpose (T 210) [0;2;1;3;4;5]));
  (*727*) AddTo n_t3new (Times (Transpose (T 212) [0;2;1;3;4;5]) (-2) 1);
  (*728*) AddTo n_t3new (Plain (Transpose (T 214) [0;2;1;3;4;5]));
  (*729*) AddTo n_t3new (Times (Transpose (T 203) [1;2;0;3;5;4]) (-1) 1);
  (*730*) AddTo n_t3new (Plain (Transpose (T 203) [1;2;0;4;5;3]));
  (*731*) AddTo n_t3new (Plain (Transpose (T 124) [2;1;0;4;3;5]));
  (*732*) AddTo n_t3new (Times (Transpose (T 124) [2;1;0;5;3;4]) (-1) 1);
  (*733*) AddTo n_t3new (Times (Transpose (T 235) [0;1;2;5;3;4]) (1) 2);
  (*734*) AddTo n_t3new (Times (Transpose (T 235) [0;1;2;4;3;5]) (-1) 2);
  (*735*) Del (T 235);
  (*736*) AddTo n_t3new (Times (Transpose (T 236) [0;1;2;5;3;4]) (-3) 2);
  (*737*) Del (T 236);
  (*738*) AddTo n_t3new (Times (Transpose (T 206) [0;1;2;5;3;4]) (-1) 2);
  (*739*) AddTo n_t3new (Times (Transpose (T 206) [0;1;2;4;3;5]) (1) 2);
  (*740*) AddTo n_t3new (Times (Transpose (T 237) [0;1;2;5;3;4]) (1) 2);
  (*741*) Del (T 237);
  (*742*) AddTo n_t3new (Plain (Transpose (T 210) [2;0;1;4;3;5]));
  (*743*) AddTo n_t3new (Times (Transpose (T 210) [2;0;1;5;3;4]) (-1) 1);
  (*744*) AddTo n_t3new (Times (Transpose (T 212) [2;0;1;4;3;5]) (-2) 1);
  (*745*) AddTo n_t3new (Times (Transpose (T 212) [2;0;1;5;3;4]) (2) 1);
  (*746*) AddTo n_t3new (Plain (Transpose (T 214) [2;0;1;4;3;5]));
  (*747*) AddTo n_t3new (Times (Transpose (T 214) [2;0;1;5;3;4]) (-1) 1);
  (*748*) AddTo n_t3new (Plain (Transpose (T 216) [1;2;0;3;5;4]));
  (*749*) AddTo n_t3new (Times (Transpose (T 216) [1;2;0;4;5;3]) (-1) 1);
  (*750*) AddTo n_t3new (Times (Transpose (T 218) [1;2;0;3;5;4]) (-2) 1);
  (*751*) AddTo n_t3new (Times (Transpose (T 218) [1;2;0;4;5;3]) (2) 1);
  (*752*) AddTo n_t3new (Times (Transpose (T 234) [1;2;0;3;5;4]) (-1) 1);
  (*753*) AddTo n_t3new (Plain (Transpose (T 234) [1;2;0;4;5;3]));
  (*754*) AddTo n_t3new (Times (Transpose (T 238) [2;1;0;4;5;3]) (-1) 1);
  (*755*) AddTo n_t3new (Plain (Transpose (T 239) [2;1;0;5;3;4]));
  (*756*) AddTo n_t3new (Times (Transpose (T 241) [0;2;1;4;3;5]) (-1) 1);
  (*757*) AddTo n_t3new (Times (Transpose (T 203) [0;1;2;4;3;5]) (-1) 1);
  (*758*) AddTo n_t3new (Times (Transpose (T 205) [2;0;1;5;4;3]) (-1) 1);
  (*759*) AddTo n_t3new (Times (Transpose (T 206) [2;0;1;4;5;3]) (-1) 1);
  (*760*) AddTo n_t3new (Times (Transpose (T 207) [0;1;2;4;3;5]) (-1) 1);
  (*761*) AddTo n_t3new (Times (Transpose (T 208) [0;2;1;4;3;5]) (-1) 1);
  (*762*) AddTo n_t3new (Plain (Transpose (T 134) [2;0;1;4;3;5]));
  (*763*) AddTo n_t3new (Plain (Transpose (T 216) [0;1;2;4;3;5]));
  (*764*) AddTo n_t3new (Times (Transpose (T 218) [0;1;2;4;3;5]) (-2) 1);
  (*765*) AddTo n_t3new (Plain (Transpose (T 137) [2;0;1;4;3;5]));
  (*766*) AddTo n_t3new (Plain (Transpose (T 242) [2;0;1;5;4;3]));
  (*767*) AddTo n_t3new (Times (Transpose (T 244) [2;0;1;5;3;4]) (-1) 1);
  (*768*) AddTo n_t3new (Times (Transpose (T 246) [0;1;2;5;3;4]) (-1) 1);
  (*769*) AddTo n_t3new (Plain (Copy (T 221)));
  (*770*) AddTo n_t3new (Times (Transpose (T 203) [1;0;2;3;4;5]) (-1) 1);
  (*771*) AddTo n_t3new (Plain (Transpose (T 203) [2;0;1;3;4;5]));
  (*772*) AddTo n_t3new (Times (Transpose (T 248) [0;2;1;5;3;4]) (-1) 1);
  (*773*) AddTo n_t3new (Plain (Transpose (T 248) [1;2;0;5;3;4]));
  (*774*) AddTo n_t3new (Times (Transpose (T 205) [0;2;1;4;5;3]) (-1) 1);
  (*775*) AddTo n_t3new (Plain (Transpose (T 205) [1;2;0;4;5;3]));
  (*776*) AddTo n_t3new (Times (Transpose (T 206) [0;2;1;5;4;3]) (-1) 1);
  (*777*) AddTo n_t3new (Plain (Transpose (T 206) [1;2;0;5;4;3]));
  (*778*) AddTo n_t3new (Times (Transpose (T 207) [1;0;2;3;4;5]) (-1) 1);
  (*779*) AddTo n_t3new (Times (Transpose (T 225) [1;0;2;3;4;5]) (-1) 1);
  (*780*) Del (T 225);
  (*781*) AddTo n_t3new (Plain (Transpose (T 208) [1;0;2;3;4;5]));
  (*782*) AddTo n_t3new (Times (Transpose (T 227) [2;0;1;3;4;5]) (-1) 1);
  (*783*) Del (T 227);
  (*784*) AddTo n_t3new (Plain (Transpose (T 134) [0;2;1;3;4;5]));
  (*785*) AddTo n_t3new (Times (Transpose (T 134) [1;2;0;3;4;5]) (-1) 1);
  (*786*) AddTo n_t3new (Plain (Transpose (T 216) [1;0;2;3;4;5]));
  (*787*) AddTo n_t3new (Times (Transpose (T 216) [2;0;1;3;4;5]) (-1) 1);
  (*788*) AddTo n_t3new (Times (Transpose (T 218) [1;0;2;3;4;5]) (-2) 1);
  (*789*) AddTo n_t3new (Times (Transpose (T 218) [2;0;1;3;4;5]) (2) 1);
  (*790*) AddTo n_t3new (Plain (Transpose (T 137) [0;2;1;3;4;5]));
  (*791*) AddTo n_t3new (Times (Transpose (T 137) [1;2;0;3;4;5]) (-1) 1);
  (*792*) AddTo n_t3new (Plain (Transpose (T 203) [2;1;0;4;3;5]));
  (*793*) Del (T 203);
  (*794*) AddTo n_t3new (Plain (Transpose (T 205) [1;0;2;5;4;3]));
  (*795*) Del (T 205);
  (*796*) AddTo n_t3new (Plain (Transpose (T 206) [1;0;2;4;5;3]));
  (*797*) Del (T 206);
  (*798*) AddTo n_t3new (Plain (Transpose (T 207) [2;1;0;4;3;5]));
  (*799*) AddTo n_t3new (Plain (Transpose (T 208) [1;2;0;4;3;5]));
  (*800*) AddTo n_t3new (Times (Transpose (T 134) [1;0;2;4;3;5]) (-1) 1);
  (*801*) AddTo n_t3new (Times (Transpose (T 216) [2;1;0;4;3;5]) (-1) 1);
  (*802*) Del (T 216);
  (*803*) AddTo n_t3new (Times (Transpose (T 218) [2;1;0;4;3;5]) (2) 1);
  (*804*) Del (T 218);
  (*805*) AddTo n_t3new (Times (Transpose (T 137) [1;0;2;4;3;5]) (-1) 1);
  (*806*) AddTo n_t3new (Times (Transpose (T 242) [1;0;2;5;4;3]) (-1) 1);
  (*807*) AddTo n_t3new (Plain (Transpose (T 244) [1;0;2;5;3;4]));
  (*808*) AddTo n_t3new (Plain (Transpose (T 246) [2;1;0;5;3;4]));
  (*809*) AddTo n_t3new (Times (Transpose (T 221) [2;1;0;3;4;5]) (-1) 1);
  (*810*) AddTo n_t3new (Plain (Transpose (T 234) [0;1;2;5;3;4]));
  (*811*) AddTo n_t3new (Times (Transpose (T 234) [2;0;1;5;4;3]) (-1) 1);
  (*812*) AddTo n_t3new (Plain (Transpose (T 249) [0;1;2;5;4;3]));
  (*813*) AddTo n_t3new (Plain (Transpose (T 130) [0;1;2;3;5;4]));
  (*814*) AddTo n_t3new (Times (Transpose (T 132) [0;1;2;3;5;4]) (-1) 1);
  (*815*) AddTo n_t3new (Plain (Transpose (T 130) [1;0;2;3;4;5]));
  (*816*) AddTo n_t3new (Times (Transpose (T 250) [1;2;0;3;5;4]) (-1) 1);
  (*817*) AddTo n_t3new (Plain (Transpose (T 252) [1;2;0;3;5;4]));
  (*818*) AddTo n_t3new (Plain (Transpose (T 254) [1;2;0;3;5;4]));
  (*819*) AddTo n_t3new (Times (Transpose (T 256) [1;2;0;3;5;4]) (-2) 1);
  (*820*) AddTo n_t3new (Plain (Transpose (T 252) [2;1;0;3;4;5]));
  (*821*) AddTo n_t3new (Times (Transpose (T 256) [2;1;0;3;4;5]) (-2) 1);
  (*822*) AddTo n_t3new (Plain (Transpose (T 254) [2;1;0;3;4;5]));
  (*823*) AddTo n_t3new (Times (Transpose (T 233) [1;2;0;4;5;3]) (-1) 1);
  (*824*) AddTo n_t3new (Times (Transpose (T 231) [1;2;0;4;5;3]) (2) 1);
  (*825*) AddTo n_t3new (Plain (Transpose (T 221) [1;2;0;4;5;3]));
  (*826*) AddTo n_t3new (Times (Transpose (T 229) [1;2;0;4;5;3]) (-1) 1);
  (*827*) AddTo n_t3new (Times (Transpose (T 249) [2;1;0;5;4;3]) (-1) 1);
  (*828*) AddTo n_t3new (Times (Transpose (T 130) [2;1;0;3;5;4]) (-1) 1);
  (*829*) AddTo n_t3new (Plain (Transpose (T 132) [2;1;0;3;5;4]));
  (*830*) Del (T 132);
  (*831*) AddTo n_t3new (Times (Transpose (T 130) [2;0;1;3;4;5]) (-1) 1);
  (*832*) AddTo n_t3new (Plain (Transpose (T 250) [0;2;1;3;5;4]));
  (*833*) AddTo n_t3new (Times (Transpose (T 252) [0;2;1;3;5;4]) (-1) 1);
  (*834*) AddTo n_t3new (Times (Transpose (T 254) [0;2;1;3;5;4]) (-1) 1);
  (*835*) AddTo n_t3new (Times (Transpose (T 256) [0;2;1;3;5;4]) (2) 1);
  (*836*) AddTo n_t3new (Times (Copy (T 252)) (-1) 1);
  (*837*) AddTo n_t3new (Times (Copy (T 256)) (2) 1);
  (*838*) AddTo n_t3new (Times (Copy (T 254)) (-1) 1);
  (*839*) AddTo n_t3new (Plain (Transpose (T 233) [0;2;1;4;5;3]));
  (*840*) AddTo n_t3new (Times (Transpose (T 231) [0;2;1;4;5;3]) (-2) 1);
  (*841*) AddTo n_t3new (Times (Transpose (T 221) [0;2;1;4;5;3]) (-1) 1);
  (*842*) AddTo n_t3new (Plain (Transpose (T 229) [0;2;1;4;5;3]));
  (*843*) AddTo n_t3new (Times (Transpose (T 234) [2;1;0;5;3;4]) (-1) 1);
  (*844*) AddTo n_t3new (Plain (Transpose (T 257) [0;2;1;5;4;3]));
  (*845*) AddTo n_t3new (Times (Transpose (T 140) [0;2;1;3;5;4]) (-1) 1);
  (*846*) Del (T 140);
  (*847*) AddTo n_t3new (Plain (Transpose (T 258) [2;0;1;3;5;4]));
  (*848*) AddTo n_t3new (Times (Transpose (T 234) [0;1;2;4;3;5]) (-1) 1);
  (*849*) AddTo n_t3new (Times (Transpose (T 234) [1;0;2;3;4;5]) (-1) 1);
  (*850*) AddTo n_t3new (Plain (Transpose (T 234) [2;0;1;3;4;5]));
  (*851*) AddTo n_t3new (Times (Copy (T 249)) (-1) 1);
  (*852*) AddTo n_t3new (Plain (Transpose (T 249) [2;1;0;3;4;5]));
  (*853*) Del (T 249);
  (*854*) AddTo n_t3new (Plain (Transpose (T 234) [2;1;0;4;3;5]));
  (*855*) Del (T 234);
  (*856*) AddTo n_t3new (Times (Transpose (T 257) [0;2;1;3;4;5]) (-1) 1);
  (*857*) Del (T 257);
  (*858*) AddTo n_t3new (Plain (Transpose (T 242) [0;2;1;4;5;3]));
  (*859*) AddTo n_t3new (Times (Transpose (T 242) [1;2;0;4;5;3]) (-1) 1);
  (*860*) AddTo n_t3new (Times (Transpose (T 260) [1;0;2;5;3;4]) (2) 1);
  (*861*) AddTo n_t3new (Times (Transpose (T 260) [2;0;1;5;3;4]) (-2) 1);
  (*862*) AddTo n_t3new (Times (Transpose (T 262) [1;0;2;5;3;4]) (-1) 1);
  (*863*) AddTo n_t3new (Plain (Transpose (T 262) [2;0;1;5;3;4]));
  (*864*) AddTo n_t3new (Times (Transpose (T 264) [1;0;2;5;3;4]) (-1) 1);
  (*865*) AddTo n_t3new (Plain (Transpose (T 264) [2;0;1;5;3;4]));
  (*866*) AddTo n_t3new (Times (Transpose (T 231) [1;0;2;3;4;5]) (-2) 1);
  (*867*) AddTo n_t3new (Times (Transpose (T 231) [2;0;1;3;4;5]) (2) 1);
  (*868*) AddTo n_t3new (Plain (Transpose (T 229) [1;0;2;3;4;5]));
  (*869*) AddTo n_t3new (Times (Transpose (T 229) [2;0;1;3;4;5]) (-1) 1);
  (*870*) AddTo n_t3new (Plain (Transpose (T 233) [1;0;2;3;4;5]));
  (*871*) AddTo n_t3new (Times (Transpose (T 233) [2;0;1;3;4;5]) (-1) 1);
  (*872*) AddTo n_t3new (Plain (Transpose (T 242) [0;1;2;4;3;5]));
  (*873*) AddTo n_t3new (Times (Copy (T 244)) (-1) 1);
  (*874*) AddTo n_t3new (Plain (Transpose (T 264) [1;2;0;3;4;5]));
  (*875*) AddTo n_t3new (Times (Transpose (T 260) [1;2;0;3;4;5]) (-2) 1);
  (*876*) AddTo n_t3new (Times (Transpose (T 246) [1;2;0;3;4;5]) (-1) 1);
  (*877*) AddTo n_t3new (Plain (Transpose (T 262) [1;2;0;3;4;5]));
  (*878*) AddTo n_t3new (Plain (Copy (T 248)));
  (*879*) AddTo n_t3new (Times (Transpose (T 242) [0;1;2;5;3;4]) (-1) 1);
  (*880*) AddTo n_t3new (Plain (Transpose (T 244) [0;1;2;5;4;3]));
  (*881*) AddTo n_t3new (Times (Transpose (T 248) [0;1;2;5;4;3]) (-1) 1);
  (*882*) AddTo n_t3new (Times (Transpose (T 207) [1;2;0;3;5;4]) (-1) 1);
  (*883*) AddTo n_t3new (Plain (Transpose (T 207) [1;2;0;4;5;3]));
  (*884*) AddTo n_t3new (Times (Transpose (T 208) [2;1;0;3;5;4]) (-1) 1);
  (*885*) AddTo n_t3new (Plain (Transpose (T 208) [2;1;0;4;5;3]));
  (*886*) AddTo n_t3new (Times (Transpose (T 137) [0;1;2;4;5;3]) (-1) 1);
  (*887*) AddTo n_t3new (Plain (Transpose (T 137) [0;1;2;3;5;4]));
  (*888*) AddTo n_t3new (Times (Transpose (T 242) [2;1;0;4;3;5]) (-1) 1);
  (*889*) AddTo n_t3new (Times (Transpose (T 265) [0;2;1;5;3;4]) (-1) 1);
  (*890*) Del (T 265);
  (*891*) AddTo n_t3new (Plain (Transpose (T 267) [0;2;1;5;4;3]));
  (*892*) AddTo n_t3new (Times (Transpose (T 268) [1;2;0;3;5;4]) (-1) 1);
  (*893*) Del (T 268);
  (*894*) AddTo n_t3new (Times (Transpose (T 269) [1;2;0;3;5;4]) (-1) 1);
  (*895*) Del (T 269);
  (*896*) AddTo n_t3new (Plain (Transpose (T 244) [2;1;0;3;4;5]));
  (*897*) AddTo n_t3new (Times (Transpose (T 264) [0;2;1;3;4;5]) (-1) 1);
  (*898*) AddTo n_t3new (Times (Transpose (T 260) [0;2;1;3;4;5]) (2) 1);
  (*899*) AddTo n_t3new (Plain (Transpose (T 246) [0;2;1;3;4;5]));
  (*900*) AddTo n_t3new (Times (Transpose (T 262) [0;2;1;3;4;5]) (-1) 1);
  (*901*) AddTo n_t3new (Times (Transpose (T 248) [2;1;0;3;4;5]) (-1) 1);
  (*902*) AddTo n_t3new (Plain (Transpose (T 242) [2;1;0;5;3;4]));
  (*903*) AddTo n_t3new (Times (Transpose (T 244) [2;1;0;5;4;3]) (-1) 1);
  (*904*) AddTo n_t3new (Plain (Transpose (T 248) [2;1;0;5;4;3]));
  (*905*) AddTo n_t3new (Plain (Transpose (T 207) [0;2;1;3;5;4]));
  (*906*) AddTo n_t3new (Times (Transpose (T 207) [0;2;1;4;5;3]) (-1) 1);
  (*907*) Del (T 207);
  (*908*) AddTo n_t3new (Plain (Transpose (T 208) [0;1;2;3;5;4]));
  (*909*) AddTo n_t3new (Times (Transpose (T 208) [0;1;2;4;5;3]) (-1) 1);
  (*910*) Del (T 208);
  (*911*) AddTo n_t3new (Plain (Transpose (T 137) [2;1;0;4;5;3]));
  (*912*) AddTo n_t3new (Times (Transpose (T 137) [2;1;0;3;5;4]) (-1) 1);
  (*913*) Del (T 137);
  (*914*) AddTo n_t3new (Plain (Transpose (T 242) [1;0;2;3;4;5]));
  (*915*) AddTo n_t3new (Times (Transpose (T 244) [1;0;2;4;3;5]) (-1) 1);
  (*916*) AddTo n_t3new (Times (Transpose (T 242) [0;2;1;3;5;4]) (-1) 1);
  (*917*) AddTo n_t3new (Plain (Transpose (T 242) [1;2;0;3;5;4]));
  (*918*) AddTo n_t3new (Plain (Transpose (T 244) [0;2;1;4;5;3]));
  (*919*) AddTo n_t3new (Times (Transpose (T 244) [1;2;0;4;5;3]) (-1) 1);
  (*920*) AddTo n_t3new (Plain (Transpose (T 248) [0;2;1;4;3;5]));
  (*921*) AddTo n_t3new (Times (Transpose (T 248) [1;2;0;4;3;5]) (-1) 1);
  (*922*) AddTo n_t3new (Times (Transpose (T 242) [2;0;1;3;4;5]) (-1) 1);
  (*923*) Del (T 242);
  (*924*) AddTo n_t3new (Plain (Transpose (T 270) [0;2;1;3;5;4]));
  (*925*) AddTo n_t3new (Times (Transpose (T 271) [0;2;1;4;5;3]) (-1) 1);
  (*926*) AddTo n_t3new (Plain (Transpose (T 244) [2;0;1;4;3;5]));
  (*927*) AddTo n_t3new (Times (Transpose (T 138) [0;2;1;4;5;3]) (-1) 1);
  (*928*) Del (T 138);
  (*929*) AddTo n_t3new (Plain (Transpose (T 124) [0;2;1;5;4;3]));
  (*930*) Del (T 124);
  (*931*) AddTo n_t3new (Times (Transpose (T 159) [0;1;2;5;4;3]) (-1) 1);
  (*932*) AddTo n_t3new (Times (Transpose (T 159) [1;0;2;5;3;4]) (-1) 1);
  (*933*) AddTo n_t3new (Plain (Transpose (T 238) [0;1;2;4;5;3]));
  (*934*) Del (T 238);
  (*935*) AddTo n_t3new (Times (Transpose (T 239) [0;1;2;5;3;4]) (-1) 1);
  (*936*) Del (T 239);
  (*937*) AddTo n_t3new (Plain (Transpose (T 241) [1;2;0;4;3;5]));
  (*938*) Del (T 241);
  (*939*) AddTo n_t3new (Plain (Einsum [(n_t3,[0;1;2;3;4;5]); (n_v'OVOV,[6;7;1;4])] [0;6;2;3;7;5]));
  (*940*) AddTo n_t3new (Times (Transpose (T 159) [0;2;1;4;5;3]) (-1) 1);
  (*941*) AddTo n_t3new (Plain (Transpose (T 159) [0;2;1;3;5;4]));
  (*942*) AddTo n_t3new (Times (Einsum [(n_t3,[0;1;2;3;4;5]); (n_v'OVOV,[6;7;2;4])] [0;6;1;3;7;5]) (-1) 1);
  (*943*) AddTo n_t3new (Times (Einsum [(n_v'OOVV,[0;1;2;3]); (n_t3,[4;1;5;6;3;7])] [4;0;5;6;2;7]) (-1) 1);
  (*944*) AddTo n_t3new (Times (Einsum [(n_t3,[0;1;2;3;4;5]); (T 129,[6;1;7;4])] [0;6;2;3;7;5]) (-1) 1);
  (*945*) AddTo n_t3new (Plain (Einsum [(n_t3,[0;1;2;3;4;5]); (T 131,[6;1;7;4])] [0;6;2;3;7;5]));
  (*946*) Del (T 131);
  (*947*) AddTo n_t3new (Plain (Transpose (T 130) [0;2;1;5;3;4]));
  (*948*) AddTo n_t3new (Times (Transpose (T 130) [0;2;1;4;3;5]) (-1) 1);
  (*949*) Del (T 130);
  (*950*) AddTo n_t3new (Plain (Einsum [(n_t3,[0;1;2;3;4;5]); (T 129,[6;2;7;4])] [0;6;1;3;7;5]));
  (*951*) Del (T 129);
  (*952*) AddTo n_t3new (Plain (Transpose (T 252) [1;0;2;5;3;4]));
  (*953*) AddTo n_t3new (Times (Transpose (T 252) [1;0;2;4;3;5]) (-1) 1);
  (*954*) AddTo n_t3new (Plain (Einsum [(n_t3,[0;1;2;3;4;5]); (T 251,[6;2;7;4])] [0;6;1;3;7;5]));
  (*955*) AddTo n_t3new (Times (Transpose (T 256) [1;0;2;5;3;4]) (-2) 1);
  (*956*) AddTo n_t3new (Times (Transpose (T 256) [1;0;2;4;3;5]) (2) 1);
  (*957*) AddTo n_t3new (Times (Transpose (T 272) [1;0;2;4;3;5]) (-2) 1);
  (*958*) Del (T 272);
  (*959*) AddTo n_t3new (Plain (Einsum [(n_t3,[0;1;2;3;4;5]); (T 240,[6;1;7;4])] [0;6;2;3;7;5]));
  (*960*) Del (T 240);
  (*961*) AddTo n_t3new (Times (Einsum [(n_t3,[0;1;2;3;4;5]); (T 251,[6;1;7;4])] [0;6;2;3;7;5]) (-1) 1);
  (*962*) Del (T 251);
  (*963*) AddTo n_t3new (Times (Einsum [(n_t3,[0;1;2;3;4;5]); (T 253,[6;1;7;4])] [0;6;2;3;7;5]) (-1) 1);
  (*964*) AddTo n_t3new (Times (Transpose (T 273) [2;0;1;4;3;5]) (-2) 1);
  (*965*) Del (T 273);
  (*966*) AddTo n_t3new (Plain (Transpose (T 254) [1;0;2;5;3;4]));
  (*967*) AddTo n_t3new (Times (Transpose (T 254) [1;0;2;4;3;5]) (-1) 1);
  (*968*) AddTo n_t3new (Plain (Einsum [(n_t3,[0;1;2;3;4;5]); (T 253,[6;2;7;4])] [0;6;1;3;7;5]));
  (*969*) Del (T 253);
  (*970*) AddTo n_t3new (Plain (Copy (T 159)));
  (*971*) AddTo n_t3new (Plain (Transpose (T 159) [1;0;2;4;3;5]));
  (*972*) Del (T 159);
  (*973*) AddTo n_t3new (Times (Transpose (T 270) [0;2;1;4;5;3]) (-1) 1);
  (*974*) Del (T 270);
  (*975*) AddTo n_t3new (Plain (Transpose (T 274) [0;2;1;5;3;4]));
  (*976*) AddTo n_t3new (Plain (Transpose (T 148) [1;2;0;3;4;5]));
  (*977*) Del (T 148);
  (*978*) AddTo n_t3new (Plain (Transpose (T 157) [1;2;0;3;4;5]));
  (*979*) Del (T 157);
  (*980*) AddTo n_t3new (Plain (Transpose (T 275) [1;0;2;5;3;4]));
  (*981*) AddTo n_t3new (Times (Transpose (T 277) [2;0;1;3;4;5]) (2) 1);
  (*982*) AddTo n_t3new (Times (Transpose (T 279) [2;0;1;3;4;5]) (-1) 1);
  (*983*) AddTo n_t3new (Times (Transpose (T 281) [2;0;1;3;4;5]) (-1) 1);
  (*984*) AddTo n_t3new (Times (Transpose (T 179) [1;0;2;3;4;5]) (-1) 1);
  (*985*) AddTo n_t3new (Plain (Transpose (T 275) [0;1;2;5;4;3]));
  (*986*) AddTo n_t3new (Times (Transpose (T 283) [0;1;2;5;4;3]) (-1) 1);
  (*987*) AddTo n_t3new (Times (Transpose (T 281) [0;2;1;3;5;4]) (-1) 1);
  (*988*) AddTo n_t3new (Times (Transpose (T 277) [0;2;1;3;5;4]) (2) 1);
  (*989*) AddTo n_t3new (Plain (Transpose (T 285) [0;2;1;3;5;4]));
  (*990*) AddTo n_t3new (Times (Transpose (T 279) [0;2;1;3;5;4]) (-1) 1);
  (*991*) AddTo n_t3new (Times (Transpose (T 179) [0;1;2;3;5;4]) (-1) 1);
  (*992*) AddTo n_t3new (Plain (Transpose (T 181) [0;1;2;3;5;4]));
  (*993*) AddTo n_t3new (Plain (Transpose (T 283) [1;0;2;3;5;4]));
  (*994*) AddTo n_t3new (Times (Transpose (T 283) [1;0;2;4;5;3]) (-1) 1);
  (*995*) AddTo n_t3new (Times (Transpose (T 285) [2;0;1;4;3;5]) (-1) 1);
  (*996*) AddTo n_t3new (Plain (Transpose (T 285) [2;0;1;5;3;4]));
  (*997*) AddTo n_t3new (Times (Transpose (T 181) [1;0;2;4;3;5]) (-1) 1);
  (*998*) AddTo n_t3new (Plain (Transpose (T 181) [1;0;2;5;3;4]));
  (*999*) AddTo n_t3new (Plain (Transpose (T 283) [1;2;0;5;3;4]));
  (*1000*) AddTo n_t3new (Times (Transpose (T 285) [2;1;0;3;4;5]) (-1) 1);
  (*1001*) AddTo n_t3new (Times (Transpose (T 181) [1;2;0;3;4;5]) (-1) 1);
  (*1002*) AddTo n_t3new (Times (Transpose (T 283) [0;2;1;5;3;4]) (-1) 1);
  (*1003*) AddTo n_t3new (Plain (Copy (T 285)));
  (*1004*) AddTo n_t3new (Plain (Transpose (T 181) [0;2;1;3;4;5]));
  (*1005*) AddTo n_t3new (Plain (Transpose (T 275) [1;2;0;3;5;4]));
  (*1006*) AddTo n_t3new (Times (Transpose (T 275) [1;2;0;4;5;3]) (-1) 1);
  (*1007*) AddTo n_t3new (Times (Transpose (T 277) [2;1;0;4;3;5]) (2) 1);
  (*1008*) AddTo n_t3new (Times (Transpose (T 277) [2;1;0;5;3;4]) (-2) 1);
  (*1009*) AddTo n_t3new (Times (Transpose (T 279) [2;1;0;4;3;5]) (-1) 1);
  (*1010*) AddTo n_t3new (Plain (Transpose (T 279) [2;1;0;5;3;4]));
  (*1011*) AddTo n_t3new (Times (Transpose (T 281) [2;1;0;4;3;5]) (-1) 1);
  (*1012*) AddTo n_t3new (Plain (Transpose (T 281) [2;1;0;5;3;4]));
  (*1013*) AddTo n_t3new (Times (Transpose (T 179) [1;2;0;4;3;5]) (-1) 1);
  (*1014*) AddTo n_t3new (Plain (Transpose (T 179) [1;2;0;5;3;4]));
  (*1015*) AddTo n_t3new (Times (Transpose (T 275) [0;2;1;3;5;4]) (-1) 1);
  (*1016*) AddTo n_t3new (Plain (Transpose (T 275) [0;2;1;4;5;3]));
  (*1017*) AddTo n_t3new (Times (Transpose (T 287) [0;2;1;4;5;3]) (-1) 1);
  (*1018*) AddTo n_t3new (Times (Transpose (T 288) [0;2;1;4;3;5]) (-1) 1);
  (*1019*) AddTo n_t3new (Times (Transpose (T 277) [0;1;2;4;3;5]) (-2) 1);
  (*1020*) AddTo n_t3new (Times (Transpose (T 277) [0;1;2;5;3;4]) (2) 1);
  (*1021*) AddTo n_t3new (Plain (Transpose (T 279) [0;1;2;4;3;5]));
  (*1022*) AddTo n_t3new (Times (Transpose (T 279) [0;1;2;5;3;4]) (-1) 1);
  (*1023*) AddTo n_t3new (Plain (Transpose (T 281) [0;1;2;4;3;5]));
  (*1024*) AddTo n_t3new (Times (Transpose (T 281) [0;1;2;5;3;4]) (-1) 1);
  (*1025*) AddTo n_t3new (Plain (Transpose (T 179) [0;2;1;4;3;5]));
  (*1026*) AddTo n_t3new (Times (Transpose (T 179) [0;2;1;5;3;4]) (-1) 1);
  (*1027*) AddTo n_t3new (Times (Transpose (T 275) [2;1;0;5;4;3]) (-1) 1);
  (*1028*) AddTo n_t3new (Plain (Transpose (T 289) [1;2;0;5;4;3]));
  (*1029*) AddTo n_t3new (Times (Transpose (T 291) [1;2;0;5;4;3]) (-1) 1);
  (*1030*) AddTo n_t3new (Times (Transpose (T 291) [2;1;0;5;3;4]) (-1) 1);
  (*1031*) AddTo n_t3new (Times (Transpose (T 190) [1;2;0;3;5;4]) (-1) 1);
  (*1032*) AddTo n_t3new (Plain (Transpose (T 193) [1;2;0;3;5;4]));
  (*1033*) AddTo n_t3new (Plain (Transpose (T 193) [2;1;0;3;4;5]));
  (*1034*) AddTo n_t3new (Plain (Transpose (T 283) [2;1;0;5;4;3]));
  (*1035*) AddTo n_t3new (Plain (Transpose (T 281) [1;2;0;3;5;4]));
  (*1036*) AddTo n_t3new (Times (Transpose (T 277) [1;2;0;3;5;4]) (-2) 1);
  (*1037*) AddTo n_t3new (Times (Transpose (T 285) [1;2;0;3;5;4]) (-1) 1);
  (*1038*) AddTo n_t3new (Plain (Transpose (T 279) [1;2;0;3;5;4]));
  (*1039*) AddTo n_t3new (Plain (Transpose (T 179) [2;1;0;3;5;4]));
  (*1040*) AddTo n_t3new (Times (Transpose (T 181) [2;1;0;3;5;4]) (-1) 1);
  (*1041*) AddTo n_t3new (Times (Transpose (T 275) [2;0;1;5;3;4]) (-1) 1);
  (*1042*) AddTo n_t3new (Plain (Transpose (T 292) [1;0;2;5;4;3]));
  (*1043*) AddTo n_t3new (Plain (Transpose (T 200) [2;0;1;3;5;4]));
  (*1044*) Del (T 200);
  (*1045*) AddTo n_t3new (Times (Transpose (T 277) [1;0;2;3;4;5]) (-2) 1);
  (*1046*) AddTo n_t3new (Plain (Transpose (T 279) [1;0;2;3;4;5]));
  (*1047*) AddTo n_t3new (Plain (Transpose (T 281) [1;0;2;3;4;5]));
  (*1048*) AddTo n_t3new (Plain (Transpose (T 179) [2;0;1;3;4;5]));
  (*1049*) AddTo n_t3new (Times (Transpose (T 283) [2;0;1;3;5;4]) (-1) 1);
  (*1050*) AddTo n_t3new (Plain (Transpose (T 283) [2;0;1;4;5;3]));
  (*1051*) AddTo n_t3new (Plain (Transpose (T 285) [1;0;2;4;3;5]));
  (*1052*) AddTo n_t3new (Times (Transpose (T 285) [1;0;2;5;3;4]) (-1) 1);
  (*1053*) AddTo n_t3new (Plain (Transpose (T 181) [2;0;1;4;3;5]));
  (*1054*) AddTo n_t3new (Times (Transpose (T 181) [2;0;1;5;3;4]) (-1) 1);
  (*1055*) AddTo n_t3new (Plain (Transpose (T 248) [1;0;2;3;5;4]));
  (*1056*) AddTo n_t3new (Times (Transpose (T 244) [0;2;1;3;5;4]) (-1) 1);
  (*1057*) AddTo n_t3new (Plain (Transpose (T 244) [1;2;0;3;5;4]));
  (*1058*) Del (T 244);
  (*1059*) AddTo n_t3new (Times (Transpose (T 246) [1;0;2;3;5;4]) (-1) 1);
  (*1060*) AddTo n_t3new (Plain (Transpose (T 246) [2;0;1;3;5;4]));
  (*1061*) AddTo n_t3new (Plain (Transpose (T 221) [1;0;2;4;3;5]));
  (*1062*) AddTo n_t3new (Times (Transpose (T 221) [2;0;1;4;3;5]) (-1) 1);
  (*1063*) AddTo n_t3new (Times (Transpose (T 248) [1;0;2;4;5;3]) (-1) 1);
  (*1064*) AddTo n_t3new (Times (Transpose (T 248) [2;0;1;3;5;4]) (-1) 1);
  (*1065*) AddTo n_t3new (Plain (Transpose (T 248) [2;0;1;4;5;3]));
  (*1066*) Del (T 248);
  (*1067*) AddTo n_t3new (Times (Transpose (T 275) [1;0;2;4;3;5]) (-1) 1);
  (*1068*) AddTo n_t3new (Times (Copy (T 275)) (-1) 1);
  (*1069*) AddTo n_t3new (Plain (Copy (T 283)));
  (*1070*) AddTo n_t3new (Times (Transpose (T 283) [1;2;0;4;3;5]) (-1) 1);
  (*1071*) AddTo n_t3new (Plain (Transpose (T 283) [0;2;1;4;3;5]));
  (*1072*) AddTo n_t3new (Plain (Transpose (T 275) [2;1;0;3;4;5]));
  (*1073*) AddTo n_t3new (Times (Transpose (T 289) [1;2;0;3;4;5]) (-1) 1);
  (*1074*) AddTo n_t3new (Plain (Transpose (T 291) [1;2;0;3;4;5]));
  (*1075*) AddTo n_t3new (Plain (Transpose (T 291) [2;1;0;4;3;5]));
  (*1076*) AddTo n_t3new (Times (Transpose (T 283) [2;1;0;3;4;5]) (-1) 1);
  (*1077*) Del (T 283);
  (*1078*) AddTo n_t3new (Plain (Transpose (T 275) [2;0;1;4;3;5]));
  (*1079*) Del (T 275);
  (*1080*) AddTo n_t3new (Times (Transpose (T 292) [1;0;2;3;4;5]) (-1) 1);
  (*1081*) Del (T 292);
  (*1082*) AddTo n_t3new (Times (Transpose (T 294) [2;1;0;4;5;3]) (-1) 1);
  (*1083*) AddTo n_t3new (Times (Transpose (T 176) [2;1;0;3;4;5]) (-1) 1);
  (*1084*) AddTo n_t3new (Plain (Transpose (T 297) [2;1;0;5;3;4]));
  (*1085*) AddTo n_t3new (Times (Transpose (T 196) [2;1;0;3;4;5]) (-1) 1);
  (*1086*) AddTo n_t3new (Plain (Transpose (T 294) [1;0;2;5;4;3]));
  (*1087*) AddTo n_t3new (Times (Transpose (T 294) [2;0;1;5;4;3]) (-1) 1);
  (*1088*) AddTo n_t3new (Plain (Transpose (T 176) [1;0;2;4;3;5]));
  (*1089*) AddTo n_t3new (Times (Transpose (T 176) [2;0;1;4;3;5]) (-1) 1);
  (*1090*) AddTo n_t3new (Times (Transpose (T 300) [1;0;2;5;3;4]) (-1) 1);
  (*1091*) AddTo n_t3new (Plain (Transpose (T 300) [2;0;1;5;3;4]));
  (*1092*) AddTo n_t3new (Plain (Transpose (T 196) [1;0;2;4;3;5]));
  (*1093*) AddTo n_t3new (Times (Transpose (T 196) [2;0;1;4;3;5]) (-1) 1);
  (*1094*) AddTo n_t3new (Times (Transpose (T 294) [1;2;0;4;3;5]) (-1) 1);
  (*1095*) AddTo n_t3new (Plain (Transpose (T 294) [1;2;0;5;3;4]));
  (*1096*) AddTo n_t3new (Times (Transpose (T 300) [1;2;0;5;4;3]) (-1) 1);
  (*1097*) AddTo n_t3new (Plain (Transpose (T 297) [1;2;0;5;4;3]));
  (*1098*) AddTo n_t3new (Plain (Transpose (T 196) [1;2;0;4;5;3]));
  (*1099*) AddTo n_t3new (Times (Transpose (T 196) [1;2;0;3;5;4]) (-1) 1);
  (*1100*) AddTo n_t3new (Plain (Transpose (T 294) [0;1;2;4;5;3]));
  (*1101*) AddTo n_t3new (Plain (Copy (T 176)));
  (*1102*) AddTo n_t3new (Times (Transpose (T 297) [0;1;2;5;3;4]) (-1) 1);
  (*1103*) AddTo n_t3new (Plain (Copy (T 196)));
  (*1104*) AddTo n_t3new (Plain (Transpose (T 294) [0;2;1;4;3;5]));
  (*1105*) AddTo n_t3new (Times (Transpose (T 294) [0;2;1;5;3;4]) (-1) 1);
  (*1106*) AddTo n_t3new (Plain (Transpose (T 300) [0;2;1;5;4;3]));
  (*1107*) AddTo n_t3new (Times (Transpose (T 297) [0;2;1;5;4;3]) (-1) 1);
  (*1108*) AddTo n_t3new (Times (Transpose (T 196) [0;2;1;4;5;3]) (-1) 1);
  (*1109*) AddTo n_t3new (Plain (Transpose (T 196) [0;2;1;3;5;4]));
  (*1110*) Del (T 196);
  (*1111*) AddTo n_t3new (Plain (Transpose (T 294) [2;1;0;3;5;4]));
  (*1112*) AddTo n_t3new (Times (Transpose (T 300) [2;1;0;4;5;3]) (-1) 1);
  (*1113*) AddTo n_t3new (Times (Transpose (T 297) [2;1;0;4;3;5]) (-1) 1);
  (*1114*) AddTo n_t3new (Times (Transpose (T 294) [1;0;2;3;4;5]) (-1) 1);
  (*1115*) AddTo n_t3new (Plain (Transpose (T 294) [2;0;1;3;4;5]));
  (*1116*) AddTo n_t3new (Plain (Transpose (T 297) [1;0;2;4;5;3]));
  (*1117*) AddTo n_t3new (Times (Transpose (T 297) [2;0;1;4;5;3]) (-1) 1);
  (*1118*) AddTo n_t3new (Plain (Transpose (T 300) [1;0;2;4;3;5]));
  (*1119*) AddTo n_t3new (Times (Transpose (T 300) [2;0;1;4;3;5]) (-1) 1);
  (*1120*) AddTo n_t3new (Times (Transpose (T 294) [0;1;2;3;5;4]) (-1) 1);
  (*1121*) Del (T 294);
  (*1122*) AddTo n_t3new (Plain (Transpose (T 300) [0;1;2;4;5;3]));
  (*1123*) AddTo n_t3new (Plain (Transpose (T 297) [0;1;2;4;3;5]));
  (*1124*) AddTo n_t3new (Times (Transpose (T 197) [1;0;2;4;5;3]) (-1) 1);
  (*1125*) Del (T 197);
  (*1126*) AddTo n_t3new (Plain (Transpose (T 179) [1;0;2;5;4;3]));
  (*1127*) Del (T 179);
  (*1128*) AddTo n_t3new (Times (Transpose (T 201) [1;2;0;4;5;3]) (-1) 1);
  (*1129*) Del (T 201);
  (*1130*) AddTo n_t3new (Plain (Transpose (T 181) [1;2;0;5;4;3]));
  (*1131*) Del (T 181);
  (*1132*) AddTo n_t3new (Plain (Transpose (T 287) [1;2;0;4;5;3]));
  (*1133*) Del (T 287);
  (*1134*) AddTo n_t3new (Plain (Transpose (T 288) [1;2;0;4;3;5]));
  (*1135*) Del (T 288);
  (*1136*) AddTo n_t3new (Times (Einsum [(T 286,[0;1;2;3]); (n_t3,[4;1;5;6;3;7])] [4;0;5;6;2;7]) (-1) 1);
  (*1137*) Del (T 286);
  (*1138*) AddTo n_t3new (Plain (Einsum [(n_t3,[0;1;2;3;4;5]); (T 290,[6;1;7;4])] [0;6;2;3;7;5]));
  (*1139*) AddTo n_t3new (Times (Transpose (T 291) [1;0;2;4;5;3]) (-1) 1);
  (*1140*) AddTo n_t3new (Plain (Transpose (T 291) [1;0;2;3;5;4]));
  (*1141*) AddTo n_t3new (Times (Einsum [(n_t3,[0;1;2;3;4;5]); (T 290,[6;2;7;4])] [0;6;1;3;7;5]) (-1) 1);
  (*1142*) Del (T 290);
  (*1143*) AddTo n_t3new (Plain (Einsum [(n_t3,[0;1;2;3;4;5]); (T 189,[6;1;7;4])] [0;6;2;3;7;5]));
  (*1144*) Del (T 189);
  (*1145*) AddTo n_t3new (Times (Einsum [(T 192,[0;1;2;3]); (n_t3,[4;1;5;6;3;7])] [4;0;5;6;2;7]) (-1) 1);
  (*1146*) AddTo n_t3new (Plain (Transpose (T 193) [1;0;2;5;3;4]));
  (*1147*) AddTo n_t3new (Times (Transpose (T 193) [1;0;2;4;3;5]) (-1) 1);
  (*1148*) AddTo n_t3new (Plain (Einsum [(T 192,[0;1;2;3]); (n_t3,[4;5;1;6;3;7])] [4;0;5;6;2;7]));
  (*1149*) Del (T 192);
  (*1150*) AddTo n_t3new (Times (Transpose (T 289) [0;2;1;5;4;3]) (-1) 1);
  (*1151*) AddTo n_t3new (Plain (Transpose (T 291) [0;2;1;5;4;3]));
  (*1152*) AddTo n_t3new (Plain (Transpose (T 291) [0;1;2;5;3;4]));
  (*1153*) AddTo n_t3new (Plain (Transpose (T 190) [0;2;1;3;5;4]));
  (*1154*) Del (T 190);
  (*1155*) AddTo n_t3new (Times (Transpose (T 193) [0;2;1;3;5;4]) (-1) 1);
  (*1156*) AddTo n_t3new (Times (Copy (T 193)) (-1) 1);
  (*1157*) Del (T 193);
  (*1158*) AddTo n_t3new (Plain (Transpose (T 271) [0;2;1;3;5;4]));
  (*1159*) Del (T 271);
  (*1160*) AddTo n_t3new (Plain (Transpose (T 289) [0;2;1;3;4;5]));
  (*1161*) Del (T 289);
  (*1162*) AddTo n_t3new (Times (Transpose (T 291) [0;2;1;3;4;5]) (-1) 1);
  (*1163*) AddTo n_t3new (Times (Transpose (T 291) [0;1;2;4;3;5]) (-1) 1);
  (*1164*) Del (T 291);
  (*1165*) AddTo n_t3new (Times (Transpose (T 267) [0;2;1;3;4;5]) (-1) 1);
  (*1166*) Del (T 267);
  (*1167*) AddTo n_t3new (Times (Transpose (T 274) [0;2;1;4;3;5]) (-1) 1);
  (*1168*) Del (T 274);
  (*1169*) AddTo n_t3new (Plain (Transpose (T 302) [2;1;0;3;5;4]));
  (*1170*) AddTo n_t3new (Plain (Transpose (T 304) [2;1;0;5;4;3]));
  (*1171*) AddTo n_t3new (Plain (Transpose (T 307) [2;1;0;3;5;4]));
  (*1172*) AddTo n_t3new (Plain (Transpose (T 310) [2;1;0;5;4;3]));
  (*1173*) AddTo n_t3new (Plain (Transpose (T 311) [0;2;1;3;5;4]));
  (*1174*) Del (T 311);
  (*1175*) AddTo n_t3new (Times (Transpose (T 304) [0;2;1;4;5;3]) (-1) 1);
  (*1176*) AddTo n_t3new (Plain (Transpose (T 304) [1;2;0;4;5;3]));
  (*1177*) AddTo n_t3new (Times (Transpose (T 302) [0;1;2;3;5;4]) (-1) 1);
  (*1178*) Del (T 302);
  (*1179*) AddTo n_t3new (Times (Transpose (T 304) [0;1;2;5;4;3]) (-1) 1);
  (*1180*) AddTo n_t3new (Plain (Transpose (T 250) [1;2;0;4;5;3]));
  (*1181*) AddTo n_t3new (Times (Transpose (T 252) [1;2;0;4;5;3]) (-1) 1);
  (*1182*) AddTo n_t3new (Times (Transpose (T 254) [1;2;0;4;5;3]) (-1) 1);
  (*1183*) AddTo n_t3new (Times (Transpose (T 256) [1;2;0;4;5;3]) (2) 1);
  (*1184*) AddTo n_t3new (Times (Transpose (T 252) [2;1;0;5;4;3]) (-1) 1);
  (*1185*) AddTo n_t3new (Times (Transpose (T 256) [2;1;0;5;4;3]) (2) 1);
  (*1186*) AddTo n_t3new (Times (Transpose (T 254) [2;1;0;5;4;3]) (-1) 1);
  (*1187*) AddTo n_t3new (Times (Transpose (T 223) [2;1;0;4;5;3]) (-1) 1);
  (*1188*) AddTo n_t3new (Plain (Transpose (T 210) [2;1;0;4;5;3]));
  (*1189*) AddTo n_t3new (Plain (Transpose (T 214) [2;1;0;4;5;3]));
  (*1190*) AddTo n_t3new (Times (Transpose (T 212) [2;1;0;4;5;3]) (-2) 1);
  (*1191*) AddTo n_t3new (Times (Transpose (T 258) [2;0;1;4;5;3]) (-1) 1);
  (*1192*) Del (T 258);
  (*1193*) AddTo n_t3new (Times (Transpose (T 223) [2;0;1;5;4;3]) (-1) 1);
  (*1194*) AddTo n_t3new (Times (Transpose (T 250) [0;2;1;4;5;3]) (-1) 1);
  (*1195*) Del (T 250);
  (*1196*) AddTo n_t3new (Plain (Transpose (T 252) [0;2;1;4;5;3]));
  (*1197*) AddTo n_t3new (Plain (Transpose (T 254) [0;2;1;4;5;3]));
  (*1198*) AddTo n_t3new (Times (Transpose (T 256) [0;2;1;4;5;3]) (-2) 1);
  (*1199*) AddTo n_t3new (Plain (Transpose (T 252) [0;1;2;5;4;3]));
  (*1200*) Del (T 252);
  (*1201*) AddTo n_t3new (Times (Transpose (T 256) [0;1;2;5;4;3]) (-2) 1);
  (*1202*) Del (T 256);
  (*1203*) AddTo n_t3new (Plain (Transpose (T 254) [0;1;2;5;4;3]));
  (*1204*) Del (T 254);
  (*1205*) AddTo n_t3new (Times (Transpose (T 210) [0;2;1;5;4;3]) (-1) 1);
  (*1206*) AddTo n_t3new (Times (Transpose (T 212) [0;2;1;5;4;3]) (2) 1);
  (*1207*) AddTo n_t3new (Times (Transpose (T 214) [0;2;1;5;4;3]) (-1) 1);
  (*1208*) AddTo n_t3new (Plain (Transpose (T 223) [0;1;2;4;5;3]));
  (*1209*) AddTo n_t3new (Times (Transpose (T 210) [0;1;2;4;5;3]) (-1) 1);
  (*1210*) AddTo n_t3new (Times (Transpose (T 214) [0;1;2;4;5;3]) (-1) 1);
  (*1211*) AddTo n_t3new (Times (Transpose (T 212) [0;1;2;4;5;3]) (2) 1);
  (*1212*) AddTo n_t3new (Plain (Transpose (T 134) [0;1;2;3;5;4]));
  (*1213*) AddTo n_t3new (Times (Transpose (T 134) [0;1;2;4;5;3]) (-1) 1);
  (*1214*) AddTo n_t3new (Plain (Transpose (T 223) [1;0;2;5;4;3]));
  (*1215*) AddTo n_t3new (Plain (Transpose (T 223) [0;2;1;4;3;5]));
  (*1216*) AddTo n_t3new (Times (Transpose (T 223) [0;2;1;5;3;4]) (-1) 1);
  (*1217*) Del (T 223);
  (*1218*) AddTo n_t3new (Plain (Transpose (T 210) [1;2;0;5;4;3]));
  (*1219*) Del (T 210);
  (*1220*) AddTo n_t3new (Times (Transpose (T 212) [1;2;0;5;4;3]) (-2) 1);
  (*1221*) Del (T 212);
  (*1222*) AddTo n_t3new (Plain (Transpose (T 214) [1;2;0;5;4;3]));
  (*1223*) Del (T 214);
  (*1224*) AddTo n_t3new (Times (Transpose (T 134) [2;1;0;3;5;4]) (-1) 1);
  (*1225*) AddTo n_t3new (Plain (Transpose (T 134) [2;1;0;4;5;3]));
  (*1226*) Del (T 134);
  (*1227*) AddTo n_t3new (Plain (Transpose (T 313) [2;0;1;5;3;4]));
  (*1228*) AddTo n_t3new (Times (Transpose (T 304) [2;1;0;3;4;5]) (-1) 1);
  (*1229*) AddTo n_t3new (Plain (Transpose (T 315) [2;0;1;5;3;4]));
  (*1230*) AddTo n_t3new (Times (Transpose (T 310) [2;1;0;3;4;5]) (-1) 1);
  (*1231*) AddTo n_t3new (Times (Transpose (T 313) [1;2;0;5;4;3]) (-1) 1);
  (*1232*) AddTo n_t3new (Plain (Transpose (T 313) [0;2;1;5;4;3]));
  (*1233*) AddTo n_t3new (Plain (Transpose (T 304) [0;2;1;3;5;4]));
  (*1234*) AddTo n_t3new (Times (Transpose (T 304) [1;2;0;3;5;4]) (-1) 1);
  (*1235*) AddTo n_t3new (Plain (Transpose (T 313) [2;1;0;3;5;4]));
  (*1236*) AddTo n_t3new (Times (Transpose (T 313) [2;1;0;4;5;3]) (-1) 1);
  (*1237*) AddTo n_t3new (Times (Transpose (T 304) [2;0;1;4;3;5]) (-1) 1);
  (*1238*) AddTo n_t3new (Plain (Transpose (T 304) [2;0;1;5;3;4]));
  (*1239*) AddTo n_t3new (Plain (Transpose (T 315) [2;1;0;3;5;4]));
  (*1240*) AddTo n_t3new (Times (Transpose (T 315) [2;1;0;4;5;3]) (-1) 1);
  (*1241*) AddTo n_t3new (Times (Transpose (T 310) [2;0;1;4;3;5]) (-1) 1);
  (*1242*) AddTo n_t3new (Plain (Transpose (T 310) [2;0;1;5;3;4]));
  (*1243*) AddTo n_t3new (Times (Transpose (T 313) [1;0;2;5;3;4]) (-1) 1);
  (*1244*) AddTo n_t3new (Plain (Copy (T 304)));
  (*1245*) AddTo n_t3new (Times (Transpose (T 313) [0;1;2;3;5;4]) (-1) 1);
  (*1246*) AddTo n_t3new (Plain (Transpose (T 313) [0;1;2;4;5;3]));
  (*1247*) AddTo n_t3new (Plain (Transpose (T 304) [1;0;2;4;3;5]));
  (*1248*) AddTo n_t3new (Times (Transpose (T 304) [1;0;2;5;3;4]) (-1) 1);
  (*1249*) Del (T 304);
  (*1250*) AddTo n_t3new (Times (Transpose (T 260) [2;1;0;3;5;4]) (-2) 1);
  (*1251*) AddTo n_t3new (Plain (Transpose (T 262) [2;1;0;3;5;4]));
  (*1252*) AddTo n_t3new (Plain (Transpose (T 264) [2;1;0;3;5;4]));
  (*1253*) AddTo n_t3new (Times (Transpose (T 231) [2;1;0;4;3;5]) (2) 1);
  (*1254*) AddTo n_t3new (Times (Transpose (T 229) [2;1;0;4;3;5]) (-1) 1);
  (*1255*) AddTo n_t3new (Times (Transpose (T 233) [2;1;0;4;3;5]) (-1) 1);
  (*1256*) AddTo n_t3new (Times (Transpose (T 260) [0;1;2;3;5;4]) (2) 1);
  (*1257*) AddTo n_t3new (Times (Transpose (T 262) [0;1;2;3;5;4]) (-1) 1);
  (*1258*) AddTo n_t3new (Times (Transpose (T 264) [0;1;2;3;5;4]) (-1) 1);
  (*1259*) AddTo n_t3new (Times (Transpose (T 231) [0;1;2;4;3;5]) (-2) 1);
  (*1260*) AddTo n_t3new (Plain (Transpose (T 229) [0;1;2;4;3;5]));
  (*1261*) AddTo n_t3new (Plain (Transpose (T 233) [0;1;2;4;3;5]));
  (*1262*) AddTo n_t3new (Times (Transpose (T 246) [0;2;1;5;4;3]) (-1) 1);
  (*1263*) AddTo n_t3new (Plain (Transpose (T 262) [0;2;1;5;4;3]));
  (*1264*) AddTo n_t3new (Plain (Transpose (T 264) [0;2;1;5;4;3]));
  (*1265*) AddTo n_t3new (Times (Transpose (T 260) [0;2;1;5;4;3]) (-2) 1);
  (*1266*) AddTo n_t3new (Plain (Transpose (T 221) [0;2;1;3;5;4]));
  (*1267*) AddTo n_t3new (Times (Transpose (T 229) [0;2;1;3;5;4]) (-1) 1);
  (*1268*) AddTo n_t3new (Times (Transpose (T 233) [0;2;1;3;5;4]) (-1) 1);
  (*1269*) AddTo n_t3new (Times (Transpose (T 231) [0;2;1;3;5;4]) (2) 1);
  (*1270*) AddTo n_t3new (Plain (Transpose (T 262) [0;1;2;4;5;3]));
  (*1271*) AddTo n_t3new (Times (Transpose (T 260) [0;1;2;4;5;3]) (-2) 1);
  (*1272*) AddTo n_t3new (Plain (Transpose (T 264) [0;1;2;4;5;3]));
  (*1273*) AddTo n_t3new (Times (Transpose (T 229) [0;1;2;5;3;4]) (-1) 1);
  (*1274*) AddTo n_t3new (Times (Transpose (T 231) [0;1;2;5;3;4]) (2) 1);
  (*1275*) AddTo n_t3new (Times (Transpose (T 233) [0;1;2;5;3;4]) (-1) 1);
  (*1276*) AddTo n_t3new (Plain (Transpose (T 246) [1;0;2;4;5;3]));
  (*1277*) AddTo n_t3new (Times (Transpose (T 246) [2;0;1;4;5;3]) (-1) 1);
  (*1278*) AddTo n_t3new (Times (Transpose (T 221) [1;0;2;5;3;4]) (-1) 1);
  (*1279*) AddTo n_t3new (Plain (Transpose (T 221) [2;0;1;5;3;4]));
  (*1280*) AddTo n_t3new (Plain (Transpose (T 246) [1;2;0;5;4;3]));
  (*1281*) AddTo n_t3new (Times (Transpose (T 262) [1;2;0;5;4;3]) (-1) 1);
  (*1282*) AddTo n_t3new (Times (Transpose (T 264) [1;2;0;5;4;3]) (-1) 1);
  (*1283*) AddTo n_t3new (Times (Transpose (T 260) [1;2;0;5;4;3]) (2) 1);
  (*1284*) AddTo n_t3new (Times (Transpose (T 221) [1;2;0;3;5;4]) (-1) 1);
  (*1285*) Del (T 221);
  (*1286*) AddTo n_t3new (Plain (Transpose (T 229) [1;2;0;3;5;4]));
  (*1287*) AddTo n_t3new (Plain (Transpose (T 233) [1;2;0;3;5;4]));
  (*1288*) AddTo n_t3new (Times (Transpose (T 231) [1;2;0;3;5;4]) (-2) 1);
  (*1289*) AddTo n_t3new (Times (Transpose (T 262) [2;1;0;4;5;3]) (-1) 1);
  (*1290*) AddTo n_t3new (Times (Transpose (T 260) [2;1;0;4;5;3]) (2) 1);
  (*1291*) AddTo n_t3new (Times (Transpose (T 264) [2;1;0;4;5;3]) (-1) 1);
  (*1292*) AddTo n_t3new (Plain (Transpose (T 229) [2;1;0;5;3;4]));
  (*1293*) Del (T 229);
  (*1294*) AddTo n_t3new (Times (Transpose (T 231) [2;1;0;5;3;4]) (-2) 1);
  (*1295*) Del (T 231);
  (*1296*) AddTo n_t3new (Plain (Transpose (T 233) [2;1;0;5;3;4]));
  (*1297*) Del (T 233);
  (*1298*) AddTo n_t3new (Times (Transpose (T 313) [2;0;1;4;3;5]) (-1) 1);
  (*1299*) AddTo n_t3new (Times (Transpose (T 315) [2;0;1;4;3;5]) (-1) 1);
  (*1300*) AddTo n_t3new (Plain (Transpose (T 313) [1;2;0;3;4;5]));
  (*1301*) AddTo n_t3new (Times (Transpose (T 313) [0;2;1;3;4;5]) (-1) 1);
  (*1302*) AddTo n_t3new (Plain (Transpose (T 313) [1;0;2;4;3;5]));
  (*1303*) Del (T 313);
  (*1304*) AddTo n_t3new (Plain (Transpose (T 246) [0;1;2;4;3;5]));
  (*1305*) AddTo n_t3new (Plain (Transpose (T 262) [1;0;2;4;3;5]));
  (*1306*) AddTo n_t3new (Times (Transpose (T 262) [2;0;1;4;3;5]) (-1) 1);
  (*1307*) Del (T 262);
  (*1308*) AddTo n_t3new (Times (Transpose (T 260) [1;0;2;4;3;5]) (-2) 1);
  (*1309*) AddTo n_t3new (Times (Transpose (T 260) [2;0;1;4;3;5]) (2) 1);
  (*1310*) Del (T 260);
  (*1311*) AddTo n_t3new (Plain (Transpose (T 264) [1;0;2;4;3;5]));
  (*1312*) AddTo n_t3new (Times (Transpose (T 264) [2;0;1;4;3;5]) (-1) 1);
  (*1313*) Del (T 264);
  (*1314*) AddTo n_t3new (Times (Transpose (T 246) [2;1;0;4;3;5]) (-1) 1);
  (*1315*) Del (T 246);
  (*1316*) AddTo n_t3new (Times (Transpose (T 176) [1;2;0;3;5;4]) (-1) 1);
  (*1317*) AddTo n_t3new (Plain (Transpose (T 176) [1;2;0;4;5;3]));
  (*1318*) AddTo n_t3new (Plain (Transpose (T 285) [2;1;0;5;4;3]));
  (*1319*) AddTo n_t3new (Times (Transpose (T 281) [1;2;0;4;5;3]) (-1) 1);
  (*1320*) AddTo n_t3new (Times (Transpose (T 277) [1;2;0;4;5;3]) (2) 1);
  (*1321*) AddTo n_t3new (Plain (Transpose (T 285) [1;2;0;4;5;3]));
  (*1322*) AddTo n_t3new (Times (Transpose (T 279) [1;2;0;4;5;3]) (-1) 1);
  (*1323*) AddTo n_t3new (Times (Transpose (T 277) [2;0;1;5;4;3]) (-2) 1);
  (*1324*) AddTo n_t3new (Plain (Transpose (T 279) [2;0;1;5;4;3]));
  (*1325*) AddTo n_t3new (Plain (Transpose (T 281) [2;0;1;5;4;3]));
  (*1326*) AddTo n_t3new (Times (Transpose (T 277) [1;0;2;5;4;3]) (2) 1);
  (*1327*) AddTo n_t3new (Times (Transpose (T 279) [1;0;2;5;4;3]) (-1) 1);
  (*1328*) AddTo n_t3new (Times (Transpose (T 281) [1;0;2;5;4;3]) (-1) 1);
  (*1329*) AddTo n_t3new (Plain (Transpose (T 176) [0;2;1;3;5;4]));
  (*1330*) AddTo n_t3new (Times (Transpose (T 176) [0;2;1;4;5;3]) (-1) 1);
  (*1331*) Del (T 176);
  (*1332*) AddTo n_t3new (Plain (Transpose (T 281) [0;2;1;4;5;3]));
  (*1333*) Del (T 281);
  (*1334*) AddTo n_t3new (Times (Transpose (T 277) [0;2;1;4;5;3]) (-2) 1);
  (*1335*) Del (T 277);
  (*1336*) AddTo n_t3new (Times (Transpose (T 285) [0;2;1;4;5;3]) (-1) 1);
  (*1337*) AddTo n_t3new (Plain (Transpose (T 279) [0;2;1;4;5;3]));
  (*1338*) Del (T 279);
  (*1339*) AddTo n_t3new (Times (Transpose (T 285) [0;1;2;5;4;3]) (-1) 1);
  (*1340*) Del (T 285);
  (*1341*) AddTo n_t3new (Times (Transpose (T 315) [1;2;0;5;4;3]) (-1) 1);
  (*1342*) AddTo n_t3new (Plain (Transpose (T 315) [0;2;1;5;4;3]));
  (*1343*) AddTo n_t3new (Plain (Transpose (T 310) [0;2;1;3;5;4]));
  (*1344*) AddTo n_t3new (Times (Transpose (T 310) [1;2;0;3;5;4]) (-1) 1);
  (*1345*) AddTo n_t3new (Times (Transpose (T 315) [1;0;2;5;3;4]) (-1) 1);
  (*1346*) AddTo n_t3new (Plain (Copy (T 310)));
  (*1347*) AddTo n_t3new (Times (Transpose (T 315) [0;1;2;3;5;4]) (-1) 1);
  (*1348*) AddTo n_t3new (Plain (Transpose (T 315) [0;1;2;4;5;3]));
  (*1349*) AddTo n_t3new (Plain (Transpose (T 310) [1;0;2;4;3;5]));
  (*1350*) AddTo n_t3new (Times (Transpose (T 310) [1;0;2;5;3;4]) (-1) 1);
  (*1351*) AddTo n_t3new (Plain (Transpose (T 300) [2;1;0;3;5;4]));
  (*1352*) AddTo n_t3new (Times (Transpose (T 297) [1;0;2;3;5;4]) (-1) 1);
  (*1353*) AddTo n_t3new (Plain (Transpose (T 297) [2;0;1;3;5;4]));
  (*1354*) AddTo n_t3new (Times (Transpose (T 300) [0;1;2;3;5;4]) (-1) 1);
  (*1355*) AddTo n_t3new (Plain (Transpose (T 315) [1;2;0;3;4;5]));
  (*1356*) AddTo n_t3new (Times (Transpose (T 315) [0;2;1;3;4;5]) (-1) 1);
  (*1357*) AddTo n_t3new (Plain (Transpose (T 300) [1;2;0;3;4;5]));
  (*1358*) AddTo n_t3new (Times (Transpose (T 297) [1;2;0;3;4;5]) (-1) 1);
  (*1359*) AddTo n_t3new (Plain (Transpose (T 315) [1;0;2;4;3;5]));
  (*1360*) Del (T 315);
  (*1361*) AddTo n_t3new (Times (Transpose (T 300) [0;2;1;3;4;5]) (-1) 1);
  (*1362*) Del (T 300);
  (*1363*) AddTo n_t3new (Plain (Transpose (T 297) [0;2;1;3;4;5]));
  (*1364*) Del (T 297);
  (*1365*) AddTo n_t3new (Plain (Transpose (T 316) [0;2;1;3;5;4]));
  (*1366*) Del (T 316);
  (*1367*) AddTo n_t3new (Times (Transpose (T 310) [0;2;1;4;5;3]) (-1) 1);
  (*1368*) AddTo n_t3new (Plain (Transpose (T 310) [1;2;0;4;5;3]));
  (*1369*) AddTo n_t3new (Times (Transpose (T 307) [0;1;2;3;5;4]) (-1) 1);
  (*1370*) Del (T 307);
  (*1371*) AddTo n_t3new (Times (Transpose (T 310) [0;1;2;5;4;3]) (-1) 1);
  (*1372*) Del (T 310);
  (*1373*) Assign n_t2new_OOVv (Plain (Transpose (T 50) [2;1;3;0]));
  (*1374*) AddTo n_t2new_OOVv (Plain (Transpose (T 51) [1;2;3;0]));
  (*1375*) AddTo n_t2new_OOVv (Times (Transpose (T 55) [2;1;3;0]) (-1) 1);
  (*1376*) AddTo n_t2new_OOVv (Times (Transpose (T 57) [1;2;3;0]) (-1) 1);
  (*1377*) Assign n_t2new_OOvV (Plain (Transpose (T 50) [1;2;0;3]));
  (*1378*) Del (T 50);
  (*1379*) AddTo n_t2new_OOvV (Plain (Transpose (T 51) [2;1;0;3]));
  (*1380*) Del (T 51);
  (*1381*) AddTo n_t2new_OOvV (Times (Transpose (T 55) [1;2;0;3]) (-1) 1);
  (*1382*) Del (T 55);
  (*1383*) AddTo n_t2new_OOvV (Times (Transpose (T 57) [2;1;0;3]) (-1) 1);
  (*1384*) Del (T 57);
  (*1385*) Assign n_t2new_oOVV (Times (Copy (T 31)) (-1) 1);
  (*1386*) AddTo n_t2new_oOVV (Times (Transpose (T 32) [0;1;3;2]) (-1) 1);
  (*1387*) AddTo n_t2new_oOVV (Times (Copy (T 66)) (-1) 1);
  (*1388*) AddTo n_t2new_oOVV (Times (Transpose (T 67) [0;1;3;2]) (-1) 1);
  (*1389*) Assign n_t2new_OOVV (Plain (Copy (T 36)));
  (*1390*) AddTo n_t2new_OOVV (Plain (Transpose (T 36) [1;0;3;2]));
  (*1391*) Del (T 36);
  (*1392*) AddTo n_t2new_OOVV (Times (Copy (T 38)) (-1) 1);
  (*1393*) AddTo n_t2new_OOVV (Times (Copy (T 40)) (2) 1);
  (*1394*) AddTo n_t2new_OOVV (Times (Transpose (T 38) [1;0;3;2]) (-1) 1);
  (*1395*) Del (T 38);
  (*1396*) AddTo n_t2new_OOVV (Times (Transpose (T 40) [1;0;3;2]) (2) 1);
  (*1397*) Del (T 40);
  (*1398*) Assign n_t2new_OoVV (Times (Transpose (T 31) [1;0;3;2]) (-1) 1);
  (*1399*) Del (T 31);
  (*1400*) AddTo n_t2new_OoVV (Times (Transpose (T 32) [1;0;2;3]) (-1) 1);
  (*1401*) Del (T 32);
  (*1402*) AddTo n_t2new_OoVV (Times (Transpose (T 66) [1;0;3;2]) (-1) 1);
  (*1403*) Del (T 66);
  (*1404*) AddTo n_t2new_OoVV (Times (Transpose (T 67) [1;0;2;3]) (-1) 1);
  (*1405*) Del (T 67);
  (*1406*) Assign n_t2new (Times (Transpose (T 29) [1;0;2;3]) (-1) 1);
  (*1407*) AddTo n_t2new (Plain (Transpose (T 30) [1;0;3;2]));
  (*1408*) Del (T 30);
  (*1409*) AddTo n_t2new (Plain (Copy (T 33)));
  (*1410*) AddTo n_t2new (Times (Copy (T 34)) (-2) 1);
  (*1411*) AddTo n_t2new (Plain (Einsum [(T 35,[0;1;2;3]); (n_t1,[1;4])] [0;2;4;3]));
  (*1412*) Del (T 35);
  (*1413*) AddTo n_t2new (Times (Transpose (T 29) [0;1;3;2]) (-1) 1);
  (*1414*) Del (T 29);
  (*1415*) AddTo n_t2new (Plain (Transpose (T 33) [1;0;3;2]));
  (*1416*) Del (T 33);
  (*1417*) AddTo n_t2new (Times (Transpose (T 34) [1;0;3;2]) (-2) 1);
  (*1418*) Del (T 34);
  (*1419*) AddTo n_t2new (Times (Copy (T 42)) (-2) 1);
  (*1420*) AddTo n_t2new (Plain (Copy (T 44)));
  (*1421*) AddTo n_t2new (Plain (Transpose (T 45) [1;0;2;3]));
  (*1422*) AddTo n_t2new (Times (Transpose (T 47) [1;0;2;3]) (-1) 1);
  (*1423*) AddTo n_t2new (Times (Transpose (T 48) [1;0;3;2]) (2) 1);
  (*1424*) AddTo n_t2new (Times (Transpose (T 49) [1;0;3;2]) (-1) 1);
  (*1425*) AddTo n_t2new (Times (Transpose (T 52) [1;0;3;2]) (2) 1);
  (*1426*) AddTo n_t2new (Times (Transpose (T 53) [1;0;3;2]) (-1) 1);
  (*1427*) AddTo n_t2new (Plain (Transpose (T 44) [1;0;3;2]));
  (*1428*) Del (T 44);
  (*1429*) AddTo n_t2new (Times (Transpose (T 42) [1;0;3;2]) (-2) 1);
  (*1430*) Del (T 42);
  (*1431*) AddTo n_t2new (Plain (Transpose (T 59) [1;0;2;3]));
  (*1432*) AddTo n_t2new (Times (Transpose (T 61) [1;0;2;3]) (-2) 1);
  (*1433*) AddTo n_t2new (Plain (Transpose (T 45) [0;1;3;2]));
  (*1434*) Del (T 45);
  (*1435*) AddTo n_t2new (Times (Transpose (T 47) [0;1;3;2]) (-1) 1);
  (*1436*) Del (T 47);
  (*1437*) AddTo n_t2new (Times (Copy (T 52)) (2) 1);
  (*1438*) Del (T 52);
  (*1439*) AddTo n_t2new (Times (Copy (T 53)) (-1) 1);
  (*1440*) Del (T 53);
  (*1441*) AddTo n_t2new (Plain (Transpose (T 59) [0;1;3;2]));
  (*1442*) Del (T 59);
  (*1443*) AddTo n_t2new (Times (Transpose (T 61) [0;1;3;2]) (-2) 1);
  (*1444*) Del (T 61);
  (*1445*) AddTo n_t2new (Times (Transpose (T 62) [1;0;2;3]) (-1) 1);
  (*1446*) AddTo n_t2new (Plain (Transpose (T 64) [1;0;2;3]));
  (*1447*) AddTo n_t2new (Plain (Copy (T 68)));
  (*1448*) AddTo n_t2new (Times (Copy (T 69)) (-2) 1);
  (*1449*) AddTo n_t2new (Plain (Transpose (T 70) [1;0;2;3]));
  (*1450*) AddTo n_t2new (Times (Transpose (T 71) [1;0;2;3]) (-2) 1);
  (*1451*) AddTo n_t2new (Plain (Transpose (T 73) [1;0;2;3]));
  (*1452*) AddTo n_t2new (Times (Transpose (T 62) [0;1;3;2]) (-1) 1);
  (*1453*) Del (T 62);
  (*1454*) AddTo n_t2new (Plain (Transpose (T 64) [0;1;3;2]));
  (*1455*) Del (T 64);
  (*1456*) AddTo n_t2new (Times (Transpose (T 75) [0;1;3;2]) (-1) 1);
  (*1457*) AddTo n_t2new (Plain (Transpose (T 68) [1;0;3;2]));
  (*1458*) Del (T 68);
  (*1459*) AddTo n_t2new (Times (Transpose (T 69) [1;0;3;2]) (-2) 1);
  (*1460*) Del (T 69);
  (*1461*) AddTo n_t2new (Plain (Transpose (T 70) [0;1;3;2]));
  (*1462*) Del (T 70);
  (*1463*) AddTo n_t2new (Times (Transpose (T 71) [0;1;3;2]) (-2) 1);
  (*1464*) Del (T 71);
  (*1465*) AddTo n_t2new (Plain (Transpose (T 73) [0;1;3;2]));
  (*1466*) Del (T 73);
  (*1467*) AddTo n_t2new (Plain (Transpose n_v'ovov [0;2;1;3]));
  (*1468*) AddTo n_t2new (Plain (Transpose (T 76) [1;0;2;3]));
  (*1469*) AddTo n_t2new (Times (Transpose (T 78) [1;0;3;2]) (-1) 1);
  (*1470*) AddTo n_t2new (Times (Transpose (T 79) [1;0;3;2]) (-1) 1);
  (*1471*) AddTo n_t2new (Plain (Transpose (T 81) [1;0;2;3]));
  (*1472*) AddTo n_t2new (Times (Transpose (T 82) [1;0;3;2]) (-1) 1);
  (*1473*) AddTo n_t2new (Times (Transpose (T 83) [0;1;3;2]) (-1) 1);
  (*1474*) AddTo n_t2new (Plain (Copy (T 85)));
  (*1475*) AddTo n_t2new (Plain (Einsum [(n_t2,[0;1;2;3]); (T 86,[4;1;5;2])] [4;0;3;5]));
  (*1476*) Del (T 86);
  (*1477*) AddTo n_t2new (Times (Transpose (T 87) [1;0;3;2]) (-1) 1);
  (*1478*) AddTo n_t2new (Times (Transpose (T 89) [1;0;2;3]) (-2) 1);
  (*1479*) AddTo n_t2new (Plain (Transpose (T 91) [1;0;2;3]));
  (*1480*) AddTo n_t2new (Plain (Transpose (T 93) [1;0;2;3]));
  (*1481*) AddTo n_t2new (Plain (Transpose (T 94) [1;0;3;2]));
  (*1482*) AddTo n_t2new (Times (Copy (T 96)) (-2) 1);
  (*1483*) Del (T 96);
  (*1484*) AddTo n_t2new (Times (Transpose (T 97) [1;0;3;2]) (-2) 1);
  (*1485*) AddTo n_t2new (Times (Copy (T 98)) (4) 1);
  (*1486*) Del (T 98);
  (*1487*) AddTo n_t2new (Plain (Copy (T 94)));
  (*1488*) Del (T 94);
  (*1489*) AddTo n_t2new (Times (Copy (T 97)) (-2) 1);
  (*1490*) Del (T 97);
  (*1491*) AddTo n_t2new (Plain (Einsum [(n_t2,[0;1;2;3]); (T 49,[4;1;5;2])] [4;0;5;3]));
  (*1492*) AddTo n_t2new (Times (Copy (T 82)) (-1) 1);
  (*1493*) Del (T 82);
  (*1494*) AddTo n_t2new (Times (Transpose (T 83) [1;0;2;3]) (-1) 1);
  (*1495*) Del (T 83);
  (*1496*) AddTo n_t2new (Plain (Transpose (T 85) [1;0;3;2]));
  (*1497*) Del (T 85);
  (*1498*) AddTo n_t2new (Plain (Transpose (T 76) [0;1;3;2]));
  (*1499*) Del (T 76);
  (*1500*) AddTo n_t2new (Plain (Einsum [(n_t1,[0;1]); (T 99,[2;3;1;4])] [0;2;3;4]));
  (*1501*) Del (T 99);
  (*1502*) AddTo n_t2new (Plain (Copy (T 101)));
  (*1503*) Del (T 101);
  (*1504*) AddTo n_t2new (Times (Transpose (T 103) [1;0;3;2]) (-1) 1);
  (*1505*) AddTo n_t2new (Plain (Einsum [(T 104,[0;1;2;3]); (n_t1,[2;4])] [0;1;4;3]));
  (*1506*) Del (T 104);
  (*1507*) AddTo n_t2new (Times (Transpose (T 105) [0;1;3;2]) (-1) 1);
  (*1508*) AddTo n_t2new (Times (Transpose (T 106) [0;1;3;2]) (2) 1);
  (*1509*) AddTo n_t2new (Times (Transpose (T 107) [0;1;3;2]) (-1) 1);
  (*1510*) AddTo n_t2new (Plain (Copy (T 109)));
  (*1511*) AddTo n_t2new (Times (Copy (T 111)) (-2) 1);
  (*1512*) AddTo n_t2new (Plain (Copy (T 113)));
  (*1513*) AddTo n_t2new (Times (Copy (T 48)) (2) 1);
  (*1514*) Del (T 48);
  (*1515*) AddTo n_t2new (Times (Copy (T 49)) (-1) 1);
  (*1516*) Del (T 49);
  (*1517*) AddTo n_t2new (Times (Copy (T 87)) (-1) 1);
  (*1518*) Del (T 87);
  (*1519*) AddTo n_t2new (Times (Transpose (T 89) [0;1;3;2]) (-2) 1);
  (*1520*) Del (T 89);
  (*1521*) AddTo n_t2new (Plain (Transpose (T 91) [0;1;3;2]));
  (*1522*) Del (T 91);
  (*1523*) AddTo n_t2new (Plain (Transpose (T 93) [0;1;3;2]));
  (*1524*) Del (T 93);
  (*1525*) AddTo n_t2new (Plain (Transpose (T 114) [1;0;3;2]));
  (*1526*) Del (T 114);
  (*1527*) AddTo n_t2new (Times (Transpose (T 116) [1;0;3;2]) (-1) 1);
  (*1528*) AddTo n_t2new (Plain (Copy (T 118)));
  (*1529*) Del (T 118);
  (*1530*) AddTo n_t2new (Plain (Copy (T 120)));
  (*1531*) Del (T 120);
  (*1532*) AddTo n_t2new (Times (Transpose (T 105) [1;0;2;3]) (-1) 1);
  (*1533*) Del (T 105);
  (*1534*) AddTo n_t2new (Times (Transpose (T 106) [1;0;2;3]) (2) 1);
  (*1535*) Del (T 106);
  (*1536*) AddTo n_t2new (Times (Transpose (T 107) [1;0;2;3]) (-1) 1);
  (*1537*) Del (T 107);
  (*1538*) AddTo n_t2new (Plain (Transpose (T 109) [1;0;3;2]));
  (*1539*) Del (T 109);
  (*1540*) AddTo n_t2new (Times (Transpose (T 111) [1;0;3;2]) (-2) 1);
  (*1541*) Del (T 111);
  (*1542*) AddTo n_t2new (Plain (Transpose (T 113) [1;0;3;2]));
  (*1543*) Del (T 113);
  (*1544*) AddTo n_t2new (Times (Copy (T 78)) (-1) 1);
  (*1545*) Del (T 78);
  (*1546*) AddTo n_t2new (Times (Copy (T 79)) (-1) 1);
  (*1547*) Del (T 79);
  (*1548*) AddTo n_t2new (Plain (Transpose (T 81) [0;1;3;2]));
  (*1549*) Del (T 81);
  (*1550*) AddTo n_t2new (Times (Copy (T 116)) (-1) 1);
  (*1551*) Del (T 116);
  (*1552*) AddTo n_t2new (Times (Transpose (T 75) [1;0;2;3]) (-1) 1);
  (*1553*) Del (T 75);
  (*1554*) AddTo n_t2new (Times (Copy (T 103)) (-1) 1);
  (*1555*) Del (T 103);
  (*1556*) Assign n_t1new_OV (Times (Copy (T 21)) (1) 2);
  (*1557*) Del (T 21);
  (*1558*) AddTo n_t1new_OV (Times (Copy (T 22)) (-1) 2);
  (*1559*) Del (T 22);
  (*1560*) AddTo n_t1new_OV (Times (Copy (T 23)) (3) 2);
  (*1561*) Del (T 23);
  (*1562*) AddTo n_t1new_OV (Times (Copy (T 24)) (1) 2);
  (*1563*) Del (T 24);
  (*1564*) Assign n_t1new (Plain (Copy n_f'ov));
  (*1565*) AddTo n_t1new (Plain (Einsum [(n_t1,[0;1]); (n_f'vv,[2;1])] [0;2]));
  (*1566*) AddTo n_t1new (Times (Einsum [(n_t1,[0;1]); (T 1,[0;2])] [2;1]) (-1) 1);
  (*1567*) Del (T 1);
  (*1568*) AddTo n_t1new (Times (Copy (T 2)) (2) 1);
  (*1569*) Del (T 2);
  (*1570*) AddTo n_t1new (Times (Copy (T 3)) (2) 1);
  (*1571*) Del (T 3);
  (*1572*) AddTo n_t1new (Times (Copy (T 4)) (-1) 1);
  (*1573*) Del (T 4);
  (*1574*) AddTo n_t1new (Times (Copy (T 6)) (-2) 1);
  (*1575*) Del (T 6);
  (*1576*) AddTo n_t1new (Plain (Copy (T 7)));
  (*1577*) Del (T 7);
  (*1578*) AddTo n_t1new (Times (Copy (T 9)) (-2) 1);
  (*1579*) Del (T 9);
  (*1580*) AddTo n_t1new (Plain (Copy (T 11)));
  (*1581*) Del (T 11);
  (*1582*) AddTo n_t1new (Times (Copy (T 13)) (2) 1);
  (*1583*) Del (T 13);
  (*1584*) AddTo n_t1new (Times (Einsum [(T 14,[0;1]); (n_t1,[2;0])] [2;1]) (-1) 1);
  (*1585*) Del (T 14);
  (*1586*) AddTo n_t1new (Plain (Einsum [(n_t1,[0;1]); (T 16,[2;0])] [2;1]));
  (*1587*) Del (T 16);
  (*1588*) AddTo n_t1new (Times (Copy (T 18)) (-2) 1);
  (*1589*) Del (T 18);
  (*1590*) AddTo n_t1new (Times (Einsum [(n_t1,[0;1]); (n_f'oo,[2;0])] [2;1]) (-1) 1);
  (*1591*) AddTo n_t1new (Times (Einsum [(n_f'ov,[0;1]); (n_t2,[2;0;1;3])] [2;3]) (-1) 1);
  (*1592*) AddTo n_t1new (Times (Einsum [(n_t2,[0;1;2;3]); (n_f'ov,[1;3])] [0;2]) (2) 1);
  (*1593*) AddTo n_t1new (Times (Einsum [(n_t1,[0;1]); (n_v'oovv,[2;0;3;1])] [2;3]) (-1) 1);
  (*1594*) AddTo n_t1new (Plain (Copy (T 19)));
  (*1595*) Del (T 19);
  (*1596*) AddTo n_t1new (Times (Copy (T 20)) (-2) 1);
  (*1597*) Del (T 20);
  (*1598*) AddTo n_t1new (Plain (Einsum [(T 15,[0;1]); (n_t2,[2;0;1;3])] [2;3]));
  (*1599*) AddTo n_t1new (Times (Einsum [(n_t2,[0;1;2;3]); (T 15,[1;3])] [0;2]) (-2) 1);
  (*1600*) Del (T 15);
  (*1601*) AddTo n_t1new (Times (Copy (T 25)) (-2) 1);
  (*1602*) Del (T 25);
  (*1603*) AddTo n_t1new (Times (Copy (T 26)) (4) 1);
  (*1604*) Del (T 26);
  (*1605*) AddTo n_t1new (Plain (Einsum [(n_t1,[0;1]); (T 27,[2;0])] [2;1]));
  (*1606*) Del (T 27);
  (*1607*) AddTo n_t1new (Times (Einsum [(T 28,[0;1]); (n_t1,[1;2])] [0;2]) (-2) 1);
  (*1608*) Del (T 28)]
 [(n_t2new,[0;0;1;1]); (n_t2new_OOVV,[8;8;9;9]); (n_t1new,[0;1]); (n_t1new_OV,[8;9]); (n_t2new_OOVv,[8;8;9;1]); (n_t2new_OoVV,[8;0;9;9]); (n_t2new_OOvV,[8;8;1;9]); (n_t2new_oOVV,[0;8;9;9]); (n_t3new,[8;8;8;9;9;9])].

