(** Generated by tools/translate_codegen.py from ebcc/codegen/RecCC.py; one statement per source line
    (the number in the comment before it). *)
From Coq Require Import ZArith List.
From Verif Require Import CgModel CgNames.
Import ListNotations.

(** ebcc/codegen/RecCC.py:17-94 [update_amps_external] *)
Definition RecCC_update_amps_external : prog := mkprog
 [(n_v'OVOV,[8;9;8;9]); (n_t3,[8;8;8;9;9;9]); (n_v'oOOV,[0;8;8;9]); (n_v'OVvV,[8;9;1;9]); (n_f'OV,[8;9]); (n_t4a,[8;8;8;8;9;9;9;9]); (n_t4,[8;8;8;8;9;9;9;9])]
 [(*32*) Assign (T 1) (Plain (Einsum [(n_v'OVOV,[0;1;2;3]); (n_t3,[4;0;2;5;1;3])] [4;5]));
  (*34*) Assign n_t1new'OV (Times (Copy (T 1)) (3) 4);
  (*35*) Del (T 1);
  (*36*) AddTo n_t1new'OV (Times (Einsum [(n_v'OVOV,[0;1;2;3]); (n_t3,[4;0;2;3;5;1])] [4;5]) (1) 4);
  (*37*) AddTo n_t1new'OV (Times (Einsum [(n_t3,[0;1;2;3;4;5]); (n_v'OVOV,[1;3;2;4])] [0;5]) (1) 4);
  (*38*) AddTo n_t1new'OV (Times (Einsum [(n_v'OVOV,[0;1;2;3]); (n_t3,[4;0;2;5;3;1])] [4;5]) (-1) 4);
  (*39*) AddTo n_t1new'OV (Times (Einsum [(n_v'OVOV,[0;1;2;3]); (n_t3,[4;0;2;1;5;3])] [4;5]) (-1) 4);
  (*40*) Assign (T 2) (Plain (Einsum [(n_v'OVOV,[0;1;2;3]); (n_t3,[4;0;2;3;1;5])] [4;5]));
  (*41*) AddTo n_t1new'OV (Times (Copy (T 2)) (-3) 4);
  (*42*) Del (T 2);
  (*43*) AddTo n_t1new'OV (Times (Einsum [(n_v'OVOV,[0;1;2;3]); (n_t3,[0;4;2;1;5;3])] [4;5]) (1) 4);
  (*44*) AddTo n_t1new'OV (Times (Einsum [(n_v'OVOV,[0;1;2;3]); (n_t3,[0;4;2;3;5;1])] [4;5]) (-1) 4);
  (*45*) Assign (T 3) (Plain (Einsum [(n_t3,[0;1;2;3;4;5]); (n_v'oOOV,[6;0;2;3])] [1;5;4;6]));
  (*47*) Assign n_t2new'OoVV (Times (Transpose (T 3) [0;3;2;1]) (1) 2);
  (*48*) Assign (T 4) (Plain (Einsum [(n_t3,[0;1;2;3;4;5]); (n_v'oOOV,[6;0;2;5])] [1;3;4;6]));
  (*49*) AddTo n_t2new'OoVV (Times (Transpose (T 4) [0;3;2;1]) (-1) 2);
  (*50*) Assign (T 5) (Plain (Einsum [(n_v'oOOV,[0;1;2;3]); (n_t3,[4;1;2;5;6;3])] [4;5;6;0]));
  (*51*) AddTo n_t2new'OoVV (Times (Transpose (T 5) [0;3;1;2]) (-1) 2);
  (*52*) Assign (T 7) (Plain (Einsum [(n_v'oOOV,[0;1;2;3]); (n_t3,[4;1;2;3;5;6])] [4;6;5;0]));
  (*53*) AddTo n_t2new'OoVV (Times (Transpose (T 7) [0;3;1;2]) (1) 2);
  (*54*) Assign n_t2new'oOVV (Times (Transpose (T 4) [3;0;1;2]) (-1) 2);
  (*55*) Del (T 4);
  (*56*) AddTo n_t2new'oOVV (Times (Transpose (T 3) [3;0;1;2]) (1) 2);
  (*57*) Del (T 3);
  (*58*) AddTo n_t2new'oOVV (Times (Transpose (T 7) [3;0;2;1]) (1) 2);
  (*59*) Del (T 7);
  (*60*) AddTo n_t2new'oOVV (Times (Transpose (T 5) [3;0;2;1]) (-1) 2);
  (*61*) Del (T 5);
  (*62*) Assign (T 11) (Plain (Einsum [(n_t3,[0;1;2;3;4;5]); (n_v'OVvV,[2;5;6;3])] [0;1;4;6]));
  (*63*) Assign n_t2new'OOvV (Times (Transpose (T 11) [0;1;3;2]) (1) 2);
  (*64*) Assign (T 12) (Plain (Einsum [(n_v'OVvV,[0;1;2;3]); (n_t3,[4;5;0;1;6;3])] [4;5;6;2]));
  (*65*) AddTo n_t2new'OOvV (Times (Transpose (T 12) [0;1;3;2]) (-1) 2);
  (*66*) Assign (T 14) (Plain (Einsum [(n_v'OVvV,[0;1;2;3]); (n_t3,[4;5;0;6;3;1])] [4;5;6;2]));
  (*67*) AddTo n_t2new'OOvV (Times (Transpose (T 14) [1;0;3;2]) (1) 2);
  (*68*) Assign (T 13) (Plain (Einsum [(n_v'OVvV,[0;1;2;3]); (n_t3,[4;5;0;1;3;6])] [4;5;6;2]));
  (*69*) AddTo n_t2new'OOvV (Times (Transpose (T 13) [1;0;3;2]) (-1) 2);
  (*70*) Assign n_t2new'OOVv (Times (Copy (T 13)) (-1) 2);
  (*71*) Del (T 13);
  (*72*) AddTo n_t2new'OOVv (Times (Copy (T 14)) (1) 2);
  (*73*) Del (T 14);
  (*74*) AddTo n_t2new'OOVv (Times (Transpose (T 12) [1;0;2;3]) (-1) 2);
  (*75*) Del (T 12);
  (*76*) AddTo n_t2new'OOVv (Times (Transpose (T 11) [1;0;2;3]) (1) 2);
  (*77*) Del (T 11);
  (*78*) Assign (T 6) (Plain (Einsum [(n_f'OV,[0;1]); (n_t3,[2;3;0;4;5;1])] [2;3;4;5]));
  (*79*) Assign n_t2new'OOVV (Plain (Copy (T 6)));
  (*80*) Assign (T 8) (Plain (Einsum [(n_v'OVOV,[0;1;2;3]); (n_t4a,[4;5;0;2;6;7;1;3])] [4;5;6;7]));
  (*81*) AddTo n_t2new'OOVV (Times (Copy (T 8)) (1) 4);
  (*82*) Assign (T 9) (Plain (Einsum [(n_t4a,[0;1;2;3;4;5;6;7]); (n_v'OVOV,[2;7;3;6])] [0;1;4;5]));
  (*83*) AddTo n_t2new'OOVV (Times (Copy (T 9)) (-1) 4);
  (*84*) AddTo n_t2new'OOVV (Times (Transpose (T 8) [1;0;3;2]) (1) 4);
  (*85*) Del (T 8);
  (*86*) AddTo n_t2new'OOVV (Times (Transpose (T 9) [1;0;3;2]) (-1) 4);
  (*87*) Del (T 9);
  (*88*) Assign (T 10) (Plain (Einsum [(n_t4,[0;1;2;3;4;5;6;7]); (n_v'OVOV,[2;6;3;7])] [0;1;4;5]));
  (*89*) AddTo n_t2new'OOVV (Plain (Copy (T 10)));
  (*90*) Del (T 10);
  (*91*) AddTo n_t2new'OOVV (Plain (Transpose (T 6) [1;0;3;2]));
  (*92*) Del (T 6)]
 [(n_t1new'OV,[8;9]); (n_t2new'OoVV,[8;0;9;9]); (n_t2new'oOVV,[0;8;9;9]); (n_t2new'OOvV,[8;8;1;9]); (n_t2new'OOVv,[8;8;9;1]); (n_t2new'OOVV,[8;8;9;9])].

(** ebcc/codegen/RecCC.py:96-164 [update_amps_mixed] *)
Definition RecCC_update_amps_mixed : prog := mkprog
 [(n_v'oVOv,[0;9;8;1]); (n_t1,[0;1]); (n_t3,[8;8;8;9;9;9]); (n_v'ovOV,[0;1;8;9]); (n_v'OVOv,[8;9;8;1]); (n_v'oVOV,[0;9;8;9])]
 [(*108*) Assign (T 1) (Plain (Einsum [(n_v'oVOv,[0;1;2;3]); (n_t1,[0;3])] [2;1]));
  (*109*) Assign (T 2) (Plain (Einsum [(n_t3,[0;1;2;3;4;5]); (T 1,[2;5])] [0;1;3;4]));
  (*110*) Del (T 1);
  (*112*) Assign n_t2new'OOVV (Times (Copy (T 2)) (-1) 1);
  (*113*) Assign (T 3) (Plain (Einsum [(n_v'ovOV,[0;1;2;3]); (n_t1,[0;1])] [2;3]));
  (*114*) Assign (T 4) (Plain (Einsum [(n_t3,[0;1;2;3;4;5]); (T 3,[2;5])] [0;1;3;4]));
  (*115*) Del (T 3);
  (*116*) AddTo n_t2new'OOVV (Times (Copy (T 4)) (2) 1);
  (*117*) AddTo n_t2new'OOVV (Times (Transpose (T 2) [1;0;3;2]) (-1) 1);
  (*118*) Del (T 2);
  (*119*) AddTo n_t2new'OOVV (Times (Transpose (T 4) [1;0;3;2]) (2) 1);
  (*120*) Del (T 4);
  (*121*) Assign (T 13) (Plain (Einsum [(n_v'OVOv,[0;1;2;3]); (n_t1,[4;3])] [0;2;1;4]));
  (*122*) Assign (T 14) (Plain (Einsum [(n_t3,[0;1;2;3;4;5]); (T 13,[2;0;5;6])] [1;3;4;6]));
  (*123*) Assign n_t2new'OoVV (Times (Transpose (T 14) [0;3;2;1]) (-1) 2);
  (*124*) Assign (T 15) (Plain (Einsum [(n_t3,[0;1;2;3;4;5]); (T 13,[2;0;3;6])] [1;5;4;6]));
  (*125*) AddTo n_t2new'OoVV (Times (Transpose (T 15) [0;3;2;1]) (1) 2);
  (*126*) Assign (T 16) (Plain (Einsum [(n_t3,[0;1;2;3;4;5]); (T 13,[2;1;5;6])] [0;3;4;6]));
  (*127*) AddTo n_t2new'OoVV (Times (Transpose (T 16) [0;3;1;2]) (-1) 2);
  (*128*) Assign (T 17) (Plain (Einsum [(T 13,[0;1;2;3]); (n_t3,[4;1;0;2;5;6])] [4;6;5;3]));
  (*129*) Del (T 13);
  (*130*) AddTo n_t2new'OoVV (Times (Transpose (T 17) [0;3;1;2]) (1) 2);
  (*131*) Assign n_t2new'oOVV (Times (Transpose (T 15) [3;0;1;2]) (1) 2);
  (*132*) Del (T 15);
  (*133*) AddTo n_t2new'oOVV (Times (Transpose (T 14) [3;0;1;2]) (-1) 2);
  (*134*) Del (T 14);
  (*135*) AddTo n_t2new'oOVV (Times (Transpose (T 17) [3;0;2;1]) (1) 2);
  (*136*) Del (T 17);
  (*137*) AddTo n_t2new'oOVV (Times (Transpose (T 16) [3;0;2;1]) (-1) 2);
  (*138*) Del (T 16);
  (*139*) Assign (T 5) (Plain (Einsum [(n_v'oVOV,[0;1;2;3]); (n_t3,[4;5;2;1;6;3])] [4;5;6;0]));
  (*140*) Assign (T 6) (Plain (Einsum [(T 5,[0;1;2;3]); (n_t1,[3;4])] [0;1;2;4]));
  (*141*) Del (T 5);
  (*142*) Assign n_t2new'OOvV (Times (Transpose (T 6) [0;1;3;2]) (-1) 2);
  (*143*) Assign (T 7) (Plain (Einsum [(n_t3,[0;1;2;3;4;5]); (n_v'oVOV,[6;5;2;3])] [0;1;4;6]));
  (*144*) Assign (T 8) (Plain (Einsum [(T 7,[0;1;2;3]); (n_t1,[3;4])] [0;1;2;4]));
  (*145*) Del (T 7);
  (*146*) AddTo n_t2new'OOvV (Times (Transpose (T 8) [0;1;3;2]) (1) 2);
  (*147*) Assign (T 11) (Plain (Einsum [(n_v'oVOV,[0;1;2;3]); (n_t3,[4;5;2;6;1;3])] [4;5;6;0]));
  (*148*) Assign (T 12) (Plain (Einsum [(T 11,[0;1;2;3]); (n_t1,[3;4])] [0;1;2;4]));
  (*149*) Del (T 11);
  (*150*) AddTo n_t2new'OOvV (Times (Transpose (T 12) [1;0;3;2]) (-1) 2);
  (*151*) Assign (T 9) (Plain (Einsum [(n_t3,[0;1;2;3;4;5]); (n_v'oVOV,[6;4;2;3])] [0;1;5;6]));
  (*152*) Assign (T 10) (Plain (Einsum [(T 9,[0;1;2;3]); (n_t1,[3;4])] [0;1;2;4]));
  (*153*) Del (T 9);
  (*154*) AddTo n_t2new'OOvV (Times (Transpose (T 10) [1;0;3;2]) (1) 2);
  (*155*) Assign n_t2new'OOVv (Times (Copy (T 10)) (1) 2);
  (*156*) Del (T 10);
  (*157*) AddTo n_t2new'OOVv (Times (Copy (T 12)) (-1) 2);
  (*158*) Del (T 12);
  (*159*) AddTo n_t2new'OOVv (Times (Transpose (T 8) [1;0;2;3]) (1) 2);
  (*160*) Del (T 8);
  (*161*) AddTo n_t2new'OOVv (Times (Transpose (T 6) [1;0;2;3]) (-1) 2);
  (*162*) Del (T 6)]
 [(n_t2new'OOVV,[8;8;9;9]); (n_t2new'OoVV,[8;0;9;9]); (n_t2new'oOVV,[0;8;9;9]); (n_t2new'OOvV,[8;8;1;9]); (n_t2new'OOVv,[8;8;9;1])].

(** ebcc/codegen/RecCC.py:166-178 [convert_c1_to_t1] *)
Definition RecCC_convert_c1_to_t1 : prog := mkprog
 [(n_c1,[0;1])]
 [(*176*) Assign n_t1 (Plain (Copy n_c1))]
 [(n_t1,[0;1])].

(** ebcc/codegen/RecCC.py:180-194 [convert_c2_to_t2] *)
Definition RecCC_convert_c2_to_t2 : prog := mkprog
 [(n_t1,[0;1]); (n_c2,[0;0;1;1])]
 [(*191*) Assign n_t2 (Times (Einsum [(n_t1,[0;1]); (n_t1,[2;3])] [2;0;3;1]) (-1) 1);
  (*192*) AddTo n_t2 (Plain (Copy n_c2))]
 [(n_t2,[0;0;1;1])].

(** ebcc/codegen/RecCC.py:196-221 [convert_c3_to_t3] *)
Definition RecCC_convert_c3_to_t3 : prog := mkprog
 [(n_c3,[0;0;0;1;1;1]); (n_t2,[0;0;1;1]); (n_t1,[0;1])]
 [(*208*) Assign n_t3 (Plain (Copy n_c3));
  (*209*) AddTo n_t3 (Times (Einsum [(n_t2,[0;1;2;3]); (n_t1,[4;5])] [4;0;1;5;2;3]) (-1) 1);
  (*210*) AddTo n_t3 (Plain (Einsum [(n_t2,[0;1;2;3]); (n_t1,[4;5])] [4;0;1;3;2;5]));
  (*211*) AddTo n_t3 (Plain (Einsum [(n_t2,[0;1;2;3]); (n_t1,[4;5])] [0;1;4;5;3;2]));
  (*212*) AddTo n_t3 (Times (Einsum [(n_t1,[0;1]); (n_t2,[2;3;4;5])] [2;3;0;4;5;1]) (-1) 1);
  (*213*) Assign (T 1) (Plain (Copy n_t2));
  (*214*) AddTo (T 1) (Plain (Einsum [(n_t1,[0;1]); (n_t1,[2;3])] [2;0;3;1]));
  (*215*) Assign (T 2) (Times (Transpose (T 1) [0;1;3;2]) (-1) 1);
  (*216*) AddTo (T 2) (Plain (Copy (T 1)));
  (*217*) Del (T 1);
  (*218*) AddTo n_t3 (Times (Einsum [(T 2,[0;1;2;3]); (n_t1,[4;5])] [1;4;0;3;5;2]) (-1) 1);
  (*219*) Del (T 2)]
 [(n_t3,[0;0;0;1;1;1])].

(** ebcc/codegen/RecCC.py:223-317 [convert_c4_to_t4] *)
Definition RecCC_convert_c4_to_t4 : prog := mkprog
 [(n_c4,[0;0;0;0;1;1;1;1]); (n_t2,[0;0;1;1]); (n_t3,[0;0;0;1;1;1]); (n_t1,[0;1]); (n_c4a,[0;0;0;0;1;1;1;1])]
 [(*238*) Assign n_t4 (Plain (Copy n_c4));
  (*239*) AddTo n_t4 (Plain (Einsum [(n_t2,[0;1;2;3]); (n_t2,[4;5;6;7])] [4;0;1;5;3;2;6;7]));
  (*240*) AddTo n_t4 (Times (Einsum [(n_t2,[0;1;2;3]); (n_t2,[4;5;6;7])] [0;4;5;1;2;6;7;3]) (-1) 1);
  (*241*) AddTo n_t4 (Times (Einsum [(n_t2,[0;1;2;3]); (n_t2,[4;5;6;7])] [0;4;5;1;7;3;2;6]) (-1) 1);
  (*242*) AddTo n_t4 (Plain (Einsum [(n_t2,[0;1;2;3]); (n_t2,[4;5;6;7])] [0;4;5;1;2;3;7;6]));
  (*243*) AddTo n_t4 (Times (Einsum [(n_t2,[0;1;2;3]); (n_t2,[4;5;6;7])] [4;5;0;1;2;3;6;7]) (-1) 1);
  (*244*) AddTo n_t4 (Plain (Einsum [(n_t2,[0;1;2;3]); (n_t2,[4;5;6;7])] [4;5;0;1;6;3;2;7]));
  (*245*) AddTo n_t4 (Plain (Einsum [(n_t2,[0;1;2;3]); (n_t2,[4;5;6;7])] [4;5;0;1;2;7;6;3]));
  (*246*) AddTo n_t4 (Times (Einsum [(n_t2,[0;1;2;3]); (n_t2,[4;5;6;7])] [4;5;0;1;6;7;2;3]) (-1) 1);
  (*247*) AddTo n_t4 (Times (Einsum [(n_t3,[0;1;2;3;4;5]); (n_t1,[6;7])] [0;6;2;1;3;7;5;4]) (-1) 1);
  (*248*) AddTo n_t4 (Times (Einsum [(n_t3,[0;1;2;3;4;5]); (n_t1,[6;7])] [0;6;2;1;5;4;3;7]) (-1) 1);
  (*249*) AddTo n_t4 (Times (Einsum [(n_t1,[0;1]); (n_t3,[2;3;4;5;6;7])] [2;3;4;0;7;1;5;6]) (-1) 1);
  (*250*) AddTo n_t4 (Times (Einsum [(n_t1,[0;1]); (n_t3,[2;3;4;5;6;7])] [2;3;4;0;5;6;7;1]) (-1) 1);
  (*251*) Assign (T 1) (Plain (Copy n_t2));
  (*252*) AddTo (T 1) (Plain (Einsum [(n_t1,[0;1]); (n_t1,[2;3])] [2;0;3;1]));
  (*253*) Assign (T 3) (Plain (Transpose (T 1) [0;1;3;2]));
  (*254*) AddTo (T 3) (Times (Copy (T 1)) (-1) 1);
  (*255*) Assign (T 2) (Times (Transpose (T 1) [0;1;3;2]) (-1) 1);
  (*256*) AddTo (T 2) (Plain (Copy (T 1)));
  (*257*) Del (T 1);
  (*258*) AddTo n_t4 (Times (Einsum [(T 3,[0;1;2;3]); (T 2,[4;5;6;7])] [5;1;4;0;7;2;6;3]) (-1) 1);
  (*259*) Assign (T 4) (Plain (Transpose n_t3 [0;2;1;3;5;4]));
  (*260*) AddTo (T 4) (Plain (Einsum [(n_t2,[0;1;2;3]); (n_t1,[4;5])] [4;0;1;5;2;3]));
  (*261*) AddTo (T 4) (Times (Einsum [(n_t2,[0;1;2;3]); (n_t1,[4;5])] [4;0;1;2;5;3]) (-1) 1);
  (*262*) AddTo (T 4) (Times (Einsum [(n_t2,[0;1;2;3]); (n_t1,[4;5])] [0;4;1;5;2;3]) (-1) 1);
  (*263*) AddTo (T 4) (Plain (Einsum [(n_t2,[0;1;2;3]); (n_t1,[4;5])] [0;4;1;2;5;3]));
  (*264*) AddTo n_t4 (Times (Einsum [(T 4,[0;1;2;3;4;5]); (n_t1,[6;7])] [6;1;2;0;7;4;5;3]) (-1) 1);
  (*265*) AddTo n_t4 (Times (Einsum [(n_t1,[0;1]); (T 4,[2;3;4;5;6;7])] [0;3;4;2;7;5;1;6]) (-1) 1);
  (*266*) AddTo n_t4 (Times (Einsum [(n_t1,[0;1]); (T 4,[2;3;4;5;6;7])] [4;3;0;2;1;5;7;6]) (-1) 1);
  (*267*) AddTo n_t4 (Times (Einsum [(n_t1,[0;1]); (T 4,[2;3;4;5;6;7])] [4;3;0;2;7;6;1;5]) (-1) 1);
  (*268*) Assign n_t4a (Plain (Transpose n_c4a [0;1;3;2;4;5;7;6]));
  (*269*) AddTo n_t4a (Times (Einsum [(n_t3,[0;1;2;3;4;5]); (n_t1,[6;7])] [6;1;0;2;7;4;3;5]) (-1) 1);
  (*270*) AddTo n_t4a (Times (Einsum [(n_t3,[0;1;2;3;4;5]); (n_t1,[6;7])] [6;1;0;2;5;4;7;3]) (-1) 1);
  (*271*) AddTo n_t4a (Times (Einsum [(n_t1,[0;1]); (n_t3,[2;3;4;5;6;7])] [2;3;0;4;1;6;7;5]) (-1) 1);
  (*272*) AddTo n_t4a (Times (Einsum [(n_t3,[0;1;2;3;4;5]); (n_t1,[6;7])] [0;1;6;2;3;4;7;5]) (-1) 1);
  (*273*) AddTo n_t4a (Plain (Einsum [(n_t1,[0;1]); (n_t3,[2;3;4;5;6;7])] [2;3;4;0;1;6;7;5]));
  (*274*) AddTo n_t4a (Plain (Einsum [(n_t1,[0;1]); (n_t3,[2;3;4;5;6;7])] [2;3;4;0;5;6;1;7]));
  (*275*) AddTo n_t4a (Plain (Einsum [(n_t2,[0;1;2;3]); (n_t2,[4;5;6;7])] [4;0;1;5;3;2;6;7]));
  (*276*) AddTo n_t4a (Times (Einsum [(n_t2,[0;1;2;3]); (n_t2,[4;5;6;7])] [4;0;1;5;3;2;7;6]) (-1) 1);
  (*277*) AddTo n_t4a (Times (Einsum [(n_t2,[0;1;2;3]); (n_t2,[4;5;6;7])] [0;4;5;1;2;6;7;3]) (-1) 1);
  (*278*) AddTo n_t4a (Plain (Einsum [(n_t2,[0;1;2;3]); (n_t2,[4;5;6;7])] [0;4;5;1;3;6;7;2]));
  (*279*) AddTo n_t4a (Times (Einsum [(n_t2,[0;1;2;3]); (n_t2,[4;5;6;7])] [4;0;5;1;3;2;6;7]) (-1) 1);
  (*280*) AddTo n_t4a (Plain (Einsum [(n_t2,[0;1;2;3]); (n_t2,[4;5;6;7])] [0;4;1;5;7;6;3;2]));
  (*281*) AddTo n_t4a (Plain (Einsum [(n_t2,[0;1;2;3]); (n_t2,[4;5;6;7])] [4;0;5;1;6;2;3;7]));
  (*282*) AddTo n_t4a (Times (Einsum [(n_t2,[0;1;2;3]); (n_t2,[4;5;6;7])] [4;0;5;1;7;2;3;6]) (-1) 1);
  (*283*) AddTo n_t4a (Times (Einsum [(n_t2,[0;1;2;3]); (n_t2,[4;5;6;7])] [0;1;4;5;7;3;2;6]) (-1) 1);
  (*284*) AddTo n_t4a (Plain (Einsum [(n_t2,[0;1;2;3]); (n_t2,[4;5;6;7])] [4;5;0;1;6;7;3;2]));
  (*285*) AddTo n_t4a (Plain (Einsum [(n_t2,[0;1;2;3]); (n_t2,[4;5;6;7])] [4;5;0;1;2;7;6;3]));
  (*286*) AddTo n_t4a (Times (Einsum [(n_t2,[0;1;2;3]); (n_t2,[4;5;6;7])] [4;5;0;1;6;7;2;3]) (-1) 1);
  (*287*) Assign (T 5) (Plain (Transpose n_t3 [0;2;1;5;4;3]));
  (*288*) AddTo (T 5) (Plain (Transpose n_t3 [0;2;1;3;5;4]));
  (*289*) AddTo (T 5) (Plain (Transpose n_t3 [0;2;1;4;3;5]));
  (*290*) AddTo (T 5) (Plain (Einsum [(n_t2,[0;1;2;3]); (n_t1,[4;5])] [0;4;1;5;3;2]));
  (*291*) AddTo (T 5) (Times (Einsum [(n_t2,[0;1;2;3]); (n_t1,[4;5])] [0;4;1;5;2;3]) (-1) 1);
  (*292*) AddTo (T 5) (Times (Einsum [(n_t1,[0;1]); (n_t2,[2;3;4;5])] [2;0;3;5;1;4]) (-1) 1);
  (*293*) AddTo (T 5) (Plain (Einsum [(n_t2,[0;1;2;3]); (n_t1,[4;5])] [0;4;1;2;5;3]));
  (*294*) AddTo (T 5) (Plain (Einsum [(n_t1,[0;1]); (n_t2,[2;3;4;5])] [2;0;3;5;4;1]));
  (*295*) AddTo (T 5) (Times (Einsum [(n_t1,[0;1]); (n_t2,[2;3;4;5])] [2;0;3;4;5;1]) (-1) 1);
  (*296*) AddTo (T 5) (Times (Einsum [(n_t2,[0;1;2;3]); (n_t1,[4;5])] [0;1;4;5;3;2]) (-1) 1);
  (*297*) AddTo (T 5) (Plain (Einsum [(n_t2,[0;1;2;3]); (n_t1,[4;5])] [0;1;4;5;2;3]));
  (*298*) AddTo (T 5) (Plain (Einsum [(n_t2,[0;1;2;3]); (n_t1,[4;5])] [0;1;4;3;5;2]));
  (*299*) AddTo (T 5) (Times (Einsum [(n_t1,[0;1]); (n_t2,[2;3;4;5])] [2;3;0;4;1;5]) (-1) 1);
  (*300*) AddTo (T 5) (Times (Einsum [(n_t2,[0;1;2;3]); (n_t1,[4;5])] [0;1;4;3;2;5]) (-1) 1);
  (*301*) AddTo (T 5) (Plain (Einsum [(n_t1,[0;1]); (n_t2,[2;3;4;5])] [2;3;0;4;5;1]));
  (*302*) AddTo (T 5) (Times (Einsum [(T 2,[0;1;2;3]); (n_t1,[4;5])] [4;1;0;5;2;3]) (-1) 1);
  (*303*) AddTo (T 5) (Times (Einsum [(T 2,[0;1;2;3]); (n_t1,[4;5])] [4;1;0;3;5;2]) (-1) 1);
  (*304*) AddTo (T 5) (Plain (Einsum [(T 2,[0;1;2;3]); (n_t1,[4;5])] [4;1;0;3;2;5]));
  (*305*) AddTo n_t4a (Times (Einsum [(n_t1,[0;1]); (T 5,[2;3;4;5;6;7])] [3;0;4;2;7;1;5;6]) (-1) 1);
  (*306*) Del (T 5);
  (*307*) AddTo n_t4a (Plain (Einsum [(T 4,[0;1;2;3;4;5]); (n_t1,[6;7])] [6;2;1;0;3;5;4;7]));
  (*308*) AddTo n_t4a (Plain (Einsum [(n_t1,[0;1]); (T 4,[2;3;4;5;6;7])] [3;4;0;2;6;7;5;1]));
  (*309*) AddTo n_t4a (Times (Einsum [(n_t1,[0;1]); (T 4,[2;3;4;5;6;7])] [3;4;2;0;6;7;5;1]) (-1) 1);
  (*310*) Del (T 4);
  (*311*) AddTo n_t4a (Plain (Einsum [(T 3,[0;1;2;3]); (n_t2,[4;5;6;7])] [4;5;1;0;3;7;2;6]));
  (*312*) AddTo n_t4a (Plain (Einsum [(T 3,[0;1;2;3]); (n_t2,[4;5;6;7])] [1;4;0;5;3;6;2;7]));
  (*313*) Del (T 3);
  (*314*) AddTo n_t4a (Plain (Einsum [(T 2,[0;1;2;3]); (n_t2,[4;5;6;7])] [1;4;5;0;3;6;2;7]));
  (*315*) Del (T 2)]
 [(n_t4,[0;0;0;0;1;1;1;1]); (n_t4a,[0;0;0;0;1;1;1;1])].

(** ebcc/codegen/RecCC.py:319-331 [convert_t1_to_c1] *)
Definition RecCC_convert_t1_to_c1 : prog := mkprog
 [(n_t1,[0;1])]
 [(*329*) Assign n_c1 (Plain (Copy n_t1))]
 [(n_c1,[0;1])].

(** ebcc/codegen/RecCC.py:333-347 [convert_t2_to_c2] *)
Definition RecCC_convert_t2_to_c2 : prog := mkprog
 [(n_t1,[0;1]); (n_t2,[0;0;1;1])]
 [(*344*) Assign n_c2 (Plain (Einsum [(n_t1,[0;1]); (n_t1,[2;3])] [2;0;3;1]));
  (*345*) AddTo n_c2 (Plain (Copy n_t2))]
 [(n_c2,[0;0;1;1])].

(** ebcc/codegen/RecCC.py:349-374 [convert_t3_to_c3] *)
Definition RecCC_convert_t3_to_c3 : prog := mkprog
 [(n_t3,[0;0;0;1;1;1]); (n_t2,[0;0;1;1]); (n_t1,[0;1])]
 [(*361*) Assign n_c3 (Plain (Copy n_t3));
  (*362*) AddTo n_c3 (Plain (Einsum [(n_t2,[0;1;2;3]); (n_t1,[4;5])] [4;0;1;5;2;3]));
  (*363*) AddTo n_c3 (Times (Einsum [(n_t2,[0;1;2;3]); (n_t1,[4;5])] [4;0;1;3;2;5]) (-1) 1);
  (*364*) AddTo n_c3 (Times (Einsum [(n_t2,[0;1;2;3]); (n_t1,[4;5])] [0;1;4;5;3;2]) (-1) 1);
  (*365*) AddTo n_c3 (Plain (Einsum [(n_t1,[0;1]); (n_t2,[2;3;4;5])] [2;3;0;4;5;1]));
  (*366*) Assign (T 1) (Plain (Copy n_t2));
  (*367*) AddTo (T 1) (Plain (Einsum [(n_t1,[0;1]); (n_t1,[2;3])] [2;0;3;1]));
  (*368*) Assign (T 2) (Plain (Transpose (T 1) [0;1;3;2]));
  (*369*) AddTo (T 2) (Times (Copy (T 1)) (-1) 1);
  (*370*) Del (T 1);
  (*371*) AddTo n_c3 (Times (Einsum [(T 2,[0;1;2;3]); (n_t1,[4;5])] [1;4;0;3;5;2]) (-1) 1);
  (*372*) Del (T 2)]
 [(n_c3,[0;0;0;1;1;1])].

(** ebcc/codegen/RecCC.py:376-470 [convert_t4_to_c4] *)
Definition RecCC_convert_t4_to_c4 : prog := mkprog
 [(n_t4,[0;0;0;0;1;1;1;1]); (n_t3,[0;0;0;1;1;1]); (n_t1,[0;1]); (n_t2,[0;0;1;1]); (n_t4a,[0;0;0;0;1;1;1;1])]
 [(*391*) Assign n_c4 (Plain (Copy n_t4));
  (*392*) AddTo n_c4 (Plain (Einsum [(n_t3,[0;1;2;3;4;5]); (n_t1,[6;7])] [0;6;2;1;3;7;5;4]));
  (*393*) AddTo n_c4 (Plain (Einsum [(n_t3,[0;1;2;3;4;5]); (n_t1,[6;7])] [0;6;2;1;5;4;3;7]));
  (*394*) AddTo n_c4 (Plain (Einsum [(n_t1,[0;1]); (n_t3,[2;3;4;5;6;7])] [2;3;4;0;7;1;5;6]));
  (*395*) AddTo n_c4 (Plain (Einsum [(n_t1,[0;1]); (n_t3,[2;3;4;5;6;7])] [2;3;4;0;5;6;7;1]));
  (*396*) AddTo n_c4 (Times (Einsum [(n_t2,[0;1;2;3]); (n_t2,[4;5;6;7])] [4;0;1;5;3;2;6;7]) (-1) 1);
  (*397*) AddTo n_c4 (Plain (Einsum [(n_t2,[0;1;2;3]); (n_t2,[4;5;6;7])] [0;4;5;1;2;6;7;3]));
  (*398*) AddTo n_c4 (Plain (Einsum [(n_t2,[0;1;2;3]); (n_t2,[4;5;6;7])] [0;4;5;1;7;3;2;6]));
  (*399*) AddTo n_c4 (Times (Einsum [(n_t2,[0;1;2;3]); (n_t2,[4;5;6;7])] [0;4;5;1;2;3;7;6]) (-1) 1);
  (*400*) AddTo n_c4 (Plain (Einsum [(n_t2,[0;1;2;3]); (n_t2,[4;5;6;7])] [4;5;0;1;2;3;6;7]));
  (*401*) AddTo n_c4 (Times (Einsum [(n_t2,[0;1;2;3]); (n_t2,[4;5;6;7])] [4;5;0;1;6;3;2;7]) (-1) 1);
  (*402*) AddTo n_c4 (Times (Einsum [(n_t2,[0;1;2;3]); (n_t2,[4;5;6;7])] [4;5;0;1;2;7;6;3]) (-1) 1);
  (*403*) AddTo n_c4 (Plain (Einsum [(n_t2,[0;1;2;3]); (n_t2,[4;5;6;7])] [4;5;0;1;6;7;2;3]));
  (*404*) Assign (T 1) (Plain (Copy n_t2));
  (*405*) AddTo (T 1) (Plain (Einsum [(n_t1,[0;1]); (n_t1,[2;3])] [2;0;3;1]));
  (*406*) Assign (T 2) (Times (Transpose (T 1) [0;1;3;2]) (-1) 1);
  (*407*) AddTo (T 2) (Plain (Copy (T 1)));
  (*408*) AddTo n_c4 (Times (Einsum [(T 2,[0;1;2;3]); (T 2,[4;5;6;7])] [5;1;4;0;7;2;6;3]) (-1) 1);
  (*409*) Assign (T 3) (Plain (Transpose n_t3 [0;2;1;3;5;4]));
  (*410*) AddTo (T 3) (Plain (Einsum [(n_t2,[0;1;2;3]); (n_t1,[4;5])] [4;0;1;5;2;3]));
  (*411*) AddTo (T 3) (Times (Einsum [(n_t2,[0;1;2;3]); (n_t1,[4;5])] [4;0;1;2;5;3]) (-1) 1);
  (*412*) AddTo (T 3) (Times (Einsum [(n_t2,[0;1;2;3]); (n_t1,[4;5])] [0;4;1;5;2;3]) (-1) 1);
  (*413*) AddTo (T 3) (Plain (Einsum [(n_t2,[0;1;2;3]); (n_t1,[4;5])] [0;4;1;2;5;3]));
  (*414*) AddTo n_c4 (Plain (Einsum [(T 3,[0;1;2;3;4;5]); (n_t1,[6;7])] [6;1;2;0;7;4;5;3]));
  (*415*) AddTo n_c4 (Plain (Einsum [(n_t1,[0;1]); (T 3,[2;3;4;5;6;7])] [0;3;4;2;7;5;1;6]));
  (*416*) AddTo n_c4 (Plain (Einsum [(n_t1,[0;1]); (T 3,[2;3;4;5;6;7])] [4;3;0;2;1;5;7;6]));
  (*417*) AddTo n_c4 (Plain (Einsum [(n_t1,[0;1]); (T 3,[2;3;4;5;6;7])] [4;3;0;2;7;6;1;5]));
  (*418*) Assign n_c4a (Plain (Transpose n_t4a [0;1;3;2;4;5;7;6]));
  (*419*) AddTo n_c4a (Plain (Einsum [(n_t1,[0;1]); (n_t3,[2;3;4;5;6;7])] [2;3;0;4;1;6;7;5]));
  (*420*) AddTo n_c4a (Plain (Einsum [(n_t3,[0;1;2;3;4;5]); (n_t1,[6;7])] [0;1;6;2;3;4;7;5]));
  (*421*) AddTo n_c4a (Times (Einsum [(n_t1,[0;1]); (n_t3,[2;3;4;5;6;7])] [2;3;0;4;5;6;7;1]) (-1) 1);
  (*422*) AddTo n_c4a (Times (Einsum [(n_t1,[0;1]); (n_t3,[2;3;4;5;6;7])] [2;3;4;0;1;6;7;5]) (-1) 1);
  (*423*) AddTo n_c4a (Times (Einsum [(n_t1,[0;1]); (n_t3,[2;3;4;5;6;7])] [2;3;4;0;5;6;1;7]) (-1) 1);
  (*424*) AddTo n_c4a (Plain (Einsum [(n_t1,[0;1]); (n_t3,[2;3;4;5;6;7])] [2;3;4;0;5;6;7;1]));
  (*425*) AddTo n_c4a (Times (Einsum [(n_t2,[0;1;2;3]); (n_t2,[4;5;6;7])] [4;0;1;5;3;2;6;7]) (-1) 1);
  (*426*) AddTo n_c4a (Plain (Einsum [(n_t2,[0;1;2;3]); (n_t2,[4;5;6;7])] [4;0;1;5;3;2;7;6]));
  (*427*) AddTo n_c4a (Plain (Einsum [(n_t2,[0;1;2;3]); (n_t2,[4;5;6;7])] [0;4;5;1;2;6;7;3]));
  (*428*) AddTo n_c4a (Times (Einsum [(n_t2,[0;1;2;3]); (n_t2,[4;5;6;7])] [0;4;5;1;3;6;7;2]) (-1) 1);
  (*429*) AddTo n_c4a (Times (Einsum [(n_t2,[0;1;2;3]); (n_t2,[4;5;6;7])] [0;4;5;1;2;6;3;7]) (-1) 1);
  (*430*) AddTo n_c4a (Plain (Einsum [(n_t2,[0;1;2;3]); (n_t2,[4;5;6;7])] [0;4;5;1;3;6;2;7]));
  (*431*) AddTo n_c4a (Plain (Einsum [(n_t2,[0;1;2;3]); (n_t2,[4;5;6;7])] [4;0;5;1;3;2;6;7]));
  (*432*) AddTo n_c4a (Times (Einsum [(n_t2,[0;1;2;3]); (n_t2,[4;5;6;7])] [0;4;1;5;7;6;3;2]) (-1) 1);
  (*433*) AddTo n_c4a (Times (Einsum [(n_t2,[0;1;2;3]); (n_t2,[4;5;6;7])] [4;0;5;1;6;2;3;7]) (-1) 1);
  (*434*) AddTo n_c4a (Plain (Einsum [(n_t2,[0;1;2;3]); (n_t2,[4;5;6;7])] [4;0;5;1;7;2;3;6]));
  (*435*) AddTo n_c4a (Plain (Einsum [(n_t2,[0;1;2;3]); (n_t2,[4;5;6;7])] [4;0;5;1;6;2;7;3]));
  (*436*) AddTo n_c4a (Times (Einsum [(n_t2,[0;1;2;3]); (n_t2,[4;5;6;7])] [4;0;5;1;7;2;6;3]) (-1) 1);
  (*437*) Assign (T 4) (Plain (Transpose n_t3 [0;2;1;5;4;3]));
  (*438*) AddTo (T 4) (Plain (Transpose n_t3 [0;2;1;3;5;4]));
  (*439*) AddTo (T 4) (Plain (Transpose n_t3 [0;2;1;4;3;5]));
  (*440*) AddTo (T 4) (Plain (Einsum [(n_t2,[0;1;2;3]); (n_t1,[4;5])] [0;4;1;5;3;2]));
  (*441*) AddTo (T 4) (Times (Einsum [(n_t2,[0;1;2;3]); (n_t1,[4;5])] [0;4;1;5;2;3]) (-1) 1);
  (*442*) AddTo (T 4) (Times (Einsum [(n_t1,[0;1]); (n_t2,[2;3;4;5])] [2;0;3;5;1;4]) (-1) 1);
  (*443*) AddTo (T 4) (Plain (Einsum [(n_t2,[0;1;2;3]); (n_t1,[4;5])] [0;4;1;2;5;3]));
  (*444*) AddTo (T 4) (Plain (Einsum [(n_t1,[0;1]); (n_t2,[2;3;4;5])] [2;0;3;5;4;1]));
  (*445*) AddTo (T 4) (Times (Einsum [(n_t1,[0;1]); (n_t2,[2;3;4;5])] [2;0;3;4;5;1]) (-1) 1);
  (*446*) AddTo (T 4) (Times (Einsum [(n_t2,[0;1;2;3]); (n_t1,[4;5])] [0;1;4;5;3;2]) (-1) 1);
  (*447*) AddTo (T 4) (Plain (Einsum [(n_t2,[0;1;2;3]); (n_t1,[4;5])] [0;1;4;5;2;3]));
  (*448*) AddTo (T 4) (Plain (Einsum [(n_t2,[0;1;2;3]); (n_t1,[4;5])] [0;1;4;3;5;2]));
  (*449*) AddTo (T 4) (Times (Einsum [(n_t1,[0;1]); (n_t2,[2;3;4;5])] [2;3;0;4;1;5]) (-1) 1);
  (*450*) AddTo (T 4) (Times (Einsum [(n_t2,[0;1;2;3]); (n_t1,[4;5])] [0;1;4;3;2;5]) (-1) 1);
  (*451*) AddTo (T 4) (Plain (Einsum [(n_t1,[0;1]); (n_t2,[2;3;4;5])] [2;3;0;4;5;1]));
  (*452*) AddTo (T 4) (Times (Einsum [(T 2,[0;1;2;3]); (n_t1,[4;5])] [4;1;0;5;2;3]) (-1) 1);
  (*453*) AddTo (T 4) (Times (Einsum [(T 2,[0;1;2;3]); (n_t1,[4;5])] [4;1;0;3;5;2]) (-1) 1);
  (*454*) AddTo (T 4) (Plain (Einsum [(T 2,[0;1;2;3]); (n_t1,[4;5])] [4;1;0;3;2;5]));
  (*455*) AddTo n_c4a (Plain (Einsum [(T 4,[0;1;2;3;4;5]); (n_t1,[6;7])] [1;6;2;0;5;7;3;4]));
  (*456*) Del (T 4);
  (*457*) AddTo n_c4a (Plain (Einsum [(T 3,[0;1;2;3;4;5]); (n_t1,[6;7])] [6;2;1;0;7;5;4;3]));
  (*458*) AddTo n_c4a (Plain (Einsum [(n_t1,[0;1]); (T 3,[2;3;4;5;6;7])] [0;4;3;2;5;7;1;6]));
  (*459*) AddTo n_c4a (Times (Einsum [(T 3,[0;1;2;3;4;5]); (n_t1,[6;7])] [6;2;1;0;3;5;4;7]) (-1) 1);
  (*460*) Del (T 3);
  (*461*) Assign (T 5) (Plain (Transpose (T 1) [0;1;3;2]));
  (*462*) AddTo (T 5) (Times (Copy (T 1)) (-1) 1);
  (*463*) Del (T 1);
  (*464*) AddTo n_c4a (Times (Einsum [(T 5,[0;1;2;3]); (n_t2,[4;5;6;7])] [4;5;1;0;6;7;3;2]) (-1) 1);
  (*465*) AddTo n_c4a (Times (Einsum [(T 5,[0;1;2;3]); (n_t2,[4;5;6;7])] [4;5;1;0;2;7;6;3]) (-1) 1);
  (*466*) Del (T 5);
  (*467*) AddTo n_c4a (Plain (Einsum [(T 2,[0;1;2;3]); (n_t2,[4;5;6;7])] [4;5;1;0;3;7;2;6]));
  (*468*) Del (T 2)]
 [(n_c4,[0;0;0;0;1;1;1;1]); (n_c4a,[0;0;0;0;1;1;1;1])].

