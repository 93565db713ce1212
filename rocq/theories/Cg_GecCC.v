(** Generated by tools/translate_codegen.py from ebcc/codegen/GecCC.py; one statement per source line
    (the number in the comment before it). *)
From Coq Require Import ZArith List.
From Verif Require Import CgModel CgNames.
Import ListNotations.

(** ebcc/codegen/GecCC.py:17-45 [update_amps_external] *)
Definition GecCC_update_amps_external : prog := mkprog
 [(n_v'OOVV,[8;8;9;9]); (n_t3,[8;8;8;9;9;9]); (n_f'OV,[8;9]); (n_t4,[8;8;8;8;9;9;9;9]); (n_v'oVOO,[0;9;8;8]); (n_v'OvVV,[8;1;9;9])]
 [(*32*) Assign n_t1new'OV (Times (Einsum [(n_v'OOVV,[0;1;2;3]); (n_t3,[4;0;1;5;2;3])] [4;5]) (1) 4);
  (*34*) Assign n_t2new'OOVV (Plain (Einsum [(n_t3,[0;1;2;3;4;5]); (n_f'OV,[2;5])] [0;1;3;4]));
  (*35*) AddTo n_t2new'OOVV (Times (Einsum [(n_v'OOVV,[0;1;2;3]); (n_t4,[4;5;0;1;6;7;2;3])] [4;5;6;7]) (1) 4);
  (*36*) Assign (T 1) (Times (Einsum [(n_v'oVOO,[0;1;2;3]); (n_t3,[4;2;3;5;6;1])] [4;5;6;0]) (-1) 1);
  (*37*) Assign n_t2new'OoVV (Times (Transpose (T 1) [0;3;2;1]) (-1) 2);
  (*38*) Assign n_t2new'oOVV (Times (Transpose (T 1) [3;0;2;1]) (1) 2);
  (*39*) Del (T 1);
  (*40*) Assign (T 2) (Plain (Einsum [(n_v'OvVV,[0;1;2;3]); (n_t3,[4;5;0;6;2;3])] [4;5;6;1]));
  (*41*) Assign n_t2new'OOvV (Times (Transpose (T 2) [0;1;3;2]) (1) 2);
  (*42*) Assign n_t2new'OOVv (Times (Copy (T 2)) (-1) 2);
  (*43*) Del (T 2)]
 [(n_t1new'OV,[8;9]); (n_t2new'OOVV,[8;8;9;9]); (n_t2new'OoVV,[8;0;9;9]); (n_t2new'oOVV,[0;8;9;9]); (n_t2new'OOvV,[8;8;1;9]); (n_t2new'OOVv,[8;8;9;1])].

(** ebcc/codegen/GecCC.py:47-76 [update_amps_mixed] *)
Definition GecCC_update_amps_mixed : prog := mkprog
 [(n_v'oOvV,[0;8;1;9]); (n_t1,[0;1]); (n_t3,[8;8;8;9;9;9]); (n_v'OOvV,[8;8;1;9]); (n_v'oOVV,[0;8;9;9])]
 [(*59*) Assign (T 1) (Plain (Einsum [(n_v'oOvV,[0;1;2;3]); (n_t1,[0;2])] [1;3]));
  (*61*) Assign n_t2new'OOVV (Plain (Einsum [(n_t3,[0;1;2;3;4;5]); (T 1,[2;5])] [0;1;3;4]));
  (*62*) Del (T 1);
  (*63*) Assign (T 2) (Times (Einsum [(n_t1,[0;1]); (n_v'OOvV,[2;3;1;4])] [2;3;4;0]) (-1) 1);
  (*64*) Assign (T 3) (Times (Einsum [(T 2,[0;1;2;3]); (n_t3,[4;1;0;5;6;2])] [4;5;6;3]) (-1) 1);
  (*65*) Del (T 2);
  (*66*) Assign n_t2new'OoVV (Times (Transpose (T 3) [0;3;2;1]) (-1) 2);
  (*67*) Assign n_t2new'oOVV (Times (Transpose (T 3) [3;0;2;1]) (1) 2);
  (*68*) Del (T 3);
  (*69*) Assign (T 4) (Times (Einsum [(n_v'oOVV,[0;1;2;3]); (n_t3,[4;5;1;6;2;3])] [4;5;6;0]) (-1) 1);
  (*70*) Assign (T 5) (Plain (Einsum [(n_t1,[0;1]); (T 4,[2;3;4;0])] [2;3;4;1]));
  (*71*) Del (T 4);
  (*72*) Assign n_t2new'OOvV (Times (Transpose (T 5) [0;1;3;2]) (-1) 2);
  (*73*) Assign n_t2new'OOVv (Times (Copy (T 5)) (1) 2);
  (*74*) Del (T 5)]
 [(n_t2new'OOVV,[8;8;9;9]); (n_t2new'OoVV,[8;0;9;9]); (n_t2new'oOVV,[0;8;9;9]); (n_t2new'OOvV,[8;8;1;9]); (n_t2new'OOVv,[8;8;9;1])].

(** ebcc/codegen/GecCC.py:78-90 [convert_c1_to_t1] *)
Definition GecCC_convert_c1_to_t1 : prog := mkprog
 [(n_c1,[0;1])]
 [(*88*) Assign n_t1 (Plain (Copy n_c1))]
 [(n_t1,[0;1])].

(** ebcc/codegen/GecCC.py:92-107 [convert_c2_to_t2] *)
Definition GecCC_convert_c2_to_t2 : prog := mkprog
 [(n_c2,[0;0;1;1]); (n_t1,[0;1])]
 [(*103*) Assign n_t2 (Plain (Copy n_c2));
  (*104*) AddTo n_t2 (Plain (Einsum [(n_t1,[0;1]); (n_t1,[2;3])] [0;2;3;1]));
  (*105*) AddTo n_t2 (Times (Einsum [(n_t1,[0;1]); (n_t1,[2;3])] [0;2;1;3]) (-1) 1)]
 [(n_t2,[0;0;1;1])].

(** ebcc/codegen/GecCC.py:109-136 [convert_c3_to_t3] *)
Definition GecCC_convert_c3_to_t3 : prog := mkprog
 [(n_c3,[0;0;0;1;1;1]); (n_t1,[0;1]); (n_t2,[0;0;1;1])]
 [(*121*) Assign n_t3 (Plain (Copy n_c3));
  (*122*) AddTo n_t3 (Times (Einsum [(n_t1,[0;1]); (n_t2,[2;3;4;5])] [0;2;3;1;4;5]) (-1) 1);
  (*123*) AddTo n_t3 (Times (Einsum [(n_t1,[0;1]); (n_t2,[2;3;4;5])] [0;2;3;4;5;1]) (-1) 1);
  (*124*) AddTo n_t3 (Plain (Einsum [(n_t2,[0;1;2;3]); (n_t1,[4;5])] [0;4;1;5;2;3]));
  (*125*) AddTo n_t3 (Plain (Einsum [(n_t1,[0;1]); (n_t2,[2;3;4;5])] [2;0;3;4;5;1]));
  (*126*) AddTo n_t3 (Times (Einsum [(n_t2,[0;1;2;3]); (n_t1,[4;5])] [0;1;4;5;2;3]) (-1) 1);
  (*127*) AddTo n_t3 (Times (Einsum [(n_t2,[0;1;2;3]); (n_t1,[4;5])] [0;1;4;2;3;5]) (-1) 1);
  (*128*) Assign (T 1) (Plain (Copy n_t2));
  (*129*) AddTo (T 1) (Times (Einsum [(n_t1,[0;1]); (n_t1,[2;3])] [0;2;3;1]) (-1) 1);
  (*130*) AddTo (T 1) (Plain (Einsum [(n_t1,[0;1]); (n_t1,[2;3])] [0;2;1;3]));
  (*131*) AddTo n_t3 (Plain (Einsum [(n_t1,[0;1]); (T 1,[2;3;4;5])] [0;3;2;5;1;4]));
  (*132*) AddTo n_t3 (Plain (Einsum [(T 1,[0;1;2;3]); (n_t1,[4;5])] [1;0;4;3;5;2]));
  (*133*) AddTo n_t3 (Times (Einsum [(n_t1,[0;1]); (T 1,[2;3;4;5])] [3;0;2;5;1;4]) (-1) 1);
  (*134*) Del (T 1)]
 [(n_t3,[0;0;0;1;1;1])].

(** ebcc/codegen/GecCC.py:138-215 [convert_c4_to_t4] *)
Definition GecCC_convert_c4_to_t4 : prog := mkprog
 [(n_c4,[0;0;0;0;1;1;1;1]); (n_t3,[0;0;0;1;1;1]); (n_t1,[0;1]); (n_t2,[0;0;1;1])]
 [(*151*) Assign n_t4 (Plain (Copy n_c4));
  (*152*) AddTo n_t4 (Plain (Einsum [(n_t3,[0;1;2;3;4;5]); (n_t1,[6;7])] [0;1;2;6;7;3;4;5]));
  (*153*) AddTo n_t4 (Times (Einsum [(n_t3,[0;1;2;3;4;5]); (n_t1,[6;7])] [0;1;2;6;3;7;4;5]) (-1) 1);
  (*154*) AddTo n_t4 (Plain (Einsum [(n_t3,[0;1;2;3;4;5]); (n_t1,[6;7])] [0;1;2;6;3;4;7;5]));
  (*155*) AddTo n_t4 (Times (Einsum [(n_t3,[0;1;2;3;4;5]); (n_t1,[6;7])] [0;1;2;6;3;4;5;7]) (-1) 1);
  (*156*) AddTo n_t4 (Times (Einsum [(n_t2,[0;1;2;3]); (n_t2,[4;5;6;7])] [4;0;1;5;2;3;6;7]) (-1) 1);
  (*157*) AddTo n_t4 (Plain (Einsum [(n_t2,[0;1;2;3]); (n_t2,[4;5;6;7])] [4;0;1;5;2;6;3;7]));
  (*158*) AddTo n_t4 (Times (Einsum [(n_t2,[0;1;2;3]); (n_t2,[4;5;6;7])] [4;0;1;5;6;2;3;7]) (-1) 1);
  (*159*) AddTo n_t4 (Times (Einsum [(n_t2,[0;1;2;3]); (n_t2,[4;5;6;7])] [4;0;1;5;2;6;7;3]) (-1) 1);
  (*160*) AddTo n_t4 (Plain (Einsum [(n_t2,[0;1;2;3]); (n_t2,[4;5;6;7])] [0;4;5;1;2;6;3;7]));
  (*161*) AddTo n_t4 (Times (Einsum [(n_t2,[0;1;2;3]); (n_t2,[4;5;6;7])] [0;4;5;1;2;3;6;7]) (-1) 1);
  (*162*) AddTo n_t4 (Plain (Einsum [(n_t2,[0;1;2;3]); (n_t2,[4;5;6;7])] [0;4;1;5;6;7;2;3]));
  (*163*) AddTo n_t4 (Times (Einsum [(n_t2,[0;1;2;3]); (n_t2,[4;5;6;7])] [0;4;1;5;6;2;7;3]) (-1) 1);
  (*164*) AddTo n_t4 (Plain (Einsum [(n_t2,[0;1;2;3]); (n_t2,[4;5;6;7])] [0;4;1;5;2;6;7;3]));
  (*165*) AddTo n_t4 (Plain (Einsum [(n_t2,[0;1;2;3]); (n_t2,[4;5;6;7])] [0;4;1;5;6;2;3;7]));
  (*166*) AddTo n_t4 (Times (Einsum [(n_t2,[0;1;2;3]); (n_t2,[4;5;6;7])] [4;0;5;1;6;2;7;3]) (-1) 1);
  (*167*) AddTo n_t4 (Plain (Einsum [(n_t2,[0;1;2;3]); (n_t2,[4;5;6;7])] [4;0;5;1;6;7;2;3]));
  (*168*) AddTo n_t4 (Times (Einsum [(n_t2,[0;1;2;3]); (n_t2,[4;5;6;7])] [4;5;0;1;2;3;6;7]) (-1) 1);
  (*169*) AddTo n_t4 (Plain (Einsum [(n_t2,[0;1;2;3]); (n_t2,[4;5;6;7])] [4;5;0;1;2;6;3;7]));
  (*170*) AddTo n_t4 (Times (Einsum [(n_t2,[0;1;2;3]); (n_t2,[4;5;6;7])] [0;1;4;5;2;6;7;3]) (-1) 1);
  (*171*) AddTo n_t4 (Times (Einsum [(n_t2,[0;1;2;3]); (n_t2,[4;5;6;7])] [0;1;4;5;6;2;3;7]) (-1) 1);
  (*172*) AddTo n_t4 (Plain (Einsum [(n_t2,[0;1;2;3]); (n_t2,[4;5;6;7])] [4;5;0;1;6;2;7;3]));
  (*173*) AddTo n_t4 (Times (Einsum [(n_t2,[0;1;2;3]); (n_t2,[4;5;6;7])] [4;5;0;1;6;7;2;3]) (-1) 1);
  (*174*) Assign (T 2) (Plain (Copy n_t3));
  (*175*) AddTo (T 2) (Times (Einsum [(n_t2,[0;1;2;3]); (n_t1,[4;5])] [0;4;1;5;2;3]) (-1) 1);
  (*176*) AddTo (T 2) (Plain (Einsum [(n_t2,[0;1;2;3]); (n_t1,[4;5])] [0;4;1;2;5;3]));
  (*177*) AddTo (T 2) (Times (Einsum [(n_t1,[0;1]); (n_t2,[2;3;4;5])] [2;0;3;4;5;1]) (-1) 1);
  (*178*) AddTo (T 2) (Plain (Einsum [(n_t2,[0;1;2;3]); (n_t1,[4;5])] [0;1;4;5;2;3]));
  (*179*) AddTo (T 2) (Times (Einsum [(n_t2,[0;1;2;3]); (n_t1,[4;5])] [0;1;4;2;5;3]) (-1) 1);
  (*180*) AddTo (T 2) (Plain (Einsum [(n_t2,[0;1;2;3]); (n_t1,[4;5])] [0;1;4;2;3;5]));
  (*181*) Assign (T 1) (Plain (Copy n_t2));
  (*182*) AddTo (T 1) (Times (Einsum [(n_t1,[0;1]); (n_t1,[2;3])] [0;2;3;1]) (-1) 1);
  (*183*) AddTo (T 1) (Plain (Einsum [(n_t1,[0;1]); (n_t1,[2;3])] [0;2;1;3]));
  (*184*) AddTo (T 2) (Plain (Einsum [(n_t1,[0;1]); (T 1,[2;3;4;5])] [0;3;2;1;5;4]));
  (*185*) AddTo (T 2) (Plain (Einsum [(n_t1,[0;1]); (T 1,[2;3;4;5])] [0;3;2;5;4;1]));
  (*186*) AddTo (T 2) (Times (Einsum [(n_t1,[0;1]); (T 1,[2;3;4;5])] [0;3;2;5;1;4]) (-1) 1);
  (*187*) Del (T 1);
  (*188*) AddTo n_t4 (Plain (Einsum [(T 2,[0;1;2;3;4;5]); (n_t1,[6;7])] [6;1;2;0;4;7;5;3]));
  (*189*) AddTo n_t4 (Plain (Einsum [(T 2,[0;1;2;3;4;5]); (n_t1,[6;7])] [6;1;2;0;4;5;3;7]));
  (*190*) AddTo n_t4 (Times (Einsum [(T 2,[0;1;2;3;4;5]); (n_t1,[6;7])] [6;1;2;0;7;4;5;3]) (-1) 1);
  (*191*) AddTo n_t4 (Times (Einsum [(n_t1,[0;1]); (T 2,[2;3;4;5;6;7])] [0;3;4;2;6;7;1;5]) (-1) 1);
  (*192*) Del (T 2);
  (*193*) Assign (T 3) (Plain (Copy n_t3));
  (*194*) AddTo (T 3) (Plain (Einsum [(n_t1,[0;1]); (n_t2,[2;3;4;5])] [0;2;3;1;4;5]));
  (*195*) AddTo (T 3) (Times (Einsum [(n_t1,[0;1]); (n_t2,[2;3;4;5])] [0;2;3;4;1;5]) (-1) 1);
  (*196*) AddTo (T 3) (Plain (Einsum [(n_t1,[0;1]); (n_t2,[2;3;4;5])] [0;2;3;4;5;1]));
  (*197*) AddTo (T 3) (Plain (Einsum [(n_t2,[0;1;2;3]); (n_t1,[4;5])] [0;1;4;5;2;3]));
  (*198*) AddTo (T 3) (Times (Einsum [(n_t2,[0;1;2;3]); (n_t1,[4;5])] [0;1;4;2;5;3]) (-1) 1);
  (*199*) AddTo (T 3) (Plain (Einsum [(n_t2,[0;1;2;3]); (n_t1,[4;5])] [0;1;4;2;3;5]));
  (*200*) AddTo n_t4 (Plain (Einsum [(n_t1,[0;1]); (T 3,[2;3;4;5;6;7])] [3;0;4;2;1;6;7;5]));
  (*201*) AddTo n_t4 (Plain (Einsum [(n_t1,[0;1]); (T 3,[2;3;4;5;6;7])] [3;0;4;2;6;7;1;5]));
  (*202*) AddTo n_t4 (Times (Einsum [(n_t1,[0;1]); (T 3,[2;3;4;5;6;7])] [3;0;4;2;6;1;7;5]) (-1) 1);
  (*203*) AddTo n_t4 (Times (Einsum [(T 3,[0;1;2;3;4;5]); (n_t1,[6;7])] [1;6;2;0;4;5;3;7]) (-1) 1);
  (*204*) Del (T 3);
  (*205*) Assign (T 4) (Plain (Copy n_t3));
  (*206*) AddTo (T 4) (Plain (Einsum [(n_t1,[0;1]); (n_t2,[2;3;4;5])] [0;2;3;1;4;5]));
  (*207*) AddTo (T 4) (Times (Einsum [(n_t1,[0;1]); (n_t2,[2;3;4;5])] [0;2;3;4;1;5]) (-1) 1);
  (*208*) AddTo (T 4) (Plain (Einsum [(n_t1,[0;1]); (n_t2,[2;3;4;5])] [0;2;3;4;5;1]));
  (*209*) AddTo n_t4 (Plain (Einsum [(T 4,[0;1;2;3;4;5]); (n_t1,[6;7])] [1;2;6;0;4;7;5;3]));
  (*210*) AddTo n_t4 (Plain (Einsum [(n_t1,[0;1]); (T 4,[2;3;4;5;6;7])] [3;4;0;2;6;7;5;1]));
  (*211*) AddTo n_t4 (Times (Einsum [(n_t1,[0;1]); (T 4,[2;3;4;5;6;7])] [3;4;0;2;1;6;7;5]) (-1) 1);
  (*212*) AddTo n_t4 (Times (Einsum [(T 4,[0;1;2;3;4;5]); (n_t1,[6;7])] [1;2;6;0;4;5;7;3]) (-1) 1);
  (*213*) Del (T 4)]
 [(n_t4,[0;0;0;0;1;1;1;1])].

(** ebcc/codegen/GecCC.py:217-229 [convert_t1_to_c1] *)
Definition GecCC_convert_t1_to_c1 : prog := mkprog
 [(n_t1,[0;1])]
 [(*227*) Assign n_c1 (Plain (Copy n_t1))]
 [(n_c1,[0;1])].

(** ebcc/codegen/GecCC.py:231-246 [convert_t2_to_c2] *)
Definition GecCC_convert_t2_to_c2 : prog := mkprog
 [(n_t2,[0;0;1;1]); (n_t1,[0;1])]
 [(*242*) Assign n_c2 (Plain (Copy n_t2));
  (*243*) AddTo n_c2 (Times (Einsum [(n_t1,[0;1]); (n_t1,[2;3])] [0;2;3;1]) (-1) 1);
  (*244*) AddTo n_c2 (Plain (Einsum [(n_t1,[0;1]); (n_t1,[2;3])] [0;2;1;3]))]
 [(n_c2,[0;0;1;1])].

(** ebcc/codegen/GecCC.py:248-275 [convert_t3_to_c3] *)
Definition GecCC_convert_t3_to_c3 : prog := mkprog
 [(n_t3,[0;0;0;1;1;1]); (n_t2,[0;0;1;1]); (n_t1,[0;1])]
 [(*260*) Assign n_c3 (Plain (Copy n_t3));
  (*261*) AddTo n_c3 (Times (Einsum [(n_t2,[0;1;2;3]); (n_t1,[4;5])] [0;4;1;5;2;3]) (-1) 1);
  (*262*) AddTo n_c3 (Plain (Einsum [(n_t2,[0;1;2;3]); (n_t1,[4;5])] [0;4;1;2;5;3]));
  (*263*) AddTo n_c3 (Times (Einsum [(n_t1,[0;1]); (n_t2,[2;3;4;5])] [2;0;3;4;5;1]) (-1) 1);
  (*264*) AddTo n_c3 (Plain (Einsum [(n_t2,[0;1;2;3]); (n_t1,[4;5])] [0;1;4;5;2;3]));
  (*265*) AddTo n_c3 (Times (Einsum [(n_t2,[0;1;2;3]); (n_t1,[4;5])] [0;1;4;2;5;3]) (-1) 1);
  (*266*) AddTo n_c3 (Plain (Einsum [(n_t2,[0;1;2;3]); (n_t1,[4;5])] [0;1;4;2;3;5]));
  (*267*) Assign (T 1) (Plain (Copy n_t2));
  (*268*) AddTo (T 1) (Times (Einsum [(n_t1,[0;1]); (n_t1,[2;3])] [0;2;3;1]) (-1) 1);
  (*269*) AddTo (T 1) (Plain (Einsum [(n_t1,[0;1]); (n_t1,[2;3])] [0;2;1;3]));
  (*270*) AddTo n_c3 (Plain (Einsum [(n_t1,[0;1]); (T 1,[2;3;4;5])] [0;3;2;1;5;4]));
  (*271*) AddTo n_c3 (Plain (Einsum [(n_t1,[0;1]); (T 1,[2;3;4;5])] [0;3;2;5;4;1]));
  (*272*) AddTo n_c3 (Times (Einsum [(n_t1,[0;1]); (T 1,[2;3;4;5])] [0;3;2;5;1;4]) (-1) 1);
  (*273*) Del (T 1)]
 [(n_c3,[0;0;0;1;1;1])].

(** ebcc/codegen/GecCC.py:277-354 [convert_t4_to_c4] *)
Definition GecCC_convert_t4_to_c4 : prog := mkprog
 [(n_t4,[0;0;0;0;1;1;1;1]); (n_t3,[0;0;0;1;1;1]); (n_t1,[0;1]); (n_t2,[0;0;1;1])]
 [(*290*) Assign n_c4 (Plain (Copy n_t4));
  (*291*) AddTo n_c4 (Times (Einsum [(n_t3,[0;1;2;3;4;5]); (n_t1,[6;7])] [0;1;2;6;7;3;4;5]) (-1) 1);
  (*292*) AddTo n_c4 (Plain (Einsum [(n_t3,[0;1;2;3;4;5]); (n_t1,[6;7])] [0;1;2;6;3;7;4;5]));
  (*293*) AddTo n_c4 (Times (Einsum [(n_t3,[0;1;2;3;4;5]); (n_t1,[6;7])] [0;1;2;6;3;4;7;5]) (-1) 1);
  (*294*) AddTo n_c4 (Plain (Einsum [(n_t3,[0;1;2;3;4;5]); (n_t1,[6;7])] [0;1;2;6;3;4;5;7]));
  (*295*) AddTo n_c4 (Plain (Einsum [(n_t2,[0;1;2;3]); (n_t2,[4;5;6;7])] [4;0;1;5;2;3;6;7]));
  (*296*) AddTo n_c4 (Times (Einsum [(n_t2,[0;1;2;3]); (n_t2,[4;5;6;7])] [4;0;1;5;2;6;3;7]) (-1) 1);
  (*297*) AddTo n_c4 (Plain (Einsum [(n_t2,[0;1;2;3]); (n_t2,[4;5;6;7])] [4;0;1;5;6;2;3;7]));
  (*298*) AddTo n_c4 (Plain (Einsum [(n_t2,[0;1;2;3]); (n_t2,[4;5;6;7])] [4;0;1;5;2;6;7;3]));
  (*299*) AddTo n_c4 (Times (Einsum [(n_t2,[0;1;2;3]); (n_t2,[4;5;6;7])] [0;4;5;1;2;6;3;7]) (-1) 1);
  (*300*) AddTo n_c4 (Plain (Einsum [(n_t2,[0;1;2;3]); (n_t2,[4;5;6;7])] [0;4;5;1;2;3;6;7]));
  (*301*) AddTo n_c4 (Times (Einsum [(n_t2,[0;1;2;3]); (n_t2,[4;5;6;7])] [0;4;1;5;6;7;2;3]) (-1) 1);
  (*302*) AddTo n_c4 (Plain (Einsum [(n_t2,[0;1;2;3]); (n_t2,[4;5;6;7])] [0;4;1;5;6;2;7;3]));
  (*303*) AddTo n_c4 (Times (Einsum [(n_t2,[0;1;2;3]); (n_t2,[4;5;6;7])] [0;4;1;5;2;6;7;3]) (-1) 1);
  (*304*) AddTo n_c4 (Times (Einsum [(n_t2,[0;1;2;3]); (n_t2,[4;5;6;7])] [0;4;1;5;6;2;3;7]) (-1) 1);
  (*305*) AddTo n_c4 (Plain (Einsum [(n_t2,[0;1;2;3]); (n_t2,[4;5;6;7])] [4;0;5;1;6;2;7;3]));
  (*306*) AddTo n_c4 (Times (Einsum [(n_t2,[0;1;2;3]); (n_t2,[4;5;6;7])] [4;0;5;1;6;7;2;3]) (-1) 1);
  (*307*) AddTo n_c4 (Plain (Einsum [(n_t2,[0;1;2;3]); (n_t2,[4;5;6;7])] [4;5;0;1;2;3;6;7]));
  (*308*) AddTo n_c4 (Times (Einsum [(n_t2,[0;1;2;3]); (n_t2,[4;5;6;7])] [4;5;0;1;2;6;3;7]) (-1) 1);
  (*309*) AddTo n_c4 (Plain (Einsum [(n_t2,[0;1;2;3]); (n_t2,[4;5;6;7])] [0;1;4;5;2;6;7;3]));
  (*310*) AddTo n_c4 (Plain (Einsum [(n_t2,[0;1;2;3]); (n_t2,[4;5;6;7])] [0;1;4;5;6;2;3;7]));
  (*311*) AddTo n_c4 (Times (Einsum [(n_t2,[0;1;2;3]); (n_t2,[4;5;6;7])] [4;5;0;1;6;2;7;3]) (-1) 1);
  (*312*) AddTo n_c4 (Plain (Einsum [(n_t2,[0;1;2;3]); (n_t2,[4;5;6;7])] [4;5;0;1;6;7;2;3]));
  (*313*) Assign (T 2) (Plain (Copy n_t3));
  (*314*) AddTo (T 2) (Times (Einsum [(n_t2,[0;1;2;3]); (n_t1,[4;5])] [0;4;1;5;2;3]) (-1) 1);
  (*315*) AddTo (T 2) (Plain (Einsum [(n_t2,[0;1;2;3]); (n_t1,[4;5])] [0;4;1;2;5;3]));
  (*316*) AddTo (T 2) (Times (Einsum [(n_t1,[0;1]); (n_t2,[2;3;4;5])] [2;0;3;4;5;1]) (-1) 1);
  (*317*) AddTo (T 2) (Plain (Einsum [(n_t2,[0;1;2;3]); (n_t1,[4;5])] [0;1;4;5;2;3]));
  (*318*) AddTo (T 2) (Times (Einsum [(n_t2,[0;1;2;3]); (n_t1,[4;5])] [0;1;4;2;5;3]) (-1) 1);
  (*319*) AddTo (T 2) (Plain (Einsum [(n_t2,[0;1;2;3]); (n_t1,[4;5])] [0;1;4;2;3;5]));
  (*320*) Assign (T 1) (Plain (Copy n_t2));
  (*321*) AddTo (T 1) (Times (Einsum [(n_t1,[0;1]); (n_t1,[2;3])] [0;2;3;1]) (-1) 1);
  (*322*) AddTo (T 1) (Plain (Einsum [(n_t1,[0;1]); (n_t1,[2;3])] [0;2;1;3]));
  (*323*) AddTo (T 2) (Plain (Einsum [(n_t1,[0;1]); (T 1,[2;3;4;5])] [0;3;2;1;5;4]));
  (*324*) AddTo (T 2) (Plain (Einsum [(n_t1,[0;1]); (T 1,[2;3;4;5])] [0;3;2;5;4;1]));
  (*325*) AddTo (T 2) (Times (Einsum [(n_t1,[0;1]); (T 1,[2;3;4;5])] [0;3;2;5;1;4]) (-1) 1);
  (*326*) Del (T 1);
  (*327*) AddTo n_c4 (Plain (Einsum [(T 2,[0;1;2;3;4;5]); (n_t1,[6;7])] [6;1;2;0;7;4;5;3]));
  (*328*) AddTo n_c4 (Plain (Einsum [(n_t1,[0;1]); (T 2,[2;3;4;5;6;7])] [0;3;4;2;6;7;1;5]));
  (*329*) AddTo n_c4 (Times (Einsum [(T 2,[0;1;2;3;4;5]); (n_t1,[6;7])] [6;1;2;0;4;7;5;3]) (-1) 1);
  (*330*) AddTo n_c4 (Times (Einsum [(T 2,[0;1;2;3;4;5]); (n_t1,[6;7])] [6;1;2;0;4;5;3;7]) (-1) 1);
  (*331*) Del (T 2);
  (*332*) Assign (T 3) (Plain (Copy n_t3));
  (*333*) AddTo (T 3) (Plain (Einsum [(n_t1,[0;1]); (n_t2,[2;3;4;5])] [0;2;3;1;4;5]));
  (*334*) AddTo (T 3) (Times (Einsum [(n_t1,[0;1]); (n_t2,[2;3;4;5])] [0;2;3;4;1;5]) (-1) 1);
  (*335*) AddTo (T 3) (Plain (Einsum [(n_t1,[0;1]); (n_t2,[2;3;4;5])] [0;2;3;4;5;1]));
  (*336*) AddTo (T 3) (Plain (Einsum [(n_t2,[0;1;2;3]); (n_t1,[4;5])] [0;1;4;5;2;3]));
  (*337*) AddTo (T 3) (Times (Einsum [(n_t2,[0;1;2;3]); (n_t1,[4;5])] [0;1;4;2;5;3]) (-1) 1);
  (*338*) AddTo (T 3) (Plain (Einsum [(n_t2,[0;1;2;3]); (n_t1,[4;5])] [0;1;4;2;3;5]));
  (*339*) AddTo n_c4 (Plain (Einsum [(n_t1,[0;1]); (T 3,[2;3;4;5;6;7])] [3;0;4;2;6;1;7;5]));
  (*340*) AddTo n_c4 (Plain (Einsum [(T 3,[0;1;2;3;4;5]); (n_t1,[6;7])] [1;6;2;0;4;5;3;7]));
  (*341*) AddTo n_c4 (Times (Einsum [(n_t1,[0;1]); (T 3,[2;3;4;5;6;7])] [3;0;4;2;1;6;7;5]) (-1) 1);
  (*342*) AddTo n_c4 (Times (Einsum [(n_t1,[0;1]); (T 3,[2;3;4;5;6;7])] [3;0;4;2;6;7;1;5]) (-1) 1);
  (*343*) Del (T 3);
  (*344*) Assign (T 4) (Plain (Copy n_t3));
  (*345*) AddTo (T 4) (Plain (Einsum [(n_t1,[0;1]); (n_t2,[2;3;4;5])] [0;2;3;1;4;5]));
  (*346*) AddTo (T 4) (Times (Einsum [(n_t1,[0;1]); (n_t2,[2;3;4;5])] [0;2;3;4;1;5]) (-1) 1);
  (*347*) AddTo (T 4) (Plain (Einsum [(n_t1,[0;1]); (n_t2,[2;3;4;5])] [0;2;3;4;5;1]));
  (*348*) AddTo n_c4 (Plain (Einsum [(n_t1,[0;1]); (T 4,[2;3;4;5;6;7])] [3;4;0;2;1;6;7;5]));
  (*349*) AddTo n_c4 (Plain (Einsum [(T 4,[0;1;2;3;4;5]); (n_t1,[6;7])] [1;2;6;0;4;5;7;3]));
  (*350*) AddTo n_c4 (Times (Einsum [(T 4,[0;1;2;3;4;5]); (n_t1,[6;7])] [1;2;6;0;4;7;5;3]) (-1) 1);
  (*351*) AddTo n_c4 (Times (Einsum [(n_t1,[0;1]); (T 4,[2;3;4;5;6;7])] [3;4;0;2;6;7;5;1]) (-1) 1);
  (*352*) Del (T 4)]
 [(n_c4,[0;0;0;0;1;1;1;1])].

