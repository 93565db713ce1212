(** Generated by tools/translate_codegen.py from ebcc/codegen/UecCC.py; one statement per source line
    (the number in the comment before it). *)
From Coq Require Import ZArith List.
From Verif Require Import CgModel CgNames.
Import ListNotations.

(** ebcc/codegen/UecCC.py:17-158 [update_amps_external] *)
Definition UecCC_update_amps_external : prog := mkprog
 [(n_t3'aaaaaa,[10;10;10;11;11;11]); (n_v'aaaa'OVOV,[10;11;10;11]); (n_v'bbbb'OVOV,[12;13;12;13]); (n_t3'babbab,[12;10;12;13;11;13]); (n_v'aabb'OVOV,[10;11;12;13]); (n_t3'abaaba,[10;12;10;11;13;11]); (n_v'aaaa'oOOV,[4;10;10;11]); (n_v'aabb'oOOV,[4;10;12;13]); (n_v'aaaa'OVvV,[10;11;5;11]); (n_v'aabb'vVOV,[5;11;12;13]); (n_v'bbbb'oOOV,[6;12;12;13]); (n_v'aabb'OVoO,[10;11;6;12]); (n_v'aabb'OVvV,[10;11;7;13]); (n_v'bbbb'OVvV,[12;13;7;13]); (n_t3'bbbbbb,[12;12;12;13;13;13]); (n_f'aa'OV,[10;11]); (n_f'bb'OV,[12;13]); (n_t4'aaaaaaaa,[10;10;10;10;11;11;11;11]); (n_t4'abababab,[10;12;10;12;11;13;11;13]); (n_t4'aaabaaab,[10;10;10;12;11;11;11;13]); (n_t4'abbbabbb,[10;12;12;12;11;13;13;13]); (n_t4'bbbbbbbb,[12;12;12;12;13;13;13;13])]
 [(*31*) Assign (T 1) (Times (Einsum [(n_t3'aaaaaa,[0;1;2;3;4;5]); (n_v'aaaa'OVOV,[1;5;2;4])] [0;3]) (-1) 1);
  (*34*) Assign n_t1new'aa'OV (Times (Copy (T 1)) (3) 1);
  (*35*) Del (T 1);
  (*36*) Assign (T 2) (Plain (Einsum [(n_v'bbbb'OVOV,[0;1;2;3]); (n_t3'babbab,[0;4;2;1;5;3])] [4;5]));
  (*37*) AddTo n_t1new'aa'OV (Plain (Copy (T 2)));
  (*38*) Del (T 2);
  (*39*) Assign (T 3) (Plain (Einsum [(n_v'aabb'OVOV,[0;1;2;3]); (n_t3'abaaba,[4;2;0;5;3;1])] [4;5]));
  (*40*) AddTo n_t1new'aa'OV (Times (Copy (T 3)) (2) 1);
  (*41*) Del (T 3);
  (*42*) Assign (T 7) (Times (Einsum [(n_t3'aaaaaa,[0;1;2;3;4;5]); (n_v'aaaa'oOOV,[6;2;1;4])] [0;3;5;6]) (-1) 1);
  (*45*) Assign n_t2new'aaaa'OoVV (Times (Transpose (T 7) [0;3;2;1]) (-6) 1);
  (*46*) Assign (T 8) (Plain (Einsum [(n_v'aabb'oOOV,[0;1;2;3]); (n_t3'abaaba,[4;2;1;5;3;6])] [4;5;6;0]));
  (*47*) AddTo n_t2new'aaaa'OoVV (Times (Transpose (T 8) [0;3;2;1]) (2) 1);
  (*48*) Assign n_t2new'aaaa'oOVV (Times (Transpose (T 7) [3;0;2;1]) (6) 1);
  (*49*) Del (T 7);
  (*50*) AddTo n_t2new'aaaa'oOVV (Times (Transpose (T 8) [3;0;2;1]) (-2) 1);
  (*51*) Del (T 8);
  (*52*) Assign (T 14) (Plain (Einsum [(n_v'aaaa'OVvV,[0;1;2;3]); (n_t3'aaaaaa,[4;5;0;6;1;3])] [4;5;6;2]));
  (*53*) Assign n_t2new'aaaa'OOvV (Times (Transpose (T 14) [0;1;3;2]) (6) 1);
  (*54*) Assign (T 15) (Plain (Einsum [(n_t3'abaaba,[0;1;2;3;4;5]); (n_v'aabb'vVOV,[6;5;1;4])] [0;2;3;6]));
  (*55*) AddTo n_t2new'aaaa'OOvV (Times (Transpose (T 15) [0;1;3;2]) (-2) 1);
  (*56*) Assign n_t2new'aaaa'OOVv (Times (Copy (T 14)) (-6) 1);
  (*57*) Del (T 14);
  (*58*) AddTo n_t2new'aaaa'OOVv (Times (Copy (T 15)) (2) 1);
  (*59*) Del (T 15);
  (*60*) Assign (T 17) (Times (Einsum [(n_v'bbbb'oOOV,[0;1;2;3]); (n_t3'babbab,[2;4;1;3;5;6])] [4;5;6;0]) (-1) 1);
  (*62*) Assign n_t2new'abab'OoVV (Times (Transpose (T 17) [0;3;1;2]) (2) 1);
  (*63*) Del (T 17);
  (*64*) Assign (T 18) (Plain (Einsum [(n_v'aabb'OVoO,[0;1;2;3]); (n_t3'abaaba,[4;3;0;5;6;1])] [4;5;6;2]));
  (*65*) AddTo n_t2new'abab'OoVV (Times (Transpose (T 18) [0;3;1;2]) (-2) 1);
  (*66*) Del (T 18);
  (*67*) Assign (T 26) (Plain (Einsum [(n_v'aabb'OVvV,[0;1;2;3]); (n_t3'abaaba,[4;5;0;6;3;1])] [4;5;6;2]));
  (*68*) Assign n_t2new'abab'OOVv (Times (Copy (T 26)) (2) 1);
  (*69*) Del (T 26);
  (*70*) Assign (T 28) (Times (Einsum [(n_t3'babbab,[0;1;2;3;4;5]); (n_v'bbbb'OVvV,[2;5;6;3])] [1;0;4;6]) (-1) 1);
  (*71*) AddTo n_t2new'abab'OOVv (Times (Copy (T 28)) (-2) 1);
  (*72*) Del (T 28);
  (*73*) Assign (T 20) (Plain (Einsum [(n_t3'abaaba,[0;1;2;3;4;5]); (n_v'aaaa'oOOV,[6;0;2;3])] [1;5;4;6]));
  (*74*) Assign n_t2new'abab'oOVV (Times (Transpose (T 20) [3;0;1;2]) (2) 1);
  (*75*) Del (T 20);
  (*76*) Assign (T 21) (Plain (Einsum [(n_v'aabb'oOOV,[0;1;2;3]); (n_t3'babbab,[4;1;2;5;6;3])] [4;6;5;0]));
  (*77*) AddTo n_t2new'abab'oOVV (Times (Transpose (T 21) [3;0;1;2]) (-2) 1);
  (*78*) Del (T 21);
  (*79*) Assign (T 25) (Times (Einsum [(n_v'aaaa'OVvV,[0;1;2;3]); (n_t3'abaaba,[4;5;0;3;6;1])] [4;5;6;2]) (-1) 1);
  (*80*) Assign n_t2new'abab'OOvV (Times (Transpose (T 25) [0;1;3;2]) (-2) 1);
  (*81*) Del (T 25);
  (*82*) Assign (T 27) (Plain (Einsum [(n_v'aabb'vVOV,[0;1;2;3]); (n_t3'babbab,[4;5;2;6;1;3])] [5;4;6;0]));
  (*83*) AddTo n_t2new'abab'OOvV (Times (Transpose (T 27) [0;1;3;2]) (2) 1);
  (*84*) Del (T 27);
  (*85*) Assign (T 29) (Times (Einsum [(n_v'bbbb'oOOV,[0;1;2;3]); (n_t3'bbbbbb,[4;2;1;5;3;6])] [4;5;6;0]) (-1) 1);
  (*87*) Assign n_t2new'bbbb'OoVV (Times (Transpose (T 29) [0;3;2;1]) (-6) 1);
  (*88*) Assign (T 30) (Plain (Einsum [(n_v'aabb'OVoO,[0;1;2;3]); (n_t3'babbab,[4;0;3;5;1;6])] [4;5;6;2]));
  (*89*) AddTo n_t2new'bbbb'OoVV (Times (Transpose (T 30) [0;3;2;1]) (2) 1);
  (*90*) Assign n_t2new'bbbb'oOVV (Times (Transpose (T 29) [3;0;2;1]) (6) 1);
  (*91*) Del (T 29);
  (*92*) AddTo n_t2new'bbbb'oOVV (Times (Transpose (T 30) [3;0;2;1]) (-2) 1);
  (*93*) Del (T 30);
  (*94*) Assign (T 36) (Plain (Einsum [(n_t3'bbbbbb,[0;1;2;3;4;5]); (n_v'bbbb'OVvV,[2;4;6;5])] [0;1;3;6]));
  (*95*) Assign n_t2new'bbbb'OOvV (Times (Transpose (T 36) [0;1;3;2]) (6) 1);
  (*96*) Assign (T 37) (Plain (Einsum [(n_v'aabb'OVvV,[0;1;2;3]); (n_t3'babbab,[4;0;5;6;1;3])] [4;5;6;2]));
  (*97*) AddTo n_t2new'bbbb'OOvV (Times (Transpose (T 37) [0;1;3;2]) (-2) 1);
  (*98*) Assign n_t2new'bbbb'OOVv (Times (Copy (T 36)) (-6) 1);
  (*99*) Del (T 36);
  (*100*) AddTo n_t2new'bbbb'OOVv (Times (Copy (T 37)) (2) 1);
  (*101*) Del (T 37);
  (*102*) Assign (T 4) (Times (Einsum [(n_t3'abaaba,[0;1;2;3;4;5]); (n_v'aaaa'OVOV,[0;5;2;3])] [1;4]) (-1) 1);
  (*104*) Assign n_t1new'bb'OV (Plain (Copy (T 4)));
  (*105*) Del (T 4);
  (*106*) Assign (T 5) (Times (Einsum [(n_t3'bbbbbb,[0;1;2;3;4;5]); (n_v'bbbb'OVOV,[1;5;2;4])] [0;3]) (-1) 1);
  (*107*) AddTo n_t1new'bb'OV (Times (Copy (T 5)) (3) 1);
  (*108*) Del (T 5);
  (*109*) Assign (T 6) (Plain (Einsum [(n_v'aabb'OVOV,[0;1;2;3]); (n_t3'babbab,[4;0;2;5;1;3])] [4;5]));
  (*110*) AddTo n_t1new'bb'OV (Times (Copy (T 6)) (2) 1);
  (*111*) Del (T 6);
  (*112*) Assign (T 9) (Plain (Einsum [(n_t3'aaaaaa,[0;1;2;3;4;5]); (n_f'aa'OV,[2;5])] [0;1;3;4]));
  (*113*) Assign n_t2new'aaaa'OOVV (Times (Transpose (T 9) [1;0;3;2]) (6) 1);
  (*114*) Del (T 9);
  (*115*) Assign (T 10) (Plain (Einsum [(n_f'bb'OV,[0;1]); (n_t3'abaaba,[2;0;3;4;1;5])] [2;3;4;5]));
  (*116*) AddTo n_t2new'aaaa'OOVV (Times (Transpose (T 10) [1;0;3;2]) (2) 1);
  (*117*) Del (T 10);
  (*118*) Assign (T 11) (Plain (Einsum [(n_v'aaaa'OVOV,[0;1;2;3]); (n_t4'aaaaaaaa,[4;5;0;2;6;7;1;3])] [4;5;6;7]));
  (*119*) AddTo n_t2new'aaaa'OOVV (Times (Transpose (T 11) [0;1;3;2]) (-12) 1);
  (*120*) Del (T 11);
  (*121*) Assign (T 12) (Times (Einsum [(n_v'bbbb'OVOV,[0;1;2;3]); (n_t4'abababab,[4;0;5;2;6;3;7;1])] [4;5;6;7]) (-1) 1);
  (*122*) AddTo n_t2new'aaaa'OOVV (Times (Transpose (T 12) [0;1;3;2]) (-2) 1);
  (*123*) Del (T 12);
  (*124*) Assign (T 13) (Times (Einsum [(n_t4'aaabaaab,[0;1;2;3;4;5;6;7]); (n_v'aabb'OVOV,[2;5;3;7])] [0;1;4;6]) (-1) 1);
  (*125*) AddTo n_t2new'aaaa'OOVV (Times (Transpose (T 13) [0;1;3;2]) (-6) 1);
  (*126*) Del (T 13);
  (*127*) Assign (T 16) (Plain (Einsum [(n_f'bb'OV,[0;1]); (n_t3'babbab,[2;3;0;4;5;1])] [3;2;5;4]));
  (*128*) Assign n_t2new'abab'OOVV (Times (Copy (T 16)) (2) 1);
  (*129*) Del (T 16);
  (*130*) Assign (T 19) (Plain (Einsum [(n_f'aa'OV,[0;1]); (n_t3'abaaba,[2;3;0;4;5;1])] [2;3;4;5]));
  (*131*) AddTo n_t2new'abab'OOVV (Times (Copy (T 19)) (2) 1);
  (*132*) Del (T 19);
  (*133*) Assign (T 22) (Times (Einsum [(n_v'aaaa'OVOV,[0;1;2;3]); (n_t4'aaabaaab,[4;0;2;5;6;3;1;7])] [4;5;6;7]) (-1) 1);
  (*134*) AddTo n_t2new'abab'OOVV (Times (Copy (T 22)) (3) 1);
  (*135*) Del (T 22);
  (*136*) Assign (T 23) (Times (Einsum [(n_t4'abbbabbb,[0;1;2;3;4;5;6;7]); (n_v'bbbb'OVOV,[2;7;3;6])] [0;1;4;5]) (-1) 1);
  (*137*) AddTo n_t2new'abab'OOVV (Times (Copy (T 23)) (3) 1);
  (*138*) Del (T 23);
  (*139*) Assign (T 24) (Plain (Einsum [(n_v'aabb'OVOV,[0;1;2;3]); (n_t4'abababab,[4;5;0;2;6;7;1;3])] [4;5;6;7]));
  (*140*) AddTo n_t2new'abab'OOVV (Times (Copy (T 24)) (4) 1);
  (*141*) Del (T 24);
  (*142*) Assign (T 31) (Plain (Einsum [(n_f'aa'OV,[0;1]); (n_t3'babbab,[2;0;3;4;1;5])] [2;3;4;5]));
  (*143*) Assign n_t2new'bbbb'OOVV (Times (Transpose (T 31) [1;0;3;2]) (2) 1);
  (*144*) Del (T 31);
  (*145*) Assign (T 32) (Plain (Einsum [(n_f'bb'OV,[0;1]); (n_t3'bbbbbb,[2;3;0;4;5;1])] [2;3;4;5]));
  (*146*) AddTo n_t2new'bbbb'OOVV (Times (Transpose (T 32) [1;0;3;2]) (6) 1);
  (*147*) Del (T 32);
  (*148*) Assign (T 33) (Plain (Einsum [(n_v'aaaa'OVOV,[0;1;2;3]); (n_t4'abababab,[0;4;2;5;3;6;1;7])] [4;5;7;6]));
  (*149*) AddTo n_t2new'bbbb'OOVV (Times (Transpose (T 33) [0;1;3;2]) (-2) 1);
  (*150*) Del (T 33);
  (*151*) Assign (T 34) (Times (Einsum [(n_v'bbbb'OVOV,[0;1;2;3]); (n_t4'bbbbbbbb,[4;5;0;2;6;7;3;1])] [4;5;6;7]) (-1) 1);
  (*152*) AddTo n_t2new'bbbb'OOVV (Times (Transpose (T 34) [0;1;3;2]) (-12) 1);
  (*153*) Del (T 34);
  (*154*) Assign (T 35) (Times (Einsum [(n_v'aabb'OVOV,[0;1;2;3]); (n_t4'abbbabbb,[0;4;5;2;1;6;3;7])] [4;5;6;7]) (-1) 1);
  (*155*) AddTo n_t2new'bbbb'OOVV (Times (Transpose (T 35) [0;1;3;2]) (-6) 1);
  (*156*) Del (T 35)]
 [(n_t1new'aa'OV,[10;11]); (n_t1new'bb'OV,[12;13]); (n_t2new'aaaa'OoVV,[10;4;11;11]); (n_t2new'aaaa'oOVV,[4;10;11;11]); (n_t2new'aaaa'OOvV,[10;10;5;11]); (n_t2new'aaaa'OOVv,[10;10;11;5]); (n_t2new'abab'OoVV,[10;6;11;13]); (n_t2new'abab'OOVv,[10;12;11;7]); (n_t2new'abab'oOVV,[4;12;11;13]); (n_t2new'abab'OOvV,[10;12;5;13]); (n_t2new'bbbb'OoVV,[12;6;13;13]); (n_t2new'bbbb'oOVV,[6;12;13;13]); (n_t2new'bbbb'OOvV,[12;12;7;13]); (n_t2new'bbbb'OOVv,[12;12;13;7]); (n_t2new'aaaa'OOVV,[10;10;11;11]); (n_t2new'abab'OOVV,[10;12;11;13]); (n_t2new'bbbb'OOVV,[12;12;13;13])].

(** ebcc/codegen/UecCC.py:160-323 [update_amps_mixed] *)
Definition UecCC_update_amps_mixed : prog := mkprog
 [(n_v'aaaa'oVOV,[4;11;10;11]); (n_t3'aaaaaa,[10;10;10;11;11;11]); (n_t1'aa,[4;5]); (n_v'aabb'oVOV,[4;11;12;13]); (n_t3'abaaba,[10;12;10;11;13;11]); (n_v'aaaa'OVOv,[10;11;10;5]); (n_v'aabb'OvOV,[10;5;12;13]); (n_v'aabb'OVoV,[10;11;6;13]); (n_t1'bb,[6;7]); (n_v'bbbb'oVOV,[6;13;12;13]); (n_t3'babbab,[12;10;12;13;11;13]); (n_v'bbbb'OVOv,[12;13;12;7]); (n_v'aabb'OVOv,[10;11;12;7]); (n_t3'bbbbbb,[12;12;12;13;13;13]); (n_v'aaaa'oVOv,[4;11;10;5]); (n_v'aaaa'ovOV,[4;5;10;11]); (n_v'bbbb'oVOv,[6;13;12;7]); (n_v'bbbb'ovOV,[6;7;12;13]); (n_v'aabb'OVov,[10;11;6;7]); (n_v'aabb'ovOV,[4;5;12;13])]
 [(*172*) Assign (T 13) (Plain (Einsum [(n_v'aaaa'oVOV,[0;1;2;3]); (n_t3'aaaaaa,[4;5;2;6;3;1])] [4;5;6;0]));
  (*173*) Assign (T 14) (Plain (Einsum [(T 13,[0;1;2;3]); (n_t1'aa,[3;4])] [0;1;2;4]));
  (*174*) Del (T 13);
  (*177*) Assign n_t2new'aaaa'OOvV (Times (Transpose (T 14) [0;1;3;2]) (-6) 1);
  (*178*) Assign (T 15) (Plain (Einsum [(n_v'aabb'oVOV,[0;1;2;3]); (n_t3'abaaba,[4;2;5;6;3;1])] [4;5;6;0]));
  (*179*) Assign (T 16) (Plain (Einsum [(n_t1'aa,[0;1]); (T 15,[2;3;4;0])] [2;3;4;1]));
  (*180*) Del (T 15);
  (*181*) AddTo n_t2new'aaaa'OOvV (Times (Transpose (T 16) [0;1;3;2]) (2) 1);
  (*182*) Assign n_t2new'aaaa'OOVv (Times (Copy (T 14)) (6) 1);
  (*183*) Del (T 14);
  (*184*) AddTo n_t2new'aaaa'OOVv (Times (Copy (T 16)) (-2) 1);
  (*185*) Del (T 16);
  (*186*) Assign (T 17) (Plain (Einsum [(n_v'aaaa'OVOv,[0;1;2;3]); (n_t1'aa,[4;3])] [0;2;1;4]));
  (*187*) Assign (T 18) (Times (Einsum [(n_t3'aaaaaa,[0;1;2;3;4;5]); (T 17,[1;2;4;6])] [0;3;5;6]) (-1) 1);
  (*188*) Assign n_t2new'aaaa'OoVV (Times (Transpose (T 18) [0;3;2;1]) (-6) 1);
  (*189*) Assign (T 19) (Plain (Einsum [(n_t1'aa,[0;1]); (n_v'aabb'OvOV,[2;1;3;4])] [2;3;4;0]));
  (*190*) Assign (T 20) (Plain (Einsum [(n_t3'abaaba,[0;1;2;3;4;5]); (T 19,[2;1;4;6])] [0;3;5;6]));
  (*191*) AddTo n_t2new'aaaa'OoVV (Times (Transpose (T 20) [0;3;2;1]) (2) 1);
  (*192*) Assign n_t2new'aaaa'oOVV (Times (Transpose (T 18) [3;0;2;1]) (6) 1);
  (*193*) Del (T 18);
  (*194*) AddTo n_t2new'aaaa'oOVV (Times (Transpose (T 20) [3;0;2;1]) (-2) 1);
  (*195*) Del (T 20);
  (*196*) Assign (T 29) (Plain (Einsum [(n_v'aabb'OVoV,[0;1;2;3]); (n_t3'abaaba,[4;5;0;6;3;1])] [4;5;6;2]));
  (*197*) Assign (T 30) (Plain (Einsum [(T 29,[0;1;2;3]); (n_t1'bb,[3;4])] [0;1;2;4]));
  (*198*) Del (T 29);
  (*200*) Assign n_t2new'abab'OOVv (Times (Copy (T 30)) (-2) 1);
  (*201*) Del (T 30);
  (*202*) Assign (T 39) (Times (Einsum [(n_v'bbbb'oVOV,[0;1;2;3]); (n_t3'babbab,[4;5;2;1;6;3])] [5;4;6;0]) (-1) 1);
  (*203*) Assign (T 40) (Plain (Einsum [(n_t1'bb,[0;1]); (T 39,[2;3;4;0])] [2;3;4;1]));
  (*204*) Del (T 39);
  (*205*) AddTo n_t2new'abab'OOVv (Times (Copy (T 40)) (2) 1);
  (*206*) Del (T 40);
  (*207*) Assign (T 31) (Plain (Einsum [(n_t1'bb,[0;1]); (n_v'bbbb'OVOv,[2;3;4;1])] [2;4;3;0]));
  (*208*) Assign (T 32) (Times (Einsum [(T 31,[0;1;2;3]); (n_t3'babbab,[0;4;1;2;5;6])] [4;5;6;3]) (-1) 1);
  (*209*) Assign n_t2new'abab'OoVV (Times (Transpose (T 32) [0;3;1;2]) (2) 1);
  (*210*) Del (T 32);
  (*211*) Assign (T 33) (Plain (Einsum [(n_v'aabb'OVOv,[0;1;2;3]); (n_t1'bb,[4;3])] [0;2;1;4]));
  (*212*) Assign (T 34) (Plain (Einsum [(T 33,[0;1;2;3]); (n_t3'abaaba,[4;1;0;5;6;2])] [4;5;6;3]));
  (*213*) AddTo n_t2new'abab'OoVV (Times (Transpose (T 34) [0;3;1;2]) (-2) 1);
  (*214*) Del (T 34);
  (*215*) Assign (T 35) (Plain (Einsum [(n_t3'abaaba,[0;1;2;3;4;5]); (T 17,[2;0;3;6])] [1;5;4;6]));
  (*216*) Del (T 17);
  (*217*) Assign n_t2new'abab'oOVV (Times (Transpose (T 35) [3;0;1;2]) (2) 1);
  (*218*) Del (T 35);
  (*219*) Assign (T 36) (Plain (Einsum [(T 19,[0;1;2;3]); (n_t3'babbab,[4;0;1;5;6;2])] [4;6;5;3]));
  (*220*) Del (T 19);
  (*221*) AddTo n_t2new'abab'oOVV (Times (Transpose (T 36) [3;0;1;2]) (-2) 1);
  (*222*) Del (T 36);
  (*223*) Assign (T 51) (Times (Einsum [(T 31,[0;1;2;3]); (n_t3'bbbbbb,[4;0;1;5;2;6])] [4;5;6;3]) (-1) 1);
  (*224*) Del (T 31);
  (*226*) Assign n_t2new'bbbb'OoVV (Times (Transpose (T 51) [0;3;2;1]) (-6) 1);
  (*227*) Assign (T 52) (Plain (Einsum [(n_t3'babbab,[0;1;2;3;4;5]); (T 33,[1;2;4;6])] [0;3;5;6]));
  (*228*) Del (T 33);
  (*229*) AddTo n_t2new'bbbb'OoVV (Times (Transpose (T 52) [0;3;2;1]) (2) 1);
  (*230*) Assign n_t2new'bbbb'oOVV (Times (Transpose (T 51) [3;0;2;1]) (6) 1);
  (*231*) Del (T 51);
  (*232*) AddTo n_t2new'bbbb'oOVV (Times (Transpose (T 52) [3;0;2;1]) (-2) 1);
  (*233*) Del (T 52);
  (*234*) Assign (T 27) (Times (Einsum [(n_t3'abaaba,[0;1;2;3;4;5]); (n_v'aaaa'oVOV,[6;3;2;5])] [0;1;4;6]) (-1) 1);
  (*235*) Assign (T 28) (Plain (Einsum [(T 27,[0;1;2;3]); (n_t1'aa,[3;4])] [0;1;2;4]));
  (*236*) Del (T 27);
  (*237*) Assign n_t2new'abab'OOvV (Times (Transpose (T 28) [0;1;3;2]) (2) 1);
  (*238*) Del (T 28);
  (*239*) Assign (T 37) (Plain (Einsum [(n_t3'babbab,[0;1;2;3;4;5]); (n_v'aabb'oVOV,[6;4;2;5])] [1;0;3;6]));
  (*240*) Assign (T 38) (Plain (Einsum [(T 37,[0;1;2;3]); (n_t1'aa,[3;4])] [0;1;2;4]));
  (*241*) Del (T 37);
  (*242*) AddTo n_t2new'abab'OOvV (Times (Transpose (T 38) [0;1;3;2]) (-2) 1);
  (*243*) Del (T 38);
  (*244*) Assign (T 47) (Plain (Einsum [(n_t3'bbbbbb,[0;1;2;3;4;5]); (n_v'bbbb'oVOV,[6;5;2;4])] [0;1;3;6]));
  (*245*) Assign (T 48) (Plain (Einsum [(n_t1'bb,[0;1]); (T 47,[2;3;4;0])] [2;3;4;1]));
  (*246*) Del (T 47);
  (*247*) Assign n_t2new'bbbb'OOvV (Times (Transpose (T 48) [0;1;3;2]) (-6) 1);
  (*248*) Assign (T 49) (Plain (Einsum [(n_v'aabb'OVoV,[0;1;2;3]); (n_t3'babbab,[4;0;5;6;1;3])] [4;5;6;2]));
  (*249*) Assign (T 50) (Plain (Einsum [(n_t1'bb,[0;1]); (T 49,[2;3;4;0])] [2;3;4;1]));
  (*250*) Del (T 49);
  (*251*) AddTo n_t2new'bbbb'OOvV (Times (Transpose (T 50) [0;1;3;2]) (2) 1);
  (*252*) Assign n_t2new'bbbb'OOVv (Times (Copy (T 48)) (6) 1);
  (*253*) Del (T 48);
  (*254*) AddTo n_t2new'bbbb'OOVv (Times (Copy (T 50)) (-2) 1);
  (*255*) Del (T 50);
  (*256*) Assign (T 1) (Plain (Einsum [(n_v'aaaa'oVOv,[0;1;2;3]); (n_t1'aa,[0;3])] [2;1]));
  (*257*) Assign (T 2) (Times (Einsum [(T 1,[0;1]); (n_t3'aaaaaa,[2;3;0;4;1;5])] [2;3;4;5]) (-1) 1);
  (*258*) Assign n_t2new'aaaa'OOVV (Times (Transpose (T 2) [0;1;3;2]) (6) 1);
  (*259*) Del (T 2);
  (*260*) Assign (T 3) (Plain (Einsum [(n_v'aaaa'ovOV,[0;1;2;3]); (n_t1'aa,[0;1])] [2;3]));
  (*261*) Assign (T 4) (Times (Einsum [(n_t3'aaaaaa,[0;1;2;3;4;5]); (T 3,[2;4])] [0;1;3;5]) (-1) 1);
  (*262*) AddTo n_t2new'aaaa'OOVV (Times (Transpose (T 4) [0;1;3;2]) (-6) 1);
  (*263*) Del (T 4);
  (*264*) Assign (T 5) (Plain (Einsum [(n_v'bbbb'oVOv,[0;1;2;3]); (n_t1'bb,[0;3])] [2;1]));
  (*265*) Assign (T 6) (Times (Einsum [(T 5,[0;1]); (n_t3'abaaba,[2;0;3;4;1;5])] [2;3;5;4]) (-1) 1);
  (*266*) AddTo n_t2new'aaaa'OOVV (Times (Transpose (T 6) [0;1;3;2]) (2) 1);
  (*267*) Del (T 6);
  (*268*) Assign (T 7) (Plain (Einsum [(n_t1'bb,[0;1]); (n_v'bbbb'ovOV,[0;1;2;3])] [2;3]));
  (*269*) Assign (T 8) (Times (Einsum [(T 7,[0;1]); (n_t3'abaaba,[2;0;3;4;1;5])] [2;3;5;4]) (-1) 1);
  (*270*) AddTo n_t2new'aaaa'OOVV (Times (Transpose (T 8) [0;1;3;2]) (-2) 1);
  (*271*) Del (T 8);
  (*272*) Assign (T 9) (Plain (Einsum [(n_v'aabb'OVov,[0;1;2;3]); (n_t1'bb,[2;3])] [0;1]));
  (*273*) Assign (T 10) (Times (Einsum [(n_t3'aaaaaa,[0;1;2;3;4;5]); (T 9,[2;4])] [0;1;3;5]) (-1) 1);
  (*274*) AddTo n_t2new'aaaa'OOVV (Times (Transpose (T 10) [0;1;3;2]) (-6) 1);
  (*275*) Del (T 10);
  (*276*) Assign (T 11) (Plain (Einsum [(n_v'aabb'ovOV,[0;1;2;3]); (n_t1'aa,[0;1])] [2;3]));
  (*277*) Assign (T 12) (Times (Einsum [(T 11,[0;1]); (n_t3'abaaba,[2;0;3;4;1;5])] [2;3;5;4]) (-1) 1);
  (*278*) AddTo n_t2new'aaaa'OOVV (Times (Transpose (T 12) [0;1;3;2]) (-2) 1);
  (*279*) Del (T 12);
  (*280*) Assign (T 21) (Plain (Einsum [(T 5,[0;1]); (n_t3'babbab,[2;3;0;4;5;1])] [3;2;5;4]));
  (*281*) Assign n_t2new'abab'OOVV (Times (Copy (T 21)) (-2) 1);
  (*282*) Del (T 21);
  (*283*) Assign (T 22) (Plain (Einsum [(n_t3'babbab,[0;1;2;3;4;5]); (T 7,[2;5])] [1;0;4;3]));
  (*284*) AddTo n_t2new'abab'OOVV (Times (Copy (T 22)) (2) 1);
  (*285*) Del (T 22);
  (*286*) Assign (T 23) (Plain (Einsum [(T 11,[0;1]); (n_t3'babbab,[2;3;0;4;5;1])] [3;2;5;4]));
  (*287*) AddTo n_t2new'abab'OOVV (Times (Copy (T 23)) (2) 1);
  (*288*) Del (T 23);
  (*289*) Assign (T 24) (Plain (Einsum [(n_t3'abaaba,[0;1;2;3;4;5]); (T 1,[2;5])] [0;1;3;4]));
  (*290*) AddTo n_t2new'abab'OOVV (Times (Copy (T 24)) (-2) 1);
  (*291*) Del (T 24);
  (*292*) Assign (T 25) (Plain (Einsum [(T 3,[0;1]); (n_t3'abaaba,[2;3;0;4;5;1])] [2;3;4;5]));
  (*293*) AddTo n_t2new'abab'OOVV (Times (Copy (T 25)) (2) 1);
  (*294*) Del (T 25);
  (*295*) Assign (T 26) (Plain (Einsum [(n_t3'abaaba,[0;1;2;3;4;5]); (T 9,[2;5])] [0;1;3;4]));
  (*296*) AddTo n_t2new'abab'OOVV (Times (Copy (T 26)) (2) 1);
  (*297*) Del (T 26);
  (*298*) Assign (T 41) (Times (Einsum [(T 1,[0;1]); (n_t3'babbab,[2;0;3;4;1;5])] [2;3;5;4]) (-1) 1);
  (*299*) Del (T 1);
  (*300*) Assign n_t2new'bbbb'OOVV (Times (Transpose (T 41) [0;1;3;2]) (2) 1);
  (*301*) Del (T 41);
  (*302*) Assign (T 42) (Times (Einsum [(n_t3'babbab,[0;1;2;3;4;5]); (T 3,[1;4])] [0;2;5;3]) (-1) 1);
  (*303*) Del (T 3);
  (*304*) AddTo n_t2new'bbbb'OOVV (Times (Transpose (T 42) [0;1;3;2]) (-2) 1);
  (*305*) Del (T 42);
  (*306*) Assign (T 43) (Times (Einsum [(n_t3'bbbbbb,[0;1;2;3;4;5]); (T 5,[2;4])] [0;1;3;5]) (-1) 1);
  (*307*) Del (T 5);
  (*308*) AddTo n_t2new'bbbb'OOVV (Times (Transpose (T 43) [0;1;3;2]) (6) 1);
  (*309*) Del (T 43);
  (*310*) Assign (T 44) (Times (Einsum [(T 7,[0;1]); (n_t3'bbbbbb,[2;3;0;4;1;5])] [2;3;4;5]) (-1) 1);
  (*311*) Del (T 7);
  (*312*) AddTo n_t2new'bbbb'OOVV (Times (Transpose (T 44) [0;1;3;2]) (-6) 1);
  (*313*) Del (T 44);
  (*314*) Assign (T 45) (Times (Einsum [(n_t3'babbab,[0;1;2;3;4;5]); (T 9,[1;4])] [0;2;5;3]) (-1) 1);
  (*315*) Del (T 9);
  (*316*) AddTo n_t2new'bbbb'OOVV (Times (Transpose (T 45) [0;1;3;2]) (-2) 1);
  (*317*) Del (T 45);
  (*318*) Assign (T 46) (Times (Einsum [(n_t3'bbbbbb,[0;1;2;3;4;5]); (T 11,[2;4])] [0;1;3;5]) (-1) 1);
  (*319*) Del (T 11);
  (*320*) AddTo n_t2new'bbbb'OOVV (Times (Transpose (T 46) [0;1;3;2]) (-6) 1);
  (*321*) Del (T 46)]
 [(n_t2new'aaaa'OOvV,[10;10;5;11]); (n_t2new'aaaa'OOVv,[10;10;11;5]); (n_t2new'aaaa'OoVV,[10;4;11;11]); (n_t2new'aaaa'oOVV,[4;10;11;11]); (n_t2new'abab'OOVv,[10;12;11;7]); (n_t2new'abab'OoVV,[10;6;11;13]); (n_t2new'abab'oOVV,[4;12;11;13]); (n_t2new'bbbb'OoVV,[12;6;13;13]); (n_t2new'bbbb'oOVV,[6;12;13;13]); (n_t2new'abab'OOvV,[10;12;5;13]); (n_t2new'bbbb'OOvV,[12;12;7;13]); (n_t2new'bbbb'OOVv,[12;12;13;7]); (n_t2new'aaaa'OOVV,[10;10;11;11]); (n_t2new'abab'OOVV,[10;12;11;13]); (n_t2new'bbbb'OOVV,[12;12;13;13])].

(** ebcc/codegen/UecCC.py:325-339 [convert_c1_to_t1] *)
Definition UecCC_convert_c1_to_t1 : prog := mkprog
 [(n_c1'aa,[4;5]); (n_c1'bb,[6;7])]
 [(*336*) Assign n_t1'aa (Plain (Copy n_c1'aa));
  (*337*) Assign n_t1'bb (Plain (Copy n_c1'bb))]
 [(n_t1'aa,[4;5]); (n_t1'bb,[6;7])].

(** ebcc/codegen/UecCC.py:341-362 [convert_c2_to_t2] *)
Definition UecCC_convert_c2_to_t2 : prog := mkprog
 [(n_c2'aaaa,[4;4;5;5]); (n_t1'aa,[4;5]); (n_c2'abab,[4;6;5;7]); (n_t1'bb,[6;7]); (n_c2'bbbb,[6;6;7;7])]
 [(*353*) Assign n_t2'aaaa (Plain (Copy n_c2'aaaa));
  (*354*) AddTo n_t2'aaaa (Times (Einsum [(n_t1'aa,[0;1]); (n_t1'aa,[2;3])] [2;0;3;1]) (-1) 1);
  (*355*) AddTo n_t2'aaaa (Plain (Einsum [(n_t1'aa,[0;1]); (n_t1'aa,[2;3])] [2;0;1;3]));
  (*356*) Assign n_t2'abab (Plain (Copy n_c2'abab));
  (*357*) AddTo n_t2'abab (Times (Einsum [(n_t1'bb,[0;1]); (n_t1'aa,[2;3])] [2;0;3;1]) (-1) 1);
  (*358*) Assign n_t2'bbbb (Plain (Copy n_c2'bbbb));
  (*359*) AddTo n_t2'bbbb (Times (Einsum [(n_t1'bb,[0;1]); (n_t1'bb,[2;3])] [2;0;3;1]) (-1) 1);
  (*360*) AddTo n_t2'bbbb (Plain (Einsum [(n_t1'bb,[0;1]); (n_t1'bb,[2;3])] [2;0;1;3]))]
 [(n_t2'aaaa,[4;4;5;5]); (n_t2'abab,[4;6;5;7]); (n_t2'bbbb,[6;6;7;7])].

(** ebcc/codegen/UecCC.py:364-430 [convert_c3_to_t3] *)
Definition UecCC_convert_c3_to_t3 : prog := mkprog
 [(n_c3'aaaaaa,[4;4;4;5;5;5]); (n_t2'aaaa,[4;4;5;5]); (n_t1'aa,[4;5]); (n_c3'abaaba,[4;6;4;5;7;5]); (n_t2'abab,[4;6;5;7]); (n_t1'bb,[6;7]); (n_c3'bbbbbb,[6;6;6;7;7;7]); (n_t2'bbbb,[6;6;7;7]); (n_c3'babbab,[6;4;6;7;5;7])]
 [(*377*) Assign n_t3'aaaaaa (Times (Copy n_c3'aaaaaa) (1) 2);
  (*378*) AddTo n_t3'aaaaaa (Times (Copy n_c3'aaaaaa) (1) 2);
  (*379*) AddTo n_t3'aaaaaa (Times (Einsum [(n_t2'aaaa,[0;1;2;3]); (n_t1'aa,[4;5])] [4;0;1;5;2;3]) (-1) 1);
  (*380*) AddTo n_t3'aaaaaa (Plain (Einsum [(n_t2'aaaa,[0;1;2;3]); (n_t1'aa,[4;5])] [4;0;1;2;5;3]));
  (*381*) AddTo n_t3'aaaaaa (Times (Einsum [(n_t2'aaaa,[0;1;2;3]); (n_t1'aa,[4;5])] [4;0;1;2;3;5]) (-1) 1);
  (*382*) AddTo n_t3'aaaaaa (Plain (Einsum [(n_t1'aa,[0;1]); (n_t2'aaaa,[2;3;4;5])] [2;0;3;1;4;5]));
  (*383*) AddTo n_t3'aaaaaa (Times (Einsum [(n_t1'aa,[0;1]); (n_t2'aaaa,[2;3;4;5])] [2;0;3;4;1;5]) (-1) 1);
  (*384*) AddTo n_t3'aaaaaa (Plain (Einsum [(n_t1'aa,[0;1]); (n_t2'aaaa,[2;3;4;5])] [2;0;3;4;5;1]));
  (*385*) AddTo n_t3'aaaaaa (Times (Einsum [(n_t2'aaaa,[0;1;2;3]); (n_t1'aa,[4;5])] [0;1;4;5;2;3]) (-1) 1);
  (*386*) AddTo n_t3'aaaaaa (Plain (Einsum [(n_t1'aa,[0;1]); (n_t2'aaaa,[2;3;4;5])] [2;3;0;4;1;5]));
  (*387*) AddTo n_t3'aaaaaa (Times (Einsum [(n_t2'aaaa,[0;1;2;3]); (n_t1'aa,[4;5])] [0;1;4;2;3;5]) (-1) 1);
  (*388*) AddTo n_t3'aaaaaa (Times (Einsum [(n_t1'aa,[0;1]); (n_t1'aa,[2;3]); (n_t1'aa,[4;5])] [2;0;4;3;1;5]) (-1) 1);
  (*389*) AddTo n_t3'aaaaaa (Plain (Einsum [(n_t1'aa,[0;1]); (n_t1'aa,[2;3]); (n_t1'aa,[4;5])] [2;4;0;3;1;5]));
  (*390*) AddTo n_t3'aaaaaa (Plain (Einsum [(n_t1'aa,[0;1]); (n_t1'aa,[2;3]); (n_t1'aa,[4;5])] [4;0;2;1;5;3]));
  (*391*) AddTo n_t3'aaaaaa (Times (Einsum [(n_t1'aa,[0;1]); (n_t1'aa,[2;3]); (n_t1'aa,[4;5])] [4;2;0;1;5;3]) (-1) 1);
  (*392*) AddTo n_t3'aaaaaa (Times (Einsum [(n_t1'aa,[0;1]); (n_t1'aa,[2;3]); (n_t1'aa,[4;5])] [0;4;2;5;3;1]) (-1) 1);
  (*393*) AddTo n_t3'aaaaaa (Plain (Einsum [(n_t1'aa,[0;1]); (n_t1'aa,[2;3]); (n_t1'aa,[4;5])] [2;0;4;5;1;3]));
  (*394*) Assign n_t3'abaaba (Times (Copy n_c3'abaaba) (1) 2);
  (*395*) AddTo n_t3'abaaba (Times (Copy n_c3'abaaba) (1) 2);
  (*396*) AddTo n_t3'abaaba (Times (Einsum [(n_t1'aa,[0;1]); (n_t2'abab,[2;3;4;5])] [0;3;2;1;5;4]) (-1) 1);
  (*397*) AddTo n_t3'abaaba (Plain (Einsum [(n_t2'abab,[0;1;2;3]); (n_t1'aa,[4;5])] [4;1;0;2;3;5]));
  (*398*) AddTo n_t3'abaaba (Times (Einsum [(n_t1'bb,[0;1]); (n_t2'aaaa,[2;3;4;5])] [2;0;3;4;1;5]) (-1) 1);
  (*399*) AddTo n_t3'abaaba (Plain (Einsum [(n_t2'abab,[0;1;2;3]); (n_t1'aa,[4;5])] [0;1;4;5;3;2]));
  (*400*) AddTo n_t3'abaaba (Times (Einsum [(n_t1'aa,[0;1]); (n_t2'abab,[2;3;4;5])] [2;3;0;4;5;1]) (-1) 1);
  (*401*) AddTo n_t3'abaaba (Times (Einsum [(n_t1'aa,[0;1]); (n_t1'bb,[2;3]); (n_t1'aa,[4;5])] [4;2;0;5;3;1]) (-1) 1);
  (*402*) AddTo n_t3'abaaba (Plain (Einsum [(n_t1'bb,[0;1]); (n_t1'aa,[2;3]); (n_t1'aa,[4;5])] [4;0;2;3;1;5]));
  (*403*) Assign n_t3'bbbbbb (Times (Copy n_c3'bbbbbb) (1) 2);
  (*404*) AddTo n_t3'bbbbbb (Times (Copy n_c3'bbbbbb) (1) 2);
  (*405*) AddTo n_t3'bbbbbb (Times (Einsum [(n_t2'bbbb,[0;1;2;3]); (n_t1'bb,[4;5])] [4;0;1;5;2;3]) (-1) 1);
  (*406*) AddTo n_t3'bbbbbb (Plain (Einsum [(n_t2'bbbb,[0;1;2;3]); (n_t1'bb,[4;5])] [4;0;1;2;5;3]));
  (*407*) AddTo n_t3'bbbbbb (Times (Einsum [(n_t1'bb,[0;1]); (n_t2'bbbb,[2;3;4;5])] [0;2;3;4;5;1]) (-1) 1);
  (*408*) AddTo n_t3'bbbbbb (Plain (Einsum [(n_t1'bb,[0;1]); (n_t2'bbbb,[2;3;4;5])] [2;0;3;1;4;5]));
  (*409*) AddTo n_t3'bbbbbb (Times (Einsum [(n_t2'bbbb,[0;1;2;3]); (n_t1'bb,[4;5])] [0;4;1;2;5;3]) (-1) 1);
  (*410*) AddTo n_t3'bbbbbb (Plain (Einsum [(n_t1'bb,[0;1]); (n_t2'bbbb,[2;3;4;5])] [2;0;3;4;5;1]));
  (*411*) AddTo n_t3'bbbbbb (Times (Einsum [(n_t2'bbbb,[0;1;2;3]); (n_t1'bb,[4;5])] [0;1;4;5;2;3]) (-1) 1);
  (*412*) AddTo n_t3'bbbbbb (Plain (Einsum [(n_t1'bb,[0;1]); (n_t2'bbbb,[2;3;4;5])] [2;3;0;4;1;5]));
  (*413*) AddTo n_t3'bbbbbb (Times (Einsum [(n_t2'bbbb,[0;1;2;3]); (n_t1'bb,[4;5])] [0;1;4;2;3;5]) (-1) 1);
  (*414*) AddTo n_t3'bbbbbb (Times (Einsum [(n_t1'bb,[0;1]); (n_t1'bb,[2;3]); (n_t1'bb,[4;5])] [4;0;2;5;1;3]) (-1) 1);
  (*415*) AddTo n_t3'bbbbbb (Plain (Einsum [(n_t1'bb,[0;1]); (n_t1'bb,[2;3]); (n_t1'bb,[4;5])] [4;0;2;5;3;1]));
  (*416*) AddTo n_t3'bbbbbb (Plain (Einsum [(n_t1'bb,[0;1]); (n_t1'bb,[2;3]); (n_t1'bb,[4;5])] [2;0;4;1;3;5]));
  (*417*) AddTo n_t3'bbbbbb (Times (Einsum [(n_t1'bb,[0;1]); (n_t1'bb,[2;3]); (n_t1'bb,[4;5])] [4;0;2;3;5;1]) (-1) 1);
  (*418*) AddTo n_t3'bbbbbb (Times (Einsum [(n_t1'bb,[0;1]); (n_t1'bb,[2;3]); (n_t1'bb,[4;5])] [2;0;4;1;5;3]) (-1) 1);
  (*419*) AddTo n_t3'bbbbbb (Plain (Einsum [(n_t1'bb,[0;1]); (n_t1'bb,[2;3]); (n_t1'bb,[4;5])] [4;0;2;3;1;5]));
  (*420*) Assign n_t3'babbab (Times (Copy n_c3'babbab) (1) 2);
  (*421*) AddTo n_t3'babbab (Times (Copy n_c3'babbab) (1) 2);
  (*422*) AddTo n_t3'babbab (Times (Einsum [(n_t2'abab,[0;1;2;3]); (n_t1'bb,[4;5])] [4;0;1;5;2;3]) (-1) 1);
  (*423*) AddTo n_t3'babbab (Plain (Einsum [(n_t2'abab,[0;1;2;3]); (n_t1'bb,[4;5])] [4;0;1;3;2;5]));
  (*424*) AddTo n_t3'babbab (Times (Einsum [(n_t2'bbbb,[0;1;2;3]); (n_t1'aa,[4;5])] [0;4;1;2;5;3]) (-1) 1);
  (*425*) AddTo n_t3'babbab (Plain (Einsum [(n_t1'bb,[0;1]); (n_t2'abab,[2;3;4;5])] [3;2;0;1;4;5]));
  (*426*) AddTo n_t3'babbab (Times (Einsum [(n_t1'bb,[0;1]); (n_t2'abab,[2;3;4;5])] [3;2;0;5;4;1]) (-1) 1);
  (*427*) AddTo n_t3'babbab (Times (Einsum [(n_t1'bb,[0;1]); (n_t1'bb,[2;3]); (n_t1'aa,[4;5])] [2;4;0;3;5;1]) (-1) 1);
  (*428*) AddTo n_t3'babbab (Plain (Einsum [(n_t1'bb,[0;1]); (n_t1'bb,[2;3]); (n_t1'aa,[4;5])] [2;4;0;1;5;3]))]
 [(n_t3'aaaaaa,[4;4;4;5;5;5]); (n_t3'abaaba,[4;6;4;5;7;5]); (n_t3'bbbbbb,[6;6;6;7;7;7]); (n_t3'babbab,[6;4;6;7;5;7])].

(** ebcc/codegen/UecCC.py:432-922 [convert_c4_to_t4] *)
Definition UecCC_convert_c4_to_t4 : prog := mkprog
 [(n_c4'aaaaaaaa,[4;4;4;4;5;5;5;5]); (n_t3'aaaaaa,[4;4;4;5;5;5]); (n_t1'aa,[4;5]); (n_t2'aaaa,[4;4;5;5]); (n_c4'aaabaaab,[4;4;4;6;5;5;5;7]); (n_t3'abaaba,[4;6;4;5;7;5]); (n_t1'bb,[6;7]); (n_t2'abab,[4;6;5;7]); (n_c4'bbbbbbbb,[6;6;6;6;7;7;7;7]); (n_t3'bbbbbb,[6;6;6;7;7;7]); (n_t2'bbbb,[6;6;7;7]); (n_c4'abababab,[4;6;4;6;5;7;5;7]); (n_t3'babbab,[6;4;6;7;5;7]); (n_c4'abbbabbb,[4;6;6;6;5;7;7;7])]
 [(*446*) Assign n_t4'aaaaaaaa (Times (Transpose n_c4'aaaaaaaa [0;1;2;3;4;5;7;6]) (-1) 2);
  (*447*) AddTo n_t4'aaaaaaaa (Times (Transpose n_c4'aaaaaaaa [0;1;2;3;4;5;7;6]) (-1) 2);
  (*448*) AddTo n_t4'aaaaaaaa (Times (Einsum [(n_t3'aaaaaa,[0;1;2;3;4;5]); (n_t1'aa,[6;7])] [6;0;1;2;7;3;4;5]) (-1) 2);
  (*449*) AddTo n_t4'aaaaaaaa (Times (Einsum [(n_t3'aaaaaa,[0;1;2;3;4;5]); (n_t1'aa,[6;7])] [6;0;1;2;7;3;4;5]) (-1) 2);
  (*450*) AddTo n_t4'aaaaaaaa (Times (Einsum [(n_t3'aaaaaa,[0;1;2;3;4;5]); (n_t1'aa,[6;7])] [6;0;1;2;3;7;4;5]) (1) 2);
  (*451*) AddTo n_t4'aaaaaaaa (Times (Einsum [(n_t3'aaaaaa,[0;1;2;3;4;5]); (n_t1'aa,[6;7])] [6;0;1;2;3;7;4;5]) (1) 2);
  (*452*) AddTo n_t4'aaaaaaaa (Times (Einsum [(n_t3'aaaaaa,[0;1;2;3;4;5]); (n_t1'aa,[6;7])] [6;0;1;2;3;4;7;5]) (-1) 2);
  (*453*) AddTo n_t4'aaaaaaaa (Times (Einsum [(n_t3'aaaaaa,[0;1;2;3;4;5]); (n_t1'aa,[6;7])] [6;0;1;2;3;4;7;5]) (-1) 2);
  (*454*) AddTo n_t4'aaaaaaaa (Times (Einsum [(n_t3'aaaaaa,[0;1;2;3;4;5]); (n_t1'aa,[6;7])] [6;0;1;2;3;4;5;7]) (1) 2);
  (*455*) AddTo n_t4'aaaaaaaa (Times (Einsum [(n_t3'aaaaaa,[0;1;2;3;4;5]); (n_t1'aa,[6;7])] [6;0;1;2;3;4;5;7]) (1) 2);
  (*456*) AddTo n_t4'aaaaaaaa (Times (Einsum [(n_t3'aaaaaa,[0;1;2;3;4;5]); (n_t1'aa,[6;7])] [0;6;1;2;7;3;4;5]) (1) 2);
  (*457*) AddTo n_t4'aaaaaaaa (Times (Einsum [(n_t3'aaaaaa,[0;1;2;3;4;5]); (n_t1'aa,[6;7])] [0;6;1;2;7;3;4;5]) (1) 2);
  (*458*) AddTo n_t4'aaaaaaaa (Times (Einsum [(n_t1'aa,[0;1]); (n_t3'aaaaaa,[2;3;4;5;6;7])] [2;0;3;4;5;1;6;7]) (-1) 2);
  (*459*) AddTo n_t4'aaaaaaaa (Times (Einsum [(n_t1'aa,[0;1]); (n_t3'aaaaaa,[2;3;4;5;6;7])] [2;0;3;4;5;1;6;7]) (-1) 2);
  (*460*) AddTo n_t4'aaaaaaaa (Times (Einsum [(n_t3'aaaaaa,[0;1;2;3;4;5]); (n_t1'aa,[6;7])] [0;6;1;2;3;4;7;5]) (1) 2);
  (*461*) AddTo n_t4'aaaaaaaa (Times (Einsum [(n_t3'aaaaaa,[0;1;2;3;4;5]); (n_t1'aa,[6;7])] [0;6;1;2;3;4;7;5]) (1) 2);
  (*462*) AddTo n_t4'aaaaaaaa (Times (Einsum [(n_t1'aa,[0;1]); (n_t3'aaaaaa,[2;3;4;5;6;7])] [2;0;3;4;5;6;7;1]) (-1) 2);
  (*463*) AddTo n_t4'aaaaaaaa (Times (Einsum [(n_t1'aa,[0;1]); (n_t3'aaaaaa,[2;3;4;5;6;7])] [2;0;3;4;5;6;7;1]) (-1) 2);
  (*464*) AddTo n_t4'aaaaaaaa (Times (Einsum [(n_t3'aaaaaa,[0;1;2;3;4;5]); (n_t1'aa,[6;7])] [0;1;6;2;7;3;4;5]) (-1) 2);
  (*465*) AddTo n_t4'aaaaaaaa (Times (Einsum [(n_t3'aaaaaa,[0;1;2;3;4;5]); (n_t1'aa,[6;7])] [0;1;6;2;7;3;4;5]) (-1) 2);
  (*466*) AddTo n_t4'aaaaaaaa (Times (Einsum [(n_t1'aa,[0;1]); (n_t3'aaaaaa,[2;3;4;5;6;7])] [2;3;0;4;5;1;6;7]) (1) 2);
  (*467*) AddTo n_t4'aaaaaaaa (Times (Einsum [(n_t1'aa,[0;1]); (n_t3'aaaaaa,[2;3;4;5;6;7])] [2;3;0;4;5;1;6;7]) (1) 2);
  (*468*) AddTo n_t4'aaaaaaaa (Times (Einsum [(n_t3'aaaaaa,[0;1;2;3;4;5]); (n_t1'aa,[6;7])] [0;1;6;2;3;4;7;5]) (-1) 2);
  (*469*) AddTo n_t4'aaaaaaaa (Times (Einsum [(n_t3'aaaaaa,[0;1;2;3;4;5]); (n_t1'aa,[6;7])] [0;1;6;2;3;4;7;5]) (-1) 2);
  (*470*) AddTo n_t4'aaaaaaaa (Times (Einsum [(n_t3'aaaaaa,[0;1;2;3;4;5]); (n_t1'aa,[6;7])] [0;1;6;2;3;4;5;7]) (1) 2);
  (*471*) AddTo n_t4'aaaaaaaa (Times (Einsum [(n_t3'aaaaaa,[0;1;2;3;4;5]); (n_t1'aa,[6;7])] [0;1;6;2;3;4;5;7]) (1) 2);
  (*472*) AddTo n_t4'aaaaaaaa (Times (Einsum [(n_t3'aaaaaa,[0;1;2;3;4;5]); (n_t1'aa,[6;7])] [0;1;2;6;7;3;4;5]) (1) 2);
  (*473*) AddTo n_t4'aaaaaaaa (Times (Einsum [(n_t3'aaaaaa,[0;1;2;3;4;5]); (n_t1'aa,[6;7])] [0;1;2;6;7;3;4;5]) (1) 2);
  (*474*) AddTo n_t4'aaaaaaaa (Times (Einsum [(n_t3'aaaaaa,[0;1;2;3;4;5]); (n_t1'aa,[6;7])] [0;1;2;6;3;7;4;5]) (-1) 2);
  (*475*) AddTo n_t4'aaaaaaaa (Times (Einsum [(n_t3'aaaaaa,[0;1;2;3;4;5]); (n_t1'aa,[6;7])] [0;1;2;6;3;7;4;5]) (-1) 2);
  (*476*) AddTo n_t4'aaaaaaaa (Times (Einsum [(n_t1'aa,[0;1]); (n_t3'aaaaaa,[2;3;4;5;6;7])] [2;3;4;0;5;6;1;7]) (1) 2);
  (*477*) AddTo n_t4'aaaaaaaa (Times (Einsum [(n_t1'aa,[0;1]); (n_t3'aaaaaa,[2;3;4;5;6;7])] [2;3;4;0;5;6;1;7]) (1) 2);
  (*478*) AddTo n_t4'aaaaaaaa (Times (Einsum [(n_t1'aa,[0;1]); (n_t3'aaaaaa,[2;3;4;5;6;7])] [2;3;4;0;5;6;7;1]) (-1) 2);
  (*479*) AddTo n_t4'aaaaaaaa (Times (Einsum [(n_t1'aa,[0;1]); (n_t3'aaaaaa,[2;3;4;5;6;7])] [2;3;4;0;5;6;7;1]) (-1) 2);
  (*480*) AddTo n_t4'aaaaaaaa (Times (Einsum [(n_t2'aaaa,[0;1;2;3]); (n_t2'aaaa,[4;5;6;7])] [4;5;0;1;6;7;2;3]) (-1) 1);
  (*481*) AddTo n_t4'aaaaaaaa (Plain (Einsum [(n_t2'aaaa,[0;1;2;3]); (n_t2'aaaa,[4;5;6;7])] [0;1;4;5;2;6;3;7]));
  (*482*) AddTo n_t4'aaaaaaaa (Times (Einsum [(n_t2'aaaa,[0;1;2;3]); (n_t2'aaaa,[4;5;6;7])] [4;5;0;1;6;2;3;7]) (-1) 1);
  (*483*) AddTo n_t4'aaaaaaaa (Times (Einsum [(n_t2'aaaa,[0;1;2;3]); (n_t2'aaaa,[4;5;6;7])] [0;1;4;5;6;2;3;7]) (-1) 1);
  (*484*) AddTo n_t4'aaaaaaaa (Plain (Einsum [(n_t2'aaaa,[0;1;2;3]); (n_t2'aaaa,[4;5;6;7])] [4;5;0;1;2;6;3;7]));
  (*485*) AddTo n_t4'aaaaaaaa (Times (Einsum [(n_t2'aaaa,[0;1;2;3]); (n_t2'aaaa,[4;5;6;7])] [0;1;4;5;6;7;2;3]) (-1) 1);
  (*486*) AddTo n_t4'aaaaaaaa (Plain (Einsum [(n_t2'aaaa,[0;1;2;3]); (n_t2'aaaa,[4;5;6;7])] [4;0;5;1;6;7;2;3]));
  (*487*) AddTo n_t4'aaaaaaaa (Times (Einsum [(n_t2'aaaa,[0;1;2;3]); (n_t2'aaaa,[4;5;6;7])] [4;0;5;1;6;2;7;3]) (-1) 1);
  (*488*) AddTo n_t4'aaaaaaaa (Plain (Einsum [(n_t2'aaaa,[0;1;2;3]); (n_t2'aaaa,[4;5;6;7])] [4;0;5;1;6;2;3;7]));
  (*489*) AddTo n_t4'aaaaaaaa (Plain (Einsum [(n_t2'aaaa,[0;1;2;3]); (n_t2'aaaa,[4;5;6;7])] [4;0;5;1;2;6;7;3]));
  (*490*) AddTo n_t4'aaaaaaaa (Times (Einsum [(n_t2'aaaa,[0;1;2;3]); (n_t2'aaaa,[4;5;6;7])] [4;0;5;1;2;6;3;7]) (-1) 1);
  (*491*) AddTo n_t4'aaaaaaaa (Plain (Einsum [(n_t2'aaaa,[0;1;2;3]); (n_t2'aaaa,[4;5;6;7])] [0;4;1;5;6;7;2;3]));
  (*492*) AddTo n_t4'aaaaaaaa (Times (Einsum [(n_t2'aaaa,[0;1;2;3]); (n_t2'aaaa,[4;5;6;7])] [0;4;5;1;2;3;6;7]) (-1) 1);
  (*493*) AddTo n_t4'aaaaaaaa (Plain (Einsum [(n_t2'aaaa,[0;1;2;3]); (n_t2'aaaa,[4;5;6;7])] [4;0;1;5;6;2;7;3]));
  (*494*) AddTo n_t4'aaaaaaaa (Times (Einsum [(n_t2'aaaa,[0;1;2;3]); (n_t2'aaaa,[4;5;6;7])] [4;0;1;5;6;2;3;7]) (-1) 1);
  (*495*) AddTo n_t4'aaaaaaaa (Times (Einsum [(n_t2'aaaa,[0;1;2;3]); (n_t2'aaaa,[4;5;6;7])] [4;0;1;5;2;6;7;3]) (-1) 1);
  (*496*) AddTo n_t4'aaaaaaaa (Plain (Einsum [(n_t2'aaaa,[0;1;2;3]); (n_t2'aaaa,[4;5;6;7])] [0;4;5;1;6;2;7;3]));
  (*497*) AddTo n_t4'aaaaaaaa (Times (Einsum [(n_t2'aaaa,[0;1;2;3]); (n_t2'aaaa,[4;5;6;7])] [4;0;1;5;2;3;6;7]) (-1) 1);
  (*498*) AddTo n_t4'aaaaaaaa (Times (Einsum [(n_t1'aa,[0;1]); (n_t2'aaaa,[2;3;4;5]); (n_t1'aa,[6;7])] [6;0;2;3;7;1;4;5]) (-1) 1);
  (*499*) AddTo n_t4'aaaaaaaa (Plain (Einsum [(n_t1'aa,[0;1]); (n_t1'aa,[2;3]); (n_t2'aaaa,[4;5;6;7])] [0;2;4;5;1;6;3;7]));
  (*500*) AddTo n_t4'aaaaaaaa (Times (Einsum [(n_t1'aa,[0;1]); (n_t1'aa,[2;3]); (n_t2'aaaa,[4;5;6;7])] [2;0;4;5;3;6;7;1]) (-1) 1);
  (*501*) AddTo n_t4'aaaaaaaa (Plain (Einsum [(n_t2'aaaa,[0;1;2;3]); (n_t1'aa,[4;5]); (n_t1'aa,[6;7])] [4;0;6;1;5;7;2;3]));
  (*502*) AddTo n_t4'aaaaaaaa (Times (Einsum [(n_t2'aaaa,[0;1;2;3]); (n_t1'aa,[4;5]); (n_t1'aa,[6;7])] [4;0;6;1;5;2;7;3]) (-1) 1);
  (*503*) AddTo n_t4'aaaaaaaa (Plain (Einsum [(n_t1'aa,[0;1]); (n_t2'aaaa,[2;3;4;5]); (n_t1'aa,[6;7])] [0;2;6;3;1;4;5;7]));
  (*504*) AddTo n_t4'aaaaaaaa (Times (Einsum [(n_t2'aaaa,[0;1;2;3]); (n_t1'aa,[4;5]); (n_t1'aa,[6;7])] [4;0;1;6;5;7;2;3]) (-1) 1);
  (*505*) AddTo n_t4'aaaaaaaa (Plain (Einsum [(n_t2'aaaa,[0;1;2;3]); (n_t1'aa,[4;5]); (n_t1'aa,[6;7])] [6;0;1;4;7;2;5;3]));
  (*506*) AddTo n_t4'aaaaaaaa (Times (Einsum [(n_t2'aaaa,[0;1;2;3]); (n_t1'aa,[4;5]); (n_t1'aa,[6;7])] [4;0;1;6;5;2;3;7]) (-1) 1);
  (*507*) AddTo n_t4'aaaaaaaa (Plain (Einsum [(n_t2'aaaa,[0;1;2;3]); (n_t1'aa,[4;5]); (n_t1'aa,[6;7])] [6;4;0;1;5;7;2;3]));
  (*508*) AddTo n_t4'aaaaaaaa (Times (Einsum [(n_t2'aaaa,[0;1;2;3]); (n_t1'aa,[4;5]); (n_t1'aa,[6;7])] [6;4;0;1;2;7;5;3]) (-1) 1);
  (*509*) AddTo n_t4'aaaaaaaa (Plain (Einsum [(n_t1'aa,[0;1]); (n_t2'aaaa,[2;3;4;5]); (n_t1'aa,[6;7])] [6;0;2;3;4;7;5;1]));
  (*510*) AddTo n_t4'aaaaaaaa (Times (Einsum [(n_t2'aaaa,[0;1;2;3]); (n_t1'aa,[4;5]); (n_t1'aa,[6;7])] [6;0;4;1;5;7;2;3]) (-1) 1);
  (*511*) AddTo n_t4'aaaaaaaa (Plain (Einsum [(n_t2'aaaa,[0;1;2;3]); (n_t1'aa,[4;5]); (n_t1'aa,[6;7])] [6;0;4;1;2;7;5;3]));
  (*512*) AddTo n_t4'aaaaaaaa (Times (Einsum [(n_t2'aaaa,[0;1;2;3]); (n_t1'aa,[4;5]); (n_t1'aa,[6;7])] [6;0;4;1;2;7;3;5]) (-1) 1);
  (*513*) AddTo n_t4'aaaaaaaa (Plain (Einsum [(n_t1'aa,[0;1]); (n_t2'aaaa,[2;3;4;5]); (n_t1'aa,[6;7])] [6;2;3;0;1;7;4;5]));
  (*514*) AddTo n_t4'aaaaaaaa (Times (Einsum [(n_t1'aa,[0;1]); (n_t2'aaaa,[2;3;4;5]); (n_t1'aa,[6;7])] [6;2;3;0;4;7;1;5]) (-1) 1);
  (*515*) AddTo n_t4'aaaaaaaa (Plain (Einsum [(n_t2'aaaa,[0;1;2;3]); (n_t1'aa,[4;5]); (n_t1'aa,[6;7])] [6;0;1;4;2;7;3;5]));
  (*516*) AddTo n_t4'aaaaaaaa (Times (Einsum [(n_t1'aa,[0;1]); (n_t1'aa,[2;3]); (n_t2'aaaa,[4;5;6;7])] [0;2;4;5;3;6;1;7]) (-1) 1);
  (*517*) AddTo n_t4'aaaaaaaa (Plain (Einsum [(n_t1'aa,[0;1]); (n_t2'aaaa,[2;3;4;5]); (n_t1'aa,[6;7])] [6;0;2;3;4;1;7;5]));
  (*518*) AddTo n_t4'aaaaaaaa (Times (Einsum [(n_t1'aa,[0;1]); (n_t1'aa,[2;3]); (n_t2'aaaa,[4;5;6;7])] [2;0;4;5;6;7;3;1]) (-1) 1);
  (*519*) AddTo n_t4'aaaaaaaa (Plain (Einsum [(n_t2'aaaa,[0;1;2;3]); (n_t1'aa,[4;5]); (n_t1'aa,[6;7])] [4;0;6;1;7;2;5;3]));
  (*520*) AddTo n_t4'aaaaaaaa (Times (Einsum [(n_t1'aa,[0;1]); (n_t1'aa,[2;3]); (n_t2'aaaa,[4;5;6;7])] [0;4;2;5;6;3;1;7]) (-1) 1);
  (*521*) AddTo n_t4'aaaaaaaa (Plain (Einsum [(n_t1'aa,[0;1]); (n_t1'aa,[2;3]); (n_t2'aaaa,[4;5;6;7])] [0;4;2;5;6;7;1;3]));
  (*522*) AddTo n_t4'aaaaaaaa (Times (Einsum [(n_t2'aaaa,[0;1;2;3]); (n_t1'aa,[4;5]); (n_t1'aa,[6;7])] [6;0;1;4;5;2;7;3]) (-1) 1);
  (*523*) AddTo n_t4'aaaaaaaa (Plain (Einsum [(n_t2'aaaa,[0;1;2;3]); (n_t1'aa,[4;5]); (n_t1'aa,[6;7])] [4;0;1;6;2;7;5;3]));
  (*524*) AddTo n_t4'aaaaaaaa (Times (Einsum [(n_t2'aaaa,[0;1;2;3]); (n_t1'aa,[4;5]); (n_t1'aa,[6;7])] [4;0;1;6;2;3;5;7]) (-1) 1);
  (*525*) AddTo n_t4'aaaaaaaa (Plain (Einsum [(n_t2'aaaa,[0;1;2;3]); (n_t1'aa,[4;5]); (n_t1'aa,[6;7])] [6;4;0;1;5;2;3;7]));
  (*526*) AddTo n_t4'aaaaaaaa (Times (Einsum [(n_t1'aa,[0;1]); (n_t2'aaaa,[2;3;4;5]); (n_t1'aa,[6;7])] [6;0;2;3;4;1;5;7]) (-1) 1);
  (*527*) AddTo n_t4'aaaaaaaa (Plain (Einsum [(n_t2'aaaa,[0;1;2;3]); (n_t1'aa,[4;5]); (n_t1'aa,[6;7])] [6;4;0;1;2;3;5;7]));
  (*528*) AddTo n_t4'aaaaaaaa (Times (Einsum [(n_t2'aaaa,[0;1;2;3]); (n_t1'aa,[4;5]); (n_t1'aa,[6;7])] [6;0;4;1;5;2;3;7]) (-1) 1);
  (*529*) AddTo n_t4'aaaaaaaa (Plain (Einsum [(n_t2'aaaa,[0;1;2;3]); (n_t1'aa,[4;5]); (n_t1'aa,[6;7])] [6;0;4;1;2;5;3;7]));
  (*530*) AddTo n_t4'aaaaaaaa (Times (Einsum [(n_t2'aaaa,[0;1;2;3]); (n_t1'aa,[4;5]); (n_t1'aa,[6;7])] [6;0;4;1;2;3;5;7]) (-1) 1);
  (*531*) AddTo n_t4'aaaaaaaa (Plain (Einsum [(n_t1'aa,[0;1]); (n_t2'aaaa,[2;3;4;5]); (n_t1'aa,[6;7])] [6;2;3;0;1;4;5;7]));
  (*532*) AddTo n_t4'aaaaaaaa (Times (Einsum [(n_t2'aaaa,[0;1;2;3]); (n_t1'aa,[4;5]); (n_t1'aa,[6;7])] [6;0;1;4;2;5;3;7]) (-1) 1);
  (*533*) AddTo n_t4'aaaaaaaa (Plain (Einsum [(n_t1'aa,[0;1]); (n_t2'aaaa,[2;3;4;5]); (n_t1'aa,[6;7])] [6;2;3;0;4;5;1;7]));
  (*534*) AddTo n_t4'aaaaaaaa (Times (Einsum [(n_t1'aa,[0;1]); (n_t1'aa,[2;3]); (n_t2'aaaa,[4;5;6;7])] [4;2;0;5;3;1;6;7]) (-1) 1);
  (*535*) AddTo n_t4'aaaaaaaa (Plain (Einsum [(n_t2'aaaa,[0;1;2;3]); (n_t1'aa,[4;5]); (n_t1'aa,[6;7])] [0;4;6;1;5;2;7;3]));
  (*536*) AddTo n_t4'aaaaaaaa (Times (Einsum [(n_t1'aa,[0;1]); (n_t1'aa,[2;3]); (n_t2'aaaa,[4;5;6;7])] [4;2;0;5;3;6;7;1]) (-1) 1);
  (*537*) AddTo n_t4'aaaaaaaa (Plain (Einsum [(n_t2'aaaa,[0;1;2;3]); (n_t1'aa,[4;5]); (n_t1'aa,[6;7])] [0;4;1;6;5;7;2;3]));
  (*538*) AddTo n_t4'aaaaaaaa (Times (Einsum [(n_t2'aaaa,[0;1;2;3]); (n_t1'aa,[4;5]); (n_t1'aa,[6;7])] [0;6;1;4;7;2;5;3]) (-1) 1);
  (*539*) AddTo n_t4'aaaaaaaa (Plain (Einsum [(n_t2'aaaa,[0;1;2;3]); (n_t1'aa,[4;5]); (n_t1'aa,[6;7])] [0;4;1;6;5;2;3;7]));
  (*540*) AddTo n_t4'aaaaaaaa (Plain (Einsum [(n_t1'aa,[0;1]); (n_t2'aaaa,[2;3;4;5]); (n_t1'aa,[6;7])] [2;0;6;3;7;1;4;5]));
  (*541*) AddTo n_t4'aaaaaaaa (Times (Einsum [(n_t1'aa,[0;1]); (n_t2'aaaa,[2;3;4;5]); (n_t1'aa,[6;7])] [2;0;6;3;4;1;7;5]) (-1) 1);
  (*542*) AddTo n_t4'aaaaaaaa (Plain (Einsum [(n_t1'aa,[0;1]); (n_t2'aaaa,[2;3;4;5]); (n_t1'aa,[6;7])] [2;0;6;3;4;1;5;7]));
  (*543*) AddTo n_t4'aaaaaaaa (Times (Einsum [(n_t1'aa,[0;1]); (n_t1'aa,[2;3]); (n_t2'aaaa,[4;5;6;7])] [4;0;5;2;3;1;6;7]) (-1) 1);
  (*544*) AddTo n_t4'aaaaaaaa (Plain (Einsum [(n_t1'aa,[0;1]); (n_t1'aa,[2;3]); (n_t2'aaaa,[4;5;6;7])] [4;0;5;2;6;1;3;7]));
  (*545*) AddTo n_t4'aaaaaaaa (Times (Einsum [(n_t1'aa,[0;1]); (n_t2'aaaa,[2;3;4;5]); (n_t1'aa,[6;7])] [2;0;3;6;4;1;5;7]) (-1) 1);
  (*546*) AddTo n_t4'aaaaaaaa (Times (Einsum [(n_t2'aaaa,[0;1;2;3]); (n_t1'aa,[4;5]); (n_t1'aa,[6;7])] [0;4;6;1;7;2;5;3]) (-1) 1);
  (*547*) AddTo n_t4'aaaaaaaa (Plain (Einsum [(n_t2'aaaa,[0;1;2;3]); (n_t1'aa,[4;5]); (n_t1'aa,[6;7])] [0;6;4;1;2;5;7;3]));
  (*548*) AddTo n_t4'aaaaaaaa (Times (Einsum [(n_t2'aaaa,[0;1;2;3]); (n_t1'aa,[4;5]); (n_t1'aa,[6;7])] [0;6;4;1;2;3;7;5]) (-1) 1);
  (*549*) AddTo n_t4'aaaaaaaa (Plain (Einsum [(n_t2'aaaa,[0;1;2;3]); (n_t1'aa,[4;5]); (n_t1'aa,[6;7])] [0;6;1;4;5;2;7;3]));
  (*550*) AddTo n_t4'aaaaaaaa (Times (Einsum [(n_t2'aaaa,[0;1;2;3]); (n_t1'aa,[4;5]); (n_t1'aa,[6;7])] [0;4;1;6;2;7;5;3]) (-1) 1);
  (*551*) AddTo n_t4'aaaaaaaa (Plain (Einsum [(n_t2'aaaa,[0;1;2;3]); (n_t1'aa,[4;5]); (n_t1'aa,[6;7])] [0;4;1;6;2;3;5;7]));
  (*552*) AddTo n_t4'aaaaaaaa (Plain (Einsum [(n_t1'aa,[0;1]); (n_t2'aaaa,[2;3;4;5]); (n_t1'aa,[6;7])] [2;0;6;3;7;4;5;1]));
  (*553*) AddTo n_t4'aaaaaaaa (Times (Einsum [(n_t1'aa,[0;1]); (n_t2'aaaa,[2;3;4;5]); (n_t1'aa,[6;7])] [2;0;6;3;4;7;5;1]) (-1) 1);
  (*554*) AddTo n_t4'aaaaaaaa (Plain (Einsum [(n_t1'aa,[0;1]); (n_t2'aaaa,[2;3;4;5]); (n_t1'aa,[6;7])] [2;0;6;3;4;5;7;1]));
  (*555*) AddTo n_t4'aaaaaaaa (Times (Einsum [(n_t1'aa,[0;1]); (n_t1'aa,[2;3]); (n_t2'aaaa,[4;5;6;7])] [4;0;5;2;3;6;7;1]) (-1) 1);
  (*556*) AddTo n_t4'aaaaaaaa (Plain (Einsum [(n_t1'aa,[0;1]); (n_t2'aaaa,[2;3;4;5]); (n_t1'aa,[6;7])] [2;0;3;6;4;7;5;1]));
  (*557*) AddTo n_t4'aaaaaaaa (Times (Einsum [(n_t1'aa,[0;1]); (n_t1'aa,[2;3]); (n_t2'aaaa,[4;5;6;7])] [4;0;5;2;6;7;3;1]) (-1) 1);
  (*558*) AddTo n_t4'aaaaaaaa (Times (Einsum [(n_t2'aaaa,[0;1;2;3]); (n_t1'aa,[4;5]); (n_t1'aa,[6;7])] [0;1;6;4;7;5;2;3]) (-1) 1);
  (*559*) AddTo n_t4'aaaaaaaa (Plain (Einsum [(n_t2'aaaa,[0;1;2;3]); (n_t1'aa,[4;5]); (n_t1'aa,[6;7])] [0;1;6;4;7;2;5;3]));
  (*560*) AddTo n_t4'aaaaaaaa (Times (Einsum [(n_t2'aaaa,[0;1;2;3]); (n_t1'aa,[4;5]); (n_t1'aa,[6;7])] [0;1;6;4;7;2;3;5]) (-1) 1);
  (*561*) AddTo n_t4'aaaaaaaa (Plain (Einsum [(n_t1'aa,[0;1]); (n_t2'aaaa,[2;3;4;5]); (n_t1'aa,[6;7])] [2;3;6;0;1;7;4;5]));
  (*562*) AddTo n_t4'aaaaaaaa (Times (Einsum [(n_t1'aa,[0;1]); (n_t1'aa,[2;3]); (n_t2'aaaa,[4;5;6;7])] [4;5;2;0;6;3;1;7]) (-1) 1);
  (*563*) AddTo n_t4'aaaaaaaa (Plain (Einsum [(n_t2'aaaa,[0;1;2;3]); (n_t1'aa,[4;5]); (n_t1'aa,[6;7])] [0;1;4;6;2;5;3;7]));
  (*564*) AddTo n_t4'aaaaaaaa (Times (Einsum [(n_t1'aa,[0;1]); (n_t2'aaaa,[2;3;4;5]); (n_t1'aa,[6;7])] [2;3;6;0;1;4;7;5]) (-1) 1);
  (*565*) AddTo n_t4'aaaaaaaa (Plain (Einsum [(n_t1'aa,[0;1]); (n_t2'aaaa,[2;3;4;5]); (n_t1'aa,[6;7])] [2;3;6;0;4;1;7;5]));
  (*566*) AddTo n_t4'aaaaaaaa (Times (Einsum [(n_t1'aa,[0;1]); (n_t2'aaaa,[2;3;4;5]); (n_t1'aa,[6;7])] [2;3;6;0;4;5;7;1]) (-1) 1);
  (*567*) AddTo n_t4'aaaaaaaa (Plain (Einsum [(n_t1'aa,[0;1]); (n_t2'aaaa,[2;3;4;5]); (n_t1'aa,[6;7])] [2;3;6;0;1;4;5;7]));
  (*568*) AddTo n_t4'aaaaaaaa (Times (Einsum [(n_t2'aaaa,[0;1;2;3]); (n_t1'aa,[4;5]); (n_t1'aa,[6;7])] [0;1;4;6;2;7;3;5]) (-1) 1);
  (*569*) AddTo n_t4'aaaaaaaa (Plain (Einsum [(n_t1'aa,[0;1]); (n_t1'aa,[2;3]); (n_t2'aaaa,[4;5;6;7])] [4;5;2;0;6;7;1;3]));
  (*570*) AddTo n_t4'aaaaaaaa (Times (Einsum [(n_t1'aa,[0;1]); (n_t1'aa,[2;3]); (n_t1'aa,[4;5]); (n_t1'aa,[6;7])] [2;0;6;4;3;1;7;5]) (-1) 1);
  (*571*) AddTo n_t4'aaaaaaaa (Plain (Einsum [(n_t1'aa,[0;1]); (n_t1'aa,[2;3]); (n_t1'aa,[4;5]); (n_t1'aa,[6;7])] [4;0;6;2;5;1;3;7]));
  (*572*) AddTo n_t4'aaaaaaaa (Plain (Einsum [(n_t1'aa,[0;1]); (n_t1'aa,[2;3]); (n_t1'aa,[4;5]); (n_t1'aa,[6;7])] [2;4;0;6;3;1;5;7]));
  (*573*) AddTo n_t4'aaaaaaaa (Times (Einsum [(n_t1'aa,[0;1]); (n_t1'aa,[2;3]); (n_t1'aa,[4;5]); (n_t1'aa,[6;7])] [0;2;6;4;1;5;3;7]) (-1) 1);
  (*574*) AddTo n_t4'aaaaaaaa (Times (Einsum [(n_t1'aa,[0;1]); (n_t1'aa,[2;3]); (n_t1'aa,[4;5]); (n_t1'aa,[6;7])] [4;0;6;2;5;7;3;1]) (-1) 1);
  (*575*) AddTo n_t4'aaaaaaaa (Plain (Einsum [(n_t1'aa,[0;1]); (n_t1'aa,[2;3]); (n_t1'aa,[4;5]); (n_t1'aa,[6;7])] [2;0;4;6;3;7;5;1]));
  (*576*) AddTo n_t4'aaaaaaaa (Plain (Einsum [(n_t1'aa,[0;1]); (n_t1'aa,[2;3]); (n_t1'aa,[4;5]); (n_t1'aa,[6;7])] [6;2;4;0;3;7;5;1]));
  (*577*) AddTo n_t4'aaaaaaaa (Times (Einsum [(n_t1'aa,[0;1]); (n_t1'aa,[2;3]); (n_t1'aa,[4;5]); (n_t1'aa,[6;7])] [6;4;2;0;5;7;1;3]) (-1) 1);
  (*578*) AddTo n_t4'aaaaaaaa (Times (Einsum [(n_t1'aa,[0;1]); (n_t1'aa,[2;3]); (n_t1'aa,[4;5]); (n_t1'aa,[6;7])] [6;2;0;4;1;7;3;5]) (-1) 1);
  (*579*) AddTo n_t4'aaaaaaaa (Plain (Einsum [(n_t1'aa,[0;1]); (n_t1'aa,[2;3]); (n_t1'aa,[4;5]); (n_t1'aa,[6;7])] [6;4;2;0;1;7;5;3]));
  (*580*) AddTo n_t4'aaaaaaaa (Plain (Einsum [(n_t1'aa,[0;1]); (n_t1'aa,[2;3]); (n_t1'aa,[4;5]); (n_t1'aa,[6;7])] [6;0;4;2;5;7;3;1]));
  (*581*) AddTo n_t4'aaaaaaaa (Times (Einsum [(n_t1'aa,[0;1]); (n_t1'aa,[2;3]); (n_t1'aa,[4;5]); (n_t1'aa,[6;7])] [6;0;4;2;3;7;5;1]) (-1) 1);
  (*582*) AddTo n_t4'aaaaaaaa (Times (Einsum [(n_t1'aa,[0;1]); (n_t1'aa,[2;3]); (n_t1'aa,[4;5]); (n_t1'aa,[6;7])] [0;4;2;6;5;3;1;7]) (-1) 1);
  (*583*) AddTo n_t4'aaaaaaaa (Plain (Einsum [(n_t1'aa,[0;1]); (n_t1'aa,[2;3]); (n_t1'aa,[4;5]); (n_t1'aa,[6;7])] [0;4;2;6;5;7;1;3]));
  (*584*) AddTo n_t4'aaaaaaaa (Plain (Einsum [(n_t1'aa,[0;1]); (n_t1'aa,[2;3]); (n_t1'aa,[4;5]); (n_t1'aa,[6;7])] [2;0;6;4;7;1;3;5]));
  (*585*) AddTo n_t4'aaaaaaaa (Times (Einsum [(n_t1'aa,[0;1]); (n_t1'aa,[2;3]); (n_t1'aa,[4;5]); (n_t1'aa,[6;7])] [4;0;6;2;3;1;5;7]) (-1) 1);
  (*586*) AddTo n_t4'aaaaaaaa (Times (Einsum [(n_t1'aa,[0;1]); (n_t1'aa,[2;3]); (n_t1'aa,[4;5]); (n_t1'aa,[6;7])] [2;0;6;4;7;5;3;1]) (-1) 1);
  (*587*) AddTo n_t4'aaaaaaaa (Plain (Einsum [(n_t1'aa,[0;1]); (n_t1'aa,[2;3]); (n_t1'aa,[4;5]); (n_t1'aa,[6;7])] [2;0;4;6;7;5;3;1]));
  (*588*) AddTo n_t4'aaaaaaaa (Plain (Einsum [(n_t1'aa,[0;1]); (n_t1'aa,[2;3]); (n_t1'aa,[4;5]); (n_t1'aa,[6;7])] [6;4;2;0;5;3;1;7]));
  (*589*) AddTo n_t4'aaaaaaaa (Times (Einsum [(n_t1'aa,[0;1]); (n_t1'aa,[2;3]); (n_t1'aa,[4;5]); (n_t1'aa,[6;7])] [6;2;4;0;3;1;5;7]) (-1) 1);
  (*590*) AddTo n_t4'aaaaaaaa (Times (Einsum [(n_t1'aa,[0;1]); (n_t1'aa,[2;3]); (n_t1'aa,[4;5]); (n_t1'aa,[6;7])] [6;0;4;2;5;1;3;7]) (-1) 1);
  (*591*) AddTo n_t4'aaaaaaaa (Plain (Einsum [(n_t1'aa,[0;1]); (n_t1'aa,[2;3]); (n_t1'aa,[4;5]); (n_t1'aa,[6;7])] [6;0;4;2;3;1;5;7]));
  (*592*) AddTo n_t4'aaaaaaaa (Plain (Einsum [(n_t1'aa,[0;1]); (n_t1'aa,[2;3]); (n_t1'aa,[4;5]); (n_t1'aa,[6;7])] [6;2;0;4;1;5;3;7]));
  (*593*) AddTo n_t4'aaaaaaaa (Times (Einsum [(n_t1'aa,[0;1]); (n_t1'aa,[2;3]); (n_t1'aa,[4;5]); (n_t1'aa,[6;7])] [6;4;2;0;1;3;5;7]) (-1) 1);
  (*594*) Assign n_t4'aaabaaab (Times (Copy n_c4'aaabaaab) (1) 2);
  (*595*) AddTo n_t4'aaabaaab (Times (Copy n_c4'aaabaaab) (1) 2);
  (*596*) AddTo n_t4'aaabaaab (Times (Einsum [(n_t1'aa,[0;1]); (n_t3'abaaba,[2;3;4;5;6;7])] [0;2;4;3;1;5;7;6]) (-1) 2);
  (*597*) AddTo n_t4'aaabaaab (Times (Einsum [(n_t1'aa,[0;1]); (n_t3'abaaba,[2;3;4;5;6;7])] [0;2;4;3;1;5;7;6]) (-1) 2);
  (*598*) AddTo n_t4'aaabaaab (Times (Einsum [(n_t3'abaaba,[0;1;2;3;4;5]); (n_t1'aa,[6;7])] [6;0;2;1;3;7;5;4]) (1) 2);
  (*599*) AddTo n_t4'aaabaaab (Times (Einsum [(n_t3'abaaba,[0;1;2;3;4;5]); (n_t1'aa,[6;7])] [6;0;2;1;3;7;5;4]) (1) 2);
  (*600*) AddTo n_t4'aaabaaab (Times (Einsum [(n_t1'aa,[0;1]); (n_t3'abaaba,[2;3;4;5;6;7])] [0;2;4;3;5;7;1;6]) (-1) 2);
  (*601*) AddTo n_t4'aaabaaab (Times (Einsum [(n_t1'aa,[0;1]); (n_t3'abaaba,[2;3;4;5;6;7])] [0;2;4;3;5;7;1;6]) (-1) 2);
  (*602*) AddTo n_t4'aaabaaab (Times (Einsum [(n_t1'aa,[0;1]); (n_t3'abaaba,[2;3;4;5;6;7])] [2;0;4;3;1;7;5;6]) (-1) 2);
  (*603*) AddTo n_t4'aaabaaab (Times (Einsum [(n_t1'aa,[0;1]); (n_t3'abaaba,[2;3;4;5;6;7])] [2;0;4;3;1;7;5;6]) (-1) 2);
  (*604*) AddTo n_t4'aaabaaab (Times (Einsum [(n_t1'aa,[0;1]); (n_t3'abaaba,[2;3;4;5;6;7])] [2;0;4;3;7;1;5;6]) (1) 2);
  (*605*) AddTo n_t4'aaabaaab (Times (Einsum [(n_t1'aa,[0;1]); (n_t3'abaaba,[2;3;4;5;6;7])] [2;0;4;3;7;1;5;6]) (1) 2);
  (*606*) AddTo n_t4'aaabaaab (Times (Einsum [(n_t1'aa,[0;1]); (n_t3'abaaba,[2;3;4;5;6;7])] [2;0;4;3;7;5;1;6]) (-1) 2);
  (*607*) AddTo n_t4'aaabaaab (Times (Einsum [(n_t1'aa,[0;1]); (n_t3'abaaba,[2;3;4;5;6;7])] [2;0;4;3;7;5;1;6]) (-1) 2);
  (*608*) AddTo n_t4'aaabaaab (Times (Einsum [(n_t3'abaaba,[0;1;2;3;4;5]); (n_t1'aa,[6;7])] [0;2;6;1;7;5;3;4]) (1) 2);
  (*609*) AddTo n_t4'aaabaaab (Times (Einsum [(n_t3'abaaba,[0;1;2;3;4;5]); (n_t1'aa,[6;7])] [0;2;6;1;7;5;3;4]) (1) 2);
  (*610*) AddTo n_t4'aaabaaab (Times (Einsum [(n_t3'abaaba,[0;1;2;3;4;5]); (n_t1'aa,[6;7])] [0;2;6;1;5;7;3;4]) (-1) 2);
  (*611*) AddTo n_t4'aaabaaab (Times (Einsum [(n_t3'abaaba,[0;1;2;3;4;5]); (n_t1'aa,[6;7])] [0;2;6;1;5;7;3;4]) (-1) 2);
  (*612*) AddTo n_t4'aaabaaab (Times (Einsum [(n_t1'aa,[0;1]); (n_t3'abaaba,[2;3;4;5;6;7])] [2;4;0;3;7;5;1;6]) (1) 2);
  (*613*) AddTo n_t4'aaabaaab (Times (Einsum [(n_t1'aa,[0;1]); (n_t3'abaaba,[2;3;4;5;6;7])] [2;4;0;3;7;5;1;6]) (1) 2);
  (*614*) AddTo n_t4'aaabaaab (Times (Einsum [(n_t1'bb,[0;1]); (n_t3'aaaaaa,[2;3;4;5;6;7])] [2;3;4;0;5;6;7;1]) (-1) 2);
  (*615*) AddTo n_t4'aaabaaab (Times (Einsum [(n_t1'bb,[0;1]); (n_t3'aaaaaa,[2;3;4;5;6;7])] [2;3;4;0;5;6;7;1]) (-1) 2);
  (*616*) AddTo n_t4'aaabaaab (Times (Einsum [(n_t2'aaaa,[0;1;2;3]); (n_t2'abab,[4;5;6;7])] [0;1;4;5;2;3;6;7]) (-1) 1);
  (*617*) AddTo n_t4'aaabaaab (Plain (Einsum [(n_t2'aaaa,[0;1;2;3]); (n_t2'abab,[4;5;6;7])] [0;1;4;5;2;6;3;7]));
  (*618*) AddTo n_t4'aaabaaab (Times (Einsum [(n_t2'abab,[0;1;2;3]); (n_t2'aaaa,[4;5;6;7])] [4;5;0;1;2;6;7;3]) (-1) 1);
  (*619*) AddTo n_t4'aaabaaab (Plain (Einsum [(n_t2'abab,[0;1;2;3]); (n_t2'aaaa,[4;5;6;7])] [4;0;5;1;6;7;2;3]));
  (*620*) AddTo n_t4'aaabaaab (Times (Einsum [(n_t2'aaaa,[0;1;2;3]); (n_t2'abab,[4;5;6;7])] [0;4;1;5;2;6;3;7]) (-1) 1);
  (*621*) AddTo n_t4'aaabaaab (Plain (Einsum [(n_t2'abab,[0;1;2;3]); (n_t2'aaaa,[4;5;6;7])] [4;0;5;1;2;6;7;3]));
  (*622*) AddTo n_t4'aaabaaab (Times (Einsum [(n_t2'aaaa,[0;1;2;3]); (n_t2'abab,[4;5;6;7])] [4;0;1;5;6;2;3;7]) (-1) 1);
  (*623*) AddTo n_t4'aaabaaab (Plain (Einsum [(n_t2'aaaa,[0;1;2;3]); (n_t2'abab,[4;5;6;7])] [4;0;1;5;2;6;3;7]));
  (*624*) AddTo n_t4'aaabaaab (Times (Einsum [(n_t2'abab,[0;1;2;3]); (n_t2'aaaa,[4;5;6;7])] [0;4;5;1;6;7;2;3]) (-1) 1);
  (*625*) AddTo n_t4'aaabaaab (Times (Einsum [(n_t1'aa,[0;1]); (n_t1'aa,[2;3]); (n_t2'abab,[4;5;6;7])] [2;0;4;5;3;1;6;7]) (-1) 1);
  (*626*) AddTo n_t4'aaabaaab (Plain (Einsum [(n_t2'abab,[0;1;2;3]); (n_t1'aa,[4;5]); (n_t1'aa,[6;7])] [4;6;0;1;5;2;7;3]));
  (*627*) AddTo n_t4'aaabaaab (Plain (Einsum [(n_t2'abab,[0;1;2;3]); (n_t1'aa,[4;5]); (n_t1'aa,[6;7])] [4;0;6;1;5;7;2;3]));
  (*628*) AddTo n_t4'aaabaaab (Times (Einsum [(n_t1'aa,[0;1]); (n_t2'abab,[2;3;4;5]); (n_t1'aa,[6;7])] [0;2;6;3;1;4;7;5]) (-1) 1);
  (*629*) AddTo n_t4'aaabaaab (Times (Einsum [(n_t2'aaaa,[0;1;2;3]); (n_t1'bb,[4;5]); (n_t1'aa,[6;7])] [6;0;1;4;7;2;3;5]) (-1) 1);
  (*630*) AddTo n_t4'aaabaaab (Plain (Einsum [(n_t2'abab,[0;1;2;3]); (n_t1'aa,[4;5]); (n_t1'aa,[6;7])] [6;4;0;1;5;7;2;3]));
  (*631*) AddTo n_t4'aaabaaab (Times (Einsum [(n_t2'abab,[0;1;2;3]); (n_t1'aa,[4;5]); (n_t1'aa,[6;7])] [6;4;0;1;2;7;5;3]) (-1) 1);
  (*632*) AddTo n_t4'aaabaaab (Times (Einsum [(n_t2'abab,[0;1;2;3]); (n_t1'aa,[4;5]); (n_t1'aa,[6;7])] [6;0;4;1;5;7;2;3]) (-1) 1);
  (*633*) AddTo n_t4'aaabaaab (Plain (Einsum [(n_t2'abab,[0;1;2;3]); (n_t1'aa,[4;5]); (n_t1'aa,[6;7])] [6;0;4;1;2;7;5;3]));
  (*634*) AddTo n_t4'aaabaaab (Plain (Einsum [(n_t1'bb,[0;1]); (n_t2'aaaa,[2;3;4;5]); (n_t1'aa,[6;7])] [6;2;3;0;4;7;5;1]));
  (*635*) AddTo n_t4'aaabaaab (Times (Einsum [(n_t2'abab,[0;1;2;3]); (n_t1'aa,[4;5]); (n_t1'aa,[6;7])] [4;6;0;1;7;2;5;3]) (-1) 1);
  (*636*) AddTo n_t4'aaabaaab (Plain (Einsum [(n_t1'aa,[0;1]); (n_t2'abab,[2;3;4;5]); (n_t1'aa,[6;7])] [6;0;2;3;4;1;7;5]));
  (*637*) AddTo n_t4'aaabaaab (Plain (Einsum [(n_t1'aa,[0;1]); (n_t2'abab,[2;3;4;5]); (n_t1'aa,[6;7])] [0;2;6;3;7;4;1;5]));
  (*638*) AddTo n_t4'aaabaaab (Times (Einsum [(n_t2'abab,[0;1;2;3]); (n_t1'aa,[4;5]); (n_t1'aa,[6;7])] [4;0;6;1;2;7;5;3]) (-1) 1);
  (*639*) AddTo n_t4'aaabaaab (Times (Einsum [(n_t2'aaaa,[0;1;2;3]); (n_t1'aa,[4;5]); (n_t1'bb,[6;7])] [4;0;1;6;2;3;5;7]) (-1) 1);
  (*640*) AddTo n_t4'aaabaaab (Times (Einsum [(n_t2'abab,[0;1;2;3]); (n_t1'aa,[4;5]); (n_t1'aa,[6;7])] [0;6;4;1;7;5;2;3]) (-1) 1);
  (*641*) AddTo n_t4'aaabaaab (Plain (Einsum [(n_t2'abab,[0;1;2;3]); (n_t1'aa,[4;5]); (n_t1'aa,[6;7])] [0;4;6;1;5;2;7;3]));
  (*642*) AddTo n_t4'aaabaaab (Plain (Einsum [(n_t1'bb,[0;1]); (n_t1'aa,[2;3]); (n_t2'aaaa,[4;5;6;7])] [4;2;5;0;3;6;7;1]));
  (*643*) AddTo n_t4'aaabaaab (Plain (Einsum [(n_t1'aa,[0;1]); (n_t2'abab,[2;3;4;5]); (n_t1'aa,[6;7])] [2;0;6;3;7;1;4;5]));
  (*644*) AddTo n_t4'aaabaaab (Times (Einsum [(n_t1'aa,[0;1]); (n_t1'aa,[2;3]); (n_t2'abab,[4;5;6;7])] [4;0;2;5;6;1;3;7]) (-1) 1);
  (*645*) AddTo n_t4'aaabaaab (Times (Einsum [(n_t1'aa,[0;1]); (n_t2'aaaa,[2;3;4;5]); (n_t1'bb,[6;7])] [2;0;3;6;4;1;5;7]) (-1) 1);
  (*646*) AddTo n_t4'aaabaaab (Times (Einsum [(n_t2'abab,[0;1;2;3]); (n_t1'aa,[4;5]); (n_t1'aa,[6;7])] [0;4;6;1;7;2;5;3]) (-1) 1);
  (*647*) AddTo n_t4'aaabaaab (Plain (Einsum [(n_t1'aa,[0;1]); (n_t1'aa,[2;3]); (n_t2'abab,[4;5;6;7])] [4;2;0;5;6;1;3;7]));
  (*648*) AddTo n_t4'aaabaaab (Plain (Einsum [(n_t1'bb,[0;1]); (n_t1'aa,[2;3]); (n_t2'aaaa,[4;5;6;7])] [4;2;5;0;6;7;3;1]));
  (*649*) AddTo n_t4'aaabaaab (Times (Einsum [(n_t2'aaaa,[0;1;2;3]); (n_t1'bb,[4;5]); (n_t1'aa,[6;7])] [0;1;6;4;7;2;3;5]) (-1) 1);
  (*650*) AddTo n_t4'aaabaaab (Plain (Einsum [(n_t2'aaaa,[0;1;2;3]); (n_t1'bb,[4;5]); (n_t1'aa,[6;7])] [0;1;6;4;2;7;3;5]));
  (*651*) AddTo n_t4'aaabaaab (Times (Einsum [(n_t2'aaaa,[0;1;2;3]); (n_t1'bb,[4;5]); (n_t1'aa,[6;7])] [0;1;6;4;2;3;7;5]) (-1) 1);
  (*652*) AddTo n_t4'aaabaaab (Times (Einsum [(n_t1'aa,[0;1]); (n_t1'bb,[2;3]); (n_t1'aa,[4;5]); (n_t1'aa,[6;7])] [4;0;6;2;5;1;7;3]) (-1) 1);
  (*653*) AddTo n_t4'aaabaaab (Plain (Einsum [(n_t1'aa,[0;1]); (n_t1'bb,[2;3]); (n_t1'aa,[4;5]); (n_t1'aa,[6;7])] [4;6;0;2;5;1;7;3]));
  (*654*) AddTo n_t4'aaabaaab (Plain (Einsum [(n_t1'bb,[0;1]); (n_t1'aa,[2;3]); (n_t1'aa,[4;5]); (n_t1'aa,[6;7])] [6;2;4;0;3;7;5;1]));
  (*655*) AddTo n_t4'aaabaaab (Times (Einsum [(n_t1'aa,[0;1]); (n_t1'bb,[2;3]); (n_t1'aa,[4;5]); (n_t1'aa,[6;7])] [6;4;0;2;1;7;5;3]) (-1) 1);
  (*656*) AddTo n_t4'aaabaaab (Times (Einsum [(n_t1'aa,[0;1]); (n_t1'aa,[2;3]); (n_t1'bb,[4;5]); (n_t1'aa,[6;7])] [2;6;0;4;7;1;3;5]) (-1) 1);
  (*657*) AddTo n_t4'aaabaaab (Plain (Einsum [(n_t1'aa,[0;1]); (n_t1'aa,[2;3]); (n_t1'bb,[4;5]); (n_t1'aa,[6;7])] [2;0;6;4;7;1;3;5]));
  (*658*) Assign n_t4'bbbbbbbb (Times (Transpose n_c4'bbbbbbbb [0;1;2;3;4;5;7;6]) (-1) 2);
  (*659*) AddTo n_t4'bbbbbbbb (Times (Transpose n_c4'bbbbbbbb [0;1;2;3;4;5;7;6]) (-1) 2);
  (*660*) AddTo n_t4'bbbbbbbb (Times (Einsum [(n_t3'bbbbbb,[0;1;2;3;4;5]); (n_t1'bb,[6;7])] [6;0;1;2;7;3;4;5]) (-1) 2);
  (*661*) AddTo n_t4'bbbbbbbb (Times (Einsum [(n_t3'bbbbbb,[0;1;2;3;4;5]); (n_t1'bb,[6;7])] [6;0;1;2;7;3;4;5]) (-1) 2);
  (*662*) AddTo n_t4'bbbbbbbb (Times (Einsum [(n_t1'bb,[0;1]); (n_t3'bbbbbb,[2;3;4;5;6;7])] [0;2;3;4;5;1;6;7]) (1) 2);
  (*663*) AddTo n_t4'bbbbbbbb (Times (Einsum [(n_t1'bb,[0;1]); (n_t3'bbbbbb,[2;3;4;5;6;7])] [0;2;3;4;5;1;6;7]) (1) 2);
  (*664*) AddTo n_t4'bbbbbbbb (Times (Einsum [(n_t1'bb,[0;1]); (n_t3'bbbbbb,[2;3;4;5;6;7])] [0;2;3;4;5;6;1;7]) (-1) 2);
  (*665*) AddTo n_t4'bbbbbbbb (Times (Einsum [(n_t1'bb,[0;1]); (n_t3'bbbbbb,[2;3;4;5;6;7])] [0;2;3;4;5;6;1;7]) (-1) 2);
  (*666*) AddTo n_t4'bbbbbbbb (Times (Einsum [(n_t3'bbbbbb,[0;1;2;3;4;5]); (n_t1'bb,[6;7])] [6;0;1;2;3;4;5;7]) (1) 2);
  (*667*) AddTo n_t4'bbbbbbbb (Times (Einsum [(n_t3'bbbbbb,[0;1;2;3;4;5]); (n_t1'bb,[6;7])] [6;0;1;2;3;4;5;7]) (1) 2);
  (*668*) AddTo n_t4'bbbbbbbb (Times (Einsum [(n_t1'bb,[0;1]); (n_t3'bbbbbb,[2;3;4;5;6;7])] [2;0;3;4;1;5;6;7]) (1) 2);
  (*669*) AddTo n_t4'bbbbbbbb (Times (Einsum [(n_t1'bb,[0;1]); (n_t3'bbbbbb,[2;3;4;5;6;7])] [2;0;3;4;1;5;6;7]) (1) 2);
  (*670*) AddTo n_t4'bbbbbbbb (Times (Einsum [(n_t1'bb,[0;1]); (n_t3'bbbbbb,[2;3;4;5;6;7])] [2;0;3;4;5;1;6;7]) (-1) 2);
  (*671*) AddTo n_t4'bbbbbbbb (Times (Einsum [(n_t1'bb,[0;1]); (n_t3'bbbbbb,[2;3;4;5;6;7])] [2;0;3;4;5;1;6;7]) (-1) 2);
  (*672*) AddTo n_t4'bbbbbbbb (Times (Einsum [(n_t1'bb,[0;1]); (n_t3'bbbbbb,[2;3;4;5;6;7])] [2;0;3;4;5;6;1;7]) (1) 2);
  (*673*) AddTo n_t4'bbbbbbbb (Times (Einsum [(n_t1'bb,[0;1]); (n_t3'bbbbbb,[2;3;4;5;6;7])] [2;0;3;4;5;6;1;7]) (1) 2);
  (*674*) AddTo n_t4'bbbbbbbb (Times (Einsum [(n_t1'bb,[0;1]); (n_t3'bbbbbb,[2;3;4;5;6;7])] [2;0;3;4;5;6;7;1]) (-1) 2);
  (*675*) AddTo n_t4'bbbbbbbb (Times (Einsum [(n_t1'bb,[0;1]); (n_t3'bbbbbb,[2;3;4;5;6;7])] [2;0;3;4;5;6;7;1]) (-1) 2);
  (*676*) AddTo n_t4'bbbbbbbb (Times (Einsum [(n_t1'bb,[0;1]); (n_t3'bbbbbb,[2;3;4;5;6;7])] [2;3;0;4;1;5;6;7]) (-1) 2);
  (*677*) AddTo n_t4'bbbbbbbb (Times (Einsum [(n_t1'bb,[0;1]); (n_t3'bbbbbb,[2;3;4;5;6;7])] [2;3;0;4;1;5;6;7]) (-1) 2);
  (*678*) AddTo n_t4'bbbbbbbb (Times (Einsum [(n_t1'bb,[0;1]); (n_t3'bbbbbb,[2;3;4;5;6;7])] [2;3;0;4;5;1;6;7]) (1) 2);
  (*679*) AddTo n_t4'bbbbbbbb (Times (Einsum [(n_t1'bb,[0;1]); (n_t3'bbbbbb,[2;3;4;5;6;7])] [2;3;0;4;5;1;6;7]) (1) 2);
  (*680*) AddTo n_t4'bbbbbbbb (Times (Einsum [(n_t1'bb,[0;1]); (n_t3'bbbbbb,[2;3;4;5;6;7])] [2;3;0;4;5;6;1;7]) (-1) 2);
  (*681*) AddTo n_t4'bbbbbbbb (Times (Einsum [(n_t1'bb,[0;1]); (n_t3'bbbbbb,[2;3;4;5;6;7])] [2;3;0;4;5;6;1;7]) (-1) 2);
  (*682*) AddTo n_t4'bbbbbbbb (Times (Einsum [(n_t1'bb,[0;1]); (n_t3'bbbbbb,[2;3;4;5;6;7])] [2;3;0;4;5;6;7;1]) (1) 2);
  (*683*) AddTo n_t4'bbbbbbbb (Times (Einsum [(n_t1'bb,[0;1]); (n_t3'bbbbbb,[2;3;4;5;6;7])] [2;3;0;4;5;6;7;1]) (1) 2);
  (*684*) AddTo n_t4'bbbbbbbb (Times (Einsum [(n_t3'bbbbbb,[0;1;2;3;4;5]); (n_t1'bb,[6;7])] [0;1;2;6;7;3;4;5]) (1) 2);
  (*685*) AddTo n_t4'bbbbbbbb (Times (Einsum [(n_t3'bbbbbb,[0;1;2;3;4;5]); (n_t1'bb,[6;7])] [0;1;2;6;7;3;4;5]) (1) 2);
  (*686*) AddTo n_t4'bbbbbbbb (Times (Einsum [(n_t3'bbbbbb,[0;1;2;3;4;5]); (n_t1'bb,[6;7])] [0;1;2;6;3;7;4;5]) (-1) 2);
  (*687*) AddTo n_t4'bbbbbbbb (Times (Einsum [(n_t3'bbbbbb,[0;1;2;3;4;5]); (n_t1'bb,[6;7])] [0;1;2;6;3;7;4;5]) (-1) 2);
  (*688*) AddTo n_t4'bbbbbbbb (Times (Einsum [(n_t3'bbbbbb,[0;1;2;3;4;5]); (n_t1'bb,[6;7])] [0;1;2;6;3;4;7;5]) (1) 2);
  (*689*) AddTo n_t4'bbbbbbbb (Times (Einsum [(n_t3'bbbbbb,[0;1;2;3;4;5]); (n_t1'bb,[6;7])] [0;1;2;6;3;4;7;5]) (1) 2);
  (*690*) AddTo n_t4'bbbbbbbb (Times (Einsum [(n_t1'bb,[0;1]); (n_t3'bbbbbb,[2;3;4;5;6;7])] [2;3;4;0;5;6;7;1]) (-1) 2);
  (*691*) AddTo n_t4'bbbbbbbb (Times (Einsum [(n_t1'bb,[0;1]); (n_t3'bbbbbb,[2;3;4;5;6;7])] [2;3;4;0;5;6;7;1]) (-1) 2);
  (*692*) AddTo n_t4'bbbbbbbb (Times (Einsum [(n_t2'bbbb,[0;1;2;3]); (n_t2'bbbb,[4;5;6;7])] [0;1;4;5;2;3;6;7]) (-1) 1);
  (*693*) AddTo n_t4'bbbbbbbb (Plain (Einsum [(n_t2'bbbb,[0;1;2;3]); (n_t2'bbbb,[4;5;6;7])] [0;1;4;5;2;6;3;7]));
  (*694*) AddTo n_t4'bbbbbbbb (Times (Einsum [(n_t2'bbbb,[0;1;2;3]); (n_t2'bbbb,[4;5;6;7])] [0;1;4;5;2;6;7;3]) (-1) 1);
  (*695*) AddTo n_t4'bbbbbbbb (Times (Einsum [(n_t2'bbbb,[0;1;2;3]); (n_t2'bbbb,[4;5;6;7])] [0;1;4;5;6;2;3;7]) (-1) 1);
  (*696*) AddTo n_t4'bbbbbbbb (Plain (Einsum [(n_t2'bbbb,[0;1;2;3]); (n_t2'bbbb,[4;5;6;7])] [4;5;0;1;2;6;3;7]));
  (*697*) AddTo n_t4'bbbbbbbb (Times (Einsum [(n_t2'bbbb,[0;1;2;3]); (n_t2'bbbb,[4;5;6;7])] [0;1;4;5;6;7;2;3]) (-1) 1);
  (*698*) AddTo n_t4'bbbbbbbb (Plain (Einsum [(n_t2'bbbb,[0;1;2;3]); (n_t2'bbbb,[4;5;6;7])] [0;4;1;5;2;3;6;7]));
  (*699*) AddTo n_t4'bbbbbbbb (Times (Einsum [(n_t2'bbbb,[0;1;2;3]); (n_t2'bbbb,[4;5;6;7])] [0;4;1;5;2;6;3;7]) (-1) 1);
  (*700*) AddTo n_t4'bbbbbbbb (Plain (Einsum [(n_t2'bbbb,[0;1;2;3]); (n_t2'bbbb,[4;5;6;7])] [4;0;5;1;6;2;3;7]));
  (*701*) AddTo n_t4'bbbbbbbb (Plain (Einsum [(n_t2'bbbb,[0;1;2;3]); (n_t2'bbbb,[4;5;6;7])] [4;0;5;1;2;6;7;3]));
  (*702*) AddTo n_t4'bbbbbbbb (Times (Einsum [(n_t2'bbbb,[0;1;2;3]); (n_t2'bbbb,[4;5;6;7])] [0;4;1;5;6;2;7;3]) (-1) 1);
  (*703*) AddTo n_t4'bbbbbbbb (Plain (Einsum [(n_t2'bbbb,[0;1;2;3]); (n_t2'bbbb,[4;5;6;7])] [4;0;5;1;2;3;6;7]));
  (*704*) AddTo n_t4'bbbbbbbb (Times (Einsum [(n_t2'bbbb,[0;1;2;3]); (n_t2'bbbb,[4;5;6;7])] [0;4;5;1;2;3;6;7]) (-1) 1);
  (*705*) AddTo n_t4'bbbbbbbb (Plain (Einsum [(n_t2'bbbb,[0;1;2;3]); (n_t2'bbbb,[4;5;6;7])] [0;4;5;1;2;6;3;7]));
  (*706*) AddTo n_t4'bbbbbbbb (Times (Einsum [(n_t2'bbbb,[0;1;2;3]); (n_t2'bbbb,[4;5;6;7])] [0;4;5;1;2;6;7;3]) (-1) 1);
  (*707*) AddTo n_t4'bbbbbbbb (Times (Einsum [(n_t2'bbbb,[0;1;2;3]); (n_t2'bbbb,[4;5;6;7])] [0;4;5;1;6;2;3;7]) (-1) 1);
  (*708*) AddTo n_t4'bbbbbbbb (Plain (Einsum [(n_t2'bbbb,[0;1;2;3]); (n_t2'bbbb,[4;5;6;7])] [0;4;5;1;6;2;7;3]));
  (*709*) AddTo n_t4'bbbbbbbb (Times (Einsum [(n_t2'bbbb,[0;1;2;3]); (n_t2'bbbb,[4;5;6;7])] [0;4;5;1;6;7;2;3]) (-1) 1);
  (*710*) AddTo n_t4'bbbbbbbb (Times (Einsum [(n_t1'bb,[0;1]); (n_t1'bb,[2;3]); (n_t2'bbbb,[4;5;6;7])] [2;0;4;5;3;1;6;7]) (-1) 1);
  (*711*) AddTo n_t4'bbbbbbbb (Plain (Einsum [(n_t1'bb,[0;1]); (n_t2'bbbb,[2;3;4;5]); (n_t1'bb,[6;7])] [6;0;2;3;7;4;1;5]));
  (*712*) AddTo n_t4'bbbbbbbb (Times (Einsum [(n_t1'bb,[0;1]); (n_t2'bbbb,[2;3;4;5]); (n_t1'bb,[6;7])] [6;0;2;3;7;4;5;1]) (-1) 1);
  (*713*) AddTo n_t4'bbbbbbbb (Plain (Einsum [(n_t1'bb,[0;1]); (n_t1'bb,[2;3]); (n_t2'bbbb,[4;5;6;7])] [2;4;0;5;3;1;6;7]));
  (*714*) AddTo n_t4'bbbbbbbb (Times (Einsum [(n_t1'bb,[0;1]); (n_t1'bb,[2;3]); (n_t2'bbbb,[4;5;6;7])] [2;4;0;5;3;6;1;7]) (-1) 1);
  (*715*) AddTo n_t4'bbbbbbbb (Plain (Einsum [(n_t1'bb,[0;1]); (n_t1'bb,[2;3]); (n_t2'bbbb,[4;5;6;7])] [2;4;0;5;3;6;7;1]));
  (*716*) AddTo n_t4'bbbbbbbb (Times (Einsum [(n_t1'bb,[0;1]); (n_t1'bb,[2;3]); (n_t2'bbbb,[4;5;6;7])] [2;4;5;0;3;1;6;7]) (-1) 1);
  (*717*) AddTo n_t4'bbbbbbbb (Plain (Einsum [(n_t1'bb,[0;1]); (n_t1'bb,[2;3]); (n_t2'bbbb,[4;5;6;7])] [0;4;5;2;1;6;3;7]));
  (*718*) AddTo n_t4'bbbbbbbb (Times (Einsum [(n_t2'bbbb,[0;1;2;3]); (n_t1'bb,[4;5]); (n_t1'bb,[6;7])] [4;0;1;6;5;2;3;7]) (-1) 1);
  (*719*) AddTo n_t4'bbbbbbbb (Plain (Einsum [(n_t1'bb,[0;1]); (n_t1'bb,[2;3]); (n_t2'bbbb,[4;5;6;7])] [2;0;4;5;1;3;6;7]));
  (*720*) AddTo n_t4'bbbbbbbb (Times (Einsum [(n_t1'bb,[0;1]); (n_t1'bb,[2;3]); (n_t2'bbbb,[4;5;6;7])] [2;0;4;5;6;3;1;7]) (-1) 1);
  (*721*) AddTo n_t4'bbbbbbbb (Plain (Einsum [(n_t1'bb,[0;1]); (n_t2'bbbb,[2;3;4;5]); (n_t1'bb,[6;7])] [6;0;2;3;4;7;5;1]));
  (*722*) AddTo n_t4'bbbbbbbb (Times (Einsum [(n_t1'bb,[0;1]); (n_t1'bb,[2;3]); (n_t2'bbbb,[4;5;6;7])] [2;4;0;5;1;3;6;7]) (-1) 1);
  (*723*) AddTo n_t4'bbbbbbbb (Plain (Einsum [(n_t1'bb,[0;1]); (n_t1'bb,[2;3]); (n_t2'bbbb,[4;5;6;7])] [2;4;0;5;6;3;1;7]));
  (*724*) AddTo n_t4'bbbbbbbb (Times (Einsum [(n_t1'bb,[0;1]); (n_t1'bb,[2;3]); (n_t2'bbbb,[4;5;6;7])] [2;4;0;5;6;3;7;1]) (-1) 1);
  (*725*) AddTo n_t4'bbbbbbbb (Plain (Einsum [(n_t2'bbbb,[0;1;2;3]); (n_t1'bb,[4;5]); (n_t1'bb,[6;7])] [4;0;1;6;7;5;2;3]));
  (*726*) AddTo n_t4'bbbbbbbb (Times (Einsum [(n_t1'bb,[0;1]); (n_t1'bb,[2;3]); (n_t2'bbbb,[4;5;6;7])] [0;4;5;2;6;1;3;7]) (-1) 1);
  (*727*) AddTo n_t4'bbbbbbbb (Plain (Einsum [(n_t2'bbbb,[0;1;2;3]); (n_t1'bb,[4;5]); (n_t1'bb,[6;7])] [4;0;1;6;2;5;3;7]));
  (*728*) AddTo n_t4'bbbbbbbb (Times (Einsum [(n_t2'bbbb,[0;1;2;3]); (n_t1'bb,[4;5]); (n_t1'bb,[6;7])] [6;4;0;1;5;2;7;3]) (-1) 1);
  (*729*) AddTo n_t4'bbbbbbbb (Plain (Einsum [(n_t2'bbbb,[0;1;2;3]); (n_t1'bb,[4;5]); (n_t1'bb,[6;7])] [6;4;0;1;2;5;7;3]));
  (*730*) AddTo n_t4'bbbbbbbb (Times (Einsum [(n_t1'bb,[0;1]); (n_t1'bb,[2;3]); (n_t2'bbbb,[4;5;6;7])] [2;0;4;5;6;7;3;1]) (-1) 1);
  (*731*) AddTo n_t4'bbbbbbbb (Plain (Einsum [(n_t1'bb,[0;1]); (n_t1'bb,[2;3]); (n_t2'bbbb,[4;5;6;7])] [2;4;0;5;1;6;3;7]));
  (*732*) AddTo n_t4'bbbbbbbb (Times (Einsum [(n_t1'bb,[0;1]); (n_t1'bb,[2;3]); (n_t2'bbbb,[4;5;6;7])] [2;4;0;5;6;1;3;7]) (-1) 1);
  (*733*) AddTo n_t4'bbbbbbbb (Plain (Einsum [(n_t1'bb,[0;1]); (n_t1'bb,[2;3]); (n_t2'bbbb,[4;5;6;7])] [2;4;0;5;6;7;3;1]));
  (*734*) AddTo n_t4'bbbbbbbb (Times (Einsum [(n_t1'bb,[0;1]); (n_t2'bbbb,[2;3;4;5]); (n_t1'bb,[6;7])] [0;2;3;6;7;4;1;5]) (-1) 1);
  (*735*) AddTo n_t4'bbbbbbbb (Plain (Einsum [(n_t1'bb,[0;1]); (n_t1'bb,[2;3]); (n_t2'bbbb,[4;5;6;7])] [0;4;5;2;6;3;1;7]));
  (*736*) AddTo n_t4'bbbbbbbb (Times (Einsum [(n_t2'bbbb,[0;1;2;3]); (n_t1'bb,[4;5]); (n_t1'bb,[6;7])] [4;0;1;6;2;3;5;7]) (-1) 1);
  (*737*) AddTo n_t4'bbbbbbbb (Plain (Einsum [(n_t2'bbbb,[0;1;2;3]); (n_t1'bb,[4;5]); (n_t1'bb,[6;7])] [6;4;0;1;5;2;3;7]));
  (*738*) AddTo n_t4'bbbbbbbb (Times (Einsum [(n_t1'bb,[0;1]); (n_t1'bb,[2;3]); (n_t2'bbbb,[4;5;6;7])] [2;0;4;5;6;1;7;3]) (-1) 1);
  (*739*) AddTo n_t4'bbbbbbbb (Plain (Einsum [(n_t1'bb,[0;1]); (n_t1'bb,[2;3]); (n_t2'bbbb,[4;5;6;7])] [2;0;4;5;6;7;1;3]));
  (*740*) AddTo n_t4'bbbbbbbb (Times (Einsum [(n_t1'bb,[0;1]); (n_t1'bb,[2;3]); (n_t2'bbbb,[4;5;6;7])] [2;4;0;5;1;6;7;3]) (-1) 1);
  (*741*) AddTo n_t4'bbbbbbbb (Plain (Einsum [(n_t1'bb,[0;1]); (n_t1'bb,[2;3]); (n_t2'bbbb,[4;5;6;7])] [2;4;0;5;6;1;7;3]));
  (*742*) AddTo n_t4'bbbbbbbb (Times (Einsum [(n_t1'bb,[0;1]); (n_t1'bb,[2;3]); (n_t2'bbbb,[4;5;6;7])] [2;4;0;5;6;7;1;3]) (-1) 1);
  (*743*) AddTo n_t4'bbbbbbbb (Plain (Einsum [(n_t2'bbbb,[0;1;2;3]); (n_t1'bb,[4;5]); (n_t1'bb,[6;7])] [4;0;1;6;7;2;3;5]));
  (*744*) AddTo n_t4'bbbbbbbb (Times (Einsum [(n_t2'bbbb,[0;1;2;3]); (n_t1'bb,[4;5]); (n_t1'bb,[6;7])] [4;0;1;6;2;7;3;5]) (-1) 1);
  (*745*) AddTo n_t4'bbbbbbbb (Plain (Einsum [(n_t1'bb,[0;1]); (n_t2'bbbb,[2;3;4;5]); (n_t1'bb,[6;7])] [0;2;3;6;4;5;7;1]));
  (*746*) AddTo n_t4'bbbbbbbb (Times (Einsum [(n_t1'bb,[0;1]); (n_t2'bbbb,[2;3;4;5]); (n_t1'bb,[6;7])] [2;0;6;3;1;7;4;5]) (-1) 1);
  (*747*) AddTo n_t4'bbbbbbbb (Plain (Einsum [(n_t1'bb,[0;1]); (n_t1'bb,[2;3]); (n_t2'bbbb,[4;5;6;7])] [4;0;2;5;1;6;3;7]));
  (*748*) AddTo n_t4'bbbbbbbb (Times (Einsum [(n_t2'bbbb,[0;1;2;3]); (n_t1'bb,[4;5]); (n_t1'bb,[6;7])] [0;4;6;1;5;2;3;7]) (-1) 1);
  (*749*) AddTo n_t4'bbbbbbbb (Plain (Einsum [(n_t1'bb,[0;1]); (n_t2'bbbb,[2;3;4;5]); (n_t1'bb,[6;7])] [2;0;3;6;1;7;4;5]));
  (*750*) AddTo n_t4'bbbbbbbb (Times (Einsum [(n_t1'bb,[0;1]); (n_t2'bbbb,[2;3;4;5]); (n_t1'bb,[6;7])] [2;0;3;6;1;4;7;5]) (-1) 1);
  (*751*) AddTo n_t4'bbbbbbbb (Plain (Einsum [(n_t1'bb,[0;1]); (n_t1'bb,[2;3]); (n_t2'bbbb,[4;5;6;7])] [4;0;5;2;1;6;7;3]));
  (*752*) AddTo n_t4'bbbbbbbb (Plain (Einsum [(n_t1'bb,[0;1]); (n_t1'bb,[2;3]); (n_t2'bbbb,[4;5;6;7])] [4;0;2;5;3;1;6;7]));
  (*753*) AddTo n_t4'bbbbbbbb (Times (Einsum [(n_t1'bb,[0;1]); (n_t1'bb,[2;3]); (n_t2'bbbb,[4;5;6;7])] [4;0;2;5;6;1;3;7]) (-1) 1);
  (*754*) AddTo n_t4'bbbbbbbb (Plain (Einsum [(n_t2'bbbb,[0;1;2;3]); (n_t1'bb,[4;5]); (n_t1'bb,[6;7])] [0;4;6;1;2;5;3;7]));
  (*755*) AddTo n_t4'bbbbbbbb (Times (Einsum [(n_t1'bb,[0;1]); (n_t2'bbbb,[2;3;4;5]); (n_t1'bb,[6;7])] [2;0;3;6;7;1;4;5]) (-1) 1);
  (*756*) AddTo n_t4'bbbbbbbb (Plain (Einsum [(n_t1'bb,[0;1]); (n_t2'bbbb,[2;3;4;5]); (n_t1'bb,[6;7])] [2;0;3;6;4;1;7;5]));
  (*757*) AddTo n_t4'bbbbbbbb (Times (Einsum [(n_t2'bbbb,[0;1;2;3]); (n_t1'bb,[4;5]); (n_t1'bb,[6;7])] [0;4;1;6;2;5;3;7]) (-1) 1);
  (*758*) AddTo n_t4'bbbbbbbb (Times (Einsum [(n_t1'bb,[0;1]); (n_t2'bbbb,[2;3;4;5]); (n_t1'bb,[6;7])] [2;0;6;3;7;4;1;5]) (-1) 1);
  (*759*) AddTo n_t4'bbbbbbbb (Plain (Einsum [(n_t1'bb,[0;1]); (n_t1'bb,[2;3]); (n_t2'bbbb,[4;5;6;7])] [4;0;2;5;6;3;1;7]));
  (*760*) AddTo n_t4'bbbbbbbb (Times (Einsum [(n_t1'bb,[0;1]); (n_t1'bb,[2;3]); (n_t2'bbbb,[4;5;6;7])] [4;0;2;5;6;7;1;3]) (-1) 1);
  (*761*) AddTo n_t4'bbbbbbbb (Plain (Einsum [(n_t1'bb,[0;1]); (n_t2'bbbb,[2;3;4;5]); (n_t1'bb,[6;7])] [2;0;3;6;7;4;1;5]));
  (*762*) AddTo n_t4'bbbbbbbb (Times (Einsum [(n_t1'bb,[0;1]); (n_t2'bbbb,[2;3;4;5]); (n_t1'bb,[6;7])] [2;0;3;6;4;7;1;5]) (-1) 1);
  (*763*) AddTo n_t4'bbbbbbbb (Plain (Einsum [(n_t1'bb,[0;1]); (n_t2'bbbb,[2;3;4;5]); (n_t1'bb,[6;7])] [2;0;3;6;4;5;1;7]));
  (*764*) AddTo n_t4'bbbbbbbb (Plain (Einsum [(n_t1'bb,[0;1]); (n_t1'bb,[2;3]); (n_t2'bbbb,[4;5;6;7])] [4;0;2;5;3;6;7;1]));
  (*765*) AddTo n_t4'bbbbbbbb (Times (Einsum [(n_t1'bb,[0;1]); (n_t1'bb,[2;3]); (n_t2'bbbb,[4;5;6;7])] [4;0;2;5;6;3;7;1]) (-1) 1);
  (*766*) AddTo n_t4'bbbbbbbb (Plain (Einsum [(n_t1'bb,[0;1]); (n_t1'bb,[2;3]); (n_t2'bbbb,[4;5;6;7])] [4;0;2;5;6;7;3;1]));
  (*767*) AddTo n_t4'bbbbbbbb (Times (Einsum [(n_t1'bb,[0;1]); (n_t2'bbbb,[2;3;4;5]); (n_t1'bb,[6;7])] [2;0;3;6;7;4;5;1]) (-1) 1);
  (*768*) AddTo n_t4'bbbbbbbb (Plain (Einsum [(n_t1'bb,[0;1]); (n_t2'bbbb,[2;3;4;5]); (n_t1'bb,[6;7])] [2;0;3;6;4;7;5;1]));
  (*769*) AddTo n_t4'bbbbbbbb (Times (Einsum [(n_t1'bb,[0;1]); (n_t2'bbbb,[2;3;4;5]); (n_t1'bb,[6;7])] [2;0;3;6;4;5;7;1]) (-1) 1);
  (*770*) AddTo n_t4'bbbbbbbb (Times (Einsum [(n_t2'bbbb,[0;1;2;3]); (n_t1'bb,[4;5]); (n_t1'bb,[6;7])] [0;1;4;6;5;7;2;3]) (-1) 1);
  (*771*) AddTo n_t4'bbbbbbbb (Plain (Einsum [(n_t1'bb,[0;1]); (n_t1'bb,[2;3]); (n_t2'bbbb,[4;5;6;7])] [4;5;0;2;1;6;3;7]));
  (*772*) AddTo n_t4'bbbbbbbb (Times (Einsum [(n_t2'bbbb,[0;1;2;3]); (n_t1'bb,[4;5]); (n_t1'bb,[6;7])] [0;1;4;6;5;2;3;7]) (-1) 1);
  (*773*) AddTo n_t4'bbbbbbbb (Plain (Einsum [(n_t2'bbbb,[0;1;2;3]); (n_t1'bb,[4;5]); (n_t1'bb,[6;7])] [0;1;4;6;7;5;2;3]));
  (*774*) AddTo n_t4'bbbbbbbb (Times (Einsum [(n_t1'bb,[0;1]); (n_t2'bbbb,[2;3;4;5]); (n_t1'bb,[6;7])] [2;3;0;6;4;1;7;5]) (-1) 1);
  (*775*) AddTo n_t4'bbbbbbbb (Plain (Einsum [(n_t2'bbbb,[0;1;2;3]); (n_t1'bb,[4;5]); (n_t1'bb,[6;7])] [0;1;4;6;2;5;3;7]));
  (*776*) AddTo n_t4'bbbbbbbb (Times (Einsum [(n_t1'bb,[0;1]); (n_t1'bb,[2;3]); (n_t2'bbbb,[4;5;6;7])] [4;5;0;2;3;6;1;7]) (-1) 1);
  (*777*) AddTo n_t4'bbbbbbbb (Plain (Einsum [(n_t1'bb,[0;1]); (n_t2'bbbb,[2;3;4;5]); (n_t1'bb,[6;7])] [2;3;0;6;4;7;1;5]));
  (*778*) AddTo n_t4'bbbbbbbb (Times (Einsum [(n_t1'bb,[0;1]); (n_t2'bbbb,[2;3;4;5]); (n_t1'bb,[6;7])] [2;3;0;6;4;5;1;7]) (-1) 1);
  (*779*) AddTo n_t4'bbbbbbbb (Plain (Einsum [(n_t2'bbbb,[0;1;2;3]); (n_t1'bb,[4;5]); (n_t1'bb,[6;7])] [0;1;4;6;7;2;3;5]));
  (*780*) AddTo n_t4'bbbbbbbb (Times (Einsum [(n_t2'bbbb,[0;1;2;3]); (n_t1'bb,[4;5]); (n_t1'bb,[6;7])] [0;1;4;6;2;7;3;5]) (-1) 1);
  (*781*) AddTo n_t4'bbbbbbbb (Plain (Einsum [(n_t1'bb,[0;1]); (n_t2'bbbb,[2;3;4;5]); (n_t1'bb,[6;7])] [2;3;0;6;4;5;7;1]));
  (*782*) AddTo n_t4'bbbbbbbb (Times (Einsum [(n_t1'bb,[0;1]); (n_t1'bb,[2;3]); (n_t1'bb,[4;5]); (n_t1'bb,[6;7])] [4;0;2;6;5;1;3;7]) (-1) 1);
  (*783*) AddTo n_t4'bbbbbbbb (Plain (Einsum [(n_t1'bb,[0;1]); (n_t1'bb,[2;3]); (n_t1'bb,[4;5]); (n_t1'bb,[6;7])] [2;0;6;4;3;1;5;7]));
  (*784*) AddTo n_t4'bbbbbbbb (Plain (Einsum [(n_t1'bb,[0;1]); (n_t1'bb,[2;3]); (n_t1'bb,[4;5]); (n_t1'bb,[6;7])] [4;0;2;6;5;3;1;7]));
  (*785*) AddTo n_t4'bbbbbbbb (Times (Einsum [(n_t1'bb,[0;1]); (n_t1'bb,[2;3]); (n_t1'bb,[4;5]); (n_t1'bb,[6;7])] [6;0;2;4;7;5;1;3]) (-1) 1);
  (*786*) AddTo n_t4'bbbbbbbb (Times (Einsum [(n_t1'bb,[0;1]); (n_t1'bb,[2;3]); (n_t1'bb,[4;5]); (n_t1'bb,[6;7])] [4;0;2;6;5;3;7;1]) (-1) 1);
  (*787*) AddTo n_t4'bbbbbbbb (Plain (Einsum [(n_t1'bb,[0;1]); (n_t1'bb,[2;3]); (n_t1'bb,[4;5]); (n_t1'bb,[6;7])] [6;0;2;4;7;5;3;1]));
  (*788*) AddTo n_t4'bbbbbbbb (Plain (Einsum [(n_t1'bb,[0;1]); (n_t1'bb,[2;3]); (n_t1'bb,[4;5]); (n_t1'bb,[6;7])] [2;0;6;4;1;3;7;5]));
  (*789*) AddTo n_t4'bbbbbbbb (Times (Einsum [(n_t1'bb,[0;1]); (n_t1'bb,[2;3]); (n_t1'bb,[4;5]); (n_t1'bb,[6;7])] [2;0;6;4;1;3;5;7]) (-1) 1);
  (*790*) AddTo n_t4'bbbbbbbb (Times (Einsum [(n_t1'bb,[0;1]); (n_t1'bb,[2;3]); (n_t1'bb,[4;5]); (n_t1'bb,[6;7])] [4;0;2;6;3;5;1;7]) (-1) 1);
  (*791*) AddTo n_t4'bbbbbbbb (Plain (Einsum [(n_t1'bb,[0;1]); (n_t1'bb,[2;3]); (n_t1'bb,[4;5]); (n_t1'bb,[6;7])] [4;0;2;6;7;5;1;3]));
  (*792*) AddTo n_t4'bbbbbbbb (Plain (Einsum [(n_t1'bb,[0;1]); (n_t1'bb,[2;3]); (n_t1'bb,[4;5]); (n_t1'bb,[6;7])] [4;0;2;6;3;5;7;1]));
  (*793*) AddTo n_t4'bbbbbbbb (Times (Einsum [(n_t1'bb,[0;1]); (n_t1'bb,[2;3]); (n_t1'bb,[4;5]); (n_t1'bb,[6;7])] [4;0;2;6;7;5;3;1]) (-1) 1);
  (*794*) AddTo n_t4'bbbbbbbb (Times (Einsum [(n_t1'bb,[0;1]); (n_t1'bb,[2;3]); (n_t1'bb,[4;5]); (n_t1'bb,[6;7])] [2;0;6;4;1;7;3;5]) (-1) 1);
  (*795*) AddTo n_t4'bbbbbbbb (Plain (Einsum [(n_t1'bb,[0;1]); (n_t1'bb,[2;3]); (n_t1'bb,[4;5]); (n_t1'bb,[6;7])] [2;0;6;4;1;5;3;7]));
  (*796*) AddTo n_t4'bbbbbbbb (Plain (Einsum [(n_t1'bb,[0;1]); (n_t1'bb,[2;3]); (n_t1'bb,[4;5]); (n_t1'bb,[6;7])] [4;0;2;6;3;1;5;7]));
  (*797*) AddTo n_t4'bbbbbbbb (Times (Einsum [(n_t1'bb,[0;1]); (n_t1'bb,[2;3]); (n_t1'bb,[4;5]); (n_t1'bb,[6;7])] [2;0;6;4;5;1;3;7]) (-1) 1);
  (*798*) AddTo n_t4'bbbbbbbb (Times (Einsum [(n_t1'bb,[0;1]); (n_t1'bb,[2;3]); (n_t1'bb,[4;5]); (n_t1'bb,[6;7])] [4;0;2;6;3;7;5;1]) (-1) 1);
  (*799*) AddTo n_t4'bbbbbbbb (Plain (Einsum [(n_t1'bb,[0;1]); (n_t1'bb,[2;3]); (n_t1'bb,[4;5]); (n_t1'bb,[6;7])] [4;0;2;6;7;3;5;1]));
  (*800*) AddTo n_t4'bbbbbbbb (Plain (Einsum [(n_t1'bb,[0;1]); (n_t1'bb,[2;3]); (n_t1'bb,[4;5]); (n_t1'bb,[6;7])] [2;0;6;4;1;7;5;3]));
  (*801*) AddTo n_t4'bbbbbbbb (Times (Einsum [(n_t1'bb,[0;1]); (n_t1'bb,[2;3]); (n_t1'bb,[4;5]); (n_t1'bb,[6;7])] [2;0;6;4;1;5;7;3]) (-1) 1);
  (*802*) AddTo n_t4'bbbbbbbb (Times (Einsum [(n_t1'bb,[0;1]); (n_t1'bb,[2;3]); (n_t1'bb,[4;5]); (n_t1'bb,[6;7])] [4;0;2;6;3;1;7;5]) (-1) 1);
  (*803*) AddTo n_t4'bbbbbbbb (Plain (Einsum [(n_t1'bb,[0;1]); (n_t1'bb,[2;3]); (n_t1'bb,[4;5]); (n_t1'bb,[6;7])] [2;0;6;4;5;1;7;3]));
  (*804*) AddTo n_t4'bbbbbbbb (Plain (Einsum [(n_t1'bb,[0;1]); (n_t1'bb,[2;3]); (n_t1'bb,[4;5]); (n_t1'bb,[6;7])] [4;0;2;6;3;7;1;5]));
  (*805*) AddTo n_t4'bbbbbbbb (Times (Einsum [(n_t1'bb,[0;1]); (n_t1'bb,[2;3]); (n_t1'bb,[4;5]); (n_t1'bb,[6;7])] [4;0;2;6;7;3;1;5]) (-1) 1);
  (*806*) Assign n_t4'abababab (Times (Copy n_c4'abababab) (1) 2);
  (*807*) AddTo n_t4'abababab (Times (Copy n_c4'abababab) (1) 2);
  (*808*) AddTo n_t4'abababab (Times (Einsum [(n_t3'babbab,[0;1;2;3;4;5]); (n_t1'aa,[6;7])] [6;0;1;2;7;3;4;5]) (-1) 2);
  (*809*) AddTo n_t4'abababab (Times (Einsum [(n_t3'babbab,[0;1;2;3;4;5]); (n_t1'aa,[6;7])] [6;0;1;2;7;3;4;5]) (-1) 2);
  (*810*) AddTo n_t4'abababab (Times (Einsum [(n_t3'babbab,[0;1;2;3;4;5]); (n_t1'aa,[6;7])] [6;0;1;2;4;3;7;5]) (1) 2);
  (*811*) AddTo n_t4'abababab (Times (Einsum [(n_t3'babbab,[0;1;2;3;4;5]); (n_t1'aa,[6;7])] [6;0;1;2;4;3;7;5]) (1) 2);
  (*812*) AddTo n_t4'abababab (Times (Einsum [(n_t1'bb,[0;1]); (n_t3'abaaba,[2;3;4;5;6;7])] [2;0;4;3;7;1;5;6]) (1) 2);
  (*813*) AddTo n_t4'abababab (Times (Einsum [(n_t1'bb,[0;1]); (n_t3'abaaba,[2;3;4;5;6;7])] [2;0;4;3;7;1;5;6]) (1) 2);
  (*814*) AddTo n_t4'abababab (Times (Einsum [(n_t1'bb,[0;1]); (n_t3'abaaba,[2;3;4;5;6;7])] [2;0;4;3;7;6;5;1]) (-1) 2);
  (*815*) AddTo n_t4'abababab (Times (Einsum [(n_t1'bb,[0;1]); (n_t3'abaaba,[2;3;4;5;6;7])] [2;0;4;3;7;6;5;1]) (-1) 2);
  (*816*) AddTo n_t4'abababab (Times (Einsum [(n_t3'babbab,[0;1;2;3;4;5]); (n_t1'aa,[6;7])] [1;0;6;2;7;3;4;5]) (1) 2);
  (*817*) AddTo n_t4'abababab (Times (Einsum [(n_t3'babbab,[0;1;2;3;4;5]); (n_t1'aa,[6;7])] [1;0;6;2;7;3;4;5]) (1) 2);
  (*818*) AddTo n_t4'abababab (Times (Einsum [(n_t1'aa,[0;1]); (n_t3'babbab,[2;3;4;5;6;7])] [3;2;0;4;6;5;1;7]) (-1) 2);
  (*819*) AddTo n_t4'abababab (Times (Einsum [(n_t1'aa,[0;1]); (n_t3'babbab,[2;3;4;5;6;7])] [3;2;0;4;6;5;1;7]) (-1) 2);
  (*820*) AddTo n_t4'abababab (Times (Einsum [(n_t3'abaaba,[0;1;2;3;4;5]); (n_t1'bb,[6;7])] [0;1;2;6;5;7;3;4]) (-1) 2);
  (*821*) AddTo n_t4'abababab (Times (Einsum [(n_t3'abaaba,[0;1;2;3;4;5]); (n_t1'bb,[6;7])] [0;1;2;6;5;7;3;4]) (-1) 2);
  (*822*) AddTo n_t4'abababab (Times (Einsum [(n_t1'bb,[0;1]); (n_t3'abaaba,[2;3;4;5;6;7])] [2;3;4;0;7;6;5;1]) (1) 2);
  (*823*) AddTo n_t4'abababab (Times (Einsum [(n_t1'bb,[0;1]); (n_t3'abaaba,[2;3;4;5;6;7])] [2;3;4;0;7;6;5;1]) (1) 2);
  (*824*) AddTo n_t4'abababab (Times (Einsum [(n_t2'abab,[0;1;2;3]); (n_t2'abab,[4;5;6;7])] [4;5;0;1;6;7;2;3]) (-1) 1);
  (*825*) AddTo n_t4'abababab (Plain (Einsum [(n_t2'abab,[0;1;2;3]); (n_t2'abab,[4;5;6;7])] [4;5;0;1;6;3;2;7]));
  (*826*) AddTo n_t4'abababab (Plain (Einsum [(n_t2'abab,[0;1;2;3]); (n_t2'abab,[4;5;6;7])] [0;1;4;5;6;3;2;7]));
  (*827*) AddTo n_t4'abababab (Times (Einsum [(n_t2'abab,[0;1;2;3]); (n_t2'abab,[4;5;6;7])] [4;5;0;1;2;3;6;7]) (-1) 1);
  (*828*) AddTo n_t4'abababab (Times (Einsum [(n_t2'bbbb,[0;1;2;3]); (n_t2'aaaa,[4;5;6;7])] [4;0;5;1;6;2;7;3]) (-1) 1);
  (*829*) AddTo n_t4'abababab (Plain (Einsum [(n_t2'abab,[0;1;2;3]); (n_t2'abab,[4;5;6;7])] [0;5;4;1;2;3;6;7]));
  (*830*) AddTo n_t4'abababab (Times (Einsum [(n_t2'abab,[0;1;2;3]); (n_t2'abab,[4;5;6;7])] [0;5;4;1;2;7;6;3]) (-1) 1);
  (*831*) AddTo n_t4'abababab (Times (Einsum [(n_t2'abab,[0;1;2;3]); (n_t2'abab,[4;5;6;7])] [0;5;4;1;6;3;2;7]) (-1) 1);
  (*832*) AddTo n_t4'abababab (Plain (Einsum [(n_t2'abab,[0;1;2;3]); (n_t2'abab,[4;5;6;7])] [0;5;4;1;6;7;2;3]));
  (*833*) AddTo n_t4'abababab (Times (Einsum [(n_t2'abab,[0;1;2;3]); (n_t1'bb,[4;5]); (n_t1'aa,[6;7])] [6;4;0;1;7;5;2;3]) (-1) 1);
  (*834*) AddTo n_t4'abababab (Plain (Einsum [(n_t2'abab,[0;1;2;3]); (n_t1'bb,[4;5]); (n_t1'aa,[6;7])] [6;4;0;1;7;3;2;5]));
  (*835*) AddTo n_t4'abababab (Times (Einsum [(n_t1'aa,[0;1]); (n_t2'bbbb,[2;3;4;5]); (n_t1'aa,[6;7])] [6;2;0;3;7;4;1;5]) (-1) 1);
  (*836*) AddTo n_t4'abababab (Plain (Einsum [(n_t1'bb,[0;1]); (n_t2'abab,[2;3;4;5]); (n_t1'aa,[6;7])] [6;3;2;0;7;1;4;5]));
  (*837*) AddTo n_t4'abababab (Times (Einsum [(n_t1'bb,[0;1]); (n_t1'aa,[2;3]); (n_t2'abab,[4;5;6;7])] [2;5;4;0;3;7;6;1]) (-1) 1);
  (*838*) AddTo n_t4'abababab (Plain (Einsum [(n_t2'abab,[0;1;2;3]); (n_t1'bb,[4;5]); (n_t1'aa,[6;7])] [6;4;0;1;2;5;7;3]));
  (*839*) AddTo n_t4'abababab (Times (Einsum [(n_t2'abab,[0;1;2;3]); (n_t1'bb,[4;5]); (n_t1'aa,[6;7])] [6;4;0;1;2;3;7;5]) (-1) 1);
  (*840*) AddTo n_t4'abababab (Plain (Einsum [(n_t2'bbbb,[0;1;2;3]); (n_t1'aa,[4;5]); (n_t1'aa,[6;7])] [6;0;4;1;5;2;7;3]));
  (*841*) AddTo n_t4'abababab (Times (Einsum [(n_t1'bb,[0;1]); (n_t2'abab,[2;3;4;5]); (n_t1'aa,[6;7])] [6;3;2;0;4;1;7;5]) (-1) 1);
  (*842*) AddTo n_t4'abababab (Plain (Einsum [(n_t1'bb,[0;1]); (n_t2'abab,[2;3;4;5]); (n_t1'aa,[6;7])] [6;3;2;0;4;5;7;1]));
  (*843*) AddTo n_t4'abababab (Plain (Einsum [(n_t2'abab,[0;1;2;3]); (n_t1'bb,[4;5]); (n_t1'aa,[6;7])] [0;4;6;1;7;5;2;3]));
  (*844*) AddTo n_t4'abababab (Times (Einsum [(n_t1'aa,[0;1]); (n_t2'abab,[2;3;4;5]); (n_t1'bb,[6;7])] [2;6;0;3;4;7;1;5]) (-1) 1);
  (*845*) AddTo n_t4'abababab (Times (Einsum [(n_t1'bb,[0;1]); (n_t1'bb,[2;3]); (n_t2'aaaa,[4;5;6;7])] [4;2;5;0;6;3;7;1]) (-1) 1);
  (*846*) AddTo n_t4'abababab (Times (Einsum [(n_t2'abab,[0;1;2;3]); (n_t1'bb,[4;5]); (n_t1'aa,[6;7])] [0;4;6;1;7;3;2;5]) (-1) 1);
  (*847*) AddTo n_t4'abababab (Plain (Einsum [(n_t1'aa,[0;1]); (n_t2'abab,[2;3;4;5]); (n_t1'bb,[6;7])] [2;6;0;3;4;5;1;7]));
  (*848*) AddTo n_t4'abababab (Plain (Einsum [(n_t1'bb,[0;1]); (n_t1'bb,[2;3]); (n_t2'aaaa,[4;5;6;7])] [4;2;5;0;6;1;7;3]));
  (*849*) AddTo n_t4'abababab (Times (Einsum [(n_t1'bb,[0;1]); (n_t2'abab,[2;3;4;5]); (n_t1'aa,[6;7])] [2;3;6;0;7;1;4;5]) (-1) 1);
  (*850*) AddTo n_t4'abababab (Plain (Einsum [(n_t1'bb,[0;1]); (n_t2'abab,[2;3;4;5]); (n_t1'aa,[6;7])] [2;3;6;0;7;5;4;1]));
  (*851*) AddTo n_t4'abababab (Plain (Einsum [(n_t1'aa,[0;1]); (n_t1'bb,[2;3]); (n_t2'abab,[4;5;6;7])] [4;5;0;2;6;3;1;7]));
  (*852*) AddTo n_t4'abababab (Times (Einsum [(n_t1'aa,[0;1]); (n_t1'bb,[2;3]); (n_t2'abab,[4;5;6;7])] [4;5;0;2;6;7;1;3]) (-1) 1);
  (*853*) AddTo n_t4'abababab (Times (Einsum [(n_t1'aa,[0;1]); (n_t1'bb,[2;3]); (n_t1'bb,[4;5]); (n_t1'aa,[6;7])] [6;4;0;2;7;5;1;3]) (-1) 1);
  (*854*) AddTo n_t4'abababab (Plain (Einsum [(n_t1'aa,[0;1]); (n_t1'bb,[2;3]); (n_t1'bb,[4;5]); (n_t1'aa,[6;7])] [6;4;0;2;7;3;1;5]));
  (*855*) AddTo n_t4'abababab (Plain (Einsum [(n_t1'bb,[0;1]); (n_t1'bb,[2;3]); (n_t1'aa,[4;5]); (n_t1'aa,[6;7])] [6;2;4;0;5;3;7;1]));
  (*856*) AddTo n_t4'abababab (Times (Einsum [(n_t1'bb,[0;1]); (n_t1'bb,[2;3]); (n_t1'aa,[4;5]); (n_t1'aa,[6;7])] [6;2;4;0;5;1;7;3]) (-1) 1);
  (*857*) Assign n_t4'abbbabbb (Times (Copy n_c4'abbbabbb) (1) 2);
  (*858*) AddTo n_t4'abbbabbb (Times (Copy n_c4'abbbabbb) (1) 2);
  (*859*) AddTo n_t4'abbbabbb (Times (Einsum [(n_t3'bbbbbb,[0;1;2;3;4;5]); (n_t1'aa,[6;7])] [6;0;1;2;7;3;4;5]) (-1) 2);
  (*860*) AddTo n_t4'abbbabbb (Times (Einsum [(n_t3'bbbbbb,[0;1;2;3;4;5]); (n_t1'aa,[6;7])] [6;0;1;2;7;3;4;5]) (-1) 2);
  (*861*) AddTo n_t4'abbbabbb (Times (Einsum [(n_t1'bb,[0;1]); (n_t3'babbab,[2;3;4;5;6;7])] [3;0;2;4;6;1;5;7]) (-1) 2);
  (*862*) AddTo n_t4'abbbabbb (Times (Einsum [(n_t1'bb,[0;1]); (n_t3'babbab,[2;3;4;5;6;7])] [3;0;2;4;6;1;5;7]) (-1) 2);
  (*863*) AddTo n_t4'abbbabbb (Times (Einsum [(n_t1'bb,[0;1]); (n_t3'babbab,[2;3;4;5;6;7])] [3;0;2;4;6;5;1;7]) (1) 2);
  (*864*) AddTo n_t4'abbbabbb (Times (Einsum [(n_t1'bb,[0;1]); (n_t3'babbab,[2;3;4;5;6;7])] [3;0;2;4;6;5;1;7]) (1) 2);
  (*865*) AddTo n_t4'abbbabbb (Times (Einsum [(n_t3'babbab,[0;1;2;3;4;5]); (n_t1'bb,[6;7])] [1;6;0;2;4;3;5;7]) (-1) 2);
  (*866*) AddTo n_t4'abbbabbb (Times (Einsum [(n_t3'babbab,[0;1;2;3;4;5]); (n_t1'bb,[6;7])] [1;6;0;2;4;3;5;7]) (-1) 2);
  (*867*) AddTo n_t4'abbbabbb (Times (Einsum [(n_t1'bb,[0;1]); (n_t3'babbab,[2;3;4;5;6;7])] [3;2;0;4;6;1;5;7]) (1) 2);
  (*868*) AddTo n_t4'abbbabbb (Times (Einsum [(n_t1'bb,[0;1]); (n_t3'babbab,[2;3;4;5;6;7])] [3;2;0;4;6;1;5;7]) (1) 2);
  (*869*) AddTo n_t4'abbbabbb (Times (Einsum [(n_t3'babbab,[0;1;2;3;4;5]); (n_t1'bb,[6;7])] [1;0;6;2;4;3;7;5]) (-1) 2);
  (*870*) AddTo n_t4'abbbabbb (Times (Einsum [(n_t3'babbab,[0;1;2;3;4;5]); (n_t1'bb,[6;7])] [1;0;6;2;4;3;7;5]) (-1) 2);
  (*871*) AddTo n_t4'abbbabbb (Times (Einsum [(n_t1'bb,[0;1]); (n_t3'babbab,[2;3;4;5;6;7])] [3;2;0;4;6;5;7;1]) (1) 2);
  (*872*) AddTo n_t4'abbbabbb (Times (Einsum [(n_t1'bb,[0;1]); (n_t3'babbab,[2;3;4;5;6;7])] [3;2;0;4;6;5;7;1]) (1) 2);
  (*873*) AddTo n_t4'abbbabbb (Times (Einsum [(n_t1'bb,[0;1]); (n_t3'babbab,[2;3;4;5;6;7])] [3;2;4;0;6;1;5;7]) (-1) 2);
  (*874*) AddTo n_t4'abbbabbb (Times (Einsum [(n_t1'bb,[0;1]); (n_t3'babbab,[2;3;4;5;6;7])] [3;2;4;0;6;1;5;7]) (-1) 2);
  (*875*) AddTo n_t4'abbbabbb (Times (Einsum [(n_t1'bb,[0;1]); (n_t3'babbab,[2;3;4;5;6;7])] [3;2;4;0;6;5;1;7]) (1) 2);
  (*876*) AddTo n_t4'abbbabbb (Times (Einsum [(n_t1'bb,[0;1]); (n_t3'babbab,[2;3;4;5;6;7])] [3;2;4;0;6;5;1;7]) (1) 2);
  (*877*) AddTo n_t4'abbbabbb (Times (Einsum [(n_t1'bb,[0;1]); (n_t3'babbab,[2;3;4;5;6;7])] [3;2;4;0;6;5;7;1]) (-1) 2);
  (*878*) AddTo n_t4'abbbabbb (Times (Einsum [(n_t1'bb,[0;1]); (n_t3'babbab,[2;3;4;5;6;7])] [3;2;4;0;6;5;7;1]) (-1) 2);
  (*879*) AddTo n_t4'abbbabbb (Times (Einsum [(n_t2'bbbb,[0;1;2;3]); (n_t2'abab,[4;5;6;7])] [4;5;0;1;6;7;2;3]) (-1) 1);
  (*880*) AddTo n_t4'abbbabbb (Plain (Einsum [(n_t2'bbbb,[0;1;2;3]); (n_t2'abab,[4;5;6;7])] [4;5;0;1;6;2;7;3]));
  (*881*) AddTo n_t4'abbbabbb (Times (Einsum [(n_t2'bbbb,[0;1;2;3]); (n_t2'abab,[4;5;6;7])] [4;5;0;1;6;2;3;7]) (-1) 1);
  (*882*) AddTo n_t4'abbbabbb (Plain (Einsum [(n_t2'abab,[0;1;2;3]); (n_t2'bbbb,[4;5;6;7])] [0;4;1;5;2;3;6;7]));
  (*883*) AddTo n_t4'abbbabbb (Times (Einsum [(n_t2'abab,[0;1;2;3]); (n_t2'bbbb,[4;5;6;7])] [0;4;1;5;2;6;3;7]) (-1) 1);
  (*884*) AddTo n_t4'abbbabbb (Plain (Einsum [(n_t2'abab,[0;1;2;3]); (n_t2'bbbb,[4;5;6;7])] [0;4;1;5;2;6;7;3]));
  (*885*) AddTo n_t4'abbbabbb (Times (Einsum [(n_t2'bbbb,[0;1;2;3]); (n_t2'abab,[4;5;6;7])] [4;0;1;5;6;7;2;3]) (-1) 1);
  (*886*) AddTo n_t4'abbbabbb (Plain (Einsum [(n_t2'abab,[0;1;2;3]); (n_t2'bbbb,[4;5;6;7])] [0;4;5;1;2;6;3;7]));
  (*887*) AddTo n_t4'abbbabbb (Times (Einsum [(n_t2'bbbb,[0;1;2;3]); (n_t2'abab,[4;5;6;7])] [4;0;1;5;6;2;3;7]) (-1) 1);
  (*888*) AddTo n_t4'abbbabbb (Times (Einsum [(n_t2'bbbb,[0;1;2;3]); (n_t1'bb,[4;5]); (n_t1'aa,[6;7])] [6;4;0;1;7;5;2;3]) (-1) 1);
  (*889*) AddTo n_t4'abbbabbb (Plain (Einsum [(n_t2'bbbb,[0;1;2;3]); (n_t1'bb,[4;5]); (n_t1'aa,[6;7])] [6;4;0;1;7;2;5;3]));
  (*890*) AddTo n_t4'abbbabbb (Times (Einsum [(n_t2'bbbb,[0;1;2;3]); (n_t1'bb,[4;5]); (n_t1'aa,[6;7])] [6;4;0;1;7;2;3;5]) (-1) 1);
  (*891*) AddTo n_t4'abbbabbb (Plain (Einsum [(n_t1'bb,[0;1]); (n_t1'aa,[2;3]); (n_t2'bbbb,[4;5;6;7])] [2;4;0;5;3;1;6;7]));
  (*892*) AddTo n_t4'abbbabbb (Times (Einsum [(n_t2'bbbb,[0;1;2;3]); (n_t1'bb,[4;5]); (n_t1'aa,[6;7])] [6;0;4;1;7;2;5;3]) (-1) 1);
  (*893*) AddTo n_t4'abbbabbb (Plain (Einsum [(n_t1'bb,[0;1]); (n_t2'bbbb,[2;3;4;5]); (n_t1'aa,[6;7])] [6;2;0;3;7;4;5;1]));
  (*894*) AddTo n_t4'abbbabbb (Times (Einsum [(n_t2'bbbb,[0;1;2;3]); (n_t1'bb,[4;5]); (n_t1'aa,[6;7])] [6;0;1;4;7;5;2;3]) (-1) 1);
  (*895*) AddTo n_t4'abbbabbb (Plain (Einsum [(n_t1'bb,[0;1]); (n_t2'bbbb,[2;3;4;5]); (n_t1'aa,[6;7])] [6;2;3;0;7;4;1;5]));
  (*896*) AddTo n_t4'abbbabbb (Times (Einsum [(n_t2'bbbb,[0;1;2;3]); (n_t1'bb,[4;5]); (n_t1'aa,[6;7])] [6;0;1;4;7;2;3;5]) (-1) 1);
  (*897*) AddTo n_t4'abbbabbb (Times (Einsum [(n_t1'bb,[0;1]); (n_t2'abab,[2;3;4;5]); (n_t1'bb,[6;7])] [2;6;0;3;4;7;1;5]) (-1) 1);
  (*898*) AddTo n_t4'abbbabbb (Plain (Einsum [(n_t1'bb,[0;1]); (n_t2'abab,[2;3;4;5]); (n_t1'bb,[6;7])] [2;6;0;3;4;7;5;1]));
  (*899*) AddTo n_t4'abbbabbb (Plain (Einsum [(n_t2'abab,[0;1;2;3]); (n_t1'bb,[4;5]); (n_t1'bb,[6;7])] [0;6;1;4;2;7;5;3]));
  (*900*) AddTo n_t4'abbbabbb (Times (Einsum [(n_t2'abab,[0;1;2;3]); (n_t1'bb,[4;5]); (n_t1'bb,[6;7])] [0;6;1;4;2;7;3;5]) (-1) 1);
  (*901*) AddTo n_t4'abbbabbb (Plain (Einsum [(n_t1'bb,[0;1]); (n_t1'bb,[2;3]); (n_t2'abab,[4;5;6;7])] [4;2;0;5;6;1;3;7]));
  (*902*) AddTo n_t4'abbbabbb (Times (Einsum [(n_t1'bb,[0;1]); (n_t1'bb,[2;3]); (n_t2'abab,[4;5;6;7])] [4;2;0;5;6;7;3;1]) (-1) 1);
  (*903*) AddTo n_t4'abbbabbb (Times (Einsum [(n_t2'abab,[0;1;2;3]); (n_t1'bb,[4;5]); (n_t1'bb,[6;7])] [0;6;1;4;2;5;7;3]) (-1) 1);
  (*904*) AddTo n_t4'abbbabbb (Plain (Einsum [(n_t1'bb,[0;1]); (n_t1'bb,[2;3]); (n_t2'abab,[4;5;6;7])] [4;2;5;0;6;7;3;1]));
  (*905*) AddTo n_t4'abbbabbb (Times (Einsum [(n_t1'bb,[0;1]); (n_t2'abab,[2;3;4;5]); (n_t1'bb,[6;7])] [2;6;0;3;4;1;5;7]) (-1) 1);
  (*906*) AddTo n_t4'abbbabbb (Plain (Einsum [(n_t1'bb,[0;1]); (n_t1'bb,[2;3]); (n_t2'abab,[4;5;6;7])] [4;2;0;5;6;7;1;3]));
  (*907*) AddTo n_t4'abbbabbb (Plain (Einsum [(n_t2'abab,[0;1;2;3]); (n_t1'bb,[4;5]); (n_t1'bb,[6;7])] [0;6;1;4;2;5;3;7]));
  (*908*) AddTo n_t4'abbbabbb (Times (Einsum [(n_t1'bb,[0;1]); (n_t1'bb,[2;3]); (n_t2'abab,[4;5;6;7])] [4;2;5;0;6;7;1;3]) (-1) 1);
  (*909*) AddTo n_t4'abbbabbb (Times (Einsum [(n_t1'bb,[0;1]); (n_t1'bb,[2;3]); (n_t2'abab,[4;5;6;7])] [4;5;0;2;6;1;3;7]) (-1) 1);
  (*910*) AddTo n_t4'abbbabbb (Plain (Einsum [(n_t1'bb,[0;1]); (n_t1'bb,[2;3]); (n_t2'abab,[4;5;6;7])] [4;5;0;2;6;1;7;3]));
  (*911*) AddTo n_t4'abbbabbb (Plain (Einsum [(n_t1'bb,[0;1]); (n_t1'bb,[2;3]); (n_t2'abab,[4;5;6;7])] [4;5;0;2;6;3;1;7]));
  (*912*) AddTo n_t4'abbbabbb (Times (Einsum [(n_t1'bb,[0;1]); (n_t1'bb,[2;3]); (n_t2'abab,[4;5;6;7])] [4;5;0;2;6;7;1;3]) (-1) 1);
  (*913*) AddTo n_t4'abbbabbb (Times (Einsum [(n_t1'bb,[0;1]); (n_t1'bb,[2;3]); (n_t2'abab,[4;5;6;7])] [4;5;0;2;6;3;7;1]) (-1) 1);
  (*914*) AddTo n_t4'abbbabbb (Plain (Einsum [(n_t1'bb,[0;1]); (n_t1'bb,[2;3]); (n_t2'abab,[4;5;6;7])] [4;5;0;2;6;7;3;1]));
  (*915*) AddTo n_t4'abbbabbb (Times (Einsum [(n_t1'bb,[0;1]); (n_t1'bb,[2;3]); (n_t1'aa,[4;5]); (n_t1'bb,[6;7])] [4;2;0;6;5;3;1;7]) (-1) 1);
  (*916*) AddTo n_t4'abbbabbb (Plain (Einsum [(n_t1'bb,[0;1]); (n_t1'bb,[2;3]); (n_t1'bb,[4;5]); (n_t1'aa,[6;7])] [6;4;0;2;7;5;3;1]));
  (*917*) AddTo n_t4'abbbabbb (Plain (Einsum [(n_t1'bb,[0;1]); (n_t1'bb,[2;3]); (n_t1'aa,[4;5]); (n_t1'bb,[6;7])] [4;2;0;6;5;1;3;7]));
  (*918*) AddTo n_t4'abbbabbb (Times (Einsum [(n_t1'bb,[0;1]); (n_t1'bb,[2;3]); (n_t1'bb,[4;5]); (n_t1'aa,[6;7])] [6;4;0;2;7;3;5;1]) (-1) 1);
  (*919*) AddTo n_t4'abbbabbb (Times (Einsum [(n_t1'bb,[0;1]); (n_t1'bb,[2;3]); (n_t1'aa,[4;5]); (n_t1'bb,[6;7])] [4;2;0;6;5;1;7;3]) (-1) 1);
  (*920*) AddTo n_t4'abbbabbb (Plain (Einsum [(n_t1'bb,[0;1]); (n_t1'bb,[2;3]); (n_t1'bb,[4;5]); (n_t1'aa,[6;7])] [6;4;0;2;7;3;1;5]))]
 [(n_t4'aaaaaaaa,[4;4;4;4;5;5;5;5]); (n_t4'aaabaaab,[4;4;4;6;5;5;5;7]); (n_t4'bbbbbbbb,[6;6;6;6;7;7;7;7]); (n_t4'abababab,[4;6;4;6;5;7;5;7]); (n_t4'abbbabbb,[4;6;6;6;5;7;7;7])].

(** ebcc/codegen/UecCC.py:924-938 [convert_t1_to_c1] *)
Definition UecCC_convert_t1_to_c1 : prog := mkprog
 [(n_t1'aa,[4;5]); (n_t1'bb,[6;7])]
 [(*935*) Assign n_c1'aa (Plain (Copy n_t1'aa));
  (*936*) Assign n_c1'bb (Plain (Copy n_t1'bb))]
 [(n_c1'aa,[4;5]); (n_c1'bb,[6;7])].

(** ebcc/codegen/UecCC.py:940-961 [convert_t2_to_c2] *)
Definition UecCC_convert_t2_to_c2 : prog := mkprog
 [(n_t2'aaaa,[4;4;5;5]); (n_t1'aa,[4;5]); (n_t2'abab,[4;6;5;7]); (n_t1'bb,[6;7]); (n_t2'bbbb,[6;6;7;7])]
 [(*952*) Assign n_c2'aaaa (Times (Copy n_t2'aaaa) (2) 1);
  (*953*) AddTo n_c2'aaaa (Times (Einsum [(n_t1'aa,[0;1]); (n_t1'aa,[2;3])] [2;0;1;3]) (-1) 1);
  (*954*) AddTo n_c2'aaaa (Plain (Einsum [(n_t1'aa,[0;1]); (n_t1'aa,[2;3])] [2;0;3;1]));
  (*955*) Assign n_c2'abab (Plain (Copy n_t2'abab));
  (*956*) AddTo n_c2'abab (Plain (Einsum [(n_t1'bb,[0;1]); (n_t1'aa,[2;3])] [2;0;3;1]));
  (*957*) Assign n_c2'bbbb (Times (Copy n_t2'bbbb) (2) 1);
  (*958*) AddTo n_c2'bbbb (Times (Einsum [(n_t1'bb,[0;1]); (n_t1'bb,[2;3])] [2;0;1;3]) (-1) 1);
  (*959*) AddTo n_c2'bbbb (Plain (Einsum [(n_t1'bb,[0;1]); (n_t1'bb,[2;3])] [2;0;3;1]))]
 [(n_c2'aaaa,[4;4;5;5]); (n_c2'abab,[4;6;5;7]); (n_c2'bbbb,[6;6;7;7])].

(** ebcc/codegen/UecCC.py:963-1029 [convert_t3_to_c3] *)
Definition UecCC_convert_t3_to_c3 : prog := mkprog
 [(n_t3'aaaaaa,[4;4;4;5;5;5]); (n_t2'aaaa,[4;4;5;5]); (n_t1'aa,[4;5]); (n_t3'abaaba,[4;6;4;5;7;5]); (n_t2'abab,[4;6;5;7]); (n_t1'bb,[6;7]); (n_t3'bbbbbb,[6;6;6;7;7;7]); (n_t2'bbbb,[6;6;7;7]); (n_t3'babbab,[6;4;6;7;5;7])]
 [(*976*) Assign n_c3'aaaaaa (Times (Copy n_t3'aaaaaa) (3) 1);
  (*977*) AddTo n_c3'aaaaaa (Times (Copy n_t3'aaaaaa) (3) 1);
  (*978*) AddTo n_c3'aaaaaa (Times (Einsum [(n_t2'aaaa,[0;1;2;3]); (n_t1'aa,[4;5])] [0;1;4;5;2;3]) (2) 1);
  (*979*) AddTo n_c3'aaaaaa (Times (Einsum [(n_t1'aa,[0;1]); (n_t2'aaaa,[2;3;4;5])] [2;0;3;1;4;5]) (-2) 1);
  (*980*) AddTo n_c3'aaaaaa (Times (Einsum [(n_t1'aa,[0;1]); (n_t2'aaaa,[2;3;4;5])] [2;3;0;4;1;5]) (-2) 1);
  (*981*) AddTo n_c3'aaaaaa (Times (Einsum [(n_t1'aa,[0;1]); (n_t2'aaaa,[2;3;4;5])] [2;0;3;4;1;5]) (2) 1);
  (*982*) AddTo n_c3'aaaaaa (Times (Einsum [(n_t2'aaaa,[0;1;2;3]); (n_t1'aa,[4;5])] [4;0;1;5;2;3]) (2) 1);
  (*983*) AddTo n_c3'aaaaaa (Times (Einsum [(n_t2'aaaa,[0;1;2;3]); (n_t1'aa,[4;5])] [4;0;1;2;5;3]) (-2) 1);
  (*984*) AddTo n_c3'aaaaaa (Times (Einsum [(n_t2'aaaa,[0;1;2;3]); (n_t1'aa,[4;5])] [0;1;4;2;3;5]) (2) 1);
  (*985*) AddTo n_c3'aaaaaa (Times (Einsum [(n_t1'aa,[0;1]); (n_t2'aaaa,[2;3;4;5])] [2;0;3;4;5;1]) (-2) 1);
  (*986*) AddTo n_c3'aaaaaa (Times (Einsum [(n_t2'aaaa,[0;1;2;3]); (n_t1'aa,[4;5])] [4;0;1;2;3;5]) (2) 1);
  (*987*) AddTo n_c3'aaaaaa (Times (Einsum [(n_t1'aa,[0;1]); (n_t1'aa,[2;3]); (n_t1'aa,[4;5])] [2;0;4;5;1;3]) (-1) 1);
  (*988*) AddTo n_c3'aaaaaa (Plain (Einsum [(n_t1'aa,[0;1]); (n_t1'aa,[2;3]); (n_t1'aa,[4;5])] [4;2;0;1;5;3]));
  (*989*) AddTo n_c3'aaaaaa (Plain (Einsum [(n_t1'aa,[0;1]); (n_t1'aa,[2;3]); (n_t1'aa,[4;5])] [0;4;2;5;3;1]));
  (*990*) AddTo n_c3'aaaaaa (Times (Einsum [(n_t1'aa,[0;1]); (n_t1'aa,[2;3]); (n_t1'aa,[4;5])] [4;0;2;1;5;3]) (-1) 1);
  (*991*) AddTo n_c3'aaaaaa (Times (Einsum [(n_t1'aa,[0;1]); (n_t1'aa,[2;3]); (n_t1'aa,[4;5])] [2;4;0;3;1;5]) (-1) 1);
  (*992*) AddTo n_c3'aaaaaa (Plain (Einsum [(n_t1'aa,[0;1]); (n_t1'aa,[2;3]); (n_t1'aa,[4;5])] [2;0;4;3;1;5]));
  (*993*) Assign n_c3'abaaba (Plain (Copy n_t3'abaaba));
  (*994*) AddTo n_c3'abaaba (Plain (Copy n_t3'abaaba));
  (*995*) AddTo n_c3'abaaba (Times (Einsum [(n_t2'abab,[0;1;2;3]); (n_t1'aa,[4;5])] [0;1;4;5;3;2]) (-1) 1);
  (*996*) AddTo n_c3'abaaba (Times (Einsum [(n_t1'bb,[0;1]); (n_t2'aaaa,[2;3;4;5])] [2;0;3;4;1;5]) (2) 1);
  (*997*) AddTo n_c3'abaaba (Plain (Einsum [(n_t1'aa,[0;1]); (n_t2'abab,[2;3;4;5])] [0;3;2;1;5;4]));
  (*998*) AddTo n_c3'abaaba (Plain (Einsum [(n_t1'aa,[0;1]); (n_t2'abab,[2;3;4;5])] [2;3;0;4;5;1]));
  (*999*) AddTo n_c3'abaaba (Times (Einsum [(n_t2'abab,[0;1;2;3]); (n_t1'aa,[4;5])] [4;1;0;2;3;5]) (-1) 1);
  (*1000*) AddTo n_c3'abaaba (Times (Einsum [(n_t1'bb,[0;1]); (n_t1'aa,[2;3]); (n_t1'aa,[4;5])] [4;0;2;3;1;5]) (-1) 1);
  (*1001*) AddTo n_c3'abaaba (Plain (Einsum [(n_t1'aa,[0;1]); (n_t1'bb,[2;3]); (n_t1'aa,[4;5])] [4;2;0;5;3;1]));
  (*1002*) Assign n_c3'bbbbbb (Times (Copy n_t3'bbbbbb) (3) 1);
  (*1003*) AddTo n_c3'bbbbbb (Times (Copy n_t3'bbbbbb) (3) 1);
  (*1004*) AddTo n_c3'bbbbbb (Times (Einsum [(n_t2'bbbb,[0;1;2;3]); (n_t1'bb,[4;5])] [0;1;4;5;2;3]) (2) 1);
  (*1005*) AddTo n_c3'bbbbbb (Times (Einsum [(n_t1'bb,[0;1]); (n_t2'bbbb,[2;3;4;5])] [2;0;3;1;4;5]) (-2) 1);
  (*1006*) AddTo n_c3'bbbbbb (Times (Einsum [(n_t1'bb,[0;1]); (n_t2'bbbb,[2;3;4;5])] [2;3;0;4;1;5]) (-2) 1);
  (*1007*) AddTo n_c3'bbbbbb (Times (Einsum [(n_t2'bbbb,[0;1;2;3]); (n_t1'bb,[4;5])] [0;4;1;2;5;3]) (2) 1);
  (*1008*) AddTo n_c3'bbbbbb (Times (Einsum [(n_t2'bbbb,[0;1;2;3]); (n_t1'bb,[4;5])] [4;0;1;5;2;3]) (2) 1);
  (*1009*) AddTo n_c3'bbbbbb (Times (Einsum [(n_t2'bbbb,[0;1;2;3]); (n_t1'bb,[4;5])] [4;0;1;2;5;3]) (-2) 1);
  (*1010*) AddTo n_c3'bbbbbb (Times (Einsum [(n_t2'bbbb,[0;1;2;3]); (n_t1'bb,[4;5])] [0;1;4;2;3;5]) (2) 1);
  (*1011*) AddTo n_c3'bbbbbb (Times (Einsum [(n_t1'bb,[0;1]); (n_t2'bbbb,[2;3;4;5])] [2;0;3;4;5;1]) (-2) 1);
  (*1012*) AddTo n_c3'bbbbbb (Times (Einsum [(n_t1'bb,[0;1]); (n_t2'bbbb,[2;3;4;5])] [0;2;3;4;5;1]) (2) 1);
  (*1013*) AddTo n_c3'bbbbbb (Times (Einsum [(n_t1'bb,[0;1]); (n_t1'bb,[2;3]); (n_t1'bb,[4;5])] [4;0;2;3;1;5]) (-1) 1);
  (*1014*) AddTo n_c3'bbbbbb (Plain (Einsum [(n_t1'bb,[0;1]); (n_t1'bb,[2;3]); (n_t1'bb,[4;5])] [4;0;2;3;5;1]));
  (*1015*) AddTo n_c3'bbbbbb (Plain (Einsum [(n_t1'bb,[0;1]); (n_t1'bb,[2;3]); (n_t1'bb,[4;5])] [2;0;4;1;5;3]));
  (*1016*) AddTo n_c3'bbbbbb (Times (Einsum [(n_t1'bb,[0;1]); (n_t1'bb,[2;3]); (n_t1'bb,[4;5])] [2;0;4;1;3;5]) (-1) 1);
  (*1017*) AddTo n_c3'bbbbbb (Times (Einsum [(n_t1'bb,[0;1]); (n_t1'bb,[2;3]); (n_t1'bb,[4;5])] [4;0;2;5;3;1]) (-1) 1);
  (*1018*) AddTo n_c3'bbbbbb (Plain (Einsum [(n_t1'bb,[0;1]); (n_t1'bb,[2;3]); (n_t1'bb,[4;5])] [4;0;2;5;1;3]));
  (*1019*) Assign n_c3'babbab (Plain (Copy n_t3'babbab));
  (*1020*) AddTo n_c3'babbab (Plain (Copy n_t3'babbab));
  (*1021*) AddTo n_c3'babbab (Times (Einsum [(n_t1'bb,[0;1]); (n_t2'abab,[2;3;4;5])] [3;2;0;1;4;5]) (-1) 1);
  (*1022*) AddTo n_c3'babbab (Times (Einsum [(n_t2'bbbb,[0;1;2;3]); (n_t1'aa,[4;5])] [0;4;1;2;5;3]) (2) 1);
  (*1023*) AddTo n_c3'babbab (Plain (Einsum [(n_t2'abab,[0;1;2;3]); (n_t1'bb,[4;5])] [4;0;1;5;2;3]));
  (*1024*) AddTo n_c3'babbab (Plain (Einsum [(n_t1'bb,[0;1]); (n_t2'abab,[2;3;4;5])] [3;2;0;5;4;1]));
  (*1025*) AddTo n_c3'babbab (Times (Einsum [(n_t2'abab,[0;1;2;3]); (n_t1'bb,[4;5])] [4;0;1;3;2;5]) (-1) 1);
  (*1026*) AddTo n_c3'babbab (Times (Einsum [(n_t1'bb,[0;1]); (n_t1'bb,[2;3]); (n_t1'aa,[4;5])] [2;4;0;1;5;3]) (-1) 1);
  (*1027*) AddTo n_c3'babbab (Plain (Einsum [(n_t1'bb,[0;1]); (n_t1'bb,[2;3]); (n_t1'aa,[4;5])] [2;4;0;3;5;1]))]
 [(n_c3'aaaaaa,[4;4;4;5;5;5]); (n_c3'abaaba,[4;6;4;5;7;5]); (n_c3'bbbbbb,[6;6;6;7;7;7]); (n_c3'babbab,[6;4;6;7;5;7])].

(** ebcc/codegen/UecCC.py:1031-1521 [convert_t4_to_c4] *)
Definition UecCC_convert_t4_to_c4 : prog := mkprog
 [(n_t4'aaaaaaaa,[4;4;4;4;5;5;5;5]); (n_t3'aaaaaa,[4;4;4;5;5;5]); (n_t1'aa,[4;5]); (n_t2'aaaa,[4;4;5;5]); (n_t4'aaabaaab,[4;4;4;6;5;5;5;7]); (n_t3'abaaba,[4;6;4;5;7;5]); (n_t1'bb,[6;7]); (n_t2'abab,[4;6;5;7]); (n_t4'bbbbbbbb,[6;6;6;6;7;7;7;7]); (n_t3'bbbbbb,[6;6;6;7;7;7]); (n_t2'bbbb,[6;6;7;7]); (n_t4'abababab,[4;6;4;6;5;7;5;7]); (n_t3'babbab,[6;4;6;7;5;7]); (n_t4'abbbabbb,[4;6;6;6;5;7;7;7])]
 [(*1045*) Assign n_c4'aaaaaaaa (Times (Transpose n_t4'aaaaaaaa [0;1;2;3;4;5;7;6]) (-12) 1);
  (*1046*) AddTo n_c4'aaaaaaaa (Times (Transpose n_t4'aaaaaaaa [0;1;2;3;4;5;7;6]) (-12) 1);
  (*1047*) AddTo n_c4'aaaaaaaa (Times (Einsum [(n_t3'aaaaaa,[0;1;2;3;4;5]); (n_t1'aa,[6;7])] [0;1;2;6;7;3;4;5]) (-3) 1);
  (*1048*) AddTo n_c4'aaaaaaaa (Times (Einsum [(n_t3'aaaaaa,[0;1;2;3;4;5]); (n_t1'aa,[6;7])] [0;1;2;6;7;3;4;5]) (-3) 1);
  (*1049*) AddTo n_c4'aaaaaaaa (Times (Einsum [(n_t3'aaaaaa,[0;1;2;3;4;5]); (n_t1'aa,[6;7])] [0;1;6;2;7;3;4;5]) (3) 1);
  (*1050*) AddTo n_c4'aaaaaaaa (Times (Einsum [(n_t3'aaaaaa,[0;1;2;3;4;5]); (n_t1'aa,[6;7])] [0;1;6;2;7;3;4;5]) (3) 1);
  (*1051*) AddTo n_c4'aaaaaaaa (Times (Einsum [(n_t3'aaaaaa,[0;1;2;3;4;5]); (n_t1'aa,[6;7])] [0;1;2;6;3;7;4;5]) (3) 1);
  (*1052*) AddTo n_c4'aaaaaaaa (Times (Einsum [(n_t3'aaaaaa,[0;1;2;3;4;5]); (n_t1'aa,[6;7])] [0;1;2;6;3;7;4;5]) (3) 1);
  (*1053*) AddTo n_c4'aaaaaaaa (Times (Einsum [(n_t1'aa,[0;1]); (n_t3'aaaaaa,[2;3;4;5;6;7])] [2;3;0;4;5;1;6;7]) (-3) 1);
  (*1054*) AddTo n_c4'aaaaaaaa (Times (Einsum [(n_t1'aa,[0;1]); (n_t3'aaaaaa,[2;3;4;5;6;7])] [2;3;0;4;5;1;6;7]) (-3) 1);
  (*1055*) AddTo n_c4'aaaaaaaa (Times (Einsum [(n_t3'aaaaaa,[0;1;2;3;4;5]); (n_t1'aa,[6;7])] [0;6;1;2;7;3;4;5]) (-3) 1);
  (*1056*) AddTo n_c4'aaaaaaaa (Times (Einsum [(n_t3'aaaaaa,[0;1;2;3;4;5]); (n_t1'aa,[6;7])] [0;6;1;2;7;3;4;5]) (-3) 1);
  (*1057*) AddTo n_c4'aaaaaaaa (Times (Einsum [(n_t3'aaaaaa,[0;1;2;3;4;5]); (n_t1'aa,[6;7])] [6;0;1;2;7;3;4;5]) (3) 1);
  (*1058*) AddTo n_c4'aaaaaaaa (Times (Einsum [(n_t3'aaaaaa,[0;1;2;3;4;5]); (n_t1'aa,[6;7])] [6;0;1;2;7;3;4;5]) (3) 1);
  (*1059*) AddTo n_c4'aaaaaaaa (Times (Einsum [(n_t1'aa,[0;1]); (n_t3'aaaaaa,[2;3;4;5;6;7])] [2;0;3;4;5;1;6;7]) (3) 1);
  (*1060*) AddTo n_c4'aaaaaaaa (Times (Einsum [(n_t1'aa,[0;1]); (n_t3'aaaaaa,[2;3;4;5;6;7])] [2;0;3;4;5;1;6;7]) (3) 1);
  (*1061*) AddTo n_c4'aaaaaaaa (Times (Einsum [(n_t3'aaaaaa,[0;1;2;3;4;5]); (n_t1'aa,[6;7])] [6;0;1;2;3;7;4;5]) (-3) 1);
  (*1062*) AddTo n_c4'aaaaaaaa (Times (Einsum [(n_t3'aaaaaa,[0;1;2;3;4;5]); (n_t1'aa,[6;7])] [6;0;1;2;3;7;4;5]) (-3) 1);
  (*1063*) AddTo n_c4'aaaaaaaa (Times (Einsum [(n_t1'aa,[0;1]); (n_t3'aaaaaa,[2;3;4;5;6;7])] [2;3;4;0;5;6;1;7]) (-3) 1);
  (*1064*) AddTo n_c4'aaaaaaaa (Times (Einsum [(n_t1'aa,[0;1]); (n_t3'aaaaaa,[2;3;4;5;6;7])] [2;3;4;0;5;6;1;7]) (-3) 1);
  (*1065*) AddTo n_c4'aaaaaaaa (Times (Einsum [(n_t3'aaaaaa,[0;1;2;3;4;5]); (n_t1'aa,[6;7])] [0;1;6;2;3;4;7;5]) (3) 1);
  (*1066*) AddTo n_c4'aaaaaaaa (Times (Einsum [(n_t3'aaaaaa,[0;1;2;3;4;5]); (n_t1'aa,[6;7])] [0;1;6;2;3;4;7;5]) (3) 1);
  (*1067*) AddTo n_c4'aaaaaaaa (Times (Einsum [(n_t1'aa,[0;1]); (n_t3'aaaaaa,[2;3;4;5;6;7])] [2;3;4;0;5;6;7;1]) (3) 1);
  (*1068*) AddTo n_c4'aaaaaaaa (Times (Einsum [(n_t1'aa,[0;1]); (n_t3'aaaaaa,[2;3;4;5;6;7])] [2;3;4;0;5;6;7;1]) (3) 1);
  (*1069*) AddTo n_c4'aaaaaaaa (Times (Einsum [(n_t3'aaaaaa,[0;1;2;3;4;5]); (n_t1'aa,[6;7])] [0;1;6;2;3;4;5;7]) (-3) 1);
  (*1070*) AddTo n_c4'aaaaaaaa (Times (Einsum [(n_t3'aaaaaa,[0;1;2;3;4;5]); (n_t1'aa,[6;7])] [0;1;6;2;3;4;5;7]) (-3) 1);
  (*1071*) AddTo n_c4'aaaaaaaa (Times (Einsum [(n_t3'aaaaaa,[0;1;2;3;4;5]); (n_t1'aa,[6;7])] [0;6;1;2;3;4;7;5]) (-3) 1);
  (*1072*) AddTo n_c4'aaaaaaaa (Times (Einsum [(n_t3'aaaaaa,[0;1;2;3;4;5]); (n_t1'aa,[6;7])] [0;6;1;2;3;4;7;5]) (-3) 1);
  (*1073*) AddTo n_c4'aaaaaaaa (Times (Einsum [(n_t3'aaaaaa,[0;1;2;3;4;5]); (n_t1'aa,[6;7])] [6;0;1;2;3;4;7;5]) (3) 1);
  (*1074*) AddTo n_c4'aaaaaaaa (Times (Einsum [(n_t3'aaaaaa,[0;1;2;3;4;5]); (n_t1'aa,[6;7])] [6;0;1;2;3;4;7;5]) (3) 1);
  (*1075*) AddTo n_c4'aaaaaaaa (Times (Einsum [(n_t1'aa,[0;1]); (n_t3'aaaaaa,[2;3;4;5;6;7])] [2;0;3;4;5;6;7;1]) (3) 1);
  (*1076*) AddTo n_c4'aaaaaaaa (Times (Einsum [(n_t1'aa,[0;1]); (n_t3'aaaaaa,[2;3;4;5;6;7])] [2;0;3;4;5;6;7;1]) (3) 1);
  (*1077*) AddTo n_c4'aaaaaaaa (Times (Einsum [(n_t3'aaaaaa,[0;1;2;3;4;5]); (n_t1'aa,[6;7])] [6;0;1;2;3;4;5;7]) (-3) 1);
  (*1078*) AddTo n_c4'aaaaaaaa (Times (Einsum [(n_t3'aaaaaa,[0;1;2;3;4;5]); (n_t1'aa,[6;7])] [6;0;1;2;3;4;5;7]) (-3) 1);
  (*1079*) AddTo n_c4'aaaaaaaa (Times (Einsum [(n_t2'aaaa,[0;1;2;3]); (n_t2'aaaa,[4;5;6;7])] [0;1;4;5;6;7;2;3]) (4) 1);
  (*1080*) AddTo n_c4'aaaaaaaa (Times (Einsum [(n_t2'aaaa,[0;1;2;3]); (n_t2'aaaa,[4;5;6;7])] [0;4;1;5;6;7;2;3]) (-4) 1);
  (*1081*) AddTo n_c4'aaaaaaaa (Times (Einsum [(n_t2'aaaa,[0;1;2;3]); (n_t2'aaaa,[4;5;6;7])] [4;5;0;1;2;6;3;7]) (-4) 1);
  (*1082*) AddTo n_c4'aaaaaaaa (Times (Einsum [(n_t2'aaaa,[0;1;2;3]); (n_t2'aaaa,[4;5;6;7])] [4;0;5;1;2;6;3;7]) (4) 1);
  (*1083*) AddTo n_c4'aaaaaaaa (Times (Einsum [(n_t2'aaaa,[0;1;2;3]); (n_t2'aaaa,[4;5;6;7])] [0;4;5;1;2;3;6;7]) (4) 1);
  (*1084*) AddTo n_c4'aaaaaaaa (Times (Einsum [(n_t2'aaaa,[0;1;2;3]); (n_t2'aaaa,[4;5;6;7])] [4;0;5;1;6;7;2;3]) (-4) 1);
  (*1085*) AddTo n_c4'aaaaaaaa (Times (Einsum [(n_t2'aaaa,[0;1;2;3]); (n_t2'aaaa,[4;5;6;7])] [4;0;1;5;6;2;7;3]) (-4) 1);
  (*1086*) AddTo n_c4'aaaaaaaa (Times (Einsum [(n_t2'aaaa,[0;1;2;3]); (n_t2'aaaa,[4;5;6;7])] [4;0;5;1;6;2;7;3]) (4) 1);
  (*1087*) AddTo n_c4'aaaaaaaa (Times (Einsum [(n_t2'aaaa,[0;1;2;3]); (n_t2'aaaa,[4;5;6;7])] [4;0;1;5;2;3;6;7]) (4) 1);
  (*1088*) AddTo n_c4'aaaaaaaa (Times (Einsum [(n_t2'aaaa,[0;1;2;3]); (n_t2'aaaa,[4;5;6;7])] [4;5;0;1;6;7;2;3]) (4) 1);
  (*1089*) AddTo n_c4'aaaaaaaa (Times (Einsum [(n_t2'aaaa,[0;1;2;3]); (n_t2'aaaa,[4;5;6;7])] [0;4;5;1;6;2;7;3]) (-4) 1);
  (*1090*) AddTo n_c4'aaaaaaaa (Times (Einsum [(n_t2'aaaa,[0;1;2;3]); (n_t2'aaaa,[4;5;6;7])] [0;1;4;5;2;6;3;7]) (-4) 1);
  (*1091*) AddTo n_c4'aaaaaaaa (Times (Einsum [(n_t2'aaaa,[0;1;2;3]); (n_t2'aaaa,[4;5;6;7])] [0;1;4;5;6;2;3;7]) (4) 1);
  (*1092*) AddTo n_c4'aaaaaaaa (Times (Einsum [(n_t2'aaaa,[0;1;2;3]); (n_t2'aaaa,[4;5;6;7])] [4;0;5;1;2;6;7;3]) (-4) 1);
  (*1093*) AddTo n_c4'aaaaaaaa (Times (Einsum [(n_t2'aaaa,[0;1;2;3]); (n_t2'aaaa,[4;5;6;7])] [4;0;1;5;6;2;3;7]) (4) 1);
  (*1094*) AddTo n_c4'aaaaaaaa (Times (Einsum [(n_t2'aaaa,[0;1;2;3]); (n_t2'aaaa,[4;5;6;7])] [4;0;5;1;6;2;3;7]) (-4) 1);
  (*1095*) AddTo n_c4'aaaaaaaa (Times (Einsum [(n_t2'aaaa,[0;1;2;3]); (n_t2'aaaa,[4;5;6;7])] [4;0;1;5;2;6;7;3]) (4) 1);
  (*1096*) AddTo n_c4'aaaaaaaa (Times (Einsum [(n_t2'aaaa,[0;1;2;3]); (n_t2'aaaa,[4;5;6;7])] [4;5;0;1;6;2;3;7]) (4) 1);
  (*1097*) AddTo n_c4'aaaaaaaa (Times (Einsum [(n_t1'aa,[0;1]); (n_t2'aaaa,[2;3;4;5]); (n_t1'aa,[6;7])] [2;3;6;0;1;7;4;5]) (-2) 1);
  (*1098*) AddTo n_c4'aaaaaaaa (Times (Einsum [(n_t1'aa,[0;1]); (n_t1'aa,[2;3]); (n_t2'aaaa,[4;5;6;7])] [4;0;5;2;3;1;6;7]) (2) 1);
  (*1099*) AddTo n_c4'aaaaaaaa (Times (Einsum [(n_t1'aa,[0;1]); (n_t2'aaaa,[2;3;4;5]); (n_t1'aa,[6;7])] [2;3;6;0;1;4;7;5]) (2) 1);
  (*1100*) AddTo n_c4'aaaaaaaa (Times (Einsum [(n_t2'aaaa,[0;1;2;3]); (n_t1'aa,[4;5]); (n_t1'aa,[6;7])] [0;6;1;4;5;2;7;3]) (-2) 1);
  (*1101*) AddTo n_c4'aaaaaaaa (Times (Einsum [(n_t1'aa,[0;1]); (n_t2'aaaa,[2;3;4;5]); (n_t1'aa,[6;7])] [6;2;3;0;1;7;4;5]) (-2) 1);
  (*1102*) AddTo n_c4'aaaaaaaa (Times (Einsum [(n_t2'aaaa,[0;1;2;3]); (n_t1'aa,[4;5]); (n_t1'aa,[6;7])] [6;0;4;1;5;7;2;3]) (2) 1);
  (*1103*) AddTo n_c4'aaaaaaaa (Times (Einsum [(n_t2'aaaa,[0;1;2;3]); (n_t1'aa,[4;5]); (n_t1'aa,[6;7])] [6;0;1;4;5;2;7;3]) (2) 1);
  (*1104*) AddTo n_c4'aaaaaaaa (Times (Einsum [(n_t2'aaaa,[0;1;2;3]); (n_t1'aa,[4;5]); (n_t1'aa,[6;7])] [4;0;6;1;7;2;5;3]) (-2) 1);
  (*1105*) AddTo n_c4'aaaaaaaa (Times (Einsum [(n_t1'aa,[0;1]); (n_t2'aaaa,[2;3;4;5]); (n_t1'aa,[6;7])] [2;3;6;0;1;4;5;7]) (-2) 1);
  (*1106*) AddTo n_c4'aaaaaaaa (Times (Einsum [(n_t1'aa,[0;1]); (n_t1'aa,[2;3]); (n_t2'aaaa,[4;5;6;7])] [4;0;5;2;3;6;7;1]) (2) 1);
  (*1107*) AddTo n_c4'aaaaaaaa (Times (Einsum [(n_t2'aaaa,[0;1;2;3]); (n_t1'aa,[4;5]); (n_t1'aa,[6;7])] [0;1;4;6;2;7;3;5]) (2) 1);
  (*1108*) AddTo n_c4'aaaaaaaa (Times (Einsum [(n_t1'aa,[0;1]); (n_t2'aaaa,[2;3;4;5]); (n_t1'aa,[6;7])] [2;0;3;6;4;7;5;1]) (-2) 1);
  (*1109*) AddTo n_c4'aaaaaaaa (Times (Einsum [(n_t1'aa,[0;1]); (n_t2'aaaa,[2;3;4;5]); (n_t1'aa,[6;7])] [6;2;3;0;1;4;5;7]) (-2) 1);
  (*1110*) AddTo n_c4'aaaaaaaa (Times (Einsum [(n_t2'aaaa,[0;1;2;3]); (n_t1'aa,[4;5]); (n_t1'aa,[6;7])] [6;0;4;1;5;2;3;7]) (2) 1);
  (*1111*) AddTo n_c4'aaaaaaaa (Times (Einsum [(n_t2'aaaa,[0;1;2;3]); (n_t1'aa,[4;5]); (n_t1'aa,[6;7])] [4;0;1;6;5;2;3;7]) (2) 1);
  (*1112*) AddTo n_c4'aaaaaaaa (Times (Einsum [(n_t1'aa,[0;1]); (n_t2'aaaa,[2;3;4;5]); (n_t1'aa,[6;7])] [0;2;6;3;1;4;5;7]) (-2) 1);
  (*1113*) AddTo n_c4'aaaaaaaa (Times (Einsum [(n_t2'aaaa,[0;1;2;3]); (n_t1'aa,[4;5]); (n_t1'aa,[6;7])] [0;1;6;4;7;5;2;3]) (2) 1);
  (*1114*) AddTo n_c4'aaaaaaaa (Times (Einsum [(n_t1'aa,[0;1]); (n_t2'aaaa,[2;3;4;5]); (n_t1'aa,[6;7])] [2;0;6;3;7;1;4;5]) (-2) 1);
  (*1115*) AddTo n_c4'aaaaaaaa (Times (Einsum [(n_t2'aaaa,[0;1;2;3]); (n_t1'aa,[4;5]); (n_t1'aa,[6;7])] [0;1;6;4;7;2;5;3]) (-2) 1);
  (*1116*) AddTo n_c4'aaaaaaaa (Times (Einsum [(n_t2'aaaa,[0;1;2;3]); (n_t1'aa,[4;5]); (n_t1'aa,[6;7])] [0;4;6;1;7;2;5;3]) (2) 1);
  (*1117*) AddTo n_c4'aaaaaaaa (Times (Einsum [(n_t2'aaaa,[0;1;2;3]); (n_t1'aa,[4;5]); (n_t1'aa,[6;7])] [0;1;6;4;7;2;3;5]) (2) 1);
  (*1118*) AddTo n_c4'aaaaaaaa (Times (Einsum [(n_t1'aa,[0;1]); (n_t2'aaaa,[2;3;4;5]); (n_t1'aa,[6;7])] [2;0;6;3;7;4;5;1]) (-2) 1);
  (*1119*) AddTo n_c4'aaaaaaaa (Times (Einsum [(n_t2'aaaa,[0;1;2;3]); (n_t1'aa,[4;5]); (n_t1'aa,[6;7])] [0;1;4;6;2;5;3;7]) (-2) 1);
  (*1120*) AddTo n_c4'aaaaaaaa (Times (Einsum [(n_t1'aa,[0;1]); (n_t2'aaaa,[2;3;4;5]); (n_t1'aa,[6;7])] [2;0;6;3;4;7;5;1]) (2) 1);
  (*1121*) AddTo n_c4'aaaaaaaa (Times (Einsum [(n_t2'aaaa,[0;1;2;3]); (n_t1'aa,[4;5]); (n_t1'aa,[6;7])] [0;4;1;6;5;7;2;3]) (-2) 1);
  (*1122*) AddTo n_c4'aaaaaaaa (Times (Einsum [(n_t1'aa,[0;1]); (n_t1'aa,[2;3]); (n_t2'aaaa,[4;5;6;7])] [4;2;0;5;3;1;6;7]) (2) 1);
  (*1123*) AddTo n_c4'aaaaaaaa (Times (Einsum [(n_t2'aaaa,[0;1;2;3]); (n_t1'aa,[4;5]); (n_t1'aa,[6;7])] [0;6;1;4;7;2;5;3]) (2) 1);
  (*1124*) AddTo n_c4'aaaaaaaa (Times (Einsum [(n_t2'aaaa,[0;1;2;3]); (n_t1'aa,[4;5]); (n_t1'aa,[6;7])] [0;4;6;1;5;2;7;3]) (-2) 1);
  (*1125*) AddTo n_c4'aaaaaaaa (Times (Einsum [(n_t2'aaaa,[0;1;2;3]); (n_t1'aa,[4;5]); (n_t1'aa,[6;7])] [6;4;0;1;5;7;2;3]) (-2) 1);
  (*1126*) AddTo n_c4'aaaaaaaa (Times (Einsum [(n_t1'aa,[0;1]); (n_t2'aaaa,[2;3;4;5]); (n_t1'aa,[6;7])] [6;0;2;3;7;1;4;5]) (2) 1);
  (*1127*) AddTo n_c4'aaaaaaaa (Times (Einsum [(n_t1'aa,[0;1]); (n_t1'aa,[2;3]); (n_t2'aaaa,[4;5;6;7])] [0;2;4;5;3;6;1;7]) (2) 1);
  (*1128*) AddTo n_c4'aaaaaaaa (Times (Einsum [(n_t1'aa,[0;1]); (n_t1'aa,[2;3]); (n_t2'aaaa,[4;5;6;7])] [0;2;4;5;1;6;3;7]) (-2) 1);
  (*1129*) AddTo n_c4'aaaaaaaa (Times (Einsum [(n_t2'aaaa,[0;1;2;3]); (n_t1'aa,[4;5]); (n_t1'aa,[6;7])] [0;4;1;6;5;2;3;7]) (-2) 1);
  (*1130*) AddTo n_c4'aaaaaaaa (Times (Einsum [(n_t1'aa,[0;1]); (n_t1'aa,[2;3]); (n_t2'aaaa,[4;5;6;7])] [4;2;0;5;3;6;7;1]) (2) 1);
  (*1131*) AddTo n_c4'aaaaaaaa (Times (Einsum [(n_t1'aa,[0;1]); (n_t2'aaaa,[2;3;4;5]); (n_t1'aa,[6;7])] [2;0;3;6;4;1;5;7]) (2) 1);
  (*1132*) AddTo n_c4'aaaaaaaa (Times (Einsum [(n_t1'aa,[0;1]); (n_t2'aaaa,[2;3;4;5]); (n_t1'aa,[6;7])] [2;0;6;3;4;1;5;7]) (-2) 1);
  (*1133*) AddTo n_c4'aaaaaaaa (Times (Einsum [(n_t2'aaaa,[0;1;2;3]); (n_t1'aa,[4;5]); (n_t1'aa,[6;7])] [6;4;0;1;5;2;3;7]) (-2) 1);
  (*1134*) AddTo n_c4'aaaaaaaa (Times (Einsum [(n_t1'aa,[0;1]); (n_t1'aa,[2;3]); (n_t2'aaaa,[4;5;6;7])] [2;0;4;5;3;6;7;1]) (2) 1);
  (*1135*) AddTo n_c4'aaaaaaaa (Times (Einsum [(n_t1'aa,[0;1]); (n_t2'aaaa,[2;3;4;5]); (n_t1'aa,[6;7])] [6;0;2;3;4;1;5;7]) (2) 1);
  (*1136*) AddTo n_c4'aaaaaaaa (Times (Einsum [(n_t1'aa,[0;1]); (n_t2'aaaa,[2;3;4;5]); (n_t1'aa,[6;7])] [6;0;2;3;4;7;5;1]) (-2) 1);
  (*1137*) AddTo n_c4'aaaaaaaa (Times (Einsum [(n_t2'aaaa,[0;1;2;3]); (n_t1'aa,[4;5]); (n_t1'aa,[6;7])] [4;0;1;6;5;7;2;3]) (2) 1);
  (*1138*) AddTo n_c4'aaaaaaaa (Times (Einsum [(n_t2'aaaa,[0;1;2;3]); (n_t1'aa,[4;5]); (n_t1'aa,[6;7])] [4;0;6;1;5;7;2;3]) (-2) 1);
  (*1139*) AddTo n_c4'aaaaaaaa (Times (Einsum [(n_t2'aaaa,[0;1;2;3]); (n_t1'aa,[4;5]); (n_t1'aa,[6;7])] [6;0;1;4;7;2;5;3]) (-2) 1);
  (*1140*) AddTo n_c4'aaaaaaaa (Times (Einsum [(n_t2'aaaa,[0;1;2;3]); (n_t1'aa,[4;5]); (n_t1'aa,[6;7])] [4;0;6;1;5;2;7;3]) (2) 1);
  (*1141*) AddTo n_c4'aaaaaaaa (Times (Einsum [(n_t1'aa,[0;1]); (n_t2'aaaa,[2;3;4;5]); (n_t1'aa,[6;7])] [2;3;6;0;4;1;7;5]) (-2) 1);
  (*1142*) AddTo n_c4'aaaaaaaa (Times (Einsum [(n_t2'aaaa,[0;1;2;3]); (n_t1'aa,[4;5]); (n_t1'aa,[6;7])] [0;4;1;6;2;7;5;3]) (2) 1);
  (*1143*) AddTo n_c4'aaaaaaaa (Times (Einsum [(n_t2'aaaa,[0;1;2;3]); (n_t1'aa,[4;5]); (n_t1'aa,[6;7])] [4;0;1;6;2;7;5;3]) (-2) 1);
  (*1144*) AddTo n_c4'aaaaaaaa (Times (Einsum [(n_t1'aa,[0;1]); (n_t1'aa,[2;3]); (n_t2'aaaa,[4;5;6;7])] [0;4;2;5;6;3;1;7]) (2) 1);
  (*1145*) AddTo n_c4'aaaaaaaa (Times (Einsum [(n_t2'aaaa,[0;1;2;3]); (n_t1'aa,[4;5]); (n_t1'aa,[6;7])] [6;0;1;4;2;5;3;7]) (2) 1);
  (*1146*) AddTo n_c4'aaaaaaaa (Times (Einsum [(n_t2'aaaa,[0;1;2;3]); (n_t1'aa,[4;5]); (n_t1'aa,[6;7])] [6;0;4;1;2;5;3;7]) (-2) 1);
  (*1147*) AddTo n_c4'aaaaaaaa (Times (Einsum [(n_t1'aa,[0;1]); (n_t1'aa,[2;3]); (n_t2'aaaa,[4;5;6;7])] [4;5;2;0;6;3;1;7]) (2) 1);
  (*1148*) AddTo n_c4'aaaaaaaa (Times (Einsum [(n_t2'aaaa,[0;1;2;3]); (n_t1'aa,[4;5]); (n_t1'aa,[6;7])] [0;6;4;1;2;5;7;3]) (-2) 1);
  (*1149*) AddTo n_c4'aaaaaaaa (Times (Einsum [(n_t1'aa,[0;1]); (n_t1'aa,[2;3]); (n_t2'aaaa,[4;5;6;7])] [4;0;5;2;6;1;3;7]) (-2) 1);
  (*1150*) AddTo n_c4'aaaaaaaa (Times (Einsum [(n_t1'aa,[0;1]); (n_t2'aaaa,[2;3;4;5]); (n_t1'aa,[6;7])] [2;0;6;3;4;1;7;5]) (2) 1);
  (*1151*) AddTo n_c4'aaaaaaaa (Times (Einsum [(n_t1'aa,[0;1]); (n_t2'aaaa,[2;3;4;5]); (n_t1'aa,[6;7])] [6;0;2;3;4;1;7;5]) (-2) 1);
  (*1152*) AddTo n_c4'aaaaaaaa (Times (Einsum [(n_t2'aaaa,[0;1;2;3]); (n_t1'aa,[4;5]); (n_t1'aa,[6;7])] [6;4;0;1;2;7;5;3]) (2) 1);
  (*1153*) AddTo n_c4'aaaaaaaa (Times (Einsum [(n_t1'aa,[0;1]); (n_t2'aaaa,[2;3;4;5]); (n_t1'aa,[6;7])] [6;2;3;0;4;7;1;5]) (2) 1);
  (*1154*) AddTo n_c4'aaaaaaaa (Times (Einsum [(n_t2'aaaa,[0;1;2;3]); (n_t1'aa,[4;5]); (n_t1'aa,[6;7])] [6;0;4;1;2;7;5;3]) (-2) 1);
  (*1155*) AddTo n_c4'aaaaaaaa (Times (Einsum [(n_t2'aaaa,[0;1;2;3]); (n_t1'aa,[4;5]); (n_t1'aa,[6;7])] [6;0;1;4;2;7;3;5]) (-2) 1);
  (*1156*) AddTo n_c4'aaaaaaaa (Times (Einsum [(n_t2'aaaa,[0;1;2;3]); (n_t1'aa,[4;5]); (n_t1'aa,[6;7])] [6;0;4;1;2;7;3;5]) (2) 1);
  (*1157*) AddTo n_c4'aaaaaaaa (Times (Einsum [(n_t1'aa,[0;1]); (n_t1'aa,[2;3]); (n_t2'aaaa,[4;5;6;7])] [4;5;2;0;6;7;1;3]) (-2) 1);
  (*1158*) AddTo n_c4'aaaaaaaa (Times (Einsum [(n_t1'aa,[0;1]); (n_t1'aa,[2;3]); (n_t2'aaaa,[4;5;6;7])] [4;0;5;2;6;7;3;1]) (2) 1);
  (*1159*) AddTo n_c4'aaaaaaaa (Times (Einsum [(n_t1'aa,[0;1]); (n_t2'aaaa,[2;3;4;5]); (n_t1'aa,[6;7])] [6;2;3;0;4;5;1;7]) (-2) 1);
  (*1160*) AddTo n_c4'aaaaaaaa (Times (Einsum [(n_t2'aaaa,[0;1;2;3]); (n_t1'aa,[4;5]); (n_t1'aa,[6;7])] [6;0;4;1;2;3;5;7]) (2) 1);
  (*1161*) AddTo n_c4'aaaaaaaa (Times (Einsum [(n_t2'aaaa,[0;1;2;3]); (n_t1'aa,[4;5]); (n_t1'aa,[6;7])] [4;0;1;6;2;3;5;7]) (2) 1);
  (*1162*) AddTo n_c4'aaaaaaaa (Times (Einsum [(n_t1'aa,[0;1]); (n_t1'aa,[2;3]); (n_t2'aaaa,[4;5;6;7])] [0;4;2;5;6;7;1;3]) (-2) 1);
  (*1163*) AddTo n_c4'aaaaaaaa (Times (Einsum [(n_t1'aa,[0;1]); (n_t2'aaaa,[2;3;4;5]); (n_t1'aa,[6;7])] [2;3;6;0;4;5;7;1]) (2) 1);
  (*1164*) AddTo n_c4'aaaaaaaa (Times (Einsum [(n_t1'aa,[0;1]); (n_t2'aaaa,[2;3;4;5]); (n_t1'aa,[6;7])] [2;0;6;3;4;5;7;1]) (-2) 1);
  (*1165*) AddTo n_c4'aaaaaaaa (Times (Einsum [(n_t2'aaaa,[0;1;2;3]); (n_t1'aa,[4;5]); (n_t1'aa,[6;7])] [0;4;1;6;2;3;5;7]) (-2) 1);
  (*1166*) AddTo n_c4'aaaaaaaa (Times (Einsum [(n_t2'aaaa,[0;1;2;3]); (n_t1'aa,[4;5]); (n_t1'aa,[6;7])] [0;6;4;1;2;3;7;5]) (2) 1);
  (*1167*) AddTo n_c4'aaaaaaaa (Times (Einsum [(n_t2'aaaa,[0;1;2;3]); (n_t1'aa,[4;5]); (n_t1'aa,[6;7])] [6;4;0;1;2;3;5;7]) (-2) 1);
  (*1168*) AddTo n_c4'aaaaaaaa (Times (Einsum [(n_t1'aa,[0;1]); (n_t1'aa,[2;3]); (n_t2'aaaa,[4;5;6;7])] [2;0;4;5;6;7;3;1]) (2) 1);
  (*1169*) AddTo n_c4'aaaaaaaa (Plain (Einsum [(n_t1'aa,[0;1]); (n_t1'aa,[2;3]); (n_t1'aa,[4;5]); (n_t1'aa,[6;7])] [6;4;2;0;1;3;5;7]));
  (*1170*) AddTo n_c4'aaaaaaaa (Times (Einsum [(n_t1'aa,[0;1]); (n_t1'aa,[2;3]); (n_t1'aa,[4;5]); (n_t1'aa,[6;7])] [2;0;4;6;7;5;3;1]) (-1) 1);
  (*1171*) AddTo n_c4'aaaaaaaa (Times (Einsum [(n_t1'aa,[0;1]); (n_t1'aa,[2;3]); (n_t1'aa,[4;5]); (n_t1'aa,[6;7])] [6;2;0;4;1;5;3;7]) (-1) 1);
  (*1172*) AddTo n_c4'aaaaaaaa (Plain (Einsum [(n_t1'aa,[0;1]); (n_t1'aa,[2;3]); (n_t1'aa,[4;5]); (n_t1'aa,[6;7])] [2;0;6;4;7;5;3;1]));
  (*1173*) AddTo n_c4'aaaaaaaa (Times (Einsum [(n_t1'aa,[0;1]); (n_t1'aa,[2;3]); (n_t1'aa,[4;5]); (n_t1'aa,[6;7])] [6;0;4;2;3;1;5;7]) (-1) 1);
  (*1174*) AddTo n_c4'aaaaaaaa (Plain (Einsum [(n_t1'aa,[0;1]); (n_t1'aa,[2;3]); (n_t1'aa,[4;5]); (n_t1'aa,[6;7])] [4;0;6;2;3;1;5;7]));
  (*1175*) AddTo n_c4'aaaaaaaa (Plain (Einsum [(n_t1'aa,[0;1]); (n_t1'aa,[2;3]); (n_t1'aa,[4;5]); (n_t1'aa,[6;7])] [6;2;4;0;3;1;5;7]));
  (*1176*) AddTo n_c4'aaaaaaaa (Times (Einsum [(n_t1'aa,[0;1]); (n_t1'aa,[2;3]); (n_t1'aa,[4;5]); (n_t1'aa,[6;7])] [0;4;2;6;5;7;1;3]) (-1) 1);
  (*1177*) AddTo n_c4'aaaaaaaa (Plain (Einsum [(n_t1'aa,[0;1]); (n_t1'aa,[2;3]); (n_t1'aa,[4;5]); (n_t1'aa,[6;7])] [6;0;4;2;3;7;5;1]));
  (*1178*) AddTo n_c4'aaaaaaaa (Times (Einsum [(n_t1'aa,[0;1]); (n_t1'aa,[2;3]); (n_t1'aa,[4;5]); (n_t1'aa,[6;7])] [6;4;2;0;1;7;5;3]) (-1) 1);
  (*1179*) AddTo n_c4'aaaaaaaa (Times (Einsum [(n_t1'aa,[0;1]); (n_t1'aa,[2;3]); (n_t1'aa,[4;5]); (n_t1'aa,[6;7])] [2;0;4;6;3;7;5;1]) (-1) 1);
  (*1180*) AddTo n_c4'aaaaaaaa (Plain (Einsum [(n_t1'aa,[0;1]); (n_t1'aa,[2;3]); (n_t1'aa,[4;5]); (n_t1'aa,[6;7])] [0;2;6;4;1;5;3;7]));
  (*1181*) AddTo n_c4'aaaaaaaa (Plain (Einsum [(n_t1'aa,[0;1]); (n_t1'aa,[2;3]); (n_t1'aa,[4;5]); (n_t1'aa,[6;7])] [6;0;4;2;5;1;3;7]));
  (*1182*) AddTo n_c4'aaaaaaaa (Times (Einsum [(n_t1'aa,[0;1]); (n_t1'aa,[2;3]); (n_t1'aa,[4;5]); (n_t1'aa,[6;7])] [2;0;6;4;7;1;3;5]) (-1) 1);
  (*1183*) AddTo n_c4'aaaaaaaa (Times (Einsum [(n_t1'aa,[0;1]); (n_t1'aa,[2;3]); (n_t1'aa,[4;5]); (n_t1'aa,[6;7])] [6;4;2;0;5;3;1;7]) (-1) 1);
  (*1184*) AddTo n_c4'aaaaaaaa (Plain (Einsum [(n_t1'aa,[0;1]); (n_t1'aa,[2;3]); (n_t1'aa,[4;5]); (n_t1'aa,[6;7])] [0;4;2;6;5;3;1;7]));
  (*1185*) AddTo n_c4'aaaaaaaa (Times (Einsum [(n_t1'aa,[0;1]); (n_t1'aa,[2;3]); (n_t1'aa,[4;5]); (n_t1'aa,[6;7])] [6;0;4;2;5;7;3;1]) (-1) 1);
  (*1186*) AddTo n_c4'aaaaaaaa (Plain (Einsum [(n_t1'aa,[0;1]); (n_t1'aa,[2;3]); (n_t1'aa,[4;5]); (n_t1'aa,[6;7])] [6;2;0;4;1;7;3;5]));
  (*1187*) AddTo n_c4'aaaaaaaa (Plain (Einsum [(n_t1'aa,[0;1]); (n_t1'aa,[2;3]); (n_t1'aa,[4;5]); (n_t1'aa,[6;7])] [4;0;6;2;5;7;3;1]));
  (*1188*) AddTo n_c4'aaaaaaaa (Times (Einsum [(n_t1'aa,[0;1]); (n_t1'aa,[2;3]); (n_t1'aa,[4;5]); (n_t1'aa,[6;7])] [2;4;0;6;3;1;5;7]) (-1) 1);
  (*1189*) AddTo n_c4'aaaaaaaa (Plain (Einsum [(n_t1'aa,[0;1]); (n_t1'aa,[2;3]); (n_t1'aa,[4;5]); (n_t1'aa,[6;7])] [6;4;2;0;5;7;1;3]));
  (*1190*) AddTo n_c4'aaaaaaaa (Times (Einsum [(n_t1'aa,[0;1]); (n_t1'aa,[2;3]); (n_t1'aa,[4;5]); (n_t1'aa,[6;7])] [6;2;4;0;3;7;5;1]) (-1) 1);
  (*1191*) AddTo n_c4'aaaaaaaa (Times (Einsum [(n_t1'aa,[0;1]); (n_t1'aa,[2;3]); (n_t1'aa,[4;5]); (n_t1'aa,[6;7])] [4;0;6;2;5;1;3;7]) (-1) 1);
  (*1192*) AddTo n_c4'aaaaaaaa (Plain (Einsum [(n_t1'aa,[0;1]); (n_t1'aa,[2;3]); (n_t1'aa,[4;5]); (n_t1'aa,[6;7])] [2;0;6;4;3;1;7;5]));
  (*1193*) Assign n_c4'aaabaaab (Times (Copy n_t4'aaabaaab) (3) 1);
  (*1194*) AddTo n_c4'aaabaaab (Times (Copy n_t4'aaabaaab) (3) 1);
  (*1195*) AddTo n_c4'aaabaaab (Times (Einsum [(n_t3'abaaba,[0;1;2;3;4;5]); (n_t1'aa,[6;7])] [0;2;6;1;7;5;3;4]) (-1) 1);
  (*1196*) AddTo n_c4'aaabaaab (Times (Einsum [(n_t3'abaaba,[0;1;2;3;4;5]); (n_t1'aa,[6;7])] [0;2;6;1;7;5;3;4]) (-1) 1);
  (*1197*) AddTo n_c4'aaabaaab (Plain (Einsum [(n_t3'abaaba,[0;1;2;3;4;5]); (n_t1'aa,[6;7])] [0;2;6;1;5;7;3;4]));
  (*1198*) AddTo n_c4'aaabaaab (Plain (Einsum [(n_t3'abaaba,[0;1;2;3;4;5]); (n_t1'aa,[6;7])] [0;2;6;1;5;7;3;4]));
  (*1199*) AddTo n_c4'aaabaaab (Plain (Einsum [(n_t1'aa,[0;1]); (n_t3'abaaba,[2;3;4;5;6;7])] [2;0;4;3;1;7;5;6]));
  (*1200*) AddTo n_c4'aaabaaab (Plain (Einsum [(n_t1'aa,[0;1]); (n_t3'abaaba,[2;3;4;5;6;7])] [2;0;4;3;1;7;5;6]));
  (*1201*) AddTo n_c4'aaabaaab (Plain (Einsum [(n_t1'aa,[0;1]); (n_t3'abaaba,[2;3;4;5;6;7])] [0;2;4;3;1;5;7;6]));
  (*1202*) AddTo n_c4'aaabaaab (Plain (Einsum [(n_t1'aa,[0;1]); (n_t3'abaaba,[2;3;4;5;6;7])] [0;2;4;3;1;5;7;6]));
  (*1203*) AddTo n_c4'aaabaaab (Times (Einsum [(n_t1'aa,[0;1]); (n_t3'abaaba,[2;3;4;5;6;7])] [2;0;4;3;7;1;5;6]) (-1) 1);
  (*1204*) AddTo n_c4'aaabaaab (Times (Einsum [(n_t1'aa,[0;1]); (n_t3'abaaba,[2;3;4;5;6;7])] [2;0;4;3;7;1;5;6]) (-1) 1);
  (*1205*) AddTo n_c4'aaabaaab (Times (Einsum [(n_t3'abaaba,[0;1;2;3;4;5]); (n_t1'aa,[6;7])] [6;0;2;1;3;7;5;4]) (-1) 1);
  (*1206*) AddTo n_c4'aaabaaab (Times (Einsum [(n_t3'abaaba,[0;1;2;3;4;5]); (n_t1'aa,[6;7])] [6;0;2;1;3;7;5;4]) (-1) 1);
  (*1207*) AddTo n_c4'aaabaaab (Times (Einsum [(n_t1'aa,[0;1]); (n_t3'abaaba,[2;3;4;5;6;7])] [2;4;0;3;7;5;1;6]) (-1) 1);
  (*1208*) AddTo n_c4'aaabaaab (Times (Einsum [(n_t1'aa,[0;1]); (n_t3'abaaba,[2;3;4;5;6;7])] [2;4;0;3;7;5;1;6]) (-1) 1);
  (*1209*) AddTo n_c4'aaabaaab (Times (Einsum [(n_t1'bb,[0;1]); (n_t3'aaaaaa,[2;3;4;5;6;7])] [2;3;4;0;5;6;7;1]) (3) 1);
  (*1210*) AddTo n_c4'aaabaaab (Times (Einsum [(n_t1'bb,[0;1]); (n_t3'aaaaaa,[2;3;4;5;6;7])] [2;3;4;0;5;6;7;1]) (3) 1);
  (*1211*) AddTo n_c4'aaabaaab (Plain (Einsum [(n_t1'aa,[0;1]); (n_t3'abaaba,[2;3;4;5;6;7])] [2;0;4;3;7;5;1;6]));
  (*1212*) AddTo n_c4'aaabaaab (Plain (Einsum [(n_t1'aa,[0;1]); (n_t3'abaaba,[2;3;4;5;6;7])] [2;0;4;3;7;5;1;6]));
  (*1213*) AddTo n_c4'aaabaaab (Plain (Einsum [(n_t1'aa,[0;1]); (n_t3'abaaba,[2;3;4;5;6;7])] [0;2;4;3;5;7;1;6]));
  (*1214*) AddTo n_c4'aaabaaab (Plain (Einsum [(n_t1'aa,[0;1]); (n_t3'abaaba,[2;3;4;5;6;7])] [0;2;4;3;5;7;1;6]));
  (*1215*) AddTo n_c4'aaabaaab (Times (Einsum [(n_t2'abab,[0;1;2;3]); (n_t2'aaaa,[4;5;6;7])] [4;0;5;1;6;7;2;3]) (-2) 1);
  (*1216*) AddTo n_c4'aaabaaab (Times (Einsum [(n_t2'aaaa,[0;1;2;3]); (n_t2'abab,[4;5;6;7])] [0;4;1;5;2;6;3;7]) (2) 1);
  (*1217*) AddTo n_c4'aaabaaab (Times (Einsum [(n_t2'abab,[0;1;2;3]); (n_t2'aaaa,[4;5;6;7])] [0;4;5;1;6;7;2;3]) (2) 1);
  (*1218*) AddTo n_c4'aaabaaab (Times (Einsum [(n_t2'aaaa,[0;1;2;3]); (n_t2'abab,[4;5;6;7])] [0;1;4;5;2;3;6;7]) (2) 1);
  (*1219*) AddTo n_c4'aaabaaab (Times (Einsum [(n_t2'aaaa,[0;1;2;3]); (n_t2'abab,[4;5;6;7])] [4;0;1;5;2;6;3;7]) (-2) 1);
  (*1220*) AddTo n_c4'aaabaaab (Times (Einsum [(n_t2'aaaa,[0;1;2;3]); (n_t2'abab,[4;5;6;7])] [0;1;4;5;2;6;3;7]) (-2) 1);
  (*1221*) AddTo n_c4'aaabaaab (Times (Einsum [(n_t2'abab,[0;1;2;3]); (n_t2'aaaa,[4;5;6;7])] [4;5;0;1;2;6;7;3]) (2) 1);
  (*1222*) AddTo n_c4'aaabaaab (Times (Einsum [(n_t2'abab,[0;1;2;3]); (n_t2'aaaa,[4;5;6;7])] [4;0;5;1;2;6;7;3]) (-2) 1);
  (*1223*) AddTo n_c4'aaabaaab (Times (Einsum [(n_t2'aaaa,[0;1;2;3]); (n_t2'abab,[4;5;6;7])] [4;0;1;5;6;2;3;7]) (2) 1);
  (*1224*) AddTo n_c4'aaabaaab (Plain (Einsum [(n_t2'abab,[0;1;2;3]); (n_t1'aa,[4;5]); (n_t1'aa,[6;7])] [6;0;4;1;5;7;2;3]));
  (*1225*) AddTo n_c4'aaabaaab (Times (Einsum [(n_t1'aa,[0;1]); (n_t2'abab,[2;3;4;5]); (n_t1'aa,[6;7])] [0;2;6;3;7;4;1;5]) (-1) 1);
  (*1226*) AddTo n_c4'aaabaaab (Times (Einsum [(n_t2'aaaa,[0;1;2;3]); (n_t1'bb,[4;5]); (n_t1'aa,[6;7])] [6;0;1;4;7;2;3;5]) (2) 1);
  (*1227*) AddTo n_c4'aaabaaab (Times (Einsum [(n_t1'aa,[0;1]); (n_t2'abab,[2;3;4;5]); (n_t1'aa,[6;7])] [2;0;6;3;7;1;4;5]) (-1) 1);
  (*1228*) AddTo n_c4'aaabaaab (Plain (Einsum [(n_t2'abab,[0;1;2;3]); (n_t1'aa,[4;5]); (n_t1'aa,[6;7])] [0;4;6;1;7;2;5;3]));
  (*1229*) AddTo n_c4'aaabaaab (Times (Einsum [(n_t2'aaaa,[0;1;2;3]); (n_t1'bb,[4;5]); (n_t1'aa,[6;7])] [0;1;6;4;7;2;3;5]) (2) 1);
  (*1230*) AddTo n_c4'aaabaaab (Times (Einsum [(n_t2'aaaa,[0;1;2;3]); (n_t1'bb,[4;5]); (n_t1'aa,[6;7])] [0;1;6;4;2;7;3;5]) (-2) 1);
  (*1231*) AddTo n_c4'aaabaaab (Plain (Einsum [(n_t2'abab,[0;1;2;3]); (n_t1'aa,[4;5]); (n_t1'aa,[6;7])] [0;6;4;1;7;5;2;3]));
  (*1232*) AddTo n_c4'aaabaaab (Times (Einsum [(n_t2'abab,[0;1;2;3]); (n_t1'aa,[4;5]); (n_t1'aa,[6;7])] [0;4;6;1;5;2;7;3]) (-1) 1);
  (*1233*) AddTo n_c4'aaabaaab (Times (Einsum [(n_t2'abab,[0;1;2;3]); (n_t1'aa,[4;5]); (n_t1'aa,[6;7])] [6;4;0;1;5;7;2;3]) (-1) 1);
  (*1234*) AddTo n_c4'aaabaaab (Plain (Einsum [(n_t1'aa,[0;1]); (n_t1'aa,[2;3]); (n_t2'abab,[4;5;6;7])] [2;0;4;5;3;1;6;7]));
  (*1235*) AddTo n_c4'aaabaaab (Plain (Einsum [(n_t2'abab,[0;1;2;3]); (n_t1'aa,[4;5]); (n_t1'aa,[6;7])] [4;6;0;1;7;2;5;3]));
  (*1236*) AddTo n_c4'aaabaaab (Times (Einsum [(n_t2'abab,[0;1;2;3]); (n_t1'aa,[4;5]); (n_t1'aa,[6;7])] [4;6;0;1;5;2;7;3]) (-1) 1);
  (*1237*) AddTo n_c4'aaabaaab (Times (Einsum [(n_t1'bb,[0;1]); (n_t1'aa,[2;3]); (n_t2'aaaa,[4;5;6;7])] [4;2;5;0;3;6;7;1]) (-2) 1);
  (*1238*) AddTo n_c4'aaabaaab (Times (Einsum [(n_t1'aa,[0;1]); (n_t2'aaaa,[2;3;4;5]); (n_t1'bb,[6;7])] [2;0;3;6;4;1;5;7]) (2) 1);
  (*1239*) AddTo n_c4'aaabaaab (Times (Einsum [(n_t2'abab,[0;1;2;3]); (n_t1'aa,[4;5]); (n_t1'aa,[6;7])] [4;0;6;1;5;7;2;3]) (-1) 1);
  (*1240*) AddTo n_c4'aaabaaab (Plain (Einsum [(n_t1'aa,[0;1]); (n_t2'abab,[2;3;4;5]); (n_t1'aa,[6;7])] [0;2;6;3;1;4;7;5]));
  (*1241*) AddTo n_c4'aaabaaab (Plain (Einsum [(n_t2'abab,[0;1;2;3]); (n_t1'aa,[4;5]); (n_t1'aa,[6;7])] [4;0;6;1;2;7;5;3]));
  (*1242*) AddTo n_c4'aaabaaab (Times (Einsum [(n_t1'aa,[0;1]); (n_t1'aa,[2;3]); (n_t2'abab,[4;5;6;7])] [4;2;0;5;6;1;3;7]) (-1) 1);
  (*1243*) AddTo n_c4'aaabaaab (Plain (Einsum [(n_t1'aa,[0;1]); (n_t1'aa,[2;3]); (n_t2'abab,[4;5;6;7])] [4;0;2;5;6;1;3;7]));
  (*1244*) AddTo n_c4'aaabaaab (Times (Einsum [(n_t1'aa,[0;1]); (n_t2'abab,[2;3;4;5]); (n_t1'aa,[6;7])] [6;0;2;3;4;1;7;5]) (-1) 1);
  (*1245*) AddTo n_c4'aaabaaab (Plain (Einsum [(n_t2'abab,[0;1;2;3]); (n_t1'aa,[4;5]); (n_t1'aa,[6;7])] [6;4;0;1;2;7;5;3]));
  (*1246*) AddTo n_c4'aaabaaab (Times (Einsum [(n_t2'abab,[0;1;2;3]); (n_t1'aa,[4;5]); (n_t1'aa,[6;7])] [6;0;4;1;2;7;5;3]) (-1) 1);
  (*1247*) AddTo n_c4'aaabaaab (Times (Einsum [(n_t1'bb,[0;1]); (n_t2'aaaa,[2;3;4;5]); (n_t1'aa,[6;7])] [6;2;3;0;4;7;5;1]) (-2) 1);
  (*1248*) AddTo n_c4'aaabaaab (Times (Einsum [(n_t2'aaaa,[0;1;2;3]); (n_t1'aa,[4;5]); (n_t1'bb,[6;7])] [4;0;1;6;2;3;5;7]) (2) 1);
  (*1249*) AddTo n_c4'aaabaaab (Times (Einsum [(n_t2'aaaa,[0;1;2;3]); (n_t1'bb,[4;5]); (n_t1'aa,[6;7])] [0;1;6;4;2;3;7;5]) (2) 1);
  (*1250*) AddTo n_c4'aaabaaab (Times (Einsum [(n_t1'bb,[0;1]); (n_t1'aa,[2;3]); (n_t2'aaaa,[4;5;6;7])] [4;2;5;0;6;7;3;1]) (-2) 1);
  (*1251*) AddTo n_c4'aaabaaab (Times (Einsum [(n_t1'aa,[0;1]); (n_t1'aa,[2;3]); (n_t1'bb,[4;5]); (n_t1'aa,[6;7])] [2;0;6;4;7;1;3;5]) (-1) 1);
  (*1252*) AddTo n_c4'aaabaaab (Plain (Einsum [(n_t1'aa,[0;1]); (n_t1'aa,[2;3]); (n_t1'bb,[4;5]); (n_t1'aa,[6;7])] [2;6;0;4;7;1;3;5]));
  (*1253*) AddTo n_c4'aaabaaab (Plain (Einsum [(n_t1'aa,[0;1]); (n_t1'bb,[2;3]); (n_t1'aa,[4;5]); (n_t1'aa,[6;7])] [6;4;0;2;1;7;5;3]));
  (*1254*) AddTo n_c4'aaabaaab (Times (Einsum [(n_t1'aa,[0;1]); (n_t1'bb,[2;3]); (n_t1'aa,[4;5]); (n_t1'aa,[6;7])] [4;6;0;2;5;1;7;3]) (-1) 1);
  (*1255*) AddTo n_c4'aaabaaab (Times (Einsum [(n_t1'bb,[0;1]); (n_t1'aa,[2;3]); (n_t1'aa,[4;5]); (n_t1'aa,[6;7])] [6;2;4;0;3;7;5;1]) (-1) 1);
  (*1256*) AddTo n_c4'aaabaaab (Plain (Einsum [(n_t1'aa,[0;1]); (n_t1'bb,[2;3]); (n_t1'aa,[4;5]); (n_t1'aa,[6;7])] [4;0;6;2;5;1;7;3]));
  (*1257*) Assign n_c4'bbbbbbbb (Times (Transpose n_t4'bbbbbbbb [0;1;2;3;4;5;7;6]) (-12) 1);
  (*1258*) AddTo n_c4'bbbbbbbb (Times (Transpose n_t4'bbbbbbbb [0;1;2;3;4;5;7;6]) (-12) 1);
  (*1259*) AddTo n_c4'bbbbbbbb (Times (Einsum [(n_t3'bbbbbb,[0;1;2;3;4;5]); (n_t1'bb,[6;7])] [0;1;2;6;7;3;4;5]) (-3) 1);
  (*1260*) AddTo n_c4'bbbbbbbb (Times (Einsum [(n_t3'bbbbbb,[0;1;2;3;4;5]); (n_t1'bb,[6;7])] [0;1;2;6;7;3;4;5]) (-3) 1);
  (*1261*) AddTo n_c4'bbbbbbbb (Times (Einsum [(n_t1'bb,[0;1]); (n_t3'bbbbbb,[2;3;4;5;6;7])] [2;3;0;4;1;5;6;7]) (3) 1);
  (*1262*) AddTo n_c4'bbbbbbbb (Times (Einsum [(n_t1'bb,[0;1]); (n_t3'bbbbbb,[2;3;4;5;6;7])] [2;3;0;4;1;5;6;7]) (3) 1);
  (*1263*) AddTo n_c4'bbbbbbbb (Times (Einsum [(n_t3'bbbbbb,[0;1;2;3;4;5]); (n_t1'bb,[6;7])] [0;1;2;6;3;7;4;5]) (3) 1);
  (*1264*) AddTo n_c4'bbbbbbbb (Times (Einsum [(n_t3'bbbbbb,[0;1;2;3;4;5]); (n_t1'bb,[6;7])] [0;1;2;6;3;7;4;5]) (3) 1);
  (*1265*) AddTo n_c4'bbbbbbbb (Times (Einsum [(n_t1'bb,[0;1]); (n_t3'bbbbbb,[2;3;4;5;6;7])] [2;3;0;4;5;1;6;7]) (-3) 1);
  (*1266*) AddTo n_c4'bbbbbbbb (Times (Einsum [(n_t1'bb,[0;1]); (n_t3'bbbbbb,[2;3;4;5;6;7])] [2;3;0;4;5;1;6;7]) (-3) 1);
  (*1267*) AddTo n_c4'bbbbbbbb (Times (Einsum [(n_t1'bb,[0;1]); (n_t3'bbbbbb,[2;3;4;5;6;7])] [2;0;3;4;1;5;6;7]) (-3) 1);
  (*1268*) AddTo n_c4'bbbbbbbb (Times (Einsum [(n_t1'bb,[0;1]); (n_t3'bbbbbb,[2;3;4;5;6;7])] [2;0;3;4;1;5;6;7]) (-3) 1);
  (*1269*) AddTo n_c4'bbbbbbbb (Times (Einsum [(n_t3'bbbbbb,[0;1;2;3;4;5]); (n_t1'bb,[6;7])] [6;0;1;2;7;3;4;5]) (3) 1);
  (*1270*) AddTo n_c4'bbbbbbbb (Times (Einsum [(n_t3'bbbbbb,[0;1;2;3;4;5]); (n_t1'bb,[6;7])] [6;0;1;2;7;3;4;5]) (3) 1);
  (*1271*) AddTo n_c4'bbbbbbbb (Times (Einsum [(n_t1'bb,[0;1]); (n_t3'bbbbbb,[2;3;4;5;6;7])] [2;0;3;4;5;1;6;7]) (3) 1);
  (*1272*) AddTo n_c4'bbbbbbbb (Times (Einsum [(n_t1'bb,[0;1]); (n_t3'bbbbbb,[2;3;4;5;6;7])] [2;0;3;4;5;1;6;7]) (3) 1);
  (*1273*) AddTo n_c4'bbbbbbbb (Times (Einsum [(n_t1'bb,[0;1]); (n_t3'bbbbbb,[2;3;4;5;6;7])] [0;2;3;4;5;1;6;7]) (-3) 1);
  (*1274*) AddTo n_c4'bbbbbbbb (Times (Einsum [(n_t1'bb,[0;1]); (n_t3'bbbbbb,[2;3;4;5;6;7])] [0;2;3;4;5;1;6;7]) (-3) 1);
  (*1275*) AddTo n_c4'bbbbbbbb (Times (Einsum [(n_t3'bbbbbb,[0;1;2;3;4;5]); (n_t1'bb,[6;7])] [0;1;2;6;3;4;7;5]) (-3) 1);
  (*1276*) AddTo n_c4'bbbbbbbb (Times (Einsum [(n_t3'bbbbbb,[0;1;2;3;4;5]); (n_t1'bb,[6;7])] [0;1;2;6;3;4;7;5]) (-3) 1);
  (*1277*) AddTo n_c4'bbbbbbbb (Times (Einsum [(n_t1'bb,[0;1]); (n_t3'bbbbbb,[2;3;4;5;6;7])] [2;3;0;4;5;6;1;7]) (3) 1);
  (*1278*) AddTo n_c4'bbbbbbbb (Times (Einsum [(n_t1'bb,[0;1]); (n_t3'bbbbbb,[2;3;4;5;6;7])] [2;3;0;4;5;6;1;7]) (3) 1);
  (*1279*) AddTo n_c4'bbbbbbbb (Times (Einsum [(n_t1'bb,[0;1]); (n_t3'bbbbbb,[2;3;4;5;6;7])] [2;3;4;0;5;6;7;1]) (3) 1);
  (*1280*) AddTo n_c4'bbbbbbbb (Times (Einsum [(n_t1'bb,[0;1]); (n_t3'bbbbbb,[2;3;4;5;6;7])] [2;3;4;0;5;6;7;1]) (3) 1);
  (*1281*) AddTo n_c4'bbbbbbbb (Times (Einsum [(n_t1'bb,[0;1]); (n_t3'bbbbbb,[2;3;4;5;6;7])] [2;3;0;4;5;6;7;1]) (-3) 1);
  (*1282*) AddTo n_c4'bbbbbbbb (Times (Einsum [(n_t1'bb,[0;1]); (n_t3'bbbbbb,[2;3;4;5;6;7])] [2;3;0;4;5;6;7;1]) (-3) 1);
  (*1283*) AddTo n_c4'bbbbbbbb (Times (Einsum [(n_t1'bb,[0;1]); (n_t3'bbbbbb,[2;3;4;5;6;7])] [2;0;3;4;5;6;1;7]) (-3) 1);
  (*1284*) AddTo n_c4'bbbbbbbb (Times (Einsum [(n_t1'bb,[0;1]); (n_t3'bbbbbb,[2;3;4;5;6;7])] [2;0;3;4;5;6;1;7]) (-3) 1);
  (*1285*) AddTo n_c4'bbbbbbbb (Times (Einsum [(n_t1'bb,[0;1]); (n_t3'bbbbbb,[2;3;4;5;6;7])] [0;2;3;4;5;6;1;7]) (3) 1);
  (*1286*) AddTo n_c4'bbbbbbbb (Times (Einsum [(n_t1'bb,[0;1]); (n_t3'bbbbbb,[2;3;4;5;6;7])] [0;2;3;4;5;6;1;7]) (3) 1);
  (*1287*) AddTo n_c4'bbbbbbbb (Times (Einsum [(n_t1'bb,[0;1]); (n_t3'bbbbbb,[2;3;4;5;6;7])] [2;0;3;4;5;6;7;1]) (3) 1);
  (*1288*) AddTo n_c4'bbbbbbbb (Times (Einsum [(n_t1'bb,[0;1]); (n_t3'bbbbbb,[2;3;4;5;6;7])] [2;0;3;4;5;6;7;1]) (3) 1);
  (*1289*) AddTo n_c4'bbbbbbbb (Times (Einsum [(n_t3'bbbbbb,[0;1;2;3;4;5]); (n_t1'bb,[6;7])] [6;0;1;2;3;4;5;7]) (-3) 1);
  (*1290*) AddTo n_c4'bbbbbbbb (Times (Einsum [(n_t3'bbbbbb,[0;1;2;3;4;5]); (n_t1'bb,[6;7])] [6;0;1;2;3;4;5;7]) (-3) 1);
  (*1291*) AddTo n_c4'bbbbbbbb (Times (Einsum [(n_t2'bbbb,[0;1;2;3]); (n_t2'bbbb,[4;5;6;7])] [0;1;4;5;6;7;2;3]) (4) 1);
  (*1292*) AddTo n_c4'bbbbbbbb (Times (Einsum [(n_t2'bbbb,[0;1;2;3]); (n_t2'bbbb,[4;5;6;7])] [4;0;5;1;2;3;6;7]) (-4) 1);
  (*1293*) AddTo n_c4'bbbbbbbb (Times (Einsum [(n_t2'bbbb,[0;1;2;3]); (n_t2'bbbb,[4;5;6;7])] [4;5;0;1;2;6;3;7]) (-4) 1);
  (*1294*) AddTo n_c4'bbbbbbbb (Times (Einsum [(n_t2'bbbb,[0;1;2;3]); (n_t2'bbbb,[4;5;6;7])] [0;4;1;5;6;2;7;3]) (4) 1);
  (*1295*) AddTo n_c4'bbbbbbbb (Times (Einsum [(n_t2'bbbb,[0;1;2;3]); (n_t2'bbbb,[4;5;6;7])] [0;4;5;1;2;3;6;7]) (4) 1);
  (*1296*) AddTo n_c4'bbbbbbbb (Times (Einsum [(n_t2'bbbb,[0;1;2;3]); (n_t2'bbbb,[4;5;6;7])] [0;4;1;5;2;3;6;7]) (-4) 1);
  (*1297*) AddTo n_c4'bbbbbbbb (Times (Einsum [(n_t2'bbbb,[0;1;2;3]); (n_t2'bbbb,[4;5;6;7])] [0;4;5;1;2;6;3;7]) (-4) 1);
  (*1298*) AddTo n_c4'bbbbbbbb (Times (Einsum [(n_t2'bbbb,[0;1;2;3]); (n_t2'bbbb,[4;5;6;7])] [0;4;1;5;2;6;3;7]) (4) 1);
  (*1299*) AddTo n_c4'bbbbbbbb (Times (Einsum [(n_t2'bbbb,[0;1;2;3]); (n_t2'bbbb,[4;5;6;7])] [0;4;5;1;6;7;2;3]) (4) 1);
  (*1300*) AddTo n_c4'bbbbbbbb (Times (Einsum [(n_t2'bbbb,[0;1;2;3]); (n_t2'bbbb,[4;5;6;7])] [0;1;4;5;2;3;6;7]) (4) 1);
  (*1301*) AddTo n_c4'bbbbbbbb (Times (Einsum [(n_t2'bbbb,[0;1;2;3]); (n_t2'bbbb,[4;5;6;7])] [0;4;5;1;6;2;7;3]) (-4) 1);
  (*1302*) AddTo n_c4'bbbbbbbb (Times (Einsum [(n_t2'bbbb,[0;1;2;3]); (n_t2'bbbb,[4;5;6;7])] [0;1;4;5;2;6;3;7]) (-4) 1);
  (*1303*) AddTo n_c4'bbbbbbbb (Times (Einsum [(n_t2'bbbb,[0;1;2;3]); (n_t2'bbbb,[4;5;6;7])] [0;1;4;5;6;2;3;7]) (4) 1);
  (*1304*) AddTo n_c4'bbbbbbbb (Times (Einsum [(n_t2'bbbb,[0;1;2;3]); (n_t2'bbbb,[4;5;6;7])] [4;0;5;1;2;6;7;3]) (-4) 1);
  (*1305*) AddTo n_c4'bbbbbbbb (Times (Einsum [(n_t2'bbbb,[0;1;2;3]); (n_t2'bbbb,[4;5;6;7])] [0;4;5;1;2;6;7;3]) (4) 1);
  (*1306*) AddTo n_c4'bbbbbbbb (Times (Einsum [(n_t2'bbbb,[0;1;2;3]); (n_t2'bbbb,[4;5;6;7])] [4;0;5;1;6;2;3;7]) (-4) 1);
  (*1307*) AddTo n_c4'bbbbbbbb (Times (Einsum [(n_t2'bbbb,[0;1;2;3]); (n_t2'bbbb,[4;5;6;7])] [0;4;5;1;6;2;3;7]) (4) 1);
  (*1308*) AddTo n_c4'bbbbbbbb (Times (Einsum [(n_t2'bbbb,[0;1;2;3]); (n_t2'bbbb,[4;5;6;7])] [0;1;4;5;2;6;7;3]) (4) 1);
  (*1309*) AddTo n_c4'bbbbbbbb (Times (Einsum [(n_t2'bbbb,[0;1;2;3]); (n_t1'bb,[4;5]); (n_t1'bb,[6;7])] [0;1;4;6;7;5;2;3]) (-2) 1);
  (*1310*) AddTo n_c4'bbbbbbbb (Times (Einsum [(n_t1'bb,[0;1]); (n_t2'bbbb,[2;3;4;5]); (n_t1'bb,[6;7])] [2;0;3;6;7;1;4;5]) (2) 1);
  (*1311*) AddTo n_c4'bbbbbbbb (Times (Einsum [(n_t1'bb,[0;1]); (n_t1'bb,[2;3]); (n_t2'bbbb,[4;5;6;7])] [4;5;0;2;3;6;1;7]) (2) 1);
  (*1312*) AddTo n_c4'bbbbbbbb (Times (Einsum [(n_t1'bb,[0;1]); (n_t2'bbbb,[2;3;4;5]); (n_t1'bb,[6;7])] [2;0;3;6;7;4;1;5]) (-2) 1);
  (*1313*) AddTo n_c4'bbbbbbbb (Times (Einsum [(n_t2'bbbb,[0;1;2;3]); (n_t1'bb,[4;5]); (n_t1'bb,[6;7])] [4;0;1;6;7;5;2;3]) (-2) 1);
  (*1314*) AddTo n_c4'bbbbbbbb (Times (Einsum [(n_t1'bb,[0;1]); (n_t1'bb,[2;3]); (n_t2'bbbb,[4;5;6;7])] [2;4;0;5;1;3;6;7]) (2) 1);
  (*1315*) AddTo n_c4'bbbbbbbb (Times (Einsum [(n_t1'bb,[0;1]); (n_t2'bbbb,[2;3;4;5]); (n_t1'bb,[6;7])] [0;2;3;6;7;4;1;5]) (2) 1);
  (*1316*) AddTo n_c4'bbbbbbbb (Times (Einsum [(n_t1'bb,[0;1]); (n_t1'bb,[2;3]); (n_t2'bbbb,[4;5;6;7])] [2;4;0;5;1;6;3;7]) (-2) 1);
  (*1317*) AddTo n_c4'bbbbbbbb (Times (Einsum [(n_t2'bbbb,[0;1;2;3]); (n_t1'bb,[4;5]); (n_t1'bb,[6;7])] [0;1;4;6;7;2;3;5]) (-2) 1);
  (*1318*) AddTo n_c4'bbbbbbbb (Times (Einsum [(n_t1'bb,[0;1]); (n_t2'bbbb,[2;3;4;5]); (n_t1'bb,[6;7])] [2;0;3;6;7;4;5;1]) (2) 1);
  (*1319*) AddTo n_c4'bbbbbbbb (Times (Einsum [(n_t2'bbbb,[0;1;2;3]); (n_t1'bb,[4;5]); (n_t1'bb,[6;7])] [0;1;4;6;2;7;3;5]) (2) 1);
  (*1320*) AddTo n_c4'bbbbbbbb (Times (Einsum [(n_t1'bb,[0;1]); (n_t2'bbbb,[2;3;4;5]); (n_t1'bb,[6;7])] [2;0;3;6;4;7;5;1]) (-2) 1);
  (*1321*) AddTo n_c4'bbbbbbbb (Times (Einsum [(n_t2'bbbb,[0;1;2;3]); (n_t1'bb,[4;5]); (n_t1'bb,[6;7])] [4;0;1;6;7;2;3;5]) (-2) 1);
  (*1322*) AddTo n_c4'bbbbbbbb (Times (Einsum [(n_t1'bb,[0;1]); (n_t1'bb,[2;3]); (n_t2'bbbb,[4;5;6;7])] [2;4;0;5;1;6;7;3]) (2) 1);
  (*1323*) AddTo n_c4'bbbbbbbb (Times (Einsum [(n_t2'bbbb,[0;1;2;3]); (n_t1'bb,[4;5]); (n_t1'bb,[6;7])] [4;0;1;6;5;2;3;7]) (2) 1);
  (*1324*) AddTo n_c4'bbbbbbbb (Times (Einsum [(n_t1'bb,[0;1]); (n_t1'bb,[2;3]); (n_t2'bbbb,[4;5;6;7])] [2;4;0;5;3;6;7;1]) (-2) 1);
  (*1325*) AddTo n_c4'bbbbbbbb (Times (Einsum [(n_t2'bbbb,[0;1;2;3]); (n_t1'bb,[4;5]); (n_t1'bb,[6;7])] [0;1;4;6;5;7;2;3]) (2) 1);
  (*1326*) AddTo n_c4'bbbbbbbb (Times (Einsum [(n_t1'bb,[0;1]); (n_t1'bb,[2;3]); (n_t2'bbbb,[4;5;6;7])] [4;0;2;5;3;1;6;7]) (-2) 1);
  (*1327*) AddTo n_c4'bbbbbbbb (Times (Einsum [(n_t1'bb,[0;1]); (n_t1'bb,[2;3]); (n_t2'bbbb,[4;5;6;7])] [4;5;0;2;1;6;3;7]) (-2) 1);
  (*1328*) AddTo n_c4'bbbbbbbb (Times (Einsum [(n_t1'bb,[0;1]); (n_t2'bbbb,[2;3;4;5]); (n_t1'bb,[6;7])] [2;0;6;3;7;4;1;5]) (2) 1);
  (*1329*) AddTo n_c4'bbbbbbbb (Times (Einsum [(n_t2'bbbb,[0;1;2;3]); (n_t1'bb,[4;5]); (n_t1'bb,[6;7])] [0;1;4;6;5;2;3;7]) (2) 1);
  (*1330*) AddTo n_c4'bbbbbbbb (Times (Einsum [(n_t1'bb,[0;1]); (n_t1'bb,[2;3]); (n_t2'bbbb,[4;5;6;7])] [4;0;2;5;3;6;7;1]) (-2) 1);
  (*1331*) AddTo n_c4'bbbbbbbb (Times (Einsum [(n_t2'bbbb,[0;1;2;3]); (n_t1'bb,[4;5]); (n_t1'bb,[6;7])] [0;1;4;6;2;5;3;7]) (-2) 1);
  (*1332*) AddTo n_c4'bbbbbbbb (Times (Einsum [(n_t1'bb,[0;1]); (n_t1'bb,[2;3]); (n_t2'bbbb,[4;5;6;7])] [4;0;2;5;6;3;7;1]) (2) 1);
  (*1333*) AddTo n_c4'bbbbbbbb (Times (Einsum [(n_t1'bb,[0;1]); (n_t2'bbbb,[2;3;4;5]); (n_t1'bb,[6;7])] [2;0;3;6;1;7;4;5]) (-2) 1);
  (*1334*) AddTo n_c4'bbbbbbbb (Times (Einsum [(n_t1'bb,[0;1]); (n_t2'bbbb,[2;3;4;5]); (n_t1'bb,[6;7])] [2;0;6;3;1;7;4;5]) (2) 1);
  (*1335*) AddTo n_c4'bbbbbbbb (Times (Einsum [(n_t1'bb,[0;1]); (n_t2'bbbb,[2;3;4;5]); (n_t1'bb,[6;7])] [2;0;3;6;1;4;7;5]) (2) 1);
  (*1336*) AddTo n_c4'bbbbbbbb (Times (Einsum [(n_t1'bb,[0;1]); (n_t1'bb,[2;3]); (n_t2'bbbb,[4;5;6;7])] [4;0;2;5;1;6;3;7]) (-2) 1);
  (*1337*) AddTo n_c4'bbbbbbbb (Times (Einsum [(n_t1'bb,[0;1]); (n_t1'bb,[2;3]); (n_t2'bbbb,[4;5;6;7])] [2;0;4;5;1;3;6;7]) (-2) 1);
  (*1338*) AddTo n_c4'bbbbbbbb (Times (Einsum [(n_t1'bb,[0;1]); (n_t1'bb,[2;3]); (n_t2'bbbb,[4;5;6;7])] [2;0;4;5;3;1;6;7]) (2) 1);
  (*1339*) AddTo n_c4'bbbbbbbb (Times (Einsum [(n_t2'bbbb,[0;1;2;3]); (n_t1'bb,[4;5]); (n_t1'bb,[6;7])] [6;4;0;1;5;2;7;3]) (2) 1);
  (*1340*) AddTo n_c4'bbbbbbbb (Times (Einsum [(n_t1'bb,[0;1]); (n_t2'bbbb,[2;3;4;5]); (n_t1'bb,[6;7])] [6;0;2;3;7;4;1;5]) (-2) 1);
  (*1341*) AddTo n_c4'bbbbbbbb (Times (Einsum [(n_t1'bb,[0;1]); (n_t1'bb,[2;3]); (n_t2'bbbb,[4;5;6;7])] [4;0;5;2;1;6;7;3]) (-2) 1);
  (*1342*) AddTo n_c4'bbbbbbbb (Times (Einsum [(n_t2'bbbb,[0;1;2;3]); (n_t1'bb,[4;5]); (n_t1'bb,[6;7])] [0;4;6;1;5;2;3;7]) (2) 1);
  (*1343*) AddTo n_c4'bbbbbbbb (Times (Einsum [(n_t2'bbbb,[0;1;2;3]); (n_t1'bb,[4;5]); (n_t1'bb,[6;7])] [0;4;1;6;2;5;3;7]) (2) 1);
  (*1344*) AddTo n_c4'bbbbbbbb (Times (Einsum [(n_t2'bbbb,[0;1;2;3]); (n_t1'bb,[4;5]); (n_t1'bb,[6;7])] [0;4;6;1;2;5;3;7]) (-2) 1);
  (*1345*) AddTo n_c4'bbbbbbbb (Times (Einsum [(n_t2'bbbb,[0;1;2;3]); (n_t1'bb,[4;5]); (n_t1'bb,[6;7])] [6;4;0;1;5;2;3;7]) (-2) 1);
  (*1346*) AddTo n_c4'bbbbbbbb (Times (Einsum [(n_t1'bb,[0;1]); (n_t2'bbbb,[2;3;4;5]); (n_t1'bb,[6;7])] [6;0;2;3;7;4;5;1]) (2) 1);
  (*1347*) AddTo n_c4'bbbbbbbb (Times (Einsum [(n_t1'bb,[0;1]); (n_t1'bb,[2;3]); (n_t2'bbbb,[4;5;6;7])] [2;0;4;5;6;1;7;3]) (2) 1);
  (*1348*) AddTo n_c4'bbbbbbbb (Times (Einsum [(n_t1'bb,[0;1]); (n_t2'bbbb,[2;3;4;5]); (n_t1'bb,[6;7])] [6;0;2;3;4;7;5;1]) (-2) 1);
  (*1349*) AddTo n_c4'bbbbbbbb (Times (Einsum [(n_t1'bb,[0;1]); (n_t1'bb,[2;3]); (n_t2'bbbb,[4;5;6;7])] [2;4;5;0;3;1;6;7]) (2) 1);
  (*1350*) AddTo n_c4'bbbbbbbb (Times (Einsum [(n_t1'bb,[0;1]); (n_t1'bb,[2;3]); (n_t2'bbbb,[4;5;6;7])] [2;4;0;5;3;1;6;7]) (-2) 1);
  (*1351*) AddTo n_c4'bbbbbbbb (Times (Einsum [(n_t1'bb,[0;1]); (n_t1'bb,[2;3]); (n_t2'bbbb,[4;5;6;7])] [0;4;5;2;1;6;3;7]) (-2) 1);
  (*1352*) AddTo n_c4'bbbbbbbb (Times (Einsum [(n_t1'bb,[0;1]); (n_t1'bb,[2;3]); (n_t2'bbbb,[4;5;6;7])] [2;4;0;5;3;6;1;7]) (2) 1);
  (*1353*) AddTo n_c4'bbbbbbbb (Times (Einsum [(n_t1'bb,[0;1]); (n_t2'bbbb,[2;3;4;5]); (n_t1'bb,[6;7])] [2;3;0;6;4;7;1;5]) (-2) 1);
  (*1354*) AddTo n_c4'bbbbbbbb (Times (Einsum [(n_t1'bb,[0;1]); (n_t2'bbbb,[2;3;4;5]); (n_t1'bb,[6;7])] [2;0;3;6;4;7;1;5]) (2) 1);
  (*1355*) AddTo n_c4'bbbbbbbb (Times (Einsum [(n_t1'bb,[0;1]); (n_t1'bb,[2;3]); (n_t2'bbbb,[4;5;6;7])] [0;4;5;2;6;3;1;7]) (-2) 1);
  (*1356*) AddTo n_c4'bbbbbbbb (Times (Einsum [(n_t1'bb,[0;1]); (n_t1'bb,[2;3]); (n_t2'bbbb,[4;5;6;7])] [2;4;0;5;6;1;3;7]) (2) 1);
  (*1357*) AddTo n_c4'bbbbbbbb (Times (Einsum [(n_t2'bbbb,[0;1;2;3]); (n_t1'bb,[4;5]); (n_t1'bb,[6;7])] [4;0;1;6;2;7;3;5]) (2) 1);
  (*1358*) AddTo n_c4'bbbbbbbb (Times (Einsum [(n_t1'bb,[0;1]); (n_t1'bb,[2;3]); (n_t2'bbbb,[4;5;6;7])] [2;4;0;5;6;1;7;3]) (-2) 1);
  (*1359*) AddTo n_c4'bbbbbbbb (Times (Einsum [(n_t1'bb,[0;1]); (n_t2'bbbb,[2;3;4;5]); (n_t1'bb,[6;7])] [2;3;0;6;4;1;7;5]) (2) 1);
  (*1360*) AddTo n_c4'bbbbbbbb (Times (Einsum [(n_t1'bb,[0;1]); (n_t1'bb,[2;3]); (n_t2'bbbb,[4;5;6;7])] [4;0;2;5;6;3;1;7]) (-2) 1);
  (*1361*) AddTo n_c4'bbbbbbbb (Times (Einsum [(n_t1'bb,[0;1]); (n_t2'bbbb,[2;3;4;5]); (n_t1'bb,[6;7])] [2;0;3;6;4;1;7;5]) (-2) 1);
  (*1362*) AddTo n_c4'bbbbbbbb (Times (Einsum [(n_t1'bb,[0;1]); (n_t1'bb,[2;3]); (n_t2'bbbb,[4;5;6;7])] [4;0;2;5;6;1;3;7]) (2) 1);
  (*1363*) AddTo n_c4'bbbbbbbb (Times (Einsum [(n_t2'bbbb,[0;1;2;3]); (n_t1'bb,[4;5]); (n_t1'bb,[6;7])] [6;4;0;1;2;5;7;3]) (-2) 1);
  (*1364*) AddTo n_c4'bbbbbbbb (Times (Einsum [(n_t1'bb,[0;1]); (n_t1'bb,[2;3]); (n_t2'bbbb,[4;5;6;7])] [2;0;4;5;6;3;1;7]) (2) 1);
  (*1365*) AddTo n_c4'bbbbbbbb (Times (Einsum [(n_t1'bb,[0;1]); (n_t1'bb,[2;3]); (n_t2'bbbb,[4;5;6;7])] [0;4;5;2;6;1;3;7]) (2) 1);
  (*1366*) AddTo n_c4'bbbbbbbb (Times (Einsum [(n_t1'bb,[0;1]); (n_t1'bb,[2;3]); (n_t2'bbbb,[4;5;6;7])] [2;4;0;5;6;3;1;7]) (-2) 1);
  (*1367*) AddTo n_c4'bbbbbbbb (Times (Einsum [(n_t2'bbbb,[0;1;2;3]); (n_t1'bb,[4;5]); (n_t1'bb,[6;7])] [4;0;1;6;2;5;3;7]) (-2) 1);
  (*1368*) AddTo n_c4'bbbbbbbb (Times (Einsum [(n_t1'bb,[0;1]); (n_t1'bb,[2;3]); (n_t2'bbbb,[4;5;6;7])] [2;4;0;5;6;3;7;1]) (2) 1);
  (*1369*) AddTo n_c4'bbbbbbbb (Times (Einsum [(n_t1'bb,[0;1]); (n_t2'bbbb,[2;3;4;5]); (n_t1'bb,[6;7])] [2;3;0;6;4;5;7;1]) (-2) 1);
  (*1370*) AddTo n_c4'bbbbbbbb (Times (Einsum [(n_t1'bb,[0;1]); (n_t2'bbbb,[2;3;4;5]); (n_t1'bb,[6;7])] [2;0;3;6;4;5;7;1]) (2) 1);
  (*1371*) AddTo n_c4'bbbbbbbb (Times (Einsum [(n_t1'bb,[0;1]); (n_t2'bbbb,[2;3;4;5]); (n_t1'bb,[6;7])] [0;2;3;6;4;5;7;1]) (-2) 1);
  (*1372*) AddTo n_c4'bbbbbbbb (Times (Einsum [(n_t1'bb,[0;1]); (n_t1'bb,[2;3]); (n_t2'bbbb,[4;5;6;7])] [2;4;0;5;6;7;1;3]) (2) 1);
  (*1373*) AddTo n_c4'bbbbbbbb (Times (Einsum [(n_t2'bbbb,[0;1;2;3]); (n_t1'bb,[4;5]); (n_t1'bb,[6;7])] [4;0;1;6;2;3;5;7]) (2) 1);
  (*1374*) AddTo n_c4'bbbbbbbb (Times (Einsum [(n_t1'bb,[0;1]); (n_t1'bb,[2;3]); (n_t2'bbbb,[4;5;6;7])] [2;4;0;5;6;7;3;1]) (-2) 1);
  (*1375*) AddTo n_c4'bbbbbbbb (Times (Einsum [(n_t1'bb,[0;1]); (n_t2'bbbb,[2;3;4;5]); (n_t1'bb,[6;7])] [2;3;0;6;4;5;1;7]) (2) 1);
  (*1376*) AddTo n_c4'bbbbbbbb (Times (Einsum [(n_t1'bb,[0;1]); (n_t1'bb,[2;3]); (n_t2'bbbb,[4;5;6;7])] [4;0;2;5;6;7;3;1]) (-2) 1);
  (*1377*) AddTo n_c4'bbbbbbbb (Times (Einsum [(n_t1'bb,[0;1]); (n_t2'bbbb,[2;3;4;5]); (n_t1'bb,[6;7])] [2;0;3;6;4;5;1;7]) (-2) 1);
  (*1378*) AddTo n_c4'bbbbbbbb (Times (Einsum [(n_t1'bb,[0;1]); (n_t1'bb,[2;3]); (n_t2'bbbb,[4;5;6;7])] [4;0;2;5;6;7;1;3]) (2) 1);
  (*1379*) AddTo n_c4'bbbbbbbb (Times (Einsum [(n_t1'bb,[0;1]); (n_t1'bb,[2;3]); (n_t2'bbbb,[4;5;6;7])] [2;0;4;5;6;7;1;3]) (-2) 1);
  (*1380*) AddTo n_c4'bbbbbbbb (Times (Einsum [(n_t1'bb,[0;1]); (n_t1'bb,[2;3]); (n_t2'bbbb,[4;5;6;7])] [2;0;4;5;6;7;3;1]) (2) 1);
  (*1381*) AddTo n_c4'bbbbbbbb (Plain (Einsum [(n_t1'bb,[0;1]); (n_t1'bb,[2;3]); (n_t1'bb,[4;5]); (n_t1'bb,[6;7])] [4;0;2;6;7;3;1;5]));
  (*1382*) AddTo n_c4'bbbbbbbb (Times (Einsum [(n_t1'bb,[0;1]); (n_t1'bb,[2;3]); (n_t1'bb,[4;5]); (n_t1'bb,[6;7])] [4;0;2;6;7;3;5;1]) (-1) 1);
  (*1383*) AddTo n_c4'bbbbbbbb (Times (Einsum [(n_t1'bb,[0;1]); (n_t1'bb,[2;3]); (n_t1'bb,[4;5]); (n_t1'bb,[6;7])] [4;0;2;6;3;7;1;5]) (-1) 1);
  (*1384*) AddTo n_c4'bbbbbbbb (Plain (Einsum [(n_t1'bb,[0;1]); (n_t1'bb,[2;3]); (n_t1'bb,[4;5]); (n_t1'bb,[6;7])] [4;0;2;6;3;7;5;1]));
  (*1385*) AddTo n_c4'bbbbbbbb (Times (Einsum [(n_t1'bb,[0;1]); (n_t1'bb,[2;3]); (n_t1'bb,[4;5]); (n_t1'bb,[6;7])] [2;0;6;4;5;1;7;3]) (-1) 1);
  (*1386*) AddTo n_c4'bbbbbbbb (Plain (Einsum [(n_t1'bb,[0;1]); (n_t1'bb,[2;3]); (n_t1'bb,[4;5]); (n_t1'bb,[6;7])] [2;0;6;4;5;1;3;7]));
  (*1387*) AddTo n_c4'bbbbbbbb (Plain (Einsum [(n_t1'bb,[0;1]); (n_t1'bb,[2;3]); (n_t1'bb,[4;5]); (n_t1'bb,[6;7])] [2;0;6;4;1;5;7;3]));
  (*1388*) AddTo n_c4'bbbbbbbb (Times (Einsum [(n_t1'bb,[0;1]); (n_t1'bb,[2;3]); (n_t1'bb,[4;5]); (n_t1'bb,[6;7])] [2;0;6;4;1;5;3;7]) (-1) 1);
  (*1389*) AddTo n_c4'bbbbbbbb (Plain (Einsum [(n_t1'bb,[0;1]); (n_t1'bb,[2;3]); (n_t1'bb,[4;5]); (n_t1'bb,[6;7])] [4;0;2;6;7;5;3;1]));
  (*1390*) AddTo n_c4'bbbbbbbb (Times (Einsum [(n_t1'bb,[0;1]); (n_t1'bb,[2;3]); (n_t1'bb,[4;5]); (n_t1'bb,[6;7])] [4;0;2;6;7;5;1;3]) (-1) 1);
  (*1391*) AddTo n_c4'bbbbbbbb (Times (Einsum [(n_t1'bb,[0;1]); (n_t1'bb,[2;3]); (n_t1'bb,[4;5]); (n_t1'bb,[6;7])] [6;0;2;4;7;5;3;1]) (-1) 1);
  (*1392*) AddTo n_c4'bbbbbbbb (Plain (Einsum [(n_t1'bb,[0;1]); (n_t1'bb,[2;3]); (n_t1'bb,[4;5]); (n_t1'bb,[6;7])] [6;0;2;4;7;5;1;3]));
  (*1393*) AddTo n_c4'bbbbbbbb (Plain (Einsum [(n_t1'bb,[0;1]); (n_t1'bb,[2;3]); (n_t1'bb,[4;5]); (n_t1'bb,[6;7])] [4;0;2;6;3;1;7;5]));
  (*1394*) AddTo n_c4'bbbbbbbb (Times (Einsum [(n_t1'bb,[0;1]); (n_t1'bb,[2;3]); (n_t1'bb,[4;5]); (n_t1'bb,[6;7])] [4;0;2;6;3;1;5;7]) (-1) 1);
  (*1395*) AddTo n_c4'bbbbbbbb (Times (Einsum [(n_t1'bb,[0;1]); (n_t1'bb,[2;3]); (n_t1'bb,[4;5]); (n_t1'bb,[6;7])] [2;0;6;4;1;7;5;3]) (-1) 1);
  (*1396*) AddTo n_c4'bbbbbbbb (Plain (Einsum [(n_t1'bb,[0;1]); (n_t1'bb,[2;3]); (n_t1'bb,[4;5]); (n_t1'bb,[6;7])] [2;0;6;4;1;7;3;5]));
  (*1397*) AddTo n_c4'bbbbbbbb (Times (Einsum [(n_t1'bb,[0;1]); (n_t1'bb,[2;3]); (n_t1'bb,[4;5]); (n_t1'bb,[6;7])] [4;0;2;6;3;5;7;1]) (-1) 1);
  (*1398*) AddTo n_c4'bbbbbbbb (Plain (Einsum [(n_t1'bb,[0;1]); (n_t1'bb,[2;3]); (n_t1'bb,[4;5]); (n_t1'bb,[6;7])] [4;0;2;6;3;5;1;7]));
  (*1399*) AddTo n_c4'bbbbbbbb (Plain (Einsum [(n_t1'bb,[0;1]); (n_t1'bb,[2;3]); (n_t1'bb,[4;5]); (n_t1'bb,[6;7])] [4;0;2;6;5;3;7;1]));
  (*1400*) AddTo n_c4'bbbbbbbb (Times (Einsum [(n_t1'bb,[0;1]); (n_t1'bb,[2;3]); (n_t1'bb,[4;5]); (n_t1'bb,[6;7])] [4;0;2;6;5;3;1;7]) (-1) 1);
  (*1401*) AddTo n_c4'bbbbbbbb (Plain (Einsum [(n_t1'bb,[0;1]); (n_t1'bb,[2;3]); (n_t1'bb,[4;5]); (n_t1'bb,[6;7])] [2;0;6;4;1;3;5;7]));
  (*1402*) AddTo n_c4'bbbbbbbb (Times (Einsum [(n_t1'bb,[0;1]); (n_t1'bb,[2;3]); (n_t1'bb,[4;5]); (n_t1'bb,[6;7])] [2;0;6;4;1;3;7;5]) (-1) 1);
  (*1403*) AddTo n_c4'bbbbbbbb (Times (Einsum [(n_t1'bb,[0;1]); (n_t1'bb,[2;3]); (n_t1'bb,[4;5]); (n_t1'bb,[6;7])] [2;0;6;4;3;1;5;7]) (-1) 1);
  (*1404*) AddTo n_c4'bbbbbbbb (Plain (Einsum [(n_t1'bb,[0;1]); (n_t1'bb,[2;3]); (n_t1'bb,[4;5]); (n_t1'bb,[6;7])] [4;0;2;6;5;1;3;7]));
  (*1405*) Assign n_c4'abababab (Times (Copy n_t4'abababab) (2) 1);
  (*1406*) AddTo n_c4'abababab (Times (Copy n_t4'abababab) (2) 1);
  (*1407*) AddTo n_c4'abababab (Times (Einsum [(n_t3'babbab,[0;1;2;3;4;5]); (n_t1'aa,[6;7])] [1;0;6;2;7;3;4;5]) (-1) 1);
  (*1408*) AddTo n_c4'abababab (Times (Einsum [(n_t3'babbab,[0;1;2;3;4;5]); (n_t1'aa,[6;7])] [1;0;6;2;7;3;4;5]) (-1) 1);
  (*1409*) AddTo n_c4'abababab (Plain (Einsum [(n_t3'abaaba,[0;1;2;3;4;5]); (n_t1'bb,[6;7])] [0;1;2;6;5;7;3;4]));
  (*1410*) AddTo n_c4'abababab (Plain (Einsum [(n_t3'abaaba,[0;1;2;3;4;5]); (n_t1'bb,[6;7])] [0;1;2;6;5;7;3;4]));
  (*1411*) AddTo n_c4'abababab (Plain (Einsum [(n_t3'babbab,[0;1;2;3;4;5]); (n_t1'aa,[6;7])] [6;0;1;2;7;3;4;5]));
  (*1412*) AddTo n_c4'abababab (Plain (Einsum [(n_t3'babbab,[0;1;2;3;4;5]); (n_t1'aa,[6;7])] [6;0;1;2;7;3;4;5]));
  (*1413*) AddTo n_c4'abababab (Times (Einsum [(n_t1'bb,[0;1]); (n_t3'abaaba,[2;3;4;5;6;7])] [2;0;4;3;7;1;5;6]) (-1) 1);
  (*1414*) AddTo n_c4'abababab (Times (Einsum [(n_t1'bb,[0;1]); (n_t3'abaaba,[2;3;4;5;6;7])] [2;0;4;3;7;1;5;6]) (-1) 1);
  (*1415*) AddTo n_c4'abababab (Plain (Einsum [(n_t1'aa,[0;1]); (n_t3'babbab,[2;3;4;5;6;7])] [3;2;0;4;6;5;1;7]));
  (*1416*) AddTo n_c4'abababab (Plain (Einsum [(n_t1'aa,[0;1]); (n_t3'babbab,[2;3;4;5;6;7])] [3;2;0;4;6;5;1;7]));
  (*1417*) AddTo n_c4'abababab (Times (Einsum [(n_t1'bb,[0;1]); (n_t3'abaaba,[2;3;4;5;6;7])] [2;3;4;0;7;6;5;1]) (-1) 1);
  (*1418*) AddTo n_c4'abababab (Times (Einsum [(n_t1'bb,[0;1]); (n_t3'abaaba,[2;3;4;5;6;7])] [2;3;4;0;7;6;5;1]) (-1) 1);
  (*1419*) AddTo n_c4'abababab (Times (Einsum [(n_t3'babbab,[0;1;2;3;4;5]); (n_t1'aa,[6;7])] [6;0;1;2;4;3;7;5]) (-1) 1);
  (*1420*) AddTo n_c4'abababab (Times (Einsum [(n_t3'babbab,[0;1;2;3;4;5]); (n_t1'aa,[6;7])] [6;0;1;2;4;3;7;5]) (-1) 1);
  (*1421*) AddTo n_c4'abababab (Plain (Einsum [(n_t1'bb,[0;1]); (n_t3'abaaba,[2;3;4;5;6;7])] [2;0;4;3;7;6;5;1]));
  (*1422*) AddTo n_c4'abababab (Plain (Einsum [(n_t1'bb,[0;1]); (n_t3'abaaba,[2;3;4;5;6;7])] [2;0;4;3;7;6;5;1]));
  (*1423*) AddTo n_c4'abababab (Plain (Einsum [(n_t2'abab,[0;1;2;3]); (n_t2'abab,[4;5;6;7])] [4;5;0;1;2;3;6;7]));
  (*1424*) AddTo n_c4'abababab (Times (Einsum [(n_t2'abab,[0;1;2;3]); (n_t2'abab,[4;5;6;7])] [0;5;4;1;2;3;6;7]) (-1) 1);
  (*1425*) AddTo n_c4'abababab (Times (Einsum [(n_t2'bbbb,[0;1;2;3]); (n_t2'aaaa,[4;5;6;7])] [4;0;5;1;6;2;7;3]) (4) 1);
  (*1426*) AddTo n_c4'abababab (Times (Einsum [(n_t2'abab,[0;1;2;3]); (n_t2'abab,[4;5;6;7])] [0;5;4;1;6;7;2;3]) (-1) 1);
  (*1427*) AddTo n_c4'abababab (Plain (Einsum [(n_t2'abab,[0;1;2;3]); (n_t2'abab,[4;5;6;7])] [4;5;0;1;6;7;2;3]));
  (*1428*) AddTo n_c4'abababab (Times (Einsum [(n_t2'abab,[0;1;2;3]); (n_t2'abab,[4;5;6;7])] [0;1;4;5;6;3;2;7]) (-1) 1);
  (*1429*) AddTo n_c4'abababab (Plain (Einsum [(n_t2'abab,[0;1;2;3]); (n_t2'abab,[4;5;6;7])] [0;5;4;1;2;7;6;3]));
  (*1430*) AddTo n_c4'abababab (Plain (Einsum [(n_t2'abab,[0;1;2;3]); (n_t2'abab,[4;5;6;7])] [0;5;4;1;6;3;2;7]));
  (*1431*) AddTo n_c4'abababab (Times (Einsum [(n_t2'abab,[0;1;2;3]); (n_t2'abab,[4;5;6;7])] [4;5;0;1;6;3;2;7]) (-1) 1);
  (*1432*) AddTo n_c4'abababab (Times (Einsum [(n_t2'bbbb,[0;1;2;3]); (n_t1'aa,[4;5]); (n_t1'aa,[6;7])] [6;0;4;1;5;2;7;3]) (-2) 1);
  (*1433*) AddTo n_c4'abababab (Times (Einsum [(n_t1'bb,[0;1]); (n_t1'bb,[2;3]); (n_t2'aaaa,[4;5;6;7])] [4;2;5;0;6;1;7;3]) (-2) 1);
  (*1434*) AddTo n_c4'abababab (Plain (Einsum [(n_t1'bb,[0;1]); (n_t1'aa,[2;3]); (n_t2'abab,[4;5;6;7])] [2;5;4;0;3;7;6;1]));
  (*1435*) AddTo n_c4'abababab (Plain (Einsum [(n_t1'bb,[0;1]); (n_t2'abab,[2;3;4;5]); (n_t1'aa,[6;7])] [2;3;6;0;7;1;4;5]));
  (*1436*) AddTo n_c4'abababab (Times (Einsum [(n_t2'abab,[0;1;2;3]); (n_t1'bb,[4;5]); (n_t1'aa,[6;7])] [0;4;6;1;7;5;2;3]) (-1) 1);
  (*1437*) AddTo n_c4'abababab (Times (Einsum [(n_t1'bb,[0;1]); (n_t2'abab,[2;3;4;5]); (n_t1'aa,[6;7])] [2;3;6;0;7;5;4;1]) (-1) 1);
  (*1438*) AddTo n_c4'abababab (Plain (Einsum [(n_t2'abab,[0;1;2;3]); (n_t1'bb,[4;5]); (n_t1'aa,[6;7])] [0;4;6;1;7;3;2;5]));
  (*1439*) AddTo n_c4'abababab (Plain (Einsum [(n_t2'abab,[0;1;2;3]); (n_t1'bb,[4;5]); (n_t1'aa,[6;7])] [6;4;0;1;7;5;2;3]));
  (*1440*) AddTo n_c4'abababab (Times (Einsum [(n_t1'bb,[0;1]); (n_t1'bb,[2;3]); (n_t2'aaaa,[4;5;6;7])] [4;2;5;0;6;3;7;1]) (2) 1);
  (*1441*) AddTo n_c4'abababab (Times (Einsum [(n_t2'abab,[0;1;2;3]); (n_t1'bb,[4;5]); (n_t1'aa,[6;7])] [6;4;0;1;7;3;2;5]) (-1) 1);
  (*1442*) AddTo n_c4'abababab (Times (Einsum [(n_t1'bb,[0;1]); (n_t2'abab,[2;3;4;5]); (n_t1'aa,[6;7])] [6;3;2;0;7;1;4;5]) (-1) 1);
  (*1443*) AddTo n_c4'abababab (Times (Einsum [(n_t1'aa,[0;1]); (n_t2'bbbb,[2;3;4;5]); (n_t1'aa,[6;7])] [6;2;0;3;7;4;1;5]) (2) 1);
  (*1444*) AddTo n_c4'abababab (Times (Einsum [(n_t1'aa,[0;1]); (n_t1'bb,[2;3]); (n_t2'abab,[4;5;6;7])] [4;5;0;2;6;3;1;7]) (-1) 1);
  (*1445*) AddTo n_c4'abababab (Plain (Einsum [(n_t1'bb,[0;1]); (n_t2'abab,[2;3;4;5]); (n_t1'aa,[6;7])] [6;3;2;0;4;1;7;5]));
  (*1446*) AddTo n_c4'abababab (Plain (Einsum [(n_t1'aa,[0;1]); (n_t2'abab,[2;3;4;5]); (n_t1'bb,[6;7])] [2;6;0;3;4;7;1;5]));
  (*1447*) AddTo n_c4'abababab (Times (Einsum [(n_t2'abab,[0;1;2;3]); (n_t1'bb,[4;5]); (n_t1'aa,[6;7])] [6;4;0;1;2;5;7;3]) (-1) 1);
  (*1448*) AddTo n_c4'abababab (Times (Einsum [(n_t1'bb,[0;1]); (n_t2'abab,[2;3;4;5]); (n_t1'aa,[6;7])] [6;3;2;0;4;5;7;1]) (-1) 1);
  (*1449*) AddTo n_c4'abababab (Plain (Einsum [(n_t1'aa,[0;1]); (n_t1'bb,[2;3]); (n_t2'abab,[4;5;6;7])] [4;5;0;2;6;7;1;3]));
  (*1450*) AddTo n_c4'abababab (Times (Einsum [(n_t1'aa,[0;1]); (n_t2'abab,[2;3;4;5]); (n_t1'bb,[6;7])] [2;6;0;3;4;5;1;7]) (-1) 1);
  (*1451*) AddTo n_c4'abababab (Plain (Einsum [(n_t2'abab,[0;1;2;3]); (n_t1'bb,[4;5]); (n_t1'aa,[6;7])] [6;4;0;1;2;3;7;5]));
  (*1452*) AddTo n_c4'abababab (Plain (Einsum [(n_t1'bb,[0;1]); (n_t1'bb,[2;3]); (n_t1'aa,[4;5]); (n_t1'aa,[6;7])] [6;2;4;0;5;1;7;3]));
  (*1453*) AddTo n_c4'abababab (Times (Einsum [(n_t1'aa,[0;1]); (n_t1'bb,[2;3]); (n_t1'bb,[4;5]); (n_t1'aa,[6;7])] [6;4;0;2;7;3;1;5]) (-1) 1);
  (*1454*) AddTo n_c4'abababab (Times (Einsum [(n_t1'bb,[0;1]); (n_t1'bb,[2;3]); (n_t1'aa,[4;5]); (n_t1'aa,[6;7])] [6;2;4;0;5;3;7;1]) (-1) 1);
  (*1455*) AddTo n_c4'abababab (Plain (Einsum [(n_t1'aa,[0;1]); (n_t1'bb,[2;3]); (n_t1'bb,[4;5]); (n_t1'aa,[6;7])] [6;4;0;2;7;5;1;3]));
  (*1456*) Assign n_c4'abbbabbb (Times (Copy n_t4'abbbabbb) (3) 1);
  (*1457*) AddTo n_c4'abbbabbb (Times (Copy n_t4'abbbabbb) (3) 1);
  (*1458*) AddTo n_c4'abbbabbb (Plain (Einsum [(n_t1'bb,[0;1]); (n_t3'babbab,[2;3;4;5;6;7])] [3;2;4;0;6;1;5;7]));
  (*1459*) AddTo n_c4'abbbabbb (Plain (Einsum [(n_t1'bb,[0;1]); (n_t3'babbab,[2;3;4;5;6;7])] [3;2;4;0;6;1;5;7]));
  (*1460*) AddTo n_c4'abbbabbb (Times (Einsum [(n_t1'bb,[0;1]); (n_t3'babbab,[2;3;4;5;6;7])] [3;2;0;4;6;1;5;7]) (-1) 1);
  (*1461*) AddTo n_c4'abbbabbb (Times (Einsum [(n_t1'bb,[0;1]); (n_t3'babbab,[2;3;4;5;6;7])] [3;2;0;4;6;1;5;7]) (-1) 1);
  (*1462*) AddTo n_c4'abbbabbb (Times (Einsum [(n_t3'bbbbbb,[0;1;2;3;4;5]); (n_t1'aa,[6;7])] [6;0;1;2;7;3;4;5]) (3) 1);
  (*1463*) AddTo n_c4'abbbabbb (Times (Einsum [(n_t3'bbbbbb,[0;1;2;3;4;5]); (n_t1'aa,[6;7])] [6;0;1;2;7;3;4;5]) (3) 1);
  (*1464*) AddTo n_c4'abbbabbb (Plain (Einsum [(n_t1'bb,[0;1]); (n_t3'babbab,[2;3;4;5;6;7])] [3;0;2;4;6;1;5;7]));
  (*1465*) AddTo n_c4'abbbabbb (Plain (Einsum [(n_t1'bb,[0;1]); (n_t3'babbab,[2;3;4;5;6;7])] [3;0;2;4;6;1;5;7]));
  (*1466*) AddTo n_c4'abbbabbb (Times (Einsum [(n_t1'bb,[0;1]); (n_t3'babbab,[2;3;4;5;6;7])] [3;2;4;0;6;5;1;7]) (-1) 1);
  (*1467*) AddTo n_c4'abbbabbb (Times (Einsum [(n_t1'bb,[0;1]); (n_t3'babbab,[2;3;4;5;6;7])] [3;2;4;0;6;5;1;7]) (-1) 1);
  (*1468*) AddTo n_c4'abbbabbb (Plain (Einsum [(n_t3'babbab,[0;1;2;3;4;5]); (n_t1'bb,[6;7])] [1;0;6;2;4;3;7;5]));
  (*1469*) AddTo n_c4'abbbabbb (Plain (Einsum [(n_t3'babbab,[0;1;2;3;4;5]); (n_t1'bb,[6;7])] [1;0;6;2;4;3;7;5]));
  (*1470*) AddTo n_c4'abbbabbb (Plain (Einsum [(n_t1'bb,[0;1]); (n_t3'babbab,[2;3;4;5;6;7])] [3;2;4;0;6;5;7;1]));
  (*1471*) AddTo n_c4'abbbabbb (Plain (Einsum [(n_t1'bb,[0;1]); (n_t3'babbab,[2;3;4;5;6;7])] [3;2;4;0;6;5;7;1]));
  (*1472*) AddTo n_c4'abbbabbb (Times (Einsum [(n_t1'bb,[0;1]); (n_t3'babbab,[2;3;4;5;6;7])] [3;2;0;4;6;5;7;1]) (-1) 1);
  (*1473*) AddTo n_c4'abbbabbb (Times (Einsum [(n_t1'bb,[0;1]); (n_t3'babbab,[2;3;4;5;6;7])] [3;2;0;4;6;5;7;1]) (-1) 1);
  (*1474*) AddTo n_c4'abbbabbb (Times (Einsum [(n_t1'bb,[0;1]); (n_t3'babbab,[2;3;4;5;6;7])] [3;0;2;4;6;5;1;7]) (-1) 1);
  (*1475*) AddTo n_c4'abbbabbb (Times (Einsum [(n_t1'bb,[0;1]); (n_t3'babbab,[2;3;4;5;6;7])] [3;0;2;4;6;5;1;7]) (-1) 1);
  (*1476*) AddTo n_c4'abbbabbb (Plain (Einsum [(n_t3'babbab,[0;1;2;3;4;5]); (n_t1'bb,[6;7])] [1;6;0;2;4;3;5;7]));
  (*1477*) AddTo n_c4'abbbabbb (Plain (Einsum [(n_t3'babbab,[0;1;2;3;4;5]); (n_t1'bb,[6;7])] [1;6;0;2;4;3;5;7]));
  (*1478*) AddTo n_c4'abbbabbb (Times (Einsum [(n_t2'bbbb,[0;1;2;3]); (n_t2'abab,[4;5;6;7])] [4;0;1;5;6;7;2;3]) (2) 1);
  (*1479*) AddTo n_c4'abbbabbb (Times (Einsum [(n_t2'abab,[0;1;2;3]); (n_t2'bbbb,[4;5;6;7])] [0;4;1;5;2;3;6;7]) (-2) 1);
  (*1480*) AddTo n_c4'abbbabbb (Times (Einsum [(n_t2'abab,[0;1;2;3]); (n_t2'bbbb,[4;5;6;7])] [0;4;5;1;2;6;3;7]) (-2) 1);
  (*1481*) AddTo n_c4'abbbabbb (Times (Einsum [(n_t2'abab,[0;1;2;3]); (n_t2'bbbb,[4;5;6;7])] [0;4;1;5;2;6;3;7]) (2) 1);
  (*1482*) AddTo n_c4'abbbabbb (Times (Einsum [(n_t2'bbbb,[0;1;2;3]); (n_t2'abab,[4;5;6;7])] [4;5;0;1;6;7;2;3]) (2) 1);
  (*1483*) AddTo n_c4'abbbabbb (Times (Einsum [(n_t2'bbbb,[0;1;2;3]); (n_t2'abab,[4;5;6;7])] [4;5;0;1;6;2;7;3]) (-2) 1);
  (*1484*) AddTo n_c4'abbbabbb (Times (Einsum [(n_t2'bbbb,[0;1;2;3]); (n_t2'abab,[4;5;6;7])] [4;0;1;5;6;2;3;7]) (2) 1);
  (*1485*) AddTo n_c4'abbbabbb (Times (Einsum [(n_t2'abab,[0;1;2;3]); (n_t2'bbbb,[4;5;6;7])] [0;4;1;5;2;6;7;3]) (-2) 1);
  (*1486*) AddTo n_c4'abbbabbb (Times (Einsum [(n_t2'bbbb,[0;1;2;3]); (n_t2'abab,[4;5;6;7])] [4;5;0;1;6;2;3;7]) (2) 1);
  (*1487*) AddTo n_c4'abbbabbb (Plain (Einsum [(n_t1'bb,[0;1]); (n_t1'bb,[2;3]); (n_t2'abab,[4;5;6;7])] [4;5;0;2;6;3;7;1]));
  (*1488*) AddTo n_c4'abbbabbb (Times (Einsum [(n_t2'abab,[0;1;2;3]); (n_t1'bb,[4;5]); (n_t1'bb,[6;7])] [0;6;1;4;2;5;3;7]) (-1) 1);
  (*1489*) AddTo n_c4'abbbabbb (Times (Einsum [(n_t2'bbbb,[0;1;2;3]); (n_t1'bb,[4;5]); (n_t1'aa,[6;7])] [6;0;1;4;7;2;3;5]) (2) 1);
  (*1490*) AddTo n_c4'abbbabbb (Times (Einsum [(n_t1'bb,[0;1]); (n_t2'bbbb,[2;3;4;5]); (n_t1'aa,[6;7])] [6;2;0;3;7;4;5;1]) (-2) 1);
  (*1491*) AddTo n_c4'abbbabbb (Times (Einsum [(n_t1'bb,[0;1]); (n_t1'bb,[2;3]); (n_t2'abab,[4;5;6;7])] [4;5;0;2;6;1;7;3]) (-1) 1);
  (*1492*) AddTo n_c4'abbbabbb (Plain (Einsum [(n_t1'bb,[0;1]); (n_t2'abab,[2;3;4;5]); (n_t1'bb,[6;7])] [2;6;0;3;4;1;5;7]));
  (*1493*) AddTo n_c4'abbbabbb (Times (Einsum [(n_t2'bbbb,[0;1;2;3]); (n_t1'bb,[4;5]); (n_t1'aa,[6;7])] [6;4;0;1;7;5;2;3]) (2) 1);
  (*1494*) AddTo n_c4'abbbabbb (Times (Einsum [(n_t2'bbbb,[0;1;2;3]); (n_t1'bb,[4;5]); (n_t1'aa,[6;7])] [6;4;0;1;7;2;5;3]) (-2) 1);
  (*1495*) AddTo n_c4'abbbabbb (Plain (Einsum [(n_t2'abab,[0;1;2;3]); (n_t1'bb,[4;5]); (n_t1'bb,[6;7])] [0;6;1;4;2;7;3;5]));
  (*1496*) AddTo n_c4'abbbabbb (Times (Einsum [(n_t1'bb,[0;1]); (n_t2'abab,[2;3;4;5]); (n_t1'bb,[6;7])] [2;6;0;3;4;7;5;1]) (-1) 1);
  (*1497*) AddTo n_c4'abbbabbb (Times (Einsum [(n_t2'bbbb,[0;1;2;3]); (n_t1'bb,[4;5]); (n_t1'aa,[6;7])] [6;4;0;1;7;2;3;5]) (2) 1);
  (*1498*) AddTo n_c4'abbbabbb (Times (Einsum [(n_t2'bbbb,[0;1;2;3]); (n_t1'bb,[4;5]); (n_t1'aa,[6;7])] [6;0;1;4;7;5;2;3]) (2) 1);
  (*1499*) AddTo n_c4'abbbabbb (Times (Einsum [(n_t1'bb,[0;1]); (n_t1'aa,[2;3]); (n_t2'bbbb,[4;5;6;7])] [2;4;0;5;3;1;6;7]) (-2) 1);
  (*1500*) AddTo n_c4'abbbabbb (Times (Einsum [(n_t1'bb,[0;1]); (n_t2'bbbb,[2;3;4;5]); (n_t1'aa,[6;7])] [6;2;3;0;7;4;1;5]) (-2) 1);
  (*1501*) AddTo n_c4'abbbabbb (Times (Einsum [(n_t2'bbbb,[0;1;2;3]); (n_t1'bb,[4;5]); (n_t1'aa,[6;7])] [6;0;4;1;7;2;5;3]) (2) 1);
  (*1502*) AddTo n_c4'abbbabbb (Times (Einsum [(n_t1'bb,[0;1]); (n_t1'bb,[2;3]); (n_t2'abab,[4;5;6;7])] [4;5;0;2;6;3;1;7]) (-1) 1);
  (*1503*) AddTo n_c4'abbbabbb (Plain (Einsum [(n_t2'abab,[0;1;2;3]); (n_t1'bb,[4;5]); (n_t1'bb,[6;7])] [0;6;1;4;2;5;7;3]));
  (*1504*) AddTo n_c4'abbbabbb (Plain (Einsum [(n_t1'bb,[0;1]); (n_t1'bb,[2;3]); (n_t2'abab,[4;5;6;7])] [4;5;0;2;6;1;3;7]));
  (*1505*) AddTo n_c4'abbbabbb (Times (Einsum [(n_t1'bb,[0;1]); (n_t1'bb,[2;3]); (n_t2'abab,[4;5;6;7])] [4;2;0;5;6;1;3;7]) (-1) 1);
  (*1506*) AddTo n_c4'abbbabbb (Times (Einsum [(n_t2'abab,[0;1;2;3]); (n_t1'bb,[4;5]); (n_t1'bb,[6;7])] [0;6;1;4;2;7;5;3]) (-1) 1);
  (*1507*) AddTo n_c4'abbbabbb (Plain (Einsum [(n_t1'bb,[0;1]); (n_t2'abab,[2;3;4;5]); (n_t1'bb,[6;7])] [2;6;0;3;4;7;1;5]));
  (*1508*) AddTo n_c4'abbbabbb (Times (Einsum [(n_t1'bb,[0;1]); (n_t1'bb,[2;3]); (n_t2'abab,[4;5;6;7])] [4;5;0;2;6;7;3;1]) (-1) 1);
  (*1509*) AddTo n_c4'abbbabbb (Plain (Einsum [(n_t1'bb,[0;1]); (n_t1'bb,[2;3]); (n_t2'abab,[4;5;6;7])] [4;2;5;0;6;7;1;3]));
  (*1510*) AddTo n_c4'abbbabbb (Plain (Einsum [(n_t1'bb,[0;1]); (n_t1'bb,[2;3]); (n_t2'abab,[4;5;6;7])] [4;5;0;2;6;7;1;3]));
  (*1511*) AddTo n_c4'abbbabbb (Times (Einsum [(n_t1'bb,[0;1]); (n_t1'bb,[2;3]); (n_t2'abab,[4;5;6;7])] [4;2;0;5;6;7;1;3]) (-1) 1);
  (*1512*) AddTo n_c4'abbbabbb (Times (Einsum [(n_t1'bb,[0;1]); (n_t1'bb,[2;3]); (n_t2'abab,[4;5;6;7])] [4;2;5;0;6;7;3;1]) (-1) 1);
  (*1513*) AddTo n_c4'abbbabbb (Plain (Einsum [(n_t1'bb,[0;1]); (n_t1'bb,[2;3]); (n_t2'abab,[4;5;6;7])] [4;2;0;5;6;7;3;1]));
  (*1514*) AddTo n_c4'abbbabbb (Times (Einsum [(n_t1'bb,[0;1]); (n_t1'bb,[2;3]); (n_t1'bb,[4;5]); (n_t1'aa,[6;7])] [6;4;0;2;7;3;1;5]) (-1) 1);
  (*1515*) AddTo n_c4'abbbabbb (Plain (Einsum [(n_t1'bb,[0;1]); (n_t1'bb,[2;3]); (n_t1'bb,[4;5]); (n_t1'aa,[6;7])] [6;4;0;2;7;3;5;1]));
  (*1516*) AddTo n_c4'abbbabbb (Plain (Einsum [(n_t1'bb,[0;1]); (n_t1'bb,[2;3]); (n_t1'aa,[4;5]); (n_t1'bb,[6;7])] [4;2;0;6;5;1;7;3]));
  (*1517*) AddTo n_c4'abbbabbb (Times (Einsum [(n_t1'bb,[0;1]); (n_t1'bb,[2;3]); (n_t1'aa,[4;5]); (n_t1'bb,[6;7])] [4;2;0;6;5;1;3;7]) (-1) 1);
  (*1518*) AddTo n_c4'abbbabbb (Times (Einsum [(n_t1'bb,[0;1]); (n_t1'bb,[2;3]); (n_t1'bb,[4;5]); (n_t1'aa,[6;7])] [6;4;0;2;7;5;3;1]) (-1) 1);
  (*1519*) AddTo n_c4'abbbabbb (Plain (Einsum [(n_t1'bb,[0;1]); (n_t1'bb,[2;3]); (n_t1'aa,[4;5]); (n_t1'bb,[6;7])] [4;2;0;6;5;3;1;7]))]
 [(n_c4'aaaaaaaa,[4;4;4;4;5;5;5;5]); (n_c4'aaabaaab,[4;4;4;6;5;5;5;7]); (n_c4'bbbbbbbb,[6;6;6;6;7;7;7;7]); (n_c4'abababab,[4;6;4;6;5;7;5;7]); (n_c4'abbbabbb,[4;6;6;6;5;7;7;7])].

