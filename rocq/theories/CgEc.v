(** External corrections: checks and proofs. *)
From Coq Require Import List ZArith String.
From Verif Require Import Base Alg ArrModel EinsumModel CgModel CgSpec CgFormSpec CgNames CgTables CgTables2 CgRelSpec CgPairs CgPoly CgCompare CgCompareProofs CgRel CgRun CgDelta CgDens CgExpSpec CgSlice CgEcSpec.
From Verif Require Import Cg_GecCC Cg_UecCC Cg_RecCC Cg_GCCSDTQ Cg_GCCSD CgAll CgAllRun.
Import ListNotations.
Local Open Scope list_scope. Local Open Scope nat_scope.

(** ** Spin orbitals *)
Definition singles_doubles : list ref := [n_t1new; n_t2new].
Definition ec_calls : list (table * prog) :=
  [(g_inflated, sliced GCCSDTQ_update_amps singles_doubles); (general, sliced GCCSD_update_amps singles_doubles);
   (g_active, GecCC_update_amps_external); (g_active, GecCC_update_amps_mixed)].
Definition lhs1 : formula := [mono 1 1 [(nm 1 n_t1new, [0; 10])]].
Definition rhs1 : formula := [mono 1 1 [(nm 2 n_t1new, [0; 10])]] ++ added 3 n_t1new'OV [Y; Y] [0; 10].
Definition lhs2 : formula := [mono 1 1 [(nm 1 n_t2new, ij)]].
Definition rhs2 : formula := [mono 1 1 [(nm 2 n_t2new, ij)]] ++ added_doubles 3 ++ added_doubles 4.
Definition ec_relations : list (list nat * formula) := [([0; 10], lhs1 ++ scaled (-1) rhs1); (ij, lhs2 ++ scaled (-1) rhs2)].
Lemma ec_check : all_vanish g_tensors g_symmetries ec_calls ec_relations = true.
Proof. vm_compute. reflexivity. Qed.
(** Names of results of sliced programs are those of singles and doubles. *)
Definition kept (y : ref) : bool := match y with xI (xO x) => rmem x singles_doubles | xI (xI (xO x)) => rmem x singles_doubles | _ => true end.
Definition all_kept (f : formula) : bool := forallb (fun m => forallb (fun t => kept (fst t)) (snd m)) f.
Lemma kept_check : forallb all_kept [lhs1; rhs1; lhs2; rhs2] = true.
Proof. vm_compute. reflexivity. Qed.
Lemma value_kept (F : fld) sz (e e' : env F) out f idx : all_kept f = true -> (forall y, kept y = true -> e y = e' y) -> value sz e out f idx = value sz e' out f idx.
Proof.
  intros H E. unfold value. apply rsum_map_ext. intros m Hm. unfold all_kept in H. rewrite forallb_forall in H. specialize (H m Hm). rewrite forallb_forall in H.
  f_equal. f_equal. apply map_ext_in. intros t Ht. rewrite (E _ (H t Ht)). reflexivity.
Qed.
Lemma vanish_calls B S calls l : all_vanish B S calls l = true ->
  forall (F : fld) sz, characteristic_zero F -> forall method path, path_ok path ->
  forall eB : env F, symmetric sz S B eB ->
  forall es, Forall2 (fun c e => called_with sz eB (fst c) (snd c) e) calls es ->
  forall rs, Forall2 (fun ce r => run method path sz (snd (fst ce)) (snd ce) = Ok r) (combine calls es) rs ->
    forall r, In r l -> forall idx, inb (map sz (map kind (fst r))) idx ->
      value sz (together (eB :: map (fun cr => results F (p_out (snd (fst cr))) (snd cr)) (combine calls rs))) (fst r) (snd r) idx = r0.
Proof.
  intros H F sz H0 m pa P eB HS es Hes rs R r Hr. destruct (@vanishes_delta_sound _ _ _ _ _ (@all_vanish_each _ _ _ _ _ H Hr) F sz H0 m pa P eB HS es Hes) as (rs' & R' & V).
  assert (rs = rs') as ->; [|exact V].
  clear -R R'. revert rs' R'. induction R as [|c r l rs Hc R IH]; intros rs' R'; inversion R' as [|? r' ? rs1 Hc' R1]; subst; [reflexivity|].
  rewrite Hc in Hc'. injection Hc' as <-. f_equal. apply IH, R1.
Qed.
Lemma ec_generated : forallb check_run [GCCSDTQ_update_amps; GCCSD_update_amps; GecCC_update_amps_external; GecCC_update_amps_mixed] = true.
Proof. vm_compute. reflexivity. Qed.
Lemma sliced_in p xs : p_in (sliced p xs) = p_in p.
Proof. reflexivity. Qed.
Lemma kept_results (F : fld) (eB g1 g1' g2 g2' g3 g4 : env F) : (forall x, In x singles_doubles -> g1 x = g1' x) -> (forall x, In x singles_doubles -> g2 x = g2' x) ->
  forall y, kept y = true -> together [eB; g1; g2; g3; g4] y = together [eB; g1'; g2'; g3; g4] y.
Proof.
  intros H1 H2 y K. destruct y as [[[y|y|]|y|]|y|]; try reflexivity; cbn [together]; cbn [kept] in K; [apply H2|apply H1]; apply rmem_iff, K.
Qed.
Theorem exact_corrections_ok : exact_corrections.
Proof.
  intros F sz H0 m pa P eB HS e1 e2 e3 e4 C1 C2 C3 C4. pose proof ec_generated as G. rewrite forallb_forall in G.
  assert (R : forall T p e, In p [GCCSDTQ_update_amps; GCCSD_update_amps; GecCC_update_amps_external; GecCC_update_amps_mixed] -> called_with sz eB T p e -> exists r, run m pa sz p e = Ok r).
  { intros T p e Hp [A _]. destruct (@check_run_sound F m pa sz p (G p Hp) e P A) as (_ & r & _ & R & _). exists r. exact R. }
  destruct (R _ _ _ ltac:(left; reflexivity) C1) as (r1 & R1). destruct (R _ _ _ ltac:(right; left; reflexivity) C2) as (r2 & R2).
  destruct (R _ _ _ ltac:(do 2 right; left; reflexivity) C3) as (r3 & R3). destruct (R _ _ _ ltac:(do 3 right; left; reflexivity) C4) as (r4 & R4).
  exists r1, r2, r3, r4. do 4 (split; [assumption|]). cbv zeta.
  destruct (@sliced_run F m pa sz GCCSDTQ_update_amps singles_doubles e1 r1 R1) as (s1 & S1 & E1). destruct (@sliced_run F m pa sz GCCSD_update_amps singles_doubles e2 r2 R2) as (s2 & S2 & E2).
  set (all := together [eB; results F (p_out GCCSDTQ_update_amps) r1; results F (p_out GCCSD_update_amps) r2; results F (p_out GecCC_update_amps_external) r3; results F (p_out GecCC_update_amps_mixed) r4]).
  assert (V : forall r, In r ec_relations -> forall idx, inb (map sz (map kind (fst r))) idx ->
    value sz (together (eB :: map (fun cr => results F (p_out (snd (fst cr))) (snd cr)) (combine ec_calls [s1; s2; r3; r4]))) (fst r) (snd r) idx = r0).
  { apply (@vanish_calls _ _ _ _ ec_check F sz H0 m pa P eB HS [e1; e2; e3; e4]); repeat (apply Forall2_cons; [first [assumption|exact C1|exact C2|exact S1|exact S2]|]); apply Forall2_nil. }
  set (all' := together (eB :: map (fun cr => results F (p_out (snd (fst cr))) (snd cr)) (combine ec_calls [s1; s2; r3; r4]))) in V.
  assert (E : forall y, kept y = true -> all y = all' y).
  { intros y Hy. symmetry. apply kept_results; assumption. }
  pose proof kept_check as K. cbn [forallb] in K. apply andb_prop in K as [K1 K]. apply andb_prop in K as [K2 K]. apply andb_prop in K as [K3 K]. apply andb_prop in K as [K4 _].
  split; intros idx Hi.
  - specialize (V _ ltac:(left; reflexivity) idx Hi). cbn [fst snd] in V. apply (@value_minus F H0) in V. fold lhs1. fold rhs1.
    rewrite (@value_kept F sz all all' [0; 10] lhs1 idx K1 E), (@value_kept F sz all all' [0; 10] rhs1 idx K2 E). exact V.
  - specialize (V _ ltac:(right; left; reflexivity) idx Hi). cbn [fst snd] in V. apply (@value_minus F H0) in V. fold lhs2. fold rhs2.
    rewrite (@value_kept F sz all all' ij lhs2 idx K3 E), (@value_kept F sz all all' ij rhs2 idx K4 E). exact V.
Qed.

(** ** Spins and closed shells *)
Lemma agree_ok B S Tp p split Tq q Tout : compare B S Tp p split Tq q Tout = true -> corrections_agree B S Tp p split Tq q Tout.
Proof. intros H F sz H0 Hs m1 m2 p1 p2 P1 P2 eB e1 e2 HS [A1 G1] A2 G2. exact (@compare_sound B S Tp p split Tq q Tout H F sz H0 Hs m1 m2 p1 p2 P1 P2 eB e1 e2 HS A1 G1 A2 G2). Qed.
Lemma ug_check :
  compare u_tensors u_symmetries (u_active stored_unrestricted) UecCC_update_amps_external active_spin_split g_active_spins GecCC_update_amps_external g_results = true /\
  compare u_tensors u_symmetries (u_active stored_unrestricted) UecCC_update_amps_mixed active_spin_split g_active_spins GecCC_update_amps_mixed g_results = true.
Proof. split; vm_compute; reflexivity. Qed.
Lemma ru_check :
  compare r_tensors r_symmetries r_active RecCC_update_amps_external active_closed_split u_active_closed UecCC_update_amps_external u_closed_results = true /\
  compare r_tensors r_symmetries r_active RecCC_update_amps_mixed active_closed_split u_active_closed UecCC_update_amps_mixed u_closed_results = true.
Proof. split; vm_compute; reflexivity. Qed.
Lemma ug_ok :
  corrections_agree u_tensors u_symmetries (u_active stored_unrestricted) UecCC_update_amps_external active_spin_split g_active_spins GecCC_update_amps_external g_results /\
  corrections_agree u_tensors u_symmetries (u_active stored_unrestricted) UecCC_update_amps_mixed active_spin_split g_active_spins GecCC_update_amps_mixed g_results.
Proof. exact (conj (agree_ok _ _ _ _ _ _ _ _ (proj1 ug_check)) (agree_ok _ _ _ _ _ _ _ _ (proj2 ug_check))). Qed.
Lemma ru_ok :
  corrections_agree r_tensors r_symmetries r_active RecCC_update_amps_external active_closed_split u_active_closed UecCC_update_amps_external u_closed_results /\
  corrections_agree r_tensors r_symmetries r_active RecCC_update_amps_mixed active_closed_split u_active_closed UecCC_update_amps_mixed u_closed_results.
Proof. exact (conj (agree_ok _ _ _ _ _ _ _ _ (proj1 ru_check)) (agree_ok _ _ _ _ _ _ _ _ (proj2 ru_check))). Qed.

(** ** Undivided amplitudes *)
Definition scale_calls : list (table * prog) := [(one_block (own_unrestricted Cluster), UecCC_update_amps_external); (one_block stored_unrestricted, UecCC_update_amps_external)].
Definition scale_relations : list (list nat * formula) :=
  [([100; 110], [mono 1 1 [(nm 1 n_t1new'aa'OV, [100; 110])]] ++ scaled (-1) (singles_formula 2)); ([100; 110], [mono 1 1 [(nm 2 n_t1new'aa'OV, [100; 110])]] ++ scaled (-1) (singles_formula 1))].
Lemma scale_check : all_vanish u_tensors u_symmetries scale_calls scale_relations = true.
Proof. vm_compute. reflexivity. Qed.
Lemma Forall2_two {A B} (Q : A -> B -> Prop) a b l : Forall2 Q [a; b] l -> exists x y, l = [x; y] /\ Q a x /\ Q b y.
Proof. intros H. inversion H as [|? x ? l1 H1 H2]; subst. inversion H2 as [|? y ? l2 H3 H4]; subst. inversion H4; subst. exists x, y. repeat split; assumption. Qed.
Theorem undivided_ok : forall (F : fld) sz, characteristic_zero F -> forall method path, path_ok path ->
  forall eB : env F, symmetric sz u_symmetries u_tensors eB ->
  forall e1 e2, called_with sz eB (one_block (own_unrestricted Cluster)) UecCC_update_amps_external e1 -> called_with sz eB (one_block stored_unrestricted) UecCC_update_amps_external e2 ->
  exists r1 r2, run method path sz UecCC_update_amps_external e1 = Ok r1 /\ run method path sz UecCC_update_amps_external e2 = Ok r2 /\
    let all := together [eB; results F (p_out UecCC_update_amps_external) r1; results F (p_out UecCC_update_amps_external) r2] in
    forall idx, inb (map sz [10; 11]) idx ->
      value sz all [100; 110] [mono 1 1 [(nm 1 n_t1new'aa'OV, [100; 110])]] idx = value sz all [100; 110] (singles_formula 2) idx /\
      value sz all [100; 110] [mono 1 1 [(nm 2 n_t1new'aa'OV, [100; 110])]] idx = value sz all [100; 110] (singles_formula 1) idx.
Proof.
  intros F sz H0 m pa P eB HS e1 e2 C1 C2.
  assert (Hes : Forall2 (fun c e => called_with sz eB (fst c) (snd c) e) scale_calls [e1; e2]) by (apply Forall2_cons; [exact C1|apply Forall2_cons; [exact C2|apply Forall2_nil]]).
  destruct (@vanishes_delta_sound _ _ _ _ _ (@all_vanish_each _ _ _ _ _ scale_check (or_introl eq_refl)) F sz H0 m pa P eB HS _ Hes) as (rs & R & _).
  pose proof (@vanish_calls _ _ _ _ scale_check F sz H0 m pa P eB HS _ Hes rs R) as V.
  destruct (Forall2_two _ _ _ _ R) as (r1 & r2 & -> & R1 & R2). exists r1, r2. split; [exact R1|]. split; [exact R2|]. cbv zeta. intros idx Hi. split.
  - specialize (V _ (or_introl eq_refl) idx Hi). apply (@value_minus F H0) in V. exact V.
  - specialize (V _ (or_intror (or_introl eq_refl)) idx Hi). apply (@value_minus F H0) in V. exact V.
Qed.
