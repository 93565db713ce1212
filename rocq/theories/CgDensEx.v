(** A solved calculation: two electrons in four spin orbitals. *)
From Coq Require Import List String ZArith QArith Qcanon Lia.
From Verif Require Import Base Alg ArrModel ArrProofs EinsumModel CgModel CgSpec CgFormSpec CgProofs CgCompare CgBuild CgNames CgTables CgTables2 CgRelSpec CgPairs CgDensTables CgDensSpec CgDensPairs CgDens CgAgree CgAgree2 CgAgreeEx CgAgree2Ex CgEx.
From Verif Require Import Cg_GCCSD.
Import ListNotations.
Local Open Scope nat_scope.

(** f_ij = -3/2 delta_ij, <01||01> = 2 between occupied and virtual orbitals, t2 = 2, l2 = 1; the doubles equation
    v - 2 f t - v t^2 = 2 + 6 - 8 holds. *)
Definition sign2 (i j : nat) : Q := match i, j with 0, 1 => 1 | 1, 0 => -1 | _, _ => 0 end.
Definition quad (v : Q) : arr Qc_fld := tab [2; 2; 2; 2] (fun idx => Q2Qc (v * sign2 (nth 0 idx 0) (nth 1 idx 0) * sign2 (nth 2 idx 0) (nth 3 idx 0))).
Definition solved : env Qc_fld := fun x =>
  if Pos.eqb x n_f'oo then Some (tab [2; 2] (fun idx => if nth 0 idx 0 =? nth 1 idx 0 then Q2Qc (-3 # 2) else Q2Qc 0))
  else if Pos.eqb x n_v'oovv then Some (quad 2) else if Pos.eqb x n_t2 then Some (quad 2) else if Pos.eqb x n_l2 then Some (quad 1) else None.
Lemma solved_symmetric : symmetric general_sz general_basis_symmetries general_basis solved.
Proof.
  assert (E : forallb (fun xc => forallb (fun sl => negb (Pos.eqb (fst xc) (fst sl)) || forallb (fun an => forallb (fun idx =>
      Qeq_bool (this (tens Qc_fld (solved (fst xc)) (map (fun i => nth i idx 0) (fst an)))) (this (rsign (K := Qc_fld) (snd an) (tens Qc_fld (solved (fst xc)) idx))))
    (all_idx (map general_sz (snd xc)))) (snd sl)) general_basis_symmetries) general_basis = true) by (vm_compute; reflexivity).
  intros x cs l axes neg Hx Hl Ha idx Hi. rewrite forallb_forall in E. specialize (E _ Hx). rewrite forallb_forall in E. specialize (E _ Hl). cbn [fst snd] in E.
  rewrite Pos.eqb_refl in E. cbn [negb orb] in E. rewrite forallb_forall in E. specialize (E _ Ha). rewrite forallb_forall in E. specialize (E idx (proj2 (all_idx_in _ _) Hi)).
  cbn [fst snd] in E. apply Qeq_bool_iff in E. apply Qc_is_canon. exact E.
Qed.
Definition solved_call (p : prog) : env Qc_fld := build general_sz id_blocks general solved (p_in p).
Definition solved_functions : list prog := [GCCSD_make_rdm1_f; GCCSD_make_rdm2_f; GCCSD_energy; GCCSD_update_amps].
Lemma solved_called : all_called general_sz solved general solved_functions (map solved_call solved_functions).
Proof.
  unfold solved_functions. cbn [map].
  assert (H : forall p, nodup_names (map fst (p_in p)) = true -> called_with general_sz solved general p (solved_call p)).
  { intros p H. apply nodup_names_ok in H. split; [apply build_args, H|apply build_given; [apply splits_id|exact H]]. }
  repeat constructor; apply H; vm_compute; reflexivity.
Qed.
Definition zero_array (a : arr Qc_fld) : bool := forallb (fun x : Qc => Qeq_bool (this x) 0) (dat a).
Lemma zero_results outs : forall rs x idx, forallb zero_array rs = true -> tens Qc_fld (results Qc_fld outs rs x) idx = r0.
Proof.
  assert (Z : forall a idx, zero_array a = true -> aget (r0 : Qc_fld) a idx = r0).
  { intros a idx H. unfold aget. destruct (nth_in_or_default (ravel (shp a) idx) (dat a) (r0 : Qc_fld)) as [Hi|Hd]; [|exact Hd].
    unfold zero_array in H. rewrite forallb_forall in H. specialize (H _ Hi). apply Qeq_bool_iff in H. apply Qc_is_canon. exact H. }
  induction outs as [|[y cs] outs IH]; intros [|r rs] x idx H; cbn [results]; try reflexivity.
  cbn [forallb] in H. apply andb_prop in H as [Hr H]. unfold bindv. destruct (Pos.eqb x y); [exact (Z r idx Hr)|exact (IH rs x idx H)].
Qed.
Lemma solved_returns : exists rs, all_return None ex_path general_sz solved_functions (map solved_call solved_functions) rs /\
  forall x idx, tens Qc_fld (given_and_results solved solved_functions rs (nm 4 x)) idx = r0.
Proof.
  assert (E : match run None ex_path general_sz GCCSD_make_rdm1_f (solved_call GCCSD_make_rdm1_f), run None ex_path general_sz GCCSD_make_rdm2_f (solved_call GCCSD_make_rdm2_f),
                    run None ex_path general_sz GCCSD_energy (solved_call GCCSD_energy), run None ex_path general_sz GCCSD_update_amps (solved_call GCCSD_update_amps) with
              | Ok _, Ok _, Ok _, Ok r => forallb zero_array r | _, _, _, _ => false end = true) by (vm_compute; reflexivity).
  destruct (run _ _ _ GCCSD_make_rdm1_f _) as [r1|] eqn:E1; [|discriminate]. destruct (run _ _ _ GCCSD_make_rdm2_f _) as [r2|] eqn:E2; [|discriminate].
  destruct (run _ _ _ GCCSD_energy _) as [r3|] eqn:E3; [|discriminate]. destruct (run _ _ _ GCCSD_update_amps _) as [r4|] eqn:E4; [|discriminate].
  exists [r1; r2; r3; r4]. split; [unfold all_return, solved_functions; cbn [map combine]; repeat constructor; assumption|].
  intros x idx. exact (@zero_results (p_out GCCSD_update_amps) r4 x idx E).
Qed.
