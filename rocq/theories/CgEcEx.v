(** Concrete active spaces for the external corrections. *)
From Coq Require Import List String ZArith QArith Qcanon Lia.
From Verif Require Import Base Alg ArrModel EinsumModel CgModel CgSpec CgFormSpec CgProofs CgCompare CgCompareProofs CgBuild CgNames CgTables CgTables2 CgRelSpec CgLagSpec CgPairs CgAgreeEx CgAgree2Ex CgExpSpec CgExpEx CgEcSpec CgPolyDom ArrProofs.
From Verif Require Import Cg_GecCC Cg_UecCC Cg_RecCC Cg_GCCSDTQ Cg_GCCSD.
Import ListNotations.
Local Open Scope nat_scope. Local Open Scope list_scope.

Definition ec_functions : list prog :=
  [GCCSDTQ_update_amps; GCCSD_update_amps; GecCC_update_amps_external; GecCC_update_amps_mixed; UecCC_update_amps_external; UecCC_update_amps_mixed;
   RecCC_update_amps_external; RecCC_update_amps_mixed].
Lemma ec_nodup : forallb (fun p => nodup_names (map fst (p_in p))) ec_functions = true.
Proof. vm_compute. reflexivity. Qed.
Lemma ec_arguments p : In p ec_functions -> forall split T (F : fld) sz (eB : env F), splits sz split ->
  exists e, args_ok sz (p_in p) e /\ forall x cs, In (x, cs) (p_in p) -> given_by sz split T eB x cs (tens F (e x)).
Proof.
  intros Hp split T F sz eB Hs. pose proof ec_nodup as H. rewrite forallb_forall in H. specialize (H p Hp). apply nodup_names_ok in H.
  exists (build sz split T eB (p_in p)). split; [apply build_args, H|apply build_given; [exact Hs|exact H]].
Qed.

(** Tensors with given integers as entries, those not in [xs] being zero. *)
Definition integers (sz : cls -> nat) (xs : list ref) (z : ref -> list nat -> Z) (B : list (ref * list cls)) : env Qc_fld := fun x =>
  match find (fun b => Pos.eqb (fst b) x) B with
  | Some b => if existsb (Pos.eqb x) xs then Some (tab (map sz (snd b)) (fun idx => toQ (z x idx))) else None
  | None => None
  end.
Definition integers_check (sz : cls -> nat) (S : symmetries) (xs : list ref) (z : ref -> list nat -> Z) (B : list (ref * list cls)) : bool :=
  nodup_names (map fst B) &&
  forallb (fun b => if existsb (Pos.eqb (fst b)) xs then
    forallb (fun s => if negb (Pos.eqb (fst s) (fst b)) then true else forallb (fun p : list nat * bool =>
       forallb (fun idx => inbb (map sz (snd b)) (map (fun i => nth i idx 0) (fst p)) &&
          Z.eqb (z (fst b) (map (fun i => nth i idx 0) (fst p))) (if snd p then Z.opp (z (fst b) idx) else z (fst b) idx)) (all_idx (map sz (snd b)))) (snd s)) S
    else true) B.
Lemma find_name {A} (B : list (ref * A)) x v : NoDup (map fst B) -> In (x, v) B -> find (fun b => Pos.eqb (fst b) x) B = Some (x, v).
Proof.
  induction B as [|[y w] B IH]; cbn [map find fst]; intros Hn Hi; [destruct Hi|]. inversion Hn as [|? ? N1 N2]; subst. destruct Hi as [Hi|Hi].
  - injection Hi as -> ->. rewrite Pos.eqb_refl. reflexivity.
  - destruct (Pos.eqb_spec y x) as [->|]; [destruct N1; apply (in_map fst) in Hi; exact Hi|apply IH; assumption].
Qed.
Lemma integers_symmetric sz S xs z B : integers_check sz S xs z B = true -> symmetric sz S B (integers sz xs z B).
Proof.
  unfold integers_check. intros H. apply andb_prop in H as [Hn H]. apply nodup_names_ok in Hn. rewrite forallb_forall in H.
  intros x cs l axes neg Hx Hl Ha idx Hi. unfold integers. rewrite (find_name B x cs Hn Hx). cbn [snd]. specialize (H _ Hx). cbn [fst snd] in H.
  destruct (existsb (Pos.eqb x) xs); [|destruct neg; [apply Qc_is_canon|]; reflexivity].
  rewrite forallb_forall in H. specialize (H _ Hl). cbn [fst snd] in H. rewrite Pos.eqb_refl in H. cbn [negb] in H. rewrite forallb_forall in H. specialize (H _ Ha). cbn [fst snd] in H.
  rewrite forallb_forall in H. specialize (H idx (proj2 (all_idx_in _ _) Hi)). apply andb_prop in H as [H1 H2]. apply inbb_iff in H1.
  apply Z.eqb_eq in H2. unfold tens. rewrite !aget_tab by assumption. rewrite H2. destruct neg; [apply toQ_opp|reflexivity].
Qed.

(** Three occupied and three virtual orbitals, all of them active.  The triples are products of alternating signs. *)
Definition at_ (idx : list nat) (k : nat) : Z := Z.of_nat (nth k idx 0).
Definition unit_matrix (idx : list nat) : Z := if nth 0 idx 0 =? nth 1 idx 0 then 1 else 0.
Definition alternating (i j k : Z) : Z := ((j - i) * (k - i) * (k - j))%Z.
Definition ec_sz (c : cls) : nat := match c with 0 | 1 | 8 | 9 => 3 | _ => 1 end.
Definition g_numbers (x : ref) (idx : list nat) : Z :=
  if Pos.eqb x n_t3 then alternating (at_ idx 0) (at_ idx 1) (at_ idx 2) * alternating (at_ idx 3) (at_ idx 4) (at_ idx 5)
  else if Pos.eqb x n_v'oovv then (at_ idx 0 - at_ idx 1) * (at_ idx 2 - at_ idx 3)
  else if Pos.eqb x n_t1 || Pos.eqb x n_f'ov then 1 + at_ idx 0 - 2 * at_ idx 1
  else unit_matrix idx.
Definition g_example : env Qc_fld := integers ec_sz [n_t3; n_v'oovv; n_t1; n_f'ov; n_eo; n_ev] g_numbers g_tensors.
Lemma g_example_symmetric : symmetric ec_sz g_symmetries g_tensors g_example.
Proof. apply integers_symmetric. vm_compute. reflexivity. Qed.
(** Two orbitals of spin alpha and one of spin beta, occupied and virtual, all of them active. *)
Definition ec_spin_sz (c : cls) : nat := match c with 0 | 1 | 8 | 9 => 3 | 4 | 5 | 10 | 11 => 2 | _ => 1 end.
Definition u_numbers (x : ref) (idx : list nat) : Z :=
  if Pos.eqb x n_t3'abaaba then (at_ idx 0 - at_ idx 2) * (at_ idx 3 - at_ idx 5)
  else if Pos.eqb x n_v'aabb'ovov || Pos.eqb x n_t1'aa then 2 + at_ idx 0 - at_ idx 1
  else unit_matrix idx.
Definition u_example : env Qc_fld := integers ec_spin_sz [n_t3'abaaba; n_v'aabb'ovov; n_t1'aa; n_eo'a; n_ev'a; n_eo'b; n_ev'b] u_numbers u_tensors.
Lemma u_example_symmetric : symmetric ec_spin_sz u_symmetries u_tensors u_example.
Proof. apply integers_symmetric. vm_compute. reflexivity. Qed.
Lemma ec_spin_splits : splits ec_spin_sz active_spin_split.
Proof. intros c. do 14 (destruct c as [|c]; [split; [repeat constructor; cbn; lia|reflexivity]|]). split; [repeat constructor; cbn; lia|cbn; lia]. Qed.
(** Two occupied and two virtual orbitals, doubly occupied and empty, all of them active. *)
Definition ec_closed_sz (c : cls) : nat := match c with 2 | 3 => 1 | _ => 2 end.
Definition r_numbers (x : ref) (idx : list nat) : Z :=
  if Pos.eqb x n_t3 then at_ idx 0 * at_ idx 3 + at_ idx 1 * at_ idx 4 + at_ idx 2 * at_ idx 5
  else if Pos.eqb x n_v'ovov then (1 + at_ idx 0 + at_ idx 1) * (1 + at_ idx 2 + at_ idx 3)
  else if Pos.eqb x n_t1 then 2 + at_ idx 0 - at_ idx 1
  else unit_matrix idx.
Definition r_example : env Qc_fld := integers ec_closed_sz [n_t3; n_v'ovov; n_t1; n_eo; n_ev] r_numbers r_tensors.
Lemma r_example_symmetric : symmetric ec_closed_sz r_symmetries r_tensors r_example.
Proof. apply integers_symmetric. vm_compute. reflexivity. Qed.
Lemma ec_closed_splits : splits ec_closed_sz active_closed_split.
Proof. intros c. do 14 (destruct c as [|c]; [split; [repeat constructor; cbn; lia|reflexivity]|]). split; [repeat constructor; cbn; lia|cbn; lia]. Qed.
(** In these examples the amplitudes are not zero, and neither is the correction to the singles of spin alpha. *)
Lemma ec_nonzero : tens Qc_fld (g_example n_t3) [0; 1; 2; 0; 1; 2] <> r0 /\ tens Qc_fld (r_example n_t3) [0; 0; 1; 0; 0; 1] <> r0 /\
  value (F := Qc_fld) ec_spin_sz (together [u_example]) [100; 110] (singles_formula 1) [0; 0] <> r0.
Proof. repeat apply conj; intros H; apply (f_equal this) in H; vm_compute in H; discriminate H. Qed.
