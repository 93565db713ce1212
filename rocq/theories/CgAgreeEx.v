(** Concrete tensors for the comparison of restricted, unrestricted and general functions. *)
From Coq Require Import List String ZArith QArith Qcanon Lia.
From Verif Require Import Base Alg ArrModel EinsumModel CgModel CgSpec CgFormSpec CgProofs CgPolyDom CgCompare CgCompareProofs CgBuild CgNames CgTables CgPairs CgAgree CgEx ArrProofs.
Import ListNotations.
Local Open Scope nat_scope.
Set Implicit Arguments.

Lemma Qc_characteristic_zero : characteristic_zero Qc_fld.
Proof.
  assert (A : forall n, (this (@rnat Qc_fld n) == inject_Z (Z.of_nat n))%Q).
  { induction n as [|n IH]; [reflexivity|]. cbn [rnat]. change (@radd Qc_fld) with Qcplus. unfold Qcplus. cbn [this Q2Qc].
    rewrite Qred_correct. change (@r1 Qc_fld) with 1%Qc. rewrite IH. change (this 1%Qc) with (inject_Z 1). rewrite <- inject_Z_plus. rewrite Nat2Z.inj_succ. unfold Z.succ. rewrite (Z.add_comm 1). reflexivity. }
  intros n E. specialize (A (S n)). rewrite E in A. change (inject_Z 0 == inject_Z (Z.of_nat (S n)))%Q in A. apply (proj1 (inject_Z_injective _ _)) in A. rewrite Nat2Z.inj_succ in A. lia.
Qed.

(** Sizes: two occupied and one virtual orbital of each spin. *)
Definition closed_sz (c : cls) : nat := match c with 0 | 4 | 6 => 2 | _ => 1 end.
Definition spin_sz (c : cls) : nat := match c with 0 => 3 | 1 => 4 | 4 => 2 | 5 => 2 | 6 => 1 | 7 => 2 | _ => 1 end.
Lemma closed_splits : splits closed_sz closed_split.
Proof. intros c. do 8 (destruct c as [|c]; [split; [repeat constructor; cbn; lia|reflexivity]|]). split; [repeat constructor; cbn; lia|cbn; lia]. Qed.
Lemma spin_splits : splits spin_sz spin_split.
Proof. intros c. do 8 (destruct c as [|c]; [split; [repeat constructor; cbn; lia|reflexivity]|]). split; [repeat constructor; cbn; lia|cbn; lia]. Qed.

(** Numbers with the symmetries of the tensors: the signed sum of arbitrary numbers over the symmetries (zero for
    tensors with more than four indices, to keep the check short). *)
Definition noise (x : ref) (idx : list nat) : Z :=
  let h := fold_left (fun a i => (a * 5 + Z.of_nat i) mod 101)%Z idx (Zpos x mod 97)%Z in ((h * h + 3) mod 13 - 5)%Z.
Definition symm_of (S : symmetries) (x : ref) : list (list nat * bool) :=
  match find (fun s => Pos.eqb (fst s) x) S with Some s => snd s | None => [] end.
Definition noisy (S : symmetries) (x : ref) (idx : list nat) : Z :=
  if 4 <? length idx then 0%Z else
  fold_left (fun a (p : list nat * bool) => let z := noise x (map (fun i => nth i idx 0) (fst p)) in if snd p then (a - z)%Z else (a + z)%Z)
            (symm_of S x) (noise x idx).
Definition toQ (z : Z) : Qc_fld := Q2Qc (inject_Z z).
Fixpoint ex_basis (sz : cls -> nat) (S : symmetries) (B : list (ref * list cls)) : env Qc_fld :=
  match B with
  | [] => fun _ => None
  | (x, cs) :: B' => bindv (ex_basis sz S B') x (Some (tab (map sz cs) (fun idx => toQ (noisy S x idx))))
  end.
Definition sym_check (sz : cls -> nat) (S : symmetries) (B : list (ref * list cls)) : bool :=
  nodup_names (map fst B) &&
  forallb (fun b => forallb (fun s => if negb (Pos.eqb (fst s) (fst b)) then true else forallb (fun p : list nat * bool =>
     if 4 <? length (snd b) then forallb (fun i => i <? length (snd b)) (fst p) && eql (map (fun i => nth i (map sz (snd b)) 0) (fst p)) (map sz (snd b))
     else forallb (fun idx => inbb (map sz (snd b)) (map (fun i => nth i idx 0) (fst p)) &&
        Z.eqb (noisy S (fst b) (map (fun i => nth i idx 0) (fst p))) (if snd p then Z.opp (noisy S (fst b) idx) else noisy S (fst b) idx)) (all_idx (map sz (snd b)))) (snd s)) S) B.
Lemma ex_basis_in sz S B x cs : NoDup (map fst B) -> In (x, cs) B -> ex_basis sz S B x = Some (tab (map sz cs) (fun idx => toQ (noisy S x idx))).
Proof.
  induction B as [|[y ds] B IH]; cbn [map ex_basis]; intros Hn Hi; [destruct Hi|]. inversion Hn as [|? ? N1 N2]; subst. unfold bindv.
  destruct Hi as [Hi|Hi]; [injection Hi as -> ->; rewrite Pos.eqb_refl; reflexivity|].
  destruct (Pos.eqb_spec x y) as [->|N]; [destruct N1; apply (in_map fst) in Hi; exact Hi|]. apply IH; assumption.
Qed.
Lemma toQ_opp z : toQ (- z) = @ropp Qc_fld (toQ z).
Proof. apply Qc_is_canon. change (@ropp Qc_fld) with Qcopp. unfold toQ, Qcopp. cbn [this Q2Qc]. rewrite !Qred_correct, inject_Z_opp. reflexivity. Qed.
Lemma inb_axes dims idx axes : inb dims idx -> forallb (fun i => i <? length dims) axes = true -> inb (map (fun i => nth i dims 0) axes) (map (fun i => nth i idx 0) axes).
Proof.
  intros Hi H. induction axes as [|a axes IH]; cbn [map forallb] in *; [constructor|]. apply andb_prop in H as [H1 H2]. apply Nat.ltb_lt in H1.
  constructor; [apply (@ArrProofs.inb_nth dims idx a Hi H1)|apply IH, H2].
Qed.
Lemma sym_check_ok sz S B : sym_check sz S B = true -> symmetric sz S B (ex_basis sz S B).
Proof.
  unfold sym_check. intros H. apply andb_prop in H as [Hn H]. apply nodup_names_ok in Hn. rewrite forallb_forall in H.
  intros x cs l axes neg Hx Hl Ha idx Hi. rewrite (@ex_basis_in sz S B x cs Hn Hx). specialize (H _ Hx). rewrite forallb_forall in H. specialize (H _ Hl).
  cbn [fst snd] in H. rewrite Pos.eqb_refl in H. cbn [negb] in H. rewrite forallb_forall in H. specialize (H _ Ha). cbn [fst snd] in H.
  destruct (4 <? length cs) eqn:L.
  { apply andb_prop in H as [H1 H2]. apply eql_ok in H2. pose proof (inb_length Hi) as Li. rewrite map_length in Li.
    assert (Lp : length (map (fun i => nth i idx 0) axes) = length cs) by (apply (f_equal (@length nat)) in H2; rewrite !map_length in H2; rewrite map_length; exact H2).
    unfold tens. rewrite !aget_tab; [|exact Hi|rewrite <- H2; apply inb_axes; [exact Hi|rewrite map_length; exact H1]].
    unfold noisy. rewrite Lp, Li, L. destruct neg; [apply (toQ_opp 0)|reflexivity]. }
  rewrite forallb_forall in H. specialize (H idx (proj2 (all_idx_in _ _) Hi)). apply andb_prop in H as [H1 H2]. apply inbb_iff in H1.
  apply Z.eqb_eq in H2. unfold tens. rewrite !aget_tab by assumption. rewrite H2. destruct neg; [apply toQ_opp|reflexivity].
Qed.
Lemma closed_symmetric : symmetric closed_sz spatial_symmetries spatial (ex_basis closed_sz spatial_symmetries spatial).
Proof. apply sym_check_ok. vm_compute. reflexivity. Qed.
Lemma spin_symmetric : symmetric spin_sz spin_blocks_symmetries spin_blocks (ex_basis spin_sz spin_blocks_symmetries spin_blocks).
Proof. apply sym_check_ok. vm_compute. reflexivity. Qed.
Lemma ex_nonzero : tens Qc_fld (ex_basis closed_sz spatial_symmetries spatial n_t2) [0; 1; 0; 0] <> r0 /\
  tens Qc_fld (ex_basis spin_sz spin_blocks_symmetries spin_blocks n_t2'aaaa) [0; 1; 0; 1] <> r0 /\
  tens Qc_fld (ex_basis spin_sz spin_blocks_symmetries spin_blocks n_t2'abab) [0; 0; 0; 1] <> r0.
Proof. repeat split; intros H; apply (f_equal this) in H; vm_compute in H; discriminate H. Qed.
