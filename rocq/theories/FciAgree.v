(** Proofs: restricted and unrestricted reading of the same CI vector. *)
From Coq Require Import String ZArith Permutation.
From Verif Require Import Base ListAux Alg ArrModel ArrProofs PermModel PermSpec PermProps TensorModel TensorSpec KernelProofs DampProofs SpaceModel AnsatzModel
  VecModel VecSpec VecThms CcModel CcThms CcInit EomDiag ExtModel FciModel FciSpec FciProofs.
Set Implicit Arguments.
Local Open Scope nat_scope.
Local Open Scope list_scope.

Section Agree.
  Variable F : fld.
  Variable tn : nat -> nat -> nat -> list nat * list Z.
  Variable sp : space.
  Variable ci : arr F.
  Lemma same_c spins : r_fci_shape sp spins = u_fci_shape sp sp spins -> r_get_c F tn sp ci spins = u_get_c F tn sp sp ci spins.
  Proof. intros E. unfold r_get_c, u_get_c. rewrite E. reflexivity. Qed.
  Lemma same_b : r_get_c F tn sp ci (str "b") = u_get_c F tn sp sp ci (str "b"). Proof. apply same_c. reflexivity. Qed.
  Lemma same_ab : r_get_c F tn sp ci (str "ab") = u_get_c F tn sp sp ci (str "ab"). Proof. apply same_c. reflexivity. Qed.
  Lemma same_aba : r_get_c F tn sp ci (str "aba") = u_get_c F tn sp sp ci (str "aba"). Proof. apply same_c. reflexivity. Qed.
  Lemma same_abab : r_get_c F tn sp ci (str "abab") = u_get_c F tn sp sp ci (str "abab"). Proof. apply same_c. reflexivity. Qed.

  (** A block of the unrestricted result is what was read for its spins. *)
  Lemma u_block m uc n comb : u_coefficients F tn sp sp ci m = Ok uc -> (1 <= n <= m)%nat -> In comb (generate_spin_combinations n false true) ->
    exists x, u_get_c F tn sp sp ci (firstn n comb) = Ok x /\ coefficient uc n comb = Some x.
  Proof.
    unfold u_coefficients. destruct (Nat.ltb_spec 4 m) as [H|H4]; [discriminate|]. destruct (Nat.eqb_spec m 0) as [E|E]; [discriminate|]. intros HU Hn I.
    assert (ND : NoDup (map order_name (seq 1 m))).
    { assert (X : m = 1 \/ m = 2 \/ m = 3 \/ m = 4) by lia. destruct X as [->|[->|[->| ->]]]; vm_compute; repeat (constructor; [cbn [In]; intuition discriminate|]); constructor. }
    assert (T : forall e, In e (seq 1 m) -> exists v, u_order F tn sp sp ci e = Ok v).
    { clear ND Hn I. revert HU. unfold set_all. generalize (@nil (pystr * tval F)). generalize (seq 1 m). intros l. induction l as [|e l IH]; intros d HU k Hk; [destruct Hk|].
      cbn [foldM] in HU. apply bind_ok in HU. destruct HU as (d' & E1 & HU). apply bind_ok in E1. destruct E1 as (v & E1 & _). destruct Hk as [<-|Hk]; [eexists; exact E1|]. eapply IH; eassumption. }
    destruct (@set_all_ok F nat order_name (u_order F tn sp sp ci) (seq 1 m) [] ND T) as (out & Eo & _ & _ & _ & G); [constructor|]. rewrite Eo in HU. apply ok_inj in HU. subst out.
    destruct (T n) as (v & Ev); [apply in_seq; lia|]. pose proof (G n v ltac:(apply in_seq; lia) Ev) as Gv.
    unfold u_order in Ev. apply bind_ok in Ev. destruct Ev as (d & Ed & Ev). apply ok_inj in Ev. subst v.
    assert (T2 : forall comb, In comb (generate_spin_combinations n false true) -> exists x, u_get_c F tn sp sp ci (firstn n comb) = Ok x).
    { revert Ed. generalize (@nil (pystr * arr F)). generalize (generate_spin_combinations n false true). intros l. induction l as [|e l IH]; intros d0 HU k Hk; [destruct Hk|].
      cbn [foldM] in HU. apply bind_ok in HU. destruct HU as (d' & E1 & HU). apply bind_ok in E1. destruct E1 as (x & E1 & _). destruct Hk as [<-|Hk]; [eexists; exact E1|]. eapply IH; eassumption. }
    destruct (@fold_dset (arr F) (fun comb => u_get_c F tn sp sp ci (firstn n comb)) (generate_spin_combinations n false true) [] T2) as (d' & Ed' & Gd).
    assert (X : d = d') by (apply (@ok_inj (dict pystr (arr F))); etransitivity; [symmetry; exact Ed|exact Ed']). subst d'.
    destruct (T2 comb I) as (x & Ex). exists x. split; [exact Ex|]. unfold coefficient. change (str "c" ++ dec n) with (order_name n). rewrite Gv. apply Gd; assumption.
  Qed.

  Lemma r_read m rc : r_coefficients F tn sp ci m = Ok rc -> 1 <= m <= 4 /\
    (exists x, r_get_c F tn sp ci (str "b") = Ok x /\ dget pystr_eq_dec (str "c1") rc = Some (VArr x)) /\
    (2 <= m -> exists x, r_get_c F tn sp ci (str "ab") = Ok x /\ dget pystr_eq_dec (str "c2") rc = Some (VArr x)) /\
    (3 <= m -> exists x, r_get_c F tn sp ci (str "aba") = Ok x /\ dget pystr_eq_dec (str "c3") rc = Some (VArr x)) /\
    (4 <= m -> exists x, r_get_c F tn sp ci (str "abab") = Ok x /\ dget pystr_eq_dec (str "c4") rc = Some (VArr x)) /\
    (4 <= m -> exists x, r_get_c F tn sp ci (str "abaa") = Ok x /\ dget pystr_eq_dec (str "c4a") rc = Some (VArr x)).
  Proof.
    unfold r_coefficients. destruct (Nat.ltb_spec 4 m) as [H|H4]; [discriminate|]. destruct (Nat.eqb_spec m 0) as [E|E]; [discriminate|]. intros HR. split; [lia|].
    assert (X : m = 1 \/ m = 2 \/ m = 3 \/ m = 4) by lia. destruct X as [->|[->|[->| ->]]]; cbn [filter r_requests fst Nat.leb foldM] in HR;
      repeat match goal with H : bind _ _ = Ok _ |- _ => apply bind_ok in H; destruct H as (? & ? & ?) end;
      repeat match goal with H : Ok _ = Ok _ |- _ => apply ok_inj in H; subst end;
      repeat split; intros; try lia; eexists; (split; [eassumption|reflexivity]).
  Qed.

  Lemma agree m rc uc : r_coefficients F tn sp ci m = Ok rc -> u_coefficients F tn sp sp ci m = Ok uc ->
    (exists x, dget pystr_eq_dec (str "c1") rc = Some (VArr x) /\ coefficient uc 1 (str "bb") = Some x) /\
    (2 <= m -> exists x, dget pystr_eq_dec (str "c2") rc = Some (VArr x) /\ coefficient uc 2 (str "abab") = Some x) /\
    (3 <= m -> exists x, dget pystr_eq_dec (str "c3") rc = Some (VArr x) /\ coefficient uc 3 (str "abaaba") = Some x) /\
    (4 <= m -> exists x, dget pystr_eq_dec (str "c4") rc = Some (VArr x) /\ coefficient uc 4 (str "abababab") = Some x).
  Proof.
    intros HR HU. destruct (r_read _ HR) as (Hm & (x1 & E1 & G1) & R2 & R3 & R4 & _).
    assert (X : forall n comb spins x, 1 <= n <= m -> In comb (generate_spin_combinations n false true) -> firstn n comb = spins ->
      r_get_c F tn sp ci spins = u_get_c F tn sp sp ci spins -> r_get_c F tn sp ci spins = Ok x -> coefficient uc n comb = Some x).
    { intros n comb spins x Hn I Es Eq Ex. destruct (@u_block m uc n comb HU Hn I) as (y & Ey & Gy). rewrite Es in Ey. rewrite Gy. f_equal. apply ok_inj. congruence. }
    split; [|split; [|split]].
    - exists x1. split; [exact G1|]. apply (X 1 (str "bb") (str "b") x1); [lia|vm_compute; tauto|reflexivity|exact same_b|exact E1].
    - intros H2. destruct (R2 H2) as (x & E & G). exists x. split; [exact G|]. apply (X 2 (str "abab") (str "ab") x); [lia|vm_compute; tauto|reflexivity|exact same_ab|exact E].
    - intros H2. destruct (R3 H2) as (x & E & G). exists x. split; [exact G|]. apply (X 3 (str "abaaba") (str "aba") x); [lia|vm_compute; tauto|reflexivity|exact same_aba|exact E].
    - intros H2. destruct (R4 H2) as (x & E & G). exists x. split; [exact G|]. apply (X 4 (str "abababab") (str "abab") x); [lia|vm_compute; tauto|reflexivity|exact same_abab|exact E].
  Qed.

  (** The second restricted quadruple block is the "aaab" block with its axes moved. *)
  Lemma shape_aaab : r_fci_shape sp (str "abaa") = u_fci_shape sp sp (str "aaab").
  Proof. reflexivity. Qed.
  Lemma agree_4a rc uc : r_coefficients F tn sp ci 4 = Ok rc -> u_coefficients F tn sp sp ci 4 = Ok uc ->
    exists x y, dget pystr_eq_dec (str "c4a") rc = Some (VArr x) /\ coefficient uc 4 (str "aaabaaab") = Some y /\
      forall i0 i1 i2 i3 a0 a1 a2 a3, inb (shp x) [i0; i1; i2; i3; a0; a1; a2; a3] ->
        aget r0 x [i0; i1; i2; i3; a0; a1; a2; a3] = aget r0 y [i0; i2; i3; i1; a0; a2; a3; a1].
  Proof.
    intros HR HU. destruct (r_read _ HR) as (_ & _ & _ & _ & _ & R). destruct (R ltac:(lia)) as (x & Ex & Gx). exists x.
    destruct (@u_block 4 uc 4 (str "aaabaaab") HU ltac:(lia) ltac:(vm_compute; tauto)) as (y & Ey & Gy). exists y. split; [exact Gx|]. split; [exact Gy|].
    unfold r_get_c in Ex. rewrite shape_aaab in Ex. change (firstn 4 (str "aaabaaab")) with (str "aaab") in Ey. unfold u_get_c in Ey. unfold get_c in Ex, Ey.
    change (nalph (str "abaa")) with 3 in Ex. change (nbeta (str "abaa")) with 1 in Ex. change (nalph (str "aaab")) with 3 in Ey. change (nbeta (str "aaab")) with 1 in Ey.
    apply bind_ok in Ex. destruct Ex as (z & Ez & Ex). apply bind_ok in Ex. destruct Ex as (v & Ev & Ex). apply bind_ok in Ex. destruct Ex as (s & Es & Ex). apply bind_ok in Ex. destruct Ex as (cn & Ec & Ex).
    apply bind_ok in Ex. destruct Ex as (p & Ep & Ex). apply bind_ok in Ex. destruct Ex as (t & Et & Ex). apply ok_inj in Ex.
    rewrite Ez in Ey. cbn [bind] in Ey. rewrite Ev in Ey. cbn [bind] in Ey. rewrite Es in Ey. cbn [bind] in Ey. rewrite Ec in Ey. cbn [bind] in Ey.
    apply bind_ok in Ey. destruct Ey as (q & Eq & Ey). apply bind_ok in Ey. destruct Ey as (u & Eu & Ey). apply ok_inj in Ey.
    assert (Pp : p = [0; 6; 1; 2; 3; 7; 4; 5]) by (apply ok_inj; rewrite <- Ep; vm_compute; reflexivity).
    assert (Pq : q = [0; 1; 2; 6; 3; 4; 5; 7]) by (apply ok_inj; rewrite <- Eq; vm_compute; reflexivity).
    apply transpose_inv in Et. destruct Et as (P1 & S1 & W1 & G1). apply transpose_inv in Eu. destruct Eu as (P2 & S2 & W2 & G2). subst p q x y.
    intros i0 i1 i2 i3 a0 a1 a2 a3 Hi. cbn [map_arr shp] in Hi. unfold map_arr, aget. cbn [shp dat].
    assert (Hb : ravel (shp t) [i0; i1; i2; i3; a0; a1; a2; a3] < length (dat t)) by (unfold wf in W1; rewrite W1; apply ravel_lt, Hi).
    rewrite (nth_map_lt _ _ r0 r0) by exact Hb.
    assert (Hi' : inb (shp u) [i0; i2; i3; i1; a0; a2; a3; a1]).
    { rewrite S2. rewrite S1 in Hi. cbn [map] in *. repeat match goal with H : inb (_ :: _) (_ :: _) |- _ => inversion H; clear H; subst | H : Forall2 _ (_ :: _) (_ :: _) |- _ => inversion H; clear H; subst end. repeat constructor; assumption. }
    assert (Hb' : ravel (shp u) [i0; i2; i3; i1; a0; a2; a3; a1] < length (dat u)) by (unfold wf in W2; rewrite W2; apply ravel_lt, Hi').
    rewrite (nth_map_lt _ _ r0 r0) by exact Hb'. f_equal.
    change (aget r0 t [i0; i1; i2; i3; a0; a1; a2; a3] = aget r0 u [i0; i2; i3; i1; a0; a2; a3; a1]). rewrite (G1 _ Hi), (G2 _ Hi'). reflexivity.
  Qed.
End Agree.
