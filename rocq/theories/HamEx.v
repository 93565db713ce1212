(** A concrete Hamiltonian: two occupied orbitals, one virtual one, three atomic orbitals, two boson modes. *)
From Coq Require Import String.
From Coq Require Qcanon.
From Verif Require Import Base Alg ArrModel TensorModel EinsumModel SpaceModel SpaceSpec CcModel CcRdm CcEx HamModel HamSpec.
Local Open Scope string_scope.
Local Open Scope list_scope.
Local Open Scope nat_scope.

Definition h_space := ex_space.
Definition h_coeff : arr Qc_fld := mkarr [3; 3] (qs [1; 2; 0; 0; 1; 3; 1; 0; 1]%Z).
Definition h_ao : arr Qc_fld := mkarr [3; 3] (qs [4; 1; 2; 1; 5; 3; 2; 3; 6]%Z).
Definition h_g : arr Qc_fld := mkarr [2; 3; 3] (qs [1; 2; 3; 4; 5; 6; 7; 8; 9; 0; 1; 0; 2; 0; 3; 0; 4; 0]%Z).
Definition h_xi : arr Qc_fld := mkarr [2] (qs [1; -2]%Z).
Definition h_fock (shift : bool) : fock Qc_fld :=
  @mkfock Qc_fld h_ao [h_space; h_space] [h_coeff; h_coeff] (Some (@mkelbos Qc_fld h_g [h_space; h_space])) shift (Some h_xi).
(** Both spins with their own orbitals; the coupling has a spin axis. *)
Definition h_coeff_b : arr Qc_fld := mkarr [3; 3] (qs [1; 0; 0; 0; 1; 0; 2; 0; 1]%Z).
Definition h_gu : arr Qc_fld := mkarr [2; 2; 3; 3] (dat h_g ++ rev (dat h_g)).
Definition h_ufock (shift : bool) : ufock Qc_fld :=
  @mkufock Qc_fld (h_ao, h_ao) (h_space, mkspace [true; false; false] [false; false; false] [false; false; false]) (h_coeff, h_coeff_b) (Some h_gu) shift (Some h_xi).

Lemma h_accepted : accepted h_space. Proof. exists [true; true; false], [false; false; false], [false; false; false]. reflexivity. Qed.
Lemma h_basis : orbital_basis h_space h_coeff 3.
Proof. split; [exact h_accepted|]. split; [unfold nmo; cbn; lia|]. split; reflexivity. Qed.
Lemma h_occ : orbitals_from h_space ch_o 0 2.
Proof.
  split; [cbn; tauto|]. split; [lia|]. intros i. unfold denotes, isin, nmo. destruct i as [|[|[|i]]]; cbn; unfold ch_x, ch_o, ch_O, ch_i, ch_v, ch_V, ch_a.
  1,2: split; [lia|]; intros _; split; [lia|]; right; left; repeat split; discriminate.
  - split; [|lia]. intros [_ [[H _]|[(_ & H & _)|[[H _]|[[H _]|[[H _]|[[H _]|[H _]]]]]]]]; discriminate.
  - split; [|lia]. intros [H _]. lia.
Qed.
Lemma h_vir : orbitals_from h_space ch_v 2 3.
Proof.
  split; [cbn; tauto|]. split; [lia|]. intros i. unfold denotes, isin, nmo. destruct i as [|[|[|i]]]; cbn; unfold ch_x, ch_o, ch_O, ch_i, ch_v, ch_V, ch_a.
  1,2: split; [|lia]; intros [_ [[H _]|[[H _]|[[H _]|[[H _]|[(_ & H & _)|[[H _]|[H _]]]]]]]]; try discriminate; exfalso; apply H; reflexivity.
  - split; [lia|]. intros _. split; [lia|]. do 4 right. left. repeat split; discriminate.
  - split; [|lia]. intros [H _]. lia.
Qed.
Lemma h_symmetric : symmetric 3 h_ao.
Proof. intros p r Hp Hr. destruct p as [|[|[|]]], r as [|[|[|]]]; try lia; reflexivity. Qed.
Lemma h_plain : plain_fock (h_fock false) h_space h_coeff 3.
Proof. split; [exact h_basis|]. repeat split. Qed.
Lemma h_shifted : shifted_fock (h_fock true) h_space h_coeff 3 2 h_g h_xi.
Proof. split; [exact h_basis|]. repeat split. Qed.
Lemma h_u_shifted : u_shifted (h_ufock true) 0 3 2 (fun I p r => aget r0 h_gu [0; I; p; r]) h_xi.
Proof.
  split; [split; [exact h_basis|split; reflexivity]|]. split; [reflexivity|]. split; [reflexivity|]. split; [split; reflexivity|].
  exists h_gu. split; [reflexivity|]. right. split; [split; reflexivity|reflexivity].
Qed.
Lemma h_u_plain : u_plain (h_ufock false) 0 3.
Proof.
  split; [split; [exact h_basis|split; reflexivity]|]. split; [reflexivity|]. right. exists h_gu, 2, (fun I p r => aget r0 h_gu [0; I; p; r]).
  split; [reflexivity|]. right. split; [split; reflexivity|reflexivity].
Qed.

(** Two-electron integrals with the full symmetry: products of two symmetric matrices. *)
Definition h_eri : arr Qc_fld := tab [3; 3; 3; 3] (fun ix => rmul (aget r0 h_ao [nth 0 ix 0; nth 1 ix 0]) (aget r0 h_ao [nth 2 ix 0; nth 3 ix 0])).
Lemma h_eightfold : eightfold 3 h_eri.
Proof.
  assert (C : forallb (fun ix => match ix with [p; r; s; t] => let g := aget r0 h_eri in
     Qcanon.Qc_eq_bool (g [p; r; s; t]) (g [r; p; s; t]) && Qcanon.Qc_eq_bool (g [p; r; s; t]) (g [p; r; t; s]) && Qcanon.Qc_eq_bool (g [p; r; s; t]) (g [s; t; p; r]) | _ => true end)
     (all_idx [3; 3; 3; 3]) = true) by (vm_compute; reflexivity).
  intros p r s t Hp Hr Hs Ht. rewrite forallb_forall in C. specialize (C [p; r; s; t]).
  assert (I : In [p; r; s; t] (all_idx [3; 3; 3; 3])) by (apply ArrProofs.all_idx_in; apply CcRdm.inb4; exists p, r, s, t; tauto).
  specialize (C I). cbn beta iota zeta in C. rewrite !andb_true_iff in C. destruct C as [[C1 C2] C3].
  repeat split; apply Qcanon.Qc_eq_bool_correct; assumption.
Qed.
Lemma h_eris : plain_eris (@mkreris Qc_fld h_eri [h_space; h_space; h_space; h_space] [h_coeff; h_coeff; h_coeff; h_coeff]) [h_space; h_space; h_space; h_space] [h_coeff; h_coeff; h_coeff; h_coeff] 3.
Proof. split; [reflexivity|]. split; [reflexivity|]. split; [reflexivity|]. split; [repeat constructor; apply h_basis|]. split; reflexivity. Qed.

(** Spin orbitals: two atomic orbitals, four rows of coefficients. *)
Definition h_gspace := mkspace [true; true; false] [false; false; false] [false; false; false].
Definition h_gcoeff : arr Qc_fld := mkarr [6; 3] (qs [1; 0; 2; 0; 1; 1; 1; 0; 0; 0; 1; 0; 3; 0; 1; 0; 2; 1]%Z).
Definition h_geris : geris Qc_fld := @mkgeris Qc_fld h_eri 3 h_gspace h_gcoeff.
Lemma h_general : general_eris h_geris.
Proof. split; [split; [exact h_accepted|split; [unfold nmo; cbn; lia|split; reflexivity]]|split; reflexivity]. Qed.

(** Density fitting with one auxiliary function: the packed triangle of [h_ao]. *)
Definition h_cd : cderis Qc_fld :=
  @mkcderis Qc_fld (mkarr [1; 6] (qs [4; 1; 5; 2; 3; 6]%Z)) 3 [h_space; h_space; h_space; h_space] [h_coeff; h_coeff; h_coeff; h_coeff].
Lemma h_cd_plain : plain_cderis h_cd [h_space; h_space; h_space; h_space] [h_coeff; h_coeff; h_coeff; h_coeff] 1.
Proof. split; [reflexivity|]. split; [reflexivity|]. split; [reflexivity|]. split; [repeat constructor; apply h_basis|]. split; reflexivity. Qed.
Lemma h_fitted : fitted h_cd 1 h_eri.
Proof.
  split; [split; [reflexivity|reflexivity]|]. change (cd_nao h_cd) with 3.
  assert (C : forallb (fun ix => match ix with [p; r; s; t] => let g := aget r0 h_eri in
     let v := sum 1 (fun Q => rmul (aget r0 (cd_vec h_cd) [Q; p * (p + 1) / 2 + r]) (aget r0 (cd_vec h_cd) [Q; s * (s + 1) / 2 + t])) in
     negb ((r <=? p) && (t <=? s)) ||
     (Qcanon.Qc_eq_bool (g [p; r; s; t]) v && Qcanon.Qc_eq_bool (g [r; p; s; t]) v && Qcanon.Qc_eq_bool (g [p; r; t; s]) v && Qcanon.Qc_eq_bool (g [r; p; t; s]) v) | _ => true end)
     (all_idx [3; 3; 3; 3]) = true) by (vm_compute; reflexivity).
  intros p r s t Hp Hs. rewrite forallb_forall in C. specialize (C [p; r; s; t]).
  assert (I : In [p; r; s; t] (all_idx [3; 3; 3; 3])) by (apply ArrProofs.all_idx_in; apply CcRdm.inb4; exists p, r, s, t; repeat split; lia).
  specialize (C I). cbn beta iota zeta in C. rewrite (proj2 (Nat.leb_le r p)), (proj2 (Nat.leb_le t s)) in C by lia. cbn [andb negb orb] in C.
  rewrite !andb_true_iff in C. destruct C as [[[C1 C2] C3] C4].
  cbv zeta. repeat split; apply Qcanon.Qc_eq_bool_correct; assumption.
Qed.
