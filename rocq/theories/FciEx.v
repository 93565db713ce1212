(** Concrete cases for the conversion between amplitudes and CI vectors. *)
From Coq Require Import ZArith String.
From Verif Require Import Base ListAux Alg ArrModel ArrProofs PermModel PermSpec PermProps TensorModel TensorSpec SpaceModel SpaceSpec AnsatzModel VecModel VecSpec CcModel CcEx
  ExtModel FciModel FciSpec FciProofs.
Set Implicit Arguments.
Local Open Scope string_scope.
Local Open Scope list_scope.
Local Open Scope nat_scope.

(** A table of addresses: the orders one after the other, positive signs. *)
Definition nstr (norb nocc n : nat) : nat := ntril_ndim nocc n false * ntril_ndim (norb - nocc) n false.
Fixpoint offset (norb nocc n : nat) : nat := match n with 0 => 0 | S k => offset norb nocc k + nstr norb nocc k end.
Definition ex_tn (norb nocc n : nat) : list nat * list Z := (seq (offset norb nocc n) (nstr norb nocc n), repeat 1%Z (nstr norb nocc n)).
Lemma offset_mono norb nocc n m : n < m -> offset norb nocc n + nstr norb nocc n <= offset norb nocc m.
Proof. induction m as [|m IH]; intros H; [lia|]. cbn [offset]. destruct (Nat.eq_dec n m) as [->|N]; [lia|]. specialize (IH ltac:(lia)). lia. Qed.
Lemma ex_tn_ok : addresses_ok ex_tn.
Proof.
  intros norb nocc n Ho Hn. unfold ex_tn at 1. split; [|split; [|split; [|split; [|split]]]].
  - rewrite seq_length. unfold nstr. pose proof (C03_ntril_closed_form nocc n false) as C1. pose proof (C03_ntril_closed_form (norb - nocc) n false) as C2. cbn beta iota in C1, C2. rewrite <- C1, <- C2. ring.
  - rewrite repeat_length, seq_length. reflexivity.
  - apply seq_NoDup.
  - intros I. apply in_seq in I. destruct n as [|n]; [lia|]. pose proof (@offset_mono norb nocc 0 (S n) ltac:(lia)) as X. cbn [offset] in X. unfold nstr in X at 1. rewrite !ntril0 in X. cbn [offset] in I. lia.
  - intros s I. apply repeat_spec in I. left. exact I.
  - intros m x Hm N I J. unfold ex_tn in J. cbn [fst] in J. apply in_seq in I. apply in_seq in J.
    destruct (Nat.lt_ge_cases n m) as [L|L]; [pose proof (offset_mono norb nocc L)|pose proof (@offset_mono norb nocc m n ltac:(lia))]; lia.
Qed.

Definition all_active (occ : list bool) : space := mkspace occ (repeat false (length occ)) (repeat true (length occ)).
Definition fci_a := all_active [true; true; false; false].
Definition fci_b := all_active [true; false; false; false].
Definition fci_c := all_active [true; false].
Lemma fci_accepted : accepted fci_a /\ accepted fci_b /\ accepted fci_c.
Proof.
  split; [|split]; [exists [true; true; false; false], (repeat false 4), (repeat true 4)|exists [true; false; false; false], (repeat false 4), (repeat true 4)|exists [true; false], (repeat false 2), (repeat true 2)]; reflexivity.
Qed.

(** Coefficients which are zero except the given blocks. *)
Definition zero_block (sa sb : space) (n : nat) (comb : pystr) : arr Qc_fld :=
  match spin_shape sa sb (excitation_key n) comb with Ok s => zeros s | Err _ => zeros [] end.
Definition ex_camps (sa sb : space) (m : nat) : dict pystr (tval Qc_fld) :=
  map (fun n => (str "c" ++ dec n, VSpin (map (fun comb => (comb, zero_block sa sb n comb)) (generate_spin_combinations n false true)))) (seq 1 m).
Definition ex_amps (oa va ob vb : nat) : dict pystr (tval Qc_fld) := [(str "t1", VSpin [(str "aa", zeros [oa; va]); (str "bb", zeros [ob; vb])])].

(** Order 3 with two alpha and one beta electron in four orbitals: the block "abaaba" comes back with other extents. *)
Definition ex_conv (sa sb : space) (m : nat) (_ : dict pystr (tval Qc_fld)) : result (dict pystr (tval Qc_fld)) := Ok (ex_camps sa sb m).
Definition ex_ci := u_to_ci Qc_fld ex_tn (ex_conv fci_a fci_b 3) (fun _ => r1) (ex_amps 2 2 1 3) 3 false.
Definition probe (r : result (arr Qc_fld)) (f : arr Qc_fld -> result (dict pystr (tval Qc_fld))) n comb : option (list nat) :=
  match r with
  | Ok ci => match f ci with Ok out => option_map (@shp _) (coefficient out n comb) | Err _ => None end
  | Err _ => None
  end.
Definition ex_read (ci : arr Qc_fld) := u_coefficients Qc_fld ex_tn fci_a fci_b ci 3.
Lemma ex_shape_wrong : probe ex_ci ex_read 3 (str "abaaba") = Some [2; 2; 2; 3; 2; 3].
Proof. vm_compute. reflexivity. Qed.
Lemma ex_shape_right : option_map (@shp _) (coefficient (ex_camps fci_a fci_b 3) 3 (str "abaaba")) = Some [2; 1; 2; 2; 3; 2].
Proof. vm_compute. reflexivity. Qed.

Lemma dget_map_in {V} (f : pystr -> V) l k : In k l -> dget pystr_eq_dec k (map (fun c => (c, f c)) l) = Some (f k).
Proof.
  induction l as [|c l IH]; intros I; [destruct I|]. cbn [map dget]. destruct (pystr_eq_dec k c) as [->|N]; [reflexivity|]. destruct I as [->|I]; [congruence|]. apply IH, I.
Qed.
Lemma zero_sized (sa sb : space) n comb : (forall c, In c comb -> c = chr_of "a" \/ c = chr_of "b") -> spin_sized_by sa sb (excitation_key n) comb (shp (zero_block sa sb n comb)).
Proof.
  intros H. unfold zero_block.
  destruct (@VecThms.mapM_total _ _ (fun sk => bind (spin_space sa sb (fst sk)) (fun sp => sp_size sp (snd sk))) (combine comb (excitation_key n))) as (s & E).
  { intros [s k] I. cbn [fst snd]. assert (K : k = chr_of "O" \/ k = chr_of "V").
    { apply in_combine_r in I. unfold excitation_key in I. apply in_app_or in I. destruct I as [I|I]; apply repeat_spec in I; auto. }
    apply in_combine_l in I. destruct (H s I) as [->| ->], K as [->| ->]; eexists; reflexivity. }
  unfold spin_shape. rewrite E. cbn [zeros full shp]. apply VecThms.spin_shape_spec; [exact H|exact E].
Qed.
Lemma aget_zero (s idx : list nat) : aget r0 (@zeros Qc_fld s) idx = r0.
Proof. unfold aget, zeros, full. cbn [dat shp]. apply nth_repeat. Qed.
Lemma zero_block_zeros sa sb n comb : exists s, zero_block sa sb n comb = zeros s.
Proof. unfold zero_block. destruct (spin_shape _ _ _ _); eexists; reflexivity. Qed.
Lemma opp_zero : @ropp Qc_fld r0 = r0.
Proof. apply qeqb_eq. vm_compute. reflexivity. Qed.
Lemma ex_camps_ok sa sb m : m <= 4 -> coefficient_amplitudes sa sb m (ex_camps sa sb m).
Proof.
  intros Hm n comb H1 H2 I. exists (zero_block sa sb n comb).
  assert (E : coefficient (ex_camps sa sb m) n comb = Some (zero_block sa sb n comb)).
  { unfold coefficient, ex_camps.
    assert (G : dget pystr_eq_dec (str "c" ++ dec n) (map (fun n => (str "c" ++ dec n, VSpin (map (fun comb => (comb, zero_block sa sb n comb)) (generate_spin_combinations n false true)))) (seq 1 m))
      = Some (VSpin (map (fun comb => (comb, zero_block sa sb n comb)) (generate_spin_combinations n false true)))).
    { assert (X : (m = 1 \/ m = 2 \/ m = 3 \/ m = 4) /\ (n = 1 \/ n = 2 \/ n = 3 \/ n = 4)) by lia.
      destruct X as [[->|[->|[->| ->]]] [->|[->|[->| ->]]]]; first [lia|reflexivity]. }
    rewrite G. apply dget_map_in, I. }
  split; [exact E|]. destruct (proj1 (C04_spin_unique n) comb I) as (t & (L & T) & ->).
  split; [destruct (zero_block_zeros sa sb n (t ++ t)) as (s & ->); apply repeat_length|]. split; [apply zero_sized; intros c Hc; apply in_app_or in Hc; destruct Hc; apply T; assumption|].
  destruct (zero_block_zeros sa sb n (t ++ t)) as (s & ->). intros idx i j _ _ _ _ _ _. rewrite !aget_zero. symmetry. apply opp_zero.
Qed.
Lemma ex_singles : singles_sized fci_a fci_b (ex_amps 2 2 1 3).
Proof. eexists _, _, _. repeat (split; [reflexivity|]). reflexivity. Qed.
Lemma shape_differs (r : result (arr Qc_fld)) (f : arr Qc_fld -> result (dict pystr (tval Qc_fld))) (c : option (arr Qc_fld)) n comb s s' :
  probe r f n comb = Some s ->
  option_map (@shp _) c = Some s' -> s <> s' ->
  exists ci out, r = Ok ci /\ f ci = Ok out /\ coefficient out n comb <> c.
Proof.
  unfold probe. intros H1 H2 N. destruct r as [ci|]; [|discriminate]. exists ci. destruct (f ci) as [out|] eqn:E; [|discriminate]. exists out. split; [reflexivity|]. split; [first [exact E|reflexivity]|]. intros X. rewrite X in H1. congruence.
Qed.

(** A closed shell of one occupied and one virtual orbital with non-zero coefficients. *)
Definition ex2_camps : dict pystr (tval Qc_fld) :=
  [(str "c1", VSpin [(str "aa", mkarr [1; 1] (qs [5]%Z)); (str "bb", mkarr [1; 1] (qs [-2]%Z))]);
   (str "c2", VSpin [(str "aaaa", mkarr [1; 1; 1; 1] (qs [0]%Z)); (str "abab", mkarr [1; 1; 1; 1] (qs [3]%Z)); (str "bbbb", mkarr [1; 1; 1; 1] (qs [0]%Z))])].
Lemma ex2_ok : coefficient_amplitudes fci_c fci_c 2 ex2_camps.
Proof.
  intros n comb H1 H2 I. assert (X : n = 1 \/ n = 2) by lia. destruct X as [-> | ->]; vm_compute in I; repeat destruct I as [<-|I]; try destruct I; eexists; (split; [reflexivity|]); (split; [reflexivity|]);
    (split; [repeat constructor|]); intros idx i j Hi Li Lj N K S.
  all: cbn in Li, Lj; assert (Y : (i = 0 \/ i = 1 \/ i = 2 \/ i = 3) /\ (j = 0 \/ j = 1 \/ j = 2 \/ j = 3)) by lia;
    destruct Y as [[->|[->|[->| ->]]] [->|[->|[->| ->]]]]; try lia; try discriminate K; try discriminate S.
  all: repeat match goal with H : inb _ _ |- _ => inversion H; clear H; subst end; repeat match goal with H : Forall2 _ _ _ |- _ => inversion H; clear H; subst end;
    repeat match goal with H : _ < 1 |- _ => apply Nat.lt_1_r in H; subst end; apply qeqb_eq; vm_compute; reflexivity.
Qed.

Lemma ex_differs : exists ci out, ex_ci = Ok ci /\ ex_read ci = Ok out /\
  coefficient out 3 (str "abaaba") <> coefficient (ex_camps fci_a fci_b 3) 3 (str "abaaba").
Proof. exact (@shape_differs ex_ci ex_read (coefficient (ex_camps fci_a fci_b 3) 3 (str "abaaba")) 3 (str "abaaba") [2; 2; 2; 3; 2; 3] [2; 1; 2; 2; 3; 2] ex_shape_wrong ex_shape_right ltac:(discriminate)). Qed.
Definition ex3_ci : arr Qc_fld := mkarr [2; 2] (qs [2; 1; 3; 4]%Z).
Lemma ok_ex {A} (r : result A) : is_ok r = true -> exists x, r = Ok x.
Proof. destruct r; [eexists; reflexivity|discriminate]. Qed.
Lemma ex3_r : is_ok (r_coefficients Qc_fld ex_tn fci_c ex3_ci 4) = true.
Proof. vm_compute. reflexivity. Qed.
Lemma ex3_u : is_ok (u_coefficients Qc_fld ex_tn fci_c fci_c ex3_ci 4) = true.
Proof. vm_compute. reflexivity. Qed.
