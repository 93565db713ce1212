(** Proofs: the CI vector as a whole. *)
From Coq Require Import String ZArith Permutation Field.
From Verif Require Import Base ListAux Alg ArrModel ArrProofs PermModel PermSpec PermProps TensorModel TensorSpec KernelProofs DampProofs SpaceModel SpaceSpec SpaceThms AnsatzModel
  VecModel VecSpec VecThms CcModel CcThms CcInit EomDiag ExtModel ExtSpec ExtProofs FciModel FciSpec FciProofs.
Set Implicit Arguments.
Local Open Scope nat_scope.
Local Open Scope list_scope.

(** * Letters. *)
Definition letter_of (sk : nat * nat) : nat :=
  if fst sk =? chr_of "a" then (if snd sk =? chr_of "O" then chr_of "i" else chr_of "a") else (if snd sk =? chr_of "O" then chr_of "j" else chr_of "b").
Definition ab (c : nat) : Prop := c = chr_of "a" \/ c = chr_of "b".
Definition ov (c : nat) : Prop := c = chr_of "O" \/ c = chr_of "V".
Lemma combine_rep {A B} (l : list A) (c : B) : combine l (repeat c (length l)) = map (fun x => (x, c)) l.
Proof. induction l as [|x l IH]; [reflexivity|]. cbn. f_equal. exact IH. Qed.
Lemma combine_app2 {A B} (l1 l2 : list A) (m1 m2 : list B) : length l1 = length m1 -> combine (l1 ++ l2) (m1 ++ m2) = combine l1 m1 ++ combine l2 m2.
Proof. revert m1. induction l1 as [|x l1 IH]; intros [|y m1] L; try discriminate; [reflexivity|]. cbn. f_equal. apply IH. cbn in L. lia. Qed.
Lemma target_letters t : (forall c, In c t -> ab c) -> fci_target t = map letter_of (combine (t ++ t) (excitation_key (length t))).
Proof.
  intros H. unfold fci_target, excitation_key. rewrite combine_app2 by (rewrite repeat_length; reflexivity). rewrite !combine_rep, map_app, !map_map. f_equal.
  rewrite <- (map_id t) at 1. apply map_ext_in. intros c Hc. unfold letter_of. cbn [fst snd]. destruct (H c Hc) as [->| ->]; reflexivity.
Qed.
Lemma key_ov n c : In c (excitation_key n) -> ov c.
Proof. unfold excitation_key. rewrite in_app_iff. intros [H|H]; apply repeat_spec in H; subst; [left|right]; reflexivity. Qed.
Lemma letter_inj s k s' k' : ab s -> ab s' -> ov k -> ov k' -> letter_of (s, k) = letter_of (s', k') -> s = s' /\ k = k'.
Proof. intros [->| ->] [->| ->] [->| ->] [->| ->] E; first [split; reflexivity|discriminate]. Qed.
Definition sizes_of (sa sb : space) : nat -> nat := letter_size (naocc sa) (navir sa) (naocc sb) (navir sb).
Lemma size_letter sa sb s k : ab s -> ov k -> sp_size (if s =? chr_of "a" then sa else sb) k = Ok (sizes_of sa sb (letter_of (s, k))).
Proof. intros [->| ->] [->| ->]; reflexivity. Qed.
Lemma F2_map_eq {A B} (P : A -> B -> Prop) (g : A -> B) l l' : (forall x y, In x l -> P x y -> y = g x) -> Forall2 P l l' -> l' = map g l.
Proof. intros H F. induction F as [|x y l l' E F IH]; [reflexivity|]. cbn. f_equal; [apply H; [left; reflexivity|exact E]|apply IH; intros; apply H; [right; assumption|assumption]]. Qed.

Lemma block_shape sa sb t shp0 : (forall c, In c t -> ab c) -> spin_sized_by sa sb (excitation_key (length t)) (t ++ t) shp0 -> shp0 = map (sizes_of sa sb) (fci_target t).
Proof.
  intros H S. rewrite (target_letters _ H), map_map. revert S. apply F2_map_eq. intros [s k] y I E. cbn [fst snd] in E.
  rewrite size_letter in E; [apply ok_inj in E; congruence| |].
  - apply in_combine_l in I. apply in_app_or in I. destruct I; apply H; assumption.
  - apply in_combine_r in I. eapply key_ov, I.
Qed.
Lemma block_antisym (F : fld) t (x : arr F) : (forall c, In c t -> ab c) -> spin_antisymmetric (excitation_key (length t)) (t ++ t) x -> antisymmetric (fci_target t) x.
Proof.
  intros H A idx i j Hi Li Lj N E. assert (Lt : length (fci_target t) = length (excitation_key (length t))).
  { unfold fci_target, excitation_key. rewrite !app_length, map_length, !repeat_length. reflexivity. }
  assert (Lk : length (excitation_key (length t)) = length (t ++ t)) by (unfold excitation_key; rewrite !app_length, !repeat_length; reflexivity).
  assert (X : nth i (t ++ t) 0 = nth j (t ++ t) 0 /\ nth i (excitation_key (length t)) 0 = nth j (excitation_key (length t)) 0).
  { rewrite (target_letters _ H) in E. rewrite !(nth_map_lt _ _ 0 (0, 0)) in E by (rewrite combine_length; lia). rewrite !combine_nth in E by lia.
    apply letter_inj in E; [exact E| | | |]; try (eapply key_ov, nth_In; lia).
    all: assert (Y : forall q, q < length (t ++ t) -> ab (nth q (t ++ t) 0)) by (intros q Hq; pose proof (nth_In (t ++ t) 0 Hq) as I; apply in_app_or in I; destruct I; apply H; assumption).
    all: apply Y; lia. }
  destruct X as [X1 X2]. apply A; [exact Hi|lia|lia|exact N|exact X2|exact X1].
Qed.

(** * Shapes used when reading a CI vector. *)
Lemma shapes_small sa sb n comb : 1 <= n <= 2 -> In comb (generate_spin_combinations n false true) ->
  u_fci_shape sa sb (firstn n comb) = Ok (map (sizes_of sa sb) (fci_subscript (nalph (firstn n comb)) (nbeta (firstn n comb)))).
Proof.
  intros Hn. assert (E : n = 1 \/ n = 2) by lia. destruct E as [-> | ->]; intros I; vm_compute in I; repeat destruct I as [<-|I]; try destruct I; cbv -[naocc navir]; reflexivity.
Qed.
Lemma shapes_equal sa sb n comb : naocc sa = naocc sb -> navir sa = navir sb -> 1 <= n <= 4 -> In comb (generate_spin_combinations n false true) ->
  u_fci_shape sa sb (firstn n comb) = Ok (map (sizes_of sa sb) (fci_subscript (nalph (firstn n comb)) (nbeta (firstn n comb)))).
Proof.
  intros E1 E2 Hn. assert (E : n = 1 \/ n = 2 \/ n = 3 \/ n = 4) by lia.
  destruct E as [->|[->|[->| ->]]]; intros I; vm_compute in I; repeat destruct I as [<-|I]; try destruct I; cbv -[naocc navir]; rewrite ?E1, ?E2; reflexivity.
Qed.

(** * Addresses. *)
Section Sides.
  Variable tn : nat -> nat -> nat -> list nat * list Z.
  Hypothesis tn_ok : addresses_ok tn.
  Lemma side_ok norb nocc n : nocc <= norb -> let s := side tn norb nocc n in
    length (fst s) = ntril_ndim nocc n false * ntril_ndim (norb - nocc) n false /\ length (snd s) = ntril_ndim nocc n false * ntril_ndim (norb - nocc) n false /\
    units (snd s) /\ NoDup (fst s).
  Proof.
    intros H. destruct n as [|n]; cbn [side fst snd].
    - rewrite !ntril0. repeat split; [intros z [<-|[]]; left; reflexivity|constructor; [intros []|constructor]].
    - pose proof (tn_ok H (le_n_S _ _ (Nat.le_0_l n))) as X. destruct (tn norb nocc (S n)) as [A Sg]. cbn [fst snd]. destruct X as (X1 & X2 & X3 & _ & X5 & _).
      assert (L : length A = ntril_ndim nocc (S n) false * ntril_ndim (norb - nocc) (S n) false).
      { pose proof (C03_ntril_closed_form nocc (S n) false) as C1. pose proof (C03_ntril_closed_form (norb - nocc) (S n) false) as C2. cbn beta iota in C1, C2.
        rewrite <- C1, <- C2 in X1. pose proof (fact_neq_0 (S n)) as Nz. revert X1 Nz. generalize (fact (S n)), (ntril_ndim nocc (S n) false), (ntril_ndim (norb - nocc) (S n) false), (length A).
        intros f p q l X1 Nz. apply (Nat.mul_cancel_r _ _ (f * f)); [nia|]. rewrite X1. ring. }
      repeat split; [exact L|congruence|exact X5|exact X3].
  Qed.
  Lemma side_disjoint norb nocc n m x : nocc <= norb -> n <> m -> In x (fst (side tn norb nocc n)) -> In x (fst (side tn norb nocc m)) -> False.
  Proof.
    intros H N I J. destruct n as [|n], m as [|m]; [congruence| | |]; cbn [side] in I, J.
    - destruct I as [<-|[]]. pose proof (tn_ok H (le_n_S _ _ (Nat.le_0_l m))) as X. destruct (tn norb nocc (S m)) as [A Sg]. destruct X as (_ & _ & _ & X & _). exact (X J).
    - destruct J as [<-|[]]. pose proof (tn_ok H (le_n_S _ _ (Nat.le_0_l n))) as X. destruct (tn norb nocc (S n)) as [A Sg]. destruct X as (_ & _ & _ & X & _). exact (X I).
    - pose proof (tn_ok H (le_n_S _ _ (Nat.le_0_l n))) as X. destruct (tn norb nocc (S n)) as [A Sg] eqn:E. destruct X as (_ & _ & _ & _ & _ & X). cbn [fst] in I.
      apply (X (S m) x); [lia|lia|exact I|exact J].
  Qed.
End Sides.

(** * Writing several blocks. *)
Section Puts.
  Variable F : fld.
  Local Open Scope rng_scope.
  Definition block := (list (list nat) * arr F)%type.
  Definition apart (b b' : block) : Prop := forall js js', inb (shp (snd b)) js -> inb (shp (snd b')) js' -> placed (fst b) js <> placed (fst b') js'.
  Lemma puts (bs : list block) : forall s x, wf x -> shp x = s ->
    (forall b, In b bs -> wf (snd b) /\ shp (snd b) = map (@length nat) (fst b) /\ mesh_ok s (fst b)) -> ForallOrdPairs apart bs ->
    exists y, foldM (fun ci b => put_ix 0 ci (fst b) (snd b)) bs x = Ok y /\ wf y /\ shp y = s /\
      (forall b js, In b bs -> inb (shp (snd b)) js -> aget 0 y (placed (fst b) js) = aget 0 (snd b) js) /\
      (forall idx, inb s idx -> (forall b js, In b bs -> inb (shp (snd b)) js -> idx <> placed (fst b) js) -> aget 0 y idx = aget 0 x idx).
  Proof.
    induction bs as [|b bs IH]; intros s x W S H P; cbn [foldM].
    - exists x. split; [reflexivity|]. split; [exact W|]. split; [exact S|]. split; [intros b js []|reflexivity].
    - destruct (H b (or_introl eq_refl)) as (Wb & Sb & Mb). rewrite <- S in Mb. destruct (@put_ix_ok F x (snd b) (fst b) W Wb Mb Sb) as (x' & E & W' & S' & G1 & G2).
      rewrite E. cbn [bind]. inversion P as [|? ? P1 P2]; subst. destruct (IH (shp x) x') as (y & Ey & Wy & Sy & Y1 & Y2); [exact W'|exact S'|intros; apply H; right; assumption|exact P2|].
      exists y. split; [exact Ey|]. split; [exact Wy|]. split; [exact Sy|]. split.
      + intros b' js [<-|I] Hj; [|apply Y1; assumption]. destruct (G1 js Hj) as (Hi & <-). apply Y2; [rewrite <- S'; exact Hi|].
        intros b' js' I' Hj'. rewrite Forall_forall in P1. apply (P1 b' I'); assumption.
      + intros idx Hi Hn. rewrite Y2; [|exact Hi|intros b' js I Hj; apply Hn; [right; exact I|exact Hj]]. apply G2; [exact Hi|]. intros js Hj. apply Hn; [left; reflexivity|exact Hj].
  Qed.
End Puts.

(** * The whole vector. *)
Section Whole.
  Variable F : fld.
  Add Field FfieldFciW : (fth F).
  Local Open Scope rng_scope.
  Variable tn : nat -> nat -> nat -> list nat * list Z.
  Hypothesis tn_ok : addresses_ok tn.
  Hypothesis torsion : no_two_torsion F.
  Variables sa sb : space.
  Hypothesis Ha : accepted sa.
  Hypothesis Hb : accepted sb.
  Variable m : nat.
  Hypothesis Hm : (1 <= m <= 4)%nat.
  Variable camps : dict pystr (tval F).
  Hypothesis HC : coefficient_amplitudes sa sb m camps.

  Let oa := naocc sa. Let va := navir sa. Let ob := naocc sb. Let vb := navir sb.
  Definition spins_of (nc : nat * pystr) : pystr := firstn (fst nc) (snd nc).
  Definition side_a (nc : nat * pystr) := side tn (oa + va) oa (nalph (spins_of nc)).
  Definition side_b (nc : nat * pystr) := side tn (ob + vb) ob (nbeta (spins_of nc)).

  Lemma in_blocks n comb : In (n, comb) (blocks_of m) -> (1 <= n <= m)%nat /\ In comb (generate_spin_combinations n false true).
  Proof.
    unfold blocks_of. rewrite in_flat_map. intros (n' & I & J). apply in_seq in I. apply in_map_iff in J. destruct J as (c & E & J). injection E as <- <-. split; [lia|exact J].
  Qed.
  Lemma blocks_in n comb : (1 <= n <= m)%nat -> In comb (generate_spin_combinations n false true) -> In (n, comb) (blocks_of m).
  Proof. intros Hn I. unfold blocks_of. apply in_flat_map. exists n. split; [apply in_seq; lia|]. apply in_map_iff. exists comb. auto. Qed.
  Lemma comb_halves n comb : In comb (generate_spin_combinations n false true) -> let t := firstn n comb in comb = t ++ t /\ length t = n /\ forall c, In c t -> ab c.
  Proof.
    intros I. destruct (proj1 (C04_spin_unique n) comb I) as (t & (L & T) & ->). rewrite firstn_app, L, Nat.sub_diag, firstn_O, app_nil_r, firstn_all2 by lia.
    repeat split; [exact L|exact T].
  Qed.

  (** The block to be packed, and what it becomes. *)
  Lemma block_of n comb : In (n, comb) (blocks_of m) -> exists cn v, coefficient camps n comb = Some cn /\ wf cn /\ shp cn = map (sizes_of sa sb) (fci_target (firstn n comb)) /\
    antisymmetric (fci_target (firstn n comb)) cn /\
    pack_c F oa va ob vb (side_a (n, comb)) (side_b (n, comb)) (firstn n comb) cn = Ok v /\ wf v /\ shp v = map (@length nat) (mesh (side_a (n, comb)) (side_b (n, comb))).
  Proof.
    intros I. apply in_blocks in I. destruct I as (Hn & I). destruct (@HC n comb (proj1 Hn) (proj2 Hn) I) as (cn & E & W & S & A). destruct (@comb_halves _ _ I) as (Ec & Lt & T).
    exists cn. assert (S' : shp cn = map (sizes_of sa sb) (fci_target (firstn n comb))) by (apply (@block_shape _ _ _ _ T); rewrite Lt, <- Ec; exact S).
    assert (A' : antisymmetric (fci_target (firstn n comb)) cn) by (apply (@block_antisym _ _ _ T); rewrite Lt, <- Ec; exact A).
    destruct (@side_ok tn tn_ok (oa + va) oa (nalph (firstn n comb)) ltac:(lia)) as (X1 & X2 & X3 & _).
    destruct (@side_ok tn tn_ok (ob + vb) ob (nbeta (firstn n comb)) ltac:(lia)) as (Y1 & Y2 & Y3 & _).
    replace (oa + va - oa)%nat with va in X1, X2 by lia. replace (ob + vb - ob)%nat with vb in Y1, Y2 by lia.
    destruct (@pack_ok F oa va ob vb (side_a (n, comb)) (side_b (n, comb)) (firstn n comb) T (conj X1 (conj X2 X3)) (conj Y1 (conj Y2 Y3)) cn W S' A')
      as (r & t & c & v & _ & _ & _ & _ & _ & _ & _ & Ev & Sv & Wv & _).
    exists v. repeat (split; [assumption|]). rewrite Sv. unfold mesh. cbn [map]. unfold side_a, side_b, spins_of. cbn [fst snd]. congruence.
  Qed.

  Definition pair_of (nc : nat * pystr) : nat * nat := (nalph (spins_of nc), nbeta (spins_of nc)).
  Lemma pairs_distinct : NoDup (map pair_of (blocks_of m) ++ [(0, 0)%nat]).
  Proof.
    assert (E : (m = 1 \/ m = 2 \/ m = 3 \/ m = 4)%nat) by lia.
    destruct E as [->|[->|[->| ->]]]; vm_compute; repeat (constructor; [cbn [In]; intuition discriminate|]); constructor.
  Qed.
  Definition at_pair (p : nat * nat) : list (list nat) := mesh (side tn (oa + va) oa (fst p)) (side tn (ob + vb) ob (snd p)).
  Lemma apart_pairs p q (v w : arr F) : p <> q -> shp v = map (@length nat) (at_pair p) -> shp w = map (@length nat) (at_pair q) -> apart (at_pair p, v) (at_pair q, w).
  Proof.
    intros N Sv Sw js js' Hj Hj' E. cbn [fst snd] in *. rewrite Sv in Hj. rewrite Sw in Hj'. unfold at_pair, mesh in *. cbn [map] in Hj, Hj'.
    inversion Hj as [|x1 n1 js1 s1 L1 Hj1]; subst. inversion Hj1 as [|x2 n2 js2 s2 L2 Hj2]; subst. inversion Hj2; subst.
    inversion Hj' as [|y1 m1 ks1 r1 K1 Hk1]; subst. inversion Hk1 as [|y2 m2 ks2 r2 K2 Hk2]; subst. inversion Hk2; subst.
    rewrite !placed_cons in E. injection E as E1 E2. destruct p as [p1 p2], q as [q1 q2]. cbn [fst snd] in *.
    destruct (Nat.eq_dec p1 q1) as [<-|N1].
    - destruct (Nat.eq_dec p2 q2) as [<-|N2]; [congruence|].
      apply (@side_disjoint tn tn_ok (ob + vb) ob p2 q2 (nth x2 (fst (side tn (ob + vb) ob p2)) 0%nat)); [lia|exact N2|apply nth_In, L2|rewrite E2; apply nth_In, K2].
    - apply (@side_disjoint tn tn_ok (oa + va) oa p1 q1 (nth x1 (fst (side tn (oa + va) oa p1)) 0%nat)); [lia|exact N1|apply nth_In, L1|rewrite E1; apply nth_In, K1].
  Qed.
  Lemma apart_list (ps : list (nat * nat)) (bs : list (block F)) : NoDup ps -> Forall2 (fun p b => fst b = at_pair p /\ shp (snd b) = map (@length nat) (fst b)) ps bs -> ForallOrdPairs (@apart F) bs.
  Proof.
    intros ND H. induction H as [|p b ps bs [E1 E2] H IH]; [constructor|]. inversion ND as [|? ? N1 N2]; subst. constructor; [|apply IH, N2].
    apply Forall_forall. intros b' Hb'. destruct (@F2_in_r _ _ _ _ _ _ H Hb') as (q & Hq & E3 & E4). destruct b as [x v], b' as [x' v']. cbn [fst snd] in *. subst x x'.
    apply apart_pairs; [intros ->; contradiction|exact E2|exact E4].
  Qed.
  Lemma mesh_range_ok p R C : (forall x, In x (fst (side tn (oa + va) oa (fst p))) -> x < R)%nat -> (forall x, In x (fst (side tn (ob + vb) ob (snd p))) -> x < C)%nat -> mesh_ok [R; C] (at_pair p).
  Proof.
    intros H1 H2. destruct (@side_ok tn tn_ok (oa + va) oa (fst p) ltac:(lia)) as (_ & _ & _ & N1). destruct (@side_ok tn tn_ok (ob + vb) ob (snd p) ltac:(lia)) as (_ & _ & _ & N2).
    unfold at_pair, mesh. constructor; [split; [exact N1|apply Forall_forall; exact H1]|]. constructor; [split; [exact N2|apply Forall_forall; exact H2]|constructor].
  Qed.

  (** All blocks packed. *)
  Lemma packed_all : exists bs, mapM (pack_block F tn oa va ob vb camps) (blocks_of m) = Ok bs /\
    Forall2 (fun nc b => pack_block F tn oa va ob vb camps nc = Ok b /\ fst b = at_pair (pair_of nc) /\ wf (snd b) /\ shp (snd b) = map (@length nat) (fst b)) (blocks_of m) bs.
  Proof.
    assert (X : forall nc, In nc (blocks_of m) -> exists b, pack_block F tn oa va ob vb camps nc = Ok b /\ fst b = at_pair (pair_of nc) /\ wf (snd b) /\ shp (snd b) = map (@length nat) (fst b)).
    { intros [n comb] I. destruct (@block_of _ _ I) as (cn & v & E & W & S & A & Ev & Wv & Sv). exists (at_pair (pair_of (n, comb)), v). split; [|split; [reflexivity|split; [exact Wv|exact Sv]]].
      unfold pack_block. unfold coefficient in E. change (order_name n) with (str "c" ++ dec n)%list. unfold lookup.
      destruct (dget pystr_eq_dec (str "c" ++ dec n) camps) as [[x|d]|]; try discriminate. cbn [bind as_spin]. rewrite E. cbn [bind].
      change (side tn (oa + va) oa (nalph (firstn n comb))) with (side_a (n, comb)). change (side tn (ob + vb) ob (nbeta (firstn n comb))) with (side_b (n, comb)). rewrite Ev. reflexivity. }
    revert X. generalize (blocks_of m). induction l as [|nc l IH]; intros X; [exists []; split; [reflexivity|constructor]|].
    destruct (X nc (or_introl eq_refl)) as (b & E & G). destruct IH as (bs & E' & F2); [intros; apply X; right; assumption|].
    exists (b :: bs). cbn [mapM]. rewrite E. cbn [bind]. rewrite E'. split; [reflexivity|]. constructor; [split; assumption|exact F2].
  Qed.

  Definition ref_block : block F := ([[0]; [0]]%nat, mkarr [1; 1]%nat [1]).
  Lemma largest_row (bs : list (block F)) b p x : In b bs -> fst b = at_pair p -> In x (fst (side tn (oa + va) oa (fst p))) -> (x < largest F 0 bs + 1)%nat.
  Proof.
    intros Ib E Hx. unfold largest. rewrite Nat.add_1_r. apply le_n_S.
    assert (L := proj1 (list_max_le _ _) (le_n (list_max (flat_map (fun b => nth 0 (fst b) []) bs)))). rewrite Forall_forall in L. apply L.
    apply in_flat_map. exists b. split; [exact Ib|]. rewrite E. exact Hx.
  Qed.
  Lemma largest_col (bs : list (block F)) b p x : In b bs -> fst b = at_pair p -> In x (fst (side tn (ob + vb) ob (snd p))) -> (x < largest F 1 bs + 1)%nat.
  Proof.
    intros Ib E Hx. unfold largest. rewrite Nat.add_1_r. apply le_n_S.
    assert (L := proj1 (list_max_le _ _) (le_n (list_max (flat_map (fun b => nth 1 (fst b) []) bs)))). rewrite Forall_forall in L. apply L.
    apply in_flat_map. exists b. split; [exact Ib|]. rewrite E. exact Hx.
  Qed.

  Lemma built (bs : list (block F)) :
    Forall2 (fun nc b => pack_block F tn oa va ob vb camps nc = Ok b /\ fst b = at_pair (pair_of nc) /\ wf (snd b) /\ shp (snd b) = map (@length nat) (fst b)) (blocks_of m) bs ->
    exists ci0 ci, foldM (fun ci b => put_ix 0 ci (fst b) (snd b)) bs (@zeros F [largest F 0 bs + 1; largest F 1 bs + 1]%nat) = Ok ci0 /\
      put_ix 0 ci0 [[0]; [0]]%nat (mkarr [1; 1]%nat [1]) = Ok ci /\ wf ci /\ aget 0 ci [0; 0]%nat = 1 /\
      (forall b, In b bs -> mesh_ok (shp ci) (fst b) /\ forall js, inb (shp (snd b)) js -> aget 0 ci (placed (fst b) js) = aget 0 (snd b) js).
  Proof.
    intros H. set (s := [largest F 0 bs + 1; largest F 1 bs + 1]%nat).
    assert (HB : forall b, In b bs -> exists nc, fst b = at_pair (pair_of nc) /\ wf (snd b) /\ shp (snd b) = map (@length nat) (fst b)).
    { intros b Ib. destruct (@F2_in_r _ _ _ _ _ _ H Ib) as (nc & _ & _ & E & W & S). exists nc. auto. }
    assert (HM : forall b, In b bs -> mesh_ok s (fst b)).
    { intros b Ib. destruct (HB b Ib) as (nc & E & _). rewrite E. apply mesh_range_ok; intros x Hx; [eapply largest_row|eapply largest_col]; eassumption. }
    destruct (@puts F (bs ++ [ref_block]) s (@zeros F s)) as (ci & E & W & S & G & _).
    - unfold wf, zeros, full. cbn [dat shp]. apply repeat_length.
    - reflexivity.
    - intros b Ib. apply in_app_or in Ib. destruct Ib as [Ib|[<-|[]]].
      + destruct (HB b Ib) as (nc & _ & Wb & Sb). auto.
      + cbn [ref_block fst snd]. split; [reflexivity|]. split; [reflexivity|]. unfold s. repeat constructor; try (intros []); lia.
    - apply apart_list with (ps := map pair_of (blocks_of m) ++ [(0, 0)%nat]); [apply pairs_distinct|]. apply Forall2_app.
      + clear - H. induction H as [|nc b l bs (_ & E & _ & S) H IH]; cbn [map]; constructor; [split; assumption|exact IH].
      + constructor; [|constructor]. split; reflexivity.
    - rewrite foldM_app in E. apply bind_ok in E. destruct E as (ci0 & E0 & E). cbn [foldM] in E. apply bind_ok in E. destruct E as (ci' & E1 & E). cbn [ref_block fst snd] in E1.
      apply ok_inj in E. subst ci'.
      exists ci0, ci. split; [exact E0|]. split; [exact E1|]. split; [exact W|]. split.
      + apply (G ref_block [0; 0]%nat); [apply in_or_app; right; left; reflexivity|repeat constructor].
      + intros b Ib. rewrite S. split; [apply HM, Ib|]. intros js Hj. apply G; [apply in_or_app; left; exact Ib|exact Hj].
  Qed.

  Hypothesis shapes : forall n comb, (1 <= n <= m)%nat -> In comb (generate_spin_combinations n false true) ->
    u_fci_shape sa sb (firstn n comb) = Ok (map (sizes_of sa sb) (fci_subscript (nalph (firstn n comb)) (nbeta (firstn n comb)))).

  Lemma read_back bs ci k : k <> 0 ->
    Forall2 (fun nc b => pack_block F tn oa va ob vb camps nc = Ok b /\ fst b = at_pair (pair_of nc) /\ wf (snd b) /\ shp (snd b) = map (@length nat) (fst b)) (blocks_of m) bs ->
    wf ci -> aget 0 ci [0; 0]%nat = fdiv 1 k ->
    (forall b, In b bs -> mesh_ok (shp ci) (fst b) /\ forall js, inb (shp (snd b)) js -> aget 0 ci (placed (fst b) js) = fdiv (aget 0 (snd b) js) k) ->
    exists out, u_coefficients F tn sa sb ci m = Ok out /\ forall n comb, (1 <= n <= m)%nat -> In comb (generate_spin_combinations n false true) -> coefficient out n comb = coefficient camps n comb.
  Proof.
    intros Hk HB W H00 HR.
    assert (X : forall n comb, (1 <= n <= m)%nat -> In comb (generate_spin_combinations n false true) -> exists cn, coefficient camps n comb = Some cn /\ u_get_c F tn sa sb ci (firstn n comb) = Ok cn).
    { intros n comb Hn I. pose proof (@blocks_in _ _ Hn I) as Ib. destruct (@block_of _ _ Ib) as (cn & v & E & Wc & S & A & Ev & Wv & Sv). exists cn. split; [exact E|].
      destruct (@comb_halves _ _ I) as (_ & _ & T).
      assert (Hbk : In (at_pair (pair_of (n, comb)), v) bs).
      { destruct (@F2_in_l _ _ _ _ _ _ HB Ib) as (b & Jb & Eb & E1 & _ & _). unfold pack_block in Eb. unfold coefficient in E. change (order_name n) with (str "c" ++ dec n)%list in Eb. unfold lookup in Eb.
        destruct (dget pystr_eq_dec (str "c" ++ dec n) camps) as [[x|d]|]; try discriminate. cbn [bind as_spin] in Eb. rewrite E in Eb. cbn [bind] in Eb.
        change (side tn (oa + va) oa (nalph (firstn n comb))) with (side_a (n, comb)) in Eb. change (side tn (ob + vb) ob (nbeta (firstn n comb))) with (side_b (n, comb)) in Eb.
        rewrite Ev in Eb. cbn [bind] in Eb. apply ok_inj in Eb. rewrite <- Eb in Jb. exact Jb. }
      destruct (HR _ Hbk) as (M & G). cbn [fst snd] in M, G.
      unfold u_get_c. rewrite (@shapes _ _ Hn I).
      destruct (@partition_counts _ Ha) as (_ & _ & _ & Na & _). destruct (@partition_counts _ Hb) as (_ & _ & _ & Nb & _). rewrite Na, Nb.
      destruct (@side_ok tn tn_ok (oa + va) oa (nalph (firstn n comb)) ltac:(lia)) as (X1 & X2 & X3 & _).
      destruct (@side_ok tn tn_ok (ob + vb) ob (nbeta (firstn n comb)) ltac:(lia)) as (Y1 & Y2 & Y3 & _).
      replace (oa + va - oa)%nat with va in X1, X2 by lia. replace (ob + vb - ob)%nat with vb in Y1, Y2 by lia.
      apply (@get_ok F oa va ob vb (side_a (n, comb)) (side_b (n, comb)) (firstn n comb) T (conj X1 (conj X2 X3)) (conj Y1 (conj Y2 Y3)) torsion cn v ci k Hk Wc S A Ev W M H00).
      intros js Hj. apply G. rewrite Sv. unfold mesh. cbn [map]. unfold side_a, side_b, spins_of. cbn [fst snd]. rewrite X1, Y1. exact Hj. }
    assert (O : forall n, (1 <= n <= m)%nat -> exists d, u_order F tn sa sb ci n = Ok (VSpin d) /\ forall comb, In comb (generate_spin_combinations n false true) -> dget pystr_eq_dec comb d = coefficient camps n comb).
    { intros n Hn. unfold u_order.
      destruct (@fold_dset (arr F) (fun comb => u_get_c F tn sa sb ci (firstn n comb)) (generate_spin_combinations n false true) []) as (d & E & G).
      { intros comb I. destruct (X n comb Hn I) as (cn & _ & Ec). exists cn. exact Ec. }
      exists d. split; [exact (f_equal (fun r => bind r (fun d => Ok (VSpin d))) E)|]. intros comb I. destruct (X n comb Hn I) as (cn & Ec & Eg). rewrite Ec. apply G; assumption. }
    assert (ND : NoDup (map order_name (seq 1 m))).
    { assert (E : (m = 1 \/ m = 2 \/ m = 3 \/ m = 4)%nat) by lia. destruct E as [->|[->|[->| ->]]]; vm_compute; repeat (constructor; [cbn [In]; intuition discriminate|]); constructor. }
    destruct (@set_all_ok F nat order_name (u_order F tn sa sb ci) (seq 1 m) [] ND) as (out & E & _ & _ & _ & G).
    { intros n I. apply in_seq in I. destruct (O n ltac:(lia)) as (d & E & _). eexists; exact E. }
    { constructor. }
    exists out. split.
    - unfold u_coefficients. replace (4 <? m)%nat with false by (symmetry; apply Nat.ltb_ge; lia). replace (m =? 0)%nat with false by (symmetry; apply Nat.eqb_neq; lia). exact E.
    - intros n comb Hn I. destruct (O n Hn) as (d & Ed & Gd). unfold coefficient at 1. change (str "c" ++ dec n)%list with (order_name n). rewrite (G n (VSpin d)); [apply Gd, I|apply in_seq; lia|exact Ed].
  Qed.

  Variable conv : dict pystr (tval F) -> result (dict pystr (tval F)).
  Variable norm : arr F -> F.
  Variable amps : dict pystr (tval F).
  Hypothesis singles : singles_sized sa sb amps.
  Hypothesis converts : conv amps = Ok camps.
  Lemma roundtrip (normalise : bool) : (normalise = true -> forall x, aget 0 x [0; 0]%nat = 1 -> norm x <> 0) ->
    exists ci, u_to_ci F tn conv norm amps m normalise = Ok ci /\
    (normalise = false -> aget 0 ci [0; 0]%nat = 1) /\
    exists out, u_coefficients F tn sa sb ci m = Ok out /\ forall n comb, (1 <= n <= m)%nat -> In comb (generate_spin_combinations n false true) -> coefficient out n comb = coefficient camps n comb.
  Proof.
    intros HN. destruct packed_all as (bs & Ebs & HB). destruct (@built _ HB) as (ci0 & ci & E0 & E1 & W & H00 & HR).
    destruct singles as (d & xa & xb & D1 & D2 & D3 & D4 & D5).
    assert (NE : bs <> []).
    { intros ->. apply Forall2_len in HB. revert HB. assert (E : (m = 1 \/ m = 2 \/ m = 3 \/ m = 4)%nat) by lia. destruct E as [->|[->|[->| ->]]]; discriminate. }
    exists (if normalise then map_arr (fun z => fdiv z (norm ci)) ci else ci). split; [|split].
    - unfold u_to_ci. replace (4 <? m)%nat with false by (symmetry; apply Nat.ltb_ge; lia). unfold t1_shape, lookup. rewrite D1. cbn [bind as_spin]. rewrite D2, D4. cbn [bind]. rewrite D3, D5. cbn [bind fst snd].
      rewrite converts. cbn [bind]. fold oa va ob vb. rewrite Ebs. cbn [bind]. destruct bs as [|b bs]; [congruence|]. rewrite E0. cbn [bind]. rewrite E1. reflexivity.
    - intros ->. exact H00.
    - destruct normalise.
      + specialize (HN eq_refl ci H00). assert (f0 : fdiv 0 (norm ci) = 0) by (field; exact HN).
        apply (@read_back bs (map_arr (fun z => fdiv z (norm ci)) ci) (norm ci) HN HB).
        * unfold wf, map_arr. cbn [dat shp]. rewrite map_length. exact W.
        * rewrite (@aget_map F (fun z => fdiv z (norm ci)) f0), H00. reflexivity.
        * intros b Ib. destruct (HR b Ib) as (M & G). split; [exact M|]. intros js Hj. rewrite (@aget_map F (fun z => fdiv z (norm ci)) f0). f_equal. apply G, Hj.
      + apply (@read_back bs ci 1 (F_1_neq_0 (fth F)) HB W); [rewrite H00; field; exact (F_1_neq_0 (fth F))|].
        intros b Ib. destruct (HR b Ib) as (M & G). split; [exact M|]. intros js Hj. rewrite (G js Hj). field. exact (F_1_neq_0 (fth F)).
  Qed.
End Whole.
