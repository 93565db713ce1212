(** Lemmas about the starting lambdas. *)
From Coq Require Import String Permutation.
From Verif Require GroupProofs SpinProofs.
From Verif Require Import Base ListAux Alg ArrModel ArrProofs PermModel TensorModel TensorSpec EinsumModel SpaceModel AnsatzModel AnsatzSpec AnsatzProofs AnsatzRanks DampProofs VecModel VecSpec VecThms
  CcModel CcSpec CcProofs CcThms CcUThms CcRdm CcShift CcInit.
Set Implicit Arguments.
Local Open Scope string_scope.
Local Open Scope list_scope.
Local Open Scope nat_scope.

Lemma lam_ranks a rspin ts : fermionic_cluster_ranks a rspin Wt = Ok ts -> fermionic_cluster_ranks a rspin Wl = Ok (map lam ts).
Proof.
  unfold fermionic_cluster_ranks.
  destruct (fermion a) as [|c f]; [intros H; injection H as <-; reflexivity|].
  destruct (strip_parens (c :: f)) as [op0|]; [|discriminate]. cbn [bind].
  change (operator_of Wl (c :: f) op0) with (operator_of Wt (c :: f) op0). set (op := operator_of Wt (c :: f) op0).
  rewrite notations_lam, pick_map. destruct (has_dup (pick_ranks (notations rspin Wt) op)) eqn:E; [discriminate|].
  intros H; apply Ok_inj in H; subst.
  assert (Tl : forall e, In e (pick_ranks (notations rspin Wt) op) -> In e (fermion_table rspin Wt)).
  { intros e He. apply pick_in in He as (k & es & H1 & H2). eapply table_in; eassumption. }
  assert (E' : has_dup (map lam (pick_ranks (notations rspin Wt) op)) = false).
  { apply has_dup_spec. apply has_dup_spec in E. apply NoDup_map_inj; [exact E|]. intros x y Hx Hy. apply (@lam_inj rspin); auto. }
  rewrite E'. rewrite sort_map by (intros [[? ?] ?]; reflexivity). reflexivity.
Qed.
Lemma lam_name rspin e : In e (fermion_table rspin Wt) -> replace_chr (chr_of "t") (str "l") (fst (fst e)) = fst (fst (lam e)).
Proof.
  intros H. assert (A : forallb (fun e : entry => streqb (replace_chr (chr_of "t") (str "l") (fst (fst e))) (fst (fst (lam e)))) (fermion_table rspin Wt) = true) by (destruct rspin; vm_compute; reflexivity).
  rewrite forallb_forall in A. specialize (A _ H). unfold streqb in A. destruct (pystr_eq_dec _ _) in A; [assumption|discriminate].
Qed.
Lemma boson_lam a ts : bosonic_cluster_ranks a Wt = Ok ts -> bosonic_cluster_ranks a Wl = Ok (map (fun e : entry => (str "l" ++ fst (fst e), snd (fst e), snd e)) ts).
Proof.
  intros H. destruct (@boson_lambda a ts Wl ltac:(discriminate) H) as (ls & E & F2). rewrite E. f_equal. clear - F2. induction F2 as [|t l ts ls (H1 & H2 & H3) F2 IH]; [reflexivity|].
  cbn [map]. rewrite IH, <- H1, <- H2, <- H3. destruct l as [[? ?] ?]. reflexivity.
Qed.
Definition clam (e : pystr * pystr * nat * nat) : pystr * pystr * nat * nat :=
  let '(name, key, nf, nb) := e in (str "l" ++ name, firstn nb key ++ skipn (nb + nf) key ++ slice nb (nb + nf) key, nf, nb).

(** Exchanging two blocks of axes. *)
Section Swap.
  Variable F : fld.
  Local Open Scope rng_scope.
  Definition swapped (m n : nat) : list nat := seq 0 m ++ seq (m + n) n ++ seq m n.
  Lemma swapped_perm m n k : k = (m + n + n)%nat -> Permutation (seq 0 k) (swapped m n).
  Proof.
    intros ->. unfold swapped. rewrite !seq_app. cbn [Nat.add]. rewrite <- app_assoc. apply Permutation_app_head, Permutation_app_comm.
  Qed.
  Lemma gather_seg {A} (d : A) l1 l2 l3 : map (fun k => nth k (l1 ++ l2 ++ l3) d) (seq (length l1) (length l2)) = l2.
  Proof.
    replace (seq (length l1) (length l2)) with (map (fun k => (length l1 + k)%nat) (seq 0 (length l2))).
    - rewrite map_map. rewrite <- (map_nth_seq d l2) at 2. apply map_ext_in. intros k Hk. apply in_seq in Hk. rewrite app_nth2 by lia. replace (length l1 + k - length l1)%nat with k by lia. apply app_nth1. lia.
    - rewrite GroupProofs.seq_shift_add, Nat.add_0_r. reflexivity.
  Qed.
  Lemma gather_swapped {A} (d : A) l1 l2 l3 : length l2 = length l3 -> map (fun k => nth k (l1 ++ l2 ++ l3) d) (swapped (length l1) (length l2)) = l1 ++ l3 ++ l2.
  Proof.
    intros H. unfold swapped. rewrite !map_app. f_equal; [|f_equal].
    - rewrite <- (gather_seg d [] l1 (l2 ++ l3)) at 2. reflexivity.
    - pose proof (gather_seg d (l1 ++ l2) l3 []) as E. rewrite app_nil_r, <- app_assoc, app_length, <- H in E. exact E.
    - apply gather_seg.
  Qed.
  Lemma swap_ok (x : arr F) s1 s2 s3 : length s2 = length s3 -> shp x = s1 ++ s2 ++ s3 ->
    exists y, transpose 0 x (swapped (length s1) (length s2)) = Ok y /\ wf y /\ shp y = s1 ++ s3 ++ s2 /\
      forall i1 i2 i3, length i1 = length s1 -> length i2 = length s2 -> inb (s1 ++ s2 ++ s3) (i1 ++ i2 ++ i3) -> aget 0 y (i1 ++ i3 ++ i2) = aget 0 x (i1 ++ i2 ++ i3).
  Proof.
    intros HL Sx. assert (LX : length (shp x) = (length s1 + length s2 + length s2)%nat) by (rewrite Sx, !app_length; lia).
    destruct (@transpose_get F x (swapped (length s1) (length s2)) (@swapped_perm _ _ _ LX)) as (y & Ey & Wy & Sy & Gy).
    exists y. split; [exact Ey|]. split; [exact Wy|]. rewrite Sx, gather_swapped in Sy by exact HL. split; [exact Sy|].
    intros i1 i2 i3 L1 L2 Hi. pose proof (inb_length Hi) as LI. rewrite !app_length in LI.
    assert (L3 : length i2 = length i3) by lia.
    assert (U : unperm (swapped (length s1) (length s2)) (i1 ++ i3 ++ i2) = i1 ++ i2 ++ i3).
    { rewrite <- (gather_swapped 0%nat i1 i2 i3 L3), L1, L2. apply unperm_gather.
      - apply swapped_perm. unfold swapped. rewrite !app_length, !seq_length. lia.
      - unfold swapped. rewrite !app_length, !seq_length. lia. }
    rewrite Gy; [rewrite U; reflexivity|]. rewrite Sy. apply inb_iff in Hi. destruct Hi as [HL' Hi]. apply inb_iff. split; [rewrite !app_length; lia|].
    intros k Hk. rewrite !app_length in Hk.
    destruct (Nat.lt_ge_cases k (length s1)) as [K1|K1].
    { specialize (Hi k). rewrite !app_nth1 in Hi by (rewrite ?app_length; lia). rewrite !app_nth1 by (rewrite ?app_length; lia). apply Hi. rewrite !app_length. lia. }
    destruct (Nat.lt_ge_cases k (length s1 + length s3)) as [K2|K2].
    - specialize (Hi (k + length s2)%nat). rewrite !app_length in Hi. specialize (Hi ltac:(lia)).
      rewrite (app_nth2 i1), (app_nth2 i2) in Hi by lia. rewrite (app_nth2 s1), (app_nth2 s2) in Hi by lia.
      rewrite (app_nth2 i1), (app_nth1 i3) by lia. rewrite (app_nth2 s1), (app_nth1 s3) by lia.
      replace (k + length s2 - length i1 - length i2)%nat with (k - length i1)%nat in Hi by lia. replace (k + length s2 - length s1 - length s2)%nat with (k - length s1)%nat in Hi by lia. exact Hi.
    - specialize (Hi (k - length s3)%nat). rewrite !app_length in Hi. specialize (Hi ltac:(lia)).
      rewrite (app_nth2 i1), (app_nth1 i2) in Hi by lia. rewrite (app_nth2 s1), (app_nth1 s2) in Hi by lia.
      rewrite (app_nth2 i1), (app_nth2 i3) by lia. rewrite (app_nth2 s1), (app_nth2 s3) by lia.
      replace (k - length s3 - length i1)%nat with (k - length i1 - length i3)%nat in Hi by lia. replace (k - length s3 - length s1)%nat with (k - length s1 - length s3)%nat in Hi by lia. exact Hi.
  Qed.
End Swap.
Lemma bra_ket_swapped n : bra_ket n = swapped 0 n.
Proof. reflexivity. Qed.
Lemma coupled_swapped nb : seq 0 nb ++ [nb + 1; nb] = swapped nb 1.
Proof. reflexivity. Qed.

Section Ranks.
  Variables (a : ansatz) (rspin : bool) (fs bs : list entry) (cs : list (pystr * pystr * nat * nat)).
  Hypothesis Hf : frank a <= 1.
  Hypothesis HD : distinct_names a rspin Wt.
  Hypothesis Ef : fermionic_cluster_ranks a rspin Wt = Ok fs.
  Hypothesis Eb : bosonic_cluster_ranks a Wt = Ok bs.
  Hypothesis Ec : coupling_cluster_ranks a Wt = Ok cs.
  Hypothesis H3 : forall name key n, In (name, key, n) fs -> n <= 3.

  Definition lfs : list entry := map (fun e : entry => (lambda_name (fst (fst e)), skipn (snd e) (snd (fst e)) ++ firstn (snd e) (snd (fst e)), snd e)) fs.
  Definition lbs : list entry := map (fun e : entry => (str "l" ++ fst (fst e), snd (fst e), snd e)) bs.
  Definition lcs : list (pystr * pystr * nat * nat) := map (fun e : pystr * pystr * nat * nat => (str "l" ++ fst (fst (fst e)), repeat (chr_of "b") (snd e) ++ str "vo", snd (fst e), snd e)) cs.
  Lemma f_facts name key n : In (name, key, n) fs -> (exists o v, length o = n /\ length v = n /\ key = o ++ v) /\ replace_chr (chr_of "t") (str "l") name = lambda_name name /\
    lam (name, key, n) = (lambda_name name, skipn n key ++ firstn n key, n) /\ 1 <= n /\ exists sfx, name = chr_of "t" :: sfx.
  Proof.
    intros H. destruct (@fermionic_entries _ _ _ _ Ef) as (_ & _ & F2). pose proof (F2 _ H) as EO.
    destruct (@entry_len Wt _ (or_introl eq_refl) EO) as [L1 L2]. cbn [fst snd] in L1, L2. split; [|split; [|split; [|split; [exact L2|]]]].
    - exists (firstn n key), (skipn n key). rewrite firstn_length, skipn_length, firstn_skipn. split; [lia|]. split; [lia|reflexivity].
    - destruct (@ferm_inv _ _ _ _ Ef) as (_ & _ & T). exact (@lam_name rspin (name, key, n) (T _ H)).
    - unfold lam, lambda_name. pose proof (@H3 _ _ _ H) as N. rewrite (proj2 (Nat.ltb_lt n 4)) by lia. rewrite L1. replace (2 * n / 2) with n by (symmetry; rewrite Nat.mul_comm; apply Nat.div_mul; lia). reflexivity.
    - destruct EO as (_ & (sfx & -> & _) & _). exists (dec n ++ sfx). reflexivity.
  Qed.
  Lemma lfs_ok : fermionic_cluster_ranks a rspin Wl = Ok lfs.
  Proof. rewrite (@lam_ranks _ _ _ Ef). f_equal. apply map_ext_in. intros [[name key] n] H. apply (@f_facts _ _ _ H). Qed.
  Lemma lbs_ok : bosonic_cluster_ranks a Wl = Ok lbs.
  Proof. exact (@boson_lam _ _ Eb). Qed.
  Lemma c_facts name key nf nb : In (name, key, nf, nb) cs -> nf = 1 /\ key = repeat (chr_of "b") nb ++ str "ov".
  Proof.
    intros Hin. destruct (@coupling_skip _ _ _ _ _ _ _ (or_introl eq_refl) Ec Hin) as (_ & _ & K2). assert (nf = 1) by lia. subst nf. split; [reflexivity|].
    clear - Ec Hin. rewrite (@coupling_eq a Wt (or_introl eq_refl)) in Ec. apply Ok_inj in Ec. rewrite <- Ec in Hin. apply in_map_iff in Hin. destruct Hin as ([i j] & E & _).
    unfold couple in E. cbn [fst snd] in E. apply pair_equal_spec in E. destruct E as [E <-]. apply pair_equal_spec in E. destruct E as [E ->]. apply pair_equal_spec in E. destruct E as [_ <-]. reflexivity.
  Qed.
  Lemma lcs_ok : coupling_cluster_ranks a Wl = Ok lcs.
  Proof.
    rewrite (@coupling_eq a Wl (or_intror eq_refl)). f_equal. unfold lcs. pose proof c_facts as CF. clear - Ec CF. rewrite (@coupling_eq a Wt (or_introl eq_refl)) in Ec. apply Ok_inj in Ec. subst cs. rewrite map_map. apply map_ext_in. intros [i j] H.
    cbn [fst snd]. destruct (CF (csymbol Wt ++ dec i ++ dec j) (couple Wt i j) i j) as [-> _]; [apply in_map_iff; exists (i, j); split; [reflexivity|exact H]|]. reflexivity.
  Qed.
  Lemma l_distinct : NoDup (all_names lfs lbs lcs).
  Proof.
    apply (@names_nodup a rspin Wl lfs lbs lcs (or_intror eq_refl)); [|exact lfs_ok|exact lbs_ok|exact lcs_ok].
    destruct HD as [D1 D2]. split.
    - intros fs' E. rewrite lfs_ok in E. apply Ok_inj in E. subst fs'. unfold lfs. rewrite map_map. cbn [fst].
      specialize (D1 _ Ef). rewrite <- (map_map (fun e : entry => fst (fst e)) lambda_name). apply NoDup_map_inj; [exact D1|].
      intros x y Hx Hy E. apply in_map_iff in Hx, Hy. destruct Hx as ([[nx kx] rx] & <- & Hx). destruct Hy as ([[ny ky] ry] & <- & Hy). cbn [fst] in *.
      destruct (@f_facts _ _ _ Hx) as (_ & _ & _ & _ & sx & ->). destruct (@f_facts _ _ _ Hy) as (_ & _ & _ & _ & sy & ->). unfold lambda_name in E. cbn [tl] in E. apply app_inv_head in E. congruence.
    - intros cs' E. rewrite lcs_ok in E. apply Ok_inj in E. subst cs'. unfold lcs. rewrite map_map. cbn [fst].
      specialize (D2 _ Ec). rewrite <- (map_map (fun e : pystr * pystr * nat * nat => fst (fst (fst e))) (fun x => str "l" ++ x)). apply NoDup_map_inj; [exact D2|].
      intros x y _ _ E. apply app_inv_head in E. exact E.
  Qed.
  (** The three parts of the list of new names. *)
  Lemma l_names : NoDup (map (fun e : entry => replace_chr (chr_of "t") (str "l") (fname e)) fs) /\ NoDup (map (fun e : entry => str "l" ++ fname e) bs) /\ NoDup (map (fun e => str "l" ++ cname e) cs) /\
    (forall nm, In nm (map (fun e : entry => replace_chr (chr_of "t") (str "l") (fname e)) fs) -> ~ In nm (map (fun e : entry => str "l" ++ fname e) bs) /\ ~ In nm (map (fun e => str "l" ++ cname e) cs)) /\
    (forall nm, In nm (map (fun e : entry => str "l" ++ fname e) bs) -> ~ In nm (map (fun e => str "l" ++ cname e) cs)).
  Proof.
    pose proof l_distinct as ND. unfold all_names in ND. apply NoDup_app_inv in ND. destruct ND as (N1 & N23 & N4). apply NoDup_app_inv in N23. destruct N23 as (N2 & N3 & N5).
    assert (E1 : map (fun e : entry => fst (fst e)) lfs = map (fun e : entry => replace_chr (chr_of "t") (str "l") (fname e)) fs).
    { unfold lfs. rewrite map_map. apply map_ext_in. intros [[name key] n] H. cbn [fst snd fname]. symmetry. apply (@f_facts _ _ _ H). }
    assert (E2 : map (fun e : entry => fst (fst e)) lbs = map (fun e : entry => str "l" ++ fname e) bs) by (unfold lbs; rewrite map_map; reflexivity).
    assert (E3 : map (fun e : pystr * pystr * nat * nat => fst (fst (fst e))) lcs = map (fun e => str "l" ++ cname e) cs) by (unfold lcs; rewrite map_map; reflexivity).
    split; [rewrite <- E1; exact N1|]. split; [rewrite <- E2; exact N2|]. split; [rewrite <- E3; exact N3|]. split; [|intros nm H X; rewrite <- E2 in H; rewrite <- E3 in X; exact (N5 nm H X)].
    intros nm H. rewrite <- E1 in H. split; intros X; [rewrite <- E2 in X|rewrite <- E3 in X]; apply (N4 nm H), in_or_app; [left|right]; exact X.
  Qed.
End Ranks.

Section Lam.
  Variable F : fld.
  Local Open Scope rng_scope.
  Local Open Scope py_scope.
  Variables (a : ansatz) (rspin : bool) (fs bs : list entry) (cs : list (pystr * pystr * nat * nat)).
  Variables (sz : nat -> nat) (t : dict pystr (tval F)).
  Hypothesis Hf : (frank a <= 1)%nat.
  Hypothesis HD : distinct_names a rspin Wt.
  Hypothesis Ef : fermionic_cluster_ranks a rspin Wt = Ok fs.
  Hypothesis Eb : bosonic_cluster_ranks a Wt = Ok bs.
  Hypothesis Ec : coupling_cluster_ranks a Wt = Ok cs.
  Hypothesis H3 : forall name key n, In (name, key, n) fs -> (n <= 3)%nat.
  Hypothesis HT : holds_blocks [] (map fst fs ++ map fst bs ++ map (fun e : pystr * pystr * nat * nat => fst (fst e)) cs) sz t.
  Lemma held name key : In (name, key) (map fst fs ++ map fst bs ++ map (fun e : pystr * pystr * nat * nat => fst (fst e)) cs) ->
    exists x, lookup name t = Ok (VArr x) /\ dget pystr_eq_dec name t = Some (VArr x) /\ wf x /\ shp x = map sz key.
  Proof. intros H. destruct HT as (_ & _ & B). destruct (B _ _ H) as (x & Ex & Wx & Sx). rewrite app_nil_r in Ex. exists x. unfold lookup. rewrite Ex. tauto. Qed.
  Lemma inf name key n : In (name, key, n) fs -> In (name, key) (map fst fs ++ map fst bs ++ map (fun e : pystr * pystr * nat * nat => fst (fst e)) cs).
  Proof. intros H. apply in_or_app. left. apply in_map_iff. exists (name, key, n). tauto. Qed.
  Lemma inb' name key n : In (name, key, n) bs -> In (name, key) (map fst fs ++ map fst bs ++ map (fun e : pystr * pystr * nat * nat => fst (fst e)) cs).
  Proof. intros H. apply in_or_app. right. apply in_or_app. left. apply in_map_iff. exists (name, key, n). tauto. Qed.
  Lemma inc name key nf nb : In (name, key, nf, nb) cs -> In (name, key) (map fst fs ++ map fst bs ++ map (fun e : pystr * pystr * nat * nat => fst (fst e)) cs).
  Proof. intros H. apply in_or_app. right. apply in_or_app. right. apply in_map_iff. exists (name, key, nf, nb). tauto. Qed.

  Lemma init_lams_ok : exists out ls, rg_init_lams a rspin t = Ok out /\ clusters a rspin Wl ls /\ holds_blocks [] ls sz out /\ transposed_amplitudes fs bs cs sz t out.
  Proof.
    destruct (@l_names a rspin fs bs cs Hf HD Ef Eb Ec H3) as (N1 & N2 & N3 & N4 & N5).
    unfold rg_init_lams. rewrite Ef. cbn [bind].
    match goal with |- context [set_all ?nf ?vf fs []] => set (n1 := nf) in *; set (v1 := vf) end.
    assert (V1 : forall name key n, In (name, key, n) fs -> exists x y, dget pystr_eq_dec name t = Some (VArr x) /\ v1 (name, key, n) = Ok (VArr y) /\ wf y /\ shp y = map sz (skipn n key ++ firstn n key) /\
      forall os vs, inb (map sz key) (os ++ vs) -> length os = n -> aget 0 y (vs ++ os) = aget 0 x (os ++ vs)).
    { intros name key n H. destruct (@f_facts _ _ _ Hf Ef H3 _ _ _ H) as ((o & v & Lo & Lv & Ek) & _). destruct (@held _ _ (inf _ _ _ H)) as (x & Lx & Dx & Wx & Sx).
      destruct (@swap_ok F x [] (map sz o) (map sz v)) as (y & Ey & Wy & Sy & Gy); [rewrite !map_length; congruence|rewrite Sx, Ek, map_app; reflexivity|].
      exists x, y. split; [exact Dx|]. rewrite map_length, Lo in Ey. split; [|split; [exact Wy|split]].
      - unfold v1, arr_of. cbn [fname fst snd]. rewrite Lx. cbn [bind as_arr]. rewrite bra_ket_swapped. cbn [length] in Ey. rewrite Ey. reflexivity.
      - rewrite Sy, Ek. cbn [app]. rewrite <- Lo. rewrite skipn_app, firstn_app, Nat.sub_diag, skipn_all, firstn_all. cbn [skipn firstn app]. rewrite app_nil_r, map_app. reflexivity.
      - intros os vs Hi L. apply (Gy [] os vs); [reflexivity|rewrite map_length; congruence|]. rewrite Ek, map_app in Hi. exact Hi. }
    destruct (@set_all_ok F entry n1 v1 fs [] N1) as (d1 & E1 & D1 & K1 & O1 & G1).
    { intros [[name key] n] H. destruct (V1 _ _ _ H) as (x & y & _ & Ey & _). exists (VArr y). exact Ey. }
    { constructor. }
    rewrite E1. cbn [bind]. rewrite Eb. cbn [bind].
    match goal with |- context [set_all ?nf ?vf bs d1] => set (n2 := nf) in *; set (v2 := vf) end.
    assert (V2 : forall name key n, In (name, key, n) bs -> exists x, dget pystr_eq_dec name t = Some (VArr x) /\ v2 (name, key, n) = Ok (VArr x) /\ wf x /\ shp x = map sz key).
    { intros name key n H. destruct (@held _ _ (inb' _ _ _ H)) as (x & Lx & Dx & Wx & Sx). exists x. split; [exact Dx|]. split; [exact Lx|]. tauto. }
    destruct (@set_all_ok F entry n2 v2 bs d1 N2) as (d2 & E2 & D2 & K2 & O2 & G2).
    { intros [[name key] n] H. destruct (V2 _ _ _ H) as (x & _ & Ex & _). exists (VArr x). exact Ex. }
    { exact D1. }
    rewrite E2. cbn [bind]. rewrite Ec. cbn [bind].
    match goal with |- context [set_all ?nf ?vf cs d2] => set (n3 := nf) in *; set (v3 := vf) end.
    assert (V3 : forall name key nf nb, In (name, key, nf, nb) cs -> exists x y, dget pystr_eq_dec name t = Some (VArr x) /\ v3 (name, key, nf, nb) = Ok (VArr y) /\ wf y /\ shp y = map sz (repeat (chr_of "b") nb ++ str "vo") /\
      forall ms i c, inb (map sz key) (ms ++ [i; c]) -> aget 0 y (ms ++ [c; i]) = aget 0 x (ms ++ [i; c])).
    { intros name key nf nb H. destruct (@c_facts a cs Hf Ec _ _ _ _ H) as [-> Ek]. destruct (@held _ _ (inc _ _ _ _ H)) as (x & Lx & Dx & Wx & Sx).
      destruct (@swap_ok F x (map sz (repeat (chr_of "b") nb)) [sz (chr_of "o")] [sz (chr_of "v")]) as (y & Ey & Wy & Sy & Gy); [reflexivity|rewrite Sx, Ek, map_app; reflexivity|].
      exists x, y. split; [exact Dx|]. rewrite map_length, repeat_length in Ey. split; [|split; [exact Wy|split]].
      - unfold v3, arr_of. cbn [Nat.eqb negb]. rewrite Lx. cbn [bind as_arr]. rewrite coupled_swapped. cbn [length] in Ey. rewrite Ey. reflexivity.
      - rewrite Sy, map_app. reflexivity.
      - intros ms i c' Hi. rewrite Ek, map_app in Hi. apply (Gy ms [i] [c']); [|reflexivity|exact Hi].
        apply inb_length in Hi. rewrite !app_length, !map_length in Hi. rewrite map_length. cbn [length] in Hi. change (length (str "ov")) with 2%nat in Hi. lia. }
    destruct (@set_all_ok F _ n3 v3 cs d2 N3) as (out & E3 & D3 & K3 & O3 & G3).
    { intros [[[name key] nf] nb] H. destruct (V3 _ _ _ _ H) as (x & y & _ & Ey & _). exists (VArr y). exact Ey. }
    { exact D2. }
    exists out, (map fst (lfs fs) ++ map fst (lbs bs) ++ map (fun e : pystr * pystr * nat * nat => fst (fst e)) (lcs cs)). split; [exact E3|].
    split; [exists (lfs fs), (lbs bs), (lcs cs); split; [apply lfs_ok; assumption|split; [apply lbs_ok; assumption|split; [apply lcs_ok; assumption|reflexivity]]]|].
    assert (FF : forall name key n, In (name, key, n) fs -> exists x y, dget pystr_eq_dec name t = Some (VArr x) /\ dget pystr_eq_dec (lambda_name name) out = Some (VArr y) /\ wf y /\ shp y = map sz (skipn n key ++ firstn n key) /\
      forall os vs, inb (map sz key) (os ++ vs) -> length os = n -> aget 0 y (vs ++ os) = aget 0 x (os ++ vs)).
    { intros name key n H. destruct (V1 _ _ _ H) as (x & y & Dx & Ey & Wy & Sy & Gy). exists x, y. split; [exact Dx|]. split; [|tauto].
      assert (EN : n1 (name, key, n) = lambda_name name) by (destruct (@f_facts _ _ _ Hf Ef H3 _ _ _ H) as (_ & EN & _); exact EN).
      assert (HN : In (lambda_name name) (map n1 fs)) by (rewrite <- EN; apply in_map, H). destruct (N4 _ HN) as [M1 M2].
      rewrite O3 by exact M2. rewrite O2 by exact M1. rewrite <- EN. apply (G1 _ _ H Ey). }
    assert (FB : forall name key n, In (name, key, n) bs -> exists x, dget pystr_eq_dec name t = Some (VArr x) /\ dget pystr_eq_dec (str "l" ++ name) out = Some (VArr x) /\ wf x /\ shp x = map sz key).
    { intros name key n H. destruct (V2 _ _ _ H) as (x & Dx & Ex & Wx & Sx). exists x. split; [exact Dx|]. split; [|tauto].
      assert (HN : In (str "l" ++ name) (map n2 bs)) by (apply in_map_iff; exists (name, key, n); split; [reflexivity|exact H]).
      rewrite O3 by (exact (N5 _ HN)). exact (G2 _ _ H Ex). }
    assert (FC : forall name key nf nb, In (name, key, nf, nb) cs -> exists x y, dget pystr_eq_dec name t = Some (VArr x) /\ dget pystr_eq_dec (str "l" ++ name) out = Some (VArr y) /\ wf y /\ shp y = map sz (repeat (chr_of "b") nb ++ str "vo") /\
      forall ms i c, inb (map sz key) (ms ++ [i; c]) -> aget 0 y (ms ++ [c; i]) = aget 0 x (ms ++ [i; c])).
    { intros name key nf nb H. destruct (V3 _ _ _ _ H) as (x & y & Dx & Ey & R). exists x, y. split; [exact Dx|]. split; [exact (G3 _ _ H Ey)|exact R]. }
    split; [split; [exact D3|split]|split; [|split]].
    - intros nm H. apply K3 in H. destruct H as [H|H]; [apply K2 in H; destruct H as [H|H]; [apply K1 in H; destruct H as [H|H]; [exfalso; apply H; reflexivity|]|]|]; apply in_map_iff in H.
      + destruct H as ([[name key] n] & <- & H). exists (lambda_name name), (skipn n key ++ firstn n key). rewrite app_nil_r. split; [|destruct (@f_facts _ _ _ Hf Ef H3 _ _ _ H) as (_ & EN & _); exact EN].
        apply in_or_app. left. unfold lfs. rewrite map_map. apply in_map_iff. exists (name, key, n). split; [reflexivity|exact H].
      + destruct H as ([[name key] n] & <- & H). exists (str "l" ++ name), key. rewrite app_nil_r. split; [|reflexivity].
        apply in_or_app. right. apply in_or_app. left. unfold lbs. rewrite map_map. apply in_map_iff. exists (name, key, n). split; [reflexivity|exact H].
      + destruct H as ([[[name key] nf] nb] & <- & H). exists (str "l" ++ name), (repeat (chr_of "b") nb ++ str "vo"). rewrite app_nil_r. split; [|reflexivity].
        apply in_or_app. right. apply in_or_app. right. unfold lcs. rewrite map_map. apply in_map_iff. exists (name, key, nf, nb). split; [reflexivity|exact H].
    - intros name key H. rewrite app_nil_r. apply in_app_or in H. destruct H as [H|H]; [|apply in_app_or in H; destruct H as [H|H]]; unfold lfs, lbs, lcs in H; rewrite map_map in H; apply in_map_iff in H.
      + destruct H as ([[nm k] n] & E & H). cbn [fst snd] in E. apply pair_equal_spec in E. destruct E as [<- <-]. destruct (FF _ _ _ H) as (x & y & _ & Dy & Wy & Sy & _). exists y. tauto.
      + destruct H as ([[nm k] n] & E & H). cbn [fst snd] in E. apply pair_equal_spec in E. destruct E as [<- <-]. destruct (FB _ _ _ H) as (x & _ & Dx & Wx & Sx). exists x. tauto.
      + destruct H as ([[[nm k] nf] nb] & E & H). cbn [fst snd] in E. apply pair_equal_spec in E. destruct E as [<- <-]. destruct (FC _ _ _ _ H) as (x & y & _ & Dy & Wy & Sy & _). exists y. tauto.
    - intros name key n os vs H Hi L. destruct (FF _ _ _ H) as (x & y & Dx & Dy & _ & _ & Gy). unfold block_at. rewrite Dx, Dy. apply Gy; assumption.
    - intros name key n idx H Hi. destruct (FB _ _ _ H) as (x & Dx & Dy & _). unfold block_at. rewrite Dx, Dy. reflexivity.
    - intros name key nf nb ms i c H Hi. destruct (FC _ _ _ _ H) as (x & y & Dx & Dy & _ & _ & Gy). unfold block_at. rewrite Dx, Dy. apply Gy, Hi.
  Qed.
End Lam.

Section ULam.
  Variable F : fld.
  Local Open Scope rng_scope.
  Local Open Scope py_scope.
  Lemma transpose_spins_ok axes e : NoDup (map fst e) -> (forall s x, dget pystr_eq_dec s e = Some x -> exists y, transpose (0 : F) x axes = Ok y) ->
    exists e', transpose_spins axes (VSpin e) = Ok (VSpin e') /\ forall s x y, dget pystr_eq_dec s e = Some x -> transpose (0 : F) x axes = Ok y -> dget pystr_eq_dec s e' = Some y.
  Proof.
    intros ND H. unfold transpose_spins. cbn [as_spin bind].
    assert (X : exists e', mapM (fun kx : pystr * arr F => y <- transpose 0 (snd kx) axes ;; Ok (fst kx, y)) e = Ok e' /\ forall s x y, dget pystr_eq_dec s e = Some x -> transpose (0 : F) x axes = Ok y -> dget pystr_eq_dec s e' = Some y).
    { induction e as [|[k x] e IH]; [exists []; split; [reflexivity|intros ? ? ? E; discriminate E]|]. cbn [map fst] in ND. inversion ND as [|? ? N1 N2]; subst.
      destruct IH as (e' & Ee & G); [exact N2| |].
      { intros s x0 E. apply (H s x0). cbn [dget]. destruct (pystr_eq_dec s k) as [->|]; [|exact E]. exfalso. apply N1. apply dget_key with (d := e). unfold pystr in *. rewrite E. discriminate. }
      destruct (H k x) as (y & Ey); [cbn [dget]; destruct (pystr_eq_dec k k); congruence|].
      exists ((k, y) :: e'). cbn [mapM fst snd]. rewrite Ey. cbn [bind]. rewrite Ee. split; [reflexivity|]. intros s x0 y0. cbn [dget]. destruct (pystr_eq_dec s k) as [->|]; [congruence|apply G]. }
    destruct X as (e' & -> & G). exists e'. split; [reflexivity|exact G].
  Qed.
  Lemma combine_app2 {A B} (a b : list A) (x y : list B) : length a = length x -> combine (a ++ b) (x ++ y) = combine a x ++ combine b y.
  Proof. revert x. induction a as [|h a IH]; intros [|h' x] L; try discriminate; [reflexivity|]. cbn. rewrite IH by (cbn in L; lia). reflexivity. Qed.

  Variables (a : ansatz) (fs bs : list entry) (cs : list (pystr * pystr * nat * nat)).
  Variables (sz : nat -> nat -> nat) (t : dict pystr (tval F)).
  Let l := fermionic_blocks fs ++ bosonic_blocks bs ++ coupling_blocks cs.
  Hypothesis Hf : (frank a <= 1)%nat.
  Hypothesis HD : distinct_names a false Wt.
  Hypothesis Ef : fermionic_cluster_ranks a false Wt = Ok fs.
  Hypothesis Eb : bosonic_cluster_ranks a Wt = Ok bs.
  Hypothesis Ec : coupling_cluster_ranks a Wt = Ok cs.
  Hypothesis H3 : forall name key n, In (name, key, n) fs -> (n <= 3)%nat.
  Hypothesis HT : u_holds [] l sz t.
  Hypothesis HO : u_only l t.
  Lemma uf name key n comb : In (name, key, n) fs -> In comb (generate_spin_combinations n false true) -> In (name, key, Some comb, comb) l.
  Proof. intros H Hc. apply in_or_app. left. apply in_flat_map. exists (name, key, n). split; [exact H|]. apply in_map_iff. exists comb. tauto. Qed.
  Lemma ub name key n : In (name, key, n) bs -> In (name, key, None, repeat (chr_of "_") n) l.
  Proof. intros H. apply in_or_app. right. apply in_or_app. left. apply in_map_iff. exists (name, key, n). split; [reflexivity|exact H]. Qed.
  Lemma uc name key nf nb comb : In (name, key, nf, nb) cs -> In comb [str "aa"; str "bb"] -> In (name, key, Some comb, repeat (chr_of "_") nb ++ comb) l.
  Proof. intros H Hc. apply in_or_app. right. apply in_or_app. right. apply in_flat_map. exists (name, key, nf, nb). split; [exact H|]. apply in_map_iff. exists comb. split; [reflexivity|exact Hc]. Qed.
  (** Which blocks carry a given name. *)
  Lemma names_t : NoDup (all_names fs bs cs).
  Proof. exact (@names_nodup _ _ _ _ _ _ (or_introl eq_refl) HD Ef Eb Ec). Qed.
  Lemma block_inv name key stored spins : In (name, key, stored, spins) l ->
    (exists n comb, In (name, key, n) fs /\ In comb (generate_spin_combinations n false true) /\ stored = Some comb /\ spins = comb) \/
    (exists n, In (name, key, n) bs /\ stored = None /\ spins = repeat (chr_of "_") n) \/
    (exists nf nb comb, In (name, key, nf, nb) cs /\ In comb [str "aa"; str "bb"] /\ stored = Some comb /\ spins = repeat (chr_of "_") nb ++ comb).
  Proof.
    intros H. apply in_app_or in H. destruct H as [H|H]; [|apply in_app_or in H; destruct H as [H|H]].
    - apply in_flat_map in H. destruct H as ([[nm k] n] & Hin & H). apply in_map_iff in H. destruct H as (comb & E & Hc). cbn [fst snd] in E, Hc.
      apply pair_equal_spec in E. destruct E as [E <-]. apply pair_equal_spec in E. destruct E as [E <-]. apply pair_equal_spec in E. destruct E as [<- <-]. left. exists n, comb. tauto.
    - apply in_map_iff in H. destruct H as ([[nm k] n] & E & Hin). cbn [fst snd] in E.
      apply pair_equal_spec in E. destruct E as [E <-]. apply pair_equal_spec in E. destruct E as [E <-]. apply pair_equal_spec in E. destruct E as [<- <-]. right. left. exists n. tauto.
    - apply in_flat_map in H. destruct H as ([[[nm k] nf] nb] & Hin & H). apply in_map_iff in H. destruct H as (comb & E & Hc). cbn [fst snd] in E, Hc.
      apply pair_equal_spec in E. destruct E as [E <-]. apply pair_equal_spec in E. destruct E as [E <-]. apply pair_equal_spec in E. destruct E as [<- <-]. right. right. exists nf, nb, comb. tauto.
  Qed.
  Lemma nodup_unique {A B} (f : A -> B) (xs : list A) x y : NoDup (map f xs) -> In x xs -> In y xs -> f x = f y -> x = y.
  Proof.
    induction xs as [|z xs IH]; cbn [map]; intros ND Hx Hy E; [destruct Hx|]. inversion ND as [|? ? N1 N2]; subst. destruct Hx as [->|Hx], Hy as [->|Hy]; [reflexivity| | |apply IH; assumption]; exfalso; apply N1; [rewrite E|rewrite <- E]; apply in_map; assumption.
  Qed.
  (** The spin arrays of a fermionic amplitude are exactly its blocks. *)
  Lemma spin_held name : (exists key stored spins, In (name, key, Some stored, spins) l) -> exists e, lookup name t = Ok (VSpin e) /\ dget pystr_eq_dec name t = Some (VSpin e) /\ NoDup (map fst e) /\
    (forall s x, dget pystr_eq_dec s e = Some x -> exists key spins, In (name, key, Some s, spins) l) /\
    (forall s key spins, In (name, key, Some s, spins) l -> exists x, dget pystr_eq_dec s e = Some x /\ shp x = spin_shape_of sz key spins).
  Proof.
    intros (key & stored & spins & H). destruct HT as (_ & _ & B). destruct (B _ _ _ _ H) as (x & Ex & _). rewrite app_nil_r in Ex. unfold block_of in Ex. destruct (dget pystr_eq_dec name t) as [[?|e]|] eqn:E; try discriminate.
    exists e. unfold lookup. rewrite E. split; [reflexivity|]. split; [reflexivity|]. destruct (HO _ E) as [ND KE]. split; [exact ND|]. split.
    - intros s y Ey. apply KE. apply dget_key with (d := e). rewrite Ey. discriminate.
    - intros s key' spins' H'. destruct (B _ _ _ _ H') as (y & Ey & _ & Sy). rewrite app_nil_r in Ey. unfold block_of in Ey. rewrite E in Ey. exists y. tauto.
  Qed.
  Lemma comb_halves n comb : In comb (generate_spin_combinations n false true) -> exists h, length h = n /\ comb = h ++ h.
  Proof. intros H. destruct (SpinProofs.unique_counts n) as [U _]. destruct (U comb H) as (h & [L _] & ->). exists h. tauto. Qed.
  Lemma swap_spin o v h : length o = length h -> length v = length h -> spin_shape_of sz (o ++ v) (h ++ h) = spin_shape_of sz o h ++ spin_shape_of sz v h /\ spin_shape_of sz (v ++ o) (h ++ h) = spin_shape_of sz v h ++ spin_shape_of sz o h.
  Proof. intros H1 H2. unfold spin_shape_of. rewrite !combine_app2 by assumption. rewrite !map_app. tauto. Qed.

  Lemma u_init_lams_ok : exists out lfs lbs lcs, u_init_lams a t = Ok out /\
    fermionic_cluster_ranks a false Wl = Ok lfs /\ bosonic_cluster_ranks a Wl = Ok lbs /\ coupling_cluster_ranks a Wl = Ok lcs /\
    u_holds [] (fermionic_blocks lfs ++ bosonic_blocks lbs ++ coupling_blocks lcs) sz out /\ u_transposed_amplitudes fs bs cs sz t out.
  Proof.
    destruct (@l_names a false fs bs cs Hf HD Ef Eb Ec H3) as (N1 & N2 & N3 & N4 & N5). pose proof names_t as NT. unfold all_names in NT. apply NoDup_app_inv in NT. destruct NT as (T1 & T23 & T4). apply NoDup_app_inv in T23. destruct T23 as (T2 & T3 & T5).
    unfold u_init_lams. rewrite Ef. cbn [bind].
    match goal with |- context [set_all ?nf ?vf fs []] => set (n1 := nf) in *; set (v1 := vf) end.
    assert (V1 : forall name key n, In (name, key, n) fs -> exists e e', dget pystr_eq_dec name t = Some (VSpin e) /\ v1 (name, key, n) = Ok (VSpin e') /\
      forall comb, In comb (generate_spin_combinations n false true) -> exists x y, dget pystr_eq_dec comb e = Some x /\ dget pystr_eq_dec comb e' = Some y /\ wf y /\ shp y = spin_shape_of sz (skipn n key ++ firstn n key) comb /\
        forall os vs, inb (spin_shape_of sz key comb) (os ++ vs) -> length os = n -> aget 0 y (vs ++ os) = aget 0 x (os ++ vs)).
    { intros name key n H. destruct (@f_facts _ _ _ Hf Ef H3 _ _ _ H) as ((o & v & Lo & Lv & Ek) & _).
      assert (HX : exists key stored spins, In (name, key, Some stored, spins) l).
      { destruct (spins_nodup n) as [_ NE]. destruct (generate_spin_combinations n false true) as [|c0 r] eqn:EC; [congruence|]. exists key, c0, c0. apply (@uf _ _ n); [exact H|]. rewrite EC. left. reflexivity. }
      destruct (@spin_held _ HX) as (e & Le & De & Ne & Ke & Be).
      assert (SW : forall comb x, In comb (generate_spin_combinations n false true) -> dget pystr_eq_dec comb e = Some x -> exists y, transpose 0 x (bra_ket n) = Ok y /\ wf y /\ shp y = spin_shape_of sz (skipn n key ++ firstn n key) comb /\
        forall os vs, inb (spin_shape_of sz key comb) (os ++ vs) -> length os = n -> aget 0 y (vs ++ os) = aget 0 x (os ++ vs)).
      { intros comb x Hc Dx. destruct (Be _ _ _ (@uf _ _ _ _ H Hc)) as (x' & Dx' & Sx). rewrite Dx in Dx'. injection Dx' as <-. destruct (@comb_halves _ _ Hc) as (h & Lh & ->). destruct (@swap_spin o v h ltac:(congruence) ltac:(congruence)) as [S1 S2].
        assert (LS : length (spin_shape_of sz o h) = n) by (unfold spin_shape_of; rewrite map_length, combine_length; lia). assert (LS' : length (spin_shape_of sz v h) = n) by (unfold spin_shape_of; rewrite map_length, combine_length; lia).
        destruct (@swap_ok F x [] (spin_shape_of sz o h) (spin_shape_of sz v h)) as (y & Ey & Wy & Sy & Gy); [congruence|rewrite Sx, Ek, S1; reflexivity|].
        exists y. rewrite LS in Ey. split; [exact Ey|]. split; [exact Wy|]. split.
        - rewrite Ek, <- Lo. rewrite skipn_app, firstn_app, Nat.sub_diag, skipn_all, firstn_all. cbn [skipn firstn app]. rewrite app_nil_r, S2. exact Sy.
        - intros os vs Hi L. apply (Gy [] os vs); [reflexivity|congruence|]. rewrite Ek, S1 in Hi. exact Hi. }
      assert (IC : forall s x, dget pystr_eq_dec s e = Some x -> In s (generate_spin_combinations n false true)).
      { intros s x Ds. destruct (Ke _ _ Ds) as (key' & spins & HB). apply block_inv in HB. destruct HB as [(n' & comb & HF & Hc & E & _)|[(n' & _ & E & _)|(nf & nb & comb & HC & _ & _)]].
        - injection E as <-. assert (X : (name, key', n') = (name, key, n)) by (apply (@nodup_unique entry pystr (fun e => fst (fst e)) fs); [exact T1|exact HF|exact H|reflexivity]). congruence.
        - discriminate.
        - exfalso. apply (T4 name); [apply in_map_iff; exists (name, key, n); split; [reflexivity|exact H]|apply in_or_app; right; apply in_map_iff; exists (name, key', nf, nb); split; [reflexivity|exact HC]]. }
      destruct (@transpose_spins_ok (bra_ket n) e Ne) as (e' & Ee & Ge).
      { intros s x Ds. destruct (SW s x (IC _ _ Ds) Ds) as (y & Ey & _). exists y. exact Ey. }
      exists e, e'. split; [exact De|]. split; [unfold v1; cbn [fname fst snd]; rewrite Le; exact Ee|].
      intros comb Hc. destruct (Be _ _ _ (@uf _ _ _ _ H Hc)) as (x & Dx & _). destruct (SW _ _ Hc Dx) as (y & Ey & R). exists x, y. split; [exact Dx|]. split; [exact (Ge _ _ _ Dx Ey)|exact R]. }
    destruct (@set_all_ok F entry n1 v1 fs [] N1) as (d1 & E1 & D1 & K1 & O1 & G1).
    { intros [[name key] n] H. destruct (V1 _ _ _ H) as (e & e' & _ & Ey & _). exists (VSpin e'). exact Ey. }
    { constructor. }
    rewrite E1. cbn [bind]. rewrite Eb. cbn [bind].
    match goal with |- context [set_all ?nf ?vf bs d1] => set (n2 := nf) in *; set (v2 := vf) end.
    assert (V2 : forall name key n, In (name, key, n) bs -> exists x, dget pystr_eq_dec name t = Some (VArr x) /\ v2 (name, key, n) = Ok (VArr x) /\ wf x /\ shp x = spin_shape_of sz key (repeat (chr_of "_") n)).
    { intros name key n H. destruct HT as (_ & _ & B). destruct (B _ _ _ _ (ub _ _ _ H)) as (x & Ex & Wx & Sx). rewrite app_nil_r in Ex. unfold block_of in Ex. destruct (dget pystr_eq_dec name t) as [[x'|e]|] eqn:E; try discriminate.
      injection Ex as ->. exists x. split; [reflexivity|]. split; [unfold v2, lookup; cbn [fname fst]; rewrite E; reflexivity|]. tauto. }
    destruct (@set_all_ok F entry n2 v2 bs d1 N2) as (d2 & E2 & D2 & K2 & O2 & G2).
    { intros [[name key] n] H. destruct (V2 _ _ _ H) as (x & _ & Ex & _). exists (VArr x). exact Ex. }
    { exact D1. }
    rewrite E2. cbn [bind]. rewrite Ec. cbn [bind].
    match goal with |- context [set_all ?nf ?vf cs d2] => set (n3 := nf) in *; set (v3 := vf) end.
    assert (V3 : forall name key nf nb, In (name, key, nf, nb) cs -> exists e e', dget pystr_eq_dec name t = Some (VSpin e) /\ v3 (name, key, nf, nb) = Ok (VSpin e') /\
      forall comb, In comb [str "aa"; str "bb"] -> exists x y, dget pystr_eq_dec comb e = Some x /\ dget pystr_eq_dec comb e' = Some y /\ wf y /\ shp y = spin_shape_of sz (repeat (chr_of "b") nb ++ str "vo") (repeat (chr_of "_") nb ++ comb) /\
        forall ms i c, inb (spin_shape_of sz key (repeat (chr_of "_") nb ++ comb)) (ms ++ [i; c]) -> aget 0 y (ms ++ [c; i]) = aget 0 x (ms ++ [i; c])).
    { intros name key nf nb H. destruct (@c_facts a cs Hf Ec _ _ _ _ H) as [-> Ek].
      assert (HX : exists key stored spins, In (name, key, Some stored, spins) l) by (exists key, (str "aa"); eexists; apply (@uc _ _ 1%nat nb (str "aa") H); left; reflexivity).
      destruct (@spin_held _ HX) as (e & Le & De & Ne & Ke & Be).
      assert (CS : forall comb x y, In comb [str "aa"; str "bb"] -> spin_shape_of sz (repeat (chr_of "b") nb ++ [x; y]) (repeat (chr_of "_") nb ++ comb) = spin_shape_of sz (repeat (chr_of "b") nb) (repeat (chr_of "_") nb) ++ [sz x (hd 0%nat comb); sz y (hd 0%nat comb)]).
      { intros comb x y Hc. unfold spin_shape_of. rewrite combine_app2 by (rewrite !repeat_length; reflexivity). rewrite map_app. destruct Hc as [<-|[<-|[]]]; reflexivity. }
      assert (LN : length (spin_shape_of sz (repeat (chr_of "b") nb) (repeat (chr_of "_") nb)) = nb) by (unfold spin_shape_of; rewrite map_length, combine_length, !repeat_length; lia).
      assert (SW : forall comb x, In comb [str "aa"; str "bb"] -> dget pystr_eq_dec comb e = Some x -> exists y, transpose 0 x (seq 0 nb ++ [nb + 1; nb]%nat) = Ok y /\ wf y /\ shp y = spin_shape_of sz (repeat (chr_of "b") nb ++ str "vo") (repeat (chr_of "_") nb ++ comb) /\
        forall ms i c, inb (spin_shape_of sz key (repeat (chr_of "_") nb ++ comb)) (ms ++ [i; c]) -> aget 0 y (ms ++ [c; i]) = aget 0 x (ms ++ [i; c])).
      { intros comb x Hc Dx. destruct (Be _ _ _ (@uc _ _ _ _ _ H Hc)) as (x' & Dx' & Sx). rewrite Dx in Dx'. injection Dx' as <-.
        assert (S1 := CS comb (chr_of "o") (chr_of "v") Hc). assert (S2 := CS comb (chr_of "v") (chr_of "o") Hc). change [chr_of "o"; chr_of "v"] with (str "ov") in S1. change [chr_of "v"; chr_of "o"] with (str "vo") in S2.
        destruct (@swap_ok F x (spin_shape_of sz (repeat (chr_of "b") nb) (repeat (chr_of "_") nb)) [sz (chr_of "o") (hd 0%nat comb)] [sz (chr_of "v") (hd 0%nat comb)]) as (y & Ey & Wy & Sy & Gy); [reflexivity|rewrite Sx, Ek, S1; reflexivity|].
        rewrite LN in Ey. exists y. rewrite coupled_swapped. split; [exact Ey|]. split; [exact Wy|]. split; [rewrite S2; exact Sy|].
        intros ms i c' Hi. rewrite Ek, S1 in Hi. apply (Gy ms [i] [c']); [|reflexivity|exact Hi]. apply inb_length in Hi. rewrite !app_length in Hi. cbn [length] in Hi. lia. }
      assert (IC : forall s x, dget pystr_eq_dec s e = Some x -> In s [str "aa"; str "bb"]).
      { intros s x Ds. destruct (Ke _ _ Ds) as (key' & spins & HB). apply block_inv in HB. destruct HB as [(n' & comb & HF & Hc & E & _)|[(n' & _ & E & _)|(nf & nb' & comb & HC & Hc & E & _)]].
        - exfalso. apply (T4 name); [apply in_map_iff; exists (name, key', n'); split; [reflexivity|exact HF]|apply in_or_app; right; apply in_map_iff; exists (name, key, 1%nat, nb); split; [reflexivity|exact H]].
        - discriminate.
        - injection E as <-. exact Hc. }
      destruct (@transpose_spins_ok (seq 0 nb ++ [nb + 1; nb]%nat) e Ne) as (e' & Ee & Ge).
      { intros s x Ds. destruct (SW s x (IC _ _ Ds) Ds) as (y & Ey & _). exists y. exact Ey. }
      exists e, e'. split; [exact De|]. split; [unfold v3; cbn [Nat.eqb negb]; rewrite Le; exact Ee|].
      intros comb Hc. destruct (Be _ _ _ (@uc _ _ _ _ _ H Hc)) as (x & Dx & _). destruct (SW _ _ Hc Dx) as (y & Ey & R). exists x, y. split; [exact Dx|]. split; [exact (Ge _ _ _ Dx Ey)|exact R]. }
    destruct (@set_all_ok F _ n3 v3 cs d2 N3) as (out & E3 & D3 & K3 & O3 & G3).
    { intros [[[name key] nf] nb] H. destruct (V3 _ _ _ _ H) as (e & e' & _ & Ey & _). exists (VSpin e'). exact Ey. }
    { exact D2. }
    exists out, (lfs fs), (lbs bs), (lcs cs). split; [exact E3|]. split; [apply lfs_ok; assumption|]. split; [apply lbs_ok; assumption|]. split; [apply lcs_ok; assumption|].
    assert (FF : forall name key n comb, In (name, key, n) fs -> In comb (generate_spin_combinations n false true) -> exists x y, block_of t name (Some comb) = Some x /\ block_of out (lambda_name name) (Some comb) = Some y /\ wf y /\ shp y = spin_shape_of sz (skipn n key ++ firstn n key) comb /\
        forall os vs, inb (spin_shape_of sz key comb) (os ++ vs) -> length os = n -> aget 0 y (vs ++ os) = aget 0 x (os ++ vs)).
    { intros name key n comb H Hc. destruct (V1 _ _ _ H) as (e & e' & De & Ee & Ge). destruct (Ge _ Hc) as (x & y & Dx & Dy & R). exists x, y.
      assert (EN : n1 (name, key, n) = lambda_name name) by (destruct (@f_facts _ _ _ Hf Ef H3 _ _ _ H) as (_ & EN & _); exact EN).
      assert (HN : In (lambda_name name) (map n1 fs)) by (rewrite <- EN; apply in_map, H). destruct (N4 _ HN) as [M1 M2].
      unfold block_of. rewrite De. split; [exact Dx|]. split; [|exact R]. rewrite O3 by exact M2. rewrite O2 by exact M1. rewrite <- EN. rewrite (G1 _ _ H Ee). exact Dy. }
    assert (FB : forall name key n, In (name, key, n) bs -> exists x, block_of t name None = Some x /\ block_of out (str "l" ++ name) None = Some x /\ wf x /\ shp x = spin_shape_of sz key (repeat (chr_of "_") n)).
    { intros name key n H. destruct (V2 _ _ _ H) as (x & Dx & Ex & R). exists x. unfold block_of. rewrite Dx. split; [reflexivity|]. split; [|exact R].
      assert (HN : In (str "l" ++ name) (map n2 bs)) by (apply in_map_iff; exists (name, key, n); split; [reflexivity|exact H]).
      rewrite O3 by (exact (N5 _ HN)). pose proof (G2 _ _ H Ex) as X. cbn [fname fst] in X. unfold n2 in X. cbn [fname fst] in X. unfold pystr in *. rewrite X. reflexivity. }
    assert (FC : forall name key nf nb comb, In (name, key, nf, nb) cs -> In comb [str "aa"; str "bb"] -> exists x y, block_of t name (Some comb) = Some x /\ block_of out (str "l" ++ name) (Some comb) = Some y /\ wf y /\ shp y = spin_shape_of sz (repeat (chr_of "b") nb ++ str "vo") (repeat (chr_of "_") nb ++ comb) /\
        forall ms i c, inb (spin_shape_of sz key (repeat (chr_of "_") nb ++ comb)) (ms ++ [i; c]) -> aget 0 y (ms ++ [c; i]) = aget 0 x (ms ++ [i; c])).
    { intros name key nf nb comb H Hc. destruct (V3 _ _ _ _ H) as (e & e' & De & Ee & Ge). destruct (Ge _ Hc) as (x & y & Dx & Dy & R). exists x, y.
      unfold block_of. rewrite De. split; [exact Dx|]. split; [|exact R]. pose proof (G3 _ _ H Ee) as X. unfold n3, cname in X. cbn [fst] in X. unfold pystr in *. rewrite X. exact Dy. }
    split; [split; [exact D3|split]|split; [|split]].
    - intros nm H. apply K3 in H. destruct H as [H|H]; [apply K2 in H; destruct H as [H|H]; [apply K1 in H; destruct H as [H|H]; [exfalso; apply H; reflexivity|]|]|]; apply in_map_iff in H.
      + destruct H as ([[name key] n] & <- & H). destruct (spins_nodup n) as [_ NE]. destruct (generate_spin_combinations n false true) as [|c0 r] eqn:EC; [congruence|].
        exists (lambda_name name, skipn n key ++ firstn n key, Some c0, c0). rewrite app_nil_r. split; [|destruct (@f_facts _ _ _ Hf Ef H3 _ _ _ H) as (_ & EN & _); exact EN].
        apply in_or_app. left. apply in_flat_map. exists (lambda_name name, skipn n key ++ firstn n key, n). split; [unfold lfs; apply in_map_iff; exists (name, key, n); split; [reflexivity|exact H]|]. cbn [fst snd]. rewrite EC. left. reflexivity.
      + destruct H as ([[name key] n] & <- & H). exists (str "l" ++ name, key, None, repeat (chr_of "_") n). rewrite app_nil_r. split; [|reflexivity].
        apply in_or_app. right. apply in_or_app. left. apply in_map_iff. exists (str "l" ++ name, key, n). split; [reflexivity|]. unfold lbs. apply in_map_iff. exists (name, key, n). split; [reflexivity|exact H].
      + destruct H as ([[[name key] nf] nb] & <- & H). exists (str "l" ++ name, repeat (chr_of "b") nb ++ str "vo", Some (str "aa"), repeat (chr_of "_") nb ++ str "aa"). rewrite app_nil_r. split; [|reflexivity].
        apply in_or_app. right. apply in_or_app. right. apply in_flat_map. exists (str "l" ++ name, repeat (chr_of "b") nb ++ str "vo", nf, nb). split; [|left; reflexivity]. unfold lcs. apply in_map_iff. exists (name, key, nf, nb). split; [reflexivity|exact H].
    - intros name key stored spins H. rewrite app_nil_r. apply in_app_or in H. destruct H as [H|H]; [|apply in_app_or in H; destruct H as [H|H]].
      + apply in_flat_map in H. destruct H as ([[nm k] n] & Hin & H). apply in_map_iff in H. destruct H as (comb & E & Hc). cbn [fst snd] in E, Hc.
        apply pair_equal_spec in E. destruct E as [E <-]. apply pair_equal_spec in E. destruct E as [E <-]. apply pair_equal_spec in E. destruct E as [<- <-].
        unfold lfs in Hin. apply in_map_iff in Hin. destruct Hin as ([[nm' k'] n'] & E & Hin). cbn [fst snd] in E. apply pair_equal_spec in E. destruct E as [E <-]. apply pair_equal_spec in E. destruct E as [<- <-].
        destruct (FF _ _ _ _ Hin Hc) as (x & y & _ & Dy & Wy & Sy & _). exists y. tauto.
      + apply in_map_iff in H. destruct H as ([[nm k] n] & E & Hin). cbn [fst snd] in E.
        apply pair_equal_spec in E. destruct E as [E <-]. apply pair_equal_spec in E. destruct E as [E <-]. apply pair_equal_spec in E. destruct E as [<- <-].
        unfold lbs in Hin. apply in_map_iff in Hin. destruct Hin as ([[nm' k'] n'] & E & Hin). cbn [fst snd] in E. apply pair_equal_spec in E. destruct E as [E <-]. apply pair_equal_spec in E. destruct E as [<- <-].
        destruct (FB _ _ _ Hin) as (x & _ & Dx & Wx & Sx). exists x. tauto.
      + apply in_flat_map in H. destruct H as ([[[nm k] nf] nb] & Hin & H). apply in_map_iff in H. destruct H as (comb & E & Hc). cbn [fst snd] in E, Hc.
        apply pair_equal_spec in E. destruct E as [E <-]. apply pair_equal_spec in E. destruct E as [E <-]. apply pair_equal_spec in E. destruct E as [<- <-].
        unfold lcs in Hin. apply in_map_iff in Hin. destruct Hin as ([[[nm' k'] nf'] nb'] & E & Hin). cbn [fst snd] in E. apply pair_equal_spec in E. destruct E as [E <-]. apply pair_equal_spec in E. destruct E as [E <-]. apply pair_equal_spec in E. destruct E as [<- <-].
        destruct (FC _ _ _ _ _ Hin Hc) as (x & y & _ & Dy & Wy & Sy & _). exists y. tauto.
    - intros name key n comb os vs H Hc Hi L. destruct (FF _ _ _ _ H Hc) as (x & y & Dx & Dy & _ & _ & Gy). unfold u_block_at. rewrite Dx, Dy. apply Gy; assumption.
    - intros name key n idx H Hi. destruct (FB _ _ _ H) as (x & Dx & Dy & _). unfold u_block_at. rewrite Dx, Dy. reflexivity.
    - intros name key nf nb comb ms i c H Hc Hi. destruct (FC _ _ _ _ _ H Hc) as (x & y & Dx & Dy & _ & _ & Gy). unfold u_block_at. rewrite Dx, Dy. apply Gy, Hi.
  Qed.
End ULam.
