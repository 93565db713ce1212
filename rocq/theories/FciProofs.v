(** Proofs: packing a block of coefficients into a CI vector and reading it back. *)
From Coq Require Import String ZArith Permutation Field.
From Verif Require Import Base ListAux Alg ArrModel ArrProofs PermModel PermSpec PermProps PackProofs GroupProofs TensorModel TensorSpec TensorProofs TensorThms UnpackProofs KernelProofs
  SpaceModel AnsatzModel VecModel VecSpec CcModel ExtModel ExtSpec ExtProofs FciModel FciSpec.
Set Implicit Arguments.
Local Open Scope nat_scope.
Local Open Scope list_scope.

Definition rmap {A B} (f : A -> B) (r : result A) : result B := match r with Ok x => Ok (f x) | Err e => Err e end.

(** * Mapping a function over an array commutes with rearrangements. *)
Section Nat.
  Variable F : fld.
  Variable f : F -> F.
  Hypothesis f0 : f r0 = r0.
  Lemma aget_map a idx : aget r0 (map_arr f a) idx = f (aget r0 a idx).
  Proof. unfold aget, map_arr. cbn [shp dat]. rewrite <- f0 at 1. apply map_nth. Qed.
  Lemma tab_map s (g h : list nat -> F) : (forall i, g i = f (h i)) -> tab s g = map_arr f (tab s h).
  Proof. intros E. unfold tab, map_arr. cbn [shp dat]. rewrite map_map. f_equal. apply map_ext. exact E. Qed.
  Lemma transpose_map a p : transpose r0 (map_arr f a) p = rmap (map_arr f) (transpose r0 a p).
  Proof.
    unfold transpose. cbn [shp map_arr]. destruct (is_perm _ p); [|reflexivity]. cbn [rmap]. f_equal. apply tab_map. intros i. apply aget_map.
  Qed.
  Lemma reshape_map a s : reshape (map_arr f a) s = rmap (map_arr f) (reshape a s).
  Proof. unfold reshape. cbn [shp map_arr dat]. destruct (_ =? _); reflexivity. Qed.
  Lemma compress_map sub a diag : compress_axes r0 sub (map_arr f a) diag = rmap (map_arr f) (compress_axes r0 sub a diag).
  Proof.
    unfold compress_axes. destruct (rename sub) as [s1|e]; cbn [bind]; [|reflexivity].
    unfold group_axes. rewrite transpose_map. destruct (transpose r0 a (argsort s1)) as [b|e]; cbn [bind rmap]; [|reflexivity].
    destruct (permute_string s1 (argsort s1)) as [s2|e]; cbn [bind]; [|reflexivity]. cbn [shp map_arr].
    destruct (sizes_loop _ []) as [sz|e]; cbn [bind]; [|reflexivity]. destruct (mapM (size_of sz) _) as [ns|e]; cbn [bind]; [|reflexivity].
    fold (map_arr f b). rewrite reshape_map. destruct (reshape b _) as [c|e]; cbn [bind rmap]; [|reflexivity].
    destruct (mapM _ (combine ns _)) as [inds|e]; cbn [bind rmap]; [|reflexivity]. f_equal. unfold take_mesh. apply tab_map. intros i. apply aget_map.
  Qed.
End Nat.

(** * Reordering the axes of an antisymmetric array. *)
Lemma pick_exchange r i' j' idx : NoDup r -> (forall k, In k r -> k < length idx) -> i' < length r -> j' < length r ->
  pick r (exchange (nth i' r 0) (nth j' r 0) idx) = exchange i' j' (pick r idx).
Proof.
  intros ND Hr Hi Hj. unfold pick. apply nth_ext with (d := 0) (d' := 0); [rewrite exchange_length, !map_length; reflexivity|].
  intros k Hk. rewrite map_length in Hk. rewrite exchange_nth by (rewrite map_length; exact Hk).
  assert (G : forall l n, n < length r -> nth n (map (fun q => nth q l 0) r) 0 = nth (nth n r 0) l 0).
  { intros l n Hn. rewrite (nth_map_lt _ _ 0 0) by exact Hn. reflexivity. }
  rewrite G by exact Hk. rewrite exchange_nth by (apply Hr, nth_In, Hk).
  assert (INJ : forall m, m < length r -> (nth k r 0 =? nth m r 0) = (k =? m)).
  { intros m Hm. destruct (Nat.eqb_spec k m) as [->|N]; [apply Nat.eqb_refl|]. apply Nat.eqb_neq. intros E. apply N. eapply NoDup_nth; eassumption. }
  rewrite !INJ by assumption. destruct (k =? i'); [symmetry; apply G, Hj|]. destruct (k =? j'); symmetry; apply G; assumption.
Qed.

Section Block.
  Variable F : fld.
  Add Field FfieldFci : (fth F).
  Local Open Scope rng_scope.

  Lemma reordered (sub tg : pystr) (sl : nat -> nat) (cn : arr F) : Permutation sub tg -> wf cn -> shp cn = map sl tg -> antisymmetric tg cn ->
    exists r t, get_string_permutation sub tg = Ok r /\ transpose 0 cn (argsort r) = Ok t /\ transpose 0 t r = Ok cn /\
      wf t /\ shp t = map sl sub /\ antisymmetric sub t.
  Proof.
    intros P W S A. destruct (@C02_string_permutation_roundtrip _ _ P) as (r & Er & Pr & Et). exists r.
    assert (Lr : length r = length sub). { apply Permutation_length in Pr. rewrite seq_length in Pr. congruence. }
    assert (Pr' : Permutation (seq 0 (length r)) r) by (rewrite Lr; exact Pr).
    assert (Ltg : length tg = length sub) by (symmetry; apply Permutation_length, P).
    assert (Rlt : forall k, In k r -> (k < length sub)%nat). { intros k Hk. apply (@perm_seq_lt _ _ k Pr). exact Hk. }
    rewrite (permute_string_perm _ _ Rlt) in Et. apply ok_inj in Et.
    destruct (argsort_inverse Pr') as (Pa & _ & Ha & Hs).
    assert (Lcn : length (shp cn) = length r) by (rewrite S, map_length; congruence).
    assert (Ssub : shp cn = pick r (map sl sub)).
    { rewrite S, <- Et. unfold pick. rewrite map_map. apply map_ext_in. intros k Hk. rewrite (nth_map_lt _ _ 0%nat 0%nat) by (apply Rlt, Hk). reflexivity. }
    assert (Pa' : Permutation (seq 0 (length (shp cn))) (argsort r)) by (rewrite Lcn; exact Pa).
    eexists. split; [exact Er|]. split; [apply (@transpose_ok _ 0 cn _ Pa')|]. set (t := tab _ _).
    assert (St : shp t = map sl sub).
    { unfold t. cbn [tab shp]. rewrite Ssub. apply Hs. rewrite map_length. congruence. }
    assert (Gt : forall idx, inb (map sl sub) idx -> aget 0 t idx = aget 0 cn (pick r idx)).
    { intros idx Hi. unfold t. rewrite aget_tab by (fold (shp t); rewrite <- St in Hi; exact Hi). f_equal. apply Ha.
      apply inb_length in Hi. rewrite map_length in Hi. congruence. }
    assert (Wt : wf t) by apply tab_wf.
    assert (Pick : forall idx, inb (map sl sub) idx -> inb (shp cn) (pick r idx)).
    { intros idx Hi. rewrite Ssub. unfold pick. apply gather_inb; [|exact Hi]. intros k Hk. rewrite map_length. apply Rlt, Hk. }
    split; [|split; [exact Wt|split; [exact St|]]].
    - rewrite transpose_ok by (rewrite St, map_length; exact Pr). f_equal. apply (@arr_ext _ 0); [apply tab_wf|exact W| |].
      + cbn [tab shp]. rewrite St, Ssub. reflexivity.
      + intros idx Hi. cbn [tab shp] in Hi. rewrite aget_tab by exact Hi. rewrite St in Hi.
        assert (Hl : length idx = length r). { apply inb_length in Hi. rewrite map_length in Hi. exact Hi. }
        rewrite Gt by (apply unperm_inb; [rewrite map_length; exact Pr|exact Hi]). f_equal. apply gather_unperm; [exact Pr'|exact Hl].
    - intros idx i j Hi Li Lj Nij E. rewrite St in Hi.
      assert (Li' : length idx = length sub). { apply inb_length in Hi. rewrite map_length in Hi. exact Hi. }
      assert (EX : inb (map sl sub) (exchange i j idx)).
      { apply (@exchange_inb sub (map sl sub)); try assumption. split; [apply map_length|]. intros p q Hp Hq Epq.
        rewrite !(nth_map_lt _ _ 0%nat 0%nat) by assumption. f_equal. exact Epq. }
      rewrite !Gt by assumption.
      assert (Inv : forall k, (k < length sub)%nat -> exists k', (k' < length r)%nat /\ nth k' r 0%nat = k).
      { intros k Hk. apply (In_nth r k 0%nat). apply (@perm_seq_lt _ _ k Pr). exact Hk. }
      destruct (Inv i Li) as (i' & Hi' & <-). destruct (Inv j Lj) as (j' & Hj' & <-).
      rewrite pick_exchange; [|apply (@perm_seq_nodup _ _ Pr)|intros k Hk; rewrite Li'; apply Rlt, Hk|exact Hi'|exact Hj'].
      apply A; [apply Pick, Hi|congruence|congruence|congruence|].
      rewrite <- Et. rewrite !(nth_map_lt _ _ 0%nat 0%nat) by assumption. exact E.
  Qed.

  (** The letters of a block. *)
  Lemma target_perm (t : pystr) : (forall c, In c t -> c = chr_of "a" \/ c = chr_of "b") -> Permutation (fci_subscript (nalph t) (nbeta t)) (fci_target t).
  Proof.
    intros H. unfold fci_subscript, fci_target. etransitivity.
    - apply Permutation_app_head. rewrite app_assoc. apply Permutation_app_tail. apply Permutation_app_comm.
    - rewrite <- !app_assoc, app_assoc. apply Permutation_app.
      + induction t as [|c t IH]; [reflexivity|]. assert (IH' := IH (fun c' Hc => H c' (or_intror Hc))). unfold nalph, nbeta, count in *.
        destruct (H c (or_introl eq_refl)) as [-> | ->]; cbn [count_occ map]; cbn -[count_occ] in *.
        * constructor. exact IH'.
        * symmetry. apply Permutation_cons_app. symmetry. exact IH'.
      + induction t as [|c t IH]; [reflexivity|]. assert (IH' := IH (fun c' Hc => H c' (or_intror Hc))). unfold nalph, nbeta, count in *.
        destruct (H c (or_introl eq_refl)) as [-> | ->]; cbn [count_occ map]; cbn -[count_occ] in *.
        * constructor. exact IH'.
        * symmetry. apply Permutation_cons_app. symmetry. exact IH'.
  Qed.

  (** * Sizes. *)
  Lemma fold_mul l a : (fold_left Nat.mul l a = a * prodn l)%nat.
  Proof. revert a. induction l as [|x l IH]; intros a; cbn [fold_left]; [unfold prodn; cbn; lia|]. rewrite IH, prodn_cons. lia. Qed.
  Lemma prodn_perm l l' : Permutation l l' -> prodn l = prodn l'.
  Proof. induction 1; rewrite ?prodn_cons in *; try reflexivity; try lia. Qed.
  Lemma csize (sub : pystr) sizes (sz : nat -> nat) L : NoDup L -> (forall c, In c L <-> In c sub) ->
    (forall c, In c sub -> dget Nat.eq_dec c sizes = Some (sz c)) ->
    get_compressed_size sub sizes = Ok (prodn (map (fun c => ntril_ndim (sz c) (count sub c) false) L)).
  Proof.
    intros ND HL HS. unfold get_compressed_size.
    rewrite (@mapM_ok _ _ _ (fun c => ntril_ndim (sz c) (count sub c) false)).
    - cbn [bind]. rewrite fold_mul, Nat.mul_1_l. f_equal. apply prodn_perm, Permutation_map. apply NoDup_Permutation; [apply dedup_nodup|exact ND|].
      intros c. rewrite dedup_in. symmetry. apply HL.
    - intros c Hc. apply (proj1 (dedup_in _ _)) in Hc. unfold size_of. rewrite (HS c Hc). reflexivity.
  Qed.
  Definition letter_size (oa va ob vb c : nat) : nat :=
    if c =? chr_of "i" then oa else if c =? chr_of "a" then va else if c =? chr_of "j" then ob else vb.
  Lemma count_rep (c d n : nat) : count (repeat c n) d = if Nat.eq_dec c d then n else 0%nat.
  Proof.
    unfold count. destruct (Nat.eq_dec c d) as [->|N].
    - induction n as [|n IH]; [reflexivity|]. cbn [repeat count_occ]. destruct (Nat.eq_dec d d); congruence.
    - induction n as [|n IH]; [reflexivity|]. cbn [repeat count_occ]. destruct (Nat.eq_dec c d); congruence.
  Qed.
  Lemma count_app l l' d : (count (l ++ l') d = count l d + count l' d)%nat.
  Proof. apply count_occ_app. Qed.
  Lemma ntril0 n : ntril_ndim n 0 false = 1%nat.
  Proof. unfold ntril_ndim. destruct (seq 0 n); reflexivity. Qed.
  Lemma in_rep (c d n : nat) : In d (repeat c n) <-> d = c /\ (0 < n)%nat.
  Proof.
    split; [|intros [-> H]; destruct n; [lia|left; reflexivity]]. intros H. split; [apply repeat_spec in H; congruence|]. destruct n; [destruct H|lia].
  Qed.

  Lemma filter_rep (p : nat -> bool) (c n : nat) : filter p (repeat c n) = if p c then repeat c n else [].
  Proof. induction n as [|n IH]; [destruct (p c); reflexivity|]. cbn [repeat filter]. rewrite IH. destruct (p c); reflexivity. Qed.
  Lemma two_letters (c d n p q : nat) : c <> d ->
    get_compressed_size (repeat c n ++ repeat d n) [(c, p); (d, q)] = Ok (ntril_ndim p n false * ntril_ndim q n false)%nat.
  Proof.
    intros N. destruct n as [|n].
    - cbn [repeat app]. rewrite !ntril0. reflexivity.
    - rewrite (@csize _ _ (fun x => if x =? c then p else q) [c; d]).
      + cbn [map]. rewrite !count_app, !count_rep. rewrite Nat.eqb_refl. destruct (Nat.eqb_spec d c) as [X|_]; [congruence|].
        destruct (Nat.eq_dec c c); [|congruence]. destruct (Nat.eq_dec d d); [|congruence]. destruct (Nat.eq_dec c d); [congruence|]. destruct (Nat.eq_dec d c); [congruence|].
        rewrite Nat.add_0_r, Nat.add_0_l. unfold prodn. cbn [fold_right]. rewrite Nat.mul_1_r. reflexivity.
      + constructor; [intros [X|[]]; congruence|]. constructor; [intros []|constructor].
      + intros x. rewrite in_app_iff, !in_rep. cbn. intuition (subst; auto; lia).
      + intros x Hx. rewrite in_app_iff, !in_rep in Hx. unfold dget. cbn. destruct (Nat.eq_dec x c) as [->|Nc]; [rewrite Nat.eqb_refl; reflexivity|].
        destruct (Nat.eq_dec x d) as [->|Nd]; [destruct (Nat.eqb_spec d c); [congruence|reflexivity]|]. intuition congruence.
  Qed.
  Lemma side_sizes na nb oa va ob vb :
    get_compressed_size (filter (fun k => memb k (str "ia")) (fci_subscript na nb)) [(chr_of "i", oa); (chr_of "a", va)] = Ok (ntril_ndim oa na false * ntril_ndim va na false)%nat /\
    get_compressed_size (filter (fun k => memb k (str "jb")) (fci_subscript na nb)) [(chr_of "j", ob); (chr_of "b", vb)] = Ok (ntril_ndim ob nb false * ntril_ndim vb nb false)%nat.
  Proof.
    unfold fci_subscript. rewrite !filter_app, !filter_rep. cbn [memb existsb str]. split.
    - change (memb (chr_of "i") (str "ia")) with true. change (memb (chr_of "a") (str "ia")) with true. change (memb (chr_of "j") (str "ia")) with false. change (memb (chr_of "b") (str "ia")) with false.
      cbn iota. rewrite !app_nil_r. apply two_letters. discriminate.
    - change (memb (chr_of "i") (str "jb")) with false. change (memb (chr_of "a") (str "jb")) with false. change (memb (chr_of "j") (str "jb")) with true. change (memb (chr_of "b") (str "jb")) with true.
      cbn iota. cbn [app]. apply two_letters. discriminate.
  Qed.
  Lemma full_size na nb oa va ob vb :
    get_compressed_size (fci_subscript na nb) [(chr_of "i", oa); (chr_of "a", va); (chr_of "j", ob); (chr_of "b", vb)] =
    Ok ((ntril_ndim oa na false * ntril_ndim va na false) * (ntril_ndim ob nb false * ntril_ndim vb nb false))%nat.
  Proof.
    rewrite (@csize _ _ (letter_size oa va ob vb) ((if na =? 0 then [] else [chr_of "i"; chr_of "a"]) ++ (if nb =? 0 then [] else [chr_of "j"; chr_of "b"]))%nat).
    - f_equal. unfold fci_subscript.
      assert (C4 : let sub := repeat (chr_of "i") na ++ repeat (chr_of "a") na ++ repeat (chr_of "j") nb ++ repeat (chr_of "b") nb in
        count sub (chr_of "i") = na /\ count sub (chr_of "a") = na /\ count sub (chr_of "j") = nb /\ count sub (chr_of "b") = nb).
      { cbv zeta. rewrite !count_app, !count_rep.
        assert (T : forall (c : nat) (A : Type) (x y : A), (if Nat.eq_dec c c then x else y) = x) by (intros; destruct (Nat.eq_dec c c); congruence).
        assert (N : forall (c d : nat) (A : Type) (x y : A), c <> d -> (if Nat.eq_dec c d then x else y) = y) by (intros; destruct (Nat.eq_dec c d); congruence).
        rewrite !T. rewrite !N by discriminate. lia. }
      cbv zeta in C4. destruct C4 as (C1 & C2 & C3 & C4).
      assert (E1 : letter_size oa va ob vb (chr_of "i") = oa) by reflexivity. assert (E2 : letter_size oa va ob vb (chr_of "a") = va) by reflexivity.
      assert (E3 : letter_size oa va ob vb (chr_of "j") = ob) by reflexivity. assert (E4 : letter_size oa va ob vb (chr_of "b") = vb) by reflexivity.
      destruct na as [|na], nb as [|nb]; cbn [Nat.eqb app map]; cbn [app] in *; rewrite ?C1, ?C2, ?C3, ?C4, ?E1, ?E2, ?E3, ?E4, ?ntril0; cbn [prodn fold_right]; try reflexivity; ring.
    - destruct na, nb; cbn; repeat (constructor; [cbn; intuition discriminate|]); constructor.
    - intros c. unfold fci_subscript. rewrite !in_app_iff, !in_rep. destruct na, nb; cbn [Nat.eqb app In]; intuition (subst; auto; lia).
    - intros c. unfold fci_subscript. rewrite !in_app_iff, !in_rep. intros [[-> _]|[[-> _]|[[-> _]|[-> _]]]]; reflexivity.
  Qed.

  (** * Signs. *)
  Definition units (l : list Z) : Prop := forall z, In z l -> z = 1%Z \/ z = (-1)%Z.
  Lemma sgn_square z : z = 1%Z \/ z = (-1)%Z -> sgn F z * sgn F z = 1.
  Proof. assert (E1 : sgn F 1 = 1 + 0) by reflexivity. assert (E2 : sgn F (-1) = - (1 + 0)) by reflexivity. intros [->| ->]; rewrite ?E1, ?E2; ring. Qed.
  Lemma units_nth l k : units l -> nth k l 1%Z = 1%Z \/ nth k l 1%Z = (-1)%Z.
  Proof. intros H. destruct (Nat.lt_ge_cases k (length l)) as [L|L]; [apply H, nth_In, L|rewrite nth_overflow by exact L; left; reflexivity]. Qed.
  Lemma product2 {A} (l l' : list A) : product [l; l'] = flat_map (fun a => map (fun b => [a; b]) l') l.
  Proof. cbn [product]. apply flat_map_ext. intros a. induction l' as [|b l' IH]; [reflexivity|]. cbn in *. f_equal. exact IH. Qed.
  Lemma signs_square (ra rb : list nat * list Z) : units (snd ra) -> units (snd rb) -> forall s, In s (mesh_signs F ra rb) -> s * s = 1.
  Proof.
    intros Ha Hb s Hs. unfold mesh_signs in Hs. apply in_map_iff in Hs. destruct Hs as (p & <- & Hp). rewrite product2 in Hp.
    apply in_flat_map in Hp. destruct Hp as (x & Hx & Hp). apply in_map_iff in Hp. destruct Hp as (y & <- & Hy). cbn [nth].
    pose proof (sgn_square (Ha x Hx)) as E1. pose proof (sgn_square (Hb y Hy)) as E2.
    transitivity ((sgn F x * sgn F x) * (sgn F y * sgn F y)); [ring|]. rewrite E1, E2. ring.
  Qed.
  Lemma signs_length (ra rb : list nat * list Z) : length (mesh_signs F ra rb) = (length (snd ra) * length (snd rb))%nat.
  Proof.
    unfold mesh_signs. rewrite map_length, product2. induction (snd ra) as [|x l IH]; [reflexivity|]. cbn [flat_map length]. rewrite app_length, map_length, IH. lia.
  Qed.
  Lemma times_ok (x s : list F) : length x = length s -> times F x s = Ok (map (fun p => fst p * snd p) (combine x s)).
  Proof. intros E. unfold times. rewrite E, Nat.eqb_refl. reflexivity. Qed.
  Lemma times_back k : k <> 0 -> forall x s : list F, length x = length s -> (forall z, In z s -> z * z = 1) ->
    map (fun p => fst p * snd p) (combine (map (fun z => fdiv z k) (map (fun p => fst p * snd p) (combine x s))) s) = map (fun z => fdiv z k) x.
  Proof.
    intros Hk x. induction x as [|a x IH]; intros [|b s] L H; try discriminate; [reflexivity|]. cbn [combine map fst snd]. f_equal.
    - assert (E := H b (or_introl eq_refl)). transitivity (fdiv (a * (b * b)) k); [field; exact Hk|]. rewrite E. field. exact Hk.
    - apply IH; [cbn in L; lia|]. intros z Hz. apply H. right. exact Hz.
  Qed.

  (** * One block. *)
  Section One.
    Variables oa va ob vb : nat.
    Variables ra rb : list nat * list Z.
    Variable spins : pystr.
    Let na := nalph spins.
    Let nb := nbeta spins.
    Let sub := fci_subscript na nb.
    Let sl := letter_size oa va ob vb.
    Let la := (ntril_ndim oa na false * ntril_ndim va na false)%nat.
    Let lb := (ntril_ndim ob nb false * ntril_ndim vb nb false)%nat.
    Hypothesis spins_ab : forall c, In c spins -> c = chr_of "a" \/ c = chr_of "b".
    Hypothesis La : length (fst ra) = la /\ length (snd ra) = la /\ units (snd ra).
    Hypothesis Lb : length (fst rb) = lb /\ length (snd rb) = lb /\ units (snd rb).
    Hypothesis torsion : no_two_torsion F.

    Lemma sub_extents (t : arr F) : shp t = map sl sub -> extents_ok sub (shp t).
    Proof.
      intros ->. split; [apply map_length|]. intros i j Hi Hj E. rewrite !(nth_map_lt _ _ 0%nat 0%nat) by assumption. f_equal. exact E.
    Qed.
    Lemma sub_describes (t : arr F) : shp t = map sl sub -> describes sub (shp t) [(chr_of "i", oa); (chr_of "a", va); (chr_of "j", ob); (chr_of "b", vb)].
    Proof.
      intros -> i Hi. rewrite (nth_map_lt _ _ 0%nat 0%nat) by exact Hi. pose proof (nth_In sub 0%nat Hi) as H. revert H. generalize (nth i sub 0%nat).
      intros c. unfold sub, fci_subscript. rewrite !in_app_iff, !in_rep. intros [[-> _]|[[-> _]|[[-> _]|[-> _]]]]; reflexivity.
    Qed.

    Lemma pack_ok (cn : arr F) : wf cn -> shp cn = map sl (fci_target spins) -> antisymmetric (fci_target spins) cn ->
      exists r t c v, get_string_permutation sub (fci_target spins) = Ok r /\ transpose 0 t r = Ok cn /\ wf t /\ shp t = map sl sub /\ antisymmetric sub t /\
        compress_axes 0 sub t false = Ok c /\ length (dat c) = (la * lb)%nat /\
        pack_c F oa va ob vb ra rb spins cn = Ok v /\ shp v = [la; lb] /\ wf v /\
        dat v = map (fun p => fst p * snd p) (combine (dat c) (mesh_signs F ra rb)).
    Proof.
      intros W S A. destruct (@reordered sub (fci_target spins) sl cn (@target_perm _ spins_ab) W S A) as (r & t & Er & Et & Eb & Wt & St & At).
      destruct (@size_of_packed F sub _ t (@sub_extents _ St) (@sub_describes _ St)) as (c & Ec & Es & Lc).
      unfold sub in Es at 1. rewrite full_size in Es. apply ok_inj in Es. fold la lb in Es.
      destruct (side_sizes na nb oa va ob vb) as (S1 & S2). destruct La as (La1 & La2 & La3). destruct Lb as (Lb1 & Lb2 & Lb3).
      exists r, t, c, (mkarr [la; lb] (map (fun p => fst p * snd p) (combine (dat c) (mesh_signs F ra rb)))).
      assert (LS : length (dat c) = length (mesh_signs F ra rb)) by (rewrite signs_length, La2, Lb2; congruence).
      repeat (split; [first [exact Er|exact Eb|exact Wt|exact St|exact At|exact Ec|congruence]|]). split; [|split; [reflexivity|split; [|reflexivity]]].
      - unfold pack_c. fold na nb. fold sub. rewrite Er. cbn [bind]. rewrite Et. cbn [bind]. rewrite Ec. cbn [bind]. unfold sub. rewrite S1, S2. cbn [bind]. fold la lb.
        unfold reshape. rewrite <- Lc, <- Es. replace (prodn [la; lb]) with (la * lb)%nat by (unfold prodn; cbn; lia). rewrite Nat.eqb_refl. cbn [bind dat].
        rewrite La2, Lb2, !Nat.eqb_refl. cbn [andb]. rewrite times_ok by exact LS. reflexivity.
      - unfold wf. cbn [dat shp]. rewrite map_length, combine_length, <- LS, Nat.min_id, <- Es. unfold prodn. cbn. lia.
    Qed.

    Lemma decompress_dat (x y : arr F) s : dat x = dat y -> decompress_axes F sub x s false None = decompress_axes F sub y s false None.
    Proof. intros E. unfold decompress_axes. rewrite E. reflexivity. Qed.

    Lemma get_ok (cn v ci : arr F) (k : F) : k <> 0 -> wf cn -> shp cn = map sl (fci_target spins) -> antisymmetric (fci_target spins) cn ->
      pack_c F oa va ob vb ra rb spins cn = Ok v ->
      wf ci -> mesh_ok (shp ci) (mesh ra rb) -> aget 0 ci [0; 0]%nat = fdiv 1 k ->
      (forall js, inb [la; lb] js -> aget 0 ci (placed (mesh ra rb) js) = fdiv (aget 0 v js) k) ->
      get_c F ra rb (Ok (map sl sub)) ci spins = Ok cn.
    Proof.
      intros Hk W S A Ev Wci M H00 Hb. destruct (@pack_ok _ W S A) as (r & t & c & v' & Er & Eb & Wt & St & At & Ec & Lc & Ev' & Sv & Wv & Dv).
      rewrite Ev in Ev'. apply ok_inj in Ev'. subst v'. destruct La as (La1 & La2 & La3). destruct Lb as (Lb1 & Lb2 & Lb3).
      destruct (@get_ix_ok _ _ _ Wci M) as (x & Ex & Wx & Sx & Gx). assert (Sx' : shp x = [la; lb]) by (rewrite Sx; unfold mesh; cbn [map]; congruence).
      set (f := fun z : F => fdiv z k). assert (f0 : f 0 = 0) by (unfold f; field; exact Hk).
      assert (Dx : x = map_arr f v).
      { apply (@arr_ext _ 0); [exact Wx| | |].
        - unfold wf, map_arr. cbn [dat shp]. rewrite map_length. exact Wv.
        - cbn [map_arr shp]. congruence.
        - intros js Hj. rewrite (@aget_map F f f0). rewrite Gx by (rewrite <- Sx; exact Hj). unfold f. apply Hb. rewrite <- Sx'. exact Hj. }
      unfold get_c. fold na nb. fold sub. rewrite Ex. cbn [bind]. rewrite times_ok.
      2:{ rewrite signs_length, La2, Lb2. unfold wf in Wx. rewrite Wx, Sx'. unfold prodn. cbn. lia. }
      cbn [bind]. rewrite Dx. cbn [map_arr dat]. rewrite Dv. unfold f at 1. rewrite (@times_back k Hk) by (try (rewrite signs_length; congruence); apply (@signs_square _ _ La3 Lb3)).
      fold f. set (tf := map_arr f t).
      assert (Sf : shp tf = map sl sub) by exact St.
      assert (Wf : wf tf) by (unfold tf, wf, map_arr; cbn [dat shp]; rewrite map_length; exact Wt).
      assert (Af : antisymmetric sub tf).
      { intros idx i j Hi Li Lj Nij E. unfold tf. rewrite !(@aget_map F f f0). pose proof (At idx i j) as X. cbn beta iota in X. rewrite X by assumption. unfold f. field. exact Hk. }
      destruct (@unpack_pack F sub tf torsion Wf (@sub_extents _ Sf) Af) as (c' & Ec' & Ed').
      unfold tf in Ec'. rewrite (@compress_map F f f0) in Ec'. rewrite Ec in Ec'. cbn [rmap] in Ec'. apply ok_inj in Ec'.
      rewrite (@decompress_dat _ c') by (rewrite <- Ec'; reflexivity). rewrite <- Sf, Ed'. cbn [bind]. rewrite Er. cbn [bind].
      unfold tf. rewrite (@transpose_map F f f0), Eb. cbn [rmap bind]. f_equal. rewrite H00. destruct cn as [scn dcn]. unfold map_arr. cbn [shp dat]. f_equal.
      rewrite map_map. rewrite <- (map_id dcn) at 2. apply map_ext. intros z. unfold f. field. split; [exact Hk|]. exact (F_1_neq_0 (fth F)).
    Qed.
  End One.
End Block.
