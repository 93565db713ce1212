(** symmetrise: the sum over all axis permutations that preserve the subscript. *)
From Verif Require Import Base ListAux Alg PermSpec PermModel PermSign PermProofs TrilProofs SpinProofs StringPermProofs
  ArrModel ArrProofs TensorModel TensorSpec GroupProofs PackProofs TensorProofs UnpackProofs RepackProofs.
From Coq Require Import Sorted.
Set Implicit Arguments.

Definition assign (g v P : list nat) : list nat := fold_left (fun perm q => lupd (fst q) (snd q) perm) (combine g v) P.

Lemma assign_length g v P : length (assign g v P) = length P.
Proof.
  unfold assign. generalize (combine g v). intros l. revert P; induction l as [|q l IH]; intros P; [reflexivity|].
  cbn [fold_left]. rewrite IH. apply lupd_length.
Qed.

Lemma assign_out g v P k : ~ In k g -> nth k (assign g v P) 0 = nth k P 0.
Proof.
  unfold assign. revert v P; induction g as [|i g IH]; intros v P Hk; [reflexivity|]. destruct v as [|y v]; [reflexivity|].
  cbn [combine fold_left fst snd]. rewrite IH by (intros H; apply Hk; right; exact H). rewrite lupd_nth.
  destruct (Nat.eqb_spec k i) as [->|]; [exfalso; apply Hk; left; reflexivity|reflexivity].
Qed.

Lemma assign_pick g v P : NoDup g -> (forall k, In k g -> k < length P) -> length v = length g -> pick g (assign g v P) = v.
Proof.
  intros Hnd. revert v P; induction Hnd as [|i g Hi Hnd IH]; intros v P Hlt HL; destruct v as [|y v]; try discriminate; [reflexivity|].
  unfold assign. cbn [combine fold_left fst snd]. fold (assign g v (lupd i y P)).
  change (pick (i :: g) ?t) with (nth i t 0 :: pick g t). f_equal.
  - rewrite assign_out by exact Hi. rewrite lupd_nth, Nat.eqb_refl. specialize (Hlt i (or_introl eq_refl)).
    destruct (Nat.ltb_spec i (length P)); [reflexivity|lia].
  - apply IH; [|cbn in HL; lia]. intros k Hk. rewrite lupd_length. apply Hlt. right; exact Hk.
Qed.

Lemma assign_unique g P Q : NoDup g -> (forall k, In k g -> k < length P) -> length Q = length P ->
  (forall k, ~ In k g -> nth k Q 0 = nth k P 0) -> Q = assign g (pick g Q) P.
Proof.
  intros Hnd Hlt HL Ho. apply nth_ext with (d := 0) (d' := 0); [rewrite assign_length; exact HL|].
  intros k _. destruct (in_dec Nat.eq_dec k g) as [Hk|Hk]; [|rewrite assign_out by exact Hk; apply Ho; exact Hk].
  apply (In_nth _ _ 0) in Hk as (a & Ha & <-).
  assert (Pk : forall t, nth (nth a g 0) t 0 = nth a (pick g t) 0).
  { intros t. unfold pick. symmetry. apply (nth_map_lt (fun j => nth j t 0) g 0 0 Ha). }
  rewrite !Pk, assign_pick by (try apply pick_length; assumption). reflexivity.
Qed.

Lemma swaps_swap_at k (l q : list nat) i j : swaps k l q -> i < length q -> j < length q -> i <> j -> swaps (S k) l (swap_at i j q).
Proof.
  assert (G : forall i j, swaps k l q -> j < length q -> i < j -> swaps (S k) l (swap_at i j q)).
  { clear. intros i j H Hj Hij. destruct (@swap_at_swaps i j q Hij Hj) as (l1 & x & m & y & l2 & E & ->). rewrite E in H.
    apply swaps_one. exact H. }
  intros H Hi Hj Hij. destruct (Nat.lt_total i j) as [Hlt|[Hlt|Hlt]]; [apply G; assumption|contradiction|].
  rewrite swap_at_comm by assumption. apply G; assumption.
Qed.

Lemma assign_swaps g : NoDup g -> forall m u v, swaps m u v -> forall P, (forall k, In k g -> k < length P) -> pick g P = u ->
  swaps m P (assign g v P).
Proof.
  intros Hnd m u v H P Hlt. induction H as [u|m u l1 x mm y l2 H IH]; intros E.
  - rewrite <- E. rewrite <- (@assign_unique g P P Hnd Hlt eq_refl) by reflexivity. constructor.
  - specialize (IH E). set (v' := l1 ++ x :: mm ++ y :: l2) in *. set (Q := assign g v' P) in *.
    set (a := length l1). set (b := length l1 + 1 + length mm).
    assert (Hu : length v' = length g) by (apply swaps_perm in H; rewrite <- (Permutation_length H), <- E; apply pick_length).
    assert (Hgl : length g = length l1 + S (length mm + S (length l2))).
    { rewrite <- Hu. unfold v'. rewrite app_length. cbn [length]. rewrite app_length. reflexivity. }
    assert (Ha : a < length g) by (unfold a; lia). assert (Hb : b < length g) by (unfold b; lia).
    assert (HQ : length Q = length P) by apply assign_length.
    assert (Hia : nth a g 0 < length Q) by (rewrite HQ; apply Hlt, nth_In; exact Ha).
    assert (Hib : nth b g 0 < length Q) by (rewrite HQ; apply Hlt, nth_In; exact Hb).
    assert (Hne : nth a g 0 <> nth b g 0).
    { intros Eab. apply (proj1 (NoDup_nth g 0) Hnd) in Eab; [unfold a, b in Eab; lia|exact Ha|exact Hb]. }
    replace (assign g (l1 ++ y :: mm ++ x :: l2) P) with (swap_at (nth a g 0) (nth b g 0) Q); [apply swaps_swap_at; assumption|].
    rewrite <- exchange_swap_at by assumption.
    rewrite (@assign_unique g P (exchange (nth a g 0) (nth b g 0) Q)).
    + f_equal. rewrite pick_exchange_in; [|exact Hnd|intros k Hk; rewrite HQ; auto|exact Ha|exact Hb].
      assert (Ep : pick g Q = v') by (apply assign_pick; assumption). rewrite Ep.
      apply swap_at_split; [unfold a, b; lia|rewrite Hu; exact Hb|reflexivity|reflexivity|reflexivity].
    + exact Hnd.
    + exact Hlt.
    + rewrite exchange_length. exact HQ.
    + intros k Hk. rewrite <- (@assign_out g v' P k Hk). fold Q. destruct (Nat.lt_ge_cases k (length Q)) as [Hkl|Hkl].
      * rewrite exchange_nth by exact Hkl. destruct (Nat.eqb_spec k (nth a g 0)) as [->|]; [exfalso; apply Hk, nth_In; exact Ha|].
        destruct (Nat.eqb_spec k (nth b g 0)) as [->|]; [exfalso; apply Hk, nth_In; exact Hb|reflexivity].
      * rewrite !nth_overflow; [reflexivity|exact Hkl|rewrite exchange_length; exact Hkl].
Qed.

Lemma group_positions_occ s c : group_positions s c = occ 0 s c.
Proof.
  unfold group_positions.
  assert (G : forall t i, filter (fun k => nth (k - i) t 0 =? c) (seq i (length t)) = occ i t c).
  { induction t as [|x t IH]; intros i; [reflexivity|]. cbn [length occ].
    assert (E : filter (fun k => nth (k - i) (x :: t) 0 =? c) (seq (S i) (length t)) = occ (S i) t c).
    { rewrite <- IH. apply filter_ext_in. intros k Hk. apply in_seq in Hk. replace (k - i) with (S (k - S i)) by lia. reflexivity. }
    change (seq i (S (length t))) with (i :: seq (S i) (length t)).
    assert (E0 : (nth (i - i) (x :: t) 0 =? c) = (x =? c)) by (rewrite Nat.sub_diag; reflexivity).
    remember (fun k => nth (k - i) (x :: t) 0 =? c) as f eqn:Ef. cbn [filter]. rewrite E.
    replace (f i) with (x =? c) by (rewrite Ef; symmetry; exact E0).
    destruct (Nat.eq_dec x c) as [->|Hne]; [rewrite Nat.eqb_refl; reflexivity|].
    destruct (Nat.eqb_spec x c); [contradiction|reflexivity]. }
  rewrite <- G. apply filter_ext. intros k. rewrite Nat.sub_0_r. reflexivity.
Qed.

Lemma minus_one_pow_add a b : minus_one_pow (a + b) = (minus_one_pow a * minus_one_pow b)%Z.
Proof. unfold minus_one_pow. rewrite Nat.even_add. destruct (Nat.even a), (Nat.even b); reflexivity. Qed.

Definition assemble (gs ps : list (list nat)) (P : list nat) : list nat :=
  fold_left (fun perm ip => assign (fst ip) (snd ip) perm) (combine gs ps) P.
Definition sign_prod (tup : list (list nat * Z)) : Z := fold_right Z.mul 1%Z (map snd tup).

Lemma pws_swaps (g p : list nat) s : NoDup g -> In (p, s) (permutations_with_signs g) -> exists m, swaps m g p /\ s = minus_one_pow m.
Proof.
  intros Hnd H. assert (HP : Permutation g p) by (apply pws_in_fst, in_map_iff; exists (p, s); auto).
  apply perm_swaps in HP as [m Hm]. exists m. split; [exact Hm|]. apply (@pws_sign_swaps _ g p s m Hnd H Hm).
Qed.

Lemma assemble_spec gs tup : NoDup (concat gs) -> Forall2 (fun g q => In q (permutations_with_signs g)) gs tup ->
  forall P, (forall k, In k (concat gs) -> k < length P /\ nth k P 0 = k) ->
  let Q := assemble gs (map fst tup) P in
  length Q = length P /\ map (fun g => pick g Q) gs = map fst tup /\ (forall k, ~ In k (concat gs) -> nth k Q 0 = nth k P 0) /\
  exists m, swaps m P Q /\ sign_prod tup = minus_one_pow m.
Proof.
  intros Hnd H. induction H as [|g q gs tup Hq H IH]; intros P HP Q.
  - repeat split; try reflexivity. exists 0. split; [constructor|reflexivity].
  - cbn [concat] in Hnd, HP. destruct (NoDup_app_inv _ _ Hnd) as (Hg & Hr & Hd). destruct q as [p s].
    assert (Hpl : Permutation g p) by (apply pws_in_fst, in_map_iff; exists (p, s); auto).
    assert (Hlg : forall k, In k g -> k < length P) by (intros k Hk; apply HP, in_or_app; auto).
    destruct (IH Hr (assign g p P)) as (L1 & L2 & L3 & m & L4 & L5).
    { intros k Hk. rewrite assign_length. destruct (HP k) as [H1 H2]; [apply in_or_app; auto|]. split; [exact H1|].
      rewrite assign_out; [exact H2|]. intros Hkg. apply (Hd k Hkg Hk). }
    unfold Q, assemble. cbn [map combine fold_left fst snd]. fold (assemble gs (map fst tup) (assign g p P)).
    split; [rewrite L1; apply assign_length|]. split; [|split].
    + f_equal; [|exact L2]. transitivity (pick g (assign g p P)).
      * apply map_ext_in. intros k Hk. apply L3. intros Hk'. apply (Hd k Hk Hk').
      * apply assign_pick; [exact Hg|exact Hlg|symmetry; apply (Permutation_length Hpl)].
    + intros k Hk. rewrite L3 by (intros Hk'; apply Hk, in_or_app; auto). apply assign_out.
      intros Hk'; apply Hk, in_or_app; auto.
    + destruct (@pws_swaps g p s Hg Hq) as (mg & Hm & ->). exists (mg + m). split.
      * apply swaps_trans with (assign g p P); [|exact L4]. apply (@assign_swaps g Hg mg g p Hm P Hlg).
        transitivity (map (fun k => k) g); [|apply map_id]. apply map_ext_in. intros k Hk. apply HP, in_or_app; auto.
      * rewrite minus_one_pow_add, <- L5. reflexivity.
Qed.

(** Axis permutations preserving the subscript, and the list the code sums over. *)
Definition preserves (s : pystr) (p : list nat) : Prop :=
  Permutation (seq 0 (length s)) p /\ forall k, k < length s -> nth (nth k p 0) s 0 = nth k s 0.
Definition psign (p : list nat) : Z := if par p then (-1)%Z else 1%Z.
Definition perm_sum (s : pystr) : list (list nat * Z) :=
  map (fun tup => (assemble (groups s) (map fst tup) (seq 0 (length s)), sign_prod tup))
    (product (map (@permutations_with_signs nat) (groups s))).

Lemma product_map_in {A B} (f : A -> list B) l t : In t (product (map f l)) <-> Forall2 (fun x y => In y (f x)) l t.
Proof.
  rewrite product_in. revert t; induction l as [|x l IH]; intros t; cbn [map]; split; intros H; inversion H; subst; constructor;
    try assumption; apply IH; assumption.
Qed.

Lemma swaps_psign n p m : swaps m (seq 0 n) p -> minus_one_pow m = psign p.
Proof.
  intros H. apply swaps_par in H; [|apply seq_NoDup]. rewrite par_seq, xorb_false_r in H. unfold psign. rewrite H.
  unfold minus_one_pow. rewrite <- Nat.negb_even. destruct (Nat.even m); reflexivity.
Qed.

Lemma perm_sum_spec s tup : In tup (product (map (@permutations_with_signs nat) (groups s))) ->
  let Q := assemble (groups s) (map fst tup) (seq 0 (length s)) in
  preserves s Q /\ sign_prod tup = psign Q /\ blocks s Q = map fst tup.
Proof.
  intros H. apply product_map_in in H. pose proof (groups_perm s) as HP. pose proof (@perm_seq_nodup _ _ HP) as Hnd.
  destruct (@assemble_spec (groups s) tup Hnd H (seq 0 (length s))) as (L1 & L2 & L3 & m & L4 & L5).
  { intros k Hk. apply (perm_seq_lt _ k HP) in Hk. rewrite seq_length, seq_nth by exact Hk. auto. }
  set (Q := assemble (groups s) (map fst tup) (seq 0 (length s))) in *. split; [|split; [|exact L2]].
  - split; [exact (swaps_perm L4)|]. intros k Hk. destruct (groups_cover s Hk) as (g & Hg & Hkg).
    assert (Hin : In (nth k Q 0) g).
    { assert (Hp : exists q, In q tup /\ pick g Q = fst q /\ In q (permutations_with_signs g)).
      { clear -L2 H Hg. clearbody Q. induction H as [|g' q' gs tup Hq H IH]; [destruct Hg|]. cbn [map] in L2. injection L2 as E1 E2.
        destruct Hg as [->|Hg]; [exists q'; auto using in_eq|]. destruct (IH E2 Hg) as (q & H1 & H2 & H3). exists q; auto using in_cons. }
      destruct Hp as ([p sg] & _ & Ep & Hp). cbn in Ep.
      assert (HPg : Permutation g p) by (apply pws_in_fst, in_map_iff; exists (p, sg); auto).
      apply (Permutation_in _ (Permutation_sym HPg)). rewrite <- Ep. unfold pick. apply in_map_iff. exists k; auto. }
    destruct (groups_in _ _ _ Hg Hkg) as [_ Hiff]. apply Hiff. exact Hin.
  - rewrite L5. apply (@swaps_psign _ _ _ L4).
Qed.

Lemma perm_sum_in s p z : In (p, z) (perm_sum s) <-> preserves s p /\ z = psign p.
Proof.
  unfold perm_sum. rewrite in_map_iff. split.
  - intros (tup & E & H). injection E as <- <-. destruct (@perm_sum_spec _ _ H) as (H1 & H2 & _). auto.
  - intros [[HP Hpr] ->]. pose proof (@perm_seq_length _ _ HP) as HLp.
    assert (Hex : exists tup, Forall2 (fun g q => In q (permutations_with_signs g)) (groups s) tup /\ map fst tup = blocks s p).
    { unfold blocks.
      assert (G : forall gs, (forall g, In g gs -> In g (groups s)) ->
        exists tup, Forall2 (fun g q => In q (permutations_with_signs g)) gs tup /\ map fst tup = map (fun g => pick g p) gs).
      { induction gs as [|g gs IH]; intros Hgs; [exists []; split; [constructor|reflexivity]|].
        destruct IH as (tup & H1 & H2); [intros g' Hg'; apply Hgs; right; exact Hg'|].
        assert (Hg : In g (groups s)) by (apply Hgs; left; reflexivity).
        destruct (groups_sorted _ _ Hg) as [Hso Hne]. pose proof (sorted_lt_nodup Hso) as Hnd.
        assert (Hlt : forall k, In k g -> k < length s) by (intros k Hk; exact (proj1 (groups_in _ _ _ Hg Hk))).
        assert (Pg : Permutation g (pick g p)).
        { symmetry. apply NoDup_Permutation_bis.
          - apply NoDup_map_inj; [exact Hnd|]. intros a b Ha Hb E. apply (proj1 (NoDup_nth p 0) (@perm_seq_nodup _ _ HP)) in E; [exact E|rewrite HLp; auto|rewrite HLp; auto].
          - rewrite pick_length. lia.
          - intros x Hx. unfold pick in Hx. apply in_map_iff in Hx as (k & <- & Hk). destruct (groups_in _ _ _ Hg Hk) as [Hks Hiff].
            apply Hiff. split; [|apply Hpr; exact Hks]. apply (perm_seq_lt _ _ HP). apply nth_In. rewrite HLp. exact Hks. }
        apply pws_in_fst in Pg. apply in_map_iff in Pg as ([p' z'] & Ep & Hin). cbn in Ep. subst p'.
        exists ((pick g p, z') :: tup). split; [constructor; [exact Hin|exact H1]|]. cbn [map fst]. rewrite H2. reflexivity. }
      apply G. auto. }
    destruct Hex as (tup & H1 & H2). apply product_map_in in H1. destruct (@perm_sum_spec _ _ H1) as ([HPQ HQ] & Hs & Hb).
    exists tup. split; [|exact H1].
    assert (EQ : assemble (groups s) (map fst tup) (seq 0 (length s)) = p).
    { apply (@blocks_eq s); [apply (@perm_seq_length _ _ HPQ)|exact HLp|congruence]. }
    rewrite EQ in *. congruence.
Qed.

Lemma perm_sum_nodup s : NoDup (map fst (perm_sum s)).
Proof.
  unfold perm_sum. rewrite map_map. cbn [fst].
  assert (Hg : Forall (fun l => NoDup (map fst l)) (map (@permutations_with_signs nat) (groups s))).
  { apply Forall_map, Forall_forall. intros g Hg. apply pws_nodup. destruct (groups_sorted _ _ Hg) as [Hso _]. apply sorted_lt_nodup. exact Hso. }
  apply NoDup_map_inj.
  - apply product_nodup. apply Forall_map, Forall_forall. intros g Hin. rewrite Forall_map, Forall_forall in Hg.
    apply NoDup_map_inv with (f := fst), Hg, Hin.
  - intros t1 t2 H1 H2 E. destruct (@perm_sum_spec _ _ H1) as (_ & _ & B1). destruct (@perm_sum_spec _ _ H2) as (_ & _ & B2).
    rewrite E in B1. assert (Ef : map fst t1 = map fst t2) by congruence.
    apply product_map_in in H1, H2. rewrite Forall_map, Forall_forall in Hg. clear -H1 H2 Ef Hg.
    revert t2 H2 Ef. induction H1 as [|g q gs t1 Hq H1 IH]; intros t2 H2 Ef; inversion H2 as [|? q2 ? t2' Hq2 H2']; subst; [reflexivity|].
    cbn [map] in Ef. injection Ef as E1 E2. f_equal.
    + assert (Hn := Hg g (or_introl eq_refl)). clear -Hq Hq2 E1 Hn.
      apply In_nth_error in Hq as [a Ha]. apply In_nth_error in Hq2 as [b Hb].
      assert (a = b); [|congruence]. apply (proj1 (NoDup_nth_error _) Hn); [rewrite map_length; apply nth_error_Some; congruence|].
      rewrite !nth_error_map, Ha, Hb. cbn. congruence.
    + apply IH; [intros g' Hg'; apply Hg; right; exact Hg'|exact H2'|exact E2].
Qed.

Lemma perm_sum_length s : length (perm_sum s) = stabiliser_size s.
Proof.
  unfold perm_sum. rewrite map_length, product_length. unfold stabiliser_size, multiplicities, groups. rewrite !map_map.
  induction (dedup s) as [|c l IH]; [reflexivity|]. cbn [map fold_right]. rewrite <- IH. f_equal.
  rewrite pws_length, occ_length. reflexivity.
Qed.

Lemma swap_par p i j : NoDup p -> i < length p -> j < length p -> i <> j -> par (exchange i j p) = negb (par p).
Proof.
  intros Hnd Hi Hj Hij. rewrite exchange_swap_at by assumption.
  pose proof (@swaps_swap_at 0 p p i j (swaps_none p) Hi Hj Hij) as H. apply swaps_par in H; [|exact Hnd]. exact H.
Qed.

Lemma preserves_exchange s p i j : i < length s -> j < length s -> nth i s 0 = nth j s 0 -> preserves s p -> preserves s (exchange i j p).
Proof.
  intros Hi Hj E [HP H]. pose proof (@perm_seq_length _ _ HP) as HL. split.
  - rewrite exchange_swap_at by lia. transitivity p; [exact HP|]. apply swap_at_perm; lia.
  - intros k Hk. rewrite exchange_nth by lia. rewrite H.
    + destruct (Nat.eqb_spec k i) as [->|]; [symmetry; exact E|]. destruct (Nat.eqb_spec k j) as [->|]; [exact E|reflexivity].
    + destruct (k =? i); [exact Hj|]. destruct (k =? j); [exact Hi|exact Hk].
Qed.

Lemma perm_sum_exchange s i j : i < length s -> j < length s -> i <> j -> nth i s 0 = nth j s 0 ->
  Permutation (perm_sum s) (map (fun q => (exchange i j (fst q), (- snd q)%Z)) (perm_sum s)).
Proof.
  intros Hi Hj Hij E. pose proof (@perm_sum_nodup s) as Hnd. pose proof (NoDup_map_inv _ _ Hnd) as Hnd'.
  assert (Hsg : forall p, preserves s p -> psign (exchange i j p) = (- psign p)%Z).
  { intros p [HP _]. pose proof (@perm_seq_length _ _ HP) as HL. unfold psign.
    rewrite swap_par; [|apply (@perm_seq_nodup _ _ HP)|lia|lia|exact Hij]. destruct (par p); reflexivity. }
  apply NoDup_Permutation; [exact Hnd'| |].
  - apply NoDup_map_inj; [exact Hnd'|]. intros [p z] [p' z'] H1 H2 Eq. cbn [fst snd] in Eq. injection Eq as E1 E2.
    apply perm_sum_in in H1 as [[P1 _] _], H2 as [[P2 _] _]. pose proof (@perm_seq_length _ _ P1) as HL1. pose proof (@perm_seq_length _ _ P2) as HL2.
    f_equal; [|lia]. rewrite <- (@exchange_invol i j p), <- (@exchange_invol i j p'), E1 by lia. reflexivity.
  - intros [p z]. rewrite perm_sum_in, in_map_iff. split.
    + intros [Hp ->]. exists (exchange i j p, (- psign p)%Z). pose proof (@preserves_exchange s p i j Hi Hj E Hp) as Hp'. cbn [fst snd].
      destruct Hp as [P1 P2]. pose proof (@perm_seq_length _ _ P1) as HL1. split.
      * rewrite exchange_invol by lia. f_equal. lia.
      * apply perm_sum_in. split; [exact Hp'|]. rewrite Hsg by (split; assumption). reflexivity.
    + intros ([p' z'] & Eq & Hin). apply perm_sum_in in Hin as [Hp' ->]. cbn [fst snd] in Eq. injection Eq as <- <-.
      split; [apply preserves_exchange; assumption|]. rewrite Hsg by exact Hp'. reflexivity.
Qed.

Lemma unperm_exchange p i j idx : Permutation (seq 0 (length p)) p -> length idx = length p -> i < length p -> j < length p ->
  unperm p (exchange i j idx) = unperm (exchange i j p) idx.
Proof.
  intros HP HL Hi Hj.
  assert (HP' : Permutation (seq 0 (length (exchange i j p))) (exchange i j p)).
  { rewrite exchange_length. rewrite exchange_swap_at by assumption. transitivity p; [exact HP|]. apply swap_at_perm; assumption. }
  rewrite <- (@unperm_gather (exchange i j p) (unperm p (exchange i j idx))); [|exact HP'|rewrite unperm_length, exchange_length; reflexivity].
  f_equal. apply nth_ext with (d := 0) (d' := 0); [rewrite map_length, exchange_length; congruence|].
  intros k Hk. rewrite map_length, exchange_length in Hk.
  rewrite (nth_map_lt _ _ 0 0) by (rewrite exchange_length; exact Hk). rewrite exchange_nth by exact Hk.
  assert (Hs : (if k =? i then j else if k =? j then i else k) < length p) by (destruct (k =? i); [exact Hj|]; destruct (k =? j); assumption).
  rewrite unperm_nth by assumption. rewrite exchange_nth by lia. f_equal.
  destruct (Nat.eqb_spec k i) as [->|]; [|destruct (Nat.eqb_spec k j) as [->|]].
  - destruct (Nat.eqb_spec j i); [assumption|]. rewrite Nat.eqb_refl. reflexivity.
  - rewrite Nat.eqb_refl. reflexivity.
  - destruct (Nat.eqb_spec k i); [contradiction|]. destruct (Nat.eqb_spec k j); [contradiction|reflexivity].
Qed.

Lemma preserves_shape s shape p : extents_ok s shape -> preserves s p -> map (fun k => nth k shape 0) p = shape.
Proof.
  intros [HL He] [HP H]. pose proof (@perm_seq_length _ _ HP) as HLp.
  apply nth_ext with (d := 0) (d' := 0); [rewrite map_length; congruence|]. intros k Hk. rewrite map_length in Hk.
  rewrite (nth_map_lt _ _ 0 0) by exact Hk. apply He; [|lia|apply H; lia]. apply (perm_seq_lt _ _ HP), nth_In. exact Hk.
Qed.

Section Symm.
  Variable K : rng.
  Add Ring KringS : (rth K).
  Local Open Scope rng_scope.

  Lemma arr_scale_wf c (a : arr K) : wf a -> wf (arr_scale K c a).
  Proof. unfold wf, arr_scale. cbn. rewrite map_length. auto. Qed.
  Lemma aget_scale c (a : arr K) idx : aget r0 (arr_scale K c a) idx = aget r0 a idx * c.
  Proof.
    unfold aget, arr_scale. cbn [shp dat]. generalize (ravel (shp a) idx). intros k.
    transitivity (nth k (map (fun x => x * c) (dat a)) (0 * c)); [f_equal; ring|]. apply (map_nth (fun x => x * c)).
  Qed.
  Lemma arr_add_wf (a b : arr K) : wf a -> wf b -> shp a = shp b -> wf (arr_add K a b).
  Proof. unfold wf, arr_add. cbn. intros Ha Hb E. rewrite map_length, combine_length, Ha, Hb, E. apply Nat.min_id. Qed.
  Lemma aget_add (a b : arr K) idx : wf a -> wf b -> shp a = shp b -> aget r0 (arr_add K a b) idx = aget r0 a idx + aget r0 b idx.
  Proof.
    unfold wf, aget, arr_add. cbn [shp dat]. intros Ha Hb E. rewrite <- E. generalize (ravel (shp a) idx). intros k.
    assert (HL : length (dat a) = length (dat b)) by congruence.
    set (h := fun p : K * K => fst p + snd p).
    transitivity (nth k (map h (combine (dat a) (dat b))) (h (0, 0))); [f_equal; unfold h; cbn; ring|].
    rewrite map_nth, combine_nth by exact HL. reflexivity.
  Qed.

  Definition chosen (ch : nat) (z : Z) : Z := if (ch =? ch_minus)%nat then z else 1%Z.
  Definition sterm (ch : nat) (a : arr K) (idx : list nat) (q : list nat * Z) : K :=
    aget r0 a (unperm (fst q) idx) * sgn K (chosen ch (snd q)).

  Lemma symm_fold s symm ch (a : arr K) L : extents_ok s (shp a) -> 1 <= length s ->
    (forall k, k < length s -> nth k s 0%nat = nth 0 s 0%nat -> nth_error symm k = Some ch) ->
    (forall tup, In tup L -> In tup (product (map (@permutations_with_signs nat) (groups s)))) ->
    forall acc, wf acc -> shp acc = shp a ->
    exists r, foldM (symmetrise_term K (ren s) symm (groups s) a) L acc = Ok r /\ wf r /\ shp r = shp a /\
      forall idx, inb (shp a) idx -> aget r0 r idx = aget r0 acc idx +
        rsum (map (sterm ch a idx) (map (fun tup => (assemble (groups s) (map fst tup) (seq 0 (length s)), sign_prod tup)) L)).
  Proof.
    intros Hext Hne Hsymm. induction L as [|tup L IH]; intros HL acc Hw Hs.
    - exists acc. split; [reflexivity|]. split; [exact Hw|]. split; [exact Hs|]. intros idx _. cbn [map]. change (rsum (K:=K) []) with (@r0 K). ring.
    - destruct (@perm_sum_spec s tup (HL tup (or_introl eq_refl))) as (Hpr & _ & _).
      set (Q := assemble (groups s) (map fst tup) (seq 0 (length s))) in *.
      pose proof Hpr as [HP Hch]. pose proof (@perm_seq_length _ _ HP) as HLQ.
      assert (Ht : transpose r0 a Q = Ok (tab (shp a) (fun idx => aget r0 a (unperm Q idx)))).
      { rewrite transpose_ok by (destruct Hext as [-> _]; exact HP). rewrite (preserves_shape Hext Hpr). reflexivity. }
      assert (Hstep : symmetrise_term K (ren s) symm (groups s) a acc tup =
        Ok (arr_add K acc (arr_scale K (sgn K (chosen ch (sign_prod tup))) (tab (shp a) (fun idx => aget r0 a (unperm Q idx)))))).
      { unfold symmetrise_term. rewrite ren_length.
        change (assemble_perm (length s) (groups s) (map fst tup)) with Q.
        assert (Hp0 : nth_error symm (nth 0 Q 0%nat) = Some ch).
        { apply Hsymm; [apply (perm_seq_lt _ _ HP), nth_In; lia|]. apply Hch. lia. }
        destruct Q as [|p0 Q']; [cbn in HLQ; lia|]. cbn [nth] in Hp0. rewrite Hp0, Ht. cbn [bind].
        unfold arr_addM. cbn [shp arr_scale tab]. destruct (list_eq_dec Nat.eq_dec (shp acc) (shp a)); [|contradiction]. reflexivity. }
      match type of Hstep with _ = Ok ?x => set (acc' := x) in * end.
      assert (Hw' : wf acc') by (apply arr_add_wf; [exact Hw|apply arr_scale_wf, tab_wf|exact Hs]).
      destruct (IH ltac:(intros t Ht'; apply HL; right; exact Ht') acc' Hw' Hs) as (r & H1 & H2 & H3 & H4).
      exists r. cbn [foldM]. rewrite Hstep. cbn [bind]. split; [exact H1|]. split; [exact H2|]. split; [exact H3|].
      intros idx Hi. rewrite (H4 idx Hi). cbn [map]. rewrite rsum_cons. unfold acc'.
      rewrite aget_add by (try exact Hw; try apply arr_scale_wf, tab_wf; exact Hs).
      rewrite aget_scale, aget_tab by exact Hi. unfold sterm at 2. cbn [fst snd]. fold Q. ring.
  Qed.

  (** What symmetrise computes. *)
  Lemma symmetrise_char (factor : option (nat -> K)) s (a : arr K) symmetry symc ch :
    wf a -> extents_ok s (shp a) -> 1 <= length s ->
    symmetry_compress (map (@length nat) (groups s)) (the_symm s symmetry) 0 = Ok symc ->
    (forall k, k < length s -> nth k s 0%nat = nth 0 s 0%nat -> nth_error (the_symm s symmetry) k = Some ch) ->
    exists r, symmetrise K factor s a symmetry = Ok r /\ wf r /\ shp r = shp a /\
      forall idx, inb (shp a) idx -> aget r0 r idx = rsum (map (sterm ch a idx) (perm_sum s)) *
        match factor with None => 1 | Some f => f (symmetry_exponent (map (@length nat) (groups s))) end.
  Proof.
    intros Hw Hext Hne Hsymc Hch.
    assert (Hcounts : map (count (ren s)) (sorted_set (ren s)) = map (@length nat) (groups s)).
    { rewrite <- ren_groups, map_map. apply map_ext. intros c. unfold count. symmetry. apply occ_length. }
    assert (Hlen : length symc = length (sorted_set (ren s))).
    { apply symmetry_compress_length in Hsymc. rewrite map_length in Hsymc. rewrite Hsymc, <- ren_groups, map_length. reflexivity. }
    assert (Hinds : map (fun cs => group_positions (ren s) (fst cs)) (combine (sorted_set (ren s)) symc) = groups s).
    { rewrite <- ren_groups.
      assert (Ef : map fst (combine (sorted_set (ren s)) symc) = sorted_set (ren s)).
      { clear -Hlen. revert symc Hlen. induction (sorted_set (ren s)) as [|c l IH]; intros [|y symc] Hlen; cbn in *; try discriminate; [reflexivity|].
        f_equal. apply IH. lia. }
      rewrite <- Ef at 2. rewrite map_map. apply map_ext. intros [c y]. cbn [fst]. apply group_positions_occ. }
    assert (Hsymm : match symmetry with None => repeat ch_minus (length (ren s)) | Some y => y end = the_symm s symmetry).
    { destruct symmetry; [reflexivity|]. unfold the_symm. rewrite ren_length. reflexivity. }
    destruct (@symm_fold s (the_symm s symmetry) ch a (product (map (@permutations_with_signs nat) (groups s))) Hext Hne Hch ltac:(auto)
      (full (shp a) r0) (full_wf _ _) eq_refl) as (r & H1 & H2 & H3 & H4).
    unfold symmetrise. rewrite rename_ok. cbn [bind]. fold (ren s). rewrite Hsymm, Hcounts, Hsymc. cbn [bind].
    rewrite Hinds, H1. cbn [bind]. destruct factor as [f|].
    - exists (arr_scale K (f (symmetry_exponent (map (@length nat) (groups s)))) r). split; [reflexivity|].
      split; [apply arr_scale_wf; exact H2|]. split; [exact H3|]. intros idx Hi. rewrite aget_scale, (H4 idx Hi), aget_full. fold (perm_sum s). ring.
    - exists r. split; [reflexivity|]. split; [exact H2|]. split; [exact H3|]. intros idx Hi. rewrite (H4 idx Hi), aget_full. fold (perm_sum s). ring.
  Qed.

  Lemma sgn_chosen_opp ch z : (z = 1 \/ z = -1)%Z ->
    sgn K (chosen ch (- z)) = if (ch =? ch_minus)%nat then - sgn K (chosen ch z) else sgn K (chosen ch z).
  Proof. intros Hz. unfold chosen. destruct (ch =? ch_minus)%nat; [apply sgn_opp; exact Hz|reflexivity]. Qed.

  Lemma psign_pm p : (psign p = 1 \/ psign p = -1)%Z.
  Proof. unfold psign. destruct (par p); auto. Qed.

  Lemma sum_exchange s (a : arr K) ch idx i j : extents_ok s (shp a) -> inb (shp a) idx -> i < length s -> j < length s -> i <> j -> nth i s 0%nat = nth j s 0%nat ->
    rsum (map (sterm ch a (exchange i j idx)) (perm_sum s)) =
    if (ch =? ch_minus)%nat then - rsum (map (sterm ch a idx) (perm_sum s)) else rsum (map (sterm ch a idx) (perm_sum s)).
  Proof.
    intros Hext Hidx Hi Hj Hij E. pose proof (inb_length Hidx) as HLi. destruct Hext as [HLs _].
    rewrite (@rsum_perm K _ _ (Permutation_map (sterm ch a idx) (@perm_sum_exchange s i j Hi Hj Hij E))), map_map.
    assert (G : forall q, In q (perm_sum s) -> sterm ch a idx (exchange i j (fst q), (- snd q)%Z) =
      if (ch =? ch_minus)%nat then - sterm ch a (exchange i j idx) q else sterm ch a (exchange i j idx) q).
    { intros [p z] Hq. apply perm_sum_in in Hq as [[HP Hpr] ->]. pose proof (@perm_seq_length _ _ HP) as HLp. unfold sterm. cbn [fst snd].
      rewrite <- unperm_exchange by (rewrite ?HLp; try exact HP; lia). rewrite sgn_chosen_opp by apply psign_pm.
      destruct (ch =? ch_minus)%nat; ring. }
    rewrite (@rsum_map_ext K _ _ _ _ G). destruct (ch =? ch_minus)%nat; [|reflexivity].
    rewrite rsum_map_opp. ring.
  Qed.

  Lemma symmetrise_symmetric factor s (a : arr K) symmetry symc ch r :
    wf a -> extents_ok s (shp a) -> 1 <= length s ->
    symmetry_compress (map (@length nat) (groups s)) (the_symm s symmetry) 0 = Ok symc ->
    (forall k, k < length s -> nth k s 0%nat = nth 0 s 0%nat -> nth_error (the_symm s symmetry) k = Some ch) ->
    symmetrise K factor s a symmetry = Ok r -> shp r = shp a /\ symmetric_as (fun _ => ch =? ch_minus)%nat s r.
  Proof.
    intros Hw Hext Hne Hsymc Hch Hr. destruct (@symmetrise_char factor s a symmetry symc ch Hw Hext Hne Hsymc Hch) as (r' & E & Hw' & Hs & Hv).
    rewrite Hr in E. injection E as <-. split; [exact Hs|]. intros idx i j Hidx Hi Hj Hij Eij. rewrite Hs in Hidx.
    rewrite !Hv by (try apply (@exchange_inb s); assumption). rewrite (@sum_exchange s a ch idx i j Hext Hidx Hi Hj Hij Eij).
    destruct (ch =? ch_minus)%nat; ring.
  Qed.

  (** Values of a symmetric array at permuted indices. *)
  Lemma symmetric_perm s (a : arr K) (minus : bool) : extents_ok s (shp a) -> symmetric_as (fun _ => minus) s a ->
    forall p, preserves s p -> forall idx, inb (shp a) idx -> aget r0 a (unperm p idx) = aget r0 a idx * sgn K (if minus then psign p else 1%Z).
  Proof.
    intros Hext Hsym p Hp idx Hidx.
    assert (HL : length idx = length s) by (rewrite (inb_length Hidx); apply Hext).
    (* group by group, p is reached by swaps inside groups *)
    assert (Hin : In (p, psign p) (perm_sum s)) by (apply perm_sum_in; auto).
    unfold perm_sum in Hin. apply in_map_iff in Hin as (tup & E & Htup). injection E as Ep Es.
    apply product_map_in in Htup. pose proof (groups_perm s) as HP. pose proof (@perm_seq_nodup _ _ HP) as Hnd.
    assert (G : forall gs tup, Forall2 (fun g q => In q (permutations_with_signs g)) gs tup -> (forall g, In g gs -> In g (groups s)) -> NoDup (concat gs) ->
      forall P, preserves s P -> (forall k, In k (concat gs) -> nth k P 0%nat = k) ->
      preserves s (assemble gs (map fst tup) P) /\
      aget r0 a (unperm (assemble gs (map fst tup) P) idx) = aget r0 a (unperm P idx) * sgn K (if minus then sign_prod tup else 1%Z)).
    { clear Hp Htup Ep Es tup p. intros gs tup H. induction H as [|g q gs tup Hq H IH]; intros Hgs Hnd' P HPp Hid.
      - split; [exact HPp|]. unfold assemble, sign_prod. cbn [map combine fold_left fold_right].
        destruct minus; rewrite sgn_one; reflexivity.
      - destruct q as [pg sg]. cbn [concat] in Hnd', Hid. destruct (NoDup_app_inv _ _ Hnd') as (Hg & Hr & Hd).
        assert (Hgin : In g (groups s)) by (apply Hgs; left; reflexivity).
        assert (Hltg : forall k, In k g -> k < length s) by (intros k Hk; exact (proj1 (groups_in _ _ _ Hgin Hk))).
        destruct (@pws_swaps g pg sg Hg Hq) as (m & Hm & ->).
        (* one group *)
        assert (Hone : preserves s (assign g pg P) /\ aget r0 a (unperm (assign g pg P) idx) = aget r0 a (unperm P idx) * sgn K (if minus then minus_one_pow m else 1%Z)).
        { clear IH Hq H. assert (Epk : pick g P = g).
          { transitivity (map (fun k => k) g); [|apply map_id]. apply map_ext_in. intros k Hk. apply Hid, in_or_app; auto. }
          assert (HLP : length P = length s) by (apply (@perm_seq_length _ _ (proj1 HPp))).
          assert (HltP : forall k, In k g -> k < length P) by (intros k Hk; rewrite HLP; auto).
          remember g as g0 eqn:Eg0 in Hm. symmetry in Epk. rewrite Eg0 in Hm. clear Eg0 g0.
          assert (Gs : forall m u v, swaps m u v -> u = g -> preserves s (assign g v P) /\
             aget r0 a (unperm (assign g v P) idx) = aget r0 a (unperm P idx) * sgn K (if minus then minus_one_pow m else 1%Z)).
          { clear m Hm. induction 1 as [u|m u l1 x mm y l2 Hsw IHs]; intros Eu.
            - subst u. rewrite Epk at 2 4. rewrite <- (@assign_unique g P P Hg HltP eq_refl) by reflexivity. split; [exact HPp|].
              destruct minus; [change (minus_one_pow 0) with 1%Z|]; rewrite sgn_one; reflexivity.
            - destruct (IHs Eu) as [I1 I2]. set (v' := l1 ++ x :: mm ++ y :: l2) in *.
              pose proof (@assign_swaps g Hg m u v' Hsw P HltP ltac:(congruence)) as Hsw'.
              set (Q := assign g v' P) in *. set (ia := length l1). set (ib := (length l1 + 1 + length mm)%nat).
              assert (Hu : length v' = length g) by (apply swaps_perm in Hsw; rewrite <- (Permutation_length Hsw), Eu; reflexivity).
              assert (Hgl : length g = (length l1 + S (length mm + S (length l2)))%nat).
              { rewrite <- Hu. unfold v'. rewrite app_length. cbn [length]. rewrite app_length. reflexivity. }
              assert (Ha : ia < length g) by (unfold ia; lia). assert (Hb : ib < length g) by (unfold ib; lia).
              assert (HQ : length Q = length P) by apply assign_length.
              assert (Hia : In (nth ia g 0%nat) g) by (apply nth_In; exact Ha).
              assert (Hib : In (nth ib g 0%nat) g) by (apply nth_In; exact Hb).
              assert (Hne : nth ia g 0%nat <> nth ib g 0%nat).
              { intros Eab. apply (proj1 (NoDup_nth g 0%nat) Hg) in Eab; [unfold ia, ib in Eab; lia|exact Ha|exact Hb]. }
              assert (EQ : assign g (l1 ++ y :: mm ++ x :: l2) P = exchange (nth ia g 0%nat) (nth ib g 0%nat) Q).
              { symmetry. rewrite (@assign_unique g P (exchange (nth ia g 0%nat) (nth ib g 0%nat) Q)).
                + f_equal. rewrite pick_exchange_in; [|exact Hg|intros k Hk; rewrite HQ; auto|exact Ha|exact Hb].
                  assert (Ep : pick g Q = v') by (apply assign_pick; assumption). rewrite Ep.
                  apply swap_at_split; [unfold ia, ib; lia|rewrite Hu; exact Hb|reflexivity|reflexivity|reflexivity].
                + exact Hg.
                + exact HltP.
                + rewrite exchange_length. exact HQ.
                + intros k Hk. rewrite <- (@assign_out g v' P k Hk). fold Q. destruct (Nat.lt_ge_cases k (length Q)) as [Hkl|Hkl].
                  * rewrite exchange_nth by exact Hkl. destruct (Nat.eqb_spec k (nth ia g 0%nat)) as [->|]; [exfalso; apply Hk, Hia|].
                    destruct (Nat.eqb_spec k (nth ib g 0%nat)) as [->|]; [exfalso; apply Hk, Hib|reflexivity].
                  * rewrite !nth_overflow; [reflexivity|exact Hkl|rewrite exchange_length; exact Hkl]. }
              destruct (groups_in _ _ _ Hgin Hia) as [Hial Hiff]. destruct (proj1 (Hiff _) Hib) as [Hibl Echar].
              set (i := nth ia g 0%nat) in *. set (j := nth ib g 0%nat) in *.
              (* swapping values at positions i, j of Q = swapping the axes Q i, Q j of the index *)
              rewrite EQ. split; [apply preserves_exchange; auto|].
              destruct I1 as [HPQ HchQ]. pose proof (@perm_seq_length _ _ HPQ) as HLQ.
              assert (Eun : unperm (exchange i j Q) idx = exchange (nth i Q 0%nat) (nth j Q 0%nat) (unperm Q idx)).
              { assert (HPX : Permutation (seq 0 (length (exchange i j Q))) (exchange i j Q)).
                { rewrite exchange_length, HLQ, exchange_swap_at by lia. transitivity Q; [exact HPQ|]. apply swap_at_perm; lia. }
                rewrite <- (@unperm_gather (exchange i j Q) (exchange (nth i Q 0%nat) (nth j Q 0%nat) (unperm Q idx)));
                  [|exact HPX|rewrite !exchange_length, unperm_length; reflexivity].
                f_equal. apply nth_ext with (d := 0%nat) (d' := 0%nat); [rewrite map_length, exchange_length; congruence|].
                intros k Hk. rewrite HL in Hk. rewrite (nth_map_lt _ _ 0%nat 0%nat) by (rewrite exchange_length; lia).
                assert (HndQ : NoDup Q) by apply (@perm_seq_nodup _ _ HPQ).
                rewrite (@exchange_nth i j Q k) by lia.
                set (k' := if (k =? i)%nat then j else if (k =? j)%nat then i else k).
                assert (Hk' : k' < length Q) by (unfold k'; destruct (k =? i)%nat; [lia|]; destruct (k =? j)%nat; lia).
                rewrite exchange_nth by (rewrite unperm_length, HLQ; apply (perm_seq_lt _ _ HPQ), nth_In; exact Hk').
                assert (EqQ : forall u v, u < length Q -> v < length Q -> (nth u Q 0%nat =? nth v Q 0%nat)%nat = (u =? v)%nat).
                { intros u0 v0 Hu0 Hv0. destruct (Nat.eqb_spec u0 v0) as [->|Hnuv]; [apply Nat.eqb_refl|]. apply Nat.eqb_neq. intros Eq.
                  apply Hnuv. apply (proj1 (NoDup_nth Q 0%nat) HndQ); assumption. }
                rewrite !EqQ by lia. symmetry.
                assert (Hun : forall u, u < length Q -> nth (nth u Q 0%nat) (unperm Q idx) 0%nat = nth u idx 0%nat).
                { intros u0 Hu0. apply unperm_nth; [rewrite HLQ; exact HPQ|exact Hu0]. }
                unfold k' in *. destruct (Nat.eqb_spec k i) as [->|Hki]; [|destruct (Nat.eqb_spec k j) as [->|Hkj]].
                - destruct (Nat.eqb_spec j i); [congruence|]. rewrite Nat.eqb_refl. rewrite Hun by lia. reflexivity.
                - rewrite Nat.eqb_refl. rewrite Hun by lia. reflexivity.
                - destruct (Nat.eqb_spec k i); [contradiction|]. destruct (Nat.eqb_spec k j); [contradiction|]. rewrite Hun by lia. reflexivity. }
              rewrite Eun. rewrite Hsym.
              + rewrite I2. destruct minus; [|reflexivity]. rewrite sgn_m1. ring.
              + apply unperm_inb; [destruct Hext as [-> _]; exact HPQ|].
                rewrite (@preserves_shape s (shp a) Q Hext ltac:(split; assumption)). exact Hidx.
              + apply (perm_seq_lt _ _ HPQ), nth_In. lia.
              + apply (perm_seq_lt _ _ HPQ), nth_In. lia.
              + intros Eq. apply (proj1 (NoDup_nth Q 0%nat) (@perm_seq_nodup _ _ HPQ)) in Eq; [contradiction|lia|lia].
              + rewrite !HchQ by lia. auto. }
          apply (Gs m g pg Hm eq_refl). }
        destruct Hone as [O1 O2]. unfold assemble. cbn [map combine fold_left fst snd]. fold (assemble gs (map fst tup) (assign g pg P)).
        destruct (IH ltac:(intros g' Hg'; apply Hgs; right; exact Hg') Hr (assign g pg P) O1) as [I1 I2].
        { intros k Hk. rewrite assign_out by (intros Hk'; apply (Hd k Hk' Hk)). apply Hid, in_or_app; auto. }
        split; [exact I1|]. rewrite I2, O2. unfold sign_prod. cbn [map fold_right snd]. fold (sign_prod tup).
        destruct minus; [|change (sgn K 1) with (1 + 0 : K); ring].
        rewrite sgn_mul; [ring| |].
        + unfold minus_one_pow. destruct (Nat.even m); auto.
        + assert (Hpm : Forall2 (fun g q => In q (permutations_with_signs g)) gs tup) by exact H.
          clear -Hpm Hgs. induction Hpm as [|g' q gs tup Hq H IH]; [left; reflexivity|]. unfold sign_prod in *. cbn [map fold_right].
          destruct q as [pq zq]. destruct (@pws_swaps g' pq zq) as (mq & _ & ->); [|exact Hq|].
          { destruct (groups_sorted _ _ (Hgs g' (or_intror (or_introl eq_refl)))) as [Hso _]. apply sorted_lt_nodup. exact Hso. }
          cbn [snd]. assert (Hgs' : forall g0, In g0 (g :: gs) -> In g0 (groups s)) by (intros g0 [->|Hg0]; apply Hgs; cbn; auto).
          unfold minus_one_pow. destruct (Nat.even mq); destruct (IH Hgs') as [->| ->]; auto. }
    destruct (G (groups s) tup Htup ltac:(auto) Hnd (seq 0 (length s))) as [_ E].
    - split; [reflexivity|]. intros k Hk. rewrite seq_nth by exact Hk. reflexivity.
    - intros k Hk. apply (perm_seq_lt _ _ HP) in Hk. rewrite seq_nth by exact Hk. reflexivity.
    - rewrite Ep, Es in E. rewrite E. f_equal. f_equal.
      rewrite <- (@unperm_gather (seq 0 (length s)) idx) at 2; [|rewrite seq_length; reflexivity|rewrite seq_length; exact HL].
      f_equal. rewrite <- HL. symmetry. apply map_nth_seq.
  Qed.

  Lemma sum_symmetric s (a : arr K) ch idx : extents_ok s (shp a) -> symmetric_as (fun _ => ch =? ch_minus)%nat s a -> inb (shp a) idx ->
    rsum (map (sterm ch a idx) (perm_sum s)) = rnat (stabiliser_size s) * aget r0 a idx.
  Proof.
    intros Hext Hsym Hidx. rewrite <- perm_sum_length, <- rsum_const. apply rsum_map_ext. intros [p z] Hq.
    apply perm_sum_in in Hq as [Hp ->]. unfold sterm. cbn [fst snd]. rewrite (@symmetric_perm s a _ Hext Hsym p Hp idx Hidx). unfold chosen.
    assert (E1 : sgn K 1 = 1 + 0) by reflexivity. assert (E2 : sgn K (-1) = - (1 + 0)) by reflexivity.
    destruct (ch =? ch_minus)%nat; [|rewrite E1; ring]. destruct (psign_pm p) as [->| ->]; rewrite ?E1, ?E2; ring.
  Qed.

  (** Exact scaling of an array that already has the symmetry. *)
  Lemma symmetrise_scales factor s (a : arr K) symmetry symc ch :
    wf a -> extents_ok s (shp a) -> 1 <= length s ->
    symmetry_compress (map (@length nat) (groups s)) (the_symm s symmetry) 0 = Ok symc ->
    (forall k, k < length s -> nth k s 0%nat = nth 0 s 0%nat -> nth_error (the_symm s symmetry) k = Some ch) ->
    symmetric_as (fun _ => ch =? ch_minus)%nat s a ->
    symmetrise K factor s a symmetry = Ok (arr_scale K (rnat (stabiliser_size s) *
        match factor with None => 1 | Some f => f (symmetry_exponent (map (@length nat) (groups s))) end) a).
  Proof.
    intros Hw Hext Hne Hsymc Hch Hsym. destruct (@symmetrise_char factor s a symmetry symc ch Hw Hext Hne Hsymc Hch) as (r & E & Hwr & Hs & Hv).
    rewrite E. f_equal. apply (@arr_ext K r0); [exact Hwr|apply arr_scale_wf; exact Hw|exact Hs|].
    intros idx Hidx. rewrite Hs in Hidx. rewrite (Hv idx Hidx), aget_scale, (@sum_symmetric s a ch idx Hext Hsym Hidx). ring.
  Qed.
End Symm.
