(** decompress after compress; compressed sizes; symmetry strings. *)
From Verif Require Import Base ListAux Alg PermSpec PermModel PermSign PermProofs TrilProofs SpinProofs StringPermProofs
  ArrModel ArrProofs TensorModel TensorSpec GroupProofs PackProofs TensorProofs UnpackProofs.
From Coq Require Import Sorted.
Set Implicit Arguments.

Lemma minus_one_pow_S k : minus_one_pow (S k) = (- minus_one_pow k)%Z.
Proof. unfold minus_one_pow. rewrite Nat.even_succ, <- Nat.negb_even. destruct (Nat.even k); reflexivity. Qed.

Lemma not_nodup_ex (l : list nat) : ~ NoDup l -> exists a b, a < b /\ b < length l /\ nth a l 0 = nth b l 0.
Proof.
  induction l as [|x l IH]; intros H; [exfalso; apply H; constructor|].
  destruct (in_dec Nat.eq_dec x l) as [Hin|Hin].
  - apply (In_nth _ _ 0) in Hin as (b & Hb & E). exists 0, (S b). cbn. repeat split; [lia|lia|congruence].
  - destruct IH as (a & b & H1 & H2 & H3); [intros Hnd; apply H; constructor; assumption|].
    exists (S a), (S b). cbn. repeat split; [lia|lia|exact H3].
Qed.

Lemma blocks_eq s idx idx' : length idx = length s -> length idx' = length s -> blocks s idx = blocks s idx' -> idx = idx'.
Proof.
  intros H1 H2 E. pose proof (groups_perm s) as HP. pose proof (@perm_seq_length _ _ HP) as HLc.
  assert (Ep : pick (concat (groups s)) idx = pick (concat (groups s)) idx') by (rewrite <- !blocks_concat, E; reflexivity).
  rewrite <- (@unperm_gather (concat (groups s)) idx), <- (@unperm_gather (concat (groups s)) idx'); try (rewrite HLc; assumption).
  unfold pick in Ep. rewrite Ep. reflexivity.
Qed.

Section Repack.
  Variable K : rng.
  Add Ring Kring : (rth K).
  Local Open Scope rng_scope.
  Variables (f : list nat -> K) (P : list nat -> Prop).

  Definition sign_val (minus : bool) (m : nat) : Z := if minus then minus_one_pow m else 1%Z.

  Lemma sgn_m1 m : sgn K (minus_one_pow (S m)) = - sgn K (minus_one_pow m).
  Proof.
    rewrite minus_one_pow_S. apply sgn_opp. unfold minus_one_pow. destruct (Nat.even m); auto.
  Qed.

  Lemma group_swaps n g (minus : bool) : NoDup g -> (forall k, In k g -> k < n) -> (forall t, P t -> length t = n) ->
    (forall t i j, P t -> In i g -> In j g -> i <> j -> P (exchange i j t) /\ f (exchange i j t) = if minus then - f t else f t) ->
    forall m u v, swaps m u v -> length u = length g -> forall idx', P idx' -> pick g idx' = v ->
    exists idx, P idx /\ pick g idx = u /\ (forall k, ~ In k g -> nth k idx 0%nat = nth k idx' 0%nat) /\
      f idx' = f idx * sgn K (sign_val minus m).
  Proof.
    intros Hnd Hlt HPl Hsym m u v Hsw HL. induction Hsw as [u|m u l1 x mm y l2 Hsw IH]; intros idx' HPi HE.
    - exists idx'. repeat split; [exact HPi|exact HE|]. unfold sign_val.
      destruct minus; [change (minus_one_pow 0) with 1%Z|]; rewrite sgn_one; reflexivity.
    - set (a := length l1). set (b := (length l1 + 1 + length mm)%nat).
      assert (Hgl : length g = (length l1 + S (length mm + S (length l2)))%nat).
      { rewrite <- (pick_length g idx'), HE, app_length. cbn [length]. rewrite app_length. reflexivity. }
      assert (Ha : a < length g) by (unfold a; lia). assert (Hb : b < length g) by (unfold b; lia).
      assert (Hne : nth a g 0%nat <> nth b g 0%nat).
      { intros E. apply (proj1 (NoDup_nth g 0%nat) Hnd) in E; [unfold a, b in E; lia|exact Ha|exact Hb]. }
      destruct (Hsym idx' (nth a g 0%nat) (nth b g 0%nat) HPi) as [HP2 Hf2]; [apply nth_In; assumption|apply nth_In; assumption|exact Hne|].
      destruct (IH HL (exchange (nth a g 0%nat) (nth b g 0%nat) idx') HP2) as (idx & H1 & H2 & H3 & H4).
      + rewrite pick_exchange_in; [|exact Hnd|intros k Hk; rewrite (HPl _ HPi); auto|exact Ha|exact Hb].
        rewrite HE. apply swap_at_split; [unfold a, b; lia|rewrite <- HE, pick_length; exact Hb|reflexivity|reflexivity|reflexivity].
      + exists idx. split; [exact H1|]. split; [exact H2|]. split.
        * intros k Hk. rewrite (H3 k Hk). destruct (Nat.lt_ge_cases k n) as [Hkn|Hkn].
          -- rewrite exchange_nth by (rewrite (HPl _ HPi); exact Hkn).
             destruct (Nat.eqb_spec k (nth a g 0%nat)) as [->|]; [exfalso; apply Hk, nth_In; exact Ha|].
             destruct (Nat.eqb_spec k (nth b g 0%nat)) as [->|]; [exfalso; apply Hk, nth_In; exact Hb|]. reflexivity.
          -- rewrite !nth_overflow; [reflexivity|rewrite (HPl _ HPi); exact Hkn|rewrite exchange_length, (HPl _ HPi); exact Hkn].
        * rewrite H4 in Hf2. unfold sign_val in *. destruct minus.
          -- rewrite sgn_m1. transitivity (- - f idx'); [ring|]. rewrite <- Hf2. ring.
          -- rewrite <- Hf2. reflexivity.
  Qed.

  Lemma sgn_mul a b : (a = 1 \/ a = -1)%Z -> (b = 1 \/ b = -1)%Z -> sgn K (a * b) = sgn K a * sgn K b.
  Proof.
    assert (E1 : sgn K 1 = 1 + 0) by reflexivity. assert (E2 : sgn K (-1) = - (1 + 0)) by reflexivity.
    intros [->| ->] [->| ->]; cbn [Z.mul Pos.mul]; rewrite ?E1, ?E2; ring.
  Qed.

  Lemma all_swaps n (nc : list nat -> nat * nat) diag sy gs symc : NoDup (concat gs) -> (forall k, In k (concat gs) -> k < n) ->
    (forall g, snd (nc g) = length g) -> (forall t, P t -> length t = n) ->
    (forall g t i j, In g gs -> P t -> In i g -> In j g -> i <> j ->
        P (exchange i j t) /\ f (exchange i j t) = if (sy i =? ch_minus)%nat then - f t else f t) ->
    syms_agree sy gs symc ->
    forall L, gwl diag (map nc gs) symc L -> forall idx', P idx' -> map (fun g => pick g idx') gs = map qu L ->
    exists idx, P idx /\ map (fun g => pick g idx) gs = canon diag (map nc gs) (map qk L) /\
      (forall k, ~ In k (concat gs) -> nth k idx 0%nat = nth k idx' 0%nat) /\
      f idx' = f idx * sgn K (sign_of L).
  Proof.
    intros Hnd Hlt Hnc HPl Hsym Hsy. induction Hsy as [|g y gs symc Hy Hsy IH]; intros L HL idx' HPi HE.
    - inversion HL; subst. exists idx'. repeat split; [exact HPi|]. unfold sign_of. cbn [map fold_right]. rewrite sgn_one. reflexivity.
    - unfold gwl in HL. cbn [map combine] in HL. inversion HL as [|? q ? L' Hq HL']; subst. cbn [map] in HE.
      match type of HE with ?a :: ?b = ?c :: ?d => assert (HE1 : a = c) by congruence; assert (HE2 : b = d) by congruence end.
      cbn [concat] in Hnd, Hlt. destruct (NoDup_app_inv _ _ Hnd) as (Hndg & Hndr & Hdisj).
      destruct (IH Hndr ltac:(intros k Hk; apply Hlt, in_or_app; right; exact Hk)
         ltac:(intros g0 t i j Hg0; apply Hsym; right; exact Hg0) L' HL' idx' HPi HE2) as (idx1 & P1 & B1 & O1 & F1).
      destruct q as [[k u] sg]. cbn [qu fst snd] in HE1. cbn [fst snd] in Hq.
      destruct (gw_swaps Hq) as (m & Hm & Hsg).
      assert (Hgne : length (nth k (tril_tuples (fst (nc g)) (snd (nc g)) diag) []) = length g).
      { destruct Hq as (Hk & _). rewrite <- (Hnc g). apply (tril_nth _ _ _ Hk). }
      assert (Hg1 : pick g idx1 = u).
      { rewrite <- HE1. apply map_ext_in. intros i Hi. apply O1. intros Hin. apply (Hdisj i Hi Hin). }
      assert (Hsg2 : forall t i j, P t -> In i g -> In j g -> i <> j ->
         P (exchange i j t) /\ f (exchange i j t) = if (y =? ch_minus)%nat then - f t else f t).
      { intros t i j HPt Hi Hj Hij; rewrite <- (Hy i Hi); apply (Hsym g); [left; reflexivity|exact HPt|exact Hi|exact Hj|exact Hij]. }
      destruct (@group_swaps n g (y =? ch_minus)%nat Hndg ltac:(intros i Hi; apply Hlt, in_or_app; left; exact Hi) HPl Hsg2 _ _ _ Hm Hgne idx1 P1 Hg1)
        as (idx & P2 & B2 & O2 & F2).
      exists idx. split; [exact P2|]. split; [|split].
      + cbn [map]. unfold canon. cbn [combine map]. f_equal.
        * exact B2.
        * unfold canon in B1. rewrite <- B1. apply map_ext_in. intros g' Hg'. apply map_ext_in. intros i Hi.
          apply O2. intros Hin. apply (Hdisj i Hin). apply in_concat. eauto.
      + intros i Hi. rewrite O2 by (intros H; apply Hi, in_or_app; left; exact H).
        apply O1. intros H; apply Hi, in_or_app; right; exact H.
      + rewrite F1, F2. unfold sign_of. cbn [map fold_right qs snd].
        assert (Hsg' : sg = sign_val (y =? ch_minus)%nat m) by exact Hsg.
        rewrite sgn_mul; [|eapply gw_sign in Hq; exact Hq|eapply gwl_sign; exact HL']. rewrite Hsg'. unfold sign_of. ring.
  Qed.
End Repack.

Section Repack2.
  Variable K : rng.
  Add Ring Kring2 : (rth K).
  Local Open Scope rng_scope.

  (** Lemma C: decompressing a compressed array. *)
  Lemma decompress_compress s (x : arr K) diag symmetry symc sy c :
    wf x -> extents_ok s (shp x) ->
    symmetry_compress (map snd (group_ncs s (shp x))) (the_symm s symmetry) 0 = Ok symc ->
    (diag = false \/ Forall (fun y => y <> ch_minus) symc) ->
    syms_agree sy (groups s) symc ->
    symmetric_as (fun i => sy i =? ch_minus)%nat s x ->
    (diag = false -> forall idx, inb (shp x) idx -> has_tie s idx -> aget r0 x idx = 0) ->
    compress_axes r0 s x diag = Ok c ->
    decompress_axes K s c (shp x) diag symmetry = Ok x.
  Proof.
    intros Hw Hext Hsymc Hgood Hsy Hsym Htie Hc. rewrite compress_ok in Hc by exact Hext.
    set (ncs := group_ncs s (shp x)) in *.
    assert (Ec : c = tab (dims diag ncs) (fun ks => aget r0 x (unperm (concat (groups s)) (concat (canon diag ncs ks))))) by congruence.
    destruct (@decompress_char K s c (shp x) diag symmetry symc Hext Hsymc Hgood) as (D & HD & Hs & HwD & Hval & Hzero).
    { rewrite Ec. exact (tab_wf (dims diag ncs) _). }
    rewrite HD. f_equal. apply (@arr_ext K r0); [exact HwD|exact Hw|exact Hs|]. rewrite Hs. intros idx Hidx.
    pose proof (symmetry_compress_length _ _ _ Hsymc) as HLs. rewrite map_length in HLs.
    pose proof (groups_perm s) as HP.
    destruct (@gwl_dec diag ncs symc (blocks s idx) HLs (blocks_inb Hext Hidx)) as [(L & HL & HU)|[Hd Hno]].
    - rewrite (Hval idx L Hidx HL HU). fold ncs.
      destruct (@all_swaps K (aget r0 x) (inb (shp x)) (length s) (fun g => (nth (hd 0%nat g) (shp x) 0%nat, length g)) diag sy (groups s) symc)
        with (L := L) (idx' := idx) as (idx0 & P0 & B0 & _ & F0).
      + exact (@perm_seq_nodup _ _ HP).
      + intros k Hk. apply (perm_seq_lt _ k HP). exact Hk.
      + reflexivity.
      + intros t Ht. rewrite (inb_length Ht). apply Hext.
      + intros g t i j Hg Ht Hi Hj Hij. destruct (groups_in _ _ _ Hg Hi) as [Hil Hiff].
        destruct (proj1 (Hiff j) Hj) as [Hjl E]. split; [apply (@exchange_inb s); auto|].
        apply Hsym; auto.
      + exact Hsy.
      + exact HL.
      + exact Hidx.
      + symmetry. exact HU.
      + rewrite F0. f_equal.
        assert (Hks : inb (dims diag ncs) (map qk L)).
        { clear -HL HLs. unfold gwl, dims in *. revert symc L HLs HL. induction ncs as [|nc ncs' IH]; intros [|y symc] L HLs HL; try discriminate; inversion HL; subst; cbn; constructor.
          - destruct y0 as [[k u] sg]. destruct H1 as (Hk & _). exact Hk.
          - apply (IH symc); [cbn in HLs; lia|assumption]. }
        rewrite Ec.
        change (nth (ravel (dims diag ncs) (map qk L)) (dat (tab (dims diag ncs) ?g)) r0) with (aget r0 (tab (dims diag ncs) g) (map qk L)).
        rewrite aget_tab by exact Hks. f_equal.
        destruct (@canon_blocks s (shp x) diag (map qk L) Hext Hks) as [Hi1 Hb1]. fold ncs in Hi1, Hb1.
        apply (@blocks_eq s); [rewrite (inb_length Hi1); apply Hext|rewrite (inb_length P0); apply Hext|].
        rewrite Hb1. symmetry. exact B0.
    - rewrite (Hzero idx Hidx).
      + symmetry. apply (Htie Hd idx Hidx). apply Exists_exists in Hno as (u & Hu & Hnd).
        unfold blocks in Hu. apply in_map_iff in Hu as (g & <- & Hg). apply not_nodup_ex in Hnd as (a & b & Hab & Hb & E).
        rewrite pick_length in Hb.
        assert (Pk : forall m, m < length g -> nth m (pick g idx) 0%nat = nth (nth m g 0%nat) idx 0%nat).
        { intros m Hm. unfold pick. apply (nth_map_lt (fun j => nth j idx 0%nat) g 0%nat 0%nat Hm). }
        rewrite !Pk in E by lia. exists (nth a g 0%nat), (nth b g 0%nat).
        assert (Hain : In (nth a g 0%nat) g) by (apply nth_In; lia). assert (Hbin : In (nth b g 0%nat) g) by (apply nth_In; lia).
        destruct (groups_in _ _ _ Hg Hain) as [Hal Hiff]. destruct (proj1 (Hiff _) Hbin) as [Hbl Eab].
        split; [exact Hal|]. split; [exact Hbl|]. split; [|split; [congruence|exact E]].
        intros En. apply (proj1 (NoDup_nth g 0%nat)) in En; [lia| |lia|lia].
        destruct (groups_sorted _ _ Hg) as [Hgs _]. apply sorted_lt_nodup. exact Hgs.
      + intros L HL HU. subst diag. apply (gwl_nodup HLs) in HL. rewrite HU in HL.
        rewrite Forall_forall in HL. apply Exists_exists in Hno as (u & Hu1 & Hu2). apply Hu2, HL. exact Hu1.
  Qed.

  (** For sign-changing symmetry repeated indices give zero automatically. *)
  Lemma antisymmetric_tie sub (x : arr K) idx : no_two_torsion K -> length (shp x) = length sub ->
    antisymmetric sub x -> inb (shp x) idx -> has_tie sub idx -> aget r0 x idx = 0.
  Proof.
    intros Ht HL Ha Hi (i & j & Hi1 & Hj & Hij & E & Et). apply Ht.
    rewrite <- (Ha idx i j Hi Hi1 Hj Hij E). f_equal.
    pose proof (inb_length Hi) as HLi.
    apply nth_ext with (d := 0%nat) (d' := 0%nat); [rewrite exchange_length; reflexivity|].
    intros k Hk. rewrite exchange_nth by lia. destruct (Nat.eqb_spec k i) as [->|]; [exact Et|].
    destruct (Nat.eqb_spec k j) as [->|]; [symmetry; exact Et|reflexivity].
  Qed.
End Repack2.

(** Symmetry strings. *)
Lemma group_counts s shape : map snd (group_ncs s shape) = map (@length nat) (groups s).
Proof. unfold group_ncs. rewrite map_map. reflexivity. Qed.

Lemma slice_repeat {A} (v : A) a b n : slice a b (repeat v n) = repeat v (Nat.min (b - a) (n - a)).
Proof.
  unfold slice. revert a b; induction n as [|n IH]; intros a b.
  - rewrite skipn_nil, firstn_nil. cbn. rewrite Nat.min_0_r. reflexivity.
  - destruct a as [|a].
    + cbn [skipn]. rewrite !Nat.sub_0_r. generalize (S n). intros m. clear. revert b. induction m as [|m IH]; intros b; [rewrite firstn_nil, Nat.min_0_r; reflexivity|].
      destruct b; [reflexivity|]. cbn. rewrite IH. reflexivity.
    + cbn [repeat skipn]. destruct b as [|b]; [reflexivity|]. cbn [Nat.sub]. apply IH.
Qed.

Lemma symc_const v counts n m : Forall (fun c => 1 <= c) counts -> m + fold_right Nat.add 0 counts <= n ->
  symmetry_compress counts (repeat v n) m = Ok (repeat v (length counts)).
Proof.
  intros Hpos. revert m; induction Hpos as [|c counts Hc Hpos IH]; intros m Hm; [reflexivity|]. cbn [symmetry_compress fold_right] in *.
  rewrite slice_repeat. replace (Nat.min (m + c - m) (n - m)) with c by lia.
  rewrite (@unique_repeat v c (repeat v c)); [|intros x Hx; apply repeat_spec in Hx; exact Hx|apply repeat_length|lia].
  cbn [Nat.eqb]. rewrite IH by lia. cbn [bind length repeat]. f_equal. f_equal.
  apply nth_repeat_lt || idtac. clear -Hm Hc. revert n Hm. induction m as [|m IH]; intros [|n] Hm; try lia; [reflexivity|]. cbn. apply IH. lia.
Qed.

Lemma sum_lengths s : fold_right Nat.add 0 (map (@length nat) (groups s)) = length s.
Proof.
  assert (H : forall gs : list (list nat), fold_right Nat.add 0 (map (@length nat) gs) = length (concat gs)).
  { induction gs as [|g gs IH]; cbn; [reflexivity|]. rewrite app_length, IH. reflexivity. }
  rewrite H. apply (@perm_seq_length _ _ (groups_perm s)).
Qed.

Lemma groups_pos s : Forall (fun c => 1 <= c) (map (@length nat) (groups s)).
Proof.
  apply Forall_map, Forall_forall. intros g Hg. destruct (groups_sorted _ _ Hg) as [_ Hne]. destruct g; [contradiction|cbn; lia].
Qed.

Lemma symc_repeat v s shape : symmetry_compress (map snd (group_ncs s shape)) (repeat v (length s)) 0 = Ok (repeat v (length (groups s))).
Proof.
  rewrite group_counts, symc_const; [rewrite map_length; reflexivity|apply groups_pos|rewrite sum_lengths; lia].
Qed.

Lemma syms_agree_const v gs : syms_agree (fun _ => v) gs (repeat v (length gs)).
Proof. induction gs as [|g gs IH]; cbn; constructor; auto. Qed.

Lemma blocked_groups s : blocked s -> concat (groups s) = seq 0 (length s).
Proof.
  intros Hb. rewrite <- ren_argsort, <- (ren_length s). apply argsort_unique; [reflexivity|].
  assert (Hr : forall i j, i < j -> j < length s -> lexk (fun i => nth i (ren s) 0) i j).
  { intros i j Hij Hj. unfold lexk.
    assert (R : forall k, k < length s -> nth k (ren s) 0 = 97 + rank_in (dedup s) (nth k s 0)).
    { intros k Hk. unfold ren. apply (nth_map_lt (fun c => 97 + rank_in (dedup s) c) s 0 0 Hk). }
    rewrite !R by lia.
    assert (Hle : rank_in (dedup s) (nth i s 0) <= rank_in (dedup s) (nth j s 0)); [|lia].
    destruct (Nat.eq_dec (nth i s 0) (nth j s 0)) as [->|Hne]; [lia|].
    (* first occurrences *)
    assert (F : forall t i j, i < j -> j < length t -> (forall m, m < i -> nth m t 0 <> nth j t 0) -> 
       rank_in (dedup t) (nth i t 0) <= rank_in (dedup t) (nth j t 0)).
    { clear. induction t as [|c t IH]; intros i j Hij Hj Hno; [cbn in Hj; lia|].
      destruct j as [|j]; [lia|]. cbn [nth].
      assert (Hrk : forall (l : list nat) z, c <> z -> In z l -> rank_in (c :: filter (fun y => negb (c =? y)) l) z = S (rank_in (filter (fun y => negb (c =? y)) l) z)).
      { intros l z Hz Hin. unfold rank_in. cbn [index_of]. destruct (Nat.eqb_spec z c) as [->|_]; [congruence|].
        destruct (index_of_in (filter (fun y => negb (c =? y)) l) z) as [k Hk].
        - apply filter_In. split; [exact Hin|]. destruct (Nat.eqb_spec c z); [congruence|reflexivity].
        - rewrite Hk. reflexivity. }
      assert (H0 : forall l, rank_in (c :: l) c = 0) by (intros l; unfold rank_in; cbn [index_of]; rewrite Nat.eqb_refl; reflexivity).
      destruct i as [|i]; cbn [nth dedup]; [rewrite H0; lia|].
      destruct (Nat.eq_dec c (nth i t 0)) as [E|Hci]; [rewrite <- E, H0; lia|].
      assert (Hcj : c <> nth j t 0) by (apply (Hno 0); lia).
      cbn [length] in Hj.
      rewrite !Hrk; try assumption; try (apply dedup_in, nth_In; lia).
      assert (Hmono : forall (l : list nat) y z, c <> y -> c <> z -> In y l -> In z l -> rank_in l y <= rank_in l z ->
         rank_in (filter (fun y => negb (c =? y)) l) y <= rank_in (filter (fun y => negb (c =? y)) l) z).
      { clear. induction l as [|w l IHl]; intros y z Hy Hz Hin1 Hin2 Hle; [destruct Hin1|].
        unfold rank_in in *. cbn [index_of filter] in *.
        destruct (Nat.eqb_spec y w) as [->|Hyw].
        - destruct (Nat.eqb_spec c w); [contradiction|]. cbn [negb index_of]. rewrite Nat.eqb_refl. lia.
        - destruct Hin1 as [->|Hin1]; [congruence|].
          destruct (index_of_in l y Hin1) as [ky Hky]. rewrite Hky in Hle. cbn in Hle.
          destruct (Nat.eqb_spec z w) as [->|Hzw]; [lia|].
          destruct Hin2 as [->|Hin2]; [congruence|].
          destruct (index_of_in l z Hin2) as [kz Hkz]. rewrite Hkz in Hle. cbn in Hle.
          specialize (IHl y z Hy Hz Hin1 Hin2). rewrite Hky, Hkz in IHl. specialize (IHl ltac:(lia)).
          destruct (negb (c =? w)); [|exact IHl]. cbn [index_of].
          destruct (Nat.eqb_spec y w); [contradiction|]. destruct (Nat.eqb_spec z w); [contradiction|].
          destruct (index_of y (filter (fun y0 => negb (c =? y0)) l)), (index_of z (filter (fun y0 => negb (c =? y0)) l)) eqn:Ez; cbn; try lia.
          exfalso. destruct (index_of_in (filter (fun y0 => negb (c =? y0)) l) z) as [k Hk]; [|congruence].
          apply filter_In. split; [exact Hin2|]. destruct (Nat.eqb_spec c z); [contradiction|reflexivity]. }
      assert (G := IH i j ltac:(lia) ltac:(lia)).
      apply le_n_S, Hmono; try assumption; try (apply dedup_in, nth_In; lia).
      apply G. intros m Hm. apply (Hno (S m)). lia. }
    apply F; [exact Hij|exact Hj|]. intros m Hm E. apply Hne.
    symmetry. rewrite <- E. rewrite <- (Hb m i j Hm Hij Hj E). reflexivity. }
  assert (G : forall l, (forall x, In x l -> x < length s) -> StronglySorted lt l -> StronglySorted (lexk (fun i => nth i (ren s) 0)) l).
  { intros l Hl Hs. induction Hs as [|x l Hs IH Hf]; constructor; [apply IH; intros y Hy; apply Hl; right; exact Hy|].
    rewrite Forall_forall in *. intros y Hy. apply Hr; [auto|apply Hl; right; exact Hy]. }
  apply G; [intros x Hx; apply in_seq in Hx; rewrite ren_length in Hx; lia|apply seq_sorted].
Qed.

Lemma symc_blocked s shape symm : blocked s -> symmetry_string s symm ->
  exists symc, symmetry_compress (map snd (group_ncs s shape)) symm 0 = Ok symc /\
    syms_agree (fun i => nth i symm 0) (groups s) symc.
Proof.
  intros Hb (HL & _ & Hc). rewrite group_counts. pose proof (blocked_groups Hb) as Hseq.
  assert (Hgr : forall g, In g (groups s) -> g <> [] /\ forall i j, In i g -> In j g -> nth i symm 0 = nth j symm 0).
  { intros g Hg. split; [apply (groups_sorted _ _ Hg)|]. intros i j Hi Hj. destruct (groups_in _ _ _ Hg Hi) as [Hil Hiff].
    destruct (proj1 (Hiff j) Hj) as [Hjl E]. apply Hc; congruence. }
  assert (G : forall gs m, (forall g, In g gs -> g <> [] /\ forall i j, In i g -> In j g -> nth i symm 0 = nth j symm 0) ->
     concat gs = seq m (length (concat gs)) -> m + length (concat gs) <= length symm ->
     exists symc, symmetry_compress (map (@length nat) gs) symm m = Ok symc /\ syms_agree (fun i => nth i symm 0) gs symc).
  { induction gs as [|g gs IH]; intros m Hgs Hseq' Hle; [exists []; split; [reflexivity|constructor]|].
    cbn [concat] in Hseq', Hle. rewrite app_length, seq_app in Hseq'. rewrite app_length in Hle.
    assert (Eg : g = seq m (length g) /\ concat gs = seq (m + length g) (length (concat gs))).
    { assert (forall (a b c d : list nat), a ++ b = c ++ d -> length a = length c -> a = c /\ b = d) as Happ.
      { induction a as [|x a IHa]; intros b [|y c] d H Hl; try discriminate; [auto|]. cbn in *. injection H as -> H.
        destruct (IHa b c d H ltac:(lia)) as [-> ->]. auto. }
      apply Happ; [exact Hseq'|rewrite seq_length; reflexivity]. }
    destruct Eg as [Eg Er]. destruct (Hgs g (or_introl eq_refl)) as [Hne Hconst].
    destruct (IH (m + length g)) as (symc & H1 & H2); [intros g' Hg'; apply Hgs; right; exact Hg'|exact Er|lia|].
    assert (Hlen : length g <> 0) by (destruct g; [contradiction|discriminate]).
    assert (Hsl : slice m (m + length g) symm = map (fun i => nth i symm 0) g).
    { rewrite Eg at 2. unfold slice. replace (m + length g - m) with (length g) by lia.
      apply nth_ext with (d := 0) (d' := 0).
      - rewrite firstn_length, skipn_length, map_length, seq_length. lia.
      - intros k Hk. rewrite firstn_length, skipn_length in Hk.
        assert (Hf : forall (l : list nat) n k, k < n -> nth k (firstn n l) 0 = nth k l 0).
        { clear. induction l as [|x l IH]; intros n k Hk; [rewrite firstn_nil; reflexivity|]. destruct n; [lia|]. destruct k; [reflexivity|]. cbn. apply IH. lia. }
        assert (Hs : forall (l : list nat) n k, nth k (skipn n l) 0 = nth (n + k) l 0).
        { clear. induction l as [|x l IH]; intros n k; [rewrite skipn_nil; destruct k, n; reflexivity|]. destruct n; [reflexivity|]. cbn. apply IH. }
        rewrite Hf, Hs by lia. rewrite (nth_map_lt _ _ 0 0) by (rewrite seq_length; lia). rewrite seq_nth by lia. reflexivity. }
    exists (nth m symm 0 :: symc). cbn [map symmetry_compress]. rewrite Hsl.
    assert (Hm : In m g) by (rewrite Eg; apply in_seq; lia).
    rewrite (@unique_repeat (nth m symm 0) (length g)); [|intros x Hx; apply in_map_iff in Hx as (i & <- & Hi); apply Hconst; assumption|apply map_length|exact Hlen].
    cbn [Nat.eqb]. rewrite H1. split; [reflexivity|]. constructor; [|exact H2]. intros i Hi. apply Hconst; assumption. }
  destruct (G (groups s) 0 Hgr) as (symc & H1 & H2).
  - rewrite Hseq, seq_length. reflexivity.
  - rewrite Hseq, seq_length. lia.
  - exists symc. auto.
Qed.

(** C07: sizes. *)
Lemma prodn_perm_fold l : fold_left Nat.mul l 1 = prodn l.
Proof.
  assert (G : forall a, fold_left Nat.mul l a = a * prodn l).
  { induction l as [|x l IH]; intros a; cbn [fold_left]; [cbn; lia|]. rewrite IH, prodn_cons. lia. }
  rewrite G. lia.
Qed.

Lemma compressed_size s shape sizes : extents_ok s shape ->
  (forall i, i < length s -> dget Nat.eq_dec (nth i s 0) sizes = Some (nth i shape 0)) ->
  get_compressed_size s sizes = Ok (prodn (dims false (group_ncs s shape))).
Proof.
  intros [HL He] Hsz. unfold get_compressed_size.
  assert (Hm : mapM (fun c => bind (size_of sizes c) (fun n => Ok (ntril_ndim n (count s c) false))) (dedup s) =
     Ok (map (fun c => ntril_ndim (nth (hd 0 (occ 0 s c)) shape 0) (length (occ 0 s c)) false) (dedup s))).
  { apply mapM_ok. intros c Hc. rewrite dedup_in in Hc. unfold size_of.
    assert (Hne : exists i, In i (occ 0 s c)).
    { apply In_nth_error in Hc as [i Hi]. exists i. apply occ_in. rewrite Nat.sub_0_r. split; [lia|exact Hi]. }
    destruct (occ 0 s c) as [|i0 l0] eqn:Eo; [destruct Hne as [i []]|]. cbn [hd].
    assert (Hi0 : In i0 (occ 0 s c)) by (rewrite Eo; left; reflexivity).
    apply occ_in in Hi0 as [_ Hi0]. rewrite Nat.sub_0_r in Hi0.
    assert (Hlt : i0 < length s) by (apply nth_error_Some; congruence).
    pose proof (Hsz i0 Hlt) as Hd. rewrite (nth_error_nth _ _ 0 Hi0) in Hd. rewrite Hd. cbn [bind]. f_equal. f_equal.
    rewrite <- Eo. symmetry. unfold count. apply occ_length. }
  rewrite Hm. cbn [bind]. f_equal. rewrite prodn_perm_fold. f_equal. unfold dims, group_ncs, groups.
  rewrite !map_map. apply map_ext. intros c. cbn [fst snd]. apply ntril_count.
Qed.
