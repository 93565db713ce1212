(** Symmetry and round trips of compress_axes/decompress_axes. *)
From Verif Require Import Base ListAux Alg PermSpec PermModel PermSign PermProofs TrilProofs SpinProofs StringPermProofs
  ArrModel ArrProofs TensorModel TensorSpec GroupProofs PackProofs TensorProofs.
From Coq Require Import Sorted.
Set Implicit Arguments.

Lemma exchange_swap_at i j l : i < length l -> j < length l -> exchange i j l = swap_at i j l.
Proof.
  intros Hi Hj. apply nth_ext with (d := 0) (d' := 0); [unfold exchange; rewrite map_length, seq_length, swap_at_length; reflexivity|].
  intros k Hk. unfold exchange in *. rewrite map_length, seq_length in Hk. rewrite nth_map_seq by exact Hk.
  rewrite swap_at_nth by assumption. destruct (k =? i); [reflexivity|]. destruct (k =? j); reflexivity.
Qed.

Lemma exchange_length i j l : length (exchange i j l) = length l.
Proof. unfold exchange. rewrite map_length, seq_length. reflexivity. Qed.

Lemma exchange_nth i j l k : k < length l -> nth k (exchange i j l) 0 = nth (if k =? i then j else if k =? j then i else k) l 0.
Proof. intros Hk. unfold exchange. rewrite nth_map_seq by exact Hk. reflexivity. Qed.

Lemma exchange_invol i j l : i < length l -> j < length l -> exchange i j (exchange i j l) = l.
Proof.
  intros Hi Hj. apply nth_ext with (d := 0) (d' := 0); [rewrite !exchange_length; reflexivity|].
  intros k Hk. rewrite !exchange_length in Hk. rewrite !exchange_nth; rewrite ?exchange_length; try lia.
  - f_equal. destruct (Nat.eqb_spec k i) as [->|]; [|destruct (Nat.eqb_spec k j) as [->|]].
    + rewrite Nat.eqb_refl. destruct (Nat.eqb_spec j i); congruence.
    + rewrite Nat.eqb_refl. reflexivity.
    + destruct (Nat.eqb_spec k i), (Nat.eqb_spec k j); congruence.
  - destruct (k =? i); [lia|]. destruct (k =? j); lia.
Qed.

Lemma exchange_inb sub shape i j idx : extents_ok sub shape -> i < length sub -> j < length sub -> nth i sub 0 = nth j sub 0 ->
  inb shape idx -> inb shape (exchange i j idx).
Proof.
  intros [HL He] Hi Hj E H. apply inb_iff in H as [HLi H]. apply inb_iff. rewrite exchange_length. split; [exact HLi|].
  intros k Hk. rewrite exchange_nth by lia. destruct (Nat.eqb_spec k i) as [->|]; [|destruct (Nat.eqb_spec k j) as [->|]].
  - rewrite (He i j Hi Hj E). apply H. lia.
  - rewrite <- (He i j Hi Hj E). apply H. lia.
  - apply H. exact Hk.
Qed.

(** Picking from an exchanged tuple. *)
Lemma pick_exchange_out g i j idx : (forall k, In k g -> k < length idx) -> ~ In i g -> ~ In j g -> pick g (exchange i j idx) = pick g idx.
Proof.
  intros Hlt Hi Hj. apply map_ext_in. intros k Hk. rewrite exchange_nth by auto.
  destruct (Nat.eqb_spec k i) as [->|]; [contradiction|]. destruct (Nat.eqb_spec k j) as [->|]; [contradiction|]. reflexivity.
Qed.

Lemma pick_exchange_in g a b idx : NoDup g -> (forall k, In k g -> k < length idx) -> a < length g -> b < length g ->
  pick g (exchange (nth a g 0) (nth b g 0) idx) = swap_at a b (pick g idx).
Proof.
  intros Hnd Hlt Ha Hb. apply nth_ext with (d := 0) (d' := 0); [rewrite swap_at_length, !pick_length; reflexivity|].
  intros k Hk. rewrite pick_length in Hk. rewrite swap_at_nth by (rewrite pick_length; assumption).
  assert (P : forall t m, m < length g -> nth m (pick g t) 0 = nth (nth m g 0) t 0).
  { intros t m Hm. unfold pick. apply (nth_map_lt (fun j => nth j t 0) g 0 0 Hm). }
  rewrite P, exchange_nth by (try apply Hlt, nth_In; assumption).
  assert (Einj : forall u v, u < length g -> v < length g -> (nth u g 0 =? nth v g 0) = (u =? v)).
  { intros u v Hu Hv. destruct (Nat.eqb_spec u v) as [->|Hne]; [apply Nat.eqb_refl|]. apply Nat.eqb_neq. intros E. apply Hne.
    apply (proj1 (NoDup_nth g 0) Hnd); assumption. }
  rewrite !Einj by assumption. destruct (k =? a); [rewrite P by assumption; reflexivity|].
  destruct (k =? b); rewrite P by assumption; reflexivity.
Qed.

(** Symmetry of a group of axes, agreeing with the compressed symmetry string. *)
Definition syms_agree (sy : nat -> nat) (gs : list (list nat)) (symc : pystr) : Prop :=
  Forall2 (fun g y => forall i, In i g -> sy i = y) gs symc.

Definition gwl (diag : bool) (ncs : list (nat * nat)) (symc : pystr) (L : list (nat * list nat * Z)) : Prop :=
  Forall2 (fun x q => gw diag (fst x) (snd x) q) (combine ncs symc) L.

Lemma gwl_swap diag (nc : list nat -> nat * nat) sy idx i j gs symc L :
  (forall g, snd (nc g) = length g) -> NoDup (concat gs) -> (forall k, In k (concat gs) -> k < length idx) ->
  syms_agree sy gs symc -> i <> j -> (exists g, In g gs /\ In i g /\ In j g) ->
  gwl diag (map nc gs) symc L -> map qu L = map (fun g => pick g idx) gs ->
  exists L', gwl diag (map nc gs) symc L' /\ map qu L' = map (fun g => pick g (exchange i j idx)) gs /\
    map qk L' = map qk L /\ sign_of L' = (if (sy i =? ch_minus)%nat then - sign_of L else sign_of L)%Z.
Proof.
  intros Hnc Hnd Hlt Hsy Hij Hex. revert L. induction Hsy as [|g y gs symc Hy Hsy IH]; intros L HL HU.
  - destruct Hex as (g & [] & _).
  - unfold gwl in HL. cbn [map combine] in HL. inversion HL as [|? q ? L' Hq HL']; subst. cbn [map] in HU.
    match type of HU with ?a :: ?b = ?c :: ?d => assert (HU1 : a = c) by congruence; assert (HU2 : b = d) by congruence end.
    cbn [concat] in Hnd, Hlt.
    destruct (NoDup_app_inv _ _ Hnd) as (Hndg & Hndr & Hdisj).
    assert (Hltg : forall k, In k g -> k < length idx) by (intros k Hk; apply Hlt, in_or_app; left; exact Hk).
    destruct (in_dec Nat.eq_dec i g) as [Hi|Hi].
    + assert (Hj : In j g).
      { destruct Hex as (g' & [->|Hg'] & Hi' & Hj'); [exact Hj'|]. exfalso. apply (Hdisj i Hi). apply in_concat. eauto. }
      apply (In_nth _ _ 0) in Hi as (a & Ha & <-). apply (In_nth _ _ 0) in Hj as (b & Hb & <-).
      destruct q as [[k u] sg]. cbn [qu fst snd] in HU1. subst u. cbn [fst snd] in Hq.
      assert (Hab : a <> b) by congruence.
      pose proof (@gw_swap _ _ _ _ _ _ a b ltac:(rewrite Hnc; exact Ha) ltac:(rewrite Hnc; exact Hb) Hab Hq) as Hq'.
      exists ((k, swap_at a b (pick g idx), if y =? ch_minus then (- sg)%Z else sg) :: L').
      split; [|split; [|split]].
      * constructor; [exact Hq'|exact HL'].
      * cbn [map]. f_equal; [cbn; symmetry; apply pick_exchange_in; assumption|].
        rewrite HU2. apply map_ext_in. intros g' Hg'. symmetry. apply pick_exchange_out.
        -- intros m Hm. apply Hlt, in_or_app. right. apply in_concat. eauto.
        -- intros Hin. apply (Hdisj (nth a g 0)); [apply nth_In; exact Ha|]. apply in_concat. eauto.
        -- intros Hin. apply (Hdisj (nth b g 0)); [apply nth_In; exact Hb|]. apply in_concat. eauto.
      * reflexivity.
      * rewrite (Hy (nth a g 0)) by (apply nth_In; exact Ha). unfold sign_of. cbn. destruct (y =? ch_minus); [|reflexivity]. lia.
    + assert (Hj : ~ In j g).
      { intros Hj. destruct Hex as (g' & [->|Hg'] & Hi' & Hj'); [contradiction|]. apply (Hdisj j Hj). apply in_concat. eauto. }
      destruct IH with (L := L') as (L2 & H1 & H2 & H3 & H4).
      * exact Hndr.
      * intros m Hm. apply Hlt, in_or_app. right; exact Hm.
      * destruct Hex as (g' & [->|Hg'] & Hi' & Hj'); [contradiction|]. eauto.
      * exact HL'.
      * exact HU2.
      * exists (q :: L2). split; [|split; [|split]].
        -- constructor; assumption.
        -- cbn [map]. f_equal; [|exact H2]. rewrite HU1. symmetry. apply pick_exchange_out; assumption.
        -- cbn [map]. f_equal. exact H3.
        -- unfold sign_of in *. cbn [map fold_right]. rewrite H4. destruct (sy i =? ch_minus); [|reflexivity]. lia.
Qed.

(** Existence of a write to a given index. *)
Lemma gwl_dec diag ncs symc us : length symc = length ncs -> Forall2 inb (shapes ncs) us ->
  {exists L, gwl diag ncs symc L /\ map qu L = us} + {diag = false /\ Exists (fun u => ~ NoDup u) us}.
Proof.
  revert symc us; induction ncs as [|nc ncs IH]; intros symc us HL H.
  - left. exists []. destruct us; [|exfalso; inversion H]. destruct symc; [|discriminate]. split; [constructor|reflexivity].
  - destruct symc as [|y symc]; [discriminate|]. destruct us as [|u us]; [exfalso; inversion H|].
    assert (Hu : inb (repeat (fst nc) (snd nc)) u) by (inversion H; assumption).
    assert (Hus : Forall2 inb (shapes ncs) us) by (inversion H; assumption).
    destruct (IH symc us ltac:(cbn in HL; lia) Hus) as [Hex|[Hd Hno]].
    + destruct diag eqn:Ed.
      * left. destruct Hex as (L & HL1 & HL2). destruct (@gw_ex true nc y u Hu ltac:(discriminate)) as (k & sg & Hg).
        exists ((k, u, sg) :: L). split; [constructor; assumption|]. cbn. congruence.
      * destruct (ListDec.NoDup_dec Nat.eq_dec u) as [Hnd|Hnd].
        -- left. destruct Hex as (L & HL1 & HL2). destruct (@gw_ex false nc y u Hu (fun _ => Hnd)) as (k & sg & Hg).
           exists ((k, u, sg) :: L). split; [constructor; assumption|]. cbn. congruence.
        -- right. split; [reflexivity|]. left. exact Hnd.
    + right. split; [exact Hd|]. right. exact Hno.
Qed.

Lemma gwl_nodup ncs symc L : length symc = length ncs -> gwl false ncs symc L -> Forall (fun u => NoDup u) (map qu L).
Proof.
  unfold gwl. revert symc L; induction ncs as [|nc ncs IH]; intros symc L HL H; destruct symc as [|y symc]; try discriminate; inversion H; subst; constructor.
  - match goal with H : gw _ _ _ ?q |- _ => destruct q as [[k u] sg]; destruct H as (Hk & p & s0 & Hp & -> & _) end.
    cbn. destruct (tril_nth _ _ _ Hk) as (HLk & _ & Hdec). apply decreasing_nodup in Hdec.
    apply (Permutation_NoDup (@pick_perm p _ ltac:(rewrite HLk; apply (pws_seq_in _ _ _ Hp)))). exact Hdec.
  - apply (IH symc); [cbn in HL; lia|assumption].
Qed.

Lemma gwl_fun diag ncs symc L L' : length symc = length ncs -> (diag = false \/ Forall (fun y => y <> ch_minus) symc) ->
  gwl diag ncs symc L -> gwl diag ncs symc L' -> map qu L' = map qu L -> map qk L' = map qk L /\ sign_of L' = sign_of L.
Proof.
  unfold gwl. revert symc L L'; induction ncs as [|nc ncs IH]; intros symc L L' HL Hgood H1 H2 HU.
  - cbn in H1, H2. inversion H1; inversion H2; subst. auto.
  - destruct symc as [|y symc]; [discriminate|]. cbn [combine] in H1, H2.
    inversion H1 as [|? q ? L1 Hq HL1]; inversion H2 as [|? q' ? L2 Hq' HL2]; subst. cbn [map] in HU.
    assert (HU1 : qu q' = qu q) by congruence. assert (HU2 : map qu L2 = map qu L1) by congruence.
    destruct q as [[k u] sg], q' as [[k' u'] sg']. cbn in HU1. subst u'. cbn [fst snd] in Hq, Hq'.
    assert (Hg : diag = false \/ y <> ch_minus) by (destruct Hgood as [?|Hgd]; [left; assumption|right; inversion Hgd; assumption]).
    destruct (gw_fun Hg Hq' Hq) as [-> ->].
    destruct (IH symc L1 L2) as [E1 E2]; [cbn in HL; lia|destruct Hgood as [?|Hgd]; [left; assumption|right; inversion Hgd; assumption]|assumption|assumption|assumption|].
    split; [cbn; rewrite E1; reflexivity|]. unfold sign_of in *. cbn. rewrite E2. reflexivity.
Qed.

Section Unpack.
  Variable K : rng.
  Add Ring Kring : (rth K).
  Local Open Scope rng_scope.

  Definition the_symm (s : pystr) (symmetry : option pystr) : pystr :=
    match symmetry with None => repeat ch_minus (length s) | Some y => y end.

  (** Everything about a decompressed array that later proofs use. *)
  Lemma decompress_char s (flat : arr K) shape diag symmetry symc :
    extents_ok s shape ->
    symmetry_compress (map snd (group_ncs s shape)) (the_symm s symmetry) 0 = Ok symc ->
    (diag = false \/ Forall (fun y => y <> ch_minus) symc) ->
    length (dat flat) = prodn (dims diag (group_ncs s shape)) ->
    exists D, decompress_axes K s flat shape diag symmetry = Ok D /\ shp D = shape /\ wf D /\
      (forall idx L, inb shape idx -> gwl diag (group_ncs s shape) symc L -> map qu L = blocks s idx ->
           aget r0 D idx = nth (ravel (dims diag (group_ncs s shape)) (map qk L)) (dat flat) r0 * sgn K (sign_of L)) /\
      (forall idx, inb shape idx -> (forall L, gwl diag (group_ncs s shape) symc L -> map qu L <> blocks s idx) ->
           aget r0 D idx = 0).
  Proof.
    intros Hext Hsymc Hgood Hflat.
    destruct (@decompress_ok K s flat shape diag symmetry symc Hext Hsymc Hflat) as (D & HD & Hs & Hw & Hval).
    pose proof (symmetry_compress_length _ _ _ Hsymc) as HLs. rewrite map_length in HLs.
    exists D. split; [exact HD|]. split; [exact Hs|]. split; [exact Hw|]. split.
    - intros idx L Hi HL HU. apply (proj1 (Hval idx Hi) L HL); [|exact HU].
      intros L' HL' HU'. apply (@gwl_fun diag (group_ncs s shape) symc L L'); assumption.
    - intros idx Hi Hno. apply (proj2 (Hval idx Hi)). exact Hno.
  Qed.

  Lemma sgn_opp z : (z = 1 \/ z = -1)%Z -> sgn K (- z) = - sgn K z.
  Proof. intros [->| ->].
    - change (sgn K (- (1))) with (- (1 + 0) : K). change (sgn K 1) with (1 + 0 : K). ring.
    - change (sgn K (- -1)) with (1 + 0 : K). change (sgn K (-1)) with (- (1 + 0) : K). ring.
  Qed.

  Lemma gw_sign diag nc sym q : gw diag nc sym q -> (qs q = 1 \/ qs q = -1)%Z.
  Proof.
    destruct q as [[k u] sg]. intros (_ & p & s0 & Hp & _ & ->). apply pws_seq_in in Hp as [_ ->]. cbn.
    destruct (sym =? ch_minus)%nat; [|auto]. destruct (par p); auto.
  Qed.

  Lemma gwl_sign diag ncs symc L : gwl diag ncs symc L -> (sign_of L = 1 \/ sign_of L = -1)%Z.
  Proof.
    unfold gwl. generalize (combine ncs symc). induction 1 as [|x q l L Hq H IH]; [left; reflexivity|].
    apply gw_sign in Hq. unfold sign_of in *. cbn. destruct Hq as [->| ->], IH as [->| ->]; auto.
  Qed.

  Lemma group_ncs_map s shape : group_ncs s shape = map (fun g => (nth (hd 0%nat g) shape 0%nat, length g)) (groups s).
  Proof. reflexivity. Qed.

  Lemma same_group s i j : i < length s -> j < length s -> nth i s 0%nat = nth j s 0%nat ->
    exists g, In g (groups s) /\ In i g /\ In j g.
  Proof.
    intros Hi Hj E. destruct (groups_cover s Hi) as (g & Hg & Hig). exists g. split; [exact Hg|]. split; [exact Hig|].
    apply (proj2 (groups_in _ _ _ Hg Hig)). auto.
  Qed.

  (** Lemma A: symmetry of the decompressed array. *)
  Lemma decompress_symmetric s (flat : arr K) shape diag symmetry symc sy D :
    extents_ok s shape ->
    symmetry_compress (map snd (group_ncs s shape)) (the_symm s symmetry) 0 = Ok symc ->
    (diag = false \/ Forall (fun y => y <> ch_minus) symc) ->
    length (dat flat) = prodn (dims diag (group_ncs s shape)) ->
    syms_agree sy (groups s) symc ->
    decompress_axes K s flat shape diag symmetry = Ok D ->
    symmetric_as (fun i => sy i =? ch_minus)%nat s D.
  Proof.
    intros Hext Hsymc Hgood Hflat Hsy HD.
    destruct (@decompress_char s flat shape diag symmetry symc Hext Hsymc Hgood Hflat) as (D' & HD' & Hs & Hw & Hval & Hzero).
    assert (D' = D) by congruence. subst D'.
    pose proof (symmetry_compress_length _ _ _ Hsymc) as HLs. rewrite map_length in HLs.
    intros idx i j Hidx Hi Hj Hij E. rewrite Hs in Hidx.
    pose proof (@same_group s i j Hi Hj E) as Hex.
    pose proof (exchange_inb Hext Hi Hj E Hidx) as Hidx'.
    pose proof (inb_length Hidx) as HLi. pose proof (proj1 Hext) as HLsh. rewrite HLsh in HLi.
    pose proof (groups_perm s) as HP.
    assert (Hnd : NoDup (concat (groups s))) by exact (@perm_seq_nodup _ _ HP).
    assert (Hlt : forall t : list nat, length t = length s -> forall k, In k (concat (groups s)) -> k < length t).
    { intros t Ht k Hk. rewrite Ht. apply (perm_seq_lt _ k HP). exact Hk. }
    destruct (@gwl_dec diag (group_ncs s shape) symc (blocks s idx) HLs (blocks_inb Hext Hidx)) as [(L & HL & HU)|[Hd Hno]].
    - rewrite (Hval idx L Hidx HL HU).
      destruct (@gwl_swap diag (fun g => (nth (hd 0%nat g) shape 0%nat, length g)) sy idx i j (groups s) symc L
        ltac:(reflexivity) Hnd (Hlt idx HLi) Hsy Hij Hex HL HU) as (L' & H1 & H2 & H3 & H4).
      rewrite (Hval _ L' Hidx' H1 H2). rewrite H3, H4.
      destruct (sy i =? ch_minus)%nat; [|reflexivity]. rewrite sgn_opp by exact (gwl_sign HL). ring.
    - rewrite (Hzero idx Hidx).
      + rewrite (Hzero _ Hidx'); [destruct (sy i =? ch_minus)%nat; ring|].
        intros L HL HU.
        destruct (@gwl_swap diag (fun g => (nth (hd 0%nat g) shape 0%nat, length g)) sy (exchange i j idx) i j (groups s) symc L
          ltac:(reflexivity) Hnd (Hlt _ ltac:(rewrite exchange_length; exact HLi)) Hsy Hij Hex HL HU) as (L' & H1 & H2 & H3 & H4).
        rewrite exchange_invol in H2 by lia. subst diag. apply (gwl_nodup (L := L') HLs) in H1. rewrite H2 in H1.
        rewrite Forall_forall in H1. apply Exists_exists in Hno as (u & Hu1 & Hu2). apply Hu2, H1. exact Hu1.
      + intros L HL HU. subst diag. apply (gwl_nodup HLs) in HL. rewrite HU in HL.
        rewrite Forall_forall in HL. apply Exists_exists in Hno as (u & Hu1 & Hu2). apply Hu2, HL. exact Hu1.
  Qed.

  (** The canonical index of compressed positions. *)
  Lemma canon_blocks s shape diag ks : extents_ok s shape -> inb (dims diag (group_ncs s shape)) ks ->
    let idx := unperm (concat (groups s)) (concat (canon diag (group_ncs s shape) ks)) in
    inb shape idx /\ blocks s idx = canon diag (group_ncs s shape) ks.
  Proof.
    intros Hext Hks idx. pose proof (groups_perm s) as HP. pose proof (@perm_seq_length _ _ HP) as HLc.
    pose proof (canon_inb _ _ Hks) as Hci. pose proof (inb_concat Hci) as Hcc.
    assert (Hsh : concat (shapes (group_ncs s shape)) = pick (concat (groups s)) shape).
    { rewrite <- shapes_flat. symmetry. apply (group_shape Hext). }
    assert (Hi : inb shape idx).
    { unfold idx. apply unperm_inb; [destruct Hext as [HL _]; rewrite HL; exact HP|]. rewrite Hsh in Hcc. exact Hcc. }
    split; [exact Hi|]. apply (@ravel_blocks_inj _ _ _ (blocks_inb Hext Hi) Hci). f_equal.
    rewrite blocks_concat. unfold idx, pick. apply gather_unperm; [rewrite HLc; exact HP|].
    rewrite (inb_length Hcc), Hsh, pick_length. reflexivity.
  Qed.

  Lemma gwl_id diag ncs symc ks : length symc = length ncs -> inb (dims diag ncs) ks ->
    exists L, gwl diag ncs symc L /\ map qu L = canon diag ncs ks /\ map qk L = ks /\ sign_of L = 1%Z.
  Proof.
    unfold gwl, dims, canon. revert symc ks; induction ncs as [|nc ncs IH]; intros symc ks HL H; cbn [map] in H; inversion H; subst.
    - destruct symc; [|discriminate]. exists []. repeat split. constructor.
    - destruct symc as [|y symc]; [discriminate|]. destruct (IH symc l ltac:(cbn in HL; lia)) as (L & G1 & G4 & G5 & G6); [assumption|].
      exists ((x, nth x (tril diag nc) [], 1%Z) :: L). split; [|split; [|split]].
      + constructor; [apply gw_id; assumption|exact G1].
      + cbn. f_equal. exact G4.
      + cbn. f_equal. exact G5.
      + unfold sign_of in *. cbn. rewrite G6. reflexivity.
  Qed.

  Lemma sgn_one (v : K) : v * sgn K 1 = v.
  Proof. change (sgn K 1) with (1 + 0 : K). ring. Qed.

  (** Lemma B: compressing a decompressed array. *)
  Lemma compress_decompress s (flat : arr K) shape diag symmetry symc D :
    extents_ok s shape ->
    symmetry_compress (map snd (group_ncs s shape)) (the_symm s symmetry) 0 = Ok symc ->
    (diag = false \/ Forall (fun y => y <> ch_minus) symc) ->
    length (dat flat) = prodn (dims diag (group_ncs s shape)) ->
    decompress_axes K s flat shape diag symmetry = Ok D ->
    compress_axes r0 s D diag = Ok (mkarr (dims diag (group_ncs s shape)) (dat flat)).
  Proof.
    intros Hext Hsymc Hgood Hflat HD.
    destruct (@decompress_char s flat shape diag symmetry symc Hext Hsymc Hgood Hflat) as (D' & HD' & Hs & Hw & Hval & _).
    assert (D' = D) by congruence. subst D'.
    pose proof (symmetry_compress_length _ _ _ Hsymc) as HLs. rewrite map_length in HLs.
    rewrite compress_ok by (rewrite Hs; exact Hext). rewrite Hs. f_equal.
    assert (Ht : tab (dims diag (group_ncs s shape)) (aget r0 (mkarr (dims diag (group_ncs s shape)) (dat flat))) =
      mkarr (dims diag (group_ncs s shape)) (dat flat)).
    { apply (@tab_aget K r0 (mkarr (dims diag (group_ncs s shape)) (dat flat))). exact Hflat. }
    rewrite <- Ht. apply tab_ext. intros ks Hks.
    destruct (@canon_blocks s shape diag ks Hext Hks) as [Hi Hb].
    destruct (@gwl_id diag (group_ncs s shape) symc ks HLs Hks) as (L & H1 & H2 & H3 & H4).
    rewrite (Hval _ L Hi H1) by (rewrite Hb; exact H2). rewrite H3, H4. apply sgn_one.
  Qed.
End Unpack.
