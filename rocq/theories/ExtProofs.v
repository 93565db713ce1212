(** Lemmas: open-mesh reads and writes, masks of orbital classes, folds over namespaces. *)
From Coq Require Import Sorted String Permutation Field.
From Verif Require Import Base ListAux Alg ArrModel ArrProofs PermModel PackProofs TensorModel TensorSpec EinsumModel SpaceModel SpaceProofs AnsatzModel AnsatzSpec
  AnsatzProofs AnsatzRanks DampProofs KernelProofs VecModel VecSpec VecProofs VecThms CcModel CcSpec CcProofs CcThms ExtModel ExtSpec.
Set Implicit Arguments.
Local Open Scope string_scope.
Local Open Scope list_scope.
Local Open Scope nat_scope.

(** * Open meshes. *)
Definition mesh_ok (s : list nat) (ix : list (list nat)) : Prop := Forall2 (fun l n => NoDup l /\ Forall (fun i => i < n) l) ix s.

Lemma placed_at ix js : placed ix js = at_idx ix js.
Proof. reflexivity. Qed.
Lemma placed_cons l ix j js : placed (l :: ix) (j :: js) = nth j l 0 :: placed ix js.
Proof. reflexivity. Qed.
Lemma placed_inb s ix js : mesh_ok s ix -> inb (map (@length nat) ix) js -> inb s (placed ix js).
Proof.
  intros H. revert js. induction H as [|l n ix s [_ Hl] H IH]; intros js Hj; inversion Hj; subst; [constructor|].
  rewrite placed_cons. constructor; [|apply IH; assumption]. rewrite Forall_forall in Hl. apply Hl, nth_In. assumption.
Qed.
Lemma placed_inj s ix : mesh_ok s ix -> forall js ks, inb (map (@length nat) ix) js -> inb (map (@length nat) ix) ks -> placed ix js = placed ix ks -> js = ks.
Proof.
  intros H. induction H as [|l n ix s [Hn Hl] H IH]; intros js ks Hj Hk E; inversion Hj; subst; inversion Hk; subst; [reflexivity|].
  rewrite !placed_cons in E. injection E as E1 E2. f_equal; [|apply IH; assumption].
  eapply NoDup_nth; eassumption.
Qed.
Lemma product_placed ix : product ix = map (placed ix) (all_idx (map (@length nat) ix)).
Proof. apply product_at_idx. Qed.
Lemma within_iff s idx : within s idx = true <-> inb s idx.
Proof.
  unfold within. rewrite Bool.andb_true_iff, Nat.eqb_eq. split.
  - intros [L H]. revert s L H. induction idx as [|i idx IH]; intros [|n s] L H; try discriminate; constructor; cbn in H; apply andb_prop in H; destruct H as [H1 H2].
    + apply Nat.ltb_lt, H1.
    + apply IH; [cbn in L; lia|exact H2].
  - intros H. induction H as [|i n idx s Hi H [L IH]]; [split; reflexivity|]. cbn [length combine forallb fst snd]. split; [lia|].
    apply Bool.andb_true_iff. split; [apply Nat.ltb_lt, Hi|exact IH].
Qed.
Lemma mesh_length s ix : mesh_ok s ix -> length ix = length s.
Proof. apply Forall2_len. Qed.
Lemma mesh_within s ix : mesh_ok s ix -> forallb (within s) (product ix) = true.
Proof.
  intros H. rewrite product_placed. apply forallb_forall. intros idx Hi. apply in_map_iff in Hi. destruct Hi as (js & <- & Hj).
  apply within_iff. eapply placed_inb; [exact H|]. apply all_idx_in, Hj.
Qed.
Lemma mesh_range s ix : mesh_ok s ix -> forallb (fun p => forallb (fun i => i <? snd p) (fst p)) (combine ix s) = true.
Proof.
  intros H. induction H as [|l n ix s [_ Hl] H IH]; [reflexivity|]. cbn [combine forallb fst snd]. rewrite IH, Bool.andb_true_r.
  apply forallb_forall. intros i Hi. apply Nat.ltb_lt. rewrite Forall_forall in Hl. apply Hl, Hi.
Qed.
Lemma placed_find ix idx : {js | inb (map (@length nat) ix) js /\ placed ix js = idx} + {forall js, inb (map (@length nat) ix) js -> idx <> placed ix js}.
Proof.
  destruct (in_dec (list_eq_dec Nat.eq_dec) idx (product ix)) as [H|H].
  - left. rewrite product_placed in H. revert H. generalize (all_idx_in (map (@length nat) ix)). generalize (all_idx (map (@length nat) ix)). intros l Hl Hi.
    destruct (find (fun js => if list_eq_dec Nat.eq_dec (placed ix js) idx then true else false) l) as [js|] eqn:Ef.
    + apply find_some in Ef. destruct Ef as [E1 E2]. exists js. split; [apply Hl, E1|]. destruct (list_eq_dec Nat.eq_dec (placed ix js) idx); [assumption|discriminate].
    + exfalso. apply in_map_iff in Hi. destruct Hi as (js & E & Hj). pose proof (find_none _ _ Ef js Hj) as Hn. cbn in Hn.
      destruct (list_eq_dec Nat.eq_dec (placed ix js) idx); [discriminate|congruence].
  - right. intros js Hj ->. apply H. rewrite product_placed. apply in_map, all_idx_in, Hj.
Qed.

Section Arr.
  Variable F : fld.
  Add Field Ffield12 : (fth F).
  Local Open Scope rng_scope.

  Lemma put_ix_ok (x v : arr F) ix : wf x -> wf v -> mesh_ok (shp x) ix -> shp v = map (@length nat) ix ->
    exists y, put_ix 0 x ix v = Ok y /\ replaced ix x v y.
  Proof.
    intros Wx Wv M Sv. unfold put_ix. rewrite (mesh_length M), Nat.eqb_refl. cbn [negb]. rewrite (mesh_within M). eexists. split; [reflexivity|].
    unfold np_put. set (ws := put_writes 0 (map (ravel (shp x)) (product ix)) (dat v)).
    assert (Lv : length (dat v) = length (map (ravel (shp x)) (product ix))).
    { rewrite map_length, product_placed, map_length, all_idx_length, <- Sv. exact Wv. }
    assert (Hin : forall p w, In (p, w) ws <-> exists js, inb (shp v) js /\ p = ravel (shp x) (placed ix js) /\ w = aget 0 v js).
    { intros p w. unfold ws. rewrite put_writes_in by exact Lv. rewrite map_length, product_placed, map_length, all_idx_length, <- Sv. split.
      - intros (k & Hk & -> & ->). destruct (@ravel_surj _ _ Hk) as (js & Hj & <-). exists js. split; [exact Hj|]. split; [|reflexivity].
        rewrite map_map. rewrite (nth_map_lt _ _ 0%nat []) by (rewrite all_idx_length; apply ravel_lt, Hj). rewrite all_idx_nth by exact Hj. reflexivity.
      - intros (js & Hj & -> & ->). exists (ravel (shp v) js). split; [apply ravel_lt, Hj|]. split; [|reflexivity].
        rewrite map_map. rewrite (nth_map_lt _ _ 0%nat []) by (rewrite all_idx_length; apply ravel_lt, Hj). rewrite all_idx_nth by exact Hj. reflexivity. }
    unfold replaced. cbn [shp]. split; [|split; [reflexivity|split]].
    - unfold wf in *. cbn [dat shp]. rewrite writes_length. exact Wx.
    - intros js Hj. assert (Hb : inb (shp x) (placed ix js)) by (eapply placed_inb; [exact M|rewrite <- Sv; exact Hj]). split; [exact Hb|].
      unfold aget at 1. cbn [shp dat]. apply writes_in.
      + rewrite Wx. apply ravel_lt, Hb.
      + apply Hin. exists js. auto.
      + intros v' Hv'. apply Hin in Hv'. destruct Hv' as (ks & Hk & E & ->). f_equal.
        eapply (@placed_inj _ _ M); [rewrite <- Sv; exact Hk|rewrite <- Sv; exact Hj|].
        symmetry. eapply ravel_inj; [exact Hb| |exact E]. eapply placed_inb; [exact M|rewrite <- Sv; exact Hk].
    - intros idx Hi Hn. unfold aget. cbn [shp dat]. apply writes_notin. intros Hm. apply in_map_iff in Hm. destruct Hm as ([p w] & Ep & Hp).
      cbn in Ep. subst p. apply Hin in Hp. destruct Hp as (js & Hj & E & _). apply (Hn js Hj).
      eapply ravel_inj; [exact Hi| |exact E]. eapply placed_inb; [exact M|rewrite <- Sv; exact Hj].
  Qed.

  Lemma get_ix_ok (x : arr F) ix : wf x -> mesh_ok (shp x) ix ->
    exists y, get_ix 0 x ix = Ok y /\ wf y /\ shp y = map (@length nat) ix /\ forall js, inb (map (@length nat) ix) js -> aget 0 y js = aget 0 x (placed ix js).
  Proof.
    intros Wx M. unfold get_ix. rewrite (mesh_length M), Nat.eqb_refl. cbn [negb]. rewrite (mesh_range M). eexists. split; [reflexivity|].
    split; [|split; [reflexivity|]].
    - unfold wf. cbn [dat shp]. rewrite map_length, product_placed, map_length, all_idx_length. reflexivity.
    - intros js Hj. unfold aget at 1. cbn [shp dat]. rewrite product_placed, map_map.
      rewrite (nth_map_lt _ _ 0 []) by (rewrite all_idx_length; apply ravel_lt, Hj). rewrite all_idx_nth by exact Hj. reflexivity.
  Qed.

  (** At most one element of a block lands on an index. *)
  Lemma scattered_at ix (v : arr F) s js : mesh_ok s ix -> shp v = map (@length nat) ix -> inb (shp v) js -> scattered ix v (placed ix js) = aget 0 v js.
  Proof.
    intros M Sv Hj. unfold scattered.
    assert (G : forall l, NoDup l -> (forall k, In k l -> inb (shp v) k) ->
      rsum (map (fun k => if list_eq_dec Nat.eq_dec (placed ix k) (placed ix js) then aget 0 v k else 0) l) = if in_dec (list_eq_dec Nat.eq_dec) js l then aget 0 v js else 0).
    { induction l as [|k l IH]; intros ND Hl; [reflexivity|]. inversion ND as [|? ? Nk NDl]; subst. cbn [map]. rewrite rsum_cons, IH by (auto; intros; apply Hl; right; assumption).
      destruct (list_eq_dec Nat.eq_dec (placed ix k) (placed ix js)) as [E|E].
      - assert (k = js) as -> by (eapply (@placed_inj _ _ M); try (rewrite <- Sv); auto; apply Hl; left; reflexivity).
        destruct (in_dec _ js l); [contradiction|]. destruct (in_dec _ js (js :: l)) as [_|N]; [ring|exfalso; apply N; left; reflexivity].
      - destruct (in_dec _ js l) as [I|N]; destruct (in_dec _ js (k :: l)) as [I'|N']; try ring.
        + exfalso. apply N'. right. exact I.
        + destruct I' as [->|I']; [congruence|contradiction]. }
    rewrite G; [|apply all_idx_nodup|intros k; apply all_idx_in]. destruct (in_dec _ js (all_idx (shp v))) as [_|N]; [reflexivity|]. exfalso. apply N, all_idx_in, Hj.
  Qed.
  Lemma scattered_none ix (v : arr F) idx : (forall js, inb (shp v) js -> idx <> placed ix js) -> scattered ix v idx = 0.
  Proof.
    intros H. unfold scattered. apply rsum_map_0. intros js Hj. destruct (list_eq_dec Nat.eq_dec (placed ix js) idx) as [E|]; [|reflexivity].
    exfalso. apply (H js); [apply all_idx_in, Hj|congruence].
  Qed.

  Lemma add_block_ok ms (x v : arr F) : wf x -> wf v -> mesh_ok (shp x) (map nonzero ms) -> shp v = map (@length nat) (map nonzero ms) ->
    exists y, add_block (Ok ms) x v = Ok y /\ wf y /\ shp y = shp x /\
      forall idx, inb (shp x) idx -> aget 0 y idx = aget 0 x idx + scattered (map nonzero ms) v idx.
  Proof.
    intros Wx Wv M Sv. unfold add_block. cbn [bind]. destruct (@get_ix_ok x _ Wx M) as (o & -> & Wo & So & Go). cbn [bind].
    destruct (@zip_ok F radd o v Wo Wv) as (s & Es & Ws & Ss & Gs); [rewrite So, Sv; reflexivity|]. unfold plus_arr. rewrite Es. cbn [bind].
    destruct (@put_ix_ok x s _ Wx Ws M) as (y & -> & Wy & Sy & G1 & G2); [rewrite Ss; exact So|]. exists y. split; [reflexivity|]. split; [exact Wy|]. split; [exact Sy|].
    intros idx Hi. destruct (placed_find (map nonzero ms) idx) as [(js & Hj & <-)|Hn].
    - rewrite (@scattered_at _ _ (shp x)) by (auto; rewrite Sv; exact Hj). destruct (G1 js) as [_ ->]; [rewrite Ss, So; exact Hj|].
      rewrite Gs by (rewrite So; exact Hj). rewrite Go by exact Hj. reflexivity.
    - rewrite scattered_none by (rewrite Sv; exact Hn). rewrite G2 by (auto; rewrite Ss, So; exact Hn). ring.
  Qed.
End Arr.

(** * Positions of an orbital class. *)
Lemma nonzero_cons b m : nonzero (b :: m) = (if b then [0] else []) ++ map S (nonzero m).
Proof.
  unfold nonzero. cbn [length seq combine filter fst]. rewrite <- seq_shift.
  assert (G : forall l, map snd (filter fst (combine m (map S l))) = map S (map snd (filter fst (combine m l)))).
  { induction m as [|c m IH]; intros [|i l]; try reflexivity. cbn. destruct c; cbn; rewrite IH; reflexivity. }
  destruct b; cbn [map snd app]; rewrite G; reflexivity.
Qed.
Lemma select_cons {A} b m (x : A) l : select (b :: m) (x :: l) = (if b then [x] else []) ++ select m l.
Proof. unfold select. cbn. destruct b; reflexivity. Qed.
Lemma msum_cons b m : msum (b :: m) = (if b then 1 else 0) + msum m.
Proof. unfold msum. cbn. destruct b; reflexivity. Qed.
Lemma filter_S f l : filter f (map S l) = map S (filter (fun p => f (S p)) l).
Proof. induction l as [|p l IH]; [reflexivity|]. cbn [map filter]. destruct (f (S p)); cbn [map]; rewrite IH; reflexivity. Qed.
Lemma nonzero_select a : forall m, length m = length a ->
  nonzero (select a m) = map (fun p => msum (firstn p a)) (filter (fun p => nth p a false && nth p m false) (seq 0 (length a))).
Proof.
  induction a as [|b a IH]; intros [|c m] L; try discriminate; [reflexivity|]. cbn in L. injection L as L.
  rewrite select_cons. cbn [length seq]. rewrite <- seq_shift. remember (seq 0 (length a)) as sq eqn:Esq. cbn [filter]. change (nth 0 (b :: a) false) with b. change (nth 0 (c :: m) false) with c. subst sq.
  assert (G : map (fun p => msum (firstn p (b :: a))) (filter (fun p => nth p (b :: a) false && nth p (c :: m) false) (map S (seq 0 (length a)))) =
              map (fun q => (if b then 1 else 0) + q) (nonzero (select a m))).
  { rewrite (IH m L), filter_S, !map_map. apply map_ext. intros p. cbn [firstn]. apply msum_cons. }
  destruct b, c; cbn [andb map app]; rewrite ?nonzero_cons; cbn [app]; rewrite G.
  - cbn. f_equal.
  - reflexivity.
  - symmetry. rewrite <- (map_id (nonzero (select a m))) at 2. reflexivity.
  - symmetry. rewrite <- (map_id (nonzero (select a m))) at 2. reflexivity.
Qed.
Lemma msum_firstn a p : p <= length a -> msum (firstn p a) = length (filter (fun q => nth q a false) (seq 0 p)).
Proof.
  revert p; induction a as [|b a IH]; intros [|p] H; cbn in H; try lia; try reflexivity. cbn [firstn]. rewrite msum_cons, IH by lia.
  cbn [seq filter nth]. rewrite <- seq_shift. destruct b; cbn [length]; rewrite filter_S, map_length; reflexivity.
Qed.

Lemma valid_lengths s : valid_space s -> length (sp_frozen s) = length (sp_occupied s) /\ length (sp_active s) = length (sp_occupied s).
Proof.
  unfold valid_space, make_space. destruct ((length (sp_occupied s) =? length (sp_frozen s)) && (length (sp_frozen s) =? length (sp_active s))) eqn:E; [|discriminate].
  apply andb_prop in E. destruct E as [E1 E2]. apply Nat.eqb_eq in E1, E2. intros _. lia.
Qed.
Lemma mand_length a b : length a = length b -> length (mand a b) = length b.
Proof. intros H. unfold mand. rewrite map_length, combine_length. lia. Qed.
Lemma nth_mand a b p : length a = length b -> nth p (mand a b) false = nth p a false && nth p b false.
Proof.
  unfold mand. revert a p; induction b as [|y b IH]; intros [|x a] p L; try discriminate; [destruct p; reflexivity|]. destruct p; [reflexivity|]. cbn. apply IH. cbn in L. lia.
Qed.
Lemma nth_mnot a p : p < length a -> nth p (mnot a) false = negb (nth p a false).
Proof. intros H. unfold mnot. rewrite (nth_map_lt _ _ false false) by exact H. reflexivity. Qed.
Lemma mnot_length a : length (mnot a) = length a.
Proof. apply map_length. Qed.

(** The mask of a class within its sector. *)
Lemma sector_mask_ok s c : valid_space s -> In c class_letters -> exists sector m,
  sector_mask s c = Ok (select sector m) /\ length sector = length (sp_occupied s) /\ length m = length (sp_occupied s) /\
  forall p, p < length (sp_occupied s) -> nth p sector false && nth p m false = in_class s c p /\
    (in_class s c p = true -> forall q, q < length (sp_occupied s) -> nth q sector false = Bool.eqb (occupied_at s q) (occupied_at s p)).
Proof.
  intros V H. destruct (valid_lengths V) as [L1 L2].
  assert (Hocc : forall (m : mask) c (cls : nat -> bool), sp_mask s c = Ok m -> memb c (str "ioO") = true -> length m = length (sp_occupied s) ->
    (forall p, p < length (sp_occupied s) -> occupied_at s p && nth p m false = in_class s c p) -> exists sector m,
    sector_mask s c = Ok (select sector m) /\ length sector = length (sp_occupied s) /\ length m = length (sp_occupied s) /\
    forall p, p < length (sp_occupied s) -> nth p sector false && nth p m false = in_class s c p /\
      (in_class s c p = true -> forall q, q < length (sp_occupied s) -> nth q sector false = Bool.eqb (occupied_at s q) (occupied_at s p))).
  { intros m c0 cls E1 E2 E3 E4. exists (sp_occupied s), m. unfold sector_mask, omask. rewrite E2, E1. split; [reflexivity|]. split; [reflexivity|]. split; [exact E3|].
    intros p Hp. split; [apply E4, Hp|]. intros I q Hq. rewrite <- (E4 p Hp) in I. apply andb_prop in I. destruct I as [-> _]. unfold occupied_at. destruct (nth q _ false); reflexivity. }
  assert (Hvir : forall (m : mask) c (cls : nat -> bool), sp_mask s c = Ok m -> memb c (str "ioO") = false -> length m = length (sp_occupied s) ->
    (forall p, p < length (sp_occupied s) -> negb (occupied_at s p) && nth p m false = in_class s c p) -> exists sector m,
    sector_mask s c = Ok (select sector m) /\ length sector = length (sp_occupied s) /\ length m = length (sp_occupied s) /\
    forall p, p < length (sp_occupied s) -> nth p sector false && nth p m false = in_class s c p /\
      (in_class s c p = true -> forall q, q < length (sp_occupied s) -> nth q sector false = Bool.eqb (occupied_at s q) (occupied_at s p))).
  { intros m c0 cls E1 E2 E3 E4. exists (virtual s), m. unfold sector_mask, vmask. rewrite E2, E1. split; [reflexivity|]. unfold virtual.
    split; [apply mnot_length|]. split; [exact E3|].
    intros p Hp. rewrite nth_mnot by exact Hp. split; [apply E4, Hp|]. intros I q Hq. rewrite nth_mnot by exact Hq.
    rewrite <- (E4 p Hp) in I. apply andb_prop in I. destruct I as [I _]. apply Bool.negb_true_iff in I. rewrite I. unfold occupied_at. destruct (nth q _ false); reflexivity. }
  cbn in H. destruct H as [<-|[<-|[<-|[<-|[<-|[<-|[]]]]]]].
  - apply (Hocc (correlated_occupied s) _ (fun _ => true)); try reflexivity.
    + unfold correlated_occupied, correlated. apply mand_length. rewrite mnot_length. exact L1.
    + intros p Hp. unfold correlated_occupied, correlated. rewrite nth_mand by (rewrite mnot_length; exact L1). rewrite nth_mnot by lia.
      unfold in_class, occupied_at, frozen_at. cbn [Nat.eqb]. change (111 =? chr_of "o") with true. cbn [andb].
      destruct (nth p (sp_occupied s) false); cbn; [rewrite Bool.andb_true_r|]; reflexivity.
  - apply (Hocc (active_occupied s) _ (fun _ => true)); try reflexivity.
    + unfold active_occupied. apply mand_length. exact L2.
    + intros p Hp. unfold active_occupied. rewrite nth_mand by exact L2. unfold in_class, occupied_at, active_at.
      change (79 =? chr_of "o") with false. change (79 =? chr_of "O") with true. cbv iota.
      destruct (nth p (sp_occupied s) false); cbn; [rewrite Bool.andb_true_r|]; reflexivity.
  - apply (Hocc (inactive_occupied s) _ (fun _ => true)); try reflexivity.
    + unfold inactive_occupied, inactive. apply mand_length. rewrite mnot_length. exact L2.
    + intros p Hp. unfold inactive_occupied, inactive. rewrite nth_mand by (rewrite mnot_length; exact L2). rewrite nth_mnot by lia. unfold in_class, occupied_at, active_at.
      change (105 =? chr_of "o") with false. change (105 =? chr_of "O") with false. change (105 =? chr_of "i") with true. cbv iota.
      destruct (nth p (sp_occupied s) false); cbn; [rewrite Bool.andb_true_r|]; reflexivity.
  - apply (Hvir (correlated_virtual s) _ (fun _ => true)); try reflexivity.
    + unfold correlated_virtual, correlated, virtual. rewrite mand_length; rewrite !mnot_length; [reflexivity|exact L1].
    + intros p Hp. unfold correlated_virtual, correlated, virtual. rewrite nth_mand by (rewrite !mnot_length; exact L1). rewrite !nth_mnot by lia.
      unfold in_class, occupied_at, frozen_at. change (118 =? chr_of "o") with false. change (118 =? chr_of "O") with false. change (118 =? chr_of "i") with false. change (118 =? chr_of "v") with true. cbv iota.
      destruct (nth p (sp_occupied s) false); cbn; [|rewrite Bool.andb_true_r]; reflexivity.
  - apply (Hvir (active_virtual s) _ (fun _ => true)); try reflexivity.
    + unfold active_virtual, virtual. rewrite mand_length; rewrite !mnot_length; [reflexivity|exact L2].
    + intros p Hp. unfold active_virtual, virtual. rewrite nth_mand by (rewrite !mnot_length; exact L2). rewrite !nth_mnot by lia.
      unfold in_class, occupied_at, active_at. change (86 =? chr_of "o") with false. change (86 =? chr_of "O") with false. change (86 =? chr_of "i") with false. change (86 =? chr_of "v") with false. change (86 =? chr_of "V") with true. cbv iota.
      destruct (nth p (sp_occupied s) false); cbn; [|rewrite Bool.andb_true_r]; reflexivity.
  - apply (Hvir (inactive_virtual s) _ (fun _ => true)); try reflexivity.
    + unfold inactive_virtual, inactive, virtual. rewrite mand_length; rewrite !mnot_length; [reflexivity|exact L2].
    + intros p Hp. unfold inactive_virtual, inactive, virtual. rewrite nth_mand by (rewrite !mnot_length; exact L2). rewrite !nth_mnot by lia.
      unfold in_class, occupied_at, active_at. change (97 =? chr_of "o") with false. change (97 =? chr_of "O") with false. change (97 =? chr_of "i") with false. change (97 =? chr_of "v") with false. change (97 =? chr_of "V") with false. change (97 =? chr_of "a") with true. cbv iota.
      destruct (nth p (sp_occupied s) false); cbn; [|rewrite Bool.andb_true_r]; reflexivity.
Qed.

Lemma filter_seq_ext f g n : (forall p, p < n -> f p = g p) -> filter f (seq 0 n) = filter g (seq 0 n).
Proof. intros H. apply filter_ext_in. intros p Hp. apply H. apply in_seq in Hp. lia. Qed.

Lemma sector_positions s c : valid_space s -> In c class_letters -> frozen_beyond s c ->
  exists m, sector_mask s c = Ok m /\ nonzero m = positions s c.
Proof.
  intros V H FB. destruct (sector_mask_ok V H) as (sector & m & -> & Ls & Lm & P). eexists. split; [reflexivity|].
  rewrite nonzero_select by congruence. unfold positions, orbitals. rewrite Ls.
  rewrite (filter_seq_ext _ (in_class s c)) by (intros p Hp; apply P, Hp). apply map_ext_in. intros p Hp. apply filter_In in Hp. destruct Hp as [Hp Hc].
  apply in_seq in Hp. destruct (P p ltac:(lia)) as [_ Hq]. specialize (Hq Hc). rewrite msum_firstn by lia. unfold axis_position. f_equal.
  apply filter_seq_ext. intros q Hlt. rewrite Hq by lia. destruct (Bool.eqb (occupied_at s q) (occupied_at s p)) eqn:E; [|reflexivity].
  rewrite (FB q p); [reflexivity|lia|lia|exact Hc|]. apply Bool.eqb_prop, E.
Qed.

(** Positions are distinct and within the axis. *)
Lemma class_sector s c p : In c class_letters -> in_class s c p = true -> occupied_at s p = memb c (str "ioO").
Proof.
  intros H I. cbn in H. destruct H as [<-|[<-|[<-|[<-|[<-|[<-|[]]]]]]].
  - change (occupied_at s p && negb (frozen_at s p) = true) in I. apply andb_prop in I. exact (proj1 I).
  - change (occupied_at s p && active_at s p = true) in I. apply andb_prop in I. exact (proj1 I).
  - change (occupied_at s p && negb (active_at s p) = true) in I. apply andb_prop in I. exact (proj1 I).
  - change (negb (occupied_at s p) && negb (frozen_at s p) = true) in I. apply andb_prop in I. apply Bool.negb_true_iff, (proj1 I).
  - change (negb (occupied_at s p) && active_at s p = true) in I. apply andb_prop in I. apply Bool.negb_true_iff, (proj1 I).
  - change (negb (occupied_at s p) && negb (active_at s p) = true) in I. apply andb_prop in I. apply Bool.negb_true_iff, (proj1 I).
Qed.
Lemma axis_position_lt s p q : p < q -> occupied_at s p = occupied_at s q -> frozen_at s p = false -> axis_position s p < axis_position s q.
Proof.
  intros Hpq E Hf. unfold axis_position. rewrite E. assert (Eq : seq 0 q = seq 0 p ++ seq p (S (q - p - 1))) by (rewrite <- (seq_app p _ 0); f_equal; lia).
  rewrite Eq, filter_app, app_length. cbn [seq filter].
  rewrite E, Hf, Bool.eqb_reflx. cbn [negb andb length]. lia.
Qed.
Lemma orbitals_sector s c p : In p (orbitals s c) <-> p < length (sp_occupied s) /\ in_class s c p = true.
Proof. unfold orbitals. rewrite filter_In, in_seq. intuition lia. Qed.
Lemma in_o s p : in_class s (chr_of "o") p = occupied_at s p && negb (frozen_at s p).
Proof. reflexivity. Qed.
Lemma in_v s p : in_class s (chr_of "v") p = negb (occupied_at s p) && negb (frozen_at s p).
Proof. reflexivity. Qed.
Lemma positions_ok s c : valid_space s -> In c class_letters -> frozen_beyond s c ->
  NoDup (positions s c) /\ Forall (fun i => i < length (orbitals s (sector_letter s c))) (positions s c).
Proof.
  intros V H FB. split.
  - unfold positions. apply NoDup_map_inj; [apply NoDup_filter, seq_NoDup|].
    intros p q Hp Hq E. apply orbitals_sector in Hp, Hq. destruct Hp as [Hp Cp], Hq as [Hq Cq].
    assert (EO : occupied_at s p = occupied_at s q) by (rewrite (class_sector _ _ H Cp), (class_sector _ _ H Cq); reflexivity).
    destruct (lt_eq_lt_dec p q) as [[L|L]|L]; [|exact L|].
    + pose proof (@axis_position_lt s p q L EO (FB p p (le_n _) Hp Cp eq_refl)). lia.
    + pose proof (@axis_position_lt s q p L (eq_sym EO) (FB q q (le_n _) Hq Cq eq_refl)). lia.
  - apply Forall_forall. intros i Hi. unfold positions in Hi. apply in_map_iff in Hi. destruct Hi as (p & <- & Hp). apply orbitals_sector in Hp. destruct Hp as [Hp Cp].
    pose proof (FB p p (le_n _) Hp Cp eq_refl) as Fp. pose proof (class_sector _ _ H Cp) as Op.
    unfold axis_position, orbitals. assert (Eq : seq 0 (length (sp_occupied s)) = seq 0 p ++ seq p (S (length (sp_occupied s) - p - 1))) by (rewrite <- (seq_app p _ 0); f_equal; lia).
    rewrite Eq, filter_app, app_length. cbn [seq filter].
    assert (G : forall q, in_class s (sector_letter s c) q = Bool.eqb (occupied_at s q) (occupied_at s p) && negb (frozen_at s q)).
    { intros q. unfold sector_letter. rewrite Op. destruct (memb c (str "ioO")); [rewrite in_o|rewrite in_v]; destruct (occupied_at s q); reflexivity. }
    rewrite (filter_ext _ _ G (seq 0 p)), G, Fp, Bool.eqb_reflx. cbn [negb andb length]. lia.
Qed.

(** Sizes. *)
Lemma msum_count m : msum m = length (filter (fun q => nth q m false) (seq 0 (length m))).
Proof. rewrite <- msum_firstn by lia. rewrite firstn_all. reflexivity. Qed.
Lemma size_orbitals s c : valid_space s -> In c (str "oOvV") -> sp_size s c = Ok (length (orbitals s c)).
Proof.
  intros V H. destruct (valid_lengths V) as [L1 L2]. unfold orbitals.
  cbn in H. destruct H as [<-|[<-|[<-|[<-|[]]]]].
  - change (sp_size s 111) with (Ok (ncocc s)). apply (f_equal (@Ok nat)). unfold ncocc, correlated_occupied, correlated. rewrite msum_count, mand_length by (rewrite mnot_length; exact L1). f_equal.
    apply filter_seq_ext. intros p Hp. rewrite nth_mand by (rewrite mnot_length; exact L1). rewrite nth_mnot by lia. change 111 with (chr_of "o"). rewrite in_o. apply Bool.andb_comm.
  - change (sp_size s 79) with (Ok (naocc s)). apply (f_equal (@Ok nat)). unfold naocc, active_occupied. rewrite msum_count, mand_length by exact L2. f_equal.
    apply filter_seq_ext. intros p Hp. rewrite nth_mand by exact L2. apply Bool.andb_comm.
  - change (sp_size s 118) with (Ok (ncvir s)). apply (f_equal (@Ok nat)). unfold ncvir, correlated_virtual, correlated, virtual. rewrite msum_count, mand_length by (rewrite !mnot_length; exact L1). rewrite mnot_length. f_equal.
    apply filter_seq_ext. intros p Hp. rewrite nth_mand by (rewrite !mnot_length; exact L1). rewrite !nth_mnot by lia. change 118 with (chr_of "v"). rewrite in_v. apply Bool.andb_comm.
  - change (sp_size s 86) with (Ok (navir s)). apply (f_equal (@Ok nat)). unfold navir, active_virtual, virtual. rewrite msum_count, mand_length by (rewrite mnot_length; exact L2). rewrite mnot_length. f_equal.
    apply filter_seq_ext. intros p Hp. rewrite nth_mand by (rewrite mnot_length; exact L2). rewrite nth_mnot by lia. apply Bool.andb_comm.
Qed.

(** * Folds over a namespace which replace or leave the named entries. *)
Lemma dset_fst {A} k (v : A) d : dget pystr_eq_dec k d <> None -> map fst (dset pystr_eq_dec k v d) = map fst d.
Proof.
  induction d as [|[k1 v1] d IH]; cbn; [congruence|]. destruct (pystr_eq_dec k k1) as [->|]; [reflexivity|]. intros H. cbn. rewrite IH by exact H. reflexivity.
Qed.
Lemma fold_opt {E V} (nm : E -> pystr) (step : dict pystr V -> E -> result (dict pystr V)) (P : E -> option V -> Prop) : forall l d, NoDup (map nm l) ->
  (forall e, In e l -> exists o, P e o /\ (o <> None -> dget pystr_eq_dec (nm e) d <> None) /\
     forall d', dget pystr_eq_dec (nm e) d' = dget pystr_eq_dec (nm e) d -> step d' e = match o with None => Ok d' | Some v => Ok (dset pystr_eq_dec (nm e) v d') end) ->
  exists out, foldM step l d = Ok out /\ map fst out = map fst d /\
    (forall x, ~ In x (map nm l) -> dget pystr_eq_dec x out = dget pystr_eq_dec x d) /\
    (forall e, In e l -> exists o, P e o /\ dget pystr_eq_dec (nm e) out = match o with None => dget pystr_eq_dec (nm e) d | Some v => Some v end).
Proof.
  induction l as [|e l IH]; intros d ND H; cbn [foldM].
  - exists d. split; [reflexivity|]. split; [reflexivity|]. split; [reflexivity|]. intros ? [].
  - destruct (H e (or_introl eq_refl)) as (o & Po & Pd & St). rewrite (St d eq_refl). cbn [map] in ND. inversion ND as [|? ? N1 N2]; subst.
    assert (NE : forall e', In e' l -> nm e' <> nm e) by (intros e' Hi E'; apply N1; rewrite <- E'; apply in_map, Hi).
    set (d1 := match o with None => d | Some v => dset pystr_eq_dec (nm e) v d end).
    assert (E1 : (match o with None => Ok d | Some v => Ok (dset pystr_eq_dec (nm e) v d) end) = Ok d1) by (destruct o; reflexivity). rewrite E1. cbn [bind].
    assert (DG : forall x, x <> nm e -> dget pystr_eq_dec x d1 = dget pystr_eq_dec x d).
    { intros x Hx. unfold d1. destruct o; [|reflexivity]. rewrite (@dget_dset _ _ pystr_eq_dec). destruct (pystr_eq_dec x (nm e)); [congruence|reflexivity]. }
    assert (K1 : map fst d1 = map fst d) by (unfold d1; destruct o; [apply dset_fst, Pd; discriminate|reflexivity]).
    destruct (IH d1 N2) as (out & -> & KO & O1 & O2).
    { intros e' He'. destruct (H e' (or_intror He')) as (o' & Po' & Pd' & St'). exists o'. split; [exact Po'|].
      rewrite (DG (nm e')) by (apply NE, He'). split; [exact Pd'|]. exact St'. }
    exists out. split; [reflexivity|]. split; [congruence|]. split.
    + intros x Hx. cbn [map In] in Hx. rewrite O1 by tauto. apply DG. intros ->. apply Hx. left. reflexivity.
    + intros e' [<-|He'].
      * exists o. split; [exact Po|]. rewrite O1 by exact N1. unfold d1. destruct o; [|reflexivity]. rewrite (@dget_dset _ _ pystr_eq_dec).
        destruct (pystr_eq_dec (nm e) (nm e)); [reflexivity|congruence].
      * destruct (O2 e' He') as (o' & Po' & E'). exists o'. split; [exact Po'|]. rewrite E', (DG (nm e')) by (apply NE, He'). reflexivity.
Qed.
