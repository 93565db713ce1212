(** Lemmas about the amplitude updates. *)
From Coq Require Import Sorted String Permutation Field.
From Verif Require Import Base ListAux Alg ArrModel ArrProofs PermModel TensorModel TensorSpec EinsumModel SpaceModel AnsatzModel AnsatzSpec
  AnsatzProofs AnsatzRanks DampProofs KernelProofs VecModel VecSpec VecProofs VecThms CcModel CcSpec CcProofs.
Set Implicit Arguments.
Local Open Scope string_scope.
Local Open Scope list_scope.
Local Open Scope nat_scope.

(** * Names. *)
Definition ends_well (s : pystr) : Prop := match rev s with [] => True | c :: _ => memb c (str "new") = false end.
Lemma rstrip_new s : ends_well s -> rstrip (str "new") (s ++ str "new") = s.
Proof.
  unfold ends_well, rstrip. rewrite rev_app_distr. change (rev (str "new")) with (str "wen"). intros H.
  change (rev (str "wen" ++ rev s)) with (rev (str "wen" ++ rev s)).
  transitivity (rev (rev s)); [|apply rev_involutive]. f_equal.
  destruct (rev s) as [|c l]; [reflexivity|]. change (str "wen" ++ c :: l) with (119 :: 101 :: 110 :: c :: l). cbn [memb existsb].
  cbn. unfold memb in H. cbn in H. rewrite H. reflexivity.
Qed.
Lemma digit_ok d : d < 10 -> memb (48 + d) (str "new") = false.
Proof. intros H. destruct (memb (48 + d) (str "new")) eqn:E; [|reflexivity]. apply memb_In in E. cbn in E. lia. Qed.
Lemma ends_snoc s c : memb c (str "new") = false -> ends_well (s ++ [c]).
Proof. unfold ends_well. rewrite rev_app_distr. cbn. auto. Qed.
Lemma dec_fuel_ends fuel : forall n, n < fuel -> exists s d, dec_fuel fuel n = s ++ [48 + d] /\ d < 10.
Proof.
  induction fuel as [|f IH]; intros n Hn; [lia|]. cbn [dec_fuel]. destruct (Nat.ltb_spec n 10).
  - exists [], n. split; [reflexivity|lia].
  - exists (dec_fuel f (n / 10)), (n mod 10). split; [reflexivity|apply Nat.mod_upper_bound; lia].
Qed.
Lemma dec_ends n : exists s d, dec n = s ++ [48 + d] /\ d < 10.
Proof. apply dec_fuel_ends. lia. Qed.
Lemma ends_dec s n : ends_well (s ++ dec n).
Proof. destruct (dec_ends n) as (s' & d & -> & H). rewrite app_assoc. apply ends_snoc, digit_ok, H. Qed.
Lemma entry_ends w e : entry_ok w e -> ends_well (fst (fst e)).
Proof.
  destruct e as [[name key] r]. intros (_ & (sf & -> & [->|(_ & [->| ->])]) & _); cbn [fst].
  - rewrite app_nil_r. apply ends_dec.
  - rewrite app_assoc. apply ends_snoc. reflexivity.
  - rewrite app_assoc. apply ends_snoc. reflexivity.
Qed.

Lemma clusters_facts a rspin w l : w = Wt \/ w = Wl -> clusters a rspin w l ->
  forall name key, In (name, key) l -> ends_well name /\ key <> [].
Proof.
  intros Hw (fs & bs & cs & Ef & Eb & Ec & ->) name key Hin. rewrite !in_app_iff in Hin. destruct Hin as [H|[H|H]].
  - apply in_map_iff in H. destruct H as (e & E & He). destruct (@fermionic_entries _ _ _ _ Ef) as (_ & _ & F2). specialize (F2 _ He). split.
    + replace name with (fst (fst e)) by (rewrite E; reflexivity). exact (@entry_ends w e F2).
    + destruct (@entry_len _ _ Hw F2) as [L1 L2]. rewrite E in L1. cbn [snd fst] in L1. intros ->. cbn in L1. lia.
  - apply in_map_iff in H. destruct H as ([[n k] r] & E & He). cbn [fst] in E. apply pair_equal_spec in E. destruct E as [-> ->]. destruct (@boson_wf _ _ _ Eb) as (_ & _ & B). destruct (B _ _ _ He) as (-> & -> & Hr). split; [apply ends_dec|].
    destruct r; [lia|discriminate].
  - apply in_map_iff in H. destruct H as ([[[n k] nf] nb] & E & He). cbn [fst] in E. apply pair_equal_spec in E. destruct E as [-> ->]. destruct (coupling_wf a Hw) as (cs' & Ec' & _ & W & _). rewrite Ec in Ec'. apply Ok_inj in Ec'. subst cs'.
    destruct (W _ _ _ _ He) as (H1 & H2 & -> & _ & _ & _ & L). split; [rewrite app_assoc; apply ends_dec|]. intros ->. cbn in L. lia.
Qed.
Lemma clusters_names a rspin w l : w = Wt \/ w = Wl -> distinct_names a rspin w -> clusters a rspin w l -> NoDup (map fst l).
Proof.
  intros Hw HD (fs & bs & cs & Ef & Eb & Ec & ->). pose proof (@names_nodup _ _ _ _ _ _ Hw HD Ef Eb Ec) as H. unfold all_names in H.
  rewrite !map_app, !map_map. exact H.
Qed.

(** * Stripping the suffix. *)
Lemma strip_fold {A} : forall (res : dict pystr A) acc,
  (forall kv, In kv res -> exists s, ends_well s /\ fst kv = s ++ str "new") -> NoDup (map fst res) ->
  forall name, ends_well name ->
  dget pystr_eq_dec name (fold_left (fun d kv => dset pystr_eq_dec (rstrip (str "new") (fst kv)) (snd kv) d) res acc) =
  match dget pystr_eq_dec (name ++ str "new") res with Some v => Some v | None => dget pystr_eq_dec name acc end.
Proof.
  induction res as [|[k v] res IH]; intros acc H ND name Hn; [reflexivity|]. cbn [fold_left dget fst snd]. inversion ND as [|? ? N1 N2]; subst.
  rewrite IH by (try assumption; intros; apply H; right; assumption). destruct (H (k, v) (or_introl eq_refl)) as (s & Hs & E). cbn [fst] in E. subst k.
  rewrite (@rstrip_new s Hs), dget_dset. destruct (pystr_eq_dec (name ++ str "new") (s ++ str "new")) as [E|N].
  - apply app_inv_tail in E. subst s. cbn [map fst] in N1. rewrite (@dget_notin _ _ pystr_eq_dec res _ N1). destruct (pystr_eq_dec name name); congruence.
  - destruct (pystr_eq_dec name s) as [->|]; [congruence|]. reflexivity.
Qed.
Lemma dset_keys {A} k (v : A) d : NoDup (map fst d) -> NoDup (map fst (dset pystr_eq_dec k v d)) /\
  (forall x, In x (map fst (dset pystr_eq_dec k v d)) <-> x = k \/ In x (map fst d)).
Proof.
  induction d as [|[k1 v1] d IH]; intros ND; cbn [dset]; [split; [constructor; [intros []|constructor]|cbn; intuition congruence]|].
  inversion ND as [|? ? N1 N2]; subst. destruct (IH N2) as [I1 I2]. destruct (pystr_eq_dec k k1) as [->|N].
  - split; [exact ND|]. cbn. intuition congruence.
  - cbn [map fst]. split.
    + constructor; [|exact I1]. rewrite I2. intuition congruence.
    + intros x. cbn. rewrite I2. intuition congruence.
Qed.
Lemma strip_keys {A} (res : dict pystr A) : NoDup (map fst (strip_new res)) /\
  forall x, In x (map fst (strip_new res)) <-> exists k, In k (map fst res) /\ x = rstrip (str "new") k.
Proof.
  unfold strip_new.
  assert (G : forall (acc : dict pystr A), NoDup (map fst acc) -> let d := fold_left (fun d kv => dset pystr_eq_dec (rstrip (str "new") (fst kv)) (snd kv) d) res acc in
    NoDup (map fst d) /\ forall x, In x (map fst d) <-> (exists k, In k (map fst res) /\ x = rstrip (str "new") k) \/ In x (map fst acc)).
  { induction res as [|[k v] res IH]; intros acc ND; cbn [fold_left fst snd].
    - split; [exact ND|]. intros x. cbn. split; [tauto|]. intros [(k & [] & _)|H]; exact H.
    - destruct (@dset_keys A (rstrip (str "new") k) v acc ND) as [D1 D2]. destruct (IH _ D1) as [I1 I2]. split; [exact I1|]. intros x. rewrite I2, D2. cbn [map fst In]. split.
      + intros [(k' & H1 & H2)|[->|H]]; [left; exists k'; tauto|left; exists k; tauto|right; exact H].
      + intros [(k' & [<-|H1] & H2)|H]; [right; left; exact H2|left; exists k'; tauto|right; right; exact H]. }
  destruct (G [] (NoDup_nil _)) as [G1 G2]. split; [exact G1|]. intros x. rewrite G2. cbn. split; [intros [H|[]]; exact H|tauto].
Qed.
Lemma dget_key {A} k (d : dict pystr A) : dget pystr_eq_dec k d <> None <-> In k (map fst d).
Proof.
  split.
  - intros H. destruct (in_dec pystr_eq_dec k (map fst d)) as [I|N]; [exact I|]. rewrite (@dget_notin _ _ pystr_eq_dec d k N) in H. congruence.
  - intros H E. induction d as [|[k1 v1] d IH]; [destruct H|]. cbn in *. destruct (pystr_eq_dec k k1); [discriminate|]. destruct H; [congruence|auto].
Qed.

(** * Folds. *)
Lemma foldM_app {A B} (f : A -> B -> result A) : forall l l' x, foldM f (l ++ l') x = (y <- foldM f l x ;; foldM f l' y)%py.
Proof. induction l as [|b l IH]; intros l' x; [reflexivity|]. cbn [app foldM]. destruct (f x b); [cbn [bind]; apply IH|reflexivity]. Qed.
Lemma foldM_map {A B C} (f : A -> B -> result A) (g : C -> B) : forall l x, foldM f (map g l) x = foldM (fun d e => f d (g e)) l x.
Proof. induction l as [|b l IH]; intros x; [reflexivity|]. cbn [map foldM]. destruct (f x (g b)); [cbn [bind]; apply IH|reflexivity]. Qed.
Lemma foldM_ext {A B} (f g : A -> B -> result A) : forall l x, (forall x b, In b l -> f x b = g x b) -> foldM f l x = foldM g l x.
Proof. induction l as [|b l IH]; intros x H; [reflexivity|]. cbn [foldM]. rewrite H by (left; reflexivity). destruct (g x b); [cbn [bind]; apply IH; intros; apply H; right; assumption|reflexivity]. Qed.

Section Update.
  Variable F : fld.
  Local Open Scope rng_scope.
  Local Open Scope py_scope.
  Add Field Ffield : (fth F).

  Lemma zip_ok (f : F -> F -> F) (a b : arr F) : wf a -> wf b -> shp a = shp b ->
    exists c, zip_arr f a b = Ok c /\ wf c /\ shp c = shp a /\ forall idx, inb (shp a) idx -> aget 0 c idx = f (aget 0 a idx) (aget 0 b idx).
  Proof.
    intros Wa Wb E. unfold zip_arr. destruct (list_eq_dec Nat.eq_dec (shp a) (shp b)) as [_|N]; [|congruence].
    assert (L : length (dat b) = length (dat a)) by (unfold wf in *; rewrite Wa, Wb, E; reflexivity).
    eexists. split; [reflexivity|]. cbn [shp]. split; [|split; [reflexivity|]].
    - unfold wf in *. cbn [dat shp]. rewrite map_length, combine_length, L, Nat.min_id. exact Wa.
    - intros idx Hi. unfold aget. cbn [shp dat]. rewrite <- E. apply ravel_lt in Hi. rewrite <- Wa in Hi.
      rewrite (nth_indep _ _ (f 0 0)) by (rewrite map_length, combine_length, L, Nat.min_id; exact Hi).
      change (f 0 0) with ((fun p : F * F => f (fst p) (snd p)) (0, 0)). rewrite map_nth, combine_nth by (symmetry; exact L). reflexivity.
  Qed.

  Variables (c : cc F) (keep : bool) (sz : nat -> nat) (eps : nat -> nat -> F) (old : dict pystr (tval F)).
  Definition step (d : dict pystr (tval F)) (nk : pystr * pystr) := update_entry keep (energy_sum c (snd nk) []) old (fst nk) d.

  Lemma denominator_ok (name key : pystr) : key <> [] -> (length key <= 26)%nat ->
    (forall k, In k key -> In k (str "oOivVab") /\ class_energies (cc_omega c) (cc_fock c) k (sz k) (eps k)) ->
    exists D, energy_sum c key [] = Ok D /\ wf D /\ shp D = map sz key /\
      forall idx, inb (map sz key) idx -> aget 0 D idx = denominator sz eps key idx.
  Proof.
    intros H1 H2 H3. destruct (@energy_sum_ok F c key [] (map (fun k => (memb k (str "oOi"), sz k, eps k)) key) H1 H2) as (D & E & W & S & G).
    - clear H1 H2. induction key as [|k key IH]; cbn [map]; constructor.
      + destruct (H3 k (or_introl eq_refl)) as [I C]. split; cbn [fst snd]; [|exact C]. unfold enters_positively. cbn [dget].
        cbn in I. repeat (destruct I as [<-|I]; [reflexivity|]). destruct I.
      + apply IH. intros k' H'. apply H3. right. exact H'.
    - assert (S' : shp D = map sz key). { rewrite S, map_map. reflexivity. }
      exists D. split; [exact E|]. split; [exact W|]. split; [exact S'|]. intros idx Hi. rewrite <- S' in Hi. apply G, Hi.
  Qed.

  Lemma step_ok d name key r : key <> [] -> (length key <= 26)%nat ->
    (forall k, In k key -> In k (str "oOivVab") /\ class_energies (cc_omega c) (cc_fock c) k (sz k) (eps k)) ->
    dget pystr_eq_dec name d = Some (VArr r) -> wf r -> shp r = map sz key ->
    (keep = true -> exists t, dget pystr_eq_dec name old = Some (VArr t) /\ wf t /\ shp t = map sz key) ->
    exists y, step d (name, key) = Ok (dset pystr_eq_dec name (VArr y) d) /\ wf y /\ shp y = map sz key /\
      forall idx, inb (map sz key) idx -> aget 0 y idx =
        (if keep then block_at old name idx else 0) + fdiv (aget 0 r idx) (denominator sz eps key idx).
  Proof.
    intros H1 H2 H3 Hr Wr Sr Hold. destruct (@denominator_ok name key H1 H2 H3) as (D & ED & WD & SD & GD).
    unfold step, update_entry, lookup. cbn [fst snd]. rewrite Hr. cbn [bind as_arr]. rewrite ED. cbn [bind].
    destruct (@zip_ok fdiv r D Wr WD ltac:(congruence)) as (x & Ex & Wx & Sx & Gx). unfold div_arr. rewrite Ex. cbn [bind].
    destruct keep.
    - destruct (Hold eq_refl) as (t & Et & Wt' & St). rewrite Et. cbn [bind as_arr]. unfold plus_arr.
      destruct (@zip_ok radd x t Wx Wt' ltac:(congruence)) as (y & Ey & Wy & Sy & Gy). rewrite Ey. cbn [bind]. exists y. split; [reflexivity|]. split; [exact Wy|].
      split; [congruence|]. intros idx Hi. unfold block_at. rewrite Et. rewrite Gy by (rewrite Sx, Sr; exact Hi). rewrite Gx by (rewrite Sr; exact Hi).
      rewrite GD by exact Hi. ring.
    - cbn [bind]. exists x. split; [reflexivity|]. split; [exact Wx|]. split; [congruence|]. intros idx Hi. rewrite Gx by (rewrite Sr; exact Hi). rewrite GD by exact Hi. ring.
  Qed.

  Lemma steps_ok : forall l d, NoDup (map fst l) -> (forall name key, In (name, key) l -> key <> [] /\ (length key <= 26)%nat) ->
    energies_known (cc_omega c) (cc_fock c) l sz eps ->
    (forall name key, In (name, key) l -> exists r, dget pystr_eq_dec name d = Some (VArr r) /\ wf r /\ shp r = map sz key) ->
    (keep = true -> forall name key, In (name, key) l -> exists t, dget pystr_eq_dec name old = Some (VArr t) /\ wf t /\ shp t = map sz key) ->
    NoDup (map fst d) ->
    exists out, foldM step l d = Ok out /\ NoDup (map fst out) /\ (forall nm, dget pystr_eq_dec nm out <> None <-> dget pystr_eq_dec nm d <> None) /\
      (forall nm, ~ In nm (map fst l) -> dget pystr_eq_dec nm out = dget pystr_eq_dec nm d) /\
      forall name key, In (name, key) l -> exists y, dget pystr_eq_dec name out = Some (VArr y) /\ wf y /\ shp y = map sz key /\
        forall idx, inb (map sz key) idx -> aget 0 y idx =
          (if keep then block_at old name idx else 0) + fdiv (block_at d name idx) (denominator sz eps key idx).
  Proof.
    induction l as [|[name key] l IH]; intros d ND HK HE HR HO NDd; cbn [foldM].
    - exists d. split; [reflexivity|]. split; [exact NDd|]. split; [tauto|]. split; [reflexivity|]. intros ? ? [].
    - destruct (HR name key (or_introl eq_refl)) as (r & Er & Wr & Sr). destruct (HK name key (or_introl eq_refl)) as [K1 K2].
      destruct (@step_ok d name key r K1 K2 (fun k Hk => HE name key k (or_introl eq_refl) Hk) Er Wr Sr (fun Hk => HO Hk name key (or_introl eq_refl))) as (y & Ey & Wy & Sy & Gy).
      rewrite Ey. cbn [bind]. cbn [map fst] in ND. inversion ND as [|? ? N1 N2]; subst.
      assert (DG : forall nm, dget pystr_eq_dec nm (dset pystr_eq_dec name (VArr y) d) = if pystr_eq_dec nm name then Some (VArr y) else dget pystr_eq_dec nm d) by (intros; apply dget_dset).
      assert (NE : forall nm key', In (nm, key') l -> nm <> name). { intros nm key' Hin ->. apply N1. apply in_map_iff. exists (name, key'). split; [reflexivity|exact Hin]. }
      destruct (IH (dset pystr_eq_dec name (VArr y) d)) as (out & Eo & No & Ko & Oo & Go); try assumption.
      + intros; apply (HK name0). right. assumption.
      + intros n' k' k Hin. apply HE with (name := n'). right. exact Hin.
      + intros n' k' Hin. rewrite DG. destruct (pystr_eq_dec n' name) as [->|N]; [exfalso; exact (NE _ _ Hin eq_refl)|]. apply HR. right. exact Hin.
      + intros Hk n' k' Hin. apply (HO Hk). right. exact Hin.
      + apply dset_keys, NDd.
      + exists out. split; [exact Eo|]. split; [exact No|]. split; [|split].
        * intros nm. rewrite Ko, DG. destruct (pystr_eq_dec nm name) as [->|]; [|tauto]. rewrite Er. split; discriminate.
        * intros nm Hn. cbn [map fst In] in Hn. rewrite Oo by tauto. rewrite DG. destruct (pystr_eq_dec nm name); [subst; tauto|reflexivity].
        * intros n' k' [E|Hin].
          -- apply pair_equal_spec in E. destruct E as [<- <-]. exists y. rewrite (Oo name N1), DG. destruct (pystr_eq_dec name name); [|congruence].
             split; [reflexivity|]. split; [exact Wy|]. split; [exact Sy|]. intros idx Hi. rewrite (Gy idx Hi). unfold block_at. rewrite Er. reflexivity.
          -- destruct (Go n' k' Hin) as (z & Ez & Wz & Sz & Gz). exists z. split; [exact Ez|]. split; [exact Wz|]. split; [exact Sz|].
             intros idx Hi. rewrite (Gz idx Hi). unfold block_at at 2. rewrite DG. destruct (pystr_eq_dec n' name) as [->|]; [exfalso; exact (NE _ _ Hin eq_refl)|]. reflexivity.
  Qed.
End Update.

Section RGUpdate.
  Variable F : fld.
  Local Open Scope rng_scope.
  Local Open Scope py_scope.
  Add Field Ffield2 : (fth F).

  Lemma rg_update_fold (c : cc F) rspin w keep old res l : w = Wt \/ w = Wl -> (frank (cc_ansatz c) <= 1)%nat -> clusters (cc_ansatz c) rspin w l ->
    rg_update c rspin w keep old res = foldM (step c keep old) l (strip_new res).
  Proof.
    intros Hw Hf (fs & bs & cs & Ef & Eb & Ec & ->). unfold rg_update. rewrite Ef. cbn [bind]. rewrite !foldM_app, !foldM_map.
    match goal with |- bind ?x ?f = bind ?y ?g => change y with x; destruct x as [d1|]; [|reflexivity] end. cbn [bind]. rewrite Eb. cbn [bind].
    rewrite !foldM_app, !foldM_map.
    match goal with |- bind ?x ?f = bind ?y ?g => change y with x; destruct x as [d2|]; [|reflexivity] end. cbn [bind]. rewrite Ec. cbn [bind].
    rewrite foldM_map. apply foldM_ext. intros d [[[name key] nf] nb] Hin. destruct (@coupling_skip _ _ _ _ _ _ _ Hw Ec Hin) as (_ & _ & B).
    replace nf with 1%nat by lia. reflexivity.
  Qed.

  Lemma rg_jacobi (c : cc F) rspin w keep sz eps old res l : w = Wt \/ w = Wl -> (frank (cc_ansatz c) <= 1)%nat ->
    distinct_names (cc_ansatz c) rspin w -> clusters (cc_ansatz c) rspin w l -> (forall name key, In (name, key) l -> (length key <= 26)%nat) ->
    energies_known (cc_omega c) (cc_fock c) l sz eps -> holds_blocks (str "new") l sz res -> (keep = true -> holds_blocks [] l sz old) ->
    exists out, rg_update c rspin w keep old res = Ok out /\ holds_blocks [] l sz out /\
      forall name key idx, In (name, key) l -> inb (map sz key) idx ->
        block_at out name idx = (if keep then block_at old name idx else 0) + fdiv (block_at res (name ++ str "new") idx) (denominator sz eps key idx).
  Proof.
    intros Hw Hf HD HC HL HE (R1 & R2 & R3) HO. rewrite (@rg_update_fold c rspin w keep old res l Hw Hf HC).
    pose proof (@clusters_facts _ _ _ _ Hw HC) as CF. pose proof (@clusters_names _ _ _ _ Hw HD HC) as CN.
    assert (RW : forall kv, In kv res -> exists s, ends_well s /\ fst kv = s ++ str "new").
    { intros [k v] Hin. destruct (R2 k) as (name & key & I & ->); [apply dget_key; apply in_map_iff; exists (k, v); split; [reflexivity|exact Hin]|].
      exists name. split; [apply (CF name key I)|reflexivity]. }
    assert (SG : forall name, ends_well name -> dget pystr_eq_dec name (strip_new res) = dget pystr_eq_dec (name ++ str "new") res).
    { intros name Hn. unfold strip_new. rewrite (strip_fold res [] RW R1 name Hn). destruct (dget pystr_eq_dec (name ++ str "new") res); reflexivity. }
    destruct (@steps_ok F c keep sz eps old l (strip_new res)) as (out & Eo & No & Ko & _ & Go); try assumption.
    - intros name key Hin. split; [apply (CF name key Hin)|apply (HL name key Hin)].
    - intros name key Hin. rewrite SG by apply (CF name key Hin). apply R3, Hin.
    - intros Hk name key Hin. destruct (HO Hk) as (_ & _ & O3). destruct (O3 name key Hin) as (t & Et & X). rewrite app_nil_r in Et. exists t. tauto.
    - apply strip_keys.
    - exists out. split; [exact Eo|]. split; [split; [exact No|split]|].
      + intros nm Hnm. apply Ko in Hnm. apply dget_key in Hnm. apply strip_keys in Hnm. destruct Hnm as (k & Hk & ->).
        apply in_map_iff in Hk. destruct Hk as ([k' v] & <- & Hin). cbn [fst]. destruct (R2 k') as (name & key & I & ->); [apply dget_key, in_map_iff; exists (k', v); split; [reflexivity|exact Hin]|].
        exists name, key. split; [exact I|]. rewrite app_nil_r. apply rstrip_new. apply (CF name key I).
      + intros name key Hin. destruct (Go name key Hin) as (y & E & W & S & _). exists y. rewrite app_nil_r. tauto.
      + intros name key idx Hin Hi. destruct (Go name key Hin) as (y & E & W & S & G). unfold block_at at 1. rewrite E, (G idx Hi). f_equal. f_equal.
        unfold block_at. rewrite SG by apply (CF name key Hin). reflexivity.
  Qed.
  (** Nothing moves exactly when every residual element vanishes. *)
  Lemma rg_fixed (c : cc F) rspin w sz eps old res l out : w = Wt \/ w = Wl -> (frank (cc_ansatz c) <= 1)%nat ->
    distinct_names (cc_ansatz c) rspin w -> clusters (cc_ansatz c) rspin w l -> (forall name key, In (name, key) l -> (length key <= 26)%nat) ->
    energies_known (cc_omega c) (cc_fock c) l sz eps -> holds_blocks (str "new") l sz res -> holds_blocks [] l sz old ->
    (forall name key idx, In (name, key) l -> inb (map sz key) idx -> denominator sz eps key idx <> 0) ->
    rg_update c rspin w true old res = Ok out ->
    (forall name, dget pystr_eq_dec name out = dget pystr_eq_dec name old) <->
    (forall name key idx, In (name, key) l -> inb (map sz key) idx -> block_at res (name ++ str "new") idx = 0).
  Proof.
    intros Hw Hf HD HC HL HE HR HO HN Eo. destruct (@rg_jacobi c rspin w true sz eps old res l Hw Hf HD HC HL HE HR (fun _ => HO)) as (out' & E' & HB & G).
    rewrite Eo in E'. apply Ok_inj in E'. subst out'. destruct HB as (B1 & B2 & B3). destruct HO as (O1 & O2 & O3). split.
    - intros H name key idx Hin Hi. pose proof (G name key idx Hin Hi) as X. unfold block_at at 1 in X. rewrite H in X. fold (block_at old name idx) in X.
      pose proof (HN name key idx Hin Hi) as Z.
      transitivity (fdiv (block_at res (name ++ str "new") idx) (denominator sz eps key idx) * denominator sz eps key idx); [field; exact Z|].
      replace (fdiv (block_at res (name ++ str "new") idx) (denominator sz eps key idx)) with (block_at old name idx + fdiv (block_at res (name ++ str "new") idx) (denominator sz eps key idx) - block_at old name idx) by ring.
      rewrite <- X. ring.
    - intros H name. destruct (in_dec pystr_eq_dec name (map fst l)) as [I|N].
      + apply in_map_iff in I. destruct I as ([n key] & <- & Hin). cbn [fst]. destruct (B3 n key Hin) as (y & Ey & Wy & Sy). destruct (O3 n key Hin) as (t & Et & Wt' & St).
        rewrite app_nil_r in Ey, Et. rewrite Ey, Et. f_equal. f_equal. apply (@arr_ext F 0); try assumption; [congruence|].
        intros idx Hi. rewrite Sy in Hi. pose proof (G n key idx Hin Hi) as X. unfold block_at at 1 2 in X. rewrite Ey, Et in X. rewrite X.
        rewrite (H n key idx Hin Hi). field. exact (HN n key idx Hin Hi).
      + destruct (dget pystr_eq_dec name out) eqn:E1.
        { destruct (B2 name) as (n & k & I & E); [congruence|]. rewrite app_nil_r in E. subst n. exfalso. apply N. apply in_map_iff. exists (name, k). tauto. }
        destruct (dget pystr_eq_dec name old) eqn:E2; [|reflexivity].
        destruct (O2 name) as (n & k & I & E); [congruence|]. rewrite app_nil_r in E. subst n. exfalso. apply N. apply in_map_iff. exists (name, k). tauto.
  Qed.
End RGUpdate.
