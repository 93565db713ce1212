(** Lemmas about the unrestricted amplitude update. *)
From Coq Require Import Sorted String Permutation Field Factorial.
From Verif Require Import Base ListAux Alg ArrModel ArrProofs PermModel PackProofs UnpackProofs TensorModel TensorSpec TensorThms EinsumModel SpaceModel
  AnsatzModel AnsatzSpec AnsatzProofs AnsatzRanks DampProofs KernelProofs VecModel VecSpec VecProofs VecThms PermProps CcModel CcSpec CcProofs CcThms.
Set Implicit Arguments.
Local Open Scope string_scope.
Local Open Scope list_scope.
Local Open Scope nat_scope.

(** * Relabelling. *)
Lemma count_map_inj {A B} (da : forall x y : A, {x = y} + {x <> y}) (db : forall x y : B, {x = y} + {x <> y}) (g : A -> B) l x :
  (forall y, In y l -> g y = g x -> y = x) -> count_occ db (map g l) (g x) = count_occ da l x.
Proof.
  induction l as [|y l IH]; intros H; [reflexivity|]. cbn. destruct (db (g y) (g x)) as [E|N], (da y x) as [E'|N']; subst.
  - f_equal. apply IH. intros; apply H; [right|]; assumption.
  - exfalso. apply N', H; [left; reflexivity|exact E].
  - congruence.
  - apply IH. intros; apply H; [right|]; assumption.
Qed.
Lemma dedup_nodup l : Permutation (dedup l) (nodup Nat.eq_dec l).
Proof.
  assert (D : NoDup (dedup l) /\ forall x, In x (dedup l) <-> In x l).
  { induction l as [|x l [I1 I2]]; [split; [constructor|tauto]|]. cbn [dedup]. split.
    - constructor; [|apply NoDup_filter, I1]. rewrite filter_In, Nat.eqb_refl. cbn. intuition discriminate.
    - intros y. cbn [In]. rewrite filter_In, I2. destruct (Nat.eqb_spec x y); cbn; intuition congruence. }
  apply NoDup_Permutation; [apply D|apply NoDup_nodup|]. intros x. rewrite nodup_In. apply D.
Qed.
Lemma nodup_map_inj {A B} (da : forall x y : A, {x = y} + {x <> y}) (db : forall x y : B, {x = y} + {x <> y}) (g : A -> B) l :
  (forall x y, In x l -> In y l -> g x = g y -> x = y) -> nodup db (map g l) = map g (nodup da l).
Proof.
  induction l as [|x l IH]; intros H; [reflexivity|]. cbn [map nodup].
  destruct (in_dec db (g x) (map g l)) as [I|N], (in_dec da x l) as [I'|N'].
  - apply IH. intros; apply H; try right; assumption.
  - exfalso. apply in_map_iff in I. destruct I as (y & E & Hy). apply N'. rewrite <- (H y x); [exact Hy|right; exact Hy|left; reflexivity|exact E].
  - exfalso. apply N, in_map, I'.
  - cbn [map]. f_equal. apply IH. intros; apply H; try right; assumption.
Qed.
Lemma multiplicities_relabel {B} (db : forall x y : B, {x = y} + {x <> y}) (sub : list nat) (l' : list B) (d : B) : length l' = length sub ->
  (forall i j, i < length sub -> j < length sub -> (nth i sub 0 = nth j sub 0 <-> nth i l' d = nth j l' d)) ->
  Permutation (multiplicities sub) (map (count_occ db l') (nodup db l')).
Proof.
  intros HL HE. set (g := fun x => match index_of x sub with Some i => nth i l' d | None => d end).
  assert (IX : forall i, i < length sub -> g (nth i sub 0) = nth i l' d).
  { intros i Hi. unfold g. destruct (index_of (nth i sub 0) sub) as [j|] eqn:E.
    - apply index_of_nth in E. destruct E as [X1 X2]. apply HE; assumption.
    - exfalso. destruct (@index_of_in sub (nth i sub 0)) as (k & E'); [apply nth_In, Hi|]. congruence. }
  assert (EL : l' = map g sub).
  { apply nth_ext with (d := d) (d' := g 0); [rewrite map_length; exact HL|]. intros i Hi. rewrite map_nth. rewrite IX by lia. reflexivity. }
  assert (INJ : forall x y, In x sub -> In y sub -> g x = g y -> x = y).
  { intros x y Hx Hy E. apply (In_nth _ _ 0) in Hx, Hy. destruct Hx as (i & Hi & <-), Hy as (j & Hj & <-). rewrite !IX in E by assumption. apply HE; assumption. }
  rewrite EL, (nodup_map_inj Nat.eq_dec db g sub INJ), map_map. unfold multiplicities.
  transitivity (map (count_occ Nat.eq_dec sub) (nodup Nat.eq_dec sub)); [apply Permutation_map, dedup_nodup|].
  apply Permutation_refl'. apply map_ext_in. intros x Hx. apply nodup_In in Hx. symmetry. apply (count_map_inj Nat.eq_dec). intros y Hy E. apply INJ; assumption.
Qed.
Lemma fold_mul_perm l l' : Permutation l l' -> fold_right Nat.mul 1 l = fold_right Nat.mul 1 l'.
Proof. induction 1; cbn; lia. Qed.
Lemma fold_add_perm l l' : Permutation l l' -> fold_right Nat.add 0 l = fold_right Nat.add 0 l'.
Proof. induction 1; cbn; lia. Qed.

Definition labels (sub key spins : pystr) : Prop := length sub = length key /\
  forall i j, i < length key -> j < length key -> (nth i sub 0 = nth j sub 0 <-> nth i key 0 = nth j key 0 /\ nth i spins 0 = nth j spins 0).
Lemma labels_mults sub (key spins : pystr) : length spins = length key -> labels sub key spins -> Permutation (multiplicities sub) (spin_multiplicities key spins).
Proof.
  intros HS [HL HE]. unfold spin_multiplicities. apply (@multiplicities_relabel _ _ _ _ [0; 0]); [rewrite map_length, combine_length; lia|].
  intros i j Hi Hj. rewrite HL in Hi, Hj. rewrite HE by assumption.
  assert (G : forall i, nth i (map (fun ks : nat * nat => [fst ks; snd ks]) (combine key spins)) [0; 0] = [nth i key 0; nth i spins 0]).
  { intros k. change [0; 0] with ((fun ks : nat * nat => [fst ks; snd ks]) (0, 0)). rewrite map_nth, combine_nth by (symmetry; exact HS). reflexivity. }
  rewrite !G.
  split; [intros [-> ->]; reflexivity|intros [= -> ->]; tauto].
Qed.

Section Exchange.
  Variable F : fld.
  Local Open Scope rng_scope.
  Lemma signed_positions (axes : list (bool * nat * (nat -> F))) d : forall idx, length idx = length axes ->
    signed_energies idx axes = rsum (map (fun p => match nth p axes d with (plus, _, eps) => if (plus : bool) then eps (nth p idx 0%nat) else - eps (nth p idx 0%nat) end) (seq 0 (length axes))).
  Proof.
    unfold signed_energies. induction axes as [|a axes IH]; intros [|i idx] H; cbn in H; try discriminate; [reflexivity|].
    cbn [combine map]. cbn [length seq map nth]. rewrite !rsum_cons. rewrite IH by congruence. rewrite <- seq_shift, map_map. cbn [nth]. destruct a as [[plus n] e]. reflexivity.
  Qed.
  Lemma signed_exchange (axes : list (bool * nat * (nat -> F))) d i j idx : length idx = length axes -> (i < length axes)%nat -> (j < length axes)%nat ->
    nth i axes d = nth j axes d -> signed_energies (exchange i j idx) axes = signed_energies idx axes.
  Proof.
    intros HL Hi Hj E. rewrite !(@signed_positions axes d) by (rewrite ?exchange_length; exact HL). set (n := length axes) in *.
    transitivity (rsum (map (fun p => match nth p axes d with (plus, _, eps) => if (plus : bool) then eps (nth p idx 0%nat) else - eps (nth p idx 0%nat) end) (exchange i j (seq 0 n)))).
    - set (q := fun p => (if p =? i then j else if p =? j then i else p)%nat).
      assert (Hq : forall p, (p < n)%nat -> (q p < n)%nat) by (intros p Hp; unfold q; destruct (p =? i)%nat, (p =? j)%nat; lia).
      assert (EX : exchange i j (seq 0 n) = map q (seq 0 n)).
      { unfold exchange. rewrite seq_length. apply map_ext_in. intros p Hp. apply in_seq in Hp. fold (q p). rewrite seq_nth by (apply Hq; lia). reflexivity. }
      rewrite EX, map_map. f_equal. apply map_ext_in. intros p Hp. apply in_seq in Hp. rewrite exchange_nth by lia. fold (q p).
      assert (X : nth p axes d = nth (q p) axes d). { unfold q. destruct (Nat.eqb_spec p i) as [->|]; [exact E|]. destruct (Nat.eqb_spec p j) as [->|]; [congruence|reflexivity]. }
      rewrite X. reflexivity.
    - apply rsum_perm, Permutation_map. rewrite exchange_swap_at by (rewrite seq_length; assumption). apply Permutation_sym, swap_at_perm; rewrite seq_length; assumption.
  Qed.
End Exchange.

(** * A loop that replaces entries one by one. *)
Definition replace_at {E V} (nm : E -> pystr) (g : E -> V -> result V) (d : dict pystr V) (e : E) : result (dict pystr V) :=
  (v <- lookup (nm e) d ;; v' <- g e v ;; Ok (dset pystr_eq_dec (nm e) v' d))%py.
Lemma fold_entries {E V} (nm : E -> pystr) (g : E -> V -> result V) : forall l d, NoDup (map nm l) ->
  (forall e, In e l -> exists v v', dget pystr_eq_dec (nm e) d = Some v /\ g e v = Ok v') ->
  exists out, foldM (replace_at nm g) l d = Ok out /\ (NoDup (map fst d) -> NoDup (map fst out)) /\
    (forall x, dget pystr_eq_dec x out <> None <-> dget pystr_eq_dec x d <> None) /\
    (forall x, ~ In x (map nm l) -> dget pystr_eq_dec x out = dget pystr_eq_dec x d) /\
    (forall e v v', In e l -> dget pystr_eq_dec (nm e) d = Some v -> g e v = Ok v' -> dget pystr_eq_dec (nm e) out = Some v').
Proof.
  induction l as [|e l IH]; intros d ND H; cbn [foldM].
  - exists d. split; [reflexivity|]. split; [tauto|]. split; [tauto|]. split; [reflexivity|]. intros ? ? ? [].
  - destruct (H e (or_introl eq_refl)) as (v & v' & Ev & Eg). unfold replace_at at 1, lookup. rewrite Ev. cbn [bind]. rewrite Eg. cbn [bind].
    cbn [map] in ND. inversion ND as [|? ? N1 N2]; subst.
    assert (DG : forall x, dget pystr_eq_dec x (dset pystr_eq_dec (nm e) v' d) = if pystr_eq_dec x (nm e) then Some v' else dget pystr_eq_dec x d) by (intros; apply dget_dset).
    assert (NE : forall e', In e' l -> nm e' <> nm e) by (intros e' Hi E'; apply N1; rewrite <- E'; apply in_map, Hi).
    destruct (IH (dset pystr_eq_dec (nm e) v' d) N2) as (out & Eo & No & Ko & Oo & Go).
    + intros e' Hi. destruct (H e' (or_intror Hi)) as (w & w' & E1 & E2). exists w, w'. rewrite DG. destruct (pystr_eq_dec (nm e') (nm e)) as [X|]; [exfalso; exact (NE e' Hi X)|]. tauto.
    + exists out. split; [exact Eo|]. split; [intros NDd; apply No, dset_keys, NDd|]. split; [|split].
      * intros x. rewrite Ko, DG. destruct (pystr_eq_dec x (nm e)) as [->|]; [rewrite Ev; split; discriminate|tauto].
      * intros x Hx. cbn [map In] in Hx. rewrite Oo by tauto. rewrite DG. destruct (pystr_eq_dec x (nm e)); [subst; tauto|reflexivity].
      * intros e' w w' [<-|Hi] E1 E2.
        -- rewrite (Oo _ N1), DG. destruct (pystr_eq_dec (nm e) (nm e)); congruence.
        -- apply (Go e' w w' Hi); [|exact E2]. rewrite DG. destruct (pystr_eq_dec (nm e') (nm e)) as [X|]; [exfalso; exact (NE e' Hi X)|]. exact E1.
Qed.

Section UBlock.
  Variable F : fld.
  Local Open Scope rng_scope.
  Local Open Scope py_scope.
  Add Field Ffield3 : (fth F).
  Variables (c : ucc F) (sz : nat -> nat -> nat) (eps : nat -> nat -> nat -> F).
  Definition known (key spins : pystr) : Prop := forall k s, In (k, s) (combine key spins) ->
    In k (str "oOivVab") /\ class_energies (u_omega c) (u_fock c [s; s]) k (sz k s) (eps k s).

  Lemma u_denominator_ok (key spins : pystr) : key <> [] -> (length key <= 26)%nat -> length spins = length key -> known key spins ->
    exists D, u_energy_sum c key spins [] = Ok D /\ wf D /\ shp D = spin_shape_of sz key spins /\
      forall idx, inb (spin_shape_of sz key spins) idx -> aget 0 D idx = u_denominator sz eps key spins idx.
  Proof.
    intros H1 H2 HL H3.
    destruct (@u_energy_sum_ok F c key spins [] (map (fun ks => (memb (fst ks) (str "oOi"), sz (fst ks) (snd ks), eps (fst ks) (snd ks))) (combine key spins)) H1 H2 HL) as (D & E & W & S & G).
    - unfold known in H3. revert H3. generalize (combine key spins). clear. intros l H. induction l as [|[k s] l IH]; cbn [map]; constructor.
      + destruct (H k s (or_introl eq_refl)) as [I C]. split; cbn [fst snd]; [|exact C]. unfold enters_positively. cbn [dget].
        cbn in I. repeat (destruct I as [<-|I]; [reflexivity|]). destruct I.
      + apply IH. intros k' s' H'. apply H. right. exact H'.
    - assert (S' : shp D = spin_shape_of sz key spins). { rewrite S, map_map. reflexivity. }
      exists D. split; [exact E|]. split; [exact W|]. split; [exact S'|]. intros idx Hi. rewrite <- S' in Hi. apply G, Hi.
  Qed.

  Lemma labels_exist (key spins : pystr) : length spins = length key -> (length key <= 26)%nat ->
    exists sub sizes, combine_subscripts [key; spins] [] = Ok (sub, sizes) /\ labels sub key spins.
  Proof.
    intros HL H26.
    assert (HC : is_ok (combine_subscripts [key; spins] []) = true).
    { apply C10_combine_succeeds. exists key, [spins]. split; [reflexivity|]. split; [intros s [<-|[<-|[]]]; [reflexivity|exact HL]|]. split.
      - eapply Nat.le_trans; [apply NoDup_incl_length; [apply NoDup_nodup|intros x Hx; apply nodup_In in Hx; exact Hx]|]. rewrite map_length, seq_length. lia.
      - left. reflexivity. }
    destruct (combine_subscripts [key; spins] []) as [[sub sizes]|] eqn:EC; [|discriminate]. exists sub, sizes. split; [reflexivity|].
    destruct (@C10_combine_subscripts _ _ _ _ EC) as (L1 & L2 & _).
    assert (Ls : length sub = length key) by (symmetry; apply L1; left; reflexivity). split; [exact Ls|].
    intros i j Hi Hj. rewrite L2 by lia. split; [intros H; split; apply H; [left|right; left]; reflexivity|]. intros [E1 E2] s [<-|[<-|[]]]; assumption.
  Qed.
  Lemma labels_extents sub (key spins : pystr) : length spins = length key -> labels sub key spins -> extents_ok sub (spin_shape_of sz key spins).
  Proof.
    intros HL [L E]. unfold spin_shape_of. split; [rewrite map_length, combine_length; lia|]. intros i j Hi Hj H. rewrite L in Hi, Hj. apply E in H; [|assumption..].
    assert (G : forall i, (i < length key)%nat -> nth i (map (fun ks => sz (fst ks) (snd ks)) (combine key spins)) 0%nat = sz (nth i key 0%nat) (nth i spins 0%nat)).
    { intros k Hk. rewrite (nth_indep _ _ ((fun ks => sz (fst ks) (snd ks)) (0%nat, 0%nat))) by (rewrite map_length, combine_length; lia).
      rewrite (map_nth (fun ks => sz (fst ks) (snd ks))), combine_nth by (symmetry; exact HL). reflexivity. }
    rewrite !G by assumption. destruct H as [-> ->]. reflexivity.
  Qed.
  Lemma u_denominator_symmetric (key spins : pystr) i j idx : length spins = length key -> length idx = length key ->
    (i < length key)%nat -> (j < length key)%nat -> nth i key 0%nat = nth j key 0%nat -> nth i spins 0%nat = nth j spins 0%nat ->
    u_denominator sz eps key spins (exchange i j idx) = u_denominator sz eps key spins idx.
  Proof.
    intros HL HI Hi Hj E1 E2. unfold u_denominator.
    set (f := fun ks : nat * nat => (memb (fst ks) (str "oOi"), sz (fst ks) (snd ks), eps (fst ks) (snd ks))).
    apply (@signed_exchange F _ (f (0%nat, 0%nat))); rewrite ?map_length, ?combine_length, ?HL, ?Nat.min_id; try assumption.
    rewrite !map_nth, !combine_nth by (symmetry; exact HL). rewrite E1, E2. reflexivity.
  Qed.

  (** One spin block of a fermionic amplitude. *)
  Definition spin_new (key : pystr) (n : nat) (old : dict pystr (arr F)) (comb : pystr) (r : arr F) : result (arr F) :=
    sc <- combine_subscripts [key; comb] [] ;;
    e <- u_energy_sum c key comb [] ;; x <- div_arr r e ;;
    t <- lookup comb old ;; y <- plus_arr x t ;;
    symmetrise F (Some half_pow) (fst sc) y (Some (repeat TensorModel.ch_minus (2 * n))).
  Lemma u_update_spin_eq key n old (res : dict pystr (arr F)) comb : (length comb = length key) -> (length key <= 26)%nat ->
    u_update_spin c key n old res comb = replace_at (fun s => s) (spin_new key n old) res comb.
  Proof.
    intros HL H26. unfold u_update_spin, replace_at, spin_new. destruct (@labels_exist key comb HL H26) as (sub & sizes & E & _). rewrite E. cbn [bind fst].
    destruct (lookup comb res) as [r|]; [|reflexivity]. cbn [bind]. destruct (u_energy_sum c key comb []) as [e|]; [|reflexivity]. cbn [bind].
    destruct (div_arr r e) as [x|]; [|reflexivity]. cbn [bind]. destruct (lookup comb old) as [t|]; [|reflexivity]. cbn [bind].
    destruct (plus_arr x t); reflexivity.
  Qed.
  Lemma rename_length s s' : rename s = Ok s' -> length s' = length s.
  Proof. unfold rename. intros H. apply mapM_len in H. exact H. Qed.
  Lemma symmetrise_default sub (y : arr F) : 
    symmetrise F (Some half_pow) sub y (Some (repeat TensorModel.ch_minus (length sub))) = symmetrise F (Some half_pow) sub y None.
  Proof. unfold symmetrise. destruct (rename sub) as [s1|] eqn:E; [|reflexivity]. cbn [bind]. rewrite (@rename_length _ _ E). reflexivity. Qed.
  Lemma spin_new_ok (key comb : pystr) n old t r : key <> [] -> (length key <= 26)%nat -> length key = (2 * n)%nat -> length comb = length key -> known key comb ->
    dget pystr_eq_dec comb old = Some t -> wf t -> wf r -> shp t = spin_shape_of sz key comb -> shp r = spin_shape_of sz key comb ->
    spin_antisymmetric key comb t -> spin_antisymmetric key comb r ->
    exists x, spin_new key n old comb r = Ok x /\ wf x /\ shp x = spin_shape_of sz key comb /\ spin_antisymmetric key comb x /\
      forall idx, inb (spin_shape_of sz key comb) idx ->
        aget 0 x idx = antisymmetriser_scale key comb * (aget 0 t idx + fdiv (aget 0 r idx) (u_denominator sz eps key comb idx)).
  Proof.
    intros H1 H26 Hn HL HK Et Wt' Wr St Sr At Ar. unfold spin_new. destruct (@labels_exist key comb HL H26) as (sub & sizes & E & HLab). rewrite E. cbn [bind fst].
    destruct (@u_denominator_ok key comb H1 H26 HL HK) as (D & ED & WD & SD & GD). rewrite ED. cbn [bind].
    destruct (@zip_ok F fdiv r D Wr WD ltac:(congruence)) as (q & Eq & Wq & Sq & Gq). unfold div_arr. rewrite Eq. cbn [bind]. unfold lookup. rewrite Et. cbn [bind].
    destruct (@zip_ok F radd q t Wq Wt' ltac:(congruence)) as (y & Ey & Wy & Sy & Gy). unfold plus_arr. rewrite Ey. cbn [bind].
    assert (S : shp y = spin_shape_of sz key comb) by congruence.
    pose proof (@labels_extents sub key comb HL HLab) as HX. destruct HLab as [L LE] eqn:Elab. clear Elab.
    assert (GY : forall idx, inb (spin_shape_of sz key comb) idx -> aget 0 y idx = fdiv (aget 0 r idx) (u_denominator sz eps key comb idx) + aget 0 t idx).
    { intros idx Hi. rewrite Gy by (rewrite Sq, Sr; exact Hi). rewrite Gq by (rewrite Sr; exact Hi). rewrite GD by exact Hi. reflexivity. }
    assert (AY : antisymmetric sub y).
    { apply (@antisym_iff F key comb sub y L LE). intros idx i j Hi Hik Hjk Hij E1 E2. rewrite S in Hi.
      assert (Hi' : inb (spin_shape_of sz key comb) (exchange i j idx)). { apply (@exchange_inb sub); try assumption; try (rewrite L; assumption). apply LE; try assumption. split; assumption. }
      rewrite (GY _ Hi), (GY _ Hi'). rewrite (At idx i j) by (try assumption; rewrite St; exact Hi). rewrite (Ar idx i j) by (try assumption; rewrite Sr; exact Hi).
      assert (HI : length idx = length key). { apply inb_iff in Hi. destruct Hi as [Hi _]. rewrite Hi. unfold spin_shape_of. rewrite map_length, combine_length. lia. }
      rewrite u_denominator_symmetric by assumption. rewrite !(Field_theory.Fdiv_def (fth F)). ring. }
    replace (2 * n)%nat with (length sub) by lia. rewrite symmetrise_default.
    assert (Hne : sub <> []). { intros ->. cbn in L. destruct key; [congruence|cbn in L; lia]. }
    rewrite <- S in HX.
    pose proof (@symmetrise_scaling F sub y Hne Wy HX AY) as X. rewrite X.
    assert (PM := @labels_mults sub key comb HL (conj L LE)).
    set (k := fdiv (rnat (stabiliser_size sub)) (rpow (radd r1 r1) (fold_right Nat.add 0%nat (map pred (multiplicities sub))))) in *.
    assert (Ek : k = antisymmetriser_scale key comb).
    { unfold k, antisymmetriser_scale, stabiliser_size. rewrite (@fold_mul_perm _ _ (Permutation_map fact PM)), (@fold_add_perm _ _ (Permutation_map pred PM)). reflexivity. }
    change (mkarr (shp y) (map (fun v => v * k) (dat y))) with (scale F k y) in *.
    assert (WX : wf (scale F k y)) by (apply scale_wf, Wy).
    exists (scale F k y). split; [reflexivity|]. split; [exact WX|]. split; [exact S|]. split.
    - apply (@antisym_iff F key comb sub _ L LE). intros idx i j Hi Hik Hjk Hij E1. cbn [shp scale] in Hi. change (shp (scale F k y)) with (shp y) in Hi.
      assert (Hi' : inb (shp y) (exchange i j idx)). { apply (@exchange_inb sub); assumption. }
      rewrite !scale_get by assumption. rewrite (AY idx i j) by assumption. ring.
    - intros idx Hi. rewrite scale_get by (try assumption; rewrite S; exact Hi). rewrite (GY idx Hi), Ek. ring.
  Qed.
End UBlock.

Section UUpdate.
  Variable F : fld.
  Local Open Scope rng_scope.
  Local Open Scope py_scope.
  Add Field Ffield4 : (fth F).
  Variables (c : ucc F) (w : which) (sz : nat -> nat -> nat) (eps : nat -> nat -> nat -> F) (old res : dict pystr (tval F)).
  Variables (fs bs : list entry) (cs : list (pystr * pystr * nat * nat)).
  Hypothesis Hw : w = Wt \/ w = Wl.
  Hypothesis Hf : (frank (u_ansatz c) <= 1)%nat.
  Hypothesis HD : distinct_names (u_ansatz c) false w.
  Hypotheses (Ef : fermionic_cluster_ranks (u_ansatz c) false w = Ok fs) (Eb : bosonic_cluster_ranks (u_ansatz c) w = Ok bs)
    (Ec : coupling_cluster_ranks (u_ansatz c) w = Ok cs).
  Let l := fermionic_blocks fs ++ bosonic_blocks bs ++ coupling_blocks cs.
  Hypothesis H26 : forall name key stored spins, In (name, key, stored, spins) l -> (length key <= 26)%nat.
  Hypothesis HE : u_energies_known (u_omega c) (u_fock c) l sz eps.
  Hypothesis HR : u_holds (str "new") l sz res.
  Hypothesis HO : u_holds [] l sz old.
  Hypothesis AR : u_antisymmetric (str "new") (fermionic_blocks fs) res.
  Hypothesis AO : u_antisymmetric [] (fermionic_blocks fs) old.

  Definition ferm_new (e : entry) (v : tval F) : result (tval F) :=
    r <- as_spin v ;; v' <- lookup (fname e) old ;; o <- as_spin v' ;;
    r' <- foldM (u_update_spin c (snd (fst e)) (snd e) o) (generate_spin_combinations (snd e) false true) r ;; Ok (VSpin r').
  Definition boson_new (e : entry) (v : tval F) : result (tval F) :=
    r <- as_arr v ;; D <- u_energy_sum c (snd (fst e)) (repeat (chr_of "_") (snd e)) [] ;; x <- div_arr r D ;;
    v' <- lookup (fname e) old ;; t <- as_arr v' ;; y <- plus_arr x t ;; Ok (VArr y).
  Definition coup_new (e : pystr * pystr * nat * nat) (v : tval F) : result (tval F) :=
    r <- as_spin v ;; v' <- lookup (cname e) old ;; o <- as_spin v' ;;
    r' <- foldM (u_update_coupling c (snd (fst (fst e))) (snd e) o) [str "aa"; str "bb"] r ;; Ok (VSpin r').

  Lemma u_update_eq : u_update c w old res =
    (d1 <- foldM (replace_at fname ferm_new) fs (strip_new res) ;; d2 <- foldM (replace_at fname boson_new) bs d1 ;; foldM (replace_at cname coup_new) cs d2).
  Proof.
    unfold u_update. rewrite Ef. cbn [bind].
    match goal with |- bind ?x ?f = bind ?y ?g => assert (E : x = y) end.
    { apply foldM_ext. intros d [[name key] n] _. unfold replace_at, ferm_new. change (fname (name, key, n)) with name. cbn [fst snd]. destruct (lookup name d) as [v|]; [|reflexivity]. cbn [bind].
      destruct (as_spin v) as [r|]; [|reflexivity]. cbn [bind]. destruct (lookup name old) as [v'|]; [|reflexivity]. cbn [bind]. destruct (as_spin v') as [o|]; [|reflexivity]. cbn [bind].
      destruct (foldM _ _ r); reflexivity. }
    rewrite E. clear E. match goal with |- bind ?x _ = _ => destruct x as [d1|]; [|reflexivity] end. cbn [bind]. rewrite Eb. cbn [bind].
    match goal with |- bind ?x ?f = bind ?y ?g => assert (E : x = y) end.
    { apply foldM_ext. intros d [[name key] n] _. unfold replace_at, boson_new, update_entry. change (fname (name, key, n)) with name. cbn [fst snd]. destruct (lookup name d) as [v|]; [|reflexivity]. cbn [bind].
      destruct (as_arr v) as [r|]; [|reflexivity]. cbn [bind]. destruct (u_energy_sum _ _ _ _) as [D|]; [|reflexivity]. cbn [bind]. destruct (div_arr r D) as [x|]; [|reflexivity]. cbn [bind].
      destruct (lookup name old) as [v'|]; [|reflexivity]. cbn [bind]. destruct (as_arr v') as [o|]; [|reflexivity]. cbn [bind]. destruct (plus_arr x o); reflexivity. }
    rewrite E. clear E. match goal with |- bind ?x _ = _ => destruct x as [d2|]; [|reflexivity] end. cbn [bind]. rewrite Ec. cbn [bind].
    apply foldM_ext. intros d [[[name key] nf] nb] Hin. destruct (@coupling_skip _ _ _ _ _ _ _ Hw Ec Hin) as (_ & _ & B). replace nf with 1%nat by lia. cbn [Nat.eqb negb].
    unfold replace_at, coup_new. change (cname (name, key, 1%nat, nb)) with name. cbn [fst snd]. destruct (lookup name d) as [v|]; [|reflexivity]. cbn [bind].
    destruct (as_spin v) as [r|]; [|reflexivity]. cbn [bind]. destruct (lookup name old) as [v'|]; [|reflexivity]. cbn [bind]. destruct (as_spin v') as [o|]; [|reflexivity]. cbn [bind].
    destruct (foldM _ _ r); reflexivity.
  Qed.

  Lemma in_ferm name key n comb : In (name, key, n) fs -> In comb (generate_spin_combinations n false true) -> In (name, key, Some comb, comb) (fermionic_blocks fs).
  Proof. intros H1 H2. apply in_flat_map. exists (name, key, n). split; [exact H1|]. apply in_map_iff. exists comb. split; [reflexivity|exact H2]. Qed.
  Lemma in_bos name key n : In (name, key, n) bs -> In (name, key, None, repeat (chr_of "_") n) (bosonic_blocks bs).
  Proof. intros H1. apply in_map_iff. exists (name, key, n). split; [reflexivity|exact H1]. Qed.
  Lemma in_coup name key nf nb comb : In (name, key, nf, nb) cs -> In comb [str "aa"; str "bb"] -> In (name, key, Some comb, repeat (chr_of "_") nb ++ comb) (coupling_blocks cs).
  Proof. intros H1 H2. apply in_flat_map. exists (name, key, nf, nb). split; [exact H1|]. apply in_map_iff. exists comb. split; [reflexivity|exact H2]. Qed.
  Lemma l_ferm b : In b (fermionic_blocks fs) -> In b l.
  Proof. intros. apply in_or_app. left. assumption. Qed.
  Lemma l_bos b : In b (bosonic_blocks bs) -> In b l.
  Proof. intros. apply in_or_app. right. apply in_or_app. left. assumption. Qed.
  Lemma l_coup b : In b (coupling_blocks cs) -> In b l.
  Proof. intros. apply in_or_app. right. apply in_or_app. right. assumption. Qed.

  Lemma known_block name key stored spins : In (name, key, stored, spins) l -> known c sz eps key spins.
  Proof. intros H k s Hks. exact (HE name key stored spins k s H Hks). Qed.

  Lemma ferm_ok name key n e : In (name, key, n) fs -> dget pystr_eq_dec (name ++ str "new") res = Some (VSpin e) ->
    exists r', ferm_new (name, key, n) (VSpin e) = Ok (VSpin r') /\
      forall comb, In comb (generate_spin_combinations n false true) -> exists x, dget pystr_eq_dec comb r' = Some x /\ wf x /\
        shp x = spin_shape_of sz key comb /\ spin_antisymmetric key comb x /\
        forall idx, inb (spin_shape_of sz key comb) idx -> aget 0 x idx = antisymmetriser_scale key comb *
          (u_block_at old name (Some comb) idx + fdiv (u_block_at res (name ++ str "new") (Some comb) idx) (u_denominator sz eps key comb idx)).
  Proof.
    intros Hin Er. destruct (@fermionic_entries _ _ _ _ Ef) as (_ & _ & F2). pose proof (F2 _ Hin) as Fe. destruct (@entry_len _ _ Hw Fe) as [L1 L2]. cbn [fst snd] in L1, L2.
    destruct (spins_nodup n) as [ND NE]. assert (HG : exists comb, In comb (generate_spin_combinations n false true)). { destruct (generate_spin_combinations n false true) as [|x ?]; [congruence|exists x; left; reflexivity]. }
    destruct HR as (_ & _ & R3), HO as (_ & _ & O3). destruct HG as (c0 & Hc0).
    assert (EO : exists o, dget pystr_eq_dec name old = Some (VSpin o)).
    { destruct (O3 name key (Some c0) c0 (@l_ferm _ (@in_ferm _ _ _ _ Hin Hc0))) as (x & Ex & _). rewrite app_nil_r in Ex. unfold block_of in Ex.
      destruct (dget pystr_eq_dec name old) as [[x0|o]|]; [discriminate|exists o; reflexivity|discriminate]. }
    destruct EO as (o & EO). unfold ferm_new. cbn [as_spin bind]. change (fname (name, key, n)) with name. unfold lookup at 1. rewrite EO. cbn [bind as_spin fst snd].
    assert (K26 : (length key <= 26)%nat) by (apply (@H26 name _ _ _ (l_ferm _ (@in_ferm _ _ _ _ Hin Hc0)))).
    assert (KN : key <> []) by (intros ->; cbn in L1; lia).
    assert (ST : forall comb, In comb (generate_spin_combinations n false true) -> exists r x, dget pystr_eq_dec comb e = Some r /\ spin_new c key n o comb r = Ok x /\ wf x /\
        shp x = spin_shape_of sz key comb /\ spin_antisymmetric key comb x /\
        forall idx, inb (spin_shape_of sz key comb) idx -> aget 0 x idx = antisymmetriser_scale key comb *
          (u_block_at old name (Some comb) idx + fdiv (u_block_at res (name ++ str "new") (Some comb) idx) (u_denominator sz eps key comb idx))).
    { intros comb Hc. pose proof (@in_ferm _ _ _ _ Hin Hc) as HB. destruct (R3 _ _ _ _ (l_ferm _ HB)) as (r & E1 & W1 & S1). destruct (O3 _ _ _ _ (l_ferm _ HB)) as (t & E2 & W2 & S2).
      pose proof (@AR _ _ _ _ _ HB E1) as A1. pose proof (@AO _ _ _ _ _ HB E2) as A2. rewrite app_nil_r in E2.
      pose proof E1 as E1'. pose proof E2 as E2'. unfold block_of in E1', E2'. rewrite Er in E1'. rewrite EO in E2'.
      destruct (@spins_ok _ _ Hc) as [Lc _].
      destruct (@spin_new_ok F c sz eps key comb n o t r KN K26 L1 ltac:(congruence) (@known_block _ _ _ _ (l_ferm _ HB)) E2' W2 W1 S2 S1 A2 A1) as (x & X1 & X2 & X3 & X4 & X5).
      exists r, x. split; [exact E1'|]. split; [exact X1|]. split; [exact X2|]. split; [exact X3|]. split; [exact X4|]. intros idx Hi. rewrite (X5 idx Hi). unfold u_block_at. rewrite E1, E2. reflexivity. }
    rewrite (@foldM_ext _ _ _ (replace_at (fun s => s) (spin_new c key n o))).
    2:{ intros d comb Hc. destruct (@spins_ok _ _ Hc) as [Lc _]. apply u_update_spin_eq; [congruence|exact K26]. }
    destruct (@fold_entries _ _ (fun s => s) (spin_new c key n o) (generate_spin_combinations n false true) e) as (r' & Ef' & _ & _ & _ & G).
    - rewrite map_id. exact ND.
    - intros comb Hc. destruct (ST comb Hc) as (r & x & X1 & X2 & _). exists r, x. tauto.
    - rewrite Ef'. cbn [bind]. exists r'. split; [reflexivity|]. intros comb Hc. destruct (ST comb Hc) as (r & x & X1 & X2 & X3). exists x. split; [exact (G comb r x Hc X1 X2)|exact X3].
  Qed.

  (** The blocks without antisymmetrisation. *)
  Lemma plain_ok name key stored spins t r : In (name, key, stored, spins) l -> key <> [] -> length spins = length key ->
    block_of old name stored = Some t -> block_of res (name ++ str "new") stored = Some r ->
    exists D x y, u_energy_sum c key spins [] = Ok D /\ div_arr r D = Ok x /\ plus_arr x t = Ok y /\ wf y /\ shp y = spin_shape_of sz key spins /\
      forall idx, inb (spin_shape_of sz key spins) idx -> aget 0 y idx =
        u_block_at old name stored idx + fdiv (u_block_at res (name ++ str "new") stored idx) (u_denominator sz eps key spins idx).
  Proof.
    intros HB KN HL Et Er. destruct HR as (_ & _ & R3), HO as (_ & _ & O3). destruct (R3 _ _ _ _ HB) as (r' & E1 & W1 & S1). rewrite Er in E1. injection E1 as <-.
    destruct (O3 _ _ _ _ HB) as (t' & E2 & W2 & S2). rewrite app_nil_r, Et in E2. injection E2 as <-.
    destruct (@u_denominator_ok F c sz eps key spins KN (@H26 _ _ _ _ HB) HL (@known_block _ _ _ _ HB)) as (D & ED & WD & SD & GD).
    destruct (@zip_ok F fdiv r D W1 WD ltac:(congruence)) as (x & Ex & Wx & Sx & Gx).
    destruct (@zip_ok F radd x t Wx W2 ltac:(congruence)) as (y & Ey & Wy & Sy & Gy).
    exists D, x, y. split; [exact ED|]. split; [exact Ex|]. split; [exact Ey|]. split; [exact Wy|]. split; [congruence|].
    intros idx Hi. rewrite Gy by (rewrite Sx, S1; exact Hi). rewrite Gx by (rewrite S1; exact Hi). rewrite GD by exact Hi. unfold u_block_at. rewrite Et, Er. ring.
  Qed.

  Lemma boson_ok name key n v : In (name, key, n) bs -> dget pystr_eq_dec (name ++ str "new") res = Some v ->
    exists y, boson_new (name, key, n) v = Ok (VArr y) /\ wf y /\ shp y = spin_shape_of sz key (repeat (chr_of "_") n) /\
      forall idx, inb (spin_shape_of sz key (repeat (chr_of "_") n)) idx -> aget 0 y idx =
        u_block_at old name None idx + fdiv (u_block_at res (name ++ str "new") None idx) (u_denominator sz eps key (repeat (chr_of "_") n) idx).
  Proof.
    intros Hin Ev. destruct (@boson_wf _ _ _ Eb) as (_ & _ & B). destruct (B _ _ _ Hin) as (_ & Ek & Hr). pose proof (l_bos _ (@in_bos _ _ _ Hin)) as HB.
    pose proof (proj2 (proj2 HR)) as R3. pose proof (proj2 (proj2 HO)) as O3. destruct (R3 _ _ _ _ HB) as (r & E1 & _). destruct (O3 _ _ _ _ HB) as (t & E2 & _). rewrite app_nil_r in E2.
    destruct (@plain_ok name key None _ t r HB) as (D & x & y & X1 & X2 & X3 & X4); try assumption.
    { rewrite Ek. destruct n; [lia|discriminate]. } { rewrite Ek, !repeat_length. reflexivity. }
    exists y. split; [|exact X4]. unfold block_of in E1, E2. rewrite Ev in E1. destruct v as [v|v]; [|discriminate]. injection E1 as ->.
    destruct (dget pystr_eq_dec name old) as [[v'|v']|] eqn:E3; try discriminate. injection E2 as ->.
    unfold boson_new. cbn [as_arr bind fst snd]. rewrite X1. cbn [bind]. rewrite X2. cbn [bind]. change (fname (name, key, n)) with name. unfold lookup. rewrite E3. cbn [bind as_arr]. rewrite X3. reflexivity.
  Qed.

  Lemma coup_ok name key nf nb e : In (name, key, nf, nb) cs -> dget pystr_eq_dec (name ++ str "new") res = Some (VSpin e) ->
    exists r', coup_new (name, key, nf, nb) (VSpin e) = Ok (VSpin r') /\
      forall comb, In comb [str "aa"; str "bb"] -> exists x, dget pystr_eq_dec comb r' = Some x /\ wf x /\
        shp x = spin_shape_of sz key (repeat (chr_of "_") nb ++ comb) /\
        forall idx, inb (spin_shape_of sz key (repeat (chr_of "_") nb ++ comb)) idx -> aget 0 x idx =
          u_block_at old name (Some comb) idx + fdiv (u_block_at res (name ++ str "new") (Some comb) idx) (u_denominator sz eps key (repeat (chr_of "_") nb ++ comb) idx).
  Proof.
    intros Hin Er. destruct (coupling_wf (u_ansatz c) Hw) as (cs' & Ec' & _ & W & _). rewrite Ec in Ec'. apply Ok_inj in Ec'. subst cs'.
    destruct (W _ _ _ _ Hin) as (B1 & B2 & _ & _ & _ & _ & Lk). assert (KN : key <> []) by (intros ->; cbn in Lk; lia).
    pose proof (proj2 (proj2 HR)) as R3. pose proof (proj2 (proj2 HO)) as O3.
    assert (EO : exists o, dget pystr_eq_dec name old = Some (VSpin o)).
    { destruct (O3 name key _ _ (l_coup _ (@in_coup _ _ _ _ (str "aa") Hin ltac:(cbn; tauto)))) as (x & Ex & _). rewrite app_nil_r in Ex. unfold block_of in Ex.
      destruct (dget pystr_eq_dec name old) as [[x0|o]|]; [discriminate|exists o; reflexivity|discriminate]. }
    destruct EO as (o & EO). unfold coup_new. cbn [as_spin bind]. change (cname (name, key, nf, nb)) with name. unfold lookup at 1. rewrite EO. cbn [bind as_spin fst snd].
    set (g := fun (comb : pystr) (r : arr F) => (D <- u_energy_sum c key (repeat (chr_of "_") nb ++ comb) [] ;; x <- div_arr r D ;; t <- lookup comb o ;; plus_arr x t)%py).
    assert (ST : forall comb, In comb [str "aa"; str "bb"] -> exists r x, dget pystr_eq_dec comb e = Some r /\ g comb r = Ok x /\ wf x /\
        shp x = spin_shape_of sz key (repeat (chr_of "_") nb ++ comb) /\
        forall idx, inb (spin_shape_of sz key (repeat (chr_of "_") nb ++ comb)) idx -> aget 0 x idx =
          u_block_at old name (Some comb) idx + fdiv (u_block_at res (name ++ str "new") (Some comb) idx) (u_denominator sz eps key (repeat (chr_of "_") nb ++ comb) idx)).
    { intros comb Hc. pose proof (l_coup _ (@in_coup _ _ _ _ comb Hin Hc)) as HB. destruct (R3 _ _ _ _ HB) as (r & E1 & _). destruct (O3 _ _ _ _ HB) as (t & E2 & _). rewrite app_nil_r in E2.
      destruct (@plain_ok name key (Some comb) _ t r HB) as (D & x & y & X1 & X2 & X3 & X4); try assumption.
      { rewrite app_length, repeat_length, Lk. assert (length comb = 2)%nat by (destruct Hc as [<-|[<-|[]]]; reflexivity). lia. }
      exists r, y. unfold block_of in E1, E2. rewrite Er in E1. rewrite EO in E2. split; [exact E1|]. split; [|exact X4].
      unfold g. rewrite X1. cbn [bind]. rewrite X2. cbn [bind]. unfold lookup. rewrite E2. cbn [bind]. exact X3. }
    rewrite (@foldM_ext _ _ _ (replace_at (fun s => s) g)).
    2:{ intros d comb _. unfold u_update_coupling, replace_at, g. destruct (lookup comb d) as [r|]; [|reflexivity]. cbn [bind]. destruct (u_energy_sum _ _ _ _) as [D|]; [|reflexivity]. cbn [bind].
        destruct (div_arr r D) as [x|]; [|reflexivity]. cbn [bind]. destruct (lookup comb o) as [t|]; [|reflexivity]. cbn [bind]. destruct (plus_arr x t); reflexivity. }
    destruct (@fold_entries _ _ (fun s => s) g [str "aa"; str "bb"] e) as (r' & Ef' & _ & _ & _ & G).
    - rewrite map_id. apply str_nodup_ok. reflexivity.
    - intros comb Hc. destruct (ST comb Hc) as (r & x & X1 & X2 & _). exists r, x. tauto.
    - rewrite Ef'. cbn [bind]. exists r'. split; [reflexivity|]. intros comb Hc. destruct (ST comb Hc) as (r & x & X1 & X2 & X3). exists x. split; [exact (G comb r x Hc X1 X2)|exact X3].
  Qed.

  Definition u_clusters : list (pystr * pystr) := map fst fs ++ map fst bs ++ map (fun e => fst (fst e)) cs.
  Lemma u_is_clusters : clusters (u_ansatz c) false w u_clusters.
  Proof. exists fs, bs, cs. repeat split; assumption. Qed.
  Lemma name_facts b : In b l -> ends_well (fst (fst (fst b))) /\ In (fst (fst (fst b))) (all_names fs bs cs).
  Proof.
    intros Hb. assert (H : exists key, In (fst (fst (fst b)), key) u_clusters).
    { unfold l, u_clusters in *. rewrite !in_app_iff in Hb. destruct Hb as [Hb|[Hb|Hb]].
      - apply in_flat_map in Hb. destruct Hb as (e & He & Hb). apply in_map_iff in Hb. destruct Hb as (comb & <- & _). exists (snd (fst e)). rewrite !in_app_iff. left. apply in_map_iff. exists e. split; [destruct e as [[? ?] ?]; reflexivity|exact He].
      - apply in_map_iff in Hb. destruct Hb as (e & <- & He). exists (snd (fst e)). rewrite !in_app_iff. right. left. apply in_map_iff. exists e. split; [destruct e as [[? ?] ?]; reflexivity|exact He].
      - apply in_flat_map in Hb. destruct Hb as (e & He & Hb). apply in_map_iff in Hb. destruct Hb as (comb & <- & _). exists (snd (fst (fst e))). rewrite !in_app_iff. right. right. apply in_map_iff. exists e. split; [destruct e as [[[? ?] ?] ?]; reflexivity|exact He]. }
    destruct H as (key & H). split; [apply (@clusters_facts _ _ _ _ Hw u_is_clusters _ _ H)|].
    unfold u_clusters in H. unfold all_names. rewrite !in_app_iff in *. destruct H as [H|[H|H]]; apply in_map_iff in H; destruct H as (e & E & He); [left|right; left|right; right]; apply in_map_iff; exists e; rewrite E; tauto.
  Qed.
  Lemma has_block_new nm : dget pystr_eq_dec nm res <> None -> exists s, ends_well s /\ nm = s ++ str "new".
  Proof. intros H. destruct (proj1 (proj2 HR) nm H) as (b & Hb & ->). exists (fst (fst (fst b))). split; [apply (name_facts _ Hb)|reflexivity]. Qed.
  Lemma strip_get name : ends_well name -> dget pystr_eq_dec name (strip_new res) = dget pystr_eq_dec (name ++ str "new") res.
  Proof.
    intros Hn. unfold strip_new. rewrite (strip_fold res []); [destruct (dget pystr_eq_dec (name ++ str "new") res); reflexivity| |exact (proj1 HR)|exact Hn].
    intros [k v] Hin. apply has_block_new. apply dget_key, in_map_iff. exists (k, v). split; [reflexivity|exact Hin].
  Qed.

  Definition new_value (scale : F) (name key : pystr) (stored : option pystr) (spins : pystr) (idx : list nat) : F :=
    scale * (u_block_at old name stored idx + fdiv (u_block_at res (name ++ str "new") stored idx) (u_denominator sz eps key spins idx)).
  Lemma u_jacobi : exists out, u_update c w old res = Ok out /\ u_holds [] l sz out /\ u_antisymmetric [] (fermionic_blocks fs) out /\
    (forall name key stored spins idx, In (name, key, stored, spins) (fermionic_blocks fs) -> inb (spin_shape_of sz key spins) idx ->
       u_block_at out name stored idx = new_value (antisymmetriser_scale key spins) name key stored spins idx) /\
    (forall name key stored spins idx, In (name, key, stored, spins) (bosonic_blocks bs ++ coupling_blocks cs) -> inb (spin_shape_of sz key spins) idx ->
       u_block_at out name stored idx = new_value 1 name key stored spins idx).
  Proof.
    rewrite u_update_eq. pose proof (@names_nodup _ _ _ _ _ _ Hw HD Ef Eb Ec) as ND. unfold all_names in ND. apply NoDup_app_inv in ND. destruct ND as (N1 & N23 & N4).
    apply NoDup_app_inv in N23. destruct N23 as (N2 & N3 & N5).
    assert (Dr : forall name key stored spins, In (name, key, stored, spins) l -> exists x, block_of res (name ++ str "new") stored = Some x /\ wf x /\ shp x = spin_shape_of sz key spins) by exact (proj2 (proj2 HR)).
    assert (FV : forall name key n, In (name, key, n) fs -> exists e, dget pystr_eq_dec name (strip_new res) = Some (VSpin e) /\ dget pystr_eq_dec (name ++ str "new") res = Some (VSpin e)).
    { intros name key n Hin. destruct (spins_nodup n) as [_ NE]. destruct (generate_spin_combinations n false true) as [|c0 ?] eqn:EG; [congruence|].
      assert (HB : In (name, key, Some c0, c0) l) by (apply l_ferm, in_ferm with n; [exact Hin|rewrite EG; left; reflexivity]).
      destruct (Dr _ _ _ _ HB) as (x & Ex & _). unfold block_of in Ex. destruct (dget pystr_eq_dec (name ++ str "new") res) as [[?|e]|] eqn:E; try discriminate. exists e. split; [|reflexivity].
      rewrite strip_get; [exact E|apply (name_facts _ HB)]. }
    assert (BV : forall name key n, In (name, key, n) bs -> exists v, dget pystr_eq_dec name (strip_new res) = Some v /\ dget pystr_eq_dec (name ++ str "new") res = Some v).
    { intros name key n Hin. pose proof (l_bos _ (@in_bos _ _ _ Hin)) as HB. destruct (Dr _ _ _ _ HB) as (x & Ex & _). unfold block_of in Ex.
      destruct (dget pystr_eq_dec (name ++ str "new") res) as [v|] eqn:E; [|discriminate]. exists v. split; [|reflexivity]. rewrite strip_get; [exact E|apply (name_facts _ HB)]. }
    assert (CV : forall name key nf nb, In (name, key, nf, nb) cs -> exists e, dget pystr_eq_dec name (strip_new res) = Some (VSpin e) /\ dget pystr_eq_dec (name ++ str "new") res = Some (VSpin e)).
    { intros name key nf nb Hin. pose proof (l_coup _ (@in_coup _ _ _ _ (str "aa") Hin ltac:(cbn; tauto))) as HB. destruct (Dr _ _ _ _ HB) as (x & Ex & _). unfold block_of in Ex.
      destruct (dget pystr_eq_dec (name ++ str "new") res) as [[?|e]|] eqn:E; try discriminate. exists e. split; [|reflexivity]. rewrite strip_get; [exact E|apply (name_facts _ HB)]. }
    destruct (@fold_entries _ _ fname ferm_new fs (strip_new res) N1) as (d1 & E1 & ND1 & K1 & O1 & G1).
    { intros [[name key] n] Hin. change (fname (name, key, n)) with name. destruct (FV _ _ _ Hin) as (e & X1 & X2). destruct (@ferm_ok _ _ _ _ Hin X2) as (r' & X3 & _). exists (VSpin e), (VSpin r'). tauto. }
    rewrite E1. cbn [bind].
    destruct (@fold_entries _ _ fname boson_new bs d1 N2) as (d2 & E2 & ND2 & K2 & O2 & G2).
    { intros [[name key] n] Hin. change (fname (name, key, n)) with name. destruct (BV _ _ _ Hin) as (v & X1 & X2). destruct (@boson_ok _ _ _ _ Hin X2) as (y & X3 & _). exists v, (VArr y).
      rewrite O1; [tauto|]. intros Hn. apply (N4 name Hn). apply in_or_app. left. apply in_map_iff. exists (name, key, n). split; [reflexivity|exact Hin]. }
    rewrite E2. cbn [bind].
    destruct (@fold_entries _ _ cname coup_new cs d2 N3) as (out & E3 & ND3 & K3 & O3 & G3).
    { intros [[[name key] nf] nb] Hin. change (cname (name, key, nf, nb)) with name. destruct (CV _ _ _ _ Hin) as (e & X1 & X2). destruct (@coup_ok _ _ _ _ _ Hin X2) as (r' & X3 & _). exists (VSpin e), (VSpin r').
      assert (HC : In name (map cname cs)) by (apply in_map_iff; exists (name, key, nf, nb); split; [reflexivity|exact Hin]).
      rewrite O2 by (intros Hn; exact (N5 name Hn HC)). rewrite O1; [tauto|]. intros Hn. apply (N4 name Hn). apply in_or_app. right. exact HC. }
    exists out. split; [exact E3|].
    (* final values *)
    assert (FF : forall name key n, In (name, key, n) fs -> exists r', dget pystr_eq_dec name out = Some (VSpin r') /\
      forall comb, In comb (generate_spin_combinations n false true) -> exists x, dget pystr_eq_dec comb r' = Some x /\ wf x /\
        shp x = spin_shape_of sz key comb /\ spin_antisymmetric key comb x /\ forall idx, inb (spin_shape_of sz key comb) idx -> aget 0 x idx = new_value (antisymmetriser_scale key comb) name key (Some comb) comb idx).
    { intros name key n Hin. destruct (FV _ _ _ Hin) as (e & X1 & X2). destruct (@ferm_ok _ _ _ _ Hin X2) as (r' & X3 & X4). exists r'. split; [|exact X4].
      assert (HN : In name (map fname fs)) by (apply in_map_iff; exists (name, key, n); split; [reflexivity|exact Hin]).
      rewrite O3 by (intros Hn; apply (N4 name HN), in_or_app; right; exact Hn). rewrite O2 by (intros Hn; apply (N4 name HN), in_or_app; left; exact Hn). exact (G1 (name, key, n) _ _ Hin X1 X3). }
    assert (FB : forall name key n, In (name, key, n) bs -> exists y, dget pystr_eq_dec name out = Some (VArr y) /\ wf y /\ shp y = spin_shape_of sz key (repeat (chr_of "_") n) /\
      forall idx, inb (spin_shape_of sz key (repeat (chr_of "_") n)) idx -> aget 0 y idx = new_value 1 name key None (repeat (chr_of "_") n) idx).
    { intros name key n Hin. destruct (BV _ _ _ Hin) as (v & X1 & X2). destruct (@boson_ok _ _ _ _ Hin X2) as (y & X3 & X4 & X5 & X6). exists y. split; [|split; [exact X4|split; [exact X5|]]].
      - assert (HN : In name (map fname bs)) by (apply in_map_iff; exists (name, key, n); split; [reflexivity|exact Hin]).
        rewrite O3 by (intros Hn; exact (N5 name HN Hn)). refine (G2 (name, key, n) v _ Hin _ X3). change (fname (name, key, n)) with name.
        rewrite O1 by (intros Hn; apply (N4 name Hn), in_or_app; left; exact HN). exact X1.
      - intros idx Hi. rewrite (X6 idx Hi). unfold new_value. ring. }
    assert (FC : forall name key nf nb, In (name, key, nf, nb) cs -> exists r', dget pystr_eq_dec name out = Some (VSpin r') /\
      forall comb, In comb [str "aa"; str "bb"] -> exists x, dget pystr_eq_dec comb r' = Some x /\ wf x /\ shp x = spin_shape_of sz key (repeat (chr_of "_") nb ++ comb) /\
        forall idx, inb (spin_shape_of sz key (repeat (chr_of "_") nb ++ comb)) idx -> aget 0 x idx = new_value 1 name key (Some comb) (repeat (chr_of "_") nb ++ comb) idx).
    { intros name key nf nb Hin. destruct (CV _ _ _ _ Hin) as (e & X1 & X2). destruct (@coup_ok _ _ _ _ _ Hin X2) as (r' & X3 & X4). exists r'. split.
      - assert (HN : In name (map cname cs)) by (apply in_map_iff; exists (name, key, nf, nb); split; [reflexivity|exact Hin]).
        refine (G3 (name, key, nf, nb) (VSpin e) _ Hin _ X3). change (cname (name, key, nf, nb)) with name.
        rewrite O2 by (intros Hn; exact (N5 name Hn HN)). rewrite O1 by (intros Hn; apply (N4 name Hn), in_or_app; right; exact HN). exact X1.
      - intros comb Hc. destruct (X4 comb Hc) as (x & Y1 & Y2 & Y3 & Y4). exists x. split; [exact Y1|]. split; [exact Y2|]. split; [exact Y3|]. intros idx Hi. rewrite (Y4 idx Hi). unfold new_value. ring. }
    assert (BF : forall name key stored spins, In (name, key, stored, spins) (fermionic_blocks fs) -> exists x, block_of out name stored = Some x /\ wf x /\ shp x = spin_shape_of sz key spins /\
      spin_antisymmetric key spins x /\ forall idx, inb (spin_shape_of sz key spins) idx -> aget 0 x idx = new_value (antisymmetriser_scale key spins) name key stored spins idx).
    { intros name key stored spins HB. apply in_flat_map in HB. destruct HB as ([[nm k] n] & He & HB). apply in_map_iff in HB. destruct HB as (comb & E & Hc). cbn [fst snd] in E, Hc.
      apply pair_equal_spec in E. destruct E as [E <-]. apply pair_equal_spec in E. destruct E as [E <-]. apply pair_equal_spec in E. destruct E as [<- <-].
      destruct (FF _ _ _ He) as (r' & Y1 & Y2). destruct (Y2 _ Hc) as (x & Z1 & Z2). exists x. unfold block_of. rewrite Y1. tauto. }
    assert (BO : forall name key stored spins, In (name, key, stored, spins) (bosonic_blocks bs ++ coupling_blocks cs) -> exists x, block_of out name stored = Some x /\ wf x /\ shp x = spin_shape_of sz key spins /\
      forall idx, inb (spin_shape_of sz key spins) idx -> aget 0 x idx = new_value 1 name key stored spins idx).
    { intros name key stored spins HB. apply in_app_or in HB. destruct HB as [HB|HB].
      - apply in_map_iff in HB. destruct HB as ([[nm k] n] & E & He). cbn [fst snd] in E.
        apply pair_equal_spec in E. destruct E as [E <-]. apply pair_equal_spec in E. destruct E as [E <-]. apply pair_equal_spec in E. destruct E as [<- <-].
        destruct (FB _ _ _ He) as (y & Y1 & Y2). exists y. unfold block_of. rewrite Y1. tauto.
      - apply in_flat_map in HB. destruct HB as ([[[nm k] nf] nb] & He & HB). apply in_map_iff in HB. destruct HB as (comb & E & Hc). cbn [fst snd] in E, Hc.
        apply pair_equal_spec in E. destruct E as [E <-]. apply pair_equal_spec in E. destruct E as [E <-]. apply pair_equal_spec in E. destruct E as [<- <-].
        destruct (FC _ _ _ _ He) as (r' & Y1 & Y2). destruct (Y2 _ Hc) as (x & Z1 & Z2). exists x. unfold block_of. rewrite Y1. tauto. }
    split; [split; [|split]|split; [|split]].
    - apply ND3, ND2, ND1, strip_keys.
    - intros nm Hnm. apply K3, K2, K1 in Hnm. apply dget_key in Hnm. apply strip_keys in Hnm. destruct Hnm as (k & Hk & ->).
      apply dget_key in Hk. destruct (proj1 (proj2 HR) k Hk) as (b & Hb & ->). exists b. split; [exact Hb|]. rewrite app_nil_r. apply rstrip_new, (name_facts _ Hb).
    - intros name key stored spins HB. rewrite app_nil_r. unfold l in HB. apply in_app_or in HB. destruct HB as [HB|HB].
      + destruct (BF _ _ _ _ HB) as (x & X1 & X2 & X3 & _). exists x. tauto.
      + destruct (BO _ _ _ _ HB) as (x & X1 & X2 & X3 & _). exists x. tauto.
    - intros name key stored spins x HB Ex. rewrite app_nil_r in Ex. destruct (BF _ _ _ _ HB) as (x' & X1 & _ & _ & X4 & _). rewrite Ex in X1. injection X1 as <-. exact X4.
    - intros name key stored spins idx HB Hi. destruct (BF _ _ _ _ HB) as (x & X1 & _ & _ & _ & X5). unfold u_block_at at 1. rewrite X1. apply X5, Hi.
    - intros name key stored spins idx HB Hi. destruct (BO _ _ _ _ HB) as (x & X1 & _ & _ & X5). unfold u_block_at at 1. rewrite X1. apply X5, Hi.
  Qed.
End UUpdate.
