(** Proofs: the diagonal and the starting guesses of the equation-of-motion solvers. *)
From Coq Require Import String Permutation Sorted.
From Verif Require Import Base ListAux Alg ArrModel ArrProofs PermModel PermSpec PermProps TensorModel TensorSpec TensorProps SpaceModel AnsatzModel AnsatzSpec AnsatzProofs AnsatzRanks
  GroupProofs SpinProofs MiscProofs DampProofs KernelProofs VecModel VecSpec VecProofs VecThms CcModel CcSpec CcThms CcUThms CcInit EomModel EomSpec EomThms.
Set Implicit Arguments.
Local Open Scope nat_scope.
Local Open Scope list_scope.

(** Writing needs the shapes only. *)
Section Write.
  Variable K : rng.
  Definition shape_of (c : codec) : list nat := match c with Raw _ s => s | Packed _ _ s => s end.
  Definition shape_fits (b : block) (t : tval K) : Prop :=
    match b, t with
    | BArr c, VArr y => shp y = shape_of c
    | BSpin cs, VSpin d => forall s c, In (s, c) cs -> exists y, dget pystr_eq_dec s d = Some y /\ shp y = shape_of c
    | _, _ => False
    end.
  Lemma encode_ok c (y : arr K) : codec_ok c -> shp y = shape_of c -> exists l, encode K c y = Ok l.
  Proof.
    destruct c as [m s|sub m s]; cbn [codec_ok shape_of encode]; intros H E; [eexists; reflexivity|].
    destruct H as (He & sizes & Hd & _). destruct (@C07_compressed_size K sub sizes y) as (p & Ep & _); [rewrite E; exact He|rewrite E; exact Hd|]. rewrite Ep. eexists; reflexivity.
  Qed.
  Lemma write_ok amps name b t : block_ok b -> dget pystr_eq_dec name amps = Some t -> shape_fits b t -> exists ls, write_block K amps (name, b) = Ok ls.
  Proof.
    intros Hb E Hs. unfold write_block. cbn [fst snd]. rewrite E. destruct b as [c|cs], t as [y|d]; cbn [shape_fits block_ok] in *; try contradiction.
    - destruct (@encode_ok c y Hb Hs) as (l & ->). eexists; reflexivity.
    - apply mapM_total. intros [s c] Hin. cbn [fst snd]. destruct (Hs s c Hin) as (y & -> & Hy). apply encode_ok; [|exact Hy].
      rewrite Forall_forall in Hb. exact (Hb _ Hin).
  Qed.
End Write.

Lemma negated_holds (F : fld) minus (D : arr F) shape f : wf D -> shp D = shape -> (forall idx, inb shape idx -> aget r0 D idx = f idx) ->
  holds_signed minus shape f (negated F minus D).
Proof.
  intros W S G. destruct minus; cbn [negated]; [|repeat split; assumption]. unfold holds_signed, map_arr. cbn [shp]. split; [|split; [exact S|]].
  - unfold wf in *. cbn [dat shp]. rewrite map_length. exact W.
  - intros idx Hi. rewrite <- (G idx Hi). unfold aget. cbn [shp dat]. rewrite (nth_indep _ _ (ropp r0)); [apply map_nth|].
    rewrite map_length. rewrite <- S in Hi. apply ravel_lt in Hi. unfold wf in W. lia.
Qed.
Lemma orb_known k : orb k -> In k (str "oOivVab").
Proof. unfold orb. cbn. intuition. Qed.
Lemma key_nonempty a rspin x fs name key n : fermionic_cluster_ranks a rspin (which_of x) = Ok fs -> In (name, key, n) fs -> key <> [].
Proof.
  intros Ef I. destruct (@ferm_inv _ _ _ _ Ef) as (_ & _ & H). specialize (H _ I). intros ->. revert H.
  assert (X : forallb (fun rs => forallb (fun w => forallb (fun e : entry => negb (length (snd (fst e)) =? 0)) (fermion_table rs w)) [Wt; Wl; Wip; Wea; Wee]) [true; false] = true) by (vm_compute; reflexivity).
  rewrite forallb_forall in X. specialize (X rspin). assert (Hr : In rspin [true; false]) by (destruct rspin; cbn; auto). specialize (X Hr). rewrite forallb_forall in X. specialize (X (which_of x)).
  assert (Hw : In (which_of x) [Wt; Wl; Wip; Wea; Wee]) by (destruct x; cbn; auto 10). specialize (X Hw). rewrite forallb_forall in X. intros H. specialize (X _ H). discriminate X.
Qed.

Section RG.
  Variables (F : fld) (c : cc F) (rspin minus : bool) (x : sector) (fs : list entry) (sz : nat -> nat) (eps : nat -> nat -> F).
  Hypothesis HX : excitations (cc_ansatz c) rspin x fs.
  Hypothesis HK : known_energies c fs sz eps.
  Lemma rg_parts_ok : exists parts, rg_parts c rspin minus x = Ok parts /\
    forall name key n, In (name, key, n) fs -> exists D, dget pystr_eq_dec name parts = Some (VArr D) /\ holds_signed minus (map sz key) (denominator sz eps key) D.
  Proof.
    destruct HX as (Ef & HNE & ND & Eb & Hc). unfold rg_parts. rewrite Ef. cbn [bind].
    assert (HD : forall name key n, In (name, key, n) fs -> exists D, energy_sum c key [] = Ok D /\ wf D /\ shp D = map sz key /\ forall idx, inb (map sz key) idx -> aget r0 D idx = denominator sz eps key idx).
    { intros name key n I. destruct (@key_facts _ _ _ _ _ _ _ Ef I) as (HO & H8 & _). apply (@denominator_ok F c sz eps name key); [exact (@key_nonempty _ _ _ _ _ _ _ Ef I)|lia|].
      intros k Hk. split; [apply orb_known, HO, Hk|apply (HK _ _ _ _ I Hk)]. }
    destruct (@set_all_ok F entry fname (arr_of (fun '(_, key, n) => (D <- energy_sum c key [] ;; Ok (negated F minus D))%py)) fs []) as (parts & E & _ & _ & _ & G).
    - exact ND.
    - intros [[name key] n] I. destruct (HD _ _ _ I) as (D & E & _). unfold arr_of. rewrite E. cbn. eexists; reflexivity.
    - constructor.
    - exists parts. split; [exact E|]. intros name key n I. destruct (HD _ _ _ I) as (D & ED & W & S & V). exists (negated F minus D). split.
      + apply (G (name, key, n) (VArr (negated F minus D)) I). unfold arr_of. rewrite ED. reflexivity.
      + apply negated_holds; assumption.
  Qed.
  Lemma rg_sized name key n s : In (name, key, n) fs -> key_shape (cc_space c) key = Ok s -> s = map sz key.
  Proof.
    intros I E. apply key_shape_spec in E. assert (H : forall k, In k key -> sp_size (cc_space c) k = Ok (sz k)) by (intros k Hk; apply (HK _ _ _ _ I Hk)).
    unfold sized_by in E. clear I. induction E as [|k m key s E _ IH]; [reflexivity|]. cbn [map]. f_equal; [|apply IH; intros; apply H; right; assumption].
    rewrite (H k (or_introl eq_refl)) in E. apply Ok_inj in E. congruence.
  Qed.
End RG.

Section Out.
  Variables (F : fld) (a : ansatz) (x : sector) (fs : list entry) (B : entry -> result (pystr * block)) (P : pystr -> nat -> tval F -> Prop).
  Hypothesis HB : forall name key n, In (name, key, n) fs -> exists b, B (name, key, n) = Ok (name, b) /\ block_ok b /\ block_nodup b /\ match b with BArr _ => True | BSpin cs => cs <> [] end /\
    forall t : tval F, block_fits F b t <-> P key n t.
  Hypotheses (HNB : no_bosons a x = Ok tt) (HNE : fs <> []).
  Variable lay : layout.
  Hypothesis EL : mapM B fs = Ok lay.
  Lemma out_ok parts : (forall name key n b, In (name, key, n) fs -> B (name, key, n) = Ok (name, b) -> exists t : tval F, dget pystr_eq_dec name parts = Some t /\ shape_fits F b t) ->
    exists v, eom_to_vector F (Ok lay) a x parts = Ok v.
  Proof.
    intros H. destruct (@mapM_total _ _ (write_block F parts) lay) as (vs & E).
    { intros [name b] Hin. destruct (@blocks_in F B P fs HB lay EL name b Hin) as (key & n & I & EB). destruct (H _ _ _ _ I EB) as (t & Et & Hs).
      apply (@write_ok F parts name b t); [|exact Et|exact Hs]. destruct (@blocks_good F B P fs HB lay EL) as [G _]. unfold layout_ok in G. rewrite Forall_forall in G. exact (G _ Hin). }
    eexists. exact (@to_vec F B P fs HB lay EL a x HNB HNE parts vs E).
  Qed.
End Out.

Lemma no_bosonic_ok a x : bosonic_cluster_ranks a (which_of x) = Ok [] -> no_bosonic a x = Ok tt.
Proof. intros E. unfold no_bosonic. rewrite E. reflexivity. Qed.

Theorem r_diag_ok (F : fld) (c : cc F) x fs sz eps : excitations (cc_ansatz c) true x fs -> known_energies c fs sz eps ->
  exists v parts, r_diag c x = Ok v /\ r_eom_to_vector F (cc_ansatz c) (cc_space c) x parts = Ok v /\
    forall name key n, In (name, key, n) fs -> exists D, dget pystr_eq_dec name parts = Some (VArr D) /\ holds_signed (r_minus x) (map sz key) (denominator sz eps key) D.
Proof.
  intros HX HK. destruct (@rg_parts_ok F c true (r_minus x) x fs sz eps HX HK) as (parts & E & HP). pose proof HX as (Ef & HNE & ND & Eb & Hc).
  assert (HB : forall name key n, In (name, key, n) fs -> exists b, r_block (cc_space c) (name, key, n) = Ok (name, b) /\ block_ok b /\ block_nodup b /\ match b with BArr _ => True | BSpin cs => cs <> [] end /\ forall t : tval F, block_fits F b t <-> r_amplitude (cc_space c) key n t).
  { intros name key n I. destruct (@r_block_ok F _ (cc_space c) x fs name key n Ef I) as (b & H1 & H2 & H3 & _ & H4 & H5). exists b. repeat (split; [assumption|]). exact H5. }
  destruct (@blocks_layout F (r_block (cc_space c)) _ fs HB) as (lay & EL).
  destruct (@out_ok F (cc_ansatz c) x fs _ _ HB (@no_bosons_ok _ x Eb Hc) HNE lay EL parts) as (v & Ev).
  { intros name key n b I EB. destruct (HP _ _ _ I) as (D & ED & W & S & _). exists (VArr D). split; [exact ED|]. cbn [r_block] in EB.
    destruct (key_shape (cc_space c) key) as [s|] eqn:Es; [|discriminate]. cbn [bind] in EB. apply Ok_inj in EB. apply pair_equal_spec in EB. destruct EB as [_ <-].
    cbn [shape_fits shape_of]. rewrite S. symmetry. exact (@rg_sized F c fs sz eps HK name key n s I Es). }
  exists v, parts. unfold r_diag, r_eom_to_vector, r_eom_layout. rewrite E, Ef. cbn [bind]. rewrite (@no_bosonic_ok _ x Eb), EL. cbn [bind]. split; [exact Ev|]. split; [exact Ev|exact HP].
Qed.
Theorem g_diag_ok (F : fld) (c : cc F) x fs sz eps : excitations (cc_ansatz c) false x fs -> known_energies c fs sz eps ->
  exists v parts, g_diag c x = Ok v /\ g_eom_to_vector F (cc_ansatz c) (cc_space c) x parts = Ok v /\
    forall name key n, In (name, key, n) fs -> exists D, dget pystr_eq_dec name parts = Some (VArr D) /\ holds_signed (g_minus x) (map sz key) (denominator sz eps key) D.
Proof.
  intros HX HK. destruct (@rg_parts_ok F c false (g_minus x) x fs sz eps HX HK) as (parts & E & HP). pose proof HX as (Ef & HNE & ND & Eb & Hc).
  assert (HB : forall name key n, In (name, key, n) fs -> exists b, g_block (cc_space c) (name, key, n) = Ok (name, b) /\ block_ok b /\ block_nodup b /\ match b with BArr _ => True | BSpin cs => cs <> [] end /\ forall t : tval F, block_fits F b t <-> g_amplitude (cc_space c) key n t)
    by (intros name key n I; exact (@g_block_ok F _ (cc_space c) x fs name key n Ef I)).
  destruct (@blocks_layout F (g_block (cc_space c)) _ fs HB) as (lay & EL).
  destruct (@out_ok F (cc_ansatz c) x fs _ _ HB (@no_bosons_ok _ x Eb Hc) HNE lay EL parts) as (v & Ev).
  { intros name key n b I EB. destruct (HP _ _ _ I) as (D & ED & W & S & _). exists (VArr D). split; [exact ED|]. cbn [g_block] in EB.
    destruct (mapM _ (dedup key)) as [sizes|]; [|discriminate]. cbn [bind] in EB. destruct (get_compressed_size key sizes) as [m|]; [|discriminate]. cbn [bind] in EB.
    destruct (key_shape (cc_space c) key) as [s|] eqn:Es; [|discriminate]. cbn [bind] in EB. apply Ok_inj in EB. apply pair_equal_spec in EB. destruct EB as [_ <-].
    cbn [shape_fits shape_of]. rewrite S. symmetry. exact (@rg_sized F c fs sz eps HK name key n s I Es). }
  exists v, parts. unfold g_diag, g_eom_to_vector, g_eom_layout. rewrite E, Ef. cbn [bind]. rewrite (@no_bosonic_ok _ x Eb), EL. cbn [bind]. split; [exact Ev|]. split; [exact Ev|exact HP].
Qed.

(** * Unrestricted. *)
Lemma fold_dset {V} (f : pystr -> result V) : forall l d, (forall s, In s l -> exists v, f s = Ok v) ->
  exists d', foldM (fun d s => (v <- f s ;; Ok (dset pystr_eq_dec s v d))%py) l d = Ok d' /\
    forall s v, In s l -> f s = Ok v -> dget pystr_eq_dec s d' = Some v.
Proof.
  assert (X : forall l d, (forall s, In s l -> exists v, f s = Ok v) ->
    exists d', foldM (fun d s => (v <- f s ;; Ok (dset pystr_eq_dec s v d))%py) l d = Ok d' /\ forall s v, f s = Ok v -> In s l \/ dget pystr_eq_dec s d = Some v -> dget pystr_eq_dec s d' = Some v).
  { induction l as [|s l IH]; intros d H; cbn [foldM].
    - exists d. split; [reflexivity|]. intros s v _ [[]|E]; exact E.
    - destruct (H s (or_introl eq_refl)) as (v & E). rewrite E. cbn [bind]. destruct (IH (dset pystr_eq_dec s v d)) as (d' & E' & G); [intros; apply H; right; assumption|].
      exists d'. split; [exact E'|]. intros s' v' Ev' Hs. apply (G s' v' Ev'). destruct (pystr_eq_dec s' s) as [->|N].
      + right. rewrite dget_dset. destruct (pystr_eq_dec s s); congruence.
      + destruct Hs as [[Hs|Hs]|Hs]; [congruence|left; exact Hs|]. right. rewrite dget_dset. destruct (pystr_eq_dec s' s); congruence. }
  intros l d H. destruct (X l d H) as (d' & E & G). exists d'. split; [exact E|]. intros s v I Ev. apply (G s v Ev). left. exact I.
Qed.

Theorem u_diag_ok (F : fld) (c : ucc F) x fs sz eps : excitations (u_ansatz c) false x fs -> adapted x fs -> u_known_energies c fs sz eps ->
  exists v parts, u_diag c x = Ok v /\ u_eom_to_vector F (u_ansatz c) (u_alpha c) (u_beta c) x parts = Ok v /\
    forall name key n spin, In (name, key, n) fs -> In spin (u_spins x n) -> exists d D, dget pystr_eq_dec name parts = Some (VSpin d) /\ dget pystr_eq_dec spin d = Some D /\
      holds_signed (u_minus x) (spin_shape_of sz key spin) (u_denominator sz eps key spin) D.
Proof.
  intros HX HA HK. pose proof HX as (Ef & HNE & ND & Eb & Hc). destruct (u_sizes_ok (u_alpha c) (u_beta c)) as (sizes & ES & _).
  set (combs := fun n => generate_spin_combinations n (charged x) (negb (charged x))).
  assert (HC : forall n spin, 1 <= n -> In spin (combs n) -> length spin = (if charged x then 2 * n - 1 else 2 * n) /\ forall s, In s spin -> In s (str "ab")).
  { intros n spin Hn Hs. unfold combs in Hs. destruct (charged x) eqn:EC; cbn [negb] in Hs.
    - apply C04_spin_full in Hs. destruct Hs as (t & [L T] & ->). assert (N : t ++ t <> []) by (destruct t; [cbn in L; lia|discriminate]).
      pose proof (app_removelast_last 0 N) as R. split.
      + apply (f_equal (@length nat)) in R. rewrite !app_length in R. cbn [length] in R. lia.
      + intros s Hc'. assert (Hx : In s (t ++ t)) by (rewrite R; apply in_or_app; left; exact Hc'). apply in_app_or in Hx. assert (Y : s = ch_a \/ s = ch_b) by (destruct Hx; apply T; assumption). destruct Y as [->| ->]; [left; reflexivity|right; left; reflexivity].
    - destruct (spins_ok _ _ Hs) as [L T]. split; [exact L|]. intros s Hs'. destruct (T s Hs') as [->| ->]; [left; reflexivity|right; left; reflexivity]. }
  assert (HU : forall n spin, 1 <= n -> In spin (u_spins x n) -> In spin (combs n)).
  { intros n spin Hn Hs. unfold combs, u_spins in *. destruct (charged x); [|exact Hs]. exact (proj1 (C04_spin_unique_excited n Hn) spin Hs). }
  assert (HD : forall name key n spin, In (name, key, n) fs -> In spin (combs n) -> length spin = length key /\ exists D, u_energy_sum c key spin [] = Ok D /\ wf D /\ shp D = spin_shape_of sz key spin /\
      forall idx, inb (spin_shape_of sz key spin) idx -> aget r0 D idx = u_denominator sz eps key spin idx).
  { intros name key n spin I Hs. destruct (@key_facts _ _ _ _ _ _ _ Ef I) as (HO & H8 & H1 & HL). destruct (HC n spin H1 Hs) as [L T].
    assert (Hlen : length spin = length key) by (rewrite L; symmetry; apply HL, (HA _ _ _ I)). split; [exact Hlen|].
    apply (@u_denominator_ok F c sz eps key spin); [exact (@key_nonempty _ _ _ _ _ _ _ Ef I)|lia|exact Hlen|].
    intros k s Hks. pose proof (in_combine_l _ _ _ _ Hks) as Hk. pose proof (in_combine_r _ _ _ _ Hks) as Hs'. split; [apply orb_known, HO, Hk|apply (HK _ _ _ _ _ I Hk (T _ Hs'))]. }
  assert (HPt : forall name key n, In (name, key, n) fs -> exists d, u_part c x (name, key, n) = Ok (VSpin d) /\
     forall spin, In spin (combs n) -> exists D, dget pystr_eq_dec spin d = Some D /\ holds_signed (u_minus x) (spin_shape_of sz key spin) (u_denominator sz eps key spin) D).
  { intros name key n I. cbn [u_part]. fold (combs n).
    destruct (@fold_dset (arr F) (fun s => (D <- u_energy_sum c key s [] ;; Ok (negated F (u_minus x) D))%py) (combs n) []) as (d & E & G).
    { intros s Hs. destruct (HD _ _ _ _ I Hs) as (_ & D & E & _). rewrite E. eexists; reflexivity. }
    assert (E' : foldM (fun d comb => (D <- u_energy_sum c key comb [] ;; Ok (dset pystr_eq_dec comb (negated F (u_minus x) D) d))%py) (combs n) [] = Ok d).
    { rewrite <- E. apply foldM_ext. intros d0 s _. destruct (u_energy_sum c key s []); reflexivity. }
    rewrite E'. exists d. split; [reflexivity|]. intros spin Hs. destruct (HD _ _ _ _ I Hs) as (_ & D & ED & W & S & V).
    exists (negated F (u_minus x) D). split; [apply G; [exact Hs|rewrite ED; reflexivity]|apply negated_holds; assumption]. }
  destruct (@set_all_ok F entry fname (u_part c x) fs []) as (parts & E & _ & _ & _ & G).
  { exact ND. } { intros [[name key] n] I. destruct (HPt _ _ _ I) as (d & E & _). eexists; exact E. } { constructor. }
  assert (HP : forall name key n, In (name, key, n) fs -> exists d, dget pystr_eq_dec name parts = Some (VSpin d) /\
     forall spin, In spin (combs n) -> exists D, dget pystr_eq_dec spin d = Some D /\ holds_signed (u_minus x) (spin_shape_of sz key spin) (u_denominator sz eps key spin) D).
  { intros name key n I. destruct (HPt _ _ _ I) as (d & Ed & Hd). exists d. split; [exact (G (name, key, n) (VSpin d) I Ed)|exact Hd]. }
  assert (HB : forall name key n, In (name, key, n) fs -> exists b, u_block x (u_alpha c) (u_beta c) sizes (name, key, n) = Ok (name, b) /\ block_ok b /\ block_nodup b /\ match b with BArr _ => True | BSpin cs => cs <> [] end /\ forall t : tval F, block_fits F b t <-> u_amplitude x (u_alpha c) (u_beta c) key n t).
  { intros name key n I. destruct (@u_block_ok _ (u_alpha c) (u_beta c) x fs sizes Ef HA ES name key n I F) as (cs & E' & _ & H1 & H2 & H3 & H4). exists (BSpin cs). cbn [u_block]. rewrite E'. split; [reflexivity|]. repeat (split; [assumption|]). exact H4. }
  destruct (@blocks_layout F _ _ fs HB) as (lay & EL).
  destruct (@out_ok F (u_ansatz c) x fs _ _ HB (@no_bosons_ok _ x Eb Hc) HNE lay EL parts) as (v & Ev).
  { intros name key n b I EB. destruct (HP _ _ _ I) as (d & Ed & Hd). exists (VSpin d). split; [exact Ed|]. cbn [u_block] in EB.
    destruct (mapM (u_packed (u_alpha c) (u_beta c) sizes key) (u_spins x n)) as [cs|] eqn:EC; [|discriminate]. cbn [bind] in EB. apply Ok_inj in EB. apply pair_equal_spec in EB. destruct EB as [_ <-].
    intros spin cd Hcd. apply mapM_F2 in EC. destruct (F2_in_r _ EC Hcd) as (spin' & Hs & Ep). destruct (@u_one _ (u_alpha c) (u_beta c) x fs sizes Ef HA ES name key n I spin' Hs) as (sub & m & s & Ep' & _ & Hz & _).
    rewrite Ep in Ep'. apply Ok_pair in Ep'. destruct Ep' as [-> ->]. cbn [shape_of].
    destruct (@key_facts _ _ _ _ _ _ _ Ef I) as (HO & H8 & H1 & HL). destruct (Hd spin' (HU n spin' H1 Hs)) as (D & ED & W & S & _). exists D. split; [exact ED|]. rewrite S.
    destruct (HC n spin' H1 (HU n spin' H1 Hs)) as [_ T].
    assert (HKs : forall k s0, In k key -> In s0 spin' -> sp_size (if s0 =? chr_of "a" then u_alpha c else u_beta c) k = Ok (sz k s0)) by (intros k s0 Hk Hs0; apply (HK _ _ _ _ _ I Hk (T _ Hs0))).
    unfold spin_sized_by in Hz. unfold spin_shape_of. clear -Hz HKs. revert s Hz HKs. revert key. induction spin' as [|c0 spin IH]; intros key s Hz HKs.
    - inversion Hz; subst. destruct key; reflexivity.
    - destruct key as [|k key]; [inversion Hz; reflexivity|]. cbn [combine map] in *. inversion Hz as [|? ? ? ? E1 E2]; subst. cbn [fst snd] in *. f_equal.
      + rewrite (HKs k c0 (or_introl eq_refl) (or_introl eq_refl)) in E1. apply Ok_inj in E1. exact E1.
      + apply IH; [exact E2|]. intros k' s0 Hk Hs0. apply HKs; right; assumption. }
  exists v, parts. unfold u_diag, u_parts, u_eom_to_vector, u_eom_layout. rewrite Ef. cbn [bind]. rewrite E. cbn [bind]. rewrite (@no_bosonic_ok _ x Eb), ES. cbn [bind]. rewrite EL. cbn [bind].
  split; [exact Ev|]. split; [exact Ev|]. intros name key n spin I Hs. destruct (HP _ _ _ I) as (d & Ed & Hd). destruct (@key_facts _ _ _ _ _ _ _ Ef I) as (_ & _ & H1 & _).
  destruct (Hd spin (HU n spin H1 Hs)) as (D & ED & HH). exists d, D. repeat (split; [assumption|]). exact HH.
Qed.

(** * The representations compared. *)
Lemma closed_shell_denominator (F : fld) sz (eps : nat -> nat -> F) key : forall spins idx, length spins = length key ->
  u_denominator (fun k _ => sz k) (fun k _ => eps k) key spins idx = denominator sz eps key idx.
Proof.
  unfold u_denominator, denominator. intros spins idx L. f_equal. revert key L. induction spins as [|s spins IH]; intros [|k key] L; try discriminate; [reflexivity|]. cbn [combine map fst snd]. f_equal. apply IH. injection L as L. exact L.
Qed.
Lemma spin_orbital_denominator (F : fld) sz sz' (eps eps' : nat -> nat -> F) (p : nat -> nat -> nat) : (forall k j, j < sz' k -> p k j < sz k /\ eps' k j = eps k (p k j)) ->
  forall key idx, inb (map sz' key) idx -> denominator sz' eps' key idx = denominator sz eps key (map (fun kj => p (fst kj) (snd kj)) (combine key idx)).
Proof.
  intros H. unfold denominator, signed_energies. induction key as [|k key IH]; intros idx L; inversion L; subst; [reflexivity|]. cbn [combine map fst snd]. rewrite !rsum_cons, <- IH by assumption.
  rewrite (proj2 (H k _ ltac:(eassumption))). reflexivity.
Qed.
Theorem closed_shell_agree (F : fld) (c : cc F) (u : ucc F) x fr fu sz eps : r_minus x = u_minus x ->
  excitations (cc_ansatz c) true x fr -> excitations (u_ansatz u) false x fu -> adapted x fu ->
  known_energies c fr sz eps -> u_known_energies u fu (fun k _ => sz k) (fun k _ => eps k) ->
  exists vr pr vu pu, r_diag c x = Ok vr /\ r_eom_to_vector F (cc_ansatz c) (cc_space c) x pr = Ok vr /\
    u_diag u x = Ok vu /\ u_eom_to_vector F (u_ansatz u) (u_alpha u) (u_beta u) x pu = Ok vu /\
    forall name key n spin, In (name, key, n) fr -> In (name, key, n) fu -> In spin (u_spins x n) ->
      exists D d E, dget pystr_eq_dec name pr = Some (VArr D) /\ dget pystr_eq_dec name pu = Some (VSpin d) /\ dget pystr_eq_dec spin d = Some E /\
        shp E = shp D /\ forall idx, inb (shp D) idx -> aget r0 E idx = aget r0 D idx.
Proof.
  intros HM HR HU HA HK HKu. destruct (r_diag_ok HR HK) as (vr & pr & E1 & E2 & G1). destruct (u_diag_ok HU HA HKu) as (vu & pu & E3 & E4 & G2).
  exists vr, pr, vu, pu. repeat (split; [assumption|]). intros name key n spin I1 I2 Hs. destruct (G1 _ _ _ I1) as (D & ED & _ & SD & VD). destruct (G2 _ _ _ _ I2 Hs) as (d & E & Ed & EE & _ & SE & VE).
  assert (L : length spin = length key).
  { pose proof HU as (Ef & _). destruct (@key_facts _ _ _ _ _ _ _ Ef I2) as (_ & _ & H1 & HL). rewrite (HL (HA _ _ _ I2)).
    clear -Hs H1. unfold u_spins in Hs. destruct (charged x) eqn:EC.
    - apply (proj1 (C04_spin_unique_excited n H1)) in Hs. apply C04_spin_full in Hs. destruct Hs as (t & [L T] & ->). assert (N : t ++ t <> []) by (destruct t; [cbn in L; lia|discriminate]).
      pose proof (app_removelast_last 0 N) as R. apply (f_equal (@length nat)) in R. rewrite !app_length in R. cbn [length] in R. lia.
    - destruct (spins_ok _ _ Hs) as [L T]. exact L. }
  assert (SS : spin_shape_of (fun k _ => sz k) key spin = map sz key).
  { unfold spin_shape_of. clear -L. revert key L. induction spin as [|s l IH]; intros [|k key] L; try discriminate; [reflexivity|]. cbn [combine map fst snd]. f_equal. apply IH. injection L as L. exact L. }
  exists D, d, E. rewrite SS in *. repeat (split; [first [assumption|congruence]|]). intros idx Hi. rewrite SD in Hi. rewrite (VD idx Hi), (VE idx Hi), closed_shell_denominator, HM by exact L. reflexivity.
Qed.
Theorem spin_orbitals_agree (F : fld) (c g : cc F) x fr fg sz sz' eps eps' (p : nat -> nat -> nat) : r_minus x = g_minus x ->
  excitations (cc_ansatz c) true x fr -> excitations (cc_ansatz g) false x fg -> known_energies c fr sz eps -> known_energies g fg sz' eps' ->
  (forall k j, j < sz' k -> p k j < sz k /\ eps' k j = eps k (p k j)) ->
  exists vr pr vg pg, r_diag c x = Ok vr /\ r_eom_to_vector F (cc_ansatz c) (cc_space c) x pr = Ok vr /\
    g_diag g x = Ok vg /\ g_eom_to_vector F (cc_ansatz g) (cc_space g) x pg = Ok vg /\
    forall name key n, In (name, key, n) fr -> In (name, key, n) fg ->
      exists D E, dget pystr_eq_dec name pr = Some (VArr D) /\ dget pystr_eq_dec name pg = Some (VArr E) /\
        forall idx, inb (shp E) idx -> let spatial := map (fun kj => p (fst kj) (snd kj)) (combine key idx) in inb (shp D) spatial /\ aget r0 E idx = aget r0 D spatial.
Proof.
  intros HM HR HG HK HKg HE. destruct (r_diag_ok HR HK) as (vr & pr & E1 & E2 & G1). destruct (g_diag_ok HG HKg) as (vg & pg & E3 & E4 & G2).
  exists vr, pr, vg, pg. repeat (split; [assumption|]). intros name key n I1 I2. destruct (G1 _ _ _ I1) as (D & ED & _ & SD & VD). destruct (G2 _ _ _ I2) as (E & EE & _ & SE & VE).
  exists D, E. repeat (split; [assumption|]). intros idx Hi. rewrite SE in Hi. cbv zeta.
  assert (IB : inb (map sz key) (map (fun kj => p (fst kj) (snd kj)) (combine key idx))).
  { clear -Hi HE. revert idx Hi. induction key as [|k key IH]; intros idx Hi; inversion Hi; subst; cbn [combine map fst snd]; constructor; [apply HE; assumption|apply IH; assumption]. }
  split; [rewrite SD; exact IB|]. rewrite (VE idx Hi), (VD _ IB), (@spin_orbital_denominator F sz sz' eps eps' p HE key idx Hi), HM. reflexivity.
Qed.
