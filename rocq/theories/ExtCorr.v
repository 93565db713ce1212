(** Theorems about the external corrections. *)
From Coq Require Import Sorted String Permutation Field.
From Verif Require Import Base ListAux Alg ArrModel ArrProofs PermModel PackProofs TensorModel TensorSpec EinsumModel SpaceModel SpaceProofs AnsatzModel AnsatzSpec
  AnsatzProofs AnsatzRanks DampProofs KernelProofs VecModel VecSpec VecProofs VecThms CcModel CcSpec CcProofs CcThms CcUThms ExtModel ExtSpec ExtProofs ExtThms.
Set Implicit Arguments.
Local Open Scope string_scope.
Local Open Scope list_scope.
Local Open Scope nat_scope.

Lemma dset_dset {V} k (v w : V) d : dset pystr_eq_dec k w (dset pystr_eq_dec k v d) = dset pystr_eq_dec k w d.
Proof.
  induction d as [|[k1 v1] d IH]; cbn [dset]; [destruct (pystr_eq_dec k k); congruence|].
  destruct (pystr_eq_dec k k1) as [->|N]; cbn [dset].
  - destruct (pystr_eq_dec k1 k1); congruence.
  - destruct (pystr_eq_dec k k1); [contradiction|]. rewrite IH. reflexivity.
Qed.

Section Corr.
  Variable F : fld.
  Local Open Scope rng_scope.
  Add Field Ffield13 : (fth F).
  Local Notation amps := (dict pystr (tval F)).

  (** * Adding corrections. *)
  Lemma add_blocks_ok (mk : pystr -> result (list mask)) (pos : pystr -> list (list nat)) : forall (blocks : dict pystr (arr F)) (x : arr F), wf x ->
    (forall key v, In (key, v) blocks -> exists ms, mk key = Ok ms /\ map nonzero ms = pos key /\ mesh_ok (shp x) (pos key) /\ wf v /\ shp v = map (@length nat) (pos key)) ->
    exists y, foldM (fun x kv => add_block (mk (fst kv)) x (snd kv)) blocks x = Ok y /\ wf y /\ shp y = shp x /\
      forall idx, inb (shp x) idx -> aget 0 y idx = aget 0 x idx + contributions pos blocks idx.
  Proof.
    induction blocks as [|[key v] blocks IH]; intros x Wx H.
    - exists x. split; [reflexivity|]. split; [exact Wx|]. split; [reflexivity|]. intros idx _. unfold contributions. cbn [map]. change (rsum (@nil F)) with (0 : F). ring.
    - destruct (H key v (or_introl eq_refl)) as (ms & Em & Np & M & Wv & Sv).
      destruct (@add_block_ok F ms x v Wx Wv) as (x1 & E1 & W1 & S1 & G1); [rewrite Np; exact M|rewrite Np; exact Sv|].
      destruct (IH x1 W1) as (y & Ey & Wy & Sy & Gy); [intros k w Hi; rewrite S1; apply H; right; exact Hi|].
      exists y. split; [|split; [exact Wy|split; [congruence|]]].
      + cbn [foldM fst snd]. rewrite Em, E1. cbn [bind]. exact Ey.
      + intros idx Hi. rewrite Gy by (rewrite S1; exact Hi). rewrite G1 by exact Hi. unfold contributions. cbn [map fst snd]. rewrite rsum_cons, Np. ring.
  Qed.

  Definition block_fits (l : list axis) (x v : arr F) : Prop :=
    Forall axis_ok l /\ wf v /\ shp v = map (fun sc => length (orbitals (fst sc) (snd sc))) l /\
    shp x = map (fun sc => length (orbitals (fst sc) (sector_letter (fst sc) (snd sc)))) l.
  Lemma block_fits_ok l x v : block_fits l x v -> exists ms, mapM (fun sc => sector_mask (fst sc) (snd sc)) l = Ok ms /\
    map nonzero ms = map (fun sc => positions (fst sc) (snd sc)) l /\ mesh_ok (shp x) (map (fun sc => positions (fst sc) (snd sc)) l) /\ wf v /\
    shp v = map (@length nat) (map (fun sc => positions (fst sc) (snd sc)) l).
  Proof.
    intros (HA & Wv & Sv & Sx). destruct (axes_masks HA) as (ms & E & M). exists ms. split; [exact E|]. split; [exact M|]. split; [rewrite Sx; apply axes_mesh, HA|].
    split; [exact Wv|]. rewrite Sv, map_map. apply map_ext. intros. symmetry. apply positions_length.
  Qed.

  Theorem rg_add_ok s (out : amps) (e : exts F) : valid_space s -> NoDup (map fst e) ->
    (forall name blocks w, In (name, blocks) e -> dget pystr_eq_dec name out = Some w -> exists x, w = VArr x /\ wf x /\
       forall key v, In (key, v) blocks -> incl key class_letters /\ (forall k, In k key -> frozen_beyond s k) /\ shaped s key v /\ shp x = map (fun k => length (orbitals s (sector_letter s k))) key) ->
    exists out', rg_add s out e = Ok out' /\ map fst out' = map fst out /\
      (forall name, ~ In name (map fst e) -> dget pystr_eq_dec name out' = dget pystr_eq_dec name out) /\
      (forall name blocks x, In (name, blocks) e -> dget pystr_eq_dec name out = Some (VArr x) ->
         exists y, dget pystr_eq_dec name out' = Some (VArr y) /\ wf y /\ shp y = shp x /\
           forall idx, inb (shp x) idx -> aget 0 y idx = aget 0 x idx + contributions (map (positions s)) blocks idx).
  Proof.
    intros V ND H. unfold rg_add.
    set (rel := fun (blocks : dict pystr (arr F)) (x y : arr F) => wf y /\ shp y = shp x /\ forall idx, inb (shp x) idx -> aget 0 y idx = aget 0 x idx + contributions (map (positions s)) blocks idx).
    destruct (@fold_opt (pystr * dict pystr (arr F)) (tval F) fst (fun d ne => let '(name, blocks) := ne in
             optionally name d d (fun u => bind (as_arr u) (fun x =>
               bind (foldM (fun x kv => add_block (mapM (sector_mask s) (fst kv)) x (snd kv)) blocks x) (fun y => Ok (dset pystr_eq_dec name (VArr y) d)))))
      (fun ne o => match dget pystr_eq_dec (fst ne) out with
                  | None => o = None
                  | Some w => exists x y, w = VArr x /\ rel (snd ne) x y /\ o = Some (VArr y)
                  end) e out ND) as (out' & E & K & O1 & O2).
    { intros [name blocks] Hin. cbn [fst snd]. destruct (dget pystr_eq_dec name out) as [w|] eqn:Ew.
      - destruct (H _ _ _ Hin Ew) as (x & -> & Wx & HB).
        destruct (@add_blocks_ok (fun key => mapM (sector_mask s) key) (map (positions s)) blocks x Wx) as (y & Ey & Wy & Sy & Gy).
        { intros key v Hi. destruct (HB key v Hi) as (I & FB & [Wv Sv] & Sx).
          destruct (@block_fits_ok (map (fun k => (s, k)) key) x v) as (ms & Em & Nm & M & _ & Sv').
          - split; [|split; [exact Wv|rewrite !map_map; split; assumption]]. apply Forall_map, Forall_forall. intros k Hk. split; [exact V|]. split; [apply I, Hk|apply FB, Hk].
          - rewrite mapM_map in Em. rewrite !map_map in *. cbn [fst snd] in *. exists ms. auto. }
        exists (Some (VArr y)). split; [exists x, y; repeat split; auto|]. split; [congruence|]. intros d' Ed'. unfold optionally. rewrite Ed'. cbn [as_arr bind]. exact (f_equal (fun r => bind r (fun y => Ok (dset pystr_eq_dec name (VArr y) d'))) Ey).
      - exists None. split; [reflexivity|]. split; [congruence|]. intros d' Ed'. unfold optionally. rewrite Ed'. reflexivity. }
    exists out'. split; [exact E|]. split; [exact K|]. split; [exact O1|]. intros name blocks x Hin Ex. destruct (O2 _ Hin) as (o & P & Eo). cbn [fst snd] in *. rewrite Ex in P.
    destruct P as (x' & y & [= <-] & R & ->). exists y. split; [exact Eo|exact R].
  Qed.

  Lemma u_blocks (mk : pystr -> result (list mask)) comb : forall (blocks : dict pystr (arr F)) x xs y, dget pystr_eq_dec comb xs = Some x ->
    foldM (fun x kv => add_block (mk (fst kv)) x (snd kv)) blocks x = Ok y ->
    foldM (fun xs kv => bind (lookup comb xs) (fun x => bind (add_block (mk (fst kv)) x (snd kv)) (fun y => Ok (dset pystr_eq_dec comb y xs)))) blocks xs =
    Ok (match blocks with [] => xs | _ => dset pystr_eq_dec comb y xs end).
  Proof.
    induction blocks as [|[key v] blocks IH]; intros x xs y Ex E; [reflexivity|]. cbn [foldM fst snd] in *.
    assert (EL : lookup comb xs = Ok x) by (unfold lookup; rewrite Ex; reflexivity). rewrite EL. cbn [bind].
    destruct (add_block (mk key) x v) as [y1|] eqn:E1; [|discriminate]. cbn [bind] in *.
    rewrite (IH y1 (dset pystr_eq_dec comb y1 xs) y) by (try exact E; rewrite dget_dset; destruct (pystr_eq_dec comb comb); congruence).
    destruct blocks; [cbn in E; congruence|]. rewrite dset_dset. reflexivity.
  Qed.

  Theorem u_add_ok sa sb (out : amps) (e : uexts F) : valid_space sa -> valid_space sb -> NoDup (map fst e) ->
    (forall name combs w, In (name, combs) e -> dget pystr_eq_dec name out = Some w -> NoDup (map fst combs) /\ exists xs, w = VSpin xs /\
       forall comb blocks, In (comb, blocks) combs -> incl comb (str "ab") /\ exists x, dget pystr_eq_dec comb xs = Some x /\ wf x /\
       forall key v, In (key, v) blocks -> incl key class_letters /\ (forall sk, In sk (combine comb key) -> frozen_beyond (spin_space_of sa sb (fst sk)) (snd sk)) /\
         u_shaped sa sb comb key v /\ shp x = map (fun sk => length (orbitals (spin_space_of sa sb (fst sk)) (sector_letter (spin_space_of sa sb (fst sk)) (snd sk)))) (combine comb key)) ->
    exists out', u_add sa sb out e = Ok out' /\ map fst out' = map fst out /\
      (forall name, ~ In name (map fst e) -> dget pystr_eq_dec name out' = dget pystr_eq_dec name out) /\
      (forall name combs xs, In (name, combs) e -> dget pystr_eq_dec name out = Some (VSpin xs) ->
         exists ys, dget pystr_eq_dec name out' = Some (VSpin ys) /\ map fst ys = map fst xs /\
           (forall comb, ~ In comb (map fst combs) -> dget pystr_eq_dec comb ys = dget pystr_eq_dec comb xs) /\
           forall comb blocks x, In (comb, blocks) combs -> dget pystr_eq_dec comb xs = Some x ->
             exists y, dget pystr_eq_dec comb ys = Some y /\ wf y /\ shp y = shp x /\
               forall idx, inb (shp x) idx -> aget 0 y idx = aget 0 x idx + contributions (u_positions sa sb comb) blocks idx).
  Proof.
    intros Va Vb ND H. unfold u_add.
    assert (VS : forall c, valid_space (spin_space_of sa sb c)) by (intros c; unfold spin_space_of; destruct (c =? _)%nat; assumption).
    set (istep := fun (xs : dict pystr (arr F)) (cb : pystr * dict pystr (arr F)) => let '(comb, blocks) := cb in
                       foldM (fun xs kv => bind (lookup comb xs) (fun x => 
                                bind (add_block (u_masks sa sb comb (fst kv)) x (snd kv)) (fun y => Ok (dset pystr_eq_dec comb y xs)))) blocks xs).
    set (rel := fun (combs : dict pystr (dict pystr (arr F))) (xs ys : dict pystr (arr F)) => map fst ys = map fst xs /\
           (forall comb, ~ In comb (map fst combs) -> dget pystr_eq_dec comb ys = dget pystr_eq_dec comb xs) /\
           forall comb blocks x, In (comb, blocks) combs -> dget pystr_eq_dec comb xs = Some x ->
             exists y, dget pystr_eq_dec comb ys = Some y /\ wf y /\ shp y = shp x /\
               forall idx, inb (shp x) idx -> aget 0 y idx = aget 0 x idx + contributions (u_positions sa sb comb) blocks idx).
    destruct (@fold_opt (pystr * dict pystr (dict pystr (arr F))) (tval F) fst (fun d ne => let '(name, combs) := ne in
             optionally name d d (fun u => bind (as_spin u) (fun xs => bind (foldM istep combs xs) (fun ys => Ok (dset pystr_eq_dec name (VSpin ys) d)))))
      (fun ne o => match dget pystr_eq_dec (fst ne) out with
                  | None => o = None
                  | Some w => exists xs ys, w = VSpin xs /\ rel (snd ne) xs ys /\ o = Some (VSpin ys)
                  end) e out ND) as (out' & E & K & O1 & O2).
    { intros [name combs] Hin. cbn [fst snd]. destruct (dget pystr_eq_dec name out) as [w|] eqn:Ew.
      - destruct (H _ _ _ Hin Ew) as (NC & xs & -> & HC).
        destruct (@fold_opt (pystr * dict pystr (arr F)) (arr F) fst istep
          (fun cb o => exists x, dget pystr_eq_dec (fst cb) xs = Some x /\ exists y, wf y /\ shp y = shp x /\
               (forall idx, inb (shp x) idx -> aget 0 y idx = aget 0 x idx + contributions (u_positions sa sb (fst cb)) (snd cb) idx) /\
               match o with None => y = x | Some y' => y = y' end) combs xs NC) as (ys & Ey & Ky & Oy & Gy).
        { intros [comb blocks] Hi. cbn [fst snd]. destruct (HC _ _ Hi) as (IC & x & Ex & Wx & HB).
          destruct (@add_blocks_ok (u_masks sa sb comb) (u_positions sa sb comb) blocks x Wx) as (y & Ey & Wy & Sy & Gy).
          { intros key v Hb. destruct (HB key v Hb) as (I & FB & [Wv Sv] & Sx).
            destruct (@block_fits_ok (map (fun sk => (spin_space_of sa sb (fst sk), snd sk)) (combine comb key)) x v) as (ms & Em & Nm & M & _ & Sv').
            - split; [|split; [exact Wv|rewrite !map_map; split; assumption]]. apply Forall_map, Forall_forall. intros [c k] Hk. split; [apply VS|]. split; [apply I; exact (in_combine_r _ _ _ _ Hk)|exact (FB _ Hk)].
            - rewrite mapM_map in Em. rewrite !map_map in *. cbn [fst snd] in *. exists ms. split; [|split; [exact Nm|split; [exact M|split; [exact Wv|unfold u_positions; rewrite map_map; exact Sv']]]].
              unfold u_masks. rewrite <- Em. apply mapM_fun. intros [c k] Hk. cbn [fst snd]. rewrite spin_space_ok by (apply IC; exact (in_combine_l _ _ _ _ Hk)). reflexivity. }
          exists (match blocks with [] => None | _ => Some y end). split.
          { exists x. split; [exact Ex|]. exists y. split; [exact Wy|]. split; [exact Sy|]. split; [exact Gy|]. destruct blocks; [|reflexivity]. change (Ok x = Ok y) in Ey. congruence. }
          split; [destruct blocks; congruence|]. intros d' Ed'. unfold istep. rewrite (@u_blocks (u_masks sa sb comb) comb blocks x d' y) by (try exact Ey; congruence). destruct blocks; reflexivity. }
        exists (Some (VSpin ys)). split.
        + exists xs, ys. split; [reflexivity|]. split; [|reflexivity]. split; [exact Ky|]. split; [exact Oy|]. intros comb blocks x Hi Ex.
          destruct (Gy _ Hi) as (o & (x' & Ex' & y & Wy & Sy & G & Ho) & Eo). cbn [fst snd] in *. rewrite Ex in Ex'. injection Ex' as <-. exists y. split; [|auto]. rewrite Eo. destruct o; subst; congruence.
        + split; [congruence|]. intros d' Ed'. unfold optionally. rewrite Ed'. cbn [as_spin bind]. rewrite Ey. reflexivity.
      - exists None. split; [reflexivity|]. split; [congruence|]. intros d' Ed'. unfold optionally. rewrite Ed'. reflexivity. }
    exists out'. split; [exact E|]. split; [exact K|]. split; [exact O1|]. intros name combs xs Hin Ex. destruct (O2 _ Hin) as (o & P & Eo). cbn [fst snd] in *. rewrite Ex in P.
    destruct P as (xs' & ys & [= <-] & R & ->). exists ys. split; [exact Eo|exact R].
  Qed.

  (** * The corrections. *)
  Lemma strip_residuals {A} a rspin fs (res : dict pystr A) : fermionic_cluster_ranks a rspin Wt = Ok fs -> residual_names fs res ->
    (forall e, In e fs -> dget pystr_eq_dec (fst (fst e)) (strip_new res) = dget pystr_eq_dec (fst (fst e) ++ str "new") res) /\
    (forall name, dget pystr_eq_dec name (strip_new res) <> None -> exists e, In e fs /\ name = fst (fst e)).
  Proof.
    intros Ef [ND HN]. pose proof (fermionic_entries _ _ _ Ef) as (_ & _ & EO). split.
    - intros e He. unfold strip_new. rewrite strip_fold; [destruct (dget _ _ res); reflexivity| |exact ND|apply (@entry_ends Wt), EO, He].
      intros kv Hkv. destruct (HN (fst kv) (in_map fst _ _ Hkv)) as (e' & He' & E). exists (fst (fst e')). split; [apply (@entry_ends Wt), EO, He'|exact E].
    - intros name Hn. apply dget_key in Hn. apply strip_keys in Hn. destruct Hn as (k & Hk & ->). destruct (HN k Hk) as (e & He & ->). exists e. split; [exact He|].
      apply rstrip_new, (@entry_ends Wt), EO, He.
  Qed.

  Theorem rg_corrections_ok (c : cc F) rspin sz eps fs (res : exts F) : fermionic_cluster_ranks (cc_ansatz c) rspin Wt = Ok fs -> NoDup (map (fun e => fst (fst e)) fs) ->
    residual_names fs res ->
    (forall nm blocks, In (nm, blocks) res -> NoDup (map fst blocks) /\ forall key v, In (key, v) blocks -> key <> [] /\ (length key <= 26)%nat /\ wf v /\ shp v = map sz key /\
       forall k, In k key -> In k (str "oOivVab") /\ class_energies (cc_omega c) (cc_fock c) k (sz k) (eps k)) ->
    exists out, rg_corrections c rspin res = Ok out /\
      (forall name, dget pystr_eq_dec name out <> None <-> exists e, In e fs /\ name = fst (fst e) /\ In (name ++ str "new") (map fst res)) /\
      forall e blocks, In e fs -> dget pystr_eq_dec (fst (fst e) ++ str "new") res = Some blocks ->
        exists bs, dget pystr_eq_dec (fst (fst e)) out = Some bs /\ map fst bs = map fst blocks /\
          forall key v, dget pystr_eq_dec key blocks = Some v ->
            exists x, dget pystr_eq_dec key bs = Some x /\ wf x /\ shp x = shp v /\
              forall idx, inb (shp v) idx -> aget 0 x idx = fdiv (aget 0 v idx) (denominator sz eps key idx).
  Proof.
    intros Ef ND RN HR. destruct (@strip_residuals _ _ _ _ res Ef RN) as [S1 S2]. unfold rg_corrections. rewrite Ef. cbn [bind].
    set (rel := fun (blocks bs : dict pystr (arr F)) => map fst bs = map fst blocks /\
          forall key v, dget pystr_eq_dec key blocks = Some v ->
            exists x, dget pystr_eq_dec key bs = Some x /\ wf x /\ shp x = shp v /\
              forall idx, inb (shp v) idx -> aget 0 x idx = fdiv (aget 0 v idx) (denominator sz eps key idx)).
    assert (B : forall nm blocks, In (nm, blocks) res -> exists bs,
      mapM (fun kv => bind (energy_sum c (fst kv) []) (fun den => bind (div_arr (snd kv) den) (fun y => Ok (fst kv, y)))) blocks = Ok bs /\ rel blocks bs).
    { intros nm blocks Hin. destruct (HR _ _ Hin) as [_ HB]. clear Hin. induction blocks as [|[key v] blocks IH]; [exists []; split; [reflexivity|]; split; [reflexivity|]; intros ? ? [=]|].
      destruct IH as (bs & Eb & Kb & Gb); [intros; apply HB; right; assumption|]. destruct (HB key v (or_introl eq_refl)) as (K1 & K2 & Wv & Sv & KE).
      destruct (@denominator_ok F c sz eps [] key K1 K2 KE) as (D & ED & WD & SD & GD). destruct (@zip_ok F fdiv v D Wv WD ltac:(congruence)) as (x & Ex & Wx & Sx & Gx).
      exists ((key, x) :: bs). split.
      - cbn [mapM fst snd]. rewrite ED. cbn [bind]. unfold div_arr at 1. rewrite Ex. cbn [bind]. rewrite Eb. reflexivity.
      - split; [cbn [map fst]; rewrite Kb; reflexivity|]. intros k w. cbn [dget]. destruct (pystr_eq_dec k key) as [->|]; [|apply Gb]. intros [= <-]. exists x. split; [reflexivity|].
        split; [exact Wx|]. split; [exact Sx|]. intros idx Hi. rewrite Gx by exact Hi. rewrite GD by (rewrite <- Sv; exact Hi). reflexivity. }
    destruct (@fold_opt entry (dict pystr (arr F)) (fun e => fst (fst e)) (fun d e => let '(name, _, _) := e in
             optionally name d d (fun blocks =>
               bind (mapM (fun kv => bind (energy_sum c (fst kv) []) (fun den => bind (div_arr (snd kv) den) (fun y => Ok (fst kv, y)))) blocks) (fun bs =>
               Ok (dset pystr_eq_dec name bs d))))
      (fun e o => match dget pystr_eq_dec (fst (fst e) ++ str "new") res with None => o = None | Some blocks => exists bs, o = Some bs /\ rel blocks bs end) fs (strip_new res) ND) as (out & E & K & O1 & O2).
    { intros [[name key] n] Hin. pose proof (S1 _ Hin) as S1n. cbn [fst snd] in *. rewrite S1n. destruct (dget pystr_eq_dec (name ++ str "new") res) as [blocks|] eqn:Er.
      - destruct (B _ _ (@dget_in _ _ pystr_eq_dec _ _ _ Er)) as (bs & Eb & R). exists (Some bs). split; [exists bs; auto|]. split; [congruence|].
        intros d' Ed'. unfold optionally. rewrite Ed', Eb. reflexivity.
      - exists None. split; [reflexivity|]. split; [congruence|]. intros d' Ed'. unfold optionally. rewrite Ed'. reflexivity. }
    exists out. split; [exact E|]. split.
    - intros name. rewrite (dget_key name out), K, <- dget_key. split.
      + intros Hn. destruct (S2 _ Hn) as (e & He & ->). exists e. split; [exact He|]. split; [reflexivity|]. rewrite (S1 _ He) in Hn. apply dget_key, Hn.
      + intros (e & He & -> & Hk). rewrite (S1 _ He). apply dget_key, Hk.
    - intros e blocks He Er. destruct (O2 _ He) as (o & P & Eo). rewrite Er in P. destruct P as (bs & -> & R). exists bs. split; [exact Eo|exact R].
  Qed.

  Lemma plus_zeros s (x : arr F) : wf x -> shp x = s -> plus_arr x (zeros s) = Ok x.
  Proof.
    intros W S. destruct (@zip_ok F radd x (zeros s) W (full_wf _ _) S) as (y & Ey & Wy & Sy & Gy). unfold plus_arr. rewrite Ey. f_equal.
    apply (@arr_ext F 0); auto. intros idx Hi. rewrite Sy in Hi. rewrite Gy by exact Hi. unfold zeros. rewrite (@aget_full F 0). ring.
  Qed.
  Lemma zeros_spin (key comb : pystr) s : spin_antisymmetric key comb (zeros s : arr F).
  Proof. intros idx i j _ _ _ _ _ _. unfold zeros. rewrite !(@aget_full F 0). ring. Qed.
  Lemma spin_corr_ok (c : ucc F) sz eps n (key comb : pystr) (v : arr F) : key <> [] -> (length key <= 26)%nat -> length key = (2 * n)%nat -> length comb = length key ->
    known c sz eps key comb -> wf v -> shp v = spin_shape_of sz key comb -> spin_antisymmetric key comb v ->
    exists x, bind (combine_subscripts [key; comb] []) (fun sc => bind (u_energy_sum c key comb []) (fun den => bind (div_arr v den) (fun y =>
                bind (symmetrise F (Some half_pow) (fst sc) y (Some (repeat TensorModel.ch_minus (2 * n)))) (fun z => Ok (key, z))))) = Ok (key, x) /\ wf x /\ shp x = shp v /\ spin_antisymmetric key comb x /\
      forall idx, inb (shp v) idx -> aget 0 x idx = antisymmetriser_scale key comb * fdiv (aget 0 v idx) (u_denominator sz eps key comb idx).
  Proof.
    intros K1 K2 K3 K4 KN Wv Sv Av.
    destruct (@spin_new_ok F c sz eps key comb n [(comb, zeros (shp v))] (zeros (shp v)) v K1 K2 K3 K4 KN) as (x & Ex & Wx & Sx & Ax & Gx); auto.
    - cbn [dget]. destruct (pystr_eq_dec comb comb); congruence.
    - apply full_wf.
    - apply zeros_spin.
    - exists x. split; [|split; [exact Wx|split; [congruence|split; [exact Ax|]]]].
      + unfold spin_new in Ex. destruct (@labels_exist key comb K4 K2) as (sub & sizes & E & _). rewrite E in *. cbn [bind fst] in *.
        destruct (@u_denominator_ok F c sz eps key comb K1 K2 K4 KN) as (D & ED & WD & SD & GD). rewrite ED in *. cbn [bind] in *.
        destruct (@zip_ok F fdiv v D Wv WD ltac:(congruence)) as (q & Eq & Wq & Sq & Gq). unfold div_arr in *. rewrite Eq in *. cbn [bind] in *.
        unfold lookup in Ex. cbn [dget] in Ex. destruct (pystr_eq_dec comb comb); [|congruence]. cbn [bind] in Ex. rewrite plus_zeros in Ex by assumption. exact (f_equal (fun r => bind r (fun z => Ok (key, z))) Ex).
      + intros idx Hi. rewrite Gx by (rewrite <- Sv; exact Hi). unfold zeros. rewrite (@aget_full F 0). ring.
  Qed.

  Theorem u_corrections_ok (c : ucc F) sz eps fs (res : uexts F) : fermionic_cluster_ranks (u_ansatz c) false Wt = Ok fs -> NoDup (map (fun e => fst (fst e)) fs) ->
    residual_names fs res ->
    (forall e combs, In e fs -> dget pystr_eq_dec (fst (fst e) ++ str "new") res = Some combs ->
       forall comb, In comb (generate_spin_combinations (snd e) false true) -> exists blocks, dget pystr_eq_dec comb combs = Some blocks /\
         forall key v, In (key, v) blocks -> (length key <= 26)%nat /\ length key = (2 * snd e)%nat /\ wf v /\ shp v = spin_shape_of sz key comb /\ spin_antisymmetric key comb v /\
           forall k s, In (k, s) (combine key comb) -> In k (str "oOivVab") /\ class_energies (u_omega c) (u_fock c [s; s]) k (sz k s) (eps k s)) ->
    exists out, u_corrections c res = Ok out /\
      (forall name, dget pystr_eq_dec name out <> None <-> exists e, In e fs /\ name = fst (fst e) /\ In (name ++ str "new") (map fst res)) /\
      forall e combs, In e fs -> dget pystr_eq_dec (fst (fst e) ++ str "new") res = Some combs ->
        exists cs, dget pystr_eq_dec (fst (fst e)) out = Some cs /\ map fst cs = map fst combs /\
          forall comb blocks, In comb (generate_spin_combinations (snd e) false true) -> dget pystr_eq_dec comb combs = Some blocks ->
          exists bs, dget pystr_eq_dec comb cs = Some bs /\ map fst bs = map fst blocks /\
          forall key v, dget pystr_eq_dec key blocks = Some v ->
            exists x, dget pystr_eq_dec key bs = Some x /\ wf x /\ shp x = shp v /\ spin_antisymmetric key comb x /\
              forall idx, inb (shp v) idx -> aget 0 x idx = antisymmetriser_scale key comb * fdiv (aget 0 v idx) (u_denominator sz eps key comb idx).
  Proof.
    intros Ef ND RN HR. destruct (@strip_residuals _ _ _ _ res Ef RN) as [S1 S2]. unfold u_corrections. rewrite Ef. cbn [bind].
    pose proof (fermionic_entries _ _ _ Ef) as (_ & _ & EO).
    set (block := fun (n : nat) (comb : pystr) (kv : pystr * arr F) => bind (combine_subscripts [fst kv; comb] []) (fun sc => bind (u_energy_sum c (fst kv) comb []) (fun den =>
              bind (div_arr (snd kv) den) (fun y => bind (symmetrise F (Some half_pow) (fst sc) y (Some (repeat TensorModel.ch_minus (2 * n)))) (fun z => Ok (fst kv, z)))))).
    set (istep := fun (n : nat) (combs : dict pystr (dict pystr (arr F))) (comb : pystr) => bind (lookup comb combs) (fun blocks =>
              bind (mapM (block n comb) blocks) (fun bs => Ok (dset pystr_eq_dec comb bs combs)))).
    set (brel := fun (comb : pystr) (blocks bs : dict pystr (arr F)) => map fst bs = map fst blocks /\
          forall key v, dget pystr_eq_dec key blocks = Some v ->
            exists x, dget pystr_eq_dec key bs = Some x /\ wf x /\ shp x = shp v /\ spin_antisymmetric key comb x /\
              forall idx, inb (shp v) idx -> aget 0 x idx = antisymmetriser_scale key comb * fdiv (aget 0 v idx) (u_denominator sz eps key comb idx)).
    set (rel := fun (n : nat) (combs cs : dict pystr (dict pystr (arr F))) => map fst cs = map fst combs /\
          forall comb blocks, In comb (generate_spin_combinations n false true) -> dget pystr_eq_dec comb combs = Some blocks ->
          exists bs, dget pystr_eq_dec comb cs = Some bs /\ brel comb blocks bs).
    assert (B : forall n comb blocks, (0 < n)%nat -> length comb = (2 * n)%nat -> (forall key v, In (key, v) blocks -> (length key <= 26)%nat /\ length key = (2 * n)%nat /\ wf v /\ shp v = spin_shape_of sz key comb /\ spin_antisymmetric key comb v /\
           forall k s, In (k, s) (combine key comb) -> In k (str "oOivVab") /\ class_energies (u_omega c) (u_fock c [s; s]) k (sz k s) (eps k s)) ->
        exists bs, mapM (block n comb) blocks = Ok bs /\ brel comb blocks bs).
    { intros n comb blocks Hn LC HB. induction blocks as [|[key v] blocks IH]; [exists []; split; [reflexivity|]; split; [reflexivity|]; intros ? ? [=]|].
      destruct IH as (bs & Eb & Kb & Gb); [intros; apply HB; right; assumption|]. destruct (HB key v (or_introl eq_refl)) as (K1 & K2 & Wv & Sv & Av & KE).
      destruct (@spin_corr_ok c sz eps n key comb v) as (x & Ex & Wx & Sx & Ax & Gx); auto; [intros ->; cbn in K2; lia|congruence|].
      exists ((key, x) :: bs). split.
      - cbn [mapM]. assert (E1 : block n comb (key, v) = Ok (key, x)).
        { exact Ex. }
        rewrite E1. cbn [bind]. rewrite Eb. reflexivity.
      - split; [cbn [map fst]; rewrite Kb; reflexivity|]. intros k w. cbn [dget]. destruct (pystr_eq_dec k key) as [->|]; [|apply Gb]. intros [= <-]. exists x. auto. }
    assert (CB : forall e combs, In e fs -> dget pystr_eq_dec (fst (fst e) ++ str "new") res = Some combs ->
      exists cs, foldM (istep (snd e)) (generate_spin_combinations (snd e) false true) combs = Ok cs /\ rel (snd e) combs cs).
    { intros e combs He Er. pose proof (HR _ _ He Er) as HC. destruct (@entry_len Wt e (or_introl eq_refl) (EO _ He)) as [L1 L2].
      destruct (@fold_opt pystr (dict pystr (arr F)) (fun s => s) (istep (snd e))
        (fun comb o => exists blocks bs, dget pystr_eq_dec comb combs = Some blocks /\ brel comb blocks bs /\ o = Some bs) (generate_spin_combinations (snd e) false true) combs) as (cs & Ec & Kc & _ & Gc).
      { rewrite map_id. apply spins_nodup. }
      { intros comb Hc. destruct (HC _ Hc) as (blocks & Eb & HB). destruct (B (snd e) comb blocks) as (bs & Ebs & R); [lia|apply spins_ok, Hc|exact HB|].
        exists (Some bs). split; [exists blocks, bs; auto|]. split; [congruence|]. intros d' Ed'. unfold istep, lookup. rewrite Ed', Eb. cbn [bind]. rewrite Ebs. reflexivity. }
      exists cs. split; [exact Ec|]. split; [exact Kc|]. intros comb blocks Hc Eb. destruct (Gc _ Hc) as (o & (blocks' & bs & Eb' & R & ->) & Eo). rewrite Eb in Eb'. injection Eb' as <-. exists bs. split; [exact Eo|exact R]. }
    destruct (@fold_opt entry (dict pystr (dict pystr (arr F))) (fun e => fst (fst e)) (fun d e => let '(name, _, n) := e in
             optionally name d d (fun combs => bind (foldM (istep n) (generate_spin_combinations n false true) combs) (fun cs => Ok (dset pystr_eq_dec name cs d))))
      (fun e o => match dget pystr_eq_dec (fst (fst e) ++ str "new") res with None => o = None | Some combs => exists cs, o = Some cs /\ rel (snd e) combs cs end) fs (strip_new res) ND) as (out & E & K & O1 & O2).
    { intros [[name key] n] Hin. pose proof (S1 _ Hin) as S1n. cbn [fst snd] in *. rewrite S1n. destruct (dget pystr_eq_dec (name ++ str "new") res) as [combs|] eqn:Er.
      - destruct (CB _ _ Hin Er) as (cs & Ec & R). cbn [fst snd] in *. exists (Some cs). split; [exists cs; auto|]. split; [congruence|].
        intros d' Ed'. unfold optionally. rewrite Ed', Ec. reflexivity.
      - exists None. split; [reflexivity|]. split; [congruence|]. intros d' Ed'. unfold optionally. rewrite Ed'. reflexivity. }
    exists out. split; [exact E|]. split.
    - intros name. rewrite (dget_key name out), K, <- dget_key. split.
      + intros Hn. destruct (S2 _ Hn) as (e & He & ->). exists e. split; [exact He|]. split; [reflexivity|]. rewrite (S1 _ He) in Hn. apply dget_key, Hn.
      + intros (e & He & -> & Hk). rewrite (S1 _ He). apply dget_key, Hk.
    - intros e combs He Er. destruct (O2 _ He) as (o & P & Eo). rewrite Er in P. destruct P as (cs & -> & R). exists cs. split; [exact Eo|exact R].
  Qed.

  (** * The external amplitudes in the full space. *)
  Theorem rg_external_ok a s rspin fs (user : amps) : valid_space s -> frozen_beyond s (chr_of "O") -> frozen_beyond s (chr_of "V") ->
    fermionic_cluster_ranks a rspin Wt = Ok fs -> NoDup (map (fun e => fst (fst e)) fs) ->
    (forall name key n w, In (name, key, n) fs -> dget pystr_eq_dec name user = Some w -> incl key (str "ov") /\ exists v, w = VArr v /\ shaped s (map upper key) v) ->
    exists ext, rg_external a s rspin user = Ok (ext, user) /\ map fst ext = map fst user /\
      (forall name key n v, In (name, key, n) fs -> dget pystr_eq_dec name user = Some (VArr v) ->
         exists y, dget pystr_eq_dec name ext = Some (VArr y) /\ shaped s key y /\
           forall idx, inb (shp y) idx -> aget 0 y idx = scattered (map (fun k => positions s (upper k)) key) v idx) /\
      (forall name, ~ In name (map (fun e => fst (fst e)) fs) -> dget pystr_eq_dec name ext = dget pystr_eq_dec name user).
  Proof.
    intros V FO FV Ef ND H. unfold rg_external. rewrite Ef. cbn [bind].
    set (rel := fun (key : pystr) (v y : arr F) => shaped s key y /\ forall idx, inb (shp y) idx -> aget 0 y idx = scattered (map (fun k => positions s (upper k)) key) v idx).
    destruct (@fold_opt entry (tval F) (fun e => fst (fst e)) (fun d e => let '(name, key, _) := e in
             optionally name d d (fun w => bind (as_arr w) (fun v => bind (inflate_to (key_shape s key) (mapM (fun k => sector_mask s (upper k)) key) v) (fun y => 
               Ok (dset pystr_eq_dec name (VArr y) d)))))
      (fun e o => match dget pystr_eq_dec (fst (fst e)) user with None => o = None | Some w => exists v y, w = VArr v /\ rel (snd (fst e)) v y /\ o = Some (VArr y) end) fs user ND) as (ext & E & K & O1 & O2).
    { intros [[name key] n] Hin. cbn [fst snd]. destruct (dget pystr_eq_dec name user) as [w|] eqn:Ew.
      - destruct (H _ _ _ _ Hin Ew) as (Hk & v & -> & Sv).
        set (sh := map (fun k => length (orbitals s k)) key).
        assert (EK : key_shape s key = Ok sh).
        { unfold key_shape, sh. apply mapM_ok. intros k Hkk. apply size_orbitals; [exact V|]. apply Hk in Hkk. cbn in Hkk. destruct Hkk as [<-|[<-|[]]]; vm_compute; tauto. }
        destruct (@pin_ok F s key (zeros sh) v V FO FV Hk) as (y & Ey & Wy & Sy & G1 & G2); [split; [apply full_wf|reflexivity]|exact Sv|].
        exists (Some (VArr y)). split; [exists v, y; split; [reflexivity|]; split; [|reflexivity]; split|].
        + split; [exact Wy|]. rewrite Sy. reflexivity.
        + intros idx Hi. destruct Sv as [Wv Sv]. rewrite Sy in Hi.
          assert (HA : Forall axis_ok (map (fun k => (s, upper k)) key)).
          { apply Forall_map, Forall_forall. intros k Hkk. apply Hk in Hkk. split; [exact V|]. split; [apply upper_ov, Hkk|]. cbn [fst snd]. cbn in Hkk. destruct Hkk as [<-|[<-|[]]]; assumption. }
          pose proof (axes_mesh HA) as M. rewrite !map_map in M. cbn [fst snd] in M.
          assert (Sv2 : shp v = map (@length nat) (map (fun k => positions s (upper k)) key)) by (rewrite Sv, !map_map; apply map_ext; intros; symmetry; apply positions_length).
          destruct (placed_find (map (fun k => positions s (upper k)) key) idx) as [(js & Hj & <-)|Hno].
          * rewrite <- Sv2 in Hj. destruct (G1 js Hj) as [_ ->]. symmetry. apply (@scattered_at F _ _ _ _ M Sv2 Hj).
          * rewrite <- Sv2 in Hno. rewrite G2 by assumption. rewrite scattered_none by exact Hno. unfold zeros. apply (@aget_full F 0).
        + split; [congruence|]. intros d' Ed'. unfold optionally. rewrite Ed'. cbn [as_arr bind]. unfold inflate_to. rewrite EK. cbn [bind].
          unfold pin in Ey. unfold inflate. rewrite Ey. reflexivity.
      - exists None. split; [reflexivity|]. split; [congruence|]. intros d' Ed'. unfold optionally. rewrite Ed'. reflexivity. }
    exists ext. split; [|split; [exact K|split; [|exact O1]]].
    - exact (f_equal (fun r => bind r (fun x => Ok (x, user))) E).
    - intros name key n v Hin Ev. destruct (O2 _ Hin) as (o & P & Eo). cbn [fst snd] in *. rewrite Ev in P. destruct P as (v' & y & [= <-] & R & ->). exists y. split; [exact Eo|exact R].
  Qed.
  Theorem rg_external_preserves a s rspin (user x user' : amps) : rg_external a s rspin user = Ok (x, user') -> user' = user.
  Proof. unfold rg_external. intros H. apply bind_ok in H. destruct H as (fs & _ & H). apply bind_ok in H. destruct H as (ext & _ & H). apply Ok_inj, pair_equal_spec in H. symmetry. apply H. Qed.
End Corr.
