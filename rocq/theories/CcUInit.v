(** Lemmas about the unrestricted starting amplitudes. *)
From Coq Require Import String Permutation Field.
From Verif Require Import Base ListAux Alg ArrModel ArrProofs PermModel TensorModel TensorSpec EinsumModel SpaceModel AnsatzModel AnsatzSpec AnsatzProofs AnsatzRanks DampProofs VecModel VecSpec VecThms
  CcModel CcSpec CcProofs CcThms CcUThms CcRdm CcShift CcInit.
Set Implicit Arguments.
Local Open Scope string_scope.
Local Open Scope list_scope.
Local Open Scope nat_scope.

Lemma double_key a fs name key : fermionic_cluster_ranks a false Wt = Ok fs -> In (name, key, 2) fs -> key = str "oovv".
Proof.
  intros Ef Hin. destruct (@ferm_inv _ _ _ _ Ef) as (_ & _ & T). apply T in Hin.
  assert (A : forallb (fun e : entry => negb (snd e =? 2) || streqb (snd (fst e)) (str "oovv")) (fermion_table false Wt) = true) by (vm_compute; reflexivity).
  rewrite forallb_forall in A. specialize (A _ Hin). cbn [fst snd] in A. unfold streqb in A. destruct (pystr_eq_dec key (str "oovv")); [assumption|discriminate].
Qed.
Lemma single_key a fs name key : fermionic_cluster_ranks a false Wt = Ok fs -> In (name, key, 1) fs -> key = str "ov".
Proof.
  intros Ef Hin. destruct (@ferm_inv _ _ _ _ Ef) as (_ & _ & T). apply T in Hin.
  assert (A : forallb (fun e : entry => negb (snd e =? 1) || streqb (snd (fst e)) (str "ov")) (fermion_table false Wt) = true) by (vm_compute; reflexivity).
  rewrite forallb_forall in A. specialize (A _ Hin). cbn [fst snd] in A. unfold streqb in A. destruct (pystr_eq_dec key (str "ov")); [assumption|discriminate].
Qed.

Section UInit.
  Variable F : fld.
  Local Open Scope rng_scope.
  Local Open Scope py_scope.
  Add Field Ffield9 : (fth F).
  Variables (c : ucc F) (sz : nat -> nat -> nat) (eps : nat -> nat -> nat -> F).
  Variables (fs bs : list entry) (cs : list (pystr * pystr * nat * nat)).
  Let l := fermionic_blocks fs ++ bosonic_blocks bs ++ coupling_blocks cs.
  Hypothesis H2 : @two F <> 0.
  Hypothesis Hf : (frank (u_ansatz c) <= 1)%nat.
  Hypothesis HD : distinct_names (u_ansatz c) false Wt.
  Hypothesis Ef : fermionic_cluster_ranks (u_ansatz c) false Wt = Ok fs.
  Hypothesis Eb : bosonic_cluster_ranks (u_ansatz c) Wt = Ok bs.
  Hypothesis Ec : coupling_cluster_ranks (u_ansatz c) Wt = Ok cs.
  Hypothesis H26 : forall name key stored spins, In (name, key, stored, spins) l -> (length key <= 26)%nat.
  Hypothesis HE : u_energies_known (u_omega c) (u_fock c) l sz eps.
  Hypothesis HS : u_sizes_known (u_alpha c) (u_beta c) (nbos_of (u_omega c)) l sz.
  Hypothesis H1e : forall name comb, In (name, str "ov", 1%nat) fs -> In comb [str "aa"; str "bb"] -> available (u_fock c comb (str "ov")) (spin_shape_of sz (str "ov") comb).
  Hypothesis H2e : forall name s t, In (name, str "oovv", 2%nat) fs -> In (s, t) [(chr_of "a", chr_of "a"); (chr_of "a", chr_of "b"); (chr_of "b", chr_of "b")] ->
    available (u_eris c [s; s; t; t] (str "ovov")) (spin_shape_of sz (str "ovov") [s; s; t; t]).

  Definition ugood (key spins : pystr) (x : arr F) (v : list nat -> F) : Prop :=
    wf x /\ shp x = spin_shape_of sz key spins /\ forall idx, inb (spin_shape_of sz key spins) idx -> aget 0 x idx = fdiv (v idx) (u_denominator sz eps key spins idx).
  Lemma fin name key n comb : In (name, key, n) fs -> In comb (generate_spin_combinations n false true) -> In (name, key, Some comb, comb) l.
  Proof. intros H Hc. apply in_or_app. left. apply in_flat_map. exists (name, key, n). split; [exact H|]. apply in_map_iff. exists comb. tauto. Qed.
  Lemma udenom name key stored spins : key <> [] -> length spins = length key -> In (name, key, stored, spins) l -> exists D, u_energy_sum c key spins [] = Ok D /\ wf D /\ shp D = spin_shape_of sz key spins /\
    forall idx, inb (spin_shape_of sz key spins) idx -> aget 0 D idx = u_denominator sz eps key spins idx.
  Proof.
    intros NE L H. apply (@u_denominator_ok F c sz eps key spins NE (@H26 _ _ _ _ H) L). intros k s Hk. exact (@HE _ _ _ _ _ _ H Hk).
  Qed.
  Lemma uquotient name key stored spins (r : result (arr F)) : key <> [] -> length spins = length key -> In (name, key, stored, spins) l -> available r (spin_shape_of sz key spins) ->
    exists x, (f <- r ;; e <- u_energy_sum c key spins [] ;; div_arr f e) = Ok x /\ ugood key spins x (at_index r).
  Proof.
    intros NE L Hin (f & -> & Wf & Sf). destruct (@udenom _ _ _ _ NE L Hin) as (D & ED & WD & SD & GD). cbn [bind]. rewrite ED. cbn [bind].
    destruct (@zip_ok F fdiv f D Wf WD ltac:(congruence)) as (x & Ex & Wx & Sx & Gx). exists x. split; [exact Ex|]. split; [exact Wx|]. split; [congruence|].
    intros idx Hi. rewrite Gx by (rewrite Sf; exact Hi). rewrite GD by exact Hi. reflexivity.
  Qed.
  Lemma uzero key spins : ugood key spins (zeros (spin_shape_of sz key spins)) (fun _ => 0).
  Proof. destruct (@zeros_shape F (spin_shape_of sz key spins)) as [W S]. split; [exact W|]. split; [exact S|]. intros idx _. unfold zeros. rewrite aget_full. rewrite (Field_theory.Fdiv_def (fth F)). ring. Qed.
  Lemma spin_shape_known name key stored spins : length spins = length key -> (forall k, In k key -> orb k) -> (forall s, In s spins -> spin_of s) -> In (name, key, stored, spins) l ->
    spin_shape (u_alpha c) (u_beta c) key spins = Ok (spin_shape_of sz key spins).
  Proof.
    intros L KO SO Hin. assert (X : forall k s, In (k, s) (combine key spins) -> sp_size (if s =? chr_of "a" then u_alpha c else u_beta c) k = Ok (sz k s)).
    { intros k s Hk. specialize (@HS _ _ _ _ _ _ Hin Hk). destruct (k =? chr_of "b") eqn:E; [|exact HS]. apply Nat.eqb_eq in E. subst k. exfalso. apply in_combine_l in Hk. specialize (KO _ Hk). revert KO. unfold orb. vm_compute. intuition discriminate. }
    clear - X L SO. unfold spin_shape, spin_shape_of. revert spins L X SO. induction key as [|k key IH]; intros [|s spins] L X SO; try discriminate; [reflexivity|].
    cbn [combine mapM map fst snd]. pose proof (X k s (or_introl eq_refl)) as X1. pose proof (SO s (or_introl eq_refl)) as S1.
    assert (SS : spin_space (u_alpha c) (u_beta c) s = Ok (if (s =? chr_of "a")%nat then u_alpha c else u_beta c)).
    { unfold spin_of in S1. unfold spin_space. destruct S1 as [-> | ->]; reflexivity. }
    rewrite SS. cbn [bind]. rewrite X1. cbn [bind].
    rewrite IH; [reflexivity|cbn in L; lia|intros; apply X; right; assumption|intros; apply SO; right; assumption].
  Qed.

  Lemma combs1 : generate_spin_combinations 1 false true = [str "bb"; str "aa"]. Proof. vm_compute. reflexivity. Qed.
  Lemma combs2 : generate_spin_combinations 2 false true = [str "aaaa"; str "abab"; str "bbbb"]. Proof. vm_compute. reflexivity. Qed.
  Lemma key_facts name key n : In (name, key, n) fs -> (forall k, In k key -> orb k) /\ length key = (2 * n)%nat /\ (1 <= n)%nat.
  Proof.
    intros H. destruct (@fermionic_entries _ _ _ _ Ef) as (_ & _ & F2). specialize (F2 _ H). split.
    - intros k Hk. exact (@entry_orb Wt _ _ (or_introl eq_refl) F2 Hk).
    - exact (@entry_len Wt _ (or_introl eq_refl) F2).
  Qed.
  (** The shape and denominator of doubles. *)
  Lemma shape4 s t : spin_shape_of sz (str "oovv") [s; t; s; t] = [sz (chr_of "o") s; sz (chr_of "o") t; sz (chr_of "v") s; sz (chr_of "v") t].
  Proof. reflexivity. Qed.
  Lemma den4 s t i j a b : u_denominator sz eps (str "oovv") [s; t; s; t] [i; j; a; b] =
    eps (chr_of "o") s i + eps (chr_of "o") t j - eps (chr_of "v") s a - eps (chr_of "v") t b.
  Proof. unfold u_denominator, signed_energies. change (str "oovv") with [chr_of "o"; chr_of "o"; chr_of "v"; chr_of "v"]. cbn [combine map fst snd]. rewrite !rsum_cons.
    change (memb (chr_of "o") (str "oOi")) with true. change (memb (chr_of "v") (str "oOi")) with false. cbv beta iota. unfold rsum. cbn [fold_right]. ring. Qed.
  Lemma u_guess_two s t : u_guess c (str "oovv") 2 [s; t; s; t] =
    (v <- u_eris c [s; s; t; t] (str "ovov") ;; t' <- transpose 0 v [0; 2; 1; 3]%nat ;; e <- u_energy_sum c (str "oovv") [s; t; s; t] [] ;; x <- div_arr t' e ;;
     if (streqb [s; t; s; t] (str "aaaa") || streqb [s; t; s; t] (str "bbbb"))%bool
     then y <- transpose 0 x [1; 0; 2; 3]%nat ;; z <- minus_arr x y ;; Ok (map_arr (fun v => v * half) z) else Ok x).
  Proof. reflexivity. Qed.
  Lemma u_driver_two s t i j a b : u_driver c (str "oovv") 2 [s; t; s; t] [i; j; a; b] =
    let v i j := at_index (u_eris c [s; s; t; t] (str "ovov")) [i; a; j; b] in if (s =? t)%nat then half * (v i j - v j i) else v i j.
  Proof. reflexivity. Qed.
  Lemma u_double name s t : In (s, t) [(chr_of "a", chr_of "a"); (chr_of "a", chr_of "b"); (chr_of "b", chr_of "b")] -> In (name, str "oovv", 2%nat) fs ->
    exists x, u_guess c (str "oovv") 2 [s; t; s; t] = Ok x /\ ugood (str "oovv") [s; t; s; t] x (u_driver c (str "oovv") 2 [s; t; s; t]).
  Proof.
    intros Hst Hin. assert (HB : In (name, str "oovv", Some [s; t; s; t], [s; t; s; t]) l).
    { apply (@fin _ _ 2); [exact Hin|]. rewrite combs2. cbn [In] in *. destruct Hst as [E|[E|[E|[]]]]; apply pair_equal_spec in E; destruct E as [<- <-]; tauto. }
    destruct (@H2e _ _ _ Hin Hst) as (v & Ev & Wv & Sv). destruct (@udenom name (str "oovv") (Some [s; t; s; t]) [s; t; s; t] ltac:(discriminate) ltac:(reflexivity) HB) as (D & ED & WD & SD & GD).
    rewrite u_guess_two. rewrite Ev. cbn [bind].
    destruct (@transpose_get F v [0; 2; 1; 3]%nat) as (t' & Et & Wt' & St & Gt); [rewrite Sv; cbn; apply perm_skip, perm_swap|].
    rewrite Et. cbn [bind]. rewrite ED. cbn [bind]. rewrite Sv in St. cbn in St. rewrite shape4 in SD, GD.
    destruct (@zip_ok F fdiv t' D Wt' WD ltac:(rewrite SD, St; reflexivity)) as (x & Ex & Wx & Sx & Gx). unfold div_arr at 1. rewrite Ex. cbn [bind]. rewrite St in Sx.
    assert (GX : forall i j a b, (i < sz (chr_of "o") s)%nat -> (j < sz (chr_of "o") t)%nat -> (a < sz (chr_of "v") s)%nat -> (b < sz (chr_of "v") t)%nat ->
      aget 0 x [i; j; a; b] = fdiv (aget 0 v [i; a; j; b]) (eps (chr_of "o") s i + eps (chr_of "o") t j - eps (chr_of "v") s a - eps (chr_of "v") t b)).
    { intros i j a b Hi Hj Ha Hb. assert (IB : inb (shp t') [i; j; a; b]) by (rewrite St; apply inb4; exists i, j, a, b; tauto).
      rewrite Gx by exact IB. rewrite Gt by exact IB. rewrite GD by (rewrite St in IB; exact IB). rewrite den4. reflexivity. }
    clear Gx. destruct (Nat.eq_dec s t) as [E|NEst].
    - subst t. replace (streqb [s; s; s; s] (str "aaaa") || streqb [s; s; s; s] (str "bbbb"))%bool with true.
      2:{ cbn [In] in Hst. destruct Hst as [E|[E|[E|[]]]]; apply pair_equal_spec in E; destruct E as [<- E]; [reflexivity|discriminate|reflexivity]. }
      destruct (@transpose_get F x [1; 0; 2; 3]%nat) as (y & Ey & Wy & Sy & Gy); [rewrite Sx; cbn; apply perm_swap|]. rewrite Ey. cbn [bind]. rewrite Sx in Sy. cbn in Sy.
      destruct (@zip_ok F rsub x y Wx Wy ltac:(rewrite Sx, Sy; reflexivity)) as (z & Ez & Wz & Sz & Gz). unfold minus_arr. rewrite Ez. cbn [bind]. eexists. split; [reflexivity|].
      split; [unfold wf, map_arr; cbn [shp dat]; rewrite map_length; exact Wz|]. split; [cbn [map_arr shp]; rewrite Sz, Sx; reflexivity|].
      intros idx Hi. rewrite shape4 in Hi. pose proof Hi as Hi'. apply inb4 in Hi. destruct Hi as (i & j & a & b & -> & Hi & Hj & Ha & Hb).
      replace (aget 0 (map_arr (fun v0 => v0 * half) z) [i; j; a; b]) with (aget 0 z [i; j; a; b] * half).
      2:{ unfold aget, map_arr. cbn [shp dat]. rewrite (nth_indep (map _ (dat z)) 0 (0 * half)); [rewrite (map_nth (fun v => v * half)); reflexivity|]. rewrite map_length, Wz. apply ravel_lt. rewrite Sz, Sx. exact Hi'. }
      rewrite Gz by (rewrite Sx; exact Hi'). rewrite Gy by (rewrite Sy; exact Hi'). change (unperm [1; 0; 2; 3]%nat [i; j; a; b]) with [j; i; a; b]. rewrite !GX by assumption. rewrite den4. 
      rewrite u_driver_two. cbv zeta. rewrite Nat.eqb_refl. unfold at_index. rewrite Ev.
      replace (eps (chr_of "o") s j + eps (chr_of "o") s i - eps (chr_of "v") s a - eps (chr_of "v") s b) with (eps (chr_of "o") s i + eps (chr_of "o") s j - eps (chr_of "v") s a - eps (chr_of "v") s b) by ring.
      rewrite !(Field_theory.Fdiv_def (fth F)). ring.
    - replace (streqb [s; t; s; t] (str "aaaa") || streqb [s; t; s; t] (str "bbbb"))%bool with false.
      2:{ cbn [In] in Hst. destruct Hst as [E|[E|[E|[]]]]; apply pair_equal_spec in E; destruct E as [<- <-]; [congruence|reflexivity|congruence]. }
      exists x. split; [reflexivity|]. split; [exact Wx|]. split; [rewrite Sx; reflexivity|].
      intros idx Hi. rewrite shape4 in Hi. apply inb4 in Hi. destruct Hi as (i & j & a & b & -> & Hi & Hj & Ha & Hb). rewrite GX by assumption. rewrite den4.
      rewrite u_driver_two. cbv zeta.
      rewrite (proj2 (Nat.eqb_neq s t) NEst). unfold at_index. rewrite Ev. reflexivity.
  Qed.
  Lemma u_guess_ok name key n comb : In (name, key, n) fs -> In comb (generate_spin_combinations n false true) ->
    exists x, u_guess c key n comb = Ok x /\ ugood key comb x (u_driver c key n comb).
  Proof.
    intros Hin Hc. destruct (@key_facts _ _ _ Hin) as (KO & KL & Hn). destruct (@spins_ok n comb Hc) as [SL SO]. pose proof (@fin _ _ _ _ Hin Hc) as HB.
    destruct n as [|[|[|n]]]; [lia| | |].
    - pose proof (@single_key _ _ _ _ Ef Hin) as ->. rewrite combs1 in Hc. assert (Hc2 : In comb [str "aa"; str "bb"]) by (cbn [In] in *; tauto). unfold u_guess. cbn [Nat.eqb].
      apply (@uquotient name (str "ov") (Some comb) comb); [discriminate|rewrite SL; reflexivity|exact HB|exact (@H1e _ _ Hin Hc2)].
    - pose proof (@double_key _ _ _ _ Ef Hin) as ->. rewrite combs2 in Hc. cbn [In] in Hc.
      destruct Hc as [<-|[<-|[<-|[]]]]; [apply (@u_double name 97%nat 97%nat)|apply (@u_double name 97%nat 98%nat)|apply (@u_double name 98%nat 98%nat)]; try exact Hin; cbn [In]; tauto.
    - unfold u_guess. cbn [Nat.eqb]. rewrite (@spin_shape_known name key (Some comb) comb ltac:(congruence) KO SO HB). cbn [bind]. eexists. split; [reflexivity|]. exact (uzero key comb).
  Qed.

  (** Bosonic blocks. *)
  Hypothesis HB : bosons_known (u_omega c) (u_G c) None (fun k => sz k (chr_of "_")) bs [].
  Hypothesis HC : cs <> [] -> exists g w, u_g c = Some g /\ u_omega c = Some w /\
    (forall name key nf comb, In (name, key, nf, 1%nat) cs -> In comb [str "aa"; str "bb"] -> available (g comb key) (spin_shape_of sz key (chr_of "_" :: comb))) /\
    (forall k, In k (str "ov") -> sz k (chr_of "a") = sz k (chr_of "b") /\ forall i, eps k (chr_of "a") i = eps k (chr_of "b") i).

  Definition c_b : cc F := {| cc_ansatz := u_ansatz c; cc_omega := u_omega c; cc_fock := fun _ => Err KeyError; cc_eris := fun _ => Err KeyError; cc_G := u_G c; cc_g := None; cc_space := u_alpha c; cc_bare_G := None; cc_shift := false |}.
  Lemma bin name key n : In (name, key, n) bs -> In (name, key, None, repeat (chr_of "_") n) l.
  Proof. intros H. apply in_or_app. right. apply in_or_app. left. apply in_map_iff. exists (name, key, n). split; [reflexivity|exact H]. Qed.
  Lemma cin name key nf nb comb : In (name, key, nf, nb) cs -> In comb [str "aa"; str "bb"] -> In (name, key, Some comb, repeat (chr_of "_") nb ++ comb) l.
  Proof. intros H Hc. apply in_or_app. right. apply in_or_app. right. apply in_flat_map. exists (name, key, nf, nb). split; [exact H|]. apply in_map_iff. exists comb. split; [reflexivity|exact Hc]. Qed.
  Lemma combine_rep {A B} (x : A) (y : B) n : combine (repeat x n) (repeat y n) = repeat (x, y) n.
  Proof. induction n; cbn; congruence. Qed.
  Lemma u_boson_ok name key n : In (name, key, n) bs -> exists x, boson_guess (u_omega c) (u_G c) n = Ok x /\ ugood key (repeat (chr_of "_") n) x (b_driver (u_G c) n).
  Proof.
    intros Hin. destruct (@boson_wf _ _ _ Eb) as (_ & _ & B). destruct (B name key n Hin) as (_ & Ek & Hn & _).
    assert (bos_only : forall nm k, In (nm, k) (map fst bs) -> forall z, In z k -> exists n', In (nm, k, n') bs /\ k = repeat (chr_of "b") n' /\ z = chr_of "b").
    { intros nm k H z Hz. apply in_map_iff in H. destruct H as ([[nm' k'] n'] & E & H). apply pair_equal_spec in E. destruct E as [-> ->]. destruct (B _ _ _ H) as (_ & E & _). exists n'. split; [exact H|]. split; [exact E|].
      rewrite E in Hz. apply repeat_spec in Hz. exact Hz. }
    assert (IB : forall nm k n', In (nm, k, n') bs -> k = repeat (chr_of "b") n' -> In (chr_of "b", chr_of "_") (combine k (repeat (chr_of "_") n'))).
    { intros nm k n' H ->. destruct (B _ _ _ H) as (_ & _ & Hn' & _). rewrite combine_rep. destruct n'; [lia|]. left. reflexivity. }
    destruct (@boson_guess_ok F c_b (fun k => sz k (chr_of "_")) (fun k => eps k (chr_of "_")) [] bs [] Hf Eb) with (name := name) (key := key) (n := n) as (x & Ex & Wx & Sx & Gx).
    - intros nm k H. cbn [map app] in H. rewrite app_nil_r in H. apply in_map_iff in H. destruct H as ([[nm' k'] n'] & E & H). apply pair_equal_spec in E. destruct E as [-> ->]. exact (@H26 _ _ _ _ (bin _ _ _ H)).
    - intros nm k z H Hz. cbn [map app] in H. rewrite app_nil_r in H. destruct (bos_only _ _ H z Hz) as (n' & H' & E & ->).
      exact (@HE nm k None _ _ _ (bin _ _ _ H') (IB _ _ _ H' E)).
    - intros nm k z H Hz. cbn [map app] in H. rewrite app_nil_r in H. destruct (bos_only _ _ H z Hz) as (n' & H' & E & ->).
      exact (@HS nm k None _ _ _ (bin _ _ _ H') (IB _ _ _ H' E)).
    - exact HB.
    - exact Hin.
    - exists x. split; [exact Ex|]. subst key.
      assert (ES : map (fun k => sz k (chr_of "_")) (repeat (chr_of "b") n) = spin_shape_of sz (repeat (chr_of "b") n) (repeat (chr_of "_") n)).
      { unfold spin_shape_of. rewrite combine_rep, !map_rep. reflexivity. }
      assert (DE : forall idx, denominator (fun k => sz k (chr_of "_")) (fun k => eps k (chr_of "_")) (repeat (chr_of "b") n) idx = u_denominator sz eps (repeat (chr_of "b") n) (repeat (chr_of "_") n) idx).
      { intros idx. unfold denominator, u_denominator. rewrite combine_rep, !map_rep. reflexivity. }
      split; [exact Wx|]. rewrite ES in Sx, Gx. split; [exact Sx|]. intros idx Hi. rewrite Gx by exact Hi. rewrite DE. reflexivity.
  Qed.

  (** Coupled blocks. *)
  Lemma coupling_key name key nf nb : In (name, key, nf, nb) cs -> nf = 1%nat /\ key = repeat (chr_of "b") nb ++ str "ov".
  Proof.
    intros Hin. destruct (@coupling_skip _ _ _ _ _ _ _ (or_introl eq_refl) Ec Hin) as (_ & _ & K2). assert (nf = 1%nat) by lia. subst nf. split; [reflexivity|].
    clear - Ec Hin. rewrite (@coupling_eq (u_ansatz c) Wt (or_introl eq_refl)) in Ec. apply Ok_inj in Ec. rewrite <- Ec in Hin. apply in_map_iff in Hin. destruct Hin as ([i j] & E & _).
    unfold couple in E. cbn [fst snd] in E. apply pair_equal_spec in E. destruct E as [E <-]. apply pair_equal_spec in E. destruct E as [E ->]. apply pair_equal_spec in E. destruct E as [_ <-]. reflexivity.
  Qed.
  Lemma combine_app' {A B} (a b : list A) (x y : list B) : length a = length x -> combine (a ++ b) (x ++ y) = combine a x ++ combine b y.
  Proof. revert x. induction a as [|h a IH]; intros [|h' x] L; try discriminate; [reflexivity|]. cbn. rewrite IH by (cbn in L; lia). reflexivity. Qed.
  Lemma signed_energies_ext idx (ts1 ts2 : list (bool * nat * (nat -> F))) :
    Forall2 (fun a b => fst a = fst b /\ forall i, snd a i = snd b i) ts1 ts2 -> signed_energies idx ts1 = signed_energies idx ts2.
  Proof.
    unfold signed_energies. intros H. revert idx. induction H as [|a b l1 l2 [H1 H2'] H IH]; intros [|i idx]; cbn [combine map]; try reflexivity. rewrite !rsum_cons, IH.
    destruct a as [[a1 a2] a3], b as [[b1 b2] b3]. cbn [fst snd] in *. apply pair_equal_spec in H1. destruct H1 as [-> ->]. rewrite H2'. reflexivity.
  Qed.
  Lemma coupled_shape nb s : spin_shape_of sz (repeat (chr_of "b") nb ++ str "ov") (repeat (chr_of "_") nb ++ [s; s]) = repeat (sz (chr_of "b") (chr_of "_")) nb ++ [sz (chr_of "o") s; sz (chr_of "v") s].
  Proof. unfold spin_shape_of. rewrite combine_app' by (rewrite !repeat_length; reflexivity). rewrite map_app, combine_rep, map_rep. reflexivity. Qed.
  Lemma u_coupling_ok name key nf nb : In (name, key, nf, nb) cs -> exists a b, u_coupling_guess c key nf nb = Ok (VSpin [(str "aa", a); (str "bb", b)]) /\
    ugood key (repeat (chr_of "_") nb ++ str "aa") a (u_eb_driver (u_g c) key nb (str "aa")) /\ ugood key (repeat (chr_of "_") nb ++ str "bb") b (u_eb_driver (u_g c) key nb (str "bb")).
  Proof.
    intros Hin. assert (NE : cs <> []) by (intros E; rewrite E in Hin; destruct Hin). destruct (HC NE) as (g & w & Eg & Ew & AG & EQ).
    destruct (@coupling_key _ _ _ _ Hin) as [-> Ek]. destruct (EQ (chr_of "o")) as [So Eo]; [left; reflexivity|]. destruct (EQ (chr_of "v")) as [Sv Ev]; [right; left; reflexivity|].
    assert (SH : spin_shape_of sz key (repeat (chr_of "_") nb ++ str "bb") = spin_shape_of sz key (repeat (chr_of "_") nb ++ str "aa")).
    { rewrite Ek. change (str "bb") with [chr_of "b"; chr_of "b"]. change (str "aa") with [chr_of "a"; chr_of "a"]. rewrite !coupled_shape, So, Sv. reflexivity. }
    assert (DN : forall idx, u_denominator sz eps key (repeat (chr_of "_") nb ++ str "bb") idx = u_denominator sz eps key (repeat (chr_of "_") nb ++ str "aa") idx).
    { intros idx. rewrite Ek. unfold u_denominator. apply signed_energies_ext. rewrite !combine_app' by (rewrite !repeat_length; reflexivity). rewrite !map_app. apply Forall2_app.
      - induction (map _ (combine (repeat (chr_of "b") nb) (repeat (chr_of "_") nb))); constructor; [tauto|assumption].
      - change (combine (str "ov") (str "bb")) with [(chr_of "o", chr_of "b"); (chr_of "v", chr_of "b")]. change (combine (str "ov") (str "aa")) with [(chr_of "o", chr_of "a"); (chr_of "v", chr_of "a")].
        cbn [map fst snd]. repeat constructor; cbn [fst snd]; try (intros i; rewrite ?Eo, ?Ev; reflexivity); rewrite ?So, ?Sv; reflexivity. }
    assert (IA : In (str "aa") [str "aa"; str "bb"]) by (left; reflexivity). assert (IB : In (str "bb") [str "aa"; str "bb"]) by (right; left; reflexivity).
    assert (LK : forall comb, In comb [str "aa"; str "bb"] -> length (repeat (chr_of "_") nb ++ comb) = length key).
    { intros comb H. rewrite Ek, !app_length, !repeat_length. destruct H as [<-|[<-|[]]]; reflexivity. }
    assert (KN : key <> []) by (rewrite Ek; destruct nb; discriminate).
    unfold u_coupling_guess. rewrite Ew, Eg. cbn [Nat.eqb negb]. destruct (Nat.eqb_spec nb 1) as [->|N1].
    - change (repeat (chr_of "_") 1 ++ str "aa") with (str "_aa") in *. change (repeat (chr_of "_") 1 ++ str "bb") with (str "_bb") in *.
      destruct (@uquotient name key (Some (str "aa")) (str "_aa") (g (str "aa") key) KN (LK _ IA) (@cin _ _ _ 1 _ Hin IA) (AG _ _ _ _ Hin IA)) as (xa & Ea & Ga).
      destruct (AG _ _ _ _ Hin IB) as (f & Ef' & Wf & Sf). destruct (AG _ _ _ _ Hin IA) as (f' & Ef'' & Wf' & Sf').
      destruct (@udenom name key (Some (str "aa")) (str "_aa") KN (LK _ IA) (@cin _ _ _ 1 _ Hin IA)) as (D & ED & WD & SD & GD).
      rewrite Ef'' in *. cbn [bind] in *. rewrite ED in *. cbn [bind] in *. rewrite Ea. cbn [bind]. rewrite Ef'. cbn [bind].
      destruct (@zip_ok F fdiv f D Wf WD) as (x & Ex & Wx & Sx & Gx); [rewrite Sf, SD; exact SH|]. unfold div_arr. rewrite Ex. cbn [bind]. exists xa, x. split; [reflexivity|].
      unfold u_eb_driver. rewrite Ef', Ef''. split; [exact Ga|]. split; [exact Wx|]. split; [rewrite Sx; exact Sf|].
      intros idx Hi. rewrite Gx by (rewrite Sf; exact Hi). rewrite GD by (rewrite <- SH; exact Hi). rewrite DN. reflexivity.
    - assert (KS : key_shape (u_alpha c) (skipn nb key) = Ok [sz (chr_of "o") (chr_of "a"); sz (chr_of "v") (chr_of "a")]).
      { pose proof (@cin _ _ _ _ _ Hin IA) as HI. rewrite Ek at 1. rewrite skipn_app, repeat_length, Nat.sub_diag. rewrite <- (repeat_length (chr_of "b") nb) at 1. rewrite skipn_all. cbn [app skipn].
        assert (SP : forall k, In k (str "ov") -> sp_size (u_alpha c) k = Ok (sz k (chr_of "a"))).
        { intros k Hk. assert (Hc : In (k, chr_of "a") (combine key (repeat (chr_of "_") nb ++ str "aa"))).
          { rewrite Ek, combine_app' by (rewrite !repeat_length; reflexivity). apply in_or_app. right. destruct Hk as [<-|[<-|[]]]; [left; reflexivity|right; left; reflexivity]. }
          specialize (@HS _ _ _ _ _ _ HI Hc). destruct Hk as [<-|[<-|[]]]; exact HS. }
        change (str "ov") with [chr_of "o"; chr_of "v"]. unfold key_shape. cbn [mapM]. rewrite !SP by (first [left; reflexivity|right; left; reflexivity]). reflexivity. }
      rewrite KS. cbn [bind]. eexists _, _. split; [reflexivity|].
      assert (SB : nbos_of (Some w) = sz (chr_of "b") (chr_of "_") \/ nb = 0%nat).
      { destruct nb as [|nb]; [tauto|left]. pose proof (@cin _ _ _ _ _ Hin IA) as HI. assert (Hc : In (chr_of "b", chr_of "_") (combine key (repeat (chr_of "_") (S nb) ++ str "aa"))).
        { rewrite Ek, combine_app' by (rewrite !repeat_length; reflexivity). left. reflexivity. }
        specialize (@HS _ _ _ _ _ _ HI Hc). rewrite Nat.eqb_refl, Ew in HS. symmetry. exact HS. }
      assert (ZS : repeat (nbos_of (Some w)) nb ++ [sz (chr_of "o") (chr_of "a"); sz (chr_of "v") (chr_of "a")] = spin_shape_of sz key (repeat (chr_of "_") nb ++ str "aa")).
      { rewrite Ek. change (str "aa") with [chr_of "a"; chr_of "a"]. rewrite coupled_shape. destruct SB as [-> | ->]; reflexivity. }
      rewrite ZS. assert (DV : forall comb, u_eb_driver (u_g c) key nb comb = fun _ => 0) by (intros comb; unfold u_eb_driver; destruct nb as [|[|nb]]; [reflexivity|lia|reflexivity]).
      rewrite Eg in DV. rewrite !DV. split; [apply uzero|]. rewrite <- SH. apply uzero.
  Qed.

  Lemma spin_list (f : pystr -> result (arr F)) combs : NoDup combs -> (forall comb, In comb combs -> exists x, f comb = Ok x) ->
    exists e, mapM (fun comb => x <- f comb ;; Ok (comb, x)) combs = Ok e /\ forall comb x, In comb combs -> f comb = Ok x -> dget pystr_eq_dec comb e = Some x.
  Proof.
    induction combs as [|h combs IH]; intros ND H; [exists []; split; [reflexivity|intros ? ? []]|]. inversion ND as [|? ? N1 N2]; subst.
    destruct (H h (or_introl eq_refl)) as (x & Ex). destruct IH as (e & Ee & G); [exact N2|intros; apply H; right; assumption|].
    exists ((h, x) :: e). cbn [mapM]. rewrite Ex. cbn [bind]. rewrite Ee. split; [reflexivity|]. intros comb y Hc Ey. cbn [dget]. destruct (pystr_eq_dec comb h) as [->|NE]; [congruence|].
    destruct Hc as [->|Hc]; [congruence|]. apply G; assumption.
  Qed.

  Lemma u_init_blocks : exists out, u_init_amps c = Ok out /\ u_holds [] l sz out /\
    (forall name key n comb idx, In (name, key, n) fs -> In comb (generate_spin_combinations n false true) -> inb (spin_shape_of sz key comb) idx ->
       u_block_at out name (Some comb) idx = fdiv (u_driver c key n comb idx) (u_denominator sz eps key comb idx)) /\
    (forall name key n idx, In (name, key, n) bs -> inb (spin_shape_of sz key (repeat (chr_of "_") n)) idx ->
       u_block_at out name None idx = fdiv (b_driver (u_G c) n idx) (u_denominator sz eps key (repeat (chr_of "_") n) idx)) /\
    (forall name key nf nb comb idx, In (name, key, nf, nb) cs -> In comb [str "aa"; str "bb"] -> inb (spin_shape_of sz key (repeat (chr_of "_") nb ++ comb)) idx ->
       u_block_at out name (Some comb) idx = fdiv (u_eb_driver (u_g c) key nb comb idx) (u_denominator sz eps key (repeat (chr_of "_") nb ++ comb) idx)).
  Proof.
    pose proof (@names_nodup _ _ _ _ _ _ (or_introl eq_refl) HD Ef Eb Ec) as ND. unfold all_names in ND. apply NoDup_app_inv in ND. destruct ND as (N1 & N23 & N4).
    apply NoDup_app_inv in N23. destruct N23 as (N2 & N3 & N5). unfold u_init_amps. rewrite Ef. cbn [bind].
    match goal with |- context [set_all fname ?f fs []] => set (vf := f) end.
    assert (VF : forall name key n, In (name, key, n) fs -> exists e, vf (name, key, n) = Ok (VSpin e) /\
      forall comb, In comb (generate_spin_combinations n false true) -> exists x, dget pystr_eq_dec comb e = Some x /\ ugood key comb x (u_driver c key n comb)).
    { intros name key n Hin. destruct (@spin_list (u_guess c key n) (generate_spin_combinations n false true)) as (e & Ee & G).
      - apply spins_nodup.
      - intros comb Hc. destruct (@u_guess_ok _ _ _ _ Hin Hc) as (x & Ex & _). exists x. exact Ex.
      - exists e. unfold vf. rewrite Ee. split; [reflexivity|]. intros comb Hc. destruct (@u_guess_ok _ _ _ _ Hin Hc) as (x & Ex & Gx). exists x. split; [exact (G _ _ Hc Ex)|exact Gx]. }
    destruct (@set_all_ok F entry fname vf fs [] N1) as (d1 & E1 & D1 & K1 & O1 & G1).
    { intros [[name key] n] Hin. destruct (VF _ _ _ Hin) as (e & Ee & _). exists (VSpin e). exact Ee. }
    { constructor. }
    rewrite E1. cbn [bind]. rewrite Eb. cbn [bind].
    destruct (@set_all_ok F entry fname (arr_of (fun '(_, _, n) => boson_guess (u_omega c) (u_G c) n)) bs d1 N2) as (d2 & E2 & D2 & K2 & O2 & G2).
    { intros [[name key] n] Hin. destruct (@u_boson_ok _ _ _ Hin) as (x & Ex & _). exists (VArr x). apply arr_of_ok, Ex. }
    { exact D1. }
    rewrite E2. cbn [bind]. rewrite Ec. cbn [bind].
    destruct (@set_all_ok F _ cname (fun '(_, key, nf, nb) => u_coupling_guess c key nf nb) cs d2 N3) as (out & E3 & D3 & K3 & O3 & G3).
    { intros [[[name key] nf] nb] Hin. destruct (@u_coupling_ok _ _ _ _ Hin) as (a & b & Eab & _). eexists. exact Eab. }
    { exact D2. }
    exists out. split; [exact E3|].
    assert (FF : forall name key n comb, In (name, key, n) fs -> In comb (generate_spin_combinations n false true) -> exists x, block_of out name (Some comb) = Some x /\ ugood key comb x (u_driver c key n comb)).
    { intros name key n comb Hin Hc. destruct (VF _ _ _ Hin) as (e & Ee & Ge). destruct (Ge comb Hc) as (x & Ex & Gx). exists x. split; [|exact Gx].
      assert (HN : In name (map fname fs)) by (apply in_map_iff; exists (name, key, n); split; [reflexivity|exact Hin]).
      unfold block_of. rewrite O3 by (intros Hn; apply (N4 name HN), in_or_app; right; exact Hn). rewrite O2 by (intros Hn; apply (N4 name HN), in_or_app; left; exact Hn).
      change name with (fname (name, key, n)). rewrite (G1 _ _ Hin Ee). exact Ex. }
    assert (FB : forall name key n, In (name, key, n) bs -> exists x, block_of out name None = Some x /\ ugood key (repeat (chr_of "_") n) x (b_driver (u_G c) n)).
    { intros name key n Hin. destruct (@u_boson_ok _ _ _ Hin) as (x & Ex & Gx). exists x. split; [|exact Gx].
      assert (HN : In name (map fname bs)) by (apply in_map_iff; exists (name, key, n); split; [reflexivity|exact Hin]).
      unfold block_of. rewrite O3 by (intros Hn; exact (N5 name HN Hn)). change name with (fname (name, key, n)).
      rewrite (G2 (name, key, n) (VArr x) Hin); [reflexivity|]. apply arr_of_ok, Ex. }
    assert (FC : forall name key nf nb comb, In (name, key, nf, nb) cs -> In comb [str "aa"; str "bb"] -> exists x, block_of out name (Some comb) = Some x /\ ugood key (repeat (chr_of "_") nb ++ comb) x (u_eb_driver (u_g c) key nb comb)).
    { intros name key nf nb comb Hin Hc. destruct (@u_coupling_ok _ _ _ _ Hin) as (a & b & Eab & Ga & Gb). 
      unfold block_of. change name with (cname (name, key, nf, nb)). rewrite (G3 (name, key, nf, nb) _ Hin Eab).
      destruct Hc as [<-|[<-|[]]]; [exists a; split; [reflexivity|exact Ga]|exists b; split; [reflexivity|exact Gb]]. }
    split; [split; [exact D3|split]|split; [|split]].
    - assert (HNE : forall n, exists comb, In comb (generate_spin_combinations n false true)).
      { intros n. destruct (spins_nodup n) as [_ H]. destruct (generate_spin_combinations n false true) as [|h ?]; [congruence|]. exists h. left. reflexivity. }
      intros nm H. apply K3 in H. destruct H as [H|H].
      + apply K2 in H. destruct H as [H|H].
        * apply K1 in H. destruct H as [H|H]; [exfalso; apply H; reflexivity|]. apply in_map_iff in H. destruct H as ([[name key] n] & <- & Hin). destruct (HNE n) as (comb & Hc). exists (name, key, Some comb, comb). rewrite app_nil_r. split; [exact (@fin _ _ _ _ Hin Hc)|reflexivity].
        * apply in_map_iff in H. destruct H as ([[name key] n] & <- & Hin). eexists. rewrite app_nil_r. split; [exact (bin _ _ _ Hin)|reflexivity].
      + apply in_map_iff in H. destruct H as ([[[name key] nf] nb] & <- & Hin). eexists. rewrite app_nil_r. split; [exact (@cin _ _ _ _ (str "aa") Hin (or_introl eq_refl))|reflexivity].
    - intros name key stored spins H. rewrite app_nil_r. apply in_app_or in H. destruct H as [H|H]; [|apply in_app_or in H; destruct H as [H|H]].
      + apply in_flat_map in H. destruct H as ([[nm k] n] & Hin & H). apply in_map_iff in H. destruct H as (comb & E & Hc). cbn [fst snd] in E, Hc.
        apply pair_equal_spec in E. destruct E as [E <-]. apply pair_equal_spec in E. destruct E as [E <-]. apply pair_equal_spec in E. destruct E as [<- <-].
        destruct (FF _ _ _ _ Hin Hc) as (x & Ex & Wx & Sx & _). exists x. tauto.
      + apply in_map_iff in H. destruct H as ([[nm k] n] & E & Hin). cbn [fst snd] in E.
        apply pair_equal_spec in E. destruct E as [E <-]. apply pair_equal_spec in E. destruct E as [E <-]. apply pair_equal_spec in E. destruct E as [<- <-].
        destruct (FB _ _ _ Hin) as (x & Ex & Wx & Sx & _). exists x. tauto.
      + apply in_flat_map in H. destruct H as ([[[nm k] nf] nb] & Hin & H). apply in_map_iff in H. destruct H as (comb & E & Hc). cbn [fst snd] in E, Hc.
        apply pair_equal_spec in E. destruct E as [E <-]. apply pair_equal_spec in E. destruct E as [E <-]. apply pair_equal_spec in E. destruct E as [<- <-].
        destruct (FC _ _ _ _ _ Hin Hc) as (x & Ex & Wx & Sx & _). exists x. tauto.
    - intros name key n comb idx Hin Hc Hi. destruct (FF _ _ _ _ Hin Hc) as (x & Ex & _ & _ & Gx). unfold u_block_at. rewrite Ex. apply Gx, Hi.
    - intros name key n idx Hin Hi. destruct (FB _ _ _ Hin) as (x & Ex & _ & _ & Gx). unfold u_block_at. rewrite Ex. apply Gx, Hi.
    - intros name key nf nb comb idx Hin Hc Hi. destruct (FC _ _ _ _ _ Hin Hc) as (x & Ex & _ & _ & Gx). unfold u_block_at. rewrite Ex. apply Gx, Hi.
  Qed.
End UInit.

Lemma u_init_ok (F : fld) (c : ucc F) sz eps fs bs cs : u_init_ready c sz eps fs bs cs ->
  (cs <> [] -> forall k, In k (str "ov") -> sz k (chr_of "a") = sz k (chr_of "b") /\ forall i, eps k (chr_of "a") i = eps k (chr_of "b") i) ->
  exists out, u_init_amps c = Ok out /\ u_first_order c sz eps fs bs cs out.
Proof.
  intros (H1 & H2 & H3 & H4 & H5 & H6 & H7 & H8 & H9 & H10 & H11 & H12) HQ.
  eapply u_init_blocks; try eassumption. intros NE. destruct (H12 NE) as (g & w & Eg & Ew & AG). exists g, w. split; [exact Eg|]. split; [exact Ew|]. split; [exact AG|]. exact (HQ NE).
Qed.
