(** Restricted amplitudes as unrestricted ones. *)
From Coq Require Import String ZArith Lia Field.
From Verif Require Import Base Alg ArrModel ArrProofs PermModel PermSpec TensorModel TensorSpec SymmProofs EinsumModel EinsumProofs EinPathModel SpaceModel SpaceSpec AnsatzModel VecModel VecSpec GroupProofs ListAux CcModel CcThms CgModel CgSpec CgFormSpec CgNames CgRun CgRelSpec CgLagSpec CgPairs CgCompare CgCompareProofs CgPolyProofs CgChain CgDens CgEomThms CgExpSpec CgExp FciModel FciSpec FciProofs FciThms FciAgree FciConvModel FciConvSpec FciConv1 FciConv2 FciConv3 FciConvSwap FciConv4 FciConv5 FciConvR.
Set Implicit Arguments.
Local Open Scope list_scope.
Local Open Scope nat_scope.
Local Open Scope py_scope.

Section R.
  Variable F : fld.
  Variable method : option nat.
  Variable path : list (list nat) -> list nat -> list (list nat) -> list contraction.
  Variable sz : cls -> nat.
  Hypothesis H0 : characteristic_zero F.
  Hypothesis HP : path_ok path.
  Variable eB : env F.
  Hypothesis HS : symmetric sz symmetry_r tensors_r eB.
  Local Open Scope rng_scope.
  Add Field FfieldFciConv6 : (fth F).
  Local Notation amps_t := (dict pystr (tval F)).

  Definition is_value (T : table) (x : ref) (ks : list cls) (a : arr F) : Prop :=
    of_kinds F sz ks a /\ forall idx, inb (map sz ks) idx -> aget 0 a idx = value sz eB (fst (CgFormSpec.lookup T x ks)) (snd (CgFormSpec.lookup T x ks)) idx.
  Definition single (x : ref) (a : arr F) : env F := fun y => if Pos.eqb y x then Some a else None.
  Lemma single_at x a : single x a x = Some a. Proof. unfold single. rewrite Pos.eqb_refl. reflexivity. Qed.
  Lemma run_value T Tout p x ks y ks' a : check_run p = true -> computes tensors_r symmetry_r id_split T p Tout = true -> p_in p = [(x, ks)] -> p_out p = [(y, ks')] -> is_value T x ks a ->
    exists r, run method path sz p (single x a) = Ok [r] /\ is_value Tout y ks' r.
  Proof.
    intros R C Ei Eo [K V].
    assert (A : args_ok sz (p_in p) (single x a)).
    { rewrite Ei. intros z cs [E|[]]. apply pair_equal_spec in E as [<- <-]. exists a. split; [apply single_at|exact K]. }
    destruct (@computes_sound _ _ _ _ _ _ C F sz H0 (splits_id sz) method path HP eB (single x a) HS A) as (r & Er & G).
    { rewrite Ei. intros z cs [E|[]] pat js Hp Hj. apply pair_equal_spec in E as [<- <-]. rewrite patterns_id in Hp. destruct Hp as [<-|[]]. rewrite single_at. cbn [tens].
      rewrite places_id by (apply inb_length in Hj; rewrite map_length in Hj; exact Hj). apply V, Hj. }
    destruct (@check_run_sound F method path sz p R (single x a) HP A) as (e' & vs & _ & Ev & KF & _). assert (vs = r) by congruence. subst vs. rewrite Eo in *.
    inversion KF as [|? v ? vs K1 K2]; subst. inversion K2; subst. exists v. split; [exact Er|]. split; [exact K1|].
    intros idx Hi. specialize (G 0%nat y ks' eq_refl ks' idx). rewrite patterns_id in G. specialize (G (or_introl eq_refl) Hi). rewrite places_id in G by (apply inb_length in Hi; rewrite map_length in Hi; exact Hi). exact G.
  Qed.

  Definition term_step (b : arr F) (acc : arr F) (ps : list nat * Z) : result (arr F) := t <- transpose 0 b (fst ps) ;; arr_addM F acc (arr_scale F (sgn F (snd ps)) t).
  Lemma coef_one s : coef F s 1 = sgn F s.
  Proof. unfold coef, sgn. change (rZ (Zpos 1) : F) with (rnat 1 : F). cbn [rnat]. field. intros E. apply (H0 0%nat). cbn [rnat]. etransitivity; [|exact E]. change (1 + 0 = 1 :> F). ring. Qed.
  Lemma sym_exec b l : forall (e : env F) acc e', e n_c1 = Some b -> e n_c2 = Some acc ->
    exec method path sz e (map (fun ps => AddTo n_c2 (Times (Transpose n_c1 (fst ps)) (snd ps) 1)) l) = Ok e' -> exists acc', foldM (term_step b) l acc = Ok acc' /\ e' n_c2 = Some acc'.
  Proof.
    induction l as [|ps l IH]; intros e acc e' E1 E2 E; cbn [map exec foldM] in *; [injection E as <-; exists acc; split; [reflexivity|exact E2]|].
    cbn [exec1] in E. unfold fetch at 1 in E. rewrite E2 in E. cbn [bind eval_expr eval_rhs] in E. unfold fetch at 1 in E. rewrite E1 in E. cbn [bind] in E. unfold term_step at 1.
    destruct (transpose 0 b (fst ps)) as [t|]; [|discriminate]. cbn [bind] in *. rewrite coef_one in E. destruct (arr_addM F acc _) as [c|]; [|discriminate]. cbn [bind] in *.
    apply (IH (bindv e n_c2 (Some c))); [unfold bindv; exact E1|unfold bindv; rewrite Pos.eqb_refl; reflexivity|exact E].
  Qed.
  Lemma symmetrise_terms sub (a : arr F) : terms_ok sub = true -> symmetrise F None (str sub) a None = foldM (term_step a) (terms sub) (full (shp a) 0).
  Proof.
    unfold symmetrise, terms_ok, terms. destruct (rename (str sub)) as [s|]; [|discriminate]. cbn [bind]. destruct (symmetry_compress _ _ 0) as [c|]; [|discriminate]. cbn [bind].
    set (inds := map _ (combine _ c)). generalize (product (map (@permutations_with_signs nat) inds)). intros l H.
    match goal with |- bind ?x _ = _ => enough (E : x = foldM (term_step a) (map (fun tup => (assemble_perm (length s) inds (map fst tup), fold_right Z.mul 1%Z (map snd tup))) l) (full (shp a) 0)) by (rewrite E; match goal with |- bind ?y _ = _ => destruct y; reflexivity end) end.
    revert H. generalize (full (shp a) (0 : F)). induction l as [|t l IH]; intros acc H; [reflexivity|]. cbn [map forallb] in H. apply andb_prop in H as [H1 H2]. cbn [map foldM]. cbn [fst] in H1.
    unfold symmetrise_term at 1. unfold term_step at 1. cbn [fst snd]. destruct (assemble_perm (length s) inds (map fst t)) as [|p0 ps]; [discriminate|]. apply Nat.ltb_lt in H1.
    rewrite (nth_error_nth' _ ch_minus) by (rewrite repeat_length; exact H1). rewrite nth_repeat, Nat.eqb_refl.
    destruct (transpose 0 a (p0 :: ps)); cbn [bind]; [|reflexivity]. destruct (arr_addM F acc _); cbn [bind]; [apply IH, H2|reflexivity].
  Qed.
  Lemma divide_scale x d : (0 < d)%nat -> divide F x d = arr_scale F (coef F 1 (Pos.of_nat d)) x.
  Proof. intros Hd. destruct d as [|d]; [lia|]. unfold divide, map_arr, arr_scale. f_equal. apply map_ext. intros z. rewrite (divide_coef H0). ring. Qed.
  Lemma sym_value x n nb pre sub d a b : sym_check x n nb pre sub d = true -> is_value table_r x (spatial n) a ->
    eval_rhs method path sz (single x a) pre = Ok b -> shp b = map sz (spatial n) ->
    exists y, symmetrised F sub b d = Ok y /\ is_value closed_stored (block_name Cluster n nb) (spatial n) y.
  Proof.
    intros C V Eb Sb. unfold sym_check in C. rewrite !Bool.andb_true_iff in C. destruct C as (((C1 & C2) & C3) & C4). apply Nat.ltb_lt in C2.
    destruct (@run_value _ _ _ x (spatial n) (block_name Cluster n nb) (spatial n) a C3 C4 eq_refl eq_refl V) as (r & R & Vr). exists r. split; [|exact Vr]. clear Vr C3 C4.
    unfold run in R. cbn [sym_prog p_body p_out] in R. rewrite exec_app in R. cbn [exec exec1 eval_expr] in R. rewrite Eb in R. cbn [bind eval_rhs] in R. rewrite exec_app in R.
    set (e := bindv _ n_c2 _) in R. destruct (exec method path sz e _) as [e'|] eqn:E; [|discriminate]. cbn [bind] in R.
    destruct (@sym_exec b (terms sub) e (full (map sz (spatial n)) 0) e') as (acc & Ea & Ee); [reflexivity|reflexivity|exact E|].
    cbn [exec exec1 eval_expr eval_rhs] in R. unfold fetch in R at 1. rewrite Ee in R. cbn [bind mapM fst] in R. unfold fetch, bindv in R. rewrite Pos.eqb_refl in R. cbn [bind] in R. injection R as <-.
    unfold symmetrised. rewrite (symmetrise_terms sub b C1), Sb, Ea. cbn [bind]. rewrite divide_scale by exact C2. reflexivity.
  Qed.
  Lemma move_value T Tout x y n pre a b : move_check T x y n pre Tout = true -> is_value T x (spatial n) a ->
    eval_rhs method path sz (single x a) pre = Ok b -> is_value Tout y (spatial n) b.
  Proof.
    intros C V Eb. unfold move_check in C. apply andb_prop in C as [C1 C2]. destruct (@run_value _ _ _ x (spatial n) y (spatial n) a C1 C2 eq_refl eq_refl V) as (r & R & Vr).
    unfold run in R. cbn [move_prog p_body p_out exec exec1 eval_expr] in R. rewrite Eb in R. cbn [bind mapM fst] in R. unfold fetch, bindv in R. rewrite Pos.eqb_refl in R. cbn [bind] in R. injection R as <-. exact Vr.
  Qed.

  Lemma eval_copy x a : eval_rhs method path sz (single x a) (Copy x) = Ok a.
  Proof. cbn [eval_rhs]. unfold fetch. rewrite single_at. reflexivity. Qed.
  Lemma eval_transpose x a axes b : transpose 0 a axes = Ok b -> eval_rhs method path sz (single x a) (Transpose x axes) = Ok b.
  Proof. intros E. cbn [eval_rhs]. unfold fetch. rewrite single_at. exact E. Qed.
  Lemma moved (a : arr F) axes : shp a = map sz (spatial 4) -> is_perm 8 axes = true -> map (fun k => nth k (map sz (spatial 4)) 0%nat) axes = map sz (spatial 4) ->
    exists b, transpose 0 a axes = Ok b /\ shp b = map sz (spatial 4).
  Proof.
    intros S P E. assert (P' : Permutation.Permutation (seq 0 (length (shp a))) axes) by (apply is_perm_iff; rewrite S; exact P). rewrite (transpose_ok 0 a P'). eexists. split; [reflexivity|]. cbn [tab shp]. rewrite S. exact E.
  Qed.

  Section Amps.
    Variable m : nat.
    Hypothesis Hm : (1 <= m <= 4)%nat.
    Variable amps : amps_t.
    Hypothesis HA : closed_shell_amplitudes sz eB m amps.
    Lemma amp_value name p x : In (name, p) (restricted_names m) ->
      CgFormSpec.lookup table_r x (spatial (length p)) = (map spatial_label (occupied_of p ++ virtual_of p), in_spatial Cluster (occupied_of p) (virtual_of p)) ->
      exists a, dget pystr_eq_dec (str name) amps = Some (VArr a) /\ array_of F amps name = Ok a /\ is_value table_r x (spatial (length p)) a.
    Proof.
      intros I E. destruct (HA _ _ I) as (a & Ea & Ka & Va). exists a. split; [exact Ea|]. split; [unfold array_of, CcModel.lookup; rewrite Ea; reflexivity|]. split; [exact Ka|].
      rewrite E. intros idx Hi. apply Va. destruct Ka as [_ ->]. exact Hi.
    Qed.
    Lemma r_name name p : In (name, p) (restricted_names 4) -> (length p <= m)%nat -> In (name, p) (restricted_names m).
    Proof. unfold restricted_names. intros I L. apply filter_In in I as [I _]. apply filter_In. split; [exact I|]. apply Nat.leb_le. exact L. Qed.
    Lemma spin_blocks n : (1 <= n <= m)%nat -> exists d, r_spin_blocks F n amps = Ok (VSpin d) /\
      forall nb, (nb <= n)%nat -> exists y, dget pystr_eq_dec (comb n nb) d = Some y /\ is_value closed_stored (block_name Cluster n nb) (spatial n) y.
    Proof.
      intros Hn. pose proof to_blocks as P.
      destruct P as (M10 & M11 & S20 & M21 & S22 & S30 & S31 & S32 & S33 & S40 & S41 & S42 & S43 & S44).
      assert (X : n = 1%nat \/ n = 2%nat \/ n = 3%nat \/ n = 4%nat) by lia. destruct X as [->|[->|[->| ->]]]; cbn [r_spin_blocks].
      - destruct (@amp_value "t1" [false] n_t1) as (a & _ & Ea & Va); [apply r_name; [cbn; tauto|cbn; lia]|reflexivity|].
        unfold r_spin_singles. rewrite Ea. cbn [bind]. eexists. split; [reflexivity|]. intros nb Hb. destruct nb as [|[|nb]]; [| |lia]; (eexists; split; [reflexivity|]).
        + apply (@move_value _ _ _ _ _ _ _ _ M10 Va (eval_copy n_t1 a)).
        + apply (@move_value _ _ _ _ _ _ _ _ M11 Va (eval_copy n_t1 a)).
      - destruct (@amp_value "t2" [false; true] n_t2) as (a & _ & Ea & Va); [apply r_name; [cbn; tauto|cbn; lia]|reflexivity|].
        unfold r_spin_doubles. rewrite Ea. cbn [bind]. destruct (@sym_value _ _ _ _ _ _ _ _ S20 Va (eval_copy n_t2 a) (proj2 (proj1 Va))) as (y & Ey & Vy). destruct (@sym_value _ _ _ _ _ _ _ _ S22 Va (eval_copy n_t2 a) (proj2 (proj1 Va))) as (y' & Ey' & Vy').
        rewrite Ey in *. injection Ey' as <-. cbn [bind]. eexists. split; [reflexivity|]. intros nb Hb. destruct nb as [|[|[|nb]]]; [| | |lia]; (eexists; split; [reflexivity|]); [exact Vy| |exact Vy'].
        apply (@move_value _ _ _ _ _ _ _ _ M21 Va (eval_copy n_t2 a)).
      - destruct (@amp_value "t3" [false; true; false] n_t3) as (a & _ & Ea & Va); [apply r_name; [cbn; tauto|cbn; lia]|reflexivity|].
        unfold r_spin_triples. rewrite Ea. cbn [bind]. pose proof (eval_copy n_t3 a) as Ec. pose proof (proj2 (proj1 Va)) as Sa.
        destruct (@sym_value _ _ _ _ _ _ _ _ S30 Va Ec Sa) as (y & Ey & Vy). destruct (@sym_value _ _ _ _ _ _ _ _ S33 Va Ec Sa) as (y' & Ey' & Vy'). rewrite Ey in *. injection Ey' as <-. cbn [bind].
        destruct (@sym_value _ _ _ _ _ _ _ _ S31 Va Ec Sa) as (z & Ez & Vz). destruct (@sym_value _ _ _ _ _ _ _ _ S32 Va Ec Sa) as (z' & Ez' & Vz'). rewrite Ez in *. injection Ez' as <-. cbn [bind].
        eexists. split; [reflexivity|]. intros nb Hb. destruct nb as [|[|[|[|nb]]]]; [| | | |lia]; (eexists; split; [reflexivity|]); assumption.
      - destruct (@amp_value "t4" [false; true; false; true] n_t4) as (a & _ & Ea & Va); [apply r_name; [cbn; tauto|cbn; lia]|reflexivity|].
        destruct (@amp_value "t4a" [false; true; false; false] n_t4a) as (c & _ & Ec & Vc); [apply r_name; [cbn; tauto|cbn; lia]|reflexivity|].
        unfold r_spin_quadruples. rewrite Ea, Ec. cbn [bind]. pose proof (eval_copy n_t4 a) as Eca. pose proof (proj2 (proj1 Va)) as Sa. pose proof (proj2 (proj1 Vc)) as Sc.
        destruct (@sym_value _ _ _ _ _ _ _ _ S40 Va Eca Sa) as (y & Ey & Vy). destruct (@sym_value _ _ _ _ _ _ _ _ S44 Va Eca Sa) as (y' & Ey' & Vy'). rewrite Ey in *. injection Ey' as <-. cbn [bind].
        destruct (@moved c axes_aaab Sc eq_refl eq_refl) as (b1 & Eb1 & Sb1). destruct (@moved c axes_baaa Sc eq_refl eq_refl) as (b3 & Eb3 & Sb3).
        change [0; 2; 3; 1; 4; 6; 7; 5]%nat with axes_aaab. change [1; 0; 2; 3; 5; 4; 6; 7]%nat with axes_baaa. rewrite Eb1. cbn [bind].
        destruct (@sym_value _ _ _ _ _ _ _ _ S41 Vc (eval_transpose _ _ _ Eb1) Sb1) as (z1 & Ez1 & Vz1). rewrite Ez1. cbn [bind]. rewrite Eb3. cbn [bind].
        destruct (@sym_value _ _ _ _ _ _ _ _ S43 Vc (eval_transpose _ _ _ Eb3) Sb3) as (z3 & Ez3 & Vz3). rewrite Ez3. cbn [bind].
        destruct (@sym_value _ _ _ _ _ _ _ _ S42 Va Eca Sa) as (z2 & Ez2 & Vz2). rewrite Ez2. cbn [bind].
        eexists. split; [reflexivity|]. intros nb Hb. destruct nb as [|[|[|[|[|nb]]]]]; [| | | | |lia]; (eexists; split; [reflexivity|]); assumption.
    Qed.
    Lemma r_to_u_ok : exists u, r_to_u F amps m = Ok u /\ forall n nb, (1 <= n <= m)%nat -> (nb <= n)%nat ->
      exists y, block u (t_name n) (comb n nb) = Some y /\ is_value closed_stored (block_name Cluster n nb) (spatial n) y.
    Proof.
      unfold r_to_u. rewrite (orders_seq Hm).
      assert (G : forall k, (k <= m)%nat -> exists u, foldM (fun d n => v <- r_spin_blocks F n amps ;; Ok (dset pystr_eq_dec (t_name n) v d)) (seq 1 k) [] = Ok u /\ forall n nb, (1 <= n <= k)%nat -> (nb <= n)%nat ->
        exists y, block u (t_name n) (comb n nb) = Some y /\ is_value closed_stored (block_name Cluster n nb) (spatial n) y); [|apply G; lia].
      induction k as [|k IH]; intros Hk; [exists []; split; [reflexivity|intros; lia]|]. destruct IH as (u & E & G); [lia|]. rewrite seq_S, foldM_app, E. cbn [bind foldM Nat.add].
      destruct (@spin_blocks (S k)) as (d & Ed & Gd); [lia|]. rewrite Ed. cbn [bind]. eexists. split; [reflexivity|]. intros n nb Hn Hb. unfold block. rewrite dget_dset.
      destruct (pystr_eq_dec (t_name n) (t_name (S k))) as [En|Nn].
      - assert (n = S k) as ->; [|apply Gd, Hb]. assert (A : (n = 1 \/ n = 2 \/ n = 3 \/ n = 4)%nat /\ (k = 0 \/ k = 1 \/ k = 2 \/ k = 3)%nat) by lia.
        destruct A as [[->|[->|[->| ->]]] [->|[->|[->| ->]]]]; first [reflexivity|discriminate En].
      - apply (G n nb); [|exact Hb]. assert (n <> S k) by congruence. lia.
    Qed.
  End Amps.

  Lemma closed_patterns n nb : (1 <= n <= 4)%nat -> (nb <= n)%nat -> patterns closed_split (kinds n nb) = [spatial n].
  Proof. intros Hn Hb. all_blocks n nb Hn Hb; reflexivity. Qed.
  Lemma closed_places n nb idx : (1 <= n <= 4)%nat -> (nb <= n)%nat -> length idx = (2 * n)%nat -> places sz closed_split (kinds n nb) (spatial n) idx = idx.
  Proof. intros Hn Hb L. all_blocks n nb Hn Hb; cbn in L; repeat (destruct idx as [|? idx]; [discriminate|]); (destruct idx; [reflexivity|discriminate]). Qed.
  Lemma spatial_length n : length (spatial n) = (2 * n)%nat.
  Proof. unfold spatial. rewrite app_length, !repeat_length. lia. Qed.

  Variable sp : space.
  Hypothesis HZ : closed_sizes sp sz.
  Lemma closed_kinds n nb : (1 <= n <= 4)%nat -> (nb <= n)%nat -> map sz (kinds n nb) = map sz (spatial n).
  Proof.
    destruct HZ as ((Z4 & Z5 & Z6 & Z7) & Z0 & Z1 & _). intros Hn Hb. all_blocks n nb Hn Hb; cbn; rewrite ?Z4, ?Z5, ?Z6, ?Z7, ?Z0, ?Z1; reflexivity.
  Qed.
  Lemma good_closed T d w n nb y : (1 <= n <= 4)%nat -> (nb <= n)%nat -> block d (prefix w n) (comb n nb) = Some y -> is_value T (block_name w n nb) (spatial n) y ->
    good sz eB closed_split T d (block_name w n nb, kinds n nb).
  Proof.
    intros Hn Hb Ey [[W S] V]. exists y. cbn [fst snd]. rewrite arguments_block by assumption. split; [exact Ey|]. split; [split; [exact W|rewrite closed_kinds by assumption; exact S]|].
    intros pat idx Hp Hi. rewrite closed_patterns in Hp by assumption. destruct Hp as [<-|[]]. rewrite closed_places; [apply V, Hi|assumption|assumption|].
    apply inb_length in Hi. rewrite map_length, spatial_length in Hi. exact Hi.
  Qed.
  Lemma closed_good T d w n nb : (1 <= n <= 4)%nat -> (nb <= n)%nat -> good sz eB closed_split T d (block_name w n nb, kinds n nb) ->
    exists y, block d (prefix w n) (comb n nb) = Some y /\ is_value T (block_name w n nb) (spatial n) y.
  Proof.
    intros Hn Hb (y & Ey & [W S] & V). cbn [fst snd] in *. rewrite arguments_block in Ey by assumption. exists y. split; [exact Ey|]. split; [split; [exact W|rewrite <- (@closed_kinds n nb) by assumption; exact S]|].
    intros idx Hi. rewrite <- (V (spatial n) idx); [|rewrite closed_patterns by assumption; left; reflexivity|exact Hi]. rewrite closed_places; [reflexivity|assumption|assumption|].
    apply inb_length in Hi. rewrite map_length, spatial_length in Hi. exact Hi.
  Qed.
  Lemma u_cluster m u : (m <= 4)%nat -> (forall n nb, (1 <= n <= m)%nat -> (nb <= n)%nat -> exists y, block u (t_name n) (comb n nb) = Some y /\ is_value closed_stored (block_name Cluster n nb) (spatial n) y) ->
    cluster_amplitudes sp sp m u.
  Proof.
    intros Hm G n c H1 H2 Hc. assert (Hn : (1 <= n <= 4)%nat) by lia. apply in_comb in Hc as (nb & Hb & ->); [|exact Hn]. destruct (G n nb) as (y & Ey & [K V]); [lia|exact Hb|]. exists y.
    split; [exact Ey|]. split; [exact (proj1 K)|]. split; [apply (block_sized _ (proj1 HZ)); [exact Hn|exact Hb|]; rewrite closed_kinds by assumption; exact (proj2 K)|].
    destruct (@swap_of _ _ _ _ _ n nb closed_swaps Hn Hb) as [L SW].
    apply (@by_swaps F method path sz H0 HP tensors_r symmetry_r closed_stored eB (block_name Cluster n nb) (spatial n) n nb y Hn Hb HS K V L SW).
  Qed.
End R.
