(** The unrestricted conversions between cluster and coefficient amplitudes. *)
From Coq Require Import String ZArith Lia.
From Verif Require Import Base Alg ArrModel ArrProofs PermModel TensorModel EinsumModel EinPathModel SpaceModel AnsatzModel VecModel ListAux CcModel CcThms CgModel CgSpec CgFormSpec CgNames CgRun CgRelSpec CgLagSpec CgCompare CgCompareProofs CgExpSpec FciModel FciConvModel FciConv1.
Set Implicit Arguments.
Local Open Scope list_scope.
Local Open Scope nat_scope.

Lemma foldM_app {A B} (f : A -> B -> result A) l1 : forall l2 x, foldM f (l1 ++ l2) x = bind (foldM f l1 x) (foldM f l2).
Proof. induction l1 as [|y l1 IH]; intros l2 x; cbn [app foldM]; [reflexivity|]. destruct (f x y); cbn [bind]; [apply IH|reflexivity]. Qed.
Lemma orders_seq m : 1 <= m <= 4 -> converted_orders m = seq 1 m.
Proof. intros [A B]. destruct m as [|[|[|[|[|m]]]]]; try lia; reflexivity. Qed.

(** The blocks of one order. *)
Definition blocks (w : sort) (n : nat) : list (ref * list cls) :=
  map (fun nb => let p := stored n nb in (block_name w n nb, map kind (occupied_of p ++ virtual_of p))) (seq 0 (S n)).
Definition same_xc (a b : ref * list cls) : bool := Pos.eqb (fst a) (fst b) && (if list_eq_dec Nat.eq_dec (snd a) (snd b) then true else false).
Lemma same_xc_ok a b : same_xc a b = true -> a = b.
Proof.
  unfold same_xc. intros H. apply andb_prop in H as [E1 E2]. apply Pos.eqb_eq in E1. destruct (list_eq_dec _ _ _) as [E|]; [|discriminate].
  destruct a, b; cbn in *; congruence.
Qed.
Definition memx (a : ref * list cls) (l : list (ref * list cls)) : bool := existsb (same_xc a) l.
Lemma memx_in a l : memx a l = true -> In a l.
Proof. intros H. apply existsb_exists in H as (b & Hb & E). apply same_xc_ok in E. subst. exact Hb. Qed.

(** What the functions take and return. *)
Definition shape_ok (n : nat) : bool :=
  forallb (fun a => memx a (blocks Coefficient n) && named [order_name n] (fst a) || memx a (flat_map (blocks Cluster) (seq 1 (n - 1))) && negb (named [order_name n] (fst a))) (p_in (u_c_to_t n)) &&
  forallb (fun a => memx a (p_out (u_c_to_t n)) && named [t_name n] (fst a)) (blocks Cluster n) &&
  forallb (fun k => forallb (fun a => negb (named [t_name n] (fst a))) (blocks Cluster k)) (seq 1 (n - 1)) &&
  forallb (fun a => memx a (flat_map (blocks Cluster) (seq 1 n))) (p_in (u_t_to_c n)) &&
  forallb (fun a => memx a (p_out (u_t_to_c n)) && named [order_name n] (fst a)) (blocks Coefficient n) &&
  forallb (fun k => forallb (fun a => negb (named [order_name n] (fst a))) (blocks Coefficient k)) (seq 1 (n - 1)) &&
  check_run (u_c_to_t n) && check_run (u_t_to_c n).
Lemma shapes_ok : forallb shape_ok (seq 1 4) = true.
Proof. vm_compute. reflexivity. Qed.
Lemma shape n : 1 <= n <= 4 -> shape_ok n = true.
Proof. intros H. pose proof shapes_ok as A. rewrite forallb_forall in A. apply A. apply in_seq. lia. Qed.
Lemma in_orders n : 1 <= n <= 4 -> n = 1 \/ n = 2 \/ n = 3 \/ n = 4. Proof. lia. Qed.

Ltac names_tac := intros rs L k x Hk; cbn in L; repeat (destruct rs as [|? rs]; [discriminate|]); destruct rs; [|discriminate];
  repeat (destruct k as [|k]; [cbn in Hk; injection Hk as <-; reflexivity|]); destruct k; discriminate.
Lemma c_to_t_names (F : fld) n : 1 <= n <= 4 -> names_ok F (u_c_to_t n).
Proof. intros H. destruct (in_orders H) as [->|[->|[->| ->]]]; names_tac. Qed.
Lemma t_to_c_names (F : fld) n : 1 <= n <= 4 -> names_ok F (u_t_to_c n).
Proof. intros H. destruct (in_orders H) as [->|[->|[->| ->]]]; names_tac. Qed.
Lemma in_upto w n k xc : In xc (blocks w k) -> 1 <= k <= n -> In xc (flat_map (blocks w) (seq 1 n)).
Proof. intros H Hk. apply in_flat_map. exists k. split; [apply in_seq; lia|exact H]. Qed.
Lemma upto_in w n xc : In xc (flat_map (blocks w) (seq 1 n)) -> exists k, 1 <= k <= n /\ In xc (blocks w k).
Proof. intros H. apply in_flat_map in H as (k & Hk & H). apply in_seq in Hk. exists k. split; [lia|exact H]. Qed.
Lemma c_block n : 1 <= n <= 4 -> exists x cs s, In (x, cs) (blocks Coefficient n) /\ name_of x = Some (order_name n, s).
Proof. intros H. destruct (in_orders H) as [->|[->|[->| ->]]]; eexists _, _, _; (split; [left; reflexivity|reflexivity]). Qed.
Lemma t_block n : 1 <= n <= 4 -> exists x cs s, In (x, cs) (blocks Cluster n) /\ name_of x = Some (t_name n, s).
Proof. intros H. destruct (in_orders H) as [->|[->|[->| ->]]]; eexists _, _, _; (split; [left; reflexivity|reflexivity]). Qed.

Section Conv.
  Variable F : fld.
  Variable method : option nat.
  Variable path : list (list nat) -> list nat -> list (list nat) -> list contraction.
  Variable sz : cls -> nat.
  Variable eB : env F.
  Variable split : cls -> list cls.
  Hypothesis H0 : characteristic_zero F.
  Hypothesis Hsp : splits sz split.
  Hypothesis HP : path_ok path.
  Variable B : list (ref * list cls).
  Variable S : symmetries.
  Hypothesis HS : symmetric sz S B eB.
  Local Notation amps_t := (dict pystr (tval F)).
  Local Notation good := (good sz eB split).

  Section To.
    Variables T Tout : table.
    Hypothesis C : forall n, 1 <= n <= 4 -> computes B S split T (u_c_to_t n) Tout = true.
    Hypothesis HT : forall n xc pat, 1 <= n <= 4 -> In xc (blocks Cluster n) -> In pat (patterns split (snd xc)) -> CgFormSpec.lookup T (fst xc) pat = CgFormSpec.lookup Tout (fst xc) pat.
    Variable camps : amps_t.
    Lemma u_loop m : m <= 4 -> (forall n xc, 1 <= n <= m -> In xc (blocks Coefficient n) -> good T camps xc) ->
      exists amps, foldM (fun amps n => bind (passing F camps [order_name n] amps) (fun d => bind (call F method path sz (u_c_to_t n) d) (fun r => take_from F r [t_name n] amps))) (seq 1 m) [] = Ok amps /\
        forall n xc, 1 <= n <= m -> In xc (blocks Cluster n) -> good Tout amps xc.
    Proof.
      induction m as [|m IH]; intros Hm HC; [exists []; split; [reflexivity|intros; lia]|].
      destruct IH as (amps & E & G); [lia|intros n xc Hn; apply HC; lia|].
      rewrite seq_S, foldM_app, E. cbn [bind foldM Nat.add].
      assert (Hn : 1 <= Datatypes.S m <= 4) by lia. pose proof (shape Hn) as SH. unfold shape_ok in SH. rewrite !Bool.andb_true_iff in SH.
      destruct SH as (((((((S1 & S2) & S3) & _) & _) & _) & S7) & _). rewrite forallb_forall in S1, S2, S3.
      destruct (@convert_step F method path sz eB split H0 Hsp HP B S T (u_c_to_t (Datatypes.S m)) Tout [order_name (Datatypes.S m)] [t_name (Datatypes.S m)] camps amps
                  (C Hn) S7 (c_to_t_names F Hn) HS) as (d & r & amps' & E1 & E2 & E3 & K & G').
      - intros n [<-|[]]. destruct (c_block Hn) as (x & cs & s & Hx & Ex). apply (@good_dget F sz eB split T camps x cs _ s); [apply (HC (Datatypes.S m)); [lia|exact Hx]|exact Ex].
      - intros xc Hx. specialize (S1 xc Hx). apply Bool.orb_true_iff in S1. rewrite !Bool.andb_true_iff, Bool.negb_true_iff in S1. destruct S1 as [[I N]|[I N]]; rewrite N.
        + apply (HC (Datatypes.S m)); [lia|apply memx_in, I].
        + apply memx_in, upto_in in I as (k & Hk & I). eapply good_args; [reflexivity| |apply (G k); [lia|exact I]].
          intros pat Hp. apply (@HT k); [lia|exact I|exact Hp].
      - intros n [<-|[]]. destruct (t_block Hn) as (x & cs & s & Hx & Ex). exists x, cs, s. split; [|exact Ex]. specialize (S2 _ Hx). apply andb_prop in S2 as [S2 _]. apply memx_in, S2.
      - rewrite E1. cbn [bind]. rewrite E2. cbn [bind]. rewrite E3. exists amps'. split; [reflexivity|]. intros n xc Hn' Hx.
        destruct (Nat.eq_dec n (Datatypes.S m)) as [->|N].
        + specialize (S2 _ Hx). apply andb_prop in S2 as [S2 S2']. apply G'; [apply memx_in, S2|exact S2'].
        + eapply good_args; [|reflexivity|apply (G n); [lia|exact Hx]]. apply K. specialize (S3 n). rewrite forallb_forall in S3.
          apply Bool.negb_true_iff, S3; [apply in_seq; lia|exact Hx].
    Qed.
  End To.

  Section From.
    Variables T Tout : table.
    Hypothesis C : forall n, 1 <= n <= 4 -> computes B S split T (u_t_to_c n) Tout = true.
    Variable amps : amps_t.
    Lemma u_from m : 1 <= m <= 4 -> (forall n xc, 1 <= n <= m -> In xc (blocks Cluster n) -> good T amps xc) ->
      exists camps, u_amplitudes_to_coefficients F method path sz amps m = Ok camps /\
        forall n xc, 1 <= n <= m -> In xc (blocks Coefficient n) -> good Tout camps xc.
    Proof.
      intros Hm. unfold u_amplitudes_to_coefficients. rewrite (orders_seq Hm). destruct Hm as [_ Hm]. revert Hm.
      induction m as [|m IH]; intros Hm HA; [exists []; split; [reflexivity|intros; lia]|].
      destruct IH as (camps & E & G); [lia|intros n xc Hn; apply HA; lia|].
      rewrite seq_S, foldM_app, E. cbn [bind foldM Nat.add].
      assert (Hn : 1 <= Datatypes.S m <= 4) by lia. pose proof (shape Hn) as SH. unfold shape_ok in SH. rewrite !Bool.andb_true_iff in SH.
      destruct SH as (((((((_ & _) & _) & S4) & S5) & S6) & _) & S8). rewrite forallb_forall in S4, S5, S6.
      destruct (@call_ok F method path sz eB split H0 Hsp HP B S T (u_t_to_c (Datatypes.S m)) Tout amps (C Hn) S8 (t_to_c_names F Hn) HS) as (r & Er & Gr).
      { intros xc Hx. specialize (S4 xc Hx). apply memx_in, upto_in in S4 as (k & Hk & I). apply (HA k); [lia|exact I]. }
      rewrite Er. cbn [bind].
      destruct (@passing_ok F r [order_name (Datatypes.S m)] camps) as (camps' & Ea & _ & Aa).
      { intros n [<-|[]]. destruct (c_block Hn) as (x & cs & s & Hx & Ex). apply (@good_dget F sz eB split Tout r x cs _ s); [|exact Ex]. apply Gr.
        specialize (S5 _ Hx). apply andb_prop in S5 as [S5 _]. apply memx_in, S5. }
      unfold take_from. unfold passing in Ea. rewrite Ea. cbn [bind]. exists camps'. split; [reflexivity|]. intros n xc Hn' Hx. destruct (Nat.eq_dec n (Datatypes.S m)) as [->|N].
      - specialize (S5 _ Hx). apply andb_prop in S5 as [S5 S5']. eapply good_args; [|reflexivity|apply (Gr xc), memx_in, S5]. rewrite Aa, S5'. reflexivity.
      - eapply good_args; [|reflexivity|apply (G n); [lia|exact Hx]]. rewrite Aa. specialize (S6 n). rewrite forallb_forall in S6.
        replace (named [order_name (Datatypes.S m)] (fst xc)) with false; [reflexivity|]. symmetry. apply Bool.negb_true_iff, S6; [apply in_seq; lia|exact Hx].
    Qed.
  End From.
End Conv.

(** The division of every block. *)
Definition block {F : fld} (d : dict pystr (tval F)) (nm s : pystr) : option (arr F) :=
  match dget pystr_eq_dec nm d with Some (VSpin e) => dget pystr_eq_dec s e | _ => None end.
Definition spins_factor (n : nat) (s : pystr) : nat := factorial (count (firstn n s) (chr_of "a")) * factorial (count (firstn n s) (chr_of "b")).
Definition str_pair_dec : forall a b : pystr * pystr, {a = b} + {a <> b}.
Proof. decide equality; apply pystr_eq_dec. Defined.
Fixpoint nodup_pairs (l : list (pystr * pystr)) : bool := match l with [] => true | x :: l' => (if in_dec str_pair_dec x l' then false else true) && nodup_pairs l' end.
Lemma nodup_pairs_ok l : nodup_pairs l = true -> NoDup l.
Proof.
  induction l as [|x l IH]; cbn [nodup_pairs]; intros H; [constructor|]. apply andb_prop in H as [A B]. destruct (in_dec _ _ _) as [|N]; [discriminate|]. constructor; auto.
Qed.
Section Scale.
  Variable F : fld.
  Local Notation amps_t := (dict pystr (tval F)).
  Lemma scale_block_ok n (d : amps_t) s x : block d (t_name n) s = Some x ->
    exists d', scale_block F n d s = Ok d' /\ forall nm s', block d' nm s' =
      if pystr_eq_dec nm (t_name n) then if pystr_eq_dec s' s then Some (divide F x (spins_factor n s)) else block d nm s' else block d nm s'.
  Proof.
    unfold block at 1. intros H. unfold scale_block. unfold CcModel.lookup at 1. destruct (dget pystr_eq_dec (t_name n) d) as [[y|e]|] eqn:E; try discriminate.
    cbn [bind as_spin]. unfold CcModel.lookup. rewrite H. cbn [bind]. eexists. split; [reflexivity|]. intros nm s'. unfold block. rewrite dget_dset.
    destruct (pystr_eq_dec nm (t_name n)) as [->|]; [|reflexivity]. rewrite dget_dset. rewrite E. reflexivity.
  Qed.
  Definition pairs (m : nat) : list (nat * pystr) := flat_map (fun n => map (pair n) (generate_spin_combinations n false true)) (seq 1 m).
  Lemma scale_flat l : forall d : amps_t, foldM (fun amps n => foldM (scale_block F n) (generate_spin_combinations n false true) amps) l d =
    foldM (fun amps p => scale_block F (fst p) amps (snd p)) (flat_map (fun n => map (pair n) (generate_spin_combinations n false true)) l) d.
  Proof.
    induction l as [|n l IH]; intros d; [reflexivity|]. cbn [foldM flat_map]. rewrite foldM_app.
    assert (E : forall ss e, foldM (fun amps p => scale_block F (fst p) amps (snd p)) (map (pair n) ss) e = foldM (scale_block F n) ss e).
    { induction ss as [|s ss IHs]; intros e; [reflexivity|]. cbn [map foldM fst snd]. destruct (scale_block F n e s); cbn [bind]; [apply IHs|reflexivity]. }
    rewrite E. destruct (foldM _ (generate_spin_combinations n false true) d); cbn [bind]; [apply IH|reflexivity].
  Qed.
  Lemma scale_list l : NoDup (map (fun p => (t_name (fst p), snd p)) l) -> forall d : amps_t, (forall p, In p l -> block d (t_name (fst p)) (snd p) <> None) ->
    exists d', foldM (fun amps p => scale_block F (fst p) amps (snd p)) l d = Ok d' /\
      (forall p x, In p l -> block d (t_name (fst p)) (snd p) = Some x -> block d' (t_name (fst p)) (snd p) = Some (divide F x (spins_factor (fst p) (snd p)))) /\
      forall nm s, ~ In (nm, s) (map (fun p => (t_name (fst p), snd p)) l) -> block d' nm s = block d nm s.
  Proof.
    induction l as [|p l IH]; intros Hn d Hd; [exists d; split; [reflexivity|split; [intros ? ? []|reflexivity]]|].
    cbn [map] in Hn. inversion Hn as [|? ? N1 N2]; subst. destruct (block d (t_name (fst p)) (snd p)) as [x|] eqn:Ex; [|destruct (Hd p); [left; reflexivity|exact Ex]].
    destruct (scale_block_ok _ _ _ Ex) as (d1 & E1 & G1).
    assert (Same : forall nm s, (nm, s) <> (t_name (fst p), snd p) -> block d1 nm s = block d nm s).
    { intros nm s N. rewrite G1. destruct (pystr_eq_dec nm _) as [->|]; [|reflexivity]. destruct (pystr_eq_dec s _) as [->|]; [congruence|reflexivity]. }
    assert (Ne : forall q, In q l -> (t_name (fst q), snd q) <> (t_name (fst p), snd p)).
    { intros q Hq E. apply N1. rewrite <- E. apply in_map_iff. exists q. split; [reflexivity|exact Hq]. }
    destruct (IH N2 d1) as (d2 & E2 & G2 & K2).
    { intros q Hq. rewrite (Same _ _ (Ne q Hq)). apply Hd. right. exact Hq. }
    exists d2. cbn [foldM]. rewrite E1. cbn [bind]. split; [exact E2|]. split.
    - intros q y [<-|Hq] Ey.
      + rewrite K2 by exact N1. rewrite G1. destruct (pystr_eq_dec _ _) as [_|]; [|congruence]. destruct (pystr_eq_dec _ _) as [_|]; [|congruence]. congruence.
      + apply G2; [exact Hq|]. rewrite (Same _ _ (Ne q Hq)). exact Ey.
    - intros nm s N. rewrite K2 by (intros I; apply N; right; exact I). apply Same. intros E. apply N. left. symmetry. exact E.
  Qed.
  Lemma pairs_nodup m : m <= 4 -> NoDup (map (fun p => (t_name (fst p), snd p)) (pairs m)).
  Proof.
    intros H. assert (G : forallb (fun m => nodup_pairs (map (fun p => (t_name (fst p), snd p)) (pairs m))) (seq 0 5) = true) by (vm_compute; reflexivity).
    rewrite forallb_forall in G. apply nodup_pairs_ok, G, in_seq. lia.
  Qed.
End Scale.
