(** Restricted amplitudes to CI vectors and back. *)
From Coq Require Import String ZArith Lia Field.
From Verif Require Import KernelProofs DampProofs VecThms CcInit EomDiag ExtModel Base Alg ArrModel ArrProofs PermModel PermSpec TensorModel TensorSpec SymmProofs EinsumModel EinsumProofs EinPathModel SpaceModel SpaceSpec AnsatzModel VecModel VecSpec GroupProofs ListAux CcModel CcThms CgModel CgSpec CgFormSpec CgNames CgRun CgRelSpec CgLagSpec CgPairs CgCompare CgCompareProofs CgPolyProofs CgChain CgDens CgEomThms CgExpSpec CgExp FciModel FciSpec FciProofs FciThms FciAgree FciConvModel FciConvSpec FciConv1 FciConv2 FciConv3 FciConvSwap FciConv4 FciConv5 FciConvR FciConv6.
Set Implicit Arguments.
Local Open Scope list_scope.
Local Open Scope nat_scope.
Local Open Scope py_scope.

(** Reading the vector. *)
Section Read.
  Variable F : fld.
  Variable tn : nat -> nat -> nat -> list nat * list Z.
  Variable sp : space.
  Variable ci : arr F.
  Lemma abaa_ok y : u_get_c F tn sp sp ci (str "aaab") = Ok y -> exists x, r_get_c F tn sp ci (str "abaa") = Ok x.
  Proof.
    intros Ey. unfold r_get_c, u_get_c in *. rewrite shape_aaab. unfold get_c in *.
    change (nalph (str "abaa")) with 3. change (nbeta (str "abaa")) with 1. change (nalph (str "aaab")) with 3 in Ey. change (nbeta (str "aaab")) with 1 in Ey.
    apply bind_ok in Ey. destruct Ey as (z & Ez & Ey). rewrite Ez. cbn [bind]. apply bind_ok in Ey. destruct Ey as (v & Ev & Ey). rewrite Ev. cbn [bind].
    apply bind_ok in Ey. destruct Ey as (s & Es & Ey). rewrite Es. cbn [bind]. apply bind_ok in Ey. destruct Ey as (cn & Ec & Ey). rewrite Ec. cbn [bind].
    apply bind_ok in Ey. destruct Ey as (q & Eq & Ey). apply bind_ok in Ey. destruct Ey as (u & Eu & _).
    assert (Pq : q = [0; 1; 2; 6; 3; 4; 5; 7]) by (apply ok_inj; rewrite <- Eq; vm_compute; reflexivity). subst q. apply transpose_inv in Eu. destruct Eu as (P & _).
    apply Permutation.Permutation_length in P as L. rewrite seq_length in L. cbn in L.
    match goal with |- exists x, bind ?p _ = _ => assert (Pp : p = Ok [0; 6; 1; 2; 3; 7; 4; 5]) by (vm_compute; reflexivity); rewrite Pp end. cbn [bind].
    rewrite transpose_ok; [eexists; reflexivity|]. apply is_perm_iff. rewrite L. reflexivity.
  Qed.
  Lemma abaa_shape x y : r_get_c F tn sp ci (str "abaa") = Ok x -> u_get_c F tn sp sp ci (str "aaab") = Ok y -> wf x /\ shp x = map (fun k => nth k (shp y) 0) axes_4a.
  Proof.
    intros Ex Ey. unfold r_get_c in Ex. rewrite shape_aaab in Ex. unfold u_get_c in Ey. unfold get_c in Ex, Ey.
    change (nalph (str "abaa")) with 3 in Ex. change (nbeta (str "abaa")) with 1 in Ex. change (nalph (str "aaab")) with 3 in Ey. change (nbeta (str "aaab")) with 1 in Ey.
    apply bind_ok in Ex. destruct Ex as (z & Ez & Ex). apply bind_ok in Ex. destruct Ex as (v & Ev & Ex). apply bind_ok in Ex. destruct Ex as (s & Es & Ex). apply bind_ok in Ex. destruct Ex as (cn & Ec & Ex).
    apply bind_ok in Ex. destruct Ex as (p & Ep & Ex). apply bind_ok in Ex. destruct Ex as (t & Et & Ex). apply ok_inj in Ex.
    rewrite Ez in Ey. cbn [bind] in Ey. rewrite Ev in Ey. cbn [bind] in Ey. rewrite Es in Ey. cbn [bind] in Ey. rewrite Ec in Ey. cbn [bind] in Ey.
    apply bind_ok in Ey. destruct Ey as (q & Eq & Ey). apply bind_ok in Ey. destruct Ey as (u & Eu & Ey). apply ok_inj in Ey.
    assert (Pp : p = [0; 6; 1; 2; 3; 7; 4; 5]) by (apply ok_inj; rewrite <- Ep; vm_compute; reflexivity).
    assert (Pq : q = [0; 1; 2; 6; 3; 4; 5; 7]) by (apply ok_inj; rewrite <- Eq; vm_compute; reflexivity).
    apply transpose_inv in Et. destruct Et as (P1 & S1 & W1 & _). apply transpose_inv in Eu. destruct Eu as (P2 & S2 & W2 & _). subst p q x y.
    split; [unfold wf, map_arr in *; cbn [dat shp]; rewrite map_length; exact W1|]. cbn [map_arr shp]. rewrite S1, S2. reflexivity.
  Qed.
  Lemma r_ok m uc : 1 <= m <= 4 -> u_coefficients F tn sp sp ci m = Ok uc -> exists rc, r_coefficients F tn sp ci m = Ok rc.
  Proof.
    intros Hm HU.
    assert (R1 : exists x, r_get_c F tn sp ci (str "b") = Ok x).
    { destruct (@u_block F tn sp ci m uc 1 (str "bb") HU) as (x & Ex & _); [lia|vm_compute; tauto|]. exists x. rewrite same_b. exact Ex. }
    assert (R2 : 2 <= m -> exists x, r_get_c F tn sp ci (str "ab") = Ok x).
    { intros H. destruct (@u_block F tn sp ci m uc 2 (str "abab") HU) as (x & Ex & _); [lia|vm_compute; tauto|]. exists x. rewrite same_ab. exact Ex. }
    assert (R3 : 3 <= m -> exists x, r_get_c F tn sp ci (str "aba") = Ok x).
    { intros H. destruct (@u_block F tn sp ci m uc 3 (str "abaaba") HU) as (x & Ex & _); [lia|vm_compute; tauto|]. exists x. rewrite same_aba. exact Ex. }
    assert (R4 : 4 <= m -> exists x, r_get_c F tn sp ci (str "abab") = Ok x).
    { intros H. destruct (@u_block F tn sp ci m uc 4 (str "abababab") HU) as (x & Ex & _); [lia|vm_compute; tauto|]. exists x. rewrite same_abab. exact Ex. }
    assert (R5 : 4 <= m -> exists x, r_get_c F tn sp ci (str "abaa") = Ok x).
    { intros H. destruct (@u_block F tn sp ci m uc 4 (str "aaabaaab") HU) as (x & Ex & _); [lia|vm_compute; tauto|]. exact (abaa_ok Ex). }
    unfold r_coefficients. destruct (Nat.ltb_spec 4 m) as [H|_]; [lia|]. destruct (Nat.eqb_spec m 0) as [E|_]; [lia|]. destruct R1 as (x1 & E1).
    assert (X : m = 1 \/ m = 2 \/ m = 3 \/ m = 4) by lia. destruct X as [->|[->|[->| ->]]]; cbn [filter r_requests fst Nat.leb foldM]; rewrite E1; cbn [bind].
    - eexists. reflexivity.
    - destruct R2 as (x2 & E2); [lia|]. rewrite E2. cbn [bind]. eexists. reflexivity.
    - destruct R2 as (x2 & E2); [lia|]. destruct R3 as (x3 & E3); [lia|]. rewrite E2. cbn [bind]. rewrite E3. cbn [bind]. eexists. reflexivity.
    - destruct R2 as (x2 & E2); [lia|]. destruct R3 as (x3 & E3); [lia|]. destruct R4 as (x4 & E4); [lia|]. destruct R5 as (x5 & E5); [lia|]. rewrite E2. cbn [bind]. rewrite E3. cbn [bind]. rewrite E4. cbn [bind]. rewrite E5. cbn [bind]. eexists. reflexivity.
  Qed.
End Read.

(** The restricted blocks of one order. *)
Definition r_blocks (w : sort) (n : nat) : list (ref * list cls) :=
  (spin_orbital_name w n, spatial n) :: match n with 4 => [(match w with Cluster => n_t4a | Coefficient => n_c4a end, spatial 4)] | _ => [] end.
Definition r_shape_ok (n : nat) : bool :=
  forallb (fun a => memx a (r_blocks Coefficient n) && named (r_c_names n) (fst a) || memx a (flat_map (r_blocks Cluster) (seq 1 (n - 1))) && negb (named (r_c_names n) (fst a))) (p_in (r_c_to_t n)) &&
  forallb (fun a => memx a (p_out (r_c_to_t n)) && named (r_t_names n) (fst a)) (r_blocks Cluster n) &&
  forallb (fun k => forallb (fun a => negb (named (r_t_names n) (fst a))) (r_blocks Cluster k)) (seq 1 (n - 1)) &&
  check_run (r_c_to_t n) && computes tensors_r symmetry_r id_split (coefficients_r ++ table_r) (r_c_to_t n) table_r.
Lemma r_shapes_ok : forallb r_shape_ok (seq 1 4) = true.
Proof. vm_compute. reflexivity. Qed.
Lemma r_shape n : 1 <= n <= 4 -> r_shape_ok n = true.
Proof. intros H. pose proof r_shapes_ok as A. rewrite forallb_forall in A. apply A. apply in_seq. lia. Qed.
Lemma r_c_to_t_names (F : fld) n : 1 <= n <= 4 -> names_ok F (r_c_to_t n).
Proof. intros H. destruct (in_orders H) as [->|[->|[->| ->]]]; names_tac. Qed.
Lemma r_named w n k : 1 <= n <= 4 -> In k (match w with Cluster => r_t_names n | Coefficient => r_c_names n end) -> exists x cs s, In (x, cs) (r_blocks w n) /\ name_of x = Some (k, s).
Proof.
  intros H I. destruct (in_orders H) as [->|[->|[->| ->]]], w; cbn in I; repeat (destruct I as [<-|I]); try destruct I; eexists _, _, _;
    first [split; [left; reflexivity|reflexivity]|split; [right; left; reflexivity|reflexivity]].
Qed.
Lemma r_lookup n xc : 1 <= n <= 4 -> In xc (r_blocks Cluster n) -> CgFormSpec.lookup (coefficients_r ++ table_r) (fst xc) (snd xc) = CgFormSpec.lookup table_r (fst xc) (snd xc).
Proof. intros H I. destruct (in_orders H) as [->|[->|[->| ->]]]; cbn in I; repeat (destruct I as [<-|I]); try destruct I; reflexivity. Qed.
Lemma r_lookup_c n xc : 1 <= n <= 4 -> In xc (r_blocks Coefficient n) -> CgFormSpec.lookup (coefficients_r ++ table_r) (fst xc) (snd xc) = CgFormSpec.lookup coefficients_r (fst xc) (snd xc).
Proof. intros H I. rewrite lookup_app. destruct (in_orders H) as [->|[->|[->| ->]]]; cbn in I; repeat (destruct I as [<-|I]); try destruct I; reflexivity. Qed.

Section Loop.
  Variable F : fld.
  Variable method : option nat.
  Variable path : list (list nat) -> list nat -> list (list nat) -> list contraction.
  Variable sz : cls -> nat.
  Hypothesis H0 : characteristic_zero F.
  Hypothesis HP : path_ok path.
  Variable eB : env F.
  Hypothesis HS : symmetric sz symmetry_r tensors_r eB.
  Local Notation amps_t := (dict pystr (tval F)).
  Local Notation good := (good sz eB id_split).
  Lemma r_call_plain n d r : 1 <= n <= 4 -> call F method path sz (r_c_to_t n) d = Ok r -> forall k, In k (r_t_names n) -> exists a, dget pystr_eq_dec k r = Some (VArr a).
  Proof.
    intros Hn. unfold call. destruct (run method path sz (r_c_to_t n) (arguments F d)) as [rs|] eqn:E; [|discriminate]. cbn [bind]. intros Er k Hk. injection Er as <-.
    assert (L : length rs = length (p_out (r_c_to_t n))).
    { unfold run in E. apply bind_ok in E. destruct E as (e & _ & E). apply mapM_len in E. exact E. }
    destruct (in_orders Hn) as [->|[->|[->| ->]]]; cbn in L; repeat (destruct rs as [|? rs]; [discriminate|]); (destruct rs; [|discriminate]); cbn in Hk; repeat (destruct Hk as [<-|Hk]); try destruct Hk; eexists; reflexivity.
  Qed.
  Lemma other_names n n' k : 1 <= n <= 4 -> 1 <= n' <= 4 -> In k (r_t_names n) -> In k (r_t_names n') -> n = n'.
  Proof.
    intros Hn Hn' I J. destruct (in_orders Hn) as [->|[->|[->| ->]]], (in_orders Hn') as [->|[->|[->| ->]]]; try reflexivity; cbn in I, J; intuition (subst; discriminate).
  Qed.
  Variable camps : amps_t.
  Lemma r_loop m : m <= 4 -> (forall n xc, 1 <= n <= m -> In xc (r_blocks Coefficient n) -> good coefficients_r camps xc) ->
    exists amps, foldM (fun amps n => d <- passing F camps (r_c_names n) amps ;; r <- call F method path sz (r_c_to_t n) d ;; take_from F r (r_t_names n) amps) (seq 1 m) [] = Ok amps /\
      (forall n xc, 1 <= n <= m -> In xc (r_blocks Cluster n) -> good table_r amps xc) /\
      forall n k, 1 <= n <= m -> In k (r_t_names n) -> exists a, dget pystr_eq_dec k amps = Some (VArr a).
  Proof.
    induction m as [|m IH]; intros Hm HC; [exists []; split; [reflexivity|split; intros; lia]|].
    destruct IH as (amps & E & G & GV); [lia|intros n xc Hn; apply HC; lia|].
    rewrite seq_S, foldM_app, E. cbn [bind foldM Nat.add].
    assert (Hn : 1 <= S m <= 4) by lia. pose proof (r_shape Hn) as SH. unfold r_shape_ok in SH. rewrite !Bool.andb_true_iff in SH.
    destruct SH as ((((S1 & S2) & S3) & S7) & C). rewrite forallb_forall in S1, S2, S3.
    assert (Pat : forall (T T' : table) (xc : ref * list cls), CgFormSpec.lookup T (fst xc) (snd xc) = CgFormSpec.lookup T' (fst xc) (snd xc) ->
      forall pat, In pat (patterns id_split (snd xc)) -> CgFormSpec.lookup T (fst xc) pat = CgFormSpec.lookup T' (fst xc) pat).
    { intros T T' xc El pat Hp. rewrite patterns_id in Hp. destruct Hp as [<-|[]]. exact El. }
    destruct (@convert_step F method path sz eB id_split H0 (splits_id sz) HP tensors_r symmetry_r (coefficients_r ++ table_r) (r_c_to_t (S m)) table_r (r_c_names (S m)) (r_t_names (S m)) camps amps
                C S7 (r_c_to_t_names F Hn) HS) as (d & r & amps' & E1 & E2 & E3 & K & G').
    - intros n I. destruct (@r_named Coefficient (S m) n Hn I) as (x & cs & s & Hx & Ex). apply (@good_dget F sz eB id_split coefficients_r camps x cs _ s); [apply (HC (S m)); [lia|exact Hx]|exact Ex].
    - intros xc Hx. specialize (S1 xc Hx). apply Bool.orb_true_iff in S1. rewrite !Bool.andb_true_iff, Bool.negb_true_iff in S1. destruct S1 as [[I N]|[I N]]; rewrite N.
      + apply memx_in in I. eapply good_args; [reflexivity| |apply (HC (S m)); [lia|exact I]]. apply Pat, (@r_lookup_c (S m)); [exact Hn|exact I].
      + apply memx_in in I. apply in_flat_map in I as (k & Hk & I). apply in_seq in Hk. eapply good_args; [reflexivity| |apply (G k); [lia|exact I]]. apply Pat, (@r_lookup k); [lia|exact I].
    - intros n I. destruct (@r_named Cluster (S m) n Hn I) as (x & cs & s & Hx & Ex). exists x, cs, s. split; [|exact Ex]. specialize (S2 _ Hx). apply andb_prop in S2 as [S2 _]. apply memx_in, S2.
    - rewrite E1. cbn [bind]. rewrite E2. cbn [bind]. rewrite E3. exists amps'. split; [reflexivity|]. split.
      2: { assert (Hp : forall k, In k (r_t_names (S m)) -> exists a, dget pystr_eq_dec k r = Some (VArr a)) by (exact (@r_call_plain (S m) d r Hn E2)).
           destruct (@passing_ok F r (r_t_names (S m)) amps) as (amps2 & Ea & Da & _); [intros k Hk; destruct (Hp k Hk) as (a & ->); discriminate|]. assert (amps2 = amps') by (unfold passing in Ea; unfold take_from in E3; congruence). subst amps2.
           intros n k Hn' Hk. rewrite Da. destruct (in_dec pystr_eq_dec k (r_t_names (S m))) as [I|I]; [apply Hp, I|]. destruct (Nat.eq_dec n (S m)) as [->|N]; [contradiction|]. apply (GV n); [lia|exact Hk]. }
      intros n xc Hn' Hx. destruct (Nat.eq_dec n (S m)) as [->|N].
      + specialize (S2 _ Hx). apply andb_prop in S2 as [S2 S2']. apply G'; [apply memx_in, S2|exact S2'].
      + eapply good_args; [|reflexivity|apply (G n); [lia|exact Hx]]. apply K. specialize (S3 n). rewrite forallb_forall in S3.
        apply Bool.negb_true_iff, S3; [apply in_seq; lia|exact Hx].
  Qed.
End Loop.

Section Final.
  Variable F : fld.
  Variable method : option nat.
  Variable path : list (list nat) -> list nat -> list (list nat) -> list contraction.
  Variable sz : cls -> nat.
  Hypothesis H0 : characteristic_zero F.
  Hypothesis HP : path_ok path.
  Variable eB : env F.
  Hypothesis HS : symmetric sz symmetry_r tensors_r eB.
  Variable sp : space.
  Hypothesis HZ : closed_sizes sp sz.
  Variable tn : nat -> nat -> nat -> list nat * list Z.
  Hypothesis HT : addresses_ok tn.
  Hypothesis Ha : accepted sp.
  Variable norm : arr F -> F.
  Local Notation amps_t := (dict pystr (tval F)).
  Local Notation is_value := (is_value sz eB).

  Lemma arguments_named (d : amps_t) x n a : name_of x = Some (n, []) -> dget pystr_eq_dec n d = Some (VArr a) -> arguments F d x = Some a.
  Proof. intros E1 E2. unfold arguments. rewrite E1, E2. reflexivity. Qed.
  Lemma good_value T d x ks a : arguments F d x = Some a -> is_value T x ks a -> good sz eB id_split T d (x, ks).
  Proof.
    intros E [K V]. exists a. cbn [fst snd]. split; [exact E|]. split; [exact K|]. intros pat idx Hp Hi. rewrite patterns_id in Hp. destruct Hp as [<-|[]].
    rewrite places_id by (apply inb_length in Hi; rewrite map_length in Hi; exact Hi). apply V, Hi.
  Qed.
  Lemma value_good T d x ks : good sz eB id_split T d (x, ks) -> exists a, arguments F d x = Some a /\ is_value T x ks a.
  Proof.
    intros (a & E & K & V). exists a. cbn [fst snd] in *. split; [exact E|]. split; [exact K|]. intros idx Hi. rewrite <- (V ks idx); [|rewrite patterns_id; left; reflexivity|exact Hi].
    rewrite places_id; [reflexivity|]. apply inb_length in Hi. rewrite map_length in Hi. exact Hi.
  Qed.
  Theorem r_vector_back m amps (normalise : bool) : 1 <= m <= 4 -> closed_shell_amplitudes sz eB m amps ->
    (normalise = true -> forall x, aget r0 x [0; 0] = r1 -> norm x <> r0) ->
    exists ci amps', r_amplitudes_to_ci F method path sz tn norm amps m normalise = Ok ci /\ r_ci_to_amplitudes F method path sz tn sp ci m = Ok amps' /\
      forall name p, In (name, p) (restricted_names m) -> dget pystr_eq_dec (str name) amps' = dget pystr_eq_dec (str name) amps.
  Proof.
    intros Hm HA HN. destruct (@r_to_u_ok F method path sz H0 HP eB HS m Hm amps HA) as (u & Eu & Gu).
    pose proof (@u_cluster F method path sz H0 HP eB HS sp HZ m u (proj2 Hm) Gu) as HU.
    destruct (@u_to_vector F method path sz H0 HP sp sp (proj1 HZ) tn HT Ha Ha norm m u normalise Hm HU (or_introl (conj eq_refl eq_refl)) HN) as (camps & ci & out & E1 & E2 & E3 & G3).
    destruct (@u_from F method path sz eB closed_split H0 (proj2 (proj2 (proj2 HZ))) HP tensors_r symmetry_r HS closed_stored closed_expanded) with (amps := u) (m := m) as (camps' & E1' & G1).
    { intros n Hn. pose proof closed_coefficients_check as C. rewrite forallb_forall in C. apply C, in_seq. lia. }
    { exact Hm. }
    { intros n xc Hn Hx. apply in_blocks in Hx as (nb & Hb & ->). destruct (Gu n nb Hn Hb) as (y & Ey & Vy). apply (@good_closed F sz eB sp HZ closed_stored u Cluster n nb y); [lia|exact Hb|exact Ey|exact Vy]. }
    assert (camps' = camps) by congruence. subst camps'. clear E1'.
    assert (G : forall n nb, 1 <= n <= m -> nb <= n -> exists y, coefficient out n (comb n nb) = Some y /\ is_value closed_expanded (block_name Coefficient n nb) (spatial n) y).
    { intros n nb Hn Hb. rewrite G3 by (exact Hn || (apply comb_in; lia)). apply (@closed_good F sz eB sp HZ closed_expanded camps Coefficient n nb); [lia|exact Hb|]. apply (G1 n); [exact Hn|apply blocks_in, Hb]. }
    destruct (@r_ok F tn sp ci m out Hm E3) as (rc & Er). destruct (@agree F tn sp ci m rc out Er E3) as (A1 & A2 & A3 & A4).
    pose proof from_blocks as P. destruct P as (M1 & M2 & M3 & M4 & M4a).
    assert (RC : forall n xc, 1 <= n <= m -> In xc (r_blocks Coefficient n) -> good sz eB id_split coefficients_r rc xc).
    { intros n xc Hn Hx. assert (X : n = 1 \/ n = 2 \/ n = 3 \/ n = 4) by lia. destruct X as [->|[->|[->| ->]]]; cbn [r_blocks] in Hx.
      - destruct Hx as [<-|[]]. destruct A1 as (x & Ex & Cx). destruct (G 1 1) as (y & Ey & Vy); [lia|lia|]. change (comb 1 1) with (str "bb") in Ey. assert (y = x) by congruence. subst y.
        apply (@good_value _ _ _ _ x); [eapply arguments_named; [reflexivity|exact Ex]|]. apply (@move_value F method path sz H0 HP eB HS _ _ _ _ _ _ _ _ M1 Vy). apply eval_copy.
      - destruct Hx as [<-|[]]. destruct A2 as (x & Ex & Cx); [lia|]. destruct (G 2 1) as (y & Ey & Vy); [lia|lia|]. change (comb 2 1) with (str "abab") in Ey. assert (y = x) by congruence. subst y.
        apply (@good_value _ _ _ _ x); [eapply arguments_named; [reflexivity|exact Ex]|]. apply (@move_value F method path sz H0 HP eB HS _ _ _ _ _ _ _ _ M2 Vy). apply eval_copy.
      - destruct Hx as [<-|[]]. destruct A3 as (x & Ex & Cx); [lia|]. destruct (G 3 1) as (y & Ey & Vy); [lia|lia|]. change (comb 3 1) with (str "abaaba") in Ey. assert (y = x) by congruence. subst y.
        apply (@good_value _ _ _ _ x); [eapply arguments_named; [reflexivity|exact Ex]|]. apply (@move_value F method path sz H0 HP eB HS _ _ _ _ _ _ _ _ M3 Vy). apply eval_copy.
      - assert (m = 4) by lia. subst m. destruct Hx as [<-|[<-|[]]].
        + destruct A4 as (x & Ex & Cx); [lia|]. destruct (G 4 2) as (y & Ey & Vy); [lia|lia|]. change (comb 4 2) with (str "abababab") in Ey. assert (y = x) by congruence. subst y.
          apply (@good_value _ _ _ _ x); [eapply arguments_named; [reflexivity|exact Ex]|]. apply (@move_value F method path sz H0 HP eB HS _ _ _ _ _ _ _ _ M4 Vy). apply eval_copy.
        + destruct (@agree_4a F tn sp ci rc out Er E3) as (x & y & Ex & Cy & Exy). destruct (G 4 1) as (y' & Ey & Vy); [lia|lia|]. change (comb 4 1) with (str "aaabaaab") in Ey. assert (y' = y) by congruence. subst y'.
          destruct (@moved F sz y axes_4a (proj2 (proj1 Vy)) eq_refl eq_refl) as (b & Eb & Sb).
          pose proof (@move_value F method path sz H0 HP eB HS _ _ _ _ _ _ _ _ M4a Vy (@eval_transpose F method path sz _ _ _ _ Eb)) as Vb.
          assert (Xb : x = b); [|subst x; apply (@good_value _ _ _ _ b); [eapply arguments_named; [reflexivity|exact Ex]|exact Vb]].
          destruct (@r_read F tn sp ci 4 rc Er) as (_ & _ & _ & _ & _ & R5). destruct R5 as (x' & Ex' & Dx'); [lia|]. assert (x' = x) by congruence. subst x'.
          destruct (@u_block F tn sp ci 4 out 4 (str "aaabaaab") E3) as (y' & Ey' & Dy'); [lia|vm_compute; tauto|]. assert (y' = y) by congruence. subst y'.
          destruct (@abaa_shape F tn sp ci x y Ex' Ey') as (Wx & Sx). apply transpose_inv in Eb. destruct Eb as (_ & Sb' & Wb & Gb).
          apply (arr_ext r0); [exact Wx|exact Wb|congruence|]. intros idx Hi. rewrite Gb by congruence.
          assert (L : length idx = 8) by (apply inb_length in Hi; rewrite Sx in Hi; exact Hi).
          repeat (destruct idx as [|? idx]; [discriminate L|]). destruct idx; [|discriminate L]. rewrite Exy by exact Hi. reflexivity. }
    destruct (@r_loop F method path sz H0 HP eB HS rc m (proj2 Hm) RC) as (amps' & El & Gl & Gv).
    exists ci, amps'. split; [|split].
    - unfold r_amplitudes_to_ci. destruct (Nat.ltb_spec 4 m) as [L|_]; [lia|]. rewrite Eu. cbn [bind]. exact E2.
    - unfold r_ci_to_amplitudes. rewrite Er. cbn [bind]. unfold r_coefficients_to_amplitudes. rewrite (orders_seq Hm). exact El.
    - intros name p I. destruct (HA _ _ I) as (a & Ea & Ka & Va). rewrite Ea.
      assert (B : exists x n, In (x, spatial (length p)) (r_blocks Cluster n) /\ 1 <= n <= m /\ name_of x = Some (str name, []) /\ In (str name) (r_t_names n) /\
        CgFormSpec.lookup table_r x (spatial (length p)) = (map spatial_label (occupied_of p ++ virtual_of p), in_spatial Cluster (occupied_of p) (virtual_of p))).
      { unfold restricted_names in I. apply filter_In in I as [I L]. apply Nat.leb_le in L. cbn [snd] in L. cbn [In] in I. repeat (destruct I as [I|I]; [apply pair_equal_spec in I as [<- <-]|]); [| | | | |destruct I]; cbn [length] in *.
        - exists n_t1, 1. split; [left; reflexivity|]. split; [lia|]. split; [reflexivity|]. split; [left; reflexivity|reflexivity].
        - exists n_t2, 2. split; [left; reflexivity|]. split; [lia|]. split; [reflexivity|]. split; [left; reflexivity|reflexivity].
        - exists n_t3, 3. split; [left; reflexivity|]. split; [lia|]. split; [reflexivity|]. split; [left; reflexivity|reflexivity].
        - exists n_t4, 4. split; [left; reflexivity|]. split; [lia|]. split; [reflexivity|]. split; [left; reflexivity|reflexivity].
        - exists n_t4a, 4. split; [right; left; reflexivity|]. split; [lia|]. split; [reflexivity|]. split; [right; left; reflexivity|reflexivity]. }
      destruct B as (x & n & Bx & Hn & Nx & In_ & Lx). destruct (Gv n _ Hn In_) as (b & Eb). rewrite Eb. do 2 f_equal.
      destruct (@value_good table_r amps' x _ (Gl n _ Hn Bx)) as (b' & Eb' & Kb & Vb). assert (b' = b) by (rewrite (@arguments_named amps' x _ b Nx Eb) in Eb'; congruence). subst b'. rewrite Lx in Vb. cbn [fst snd] in Vb.
      destruct Ka as [Wa Sa], Kb as [Wb Sb]. change (repeat 0 (length p) ++ repeat 1 (length p)) with (spatial (length p)) in Sa.
      apply (arr_ext r0); [exact Wb|exact Wa|congruence|]. intros idx Hi. rewrite Vb by (rewrite <- Sb; exact Hi). symmetry. apply Va. rewrite Sa, <- Sb. exact Hi.
  Qed.
End Final.
