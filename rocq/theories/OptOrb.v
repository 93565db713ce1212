(** The orbitals stay orthonormal, and the frozen ones unchanged. *)
From Coq Require Import Sorted String Permutation Field.
From Verif Require Import Base ListAux Alg ArrModel ArrProofs PermModel PackProofs TensorModel EinsumModel EinsumSpec EinAux EinsumProofs EinsumThms EinsumParse EinsumApi
  EinPathModel EinPathSpec EinPathThms EinPathParse SpaceModel SpaceSpec SpaceProofs SpaceThms AnsatzModel KernelProofs VecModel CcModel ExtModel ExtSpec ExtProofs OptModel OptSpec OptProofs OptTrans.
Set Implicit Arguments.
Local Open Scope string_scope.
Local Open Scope list_scope.
Local Open Scope nat_scope.

Lemma nonzero_nodup m : NoDup (nonzero m).
Proof.
  induction m as [|b m IH]; [constructor|]. rewrite nonzero_cons. assert (N : NoDup (map S (nonzero m))).
  { apply FinFun.Injective_map_NoDup; [intros x y E; lia|exact IH]. }
  destruct b; cbn [app]; [|exact N]. constructor; [|exact N]. intros H. apply in_map_iff in H as (? & ? & _). discriminate.
Qed.
Lemma nonzero_in m : forall p, In p (nonzero m) <-> nth p m false = true.
Proof.
  induction m as [|b m IH]; intros p; [destruct p; cbn; intuition discriminate|]. rewrite nonzero_cons, in_app_iff, in_map_iff. destruct p as [|p].
  - cbn [nth]. split.
    + intros [H|(? & ? & _)]; [|discriminate]. destruct b; [reflexivity|destruct H].
    + intros ->. left. left. reflexivity.
  - cbn [nth]. rewrite <- IH. split.
    + intros [H|(q & E & Hq)]; [destruct b; [destruct H as [H|[]]; discriminate|destruct H]|]. injection E as <-. exact Hq.
    + intros H. right. exists p. split; [reflexivity|exact H].
Qed.
Lemma nonzero_length m : length (nonzero m) = msum m.
Proof. induction m as [|b m IH]; [reflexivity|]. rewrite nonzero_cons, msum_cons, app_length, map_length, IH. destruct b; reflexivity. Qed.

Section Orb.
  Variable F : fld.
  Add Field Ffield16 : (fth F).
  Local Open Scope rng_scope.

  Lemma sum_to_ext n (f g : nat -> F) : (forall i, (i < n)%nat -> f i = g i) -> sum_to n f = sum_to n g.
  Proof. intros H. apply rsum_map_ext. intros i Hi. apply in_seq in Hi. apply H. lia. Qed.
  Lemma sum_to_mul_l n (c : F) f : c * sum_to n f = sum_to n (fun i => c * f i).
  Proof. unfold sum_to. rewrite rsum_map_mul_l. reflexivity. Qed.
  Lemma sum_to_mul_r n (c : F) f : sum_to n f * c = sum_to n (fun i => f i * c).
  Proof. unfold sum_to. rewrite rsum_map_mul_r. reflexivity. Qed.
  Lemma sum_to_swap n m (f : nat -> nat -> F) : sum_to n (fun i => sum_to m (f i)) = sum_to m (fun j => sum_to n (fun i => f i j)).
  Proof. unfold sum_to. apply rsum_swap. Qed.
  Lemma sum_to_0 n (f : nat -> F) : (forall i, (i < n)%nat -> f i = 0) -> sum_to n f = 0.
  Proof. intros H. apply rsum_map_0. intros i Hi. apply in_seq in Hi. apply H. lia. Qed.
  Lemma sum_to_delta n (f : nat -> F) j : (j < n)%nat -> sum_to n (fun i => f i * delta i j) = f j.
  Proof.
    intros Hj. unfold sum_to. rewrite (@rsum_map_ext F _ _ (fun i => if (i =? j)%nat then f i else 0)).
    - apply (@rsum_pick F nat (fun i => (i =? j)%nat) f j); [apply seq_NoDup|apply in_seq; lia|]. intros i _. apply Nat.eqb_eq.
    - intros i _. unfold delta. destruct (i =? j)%nat; ring.
  Qed.
  Lemma delta_comm i j : @delta F i j = delta j i.
  Proof. unfold delta. rewrite Nat.eqb_sym. reflexivity. Qed.

  (** * Products. *)
  Lemma product_ok a b c n m p (x y : arr F) : NoDup [a; b; c] -> matrix n m x -> matrix m p y ->
    exists z, np_einsum F [[a; b]; [b; c]] [a; c] [x; y] = Ok z /\ matrix n p z /\
      (forall i j, (i < n)%nat -> (j < p)%nat -> el z i j = sum_to m (fun k => el x i k * el y k j)) /\
      shapes_agree (fun l => if (l =? a)%nat then n else if (l =? b)%nat then m else p) [[a; b]; [b; c]] [x; y].
  Proof.
    intros N [Wx Sx] [Wy Sy]. set (sz := fun l => if (l =? a)%nat then n else if (l =? b)%nat then m else p).
    assert (Nab : a <> b /\ a <> c /\ b <> c).
    { inversion N as [|? ? N1 N2]; subst. inversion N2 as [|? ? N3 _]; subst. cbn in N1, N3. repeat split; intros ->; tauto. }
    destruct Nab as (Nab & Nac & Nbc).
    assert (Ea : sz a = n) by (unfold sz; rewrite Nat.eqb_refl; reflexivity).
    assert (Eb : sz b = m) by (unfold sz; destruct (b =? a)%nat eqn:E; [apply Nat.eqb_eq in E; congruence|rewrite Nat.eqb_refl; reflexivity]).
    assert (Ec : sz c = p).
    { unfold sz. destruct (c =? a)%nat eqn:E; [apply Nat.eqb_eq in E; congruence|]. destruct (c =? b)%nat eqn:E'; [apply Nat.eqb_eq in E'; congruence|reflexivity]. }
    assert (Sh : shapes_agree sz [[a; b]; [b; c]] [x; y]).
    { constructor; [|constructor; [|constructor]]; (split; [assumption|]); cbn [map]; rewrite ?Ea, ?Eb, ?Ec; assumption. }
    assert (No : NoDup [a; c]) by (constructor; [intros [H|[]]; congruence|constructor; [intros []|constructor]]).
    destruct (@np_elementwise F sz _ _ _ Sh No) as (z & Ez & Wz & Sz & G).
    { intros l. cbn. tauto. }
    exists z. split; [exact Ez|]. split; [split; [exact Wz|]; rewrite Sz; cbn [map]; rewrite Ea, Ec; reflexivity|]. split; [|exact Sh].
    intros i j Hi Hj. unfold el at 1. rewrite (G [b]).
    - cbn [map]. rewrite Eb. unfold all_idx. cbn [map product]. 
      assert (C : forall u v : F, u = v -> 1 * u + 0 = v) by (intros u v ->; ring). apply C. clear C.
      assert (E : forall l, flat_map (fun x0 : nat => [[x0]]) l = map (fun k => [k]) l) by (induction l as [|k l IH]; [reflexivity|cbn [flat_map map app]; rewrite IH; reflexivity]).
      rewrite E, map_map. apply sum_to_ext. intros k _. cbn beta.
      unfold product_term. cbn [combine map fst snd app].
      assert (NN : NoDup [a; c; b]) by (constructor; [cbn; intuition congruence|constructor; [cbn; intuition congruence|constructor; [intros []|constructor]]]).
      pose proof (@env_of_map [a; c; b] [i; j; k] NN eq_refl) as HM. cbn [map] in HM. injection HM as H1 H2 H3. rewrite H1, H2, H3.
      unfold rprod. cbn [fold_right]. unfold el. ring.
    - split; [constructor; [intros []|constructor]|]. intros l. cbn. split; [intros [<-|[]]|intros [H1 H2]]; [|left; tauto].
      split; [tauto|]. intros [H|[H|[]]]; congruence.
    - cbn [map]. rewrite Ea, Ec. repeat constructor; assumption.
  Qed.

  Lemma matmul_ok n m p (x y : arr F) : matrix n m x -> matrix m p y ->
    exists z, matmul F x y = Ok z /\ matrix n p z /\ forall i j, (i < n)%nat -> (j < p)%nat -> el z i j = sum_to m (fun k => el x i k * el y k j).
  Proof.
    intros Mx My. destruct (@product_ok (chr_of "i") (chr_of "j") (chr_of "k") n m p x y) as (z & E & M & G & _); try assumption.
    - repeat constructor; cbn; intuition discriminate.
    - exists z. split; [exact E|]. split; assumption.
  Qed.

  Definition mo_sub : subscript := mksub (str "pi") [(ch_comma, str "ij")] (Some (str "pj")).
  Lemma mo_product method n m p (x y : arr F) : matrix n m x -> matrix m p y ->
    exists z, einsum_str F method false true [] (str "pi,ij->pj") [x; y] 1 0 None = Ok z /\ matrix n p z /\
      forall i j, (i < n)%nat -> (j < p)%nat -> el z i j = sum_to m (fun k => el x i k * el y k j).
  Proof.
    intros Mx My. destruct (@product_ok (chr_of "p") (chr_of "i") (chr_of "j") n m p x y) as (z & E & M & G & Sh); try assumption.
    { repeat constructor; cbn; intuition discriminate. }
    exists z. split; [|split; assumption].
    assert (Lt : forall s, forallb is_letter s = true -> letters s) by (intros s H c Hc; rewrite forallb_forall in H; apply H, Hc).
    destruct (@parse_render F mo_sub [x; y] (str "pj")) as (inp & Ep & Es).
    - split; [discriminate|]. split; [apply Lt; reflexivity|]. split.
      + intros t [<-|[]]. split; [apply Lt; reflexivity|]. split; [discriminate|left; reflexivity].
      + intros o Eo. injection Eo as <-. apply Lt. reflexivity.
    - reflexivity.
    - split; [reflexivity|]. split; [repeat constructor; cbn; intuition discriminate|]. intros c. cbn. tauto.
    - change (str "pi,ij->pj") with (render mo_sub). unfold einsum_str. rewrite Ep. cbn [bind]. rewrite signed_ops_plain; [|intros t [<-|[]]; reflexivity|reflexivity].
      rewrite (@einsum_parsed_ok F _ inp _ _ [x; y] [] method Es ltac:(discriminate) Sh); [exact E| | |].
      + repeat constructor; cbn; intuition discriminate.
      + intros c. cbn. tauto.
      + cbn. lia.
  Qed.

  Lemma orthogonal_product n (u v w : arr F) : orthogonal n u -> orthogonal n v -> matrix n n w ->
    (forall i j, (i < n)%nat -> (j < n)%nat -> el w i j = sum_to n (fun k => el u i k * el v k j)) -> orthogonal n w.
  Proof.
    intros [Mu Hu] [Mv Hv] Mw G. split; [exact Mw|]. intros i j Hi Hj.
    rewrite (@sum_to_ext n _ (fun k => sum_to n (fun a => sum_to n (fun b => el v a i * el v b j * (el u k a * el u k b))))).
    - rewrite sum_to_swap. rewrite (@sum_to_ext n _ (fun a => el v a i * el v a j)); [apply Hv; assumption|]. intros a Ha.
      rewrite sum_to_swap. rewrite (@sum_to_ext n _ (fun b => el v a i * el v b j * delta b a)); [apply (@sum_to_delta n (fun b => el v a i * el v b j)), Ha|].
      intros b Hb. rewrite <- sum_to_mul_l. rewrite Hu by assumption. rewrite delta_comm. reflexivity.
    - intros k Hk. rewrite (G k i), (G k j) by assumption. rewrite sum_to_mul_r. apply sum_to_ext. intros a Ha. rewrite sum_to_mul_l. apply sum_to_ext. intros b Hb. ring.
  Qed.
  Lemma eye_orthogonal n : orthogonal n (eye F n).
  Proof.
    assert (G : forall i j, (i < n)%nat -> (j < n)%nat -> el (eye F n) i j = delta i j).
    { intros i j Hi Hj. unfold el, eye. rewrite (@aget_tab F 0) by (repeat constructor; assumption). reflexivity. }
    split; [split; [apply tab_wf|reflexivity]|]. intros i j Hi Hj.
    rewrite (@sum_to_ext n _ (fun k => delta k i * delta k j)) by (intros k Hk; rewrite !G by assumption; reflexivity).
    rewrite (@sum_to_delta n (fun k => delta k i)) by exact Hj. apply delta_comm.
  Qed.
  Lemma t1_block_ok no nv (t1 : arr F) : matrix no nv t1 -> exists b, t1_block F no nv t1 = Ok b /\ antisymmetric (no + nv) b.
  Proof.
    intros [W S]. unfold t1_block. rewrite S, !Nat.eqb_refl. cbn [andb]. eexists. split; [reflexivity|]. split; [split; [apply tab_wf|reflexivity]|].
    intros i j Hi Hj. unfold el. rewrite !(@aget_tab F 0) by (repeat constructor; assumption). cbn [nth].
    destruct (Nat.ltb_spec i no), (Nat.ltb_spec j no), (Nat.leb_spec no i), (Nat.leb_spec no j); try lia; cbn [andb]; ring.
  Qed.
  Lemma negate_ok n (u : arr F) rows : orthogonal n u -> (0 < n)%nat -> rows = n ->
    exists u', negate_column F rows u = Ok u' /\ orthogonal n u' /\ forall i j, (i < n)%nat -> (j < n)%nat -> el u' i j = if (j =? 0)%nat then - el u i j else el u i j.
  Proof.
    intros [[W S] H] Hn ->. unfold negate_column. rewrite S. destruct (n =? 0)%nat eqn:E0; [apply Nat.eqb_eq in E0; lia|].
    set (v := mkarr [n; 1%nat] (map (fun i => - aget 0 u [i; 0%nat]) (seq 0 n))).
    match goal with |- context [put_ix 0 u ?ix ?w] => change (put_ix 0 u ix w) with (put_ix 0 u ix v) end.
    destruct (@put_ix_ok F u v [seq 0 n; [0%nat]]) as (u' & Eu & Wu & Su & G1 & G2); try exact W.
    { unfold wf, v. cbn [dat shp]. rewrite map_length, seq_length. cbn. lia. }
    { rewrite S. constructor; [split; [apply seq_NoDup|apply Forall_forall; intros k Hk; apply in_seq in Hk; lia]|].
      constructor; [split; [constructor; [intros []|constructor]|constructor; [exact Hn|constructor]]|constructor]. }
    { cbn [map length v shp]. rewrite seq_length. reflexivity. }
    assert (G : forall i j, (i < n)%nat -> (j < n)%nat -> el u' i j = if (j =? 0)%nat then - el u i j else el u i j).
    { intros i j Hi Hj. unfold el. destruct (j =? 0)%nat eqn:Ej.
      - apply Nat.eqb_eq in Ej. subst j. destruct (G1 [i; 0%nat]) as [_ X]; [cbn; repeat constructor; lia|].
        unfold placed in X. cbn [combine map fst snd nth] in X. rewrite seq_nth in X by exact Hi. cbn [Nat.add] in X. rewrite X.
        unfold aget at 1, v. cbn [shp dat ravel prodn fold_right]. 
        replace (i * (1 * 1) + (0 * 1 + 0))%nat with i by lia. rewrite nth_map_seq by exact Hi. reflexivity.
      - apply Nat.eqb_neq in Ej. apply G2; [rewrite S; repeat constructor; assumption|]. intros js Hj' E. apply Ej.
        pose proof (f_equal (fun l => nth 1 l 0%nat) E) as E2. cbn [nth] in E2. rewrite E2. pose proof (inb_length Hj') as Lj. cbn in Lj.
        destruct js as [|k [|l [|? ?]]]; try discriminate. unfold placed. cbn [combine map fst snd nth]. pose proof (inb_nth (k := 1) Hj') as X. cbn in X. destruct l as [|l]; [reflexivity|lia]. }
    exists u'. split; [exact Eu|]. split; [|exact G]. split; [split; [exact Wu|rewrite Su; exact S]|]. intros i j Hi Hj.
    rewrite (@sum_to_ext n _ (fun k => (if (i =? 0)%nat then - (1) else 1) * (if (j =? 0)%nat then - (1) else 1) * (el u k i * el u k j))).
    - rewrite <- sum_to_mul_l, H by assumption. unfold delta. destruct (i =? j)%nat eqn:E.
      + apply Nat.eqb_eq in E. subst j. destruct (i =? 0)%nat; ring.
      + ring.
    - intros k Hk. rewrite !G by assumption. destruct (i =? 0)%nat, (j =? 0)%nat; ring.
  Qed.

  Section Functions.
    Variables expm logm : arr F -> arr F.
    Variable det_negative : arr F -> bool.
    Hypothesis MF : matrix_functions expm logm det_negative.

    Lemma advance_ok sp rows (ut t1 : arr F) : ncorr sp = (ncocc sp + ncvir sp)%nat -> matrix (ncocc sp) (ncvir sp) t1 -> orthogonal (ncorr sp) ut ->
      (forall w, matrix (ncorr sp) (ncorr sp) w -> det_negative w = true -> rows w = ncorr sp) ->
      exists u ut', advance F expm det_negative sp rows ut t1 = Ok (u, ut') /\ orthogonal (ncorr sp) u /\ orthogonal (ncorr sp) ut' /\ det_negative ut' = false.
    Proof.
      intros En Mt Ou Hr. unfold advance. destruct (t1_block_ok Mt) as (b & -> & Ab). cbn [bind]. rewrite <- En in Ab.
      pose proof (exp_orthogonal MF Ab) as Oe. destruct (matmul_ok (proj1 Ou) (proj1 Oe)) as (w & -> & Mw & Gw). cbn [bind].
      pose proof (orthogonal_product Ou Oe Mw Gw) as Ow. destruct (det_negative w) eqn:Ed; [|exists (expm b), w; repeat split; try apply Oe; try apply Ow; exact Ed].
      assert (Hn : (0 < ncorr sp)%nat). { destruct (ncorr sp) eqn:E0; [|lia]. rewrite (det_empty MF Mw) in Ed. discriminate. }
      destruct (@negate_ok (ncorr sp) w (rows w) Ow Hn (Hr w Mw Ed)) as (w' & -> & Ow' & Gw'). cbn [bind]. exists (expm b), w'. split; [reflexivity|].
      split; [exact Oe|]. split; [exact Ow'|]. exact (flip_sign MF Ow Ed (proj1 Ow') Gw').
    Qed.

    Variable D : Type.
    Variable damp : D -> arr F -> arr F -> result (D * arr F).
    Variable okd : D -> Prop.

    Lemma rotation_ok sp (ut : option (arr F)) d (t1 : arr F) : accelerator damp (antisymmetric (ncorr sp)) okd -> ncorr sp = (ncocc sp + ncvir sp)%nat -> matrix (ncocc sp) (ncvir sp) t1 ->
      (forall u, ut = Some u -> orthogonal (ncorr sp) u) -> (forall s, d = Some s -> okd s) ->
      exists d' u ut', rotation F expm logm det_negative damp sp ut d t1 = Ok (d', u, ut') /\ orthogonal (ncorr sp) u /\ orthogonal (ncorr sp) ut' /\
        (forall s, d' = Some s -> okd s) /\ (d = None -> d' = None).
    Proof.
      intros AC En Mt Ou Od. unfold rotation. set (u0 := or_eye F (ncorr sp) ut).
      assert (O0 : orthogonal (ncorr sp) u0) by (unfold u0, or_eye; destruct ut; [apply Ou; reflexivity|apply eye_orthogonal]).
      destruct (@advance_ok sp (rows_of F) u0 t1 En Mt O0) as (u & w & -> & Oe & Ow & Ed).
      { intros w [_ S] _. unfold rows_of. rewrite S. reflexivity. }
      cbn [bind fst snd]. pose proof (log_antisymmetric MF Ow Ed) as Al. destruct d as [s|].
      - destruct (AC s (logm w) t1 (Od s eq_refl) Al) as (s' & a' & -> & Os' & Aa). cbn [bind fst snd]. exists (Some s'), u, (expm a'). split; [reflexivity|].
        split; [exact Oe|]. split; [apply (exp_orthogonal MF Aa)|]. split; [intros x Ex; injection Ex as <-; exact Os'|discriminate].
      - cbn [bind fst snd]. exists None, u, (expm (logm w)). split; [reflexivity|]. split; [exact Oe|]. split; [apply (exp_orthogonal MF Al)|]. split; [discriminate|reflexivity].
    Qed.
  End Functions.

  (** * Coefficients. *)
  (** The coefficients [mo'] have the correlated columns of [mo0] rotated by [u], and its frozen columns. *)
  Definition rotated_orbitals (sp : space) (nao : nat) (u mo0 mo' : arr F) : Prop :=
    matrix nao (nmo sp) mo' /\
    (forall m p, (m < nao)%nat -> (p < nmo sp)%nat -> is_frozen sp p = true -> el mo' m p = el mo0 m p) /\
    (forall m j, (m < nao)%nat -> (j < ncorr sp)%nat ->
       el mo' m (nth j (nonzero (correlated sp)) 0%nat) = sum_to (ncorr sp) (fun i => el mo0 m (nth i (nonzero (correlated sp)) 0%nat) * el u i j)).

  Lemma correlated_facts sp : accepted sp -> length (correlated sp) = nmo sp /\ ncorr sp = (ncocc sp + ncvir sp)%nat /\
    (forall p, In p (nonzero (correlated sp)) <-> (p < nmo sp)%nat /\ is_frozen sp p = false) /\ NoDup (nonzero (correlated sp)) /\ length (nonzero (correlated sp)) = ncorr sp.
  Proof.
    intros H. destruct (accepted_inv H) as (Hf & _). assert (L : length (correlated sp) = nmo sp) by (unfold correlated, mnot; rewrite map_length; exact Hf).
    split; [exact L|]. split; [apply (partition_counts H)|]. split; [|split; [apply nonzero_nodup|apply nonzero_length]].
    intros p. rewrite nonzero_in. unfold correlated, mnot, is_frozen. destruct (Nat.lt_ge_cases p (nmo sp)) as [Hp|Hp].
    - rewrite (nth_map_lt _ _ false false) by (rewrite Hf; exact Hp). destruct (nth p (sp_frozen sp) false); cbn; intuition discriminate.
    - rewrite nth_overflow by (rewrite map_length, Hf; exact Hp). split; [discriminate|]. intros [X _]. lia.
  Qed.

  Lemma to_correlated_ok sp nao (mo : arr F) : accepted sp -> matrix nao (nmo sp) mo ->
    exists ref, mo_to_correlated F sp mo = Ok ref /\ matrix nao (ncorr sp) ref /\
      forall m j, (m < nao)%nat -> (j < ncorr sp)%nat -> el ref m j = el mo m (nth j (nonzero (correlated sp)) 0%nat).
  Proof.
    intros A [W S]. destruct (correlated_facts A) as (L & _ & I & N & LN). unfold mo_to_correlated. rewrite S, L, Nat.eqb_refl.
    destruct (@get_ix_ok F mo [seq 0 nao; nonzero (correlated sp)] W) as (y & -> & Wy & Sy & G).
    { rewrite S. constructor; [split; [apply seq_NoDup|apply Forall_forall; intros k Hk; apply in_seq in Hk; lia]|]. constructor; [|constructor].
      split; [exact N|]. apply Forall_forall. intros p Hp. apply I in Hp. tauto. }
    exists y. split; [reflexivity|]. cbn [map] in Sy, G. rewrite seq_length, LN in Sy, G. split; [split; [exact Wy|exact Sy]|].
    intros m j Hm Hj. unfold el. rewrite G by (repeat constructor; assumption). unfold placed. cbn [combine map fst snd]. rewrite seq_nth by exact Hm. reflexivity.
  Qed.
  Lemma update_ok method sp nao (u mo0 mo ref : arr F) : accepted sp -> matrix nao (ncorr sp) ref -> matrix (ncorr sp) (ncorr sp) u -> matrix nao (nmo sp) mo ->
    (forall m j, (m < nao)%nat -> (j < ncorr sp)%nat -> el ref m j = el mo0 m (nth j (nonzero (correlated sp)) 0%nat)) ->
    (forall m p, (m < nao)%nat -> (p < nmo sp)%nat -> is_frozen sp p = true -> el mo m p = el mo0 m p) ->
    exists mo', update_coefficients F method sp u mo ref = Ok mo' /\ rotated_orbitals sp nao u mo0 mo'.
  Proof.
    intros A Mr Mu [W S] Gr Gf. destruct (correlated_facts A) as (L & _ & I & N & LN). unfold update_coefficients.
    destruct (@mo_product method _ _ _ _ _ Mr Mu) as (c & -> & [Wc Sc] & Gc). cbn [bind]. unfold mo_update_correlated. rewrite S. cbn [nth].
    destruct (@put_ix_ok F mo c [seq 0 nao; nonzero (correlated sp)] W Wc) as (y & -> & Wy & Sy & G1 & G2).
    { rewrite S. constructor; [split; [apply seq_NoDup|apply Forall_forall; intros k Hk; apply in_seq in Hk; lia]|]. constructor; [|constructor].
      split; [exact N|]. apply Forall_forall. intros p Hp. apply I in Hp. tauto. }
    { cbn [map]. rewrite seq_length, LN. exact Sc. }
    exists y. split; [reflexivity|]. split; [split; [exact Wy|rewrite Sy; exact S]|]. split.
    - intros m p Hm Hp Hf. rewrite <- Gf by assumption. unfold el. apply G2; [rewrite S; repeat constructor; assumption|].
      intros js Hj E. rewrite Sc in Hj. destruct js as [|a [|b [|? ?]]]; inversion Hj as [|? ? ? ? H1 H2]; subst; inversion H2 as [|? ? ? ? H3 H4]; subst; [|inversion H4].
      unfold placed in E. cbn [combine map fst snd] in E. injection E as E1 E2.
      assert (X : In p (nonzero (correlated sp))) by (rewrite E2; apply nth_In; rewrite LN; exact H3). apply I in X. destruct X as [_ X]. congruence.
    - intros m j Hm Hj. destruct (G1 [m; j]) as [_ X]; [rewrite Sc; repeat constructor; assumption|].
      unfold placed in X. cbn [combine map fst snd] in X. rewrite seq_nth in X by exact Hm. cbn [Nat.add] in X. unfold el at 1. rewrite X.
      change (aget 0 c [m; j]) with (el c m j). rewrite Gc by assumption. apply sum_to_ext. intros i Hi. rewrite Gr by assumption. reflexivity.
  Qed.

  (** * Orthonormality. *)
  Section Metric.
    Variable s : nat -> nat -> F.
    Variable nao : nat.
    Definition bil (x y : nat -> F) : F := sum_to nao (fun m => sum_to nao (fun n => x m * s m n * y n)).
    Lemma bil_ext x x' y y' : (forall m, (m < nao)%nat -> x m = x' m) -> (forall m, (m < nao)%nat -> y m = y' m) -> bil x y = bil x' y'.
    Proof. intros H1 H2. apply sum_to_ext. intros m Hm. apply sum_to_ext. intros n Hn. rewrite H1, H2 by assumption. reflexivity. Qed.
    Lemma bil_sum_l k (c : nat -> F) (x : nat -> nat -> F) y : bil (fun m => sum_to k (fun i => x i m * c i)) y = sum_to k (fun i => c i * bil (x i) y).
    Proof.
      unfold bil. rewrite (@sum_to_ext nao _ (fun m => sum_to k (fun i => sum_to nao (fun n => c i * (x i m * s m n * y n))))).
      - rewrite sum_to_swap. apply sum_to_ext. intros i _. rewrite sum_to_mul_l. apply sum_to_ext. intros m _. rewrite sum_to_mul_l. reflexivity.
      - intros m _. rewrite sum_to_swap. apply sum_to_ext. intros n _.
        assert (C : forall a b t : F, a * b * t = a * (b * t)) by (intros; ring). rewrite C, sum_to_mul_r. apply sum_to_ext. intros i _. ring.
    Qed.
    Lemma bil_sum_r k (c : nat -> F) x (y : nat -> nat -> F) : bil x (fun m => sum_to k (fun i => y i m * c i)) = sum_to k (fun i => c i * bil x (y i)).
    Proof.
      unfold bil. rewrite (@sum_to_ext nao _ (fun m => sum_to k (fun i => sum_to nao (fun n => c i * (x m * s m n * y i n))))).
      - rewrite sum_to_swap. apply sum_to_ext. intros i _. rewrite sum_to_mul_l. apply sum_to_ext. intros m _. rewrite sum_to_mul_l. reflexivity.
      - intros m _. rewrite sum_to_swap. apply sum_to_ext. intros n _. rewrite sum_to_mul_l. apply sum_to_ext. intros i _. ring.
    Qed.

    Lemma orthonormal_kept sp u mo0 mo' : accepted sp -> orthogonal (ncorr sp) u -> rotated_orbitals sp nao u mo0 mo' ->
      orthonormal s nao (nmo sp) mo0 -> orthonormal s nao (nmo sp) mo'.
    Proof.
      intros A [_ Ou] (M & Gf & Gc) O. destruct (correlated_facts A) as (L & _ & I & N & LN). set (pos := nonzero (correlated sp)) in *.
      assert (O' : forall p q, (p < nmo sp)%nat -> (q < nmo sp)%nat -> bil (fun m => el mo0 m p) (fun m => el mo0 m q) = delta p q) by exact O.
      assert (Hpos : forall i, (i < ncorr sp)%nat -> (nth i pos 0 < nmo sp)%nat /\ is_frozen sp (nth i pos 0%nat) = false) by (intros i Hi; apply I, nth_In; rewrite LN; exact Hi).
      assert (Hd : forall i k, (i < ncorr sp)%nat -> (k < ncorr sp)%nat -> @delta F (nth i pos 0%nat) (nth k pos 0%nat) = delta i k).
      { intros i k Hi Hk. unfold delta. destruct (Nat.eqb_spec i k) as [->|Nk]; [rewrite Nat.eqb_refl; reflexivity|].
        destruct (Nat.eqb_spec (nth i pos 0%nat) (nth k pos 0%nat)) as [E|_]; [|reflexivity]. exfalso. apply Nk. eapply NoDup_nth; try eassumption; rewrite LN; assumption. }
      assert (Hnf : forall i q, (i < ncorr sp)%nat -> is_frozen sp q = true -> @delta F (nth i pos 0%nat) q = 0).
      { intros i q Hi Hq. unfold delta. destruct (Nat.eqb_spec (nth i pos 0%nat) q) as [E|_]; [|reflexivity]. destruct (Hpos i Hi) as [_ X]. rewrite E in X. congruence. }
      assert (Cases : forall p, (p < nmo sp)%nat -> is_frozen sp p = true \/ exists j, (j < ncorr sp)%nat /\ p = nth j pos 0%nat).
      { intros p Hp. destruct (is_frozen sp p) eqn:E; [left; reflexivity|right]. assert (X : In p pos) by (apply I; split; assumption).
        destruct (In_nth _ _ 0%nat X) as (j & Hj & <-). exists j. split; [rewrite <- LN; exact Hj|reflexivity]. }
      intros p q Hp Hq. change (bil (fun m => el mo' m p) (fun m => el mo' m q) = delta p q).
      destruct (Cases p Hp) as [Fp|(j & Hj & ->)]; destruct (Cases q Hq) as [Fq|(l & Hl & ->)].
      - rewrite (@bil_ext _ (fun m => el mo0 m p) _ (fun m => el mo0 m q)); [apply O'; assumption| |]; intros m Hm; apply Gf; assumption.
      - rewrite (@bil_ext _ (fun m => el mo0 m p) _ (fun m => sum_to (ncorr sp) (fun i => el mo0 m (nth i pos 0%nat) * el u i l)));
          [|intros m Hm; apply Gf; assumption|intros m Hm; apply Gc; assumption].
        rewrite (@bil_sum_r (ncorr sp) (fun i => el u i l) _ (fun i m => el mo0 m (nth i pos 0%nat))). rewrite sum_to_0; [symmetry; rewrite delta_comm; apply Hnf; assumption|].
        intros i Hi. rewrite O' by (try assumption; apply Hpos; assumption). rewrite delta_comm, Hnf by assumption. ring.
      - rewrite (@bil_ext _ (fun m => sum_to (ncorr sp) (fun i => el mo0 m (nth i pos 0%nat) * el u i j)) _ (fun m => el mo0 m q));
          [|intros m Hm; apply Gc; assumption|intros m Hm; apply Gf; assumption].
        rewrite (@bil_sum_l (ncorr sp) (fun i => el u i j) (fun i m => el mo0 m (nth i pos 0%nat))). rewrite sum_to_0; [symmetry; apply Hnf; assumption|].
        intros i Hi. rewrite O' by (try assumption; apply Hpos; assumption). rewrite Hnf by assumption. ring.
      - rewrite (@bil_ext _ (fun m => sum_to (ncorr sp) (fun i => el mo0 m (nth i pos 0%nat) * el u i j)) _ (fun m => sum_to (ncorr sp) (fun i => el mo0 m (nth i pos 0%nat) * el u i l)));
          [|intros m Hm; apply Gc; assumption|intros m Hm; apply Gc; assumption].
        rewrite (@bil_sum_l (ncorr sp) (fun i => el u i j) (fun i m => el mo0 m (nth i pos 0%nat))).
        rewrite (@sum_to_ext (ncorr sp) _ (fun i => el u i j * el u i l)); [rewrite Ou by assumption; symmetry; apply Hd; assumption|].
        intros i Hi. f_equal. rewrite (@bil_sum_r (ncorr sp) (fun i => el u i l) _ (fun i m => el mo0 m (nth i pos 0%nat))).
        rewrite (@sum_to_ext (ncorr sp) _ (fun k => el u k l * delta k i)); [apply (@sum_to_delta (ncorr sp) (fun k => el u k l)), Hi|].
        intros k Hk. rewrite O' by (apply Hpos; assumption). rewrite Hd, delta_comm by assumption. reflexivity.
    Qed.
  End Metric.

  (** * All the cycles. *)
  Theorem orbitals_ok expm logm det_negative (D : Type) (damp : D -> arr F -> arr F -> result (D * arr F)) okd method sp nao (mo0 : arr F) (d : D) t1s :
    matrix_functions expm logm det_negative -> accelerator damp (antisymmetric (ncorr sp)) okd -> accepted sp -> matrix nao (nmo sp) mo0 -> okd d ->
    Forall (matrix (ncocc sp) (ncvir sp)) t1s ->
    exists mo', brueckner_orbitals F expm logm det_negative damp method sp mo0 d t1s = Ok mo' /\
      exists u, orthogonal (ncorr sp) u /\ rotated_orbitals sp nao u mo0 mo'.
  Proof.
    intros MF AC A M Od Ht. destruct (correlated_facts A) as (L & En & I & N & LN). unfold brueckner_orbitals.
    destruct (to_correlated_ok A M) as (ref & -> & Mr & Gr). cbn [bind].
    assert (G : forall t1s (dd : option D) ut mo, Forall (matrix (ncocc sp) (ncvir sp)) t1s -> (forall s, dd = Some s -> okd s) -> (forall u, ut = Some u -> orthogonal (ncorr sp) u) ->
      (exists u, orthogonal (ncorr sp) u /\ rotated_orbitals sp nao u mo0 mo) ->
      exists mo', orbital_cycles F expm logm det_negative damp method sp ref t1s dd ut mo = Ok mo' /\ exists u, orthogonal (ncorr sp) u /\ rotated_orbitals sp nao u mo0 mo').
    { clear d Od Ht t1s. induction t1s as [|t1 t1s IH]; intros dd ut mo Ht Od Ou Hm; [exists mo; split; [reflexivity|exact Hm]|]. inversion Ht as [|? ? Mt Ht']; subst.
      cbn [orbital_cycles]. destruct (@rotation_ok expm logm det_negative MF D damp okd sp ut dd t1 AC En Mt Ou Od) as (d' & u & ut' & -> & O1 & O2 & O3 & _). cbn [bind].
      destruct Hm as (u1 & _ & Mm & Gf & _). destruct (@update_ok method sp nao ut' mo0 mo ref A Mr (proj1 O2) Mm Gr Gf) as (mo' & -> & R). cbn [bind].
      apply IH; try assumption; [intros x Ex; injection Ex as <-; exact O2|]. exists ut'. split; assumption. }
    apply G; try assumption.
    - intros x Ex. injection Ex as <-. exact Od.
    - discriminate.
    - exists (eye F (ncorr sp)). split; [apply eye_orthogonal|]. split; [exact M|]. split; [reflexivity|]. intros m j Hm Hj.
      rewrite (@sum_to_ext (ncorr sp) _ (fun i => el mo0 m (nth i (nonzero (correlated sp)) 0%nat) * delta i j)).
      + rewrite (@sum_to_delta (ncorr sp) (fun i => el mo0 m (nth i (nonzero (correlated sp)) 0%nat))) by exact Hj. reflexivity.
      + intros i Hi. f_equal. unfold el, eye. rewrite (@aget_tab F 0) by (repeat constructor; assumption). reflexivity.
  Qed.
  Theorem orbitals_orthonormal expm logm det_negative (D : Type) (damp : D -> arr F -> arr F -> result (D * arr F)) okd method sp nao (mo0 : arr F) (d : D) t1s :
    matrix_functions expm logm det_negative -> accelerator damp (antisymmetric (ncorr sp)) okd -> accepted sp -> matrix nao (nmo sp) mo0 -> okd d ->
    Forall (matrix (ncocc sp) (ncvir sp)) t1s ->
    exists mo', brueckner_orbitals F expm logm det_negative damp method sp mo0 d t1s = Ok mo' /\ matrix nao (nmo sp) mo' /\
      (forall m p, (m < nao)%nat -> (p < nmo sp)%nat -> is_frozen sp p = true -> el mo' m p = el mo0 m p) /\
      (forall s, orthonormal s nao (nmo sp) mo0 -> orthonormal s nao (nmo sp) mo').
  Proof.
    intros MF AC A M Od Ht. destruct (@orbitals_ok expm logm det_negative D damp okd method sp nao mo0 d t1s MF AC A M Od Ht) as (mo' & E & u & Ou & R).
    exists mo'. split; [exact E|]. split; [apply R|]. split; [apply R|]. intros s. apply (orthonormal_kept A Ou R).
  Qed.

  (** * Two spins. *)
  Section Spins.
    Variables expm logm : arr F -> arr F.
    Variable det_negative : arr F -> bool.
    Hypothesis MF : matrix_functions expm logm det_negative.
    Hypothesis PD : proper_determinants expm det_negative.
    Variable D : Type.
    Variable damp : D -> arr F -> arr F -> result (D * arr F).
    Variable okd : D -> Prop.

    Lemma advance_proper sp rows (ut t1 : arr F) : ncorr sp = (ncocc sp + ncvir sp)%nat -> matrix (ncocc sp) (ncvir sp) t1 -> orthogonal (ncorr sp) ut -> det_negative ut = false ->
      exists u ut', advance F expm det_negative sp rows ut t1 = Ok (u, ut') /\ orthogonal (ncorr sp) u /\ orthogonal (ncorr sp) ut' /\ det_negative ut' = false.
    Proof.
      intros En Mt Ou Hd. unfold advance. destruct (t1_block_ok Mt) as (b & -> & Ab). cbn [bind]. rewrite <- En in Ab.
      pose proof (exp_orthogonal MF Ab) as Oe. destruct (matmul_ok (proj1 Ou) (proj1 Oe)) as (w & -> & Mw & Gw). cbn [bind].
      pose proof (orthogonal_product Ou Oe Mw Gw) as Ow. pose proof (det_product PD Ou Oe Hd (det_exp PD Ab) Mw Gw) as Dw. rewrite Dw. exists (expm b), w. auto.
    Qed.
    Lemma u_rotation_ok sa sb ut d (ta tb : arr F) : accelerator damp (both_antisymmetric (ncorr sa) (ncorr sb)) okd ->
      ncorr sa = (ncocc sa + ncvir sa)%nat -> ncorr sb = (ncocc sb + ncvir sb)%nat -> matrix (ncocc sa) (ncvir sa) ta -> matrix (ncocc sb) (ncvir sb) tb ->
      (forall u, ut = Some u -> orthogonal (ncorr sa) (fst u) /\ orthogonal (ncorr sb) (snd u) /\ det_negative (fst u) = false /\ det_negative (snd u) = false) ->
      (forall s, d = Some s -> okd s) ->
      exists d' u ut', u_rotation F expm logm det_negative damp sa sb ut d ta tb = Ok (d', u, ut') /\ orthogonal (ncorr sa) (fst u) /\ orthogonal (ncorr sb) (snd u) /\
        (orthogonal (ncorr sa) (fst ut') /\ orthogonal (ncorr sb) (snd ut') /\ det_negative (fst ut') = false /\ det_negative (snd ut') = false) /\
        (forall s, d' = Some s -> okd s).
    Proof.
      intros AC Ea Eb Ma Mb Ou Od. unfold u_rotation. set (u0 := match ut with Some u => u | None => (eye F (ncorr sa), eye F (ncorr sb)) end).
      assert (O0 : orthogonal (ncorr sa) (fst u0) /\ orthogonal (ncorr sb) (snd u0) /\ det_negative (fst u0) = false /\ det_negative (snd u0) = false).
      { unfold u0. destruct ut as [u|]; [apply Ou; reflexivity|]. cbn [fst snd]. 
        assert (DE : forall n, det_negative (eye F n) = false).
        { intros n. apply (det_identity PD (proj1 (eye_orthogonal n))). intros i j Hi Hj. unfold el, eye. rewrite (@aget_tab F 0) by (repeat constructor; assumption). reflexivity. }
        repeat split; try apply eye_orthogonal; apply DE. }
      destruct O0 as (Oa & Ob & Da & Db).
      destruct (@advance_proper sa (rows_of F) (fst u0) ta Ea Ma Oa Da) as (ua & wa & -> & Oua & Owa & Dwa). cbn [bind fst snd].
      destruct (@advance_proper sb (fun _ => rows_of F wa) (snd u0) tb Eb Mb Ob Db) as (ub & wb & -> & Oub & Owb & Dwb). cbn [bind fst snd].
      pose proof (log_antisymmetric MF Owa Dwa) as La. pose proof (log_antisymmetric MF Owb Dwb) as Lb.
      assert (HP : both_antisymmetric (ncorr sa) (ncorr sb) (ravels F (logm wa) (logm wb))) by (exists (logm wa), (logm wb); repeat split; try apply La; try apply Lb; reflexivity).
      assert (Fin : forall v : arr F, both_antisymmetric (ncorr sa) (ncorr sb) v -> exists xa xb : arr F,
        reshape (mkarr [length (dat wa)] (firstn (length (dat wa)) (dat v))) (shp wa) = Ok xa /\
        reshape (mkarr [(length (dat v) - length (dat wa))%nat] (skipn (length (dat wa)) (dat v))) (shp wb) = Ok xb /\
        antisymmetric (ncorr sa) xa /\ antisymmetric (ncorr sb) xb).
      { intros v (a & b & Aa & Ab & Ev). destruct Aa as [[Wa Sa] Ga]. destruct Ab as [[Wb Sb] Gb]. destruct Owa as [[Wwa Swa] _]. destruct Owb as [[Wwb Swb] _].
        assert (LL : length (dat wa) = length (dat a)) by (unfold wf in *; rewrite Wwa, Wa, Swa, Sa; reflexivity).
        exists a, b. rewrite Ev, LL. rewrite firstn_app, firstn_all, Nat.sub_diag, firstn_O, app_nil_r. rewrite skipn_app, skipn_all, Nat.sub_diag. cbn [app skipn].
        rewrite app_length. replace (length (dat a) + length (dat b) - length (dat a))%nat with (length (dat b)) by lia. unfold reshape. cbn [shp dat].
        unfold wf in *. rewrite Swa, Swb, Wa, Wb, Sa, Sb. cbn [prodn fold_right]. rewrite !Nat.mul_1_r, !Nat.eqb_refl.
        split; [f_equal; destruct a; cbn in *; congruence|]. split; [f_equal; destruct b; cbn in *; congruence|].
        split; (split; [split; [unfold wf; rewrite ?Wa, ?Wb, ?Sa, ?Sb; reflexivity|assumption]|assumption]). }
      assert (Fin2 : forall (v : arr F) (dd : option D), both_antisymmetric (ncorr sa) (ncorr sb) v -> (forall s, dd = Some s -> okd s) -> exists d' u ut',
        (xa <- reshape (mkarr [length (dat wa)] (firstn (length (dat wa)) (dat v))) (shp wa) ;;
         xb <- reshape (mkarr [(length (dat v) - length (dat wa))%nat] (skipn (length (dat wa)) (dat v))) (shp wb) ;;
         Ok (dd, (ua, ub), (expm xa, expm xb)))%py = Ok (d', u, ut') /\ orthogonal (ncorr sa) (fst u) /\ orthogonal (ncorr sb) (snd u) /\
        (orthogonal (ncorr sa) (fst ut') /\ orthogonal (ncorr sb) (snd ut') /\ det_negative (fst ut') = false /\ det_negative (snd ut') = false) /\
        (forall s, d' = Some s -> okd s)).
      { intros v dd Hv Hdd. destruct (Fin v Hv) as (xa & xb & -> & -> & Axa & Axb). cbn [bind]. exists dd, (ua, ub), (expm xa, expm xb). cbn [fst snd].
        split; [reflexivity|]. split; [exact Oua|]. split; [exact Oub|]. split; [|exact Hdd].
        split; [apply (exp_orthogonal MF Axa)|]. split; [apply (exp_orthogonal MF Axb)|]. split; [apply (det_exp PD Axa)|apply (det_exp PD Axb)]. }
      destruct d as [s|]; cbn [bind].
      - destruct (AC s _ (ravels F ta tb) (Od s eq_refl) HP) as (s' & v & -> & Os & Hv). cbn [bind fst snd]. apply Fin2; [exact Hv|]. intros x Ex. injection Ex as <-. exact Os.
      - cbn [fst snd]. apply Fin2; [exact HP|discriminate].
    Qed.

    Theorem u_orbitals_ok method sa sb nao (moa mob : arr F) (d : D) t1s : accelerator damp (both_antisymmetric (ncorr sa) (ncorr sb)) okd ->
      accepted sa -> accepted sb -> matrix nao (nmo sa) moa -> matrix nao (nmo sb) mob -> okd d ->
      Forall (fun t => matrix (ncocc sa) (ncvir sa) (fst t) /\ matrix (ncocc sb) (ncvir sb) (snd t)) t1s ->
      exists moa' mob', u_brueckner_orbitals F expm logm det_negative damp method sa sb moa mob d t1s = Ok (moa', mob') /\
        (exists u, orthogonal (ncorr sa) u /\ rotated_orbitals sa nao u moa moa') /\ (exists u, orthogonal (ncorr sb) u /\ rotated_orbitals sb nao u mob mob').
    Proof.
      intros AC Aa Ab Ma Mb Od Ht. destruct (correlated_facts Aa) as (_ & Ea & _). destruct (correlated_facts Ab) as (_ & Eb & _). unfold u_brueckner_orbitals.
      destruct (to_correlated_ok Aa Ma) as (refa & -> & Mra & Gra). cbn [bind]. destruct (to_correlated_ok Ab Mb) as (refb & -> & Mrb & Grb). cbn [bind].
      assert (G : forall t1s (dd : option D) ut ma mb, Forall (fun t => matrix (ncocc sa) (ncvir sa) (fst t) /\ matrix (ncocc sb) (ncvir sb) (snd t)) t1s -> (forall s, dd = Some s -> okd s) ->
        (forall u, ut = Some u -> orthogonal (ncorr sa) (fst u) /\ orthogonal (ncorr sb) (snd u) /\ det_negative (fst u) = false /\ det_negative (snd u) = false) ->
        (exists u, orthogonal (ncorr sa) u /\ rotated_orbitals sa nao u moa ma) -> (exists u, orthogonal (ncorr sb) u /\ rotated_orbitals sb nao u mob mb) ->
        exists moa' mob', u_orbital_cycles F expm logm det_negative damp method sa sb refa refb t1s dd ut ma mb = Ok (moa', mob') /\
          (exists u, orthogonal (ncorr sa) u /\ rotated_orbitals sa nao u moa moa') /\ (exists u, orthogonal (ncorr sb) u /\ rotated_orbitals sb nao u mob mob')).
      { clear d Od Ht t1s. induction t1s as [|[ta tb] t1s IH]; intros dd ut ma mb Ht Od Ou Ha Hb; [exists ma, mb; split; [reflexivity|split; assumption]|].
        inversion Ht as [|? ? [Mta Mtb] Ht']; subst. cbn [fst snd] in Mta, Mtb. cbn [u_orbital_cycles].
        destruct (@u_rotation_ok sa sb ut dd ta tb AC Ea Eb Mta Mtb Ou Od) as (d' & u & ut' & -> & _ & _ & OO & O3). cbn [bind].
        destruct Ha as (u1 & _ & Mm1 & Gf1 & _). destruct Hb as (u2 & _ & Mm2 & Gf2 & _). pose proof OO as (P1 & P2 & _).
        destruct (@update_ok method sa nao (fst ut') moa ma refa Aa Mra (proj1 P1) Mm1 Gra Gf1) as (ma' & -> & R1). cbn [bind].
        destruct (@update_ok method sb nao (snd ut') mob mb refb Ab Mrb (proj1 P2) Mm2 Grb Gf2) as (mb' & -> & R2). cbn [bind].
        apply IH; try assumption; [intros x Ex; injection Ex as <-; exact OO|exists (fst ut'); split; assumption|exists (snd ut'); split; assumption]. }
      assert (Id : forall sp mo, accepted sp -> matrix nao (nmo sp) mo -> exists u, orthogonal (ncorr sp) u /\ rotated_orbitals sp nao u mo mo).
      { intros sp mo A M. exists (eye F (ncorr sp)). split; [apply eye_orthogonal|]. split; [exact M|]. split; [reflexivity|]. intros m j Hm Hj.
        rewrite (@sum_to_ext (ncorr sp) _ (fun i => el mo m (nth i (nonzero (correlated sp)) 0%nat) * delta i j)).
        + rewrite (@sum_to_delta (ncorr sp) (fun i => el mo m (nth i (nonzero (correlated sp)) 0%nat))) by exact Hj. reflexivity.
        + intros i Hi. f_equal. unfold el, eye. rewrite (@aget_tab F 0) by (repeat constructor; assumption). reflexivity. }
      apply G; try assumption; [|discriminate|apply Id; assumption|apply Id; assumption]. intros x Ex. injection Ex as <-. exact Od.
    Qed.
    Theorem u_orbitals_orthonormal method sa sb nao (moa mob : arr F) (d : D) t1s : accelerator damp (both_antisymmetric (ncorr sa) (ncorr sb)) okd ->
      accepted sa -> accepted sb -> matrix nao (nmo sa) moa -> matrix nao (nmo sb) mob -> okd d ->
      Forall (fun t => matrix (ncocc sa) (ncvir sa) (fst t) /\ matrix (ncocc sb) (ncvir sb) (snd t)) t1s ->
      exists moa' mob', u_brueckner_orbitals F expm logm det_negative damp method sa sb moa mob d t1s = Ok (moa', mob') /\
        matrix nao (nmo sa) moa' /\ matrix nao (nmo sb) mob' /\
        (forall m p, (m < nao)%nat -> (p < nmo sa)%nat -> is_frozen sa p = true -> el moa' m p = el moa m p) /\
        (forall m p, (m < nao)%nat -> (p < nmo sb)%nat -> is_frozen sb p = true -> el mob' m p = el mob m p) /\
        (forall s, orthonormal s nao (nmo sa) moa -> orthonormal s nao (nmo sa) moa') /\
        (forall s, orthonormal s nao (nmo sb) mob -> orthonormal s nao (nmo sb) mob').
    Proof.
      intros AC Aa Ab Ma Mb Od Ht. destruct (@u_orbitals_ok method sa sb nao moa mob d t1s AC Aa Ab Ma Mb Od Ht) as (moa' & mob' & E & (u & Ou & R) & (v & Ov & R')).
      exists moa', mob'. split; [exact E|]. split; [apply R|]. split; [apply R'|]. split; [apply R|]. split; [apply R'|].
      split; intros s; [apply (orthonormal_kept Aa Ou R)|apply (orthonormal_kept Ab Ov R')].
    Qed.
  End Spins.
End Orb.
