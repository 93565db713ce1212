(** Proofs about the conversion of amplitudes. *)
From Coq Require Import Permutation Ring.
From Verif Require Import Base Alg ArrModel PermModel TensorModel AnsatzModel ConvModel ConvSpec ListAux ArrProofs TensorSpec SymmProofs.
Set Implicit Arguments.
Local Open Scope list_scope. Local Open Scope py_scope.

(** * Open meshes *)
Definition pick_mesh (inds : list (list nat)) (ks : list nat) : list nat := map (fun ik => nth (snd ik) (fst ik) 0) (combine inds ks).

Lemma product_mesh inds : product inds = map (pick_mesh inds) (all_idx (map (@length nat) inds)).
Proof.
  unfold all_idx. induction inds as [|l inds IH]; [reflexivity|]. cbn [map product].
  assert (E : l = map (fun k => nth k l 0) (seq 0 (length l))).
  { clear. apply nth_ext with (d := 0) (d' := 0); [rewrite map_length, seq_length; reflexivity|]. intros n Hn.
    rewrite nth_map_seq by exact Hn. reflexivity. }
  rewrite E at 1. rewrite !flat_map_concat_map, concat_map, !map_map. f_equal. apply map_ext. intros k. rewrite IH, !map_map. reflexivity.
Qed.

Lemma pick_inb inds s ks : Forall2 (fun l n => forall x, In x l -> x < n) inds s -> inb (map (@length nat) inds) ks -> inb s (pick_mesh inds ks).
Proof.
  intros H. revert ks. induction H as [|l n inds s Hl H IH]; intros ks Hk; inversion Hk; subst; [constructor|].
  cbn. constructor; [apply Hl, nth_In; assumption|]. apply IH. assumption.
Qed.

Lemma pick_inj inds ks ks' : Forall (@NoDup nat) inds -> inb (map (@length nat) inds) ks -> inb (map (@length nat) inds) ks' ->
  pick_mesh inds ks = pick_mesh inds ks' -> ks = ks'.
Proof.
  intros H. revert ks ks'. induction H as [|l inds Hl H IH]; intros ks ks' Hk Hk' E; inversion Hk; inversion Hk'; subst; [reflexivity|].
  cbn in E. injection E as E1 E2. f_equal; [|apply IH; assumption].
  eapply NoDup_nth; [exact Hl| | |exact E1]; assumption.
Qed.

(** Two meshes, equal or disjoint along every axis, with a common point are equal. *)
Lemma pick_meet inds inds' ks ks' : Forall2 (fun l l' => l = l' \/ forall x, In x l -> ~ In x l') inds inds' ->
  inb (map (@length nat) inds) ks -> inb (map (@length nat) inds') ks' -> pick_mesh inds ks = pick_mesh inds' ks' -> inds = inds'.
Proof.
  intros H. revert ks ks'. induction H as [|l l' inds inds' Hl H IH]; intros ks ks' Hk Hk' E; inversion Hk; inversion Hk'; subst; [reflexivity|].
  cbn in E. injection E as E1 E2. f_equal; [|eapply IH; eassumption].
  destruct Hl as [Hl|Hl]; [exact Hl|]. exfalso. eapply Hl; [apply nth_In; eassumption|]. rewrite E1. apply nth_In. assumption.
Qed.

Section Mesh.
  Variable F : fld.
  Local Open Scope rng_scope.
  Add Ring RringConv : (rth F).

  Lemma take_mesh_wf (a : arr F) inds : wf (take_mesh r0 a inds).
  Proof. apply tab_wf. Qed.

  Lemma put_add (acc b : arr F) inds : wf acc -> wf b -> Forall2 (fun l n => forall x, In x l -> (x < n)%nat) inds (shp acc) ->
    Forall (@NoDup nat) inds -> shp b = map (@length nat) inds ->
    exists v, arr_addM F (take_mesh r0 acc inds) b = Ok v /\
      let r := put_mesh F acc inds v in wf r /\ shp r = shp acc /\
      (forall ks, inb (map (@length nat) inds) ks -> aget r0 r (pick_mesh inds ks) = aget r0 acc (pick_mesh inds ks) + aget r0 b ks) /\
      (forall idx, inb (shp acc) idx -> ~ In idx (product inds) -> aget r0 r idx = aget r0 acc idx).
  Proof.
    intros Hw Hb Hin Hnd Hs. set (lens := map (@length nat) inds) in *.
    assert (Hst : shp (take_mesh r0 acc inds) = lens) by reflexivity.
    unfold arr_addM. destruct (list_eq_dec Nat.eq_dec (shp (take_mesh r0 acc inds)) (shp b)) as [E|n0]; [|exfalso; apply n0; rewrite Hs; reflexivity].
    exists (arr_add F (take_mesh r0 acc inds) b). split; [reflexivity|]. cbn zeta. set (v := arr_add F (take_mesh r0 acc inds) b).
    assert (Hv : wf v) by (apply arr_add_wf; [apply take_mesh_wf|exact Hb|exact E]).
    assert (Hvs : shp v = lens) by reflexivity.
    assert (HLp : length (product inds) = prodn lens). { rewrite product_mesh, map_length. apply all_idx_length. }
    assert (HLv : length (dat v) = length (map (ravel (shp acc)) (product inds))). { rewrite map_length, HLp, Hv, Hvs. reflexivity. }
    unfold put_mesh, np_put. set (ws := put_writes _ _ _).
    assert (Hpos : forall p x, In (p, x) ws <-> exists ks, inb lens ks /\ p = ravel (shp acc) (pick_mesh inds ks) /\ x = aget r0 v ks).
    { intros p x. unfold ws. rewrite (put_writes_in r0 (map (ravel (shp acc)) (product inds)) (dat v) p x HLv). rewrite map_length, HLp.
      assert (Hn : forall ks, inb lens ks -> nth (ravel lens ks) (map (ravel (shp acc)) (product inds)) 0%nat = ravel (shp acc) (pick_mesh inds ks)).
      { intros ks Hk. rewrite product_mesh, map_map. fold lens.
        rewrite (@nth_map_lt _ _ (fun k => ravel (shp acc) (pick_mesh inds k)) (all_idx lens) (ravel lens ks) 0%nat []) by (rewrite all_idx_length; apply ravel_lt, Hk).
        rewrite all_idx_nth by exact Hk. reflexivity. }
      split.
      - intros (k & Hk & -> & ->). destruct (ravel_surj lens Hk) as (ks & Hks & <-). exists ks. split; [exact Hks|]. split; [apply Hn, Hks|reflexivity].
      - intros (ks & Hks & -> & ->). exists (ravel lens ks). split; [apply ravel_lt, Hks|]. split; [symmetry; apply Hn, Hks|reflexivity]. }
    split; [|split; [reflexivity|split]].
    - unfold wf. cbn [dat shp]. rewrite writes_length. exact Hw.
    - intros ks Hk. unfold aget at 1. cbn [shp dat].
      rewrite (@writes_in _ (dat acc) ws (ravel (shp acc) (pick_mesh inds ks)) (aget r0 v ks)).
      + unfold v. rewrite aget_add by (try apply take_mesh_wf; assumption). f_equal. unfold take_mesh. rewrite aget_tab by exact Hk. reflexivity.
      + rewrite Hw. apply ravel_lt, pick_inb; assumption.
      + apply Hpos. exists ks. auto.
      + intros x' Hx'. apply Hpos in Hx' as (ks' & Hk' & E1 & ->). f_equal. symmetry.
        apply (@pick_inj inds ks ks' Hnd Hk Hk'). apply (@ravel_inj (shp acc)); [apply pick_inb; assumption|apply pick_inb; assumption|exact E1].
    - intros idx Hi Hni. unfold aget at 1. cbn [shp dat]. rewrite writes_notin; [reflexivity|].
      intros Hk. apply in_map_iff in Hk as ([p x] & Ep & Hk). cbn in Ep. subst p. apply Hpos in Hk as (ks & Hk & E1 & _).
      apply Hni. rewrite product_mesh. apply in_map_iff. exists ks. split; [|apply all_idx_in, Hk].
      apply (@ravel_inj (shp acc)); [apply pick_inb; assumption|exact Hi|]. symmetry. exact E1.
  Qed.
End Mesh.

(** * The loops of from_uebcc as a list of terms *)
(** A term: the spin pattern written to, the two transpositions and the sign. *)
Definition term := (pystr * (list nat * list nat * (Z * Z * Z)))%type.
Definition inner_terms (nb n : nat) (comb combn : pystr) (tr1 : list nat) (z1 z2 : Z) (perms : list (list nat * Z)) : result (list term) :=
  ts <- mapM (fun ps => s <- permute_string (firstn n comb) (fst ps) ;;
                        Ok (if streqb s (firstn n comb) then [(combn, (tr1, seq 0 nb ++ map (Nat.add nb) (fst ps) ++ seq (nb + n) n, (z1, z2, snd ps)))] else [])) perms ;;
  Ok (concat ts).
Fixpoint block_terms (nb n : nat) (comb : pystr) (pairs : list ((list nat * Z) * (list nat * Z))) (done : list pystr) : result (list term) :=
  match pairs with
  | [] => Ok []
  | (l, p) :: rest =>
      c1 <- permute_string (firstn n comb) (fst l) ;;
      c2 <- permute_string (skipn n comb) (fst p) ;;
      let combn := c1 ++ c2 in
      if existsb (streqb combn) done then block_terms nb n comb rest done
      else ts <- inner_terms nb n comb combn (seq 0 nb ++ map (Nat.add nb) (fst l) ++ map (fun q => q + nb + n) (fst p)) (snd l) (snd p)
                   (permutations_with_signs (seq 0 n)) ;;
           rs <- block_terms nb n comb rest (combn :: done) ;; Ok (ts ++ rs)
  end.

Lemma nodup_app {A} (l l' : list A) : NoDup (l ++ l') -> NoDup l /\ NoDup l'.
Proof.
  induction l as [|x l IH]; cbn; intros H; [split; [constructor|exact H]|]. inversion H; subst. destruct (IH H3) as [I1 I2].
  split; [constructor; [|exact I1]; intros Hx; apply H2, in_app_iff; auto|exact I2].
Qed.

(** Meshes of spin patterns. *)
Section Meshes.
  Variable slices : nat -> nat -> list nat.
  Variable size : nat -> nat.
  Definition spins (c : pystr) : Prop := Forall (fun x => x = ch_a \/ x = ch_b) c.
  Definition spin_mesh (c ks : pystr) : list (list nat) := map (fun sk => slices (fst sk) (snd sk)) (combine c ks).

  Lemma slices_facts k s : alpha_beta slices size k -> s = ch_a \/ s = ch_b -> NoDup (slices s k) /\ (forall x, In x (slices s k) -> x < size k).
  Proof.
    unfold alpha_beta. intros P Hs.
    assert (N : NoDup (slices ch_a k ++ slices ch_b k)) by (eapply Permutation_NoDup; [symmetry; exact P|apply seq_NoDup]).
    split.
    - destruct (nodup_app _ _ N). destruct Hs as [->| ->]; assumption.
    - intros x Hx. assert (I : In x (seq 0 (size k))). { eapply Permutation_in; [exact P|]. apply in_app_iff. destruct Hs as [->| ->]; auto. }
      apply in_seq in I. lia.
  Qed.

  Lemma slices_disjoint k x : alpha_beta slices size k -> In x (slices ch_a k) -> In x (slices ch_b k) -> False.
  Proof.
    unfold alpha_beta. intros P Ha Hb.
    assert (N : NoDup (slices ch_a k ++ slices ch_b k)) by (eapply Permutation_NoDup; [symmetry; exact P|apply seq_NoDup]).
    clear -N Ha Hb. induction (slices ch_a k) as [|y l IH]; [destruct Ha|]. cbn in N. inversion N; subst.
    destruct Ha as [->|Ha]; [apply H1, in_app_iff; auto|]. apply IH; assumption.
  Qed.

  Lemma spin_mesh_facts c ks : Forall (alpha_beta slices size) ks -> length c = length ks -> spins c ->
    Forall2 (fun l n => forall x, In x l -> x < n) (spin_mesh c ks) (map size ks) /\ Forall (@NoDup nat) (spin_mesh c ks).
  Proof.
    intros H. revert c. induction H as [|k ks Hk H IH]; intros [|x c] HL Hc; try discriminate; [split; constructor|].
    inversion Hc; subst. destruct (IH c ltac:(cbn in HL; lia) H3) as [I1 I2]. destruct (slices_facts Hk H2) as [N B].
    split; cbn; constructor; assumption.
  Qed.

  Lemma spin_mesh_meet c c' ks is js : Forall (alpha_beta slices size) ks -> length c = length ks -> length c' = length ks -> spins c -> spins c' ->
    inb (map (@length nat) (spin_mesh c ks)) is -> inb (map (@length nat) (spin_mesh c' ks)) js ->
    pick_mesh (spin_mesh c ks) is = pick_mesh (spin_mesh c' ks) js -> c = c'.
  Proof.
    intros H. revert c c' is js. induction H as [|k ks Hk H IH]; intros [|x c] [|x' c'] is js HL HL' Hc Hc' Hi Hj E; try discriminate; [reflexivity|].
    cbn in Hi, Hj. inversion Hi; subst. inversion Hj; subst. inversion Hc; subst. inversion Hc'; subst.
    cbn in E. injection E as E1 E2. f_equal; [|eapply IH; eauto].
    assert (I1 := @nth_In _ x0 (slices x k) 0 ltac:(assumption)). assert (I2 := @nth_In _ x1 (slices x' k) 0 ltac:(assumption)). rewrite E1 in I1.
    repeat match goal with Hs : _ = ch_a \/ _ = ch_b |- _ => destruct Hs; subst end; try reflexivity; exfalso; eapply slices_disjoint; eauto.
  Qed.
End Meshes.

Section Loops.
  Variable F : fld.
  Local Open Scope rng_scope.
  Add Ring RringConv2 : (rth F).
  Variable slices : nat -> nat -> list nat.
  Variable size : nat -> nat.
  Variable nbos : nat.
  Variable nb : nat.
  Variable key : pystr.
  Hypothesis parts : Forall (alpha_beta slices size) (skipn nb key).
  Definition out_shape := (repeat nbos nb ++ map size (skipn nb key))%list.
  Definition mesh (c : pystr) : list (list nat) := (repeat (seq 0 nbos) nb ++ spin_mesh slices c (skipn nb key))%list.
  Definition lens (c : pystr) := map (@length nat) (mesh c).
  Definition pattern (c : pystr) : Prop := length c = length (skipn nb key) /\ spins c.

  Lemma mesh_bounds c : pattern c -> Forall2 (fun l n => forall x, In x l -> (x < n)%nat) (mesh c) out_shape /\ Forall (@NoDup nat) (mesh c).
  Proof.
    intros [HL HF]. destruct (spin_mesh_facts parts HL HF) as [B N]. unfold mesh, out_shape. split.
    - apply Forall2_app; [|exact B]. clear. induction nb; cbn; constructor; [intros x Hx; apply in_seq in Hx; lia|assumption].
    - apply Forall_app. split; [|exact N]. apply Forall_forall. intros l Hl. apply repeat_spec in Hl. subst. apply seq_NoDup.
  Qed.

  Lemma mesh_meet c c' is js : pattern c -> pattern c' -> inb (lens c) is -> inb (lens c') js -> pick_mesh (mesh c) is = pick_mesh (mesh c') js -> c = c'.
  Proof.
    intros [HL HF] [HL' HF']. unfold lens, mesh. revert is js. generalize (repeat (seq 0 nbos) nb) as pre.
    induction pre as [|l pre IH]; intros is js Hi Hj E.
    - cbn [app] in *. eapply spin_mesh_meet; [exact parts|exact HL|exact HL'|exact HF|exact HF'|exact Hi|exact Hj|exact E].
    - cbn in Hi, Hj. inversion Hi; subst. inversion Hj; subst. cbn in E. injection E as E1 E2. eapply IH; eauto.
  Qed.

  (** [r] is [acc] with values added to spin blocks. *)
  Definition block_sum (ts : list (pystr * (list nat -> F))) (s : pystr) (ks : list nat) : F :=
    rsum (map (fun t => if pystr_eq_dec (fst t) s then snd t ks else 0) ts).
  Definition adds (acc r : arr F) (ts : list (pystr * (list nat -> F))) : Prop :=
    wf r /\ shp r = out_shape /\ forall s ks, pattern s -> inb (lens s) ks -> aget r0 r (pick_mesh (mesh s) ks) = aget r0 acc (pick_mesh (mesh s) ks) + block_sum ts s ks.

  Lemma adds_nil acc : wf acc -> shp acc = out_shape -> adds acc acc [].
  Proof. intros H1 H2. split; [exact H1|]. split; [exact H2|]. intros s ks _ _. unfold block_sum. cbn. ring. Qed.
  Lemma adds_app a b c ts us : adds a b ts -> adds b c us -> adds a c (ts ++ us).
  Proof.
    intros (_ & _ & H1) (W & HS & H2). split; [exact W|]. split; [exact HS|]. intros s ks Hp Hk. rewrite (H2 s ks Hp Hk), (H1 s ks Hp Hk).
    unfold block_sum. rewrite map_app, rsum_app. ring.
  Qed.

  Lemma put_step (acc b : arr F) c : wf acc -> shp acc = out_shape -> wf b -> pattern c -> shp b = lens c ->
    exists v, arr_addM F (take_mesh r0 acc (mesh c)) b = Ok v /\ adds acc (put_mesh F acc (mesh c) v) [(c, aget r0 b)].
  Proof.
    intros Hw HS Hb Hp Hs. destruct (mesh_bounds Hp) as [B N]. rewrite <- HS in B.
    destruct (put_add F Hw Hb B N Hs) as (v & Hv & W & S' & H1 & H2). exists v. split; [exact Hv|]. split; [exact W|]. split; [rewrite S'; exact HS|].
    intros s ks Hps Hk. unfold block_sum. cbn [map fst snd]. rewrite rsum_cons. change (rsum (K:=F) []) with (@r0 F).
    destruct (pystr_eq_dec c s) as [<-|n0].
    - rewrite (H1 ks Hk). ring.
    - rewrite H2; [ring| |].
      + rewrite HS. destruct (mesh_bounds Hps) as [B' _]. apply pick_inb; [exact B'|exact Hk].
      + intros Hin. rewrite product_mesh in Hin. apply in_map_iff in Hin as (js & E & Hj). apply all_idx_in in Hj.
        apply n0. eapply mesh_meet; [exact Hp|exact Hps|exact Hj|exact Hk|exact E].
  Qed.

  (** Terms that fit. *)
  Definition fits (sh : list nat) (t : term) : Prop :=
    match t with (c, (tr1, tr2, _)) =>
      pattern c /\ Permutation (seq 0 (length sh)) tr1 /\ Permutation (seq 0 (length sh)) tr2 /\
      map (fun k => nth k (map (fun k => nth k sh 0%nat) tr1) 0%nat) tr2 = lens c
    end.
  Definition term_value (u : arr F) (t : term) : pystr * (list nat -> F) :=
    match t with (c, (tr1, tr2, (z1, z2, z3))) =>
      (c, fun ks => aget r0 u (unperm tr1 (unperm tr2 ks)) * sgn F z1 * sgn F z2 * sgn F z3)
    end.
  Lemma transpose_twice (u t : arr F) tr1 tr2 z1 z2 z3 c : wf u -> fits (shp u) (c, (tr1, tr2, (z1, z2, z3))) -> transpose r0 u tr1 = Ok t ->
    let amp := arr_scale F (sgn F z2) (arr_scale F (sgn F z1) t) in
    exists t2, transpose r0 amp tr2 = Ok t2 /\ wf t2 /\ shp t2 = lens c /\
      forall ks, inb (lens c) ks -> aget r0 (arr_scale F (sgn F z3) t2) ks = snd (term_value u (c, (tr1, tr2, (z1, z2, z3)))) ks.
  Proof.
    intros Hw (Hp & P1 & P2 & E) Ht amp. rewrite transpose_ok in Ht by exact P1. injection Ht as <-.
    assert (LA : length (shp amp) = length (shp u)). { unfold amp. cbn [arr_scale shp tab]. rewrite map_length. symmetry. apply Permutation_length in P1. rewrite seq_length in P1. exact P1. }
    rewrite transpose_ok by (rewrite LA; exact P2). eexists. split; [reflexivity|]. split; [apply tab_wf|].
    assert (S2 : map (fun k => nth k (shp amp) 0%nat) tr2 = lens c) by exact E.
    split; [exact S2|]. intros ks Hk. rewrite aget_scale. rewrite S2, aget_tab by exact Hk. unfold amp. rewrite !aget_scale, aget_tab; [cbn; ring|].
    assert (I : inb (shp amp) (unperm tr2 ks)). { apply unperm_inb; [rewrite LA; exact P2|]. rewrite S2. exact Hk. }
    exact I.
  Qed.
  Lemma adds_ext acc r c f g : adds acc r [(c, f)] -> (forall ks, inb (lens c) ks -> f ks = g ks) -> adds acc r [(c, g)].
  Proof.
    intros (W & S & H) E. split; [exact W|]. split; [exact S|]. intros s ks Hp Hk. rewrite (H s ks Hp Hk). f_equal. unfold block_sum. cbn [map fst snd].
    rewrite !rsum_cons. destruct (pystr_eq_dec c s) as [<-|]; [rewrite (E ks Hk)|]; reflexivity.
  Qed.

  Definition inner (n : nat) (comb : pystr) (inds : list (list nat)) (amp acc : arr F) (ps : list nat * Z) : result (arr F) :=
    let tr := (seq 0 nb ++ map (Nat.add nb) (fst ps) ++ seq (nb + n) n)%list in
    s <- permute_string (firstn n comb) (fst ps) ;;
    if streqb s (firstn n comb)
    then t <- transpose r0 amp tr ;;
         v <- arr_addM F (take_mesh r0 acc inds) (arr_scale F (sgn F (snd ps)) t) ;;
         Ok (put_mesh F acc inds v)
    else Ok acc.

  Lemma put_perms_ok n comb c (u t : arr F) tr1 z1 z2 L : wf u -> transpose r0 u tr1 = Ok t -> forall ts acc,
    inner_terms nb n comb c tr1 z1 z2 L = Ok ts -> Forall (fits (shp u)) ts -> wf acc -> shp acc = out_shape ->
    exists r, foldM (inner n comb (mesh c) (arr_scale F (sgn F z2) (arr_scale F (sgn F z1) t))) L acc = Ok r /\ adds acc r (map (term_value u) ts).
  Proof.
    intros Hu Ht. induction L as [|ps L IH]; intros ts acc HT HF Hw HS.
    - unfold inner_terms in HT. cbn in HT. injection HT as <-. exists acc. split; [reflexivity|]. apply adds_nil; assumption.
    - unfold inner_terms in HT. cbn [mapM] in HT. destruct (permute_string (firstn n comb) (fst ps)) as [s|e] eqn:Es; [|discriminate]. cbn [bind] in HT.
      destruct (mapM _ L) as [tl|e] eqn:El; [|discriminate]. cbn [bind concat] in HT. injection HT as <-.
      assert (HT' : inner_terms nb n comb c tr1 z1 z2 L = Ok (concat tl)). { unfold inner_terms. rewrite El. reflexivity. }
      apply Forall_app in HF as [HF1 HF2]. cbn [foldM]. unfold inner at 1. rewrite Es. cbn [bind].
      destruct (streqb s (firstn n comb)).
      + inversion HF1; subst.
        destruct (@transpose_twice u t _ _ _ _ _ _ Hu H1 Ht) as (t2 & Ht2 & W2 & S2 & V2). cbn zeta in Ht2. rewrite Ht2. cbn [bind].
        destruct (@put_step acc (arr_scale F (sgn F (snd ps)) t2) c Hw HS ltac:(apply arr_scale_wf; exact W2) (proj1 H1) S2) as (v & Hv & Ad). rewrite Hv. cbn [bind].
        pose proof (proj1 Ad) as W'. pose proof (proj1 (proj2 Ad)) as S'.
        destruct (IH _ _ HT' HF2 W' S') as (r & Hr & Ar). exists r. split; [exact Hr|].
        rewrite map_app. eapply adds_app; [|exact Ar]. eapply adds_ext; [exact Ad|]. intros ks Hk. exact (V2 ks Hk).
      + cbn [bind]. destruct (IH _ _ HT' HF2 Hw HS) as (r & Hr & Ar). exists r. split; [exact Hr|]. exact Ar.
  Qed.

  Lemma put_block_ok n comb (u : arr F) : wf u -> forall pairs done ts acc,
    block_terms nb n comb pairs done = Ok ts -> Forall (fits (shp u)) ts ->
    (forall l p, In (l, p) pairs -> Permutation (seq 0 (length (shp u))) (seq 0 nb ++ map (Nat.add nb) (fst l) ++ map (fun q => q + nb + n)%nat (fst p))) ->
    wf acc -> shp acc = out_shape ->
    exists r, put_block F slices nbos nb n key comb u pairs done acc = Ok r /\ adds acc r (map (term_value u) ts).
  Proof.
    intros Hu. induction pairs as [|[l p] pairs IH]; intros done ts acc HT HF HP Hw HS.
    - cbn in HT. injection HT as <-. exists acc. split; [reflexivity|]. apply adds_nil; assumption.
    - cbn [block_terms put_block] in *. destruct (permute_string (firstn n comb) (fst l)) as [c1|]; [|discriminate].
      destruct (permute_string (skipn n comb) (fst p)) as [c2|]; [|discriminate]. cbn [bind] in *.
      destruct (existsb (streqb (c1 ++ c2)) done).
      + apply IH; try assumption. intros l' p' H. apply HP. right. exact H.
      + destruct (inner_terms nb n comb (c1 ++ c2) _ _ _ _) as [t1|] eqn:E1; [|discriminate]. cbn [bind] in HT.
        destruct (block_terms nb n comb pairs ((c1 ++ c2) :: done)) as [rs|] eqn:E2; [|discriminate]. cbn [bind] in HT. injection HT as <-.
        apply Forall_app in HF as [HF1 HF2].
        pose proof (@transpose_ok _ (@r0 F) u _ (HP l p (or_introl eq_refl))) as Ht.
        match type of Ht with _ = Ok ?x => set (t := x) in Ht end. rewrite Ht. cbn [bind].
        destruct (@put_perms_ok n comb (c1 ++ c2) u t _ _ _ _ Hu Ht _ acc E1 HF1 Hw HS) as (r1 & Hr1 & A1).
        fold (spin_mesh slices (c1 ++ c2) (skipn nb key)). fold (mesh (c1 ++ c2)).
        unfold put_perms. fold (inner n comb (mesh (c1 ++ c2)) (arr_scale F (sgn F (snd p)) (arr_scale F (sgn F (snd l)) t))). rewrite Hr1. cbn [bind].
        destruct A1 as (W1 & S1 & V1). destruct (IH _ _ r1 E2 HF2 ltac:(intros l' p' H; apply HP; right; exact H) W1 S1) as (r & Hr & Ar).
        exists r. split; [exact Hr|]. rewrite map_app. eapply adds_app; [|exact Ar]. split; [exact W1|]. split; [exact S1|exact V1].
  Qed.

  (** All spin blocks. *)
  Definition all_pairs n := list_prod (permutations_with_signs (seq 0 n)) (permutations_with_signs (seq 0 n)).
  Lemma blocks_ok n (blocks : dict pystr (arr F)) combs : forall acc tss,
    (forall comb, In comb combs -> exists u ts, dget pystr_eq_dec comb blocks = Some u /\ wf u /\ block_terms nb n comb (all_pairs n) [] = Ok ts /\
       Forall (fits (shp u)) ts /\ tss comb = map (term_value u) ts /\
       (forall l p, In (l, p) (all_pairs n) -> Permutation (seq 0 (length (shp u))) (seq 0 nb ++ map (Nat.add nb) (fst l) ++ map (fun q => q + nb + n)%nat (fst p)))) ->
    wf acc -> shp acc = out_shape ->
    exists r, foldM (fun acc comb =>
             u <- match dget pystr_eq_dec comb blocks with Some u => Ok u | None => Err AttributeError end ;;
             put_block F slices nbos nb n key comb u (all_pairs n) [] acc) combs acc = Ok r /\ adds acc r (flat_map tss combs).
  Proof.
    induction combs as [|comb combs IH]; intros acc tss H Hw HS.
    - exists acc. split; [reflexivity|]. apply adds_nil; assumption.
    - cbn [foldM]. destruct (H comb (or_introl eq_refl)) as (u & ts & Eu & Wu & Et & Ft & ET & HP). rewrite Eu. cbn [bind].
      destruct (@put_block_ok n comb u Wu (all_pairs n) [] ts acc Et Ft HP Hw HS) as (r1 & Hr1 & A1). rewrite Hr1. cbn [bind]. destruct A1 as (W1 & S1 & V1).
      destruct (IH r1 tss ltac:(intros c Hc; apply H; right; exact Hc) W1 S1) as (r & Hr & Ar). exists r. split; [exact Hr|].
      cbn [flat_map]. rewrite ET. eapply adds_app; [|exact Ar]. split; [exact W1|]. split; [exact S1|exact V1].
  Qed.
End Loops.
