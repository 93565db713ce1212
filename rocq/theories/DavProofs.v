(** Proofs about DavModel.v: vectors, Gram-Schmidt, projection, the subspace matrix. *)
From Coq Require Import List Arith Bool Lia Permutation Ring Field.
From Verif Require Import Base ListAux Alg ArrProofs DavModel DavSpec AnsatzRanks KernelProofs.
Import ListNotations.
Set Implicit Arguments.
Local Open Scope nat_scope.

Lemma zip2_length {A B C} (f : A -> B -> C) : forall a b n, length a = n -> length b = n -> length (zip2 f a b) = n.
Proof. induction a as [|x a IH]; intros [|y b] n Ha Hb; cbn in *; try lia. destruct n; [lia|]. rewrite (IH b n); lia. Qed.
Lemma zip2_nth {A B C} (f : A -> B -> C) da db dc : forall a b k, k < length a -> k < length b -> nth k (zip2 f a b) dc = f (nth k a da) (nth k b db).
Proof. induction a as [|x a IH]; intros [|y b] [|k] Ha Hb; cbn in *; try lia; [reflexivity|]. apply IH; lia. Qed.
Lemma zip2_min {A B C} (f : A -> B -> C) : forall a b, length (zip2 f a b) = Nat.min (length a) (length b).
Proof. induction a as [|x a IH]; intros [|y b]; cbn; try reflexivity. rewrite IH. reflexivity. Qed.
Lemma mapM_length {A B} (f : A -> result B) : forall l l', mapM f l = Ok l' -> length l' = length l.
Proof.
  induction l as [|x l IH]; intros l' E; cbn in E; [injection E as <-; reflexivity|]. destruct (f x); [|discriminate]. destruct (mapM f l) eqn:El; [|discriminate].
  injection E as <-. cbn. rewrite (IH _ eq_refl). reflexivity.
Qed.
Lemma mapM_nth {A B} (f : A -> result B) da db : forall l l' k, mapM f l = Ok l' -> k < length l -> f (nth k l da) = Ok (nth k l' db).
Proof.
  induction l as [|x l IH]; intros l' k E Hk; cbn in *; [lia|]. destruct (f x) as [y|] eqn:Ex; [|discriminate]. destruct (mapM f l) as [ys|] eqn:El; [|discriminate].
  injection E as <-. destruct k; [exact Ex|]. cbn. apply IH; [reflexivity|lia].
Qed.

Section Dav.
  Variable F : fld.
  Local Notation vec := (list F).
  Add Field FfieldDav : (fth F).
  Local Open Scope rng_scope.

  Section Vectors.
    Variable n : nat.
    Local Notation "<< a , b >>" := (inner n a b).

    Lemma dot_inner (a b : vec) : length a = n -> length b = n -> dot F a b = <<a, b>>.
    Proof.
      intros Ha Hb. unfold dot, inner. f_equal. apply nth_ext with (d := 0) (d' := 0).
      - rewrite map_length, seq_length. apply zip2_length; assumption.
      - intros k Hk. rewrite (@zip2_length F F F rmul a b n Ha Hb) in Hk.
        rewrite (@zip2_nth F F F rmul 0 0 0) by lia. rewrite nth_map_seq by exact Hk. reflexivity.
    Qed.
    Lemma coord_sub (a b : vec) k : length a = n -> length b = n -> (k < n)%nat -> coord (vsub F a b) k = coord a k - coord b k.
    Proof. intros Ha Hb Hk. unfold coord, vsub. rewrite (@zip2_nth F F F rsub 0 0 0) by lia. reflexivity. Qed.
    Lemma coord_add (a b : vec) k : length a = n -> length b = n -> (k < n)%nat -> coord (vadd F a b) k = coord a k + coord b k.
    Proof. intros Ha Hb Hk. unfold coord, vadd. rewrite (@zip2_nth F F F radd 0 0 0) by lia. reflexivity. Qed.
    Lemma coord_scale c (a : vec) k : coord (scale F c a) k = c * coord a k.
    Proof. unfold coord, scale. destruct (Nat.lt_ge_cases k (length a)) as [H|H]; [rewrite (nth_indep _ 0 (c * 0)) by (rewrite map_length; exact H); apply map_nth|]. 
      rewrite !nth_overflow; [ring|exact H|rewrite map_length; exact H]. Qed.
    Lemma sub_length (a b : vec) : length a = n -> length b = n -> length (vsub F a b) = n.
    Proof. apply zip2_length. Qed.
    Lemma add_length (a b : vec) : length a = n -> length b = n -> length (vadd F a b) = n.
    Proof. apply zip2_length. Qed.
    Lemma scale_length c (a : vec) : length (scale F c a) = length a.
    Proof. apply map_length. Qed.
    Lemma inner_comm (a b : vec) : <<a, b>> = <<b, a>>.
    Proof. unfold inner. apply rsum_map_ext. intros k _. ring. Qed.
    Lemma inner_sub_r (c a b : vec) : length a = n -> length b = n -> <<c, vsub F a b>> = <<c, a>> - <<c, b>>.
    Proof.
      intros Ha Hb. unfold inner. rewrite (@rsum_map_ext F _ _ (fun k => coord c k * coord a k + (- (1)) * (coord c k * coord b k))).
      - rewrite rsum_map_add, rsum_map_mul_l. ring.
      - intros k Hk. apply in_seq in Hk. rewrite coord_sub by (try assumption; lia). ring.
    Qed.
    Lemma inner_add_r (c a b : vec) : length a = n -> length b = n -> <<c, vadd F a b>> = <<c, a>> + <<c, b>>.
    Proof.
      intros Ha Hb. unfold inner. rewrite (@rsum_map_ext F _ _ (fun k => coord c k * coord a k + coord c k * coord b k)).
      - rewrite rsum_map_add. reflexivity.
      - intros k Hk. apply in_seq in Hk. rewrite coord_add by (try assumption; lia). ring.
    Qed.
    Lemma inner_scale_r c (a b : vec) : <<a, scale F c b>> = c * <<a, b>>.
    Proof.
      unfold inner. rewrite (@rsum_map_ext F _ _ (fun k => c * (coord a k * coord b k))); [rewrite rsum_map_mul_l; reflexivity|].
      intros k _. rewrite coord_scale. ring.
    Qed.
    Lemma div_scale x (a : vec) : map (fun y => y / x) a = scale F (finv x) a.
    Proof. unfold scale. apply map_ext. intros y. rewrite (Fdiv_def (fth F)). ring. Qed.
    Lemma nth_zeros {A} (l : list A) : forall k, nth k (map (fun _ => @r0 F) l) 0 = 0.
    Proof. induction l as [|x l IH]; intros [|k]; cbn; try reflexivity. apply IH. Qed.

    (** Orthonormality in the form of lists. *)
    Definition osn (l : list vec) : Prop := Forall (fun x => length x = n /\ <<x, x>> = 1) l /\ ForallOrdPairs (fun x y => <<x, y>> = 0) l.
    Lemma osn_nil : osn [].
    Proof. split; constructor. Qed.
    Lemma fop_app {A} (R : A -> A -> Prop) l1 l2 : ForallOrdPairs R l1 -> ForallOrdPairs R l2 -> (forall x y, In x l1 -> In y l2 -> R x y) -> ForallOrdPairs R (l1 ++ l2).
    Proof.
      induction 1 as [|x l1 Hx H1 IH]; intros H2 H; [exact H2|]. cbn. constructor.
      - apply Forall_app. split; [exact Hx|]. apply Forall_forall. intros y Hy. apply H; [left; reflexivity|exact Hy].
      - apply IH; [exact H2|]. intros a b Ha Hb. apply H; [right; exact Ha|exact Hb].
    Qed.
    Lemma osn_app l1 l2 : osn l1 -> osn l2 -> (forall x y, In x l1 -> In y l2 -> <<x, y>> = 0) -> osn (l1 ++ l2).
    Proof. intros [U1 P1] [U2 P2] H. split; [apply Forall_app; split; assumption|]. apply fop_app; assumption. Qed.
    Lemma fop_firstn {A} (R : A -> A -> Prop) : forall k l, ForallOrdPairs R l -> ForallOrdPairs R (firstn k l).
    Proof.
      induction k as [|k IH]; intros l H; [constructor|]. destruct H as [|x l Hx H]; cbn; constructor; [|apply IH, H].
      rewrite Forall_forall in *. intros y Hy. apply Hx. rewrite <- (firstn_skipn k l). apply in_or_app. left. exact Hy.
    Qed.
    Lemma osn_firstn k l : osn l -> osn (firstn k l).
    Proof. intros [U P]. split; [|apply fop_firstn, P]. rewrite Forall_forall in *. intros x Hx. apply U. rewrite <- (firstn_skipn k l). apply in_or_app. left. exact Hx. Qed.
    Lemma fop_nth {A} (R : A -> A -> Prop) d : forall l, ForallOrdPairs R l -> forall i j, (i < j)%nat -> (j < length l)%nat -> R (nth i l d) (nth j l d).
    Proof.
      induction 1 as [|x l Hx H IH]; intros i j Hij Hj; [cbn in Hj; lia|]. cbn in Hj. destruct i, j; try lia; cbn.
      - rewrite Forall_forall in Hx. apply Hx, nth_In. lia.
      - apply IH; lia.
    Qed.
    Lemma osn_set l : osn l -> orthonormal_set n l.
    Proof.
      intros [U P]. rewrite Forall_forall in U. split; [intros x Hx; apply U, Hx|]. intros i j Hi Hj. destruct (Nat.eqb_spec i j) as [->|N].
      - apply U, nth_In, Hj.
      - destruct (Nat.lt_ge_cases i j); [apply (fop_nth [] P); lia|]. rewrite inner_comm. apply (fop_nth [] P); lia.
    Qed.

    Variable norm : vec -> F.
    Variable ltb : F -> F -> bool.
    Variable tol : F.
    Hypothesis Hnorm : is_norm n norm.
    Hypothesis Htol : ltb tol 0 = false.

    Lemma kept_unit (v : vec) : length v = n -> ltb tol (norm v * norm v) = true -> norm v <> 0 /\ <<map (fun x => x / norm v) v, map (fun x => x / norm v) v>> = 1.
    Proof.
      intros Hv H. assert (Nz : norm v <> 0). { intros E. rewrite E in H. replace (@r0 F * 0) with (@r0 F) in H by ring. congruence. }
      split; [exact Nz|]. destruct (Hnorm v Hv) as [E|E]; [|contradiction]. rewrite div_scale, inner_scale_r, inner_comm, inner_scale_r, <- E. field. exact Nz.
    Qed.

    (** Projecting the vectors out, one after the other. *)
    Lemma sweep_ok : forall (out : list vec) (v : vec), osn out -> length v = n ->
      let w := fold_left (fun w b => vsub F w (scale F (dot F b w) b)) out v in
      length w = n /\ (forall b, In b out -> <<b, w>> = 0) /\ (forall x, (forall b, In b out -> <<x, b>> = 0) -> <<x, w>> = <<x, v>>).
    Proof.
      induction out as [|b out IH] using rev_ind; intros v HO Hv; cbn [fold_left]; [split; [exact Hv|]; split; [intros b []|reflexivity]|].
      rewrite fold_left_app. cbn [fold_left]. destruct HO as [U P]. apply Forall_app in U. destruct U as [U1 U2]. inversion U2 as [|? ? [Lb Ub] _]; subst.
      assert (PS : ForallOrdPairs (fun x y => <<x, y>> = 0) out /\ forall x, In x out -> <<x, b>> = 0).
      { clear - P. induction out as [|y out IH]; [split; [constructor|intros x []]|]. cbn in P. inversion P as [|? ? Hy P']; subst. destruct (IH P') as [P1 P2].
        rewrite Forall_forall in Hy. split; [constructor; [apply Forall_forall; intros z Hz; apply Hy, in_or_app; left; exact Hz|exact P1]|].
        intros x [<-|Hx]; [apply Hy, in_or_app; right; left; reflexivity|apply P2, Hx]. }
      destruct PS as [P1 P2]. destruct (IH v (conj U1 P1) Hv) as (Lw & Ow & Iw). set (w := fold_left _ out v) in *.
      assert (Lsc : length (scale F (dot F b w) b) = n) by (rewrite scale_length; exact Lb).
      split; [apply sub_length; assumption|]. split.
      - intros x Hx. rewrite inner_sub_r, inner_scale_r, dot_inner by assumption. apply in_app_or in Hx. destruct Hx as [Hx|[<-|[]]].
        + rewrite Ow, P2 by exact Hx. ring.
        + rewrite Ub. ring.
      - intros x Hx. rewrite inner_sub_r, inner_scale_r by assumption. rewrite Iw by (intros y Hy; apply Hx, in_or_app; left; exact Hy).
        rewrite (Hx b) by (apply in_or_app; right; left; reflexivity). ring.
    Qed.

    (** [P]: a property of vectors that sweeping and scaling keep, such as being orthogonal to given vectors. *)
    Definition orth_to (basis : list vec) (v : vec) : Prop := forall b, In b basis -> <<b, v>> = 0.
    Lemma sweep_orth basis : forall out (v : vec), (forall x, In x out -> length x = n /\ orth_to basis x) -> length v = n -> orth_to basis v ->
      length (fold_left (fun w b => vsub F w (scale F (dot F b w) b)) out v) = n /\ orth_to basis (fold_left (fun w b => vsub F w (scale F (dot F b w) b)) out v).
    Proof.
      induction out as [|x out IH]; intros v Ho Lv Ov; [split; assumption|]. cbn [fold_left]. destruct (Ho x (or_introl eq_refl)) as [Lx Ox].
      apply IH; [intros y Hy; apply Ho; right; exact Hy|apply sub_length; [exact Lv|rewrite scale_length; exact Lx]|].
      intros b Hb. rewrite inner_sub_r, inner_scale_r, Ov, Ox by (try assumption; rewrite scale_length; exact Lx). ring.
    Qed.

    Lemma orth_fold basis : forall (l out : list vec), osn out -> (forall x, In x out -> orth_to basis x) -> Forall (fun x => length x = n /\ orth_to basis x) l ->
      let r := fold_left (orth_step F ltb norm tol) l out in osn r /\ (forall x, In x r -> orth_to basis x) /\ (length r <= length out + length l)%nat.
    Proof.
      induction l as [|v l IH]; intros out HO HB HL; cbn [fold_left]; [split; [exact HO|]; split; [exact HB|cbn; lia]|].
      inversion HL as [|? ? [Lv Ov] HL']; subst. unfold orth_step at 2 4 6.
      destruct (@sweep_ok out v HO Lv) as (Lw & Ow & _). assert (U := proj1 HO). rewrite Forall_forall in U.
      destruct (@sweep_orth basis out v) as [_ OB]; [intros x Hx; split; [apply U, Hx|apply HB, Hx]|exact Lv|exact Ov|]. set (w := fold_left _ out v) in *.
      destruct (ltb tol (norm w * norm w)) eqn:E.
      - destruct (@kept_unit w Lw E) as [Nz U1]. set (x := map _ w) in *.
        assert (Lx : length x = n) by (unfold x; rewrite map_length; exact Lw).
        destruct (IH (out ++ [x])) as (A & B & C); [| |exact HL'|split; [exact A|]; split; [exact B|rewrite app_length in C; cbn in *; lia]].
        + apply osn_app; [exact HO|split; [constructor; [split; assumption|constructor]|constructor; constructor]|].
          intros a b Ha [<-|[]]. unfold x. rewrite div_scale, inner_scale_r, Ow by exact Ha. ring.
        + intros a Ha. apply in_app_or in Ha. destruct Ha as [Ha|[<-|[]]]; [apply HB, Ha|]. intros b Hb. unfold x. rewrite div_scale, inner_scale_r, OB by exact Hb. ring.
      - destruct (IH out HO HB HL') as (A & B & C). split; [exact A|]. split; [exact B|cbn; lia].
    Qed.
    Lemma orthonormalise_ok basis l r : Forall (fun x => length x = n /\ orth_to basis x) l -> orthonormalise F ltb norm tol l = Ok r ->
      osn r /\ (forall x, In x r -> orth_to basis x) /\ (length r <= length l)%nat /\ r <> [].
    Proof.
      intros HL E. unfold orthonormalise in E. destruct (@orth_fold basis l [] osn_nil (fun x H => match H with end) HL) as (A & B & C).
      destruct (fold_left _ l []) eqn:Ef; [discriminate|]. injection E as <-. split; [exact A|]. split; [exact B|]. split; [exact C|discriminate].
    Qed.

    Lemma project_ok basis (v : vec) : osn basis -> length v = n -> length (project_one F basis v) = n /\ orth_to basis (project_one F basis v).
    Proof.
      intros HO Lv. unfold project_one. set (z := map (fun _ => 0) v).
      assert (Lz : length z = n) by (unfold z; rewrite map_length; exact Lv).
      assert (Zz : forall x, <<x, z>> = 0).
      { intros x. unfold inner. apply rsum_map_0. intros k _. unfold z, coord. rewrite nth_zeros. ring. }
      assert (G : forall l, (forall x, In x l -> length x = n) -> length (fold_right (fun b acc => vadd F (scale F (dot F v b) b) acc) z l) = n /\
        forall x, <<x, fold_right (fun b acc => vadd F (scale F (dot F v b) b) acc) z l>> = rsum (map (fun b => <<v, b>> * <<x, b>>) l)).
      { induction l as [|b l IH]; intros Hl; cbn [fold_right map]; [split; [exact Lz|exact Zz]|]. destruct (IH (fun x Hx => Hl x (or_intror Hx))) as [L G].
        assert (Lb : length b = n) by (apply Hl; left; reflexivity). assert (Ls : length (scale F (dot F v b) b) = n) by (rewrite scale_length; exact Lb).
        split; [apply add_length; assumption|]. intros x. rewrite inner_add_r, inner_scale_r, G, dot_inner, rsum_cons by assumption. reflexivity. }
      destruct HO as [U P]. rewrite Forall_forall in U. destruct (G basis (fun x Hx => proj1 (U x Hx))) as [L GG].
      split; [apply sub_length; assumption|]. intros b Hb. rewrite inner_sub_r, GG by assumption.
      assert (S : rsum (map (fun c => <<v, c>> * <<b, c>>) basis) = <<v, b>>); [|rewrite S, (inner_comm b v); ring].
      clear GG L. induction basis as [|c l IH]; [destruct Hb|]. cbn [map]. rewrite rsum_cons. inversion P as [|c' l' Hc P' E1]; subst c' l'. rewrite Forall_forall in Hc.
      destruct Hb as [<-|Hb].
      - rewrite (proj2 (U c (or_introl eq_refl))). rewrite rsum_map_0; [ring|]. intros y Hy. rewrite Hc by exact Hy. ring.
      - rewrite IH; [|intros x Hx; apply U; right; exact Hx|exact P'|exact Hb]. rewrite (inner_comm b c), (Hc b Hb). ring.
    Qed.
    Lemma normalise_ok basis l : Forall (fun x => length x = n /\ orth_to basis x) l ->
      Forall (fun x => (length x = n /\ <<x, x>> = 1) /\ orth_to basis x) (normalise F ltb norm tol l) /\ (length (normalise F ltb norm tol l) <= length l)%nat.
    Proof.
      intros H. unfold normalise. split.
      - rewrite Forall_forall in *. intros x Hx. apply in_map_iff in Hx. destruct Hx as (v & <- & Hv). apply filter_In in Hv. destruct Hv as [Hv E]. destruct (H v Hv) as [Lv Ov].
        destruct (kept_unit v Lv E) as [_ U]. split; [split; [rewrite map_length; exact Lv|exact U]|]. intros b Hb. rewrite div_scale, inner_scale_r, Ov by exact Hb. ring.
      - rewrite map_length. clear. induction l as [|x l IH]; cbn; [lia|]. destruct (ltb _ _); cbn; lia.
    Qed.
  End Vectors.

  (** The subspace matrix. *)
  Lemma fill_ok n matvec size (prev m : matrix F) (b0 trial : list vec) : (forall x, In x (b0 ++ trial) -> length x = n) ->
    (forall x, length x = n -> length (matvec x) = n) -> represents n matvec b0 prev ->
    fill (F := F) size prev (b0 ++ trial) (map matvec b0 ++ map matvec trial) trial (map matvec trial) = Ok m -> represents n matvec (b0 ++ trial) m.
  Proof.
    intros HL HM HR E. unfold fill in E. rewrite app_length, !map_length in E.
    replace (length b0 + length trial - length trial)%nat with (length b0) in E by lia.
    apply bind_ok in E as (m1 & E1 & E). apply bind_ok in E as (m2 & E2 & E3).
    unfold put in E1, E2, E3. destruct (_ || _) in E1; [|discriminate]. destruct (_ || _) in E2; [|discriminate]. destruct (_ || _) in E3; [|discriminate].
    apply ok_inj in E1, E2, E3. subst m1 m2 m. intros i j Hi Hj. rewrite app_length in Hi, Hj. unfold row.
    assert (N1 : forall k, (k < length b0)%nat -> nth k (b0 ++ trial) [] = nth k b0 []) by (intros k Hk; apply app_nth1, Hk).
    assert (N2 : forall k, (length b0 <= k)%nat -> nth k (b0 ++ trial) [] = nth (k - length b0) trial []) by (intros k Hk; apply app_nth2, Hk).
    assert (N3 : forall k, (k < length b0 + length trial)%nat -> length (nth k (b0 ++ trial) []) = n) by (intros k Hk; apply HL, nth_In; rewrite app_length; exact Hk).
    assert (M : forall l k, (k < length l)%nat -> nth k (map matvec l) [] = matvec (nth k l [])).
    { intros l k Hk. rewrite (nth_indep _ [] (matvec [])) by (rewrite map_length; exact Hk). apply map_nth. }
    destruct (Nat.lt_ge_cases i (length b0)) as [Ci|Ci]; destruct (Nat.lt_ge_cases j (length b0)) as [Cj|Cj].
    - replace (length b0 <=? i)%nat with false by (symmetry; apply Nat.leb_gt; exact Ci). cbn [andb]. replace (length b0 <=? j)%nat with false by (symmetry; apply Nat.leb_gt; exact Cj).
      rewrite !andb_false_r. cbn [andb]. rewrite (N1 i Ci), (N1 j Cj). apply HR; assumption.
    - replace (length b0 <=? i)%nat with false by (symmetry; apply Nat.leb_gt; exact Ci). replace (length b0 <=? j)%nat with true by (symmetry; apply Nat.leb_le; exact Cj).
      replace (i <? length b0)%nat with true by (symmetry; apply Nat.ltb_lt; exact Ci). replace (j <? length b0 + length trial)%nat with true by (symmetry; apply Nat.ltb_lt; exact Hj).
      cbn [andb Nat.leb]. rewrite Nat.sub_0_r, M by lia. rewrite <- (N2 j Cj). apply dot_inner; [apply N3; lia|apply HM, N3; lia].
    - replace (length b0 <=? i)%nat with true by (symmetry; apply Nat.leb_le; exact Ci). replace (i <? length b0 + length trial)%nat with true by (symmetry; apply Nat.ltb_lt; exact Hi).
      replace (j <? length b0)%nat with true by (symmetry; apply Nat.ltb_lt; exact Cj). cbn [andb Nat.leb]. rewrite Nat.sub_0_r. rewrite app_nth1 by (rewrite map_length; exact Cj).
      rewrite M by exact Cj. rewrite <- (N2 i Ci), <- (N1 j Cj). apply dot_inner; [apply N3; lia|apply HM, N3; lia].
    - replace (length b0 <=? i)%nat with true by (symmetry; apply Nat.leb_le; exact Ci). replace (i <? length b0 + length trial)%nat with true by (symmetry; apply Nat.ltb_lt; exact Hi).
      replace (j <? length b0)%nat with false by (symmetry; apply Nat.ltb_ge; exact Cj). rewrite !andb_false_r.
      replace (i <? length b0)%nat with false by (symmetry; apply Nat.ltb_ge; exact Ci). rewrite !andb_false_r. cbn [andb]. 
      replace (length b0 <=? j)%nat with true by (symmetry; apply Nat.leb_le; exact Cj). replace (j <? length b0 + length trial)%nat with true by (symmetry; apply Nat.ltb_lt; exact Hj).
      cbn [andb]. rewrite M by lia. rewrite <- (N2 i Ci), <- (N2 j Cj). apply dot_inner; [apply N3; lia|apply HM, N3; lia].
  Qed.
  Lemma fill_fits size (prev : matrix F) b mb t mt : (length mb <= size)%nat -> exists m, fill (F := F) size prev b mb t mt = Ok m.
  Proof.
    intros H. unfold fill, put. assert (A : (length mb - length mt <= size)%nat) by lia. apply Nat.leb_le in H, A. rewrite H, A. cbn [andb orb bind]. eexists. reflexivity.
  Qed.
End Dav.
