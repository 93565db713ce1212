(** What the results of the Davidson solver mean. *)
From Coq Require Import List Arith Bool Lia Permutation Sorted Ring Field.
From Verif Require Import Base ListAux Alg ArrProofs DavModel DavSpec DavProofs DavThms AnsatzRanks KernelProofs.
Import ListNotations.
Set Implicit Arguments.
Local Open Scope nat_scope.

Section Comb.
  Variable F : fld.
  Local Notation vec := (list F).
  Add Field FfieldDavC : (fth F).
  Local Open Scope rng_scope.
  Variable n : nat.
  Variable matvec : vec -> vec.
  Hypothesis Hlin : linear_map n matvec.

  Lemma vec_ext (a b : vec) : length a = n -> length b = n -> (forall k, (k < n)%nat -> coord a k = coord b k) -> a = b.
  Proof. intros Ha Hb H. apply (nth_ext _ _ (@r0 F) (@r0 F)); [congruence|]. intros k Hk. apply H. congruence. Qed.
  Lemma mat_add (u v : vec) : length u = n -> length v = n -> matvec (vadd F u v) = vadd F (matvec u) (matvec v).
  Proof.
    destruct Hlin as (L & A & _). intros Hu Hv. apply vec_ext; [apply L, add_length; assumption|apply add_length; apply L; assumption|].
    intros k Hk. rewrite (@A u v (vadd F u v)); try assumption; [|apply add_length; assumption|intros j Hj; apply (@coord_add F n); assumption].
    rewrite (@coord_add F n); [reflexivity|apply L; assumption|apply L; assumption|assumption].
  Qed.
  Lemma mat_scale c (u : vec) : length u = n -> matvec (scale F c u) = scale F c (matvec u).
  Proof.
    destruct Hlin as (L & _ & A). intros Hu. apply vec_ext; [apply L; rewrite scale_length; assumption|rewrite scale_length; apply L; assumption|].
    intros k Hk. rewrite (@A c u (scale F c u)); try assumption; [|rewrite scale_length; assumption|intros j Hj; apply coord_scale]. symmetry. apply coord_scale.
  Qed.
  Lemma coord_zeros k : coord (repeat (@r0 F) n) k = 0.
  Proof. unfold coord. destruct (nth_in_or_default k (repeat (@r0 F) n) 0) as [H|H]; [apply (repeat_spec _ _ _ H)|exact H]. Qed.
  Lemma mat_zero : matvec (repeat r0 n) = repeat r0 n.
  Proof.
    destruct Hlin as (L & _ & A). apply vec_ext; [apply L, repeat_length|apply repeat_length|]. intros k Hk.
    rewrite (@A 0 (repeat r0 n) (repeat r0 n)); try apply repeat_length; try assumption; [rewrite coord_zeros; ring|]. intros j Hj. rewrite coord_zeros. ring.
  Qed.
  Definition comb (c : vec) (b : list vec) : vec := fold_right (vadd F) (repeat r0 n) (zip2 (scale F) c b).
  Lemma comb_length c (b : list vec) : (forall x, In x b -> length x = n) -> length (comb c b) = n.
  Proof.
    unfold comb. revert c. induction b as [|y b IH]; intros [|z c] Hb; cbn [zip2 fold_right]; try apply repeat_length.
    apply add_length; [rewrite scale_length; apply Hb; left; reflexivity|apply IH; intros x Hx; apply Hb; right; exact Hx].
  Qed.
  Lemma mat_comb : forall c (b : list vec), (forall x, In x b -> length x = n) -> matvec (comb c b) = comb c (map matvec b).
  Proof.
    intros c b. revert c. induction b as [|y b IH]; intros [|z c] Hb; cbn [comb zip2 map fold_right]; try apply mat_zero. unfold comb in *. cbn [zip2 map fold_right].
    assert (Hb' : forall x, In x b -> length x = n) by (intros x Hx; apply Hb; right; exact Hx).
    rewrite mat_add, mat_scale, IH; [reflexivity|exact Hb'|apply Hb; left; reflexivity|rewrite scale_length; apply Hb; left; reflexivity|apply comb_length, Hb'].
  Qed.
  Lemma inner_zeros (y : vec) : inner n y (repeat r0 n) = 0.
  Proof. unfold inner. apply rsum_map_0. intros k _. rewrite coord_zeros. ring. Qed.
  (** The inner product with a combination. *)
  Lemma inner_comb (y : vec) : forall c (b : list vec), length c = length b -> (forall x, In x b -> length x = n) ->
    inner n y (comb c b) = rsum (map (fun j => coord c j * inner n y (nth j b [])) (seq 0 (length b))).
  Proof.
    intros c b. revert c. induction b as [|x b IH]; intros [|z c] Hl Hb; try discriminate; [apply inner_zeros|]. unfold comb in *. cbn [zip2 fold_right length].
    rewrite (@inner_add_r F n), (@inner_scale_r F n), IH; [|cbn in Hl; lia|intros u Hu; apply Hb; right; exact Hu|rewrite scale_length; apply Hb; left; reflexivity|].
    2: { apply comb_length. intros u Hu. apply Hb. right. exact Hu. }
    rewrite <- cons_seq. cbn [map]. rewrite rsum_cons. f_equal. rewrite <- seq_shift, map_map. reflexivity.
  Qed.
End Comb.

Section Conv.
  Variable F : fld.
  Local Notation vec := (list F).
  Local Notation cplx := (F * F)%type.
  Add Field FfieldDavD : (fth F).
  Variable ltb : F -> F -> bool.
  Variable norm : vec -> F.
  Variable matvec : vec -> vec.
  Variable eig : list vec -> list cplx * list (list cplx).
  Variable eig_left : list vec -> list cplx * list (list cplx) * list (list cplx).
  Variable pick : list cplx -> list (list cplx) -> nat -> list vec -> result (list F * list vec * list nat).
  Variables (diag : vec) (nroots max_space max_trials : nat) (e_tol loose_tol lindep_tol ptol level_shift : F).
  Local Notation n := (length diag).
  Hypothesis Hnorm : is_norm n norm.
  Hypothesis Htol : ltb lindep_tol r0 = false.
  Hypothesis Hlin : linear_map n matvec.
  Local Notation cyc := (cycle (F := F) ltb norm matvec eig pick diag nroots max_space max_trials e_tol loose_tol lindep_tol ptol level_shift).

  Definition small (w : F) (x : vec) : Prop := ltb (norm (vsub F (matvec x) (scale F w x))) loose_tol = true.
  Definition quality (s : state F) : Prop :=
    forall k, nth k (conv_of s) false = true -> k < length (w_of s) /\ k < length (vectors s) /\ small (nth k (w_of s) r0) (nth k (vectors s) []).
  Definition counted (s : state F) : Prop := length (vectors s) = length (w_of s) /\ length (w_of s) <= nroots /\ length (v_of s) = length (w_of s).
  (** The vectors are the combinations of the basis vectors given by the columns. *)
  Definition combined (s : state F) : Prop :=
    forall k, k < length (v_of s) -> length (nth k (v_of s) []) = length (basis s) /\ nth k (vectors s) [] = comb F n (nth k (v_of s) []) (basis s).

  Lemma nth_zip2_true {A B} (f : A -> B -> bool) : forall a b k, nth k (zip2 f a b) false = true ->
    forall da db, k < length a /\ k < length b /\ f (nth k a da) (nth k b db) = true.
  Proof.
    induction a as [|x a IH]; intros [|y b] [|k] H da db; cbn in *; try discriminate; try (destruct k; discriminate).
    - split; [lia|]. split; [lia|exact H].
    - destruct (IH b k H da db) as (A1 & A2 & A3). split; [lia|]. split; [lia|exact A3].
  Qed.
  Lemma cycle_quality B s o : nroots <= B -> good matvec diag nroots max_space B s -> cyc false s = Ok o -> quality (state_of o) /\ counted (state_of o) /\ combined (state_of o).
  Proof.
    intros HB G E. pose proof (proj1 Hlin) as Hmat.
    destruct (@cycle_step F ltb norm matvec eig pick diag nroots max_space max_trials e_tol loose_tol lindep_tol ptol level_shift Hnorm Htol Hmat B HB false s o G E) as [(_ & _ & Os & _) _].
    unfold cycle in E. apply bind_ok in E as (t & Et & E). destruct (@trials_ok F ltb norm matvec diag nroots max_space max_trials lindep_tol Hnorm Htol B HB s t G Et) as (Ob & _).
    apply bind_ok in E as (mt & Emt & E). assert (Hmt : mt = map matvec t) by (destruct t; [discriminate|]; apply ok_inj in Emt; symmetry; exact Emt). subst mt. clear Emt Et.
    set (b0 := if restart s then [] else basis s) in *. set (b := b0 ++ t) in *.
    assert (Em : (if restart s then [] else mbasis s) = map matvec b0). { unfold b0. destruct G as [_ G]. destruct (restart s); [reflexivity|]. apply G. }
    rewrite Em in E. apply bind_ok in E as (m & Em' & E). rewrite <- map_app in E. fold b in E.
    assert (Sb : forall x, In x b -> length x = n). { destruct Ob as [U _]. rewrite Forall_forall in U. intros x Hx. apply U, Hx. } clearbody b0 b. clear Ob Os.
    destruct (eig _) as [ew ev]. apply bind_ok in E as ([[w v] idx] & Ep & E). destruct w as [|w0 w']; [discriminate|].
    set (w := firstn nroots (w0 :: w')) in *. set (v1 := firstn nroots v) in *. assert (Lw : length w <= nroots) by (unfold w; rewrite firstn_length; lia). clearbody w v1.
    apply bind_ok in E as (vecs & Ev & E). apply bind_ok in E as (mvecs & Emv & E).
    destruct (negb (length w =? length v1)) eqn:Ewv; [discriminate|]. apply negb_false_iff, Nat.eqb_eq in Ewv.
    pose proof (mapM_length _ _ Ev) as Lv. pose proof (mapM_length _ _ Emv) as Lmv.
    assert (Cv : forall k, k < length v1 -> length (nth k v1 []) = length b /\ nth k vecs [] = comb F n (nth k v1 []) b).
    { intros k Hk. pose proof (@mapM_nth _ _ _ [] [] _ _ k Ev Hk) as X. cbn beta in X. unfold combine_rows in X.
      destruct (length (nth k v1 []) =? length b) eqn:El; [|discriminate]. apply Nat.eqb_eq in El. apply ok_inj in X. split; [exact El|symmetry; exact X]. }
    assert (Cm : forall k, k < length v1 -> nth k mvecs [] = matvec (nth k vecs [])).
    { intros k Hk. pose proof (@mapM_nth _ _ _ [] [] _ _ k Emv Hk) as X. cbn beta in X. unfold combine_rows in X.
      destruct (length (nth k v1 []) =? length (map matvec b)) eqn:El; [|discriminate]. apply ok_inj in X. destruct (Cv k Hk) as [_ ->].
      rewrite (mat_comb Hlin _ _ Sb). symmetry. exact X. }
    set (resid := zip2 (vsub F) mvecs (zip2 (scale F) w vecs)) in *. cbn beta zeta in E.
    assert (Rs : forall k, k < length (map norm resid) -> ltb (nth k (map norm resid) r0) loose_tol = true -> k < length w /\ k < length vecs /\ small (nth k w r0) (nth k vecs [])).
    { intros k Hk X. rewrite map_length in Hk. unfold resid in Hk. rewrite !zip2_min in Hk. split; [lia|]. split; [lia|]. unfold small.
      rewrite <- Cm by lia. rewrite (nth_indep _ r0 (norm [])) in X by (rewrite map_length; unfold resid; rewrite !zip2_min; lia). rewrite map_nth in X.
      unfold resid in X. rewrite (zip2_nth (vsub F) [] [] []) in X by (rewrite ?zip2_min; lia). rewrite (zip2_nth (scale F) r0 [] []) in X by lia. exact X. }
    set (conv := zip2 _ _ (map norm resid)) in *.
    assert (Cc : forall k, nth k conv false = true -> k < length (map norm resid) /\ ltb (nth k (map norm resid) r0) loose_tol = true).
    { intros k Hk. destruct (nth_zip2_true _ _ _ _ Hk r0 r0) as (_ & A2 & A3). split; [exact A2|]. apply andb_prop in A3. apply A3. }
    clearbody resid conv.
    assert (R : forall c sp tr rs, (forall k, nth k c false = true -> k < length (map norm resid) /\ ltb (nth k (map norm resid) r0) loose_tol = true) ->
       let s' := mks b (map matvec b) sp m w v1 c vecs tr rs in quality s' /\ counted s' /\ combined s').
    { intros c sp tr rs Hc s'. split; [intros k Hk; destruct (Hc k Hk) as [X Y]; apply (Rs k X Y)|]. split; [unfold counted; cbn; lia|exact Cv]. }
    destruct (forallb (fun c => c) conv); [apply ok_inj in E; subst o; apply R, Cc|]. cbn [andb] in E.
    destruct (normalise _ _ _ _ _); apply ok_inj in E; subst o; apply R; [|exact Cc].
    intros k Hk. destruct (nth_zip2_true _ _ _ _ Hk false r0) as (_ & A2 & A3). split; [exact A2|]. apply orb_prop in A3. destruct A3 as [A3|A3]; [apply Cc, A3|exact A3].
  Qed.
  Lemma loop_quality B : nroots <= B -> forall fuel s s', good matvec diag nroots max_space B s -> quality s ->
    loop (F := F) ltb norm matvec eig pick diag nroots max_space max_trials e_tol loose_tol lindep_tol ptol level_shift false fuel s = Ok s' -> quality s'.
  Proof.
    intros HB. induction fuel as [|f IH]; intros s s' G Q E; cbn [loop] in E; [apply ok_inj in E; subst; exact Q|].
    apply bind_ok in E as (o & Eo & E). destruct (cycle_quality HB G Eo) as [Qo _]. destruct o as [s1|s1]; [|apply ok_inj in E; subst; exact Qo].
    apply (IH s1); [|exact Qo|exact E].
    destruct (@cycle_step F ltb norm matvec eig pick diag nroots max_space max_trials e_tol loose_tol lindep_tol ptol level_shift Hnorm Htol (proj1 Hlin) B HB false s _ G Eo) as [_ Gs]. apply Gs. reflexivity.
  Qed.
  (** [x] is an eigenvector up to the tolerance. *)
  Theorem converged_means junk guesses max_iter conv w vecs : Forall (fun x => length x = n) guesses ->
    davidson (F := F) ltb norm matvec eig eig_left pick diag nroots max_space max_trials e_tol loose_tol lindep_tol ptol level_shift false junk guesses max_iter false = Ok (conv, w, vecs) ->
    forall k, nth k conv false = true -> k < length w /\ exists x, nth_error vecs k = Some (map (fun a => (a, r0)) x) /\
      forall r, length r = length (matvec x) -> (forall i, i < length r -> coord r i = rsub (coord (matvec x) i) (rmul (nth k w r0) (coord x i))) -> ltb (norm r) loose_tol = true.
  Proof.
    intros Hg E k Hk. unfold davidson in E. apply bind_ok in E as (s & El & E). assert (X : Ok (conv_of s, w_of s, map (map (fun x => (x, r0))) (vectors s)) = Ok (conv, w, vecs)) by exact E.
    apply ok_inj in X. injection X as <- <- <-. clear E.
    assert (Q : quality s). { apply (@loop_quality (Nat.max (length guesses) nroots) ltac:(lia) max_iter (start nroots junk guesses)); [apply start_good, Hg| |exact El].
      intros j Hj. cbn in Hj. exfalso. destruct (nth_in_or_default j (repeat false nroots) false) as [Y|Y]; [apply repeat_spec in Y|]; congruence. }
    destruct (Q k Hk) as (Q1 & Q2 & Q3). split; [exact Q1|]. exists (nth k (vectors s) []). split; [rewrite nth_error_map, (nth_error_nth' _ [] Q2); reflexivity|].
    intros r Lr Hr. unfold small in Q3.
    assert (Lx : length (nth k (vectors s) []) = length (matvec (nth k (vectors s) []))).
    { assert (Sx : Forall (fun x => length x = n) (vectors s)).
      { clear - El Hg Hnorm Htol Hlin. assert (G : forall fuel s0 s, good matvec diag nroots max_space (Nat.max (length guesses) nroots) s0 -> Forall (fun x => length x = n) (vectors s0) ->
           loop (F := F) ltb norm matvec eig pick diag nroots max_space max_trials e_tol loose_tol lindep_tol ptol level_shift false fuel s0 = Ok s -> Forall (fun x => length x = n) (vectors s)).
        { induction fuel as [|f IH]; intros s0 s1 G S E; cbn [loop] in E; [apply ok_inj in E; subst; exact S|]. apply bind_ok in E as (o & Eo & E).
          destruct (@cycle_step F ltb norm matvec eig pick diag nroots max_space max_trials e_tol loose_tol lindep_tol ptol level_shift Hnorm Htol (proj1 Hlin) (Nat.max (length guesses) nroots) ltac:(lia) false s0 _ G Eo) as [(_ & _ & _ & _ & _ & Sv & _) Gs].
          destruct o as [s2|s2]; [apply (IH s2); [apply Gs; reflexivity|exact Sv|exact E]|apply ok_inj in E; subst; exact Sv]. }
        apply (G max_iter (start nroots junk guesses) s); [apply start_good, Hg|exact Hg|exact El]. }
      rewrite Forall_forall in Sx. assert (Y : length (nth k (vectors s) []) = n) by (apply Sx, nth_In, Q2). rewrite Y. symmetry. apply (proj1 Hlin), Y. }
    replace r with (vsub F (matvec (nth k (vectors s) [])) (scale F (nth k (w_of s) r0) (nth k (vectors s) []))); [exact Q3|].
    symmetry. apply (@vec_ext F (length (matvec (nth k (vectors s) [])))); [exact Lr|apply sub_length; [reflexivity|rewrite scale_length; exact Lx]|].
    intros i Hi. rewrite Hr by lia. rewrite (@coord_sub F (length (matvec (nth k (vectors s) [])))); [rewrite coord_scale; reflexivity|reflexivity|rewrite scale_length; exact Lx|exact Hi].
  Qed.

  (** * The vectors inside the subspace. *)
  Lemma after_quality junk guesses o : Forall (fun x => length x = n) guesses -> after (cyc false) (start nroots junk guesses) o ->
    counted (state_of o) /\ combined (state_of o) /\ osn F n (basis (state_of o)) /\ represents n matvec (basis (state_of o)) (sub (state_of o)).
  Proof.
    intros Hg H. set (B := Nat.max (length guesses) nroots).
    assert (X : exists s, good matvec diag nroots max_space B s /\ cyc false s = Ok o).
    { inversion H as [o1 E1|s o1 H1 E1]; subst; [exists (start nroots junk guesses); split; [apply start_good, Hg|exact E1]|]. exists s. split; [|exact E1].
      destruct (@after_ok F ltb norm matvec eig pick diag nroots max_space max_trials e_tol loose_tol lindep_tol ptol level_shift Hnorm Htol (proj1 Hlin) B ltac:(lia) false _ _ (start_good matvec nroots max_space junk Hg) H1) as [_ G]. apply G. reflexivity. }
    destruct X as (s & G & E). destruct (@cycle_quality B s o ltac:(lia) G E) as (_ & C1 & C2).
    destruct (@cycle_step F ltb norm matvec eig pick diag nroots max_space max_trials e_tol loose_tol lindep_tol ptol level_shift Hnorm Htol (proj1 Hlin) B ltac:(lia) false s o G E) as [(_ & _ & Os & Rp & _) _].
    split; [exact C1|]. split; [exact C2|]. split; [exact Os|exact Rp].
  Qed.
  Lemma inner_basis (b : list vec) c i : osn F n b -> length c = length b -> i < length b -> inner n (nth i b []) (comb F n c b) = coord c i.
  Proof.
    intros Ob Hl Hi. pose proof (osn_set Ob) as [S O]. rewrite inner_comb by assumption.
    rewrite (@rsum_map_ext F _ _ (fun j => if i =? j then coord c j else r0)).
    2: { intros j Hj. apply in_seq in Hj. rewrite O by lia. destruct (i =? j); ring. }
    clear - Hi. assert (G : forall l, NoDup l -> In i l -> rsum (map (fun j => if i =? j then coord c j else r0) l) = coord c i).
    { induction l as [|x l IH]; intros N I; [destruct I|]. inversion N as [|? ? N1 N2]; subst. cbn [map]. rewrite rsum_cons. destruct (i =? x) eqn:E.
      - apply Nat.eqb_eq in E. subst x. rewrite rsum_map_0; [ring|]. intros j Hj. destruct (i =? j) eqn:E; [|reflexivity].
        apply Nat.eqb_eq in E. subst. contradiction.
      - apply Nat.eqb_neq in E. destruct I as [I|I]; [congruence|]. rewrite IH by assumption. ring. }
    apply G; [apply seq_NoDup|apply in_seq; lia].
  Qed.
  (** Inner products of the vectors are those of the columns. *)
  Theorem vectors_isometric junk guesses o : Forall (fun x => length x = n) guesses -> after (cyc false) (start nroots junk guesses) o ->
    let s := state_of o in forall i j, i < length (v_of s) -> j < length (v_of s) ->
    inner n (nth i (vectors s) []) (nth j (vectors s) []) = inner (space s) (nth i (v_of s) []) (nth j (v_of s) []).
  Proof.
    intros Hg H s i j Hi Hj. destruct (after_quality Hg H) as (_ & C & Ob & _). fold s in C, Ob. destruct (C i Hi) as [Li ->]. destruct (C j Hj) as [Lj ->].
    destruct (invariants Hnorm Htol (proj1 Hlin) Hg H) as [Ls _]. fold s in Ls. pose proof (osn_set Ob) as [S _].
    rewrite inner_comm. rewrite inner_comb by assumption. rewrite <- Ls. unfold inner at 2. apply (@rsum_map_ext F). intros k Hk. apply in_seq in Hk.
    rewrite (@inner_comm F n), inner_basis by (try assumption; lia). ring.
  Qed.
  (** The residual has no component in the subspace when the column solves the problem in the subspace. *)
  Theorem galerkin junk guesses o : Forall (fun x => length x = n) guesses -> after (cyc false) (start nroots junk guesses) o ->
    let s := state_of o in forall k, k < length (v_of s) ->
    (forall i, i < space s -> rsum (map (fun j => rmul (sub s i j) (coord (nth k (v_of s) []) j)) (seq 0 (space s))) = rmul (nth k (w_of s) r0) (coord (nth k (v_of s) []) i)) ->
    forall b, In b (basis s) -> inner n b (matvec (nth k (vectors s) [])) = rmul (nth k (w_of s) r0) (inner n b (nth k (vectors s) [])).
  Proof.
    intros Hg H s k Hk He b Hb. destruct (after_quality Hg H) as (_ & C & Ob & Rp). fold s in C, Ob, Rp. destruct (C k Hk) as [Lk ->].
    destruct (invariants Hnorm Htol (proj1 Hlin) Hg H) as [Ls _]. fold s in Ls. pose proof (osn_set Ob) as [S _].
    destruct (In_nth _ _ [] Hb) as (i & Hi & <-). rewrite inner_basis by assumption. rewrite <- He by lia. rewrite (mat_comb Hlin) by exact S.
    rewrite inner_comb; [|rewrite map_length; exact Lk|intros x Hx; apply in_map_iff in Hx; destruct Hx as (y & <- & Hy); apply (proj1 Hlin), S, Hy].
    rewrite map_length, Ls. apply (@rsum_map_ext F). intros j Hj. apply in_seq in Hj. rewrite Rp by lia. rewrite (nth_indep (map matvec (basis s)) [] (matvec [])) by (rewrite map_length; lia). rewrite map_nth. ring.
  Qed.
End Conv.
