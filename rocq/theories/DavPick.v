(** [pick_real_eigenvalues]. *)
From Coq Require Import List Arith Bool Lia Permutation Sorted.
From Verif Require Import Base ListAux Alg ArrProofs DavModel DavSpec DavProofs DavThms AnsatzRanks KernelProofs.
Import ListNotations.
Set Implicit Arguments.
Local Open Scope nat_scope.

Section Pick.
  Variable F : fld.
  Local Notation vec := (list F).
  Local Notation cplx := (F * F)%type.
  Variable ltb : F -> F -> bool.
  Variable argsort : list F -> list nat.
  Variable is_zero : F -> bool.
  Hypothesis Hlt : strict_order ltb.
  Hypothesis Hsort : sorts ltb argsort.

  (** * Sorting. *)
  Definition le (x y : F) : Prop := ltb y x = false.
  Lemma le_trans x y z : le x y -> le y z -> le x z.
  Proof.
    unfold le. intros A B. destruct (ltb z x) eqn:E; [|reflexivity]. exfalso. destruct (ltb x y) eqn:E1.
    - rewrite (lt_trans Hlt _ _ _ E E1) in B. discriminate.
    - rewrite (lt_total Hlt x y E1 A) in E. congruence.
  Qed.
  Lemma lt_le x y : ltb x y = true -> le x y.
  Proof. unfold le. intros A. destruct (ltb y x) eqn:E; [|reflexivity]. rewrite <- (lt_irrefl Hlt x). symmetry. apply (lt_trans Hlt _ y); assumption. Qed.
  Lemma insert_perm x l : Permutation (insert F ltb x l) (x :: l).
  Proof. induction l as [|y l IH]; cbn; [constructor; constructor|]. destruct (ltb y x); [|apply Permutation_refl]. eapply perm_trans; [constructor; exact IH|constructor]. Qed.
  Lemma sort_perm l : Permutation (sort F ltb l) l.
  Proof. induction l as [|y l IH]; cbn; [constructor|]. eapply perm_trans; [apply insert_perm|constructor; exact IH]. Qed.
  Lemma insert_sorted x l : StronglySorted le l -> StronglySorted le (insert F ltb x l).
  Proof.
    induction l as [|y l IH]; intros H; cbn; [constructor; constructor|]. inversion H as [|? ? H1 H2]; subst. destruct (ltb y x) eqn:E.
    - constructor; [apply IH, H1|]. rewrite Forall_forall in *. intros z Hz. apply (Permutation_in _ (insert_perm x l)) in Hz. destruct Hz as [<-|Hz]; [apply lt_le, E|apply H2, Hz].
    - constructor; [exact H|]. constructor; [exact E|]. rewrite Forall_forall in *. intros z Hz. apply (@le_trans x y z); [exact E|apply H2, Hz].
  Qed.
  Lemma sort_sorted l : StronglySorted le (sort F ltb l).
  Proof. induction l as [|y l IH]; cbn; [constructor|apply insert_sorted, IH]. Qed.
  Lemma filter_perm {A} (p : A -> bool) l l' : Permutation l l' -> length (filter p l) = length (filter p l').
  Proof. induction 1; cbn; try congruence; [destruct (p x); cbn; congruence|destruct (p x), (p y); reflexivity]. Qed.
  (** Fewer than [k] values are below the [k]-th smallest. *)
  Lemma few_below d : forall l k, StronglySorted le l -> k < length l -> length (filter (fun a => ltb a (nth k l d)) l) <= k.
  Proof.
    induction l as [|y l IH]; intros k H Hk; [cbn in Hk; lia|]. inversion H as [|? ? H1 H2]; subst. destruct k as [|k].
    - cbn [nth filter]. rewrite (lt_irrefl Hlt). replace (filter _ l) with (@nil (car (frng F))); [cbn; lia|]. symmetry. rewrite Forall_forall in H2.
      assert (X : forall m, (forall z, In z m -> le y z) -> filter (fun a => ltb a y) m = []). { induction m as [|z m IHm]; intros Hm; [reflexivity|]. cbn. rewrite (Hm z (or_introl eq_refl)). apply IHm. intros u Hu. apply Hm. right. exact Hu. }
      apply X, H2.
    - cbn [nth]. cbn in Hk. specialize (IH k H1 ltac:(lia)). cbn [filter]. destruct (ltb y _); cbn; lia.
  Qed.
  Lemma many_below d x : forall l k, StronglySorted le l -> k < length l -> ltb (nth k l d) x = true -> k < length (filter (fun a => ltb a x) l).
  Proof.
    induction l as [|y l IH]; intros k H Hk Hx; [cbn in Hk; lia|]. inversion H as [|? ? H1 H2]; subst. destruct k as [|k]; cbn [nth] in Hx.
    - cbn [filter]. rewrite Hx. cbn. lia.
    - cbn in Hk. specialize (IH k H1 ltac:(lia) Hx). cbn [filter]. replace (ltb y x) with true; [cbn; lia|]. symmetry.
      rewrite Forall_forall in H2. assert (Hin : In (nth k l d) l) by (apply nth_In; lia). specialize (H2 _ Hin). unfold le in H2. destruct (ltb y x) eqn:E; [reflexivity|]. exfalso.
      pose proof (@le_trans x y (nth k l d) E H2) as L. unfold le in L. congruence.
  Qed.

  (** * Positions. *)
  Lemma positions_in {A} (p : A -> bool) d l i : In i (positions p l) <-> i < length l /\ p (nth i l d) = true.
  Proof.
    unfold positions. rewrite in_map_iff. split.
    - intros ((j & x) & E & H). cbn in E. subst j. apply filter_In in H. destruct H as [H P]. cbn in P.
      destruct (In_nth _ _ (0, d) H) as (k & Hk & Ek). rewrite combine_length, seq_length, Nat.min_id in Hk. rewrite combine_nth in Ek by apply seq_length. injection Ek as E1 E2.
      rewrite seq_nth in E1 by exact Hk. cbn in E1. subst k. split; [exact Hk|]. rewrite E2. exact P.
    - intros [H P]. exists (i, nth i l d). split; [reflexivity|]. apply filter_In. split; [|exact P].
      replace (i, nth i l d) with (nth i (combine (seq 0 (length l)) l) (0, d)); [apply nth_In; rewrite combine_length, seq_length, Nat.min_id; exact H|].
      rewrite combine_nth by apply seq_length. rewrite seq_nth by exact H. reflexivity.
  Qed.
  Lemma fst_combine {A B} : forall (a : list A) (b : list B), length a = length b -> map fst (combine a b) = a.
  Proof. induction a as [|x a IH]; intros [|y b] H; cbn in *; try discriminate; [reflexivity|]. f_equal. apply IH. lia. Qed.
  Lemma positions_nodup {A} (p : A -> bool) l : NoDup (positions p l).
  Proof.
    unfold positions. assert (G : forall (m : list (nat * A)), NoDup (map fst m) -> NoDup (map fst (filter (fun x => p (snd x)) m))).
    { induction m as [|x m IH]; intros N; [constructor|]. cbn in N. inversion N as [|? ? N1 N2]; subst. cbn. destruct (p (snd x)); [|apply IH, N2]. cbn. constructor; [|apply IH, N2].
      intros X. apply N1. apply in_map_iff in X. destruct X as (y & Ey & Hy). apply filter_In in Hy. apply in_map_iff. exists y. split; [exact Ey|apply Hy]. }
    apply G. rewrite fst_combine by apply seq_length. apply seq_NoDup.
  Qed.
  Lemma positions_length {A} (p : A -> bool) l : length (positions p l) = length (filter p l).
  Proof.
    unfold positions. rewrite map_length. generalize 0. induction l as [|x l IH]; intros s; [reflexivity|]. cbn. destruct (p x); cbn; rewrite IH; reflexivity.
  Qed.

  (** * The choice. *)
  Lemma made_real w v pos : NoDup pos -> forall ws cols idx, make_real F argsort is_zero w v pos = (ws, cols, idx) ->
    Permutation idx pos /\ ws = map (fun i => fst (nth i w (czero F))) idx /\ length cols = length idx /\
    forall i j, i < j -> j < length ws -> ltb (nth j ws r0) (nth i ws r0) = false.
  Proof.
    intros N ws cols idx E. unfold make_real in E. injection E as E1 E2 E3. set (vals := map (fun i => re F (nth i w (czero F))) pos) in *.
    destruct (Hsort vals) as [P S]. assert (Lv : length vals = length pos) by (unfold vals; apply map_length).
    assert (La : length (argsort vals) = length vals) by (rewrite (Permutation_length P), seq_length; reflexivity).
    assert (Pi : Permutation idx pos).
    { rewrite <- E3. eapply perm_trans; [apply Permutation_map, P|]. rewrite Lv, map_nth_seq. apply Permutation_refl. }
    split; [exact Pi|]. split; [rewrite <- E1, <- E3, !map_map; apply map_ext; intros a; reflexivity|]. split.
    { rewrite <- E2, <- E3, map_length, combine_length, seq_length, !map_length. apply Nat.min_id. }
    intros i j Hij Hj. assert (Ew : ws = map (fun k => nth k vals r0) (argsort vals)).
    { rewrite <- E1, !map_map. apply map_ext_in. intros k Hk. unfold re at 1. unfold vals. apply (Permutation_in _ P), in_seq in Hk.
      rewrite (nth_indep _ r0 (re F (nth 0 w (czero F)))) by (rewrite map_length; lia). rewrite (map_nth (fun i => re F (nth i w (czero F))) pos 0 k). reflexivity. }
    rewrite Ew in *. rewrite map_length in Hj.
    assert (Nt : forall a, a < length (argsort vals) -> nth a (map (fun k => nth k vals r0) (argsort vals)) r0 = nth (nth a (argsort vals) 0) vals r0).
    { intros a Ha. rewrite (nth_indep _ r0 (nth 0 vals r0)) by (rewrite map_length; exact Ha). apply (map_nth (fun k => nth k vals r0)). }
    rewrite !Nt by lia. apply S; lia.
  Qed.
  Lemma pick_spec tol w v nroots b ws cols idx : pick_real F ltb argsort is_zero tol w v nroots b = Ok (ws, cols, idx) ->
    exists t, pick_index F (sort F ltb (map (fun z => absv F ltb (snd z)) w)) (Nat.min (length w) nroots) = Ok t /\
    let cut := if ltb tol t then t else tol in
    NoDup idx /\ (forall i, In i idx <-> i < length w /\ ltb (absv F ltb (snd (nth i w (czero F)))) cut = true) /\
    length idx = length (filter (fun a => ltb a cut) (map (fun z => absv F ltb (snd z)) w)) /\
    ws = map (fun i => fst (nth i w (czero F))) idx /\ length cols = length idx /\
    forall i j, i < j -> j < length ws -> ltb (nth j ws r0) (nth i ws r0) = false.
  Proof.
    intros E. unfold pick_real in E. apply bind_ok in E as (t & Et & E). exists t. split; [exact Et|]. apply ok_inj in E. set (cut := if ltb tol t then t else tol) in *. cbn zeta.
    set (ab := map (fun z => absv F ltb (im F z)) w) in *. pose proof (positions_nodup (fun a => ltb a cut) ab) as N.
    destruct (@made_real w v _ N ws cols idx E) as (P & W & C & S). split; [apply (Permutation_NoDup (Permutation_sym P) N)|]. split.
    { intros i. rewrite (Permutation_in' (eq_refl i) P). rewrite (positions_in _ (absv F ltb (im F (czero F)))). unfold ab. rewrite map_length, (map_nth (fun z => absv F ltb (im F z))). reflexivity. }
    split; [rewrite (Permutation_length P); apply positions_length|]. split; [exact W|]. split; [exact C|exact S].
  Qed.

  Lemma columns_fit eig tol nroots b m ws cols idx : well_shaped eig -> length m = length b ->
    pick_real F ltb argsort is_zero tol (fst (eig m)) (snd (eig m)) nroots b = Ok (ws, cols, idx) -> length ws = length cols /\ forall c, In c cols -> length c = length b.
  Proof.
    intros Hw Hm E. destruct (Hw m) as (W1 & W2 & W3). destruct (pick_spec _ _ _ _ _ E) as (t & _ & N & I & _ & W & C & _). split; [rewrite W, map_length, C; reflexivity|].
    unfold pick_real in E. apply bind_ok in E as (t' & Et & E). apply ok_inj in E. unfold make_real in E. injection E as E1 E2 E3. rewrite E3 in E2. intros c Hc. rewrite <- E2 in Hc.
    apply in_map_iff in Hc. destruct Hc as ((k, x) & Ec & Hk). apply in_combine_r in Hk. apply in_map_iff in Hk. destruct Hk as (i & <- & Hi). apply I in Hi.
    rewrite <- Hm, <- (W3 (nth i (snd (eig m)) [])) by (apply nth_In; lia). cbn [snd fst] in Ec. rewrite <- Ec. destruct (existsb _ _); apply map_length.
  Qed.
  Theorem picked tol w v nroots b ws cols idx : pick_real F ltb argsort is_zero tol w v nroots b = Ok (ws, cols, idx) ->
    NoDup idx /\ (forall i, In i idx -> i < length w) /\ ws = map (fun i => fst (nth i w (r0, r0))) idx /\ length cols = length idx /\
    (forall i j, i < j -> j < length ws -> ltb (nth j ws r0) (nth i ws r0) = false) /\
    (forall i j, In i idx -> j < length w -> ~ In j idx -> ltb (absv F ltb (snd (nth j w (r0, r0)))) (absv F ltb (snd (nth i w (r0, r0)))) = false) /\
    (forall i, i < length w -> ltb (absv F ltb (snd (nth i w (r0, r0)))) tol = true -> In i idx).
  Proof.
    intros E. destruct (pick_spec _ _ _ _ _ E) as (t & _ & N & I & _ & W & C & S). set (cut := if ltb tol t then t else tol) in *. unfold czero in *.
    split; [exact N|]. split; [intros i Hi; apply I, Hi|]. split; [exact W|]. split; [exact C|]. split; [exact S|]. split.
    - intros i j Hi Hj Hn. apply I in Hi. destruct (ltb _ (absv F ltb (snd (nth i w (r0, r0))))) eqn:X; [|reflexivity]. exfalso. apply Hn, I. split; [exact Hj|]. apply (lt_trans Hlt _ _ _ X). apply Hi.
    - intros i Hi X. apply I. split; [exact Hi|]. unfold cut. destruct (ltb tol t) eqn:T; [apply (lt_trans Hlt _ _ _ X T)|exact X].
  Qed.
  (** The number of values returned reaches the number asked for only if that many lie below the threshold anyway. *)
  Theorem enough_iff tol w v nroots b ws cols idx : 0 < nroots -> pick_real F ltb argsort is_zero tol w v nroots b = Ok (ws, cols, idx) ->
    (Nat.min nroots (length w) <= length ws <-> Nat.min nroots (length w) <= length (filter (fun z => ltb (absv F ltb (snd z)) tol) w)).
  Proof.
    intros Hn E. destruct (pick_spec _ _ _ _ _ E) as (t & Et & N & I & L & W & C & S). set (cut := if ltb tol t then t else tol) in *.
    set (ab := map (fun z : cplx => absv F ltb (snd z)) w) in *. rewrite W, map_length, L. assert (Fe : length (filter (fun z : cplx => ltb (absv F ltb (snd z)) tol) w) = length (filter (fun a => ltb a tol) ab)).
    { unfold ab. clear. induction w as [|z l IH]; [reflexivity|]. cbn. destruct (ltb _ tol); cbn; congruence. }
    rewrite Fe. set (k := Nat.min nroots (length w)). assert (Lw : length (sort F ltb ab) = length w) by (rewrite (Permutation_length (sort_perm ab)); unfold ab; apply map_length).
    unfold pick_index in Et. destruct (sort F ltb ab) as [|a0 al] eqn:Es; [discriminate|]. rewrite <- Es in *. rewrite Nat.min_comm in Et. fold k in Et. apply ok_inj in Et.
    assert (Hk : 0 < k /\ k <= length w) by (rewrite Es in Lw; cbn in Lw; unfold k; lia). replace (k =? 0) with false in Et by (symmetry; apply Nat.eqb_neq; lia).
    rewrite <- (filter_perm (fun a => ltb a cut) (sort_perm ab)). rewrite <- (filter_perm (fun a => ltb a tol) (sort_perm ab)). unfold cut. destruct (ltb tol t) eqn:T; [|reflexivity].
    pose proof (@few_below r0 (sort F ltb ab) (k - 1) (sort_sorted ab) ltac:(lia)) as X. rewrite Et in X. split; [lia|]. intros Y. exfalso.
    assert (Z : length (filter (fun a => ltb a tol) (sort F ltb ab)) <= length (filter (fun a => ltb a t) (sort F ltb ab))).
    { generalize (sort F ltb ab). induction l as [|z l IH]; [cbn; lia|]. cbn. destruct (ltb z tol) eqn:E1; [rewrite (lt_trans Hlt _ _ _ E1 T); cbn; lia|]. destruct (ltb z t); cbn; lia. }
    lia.
  Qed.

  (** With this choice of eigenvalues, following the state never restarts. *)
  Theorem follow_never norm matvec eig tol diag nroots max_space max_trials e_tol loose_tol lindep_tol ptol level_shift junk guesses s :
    is_norm (length diag) norm -> ltb lindep_tol r0 = false -> (forall v, length v = length diag -> length (matvec v) = length diag) -> well_shaped eig -> 0 < nroots ->
    Forall (fun x => length x = length diag) guesses ->
    let one := cycle (F := F) ltb norm matvec eig (pick_real F ltb argsort is_zero tol) diag nroots max_space max_trials e_tol loose_tol lindep_tol ptol level_shift in
    after (one true) (start nroots junk guesses) (Continue s) -> one true s = one false s \/ one true s = Err ValueError.
  Proof.
    intros Hn Ht Hm Hw Hr Hg one H. apply (@follow_fails F ltb norm matvec eig _ diag nroots max_space max_trials e_tol loose_tol lindep_tol ptol level_shift Hn Ht Hm) with (junk := junk) (guesses := guesses); try assumption.
    intros b m w v idx Hl E. apply (@columns_fit eig tol nroots b m w v idx Hw Hl E).
  Qed.
  Theorem follow_first norm matvec eig pick diag nroots max_space max_trials e_tol loose_tol lindep_tol ptol level_shift junk guesses s :
    let one := cycle (F := F) ltb norm matvec eig pick diag nroots max_space max_trials e_tol loose_tol lindep_tol ptol level_shift in
    one true (start nroots junk guesses) = Ok (Continue s) -> one false (start nroots junk guesses) = Ok (Continue s) \/ one true s = Err ValueError.
  Proof.
    intros one E. unfold one, cycle in E |- *. cbn [restart start vectors basis mbasis space sub w_of v_of conv_of] in E |- *.
    destruct (orthonormalise F ltb norm lindep_tol guesses) as [t|]; [|discriminate]. cbn [bind] in E |- *. destruct t as [|t0 tl]; [discriminate|]. cbn [bind] in E |- *.
    destruct (fill _ _ _ _ _ _) as [m|]; [|discriminate]. cbn [bind] in E |- *. destruct (eig _) as [ew ev]. destruct (pick _ _ _ _) as [[[w v] idx]|]; [|discriminate]. cbn [bind] in E |- *.
    destruct w as [|w0 w']; [discriminate|].
    match type of E with bind ?x _ = _ => destruct x as [vecs|] end; [|discriminate]. cbn [bind] in E |- *.
    match type of E with bind ?x _ = _ => destruct x as [mvecs|] end; [|discriminate]. cbn [bind] in E |- *.
    destruct (negb _); [discriminate|]. destruct (forallb _ _); [discriminate|]. cbn [andb] in E |- *.
    destruct (existsb _ _ && _); [|left; exact E]. cbn [outer mapM bind] in E. injection E as <-. right. reflexivity.
  Qed.
End Pick.
