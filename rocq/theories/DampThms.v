(** Affine combinations, optimality, memory bound and the histories of damping objects. *)
From Verif Require Import Base ListAux Alg DampModel DampSpec DampProofs.
Set Implicit Arguments.
Local Open Scope nat_scope.
Local Open Scope list_scope.

Section Vectors.
  Variable K : rng.
  Add Ring Kring : (rth K).
  Local Open Scope rng_scope.
  Local Notation vec := (vec K).
  Local Notation at_ i v := (nth i v (@r0 K)).

  Lemma zipw_length A B C (f : A -> B -> C) a b : length (zipw f a b) = Nat.min (length a) (length b).
  Proof. revert b. induction a as [|x a IH]; destruct b; cbn; try reflexivity. rewrite IH. reflexivity. Qed.
  Lemma vadd_length (a b : vec) n : length a = n -> length b = n -> length (vadd a b) = n.
  Proof. intros <- H. unfold vadd. rewrite zipw_length, H. apply Nat.min_id. Qed.
  Lemma vscale_length c (a : vec) : length (vscale c a) = length a.
  Proof. unfold vscale. apply map_length. Qed.
  Lemma vadd_nth (a b : vec) i : length a = length b -> at_ i (vadd a b) = at_ i a + at_ i b.
  Proof.
    revert b i. induction a as [|x a IH]; destruct b as [|y b]; cbn; intros i H; try discriminate.
    - destruct i; ring.
    - destruct i; [reflexivity|]. apply IH. lia.
  Qed.
  Lemma vscale_nth c (a : vec) i : at_ i (vscale c a) = at_ i a * c.
  Proof.
    revert i. induction a as [|x a IH]; intros i; cbn; [destruct i; ring|]. destruct i; [reflexivity|]. apply IH.
  Qed.
  Lemma zero_nth n i : at_ i (repeat (@r0 K) n) = 0.
  Proof. revert i. induction n as [|n IH]; intros i; cbn; destruct i; auto. Qed.
  Lemma vzero_repeat (a : vec) : vzero a = repeat r0 (length a).
  Proof. induction a as [|x a IH]; cbn; [reflexivity|]. f_equal. exact IH. Qed.

  Lemma lincomb_length n cs (xs : list vec) : Forall (fun x : vec => length x = n) xs -> length (lincomb n cs xs) = n.
  Proof.
    intros H. revert cs. induction H as [|x xs Hx _ IH]; intros cs; destruct cs; cbn; try apply repeat_length.
    apply vadd_length; [rewrite vscale_length; exact Hx|apply IH].
  Qed.
  Lemma lincomb_nth n cs (xs : list vec) i : Forall (fun x : vec => length x = n) xs ->
    at_ i (lincomb n cs xs) = rsum (zipw (fun c x => c * at_ i x) cs xs).
  Proof.
    intros H. revert cs. induction H as [|x xs Hx HF IH]; intros cs; destruct cs as [|c cs]; cbn [lincomb zipw]; try apply zero_nth.
    rewrite vadd_nth; [|rewrite vscale_length, lincomb_length; assumption]. rewrite vscale_nth, IH, rsum_cons. ring.
  Qed.
  Lemma vec_ext n (a b : vec) : length a = n -> length b = n -> (forall i, at_ i a = at_ i b) -> a = b.
  Proof. intros H1 H2 H. apply nth_ext with (d := r0) (d' := r0); [congruence|]. intros i _. apply H. Qed.

  Definition comb n (s : K) (xs : list vec) (y : vec) : Prop :=
    exists cs, length cs = length xs /\ rsum cs = s /\ y = lincomb n cs xs.
  Lemma comb_length n s (xs : list vec) y : Forall (fun x : vec => length x = n) xs -> comb n s xs y -> length y = n.
  Proof. intros H (cs & _ & _ & ->). apply lincomb_length, H. Qed.

  Lemma comb_zero n (xs : list vec) : Forall (fun x : vec => length x = n) xs -> comb n 0 xs (repeat r0 n).
  Proof.
    intros H. exists (map (fun _ => r0) xs). split; [apply map_length|]. split; [apply rsum_map_0; reflexivity|].
    apply vec_ext with n; [apply repeat_length|apply lincomb_length, H|]. intros i. rewrite zero_nth, lincomb_nth by exact H.
    clear H. induction xs as [|x xs IH]; [reflexivity|]. cbn [map zipw]. rewrite rsum_cons, <- IH. ring.
  Qed.
  Lemma comb_add n s t (xs : list vec) y z : Forall (fun x : vec => length x = n) xs -> comb n s xs y -> comb n t xs z -> comb n (s + t) xs (vadd y z).
  Proof.
    intros H (cs & L1 & <- & ->) (ds & L2 & <- & ->). exists (zipw radd cs ds). split; [rewrite zipw_length; lia|]. split.
    - clear H. revert xs ds L1 L2. induction cs as [|c cs IH]; intros xs ds L1 L2; destruct ds as [|d ds]; cbn in L1, L2; try lia; cbn [zipw].
      + change (rsum (K:=K) []) with (@r0 K). ring.
      + rewrite !rsum_cons. destruct xs as [|x xs]; [discriminate|]. cbn in L1, L2. rewrite (IH xs ds) by lia. ring.
    - apply vec_ext with n; [apply vadd_length; apply lincomb_length, H|apply lincomb_length, H|]. intros i.
      rewrite vadd_nth by (rewrite !lincomb_length by exact H; reflexivity). rewrite !lincomb_nth by exact H. clear H.
      revert xs ds L1 L2. induction cs as [|c cs IH]; intros xs ds L1 L2; destruct ds as [|d ds]; destruct xs as [|x xs]; cbn in L1, L2; try discriminate.
      + cbn. ring.
      + cbn [zipw]. rewrite !rsum_cons, <- IH by lia. ring.
  Qed.
  Lemma comb_scale n s c (xs : list vec) y : Forall (fun x : vec => length x = n) xs -> comb n s xs y -> comb n (s * c) xs (vscale c y).
  Proof.
    intros H (cs & L & <- & ->). exists (map (fun x => x * c) cs). split; [rewrite map_length; exact L|]. split; [rewrite rsum_map_mul_r, map_id; reflexivity|].
    apply vec_ext with n; [rewrite vscale_length; apply lincomb_length, H|apply lincomb_length, H|]. intros i.
    rewrite vscale_nth, !lincomb_nth by exact H. clear H L. revert xs. induction cs as [|d cs IH]; intros xs; [cbn; ring|].
    destruct xs as [|x xs]; [cbn; ring|]. cbn [zipw map]. rewrite !rsum_cons, <- IH. ring.
  Qed.
  Lemma comb_snoc n s (xs : list vec) (x : vec) y : Forall (fun x : vec => length x = n) xs -> length x = n -> comb n s xs y -> comb n s (xs ++ [x]) y.
  Proof.
    intros H Hx (cs & L & <- & ->). exists (cs ++ [0]). split; [rewrite !app_length; cbn; lia|]. split; [rewrite rsum_app; cbn; ring|].
    assert (H' : Forall (fun x : vec => length x = n) (xs ++ [x])) by (apply Forall_app; split; [exact H|constructor; [exact Hx|constructor]]).
    apply vec_ext with n; [apply lincomb_length, H|apply lincomb_length, H'|]. intros i. rewrite !lincomb_nth by assumption. clear H H' Hx.
    revert xs L. induction cs as [|c cs IH]; intros xs L; destruct xs as [|z xs]; cbn in L; try discriminate.
    - cbn. ring.
    - cbn [zipw app]. rewrite !rsum_cons, IH by lia. reflexivity.
  Qed.
  Lemma comb_last n (xs : list vec) (x : vec) : Forall (fun x : vec => length x = n) xs -> length x = n -> comb n 1 (xs ++ [x]) x.
  Proof.
    intros H Hx. destruct (comb_zero H) as (cs & L & S0 & E). exists (cs ++ [1]). split; [rewrite !app_length; cbn; lia|].
    split; [rewrite rsum_app, S0; cbn; ring|].
    assert (H' : Forall (fun x : vec => length x = n) (xs ++ [x])) by (apply Forall_app; split; [exact H|constructor; [exact Hx|constructor]]).
    apply vec_ext with n; [exact Hx|apply lincomb_length, H'|]. intros i. rewrite lincomb_nth by exact H'.
    assert (Z : at_ i (lincomb n cs xs) = 0) by (rewrite <- E; apply zero_nth). rewrite lincomb_nth in Z by exact H.
    assert (EQ : rsum (zipw (fun c x => c * at_ i x) (cs ++ [1]) (xs ++ [x])) = rsum (zipw (fun c x => c * at_ i x) cs xs) + at_ i x).
    { clear - L. revert xs L. induction cs as [|c cs IH]; intros xs L; destruct xs as [|z xs]; cbn in L; try discriminate.
      - cbn. ring.
      - cbn [zipw app]. rewrite !rsum_cons, IH by lia. ring. }
    rewrite EQ, Z. ring.
  Qed.

  (** Weighted sums of combinations. *)
  Lemma weighted_comb n (xs : list vec) : Forall (fun x : vec => length x = n) xs -> forall ys cs acc s, comb n s xs acc ->
    Forall (comb n 1 xs) ys -> length ys <= length cs -> comb n (s + rsum (firstn (length ys) cs)) xs (weighted acc ys cs).
  Proof.
    intros H. induction ys as [|y ys IH]; intros cs acc s Ha Hy L; cbn [weighted length firstn].
    - replace (s + rsum []) with s by (cbn; ring). exact Ha.
    - destruct cs as [|c cs]; [cbn in L; lia|]. inversion Hy as [|? ? Hy1 Hy2]; subst. cbn [length firstn]. rewrite rsum_cons.
      replace (s + (c + rsum (firstn (length ys) cs))) with ((s + 1 * c) + rsum (firstn (length ys) cs)) by ring.
      apply IH; [|exact Hy2|cbn in L; lia]. apply comb_add; [exact H|exact Ha|]. apply comb_scale; assumption.
  Qed.

  (** Inner products with combinations. *)
  Lemma vdot_nil_l (b : vec) : vdot [] b = 0. Proof. reflexivity. Qed.
  Lemma vdot_cons x (a : vec) y b : vdot (x :: a) (y :: b) = x * y + vdot a b.
  Proof. reflexivity. Qed.
  Lemma vdot_vadd (a b y : vec) : length a = length b -> vdot (vadd a b) y = vdot a y + vdot b y.
  Proof.
    revert b y. induction a as [|u a IH]; intros b y L; destruct b as [|v b]; cbn in L; try discriminate; cbn [vadd zipw].
    - rewrite vdot_nil_l. ring.
    - destruct y as [|w y]; [cbn; ring|]. change (zipw radd a b) with (vadd a b). rewrite !vdot_cons, IH by lia. ring.
  Qed.
  Lemma vdot_vscale c (a y : vec) : vdot (vscale c a) y = c * vdot a y.
  Proof.
    revert y. induction a as [|u a IH]; intros y; [cbn; ring|]. destruct y as [|w y]; [cbn; ring|].
    cbn [vscale map]. change (map (fun x => x * c) a) with (vscale c a). rewrite !vdot_cons, IH. ring.
  Qed.
  Lemma vdot_zero n (y : vec) : vdot (repeat r0 n) y = 0.
  Proof. revert y. induction n as [|n IH]; intros y; [reflexivity|]. destruct y as [|w y]; [reflexivity|]. cbn [repeat]. rewrite vdot_cons, IH. ring. Qed.
  Lemma vdot_lincomb n cs (xs : list vec) (y : vec) : Forall (fun x : vec => length x = n) xs ->
    vdot (lincomb n cs xs) y = rsum (zipw (fun c x => c * vdot x y) cs xs).
  Proof.
    intros H. revert cs. induction H as [|x xs Hx HF IH]; intros cs; destruct cs as [|c cs]; cbn [lincomb zipw]; try apply vdot_zero.
    rewrite vdot_vadd; [|rewrite vscale_length, lincomb_length; assumption]. rewrite vdot_vscale, IH, rsum_cons. reflexivity.
  Qed.

  (** The bordered system. *)
  Lemma vdot_app (a b c d : vec) : length a = length c -> vdot (a ++ b) (c ++ d) = vdot a c + vdot b d.
  Proof.
    revert c. induction a as [|x a IH]; intros c L; destruct c as [|y c]; cbn in L; try discriminate; cbn [app].
    - rewrite vdot_nil_l. ring.
    - rewrite !vdot_cons, IH by lia. ring.
  Qed.
  Lemma vdot_ones (c : vec) : vdot (repeat (- (1)) (length c)) c = - rsum c.
  Proof. induction c as [|x c IH]; [cbn; ring|]. cbn [length repeat]. rewrite vdot_cons, IH, rsum_cons. ring. Qed.
  Lemma map_const_repeat A B (b : B) (l : list A) : map (fun _ => b) l = repeat b (length l).
  Proof. induction l as [|a l IH]; cbn; [reflexivity|]. f_equal. exact IH. Qed.

  Lemma bordered (l : list (vec * vec)) c : length c = length (border K (gram l) (length l)) ->
    mat_vec K (border K (gram l) (length l)) c = residual K (length l) ->
    exists cs lam, c = cs ++ [lam] /\ length cs = length l /\ rsum cs = 1 /\
      forall p, In p l -> vdot (map (fun q => vdot (snd p) (snd q)) l) cs = lam.
  Proof.
    intros L E. unfold border, gram in L. rewrite app_length, !map_length in L. cbn in L.
    assert (Hc : exists cs lam, c = cs ++ [lam] /\ length cs = length l).
    { destruct (@exists_last _ c) as (cs & lam & ->); [destruct c; [cbn in L; lia|discriminate]|]. exists cs, lam. split; [reflexivity|].
      rewrite app_length in L. cbn in L. lia. }
    destruct Hc as (cs & lam & -> & Lc). exists cs, lam. split; [reflexivity|]. split; [exact Lc|].
    unfold mat_vec, border, residual in E. rewrite map_app in E. cbn [map] in E. apply app_inj_tail in E as [E1 E2].
    split.
    - rewrite vdot_app in E2 by (rewrite repeat_length; lia). rewrite <- Lc, vdot_ones in E2. unfold vdot in E2. cbn in E2.
      transitivity (- (- rsum cs + (0 * lam + 0))); [ring|]. rewrite E2. ring.
    - intros p Hp. unfold gram in E1. rewrite !map_map in E1.
      assert (X : vdot (map (fun q => vdot (snd p) (snd q)) l ++ [- (1)]) (cs ++ [lam]) = 0).
      { assert (Y : map (fun x => vdot (map (fun q => vdot (snd x) (snd q)) l ++ [- (1)]) (cs ++ [lam])) l = map (fun _ => 0) l) by (rewrite E1; symmetry; apply map_const_repeat).
        clear - Y Hp. set (f := fun x => vdot (map (fun q => vdot (snd x) (snd q)) l ++ [- (1)]) (cs ++ [lam])) in Y.
        change (f p = 0). clearbody f. induction l as [|q l IH]; [contradiction|]. cbn in Y. injection Y as Y1 Y2. destruct Hp as [->|Hp]; auto. }
      rewrite vdot_app in X by (rewrite map_length; lia). change (vdot [- (1)] [lam]) with (- (1) * lam + 0) in X.
      transitivity (vdot (map (fun q => vdot (snd p) (snd q)) l) cs + (- (1) * lam + 0) + lam); [ring|]. rewrite X. ring.
  Qed.

  (** Orthogonality: the extrapolated error has the smallest norm among affine combinations. *)
  Lemma optimal n (l : list (vec * vec)) cs lam : Forall (fun p => length (snd p) = n) l -> length cs = length l -> rsum cs = 1 ->
    (forall p, In p l -> vdot (map (fun q => vdot (snd p) (snd q)) l) cs = lam) ->
    forall ds, length ds = length l -> rsum ds = 1 ->
    let e d := lincomb n d (map snd l) in
    vdot (e ds) (e ds) = vdot (e cs) (e cs) + vdot (e (zipw rsub ds cs)) (e (zipw rsub ds cs)).
  Proof.
    intros HF Lc Sc HL ds Ld Sd e.
    assert (HF' : Forall (fun x : vec => length x = n) (map snd l)) by (rewrite Forall_map; exact HF).
    assert (Hrow : forall p, In p l -> vdot (e cs) (snd p) = lam).
    { intros p Hp. rewrite <- (HL p Hp). unfold e. rewrite vdot_lincomb by exact HF'. clear - p Lc. revert cs Lc. induction l as [|q l IH]; intros cs Lc; destruct cs as [|c cs]; cbn in Lc; try discriminate; [reflexivity|].
      cbn [map zipw]. rewrite rsum_cons, vdot_cons, IH by lia. rewrite (vdot_comm (snd q)). ring. }
    assert (Hd : forall d, length d = length l -> vdot (e d) (e cs) = rsum d * lam).
    { intros d Hd. unfold e at 1. rewrite vdot_lincomb by exact HF'. clear - Hrow Hd.
      assert (G : forall (l' : list (vec * vec)) (d : list K), (forall p, In p l' -> vdot (e cs) (snd p) = lam) -> length d = length l' ->
        rsum (zipw (fun c x => c * vdot x (e cs)) d (map snd l')) = rsum d * lam).
      { induction l' as [|q l' IH]; intros d' H' L'; destruct d' as [|c d']; cbn in L'; try discriminate; [cbn; ring|].
        cbn [map zipw]. rewrite !rsum_cons, IH; [|intros p Hp; apply H'; right; exact Hp|lia]. rewrite vdot_comm, (H' q (or_introl eq_refl)). ring. }
      apply G; assumption. }
    assert (Hsub : e (zipw rsub ds cs) = vadd (e ds) (vscale (- (1)) (e cs))).
    { unfold e. apply vec_ext with n; [apply lincomb_length, HF'|apply vadd_length; [apply lincomb_length, HF'|rewrite vscale_length; apply lincomb_length, HF']|].
      intros i. rewrite vadd_nth by (rewrite vscale_length, !lincomb_length by exact HF'; reflexivity).
      rewrite vscale_nth, !lincomb_nth by exact HF'. clear - Lc Ld. rewrite <- (map_length snd l) in Lc, Ld. revert cs ds Lc Ld. generalize (map snd l).
      intros xs. induction xs as [|x xs IH]; intros cs ds Lc Ld; destruct cs as [|c cs]; destruct ds as [|d ds]; cbn in Lc, Ld; try discriminate; [cbn; ring|].
      cbn [zipw]. rewrite !rsum_cons, IH by lia. ring. }
    assert (He : forall d, length (e d) = n) by (intros d; apply lincomb_length, HF').
    rewrite Hsub. assert (He2 : length (e ds) = length (vscale (- (1)) (e cs))) by (rewrite vscale_length, !He; reflexivity).
    rewrite vdot_vadd by exact He2. rewrite vdot_vscale.
    rewrite (vdot_comm (e ds) (vadd _ _)), (vdot_comm (e cs) (vadd _ _)). rewrite !vdot_vadd by exact He2. rewrite !vdot_vscale.
    rewrite (vdot_comm (e cs) (e ds)), (Hd ds Ld), (Hd cs Lc), Sd, Sc. ring.
  Qed.
End Vectors.

Section Histories.
  Variable K : rng.
  Add Ring Kring2 : (rth K).
  Variable gtb : K -> K -> bool.
  Variable nonzero : K -> bool.
  Variable lin_solve : list (list K) -> list K -> result (list K).
  Variables (space min_space : nat) (factor : K).
  Local Notation vec := (vec K).
  Local Notation run := (diis_run gtb nonzero lin_solve space min_space factor).
  Local Notation brun := (book_run gtb nonzero lin_solve space min_space factor).
  Local Notation bcall := (book_call gtb nonzero lin_solve space min_space factor).

  Theorem diis_is_textbook h :
    match run (diis_init K) h with Ok (_, vs) => Ok vs | Err e => Err e end = brun (mkb None []) h.
  Proof.
    pose proof (@run_refines K gtb nonzero lin_solve space min_space factor h _ _ (rel_empty K)) as X.
    destruct (run (diis_init K) h) as [[s vs]|x], (brun (mkb None []) h) as [vs'|x']; try contradiction; congruence.
  Qed.

  (** Memory. *)
  Lemma drop_worst_length (l : list (vec * vec)) : l <> [] -> S (length (drop_worst gtb l)) = length l.
  Proof.
    destruct l as [|p l]; [congruence|]. intros _. unfold drop_worst. apply remove_nth_length.
    assert (G : forall (l : list (vec * vec)) b i x, b < i -> worst gtb b i x l < i + length l).
    { induction l0 as [|q l0 IH]; intros b i x H; cbn; [lia|]. destruct (gtb _ _).
      - specialize (IH i (S i) (sqnorm q)). lia.
      - specialize (IH b (S i) x). lia. }
    specialize (G l 0 1 (sqnorm p)). cbn. lia.
  Qed.
  Lemma keep_length l p : S (length l) <= Nat.max space 1 -> S (length (keep gtb space l p)) <= Nat.max space 1.
  Proof.
    intros H. unfold keep. cbv zeta. destruct (Nat.ltb_spec space (S (length (l ++ [p])))).
    - rewrite drop_worst_length by (destruct l; discriminate). rewrite app_length. cbn. lia.
    - lia.
  Qed.
  Lemma bcall_length b a e b' v : S (length (kept b)) <= Nat.max space 1 -> bcall b a e = Ok (b', v) -> S (length (kept b')) <= Nat.max space 1.
  Proof.
    intros H. unfold book_call. set (s' := match previous b with Some _ => _ | None => _ end).
    assert (H' : S (length (kept s')) <= Nat.max space 1) by (subst s'; destruct (previous b); cbn [kept]; [apply keep_length, H|exact H]).
    destruct (previous s') as [p|]; [|discriminate]. destruct (_ <? _); [intros [= <- <-]; exact H'|]. destruct (_ =? 0); [discriminate|].
    destruct (lin_solve _ _); [|discriminate]. cbv zeta. intros [= <- <-]. exact H'.
  Qed.
  Lemma run_state h : forall s b s' vs, rel s b -> S (length (kept b)) <= Nat.max space 1 -> run s h = Ok (s', vs) ->
    exists b', rel s' b' /\ S (length (kept b')) <= Nat.max space 1.
  Proof.
    induction h as [|[a e] h IH]; intros s b s' vs HR HL H; cbn in H; [apply Ok_pair in H as [<- _]; eauto|].
    pose proof (@call_refines K gtb nonzero lin_solve space min_space factor s b a e HR) as X. destruct (diis_call _ _ _ _ _ _ s a e) as [[s1 v]|x]; [|discriminate].
    destruct (bcall b a e) as [[b1 v']|] eqn:EB; [|contradiction]. destruct X as [_ HR1].
    destruct (run s1 h) as [[s2 vs2]|] eqn:E; [|discriminate]. apply Ok_pair in H as [<- _]. eapply IH; eauto. eapply bcall_length; eauto.
  Qed.
  Theorem diis_memory h s vs : run (diis_init K) h = Ok (s, vs) ->
    length (arrays s) <= S (Nat.max space 1) /\ length (errors s) <= Nat.max space 1 /\
    forall i j x ei ej, dget pair_eq_dec (i, j) (cache s) = Some x -> dget Z.eq_dec i (errors s) = Some ei -> dget Z.eq_dec j (errors s) = Some ej ->
      x = vdot ei ej.
  Proof.
    intros H. destruct (@run_state h _ _ s vs (rel_empty K)) as (b & HR & HL); [cbn; lia|exact H|].
    inversion HR as [|T x n c p HI HB Hn HS]; subst.
    - cbn. repeat split; try lia. intros. discriminate.
    - cbn [arrays errors cache kept] in *. rewrite map_length in HL. assert (length (extra n x) <= 1) by (destruct x; cbn; lia).
      split; [|split].
      + cbn. unfold arr_of. rewrite map_length, app_length. lia.
      + unfold err_of. rewrite map_length, app_length. lia.
      + intros i j y ei ej Hy Hi Hj. destruct (HS _ _ _ Hy) as [[Hin Hjn] HE]. apply HE.
        * revert Hi. unfold err_of. rewrite map_app. clear - Hin. induction T as [|t T IH]; cbn.
          -- destruct x as [q|]; cbn; [|discriminate]. destruct (Z.eq_dec i n); [lia|discriminate].
          -- destruct (Z.eq_dec i (fst t)); auto.
        * revert Hj. unfold err_of. rewrite map_app. clear - Hjn. induction T as [|t T IH]; cbn.
          -- destruct x as [q|]; cbn; [|discriminate]. destruct (Z.eq_dec j n); [lia|discriminate].
          -- destruct (Z.eq_dec j (fst t)); auto.
  Qed.

  (** No exception other than the solver's. *)
  Theorem diis_total h : 1 <= min_space -> (forall m b, exists c, lin_solve m b = Ok c) -> exists s vs, run (diis_init K) h = Ok (s, vs) /\ length vs = length h.
  Proof.
    intros Hm HS. pose proof (diis_is_textbook h) as X.
    assert (G : forall h b, exists vs, brun b h = Ok vs /\ length vs = length h).
    { induction h0 as [|[a e] h0 IH]; intros b; cbn [book_run]; [exists []; auto|].
      assert (G : exists b' v, bcall b a e = Ok (b', v)).
      { unfold book_call. set (s' := match previous b with Some _ => _ | None => _ end). assert (exists p, previous s' = Some p) as [p ->] by (subst s'; destruct (previous b); cbn; eauto).
        destruct (Nat.ltb_spec (length (kept s')) min_space); [eauto|]. destruct (Nat.eqb_spec (length (kept s')) 0); [lia|].
        destruct (HS (border K (gram (kept s')) (length (kept s'))) (residual K (length (kept s')))) as [c ->]. cbv zeta. eauto. }
      destruct G as (b' & v & ->). destruct (IH b') as (vs & -> & L). exists (v :: vs). cbn. auto. }
    destruct (G h (mkb None [])) as (vs & Hv & L). rewrite Hv in X. destruct (run _ h) as [[s vs']|]; [|discriminate]. injection X as ->. eauto.
  Qed.

  (** Affine combinations of the inputs. *)
  Hypothesis Hsolve : solves K lin_solve.
  Lemma keep_in l p q : In q (keep gtb space l p) -> In q l \/ q = p.
  Proof.
    unfold keep. cbv zeta. intros H. assert (In q (l ++ [p])).
    { destruct (_ <? _); [|exact H]. unfold drop_worst in H. destruct (l ++ [p]); [exact H|]. eapply remove_nth_in; eauto. }
    apply in_app_iff in H0 as [H0|[<-|[]]]; auto.
  Qed.
  Definition hull n (xs : list vec) (b : book K) : Prop :=
    (forall p, previous b = Some p -> comb n r1 xs p) /\ (forall q, In q (kept b) -> comb n r1 xs (fst q)).
  Lemma bcall_hull n xs b a e b' v : Forall (fun x : vec => length x = n) xs -> length a = n -> hull n xs b -> bcall b a e = Ok (b', v) ->
    comb n r1 (xs ++ [a]) v /\ hull n (xs ++ [a]) b'.
  Proof.
    intros HF Ha [Hp Hk]. unfold book_call. set (s' := match previous b with Some _ => _ | None => _ end).
    assert (HF' : Forall (fun x : vec => length x = n) (xs ++ [a])) by (apply Forall_app; split; [exact HF|constructor; [exact Ha|constructor]]).
    assert (Hs : hull n (xs ++ [a]) s').
    { subst s'. destruct (previous b) as [p|]; split; cbn [previous kept].
      - intros q [= <-]. apply comb_snoc; auto.
      - intros q Hq. apply keep_in in Hq as [Hq| ->]; [apply comb_snoc; auto|]. apply comb_last; assumption.
      - intros q [= <-]. apply comb_last; assumption.
      - intros q Hq. apply comb_snoc; auto. }
    destruct Hs as [Hp' Hk']. destruct (previous s') as [p|] eqn:Ep; [|discriminate]. specialize (Hp' p eq_refl).
    destruct (_ <? _); [intros [= <- <-]; split; [exact Hp'|split; [intros q Hq; replace q with p by congruence; exact Hp'|exact Hk']]|].
    destruct (_ =? 0); [discriminate|]. destruct (lin_solve _ _) as [c|] eqn:EL; [|discriminate]. cbv zeta. intros H. apply Ok_pair in H as [<- <-].
    apply Hsolve in EL as [L E]. destruct (@bordered K (kept s') c L E) as (cs & lam & -> & Lc & Sc & _).
    set (y := weighted _ _ _).
    assert (Hy : comb n r1 (xs ++ [a]) y).
    { assert (Hlen : length p = n) by (eapply comb_length; eauto). subst y.
      replace (@r1 K) with (radd r0 (rsum (firstn (length (map fst (kept s'))) (cs ++ [lam])))).
      - apply weighted_comb; [exact HF'| |rewrite Forall_map, Forall_forall; exact Hk'|rewrite map_length, app_length; cbn; lia].
        rewrite vzero_repeat, Hlen. apply comb_zero, HF'.
      - rewrite map_length, <- Lc, firstn_app, Nat.sub_diag, firstn_all, firstn_O, app_nil_r, Sc. ring. }
    set (z := if nonzero factor then _ else _).
    assert (Hz : comb n r1 (xs ++ [a]) z).
    { subst z. destruct (nonzero factor); [|exact Hy].
      assert (X := comb_add HF' (comb_scale (rsub r1 factor) HF' Hy) (comb_scale factor HF' Hp')).
      replace (radd (rmul r1 (rsub r1 factor)) (rmul r1 factor)) with (@r1 K) in X by ring. exact X. }
    split; [exact Hz|]. split; cbn [previous kept]; [intros q [= <-]; exact Hz|exact Hk'].
  Qed.
  Lemma brun_affine n : forall h xs b vs, Forall (fun x : vec => length x = n) xs -> Forall (fun p => length (fst p) = n) h -> hull n xs b ->
    brun b h = Ok vs -> forall k v, nth_error vs k = Some v -> comb n r1 (xs ++ map fst (firstn (S k) h)) v.
  Proof.
    induction h as [|[a e] h IH]; intros xs b vs HF Hh HH H k v Hk; cbn [book_run] in H; [apply Ok_inj' in H; subst; destruct k; discriminate|].
    pose proof (Forall_inv Hh) as Ha. pose proof (Forall_inv_tail Hh) as Hh'. cbn [fst] in Ha. destruct (bcall b a e) as [[b' v']|] eqn:E; [|discriminate]. destruct (brun b' h) as [vs'|] eqn:E'; [|discriminate].
    apply Ok_inj' in H; subst vs. destruct (@bcall_hull _ xs b a e b' v' HF Ha HH E) as [Hv HH'].
    destruct k as [|k]; cbn [nth_error] in Hk.
    - injection Hk as <-. cbn. exact Hv.
    - assert (X := IH (xs ++ [a]) b' vs'). change (map fst (firstn (S (S k)) ((a, e) :: h))) with ([a] ++ map fst (firstn (S k) h)).
      specialize (X ltac:(apply Forall_app; split; [exact HF|constructor; [exact Ha|constructor]]) Hh' HH' E' k v Hk). rewrite <- app_assoc in X. exact X.
  Qed.
  Theorem diis_affine n h s vs : Forall (fun p => length (fst p) = n) h -> run (diis_init K) h = Ok (s, vs) ->
    forall k v, nth_error vs k = Some v -> affine n (map fst (firstn (S k) h)) v.
  Proof.
    intros Hh H k v Hk. pose proof (diis_is_textbook h) as X. rewrite H in X. symmetry in X.
    apply (@brun_affine n h [] (mkb None []) vs); auto. split; [intros p [=]|intros q []].
  Qed.
  Lemma affine_fixed n (x : vec) (l : list vec) (y : vec) : length x = n -> (forall z, In z l -> z = x) -> affine n l y -> y = x.
  Proof.
    intros Hx Hl (cs & L & S & ->).
    assert (HF : Forall (fun z : vec => length z = n) l) by (rewrite Forall_forall; intros z Hz; rewrite (Hl z Hz); exact Hx).
    apply vec_ext with n; [apply lincomb_length, HF|exact Hx|]. intros i. rewrite lincomb_nth by exact HF.
    transitivity (rmul (rsum cs) (nth i x r0)); [|rewrite S; ring]. clear - L Hl. revert cs L. induction l as [|z l IH]; intros cs L; destruct cs as [|c cs]; cbn in L; try discriminate.
    - cbn. ring.
    - cbn [zipw]. rewrite !rsum_cons, IH, (Hl z (or_introl eq_refl)); [ring|intros w Hw; apply Hl; right; exact Hw|lia].
  Qed.
End Histories.

Section Stuck.
  Variable K : rng.
  Variable gtb : K -> K -> bool.
  Variable nonzero : K -> bool.
  Variable lin_solve : list (list K) -> list K -> result (list K).
  Variables (space min_space : nat) (factor : K).
  Local Notation vec := (vec K).
  Local Notation run := (diis_run gtb nonzero lin_solve space min_space factor).
  Local Notation brun := (book_run gtb nonzero lin_solve space min_space factor).
  Local Notation bcall := (book_call gtb nonzero lin_solve space min_space factor).

  Lemma keep_le l p : length (keep gtb space l p) <= S (length l).
  Proof.
    unfold keep. cbv zeta. destruct (_ <? _); [|rewrite app_length; cbn; lia].
    pose proof (@drop_worst_length K gtb (l ++ [p])) as X. rewrite app_length in X. cbn in X. destruct l; cbn in *; specialize (X ltac:(discriminate)); lia.
  Qed.
  Lemma brun_stuck x0 : forall h b, previous b = Some x0 -> length (kept b) + length h < min_space -> brun b h = Ok (map (fun _ => x0) h).
  Proof.
    induction h as [|[a e] h IH]; intros b Hp HL; [reflexivity|]. cbn [book_run map]. unfold book_call. rewrite Hp. cbn [previous kept].
    set (e' := match e with Some _ => _ | None => _ end).
    pose proof (keep_le (kept b) (a, e')) as X. cbn [length] in HL. destruct (Nat.ltb_spec (length (keep gtb space (kept b) (a, e'))) min_space) as [_|N]; [|lia].
    rewrite IH; [reflexivity|reflexivity|cbn [kept]; lia].
  Qed.
  Lemma brun_stuck_space x0 : space <= 1 -> 1 <= min_space -> forall h b, previous b = Some x0 -> kept b = [] -> brun b h = Ok (map (fun _ => x0) h).
  Proof.
    intros Hs Hm. induction h as [|[a e] h IH]; intros b Hp HL; [reflexivity|]. cbn [book_run map]. unfold book_call. rewrite Hp, HL. cbn [previous kept].
    set (e' := match e with Some _ => _ | None => _ end).
    assert (X : keep gtb space [] (a, e') = []). { unfold keep. cbn. destruct (Nat.leb_spec space 1); [reflexivity|lia]. }
    rewrite X. destruct (Nat.ltb_spec (length (@nil (vec * vec))) min_space) as [_|N]; [|cbn in N; lia].
    rewrite IH; reflexivity.
  Qed.
  Lemma first_call x e h : 1 <= min_space -> brun (mkb None []) ((x, e) :: h) = match brun (mkb (Some x) []) h with Ok vs => Ok (x :: vs) | Err er => Err er end.
  Proof. intros H. cbn [book_run]. unfold book_call. cbn [previous kept length]. destruct (Nat.ltb_spec 0 min_space); [|lia]. destruct (brun _ h); reflexivity. Qed.
  Theorem stuck_below_min x e h : length h < min_space -> exists s, run (diis_init K) ((x, e) :: h) = Ok (s, map (fun _ => x) ((x, e) :: h)).
  Proof.
    intros H. pose proof (diis_is_textbook gtb nonzero lin_solve space min_space factor ((x, e) :: h)) as X. rewrite first_call in X by lia.
    rewrite (@brun_stuck x) in X; [|reflexivity|cbn; lia]. destruct (run _ _) as [[s vs]|]; [|discriminate]. injection X as ->. exists s. reflexivity.
  Qed.
  Theorem stuck_space_one x e h : space <= 1 -> 1 <= min_space -> exists s, run (diis_init K) ((x, e) :: h) = Ok (s, map (fun _ => x) ((x, e) :: h)).
  Proof.
    intros H Hm. pose proof (diis_is_textbook gtb nonzero lin_solve space min_space factor ((x, e) :: h)) as X. rewrite first_call in X by lia.
    rewrite (@brun_stuck_space x) in X; [|assumption|assumption|reflexivity|reflexivity]. destruct (run _ _) as [[s vs]|]; [|discriminate]. injection X as ->. exists s. reflexivity.
  Qed.
End Stuck.

Section LinearDamp.
  Variable K : rng.
  Local Notation vec := (vec K).
  Lemma linear_ok factor l : forall (s : linear K) p, (exists k, larrays s = [(k, p)] /\ k < lcounter s) \/
      (exists k1 q k2, larrays s = [(k1, q); (k2, p)] /\ k1 < k2 < lcounter s) ->
    exists s', linear_run factor s l = Ok (s', mixtures factor p l) /\ length (larrays s') <= 2.
  Proof.
    induction l as [|x l IH]; intros s p H.
    - exists s. split; [reflexivity|]. destruct H as [(k & -> & _)|(k1 & q & k2 & -> & _)]; cbn; lia.
    - cbn [linear_run mixtures]. unfold linear_call, linear_push, linear_extrapolate.
      destruct H as [(k & E & Hk)|(k1 & q & k2 & E & Hk)]; rewrite E; cbn [length Nat.eqb dkeys map fst hd fold_right].
      + cbn [dset]. destruct (Nat.eq_dec (lcounter s) k) as [?|_]; [lia|]. cbn [larrays]. destruct (Nat.leb_spec k (lcounter s)) as [_|?]; [|lia].
        destruct (IH (mklin [(k, p); (lcounter s, x)] (S (lcounter s))) x) as (s' & -> & HL).
        { right. exists k, p, (lcounter s). split; [reflexivity|cbn; lia]. }
        eexists. split; [reflexivity|exact HL].
      + replace (Nat.min k1 (Nat.min k2 k1)) with k1 by lia. cbn [ddel]. destruct (Nat.eq_dec k1 k1) as [_|?]; [|congruence].
        cbn [dset]. destruct (Nat.eq_dec (lcounter s) k2) as [?|_]; [lia|]. cbn [larrays]. destruct (Nat.leb_spec k2 (lcounter s)) as [_|?]; [|lia].
        destruct (IH (mklin [(k2, p); (lcounter s, x)] (S (lcounter s))) x) as (s' & -> & HL).
        { right. exists k2, p, (lcounter s). split; [reflexivity|cbn; lia]. }
        eexists. split; [reflexivity|exact HL].
  Qed.
  Theorem linear_damping factor (l : list vec) : exists s, linear_run factor (linear_init K) l = Ok (s, damped factor l) /\ length (larrays s) <= 2.
  Proof.
    destruct l as [|x l]; [exists (linear_init K); cbn; auto|]. cbn [linear_run damped]. replace (linear_call factor (linear_init K) x) with (Ok (mklin [(0, x)] 1, x)) by reflexivity.
    destruct (@linear_ok factor l (mklin [(0, x)] 1) x) as (s & -> & HL); [left; exists 0; cbn; auto|]. exists s. auto.
  Qed.
End LinearDamp.

(** Eviction removes a vector of largest error. *)
Section Evict.
  Variable K : rng.
  Variable gtb : K -> K -> bool.
  Hypothesis Hirr : forall x, gtb x x = false.
  Hypothesis Hneg : forall x y z, gtb z y = false -> gtb y x = false -> gtb z x = false.
  Hypothesis Hasym : forall x y, gtb x y = true -> gtb y x = false.
  Local Notation vec := (vec K).
  Lemma worst_max (L : list (vec * vec)) : forall l b i p, (forall j, nth_error l j = nth_error L (i + j)) -> nth_error L b = Some p ->
    (forall j q, j < i -> nth_error L j = Some q -> gtb (sqnorm q) (sqnorm p) = false) ->
    exists p', nth_error L (worst gtb b i (sqnorm p) l) = Some p' /\ forall q, In q L -> gtb (sqnorm q) (sqnorm p') = false.
  Proof.
    induction l as [|u l IH]; intros b i p Hl Hb Hmax; cbn [worst].
    - exists p. split; [exact Hb|]. intros q Hq. apply In_nth_error in Hq as [j Hj]. destruct (Nat.lt_ge_cases j i) as [X|X]; [eauto|].
      specialize (Hl (j - i)). replace (i + (j - i)) with j in Hl by lia. rewrite Hj in Hl. destruct (j - i); discriminate.
    - assert (Hu : nth_error L i = Some u) by (rewrite <- (Nat.add_0_r i), <- Hl; reflexivity).
      assert (HT : forall j, nth_error l j = nth_error L (S i + j)) by (intros j; specialize (Hl (S j)); cbn in Hl; rewrite Hl; f_equal; lia).
      destruct (gtb (sqnorm u) (sqnorm p)) eqn:E.
      + apply IH; [exact HT|exact Hu|]. intros j q Hj Hq. destruct (Nat.eq_dec j i) as [->|N]; [replace q with u by congruence; apply Hirr|].
        apply Hneg with (y := sqnorm p); [eapply Hmax; eauto; lia|apply Hasym, E].
      + apply IH; [exact HT|exact Hb|]. intros j q Hj Hq. destruct (Nat.eq_dec j i) as [->|N]; [replace q with u by congruence; exact E|]. eapply Hmax; eauto. lia.
  Qed.
  Theorem evicts_worst (l : list (vec * vec)) : l <> [] ->
    exists l1 p l2, l = l1 ++ p :: l2 /\ drop_worst gtb l = l1 ++ l2 /\ forall q, In q l -> gtb (sqnorm q) (sqnorm p) = false.
  Proof.
    destruct l as [|p l]; [congruence|]. intros _. destruct (@worst_max (p :: l) l 0 1 p) as (p' & Hp & Hmax).
    { intros j. reflexivity. } { reflexivity. } { intros j q Hj. replace j with 0 by lia. cbn. intros [= <-]. apply Hirr. }
    unfold drop_worst, remove_nth. set (w := worst gtb 0 1 (sqnorm p) l) in *.
    apply nth_error_split in Hp as (l1 & l2 & E & HL). exists l1, p', l2. split; [exact E|]. split; [|exact Hmax].
    rewrite E. rewrite <- HL. rewrite firstn_app, Nat.sub_diag, firstn_all, firstn_O, app_nil_r. f_equal.
    rewrite skipn_app. replace (S (length l1) - length l1) with 1 by lia. rewrite skipn_all2 by lia. reflexivity.
  Qed.
End Evict.

(** An exact solver for one or two stored errors over the integers, for the examples. *)
Section ExactSolver.
  Definition candidate (m : list (list Z_rng)) : list Z_rng :=
    match m with
    | [[e; _]; _] => [1%Z; e]
    | [[a; b; _]; [_; d; _]; _] =>
        let den := (a - b - b + d)%Z in
        let c := if (den =? 0)%Z then 1%Z else ((d - b) / den)%Z in
        [c; (1 - c)%Z; (a * c + b * (1 - c))%Z]
    | _ => []
    end.
  Definition exact_solver (m : list (list Z_rng)) (b : list Z_rng) : result (list Z_rng) :=
    let c := candidate m in
    if (length c =? length m) && (length (mat_vec Z_rng m c) =? length b) && forallb (fun p => Z.eqb (fst p) (snd p)) (combine (mat_vec Z_rng m c) b)
    then Ok c else Err ValueError.
  Lemma exact_solver_solves : solves Z_rng exact_solver.
  Proof.
    intros m b c. unfold exact_solver. destruct (_ && _) eqn:E; [|discriminate]. intros H. apply Ok_inj' in H. subst c.
    apply andb_true_iff in E as [E E3]. apply andb_true_iff in E as [E1 E2]. apply Nat.eqb_eq in E1, E2. split; [exact E1|].
    revert b E2 E3. generalize (mat_vec Z_rng m (candidate m)). induction l as [|x l IH]; intros b L H; destruct b as [|y b]; cbn in L; try discriminate; [reflexivity|].
    cbn [combine forallb] in H. apply andb_true_iff in H as [H1 H2]. cbn in H1. f_equal; [apply Z.eqb_eq, H1|]. apply IH; [injection L as L; exact L|exact H2].
  Qed.
  Definition zgtb (a b : Z_rng) : bool := Z.gtb a b.
  Definition znonzero (a : Z_rng) : bool := negb (Z.eqb a 0).
End ExactSolver.

Theorem coefficients_optimal (K : rng) n (l : list (vec K * vec K)) c : Forall (fun p => length (snd p) = n) l ->
  length c = length (border K (gram l) (length l)) -> mat_vec K (border K (gram l) (length l)) c = residual K (length l) ->
  let cs := firstn (length l) c in
  rsum cs = r1 /\ forall ds, length ds = length l -> rsum ds = r1 ->
  let e d := lincomb n d (map snd l) in
  vdot (e ds) (e ds) = radd (vdot (e cs) (e cs)) (vdot (e (zipw rsub ds cs)) (e (zipw rsub ds cs))).
Proof.
  intros HF L E cs. destruct (@bordered K l c L E) as (cs' & lam & -> & Lc & Sc & HL).
  replace cs with cs'. 2:{ subst cs. rewrite <- Lc, firstn_app, Nat.sub_diag, firstn_all, firstn_O, app_nil_r. reflexivity. }
  split; [exact Sc|]. intros ds Ld Sd. apply (@optimal K n l cs' lam); assumption.
Qed.
