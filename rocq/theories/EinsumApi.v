(** Total correctness of einsum and dirsum on rendered subscripts. *)
From Coq Require Import Sorted Ring.
From Verif Require Import Base ListAux Alg ArrModel ArrProofs EinsumModel EinsumProofs EinsumThms EinsumSpec EinsumParse GroupProofs SpinProofs.
Set Implicit Arguments.

Lemma Forall2_combine {A B} (R : A -> B -> Prop) l1 l2 : Forall2 R l1 l2 ->
  length l1 = length l2 /\ forall p, In p (combine l1 l2) -> R (fst p) (snd p).
Proof.
  induction 1 as [|x y l1 l2 H _ [IH1 IH2]]; cbn; [split; [reflexivity|intros ? []]|].
  split; [congruence|]. intros p [<-|Hp]; [exact H|apply IH2, Hp].
Qed.

Lemma in_concat_combine {A} (inps : list pystr) (args : list A) c : length inps = length args ->
  (In c (concat inps) <-> exists p, In p (combine inps args) /\ In c (fst p)).
Proof.
  revert args; induction inps as [|i inps IH]; intros [|a args] HL; cbn in *; try discriminate.
  - split; [intros []|intros (p & [] & _)].
  - rewrite in_app_iff, (IH args) by congruence. split.
    + intros [H|(p & H1 & H2)]; [exists (i, a)|exists p]; tauto.
    + intros (p & [<-|Hp] & H); [left; exact H|right; exists p; tauto].
Qed.

Section Api.
  Variable K : rng.
  Add Ring Kring3 : (rth K).
  Local Open Scope rng_scope.

  Lemma ranges_loop_ok sz l d : (forall c n, In (c, n) l -> sz c = n) ->
    (forall c n, dget Nat.eq_dec c d = Some n -> sz c = n) ->
    exists rg, ranges_loop l d = Ok rg.
  Proof.
    revert d; induction l as [|(c, n) l IH]; intros d Hl Hd; cbn [ranges_loop]; [eauto|].
    assert (Hd' : forall c' n', dget Nat.eq_dec c' (dset Nat.eq_dec c n d) = Some n' -> sz c' = n').
    { intros c' n'. rewrite dget_dset. destruct (Nat.eq_dec c' c) as [->|]; [|apply Hd].
      intros E; injection E as <-. apply Hl. left; reflexivity. }
    assert (Hl' : forall c n, In (c, n) l -> sz c = n) by (intros; apply Hl; right; assumption).
    destruct (dget Nat.eq_dec c d) as [m|] eqn:E; [|apply IH; assumption].
    assert (m = n) as -> by (rewrite <- (Hd c m E); apply Hl; left; reflexivity).
    rewrite Nat.eqb_refl. apply IH; assumption.
  Qed.

  Lemma shapes_ranges sz inps (args : list (arr K)) : shapes_agree sz inps args ->
    ndims_ok K inps args = true /\
    exists rg, ranges_of K inps args = Ok rg /\ (forall c, In c (concat inps) -> extent rg c = sz c).
  Proof.
    intros H. apply Forall2_combine in H as [HL H]. split.
    - unfold ndims_ok. apply andb_true_iff. split; [apply Nat.eqb_eq; exact HL|]. apply forallb_forall. intros p Hp. destruct (H p Hp) as [_ E].
      rewrite E, map_length. apply Nat.eqb_refl.
    - assert (Hc : forall c n, In (c, n) (flat_map (fun p => combine (fst p) (shp (snd p))) (combine inps args)) -> sz c = n).
      { intros c n Hin. apply in_flat_map in Hin as (p & Hp & Hin). destruct (H p Hp) as [_ E]. rewrite E in Hin.
        clear -Hin. induction (fst p) as [|x l IH]; cbn in Hin; [destruct Hin|].
        destruct Hin as [E|Hin]; [injection E as <- <-; reflexivity|apply IH, Hin]. }
      destruct (@ranges_loop_ok sz _ [] Hc) as [rg Hr]; [intros ? ? E; discriminate|].
      exists rg. split; [exact Hr|]. intros c Hin. apply (in_concat_combine inps args c HL) in Hin as (p & Hp & Hcp).
      destruct (@ranges_loop_spec _ _ _ Hr) as [Hspec _]. apply Hspec.
      apply in_flat_map. exists p. split; [exact Hp|]. destruct (H p Hp) as [_ E]. rewrite E.
      destruct p as [l a]. cbn [fst snd] in *. clear -Hcp. induction l as [|x l IH]; [destruct Hcp|]. cbn.
      destruct Hcp as [<-|Hcp]; [left; reflexivity|right; apply IH, Hcp].
  Qed.

  (** An environment built from output and summed letters. *)
  Lemma env_app outs L o v c : NoDup (outs ++ L) -> length o = length outs -> length v = length L ->
    In c (outs ++ L) -> setl (env_of outs o) L v c = env_of (outs ++ L) (o ++ v) c.
  Proof.
    intros Hnd Ho Hv Hc.
    assert (HLL : length (o ++ v) = length (outs ++ L)) by (rewrite !app_length; congruence).
    pose proof (@env_of_map (outs ++ L) (o ++ v) Hnd HLL) as HM. rewrite map_app in HM.
    destruct (NoDup_app_inv _ _ Hnd) as (N1 & N2 & N3).
    assert (X : map (env_of (outs ++ L) (o ++ v)) outs = o /\ map (env_of (outs ++ L) (o ++ v)) L = v).
    { assert (HH : forall (a b c d : list nat), length a = length c -> a ++ b = c ++ d -> a = c /\ b = d).
      { induction a as [|x a IH]; intros b [|y c']; cbn; intros; try discriminate; [auto|].
        match goal with H : _ :: _ = _ :: _ |- _ => injection H as -> H end.
        destruct (IH b c' d) as [-> ->]; auto. }
      apply HH in HM; [exact HM|rewrite map_length; congruence]. }
    destruct X as [X1 X2]. 
    apply in_app_or in Hc as [Hc|Hc].
    - rewrite setl_notin by (intros H; apply (N3 c); assumption).
      rewrite <- X1 at 1. apply env_of_eq, Hc.
    - rewrite setl_in by exact Hc. rewrite <- X2 at 1. apply env_of_eq, Hc.
  Qed.

  Lemma sum_over_size sz sz' L (F : (nat -> nat) -> K) e : (forall c, In c L -> sz c = sz' c) ->
    sum_over K sz L F e = sum_over K sz' L F e.
  Proof.
    revert e; induction L as [|c L IH]; intros e H; cbn [sum_over]; [reflexivity|].
    rewrite (H c) by (left; reflexivity). apply rsum_map_ext. intros x _. apply IH. intros; apply H; right; assumption.
  Qed.

  (** [term] only looks at the letters of the inputs. *)
  Definition local (inps : list pystr) (term : (nat -> nat) -> K) : Prop :=
    forall e e', (forall c, In c (concat inps) -> e c = e' c) -> term e = term e'.

  Lemma local_respects inps term : local inps term -> respects K term.
  Proof. intros H e e' He. apply H. intros c _. apply He. Qed.

  Lemma product_local inps args : length inps = length args -> local inps (product_term K inps args).
  Proof.
    intros HL e e' He. unfold product_term. f_equal. apply map_ext_in. intros p Hp. f_equal. apply map_ext_in.
    intros c Hc. apply He. apply (in_concat_combine inps args c HL). exists p. split; assumption.
  Qed.

  (** The sum in the specification, for any enumeration of the summed letters. *)
  Lemma spec_sum sz inps outs term L o : local inps term -> NoDup outs -> incl outs (concat inps) ->
    summation_letters inps outs L -> inb (map sz outs) o ->
    rsum (map (fun v => term (env_of (outs ++ L) (o ++ v))) (all_idx (map sz L))) =
    sum_over K sz (summed inps outs) term (env_of outs o).
  Proof.
    intros Hloc Nout Hinc [NL HL] Ho.
    assert (Hp : Permutation (summed inps outs) L).
    { apply NoDup_Permutation; [apply summed_nodup|exact NL|]. intros c. rewrite summed_in, HL. reflexivity. }
    rewrite (sum_over_perm sz (env_of outs o) (local_respects Hloc) (summed_nodup inps outs) Hp).
    rewrite sum_over_all by (try exact NL; apply (local_respects Hloc)).
    apply rsum_map_ext. intros v Hv. apply all_idx_in in Hv. symmetry. apply Hloc. intros c Hc.
    apply env_app.
    - apply NoDup_app_intro; [exact Nout|exact NL|]. intros x Hx Hx'. apply HL in Hx'. tauto.
    - apply inb_length in Ho. rewrite map_length in Ho. exact Ho.
    - apply inb_length in Hv. rewrite map_length in Hv. exact Hv.
    - apply in_or_app. destruct (in_dec Nat.eq_dec c outs); [left; assumption|right; apply HL; tauto].
  Qed.

  Lemma np_total sz inps outs (args : list (arr K)) : shapes_agree sz inps args -> NoDup outs -> incl outs (concat inps) ->
    exists r, np_einsum K inps outs args = Ok r /\ wf r /\ shp r = map sz outs /\
      (forall o, inb (map sz outs) o -> aget 0 r o = sum_over K sz (summed inps outs) (product_term K inps args) (env_of outs o)).
  Proof.
    intros Hs Nout Hinc. destruct (shapes_ranges Hs) as (Hn & rg & Hr & Hrg).
    unfold np_einsum. rewrite Hn, Hr. cbn [negb bind].
    assert (Hok : (forallb (fun c => count outs c =? 1)%nat outs && forallb (fun c => memb c (concat inps)) outs)%bool = true).
    { apply andb_true_iff. rewrite !forallb_forall. split; intros c Hc.
      - rewrite nodup_count by exact Nout. apply memb_in in Hc. rewrite Hc. reflexivity.
      - apply memb_in, Hinc, Hc. }
    rewrite Hok. eexists; split; [reflexivity|]. split; [apply tab_wf|].
    assert (Hm : map (extent rg) outs = map sz outs) by (apply map_ext_in; intros c Hc; apply Hrg, Hinc, Hc).
    split; [cbn [tab shp]; exact Hm|]. intros o Ho. rewrite Hm, (@aget_tab K 0) by exact Ho.
    apply sum_over_size. intros c Hc. apply Hrg. apply summed_in in Hc. tauto.
  Qed.

  Lemma accumulate_elementwise sz inps outs term (alpha beta : K) out r :
    local inps term -> NoDup outs -> incl outs (concat inps) -> buffer_fits K sz outs out ->
    wf r -> shp r = map sz outs ->
    (forall o, inb (map sz outs) o -> aget 0 r o = sum_over K sz (summed inps outs) term (env_of outs o)) ->
    exists c, accumulate K beta out (scale K alpha r) = Ok c /\ elementwise K sz inps outs term alpha beta out c.
  Proof.
    intros Hloc Nout Hinc Hbuf Wr Sr Gr.
    destruct (@accumulate_spec K alpha beta out r Wr) as (c & Ec & Sc & Wc & Gc).
    { intros o E. destruct (Hbuf o E) as [W S]. split; [exact W|congruence]. }
    exists c. split; [exact Ec|]. split; [exact Wc|]. split; [congruence|].
    intros L HL o Ho. rewrite (@spec_sum sz inps outs term L o Hloc Nout Hinc HL Ho).
    rewrite Gc by (rewrite Sr; exact Ho). rewrite (Gr o Ho). destruct out; ring.
  Qed.

  Theorem transpose_total sz inp outs (a : arr K) alpha beta out : shapes_agree sz [inp] [a] ->
    NoDup outs -> incl outs inp -> buffer_fits K sz outs out ->
    exists r, transpose_backend K inp outs a alpha beta out = Ok r /\
      elementwise K sz [inp] outs (product_term K [inp] [a]) alpha beta out r.
  Proof.
    intros Hs Nout Hinc Hbuf.
    assert (Hinc' : incl outs (concat [inp])) by (cbn; rewrite app_nil_r; exact Hinc).
    destruct (np_total Hs Nout Hinc') as (r & Er & Wr & Sr & Gr).
    unfold transpose_backend. rewrite Er. cbn [bind].
    apply accumulate_elementwise; try assumption. apply product_local. reflexivity.
  Qed.

  Theorem contract_total sz ia ib outs (a b : arr K) alpha beta out : shapes_agree sz [ia; ib] [a; b] ->
    NoDup outs -> incl outs (ia ++ ib) -> buffer_fits K sz outs out ->
    exists r, contract_backend K ia ib outs a b alpha beta out = Ok r /\
      elementwise K sz [ia; ib] outs (product_term K [ia; ib] [a; b]) alpha beta out r /\
      forall min_size b1, (b1 = true -> beta = 1) -> contract_ttgt K min_size b1 ia ib outs a b alpha beta out = Ok r.
  Proof.
    intros Hs Nout Hinc Hbuf.
    assert (Hinc' : incl outs (concat [ia; ib])) by (cbn; rewrite app_nil_r; exact Hinc).
    destruct (np_total Hs Nout Hinc') as (r & Er & Wr & Sr & Gr).
    destruct (@accumulate_elementwise sz [ia; ib] outs (product_term K [ia; ib] [a; b]) alpha beta out r) as (c & Ec & Hc);
      try assumption; [apply product_local; reflexivity|].
    exists c. assert (Hb : contract_backend K ia ib outs a b alpha beta out = Ok c)
      by (unfold contract_backend; rewrite Er; exact Ec).
    split; [exact Hb|]. split; [exact Hc|]. intros min_size b1 Hb1.
    inversion Hs as [|? ? ? ? [Wa _] Hs']; subst. inversion Hs' as [|? ? ? ? [Wb _] _]; subst.
    pose proof (@ttgt_correct K min_size b1 ia ib outs a b alpha beta out Wa Wb Hb1) as HT.
    rewrite Hb in HT. apply HT. intros o r' E E'. rewrite Er in E'. injection E' as <-.
    destruct (Hbuf o E). split; [assumption|congruence].
  Qed.

  Lemma output_nodup s outs : output_letters s outs -> NoDup outs /\ incl outs (concat (groups_of s)).
  Proof.
    unfold output_letters. destruct (output s) as [o|]; [tauto|]. intros [H1 H2]. split.
    - clear -H1. induction H1 as [|x l H IH Hx]; constructor; [|exact IH]. rewrite Forall_forall in Hx.
      intros Hi. specialize (Hx _ Hi). lia.
    - intros c Hc. apply H2 in Hc. apply (count_occ_In Nat.eq_dec). unfold count in Hc. lia.
  Qed.

  (** Negated operands. *)
  Lemma arr_neg_facts (a : arr K) : wf a -> wf (arr_neg K a) /\ shp (arr_neg K a) = shp a /\
    forall idx, aget 0 (arr_neg K a) idx = - aget 0 a idx.
  Proof.
    intros W. split; [unfold wf in *; cbn; rewrite map_length; exact W|]. split; [reflexivity|].
    intros idx. unfold aget. cbn [shp dat arr_neg]. generalize (ravel (shp a) idx). intros k.
    transitivity (nth k (map ropp (dat a)) (ropp 0)); [f_equal; ring|]. apply map_nth.
  Qed.

  Lemma signed_ops_shapes sz s ops : shapes_agree sz (groups_of s) ops ->
    shapes_agree sz (groups_of s) (signed_ops K s ops).
  Proof.
    unfold groups_of. intros H. inversion H as [|i a l l' Ha Hr]; subst. cbn [signed_ops]. constructor; [exact Ha|].
    clear H Ha. revert l' Hr. induction (others s) as [|t seps IH]; intros l' Hr; inversion Hr as [|i' a' ? l'' Ha' Hr']; subst; cbn.
    - constructor.
    - constructor; [|apply IH, Hr']. unfold neg_if. destruct (fst t =? ch_minus)%nat; [|exact Ha'].
      destruct Ha' as [W S]. destruct (arr_neg_facts W) as (W1 & S1 & _). split; [exact W1|congruence].
  Qed.

  (** Plain separators leave the operands alone. *)
  Lemma signed_ops_plain s ops : (forall t, In t (others s) -> fst t = ch_comma) ->
    length ops = S (length (others s)) -> signed_ops K s ops = ops.
  Proof.
    intros H HL. destruct ops as [|a ops]; [discriminate|]. cbn [signed_ops]. f_equal. injection HL as HL.
    revert ops HL. induction (others s) as [|t l IH]; intros [|b ops] HL; try discriminate; [reflexivity|].
    cbn. f_equal; [unfold neg_if; rewrite (H t) by (left; reflexivity); reflexivity|].
    apply IH; [intros; apply H; right; assumption|]. cbn in HL. congruence.
  Qed.

  Theorem einsum_one sz s outs (a : arr K) alpha beta out method b1 trivial path rest :
    well_formed s -> others s = [] -> output_letters s outs -> shapes_agree sz (groups_of s) [a] ->
    buffer_fits K sz outs out ->
    exists r, einsum K method b1 trivial path (render s) [a] alpha beta out rest = Ok r /\
      elementwise K sz (groups_of s) outs (product_term K (groups_of s) [a]) alpha beta out r.
  Proof.
    intros Hw Hoth Hout Hs Hbuf. destruct (@output_nodup s outs Hout) as [Nout Hinc].
    destruct (@parse_render K s [a] outs Hw) as (inp & Ep & Esp); [rewrite Hoth; reflexivity|exact Hout|].
    unfold einsum. rewrite Ep. cbn [bind]. unfold groups_of in *. rewrite Hoth in *. cbn [map] in *.
    rewrite Esp. cbn [signed_ops]. rewrite ?Hoth. cbn [combine map].
    apply transpose_total; try assumption. cbn in Hinc. rewrite app_nil_r in Hinc. exact Hinc.
  Qed.

  Theorem einsum_two_total sz s g outs (a b : arr K) alpha beta out trivial path rest :
    well_formed s -> others s = [(ch_comma, g)] -> output_letters s outs -> shapes_agree sz (groups_of s) [a; b] ->
    buffer_fits K sz outs out ->
    exists r, elementwise K sz (groups_of s) outs (product_term K (groups_of s) [a; b]) alpha beta out r /\
      forall method b1, (b1 = true -> beta = 1) ->
        einsum K method b1 trivial path (render s) [a; b] alpha beta out rest = Ok r.
  Proof.
    intros Hw Hoth Hout Hs Hbuf. destruct (@output_nodup s outs Hout) as [Nout Hinc].
    destruct (@parse_render K s [a; b] outs Hw) as (inp & Ep & Esp); [rewrite Hoth; reflexivity|exact Hout|].
    unfold groups_of in *. rewrite Hoth in *. cbn [map snd] in *.
    destruct (@contract_total sz (first s) g outs a b alpha beta out Hs Nout) as (r & Er & Hr & Ht); try assumption.
    { cbn in Hinc. rewrite app_nil_r in Hinc. exact Hinc. }
    exists r. split; [exact Hr|]. intros method b1 Hb1. unfold einsum. rewrite Ep. cbn [bind]. rewrite Esp.
    rewrite signed_ops_plain by (rewrite Hoth; try reflexivity; intros t [<-|[]]; reflexivity).
    destruct method as [n|]; [apply Ht, Hb1|exact Er].
  Qed.

  Theorem einsum_many s outs (ops : list (arr K)) alpha beta out method b1 path rest :
    well_formed s -> length ops = S (length (others s)) -> output_letters s outs -> (3 <= length ops)%nat -> path <> 0%nat ->
    einsum K method b1 false path (render s) ops alpha beta out rest = Err NotImplementedError.
  Proof.
    intros Hw HL Hout H3 Hp. destruct (@parse_render K s ops outs Hw HL Hout) as (inp & Ep & Esp).
    unfold einsum. rewrite Ep. cbn [bind].
    assert (HL' : length (signed_ops K s ops) = length ops).
    { destruct ops as [|a ops]; [reflexivity|]. cbn. rewrite map_length, combine_length. cbn in HL. lia. }
    destruct (signed_ops K s ops) as [|x [|y [|z l]]]; cbn in HL'; try lia.
    destruct path; [contradiction|reflexivity].
  Qed.

  (** One operand of dirsum, with repeated letters replaced by a diagonal. *)
  Lemma dirsum_operand sz (cs : pystr) (a : arr K) : wf a -> shp a = map sz cs ->
    exists cs' a',
      (if (length (dedup cs) =? length cs)%nat then Ok (cs, a)
       else (r <- transpose_backend K cs (dedup cs) a 1 0 None ;; Ok (dedup cs : pystr, r))%py) = Ok (cs', a') /\
      wf a' /\ shp a' = map sz cs' /\ (forall c, In c cs' <-> In c cs) /\
      (forall e, bounded sz e cs -> aget 0 a' (map e cs') = aget 0 a (map e cs)).
  Proof.
    intros W S. destruct (length (dedup cs) =? length cs)%nat eqn:E.
    - exists cs, a. split; [reflexivity|]. tauto.
    - assert (Hs : shapes_agree sz [cs] [a]) by (constructor; [split; assumption|constructor]).
      destruct (@transpose_total sz cs (dedup cs) a 1 0 None Hs (dedup_nodup cs)) as (r & Er & Wr & Sr & Gr).
      { intros c Hc. rewrite dedup_in in Hc. exact Hc. }
      { intros c E'; discriminate. }
      rewrite Er. cbn [bind]. exists (dedup cs), r. split; [reflexivity|]. split; [exact Wr|]. split; [exact Sr|].
      split; [intros c; apply dedup_in|]. intros e He.
      assert (HL : summation_letters [cs] (dedup cs) []).
      { split; [constructor|]. intros c. cbn [concat In]. rewrite app_nil_r, dedup_in. tauto. }
      rewrite (Gr [] HL).
      2:{ apply bounded_inb. intros c Hc. apply He. rewrite dedup_in in Hc. exact Hc. }
      cbn [map all_idx product rsum fold_right]. rewrite !app_nil_r. unfold product_term, rprod. cbn [combine map fst snd fold_right].
      assert (X : map (env_of (dedup cs) (map e (dedup cs))) cs = map e cs)
        by (apply map_ext_in; intros c Hc; apply env_of_eq, dedup_in, Hc).
      rewrite X. ring.
  Qed.

  Lemma dirsum_loop_some sz l : forall r chars V,
    (forall p, In p l -> wf (snd p) /\ shp (snd p) = map sz (fst p)) ->
    wf r -> shp r = map sz chars -> (forall e, bounded sz e chars -> aget 0 r (map e chars) = V e) ->
    exists r' chars', dirsum_loop K l (Some r) chars = Ok (r', chars') /\ wf r' /\ shp r' = map sz chars' /\
      (forall c, In c chars' <-> In c chars \/ In c (concat (map fst l))) /\
      (forall e, bounded sz e chars' -> aget 0 r' (map e chars') = V e + rsum (map (fun p => aget 0 (snd p) (map e (fst p))) l)).
  Proof.
    induction l as [|(cs, a) l IH]; intros r chars V Hl Wr Sr Gr; cbn [dirsum_loop].
    - exists r, chars. split; [reflexivity|]. split; [exact Wr|]. split; [exact Sr|]. split; [cbn; tauto|].
      intros e He. rewrite (Gr e He). cbn. ring.
    - destruct (Hl (cs, a) (or_introl eq_refl)) as [Wa Sa]. cbn [fst snd] in Wa, Sa.
      assert (HLen : (length cs =? length (shp a))%nat = true) by (rewrite Sa, map_length; apply Nat.eqb_refl).
      rewrite HLen. cbn [negb].
      destruct (@dirsum_operand sz cs a Wa Sa) as (cs' & a' & E & Wa' & Sa' & Hin & Ga').
    match goal with |- context [@bind _ _ ?X _] => replace X with (@Ok (pystr * arr K) (cs', a')) by (symmetry; exact E) end.
    cbn [bind].
      set (rr := tab (shp r ++ shp a') (fun idx => aget 0 r (firstn (length (shp r)) idx) + aget 0 a' (skipn (length (shp r)) idx))).
      destruct (IH rr (chars ++ cs') (fun e => V e + aget 0 a (map e cs))) as (r' & chars' & E' & W' & S' & I' & G').
      + intros p Hp; apply Hl; right; exact Hp.
      + apply tab_wf.
      + cbn [rr tab shp]. rewrite Sr, Sa', map_app. reflexivity.
      + intros e He.
        assert (He1 : bounded sz e chars) by (intros c Hc; apply He, in_or_app; left; exact Hc).
        assert (He2 : bounded sz e cs) by (intros c Hc; apply He, in_or_app; right; apply Hin, Hc).
        unfold rr. rewrite (@aget_tab K 0) by (rewrite Sr, Sa', <- map_app; apply bounded_inb, He).
        rewrite Sr, map_length, map_app.
        replace (length chars) with (length (map e chars)) by apply map_length.
        rewrite firstn_app, firstn_all, Nat.sub_diag, skipn_app, skipn_all, Nat.sub_diag. cbn [firstn skipn app].
        rewrite app_nil_r, (Gr e He1), (Ga' e He2). reflexivity.
      + exists r', chars'. split; [exact E'|]. split; [exact W'|]. split; [exact S'|]. split.
        * intros c. rewrite I'. cbn [map concat fst]. rewrite !in_app_iff, Hin. tauto.
        * intros e He. rewrite (G' e He). cbn [map fst snd]. rewrite rsum_cons. ring.
  Qed.

  Lemma dirsum_loop_ok sz cs (a : arr K) l :
    wf a -> shp a = map sz cs -> (forall p, In p l -> wf (snd p) /\ shp (snd p) = map sz (fst p)) ->
    exists r chars, dirsum_loop K ((cs, a) :: l) None [] = Ok (r, chars) /\ wf r /\ shp r = map sz chars /\
      (forall c, In c chars <-> In c (concat (map fst ((cs, a) :: l)))) /\
      (forall e, bounded sz e chars ->
         aget 0 r (map e chars) = rsum (map (fun p => aget 0 (snd p) (map e (fst p))) ((cs, a) :: l))).
  Proof.
    intros Wa Sa Hl. cbn [dirsum_loop].
    assert (HLen : (length cs =? length (shp a))%nat = true) by (rewrite Sa, map_length; apply Nat.eqb_refl).
    rewrite HLen. cbn [negb].
    destruct (@dirsum_operand sz cs a Wa Sa) as (cs' & a' & E & Wa' & Sa' & Hin & Ga').
    match goal with |- context [@bind _ _ ?X _] => replace X with (@Ok (pystr * arr K) (cs', a')) by (symmetry; exact E) end.
    cbn [bind].
    destruct (@dirsum_loop_some sz l a' cs' (fun e => aget 0 a (map e cs)) Hl Wa' Sa') as (r & chars & E' & W' & S' & I' & G').
    - intros e He. apply Ga'. intros c Hc. apply He, Hin, Hc.
    - exists r, chars. split; [exact E'|]. split; [exact W'|]. split; [exact S'|]. split.
      + intros c. rewrite I'. cbn [map concat fst]. rewrite in_app_iff, Hin. reflexivity.
      + intros e He. rewrite (G' e He). cbn [map fst snd]. rewrite rsum_cons. reflexivity.
  Qed.

  Lemma map_fst_combine {A B} (l1 : list A) (l2 : list B) : length l1 = length l2 -> map fst (combine l1 l2) = l1.
  Proof. revert l2; induction l1 as [|x l1 IH]; intros [|y l2] H; cbn in *; try discriminate; [reflexivity|]. f_equal. apply IH. congruence. Qed.

  Theorem dirsum_total sz s outs ops : well_formed s -> length ops = S (length (others s)) -> output_letters s outs ->
    shapes_agree sz (groups_of s) ops ->
    exists r, dirsum K (render s) ops = Ok r /\
      elementwise K sz (groups_of s) outs (signed_sum_term K s ops) 1 0 None r.
  Proof.
    intros Hw HL Hout Hs. destruct (@output_nodup s outs Hout) as [Nout Hinc].
    destruct (@parse_render K s ops outs Hw HL Hout) as (inp & Ep & Esp).
    unfold dirsum. rewrite Ep. cbn [bind]. rewrite Esp.
    pose proof (@signed_ops_shapes sz s ops Hs) as Hs'.
    pose proof (proj1 (Forall2_combine Hs')) as HLs.
    destruct (signed_ops K s ops) as [|a0 rest0] eqn:Eso; [discriminate HLs|].
    assert (Hcomb : combine (groups_of s) (a0 :: rest0) = (first s, a0) :: combine (map snd (others s)) rest0) by reflexivity.
    destruct (Forall2_combine Hs') as [_ Hall]. rewrite Hcomb in *.
    destruct (@dirsum_loop_ok sz (first s) a0 (combine (map snd (others s)) rest0)) as (r & chars & E & Wr & Sr & Ir & Gr).
    { apply (Hall (first s, a0)). left; reflexivity. }
    { apply (Hall (first s, a0)). left; reflexivity. }
    { intros p Hp. apply Hall. right. exact Hp. }
    match goal with |- context [@bind _ _ ?X _] => replace X with (@Ok (arr K * pystr) (r, chars)) by (symmetry; exact E) end.
    cbn [bind fst snd].
    assert (Ir' : forall c, In c chars <-> In c (concat (groups_of s))).
    { intros c. etransitivity; [apply Ir|].
      match goal with |- In c (concat ?X) <-> _ => replace X with (groups_of s); [reflexivity|] end.
      symmetry. exact (map_fst_combine (groups_of s) (a0 :: rest0) HLs). }
    clear Ir. rename Ir' into Ir.
    assert (Gr' : forall e, bounded sz e chars -> aget 0 r (map e chars) =
       rsum (map (fun p => aget 0 (snd p) (map e (fst p))) (combine (groups_of s) (a0 :: rest0)))) by exact Gr.
    clear Gr. rename Gr' into Gr.
    assert (Hskip : skipn (length (a0 :: rest0)) (groups_of s) = []) by (apply skipn_all2; apply Nat.eq_le_incl; exact HLs).
    rewrite Hskip. cbn [concat]. rewrite app_nil_r.
    assert (Hsh : shapes_agree sz [chars] [r]) by (constructor; [split; assumption|constructor]).
    destruct (@transpose_total sz chars outs r 1 0 None Hsh Nout) as (c & Ec & Wc & Sc & Gc).
    { intros x Hx. apply Ir, Hinc, Hx. }
    { intros ? E'; discriminate. }
    exists c. split; [exact Ec|]. split; [exact Wc|]. split; [exact Sc|].
    intros L [NL IL] o Ho.
    assert (HL' : summation_letters [chars] outs L).
    { split; [exact NL|]. intros x. cbn [concat]. rewrite app_nil_r, IL, Ir. reflexivity. }
    rewrite (Gc L HL' o Ho). f_equal. f_equal. apply rsum_map_ext. intros v Hv. apply all_idx_in in Hv.
    set (e := env_of (outs ++ L) (o ++ v)).
    assert (He : bounded sz e chars).
    { assert (NoL : NoDup (outs ++ L)).
      { apply NoDup_app_intro; [exact Nout|exact NL|]. intros x Hx Hx'. apply IL in Hx'. tauto. }
      assert (Hi : inb (map sz (outs ++ L)) (o ++ v)).
      { rewrite map_app. apply Forall2_app; assumption. }
      destruct (inb_bounded sz NoL Hi) as [Hb _]. intros x Hx. apply Hb. apply in_or_app.
      destruct (in_dec Nat.eq_dec x outs); [left; assumption|right]. apply IL. split; [apply Ir, Hx|assumption]. }
    unfold product_term, rprod. cbn [combine map fst snd fold_right]. rewrite (Gr e He).
    transitivity (rsum (map (fun p => aget 0 (snd p) (map e (fst p))) (combine (groups_of s) (a0 :: rest0)))); [ring|].
    unfold signed_sum_term, groups_of. rewrite <- Eso.
    clear - Hs K. unfold groups_of in Hs. inversion Hs as [|i a l l' Ha Hr]; subst. cbn [signed_ops combine map fst snd].
    rewrite !rsum_cons. cbn [fst snd Nat.eqb ch_plus ch_minus].
    assert (X : rsum (map (fun p => aget 0 (snd p) (map e (fst p))) (combine (map snd (others s)) (map (fun p => neg_if K (fst (fst p)) (snd p)) (combine (others s) l'))))
              = rsum (map (fun p => let v0 := aget 0 (snd p) (map e (snd (fst p))) in if (fst (fst p) =? ch_minus)%nat then - v0 else v0) (combine (others s) l'))).
    { clear Hs Ha. revert l' Hr. induction (others s) as [|t seps IH]; intros l' Hr; [reflexivity|].
      inversion Hr as [|i' a' ? l'' Ha' Hr']; subst. cbn [combine map fst snd]. rewrite !rsum_cons, (IH l'' Hr'). f_equal.
      destruct t as [tc tg]. cbn [fst snd]. unfold neg_if. cbn [fst snd]. destruct (tc =? ch_minus)%nat; [|reflexivity].
      apply (proj2 (proj2 (arr_neg_facts (proj1 Ha')))). }
    rewrite X. reflexivity.
  Qed.

  (** Outputs which are not valid are refused, whatever the string. *)
  Theorem parse_output_valid sub ops inp outs args : parse_einsum K sub ops = Ok (inp, outs, args) ->
    NoDup outs /\ incl outs inp.
  Proof.
    unfold parse_einsum. destruct (remove_char ch_space sub) as [|c0 s0]; [discriminate|].
    destruct (replace_signs _ _ _ _) as [[s1 ops1]|]; [|discriminate]. cbn [bind].
    destruct (negb _); [discriminate|]. destruct (_ && negb _)%bool; [discriminate|]. destruct (memb ch_dot s1); [discriminate|].
    destruct (match split_arrow s1 with Some (i, o) => _ | None => _ end) as [[i o]|]; [|discriminate]. cbn [bind].
    destruct (forallb _ o && forallb _ o)%bool eqn:E; [|discriminate]. intros H; injection H as <- <- <-.
    apply andb_true_iff in E as [E1 E2]. rewrite forallb_forall in E1, E2. split.
    - apply count_nodup. intros c Hc. apply Nat.eqb_eq, E1, Hc.
    - intros c Hc. apply memb_in, E2, Hc.
  Qed.
End Api.
