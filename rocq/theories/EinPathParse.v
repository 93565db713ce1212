(** Subscripts given as lists of integers, and einsum for any number of operands. *)
From Coq Require Import Sorted Permutation Ring.
From Verif Require Import Base ListAux Alg ArrModel ArrProofs EinsumModel EinsumProofs EinsumThms EinsumSpec EinsumParse EinsumApi GroupProofs SpinProofs.
From Verif Require Import EinPathModel EinPathSpec EinPathThms.
Set Implicit Arguments.

Lemma symbol_letter i : i < 52 -> symbol i = Ok (letter_of i).
Proof. intros H. do 52 (destruct i as [|i]; [reflexivity|]). lia. Qed.
Lemma symbol_large i : 52 <= i -> symbol i = Err IndexError.
Proof.
  intros H. unfold symbol. destruct (nth_error symbols i) eqn:E; [|reflexivity].
  assert (i < length symbols) by (apply nth_error_Some; congruence). change (length symbols) with 52 in *. lia.
Qed.
Lemma letter_of_letter i : i < 52 -> is_letter (letter_of i) = true.
Proof. intros H. do 52 (destruct i as [|i]; [reflexivity|]). lia. Qed.
Lemma letter_of_inj i j : i < 52 -> j < 52 -> letter_of i = letter_of j -> i = j.
Proof.
  unfold letter_of. intros Hi Hj. destruct (Nat.ltb_spec i 26), (Nat.ltb_spec j 26); lia.
Qed.
Definition number_of (c : nat) : nat := if c <? 97 then 26 + (c - 65) else c - 97.
Lemma number_letter i : i < 52 -> number_of (letter_of i) = i.
Proof. intros H. do 52 (destruct i as [|i]; [reflexivity|]). lia. Qed.

Lemma small_letters l : small l -> letters (map letter_of l).
Proof. intros H c Hc. apply in_map_iff in Hc as (i & <- & Hi). apply letter_of_letter, H, Hi. Qed.

Lemma join_commas g gs : join_groups (g :: gs) = g ++ commas (map (fun g => (ch_comma, g)) gs).
Proof.
  revert g. induction gs as [|h gs IH]; intros g; [symmetry; apply app_nil_r|].
  change (join_groups (g :: h :: gs)) with (g ++ ch_comma :: join_groups (h :: gs)). rewrite IH. reflexivity.
Qed.

Section Parse.
  Variable K : rng.

  Lemma parse_string_ok (gs : list pystr) (o : option pystr) (outs : pystr) (ops : list (arr K)) : gs <> [] ->
    (forall g, In g gs -> letters g) -> (forall x, o = Some x -> letters x) ->
    match o with
    | Some x => outs = x
    | None => StronglySorted lt outs /\ forall c, In c outs <-> count (concat gs) c = 1
    end -> NoDup outs -> incl outs (concat gs) ->
    parse_string K (join_groups gs ++ tail o) ops = Ok (join_groups gs, outs, ops) /\ split_comma (join_groups gs) = gs.
  Proof.
    intros Hne Hg Ho Hout Nout Hinc. destruct gs as [|f gs]; [contradiction|]. rewrite join_commas.
    set (seps := map (fun g => (ch_comma, g)) gs).
    assert (Hm : map snd seps = gs) by (unfold seps; rewrite map_map; cbn [snd]; apply map_id).
    assert (Hf : letters f) by (apply Hg; left; reflexivity).
    assert (Hl : forall t, In t seps -> letters (snd t)).
    { intros t Ht. apply in_map_iff in Ht as (g & <- & Hi). apply Hg. right; exact Hi. }
    split; [|rewrite split_commas by assumption; rewrite Hm; reflexivity].
    set (inp := f ++ commas seps).
    assert (Hcat : concat (f :: gs) = remove_char ch_comma inp) by (unfold inp; rewrite remove_commas by assumption; rewrite Hm; reflexivity).
    assert (Hvalid : forall c, In c inp -> c = ch_comma \/ is_letter c = true).
    { intros c Hc. apply in_app_or in Hc as [Hc|Hc]; [right; apply Hf, Hc|].
      apply commas_in in Hc as [Hc|(t & Ht & Hc)]; [left; exact Hc|right; apply (Hl t Ht c Hc)]. }
    assert (Hplain : plain inp).
    { intros c Hc. apply Hvalid in Hc as [->|Hc]; [split; discriminate|]. apply letter_facts in Hc. tauto. }
    assert (Hnodot : ~ In ch_dot inp) by (intros H; apply Hvalid in H as [H|H]; discriminate).
    assert (E : forallb (fun c => count outs c =? 1) outs && forallb (fun c => memb c inp) outs = true).
    { rewrite andb_true_iff, !forallb_forall. split.
      - intros c Hc. rewrite nodup_count by exact Nout. apply memb_in in Hc. rewrite Hc. reflexivity.
      - intros c Hc. apply Hinc in Hc. rewrite Hcat in Hc. apply filter_In in Hc. apply memb_in. tauto. }
    unfold parse_string. destruct o as [x|]; cbn [tail].
    - assert (Hx : letters x) by (apply Ho; reflexivity).
      assert (Hpx : plain x) by (intros c Hc; apply Hx in Hc; apply letter_facts in Hc; tauto).
      unfold count at 1 2. rewrite !count_occ_app. cbn [count_occ].
      assert (Hz : forall c l, plain l -> c = ch_minus \/ c = ch_gt -> count_occ Nat.eq_dec l c = 0).
      { intros c l Hp Hc. apply count_occ_not_In. intros H. apply Hp in H. destruct Hc as [-> | ->]; tauto. }
      rewrite !(Hz ch_minus), !(Hz ch_gt) by (assumption || tauto).
      rewrite count_arrow_some by assumption.
      destruct (Nat.eq_dec ch_minus ch_minus) as [_|]; [|contradiction].
      destruct (Nat.eq_dec ch_gt ch_minus) as [X|_]; [discriminate|].
      destruct (Nat.eq_dec ch_gt ch_gt) as [_|]; [|contradiction].
      destruct (Nat.eq_dec ch_minus ch_gt) as [X|_]; [discriminate|].
      cbn [Nat.add Nat.leb Nat.eqb andb negb]. rewrite andb_false_r.
      assert (Hd : memb ch_dot (inp ++ ch_minus :: ch_gt :: x) = false).
      { apply memb_false. intros H. apply in_app_or in H as [H|[H|[H|H]]]; try discriminate; [contradiction|].
        apply Hx in H. discriminate. }
      rewrite Hd, split_arrow_some by exact Hplain. cbn [bind].
      subst x. rewrite E. reflexivity.
    - rewrite app_nil_r.
      assert (H1 : memb ch_minus inp = false) by (apply memb_false; intros H; apply Hplain in H; tauto).
      assert (H2 : memb ch_gt inp = false) by (apply memb_false; intros H; apply Hplain in H; tauto).
      rewrite H1, H2. cbn [orb andb].
      assert (Hd : memb ch_dot inp = false) by (apply memb_false, Hnodot). rewrite Hd.
      rewrite split_arrow_none by exact Hplain. unfold implicit_output. rewrite <- Hcat.
      assert (Hall : forallb is_letter (sorted_py (dedup (concat (f :: gs)))) = true).
      { apply forallb_forall. intros c Hc. apply (Permutation_in c (Permutation_sym (sorted_py_perm _))) in Hc.
        rewrite dedup_in, Hcat in Hc. apply filter_In in Hc as [Hc Hn]. apply Hvalid in Hc as [->|Hc]; [discriminate|exact Hc]. }
      rewrite Hall. cbn [bind].
      assert (Eo : filter (fun c => count (concat (f :: gs)) c =? 1) (sorted_py (dedup (concat (f :: gs)))) = outs).
      { destruct Hout as [S1 S2].
        apply EinsumParse.sorted_lt_unique; [|exact S1|].
        - apply sorted_filter; [apply sorted_py_sorted|]. apply (Permutation_NoDup (sorted_py_perm _)), dedup_nodup.
        - intros c. rewrite filter_In, Nat.eqb_eq, S2. split; [tauto|]. intros H. split; [|exact H].
          apply (Permutation_in c (sorted_py_perm _)). apply dedup_in. apply (count_occ_In Nat.eq_dec). unfold count in H. lia. }
      rewrite Eo, E. reflexivity.
  Qed.

  Lemma mapM_symbol l : small l -> mapM symbol l = Ok (map letter_of l).
  Proof. intros H. apply mapM_ok. intros i Hi. apply symbol_letter, H, Hi. Qed.

  Lemma list_output_facts subs ol outs : list_output subs ol outs -> NoDup outs /\ incl outs (concat subs).
  Proof.
    destruct ol as [o|]; cbn; [intros (-> & H1 & H2); tauto|]. intros [H1 H2]. split.
    - clear -H1. induction H1 as [|x l H IH Hx]; constructor; [|exact IH]. rewrite Forall_forall in Hx.
      intros Hi. specialize (Hx _ Hi). lia.
    - intros c Hc. apply H2 in Hc. apply (count_occ_In Nat.eq_dec). unfold count in Hc. lia.
  Qed.

  Lemma concat_letters (subs : list (list nat)) : concat (map (map letter_of) subs) = map letter_of (concat subs).
  Proof. rewrite concat_map. reflexivity. Qed.

  Lemma map_nodup_inj (l : list nat) : small l -> NoDup l -> NoDup (map letter_of l).
  Proof.
    induction l as [|x l IH]; intros Hs Hn; [constructor|]. inversion Hn; subst. cbn. constructor.
    - rewrite in_map_iff. intros (y & E & Hy). apply letter_of_inj in E; [subst; contradiction|apply Hs; right; exact Hy|apply Hs; left; reflexivity].
    - apply IH; [intros i Hi; apply Hs; right; exact Hi|assumption].
  Qed.

  Lemma count_letters (l : list nat) i : small l -> i < 52 -> count (map letter_of l) (letter_of i) = count l i.
  Proof.
    intros Hs Hi. unfold count. induction l as [|x l IH]; [reflexivity|]. cbn [map count_occ].
    rewrite IH by (intros j Hj; apply Hs; right; exact Hj).
    destruct (Nat.eq_dec (letter_of x) (letter_of i)) as [E|E], (Nat.eq_dec x i) as [E'|E']; try reflexivity.
    - apply letter_of_inj in E; [contradiction|apply Hs; left; reflexivity|exact Hi].
    - subst; contradiction.
  Qed.

  Lemma parse_lists_ok subs ol outs (ops : list (arr K)) : subs <> [] -> small (concat subs) ->
    (ol = None -> forall i, In i (concat subs) -> i < 26) -> list_output subs ol outs ->
    exists inp, parse_lists K subs ol ops = Ok (inp, map letter_of outs, ops) /\
      split_comma inp = map (map letter_of) subs.
  Proof.
    intros Hne Hs H26 Hout. destruct (@list_output_facts subs ol outs Hout) as [Nout Hinc].
    assert (Hso : small outs) by (intros i Hi; apply Hs, Hinc, Hi).
    assert (Hg : forall g, In g subs -> small g).
    { intros g Hgi i Hi. apply Hs. apply in_concat. exists g. tauto. }
    assert (Eg : mapM (mapM symbol) subs = Ok (map (map letter_of) subs)).
    { apply mapM_ok. intros g Hgi. apply mapM_symbol, Hg, Hgi. }
    exists (join_groups (map (map letter_of) subs)).
    assert (HP := @parse_string_ok (map (map letter_of) subs) (option_map (map letter_of) ol) (map letter_of outs) ops).
    destruct HP as [HP1 HP2].
    - destruct subs; [contradiction|discriminate].
    - intros g Hgi. apply in_map_iff in Hgi as (h & <- & Hh). apply small_letters, Hg, Hh.
    - intros x Hx. destruct ol as [o|]; [|discriminate]. injection Hx as <-. destruct Hout as (-> & _). apply small_letters, Hso.
    - destruct ol as [o|]; cbn [option_map].
      + destruct Hout as (-> & _). reflexivity.
      + specialize (H26 eq_refl). destruct Hout as [H1 H2]. split.
        * assert (Hb : forall i, In i outs -> i < 26) by (intros i Hi; apply H26, Hinc, Hi). clear -H1 Hb.
          induction H1 as [|x l H IH Hx]; cbn; constructor; [apply IH; intros i Hi; apply Hb; right; exact Hi|].
          apply Forall_forall. intros y Hy. apply in_map_iff in Hy as (j & <- & Hj). rewrite Forall_forall in Hx. specialize (Hx j Hj).
          pose proof (Hb x (or_introl eq_refl)) as B1. pose proof (Hb j (or_intror Hj)) as B2. unfold letter_of.
          destruct (Nat.ltb_spec x 26), (Nat.ltb_spec j 26); lia.
        * intros c. rewrite concat_letters, in_map_iff. split.
          -- intros (i & <- & Hi). rewrite count_letters; [apply H2, Hi|exact Hs|apply Hso, Hi].
          -- intros Hc. assert (Hi : In c (map letter_of (concat subs))) by (apply (count_occ_In Nat.eq_dec); unfold count in Hc; lia).
             apply in_map_iff in Hi as (i & <- & Hi). exists i. split; [reflexivity|]. apply H2. rewrite count_letters in Hc; [exact Hc|exact Hs|apply Hs, Hi].
    - apply map_nodup_inj; assumption.
    - rewrite concat_letters. intros c Hc. apply in_map_iff in Hc as (i & <- & Hi). apply in_map, Hinc, Hi.
    - split; [|exact HP2]. unfold parse_lists. rewrite Eg. cbn [bind]. destruct ol as [o|]; cbn [option_map tail] in HP1.
      + destruct Hout as (-> & _). rewrite mapM_symbol by exact Hso. cbn [bind]. exact HP1.
      + rewrite app_nil_r in HP1. exact HP1.
  Qed.

  Lemma parse_lists_large subs ol (ops : list (arr K)) i : In i (concat subs) -> 52 <= i ->
    parse_lists K subs ol ops = Err IndexError.
  Proof.
    intros Hi H52. unfold parse_lists.
    assert (E : mapM (mapM symbol) subs = Err IndexError).
    { assert (X : forall l, mapM symbol l = Err IndexError \/ exists m, mapM symbol l = Ok m).
      { induction l as [|x l IH]; [right; eexists; reflexivity|]. cbn [mapM]. destruct (Nat.lt_ge_cases x 52).
        - rewrite symbol_letter by assumption. cbn [bind]. destruct IH as [->|[m ->]]; [left; reflexivity|right; eexists; reflexivity].
        - rewrite symbol_large by assumption. left; reflexivity. }
      assert (Y : forall l, In i l -> mapM symbol l = Err IndexError).
      { induction l as [|x l IH]; [intros []|]. intros [->|H]; cbn [mapM]; [rewrite symbol_large by assumption; reflexivity|].
        destruct (Nat.lt_ge_cases x 52); [rewrite symbol_letter by assumption; cbn [bind]; rewrite (IH H); reflexivity|].
        rewrite symbol_large by assumption. reflexivity. }
      revert Hi. induction subs as [|g subs IH]; [intros []|]. cbn [concat]. intros Hi. apply in_app_or in Hi as [Hi|Hi]; cbn [mapM].
      - rewrite (Y g Hi). reflexivity.
      - destruct (X g) as [->|[m ->]]; [reflexivity|]. cbn [bind]. rewrite (IH Hi). reflexivity. }
    rewrite E. reflexivity.
  Qed.
End Parse.

(** Renaming the labels of a contraction. *)
Section Rename.
  Variable K : rng.
  Add Ring KringR : (rth K).
  Local Open Scope rng_scope.

  Lemma index_of_rename c (l : list nat) : small (c :: l) -> index_of (letter_of c) (map letter_of l) = index_of c l.
  Proof.
    intros Hs. induction l as [|x l IH]; [reflexivity|]. cbn [map index_of].
    destruct (Nat.eqb_spec (letter_of c) (letter_of x)) as [E|E], (Nat.eqb_spec c x) as [E'|E']; try reflexivity.
    - apply letter_of_inj in E; [contradiction|apply Hs; left; reflexivity|apply Hs; right; left; reflexivity].
    - subst; contradiction.
    - rewrite IH; [reflexivity|]. intros i [<-|Hi]; apply Hs; [left; reflexivity|right; right; exact Hi].
  Qed.
  Lemma env_rename c (l v : list nat) : small (c :: l) -> env_of (map letter_of l) v (letter_of c) = env_of l v c.
  Proof. intros H. unfold env_of. rewrite index_of_rename by exact H. reflexivity. Qed.

  Lemma product_rename inps (args : list (arr K)) e :
    product_term K (map (map letter_of) inps) args e = product_term K inps args (fun c => e (letter_of c)).
  Proof.
    unfold product_term. f_equal. revert args. induction inps as [|i inps IH]; intros [|a args]; [reflexivity..|].
    cbn [map combine fst snd]. rewrite map_map. f_equal. apply IH.
  Qed.

  Lemma shapes_rename sz inps (args : list (arr K)) : small (concat inps) -> shapes_agree sz inps args ->
    shapes_agree (fun c => sz (number_of c)) (map (map letter_of) inps) args.
  Proof.
    intros Hs H. induction H as [|i a inps args [W S] H IH]; cbn [map]; constructor.
    - split; [exact W|]. rewrite S, map_map. apply map_ext_in. intros c Hc. rewrite number_letter; [reflexivity|].
      apply Hs. apply in_or_app. left; exact Hc.
    - apply IH. intros c Hc. apply Hs. apply in_or_app. right; exact Hc.
  Qed.

  Lemma elementwise_rename sz inps outs (args : list (arr K)) r : small (concat inps) -> length inps = length args ->
    incl outs (concat inps) ->
    elementwise K (fun c => sz (number_of c)) (map (map letter_of) inps) (map letter_of outs)
      (product_term K (map (map letter_of) inps) args) 1 0 None r ->
    elementwise K sz inps outs (product_term K inps args) 1 0 None r.
  Proof.
    intros Hs HL Hinc (W & S & G).
    assert (Hn : forall l, small l -> map (fun c => sz (number_of c)) (map letter_of l) = map sz l).
    { intros l Hl. rewrite map_map. apply map_ext_in. intros c Hc. rewrite number_letter; [reflexivity|apply Hl, Hc]. }
    assert (Hso : small outs) by (intros i Hi; apply Hs, Hinc, Hi).
    rewrite Hn in S, G by exact Hso. split; [exact W|]. split; [exact S|]. intros L HSL o Ho.
    assert (HsL : small L) by (intros i Hi; apply Hs; apply HSL in Hi; tauto).
    rewrite (G (map letter_of L)); [|split|exact Ho].
    - rewrite Hn by exact HsL. f_equal. f_equal. apply rsum_map_ext. intros v Hv. rewrite product_rename.
      apply (@product_local K inps args HL). intros c Hc. rewrite <- map_app. apply env_rename.
      intros i [<-|Hi]; [apply Hs, Hc|]. apply in_app_or in Hi as [Hi|Hi]; [apply Hso, Hi|apply HsL, Hi].
    - apply map_nodup_inj; [exact HsL|apply HSL].
    - intros c. rewrite concat_letters. split.
      + rewrite in_map_iff. intros (i & <- & Hi). apply HSL in Hi as [Hi Hno]. split; [apply in_map, Hi|].
        rewrite in_map_iff. intros (j & E & Hj). apply letter_of_inj in E; [subst; contradiction|apply Hso, Hj|apply Hs, Hi].
      + intros [Hi Hno]. apply in_map_iff in Hi as (i & <- & Hi). apply in_map. apply HSL. split; [exact Hi|].
        intros Hio. apply Hno, in_map, Hio.
  Qed.
End Rename.

Section Api.
  Variable K : rng.
  Add Ring KringQ : (rth K).
  Local Open Scope rng_scope.

  Lemma np_elementwise sz inps outs (args : list (arr K)) : shapes_agree sz inps args -> NoDup outs -> incl outs (concat inps) ->
    exists r, np_einsum K inps outs args = Ok r /\ elementwise K sz inps outs (product_term K inps args) 1 0 None r.
  Proof.
    intros Sh N I. destruct (np_total K Sh N I) as (r & E & W & S & G). exists r. split; [exact E|].
    split; [exact W|]. split; [exact S|]. intros L HL o Ho. rewrite (G o Ho).
    rewrite (@spec_sum K sz inps outs (product_term K inps args) L o); try assumption; [ring|].
    apply product_local. apply Forall2_combine in Sh. tauto.
  Qed.

  Lemma einsum_parsed_ok sz inp inps outs (args : list (arr K)) path method : split_comma inp = inps -> args <> [] ->
    shapes_agree sz inps args -> NoDup outs -> incl outs (concat inps) ->
    ((3 <= length args)%nat -> valid_path outs inps path) ->
    einsum_parsed K method false true path (inp, outs, args) 1 0 None = np_einsum K inps outs args.
  Proof.
    intros Ei Hne Sh N I V. unfold einsum_parsed. rewrite Ei. clear Ei.
    pose proof (@contract_step_ok K sz method _ _ _ Sh N I) as HS.
    destruct args as [|a [|b [|c args]]]; [contradiction| | |].
    - inversion Sh as [|ia ? inps' ? Ha Sh' E1]; subst inps. inversion Sh'; subst inps'. exact HS.
    - inversion Sh as [|ia ? inps' ? Ha Sh' E1]; subst inps. inversion Sh' as [|ib ? ? ? Hb Sh'' E2]; subst inps'. inversion Sh''; subst.
      exact HS.
    - inversion Sh as [|ia ? inps' ? Ha Sh' E1]; subst inps.
      rewrite (run_path_ok K (V ltac:(cbn; lia)) method None Sh N I). reflexivity.
  Qed.

  Theorem many_operands sz s outs (ops : list (arr K)) : well_formed s -> (forall t, In t (others s) -> fst t = ch_comma) ->
    length ops = S (length (others s)) -> (3 <= length ops)%nat -> output_letters s outs ->
    shapes_agree sz (groups_of s) ops ->
    exists r, elementwise K sz (groups_of s) outs (product_term K (groups_of s) ops) 1 0 None r /\
      forall method b1 path out, valid_path outs (groups_of s) path ->
        einsum_str K method b1 true path (render s) ops 1 0 out = Ok r.
  Proof.
    intros Hw Hc HL H3 Ho Sh. destruct (@output_nodup s outs Ho) as [N I].
    destruct (np_elementwise Sh N I) as (r & Er & Hr). exists r. split; [exact Hr|]. intros method b1 path out V.
    destruct (@parse_render K s ops outs Hw HL Ho) as (inp & Ep & Esp).
    unfold einsum_str. rewrite Ep. cbn [bind]. rewrite (@signed_ops_plain K s ops Hc HL).
    destruct ops as [|a [|b [|c ops]]]; cbn in H3; try lia.
    unfold einsum_parsed. rewrite <- Er. rewrite <- (run_path_ok K V method None Sh N I).
    destruct (split_comma inp) as [|? [|? [|? ?]]]; reflexivity.
  Qed.

  Theorem list_operands sz subs ol outs (ops : list (arr K)) : ops <> [] -> small (concat subs) ->
    (ol = None -> forall i, In i (concat subs) -> (i < 26)%nat) -> list_output subs ol outs ->
    shapes_agree sz subs ops ->
    exists r, elementwise K sz subs outs (product_term K subs ops) 1 0 None r /\
      forall method path,
        ((3 <= length ops)%nat -> valid_path (map letter_of outs) (map (map letter_of) subs) path) ->
        einsum_lists K method false true path subs ol ops 1 0 None = Ok r.
  Proof.
    intros Hne Hs H26 Ho Sh. destruct (@list_output_facts subs ol outs Ho) as [N I].
    assert (HL : length subs = length ops) by (apply Forall2_combine in Sh; tauto).
    assert (Sh' := @shapes_rename K sz subs ops Hs Sh).
    assert (N' : NoDup (map letter_of outs)) by (apply map_nodup_inj; [intros i Hi; apply Hs, I, Hi|exact N]).
    assert (I' : incl (map letter_of outs) (concat (map (map letter_of) subs))).
    { rewrite concat_letters. intros c Hc. apply in_map_iff in Hc as (i & <- & Hi). apply in_map, I, Hi. }
    destruct (np_elementwise Sh' N' I') as (r & Er & Hr). exists r. split.
    - apply elementwise_rename; try assumption.
    - intros method path V.
      destruct (@parse_lists_ok K subs ol outs ops) as (inp & Ep & Esp); try assumption.
      { destruct subs; [destruct ops; [contradiction|discriminate]|discriminate]. }
      unfold einsum_lists. rewrite Ep. cbn [bind].
      rewrite (@einsum_parsed_ok _ inp _ _ ops path method Esp Hne Sh' N' I' V). exact Er.
  Qed.
End Api.

(** Taking every operand at once is a valid path, so that the hypothesis can always be met. *)
Lemma naive_path outs inps : valid_path outs inps [mkcon (map (fun _ => 0) inps) inps outs].
Proof.
  apply path_last; [|reflexivity]. cbn [c_inds c_inps]. induction inps as [|i inps IH]; [reflexivity|].
  cbn [map pops pop_at bind snd fst]. rewrite IH. reflexivity.
Qed.

Lemma scaling_refused (K : rng) outs inps path : valid_path outs inps path ->
  forall method (args : list (arr K)) res, length args = length inps ->
  run_path K method false path args res = Err NotImplementedError.
Proof.
  intros V method args res HL.
  assert (HF : Forall2 (fun (_ : pystr) (_ : arr K) => True) inps args).
  { clear -HL. revert args HL. induction inps; intros [|b l] HL; cbn in HL; try discriminate; constructor; auto. }
  destruct V as [inps p E _|inps p rest path E _ _ _ _]; cbn [run_path];
    destruct (pops_rel (c_inds p) HF E) as (q & s & F & _); rewrite F; reflexivity.
Qed.
