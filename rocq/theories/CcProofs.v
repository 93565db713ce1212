(** Energy denominators. *)
From Coq Require Import Sorted String Ring Field.
From Verif Require Import Base ListAux Alg ArrModel ArrProofs MiscProofs PermModel TensorSpec TensorModel EinsumModel EinsumSpec EinsumProofs EinsumParse EinsumThms EinsumApi
  SpaceModel AnsatzModel VecModel VecSpec CcModel CcSpec.
Set Implicit Arguments.
Local Open Scope nat_scope.
Local Open Scope list_scope.
Local Open Scope py_scope.

Definition comma_subscript (n : nat) : subscript := mksub [next_char 0] (map (fun i => (ch_comma, [next_char i])) (seq 1 (n - 1))) None.

Lemma sum_letters_render n : 0 < n -> sum_letters n = render (comma_subscript n).
Proof.
  destruct n as [|m]; [lia|]. intros _. unfold sum_letters, render, comma_subscript. cbn [first others output].
  replace (S m - 1) with m by lia. rewrite app_nil_r, flat_map_concat_map, flat_map_concat_map, map_map. reflexivity.
Qed.
Lemma next_char_small i : i < 26 -> next_char i = 97 + i.
Proof. intros H. unfold next_char. destruct (Nat.ltb_spec i 26); lia. Qed.

Lemma comma_groups n : 0 < n -> n <= 26 -> groups_of (comma_subscript n) = map (fun i => [97 + i]) (seq 0 n).
Proof.
  intros H H'. unfold groups_of, comma_subscript. cbn [first others]. destruct n as [|m]; [lia|]. replace (S m - 1) with m by lia.
  cbn [seq map]. f_equal. rewrite map_map. apply map_ext_in. intros i Hi. apply in_seq in Hi. cbn [snd]. rewrite next_char_small by lia. reflexivity.
Qed.
Lemma concat_singles {A} (f : nat -> A) l : concat (map (fun i => [f i]) l) = map f l.
Proof. induction l as [|x l IH]; cbn; [reflexivity|rewrite IH; reflexivity]. Qed.
Lemma seq_letters_sorted n a : StronglySorted lt (map (fun i => 97 + i) (seq a n)).
Proof.
  revert a; induction n as [|n IH]; intros a; cbn [seq map]; constructor; [apply IH|].
  apply Forall_forall. intros x Hx. apply in_map_iff in Hx. destruct Hx as (i & <- & Hi). apply in_seq in Hi. lia.
Qed.
Lemma seq_letters_nodup n a : NoDup (map (fun i => 97 + i) (seq a n)).
Proof. apply NoDup_map_inj; [apply seq_NoDup|intros; lia]. Qed.

Section DirSum.
  Variable F : fld.
  Local Open Scope rng_scope.
  Add Field Ffield : (fth F).

  (** A direct sum of vectors. *)
  Lemma dirsum_vectors (es : list (arr F)) : (0 < length es)%nat -> (length es <= 26)%nat ->
    (forall e, In e es -> wf e /\ exists n, shp e = [n]) ->
    exists D, dirsum F (sum_letters (length es)) es = Ok D /\ wf D /\ shp D = map (fun e => nth 0 (shp e) 0%nat) es /\
      forall idx, inb (shp D) idx -> aget 0 D idx = rsum (map (fun p => aget 0 (fst p) [snd p]) (combine es idx)).
  Proof.
    intros H0 H26 He. set (n := length es) in *.
    set (sz := fun c => nth (c - 97) (map (fun e : arr F => nth 0 (shp e) 0%nat) es) 0%nat).
    set (outs := map (fun i => 97 + i)%nat (seq 0 n)).
    assert (Hsz : map sz outs = map (fun e => nth 0 (shp e) 0%nat) es).
    { unfold outs, sz. rewrite map_map. rewrite <- (map_nth_seq 0%nat (map _ es)) at 1.
      rewrite map_length. fold n. apply map_ext_in. intros i Hi. f_equal. lia. }
    destruct (@dirsum_total F sz (comma_subscript n) outs es) as (D & HD & Hel).
    - unfold well_formed, comma_subscript. cbn [first others output]. split; [discriminate|]. split.
      + intros c [<-|[]]. reflexivity.
      + split; [|discriminate]. intros t Ht. apply in_map_iff in Ht. destruct Ht as (i & <- & Hi). apply in_seq in Hi. cbn [fst snd].
        rewrite next_char_small by lia. split; [|split; [discriminate|left; reflexivity]].
        intros c [<-|[]]. unfold is_letter. replace (97 <=? 97 + i)%nat with true by (symmetry; apply Nat.leb_le; lia).
        replace (97 + i <=? 122)%nat with true by (symmetry; apply Nat.leb_le; lia). reflexivity.
    - unfold comma_subscript. cbn [others]. rewrite map_length, seq_length. fold n. lia.
    - unfold output_letters. change (output (comma_subscript n)) with (@None pystr). cbv iota.
      rewrite comma_groups by assumption. rewrite (concat_singles (fun i => 97 + i)%nat). split; [apply seq_letters_sorted|].
      intros c. fold outs. unfold count. pose proof (seq_letters_nodup n 0) as Hn. fold outs in Hn.
      rewrite (NoDup_count_occ' Nat.eq_dec) in Hn. split.
      + intros Hc. apply Hn, Hc.
      + intros Hc. apply (proj2 (count_occ_In Nat.eq_dec outs c)). unfold gt. rewrite Hc. apply Nat.lt_0_1.
    - unfold shapes_agree. rewrite comma_groups by assumption.
      assert (Hgen : forall (l : list (arr F)) (a : nat), (forall e, In e l -> wf e /\ exists k, shp e = [k]) ->
        (forall i, (i < length l)%nat -> sz (97 + (a + i))%nat = nth i (map (fun e : arr F => nth 0 (shp e) 0%nat) l) 0%nat) ->
        Forall2 (fun i0 (e : arr F) => wf e /\ shp e = map sz i0) (map (fun i => [97 + i]%nat) (seq a (length l))) l).
      { induction l as [|e l IH]; intros a Hl Hs; cbn [length seq map]; constructor.
        - destruct (Hl e (or_introl eq_refl)) as (Hw & k & Hk). split; [exact Hw|]. rewrite Hk. cbn [map].
          specialize (Hs 0%nat ltac:(cbn; lia)). cbn [map nth] in Hs. rewrite Nat.add_0_r in Hs. rewrite Hs, Hk. reflexivity.
        - apply IH; [intros; apply Hl; right; assumption|]. intros i Hi. specialize (Hs (S i) ltac:(cbn; lia)). cbn [map nth] in Hs.
          rewrite <- Hs. f_equal. lia. }
      apply Hgen; [exact He|]. intros i Hi. unfold sz. f_equal. lia.
    - exists D. rewrite sum_letters_render by assumption. split; [exact HD|].
      destruct Hel as (Hw & Hs & Hv). split; [exact Hw|]. split; [rewrite Hs; exact Hsz|].
      intros idx Hidx. rewrite Hs in Hidx.
      assert (HL : summation_letters (groups_of (comma_subscript n)) outs []).
      { split; [constructor|]. intros c. rewrite comma_groups by assumption. rewrite (concat_singles (fun i => 97 + i)%nat). split; [intros []|intros (H1 & H2); exact (H2 H1)]. }
      rewrite (Hv [] HL idx Hidx). cbn [map app all_idx product]. rewrite app_nil_r.
      change (all_idx []) with [@nil nat]. cbn [map]. rewrite rsum_cons. change (rsum (K:=F) []) with (@r0 F).
      rewrite !app_nil_r.
      transitivity (signed_sum_term F (comma_subscript n) es (env_of outs idx)); [ring|].
      unfold signed_sum_term, comma_subscript. cbn [first others].
      assert (Hlen : length idx = n).
      { pose proof (Forall2_len Hidx) as Hl. rewrite Hl. unfold outs. rewrite !map_length, seq_length. reflexivity. }
      assert (Hgen : forall (l : list (arr F)) (a : nat) (ix : list nat) (sep0 : nat), length ix = length l -> (forall i, (i < length l)%nat -> nth i ix 0%nat = env_of outs idx (97 + (a + i))%nat) ->
        (sep0 <> ch_minus) -> (a + length l <= 26)%nat ->
        rsum (map (fun p => let v := aget 0 (snd p) (map (env_of outs idx) (snd (fst p))) in if (fst (fst p) =? ch_minus)%nat then - v else v)
             (combine (map (fun i => (sep0, [next_char i])) (seq a (length l))) l)) =
        rsum (map (fun p => aget 0 (fst p) [snd p]) (combine l ix))).
      { induction l as [|e l IH]; intros a ix sep0 Hl Hi Hsep Ha; destruct ix as [|x ix]; try discriminate; [reflexivity|].
        cbn [length seq map combine]. rewrite !rsum_cons. cbn [fst snd map length] in *. apply Nat.eqb_neq in Hsep. rewrite Hsep.
        rewrite next_char_small by lia. f_equal.
        - specialize (Hi 0%nat ltac:(lia)). cbn [nth] in Hi. rewrite Nat.add_0_r in Hi. rewrite <- Hi. reflexivity.
        - apply IH; [lia| |apply Nat.eqb_neq; exact Hsep|lia]. intros i Hil. specialize (Hi (S i) ltac:(lia)). cbn [nth] in Hi. rewrite Hi. f_equal. lia. }
      assert (Henv : forall i, (i < n)%nat -> env_of outs idx (97 + i)%nat = nth i idx 0%nat).
      { intros i Hi. unfold env_of.
        assert (Hix : forall k a, (a <= i < a + k)%nat -> index_of (97 + i) (map (fun j => 97 + j)%nat (seq a k)) = Some (i - a)%nat).
        { induction k as [|k IHk]; intros a Ha; [lia|]. cbn [seq map index_of]. destruct (Nat.eqb_spec (97 + i) (97 + a)) as [E|E].
          - f_equal. lia.
          - rewrite IHk by lia. cbn [option_map]. f_equal. lia. }
        unfold outs. rewrite (Hix n 0%nat) by lia. rewrite Nat.sub_0_r. reflexivity. }
      destruct es as [|e es']; [cbn in H0; lia|]. destruct idx as [|x idx']; [cbn in Hlen; lia|].
      assert (Hnn : n = S (length es')) by reflexivity.
      cbn [combine map]. rewrite !rsum_cons. cbn [fst snd map]. cbv zeta.
      replace (ch_plus =? ch_minus)%nat with false by reflexivity. f_equal.
      replace (n - 1)%nat with (length es') by lia. apply Hgen; [cbn in Hlen; lia| |discriminate|lia].
        intros i Hi. rewrite Henv by lia. reflexivity.
  Qed.

  Lemma replace_signs_plain s j (ops : list (arr F)) : (forall c, In c s -> c <> ch_plus /\ c <> ch_minus) ->
    replace_signs F s j ops = Ok (s, ops).
  Proof.
    revert j; induction s as [|c s IH]; intros j Hs; [reflexivity|]. cbn [replace_signs].
    destruct (Hs c (or_introl eq_refl)) as (H1 & H2). apply Nat.eqb_neq in H1, H2. rewrite H1, H2.
    destruct (c =? ch_comma)%nat; rewrite IH by (intros; apply Hs; right; assumption); reflexivity.
  Qed.
  (** More than 26 axes. *)
  Lemma dirsum_too_long n (es : list (arr F)) : (26 < n)%nat -> dirsum F (sum_letters n) es = Err ValueError.
  Proof.
    intros Hn. unfold dirsum, parse_einsum.
    assert (Hc : forall c, In c (sum_letters n) -> (c = ch_comma \/ 91 <= c)%nat).
    { intros c Hc. destruct n as [|m]; [destruct Hc|]. cbn [sum_letters] in Hc. destruct Hc as [<-|Hc]; [right; unfold next_char; cbn; lia|].
      apply in_flat_map in Hc. destruct Hc as (i & _ & [<-|[<-|[]]]); [left; reflexivity|right].
      unfold next_char. destruct (Nat.ltb_spec i 26); lia. }
    assert (Hsp : remove_char ch_space (sum_letters n) = sum_letters n).
    { unfold remove_char. apply MiscProofs.filter_all_true. intros c H. apply Hc in H. apply negb_true_iff, Nat.eqb_neq. unfold ch_comma, ch_space in *. lia. }
    rewrite Hsp. destruct (sum_letters n) as [|c0 s0] eqn:Es; [destruct n; [lia|discriminate]|].
    rewrite replace_signs_plain.
    2:{ intros c H. apply Hc in H. unfold ch_comma, ch_plus, ch_minus in *. lia. }
    cbn [bind]. assert (Hbad : forallb valid_char (c0 :: s0) = false).
    { apply not_true_iff_false. intros Hall. rewrite forallb_forall in Hall. specialize (Hall 91%nat).
      rewrite <- Es in Hall. discriminate Hall. destruct n as [|m]; [lia|]. cbn [sum_letters]. right. apply in_flat_map. exists 26%nat.
      split; [apply in_seq; lia|right; left; reflexivity]. }
    rewrite Hbad. reflexivity.
  Qed.
End DirSum.

Lemma fill_step (signs : dict nat pystr) k s k0 :
  dget Nat.eq_dec k (if dmem Nat.eq_dec k0 signs then signs else dset Nat.eq_dec k0 s signs) =
  match dget Nat.eq_dec k signs with Some v => Some v | None => if k =? k0 then Some s else None end.
Proof.
  unfold dmem. destruct (dget Nat.eq_dec k0 signs) as [v0|] eqn:E0.
  - destruct (dget Nat.eq_dec k signs) eqn:E; [reflexivity|]. destruct (Nat.eqb_spec k k0) as [->|]; [congruence|reflexivity].
  - assert (G : forall d, dget Nat.eq_dec k (dset Nat.eq_dec k0 s d) = if k =? k0 then Some s else dget Nat.eq_dec k d).
    { induction d as [|[k' v'] d IH]; cbn [dset dget].
      - destruct (Nat.eq_dec k k0), (Nat.eqb_spec k k0); congruence.
      - destruct (Nat.eq_dec k0 k') as [<-|Hne]; cbn [dget].
        + destruct (Nat.eq_dec k k0), (Nat.eqb_spec k k0); congruence.
        + destruct (Nat.eq_dec k k') as [<-|]; [|exact IH]. destruct (Nat.eqb_spec k k0); congruence. }
    rewrite G. destruct (Nat.eqb_spec k k0) as [->|]; [rewrite E0; reflexivity|]. destruct (dget Nat.eq_dec k signs); reflexivity.
Qed.
Lemma fill_signs_get signs k : 
  option_map (fun s => streqb s (str "+")) (dget Nat.eq_dec k (fill_signs signs)) = enters_positively signs k.
Proof.
  unfold fill_signs, enters_positively. set (tbl := combine (str "vVaoOib") (str "---+++-")). vm_compute in tbl. subst tbl.
  cbn [fold_left fst snd]. rewrite !fill_step.
  destruct (dget Nat.eq_dec k signs) as [v|]; [reflexivity|].
  change (str "oOi") with [111; 79; 105]. change (str "vVab") with [118; 86; 97; 98]. change (str "+") with [43]. unfold memb. cbn [existsb].
  repeat match goal with |- context [Nat.eqb k ?n] => destruct (Nat.eqb_spec k n) as [->|]; [reflexivity|] end.
  reflexivity.
Qed.

Section Energies.
  Variable F : fld.
  Local Open Scope rng_scope.
  Add Field Ffield' : (fth F).
  Variables (signs : dict nat pystr) (omega : option (arr F)).

  Lemma scale_get c (a : arr F) idx : wf a -> inb (shp a) idx -> aget 0 (scale F c a) idx = aget 0 a idx * c.
  Proof.
    intros Hw Hi. unfold aget, scale. cbn [shp dat]. apply ravel_lt in Hi. unfold wf in Hw.
    rewrite (nth_indep _ _ (0 * c)) by (rewrite map_length; lia). rewrite (map_nth (fun x => x * c)). reflexivity.
  Qed.
  Lemma scale_wf c (a : arr F) : wf a -> wf (scale F c a).
  Proof. unfold wf, scale. cbn [dat shp]. rewrite map_length. auto. Qed.

  Lemma signed_energy_ok fock k axis : axis_of signs omega fock k axis ->
    exists e, signed_energy (fill_signs signs) omega fock k = Ok e /\ wf e /\ shp e = [snd (fst axis)] /\
      forall i, (i < snd (fst axis))%nat -> aget 0 e [i] = if fst (fst axis) then snd axis i else - snd axis i.
  Proof.
    destruct axis as [[plus n] eps]. cbn [fst snd]. intros [Hs He]. cbn [fst snd] in Hs, He. unfold signed_energy.
    pose proof (fill_signs_get signs k) as Hf. rewrite Hs in Hf. destruct (dget Nat.eq_dec k (fill_signs signs)) as [s|]; [|discriminate].
    cbn [option_map] in Hf. injection Hf as Hp. rewrite Hp.
    assert (Hfac : forall x : F, x * (if plus then 1 else - (1)) = if plus then x else - x) by (intros x; destruct plus; ring).
    unfold class_energies in He. destruct (k =? chr_of "b")%nat.
    - destruct He as (w & -> & Hw & Hsh & Hv). eexists. split; [reflexivity|]. split; [apply scale_wf, Hw|]. split; [exact Hsh|].
      intros i Hi. rewrite scale_get; [|exact Hw|rewrite Hsh; constructor; [exact Hi|constructor]]. rewrite Hfac, Hv. reflexivity.
    - destruct He as (f & -> & Hw & Hsh & Hv). cbn [bind]. unfold np_diag. rewrite Hsh. cbn [bind]. eexists. split; [reflexivity|].
      rewrite Nat.min_id. split; [apply scale_wf, tab_wf|]. split; [reflexivity|].
      intros i Hi. assert (Hin : inb [n] [i]) by (constructor; [exact Hi|constructor]).
      rewrite scale_get; [|apply tab_wf|exact Hin]. rewrite (@aget_tab _ 0) by exact Hin. cbn [nth]. rewrite Hfac, Hv. reflexivity.
  Qed.

  Lemma slots_sum (slots : list (nat * (pystr -> result (arr F)))) axes : slots <> [] -> (length slots <= 26)%nat ->
    Forall2 (fun s a => axis_of signs omega (snd s) (fst s) a) slots axes ->
    exists D, (es <- mapM (fun s => signed_energy (fill_signs signs) omega (snd s) (fst s)) slots ;;
               dirsum F (sum_letters (length slots)) es) = Ok D /\ direct_sum axes D.
  Proof.
    intros Hne H26 H2.
    assert (Hes : exists es : list (arr F), mapM (fun s => signed_energy (fill_signs signs) omega (snd s) (fst s)) slots = Ok es /\
      Forall2 (fun (e : arr F) (axis : bool * nat * (nat -> F)) => wf e /\ shp e = [snd (fst axis)] /\
        forall i, (i < snd (fst axis))%nat -> aget 0 e [i] = if fst (fst axis) then snd axis i else - snd axis i) es axes).
    { clear Hne H26. induction H2 as [|s a slots axes Ha H2 IH]; [exists []; split; [reflexivity|constructor]|].
      destruct IH as (es & Hm & Hf). destruct (signed_energy_ok Ha) as (e & He & Hrest). exists (e :: es). cbn [mapM].
      rewrite He, Hm. split; [reflexivity|]. constructor; assumption. }
    destruct Hes as (es & Hm & Hf). rewrite Hm. cbn [bind].
    assert (Hlen : length slots = length es).
    { rewrite (Forall2_len H2), (Forall2_len Hf). reflexivity. }
    rewrite Hlen in *. destruct (@dirsum_vectors F es) as (D & HD & Hw & Hsh & Hv).
    - destruct es; [|cbn; lia]. destruct slots; [congruence|discriminate].
    - lia.
    - intros e He. clear - Hf He. induction Hf as [|e0 a es axes (Hw & Hs & _) Hf IH]; [destruct He|]. destruct He as [<-|He]; [split; eauto|apply IH, He].
    - exists D. split; [exact HD|]. split; [exact Hw|].
      assert (Hshape : shp D = map (fun a => snd (fst a)) axes).
      { rewrite Hsh. clear - Hf. induction Hf as [|e0 a es axes (Hw & Hs & _) Hf IH]; [reflexivity|]. cbn [map]. rewrite IH, Hs. reflexivity. }
      split; [exact Hshape|]. intros idx Hi. rewrite (Hv idx Hi). unfold signed_energies. rewrite Hshape in Hi. clear - Hf Hi.
      revert idx Hi. induction Hf as [|e a es axes (Hw & Hs & Hval) Hf IH]; intros idx Hi; cbn [map] in Hi.
      + inversion Hi. reflexivity.
      + inversion Hi as [|i ? idx' ? Hlt Hi']; subst. cbn [combine map]. rewrite !rsum_cons. rewrite (IH _ Hi'). cbn [fst snd].
        rewrite (Hval i Hlt). destruct a as [[plus n] eps]. reflexivity.
  Qed.
End Energies.

Section EnergySum.
  Variable F : fld.
  Lemma mapM_map {A B C} (g : A -> B) (f : B -> result C) l : mapM f (map g l) = mapM (fun x => f (g x)) l.
  Proof. induction l as [|x l IH]; [reflexivity|]. cbn [map mapM]. rewrite IH. reflexivity. Qed.

  Lemma energy_sum_ok (c : cc F) sub signs axes : sub <> [] -> length sub <= 26 ->
    Forall2 (axis_of signs (cc_omega c) (cc_fock c)) sub axes ->
    exists D, energy_sum c sub signs = Ok D /\ direct_sum axes D.
  Proof.
    intros Hne H26 H2. destruct (@slots_sum F signs (cc_omega c) (map (fun k => (k, cc_fock c)) sub) axes) as (D & HD & Hsum).
    - destruct sub; [congruence|discriminate].
    - rewrite map_length. exact H26.
    - clear - H2. induction H2; cbn [map]; constructor; auto.
    - exists D. rewrite mapM_map, map_length in HD. split; [exact HD|exact Hsum].
  Qed.
  Lemma u_energy_sum_ok (c : ucc F) sub spins signs axes : sub <> [] -> length sub <= 26 -> length spins = length sub ->
    Forall2 (fun ks => axis_of signs (u_omega c) (u_fock c [snd ks; snd ks]) (fst ks)) (combine sub spins) axes ->
    exists D, u_energy_sum c sub spins signs = Ok D /\ direct_sum axes D.
  Proof.
    intros Hne H26 Hl H2. destruct (@slots_sum F signs (u_omega c) (map (fun ks => (fst ks, u_fock c [snd ks; snd ks])) (combine sub spins)) axes) as (D & HD & Hsum).
    - destruct sub, spins; try congruence; try discriminate.
    - rewrite map_length, combine_length. lia.
    - clear - H2. induction H2; cbn [map]; constructor; auto.
    - exists D. rewrite mapM_map, map_length, combine_length, Hl, Nat.min_id in HD. split; [exact HD|exact Hsum].
  Qed.
  Lemma mapM_total' {A B} (f : A -> result B) l : (forall x, In x l -> is_ok (f x) = true) -> exists r, mapM f l = Ok r.
  Proof.
    induction l as [|x l IH]; intros H; [exists []; reflexivity|]. cbn [mapM]. pose proof (H x (or_introl eq_refl)) as Hx.
    destruct (f x) as [y|]; [|discriminate]. destruct IH as (r & ->); [intros; apply H; right; assumption|]. eexists; reflexivity.
  Qed.
  Lemma energy_sum_too_long (c : cc F) sub signs axes : 26 < length sub ->
    Forall2 (axis_of signs (cc_omega c) (cc_fock c)) sub axes -> energy_sum c sub signs = Err ValueError.
  Proof.
    intros Hl H2. unfold energy_sum. destruct (@mapM_total' nat (arr F) (signed_energy (fill_signs signs) (cc_omega c) (cc_fock c)) sub) as (r & ->).
    - intros k Hk. clear Hl. induction H2 as [|k0 a sub axes Ha H2 IH]; [destruct Hk|]. destruct Hk as [<-|Hk]; [|apply IH, Hk].
      destruct (signed_energy_ok Ha) as (e & -> & _). reflexivity.
    - cbn [bind]. apply dirsum_too_long, Hl.
  Qed.
End EnergySum.
