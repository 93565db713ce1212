(** Proofs for vector conversion: generic layouts. *)
From Coq Require Import String.
From Verif Require Import Base ListAux Alg ArrModel ArrProofs PermModel PermProofs TensorModel TensorSpec TensorProps SpaceModel AnsatzModel AnsatzRanks
  DampProofs VecModel VecSpec.
Set Implicit Arguments.
Local Open Scope nat_scope.
Local Open Scope list_scope.
Local Open Scope py_scope.

Lemma slice_mid {A} (p l s : list A) n : length l = n -> slice (length p) (length p + n) (p ++ l ++ s) = l.
Proof.
  intros H. unfold slice. replace (length p + n - length p) with n by lia.
  rewrite skipn_app, skipn_all, Nat.sub_diag. cbn. rewrite firstn_app, firstn_all2 by lia. rewrite H, Nat.sub_diag. cbn. apply app_nil_r.
Qed.
Lemma slice_len {A} (v : list A) i n : i + n <= length v -> length (slice i (i + n) v) = n.
Proof. intros H. unfold slice. rewrite firstn_length, skipn_length. lia. Qed.
Lemma skipn_skipn' {A} n : forall m (l : list A), skipn n (skipn m l) = skipn (m + n) l.
Proof. induction m as [|m IH]; intros l; [reflexivity|]. destruct l; [cbn; apply skipn_nil|cbn; apply IH]. Qed.
Lemma firstn_plus {A} n m : forall l : list A, firstn (n + m) l = firstn n l ++ firstn m (skipn n l).
Proof. induction n as [|n IH]; intros l; [reflexivity|]. destruct l; cbn; [now rewrite firstn_nil|f_equal; apply IH]. Qed.
Lemma slice_split {A} (v : list A) i n m : slice i (i + n) v ++ slice (i + n) (i + n + m) v = slice i (i + (n + m)) v.
Proof.
  unfold slice. replace (i + n - i) with n by lia. replace (i + n + m - (i + n)) with m by lia. replace (i + (n + m) - i) with (n + m) by lia.
  rewrite firstn_plus, skipn_skipn'. reflexivity.
Qed.

Section Gen.
  Variable K : rng.
  (** What a codec needs to be consistent, and which arrays it stores faithfully. *)
  Definition codec_ok (c : codec) : Prop :=
    match c with
    | Raw n s => n = prodn s
    | Packed sub n s => extents_ok sub s /\ exists sizes, describes sub s sizes /\ get_compressed_size sub sizes = Ok n
    end.
  Definition fits (c : codec) (x : arr K) : Prop :=
    wf x /\ match c with Raw _ s => shp x = s | Packed sub _ s => shp x = s /\ antisymmetric sub x end.
  Definition raw (c : codec) : Prop := match c with Raw _ _ => True | Packed _ _ _ => False end.

  Lemma decompress_dat sub (x y : arr K) s diag sy : dat x = dat y -> decompress_axes K sub x s diag sy = decompress_axes K sub y s diag sy.
  Proof. intros E. unfold decompress_axes. rewrite E. reflexivity. Qed.
  Lemma decompress_wf sub (x : arr K) s diag sy y : decompress_axes K sub x s diag sy = Ok y -> wf y.
  Proof.
    unfold decompress_axes. intros H.
    repeat match type of H with
    | bind ?r _ = Ok _ => destruct r as [?|?] eqn:?; [cbn [bind] in H|discriminate]
    | match ?g with _ => _ end = Ok _ => destruct g as [[? ?] ?]
    end.
    cbv zeta in H.
    try match type of H with bind ?r _ = Ok _ => destruct r as [?|?] eqn:?; [cbn [bind] in H|discriminate] end.
    unfold transpose in H. destruct (is_perm _ _); [|discriminate]. injection H as <-. apply tab_wf.
  Qed.

  Lemma enc_dec c (x : arr K) : raw c \/ no_two_torsion K -> codec_ok c -> fits c x ->
    exists l, encode K c x = Ok l /\ length l = csize c /\ decode K c l = Ok x.
  Proof.
    intros HT Hc [W H]. destruct c as [n s|sub n s]; cbn in *.
    - exists (dat x). split; [reflexivity|]. split; [unfold wf in W; congruence|].
      unfold reshape. cbn. rewrite Nat.mul_1_r, W, H, Nat.eqb_refl. f_equal. destruct x; cbn in *; congruence.
    - destruct HT as [[]|HT]. destruct H as [<- Ha]. destruct Hc as [He (sizes & Hd & Hn)].
      destruct (@C06_unpack_pack K sub x HT W He Ha) as (c & E1 & E2).
      destruct (@C07_compressed_size K sub sizes x He Hd) as (c' & E1' & E3 & _).
      rewrite E1 in E1'. injection E1' as <-. exists (dat c). rewrite E1. cbn. split; [reflexivity|].
      split; [congruence|]. rewrite <- E2. apply decompress_dat. reflexivity.
  Qed.
  Lemma dec_enc c (l : list K) : codec_ok c -> length l = csize c ->
    exists x, decode K c l = Ok x /\ fits c x /\ encode K c x = Ok l.
  Proof.
    intros Hc Hl. destruct c as [n s|sub n s]; cbn in *.
    - exists (mkarr s l). unfold reshape. cbn. rewrite Nat.mul_1_r. replace (prodn s) with (length l) by congruence.
      rewrite Nat.eqb_refl. split; [reflexivity|]. split; [split; [red; cbn [dat shp]; congruence|reflexivity]|reflexivity].
    - destruct Hc as [He (sizes & Hd & Hn)].
      destruct (@C05_pack_unpack K sub s sizes (mkarr [length l] l) He Hd) as (x & c & E1 & E2 & E3).
      { cbn. congruence. }
      exists x. destruct (@C06_unpacked_antisymmetric K sub s sizes (mkarr [length l] l) x He Hd) as [S1 S2]; [cbn; congruence|exact E1|].
      rewrite E1. split; [reflexivity|]. split; [split; [eapply decompress_wf, E1|split; [exact S1|exact S2]]|].
      rewrite E2. cbn. f_equal. exact E3.
  Qed.

  Definition block_ok (b : block) : Prop :=
    match b with BArr c => codec_ok c | BSpin cs => Forall (fun sc => codec_ok (snd sc)) cs end.
  Definition block_raw (b : block) : Prop :=
    match b with BArr c => raw c | BSpin cs => Forall (fun sc => raw (snd sc)) cs end.
  Definition bsize (b : block) : nat :=
    match b with BArr c => csize c | BSpin cs => list_sum (map (fun sc => csize (snd sc)) cs) end.
  Definition block_fits (b : block) (t : tval K) : Prop :=
    match b, t with
    | BArr c, VArr x => fits c x
    | BSpin cs, VSpin d => (forall s c, In (s, c) cs -> exists x, dget pystr_eq_dec s d = Some x /\ fits c x) /\
                           (forall s, dget pystr_eq_dec s d <> None -> In s (map fst cs))
    | _, _ => False
    end.
  Definition layout_ok (lay : layout) : Prop := Forall (fun nb => block_ok (snd nb)) lay.
  Definition lsize (lay : layout) : nat := list_sum (map (fun nb => bsize (snd nb)) lay).
  Definition layout_fits (lay : layout) (amps : dict pystr (tval K)) : Prop :=
    forall name b, In (name, b) lay -> exists t, dget pystr_eq_dec name amps = Some t /\ block_fits b t.

  Lemma spins_forward (cs : list (pystr * codec)) (d : dict pystr (arr K)) :
    Forall (fun sc => raw (snd sc)) cs \/ no_two_torsion K -> Forall (fun sc => codec_ok (snd sc)) cs ->
    (forall s c, In (s, c) cs -> exists x, dget pystr_eq_dec s d = Some x /\ fits c x) ->
    exists ls, mapM (fun sc => match dget pystr_eq_dec (fst sc) d with None => Err KeyError | Some x => encode K (snd sc) x end) cs = Ok ls /\
      length (concat ls) = list_sum (map (fun sc => csize (snd sc)) cs) /\
      forall pre post acc, exists d', read_spins K cs (pre ++ concat ls ++ post) (length pre) acc = Ok (d', length pre + length (concat ls)) /\
        forall s, dget pystr_eq_dec s d' = if in_dec pystr_eq_dec s (map fst cs) then dget pystr_eq_dec s d else dget pystr_eq_dec s acc.
  Proof.
    induction cs as [|[s c] cs IH]; intros HT Hok Hd.
    - exists []. split; [reflexivity|]. split; [reflexivity|]. intros pre post acc. exists acc. cbn. rewrite Nat.add_0_r. split; reflexivity.
    - destruct (Hd s c (or_introl eq_refl)) as (x & Ex & Hf).
      destruct IH as (ls & E1 & E2 & E3).
      { destruct HT as [HT|HT]; [left; exact (Forall_inv_tail HT)|right; exact HT]. } { exact (Forall_inv_tail Hok). } { intros s' c' Hin. apply Hd. right; exact Hin. }
      destruct (@enc_dec c x) as (l & Ee & El & Ed); [destruct HT as [HT|HT]; [left; exact (Forall_inv HT)|right; exact HT]|exact (Forall_inv Hok)|exact Hf|].
      exists (l :: ls). cbn [mapM fst snd]. rewrite Ex, Ee, E1. split; [reflexivity|]. split; [cbn; rewrite app_length, E2, El; reflexivity|].
      intros pre post acc. cbn [read_spins concat]. unfold read_codec.
      rewrite <- app_assoc, slice_mid by exact El. rewrite Ed. cbn [bind fst snd].
      destruct (E3 (pre ++ l) post (dset pystr_eq_dec s x acc)) as (d' & E4 & E5).
      exists d'. rewrite <- app_assoc, app_length, El in E4. rewrite E4. split; [f_equal; f_equal; rewrite app_length, El; lia|].
      intros s'. rewrite E5. cbn [map fst]. destruct (in_dec pystr_eq_dec s' (map fst cs)) as [I|I].
      + destruct (in_dec pystr_eq_dec s' (s :: map fst cs)) as [_|N]; [reflexivity|]. exfalso; apply N; right; exact I.
      + rewrite dget_dset. destruct (pystr_eq_dec s' s) as [->|N].
        * destruct (in_dec pystr_eq_dec s (s :: map fst cs)) as [_|N]; [congruence|]. exfalso; apply N; left; reflexivity.
        * destruct (in_dec pystr_eq_dec s' (s :: map fst cs)) as [[E|I']|_]; [congruence|tauto|reflexivity].
  Qed.

  Lemma block_forward amps name b t : block_raw b \/ no_two_torsion K -> block_ok b -> dget pystr_eq_dec name amps = Some t -> block_fits b t ->
    exists ls, write_block K amps (name, b) = Ok ls /\ length (concat ls) = bsize b /\
      forall pre post, exists t', read_block K b (pre ++ concat ls ++ post) (length pre) = Ok (t', length pre + length (concat ls)) /\
        same_entry (Some t') (Some t).
  Proof.
    intros HT Hok Et Hf. unfold write_block. cbn [fst snd]. rewrite Et. destruct b as [c|cs], t as [x|d]; cbn in Hf; try contradiction.
    - destruct (@enc_dec c x HT Hok Hf) as (l & Ee & El & Ed). exists [l]. rewrite Ee. cbn. rewrite app_nil_r. split; [reflexivity|]. split; [exact El|].
      intros pre post. exists (VArr x). unfold read_codec. rewrite slice_mid by exact El. rewrite Ed. cbn. rewrite El. split; reflexivity.
    - destruct Hf as [Hf Hk]. destruct (@spins_forward cs d HT Hok Hf) as (ls & E1 & E2 & E3). exists ls. rewrite E1. split; [reflexivity|]. split; [exact E2|].
      intros pre post. destruct (E3 pre post []) as (d' & E4 & E5). exists (VSpin d'). cbn [read_block]. rewrite E4. cbn. split; [reflexivity|].
      intros s. rewrite E5. destruct (in_dec pystr_eq_dec s (map fst cs)) as [I|N]; [reflexivity|]. cbn.
      destruct (dget pystr_eq_dec s d) eqn:E; [|reflexivity]. exfalso. apply N, Hk. congruence.
  Qed.

  Lemma layout_forward lay amps : (Forall (fun nb => block_raw (snd nb)) lay \/ no_two_torsion K) -> layout_ok lay -> layout_fits lay amps ->
    exists vs, mapM (write_block K amps) lay = Ok vs /\ length (concat (concat vs)) = lsize lay /\
      forall pre post acc, exists res, read_blocks K lay (pre ++ concat (concat vs) ++ post) (length pre) acc = Ok (res, length pre + lsize lay) /\
        forall name, if in_dec pystr_eq_dec name (map fst lay) then same_entry (dget pystr_eq_dec name res) (dget pystr_eq_dec name amps)
                     else dget pystr_eq_dec name res = dget pystr_eq_dec name acc.
  Proof.
    induction lay as [|[name b] lay IH]; intros HT Hok Hf.
    - exists []. split; [reflexivity|]. split; [reflexivity|]. intros pre post acc. exists acc. cbn. rewrite Nat.add_0_r. split; reflexivity.
    - destruct (Hf name b (or_introl eq_refl)) as (t & Et & Hb).
      destruct IH as (vs & E1 & E2 & E3).
      { destruct HT as [HT|HT]; [left; exact (Forall_inv_tail HT)|right; exact HT]. } { exact (Forall_inv_tail Hok). } { intros n' b' Hin. apply Hf. right; exact Hin. }
      destruct (@block_forward amps name b t) as (ls & F1 & F2 & F3); [destruct HT as [HT|HT]; [left; exact (Forall_inv HT)|right; exact HT]|exact (Forall_inv Hok)|exact Et|exact Hb|].
      exists (ls :: vs). cbn [mapM]. rewrite F1, E1. split; [reflexivity|]. cbn [concat]. rewrite concat_app, app_length, F2, E2.
      split; [reflexivity|]. intros pre post acc. cbn [read_blocks]. rewrite <- app_assoc.
      destruct (F3 pre (concat (concat vs) ++ post)) as (t' & G1 & G2). rewrite G1. cbn [bind fst snd].
      destruct (E3 (pre ++ concat ls) post (dset pystr_eq_dec name t' acc)) as (res & G3 & G4).
      rewrite <- app_assoc, app_length in G3. exists res. rewrite G3. split; [do 2 f_equal; rewrite F2; change (lsize ((name, b) :: lay)) with (bsize b + lsize lay); lia|].
      intros n'. specialize (G4 n'). cbn [map fst]. destruct (in_dec pystr_eq_dec n' (map fst lay)) as [I|N].
      + destruct (in_dec pystr_eq_dec n' (name :: map fst lay)) as [_|N]; [exact G4|]. exfalso; apply N; right; exact I.
      + rewrite dget_dset in G4. destruct (pystr_eq_dec n' name) as [->|Nn].
        * destruct (in_dec pystr_eq_dec name (name :: map fst lay)) as [_|N']; [rewrite G4, Et; exact G2|]. exfalso; apply N'; left; reflexivity.
        * destruct (in_dec pystr_eq_dec n' (name :: map fst lay)) as [[E|I']|_]; [congruence|tauto|exact G4].
  Qed.

  (** Reading first. *)
  Lemma spins_backward (cs : list (pystr * codec)) (v : list K) : Forall (fun sc => codec_ok (snd sc)) cs -> NoDup (map fst cs) ->
    forall i0 acc, i0 + list_sum (map (fun sc => csize (snd sc)) cs) <= length v ->
    exists d ls, read_spins K cs v i0 acc = Ok (d, i0 + list_sum (map (fun sc => csize (snd sc)) cs)) /\
      mapM (fun sc => match dget pystr_eq_dec (fst sc) d with None => Err KeyError | Some x => encode K (snd sc) x end) cs = Ok ls /\
      concat ls = slice i0 (i0 + list_sum (map (fun sc => csize (snd sc)) cs)) v /\
      (forall s c, In (s, c) cs -> exists x, dget pystr_eq_dec s d = Some x /\ fits c x) /\
      (forall s, ~ In s (map fst cs) -> dget pystr_eq_dec s d = dget pystr_eq_dec s acc).
  Proof.
    induction cs as [|[s c] cs IH]; intros Hok HN i0 acc Hl.
    - exists acc, []. cbn. rewrite Nat.add_0_r. split; [reflexivity|]. split; [reflexivity|]. split; [unfold slice; rewrite Nat.sub_diag; reflexivity|].
      split; [intros ? ? []|reflexivity].
    - cbn [map list_sum fold_right snd] in Hl |- *. apply NoDup_cons_iff in HN. destruct HN as [HN1 HN2].
      set (m := fold_right Nat.add 0 (map (fun sc : pystr * codec => csize (snd sc)) cs)) in *.
      destruct (@dec_enc c (slice i0 (i0 + csize c) v) (Forall_inv Hok)) as (x & Ed & Hf & Ee); [apply slice_len; lia|].
      destruct (IH (Forall_inv_tail Hok) HN2 (i0 + csize c) (dset pystr_eq_dec s x acc)) as (d & ls & E1 & E2 & E3 & E4 & E5); [unfold list_sum; fold m; lia|].
      exists d, (slice i0 (i0 + csize c) v :: ls). cbn [read_spins]. unfold read_codec at 1. rewrite Ed. cbn [bind fst snd]. rewrite E1.
      unfold list_sum in *. fold m in E1, E3 |- *.
      assert (Es : dget pystr_eq_dec s d = Some x). { rewrite E5 by exact HN1. rewrite dget_dset. destruct (pystr_eq_dec s s); congruence. }
      split; [do 2 f_equal; lia|]. cbn [mapM fst snd]. rewrite Es, Ee, E2. split; [reflexivity|].
      cbn [concat]. rewrite E3. split; [rewrite slice_split; reflexivity|]. split.
      + intros s' c' [[= <- <-]|I]; [exists x; split; [exact Es|exact Hf]|apply E4, I].
      + intros s' N. rewrite E5 by (intros I; apply N; right; exact I). rewrite dget_dset. destruct (pystr_eq_dec s' s) as [->|]; [|reflexivity].
        exfalso. apply N. left; reflexivity.
  Qed.

  Definition block_nodup (b : block) : Prop := match b with BArr _ => True | BSpin cs => NoDup (map fst cs) end.
  Lemma block_backward name b (v : list K) i0 : block_ok b -> block_nodup b -> i0 + bsize b <= length v ->
    exists t ls, read_block K b v i0 = Ok (t, i0 + bsize b) /\ block_fits b t /\ concat ls = slice i0 (i0 + bsize b) v /\
      forall amps, dget pystr_eq_dec name amps = Some t -> write_block K amps (name, b) = Ok ls.
  Proof.
    intros Hok HN Hl. destruct b as [c|cs]; cbn [bsize block_ok block_nodup] in *.
    - destruct (@dec_enc c (slice i0 (i0 + csize c) v) Hok) as (x & Ed & Hf & Ee); [apply slice_len; lia|].
      exists (VArr x), [slice i0 (i0 + csize c) v]. cbn [read_block]. unfold read_codec. rewrite Ed. split; [reflexivity|]. split; [exact Hf|].
      split; [cbn; apply app_nil_r|]. intros amps E. unfold write_block. cbn [fst snd]. rewrite E, Ee. reflexivity.
    - destruct (@spins_backward cs v Hok HN i0 [] Hl) as (d & ls & E1 & E2 & E3 & E4 & E5).
      exists (VSpin d), ls. cbn [read_block]. rewrite E1. split; [reflexivity|]. split; [split; [exact E4|]|].
      + intros s Hs. destruct (in_dec pystr_eq_dec s (map fst cs)) as [I|N]; [exact I|]. exfalso. apply Hs. rewrite E5 by exact N. reflexivity.
      + split; [exact E3|]. intros amps E. unfold write_block. cbn [fst snd]. rewrite E. exact E2.
  Qed.

  Lemma layout_backward lay (v : list K) : layout_ok lay -> Forall (fun nb => block_nodup (snd nb)) lay -> NoDup (map fst lay) ->
    forall i0 acc, i0 + lsize lay <= length v ->
    exists res vs, read_blocks K lay v i0 acc = Ok (res, i0 + lsize lay) /\ mapM (write_block K res) lay = Ok vs /\
      concat (concat vs) = slice i0 (i0 + lsize lay) v /\ layout_fits lay res /\
      (forall name, ~ In name (map fst lay) -> dget pystr_eq_dec name res = dget pystr_eq_dec name acc).
  Proof.
    induction lay as [|[name b] lay IH]; intros Hok HB HN i0 acc Hl.
    - exists acc, []. cbn. rewrite Nat.add_0_r. split; [reflexivity|]. split; [reflexivity|]. split; [unfold slice; rewrite Nat.sub_diag; reflexivity|].
      split; [intros ? ? []|reflexivity].
    - apply NoDup_cons_iff in HN. destruct HN as [HN1 HN2]. cbn [fst] in HN1. change (map (fun nb : pystr * block => fst nb) lay) with (map fst lay) in *.
      assert (EL : lsize ((name, b) :: lay) = bsize b + lsize lay) by reflexivity. rewrite EL in *.
      destruct (@block_backward name b v i0 (Forall_inv Hok) (Forall_inv HB)) as (t & ls & F1 & F2 & F3 & F4); [lia|].
      destruct (IH (Forall_inv_tail Hok) (Forall_inv_tail HB) HN2 (i0 + bsize b) (dset pystr_eq_dec name t acc)) as (res & vs & E1 & E2 & E3 & E4 & E5); [lia|].
      assert (Es : dget pystr_eq_dec name res = Some t). { rewrite E5 by exact HN1. rewrite dget_dset. destruct (pystr_eq_dec name name); congruence. }
      exists res, (ls :: vs). cbn [read_blocks]. rewrite F1. cbn [bind fst snd]. rewrite E1. split; [do 2 f_equal; lia|].
      cbn [mapM]. rewrite (F4 res Es), E2. split; [reflexivity|]. cbn [concat]. rewrite concat_app, F3, E3. split; [apply slice_split|]. split.
      + intros n' b' [[= <- <-]|I]; [exists t; split; [exact Es|exact F2]|apply E4, I].
      + intros n' N. rewrite E5 by (intros I; apply N; right; exact I). rewrite dget_dset. destruct (pystr_eq_dec n' name) as [->|]; [|reflexivity].
        exfalso. apply N. left; reflexivity.
  Qed.

  Lemma read_spins_end cs (v : list K) : forall i0 acc d i1, read_spins K cs v i0 acc = Ok (d, i1) -> i1 = i0 + list_sum (map (fun sc => csize (snd sc)) cs).
  Proof.
    induction cs as [|[s c] cs IH]; intros i0 acc d i1 H; cbn in H.
    - injection H as <- <-. cbn. lia.
    - unfold read_codec in H. destruct (decode K c _) as [x|e]; [|discriminate]. cbn [bind fst snd] in H. apply IH in H. cbn. unfold list_sum in H. lia.
  Qed.
  Lemma read_blocks_end lay (v : list K) : forall i0 acc d i1, read_blocks K lay v i0 acc = Ok (d, i1) -> i1 = i0 + lsize lay.
  Proof.
    induction lay as [|[n b] lay IH]; intros i0 acc d i1 H; cbn [read_blocks] in H.
    - injection H as <- <-. cbn. lia.
    - destruct (read_block K b v i0) as [[t j]|e] eqn:E; [|discriminate]. cbn [bind fst snd] in H. apply IH in H.
      assert (j = i0 + bsize b).
      { destruct b as [c|cs]; cbn in E.
        - unfold read_codec in E. destruct (decode K c _) as [x|e]; [|discriminate]. cbn in E. injection E as _ <-. reflexivity.
        - destruct (read_spins K cs v i0 []) as [[d' j']|e] eqn:E'; [|discriminate]. cbn in E. injection E as _ <-. eapply read_spins_end, E'. }
      unfold lsize in *. cbn. unfold list_sum in H. lia.
  Qed.

  (** The number of chunks is positive when the layout has a non-empty block. *)
  Definition some_chunk (lay : layout) : Prop := exists nb, In nb lay /\ match snd nb with BArr _ => True | BSpin cs => cs <> [] end.
  Lemma chunks_nonempty amps lay vs : some_chunk lay -> mapM (write_block K amps) lay = Ok vs -> concat vs <> [].
  Proof.
    intros (nb & Hin & Hb). revert vs. induction lay as [|nb' lay IH]; intros vs H; [destruct Hin|]. cbn [mapM] in H.
    destruct (write_block K amps nb') as [ls|e] eqn:E; [|discriminate]. destruct (mapM (write_block K amps) lay) as [vs'|e] eqn:E'; [|discriminate].
    injection H as <-. cbn [concat]. destruct Hin as [->|Hin].
    - destruct nb as [name b]. unfold write_block in E. cbn [fst snd] in *. destruct (dget _ name amps) as [[x|d]|]; [destruct b| |discriminate].
      + destruct (encode K c x); [|discriminate]. injection E as <-. discriminate.
      + discriminate.
      + destruct b as [c|cs]; [discriminate|]. destruct cs as [|sc cs]; [congruence|]. cbn [mapM] in E.
        destruct (match dget pystr_eq_dec (fst sc) d with Some x => _ | None => _ end); [|discriminate].
        destruct (mapM _ cs); [|discriminate]. injection E as <-. discriminate.
    - intros H. apply app_eq_nil in H. destruct H as [_ H]. exact (IH Hin _ eq_refl H).
  Qed.
  Lemma to_vector_ok lay amps vs : some_chunk lay -> mapM (write_block K amps) lay = Ok vs -> to_vector K lay amps = Ok (concat (concat vs)).
  Proof.
    intros Hs H. unfold to_vector. rewrite H. cbn [bind]. pose proof (@chunks_nonempty amps lay vs Hs H) as N.
    destruct (concat vs); [congruence|reflexivity].
  Qed.
End Gen.
