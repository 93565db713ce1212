(** Sums with Kronecker deltas. *)
From Coq Require Import List ZArith QArith Lia Ring Field Permutation.
From Verif Require Import Base Alg ArrModel ListAux EinsumModel TensorModel CgModel CgSpec CgFormSpec CgProofs CgPoly CgPolyProofs.
From Verif Require Import ArrProofs EinsumProofs CgCompare CgRelSpec CgRel CgCompareProofs CgRelProofs.
Import ListNotations.
Set Implicit Arguments.
Local Open Scope nat_scope.

(** A factor delta_xy where y is summed over and x has the same kind: sum_y delta_xy f(y) = f(x).  [ks] are the
    kinds of all indices, [n] is the number of those that are not summed over. *)
Definition usable (ks : list cls) (n x y : nat) : bool :=
  (n <=? y) && (y <? length ks) && (x <? length ks) && negb (x =? y) && (nth x ks 0 =? nth y ks 0).
Fixpoint find_delta (ks : list cls) (n : nat) (pre fs : list fac) : option (list fac * (nat * nat)) :=
  match fs with
  | [] => None
  | f :: fs' =>
      match f with
      | (xH, [p; q]) =>
          if usable ks n p q then Some (rev_append pre fs', (p, q))
          else if usable ks n q p then Some (rev_append pre fs', (q, p))
          else find_delta ks n (f :: pre) fs'
      | _ => find_delta ks n (f :: pre) fs'
      end
  end.
Definition remove_nth {A} (k : nat) (l : list A) : list A := firstn k l ++ skipn (S k) l.
Definition drop_label (x y l : nat) : nat := let l' := if l =? y then x else l in if y <? l' then l' - 1 else l'.
Definition contract1 (outs : list cls) (t : term) : term :=
  match find_delta (outs ++ td t) (length outs) [] (tf t) with
  | Some (fs, (x, y)) => mkT (tq t) (remove_nth (y - length outs) (td t)) (map (fun f => (fst f, map (drop_label x y) (snd f))) fs)
  | None => t
  end.
Fixpoint contract (m : nat) (outs : list cls) (t : term) : term :=
  match m with 0 => t | S m' => contract m' outs (contract1 outs t) end.
(** A factor delta_xx is 1; it is dropped if x occurs elsewhere. *)
Definition loop (n : nat) (others : list fac) (f : fac) : bool :=
  match f with
  | (xH, [p; q]) => (p =? q) && ((p <? n) || existsb (fun g => existsb (Nat.eqb p) (snd g)) others)
  | _ => false
  end.
Fixpoint clean (n : nat) (pre fs : list fac) : list fac :=
  match fs with
  | [] => pre
  | f :: fs' => if loop n (pre ++ fs') f then clean n pre fs' else clean n (f :: pre) fs'
  end.
Definition cleaned (n : nat) (t : term) : term := mkT (tq t) (td t) (clean n [] (tf t)).
Definition undelta (outs : list cls) (p : poly) : poly := map (fun t => cleaned (length outs) (contract (length (tf t)) outs t)) p.

(** Inserting a value at a position. *)
Definition ins {A} (k : nat) (v : A) (d : list A) : list A := firstn k d ++ v :: skipn k d.
Lemma ins_nth {A} (d : list A) k v def : (k <= length d) -> forall j,
  nth j (ins k v d) def = if (j =? k) then v else if (k <? j) then nth (j - 1) d def else nth j d def.
Proof.
  intros Hk j. unfold ins. destruct (Nat.eqb_spec j k) as [->|N].
  - rewrite app_nth2; rewrite firstn_length_le by exact Hk; [|lia]. rewrite Nat.sub_diag. reflexivity.
  - destruct (Nat.ltb_spec k j) as [L|L].
    + rewrite app_nth2; rewrite firstn_length_le by exact Hk; [|lia]. destruct (j - k) as [|m] eqn:E; [lia|]. cbn [nth].
      rewrite <- (firstn_skipn k d) at 2. rewrite app_nth2; rewrite firstn_length_le by exact Hk; [|lia]. f_equal. lia.
    + rewrite app_nth1 by (rewrite firstn_length_le by exact Hk; lia). rewrite <- (firstn_skipn k d) at 2.
      rewrite app_nth1 by (rewrite firstn_length_le by exact Hk; lia). reflexivity.
Qed.
Lemma ins_length {A} (d : list A) k v : (k <= length d) -> length (ins k v d) = S (length d).
Proof. intros H. unfold ins. rewrite app_length. cbn [length]. rewrite firstn_length_le, skipn_length by exact H. lia. Qed.
Lemma ins_remove {A} (l : list A) k def : (k < length l) -> ins k (nth k l def) (remove_nth k l) = l.
Proof.
  intros H. unfold ins, remove_nth. rewrite firstn_app, firstn_firstn, Nat.min_id. rewrite firstn_length_le by lia. rewrite Nat.sub_diag. cbn [firstn].
  rewrite app_nil_r, skipn_app, skipn_all2 by (rewrite firstn_length_le; lia). rewrite firstn_length_le by lia. rewrite Nat.sub_diag. cbn [skipn app].
  rewrite <- (firstn_skipn k l) at 4. f_equal. clear -H. revert k H. induction l as [|a l IH]; intros [|k] H; cbn in *; try lia; [reflexivity|]. apply IH. lia.
Qed.
Lemma remove_length {A} (l : list A) k : (k < length l) -> length (remove_nth k l) = (length l - 1).
Proof. intros H. unfold remove_nth. rewrite app_length, firstn_length_le, skipn_length by lia. lia. Qed.
Lemma remove_ins {A} (d : list A) k v : (k <= length d) -> remove_nth k (ins k v d) = d.
Proof.
  intros H. unfold ins, remove_nth. rewrite firstn_app, firstn_firstn, Nat.min_id, firstn_length_le, Nat.sub_diag by exact H. cbn [firstn]. rewrite app_nil_r.
  replace (S k) with (length (firstn k d ++ [v])) by (rewrite app_length, firstn_length_le by exact H; cbn; lia).
  replace (firstn k d ++ v :: skipn k d) with ((firstn k d ++ [v]) ++ skipn k d) by (rewrite <- app_assoc; reflexivity).
  rewrite skipn_app, Nat.sub_diag, skipn_all. cbn [skipn app]. apply firstn_skipn.
Qed.
Lemma inb_ins s d k v : (k <= length s) -> length d = length s -> forall c, inb (ins k c s) (ins k v d) <-> (v < c) /\ inb s d.
Proof.
  revert d k. induction s as [|a s IH]; intros [|b d] [|k] Hk HL c; cbn [length] in *; try lia; unfold ins; cbn [firstn skipn app].
  - split; [intros H; inversion H; subst; auto|intros [H1 H2]; constructor; assumption].
  - split; [intros H; inversion H; subst; auto|intros [H1 H2]; constructor; assumption].
  - fold (ins k c s) (ins k v d). split.
    + intros H. inversion H; subst. apply IH in H5; [|lia|lia]. destruct H5 as [H5 H6]. split; [exact H5|constructor; assumption].
    + intros [H1 H2]. inversion H2; subst. constructor; [assumption|]. apply IH; [lia|lia|]. split; assumption.
Qed.
Lemma all_idx_ins s k : (k < length s) ->
  Permutation (all_idx s) (flat_map (fun d => map (fun v => ins k v d) (seq 0 (nth k s 0))) (all_idx (remove_nth k s))).
Proof.
  intros Hk. pose proof (remove_length s Hk) as HL. apply NoDup_Permutation.
  - apply all_idx_nodup.
  - assert (A : forall l, NoDup l -> (forall d, In d l -> (k <= length d)) -> NoDup (flat_map (fun d => map (fun v => ins k v d) (seq 0 (nth k s 0))) l)).
    { induction l as [|d l IH]; intros Hn Hl; cbn [flat_map]; [constructor|]. inversion Hn; subst. apply NoDup_app_intro.
      - apply NoDup_map_inj; [apply seq_NoDup|]. intros a b _ _ E. apply (f_equal (fun z => nth k z 0)) in E.
        rewrite !ins_nth, Nat.eqb_refl in E by (apply Hl; left; reflexivity). exact E.
      - apply IH; [assumption|]. intros d' Hd. apply Hl. right. exact Hd.
      - intros z Hz Hz'. apply in_map_iff in Hz as (v & <- & _). apply in_flat_map in Hz' as (d' & Hd & Hz'). apply in_map_iff in Hz' as (v' & E & _).
        apply (f_equal (remove_nth k)) in E. rewrite !remove_ins in E; [subst d'; contradiction| |]; apply Hl; [left; reflexivity|right; exact Hd]. }
    apply A; [apply all_idx_nodup|]. intros d Hd. apply all_idx_in, inb_length in Hd. lia.
  - intros z. rewrite all_idx_in, in_flat_map. split.
    + intros Hz. pose proof (inb_length Hz) as HLz. exists (remove_nth k z).
      assert (Hz' : inb (ins k (nth k s 0) (remove_nth k s)) (ins k (nth k z 0) (remove_nth k z))) by (rewrite !ins_remove by lia; exact Hz).
      apply inb_ins in Hz'; [|lia|rewrite !remove_length by lia; lia]. destruct Hz' as [H1 H2]. rewrite all_idx_in. split; [exact H2|].
      apply in_map_iff. exists (nth k z 0). split; [apply ins_remove; lia|]. apply in_seq. lia.
    + intros (d & Hd & Hz). apply all_idx_in in Hd. pose proof (inb_length Hd) as HLd. apply in_map_iff in Hz as (v & <- & Hv). apply in_seq in Hv.
      rewrite <- (@ins_remove _ s k 0 Hk). apply inb_ins; [lia|lia|]. split; [lia|exact Hd].
Qed.

Lemma map_remove {A B} (f : A -> B) k l : map f (remove_nth k l) = remove_nth k (map f l).
Proof. unfold remove_nth. rewrite map_app, firstn_map, skipn_map. reflexivity. Qed.
Lemma inb_app s1 i1 s2 i2 : inb s1 i1 -> inb s2 i2 -> inb (s1 ++ s2) (i1 ++ i2).
Proof. intros H1 H2. induction H1; cbn [app]; [exact H2|constructor; assumption]. Qed.
Section Sem.
  Variable F : fld.
  Add Field FfieldDel : (fth F).
  Local Open Scope rng_scope.
  Variable sz : cls -> nat.
  Variable val : ref -> list nat -> F.
  Hypothesis val_delta : forall i j, val n_delta [i; j] = if (i =? j)%nat then 1 else 0.
  Local Notation fsem := (fsem F val).
  Local Notation msem := (msem F val).
  Local Notation tsem := (tsem F sz val).

  Lemma find_delta_ok ks n fs : forall pre r x y, find_delta ks n pre fs = Some (r, (x, y)) ->
    usable ks n x y = true /\ forall w, msem (rev_append pre fs) w = (if (nth x w 0 =? nth y w 0)%nat then 1 else 0) * msem r w.
  Proof.
    induction fs as [|f fs IH]; intros pre r x y; cbn [find_delta]; [discriminate|].
    assert (Hrec : find_delta ks n (f :: pre) fs = Some (r, (x, y)) ->
      usable ks n x y = true /\ forall w, msem (rev_append pre (f :: fs)) w = (if (nth x w 0 =? nth y w 0)%nat then 1 else 0) * msem r w).
    { intros H. exact (IH (f :: pre) r x y H). }
    assert (Hmove : forall w, msem (rev_append pre (f :: fs)) w = fsem w f * msem (rev_append pre fs) w).
    { intros w. rewrite <- msem_cons. apply msem_perm. rewrite !rev_append_rev. apply Permutation_sym, Permutation_middle. }
    destruct f as [z ls]. destruct z as [z|z|]; try exact Hrec. destruct ls as [|p [|q [|? ?]]]; try exact Hrec.
    assert (Hf : forall w, fsem w (xH, [p; q]) = if (nth p w 0 =? nth q w 0)%nat then 1 else 0) by (intros w; apply val_delta).
    destruct (usable ks n p q) eqn:E1.
    - intros H. injection H as <- <- <-. split; [exact E1|]. intros w. rewrite Hmove, Hf. reflexivity.
    - destruct (usable ks n q p) eqn:E2; [|exact Hrec]. intros H. injection H as <- <- <-. split; [exact E2|]. intros w. rewrite Hmove, Hf, Nat.eqb_sym. reflexivity.
  Qed.

  Lemma rsum_flat_map {A} (f : A -> list F) l : rsum (flat_map f l) = rsum (map (fun x => rsum (f x)) l).
  Proof. induction l as [|x l IH]; cbn [flat_map map]; [reflexivity|]. rewrite rsum_app, IH, rsum_cons. reflexivity. Qed.
  Lemma rsum_pick m v (f : nat -> F) : (v < m)%nat -> rsum (map (fun u => (if (v =? u)%nat then 1 else 0) * f u) (seq 0 m)) = f v.
  Proof.
    intros H. assert (A : forall st len, rsum (map (fun u => (if (v =? u)%nat then 1 else 0) * f u) (seq st len)) = if (st <=? v)%nat && (v <? st + len)%nat then f v else 0).
    { intros st len. revert st. induction len as [|len IH]; intros st; cbn [seq map].
      - destruct (Nat.leb_spec st v); destruct (Nat.ltb_spec v (st + 0)); cbn [andb]; try reflexivity. lia.
      - rewrite rsum_cons, IH. destruct (Nat.eqb_spec v st) as [->|N].
        + rewrite (proj2 (Nat.leb_gt (S st) st)) by lia. rewrite Nat.leb_refl, (proj2 (Nat.ltb_lt st (st + S len))) by lia. cbn [andb]. ring.
        + destruct (Nat.leb_spec (S st) v); destruct (Nat.ltb_spec v (S st + len)); destruct (Nat.leb_spec st v); destruct (Nat.ltb_spec v (st + S len)); cbn [andb]; try lia; ring. }
    rewrite A. cbn [Nat.leb Nat.add]. rewrite (proj2 (Nat.ltb_lt v m) H). reflexivity.
  Qed.
  Lemma nth_insert n (idx d : list nat) k v l : length idx = n -> (k <= length d)%nat ->
    nth l (idx ++ ins k v d) 0%nat = if (l =? n + k)%nat then v else if (n + k <? l)%nat then nth (l - 1) (idx ++ d) 0%nat else nth l (idx ++ d) 0%nat.
  Proof.
    intros Hn Hk. destruct (Nat.lt_ge_cases l n) as [L|L].
    - rewrite !app_nth1 by lia. destruct (Nat.eqb_spec l (n + k)); [lia|]. destruct (Nat.ltb_spec (n + k) l); [lia|reflexivity].
    - rewrite !(@app_nth2 _ idx _ _ l) by lia. rewrite ins_nth by exact Hk. rewrite Hn.
      destruct (Nat.eqb_spec (l - n) k); destruct (Nat.eqb_spec l (n + k)); try lia.
      destruct (Nat.ltb_spec k (l - n)); destruct (Nat.ltb_spec (n + k) l); try lia.
      rewrite app_nth2 by lia. f_equal. lia.
  Qed.
  Lemma contract1_ok outs t idx : inb (map sz outs) idx -> tsem (contract1 outs t) idx = tsem t idx.
  Proof.
    intros Hi. pose proof (inb_length Hi) as Hn. rewrite map_length in Hn. unfold contract1.
    destruct (find_delta _ _ _ _) as [[fs [x y]]|] eqn:E; [|reflexivity]. apply find_delta_ok in E as [U M]. cbn [rev_append] in M.
    unfold usable in U. repeat rewrite andb_true_iff in U. destruct U as ((((U1 & U2) & U3) & U4) & U5).
    apply Nat.leb_le in U1. apply Nat.ltb_lt in U2, U3. apply Bool.negb_true_iff, Nat.eqb_neq in U4. apply Nat.eqb_eq in U5. rewrite app_length in U2, U3.
    set (n := length outs) in *. set (k := (y - n)%nat) in *. assert (Hk : (k < length (map sz (td t)))%nat) by (rewrite map_length; unfold k; lia).
    unfold tsem. cbn [tq td tf]. f_equal.
    rewrite (@rsum_perm F _ _ (Permutation_map (fun d => msem (tf t) (idx ++ d)) (all_idx_ins _ Hk))).
    rewrite flat_map_concat_map, concat_map, map_map, <- flat_map_concat_map, rsum_flat_map.
    rewrite <- map_remove. apply rsum_map_ext. intros d Hd. apply all_idx_in in Hd. pose proof (inb_length Hd) as HLd.
    rewrite map_remove, remove_length in HLd by exact Hk. rewrite map_length in Hk, HLd. rewrite map_map.
    set (x' := drop_label x y x).
    assert (Hx : forall v, nth x (idx ++ ins k v d) 0%nat = nth x' (idx ++ d) 0%nat).
    { intros v. rewrite (@nth_insert n) by (try exact Hn; lia). unfold x', drop_label. replace (n + k)%nat with y by (unfold k; lia).
      destruct (Nat.eqb_spec x y); [contradiction|]. destruct (y <? x)%nat; reflexivity. }
    assert (Hy : forall v, nth y (idx ++ ins k v d) 0%nat = v).
    { intros v. rewrite (@nth_insert n) by (try exact Hn; lia). replace (n + k)%nat with y by (unfold k; lia). rewrite Nat.eqb_refl. reflexivity. }
    set (v0 := nth x' (idx ++ d) 0%nat) in *.
    rewrite (@rsum_map_ext F _ _ (fun v => (if (v0 =? v)%nat then 1 else 0) * msem fs (idx ++ ins k v d))) by (intros v _; rewrite M, Hx, Hy; reflexivity).
    rewrite rsum_pick.
    - unfold msem. rewrite map_map. f_equal. apply map_ext. intros f. unfold fsem. cbn [fst snd]. f_equal. unfold gather. rewrite map_map. apply map_ext. intros l.
      rewrite (@nth_insert n) by (try exact Hn; lia). unfold drop_label. replace (n + k)%nat with y by (unfold k; lia).
      destruct (Nat.eqb_spec l y) as [->|N]; [|destruct (y <? l)%nat; reflexivity].
      unfold v0, x', drop_label. destruct (Nat.eqb_spec x y); [contradiction|reflexivity].
    - replace (nth k (map sz (td t)) 0%nat) with (sz (nth x (outs ++ td t) 0%nat)).
      + assert (HI : inb (map sz (outs ++ remove_nth k (td t))) (idx ++ d)).
        { rewrite map_app. apply inb_app; [exact Hi|exact Hd]. }
        assert (Hx' : (x' < length (map sz (outs ++ remove_nth k (td t))))%nat).
        { rewrite map_length, app_length, remove_length by exact Hk. fold n. unfold x', drop_label. destruct (Nat.eqb_spec x y); [contradiction|]. destruct (Nat.ltb_spec y x); unfold k in *; lia. }
        pose proof (@inb_nth _ _ x' HI Hx') as HB. fold v0 in HB. rewrite nth_map_lt with (d' := 0%nat) in HB by (rewrite map_length in Hx'; exact Hx').
        replace (nth x (outs ++ td t) 0%nat) with (nth x' (outs ++ remove_nth k (td t)) 0%nat); [exact HB|].
        transitivity (nth x (outs ++ ins k (nth k (td t) 0%nat) (remove_nth k (td t))) 0%nat); [|rewrite ins_remove by exact Hk; reflexivity].
        assert (Hk' : (k <= length (remove_nth k (td t)))%nat) by (rewrite (remove_length _ Hk); lia).
        etransitivity; [|symmetry; exact (@nth_insert n outs (remove_nth k (td t)) k (nth k (td t) 0%nat) x eq_refl Hk')].
        replace (n + k)%nat with y by (unfold k; lia). unfold x', drop_label. destruct (Nat.eqb_spec x y); [contradiction|]. destruct (y <? x)%nat; reflexivity.
      + rewrite U5, (@app_nth2 _ outs) by (fold n; lia). fold n. fold k. symmetry. rewrite nth_map_lt with (d' := 0%nat) by exact Hk. reflexivity.
  Qed.
  Lemma contract_ok outs idx : inb (map sz outs) idx -> forall m t, tsem (contract m outs t) idx = tsem t idx.
  Proof. intros Hi. induction m as [|m IH]; intros t; cbn [contract]; [reflexivity|]. rewrite IH. apply contract1_ok, Hi. Qed.
  Lemma loop_ok n others f idx : loop n others f = true -> fsem idx f = 1.
  Proof.
    destruct f as [[?|?|] [|p [|q [|? ?]]]]; cbn; try discriminate. intros H. apply andb_prop in H as [H _]. apply Nat.eqb_eq in H as <-.
    transitivity (if (nth p idx 0 =? nth p idx 0)%nat then 1 else 0 : F); [apply val_delta|rewrite Nat.eqb_refl; reflexivity].
  Qed.
  Lemma clean_ok n idx : forall fs pre, msem (clean n pre fs) idx = msem pre idx * msem fs idx.
  Proof.
    induction fs as [|f fs IH]; intros pre; cbn [clean].
    - transitivity (msem pre idx * 1); [ring|reflexivity].
    - rewrite msem_cons. destruct (loop n (pre ++ fs) f) eqn:E; rewrite IH.
      + rewrite (loop_ok _ _ _ idx E). ring.
      + rewrite msem_cons. ring.
  Qed.
  Lemma cleaned_ok n t idx : tsem (cleaned n t) idx = tsem t idx.
  Proof. unfold tsem, cleaned. cbn [tq td tf]. f_equal. apply rsum_map_ext. intros d _. rewrite clean_ok. change (1 * msem (tf t) (idx ++ d) = msem (tf t) (idx ++ d)). ring. Qed.
  Lemma undelta_ok outs p idx : inb (map sz outs) idx -> psem F sz val (undelta outs p) idx = psem F sz val p idx.
  Proof. intros Hi. unfold psem, undelta. rewrite map_map. apply rsum_map_ext. intros t _. rewrite cleaned_ok. apply contract_ok, Hi. Qed.
End Sem.

(** Vanishing relations in which Kronecker deltas occur. *)
Definition relation_delta (B : list (ref * list cls)) (S : symmetries) (cs : list (table * prog)) (out : list nat) (fm : formula) : option poly :=
  if syms_ok (kmap B) S && (match pget n_delta (kmap B) with None => true | _ => false end) then
    if nodupb out then
      match sym_calls B S cs with
      | Some l => match compile (together (atom (kmap B) :: l)) out fm with Some ts => Some (norm (smap S) (length out) (undelta (map kind out) ts)) | None => None end
      | None => None
      end
    else None
  else None.
Definition vanishes_delta (B : list (ref * list cls)) (S : symmetries) (cs : list (table * prog)) (out : list nat) (fm : formula) : bool :=
  match relation_delta B S cs out fm with Some [] => true | _ => false end.

Theorem vanishes_delta_sound B S calls out fm : vanishes_delta B S calls out fm = true ->
  forall (F : fld) sz, characteristic_zero F -> forall method path, path_ok path ->
  forall eB : env F, symmetric sz S B eB ->
  forall es, Forall2 (fun c e => called_with sz eB (fst c) (snd c) e) calls es ->
  exists rs, Forall2 (fun ce r => run method path sz (snd (fst ce)) (snd ce) = Ok r) (combine calls es) rs /\
    forall idx, inb (map sz (map kind out)) idx ->
      value sz (together (eB :: map (fun cr => results F (p_out (snd (fst cr))) (snd cr)) (combine calls rs))) out fm idx = r0.
Proof.
  intros H F sz H0 m pa P eB HS es Hes. unfold vanishes_delta, relation_delta in H.
  destruct (syms_ok (kmap B) S && _) eqn:Hc; [|discriminate]. apply andb_prop in Hc as [Hs Hd].
  assert (Hdel : pget n_delta (kmap B) = None) by (destruct (pget n_delta (kmap B)); [discriminate|reflexivity]).
  destruct (nodupb out) eqn:Hn; [|discriminate]. apply nodupb_ok in Hn.
  destruct (sym_calls B S calls) as [l|] eqn:El; [|discriminate].
  assert (A : exists rs, Forall2 (fun ce r => run m pa sz (snd (fst ce)) (snd ce) = Ok r) (combine calls es) rs /\
    Forall2 (denotes sz B eB) l (map (fun cr => results F (p_out (snd (fst cr))) (snd cr)) (combine calls rs))).
  { clear H. revert l El. induction Hes as [|c e calls es He Hes IH]; intros l El; cbn [sym_calls] in El.
    - injection El as <-. exists []. split; constructor.
    - destruct (sym_call B S c) as [o|] eqn:Eo; [|discriminate]. destruct (sym_calls B S calls) as [l'|]; [|discriminate]. injection El as <-.
      destruct (IH l' eq_refl) as (rs & R & D). destruct (@sym_call_ok F H0 sz B S Hs Hdel eB HS c o e m pa Eo P He) as (r & R1 & D1).
      exists (r :: rs). split; constructor; assumption. }
  destruct A as (rs & R & D). exists rs. split; [exact R|]. intros idx Hi.
  destruct (compile _ out fm) as [ts|] eqn:Ec; [|discriminate]. destruct (norm (smap S) (length out) _) as [|? ?] eqn:En; [|discriminate].
  rewrite (@compile_value F H0 sz B eB (atom (kmap B) :: l) (eB :: _) out fm ts idx (Forall2_cons _ _ (@atom_denotes F H0 sz B Hdel eB) D) Hn Ec Hi).
  rewrite <- (@undelta_ok F sz (bval sz B eB) (fun i j => eq_refl) (map kind out)) by exact Hi.
  rewrite <- (@norm_value F H0 sz B S Hs eB HS (length out)); [rewrite En; reflexivity|]. apply inb_length in Hi. rewrite !map_length in Hi. exact Hi.
Qed.
