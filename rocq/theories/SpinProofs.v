(** Proofs about generate_spin_combinations. *)
From Verif Require Import Base ListAux PermSpec PermModel TrilProofs.
Set Implicit Arguments.

Lemma insert_sorted_comm x y l : insert_sorted x (insert_sorted y l) = insert_sorted y (insert_sorted x l).
Proof.
  induction l as [|z l IH]; cbn [insert_sorted].
  - destruct (Nat.leb_spec x y), (Nat.leb_spec y x); try reflexivity; try lia.
    assert (x = y) by lia; subst; reflexivity.
  - destruct (Nat.leb_spec y z), (Nat.leb_spec x z); cbn [insert_sorted];
      repeat match goal with |- context [?a <=? ?b] => destruct (Nat.leb_spec a b) end; try lia; try reflexivity.
    + assert (x = y) by lia; subst; reflexivity.
    + rewrite IH; reflexivity.
Qed.

Lemma insert_sorted_perm x l : Permutation (x :: l) (insert_sorted x l).
Proof.
  induction l as [|y l IH]; cbn; [reflexivity|]. destruct (x <=? y); [reflexivity|].
  rewrite <- IH. constructor.
Qed.

Lemma sorted_py_perm l : Permutation l (sorted_py l).
Proof. induction l as [|x l IH]; cbn; [constructor|]. rewrite <- insert_sorted_perm. constructor. exact IH. Qed.

Lemma sorted_py_eq l1 l2 : sorted_py l1 = sorted_py l2 <-> Permutation l1 l2.
Proof.
  split.
  - intros H. rewrite (sorted_py_perm l1), H. symmetry. apply sorted_py_perm.
  - induction 1 as [|x l1 l2 _ IH|x y l|l1 l2 l3 _ IH1 _ IH2]; unfold sorted_py in *; cbn; try congruence. apply insert_sorted_comm.
Qed.

Lemma sorted_py_length l : length (sorted_py l) = length l.
Proof. symmetry. apply Permutation_length, sorted_py_perm. Qed.

Lemma existsb_streqb s l : existsb (streqb s) l = true <-> In s l.
Proof.
  rewrite existsb_exists. unfold streqb. split.
  - intros (x & Hx & H). destruct (pystr_eq_dec s x); [congruence|discriminate].
  - intros H. exists s. split; [exact H|]. destruct (pystr_eq_dec s s); congruence.
Qed.

Lemma spin_tups_in n t : In t (product (repeat [ch_a; ch_b] n)) <-> spin_str n t.
Proof.
  rewrite product_in. unfold spin_str. revert t; induction n as [|n IH]; intros t; cbn [repeat].
  - split; [intros H; inversion H; split; [reflexivity|intros c []]|]. intros [H _]. destruct t; [constructor|discriminate].
  - split.
    + intros H; inversion H as [|c ? t' ? Hc Ht]; subst. apply IH in Ht as [H1 H2]. split; [cbn; congruence|].
      intros d [<-|Hd]; [|auto]. destruct Hc as [<-|[<-|[]]]; auto.
    + intros [H1 H2]. destruct t as [|c t]; [discriminate|]. constructor.
      * destruct (H2 c (or_introl eq_refl)) as [->| ->]; [left|right; left]; reflexivity.
      * apply IH. split; [cbn in H1; congruence|]. intros d Hd; apply H2; right; exact Hd.
Qed.

Lemma spin_tups_nodup n : NoDup (product (repeat [ch_a; ch_b] n)).
Proof. apply product_nodup, Forall_repeat. unfold ch_a, ch_b. repeat constructor; cbn; intuition discriminate. Qed.

Lemma spin_tups_length n : length (product (repeat [ch_a; ch_b] n)) = 2 ^ n.
Proof. rewrite product_length. induction n as [|n IH]; cbn in *; [reflexivity|]. rewrite IH. lia. Qed.

Definition comb_of (excited : bool) (t : pystr) : pystr := if excited then removelast (t ++ t) else t ++ t.
Definition canon (n : nat) (excited : bool) (t : pystr) : pystr :=
  sorted_py (firstn n (comb_of excited t)) ++ sorted_py (skipn n (comb_of excited t)).
Definition repl (n : nat) (excited : bool) (t : pystr) : pystr :=
  let comb := comb_of excited t in
  if excited then comb
  else
    let na := count (firstn n comb) ch_a in
    let nb := count (firstn n comb) ch_b in
    if (na =? n / 2) && (nb =? n - n / 2) then repeat_str (firstn n (repeat_str [ch_a; ch_b] n)) 2
    else if (na =? n - n / 2) && (nb =? n / 2) then repeat_str (firstn n (repeat_str [ch_b; ch_a] n)) 2
    else comb.

Fixpoint kept (n : nat) (excited : bool) (check : list pystr) (tups : list pystr) : list pystr :=
  match tups with
  | [] => []
  | t :: rest => if existsb (streqb (canon n excited t)) check then kept n excited check rest
                 else t :: kept n excited (canon n excited t :: check) rest
  end.

Lemma spin_loop_all n excited check tups : spin_loop n excited false check tups = map (comb_of excited) tups.
Proof. revert check; induction tups as [|t tups IH]; intros check; cbn; [reflexivity|]. rewrite IH. reflexivity. Qed.

Lemma spin_loop_unique n excited check tups :
  spin_loop n excited true check tups = map (repl n excited) (kept n excited check tups).
Proof.
  revert check; induction tups as [|t tups IH]; intros check; [reflexivity|].
  change (spin_loop n excited true check (t :: tups)) with
    (if existsb (streqb (canon n excited t)) check then spin_loop n excited true check tups
     else repl n excited t :: spin_loop n excited true (canon n excited t :: check) tups).
  cbn [kept]. destruct (existsb (streqb (canon n excited t)) check); [apply IH|].
  cbn [map]. rewrite IH. reflexivity.
Qed.

Lemma kept_incl n ex check tups t : In t (kept n ex check tups) -> In t tups.
Proof.
  revert check; induction tups as [|u tups IH]; intros check; cbn [kept]; [tauto|].
  destruct (existsb _ check); cbn [In]; [intros H; right; eauto|intros [H|H]; [left; exact H|right; eauto]].
Qed.

Lemma kept_nodup n ex check tups :
  NoDup (map (canon n ex) (kept n ex check tups)) /\
  (forall t, In t (kept n ex check tups) -> ~ In (canon n ex t) check).
Proof.
  revert check; induction tups as [|u tups IH]; intros check; cbn [kept map]; [split; [constructor|intros t []]|].
  destruct (existsb (streqb (canon n ex u)) check) eqn:E; [apply IH|].
  destruct (IH (canon n ex u :: check)) as [H1 H2]. split.
  - cbn [map]. constructor; [|exact H1]. intros H. apply in_map_iff in H as (t & Ht & Hin).
    apply (H2 t Hin). left. congruence.
  - intros t [<-|Ht].
    + intros H. apply existsb_streqb in H. congruence.
    + intros H. apply (H2 t Ht). right; exact H.
Qed.

Lemma kept_covers n ex check tups t : In t tups ->
  In (canon n ex t) check \/ In (canon n ex t) (map (canon n ex) (kept n ex check tups)).
Proof.
  revert check; induction tups as [|u tups IH]; intros check; [intros []|]. intros Hin.
  cbn [kept]. destruct (existsb (streqb (canon n ex u)) check) eqn:E.
  - apply existsb_streqb in E. destruct Hin as [<-|Hin]; [left; exact E|apply IH; exact Hin].
  - cbn [map In]. destruct Hin as [<-|Hin]; [right; left; reflexivity|].
    destruct (IH (canon n ex u :: check) Hin) as [[H|H]|H]; auto.
Qed.

Lemma removelast_length {A} (l : list A) : length (removelast l) = length l - 1.
Proof.
  induction l as [|x l IH]; [reflexivity|]. destruct l as [|y l]; [reflexivity|].
  change (removelast (x :: y :: l)) with (x :: removelast (y :: l)). cbn [length] in *. lia.
Qed.

Lemma comb_first n ex t : length t = n -> (ex = true -> 1 <= n) -> firstn n (comb_of ex t) = t.
Proof.
  intros H Hn. subst n. unfold comb_of. destruct ex.
  - destruct t as [|c t]; [specialize (Hn eq_refl); cbn in Hn; lia|].
    rewrite removelast_app by discriminate.
    rewrite firstn_app, Nat.sub_diag, firstn_all. cbn [firstn]. apply app_nil_r.
  - rewrite firstn_app, Nat.sub_diag, firstn_all. cbn [firstn]. apply app_nil_r.
Qed.

Lemma comb_skip n ex t : length t = n -> skipn n (comb_of ex t) = if ex then removelast t else t.
Proof.
  intros H. subst n. unfold comb_of. destruct ex.
  - destruct t as [|c t]; [reflexivity|].
    rewrite removelast_app by discriminate.
    rewrite skipn_app, Nat.sub_diag, skipn_all. reflexivity.
  - rewrite skipn_app, Nat.sub_diag, skipn_all. reflexivity.
Qed.

Lemma canon_same n ex t u : length t = n -> length u = n ->
  canon n ex t = canon n ex u <-> same_class n (comb_of ex t) (comb_of ex u).
Proof.
  intros Ht Hu. unfold canon, same_class. rewrite <- !sorted_py_eq. split.
  - intros H.
    assert (HL : length (sorted_py (firstn n (comb_of ex t))) = length (sorted_py (firstn n (comb_of ex u)))).
    { rewrite !sorted_py_length, !firstn_length. f_equal. unfold comb_of. destruct ex; rewrite ?removelast_length, !app_length; lia. }
    revert HL H. generalize (sorted_py (firstn n (comb_of ex t))), (sorted_py (firstn n (comb_of ex u))).
    intros a b; revert b. induction a as [|x a IH]; intros [|y b] HL H; cbn in HL; try discriminate; [auto|].
    cbn in H. injection H as -> H. destruct (IH b ltac:(lia) H) as [-> ->]. auto.
  - intros [-> ->]. reflexivity.
Qed.

Lemma full_in n ex s :
  In s (generate_spin_combinations n ex false) <-> exists t, spin_str n t /\ s = (if ex then removelast (t ++ t) else t ++ t).
Proof.
  unfold generate_spin_combinations. rewrite spin_loop_all, in_map_iff. split.
  - intros (t & <- & H). exists t. split; [apply spin_tups_in; exact H|reflexivity].
  - intros (t & H & ->). exists t. split; [reflexivity|apply spin_tups_in; exact H].
Qed.

Lemma full_nodup n ex : NoDup (generate_spin_combinations n ex false).
Proof.
  unfold generate_spin_combinations. rewrite spin_loop_all. apply NoDup_map_inj; [apply spin_tups_nodup|].
  intros x y Hx Hy H. apply spin_tups_in in Hx as [Hx _], Hy as [Hy _].
  destruct n as [|n]; [destruct x, y; try discriminate; reflexivity|].
  rewrite <- (@comb_first _ ex _ Hx), <- (@comb_first _ ex _ Hy), H by lia. reflexivity.
Qed.

Lemma full_length n ex : length (generate_spin_combinations n ex false) = 2 ^ n.
Proof. unfold generate_spin_combinations. rewrite spin_loop_all, map_length. apply spin_tups_length. Qed.

(** Counting the letters of "abab..." and "baba...". *)
Lemma alt_str n x y : firstn n (repeat_str [x; y] n) = map (fun i => if Nat.even i then x else y) (seq 0 n).
Proof.
  assert (H : forall m k, m <= 2 * k ->
    firstn m (repeat_str [x; y] k) = map (fun i => if Nat.even i then x else y) (seq 0 m) /\
    firstn m (repeat_str [y; x] k) = map (fun i => if Nat.even i then y else x) (seq 0 m)).
  { intros m; induction m as [m IH] using lt_wf_ind. intros k Hk.
    destruct m as [|[|m]]; [auto|destruct k; [lia|cbn; auto]|].
    destruct k as [|k]; [lia|]. destruct (IH m ltac:(lia) k ltac:(lia)) as [E1 E2].
    cbn [repeat_str app firstn]. rewrite E1, E2. 
    assert (HS : forall (u v : nat), map (fun i => if Nat.even i then u else v) (seq 0 (S (S m)))
        = u :: v :: map (fun i => if Nat.even i then u else v) (seq 0 m)).
    { intros u v. cbn [seq map Nat.even]. rewrite <- !seq_shift, !map_map. reflexivity. }
    rewrite !HS. auto. }
  apply H. lia.
Qed.

Lemma count_alt x y n : x <> y ->
  count_occ Nat.eq_dec (map (fun i => if Nat.even i then x else y) (seq 0 n)) x = n - n / 2.
Proof.
  intros Hxy. induction n as [n IH] using lt_wf_ind. destruct n as [|[|n]]; [reflexivity| |].
  - cbn [seq map Nat.even count_occ]. destruct (Nat.eq_dec x x); [reflexivity|congruence].
  - rewrite !seq_S, !map_app, !count_occ_app. cbn [map count_occ Nat.add].
    rewrite (IH n) by lia.
    change (S (S n)) with (2 + n). replace (2 + n) with (n + 1 * 2) by lia. rewrite Nat.div_add by lia.
    pose proof (Nat.div_lt_upper_bound n 2 (S n)) as Hd. assert (n / 2 <= n) by (apply Nat.div_le_upper_bound; lia).
    rewrite Nat.even_succ, <- Nat.negb_even. destruct (Nat.even n); cbn [negb];
      destruct (Nat.eq_dec x x), (Nat.eq_dec y x); try congruence; lia.
Qed.

Lemma count_other x y l : x <> y -> (forall c, In c l -> c = x \/ c = y) ->
  count_occ Nat.eq_dec l x + count_occ Nat.eq_dec l y = length l.
Proof.
  intros Hxy. induction l as [|c l IH]; intros Hc; [reflexivity|]. cbn [count_occ length].
  assert (IH' := IH (fun d Hd => Hc d (or_intror Hd))).
  destruct (Hc c (or_introl eq_refl)) as [->| ->]; destruct (Nat.eq_dec x x), (Nat.eq_dec y y), (Nat.eq_dec x y), (Nat.eq_dec y x); try congruence; lia.
Qed.

Lemma alt_spin n x y : (x = 97 /\ y = 98) \/ (x = 98 /\ y = 97) ->
  spin_str n (map (fun i => if Nat.even i then x else y) (seq 0 n)).
Proof.
  intros H. split; [rewrite map_length, seq_length; reflexivity|].
  intros c Hc. apply in_map_iff in Hc as (i & <- & _). destruct (Nat.even i); lia.
Qed.

Definition na (t : list nat) := count_occ Nat.eq_dec t ch_a.
Definition phi (n k : nat) : nat := if k =? n / 2 then n - n / 2 else if k =? n - n / 2 then n / 2 else k.

Lemma phi_invol n k : phi n (phi n k) = k.
Proof.
  unfold phi. assert (n / 2 <= n) by (apply Nat.div_le_upper_bound; lia).
  destruct (Nat.eqb_spec k (n / 2)); [|destruct (Nat.eqb_spec k (n - n / 2))];
  repeat match goal with |- context [?a =? ?b] => destruct (Nat.eqb_spec a b) end; lia.
Qed.

Lemma phi_le n k : k <= n -> phi n k <= n.
Proof.
  unfold phi. assert (n / 2 <= n) by (apply Nat.div_le_upper_bound; lia). intros.
  repeat match goal with |- context [?a =? ?b] => destruct (Nat.eqb_spec a b) end; lia.
Qed.

Lemma spin_class n t u : spin_str n t -> spin_str n u -> (na t = na u <-> Permutation t u).
Proof.
  intros [Ht1 Ht2] [Hu1 Hu2]. split.
  - intros H. apply (Permutation_count_occ Nat.eq_dec). intros c.
    destruct (Nat.eq_dec c ch_a) as [->|Ha]; [exact H|]. destruct (Nat.eq_dec c ch_b) as [->|Hb].
    + pose proof (@count_other ch_a ch_b t ltac:(discriminate) Ht2). pose proof (@count_other ch_a ch_b u ltac:(discriminate) Hu2).
      unfold na in H. lia.
    + rewrite (proj1 (count_occ_not_In Nat.eq_dec t c)), (proj1 (count_occ_not_In Nat.eq_dec u c)); [reflexivity| |].
      * intros Hc. destruct (Hu2 c Hc); contradiction.
      * intros Hc. destruct (Ht2 c Hc); contradiction.
  - intros H. unfold na. rewrite (Permutation_count_occ Nat.eq_dec) in H. apply H.
Qed.

Lemma repl_spec n t : spin_str n t -> exists u, spin_str n u /\ repl n false t = u ++ u /\ na u = phi n (na t).
Proof.
  intros [Ht1 Ht2]. unfold repl. rewrite comb_first by (try discriminate; exact Ht1).
  pose proof (@count_other ch_a ch_b t ltac:(discriminate) Ht2) as Hc. rewrite Ht1 in Hc.
  assert (Hn2 : n / 2 <= n) by (apply Nat.div_le_upper_bound; lia).
  unfold count. fold (na t) in *. unfold phi.
  destruct (Nat.eqb_spec (na t) (n / 2)) as [E|E].
  - replace (count_occ Nat.eq_dec t ch_b =? n - n / 2) with true by (symmetry; apply Nat.eqb_eq; lia). cbn [andb].
    eexists. split; [apply alt_spin; left; split; reflexivity|]. rewrite alt_str. unfold repeat_str at 1.
    split; [cbn [app]; rewrite app_nil_r; reflexivity|]. apply count_alt. discriminate.
  - cbn [andb]. destruct (Nat.eqb_spec (na t) (n - n / 2)) as [E'|E'].
    + replace (count_occ Nat.eq_dec t ch_b =? n / 2) with true by (symmetry; apply Nat.eqb_eq; lia). cbn [andb].
      eexists. split; [apply alt_spin; right; split; reflexivity|]. rewrite alt_str. unfold repeat_str at 1.
      split; [cbn [app]; rewrite app_nil_r; reflexivity|].
      pose proof (alt_spin n (or_intror (conj eq_refl eq_refl))) as [HL HC].
      pose proof (@count_other 97 98 _ ltac:(discriminate) HC) as HO. rewrite HL in HO.
      pose proof (@count_alt 98 97 n ltac:(discriminate)) as HA.
      unfold na, ch_a. fold ch_a in *. unfold ch_a in *. lia.
    + cbn [andb]. exists t. repeat split; auto.
Qed.

Lemma spin_exists n k : k <= n -> exists t, spin_str n t /\ na t = k.
Proof.
  intros H. exists (repeat ch_a k ++ repeat ch_b (n - k)). repeat split.
  - rewrite app_length, !repeat_length. lia.
  - intros c Hc. apply in_app_or in Hc as [Hc|Hc]; apply repeat_spec in Hc; subst; auto.
  - unfold na. rewrite count_occ_app.
    assert (E1 : forall m, count_occ Nat.eq_dec (repeat ch_a m) ch_a = m).
    { induction m as [|m IH]; cbn; [reflexivity|]. rewrite IH. reflexivity. }
    assert (E2 : forall m, count_occ Nat.eq_dec (repeat ch_b m) ch_a = 0).
    { induction m as [|m IH]; cbn; [reflexivity|]. rewrite IH. reflexivity. }
    rewrite E1, E2. lia.
Qed.

Lemma na_le n t : spin_str n t -> na t <= n.
Proof. intros [H _]. rewrite <- H. apply count_occ_bound || (unfold na; clear; induction t as [|c t IH]; cbn; [lia|]; destruct (Nat.eq_dec c ch_a); cbn in *; lia). Qed.

(** Kept tuples have distinct numbers of alpha spins and all numbers occur. *)
Lemma kept_na n : let K := kept n false [] (product (repeat [ch_a; ch_b] n)) in
  (forall t, In t K -> spin_str n t) /\ NoDup (map na K) /\ (forall k, k <= n -> In k (map na K)).
Proof.
  set (K := kept _ _ _ _). cbv zeta.
  assert (HK : forall t, In t K -> spin_str n t) by (intros t Ht; apply spin_tups_in, (kept_incl _ _ _ _ _ Ht)).
  split; [exact HK|]. destruct (kept_nodup n false [] (product (repeat [ch_a; ch_b] n))) as [Hnd _]. fold K in Hnd.
  assert (Hcan : forall t u, spin_str n t -> spin_str n u -> (canon n false t = canon n false u <-> na t = na u)).
  { intros t u Ht Hu. rewrite canon_same by (apply Ht || apply Hu). unfold same_class.
    rewrite !comb_first, !comb_skip by (try discriminate; try apply Ht; apply Hu).
    rewrite (spin_class Ht Hu). tauto. }
  split.
  - clear -HK Hnd Hcan. induction K as [|t K IH]; cbn [map]; [constructor|].
    cbn [map] in Hnd. inversion Hnd as [|? ? Hx Hl]; subst. constructor.
    + intros H. apply Hx. apply in_map_iff in H as (u & Hu & Hin). apply in_map_iff. exists u. split; [|exact Hin].
      apply Hcan; [apply HK; right; exact Hin|apply HK; left; reflexivity|exact Hu].
    + apply IH; [intros u Hu; apply HK; right; exact Hu|exact Hl].
  - intros k Hk. destruct (spin_exists Hk) as (t & Ht & <-).
    destruct (kept_covers n false [] (product (repeat [ch_a; ch_b] n)) t (proj2 (spin_tups_in n t) Ht)) as [[]|H].
    fold K in H. apply in_map_iff in H as (u & Hu & Hin). apply in_map_iff. exists u. split; [|exact Hin].
    apply Hcan; auto.
Qed.

Lemma unique_counts n :
  (forall s, In s (generate_spin_combinations n false true) -> exists t, spin_str n t /\ s = t ++ t) /\
  Permutation (map (fun s => count_occ Nat.eq_dec (firstn n s) ch_a) (generate_spin_combinations n false true)) (seq 0 (n + 1)).
Proof.
  unfold generate_spin_combinations. rewrite spin_loop_unique.
  destruct (kept_na n) as (HK & Hnd & Hcov). cbv zeta in *. set (K := kept _ _ _ _) in *.
  split.
  - intros s Hs. apply in_map_iff in Hs as (t & <- & Ht). destruct (repl_spec (HK t Ht)) as (u & Hu & E & _). eauto.
  - rewrite map_map.
    assert (E : map (fun x => count_occ Nat.eq_dec (firstn n (repl n false x)) ch_a) K = map (phi n) (map na K)).
    { rewrite map_map. apply map_ext_in. intros t Ht. destruct (repl_spec (HK t Ht)) as (u & [Hu1 Hu2] & E & Hp).
      rewrite E, firstn_app, <- Hu1, Nat.sub_diag, firstn_all. cbn [firstn]. rewrite app_nil_r, Hu1. exact Hp. }
    rewrite E. apply NoDup_Permutation.
    + apply NoDup_map_inj; [exact Hnd|]. intros x y _ _ H. rewrite <- (phi_invol n x), <- (phi_invol n y), H. reflexivity.
    + apply seq_NoDup.
    + intros k. rewrite in_seq, in_map_iff. split.
      * intros (j & <- & Hj). apply in_map_iff in Hj as (t & <- & Ht). pose proof (phi_le (na_le (HK t Ht))). lia.
      * intros H. exists (phi n k). split; [apply phi_invol|]. apply Hcov. apply phi_le. lia.
Qed.

Lemma unique_excited n : 1 <= n ->
  (forall s, In s (generate_spin_combinations n true true) -> In s (generate_spin_combinations n true false)) /\
  (forall s, In s (generate_spin_combinations n true false) ->
     exists s', In s' (generate_spin_combinations n true true) /\ same_class n s' s /\
       forall s'', In s'' (generate_spin_combinations n true true) -> same_class n s'' s -> s'' = s') /\
  NoDup (generate_spin_combinations n true true).
Proof.
  intros Hn. unfold generate_spin_combinations. rewrite spin_loop_unique, spin_loop_all.
  set (P := product _). destruct (kept_nodup n true [] P) as [Hnd _]. set (K := kept _ _ _ _) in *.
  change (map (repl n true) K) with (map (comb_of true) K).
  assert (HK : forall t, In t K -> In t P) by (intros t; apply kept_incl).
  assert (HP : forall t, In t P -> length t = n) by (intros t Ht; apply spin_tups_in in Ht; apply Ht).
  assert (Hinj : forall t u, In t K -> In u K -> canon n true t = canon n true u -> t = u).
  { clear -Hnd. induction K as [|a K IH]; [intros t u []|]. cbn [map] in Hnd. inversion Hnd as [|? ? Hx Hl]; subst.
    intros t u [<-|Ht] [<-|Hu] E; auto.
    - exfalso; apply Hx. rewrite E. apply in_map. exact Hu.
    - exfalso; apply Hx. rewrite <- E. apply in_map. exact Ht. }
  repeat split.
  - intros s Hs. apply in_map_iff in Hs as (t & <- & Ht). apply in_map. auto.
  - intros s Hs. apply in_map_iff in Hs as (t & <- & Ht).
    destruct (kept_covers n true [] P t Ht) as [[]|H]. fold K in H. apply in_map_iff in H as (u & Hu & Hin).
    exists (comb_of true u). split; [apply in_map; exact Hin|]. split; [apply canon_same; auto|].
    intros s'' Hs'' Hc. apply in_map_iff in Hs'' as (w & <- & Hw). apply canon_same in Hc; auto.
    f_equal. apply Hinj; auto. congruence.
  - apply NoDup_map_inj.
    + clear -Hnd. apply NoDup_map_inv in Hnd. exact Hnd.
    + intros x y Hx Hy E. rewrite <- (@comb_first n true x), <- (@comb_first n true y), E; auto.
Qed.
