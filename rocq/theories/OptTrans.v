(** Rotation of the amplitudes, and the identity. *)
From Coq Require Import Sorted String Permutation Field.
From Verif Require Import Base ListAux Alg ArrModel ArrProofs PermModel PackProofs TensorModel EinsumModel EinPathModel EinPathSpec SpaceModel SpaceProofs
  AnsatzModel AnsatzProofs AnsatzRanks DampProofs KernelProofs VecModel VecSpec VecProofs VecThms CcModel CcProofs CcThms ExtModel ExtSpec ExtProofs OptModel OptSpec OptProofs.
Set Implicit Arguments.
Local Open Scope string_scope.
Local Open Scope list_scope.
Local Open Scope nat_scope.

Lemma fold_each {E V} (name : E -> pystr) (f : E -> V -> result V) (Q : E -> V -> V -> Prop) : forall fs d, NoDup (map name fs) ->
  (forall e, In e fs -> exists v v', dget pystr_eq_dec (name e) d = Some v /\ f e v = Ok v' /\ Q e v v') ->
  exists d', foldM (fun d e => (v <- lookup (name e) d ;; v' <- f e v ;; Ok (dset pystr_eq_dec (name e) v' d))%py) fs d = Ok d' /\ map fst d' = map fst d /\
    (forall e v, In e fs -> dget pystr_eq_dec (name e) d = Some v -> exists v', dget pystr_eq_dec (name e) d' = Some v' /\ Q e v v') /\
    (forall nm, ~ In nm (map name fs) -> dget pystr_eq_dec nm d' = dget pystr_eq_dec nm d).
Proof.
  induction fs as [|e fs IH]; intros d ND H.
  - exists d. split; [reflexivity|]. split; [reflexivity|]. split; [intros ? ? []|reflexivity].
  - inversion ND as [|? ? Ne ND']; subst. destruct (H e (or_introl eq_refl)) as (v & v' & E1 & E2 & Hq).
    cbn [foldM]. unfold lookup at 1. rewrite E1. cbn [bind]. rewrite E2. cbn [bind].
    assert (Oth : forall nm, nm <> name e -> dget pystr_eq_dec nm (dset pystr_eq_dec (name e) v' d) = dget pystr_eq_dec nm d).
    { intros nm Hn. rewrite dget_dset. destruct (pystr_eq_dec nm (name e)); [contradiction|reflexivity]. }
    destruct (IH (dset pystr_eq_dec (name e) v' d) ND') as (d' & E' & K & G & G').
    { intros e1 H1. rewrite Oth; [apply H; right; exact H1|]. intros X. apply Ne. rewrite <- X. apply in_map, H1. }
    exists d'. split; [exact E'|]. split.
    { rewrite K. apply dset_fst. rewrite E1. discriminate. }
    split.
    + intros e1 v1 [<-|H1] Hv1.
      * rewrite G' by exact Ne. rewrite dget_dset. destruct (pystr_eq_dec (name e) (name e)); [|contradiction]. exists v'. split; [reflexivity|]. congruence.
      * apply G; [exact H1|]. rewrite Oth; [exact Hv1|]. intros X. apply Ne. rewrite <- X. apply in_map, H1.
    + intros nm Hn. rewrite G' by (intros X; apply Hn; right; exact X). apply Oth. intros X. apply Hn. left. congruence.
Qed.

Section Trans.
  Variable F : fld.
  Add Field Ffield15 : (fth F).
  Local Open Scope rng_scope.
  Local Notation amps := (dict pystr (tval F)).

  Lemma corner_ok (u : arr F) N lo hi : matrix N N u -> (lo <= hi)%nat -> (hi <= N)%nat ->
    exists c, corner F u lo hi = Ok c /\ matrix (hi - lo) (hi - lo) c /\
      forall i j, (i < hi - lo)%nat -> (j < hi - lo)%nat -> el c i j = el u (lo + i)%nat (lo + j)%nat.
  Proof.
    intros [W S] H1 H2. unfold corner. rewrite S. eexists. split; [reflexivity|]. rewrite Nat.min_l by exact H2. split; [split; [apply tab_wf|reflexivity]|].
    intros i j Hi Hj. unfold el. rewrite (@aget_tab F 0) by (repeat constructor; assumption). reflexivity.
  Qed.
  Lemma corners_ok (u : arr F) no nv : matrix (no + nv) (no + nv) u ->
    exists ci ca, upper_left F no u = Ok ci /\ lower_right F no u = Ok ca /\ matrix no no ci /\ matrix nv nv ca /\
      (forall i j, (i < no)%nat -> (j < no)%nat -> el ci i j = el u i j) /\
      (forall i j, (i < nv)%nat -> (j < nv)%nat -> el ca i j = el u (no + i)%nat (no + j)%nat).
  Proof.
    intros M. destruct (@corner_ok u _ 0%nat no M) as (ci & E1 & M1 & G1); [lia|lia|].
    destruct (@corner_ok u _ no (no + nv)%nat M) as (ca & E2 & M2 & G2); [lia|lia|].
    exists ci, ca. split; [exact E1|]. split.
    { unfold lower_right, extent. destruct M as [_ S]. rewrite S. cbn [fold_right]. rewrite Nat.max_0_r, Nat.max_id. exact E2. }
    rewrite Nat.sub_0_r in M1, G1. replace (no + nv - no)%nat with nv in M2, G2 by lia. repeat split; try apply M1; try apply M2; assumption.
  Qed.

  Variable method : option nat.
  Variable path_of : list (list nat) -> list nat -> list (arr F) -> list contraction.
  Hypothesis Hpath : proper_paths path_of.

  Lemma rep_nth {A} (a d : A) n k : (k < n)%nat -> nth k (repeat a n) d = a.
  Proof. revert k. induction n as [|n IH]; intros [|k] H; try lia; cbn; [reflexivity|apply IH; lia]. Qed.
  Lemma nth_repeat_app {A} (a b d : A) n m k : (k < n + m)%nat -> nth k (repeat a n ++ repeat b m) d = if (k <? n)%nat then a else b.
  Proof.
    intros H. destruct (k <? n)%nat eqn:E.
    - apply Nat.ltb_lt in E. rewrite app_nth1 by (rewrite repeat_length; exact E). apply rep_nth, E.
    - apply Nat.ltb_ge in E. rewrite app_nth2 by (rewrite repeat_length; exact E). rewrite repeat_length. apply rep_nth. lia.
  Qed.

  Theorem transform_ok a sp rspin fs (u : arr F) given (cur : amps) :
    fermionic_cluster_ranks a rspin Wt = Ok fs -> bosonic_cluster_ranks a Wt = Ok [] -> coupling_cluster_ranks a Wt = Ok [] ->
    NoDup (map (fun e => fst (fst e)) fs) -> matrix (ncocc sp + ncvir sp) (ncocc sp + ncvir sp) u ->
    (forall name key n, In (name, key, n) fs -> (1 <= n <= 13)%nat /\
       exists x, dget pystr_eq_dec name cur = Some (VArr x) /\ wf x /\ shp x = repeat (ncocc sp) n ++ repeat (ncvir sp) n) ->
    exists d, rg_transform F method path_of a sp rspin u given cur = Ok d /\ map fst d = map fst cur /\
      (forall name key n x, In (name, key, n) fs -> dget pystr_eq_dec name cur = Some (VArr x) ->
         exists y, dget pystr_eq_dec name d = Some (VArr y) /\ rotated (orbital_rotation (ncocc sp) n u) x y) /\
      (forall name, ~ In name (map (fun e => fst (fst e)) fs) -> dget pystr_eq_dec name d = dget pystr_eq_dec name cur).
  Proof.
    intros Ef Eb Ec ND M H. unfold rg_transform.
    destruct (corners_ok _ _ M) as (ci & ca & E1 & E2 & M1 & M2 & G1 & G2). rewrite E1, E2, Ef. cbn [bind].
    set (no := ncocc sp) in *. set (nv := ncvir sp) in *.
    destruct (@fold_each entry (tval F) (fun e => fst (fst e))
      (fun e v => (x <- as_arr v ;; y <- rotate F method path_of (snd e) x (repeat ci (snd e) ++ repeat ca (snd e)) ;; Ok (VArr y))%py)
      (fun e v v' => forall x, v = VArr x -> exists y, v' = VArr y /\ rotated (orbital_rotation no (snd e) u) x y) fs cur ND) as (d & E & K & G & G').
    { intros [[name key] n] Hin. destruct (H name key n Hin) as (Hn & x & Hx & Wx & Sx). cbn [fst snd] in *.
      destruct (@rotate_ok F method path_of Hpath n x (repeat ci n ++ repeat ca n) (orbital_rotation no n u)) as (y & Ey & Ry); try lia; try exact Wx.
      - rewrite Sx, app_length, !repeat_length. lia.
      - rewrite app_length, !repeat_length. lia.
      - intros k Hk. rewrite Sx. rewrite !nth_repeat_app by lia. unfold orbital_rotation. destruct (k <? n)%nat; split; auto.
      - exists (VArr x), (VArr y). split; [exact Hx|]. cbn [as_arr bind]. rewrite Ey. split; [reflexivity|]. intros x' Ex. injection Ex as <-. exists y. split; [reflexivity|exact Ry]. }
    exists d. match goal with |- context [foldM ?f fs cur] => replace (foldM f fs cur) with (@Ok amps d) end; [|symmetry; rewrite <- E; apply foldM_ext].
    - cbn [bind]. rewrite Eb. cbn [bind]. rewrite Ec. cbn [bind]. split; [reflexivity|]. split; [exact K|]. split; [|exact G'].
      intros name key n x Hin Hx. destruct (G (name, key, n) (VArr x) Hin Hx) as (v' & Hv' & Q). destruct (Q x eq_refl) as (y & -> & R). exists y. split; assumption.
    - intros d0 [[name key] n] _. cbn [fst snd]. destruct (lookup name d0) as [v|]; [|reflexivity]. cbn [bind]. destruct (as_arr v); [|reflexivity]. cbn [bind].
      destruct (rotate F method path_of n _ _); reflexivity.
  Qed.

  (** * The identity. *)
  Lemma rprod_delta : forall l (v o : list nat), rprod (map (fun k => @delta F (nth k v 0%nat) (nth k o 0%nat)) l) = if forallb (fun k => (nth k v 0 =? nth k o 0)%nat) l then 1 else 0.
  Proof.
    induction l as [|k l IH]; intros v o; [reflexivity|]. cbn [map forallb].
    match goal with |- rprod (?a :: ?b) = _ => change (rprod (a :: b)) with (a * rprod b) end. rewrite IH. unfold delta.
    destruct (nth k v 0 =? nth k o 0)%nat, (forallb _ l); cbn [andb]; ring.
  Qed.
  Lemma rsum_pick {A} (eqb : A -> bool) (f : A -> F) (x : A) : forall l, NoDup l -> In x l -> (forall y, In y l -> eqb y = true <-> y = x) ->
    rsum (map (fun y => if eqb y then f y else 0) l) = f x.
  Proof.
    induction l as [|y l IH]; intros ND I H; [destruct I|]. inversion ND as [|? ? Ny ND']; subst. cbn [map]. rewrite rsum_cons.
    destruct I as [<-|I].
    - rewrite (proj2 (H y (or_introl eq_refl)) eq_refl). rewrite rsum_map_0; [ring|]. intros z Hz. destruct (eqb z) eqn:E; [|reflexivity].
      apply H in E; [|right; exact Hz]. subst z. contradiction.
    - destruct (eqb y) eqn:E; [apply H in E; [|left; reflexivity]; subst y; contradiction|]. rewrite IH; try assumption; [ring|]. intros z Hz. apply H. right. exact Hz.
  Qed.
  Lemma rotated_id mat (x y : arr F) : wf x -> (forall k i j, (k < length (shp x))%nat -> (i < nth k (shp x) 0)%nat -> (j < nth k (shp x) 0)%nat -> mat k i j = delta i j) ->
    rotated mat x y -> y = x.
  Proof.
    intros Wx Hm (Wy & Sy & G). apply (@arr_ext F 0); try assumption. intros o Ho. rewrite Sy in Ho. rewrite G by exact Ho.
    rewrite (@rsum_map_ext F _ _ (fun v => if forallb (fun k => (nth k v 0 =? nth k o 0)%nat) (seq 0 (length (shp x))) then aget 0 x v else 0)).
    - apply rsum_pick; [apply all_idx_nodup|apply all_idx_in, Ho|]. intros v Hv. apply all_idx_in in Hv. rewrite forallb_forall. split.
      + intros H. apply nth_ext with (d := 0%nat) (d' := 0%nat); [rewrite (inb_length Hv), (inb_length Ho); reflexivity|]. intros k Hk. apply Nat.eqb_eq, H, in_seq.
        rewrite (inb_length Hv) in Hk. lia.
      + intros -> k _. apply Nat.eqb_refl.
    - intros v Hv. apply all_idx_in in Hv. rewrite <- (map_ext_in (fun k => @delta F (nth k v 0%nat) (nth k o 0%nat))).
      + rewrite rprod_delta. destruct (forallb _ _); ring.
      + intros k Hk. apply in_seq in Hk. symmetry. apply Hm; [lia|apply inb_nth; [exact Hv|lia]|apply inb_nth; [exact Ho|lia]].
  Qed.

  Theorem transform_identity a sp rspin fs (u : arr F) given (cur : amps) :
    fermionic_cluster_ranks a rspin Wt = Ok fs -> bosonic_cluster_ranks a Wt = Ok [] -> coupling_cluster_ranks a Wt = Ok [] ->
    NoDup (map (fun e => fst (fst e)) fs) -> matrix (ncocc sp + ncvir sp) (ncocc sp + ncvir sp) u ->
    (forall i j, (i < ncocc sp + ncvir sp)%nat -> (j < ncocc sp + ncvir sp)%nat -> el u i j = delta i j) ->
    (forall name key n, In (name, key, n) fs -> (1 <= n <= 13)%nat /\
       exists x, dget pystr_eq_dec name cur = Some (VArr x) /\ wf x /\ shp x = repeat (ncocc sp) n ++ repeat (ncvir sp) n) ->
    exists d, rg_transform F method path_of a sp rspin u given cur = Ok d /\ map fst d = map fst cur /\
      forall name, dget pystr_eq_dec name d = dget pystr_eq_dec name cur.
  Proof.
    intros Ef Eb Ec ND M Hu H. destruct (@transform_ok a sp rspin fs u given cur Ef Eb Ec ND M H) as (d & E & K & G & G').
    exists d. split; [exact E|]. split; [exact K|]. intros name. destruct (in_dec pystr_eq_dec name (map (fun e => fst (fst e)) fs)) as [I|N]; [|apply G', N].
    apply in_map_iff in I as ([[nm key] n] & <- & Hin). cbn [fst snd]. destruct (H _ _ _ Hin) as (Hn & x & Hx & Wx & Sx).
    destruct (G _ _ _ _ Hin Hx) as (y & Hy & R). rewrite Hy, Hx. do 2 f_equal. eapply rotated_id; [exact Wx| |exact R].
    intros k i j Hk Hi Hj. rewrite Sx in *. rewrite app_length, !repeat_length in Hk. rewrite nth_repeat_app in Hi, Hj by exact Hk. unfold orbital_rotation.
    destruct (k <? n)%nat; rewrite Hu by lia; [reflexivity|]. unfold delta. destruct (i =? j)%nat eqn:E1, (ncocc sp + i =? ncocc sp + j)%nat eqn:E2; try reflexivity;
      apply Nat.eqb_eq in E1 || apply Nat.eqb_neq in E1; apply Nat.eqb_eq in E2 || apply Nat.eqb_neq in E2; lia.
  Qed.

  (** * Unrestricted: one block of each amplitude. *)
  Lemma by_spin_ok {A} (xa xb : A) c : spin_of c -> by_spin xa xb c = Ok (if (c =? chr_of "a")%nat then xa else xb).
  Proof. intros [->| ->]; reflexivity. Qed.

  Lemma entry_ok sa sb (ua ub : arr F) n (xs : dict pystr (arr F)) ia ib aa ab : (1 <= n <= 13)%nat ->
    matrix (ncocc sa) (ncocc sa) ia -> matrix (ncvir sa) (ncvir sa) aa -> matrix (ncocc sb) (ncocc sb) ib -> matrix (ncvir sb) (ncvir sb) ab ->
    (forall i j, (i < ncocc sa)%nat -> (j < ncocc sa)%nat -> el ia i j = el ua i j) ->
    (forall i j, (i < ncvir sa)%nat -> (j < ncvir sa)%nat -> el aa i j = el ua (ncocc sa + i)%nat (ncocc sa + j)%nat) ->
    (forall i j, (i < ncocc sb)%nat -> (j < ncocc sb)%nat -> el ib i j = el ub i j) ->
    (forall i j, (i < ncvir sb)%nat -> (j < ncvir sb)%nat -> el ab i j = el ub (ncocc sb + i)%nat (ncocc sb + j)%nat) ->
    (forall comb, In comb (generate_spin_combinations n false true) -> exists x, dget pystr_eq_dec comb xs = Some x /\ wf x /\
       shp x = spin_dims (ncocc sa) (ncvir sa) (ncocc sb) (ncvir sb) n comb) ->
    exists ys, u_transform_entry F method path_of ia ib aa ab n xs = Ok ys /\
      (forall x, dget pystr_eq_dec (last (generate_spin_combinations n false true) []) xs = Some x ->
         exists y, dget pystr_eq_dec (last (generate_spin_combinations n false true) []) ys = Some y /\
           rotated (spin_rotation (ncocc sa) (ncocc sb) n ua ub (last (generate_spin_combinations n false true) [])) x y) /\
      (forall comb, comb <> last (generate_spin_combinations n false true) [] -> dget pystr_eq_dec comb ys = dget pystr_eq_dec comb xs).
  Proof.
    intros Hn M1 M2 M3 M4 G1 G2 G3 G4 H. unfold u_transform_entry. destruct (spins_nodup n) as [_ NE]. pose proof (@spins_ok n) as SP.
    revert H NE SP. generalize (generate_spin_combinations n false true) as cs. intros cs H NE SP.
    destruct (exists_last NE) as (cs0 & comb & Ecs). rewrite Ecs, last_last.
    assert (El : exists l0 x, mapM (fun c => match dget pystr_eq_dec c xs with Some x => Ok (c, x) | None => Err AttributeError end) (cs0 ++ [comb]) = Ok (l0 ++ [(comb, x)]) /\ dget pystr_eq_dec comb xs = Some x).
    { destruct (H comb) as (x & Hx & _); [rewrite Ecs; apply in_or_app; right; left; reflexivity|].
      assert (H0 : forall c, In c cs0 -> exists y, dget pystr_eq_dec c xs = Some y).
      { intros c Hc. destruct (H c) as (y & Hy & _); [rewrite Ecs; apply in_or_app; left; exact Hc|]. exists y. exact Hy. }
      clear Ecs. induction cs0 as [|c l IH].
      - exists [], x. cbn. rewrite Hx. split; reflexivity.
      - destruct IH as (l0 & x' & E & Hx'); [intros c' Hc'; apply H0; right; exact Hc'|]. destruct (H0 c (or_introl eq_refl)) as (y & Hy).
        exists ((c, y) :: l0), x'. cbn [app mapM]. rewrite Hy. cbn [bind]. rewrite E. split; [reflexivity|exact Hx']. }
    destruct El as (l0 & x & El & Hx). rewrite El. cbn [bind]. rewrite rev_app_distr. cbn [rev app].
    destruct (H comb) as (x' & Hx' & Wx & Sx); [rewrite Ecs; apply in_or_app; right; left; reflexivity|]. rewrite Hx in Hx'. injection Hx' as <-.
    destruct (SP comb) as [Lc Cc]; [rewrite Ecs; apply in_or_app; right; left; reflexivity|].
    assert (Hs : forall k, (k < n * 2)%nat -> spin_of (nth k comb 0%nat)) by (intros k Hk; apply Cc, nth_In; rewrite Lc; lia).
    rewrite (mapM_ok _ (fun i => if (nth i comb 0 =? chr_of "a")%nat then ia else ib)) by (intros k Hk; apply in_seq in Hk; apply by_spin_ok, Hs; lia). cbn [bind].
    rewrite (mapM_ok _ (fun i => if (nth (i + n) comb 0 =? chr_of "a")%nat then aa else ab)) by (intros k Hk; apply in_seq in Hk; apply by_spin_ok, Hs; lia). cbn [bind].
    set (mats := map _ (seq 0 n) ++ map _ (seq 0 n)).
    assert (Nm : forall k, (k < n * 2)%nat -> nth k mats (full [] 0) = if (nth k comb 0 =? chr_of "a")%nat then (if (k <? n)%nat then ia else aa) else (if (k <? n)%nat then ib else ab)).
    { intros k Hk. unfold mats. destruct (k <? n)%nat eqn:E.
      - apply Nat.ltb_lt in E. rewrite app_nth1 by (rewrite map_length, seq_length; exact E). rewrite nth_map_seq by exact E. reflexivity.
      - apply Nat.ltb_ge in E. rewrite app_nth2 by (rewrite map_length, seq_length; exact E). rewrite map_length, seq_length. rewrite nth_map_seq by lia.
        replace (k - n + n)%nat with k by lia. reflexivity. }
    destruct (@rotate_ok F method path_of Hpath n x mats (spin_rotation (ncocc sa) (ncocc sb) n ua ub comb)) as (y & Ey & Ry); try lia; try exact Wx.
    - rewrite Sx. unfold spin_dims. rewrite map_length, seq_length. reflexivity.
    - unfold mats. rewrite app_length, !map_length, !seq_length. lia.
    - intros k Hk. rewrite Nm by exact Hk. rewrite Sx. unfold spin_dims. rewrite nth_map_seq by exact Hk. unfold spin_rotation, orbital_rotation.
      destruct (nth k comb 0 =? chr_of "a")%nat, (k <? n)%nat; split; auto.
    - rewrite Ey. cbn [bind]. exists (dset pystr_eq_dec comb y xs). split; [reflexivity|]. split.
      + intros x' Ex'. rewrite Hx in Ex'. injection Ex' as <-. exists y. rewrite dget_dset. destruct (pystr_eq_dec comb comb); [split; [reflexivity|exact Ry]|contradiction].
      + intros c Hc. rewrite dget_dset. destruct (pystr_eq_dec c comb); [contradiction|reflexivity].
  Qed.

  Theorem u_transform_ok a sa sb fs (ua ub : arr F) given (cur : amps) :
    fermionic_cluster_ranks a false Wt = Ok fs -> bosonic_cluster_ranks a Wt = Ok [] -> coupling_cluster_ranks a Wt = Ok [] ->
    NoDup (map (fun e => fst (fst e)) fs) -> matrix (ncocc sa + ncvir sa) (ncocc sa + ncvir sa) ua -> matrix (ncocc sb + ncvir sb) (ncocc sb + ncvir sb) ub ->
    (forall name key n, In (name, key, n) fs -> (1 <= n <= 13)%nat /\ exists xs, dget pystr_eq_dec name cur = Some (VSpin xs) /\
       forall comb, In comb (generate_spin_combinations n false true) -> exists x, dget pystr_eq_dec comb xs = Some x /\ wf x /\
         shp x = spin_dims (ncocc sa) (ncvir sa) (ncocc sb) (ncvir sb) n comb) ->
    exists d, u_transform F method path_of a sa sb ua ub given cur = Ok d /\ map fst d = map fst cur /\
      (forall name key n xs, In (name, key, n) fs -> dget pystr_eq_dec name cur = Some (VSpin xs) ->
         exists ys, dget pystr_eq_dec name d = Some (VSpin ys) /\ forall comb,
           if pystr_eq_dec comb (last (generate_spin_combinations n false true) [])
           then forall x, dget pystr_eq_dec comb xs = Some x -> exists y, dget pystr_eq_dec comb ys = Some y /\ rotated (spin_rotation (ncocc sa) (ncocc sb) n ua ub comb) x y
           else dget pystr_eq_dec comb ys = dget pystr_eq_dec comb xs) /\
      (forall name, ~ In name (map (fun e => fst (fst e)) fs) -> dget pystr_eq_dec name d = dget pystr_eq_dec name cur).
  Proof.
    intros Ef Eb Ec ND Ma Mb H. unfold u_transform.
    destruct (corners_ok _ _ Ma) as (ia & aa & A1 & A2 & A3 & A4 & A5 & A6). destruct (corners_ok _ _ Mb) as (ib & ab & B1 & B2 & B3 & B4 & B5 & B6).
    rewrite A1, B1, A2, B2, Ef. cbn [bind].
    destruct (@fold_each entry (tval F) (fun e => fst (fst e))
      (fun e v => (x <- as_spin v ;; y <- u_transform_entry F method path_of ia ib aa ab (snd e) x ;; Ok (VSpin y))%py)
      (fun e v v' => forall xs, v = VSpin xs -> exists ys, v' = VSpin ys /\ forall comb,
           if pystr_eq_dec comb (last (generate_spin_combinations (snd e) false true) [])
           then forall x, dget pystr_eq_dec comb xs = Some x -> exists y, dget pystr_eq_dec comb ys = Some y /\ rotated (spin_rotation (ncocc sa) (ncocc sb) (snd e) ua ub comb) x y
           else dget pystr_eq_dec comb ys = dget pystr_eq_dec comb xs) fs cur ND) as (d & E & K & G & G').
    { intros [[name key] n] Hin. destruct (H name key n Hin) as (Hn & xs & Hx & Hc). cbn [fst snd] in *.
      destruct (@entry_ok sa sb ua ub n xs ia ib aa ab) as (ys & Ey & R1 & R2); try assumption.
      exists (VSpin xs), (VSpin ys). split; [exact Hx|]. cbn [as_spin bind]. rewrite Ey. split; [reflexivity|]. intros xs' Ex. injection Ex as <-. exists ys. split; [reflexivity|].
      intros comb. destruct (pystr_eq_dec comb (last (generate_spin_combinations n false true) [])) as [->|Nc]; [exact R1|apply R2, Nc]. }
    exists d. match goal with |- context [foldM ?f fs cur] => replace (foldM f fs cur) with (@Ok amps d) end; [|symmetry; rewrite <- E; apply foldM_ext].
    - cbn [bind]. rewrite Eb. cbn [bind]. rewrite Ec. cbn [bind]. split; [reflexivity|]. split; [exact K|]. split; [|exact G'].
      intros name key n xs Hin Hx. destruct (G (name, key, n) (VSpin xs) Hin Hx) as (v' & Hv' & Q). destruct (Q xs eq_refl) as (ys & -> & R). exists ys. split; assumption.
    - intros d0 [[name key] n] _. cbn [fst snd]. destruct (lookup name d0) as [v|]; [|reflexivity]. cbn [bind]. destruct (as_spin v); [|reflexivity]. cbn [bind].
      destruct (u_transform_entry F method path_of ia ib aa ab n _); reflexivity.
  Qed.

  (** Bosonic amplitudes are refused, with every spin type. *)
  Theorem transform_bosons a sp sa sb rspin (u ua ub : arr F) given (cur : amps) bs cs :
    bosonic_cluster_ranks a Wt = Ok bs -> coupling_cluster_ranks a Wt = Ok cs -> bs <> [] \/ cs <> [] ->
    (forall d, rg_transform F method path_of a sp rspin u given cur <> Ok d) /\ (forall d, u_transform F method path_of a sa sb ua ub given cur <> Ok d).
  Proof.
    intros Eb Ec H. assert (G : forall d : amps, (bs' <- bosonic_cluster_ranks a Wt ;; match bs' with _ :: _ => Err ModelNotImplemented | [] =>
      cs' <- coupling_cluster_ranks a Wt ;; match cs' with _ :: _ => Err ModelNotImplemented | [] => Ok d end end)%py = Err ModelNotImplemented).
    { intros d. rewrite Eb. cbn [bind]. destruct bs; [|reflexivity]. rewrite Ec. cbn [bind]. destruct cs; [destruct H; congruence|reflexivity]. }
    split; intros d X.
    - unfold rg_transform in X. apply bind_ok in X as (ci & _ & X). apply bind_ok in X as (ca & _ & X). apply bind_ok in X as (fs & _ & X). apply bind_ok in X as (d0 & _ & X).
      rewrite G in X. discriminate.
    - unfold u_transform in X. do 6 (let y := fresh in apply bind_ok in X as (y & _ & X)). rewrite G in X. discriminate.
  Qed.
End Trans.
