(** Concrete calculations which meet the hypotheses of the theorems about the coupled cluster methods. *)
From Coq Require Import String QArith_base.
From Coq Require Qcanon.
From Verif Require Import Base ListAux Alg ArrModel ArrProofs PermModel TensorModel TensorSpec EinsumModel SpaceModel AnsatzModel AnsatzRanks VecModel VecSpec VecProofs VecThms
  CcModel CcSpec CcThms CcUThms.
Local Open Scope string_scope.
Local Open Scope list_scope.
Local Open Scope nat_scope.

Definition q (z : Z) : Qc_fld := Qcanon.Q2Qc (inject_Z z).
Definition qs (l : list Z) : list Qc_fld := map q l.
Definition ex_space := mkspace [true; true; false] [false; false; false] [false; false; false].
Definition ex_ansatz := mka (str "CCSD") (str "S") 1 1 false.
Definition ex_fock (key : pystr) : result (arr Qc_fld) :=
  if streqb key (str "oo") then Ok (mkarr [2; 2] (qs [-3; 1; 1; -2]%Z))
  else if streqb key (str "vv") then Ok (mkarr [1; 1] (qs [5]%Z))
  else if streqb key (str "ov") then Ok (mkarr [2; 1] (qs [1; -1]%Z)) else Err KeyError.
Definition ex_eris (key : pystr) : result (arr Qc_fld) :=
  if streqb key (str "ovov") then Ok (mkarr [2; 1; 2; 1] (qs [4; 1; 1; 3]%Z))
  else if streqb key (str "oovv") then Ok (mkarr [2; 2; 1; 1] (qs [0; 2; -2; 0]%Z)) else Err KeyError.
Definition ex_g (key : pystr) : result (arr Qc_fld) :=
  if streqb key (str "bov") then Ok (mkarr [2; 2; 1] (qs [1; 2; 3; 4]%Z))
  else if streqb key (str "boo") then Ok (mkarr [2; 2; 2] (qs [1; 2; 3; 4; 5; 6; 7; 8]%Z)) else Err KeyError.
Definition ex_cc : cc Qc_fld :=
  mkcc Qc_fld ex_ansatz ex_space ex_fock ex_eris (Some ex_g) (Some (mkarr [2] (qs [7; 1]%Z))) (Some (mkarr [2] (qs [3; 4]%Z))) None true.
Definition ex_l : list (pystr * pystr) := [(str "t1", str "ov"); (str "t2", str "oovv"); (str "s1", str "b"); (str "u11", str "bov")].
Definition ex_sz (k : nat) : nat := if k =? chr_of "v" then 1 else 2.
Definition ex_eps (k i : nat) : Qc_fld :=
  if k =? chr_of "b" then aget r0 (mkarr [2] (qs [3; 4]%Z)) [i]
  else match ex_fock [k; k] with Ok f => aget r0 f [i; i] | Err _ => r0 end.
Definition ex_data (suffix : pystr) (k : Z) : dict pystr (tval Qc_fld) :=
  [(str "t1" ++ suffix, VArr (mkarr [2; 1] (qs [1; k]%Z))); (str "t2" ++ suffix, VArr (mkarr [2; 2; 1; 1] (qs [1; 2; 2; k]%Z)));
   (str "s1" ++ suffix, VArr (mkarr [2] (qs [3; k]%Z))); (str "u11" ++ suffix, VArr (mkarr [2; 2; 1] (qs [3; k; 1; 2]%Z)))].

Lemma ex_clusters : clusters ex_ansatz true Wt ex_l.
Proof. eexists _, _, _. split; [vm_compute; reflexivity|]. split; [vm_compute; reflexivity|]. split; vm_compute; reflexivity. Qed.
Lemma ex_holds suffix k : suffix = [] \/ suffix = str "new" -> holds_blocks suffix ex_l ex_sz (ex_data suffix k).
Proof.
  intros Hs. split; [|split].
  - unfold ex_data. cbn [map fst]. destruct Hs as [-> | ->]; repeat constructor; vm_compute; intuition discriminate.
  - intros nm H. apply dget_key in H. cbn [ex_data map fst] in H. unfold ex_l.
    destruct H as [<-|[<-|[<-|[<-|[]]]]]; eexists _, _; (split; [|reflexivity]); cbn [In]; eauto.
  - intros name key H. unfold ex_l in H. cbn [In] in H.
    destruct H as [E|[E|[E|[E|[]]]]]; apply pair_equal_spec in E; destruct E as [<- <-]; destruct Hs as [-> | ->]; (eexists; split; [vm_compute; reflexivity|]; split; vm_compute; reflexivity).
Qed.
Lemma ex_energies : energies_known (cc_omega ex_cc) (cc_fock ex_cc) ex_l ex_sz ex_eps.
Proof.
  intros name key k H Hk. assert (C : k = chr_of "o" \/ k = chr_of "v" \/ k = chr_of "b").
  { unfold ex_l in H. cbn [In] in H. destruct H as [E|[E|[E|[E|[]]]]]; apply pair_equal_spec in E; destruct E as [<- <-]; vm_compute in Hk; vm_compute; intuition congruence. }
  destruct C as [-> | [-> | ->]]; (split; [vm_compute; tauto|]).
  - eexists. split; [vm_compute; reflexivity|]. split; [reflexivity|]. split; [reflexivity|]. intros i; reflexivity.
  - eexists. split; [vm_compute; reflexivity|]. split; [reflexivity|]. split; [reflexivity|]. intros i; reflexivity.
  - eexists. split; [vm_compute; reflexivity|]. split; [reflexivity|]. split; [reflexivity|]. intros i; reflexivity.
Qed.
Lemma ex_denominators name key idx : In (name, key) ex_l -> inb (map ex_sz key) idx -> denominator ex_sz ex_eps key idx <> r0.
Proof.
  intros H Hi.
  assert (C : forallb (fun nk => forallb (fun idx => negb (Qeq_bool (Qcanon.this (denominator ex_sz ex_eps (snd nk) idx)) 0)) (all_idx (map ex_sz (snd nk)))) ex_l = true)
    by (vm_compute; reflexivity).
  rewrite forallb_forall in C. specialize (C _ H). rewrite forallb_forall in C. specialize (C idx (proj2 (all_idx_in _ _) Hi)). cbn [snd] in C.
  intros E. rewrite E in C. discriminate.
Qed.

(** Unrestricted. *)
Definition qeqb (x y : Qc_fld) : bool := Qeq_bool (Qcanon.this x) (Qcanon.this y).
Lemma qeqb_eq x y : qeqb x y = true -> x = y.
Proof. intros H. apply Qcanon.Qc_is_canon. apply Qeq_bool_iff, H. Qed.
Fixpoint qeql (a b : list Qc_fld) : bool :=
  match a, b with [], [] => true | x :: a, y :: b => qeqb x y && qeql a b | _, _ => false end.
Definition qcheck (r : result (arr Qc_fld)) (x : arr Qc_fld) : bool :=
  match r with Ok y => (if list_eq_dec Nat.eq_dec (shp y) (shp x) then true else false) && qeql (dat y) (dat x) | Err _ => false end.
Lemma qcheck_ok r x : qcheck r x = true -> r = Ok x.
Proof.
  destruct r as [[sy dy]|]; [|discriminate]. destruct x as [sx dx]. cbn [qcheck shp dat]. destruct (list_eq_dec Nat.eq_dec sy sx) as [->|]; [|discriminate]. cbn [andb]. intros H.
  assert (E : dy = dx); [|rewrite E; reflexivity]. revert dx H. induction dy as [|a dy IH]; intros [|b dx] H; try discriminate; [reflexivity|].
  cbn [qeql] in H. apply andb_true_iff in H. destruct H as [H1 H2]. rewrite (qeqb_eq _ _ H1), (IH _ H2). reflexivity.
Qed.
Definition antisym_check (key spins : pystr) (x : arr Qc_fld) : bool :=
  forallb (fun v => qeqb v r0) (dat x) ||
  let pairs := filter (fun ij => negb (snd ij <=? fst ij) && (nth (fst ij) key 0 =? nth (snd ij) key 0) && (nth (fst ij) spins 0 =? nth (snd ij) spins 0))
    (list_prod (seq 0 (length key)) (seq 0 (length key))) in
  forallb (fun idx => let v := ropp (aget r0 x idx) in forallb (fun ij => qeqb (aget r0 x (exchange (fst ij) (snd ij) idx)) v) pairs) (all_idx (shp x)).
Lemma all_zero_aget (x : arr Qc_fld) idx : forallb (fun v => qeqb v r0) (dat x) = true -> aget r0 x idx = r0.
Proof.
  intros H. unfold aget. destruct (nth_in_or_default (ravel (shp x) idx) (dat x) r0) as [I|E]; [|exact E]. rewrite forallb_forall in H. apply qeqb_eq, (H _ I).
Qed.
Lemma exchange_commutes i j l : exchange i j l = exchange j i l.
Proof.
  unfold exchange. apply map_ext. intros k. destruct (Nat.eqb_spec k i), (Nat.eqb_spec k j); subst; reflexivity.
Qed.
Lemma antisym_check_ok key spins x : antisym_check key spins x = true -> spin_antisymmetric key spins x.
Proof.
  unfold antisym_check. intros H. apply orb_true_iff in H. destruct H as [Z|H].
  { intros idx i j _ _ _ _ _ _. rewrite !(all_zero_aget _ _ Z). apply qeqb_eq. reflexivity. }
  cbv zeta in H. assert (G : forall idx i j, inb (shp x) idx -> j < length key -> i < j -> nth i key 0 = nth j key 0 -> nth i spins 0 = nth j spins 0 -> aget r0 x (exchange i j idx) = ropp (aget r0 x idx)).
  { intros idx i j Hi Lj Hij Ek Es. rewrite forallb_forall in H. specialize (H idx (proj2 (all_idx_in _ _) Hi)).
    rewrite forallb_forall in H. specialize (H (i, j)). cbn [fst snd] in H. apply qeqb_eq, H. apply filter_In. split.
    - apply in_prod; apply in_seq; split; [apply Nat.le_0_l|exact (Nat.lt_trans _ _ _ Hij Lj)|apply Nat.le_0_l|exact Lj].
    - cbn [fst snd]. rewrite Ek, Es, !Nat.eqb_refl, (proj2 (Nat.leb_gt j i) Hij). reflexivity. }
  intros idx i j Hi Li Lj Hij Ek Es. destruct (Nat.lt_total i j) as [L|[L|L]]; [apply G; assumption|contradiction|]. rewrite exchange_commutes. apply G; auto.
Qed.
(** A namespace holding these blocks, checked by computation. *)
Definition block_check (suffix : pystr) (sz : nat -> nat -> nat) (d : dict pystr (tval Qc_fld)) (b : ublock) : bool :=
  let '(name, key, stored, spins) := b in
  match block_of d (name ++ suffix) stored with
  | Some x => if list_eq_dec Nat.eq_dec (shp x) (spin_shape_of sz key spins) then length (dat x) =? prodn (shp x) else false
  | None => false
  end.
Lemma u_holds_check suffix l sz d :
  (if list_eq_dec pystr_eq_dec (nodup pystr_eq_dec (map fst d)) (map fst d) then true else false) &&
  forallb (fun nm => existsb (fun b : ublock => streqb nm (fst (fst (fst b)) ++ suffix)) l) (map fst d) && forallb (block_check suffix sz d) l = true ->
  u_holds suffix l sz d.
Proof.
  rewrite !andb_true_iff. intros ((H1 & H2) & H3). split; [|split].
  - destruct (list_eq_dec pystr_eq_dec (nodup pystr_eq_dec (map fst d)) (map fst d)) as [E|]; [|discriminate]. rewrite <- E. apply NoDup_nodup.
  - intros nm H. apply dget_key in H. rewrite forallb_forall in H2. specialize (H2 nm H). apply existsb_exists in H2. destruct H2 as (b & I & E). exists b. split; [exact I|]. unfold streqb in E. destruct (pystr_eq_dec nm (fst (fst (fst b)) ++ suffix)); [assumption|discriminate].
  - intros name key stored spins H. rewrite forallb_forall in H3. specialize (H3 _ H). unfold block_check in H3. destruct (block_of d (name ++ suffix) stored) as [x|]; [|discriminate].
    exists x. split; [reflexivity|]. destruct (list_eq_dec Nat.eq_dec (shp x) (spin_shape_of sz key spins)) as [E|]; [|discriminate]. split; [apply Nat.eqb_eq, H3|exact E].
Qed.
Lemma u_antisym_check suffix l d : forallb (fun b : ublock => let '(name, key, stored, spins) := b in match block_of d (name ++ suffix) stored with Some x => antisym_check key spins x | None => true end) l = true ->
  u_antisymmetric suffix l d.
Proof.
  rewrite forallb_forall. intros H name key stored spins x Hin E. specialize (H _ Hin). cbv beta iota in H. rewrite E in H. apply antisym_check_ok, H.
Qed.

(** CCSD-S-1-1 with two occupied and two virtual alpha orbitals, one of each for beta, and one mode. *)
Definition exu_sz (k s : nat) : nat := if s =? chr_of "a" then 2 else 1.
Definition exu_fock (spins key : pystr) : result (arr Qc_fld) :=
  if streqb spins (str "aa") then
    if streqb key (str "oo") then Ok (mkarr [2; 2] (qs [-3; 1; 1; -2]%Z))
    else if streqb key (str "vv") then Ok (mkarr [2; 2] (qs [5; 0; 0; 6]%Z)) else Err KeyError
  else if streqb spins (str "bb") then
    if streqb key (str "oo") then Ok (mkarr [1; 1] (qs [-1]%Z))
    else if streqb key (str "vv") then Ok (mkarr [1; 1] (qs [7]%Z)) else Err KeyError
  else Err KeyError.
Definition exu_omega : arr Qc_fld := mkarr [1] (qs [3]%Z).
Definition exu : ucc Qc_fld :=
  mkucc Qc_fld ex_ansatz (mkspace [true; true; false; false] [false; false; false; false] [false; false; false; false])
        (mkspace [true; false; false; false] [false; true; true; false] [false; false; false; false])
        exu_fock (fun _ _ => Err KeyError) None None (Some exu_omega) None false.
Definition exu_eps (k s i : nat) : Qc_fld :=
  if k =? chr_of "b" then aget r0 exu_omega [i] else match exu_fock [s; s] [k; k] with Ok f => aget r0 f [i; i] | Err _ => r0 end.
Definition exu_fs : list entry := [(str "t1", str "ov", 1); (str "t2", str "oovv", 2)].
Definition exu_bs : list entry := [(str "s1", str "b", 1)].
Definition exu_cs : list (pystr * pystr * nat * nat) := [(str "u11", str "bov", 1, 1)].
Definition exu_l := fermionic_blocks exu_fs ++ bosonic_blocks exu_bs ++ coupling_blocks exu_cs.
Definition exu_data (suffix : pystr) (k : Z) : dict pystr (tval Qc_fld) :=
  [(str "t1" ++ suffix, VSpin [(str "aa", mkarr [2; 2] (qs [1; k; 2; 3]%Z)); (str "bb", mkarr [1; 1] (qs [k]%Z))]);
   (str "t2" ++ suffix, VSpin [(str "aaaa", mkarr [2; 2; 2; 2] (qs [0; 0; 0; 0; 0; k; - k; 0; 0; - k; k; 0; 0; 0; 0; 0]%Z));
                               (str "abab", mkarr [2; 1; 2; 1] (qs [1; k; 3; 4]%Z)); (str "bbbb", mkarr [1; 1; 1; 1] (qs [0]%Z))]);
   (str "s1" ++ suffix, VArr (mkarr [1] (qs [k]%Z)));
   (str "u11" ++ suffix, VSpin [(str "aa", mkarr [1; 2; 2] (qs [1; k; 2; 3]%Z)); (str "bb", mkarr [1; 1; 1] (qs [k]%Z))])].
Lemma exu_ranks : fermionic_cluster_ranks ex_ansatz false Wt = Ok exu_fs /\ bosonic_cluster_ranks ex_ansatz Wt = Ok exu_bs /\ coupling_cluster_ranks ex_ansatz Wt = Ok exu_cs.
Proof. repeat split; vm_compute; reflexivity. Qed.
Lemma u_energies_check omega fock l sz (eps : nat -> nat -> nat -> Qc_fld) :
  forallb (fun b : ublock => let '(_, key, _, spins) := b in forallb (fun ks =>
     memb (fst ks) (str "oOivVab") &&
     (if fst ks =? chr_of "b" then match omega with Some w => (length (dat w) =? prodn (shp w)) && (if list_eq_dec Nat.eq_dec (shp w) [sz (fst ks) (snd ks)] then true else false) | None => false end
      else match fock [snd ks; snd ks] [fst ks; fst ks] with
           | Ok f => (length (dat f) =? prodn (shp f)) && (if list_eq_dec Nat.eq_dec (shp f) [sz (fst ks) (snd ks); sz (fst ks) (snd ks)] then true else false) | Err _ => false end)) (combine key spins)) l = true ->
  (forall k s i, eps k s i = if k =? chr_of "b" then match omega with Some w => aget r0 w [i] | None => r0 end else match fock [s; s] [k; k] with Ok f => aget r0 f [i; i] | Err _ => r0 end) ->
  u_energies_known omega fock l sz eps.
Proof.
  rewrite forallb_forall. intros H HE name key stored spins k s Hin Hk. specialize (H _ Hin). cbv beta iota in H. rewrite forallb_forall in H. specialize (H _ Hk). cbn [fst snd] in H.
  apply andb_true_iff in H. destruct H as [H1 H2]. split; [apply memb_in, H1|]. unfold class_energies. specialize (HE k s). destruct (k =? chr_of "b").
  - destruct omega as [w|]; [|discriminate]. apply andb_true_iff in H2. destruct H2 as [A B]. destruct (list_eq_dec Nat.eq_dec (shp w) [sz k s]) as [E|]; [|discriminate].
    exists w. split; [reflexivity|]. split; [apply Nat.eqb_eq, A|]. split; [exact E|exact HE].
  - destruct (fock [s; s] [k; k]) as [f|] eqn:Ef; [|discriminate]. apply andb_true_iff in H2. destruct H2 as [A B]. destruct (list_eq_dec Nat.eq_dec (shp f) [sz k s; sz k s]) as [E|]; [|discriminate].
    exists f. split; [reflexivity|]. split; [apply Nat.eqb_eq, A|]. split; [exact E|exact HE].
Qed.
Lemma exu_holds suffix k : suffix = [] \/ suffix = str "new" -> k = 4%Z \/ k = 0%Z ->
  u_holds suffix exu_l exu_sz (exu_data suffix k) /\ u_antisymmetric suffix (fermionic_blocks exu_fs) (exu_data suffix k).
Proof. intros [-> | ->] [-> | ->]; (split; [apply u_holds_check|apply u_antisym_check]; vm_compute; reflexivity). Qed.
Lemma exu_energies : u_energies_known (Some exu_omega) exu_fock exu_l exu_sz exu_eps.
Proof. apply u_energies_check; [vm_compute; reflexivity|reflexivity]. Qed.
Lemma exu_denominators name key stored spins idx : In (name, key, stored, spins) exu_l -> inb (spin_shape_of exu_sz key spins) idx -> u_denominator exu_sz exu_eps key spins idx <> r0.
Proof.
  intros H Hi.
  assert (C : forallb (fun b : ublock => let '(_, key, _, spins) := b in forallb (fun idx => negb (Qeq_bool (Qcanon.this (u_denominator exu_sz exu_eps key spins idx)) 0)) (all_idx (spin_shape_of exu_sz key spins))) exu_l = true)
    by (vm_compute; reflexivity).
  rewrite forallb_forall in C. specialize (C _ H). cbv beta iota in C. rewrite forallb_forall in C. specialize (C idx (proj2 (all_idx_in _ _) Hi)).
  intros E. rewrite E in C. discriminate.
Qed.

(** Triples with three alpha electrons and no beta electrons: one antisymmetric tensor, residual zero. *)
Definition ex3_ansatz := mka (str "CCT") [] 0 0 false.
Definition ex3_sz (k s : nat) : nat := if s =? chr_of "a" then 3 else 0.
Definition ex3_fock (spins key : pystr) : result (arr Qc_fld) :=
  let n := if streqb spins (str "aa") then 3 else 0 in
  let e := if streqb key (str "oo") then (-1)%Z else 1%Z in
  Ok (full [n; n] (q e)).
Definition ex3 : ucc Qc_fld :=
  mkucc Qc_fld ex3_ansatz (mkspace [true; true; true; false; false; false] (repeat false 6) (repeat false 6))
        (mkspace (repeat false 6) (repeat true 6) (repeat false 6)) ex3_fock (fun _ _ => Err KeyError) None None None None false.
Definition ex3_eps (k s i : nat) : Qc_fld :=
  if k =? chr_of "b" then r0 else match ex3_fock [s; s] [k; k] with Ok f => aget r0 f [i; i] | Err _ => r0 end.
Definition ex3_fs : list entry := [(str "t3", str "ooovvv", 3)].
Definition parity (i j k : nat) : Z :=
  match i, j, k with 0, 1, 2 | 1, 2, 0 | 2, 0, 1 => 1%Z | 0, 2, 1 | 2, 1, 0 | 1, 0, 2 => (-1)%Z | _, _, _ => 0%Z end.
Definition ex3_data (suffix : pystr) (zero : bool) : dict pystr (tval Qc_fld) :=
  [(str "t3" ++ suffix, VSpin (map (fun comb => (comb, tab (spin_shape_of ex3_sz (str "ooovvv") comb)
      (fun idx => if zero then r0 else match idx with [i; j; k; a; b; c] => q (parity i j k * parity a b c) | _ => r0 end)))
      (generate_spin_combinations 3 false true)))].
Definition ex3_suffix (zero : bool) : pystr := if zero then str "new" else [].
Lemma ex3_holds zero :
  u_holds (ex3_suffix zero) (fermionic_blocks ex3_fs) ex3_sz (ex3_data (ex3_suffix zero) zero) /\ u_antisymmetric (ex3_suffix zero) (fermionic_blocks ex3_fs) (ex3_data (ex3_suffix zero) zero).
Proof. destruct zero; (split; [apply u_holds_check|apply u_antisym_check]; vm_compute; reflexivity). Qed.
Lemma ex3_energies : u_energies_known None ex3_fock (fermionic_blocks ex3_fs) ex3_sz ex3_eps.
Proof. apply u_energies_check; [vm_compute; reflexivity|reflexivity]. Qed.
Lemma ex3_denominators name key stored spins idx : In (name, key, stored, spins) (fermionic_blocks ex3_fs) -> inb (spin_shape_of ex3_sz key spins) idx -> u_denominator ex3_sz ex3_eps key spins idx <> r0.
Proof.
  intros H Hi.
  assert (C : forallb (fun b : ublock => let '(_, key, _, spins) := b in forallb (fun idx => negb (Qeq_bool (Qcanon.this (u_denominator ex3_sz ex3_eps key spins idx)) 0)) (all_idx (spin_shape_of ex3_sz key spins))) (fermionic_blocks ex3_fs) = true)
    by (vm_compute; reflexivity).
  rewrite forallb_forall in C. specialize (C _ H). cbv beta iota in C. rewrite forallb_forall in C. specialize (C idx (proj2 (all_idx_in _ _) Hi)).
  intros E. rewrite E in C. discriminate.
Qed.

Lemma triples_scaled : exists (c : ucc Qc_fld) sz (eps : nat -> nat -> nat -> Qc_fld) old res fs out idx,
  fermionic_cluster_ranks (u_ansatz c) false Wt = Ok fs /\ u_holds [] (fermionic_blocks fs) sz old /\ u_antisymmetric [] (fermionic_blocks fs) old /\
  (forall name key stored spins idx, In (name, key, stored, spins) (fermionic_blocks fs) -> inb (spin_shape_of sz key spins) idx ->
     u_denominator sz eps key spins idx <> r0) /\
  (forall name key stored spins idx, In (name, key, stored, spins) (fermionic_blocks fs) -> inb (spin_shape_of sz key spins) idx ->
     u_block_at res (name ++ str "new") stored idx = r0) /\
  u_update c Wt old res = Ok out /\
  u_block_at old (str "t3") (Some (str "aaaaaa")) idx = q 1 /\
  u_block_at out (str "t3") (Some (str "aaaaaa")) idx = fdiv (q 9) (q 4).
Proof.
  destruct (ex3_holds false) as [HO AO]. destruct (ex3_holds true) as [HR AR]. cbn [ex3_suffix] in *.
  assert (L : fermionic_blocks ex3_fs ++ bosonic_blocks [] ++ coupling_blocks [] = fermionic_blocks ex3_fs) by (unfold bosonic_blocks, coupling_blocks; cbn [map flat_map app]; apply app_nil_r).
  destruct (@u_jacobi Qc_fld ex3 Wt ex3_sz ex3_eps (ex3_data [] false) (ex3_data (str "new") true) ex3_fs [] []) as (out & Eo & _ & _ & G & _); try rewrite L; try assumption.
  - left; reflexivity.
  - apply Nat.le_0_l.
  - split; intros l E; vm_compute in E; apply Ok_inj in E; subst l; vm_compute; repeat constructor; intuition discriminate.
  - vm_compute; reflexivity.
  - vm_compute; reflexivity.
  - vm_compute; reflexivity.
  - assert (A : forallb (fun b : ublock => length (snd (fst (fst b))) <=? 26) (fermionic_blocks ex3_fs) = true) by (vm_compute; reflexivity). rewrite forallb_forall in A.
    intros name key stored spins H. apply Nat.leb_le. exact (A _ H).
  - exact ex3_energies.
  - exists ex3, ex3_sz, ex3_eps, (ex3_data [] false), (ex3_data (str "new") true), ex3_fs, out, [0; 1; 2; 0; 1; 2].
    split; [vm_compute; reflexivity|]. split; [exact HO|]. split; [exact AO|]. split; [exact ex3_denominators|]. split; [|split; [exact Eo|split; [vm_compute; reflexivity|]]].
    + intros name key stored spins idx H Hi.
      assert (A : forallb (fun b : ublock => let '(name, key, stored, spins) := b in match block_of (ex3_data (str "new") true) (name ++ str "new") stored with Some x => forallb (fun v => qeqb v r0) (dat x) | None => true end) (fermionic_blocks ex3_fs) = true)
        by (vm_compute; reflexivity).
      rewrite forallb_forall in A. specialize (A _ H). cbv beta iota in A. unfold u_block_at.
      destruct (block_of (ex3_data (str "new") true) (name ++ str "new") stored) as [x|]; [apply all_zero_aget, A|reflexivity].
    + rewrite (G (str "t3") (str "ooovvv") (Some (str "aaaaaa")) (str "aaaaaa")).
      * apply qeqb_eq. vm_compute. reflexivity.
      * vm_compute. tauto.
      * vm_compute. repeat constructor.
Qed.
