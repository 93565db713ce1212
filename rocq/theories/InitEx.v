(** Concrete calculations for the theorems about starting amplitudes and lambdas. *)
From Coq Require Import String QArith_base.
From Coq Require Qcanon.
From Verif Require Import Base ListAux Alg ArrModel ArrProofs PermModel TensorModel TensorSpec EinsumModel SpaceModel AnsatzModel AnsatzRanks VecModel VecSpec VecProofs VecThms
  CcModel CcSpec CcThms CcUThms CcEx.
Local Open Scope string_scope.
Local Open Scope list_scope.
Local Open Scope nat_scope.

(** Availability of an array and the whole of [init_ready], checked by computation. *)
Definition have (r : result (arr Qc_fld)) (s : list nat) : bool :=
  match r with Ok x => (length (dat x) =? prodn (shp x)) && (if list_eq_dec Nat.eq_dec (shp x) s then true else false) | Err _ => false end.
Lemma have_ok r s : have r s = true -> available r s.
Proof.
  destruct r as [x|]; [|discriminate]. cbn [have]. intros H. apply andb_true_iff in H. destruct H as [H1 H2]. destruct (list_eq_dec Nat.eq_dec (shp x) s) as [E|]; [|discriminate].
  exists x. split; [reflexivity|]. split; [apply Nat.eqb_eq, H1|exact E].
Qed.
Definition ok_nat (r : result nat) (n : nat) : bool := match r with Ok m => m =? n | Err _ => false end.
Lemma ok_nat_ok r n : ok_nat r n = true -> r = Ok n.
Proof. destruct r; [|discriminate]. cbn. intros H. apply Nat.eqb_eq in H. congruence. Qed.
Lemma nonzero_check (w : arr Qc_fld) n : forallb (fun i => negb (qeqb (aget r0 w [i]) r0)) (seq 0 n) = true -> forall i, i < n -> aget r0 w [i] <> r0.
Proof.
  rewrite forallb_forall. intros H i Hi E. specialize (H i (proj2 (in_seq _ _ _) (conj (Nat.le_0_l i) Hi))). rewrite E in H. discriminate.
Qed.

Lemma ex_ready : exists fs bs cs, init_ready ex_cc true ex_sz ex_eps fs bs cs /\ cs <> [] /\
  (forall name k0 k1 k2 k3, In (name, [k0; k1; k2; k3], 2) fs -> available (cc_eris ex_cc [k0; k2; k1; k3]) (map ex_sz [k0; k2; k1; k3])).
Proof.
  exists exu_fs, exu_bs, exu_cs. split; [|split; [discriminate|]].
  - split; [apply le_n|]. split; [eapply (@named_ready (str "CCSD-S-1-1") false); [vm_compute; tauto|vm_compute; reflexivity|left; reflexivity]|].
    split; [vm_compute; reflexivity|]. split; [vm_compute; reflexivity|]. split; [vm_compute; reflexivity|].
    split. { intros name key H. change (In (name, key) ex_l) in H. unfold ex_l in H. cbn [In] in H. destruct H as [E|[E|[E|[E|[]]]]]; apply pair_equal_spec in E; destruct E as [<- <-]; vm_compute; lia. }
    split; [exact ex_energies|]. split.
    { intros name key k H Hk. change (In (name, key) ex_l) in H. assert (A : forallb (fun nk => forallb (fun k => if k =? chr_of "b" then ex_sz k =? nbos_of (cc_omega ex_cc) else ok_nat (sp_size (cc_space ex_cc) k) (ex_sz k)) (snd nk)) ex_l = true) by (vm_compute; reflexivity).
      rewrite forallb_forall in A. specialize (A _ H). cbn [snd] in A. rewrite forallb_forall in A. specialize (A _ Hk). destruct (k =? chr_of "b"); [apply Nat.eqb_eq, A|apply ok_nat_ok, A]. }
    split.
    { split; [intros _; eexists; split; [reflexivity|]; split; vm_compute; reflexivity|]. split.
      - intros _. eexists. split; [reflexivity|]. split; [vm_compute; reflexivity|]. split; [vm_compute; reflexivity|]. apply nonzero_check. vm_compute. reflexivity.
      - intros _. exists ex_g. split; [reflexivity|]. intros name key nf H. apply have_ok. cbn [exu_cs In] in H. destruct H as [E|[]]. apply pair_equal_spec in E. destruct E as [E _]. apply pair_equal_spec in E. destruct E as [E _]. apply pair_equal_spec in E. destruct E as [_ <-]. vm_compute. reflexivity. }
    intros name key H. apply have_ok. cbn [exu_fs In] in H. destruct H as [E|[E|[]]]; apply pair_equal_spec in E; destruct E as [E E']; [|discriminate]. apply pair_equal_spec in E. destruct E as [_ <-]. vm_compute. reflexivity.
  - intros name k0 k1 k2 k3 H. cbn [exu_fs In] in H. destruct H as [E|[E|[]]]; apply pair_equal_spec in E; destruct E as [E E']; [discriminate|]. apply pair_equal_spec in E. destruct E as [_ E].
    change (str "oovv") with [chr_of "o"; chr_of "o"; chr_of "v"; chr_of "v"] in E. injection E as <- <- <- <-. apply have_ok. vm_compute. reflexivity.
Qed.
Lemma ex_ready_g : exists fs bs cs, init_ready ex_cc false ex_sz ex_eps fs bs cs /\ cs <> [] /\ (forall name key, In (name, key, 2) fs -> available (cc_eris ex_cc key) (map ex_sz key)) /\
  (forall name key nf nb, In (name, key, nf, nb) cs -> last_n fs bs = Ok (nb =? 1)).
Proof.
  destruct ex_ready as (fs & bs & cs & (H1 & H2 & H3 & H4 & H5 & H6 & H7 & H8 & H9 & H10) & NE & _).
  assert (EF : fs = exu_fs) by (apply (@Ok_inj _ _ _ (eq_trans (eq_sym H3) ltac:(vm_compute; reflexivity)))). assert (EB : bs = exu_bs) by (apply (@Ok_inj _ _ _ (eq_trans (eq_sym H4) ltac:(vm_compute; reflexivity)))).
  assert (EC : cs = exu_cs) by (apply (@Ok_inj _ _ _ (eq_trans (eq_sym H5) ltac:(vm_compute; reflexivity)))). subst fs bs cs.
  exists exu_fs, exu_bs, exu_cs. split; [|split; [exact NE|split]].
  - split; [exact H1|]. split; [eapply (@named_ready (str "CCSD-S-1-1") false); [vm_compute; tauto|vm_compute; reflexivity|left; reflexivity]|]. split; [vm_compute; reflexivity|]. tauto.
  - intros name key H. apply have_ok. cbn [exu_fs In] in H. destruct H as [E|[E|[]]]; apply pair_equal_spec in E; destruct E as [E E']; [discriminate|]. apply pair_equal_spec in E. destruct E as [_ <-]. vm_compute. reflexivity.
  - intros name key nf nb H. cbn [exu_cs In] in H. destruct H as [E|[]]. apply pair_equal_spec in E. destruct E as [_ <-]. vm_compute. reflexivity.
Qed.

(** The same with a second boson excitation, CCSD-SD-1-1. *)
Definition ex_cc2 : cc Qc_fld :=
  mkcc Qc_fld (mka (str "CCSD") (str "SD") 1 1 false) ex_space ex_fock ex_eris (Some ex_g) (Some (mkarr [2] (qs [7; 1]%Z))) (Some (mkarr [2] (qs [3; 4]%Z))) None true.
(** Unrestricted: one occupied and one virtual orbital of each spin, different energies. *)
Definition ex_u_fock (spins key : pystr) : result (arr Qc_fld) :=
  let e := if streqb spins (str "aa") then 1%Z else 3%Z in
  Ok (mkarr [1; 1] (qs [if streqb key (str "oo") then - e else if streqb key (str "vv") then e else 2]%Z)).
Definition ex_u_eris (spins key : pystr) : result (arr Qc_fld) := Ok (mkarr [1; 1; 1; 1] (qs [5]%Z)).
Definition ex_u_g (spins key : pystr) : result (arr Qc_fld) := Ok (mkarr [1; 1; 1] (qs [6]%Z)).
Definition ex_u_space := mkspace [true; false] [false; false] [false; false].
Definition ex_u (fock : pystr -> pystr -> result (arr Qc_fld)) : ucc Qc_fld :=
  mkucc Qc_fld ex_ansatz ex_u_space ex_u_space fock ex_u_eris (Some ex_u_g) (Some (mkarr [1] (qs [7]%Z))) (Some exu_omega) None true.
Definition ex_u_sz (k s : nat) : nat := 1.
Definition ex_u_eps (fock : pystr -> pystr -> result (arr Qc_fld)) (k s i : nat) : Qc_fld :=
  if k =? chr_of "b" then aget r0 exu_omega [i] else match fock [s; s] [k; k] with Ok f => aget r0 f [i; i] | Err _ => r0 end.
Definition same_fock (spins : pystr) := ex_u_fock (str "aa").

Lemma ex_u_ready fock : fock = ex_u_fock \/ fock = same_fock -> exists fs bs cs, u_init_ready (ex_u fock) ex_u_sz (ex_u_eps fock) fs bs cs /\ cs <> [] /\ fs = exu_fs /\ bs = exu_bs /\ cs = exu_cs.
Proof.
  intros HF. exists exu_fs, exu_bs, exu_cs. split; [|split; [discriminate|tauto]].
  split; [apply le_n|]. split; [eapply (@named_ready (str "CCSD-S-1-1") false); [vm_compute; tauto|vm_compute; reflexivity|left; reflexivity]|].
  split; [vm_compute; reflexivity|]. split; [vm_compute; reflexivity|]. split; [vm_compute; reflexivity|].
  change (fermionic_blocks exu_fs ++ bosonic_blocks exu_bs ++ coupling_blocks exu_cs) with exu_l.
  split. { assert (A : forallb (fun b : ublock => length (snd (fst (fst b))) <=? 26) exu_l = true) by (vm_compute; reflexivity). rewrite forallb_forall in A.
    intros name key stored spins H. apply Nat.leb_le. exact (A _ H). }
  split. { apply u_energies_check; [|reflexivity]. destruct HF as [-> | ->]; vm_compute; reflexivity. }
  split.
  { intros name key stored spins k s H Hk. assert (A : forallb (fun b : ublock => let '(_, key, _, spins) := b in forallb (fun ks => if fst ks =? chr_of "b" then ex_u_sz (fst ks) (snd ks) =? nbos_of (u_omega (ex_u fock)) else ok_nat (sp_size (if snd ks =? chr_of "a" then u_alpha (ex_u fock) else u_beta (ex_u fock)) (fst ks)) (ex_u_sz (fst ks) (snd ks))) (combine key spins)) exu_l = true) by (vm_compute; reflexivity).
    rewrite forallb_forall in A. specialize (A _ H). cbv beta iota in A. rewrite forallb_forall in A. specialize (A _ Hk). cbn [fst snd] in A. destruct (k =? chr_of "b"); [apply Nat.eqb_eq, A|apply ok_nat_ok, A]. }
  split. { intros name comb _ Hc. apply have_ok. destruct HF as [-> | ->]; destruct Hc as [<-|[<-|[]]]; vm_compute; reflexivity. }
  split. { intros name s t _ Hc. apply have_ok. cbn [In] in Hc. destruct Hc as [E|[E|[E|[]]]]; apply pair_equal_spec in E; destruct E as [<- <-]; vm_compute; reflexivity. }
  split. { split; [intros _; eexists; split; [reflexivity|]; split; vm_compute; reflexivity|]. split.
      - intros _. eexists. split; [reflexivity|]. split; [vm_compute; reflexivity|]. split; [vm_compute; reflexivity|]. apply nonzero_check. vm_compute. reflexivity.
      - intros E. congruence. }
  intros _. exists ex_u_g, exu_omega. split; [reflexivity|]. split; [reflexivity|]. intros name key nf comb H Hc. apply have_ok.
  cbn [exu_cs In] in H. destruct H as [E|[]]. apply pair_equal_spec in E. destruct E as [E _]. apply pair_equal_spec in E. destruct E as [E _]. apply pair_equal_spec in E. destruct E as [_ <-]. destruct Hc as [<-|[<-|[]]]; vm_compute; reflexivity.
Qed.
Lemma u_only_check l (t : dict pystr (tval Qc_fld)) :
  forallb (fun nv => match snd nv with VSpin e => (if list_eq_dec pystr_eq_dec (nodup pystr_eq_dec (map fst e)) (map fst e) then true else false) &&
     forallb (fun s => existsb (fun b : ublock => streqb (fst (fst (fst b))) (fst nv) && match snd (fst b) with Some s' => streqb s s' | None => false end) l) (map fst e) | _ => true end) t = true -> u_only l t.
Proof.
  rewrite forallb_forall. intros H name e E. assert (Hin : In (name, VSpin e) t).
  { clear H. induction t as [|[k v] t IH]; [discriminate|]. cbn [dget] in E. destruct (pystr_eq_dec name k) as [->|]; [left; congruence|right; apply IH, E]. }
  specialize (H _ Hin). cbn [fst snd] in H. apply andb_true_iff in H. destruct H as [H1 H2]. split.
  - destruct (list_eq_dec pystr_eq_dec (nodup pystr_eq_dec (map fst e)) (map fst e)) as [E'|]; [|discriminate]. rewrite <- E'. apply NoDup_nodup.
  - intros s Hs. rewrite forallb_forall in H2. specialize (H2 _ Hs). apply existsb_exists in H2. destruct H2 as ([[[nm key] stored] spins] & I & E'). cbn [fst snd] in E'. apply andb_true_iff in E'. destruct E' as [E1 E2].
    unfold streqb in *. destruct (pystr_eq_dec nm name) as [->|]; [|discriminate]. destruct stored as [s'|]; [|discriminate]. destruct (pystr_eq_dec s s') as [->|]; [|discriminate]. exists key, spins. exact I.
Qed.

(** Quadruples only, one occupied and two virtual orbitals. *)
Definition ex_q := mka (str "CCQ") [] 0 0 false.
Definition ex_q_sz (k : nat) : nat := if k =? chr_of "o" then 1 else 2.
Definition ex_q_t : dict pystr (tval Qc_fld) := [(str "t4", VArr (full [1; 1; 1; 1; 2; 2; 2; 2] (q 1)))].
Lemma quadruples_layout : exists a sz (t out : dict pystr (tval Qc_fld)) l ls, clusters a false Wt l /\ holds_blocks [] l sz t /\
  rg_init_lams a false t = Ok out /\ clusters a false Wl ls /\ ~ holds_blocks [] ls sz out.
Proof.
  exists ex_q, ex_q_sz, ex_q_t. eexists _, [(str "t4", str "oooovvvv")], [(str "l4", str "oooovvvv")].
  split; [exists [(str "t4", str "oooovvvv", 4)], [], []; repeat split; vm_compute; reflexivity|]. split.
  { split; [repeat constructor; intros []|]. split.
    - intros nm H. apply dget_key in H. destruct H as [<-|[]]. eexists _, _. split; [left; reflexivity|reflexivity].
    - intros name key [E|[]]. apply pair_equal_spec in E. destruct E as [<- <-]. eexists. split; [vm_compute; reflexivity|]. split; vm_compute; reflexivity. }
  split; [vm_compute; reflexivity|]. split; [exists [(str "l4", str "oooovvvv", 4)], [], []; repeat split; vm_compute; reflexivity|].
  intros (_ & _ & H). destruct (H (str "l4") (str "oooovvvv") (or_introl eq_refl)) as (x & Ex & _ & Sx). vm_compute in Ex. injection Ex as <-. vm_compute in Sx. discriminate.
Qed.
