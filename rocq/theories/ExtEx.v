(** Concrete cases for tailoring and external corrections. *)
From Coq Require Import Sorted String QArith_base.
From Coq Require Qcanon.
From Verif Require Import Base ListAux Alg ArrModel ArrProofs PermModel EinsumModel SpaceModel AnsatzModel AnsatzRanks DampProofs KernelProofs VecModel VecSpec CcModel CcSpec CcThms CcUThms CcEx
  ExtModel ExtSpec ExtProofs ExtThms ExtCorr ExtCtx.
Local Open Scope string_scope.
Local Open Scope list_scope.
Local Open Scope nat_scope.

Lemma frozen_beyond_check s c :
  forallb (fun q => implb (in_class s c q) (forallb (fun p => implb (Bool.eqb (occupied_at s p) (occupied_at s q)) (negb (frozen_at s p))) (seq 0 (S q)))) (seq 0 (length (sp_occupied s))) = true ->
  frozen_beyond s c.
Proof.
  intros H p q Hpq Hq Ic Eo. rewrite forallb_forall in H. specialize (H q ltac:(apply in_seq; lia)). rewrite Ic in H. cbn [implb] in H.
  rewrite forallb_forall in H. specialize (H p ltac:(apply in_seq; lia)). rewrite Eo, Bool.eqb_reflx in H. cbn [implb] in H. apply Bool.negb_true_iff, H.
Qed.

(** Two occupied and two correlated virtual orbitals, the inner pair active, and a frozen virtual. *)
Definition ext_space := mkspace [true; true; false; false; false] [false; false; false; false; true] [false; true; true; false; false].
Definition ext_ansatz := mka (str "CCSD") [] 0 0 false.
Definition ext_fs : list entry := [(str "t1", str "ov", 1); (str "t2", str "oovv", 2)].
Lemma ext_ranks rspin : fermionic_cluster_ranks ext_ansatz rspin Wt = Ok ext_fs.
Proof. destruct rspin; vm_compute; reflexivity. Qed.
Lemma ext_valid : valid_space ext_space.
Proof. vm_compute. reflexivity. Qed.
Lemma ext_frozen c : In c (str "oOivVa") -> c <> chr_of "a" -> frozen_beyond ext_space c.
Proof. intros H N. apply frozen_beyond_check. cbn in H. destruct H as [<-|[<-|[<-|[<-|[<-|[<-|[]]]]]]]; try (vm_compute; reflexivity). exfalso. apply N. reflexivity. Qed.
Lemma ext_nodup : NoDup (map (fun e : entry => fst (fst e)) ext_fs).
Proof. repeat constructor; vm_compute; intuition discriminate. Qed.

Definition ext_out : dict pystr (tval Qc_fld) := [(str "t1", VArr (mkarr [2; 2] (qs [1; 2; 3; 4]%Z))); (str "t2", VArr (mkarr [2; 2; 2; 2] (qs (map Z.of_nat (seq 10 16)))))].
Definition ext_active : dict pystr (tval Qc_fld) := [(str "t1", VArr (mkarr [1; 1] (qs [77]%Z))); (str "t2", VArr (mkarr [1; 1; 1; 1] (qs [88]%Z)))].
Lemma ext_active_fits : forall name key n w, In (name, key, n) ext_fs -> dget pystr_eq_dec name ext_active = Some w ->
  incl key (str "ov") /\ exists v x, w = VArr v /\ dget pystr_eq_dec name ext_out = Some (VArr x) /\ shaped ext_space (map upper key) v /\ shaped ext_space key x.
Proof.
  intros name key n w [E|[E|[]]] Ew; injection E as <- <- <-; injection Ew as <-.
  - split; [vm_compute; tauto|]. eexists _, _. split; [reflexivity|]. split; [reflexivity|]. split; split; vm_compute; reflexivity.
  - split; [vm_compute; tauto|]. eexists _, _. split; [reflexivity|]. split; [reflexivity|]. split; split; vm_compute; reflexivity.
Qed.

(** Unrestricted, with another space for beta. *)
Definition ext_space_b := mkspace [true; false; false] [false; false; false] [true; true; false].
Lemma ext_spaces : forall s, In s [ext_space; ext_space_b] -> valid_space s /\ frozen_beyond s (chr_of "O") /\ frozen_beyond s (chr_of "V").
Proof.
  intros s [<-|[<-|[]]].
  - split; [exact ext_valid|]. split; apply ext_frozen; vm_compute; try tauto; discriminate.
  - split; [vm_compute; reflexivity|]. split; apply frozen_beyond_check; vm_compute; reflexivity.
Qed.
Definition ext_uout : dict pystr (tval Qc_fld) := [(str "t1", VSpin [(str "aa", mkarr [2; 2] (qs [1; 2; 3; 4]%Z)); (str "bb", mkarr [1; 2] (qs [5; 6]%Z))])].
Definition ext_uactive : dict pystr (tval Qc_fld) := [(str "t1", VSpin [(str "bb", mkarr [1; 1] (qs [88]%Z)); (str "aa", mkarr [1; 1] (qs [77]%Z))])].
Lemma ext_uactive_fits : forall name key n w, In (name, key, n) ext_fs -> dget pystr_eq_dec name ext_uactive = Some w ->
  incl key (str "ov") /\ exists vs xs, w = VSpin vs /\ dget pystr_eq_dec name ext_uout = Some (VSpin xs) /\ NoDup (map fst xs) /\
    forall comb x, In (comb, x) xs -> incl comb (str "ab") /\ u_shaped ext_space ext_space_b comb key x /\
      exists v, dget pystr_eq_dec comb vs = Some v /\ u_shaped ext_space ext_space_b comb (map upper key) v.
Proof.
  intros name key n w [E|[E|[]]] Ew; injection E as <- <- <-; [injection Ew as <-|discriminate].
  split; [vm_compute; tauto|]. eexists _, _. split; [reflexivity|]. split; [reflexivity|]. split; [repeat constructor; vm_compute; intuition discriminate|].
  intros comb x [E|[E|[]]]; injection E as <- <-; (split; [vm_compute; tauto|]; split; [split; vm_compute; reflexivity|]; eexists; split; [reflexivity|split; vm_compute; reflexivity]).
Qed.

(** Corrections in two blocks of the singles. *)
Definition ext_corr : exts Qc_fld := [(str "t1", [(str "OV", mkarr [1; 1] (qs [100]%Z)); (str "iv", mkarr [1; 2] (qs [200; 300]%Z))])].
Lemma ext_corr_fits : forall name blocks w, In (name, blocks) ext_corr -> dget pystr_eq_dec name ext_out = Some w -> exists x, w = VArr x /\ wf x /\
   forall key v, In (key, v) blocks -> incl key class_letters /\ (forall k, In k key -> frozen_beyond ext_space k) /\ shaped ext_space key v /\
     shp x = map (fun k => length (orbitals ext_space (sector_letter ext_space k))) key.
Proof.
  intros name blocks w [E|[]] Ew. injection E as <- <-. injection Ew as <-. eexists. split; [reflexivity|]. split; [reflexivity|].
  intros key v [E|[E|[]]]; injection E as <- <-; (split; [vm_compute; tauto|]; split; [|split; [split; vm_compute; reflexivity|vm_compute; reflexivity]]).
  - intros k [<-|[<-|[]]]; apply ext_frozen; vm_compute; try tauto; discriminate.
  - intros k [<-|[<-|[]]]; apply ext_frozen; vm_compute; try tauto; discriminate.
Qed.
Definition ext_ucorr : uexts Qc_fld := [(str "t1", [(str "aa", [(str "OV", mkarr [1; 1] (qs [100]%Z)); (str "iv", mkarr [1; 2] (qs [200; 300]%Z))]); (str "bb", [(str "OV", mkarr [1; 1] (qs [9]%Z))])])].
Lemma ext_ucorr_fits : forall name combs w, In (name, combs) ext_ucorr -> dget pystr_eq_dec name ext_uout = Some w -> NoDup (map fst combs) /\ exists xs, w = VSpin xs /\
   forall comb blocks, In (comb, blocks) combs -> incl comb (str "ab") /\ exists x, dget pystr_eq_dec comb xs = Some x /\ wf x /\
   forall key v, In (key, v) blocks -> incl key class_letters /\ (forall sk, In sk (combine comb key) -> frozen_beyond (spin_space_of ext_space ext_space_b (fst sk)) (snd sk)) /\
     u_shaped ext_space ext_space_b comb key v /\
     shp x = map (fun sk => length (orbitals (spin_space_of ext_space ext_space_b (fst sk)) (sector_letter (spin_space_of ext_space ext_space_b (fst sk)) (snd sk)))) (combine comb key).
Proof.
  intros name combs w [E|[]] Ew. injection E as <- <-. injection Ew as <-. split; [repeat constructor; vm_compute; intuition discriminate|]. eexists. split; [reflexivity|].
  intros comb blocks [E|[E|[]]]; injection E as <- <-; (split; [vm_compute; tauto|]; eexists; split; [reflexivity|]; split; [reflexivity|]).
  - intros key v [E|[E|[]]]; injection E as <- <-; (split; [vm_compute; tauto|]; split; [|split; [split; vm_compute; reflexivity|vm_compute; reflexivity]]);
      intros sk Hs; apply frozen_beyond_check; cbn in Hs; destruct Hs as [<-|[<-|[]]]; vm_compute; reflexivity.
  - intros key v [E|[]]; injection E as <- <-; (split; [vm_compute; tauto|]; split; [|split; [split; vm_compute; reflexivity|vm_compute; reflexivity]]);
      intros sk Hs; apply frozen_beyond_check; cbn in Hs; destruct Hs as [<-|[<-|[]]]; vm_compute; reflexivity.
Qed.

(** Residuals in the block of one occupied and one virtual class. *)
Definition ext_res : exts Qc_fld := [(str "t1new", [(str "ov", mkarr [2; 1] (qs [8; 14]%Z))])].
Lemma ext_res_names : residual_names ext_fs ext_res.
Proof. split; [repeat constructor; cbn; tauto|]. intros k [<-|[]]. exists (str "t1", str "ov", 1). split; [left; reflexivity|reflexivity]. Qed.
Lemma ext_res_fits : forall nm blocks, In (nm, blocks) ext_res -> NoDup (map fst blocks) /\ forall key v, In (key, v) blocks -> key <> [] /\ length key <= 26 /\ wf v /\ shp v = map ex_sz key /\
  forall k, In k key -> In k (str "oOivVab") /\ class_energies (cc_omega ex_cc) (cc_fock ex_cc) k (ex_sz k) (ex_eps k).
Proof.
  intros nm blocks [E|[]]. injection E as <- <-. split; [repeat constructor; cbn; tauto|]. intros key v [E|[]]. injection E as <- <-.
  split; [discriminate|]. split; [cbn; lia|]. split; [reflexivity|]. split; [reflexivity|]. intros k Hk. apply (ex_energies (str "t1") (str "ov")); [left; reflexivity|exact Hk].
Qed.

Definition ext_user : dict pystr (tval Qc_fld) := ext_active.
Lemma ext_user_fits : forall name key n w, In (name, key, n) ext_fs -> dget pystr_eq_dec name ext_user = Some w ->
  incl key (str "ov") /\ exists v, w = VArr v /\ shaped ext_space (map upper key) v.
Proof. intros name key n w H1 H2. destruct (ext_active_fits _ _ _ _ H1 H2) as (I & v & x & E & _ & S & _). split; [exact I|]. exists v. split; assumption. Qed.

(** * Contexts. *)
Lemma no_self_nested {E N} (external : N -> result (N * N)) objs (p : cprog E N) : (forall j, preserved external objs j) -> no_self p -> well_nested external objs p.
Proof. intros HP. induction p; cbn; intros H; try tauto; repeat split; try tauto; intros; apply HP. Qed.
Lemma rg_contexts : forall (F : fld) (E X : Type) (plain : update_fn E (dict pystr (tval F))) set_active (add : dict pystr (tval F) -> X -> result (dict pystr (tval F)))
    corrections get_eris complete a sp rspin (l : list (kind * dict pystr (tval F))) (p : cprog E (dict pystr (tval F))) fuel,
  no_self p -> (forall i, In i (entered p) -> i < length l) -> depth p < fuel ->
  exists s, crun plain set_active add corrections (rg_external a sp rspin) get_eris complete fuel p (start X l) =
      (fst (lexical set_active add corrections (rg_external a sp rspin) get_eris complete (nth_error l) p plain), s,
       snd (lexical set_active add corrections (rg_external a sp rspin) get_eris complete (nth_error l) p plain)) /\
    st_cur s = Plain.
Proof.
  intros F E X plain set_active add corrections get_eris complete a sp rspin l p fuel W Hl D.
  destruct (@program_lexical E _ X plain set_active add corrections (rg_external a sp rspin) get_eris complete l p fuel) as (s & Hs & C & _); try assumption.
  - apply no_self_nested; [|exact W]. intros j. unfold preserved. destruct (nth_error l j) as [[[|] u]|]; try exact I. intros x u'. apply rg_external_preserves.
  - exists s. split; assumption.
Qed.

(** The same object twice. *)
Definition twice : cprog nat nat := CWith 0 (CWith 0 (CCall None (Some 1) CDone) CDone) CDone.
Lemma twice_runs : forall (plain : update_fn nat nat) set_active (add : nat -> nat -> result nat) corrections external get_eris complete user fuel,
  exists s, crun plain set_active add corrections external get_eris complete fuel twice (start nat [(Tailor, user)]) = ([Err RuntimeError], s, false) /\ st_cur s = Wrap 0 None None.
Proof.
  intros plain set_active add corrections external get_eris complete user fuel.
  set (cs := [mkctx Tailor user (Some (@Wrap nat 0 None None))]).
  assert (G : forall fuel, call plain set_active add corrections complete fuel cs (Wrap 0 None None) None (Some 1) = Err RuntimeError).
  { clear fuel. induction fuel as [|fuel IH]; [reflexivity|].
    change (bind (call plain set_active add corrections complete fuel cs (Wrap 0 None None) None (Some 1)) (fun x => set_active x user) = Err RuntimeError). rewrite IH. reflexivity. }
  unfold twice, start. cbn [crun enter map nth_error st_ctxs c_kind fst snd set_ctx st_cur c_user firstn skipn app leave c_old]. fold cs. rewrite G. eexists. split; reflexivity.
Qed.

(** Unrestricted residuals for the doubles. *)
Definition ext_ures : uexts Qc_fld :=
  [(str "t2new", [(str "aaaa", [(str "oovv", mkarr [2; 2; 2; 2] (qs [0; 0; 0; 0; 0; 32; -32; 0; 0; -32; 32; 0; 0; 0; 0; 0]%Z))]);
                  (str "abab", [(str "oovv", mkarr [2; 1; 2; 1] (qs [16; 17; 15; 32]%Z))]); (str "bbbb", [(str "oovv", mkarr [1; 1; 1; 1] (qs [0]%Z))])])].
Lemma ext_ures_names : residual_names exu_fs ext_ures.
Proof. split; [repeat constructor; cbn; tauto|]. intros k [<-|[]]. exists (str "t2", str "oovv", 2). split; [right; left; reflexivity|reflexivity]. Qed.
Lemma ext_ures_fits : forall e combs, In e exu_fs -> dget pystr_eq_dec (fst (fst e) ++ str "new") ext_ures = Some combs ->
  forall comb, In comb (generate_spin_combinations (snd e) false true) -> exists blocks, dget pystr_eq_dec comb combs = Some blocks /\
    forall key v, In (key, v) blocks -> length key <= 26 /\ length key = 2 * snd e /\ wf v /\ shp v = spin_shape_of exu_sz key comb /\ spin_antisymmetric key comb v /\
      forall k s, In (k, s) (combine key comb) -> In k (str "oOivVab") /\ class_energies (u_omega exu) (u_fock exu [s; s]) k (exu_sz k s) (exu_eps k s).
Proof.
  intros e combs [<-|[<-|[]]] Ec; [discriminate|]. injection Ec as <-. intros comb Hc. change (generate_spin_combinations (snd (str "t2", str "oovv", 2)) false true) with [str "aaaa"; str "abab"; str "bbbb"] in Hc.
  destruct Hc as [<-|[<-|[<-|[]]]]; (eexists; split; [reflexivity|]; intros key v [E|[]]; injection E as <- <-;
    split; [cbn; lia|]; split; [reflexivity|]; split; [reflexivity|]; split; [reflexivity|]; split; [apply antisym_check_ok; vm_compute; reflexivity|];
    intros k s Hk; eapply (exu_energies (str "t2") (str "oovv") (Some _) _ k s); [|exact Hk]; unfold exu_l, fermionic_blocks, exu_fs; apply in_or_app; left; vm_compute; tauto).
Qed.
