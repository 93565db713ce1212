(** Proof that a written calculation is read back. *)
From Coq Require Import String.
From Verif Require Import Base SpaceModel AnsatzModel CoreModel CoreSpec ListAux KernelProofs DampProofs VecThms CoreProofs.
Set Implicit Arguments.
Local Open Scope string_scope.
Local Open Scope list_scope.
Local Open Scope nat_scope.
Local Open Scope py_scope.

(** Lookup in a dictionary does not depend on the order of its entries. *)
Lemma dget_perm {A} (d d' : dict pystr A) k : Permutation d d' -> NoDup (map fst d) -> dget pystr_eq_dec k d = dget pystr_eq_dec k d'.
Proof.
  intros P. induction P as [|[k1 v1] l l' P IH|[k1 v1] [k2 v2] l|l1 l2 l3 P1 IH1 P2 IH2]; intros N; auto.
  - cbn. inversion_clear N. rewrite IH by assumption. reflexivity.
  - cbn in *. destruct (pystr_eq_dec k k2), (pystr_eq_dec k k1); try reflexivity.
    inversion_clear N. exfalso. apply H. left. congruence.
  - rewrite IH1 by assumption. apply IH2. eapply Permutation_NoDup; [apply Permutation_map; exact P1|assumption].
Qed.
Lemma dget_map {A B} (f : A -> B) (d : dict pystr A) k :
  dget pystr_eq_dec k (map (fun p => (fst p, f (snd p))) d) = option_map f (dget pystr_eq_dec k d).
Proof. induction d as [|[k1 v] d IH]; cbn; auto. destruct (pystr_eq_dec k k1); auto. Qed.
Lemma keys_map {A B} (f : A -> B) (d : dict pystr A) : map fst (map (fun p => (fst p, f (snd p))) d) = map fst d.
Proof. rewrite map_map. reflexivity. Qed.

Lemma dset_all {A} (P : pystr * A -> Prop) k v (d : dict pystr A) : (forall k', P (k', v)) -> Forall P d -> Forall P (dset pystr_eq_dec k v d).
Proof.
  intros H. induction 1 as [|[k1 v1] d H1 H2 IH]; cbn; [constructor; auto|]. destruct (pystr_eq_dec k k1); constructor; auto.
Qed.

Section Dump.
  Variables (V M D R : Type).
  Variable reorder : forall A : Type, dict pystr A -> dict pystr A.
  Hypothesis reorder_perm : forall A (d : dict pystr A), Permutation (reorder d) d.
  Variable plain_hf : spin_type -> R.
  Variables (enc_mol : M -> pyv V) (dec_mol : pyv V -> result M).
  Hypothesis mol_restored : forall m, exists v, stored reorder (enc_mol m) = Ok v /\ dec_mol v = Ok m.
  Variable importable : pystr -> bool.
  Variable nmodes : V -> nat.
  Variable derive : spin_type -> mfobj V M R -> ansatz -> spaces -> option V -> option V -> option V -> V -> V -> pyv V -> result D.
  Variable vzero : V.
  Variable defaults : dict pystr (pyv V).
  Local Notation construct := (construct importable nmodes derive vzero).
  Local Notation read := (read plain_hf dec_mol importable nmodes derive vzero defaults).
  Local Notation write := (write reorder enc_mol).

  Definition stored_entries := (fix go (l : list (pystr * pyv V)) : result (list (pystr * pyv V)) :=
                 match l with
                 | [] => Ok []
                 | (k, x) :: l' => x' <- stored reorder x ;; r <- go l' ;; Ok ((k, x') :: r)
                 end).
  Lemma entries_cons k x l : stored_entries ((k, x) :: l) = (x' <- stored reorder x ;; r <- stored_entries l ;; Ok ((k, x') :: r)).
  Proof. reflexivity. Qed.
  Lemma stored_dict (d : dict pystr (pyv V)) : stored reorder (PDict d) = (d' <- stored_entries d ;; Ok (PDict (@reorder _ d'))).
  Proof. reflexivity. Qed.
  Lemma stored_storable (v : pyv V) : storable v -> stored reorder v = Ok v.
  Proof. destruct v; cbn; tauto. Qed.
  Lemma entries_storable (d : dict pystr (pyv V)) : Forall (fun p => storable (snd p)) d -> stored_entries d = Ok d.
  Proof.
    induction 1 as [|[k v] d H _ IH]; [reflexivity|]. rewrite entries_cons. cbn [snd] in H. rewrite (stored_storable _ H), IH. reflexivity.
  Qed.
  Lemma dict_storable (d : dict pystr (pyv V)) : Forall (fun p => storable (snd p)) d -> stored reorder (PDict d) = Ok (PDict (@reorder _ d)).
  Proof. intros H. rewrite stored_dict, entries_storable by assumption. reflexivity. Qed.

  Lemma get_reorder (d : dict pystr (pyv V)) k v : NoDup (map fst d) -> get_or (@reorder _ d) k v = get_or d k v.
  Proof.
    intros N. unfold get_or. rewrite <- (@dget_perm _ d (@reorder _ d)); auto. apply Permutation_sym, reorder_perm.
  Qed.
  Lemma dget_reorder {A} (d : dict pystr A) k : NoDup (map fst d) -> dget pystr_eq_dec k (@reorder _ d) = dget pystr_eq_dec k d.
  Proof. intros N. symmetry. apply dget_perm; auto. apply Permutation_sym, reorder_perm. Qed.
  Lemma reorder_nodup {A} (d : dict pystr A) : NoDup (map fst d) -> NoDup (map fst (@reorder _ d)).
  Proof. apply Permutation_NoDup, Permutation_map, Permutation_sym, reorder_perm. Qed.

  Lemma load_same (f : file V) k v : load (dset pystr_eq_dec k v f) k = v.
  Proof. unfold load. rewrite (@dget_dset _ _ pystr_eq_dec). destruct (pystr_eq_dec k k); congruence. Qed.
  Lemma load_other (f : file V) k k' v : k' <> k -> load (dset pystr_eq_dec k v f) k' = load f k'.
  Proof. intros N. unfold load. rewrite (@dget_dset _ _ pystr_eq_dec). destruct (pystr_eq_dec k' k); congruence. Qed.

  (** Amplitudes *)
  Definition stored_value (v : aval V) : pyv V :=
    match v with AArr x => POther x | ASpin d => PDict (@reorder _ (map (fun p => (fst p, POther (snd p))) d)) end.
  Lemma stored_aval (v : aval V) : stored reorder (enc_aval v) = Ok (stored_value v).
  Proof.
    destruct v as [x|d]; [reflexivity|]. cbn [enc_aval]. rewrite dict_storable; [reflexivity|].
    apply Forall_forall. intros p H. apply in_map_iff in H as (q & <- & _). exact I.
  Qed.
  Lemma stored_amps (a : amps V) :
    stored reorder (enc_amps a) = Ok (PDict (@reorder _ (map (fun p => (fst p, stored_value (snd p))) a))).
  Proof.
    unfold enc_amps. rewrite stored_dict.
    assert (E : stored_entries (map (fun p => (fst p, enc_aval (snd p))) a) = Ok (map (fun p => (fst p, stored_value (snd p))) a)).
    { induction a as [|[k v] a IH]; [reflexivity|]. cbn [map fst snd]. rewrite entries_cons, stored_aval. cbn [bind]. rewrite IH. reflexivity. }
    rewrite E. reflexivity.
  Qed.

  Lemma dec_spins (d : dict pystr V) :
    exists d', mapM (fun p => x <- as_val (snd p) ;; Ok (fst p, x)) (@reorder _ (map (fun p => (fst p, POther (snd p))) d)) = Ok d' /\
      (NoDup (map fst d) -> same_map d' d).
  Proof.
    set (e := map (fun p => (fst p, POther (snd p))) d).
    assert (A : Forall (fun p => exists x, snd p = POther x) (@reorder _ e)).
    { eapply Permutation_Forall; [apply Permutation_sym, reorder_perm|]. apply Forall_forall. intros p H.
      apply in_map_iff in H as (q & <- & _). now exists (snd q). }
    assert (G : forall l, Forall (fun p : pystr * pyv V => exists x, snd p = POther x) l ->
       exists d', mapM (fun p => x <- as_val (snd p) ;; Ok (fst p, x)) l = Ok d' /\ l = map (fun p => (fst p, POther (snd p))) d').
    { induction 1 as [|[k v] l [x Hx] _ (d' & E & F)]; [exists []; split; reflexivity|]. cbn in Hx. subst v.
      exists ((k, x) :: d'). cbn [mapM map fst snd as_val bind]. rewrite E, <- F. split; reflexivity. }
    destruct (G _ A) as (d' & E & F). exists d'. split; [exact E|]. intros N k.
    pose proof (dget_map (@POther V) d' k) as H1. rewrite <- F in H1. unfold e in H1.
    rewrite dget_reorder, dget_map in H1 by (now rewrite keys_map).
    destruct (dget pystr_eq_dec k d), (dget pystr_eq_dec k d'); cbn in H1; congruence.
  Qed.
  Lemma dec_value u (v : aval V) : match v with AArr _ => True | ASpin d => u = true /\ NoDup (map fst d) end ->
    exists v', dec_aval u (stored_value v) = Ok v' /\ same_value v' v.
  Proof.
    destruct v as [x|d]; intros H; cbn [stored_value dec_aval].
    - exists (AArr x). split; reflexivity.
    - destruct H as [-> N]. destruct (dec_spins d) as (d' & -> & S0). cbn [bind]. exists (ASpin d'). split; [reflexivity|]. exact (S0 N).
  Qed.

  Lemma dec_list u (l : list (pystr * aval V)) :
    (forall k v, In (k, v) l -> match v with AArr _ => True | ASpin d => u = true /\ NoDup (map fst d) end) ->
    exists a, mapM (fun p => x <- dec_aval u (snd p) ;; Ok (fst p, x)) (map (fun p => (fst p, stored_value (snd p))) l) = Ok a /\
      Forall2 (fun p q => fst p = fst q /\ same_value (snd p) (snd q)) a l.
  Proof.
    induction l as [|[k v] l IH]; intros H; [exists []; split; [reflexivity|constructor]|].
    destruct IH as (a & E & F). { intros k' v' Hi. apply (H k'). now right. }
    destruct (@dec_value u v) as (v' & E' & S'). { apply (H k). now left. }
    cbn [map mapM fst snd]. rewrite E'. cbn [bind]. rewrite E. exists ((k, v') :: a). split; [reflexivity|]. constructor; auto.
  Qed.
  Lemma F2_lookup (a l : amps V) k : Forall2 (fun p q => fst p = fst q /\ same_value (snd p) (snd q)) a l ->
    match dget pystr_eq_dec k a, dget pystr_eq_dec k l with
    | Some x, Some y => same_value x y | None, None => True | _, _ => False end.
  Proof.
    induction 1 as [|[k1 x] [k2 y] a l [E S0] _ IH]; cbn; auto. cbn in E, S0. subst k2.
    destruct (pystr_eq_dec k k1); auto.
  Qed.
  Lemma amps_restored u (f : file V) key (a : option (amps V)) : amps_wf u a ->
    (a = None -> load f key = PNone) ->
    exists f' a', (match a with None => Ok f | Some x => dump reorder f key (enc_amps x) end) = Ok f' /\
      (forall k, k <> key -> load f' k = load f k) /\ dec_amps u (load f' key) = Ok a' /\ same_amps a' a.
  Proof.
    destruct a as [a|]; cbn [amps_wf].
    - intros [N W] _. unfold dump. rewrite stored_amps. cbn [bind].
      set (e := map (fun p => (fst p, stored_value (snd p))) a).
      (* the stored dictionary is an image of a reordering of the amplitudes *)
      assert (P : exists a1, Permutation a a1 /\ @reorder _ e = map (fun p => (fst p, stored_value (snd p))) a1).
      { assert (Q : Permutation (@reorder _ e) e) by apply reorder_perm. unfold e in Q at 2.
        apply Permutation_map_inv in Q as (a1 & E & Q). exists a1. split; [exact Q|exact E]. }
      destruct P as (a1 & P & E). rewrite E.
      destruct (@dec_list u a1) as (a' & E' & F).
      { intros k v Hi. apply (W k). eapply Permutation_in; [apply Permutation_sym; exact P|exact Hi]. }
      eexists. exists (Some a'). split; [reflexivity|]. split; [|split].
      + intros k Hk. now apply load_other.
      + rewrite load_same. cbn [dec_amps as_dict bind]. rewrite E'. reflexivity.
      + cbn [same_amps]. intros k. rewrite (dget_perm k P N). now apply F2_lookup.
    - intros _ H. exists f, None. repeat split; auto. rewrite H by reflexivity. reflexivity.
  Qed.

  (** Options *)
  Lemma fold_get (od d : dict pystr (pyv V)) k : NoDup (map fst od) ->
    dget pystr_eq_dec k (fold_left (fun d p => dset pystr_eq_dec (fst p) (snd p) d) od d) =
    match dget pystr_eq_dec k od with Some v => Some v | None => dget pystr_eq_dec k d end.
  Proof. apply oset_get. Qed.
  Lemma filter_id (d : dict pystr (pyv V)) : Forall (fun p => storable (snd p)) d ->
    filter (fun p => match snd p with PNone => false | _ => true end) d = d.
  Proof.
    induction 1 as [|[k v] d H _ IH]; [reflexivity|]. cbn [filter]. rewrite IH. cbn in H. destruct v; cbn in *; tauto.
  Qed.

  Lemma decode_ok s : ascii s -> decode (PBytes s : pyv V) = Ok s.
  Proof.
    intros H. cbn [decode]. replace (forallb (fun c => c <? 128) s) with true; [reflexivity|].
    symmetry. apply forallb_forall. intros c Hc. unfold ascii in H. rewrite Forall_forall in H. apply Nat.ltb_lt. auto.
  Qed.
  Lemma spin_ok t : ascii (spin_letter t) /\ dec_spin (spin_letter t) = Ok t.
  Proof. destruct t; split; try reflexivity; repeat constructor; cbn; lia. Qed.

  Lemma opt_restored v : opt_val (V := V) (match v with Some x => POther x | None => PNone end) = Ok v.
  Proof. destruct v; reflexivity. Qed.
  Lemma bosons_entries (a b c : option V) :
    let l := opt_entry "omega" (option_map (@POther V) a) ++ opt_entry "bare_g" (option_map (@POther V) b) ++ opt_entry "bare_G" (option_map (@POther V) c) in
    NoDup (map fst l) /\ Forall (fun p => storable (snd p)) l /\
    get_or l (str "omega") PNone = (match a with Some x => POther x | None => PNone end) /\
    get_or l (str "bare_g") PNone = (match b with Some x => POther x | None => PNone end) /\
    get_or l (str "bare_G") PNone = (match c with Some x => POther x | None => PNone end).
  Proof.
    destruct a, b, c; cbn zeta; (split; [|split; [repeat constructor; exact I|repeat split; reflexivity]]);
      repeat (constructor; [cbn; intuition discriminate|]); constructor.
  Qed.

  (** One [dump] in a chain. *)
  Lemma bind_to {A B} (r : result A) (k : A -> result B) a y : r = Ok a -> k a = y -> bind r k = y.
  Proof. intros -> H. exact H. Qed.
  Lemma dump_ok (f : file V) k v v' : stored reorder v = Ok v' -> dump reorder f k v = Ok (dset pystr_eq_dec k v' f).
  Proof. intros H. unfold dump. rewrite H. reflexivity. Qed.

  Definition mf_entries (o : obj V M D R) : dict pystr (pyv V) :=
    [(str "e_tot", POther (mf_e_tot (o_mf o))); (str "mo_energy", POther (mf_mo_energy (o_mf o)));
     (str "mo_coeff", POther (mf_mo_coeff (o_mf o))); (str "mo_occ", POther (mf_mo_occ (o_mf o)))].
  Definition mo_entries (o : obj V M D R) : dict pystr (pyv V) :=
    [(str "mo_coeff", POther (o_mo_coeff o)); (str "mo_occ", POther (o_mo_occ o))].
  Definition ansatz_entries (x : xansatz V) : dict pystr (pyv V) :=
    [(str "fermion_ansatz", PBytes (xa_fermion x)); (str "boson_ansatz", PBytes (xa_boson x));
     (str "fermion_coupling_rank", PNat (xa_frank x)); (str "boson_coupling_rank", PNat (xa_brank x))].
  Definition space_entries (sp : spaces) : dict pystr (pyv V) :=
    [(str "occupied", enc_space V sp sp_occupied); (str "frozen", enc_space V sp sp_frozen); (str "active", enc_space V sp sp_active)].
  Definition boson_entries (o : obj V M D R) : dict pystr (pyv V) :=
    opt_entry "omega" (option_map (@POther V) (o_omega o)) ++ opt_entry "bare_g" (option_map (@POther V) (o_g o))
      ++ opt_entry "bare_G" (option_map (@POther V) (o_G o)).
  Definition misc_entries (o : obj V M D R) : dict pystr (pyv V) :=
    [(str "spin_type", PBytes (spin_letter (o_spin o))); (str "e_corr", o_e_corr o); (str "converged", o_converged o);
     (str "converged_lambda", o_converged_lambda o)].

  Ltac nodup := repeat (constructor; [vm_compute; intuition discriminate|]); constructor.
  Lemma mf_nodup o : NoDup (map fst (mf_entries o)). Proof. nodup. Qed.
  Lemma mo_nodup o : NoDup (map fst (mo_entries o)). Proof. nodup. Qed.
  Lemma ansatz_nodup x : NoDup (map fst (ansatz_entries x)). Proof. nodup. Qed.
  Lemma space_nodup sp : NoDup (map fst (space_entries sp)). Proof. nodup. Qed.
  Lemma misc_nodup o : NoDup (map fst (misc_entries o)). Proof. nodup. Qed.

  Lemma space_stored sp : stored reorder (PDict (space_entries sp)) = Ok (PDict (@reorder _ (space_entries sp))).
  Proof. destruct sp; reflexivity. Qed.
  Lemma ansatz_stored (x : xansatz V) : xa_module x = None ->
    stored reorder (PDict ([(str "fermion_ansatz", PStr (xa_fermion x)); (str "boson_ansatz", PStr (xa_boson x));
                    (str "fermion_coupling_rank", PNat (xa_frank x)); (str "boson_coupling_rank", PNat (xa_brank x))]
                   ++ opt_entry "module_name" (option_map (@PStr V) (xa_module x)))) = Ok (PDict (@reorder _ (ansatz_entries x))).
  Proof. intros ->. reflexivity. Qed.
  Lemma misc_stored o : storable (o_e_corr o) -> storable (o_converged o) -> storable (o_converged_lambda o) ->
    stored reorder (PDict ([(str "spin_type", PStr (spin_letter (o_spin o)))] ++ opt_entry "e_corr" (not_none (o_e_corr o))
                                     ++ opt_entry "converged" (not_none (o_converged o)) ++ opt_entry "converged_lambda" (not_none (o_converged_lambda o))))
    = Ok (PDict (@reorder _ (misc_entries o))).
  Proof.
    unfold misc_entries. destruct (o_e_corr o), (o_converged o), (o_converged_lambda o); cbn [storable]; try tauto; reflexivity.
  Qed.
  Lemma dec_space_ok sp pick s : (forall f, (v <- pick (enc_space V sp f) ;; as_mask v) = Ok (f s)) ->
    make_space (sp_occupied s) (sp_frozen s) (sp_active s) = Ok s ->
    dec_space (@reorder _ (space_entries sp)) pick = Ok s.
  Proof.
    intros P W. unfold dec_space. rewrite !get_reorder by apply space_nodup.
    change (get_or (space_entries sp) (str "occupied") PNone) with (enc_space V sp sp_occupied).
    change (get_or (space_entries sp) (str "frozen") PNone) with (enc_space V sp sp_frozen).
    change (get_or (space_entries sp) (str "active") PNone) with (enc_space V sp sp_active).
    pose proof (P sp_occupied) as P1. pose proof (P sp_frozen) as P2. pose proof (P sp_active) as P3.
    unfold bind in *. destruct (pick (enc_space V sp sp_occupied)); [|discriminate]. rewrite P1.
    destruct (pick (enc_space V sp sp_frozen)); [|discriminate]. rewrite P2.
    destruct (pick (enc_space V sp sp_active)); [|discriminate]. rewrite P3. exact W.
  Qed.

  Lemma roundtrip t (f : file V) (mf : mfobj V M R) x (kws : dict pystr (pyv V)) sp omega g G mo_coeff mo_occ o0 e c cl a l :
    construct t mf x (oset defaults kws) sp omega g G mo_coeff mo_occ = Ok o0 ->
    NoDup (map fst defaults) -> Forall (fun p => storable (snd p)) defaults ->
    Forall (fun p => storable (snd p)) kws ->
    mf_rest mf = plain_hf t -> xa_module x = None -> truthy (xa_df x) = false -> ascii (xa_fermion x) -> ascii (xa_boson x) ->
    space_wf t sp -> storable e -> storable c -> storable cl ->
    let u := match t with SU => true | _ => false end in
    amps_wf u a -> amps_wf u l ->
    (a = None -> load f (str "amplitudes") = PNone) -> (l = None -> load f (str "lambdas") = PNone) ->
    exists f' o', write f (with_results o0 e c cl a l) = Ok f' /\ read f' = Ok o' /\ same (with_results o0 e c cl a l) o'.
  Proof.
    intros HC ND SD SK HR HM HF HA HB HS He Hc Hcl u Wa Wl Na Nl.
    (* the constructed object *)
    unfold CoreModel.construct in HC.
    destruct (importable (module_of t x)) eqn:HI; [|discriminate]. cbn [negb] in HC.
    destruct (Bool.eqb (xa_frank x =? 0) (xa_brank x =? 0)) eqn:HE; [|discriminate]. cbn [negb] in HC.
    set (opts := if streqb (xa_boson x) [] then dset pystr_eq_dec k_shift (PBool false) (oset defaults kws) else oset defaults kws) in *.
    assert (HO : (if streqb (xa_boson x) [] then
                  if (match omega with None => 0 | Some w => nmodes w end) =? 0
                  then Ok (dset pystr_eq_dec k_shift (PBool false) (oset defaults kws)) else Err AssertionError
                else @Ok (dict pystr (pyv V)) (oset defaults kws)) = Ok opts).
    { apply bind_ok in HC as (o1 & E1 & _). unfold opts. destruct (streqb (xa_boson x) []); [|reflexivity].
      destruct (match omega with None => 0 | Some w => nmodes w end =? 0); [reflexivity|discriminate]. }
    rewrite HO in HC. cbn [bind] in HC. apply bind_ok in HC as (d & HD & HC). apply ok_inj in HC.
    set (o := with_results o0 e c cl a l).
    assert (Eo : o = mkobj t opts mf mo_coeff mo_occ x sp omega g G d e c cl a l) by (unfold o; rewrite <- HC; reflexivity).
    clearbody o. subst o. clear HC o0.
    set (o := mkobj t opts mf mo_coeff mo_occ x sp omega g G d e c cl a l).
    (* options *)
    assert (ND' : forall ks d0, NoDup (map fst d0) -> NoDup (map fst (oset d0 ks : dict pystr (pyv V)))).
    { induction ks as [|p ks IH]; intros d0 N; [exact N|]. unfold oset. cbn [fold_left]. apply IH. now apply dset_nodup. }
    assert (SO' : forall ks d0, Forall (fun p => storable (snd p)) ks -> Forall (fun p => storable (snd p)) d0 ->
                  Forall (fun p => storable (snd p)) (oset d0 ks : dict pystr (pyv V))).
    { induction ks as [|p ks IH]; intros d0 S0 N; [exact N|]. inversion_clear S0. unfold oset. cbn [fold_left]. apply IH; auto. apply dset_all; auto. }
    assert (NO : NoDup (map fst opts)).
    { unfold opts. destruct (streqb _ _); [apply dset_nodup|]; now apply ND'. }
    assert (SO : Forall (fun p => storable (snd p)) opts).
    { unfold opts. destruct (streqb _ _); [apply dset_all; [intros; exact I|]|]; now apply SO'. }
    (* writing *)
    destruct (mol_restored (mf_mol mf)) as (vm & Em & Dm).
    set (f1 := dset pystr_eq_dec (str "options") (PDict (@reorder _ opts)) f).
    set (f2 := dset pystr_eq_dec (str "mol") vm f1).
    set (f3 := dset pystr_eq_dec (str "mean-field") (PDict (@reorder _ (mf_entries o))) f2).
    set (f4 := dset pystr_eq_dec (str "mo") (PDict (@reorder _ (mo_entries o))) f3).
    set (f5 := dset pystr_eq_dec (str "ansatz") (PDict (@reorder _ (ansatz_entries x))) f4).
    set (f6 := dset pystr_eq_dec (str "space") (PDict (@reorder _ (space_entries sp))) f5).
    set (f7 := dset pystr_eq_dec (str "bosons") (PDict (@reorder _ (boson_entries o))) f6).
    set (f8 := dset pystr_eq_dec (str "misc") (PDict (@reorder _ (misc_entries o))) f7).
    assert (L8 : forall k, k <> str "misc" -> k <> str "bosons" -> k <> str "space" -> k <> str "ansatz" -> k <> str "mo" -> k <> str "mean-field"
                 -> k <> str "mol" -> k <> str "options" -> load f8 k = load f k).
    { intros k K1 K2 K3 K4 K5 K6 K7 K8. unfold f8, f7, f6, f5, f4, f3, f2, f1. now rewrite !load_other by assumption. }
    destruct (@amps_restored u f8 (str "amplitudes") a Wa) as (f9 & a' & E9 & O9 & D9 & S9).
    { intros ->. rewrite L8 by discriminate. now apply Na. }
    destruct (@amps_restored u f9 (str "lambdas") l Wl) as (f10 & l' & E10 & O10 & D10 & S10).
    { intros ->. rewrite O9 by discriminate. rewrite L8 by discriminate. now apply Nl. }
    assert (HW : write f o = Ok f10).
    { unfold CoreModel.write.
      apply (@bind_to _ _ _ _ f1). { change (o_options o) with opts. rewrite (filter_id SO). exact (@dump_ok f _ _ _ (dict_storable SO)). }
      apply (@bind_to _ _ _ _ f2). { exact (@dump_ok f1 _ _ _ Em). }
      apply (@bind_to _ _ _ _ f3). { exact (@dump_ok f2 (str "mean-field") (PDict (mf_entries o)) (PDict (@reorder _ (mf_entries o))) eq_refl). }
      apply (@bind_to _ _ _ _ f4). { exact (@dump_ok f3 (str "mo") (PDict (mo_entries o)) (PDict (@reorder _ (mo_entries o))) eq_refl). }
      apply (@bind_to _ _ _ _ f5). { exact (@dump_ok f4 _ _ _ (ansatz_stored x HM)). }
      apply (@bind_to _ _ _ _ f6). { exact (@dump_ok f5 (str "space") _ _ (space_stored sp)). }
      apply (@bind_to _ _ _ _ f7). { destruct (bosons_entries omega g G) as (_ & BS & _). exact (@dump_ok f6 (str "bosons") _ _ (dict_storable BS)). }
      apply (@bind_to _ _ _ _ f8). { exact (@dump_ok f7 (str "misc") _ _ (@misc_stored o He Hc Hcl)). }
      apply (@bind_to _ _ _ _ f9); [exact E9|exact E10]. }
    exists f10.
    (* reading *)
    assert (L : forall k, k <> str "amplitudes" -> k <> str "lambdas" -> load f10 k = load f8 k).
    { intros k K1 K2. rewrite O10 by assumption. now apply O9. }
    assert (La : load f10 (str "amplitudes") = load f9 (str "amplitudes")) by (apply O10; discriminate).
    assert (Lo : load f10 (str "options") = PDict (@reorder _ opts)).
    { rewrite L by discriminate. unfold f8, f7, f6, f5, f4, f3, f2, f1. rewrite !load_other by discriminate. apply load_same. }
    assert (Lm : load f10 (str "mol") = vm).
    { rewrite L by discriminate. unfold f8, f7, f6, f5, f4, f3, f2. rewrite !load_other by discriminate. apply load_same. }
    assert (Lf : load f10 (str "mean-field") = PDict (@reorder _ (mf_entries o))).
    { rewrite L by discriminate. unfold f8, f7, f6, f5, f4, f3. rewrite !load_other by discriminate. apply load_same. }
    assert (Lmo : load f10 (str "mo") = PDict (@reorder _ (mo_entries o))).
    { rewrite L by discriminate. unfold f8, f7, f6, f5, f4. rewrite !load_other by discriminate. apply load_same. }
    assert (Lan : load f10 (str "ansatz") = PDict (@reorder _ (ansatz_entries x))).
    { rewrite L by discriminate. unfold f8, f7, f6, f5. rewrite !load_other by discriminate. apply load_same. }
    assert (Ls : load f10 (str "space") = PDict (@reorder _ (space_entries sp))).
    { rewrite L by discriminate. unfold f8, f7, f6. rewrite !load_other by discriminate. apply load_same. }
    assert (Lb : load f10 (str "bosons") = PDict (@reorder _ (boson_entries o))).
    { rewrite L by discriminate. unfold f8, f7. rewrite !load_other by discriminate. apply load_same. }
    assert (Lmi : load f10 (str "misc") = PDict (@reorder _ (misc_entries o))).
    { rewrite L by discriminate. unfold f8. apply load_same. }
    set (opts' := fold_left (fun d p => dset pystr_eq_dec (fst p) (snd p) d) (@reorder _ opts) defaults).
    set (x' := mkxa (xa_fermion x) (xa_boson x) (xa_frank x) (xa_brank x) PNone None : xansatz V).
    assert (Px : plain x' = plain x) by (unfold plain; cbn; rewrite HF; reflexivity).
    assert (Mx : module_of t x' = module_of t x) by (unfold module_of; cbn [xa_module x']; rewrite HM, Px; reflexivity).
    set (opts2 := if streqb (xa_boson x) [] then dset pystr_eq_dec k_shift (PBool false) opts' else opts').
    assert (SM : same_map opts' opts).
    { intros k. unfold opts'. rewrite fold_get by (now apply reorder_nodup). rewrite dget_reorder by assumption.
      destruct (dget pystr_eq_dec k opts) eqn:E; [reflexivity|].
      destruct (dget pystr_eq_dec k defaults) eqn:E'; [|reflexivity]. exfalso.
      assert (H : dget pystr_eq_dec k (oset defaults kws) = None).
      { unfold opts in E. destruct (streqb _ _); [|exact E]. rewrite (@dget_dset _ _ pystr_eq_dec) in E.
        destruct (pystr_eq_dec k k_shift); [discriminate|exact E]. }
      clear - H E'. revert p defaults E' H. induction kws as [|[k1 v1] ks IH]; intros p d0 E' H; [unfold oset in H; cbn in H; congruence|].
      unfold oset in H. cbn [fold_left fst snd] in H.
      destruct (dget pystr_eq_dec k (dset pystr_eq_dec k1 v1 d0)) as [w|] eqn:E2.
      - exact (@IH w _ E2 H).
      - rewrite (@dget_dset _ _ pystr_eq_dec) in E2. destruct (pystr_eq_dec k k1); congruence. }
    assert (SM2 : same_map opts2 opts).
    { unfold opts2, opts in *. destruct (streqb (xa_boson x) []); [|exact SM]. intros k.
      rewrite !(@dget_dset _ _ pystr_eq_dec). destruct (pystr_eq_dec k k_shift); [reflexivity|].
      rewrite SM, (@dget_dset _ _ pystr_eq_dec). destruct (pystr_eq_dec k k_shift); congruence. }
    set (o2 := mkobj t opts2 mf mo_coeff mo_occ x' sp omega g G d e c cl a' l').
    exists o2. split; [exact HW|]. split.
    - unfold CoreModel.read. rewrite Lo, Lmi, Lm, Lf, Lmo, Lan, Ls, Lb, La. cbn [as_dict bind].
      rewrite dget_reorder by apply misc_nodup.
      change (dget pystr_eq_dec (str "spin_type") (misc_entries o)) with (Some (PBytes (spin_letter t) : pyv V)). cbn iota.
      destruct (spin_ok t) as [A1 A2]. rewrite (decode_ok A1). cbn [bind]. rewrite A2. cbn [bind]. rewrite Dm. cbn [bind].
      rewrite !get_reorder by (apply mf_nodup || apply mo_nodup || apply ansatz_nodup || apply misc_nodup || apply (bosons_entries omega g G)).
      change (get_or (mf_entries o) (str "e_tot") PNone) with (POther (mf_e_tot mf)).
      change (get_or (mf_entries o) (str "mo_energy") PNone) with (POther (mf_mo_energy mf)).
      change (get_or (mf_entries o) (str "mo_coeff") PNone) with (POther (mf_mo_coeff mf)).
      change (get_or (mf_entries o) (str "mo_occ") PNone) with (POther (mf_mo_occ mf)).
      change (get_or (mo_entries o) (str "mo_coeff") PNone) with (POther mo_coeff).
      change (get_or (mo_entries o) (str "mo_occ") PNone) with (POther mo_occ).
      change (get_or (ansatz_entries x) (str "module_name") PNone) with (@PNone V).
      change (get_or (ansatz_entries x) (str "fermion_ansatz") (PBytes (str "CCSD"))) with (PBytes (xa_fermion x) : pyv V).
      change (get_or (ansatz_entries x) (str "boson_ansatz") (PBytes [])) with (PBytes (xa_boson x) : pyv V).
      change (get_or (ansatz_entries x) (str "fermion_coupling_rank") (PNat 0)) with (PNat (xa_frank x) : pyv V).
      change (get_or (ansatz_entries x) (str "boson_coupling_rank") (PNat 0)) with (PNat (xa_brank x) : pyv V).
      destruct (bosons_entries omega g G) as (_ & _ & B1 & B2 & B3).
      change (boson_entries o) with (opt_entry "omega" (option_map (@POther V) omega) ++ opt_entry "bare_g" (option_map (@POther V) g)
        ++ opt_entry "bare_G" (option_map (@POther V) G)). rewrite B1, B2, B3, !opt_restored.
      cbn [as_val bind]. rewrite (decode_ok HA), (decode_ok HB). cbn [bind as_nat].
      assert (HSp : (match t with
          | SU => a <- dec_space (@reorder _ (space_entries sp)) (part 0) ;; b <- dec_space (@reorder _ (space_entries sp)) (part 1) ;; Ok (Two a b)
          | _ => s <- dec_space (@reorder _ (space_entries sp)) (fun v => Ok v) ;; Ok (One s)
          end) = Ok sp).
      { unfold space_wf in HS. destruct t, sp as [s1|s1 s2]; try contradiction.
        - rewrite (@dec_space_ok (One s1) _ s1); [reflexivity|reflexivity|exact HS].
        - rewrite (@dec_space_ok (One s1) _ s1); [reflexivity|reflexivity|exact HS].
        - rewrite (@dec_space_ok (Two s1 s2) (part 0) s1); [|reflexivity|apply HS]. cbn [bind].
          rewrite (@dec_space_ok (Two s1 s2) (part 1) s2); [reflexivity|reflexivity|apply HS]. }
      rewrite HSp. cbn [bind]. fold u. rewrite D9. cbn [bind]. rewrite D10. cbn [bind].
      assert (Hmf : mkmf (mf_mol mf) (mf_e_tot mf) (mf_mo_energy mf) (mf_mo_coeff mf) (mf_mo_occ mf) (plain_hf t) = mf).
      { destruct mf. cbn in *. rewrite HR. reflexivity. }
      rewrite Hmf. fold x' opts'.
      assert (HCon : construct t mf x' opts' sp omega g G mo_coeff mo_occ =
                Ok (mkobj t opts2 mf mo_coeff mo_occ x' sp omega g G d (POther vzero) (PBool false) (PBool false) (Some []) (Some []))).
      { unfold CoreModel.construct. rewrite Mx, HI. cbn [negb]. change (xa_frank x') with (xa_frank x). change (xa_brank x') with (xa_brank x).
        rewrite HE. cbn [negb]. change (xa_boson x') with (xa_boson x).
        assert (HO2 : (if streqb (xa_boson x) [] then
                  if (match omega with None => 0 | Some w => nmodes w end) =? 0
                  then Ok (dset pystr_eq_dec k_shift (PBool false) opts') else Err AssertionError
                else Ok opts') = Ok opts2).
        { unfold opts2. destruct (streqb (xa_boson x) []); [|reflexivity]. destruct (match omega with None => 0 | Some w => nmodes w end =? 0); [reflexivity|discriminate]. }
        rewrite HO2. cbn [bind]. rewrite Px. unfold get_or at 1. rewrite SM2. unfold get_or in HD. rewrite HD. reflexivity. }
      rewrite HCon. cbn [bind]. rewrite !get_reorder by apply misc_nodup. reflexivity.
    - constructor; cbn [o o2 with_results o_spin o_options o_mf o_mo_coeff o_mo_occ o_ansatz o_space o_omega o_g o_G o_derived o_e_corr o_converged o_converged_lambda o_amplitudes o_lambdas]; auto.
  Qed.
End Dump.
