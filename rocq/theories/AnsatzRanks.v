(** Proofs about cluster ranks. *)
From Coq Require Import Sorted String.
From Verif Require Import Base ListAux AnsatzModel AnsatzSpec AnsatzProofs.
Set Implicit Arguments.
Local Open Scope nat_scope.
Local Open Scope list_scope.

Lemma Ok_inj {A} (a b : A) : Ok a = Ok b -> a = b.
Proof. intros H. injection H. auto. Qed.

Lemma pick_in tbl : forall op e, In e (pick_ranks tbl op) -> exists key es, In (key, es) tbl /\ In e es.
Proof.
  induction tbl as [|[key es] tbl IH]; intros op e H; [destruct H|]. cbn [pick_ranks] in H.
  destruct (substr key op).
  - apply in_app_or in H as [H|H]; [exists key, es; split; [left; reflexivity|exact H]|].
    destruct (IH _ _ H) as (k & es' & H1 & H2). exists k, es'. split; [right; exact H1|exact H2].
  - destruct (IH _ _ H) as (k & es' & H1 & H2). exists k, es'. split; [right; exact H1|exact H2].
Qed.

Lemma insert_rank_perm x l : Permutation (insert_rank x l) (x :: l).
Proof.
  induction l as [|y l IH]; cbn; [reflexivity|]. destruct (snd x <=? snd y); [reflexivity|]. rewrite IH. apply perm_swap.
Qed.
Lemma sort_rank_perm l : Permutation (sort_rank l) l.
Proof. induction l as [|x l IH]; cbn; [reflexivity|]. rewrite insert_rank_perm. constructor. exact IH. Qed.
Lemma insert_rank_sorted x l : StronglySorted (fun a b => snd a <= snd b) l -> StronglySorted (fun a b : entry => snd a <= snd b) (insert_rank x l).
Proof.
  induction 1 as [|y l HS IH HF]; cbn; [repeat constructor|]. destruct (Nat.leb_spec (snd x) (snd y)).
  - constructor; [constructor; assumption|]. constructor; [assumption|]. eapply Forall_impl; [|exact HF]. cbn. intros; lia.
  - constructor; [exact IH|]. apply Forall_forall. intros z Hz. apply (Permutation_in _ (insert_rank_perm x l)) in Hz.
    destruct Hz as [<-|Hz]; [lia|]. rewrite Forall_forall in HF. apply HF, Hz.
Qed.
Lemma sort_rank_sorted l : StronglySorted (fun a b : entry => snd a <= snd b) (sort_rank l).
Proof. induction l as [|x l IH]; cbn; [constructor|]. apply insert_rank_sorted, IH. Qed.

Lemma has_dup_spec l : has_dup l = false <-> NoDup l.
Proof.
  induction l as [|x l IH]; cbn; [split; [constructor|reflexivity]|]. rewrite orb_false_iff, IH.
  destruct (in_dec entry_eq_dec x l); split.
  - intros [H _]; discriminate.
  - intros H; inversion H; contradiction.
  - intros [_ H]. constructor; assumption.
  - intros H. inversion H. split; [reflexivity|assumption].
Qed.

Definition fermion_table (rspin : bool) (w : which) : list entry := nt' w ++ nS w ++ nD w ++ nT w ++ nQ rspin w ++ nt w.
Lemma table_in rspin w key es e : In (key, es) (notations rspin w) -> In e es -> In e (fermion_table rspin w).
Proof.
  unfold notations, fermion_table. cbn [In]. intros H He.
  repeat (destruct H as [H|H]; [apply pair_equal_spec in H; destruct H as [_ <-]; repeat rewrite in_app_iff in He; repeat rewrite in_app_iff; tauto|]). destruct H.
Qed.

Lemma ferm_inv a rspin w ranks : fermionic_cluster_ranks a rspin w = Ok ranks ->
  NoDup ranks /\ StronglySorted (fun x y : entry => snd x <= snd y) ranks /\ forall e, In e ranks -> In e (fermion_table rspin w).
Proof.
  unfold fermionic_cluster_ranks. destruct (fermion a) as [|c f]; [intros H; injection H as <-; split; [constructor|]; split; [constructor|]; intros e []|].
  destruct (strip_parens (c :: f)) as [op0|]; [|discriminate]. cbn [bind].
  destruct (has_dup _) eqn:E; [discriminate|]. intros H; apply Ok_inj in H; subst. apply has_dup_spec in E.
  split; [apply (Permutation_NoDup (Permutation_sym (sort_rank_perm _)) E)|]. split; [apply sort_rank_sorted|].
  intros e He. apply (Permutation_in _ (sort_rank_perm _)) in He. apply pick_in in He as (k & es & H1 & H2).
  eapply table_in; eassumption.
Qed.

Lemma table_ok rspin w e : In e (fermion_table rspin w) -> entry_ok w e.
Proof.
  intros H. destruct rspin, w; vm_compute in H;
  repeat (destruct H as [<-|H];
    [split; [lia|]; split;
     [first [exists []; split; [reflexivity|left; reflexivity]
            |exists (str "a"); split; [reflexivity|right; split; [reflexivity|left; reflexivity]]
            |exists (str "b"); split; [reflexivity|right; split; [reflexivity|right; reflexivity]]]
     |intros X; first [repeat split; reflexivity|exfalso; destruct X as [X|[X1 X2]]; [lia|congruence]]]|]); destruct H.
Qed.

Lemma table_names rspin w e1 e2 : In e1 (fermion_table rspin w) -> In e2 (fermion_table rspin w) ->
  fst (fst e1) = fst (fst e2) -> e1 <> e2 -> snd e1 = 3 /\ snd e2 = 3.
Proof.
  assert (C : forallb (fun a => forallb (fun b => negb (streqb (fst (fst a)) (fst (fst b))) || ((snd a =? 3) && (snd b =? 3)) || (if entry_eq_dec a b then true else false))
    (fermion_table rspin w)) (fermion_table rspin w) = true) by (destruct rspin, w; vm_compute; reflexivity).
  intros H1 H2 E N. rewrite forallb_forall in C. specialize (C _ H1). rewrite forallb_forall in C. specialize (C _ H2).
  rewrite !orb_true_iff, andb_true_iff, !Nat.eqb_eq in C. destruct C as [[C|C]|C]; [|exact C|].
  - rewrite E in C. unfold streqb in C. destruct (pystr_eq_dec (fst (fst e2)) (fst (fst e2))) as [_|X]; [discriminate C|exfalso; apply X; reflexivity].
  - destruct (entry_eq_dec e1 e2) as [X|_]; [contradiction|discriminate C].
Qed.

(** Lambda amplitudes. *)
Definition lam (e : entry) : entry :=
  let '(n, k, r) := e in (str "l" ++ tl n, if r <? 4 then skipn (length k / 2) k ++ firstn (length k / 2) k else k, r).
Lemma notations_lam rspin : notations rspin Wl = map (fun p => (fst p, map lam (snd p))) (notations rspin Wt).
Proof. destruct rspin; vm_compute; reflexivity. Qed.
Lemma pick_map g tbl : forall op, pick_ranks (map (fun p => (fst p, map g (snd p))) tbl) op = map g (pick_ranks tbl op).
Proof.
  induction tbl as [|[key es] tbl IH]; intros op; [reflexivity|]. cbn [map fst snd pick_ranks].
  destruct (substr key op); [rewrite map_app, IH; reflexivity|apply IH].
Qed.
Lemma insert_map g x l : (forall e, snd (g e) = snd e) -> insert_rank (g x) (map g l) = map g (insert_rank x l).
Proof.
  intros H. induction l as [|y l IH]; [reflexivity|]. cbn [map insert_rank]. rewrite !H. destruct (snd x <=? snd y); [reflexivity|].
  cbn [map]. f_equal. exact IH.
Qed.
Lemma sort_map g l : (forall e, snd (g e) = snd e) -> sort_rank (map g l) = map g (sort_rank l).
Proof. intros H. induction l as [|x l IH]; [reflexivity|]. cbn [map sort_rank fold_right]. fold (sort_rank (map g l)) (sort_rank l). rewrite IH. apply insert_map, H. Qed.
Lemma lam_inj rspin e1 e2 : In e1 (fermion_table rspin Wt) -> In e2 (fermion_table rspin Wt) -> lam e1 = lam e2 -> e1 = e2.
Proof.
  intros H1 H2. destruct rspin; vm_compute in H1; vm_compute in H2;
  repeat (destruct H1 as [<-|H1]; [repeat (destruct H2 as [<-|H2]; [intros E; first [reflexivity|vm_compute in E; discriminate E]|]); destruct H2|]); destruct H1.
Qed.

Lemma lam_rel rspin e : In e (fermion_table rspin Wt) -> lam_related e (lam e).
Proof.
  intros H. assert (X : forall o v, length o = length v -> forallb occ_letter o = true -> forallb vir_letter v = true -> ph_transposed (o ++ v) (v ++ o)).
  { intros o v H1 H2 H3. exists [], o, v. repeat split; assumption. }
  destruct rspin; vm_compute in H; repeat (destruct H as [<-|H];
    [split; [reflexivity|]; split; [eexists; split; reflexivity|];
     first [intros _; apply (X (str "o") (str "v")); reflexivity|intros _; apply (X (str "oo") (str "vv")); reflexivity
           |intros _; apply (X (str "ooo") (str "vvv")); reflexivity|intros _; apply (X (str "ooO") (str "vvV")); reflexivity
           |intros _; apply (X (str "OOO") (str "VVV")); reflexivity|intros Y; exfalso; lia]|]); destruct H.
Qed.

Lemma lambda_ranks a rspin ts : fermionic_cluster_ranks a rspin Wt = Ok ts ->
  exists ls, fermionic_cluster_ranks a rspin Wl = Ok ls /\ Forall2 lam_related ts ls.
Proof.
  intros H. pose proof (ferm_inv _ _ _ H) as (N & _ & T). revert H. unfold fermionic_cluster_ranks.
  destruct (fermion a) as [|c f]; [intros H; injection H as <-; exists []; split; [reflexivity|constructor]|].
  destruct (strip_parens (c :: f)) as [op0|]; [|discriminate]. cbn [bind].
  change (operator_of Wl (c :: f) op0) with (operator_of Wt (c :: f) op0). set (op := operator_of Wt (c :: f) op0).
  rewrite notations_lam, pick_map. destruct (has_dup (pick_ranks (notations rspin Wt) op)) eqn:E; [discriminate|].
  intros H; apply Ok_inj in H; subst.
  assert (Tl : forall e, In e (pick_ranks (notations rspin Wt) op) -> In e (fermion_table rspin Wt)).
  { intros e He. apply pick_in in He as (k & es & H1 & H2). eapply table_in; eassumption. }
  assert (E' : has_dup (map lam (pick_ranks (notations rspin Wt) op)) = false).
  { apply has_dup_spec. apply has_dup_spec in E. apply NoDup_map_inj; [exact E|]. intros x y Hx Hy. apply (@lam_inj rspin); auto. }
  rewrite E'. eexists. split; [reflexivity|]. rewrite sort_map by (intros [[? ?] ?]; reflexivity).
  clear - T. revert T. generalize (sort_rank (pick_ranks (notations rspin Wt) op)). intros l T.
  induction l as [|e l IH]; cbn [map]; [constructor|]. constructor; [apply (@lam_rel rspin), T; left; reflexivity|].
  apply IH. intros x Hx. apply T. right; exact Hx.
Qed.

(** Excitation letters. *)
Lemma is_prefix_one c s : is_prefix [c] s = match s with [] => false | d :: _ => c =? d end.
Proof. destruct s as [|d s]; cbn; [reflexivity|]. rewrite andb_true_r. reflexivity. Qed.
Lemma substr_one c s : substr [c] s = memb c s.
Proof.
  induction s as [|d s IH]; [reflexivity|]. change (substr [c] (d :: s)) with (is_prefix [c] (d :: s) || substr [c] s).
  rewrite is_prefix_one, IH. reflexivity.
Qed.
Lemma replace_one c s : replace_all [c] [] s = filter (fun d => negb (d =? c)) s.
Proof.
  unfold replace_all. induction s as [|d s IH]; [reflexivity|]. cbn [replace_from]. rewrite is_prefix_one.
  cbn [length Nat.sub app filter]. rewrite (Nat.eqb_sym d c). destruct (c =? d); cbn [negb]; [exact IH|f_equal; exact IH].
Qed.
Lemma substr_sub c d s : substr [c; d] s = true -> In d s.
Proof.
  induction s as [|e s IH]; [discriminate|]. change (substr [c; d] (e :: s)) with (is_prefix [c; d] (e :: s) || substr [c; d] s).
  rewrite orb_true_iff. intros [H|H]; [|right; apply IH, H]. destruct s as [|e' s]; cbn in H; rewrite ?andb_false_r in H; [discriminate|].
  rewrite andb_true_r in H. apply andb_true_iff in H as [_ H]. apply Nat.eqb_eq in H. subst. right; left; reflexivity.
Qed.

Definition sdtq : list nat := [81; 84; 68; 83].
Lemma memb_filter c d op : c <> d -> memb c (filter (fun x => negb (x =? d)) op) = memb c op.
Proof.
  intros N. apply eq_true_iff_eq. rewrite !memb_In, filter_In. split; [tauto|]. intros H. split; [exact H|].
  apply negb_true_iff, Nat.eqb_neq. exact N.
Qed.


Lemma pick_single tbl : (forall k es, In (k, es) tbl -> exists c, k = [c]) -> NoDup (map fst tbl) -> forall op e,
  In e (pick_ranks tbl op) <-> exists c es, In ([c], es) tbl /\ In c op /\ In e es.
Proof.
  induction tbl as [|[key es] tbl IH]; intros Hk Hn op e.
  - cbn. split; [tauto|]. intros (c & es & [] & _).
  - destruct (Hk key es ltac:(left; reflexivity)) as (c & ->). cbn [map fst] in Hn. inversion Hn as [|? ? Hni Hn']; subst.
    assert (Hk' : forall k es, In (k, es) tbl -> exists c, k = [c]) by (intros k es' H; apply (Hk k es'); right; exact H).
    specialize (IH Hk' Hn'). cbn [pick_ranks]. rewrite substr_one.
    destruct (memb c op) eqn:E.
    + apply memb_In in E. rewrite in_app_iff, IH, replace_one. split.
      * intros [H|(c' & es' & H1 & H2 & H3)]; [exists c, es; repeat split; [left; reflexivity|exact E|exact H]|].
        exists c', es'. apply filter_In in H2 as [H2 _]. repeat split; [right; exact H1|exact H2|exact H3].
      * intros (c' & es' & [H1|H1] & H2 & H3); [left; injection H1 as <- <-; exact H3|]. right. exists c', es'.
        repeat split; [exact H1| |exact H3]. apply filter_In. split; [exact H2|]. apply negb_true_iff, Nat.eqb_neq. intros ->.
        apply Hni. apply in_map_iff. exists ([c], es'). split; [reflexivity|exact H1].
    + rewrite IH. split.
      * intros (c' & es' & H1 & H2 & H3). exists c', es'. repeat split; [right; exact H1|exact H2|exact H3].
      * intros (c' & es' & [H1|H1] & H2 & H3); [|exists c', es'; repeat split; assumption]. injection H1 as <- <-.
        apply memb_In in H2. congruence.
Qed.

Lemma pick_letters rspin w op : (forall c, In c op -> letter_rank c <> None) -> forall e,
  In e (pick_ranks (notations rspin w) op) <->
  (In (chr_of "S") op /\ In e (nS w)) \/ (In (chr_of "D") op /\ In e (nD w)) \/ (In (chr_of "T") op /\ In e (nT w)) \/
  (In (chr_of "Q") op /\ In e (nQ rspin w)).
Proof.
  intros Hop e.
  assert (E0 : substr (str "t'") op = false).
  { apply not_true_iff_false. intros X. apply (@substr_sub 116 39) in X. apply Hop in X. apply X. reflexivity. }
  unfold notations. cbn [pick_ranks]. rewrite E0. cbv iota.
  match goal with |- In e ?X <-> _ => change X with (pick_ranks (tl (notations rspin w)) op) end.
  rewrite pick_single.
  - split.
    + intros (c & es & H1 & H2 & H3). specialize (Hop c H2). cbn [tl notations In] in H1.
      repeat match type of H1 with _ \/ _ => destruct H1 as [H1|H1]; [apply pair_equal_spec in H1 as [H1 H4]; cbv in H1; injection H1 as <-; subst es; cbv in Hop; try congruence; try tauto|] end.
      destruct H1.
    + intros [[H1 H2]|[[H1 H2]|[[H1 H2]|[H1 H2]]]].
      * exists (chr_of "S"), (nS w). repeat split; [|exact H1|exact H2]. cbn [tl notations In]. do 7 right. left. reflexivity.
      * exists (chr_of "D"), (nD w). repeat split; [|exact H1|exact H2]. cbn [tl notations In]. do 6 right. left. reflexivity.
      * exists (chr_of "T"), (nT w). repeat split; [|exact H1|exact H2]. cbn [tl notations In]. do 5 right. left. reflexivity.
      * exists (chr_of "Q"), (nQ rspin w). repeat split; [|exact H1|exact H2]. cbn [tl notations In]. do 3 right. left. reflexivity.
  - intros k es H. cbn [tl notations In] in H.
    repeat match type of H with _ \/ _ => destruct H as [H|H]; [apply pair_equal_spec in H as [H _]; subst k; eexists; reflexivity|] end. destruct H.
  - cbn [tl notations map fst]. repeat constructor; cbn; intuition discriminate.
Qed.

Lemma pick_flat tbl : (forall k es, In (k, es) tbl -> exists c, k = [c]) -> NoDup (map fst tbl) -> forall op,
  pick_ranks tbl op = flat_map (fun p => if memb (hd 0 (fst p)) op then snd p else []) tbl.
Proof.
  induction tbl as [|[key es] tbl IH]; intros Hk Hn op; [reflexivity|].
  destruct (Hk key es ltac:(left; reflexivity)) as (c & ->). cbn [map fst] in Hn. inversion Hn as [|? ? Hni Hn']; subst.
  assert (Hk' : forall k es, In (k, es) tbl -> exists c, k = [c]) by (intros k es' H; apply (Hk k es'); right; exact H).
  specialize (IH Hk' Hn'). cbn [pick_ranks flat_map fst snd hd]. rewrite substr_one.
  destruct (memb c op) eqn:E; [|rewrite IH; reflexivity]. f_equal. rewrite IH, replace_one.
  assert (X : forall l, (forall p, In p l -> In p tbl) -> flat_map (fun p : pystr * list entry => if memb (hd 0 (fst p)) (filter (fun d => negb (d =? c)) op) then snd p else []) l
     = flat_map (fun p => if memb (hd 0 (fst p)) op then snd p else []) l).
  { induction l as [|[k' es'] l IHl]; intros Hl; [reflexivity|]. cbn [flat_map fst snd]. rewrite IHl by (intros p Hp; apply Hl; right; exact Hp).
    assert (Hin : In (k', es') tbl) by (apply Hl; left; reflexivity).
    destruct (Hk' _ _ Hin) as (c' & ->). cbn [hd]. rewrite memb_filter; [reflexivity|]. intros ->. apply Hni. apply in_map_iff.
    exists ([c], es'). split; [reflexivity|exact Hin]. }
  apply X. auto.
Qed.

Lemma pick_letters_nodup rspin w op : (forall c, In c op -> letter_rank c <> None) -> NoDup (pick_ranks (notations rspin w) op).
Proof.
  intros Hop.
  assert (No : forall c, letter_rank c = None -> memb c op = false).
  { intros c Hc. apply not_true_iff_false. rewrite memb_In. intros X. apply (Hop c X), Hc. }
  assert (E0 : substr (str "t'") op = false).
  { apply not_true_iff_false. intros X. apply (@substr_sub 116 39) in X. apply Hop in X. apply X. reflexivity. }
  assert (E1 : pick_ranks (notations rspin w) op = pick_ranks (tl (notations rspin w)) op).
  { unfold notations. cbn [pick_ranks tl]. rewrite E0. reflexivity. }
  rewrite E1, pick_flat.
  - unfold notations. cbn [tl flat_map fst snd]. 
    change (hd 0 (str "4")) with 52. change (hd 0 (str "3")) with 51. change (hd 0 (str "2")) with 50. change (hd 0 (str "t")) with 116.
    rewrite (No 52), (No 51), (No 50), (No 116) by reflexivity.
    destruct (memb (hd 0 (str "Q")) op), (memb (hd 0 (str "T")) op), (memb (hd 0 (str "D")) op), (memb (hd 0 (str "S")) op);
      apply has_dup_spec; destruct rspin, w; reflexivity.
  - intros k es H. cbn [tl notations In] in H.
    repeat match type of H with _ \/ _ => destruct H as [H|H]; [apply pair_equal_spec in H as [H _]; subst k; eexists; reflexivity|] end. destruct H.
  - cbn [tl notations map fst]. repeat constructor; cbn; intuition discriminate.
Qed.

Lemma operator_letters w m op : cluster_method m -> operator_of w (m ++ op) (m ++ op) =
  if streqb (m ++ op) (str "CCD") && (match w with Wip | Wea | Wee => true | _ => false end) then str "SD" else op.
Proof.
  unfold cluster_method. cbn [map In]. intros H. unfold operator_of.
  assert (E : exists m', strip_method method_types [] (m ++ op) = (m', op) /\ streqb m' (str "MP") = false).
  { destruct H as [<-|[<-|[<-|[<-|[<-|[]]]]]]; eexists; (split; [reflexivity|reflexivity]). }
  destruct E as (m' & E & N). rewrite E, N. reflexivity.
Qed.

Lemma index_of_none x l : ~ In x l -> index_of x l = None.
Proof.
  induction l as [|y l IH]; intros H; [reflexivity|]. cbn. destruct (Nat.eqb_spec x y) as [->|]; [exfalso; apply H; left; reflexivity|].
  rewrite IH; [reflexivity|]. intros X; apply H; right; exact X.
Qed.

Lemma letters_select a rspin w m op : fermion a = m ++ op -> cluster_method m ->
  (forall c, In c op -> letter_rank c <> None) -> (fermion a = str "CCD" -> w = Wt \/ w = Wl) ->
  exists ranks, fermionic_cluster_ranks a rspin w = Ok ranks /\
    forall r, (exists e, In e ranks /\ snd e = r) <-> exists c, In c op /\ letter_rank c = Some r.
Proof.
  intros Hf Hm Hop Hccd. unfold fermionic_cluster_ranks. rewrite Hf.
  assert (Hp : strip_parens (m ++ op) = Ok (m ++ op)).
  { unfold strip_parens. rewrite index_of_none; [reflexivity|]. rewrite in_app_iff. intros [H|H].
    - unfold cluster_method in Hm. cbn [map In] in Hm. destruct Hm as [<-|[<-|[<-|[<-|[<-|[]]]]]]; cbv in H; intuition discriminate.
    - apply Hop in H. apply H. reflexivity. }
  destruct (m ++ op) as [|c0 f0] eqn:Emo.
  { exfalso. unfold cluster_method in Hm. cbn [map In] in Hm. destruct Hm as [<-|[<-|[<-|[<-|[<-|[]]]]]]; discriminate. }
  rewrite <- Emo in *. rewrite Hp. cbn [bind]. rewrite operator_letters by exact Hm.
  assert (Eop : (if streqb (m ++ op) (str "CCD") && (match w with Wip | Wea | Wee => true | _ => false end) then str "SD" else op) = op).
  { unfold streqb. destruct (pystr_eq_dec (m ++ op) (str "CCD")) as [E|E]; [|reflexivity]. cbn [andb].
    rewrite Hf in Hccd. destruct (Hccd E) as [->| ->]; reflexivity. }
  rewrite Eop. rewrite (proj2 (has_dup_spec _) (pick_letters_nodup rspin w op Hop)).
  eexists. split; [reflexivity|]. intros r. split.
  - intros (e & He & <-). apply (Permutation_in _ (sort_rank_perm _)) in He. apply (proj1 (pick_letters rspin w op Hop e)) in He.
    destruct He as [[H1 H2]|[[H1 H2]|[[H1 H2]|[H1 H2]]]]; eexists; (split; [exact H1|]);
      cbn [nS nD nT nQ In] in H2; unfold nQ in H2; try (destruct rspin; cbn [In] in H2); repeat (destruct H2 as [<-|H2]; [reflexivity|]); destruct H2.
  - intros (c & Hc & Hr).
    assert (X : forall e, In e (pick_ranks (notations rspin w) op) -> snd e = r -> exists e, In e (sort_rank (pick_ranks (notations rspin w) op)) /\ snd e = r).
    { intros e He Hs. exists e. split; [|exact Hs]. apply (Permutation_in _ (Permutation_sym (sort_rank_perm _))). exact He. }
    assert (Y := fun e => proj2 (pick_letters rspin w op Hop e)).
    unfold letter_rank in Hr.
    destruct (Nat.eqb_spec c (chr_of "S")) as [->|]; [injection Hr as <-; eapply X; [apply Y; left; split; [exact Hc|left; reflexivity]|reflexivity]|].
    destruct (Nat.eqb_spec c (chr_of "D")) as [->|]; [injection Hr as <-; eapply X; [apply Y; right; left; split; [exact Hc|left; reflexivity]|reflexivity]|].
    destruct (Nat.eqb_spec c (chr_of "T")) as [->|]; [injection Hr as <-; eapply X; [apply Y; do 2 right; left; split; [exact Hc|left; reflexivity]|reflexivity]|].
    destruct (Nat.eqb_spec c (chr_of "Q")) as [->|]; [|discriminate]. injection Hr as <-.
    destruct rspin; (eapply X; [apply Y; do 3 right; split; [exact Hc|left; reflexivity]|reflexivity]).
Qed.

(** Bosons. *)
Definition boson_table (w : which) : list entry := bS w ++ bD w ++ bT w.
Lemma bos_inv a w ranks : bosonic_cluster_ranks a w = Ok ranks ->
  NoDup ranks /\ StronglySorted (fun x y : entry => snd x <= snd y) ranks /\ forall e, In e ranks -> In e (boson_table w).
Proof.
  unfold bosonic_cluster_ranks. destruct (boson a) as [|c f]; [intros H; injection H as <-; split; [constructor|]; split; [constructor|]; intros e []|].
  destruct (strip_parens (c :: f)) as [op0|]; [|discriminate]. cbn [bind].
  destruct (has_dup _) eqn:E; [discriminate|]. intros H; apply Ok_inj in H; subst. apply has_dup_spec in E.
  split; [apply (Permutation_NoDup (Permutation_sym (sort_rank_perm _)) E)|]. split; [apply sort_rank_sorted|].
  intros e He. apply (Permutation_in _ (sort_rank_perm _)) in He. apply pick_in in He as (k & es & H1 & H2).
  unfold bnotations in H1. cbn [In] in H1. unfold boson_table.
  repeat (destruct H1 as [H1|H1]; [apply pair_equal_spec in H1; destruct H1 as [_ <-]; repeat rewrite in_app_iff in H2; repeat rewrite in_app_iff; tauto|]). destruct H1.
Qed.
Lemma boson_wf a w ranks : bosonic_cluster_ranks a w = Ok ranks ->
  NoDup (map (fun e => fst (fst e)) ranks) /\ StronglySorted (fun x y : entry => snd x <= snd y) ranks /\
  forall n k r, In (n, k, r) ranks -> n = bsymbol w ++ dec r /\ k = repeat (chr_of "b") r /\ 1 <= r <= 3.
Proof.
  intros H. apply bos_inv in H as (H1 & H2 & H3). split; [|split; [exact H2|]].
  - apply NoDup_map_inj; [exact H1|]. intros x y Hx Hy. apply H3 in Hx, Hy. revert Hx Hy. unfold boson_table. cbn [bS bD bT app In].
    intros [<-|[<-|[<-|[]]]] [<-|[<-|[<-|[]]]] E; try reflexivity; exfalso; cbn [fst] in E; apply app_inv_head in E; discriminate.
  - intros n k r Hi. apply H3 in Hi. revert Hi. unfold boson_table. cbn [bS bD bT app In].
    intros [E|[E|[E|[]]]]; apply pair_equal_spec in E as [E <-]; apply pair_equal_spec in E as [<- <-]; (split; [reflexivity|split; [reflexivity|lia]]).
Qed.
Lemma boson_lambda a ts w : w <> Wt -> bosonic_cluster_ranks a Wt = Ok ts ->
  exists ls, bosonic_cluster_ranks a w = Ok ls /\ Forall2 (fun t l : entry => fst (fst l) = str "l" ++ fst (fst t) /\ snd (fst l) = snd (fst t) /\ snd l = snd t) ts ls.
Proof.
  intros Hw. set (g := fun e : entry => (str "l" ++ fst (fst e), snd (fst e), snd e) : entry).
  assert (N : bnotations w = map (fun p => (fst p, map g (snd p))) (bnotations Wt)) by (destruct w; [congruence|reflexivity..]).
  unfold bosonic_cluster_ranks.
  destruct (boson a) as [|c f]; [intros H; injection H as <-; exists []; split; [reflexivity|constructor]|].
  destruct (strip_parens (c :: f)) as [op|]; [|discriminate]. cbn [bind]. rewrite N, pick_map.
  destruct (has_dup (pick_ranks (bnotations Wt) op)) eqn:E; [discriminate|]. intros H; apply Ok_inj in H; subst.
  assert (E' : has_dup (map g (pick_ranks (bnotations Wt) op)) = false).
  { apply has_dup_spec. apply has_dup_spec in E. apply NoDup_map_inj; [exact E|]. intros [[n k] r] [[n' k'] r'] _ _ X. unfold g in X. cbn [fst snd] in X.
    apply pair_equal_spec in X as [X ->]. apply pair_equal_spec in X as [X ->]. apply app_inv_head in X. subst. reflexivity. }
  rewrite E'. eexists. split; [reflexivity|]. rewrite sort_map by reflexivity.
  generalize (sort_rank (pick_ranks (bnotations Wt) op)). intros l. induction l as [|e l IH]; cbn [map]; [constructor|].
  constructor; [repeat split|exact IH].
Qed.

(** Coupling. *)
Definition couple (w : which) (i j : nat) : pystr :=
  repeat (chr_of "b") j ++ match w with Wl => repeat (chr_of "v") i ++ repeat (chr_of "o") i | _ => repeat (chr_of "o") i ++ repeat (chr_of "v") i end.
Lemma mapM_ok {A B} (f : A -> result B) (g : A -> B) l : (forall x, In x l -> f x = Ok (g x)) -> mapM f l = Ok (map g l).
Proof.
  induction l as [|x l IH]; intros H; [reflexivity|]. cbn [mapM map]. rewrite H by (left; reflexivity).
  rewrite IH by (intros y Hy; apply H; right; exact Hy). reflexivity.
Qed.
Lemma mapM_err {A B} (f : A -> result B) e x l : f x = Err e -> mapM f (x :: l) = Err e.
Proof. intros H. cbn. rewrite H. reflexivity. Qed.

Definition pairs (n m : nat) : list (nat * nat) := flat_map (fun i => map (fun j => (i, j)) (seq 1 m)) (seq 1 n).
Lemma coupling_eq a w : w = Wt \/ w = Wl -> coupling_cluster_ranks a w =
  Ok (map (fun p => (csymbol w ++ dec (fst p) ++ dec (snd p), couple w (fst p) (snd p), fst p, snd p)) (pairs (frank a) (brank a))).
Proof.
  intros Hw. unfold coupling_cluster_ranks. apply mapM_ok. intros [i j] _. cbn [fst snd]. destruct Hw as [->| ->]; [reflexivity|].
  unfold cadapt. cbn [bind]. f_equal. f_equal. f_equal. f_equal. unfold couple, slice.
  assert (Hb : length (repeat (chr_of "b") j) = j) by apply repeat_length.
  assert (Ho : length (repeat (chr_of "o") i) = i) by apply repeat_length.
  rewrite firstn_app, Hb, Nat.sub_diag. cbn [firstn]. rewrite app_nil_r, firstn_all2 by lia.
  f_equal. rewrite !skipn_app, Hb, Ho. rewrite skipn_all2 by lia. rewrite (@skipn_all2 _ (j + i - j)) by lia. rewrite (@skipn_all2 _ j) by lia. cbn [app].
  replace (j + i - j - i) with 0 by lia. replace (j - j) with 0 by lia. cbn [skipn]. f_equal.
  rewrite firstn_app, Ho. replace (j + i - j) with i by lia. rewrite Nat.sub_diag. cbn [firstn]. rewrite app_nil_r. apply firstn_all2. lia.
Qed.
Lemma in_pairs n m i j : In (i, j) (pairs n m) <-> 1 <= i <= n /\ 1 <= j <= m.
Proof.
  unfold pairs. rewrite in_flat_map. split.
  - intros (x & Hx & H). apply in_map_iff in H as (y & E & Hy). injection E as -> ->. rewrite in_seq in *. lia.
  - intros H. exists i. rewrite in_seq. split; [lia|]. apply in_map. rewrite in_seq. lia.
Qed.
Lemma NoDup_pairs n m : NoDup (pairs n m).
Proof.
  unfold pairs. apply NoDup_flat_map_intro.
  - apply seq_NoDup.
  - intros x Hx. apply NoDup_map_inj; [apply seq_NoDup|]. intros; congruence.
  - intros x y b Hx Hy Hz Hz'. apply in_map_iff in Hz as (? & <- & _). apply in_map_iff in Hz' as (? & E & _). congruence.
Qed.

Lemma coupling_refuses a w : w <> Wt -> w <> Wl -> 0 < frank a -> 0 < brank a -> coupling_cluster_ranks a w = Err ModelNotImplemented.
Proof.
  intros H1 H2 Hf Hb. unfold coupling_cluster_ranks. destruct (frank a) as [|n]; [lia|]. destruct (brank a) as [|m]; [lia|].
  cbn [seq flat_map map app]. apply mapM_err. destruct w; try congruence; reflexivity.
Qed.

Lemma num_app p a b : num p (a ++ b) = num p a + num p b.
Proof. unfold num. rewrite filter_app, app_length. reflexivity. Qed.
Lemma num_repeat p c n : num p (repeat c n) = if p c then n else 0.
Proof. unfold num. induction n as [|n IH]; cbn; [destruct (p c); reflexivity|]. destruct (p c) eqn:E; cbn; [f_equal; exact IH|exact IH]. Qed.

Lemma coupling_wf a w : w = Wt \/ w = Wl -> exists ranks, coupling_cluster_ranks a w = Ok ranks /\
  (forall i j, 1 <= i <= frank a -> 1 <= j <= brank a -> exists n k, In (n, k, i, j) ranks) /\
  (forall n k i j, In (n, k, i, j) ranks -> 1 <= i <= frank a /\ 1 <= j <= brank a /\ n = csymbol w ++ dec i ++ dec j /\
     num bos_letter k = j /\ num occ_letter k = i /\ num vir_letter k = i /\ length k = j + 2 * i) /\
  NoDup (map (fun e => (snd (fst e), snd e)) ranks).
Proof.
  intros Hw. rewrite coupling_eq by exact Hw. eexists. split; [reflexivity|]. split; [|split].
  - intros i j Hi Hj. eexists. eexists. apply in_map_iff. exists (i, j). split; [reflexivity|]. apply in_pairs. tauto.
  - intros n k i j H. apply in_map_iff in H as ([i' j'] & E & H). cbn [fst snd] in E. apply in_pairs in H.
    apply pair_equal_spec in E as [E <-]. apply pair_equal_spec in E as [E <-]. apply pair_equal_spec in E as [<- <-].
    split; [tauto|]. split; [tauto|]. split; [reflexivity|].
    assert (P : forall p, num p (couple w i' j') = (if p (chr_of "b") then j' else 0) + (if p (chr_of "o") then i' else 0) + (if p (chr_of "v") then i' else 0)).
    { intros p. unfold couple. rewrite num_app, num_repeat. destruct Hw as [->| ->]; rewrite num_app, !num_repeat; lia. }
    assert (L : length (couple w i' j') = j' + 2 * i').
    { unfold couple. rewrite (@app_length nat), repeat_length. destruct Hw as [->| ->]; rewrite (@app_length nat), !repeat_length; lia. }
    rewrite !P. 
    change (bos_letter (chr_of "b")) with true. change (bos_letter (chr_of "o")) with false. change (bos_letter (chr_of "v")) with false.
    change (occ_letter (chr_of "b")) with false. change (occ_letter (chr_of "o")) with true. change (occ_letter (chr_of "v")) with false.
    change (vir_letter (chr_of "b")) with false. change (vir_letter (chr_of "o")) with false. change (vir_letter (chr_of "v")) with true.
    split; [lia|]. split; [lia|]. split; [lia|exact L].
  - rewrite map_map. cbn [fst snd]. rewrite map_ext with (g := fun p => p) by (intros [? ?]; reflexivity). rewrite map_id. apply NoDup_pairs.
Qed.

Lemma coupling_lambda a ts : coupling_cluster_ranks a Wt = Ok ts -> exists ls, coupling_cluster_ranks a Wl = Ok ls /\
  Forall2 (fun t l => let '(nt, kt, it, jt) := t in let '(nl, kl, il, jl) := l in
                      nl = str "l" ++ nt /\ it = il /\ jt = jl /\ ph_transposed kt kl) ts ls.
Proof.
  rewrite coupling_eq by (left; reflexivity). intros H. apply Ok_inj in H. subst. rewrite coupling_eq by (right; reflexivity).
  eexists. split; [reflexivity|]. induction (pairs (frank a) (brank a)) as [|[i j] l IH]; cbn [map]; constructor; [|exact IH].
  cbn [fst snd]. repeat split. exists (repeat (chr_of "b") j), (repeat (chr_of "o") i), (repeat (chr_of "v") i).
  assert (F : forall (p : nat -> bool) (c n : nat), p c = true -> forallb p (repeat c n) = true).
  { intros p c n Hp. apply forallb_forall. intros x Hx. apply repeat_spec in Hx. subst. exact Hp. }
  repeat split; try (apply F; reflexivity). rewrite !repeat_length. reflexivity.
Qed.

Lemma dec_small n : n < 10 -> dec n = [48 + n].
Proof. intros H. unfold dec. cbn [dec_fuel]. rewrite (proj2 (Nat.ltb_lt n 10) H). reflexivity. Qed.

Lemma coupling_names a w ranks : w = Wt \/ w = Wl -> frank a < 10 -> brank a < 10 -> coupling_cluster_ranks a w = Ok ranks ->
  NoDup (map (fun e => fst (fst (fst e))) ranks).
Proof.
  intros Hw Hf Hb H. rewrite coupling_eq in H by exact Hw. apply Ok_inj in H. subst. rewrite map_map. cbn [fst snd].
  apply NoDup_map_inj; [apply NoDup_pairs|]. intros [i j] [i' j'] H1 H2 E. apply in_pairs in H1, H2. cbn [fst snd] in E.
  apply app_inv_head in E. rewrite !dec_small in E by lia. cbn [app] in E. injection E as E1 E2. f_equal; lia.
Qed.

Lemma fermionic_entries a rspin w ranks : fermionic_cluster_ranks a rspin w = Ok ranks ->
  NoDup ranks /\ StronglySorted (fun x y : entry => snd x <= snd y) ranks /\ forall e, In e ranks -> entry_ok w e.
Proof. intros H. apply ferm_inv in H as (H1 & H2 & H3). repeat split; try assumption. intros e He. eapply table_ok, H3, He. Qed.
Lemma names_distinct a rspin w ranks e1 e2 : fermionic_cluster_ranks a rspin w = Ok ranks ->
  In e1 ranks -> In e2 ranks -> fst (fst e1) = fst (fst e2) -> e1 <> e2 -> snd e1 = 3 /\ snd e2 = 3.
Proof. intros H H1 H2. apply ferm_inv in H as (_ & _ & H). apply (@table_names rspin w e1 e2); apply H; assumption. Qed.

Fixpoint str_nodup (l : list pystr) : bool :=
  match l with [] => true | x :: l' => negb (existsb (streqb x) l') && str_nodup l' end.
Lemma str_nodup_ok l : str_nodup l = true -> NoDup l.
Proof.
  induction l as [|x l IH]; cbn; intros H; [constructor|]. apply andb_true_iff in H as [H1 H2]. constructor; [|auto].
  intros I. apply negb_true_iff in H1. assert (existsb (streqb x) l = true); [|congruence]. apply existsb_exists. exists x. split; [exact I|].
  unfold streqb. destruct (pystr_eq_dec x x); congruence.
Qed.
Definition named_check : bool :=
  forallb (fun p => forallb (fun df => forallb (fun rs => forallb (fun w =>
    match from_string (fst p) df with
    | Ok a => match fermionic_cluster_ranks a rs w with
              | Ok ranks => str_nodup (map (fun e : entry => fst (fst e)) ranks) | Err _ => false end
    | Err _ => false end) [Wt; Wl; Wip; Wea; Wee]) [true; false]) [true; false]) named_ansatzes.
Lemma named_check_true : named_check = true.
Proof. vm_compute. reflexivity. Qed.
Lemma named_distinct n df a rspin w : In n (map fst named_ansatzes) -> from_string n df = Ok a ->
  exists ranks, fermionic_cluster_ranks a rspin w = Ok ranks /\ NoDup (map (fun e : entry => fst (fst e)) ranks).
Proof.
  intros Hn Ha. apply in_map_iff in Hn as (p & <- & Hp). pose proof named_check_true as X. unfold named_check in X.
  rewrite forallb_forall in X. specialize (X p Hp). rewrite forallb_forall in X. specialize (X df ltac:(destruct df; cbn; tauto)).
  rewrite forallb_forall in X. specialize (X rspin ltac:(destruct rspin; cbn; tauto)).
  rewrite forallb_forall in X. specialize (X w ltac:(destruct w; cbn; tauto)).
  rewrite Ha in X. destruct (fermionic_cluster_ranks a rspin w) as [ranks|]; [|discriminate]. exists ranks. split; [reflexivity|].
  apply str_nodup_ok, X.
Qed.

Lemma named_ok n df : In n (map fst named_ansatzes) ->
  exists a, from_string n df = Ok a /\ ansatz_name a = (if df then str "DF" else []) ++ n.
Proof.
  assert (X : forallb (fun n => match from_string n df with Ok a => streqb (ansatz_name a) ((if df then str "DF" else []) ++ n) | Err _ => false end)
                (map fst named_ansatzes) = true) by (destruct df; vm_compute; reflexivity).
  intros Hn. rewrite forallb_forall in X. specialize (X n Hn). destruct (from_string n df) as [a|]; [|discriminate]. exists a. split; [reflexivity|].
  unfold streqb in X. destruct (pystr_eq_dec _ _); [assumption|discriminate].
Qed.
Lemma unnamed_err n df : ~ In n (map fst named_ansatzes) -> from_string n df = Err ModelNotImplemented.
Proof.
  intros H. unfold from_string. assert (X : forall d : list (pystr * (pystr * pystr * nat * nat)), ~ In n (map fst d) -> dget pystr_eq_dec n d = None).
  { induction d as [|[k v] d IH]; intros N; [reflexivity|]. cbn. destruct (pystr_eq_dec n k) as [->|]; [exfalso; apply N; left; reflexivity|].
    apply IH. intros Y. apply N. right; exact Y. }
  rewrite X by exact H. reflexivity.
Qed.

Lemma quad_not_transposed : ~ ph_transposed (str "oooovvvv") (str "oooovvvv").
Proof.
  intros (b & o & v & HL & Hb & Ho & Hv & E1 & E2).
  assert (b = []).
  { destruct b as [|c b]; [reflexivity|]. exfalso. cbn [forallb] in Hb. apply andb_true_iff in Hb as [Hb _].
    cbn [app] in E1. assert (c = 111) by (change (str "oooovvvv") with (111 :: str "ooovvvv") in E1; congruence). subst c. discriminate. }
  subst b. cbn [app] in *.
  assert (length o = 4). { apply (f_equal (@length nat)) in E1. rewrite (@app_length nat) in E1. change (length (str "oooovvvv")) with 8 in E1. lia. }
  destruct v as [|c v]; [cbn in HL; lia|]. cbn [forallb] in Hv. apply andb_true_iff in Hv as [Hv _].
  cbn [app] in E2. assert (c = 111) by (change (str "oooovvvv") with (111 :: str "ooovvvv") in E2; congruence). subst c. discriminate.
Qed.

Lemma coupling_collision : exists a ranks n k i j k' i' j', coupling_cluster_ranks a Wt = Ok ranks /\
  In (n, k, i, j) ranks /\ In (n, k', i', j') ranks /\ (i, j) <> (i', j').
Proof.
  exists (mka (str "CCSD") (str "S") 11 11 false). eexists. exists (str "u111"), (couple Wt 1 11), 1, 11, (couple Wt 11 1), 11, 1.
  rewrite coupling_eq by (left; reflexivity). split; [reflexivity|]. split; [|split; [|discriminate]].
  - apply in_map_iff. exists (1, 11). split; [reflexivity|]. apply in_pairs. cbn. lia.
  - apply in_map_iff. exists (11, 1). split; [reflexivity|]. apply in_pairs. cbn. lia.
Qed.
