(** The blocks of unrestricted amplitudes: names, extents, antisymmetry. *)
From Coq Require Import String ZArith Lia.
From Verif Require Import Base Alg ArrModel ArrProofs PermModel PermSpec TensorModel TensorSpec EinsumModel EinsumProofs EinPathModel SpaceModel AnsatzModel VecModel VecSpec ListAux CcModel CcThms CgModel CgSpec CgFormSpec CgNames CgRun CgRelSpec CgLagSpec CgCompare CgCompareProofs CgExpSpec FciModel FciSpec FciConvModel FciConvSpec FciConv1 FciConv2.
Set Implicit Arguments.
Local Open Scope list_scope.
Local Open Scope nat_scope.

Definition kinds (n nb : nat) : list cls := map kind (occupied_of (stored n nb) ++ virtual_of (stored n nb)).
Definition labels (n nb : nat) : list nat := occupied_of (stored n nb) ++ virtual_of (stored n nb).
Definition comb (n nb : nat) : pystr := map (fun b : bool => if b then chr_of "b" else chr_of "a") (stored n nb ++ stored n nb).
Definition prefix (w : sort) (n : nat) : pystr := match w with Cluster => t_name n | Coefficient => order_name n end.

Ltac all_blocks n nb Hn Hb := 
  destruct n as [|[|[|[|[|n]]]]]; try (exfalso; lia); (destruct nb as [|[|[|[|[|nb]]]]]; try (exfalso; lia)).
Lemma block_named w n nb : 1 <= n <= 4 -> nb <= n -> name_of (block_name w n nb) = Some (prefix w n, comb n nb).
Proof. intros Hn Hb. all_blocks n nb Hn Hb; destruct w; reflexivity. Qed.
Lemma comb_in n nb : 1 <= n <= 4 -> nb <= n -> In (comb n nb) (generate_spin_combinations n false true).
Proof.
  intros Hn Hb. assert (G : forallb (fun n => forallb (fun nb => if in_dec pystr_eq_dec (comb n nb) (generate_spin_combinations n false true) then true else false) (seq 0 (S n))) (seq 1 4) = true) by (vm_compute; reflexivity).
  rewrite forallb_forall in G. specialize (G n). rewrite forallb_forall in G. assert (X : (if in_dec pystr_eq_dec (comb n nb) (generate_spin_combinations n false true) then true else false) = true) by (apply G; apply in_seq; lia).
  destruct (in_dec _ _ _); [assumption|discriminate].
Qed.
Lemma in_comb n c : 1 <= n <= 4 -> In c (generate_spin_combinations n false true) -> exists nb, nb <= n /\ c = comb n nb.
Proof.
  intros Hn Hc. assert (G : forallb (fun n => forallb (fun c => existsb (fun nb => if pystr_eq_dec c (comb n nb) then true else false) (seq 0 (S n))) (generate_spin_combinations n false true)) (seq 1 4) = true) by (vm_compute; reflexivity).
  rewrite forallb_forall in G. specialize (G n). rewrite forallb_forall in G. assert (X : existsb (fun nb => if pystr_eq_dec c (comb n nb) then true else false) (seq 0 (S n)) = true) by (apply G; [apply in_seq; lia|exact Hc]).
  apply existsb_exists in X as (nb & Hnb & E). destruct (pystr_eq_dec _ _); [|discriminate]. exists nb. apply in_seq in Hnb. split; [lia|assumption].
Qed.
Lemma in_blocks w n xc : In xc (blocks w n) -> exists nb, nb <= n /\ xc = (block_name w n nb, kinds n nb).
Proof. unfold blocks. intros H. apply in_map_iff in H as (nb & <- & Hb). apply in_seq in Hb. exists nb. split; [lia|reflexivity]. Qed.
Lemma blocks_in w n nb : nb <= n -> In (block_name w n nb, kinds n nb) (blocks w n).
Proof. intros H. unfold blocks. apply in_map_iff. exists nb. split; [reflexivity|apply in_seq; lia]. Qed.
Lemma tensors_in w x cs : In (x, cs) (unrestricted_tensors w) -> exists n nb, 1 <= n <= 4 /\ nb <= n /\ x = block_name w n nb /\ cs = kinds n nb.
Proof.
  unfold unrestricted_tensors, tensors_of, own_unrestricted, unrestricted_of. intros H. apply in_map_iff in H as (q & E & H). apply in_flat_map in H as (n & Hn & H).
  apply in_map_iff in H as (nb & <- & Hb). apply in_seq in Hb. cbn [fst snd] in E. injection E as <- <-. exists n, nb. unfold orders in Hn. cbn in Hn. repeat split; try lia; intuition lia.
Qed.
Lemma lookup_block w n nb f : 1 <= n <= 4 -> nb <= n ->
  CgFormSpec.lookup (unrestricted_of w f) (block_name w n nb) (kinds n nb) = (labels n nb, f (occupied_of (stored n nb)) (virtual_of (stored n nb))).
Proof. intros Hn Hb. all_blocks n nb Hn Hb; destruct w; reflexivity. Qed.
Lemma hasb_of w f x cs : hasb (unrestricted_of w f) x cs = hasb (unrestricted_of w (fun _ _ => [])) x cs.
Proof. reflexivity. Qed.
Lemma other_block w w' n nb f : 1 <= n <= 4 -> nb <= n -> w <> w' -> hasb (unrestricted_of w' f) (block_name w n nb) (kinds n nb) = false.
Proof. intros Hn Hb Hw. rewrite hasb_of. all_blocks n nb Hn Hb; destruct w, w'; try congruence; reflexivity. Qed.
Lemma own_block w n nb f : 1 <= n <= 4 -> nb <= n -> hasb (unrestricted_of w f) (block_name w n nb) (kinds n nb) = true.
Proof. intros Hn Hb. rewrite hasb_of. all_blocks n nb Hn Hb; destruct w; reflexivity. Qed.
Lemma labels_nodup n nb : 1 <= n <= 4 -> nb <= n -> NoDup (labels n nb).
Proof. intros Hn Hb. all_blocks n nb Hn Hb; vm_compute; repeat constructor; cbn; intuition discriminate. Qed.
Lemma own_is w n nb : 1 <= n <= 4 -> nb <= n -> CgExpSpec.in_blocks w (occupied_of (stored n nb)) (virtual_of (stored n nb)) = [mono 1 1 [(block_name w n nb, labels n nb)]].
Proof. intros Hn Hb. all_blocks n nb Hn Hb; destruct w; reflexivity. Qed.
Lemma factor_is n nb : 1 <= n <= 4 -> nb <= n -> spin_factor (occupied_of (stored n nb)) = spins_factor n (comb n nb).
Proof. intros Hn Hb. all_blocks n nb Hn Hb; reflexivity. Qed.
Lemma factor_pos n nb : 1 <= n <= 4 -> nb <= n -> exists k, spins_factor n (comb n nb) = S k.
Proof. intros Hn Hb. all_blocks n nb Hn Hb; eexists; reflexivity. Qed.

(** Extents. *)
Lemma sized_iff {A} (f : A -> result nat) (g : A -> nat) l : (forall a, In a l -> f a = Ok (g a)) -> forall s, Forall2 (fun a n => f a = Ok n) l s <-> s = map g l.
Proof.
  induction l as [|a l IH]; intros H s; split; intros E.
  - inversion E. reflexivity.
  - subst. constructor.
  - inversion E as [|? n ? s' E1 E2]; subst. cbn [map]. rewrite (H a (or_introl eq_refl)) in E1. injection E1 as <-. f_equal. apply IH; [intros b Hb; apply H; right; exact Hb|exact E2].
  - subst. cbn [map]. constructor; [apply H; left; reflexivity|]. apply IH; [intros b Hb; apply H; right; exact Hb|reflexivity].
Qed.
Lemma block_sized sa sb sz n nb s : spin_sizes sa sb sz -> 1 <= n <= 4 -> nb <= n -> (spin_sized_by sa sb (excitation_key n) (comb n nb) s <-> s = map sz (kinds n nb)).
Proof.
  intros (Z4 & Z5 & Z6 & Z7) Hn Hb.
  pose (g := fun sk : nat * nat => if fst sk =? chr_of "a" then if snd sk =? chr_of "O" then sz 4 else sz 5 else if snd sk =? chr_of "O" then sz 6 else sz 7).
  unfold spin_sized_by. rewrite (@sized_iff _ _ g).
  - replace (map g (combine (comb n nb) (excitation_key n))) with (map sz (kinds n nb)); [reflexivity|]. unfold g. all_blocks n nb Hn Hb; reflexivity.
  - intros a Ha. assert (Hk : snd a = chr_of "O" \/ snd a = chr_of "V").
    { destruct a as [s0 k]. apply in_combine_r in Ha. unfold excitation_key in Ha. apply in_app_or in Ha as [Ha|Ha]; apply repeat_spec in Ha; cbn; tauto. }
    unfold g. destruct (fst a =? chr_of "a"); destruct Hk as [-> | ->]; cbn; [rewrite Z4|rewrite Z5|rewrite Z6|rewrite Z7]; reflexivity.
Qed.

(** Antisymmetry under exchanges gives antisymmetry under all permutations. *)
Fixpoint place (t : nat) (l : list nat) : nat := match l with [] => 0 | x :: l' => if x =? t then 0 else S (place t l') end.
Fixpoint exchanges_to (target : list nat) (ps : list nat) (cur : list nat) : list (nat * nat) :=
  match ps with
  | [] => []
  | p :: ps' => let q := place (nth p target 0) cur in if q =? p then exchanges_to target ps' cur else (p, q) :: exchanges_to target ps' (exchange p q cur)
  end.
Definition swap_ok (n nb : nat) (w : nat * nat) : bool :=
  let N := 2 * n in
  (fst w <? N) && (snd w <? N) && negb (fst w =? snd w) && (nth (fst w) (excitation_key n) 0 =? nth (snd w) (excitation_key n) 0) &&
                    (nth (fst w) (comb n nb) 0 =? nth (snd w) (comb n nb) 0) && (nth (fst w) (kinds n nb) 0 =? nth (snd w) (kinds n nb) 0).
Definition perm_ok (n nb : nat) (an : list nat * bool) : bool :=
  let N := 2 * n in
  let ws := exchanges_to (fst an) (seq 0 N) (seq 0 N) in
  (if list_eq_dec Nat.eq_dec (fold_left (fun l w => exchange (fst w) (snd w) l) ws (seq 0 N)) (fst an) then true else false) &&
  Bool.eqb (Nat.odd (length ws)) (snd an) &&
  forallb (swap_ok n nb) ws.
Lemma perms_ok : forallb (fun n => forallb (fun nb => forallb (perm_ok n nb) (tl (both n (spin_permutations (stored n nb))))) (seq 0 (S n))) (seq 1 4) = true.
Proof. vm_compute. reflexivity. Qed.
Lemma antisymmetry_in w x l : In (x, l) (unrestricted_antisymmetry w) -> exists n nb, 1 <= n <= 4 /\ nb <= n /\ x = block_name w n nb /\ l = tl (both n (spin_permutations (stored n nb))).
Proof.
  unfold unrestricted_antisymmetry. intros H. apply in_flat_map in H as (n & Hn & H). apply in_map_iff in H as (nb & E & Hb). apply in_seq in Hb. injection E as <- <-.
  exists n, nb. unfold orders in Hn. cbn in Hn. repeat split; try lia; intuition lia.
Qed.
Lemma block_name_inj w n nb n' nb' : 1 <= n <= 4 -> nb <= n -> 1 <= n' <= 4 -> nb' <= n' -> block_name w n nb = block_name w n' nb' -> n = n' /\ nb = nb'.
Proof. intros H1 H2 H3 H4. all_blocks n nb H1 H2; all_blocks n' nb' H3 H4; destruct w; cbn; intros E; first [discriminate E|split; reflexivity]. Qed.
Lemma exchange_length i j l : length (exchange i j l) = length l.
Proof. unfold exchange. rewrite map_length, seq_length. reflexivity. Qed.
Lemma nth_exchange i j l k : k < length l -> nth k (exchange i j l) 0 = nth (if k =? i then j else if k =? j then i else k) l 0.
Proof. intros H. unfold exchange. rewrite nth_indep with (d' := nth (if 0 =? i then j else if 0 =? j then i else 0) l 0) by (rewrite map_length, seq_length; exact H).
  rewrite (map_nth (fun k => nth (if k =? i then j else if k =? j then i else k) l 0)). rewrite seq_nth by exact H. reflexivity. Qed.
Lemma exchange_map i j (f : nat -> nat) l : i < length l -> j < length l -> map f (exchange i j l) = exchange i j (map f l).
Proof.
  intros Hi Hj. unfold exchange. rewrite map_length, map_map. apply map_ext_in. intros k Hk. apply in_seq in Hk.
  assert (L : (if k =? i then j else if k =? j then i else k) < length l) by (destruct (k =? i); [lia|destruct (k =? j); lia]).
  rewrite <- (map_nth f). apply nth_indep. rewrite map_length. exact L.
Qed.
Lemma inb_nth s idx : inb s idx <-> length idx = length s /\ forall k, k < length s -> nth k idx 0 < nth k s 0.
Proof.
  split.
  - intros H. induction H as [|i x idx s H1 H2 IH]; [split; [reflexivity|intros k Hk; cbn in Hk; lia]|]. destruct IH as [L G]. split; [cbn; congruence|].
    intros [|k] Hk; cbn in *; [exact H1|apply G; lia].
  - revert idx. induction s as [|x s IH]; intros [|i idx] [L G]; try discriminate; [constructor|]. constructor; [apply (G 0); cbn; lia|]. apply IH. split; [cbn in L; lia|].
    intros k Hk. apply (G (S k)). cbn. lia.
Qed.
Lemma exchange_inb i j s idx : i < length s -> j < length s -> nth i s 0 = nth j s 0 -> inb s idx -> inb s (exchange i j idx).
Proof.
  intros Hi Hj E H. apply inb_nth in H as [L G]. apply inb_nth. split; [rewrite exchange_length; exact L|]. intros k Hk. rewrite nth_exchange by lia.
  destruct (Nat.eqb_spec k i) as [->|]; [rewrite E; apply G; exact Hj|]. destruct (Nat.eqb_spec k j) as [->|]; [rewrite <- E; apply G; exact Hi|apply G; exact Hk].
Qed.
Section Antisymmetry.
  Variable F : fld.
  Local Open Scope rng_scope.
  Add Field FfieldFciConv3 : (fth F).
  Lemma all_permutations n nb (x : arr F) sz : 1 <= n <= 4 -> nb <= n -> shp x = map sz (kinds n nb) -> spin_antisymmetric (excitation_key n) (comb n nb) x ->
    forall axes neg, In (axes, neg) (tl (both n (spin_permutations (stored n nb)))) -> forall idx, inb (shp x) idx ->
    aget 0 x (map (fun i => nth i idx 0%nat) axes) = rsign neg (aget 0 x idx).
  Proof.
    intros Hn Hb Es Ha axes neg Hin idx Hi. pose proof perms_ok as P. rewrite forallb_forall in P. specialize (P n). rewrite forallb_forall in P.
    assert (Q : forallb (perm_ok n nb) (tl (both n (spin_permutations (stored n nb)))) = true) by (apply P; apply in_seq; lia).
    rewrite forallb_forall in Q. specialize (Q _ Hin). clear P Hin. unfold perm_ok in Q. cbn [fst snd] in Q. set (ws := exchanges_to _ _ _) in Q. clearbody ws.
    apply andb_prop in Q as [Q W]. apply andb_prop in Q as [Q N]. destruct (list_eq_dec _ _ _) as [E|]; [|discriminate]. clear Q.
    apply Bool.eqb_prop in N. subst neg. rewrite forallb_forall in W.
    assert (KL : length (kinds n nb) = (2 * n)%nat) by (all_blocks n nb Hn Hb; reflexivity).
    assert (SL : length (shp x) = (2 * n)%nat) by (rewrite Es, map_length; exact KL).
    assert (EL : length (excitation_key n) = (2 * n)%nat) by (unfold excitation_key; rewrite app_length, !repeat_length; lia).
    assert (IL : length idx = (2 * n)%nat) by (apply inb_length in Hi; congruence).
    assert (G : forall ws l, (forall w, In w ws -> swap_ok n nb w = true) -> length l = (2 * n)%nat -> inb (shp x) (map (fun i => nth i idx 0%nat) l) ->
              aget 0 x (map (fun i => nth i idx 0%nat) (fold_left (fun l w => exchange (fst w) (snd w) l) ws l)) = rsign (Nat.odd (length ws)) (aget 0 x (map (fun i => nth i idx 0%nat) l))).
    { clear ws W E. intros ws. induction ws as [|w ws IH]; intros l W Hl Hx; [reflexivity|]. cbn [fold_left length].
      pose proof (W w (or_introl eq_refl)) as Ww. unfold swap_ok in Ww. rewrite !Bool.andb_true_iff, Bool.negb_true_iff, !Nat.ltb_lt, !Nat.eqb_eq, Nat.eqb_neq in Ww.
      destruct Ww as (((((W1 & W2) & W3) & W4) & W5) & W6).
      assert (X : inb (shp x) (map (fun i => nth i idx 0%nat) (exchange (fst w) (snd w) l))).
      { rewrite exchange_map by lia. apply exchange_inb; [lia|lia| |exact Hx]. rewrite Es. rewrite !nth_indep with (d := 0%nat) (d' := sz 0%nat) by (rewrite map_length; lia). rewrite !map_nth, W6. reflexivity. }
      rewrite IH; [|intros w' Hw'; apply W; right; exact Hw'|rewrite exchange_length; exact Hl|exact X].
      rewrite exchange_map by lia. rewrite (Ha _ (fst w) (snd w) Hx) by (lia || assumption).
      rewrite Nat.odd_succ, <- Nat.negb_odd. destruct (Nat.odd (length ws)); cbn [rsign negb]; ring. }
    rewrite <- E, (G ws (seq 0 (2 * n))); [|exact W|apply seq_length|].
    - rewrite <- IL, map_nth_seq. reflexivity.
    - rewrite <- IL, map_nth_seq. exact Hi.
  Qed.
End Antisymmetry.
