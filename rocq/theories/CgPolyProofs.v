(** Tensor polynomials: the operations compute what they should. *)
From Coq Require Import ZArith QArith Qreduction Lia Ring Field.
From Verif Require Import Base Alg ArrModel ListAux EinsumModel EinsumSpec TensorModel CgModel CgSpec CgFormSpec CgProofs CgPoly.
From Verif Require Import KernelProofs ArrProofs SymmProofs EinsumProofs EinsumThms EinPathThms TrilProofs.
Set Implicit Arguments.
Local Open Scope nat_scope.

Section Coef.
  Variable F : fld.
  Add Field FfieldPol : (fth F).
  Local Open Scope rng_scope.
  Hypothesis H0 : characteristic_zero F.

  Lemma rnat_pos p : @rnat F (Pos.to_nat p) <> 0.
  Proof. destruct (Pos2Nat.is_succ p) as [k ->]. apply H0. Qed.
  Lemma rZ_add a b : @rZ F (a + b) = rZ a + rZ b.
  Proof.
    assert (S1 : forall p q, (q < p)%positive -> @rnat F (Pos.to_nat (p - q)) = rnat (Pos.to_nat p) - rnat (Pos.to_nat q)).
    { intros p q H. pose proof (Pos2Nat.inj_lt q p). rewrite Pos2Nat.inj_sub by exact H.
      replace (Pos.to_nat p) with ((Pos.to_nat p - Pos.to_nat q) + Pos.to_nat q)%nat at 2 by lia. rewrite rnat_add. ring. }
    destruct a as [|p|p], b as [|q|q]; cbn [Z.add rZ]; try ring; try (rewrite Pos2Nat.inj_add, rnat_add; ring).
    - rewrite Z.pos_sub_spec. destruct (Pos.compare_spec p q) as [E|E|E]; cbn [rZ].
      + subst. ring.
      + rewrite S1 by exact E. ring.
      + rewrite S1 by exact E. ring.
    - rewrite Z.pos_sub_spec. destruct (Pos.compare_spec q p) as [E|E|E]; cbn [rZ].
      + subst. ring.
      + rewrite S1 by exact E. ring.
      + rewrite S1 by exact E. ring.
  Qed.
  Lemma rZ_mul a b : @rZ F (a * b) = rZ a * rZ b.
  Proof. destruct a as [|p|p], b as [|q|q]; cbn [Z.mul rZ]; try ring; rewrite Pos2Nat.inj_mul, rnat_mul; ring. Qed.

  Definition q2F (q : Q) : F := coef F (Qnum q) (Qden q).
  Lemma q2F_eq a b : (a == b)%Q -> q2F a = q2F b.
  Proof.
    intros E. unfold Qeq in E. assert (E' : @rZ F (Qnum a * Zpos (Qden b)) = rZ (Qnum b * Zpos (Qden a))) by (rewrite E; reflexivity).
    rewrite !rZ_mul in E'. unfold q2F, coef. cbn [rZ] in *. pose proof (rnat_pos (Qden a)). pose proof (rnat_pos (Qden b)).
    transitivity (@fdiv F (rZ (Qnum a) * rnat (Pos.to_nat (Qden b))) (rnat (Pos.to_nat (Qden a)) * rnat (Pos.to_nat (Qden b)))); [field; split; assumption|].
    rewrite E'. field. split; assumption.
  Qed.
  Lemma q2F_red a : q2F (Qred a) = q2F a.
  Proof. apply q2F_eq, Qred_correct. Qed.
  Lemma q2F_add a b : q2F (a + b) = q2F a + q2F b.
  Proof.
    unfold q2F, coef, Qplus. cbn [Qnum Qden]. rewrite rZ_add, !rZ_mul. cbn [rZ]. rewrite Pos2Nat.inj_mul, rnat_mul.
    pose proof (rnat_pos (Qden a)). pose proof (rnat_pos (Qden b)). field. split; assumption.
  Qed.
  Lemma q2F_mul a b : q2F (a * b) = q2F a * q2F b.
  Proof.
    unfold q2F, coef, Qmult. cbn [Qnum Qden]. rewrite !rZ_mul. cbn [rZ]. rewrite Pos2Nat.inj_mul, rnat_mul.
    pose proof (rnat_pos (Qden a)). pose proof (rnat_pos (Qden b)). field. split; assumption.
  Qed.
  Lemma q2F_opp a : q2F (- a) = - q2F a.
  Proof.
    unfold q2F, coef, Qopp. cbn [Qnum Qden]. pose proof (rnat_pos (Qden a)).
    replace (@rZ F (- Qnum a)) with (- @rZ F (Qnum a)) by (destruct (Qnum a); cbn; ring). cbn [rZ]. field. assumption.
  Qed.
  Lemma q2F_0 a : Qnum a = 0%Z -> q2F a = 0.
  Proof. intros E. unfold q2F, coef. rewrite E. cbn [rZ]. field. apply rnat_pos. Qed.
  Lemma q2F_1 : q2F 1 = 1.
  Proof. unfold q2F, coef. cbn [Qnum Qden rZ]. pose proof (rnat_pos 1). field. assumption. Qed.
  Lemma double_0 x : x = - x -> x = (0 : F).
  Proof.
    intros E. assert (E2 : x + x = 0) by (transitivity (- x + x); [f_equal; exact E|ring]).
    assert (E3 : @rnat F 2 * x = 0) by (transitivity (x + x); [cbn [rnat]; ring|exact E2]).
    transitivity (@fdiv F (rnat 2 * x) (rnat 2)); [field|rewrite E3; field]; apply (H0 1%nat).
  Qed.
End Coef.

(** Comparison. *)
Lemma cmpl_eq : forall a b, cmpl a b = Eq -> a = b.
Proof.
  induction a as [|x a IH]; intros [|y b]; cbn; try discriminate; [reflexivity|].
  destruct (Nat.compare_spec x y) as [E|E|E]; try discriminate. intros H. subst. f_equal. apply IH, H.
Qed.
Lemma cmpf_eq a b : cmpf a b = Eq -> a = b.
Proof.
  destruct a as [x l], b as [y m]. unfold cmpf. cbn [fst snd]. destruct (Pos.compare_spec x y) as [E|E|E]; try discriminate.
  intros H. apply cmpl_eq in H. subst. reflexivity.
Qed.
Lemma cmpfs_eq : forall a b, cmpfs a b = Eq -> a = b.
Proof.
  induction a as [|x a IH]; intros [|y b]; cbn; try discriminate; [reflexivity|].
  destruct (cmpf x y) eqn:E; try discriminate. apply cmpf_eq in E. intros H. subst. f_equal. apply IH, H.
Qed.
Lemma cmpt_eq a b : cmpt a b = Eq -> tf a = tf b /\ td a = td b.
Proof.
  unfold cmpt. destruct (cmpfs (tf a) (tf b)) eqn:E; try discriminate. apply cmpfs_eq in E. intros H. apply cmpl_eq in H. split; assumption.
Qed.

Section Sem.
  Variable F : fld.
  Add Field FfieldPol2 : (fth F).
  Local Open Scope rng_scope.
  Hypothesis H0 : characteristic_zero F.
  Variable sz : cls -> nat.
  Variable val : ref -> list nat -> F.

  Definition fsem (w : list nat) (f : fac) : F := val (fst f) (gather w (snd f)).
  Definition msem (fs : list fac) (w : list nat) : F := rprod (map (fsem w) fs).
  Definition tsem (t : term) (idx : list nat) : F :=
    q2F F (tq t) * rsum (map (fun d => msem (tf t) (idx ++ d)) (all_idx (map sz (td t)))).
  Definition psem (p : poly) (idx : list nat) : F := rsum (map (fun t => tsem t idx) p).

  Lemma psem_cons t p idx : psem (t :: p) idx = tsem t idx + psem p idx.
  Proof. reflexivity. Qed.
  Lemma psem_app p q idx : psem (p ++ q) idx = psem p idx + psem q idx.
  Proof. unfold psem. rewrite map_app. apply rsum_app. Qed.

  Lemma padd_cons a p b q : padd (a :: p) (b :: q) =
    match cmpt a b with
    | Lt => a :: padd p (b :: q)
    | Gt => b :: padd (a :: p) q
    | Eq => let c := Qred (Qplus (tq a) (tq b)) in
            if Z.eqb (Qnum c) 0 then padd p q else mkT c (td a) (tf a) :: padd p q
    end.
  Proof. reflexivity. Qed.
  Lemma padd_ok : forall p q idx, psem (padd p q) idx = psem p idx + psem q idx.
  Proof.
    induction p as [|a p IHp]; intros q idx.
    - destruct q; cbn; ring.
    - induction q as [|b q IHq]; [cbn [padd]; unfold psem at 3; cbn; ring|].
      rewrite padd_cons. destruct (cmpt a b) eqn:E.
      + apply cmpt_eq in E as [E1 E2]. cbv zeta. set (c := Qred (tq a + tq b)).
        assert (Ec : q2F F c = q2F F (tq a) + q2F F (tq b)) by (unfold c; rewrite q2F_red, q2F_add by exact H0; reflexivity).
        assert (Et : tsem (mkT c (td a) (tf a)) idx = tsem a idx + tsem b idx).
        { unfold tsem. cbn [tq td tf]. rewrite Ec, E1, E2. ring. }
        destruct (Z.eqb_spec (Qnum c) 0) as [Z0|Z0].
        * rewrite IHp, !psem_cons. assert (tsem a idx + tsem b idx = 0); [|transitivity (psem p idx + psem q idx + (tsem a idx + tsem b idx)); [rewrite H; ring|ring]].
          rewrite <- Et. unfold tsem. cbn [tq]. rewrite q2F_0 by assumption. ring.
        * rewrite psem_cons, IHp, !psem_cons, Et. ring.
      + rewrite psem_cons, IHp, !psem_cons. ring.
      + rewrite psem_cons, IHq, !psem_cons. ring.
  Qed.

  Definition lsem (l : list poly) (idx : list nat) : F := rsum (map (fun p => psem p idx) l).
  Lemma pairup_ok idx : forall l, lsem (pairup l) idx = lsem l idx.
  Proof.
    assert (H : forall n l, (length l <= n)%nat -> lsem (pairup l) idx = lsem l idx).
    { induction n as [|n IH]; intros [|a [|b l]] Hl; cbn in Hl; try reflexivity; try lia.
      cbn [pairup]. unfold lsem in *. cbn [map]. rewrite !rsum_cons, IH by lia. rewrite padd_ok. ring. }
    intros l. apply (H (length l)), le_n.
  Qed.
  Lemma psum_ok idx : forall f l, psem (psum f l) idx = lsem l idx.
  Proof.
    assert (H1 : forall a, psem a idx = lsem [a] idx) by (intros a; unfold lsem; cbn; ring).
    assert (Hf : forall l, psem (fold_right padd [] l) idx = lsem l idx).
    { induction l as [|a l IH]; [reflexivity|]. cbn [fold_right]. rewrite padd_ok, IH. reflexivity. }
    induction f as [|f IH]; intros [|a [|b l]]; cbn [psum]; try reflexivity; try apply H1.
    - apply Hf.
    - rewrite IH. apply pairup_ok.
  Qed.

  (** Normal forms. *)
  Variable syms : pmap (list (list nat * bool)).
  Hypothesis Hsym : forall x l, pget x syms = Some l -> forall axes neg, In (axes, neg) l ->
    (forall i, In i axes -> i < length axes)%nat /\
    forall idx, length idx = length axes -> val x (gather idx axes) = rsign neg (val x idx).

  Lemma rsign_mul b (x y : F) : rsign b x * y = rsign b (x * y).
  Proof. destruct b; cbn; ring. Qed.
  Lemma rsign_xorb a b (x : F) : rsign (xorb a b) x = rsign a (rsign b x).
  Proof. destruct a, b; cbn; ring. Qed.
  Lemma rsign_inv b (x : F) : rsign b (rsign b x) = x.
  Proof. destruct b; cbn; ring. Qed.

  Lemma gather_gather w ls ax : (forall i, In i ax -> i < length ls)%nat -> gather w (gather ls ax) = gather (gather w ls) ax.
  Proof.
    intros H. unfold gather. rewrite map_map. apply map_ext_in. intros i Hi.
    rewrite nth_map_lt with (d' := 0%nat) by (apply H, Hi). reflexivity.
  Qed.
  Lemma images_ok w x ls ls' neg : In (ls', neg) (images syms x ls) -> val x (gather w ls) = rsign neg (val x (gather w ls')).
  Proof.
    unfold images. intros [E|H]; [injection E as <- <-; reflexivity|]. destruct (pget x syms) as [l|] eqn:E; [|destruct H].
    apply in_map_iff in H as ([axes n'] & E1 & H). cbn [fst snd] in E1. injection E1 as <- <-. apply filter_In in H as [H HL].
    apply Nat.eqb_eq in HL. cbn [fst] in HL. destruct (Hsym _ E _ _ H) as [Hlt Hs].
    rewrite gather_gather by (intros i Hi; rewrite <- HL; apply Hlt, Hi). rewrite Hs by (unfold gather; rewrite map_length; lia). symmetry. apply rsign_inv.
  Qed.
  Lemma picks_perm {A} (l : list A) : forall x r, In (x, r) (picks l) -> Permutation l (x :: r).
  Proof.
    induction l as [|y l IH]; intros x r; cbn [picks]; [intros []|]. intros [E|H]; [injection E as <- <-; reflexivity|].
    apply in_map_iff in H as ([x' r'] & E & H). cbn [fst snd] in E. injection E as <- <-. rewrite (IH _ _ H). apply perm_swap.
  Qed.
  Lemma msem_perm l l' w : Permutation l l' -> msem l w = msem l' w.
  Proof. intros H. apply rprod_perm, Permutation_map, H. Qed.
  Lemma msem_app l l' w : msem (l ++ l') w = msem l w * msem l' w.
  Proof. unfold msem. rewrite map_app. apply rprod_app. Qed.
  Lemma msem_cons f l w : msem (f :: l) w = fsem w f * msem l w.
  Proof. reflexivity. Qed.

  Definition st_ok (fs : list fac) (s : state) : Prop :=
    forall w, msem fs w = rsign (s_neg s) (msem (s_done s) w * msem (s_rem s) w).
  Definition found_ok (fs : list fac) (c : found) : Prop := match c with None => True | Some (_, sts) => Forall (st_ok fs) sts end.
  Lemma try_image_ok n fs s x ls rem c im : st_ok fs s -> In ((x, ls), rem) (picks (s_rem s)) -> In im (images syms x ls) ->
    found_ok fs c -> found_ok fs (try_image n s x rem c im).
  Proof.
    intros Hs Hp Hi Hc.
    assert (A : forall a k, st_ok fs (mkst a k ((x, fst im) :: s_done s) rem (xorb (s_neg s) (snd im)))).
    { intros a k w. destruct im as [ls' neg]. cbn [fst snd s_neg s_done s_rem].
      rewrite (Hs w), (msem_perm _ (picks_perm _ _ _ Hp)), !msem_cons. unfold fsem at 1 2. cbn [fst snd].
      rewrite (@images_ok w _ _ _ _ Hi), rsign_xorb. destruct (s_neg s), neg; cbn [rsign]; ring. }
    unfold try_image. destruct (encode n (s_asg s) (s_next s) (fst im)) as [[e0 a0] k0].
    destruct c as [[[y enc] acc]|]; [|cbn; repeat constructor; apply A].
    destruct (Pos.compare x y); [|cbn; repeat constructor; apply A|exact Hc].
    destruct (encode_below n enc (s_asg s) (s_next s) (fst im)) as [[[|] [[e1 a1] k1]]|]; [| |exact Hc].
    - cbn. repeat constructor; apply A.
    - cbn in Hc |- *. constructor; [apply A|exact Hc].
  Qed.
  Lemma try_state_ok n fs c s : st_ok fs s -> found_ok fs c -> found_ok fs (try_state syms n c s).
  Proof.
    intros Hs. unfold try_state. destruct (s_rem s) as [|f0 fs0] eqn:Er; [intros H; exact H|]. rewrite <- Er.
    assert (H : forall l c, incl l (picks (s_rem s)) -> found_ok fs c ->
      found_ok fs (fold_left (fun cur p => if Pos.eqb (fst (fst p)) (minname (fst f0) fs0)
         then fold_left (try_image n s (minname (fst f0) fs0) (snd p)) (images syms (minname (fst f0) fs0) (snd (fst p))) cur else cur) l c)).
    2: { intros Hc. apply H; [intros ? I; exact I|exact Hc]. }
    induction l as [|[[x ls] r] l IH]; intros c0 Hl Hc; cbn [fold_left]; [exact Hc|]. apply IH; [intros ? I; apply Hl; right; exact I|].
    cbn [fst snd]. destruct (Pos.eqb_spec x (minname (fst f0) fs0)) as [->|]; [|exact Hc].
    assert (Hp := Hl _ (or_introl eq_refl)). clear IH Hl.
    assert (H : forall ims c, incl ims (images syms (minname (fst f0) fs0) ls) -> found_ok fs c ->
      found_ok fs (fold_left (try_image n s (minname (fst f0) fs0) r) ims c)).
    2: { apply H; [intros ? I; exact I|exact Hc]. }
    induction ims as [|im ims IH]; intros c1 Hi Hc1; cbn [fold_left]; [exact Hc1|]. apply IH; [intros ? I; apply Hi; right; exact I|].
    apply (@try_image_ok n fs s _ ls); [exact Hs|exact Hp|apply Hi; left; reflexivity|exact Hc1].
  Qed.
  Lemma search_ok n fs : forall m sts, Forall (st_ok fs) sts -> Forall (st_ok fs) (search syms n m sts).
  Proof.
    induction m as [|m IH]; intros sts H; cbn [search]; [exact H|].
    assert (A : forall c, found_ok fs c -> found_ok fs (fold_left (try_state syms n) sts c)).
    { clear IH. induction sts as [|s sts IH]; intros c Hc; cbn [fold_left]; [exact Hc|]. inversion H; subst. apply IH; [assumption|]. apply try_state_ok; assumption. }
    specialize (A None I). destruct (fold_left (try_state syms n) sts None) as [[f sts']|]; [|constructor]. apply IH, A.
  Qed.

  (** Renumbering the summed labels. *)
  Lemma gather_all_idx s pi : Permutation (seq 0 (length s)) pi ->
    Permutation (map (fun d => gather d pi) (all_idx s)) (all_idx (gather s pi)).
  Proof.
    intros Hp. pose proof (@perm_seq_length _ _ Hp) as HL.
    assert (Hp2 : Permutation (seq 0 (length pi)) pi) by (rewrite HL; exact Hp).
    assert (Hinv : forall d, length d = length s -> unperm pi (gather d pi) = d).
    { intros d Hd. apply nth_ext with (d := 0%nat) (d' := 0%nat); [rewrite unperm_length; congruence|].
      intros k Hk. rewrite unperm_length in Hk. assert (Ik : In k pi) by (apply (@perm_seq_lt _ _ k Hp); lia).
      destruct (index_of_in _ _ Ik) as [j Hj]. apply index_of_nth in Hj as [J1 J2]. rewrite <- J2 at 1. rewrite unperm_nth by assumption.
      unfold gather. rewrite nth_map_lt with (d' := 0%nat) by exact J1. rewrite J2. reflexivity. }
    apply NoDup_Permutation.
    - apply NoDup_map_inj; [apply all_idx_nodup|]. intros a b Ha Hb E. apply all_idx_in in Ha, Hb.
      rewrite <- (Hinv a (inb_length Ha)), <- (Hinv b (inb_length Hb)), E. reflexivity.
    - apply all_idx_nodup.
    - intros d. rewrite in_map_iff, all_idx_in. split.
      + intros (a & <- & Ha). apply all_idx_in in Ha. apply gather_inb; [|exact Ha]. intros k Hk. apply (@perm_seq_lt _ _ k Hp), Hk.
      + intros Hd. exists (unperm pi d). rewrite all_idx_in. split; [|apply unperm_inb; assumption].
        pose proof (inb_length Hd) as HLd. unfold gather in HLd. rewrite map_length in HLd.
        apply nth_ext with (d := 0%nat) (d' := 0%nat); [unfold gather; rewrite map_length; congruence|].
        intros k Hk. unfold gather in *. rewrite map_length in Hk. rewrite nth_map_lt with (d' := 0%nat) by exact Hk.
        apply unperm_nth; assumption.
  Qed.

  Lemma map_gather (g : nat -> nat) l ax : (forall i, In i ax -> i < length l)%nat -> map g (gather l ax) = gather (map g l) ax.
  Proof.
    intros H. unfold gather. rewrite map_map. apply map_ext_in. intros i Hi. symmetry. apply nth_map_lt, H, Hi.
  Qed.
  Lemma relabel_ok n pi idx d l : length idx = n -> Permutation (seq 0 (length d)) pi ->
    nth (relabel n pi l) (idx ++ gather d pi) 0%nat = nth l (idx ++ d) 0%nat.
  Proof.
    intros Hn Hp. pose proof (@perm_seq_length _ _ Hp) as HL. unfold relabel. destruct (Nat.ltb_spec l n) as [Hl|Hl].
    - rewrite !app_nth1 by lia. reflexivity.
    - destruct (index_of (l - n) pi) as [j|] eqn:E.
      + apply index_of_nth in E as [J1 J2]. rewrite (@app_nth2 _ _ _ _ (n + j)) by lia. rewrite app_nth2 by lia.
        replace (n + j - length idx)%nat with j by lia. unfold gather. rewrite nth_map_lt with (d' := 0%nat) by exact J1. rewrite J2, Hn. reflexivity.
      + assert (Hge : (length d <= l - n)%nat).
        { destruct (Nat.le_gt_cases (length d) (l - n)) as [|Hlt]; [assumption|]. exfalso.
          assert (I : In (l - n)%nat pi) by (apply (@perm_seq_lt _ _ (l - n) Hp); lia). destruct (index_of_in _ _ I) as [j Hj]. congruence. }
        rewrite !nth_overflow; [reflexivity| |]; rewrite app_length; unfold gather; rewrite ?map_length; lia.
  Qed.
  Lemma finish_ok n t s idx : length idx = n -> st_ok (tf t) s -> tsem (finish n t s) idx = tsem t idx.
  Proof.
    intros Hn Hs. unfold finish. set (pi := rev (map (fun p => (fst p - n)%nat) (s_asg s))).
    destruct (is_perm (length (td t)) pi) eqn:Ep; cbn [andb]; [|reflexivity].
    destruct (s_rem s) eqn:Er; [|reflexivity]. apply is_perm_iff in Ep.
    assert (Hlt : forall i, In i pi -> (i < length (td t))%nat) by (intros i Hi; apply (@perm_seq_lt _ _ i Ep), Hi).
    unfold tsem. cbn [tq td tf]. rewrite map_gather by exact Hlt.
    assert (Ep2 : Permutation (seq 0 (length (map sz (td t)))) pi) by (rewrite map_length; exact Ep).
    rewrite <- (@rsum_perm F _ _ (Permutation_map _ (gather_all_idx _ Ep2))). rewrite map_map.
    assert (E : rsum (map (fun d => msem (map (fun f => (fst f, map (relabel n pi) (snd f))) (rev (s_done s))) (idx ++ gather d pi)) (all_idx (map sz (td t))))
              = rsign (s_neg s) (rsum (map (fun d => msem (tf t) (idx ++ d)) (all_idx (map sz (td t)))))).
    { transitivity (rsum (map (fun d => rsign (s_neg s) (msem (tf t) (idx ++ d))) (all_idx (map sz (td t))))).
      - apply rsum_map_ext. intros d Hd. apply all_idx_in, inb_length in Hd. rewrite map_length in Hd.
        rewrite (Hs (idx ++ d)), rsign_inv, Er. change (msem [] (idx ++ d)) with (1 : F).
        transitivity (msem (rev (s_done s)) (idx ++ d)); [|rewrite (msem_perm _ (Permutation_sym (Permutation_rev (s_done s)))); ring].
        unfold msem. f_equal. rewrite map_map. apply map_ext. intros f. unfold fsem. cbn [fst snd]. f_equal.
        unfold gather. rewrite map_map. apply map_ext. intros l. apply relabel_ok; [exact Hn|]. rewrite Hd. exact Ep.
      - destruct (s_neg s); cbn [rsign]; [apply rsum_map_opp|reflexivity]. }
    rewrite E. destruct (s_neg s); cbn [rsign]; [rewrite q2F_opp by exact H0; ring|reflexivity].
  Qed.
  Lemma canon_ok n t idx : length idx = n -> psem (canon syms n t) idx = tsem t idx.
  Proof.
    intros Hn. unfold canon.
    assert (Hs : Forall (st_ok (tf t)) (search syms n (length (tf t)) [mkst [] n [] (tf t) false])).
    { apply search_ok. constructor; [|constructor]. intros w. cbn [s_neg s_done s_rem rsign]. change (msem [] w) with (1 : F). ring. }
    destruct (search syms n (length (tf t)) [mkst [] n [] (tf t) false]) as [|s rest]; [cbn; ring|].
    apply Forall_cons_iff in Hs as [Hs Hr]. cbv zeta. destruct (existsb _ _) eqn:E.
    - apply existsb_exists in E as (s' & Hi & E). apply filter_In in Hi as [Hi _]. rewrite Forall_forall in Hr. specialize (Hr _ Hi).
      pose proof (@finish_ok _ _ _ _ Hn Hs) as E1. pose proof (@finish_ok _ _ _ _ Hn Hr) as E2.
      destruct (cmpt (finish n t s) (finish n t s')) eqn:Ec; try discriminate. apply cmpt_eq in Ec as [C1 C2]. apply Z.eqb_eq in E.
      symmetry. change (psem [] idx) with (0 : F). apply (double_0 H0). rewrite <- E1 at 1. rewrite <- E2.
      unfold tsem. rewrite C1, C2. set (X := rsum _).
      assert (Eq : q2F F (tq (finish n t s)) + q2F F (tq (finish n t s')) = 0).
      { rewrite <- q2F_add by exact H0. rewrite <- q2F_red by exact H0. apply q2F_0; assumption. }
      transitivity ((q2F F (tq (finish n t s)) + q2F F (tq (finish n t s'))) * X - q2F F (tq (finish n t s')) * X); [ring|rewrite Eq; ring].
    - cbn. rewrite finish_ok by assumption. ring.
  Qed.
  Lemma norm_ok n ts idx : length idx = n -> psem (norm syms n ts) idx = psem ts idx.
  Proof.
    intros Hn. unfold norm. rewrite psum_ok. unfold lsem, psem at 2. rewrite map_map. apply rsum_map_ext. intros t _. apply canon_ok, Hn.
  Qed.
End Sem.
