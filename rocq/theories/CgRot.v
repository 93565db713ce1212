(** Rotations of the orbitals. *)
From Verif Require Import Base Alg ArrModel ListAux TensorModel EinsumModel EinsumSpec EinPathModel EinPathSpec CgModel CgSpec CgProofs.
From Verif Require Import KernelProofs ArrProofs SymmProofs EinsumProofs EinsumThms EinPathThms.
From Coq Require Import ZArith Ring Field Lia.
Set Implicit Arguments.

(** Summed labels occur twice and output labels once. *)
Definition rot_ein (fs : list (list nat * (list cls * unit))) (out : list nat) : option unit :=
  let all := concat (map fst fs) in
  if forallb (fun l => count_occ Nat.eq_dec all l =? (if memb l out then 1 else 2))%nat all then Some tt else None.
Definition rot_ops : dops := mkops rot_ein (fun _ _ _ => Some tt) (fun _ _ => Some tt) (fun _ => Some tt) (fun _ => Some tt).

Section Rot.
  Variable F : fld.
  Add Field FfieldRot : (fth F).
  Local Open Scope rng_scope.
  Variable sz : cls -> nat.
  Variable U : cls -> nat -> nat -> F.
  Hypothesis HU : orthogonal F sz U.

  (** Sums with a Kronecker delta. *)
  Lemma sum_delta n (f : nat -> F) y : (y < n)%nat -> rsum (map (fun z => (if (y =? z)%nat then 1 else 0) * f z) (seq 0 n)) = f y.
  Proof.
    intros Hy. assert (H : forall l, NoDup l -> rsum (map (fun z => (if (y =? z)%nat then 1 else 0) * f z) l) = if in_dec Nat.eq_dec y l then f y else 0).
    { induction l as [|z l IH]; intros Hn; [reflexivity|]. inversion Hn as [|? ? Hz Hl]; subst. cbn [map]. rewrite rsum_cons, (IH Hl).
      destruct (Nat.eqb_spec y z) as [->|N].
      - destruct (in_dec Nat.eq_dec z l) as [C|C]; [contradiction|]. destruct (in_dec Nat.eq_dec z (z :: l)) as [_|C']; [ring|exfalso; apply C'; left; reflexivity].
      - destruct (in_dec Nat.eq_dec y l) as [C|C], (in_dec Nat.eq_dec y (z :: l)) as [C'|C']; try ring.
        + exfalso; apply C'; right; exact C.
        + exfalso. destruct C' as [C'|C']; [congruence|contradiction]. }
    rewrite H by apply seq_NoDup. destruct (in_dec Nat.eq_dec y (seq 0 n)) as [C|C]; [reflexivity|exfalso; apply C, in_seq; lia].
  Qed.

  (** The same sum, one axis after another. *)
  Fixpoint rot (cs : list cls) (f : list nat -> F) (idx : list nat) : F :=
    match cs, idx with
    | c :: cs', i :: idx' => rsum (map (fun x => U c i x * rot cs' (fun js => f (x :: js)) idx') (seq 0 (sz c)))
    | _, _ => f []
    end.
  Lemma rotated_rot cs : forall f idx, length idx = length cs -> rotated F sz U cs f idx = rot cs f idx.
  Proof.
    unfold rotated. induction cs as [|c cs IH]; intros f [|i idx] HL; try discriminate.
    - cbn. ring.
    - cbn [rot map]. unfold all_idx. cbn [map product].
      rewrite rsum_flat_map. apply rsum_map_ext. intros x _. rewrite map_map.
      rewrite <- IH by (cbn in HL; congruence). rewrite <- rsum_map_mul_l. apply rsum_map_ext. intros js _.
      cbn [combine map rprod fold_right fst snd]. fold (rprod (map (fun p : cls * (nat * nat) => U (fst p) (fst (snd p)) (snd (snd p))) (combine cs (combine idx js)))). ring.
  Qed.

  Section Positions.
    Variable kd : nat -> cls.      (* kind of a label *)
    Variable lab : nat -> nat.     (* label of a position *)
    Let szl l := sz (kd l).

    (** Sum over the rotated axes at positions [P], [e] giving the labels and [j] the other positions. *)
    Fixpoint rotsum (P : list nat) (Phi : (nat -> nat) -> F) (e j : nat -> nat) : F :=
      match P with
      | [] => Phi j
      | q :: P' => rsum (map (fun x => U (kd (lab q)) (e (lab q)) x * rotsum P' Phi e (upd j q x)) (seq 0 (szl (lab q))))
      end.

    Lemma rotsum_ext P Phi1 Phi2 e : forall j, (forall j', (forall q, ~ In q P -> j' q = j q) -> Phi1 j' = Phi2 j') ->
      rotsum P Phi1 e j = rotsum P Phi2 e j.
    Proof.
      induction P as [|q P IH]; intros j H; cbn [rotsum]; [apply H; reflexivity|].
      apply rsum_map_ext. intros x _. f_equal. apply IH. intros j' Hj. apply H. intros p Hp. cbn in Hp.
      rewrite Hj by tauto. unfold upd. destruct (Nat.eqb_spec p q) as [->|]; [tauto|reflexivity].
    Qed.
    Lemma rotsum_env P Phi e e' : (forall q, In q P -> e (lab q) = e' (lab q)) -> forall j, rotsum P Phi e j = rotsum P Phi e' j.
    Proof.
      induction P as [|q P IH]; intros H j; cbn [rotsum]; [reflexivity|].
      rewrite (H q) by (left; reflexivity). apply rsum_map_ext. intros x _. f_equal. apply IH. intros p Hp. apply H. right. exact Hp.
    Qed.
    Lemma rotsum_resp P Phi e : respects F Phi -> respects F (rotsum P Phi e).
    Proof.
      intros HP. induction P as [|q P IH]; intros j j' Hj; cbn [rotsum]; [apply HP, Hj|].
      apply rsum_map_ext. intros x _. f_equal. apply IH. intros c. unfold upd. destruct (c =? q)%nat; [reflexivity|apply Hj].
    Qed.
    Lemma rotsum_perm P P' Phi e : respects F Phi -> NoDup P -> Permutation P P' -> forall j, rotsum P Phi e j = rotsum P' Phi e j.
    Proof.
      intros HP Hn Hp. induction Hp as [|q P P' Hp IH|q p P|P P' P'' H1 IH1 H2 IH2]; intros j.
      - reflexivity.
      - cbn [rotsum]. apply rsum_map_ext. intros x _. f_equal. apply IH. inversion Hn; assumption.
      - cbn [rotsum].
        transitivity (rsum (map (fun x => rsum (map (fun y => U (kd (lab p)) (e (lab p)) x * (U (kd (lab q)) (e (lab q)) y * rotsum P Phi e (upd (upd j p x) q y))) (seq 0 (szl (lab q))))) (seq 0 (szl (lab p))))).
        { apply rsum_map_ext. intros x _. rewrite rsum_map_mul_l. reflexivity. }
        rewrite rsum_swap. apply rsum_map_ext. intros y _. rewrite <- rsum_map_mul_l. apply rsum_map_ext. intros x _.
        assert (E : rotsum P Phi e (upd (upd j p x) q y) = rotsum P Phi e (upd (upd j q y) p x)); [|rewrite E; ring].
        apply rotsum_resp; [exact HP|]. intros c. unfold upd. destruct (Nat.eqb_spec c q) as [E1|], (Nat.eqb_spec c p) as [E2|]; try reflexivity.
        exfalso. inversion Hn as [|? ? Hq _]; subst. apply Hq. left. congruence.
      - rewrite (IH1 Hn). apply IH2. apply (Permutation_NoDup H1 Hn).
    Qed.
    Lemma rotsum_sum {A} P (Phi : A -> (nat -> nat) -> F) e l : forall j,
      rotsum P (fun j => rsum (map (fun y => Phi y j) l)) e j = rsum (map (fun y => rotsum P (Phi y) e j) l).
    Proof.
      induction P as [|q P IH]; intros j; cbn [rotsum]; [reflexivity|].
      transitivity (rsum (map (fun x => rsum (map (fun y => U (kd (lab q)) (e (lab q)) x * rotsum P (Phi y) e (upd j q x)) l)) (seq 0 (szl (lab q))))).
      { apply rsum_map_ext. intros x _. rewrite IH, rsum_map_mul_l. reflexivity. }
      apply rsum_swap.
    Qed.
    Lemma rotsum_shift P Phi e q y : respects F Phi -> ~ In q P -> forall j,
      rotsum P Phi e (upd j q y) = rotsum P (fun j' => Phi (upd j' q y)) e j.
    Proof.
      intros HP. induction P as [|p P IH]; intros Hq j; cbn [rotsum]; [reflexivity|]. cbn in Hq.
      apply rsum_map_ext. intros x _. f_equal. rewrite <- IH by tauto. apply rotsum_resp; [exact HP|].
      intros c. unfold upd. destruct (Nat.eqb_spec c q) as [E1|], (Nat.eqb_spec c p) as [E2|]; try reflexivity. exfalso. apply Hq. left. congruence.
    Qed.

    (** One factor, and products of factors. *)
    Lemma rot_rotsum e blk : NoDup blk -> forall (f : list nat -> F) j,
      rot (map (fun q => kd (lab q)) blk) f (map (fun q => e (lab q)) blk) = rotsum blk (fun j' => f (map j' blk)) e j.
    Proof.
      induction blk as [|q blk IH]; intros Hn f j; cbn [rotsum rot map]; [reflexivity|]. inversion Hn as [|? ? Hq Hb]; subst.
      apply rsum_map_ext. intros x _. f_equal. rewrite (IH Hb (fun js => f (x :: js)) (upd j q x)).
      apply rotsum_ext. intros j' Hj. rewrite (Hj q Hq). unfold upd. rewrite Nat.eqb_refl. reflexivity.
    Qed.
    Lemma rotsum_const P Phi1 Phi2 e : forall j, (forall j', (forall q, ~ In q P -> j' q = j q) -> Phi1 j' = Phi1 j) ->
      rotsum P (fun j => Phi1 j * Phi2 j) e j = Phi1 j * rotsum P Phi2 e j.
    Proof.
      induction P as [|q P IH]; intros j H1; cbn [rotsum]; [reflexivity|].
      rewrite <- rsum_map_mul_l. apply rsum_map_ext. intros x _.
      rewrite IH.
      - rewrite (H1 (upd j q x)); [ring|]. intros p Hp. unfold upd. destruct (Nat.eqb_spec p q) as [->|]; [cbn in Hp; tauto|reflexivity].
      - intros j' Hj. rewrite (H1 j'), (H1 (upd j q x)); [reflexivity| |].
        + intros p Hp. unfold upd. destruct (Nat.eqb_spec p q) as [->|]; [cbn in Hp; tauto|reflexivity].
        + intros p Hp. cbn in Hp. rewrite Hj by tauto. unfold upd. destruct (Nat.eqb_spec p q) as [->|]; [tauto|reflexivity].
    Qed.
    Lemma rotsum_app P1 P2 Phi1 Phi2 e : (forall q, In q P1 -> ~ In q P2) ->
      (forall j j', (forall q, In q P1 -> j q = j' q) -> Phi1 j = Phi1 j') ->
      (forall j j', (forall q, In q P2 -> j q = j' q) -> Phi2 j = Phi2 j') ->
      forall S1 j, (forall j j', (forall q, In q (S1 ++ P1) -> j q = j' q) -> Phi1 j = Phi1 j') -> (forall q, In q S1 -> ~ In q P2) ->
      rotsum (P1 ++ P2) (fun j => Phi1 j * Phi2 j) e j = rotsum P1 Phi1 e j * rotsum P2 Phi2 e j.
    Proof.
      intros Hd _ H2. induction P1 as [|q P1 IH]; intros S1 j H1 HS; cbn [app rotsum].
      - rewrite rotsum_const; [reflexivity|]. intros j' Hj. apply H1. rewrite app_nil_r. intros p Hp. apply Hj. apply HS, Hp.
      - rewrite <- rsum_map_mul_r. apply rsum_map_ext. intros x _.
        rewrite (IH (fun p Hp => Hd p (or_intror Hp)) (S1 ++ [q]) (upd j q x)).
        + assert (E : rotsum P2 Phi2 e (upd j q x) = rotsum P2 Phi2 e j); [|rewrite E; ring].
          assert (Hq : ~ In q P2) by (apply Hd; left; reflexivity).
          assert (R2 : respects F Phi2) by (intros a b Hab; apply H2; intros c _; apply Hab).
          rewrite rotsum_shift by assumption. apply rotsum_ext. intros j' _. apply H2. intros p Hp. unfold upd.
          destruct (Nat.eqb_spec p q) as [->|]; [contradiction|reflexivity].
        + intros a b Hab. apply H1. intros p Hp. apply Hab. rewrite <- app_assoc. exact Hp.
        + intros p Hp. apply in_app_iff in Hp as [Hp|[<-|[]]]; [apply HS, Hp|apply Hd; left; reflexivity].
    Qed.

    (** A label summed over at exactly two positions. *)
    Lemma contract_label l q1 q2 P Phi e j : respects F Phi -> NoDup (q1 :: q2 :: P) -> lab q1 = l -> lab q2 = l ->
      (forall q, In q P -> lab q <> l) ->
      rsum (map (fun x => rotsum (q1 :: q2 :: P) Phi (upd e l x) j) (seq 0 (szl l))) =
      rotsum P (fun j' => rsum (map (fun y => Phi (upd (upd j' q1 y) q2 y)) (seq 0 (szl l)))) e j.
    Proof.
      intros HP Hn L1 L2 HPl. inversion Hn as [|? ? N1 N']; subst. inversion N' as [|? ? N2 N3]; subst.
      cbn [rotsum]. rewrite L2. unfold upd at 1 3. rewrite Nat.eqb_refl. set (l := lab q1) in *.
      set (R := fun y z => rotsum P Phi e (upd (upd j q1 y) q2 z)).
      transitivity (rsum (map (fun x => rsum (map (fun y => rsum (map (fun z => U (kd l) x y * U (kd l) x z * R y z) (seq 0 (szl l)))) (seq 0 (szl l)))) (seq 0 (szl l)))).
      { apply rsum_map_ext. intros x _. apply rsum_map_ext. intros y _. rewrite <- rsum_map_mul_l. apply rsum_map_ext. intros z _.
        rewrite (@rotsum_env P Phi (upd e l x) e); [unfold R; replace (upd e l x l) with x by (unfold upd; rewrite Nat.eqb_refl; reflexivity); ring|].
        intros q Hq. unfold upd. destruct (Nat.eqb_spec (lab q) l) as [E|]; [exfalso; apply (HPl q Hq E)|reflexivity]. }
      rewrite rsum_swap.
      transitivity (rsum (map (fun y => R y y) (seq 0 (szl l)))).
      - apply rsum_map_ext. intros y Hy. apply in_seq in Hy. rewrite rsum_swap.
        transitivity (rsum (map (fun z => (if (y =? z)%nat then 1 else 0) * R y z) (seq 0 (szl l)))); [|apply sum_delta; lia].
        apply rsum_map_ext. intros z Hz. apply in_seq in Hz.
        rewrite rsum_map_mul_r. f_equal. apply (proj2 (@HU (kd l) y z ltac:(unfold szl in *; lia) ltac:(unfold szl in *; lia))).
      - rewrite rotsum_sum. apply rsum_map_ext. intros y _. unfold R. cbn in N1.
        rewrite rotsum_shift by assumption. rewrite rotsum_shift; [reflexivity| |tauto].
        intros a b Hab. apply HP. intros c. unfold upd. destruct (c =? q2)%nat; [reflexivity|apply Hab].
    Qed.

    Definition over (L : list nat) (e j : nat -> nat) : nat -> nat := fun q => if memb (lab q) L then e (lab q) else j q.
    Variable n : nat.
    Definition at_labels (L : list nat) : list nat := filter (fun q => memb (lab q) L) (seq 0 n).

    Lemma memb_app x l1 l2 : memb x (l1 ++ l2) = (memb x l1 || memb x l2)%bool.
    Proof.
      destruct (memb x (l1 ++ l2)) eqn:E.
      - apply memb_in, in_app_iff in E as [E|E]; apply memb_in in E; rewrite E; [reflexivity|symmetry; apply Bool.orb_true_r].
      - destruct (memb x l1) eqn:E1; [apply memb_in in E1|destruct (memb x l2) eqn:E2; [apply memb_in in E2|reflexivity]];
          exfalso; assert (H : memb x (l1 ++ l2) = true) by (apply memb_in, in_app_iff; tauto); congruence.
    Qed.
    Lemma filter_split (f g : nat -> bool) l : (forall x, f x = true -> g x = false) ->
      Permutation (filter (fun x => f x || g x)%bool l) (filter f l ++ filter g l).
    Proof.
      intros H. induction l as [|x l IH]; [constructor|]. cbn [filter]. destruct (f x) eqn:Ef; cbn [orb].
      - rewrite (H x Ef). cbn [app]. constructor. exact IH.
      - destruct (g x); [|exact IH]. rewrite IH. apply Permutation_middle.
    Qed.

    Lemma contract_all O L : NoDup L -> (forall l, In l L -> ~ In l O) ->
      (forall l, In l L -> length (at_labels [l]) = 2%nat) ->
      forall Phi e0 j, (forall a b, (forall q, (q < n)%nat -> a q = b q) -> Phi a = Phi b) ->
      sum_over F szl L (fun e => rotsum (at_labels (L ++ O)) Phi e j) e0 =
      rotsum (at_labels O) (fun j' => sum_over F szl L (fun e => Phi (over L e j')) e0) e0 j.
    Proof.
      induction L as [|l L IH]; intros Hn Hd H2 Phi e0 j HP; cbn [app].
      - cbn [sum_over]. apply rotsum_ext. intros j' _. apply HP. intros q _. reflexivity.
      - inversion Hn as [|? ? Hl HnL]; subst.
        assert (RP : respects F Phi) by (intros a b Hab; apply HP; intros q _; apply Hab).
        assert (Rrot : forall P j, respects F (fun e => rotsum P Phi e j)).
        { intros P j1 a b Hab. apply rotsum_env. intros q _. apply Hab. }
        pose proof (H2 l (or_introl eq_refl)) as Hlen.
        destruct (at_labels [l]) as [|q1 [|q2 [|? ?]]] eqn:Eq; try discriminate. clear Hlen.
        assert (Hq : forall q, In q [q1; q2] <-> (q < n)%nat /\ lab q = l).
        { intros q. rewrite <- Eq. unfold at_labels. rewrite filter_In, in_seq, memb_in. cbn. intuition. }
        assert (Hq12 : NoDup [q1; q2]) by (rewrite <- Eq; apply NoDup_filter, seq_NoDup).
        set (P := at_labels (L ++ O)).
        assert (HPl : forall q, In q P -> lab q <> l).
        { intros q Hqp E. unfold P, at_labels in Hqp. apply filter_In in Hqp as [_ Hm]. apply memb_in, in_app_iff in Hm. rewrite E in Hm.
          destruct Hm as [Hm|Hm]; [apply Hl, Hm|]. apply (Hd l); [left; reflexivity|exact Hm]. }
        assert (HPn : NoDup P) by (apply NoDup_filter, seq_NoDup).
        assert (Hperm : Permutation (at_labels (l :: L ++ O)) (q1 :: q2 :: P)).
        { change (q1 :: q2 :: P) with ([q1; q2] ++ P). rewrite <- Eq. unfold at_labels, P.
          eapply Permutation_trans; [|apply filter_split].
          - erewrite filter_ext; [apply Permutation_refl|]. intros q. change (l :: L ++ O) with ([l] ++ (L ++ O)). apply memb_app.
          - intros q Hm. apply memb_in in Hm. destruct Hm as [Hm|[]]. destruct (memb (lab q) (L ++ O)) eqn:E; [|reflexivity].
            apply memb_in, in_app_iff in E. rewrite <- Hm in E. exfalso. destruct E as [E|E]; [contradiction|]. apply (Hd l); [left; reflexivity|exact E]. }
        assert (Hnd : NoDup (q1 :: q2 :: P)) by (apply (Permutation_NoDup Hperm), NoDup_filter, seq_NoDup).
        assert (Hmove : Permutation (l :: L) (L ++ [l])) by (apply Permutation_cons_append).
        assert (Lq1 : lab q1 = l) by (apply Hq; left; reflexivity).
        assert (Lq2 : lab q2 = l) by (apply Hq; right; left; reflexivity).
        (* left-hand side *)
        rewrite (@sum_over_perm F szl (l :: L) (L ++ [l]) _ e0 (Rrot _ j) Hn Hmove). rewrite sum_over_app.
        set (Phi' := fun j' => rsum (map (fun y => Phi (upd (upd j' q1 y) q2 y)) (seq 0 (szl l)))).
        assert (E1 : forall e, sum_over F szl [l] (fun e => rotsum (at_labels (l :: L ++ O)) Phi e j) e = rotsum P Phi' e j).
        { intros e. cbn [sum_over]. unfold Phi'. rewrite <- (@contract_label l q1 q2 P Phi e j RP Hnd Lq1 Lq2 HPl).
          apply rsum_map_ext. intros x _. apply rotsum_perm; [exact RP|apply NoDup_filter, seq_NoDup|exact Hperm]. }
        assert (RP' : forall a b, (forall q, (q < n)%nat -> a q = b q) -> Phi' a = Phi' b).
        { intros a b Hab. apply rsum_map_ext. intros y _. apply HP. intros q Hqn. unfold upd. destruct (q =? q2)%nat, (q =? q1)%nat; try reflexivity; apply Hab, Hqn. }
        transitivity (sum_over F szl L (fun e => rotsum P Phi' e j) e0).
        { apply sum_over_ext; [..|exact HnL|intros e' _ _; apply E1].
          - apply sum_over_respects, Rrot.
          - intros a b Hab. apply rotsum_env. intros q _. apply Hab. }
        unfold P. rewrite IH; [|exact HnL|intros k Hk; apply Hd; right; exact Hk|intros k Hk; apply H2; right; exact Hk|exact RP'].
        apply rotsum_ext. intros j' _.
        assert (Rphi : respects F (fun e => Phi (over (l :: L) e j'))).
        { intros a b Hab. apply RP. intros q. unfold over. destruct (memb (lab q) (l :: L)); [apply Hab|reflexivity]. }
        rewrite (@sum_over_perm F szl (l :: L) (L ++ [l]) _ e0 Rphi Hn Hmove). rewrite sum_over_app.
        apply sum_over_ext; [..|exact HnL|].
        + intros a b Hab. apply RP'. intros q _. unfold over. destruct (memb (lab q) L); [apply Hab|reflexivity].
        + apply sum_over_respects, Rphi.
        + intros e' _ _. cbn [sum_over]. unfold Phi'. apply rsum_map_ext. intros y _. apply HP. intros q Hqn.
          unfold over, upd.
          assert (Hm : memb (lab q) (l :: L) = ((lab q =? l)%nat || memb (lab q) L)%bool).
          { change (l :: L) with ([l] ++ L). rewrite memb_app. f_equal. cbn. rewrite Bool.orb_false_r. reflexivity. }
          rewrite Hm. destruct (Nat.eqb_spec (lab q) l) as [El|El]; cbn [orb].
          * assert (Hin : In q [q1; q2]) by (apply Hq; split; assumption). destruct Hin as [<-|[<-|[]]].
            -- rewrite Nat.eqb_refl. destruct (q1 =? q2)%nat; reflexivity.
            -- rewrite Nat.eqb_refl. reflexivity.
          * assert (N1 : q <> q1) by (intros ->; contradiction). assert (N2 : q <> q2) by (intros ->; contradiction).
            apply Nat.eqb_neq in N1. apply Nat.eqb_neq in N2. rewrite N1, N2. reflexivity.
    Qed.
  End Positions.

  (** Positions in the concatenated labels of the operands. *)
  Lemma filter_map_comm {A B} (p : B -> bool) (f : A -> B) l : filter p (map f l) = map f (filter (fun x => p (f x)) l).
  Proof. induction l as [|x l IH]; [reflexivity|]. cbn [map filter]. destruct (p (f x)); cbn [map]; rewrite IH; reflexivity. Qed.
  Lemma filter_count all l : length (filter (fun x => memb x [l]) all) = count_occ Nat.eq_dec all l.
  Proof.
    induction all as [|x all IH]; [reflexivity|]. cbn [filter count_occ]. cbn [memb existsb]. rewrite Bool.orb_false_r.
    destruct (Nat.eq_dec x l) as [->|N]; [rewrite Nat.eqb_refl; cbn [length]; rewrite <- IH; reflexivity|].
    apply Nat.eqb_neq in N. rewrite N. apply IH.
  Qed.
  Lemma at_labels_count all l : length (at_labels (fun q => nth q all 0%nat) (length all) [l]) = count_occ Nat.eq_dec all l.
  Proof.
    rewrite <- filter_count. rewrite <- (@map_nth_seq nat 0%nat all) at 2. rewrite filter_map_comm, map_length. reflexivity.
  Qed.

  Fixpoint blk (off : nat) (subs : list (list nat)) (fs : list (list nat -> F)) (j : nat -> nat) : F :=
    match subs, fs with
    | ls :: subs', f :: fs' => f (map j (seq off (length ls))) * blk (off + length ls) subs' fs' j
    | _, _ => 1
    end.
  Lemma blk_local subs : forall fs off a b, (forall q, (off <= q < off + length (concat subs))%nat -> a q = b q) -> blk off subs fs a = blk off subs fs b.
  Proof.
    induction subs as [|ls subs IH]; intros [|f fs] off a b H; cbn [blk]; try reflexivity. cbn [concat] in H. rewrite app_length in H. f_equal.
    - f_equal. apply map_ext_in. intros q Hq. apply in_seq in Hq. apply H. lia.
    - apply IH. intros q Hq. apply H. lia.
  Qed.
  Lemma blk_prod lab (e : nat -> nat) subs : forall fs off j, (forall k, (k < length (concat subs))%nat -> lab (off + k)%nat = nth k (concat subs) 0%nat) ->
    (forall q, (off <= q < off + length (concat subs))%nat -> j q = e (lab q)) ->
    blk off subs fs j = rprod (map (fun p => (snd p) (map e (fst p))) (combine subs fs)).
  Proof.
    induction subs as [|ls subs IH]; intros [|f fs] off j Hl Hj; cbn [blk combine map rprod fold_right]; try reflexivity.
    cbn [concat] in Hl, Hj. rewrite app_length in Hl, Hj. cbn [fst snd]. f_equal.
    - f_equal. apply nth_ext with (d := 0%nat) (d' := 0%nat); [rewrite !map_length, seq_length; reflexivity|].
      intros k Hk. rewrite map_length, seq_length in Hk.
      rewrite (nth_map_lt j (seq off (length ls)) 0%nat 0%nat) by (rewrite seq_length; exact Hk). rewrite seq_nth by exact Hk.
      rewrite (nth_map_lt e ls 0%nat 0%nat Hk). rewrite Hj by lia. rewrite Hl by lia. rewrite app_nth1 by exact Hk. reflexivity.
    - apply IH.
      + intros k Hk. rewrite <- Nat.add_assoc. rewrite Hl by lia. rewrite app_nth2_plus. reflexivity.
      + intros q Hq. apply Hj. lia.
  Qed.

  Lemma prod_rot kd lab (e : nat -> nat) : forall subs (gs fs : list (list nat -> F)) off j,
    Forall2 (fun ls (p : (list nat -> F) * (list nat -> F)) => forall idx, inb (map sz (map kd ls)) idx -> fst p idx = rot (map kd ls) (snd p) idx) subs (combine gs fs) ->
    length gs = length subs -> length fs = length subs ->
    (forall k, (k < length (concat subs))%nat -> lab (off + k)%nat = nth k (concat subs) 0%nat) ->
    (forall c, In c (concat subs) -> (e c < sz (kd c))%nat) ->
    rprod (map (fun p => (snd p) (map e (fst p))) (combine subs gs)) = rotsum kd lab (seq off (length (concat subs))) (blk off subs fs) e j.
  Proof.
    induction subs as [|ls subs IH]; intros [|g gs] [|f fs] off j HF Lg Lf Hl He; try discriminate; cbn [combine map concat length seq rotsum blk].
    - reflexivity.
    - cbn [combine] in HF. inversion HF as [|? ? ? ? H1 H2]; subst. cbn [fst snd] in H1.
      cbn [rprod fold_right fst snd]. fold (rprod (map (fun p : list nat * (list nat -> F) => snd p (map e (fst p))) (combine subs gs))).
      cbn [concat] in Hl, He. rewrite app_length in Hl |- *. rewrite seq_app.
      rewrite (@rotsum_app kd lab (seq off (length ls)) (seq (off + length ls) (length (concat subs))) (fun j => f (map j (seq off (length ls)))) (blk (off + length ls) subs fs) e) with (S1 := []).
      + f_equal.
        * rewrite H1; [|rewrite map_map; apply bounded_inb; intros c Hc; apply He, in_app_iff; left; exact Hc].
          rewrite <- (@rot_rotsum kd lab e (seq off (length ls)) (seq_NoDup _ _) f j).
          assert (Els : map lab (seq off (length ls)) = ls).
          { apply nth_ext with (d := 0%nat) (d' := 0%nat); [rewrite map_length, seq_length; reflexivity|].
            intros k Hk. rewrite map_length, seq_length in Hk. rewrite (nth_map_lt lab _ 0%nat 0%nat) by (rewrite seq_length; exact Hk).
            rewrite seq_nth by exact Hk. rewrite Hl by lia. apply app_nth1, Hk. }
          rewrite <- (map_map lab kd), <- (map_map lab e), Els. reflexivity.
        * apply IH; try assumption; [cbn in Lg; congruence|cbn in Lf; congruence| |].
          -- intros k Hk. rewrite <- Nat.add_assoc. rewrite Hl by lia. rewrite app_nth2_plus. reflexivity.
          -- intros c Hc. apply He, in_app_iff. right. exact Hc.
      + intros q Hq Hq'. apply in_seq in Hq. apply in_seq in Hq'. lia.
      + intros a b Hab. f_equal. apply map_ext_in. intros q Hq. apply Hab, Hq.
      + intros a b Hab. apply blk_local. intros q Hq. apply Hab, in_seq. lia.
      + intros a b Hab. f_equal. apply map_ext_in. intros q Hq. apply Hab, Hq.
      + intros q [].
  Qed.

  (** The domain: in the second run every array is the rotated one. *)
  Definition rot_rel (cs : list cls) (_ : unit) (f : bool -> list nat -> F) : Prop :=
    forall idx, inb (map sz cs) idx -> f true idx = rotated F sz U cs (f false) idx.
  Lemma rotated_ext cs f g idx : (forall j, inb (map sz cs) j -> f j = g j) -> rotated F sz U cs f idx = rotated F sz U cs g idx.
  Proof. intros H. apply rsum_map_ext. intros j Hj. f_equal. apply H, all_idx_in, Hj. Qed.

  Lemma rot_ein_ok kd fs out x (gs : list (bool -> list nat -> F)) :
    Forall (fun f => map kd (fst f) = fst (snd f)) fs -> NoDup out -> incl out (concat (map fst fs)) ->
    rot_ein fs out = Some x -> Forall2 (fun f g => rot_rel (fst (snd f)) (snd (snd f)) g) fs gs ->
    rot_rel (map kd out) x (fun i => ein F (fun l => sz (kd l)) (map fst fs) out (map (fun g => g i) gs)).
  Proof.
    intros HK Hno Hio E HF. unfold rot_ein in E. set (subs := map fst fs) in *. set (all := concat subs) in *.
    destruct (forallb _ all) eqn:Ec; [|discriminate]. clear E. rewrite forallb_forall in Ec.
    assert (Hc1 : forall l, In l out -> count_occ Nat.eq_dec all l = 1%nat).
    { intros l Hl. specialize (Ec l (Hio l Hl)). apply Nat.eqb_eq in Ec. apply memb_in in Hl. rewrite Hl in Ec. exact Ec. }
    assert (Hc2 : forall l, In l all -> ~ In l out -> count_occ Nat.eq_dec all l = 2%nat).
    { intros l Hl Hn. specialize (Ec l Hl). apply Nat.eqb_eq in Ec. destruct (memb l out) eqn:Em; [apply memb_in in Em; contradiction|exact Ec]. }
    clear Ec. intros o Ho. cbn beta.
    set (n := length all). set (lab := fun q => nth q all 0%nat). set (szl := fun l => sz (kd l)).
    set (L := summed subs out). set (e0 := env_of out o).
    set (f1 := map (fun g => g true) gs). set (f0 := map (fun g => g false) gs).
    assert (Hlen : length gs = length subs).
    { unfold subs. rewrite map_length. clear -HF. induction HF as [|? ? ? ? ? HF IH]; cbn; congruence. }
    rewrite map_map in Ho. pose proof (inb_length Ho) as HLo. rewrite map_length in HLo.
    destruct (@inb_bounded szl out o Hno Ho) as [Hb0 He0].
    assert (HLn : NoDup L) by apply summed_nodup.
    assert (HLin : forall c, In c L <-> In c all /\ ~ In c out) by (intros c; apply summed_in).
    set (Phi := blk 0 subs f0).
    assert (HPhi : forall a b, (forall q, (q < n)%nat -> a q = b q) -> Phi a = Phi b).
    { intros a b Hab. apply blk_local. intros q Hq. apply Hab. unfold n, all. lia. }
    set (j0 := fun _ : nat => 0%nat).
    (* the rotated factors *)
    assert (S1 : ein F szl subs out f1 o = sum_over F szl L (fun e => rotsum kd lab (at_labels lab n (L ++ out)) Phi e j0) e0).
    { unfold ein. fold L. fold e0.
      assert (Eat : at_labels lab n (L ++ out) = seq 0 n).
      { unfold at_labels. assert (Hall : forall q, In q (seq 0 n) -> memb (lab q) (L ++ out) = true).
        { intros q Hq. apply in_seq in Hq. apply memb_in, in_app_iff.
          assert (Hin : In (lab q) all) by (apply nth_In; unfold n in Hq; lia).
          destruct (in_dec Nat.eq_dec (lab q) out) as [I|I]; [right; exact I|left; apply HLin; tauto]. }
        clear -Hall. induction (seq 0 n) as [|q l IH]; [reflexivity|]. cbn [filter]. rewrite Hall by (left; reflexivity).
        f_equal. apply IH. intros p Hp. apply Hall. right. exact Hp. }
      rewrite Eat.
      apply sum_over_ext; [..|exact HLn|].
      - intros a b Hab. f_equal. apply map_ext. intros p. f_equal. apply map_ext, Hab.
      - intros a b Hab. apply rotsum_env. intros q _. apply Hab.
      - intros e' He' Hbe. unfold Phi, n.
        apply prod_rot.
        + unfold f1, f0, subs. clear -HF HK. induction HF as [|f g fs gs Hg HF IH]; cbn [map combine]; constructor.
          * inversion HK as [|? ? K1 K2]; subst. intros idx Hi. cbn [fst snd]. rewrite K1 in Hi |- *. rewrite (Hg idx Hi).
            apply rotated_rot. pose proof (inb_length Hi) as HH. rewrite map_length in HH. exact HH.
          * apply IH. inversion HK; assumption.
        + unfold f1. rewrite map_length. exact Hlen.
        + unfold f0. rewrite map_length. exact Hlen.
        + intros k Hk. reflexivity.
        + intros c Hc. destruct (in_dec Nat.eq_dec c out) as [I|I].
          * rewrite He'; [apply Hb0, I|]. intros H. apply HLin in H. tauto.
          * apply Hbe, HLin. tauto. }
    rewrite S1. clear S1.
    rewrite (@contract_all kd lab n out L HLn).
    2:{ intros l Hl. apply HLin in Hl. tauto. }
    2:{ intros l Hl. unfold n, lab. rewrite at_labels_count. apply HLin in Hl. apply Hc2; tauto. }
    2:{ exact HPhi. }
    (* positions of the output labels *)
    set (pos := fun l => match index_of l all with Some k => k | None => 0%nat end).
    assert (Hpos : forall l, In l all -> (pos l < n)%nat /\ lab (pos l) = l).
    { intros l Hl. unfold pos. destruct (index_of_in all l Hl) as [k Hk]. rewrite Hk. apply index_of_nth in Hk. exact Hk. }
    assert (Huniq : forall q, (q < n)%nat -> In (lab q) out -> q = pos (lab q)).
    { intros q Hq Ho'. assert (Hl : length (at_labels lab n [lab q]) = 1%nat) by (unfold n, lab; rewrite at_labels_count; apply Hc1, Ho').
      destruct (at_labels lab n [lab q]) as [|a [|? ?]] eqn:Ea; try discriminate.
      assert (A1 : forall p, (p < n)%nat -> lab p = lab q -> p = a).
      { intros p Hp Ep. assert (Hin : In p (at_labels lab n [lab q])).
        { apply filter_In. split; [apply in_seq; lia|]. apply memb_in. left. symmetry. exact Ep. }
        rewrite Ea in Hin. destruct Hin as [->|[]]. reflexivity. }
      destruct (Hpos (lab q) (Hio _ Ho')) as [P1 P2]. rewrite (A1 q Hq eq_refl). symmetry. apply A1; [rewrite <- (A1 q Hq eq_refl); exact P1|]. rewrite <- (A1 q Hq eq_refl). exact P2. }
    assert (Hndp : NoDup (map pos out)).
    { clear -Hno Hpos Hio. induction out as [|l out IH]; [constructor|]. inversion Hno as [|? ? H1 H2]; subst. cbn [map]. constructor.
      - intros H. apply in_map_iff in H as (l' & E & H'). apply H1. rewrite <- (proj2 (Hpos l (Hio l (or_introl eq_refl)))).
        rewrite <- E. rewrite (proj2 (Hpos l' (Hio l' (or_intror H')))). exact H'.
      - apply IH; [exact H2|]. intros c Hc. apply Hio. right. exact Hc. }
    assert (Hpp : Permutation (at_labels lab n out) (map pos out)).
    { apply NoDup_Permutation; [apply NoDup_filter, seq_NoDup|exact Hndp|]. intros q. unfold at_labels. rewrite filter_In, in_seq, memb_in, in_map_iff. split.
      - intros [H1 H2]. exists (lab q). split; [symmetry; apply Huniq; [lia|exact H2]|exact H2].
      - intros (l & <- & Hl). destruct (Hpos l (Hio l Hl)) as [P1 P2]. rewrite P2. split; [lia|exact Hl]. }
    assert (Hresp : respects F (fun j' => sum_over F szl L (fun e => Phi (over lab L e j')) e0)).
    { intros a b Hab. apply sum_over_ext; [..|exact HLn|].
      - intros c d Hcd. apply HPhi. intros q _. unfold over. destruct (memb (lab q) L); [apply Hcd|reflexivity].
      - intros c d Hcd. apply HPhi. intros q _. unfold over. destruct (memb (lab q) L); [apply Hcd|reflexivity].
      - intros e' _ _. apply HPhi. intros q _. unfold over. destruct (memb (lab q) L); [reflexivity|apply Hab]. }
    fold szl.
    rewrite (@rotsum_perm kd lab (at_labels lab n out) (map pos out) _ e0 Hresp) by first [exact Hpp|apply NoDup_filter, seq_NoDup].
    rewrite rotated_rot by (rewrite map_length; exact HLo).
    assert (Elab : map lab (map pos out) = out).
    { rewrite map_map. transitivity (map (fun l : nat => l) out); [|apply map_id]. apply map_ext_in. intros l Hl. apply Hpos, Hio, Hl. }
    transitivity (rot (map (fun q => kd (lab q)) (map pos out)) (ein F szl subs out f0) (map (fun q => e0 (lab q)) (map pos out))).
    2:{ rewrite <- (map_map lab kd), <- (map_map lab e0), Elab. unfold e0. rewrite He0. reflexivity. }
    rewrite (@rot_rotsum kd lab e0 (map pos out) Hndp _ j0). apply rotsum_ext. intros j' _.
    (* the same sum over the contracted labels *)
    unfold ein. fold L. set (p := map j' (map pos out)).
    rewrite !sum_over_all; [|intros a b Hab; f_equal; apply map_ext; intros pp; f_equal; apply map_ext, Hab|exact HLn|
      intros c d Hcd; apply HPhi; intros q _; unfold over; destruct (memb (lab q) L); [apply Hcd|reflexivity]|exact HLn].
    apply rsum_map_ext. intros v Hv. unfold Phi.
    apply blk_prod with (lab := lab); [intros k Hk; reflexivity|].
    intros q Hq. cbn in Hq. unfold over. destruct (memb (lab q) L) eqn:Em.
    - apply memb_in in Em. rewrite !setl_in by exact Em. reflexivity.
    - assert (HnL : ~ In (lab q) L) by (intros H; apply memb_in in H; congruence).
      assert (Hina : In (lab q) all) by (apply nth_In; unfold all; lia).
      assert (Hino : In (lab q) out) by (destruct (in_dec Nat.eq_dec (lab q) out) as [I|I]; [exact I|exfalso; apply HnL, HLin; tauto]).
      rewrite setl_notin by exact HnL. unfold p. rewrite map_map.
      rewrite (@env_of_eq (fun l => j' (pos l)) out (lab q) Hino). rewrite <- Huniq; [reflexivity|unfold n, all; lia|exact Hino].
  Qed.

  Definition rot_dom : domain F (fun _ : bool => sz) rot_ops.
  Proof.
    refine (@mkdom F bool (fun _ => sz) rot_ops rot_rel _ _ _ _ _ _).
    - intros cs x f g H Hf idx Hi. rewrite <- H by exact Hi. rewrite (Hf idx Hi). apply rotated_ext. intros j Hj. apply H, Hj.
    - intros kd fs out x gs _ HK Hn Hi E HF. exact (@rot_ein_ok kd fs out x gs HK Hn Hi E HF).
    - intros cs n d x x' f _ Hf idx Hi. rewrite (Hf idx Hi). unfold rotated. rewrite <- rsum_map_mul_l. apply rsum_map_ext. intros j _. ring.
    - intros cs x y z f g _ Hf Hg idx Hi. rewrite (Hf idx Hi), (Hg idx Hi). unfold rotated. rewrite <- rsum_map_add. apply rsum_map_ext. intros j _. ring.
    - intros cs x _ idx Hi. symmetry. apply rsum_map_0. intros j _. ring.
    - intros c x _ idx Hi. rewrite rotated_rot by (apply inb_length in Hi; exact Hi).
      destruct idx as [|i [|k [|? ?]]]; try (apply inb_length in Hi; discriminate).
      assert (Hlt : (i < sz c)%nat) by (apply (@inb_nth [sz c; sz c] [i; k] 0 Hi); cbn; lia).
      assert (Hlt' : (k < sz c)%nat) by (apply (@inb_nth [sz c; sz c] [i; k] 1 Hi); cbn; lia).
      cbn [rot nth]. symmetry. transitivity (rsum (map (fun m => U c i m * U c k m) (seq 0 (sz c)))).
      + apply rsum_map_ext. intros m Hm. apply in_seq in Hm. f_equal.
        transitivity (rsum (map (fun z => (if (m =? z)%nat then 1 else 0) * U c k z) (seq 0 (sz c)))); [|apply sum_delta; lia].
        apply rsum_map_ext. intros z _. ring.
      + apply (@HU c i k Hlt Hlt').
  Defined.
End Rot.
