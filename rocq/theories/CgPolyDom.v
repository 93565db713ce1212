(** The polynomials computed for the arrays of a generated function hold in every run. *)
From Coq Require Import ZArith QArith Qreduction Lia Ring Field.
From Verif Require Import Base Alg ArrModel ListAux EinsumModel EinsumSpec TensorModel CgModel CgSpec CgFormSpec CgProofs CgPoly CgPolyProofs.
From Verif Require Import KernelProofs ArrProofs SymmProofs EinsumProofs EinsumThms EinPathThms TrilProofs.
Set Implicit Arguments.
Local Open Scope nat_scope.

Lemma posn_lt labs l : In l labs -> posn labs l < length labs.
Proof. intros H. unfold posn. destruct (index_of_in _ _ H) as [j Hj]. rewrite Hj. apply index_of_nth in Hj. tauto. Qed.
Lemma posn_nth labs l : In l labs -> nth (posn labs l) labs 0 = l.
Proof. intros H. unfold posn. destruct (index_of_in _ _ H) as [j Hj]. rewrite Hj. apply index_of_nth in Hj. tauto. Qed.
Lemma kind_combine labs : forall l x, length l = length labs -> In x labs -> kind_of (combine labs l) x = nth (posn labs x) l 0.
Proof.
  unfold kind_of, posn. induction labs as [|y labs IH]; intros [|c l] x HL Hx; cbn in HL; try discriminate; [destruct Hx|].
  cbn [combine lkind]. cbn [index_of]. destruct (Nat.eqb_spec x y) as [->|N].
  - reflexivity.
  - destruct Hx as [Hx|Hx]; [congruence|]. specialize (IH l x ltac:(lia) Hx).
    destruct (index_of_in _ _ Hx) as [j Hj]. rewrite Hj in IH |- *. cbn [nth]. exact IH.
Qed.
Lemma eql_refl a : eql a a = true.
Proof. induction a as [|x a IH]; [reflexivity|]. cbn. rewrite Nat.eqb_refl. exact IH. Qed.
Lemma gather_app_map {A} (l : list A) (g : A -> nat) ax : (forall i, In i ax -> i < length l) -> forall d, gather (map g l) ax = map (fun i => g (nth i l d)) ax.
Proof. intros H d. unfold gather. apply map_ext_in. intros i Hi. apply nth_map_lt, H, Hi. Qed.

Section Dom.
  Variable F : fld.
  Add Field FfieldPol3 : (fth F).
  Local Open Scope rng_scope.
  Hypothesis H0 : characteristic_zero F.
  Variable sz : cls -> nat.
  Variable val : ref -> list nat -> F.
  Notation tsem := (tsem F sz val).
  Notation psem := (psem F sz val).
  Notation msem := (msem F val).

  Lemma all_idx_app (H : list nat -> F) a b :
    rsum (map H (all_idx (a ++ b))) = rsum (map (fun u => rsum (map (fun v => H (u ++ v)) (all_idx b))) (all_idx a)).
  Proof.
    revert H. induction a as [|n a IH]; intros H.
    - cbn [app]. change (all_idx []) with [@nil nat]. cbn [map app]. rewrite rsum_cons. change (@rsum F []) with (0 : F). change (fun v : list nat => H v) with H. ring.
    - cbn [app]. unfold all_idx. cbn [map product]. rewrite !rsum_flat_map. apply rsum_map_ext. intros x _.
      rewrite !map_map. exact (IH (fun v => H (x :: v))).
  Qed.
  Lemma close_ok cs t idx : tsem (close cs t) idx = rsum (map (fun u => tsem t (idx ++ u)) (all_idx (map sz cs))).
  Proof.
    unfold CgPolyProofs.tsem. cbn [close tq td tf]. rewrite map_app, all_idx_app, rsum_map_mul_l. f_equal.
    apply rsum_map_ext. intros u _. apply rsum_map_ext. intros v _. rewrite app_assoc. reflexivity.
  Qed.
  Lemma psem_close cs p idx : psem (map (close cs) p) idx = rsum (map (fun u => psem p (idx ++ u)) (all_idx (map sz cs))).
  Proof.
    unfold CgPolyProofs.psem. rewrite map_map. rewrite rsum_swap. apply rsum_map_ext. intros t _. apply close_ok.
  Qed.

  Section Prod.
    Variable labs : list nat.

    Lemma mulT_okb ls a t : incl ls labs -> term_ok (length labs) a = true -> term_ok (length ls) t = true -> term_ok (length labs) (mulT labs ls a t) = true.
    Proof.
      intros Hi Ha Ht. unfold term_ok in *. cbn [mulT td tf]. rewrite forallb_app, app_length. apply andb_true_intro. split.
      - rewrite forallb_forall in *. intros f Hf. specialize (Ha f Hf). rewrite forallb_forall in *. intros l Hl. specialize (Ha l Hl).
        apply Nat.ltb_lt in Ha. apply Nat.ltb_lt. lia.
      - rewrite forallb_forall in *. intros f' Hf. apply in_map_iff in Hf as (f & <- & Hf). specialize (Ht f Hf). cbn [snd].
        rewrite forallb_forall in *. intros l' Hl. apply in_map_iff in Hl as (l & <- & Hl). specialize (Ht l Hl). apply Nat.ltb_lt in Ht. apply Nat.ltb_lt.
        destruct (Nat.ltb_spec l (length ls)) as [L|L]; [|lia].
        rewrite nth_map_lt with (d' := 0%nat) by exact L. pose proof (@posn_lt labs (nth l ls 0%nat) (Hi _ (nth_In _ _ L))). lia.
    Qed.
    Lemma mulT_ok ls a t w : length w = length labs -> incl ls labs -> term_ok (length labs) a = true ->
      tsem (mulT labs ls a t) w = tsem a w * tsem t (gather w (map (posn labs) ls)).
    Proof.
      intros Hw Hi Ha. unfold CgPolyProofs.tsem. cbn [mulT tq td tf].
      rewrite q2F_red, q2F_mul by exact H0. rewrite map_app, all_idx_app.
      set (A := all_idx (map sz (td a))). set (T := all_idx (map sz (td t))).
      transitivity (q2F F (tq a) * q2F F (tq t) *
        rsum (map (fun u => msem (tf a) (w ++ u) * rsum (map (fun v => msem (tf t) (gather w (map (posn labs) ls) ++ v)) T)) A)).
      2: { rewrite rsum_map_mul_r. ring. }
      f_equal. apply rsum_map_ext. intros u Hu. rewrite <- rsum_map_mul_l. apply rsum_map_ext. intros v Hv.
      apply all_idx_in, inb_length in Hu. rewrite map_length in Hu.
      rewrite msem_app. f_equal.
      - unfold CgPolyProofs.msem. f_equal. apply map_ext_in. intros f Hf. unfold fsem. f_equal. apply map_ext_in. intros l Hl.
        unfold term_ok in Ha. rewrite forallb_forall in Ha. specialize (Ha f Hf). rewrite forallb_forall in Ha. specialize (Ha l Hl). apply Nat.ltb_lt in Ha.
        rewrite app_assoc. rewrite app_nth1 by (rewrite app_length; lia). reflexivity.
      - unfold CgPolyProofs.msem. f_equal. rewrite map_map. apply map_ext. intros f. unfold fsem. cbn [fst snd]. f_equal.
        unfold gather at 1 2. rewrite map_map. apply map_ext. intros l. destruct (Nat.ltb_spec l (length ls)) as [L|L].
        + rewrite nth_map_lt with (d' := 0%nat) by exact L. pose proof (@posn_lt labs (nth l ls 0%nat) (Hi _ (nth_In _ _ L))) as HP.
          rewrite app_nth1 by lia. rewrite app_nth1 by (unfold gather; rewrite !map_length; exact L). unfold gather.
          rewrite nth_map_lt with (d' := 0%nat) by (rewrite map_length; exact L). rewrite nth_map_lt with (d' := 0%nat) by exact L. reflexivity.
        + rewrite app_assoc. rewrite app_nth2 by (rewrite app_length; lia).
          rewrite (@app_nth2 _ (gather w _)) by (unfold gather; rewrite !map_length; exact L). f_equal.
          unfold gather. rewrite app_length, !map_length. lia.
    Qed.
    Lemma pprod_ok w : length w = length labs -> forall ops acc, poly_ok (length labs) acc = true ->
      Forall (fun o => incl (fst o) labs /\ poly_ok (length (fst o)) (snd o) = true) ops ->
      psem (pprod labs acc ops) w = psem acc w * rprod (map (fun o => psem (snd o) (gather w (map (posn labs) (fst o)))) ops).
    Proof.
      intros Hw. induction ops as [|[ls p] ops IH]; intros acc Ha Ho; cbn [pprod map]; [cbn; ring|].
      inversion Ho as [|? ? [I1 I2] Ho']; subst. cbn [fst snd] in *. unfold poly_ok in *.
      rewrite IH; [|rewrite forallb_forall in *; intros t Ht; apply in_flat_map in Ht as (a & A1 & A2); apply in_map_iff in A2 as (b & <- & B); apply mulT_okb; auto|exact Ho'].
      transitivity (psem acc w * psem p (gather w (map (posn labs) ls)) * rprod (map (fun o => psem (snd o) (gather w (map (posn labs) (fst o)))) ops)); [|cbn [rprod fold_right fst snd]; fold (rprod (map (fun o => psem (snd o) (gather w (map (posn labs) (fst o)))) ops)); ring].
      f_equal. unfold CgPolyProofs.psem at 1. rewrite forallb_forall in *.
      transitivity (rsum (map (fun a => rsum (map (fun t => tsem a w * tsem t (gather w (map (posn labs) ls))) p)) acc)).
      - clear -Hw Ha I1 I2 H0. induction acc as [|a acc IHa]; [reflexivity|]. cbn [flat_map map]. rewrite map_app, rsum_app, IHa by (intros t Ht; apply Ha; right; exact Ht).
        rewrite rsum_cons. f_equal. rewrite map_map. apply rsum_map_ext. intros t Ht. apply mulT_ok; try assumption. apply Ha. left. reflexivity.
      - unfold CgPolyProofs.psem. rewrite <- rsum_map_mul_r. apply rsum_map_ext. intros a _. apply rsum_map_mul_l.
    Qed.
    Lemma ein_terms_ok scs ops idx : (length idx + length scs = length labs)%nat ->
      Forall (fun o => incl (fst o) labs /\ poly_ok (length (fst o)) (snd o) = true) ops ->
      psem (ein_terms scs labs ops) idx =
      rsum (map (fun u => rprod (map (fun o => psem (snd o) (gather (idx ++ u) (map (posn labs) (fst o)))) ops)) (all_idx (map sz scs))).
    Proof.
      intros HL Ho. unfold ein_terms. rewrite psem_close. apply rsum_map_ext. intros u Hu. apply all_idx_in, inb_length in Hu. rewrite map_length in Hu.
      rewrite pprod_ok; [|rewrite app_length; lia|reflexivity|exact Ho].
      set (R := rprod _). unfold CgPolyProofs.psem, CgPolyProofs.tsem. cbn. rewrite q2F_1 by exact H0. ring.
    Qed.
  End Prod.

  (** Blocks. *)
  Variable split : cls -> list cls.
  Hypothesis Hsplit : splits sz split.
  Notation places := (places sz split).

  Lemma offset_app b bs1 bs2 : ~ In b bs1 -> offset sz (bs1 ++ b :: bs2) b = list_sum (map sz bs1).
  Proof.
    induction bs1 as [|x bs1 IH]; intros H; cbn [app offset map list_sum fold_right]; [rewrite Nat.eqb_refl; reflexivity|].
    cbn in H. destruct (Nat.eqb_spec b x) as [->|]; [tauto|]. rewrite IH by tauto. reflexivity.
  Qed.
  Lemma sum_blocks c (h : nat -> F) :
    rsum (map h (seq 0 (sz c))) = rsum (map (fun b => rsum (map (fun i => h (offset sz (split c) b + i)%nat) (seq 0 (sz b)))) (split c)).
  Proof.
    destruct (Hsplit c) as [Hn ->].
    assert (H : forall bs2 bs1, NoDup (bs1 ++ bs2) ->
      rsum (map h (seq (list_sum (map sz bs1)) (list_sum (map sz bs2)))) =
      rsum (map (fun b => rsum (map (fun i => h (offset sz (bs1 ++ bs2) b + i)%nat) (seq 0 (sz b)))) bs2)).
    { induction bs2 as [|b bs2 IH]; intros bs1 Hnd; [reflexivity|]. cbn [map list_sum fold_right]. fold (list_sum (map sz bs2)).
      rewrite rsum_cons. rewrite seq_app, map_app, rsum_app. f_equal.
      - rewrite offset_app; [|intros Hb; apply NoDup_remove_2 in Hnd; apply Hnd, in_app_iff; left; exact Hb].
        clear. generalize (list_sum (map sz bs1)); intros k. rewrite <- (Nat.add_0_r k) at 1. generalize 0%nat.
        induction (sz b) as [|m IH]; intros j; [reflexivity|]. cbn [seq map]. rewrite !rsum_cons. f_equal. rewrite <- IH. f_equal. f_equal. f_equal. lia.
      - specialize (IH (bs1 ++ [b])). rewrite <- app_assoc in IH. cbn [app] in IH. specialize (IH Hnd). rewrite <- IH.
        rewrite map_app, list_sum_app. cbn. rewrite Nat.add_0_r. reflexivity. }
    exact (H (split c) [] Hn).
  Qed.
  Lemma sum_places cs : forall H : list nat -> F,
    rsum (map H (all_idx (map sz cs))) =
    rsum (map (fun pat => rsum (map (fun u => H (places cs pat u)) (all_idx (map sz pat)))) (patterns split cs)).
  Proof.
    induction cs as [|c cs IH]; intros H; [cbn; ring|].
    unfold all_idx, patterns. cbn [map product].
    transitivity (rsum (map (fun x => rsum (map (fun v => H (x :: v)) (all_idx (map sz cs)))) (seq 0 (sz c)))).
    { rewrite rsum_flat_map. apply rsum_map_ext. intros x _. rewrite map_map. reflexivity. }
    rewrite sum_blocks. rewrite rsum_flat_map. apply rsum_map_ext. intros b _. rewrite map_map.
    transitivity (rsum (map (fun i => rsum (map (fun pat => rsum (map (fun u => H ((offset sz (split c) b + i)%nat :: places cs pat u)) (all_idx (map sz pat)))) (patterns split cs))) (seq 0 (sz b)))).
    { apply rsum_map_ext. intros i _. apply IH. }
    rewrite rsum_swap. apply rsum_map_ext. intros pat _. cbn [map product]. rewrite rsum_flat_map. apply rsum_map_ext. intros i _. rewrite map_map. reflexivity.
  Qed.
  Lemma places_app cs1 p1 i1 cs2 p2 i2 : length p1 = length cs1 -> length i1 = length cs1 ->
    places (cs1 ++ cs2) (p1 ++ p2) (i1 ++ i2) = places cs1 p1 i1 ++ places cs2 p2 i2.
  Proof.
    revert p1 i1; induction cs1 as [|c cs1 IH]; intros [|b p1] [|i i1] H1 H2; cbn in H1, H2; try discriminate; [reflexivity|].
    cbn. unfold CgFormSpec.places in IH. rewrite IH by lia. reflexivity.
  Qed.
  Lemma places_nth cs p i k : length p = length cs -> length i = length cs -> (k < length cs)%nat ->
    nth k (places cs p i) 0%nat = (offset sz (split (nth k cs 0%nat)) (nth k p 0%nat) + nth k i 0%nat)%nat.
  Proof.
    revert p i k; induction cs as [|c cs IH]; intros [|b p] [|j i] [|k] H1 H2 Hk; cbn in H1, H2, Hk; try discriminate; try lia; [reflexivity|].
    cbn. apply IH; lia.
  Qed.
  Lemma places_length cs p i : length p = length cs -> length i = length cs -> length (places cs p i) = length cs.
  Proof. intros H1 H2. unfold CgFormSpec.places. rewrite map_length, !combine_length. lia. Qed.
  Lemma gather_places cs p i ps : length p = length cs -> length i = length cs -> (forall k, In k ps -> k < length cs)%nat ->
    gather (places cs p i) ps = places (gather cs ps) (gather p ps) (gather i ps).
  Proof.
    intros H1 H2 H. induction ps as [|k ps IH]; [reflexivity|]. cbn. unfold CgFormSpec.places in IH |- *. unfold gather in IH at 1.
    f_equal; [|apply IH; intros j Hj; apply H; right; exact Hj]. apply places_nth; auto. apply H. left. reflexivity.
  Qed.
  Lemma patterns_in cs pat : In pat (patterns split cs) <-> Forall2 (fun b c => In b (split c)) pat cs.
  Proof.
    unfold patterns. rewrite product_in. split; intros H.
    - revert pat H. induction cs as [|c cs IH]; intros pat H; inversion H; subst; constructor; auto.
    - induction H; cbn; constructor; auto.
  Qed.
  Lemma patterns_length cs pat : In pat (patterns split cs) -> length pat = length cs.
  Proof. intros H. apply patterns_in in H. exact (Forall2_len H). Qed.
  Lemma patterns_gather cs pat ps : In pat (patterns split cs) -> (forall k, In k ps -> k < length cs)%nat -> In (gather pat ps) (patterns split (gather cs ps)).
  Proof.
    intros Hp H. pose proof (patterns_length _ _ Hp) as HL. apply patterns_in. apply patterns_in in Hp.
    induction ps as [|k ps IH]; [constructor|]. cbn. constructor; [|apply IH; intros j Hj; apply H; right; exact Hj].
    assert (Hk : (k < length cs)%nat) by (apply H; left; reflexivity). clear -Hp Hk. revert k Hk.
    induction Hp; intros k Hk; cbn in Hk; [lia|]. destruct k; [exact H|]. cbn. apply IHHp. lia.
  Qed.

  (** A contraction as a sum over blocks. *)
  Lemma ein_blocks kd subs out (fs : list (list nat -> F)) opat idx : NoDup out -> incl out (concat subs) ->
    In opat (patterns split (map kd out)) -> length idx = length out -> length fs = length subs ->
    let labs := out ++ summed subs out in
    ein F (fun l => sz (kd l)) subs out fs (places (map kd out) opat idx) =
    rsum (map (fun spat => rsum (map (fun u =>
      rprod (map (fun p => snd p (places (map kd (fst p)) (gather (opat ++ spat) (map (posn labs) (fst p))) (gather (idx ++ u) (map (posn labs) (fst p))))) (combine subs fs)))
      (all_idx (map sz spat)))) (patterns split (map kd (summed subs out)))).
  Proof.
    intros Hn Hi Hp HL Hfs labs. unfold ein.
    rewrite sum_over_all; [|intros e e' He; f_equal; apply map_ext; intros p; f_equal; apply map_ext, He|apply summed_nodup].
    rewrite <- (map_map kd sz (summed subs out)), sum_places. apply rsum_map_ext. intros spat Hs. apply rsum_map_ext. intros u Hu.
    apply all_idx_in, inb_length in Hu. rewrite map_length in Hu. f_equal. apply map_ext_in. intros [ls f] Hlf. cbn [fst snd]. f_equal.
    pose proof (patterns_length _ _ Hp) as L1. pose proof (patterns_length _ _ Hs) as L2. rewrite map_length in L1, L2.
    assert (Hlabs : incl ls labs).
    { intros l Hl. unfold labs. apply in_app_iff. destruct (in_dec Nat.eq_dec l out) as [I|I]; [left; exact I|right].
      apply summed_in. split; [|exact I]. apply in_concat. exists ls. split; [eapply in_combine_l; exact Hlf|exact Hl]. }
    assert (Hnl : NoDup labs).
    { apply NoDup_app_intro; [exact Hn|apply summed_nodup|]. intros z Z1 Z2. apply summed_in in Z2. tauto. }
    assert (Hkd : map kd ls = gather (map kd labs) (map (posn labs) ls)).
    { unfold gather. rewrite map_map. apply map_ext_in. intros l Hl. rewrite nth_map_lt with (d' := 0%nat) by (apply posn_lt, Hlabs, Hl).
      rewrite posn_nth by (apply Hlabs, Hl). reflexivity. }
    rewrite Hkd, <- gather_places.
    2: rewrite app_length, map_length; unfold labs; rewrite app_length; lia.
    2: rewrite app_length, map_length; unfold labs; rewrite app_length; lia.
    2: intros k Hk; apply in_map_iff in Hk as (l & <- & Hl); rewrite map_length; apply posn_lt, Hlabs, Hl.
    assert (Elab : map kd labs = map kd out ++ map kd (summed subs out)) by apply map_app.
    rewrite Elab, places_app; [|rewrite map_length; exact L1|rewrite map_length; exact HL].
    set (o := places (map kd out) opat idx). set (v := places (map kd (summed subs out)) spat u).
    assert (Lo : length o = length out) by (unfold o; rewrite places_length; rewrite map_length; first [reflexivity|assumption]).
    unfold gather. rewrite map_map. apply map_ext_in. intros c Hc.
    unfold setl, env_of. destruct (in_dec Nat.eq_dec c out) as [Io|Io].
    - destruct (index_of c (summed subs out)) as [j|] eqn:Ej.
      { apply index_of_nth in Ej as [J1 J2]. exfalso. assert (In c (summed subs out)) by (rewrite <- J2; apply nth_In, J1).
        apply summed_in in H. tauto. }
      destruct (index_of_in out c Io) as [k Hk]. rewrite Hk. apply index_of_nth in Hk as [K1 K2].
      assert (E1 : posn labs c = k).
      { unfold posn. rewrite <- K2. unfold labs. rewrite <- (app_nth1 out (summed subs out) 0%nat K1).
        rewrite index_of_nodup; [reflexivity|exact Hnl|rewrite app_length; lia]. }
      rewrite E1. rewrite app_nth1 by lia. reflexivity.
    - assert (Is : In c (summed subs out)).
      { specialize (Hlabs c Hc). unfold labs in Hlabs. apply in_app_iff in Hlabs. tauto. }
      destruct (index_of_in _ c Is) as [k Hk]. rewrite Hk. apply index_of_nth in Hk as [K1 K2].
      assert (E1 : posn labs c = (length out + k)%nat).
      { unfold posn. replace c with (nth (length out + k) labs 0%nat) by (unfold labs; rewrite app_nth2_plus; exact K2).
        rewrite index_of_nodup; [reflexivity|exact Hnl|unfold labs; rewrite app_length; lia]. }
      rewrite E1. rewrite app_nth2 by lia. f_equal. lia.
  Qed.

  (** Access to blocks. *)
  Lemma bget_bcons pat q p b : bget pat (bcons q p b) = (if eql pat q then match p with [] => bget pat b | _ => p end else bget pat b).
  Proof. destruct p; cbn; destruct (eql pat q); reflexivity. Qed.
  Lemma bget_fold (N : list cls -> poly) pat L : bget pat (fold_right (fun q r => bcons q (N q) r) [] L) = if existsb (eql pat) L then N pat else [].
  Proof.
    induction L as [|q L IH]; [reflexivity|]. cbn [fold_right existsb]. rewrite bget_bcons, IH. destruct (eql pat q) eqn:E; cbn [orb]; [|reflexivity].
    apply eql_ok in E. subst q. destruct (N pat); [|reflexivity]. destruct (existsb (eql pat) L); reflexivity.
  Qed.
  Lemma existsb_eql pat L : In pat L -> existsb (eql pat) L = true.
  Proof. intros H. apply existsb_exists. exists pat. split; [exact H|apply eql_refl]. Qed.
  Lemma bget_none pat b : existsb (eql pat) (map fst b) = false -> bget pat b = [].
  Proof. induction b as [|[q p] b IH]; [reflexivity|]. cbn. destruct (eql pat q); cbn; [discriminate|exact IH]. Qed.
  Lemma bget_in pat b : bget pat b = [] \/ In (pat, bget pat b) b.
  Proof.
    induction b as [|[q p] b [IH|IH]]; cbn; [left; reflexivity| |]; destruct (eql pat q) eqn:E; try (apply eql_ok in E; subst q); tauto.
  Qed.

  (** The domain. *)
  Variable syms : pmap (list (list nat * bool)).
  Hypothesis Hsym : forall x l, pget x syms = Some l -> forall axes neg, In (axes, neg) l ->
    (forall i, In i axes -> i < length axes)%nat /\
    forall idx, length idx = length axes -> val x (gather idx axes) = rsign neg (val x idx).
  Hypothesis Hdelta : forall i j, val n_delta [i; j] = if (i =? j)%nat then 1 else 0.

  Definition pol_R (cs : list cls) (X : blocks) (f : unit -> list nat -> F) : Prop :=
    forall pat idx, In pat (patterns split cs) -> inb (map sz pat) idx -> f tt (places cs pat idx) = psem (bget pat X) idx.

  Lemma offset_bound c b i : In b (split c) -> (i < sz b)%nat -> (offset sz (split c) b + i < sz c)%nat.
  Proof.
    intros Hb Hi. destruct (Hsplit c) as [Hn ->]. apply in_split in Hb as (b1 & b2 & E). rewrite E in *.
    rewrite offset_app by (intros H; apply NoDup_remove_2 in Hn; apply Hn, in_app_iff; left; exact H).
    rewrite map_app, list_sum_app. cbn. lia.
  Qed.
  Lemma places_inb cs pat idx : In pat (patterns split cs) -> inb (map sz pat) idx -> inb (map sz cs) (places cs pat idx).
  Proof.
    intros Hp. apply patterns_in in Hp. revert idx. induction Hp as [|b c pat cs Hb Hp IH]; intros idx Hi; inversion Hi; subst; [constructor|].
    cbn. constructor; [apply offset_bound; assumption|]. apply IH. assumption.
  Qed.
  Lemma offset_inj c b1 b2 i j : In b1 (split c) -> In b2 (split c) -> (i < sz b1)%nat -> (j < sz b2)%nat ->
    (offset sz (split c) b1 + i = offset sz (split c) b2 + j)%nat -> b1 = b2.
  Proof.
    intros B1 B2 Hi Hj. destruct (Hsplit c) as [Hn _]. revert B1 B2. generalize (split c). intros bs. induction bs as [|b bs IH]; intros B1 B2 E; [destruct B1|].
    cbn [offset] in E. destruct (Nat.eqb_spec b1 b) as [->|N1], (Nat.eqb_spec b2 b) as [->|N2]; [reflexivity|lia|lia|].
    destruct B1 as [B1|B1]; [congruence|]. destruct B2 as [B2|B2]; [congruence|]. apply IH; auto. lia.
  Qed.
  Lemma bget_map (g : poly -> poly) pat b : g [] = [] -> bget pat (map (fun p => (fst p, g (snd p))) b) = g (bget pat b).
  Proof. intros Hg. induction b as [|[q p] b IH]; cbn; [symmetry; exact Hg|]. destruct (eql pat q); [reflexivity|exact IH]. Qed.

  Definition poly_dom : domain F (fun _ : unit => sz) (poly_ops syms split).
  Proof.
    apply (@mkdom F unit (fun _ => sz) (poly_ops syms split) pol_R); cbn [dX poly_ops d_ein d_scale d_add d_zero d_eye].
    - intros cs x f g H Hf pat idx Hp Hi. rewrite <- (H tt) by (apply places_inb; assumption). apply Hf; assumption.
    - intros kd fs out x gs Hne HK Hn Hin E HF pat idx Hp Hi.
      unfold poly_ein in E. destruct (all_kinds _ []) as [lt|] eqn:Ek; [|discriminate].
      match type of E with context [if ?c then _ else _] => destruct c eqn:Eok end; [|discriminate]. injection E as <-.
      assert (Elt : forall l, In l (concat (map fst fs)) -> kind_of lt l = kd l).
      { destruct (all_kinds_ok _ _ Ek) as [_ HK2]. rewrite Forall_map in HK2. intros l Hl. apply in_concat in Hl as (ls & Hls & Hl).
        apply in_map_iff in Hls as (f & <- & Hf). rewrite Forall_forall in HK, HK2. specialize (HK f Hf). specialize (HK2 f Hf). cbn [fst snd] in HK2.
        rewrite <- HK in HK2. clear -HK2 Hl. induction (fst f) as [|y l' IH]; [destruct Hl|]. cbn in HK2. injection HK2 as E1 E2. destruct Hl as [<-|Hl]; auto. }
      set (subs := map fst fs) in *. set (sl := summed subs out).
      assert (Eo : map (kind_of lt) out = map kd out) by (apply map_ext_in; intros l Hl; apply Elt, Hin, Hl).
      assert (Es : map (kind_of lt) sl = map kd sl) by (apply map_ext_in; intros l Hl; apply Elt; apply summed_in in Hl; tauto).
      rewrite Eo, Es. rewrite bget_fold, existsb_eql by exact Hp.
      pose proof (patterns_length _ _ Hp) as L1. pose proof (inb_length Hi) as L2. rewrite map_length in L1, L2.
      rewrite (@norm_ok F H0 sz val syms Hsym) by congruence.
      assert (Hlen : length (map (fun g => g tt) gs) = length subs).
      { unfold subs. rewrite !map_length. symmetry. exact (Forall2_len HF). }
      rewrite (@ein_blocks kd subs out _ pat idx Hn Hin Hp ltac:(congruence) Hlen). fold sl. set (labs := out ++ sl).
      assert (Hlabs : forall f, In f fs -> incl (fst f) labs).
      { intros f Hf l Hl. unfold labs. apply in_app_iff. destruct (in_dec Nat.eq_dec l out) as [I|I]; [left; exact I|right].
        apply summed_in. split; [|exact I]. apply in_concat. exists (fst f). split; [apply in_map, Hf|exact Hl]. }
      unfold CgPolyProofs.psem at 1. rewrite rsum_flat_map. apply rsum_map_ext. intros spat Hs.
      pose proof (patterns_length _ _ Hs) as L3. rewrite map_length in L3.
      change (rsum (map (fun t => tsem t idx) ?p)) with (psem p idx).
      rewrite ein_terms_ok.
      2: unfold labs; rewrite app_length; lia.
      2: { rewrite Forall_map. apply Forall_forall. intros f Hf. cbn [fst snd]. split; [apply Hlabs, Hf|].
           rewrite forallb_forall in Eok. specialize (Eok f Hf). rewrite forallb_forall in Eok.
           destruct (bget_in (map (kind_of (combine labs (pat ++ spat))) (fst f)) (snd (snd f))) as [->|Hb]; [reflexivity|]. apply (Eok _ Hb). }
      apply rsum_map_ext. intros u Hu. apply all_idx_in in Hu. pose proof (inb_length Hu) as L4. rewrite map_length in L4.
      f_equal. rewrite map_map. cbn [fst snd].
      assert (Hpp : In (pat ++ spat) (patterns split (map kd labs))).
      { unfold labs. rewrite map_app. apply patterns_in. apply Forall2_app; apply patterns_in; assumption. }
      assert (Hii : inb (map sz (pat ++ spat)) (idx ++ u)) by (rewrite map_app; apply Forall2_app; assumption).
      assert (Hlp : length (pat ++ spat) = length labs) by (unfold labs; rewrite !app_length; lia).
      clearbody labs. clear Ek Eok Elt Hne Hin Eo Es Hlen Hs L3 sl. subst subs. clear Hn Hp Hi L1 L2 Hu L4.
      induction HF as [|f g fs gs Hg HF IH]; [reflexivity|]. inversion HK as [|? ? K1 K2]; subst.
      cbn [map combine fst snd]. f_equal; [|apply IH; [exact K2|intros f' Hf'; apply Hlabs; right; exact Hf']].
      assert (Hlf : incl (fst f) labs) by (apply Hlabs; left; reflexivity).
      assert (Hps : forall k, In k (map (posn labs) (fst f)) -> (k < length labs)%nat).
      { intros k Hk. apply in_map_iff in Hk as (l & <- & Hl). apply posn_lt, Hlf, Hl. }
      assert (Hkd : map kd (fst f) = gather (map kd labs) (map (posn labs) (fst f))).
      { unfold gather. rewrite map_map. apply map_ext_in. intros l Hl. rewrite nth_map_lt with (d' := 0%nat) by (apply posn_lt, Hlf, Hl).
        rewrite posn_nth by (apply Hlf, Hl). reflexivity. }
      assert (Hk2 : map (kind_of (combine labs (pat ++ spat))) (fst f) = gather (pat ++ spat) (map (posn labs) (fst f))).
      { unfold gather. rewrite map_map. apply map_ext_in. intros l Hl. apply kind_combine; [exact Hlp|apply Hlf, Hl]. }
      rewrite Hk2. rewrite K1. apply Hg.
      + rewrite <- K1, Hkd. apply patterns_gather; [exact Hpp|]. rewrite map_length. exact Hps.
      + unfold cls in *. rewrite map_gather by (intros k Hk; specialize (Hps k Hk); lia). apply gather_inb; [|exact Hii].
        intros k Hk. specialize (Hps k Hk). rewrite map_length. lia.
    - intros cs n d x x' f E Hf pat idx Hp Hi. unfold poly_scale in E. destruct (Z.eqb_spec n 0) as [->|Hn].
      + injection E as <-. cbn. unfold coef. cbn [rZ]. rewrite (Hf pat idx Hp Hi). field. apply rnat_pos, H0.
      + injection E as <-. rewrite (Hf pat idx Hp Hi).
        rewrite (@bget_map (map (fun t => mkT (Qred (Qmult (n # d) (tq t))) (td t) (tf t)))) by reflexivity.
        unfold CgPolyProofs.psem. rewrite map_map, <- rsum_map_mul_l. apply rsum_map_ext. intros t _. unfold CgPolyProofs.tsem. cbn [tq td tf].
        rewrite q2F_red, q2F_mul by exact H0. unfold q2F at 2. cbn [Qnum Qden]. ring.
    - intros cs x y z f g E Hf Hg pat idx Hp Hi. injection E as <-. rewrite bget_fold, (Hf pat idx Hp Hi), (Hg pat idx Hp Hi).
      destruct (existsb (eql pat) _) eqn:E; [rewrite padd_ok by exact H0; reflexivity|].
      rewrite existsb_app in E. apply Bool.orb_false_iff in E as [E1 E2].
      rewrite (bget_none _ _ E1). rewrite bget_none; [cbn; ring|].
      destruct (existsb (eql pat) (map fst y)) eqn:E3; [|exact E3]. exfalso. apply existsb_exists in E3 as (q & Q1 & Q2).
      pose proof (eql_ok _ _ Q2) as <-.
      assert (H : existsb (eql pat) (filter (fun q => negb (existsb (eql q) (map fst x))) (map fst y)) = true).
      { apply existsb_eql. apply filter_In. split; [exact Q1|]. apply Bool.negb_true_iff. exact E1. }
      exact (Bool.eq_true_false_abs _ H E2).
    - intros cs x E pat idx Hp Hi. injection E as <-. reflexivity.
    - intros c x E pat idx Hp Hi. injection E as <-. apply patterns_in in Hp.
      inversion Hp as [|b1 ? p1 ? B1 Hp1]; subst. inversion Hp1 as [|b2 ? p2 ? B2 Hp2]; subst. inversion Hp2; subst.
      inversion Hi as [|i ? idx1 ? I1 Hi1]; subst. inversion Hi1 as [|j ? idx2 ? I2 Hi2]; subst. inversion Hi2; subst.
      cbn [CgFormSpec.places combine map fst snd nth].
      assert (Hb : bget [b1; b2] (map (fun b => ([b; b], [mkT 1%Q [] [(n_delta, [0; 1]%nat)]])) (split c)) =
                   if (b1 =? b2)%nat then [mkT 1%Q [] [(n_delta, [0; 1]%nat)]] else []).
      { clear -B1. induction (split c) as [|b bs IH]; [destruct B1|]. cbn [map bget eql].
        destruct (Nat.eqb_spec b1 b) as [->|N]; cbn [andb].
        - destruct (Nat.eqb_spec b2 b) as [->|N2]; cbn [andb]; [rewrite Nat.eqb_refl; reflexivity|].
          destruct (Nat.eqb_spec b b2) as [E|_]; [congruence|]. clear -N2. induction bs as [|b' bs IH]; [reflexivity|]. cbn [map bget eql].
          destruct (Nat.eqb_spec b b') as [<-|]; cbn [andb]; [|exact IH]. destruct (Nat.eqb_spec b2 b); [congruence|exact IH].
        - apply IH. destruct B1 as [B1|B1]; [congruence|exact B1]. }
      rewrite Hb. destruct (Nat.eqb_spec b1 b2) as [->|N].
      + unfold CgPolyProofs.psem, CgPolyProofs.tsem, CgPolyProofs.msem, fsem. cbn. rewrite Hdelta, q2F_1 by exact H0.
        destruct (Nat.eqb_spec i j) as [->|Nij]; [rewrite Nat.eqb_refl; ring|].
        destruct (Nat.eqb_spec (offset sz (split c) b2 + i) (offset sz (split c) b2 + j)) as [E|_]; [exfalso; lia|ring].
      + destruct (Nat.eqb_spec (offset sz (split c) b1 + i) (offset sz (split c) b2 + j)) as [E|_]; [|reflexivity].
        exfalso. apply N. apply (@offset_inj c b1 b2 i j); assumption.
  Defined.
  Lemma poly_dom_R cs X f : dR poly_dom cs X f = pol_R cs X f.
  Proof. reflexivity. Qed.
End Dom.
