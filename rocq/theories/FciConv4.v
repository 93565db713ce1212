(** Unrestricted cluster amplitudes to coefficients and back. *)
From Coq Require Import String ZArith Lia Field.
From Verif Require Import Base Alg ArrModel ArrProofs PermModel PermSpec TensorModel TensorSpec EinsumModel EinsumProofs EinPathModel SpaceModel AnsatzModel VecModel VecSpec GroupProofs ListAux CcModel CcThms CgModel CgSpec CgFormSpec CgNames CgRun CgRelSpec CgLagSpec CgCompare CgCompareProofs CgPolyProofs CgDens CgEomThms CgExpSpec CgExp FciModel FciSpec FciProofs FciConvModel FciConvSpec FciConv1 FciConv2 FciConv3 FciConvSwap.
Set Implicit Arguments.
Local Open Scope list_scope.
Local Open Scope nat_scope.

Lemma exchange_sym i j l : exchange i j l = exchange j i l.
Proof.
  unfold exchange. apply map_ext. intros k. destruct (Nat.eqb_spec k i), (Nat.eqb_spec k j); subst; reflexivity.
Qed.
Lemma kinds_length n nb : 1 <= n <= 4 -> nb <= n -> length (kinds n nb) = 2 * n.
Proof. intros Hn Hb. all_blocks n nb Hn Hb; reflexivity. Qed.
Lemma labels_length n nb : 1 <= n <= 4 -> nb <= n -> length (labels n nb) = 2 * n.
Proof. intros Hn Hb. all_blocks n nb Hn Hb; reflexivity. Qed.
Lemma key_length n : length (excitation_key n) = 2 * n.
Proof. unfold excitation_key. rewrite app_length, !repeat_length. lia. Qed.

Lemma comb_length n nb : 1 <= n <= 4 -> nb <= n -> length (comb n nb) = 2 * n.
Proof. intros Hn Hb. all_blocks n nb Hn Hb; reflexivity. Qed.
Lemma exchange_three f i j l : f <> i -> f <> j -> i <> j -> f < length l -> i < length l -> j < length l ->
  exchange i j l = exchange f i (exchange f j (exchange f i l)).
Proof.
  intros N1 N2 N3 Lf Li Lj. apply nth_ext with (d := 0) (d' := 0); [rewrite !exchange_length; reflexivity|]. intros k Hk. rewrite exchange_length in Hk.
  assert (B : forall a b c, a < length l -> b < length l -> c < length l -> (if c =? a then b else if c =? b then a else c) < length l) by (intros a b c ? ? ?; destruct (c =? a); [assumption|destruct (c =? b); assumption]).
  rewrite (nth_exchange i j l Hk). rewrite nth_exchange by (rewrite !exchange_length; exact Hk). rewrite nth_exchange by (rewrite exchange_length; apply B; assumption).
  rewrite nth_exchange by (repeat apply B; assumption). f_equal.
  repeat (match goal with |- context [?a =? ?b] => is_var a; is_var b; destruct (Nat.eqb_spec a b) end; cbv iota; try congruence).
Qed.
Lemma unperm_exchange i j N idx : i < N -> j < N -> length idx = N -> unperm (exchange i j (seq 0 N)) idx = exchange i j idx.
Proof.
  intros Hi Hj HL. unfold unperm. rewrite exchange_length, seq_length. unfold exchange at 2. rewrite HL. apply map_ext_in. intros k Hk. apply in_seq in Hk.
  assert (E : index_of k (exchange i j (seq 0 N)) = Some (if k =? i then j else if k =? j then i else k)).
  { assert (P : Permutation.Permutation (seq 0 N) (exchange i j (seq 0 N))) .
    { apply Permutation.NoDup_Permutation_bis; [apply seq_NoDup|rewrite exchange_length; lia|]. intros x Hx. apply in_seq in Hx.
      apply (In_nth (exchange i j (seq 0 N)) x 0) || idtac. replace x with (nth (if x =? i then j else if x =? j then i else x) (exchange i j (seq 0 N)) 0).
      - apply nth_In. rewrite exchange_length, seq_length. destruct (x =? i); [lia|destruct (x =? j); lia].
      - rewrite nth_exchange by (rewrite seq_length; destruct (x =? i); [lia|destruct (x =? j); lia]). rewrite seq_nth;
        repeat (match goal with |- context [?a =? ?b] => is_var a; is_var b; destruct (Nat.eqb_spec a b) end; cbv iota; try lia). }
    set (q := if k =? i then j else if k =? j then i else k). assert (Q : q < N) by (unfold q; destruct (k =? i); [lia|destruct (k =? j); lia]).
    rewrite <- (index_of_nodup (l := exchange i j (seq 0 N)) (k := q)).
    - f_equal. rewrite nth_exchange by (rewrite seq_length; exact Q). rewrite seq_nth; unfold q;
      repeat (match goal with |- context [?a =? ?b] => is_var a; is_var b; destruct (Nat.eqb_spec a b) end; cbv iota; try lia).
    - apply (Permutation.Permutation_NoDup P), seq_NoDup.
    - rewrite exchange_length, seq_length. exact Q. }
  rewrite E. reflexivity.
Qed.

Section Values.
  Variable F : fld.
  Variable sz : cls -> nat.
  Local Open Scope rng_scope.
  Add Field FfieldFciConv4 : (fth F).
  Hypothesis H0 : characteristic_zero F.
  Lemma value_one (e : env F) out num den x idx : NoDup out -> length idx = length out -> value sz e out [mono num den [(x, out)]] idx = coef F num den * tens F (e x) idx.
  Proof.
    intros Hn Hl. unfold value, mono. cbn [map fst snd rsum fold_right]. rewrite ein_one.
    - rewrite env_of_map by assumption. cbn. ring.
    - unfold summed. cbn [concat]. rewrite app_nil_r. 
      assert (G : forall m, (forall x, In x m -> In x out) -> filter (fun c => negb (memb c out)) m = []).
      { induction m as [|a m IH]; intros H; [reflexivity|]. cbn [filter]. rewrite (proj2 (ArrProofs.memb_in a out) (H a (or_introl eq_refl))). apply IH. intros y Hy. apply H. right. exact Hy. }
      apply G. intros y Hy. exact (proj1 (dedup_in out y) Hy).
  Qed.
  Lemma coef_times a b c d : coef F (a * b) (c * d) = coef F a c * coef F b d.
  Proof.
    unfold coef. rewrite Pos2Z.inj_mul, !rZ_mul. pose proof (@rZ_pos F H0 c). pose proof (@rZ_pos F H0 d). field. split; assumption.
  Qed.
  Lemma value_times (e : env F) out num den f idx : value sz e out (CgExpSpec.times [mono num den []] f) idx = coef F num den * value sz e out f idx.
  Proof.
    unfold CgExpSpec.times. cbn [flat_map]. rewrite app_nil_r. unfold value. rewrite map_map. cbn [mono fst snd app].
    rewrite <- rsum_map_mul_l. apply rsum_map_ext. intros m _. rewrite coef_times. ring.
  Qed.
  Lemma coef_inverse k : coef F 1 (Pos.of_nat (S k)) * rnat (S k) = 1.
  Proof. unfold coef, rZ. rewrite Nat2Pos.id by discriminate. change (Pos.to_nat 1) with 1%nat. cbn [rnat]. field. exact (H0 k). Qed.
  Lemma divide_coef z k : fdiv z (rnat (S k)) = coef F 1 (Pos.of_nat (S k)) * z.
  Proof. unfold coef, rZ. rewrite Nat2Pos.id by discriminate. change (Pos.to_nat 1) with 1%nat. cbn [rnat]. field. exact (H0 k). Qed.
End Values.

Lemma comb_cons n nb : 1 <= n <= 4 -> nb <= n -> exists c l, comb n nb = c :: l.
Proof. intros Hn Hb. all_blocks n nb Hn Hb; eexists _, _; reflexivity. Qed.
Lemma named_upto w m n nb : m <= 4 -> 1 <= n <= 4 -> nb <= n -> named (map (prefix w) (seq 1 m)) (block_name w n nb) = (n <=? m).
Proof. intros Hm Hn Hb. destruct m as [|[|[|[|[|m]]]]]; try (exfalso; lia); all_blocks n nb Hn Hb; destruct w; reflexivity. Qed.
Lemma own_lookup w n nb f rest : 1 <= n <= 4 -> nb <= n -> CgFormSpec.lookup (unrestricted_of w f ++ rest) (block_name w n nb) (kinds n nb) = CgFormSpec.lookup (unrestricted_of w f) (block_name w n nb) (kinds n nb).
Proof. intros Hn Hb. rewrite lookup_app, own_block by assumption. reflexivity. Qed.
Lemma other_lookup w w' n nb f rest : w <> w' -> 1 <= n <= 4 -> nb <= n -> CgFormSpec.lookup (unrestricted_of w' f ++ rest) (block_name w n nb) (kinds n nb) = CgFormSpec.lookup rest (block_name w n nb) (kinds n nb).
Proof. intros Hw Hn Hb. rewrite lookup_app, other_block by assumption. reflexivity. Qed.
Lemma to_c_check B S T Tout n : all_compute B S T unrestricted_to_coefficients Tout = true -> 1 <= n <= 4 -> computes B S id_split T (u_t_to_c n) Tout = true.
Proof. intros H Hn. unfold all_compute in H. rewrite forallb_forall in H. apply H. destruct (in_orders Hn) as [->|[->|[->| ->]]]; cbn; tauto. Qed.
Lemma to_t_check B S T Tout n : all_compute B S T unrestricted_to_amplitudes Tout = true -> 1 <= n <= 4 -> computes B S id_split T (u_c_to_t n) Tout = true.
Proof. intros H Hn. unfold all_compute in H. rewrite forallb_forall in H. apply H. destruct (in_orders Hn) as [->|[->|[->| ->]]]; cbn; tauto. Qed.

Section Base.
  Variable F : fld.
  Variable sz : cls -> nat.
  Variable eB : env F.
  Local Open Scope rng_scope.
  Add Field FfieldFciConv4b : (fth F).
  Lemma arguments_block w n nb (d : dict pystr (tval F)) : (1 <= n <= 4)%nat -> (nb <= n)%nat -> arguments F d (block_name w n nb) = block d (prefix w n) (comb n nb).
  Proof.
    intros Hn Hb. unfold arguments. rewrite block_named by assumption. unfold block. destruct (dget _ (prefix w n) d) as [[x|e]|]; [|reflexivity|reflexivity].
    cbn [select]. destruct (comb_cons Hn Hb) as (c & l & ->). reflexivity.
  Qed.
  (** What a namespace holds, in terms of values. *)
  Lemma good_iff T d w n nb : (1 <= n <= 4)%nat -> (nb <= n)%nat -> good sz eB id_split T d (block_name w n nb, kinds n nb) <->
    exists a, block d (prefix w n) (comb n nb) = Some a /\ of_kinds F sz (kinds n nb) a /\
      forall idx, inb (map sz (kinds n nb)) idx -> aget 0 a idx = value sz eB (fst (CgFormSpec.lookup T (block_name w n nb) (kinds n nb))) (snd (CgFormSpec.lookup T (block_name w n nb) (kinds n nb))) idx.
  Proof.
    intros Hn Hb. unfold good. cbn [fst snd]. rewrite arguments_block by assumption. split; intros (a & E & K & G); exists a; (split; [exact E|]); (split; [exact K|]).
    - intros idx Hi. rewrite <- (G (kinds n nb) idx); [|rewrite patterns_id; left; reflexivity|exact Hi]. rewrite places_id; [reflexivity|]. apply inb_length in Hi. rewrite map_length in Hi. exact Hi.
    - intros pat idx Hp Hi. rewrite patterns_id in Hp. destruct Hp as [<-|[]]. rewrite places_id; [|apply inb_length in Hi; rewrite map_length in Hi; exact Hi]. apply G, Hi.
  Qed.
  Lemma good_lookup T T' d w n nb : (1 <= n <= 4)%nat -> (nb <= n)%nat -> CgFormSpec.lookup T' (block_name w n nb) (kinds n nb) = CgFormSpec.lookup T (block_name w n nb) (kinds n nb) ->
    good sz eB id_split T d (block_name w n nb, kinds n nb) -> good sz eB id_split T' d (block_name w n nb, kinds n nb).
  Proof. intros Hn Hb E G. eapply good_args; [reflexivity| |exact G]. cbn [fst snd]. intros pat Hp. rewrite patterns_id in Hp. destruct Hp as [<-|[]]. exact E. Qed.
End Base.
Section Given.
  Variable F : fld.
  Variable sz : cls -> nat.
  Hypothesis H0 : characteristic_zero F.
  Local Open Scope rng_scope.
  Add Field FfieldFciConv4c : (fth F).
  Local Notation amps_t := (dict pystr (tval F)).
  (** All blocks of amplitudes up to an order. *)
  Definition blocks_ok (w : sort) (m : nat) (d : amps_t) : Prop := forall n nb, (1 <= n <= m)%nat -> (nb <= n)%nat ->
    exists x, block d (prefix w n) (comb n nb) = Some x /\ wf x /\ shp x = map sz (kinds n nb) /\ spin_antisymmetric (excitation_key n) (comb n nb) x.
  (** The tensors that the blocks are a number times. *)
  Definition base (w : sort) (m : nat) (k : pystr -> nat) (d : amps_t) : env F := fun x =>
    if named (map (prefix w) (seq 1 m)) x then
      match name_of x with Some (nm, s) => option_map (map_arr (fun z => z * rnat (k s))) (block d nm s) | None => None end
    else None.
  Lemma base_at w m k d n nb : (m <= 4)%nat -> (1 <= n <= 4)%nat -> (nb <= n)%nat ->
    base w m k d (block_name w n nb) = if (n <=? m)%nat then option_map (map_arr (fun z => z * rnat (k (comb n nb)))) (block d (prefix w n) (comb n nb)) else None.
  Proof. intros Hm Hn Hb. unfold base. rewrite named_upto, block_named by assumption. reflexivity. Qed.
  Lemma base_symmetric w m k d : (m <= 4)%nat -> blocks_ok w m d -> symmetric sz (unrestricted_antisymmetry w) (unrestricted_tensors w) (base w m k d).
  Proof.
    intros Hm HB x cs l axes neg Hx Hl Hin idx Hi. apply tensors_in in Hx as (n & nb & Hn & Hb & -> & ->). apply antisymmetry_in in Hl as (n' & nb' & Hn' & Hb' & E & ->).
    apply block_name_inj in E as [<- <-]; try assumption. rewrite base_at by assumption. destruct (Nat.leb_spec n m) as [Hm'|Hm'].
    - destruct (HB n nb (conj (proj1 Hn) Hm') Hb) as (a & Ea & Wa & Sa & Aa). rewrite Ea. cbn [option_map tens].
      assert (Z : (fun z : F => z * rnat (k (comb n nb))) 0 = 0) by (cbn beta; ring).
      rewrite !(@aget_map F _ Z). rewrite (@all_permutations F n nb a sz Hn Hb Sa Aa axes neg Hin) by (rewrite Sa; exact Hi). destruct neg; cbn [rsign]; ring.
    - cbn [tens]. destruct neg; cbn [rsign]; ring.
  Qed.
  Lemma base_value w m k d n nb idx num den : (m <= 4)%nat -> (1 <= n <= m)%nat -> (nb <= n)%nat -> inb (map sz (kinds n nb)) idx -> blocks_ok w m d ->
    exists x, block d (prefix w n) (comb n nb) = Some x /\
    value sz (base w m k d) (labels n nb) [mono num den [(block_name w n nb, labels n nb)]] idx = coef F num den * (aget 0 x idx * rnat (k (comb n nb))).
  Proof.
    intros Hm Hn Hb Hi HB. destruct (HB n nb Hn Hb) as (a & Ea & Wa & Sa & _). exists a. split; [exact Ea|].
    assert (Hn4 : (1 <= n <= 4)%nat) by lia.
    rewrite value_one; [|apply labels_nodup; assumption|apply inb_length in Hi; rewrite map_length in Hi; rewrite Hi, kinds_length, labels_length by assumption; reflexivity].
    rewrite base_at by assumption. rewrite (proj2 (Nat.leb_le n m) (proj2 Hn)), Ea. cbn [option_map tens].
    assert (Z : (fun z : F => z * rnat (k (comb n nb))) 0 = 0) by (cbn beta; ring). rewrite (@aget_map F _ Z). reflexivity.
  Qed.
End Given.
