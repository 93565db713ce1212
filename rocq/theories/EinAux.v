(** The value of an einsum whose letters are literal: a helper for the areas which call [einsum]. *)
From Coq Require Import Permutation.
From Verif Require Import Base ListAux Alg ArrModel ArrProofs EinsumModel EinsumSpec EinsumProofs EinsumThms EinsumApi.
Set Implicit Arguments.

(** [L] lists the summed letters once. *)
Definition nodupb (l : list nat) : bool := length (dedup l) =? length l.
Definition plan (inps : list pystr) (outs L : pystr) : bool :=
  nodupb outs && nodupb L && forallb (fun c => memb c (concat inps)) outs &&
  forallb (fun c => memb c (concat inps) && negb (memb c outs)) L &&
  forallb (fun c => memb c outs || memb c L) (concat inps).

Section Aux.
  Variable K : rng.
  Local Open Scope rng_scope.
  Add Ring KringAux : (rth K).
  Lemma nodupb_ok l : nodupb l = true -> NoDup l.
  Proof. unfold nodupb. intros H. apply Nat.eqb_eq in H. apply dedup_length_nodup. lia. Qed.
  Lemma plan_ok inps outs L : plan inps outs L = true -> NoDup outs /\ incl outs (concat inps) /\ summation_letters inps outs L.
  Proof.
    unfold plan. rewrite !andb_true_iff, !forallb_forall. intros ((((H1 & H2) & H3) & H4) & H5).
    split; [apply nodupb_ok, H1|]. split; [intros c Hc; apply memb_in, H3, Hc|]. split; [apply nodupb_ok, H2|].
    intros c. split.
    - intros Hc. specialize (H4 c Hc). apply andb_true_iff in H4. destruct H4 as [A B]. split; [apply memb_in, A|].
      intros Ho. apply memb_in in Ho. rewrite Ho in B. discriminate.
    - intros [Hc Ho]. specialize (H5 c Hc). apply orb_true_iff in H5. destruct H5 as [A|A]; apply memb_in in A; tauto.
  Qed.
  Theorem np_value sz inps outs L (args : list (arr K)) : plan inps outs L = true -> shapes_agree sz inps args ->
    exists r, np_einsum K inps outs args = Ok r /\ wf r /\ shp r = map sz outs /\
      forall o, inb (map sz outs) o ->
        aget 0 r o = rsum (map (fun v => product_term K inps args (env_of (outs ++ L) (o ++ v))) (all_idx (map sz L))).
  Proof.
    intros P S. destruct (@plan_ok inps outs L P) as (N & I & SL). destruct (@np_total K sz inps outs args S N I) as (r & E & W & Sh & G).
    exists r. split; [exact E|]. split; [exact W|]. split; [exact Sh|]. intros o Ho. rewrite (G o Ho). symmetry.
    apply spec_sum; try assumption. apply product_local.
    clear - S. induction S; cbn; congruence.
  Qed.
  Lemma all_idx_0 : all_idx [] = [[]]. Proof. reflexivity. Qed.
  Lemma rsum_all_cons (f : list nat -> K) n s : rsum (map f (all_idx (n :: s))) = rsum (map (fun i => rsum (map (fun v => f (i :: v)) (all_idx s))) (seq 0 n)).
  Proof.
    unfold all_idx. cbn [map product]. rewrite flat_map_concat_map, concat_map, map_map.
    induction (seq 0 n) as [|i l IH]; [reflexivity|]. cbn [map concat]. rewrite rsum_app, rsum_cons, IH, map_map. reflexivity.
  Qed.
  Lemma rsum_all_nil (f : list nat -> K) : rsum (map f (all_idx [])) = f [].
  Proof. cbn. unfold rsum. cbn. ring. Qed.
End Aux.
