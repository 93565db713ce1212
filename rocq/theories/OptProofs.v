(** Lemmas: rotation of an array along all its axes; matrices. *)
From Coq Require Import Sorted String Permutation Field.
From Verif Require Import Base ListAux Alg ArrModel ArrProofs PermModel PackProofs TensorModel EinsumModel EinsumSpec EinAux EinsumProofs EinsumThms EinsumParse EinsumApi
  EinPathModel EinPathSpec EinPathThms EinPathParse SpaceModel SpaceProofs AnsatzModel VecModel CcModel ExtModel ExtSpec ExtProofs OptModel OptSpec.
Set Implicit Arguments.
Local Open Scope string_scope.
Local Open Scope list_scope.
Local Open Scope nat_scope.

Lemma axis_labels_alt n : axis_labels n = map (fun k => [k; k + n * 2]) (seq 0 (n * 2)).
Proof.
  assert (G : forall m a, map (fun i => [i + n; i + n * 3]) (seq a m) = map (fun k => [k; k + n * 2]) (seq (a + n) m)).
  { induction m as [|m IH]; intros a; [reflexivity|]. cbn [seq map]. rewrite IH. cbn [Nat.add]. do 3 f_equal. lia. }
  unfold axis_labels. rewrite (G n 0). rewrite <- map_app, <- seq_app. do 2 f_equal. lia.
Qed.
Lemma Forall2_nth_intro {A B} (R : A -> B -> Prop) da db : forall l1 l2, length l1 = length l2 ->
  (forall k, k < length l1 -> R (nth k l1 da) (nth k l2 db)) -> Forall2 R l1 l2.
Proof.
  induction l1 as [|x l1 IH]; intros [|y l2] L H; try discriminate; constructor; [apply (H 0); cbn; lia|].
  apply IH; [cbn in L; lia|]. intros k Hk. apply (H (S k)). cbn. lia.
Qed.

Section Rotate.
  Variable F : fld.
  Add Field Ffield14 : (fth F).
  Local Open Scope rng_scope.
  Variable method : option nat.
  Variable path_of : list (list nat) -> list nat -> list (arr F) -> list contraction.
  Hypothesis Hpath : proper_paths path_of.

  Lemma env_first outs L o v k : NoDup (outs ++ L) -> length o = length outs -> length v = length L -> (k < length outs)%nat ->
    env_of (outs ++ L) (o ++ v) (nth k outs 0%nat) = nth k o 0%nat.
  Proof.
    intros N Ho Hv Hk. assert (HLL : length (o ++ v) = length (outs ++ L)) by (rewrite !app_length; congruence).
    pose proof (@env_of_map (outs ++ L) (o ++ v) N HLL) as HM. apply (f_equal (fun l => nth k l 0%nat)) in HM.
    rewrite (nth_map_lt _ _ 0%nat 0%nat) in HM by (rewrite app_length; lia). rewrite !app_nth1 in HM by lia. exact HM.
  Qed.
  Lemma env_second outs L o v k : NoDup (outs ++ L) -> length o = length outs -> length v = length L -> (k < length L)%nat ->
    env_of (outs ++ L) (o ++ v) (nth k L 0%nat) = nth k v 0%nat.
  Proof.
    intros N Ho Hv Hk. assert (HLL : length (o ++ v) = length (outs ++ L)) by (rewrite !app_length; congruence).
    pose proof (@env_of_map (outs ++ L) (o ++ v) N HLL) as HM. apply (f_equal (fun l => nth (length outs + k) l 0%nat)) in HM.
    rewrite (nth_map_lt _ _ 0%nat 0%nat) in HM by (rewrite app_length; lia). rewrite !app_nth2 in HM by lia.
    replace (length outs + k - length outs)%nat with k in HM by lia. replace (length outs + k - length o)%nat with k in HM by lia. exact HM.
  Qed.
  Lemma combine_seq {A B} (f : nat -> A) (l : list B) d : forall n a, length l = n ->
    combine (map f (seq a n)) l = map (fun k => (f (a + k)%nat, nth k l d)) (seq 0 n).
  Proof.
    induction l as [|x l IH]; intros n a <-; [reflexivity|]. cbn [length seq map combine]. rewrite (IH (length l) (S a) eq_refl). rewrite <- (seq_shift (length l) 0), map_map. cbn [nth].
    rewrite Nat.add_0_r. f_equal. apply map_ext. intros k. do 2 f_equal. lia.
  Qed.

  Lemma rotate_ok n (x : arr F) (mats : list (arr F)) (mat : nat -> nat -> nat -> F) : (0 < n)%nat -> (n <= 13)%nat -> wf x -> length (shp x) = (n * 2)%nat -> length mats = (n * 2)%nat ->
    (forall k, (k < n * 2)%nat -> matrix (nth k (shp x) 0%nat) (nth k (shp x) 0%nat) (nth k mats (full [] 0)) /\
       forall i j, (i < nth k (shp x) 0)%nat -> (j < nth k (shp x) 0)%nat -> el (nth k mats (full [] 0)) i j = mat k i j) ->
    exists y, rotate F method path_of n x mats = Ok y /\ rotated mat x y.
  Proof.
    intros Hn0 Hn Wx Lx Lm HM. set (m := (n * 2)%nat) in *. set (s := shp x) in *.
    set (sz := fun c => nth (if (c <? m)%nat then c else (c - m)%nat) s 0%nat).
    set (subs := seq 0 m :: axis_labels n). set (out := seq m m).
    assert (Esub : subs = seq 0 m :: map (fun k => [k; (k + m)%nat]) (seq 0 m)) by (unfold subs; rewrite axis_labels_alt; reflexivity).
    assert (S1 : map sz (seq 0 m) = s).
    { apply nth_ext with (d := 0%nat) (d' := 0%nat); [rewrite map_length, seq_length; congruence|]. intros k Hk. rewrite map_length, seq_length in Hk.
      rewrite nth_map_seq by exact Hk. unfold sz. destruct (k <? m)%nat eqn:E; [reflexivity|apply Nat.ltb_ge in E; lia]. }
    assert (S2 : map sz (seq m m) = s).
    { apply nth_ext with (d := 0%nat) (d' := 0%nat); [rewrite map_length, seq_length; congruence|]. intros k Hk. rewrite map_length, seq_length in Hk.
      rewrite (nth_map_lt _ _ 0%nat 0%nat) by (rewrite seq_length; exact Hk). rewrite seq_nth by exact Hk. unfold sz.
      destruct (m + k <? m)%nat eqn:E; [apply Nat.ltb_lt in E; lia|]. f_equal. lia. }
    assert (Hin : forall c, In c (concat subs) <-> (c < m + m)%nat).
    { intros c. rewrite Esub. cbn [concat]. rewrite in_app_iff, in_seq, <- flat_map_concat_map, in_flat_map. split.
      - intros [H|(k & Hk & H)]; [lia|]. apply in_seq in Hk. cbn in H. lia.
      - intros H. destruct (Nat.lt_ge_cases c m) as [H1|H1]; [left; lia|right]. exists (c - m)%nat. split; [apply in_seq; lia|]. cbn. lia. }
    assert (Sh : shapes_agree sz subs (x :: mats)).
    { rewrite Esub. constructor; [split; [exact Wx|]; fold s; symmetry; exact S1|].
      apply Forall2_nth_intro with (da := []) (db := full [] 0); [rewrite map_length, seq_length; congruence|]. intros k Hk. rewrite map_length, seq_length in Hk.
      rewrite nth_map_seq by exact Hk. destruct (HM k Hk) as [[W E] _]. split; [exact W|]. rewrite E. cbn [map]. unfold sz.
      destruct (k <? m)%nat eqn:E1; [|apply Nat.ltb_ge in E1; lia]. destruct (k + m <? m)%nat eqn:E2; [apply Nat.ltb_lt in E2; lia|].
      replace (k + m - m)%nat with k by lia. reflexivity. }
    destruct (@list_operands F sz subs (Some out) out (x :: mats)) as (r & (Wr & Sr & Gr) & Er); try exact Sh.
    - discriminate.
    - intros c Hc. apply Hin in Hc. unfold m in Hc. lia.
    - discriminate.
    - split; [reflexivity|]. split; [apply seq_NoDup|]. intros c Hc. apply Hin. unfold out in Hc. apply in_seq in Hc. lia.
    - exists r. split.
      + unfold rotate. replace (n * 4 - n * 2)%nat with m by (unfold m; lia). fold m. fold out. fold subs. apply Er. intros _. apply Hpath.
      + split; [exact Wr|]. unfold out in Sr. split; [rewrite Sr; exact S2|]. fold s. intros o Ho.
        assert (ND : NoDup (out ++ seq 0 m)).
        { unfold out. apply NoDup_app_intro; try apply seq_NoDup. intros c H1 H2. apply in_seq in H1. apply in_seq in H2. lia. }
        rewrite (Gr (seq 0 m)); [| |unfold out; rewrite S2; exact Ho].
        * rewrite S1. assert (C : forall a b : F, a = b -> 1 * a + 0 = b) by (intros a b ->; ring). apply C. apply rsum_map_ext. intros v Hv. apply all_idx_in in Hv.
          unfold product_term. rewrite Esub. cbn [combine map fst snd rprod fold_right]. 
          pose proof (inb_length Ho) as Lo. pose proof (inb_length Hv) as Lv.
          assert (Lo' : length o = length out) by (unfold out; rewrite seq_length; congruence).
          assert (Lv' : length v = length (seq 0 m)) by (rewrite seq_length; congruence).
          f_equal.
          -- f_equal. apply nth_ext with (d := 0%nat) (d' := 0%nat); [rewrite map_length; congruence|]. intros k Hk. rewrite map_length, seq_length in Hk.
             rewrite (nth_map_lt _ _ 0%nat 0%nat) by (rewrite seq_length; exact Hk). apply env_second; try assumption. rewrite seq_length. exact Hk.
          -- rewrite (@combine_seq _ _ (fun k => [k; (k + m)%nat]) mats (full [] 0)) by exact Lm. rewrite map_map. fold (@rprod F). rewrite Lx.
             unfold rprod. f_equal. apply map_ext_in. intros k Hk. apply in_seq in Hk. cbn [fst snd map Nat.add].
             assert (E1 : env_of (out ++ seq 0 m) (o ++ v) k = nth k v 0%nat).
             { rewrite <- (@env_second out (seq 0 m) o v k ND Lo' Lv') by (rewrite seq_length; lia). f_equal. rewrite seq_nth by lia. reflexivity. }
             assert (E2 : env_of (out ++ seq 0 m) (o ++ v) (k + m)%nat = nth k o 0%nat).
             { rewrite <- (@env_first out (seq 0 m) o v k ND Lo' Lv') by (unfold out; rewrite seq_length; lia). f_equal. unfold out. rewrite seq_nth by lia. lia. }
             rewrite E1, E2. destruct (HM k) as [_ G]; [lia|]. apply G; [apply inb_nth; [exact Hv|lia]|apply inb_nth; [exact Ho|lia]].
        * split; [apply seq_NoDup|]. intros c. rewrite Hin, in_seq. unfold out. rewrite in_seq. lia.
  Qed.
End Rotate.
