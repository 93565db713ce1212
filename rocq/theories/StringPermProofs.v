(** Proofs about get_string_permutation / permute_string. *)
From Verif Require Import Base ListAux PermSpec PermModel.
From Coq Require Import Sorted.
Set Implicit Arguments.



Definition pos_of (tbl : dict nat (list nat)) (c : nat) : list nat :=
  match dget Nat.eq_dec c tbl with Some l => l | None => [] end.

Fixpoint occ (i : nat) (s : list nat) (c : nat) : list nat :=
  match s with [] => [] | x :: s' => if Nat.eq_dec x c then i :: occ (S i) s' c else occ (S i) s' c end.

Lemma char_positions_spec s i tbl c : pos_of (char_positions i s tbl) c = pos_of tbl c ++ occ i s c.
Proof.
  revert i tbl; induction s as [|x s IH]; intros i tbl; cbn [char_positions occ].
  - rewrite app_nil_r. reflexivity.
  - rewrite IH. unfold pos_of at 1 2. rewrite dget_dset.
    destruct (Nat.eq_dec c x) as [->|Hne].
    + destruct (Nat.eq_dec x x); [|congruence]. fold (pos_of tbl x). rewrite <- app_assoc. reflexivity.
    + destruct (Nat.eq_dec x c); [congruence|]. reflexivity.
Qed.

Lemma occ_in s i c p : In p (occ i s c) <-> i <= p /\ nth_error s (p - i) = Some c.
Proof.
  revert i; induction s as [|x s IH]; intros i; cbn [occ].
  - split; [intros []|]. destruct (p - i); intros [_ H]; discriminate.
  - destruct (Nat.eq_dec x c) as [->|Hne]; cbn [In]; rewrite ?IH.
    + split.
      * intros [<-|[H1 H2]]; [rewrite Nat.sub_diag; auto|].
        split; [lia|]. replace (p - i) with (S (p - S i)) by lia. exact H2.
      * intros [H1 H2]. destruct (Nat.eq_dec i p) as [->|Hn]; [left; reflexivity|right].
        split; [lia|]. replace (p - i) with (S (p - S i)) in H2 by lia. exact H2.
    + split.
      * intros [H1 H2]. split; [lia|]. replace (p - i) with (S (p - S i)) by lia. exact H2.
      * intros [H1 H2]. destruct (Nat.eq_dec i p) as [->|Hn].
        -- rewrite Nat.sub_diag in H2. cbn in H2. congruence.
        -- split; [lia|]. replace (p - i) with (S (p - S i)) in H2 by lia. exact H2.
Qed.

Lemma occ_sorted s i c : StronglySorted lt (occ i s c).
Proof.
  revert i; induction s as [|x s IH]; intros i; cbn [occ]; [constructor|].
  destruct (Nat.eq_dec x c); [|apply IH].
  constructor; [apply IH|]. apply Forall_forall. intros p Hp. apply occ_in in Hp. lia.
Qed.

Lemma occ_length s i c : length (occ i s c) = count_occ Nat.eq_dec s c.
Proof.
  revert i; induction s as [|x s IH]; intros i; cbn [occ count_occ]; [reflexivity|].
  destruct (Nat.eq_dec x c); cbn; rewrite IH; reflexivity.
Qed.

Lemma take_positions_ok t tbl :
  (forall c, count_occ Nat.eq_dec t c <= length (pos_of tbl c)) -> exists r, take_positions t tbl = Ok r.
Proof.
  revert tbl; induction t as [|x t IH]; intros tbl Hc; cbn [take_positions]; [eauto|].
  pose proof (Hc x) as Hx. cbn in Hx. destruct (Nat.eq_dec x x); [|congruence].
  unfold pos_of in Hx. destruct (dget Nat.eq_dec x tbl) as [[|p ps]|] eqn:E; cbn in Hx; try lia.
  destruct (IH (dset Nat.eq_dec x ps tbl)) as [r Hr].
  - intros c. unfold pos_of. rewrite dget_dset. destruct (Nat.eq_dec c x) as [->|Hne]; [lia|].
    specialize (Hc c). cbn in Hc. destruct (Nat.eq_dec x c); [congruence|]. exact Hc.
  - rewrite Hr. eauto.
Qed.

Lemma take_positions_err t tbl r : take_positions t tbl = Ok r ->
  forall c, count_occ Nat.eq_dec t c <= length (pos_of tbl c).
Proof.
  revert tbl r; induction t as [|x t IH]; intros tbl r H c; cbn [take_positions count_occ] in *; [lia|].
  destruct (dget Nat.eq_dec x tbl) as [[|p ps]|] eqn:E; try discriminate.
  destruct (take_positions t (dset Nat.eq_dec x ps tbl)) as [r'|] eqn:E'; [|discriminate].
  specialize (IH _ _ E' c). unfold pos_of in *. rewrite dget_dset in IH.
  destruct (Nat.eq_dec c x) as [->|Hne].
  - rewrite E. destruct (Nat.eq_dec x x); cbn; lia.
  - destruct (Nat.eq_dec x c); [congruence|]. exact IH.
Qed.

Definition tbl_ok (s : list nat) tbl : Prop :=
  forall c, StronglySorted lt (pos_of tbl c) /\ forall p, In p (pos_of tbl c) -> nth_error s p = Some c.

Lemma tbl_ok_init s : tbl_ok s (char_positions 0 s []).
Proof.
  intros c. rewrite char_positions_spec. cbn. split; [apply occ_sorted|].
  intros p Hp. apply occ_in in Hp. rewrite Nat.sub_0_r in Hp. tauto.
Qed.

Lemma take_positions_spec s t tbl r : tbl_ok s tbl -> take_positions t tbl = Ok r ->
  Forall2 (fun c p => In p (pos_of tbl c)) t r /\ NoDup r /\
  (forall i j, i < j -> j < length t -> nth i t 0 = nth j t 0 -> nth i r 0 < nth j r 0).
Proof.
  revert tbl r; induction t as [|x t IH]; intros tbl r Hok H; cbn [take_positions] in *.
  - injection H as <-. repeat split; [constructor|constructor|cbn; intros; lia].
  - destruct (dget Nat.eq_dec x tbl) as [[|p ps]|] eqn:E; try discriminate.
    destruct (take_positions t (dset Nat.eq_dec x ps tbl)) as [r'|] eqn:E'; [|discriminate].
    injection H as <-.
    assert (Ex : pos_of tbl x = p :: ps) by (unfold pos_of; rewrite E; reflexivity).
    assert (Hget : forall c, pos_of (dset Nat.eq_dec x ps tbl) c = if Nat.eq_dec c x then ps else pos_of tbl c).
    { intros c. unfold pos_of. rewrite dget_dset. destruct (Nat.eq_dec c x); reflexivity. }
    pose proof (Hok x) as [Hsx Hmx]. rewrite Ex in Hsx, Hmx.
    inversion Hsx as [|? ? Hsps Hlt]; subst. rewrite Forall_forall in Hlt.
    destruct (IH _ _ (ltac:(
      intros c; rewrite Hget; destruct (Nat.eq_dec c x) as [->|];
        [split; [exact Hsps|intros q Hq; apply Hmx; right; exact Hq]|apply Hok])
      : tbl_ok s (dset Nat.eq_dec x ps tbl)) E') as (HF & Hnd & Hst).
    assert (Hlen : length r' = length t) by (clear -HF; induction HF; cbn; auto).
    assert (Hnth : forall j, j < length t -> In (nth j r' 0) (pos_of (dset Nat.eq_dec x ps tbl) (nth j t 0))).
    { clear -HF. induction HF as [|c q t r Hq HF IHF]; intros j Hj; cbn in *; [lia|].
      destruct j; [exact Hq|]. apply IHF. lia. }
    repeat split.
    + constructor; [rewrite Ex; left; reflexivity|].
      clear -HF Hget Ex. induction HF as [|c q t r Hq HF IHF]; constructor; [|exact IHF].
      rewrite Hget in Hq. destruct (Nat.eq_dec c x) as [->|]; [rewrite Ex; right|]; exact Hq.
    + constructor; [|exact Hnd]. intros Hin.
      apply In_nth with (d := 0) in Hin as (j & Hj & Hjp). rewrite Hlen in Hj.
      specialize (Hnth j Hj). rewrite Hjp, Hget in Hnth.
      destruct (Nat.eq_dec (nth j t 0) x) as [He|He].
      * specialize (Hlt p Hnth). lia.
      * apply Hok in Hnth. rewrite (Hmx p (or_introl eq_refl)) in Hnth. congruence.
    + intros i j Hij Hj Heq. destruct j as [|j]; [lia|]. cbn in Hj. destruct i as [|i]; cbn [nth] in *.
      * specialize (Hnth j ltac:(lia)). rewrite Hget in Hnth.
        destruct (Nat.eq_dec (nth j t 0) x) as [He|He]; [apply Hlt; exact Hnth|congruence].
      * apply Hst; [lia|lia|exact Heq].
Qed.

Lemma Forall2_mapM {A B} (f : A -> result B) l r : Forall2 (fun y x => f x = Ok y) r l -> mapM f l = Ok r.
Proof. induction 1 as [|y x r l Hxy H IH]; cbn; [reflexivity|]. rewrite Hxy, IH. reflexivity. Qed.

Lemma gsp_sound s t r : get_string_permutation s t = Ok r ->
  permute_string s r = Ok t /\ NoDup r /\ length r = length t /\ (forall p, In p r -> p < length s) /\
  (forall i j, i < j -> j < length t -> nth i t 0 = nth j t 0 -> nth i r 0 < nth j r 0).
Proof.
  intros H. destruct (take_positions_spec t (tbl_ok_init s) H) as (HF & Hnd & Hst).
  assert (HF' : Forall2 (fun c p => nth_error s p = Some c) t r).
  { clear -HF. induction HF as [|c p t r Hp HF IH]; constructor; [|exact IH]. apply (tbl_ok_init s c). exact Hp. }
  repeat split.
  - apply Forall2_mapM. clear -HF'. induction HF' as [|c p t r Hp HF IH]; constructor; [rewrite Hp; reflexivity|exact IH].
  - exact Hnd.
  - clear -HF. induction HF; cbn; auto.
  - intros p Hp. apply nth_error_Some. clear -HF' Hp. induction HF' as [|c q t r Hq HF IH]; [destruct Hp|].
    destruct Hp as [<-|Hp]; [congruence|auto].
  - exact Hst.
Qed.

Lemma gsp_ok_iff s t :
  (exists r, get_string_permutation s t = Ok r) <-> (forall c, count_occ Nat.eq_dec t c <= count_occ Nat.eq_dec s c).
Proof.
  assert (HL : forall c, length (pos_of (char_positions 0 s []) c) = count_occ Nat.eq_dec s c).
  { intros c. rewrite char_positions_spec. cbn. apply occ_length. }
  split.
  - intros [r H] c. rewrite <- HL. apply (take_positions_err _ _ H).
  - intros H. apply take_positions_ok. intros c. rewrite HL. apply H.
Qed.

Lemma gsp_perm s t : Permutation s t -> exists r, get_string_permutation s t = Ok r /\
  Permutation (seq 0 (length s)) r /\ permute_string s r = Ok t.
Proof.
  intros HP. destruct (proj2 (gsp_ok_iff s t)) as [r Hr].
  { intros c. rewrite (Permutation_count_occ Nat.eq_dec) in HP. rewrite (HP c). reflexivity. }
  exists r. destruct (gsp_sound _ _ Hr) as (Hp & Hnd & Hlen & Hlt & _). repeat split; [exact Hr| |exact Hp].
  symmetry. apply NoDup_Permutation_bis; [exact Hnd| |].
  - rewrite seq_length, Hlen, (Permutation_length HP). reflexivity.
  - intros p Hin. apply in_seq. specialize (Hlt p Hin). lia.
Qed.

Lemma permute_string_ok s p : (forall i, In i p -> i < length s) <-> exists t, permute_string s p = Ok t.
Proof.
  unfold permute_string. induction p as [|i p IH]; cbn [mapM]; [split; [eauto|intros _ i []]|].
  split.
  - intros H. destruct (proj1 IH (fun j Hj => H j (or_intror Hj))) as [t Ht].
    destruct (nth_error s i) as [c|] eqn:E.
    + rewrite Ht. eauto.
    + apply nth_error_None in E. specialize (H i (or_introl eq_refl)). lia.
  - destruct (nth_error s i) as [c|] eqn:E; [|intros [t Ht]; discriminate].
    destruct (mapM _ p) as [t'|] eqn:E'; [|intros [t Ht]; discriminate].
    intros _ j [<-|Hj].
    + apply nth_error_Some. congruence.
    + apply IH; eauto.
Qed.
