(** Generic list lemmas. *)
From Verif Require Import Base.
Set Implicit Arguments.

Lemma NoDup_app_intro {A} (l1 l2 : list A) : NoDup l1 -> NoDup l2 ->
  (forall x, In x l1 -> In x l2 -> False) -> NoDup (l1 ++ l2).
Proof.
  induction l1 as [|x l1 IH]; intros H1 H2 Hd; cbn; [exact H2|].
  inversion H1 as [|? ? Hx Hl]; subst. constructor.
  - rewrite in_app_iff. intros [H|H]; [contradiction|]. apply (Hd x); [left; reflexivity|exact H].
  - apply IH; auto. intros y Hy Hy2. apply (Hd y); [right; exact Hy|exact Hy2].
Qed.

Lemma NoDup_flat_map_intro {A B} (f : A -> list B) l :
  NoDup l -> (forall x, In x l -> NoDup (f x)) ->
  (forall x y b, In x l -> In y l -> In b (f x) -> In b (f y) -> x = y) ->
  NoDup (flat_map f l).
Proof.
  induction l as [|x l IH]; intros Hnd Hf Hdisj; cbn; [constructor|].
  inversion Hnd as [|? ? Hx Hl]; subst.
  apply NoDup_app_intro.
  - apply Hf; left; reflexivity.
  - apply IH; [exact Hl| |].
    + intros y Hy. apply Hf. right; exact Hy.
    + intros y z b Hy Hz. apply Hdisj; right; assumption.
  - intros b Hb Hb'. apply in_flat_map in Hb' as (y & Hy & Hb').
    assert (x = y) by (apply (Hdisj x y b); [left; reflexivity|right; exact Hy|exact Hb|exact Hb']).
    subst. contradiction.
Qed.

Lemma NoDup_map_inj {A B} (f : A -> B) l : NoDup l ->
  (forall x y, In x l -> In y l -> f x = f y -> x = y) -> NoDup (map f l).
Proof.
  induction l as [|x l IH]; intros Hnd Hinj; cbn; [constructor|].
  inversion Hnd as [|? ? Hx Hl]; subst. constructor.
  - rewrite in_map_iff. intros (y & Hy & Hin). apply Hx.
    replace x with y; [exact Hin|]. apply Hinj; [right; exact Hin|left; reflexivity|exact Hy].
  - apply IH; [exact Hl|]. intros y z Hy Hz. apply Hinj; right; assumption.
Qed.

Lemma map_nth_seq {A} (d : A) l : map (fun i => nth i l d) (seq 0 (length l)) = l.
Proof.
  induction l as [|x l IH]; cbn; [reflexivity|]. rewrite <- seq_shift, map_map. cbn. rewrite IH. reflexivity.
Qed.

Lemma flat_map_length_const {A B} (f : A -> list B) l n : (forall x, In x l -> length (f x) = n) ->
  length (flat_map f l) = length l * n.
Proof.
  induction l as [|x l IH]; intros H; cbn; [reflexivity|].
  rewrite app_length, (H x (or_introl eq_refl)), IH; [reflexivity|].
  intros y Hy. apply H. right; exact Hy.
Qed.

Section DictLemmas.
  Variables (K V : Type) (eqd : forall x y : K, {x = y} + {x <> y}).
  Lemma dget_dset (k k' : K) (v : V) d :
    dget eqd k (dset eqd k' v d) = if eqd k k' then Some v else dget eqd k d.
  Proof.
    induction d as [|[k0 v0] d IH]; cbn.
    - destruct (eqd k k'); reflexivity.
    - destruct (eqd k' k0) as [->|Hne]; cbn.
      + destruct (eqd k k0); reflexivity.
      + rewrite IH. destruct (eqd k k0) as [->|]; [|reflexivity].
        destruct (eqd k0 k'); [congruence|reflexivity].
  Qed.
  Lemma dget_ddel_same (k : K) (d : dict K V) : NoDup (dkeys d) -> dget eqd k (ddel eqd k d) = None.
  Proof.
    induction d as [|[k0 v0] d IH]; cbn; intros Hnd; [reflexivity|].
    inversion Hnd as [|? ? Hx Hl]; subst. destruct (eqd k k0) as [->|Hne]; cbn.
    - clear IH Hnd Hl. induction d as [|[k1 v1] d IH]; cbn in *; [reflexivity|].
      destruct (eqd k0 k1); [subst; exfalso; apply Hx; left; reflexivity|]. apply IH. tauto.
    - destruct (eqd k k0); [congruence|]. apply IH; exact Hl.
  Qed.
  Lemma dget_in (k : K) (v : V) d : dget eqd k d = Some v -> In (k, v) d.
  Proof.
    induction d as [|[k0 v0] d IH]; cbn; [discriminate|].
    destruct (eqd k k0) as [->|]; [intros H; injection H as <-; left; reflexivity|auto].
  Qed.
  Lemma dget_none (k : K) (d : dict K V) : dget eqd k d = None <-> ~ In k (dkeys d).
  Proof.
    induction d as [|[k0 v0] d IH]; cbn; [tauto|].
    destruct (eqd k k0) as [->|]; [|rewrite IH; intuition congruence].
    split; [discriminate|tauto].
  Qed.
  Lemma dkeys_dset_in (k : K) (v : V) d : In k (dkeys d) -> dkeys (dset eqd k v d) = dkeys d.
  Proof.
    induction d as [|[k0 v0] d IH]; cbn; [tauto|].
    destruct (eqd k k0) as [->|Hne]; cbn; [reflexivity|].
    intros [H|H]; [congruence|]. f_equal. apply IH; exact H.
  Qed.
  Lemma dkeys_dset_new (k : K) (v : V) d : ~ In k (dkeys d) -> dkeys (dset eqd k v d) = dkeys d ++ [k].
  Proof.
    induction d as [|[k0 v0] d IH]; cbn; [reflexivity|].
    destruct (eqd k k0) as [->|Hne]; cbn; [intros H; exfalso; apply H; left; reflexivity|].
    intros H. f_equal. apply IH. tauto.
  Qed.
  Lemma dset_nodup (k : K) (v : V) d : NoDup (dkeys d) -> NoDup (dkeys (dset eqd k v d)).
  Proof.
    intros H. destruct (in_dec eqd k (dkeys d)) as [Hi|Hi].
    - rewrite dkeys_dset_in; assumption.
    - rewrite dkeys_dset_new by exact Hi. apply NoDup_app_intro; [exact H|repeat constructor; intros []|].
      intros x Hx [<-|[]]. contradiction.
  Qed.
End DictLemmas.

Lemma NoDup_app_inv {A} (l1 l2 : list A) : NoDup (l1 ++ l2) ->
  NoDup l1 /\ NoDup l2 /\ forall x, In x l1 -> In x l2 -> False.
Proof.
  induction l1 as [|x l1 IH]; cbn; intros H; [repeat split; [constructor|exact H|intros x []]|].
  inversion H as [|? ? Hx Hl]; subst. destruct (IH Hl) as (H1 & H2 & H3). repeat split; [|exact H2|].
  - constructor; [|exact H1]. intros Hin. apply Hx, in_or_app. left; exact Hin.
  - intros y [<-|Hy] Hy2; [apply Hx, in_or_app; right; exact Hy2|apply (H3 y); assumption].
Qed.

Lemma Forall2_len {A B} (R : A -> B -> Prop) l1 l2 : Forall2 R l1 l2 -> length l1 = length l2.
Proof. induction 1; cbn; congruence. Qed.
